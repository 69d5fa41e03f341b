(** * ListProofs: SequenceList. *)
From Verif Require Export LinkProofs.
Open Scope Z_scope.

Section WithEnv.
Context `{Env}.

(** ** Sorting *)
Lemma all_some_map {A B} (f : A -> option B) l :
  (forall x, In x l -> exists b, f x = Some b) ->
  exists r, all_some (map f l) = Some r /\ map f l = map Some r.
Proof.
  induction l as [|x l IH]; intros Hk; simpl; [exists []; auto|].
  destruct (Hk x) as [b Hb]; [simpl; auto|]. rewrite Hb.
  destruct IH as (r & -> & E); [intros; apply Hk; simpl; auto|].
  exists (b :: r). rewrite E. auto.
Qed.
Lemma all_some_inv {A} (l : list (option A)) r : all_some l = Some r -> l = map Some r.
Proof.
  revert r; induction l as [|x l IH]; intros r; simpl; [intros [= <-]; auto|].
  destruct x; [|discriminate]. destruct (all_some l); [|discriminate].
  intros [= <-]. simpl. f_equal. auto.
Qed.
Lemma all_some_Some {A} (r : list A) : all_some (map Some r) = Some r.
Proof. induction r; simpl; [auto|]. rewrite IHr. auto. Qed.
Lemma all_some_length {A} (l : list (option A)) r : all_some l = Some r -> List.length r = List.length l.
Proof. intros ->%all_some_inv. rewrite map_length. auto. Qed.

Lemma le_adj_true l : le_adj l = Some true -> forall i j a b, (i < j)%nat ->
  nth_error l i = Some a -> nth_error l j = Some b ->
  exists s t, a = Some s /\ b = Some t /\ s <= t.
Proof.
  induction l as [|x l IH]; intros Hle i j a b Hij Ha Hb; [destruct i; discriminate|].
  destruct l as [|y l].
  { destruct j as [|[|j]]; simpl in Hb; [lia|discriminate|discriminate]. }
  change (le_adj (x :: y :: l)) with
    (match x, y, le_adj (y :: l) with
     | Some a, Some b, Some r => Some ((a <=? b) && r) | _, _, _ => None end) in Hle.
  destruct x as [xs|]; [|discriminate]. destruct y as [ys|]; [|discriminate].
  destruct (le_adj (Some ys :: l)) as [r|] eqn:El; [|discriminate].
  injection Hle as Hle. apply andb_true_iff in Hle. destruct Hle as [Hxy Hr]. subst r.
  apply Z.leb_le in Hxy.
  destruct j as [|j]; [lia|]. destruct i as [|i].
  - simpl in Ha. injection Ha as <-. simpl in Hb.
    destruct j as [|j].
    + simpl in Hb. injection Hb as <-. eauto 6.
    + destruct (IH eq_refl 0%nat (S j) (Some ys) b) as (s & t & E1 & E2 & E3); auto; [lia|].
      injection E1 as <-. exists xs, t. repeat split; auto. lia.
  - apply (IH eq_refl i j); auto. lia.
Qed.

Lemma le_adj_total r : exists b, le_adj (map Some r) = Some b.
Proof.
  induction r as [|x r IH]; [exists true; reflexivity|].
  destruct r as [|y r]; [exists true; reflexivity|].
  destruct IH as [b Hb]. exists ((x <=? y) && b).
  change (match le_adj (map Some (y :: r)) with Some r0 => Some ((x <=? y) && r0) | None => None end
          = Some ((x <=? y) && b)). rewrite Hb. reflexivity.
Qed.
Lemma le_adj_sorted r :
  (forall i j a b, (i < j)%nat -> nth_error r i = Some a -> nth_error r j = Some b -> a <= b) ->
  le_adj (map Some r) = Some true.
Proof.
  induction r as [|x r IH]; intros Hs; [reflexivity|].
  destruct r as [|y r]; [reflexivity|].
  change (match le_adj (map Some (y :: r)) with Some r0 => Some ((x <=? y) && r0) | None => None end
          = Some true).
  rewrite IH.
  - rewrite (proj2 (Z.leb_le x y)); [reflexivity|]. apply (Hs 0%nat 1%nat); auto.
  - intros i j a b Hij Ha Hb. apply (Hs (S i) (S j)); auto. lia.
Qed.

Lemma pick_map {A} (l : list A) d idx : (forall i, In i idx -> (i < List.length l)%nat) ->
  pick l idx = map (fun i => nth i l d) idx.
Proof.
  induction idx as [|i idx IH]; intros Hr; simpl; [auto|].
  destruct (nth_error l i) eqn:E.
  - rewrite IH by (intros; apply Hr; simpl; auto).
    rewrite (nth_error_nth _ _ _ E). auto.
  - apply nth_error_None in E. specialize (Hr i (or_introl eq_refl)). lia.
Qed.
Lemma map_nth_seq_id {A} (l : list A) d : map (fun i => nth i l d) (seq 0 (List.length l)) = l.
Proof.
  induction l as [|x l IH]; simpl; [auto|]. f_equal.
  rewrite <- seq_shift, map_map. auto.
Qed.
Lemma pick_perm {A} (l : list A) idx :
  Permutation idx (seq 0 (List.length l)) -> Permutation (pick l idx) l.
Proof.
  intros Hp. destruct l as [|x l].
  { simpl in Hp. apply Permutation_sym, Permutation_nil in Hp. subst. constructor. }
  rewrite (pick_map _ x).
  - rewrite Hp. rewrite map_nth_seq_id. auto.
  - intros i Hi. apply (Permutation_in _ Hp) in Hi. apply in_seq in Hi. lia.
Qed.

Lemma sl_sort_shape l h :
  (exists l', sl_sort l h = Ok l' h) \/ sl_sort l h = Raise TypeError h.
Proof.
  unfold sl_sort. destruct l; [eauto|].
  destruct (le_adj _) as [[]|]; eauto. destruct (all_some _); eauto.
Qed.

Lemma known_starts_all h l : known_starts h l ->
  exists st, all_some (starts_of h l) = Some st /\ starts_of h l = map Some st.
Proof. intros Hk. unfold starts_of. apply all_some_map. exact Hk. Qed.

Lemma sl_sort_spec h l : known_starts h l ->
  exists l', sl_sort l h = Ok l' h /\ Permutation l' l /\ sorted_starts h l' /\
             (sorted_starts h l -> l' = l).
Proof.
  intros Hk. destruct (known_starts_all h l Hk) as (st & Hst & Est).
  destruct l as [|x0 l0].
  { exists []. simpl. repeat split; auto. intros i j a b _ Ha. destruct i; discriminate. }
  set (l := x0 :: l0) in *.
  assert (Hlen : List.length st = List.length l).
  { apply all_some_length in Hst. unfold starts_of in Hst. rewrite map_length in Hst. auto. }
  assert (Hnth : forall i a, nth_error l i = Some a -> exists s, nth_error st i = Some s /\ s_start (sob h a) = Some s).
  { intros i a Ha. assert (E : nth_error (starts_of h l) i = Some (start_of h a)).
    { unfold starts_of. apply map_nth_error. auto. }
    rewrite Est in E. rewrite nth_error_map in E.
    destruct (nth_error st i) as [s|] eqn:Es; simpl in E; [|discriminate].
    injection E as E. exists s. unfold start_of in E. auto. }
  unfold sl_sort. fold l.
  change (match l with [] => Ok [] h | _ :: _ =>
    match le_adj (starts_of h l) with
    | None => Raise TypeError h
    | Some true => Ok l h
    | Some false => match all_some (starts_of h l) with None => Raise TypeError h
                    | Some st => Ok (pick l (argsort st)) h end end end)
   with (match le_adj (starts_of h l) with
    | None => Raise TypeError h
    | Some true => Ok l h
    | Some false => match all_some (starts_of h l) with None => Raise TypeError h
                    | Some st => Ok (pick l (argsort st)) h end end).
  rewrite Hst, Est.
  destruct (le_adj_total st) as [b Hb]. rewrite Hb. destruct b.
  - exists l. repeat split; auto. intros i j a b Hij Ha Hb'.
    destruct (Hnth i a Ha) as (s & Hs1 & Hs2). destruct (Hnth j b Hb') as (t & Ht1 & Ht2).
    destruct (le_adj_true _ Hb i j (Some s) (Some t)) as (s' & t' & E1 & E2 & E3); auto.
    + rewrite nth_error_map, Hs1. auto.
    + rewrite nth_error_map, Ht1. auto.
    + exists s, t. repeat split; auto. congruence.
  - assert (Hperm : Permutation (argsort st) (seq 0 (List.length l))).
    { rewrite <- Hlen. apply argsort_perm. }
    assert (Hr : forall i, In i (argsort st) -> (i < List.length l)%nat).
    { intros i Hi. apply (Permutation_in _ Hperm) in Hi. apply in_seq in Hi. lia. }
    exists (pick l (argsort st)). split; [reflexivity|]. split; [apply pick_perm; auto|]. split.
    + intros i j a b0 Hij Ha Hb'. rewrite (pick_map l x0) in Ha, Hb' by auto.
      rewrite nth_error_map in Ha, Hb'.
      destruct (nth_error (argsort st) i) as [pi|] eqn:Ei; simpl in Ha; [|discriminate].
      destruct (nth_error (argsort st) j) as [pj|] eqn:Ej; simpl in Hb'; [|discriminate].
      injection Ha as <-. injection Hb' as <-.
      assert (Hpi := Hr pi (nth_error_In _ _ Ei)). assert (Hpj := Hr pj (nth_error_In _ _ Ej)).
      destruct (Hnth pi (nth pi l x0)) as (s & Hs1 & Hs2); [apply nth_error_nth'; auto|].
      destruct (Hnth pj (nth pj l x0)) as (t & Ht1 & Ht2); [apply nth_error_nth'; auto|].
      exists s, t. repeat split; auto.
      assert (Hj : (j < List.length st)%nat).
      { rewrite Hlen. apply Permutation_length in Hperm. rewrite seq_length in Hperm.
        rewrite <- Hperm. apply nth_error_Some. congruence. }
      pose proof (argsort_sorts st i j (conj Hij Hj)) as Hle.
      rewrite (nth_error_nth _ _ _ Ei), (nth_error_nth _ _ _ Ej) in Hle.
      rewrite (nth_error_nth _ _ _ Hs1), (nth_error_nth _ _ _ Ht1) in Hle. auto.
    + intros Hs. exfalso. rewrite le_adj_sorted in Hb; [discriminate|].
      intros i j a b0 Hij Ha Hb'.
      assert (exists x, nth_error l i = Some x) as [x Hx].
      { destruct (nth_error l i) eqn:E; [eauto|]. apply nth_error_None in E.
        apply nth_error_Some_lt in Ha || (assert (i < List.length st)%nat by (apply nth_error_Some; congruence)). lia. }
      assert (exists y, nth_error l j = Some y) as [y Hy].
      { destruct (nth_error l j) eqn:E; [eauto|]. apply nth_error_None in E.
        assert (j < List.length st)%nat by (apply nth_error_Some; congruence). lia. }
      destruct (Hs i j x y Hij Hx Hy) as (s & t & E1 & E2 & E3).
      destruct (Hnth i x Hx) as (s' & A1 & A2). destruct (Hnth j y Hy) as (t' & B1 & B2).
      congruence.
Qed.

(** ** Constructor *)
Definition same_class (h : heap) (c : cid) (l : list oid) : Prop :=
  forall x, In x l -> s_cls (sob h x) = c.

Lemma all_same_true h c l : same_class h c l -> all_same (classes_of h l) = true.
Proof.
  destruct l as [|x l]; intros Hs; [reflexivity|]. unfold classes_of, all_same; simpl.
  apply forallb_forall. intros y Hy. apply in_map_iff in Hy. destruct Hy as (o & <- & Ho).
  apply Nat.eqb_eq. rewrite (Hs x), (Hs o); simpl; auto.
Qed.
Lemma all_same_false h l x y : In x l -> In y l -> s_cls (sob h x) <> s_cls (sob h y) ->
  all_same (classes_of h l) = false.
Proof.
  intros Hx Hy Hne. destruct (all_same (classes_of h l)) eqn:E; [|reflexivity]. exfalso. apply Hne.
  destruct l as [|z l]; [contradiction|]. unfold classes_of, all_same in E; simpl in E.
  rewrite forallb_forall in E.
  assert (A : forall w, In w (z :: l) -> s_cls (sob h w) = s_cls (sob h z)).
  { intros w [->|Hw]; [reflexivity|]. symmetry. apply Nat.eqb_eq, E. apply in_map_iff. eauto. }
  rewrite (A x Hx), (A y Hy). reflexivity.
Qed.

Lemma sl_init_spec h c l : same_class h c l -> known_starts h l ->
  exists l', sl_init l h = Ok (Slv l' (match l with [] => None | _ => Some c end)) h /\
             Permutation l' l /\ sorted_starts h l' /\ (sorted_starts h l -> l' = l).
Proof.
  intros Hc Hk. destruct (sl_sort_spec h l Hk) as (l' & E & P & S & I).
  exists l'. split; [|auto]. unfold sl_init. destruct l as [|x l].
  - apply Permutation_sym, Permutation_nil in P. subst. reflexivity.
  - rewrite (all_same_true h c) by auto. rewrite E. rewrite (Hc x) by (simpl; auto). reflexivity.
Qed.
Lemma sl_init_mixed h l x y : In x l -> In y l -> s_cls (sob h x) <> s_cls (sob h y) ->
  sl_init l h = Raise ValueError h.
Proof.
  intros Hx Hy Hne. unfold sl_init. destruct l; [contradiction|].
  rewrite (all_same_false h _ x y); auto.
Qed.
Lemma sl_init_frame h l : heap_of (sl_init l h) = h.
Proof.
  unfold sl_init. destruct l as [|x l]; [reflexivity|]. destruct (all_same _); [|reflexivity].
  destruct (sl_sort_shape (x :: l) h) as [[l' ->]| ->]; reflexivity.
Qed.

(** ** Addition *)
Definition known_ends (h : heap) (l : list oid) : Prop :=
  forall x, In x l -> exists e, end_of h x = Some e.

Lemma sl_add_same h w self other c :
  (sv_ec self = Some c \/ (sv_ec self = None /\ w = ONone)) ->
  same_class h c (sv_vals self) -> same_class h c other ->
  known_starts h (sv_vals self ++ other) -> known_ends h (sv_vals self ++ other) ->
  issubclass h c c = true ->
  let other' := List.filter (fun x => negb (sl_contains h (sv_vals self) x)) other in
  match other' with
  | [] => sl_add w self other h = Ok self h
  | _ => exists l', sl_add w self other h = Ok (Slv l' (Some c)) h /\
           Permutation l' (sv_vals self ++ other') /\ sorted_starts h l' /\
           (sorted_starts h (sv_vals self ++ other') -> l' = (sv_vals self ++ other')%list)
  end.
Proof.
  intros Hec Hs1 Hs2 Hks Hke Hcc other'.
  unfold sl_add. mstep. fold other'.
  destruct other' as [|x r] eqn:Eo; [reflexivity|].
  assert (Hin : forall y, In y (x :: r) -> In y other).
  { intros y Hy. rewrite <- Eo in Hy. apply filter_In in Hy. tauto. }
  mstep. rewrite (all_same_true h c) by (intros y Hy; auto).
  cbn [negb].
  mstep. mstep.
  rewrite (Hs2 x) by (apply Hin; simpl; auto).
  assert (Hok : match sv_ec self with None => true | Some ec => issubclass h c ec || issubclass h ec c end = true).
  { destruct Hec as [->|[-> _]]; [rewrite Hcc|]; reflexivity. }
  rewrite Hok. cbn [negb].
  assert (Hset : (match sv_ec self with None => set_owner_ec w c | Some _ => ret tt end) h = Ok tt h).
  { destruct Hec as [->|[-> ->]]; reflexivity. }
  rewrite (bind_ok _ _ _ _ _ Hset).
  assert (Hecc : match sv_ec self with None => c | Some e => e end = c) by (destruct Hec as [->|[-> _]]; auto).
  rewrite Hecc.
  set (nl := (sv_vals self ++ x :: r)%list).
  assert (Hnlc : same_class h c nl).
  { intros y Hy. apply in_app_iff in Hy. destruct Hy; auto. }
  assert (Hcast : forM nl (fun o => c0 <- gets (fun h0 => s_cls (sob h0 o));;
       (if Nat.eqb c0 c then ret tt else cast c o)) h = Ok tt h).
  { clear -Hnlc. induction nl as [|y nl IH]; [reflexivity|].
    cbn [forM]. mstep. mstep. rewrite (Hnlc y) by (simpl; auto). rewrite Nat.eqb_refl. mstep.
    apply IH. intros z Hz. apply Hnlc; simpl; auto. }
  rewrite (bind_ok _ _ _ _ _ Hcast).
  assert (Hknl : known_starts h nl).
  { intros y Hy. apply Hks. apply in_app_iff in Hy. apply in_app_iff. destruct Hy; auto. }
  assert (Henl : known_ends h nl).
  { intros y Hy. apply Hke. apply in_app_iff in Hy. apply in_app_iff. destruct Hy; auto. }
  destruct (sl_init_spec h c nl Hnlc Hknl) as (l' & E & P & S & I).
  rewrite (bind_ok _ _ _ _ _ E). simpl sv_vals. simpl sv_ec.
  assert (Hkl' : known_starts h l') by (intros y Hy; apply Hknl; eapply Permutation_in; eauto).
  assert (Hel' : known_ends h l') by (intros y Hy; apply Henl; eapply Permutation_in; eauto).
  destruct (sl_sort_spec h l' Hkl') as (l'' & E2 & P2 & S2 & I2).
  specialize (I2 S). subst l''.
  rewrite (bind_ok _ _ _ _ _ E2).
  assert (Hchk : exists b, sl_check_no_overlaps l' h = Ok b h).
  { unfold sl_check_no_overlaps.
    destruct (known_starts_all h l' Hkl') as (st & -> & _).
    destruct (all_some_map (end_of h) l' Hel') as (en & Een & _).
    unfold ends_of. rewrite Een. eauto. }
  destruct Hchk as [b Hchk]. rewrite (bind_ok _ _ _ _ _ Hchk).
  exists l'. split; [|auto].
  unfold ret. destruct nl eqn:En; [unfold nl in En; destruct (sv_vals self); discriminate|]. reflexivity.
Qed.

(** Errors of [+]. *)
Lemma sl_add_mixed h w self other x y :
  In x other -> In y other -> sl_contains h (sv_vals self) x = false ->
  sl_contains h (sv_vals self) y = false -> s_cls (sob h x) <> s_cls (sob h y) ->
  sl_add w self other h = Raise ValueError h.
Proof.
  intros Hx Hy Cx Cy Hne. unfold sl_add. mstep.
  set (o' := List.filter _ other).
  assert (Hx' : In x o') by (apply filter_In; rewrite Cx; auto).
  assert (Hy' : In y o') by (apply filter_In; rewrite Cy; auto).
  destruct o' as [|z r] eqn:Eo; [contradiction|].
  mstep. rewrite (all_same_false h _ x y); auto.
Qed.
Lemma sl_add_unrelated h w self other c ec :
  sv_ec self = Some ec -> same_class h c other ->
  (exists x, In x other /\ sl_contains h (sv_vals self) x = false) ->
  issubclass h c ec = false -> issubclass h ec c = false ->
  sl_add w self other h = Raise ValueError h.
Proof.
  intros Hec Hs (x & Hx & Cx) H1 H2. unfold sl_add. mstep.
  set (o' := List.filter _ other).
  assert (Hx' : In x o') by (apply filter_In; rewrite Cx; auto).
  assert (Hs' : same_class h c o').
  { intros y Hy. apply filter_In in Hy. apply Hs. tauto. }
  destruct o' as [|z r] eqn:Eo; [contradiction|].
  mstep. rewrite (all_same_true h c) by auto. cbn [negb].
  mstep. rewrite (Hs' z) by (simpl; auto).
  mstep. rewrite Hec, H1, H2. reflexivity.
Qed.

(** ** Append *)
Definition zsorted (a : list Z) : Prop :=
  forall i j, (i <= j < List.length a)%nat -> nth i a 0 <= nth j a 0.

Lemma bsearch_S f a v lo hi : bsearch (S f) a v lo hi =
  if (lo <? hi)%nat
  then if nth (lo + (hi - lo) / 2) a 0 <? v then bsearch f a v (S (lo + (hi - lo) / 2)) hi
       else bsearch f a v lo (lo + (hi - lo) / 2)
  else lo.
Proof. reflexivity. Qed.
Lemma bsearch_spec a v : zsorted a -> forall fuel lo hi,
  (hi - lo <= fuel)%nat -> (lo <= hi <= List.length a)%nat ->
  (forall i, (i < lo)%nat -> nth i a 0 < v) ->
  (forall i, (hi <= i < List.length a)%nat -> v <= nth i a 0) ->
  (lo <= bsearch (S fuel) a v lo hi <= hi)%nat /\
  (forall i, (i < bsearch (S fuel) a v lo hi)%nat -> nth i a 0 < v) /\
  (forall i, (bsearch (S fuel) a v lo hi <= i < List.length a)%nat -> v <= nth i a 0).
Proof.
  intros Hs. induction fuel as [|fuel IH]; intros lo hi Hf Hlh Hlo Hhi.
  - assert (lo = hi) by lia. subst. simpl. rewrite Nat.ltb_irrefl. simpl. repeat split; auto.
  - rewrite bsearch_S. destruct (lo <? hi)%nat eqn:El.
    + apply Nat.ltb_lt in El. set (mid := (lo + (hi - lo) / 2)%nat).
      assert (Hmid : (lo <= mid < hi)%nat).
      { unfold mid. assert ((hi - lo) / 2 < hi - lo)%nat by (apply Nat.div_lt; lia). lia. }
      destruct (nth mid a 0 <? v) eqn:Em.
      * apply Z.ltb_lt in Em.
        destruct (IH (S mid) hi) as (A & B & C); [lia|lia| |auto|].
        { intros i Hi. assert (nth i a 0 <= nth mid a 0) by (apply Hs; lia). lia. }
        split; [lia|auto].
      * apply Z.ltb_ge in Em.
        destruct (IH lo mid) as (A & B & C); [lia|lia|auto| |].
        { intros i Hi. assert (nth mid a 0 <= nth i a 0) by (apply Hs; lia). lia. }
        split; [lia|auto].
    + apply Nat.ltb_ge in El. assert (lo = hi) by lia. subst. repeat split; auto.
Qed.

Lemma searchsorted_spec a v : zsorted a ->
  let k := searchsorted a v in (k <= List.length a)%nat /\
  (forall i, (i < k)%nat -> nth i a 0 < v) /\
  (forall i, (k <= i < List.length a)%nat -> v <= nth i a 0).
Proof.
  intros Hs. unfold searchsorted.
  destruct (bsearch_spec a v Hs (List.length a) 0 (List.length a)) as (A & B & C); try lia.
  split; [lia|auto].
Qed.

Lemma insert_at_perm {A} i (x : A) l : Permutation (insert_at i x l) (x :: l).
Proof.
  unfold insert_at. rewrite <- Permutation_middle. rewrite firstn_skipn. auto.
Qed.
Lemma insert_at_lt {A} i (x : A) l j : (i <= List.length l)%nat -> (j < i)%nat ->
  nth_error (insert_at i x l) j = nth_error l j.
Proof.
  intros Hi Hj. unfold insert_at. rewrite nth_error_app1 by (rewrite firstn_length; lia).
  rewrite <- (firstn_skipn i l) at 2. rewrite nth_error_app1; [auto|rewrite firstn_length; lia].
Qed.
Lemma insert_at_eq {A} i (x : A) l : (i <= List.length l)%nat -> nth_error (insert_at i x l) i = Some x.
Proof.
  intros Hi. unfold insert_at. rewrite nth_error_app2 by (rewrite firstn_length; lia).
  rewrite firstn_length, Nat.min_l, Nat.sub_diag by lia. auto.
Qed.
Lemma insert_at_gt {A} i (x : A) l j : (i <= List.length l)%nat -> (i < j)%nat ->
  nth_error (insert_at i x l) j = nth_error l (j - 1).
Proof.
  intros Hi Hj. unfold insert_at. rewrite nth_error_app2 by (rewrite firstn_length; lia).
  rewrite firstn_length, Nat.min_l by lia.
  replace (j - i)%nat with (S (j - 1 - i))%nat by lia. simpl.
  rewrite <- (firstn_skipn i l) at 2. rewrite nth_error_app2 by (rewrite firstn_length; lia).
  rewrite firstn_length, Nat.min_l by lia. auto.
Qed.

(** Inserting at the found place keeps the list sorted. *)
Lemma insert_sorted h l st x v :
  starts_of h l = map Some st -> sorted_starts h l -> s_start (sob h x) = Some v ->
  sorted_starts h (insert_at (searchsorted st v) x l).
Proof.
  intros Est Hs Hx.
  assert (Hlen : List.length st = List.length l).
  { apply (f_equal (@List.length _)) in Est. unfold starts_of in Est. rewrite !map_length in Est. auto. }
  assert (Hnth : forall i a, nth_error l i = Some a -> (i < List.length st)%nat /\ s_start (sob h a) = Some (nth i st 0)).
  { intros i a Ha. assert (E : nth_error (starts_of h l) i = Some (start_of h a)).
    { unfold starts_of. apply map_nth_error. auto. }
    assert (Hi : (i < List.length st)%nat) by (rewrite Hlen; apply nth_error_Some; congruence).
    rewrite Est, nth_error_map, (nth_error_nth' st 0 Hi) in E. simpl in E.
    injection E as E. unfold start_of in E. auto. }
  assert (Hz : zsorted st).
  { intros i j Hij. destruct (Nat.eq_dec i j) as [->|Hne]; [lia|].
    destruct (nth_error l i) as [a|] eqn:Ea; [|apply nth_error_None in Ea; lia].
    destruct (nth_error l j) as [b|] eqn:Eb; [|apply nth_error_None in Eb; lia].
    destruct (Hs i j a b) as (s & t & A & B & C); auto; [lia|].
    destruct (Hnth i a Ea) as [_ A']. destruct (Hnth j b Eb) as [_ B'].
    rewrite A in A'. rewrite B in B'. injection A' as <-. injection B' as <-. auto. }
  destruct (searchsorted_spec st v Hz) as (Hk & Hlt & Hge).
  set (k := searchsorted st v) in *.
  intros i j a b Hij Ha Hb.
  destruct (lt_eq_lt_dec i k) as [[Hik| ->]|Hik].
  - rewrite insert_at_lt in Ha by lia. destruct (Hnth i a Ha) as [Hi Ea].
    destruct (lt_eq_lt_dec j k) as [[Hjk| ->]|Hjk].
    + rewrite insert_at_lt in Hb by lia. apply (Hs i j); auto.
    + rewrite insert_at_eq in Hb by lia. injection Hb as <-.
      exists (nth i st 0), v. repeat split; auto. specialize (Hlt i Hik). lia.
    + rewrite insert_at_gt in Hb by lia. apply (Hs i (j - 1)%nat); auto. lia.
  - rewrite insert_at_eq in Ha by lia. injection Ha as <-.
    rewrite insert_at_gt in Hb by lia. destruct (Hnth (j - 1)%nat b Hb) as [Hj Eb].
    exists v, (nth (j - 1) st 0). repeat split; auto. apply Hge. lia.
  - rewrite insert_at_gt in Ha, Hb by lia. apply (Hs (i - 1)%nat (j - 1)%nat); auto. lia.
Qed.

Lemma set_cls_same o : set_s_cls (s_cls o) o = o.
Proof. destruct o; reflexivity. Qed.
Lemma alter_ext_at {A} (f g : A -> A) i (l : list A) d :
  f (default d (l !! i)) = g (default d (l !! i)) -> alter f i l = alter g i l.
Proof.
  intros E. apply list_eq. intros j. destruct (decide (j = i)) as [->|Hne].
  - rewrite !list_lookup_alter. destruct (l !! i); simpl in *; congruence.
  - rewrite !list_lookup_alter_ne; auto.
Qed.
Lemma upd_same h x f : f (sob h x) = sob h x -> upd_seq x f h = h.
Proof.
  intros E. rewrite <- (upd_seq_id h x) at 2. unfold upd_seq. f_equal.
  eapply alter_ext_at. exact E.
Qed.
Lemma cast_same h c x : s_cls (sob h x) = c ->
  issubclass h c (if is_point_cls h c then cPoint else cInterval) = true -> cast c x h = Ok tt h.
Proof.
  intros Hc Hk. unfold cast. mstep. rewrite Hc, Hk. unfold mod_seq, modify.
  rewrite upd_same; [reflexivity|]. rewrite <- Hc. apply set_cls_same.
Qed.

Lemma sl_append_spec h self x c :
  (sv_ec self = Some c \/ sv_ec self = None) -> s_cls (sob h x) = c ->
  issubclass h c c = true -> issubclass h c (if is_point_cls h c then cPoint else cInterval) = true ->
  sl_contains h (sv_vals self) x = false ->
  (forall y, In y (sv_vals self) -> exists s, s_start (sob h y) = Some s /\ s <> 0) ->
  (exists v, s_start (sob h x) = Some v) ->
  sorted_starts h (sv_vals self) ->
  exists k, (k <= List.length (sv_vals self))%nat /\
    sl_append self x false h = Ok (Slv (insert_at k x (sv_vals self)) (Some c)) h /\
    sorted_starts h (insert_at k x (sv_vals self)).
Proof.
  intros Hec Hc Hcc Hkind Hnc Hnz (v & Hv) Hs.
  unfold sl_append. mstep. rewrite Hnc. mstep. rewrite Hc.
  mstep.
  assert (Hok : match sv_ec self with None => true | Some ec => issubclass h ec c || issubclass h c ec end = true).
  { destruct Hec as [->| ->]; [rewrite Hcc|]; reflexivity. }
  rewrite Hok. cbn [negb].
  assert (Hecc : match sv_ec self with None => c | Some e => e end = c) by (destruct Hec as [->| ->]; auto).
  rewrite Hecc. rewrite (bind_ok _ _ _ _ _ (cast_same h c x Hc Hkind)).
  unfold when. mstep. mstep.
  destruct (all_some_map (start_of h) (sv_vals self)) as (st & Est & Emap).
  { intros y Hy. destruct (Hnz y Hy) as (s & E & _). exists s. exact E. }
  fold (starts_of h (sv_vals self)) in Est, Emap.
  assert (Hlen : List.length (starts_of h (sv_vals self)) = List.length (sv_vals self)).
  { unfold starts_of. apply map_length. }
  assert (Htr : all_truthy (starts_of h (sv_vals self)) = true).
  { unfold all_truthy, starts_of. apply forallb_forall. intros t Ht. apply in_map_iff in Ht.
    destruct Ht as (y & <- & Hy). destruct (Hnz y Hy) as (s & E & Hsz). unfold start_of. rewrite E.
    rewrite (proj2 (Z.eqb_neq s 0)); auto. }
  rewrite Htr, Hlen.
  destruct (sv_vals self) as [|y l] eqn:El.
  - simpl. exists 0%nat. split; [lia|]. split; [reflexivity|].
    intros i j a b Hij Ha Hb. destruct j as [|[|j]]; [lia| |]; discriminate.
  - change ((0 <? List.length (y :: l))%nat && true) with true. cbv iota.
    mstep. unfold start_of at 1. rewrite Hv, Est.
    exists (searchsorted st v). split; [|split; [reflexivity|]].
    + apply all_some_length in Est. unfold starts_of in Est. rewrite map_length in Est.
      rewrite <- Est. unfold searchsorted.
      destruct (bsearch_spec st v) with (fuel := List.length st) (lo := 0%nat) (hi := List.length st) as (A & _); try lia.
      intros i j Hij. destruct (Nat.eq_dec i j) as [->|Hne]; [lia|].
      destruct (nth_error (y :: l) i) as [a|] eqn:Ea; [|apply nth_error_None in Ea; lia].
      destruct (nth_error (y :: l) j) as [b|] eqn:Eb; [|apply nth_error_None in Eb; lia].
      destruct (Hs i j a b) as (s & t & A & B & C); auto; [lia|].
      assert (Ei : nth_error (starts_of h (y :: l)) i = Some (start_of h a)) by (apply map_nth_error; auto).
      assert (Ej : nth_error (starts_of h (y :: l)) j = Some (start_of h b)) by (apply map_nth_error; auto).
      rewrite Emap, nth_error_map in Ei, Ej.
      rewrite (nth_error_nth' st 0) in Ei by lia. rewrite (nth_error_nth' st 0) in Ej by lia. simpl in Ei, Ej. unfold start_of in *.
      congruence.
    + apply insert_sorted; auto.
Qed.

Lemma sl_append_present h self x : sl_contains h (sv_vals self) x = true ->
  sl_append self x false h = Ok self h.
Proof. intros Hc. unfold sl_append. mstep. rewrite Hc. reflexivity. Qed.
Lemma sl_append_unrelated h self x ec : sv_ec self = Some ec ->
  sl_contains h (sv_vals self) x = false ->
  issubclass h ec (s_cls (sob h x)) = false -> issubclass h (s_cls (sob h x)) ec = false ->
  sl_append self x false h = Raise ValueError h.
Proof.
  intros Hec Hn H1 H2. unfold sl_append. mstep. rewrite Hn.
  mstep. mstep. rewrite Hec, H1, H2. reflexivity.
Qed.

(** ** Removal *)
Lemma find_idx_Some {A} (f : A -> bool) l i : find_idx f l = Some i ->
  exists y, nth_error l i = Some y /\ f y = true /\
            (forall j z, (j < i)%nat -> nth_error l j = Some z -> f z = false).
Proof.
  revert i; induction l as [|x l IH]; intros i; simpl; [discriminate|].
  destruct (f x) eqn:E.
  - intros [= <-]. exists x. simpl. repeat split; auto. intros; lia.
  - destruct (find_idx f l) as [k|]; [|discriminate]. intros [= <-].
    destruct (IH k eq_refl) as (y & A1 & A2 & A3). exists y. repeat split; auto.
    intros [|j] z Hj Hz; simpl in Hz; [congruence|]. apply (A3 j); auto. lia.
Qed.
Lemma find_idx_None {A} (f : A -> bool) l : find_idx f l = None -> forall x, In x l -> f x = false.
Proof.
  induction l as [|y l IH]; simpl; [contradiction|].
  destruct (f y) eqn:E; [discriminate|]. destruct (find_idx f l); [discriminate|].
  intros _ x [->|Hx]; auto.
Qed.
Lemma remove_at_split {A} i (l : list A) y : nth_error l i = Some y ->
  exists l1 l2, l = (l1 ++ y :: l2)%list /\ remove_at i l = (l1 ++ l2)%list /\ List.length l1 = i.
Proof.
  intros Hn. apply nth_error_split in Hn. destruct Hn as (l1 & l2 & -> & <-).
  exists l1, l2. repeat split. unfold remove_at.
  rewrite firstn_app, Nat.sub_diag, firstn_all. simpl. rewrite app_nil_r. f_equal.
  replace (S (List.length l1)) with (List.length l1 + 1)%nat by lia.
  rewrite skipn_app. rewrite skipn_all2 by lia.
  replace (List.length l1 + 1 - List.length l1)%nat with 1%nat by lia. reflexivity.
Qed.

Lemma sl_drop_Some h l x l' : sl_drop h l x = Some l' ->
  exists l1 y l2, l = (l1 ++ y :: l2)%list /\ l' = (l1 ++ l2)%list /\
    praatio h y = praatio h x /\ (forall z, In z l1 -> praatio h z <> praatio h x).
Proof.
  unfold sl_drop. destruct (find_idx _ l) as [i|] eqn:E; [|discriminate]. intros [= <-].
  destruct (find_idx_Some _ _ _ E) as (y & A1 & A2 & A3).
  destruct (remove_at_split i l y A1) as (l1 & l2 & -> & -> & Hl).
  exists l1, y, l2. repeat split; auto.
  - unfold praatio_eqb in A2. apply bool_decide_eq_true in A2. auto.
  - intros z Hz Heq. apply In_nth_error in Hz. destruct Hz as [j Hj].
    assert (Hjl : (j < List.length l1)%nat) by (apply nth_error_Some; congruence).
    specialize (A3 j z). rewrite nth_error_app1 in A3 by auto.
    specialize (A3 ltac:(lia) Hj). unfold praatio_eqb in A3. apply bool_decide_eq_false in A3. auto.
Qed.
Lemma sl_drop_None h l x : sl_drop h l x = None -> forall z, In z l -> praatio h z <> praatio h x.
Proof.
  unfold sl_drop. destruct (find_idx _ l) as [i|] eqn:E; [discriminate|]. intros _ z Hz Heq.
  pose proof (find_idx_None _ _ E z Hz) as F. unfold praatio_eqb in F.
  apply bool_decide_eq_false in F. auto.
Qed.

Lemma sorted_remove h l1 y l2 : sorted_starts h (l1 ++ y :: l2) -> sorted_starts h (l1 ++ l2).
Proof.
  intros Hs i j a b Hij Ha Hb.
  assert (K : forall i a, nth_error (l1 ++ l2) i = Some a ->
     nth_error (l1 ++ y :: l2) (if (i <? List.length l1)%nat then i else S i) = Some a).
  { intros i0 a0 H0. destruct (i0 <? List.length l1)%nat eqn:E.
    - apply Nat.ltb_lt in E. rewrite nth_error_app1 in * by auto. auto.
    - apply Nat.ltb_ge in E. rewrite nth_error_app2 in * by lia.
      replace (S i0 - List.length l1)%nat with (S (i0 - List.length l1)) by lia. auto. }
  apply (Hs _ _ a b) with (2 := K i a Ha) (3 := K j b Hb).
  destruct (i <? List.length l1)%nat eqn:E1; destruct (j <? List.length l1)%nat eqn:E2;
    rewrite ?Nat.ltb_lt, ?Nat.ltb_ge in *; lia.
Qed.

(** ** Overlap counting *)
Definition ov (p q : Z * Z) : bool := (snd p >? fst q) && (fst p <? snd q).

Lemma filter_length_app {A} (f : A -> bool) l1 l2 :
  List.length (List.filter f (l1 ++ l2)) = (List.length (List.filter f l1) + List.length (List.filter f l2))%nat.
Proof. rewrite List.filter_app, app_length. auto. Qed.

Definition nsum (l : list nat) : nat := fold_right Nat.add 0%nat l.
Lemma count_prod l1 l2 (f : (Z * Z) * (Z * Z) -> bool) :
  List.length (List.filter f (list_prod l1 l2)) =
  nsum (map (fun p => List.length (List.filter (fun q => f (p, q)) l2)) l1).
Proof.
  induction l1 as [|p l1 IH]; simpl; [auto|].
  rewrite filter_length_app, IH. f_equal.
  clear. induction l2; simpl; [auto|]. destruct (f (p, a)); simpl; rewrite IHl2; auto.
Qed.
Lemma nsum_ge l : (forall x, In x l -> (1 <= x)%nat) -> (List.length l <= nsum l)%nat.
Proof.
  induction l; simpl; intros Hl; [lia|]. pose proof (Hl a (or_introl eq_refl)).
  assert (List.length l <= nsum l)%nat by auto. lia.
Qed.
Lemma nsum_le l : (forall x, In x l -> (1 <= x)%nat) -> (nsum l <= List.length l)%nat ->
  forall x, In x l -> x = 1%nat.
Proof.
  induction l as [|a l IH]; simpl; intros Hl Hle x Hx; [contradiction|].
  pose proof (Hl a (or_introl eq_refl)). pose proof (nsum_ge l (fun y Hy => Hl y (or_intror Hy))).
  destruct Hx as [->|Hx]; [lia|]. apply IH; auto. lia.
Qed.
Lemma filter_one {A} (f : A -> bool) l i j a b : i <> j ->
  nth_error l i = Some a -> nth_error l j = Some b -> f a = true -> f b = true ->
  (2 <= List.length (List.filter f l))%nat.
Proof.
  revert i j; induction l as [|x l IH]; intros i j Hij Ha Hb Fa Fb; [destruct i; discriminate|].
  assert (K : forall k c, nth_error l k = Some c -> f c = true -> (1 <= List.length (List.filter f l))%nat).
  { intros k c Hc Fc. assert (Hin : In c (List.filter f l)) by (apply filter_In; split; [eapply nth_error_In; eauto|auto]).
    destruct (List.filter f l); simpl in *; [contradiction|lia]. }
  destruct i as [|i], j as [|j]; simpl in *; try lia.
  - injection Ha as ->. rewrite Fa. simpl. specialize (K j b Hb Fb). lia.
  - injection Hb as ->. rewrite Fb. simpl. specialize (K i a Ha Fa). lia.
  - assert (2 <= List.length (List.filter f l))%nat by (apply (IH i j); auto).
    destruct (f x); simpl; lia.
Qed.
Lemma filter_at_most_one {A} (f : A -> bool) l :
  (forall i j a b, i <> j -> nth_error l i = Some a -> nth_error l j = Some b -> f a = true -> f b = true -> False) ->
  (List.length (List.filter f l) <= 1)%nat.
Proof.
  induction l as [|x l IH]; intros Hu; simpl; [lia|].
  assert (Hl : (List.length (List.filter f l) <= 1)%nat).
  { apply IH. intros i j a b Hij Ha Hb. apply (Hu (S i) (S j)); auto. }
  destruct (f x) eqn:E; [|auto]. simpl.
  destruct (List.filter f l) as [|y r] eqn:Ef; simpl; [lia|].
  exfalso. assert (Hy : In y (List.filter f l)) by (rewrite Ef; simpl; auto).
  apply filter_In in Hy. destruct Hy as [Hy Fy]. apply In_nth_error in Hy. destruct Hy as [k Hk].
  apply (Hu 0%nat (S k) x y); auto.
Qed.

Lemma check_no_overlaps_iff st en : List.length st = List.length en ->
  (forall i s e, nth_error st i = Some s -> nth_error en i = Some e -> s < e) ->
  (check_no_overlaps st en = true <->
   forall i j s1 e1 s2 e2, i <> j ->
     nth_error st i = Some s1 -> nth_error en i = Some e1 ->
     nth_error st j = Some s2 -> nth_error en j = Some e2 -> ~ (s2 < e1 /\ s1 < e2)).
Proof.
  intros Hlen Hpos. set (l := combine st en).
  assert (Hnl : List.length l = List.length st) by (unfold l; rewrite combine_length; lia).
  assert (Hnth : forall i s e, nth_error l i = Some (s, e) <-> nth_error st i = Some s /\ nth_error en i = Some e).
  { unfold l. clear -Hlen. revert en Hlen. induction st as [|a st IH]; intros [|b en] Hlen i s e; simpl in Hlen; try lia.
    - destruct i; simpl; split; intros E; [discriminate|destruct E; discriminate|discriminate|destruct E; discriminate].
    - destruct i as [|i]; simpl.
      + split; [intros [= <- <-]; auto|intros [[= <-] [= <-]]; auto].
      + apply IH. lia. }
  assert (Hself : forall p, In p l -> ov p p = true).
  { intros [s e] Hp. apply In_nth_error in Hp. destruct Hp as [i Hi]. apply Hnth in Hi. destruct Hi as [A B].
    specialize (Hpos i s e A B). unfold ov; simpl. apply andb_true_iff. rewrite Z.gtb_lt, Z.ltb_lt. lia. }
  unfold check_no_overlaps, n_overlaps. fold l.
  rewrite count_prod.
  set (cnt := fun p : Z * Z => List.length (List.filter (fun q => let '(s1, e1, (s2, e2)) := (p, q) in (e1 >? s2) && (s1 <? e2)) l)).
  assert (Hcnt : forall p, cnt p = List.length (List.filter (ov p) l)).
  { intros [s e]. unfold cnt, ov. f_equal. apply filter_ext. intros [s2 e2]. reflexivity. }
  assert (Hge1 : forall x, In x (map cnt l) -> (1 <= x)%nat).
  { intros x Hx. apply in_map_iff in Hx. destruct Hx as (p & <- & Hp). rewrite Hcnt.
    assert (Hin : In p (List.filter (ov p) l)) by (apply filter_In; auto).
    destruct (List.filter (ov p) l); simpl in *; [contradiction|lia]. }
  rewrite negb_true_iff, Nat.ltb_ge. change (nsum (map _ l)) with (nsum (map cnt l)).
  split.
  - intros Hle i j s1 e1 s2 e2 Hij A1 B1 A2 B2 [C1 C2].
    assert (E1 : nth_error l i = Some (s1, e1)) by (apply Hnth; auto).
    assert (E2 : nth_error l j = Some (s2, e2)) by (apply Hnth; auto).
    assert (K : cnt (s1, e1) = 1%nat).
    { apply (nsum_le (map cnt l)); auto.
      - rewrite map_length. lia.
      - apply in_map_iff. exists (s1, e1). split; [auto|]. eapply nth_error_In; eauto. }
    rewrite Hcnt in K.
    pose proof (filter_one (ov (s1, e1)) l i j _ _ Hij E1 E2) as F.
    rewrite K in F. specialize (F (Hself _ (nth_error_In _ _ E1))).
    assert (ov (s1, e1) (s2, e2) = true).
    { unfold ov; simpl. apply andb_true_iff. rewrite Z.gtb_lt, Z.ltb_lt. lia. }
    specialize (F H0). lia.
  - intros Hno.
    assert (Heq : forall x, In x (map cnt l) -> x = 1%nat).
    { intros x Hx. pose proof (Hge1 x Hx). apply in_map_iff in Hx. destruct Hx as (p & <- & Hp).
      rewrite Hcnt in *. apply In_nth_error in Hp. destruct Hp as [i Hi].
      assert (List.length (List.filter (ov p) l) <= 1)%nat; [|lia].
      apply filter_at_most_one. intros j k [s1 e1] [s2 e2] Hjk E1 E2 O1 O2.
      destruct p as [s e]. unfold ov in O1, O2; simpl in O1, O2.
      apply andb_true_iff in O1, O2. rewrite Z.gtb_lt, Z.ltb_lt in O1, O2.
      apply Hnth in Hi, E1, E2. destruct Hi, E1, E2.
      destruct (Nat.eq_dec i j) as [->|Hij].
      - apply (Hno j k s e s2 e2); auto; lia.
      - apply (Hno i j s e s1 e1); auto; lia. }
    assert (nsum (map cnt l) = List.length (map cnt l)).
    { clear -Heq. induction (map cnt l); simpl; [auto|]. rewrite (Heq a) by (simpl; auto).
      rewrite IHl0; [auto|]. intros; apply Heq; simpl; auto. }
    rewrite H0, map_length. lia.
Qed.

End WithEnv.
