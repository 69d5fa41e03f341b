(** * ListFinal: C01-C09 in the words of Spec.v. *)
From Verif Require Export ShiftProofs.
Open Scope Z_scope.

Lemma issubclass_refl h c : issubclass h c c = true.
Proof. unfold issubclass. simpl. rewrite Nat.eqb_refl. reflexivity. Qed.

Lemma keep_if_filter {A} (P : A -> Prop) (f : A -> bool) l :
  (forall x, f x = true <-> P x) -> keep_if P l (List.filter f l).
Proof.
  intros Hf. induction l as [|x l IH]; simpl; [constructor|].
  destruct (f x) eqn:E.
  - constructor; [apply Hf; auto|auto].
  - constructor; [rewrite <- Hf; congruence|auto].
Qed.
Lemma keep_if_fun {A} (P : A -> Prop) l k k' : keep_if P l k -> keep_if P l k' -> k = k'.
Proof.
  intros K. revert k'. induction K; intros k' K'; inversion K'; subst; auto; try contradiction.
  f_equal. auto.
Qed.

Section WithEnv.
Context `{Env}.

Lemma praatio_iff h x y : praatio h x = praatio h y <-> same_value h x y.
Proof.
  unfold praatio, same_value, is_point, is_point_cls.
  destruct (issubclass h (s_cls (sob h x)) cPoint) eqn:Ex, (issubclass h (s_cls (sob h y)) cPoint) eqn:Ey;
    split.
  - intros [= A B]. repeat split; auto. discriminate.
  - intros (A & B & C & D). rewrite B, C. reflexivity.
  - discriminate.
  - intros (A & _). discriminate.
  - discriminate.
  - intros (A & _). discriminate.
  - intros [= A B C]. repeat split; auto.
  - intros (A & B & C & D). rewrite B, C, D; auto.
Qed.
Lemma sl_contains_iff h l x : sl_contains h l x = true <-> listed h l x.
Proof.
  rewrite sl_contains_spec. unfold listed. split; intros (y & Hy & [E|E]); exists y; split; auto;
    right; apply praatio_iff; auto.
Qed.
Lemma sl_contains_iff_not h l x : sl_contains h l x = false <-> ~ listed h l x.
Proof.
  rewrite <- sl_contains_iff. destruct (sl_contains h l x); split; intros; try congruence; exfalso; auto.
Qed.
Lemma negb_contains h l x : negb (sl_contains h l x) = true <-> ~ listed h l x.
Proof. rewrite negb_true_iff. apply sl_contains_iff_not. Qed.
Lemma end_of_at h x : end_of h x = end_at h x.
Proof. reflexivity. Qed.
Lemma seq_class_kind h c : seq_class h c ->
  issubclass h c (if is_point_cls h c then cPoint else cInterval) = true.
Proof.
  intros [A|A]; unfold is_point_cls; destruct (issubclass h c cPoint) eqn:E; auto. congruence.
Qed.

(** ** C01 *)
Lemma c01_init : forall h c l,
  (forall x, In x l -> s_cls (sob h x) = c) -> known_starts h l ->
  exists l', sl_init l h = Ok (Slv l' (match l with [] => None | _ => Some c end)) h /\
    Permutation l' l /\ sorted_starts h l' /\ (sorted_starts h l -> l' = l).
Proof. exact sl_init_spec. Qed.
Lemma c01_mixed : forall h l x y,
  In x l -> In y l -> s_cls (sob h x) <> s_cls (sob h y) -> sl_init l h = Raise ValueError h.
Proof. exact sl_init_mixed. Qed.
Lemma c01_frame : forall h l, heap_of (sl_init l h) = h.
Proof. exact sl_init_frame. Qed.

(** ** C02 *)
Lemma c02_add : forall h a b c,
  sv_ec a = Some c \/ sv_vals a = [] /\ sv_ec a = None ->
  (forall x, In x (sv_vals a ++ b) -> s_cls (sob h x) = c) ->
  (forall x, In x (sv_vals a ++ b) -> timed_both h x) ->
  sorted_starts h (sv_vals a) ->
  exists l' ec k, sl_add ONone a b h = Ok (Slv l' ec) h /\
    keep_if (fun x => ~ listed h (sv_vals a) x) b k /\
    Permutation l' (sv_vals a ++ k) /\ sorted_starts h l' /\
    (l' <> [] -> sv_vals a <> [] \/ k <> []) /\
    (ec = Some c \/ k = [] /\ ec = sv_ec a).
Proof.
  intros h a b c Hec Hc Ht Hs.
  set (k := List.filter (fun x => negb (sl_contains h (sv_vals a) x)) b).
  assert (K : keep_if (fun x => ~ listed h (sv_vals a) x) b k).
  { apply keep_if_filter. intros x. apply negb_contains. }
  pose proof (sl_add_same h ONone a b c) as A. fold k in A.
  assert (Hec' : sv_ec a = Some c \/ sv_ec a = None /\ ONone = ONone) by (destruct Hec as [|[]]; auto).
  specialize (A Hec').
  assert (A' : match k with
      | [] => sl_add ONone a b h = Ok a h
      | _ :: _ => exists l', sl_add ONone a b h = Ok (Slv l' (Some c)) h /\
           Permutation l' (sv_vals a ++ k) /\ sorted_starts h l' /\
           (sorted_starts h (sv_vals a ++ k) -> l' = (sv_vals a ++ k)%list) end).
  { apply A.
    - intros x Hx. apply Hc, in_app_iff. auto.
    - intros x Hx. apply Hc, in_app_iff. auto.
    - intros x Hx. destruct (Ht x Hx) as [T _]. destruct (s_start (sob h x)); [eauto|congruence].
    - intros x Hx. destruct (Ht x Hx) as [_ T]. rewrite end_of_at. destruct (end_at h x); [eauto|congruence].
    - apply issubclass_refl. }
  destruct k as [|x k'] eqn:Ek.
  - exists (sv_vals a), (sv_ec a), []. rewrite app_nil_r. destruct a; simpl in *. auto 10.
  - destruct A' as (l' & E & P & S & _). exists l', (Some c), (x :: k'). split; [auto|]. split; [auto|]. split; [auto|]. split; [auto|]. split; [|left; auto].
    intros _. right. discriminate.
Qed.

Lemma c02_add_cast : forall h a b ec c,
  sv_ec a = Some ec -> (forall x, In x (sv_vals a) -> s_cls (sob h x) = ec) ->
  (forall x, In x b -> s_cls (sob h x) = c) ->
  (forall x, In x (sv_vals a ++ b) -> (x < List.length (h_seq h))%nat /\ timed_both h x) ->
  sorted_starts h (sv_vals a) ->
  seq_class h ec -> seq_class h c -> related h c ec ->
  issubclass h c cPoint = issubclass h ec cPoint ->
  exists l' k h', sl_add ONone a b h = Ok (Slv l' (Some ec)) h' /\
    keep_if (fun x => ~ listed h (sv_vals a) x) b k /\
    Permutation l' (sv_vals a ++ k) /\ sorted_starts h' l' /\
    (forall x, In x l' -> s_cls (sob h' x) = ec) /\
    (forall x, same_but_class (sob h x) (sob h' x)) /\
    (forall x, ~ In x k -> sob h' x = sob h x) /\ List.length (h_seq h') = List.length (h_seq h) /\ same_rest h h'.
Proof.
  intros h a b ec c Hec Hc1 Hc2 Hl Hs Hk1 Hk2 Hrel Hpt.
  set (k := List.filter (fun x => negb (sl_contains h (sv_vals a) x)) b).
  assert (K : keep_if (fun x => ~ listed h (sv_vals a) x) b k).
  { apply keep_if_filter. intros x. apply negb_contains. }
  pose proof (sl_add_cast h a b ec c Hec Hc1 Hc2) as A. fold k in A.
  assert (A' : match k with
      | [] => sl_add ONone a b h = Ok a h
      | _ :: _ => exists l' h', sl_add ONone a b h = Ok (Slv l' (Some ec)) h' /\
           Permutation l' (sv_vals a ++ k) /\ sorted_starts h' l' /\
           recast ec (sv_vals a ++ k) h h' end).
  { apply A.
    - intros x Hx. apply Hl; auto.
    - intros x Hx. destruct (Hl x Hx) as [_ [T _]]. destruct (s_start (sob h x)); [eauto|congruence].
    - intros Hnp x Hx. destruct (Hl x Hx) as [_ [_ T]]. unfold end_at, is_point in T.
      assert (Ep : issubclass h (s_cls (sob h x)) cPoint = false).
      { apply in_app_iff in Hx. destruct Hx as [Hx|Hx]; [rewrite (Hc1 x Hx); auto|rewrite (Hc2 x Hx), Hpt; auto]. }
      rewrite Ep in T. auto.
    - exact Hrel.
    - pose proof (seq_class_kind h c Hk2) as Q. unfold is_point_cls in *. rewrite Hpt in Q. auto.
    - apply seq_class_kind; auto. }
  destruct k as [|x k'] eqn:Ek.
  - exists (sv_vals a), [], h. rewrite app_nil_r. split; [destruct a; simpl in *; subst; auto|].
    repeat split; auto.
  - destruct A' as (l' & h' & E & P & S & R).
    exists l', (x :: k'), h'. split; [auto|]. split; [auto|]. split; [auto|]. split; [auto|].
    destruct R as (R1 & R2 & R3 & R4 & R5 & R6 & R7).
    split; [|split; [|split; [|split; [exact R5|]]]].
    + intros y Hy. rewrite R6 by (eapply Permutation_in; eauto). reflexivity.
    + intros y. destruct (in_dec Nat.eq_dec y (sv_vals a ++ x :: k')) as [Hi|Hi].
      * rewrite R6 by auto. repeat split.
      * rewrite R7 by auto. repeat split.
    + intros y Hy. destruct (in_dec Nat.eq_dec y (sv_vals a)) as [Hi|Hi].
      * rewrite R6 by (apply in_app_iff; auto). rewrite <- (Hc1 y Hi). apply set_cls_same.
      * apply R7. rewrite in_app_iff. tauto.
    + repeat split; auto.
Qed.

Lemma c02_mixed : forall h w a b x y,
  In x b -> In y b -> ~ listed h (sv_vals a) x -> ~ listed h (sv_vals a) y ->
  s_cls (sob h x) <> s_cls (sob h y) -> sl_add w a b h = Raise ValueError h.
Proof. intros h w a b x y Hx Hy Nx Ny Hne. apply sl_contains_iff_not in Nx, Ny. exact (sl_add_mixed h w a b x y Hx Hy Nx Ny Hne). Qed.
Lemma c02_unrelated : forall h w a b c ec x,
  sv_ec a = Some ec -> (forall z, In z b -> s_cls (sob h z) = c) ->
  In x b -> ~ listed h (sv_vals a) x -> ~ related h c ec ->
  sl_add w a b h = Raise ValueError h.
Proof.
  intros h w a b c ec x Hec Hc Hx Hn Hr. eapply sl_add_unrelated; eauto.
  - exists x. split; auto. apply sl_contains_iff_not; auto.
  - destruct (issubclass h c ec) eqn:E; auto. exfalso. apply Hr. left; auto.
  - destruct (issubclass h ec c) eqn:E; auto. exfalso. apply Hr. right; auto.
Qed.

(** ** C03 *)
Lemma c03_append : forall h a x c,
  sv_ec a = Some c \/ sv_vals a = [] /\ sv_ec a = None ->
  s_cls (sob h x) = c -> seq_class h c ->
  ~ listed h (sv_vals a) x ->
  (forall y, In y (sv_vals a) -> exists s, s_start (sob h y) = Some s /\ s <> 0) ->
  s_start (sob h x) <> None -> sorted_starts h (sv_vals a) ->
  exists l1 l2, sv_vals a = (l1 ++ l2)%list /\
    sl_append a x false h = Ok (Slv (l1 ++ x :: l2) (Some c)) h /\
    sorted_starts h (l1 ++ x :: l2).
Proof.
  intros h a x c Hec Hc Hk Hn Hnz Hx Hs.
  destruct (sl_append_spec h a x c) as (k & Hk1 & E & S).
  - destruct Hec as [|[]]; auto.
  - auto.
  - apply issubclass_refl.
  - apply seq_class_kind; auto.
  - apply sl_contains_iff_not; auto.
  - auto.
  - destruct (s_start (sob h x)); [eauto|congruence].
  - auto.
  - exists (firstn k (sv_vals a)), (skipn k (sv_vals a)). rewrite firstn_skipn. auto.
Qed.
Lemma c03_present : forall h a x, listed h (sv_vals a) x -> sl_append a x false h = Ok a h.
Proof. intros. apply sl_append_present, sl_contains_iff; auto. Qed.
Lemma c03_unrelated : forall h a x ec,
  sv_ec a = Some ec -> ~ listed h (sv_vals a) x -> ~ related h (s_cls (sob h x)) ec ->
  sl_append a x false h = Raise ValueError h.
Proof.
  intros h a x ec Hec Hn Hr. eapply sl_append_unrelated; eauto.
  - apply sl_contains_iff_not; auto.
  - destruct (issubclass h ec (s_cls (sob h x))) eqn:E; auto. exfalso. apply Hr. right; auto.
  - destruct (issubclass h (s_cls (sob h x)) ec) eqn:E; auto. exfalso. apply Hr. left; auto.
Qed.

(** ** C04 *)
Lemma c04_remove : forall h l x l',
  sl_drop h l x = Some l' ->
  exists l1 y l2, l = (l1 ++ y :: l2)%list /\ l' = (l1 ++ l2)%list /\ same_value h y x /\
    (forall z, In z l1 -> ~ same_value h z x) /\ (sorted_starts h l -> sorted_starts h l').
Proof.
  intros h l x l' E. destruct (sl_drop_Some h l x l' E) as (l1 & y & l2 & -> & -> & P & Q).
  exists l1, y, l2. repeat split; try (apply praatio_iff in P; apply P).
  - intros z Hz Hv. apply (Q z Hz). apply praatio_iff; auto.
  - apply sorted_remove.
Qed.
Lemma c04_found : forall h l x,
  (exists y, In y l /\ same_value h y x) -> exists l', sl_drop h l x = Some l'.
Proof.
  intros h l x (y & Hy & Hv). destruct (sl_drop h l x) eqn:E; [eauto|].
  exfalso. apply (sl_drop_None h l x E y Hy). apply praatio_iff; auto.
Qed.
Lemma c04_absent : forall h s x,
  (forall y, In y (s_subset (sob h s)) -> ~ same_value h y x) ->
  subset_remove s x h = Raise ValueError h.
Proof.
  intros h s x Hn. unfold subset_remove. mstep.
  destruct (sl_drop h (s_subset (sob h s)) x) eqn:E; [|reflexivity].
  destruct (sl_drop_Some _ _ _ _ E) as (l1 & y & l2 & E1 & _ & P & _).
  exfalso. apply (Hn y).
  - rewrite E1. apply in_app_iff. simpl; auto.
  - apply praatio_iff; auto.
Qed.

(** ** C05 *)
Lemma c05_concat : forall h a b c,
  (forall p q, fadd p q = p + q) ->
  sv_ec a = Some c -> sv_vals a <> [] -> b <> [] ->
  issubclass h c cPoint = false ->
  (forall x, In x (sv_vals a ++ b) -> s_cls (sob h x) = c) ->
  (forall x, In x (sv_vals a) -> exists s e, s_start (sob h x) = Some s /\ s_end (sob h x) = Some e /\ s < e) ->
  sorted_starts h (sv_vals a) ->
  (forall x, In x b -> exists s e, s_start (sob h x) = Some s /\ s_end (sob h x) = Some e /\ 0 <= s /\
     s_subset (sob h x) = [] /\ (x < List.length (h_seq h))%nat) ->
  NoDup b -> (forall x, In x (sv_vals a) -> ~ In x b) ->
  exists d srt h',
    sl_concat ONone a b h = Ok (Some (Slv (sv_vals a ++ srt) (Some c))) h' /\
    (exists x, In x (sv_vals a) /\ s_end (sob h x) = Some d) /\
    (forall x e, In x (sv_vals a) -> s_end (sob h x) = Some e -> e <= d) /\
    Permutation srt b /\ sorted_starts h' (sv_vals a ++ srt) /\
    (forall x s e, In x b -> s_start (sob h x) = Some s -> s_end (sob h x) = Some e ->
       s_start (sob h' x) = Some (s + d) /\ s_end (sob h' x) = Some (e + d) /\
       same_but_times (sob h x) (sob h' x)) /\
    (forall x, ~ In x b -> sob h' x = sob h x) /\ List.length (h_seq h') = List.length (h_seq h) /\ same_rest h h'.
Proof.
  intros h a b c Hadd Hec Hna Hnb Hnp Hc Hpos Hs Hb Hnd Hdis.
  destruct (sl_concat_spec h a b c b) as (inc & ns & srt & P & A1 & A2 & E & P2 & S); auto.
  - intros x Hx. apply Hc, in_app_iff; auto.
  - intros x Hx. apply Hc, in_app_iff; auto.
  - apply issubclass_refl.
  - intros x Hx. destruct (Hb x Hx) as (s & e & ? & ? & ? & _). eauto.
  - apply forest_leaves. intros x Hx. destruct (Hb x Hx) as (s & e & ? & ? & ? & ? & _). auto.
  - intros x Hx. destruct (Hb x Hx) as (s & e & B1 & B2 & B3 & B4 & B5).
    repeat split; auto; congruence.
  - exists inc, srt, (shifts inc ns h). split; [auto|]. split; [auto|]. split; [auto|].
    split; [auto|]. split; [auto|].
    assert (Hnd' : NoDup ns) by (rewrite P; auto).
    split; [|split; [|split]].
    + intros x s e Hx Es Ee. destruct (Hb x Hx) as (s' & e' & B1 & B2 & B3 & B4 & B5).
      rewrite sob_shifts_in; auto; [|eapply Permutation_in; [symmetry|]; eauto].
      assert (Ept : is_pt h x = false).
      { unfold is_pt. rewrite Hc by (apply in_app_iff; auto). auto. }
      rewrite Ept. rewrite (shift_obj_start _ _ _ _ Es), (shift_obj_end _ _ _ Ee), !Hadd.
      repeat split.
    + intros x Hx. apply sob_shifts_notin. intros Q. apply Hx. apply (Permutation_in _ P Q).
    + apply shifts_shape.
    + apply shifts_frame.
Qed.

(** ** C06 *)
Lemma c06_exact : forall h l,
  (forall x, In x l -> exists s e, s_start (sob h x) = Some s /\ end_at h x = Some e /\ s < e) ->
  exists b, sl_check_no_overlaps l h = Ok b h /\
    (b = true <->
     forall i j x y s1 e1 s2 e2, i <> j -> nth_error l i = Some x -> nth_error l j = Some y ->
       s_start (sob h x) = Some s1 -> end_at h x = Some e1 ->
       s_start (sob h y) = Some s2 -> end_at h y = Some e2 -> ~ overlap s1 e1 s2 e2).
Proof.
  intros h l Hl.
  destruct (all_some_map (start_of h) l) as (st & E1 & M1).
  { intros x Hx. destruct (Hl x Hx) as (s & e & ? & ? & ?). eauto. }
  destruct (all_some_map (end_of h) l) as (en & E2 & M2).
  { intros x Hx. destruct (Hl x Hx) as (s & e & ? & ? & ?). eauto. }
  assert (Hlen : List.length st = List.length en).
  { apply (f_equal (@List.length _)) in M1, M2. rewrite !map_length in M1, M2. congruence. }
  assert (N1 : forall i s, nth_error st i = Some s <-> exists x, nth_error l i = Some x /\ s_start (sob h x) = Some s).
  { intros i s. assert (Q : nth_error (map (start_of h) l) i = nth_error (map Some st) i) by congruence.
    rewrite !nth_error_map in Q. split.
    - intros Es. rewrite Es in Q. simpl in Q. destruct (nth_error l i) as [x|]; simpl in Q; [|discriminate].
      injection Q as Q. eauto.
    - intros (x & Ex & Es). rewrite Ex in Q. simpl in Q. unfold start_of in Q. rewrite Es in Q.
      destruct (nth_error st i); simpl in Q; congruence. }
  assert (N2 : forall i s, nth_error en i = Some s <-> exists x, nth_error l i = Some x /\ end_at h x = Some s).
  { intros i s. assert (Q : nth_error (map (end_of h) l) i = nth_error (map Some en) i) by congruence.
    rewrite !nth_error_map in Q. split.
    - intros Es. rewrite Es in Q. simpl in Q. destruct (nth_error l i) as [x|]; simpl in Q; [|discriminate].
      injection Q as Q. exists x. split; auto.
    - intros (x & Ex & Es). rewrite Ex in Q. simpl in Q. rewrite end_of_at, Es in Q.
      destruct (nth_error en i); simpl in Q; congruence. }
  exists (check_no_overlaps st en). split.
  - unfold sl_check_no_overlaps, starts_of, ends_of. rewrite E1, E2. reflexivity.
  - rewrite check_no_overlaps_iff; auto.
    + unfold overlap. split.
      * intros Hno i j x y s1 e1 s2 e2 Hij Hx Hy A B C D.
        apply (Hno i j); auto; [apply N1|apply N2|apply N1|apply N2]; eauto.
      * intros Hno i j s1 e1 s2 e2 Hij A B C D.
        apply N1 in A, C. apply N2 in B, D.
        destruct A as (x & X1 & X2), B as (x' & X1' & X2'), C as (y & Y1 & Y2), D as (y' & Y1' & Y2').
        rewrite X1 in X1'. rewrite Y1 in Y1'. injection X1' as <-. injection Y1' as <-.
        apply (Hno i j x y); auto.
    + intros i s e A B. apply N1 in A. apply N2 in B.
      destruct A as (x & X1 & X2), B as (x' & X1' & X2'). rewrite X1 in X1'. injection X1' as <-.
      destruct (Hl x (nth_error_In _ _ X1)) as (s' & e' & ? & ? & ?). congruence.
Qed.

(** ** C07 *)
Lemma links_only_same_but h h' i : links_only h h' -> (i < List.length (h_seq h))%nat ->
  same_but_links (sob h i) (sob h' i).
Proof.
  intros (_ & _ & _ & _ & _ & F & _) Hi. pose proof (erase_fields _ _ (F i Hi)) as E.
  unfold same_but_links. intuition congruence.
Qed.
Lemma links_only_rest h h' : links_only h h' -> same_rest h h'.
Proof. intros (A & B & C & D & _). repeat split; auto. Qed.

Lemma c07_link d : forall h x y,
  x <> y -> (x < List.length (h_seq h))%nat -> (y < List.length (h_seq h))%nat ->
  s_cls (sob h y) = s_cls (sob h x) -> s_label (sob h x) <> "#"%string -> s_label (sob h y) <> "#"%string ->
  link d (sob h x) <> Some y ->
  exists h', set_link 4 d x y h = Ok tt h' /\
    link d (sob h' x) = Some y /\ link (opp d) (sob h' y) = Some x /\
    link (opp d) (sob h' x) = link (opp d) (sob h x) /\ link d (sob h' y) = link d (sob h y) /\
    same_but_links (sob h x) (sob h' x) /\ same_but_links (sob h y) (sob h' y) /\
    (forall i, i <> x -> i <> y -> sob h' i = sob h i) /\
    List.length (h_seq h') = List.length (h_seq h) /\ same_rest h h'.
Proof.
  intros h x y Hne Hx Hy Hc Hlx Hly Hn.
  destruct (set_link_ok 4 d x y h) as (h' & E & L & L1 & L2 & L3 & L4 & L5 & L6 & L7 & L8 & L9 & L10); auto.
  exists h'. split; [auto|]. split; [auto|]. split; [auto|]. split; [auto|]. split; [auto|].
  split; [eapply links_only_same_but; eauto|]. split; [eapply links_only_same_but; eauto|].
  split; [auto|]. split; [auto|]. eapply links_only_rest; eauto.
Qed.
Lemma c07_fol : forall h x y,
  x <> y -> (x < List.length (h_seq h))%nat -> (y < List.length (h_seq h))%nat ->
  s_cls (sob h y) = s_cls (sob h x) -> s_label (sob h x) <> "#"%string -> s_label (sob h y) <> "#"%string ->
  s_fol (sob h x) <> Some y ->
  exists h', set_fol x y h = Ok tt h' /\
    s_fol (sob h' x) = Some y /\ s_prev (sob h' y) = Some x /\
    s_prev (sob h' x) = s_prev (sob h x) /\ s_fol (sob h' y) = s_fol (sob h y) /\
    same_but_links (sob h x) (sob h' x) /\ same_but_links (sob h y) (sob h' y) /\
    (forall i, i <> x -> i <> y -> sob h' i = sob h i) /\
    List.length (h_seq h') = List.length (h_seq h) /\ same_rest h h'.
Proof. exact (c07_link Fol). Qed.
Lemma c07_prev : forall h x y,
  x <> y -> (x < List.length (h_seq h))%nat -> (y < List.length (h_seq h))%nat ->
  s_cls (sob h y) = s_cls (sob h x) -> s_label (sob h x) <> "#"%string -> s_label (sob h y) <> "#"%string ->
  s_prev (sob h y) <> Some x ->
  exists h', set_prev y x h = Ok tt h' /\
    s_prev (sob h' y) = Some x /\ s_fol (sob h' x) = Some y /\
    s_fol (sob h' y) = s_fol (sob h y) /\ s_prev (sob h' x) = s_prev (sob h x) /\
    same_but_links (sob h y) (sob h' y) /\ same_but_links (sob h x) (sob h' x) /\
    (forall i, i <> y -> i <> x -> sob h' i = sob h i) /\
    List.length (h_seq h') = List.length (h_seq h) /\ same_rest h h'.
Proof.
  intros h x y Hne Hx Hy Hc Hlx Hly Hn.
  exact (c07_link Prev h y x (not_eq_sym Hne) Hy Hx (eq_sym Hc) Hly Hlx Hn).
Qed.
Lemma c07_settled : forall h x y,
  x <> y -> (s_fol (sob h x) = Some y -> set_fol x y h = Ok tt h) /\
  (s_prev (sob h x) = Some y -> set_prev x y h = Ok tt h).
Proof.
  intros h x y Hne. unfold set_fol, set_prev.
  split; intros E; cbn [set_link]; rewrite (proj2 (Nat.eqb_neq y x)) by auto; mstep;
    destruct (is_hash _); auto; rewrite bool_decide_true; auto.
Qed.
Lemma c07_self : forall h x,
  set_fol x x h = Raise PyException h /\ set_prev x x h = Raise PyException h.
Proof. intros. split; apply set_link_self. Qed.
Lemma c07_class : forall h x y,
  x <> y -> s_label (sob h x) <> "#"%string -> s_cls (sob h y) <> s_cls (sob h x) ->
  (s_fol (sob h x) <> Some y -> set_fol x y h = Raise PyException h) /\
  (s_prev (sob h x) <> Some y -> set_prev x y h = Raise PyException h).
Proof. intros. split; intros; apply set_link_class; auto. Qed.

(** ** C08, C09 for the children of an interval *)
Lemma c08_children : forall h s c,
  NoDup (s_subset (sob h s)) ->
  (forall x, In x (s_subset (sob h s)) ->
     (x < List.length (h_seq h))%nat /\ s_cls (sob h x) = c /\ s_label (sob h x) <> "#"%string) ->
  exists h', set_subset_precedence s h = Ok tt h' /\ chained h' (s_subset (sob h s)).
Proof.
  intros h s c Hnd Ha. destruct (set_subset_precedence_ok s c h Hnd Ha) as (h' & E & _ & _ & C). eauto.
Qed.
Lemma c09_children : forall h s c,
  NoDup (s_subset (sob h s)) ->
  (forall x, In x (s_subset (sob h s)) ->
     (x < List.length (h_seq h))%nat /\ s_cls (sob h x) = c /\ s_label (sob h x) <> "#"%string) ->
  let h' := heap_of (set_subset_precedence s h) in
  (forall i, (i < List.length (h_seq h))%nat -> same_but_links (sob h i) (sob h' i)) /\
  (forall i, (i < List.length (h_seq h))%nat -> ~ In i (s_subset (sob h s)) -> sob h' i = sob h i) /\
  (forall i, (List.length (h_seq h) <= i < List.length (h_seq h'))%nat -> is_boundary h' i) /\
  same_rest h h'.
Proof.
  intros h s c Hnd Ha. destruct (set_subset_precedence_ok s c h Hnd Ha) as (h' & E & L & F & _).
  rewrite E. simpl. split; [|split; [|split]].
  - intros i Hi. eapply links_only_same_but; eauto.
  - auto.
  - intros i Hi. destruct L as (_ & _ & _ & _ & _ & _ & G). apply boundary_is_boundary; [unfold live; lia|].
    apply G; unfold live; lia.
  - eapply links_only_rest; eauto.
Qed.
End WithEnv.
