(** * PointFinal: building point tiers. *)
From Verif Require Export TierFinal.
Open Scope Z_scope.

Section WithEnv.
Context `{Env}.

(** Appending something that is not earlier than what is there. *)
Lemma sl_append_last h self x c v :
  (sv_ec self = Some c \/ sv_ec self = None) -> s_cls (sob h x) = c ->
  issubclass h c c = true -> issubclass h c (kind_of h c) = true ->
  sl_contains h (sv_vals self) x = false -> s_start (sob h x) = Some v ->
  (forall y, In y (sv_vals self) -> exists s, s_start (sob h y) = Some s /\ s <= v) ->
  sorted_starts h (sv_vals self) ->
  exists l', Permutation l' (x :: sv_vals self) /\ sl_append self x false h = Ok (Slv l' (Some c)) h /\
    sorted_starts h l'.
Proof.
  intros Hec Hc Hcc Hkind Hnc Hv Hle Hs.
  destruct (all_truthy (starts_of h (sv_vals self))) eqn:Et.
  - destruct (sl_append_spec h self x c) as (k & Hk & E & S); auto.
    + intros y Hy. destruct (Hle y Hy) as (s & Es & _). exists s. split; [exact Es|]. intros ->.
      unfold all_truthy, starts_of in Et. rewrite forallb_forall in Et.
      specialize (Et (Some 0)). rewrite in_map_iff in Et. assert (X := Et (ex_intro _ y (conj Es Hy))). discriminate.
    + eauto.
    + exists (insert_at k x (sv_vals self)). split; [apply insert_at_perm|]. auto.
  - exists (sv_vals self ++ [x])%list. split; [rewrite Permutation_app_comm; reflexivity|]. split.
    + unfold sl_append. mstep. rewrite Hnc. mstep. rewrite Hc. mstep.
      assert (Hok : match sv_ec self with None => true | Some ec => issubclass h ec c || issubclass h c ec end = true).
      { destruct Hec as [->| ->]; [rewrite Hcc|]; reflexivity. }
      rewrite Hok. cbn [negb].
      assert (Hecc : match sv_ec self with None => c | Some e => e end = c) by (destruct Hec as [->| ->]; auto).
      rewrite Hecc. rewrite (bind_ok _ _ _ _ _ (cast_same h c x Hc Hkind)).
      unfold when. mstep. mstep. rewrite Et, andb_false_r. reflexivity.
    + intros i j a b Hij Ha Hb.
      assert (Hj : (j < S (List.length (sv_vals self)))%nat).
      { assert (Hj : (j < List.length (sv_vals self ++ [x]))%nat) by (apply nth_error_Some; congruence).
        rewrite app_length in Hj. simpl in Hj. lia. }
      rewrite nth_error_app1 in Ha by lia.
      destruct (decide (j < List.length (sv_vals self))%nat) as [Hj'|Hj'].
      * rewrite nth_error_app1 in Hb by lia. exact (Hs i j a b Hij Ha Hb).
      * rewrite nth_error_app2 in Hb by lia. replace (j - List.length (sv_vals self))%nat with 0%nat in Hb by lia.
        simpl in Hb. injection Hb as <-. destruct (Hle a) as (s & Es & Hle'); [eapply nth_error_In; eauto|].
        exists s, v. auto.
Qed.

(** Sorting by a key. *)
Lemma pick_sorted {A} (f : A -> Z) l i j a b : (i < j)%nat ->
  nth_error (pick l (argsort (map f l))) i = Some a -> nth_error (pick l (argsort (map f l))) j = Some b ->
  f a <= f b.
Proof.
  destruct l as [|x0 l0]; intros Hij Ha Hb.
  { assert (P := argsort_perm (map f (@nil A))). simpl in P. apply Permutation_sym, Permutation_nil in P.
    simpl in Ha. rewrite P in Ha. destruct i; discriminate. }
  set (l := x0 :: l0) in *. set (st := map f l) in *.
  assert (Hlen : List.length st = List.length l) by apply map_length.
  assert (Hperm : Permutation (argsort st) (seq 0 (List.length l))).
  { rewrite <- Hlen. apply argsort_perm. }
  assert (Hr : forall i, In i (argsort st) -> (i < List.length l)%nat).
  { intros k Hk. apply (Permutation_in _ Hperm) in Hk. apply in_seq in Hk. lia. }
  rewrite (pick_map l x0) in Ha, Hb by auto. rewrite nth_error_map in Ha, Hb.
  destruct (nth_error (argsort st) i) as [pi|] eqn:Ei; simpl in Ha; [|discriminate].
  destruct (nth_error (argsort st) j) as [pj|] eqn:Ej; simpl in Hb; [|discriminate].
  injection Ha as <-. injection Hb as <-.
  assert (Hj : (j < List.length st)%nat).
  { rewrite Hlen. apply Permutation_length in Hperm. rewrite seq_length in Hperm.
    rewrite <- Hperm. apply nth_error_Some. congruence. }
  pose proof (argsort_sorts st i j (conj Hij Hj)) as Hle.
  rewrite (nth_error_nth _ _ _ Ei), (nth_error_nth _ _ _ Ej) in Hle.
  unfold st in Hle. rewrite (nth_indep _ 0 (f x0)) in Hle by (rewrite map_length; apply Hr; eapply nth_error_In; eauto).
  rewrite (nth_indep (map f l) 0 (f x0)) in Hle by (rewrite map_length; apply Hr; eapply nth_error_In; eauto).
  rewrite !map_nth in Hle. exact Hle.
Qed.

(** ** The loop *)
Definition add_point (t : tid) (c : cid) (e : entry) : M unit :=
  x <- cast_entry c e ;; o <- get_tier t ;; v <- sl_append (seq_slv o) x false ;; store_seq t v.

(** [adding h t c h1 done]: [h1] is [h] after the entries [done]. *)
Record adding (t : tid) (c : cid) (h h1 : heap) (dn : list entry) : Prop := {
  ad_ec : t_seqec (tob h1 t) = Some c \/ t_seqec (tob h1 t) = None;
  ad_nodup : NoDup (t_seq (tob h1 t));
  ad_made : forall x, In x (t_seq (tob h1 t)) -> live h1 x /\ exists e, In e dn /\ made h h1 c e x;
  ad_all : forall e, In e dn -> exists x, In x (t_seq (tob h1 t)) /\ mark_of h1 x = mark h e;
  ad_dist : forall x y, In x (t_seq (tob h1 t)) -> In y (t_seq (tob h1 t)) -> mark_of h1 x = mark_of h1 y -> x = y;
  ad_sorted : sorted_starts h1 (t_seq (tob h1 t));
  ad_old : forall i, live h i -> ~ In (EObj i) dn -> sob h1 i = sob h i;
  ad_cast : forall i, live h i -> In (EObj i) dn -> sob h1 i = set_s_cls c (sob h i);
  ad_len : (List.length (h_seq h) <= List.length (h_seq h1))%nat;
  ad_rest : h_cls h1 = h_cls h /\ h_grp h1 = h_grp h /\ h_grid h1 = h_grid h /\
            List.length (h_tier h1) = List.length (h_tier h);
  ad_tiers : forall u, u <> t -> tob h1 u = tob h u;
  ad_tier : t_ec (tob h1 t) = t_ec (tob h t) /\ t_name (tob h1 t) = t_name (tob h t) /\
            t_contains (tob h1 t) = t_contains (tob h t) /\ t_within (tob h1 t) = t_within (tob h t)
}.

Lemma made_ext h h1 h2 c e x : sob h2 x = sob h1 x -> made h h1 c e x -> made h h2 c e x.
Proof. unfold made. intros ->. auto. Qed.
Lemma made_mark h h1 c e x : made h h1 c e x -> mark_of h1 x = mark h e.
Proof. intros M. unfold mark_of, mark. rewrite (made_start _ _ _ _ _ M), (made_label _ _ _ _ _ M). reflexivity. Qed.

Lemma point_same_value h x y : is_point h x = true -> is_point h y = true ->
  same_value h x y <-> mark_of h x = mark_of h y.
Proof.
  intros A B. unfold same_value, mark_of. rewrite A, B. split.
  - intros (_ & -> & -> & _). reflexivity.
  - intros [= -> ->]. repeat split; auto. discriminate.
Qed.

Lemma add_point_ok t c h h1 dn e tm : tlive h t -> adding t c h h1 dn -> usable h cPoint [e] ->
  issubclass h c cPoint = true -> issubclass h c c = true ->
  fst (mark h e) = Some tm -> (forall d, In d dn -> exists s, fst (mark h d) = Some s /\ s <= tm) ->
  exists h2, add_point t c e h1 = Ok tt h2 /\ adding t c h h2 (dn ++ [e]).
Proof.
  intros Ht A U Hpt Hcc Htm Hle.
  destruct (ad_rest _ _ _ _ _ A) as (Rc & Rg & Ra & Rt).
  assert (Hpt1 : issubclass h1 c cPoint = true) by (rewrite (issubclass_ext h h1); auto).
  assert (Hcc1 : issubclass h1 c c = true) by (rewrite (issubclass_ext h h1); auto).
  assert (K1 : kind_of h1 c = cPoint) by (unfold kind_of, is_point_cls; rewrite Hpt1; reflexivity).
  (* the entry is still usable *)
  assert (Obj : forall o, e = EObj o -> live h o /\ (sob h1 o = sob h o \/ (In e dn /\ sob h1 o = set_s_cls c (sob h o)))).
  { intros o ->. destruct U as [_ U]. destruct (U (EObj o)) as (_ & _ & Hl & _); [simpl; auto|]. split; [exact Hl|].
    destruct (in_dec (fun a b : entry => ltac:(repeat decide equality) : {a = b} + {a <> b}) (EObj o) dn) as [Hi|Hi].
    - right. split; [auto|]. apply (ad_cast _ _ _ _ _ A); auto.
    - left. apply (ad_old _ _ _ _ _ A); auto. }
  assert (EV : entry_value h1 e = entry_value h e).
  { apply entry_value_ext. intros o Ho. destruct (Obj o Ho) as (_ & [->|[_ ->]]); auto. }
  assert (U1 : usable h1 (kind_of h1 c) [e]).
  { rewrite K1. destruct U as [N U]. split; [exact N|]. intros e' [<-|[]]. rewrite EV.
    destruct (U e) as (Q1 & Q2 & Q3); [simpl; auto|]. split; [auto|]. split; [auto|].
    destruct e as [o|]; [|auto]. destruct (Obj o eq_refl) as (Hl & S). rewrite (issubclass_ext h h1) by auto.
    split; [pose proof (ad_len _ _ _ _ _ A); lia|]. destruct S as [->|[_ ->]]; [apply Q3|exact Hpt]. }
  destruct (cast_entry_ok c e h1 U1) as (x & ha & Ex & M & _ & F & G & Ln & B & Lv & SR).
  assert (M1 : made h1 ha c e x) by (inversion M; auto).
  assert (Xl : live ha x) by (apply Lv; simpl; auto).
  destruct SR as (Sc & St & Sg & Sa).
  assert (Ta : tob ha t = tob h1 t) by (apply tob_ext; auto).
  (* the points already there are untouched *)
  assert (Same : forall y, In y (t_seq (tob h1 t)) -> sob ha y = sob h1 y).
  { intros y Hy. destruct (ad_made _ _ _ _ _ A y Hy) as (Hyl & e' & He' & My).
    destruct (in_dec Nat.eq_dec y (entry_objs [e])) as [Hi|Hi].
    - rewrite G by auto. destruct My as (<- & _). apply set_cls_same.
    - apply F; auto. }
  set (L := t_seq (tob h1 t)) in *.
  assert (Ptx : is_point ha x = true).
  { unfold is_point. destruct M1 as (-> & _). rewrite (issubclass_ext h1 ha) by auto. exact Hpt1. }
  assert (Pty : forall y, In y L -> is_point ha y = true).
  { intros y Hy. unfold is_point. rewrite Same by auto. destruct (ad_made _ _ _ _ _ A y Hy) as (_ & e' & _ & My).
    destruct My as (-> & _). rewrite (issubclass_ext h1 ha) by auto. exact Hpt1. }
  assert (Mx : mark_of ha x = mark h e).
  { rewrite (made_mark _ _ _ _ _ M1). unfold mark. rewrite EV. reflexivity. }
  assert (My : forall y, In y L -> mark_of ha y = mark_of h1 y) by (intros y Hy; unfold mark_of; rewrite Same; auto).
  (* [x] stands for [e] also seen from the start *)
  assert (M0 : made h ha c e x).
  { destruct M1 as (Q1 & Q2 & Q3). split; [exact Q1|]. split; [rewrite <- EV; exact Q2|]. destruct e as [o|].
    - destruct (Obj o eq_refl) as (_ & S). destruct Q3 as (-> & Q3 & Q4). split; [auto|].
      destruct S as [S|[_ S]]; rewrite S in Q3, Q4; auto.
    - destruct Q3 as (Q3 & Q4). pose proof (ad_len _ _ _ _ _ A). split; [lia|auto]. }
  assert (OldA : forall i, live h i -> ~ In (EObj i) (dn ++ [e]) -> sob ha i = sob h i).
  { intros i Hi Hn. rewrite F.
    - apply (ad_old _ _ _ _ _ A); auto. intros Hi'. apply Hn. apply in_or_app. auto.
    - pose proof (ad_len _ _ _ _ _ A). unfold live in *. lia.
    - rewrite entry_objs_in. intros [->|[]]. apply Hn. apply in_or_app. simpl. auto. }
  assert (CastA : forall i, live h i -> In (EObj i) (dn ++ [e]) -> sob ha i = set_s_cls c (sob h i)).
  { intros i Hi Hn. assert (Hi1 : live h1 i) by (pose proof (ad_len _ _ _ _ _ A); unfold live in *; lia).
    destruct (in_dec Nat.eq_dec i (entry_objs [e])) as [Hj|Hj].
    - rewrite G by auto. apply entry_objs_in in Hj. destruct Hj as [->|[]].
      destruct (Obj i eq_refl) as (_ & [->|[_ ->]]); [reflexivity|]. destruct (sob h i); reflexivity.
    - rewrite F by auto. apply (ad_cast _ _ _ _ _ A); auto. apply in_app_or in Hn.
      destruct Hn as [Hn|[->|[]]]; [auto|]. destruct Hj. apply entry_objs_in. simpl. auto. }
  unfold add_point. rewrite (bind_ok _ _ _ _ _ Ex). mstep. rewrite Ta.
  destruct (sl_contains ha L x) eqn:Ec.
  - (* an equal point is there *)
    assert (Es : sl_append (seq_slv (tob h1 t)) x false ha = Ok (seq_slv (tob h1 t)) ha) by (apply sl_append_present; exact Ec).
    rewrite (bind_ok _ _ _ _ _ Es). unfold store_seq.
    assert (Eid : mod_tier t (fun o => set_t_seqec (sv_ec (seq_slv (tob h1 t))) (set_t_seq (sv_vals (seq_slv (tob h1 t))) o)) ha = Ok tt ha).
    { unfold mod_tier, modify. f_equal. unfold upd_tier. destruct ha as [a1 a2 a3 a4 a5]; simpl in *. f_equal.
      rewrite <- (alter_ext_at (fun o => o) _ t a3 (blank_tier 0%nat)).
      - apply list_eq. intros j. destruct (decide (j = t)) as [->|Hne]; [rewrite list_lookup_alter; destruct (a3 !! t); reflexivity|].
        rewrite list_lookup_alter_ne; auto.
      - change (default (blank_tier 0%nat) (a3 !! t)) with (tob (Heap a1 a2 a3 a4 a5) t). rewrite Ta.
        destruct (tob h1 t); reflexivity. }
    rewrite Eid. exists ha. split; [reflexivity|].
    apply sl_contains_iff in Ec. destruct Ec as (y & Hy & Hxy).
    assert (Exy : mark_of ha y = mark h e).
    { destruct Hxy as [->|Hxy]; [exact Mx|]. apply point_same_value in Hxy; [congruence|auto|auto]. }
    constructor; rewrite ?Ta; fold L.
    + apply A.
    + apply A.
    + intros z Hz. destruct (ad_made _ _ _ _ _ A z Hz) as (Hzl & e' & He' & Mz). split.
      * unfold live in *. lia.
      * exists e'. split; [apply in_or_app; auto|]. eapply made_ext; [apply Same; auto|exact Mz].
    + intros e' He'. apply in_app_or in He'. destruct He' as [He'|[<-|[]]].
      * destruct (ad_all _ _ _ _ _ A e' He') as (z & Hz & Ez). exists z. split; [auto|]. rewrite My by auto. exact Ez.
      * exists y. auto.
    + intros z w Hz Hw. rewrite !My by auto. apply A; auto.
    + eapply sorted_ext; [|apply A]. intros z Hz. rewrite Same by auto. reflexivity.
    + exact OldA.
    + exact CastA.
    + pose proof (ad_len _ _ _ _ _ A). lia.
    + split; [congruence|]. split; [congruence|]. split; [congruence|]. congruence.
    + intros u Hu. rewrite (tob_ext h1 ha) by auto. apply (ad_tiers _ _ _ _ _ A); auto.
    + apply A.
  - (* a new point *)
    destruct (sl_append_last ha (seq_slv (tob h1 t)) x c tm) as (l' & P & Es & S).
    + simpl. apply A.
    + apply M1.
    + rewrite (issubclass_ext h1 ha); auto.
    + unfold kind_of, is_point_cls. rewrite !(issubclass_ext h1 ha) by auto. rewrite Hpt1. exact Hpt1.
    + exact Ec.
    + change (fst (mark_of ha x) = Some tm). rewrite Mx. exact Htm.
    + simpl. fold L. intros y Hy. destruct (ad_made _ _ _ _ _ A y Hy) as (_ & e' & He' & Mz).
      destruct (Hle e' He') as (s & Es & Hs). exists s. split; [|exact Hs]. rewrite Same by auto.
      rewrite <- Es. rewrite <- (made_mark _ _ _ _ _ Mz). reflexivity.
    + simpl. fold L. eapply sorted_ext; [|apply A]. intros z Hz. rewrite Same by auto. reflexivity.
    + simpl in P. fold L in P.
      assert (Hta : tlive ha t) by (unfold tlive in *; congruence).
      rewrite (bind_ok _ _ _ _ _ Es). unfold store_seq, mod_tier, modify.
      set (g := fun o => set_t_seqec (sv_ec (Slv l' (Some c))) (set_t_seq (sv_vals (Slv l' (Some c))) o)).
      exists (upd_tier t g ha). split; [reflexivity|].
      assert (Tf : tob (upd_tier t g ha) t = g (tob h1 t)) by (rewrite tob_upd_eq by auto; rewrite Ta; reflexivity).
      assert (In' : forall y, In y l' <-> y = x \/ In y L).
      { intros y. split.
        - intros Hy. apply (Permutation_in _ P) in Hy. destruct Hy; auto.
        - intros Hy. eapply Permutation_in; [apply Permutation_sym; exact P|]. simpl. destruct Hy; auto. }
      assert (Nx : ~ In x L).
      { intros Hx. apply sl_contains_iff_not in Ec. apply Ec. exists x. auto. }
      assert (Nm : forall y, In y L -> mark_of ha y <> mark_of ha x).
      { intros y Hy E. apply sl_contains_iff_not in Ec. apply Ec. exists y. split; [auto|]. right.
        apply point_same_value; auto. }
      change (sob (upd_tier t g ha)) with (sob ha) in *.
      constructor; rewrite ?Tf; simpl.
      * auto.
      * apply NoDup_ListNoDup. eapply Permutation_NoDup; [apply Permutation_sym; exact P|].
        constructor; [exact Nx|]. apply NoDup_ListNoDup. apply A.
      * intros y Hy. apply In' in Hy. destruct Hy as [->|Hy].
        -- split; [exact Xl|]. exists e. split; [apply in_or_app; simpl; auto|exact M0].
        -- destruct (ad_made _ _ _ _ _ A y Hy) as (Hyl & e' & He' & Mz). split.
           ++ unfold live in *. simpl. lia.
           ++ exists e'. split; [apply in_or_app; auto|]. eapply made_ext; [apply Same; auto|exact Mz].
      * intros e' He'. apply in_app_or in He'. destruct He' as [He'|[<-|[]]].
        -- destruct (ad_all _ _ _ _ _ A e' He') as (z & Hz & Ez). exists z. split; [apply In'; auto|].
           change (mark_of ha z = mark h e'). rewrite My by auto. exact Ez.
        -- exists x. split; [apply In'; auto|]. exact Mx.
      * intros y z Hy Hz E. change (mark_of ha y = mark_of ha z) in E. apply In' in Hy. apply In' in Hz.
        destruct Hy as [->|Hy], Hz as [->|Hz]; auto.
        -- destruct (Nm z Hz). auto.
        -- destruct (Nm y Hy). auto.
        -- rewrite !My in E by auto. apply A; auto.
      * exact S.
      * exact OldA.
      * exact CastA.
      * pose proof (ad_len _ _ _ _ _ A). simpl. lia.
      * split; [congruence|]. split; [congruence|]. split; [congruence|]. rewrite alter_length. congruence.
      * intros u Hu. rewrite tob_upd_ne by auto. rewrite (tob_ext h1 ha) by auto. apply (ad_tiers _ _ _ _ _ A); auto.
      * apply A.
Qed.

Lemma add_points t c h : tlive h t -> issubclass h c cPoint = true ->
  forall ents dn h1, adding t c h h1 dn -> usable_points h ents ->
  (forall i j a b, (i < j)%nat -> nth_error (dn ++ ents) i = Some a -> nth_error (dn ++ ents) j = Some b ->
     exists u v, fst (mark h a) = Some u /\ fst (mark h b) = Some v /\ u <= v) ->
  exists h2, forM ents (add_point t c) h1 = Ok tt h2 /\ adding t c h h2 (dn ++ ents).
Proof.
  intros Ht Hpt. induction ents as [|e ents IH]; intros dn h1 A U O.
  { exists h1. rewrite app_nil_r. auto. }
  assert (Ue : usable h cPoint [e]) by (apply U; simpl; auto).
  destruct Ue as [N Ue]. destruct (Ue e) as (_ & (tm & Etm) & _); [simpl; auto|].
  destruct (add_point_ok t c h h1 dn e tm) as (h2 & E2 & A2); auto.
  - split; auto.
  - apply issubclass_refl.
  - intros d Hd. apply In_nth_error in Hd. destruct Hd as [i Hi].
    assert (Hlt : (i < List.length dn)%nat) by (apply nth_error_Some; congruence).
    destruct (O i (List.length dn) d e) as (u & v & E1 & E3 & Hle); [lia| | |].
    + rewrite nth_error_app1 by lia. auto.
    + rewrite nth_error_app2 by lia. rewrite Nat.sub_diag. reflexivity.
    + exists u. split; [auto|]. unfold mark in E3. simpl in E3. rewrite Etm in E3. injection E3 as ->. exact Hle.
  - assert (Eapp : ((dn ++ [e]) ++ ents = dn ++ e :: ents)%list) by (rewrite <- app_assoc; reflexivity).
    destruct (IH (dn ++ [e])%list h2 A2) as (h3 & E3 & A3).
    + intros d Hd. apply U. simpl. auto.
    + rewrite Eapp. exact O.
    + exists h3. simpl. rewrite (bind_ok _ _ _ _ _ E2). rewrite Eapp in A3. auto.
Qed.

Lemma nodup_map_inj {A B} (f : A -> B) l : NoDup l -> (forall x y, In x l -> In y l -> f x = f y -> x = y) ->
  NoDup (map f l).
Proof.
  rewrite !NoDup_ListNoDup. induction 1 as [|x l Hx _ IH]; intros K; simpl; constructor.
  - rewrite in_map_iff. intros (y & E & Hy). apply Hx. rewrite (K x y); simpl; auto.
  - apply IH. intros a b Ha Hb. apply K; simpl; auto.
Qed.

Definition phead_of (h : heap) (s : tsrc) (c : cid) (ents : list entry) (o : tierobj) : tierobj :=
  TierObj c (t_super o) (t_sub o) (src_name h s c) ents [] None (t_within o)
    (unalias (t_contains o) (t_seq o)).

Lemma c33_built : forall h s ec c ents, not_a_tier s -> gives h s ents -> picks h cPoint ents ec c ->
  issubclass h c cPoint = true -> usable_points h ents ->
  exists t h', new_ptier s ec h = Ok t h' /\
    (forall e, In e ents -> exists x, In x (t_seq (tob h' t)) /\ mark_of h' x = mark h e) /\
    (forall x, In x (t_seq (tob h' t)) -> exists e, In e ents /\ made h h' c e x) /\
    NoDup (map (mark_of h') (t_seq (tob h' t))) /\
    (NoDup (map (mark h) ents) -> Permutation (map (mark_of h') (t_seq (tob h' t))) (map (mark h) ents)) /\
    sorted_starts h' (t_seq (tob h' t)) /\ chained h' (t_seq (tob h' t)) /\
    (forall x, In x (t_seq (tob h' t)) -> s_intier (sob h' x) = Some t /\ s_within (sob h' x) = Some (WTier t)) /\
    t_ec (tob h' t) = c /\ named h s c (t_name (tob h' t)) /\ only_points t c ents h h' /\
    linkable h' c (t_seq (tob h' t)).
Proof.
  intros h s ec c ents Ns G Pk Hpt U.
  unfold new_ptier. mstep. set (t := List.length (h_tier h)). set (h0 := push_tier (blank_tier cPoint) h).
  assert (G0 : gives h0 s ents) by (apply gives_push; auto).
  assert (Pk0 : picks h0 cPoint ents ec c) by exact Pk.
  assert (Ht0 : tlive h0 t) by (unfold tlive, h0, t; simpl; rewrite app_length; simpl; lia).
  assert (E0 := class_chosen h0 _ s ents ec c G0 Pk0).
  assert (Ec : ptier_entries h0 s = ents).
  { rewrite <- (gives_check h0 s ents G0). destruct s; simpl in *; tauto. }
  set (f := fun e : entry => match fst (mark h e) with Some v => v | None => 0 end).
  assert (Hf : forall e, In e ents -> fst (mark h e) = Some (f e)).
  { intros e He. destruct (U e He) as [_ Q]. destruct (Q e) as (_ & (v & Ev) & _); [simpl; auto|].
    unfold f. unfold mark. simpl. rewrite Ev. reflexivity. }
  set (ents' := pick ents (argsort (map f ents))).
  assert (Pe : Permutation ents' ents).
  { apply pick_perm. rewrite <- (map_length f). apply argsort_perm. }
  set (hx := upd_tier t (phead_of h0 s c ents') h0).
  assert (Einit : ptier_init t s ec h0 = (forM ents' (add_point t c) ;;; ptier_precedence t) hx).
  { unfold ptier_init. rewrite (bind_ok _ _ _ _ _ E0). mstep. mstep. rewrite Ec. mstep. mstep. mstep.
    match goal with |- context [mapM entry_time ents] => idtac end.
    match goal with |- ?m ?hh = _ => set (hy := hh) end.
    assert (Em : mapM entry_time ents hy = Ok (map (fun e => Some (f e)) ents) hy).
    { destruct (mapM_read entry_time (fun e y => y = Some (f e)) hy ents) as (ys & Ey & Fy).
      - intros e He. exists (Some (f e)). split; [|reflexivity]. pose proof (Hf e He) as Q. destruct e as [o|st en lab].
        + unfold entry_time. mstep. destruct (U _ He) as [_ Q']. destruct (Q' (EObj o)) as (_ & _ & _ & Hk); [simpl; auto|].
          change (is_point_cls hy (s_cls (sob hy o))) with (issubclass h (s_cls (sob h o)) cPoint). rewrite Hk.
          change (sob h o) with (sob hy o) in *. unfold gets. f_equal. exact Q.
        + simpl. unfold ret. f_equal. exact Q.
      - rewrite Ey. f_equal. apply (Forall2_same_r (fun e y => y = Some (f e))); auto. }
    rewrite (bind_ok _ _ _ _ _ Em).
    replace (map (fun e => Some (f e)) ents) with (map Some (map f ents)) by (rewrite map_map; reflexivity).
    rewrite all_some_Some. fold ents'. mstep. mstep. unfold rebind_seq. mstep.
    unfold hy, hx. rewrite !upd_tier_twice. reflexivity. }
  assert (Tx : tob hx t = phead_of h0 s c ents' (tob h0 t)) by (apply tob_upd_eq; auto).
  assert (Htx : tlive hx t) by (unfold hx; rewrite tlive_upd; auto).
  assert (Ux : usable_points hx ents').
  { intros e He. apply (usable_heap h); [reflexivity|reflexivity|]. apply U. eapply Permutation_in; eauto. }
  assert (A0 : adding t c hx hx []).
  { constructor; rewrite ?Tx; simpl; auto; try (intros; contradiction).
    - constructor.
    - intros i j a b _ Q. destruct i; discriminate. }
  destruct (add_points t c hx Htx Hpt ents' [] hx A0 Ux) as (h1 & E1 & A1).
  { intros i j a b Hij Ha Hb. simpl in Ha, Hb. exists (f a), (f b).
    assert (Ia : In a ents) by (eapply Permutation_in; [exact Pe|eapply nth_error_In; eauto]).
    assert (Ib : In b ents) by (eapply Permutation_in; [exact Pe|eapply nth_error_In; eauto]).
    split; [exact (Hf a Ia)|]. split; [exact (Hf b Ib)|]. eapply pick_sorted; eauto. }
  simpl in A1. destruct (ad_rest _ _ _ _ _ A1) as (Rc & Rg & Ra & Rt).
  assert (Ht1 : tlive h1 t) by (unfold tlive in *; congruence).
  set (l := t_seq (tob h1 t)) in *.
  assert (Lk : linkable h1 c l).
  { split; [apply A1|]. intros x Hx. destruct (ad_made _ _ _ _ _ A1 x Hx) as (Hl & e & He & Hm).
    split; [exact Hl|]. split; [apply Hm|]. rewrite (made_label _ _ _ _ _ Hm).
    destruct (Ux e He) as [_ Q]. apply (Q e). simpl. auto. }
  destruct (ptier_precedence_ok h1 t c Ht1 Lk) as (h2 & E2 & Pl & C). fold l in Pl, C.
  assert (Lk2 : linkable h2 c l) by (eapply linkable_placed; eauto). destruct Pl as (A2 & A3 & A4 & A5 & A6 & A7 & A8 & A9 & A10 & A11).
  rewrite (bind_ok _ _ _ _ _ E1), E2 in Einit.
  exists t, h2. split; [rewrite (bind_ok _ _ _ _ _ Einit); reflexivity|].
  assert (T2 : t_seq (tob h2 t) = l) by (rewrite A11; reflexivity). rewrite T2.
  assert (Mk : forall x, In x l -> mark_of h2 x = mark_of h1 x).
  { intros x Hx. destruct (A2 x Hx) as ((B1 & B2 & B3 & B4 & _) & _). unfold mark_of. rewrite B2, B4. reflexivity. }
  assert (Q1 : forall e, In e ents -> exists x, In x l /\ mark_of h2 x = mark h e).
  { intros e He. destruct (ad_all _ _ _ _ _ A1 e) as (x & Hx & Ex).
    { eapply Permutation_in; [apply Permutation_sym; exact Pe|exact He]. }
    exists x. split; [exact Hx|]. rewrite Mk by auto. exact Ex. }
  assert (Q2 : forall x, In x l -> exists e, In e ents /\ made h h2 c e x).
  { intros x Hx. destruct (ad_made _ _ _ _ _ A1 x Hx) as (Hl & e & He & Hm). exists e.
    split; [eapply Permutation_in; eauto|]. destruct (A2 x Hx) as ((B1 & B2 & B3 & B4 & B5 & B6 & _) & _).
    destruct Hm as (M1 & M2 & M3). unfold made. rewrite B1, B2, B3, B4, B5, B6. auto. }
  assert (Q3 : NoDup (map (mark_of h2) l)).
  { apply nodup_map_inj; [apply Lk|]. intros x y Hx Hy. rewrite !Mk by auto. apply A1; auto. }
  split; [exact Q1|]. split; [exact Q2|]. split; [exact Q3|]. split.
  { intros Nd. apply NoDup_Permutation; [exact Q3|exact Nd|]. intros m. rewrite !elem_of_list_In, !in_map_iff. split.
    - intros (x & <- & Hx). destruct (Q2 x Hx) as (e & He & Hm). exists e. split; [|exact He].
      symmetry. apply (made_mark _ _ _ _ _ Hm).
    - intros (e & <- & He). destruct (Q1 e He) as (x & Hx & Ex). exists x. auto. }
  split. { eapply sorted_ext; [|apply A1]. intros x Hx. pose proof (Mk x Hx) as Q. unfold mark_of in Q. congruence. }
  split; [exact C|].
  split. { intros x Hx. destruct (A2 x Hx) as (_ & B1 & B2). auto. }
  destruct (ad_tier _ _ _ _ _ A1) as (T1 & T3 & _). rewrite Tx in T1, T3. simpl in T1, T3.
  split; [rewrite A11; exact T1|]. split.
  { rewrite A11. simpl. rewrite T3. unfold h0. rewrite (name_push h _ s ents c G). apply named_name. }
  assert (Lold : forall i, live h i -> live h1 i).
  { intros i Hi. pose proof (ad_len _ _ _ _ _ A1) as Q. unfold live in *. simpl in Q. lia. }
  split; [|exact Lk2].
  unfold only_points. split; [|split; [|split; [|split; [|split; [|split; [|split; [|split]]]]]]].
  - intros i Hi Hn. rewrite A3.
    + change (sob h i) with (sob hx i). apply (ad_old _ _ _ _ _ A1); [exact Hi|].
      intros Hi'. apply Hn. eapply Permutation_in; eauto.
    + apply Lold; auto.
    + intros Hx. destruct (Q2 i Hx) as (e & He & (_ & _ & M3)). destruct e as [o|].
      * destruct M3 as (-> & _). contradiction.
      * destruct M3 as (M3 & _). lia.
  - intros i Hi He Hn. rewrite T2 in Hn. rewrite A3; [|apply Lold; auto|exact Hn].
    change (sob h i) with (sob hx i). apply (ad_cast _ _ _ _ _ A1); [exact Hi|].
    eapply Permutation_in; [apply Permutation_sym; exact Pe|exact He].
  - rewrite A6, Rc. reflexivity.
  - rewrite A7, Rg. reflexivity.
  - rewrite A8, Ra. reflexivity.
  - reflexivity.
  - rewrite A9, Rt. unfold hx. rewrite len_upd_tier. unfold h0. simpl. rewrite app_length. simpl. unfold t. lia.
  - intros u Hu. rewrite A10 by lia. rewrite (ad_tiers _ _ _ _ _ A1) by lia. unfold hx. rewrite tob_upd_ne by lia.
    unfold h0. apply tob_push_old. exact Hu.
  - pose proof (ad_len _ _ _ _ _ A1) as Q. simpl in Q. lia.
Qed.

End WithEnv.
