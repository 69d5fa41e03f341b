(** * ShiftProofs: shifting objects with everything below them; concat. *)
From Verif Require Export ListProofs.
Open Scope Z_scope.

Notation forest := below (only parsing).

Section WithEnv.
Context `{Env}.

Definition shift_obj (pt : bool) (d : Z) (o : seqobj) : seqobj :=
  let o1 := set_s_start (option_map (fun a => fadd a d) (s_start o)) o in
  if pt then o1 else set_s_end (option_map (fun a => fadd a d) (s_end o)) o1.
Definition is_pt (h : heap) (x : oid) : bool := is_point_cls h (s_cls (sob h x)).
Definition shift1 (d : Z) (x : oid) (h : heap) : heap := upd_seq x (shift_obj (is_pt h x) d) h.
Fixpoint shifts (d : Z) (ns : list oid) (h : heap) : heap :=
  match ns with [] => h | x :: r => shifts d r (shift1 d x h) end.
Lemma shifts_app d a b h : shifts d (a ++ b) h = shifts d b (shifts d a h).
Proof. revert h; induction a; intros; simpl; auto. Qed.

(** Times needed for a shift are known. *)
Definition timed (h : heap) (x : oid) : Prop :=
  live h x /\ s_start (sob h x) <> None /\ (is_pt h x = false -> s_end (sob h x) <> None) /\
  (is_pt h x = true -> s_subset (sob h x) = []).

(** Same family structure. *)
Definition same_shape (h h' : heap) : Prop :=
  h_cls h' = h_cls h /\ List.length (h_seq h') = List.length (h_seq h) /\
  (forall i, s_subset (sob h' i) = s_subset (sob h i) /\ s_cls (sob h' i) = s_cls (sob h i)).
Lemma same_shape_refl h : same_shape h h.
Proof. repeat split; auto. Qed.
Lemma same_shape_trans h1 h2 h3 : same_shape h1 h2 -> same_shape h2 h3 -> same_shape h1 h3.
Proof.
  intros (A & B & C) (A' & B' & C'). split; [congruence|]. split; [congruence|].
  intros i. destruct (C i), (C' i). split; congruence.
Qed.
Lemma shift_obj_fields pt d o :
  s_subset (shift_obj pt d o) = s_subset o /\ s_cls (shift_obj pt d o) = s_cls o.
Proof. destruct pt; split; reflexivity. Qed.
Lemma shift1_shape d x h : same_shape h (shift1 d x h).
Proof.
  unfold shift1. split; [reflexivity|]. split; [apply len_upd_seq|].
  intros i. destruct (decide (live h x)) as [Hl|Hl].
  - rewrite sob_upd by auto. destruct (decide (i = x)) as [->|]; [apply shift_obj_fields|auto].
  - destruct (decide (i = x)) as [->|].
    + unfold sob, upd_seq; simpl. unfold live in Hl.
      rewrite (lookup_ge_None_2 (h_seq h) x) by lia.
      rewrite (lookup_ge_None_2 _ x) by (rewrite alter_length; lia). auto.
    + rewrite sob_upd_ne by auto. auto.
Qed.
Lemma shifts_shape d ns h : same_shape h (shifts d ns h).
Proof.
  revert h; induction ns; intros h; simpl; [apply same_shape_refl|].
  eapply same_shape_trans; [apply shift1_shape|]. auto.
Qed.
Lemma same_shape_pt h h' x : same_shape h h' -> is_pt h' x = is_pt h x.
Proof.
  intros (A & B & C). unfold is_pt, is_point_cls, issubclass. destruct (C x) as [_ ->].
  rewrite A. reflexivity.
Qed.
Lemma forest_shape h h' l ns : same_shape h h' -> forest h l ns -> forest h' l ns.
Proof.
  intros (A & B & C). induction 1; constructor; auto.
  destruct (C x) as [-> _]. auto.
Qed.
Lemma timed_shift1 d y h x : timed h x -> timed (shift1 d y h) x.
Proof.
  intros (L & S & E & P). pose proof (shift1_shape d y h) as Sh.
  unfold timed. rewrite (same_shape_pt _ _ _ Sh). destruct Sh as (A & B & C).
  destruct (C x) as [-> _]. split; [unfold live in *; lia|].
  unfold shift1. destruct (decide (x = y)) as [->|Hne].
  - rewrite sob_upd_eq by auto. unfold shift_obj. split; [|split; auto].
    + destruct (is_pt h y); simpl; destruct (s_start (sob h y)); simpl; congruence.
    + intros Hp. rewrite Hp. simpl. specialize (E Hp). destruct (s_end (sob h y)); simpl; congruence.
  - rewrite sob_upd_ne by auto. auto.
Qed.
Lemma timed_shifts d ns h x : timed h x -> timed (shifts d ns h) x.
Proof. revert h; induction ns; intros h T; simpl; auto. apply IHns, timed_shift1, T. Qed.

(** The recursion performs exactly the shifts of the listed objects. *)
Lemma shift_forest d l ns h0 : forest h0 l ns -> forall n h, same_shape h0 h ->
  (List.length ns <= n)%nat -> (forall x, In x ns -> timed h x) ->
  forM l (shift_n n d) h = Ok tt (shifts d ns h).
Proof.
  induction 1 as [|x l a b Ha IHa Hb IHb]; intros n h Sh Hn Ht; [reflexivity|].
  cbn [forM].
  assert (Hx : shift_n n d x h = Ok tt (shifts d (x :: a) h)).
  { destruct (Ht x) as (L & S & E & P); [simpl; auto|].
    destruct n as [|n]; [simpl in Hn; lia|].
    cbn [shift_n]. mstep. mstep.
    destruct (s_start (sob h x)) as [s|] eqn:Es; [|congruence]. simpl add_time. mstep. mstep.
    fold (is_pt h x). destruct (is_pt h x) eqn:Ep.
    - assert (Ea : a = []).
      { destruct Sh as (_ & _ & C). destruct (C x) as [C1 _]. rewrite <- C1, P in Ha by auto.
        inversion Ha; auto. }
      subst a. simpl. unfold shift1. rewrite Ep. unfold shift_obj.
      unfold ret. f_equal. unfold upd_seq. f_equal.
      apply (alter_ext_at _ _ _ _ (blank_seq 0%nat None None EmptyString)).
      change (default (blank_seq 0%nat None None EmptyString) (h_seq h !! x)) with (sob h x). rewrite Es. reflexivity.
    - specialize (E eq_refl). destruct (s_end (sob h x)) as [e|] eqn:Ee; [|congruence].
      simpl add_time. mstep. mstep.
      destruct Sh as (Sh1 & Sh2 & Sh3). destruct (Sh3 x) as [Sx _]. rewrite Sx.
      assert (Heq : upd_seq x (set_s_end (Some (fadd e d))) (upd_seq x (set_s_start (Some (fadd s d))) h)
                    = shift1 d x h).
      { unfold shift1. rewrite Ep. unfold upd_seq; simpl. f_equal.
        rewrite <- list_alter_compose. apply (alter_ext_at _ _ _ _ (blank_seq 0%nat None None EmptyString)).
        change (default (blank_seq 0%nat None None EmptyString) (h_seq h !! x)) with (sob h x).
        unfold compose, shift_obj. rewrite Es, Ee. reflexivity. }
      rewrite Heq. simpl shifts.
      apply IHa.
      + eapply same_shape_trans; [|apply shift1_shape]. repeat split; auto; apply Sh3.
      + simpl in Hn. rewrite app_length in Hn. lia.
      + intros y Hy. apply timed_shift1, Ht. simpl. rewrite in_app_iff. auto. }
  rewrite (bind_ok _ _ _ _ _ Hx).
  rewrite (IHb n).
  - change (x :: a ++ b)%list with ((x :: a) ++ b)%list. rewrite shifts_app. reflexivity.
  - eapply same_shape_trans; [eassumption|apply shifts_shape].
  - simpl in Hn. rewrite app_length in Hn. lia.
  - intros y Hy. apply timed_shifts, Ht. simpl. rewrite in_app_iff. auto.
Qed.

(** What is where after shifting distinct objects. *)
Lemma shifts_frame d ns h :
  h_cls (shifts d ns h) = h_cls h /\ h_tier (shifts d ns h) = h_tier h /\
  h_grp (shifts d ns h) = h_grp h /\ h_grid (shifts d ns h) = h_grid h.
Proof. revert h; induction ns; intros h; simpl; [auto|].
  destruct (IHns (shift1 d a h)) as (-> & -> & -> & ->). auto. Qed.
Lemma sob_shifts_notin d ns h x : ~ In x ns -> sob (shifts d ns h) x = sob h x.
Proof.
  revert h; induction ns; intros h Hn; simpl in *; [auto|]. rewrite IHns by tauto.
  unfold shift1. apply sob_upd_ne. intros ->; tauto.
Qed.
Lemma sob_shifts_in d ns h x : NoDup ns -> In x ns -> live h x ->
  sob (shifts d ns h) x = shift_obj (is_pt h x) d (sob h x).
Proof.
  revert h; induction ns as [|y ns IH]; intros h Hnd Hi Hl; simpl in *; [contradiction|].
  apply NoDup_cons in Hnd. destruct Hnd as [Hna Hnd]. rewrite elem_of_list_In in Hna.
  destruct Hi as [->|Hi].
  - rewrite sob_shifts_notin by auto. unfold shift1. apply sob_upd_eq; auto.
  - rewrite IH; auto.
    + rewrite (same_shape_pt h) by apply shift1_shape.
      unfold shift1. rewrite sob_upd_ne; auto. intros ->; auto.
    + pose proof (shift1_shape d y h) as (_ & B & _). unfold live in *; lia.
Qed.

Lemma NoDup_live_length h l : NoDup l -> (forall x, In x l -> live h x) ->
  (List.length l <= List.length (h_seq h))%nat.
Proof.
  intros Hnd Hl.
  assert (Hincl : incl l (seq 0 (List.length (h_seq h)))).
  { intros x Hx. apply in_seq. specialize (Hl x Hx). unfold live in Hl. lia. }
  rewrite <- (seq_length (List.length (h_seq h)) 0). apply NoDup_incl_length; auto.
  apply NoDup_ListNoDup; auto.
Qed.

Lemma seq_shift_forest d x ns h : forest h [x] ns -> NoDup ns -> (forall y, In y ns -> timed h y) ->
  SeqOps.seq_shift d x h = Ok tt (shifts d ns h).
Proof.
  intros F Hnd Ht. unfold SeqOps.seq_shift.
  assert (Hl : (List.length ns <= List.length (h_seq h))%nat).
  { apply NoDup_live_length; auto. intros y Hy. apply (Ht y Hy). }
  pose proof (shift_forest d [x] ns h F (S (List.length (h_seq h))) h (same_shape_refl h)) as E.
  specialize (E ltac:(lia) Ht). cbn [forM] in E.
  apply bind_inv in E. destruct E as ([] & h1 & E1 & E2). unfold ret in E2. congruence.
Qed.

Lemma forM_seq_shift d l ns h : forest h l ns -> NoDup ns -> (forall y, In y ns -> timed h y) ->
  forM l (SeqOps.seq_shift d) h = Ok tt (shifts d ns h).
Proof.
  intros F Hnd Ht.
  assert (K : forall h', same_shape h h' -> (forall y, In y ns -> timed h' y) ->
     forM l (SeqOps.seq_shift d) h' = Ok tt (shifts d ns h')); [|apply K; auto using same_shape_refl].
  clear Ht. revert Hnd. induction F as [|x l a b Fa IHa Fb IHb]; intros Hnd h' Sh Ht; [reflexivity|].
  cbn [forM].
  change (x :: a ++ b)%list with ((x :: a) ++ b)%list in *.
  apply NoDup_app in Hnd. destruct Hnd as (N1 & N2 & N3).
  assert (E : SeqOps.seq_shift d x h' = Ok tt (shifts d (x :: a) h')).
  { apply seq_shift_forest; auto.
    - apply (forest_shape h); auto. rewrite <- (app_nil_r (x :: a)).
      simpl. apply (below_cons h x [] a []); auto. constructor.
    - intros y Hy. apply Ht. apply in_app_iff. auto. }
  rewrite (bind_ok _ _ _ _ _ E). rewrite shifts_app. apply IHb; auto.
  - eapply same_shape_trans; [eassumption|apply shifts_shape].
  - intros y Hy. apply timed_shifts, Ht. apply in_app_iff. auto.
Qed.

(** ** [+] with objects of a related class: they are cast *)
Lemma cast_ok h c x : live h x ->
  issubclass h (s_cls (sob h x)) (if is_point_cls h c then cPoint else cInterval) = true ->
  cast c x h = Ok tt (upd_seq x (set_s_cls c) h).
Proof. intros Hl Hk. unfold cast. mstep. rewrite Hk. reflexivity. Qed.
Lemma cast_wrong h c x :
  issubclass h (s_cls (sob h x)) (if is_point_cls h c then cPoint else cInterval) = false ->
  cast c x h = Raise AssertionError h.
Proof. intros Hk. unfold cast. mstep. rewrite Hk. reflexivity. Qed.

(** [recast c l h h']: the objects of [l] have become [c]s; nothing else. *)
Definition recast (c : cid) (l : list oid) (h h' : heap) : Prop :=
  h_cls h' = h_cls h /\ h_tier h' = h_tier h /\ h_grp h' = h_grp h /\ h_grid h' = h_grid h /\
  List.length (h_seq h') = List.length (h_seq h) /\
  (forall i, In i l -> sob h' i = set_s_cls c (sob h i)) /\
  (forall i, ~ In i l -> sob h' i = sob h i).

Lemma recast_refl c h : recast c [] h h.
Proof. repeat split; auto. intros; contradiction. Qed.
Lemma recast_cons c x l h h' : live h x ->
  recast c l (upd_seq x (set_s_cls c) h) h' -> recast c (x :: l) h h'.
Proof.
  intros Hl (A & B & C & D & E & F & G).
  repeat split; auto.
  - rewrite E. apply len_upd_seq.
  - intros i Hi. destruct (in_dec Nat.eq_dec i l) as [Hin|Hnin].
    + rewrite F by auto. rewrite sob_upd by auto. destruct (decide (i = x)) as [->|]; [|auto].
      destruct (sob h x); reflexivity.
    + destruct Hi as [->|Hi]; [|contradiction]. rewrite G by auto. apply sob_upd_eq; auto.
  - intros i Hi. rewrite G by (intros Q; apply Hi; simpl; auto).
    apply sob_upd_ne. intros ->; apply Hi; simpl; auto.
Qed.

Lemma cast_loop c l h : (forall x, In x l -> live h x) ->
  (forall x, In x l -> s_cls (sob h x) = c \/
     issubclass h (s_cls (sob h x)) (if is_point_cls h c then cPoint else cInterval) = true) ->
  issubclass h c (if is_point_cls h c then cPoint else cInterval) = true ->
  exists h', forM l (fun o => c0 <- gets (fun h0 => s_cls (sob h0 o));;
       (if Nat.eqb c0 c then ret tt else cast c o)) h = Ok tt h' /\ recast c l h h'.
Proof.
  intros Hl Hc Hcc. revert h Hl Hc Hcc. induction l as [|x l IH]; intros h Hl Hc Hcc.
  - exists h. split; [reflexivity|apply recast_refl].
  - cbn [forM].
    assert (E : (c0 <- gets (fun h0 => s_cls (sob h0 x));; (if Nat.eqb c0 c then ret tt else cast c x)) h
                = Ok tt (upd_seq x (set_s_cls c) h)).
    { mstep. destruct (Nat.eqb_spec (s_cls (sob h x)) c) as [Eq|Ne].
      - rewrite upd_same; [reflexivity|]. rewrite <- Eq. apply set_cls_same.
      - apply cast_ok; [apply Hl; simpl; auto|]. destruct (Hc x (or_introl eq_refl)); [contradiction|auto]. }
    rewrite (bind_ok _ _ _ _ _ E).
    destruct (IH (upd_seq x (set_s_cls c) h)) as (h' & E' & R).
    + intros y Hy. apply live_upd. apply Hl; simpl; auto.
    + intros y Hy. rewrite sob_upd by (apply Hl; simpl; auto).
      destruct (decide (y = x)) as [->|]; [left; reflexivity|]. apply Hc. simpl; auto.
    + exact Hcc.
    + exists h'. split; [exact E'|]. apply recast_cons; auto. apply Hl; simpl; auto.
Qed.

Lemma recast_start c l h h' i : recast c l h h' -> s_start (sob h' i) = s_start (sob h i).
Proof.
  intros (A & B & C & D & E & F & G). destruct (in_dec Nat.eq_dec i l) as [Hin|Hnin].
  - rewrite F by auto. reflexivity.
  - rewrite G by auto. reflexivity.
Qed.

(** General form of [+] on free-standing lists. *)
Lemma sl_add_cast h self other ec c :
  sv_ec self = Some ec -> same_class h ec (sv_vals self) -> same_class h c other ->
  (forall x, In x (sv_vals self ++ other) -> live h x) ->
  known_starts h (sv_vals self ++ other) ->
  (is_point_cls h ec = false -> forall x, In x (sv_vals self ++ other) -> s_end (sob h x) <> None) ->
  issubclass h c ec = true \/ issubclass h ec c = true ->
  issubclass h c (if is_point_cls h ec then cPoint else cInterval) = true ->
  issubclass h ec (if is_point_cls h ec then cPoint else cInterval) = true ->
  let other' := List.filter (fun x => negb (sl_contains h (sv_vals self) x)) other in
  match other' with
  | [] => sl_add ONone self other h = Ok self h
  | _ => exists l' h', sl_add ONone self other h = Ok (Slv l' (Some ec)) h' /\
           Permutation l' (sv_vals self ++ other') /\ sorted_starts h' l' /\
           recast ec (sv_vals self ++ other') h h'
  end.
Proof.
  intros Hec Hs1 Hs2 Hlive Hks Hke Hrel Hk1 Hk2 other'.
  unfold sl_add. mstep. fold other'.
  destruct other' as [|x r] eqn:Eo; [reflexivity|].
  assert (Hin : forall y, In y (x :: r) -> In y other).
  { intros y Hy. rewrite <- Eo in Hy. apply filter_In in Hy. tauto. }
  mstep. rewrite (all_same_true h c) by (intros y Hy; auto).
  cbn [negb]. mstep. mstep.
  rewrite (Hs2 x) by (apply Hin; simpl; auto). rewrite Hec.
  assert (Hok : issubclass h c ec || issubclass h ec c = true).
  { destruct Hrel as [-> | ->]; [reflexivity|]. apply orb_true_r. }
  rewrite Hok. cbn [negb]. mstep.
  set (nl := (sv_vals self ++ x :: r)%list).
  assert (Hinl : forall y, In y nl -> In y (sv_vals self ++ other)).
  { intros y Hy. apply in_app_iff in Hy. apply in_app_iff. destruct Hy; auto. }
  destruct (cast_loop ec nl h) as (h' & E & R); auto.
  { intros y Hy. apply in_app_iff in Hy. destruct Hy as [Hy|Hy]; [left; auto|right].
    rewrite (Hs2 y) by auto. auto. }
  rewrite (bind_ok _ _ _ _ _ E).
  pose proof R as (A & B & C & D & El & F & G).
  assert (Hnlc : same_class h' ec nl) by (intros y Hy; rewrite F by auto; reflexivity).
  assert (Hknl : known_starts h' nl).
  { intros y Hy. rewrite (recast_start _ _ _ _ y R). auto. }
  destruct (sl_init_spec h' ec nl Hnlc Hknl) as (l' & E1 & P & S & I).
  rewrite (bind_ok _ _ _ _ _ E1). simpl sv_vals. simpl sv_ec.
  assert (Hkl' : known_starts h' l') by (intros y Hy; apply Hknl; eapply Permutation_in; eauto).
  destruct (sl_sort_spec h' l' Hkl') as (l'' & E2 & P2 & S2 & I2).
  specialize (I2 S). subst l''. rewrite (bind_ok _ _ _ _ _ E2).
  assert (Hel' : known_ends h' l').
  { intros y Hy. assert (Hy' : In y nl) by (eapply Permutation_in; eauto).
    unfold end_of. rewrite (Hnlc y Hy').
    assert (Ept : is_point_cls h' ec = is_point_cls h ec).
    { unfold is_point_cls, issubclass. rewrite A. reflexivity. }
    rewrite Ept. destruct (is_point_cls h ec) eqn:Ep.
    - apply Hknl; auto.
    - rewrite F by auto. simpl. specialize (Hke eq_refl y (Hinl y Hy')).
      destruct (s_end (sob h y)); [eauto|congruence]. }
  assert (Hchk : exists b, sl_check_no_overlaps l' h' = Ok b h').
  { unfold sl_check_no_overlaps.
    destruct (known_starts_all h' l' Hkl') as (st & -> & _).
    destruct (all_some_map (end_of h') l' Hel') as (en & Een & _).
    unfold ends_of. rewrite Een. eauto. }
  destruct Hchk as [b Hchk]. rewrite (bind_ok _ _ _ _ _ Hchk).
  exists l', h'. split; [|auto].
  unfold ret. destruct nl eqn:En; [unfold nl in En; destruct (sv_vals self); discriminate|]. reflexivity.
Qed.

(** ** concat *)
Lemma fold_max_ge l a : a <= fold_left Z.max l a /\ (forall x, In x l -> x <= fold_left Z.max l a) /\
  (fold_left Z.max l a = a \/ In (fold_left Z.max l a) l).
Proof.
  revert a; induction l as [|y l IH]; intros a; simpl; [repeat split; auto; lia|].
  destruct (IH (Z.max a y)) as (A & B & C). split; [lia|]. split.
  - intros x [->|Hx]; [lia|auto].
  - destruct C as [C|C]; [|auto]. rewrite C. destruct (Z.max_spec a y) as [[_ ->]|[_ ->]]; auto.
Qed.

(** Not equal in value: no entry of [m] is in [l] or looks like one. *)
Lemma sl_contains_false h l x :
  ~ In x l -> (forall y, In y l -> praatio h y <> praatio h x) -> sl_contains h l x = false.
Proof.
  intros Hn Hp. unfold sl_contains. apply Bool.not_true_iff_false. intros E.
  apply existsb_exists in E. destruct E as (y & Hy & E). apply orb_true_iff in E. destruct E as [E|E].
  - apply Nat.eqb_eq in E. subst. contradiction.
  - unfold praatio_eqb in E. apply bool_decide_eq_true in E. apply (Hp y); auto.
Qed.
Lemma sl_contains_spec h l x :
  sl_contains h l x = true <-> exists y, In y l /\ (y = x \/ praatio h y = praatio h x).
Proof.
  unfold sl_contains. rewrite existsb_exists. split; intros (y & Hy & E); exists y; split; auto.
  - apply orb_true_iff in E. destruct E as [E|E]; [left; apply Nat.eqb_eq; auto|].
    right. unfold praatio_eqb in E. apply bool_decide_eq_true in E. auto.
  - apply orb_true_iff. destruct E as [->|E]; [left; apply Nat.eqb_refl|].
    right. unfold praatio_eqb. apply bool_decide_eq_true. auto.
Qed.
Lemma filter_all {A} (f : A -> bool) l : (forall x, In x l -> f x = true) -> List.filter f l = l.
Proof.
  induction l; simpl; intros Hf; [auto|]. rewrite (Hf a) by auto. rewrite IHl; auto.
Qed.

Lemma forest_app h l1 l2 a b : forest h l1 a -> forest h l2 b -> forest h (l1 ++ l2) (a ++ b).
Proof.
  induction 1 as [|x l a1 b1 Ha IHa Hb IHb]; intros F; simpl; [auto|].
  rewrite <- app_assoc. constructor; auto.
Qed.
Lemma forest_perm h l l' ns : Permutation l l' -> forest h l ns ->
  exists ns', forest h l' ns' /\ Permutation ns' ns.
Proof.
  intros P. revert ns. induction P as [|x l l' P IH|x y l|l1 l2 l3 P1 IH1 P2 IH2]; intros ns F.
  - eauto.
  - inversion F; subst. destruct (IH b H4) as (ns' & F' & P').
    exists (x :: a ++ ns')%list. split; [constructor; auto|]. constructor. apply Permutation_app_head. auto.
  - inversion F as [|? ? a b Fa Fb]; subst. inversion Fb as [|? ? a' b' Fa' Fb']; subst.
    exists (x :: a' ++ (y :: a ++ b'))%list. split; [repeat constructor; auto|].
    change (x :: a' ++ y :: a ++ b')%list with ((x :: a') ++ (y :: a) ++ b')%list.
    change (y :: a ++ x :: a' ++ b')%list with ((y :: a) ++ (x :: a') ++ b')%list.
    rewrite !app_assoc. apply Permutation_app_tail. apply Permutation_app_comm.
  - destruct (IH1 ns F) as (n1 & F1 & Q1). destruct (IH2 n1 F1) as (n2 & F2 & Q2).
    exists n2. split; auto. etransitivity; eauto.
Qed.
Lemma forest_roots h l ns : forest h l ns -> forall x, In x l -> In x ns.
Proof.
  induction 1; intros y Hy; [auto|]. destruct Hy as [->|Hy]; simpl; [auto|].
  right. apply in_app_iff. auto.
Qed.
Lemma forest_leaves h l : (forall x, In x l -> s_subset (sob h x) = []) -> forest h l l.
Proof.
  induction l; intros Hl; [constructor|].
  apply (below_cons h a l [] l); [rewrite Hl by (simpl; auto); constructor|].
  apply IHl. intros; apply Hl; simpl; auto.
Qed.

Lemma shift_obj_start pt d o s : s_start o = Some s -> s_start (shift_obj pt d o) = Some (fadd s d).
Proof. intros E. unfold shift_obj. destruct pt; simpl; rewrite E; reflexivity. Qed.
Lemma shift_obj_end d o e : s_end o = Some e -> s_end (shift_obj false d o) = Some (fadd e d).
Proof. intros E. unfold shift_obj. simpl. rewrite E; reflexivity. Qed.

Lemma sl_concat_spec h self new c ns :
  (forall a b, fadd a b = a + b) ->
  sv_ec self = Some c -> sv_vals self <> [] -> new <> [] ->
  same_class h c (sv_vals self) -> same_class h c new -> issubclass h c c = true ->
  is_point_cls h c = false ->
  (forall x, In x (sv_vals self) -> exists s e, s_start (sob h x) = Some s /\ s_end (sob h x) = Some e /\ s < e) ->
  (forall x, In x new -> exists s, s_start (sob h x) = Some s /\ 0 <= s) ->
  sorted_starts h (sv_vals self) ->
  forest h new ns -> NoDup ns -> (forall y, In y ns -> timed h y) ->
  (forall x, In x (sv_vals self) -> ~ In x ns) ->
  exists inc ns' srt,
    Permutation ns' ns /\
    (exists x, In x (sv_vals self) /\ s_end (sob h x) = Some inc) /\
    (forall x e, In x (sv_vals self) -> s_end (sob h x) = Some e -> e <= inc) /\
    sl_concat ONone self new h = Ok (Some (Slv (sv_vals self ++ srt) (Some c))) (shifts inc ns' h) /\
    Permutation srt new /\ sorted_starts (shifts inc ns' h) (sv_vals self ++ srt).
Proof.
  intros Hadd Hec Hne Hnew Hc1 Hc2 Hcc Hnp Hpos Hnn Hs F Hnd Ht Hdis.
  assert (Hk2 : known_starts h new).
  { intros x Hx. destruct (Hnn x Hx) as (s & E & _). eauto. }
  destruct (sl_init_spec h c new Hc2 Hk2) as (srt & E1 & P1 & S1 & _).
  assert (E1' : sl_init new h = Ok (Slv srt (Some c)) h) by (destruct new; [congruence|exact E1]).
  destruct (forest_perm h new srt ns (Permutation_sym P1) F) as (ns' & F' & P').
  assert (Hke : forall x, In x (sv_vals self) -> exists e, end_of h x = Some e).
  { intros x Hx. destruct (Hpos x Hx) as (s & e & A & B & C). exists e.
    unfold end_of. rewrite Hc1, Hnp by auto. auto. }
  destruct (all_some_map (end_of h) (sv_vals self) Hke) as (es & Ees & Mes).
  destruct es as [|e0 es'].
  { destruct (sv_vals self); [congruence|]. simpl in Mes. discriminate. }
  set (inc := fold_left Z.max es' e0).
  destruct (fold_max_ge es' e0) as (G1 & G2 & G3). fold inc in G1, G2, G3.
  assert (Hin_es : forall x e, In x (sv_vals self) -> s_end (sob h x) = Some e -> In e (e0 :: es')).
  { intros x e Hx He. assert (In (Some e) (map (end_of h) (sv_vals self))).
    { apply in_map_iff. exists x. split; auto. unfold end_of. rewrite Hc1, Hnp by auto. auto. }
    rewrite Mes in H0. apply in_map_iff in H0. destruct H0 as (e' & [= <-] & ?). auto. }
  assert (Hmax : forall x e, In x (sv_vals self) -> s_end (sob h x) = Some e -> e <= inc).
  { intros x e Hx He. destruct (Hin_es x e Hx He) as [->|Hi]; auto. }
  exists inc, ns', srt. split; [auto|]. split.
  { assert (Hi : In inc (e0 :: es')) by (destruct G3 as [G3|G3]; [left; auto|right; auto]).
    assert (In (Some inc) (map Some (e0 :: es'))) by (apply in_map; auto).
    rewrite <- Mes in H0. apply in_map_iff in H0. destruct H0 as (x & Hx & Hxi). exists x. split; auto.
    unfold end_of in Hx. rewrite Hc1, Hnp in Hx by auto. auto. }
  split; [auto|].
  assert (Hnd' : NoDup ns') by (rewrite P'; auto).
  assert (Ht' : forall y, In y ns' -> timed h y) by (intros y Hy; apply Ht; eapply Permutation_in; eauto).
  set (h' := shifts inc ns' h).
  assert (Sh : same_shape h h') by apply shifts_shape.
  assert (Hold : forall x, In x (sv_vals self) -> sob h' x = sob h x).
  { intros x Hx. apply sob_shifts_notin. intros Q. apply (Hdis x Hx). eapply Permutation_in; eauto. }
  assert (Hnewo : forall x, In x srt -> exists s, s_start (sob h x) = Some s /\ 0 <= s /\ s_start (sob h' x) = Some (s + inc)
      /\ (exists e, s_end (sob h' x) = Some e)).
  { intros x Hx. destruct (Hnn x) as (s & E & Hs0); [eapply Permutation_in; eauto|].
    exists s. split; [auto|]. split; [auto|].
    assert (Hxn : In x ns') by (eapply forest_roots; eauto).
    destruct (Ht' x Hxn) as (L & T1 & T2 & T3).
    unfold h'. rewrite sob_shifts_in by auto.
    assert (Ept : is_pt h x = false).
    { unfold is_pt. rewrite (Hc2 x); auto. eapply Permutation_in; eauto. }
    rewrite Ept. split.
    - rewrite (shift_obj_start _ _ _ _ E). rewrite Hadd. auto.
    - specialize (T2 Ept). destruct (s_end (sob h x)) as [e|] eqn:Ee; [|congruence].
      rewrite (shift_obj_end _ _ _ Ee). eauto. }
  assert (Hcls : forall x, s_cls (sob h' x) = s_cls (sob h x)).
  { intros x. destruct Sh as (_ & _ & C). apply C. }
  assert (Hsub : forall a b, issubclass h' a b = issubclass h a b).
  { intros a b. unfold issubclass. destruct Sh as (A & _). rewrite A. auto. }
  assert (Hns : forall x, In x srt -> sl_contains h' (sv_vals self) x = false).
  { intros x Hx. apply sl_contains_false.
    - intros Q. apply (Hdis x Q). apply (forest_roots _ _ _ F). eapply Permutation_in; eauto.
    - intros y Hy Heq. destruct (Hpos y Hy) as (s & e & A & B & C).
      destruct (Hnewo x Hx) as (s2 & A2 & B2 & C2 & _). unfold praatio in Heq.
      injection Heq as _ Heq _ _. rewrite (Hold y Hy), A, C2 in Heq. injection Heq as Heq.
      specialize (Hmax y e Hy B). lia. }
  assert (Hfil : List.filter (fun x => negb (sl_contains h' (sv_vals self) x)) srt = srt).
  { apply filter_all. intros x Hx. rewrite Hns; auto. }
  assert (Hsorted : sorted_starts h' (sv_vals self ++ srt)).
  { intros i j a b Hij Ha Hb.
    destruct (Nat.lt_ge_cases j (List.length (sv_vals self))) as [Hj|Hj].
    - rewrite nth_error_app1 in Ha, Hb by lia.
      destruct (Hs i j a b Hij Ha Hb) as (s & t & A & B & C). exists s, t.
      rewrite !Hold by (eapply nth_error_In; eauto). auto.
    - rewrite nth_error_app2 in Hb by lia.
      assert (Hbi := nth_error_In _ _ Hb). destruct (Hnewo b Hbi) as (t & B1 & B2 & B3 & _).
      destruct (Nat.lt_ge_cases i (List.length (sv_vals self))) as [Hi|Hi].
      + rewrite nth_error_app1 in Ha by lia. assert (Hai := nth_error_In _ _ Ha).
        destruct (Hpos a Hai) as (s & e & A & B & C). exists s, (t + inc). rewrite Hold by auto.
        split; [auto|]. split; [auto|]. specialize (Hmax a e Hai B). lia.
      + rewrite nth_error_app2 in Ha by lia. assert (Hai := nth_error_In _ _ Ha).
        destruct (Hnewo a Hai) as (s & A1 & A2 & A3 & _).
        destruct (S1 (i - List.length (sv_vals self)) (j - List.length (sv_vals self)) a b)%nat as (s' & t' & C1 & C2 & C3); auto; [lia|].
        exists (s + inc), (t + inc). split; [auto|]. split; [auto|].
        rewrite A1 in C1. rewrite B1 in C2. injection C1 as ->. injection C2 as ->. lia. }
  split; [|auto].
  unfold sl_concat. rewrite (bind_ok _ _ _ _ _ E1'). simpl sv_vals.
  assert (E2 : (match sv_vals self with
          | [] => ret 0
          | v => es <- gets (fun h => all_some (ends_of h v)) ;;
                 match es with
                 | Some (e :: es') => ret (fold_left Z.max es' e)
                 | _ => raise TypeError
                 end
          end) h = Ok inc h).
  { destruct (sv_vals self) as [|y l]; [congruence|]. mstep. unfold ends_of. rewrite Ees. reflexivity. }
  rewrite (bind_ok _ _ _ _ _ E2).
  rewrite (bind_ok _ _ _ _ _ (forM_seq_shift inc srt ns' h F' Hnd' Ht')). fold h'.
  mstep. rewrite Hfil.
  pose proof (sl_add_same h' ONone self srt c (or_introl Hec)) as A.
  rewrite Hfil in A.
  assert (Hsrt : srt <> []).
  { intros ->. apply Permutation_nil in P1. congruence. }
  assert (A' : exists l', sl_add ONone self srt h' = Ok (Slv l' (Some c)) h' /\
     Permutation l' (sv_vals self ++ srt) /\ sorted_starts h' l' /\
     (sorted_starts h' (sv_vals self ++ srt) -> l' = (sv_vals self ++ srt)%list));
    [|destruct A' as (l' & A1 & A2 & A3 & A4); rewrite (A4 Hsorted) in A1;
      rewrite (bind_ok _ _ _ _ _ A1); destruct srt; [congruence|reflexivity]].
  destruct srt as [|x0 srt0]; [congruence|]. apply A.
  - intros x Hx. rewrite Hcls. auto.
  - intros x Hx. rewrite Hcls. apply Hc2. eapply Permutation_in; eauto.
  - intros x Hx. apply in_app_iff in Hx. destruct Hx as [Hx|Hx].
    + rewrite Hold by auto. destruct (Hpos x Hx) as (s & e & ? & ?). eauto.
    + destruct (Hnewo x Hx) as (s & _ & _ & E & _). eauto.
  - intros x Hx. unfold end_of. rewrite Hcls. apply in_app_iff in Hx.
    assert (Hp : is_point_cls h' c = false) by (unfold is_point_cls; rewrite Hsub; auto).
    destruct Hx as [Hx|Hx].
    + rewrite (Hc1 x), Hp, Hold by auto. destruct (Hpos x Hx) as (s & e & ? & ? & ?). eauto.
    + rewrite (Hc2 x), Hp by (eapply Permutation_in; eauto).
      destruct (Hnewo x Hx) as (s & _ & _ & _ & E). auto.
  - rewrite Hsub. auto.
Qed.

End WithEnv.
