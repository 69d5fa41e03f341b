(** * ChildFinal: appending a child to an interval (C67). *)
From Verif Require Export RelateFinal ChildSpec.
Open Scope Z_scope.

Lemma rising_tail h x l : rising h (x :: l) -> rising h l.
Proof. intros R i j a b Hij Ha Hb. apply (R (S i) (S j) a b); [lia|exact Ha|exact Hb]. Qed.
Lemma sorted_starts_tail h x l : sorted_starts h (x :: l) -> sorted_starts h l.
Proof. intros R i j a b Hij Ha Hb. apply (R (S i) (S j) a b); [lia|exact Ha|exact Hb]. Qed.
Lemma rising_perm h l : forall m, rising h l -> sorted_starts h m -> Permutation m l -> m = l.
Proof.
  induction l as [|x l IH]; intros m R So P; [apply Permutation_sym, Permutation_nil in P; exact P|].
  destruct m as [|y m]; [apply Permutation_nil in P; discriminate|].
  assert (E : y = x).
  { destruct (Nat.eq_dec y x) as [|Hne]; [auto|exfalso].
    assert (Iy : In y l) by (destruct (Permutation_in y P (or_introl eq_refl)); [congruence|auto]).
    assert (Ix : In x m) by (destruct (Permutation_in x (Permutation_sym P) (or_introl eq_refl)); [congruence|auto]).
    destruct (In_nth_error _ _ Iy) as (i & Hi). destruct (In_nth_error _ _ Ix) as (j & Hj).
    destruct (R 0%nat (S i) x y ltac:(lia) eq_refl Hi) as (s & t & A & B & C).
    destruct (So 0%nat (S j) y x ltac:(lia) eq_refl Hj) as (s' & t' & A' & B' & C').
    rewrite A in B'. rewrite B in A'. injection A' as <-. injection B' as <-. lia. }
  subst y. f_equal. apply IH; [eapply rising_tail; eauto|eapply sorted_starts_tail; eauto|eapply Permutation_cons_inv; eauto].
Qed.

Section WithEnv.
Context `{Env}.
Opaque span_of.

Lemma sound_ends h c x : sound_child h c x -> exists e, end_of h x = Some e.
Proof. intros (_ & _ & _ & (s & Es) & (e & Ee)). unfold end_of. destruct (is_point_cls _ _); eauto. Qed.

(** [u.subset_list += [x]], the sum. *)
Lemma add_child h c u x : family h c u -> sound_child h c x -> ~ listed h (s_subset (sob h u)) x ->
  exists b h1, sl_add (OSeq u) (subset_slv (sob h u)) [x] h = Ok (Slv b (Some c)) h1 /\
    Permutation b (x :: s_subset (sob h u)) /\ sorted_starts h b /\
    (h1 = h \/ s_subset (sob h u) = [] /\ h1 = upd_seq u (set_s_subec (Some c)) h).
Proof.
  intros (Lu & Nu & Sc & Iu & Nd & Ss & Ec & Kd) Sx Nl.
  assert (Fl : List.filter (fun y => negb (sl_contains h (s_subset (sob h u)) y)) [x] = [x]).
  { cbn [List.filter]. rewrite (proj2 (negb_contains h _ x) Nl). reflexivity. }
  destruct Ec as [Ec|[Eb Ec]].
  - pose proof (sl_add_same h (OSeq u) (subset_slv (sob h u)) [x] c (or_introl Ec)) as A. unfold subset_slv in A. cbn [sv_vals sv_ec] in A.
    rewrite Fl in A. cbn [List.app] in A.
    assert (K : forall y, In y (s_subset (sob h u) ++ [x]) -> sound_child h c y).
    { intros y Hy. apply in_app_iff in Hy. destruct Hy as [Hy|[<-|[]]]; [apply Kd; auto|exact Sx]. }
    destruct A as (b & E & P & So & _).
    + intros y Hy. apply (Kd y Hy).
    + intros y [<-|[]]. apply Sx.
    + intros y Hy. apply (K y Hy).
    + intros y Hy. eapply sound_ends, K, Hy.
    + apply issubclass_refl.
    + exists b, h. split; [exact E|]. split; [|auto]. etransitivity; [exact P|]. symmetry. apply Permutation_cons_append.
  - exists [x], (upd_seq u (set_s_subec (Some c)) h). rewrite Eb. split; [|split; [reflexivity|split; [|auto]]].
    2:{ intros i j a b Hij Ha Hb. destruct j as [|[|j]]; [lia|discriminate|discriminate]. }
    unfold subset_slv. rewrite Eb, Ec. unfold sl_add. mstep. cbn [sv_vals sv_ec List.filter sl_contains existsb negb].
    mstep. unfold classes_of. cbn [map all_same forallb negb]. mstep. mstep.
    destruct Sx as (Lx & Cx & Nx & (s & Es) & (e & Ee)). rewrite Cx. cbn [set_owner_ec negb].
    mstep. set (h1 := upd_seq u (set_s_subec (Some c)) h).
    assert (F : s_cls (sob h1 x) = c /\ s_start (sob h1 x) = Some s /\ s_end (sob h1 x) = Some e).
    { unfold h1. destruct (Nat.eq_dec x u) as [->|Hne]; [rewrite sob_upd_eq by auto; simpl; auto|rewrite sob_upd_ne by auto; auto]. }
    destruct F as (F1 & F2 & F3). cbn [List.app].
    assert (Ef : forM [x] (fun o => c0 <- gets (fun h0 => s_cls (sob h0 o)) ;; (if Nat.eqb c0 c then ret tt else cast c o)) h1 = Ok tt h1).
    { cbn [forM]. unfold bind, gets, ret. rewrite F1, Nat.eqb_refl. reflexivity. }
    rewrite (bind_ok _ _ _ _ _ Ef).
    assert (Ei : sl_init [x] h1 = Ok (Slv [x] (Some c)) h1) by (unfold sl_init; cbn [classes_of map all_same forallb]; rewrite F1; reflexivity).
    rewrite (bind_ok _ _ _ _ _ Ei). cbn [sv_vals sv_ec].
    assert (Es' : sl_sort [x] h1 = Ok [x] h1) by reflexivity.
    rewrite (bind_ok _ _ _ _ _ Es').
    assert (Eo : exists v, sl_check_no_overlaps [x] h1 = Ok v h1).
    { unfold sl_check_no_overlaps, starts_of, ends_of, start_of, end_of. cbn [map]. rewrite F2, F3. destruct (is_point_cls _ _); cbn; eauto. }
    destruct Eo as (v & Eo). rewrite (bind_ok _ _ _ _ _ Eo). reflexivity.
Qed.

Lemma ungrouped_truthy h u t : ungrouped h u -> s_intier (sob h u) = Some t -> truthy_group h t = None.
Proof.
  intros U E. unfold truthy_group, tier_group. destruct (t_within (tob h t)) as [[o|t'|g|a]|] eqn:W; try reflexivity.
  rewrite (U t g E W). reflexivity.
Qed.
Lemma keep_own u b' l : forall h, s_subset (sob h u) = b' -> incl l b' ->
  forM l (fun o => isin <- gets (fun h0 => sl_contains h0 (s_subset (sob h0 u)) o) ;; if (isin : bool) then ret tt else remove_superset o) h = Ok tt h.
Proof.
  induction l as [|y l IH]; intros h E I; [reflexivity|]. cbn [forM]. rewrite (bind_ok _ _ h tt h).
  - apply IH; [exact E|intros z Hz; apply I; simpl; auto].
  - unfold bind, gets. rewrite E, contains_in by (apply I; simpl; auto). reflexivity.
Qed.
(** The setter, when the new list has the old children and those that come have no parent. *)
Lemma widen_ok h c u b' : (u < List.length (h_seq h))%nat -> s_label (sob h u) <> "#"%string -> subset_class h (s_cls (sob h u)) = Some c ->
  linkable h c b' -> b' <> [] -> ~ In u b' -> sorted_starts h b' -> known_starts h b' -> incl (s_subset (sob h u)) b' ->
  (forall y, In y b' -> s_super (sob h y) = None \/ s_super (sob h y) = Some u) ->
  exists h', subset_setter u b' h = Ok tt h' /\ wired c [u] [b'] h h'.
Proof.
  intros Lu Nu Sc Lk Ne Iu Ss Ks In0 Su.
  destruct (adopt_own u b' c h Lu Sc Lk Ne Ss Ks Su Iu Nu) as (h' & E & W). exists h'. split; [|exact W].
  unfold subset_setter. mstep. destruct (sl_init_spec h c b') as (b2 & Ei & _ & _ & Eq); [intros y Hy; apply Lk; auto|exact Ks|].
  rewrite (Eq Ss) in Ei. rewrite (bind_ok _ _ _ _ _ Ei). cbn [sv_vals]. rewrite (bind_ok _ _ _ _ _ E). apply (keep_own u b'); [|exact In0].
  pose proof (wi_up _ _ _ _ _ W) as F. apply Forall2_cons_1 in F. destruct F as [Q _]. rewrite Q. reflexivity.
Qed.

Lemma wired_one c u b h h' : wired c [u] [b] h h' ->
  sob h' u = put_kids b c (sob h u) /\ (forall y, In y b -> kid_of u (sob h y) (sob h' y)) /\ chained h' b /\
  (forall i, live h i -> i <> u -> ~ In i b -> sob h' i = sob h i).
Proof.
  intros [W1 W2 W3 W4 W5 W6 W7].
  apply Forall2_cons_1 in W5, W6, W7. destruct W5 as [Q5 _], W6 as [Q6 _], W7 as [Q7 _].
  split; [exact Q5|]. split; [exact Q6|]. split; [exact Q7|]. intros i Li Hu Hb. apply W4; [exact Li|intros [Q|[]]; auto|].
  simpl. rewrite app_nil_r. exact Hb.
Qed.

Lemma append_kid h c u x : family h c u -> sound_child h c x -> ~ listed h (s_subset (sob h u)) x -> x <> u ->
  s_super (sob h x) = None ->
  exists h' b, (v <- sl_add (OSeq u) (subset_slv (sob h u)) [x] ;; subset_setter u (sv_vals v)) h = Ok tt h' /\ Permutation b (x :: s_subset (sob h u)) /\ sorted_starts h b /\ wired c [u] [b] h h'.
Proof.
  intros Fa Sx Nl Hxu Hs. pose proof Fa as (Lu & Nu & Sc & Iu & Nd & Ss & Ec & Kd).
  destruct (add_child h c u x Fa Sx Nl) as (b & h1 & E1 & P & Sb & D).
  assert (Nx : ~ In x (s_subset (sob h u))) by (intros Q; apply Nl; exists x; auto).
  assert (Q1 : forall i, i <> u -> sob h1 i = sob h i).
  { intros i Hi. destruct D as [->|[_ ->]]; [reflexivity|apply sob_upd_ne; auto]. }
  assert (Qu : sob h1 u = sob h u \/ sob h1 u = set_s_subec (Some c) (sob h u)).
  { destruct D as [->|[_ ->]]; [auto|right; apply sob_upd_eq; exact Lu]. }
  assert (Rest : h_cls h1 = h_cls h /\ h_tier h1 = h_tier h /\ h_grp h1 = h_grp h /\ h_grid h1 = h_grid h /\ List.length (h_seq h1) = List.length (h_seq h)).
  { destruct D as [->|[_ ->]]; [auto|]. rewrite len_upd_seq. repeat split. }
  destruct Rest as (R1 & R2 & R3 & R4 & R5).
  assert (Ib : forall y, In y b <-> y = x \/ In y (s_subset (sob h u))).
  { intros y. split; intros Hy; [apply (Permutation_in y P) in Hy; simpl in Hy; intuition|].
    apply (Permutation_in y (Permutation_sym P)). simpl. intuition. }
  assert (Yu : forall y, In y b -> y <> u) by (intros y Hy Q; apply Ib in Hy; destruct Hy as [Hy|Hy]; congruence).
  assert (Sd : forall y, In y b -> sound_child h c y).
  { intros y Hy. apply Ib in Hy. destruct Hy as [->|Hy]; [exact Sx|apply Kd; auto]. }
  assert (U4 : s_cls (sob h1 u) = s_cls (sob h u) /\ s_label (sob h1 u) = s_label (sob h u) /\ s_subset (sob h1 u) = s_subset (sob h u) /\ s_intier (sob h1 u) = s_intier (sob h u)).
  { destruct Qu as [-> | ->]; simpl; auto. }
  destruct U4 as (U1 & U2 & U3 & U4).
  destruct (widen_ok h1 c u b) as (h' & E2 & W).
  - lia.
  - congruence.
  - rewrite U1, (subset_class_ext h h1) by auto. exact Sc.
  - split.
    + apply NoDup_ListNoDup. eapply Permutation_NoDup; [symmetry; exact P|]. apply NoDup_ListNoDup. apply NoDup_cons. rewrite elem_of_list_In. auto.
    + intros y Hy. rewrite (Q1 y) by auto. rewrite R5. destruct (Sd y Hy) as (A & B & C & _). auto.
  - intros ->. apply Permutation_nil in P. discriminate.
  - intros Q. apply (Yu u Q eq_refl).
  - eapply sorted_ext; [|exact Sb]. intros y Hy. rewrite Q1 by auto. reflexivity.
  - intros y Hy. rewrite (Q1 y) by auto. apply (Sd y Hy).
  - rewrite U3. intros y Hy. apply Ib. auto.
  - intros y Hy. rewrite (Q1 y) by auto. apply Ib in Hy. destruct Hy as [->|Hy]; [auto|right; apply Kd; auto].
  - exists h', b. destruct (wired_one _ _ _ _ _ W) as (V1 & V2 & V3 & V4).
    assert (W' : wired c [u] [b] h h').
    { destruct W as [(X1 & X2 & X3 & X4) W2 W3 W4 W5 W6 W7]. constructor.
      - repeat split; congruence.
      - lia.
      - intros i Hi Hn. apply W3; [exact Hi|]. unfold live in *. lia.
      - intros i Hi Hu Hb. rewrite <- (Q1 i) by (intros ->; apply Hu; simpl; auto). apply W4; auto. unfold live in *. lia.
      - constructor; [|constructor]. rewrite V1. destruct Qu as [-> | ->]; reflexivity.
      - constructor; [|constructor]. intros y Hy. rewrite <- (Q1 y) by auto. auto.
      - constructor; [exact V3|constructor]. }
    split; [|split; [exact P|split; [exact Sb|exact W']]].
    rewrite (bind_ok _ _ _ _ _ E1). exact E2.
Qed.
Lemma append_run_loose n h c u x h' : subset_class h (s_cls (sob h u)) = Some c -> s_cls (sob h x) = c ->
  (v <- sl_add (OSeq u) (subset_slv (sob h u)) [x] ;; subset_setter u (sv_vals v)) h = Ok tt h' ->
  s_intier (sob h' u) = s_intier (sob h u) -> h_tier h' = h_tier h -> h_grp h' = h_grp h -> ungrouped h u ->
  seq_append n u x h = Ok tt h'.
Proof.
  intros Sc Cx E T' X2 X3 Ug. unfold seq_append. mstep. mstep. rewrite Sc, Cx. unfold issubclass_m. mstep. rewrite issubclass_refl. cbn [negb]. mstep.
  destruct (sl_add (OSeq u) (subset_slv (sob h u)) [x] h) as [v h1|e h1] eqn:E1; [|rewrite (bind_raise _ _ _ _ _ E1) in E; discriminate].
  rewrite (bind_ok _ _ _ _ _ E1) in E. rewrite (bind_ok _ _ _ _ _ E1). rewrite (bind_ok _ _ _ _ _ E). mstep. rewrite T'.
  destruct (s_intier (sob h u)) as [t|] eqn:Et; [|reflexivity]. mstep. mstep.
  assert (Tg : truthy_group h' t = None).
  { assert (Q : truthy_group h' t = truthy_group h t) by (unfold truthy_group, tier_group, tob, gob; rewrite X2, X3; reflexivity).
    rewrite Q. eapply ungrouped_truthy; eauto. }
  rewrite Tg. destruct (t_seq (tob h' t)); reflexivity.
Qed.
Lemma append_child n h c u x : family h c u -> sound_child h c x -> ~ listed h (s_subset (sob h u)) x -> x <> u ->
  s_super (sob h x) = None -> ungrouped h u ->
  exists h' b, seq_append n u x h = Ok tt h' /\ Permutation b (x :: s_subset (sob h u)) /\ sorted_starts h b /\ wired c [u] [b] h h'.
Proof.
  intros Fa Sx Nl Hxu Hs Ug. destruct (append_kid h c u x Fa Sx Nl Hxu Hs) as (h' & b & E & P & Sb & W). exists h', b.
  split; [|split; [exact P|split; [exact Sb|exact W]]]. destruct (wired_one _ _ _ _ _ W) as (V1 & _). pose proof (wi_rest _ _ _ _ _ W) as (_ & X2 & X3 & _).
  apply (append_run_loose n h c); auto; [apply Fa|apply Sx|rewrite V1; reflexivity].
Qed.

(** ** When the new child had another parent *)
Definition kids_in (u : oid) (b : list oid) (c : cid) : seqobj -> seqobj :=
  fun o => set_s_contains (unalias (s_contains o) (s_subset o)) (set_s_subec (Some c) (set_s_subset b o)).
Definition take_loop (u : oid) (b : list oid) : M unit :=
  forM b (fun x => xo <- get_seq x ;;
    if bool_decide (s_super xo = Some u) then ret tt
    else remove_superset x ;;; mod_seq x (set_s_super (Some u))).
Lemma set_subset_split u b c h : subset_class h (s_cls (sob h u)) = Some c -> linkable h c b -> b <> [] ->
  sorted_starts h b -> known_starts h b ->
  set_subset_list u b h = (take_loop u b ;;; seq_set_contains u ;;; set_subset_precedence u) (upd_seq u (kids_in u b c) h).
Proof.
  intros Hsc [Nd Hall] Hne Hs Hk.
  destruct (sl_init_spec h c b) as (b' & Ei & _ & _ & Eq); [intros x Hx; apply Hall; auto|exact Hk|].
  rewrite (Eq Hs) in Ei. clear b' Eq. destruct b as [|b0 br] eqn:Eb; [congruence|]. rewrite <- Eb in *.
  assert (Ei' : sl_init b h = Ok (Slv b (Some c)) h) by (rewrite Ei; rewrite Eb; reflexivity). clear Ei.
  unfold set_subset_list. mstep. rewrite Hsc. rewrite (bind_ok _ _ _ _ _ (mapM_isinstance c b h)).
  assert (Eall : forallb id (map (fun x => issubclass h (s_cls (sob h x)) c) b) = true).
  { apply forallb_forall. intros v Hv. apply in_map_iff in Hv. destruct Hv as (z & <- & Hz). unfold id.
    destruct (Hall z Hz) as (_ & -> & _). apply issubclass_refl. }
  rewrite Eall. rewrite (bind_ok _ _ _ _ _ Ei'). unfold rebind_subset. mstep. cbn [sv_vals sv_ec]. reflexivity.
Qed.
Lemma skip_own u l : forall h k, (forall y, In y l -> s_super (sob h y) = Some u) ->
  (forM (l ++ k) (fun x => xo <- get_seq x ;;
    if bool_decide (s_super xo = Some u) then ret tt
    else remove_superset x ;;; mod_seq x (set_s_super (Some u)))) h = take_loop u k h.
Proof.
  induction l as [|y l IH]; intros h k A; [reflexivity|]. cbn [List.app forM]. rewrite (bind_ok _ _ h tt h).
  - apply IH. intros z Hz. apply A. simpl. auto.
  - unfold bind, get_seq, gets. rewrite (A y) by (simpl; auto). rewrite bool_decide_eq_true_2 by reflexivity. reflexivity.
Qed.
Lemma take_move u a x d h hB : (forall y, In y (a ++ d) -> s_super (sob h y) = Some u) -> s_super (sob h x) <> Some u ->
  remove_superset x h = Ok tt hB -> (forall y, In y (a ++ d) -> s_super (sob hB y) = Some u) -> ~ In x d ->
  take_loop u (a ++ x :: d) h = Ok tt (upd_seq x (set_s_super (Some u)) hB).
Proof.
  intros A Nx E B Nd. unfold take_loop. rewrite (skip_own u a h (x :: d)) by (intros y Hy; apply A, in_app_iff; auto).
  unfold take_loop. cbn [forM]. rewrite (bind_ok _ _ h tt (upd_seq x (set_s_super (Some u)) hB)).
  - rewrite <- (app_nil_r d). rewrite (skip_own u d _ []); [reflexivity|]. intros y Hy. rewrite sob_upd_ne by (intros ->; contradiction).
    apply B, in_app_iff. auto.
  - change (get_seq x) with (gets (fun h0 => sob h0 x)). mstep. rewrite bool_decide_eq_false_2 by auto. rewrite (bind_ok _ _ _ _ _ E). reflexivity.
Qed.
Lemma upds_still f l : forall h, (forall y, In y l -> f (sob h y) = sob h y) -> upds f l h = h.
Proof.
  induction l as [|y l IH]; intros h A; [reflexivity|]. cbn [upds]. rewrite upd_still by (apply A; simpl; auto). apply IH. intros z Hz. apply A. simpl. auto.
Qed.

(** What is left behind: [x] is loose, the children of [p] are [l]. *)
Record left_home (u x p : oid) (l : list oid) (h hm : heap) : Prop := {
  lh_rest : same_rest h hm;
  lh_len : (List.length (h_seq h) <= List.length (h_seq hm))%nat;
  lh_new : forall i, live hm i -> ~ live h i -> is_boundary hm i;
  lh_u : sob hm u = sob h u;
  lh_x : sob hm x = clear_super (sob h x);
  lh_p : sob hm p = set_s_subset l (sob h p);
  lh_kin : forall y, In y l -> erase (sob hm y) = erase (sob h y);
  lh_chain : chained hm l;
  lh_same : forall i, live h i -> i <> u -> i <> x -> i <> p -> ~ In i l -> sob hm i = sob h i
}.
Lemma move_in h c u x p b : (u < List.length (h_seq h))%nat -> s_label (sob h u) <> "#"%string -> subset_class h (s_cls (sob h u)) = Some c ->
  linkable h c b -> ~ In u b -> sorted_starts h b -> known_starts h b -> In x b ->
  (forall y, In y b -> y <> x -> s_super (sob h y) = Some u) -> housed_with h u x p ->
  exists hm h' l1 l2, set_subset_list u b h = Ok tt h' /\ s_subset (sob h p) = (l1 ++ x :: l2)%list /\
    left_home u x p (l1 ++ l2) h hm /\ wired c [u] [b] hm h'.
Proof.
  intros Lu Nu Sc Lk Iu Ss Ks Ix Su (Hp & Fx & Npu & Hup & Hpp & Hpu).
  assert (Lx : live h x) by (apply Lk; exact Ix). assert (Hxu : x <> u) by congruence.
  destruct (Fx p Hp) as (Lp & Hpx & Hx & Nd & Hall). destruct (in_split _ _ Hx) as (l1 & l2 & Hsub).
  assert (Nm := Nd). rewrite Hsub in Nm. destruct (NoDup_mid _ _ _ Nm) as (N1 & N2 & N3 & N4).
  set (hA := upd_seq u (kids_in u b c) h).
  assert (A1 : forall i, i <> u -> sob hA i = sob h i) by (intros i Hi; apply sob_upd_ne; auto).
  assert (Sv : forall y z, In y (s_subset (sob h p)) -> In z (s_subset (sob h p)) -> same_value hA y z -> same_value h y z).
  { intros y z Hy Hz. unfold same_value, is_point, is_point_cls. rewrite !A1 by congruence. rewrite !(issubclass_ext h hA) by reflexivity. auto. }
  destruct (remove_superset_child x p l1 l2 (s_cls (sob h x)) hA) as (hB & EB & (SB1 & SB2 & SB3)).
  { unfold hA. apply live_upd. exact Lx. }
  { unfold hA. apply live_upd. exact Lp. }
  { auto. }
  { rewrite A1 by auto. exact Hp. }
  { rewrite A1 by auto. exact Hsub. }
  { exact Nm. }
  { intros y Hy. rewrite <- Hsub in Hy. destruct (Hall y Hy) as (B1 & B2 & _ & B3). rewrite A1 by congruence.
    split; [unfold hA; apply live_upd; exact B1|]. split; [|exact B2]. symmetry. apply B3. exact Hx. }
  { intros y Hy V. rewrite <- Hsub in Hy. apply (Hall y Hy); auto. }
  set (hC := cut p (l1 ++ l2) x hA) in *.
  assert (LC : forall i, live hC i <-> live h i) by (intros i; unfold hC, cut, hA; rewrite !live_upd; reflexivity).
  assert (Cu : sob hC u = kids_in u b c (sob h u)) by (unfold hC, cut; rewrite !sob_upd_ne by auto; apply sob_upd_eq; exact Lu).
  assert (Cx : sob hC x = clear_super (sob h x)).
  { unfold hC, cut. rewrite sob_upd_eq by (apply live_upd; unfold hA; apply live_upd; exact Lx). rewrite sob_upd_ne, A1 by auto. reflexivity. }
  assert (Cp : sob hC p = set_s_subset (l1 ++ l2) (sob h p)).
  { unfold hC, cut. rewrite sob_upd_ne by auto. rewrite sob_upd_eq by (unfold hA; apply live_upd; exact Lp). rewrite A1 by auto. reflexivity. }
  assert (Co : forall i, i <> u -> i <> x -> i <> p -> sob hC i = sob h i).
  { intros i Hu1 Hx1 Hp1. unfold hC, cut. rewrite !sob_upd_ne by auto. apply A1; auto. }
  assert (Il : forall y, In y (l1 ++ l2) -> In y (s_subset (sob h p)) /\ y <> x).
  { intros y Hy. rewrite Hsub. split; [apply in_app_iff in Hy; apply in_app_iff; simpl; tauto|]. intros ->. apply in_app_iff in Hy. tauto. }
  assert (Nul : ~ In u (l1 ++ l2)) by (intros Q; apply Hup, Il, Q).
  assert (Npl : ~ In p (l1 ++ l2)) by (intros Q; apply Hpp, Il, Q).
  assert (Nxl : ~ In x (l1 ++ l2)) by (intros Q; apply Il in Q; tauto).
  assert (Bu : sob hB u = kids_in u b c (sob h u)) by (rewrite SB2; [exact Cu|apply LC; exact Lu|exact Nul]).
  assert (Bx : sob hB x = clear_super (sob h x)) by (rewrite SB2; [exact Cx|apply LC; exact Lx|exact Nxl]).
  assert (Bp : sob hB p = set_s_subset (l1 ++ l2) (sob h p)) by (rewrite SB2; [exact Cp|apply LC; exact Lp|exact Npl]).
  destruct SB1 as (RA & RB & RC & RD & RE & RF & RG).
  assert (LB : forall i, live h i -> live hB i) by (intros i Hi; apply LC in Hi; unfold live in *; lia).
  set (hm := upd_seq u (fun _ => sob h u) hB).
  assert (Mu : sob hm u = sob h u) by (unfold hm; rewrite sob_upd_eq by (apply LB; exact Lu); reflexivity).
  assert (Mo : forall i, i <> u -> sob hm i = sob hB i) by (intros i Hi; unfold hm; apply sob_upd_ne; auto).
  assert (Lm : forall i, live hm i <-> live hB i) by (intros i; unfold hm; apply live_upd).
  assert (Bk : forall y, In y (l1 ++ l2) -> erase (sob hB y) = erase (sob h y)).
  { intros y Hy. destruct (Il y Hy) as [Hy' Hyx]. destruct (Hall y Hy') as (Ly & _).
    rewrite RF by (apply LC; exact Ly). rewrite Co; [reflexivity| | |]; congruence. }
  assert (Bo : forall i, live h i -> i <> u -> i <> x -> i <> p -> ~ In i (l1 ++ l2) -> sob hB i = sob h i).
  { intros i Hi H1 H2 H3 H4. rewrite SB2; [apply Co; auto|apply LC; exact Hi|exact H4]. }
  assert (LH : left_home u x p (l1 ++ l2) h hm).
  { constructor.
    - unfold hm. repeat split; cbn; [rewrite RA|rewrite RB|rewrite RC|rewrite RD]; reflexivity.
    - unfold hm. rewrite len_upd_seq. assert (Q : List.length (h_seq hC) = List.length (h_seq h)) by (unfold hC, cut, hA; rewrite !len_upd_seq; reflexivity). lia.
    - intros i Hi Hn. apply Lm in Hi. assert (Hiu : i <> u) by (intros ->; apply Hn; exact Lu).
      assert (Bi : is_boundary hB i). { apply boundary_is_boundary; [exact Hi|]. apply RG; [exact Hi|]. rewrite LC. exact Hn. }
      destruct Bi as (K1 & K2). split; [apply Lm; exact Hi|]. rewrite Mo by exact Hiu. exact K2.
    - exact Mu.
    - rewrite Mo by auto. exact Bx.
    - rewrite Mo by auto. exact Bp.
    - intros y Hy. rewrite Mo by congruence. apply Bk. exact Hy.
    - apply (chained_ext hB hm); [|intros k (K1 & K2)|exact SB3].
      + intros y Hy. rewrite Mo by congruence. auto.
      + destruct (Nat.eq_dec k u) as [->|Hk].
        { exfalso. apply Nu. destruct K2 as (K4 & _). rewrite Bu in K4. exact K4. }
        split; [apply Lm; exact K1|]. rewrite Mo by exact Hk. exact K2.
    - intros i Hi H1 H2 H3 H4. rewrite Mo by exact H1. apply Bo; auto. }
  assert (Sup : forall y, In y b -> s_super (sob hB y) = (if decide (y = x) then None else Some u) /\ s_cls (sob hB y) = s_cls (sob h y) /\
     s_start (sob hB y) = s_start (sob h y) /\ s_label (sob hB y) = s_label (sob h y)).
  { intros y Hy. destruct (decide (y = x)) as [->|Hyx]; [rewrite Bx; repeat split|]. assert (Hs := Su y Hy Hyx).
    assert (Q : sob hB y = sob h y \/ sob hB y = set_s_subset (l1 ++ l2) (sob h y)).
    { destruct (Nat.eq_dec y p) as [->|Hyp]; [right; exact Bp|]. left. apply Bo; [apply Lk; exact Hy|congruence|exact Hyx|exact Hyp|].
      intros Q. destruct (Hall y) as (_ & _ & Q' & _); [apply Il, Q|]. congruence. }
    destruct Q as [-> | ->]; simpl; auto. }
  assert (Lk' : linkable hm c b).
  { destruct Lk as [La Lb]. split; [exact La|]. intros y Hy. destruct (Lb y Hy) as (B1 & B2 & B3). destruct (Sup y Hy) as (_ & S1 & _ & S3).
    split; [apply Lm, LB; exact B1|]. rewrite Mo by congruence. split; congruence. }
  assert (Ss' : sorted_starts hm b) by (eapply sorted_ext; [|exact Ss]; intros y Hy; rewrite Mo by congruence; apply Sup; exact Hy).
  assert (Ks' : known_starts hm b) by (intros y Hy; destruct (Ks y Hy) as (s & Es); exists s; rewrite Mo by congruence; destruct (Sup y Hy) as (_ & _ & -> & _); exact Es).
  assert (Ne : b <> []) by (intros ->; destruct Ix).
  assert (Sc' : subset_class hm (s_cls (sob hm u)) = Some c).
  { rewrite Mu, (subset_class_ext h hm); [exact Sc|]. apply (lh_rest _ _ _ _ _ _ LH). }
  destruct (adopt_own u b c hm) as (h' & E' & W); auto.
  { apply Lm, LB. exact Lu. }
  { intros y Hy. rewrite Mo by congruence. destruct (Sup y Hy) as (-> & _). destruct (decide (y = x)); auto. }
  { rewrite Mu. exact Nu. }
  exists hm, h', l1, l2. split; [|split; [exact Hsub|split; [exact LH|exact W]]].
  rewrite (set_subset_split u b c h) by auto. fold hA. rewrite (set_subset_split u b c hm) in E' by auto.
  assert (EhB : upd_seq u (kids_in u b c) hm = hB).
  { transitivity (upd_seq u (fun _ => sob hB u) hB).
    - unfold hm, upd_seq. cbn. f_equal. apply list_eq. intros i. destruct (decide (i = u)) as [->|Hi]; [|rewrite !list_lookup_alter_ne; auto].
      rewrite !list_lookup_alter. destruct (h_seq hB !! u); [|reflexivity]. cbn. rewrite Bu. reflexivity.
    - apply upd_still. reflexivity. }
  rewrite EhB in E'.
  destruct (in_split _ _ Ix) as (a & d & Eb). assert (Nb := proj1 Lk). rewrite Eb in Nb. destruct (NoDup_mid _ _ _ Nb) as (M1 & M2 & _ & _).
  assert (Iad : forall y, In y (a ++ d) -> In y b /\ y <> x).
  { intros y Hy. rewrite Eb. split; [apply in_app_iff in Hy; apply in_app_iff; simpl; tauto|]. intros ->. apply in_app_iff in Hy. tauto. }
  assert (TA : take_loop u b hA = Ok tt (upd_seq x (set_s_super (Some u)) hB)).
  { rewrite Eb. apply take_move; [| |exact EB| |exact M2].
    - intros y Hy. destruct (Iad y Hy) as [Hy1 Hy2]. rewrite A1 by congruence. apply Su; auto.
    - rewrite A1 by auto. congruence.
    - intros y Hy. destruct (Iad y Hy) as [Hy1 Hy2]. destruct (Sup y Hy1) as (-> & _). destruct (decide (y = x)); [contradiction|reflexivity]. }
  assert (TB : take_loop u b hB = Ok tt (upd_seq x (set_s_super (Some u)) hB)).
  { rewrite Eb. apply take_move; [| | | |exact M2].
    - intros y Hy. destruct (Iad y Hy) as [Hy1 Hy2]. destruct (Sup y Hy1) as (-> & _). destruct (decide (y = x)); [contradiction|reflexivity].
    - rewrite Bx. discriminate.
    - unfold remove_superset. rewrite Bx. reflexivity.
    - intros y Hy. destruct (Iad y Hy) as [Hy1 Hy2]. destruct (Sup y Hy1) as (-> & _). destruct (decide (y = x)); [contradiction|reflexivity]. }
  rewrite (bind_ok _ _ _ _ _ TA). rewrite (bind_ok _ _ _ _ _ TB) in E'. exact E'.
Qed.

(** ** Reading off the result *)
Lemma sound_kept h h' c x : sound_child h c x -> (List.length (h_seq h) <= List.length (h_seq h'))%nat ->
  s_cls (sob h' x) = s_cls (sob h x) -> s_start (sob h' x) = s_start (sob h x) -> s_end (sob h' x) = s_end (sob h x) ->
  s_label (sob h' x) = s_label (sob h x) -> sound_child h' c x.
Proof.
  intros (A & B & C & (s & D) & (e & F)) L E1 E2 E3 E4. split; [lia|]. split; [congruence|]. split; [congruence|].
  split; [exists s; congruence|exists e; congruence].
Qed.
Lemma wired_rears c u b h h' : wired c [u] [b] h h' -> (u < List.length (h_seq h))%nat -> s_label (sob h u) <> "#"%string ->
  subset_class h (s_cls (sob h u)) = Some c -> ~ In u b -> NoDup b -> sorted_starts h b -> (forall y, In y b -> sound_child h c y) ->
  rears h h' c u b /\ only_links h h' /\ sorted_starts h' b /\ (forall y, In y b -> same_but_home (sob h y) (sob h' y)).
Proof.
  intros W Lu Nu Sc Iu Nd Ss Sd. destruct (wired_one _ _ _ _ _ W) as (V1 & V2 & V3 & V4).
  pose proof (wi_rest _ _ _ _ _ W) as (R1 & R2 & R3 & R4). pose proof (wi_len _ _ _ _ _ W) as Le.
  assert (Ss' : sorted_starts h' b) by (eapply sorted_ext; [|exact Ss]; intros y Hy; apply (V2 y Hy)).
  assert (Fa : family h' c u).
  { unfold family. rewrite V1. cbn [put_kids s_label s_cls s_subset s_subec set_s_contains set_s_subec set_s_subset]. split; [lia|]. split; [exact Nu|]. split; [rewrite (subset_class_ext h h') by auto; exact Sc|].
    split; [exact Iu|]. split; [exact Nd|]. split; [exact Ss'|]. split; [auto|].
    intros y Hy. destruct (V2 y Hy) as (K1 & K2 & K3 & K4 & K5 & _). split; [|exact K5]. apply (sound_kept h); auto. }
  split; [|split; [|split; [exact Ss'|]]].
  - split; [rewrite V1; reflexivity|]. split; [rewrite V1; repeat split|]. split; [cbn; rewrite V1; reflexivity|].
    split; [|split; [exact V3|exact Fa]]. intros y Hy. destruct (V2 y Hy) as (_ & _ & _ & _ & K5 & _ & _ & _ & K9 & _). auto.
  - repeat (split; [assumption|]). intros i Hi. apply (wi_new _ _ _ _ _ W); unfold live; lia.
  - intros y Hy. destruct (V2 y Hy) as (K1 & K2 & K3 & K4 & K5 & K6 & K7 & K8 & K9 & K10). repeat split; assumption.
Qed.

Lemma c67_append : forall n h c u x, family h c u -> sound_child h c x -> ~ listed h (s_subset (sob h u)) x -> x <> u ->
  s_super (sob h x) = None -> ungrouped h u ->
  exists h' b, seq_append n u x h = Ok tt h' /\
    Permutation b (x :: s_subset (sob h u)) /\ sorted_starts h' b /\
    (forall a d, s_subset (sob h u) = (a ++ d)%list -> rising h (a ++ x :: d) -> b = (a ++ x :: d)%list) /\
    rears h h' c u b /\ only_links h h' /\ (forall y, In y b -> same_but_home (sob h y) (sob h' y)) /\
    forall i, (i < List.length (h_seq h))%nat -> i <> u -> ~ In i b -> sob h' i = sob h i.
Proof.
  intros n h c u x Fa Sx Nl Hxu Hs Ug. destruct (append_child n h c u x Fa Sx Nl Hxu Hs Ug) as (h' & b & E & P & Sb & W).
  pose proof Fa as (Lu & Nu & Sc & Iu & Nd & Ss & Ec & Kd).
  assert (Nx : ~ In x (s_subset (sob h u))) by (intros Q; apply Nl; exists x; auto).
  assert (Ib : forall y, In y b -> y = x \/ In y (s_subset (sob h u))).
  { intros y Hy. apply (Permutation_in y P) in Hy. simpl in Hy. intuition. }
  destruct (wired_rears c u b h h' W) as (A1 & A2 & A3 & A4); auto.
  { intros Q. destruct (Ib u Q); [congruence|contradiction]. }
  { apply NoDup_ListNoDup. eapply Permutation_NoDup; [symmetry; exact P|]. apply NoDup_ListNoDup. apply NoDup_cons. rewrite elem_of_list_In. auto. }
  { intros y Hy. destruct (Ib y Hy) as [->|Q]; [exact Sx|apply Kd; exact Q]. }
  exists h', b. split; [exact E|]. split; [exact P|]. split; [exact A3|]. split; [|split; [exact A1|split; [exact A2|split; [exact A4|]]]].
  - intros a d Ead R. apply (rising_perm h); [exact R|exact Sb|]. etransitivity; [exact P|]. rewrite Ead. apply Permutation_middle.
  - intros i Li Hu Hb. destruct (wired_one _ _ _ _ _ W) as (_ & _ & _ & V4). apply V4; auto.
Qed.

Lemma housed_ext h h1 u x p : (forall i, i <> u -> sob h1 i = sob h i) -> s_subset (sob h1 u) = s_subset (sob h u) -> h_cls h1 = h_cls h ->
  List.length (h_seq h1) = List.length (h_seq h) -> x <> u -> housed_with h u x p -> housed_with h1 u x p.
Proof.
  intros Q Qu Cl Le Hxu (Hp & Fx & Npu & Hup & Hpp & Hpu). unfold housed_with. rewrite !(Q p), !(Q x), Qu by auto.
  split; [exact Hp|]. split; [|auto]. intros p' Hp'. rewrite (Q x) in Hp' by auto. assert (p' = p) by congruence. subst p'.
  destruct (Fx p Hp) as (Lp & Hpx & Hx & Nd & Hall). rewrite (Q p) by auto. split; [lia|]. split; [exact Hpx|]. split; [exact Hx|].
  unfold brood. rewrite (Q p) by auto. split; [exact Nd|]. intros y Hy. destruct (Hall y Hy) as (A & B & C & D).
  rewrite (Q y) by congruence. rewrite Le. split; [exact A|]. split; [exact B|]. split; [exact C|]. intros z Hz. destruct (D z Hz) as [D1 D2].
  rewrite (Q z) by congruence. split; [exact D1|]. intros V. apply D2. revert V.
  unfold same_value, is_point, is_point_cls. rewrite (Q y), (Q z) by congruence. rewrite !(issubclass_ext h h1) by exact Cl. auto.
Qed.

Lemma c67_moved : forall n h c u x p, family h c u -> sound_child h c x -> ~ listed h (s_subset (sob h u)) x -> x <> u ->
  housed_with h u x p -> ungrouped h u ->
  exists h' b l1 l2, seq_append n u x h = Ok tt h' /\
    Permutation b (x :: s_subset (sob h u)) /\ sorted_starts h' b /\
    (forall a d, s_subset (sob h u) = (a ++ d)%list -> rising h (a ++ x :: d) -> b = (a ++ x :: d)%list) /\
    rears h h' c u b /\ only_links h h' /\ (forall y, In y b -> same_but_home (sob h y) (sob h' y)) /\
    s_subset (sob h p) = (l1 ++ x :: l2)%list /\ s_subset (sob h' p) = (l1 ++ l2)%list /\ same_but_kids (sob h p) (sob h' p) /\
    chained h' (l1 ++ l2) /\
    (forall y, In y (l1 ++ l2) -> same_but_home (sob h y) (sob h' y) /\ s_super (sob h' y) = Some p) /\
    forall i, (i < List.length (h_seq h))%nat -> i <> u -> i <> p -> ~ In i b -> ~ In i (l1 ++ l2) -> sob h' i = sob h i.
Proof.
  intros n h c u x p Fa Sx Nl Hxu Ho Ug. pose proof Fa as (Lu & Nu & Sc & Iu & Nd & Ss & Ec & Kd).
  destruct (add_child h c u x Fa Sx Nl) as (b & h1 & E1 & P & Sb & D).
  assert (Nx : ~ In x (s_subset (sob h u))) by (intros Q; apply Nl; exists x; auto).
  assert (Q1 : forall i, i <> u -> sob h1 i = sob h i).
  { intros i Hi. destruct D as [->|[_ ->]]; [reflexivity|apply sob_upd_ne; auto]. }
  assert (Qu : sob h1 u = sob h u \/ sob h1 u = set_s_subec (Some c) (sob h u)).
  { destruct D as [->|[_ ->]]; [auto|right; apply sob_upd_eq; exact Lu]. }
  assert (Rest : h_cls h1 = h_cls h /\ h_tier h1 = h_tier h /\ h_grp h1 = h_grp h /\ h_grid h1 = h_grid h /\ List.length (h_seq h1) = List.length (h_seq h)).
  { destruct D as [->|[_ ->]]; [auto|]. rewrite len_upd_seq. repeat split. }
  destruct Rest as (R1 & R2 & R3 & R4 & R5).
  assert (Ib : forall y, In y b <-> y = x \/ In y (s_subset (sob h u))).
  { intros y. split; intros Hy; [apply (Permutation_in y P) in Hy; simpl in Hy; intuition|].
    apply (Permutation_in y (Permutation_sym P)). simpl. intuition. }
  assert (Yu : forall y, In y b -> y <> u) by (intros y Hy Q; apply Ib in Hy; destruct Hy as [Hy|Hy]; congruence).
  assert (Sd : forall y, In y b -> sound_child h c y).
  { intros y Hy. apply Ib in Hy. destruct Hy as [->|Hy]; [exact Sx|apply Kd; auto]. }
  assert (U4 : s_cls (sob h1 u) = s_cls (sob h u) /\ s_label (sob h1 u) = s_label (sob h u) /\ s_subset (sob h1 u) = s_subset (sob h u) /\ s_intier (sob h1 u) = s_intier (sob h u)
     /\ same_but_kids (sob h u) (sob h1 u)).
  { destruct Qu as [-> | ->]; repeat split. }
  destruct U4 as (U1 & U2 & U3 & U4 & U5).
  assert (Nb : NoDup b).
  { apply NoDup_ListNoDup. eapply Permutation_NoDup; [symmetry; exact P|]. apply NoDup_ListNoDup. apply NoDup_cons. rewrite elem_of_list_In. auto. }
  assert (Lk1 : linkable h1 c b).
  { split; [exact Nb|]. intros y Hy. rewrite (Q1 y) by auto. rewrite R5. destruct (Sd y Hy) as (A & B & C & _). auto. }
  assert (Ss1 : sorted_starts h1 b) by (eapply sorted_ext; [|exact Sb]; intros y Hy; rewrite Q1 by auto; reflexivity).
  assert (Ks1 : known_starts h1 b) by (intros y Hy; rewrite (Q1 y) by auto; apply (Sd y Hy)).
  destruct (move_in h1 c u x p b) as (hm & h' & l1 & l2 & E2 & Hsub & LH & W).
  { lia. }
  { congruence. }
  { rewrite U1, (subset_class_ext h h1) by auto. exact Sc. }
  { exact Lk1. }
  { intros Q. apply (Yu u Q eq_refl). }
  { exact Ss1. }
  { exact Ks1. }
  { apply Ib. auto. }
  { intros y Hy Hyx. rewrite (Q1 y) by auto. apply Ib in Hy. destruct Hy as [->|Hy]; [congruence|apply Kd; auto]. }
  { eapply housed_ext; eauto. }
  destruct Ho as (Hp & Fx & Npu & Hup & Hpp & Hpu). destruct (Fx p Hp) as (Lp & Hpx & Hx & Ndp & Hall).
  rewrite (Q1 p) in Hsub by auto.
  assert (Il : forall y, In y (l1 ++ l2) -> In y (s_subset (sob h p)) /\ y <> x).
  { rewrite Hsub in *. destruct (NoDup_mid _ _ _ Ndp) as (N1 & N2 & N3 & N4). intros y Hy.
    split; [apply in_app_iff in Hy; apply in_app_iff; simpl; tauto|]. intros ->. apply in_app_iff in Hy. tauto. }
  destruct LH as [(M1 & M2 & M3 & M4) M5 M6 M7 M8 M9 M10 M11 M12].
  assert (Bl : forall y, In y b -> ~ In y (l1 ++ l2)).
  { intros y Hy Q. destruct (Il y Q) as [Q2 Q3]. apply Ib in Hy. destruct Hy as [Hy|Hy]; [contradiction|]. destruct (Hall y Q2) as (_ & _ & Q4 & _).
    destruct (Kd y Hy) as [_ Q5]. congruence. }
  assert (Pb : ~ In p b) by (intros Q; apply Ib in Q; destruct Q; [congruence|contradiction]).
  assert (Val : forall y, In y b -> same_but_home (sob h y) (sob hm y)).
  { intros y Hy. destruct (Nat.eq_dec y x) as [->|Hyx]; [rewrite M8, Q1 by auto; repeat split|].
    rewrite M12; [rewrite Q1 by auto; repeat split|unfold live; rewrite R5; apply Sd; exact Hy|auto|exact Hyx|congruence|apply Bl; exact Hy]. }
  assert (Mu : sob hm u = sob h1 u) by exact M7.
  destruct (wired_rears c u b hm h' W) as (A1 & A2 & A3 & A4).
  { lia. }
  { rewrite Mu. congruence. }
  { rewrite Mu, U1, (subset_class_ext h1 hm), (subset_class_ext h h1) by auto. exact Sc. }
  { intros Q. apply (Yu u Q eq_refl). }
  { exact Nb. }
  { eapply sorted_ext; [|exact Sb]. intros y Hy. apply (Val y Hy). }
  { intros y Hy. apply (sound_kept h); [apply Sd; exact Hy|lia|apply (Val y Hy)..]. }
  destruct (wired_one _ _ _ _ _ W) as (V1 & V2 & V3 & V4).
  destruct A1 as (B1 & B2 & B3 & B4 & B5 & B6). destruct A2 as (C1 & C2 & C3 & C4 & C5 & C6).
  assert (Lm : forall i, (i < List.length (h_seq h))%nat -> live hm i) by (intros i Hi; unfold live; lia).
  assert (NlU : ~ In u (l1 ++ l2)) by (intros Q; apply Hup, Il, Q).
  assert (Kl : forall y, In y (l1 ++ l2) -> sob h' y = sob hm y).
  { intros y Hy. apply V4; [apply Lm, (Hall y), Il; exact Hy|congruence|]. intros Q. apply (Bl y Q Hy). }
  assert (Hpe : sob h' p = sob hm p) by (apply V4; [apply Lm; exact Lp|exact Npu|exact Pb]).
  exists h', b, l1, l2. split; [|split; [exact P|split; [exact A3|split; [|split; [|split; [|split; [|split; [exact Hsub|]]]]]]]].
  - unfold seq_append. mstep. mstep. rewrite Sc. destruct Sx as (Lx & Cx & _). rewrite Cx. unfold issubclass_m. mstep. rewrite issubclass_refl. cbn [negb].
    mstep. rewrite (bind_ok _ _ _ _ _ E1). cbn [sv_vals].
    assert (E3 : subset_setter u b h1 = Ok tt h').
    { unfold subset_setter. mstep. destruct (sl_init_spec h1 c b) as (b2 & Ei & _ & _ & Eq); [intros y Hy; apply Lk1; auto|exact Ks1|].
      rewrite (Eq Ss1) in Ei. rewrite (bind_ok _ _ _ _ _ Ei). cbn [sv_vals]. rewrite (bind_ok _ _ _ _ _ E2). apply (keep_own u b); [exact B1|].
      rewrite U3. intros y Hy. apply Ib. auto. }
    rewrite (bind_ok _ _ _ _ _ E3). mstep.
    assert (T' : s_intier (sob h' u) = s_intier (sob h u)) by (destruct B2 as (_ & _ & _ & _ & _ & _ & _ & _ & ->); rewrite Mu; exact U4). rewrite T'.
    destruct (s_intier (sob h u)) as [t|] eqn:Et; [|reflexivity]. mstep. mstep.
    assert (Tg : truthy_group h' t = None).
    { assert (Q : truthy_group h' t = truthy_group h t) by (unfold truthy_group, tier_group, tob, gob; rewrite C2, C3, M2, M3, R2, R3; reflexivity).
      rewrite Q. eapply ungrouped_truthy; eauto. }
    rewrite Tg. destruct (t_seq (tob h' t)); reflexivity.
  - intros a d Ead R. apply (rising_perm h); [exact R|exact Sb|]. etransitivity; [exact P|]. rewrite Ead. apply Permutation_middle.
  - split; [exact B1|]. split; [rewrite Mu in B2; destruct U5 as (F1 & F2 & F3 & F4 & F5 & F6 & F7 & F8 & F9); destruct B2 as (G1 & G2 & G3 & G4 & G5 & G6 & G7 & G8 & G9); repeat split; congruence|].
    split; [exact B3|]. split; [exact B4|]. split; [exact B5|exact B6].
  - split; [congruence|]. split; [congruence|]. split; [congruence|]. split; [congruence|]. split; [lia|]. intros i Hi.
    destruct (le_lt_dec (List.length (h_seq hm)) i) as [Q|Q]; [apply C6; lia|].
    assert (Bi : is_boundary hm i) by (apply M6; unfold live; lia).
    assert (Iu' : i <> u) by lia. assert (Ib' : ~ In i b) by (intros Q2; apply Sd in Q2; destruct Q2 as (Q2 & _); lia).
    destruct Bi as (K1 & K2). split; [lia|]. rewrite V4; [exact K2|unfold live; lia|exact Iu'|exact Ib'].
  - intros y Hy. destruct (Val y Hy) as (F1 & F2 & F3 & F4 & F5 & F6 & F7). destruct (A4 y Hy) as (G1 & G2 & G3 & G4 & G5 & G6 & G7). repeat split; congruence.
  - rewrite Hpe, M9, (Q1 p) by auto. split; [reflexivity|]. split; [repeat split|]. split.
    + apply (chained_ext hm h'); [intros y Hy; rewrite Kl by exact Hy; auto| |exact M11]. intros k Bk.
      destruct Bk as (K1 & K2 & K3). assert (Ku : k <> u).
      { intros ->. rewrite Mu, U2 in K2. contradiction. }
      assert (Kb : ~ In k b) by (intros Q; destruct (Val k Q) as (_ & _ & _ & F4 & _); destruct (Sd k Q) as (_ & _ & F5 & _); congruence).
      split; [lia|]. rewrite V4 by auto. auto.
    + split.
      * intros y Hy. rewrite Kl by exact Hy. specialize (M10 y Hy). apply erase_fields in M10. rewrite (Q1 y) in M10 by congruence.
        destruct M10 as (F1 & F2 & F3 & F4 & F5 & F6 & F7 & F8 & F9 & F10). split; [repeat split; assumption|]. rewrite F5. apply (Hall y), Il. exact Hy.
      * intros i Li Hu Hp1 Hb Hl. rewrite V4; [|apply Lm; exact Li|exact Hu|exact Hb]. rewrite M12; [apply Q1; exact Hu|unfold live; lia|exact Hu| |exact Hp1|exact Hl].
        intros ->. apply Hb, Ib. auto.
Qed.

Lemma c67_twin : forall n h c u x, family h c u -> (x < List.length (h_seq h))%nat -> s_cls (sob h x) = c -> x <> u -> ~ In x (s_subset (sob h u)) ->
  listed h (s_subset (sob h u)) x -> ungrouped h u ->
  exists h', seq_append n u x h = Ok tt h' /\ s_subset (sob h' u) = s_subset (sob h u) /\ sob h' x = sob h x.
Proof.
  intros n h c u x Fa Lx Cx Hxu Nx Li Ug. pose proof Fa as (Lu & Nu & Sc & Iu & Nd & Ss & Ec & Kd).
  assert (Ne : s_subset (sob h u) <> []) by (destruct Li as (y & Hy & _); intros Q; rewrite Q in Hy; destruct Hy).
  destruct (widen_ok h c u (s_subset (sob h u))) as (h' & E & W); auto.
  { split; [exact Nd|]. intros y Hy. destruct (Kd y Hy) as ((A & B & C & _) & _). auto. }
  { intros y Hy. apply (Kd y Hy). }
  { intros y Hy. exact Hy. }
  { intros y Hy. right. apply (Kd y Hy). }
  destruct (wired_one _ _ _ _ _ W) as (V1 & V2 & V3 & V4). pose proof (wi_rest _ _ _ _ _ W) as (R1 & R2 & R3 & R4).
  exists h'. split; [|split; [rewrite V1; reflexivity|apply V4; auto]].
  unfold seq_append. mstep. mstep. rewrite Sc, Cx. unfold issubclass_m. mstep. rewrite issubclass_refl. cbn [negb]. mstep.
  assert (Ea : sl_add (OSeq u) (subset_slv (sob h u)) [x] h = Ok (subset_slv (sob h u)) h).
  { unfold sl_add. mstep. cbn [List.filter subset_slv sv_vals]. rewrite (proj2 (sl_contains_iff h _ x) Li). reflexivity. }
  rewrite (bind_ok _ _ _ _ _ Ea). cbn [subset_slv sv_vals]. rewrite (bind_ok _ _ _ _ _ E). mstep.
  assert (T' : s_intier (sob h' u) = s_intier (sob h u)) by (rewrite V1; reflexivity). rewrite T'.
  destruct (s_intier (sob h u)) as [t|] eqn:Et; [|reflexivity]. mstep. mstep.
  assert (Tg : truthy_group h' t = None).
  { assert (Q : truthy_group h' t = truthy_group h t) by (unfold truthy_group, tier_group, tob, gob; rewrite R2, R3; reflexivity).
    rewrite Q. eapply ungrouped_truthy; eauto. }
  rewrite Tg. destruct (t_seq (tob h' t)); reflexivity.
Qed.

Lemma c67_refused : forall n h u x c, subset_class h (s_cls (sob h u)) = Some c -> issubclass h c (s_cls (sob h x)) = false ->
  seq_append n u x h = Raise ValueError h.
Proof.
  intros n h u x c Sc Ns. unfold seq_append. mstep. mstep. rewrite Sc. unfold issubclass_m. mstep. rewrite Ns. reflexivity.
Qed.
End WithEnv.
