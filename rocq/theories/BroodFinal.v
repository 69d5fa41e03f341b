(** * BroodFinal: appending a child to an interval in a tier of a group (C67). *)
From Verif Require Export GrowFinal ChildFinal.
Open Scope Z_scope.

Section WithEnv.
Context `{Env}.
Opaque span_of.

Lemma span_vals h h' x : s_start (sob h' x) = s_start (sob h x) -> s_end (sob h' x) = s_end (sob h x) -> span_of h' x = span_of h x.
Proof. intros A B. with_strategy transparent [span_of] unfold span_of. rewrite A, B. reflexivity. Qed.

(** What adding children to [u] leaves alone. *)
Record reared (u : oid) (b : list oid) (h h1 : heap) : Prop := {
  ra_cls : h_cls h1 = h_cls h;
  ra_tier : h_tier h1 = h_tier h;
  ra_grp : h_grp h1 = h_grp h;
  ra_len : (List.length (h_seq h) <= List.length (h_seq h1))%nat;
  ra_val : forall i, live h i -> kept (sob h i) (sob h1 i);
  ra_kids : forall i, live h i -> i <> u -> s_subset (sob h1 i) = s_subset (sob h i);
  ra_super : forall i, live h i -> ~ In i b -> s_super (sob h1 i) = s_super (sob h i)
}.
Lemma wired_reared c u b h h1 : wired c [u] [b] h h1 -> ~ In u b -> reared u b h h1.
Proof.
  intros W Nu. destruct (wired_one _ _ _ _ _ W) as (V1 & V2 & V3 & V4). pose proof (wi_rest _ _ _ _ _ W) as (R1 & R2 & R3 & R4).
  pose proof (wi_len _ _ _ _ _ W) as Le.
  assert (D : forall i, live h i -> sob h1 i = sob h i \/ i = u \/ In i b).
  { intros i Hi. destruct (Nat.eq_dec i u); [auto|]. destruct (in_dec Nat.eq_dec i b); [auto|]. left. apply V4; auto. }
  constructor; auto.
  - intros i Hi. destruct (D i Hi) as [-> |[-> |Q]]; [apply kept_refl|rewrite V1; unfold kept, put_kids; simpl; auto|].
    destruct (V2 i Q) as (K1 & K2 & K3 & K4 & K5 & K6 & K7 & K8 & _). unfold kept. auto.
  - intros i Hi Hu. destruct (D i Hi) as [-> |[Q|Q]]; [reflexivity|contradiction|]. destruct (V2 i Q) as (_ & _ & _ & _ & _ & K6 & _). exact K6.
  - intros i Hi Hb. destruct (D i Hi) as [-> |[-> |Q]]; [reflexivity|rewrite V1; reflexivity|contradiction].
Qed.
Lemma reared_skel u b h h1 g ts : reared u b h h1 -> skel h g ts -> skel h1 g ts.
Proof.
  intros R S. constructor.
  - unfold gob. rewrite (ra_grp _ _ _ _ R). apply S.
  - pose proof (sk_contains _ _ _ S) as C. unfold contains_of, gob in *. rewrite (ra_grp _ _ _ _ R). exact C.
  - intros t Ht. unfold tob. rewrite (ra_tier _ _ _ _ R). apply S, Ht.
  - unfold tob. rewrite (ra_tier _ _ _ _ R). apply S.
  - intros t y Ht Hy. unfold tob in Hy. rewrite (ra_tier _ _ _ _ R) in Hy. destruct (sk_entry _ _ _ S t y Ht Hy) as (A & B & C).
    pose proof (ra_len _ _ _ _ R). split; [lia|]. unfold tob. rewrite (ra_tier _ _ _ _ R).
    destruct (ra_val _ _ _ _ R y A) as (D1 & _ & _ & _ & D5). rewrite D1, D5. auto.
  - intros t Ht. unfold tob. rewrite (ra_tier _ _ _ _ R). eapply sorted_ext; [|apply S; exact Ht]. intros y Hy.
    apply (ra_val _ _ _ _ R). apply (sk_entry _ _ _ S t y Ht Hy).
  - intros t Ht. unfold classed, tob. rewrite (ra_tier _ _ _ _ R). apply S, Ht.
Qed.

Lemma reared_sprout u b h h1 : reared u b h h1 -> forall ts x, sprout h ts x -> ~ In (s_cls (sob h u)) (map (fun t => t_ec (tob h t)) ts) ->
  (forall y, In y b -> ~ In (s_cls (sob h y)) (map (fun t => t_ec (tob h t)) (tl ts))) ->
  sprout h1 ts x /\ forall k, level h1 k x = level h k x.
Proof.
  intros R. induction ts as [|t r IH]; intros x Sp Nu Nb; [destruct Sp|]. destruct Sp as (Lx & Cx & Hl & Dx & Kx).
  destruct (ra_val _ _ _ _ R x Lx) as (V1 & V2 & V3 & V4 & _). pose proof (ra_len _ _ _ _ R) as Le.
  assert (Et : forall w, tob h1 w = tob h w) by (intros w; unfold tob; rewrite (ra_tier _ _ _ _ R); reflexivity).
  assert (Xu : x <> u) by (intros ->; apply Nu; simpl; auto).
  assert (Kd : s_subset (sob h1 x) = s_subset (sob h x)) by (apply (ra_kids _ _ _ _ R); auto).
  cbn [map tl] in Nu, Nb. destruct r as [|t2 r].
  - split.
    + cbn [sprout]. rewrite V1, V4, Kd, Et. split; [lia|]. split; [exact Cx|]. split; [exact Hl|]. split; [apply (dated_same h h1); auto|exact Kx].
    + intros [|k]; [reflexivity|]. cbn [level]. rewrite Kd, Kx. reflexivity.
  - destruct Kx as (Fi & Br & Ks).
    assert (Ky : forall y, In y (s_subset (sob h x)) -> sprout h1 (t2 :: r) y /\ forall k, level h1 k y = level h k y).
    { intros y Hy. apply IH; [apply Ks; exact Hy|intros Q; apply Nu; simpl; auto|]. intros z Hz Q. apply (Nb z Hz). simpl in *. auto. }
    split.
    + change (sprout h1 (t :: t2 :: r) x) with ((x < List.length (h_seq h1))%nat /\ s_cls (sob h1 x) = t_ec (tob h1 t) /\ s_label (sob h1 x) <> "#"%string /\ dated h1 x /\
        (fills h1 x (s_subset (sob h1 x)) /\ brood h1 x /\ forall y, In y (s_subset (sob h1 x)) -> sprout h1 (t2 :: r) y)).
      unfold brood. rewrite V1, V4, Kd, Et. split; [lia|]. split; [exact Cx|]. split; [exact Hl|]. split; [apply (dated_same h h1); auto|].
      destruct Br as (Bn & Br). split; [|split; [split; [exact Bn|]|intros y Hy; apply Ky; exact Hy]].
      * destruct Fi as (s & e & F1 & F2 & F3 & F4). exists s, e. rewrite V2, V3. split; [exact F1|]. split; [exact F2|]. split; [exact F3|].
        apply (tiles_same h h1); [|exact F4]. intros y Hy. destruct (Br y Hy) as (Ly & _). destruct (ra_val _ _ _ _ R y Ly) as (_ & W2 & W3 & _). auto.
      * intros y Hy. destruct (Br y Hy) as (Ly & B2 & B3 & B4). destruct (ra_val _ _ _ _ R y Ly) as (W1 & W2 & W3 & W4 & _).
        split; [lia|]. split; [congruence|]. split.
        { rewrite (ra_super _ _ _ _ R y Ly); [exact B3|]. intros Q. apply (Nb y Q). pose proof (Ks y Hy) as (_ & Cy & _). rewrite Cy. simpl. auto. }
        { intros z Hz. destruct (Br z Hz) as (Lz & _). destruct (ra_val _ _ _ _ R z Lz) as (Z1 & Z2 & Z3 & Z4 & _). destruct (B4 z Hz) as (B5 & B6).
          split; [congruence|]. intros V. apply B6. revert V. unfold same_value, is_point, is_point_cls.
          rewrite W1, W2, W3, W4, Z1, Z2, Z3, Z4, !(issubclass_ext h h1) by apply R. auto. }
    + intros [|k]; [reflexivity|]. cbn [level]. rewrite Kd. clear -Ky. induction (s_subset (sob h x)) as [|y l IHl]; [reflexivity|]. cbn [flat_map].
      rewrite (proj2 (Ky y (or_introl eq_refl)) k). f_equal. apply IHl. intros z Hz. apply Ky. simpl. auto.
Qed.
Lemma reared_roomy u b h h1 w L : reared u b h h1 -> roomy h w L -> roomy h1 w L.
Proof.
  intros R (Q1 & Q2 & Q3 & (Q4 & Q5) & Q6 & Q7 & Q8). assert (Et : tob h1 w = tob h w) by (unfold tob; rewrite (ra_tier _ _ _ _ R); reflexivity).
  unfold roomy, classed. rewrite Et, (ra_tier _ _ _ _ R).
  assert (Lv : forall y, In y (t_seq (tob h w) ++ L) -> live h y) by (intros y Hy; apply (Q5 y Hy)).
  pose proof (ra_len _ _ _ _ R).
  split; [exact Q1|]. split; [exact Q2|]. split; [rewrite (issubclass_ext h h1) by apply R; exact Q3|]. split; [split; [exact Q4|]|split; [exact Q6|split]].
  - intros y Hy. destruct (Q5 y Hy) as (A & B & C). destruct (ra_val _ _ _ _ R y A) as (W1 & W2 & W3 & W4 & _). rewrite W1, W4. split; [lia|auto].
  - intros y Hy. destruct (ra_val _ _ _ _ R y (Lv y Hy)) as (W1 & W2 & W3 & W4 & _). apply (dated_same h h1); auto.
  - intros y z Hy Hz. destruct (ra_val _ _ _ _ R y (Lv y Hy)) as (W1 & W2 & W3 & W4 & _). destruct (ra_val _ _ _ _ R z (Lv z Hz)) as (Z1 & Z2 & Z3 & Z4 & _).
    rewrite W2, Z2. apply Q8; auto.
Qed.

Lemma skel_class h g ts p q t u : skel h g ts -> nth_error ts p = Some t -> nth_error ts q = Some u -> t_ec (tob h t) = t_ec (tob h u) -> p = q.
Proof.
  intros S Hp Hq E. pose proof (sk_ecs _ _ _ S) as Nd. apply NoDup_ListNoDup in Nd. rewrite NoDup_nth_error in Nd. apply Nd.
  - rewrite map_length. apply nth_error_Some. congruence.
  - rewrite !nth_error_map, Hp, Hq. cbn. congruence.
Qed.
Lemma drop_nth {A} (l : list A) : forall k i, nth_error (drop k l) i = nth_error l (k + i).
Proof. induction l as [|a l IH]; intros [|k] i; cbn; [reflexivity|destruct i; reflexivity|reflexivity|apply IH]. Qed.
Lemma skel_below h g ts p t q : skel h g ts -> nth_error ts p = Some t -> (p < q)%nat -> ~ In (t_ec (tob h t)) (map (fun w => t_ec (tob h w)) (drop q ts)).
Proof.
  intros S Hp Hq Q. apply in_map_iff in Q. destruct Q as (w & E & Hw). apply In_nth_error in Hw. destruct Hw as (i & Hi). rewrite drop_nth in Hi.
  assert (p = q + i)%nat by (eapply skel_class; eauto). lia.
Qed.

Lemma append_grouped n h g ts p t d u x : skel h g ts -> nth_error ts p = Some t -> nth_error ts (S p) = Some d ->
  In u (t_seq (tob h t)) -> family h (t_ec (tob h d)) u -> ~ listed h (s_subset (sob h u)) x -> s_super (sob h x) = None ->
  sprout h (drop (S p) ts) x -> (forall k w, nth_error ts (S p + k) = Some w -> roomy h w (level h k x)) -> (List.length ts < n)%nat ->
  exists h1 h' b, seq_append n u x h = Ok tt h' /\ Permutation b (x :: s_subset (sob h u)) /\ sorted_starts h b /\
    wired (t_ec (tob h d)) [u] [b] h h1 /\ grown ts h1 h' /\ skel h' g ts /\
    (forall k w, (k <= p)%nat -> nth_error ts k = Some w -> t_seq (tob h' w) = t_seq (tob h w)) /\
    (forall k w, nth_error ts (S p + k) = Some w -> Permutation (t_seq (tob h' w)) (t_seq (tob h w) ++ level h k x)).
Proof.
  intros Sk Hp Hd Hu Fa Nl Hs Sp Ro Fu. set (c := t_ec (tob h d)) in *.
  assert (Ht : In t ts) by (eapply nth_error_In; eauto).
  destruct (sk_entry _ _ _ Sk t u Ht Hu) as (Lu & Cu & Tu).
  assert (Cx : s_cls (sob h x) = c) by (rewrite (drop_cons ts (S p) d Hd) in Sp; apply Sp).
  assert (Sx : sound_child h c x).
  { rewrite (drop_cons ts (S p) d Hd) in Sp. destruct Sp as (A1 & A2 & A3 & (A4 & A5 & _) & _). split; [exact A1|]. split; [exact A2|]. split; [exact A3|]. eauto. }
  assert (Hxu : x <> u).
  { intros ->. assert (p = S p); [|lia]. apply (skel_class h g ts p (S p) t d); auto. unfold c in Cx. congruence. }
  destruct (append_kid h c u x Fa Sx Nl Hxu Hs) as (h1 & b & E & P & Sb & W).
  pose proof Fa as (_ & Nu & Sc & Iu & Nd & Ss & Ec & Kd).
  assert (Nx : ~ In x (s_subset (sob h u))) by (intros Q; apply Nl; exists x; auto).
  assert (Ib : forall y, In y b <-> y = x \/ In y (s_subset (sob h u))).
  { intros y. split; intros Hy; [apply (Permutation_in y P) in Hy; simpl in Hy; intuition|].
    apply (Permutation_in y (Permutation_sym P)). simpl. intuition. }
  assert (Nub : ~ In u b) by (intros Q; apply Ib in Q; destruct Q; [congruence|contradiction]).
  assert (Sd : forall y, In y b -> sound_child h c y).
  { intros y Hy. apply Ib in Hy. destruct Hy as [->|Hy]; [exact Sx|apply Kd; auto]. }
  assert (Rr : reared u b h h1) by (eapply wired_reared; eauto).
  destruct (wired_one _ _ _ _ _ W) as (V1 & V2 & V3 & V4). pose proof (wi_rest _ _ _ _ _ W) as (R1 & R2 & R3 & R4).
  assert (Sk1 : skel h1 g ts) by (eapply reared_skel; eauto).
  assert (Nuc : ~ In (s_cls (sob h u)) (map (fun w => t_ec (tob h w)) (drop (S p) ts))) by (rewrite Cu; eapply skel_below; eauto; lia).
  assert (Nbc : forall y, In y b -> ~ In (s_cls (sob h y)) (map (fun w => t_ec (tob h w)) (tl (drop (S p) ts)))).
  { intros y Hy. destruct (Sd y Hy) as (_ & -> & _). rewrite (drop_cons ts (S p) d Hd). cbn [tl]. apply (skel_below h g ts (S p) d); auto. }
  destruct (reared_sprout u b h h1 Rr (drop (S p) ts) x Sp Nuc Nbc) as (Sp1 & Lv).
  assert (Eu : tob h1 t = tob h t) by (unfold tob; rewrite R2; reflexivity).
  assert (Len : (S p < List.length ts)%nat) by (apply nth_error_Some; congruence).
  destruct (grow_at g ts (List.length ts - S p - 1) n (S p) d x h1 Sk1 Hd) as (h' & E' & Sk' & G & Up & Pm); [lia|lia| |exact Sp1| |].
  { intros q Q. destruct (V2 x ltac:(apply Ib; auto)) as (_ & _ & _ & _ & K5 & _). assert (q = u) by congruence. subst q. rewrite V1. split.
    - cbn. intros ->. apply Permutation_nil in P. discriminate.
    - exists p, t. split; [reflexivity|]. split; [exact Hp|]. rewrite Eu. exact Hu. }
  { intros k w Hw. rewrite Lv. eapply reared_roomy; eauto. }
  exists h1, h', b. split; [|split; [exact P|split; [exact Sb|split; [exact W|split; [exact G|split; [exact Sk'|split]]]]]].
  - unfold seq_append. mstep. mstep. rewrite Sc, Cx. unfold issubclass_m. mstep. rewrite issubclass_refl. cbn [negb]. mstep.
    destruct (sl_add (OSeq u) (subset_slv (sob h u)) [x] h) as [v h0|e h0] eqn:E1; [|rewrite (bind_raise _ _ _ _ _ E1) in E; discriminate].
    rewrite (bind_ok _ _ _ _ _ E1) in E. rewrite (bind_ok _ _ _ _ _ E1). rewrite (bind_ok _ _ _ _ _ E). mstep.
    assert (T1 : s_intier (sob h1 u) = Some t) by (rewrite V1; exact Tu). rewrite T1. mstep. mstep. rewrite (skel_group h1 g ts t Sk1 Ht), Eu.
    destruct (t_seq (tob h t)) as [|z l] eqn:Ez; [destruct Hu|].
    rewrite (bind_ok _ _ _ d h1) by (eapply skel_sibling; eauto; lia). rewrite (bind_ok _ _ _ _ _ E'). reflexivity.
  - intros k w Hk Hw. rewrite (Up k w) by (auto; lia). unfold tob. rewrite R2. reflexivity.
  - intros k w Hw. rewrite <- Lv. assert (Q : tob h1 w = tob h w) by (unfold tob; rewrite R2; reflexivity). rewrite <- Q. apply Pm. exact Hw.
Qed.
Lemma wired_grown_family c u b ts h h1 h' : wired c [u] [b] h h1 -> grown ts h1 h' -> live h u -> s_label (sob h u) <> "#"%string ->
  subset_class h (s_cls (sob h u)) = Some c -> ~ In u b -> NoDup b -> sorted_starts h b -> (forall y, In y b -> sound_child h c y) -> family h' c u.
Proof.
  intros W G Lu Nu Sc Nub Ndb So Sd. destruct (wired_rears c u b h h1 W Lu Nu Sc Nub Ndb So Sd) as ((K1 & K2 & K3 & K4 & K5 & K6) & _).
  destruct (gn_rest _ _ _ G) as (X1 & X2 & X3 & X4). pose proof (gn_len _ _ _ G) as Le.
  destruct K6 as (F1 & F2 & F3 & F4 & F5 & F6 & F7 & F8).
  destruct (gn_obj _ _ _ G u F1) as (O1 & O2 & O3 & O4 & O5 & O6 & O7 & O8).
  unfold family. rewrite O1, O4, O6, O7. split; [lia|]. split; [exact F2|]. split; [rewrite (subset_class_ext h1 h') by auto; exact F3|]. split; [exact F4|]. split; [exact F5|].
  assert (Ky : forall y, In y (s_subset (sob h1 u)) -> same_but_place (sob h1 y) (sob h' y)) by (intros y Hy; apply (gn_obj _ _ _ G); destruct (F8 y Hy) as ((A & _) & _); exact A).
  split; [eapply sorted_ext; [|exact F6]; intros y Hy; apply (Ky y Hy)|]. split; [exact F7|]. intros y Hy.
  destruct (Ky y Hy) as (Y1 & Y2 & Y3 & Y4 & Y5 & _). destruct (F8 y Hy) as [A B]. split; [|rewrite Y5; exact B].
  apply (sound_kept h1); auto. 
Qed.
Lemma c67_grouped : forall n h g ts p t d u x, skel h g ts -> nth_error ts p = Some t -> nth_error ts (S p) = Some d ->
  In u (t_seq (tob h t)) -> family h (t_ec (tob h d)) u -> ~ listed h (s_subset (sob h u)) x -> s_super (sob h x) = None ->
  sprout h (drop (S p) ts) x -> (forall k w, nth_error ts (S p + k) = Some w -> roomy h w (level h k x)) -> (List.length ts < n)%nat ->
  exists h' b, seq_append n u x h = Ok tt h' /\
    Permutation b (x :: s_subset (sob h u)) /\ sorted_starts h' b /\ s_subset (sob h' u) = b /\
    (forall y, In y b -> s_super (sob h' y) = Some u) /\ family h' (t_ec (tob h d)) u /\
    skel h' g ts /\ (forall k w, (k <= p)%nat -> nth_error ts k = Some w -> t_seq (tob h' w) = t_seq (tob h w)) /\
    (forall k w, nth_error ts (S p + k) = Some w -> Permutation (t_seq (tob h' w)) (t_seq (tob h w) ++ level h k x)) /\
    (forall i, (i < List.length (h_seq h))%nat -> s_cls (sob h' i) = s_cls (sob h i) /\ s_start (sob h' i) = s_start (sob h i) /\
       s_end (sob h' i) = s_end (sob h i) /\ s_label (sob h' i) = s_label (sob h i) /\
       (i <> u -> s_subset (sob h' i) = s_subset (sob h i)) /\ (~ In i b -> s_super (sob h' i) = s_super (sob h i))) /\
    (forall i, (List.length (h_seq h) <= i < List.length (h_seq h'))%nat -> is_boundary h' i) /\
    h_cls h' = h_cls h /\ h_grp h' = h_grp h /\ h_grid h' = h_grid h /\ forall w, ~ In w ts -> tob h' w = tob h w.
Proof.
  intros n h g ts p t d u x Sk Hp Hd Hu Fa Nl Hs Sp Ro Fu.
  destruct (append_grouped n h g ts p t d u x Sk Hp Hd Hu Fa Nl Hs Sp Ro Fu) as (h1 & h' & b & E & P & Sb & W & G & Sk' & Up & Pm).
  assert (Ht : In t ts) by (eapply nth_error_In; eauto). set (c := t_ec (tob h d)) in *.
  destruct (sk_entry _ _ _ Sk t u Ht Hu) as (Lu & Cu & Tu).
  assert (Cx : s_cls (sob h x) = c) by (rewrite (drop_cons ts (S p) d Hd) in Sp; apply Sp).
  assert (Sx : sound_child h c x).
  { rewrite (drop_cons ts (S p) d Hd) in Sp. destruct Sp as (A1 & A2 & A3 & (A4 & A5 & _) & _). split; [exact A1|]. split; [exact A2|]. split; [exact A3|]. eauto. }
  assert (Hxu : x <> u).
  { intros ->. assert (p = S p); [|lia]. apply (skel_class h g ts p (S p) t d); auto. unfold c in Cx. congruence. }
  pose proof Fa as (_ & Nu & Sc & Iu & Nd & Ss & Ec & Kd).
  assert (Nx : ~ In x (s_subset (sob h u))) by (intros Q; apply Nl; exists x; auto).
  assert (Ib : forall y, In y b <-> y = x \/ In y (s_subset (sob h u))).
  { intros y. split; intros Hy; [apply (Permutation_in y P) in Hy; simpl in Hy; intuition|].
    apply (Permutation_in y (Permutation_sym P)). simpl. intuition. }
  assert (Nub : ~ In u b) by (intros Q; apply Ib in Q; destruct Q; [congruence|contradiction]).
  assert (Sd : forall y, In y b -> sound_child h c y).
  { intros y Hy. apply Ib in Hy. destruct Hy as [->|Hy]; [exact Sx|apply Kd; auto]. }
  assert (Ndb : NoDup b).
  { apply NoDup_ListNoDup. eapply Permutation_NoDup; [symmetry; exact P|]. apply NoDup_ListNoDup, NoDup_cons. split; [|exact Nd]. rewrite elem_of_list_In. exact Nx. }
  assert (Rr : reared u b h h1) by (eapply wired_reared; eauto).
  destruct (wired_one _ _ _ _ _ W) as (V1 & V2 & V3 & V4). pose proof (wi_rest _ _ _ _ _ W) as (R1 & R2 & R3 & R4).
  exists h', b.
  assert (Same : forall i, live h i -> kept (sob h i) (sob h1 i) /\ same_but_place (sob h1 i) (sob h' i)).
  { intros i Hi. split; [apply (ra_val _ _ _ _ Rr); exact Hi|]. apply (gn_obj _ _ _ G). pose proof (ra_len _ _ _ _ Rr). unfold live in *. lia. }
  split; [exact E|split; [exact P|split; [|split; [|split; [|split; [|split; [exact Sk'|split; [exact Up|split; [exact Pm|split; [|split]]]]]]]]]].
  - eapply sorted_ext; [|exact Sb]. intros y Hy. destruct (Sd y Hy) as (Ly & _). destruct (Same y Ly) as ((_ & A2 & _) & (_ & B2 & _)). congruence.
  - destruct (grown_view ts h1 h' u G) as [-> _]. rewrite V1. reflexivity.
  - intros y Hy. destruct (grown_view ts h1 h' y G) as [_ ->]. apply (V2 y Hy).
  - apply (wired_grown_family c u b ts h h1 h' W G Lu Nu Sc Nub Ndb Sb Sd).
  - intros i Hi. destruct (Same i Hi) as ((A1 & A2 & A3 & A4 & _) & (B1 & B2 & B3 & B4 & B5 & B6 & _)).
    split; [congruence|]. split; [congruence|]. split; [congruence|]. split; [congruence|]. split; intros Q.
    + rewrite B6. apply (ra_kids _ _ _ _ Rr); auto.
    + rewrite B5. apply (ra_super _ _ _ _ Rr); auto.
  - intros i Hi. destruct (le_lt_dec (List.length (h_seq h1)) i) as [Q|Q].
    + apply (gn_new _ _ _ G); unfold live; lia.
    + apply (grown_bd ts h1 h'); [exact G|]. apply (wi_new _ _ _ _ _ W); unfold live; lia.
  - destruct (gn_rest _ _ _ G) as (X1 & X2 & X3 & X4). split; [congruence|]. split; [congruence|]. split; [congruence|].
    intros w Hw. rewrite (gn_out _ _ _ G w Hw). unfold tob. rewrite R2. reflexivity.
Qed.
End WithEnv.
