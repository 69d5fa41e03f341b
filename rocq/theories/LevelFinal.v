(** * LevelFinal: proofs about levelling the groups of a grid (C75). *)
From Verif Require Export LevelSpec TidyFinal.
From Verif Require Import GapFinal QueryFinal ChildSpec ChildFinal MendFinal GrowFinal ReadMade.
From Verif Require Import LevelSpec.
Open Scope Z_scope.

Section WithEnv.
Context `{Env}.
Opaque span_of.

(** ** What stays *)
Record widened (T : list tid) (h h' : heap) : Prop := {
  wd_rest : h_cls h' = h_cls h /\ h_grp h' = h_grp h /\ h_grid h' = h_grid h /\ List.length (h_tier h') = List.length (h_tier h);
  wd_out : forall u, ~ In u T -> tob h' u = tob h u;
  wd_tier : forall u, t_ec (tob h' u) = t_ec (tob h u) /\ t_super (tob h' u) = t_super (tob h u) /\ t_sub (tob h' u) = t_sub (tob h u) /\
    t_name (tob h' u) = t_name (tob h u) /\ t_within (tob h' u) = t_within (tob h u);
  wd_len : (List.length (h_seq h) <= List.length (h_seq h'))%nat;
  wd_obj : forall i, live h i -> same_but_place (sob h i) (sob h' i);
  wd_mono : forall u, incl (t_seq (tob h u)) (t_seq (tob h' u));
  wd_new : forall u i, In i (t_seq (tob h' u)) -> In i (t_seq (tob h u)) \/ ~ live h i;
  wd_same : forall i, live h i -> (forall u, In u T -> ~ In i (t_seq (tob h u))) -> sob h' i = sob h i
}.
Lemma widened_refl T h : widened T h h.
Proof. constructor; auto 10; [intros; apply place_refl|intros u y Hy; exact Hy]. Qed.
Lemma widened_more T T' h h' : incl T T' -> widened T h h' -> widened T' h h'.
Proof. intros I [A B C D E F G K]. constructor; auto. Qed.
Lemma widened_trans T h h1 h' : widened T h h1 -> widened T h1 h' -> widened T h h'.
Proof.
  intros [(A1 & A2 & A3 & A4) A5 A6 A7 A8 A9 A10 A11] [(B1 & B2 & B3 & B4) B5 B6 B7 B8 B9 B10 B11]. constructor.
  - repeat split; congruence.
  - intros u Hu. rewrite B5, A5; auto.
  - intros u. destruct (A6 u) as (P1 & P2 & P3 & P4 & P5). destruct (B6 u) as (Q1 & Q2 & Q3 & Q4 & Q5). repeat split; congruence.
  - lia.
  - intros i Hi. eapply place_trans; [apply A8; exact Hi|apply B8; unfold live in *; lia].
  - intros u y Hy. apply B9, A9, Hy.
  - intros u i Hi. destruct (B10 u i Hi) as [Q|Q]; [auto|right; unfold live in *; lia].
  - intros i Hi Hn. rewrite B11, A11; auto; [unfold live in *; lia|]. intros u Hu Q. destruct (A10 u i Q) as [R|R]; [apply (Hn u Hu R)|apply R, Hi].
Qed.

(** ** A tier that lasts from [lo] to [hi] *)
Record rowd (h : heap) (u : tid) (lo hi : Z) : Prop := {
  rw_live : (u < List.length (h_tier h))%nat;
  rw_super : t_super (tob h u) <> None;
  rw_point : issubclass h (t_ec (tob h u)) cPoint = false;
  rw_iv : issubclass h (t_ec (tob h u)) cInterval = true;
  rw_classed : classed h u;
  rw_link : linkable h (t_ec (tob h u)) (t_seq (tob h u));
  rw_times : forall x, In x (t_seq (tob h u)) -> exists s e, s_start (sob h x) = Some s /\ s_end (sob h x) = Some e /\ lo <= s /\ s < e /\ e <= hi;
  rw_rise : rising h (t_seq (tob h u));
  rw_first : exists x, In x (t_seq (tob h u)) /\ s_start (sob h x) = Some lo;
  rw_last : exists x, In x (t_seq (tob h u)) /\ s_end (sob h x) = Some hi
}.
Lemma row_like h h' u lo hi : h_cls h' = h_cls h -> List.length (h_tier h') = List.length (h_tier h) -> (List.length (h_seq h) <= List.length (h_seq h'))%nat ->
  t_ec (tob h' u) = t_ec (tob h u) -> t_super (tob h' u) = t_super (tob h u) -> t_seq (tob h' u) = t_seq (tob h u) -> classed h' u ->
  (forall i, live h i -> same_but_place (sob h i) (sob h' i)) -> rowd h u lo hi -> rowd h' u lo hi.
Proof.
  intros C L Ln E1 E2 E3 Cl O0 [R1 R2 R3 R4 R5 (R6 & R6') R7 R8 (x & X1 & X2) (y & Y1 & Y2)].
  assert (O : forall i, In i (t_seq (tob h u)) -> same_but_place (sob h i) (sob h' i)) by (intros i Hi; apply O0, (R6' i Hi)).
  constructor; rewrite ?E1, ?E2, ?E3; auto.
  - lia.
  - rewrite (issubclass_ext h h') by exact C. exact R3.
  - rewrite (issubclass_ext h h') by exact C. exact R4.
  - split; [exact R6|]. intros i Hi. destruct (R6' i Hi) as (Q1 & Q2 & Q3). destruct (O i Hi) as (-> & _ & _ & -> & _). split; [lia|auto].
  - intros i Hi. destruct (O i Hi) as (_ & -> & -> & _). auto.
  - intros i j a b Hij Ha Hb. destruct (O a (nth_error_In _ _ Ha)) as (_ & -> & _). destruct (O b (nth_error_In _ _ Hb)) as (_ & -> & _). eapply R8; eauto.
  - exists x. destruct (O x X1) as (_ & -> & _). auto.
  - exists y. destruct (O y Y1) as (_ & _ & -> & _). auto.
Qed.
Lemma row_ext h h' u lo hi : h_cls h' = h_cls h -> List.length (h_tier h') = List.length (h_tier h) -> (List.length (h_seq h) <= List.length (h_seq h'))%nat ->
  tob h' u = tob h u -> (forall i, live h i -> same_but_place (sob h i) (sob h' i)) -> rowd h u lo hi -> rowd h' u lo hi.
Proof.
  intros C L Ln E O R. apply (row_like h h'); rewrite ?E; auto. unfold classed. rewrite E. apply (rw_classed _ _ _ _ R).
Qed.
Lemma row_same T h h' u lo hi : widened T h h' -> ~ In u T -> rowd h u lo hi -> rowd h' u lo hi.
Proof. intros W Nu. pose proof (wd_rest _ _ _ W) as (C & _ & _ & L). apply row_ext; auto; [apply (wd_len _ _ _ W)|apply (wd_out _ _ _ W u Nu)|apply (wd_obj _ _ _ W)]. Qed.
Definition spread (h : heap) (u : tid) (lo hi : Z) : Prop :=
  (forall x, In x (t_seq (tob h u)) -> is_point h x = false /\ exists s e, s_start (sob h x) = Some s /\ s_end (sob h x) = Some e /\ lo <= s /\ e <= hi) /\
  (exists x, In x (t_seq (tob h u)) /\ s_start (sob h x) = Some lo) /\ (exists x, In x (t_seq (tob h u)) /\ s_end (sob h x) = Some hi).
Lemma spread_ends h g lo hi : g_points (gob h g) = false -> g_tiers (gob h g) <> [] -> (forall u, In u (g_tiers (gob h g)) -> spread h u lo hi) ->
  grp_xmin g h = Ok (Some lo) h /\ grp_xmax g h = Ok (Some hi) h.
Proof.
  intros Gp Ne R.
  assert (Np : forall u x, In u (g_tiers (gob h g)) -> In x (t_seq (tob h u)) -> is_point h x = false) by (intros u x Hu Hx; destruct (R u Hu) as (Q & _); apply (Q x Hx)).
  destruct (c20_group h g Gp Ne) as (a & e & E1 & E2 & (A1 & A2) & (B1 & B2)).
  { intros u Hu. destruct (R u Hu) as (Rt & (x & Hx & _) & _). split; [|intros Q; rewrite Q in Hx; destruct Hx].
    intros z Hz. destruct (Rt z Hz) as (_ & s & e & D1 & D2 & _). unfold timed_both, end_at. rewrite (Np u z Hu Hz), D1, D2. split; discriminate. }
  assert (Hx : exists t, In t (g_tiers (gob h g))) by (destruct (g_tiers (gob h g)) as [|t r]; [congruence|exists t; simpl; auto]). destruct Hx as (t & Ht).
  assert (Ea : a = lo).
  { apply Z.le_antisymm.
    - destruct (R t Ht) as (_ & (x & Hx & Ex) & _). apply A2. exists t. split; [exact Ht|]. exists x. auto.
    - destruct A1 as (u & Hu & z & Hz & Q). destruct (R u Hu) as (Rt & _). destruct (Rt z Hz) as (_ & s & e' & D1 & D2 & D3 & _). assert (a = s) by congruence. lia. }
  assert (Ee : e = hi).
  { apply Z.le_antisymm.
    - destruct B1 as (u & Hu & z & Hz & Q). destruct (R u Hu) as (Rt & _). destruct (Rt z Hz) as (_ & s & e' & D1 & D2 & D3 & D4). unfold end_at in Q. rewrite (Np u z Hu Hz) in Q. assert (e = e') by congruence. lia.
    - destruct (R t Ht) as (_ & _ & (y & Hy & Ey)). apply B2. exists t. split; [exact Ht|]. exists y. split; [exact Hy|]. unfold end_at. rewrite (Np t y Ht Hy). exact Ey. }
  subst. auto.
Qed.
Lemma row_ends h g lo hi : g_points (gob h g) = false -> g_tiers (gob h g) <> [] -> (forall u, In u (g_tiers (gob h g)) -> rowd h u lo hi) ->
  grp_xmin g h = Ok (Some lo) h /\ grp_xmax g h = Ok (Some hi) h.
Proof.
  intros Gp Ne R. apply spread_ends; auto. intros u Hu. destruct (R u Hu) as [_ _ P _ _ (_ & Lk) Rt _ Rf Rl]. split; [|auto].
  intros x Hx. destruct (Lk x Hx) as (_ & C & _). split; [unfold is_point, is_point_cls; rewrite C; exact P|]. destruct (Rt x Hx) as (s & e & Q1 & Q2 & Q3 & Q4 & Q5). eauto 10.
Qed.

(** ** One blank interval *)
Definition side (front : bool) (x : oid) (l : list oid) : list oid := if front then x :: l else (l ++ [x])%list.
Lemma side_perm front x l : Permutation (l ++ [x]) (side front x l).
Proof. destruct front; cbn; [symmetry; apply Permutation_cons_append|reflexivity]. Qed.
Lemma rising_side (front : bool) (h : heap) (x : oid) (l : list oid) (a : Z) : rising h l -> s_start (sob h x) = Some a -> (forall y, In y l -> exists s, s_start (sob h y) = Some s /\ if front then a < s else s < a) -> rising h (side front x l).
Proof.
  intros R Ea B. destruct front; cbn [side].
  - intros i j p q Hij Hp Hq. destruct j as [|j]; [lia|]. destruct i as [|i].
    + cbn in Hp, Hq. injection Hp as <-. destruct (B q (nth_error_In _ _ Hq)) as (s & E & L). eauto.
    + apply (R i j p q); [lia|exact Hp|exact Hq].
  - intros i j p q Hij Hp Hq. assert (Lj : (j < List.length (l ++ [x]))%nat) by (apply nth_error_Some; congruence). rewrite app_length in Lj. cbn in Lj.
    rewrite nth_error_app1 in Hp by lia. destruct (decide (j < List.length l)%nat) as [L|L]; [rewrite nth_error_app1 in Hq by exact L; apply (R i j p q); auto|].
    rewrite nth_error_app2 in Hq by lia. replace (j - List.length l)%nat with 0%nat in Hq by lia. injection Hq as <-. destruct (B p (nth_error_In _ _ Hp)) as (s & E & L'). eauto.
Qed.
Lemma rising_inj h l : rising h l -> forall y z, In y l -> In z l -> s_start (sob h y) = s_start (sob h z) -> y = z.
Proof.
  intros R y z Hy Hz E. apply In_nth_error in Hy, Hz. destruct Hy as [i Hi], Hz as [j Hj]. destruct (lt_eq_lt_dec i j) as [[L|L]|L]; [|congruence|].
  - destruct (R i j y z L Hi Hj) as (s & t & A & B & C). rewrite A, B in E. injection E as E. lia.
  - destruct (R j i z y L Hj Hi) as (s & t & A & B & C). rewrite A, B in E. injection E as E. lia.
Qed.
Lemma blank_in (front : bool) n h u lo hi x (a b : Z) : rowd h u lo hi -> live h x -> ~ In x (t_seq (tob h u)) -> blank_at h (t_ec (tob h u)) x a b ->
  (if front then a < lo /\ b = lo else a = hi) ->
  exists h', tier_append_n (S n) u x h = Ok true h' /\ t_seq (tob h' u) = side front x (t_seq (tob h u)) /\ touches_only u (t_seq (tob h u) ++ [x]) h h' /\
    (forall y, In y (t_seq (tob h u) ++ [x]) -> same_but_place (sob h y) (sob h' y)) /\ classed h' u.
Proof.
  intros R Lx Nx (B1 & B2 & B3 & B4 & B5 & B6) Sd. pose proof R as [R1 R2 R3 R4 R5 (R6 & R6') R7 R8 R9 R10].
  assert (Ri : rising h (side front x (t_seq (tob h u)))).
  { apply (rising_side front h x _ a R8 B2). intros y Hy. destruct (R7 y Hy) as (s & e & Q1 & Q2 & Q3 & Q4 & Q5). exists s. split; [exact Q1|]. destruct front; lia. }
  assert (Lk : linkable h (t_ec (tob h u)) (t_seq (tob h u) ++ [x])).
  { split; [apply NoDup_app; split; [exact R6|split; [|apply NoDup_singleton]]; intros i Hi Q; apply elem_of_list_singleton in Q; subst i; apply Nx, elem_of_list_In, Hi|].
    intros y Hy. apply in_app_iff in Hy. destruct Hy as [Hy|[<-|[]]]; [apply R6', Hy|]. split; [exact Lx|]. split; [exact B1|]. rewrite B4. discriminate. }
  destruct (put_loose u x h R1 R2 R3 Lk R5) as (h' & E & P & (O1 & O2 & O3) & Pl & To & Sq).
  { intros y Hy. apply in_app_iff in Hy. destruct Hy as [Hy|[<-|[]]]; [|eauto]. destruct (R7 y Hy) as (s & e & Q1 & Q2 & _). eauto. }
  { intros y z Hy Hz. apply (rising_inj h _ Ri); apply (Permutation_in _ (side_perm front x _)); assumption. }
  exists h'. split; [|split; [|split; [exact To|split; [exact Pl|]]]].
  - cbn [tier_append_n]. mstep. rewrite B1, issubclass_refl. cbn [orb negb]. mstep.
    assert (Q : existsb (Nat.eqb x) (t_seq (tob h u)) = false).
    { destruct (existsb (Nat.eqb x) (t_seq (tob h u))) eqn:Q; [|reflexivity]. apply existsb_exists in Q. destruct Q as (y & Hy & Q). apply Nat.eqb_eq in Q. subst y. contradiction. }
    rewrite Q. destruct (Pl x) as (_ & _ & _ & _ & P5 & P6 & _); [apply in_app_iff; simpl; auto|].
    unfold bind in *. unfold get_tier, gets in *. destruct (sl_add (OTier u) (seq_slv (tob h u)) [x] h) as [v h1|] eqn:Ev; [|discriminate]. cbn in E |- *.
    rewrite E. cbn. unfold get_seq, gets. rewrite P6, B6. cbn. rewrite P5, B5. reflexivity.
  - apply (rising_perm h (side front x (t_seq (tob h u)))); [exact Ri| |rewrite P; apply side_perm].
    eapply (sorted_ext h' h); [|exact O1]. intros y Hy. symmetry. apply place_span, Pl. apply (Permutation_in _ P), Hy.
  - left. rewrite Sq. destruct To as (_ & _ & _ & _ & _ & _ & _ & _ & -> & _). reflexivity.
Qed.

(** ** A blank interval for each tier of a group *)
Lemma blank_place h h' c x a b : same_but_place (sob h x) (sob h' x) -> blank_at h c x a b -> blank_at h' c x a b.
Proof. intros (A1 & A2 & A3 & A4 & A5 & A6 & _) (B1 & B2 & B3 & B4 & B5 & B6). unfold blank_at. repeat split; congruence. Qed.
Lemma widen_step T h0 h h1 u x front : widened T h0 h -> In u T -> ~ live h0 x -> touches_only u (t_seq (tob h u) ++ [x]) h h1 ->
  (forall y, In y (t_seq (tob h u) ++ [x]) -> same_but_place (sob h y) (sob h1 y)) -> t_seq (tob h1 u) = side front x (t_seq (tob h u)) -> widened T h0 h1.
Proof.
  intros [(A1 & A2 & A3 & A4) A5 A6 A7 A8 A9 A10 A11] Iu Nx (B1 & B2 & B3 & B4 & B5 & B6 & B7 & B8 & B9 & B10 & B11 & B12 & B13) Pl Sq.
  assert (Tu : forall v i, In i (t_seq (tob h1 v)) <-> In i (t_seq (tob h v)) \/ v = u /\ i = x).
  { intros v i. destruct (Nat.eq_dec v u) as [->|N]; [rewrite Sq|rewrite B8 by exact N; tauto]. rewrite <- (side_perm front x (t_seq (tob h u))), in_app_iff. simpl. intuition congruence. }
  constructor.
  - repeat split; congruence.
  - intros v Hv. rewrite B8, A5; auto. intros ->. contradiction.
  - intros v. destruct (A6 v) as (P1 & P2 & P3 & P4 & P5). destruct (Nat.eq_dec v u) as [->|N]; [repeat split; congruence|rewrite B8 by exact N; auto].
  - lia.
  - intros i Hi. assert (Li : live h i) by (unfold live in *; lia). destruct (in_dec Nat.eq_dec i (t_seq (tob h u) ++ [x])) as [I|I]; [eapply place_trans; [apply A8, Hi|apply Pl, I]|rewrite B1; auto].
  - intros v y Hy. apply Tu. left. apply A9, Hy.
  - intros v i Hi. apply Tu in Hi. destruct Hi as [Hi|[_ ->]]; [apply A10, Hi|right; exact Nx].
  - intros i Hi Hn. rewrite B1; [apply A11; auto|unfold live in *; lia|]. intros Q. apply in_app_iff in Q. destruct Q as [Q|[<-|[]]]; [|apply Nx, Hi].
    destruct (A10 u i Q) as [R|R]; [apply (Hn u Iu R)|apply R, Hi].
Qed.
Lemma make_blanks a b : forall cs h, (forall c, In c cs -> issubclass h c cInterval = true) ->
  exists xs h', mapM (fun c => construct3 (Some c) (Some a) (Some b) "") cs h = Ok xs h' /\
    h_cls h' = h_cls h /\ h_tier h' = h_tier h /\ h_grp h' = h_grp h /\ h_grid h' = h_grid h /\ (List.length (h_seq h) <= List.length (h_seq h'))%nat /\
    (forall i, live h i -> sob h' i = sob h i) /\ NoDup xs /\ (forall x, In x xs -> live h' x /\ ~ live h x) /\ Forall2 (fun c x => blank_at h' c x a b) cs xs.
Proof.
  induction cs as [|c cs IH]; intros h I.
  { exists [], h. split; [reflexivity|]. repeat split; auto; try constructor; destruct H0. }
  destruct (new_blank c a b h) as (h1 & E1 & A1 & A2 & A3 & A4 & A5 & A6 & A7 & A8).
  destruct (IH h1) as (xs & h' & E & B1 & B2 & B3 & B4 & B5 & B6 & B7 & B8 & B9).
  { intros k Hk. rewrite (issubclass_ext h h1) by exact A1. apply I. simpl; auto. }
  assert (Lx : live h1 (List.length (h_seq h))) by (unfold live; lia).
  exists (List.length (h_seq h) :: xs), h'. split.
  { cbn [mapM]. rewrite (bind_ok _ _ _ (List.length (h_seq h)) h1) by (rewrite construct_blank by (apply I; simpl; auto); exact E1). rewrite (bind_ok _ _ _ _ _ E). reflexivity. }
  split; [congruence|]. split; [congruence|]. split; [congruence|]. split; [congruence|]. split; [lia|]. split.
  { intros i Hi. rewrite B6, A6; auto. unfold live in *. lia. }
  split; [apply NoDup_cons; split; [|exact B7]; intros Q; apply elem_of_list_In in Q; destruct (B8 _ Q); contradiction|]. split.
  { intros x [<-|Hx]; [split; [unfold live in *; lia|unfold live; lia]|]. destruct (B8 x Hx) as [Q1 Q2]. split; [exact Q1|]. unfold live in *. lia. }
  constructor; [|exact B9]. assert (F : fresh_blank h h1 c (List.length (h_seq h)) (a, b)) by (split; [lia|exact A8]).
  destruct (fresh_fields _ _ _ _ _ F) as (_ & F1 & F2 & F3 & F4 & F5 & F6 & _). unfold blank_at. rewrite (B6 _ Lx). cbn in F2, F3. auto 10.
Qed.
Lemma appends (front : bool) n T h0 a b lo hi : (if front then a < lo /\ b = lo else a = hi) -> forall ts xs h, NoDup ts -> incl ts T -> NoDup xs -> widened T h0 h ->
  (forall u, In u ts -> rowd h u lo hi) -> Forall2 (fun u x => blank_at h (t_ec (tob h u)) x a b) ts xs -> (forall x, In x xs -> live h x /\ ~ live h0 x) ->
  (forall u x, In u T -> In x xs -> ~ In x (t_seq (tob h u))) ->
  exists h', append_blanks (S n) ts xs h = Ok tt h' /\ widened T h0 h' /\ (forall u, ~ In u ts -> tob h' u = tob h u) /\
    (List.length (h_seq h) <= List.length (h_seq h'))%nat /\ (forall i, live h i -> same_but_place (sob h i) (sob h' i)) /\
    Forall2 (fun u x => t_seq (tob h' u) = side front x (t_seq (tob h u)) /\ classed h' u /\ blank_at h' (t_ec (tob h u)) x a b) ts xs.
Proof.
  intros Sd. induction ts as [|u ts IH]; intros xs h Nt It Nx W R F Lx Ox; apply Forall2_cons_inv_l in F || apply Forall2_nil_inv_l in F.
  { subst xs. exists h. split; [reflexivity|]. split; [exact W|]. split; [auto|]. split; [auto|]. split; [intros; apply place_refl|constructor]. }
  destruct F as (x & xs' & B & F & ->). apply NoDup_cons in Nt, Nx. destruct Nt as [Nu Nt], Nx as [Nx Nxs]. rewrite elem_of_list_In in Nu, Nx.
  destruct (Lx x (or_introl eq_refl)) as [L1 L2]. assert (Iu : In u T) by (apply It; simpl; auto).
  destruct (blank_in front n h u lo hi x a b (R u (or_introl eq_refl)) L1 (Ox u x Iu (or_introl eq_refl)) B Sd) as (h1 & E1 & Sq & To & Pl & Cl).
  pose proof (widen_step T h0 h h1 u x front W Iu L2 To Pl Sq) as W1. pose proof To as (B1 & B2 & B3 & B4 & B5 & B6 & B7 & B8 & _).
  assert (P1 : forall i, live h i -> same_but_place (sob h i) (sob h1 i)).
  { intros i Hi. destruct (in_dec Nat.eq_dec i (t_seq (tob h u) ++ [x])) as [I|I]; [apply Pl, I|rewrite B1 by auto; apply place_refl]. }
  assert (Nd : forall v, In v ts -> v <> u) by (intros v Hv ->; contradiction).
  destruct (IH xs' h1) as (h' & E & W' & O & Ln & P & F'); auto.
  - intros v Hv. apply It. simpl; auto.
  - intros v Hv. apply (row_ext h h1); auto. apply R. simpl; auto.
  - clear -F B8 P1 Nd Lx. assert (K : forall v, In v ts -> tob h1 v = tob h v) by (intros v Hv; apply B8, Nd, Hv). assert (K2 : forall y, In y xs' -> same_but_place (sob h y) (sob h1 y)) by (intros y Hy; apply P1, Lx; simpl; auto).
    clear Lx Nd B8 P1. induction F as [|v y ts xs' Q F IH]; constructor; [rewrite K by (simpl; auto); apply (blank_place h h1); [apply K2; simpl; auto|exact Q]|].
    apply IH; [intros w Hw; apply K; simpl; auto|intros w Hw; apply K2; simpl; auto].
  - intros y Hy. destruct (Lx y (or_intror Hy)). split; [unfold live in *; lia|assumption].
  - intros v y Hv Hy Q. destruct (Nat.eq_dec v u) as [->|N]; [|rewrite B8 in Q by exact N; apply (Ox v y Hv (or_intror Hy) Q)].
    rewrite Sq in Q. apply (Permutation_in _ (Permutation_sym (side_perm front x _))) in Q. apply in_app_iff in Q. destruct Q as [Q|[<-|[]]]; [apply (Ox u y Iu (or_intror Hy) Q)|contradiction].
  - exists h'. split; [cbn [append_blanks]; rewrite (bind_ok _ _ _ _ _ E1); exact E|]. split; [exact W'|]. split.
    { intros v Hv. rewrite O, B8; [reflexivity| |]; intros Q; apply Hv; simpl; auto. }
    split; [lia|]. assert (P2 : forall i, live h i -> same_but_place (sob h i) (sob h' i)) by (intros i Hi; eapply place_trans; [apply P1, Hi|apply P; unfold live in *; lia]).
    split; [exact P2|].
    constructor; [split; [rewrite (O u Nu); exact Sq|]; split; [unfold classed in *; rewrite (O u Nu); auto|apply (blank_place h h'); auto]|].
    clear -F' B8 Nd. assert (K : forall v, In v ts -> tob h1 v = tob h v) by (intros v Hv; apply B8, Nd, Hv). clear B8 Nd.
    induction F' as [|v y ts xs' Q F IH]; constructor; [rewrite <- K by (simpl; auto); exact Q|]. apply IH. intros w Hw. apply K. simpl; auto.
Qed.
Lemma column (front : bool) n h g lo hi a b : (if front then a < lo /\ b = lo else a = hi) -> NoDup (g_tiers (gob h g)) -> (forall u, In u (g_tiers (gob h g)) -> rowd h u lo hi) ->
  exists h', blank_column (S n) g (Some a) (Some b) h = Ok tt h' /\ widened (g_tiers (gob h g)) h h' /\
    forall u, In u (g_tiers (gob h g)) -> classed h' u /\ exists x, t_seq (tob h' u) = side front x (t_seq (tob h u)) /\
      (List.length (h_seq h) <= x < List.length (h_seq h'))%nat /\ blank_at h' (t_ec (tob h u)) x a b.
Proof.
  intros Sd Nt R. set (ts := g_tiers (gob h g)) in *.
  destruct (make_blanks a b (map (fun t => t_ec (tob h t)) ts) h) as (xs & h1 & E1 & A1 & A2 & A3 & A4 & A5 & A6 & A7 & A8 & A9).
  { intros c Hc. apply in_map_iff in Hc. destruct Hc as (u & <- & Hu). apply (rw_iv _ _ _ _ (R u Hu)). }
  assert (Tk : forall u, tob h1 u = tob h u) by (intros u; unfold tob; rewrite A2; reflexivity).
  assert (W1 : widened ts h h1).
  { constructor; [rewrite A2; auto|auto|intros u; rewrite Tk; auto 10|exact A5|intros i Hi; rewrite (A6 i Hi); apply place_refl|intros u y Hy; rewrite Tk; exact Hy| |auto].
    intros u i Hi. rewrite Tk in Hi. auto. }
  destruct (appends front n ts h a b lo hi Sd ts xs h1 Nt (incl_refl _) A7 W1) as (h' & E2 & W' & O & Ln & P & F).
  - intros u Hu. apply (row_ext h h1); auto; [rewrite A2; reflexivity|]. intros i Hi. rewrite (A6 i Hi). apply place_refl.
  - clear -A9 Tk. revert xs A9. induction ts as [|u ts IH]; intros xs F; cbn [map] in F; [apply Forall2_nil_inv_l in F; subst; constructor|].
    apply Forall2_cons_inv_l in F. destruct F as (x & xs' & B & F & ->). constructor; [rewrite Tk; exact B|apply IH, F].
  - exact A8.
  - intros u x Hu Hx Q. rewrite Tk in Q. destruct (A8 x Hx) as [_ Q2]. apply Q2. destruct (rw_link _ _ _ _ (R u Hu)) as [_ Lk]. apply (Lk x Q).
  - exists h'. split; [|split; [exact W'|]].
    + unfold blank_column. rewrite bind_get_grp, bind_gets. fold ts. rewrite (bind_ok _ _ _ _ _ E1). exact E2.
    + intros u Hu. destruct (Forall2_in_l _ _ _ u F Hu) as (x & Hx & Sq & Cl & Bx). rewrite Tk in Sq, Bx. split; [exact Cl|]. exists x. split; [exact Sq|].
      destruct (A8 x Hx) as [Q1 Q2]. split; [unfold live in *; lia|exact Bx].
Qed.

(** ** All groups *)
Definition rows (h : heap) (lo hi : Z) (g : gid) : Prop :=
  g_points (gob h g) = false /\ g_tiers (gob h g) <> [] /\ NoDup (g_tiers (gob h g)) /\ forall u, In u (g_tiers (gob h g)) -> rowd h u lo hi.
Lemma unless_later h h1 h' P c a b l : (List.length (h_seq h1) <= List.length (h_seq h'))%nat -> (forall i, live h1 i -> same_but_place (sob h1 i) (sob h' i)) ->
  blank_unless P h h1 c a b l -> blank_unless P h h' c a b l.
Proof. intros L O [Q|(N & x & -> & X1 & X2)]; [left; exact Q|right]. split; [exact N|]. exists x. split; [reflexivity|]. split; [lia|]. apply (blank_place h1 h'); [apply O; unfold live; lia|exact X2]. Qed.
Lemma unless_earlier h h1 h' P c a b l : (List.length (h_seq h) <= List.length (h_seq h1))%nat -> blank_unless P h1 h' c a b l -> blank_unless P h h' c a b l.
Proof. intros L [Q|(N & x & -> & X1 & X2)]; [left; exact Q|right]. split; [exact N|]. exists x. split; [reflexivity|]. split; [lia|exact X2]. Qed.
Lemma level_loop (front : bool) n (lo hi edge a b : gid -> Z) ref (body : gid -> M unit) :
  (forall g h, rows h (lo g) (hi g) g -> body g h = if isclose (edge g) ref then Ok tt h else blank_column (S n) g (Some (a g)) (Some (b g)) h) ->
  forall gs h, (forall g, In g gs -> ~ near (edge g) ref -> if front then a g < lo g /\ b g = lo g else a g = hi g) ->
  NoDup (flat_map (tiers_in h) gs) -> (forall g, In g gs -> rows h (lo g) (hi g) g) ->
  exists h', forM gs body h = Ok tt h' /\ widened (flat_map (tiers_in h) gs) h h' /\
    forall g u, In g gs -> In u (g_tiers (gob h g)) -> classed h' u /\ exists l,
      t_seq (tob h' u) = (if front then l ++ t_seq (tob h u) else t_seq (tob h u) ++ l)%list /\
      blank_unless (near (edge g) ref) h h' (t_ec (tob h u)) (a g) (b g) l.
Proof.
  intros Bd. induction gs as [|g gs IH]; intros h Sd Nd R.
  { exists h. split; [reflexivity|]. split; [apply widened_refl|intros g u []]. }
  pose proof (R g (or_introl eq_refl)) as Rg. cbn [flat_map] in *. apply NoDup_app in Nd. destruct Nd as (N1 & N2 & N3). unfold tiers_in in N1, N2 at 1.
  assert (K : exists h1, body g h = Ok tt h1 /\ widened (g_tiers (gob h g)) h h1 /\ forall u, In u (g_tiers (gob h g)) -> classed h1 u /\ exists l,
      t_seq (tob h1 u) = (if front then l ++ t_seq (tob h u) else t_seq (tob h u) ++ l)%list /\ blank_unless (near (edge g) ref) h h1 (t_ec (tob h u)) (a g) (b g) l).
  { rewrite (Bd g h Rg). destruct Rg as (_ & _ & _ & Rg). destruct (isclose (edge g) ref) eqn:Cl.
    - exists h. split; [reflexivity|]. split; [apply widened_refl|]. intros u Hu. split; [apply (rw_classed _ _ _ _ (Rg u Hu))|]. exists []. split; [destruct front; [reflexivity|rewrite app_nil_r; reflexivity]|].
      left. split; [apply isclose_spec, Cl|reflexivity].
    - assert (Nn : ~ near (edge g) ref) by (intros Q; apply isclose_spec in Q; congruence).
      destruct (column front n h g (lo g) (hi g) (a g) (b g) (Sd g (or_introl eq_refl) Nn) N1 Rg) as (h1 & E & W & C). exists h1. split; [exact E|]. split; [exact W|].
      intros u Hu. destruct (C u Hu) as (Cu & x & X1 & X2 & X3). split; [exact Cu|]. exists [x]. split; [destruct front; exact X1|]. right. split; [exact Nn|]. exists x. auto. }
  destruct K as (h1 & E1 & W1 & C1). pose proof (wd_rest _ _ _ W1) as (_ & Gk & _).
  assert (Go : forall k, gob h1 k = gob h k) by (intros k; unfold gob; rewrite Gk; reflexivity).
  assert (Tg : flat_map (tiers_in h1) gs = flat_map (tiers_in h) gs) by (apply flat_map_ext; intros k; unfold tiers_in; rewrite Go; reflexivity).
  assert (Dj : forall k u, In k gs -> In u (g_tiers (gob h k)) -> ~ In u (g_tiers (gob h g))).
  { intros k u Hk Hu Q. apply (N2 u); [apply elem_of_list_In; exact Q|apply elem_of_list_In, in_flat_map; exists k; auto]. }
  destruct (IH h1) as (h' & E2 & W2 & C2).
  - intros k Hk. apply Sd. simpl; auto.
  - rewrite Tg. exact N3.
  - intros k Hk. destruct (R k (or_intror Hk)) as (Q1 & Q2 & Q3 & Q4). unfold rows. rewrite Go. split; [exact Q1|]. split; [exact Q2|]. split; [exact Q3|]. intros u Hu.
    apply (row_same (g_tiers (gob h g)) h h1); auto. apply (Dj k u Hk Hu).
  - rewrite Tg in W2. exists h'. split; [cbn [forM]; rewrite (bind_ok _ _ _ _ _ E1); exact E2|]. split.
    + eapply widened_trans; [eapply widened_more; [|exact W1]|eapply widened_more; [|exact W2]]; intros u Hu; apply in_app_iff; auto.
    + intros k u [<-|Hk] Hu.
      * assert (Eu : tob h' u = tob h1 u).
        { apply (wd_out _ _ _ W2). intros Q. apply in_flat_map in Q. destruct Q as (k & Hk & Q). apply (Dj k u Hk Q Hu). }
        destruct (C1 u Hu) as (Cu & l & L1 & L2). split; [unfold classed in *; rewrite Eu; exact Cu|]. exists l. rewrite Eu. split; [exact L1|].
        apply (unless_later h h1 h'); [apply (wd_len _ _ _ W2)|apply (wd_obj _ _ _ W2)|exact L2].
      * assert (Eu : tob h1 u = tob h u) by (apply (wd_out _ _ _ W1), (Dj k u Hk Hu)).
        destruct (C2 k u Hk) as (Cu & l & L1 & L2); [rewrite Go; exact Hu|]. split; [exact Cu|]. exists l. rewrite Eu in L1, L2. split; [exact L1|].
        apply (unless_earlier h h1 h'); [apply (wd_len _ _ _ W1)|exact L2].
Qed.
Lemma row_front T h h' u lo hi s0 l : rowd h u lo hi -> widened T h h' -> classed h' u -> t_seq (tob h' u) = (l ++ t_seq (tob h u))%list ->
  blank_unless (near lo s0) h h' (t_ec (tob h u)) s0 lo l -> s0 <= lo -> rowd h' u (if isclose lo s0 then lo else s0) hi.
Proof.
  intros R W Cl Sq B Le. pose proof (wd_rest _ _ _ W) as (C & _ & _ & L). pose proof (wd_tier _ _ _ W u) as (T1 & T2 & _). pose proof (wd_len _ _ _ W) as Ln. pose proof (wd_obj _ _ _ W) as O.
  destruct (isclose lo s0) eqn:Ic.
  - destruct B as [[_ ->]|[N _]]; [|exfalso; apply N, isclose_spec, Ic]. apply (row_like h h'); auto.
  - assert (Nn : ~ near lo s0) by (intros Q; apply isclose_spec in Q; congruence). destruct B as [[N _]|(_ & x & -> & X1 & X2)]; [contradiction|].
    assert (Lt : s0 < lo).
    { destruct (Z.eq_dec s0 lo) as [->|]; [|lia]. exfalso. apply Nn. unfold near. pose proof atol_nonneg. rewrite Z.sub_diag. lia. }
    destruct X2 as (B1 & B2 & B3 & B4 & B5 & B6). destruct R as [R1 R2 R3 R4 R5 (R6 & R6') R7 R8 (p & P1 & P2) (q & Q1 & Q2)].
    assert (Oe : forall i, In i (t_seq (tob h u)) -> same_but_place (sob h i) (sob h' i)) by (intros i Hi; apply O, (R6' i Hi)).
    destruct (R7 p P1) as (ps & pe & Ps & Pe & P3 & P4 & P5).
    constructor; rewrite ?T1, ?T2, ?Sq; cbn [List.app]; auto.
    + lia.
    + rewrite (issubclass_ext h h') by exact C. exact R3.
    + rewrite (issubclass_ext h h') by exact C. exact R4.
    + split.
      * apply NoDup_cons. split; [|exact R6]. intros Q. apply elem_of_list_In in Q. destruct (R6' x Q) as (Q' & _). unfold live in Q'. lia.
      * intros i [<-|Hi]; [split; [unfold live; lia|]; split; [exact B1|rewrite B4; discriminate]|]. destruct (R6' i Hi) as (Z1 & Z2 & Z3). destruct (Oe i Hi) as (-> & _ & _ & -> & _). split; [unfold live in *; lia|auto].
    + intros i [<-|Hi]; [exists s0, lo; split; [exact B2|]; split; [exact B3|lia]|]. destruct (Oe i Hi) as (_ & -> & -> & _). destruct (R7 i Hi) as (s & e & Z1 & Z2 & Z3). exists s, e. split; [exact Z1|]. split; [exact Z2|lia].
    + apply (rising_side true h' x (t_seq (tob h u)) s0); [|exact B2|].
      * intros i j a b Hij Ha Hb. destruct (Oe a (nth_error_In _ _ Ha)) as (_ & -> & _). destruct (Oe b (nth_error_In _ _ Hb)) as (_ & -> & _). eapply R8; eauto.
      * intros y Hy. destruct (Oe y Hy) as (_ & -> & _). destruct (R7 y Hy) as (s & e & Z1 & Z2 & Z3). exists s. split; [exact Z1|lia].
    + exists x. simpl. auto.
    + exists q. destruct (Oe q Q1) as (_ & _ & -> & _). simpl. auto.
Qed.
Lemma good_rows h g ts bss t lo hi : good_group h g ts bss -> hd_error ts = Some t -> ranges h (t_seq (tob h t)) lo hi ->
  (forall u, In u ts -> classed h u /\ issubclass h (t_ec (tob h u)) cInterval = true) -> NoDup ts -> rows h lo hi g.
Proof.
  intros G Ht Ra Cl Nd. pose proof G as (_ & Gp & Gt & _ & Tc & _ & Sn & _ & Ti & _). unfold rows. rewrite Gt. split; [exact Gp|]. split; [intros ->; discriminate|]. split; [exact Nd|].
  intros u Hu. pose proof (good_turns h g ts bss G) as Tu.
  assert (B : bounded h (t_seq (tob h u)) lo hi).
  { destruct ts as [|t0 r]; [discriminate|]. injection Ht as ->. destruct (Tu t (or_introl eq_refl)) as [T1 T2]. exact (snug_bounded h lo hi r bss t Sn (turn_bounded h _ lo hi T1 T2 Ra) u Hu). }
  destruct B as (B1 & B2 & B3). destruct (Tu u Hu) as [T1 T2]. destruct (Ti u Hu) as (_ & Lk & Np). destruct (Cl u Hu) as [C1 C2].
  constructor; auto.
  - destruct Tc as (_ & _ & Tc & _). apply (Tc u Hu).
  - apply (GrowFinal.chain_super h ts Tc u Hu).
  - intros x Hx. destruct (B3 x Hx) as ((D1 & D2 & D3) & D4 & D5). exists (fst (span_of h x)), (snd (span_of h x)). auto.
  - intros i j x y Hij Hx Hy. destruct (T1 i j x y Hij Hx Hy) as (e & s & E1 & E2 & Le). destruct (T2 x (nth_error_In _ _ Hx)) as (D1 & D2 & D3).
    exists (fst (span_of h x)), s. split; [exact D1|]. split; [exact E2|]. assert (e = snd (span_of h x)) by congruence. lia.
Qed.
Lemma mapM_known {A} (m : A -> M (option Z)) (v : A -> Z) h : forall l, (forall x, In x l -> m x h = Ok (Some (v x)) h) -> mapM m l h = Ok (map Some (map v l)) h.
Proof. induction l as [|x l IH]; intros K; [reflexivity|]. cbn [mapM map]. rewrite (bind_ok _ _ _ _ _ (K x (or_introl eq_refl))). rewrite (bind_ok _ _ _ _ _ (IH (fun y Hy => K y (or_intror Hy)))). reflexivity. Qed.
Lemma least_one P x y : least P x -> least P y -> x = y.
Proof. intros [A B] [C D]. pose proof (B _ C). pose proof (D _ A). lia. Qed.
Lemma greatest_one P x y : greatest P x -> greatest P y -> x = y.
Proof. intros [A B] [C D]. pose proof (B _ C). pose proof (D _ A). lia. Qed.
Lemma lowest (v : gid -> Z) gs h m : least (fun z => exists g, In g gs /\ v g = z) m -> np_ext Z.min (map Some (map v gs)) h = Ok (Some m) h.
Proof.
  intros [(g & Hg & E) L]. destruct (np_min_known (map v gs) h) as (m' & E' & (A & B)); [intros Q; destruct gs; [destruct Hg|discriminate]|]. rewrite E'. f_equal. f_equal.
  apply Z.le_antisymm; [apply B, in_map_iff; eauto|]. apply in_map_iff in A. destruct A as (k & <- & Hk). apply L. eauto.
Qed.
Lemma highest (v : gid -> Z) gs h m : greatest (fun z => exists g, In g gs /\ v g = z) m -> np_ext Z.max (map Some (map v gs)) h = Ok (Some m) h.
Proof.
  intros [(g & Hg & E) L]. destruct (np_max_known (map v gs) h) as (m' & E' & (A & B)); [intros Q; destruct gs; [destruct Hg|discriminate]|]. rewrite E'. f_equal. f_equal.
  apply Z.le_antisymm; [|apply B, in_map_iff; eauto]. apply in_map_iff in A. destruct A as (k & <- & Hk). apply L. eauto.
Qed.
Lemma close_known x y h : close_opt (Some x) (Some y) h = Ok (isclose x y) h.
Proof. reflexivity. Qed.

(** ** C75 *)
Lemma c75_levelled : forall n h a lo hi s0 s1 e0 e1,
  let gs := a_groups (aob h a) in
  (forall g, In g gs -> level_ready (S n) h (lo g) (hi g) g) -> apart_groups h gs ->
  least (fun z => exists g, In g gs /\ lo g = z) s0 -> greatest (fun z => exists g, In g gs /\ lo g = z) s1 ->
  least (fun z => exists g, In g gs /\ hi g = z) e0 -> greatest (fun z => exists g, In g gs /\ hi g = z) e1 ->
  ~ (near s0 s1 /\ near e0 e1) ->
  exists h', grid_cleanup (S n) a h = Ok tt h' /\
    (forall g u, In g gs -> In u (g_tiers (gob h g)) -> levelled s0 s1 e1 (lo g) (hi g) h h' u) /\
    level_rest h h' gs (flat_map (tiers_in h) gs).
Proof.
  intros n h a lo hi s0 s1 e0 e1 gs K Ap S0 S1 E0 E1 Un.
  assert (Pn : forall g, In g gs -> g_points (gob h g) = false) by (intros g Hg; destruct (K g Hg) as (((bss & (_ & Q & _)) & _) & _); exact Q).
  assert (Iv : ivs_of h gs = gs).
  { unfold ivs_of. clear -Pn. induction gs as [|g gs IH]; [reflexivity|]. cbn. rewrite (Pn g) by (simpl; auto). cbn. f_equal. apply IH. intros k Hk. apply Pn. simpl; auto. }
  destruct (tidy_groups (S n) lo hi gs h) as (h1 & R1 & T & Ap1 & Rk).
  { intros g Hg. right. apply (K g Hg). }
  { rewrite Iv. exact Ap. }
  rewrite Iv in T, Ap1, Rk. pose proof Rk as (A1 & A2 & A3 & A4 & A5 & A6 & A7 & A8 & A9 & A10 & A11). set (TT := flat_map (tiers_in h) gs) in *.
  assert (Tk : forall g u, In g gs -> In u (g_tiers (gob h g)) -> tob h1 u = tob h u).
  { intros g u Hg Hu. destruct (K g Hg) as ((_ & t & Ht & _) & Ng & _). destruct (T g Hg) as (_ & Q). destruct (Q t Ht) as (_ & Q2). apply (Q2 (Ng t Ht)), Hu. }
  assert (Tka : forall u, tob h1 u = tob h u).
  { intros u. destruct (in_dec Nat.eq_dec u TT) as [I|I]; [|apply A2, I]. apply in_flat_map in I. destruct I as (g & Hg & Hu). apply (Tk g u Hg Hu). }
  assert (Gt : forall g, In g gs -> g_tiers (gob h1 g) = g_tiers (gob h g) /\ g_points (gob h1 g) = false) by (intros g Hg; destruct (T g Hg) as ((bss & (_ & Q1 & Q2 & _)) & _); auto).
  destruct Ap as (Na & Nb & Nc).
  assert (Rw : forall g, In g gs -> rows h1 (lo g) (hi g) g).
  { intros g Hg. destruct (K g Hg) as (((b0 & G0) & t & Ht & _ & Ra & _) & _ & Cl). destruct (T g Hg) as ((bss & G) & _).
    assert (It : In t (g_tiers (gob h g))) by (apply hd_in, Ht).
    apply (good_rows h1 g (g_tiers (gob h g)) bss t); auto.
    - rewrite (Tk g t Hg It). apply (ranges_same h h1); [|exact Ra]. intros x Hx. destruct (A4 x (good_live h g _ b0 t x G0 It Hx)) as (_ & Q1 & Q2 & _). auto.
    - intros u Hu. destruct (Cl u Hu) as [C1 C2]. unfold classed. rewrite (Tk g u Hg Hu), (issubclass_ext h h1) by exact A10. auto.
    - clear -Nb Hg. induction gs as [|k gs IH]; [destruct Hg|]. cbn [flat_map] in Nb. apply NoDup_app in Nb. destruct Nb as (N1 & _ & N2). destruct Hg as [->|Hg]; [exact N1|auto]. }
  assert (Ft : flat_map (tiers_in h1) gs = TT).
  { unfold TT. clear -Gt. induction gs as [|g gs IH]; [reflexivity|]. cbn [flat_map]. f_equal; [unfold tiers_in; apply Gt; simpl; auto|apply IH; intros k Hk; apply Gt; simpl; auto]. }
  set (F := fun g => x <- grp_xmin g ;; c <- close_opt x (Some s0) ;; if (c : bool) then ret tt else blank_column (S n) g (Some s0) x).
  destruct (level_loop true n lo hi lo (fun _ => s0) lo s0 F) with (gs := gs) (h := h1) as (h2 & R2 & W2 & C2).
  { intros g k (Q1 & Q2 & Q3 & Q4). destruct (row_ends k g (lo g) (hi g) Q1 Q2 Q4) as [X _]. unfold F. rewrite (bind_ok _ _ _ _ _ X), (bind_ok _ _ _ _ _ (close_known _ _ _)).
    destruct (isclose (lo g) s0); reflexivity. }
  { intros g Hg Nn. split; [|reflexivity]. destruct S0 as [_ S0]. pose proof (S0 (lo g) (ex_intro _ g (conj Hg eq_refl))).
    destruct (Z.eq_dec s0 (lo g)) as [Q|]; [|lia]. exfalso. apply Nn. rewrite Q. unfold near. pose proof atol_nonneg. rewrite Z.sub_diag. lia. }
  { rewrite Ft. exact Nb. }
  { exact Rw. }
  rewrite Ft in W2. pose proof (wd_rest _ _ _ W2) as (_ & Gk2 & _). assert (Go2 : forall k, gob h2 k = gob h1 k) by (intros k; unfold gob; rewrite Gk2; reflexivity).
  set (lo' := fun g => if isclose (lo g) s0 then lo g else s0).
  set (B := fun g => x <- grp_xmax g ;; c <- close_opt x (Some s1) ;; if (c : bool) then ret tt else emax <- np_ext Z.max (map Some (map hi gs)) ;; blank_column (S n) g x emax).
  destruct (level_loop false n lo' hi hi hi (fun _ => e1) s1 B) with (gs := gs) (h := h2) as (h3 & R3 & W3 & C3).
  { intros g k (Q1 & Q2 & Q3 & Q4). destruct (row_ends k g (lo' g) (hi g) Q1 Q2 Q4) as [_ X]. unfold B. rewrite (bind_ok _ _ _ _ _ X), (bind_ok _ _ _ _ _ (close_known _ _ _)).
    destruct (isclose (hi g) s1); [reflexivity|]. rewrite (bind_ok _ _ _ _ _ (highest hi gs k e1 E1)). reflexivity. }
  { intros; reflexivity. }
  { rewrite (flat_map_ext _ (tiers_in h1)), Ft; [exact Nb|]. intros k. unfold tiers_in. rewrite Go2. reflexivity. }
  { intros g Hg. destruct (Rw g Hg) as (Q1 & Q2 & Q3 & Q4). unfold rows. rewrite Go2. split; [exact Q1|]. split; [exact Q2|]. split; [exact Q3|]. intros u Hu.
    destruct (C2 g u Hg Hu) as (Cu & l & L1 & L2). apply (row_front TT h1 h2 u (lo g) (hi g) s0 l (Q4 u Hu) W2 Cu L1 L2). destruct S0 as [_ S0]. apply (S0 (lo g)). eauto. }
  assert (Ft2 : flat_map (tiers_in h2) gs = TT) by (rewrite (flat_map_ext _ (tiers_in h1)), Ft; [reflexivity|]; intros k; unfold tiers_in; rewrite Go2; reflexivity).
  rewrite Ft2 in W3. exists h3. split; [|split].
  - unfold grid_cleanup. change (get_grid a) with (gets (fun h => aob h a)). rewrite bind_gets. fold gs. rewrite (bind_ok _ _ _ _ _ R1). rewrite bind_gets.
    assert (Iv1 : List.filter (fun g => negb (g_points (gob h1 g))) gs = gs).
    { clear -Gt. induction gs as [|g gs IH]; [reflexivity|]. cbn. rewrite (proj2 (Gt g (or_introl eq_refl))). cbn. f_equal. apply IH. intros k Hk. apply Gt. simpl; auto. }
    rewrite Iv1.
    assert (Ex : forall g, In g gs -> grp_xmin g h1 = Ok (Some (lo g)) h1 /\ grp_xmax g h1 = Ok (Some (hi g)) h1) by (intros g Hg; destruct (Rw g Hg) as (Q1 & Q2 & Q3 & Q4); apply row_ends; auto).
    rewrite (bind_ok _ _ _ _ _ (mapM_known grp_xmin lo h1 gs (fun g Hg => proj1 (Ex g Hg)))), (bind_ok _ _ _ _ _ (mapM_known grp_xmax hi h1 gs (fun g Hg => proj2 (Ex g Hg)))).
    rewrite (bind_ok _ _ _ _ _ (lowest lo gs h1 s0 S0)), (bind_ok _ _ _ _ _ (highest lo gs h1 s1 S1)), (bind_ok _ _ _ _ _ (close_known _ _ _)).
    rewrite (bind_ok _ _ _ false h1); [rewrite (bind_ok _ _ _ _ _ R2); exact R3|].
    destruct (isclose s0 s1) eqn:I1; [|reflexivity]. rewrite (bind_ok _ _ _ _ _ (lowest hi gs h1 e0 E0)), (bind_ok _ _ _ _ _ (highest hi gs h1 e1 E1)), close_known.
    destruct (isclose e0 e1) eqn:I2; [|reflexivity]. exfalso. apply Un. split; apply isclose_spec; assumption.
  - intros g u Hg Hu. destruct (C2 g u Hg) as (_ & l & L1 & L2); [rewrite (proj1 (Gt g Hg)); exact Hu|]. destruct (C3 g u Hg) as (_ & m & M1 & M2); [rewrite Go2, (proj1 (Gt g Hg)); exact Hu|].
    rewrite (Tka u) in L1, L2. destruct (wd_tier _ _ _ W2 u) as (Ec & _). rewrite Ec, (Tka u) in M2. exists l, m. split; [rewrite M1, L1, app_assoc; reflexivity|]. split.
    + apply (unless_earlier h h1 h3 _ _ _ _ _ A6). apply (unless_later h1 h2 h3); [apply (wd_len _ _ _ W3)|apply (wd_obj _ _ _ W3)|exact L2].
    + apply (unless_earlier h h2 h3); [pose proof (wd_len _ _ _ W2); lia|exact M2].
  - pose proof (widened_trans TT h1 h2 h3 W2 W3) as [(Wc & Wh & Wg & Wl) Wo Wt Wn Wobj _ _ Ws]. unfold level_rest.
    split; [congruence|]. split; [congruence|]. split.
    { intros g. assert (gob h3 g = gob h1 g) as -> by (unfold gob; rewrite Wh; reflexivity). destruct (in_dec Nat.eq_dec g gs) as [I|I]; [destruct (Gt g I); rewrite (Pn g I), (A9 g I); auto|rewrite (A8 g I); auto]. }
    split; [intros g Hg; rewrite <- (A8 g Hg); unfold gob; rewrite Wh; reflexivity|]. split; [congruence|]. split; [lia|].
    split; [congruence|]. split; [intros t Ht; rewrite (Wo t Ht); apply Tka|]. split; [intros t; rewrite <- (Tka t); apply Wt|]. split.
    + intros i Hi. destruct (A4 i Hi) as (Q1 & Q2 & Q3 & Q4 & _ & Q5 & Q6). destruct (Wobj i) as (P1 & P2 & P3 & P4 & P5 & P6 & _); [unfold live; lia|]. repeat split; congruence.
    + intros i Hi Ni. rewrite (Ws i); [apply A5; auto|unfold live; lia|]. intros u Hu. rewrite Tka. apply Ni, Hu.
Qed.
Lemma level_rows n h lo hi g : level_ready n h lo hi g -> NoDup (g_tiers (gob h g)) -> rows h lo hi g.
Proof. intros (((bss & G) & t & Ht & _ & Ra & _) & _ & Cl) Nd. apply (good_rows h g (g_tiers (gob h g)) bss t); auto. Qed.
Lemma tiers_nodup h gs : NoDup (flat_map (tiers_in h) gs) -> forall g, In g gs -> NoDup (g_tiers (gob h g)).
Proof.
  induction gs as [|k gs IH]; intros N g Hg; [destruct Hg|]. cbn [flat_map] in N. apply NoDup_app in N. destruct N as (N1 & _ & N2). destruct Hg as [->|Hg]; [exact N1|auto].
Qed.
Lemma c75_ends : forall n h a lo hi s0 s1 e0 e1,
  let gs := a_groups (aob h a) in
  (forall g, In g gs -> level_ready (S n) h (lo g) (hi g) g) -> apart_groups h gs ->
  least (fun z => exists g, In g gs /\ lo g = z) s0 -> greatest (fun z => exists g, In g gs /\ lo g = z) s1 ->
  least (fun z => exists g, In g gs /\ hi g = z) e0 -> greatest (fun z => exists g, In g gs /\ hi g = z) e1 ->
  ~ (near s0 s1 /\ near e0 e1) ->
  exists h', grid_cleanup (S n) a h = Ok tt h' /\ forall g, In g gs -> exists z w,
    grp_xmin g h' = Ok (Some z) h' /\ (z = s0 \/ near (lo g) s0 /\ z = lo g) /\ grp_xmax g h' = Ok (Some w) h' /\ (w = e1 \/ near (hi g) s1 /\ w = hi g).
Proof.
  intros n h a lo hi s0 s1 e0 e1 gs K Ap S0 S1 E0 E1 Un. destruct (c75_levelled n h a lo hi s0 s1 e0 e1 K Ap S0 S1 E0 E1 Un) as (h' & R & Lv & (L1 & L2 & L3 & _ & _ & _ & L4 & L5 & L6 & L7 & L8)).
  exists h'. split; [exact R|]. fold gs in Lv, L5, L8. assert (Pk : forall k, g_points (gob h' k) = g_points (gob h k)) by (intros k; apply L3). assert (L3' : forall k, g_tiers (gob h' k) = g_tiers (gob h k)) by (intros k; apply L3). clear L3. rename L3' into L3.
  intros g Hg. destruct (level_rows (S n) h (lo g) (hi g) g (K g Hg) (tiers_nodup h gs (proj1 (proj2 Ap)) g Hg)) as (Gp & Ne & _ & Rw).
  assert (Le : lo g <= hi g /\ s0 <= lo g /\ hi g <= e1).
  { split; [|split; [apply (proj2 S0); eauto|apply (proj2 E1); eauto]]. destruct (g_tiers (gob h g)) as [|u r] eqn:Eg; [congruence|]. destruct (Rw u (or_introl eq_refl)) as [_ _ _ _ _ _ Rt _ (x & Hx & _) _].
    destruct (Rt x Hx) as (s & e & _ & _ & Q). lia. }
  exists (if isclose (lo g) s0 then lo g else s0), (if isclose (hi g) s1 then hi g else e1).
  assert (Q : grp_xmin g h' = Ok (Some (if isclose (lo g) s0 then lo g else s0)) h' /\ grp_xmax g h' = Ok (Some (if isclose (hi g) s1 then hi g else e1)) h').
  { apply spread_ends; [rewrite Pk; exact Gp|rewrite L3; exact Ne|]. rewrite L3. intros u Hu. destruct (Lv g u Hg Hu) as (front & back & Sq & Fr & Bk). destruct (Rw u Hu) as [_ _ Np _ _ (_ & Lk) Rt _ (p & P1 & P2) (q & Q1 & Q2)].
    assert (Ip : forall x, s_cls (sob h' x) = t_ec (tob h u) -> is_point h' x = false) by (intros x Q; unfold is_point, is_point_cls; rewrite Q, (issubclass_ext h h') by exact L1; exact Np).
    assert (Fr' : isclose (lo g) s0 = true /\ front = [] \/ isclose (lo g) s0 = false /\ exists x, front = [x] /\ blank_at h' (t_ec (tob h u)) x s0 (lo g)).
    { destruct Fr as [[Q ->]|(Q & x & -> & _ & X)]; [left; split; [apply isclose_spec, Q|reflexivity]|right; split; [|eauto]]. destruct (isclose (lo g) s0) eqn:I; [exfalso; apply Q, isclose_spec, I|reflexivity]. }
    assert (Bk' : isclose (hi g) s1 = true /\ back = [] \/ isclose (hi g) s1 = false /\ exists x, back = [x] /\ blank_at h' (t_ec (tob h u)) x (hi g) e1).
    { destruct Bk as [[Q ->]|(Q & x & -> & _ & X)]; [left; split; [apply isclose_spec, Q|reflexivity]|right; split; [|eauto]]. destruct (isclose (hi g) s1) eqn:I; [exfalso; apply Q, isclose_spec, I|reflexivity]. }
    assert (B1 : forall x, In x front -> s_cls (sob h' x) = t_ec (tob h u) /\ s_start (sob h' x) = Some s0 /\ s_end (sob h' x) = Some (lo g) /\ isclose (lo g) s0 = false).
    { intros x Hx. destruct Fr' as [[_ ->]|(Q & y & -> & (X1 & X2 & X3 & _))]; [destruct Hx|]. destruct Hx as [<-|[]]. auto. }
    assert (B2 : forall x, In x back -> s_cls (sob h' x) = t_ec (tob h u) /\ s_start (sob h' x) = Some (hi g) /\ s_end (sob h' x) = Some e1 /\ isclose (hi g) s1 = false).
    { intros x Hx. destruct Bk' as [[_ ->]|(Q & y & -> & (X1 & X2 & X3 & _))]; [destruct Hx|]. destruct Hx as [<-|[]]. auto. }
    unfold spread. rewrite Sq. split; [|split].
    - intros x Hx. rewrite !in_app_iff in Hx. destruct Hx as [Hx|[Hx|Hx]].
      + destruct (B1 x Hx) as (C1 & C2 & C3 & C4). split; [auto|]. exists s0, (lo g). rewrite C4. split; [exact C2|]. split; [exact C3|]. destruct (isclose (hi g) s1); lia.
      + destruct (Lk x Hx) as (Lx & Cx & _). destruct (L7 x Lx) as (D1 & D2 & D3 & _). split; [apply Ip; congruence|]. destruct (Rt x Hx) as (s & e & R1 & R2 & R3 & R4 & R5). exists s, e. rewrite D2, D3.
        split; [exact R1|]. split; [exact R2|]. destruct (isclose (lo g) s0), (isclose (hi g) s1); lia.
      + destruct (B2 x Hx) as (C1 & C2 & C3 & C4). split; [auto|]. exists (hi g), e1. rewrite C4. split; [exact C2|]. split; [exact C3|]. destruct (isclose (lo g) s0); lia.
    - destruct Fr' as [[-> ->]|(-> & y & -> & (_ & X & _))]; [exists p|exists y]; rewrite ?in_app_iff; [|simpl; auto]. destruct (L7 p (proj1 (Lk p P1))) as (_ & -> & _). auto.
    - destruct Bk' as [[-> ->]|(-> & y & -> & (_ & _ & X & _))]; [exists q|exists y]; rewrite ?in_app_iff; [|simpl; auto]. destruct (L7 q (proj1 (Lk q Q1))) as (_ & _ & -> & _). auto. }
  destruct Q as [Q1 Q2]. split; [exact Q1|]. split.
  - destruct (isclose (lo g) s0) eqn:I; [right; split; [apply isclose_spec, I|reflexivity]|auto].
  - split; [exact Q2|]. destruct (isclose (hi g) s1) eqn:I; [right; split; [apply isclose_spec, I|reflexivity]|auto].
Qed.
End WithEnv.
