(** * WidenFinal: levelling groups with gaps, and reading a text grid whose rows
    have gaps and differ in extent. *)
From Verif Require Import TidyFinal LevelFinal CleanFinal RefillFinal PopFinal OwnFinal ClassFinal PointFinal RelateFinal WeaveFinal ReadClasses TripFinal ReadMade ReadFinal UnevenFinal.
From Verif Require Import WidenSpec.
Open Scope Z_scope.

Section WithEnv.
Context `{Env}.
Opaque span_of.

(** ** The state in between *)
Lemma tidied_bounded n h h' lo hi g : tidy_ready n h lo hi g -> tidied h h' g -> (forall i, (i < List.length (h_seq h))%nat -> s_start (sob h' i) = s_start (sob h i) /\ s_end (sob h' i) = s_end (sob h i)) ->
  forall t, hd_error (g_tiers (gob h g)) = Some t -> TidyFinal.bounded h' (t_seq (tob h' t)) lo hi.
Proof.
  intros ((bss & G) & t & Ht & _ & Ra & _) ((bss' & G') & T) K t1 Ht1. assert (t1 = t) by congruence. subst t1. destruct (T t Ht) as [X1 X2].
  assert (It : In t (g_tiers (gob h g))) by (apply hd_in, Ht). destruct (good_turns h' g _ bss' G' t It) as [Tu' D'].
  destruct (gap_or h g _ bss t G It) as [X|X].
  - destruct (X1 X t It) as ((x & y & a & b & P1 & P2 & P3 & P4 & P5) & P6 & _). destruct Ra as (x' & y' & R1 & R2 & R3 & R4).
    assert (x' = x) by congruence. assert (y' = y) by congruence. subst x' y'. assert (a = lo) by congruence. assert (b = hi) by congruence. subst a b.
    assert (Ne : t_seq (tob h' t) <> []) by (intros Q; rewrite Q in P6; rewrite <- P6 in P1; discriminate). split; [apply (tiles_first h' _ lo hi P5 Ne)|]. split; [apply (tiles_last h' _ lo hi P5 Ne)|].
    intros z Hz. apply (GroupFinal.tiles_in h' _ lo hi z P5 Hz).
  - rewrite (proj1 (X2 X) t It) in *. apply (turn_bounded h' _ lo hi Tu' D'). apply (ranges_same h h'); [|exact Ra]. intros x Hx. apply K. apply (good_live h g _ bss t x G It Hx).
Qed.
Lemma bound_rows h g ts bss t lo hi : good_group h g ts bss -> hd_error ts = Some t -> TidyFinal.bounded h (t_seq (tob h t)) lo hi ->
  (forall u, In u ts -> classed h u /\ issubclass h (t_ec (tob h u)) cInterval = true) -> NoDup ts -> rows h lo hi g.
Proof.
  intros G Ht Ra Cl Nd. pose proof G as (_ & Gp & Gt & _ & Tc & _ & Sn & _ & Ti & _). unfold rows. rewrite Gt. split; [exact Gp|]. split; [intros ->; discriminate|]. split; [exact Nd|].
  intros u Hu. pose proof (good_turns h g ts bss G) as Tu.
  assert (B : TidyFinal.bounded h (t_seq (tob h u)) lo hi).
  { destruct ts as [|t0 r]; [discriminate|]. injection Ht as ->. destruct (Tu t (or_introl eq_refl)) as [T1 T2]. exact (snug_bounded h lo hi r bss t Sn Ra u Hu). }
  destruct B as (B1 & B2 & B3). destruct (Tu u Hu) as [T1 T2]. destruct (Ti u Hu) as (_ & Lk & Np). destruct (Cl u Hu) as [C1 C2].
  constructor; auto.
  - destruct Tc as (_ & _ & Tc & _). apply (Tc u Hu).
  - apply (GrowFinal.chain_super h ts Tc u Hu).
  - intros x Hx. destruct (B3 x Hx) as ((D1 & D2 & D3) & D4 & D5). exists (fst (span_of h x)), (snd (span_of h x)). auto.
  - intros i j x y Hij Hx Hy. destruct (T1 i j x y Hij Hx Hy) as (e & s & E1 & E2 & Le). destruct (T2 x (nth_error_In _ _ Hx)) as (D1 & D2 & D3).
    exists (fst (span_of h x)), s. split; [exact D1|]. split; [exact E2|]. assert (e = snd (span_of h x)) by congruence. lia.
Qed.
Lemma tidied_classed h h' g : (exists bss, good_group h g (g_tiers (gob h g)) bss) -> tidied h h' g -> forall u, In u (g_tiers (gob h g)) -> t_ec (tob h' u) = t_ec (tob h u) -> classed h u -> classed h' u.
Proof.
  intros (bss & G) (_ & T) u Hu Ec C. destruct (good_top h g _ bss G) as (t & r & Et). assert (Ht : hd_error (g_tiers (gob h g)) = Some t) by (rewrite Et; reflexivity).
  destruct (T t Ht) as [X1 X2]. unfold classed in *. destruct (gap_or h g _ bss t G (RefillFinal.hd_in _ _ Ht)) as [X|X]; [|rewrite (proj1 (X2 X) u Hu); exact C].
  destruct (X1 X u Hu) as ((x & y & a & b & P1 & _) & _ & _ & Pc). rewrite Ec. left. apply Pc. destruct C as [C|[C _]]; [exact C|]. rewrite C in P1. discriminate.
Qed.

Lemma level_stage : forall n h a lo hi s0 s1 e0 e1,
  let gs := a_groups (aob h a) in
  (forall g, In g gs -> fill_ready (S n) h (lo g) (hi g) g) -> apart_groups h gs ->
  least (fun z => exists g, In g gs /\ lo g = z) s0 -> greatest (fun z => exists g, In g gs /\ lo g = z) s1 ->
  least (fun z => exists g, In g gs /\ hi g = z) e0 -> greatest (fun z => exists g, In g gs /\ hi g = z) e1 ->
  ~ (near s0 s1 /\ near e0 e1) ->
  exists h1 h', grid_cleanup (S n) a h = Ok tt h' /\
    (forall g, In g gs -> tidied h h1 g) /\ rest_kept h h1 gs (flat_map (tiers_in h) gs) /\
    (forall g u, In g gs -> In u (g_tiers (gob h g)) -> levelled s0 s1 e1 (lo g) (hi g) h1 h' u) /\
    level_rest h1 h' gs (flat_map (tiers_in h) gs) /\ level_rest h h' gs (flat_map (tiers_in h) gs) /\ (forall g, In g gs -> rows h1 (lo g) (hi g) g /\ g_tiers (gob h1 g) = g_tiers (gob h g)).
Proof.
  intros n h a lo hi s0 s1 e0 e1 gs K Ap S0 S1 E0 E1 Un.
  assert (Pn : forall g, In g gs -> g_points (gob h g) = false) by (intros g Hg; destruct (K g Hg) as (((bss & (_ & Q & _)) & _) & _); exact Q).
  assert (Iv : ivs_of h gs = gs).
  { unfold ivs_of. clear -Pn. induction gs as [|g gs IH]; [reflexivity|]. cbn. rewrite (Pn g) by (simpl; auto). cbn. f_equal. apply IH. intros k Hk. apply Pn. simpl; auto. }
  destruct (tidy_groups (S n) lo hi gs h) as (h1 & R1 & T & Ap1 & Rk).
  { intros g Hg. right. apply (K g Hg). }
  { rewrite Iv. exact Ap. }
  rewrite Iv in T, Ap1, Rk. pose proof Rk as (A1 & A2 & A3 & A4 & A5 & A6 & A7 & A8 & A9 & A10 & A11). set (TT := flat_map (tiers_in h) gs) in *.
  assert (Gt : forall g, In g gs -> g_tiers (gob h1 g) = g_tiers (gob h g) /\ g_points (gob h1 g) = false) by (intros g Hg; destruct (T g Hg) as ((bss & (_ & Q1 & Q2 & _)) & _); auto).
  destruct Ap as (Na & Nb & Nc).
  assert (Rw : forall g, In g gs -> rows h1 (lo g) (hi g) g).
  { intros g Hg. destruct (K g Hg) as (Rd & Cl). pose proof Rd as (Gd & t & Ht & _ & Ra & _). pose proof (T g Hg) as Tg. destruct Tg as ((bss & G) & _).
    assert (Ec : forall u, In u (g_tiers (gob h g)) -> t_ec (tob h1 u) = t_ec (tob h u)) by (intros u Hu; apply A1, in_flat_map; exists g; auto).
    apply (bound_rows h1 g (g_tiers (gob h g)) bss t); auto.
    - apply (tidied_bounded (S n) h h1 (lo g) (hi g) g Rd (T g Hg)); [|exact Ht]. intros i Hi. destruct (A4 i Hi) as (_ & Q1 & Q2 & _). auto.
    - intros u Hu. destruct (Cl u Hu) as [C1 C2]. split; [apply (tidied_classed h h1 g Gd (T g Hg) u Hu (Ec u Hu) C1)|]. rewrite (Ec u Hu), (issubclass_ext h h1) by exact A10. exact C2.
    - clear -Nb Hg. induction gs as [|k gs IH]; [destruct Hg|]. cbn [flat_map] in Nb. apply NoDup_app in Nb. destruct Nb as (N1 & _ & N2). destruct Hg as [->|Hg]; [exact N1|auto]. }
  assert (Ft : flat_map (tiers_in h1) gs = TT).
  { unfold TT. clear -Gt. induction gs as [|g gs IH]; [reflexivity|]. cbn [flat_map]. f_equal; [unfold tiers_in; apply Gt; simpl; auto|apply IH; intros k Hk; apply Gt; simpl; auto]. }
  set (F := fun g => x <- grp_xmin g ;; c <- close_opt x (Some s0) ;; if (c : bool) then ret tt else blank_column (S n) g (Some s0) x).
  destruct (level_loop true n lo hi lo (fun _ => s0) lo s0 F) with (gs := gs) (h := h1) as (h2 & R2 & W2 & C2).
  { intros g k (Q1 & Q2 & Q3 & Q4). destruct (row_ends k g (lo g) (hi g) Q1 Q2 Q4) as [X _]. unfold F. rewrite (bind_ok _ _ _ _ _ X), (bind_ok _ _ _ _ _ (close_known _ _ _)).
    destruct (isclose (lo g) s0); reflexivity. }
  { intros g Hg Nn. split; [|reflexivity]. destruct S0 as [_ S0]. pose proof (S0 (lo g) (ex_intro _ g (conj Hg eq_refl))).
    destruct (Z.eq_dec s0 (lo g)) as [Q|]; [|lia]. exfalso. apply Nn. rewrite Q. unfold near. pose proof atol_nonneg. rewrite Z.sub_diag. lia. }
  { rewrite Ft. exact Nb. }
  { exact Rw. }
  rewrite Ft in W2. pose proof (wd_rest _ _ _ W2) as (_ & Gk2 & _). assert (Go2 : forall k, gob h2 k = gob h1 k) by (intros k; unfold gob; rewrite Gk2; reflexivity).
  set (lo' := fun g => if isclose (lo g) s0 then lo g else s0).
  set (B := fun g => x <- grp_xmax g ;; c <- close_opt x (Some s1) ;; if (c : bool) then ret tt else emax <- np_ext Z.max (map Some (map hi gs)) ;; blank_column (S n) g x emax).
  destruct (level_loop false n lo' hi hi hi (fun _ => e1) s1 B) with (gs := gs) (h := h2) as (h3 & R3 & W3 & C3).
  { intros g k (Q1 & Q2 & Q3 & Q4). destruct (row_ends k g (lo' g) (hi g) Q1 Q2 Q4) as [_ X]. unfold B. rewrite (bind_ok _ _ _ _ _ X), (bind_ok _ _ _ _ _ (close_known _ _ _)).
    destruct (isclose (hi g) s1); [reflexivity|]. rewrite (bind_ok _ _ _ _ _ (highest hi gs k e1 E1)). reflexivity. }
  { intros; reflexivity. }
  { rewrite (flat_map_ext _ (tiers_in h1)), Ft; [exact Nb|]. intros k. unfold tiers_in. rewrite Go2. reflexivity. }
  { intros g Hg. destruct (Rw g Hg) as (Q1 & Q2 & Q3 & Q4). unfold rows. rewrite Go2. split; [exact Q1|]. split; [exact Q2|]. split; [exact Q3|]. intros u Hu.
    destruct (C2 g u Hg Hu) as (Cu & l & L1 & L2). apply (row_front TT h1 h2 u (lo g) (hi g) s0 l (Q4 u Hu) W2 Cu L1 L2). destruct S0 as [_ S0]. apply (S0 (lo g)). eauto. }
  assert (Ft2 : flat_map (tiers_in h2) gs = TT) by (rewrite (flat_map_ext _ (tiers_in h1)), Ft; [reflexivity|]; intros k; unfold tiers_in; rewrite Go2; reflexivity).
  rewrite Ft2 in W3. exists h1, h3. split; [|split; [exact T|split; [exact Rk|split; [|split; [|split]]]]].
  - unfold grid_cleanup. change (get_grid a) with (gets (fun h => aob h a)). rewrite bind_gets. fold gs. rewrite (bind_ok _ _ _ _ _ R1). rewrite bind_gets.
    assert (Iv1 : List.filter (fun g => negb (g_points (gob h1 g))) gs = gs).
    { clear -Gt. induction gs as [|g gs IH]; [reflexivity|]. cbn. rewrite (proj2 (Gt g (or_introl eq_refl))). cbn. f_equal. apply IH. intros k Hk. apply Gt. simpl; auto. }
    rewrite Iv1.
    assert (Ex : forall g, In g gs -> grp_xmin g h1 = Ok (Some (lo g)) h1 /\ grp_xmax g h1 = Ok (Some (hi g)) h1) by (intros g Hg; destruct (Rw g Hg) as (Q1 & Q2 & Q3 & Q4); apply row_ends; auto).
    rewrite (bind_ok _ _ _ _ _ (mapM_known grp_xmin lo h1 gs (fun g Hg => proj1 (Ex g Hg)))), (bind_ok _ _ _ _ _ (mapM_known grp_xmax hi h1 gs (fun g Hg => proj2 (Ex g Hg)))).
    rewrite (bind_ok _ _ _ _ _ (lowest lo gs h1 s0 S0)), (bind_ok _ _ _ _ _ (highest lo gs h1 s1 S1)), (bind_ok _ _ _ _ _ (close_known _ _ _)).
    rewrite (bind_ok _ _ _ false h1); [rewrite (bind_ok _ _ _ _ _ R2); exact R3|].
    destruct (isclose s0 s1) eqn:I1; [|reflexivity]. rewrite (bind_ok _ _ _ _ _ (lowest hi gs h1 e0 E0)), (bind_ok _ _ _ _ _ (highest hi gs h1 e1 E1)), close_known.
    destruct (isclose e0 e1) eqn:I2; [|reflexivity]. exfalso. apply Un. split; apply isclose_spec; assumption.
  - intros g u Hg Hu. destruct (C2 g u Hg) as (_ & l & L1 & L2); [rewrite (proj1 (Gt g Hg)); exact Hu|]. destruct (C3 g u Hg) as (_ & m & M1 & M2); [rewrite Go2, (proj1 (Gt g Hg)); exact Hu|].
    destruct (wd_tier _ _ _ W2 u) as (Ec & _). rewrite Ec in M2. exists l, m. split; [rewrite M1, L1, app_assoc; reflexivity|]. split.
    + apply (unless_later h1 h2 h3); [apply (wd_len _ _ _ W3)|apply (wd_obj _ _ _ W3)|exact L2].
    + apply (unless_earlier h1 h2 h3); [apply (wd_len _ _ _ W2)|exact M2].
  - pose proof (widened_trans TT h1 h2 h3 W2 W3) as [(Wc & Wh & Wg & Wl) Wo Wt Wn Wobj _ _ Ws]. unfold level_rest.
    split; [congruence|]. split; [congruence|]. split.
    { intros g. assert (gob h3 g = gob h1 g) as -> by (unfold gob; rewrite Wh; reflexivity). auto. }
    split; [intros g Hg; unfold gob; rewrite Wh; reflexivity|]. split; [congruence|]. split; [lia|].
    split; [congruence|]. split; [exact Wo|]. split; [exact Wt|]. split.
    + intros i Hi. destruct (Wobj i) as (P1 & P2 & P3 & P4 & P5 & P6 & _); [exact Hi|]. repeat split; congruence.
    + intros i Hi Ni. apply (Ws i); [exact Hi|]. intros u Hu. apply Ni, Hu.
  - pose proof (widened_trans TT h1 h2 h3 W2 W3) as [(Wc & Wh & Wg & Wl) Wo Wt Wn Wobj _ _ Ws]. unfold level_rest.
    split; [congruence|]. split; [congruence|]. split.
    { intros g. assert (gob h3 g = gob h1 g) as -> by (unfold gob; rewrite Wh; reflexivity). destruct (in_dec Nat.eq_dec g gs) as [I|I]; [destruct (Gt g I); rewrite (Pn g I), (A9 g I); auto|rewrite (A8 g I); auto]. }
    split; [intros g Hg; rewrite <- (A8 g Hg); unfold gob; rewrite Wh; reflexivity|]. split; [congruence|]. split; [lia|].
    split; [congruence|]. split; [intros t Ht; rewrite (Wo t Ht); apply A2, Ht|]. split.
    { intros t. destruct (Wt t) as (-> & -> & -> & -> & ->). destruct (in_dec Nat.eq_dec t TT) as [I|I]; [apply A1, I|rewrite (A2 t I); auto]. }
    split.
    + intros i Hi. destruct (A4 i Hi) as (Q1 & Q2 & Q3 & Q4 & _ & Q5 & Q6). destruct (Wobj i) as (P1 & P2 & P3 & P4 & P5 & P6 & _); [unfold live; lia|]. repeat split; congruence.
    + intros i Hi Ni. rewrite (Ws i); [apply A5; auto|unfold live; lia|]. intros u Hu Q. apply (Ni u Hu). apply in_flat_map in Hu. destruct Hu as (g & Hg & Hu).
      destruct (K g Hg) as (((bss & G) & _) & _). apply (tidied_old h h1 g _ bss u i G eq_refl (T g Hg) Hu Q Hi).
  - intros g Hg. split; [apply Rw, Hg|apply (Gt g Hg)].
Qed.

(** ** C77 *)
Lemma c77_levelled : forall n h a lo hi s0 s1 e0 e1,
  let gs := a_groups (aob h a) in
  (forall g, In g gs -> fill_ready (S n) h (lo g) (hi g) g) -> apart_groups h gs ->
  least (fun z => exists g, In g gs /\ lo g = z) s0 -> greatest (fun z => exists g, In g gs /\ lo g = z) s1 ->
  least (fun z => exists g, In g gs /\ hi g = z) e0 -> greatest (fun z => exists g, In g gs /\ hi g = z) e1 ->
  ~ (near s0 s1 /\ near e0 e1) ->
  exists h1 h', grid_cleanup (S n) a h = Ok tt h' /\
    (forall g, In g gs -> tidied h h1 g) /\ rest_kept h h1 gs (flat_map (tiers_in h) gs) /\
    (forall g u, In g gs -> In u (g_tiers (gob h g)) -> levelled s0 s1 e1 (lo g) (hi g) h1 h' u) /\
    level_rest h1 h' gs (flat_map (tiers_in h) gs).
Proof.
  intros n h a lo hi s0 s1 e0 e1 gs K Ap S0 S1 E0 E1 Un. destruct (level_stage n h a lo hi s0 s1 e0 e1 K Ap S0 S1 E0 E1 Un) as (h1 & h' & R & T & Rk & Lv & Lr & _). exists h1, h'. auto.
Qed.
Lemma c77_ends : forall n h a lo hi s0 s1 e0 e1,
  let gs := a_groups (aob h a) in
  (forall g, In g gs -> fill_ready (S n) h (lo g) (hi g) g) -> apart_groups h gs ->
  least (fun z => exists g, In g gs /\ lo g = z) s0 -> greatest (fun z => exists g, In g gs /\ lo g = z) s1 ->
  least (fun z => exists g, In g gs /\ hi g = z) e0 -> greatest (fun z => exists g, In g gs /\ hi g = z) e1 ->
  ~ (near s0 s1 /\ near e0 e1) ->
  exists h', grid_cleanup (S n) a h = Ok tt h' /\ forall g, In g gs -> exists z w,
    grp_xmin g h' = Ok (Some z) h' /\ (z = s0 \/ near (lo g) s0 /\ z = lo g) /\ grp_xmax g h' = Ok (Some w) h' /\ (w = e1 \/ near (hi g) s1 /\ w = hi g).
Proof.
  intros n h a lo hi s0 s1 e0 e1 gs K Ap S0 S1 E0 E1 Un. destruct (level_stage n h a lo hi s0 s1 e0 e1 K Ap S0 S1 E0 E1 Un) as (h1 & h' & R & _ & _ & Lv & (L1 & L2 & L3 & _ & _ & _ & L4 & L5 & L6 & L7 & L8) & _ & Rw1).
  exists h'. split; [exact R|]. fold gs in Lv, L5, L8, Rw1. assert (Pk : forall k, g_points (gob h' k) = g_points (gob h1 k)) by (intros k; apply L3). assert (L3' : forall k, g_tiers (gob h' k) = g_tiers (gob h1 k)) by (intros k; apply L3). clear L3. rename L3' into L3.
  intros g Hg. destruct (Rw1 g Hg) as ((Gp & Ne & _ & Rw) & Gt).
  assert (Le : lo g <= hi g /\ s0 <= lo g /\ hi g <= e1).
  { split; [|split; [apply (proj2 S0); eauto|apply (proj2 E1); eauto]]. destruct (g_tiers (gob h1 g)) as [|u r] eqn:Eg; [congruence|]. destruct (Rw u (or_introl eq_refl)) as [_ _ _ _ _ _ Rt _ (x & Hx & _) _].
    destruct (Rt x Hx) as (s & e & _ & _ & Q). lia. }
  exists (if isclose (lo g) s0 then lo g else s0), (if isclose (hi g) s1 then hi g else e1).
  assert (Q : grp_xmin g h' = Ok (Some (if isclose (lo g) s0 then lo g else s0)) h' /\ grp_xmax g h' = Ok (Some (if isclose (hi g) s1 then hi g else e1)) h').
  { apply spread_ends; [rewrite Pk; exact Gp|rewrite L3; exact Ne|]. rewrite L3. intros u Hu. destruct (Lv g u Hg ltac:(rewrite <- Gt; exact Hu)) as (front & back & Sq & Fr & Bk). destruct (Rw u Hu) as [_ _ Np _ _ (_ & Lk) Rt _ (p & P1 & P2) (q & Q1 & Q2)].
    assert (Ip : forall x, s_cls (sob h' x) = t_ec (tob h1 u) -> is_point h' x = false) by (intros x Q; unfold is_point, is_point_cls; rewrite Q, (issubclass_ext h1 h') by exact L1; exact Np).
    assert (Fr' : isclose (lo g) s0 = true /\ front = [] \/ isclose (lo g) s0 = false /\ exists x, front = [x] /\ blank_at h' (t_ec (tob h1 u)) x s0 (lo g)).
    { destruct Fr as [[Q ->]|(Q & x & -> & _ & X)]; [left; split; [apply isclose_spec, Q|reflexivity]|right; split; [|eauto]]. destruct (isclose (lo g) s0) eqn:I; [exfalso; apply Q, isclose_spec, I|reflexivity]. }
    assert (Bk' : isclose (hi g) s1 = true /\ back = [] \/ isclose (hi g) s1 = false /\ exists x, back = [x] /\ blank_at h' (t_ec (tob h1 u)) x (hi g) e1).
    { destruct Bk as [[Q ->]|(Q & x & -> & _ & X)]; [left; split; [apply isclose_spec, Q|reflexivity]|right; split; [|eauto]]. destruct (isclose (hi g) s1) eqn:I; [exfalso; apply Q, isclose_spec, I|reflexivity]. }
    assert (B1 : forall x, In x front -> s_cls (sob h' x) = t_ec (tob h1 u) /\ s_start (sob h' x) = Some s0 /\ s_end (sob h' x) = Some (lo g) /\ isclose (lo g) s0 = false).
    { intros x Hx. destruct Fr' as [[_ ->]|(Q & y & -> & (X1 & X2 & X3 & _))]; [destruct Hx|]. destruct Hx as [<-|[]]. auto. }
    assert (B2 : forall x, In x back -> s_cls (sob h' x) = t_ec (tob h1 u) /\ s_start (sob h' x) = Some (hi g) /\ s_end (sob h' x) = Some e1 /\ isclose (hi g) s1 = false).
    { intros x Hx. destruct Bk' as [[_ ->]|(Q & y & -> & (X1 & X2 & X3 & _))]; [destruct Hx|]. destruct Hx as [<-|[]]. auto. }
    unfold LevelFinal.spread. rewrite Sq. split; [|split].
    - intros x Hx. rewrite !in_app_iff in Hx. destruct Hx as [Hx|[Hx|Hx]].
      + destruct (B1 x Hx) as (C1 & C2 & C3 & C4). split; [auto|]. exists s0, (lo g). rewrite C4. split; [exact C2|]. split; [exact C3|]. destruct (isclose (hi g) s1); lia.
      + destruct (Lk x Hx) as (Lx & Cx & _). destruct (L7 x Lx) as (D1 & D2 & D3 & _). split; [apply Ip; congruence|]. destruct (Rt x Hx) as (s & e & R1 & R2 & R3 & R4 & R5). exists s, e. rewrite D2, D3.
        split; [exact R1|]. split; [exact R2|]. destruct (isclose (lo g) s0), (isclose (hi g) s1); lia.
      + destruct (B2 x Hx) as (C1 & C2 & C3 & C4). split; [auto|]. exists (hi g), e1. rewrite C4. split; [exact C2|]. split; [exact C3|]. destruct (isclose (lo g) s0); lia.
    - destruct Fr' as [[-> ->]|(-> & y & -> & (_ & X & _))]; [exists p|exists y]; rewrite ?in_app_iff; [|simpl; auto]. destruct (L7 p (proj1 (Lk p P1))) as (_ & -> & _). auto.
    - destruct Bk' as [[-> ->]|(-> & y & -> & (_ & _ & X & _))]; [exists q|exists y]; rewrite ?in_app_iff; [|simpl; auto]. destruct (L7 q (proj1 (Lk q Q1))) as (_ & _ & -> & _). auto. }
  destruct Q as [Q1 Q2]. split; [exact Q1|]. split.
  - destruct (isclose (lo g) s0) eqn:I; [right; split; [apply isclose_spec, I|reflexivity]|auto].
  - split; [exact Q2|]. destruct (isclose (hi g) s1) eqn:I; [right; split; [apply isclose_spec, I|reflexivity]|auto].
Qed.

(** ** Reading *)
Lemma ready_fill n lo hi f h0 h ps g : read_group lo hi f h0 h ps g -> (gapless (map fst ps) \/ 0 < lo /\ (List.length ps <= n)%nat) -> fill_ready n h lo hi g.
Proof.
  intros R Gp. split; [apply (ready_read n lo hi f h0 h ps g R Gp)|]. destruct R as (cs & rs & t' & b' & N & C & Un & (F1 & _) & R & Tp).
  intros u Hu. destruct (Forall2_in_r _ _ _ u R Hu) as (q & Hq & _ & _ & (X3 & _) & _). split; [exact X3|]. apply C. rewrite <- F1. apply (in_map (fun t => t_ec (tob h t))), Hu.
Qed.
Lemma either_mended lo hi f h h' ps g : either_group lo hi f h h' ps g ->
  exists cs rs t' b', nested_as h lo hi ps cs rs /\ class_chain h' t' (map f cs) b' /\ map (fun t => t_ec (tob h' t)) (g_tiers (gob h' g)) = map f cs /\
    (exists bss, good_group h' g (g_tiers (gob h' g)) bss) /\
    Forall2 (fun r k => t_name (tob h' k) = rt_name r /\ exists m, mended (map fst ps) (rt_entries r) m /\ Forall2 (stands_for h') m (t_seq (tob h' k))) rs (g_tiers (gob h' g)).
Proof.
  intros [[(p & Hp & Rg) (cs & rs & t' & b' & N & C & _ & F1 & G & F)]|[Gl (cs & rs & t' & b' & N & C & _ & (F1 & G & _) & F & _)]]; exists cs, rs, t', b'; (split; [exact N|]; split; [exact C|]; split; [exact F1|]; split; [exact G|]).
  - eapply Forall2_impl; [exact F|]. intros r k (Q1 & Q2 & _). split; [exact Q1|]. eexists. split; [left; split; [|reflexivity]|exact Q2]. exists (fst p). split; [apply in_map, Hp|exact Rg].
  - eapply Forall2_impl; [exact F|]. intros r k (Q1 & Q2 & _). split; [exact Q1|]. eexists. split; [right; split; [exact Gl|reflexivity]|exact Q2].
Qed.
Lemma c77_read : forall (n : nat) (h : heap) (rows : list (list rawtier)) (css : list (list cid)) (rest : list rawtier) (lo hi : list rawtier -> Z) (s0 s1 e0 e1 : Z),
  class_table h -> Forall2 (fun row ocs => nesting h (lo row) (hi row) row ocs) rows css -> names_apart h (concat css) -> (forall row, In row rows -> gapless row \/ 0 < lo row /\ (List.length row <= S n)%nat) ->
  least (fun z => exists row, In row rows /\ lo row = z) s0 -> greatest (fun z => exists row, In row rows /\ lo row = z) s1 ->
  least (fun z => exists row, In row rows /\ hi row = z) e0 -> greatest (fun z => exists row, In row rows /\ hi row = z) e1 ->
  ~ (near s0 s1 /\ near e0 e1) ->
  exists f a h', new_grid_textgrid (S n) (concat rows ++ rest) (Nested css) h = Ok a h' /\
    Forall2 (fun rc => remade_group s0 s1 e1 (lo (fst rc)) (hi (fst rc)) f h h' rc) (combine rows css) (a_groups (aob h' a)) /\
    (forall g, In g (a_groups (aob h' a)) -> g_within (gob h' g) = Some (WGrid a) /\ exists nm, g_name (gob h' g) = Some nm /\ nm <> EmptyString) /\
    (forall c, In c (concat css) -> clone_of h h' c (f c)) /\ all_kept h h'.
Proof.
  intros n h rows css rest lo hi s0 s1 e0 e1 T Ne Na Gp S0 S1 E0 E1 Un. set (a := List.length (h_grid h)).
  set (h0 := Heap (h_cls h) (h_seq h) (h_tier h) (h_grp h) (h_grid h ++ [blank_grid])) in *.
  assert (C0 : h_cls h0 = h_cls h) by reflexivity.
  assert (T0 : class_table h0) by (unfold class_table, cob in *; exact T).
  assert (A0 : aob h0 a = blank_grid) by (unfold aob, h0; cbn [h_grid]; unfold a; rewrite list_lookup_middle by reflexivity; reflexivity).
  assert (L0 : alive h0 a) by (unfold alive, h0; cbn [h_grid]; rewrite app_length; cbn; unfold a; lia).
  set (lo' := fun ps : list (rawtier * cid) => lo (map fst ps)). set (hi' := fun ps : list (rawtier * cid) => hi (map fst ps)).
  assert (Pa : forall row ocs, In (row, ocs) (combine rows css) -> interval_part h row ocs = combine row ocs /\ point_part h row ocs = [] /\ readable h (lo row) (hi row) row ocs /\ row <> [] /\ List.length row = List.length ocs).
  { intros row ocs I. pose proof (combine_own _ _ _ Ne row ocs I) as Q. destruct (nesting_parts h _ _ row ocs T Q) as (Q1 & Q2 & Q3 & Q4). destruct Q as [Q5 _]. auto. }
  assert (Lo : forall row ocs, List.length row = List.length ocs -> lo' (combine row ocs) = lo row /\ hi' (combine row ocs) = hi row).
  { intros row ocs L. unfold lo', hi'. rewrite fst_combine_row by exact L. auto. }
  assert (Rd : Forall2 (fun row ocs => readable h (lo' (interval_part h row ocs)) (hi' (interval_part h row ocs)) row ocs) rows css).
  { clear -Ne Pa Lo. induction Ne as [|row ocs rows css Q F IH]; [constructor|]. constructor.
    - destruct (Pa row ocs (or_introl eq_refl)) as (P1 & _ & P3 & _ & P5). rewrite P1. destruct (Lo row ocs P5) as [-> ->]. exact P3.
    - apply IH. intros r o I. apply Pa. right. exact I. }
  assert (Nr : exists row ocs, In (row, ocs) (combine rows css)).
  { destruct S0 as ((row & Hr & _) & _). destruct (combine_left _ _ _ Ne row Hr) as [ocs Q]. eauto. }
  assert (Fl : Forall2 (fun row ocs => List.length row = List.length ocs) rows css) by (clear -Ne; induction Ne as [|? ? ? ? [Q _]]; constructor; auto).
  destruct Nr as (rw & oc & Nr).
  assert (Nc : concat css <> []).
  { destruct (Pa rw oc Nr) as (_ & _ & _ & P4 & P5). destruct oc as [|c oc]; [destruct rw; [congruence|discriminate]|]. apply in_combine_r in Nr. intros E. assert (Hc : In c (concat css)) by (apply in_concat; exists (c :: oc); simpl; auto). rewrite E in Hc. destruct Hc. }
  assert (Fc : forall c, In c (concat css) -> exists t cs b, class_chain h t cs b /\ In c cs /\ incl cs (concat css) /\ forall x, In x cs -> plain_name (class_name h x)).
  { intros c Hc. apply in_concat in Hc. destruct Hc as (ocs & Ho & Hc).
    assert (Q : exists row, In (row, ocs) (combine rows css)).
    { clear -Ne Ho. induction Ne as [|r o rows css Q F IH]; [destruct Ho|]. destruct Ho as [->|Ho]; [exists r; left; reflexivity|]. destruct (IH Ho) as [q Q']. exists q. right. exact Q'. }
    destruct Q as [row I]. destruct (Pa row ocs I) as (P1 & P2 & P3 & P4 & P5).
    destruct (flat_classes h (lo row) (hi row) [row] [ocs] ltac:(constructor; [exact P3|constructor]) c) as [P|(t & cs & b & Q1 & Q2 & Q3 & Q4)]; [cbn [concat]; rewrite app_nil_r; exact Hc| |].
    - exfalso. destruct P as (P & _). assert (Hp : exists r, In (r, c) (combine row ocs)).
      { clear -Hc P5. revert ocs Hc P5. induction row as [|q row IH]; intros [|d ocs] Hc L; try discriminate; [destruct Hc|]. destruct Hc as [->|Hc]; [exists q; left; reflexivity|].
        destruct (IH ocs Hc) as [q' Q]; [cbn in L; lia|]. exists q'. right. exact Q. }
      destruct Hp as [r Hp]. assert (X : In (r, c) (point_part h row ocs)) by (apply filter_In; split; [exact Hp|exact P]). rewrite P2 in X. destruct X.
    - exists t, cs, b. split; [exact Q1|]. split; [exact Q2|]. split; [|exact Q4]. intros x Hx. specialize (Q3 x Hx). cbn [concat] in Q3. rewrite app_nil_r in Q3. apply in_concat. exists ocs. split; [apply in_combine_r in I; exact I|exact Q3]. }
  assert (Lp : forall c, lone_point h c <-> lone_point h0 c).
  { intros c. unfold lone_point, superset_class. rewrite (issubclass_ext h h0) by exact C0. reflexivity. }
  destruct (reclone_fresh h0 a (concat css) T0 L0) as (f & cl & h1 & X1 & T1 & B1 & B2 & B3 & B4 & B5 & B6 & B7 & B8 & B9 & B10 & B11 & B12); [rewrite A0; reflexivity|exact Nc| |exact Na|].
  { intros c Hc. right. destruct (Fc c Hc) as (t & cs & b & Q1 & Q2 & Q3 & Q4). exists t, cs, b. split; [apply (chain_cls h); auto|]. auto. }
  assert (Rn : renamed (concat css) f h h1).
  { constructor; [exact T|exact T1|intros c Hc P; apply B10; [exact Hc|apply Lp, P]|]. intros t cs b C I. apply (B11 t cs b); [apply (chain_cls h); auto|exact I]. }
  destruct (rows_made_own (S n) lo' hi' (concat css) f h rows css h1 Rn Rd (incl_refl _)) as (gs & h2 & X2 & G2 & R2 & W2 & N2 & Bg & Nt & Bt).
  pose proof G2 as (D1 & D2 & D3 & D4 & D5 & D6 & D7 & D8).
  assert (R2' : Forall2 (fun rc => read_group (lo (fst rc)) (hi (fst rc)) f h h2 (combine (fst rc) (snd rc))) (combine rows css) gs).
  { assert (Q := rows_one _ f h h2 rows css gs R2). cbv beta in Q. eapply Forall2_weaken; [apply Q|].
    - intros row ocs I. destruct (Pa row ocs I) as (P1 & P2 & _ & P4 & P5). split; [exact P1|]. split; [|exact P2]. destruct row; [congruence|]. destruct ocs; [discriminate|]. cbn. discriminate.
    - intros [row ocs] g I _ Q'. cbn [fst snd] in *. destruct (Pa row ocs I) as (_ & _ & _ & _ & P5). destruct (Lo row ocs P5) as [Y1 Y2]. rewrite Y1, Y2 in Q'. exact Q'. }
  assert (Ng : gs <> []) by (intros ->; inversion R2' as [Z|]; rewrite <- Z in Nr; destruct Nr).
  assert (L2 : alive h2 a) by (unfold alive in *; rewrite D2, B6; exact L0).
  destruct (groups_set a gs h2 Ng L2) as (h3 & X3 & F1 & F2 & F3 & F4 & F5 & F6 & F7 & F8 & F9); [intros g Hg; apply W2, Hg|].
  assert (A23 : aged h2 h3).
  { split; [exact F1|]. split; [rewrite F2; lia|]. split; [rewrite F3; lia|]. split; [lia|]. split; [intros i _; unfold sob; rewrite F2; reflexivity|]. split; [intros i _; unfold tob; rewrite F3; reflexivity|].
    intros g Hg. destruct (in_dec Nat.eq_dec g gs) as [I|I]; [rewrite F8 by exact I; auto|rewrite F9 by exact I; auto]. }
  pose proof (whole_aged _ _ _ A23 W2) as W3.
  assert (R3 : Forall2 (fun rc => read_group (lo (fst rc)) (hi (fst rc)) f h h3 (combine (fst rc) (snd rc))) (combine rows css) gs).
  { eapply Forall2_weaken; [exact R2'|]. intros rc g _ Hg Q. eapply read_group_later; [|exact Q]. apply (aged_undisturbed h2 h3 _ A23 W2 g Hg). }
  assert (Ga : a_groups (aob h3 a) = gs) by (rewrite F6; reflexivity).
  assert (Tg3 : forall g, tiers_in h3 g = tiers_in h2 g).
  { intros g. unfold tiers_in. destruct (in_dec Nat.eq_dec g gs) as [I|I]; [rewrite F8 by exact I; auto|rewrite F9 by exact I; auto]. }
  assert (Nt3 : NoDup (flat_map (tiers_in h3) gs)) by (rewrite (flat_map_ext _ _ Tg3); exact Nt).
  assert (Bt3 : forall g k x, In g gs -> In k (g_tiers (gob h3 g)) -> (List.length (h_tier h1) <= k)%nat /\ (In x (t_seq (tob h3 k)) -> (List.length (h_seq h1) <= x)%nat)).
  { intros g k x Hg Hk. change (In k (tiers_in h3 g)) in Hk. rewrite Tg3 in Hk. destruct (Bt k) as [Q1 Q2]; [apply in_flat_map; eauto|]. split; [exact Q1|]. intros Hx. apply Q2. unfold tob in *. rewrite F3 in Hx. exact Hx. }
  (* levelling *)
  assert (Gpr : forall row ocs, In (row, ocs) (combine rows css) -> gapless (map fst (combine row ocs)) \/ 0 < lo row /\ (List.length (combine row ocs) <= S n)%nat).
  { intros row ocs I. destruct (Pa row ocs I) as (_ & _ & _ & _ & P5). rewrite fst_combine_row by exact P5. rewrite combine_length, P5, Nat.min_id, <- P5. apply Gp. apply in_combine_l in I. exact I. }
  assert (Rdy : Forall2 (fun rc g => fill_ready (S n) h3 (lo (fst rc)) (hi (fst rc)) g /\ first_of h3 g = lo (fst rc) /\ last_of h3 g = hi (fst rc)) (combine rows css) gs).
  { eapply Forall2_weaken; [exact R3|]. intros [row ocs] g I Hg Q. cbn [fst snd] in *. pose proof (ready_fill (S n) _ _ _ _ _ _ _ Q (Gpr row ocs I)) as Y. split; [exact Y|]. apply (ready_extent (S n) h3). apply Y. }
  assert (Ext : forall z (P : Z -> Prop), (exists g, In g gs /\ first_of h3 g = z) <-> (exists row, In row rows /\ lo row = z)).
  { intros z _. split.
    - intros (g & Hg & Q). destruct (Forall2_in_r _ _ _ g Rdy Hg) as ([row ocs] & I & _ & Q1 & _). exists row. split; [apply in_combine_l in I; exact I|cbn in Q1; congruence].
    - intros (row & Hr & Q). destruct (combine_left _ _ _ Ne row Hr) as [ocs I]. destruct (Forall2_in_l _ _ _ _ Rdy I) as (g & Hg & _ & Q1 & _). exists g. split; [exact Hg|cbn in Q1; congruence]. }
  assert (Exh : forall z (P : Z -> Prop), (exists g, In g gs /\ last_of h3 g = z) <-> (exists row, In row rows /\ hi row = z)).
  { intros z _. split.
    - intros (g & Hg & Q). destruct (Forall2_in_r _ _ _ g Rdy Hg) as ([row ocs] & I & _ & _ & Q1). exists row. split; [apply in_combine_l in I; exact I|cbn in Q1; congruence].
    - intros (row & Hr & Q). destruct (combine_left _ _ _ Ne row Hr) as [ocs I]. destruct (Forall2_in_l _ _ _ _ Rdy I) as (g & Hg & _ & _ & Q1). exists g. split; [exact Hg|cbn in Q1; congruence]. }
  destruct (level_stage n h3 a (first_of h3) (last_of h3) s0 s1 e0 e1) as (ht & h4 & X4 & Td & Rk & Lv & (M1 & _ & M3 & _ & _ & _ & _ & _ & M9 & M10 & _) & (K1 & K2 & K3 & K4 & K5 & K6 & K7 & K8 & K9 & K10 & K11) & Rw).
  { rewrite Ga. intros g Hg. destruct (Forall2_in_r _ _ _ g Rdy Hg) as (rc & _ & Q & -> & ->). exact Q. }
  { rewrite Ga. split; [exact N2|]. split; [exact Nt3|apply whole_entries; auto]. }
  1-4: rewrite Ga.
  { destruct S0 as [Q1 Q2]. split; [apply (Ext s0 (fun _ => True)), Q1|]. intros z Hz. apply Q2. apply (Ext z (fun _ => True)), Hz. }
  { destruct S1 as [Q1 Q2]. split; [apply (Ext s1 (fun _ => True)), Q1|]. intros z Hz. apply Q2. apply (Ext z (fun _ => True)), Hz. }
  { destruct E0 as [Q1 Q2]. split; [apply (Exh e0 (fun _ => True)), Q1|]. intros z Hz. apply Q2. apply (Exh z (fun _ => True)), Hz. }
  { destruct E1 as [Q1 Q2]. split; [apply (Exh e1 (fun _ => True)), Q1|]. intros z Hz. apply Q2. apply (Exh z (fun _ => True)), Hz. }
  { exact Un. }
  rewrite Ga in Lv, K4, K8, K11, Td, Rk, Rw. destruct Rk as (J1 & J2 & J3 & J4 & J5 & J6 & J7 & J8 & J9 & J10 & J11).
  (* the rest *)
  destruct (within_all (Some (WGrid a)) gs h4) as (h5 & X5 & H1 & H2 & H3 & H4 & H5 & H6 & H7); [intros g Hg; unfold glive; rewrite K5; apply W3, Hg|].
  assert (Ga4 : a_groups (aob h4 a) = gs) by (unfold aob; rewrite K2; exact Ga).
  assert (Ga5 : a_groups (aob h5 a) = gs) by (unfold aob; rewrite H4; exact Ga4).
  assert (Tne : forall g, In g gs -> g_tiers (gob h3 g) <> []).
  { intros g Hg. destruct (Forall2_in_r _ _ _ g Rdy Hg) as (rc & _ & ((_ & t & Ht & _) & _) & _). intros Q. rewrite Q in Ht. discriminate. }
  destruct (named_all a gs h5) as (h6 & X6 & I1 & I2 & I3 & I4 & I5 & I6 & I7 & _ & I9).
  { intros g Hg. rewrite H6 by exact Hg. cbn. split; [unfold glive; rewrite H5, K5; apply W3, Hg|]. destruct (K3 g) as (-> & _). split; [apply Tne, Hg|]. split; [reflexivity|]. rewrite Ga5. exact Hg. }
  assert (Ga6 : a_groups (aob h6 a) = gs) by (unfold aob; rewrite I4; exact Ga5).
  assert (Cl6 : h_cls h6 = h_cls h1) by congruence. assert (Cl63 : h_cls h6 = h_cls h3) by congruence.
  assert (So6 : forall i, sob h6 i = sob h4 i) by (intros i; unfold sob; rewrite I2, H2; reflexivity).
  assert (To6 : forall i, tob h6 i = tob h4 i) by (intros i; unfold tob; rewrite I3, H3; reflexivity).
  assert (Tg6 : forall g, In g gs -> g_tiers (gob h6 g) = g_tiers (gob h3 g) /\ g_points (gob h6 g) = g_points (gob h3 g)).
  { intros g Hg. destruct (I6 g) as (-> & -> & _). rewrite H6 by exact Hg. cbn. destruct (K3 g) as (-> & -> & _). auto. }
  exists f, a, h6. split.
  { unfold new_grid_textgrid. rewrite (bind_ok _ _ _ a h0) by reflexivity.
    assert (Ntg : concat rows <> []).
    { destruct (Pa rw oc Nr) as (_ & _ & _ & P4 & _). apply in_combine_l in Nr. destruct rw as [|r rw]; [congruence|]. intros E. assert (Hr : In r (concat rows)) by (apply in_concat; exists (r :: rw); simpl; auto). rewrite E in Hr. destruct Hr. }
    assert (Nf : nestify (concat rows ++ rest) (Nested css) h0 = Ok (rows, css) h0).
    { destruct (OutputFinal.c37_nested rawtier h0 (concat rows ++ rest) css ltac:(intros ->; apply Nc; reflexivity)) as (gs' & E & Q1 & Q2); [rewrite app_length, (total_lengths _ _ Fl); lia|].
      rewrite E. rewrite (same_rows gs' rows css rest Q1 Fl Q2). reflexivity. }
    destruct (concat rows ++ rest)%list as [|r0 tg] eqn:Et; [destruct (concat rows); [congruence|discriminate]|]. rewrite (bind_ok _ _ _ _ _ Nf). cbn [fst snd].
    assert (Er : relate_textgrid (S n) a rows css h0 = Ok gs h2).
    { unfold relate_textgrid. rewrite (bind_ok _ _ _ _ _ X1). rewrite bind_gets. rewrite B8. cbn [a_cloned set_a_cloned].
      assert (Em : mapM (fun cs => swap_classes cs cl) css h1 = Ok (map (map f) css) h1).
      { apply OutputFinal.mapM_pure. intros l Hl. apply B12. intros c Hc. apply in_concat. eauto. }
      rewrite (bind_ok _ _ _ _ _ Em). exact X2. }
    rewrite (bind_ok _ _ _ _ _ Er), (bind_ok _ _ _ _ _ X3), (bind_ok _ _ _ _ _ X4).
    assert (Ef : grid_finish a h4 = Ok tt h6).
    { unfold grid_finish. change (get_grid a) with (gets (fun h => aob h a)). rewrite bind_gets, Ga4, (bind_ok _ _ _ _ _ X5). unfold set_group_names. change (get_grid a) with (gets (fun h => aob h a)). rewrite bind_gets, Ga5. exact X6. }
    rewrite (bind_ok _ _ _ _ _ Ef). reflexivity. }
  rewrite Ga6. split.
  { assert (Both := Forall2_both _ _ _ _ R3 Rdy). eapply Forall2_weaken; [exact Both|]. intros [row ocs] g I Hg [Q (Y1 & Y2 & Y3)]. cbn [fst snd] in *. destruct (Tg6 g Hg) as [Et Ep].
    assert (Bd : forall k, is_boundary h3 k -> is_boundary ht k).
    { intros k (Lk & Q1 & Q2). unfold is_boundary. rewrite J5; [split; [lia|auto]|exact Lk|]. intros t Ht Hk. apply in_flat_map in Ht. destruct Ht as (g' & Hg' & Ht).
      destruct (Forall2_in_r _ _ _ g' Rdy Hg') as (rc & _ & (((bss & Gd) & _) & _) & _). apply (good_label h3 g' _ bss t k Gd Ht Hk Q1). }
    assert (Ei : either_group (lo row) (hi row) f h ht (combine row ocs) g).
    { apply (either_tidied (S n) (lo row) (hi row) f h h3 ht (combine row ocs) g Q); auto.
      - apply Y1.
      - intros t Ht. destruct (J1 t) as (V1 & V2 & V3 & V4 & _); [apply in_flat_map; exists g; auto|]. auto.
      - intros i Hi. destruct (J4 i Hi) as (_ & V1 & V2 & V3 & _). auto. }
    destruct Q as (_ & _ & _ & _ & _ & _ & _ & (_ & (bss0 & Gd0) & _) & _).
    destruct (either_mended _ _ _ _ _ _ _ Ei) as (cs & rs & t' & b' & N & C & Q1 & (bss & Gd) & R). destruct (Rw g Hg) as [_ Gt]. rewrite Gt in *.
    rewrite fst_combine_row in R by (apply (Pa row ocs I)). split; [rewrite Ep; apply Gd0|]. exists cs, rs. split; [exact N|]. rewrite Et. split.
    { rewrite <- Q1. apply map_ext_in. intros t _. rewrite To6. apply M9. }
    eapply Forall2_weaken; [exact R|]. intros r k _ Hk (Z1 & m & Z0 & Z2). unfold remade_as. rewrite To6. destruct (M9 k) as (Ec & _ & _ & Nm & _). rewrite Nm, Ec.
    assert (Clt : h_cls h6 = h_cls ht) by congruence.
    split; [exact Z1|]. assert (Ik : issubclass h6 (t_ec (tob ht k)) cInterval = true) by (rewrite (issubclass_ext ht h6) by exact Clt; apply C; rewrite <- Q1; apply (in_map (fun t => t_ec (tob ht t))), Hk).
    split; [exact Ik|].
    destruct (Lv g k Hg Hk) as (front & back & Es & Bf & Bb). rewrite Y2 in Bf. rewrite Y3 in Bb. rewrite Es.
    assert (Tb6 : class_table h6) by (unfold class_table, cob in *; rewrite Cl6; exact T1).
    assert (Kb : issubclass h6 (t_ec (tob ht k)) cPoint = false) by (apply (kinds_apart h6 _ cInterval cPoint Tb6); simpl; auto; try discriminate).
    assert (Ol : forall x, In x (t_seq (tob ht k)) -> (x < List.length (h_seq ht))%nat) by (intros x Hx; apply (good_live ht g _ bss k x Gd Hk Hx)).
    assert (Bl : forall ok u v l, blank_unless ok ht h4 (t_ec (tob ht k)) u v l -> (forall x, In x l -> issubclass h6 (s_cls (sob h6 x)) cPoint = false) /\
              exists le, Forall2 (stands_for h6) le l /\ (ok /\ le = [] \/ ~ ok /\ le = [ERaw (Some u) (Some v) EmptyString])).
    { intros ok u v l [[P ->]|(P & x & -> & _ & (V1 & V2 & V3 & V4 & _))]; [split; [intros x []|exists []; split; [constructor|auto]]|]. split.
      - intros y [<-|[]]. rewrite So6, V1. exact Kb.
      - eexists. split; [|right; split; [exact P|reflexivity]]. constructor; [|constructor]. unfold stands_for. rewrite So6, V2, V3, V4. reflexivity. }
    destruct (Bl _ _ _ _ Bf) as (Bf1 & lf & Bf2 & Bf3). destruct (Bl _ _ _ _ Bb) as (Bb1 & lb & Bb2 & Bb3). split.
    - intros x Hx. rewrite !in_app_iff in Hx. destruct Hx as [Hx|[Hx|Hx]]; auto. rewrite So6. destruct (M10 x (Ol x Hx)) as (-> & _). rewrite (issubclass_ext ht h6) by exact Clt.
      apply (proj2 (good_point ht g _ bss k Gd Hk) x Hx).
    - exists m, (lf ++ m ++ lb)%list. split; [exact Z0|]. split; [exists lf, lb; split; [reflexivity|]; split; [exact Bf3|exact Bb3]|]. apply Forall2_app; [exact Bf2|]. apply Forall2_app; [|exact Bb2].
      eapply Forall2_weaken; [exact Z2|]. intros e x _ Hx Sf. unfold stands_for in *. rewrite So6. destruct (M10 x (Ol x Hx)) as (_ & -> & -> & -> & _). exact Sf. }
  split.
  { intros g Hg. split; [|apply I9, Hg]. destruct (I6 g) as (_ & _ & _ & ->). rewrite H6 by exact Hg. reflexivity. }
  split. { intros c Hc. destruct (B9 c Hc) as [(Q1 & Q2 & Q3) _]. split; [rewrite Cl6; exact Q1|]. split; [unfold class_name, cob in *; rewrite Cl6; exact Q2|unfold cob in *; rewrite Cl6; exact Q3]. }
  split. { intros c Hc. unfold cob. rewrite Cl6. apply (B2 c Hc). }
  split. { intros i Hi. rewrite So6. assert (E : sob h3 i = sob h i).
    { unfold sob at 1. rewrite F2. fold (sob h2 i). rewrite D6; [unfold sob; rewrite B3; reflexivity|]. unfold live. rewrite B3. exact Hi. }
    rewrite K11; [exact E|rewrite F2; rewrite B3 in D3; unfold h0 in D3; cbn in D3; lia|]. intros t Ht Q. apply in_flat_map in Ht. destruct Ht as (g & Hg & Ht). destruct (Bt3 g t i Hg Ht) as [_ X]. specialize (X Q). rewrite B3 in X. unfold h0 in X. cbn in X. lia. }
  split. { intros i Hi. rewrite To6. rewrite K8; [unfold tob; rewrite F3; fold (tob h2 i); rewrite D7; [unfold tob; rewrite B4; reflexivity|]; unfold tlive; rewrite B4; exact Hi|].
    intros Ht. apply in_flat_map in Ht. destruct Ht as (g & Hg & Ht). destruct (Bt3 g i 0%nat Hg Ht) as [X _]. rewrite B4 in X. unfold h0 in X. cbn in X. lia. }
  split. { intros i Hi. assert (Ni : ~ In i gs) by (intros Q; specialize (Bg i Q); rewrite B5 in Bg; cbn in Bg; lia). rewrite I7, H7 by exact Ni. rewrite K4 by exact Ni. rewrite F9 by exact Ni. rewrite D8; [unfold gob; rewrite B5; reflexivity|]. unfold glive. rewrite B5. exact Hi. }
  split. { intros i Hi. assert (Ni : i <> a) by (unfold a; lia). unfold aob. rewrite I4, H4, K2. fold (aob h3 i). rewrite F7 by exact Ni. unfold aob. rewrite D2. fold (aob h1 i). rewrite B7 by exact Ni. unfold aob, h0. cbn [h_grid]. rewrite lookup_app_l by exact Hi. reflexivity. }
  split; [rewrite Cl6; exact B1|]. split; [rewrite I2, H2; rewrite B3 in D3; rewrite F2 in K6; unfold h0 in D3; cbn in D3; lia|]. split; [rewrite I3, H3, K7, F3; rewrite B4 in D4; exact D4|].
  split; [rewrite I5, H5, K5, F4; rewrite B5 in D5; exact D5|]. rewrite I4, H4, K2, F5, D2, B6. unfold h0. cbn [h_grid]. rewrite app_length. lia.
Qed.
Lemma group_remade s0 s1 e1 lo hi f h h' rc g : remade_group s0 s1 e1 lo hi f h h' rc g ->
  exists rs, wrote_row_remade s0 s1 e1 lo hi h rc (rs, map (fun t => (t_name (tob h' t), map (praatio h') (t_seq (tob h' t)))) (g_tiers (gob h' g))).
Proof.
  intros (_ & cs & rs & N & _ & F). exists rs. split; [exists cs; exact N|]. cbn [fst snd]. apply Forall2_map_r. eapply Forall2_impl; [exact F|]. intros r k (N1 & _ & Np & m & l' & Me & W & S).
  split; [exact N1|]. exists m, l'. split; [exact Me|]. split; [exact W|]. cbn [snd]. clear -S Np. induction S as [|e x es xs Sf S IH]; [reflexivity|]. cbn [map]. rewrite IH by (intros y Hy; apply Np; simpl; auto). f_equal.
  rewrite Sf. unfold praatio, is_point_cls. rewrite Np by (simpl; auto). reflexivity.
Qed.
Lemma c77_round : forall (n : nat) (h : heap) (rows : list (list rawtier)) (css : list (list cid)) (rest : list rawtier) (lo hi : list rawtier -> Z) (s0 s1 e0 e1 : Z),
  class_table h -> Forall2 (fun row ocs => nesting h (lo row) (hi row) row ocs) rows css -> names_apart h (concat css) -> (forall row, In row rows -> gapless row \/ 0 < lo row /\ (List.length row <= S n)%nat) ->
  least (fun z => exists row, In row rows /\ lo row = z) s0 -> greatest (fun z => exists row, In row rows /\ lo row = z) s1 ->
  least (fun z => exists row, In row rows /\ hi row = z) e0 -> greatest (fun z => exists row, In row rows /\ hi row = z) e1 ->
  ~ (near s0 s1 /\ near e0 e1) -> NoDup (map rt_name (concat rows)) ->
  exists a h' outs, new_grid_textgrid (S n) (concat rows ++ rest) (Nested css) h = Ok a h' /\
    Forall2 (fun rc => wrote_row_remade s0 s1 e1 (lo (fst rc)) (hi (fst rc)) h rc) (combine rows css) outs /\
    Permutation (concat (map fst outs)) (concat rows) /\ return_textgrid h' a = concat (map snd outs).
Proof.
  intros n h rows css rest lo hi s0 s1 e0 e1 T Ne Na Gp S0 S1 E0 E1 Un Nd.
  destruct (c77_read n h rows css rest lo hi s0 s1 e0 e1 T Ne Na Gp S0 S1 E0 E1 Un) as (f & a & h' & E & F & _).
  set (out := fun g => map (fun t => (t_name (tob h' t), map (praatio h') (t_seq (tob h' t)))) (g_tiers (gob h' g))).
  assert (O : exists rss, List.length rss = List.length (a_groups (aob h' a)) /\
     Forall2 (fun rc => wrote_row_remade s0 s1 e1 (lo (fst rc)) (hi (fst rc)) h rc) (combine rows css) (combine rss (map out (a_groups (aob h' a))))).
  { clear -F. induction F as [|rc g l gs Q F IH]; [exists []; split; [reflexivity|constructor]|]. destruct IH as (rss & L & IH). destruct (group_remade _ _ _ _ _ _ _ _ _ _ Q) as (rs & W).
    exists (rs :: rss). split; [cbn; lia|]. cbn [map combine]. constructor; [exact W|exact IH]. }
  destruct O as (rss & L & O). exists a, h', (combine rss (map out (a_groups (aob h' a)))). split; [exact E|]. split; [exact O|].
  assert (Pm : Permutation (concat (map fst (combine rss (map out (a_groups (aob h' a)))))) (concat rows)).
  { revert O. generalize (combine rss (map out (a_groups (aob h' a)))). clear -Ne. induction Ne as [|row ocs rows css Q Ne IH]; intros outs O; inversion O as [|? ? ? ? W O']; subst; [constructor|].
    cbn [map concat]. apply Permutation_app; [|apply IH, O']. destruct W as ((cs & W) & _). cbn [fst snd] in W. destruct Q as [Lq _]. apply (perm_row h _ _ _ _ _ _ Lq W). }
  split; [exact Pm|].
  assert (Es : map snd (combine rss (map out (a_groups (aob h' a)))) = map out (a_groups (aob h' a))) by (apply OutputFinal.snd_combine; rewrite map_length; exact L).
  rewrite Es. assert (Ec : concat (map out (a_groups (aob h' a))) = map (fun t => (t_name (tob h' t), map (praatio h') (t_seq (tob h' t)))) (grid_tiers h' a)).
  { unfold grid_tiers, out. generalize (a_groups (aob h' a)). intros l. induction l as [|g l IH]; [reflexivity|]. cbn [map concat flat_map]. rewrite IH, map_app. reflexivity. }
  rewrite Ec. apply written_plain.
  assert (En : map (fun t => t_name (tob h' t)) (grid_tiers h' a) = map rt_name (concat (map fst (combine rss (map out (a_groups (aob h' a))))))).
  { assert (En : map fst (concat (map snd (combine rss (map out (a_groups (aob h' a)))))) = map rt_name (concat (map fst (combine rss (map out (a_groups (aob h' a))))))).
    { clear -O. revert O. generalize (combine rss (map out (a_groups (aob h' a)))) (combine rows css). intros outs l O. induction O as [|rc o l outs [_ W] O IH]; [reflexivity|].
      cbn [map concat]. rewrite !map_app, IH. f_equal. clear -W. induction W as [|r p rs ps [Q _] W IH]; [reflexivity|]. cbn [map]. rewrite IH, Q. reflexivity. }
    rewrite <- En, Es, Ec, map_map. reflexivity. }
  rewrite En, Pm. exact Nd.
Qed.
End WithEnv.
