(** * ReadFinal: reading a text grid (C53, C65). *)
From Verif Require Export ReadMade.
From Verif Require Import TidySpec TidyFinal CleanFinal RefillFinal ReadSpec WeaveFinal OwnFinal ClassFinal PointFinal ReadClasses RelateFinal.
From Verif Require Import TidySpec.
Open Scope Z_scope.

(** ** Gaps in the data and gaps in the tiers *)
Lemma F2_r {A B} (R : A -> B -> Prop) l k : Forall2 R l k -> forall i y, nth_error k i = Some y -> exists x, nth_error l i = Some x /\ R x y.
Proof.
  induction 1 as [|x y l k Q F IH]; intros i z E; [destruct i; discriminate|]. destruct i as [|i]; [|apply (IH i z E)]. injection E as <-. exists x. auto.
Qed.
Lemma F2_l {A B} (R : A -> B -> Prop) l k : Forall2 R l k -> forall i x, nth_error l i = Some x -> exists y, nth_error k i = Some y /\ R x y.
Proof.
  induction 1 as [|x y l k Q F IH]; intros i z E; [destruct i; discriminate|]. destruct i as [|i]; [|apply (IH i z E)]. injection E as <-. exists y. auto.
Qed.
Lemma plugged_tiles : forall l a b, raw_turns a l b -> raw_tiles a (plugged l) b.
Proof.
  induction l as [|e l IH]; intros a b Q; [destruct Q|]. destruct Q as (m & x & -> & Q1 & Q2 & [[-> ->]|(s & Q3 & Q4)]).
  - cbn. exists b, x. auto.
  - destruct (turns_head l s b Q4) as (m' & x' & l' & -> & Lm). cbn [plugged]. specialize (IH s b Q4). cbn [plugged] in IH. destruct (m <? s) eqn:E.
    + apply Z.ltb_lt in E. exists m, x. split; [reflexivity|]. split; [exact Q1|]. split; [exact Q2|]. exists s, EmptyString. split; [reflexivity|]. split; [exact E|]. split; [discriminate|exact IH].
    + apply Z.ltb_ge in E. assert (m = s) by lia. subst m. exists s, x. auto.
Qed.

(** Tiles that are the intervals [xs], and others in the gaps between those,
    stand for the plugged entries. *)
Lemma plugged_made h h' (XS : list oid) (old : oid -> bool) b :
  in_turn h XS -> (forall x, In x XS -> old x = true /\ s_start (sob h' x) = s_start (sob h x) /\ s_end (sob h' x) = s_end (sob h x) /\ s_label (sob h' x) = s_label (sob h x) /\
     exists s m, s_start (sob h x) = Some s /\ s_end (sob h x) = Some m /\ s < m) ->
  forall l pre xs ys a, XS = (pre ++ xs)%list -> raw_turns a l b -> Forall2 (stands_for h) l xs -> tiles h' a ys b ->
    List.filter old ys = xs ->
    (forall y, In y ys -> old y = false -> s_label (sob h' y) = EmptyString /\ exists s e, s_start (sob h' y) = Some s /\ s_end (sob h' y) = Some e /\ gap h XS s e) ->
    Forall2 (stands_for h') (plugged l) ys.
Proof.
  intros Tn Xs. induction l as [|e l IH]; intros pre xs ys a EX Q F T Fl Nw; [destruct Q|].
  destruct Q as (m & lab & -> & Q1 & Q2 & Q3). destruct xs as [|x xs']; [inversion F|]. apply Forall2_cons_1 in F. destruct F as [Sx F']. rename Fl into Ex.
  assert (Ix : In x XS) by (rewrite EX; apply in_app_iff; simpl; auto).
  assert (Nx : nth_error XS (List.length pre) = Some x) by (rewrite EX, nth_error_app2, Nat.sub_diag by lia; reflexivity).
  pose proof Sx as Sx'. unfold stands_for in Sx'. injection Sx' as S1 S2 S3. destruct (Xs x Ix) as (Ox & V1 & V2 & V3 & _).
  destruct ys as [|y ys]; [discriminate|]. pose proof T as (m' & T1 & T2 & T3 & T4).
  assert (Oy : old y = true).
  { destruct (old y) eqn:Oy; [reflexivity|exfalso]. destruct (Nw y (or_introl eq_refl) Oy) as (_ & s & e & P1 & P2 & (i & v & w & W1 & W2 & W3 & W4 & W5)).
    assert (s = a) by congruence. subst s. destruct (Nat.lt_ge_cases i (List.length pre)) as [L|L].
    - destruct (Nat.eq_dec (S i) (List.length pre)) as [Ei|Ei]; [rewrite Ei in W2; assert (w = x) by congruence; subst w; assert (e = a) by congruence; lia|].
      destruct (Tn (S i) (List.length pre) w x ltac:(lia) W2 Nx) as (e1 & s1 & X1 & X2 & X3). destruct (Xs w (nth_error_In _ _ W2)) as (_ & _ & _ & _ & s2 & m2 & X4 & X5 & X6).
      assert (s1 = a) by congruence. assert (m2 = e1) by congruence. assert (s2 = e) by congruence. lia.
    - destruct (Nat.eq_dec i (List.length pre)) as [->|Ei]; [assert (v = x) by congruence; subst v; assert (m = a) by congruence; lia|].
      destruct (Tn (List.length pre) i x v ltac:(lia) Nx W1) as (e1 & s1 & X1 & X2 & X3). destruct (Xs v (nth_error_In _ _ W1)) as (_ & _ & _ & _ & s2 & m2 & X4 & X5 & X6).
      assert (e1 = m) by congruence. assert (s2 = s1) by congruence. assert (m2 = a) by congruence. lia. }
  cbn [List.filter] in Ex. rewrite Oy in Ex. injection Ex as Ey Ex. subst y.
  assert (m' = m) by congruence. subst m'.
  assert (Sy : stands_for h' (ERaw (Some a) (Some m) lab) x) by (unfold stands_for; congruence).
  assert (Nw' : forall y, In y ys -> old y = false -> s_label (sob h' y) = EmptyString /\ exists s e, s_start (sob h' y) = Some s /\ s_end (sob h' y) = Some e /\ gap h XS s e) by (intros y Hy; apply Nw; simpl; auto).
  destruct Q3 as [[-> ->]|(s & Q3 & Q4)].
  - apply Forall2_nil_inv_l in F'. subst xs'. cbn. destruct ys as [|z ys]; [constructor; [exact Sy|constructor]|]. exfalso. destruct T4 as (m2 & Y1 & Y2 & Y3 & Y4).
    assert (Zl : forall l a b, tiles h' a l b -> a <= b) by (clear; induction l as [|q l IH]; intros a b Q; [cbn in Q; lia|]; destruct Q as (k & _ & _ & Q1 & Q2); apply IH in Q2; lia). apply Zl in Y4. lia.
  - destruct (turns_head l s b Q4) as (m2 & lab2 & l2 & El & Lm). subst l. destruct xs' as [|x2 xs2]; [inversion F'|]. pose proof F' as F2. apply Forall2_cons_1 in F2. destruct F2 as [Sx2 F2]. rename Ex into H1.
    assert (Nx2 : nth_error XS (S (List.length pre)) = Some x2) by (rewrite EX, nth_error_app2 by lia; replace (S (List.length pre) - List.length pre)%nat with 1%nat by lia; reflexivity).
    assert (Ix2 : In x2 XS) by (eapply nth_error_In; exact Nx2).
    pose proof Sx2 as S'. unfold stands_for in S'. injection S' as Z1 Z2 Z3. destruct (Xs x2 Ix2) as (O2 & U1 & U2 & U3 & _).
    assert (EX' : XS = ((pre ++ [x]) ++ x2 :: xs2)%list) by (rewrite EX, <- app_assoc; reflexivity).
    cbn [plugged]. destruct (m <? s) eqn:Ems.
    + apply Z.ltb_lt in Ems. destruct ys as [|z ys]; [discriminate|]. pose proof T4 as (m3 & Y1 & Y2 & Y3 & Y4).
      assert (Oz : old z = false).
      { destruct (old z) eqn:Oz; [|reflexivity]. exfalso. cbn [List.filter] in H1. rewrite Oz in H1. injection H1 as -> _. congruence || (assert (m = s) by congruence; lia). }
      destruct (Nw' z (or_introl eq_refl) Oz) as (Lz & s3 & e3 & P1 & P2 & (i & v & w & W1 & W2 & W3 & W4 & W5)).
      assert (s3 = m) by congruence. assert (e3 = m3) by congruence. subst s3 e3.
      assert (Ei : i = List.length pre).
      { destruct (Nat.lt_trichotomy i (List.length pre)) as [L|[L|L]]; [exfalso|exact L|exfalso].
        - destruct (Tn i (List.length pre) v x L W1 Nx) as (e1 & s1 & X1 & X2 & X3). assert (e1 = m) by congruence. assert (s1 = a) by congruence. lia.
        - destruct (Nat.eq_dec i (S (List.length pre))) as [->|Ni]; [assert (v = x2) by congruence; subst v; assert (m2 = m) by congruence; lia|].
          destruct (Tn (S (List.length pre)) i x2 v ltac:(lia) Nx2 W1) as (e1 & s1 & X1 & X2 & X3). destruct (Xs v (nth_error_In _ _ W1)) as (_ & _ & _ & _ & s2 & m4 & X4 & X5 & X6).
          assert (e1 = m2) by congruence. assert (s2 = s1) by congruence. assert (m4 = m) by congruence. lia. }
      subst i. assert (w = x2) by congruence. subst w. assert (m3 = s) by congruence. subst m3.
      constructor; [exact Sy|]. constructor; [unfold stands_for; congruence|].
      apply (IH (pre ++ [x])%list (x2 :: xs2) ys s EX' Q4 F'); [exact Y4| |intros q Hq; apply Nw'; simpl; auto]. cbn [List.filter] in H1. rewrite Oz in H1. exact H1.
    + apply Z.ltb_ge in Ems. assert (m = s) by lia. subst m. constructor; [exact Sy|]. apply (IH (pre ++ [x])%list (x2 :: xs2) ys s EX' Q4 F' T4 H1 Nw').
Qed.

Section Gaps.
Context `{Env}.
Opaque span_of.
Lemma gap_raw h l xs : Forall2 (stands_for h) l xs -> real_gap h xs <-> raw_gap l.
Proof.
  intros F. split.
  - intros (i & x & y & a & b & A & B & C & D & N). destruct (F2_r _ _ _ F i x A) as (e1 & E1 & S1). destruct (F2_r _ _ _ F (S i) y B) as (e2 & E2 & S2).
    unfold stands_for in S1, S2. rewrite C in S1. rewrite D in S2. subst e1 e2. unfold raw_gap. eauto 15.
  - intros (i & a & m & x & s & e & y & A & B & N). destruct (F2_l _ _ _ F i _ A) as (u & E1 & S1). destruct (F2_l _ _ _ F (S i) _ B) as (v & E2 & S2).
    unfold stands_for in S1, S2. injection S1 as S3 S4 S5. injection S2 as S6 S7 S8. exists i, u, v, m, s. auto.
Qed.
Lemma below_gap h ts bss t u g : good_group h g ts bss -> hd_error ts = Some t -> In u ts -> real_gap h (t_seq (tob h u)) <-> real_gap h (t_seq (tob h t)).
Proof.
  intros G Ht Hu. assert (It : In t ts) by (apply hd_in, Ht). destruct (good_turns h g _ bss G t It) as [T D]. destruct (good_turns h g _ bss G u Hu) as [T' D'].
  rewrite (real_wide h _ D T), (real_wide h _ D' T'). pose proof G as (_ & _ & _ & _ & _ & _ & Sn & _). destruct ts as [|t0 r]; [discriminate|]. injection Ht as ->.
  unfold wide. rewrite (snug_gaps h r bss t Sn u Hu). reflexivity.
Qed.
Lemma chain_sub h t cs b c : class_chain h t cs b -> In c cs -> subset_class h c <> None.
Proof.
  intros (_ & _ & _ & _ & _ & Q) Hc. apply In_nth_error in Hc. destruct Hc as [i Hi].
  assert (L : (i < List.length cs)%nat) by (apply nth_error_Some; congruence).
  assert (Hc : nth_error (t :: cs ++ [b])%list (S i) = Some c) by (cbn; rewrite nth_error_app1; auto).
  destruct (nth_error (t :: cs ++ [b])%list (S (S i))) as [d|] eqn:Ed.
  - destruct (Q (S i) c d Hc Ed) as [-> _]. discriminate.
  - exfalso. apply nth_error_None in Ed. cbn in Ed. rewrite app_length in Ed. cbn in Ed. lia.
Qed.
Lemma ready_read n lo hi f h0 h ps g : read_group lo hi f h0 h ps g -> (gapless (map fst ps) \/ 0 < lo /\ (List.length ps <= n)%nat) -> tidy_ready n h lo hi g.
Proof.
  intros (cs & rs & t' & b' & N & C & Un & (F1 & (bss & Gd) & F3) & R & Tp) Gp. pose proof (nested_in _ _ _ _ _ _ N) as [N1 N2]. pose proof N as (_ & _ & Lr & Pr & (r0 & Hr & Tl) & Sn).
  destruct (good_top h g _ bss Gd) as (t0 & r & Et). assert (Ht : hd_error (g_tiers (gob h g)) = Some t0) by (rewrite Et; reflexivity). assert (It : In t0 (g_tiers (gob h g))) by (apply hd_in, Ht).
  destruct (ReadMade.Forall2_hd _ _ _ r0 R Hr) as (t1 & Ht1 & R1 & R2 & R3 & R4). assert (t1 = t0) by congruence. subst t1.
  assert (Ir : forall r, In r rs -> In r (map fst ps)).
  { intros q Hq. apply In_nth_error in Hq. destruct Hq as [i Hq]. destruct (nth_error cs i) as [c|] eqn:Ec.
    - apply in_map_iff. exists (q, c). split; [reflexivity|]. apply (Permutation_in _ (Permutation_sym Pr)). clear -Hq Ec. revert cs i Hq Ec. induction rs as [|x rs IH]; intros [|y cs] [|i] Hi Er; try discriminate; cbn in *.
      + injection Hi as ->. injection Er as ->. auto.
      + right. eapply IH; eauto.
    - exfalso. apply nth_error_None in Ec. assert (i < List.length rs)%nat by (apply nth_error_Some; congruence). lia. }
  split; [exists bss; exact Gd|]. exists t0. split; [exact Ht|]. split; [exact R4|]. split.
  - destruct (turns_head _ _ _ Tl) as (m & x & l' & El & _).
    assert (La : forall l a b, raw_turns a l b -> exists s y, hd_error (rev l) = Some (ERaw s (Some b) y)).
    { clear. induction l as [|e l IH]; intros a b Q; [destruct Q|]. destruct Q as (m & x & -> & _ & _ & [[-> ->]|(s & _ & Q)]); [cbn; eauto|]. destruct (IH s b Q) as (s' & y & E). exists s', y.
      cbn [rev]. destruct (rev l); [discriminate|exact E]. }
    destruct (La _ _ _ Tl) as (s & y & Ey).
    destruct (ReadMade.Forall2_hd _ _ _ (ERaw (Some lo) (Some m) x) R2) as (u & Hu & Su); [rewrite El; reflexivity|].
    destruct (ReadMade.Forall2_hd _ _ _ _ (ReadMade.Forall2_rev' _ _ _ R2) Ey) as (v & Hv & Sv). exists u, v. unfold stands_for in Su, Sv. injection Su as Q1 Q2 Q3. injection Sv as Q4 Q5 Q6. auto.
  - intros Rg. destruct Gp as [Gp|[Pos Len]].
    { exfalso. apply (Gp r0); [apply Ir, hd_in, Hr|]. apply (gap_raw h _ _ R2), Rg. }
    split.
    + intros u Hu. destruct (Forall2_in_r _ _ _ u R Hu) as (q & Hq & X1 & X2 & (X3 & X4) & X5).
      assert (Hq' : In q (map fst ps)) by (apply Ir, Hq). apply in_map_iff in Hq'. destruct Hq' as (p & Ep & Hp). destruct (N2 p Hp) as [_ Tu]. rewrite Ep in Tu. destruct (turns_made h _ _ X2 lo hi Tu) as [Y1 Y2].
      assert (Ic : In (t_ec (tob h u)) (map f cs)) by (rewrite <- F1; apply (in_map (fun t => t_ec (tob h t))), Hu).
      pose proof Gd as (_ & _ & _ & _ & (_ & _ & Lt & _) & _ & _ & _ & Wi & _).
      split; [apply (Lt u Hu)|]. split; [apply C, Ic|]. split; [apply (Wi u Hu)|]. split; [destruct X3 as [X3|[_ X3]]; auto|].
      split; [destruct X5 as [_ ->]; apply (chain_sub h t' _ b' _ C Ic)|]. split; [exact Y1|].
      intros x Hx. split; [apply (good_live h g _ bss u x Gd Hu Hx)|]. split; [apply (proj2 (good_point h g _ bss u Gd Hu) x Hx)|]. destruct (Y2 x Hx) as (_ & s & m & Z1 & Z2 & Z3 & _). exists s, m. split; [exact Z1|]. split; [exact Z2|lia].
    + rewrite <- (Forall2_length _ _ _ R), Lr. apply Permutation_length in Pr. rewrite combine_length in Pr. lia.
Qed.
Lemma undisturbed_read lo hi f h0 h h' ps g : undisturbed h h' g -> either_group lo hi f h0 h ps g -> either_group lo hi f h0 h' ps g.
Proof.
  intros U [(Rg & cs & rs & t & b & N & C & Un & F1 & (bss & F2) & R)|[Gp R]]; [left; split; [exact Rg|]|right; split; [exact Gp|eapply read_group_later; eauto]].
  destruct U as [U1 U2 U3 U4 (U5 & U6 & U7) U8 U9 U10]. exists cs, rs, t, b.
  split; [exact N|]. split; [apply (chain_cls h); auto|]. split; [apply (unrelated_cls h); auto|].
  assert (Ec : forall k, In k (g_tiers (gob h g)) -> t_ec (tob h' k) = t_ec (tob h k)) by (intros k Hk; rewrite U8 by exact Hk; reflexivity).
  rewrite U6. split; [rewrite (map_ext_in _ (fun k => t_ec (tob h k))) by exact Ec; exact F1|]. split.
  - exists bss. apply (good_grow h h'); auto.
    + intros k x Hk Hx. rewrite (U9 k x Hk Hx). split; [unfold GroupFinal.kept; auto 10|auto].
    + intros k x Hk Hx. rewrite (U9 k x (in_removelast _ _ Hk) Hx). reflexivity.
    + intros x y. apply issubclass_ext, U1.
    + apply (joined_cls h); auto. apply F2.
  - eapply Forall2_weaken; [exact R|]. intros r k _ Hk (R1 & R2 & R5). unfold plugged_as, up_to_date, superset_class, subset_class, cob. rewrite U8, U1 by exact Hk. split; [exact R1|]. split; [|exact R5].
    eapply Forall2_weaken; [exact R2|]. intros e x _ Hx. unfold stands_for. rewrite (U9 k x Hk Hx). auto.
Qed.
Lemma either_tidied n lo hi f h0 h h' ps g : read_group lo hi f h0 h ps g -> tidy_ready n h lo hi g -> tidied h h' g ->
  h_cls h' = h_cls h -> (List.length (h_seq h) <= List.length (h_seq h'))%nat -> List.length (h_tier h') = List.length (h_tier h) ->
  List.length (h_grp h') = List.length (h_grp h) -> (forall k, is_boundary h k -> is_boundary h' k) ->
  (forall t, In t (g_tiers (gob h g)) -> t_ec (tob h' t) = t_ec (tob h t) /\ t_super (tob h' t) = t_super (tob h t) /\ t_sub (tob h' t) = t_sub (tob h t) /\ t_name (tob h' t) = t_name (tob h t)) ->
  (forall i, (i < List.length (h_seq h))%nat -> s_start (sob h' i) = s_start (sob h i) /\ s_end (sob h' i) = s_end (sob h i) /\ s_label (sob h' i) = s_label (sob h i)) ->
  either_group lo hi f h0 h' ps g.
Proof.
  intros R _ ((bss' & Gd') & Td) Ec Ls Lt Lg Bd Kt Ks. pose proof R as (cs & rs & t' & b' & N & C & Un & (F1 & (bss & Gd) & F3) & Rd & Tp). pose proof (nested_in _ _ _ _ _ _ N) as [N1 N2]. pose proof N as (_ & _ & Lr & Pr & (r0 & Hr & Tl) & Sn).
  destruct (good_top h g _ bss Gd) as (t0 & r & Et). assert (Ht : hd_error (g_tiers (gob h g)) = Some t0) by (rewrite Et; reflexivity). assert (It : In t0 (g_tiers (gob h g))) by (apply hd_in, Ht).
  destruct (ReadMade.Forall2_hd _ _ _ r0 Rd Hr) as (t1 & Ht1 & R1 & R2 & R3 & R4). assert (t1 = t0) by congruence. subst t1.
  destruct (Td t0 Ht) as [X1 X2]. destruct (gap_or h g _ bss t0 Gd It) as [Rg|Rg].
  - left. specialize (X1 Rg). split.
    { assert (Hp : exists c, In (r0, c) ps).
      { destruct cs as [|c cs]; [destruct rs; discriminate|]. exists c. apply (Permutation_in _ (Permutation_sym Pr)). destruct rs; [discriminate|]. injection Hr as ->. simpl; auto. }
      destruct Hp as (c & Hp). exists (r0, c). split; [exact Hp|]. apply (gap_raw h _ _ R2), Rg. }
    assert (Gt : g_tiers (gob h' g) = g_tiers (gob h g)) by apply Gd'. exists cs, rs, t', b'. rewrite Gt.
    split; [exact N|]. split; [apply (chain_cls h); auto|]. split; [apply (unrelated_cls h); auto|].
    split; [rewrite (map_ext_in _ (fun k => t_ec (tob h k))) by (intros k Hk; apply (Kt k Hk)); exact F1|]. split; [exists bss'; exact Gd'|].
    assert (Ip : forall r k, In r rs -> In k (g_tiers (gob h g)) -> read_as h r k -> plugged_as h' r k).
    { intros q u Hq Hu (Y1 & Y2 & Y3 & Y4). destruct (Kt u Hu) as (K1 & K2 & K3 & K4). split; [congruence|]. split; [|apply (current_same h h'); auto].
      assert (Tu : raw_turns lo (rt_entries q) hi) by (apply (raw_all (map rt_entries rs)); [exists (rt_entries r0); split; [destruct rs; [discriminate|injection Hr as ->; reflexivity]|exact Tl]|exact Sn|apply in_map, Hq]).
      destruct (turns_made h _ _ Y2 lo hi Tu) as [Z1 Z2]. destruct (X1 u Hu) as ((x & y & a & b & P1 & P2 & P3 & P4 & P5) & P6 & P7 & _).
      assert (Ea : a = lo).
      { destruct (turns_head _ _ _ Tu) as (m & lab & l' & El & _). rewrite El in Y2. inversion Y2 as [|? x0 ? xs Sx F0 E0 E1]; subst. rewrite <- E1 in P1. injection P1 as <-. unfold stands_for in Sx. congruence. }
      assert (Eb : b = hi).
      { apply Z.le_antisymm.
        - pose proof (hd_rev_in _ _ P2) as Iy. destruct (Z2 y Iy) as (_ & s & m & Q1 & Q2 & Q3 & Q4). assert (m = b) by congruence. lia.
        - assert (La : forall l a b, raw_turns a l b -> exists s y, hd_error (rev l) = Some (ERaw s (Some b) y)).
          { clear. induction l as [|e l IH]; intros a b Q; [destruct Q|]. destruct Q as (m & x & -> & _ & _ & [[-> ->]|(s & _ & Q)]); [cbn; eauto|]. destruct (IH s b Q) as (s' & y & E). exists s', y.
            cbn [rev]. destruct (rev l); [discriminate|exact E]. }
          destruct (La _ _ _ Tu) as (s & z & Ez). destruct (ReadMade.Forall2_hd _ _ _ _ (ReadMade.Forall2_rev' _ _ _ Y2) Ez) as (v & Hv & Sv). assert (v = y) by congruence. subst v. unfold stands_for in Sv. assert (hi = b) by congruence. lia. }
      subst a b. apply (plugged_made h h' (t_seq (tob h u)) (fun x => (x <? List.length (h_seq h))%nat) hi Z1) with (pre := []) (xs := t_seq (tob h u)) (a := lo); auto.
      - intros v Hv. pose proof (good_live h g _ bss u v Gd Hu Hv) as Lv. split; [apply Nat.ltb_lt, Lv|]. destruct (Ks v Lv) as (K5 & K6 & K7). split; [exact K5|]. split; [exact K6|]. split; [exact K7|].
        destruct (Z2 v Hv) as (_ & s & m & Q1 & Q2 & Q3 & _). exists s, m. split; [exact Q1|]. split; [exact Q2|lia].
      - intros v Hv Ov. apply Nat.ltb_ge in Ov. apply (P7 v Hv Ov). }
    eapply Forall2_weaken; [exact Rd|]. intros q u Hq Hu. apply Ip; auto.
  - right. destruct (X2 Rg) as [K1 K2]. destruct (K2 (proj2 (Tp t0 Ht))) as [K3 K4]. split.
    { intros q Hq. apply in_map_iff in Hq. destruct Hq as ((q' & c) & <- & Hp). cbn [fst]. apply (Permutation_in _ Pr) in Hp. apply in_combine_l in Hp.
      destruct (Forall2_in_l _ _ _ q' Rd Hp) as (u & Hu & _ & Y2 & _). rewrite <- (gap_raw h _ _ Y2). rewrite (below_gap h _ bss t0 u g Gd Ht Hu). exact Rg. }
    eapply read_group_later; [|exact R]. constructor; auto; [lia| |]; [rewrite Lg; apply Gd|rewrite K3; auto].
Qed.
End Gaps.

(** ** Reading a whole text grid *)
Section Reading.
Context `{Env}.
Opaque span_of.

Lemma rows_each lo hi f h h' rows css gs : read_rows lo hi f h h' rows css gs ->
  forall g, In g gs -> g_tiers (gob h' g) <> [] /\ exists row ocs, In (row, ocs) (combine rows css) /\
    (g_points (gob h' g) = true /\ read_pgroup f h' (point_part h row ocs) g \/ g_points (gob h' g) = false /\ read_group lo hi f h h' (interval_part h row ocs) g).
Proof.
  intros R. induction R as [|row ocs gs rows css gs' (g1 & g2 & -> & R1 & R2) R IH]; intros g Hg; [destruct Hg|].
  apply in_app_iff in Hg. destruct Hg as [Hg|Hg].
  2: { destruct (IH g Hg) as (Q1 & r & o & Q2 & Q3). split; [exact Q1|]. exists r, o. split; [right; exact Q2|exact Q3]. }
  apply in_app_iff in Hg. destruct Hg as [Hg|Hg].
  - destruct R1 as [[_ ->]|(g' & -> & R1)]; [destruct Hg|]. destruct Hg as [<-|[]]. pose proof R1 as (cs & rs & t & b & _ & _ & _ & (_ & (bss & Gd) & _) & _). split.
    + destruct Gd as (_ & _ & _ & _ & (_ & _ & _ & (k & Q & _) & _) & _). intros E. rewrite E in Q. discriminate.
    + exists row, ocs. split; [left; reflexivity|]. right. split; [apply Gd|exact R1].
  - destruct R2 as [[_ ->]|(R2n & g' & -> & R2)]; [destruct Hg|]. destruct Hg as [<-|[]]. pose proof R2 as (_ & P & _ & F). split.
    + intros E. rewrite E in F. inversion F as [Q|]. congruence.
    + exists row, ocs. split; [left; reflexivity|]. left. auto.
Qed.
Lemma rows_some lo hi f h h' rows css gs : read_rows lo hi f h h' rows css gs -> some_intervals h rows css ->
  exists g, In g gs /\ g_points (gob h' g) = false.
Proof.
  intros R. induction R as [|row ocs gs rows css gs' (g1 & g2 & -> & R1 & R2) R IH]; intros (r & o & I & Q); [destruct I|].
  destruct I as [I|I].
  - injection I as -> ->. destruct R1 as [[Q1 _]|(g & -> & R1)]; [congruence|]. exists g. split; [simpl; auto|]. destruct R1 as (cs & rs & t & b & _ & _ & _ & (_ & (bss & Gd) & _) & _). apply Gd.
  - destruct IH as (g & Hg & P); [exists r, o; auto|]. exists g. split; [apply in_app_iff; auto|exact P].
Qed.
Lemma rows_turn (G G' : list (rawtier * cid) -> gid -> Prop) f h h1 h2 rows css gs : rows_as G f h h1 rows css gs ->
  (forall row ocs g, In (row, ocs) (combine rows css) -> In g gs -> G (interval_part h row ocs) g -> G' (interval_part h row ocs) g) ->
  (forall row ocs g, In (row, ocs) (combine rows css) -> In g gs -> read_pgroup f h1 (point_part h row ocs) g -> read_pgroup f h2 (point_part h row ocs) g) ->
  rows_as G' f h h2 rows css gs.
Proof.
  intros R. induction R as [|row ocs gs rows css gs' (g1 & g2 & -> & R1 & R2) R IH]; intros K1 K2; [constructor|]. constructor.
  - exists g1, g2. split; [reflexivity|]. split.
    + destruct R1 as [R1|(g & -> & R1)]; [left; exact R1|right]. exists g. split; [reflexivity|]. apply K1; [left; reflexivity|apply in_app_iff; left; simpl; auto|exact R1].
    + destruct R2 as [R2|(R2n & g & -> & R2)]; [left; exact R2|right]. split; [exact R2n|]. exists g. split; [reflexivity|]. apply K2; [left; reflexivity|apply in_app_iff; left; apply in_app_iff; simpl; auto|exact R2].
  - apply IH; [intros r o g Hr Hg; apply K1; [right; exact Hr|apply in_app_iff; auto]|intros r o g Hr Hg; apply K2; [right; exact Hr|apply in_app_iff; auto]].
Qed.
Lemma grid_turn (G G' : list (rawtier * cid) -> gid -> Prop) f h h' rows css a : grid_as G f h h' rows css a ->
  (forall row ocs g, In (row, ocs) (combine rows css) -> G (interval_part h row ocs) g -> G' (interval_part h row ocs) g) -> grid_as G' f h h' rows css a.
Proof.
  intros (A1 & A2 & A3 & A4) K. split; [exact A1|]. split; [exact A2|]. split; [|exact A4]. apply (rows_turn G G' f h h' h' _ _ _ A3); auto.
Qed.
Lemma flat_own {A B} (f : A -> list B) : forall l, NoDup (flat_map f l) -> forall x y z, In x l -> In y l -> In z (f x) -> In z (f y) -> NoDup l -> x = y.
Proof.
  induction l as [|a l IH]; intros N x y z Hx Hy Fx Fy Nl; [destruct Hx|]. cbn [flat_map] in N. apply NoDup_app in N. destruct N as (_ & D & N). apply NoDup_cons in Nl. destruct Nl as [_ Nl].
  destruct Hx as [<-|Hx], Hy as [<-|Hy]; [reflexivity| | |eapply IH; eauto]; exfalso; apply (D z); apply elem_of_list_In; auto; apply in_flat_map; eauto.
Qed.
Lemma nodup_part {A B} (f : A -> list B) (p : A -> bool) : forall l, NoDup (flat_map f l) -> NoDup (flat_map f (List.filter p l)).
Proof.
  induction l as [|a l IH]; intros N; [exact N|]. cbn [flat_map] in N. apply NoDup_app in N. destruct N as (N1 & D & N2). cbn [List.filter]. destruct (p a); [|apply IH, N2]. cbn [flat_map]. apply NoDup_app.
  split; [exact N1|]. split; [|apply IH, N2]. intros z Hz Hz'. apply (D z Hz). apply elem_of_list_In in Hz'. apply elem_of_list_In. apply in_flat_map in Hz'. destruct Hz' as (b & Hb & Hz'). apply filter_In in Hb. apply in_flat_map. exists b. tauto.
Qed.
Lemma aged_present h h' g : aged h h' -> glive h g -> (forall k, In k (g_tiers (gob h g)) -> tlive h k /\ forall x, In x (t_seq (tob h k)) -> live h x) -> undisturbed h h' g.
Proof.
  intros A W1 W2. pose proof A as (A1 & A3 & A4 & A5 & A6 & A7 & A8).
  constructor; auto; [unfold glive in W1; lia|intros k Hk; apply A7, W2, Hk|intros k x Hk Hx; apply A6; apply (W2 k Hk), Hx|].
  intros k. apply aged_boundary, A.
Qed.

Lemma grid_made n lo hi h tg ecs rows css : class_table h -> tg <> [] ->
  (let h0 := Heap (h_cls h) (h_seq h) (h_tier h) (h_grp h) (h_grid h ++ [blank_grid]) in nestify tg ecs h0 = Ok (rows, css) h0) ->
  Forall2 (readable h lo hi) rows css -> names_apart h (concat css) -> some_intervals h rows css ->
  (gapless (concat rows) \/ 0 < lo /\ forall row, In row rows -> (List.length row <= n)%nat) ->
  exists f a h', new_grid_textgrid n tg ecs h = Ok a h' /\ grid_as (either_group lo hi f h h') f h h' rows css a /\ class_table h'.
Proof.
  intros T Ntg Nf Rd Na Si Gp. cbv zeta in Nf. set (a := List.length (h_grid h)).
  set (h0 := Heap (h_cls h) (h_seq h) (h_tier h) (h_grp h) (h_grid h ++ [blank_grid])) in *.
  assert (C0 : h_cls h0 = h_cls h) by reflexivity.
  assert (T0 : class_table h0) by (unfold class_table, cob in *; exact T).
  assert (A0 : aob h0 a = blank_grid) by (unfold aob, h0; cbn [h_grid]; unfold a; rewrite list_lookup_middle by reflexivity; reflexivity).
  assert (L0 : alive h0 a) by (unfold alive, h0; cbn [h_grid]; rewrite app_length; cbn; unfold a; lia).
  assert (Nc : concat css <> []).
  { destruct Si as (row & ocs & I & Q). destruct ocs as [|c ocs]; [exfalso; apply Q; unfold interval_part; destruct row; reflexivity|].
    apply in_combine_r in I. intros E. assert (Hc : In c (concat css)) by (apply in_concat; exists (c :: ocs); simpl; auto). rewrite E in Hc. destruct Hc. }
  assert (Lp : forall c, lone_point h c <-> lone_point h0 c).
  { intros c. unfold lone_point, superset_class. rewrite (issubclass_ext h h0) by exact C0. reflexivity. }
  destruct (reclone_fresh h0 a (concat css) T0 L0) as (f & cl & h1 & E1 & T1 & B1 & B2 & B3 & B4 & B5 & B6 & B7 & B8 & B9 & B10 & B11 & B12); [rewrite A0; reflexivity|exact Nc| |exact Na|].
  { intros c Hc. destruct (flat_classes h lo hi rows css Rd c Hc) as [P|(t & cs & b & Q1 & Q2 & Q3 & Q4)]; [left; apply Lp, P|right].
    exists t, cs, b. split; [apply (chain_cls h); auto|]. auto. }
  assert (Rn : renamed (concat css) f h h1).
  { constructor; [exact T|exact T1|intros c Hc P; apply B10; [exact Hc|apply Lp, P]|]. intros t cs b C I. apply (B11 t cs b); [apply (chain_cls h); auto|exact I]. }
  destruct (rows_made n lo hi (concat css) f h rows css h1 Rn Rd (incl_refl _)) as (gs & h2 & E2 & G2 & R2 & W2 & N2 & Bg & Nt & Bt).
  pose proof G2 as (D1 & D2 & D3 & D4 & D5 & D6 & D7 & D8).
  assert (Ng : gs <> []) by (destruct (rows_some _ _ _ _ _ _ _ _ R2 Si) as (g & Hg & _); intros ->; destruct Hg).
  assert (L2 : alive h2 a) by (unfold alive in *; rewrite D2, B6; exact L0).
  destruct (groups_set a gs h2 Ng L2) as (h3 & E3 & F1 & F2 & F3 & F4 & F5 & F6 & F7 & F8 & F9); [intros g Hg; apply W2, Hg|].
  assert (A23 : aged h2 h3).
  { split; [exact F1|]. split; [rewrite F2; lia|]. split; [rewrite F3; lia|]. split; [lia|]. split; [intros i _; unfold sob; rewrite F2; reflexivity|]. split; [intros i _; unfold tob; rewrite F3; reflexivity|].
    intros g Hg. destruct (in_dec Nat.eq_dec g gs) as [I|I]; [rewrite F8 by exact I; auto|rewrite F9 by exact I; auto]. }
  assert (Rp : forall row ocs p, In (row, ocs) (combine rows css) -> In p (point_part h row ocs) -> raw_points (rt_entries (fst p))).
  { clear -Rd. induction Rd as [|row ocs rows css (_ & _ & _ & P) F IH]; intros r o p I Hp; [destruct I|]. destruct I as [I|I]; [injection I as -> ->; apply P, Hp|eapply IH; eauto]. }
  pose proof (read_rows_aged _ _ _ _ _ _ _ _ _ A23 Rp W2 R2) as R3. pose proof (whole_aged _ _ _ A23 W2) as W3.
  assert (Ga : a_groups (aob h3 a) = gs) by (rewrite F6; reflexivity).
  assert (Tg3 : forall g, tiers_in h3 g = tiers_in h2 g).
  { intros g. unfold tiers_in. destruct (in_dec Nat.eq_dec g gs) as [I|I]; [rewrite F8 by exact I; auto|rewrite F9 by exact I; auto]. }
  assert (Nt3 : NoDup (flat_map (tiers_in h3) gs)) by (rewrite (flat_map_ext _ _ Tg3); exact Nt).
  assert (Bt3 : forall g k x, In g gs -> In k (g_tiers (gob h3 g)) -> (List.length (h_tier h1) <= k)%nat /\ (In x (t_seq (tob h3 k)) -> (List.length (h_seq h1) <= x)%nat)).
  { intros g k x Hg Hk. change (In k (tiers_in h3 g)) in Hk. rewrite Tg3 in Hk. destruct (Bt k) as [Q1 Q2]; [apply in_flat_map; eauto|]. split; [exact Q1|]. intros Hx. apply Q2. unfold tob in *. rewrite F3 in Hx. exact Hx. }
  (* cleaning up *)
  set (ivs := interval_groups h3 a).
  assert (Iv : forall g, In g ivs <-> In g gs /\ g_points (gob h3 g) = false).
  { intros g. unfold ivs, interval_groups. rewrite filter_In, Ga. destruct (g_points (gob h3 g)); cbn; intuition congruence. }
  assert (Rdy : forall g, In g gs -> g_points (gob h3 g) = false -> tidy_ready n h3 lo hi g).
  { intros g Hg Pg. destruct (rows_each _ _ _ _ _ _ _ _ R3 g Hg) as (_ & row & ocs & I & [[Q _]|[_ Q]]); [congruence|]. apply (ready_read n lo hi f h h3 (interval_part h row ocs) g Q).
    destruct Gp as [Gp|[Pos Len]]; [left|right].
    - intros r Hr. apply Gp. apply in_map_iff in Hr. destruct Hr as ([r' c] & <- & Hr). apply filter_In in Hr. destruct Hr as [Hr _]. apply in_combine_l in Hr, I. apply in_concat. eauto.
    - split; [exact Pos|]. assert (Fl : forall (p : rawtier * cid -> bool) l, (List.length (List.filter p l) <= List.length l)%nat) by (clear; intros p l; induction l as [|q l IH]; cbn; [lia|destruct (p q); cbn; lia]).
      specialize (Fl (fun p => issubclass h (snd p) cInterval) (combine row ocs)). rewrite combine_length in Fl. unfold interval_part. apply in_combine_l in I. specialize (Len row I). lia. }
  assert (Niv : NoDup (flat_map (tiers_in h3) ivs)) by (apply nodup_part; rewrite Ga; exact Nt3).
  assert (Wiv : whole_groups h3 ivs) by (intros g Hg; apply W3, Iv, Hg).
  assert (Ndiv : NoDup ivs) by (apply NoDup_ListNoDup; apply List.NoDup_filter, NoDup_ListNoDup; rewrite Ga; exact N2).
  destruct (c64_tidied n h3 a lo hi) as (h4 & E4 & Td & Ap4 & Rk).
  { rewrite Ga. intros g Hg. destruct (g_points (gob h3 g)) eqn:Pg; [left; reflexivity|right; apply Rdy; auto]. }
  { split; [exact Ndiv|]. split; [exact Niv|apply whole_entries; auto]. }
  { destruct (rows_some _ _ _ _ _ _ _ _ R3 Si) as (g & Hg & Pg). intros Q. assert (X : In g ivs) by (apply Iv; auto). unfold ivs in X. rewrite Q in X. destruct X. }
  fold ivs in Td, Ap4, Rk. destruct Rk as (K1 & K2 & K3 & K4 & K5 & K6 & K7 & K8 & K9 & K10 & K11).
  assert (Gd3 : forall g, In g ivs -> exists bss, good_group h3 g (g_tiers (gob h3 g)) bss) by (intros g Hg; apply Iv in Hg; destruct (Rdy g (proj1 Hg) (proj2 Hg)) as (Q & _); exact Q).
  assert (Gd4 : forall g, In g ivs -> exists bss, good_group h4 g (g_tiers (gob h3 g)) bss) by (intros g Hg; apply (Td g Hg)).
  assert (Tg4 : forall g, In g gs -> g_tiers (gob h4 g) = g_tiers (gob h3 g) /\ g_points (gob h4 g) = g_points (gob h3 g)).
  { intros g Hg. destruct (in_dec Nat.eq_dec g ivs) as [I|I]; [|rewrite K8 by exact I; auto]. destruct (Gd4 g I) as (bss & Q). split; [apply Q|]. apply Iv in I. destruct I as [_ ->]. apply Q. }
  assert (Bd4 : forall k, is_boundary h3 k -> is_boundary h4 k).
  { intros k (L & Q1 & Q2). unfold is_boundary. rewrite K5; [split; [lia|auto]|exact L|]. intros t Ht Hk. apply in_flat_map in Ht. destruct Ht as (g & Hg & Ht). destruct (Gd3 g Hg) as (bss & Gd).
    apply (good_label h3 g _ bss t k Gd Ht Hk Q1). }
  assert (Ow : forall g g' k, In g gs -> In g' gs -> In k (g_tiers (gob h3 g)) -> In k (g_tiers (gob h3 g')) -> g = g') by (intros g g' k Hg Hg' Hk Hk'; apply (flat_own (tiers_in h3) gs Nt3 g g' k); auto).
  assert (Own : forall g k x, In g gs -> In k (g_tiers (gob h3 g)) -> In x (t_seq (tob h3 k)) -> live h3 x /\ s_intier (sob h3 x) = Some k).
  { intros g k x Hg Hk Hx. destruct (W3 g Hg) as [_ Q]. destruct (Q k Hk) as (_ & _ & Q3). apply (Q3 x Hx). }
  assert (Pts : forall g, In g gs -> g_points (gob h3 g) = true -> (forall k, In k (g_tiers (gob h3 g)) -> tob h4 k = tob h3 k /\ ~ In k (flat_map (tiers_in h3) ivs)) /\ undisturbed h3 h4 g).
  { intros g Hg Pg. assert (Ni : ~ In g ivs) by (intros I; apply Iv in I; destruct I; congruence).
    assert (Nk : forall k, In k (g_tiers (gob h3 g)) -> ~ In k (flat_map (tiers_in h3) ivs)).
    { intros k Hk Q. apply in_flat_map in Q. destruct Q as (g' & Hg' & Q). apply Ni. rewrite (Ow g g' k); auto. apply Iv, Hg'. }
    split; [intros k Hk; split; [apply K2, Nk, Hk|apply Nk, Hk]|]. constructor; [exact K10|exact K6|lia|rewrite K7; apply (W3 g Hg)|rewrite K8 by exact Ni; auto|intros k Hk; apply K2, Nk, Hk| |exact Bd4].
    intros k x Hk Hx. destruct (Own g k x Hg Hk Hx) as [L I]. apply K5; [exact L|]. intros t Ht Q. apply in_flat_map in Ht. destruct Ht as (g' & Hg' & Ht). apply Iv in Hg'. destruct (Own g' t x (proj1 Hg') Ht Q) as [_ I'].
    assert (t = k) by congruence. subst t. apply (Nk k Hk). apply in_flat_map. exists g'. split; [apply Iv; exact Hg'|exact Ht]. }
  assert (Ei4 : forall row ocs g, In (row, ocs) (combine rows css) -> In g gs -> read_group lo hi f h h3 (interval_part h row ocs) g -> either_group lo hi f h h4 (interval_part h row ocs) g).
  { intros row ocs g Hr Hg Q. assert (I : In g ivs) by (apply Iv; split; [exact Hg|]; destruct Q as (cs & rs & t & b & _ & _ & _ & (_ & (bss & Gd) & _) & _); apply Gd).
    pose proof I as I'. apply Iv in I'. apply (either_tidied n lo hi f h h3 h4 _ g Q (Rdy g Hg (proj2 I')) (Td g I)); auto.
    - intros t Ht. destruct (K1 t) as (Q1 & Q2 & Q3 & Q4 & _); [apply in_flat_map; exists g; auto|auto].
    - intros i Hi. destruct (K4 i Hi) as (_ & Q1 & Q2 & Q3 & _). auto. }
  assert (Pr4 : forall g, In g gs -> glive h4 g /\ forall k, In k (g_tiers (gob h4 g)) -> tlive h4 k /\ forall x, In x (t_seq (tob h4 k)) -> live h4 x).
  { intros g Hg. destruct (W3 g Hg) as [Q1 Q2]. split; [unfold glive in *; lia|]. destruct (Tg4 g Hg) as [-> _]. intros k Hk. destruct (Q2 k Hk) as (Q3 & _). split; [unfold tlive in *; lia|]. intros x Hx.
    destruct (g_points (gob h3 g)) eqn:Pg.
    - destruct (Pts g Hg Pg) as [P1 _]. destruct (P1 k Hk) as [P2 _]. rewrite P2 in Hx. destruct (Own g k x Hg Hk Hx) as [L _]. unfold live in *. lia.
    - destruct (Gd4 g) as (bss & Gd); [apply Iv; auto|]. apply (good_live h4 g _ bss k x Gd Hk Hx). }
  (* the rest *)
  destruct (within_all (Some (WGrid a)) gs h4) as (h5 & E5 & H1 & H2 & H3 & H4 & H5 & H6 & H7); [intros g Hg; apply Pr4, Hg|].
  assert (Ga4 : a_groups (aob h4 a) = gs) by (unfold aob; rewrite K11; exact Ga).
  assert (Ga5 : a_groups (aob h5 a) = gs) by (unfold aob; rewrite H4; exact Ga4).
  destruct (named_all a gs h5) as (h6 & E6 & I1 & I2 & I3 & I4 & I5 & I6 & I7 & _ & I9).
  { intros g Hg. rewrite H6 by exact Hg. cbn. split; [unfold glive; rewrite H5; apply Pr4, Hg|]. destruct (Tg4 g Hg) as [-> _]. split; [apply (rows_each _ _ _ _ _ _ _ _ R3 g Hg)|]. split; [reflexivity|]. rewrite Ga5. exact Hg. }
  assert (A46 : aged h4 h6).
  { split; [congruence|]. split; [rewrite I2, H2; lia|]. split; [rewrite I3, H3; lia|]. split; [lia|]. split; [intros i _; unfold sob; rewrite I2, H2; reflexivity|]. split; [intros i _; unfold tob; rewrite I3, H3; reflexivity|].
    intros g Hg. destruct (I6 g) as (Q1 & Q2 & Q3 & _). rewrite Q1, Q2, Q3. destruct (in_dec Nat.eq_dec g gs) as [I|I]; [rewrite H6 by exact I; auto|rewrite H7 by exact I; auto]. }
  assert (U46 : forall g, In g gs -> undisturbed h4 h6 g) by (intros g Hg; apply aged_present; [exact A46|apply (Pr4 g Hg)|apply (Pr4 g Hg)]).
  assert (R6 : rows_as (either_group lo hi f h h6) f h h6 rows css gs).
  { apply (rows_turn _ _ f h h3 h6 _ _ _ R3).
    - intros row ocs g Hr Hg Q. apply (undisturbed_read lo hi f h h4 h6); [apply U46, Hg|]. apply Ei4; auto.
    - intros row ocs g Hr Hg Q. assert (Rw : forall p, In p (point_part h row ocs) -> raw_points (rt_entries (fst p))) by (intros p; apply (Rp row ocs p Hr)).
      apply (read_pgroup_later f h4 h6); [exact Rw|apply U46, Hg|]. apply (read_pgroup_later f h3 h4); [exact Rw| |exact Q]. apply Pts; [exact Hg|apply Q]. }
  assert (Ga6 : a_groups (aob h6 a) = gs) by (unfold aob; rewrite I4; exact Ga5).
  exists f, a, h6. split.
  { unfold new_grid_textgrid. rewrite (bind_ok _ _ _ a h0) by reflexivity. destruct tg as [|r0 tg]; [congruence|]. rewrite (bind_ok _ _ _ _ _ Nf). cbn [fst snd].
    assert (Er : relate_textgrid n a rows css h0 = Ok gs h2).
    { unfold relate_textgrid. rewrite (bind_ok _ _ _ _ _ E1). rewrite bind_gets. rewrite B8. cbn [a_cloned set_a_cloned].
      assert (Em : mapM (fun cs => swap_classes cs cl) css h1 = Ok (map (map f) css) h1).
      { apply OutputFinal.mapM_pure. intros l Hl. apply B12. intros c Hc. apply in_concat. eauto. }
      rewrite (bind_ok _ _ _ _ _ Em). exact E2. }
    rewrite (bind_ok _ _ _ _ _ Er), (bind_ok _ _ _ _ _ E3), (bind_ok _ _ _ _ _ E4).
    assert (Ef : grid_finish a h4 = Ok tt h6).
    { unfold grid_finish. change (get_grid a) with (gets (fun h => aob h a)). rewrite bind_gets, Ga4, (bind_ok _ _ _ _ _ E5). unfold set_group_names. change (get_grid a) with (gets (fun h => aob h a)). rewrite bind_gets, Ga5. exact E6. }
    rewrite (bind_ok _ _ _ _ _ Ef). reflexivity. }
  assert (Cl6 : h_cls h6 = h_cls h1) by congruence.
  split; [|unfold class_table, cob in *; rewrite Cl6; exact T1].
  assert (So6 : forall i, sob h6 i = sob h4 i) by (intros i; unfold sob; rewrite I2, H2; reflexivity).
  assert (To6 : forall i, tob h6 i = tob h4 i) by (intros i; unfold tob; rewrite I3, H3; reflexivity).
  assert (Tg6 : forall g, In g gs -> tiers_in h6 g = g_tiers (gob h3 g)).
  { intros g Hg. unfold tiers_in. destruct (I6 g) as (_ & -> & _). rewrite H6 by exact Hg. cbn. apply Tg4, Hg. }
  split; [reflexivity|]. split. { rewrite I4, H4, K11, F5, D2, B6. unfold h0. cbn [h_grid]. rewrite app_length. cbn. unfold a. lia. }
  rewrite Ga6. split; [exact R6|].
  assert (Fl6 : flat_map (tiers_in h6) gs = flat_map (tiers_in h3) gs).
  { clear -Tg6. induction gs as [|g l IHl]; [reflexivity|]. cbn [flat_map]. rewrite Tg6 by (simpl; auto). rewrite IHl; [reflexivity|]. intros k Hk. apply Tg6. simpl; auto. }
  split.
  { split; [exact N2|]. rewrite Fl6. split; [exact Nt3|]. destruct Ap4 as (_ & _ & Ap4).
    assert (Fi : flat_map (tiers_in h4) ivs = flat_map (tiers_in h3) ivs).
    { assert (Q : forall g, In g ivs -> tiers_in h4 g = tiers_in h3 g) by (intros g Hg; apply (Tg4 g), Iv, Hg). clear -Q. revert Q. generalize ivs. intros l Q. induction l as [|g l IHl]; [reflexivity|].
      cbn [flat_map]. rewrite (IHl (fun j Hj => Q j (or_intror Hj))), (Q g (or_introl eq_refl)). reflexivity. }
    rewrite Fi in Ap4.
    assert (Kd : forall k, In k (flat_map (tiers_in h3) gs) -> In k (flat_map (tiers_in h3) ivs) \/ ~ In k (flat_map (tiers_in h3) ivs) /\ tob h4 k = tob h3 k).
    { intros k Hk. destruct (in_dec Nat.eq_dec k (flat_map (tiers_in h3) ivs)) as [I|I]; [left; exact I|right; split; [exact I|apply K2, I]]. }
    assert (Old : forall k x, In k (flat_map (tiers_in h3) ivs) -> In x (entries_in h6 k) -> live h3 x -> s_intier (sob h3 x) = Some k).
    { intros k x Hk Hx L. apply in_flat_map in Hk. destruct Hk as (g & Hg & Hk). destruct (Gd3 g Hg) as (bss & Gd). unfold entries_in in Hx. rewrite To6 in Hx.
      apply (Own g k x); [apply Iv, Hg|exact Hk|]. apply (tidied_old h3 h4 g _ bss k x Gd eq_refl (Td g Hg) Hk Hx L). }
    assert (Pt : forall k x, In k (flat_map (tiers_in h3) gs) -> tob h4 k = tob h3 k -> In x (entries_in h6 k) -> live h3 x /\ s_intier (sob h3 x) = Some k).
    { intros k x Hk E Hx. apply in_flat_map in Hk. destruct Hk as (g & Hg & Hk). unfold entries_in in Hx. rewrite To6, E in Hx. apply (Own g k x Hg Hk Hx). }
    apply nodup_flat; [exact Nt3| |].
    - intros k Hk. unfold entries_in. rewrite To6. destruct (Kd k Hk) as [I|[_ Q]].
      + apply in_flat_map in I. destruct I as (g & Hg & I). destruct (Gd4 g Hg) as (bss & Gd). apply (good_entries h4 g _ bss Gd k I).
      + rewrite Q. apply in_flat_map in Hk. destruct Hk as (g & Hg & Hk). destruct (W3 g Hg) as [_ W]. apply (W k Hk).
    - intros k k' x Hk Hk' N Hx Hx'. destruct (Kd k Hk) as [I|[_ Q]], (Kd k' Hk') as [I'|[_ Q']].
      + apply N. unfold entries_in in Hx, Hx'. rewrite To6 in Hx, Hx'. apply (flat_own (entries_in h4) (flat_map (tiers_in h3) ivs) Ap4 k k' x); auto.
      + destruct (Pt k' x Hk' Q' Hx') as [L X]. pose proof (Old k x I Hx L). congruence.
      + destruct (Pt k x Hk Q Hx) as [L X]. pose proof (Old k' x I' Hx' L). congruence.
      + destruct (Pt k x Hk Q Hx) as [L X]. destruct (Pt k' x Hk' Q' Hx') as [L' X']. congruence. }
  split.
  { intros g Hg. split; [|apply I9, Hg]. destruct (I6 g) as (_ & _ & _ & ->). rewrite H6 by exact Hg. reflexivity. }
  split. { intros c Hc. destruct (B9 c Hc) as [(Q1 & Q2 & Q3) _]. split; [rewrite Cl6; exact Q1|]. split; [unfold class_name, cob in *; rewrite Cl6; exact Q2|unfold cob in *; rewrite Cl6; exact Q3]. }
  split. { intros c Hc. unfold cob. rewrite Cl6. apply (B2 c Hc). }
  split. { intros i Hi. rewrite So6. assert (E : sob h3 i = sob h i).
    { unfold sob at 1. rewrite F2. fold (sob h2 i). rewrite D6; [unfold sob; rewrite B3; reflexivity|]. unfold live. rewrite B3. exact Hi. }
    rewrite K5; [exact E|rewrite F2; rewrite B3 in D3; unfold h0 in D3; cbn in D3; lia|]. intros t Ht Q. apply in_flat_map in Ht. destruct Ht as (g & Hg & Ht). apply Iv in Hg. destruct (Bt3 g t i (proj1 Hg) Ht) as [_ X]. specialize (X Q). rewrite B3 in X. unfold h0 in X. cbn in X. lia. }
  split. { intros i Hi. rewrite To6. rewrite K2; [unfold tob; rewrite F3; fold (tob h2 i); rewrite D7; [unfold tob; rewrite B4; reflexivity|]; unfold tlive; rewrite B4; exact Hi|].
    intros Ht. apply in_flat_map in Ht. destruct Ht as (g & Hg & Ht). apply Iv in Hg. destruct (Bt3 g i 0%nat (proj1 Hg) Ht) as [X _]. rewrite B4 in X. unfold h0 in X. cbn in X. lia. }
  split. { intros i Hi. assert (Ni : ~ In i gs) by (intros Q; specialize (Bg i Q); rewrite B5 in Bg; cbn in Bg; lia). rewrite I7, H7 by exact Ni. rewrite K8 by (intros Q; apply Ni, Iv, Q). rewrite F9 by exact Ni. rewrite D8; [unfold gob; rewrite B5; reflexivity|]. unfold glive. rewrite B5. exact Hi. }
  split. { intros i Hi. assert (Ni : i <> a) by (unfold a; lia). unfold aob. rewrite I4, H4, K11. fold (aob h3 i). rewrite F7 by exact Ni. unfold aob. rewrite D2. fold (aob h1 i). rewrite B7 by exact Ni. unfold aob, h0. cbn [h_grid]. rewrite lookup_app_l by exact Hi. reflexivity. }
  split; [rewrite Cl6; exact B1|]. split; [rewrite I2, H2; rewrite B3 in D3; rewrite F2 in K6; unfold h0 in D3; cbn in D3; lia|]. split; [rewrite I3, H3, K3, F3; rewrite B4 in D4; exact D4|].
  split; [rewrite I5, H5, K7, F4; rewrite B5 in D5; exact D5|]. rewrite I4, H4, K11, F5, D2, B6. unfold h0. cbn [h_grid]. rewrite app_length. lia.
Qed.
Lemma gapless_read lo hi f h h' rows css a : gapless (concat rows) -> grid_as (either_group lo hi f h h') f h h' rows css a -> grid_read lo hi f h h' rows css a.
Proof.
  intros Gp G. apply (grid_turn _ _ f h h' rows css a G). intros row ocs g I [[([r c] & Hp & Rg) _]|[_ Q]]; [exfalso|exact Q]. cbn [fst] in Rg. apply (Gp r); [|exact Rg].
  apply filter_In in Hp. destruct Hp as [Hp _]. apply in_combine_l in Hp, I. apply in_concat. eauto.
Qed.
End Reading.

(** ** The class lists a user may give *)
Section Given.
Context `{Env}.
Opaque span_of.

Lemma F2_in {A B} (R : A -> B -> Prop) l k y : Forall2 R l k -> In y k -> exists x, In x l /\ R x y.
Proof. induction 1 as [|x z l k Q F IH]; intros I; [destruct I|]. destruct I as [<-|I]; [exists x; simpl; auto|]. destruct (IH I) as (w & W1 & W2). exists w. simpl; auto. Qed.

Lemma same_rows {A B} : forall (gs rows : list (list A)) (css : list (list B)) rest,
  map (@List.length A) gs = map (@List.length B) css -> Forall2 (fun r c => List.length r = List.length c) rows css ->
  concat gs = firstn (List.length (concat css)) (concat rows ++ rest) -> gs = rows.
Proof.
  intros gs rows css rest L F. revert gs L. induction F as [|r c rows css Lr F IH]; intros [|g gs] L E; try discriminate; [reflexivity|].
  cbn [map concat] in *. injection L as L1 L2. rewrite app_length, <- app_assoc in E.
  rewrite firstn_app, (firstn_all2 r) in E by lia. replace (List.length c + List.length (concat css) - List.length r)%nat with (List.length (concat css)) in E by lia.
  apply app_inj_1 in E; [|lia]. destruct E as [-> E]. f_equal. apply IH; auto.
Qed.
Lemma readable_lengths h lo hi rows css : Forall2 (readable h lo hi) rows css -> Forall2 (fun r c => List.length r = List.length c) rows css.
Proof. intros F. eapply Forall2_impl; [exact F|]. intros r c (L & _). exact L. Qed.
Lemma total_lengths {A B} (rows : list (list A)) (css : list (list B)) : Forall2 (fun r c => List.length r = List.length c) rows css -> List.length (concat rows) = List.length (concat css).
Proof. intros F. induction F as [|r c rows css L F IH]; [reflexivity|]. cbn [concat]. rewrite !app_length. lia. Qed.
Lemma intervals_tiers h rows css : some_intervals h rows css -> concat rows <> [] /\ css <> [].
Proof.
  intros (row & ocs & I & Q). split.
  - intros E. destruct row as [|r row]; [apply Q; reflexivity|]. apply in_combine_l in I. assert (X : In r (concat rows)) by (apply in_concat; exists (r :: row); simpl; auto). rewrite E in X. destruct X.
  - intros ->. destruct rows; destruct I.
Qed.

Lemma any_nested : forall (n : nat) (h : heap) (rows : list (list rawtier)) (css : list (list cid)) (rest : list rawtier) (lo hi : Z),
  class_table h -> Forall2 (readable h lo hi) rows css -> names_apart h (concat css) -> some_intervals h rows css ->
  (gapless (concat rows) \/ 0 < lo /\ forall row, In row rows -> (List.length row <= n)%nat) ->
  exists f a h', new_grid_textgrid n (concat rows ++ rest) (Nested css) h = Ok a h' /\ grid_as (either_group lo hi f h h') f h h' rows css a /\ class_table h'.
Proof.
  intros n h rows css rest lo hi T F Na Si Gp. destruct (intervals_tiers h rows css Si) as [N1 N2]. pose proof (readable_lengths _ _ _ _ _ F) as Fl.
  apply grid_made; auto.
  - destruct (concat rows); [congruence|discriminate].
  - intros h0. assert (E0 : h_cls h0 = h_cls h) by reflexivity. destruct (OutputFinal.c37_nested rawtier h0 (concat rows ++ rest) css N2) as (gs & E & Q1 & Q2); [rewrite app_length, (total_lengths _ _ Fl); lia|].
    rewrite E. rewrite (same_rows gs rows css rest Q1 Fl Q2). reflexivity.
Qed.

Lemma chain_tops h t cs b : class_table h -> class_chain h t cs b -> forall c, In c cs -> interval_class h c /\ (top_class h c -> hd_error cs = Some c).
Proof.
  intros T C c Hc. pose proof C as (C1 & C2 & C3 & C4 & C5 & C6). apply In_nth_error in Hc. destruct Hc as [i Hi].
  assert (Hs : nth_error (t :: cs ++ [b])%list (Datatypes.S i) = Some c).
  { cbn. rewrite nth_error_app1; [exact Hi|]. apply nth_error_Some. congruence. }
  destruct (nth_error (t :: cs ++ [b])%list i) as [d|] eqn:Ed; [|apply nth_error_None in Ed; assert (Q : nth_error (t :: cs ++ [b])%list (Datatypes.S i) <> None) by congruence; apply nth_error_Some in Q; lia].
  destruct (C6 i d c Ed Hs) as [Q1 Q2]. split.
  - split; [|congruence]. apply (kinds_apart h c cInterval cPoint T); simpl; auto; try discriminate. apply C5. eapply nth_error_In; eauto.
  - intros (s & E & P). assert (s = d) by congruence. subst s. destruct i as [|i]; [destruct cs; [discriminate|exact Hi]|]. exfalso.
    cbn in Ed. assert (Li : (i < List.length cs)%nat) by (assert (Datatypes.S i < List.length cs)%nat by (apply nth_error_Some; congruence); lia).
    rewrite nth_error_app1 in Ed by exact Li. assert (Iv : issubclass h d cInterval = true) by (apply C5; eapply nth_error_In; eauto).
    rewrite (kinds_apart h d cTop cInterval T) in Iv; [discriminate|simpl; auto|simpl; auto|discriminate|exact P].
Qed.
Lemma any_flat : forall (n : nat) (h : heap) (rows : list (list rawtier)) (rest : list rawtier) (t : cid) (cs : list cid) (b : cid) (given : list cid) (lo hi : Z),
  class_table h -> class_chain h t cs b -> Permutation given cs -> names_apart h cs ->
  rows <> [] -> (forall row, In row rows -> readable h lo hi row given) -> (List.length rest < List.length given)%nat ->
  (gapless (concat rows) \/ 0 < lo /\ (List.length cs <= n)%nat) ->
  exists f a h', new_grid_textgrid n (concat rows ++ rest) (Flat given) h = Ok a h' /\
    grid_as (either_group lo hi f h h') f h h' rows (repeat given (List.length rows)) a /\ class_table h'.
Proof.
  intros n h rows rest t cs b given lo hi T C P Na Nr R Lr Gp. set (css := repeat given (List.length rows)).
  assert (F : Forall2 (readable h lo hi) rows css).
  { subst css. clear Nr Gp. induction rows as [|r rows IH]; [constructor|]. cbn [List.length repeat]. constructor; [apply R; simpl; auto|]. apply IH. intros x Hx. apply R. simpl; auto. }
  pose proof (readable_lengths _ _ _ _ _ F) as Fl. pose proof C as (C1 & C2 & _ & _ & C5 & _).
  assert (Lg : List.length given = List.length cs) by (apply Permutation_length, P).
  assert (Ng : given <> []) by (intros ->; destruct cs; [congruence|discriminate]).
  assert (Ig : forall c, In c (concat css) -> In c cs).
  { intros c Hc. apply in_concat in Hc. destruct Hc as (l & Hl & Hc). apply repeat_spec in Hl. subst l. apply (Permutation_in _ P Hc). }
  assert (Si : some_intervals h rows css).
  { destruct rows as [|r rows]; [congruence|]. exists r, given. split; [left; reflexivity|]. destruct (R r) as (L & _); [simpl; auto|].
    destruct given as [|c given]; [congruence|]. destruct r as [|x r]; [discriminate|]. unfold interval_part. cbn [combine List.filter snd]. rewrite C5 by (apply (Permutation_in _ P); simpl; auto). discriminate. }
  assert (Lc : List.length (concat rows) = (List.length rows * List.length given)%nat).
  { rewrite (total_lengths _ _ Fl). apply OutputFinal.total_repeat. }
  assert (Dv : (List.length (concat rows ++ rest)%list / List.length given)%nat = List.length rows).
  { rewrite app_length, Lc. symmetry. apply (Nat.div_unique _ _ _ (List.length rest)); lia. }
  apply grid_made; auto.
  - destruct (intervals_tiers h rows css Si) as [N1 _]. destruct (concat rows); [congruence|discriminate].
  - intros h0. assert (E0 : h_cls h0 = h_cls h) by reflexivity. assert (C0 : class_chain h0 t cs b) by (apply (chain_cls h); auto). assert (T0 : class_table h0) by (unfold class_table, cob in *; rewrite E0; exact T).
    destruct (OutputFinal.c37_flat rawtier h0 (concat rows ++ rest)%list given Ng) as (gs & E & Q1 & Q2 & Q3).
    + intros c Hc. apply (chain_tops h0 t cs b T0 C0). apply (Permutation_in _ P Hc).
    + intros i j c d Hi Hj Tc Td. assert (Ic : In c cs) by (apply (Permutation_in _ P); eapply nth_error_In; eauto). assert (Id : In d cs) by (apply (Permutation_in _ P); eapply nth_error_In; eauto).
      destruct (chain_tops h0 t cs b T0 C0 c Ic) as [_ Q1]. destruct (chain_tops h0 t cs b T0 C0 d Id) as [_ Q2]. specialize (Q1 Tc). specialize (Q2 Td). assert (c = d) by congruence. subst d.
      assert (Nd : List.NoDup given) by (apply NoDup_ListNoDup; rewrite P; exact C1). apply (proj1 (NoDup_nth_error given) Nd); [apply nth_error_Some; congruence|congruence].
    + rewrite Dv. destruct rows; [congruence|discriminate].
    + rewrite Dv in *. rewrite E. f_equal. f_equal. apply (same_rows gs rows css rest); [|exact Fl|].
      * subst css. clear -Q1 Q2. revert Q1 Q2. generalize (List.length rows). induction gs as [|g gs IH]; intros m L K; [destruct m; [reflexivity|discriminate]|].
        destruct m as [|m]; [discriminate|]. cbn [repeat map]. f_equal; [apply K; simpl; auto|]. apply IH; [injection L as ->; reflexivity|intros x Hx; apply K; simpl; auto].
      * rewrite Q3. f_equal. symmetry. apply OutputFinal.total_repeat.
  - intros c d Hc Hd. apply Na; apply Ig; assumption.
  - destruct Gp as [Gp|[Pos Ln]]; [left; exact Gp|right]. split; [exact Pos|]. intros row Hr. destruct (R row Hr) as (L & _). lia.
Qed.

Lemma any_chains : forall (n : nat) (h : heap) (tg : list rawtier) (cs : list cid) (chs : list (list cid)) (lo hi : Z),
  class_table h -> (forall ch, In ch chs -> exists t b, class_chain h t ch b) -> Permutation cs (concat chs) -> NoDup cs -> (2 <= List.length chs)%nat ->
  (List.length cs <= List.length tg)%nat -> names_apart h cs ->
  (gapless tg \/ 0 < lo /\ forall ch, In ch chs -> (List.length ch <= n)%nat) ->
  (forall ch row, In ch chs -> Forall2 (fun c r => exists k, nth_error cs k = Some c /\ nth_error tg k = Some r) ch row -> readable h lo hi row ch) ->
  exists f a h' rows css, new_grid_textgrid n tg (Flat cs) h = Ok a h' /\ Permutation css chs /\ keep_if (top_class h) cs (map (hd 0%nat) css) /\
    Forall2 (Forall2 (fun c r => exists k, nth_error cs k = Some c /\ nth_error tg k = Some r)) css rows /\
    grid_as (either_group lo hi f h h') f h h' rows css a /\ class_table h'.
Proof.
  intros n h tg cs chs lo hi T Ch P Nd L2 Lt Na Lh R.
  set (h0 := Heap (h_cls h) (h_seq h) (h_tier h) (h_grp h) (h_grid h ++ [blank_grid])).
  destruct (OutputFinal.c37_chains rawtier h0 tg cs chs T) as (rows & css & E & Q1 & Q2' & Q3 & Q4); [intros ch Hc; destruct (Ch ch Hc) as (t & b & C); exists t, b; apply (chain_cls h); auto|exact P|exact Nd|exact L2|exact Lt|].
  assert (Q2 : keep_if (top_class h) cs (map (hd 0%nat) css)).
  { assert (Te : forall c, top_class h0 c <-> top_class h c) by (intros c; unfold top_class; setoid_rewrite (cls_sub h h0); reflexivity).
    revert Q2'. generalize (map (hd 0%nat) css). intros l K. induction K; constructor; auto; rewrite <- Te; assumption. }
  assert (Fp : Forall2 (Forall2 (fun c r => exists k, nth_error cs k = Some c /\ nth_error tg k = Some r)) css rows).
  { clear -Q3 Q4. revert rows Q3 Q4. induction css as [|ch css IH]; intros [|row rows] Q3 Q4; try discriminate; [constructor|]. cbn [map] in Q3. injection Q3 as L Q3. constructor.
    - assert (K : forall j r c, nth_error row j = Some r -> nth_error ch j = Some c -> exists k, nth_error cs k = Some c /\ nth_error tg k = Some r) by (intros j r c Hr Hc; apply (Q4 0%nat row ch j r c); auto).
      clear -L K. revert row L K. induction ch as [|c ch IH]; intros [|r row] L K; try discriminate; constructor.
      + apply (K 0%nat); reflexivity.
      + apply IH; [injection L as ->; reflexivity|]. intros j x y Hx Hy. apply (K (Datatypes.S j)); assumption.
    - apply IH; [exact Q3|]. intros i g c j x y Hg Hc Hx Hy. apply (Q4 (Datatypes.S i) g c j x y); assumption. }
  assert (Rd : Forall2 (readable h lo hi) rows css).
  { assert (Ic : forall ch, In ch css -> In ch chs) by (intros ch; apply (Permutation_in _ Q1)). clear -Fp R Ic. induction Fp as [|ch row css rows F1 Fp IH]; constructor; [apply R; [apply Ic; simpl; auto|exact F1]|]. apply IH. intros x Hx. apply Ic. simpl; auto. }
  assert (Pc : Permutation (concat css) cs).
  { rewrite P. clear -Q1. induction Q1; cbn [concat]; [reflexivity|apply Permutation_app_head; assumption|rewrite !app_assoc; apply Permutation_app_tail, Permutation_app_comm|etransitivity; eauto]. }
  assert (Si : some_intervals h rows css).
  { destruct css as [|ch css]; [apply Permutation_nil in Q1; subst chs; cbn in L2; lia|]. destruct rows as [|row rows]; [inversion Fp|]. exists row, ch. split; [left; reflexivity|].
    destruct (Ch ch) as (t & b & C); [apply (Permutation_in _ Q1); simpl; auto|]. destruct C as (_ & Nc & _ & _ & C5 & _). inversion Rd as [|x y z w Rr _]; subst. destruct Rr as (L & _).
    destruct ch as [|c ch]; [congruence|]. destruct row as [|x row]; [discriminate|]. unfold interval_part. cbn [combine List.filter snd]. rewrite C5 by (simpl; auto). discriminate. }
  destruct (grid_made n lo hi h tg (Flat cs) rows css T) as (f & a & h' & E' & G & T').
  - intros ->. cbn in Lt. destruct cs; [|cbn in Lt; lia]. apply Permutation_nil in P. destruct chs as [|ch chs]; [cbn in L2; lia|]. destruct (Ch ch) as (t & b & C); [simpl; auto|]. destruct C as (_ & Nc & _). cbn [concat] in P. apply app_eq_nil in P. tauto.
  - exact E.
  - exact Rd.
  - intros c d Hc Hd. apply Na; apply (Permutation_in _ Pc); assumption.
  - exact Si.
  - destruct Lh as [Gp|[Pos Ln]].
    + left. intros r Hr. apply Gp. apply in_concat in Hr. destruct Hr as (row & Hrow & Hr). destruct (F2_in _ _ _ row Fp Hrow) as (ch & _ & Fr). destruct (F2_in _ _ _ r Fr Hr) as (c & _ & k & _ & K). eapply nth_error_In; eauto.
    + right. split; [exact Pos|]. intros row Hrow. destruct (F2_in _ _ _ row Fp Hrow) as (ch & Hch & Fr). rewrite <- (Forall2_length _ _ _ Fr). apply Ln. apply (Permutation_in _ Q1 Hch).
  - exists f, a, h', rows, css. auto 10.
Qed.

(** No gaps: the grid is as the file has it. *)
Lemma c53_nested : forall (n : nat) (h : heap) (rows : list (list rawtier)) (css : list (list cid)) (rest : list rawtier) (lo hi : Z),
  class_table h -> Forall2 (readable h lo hi) rows css -> names_apart h (concat css) -> some_intervals h rows css -> gapless (concat rows) ->
  exists f a h', new_grid_textgrid n (concat rows ++ rest) (Nested css) h = Ok a h' /\ grid_read lo hi f h h' rows css a /\ class_table h'.
Proof.
  intros n h rows css rest lo hi T F Na Si Gp. destruct (any_nested n h rows css rest lo hi T F Na Si (or_introl Gp)) as (f & a & h' & E & G & T').
  exists f, a, h'. split; [exact E|]. split; [apply gapless_read; assumption|exact T'].
Qed.
Lemma c53_flat : forall (n : nat) (h : heap) (rows : list (list rawtier)) (rest : list rawtier) (t : cid) (cs : list cid) (b : cid) (given : list cid) (lo hi : Z),
  class_table h -> class_chain h t cs b -> Permutation given cs -> names_apart h cs ->
  rows <> [] -> (forall row, In row rows -> readable h lo hi row given) -> (List.length rest < List.length given)%nat -> gapless (concat rows) ->
  exists f a h', new_grid_textgrid n (concat rows ++ rest) (Flat given) h = Ok a h' /\
    grid_read lo hi f h h' rows (repeat given (List.length rows)) a /\ class_table h'.
Proof.
  intros n h rows rest t cs b given lo hi T C P Na Nr R Lr Gp. destruct (any_flat n h rows rest t cs b given lo hi T C P Na Nr R Lr (or_introl Gp)) as (f & a & h' & E & G & T').
  exists f, a, h'. split; [exact E|]. split; [apply gapless_read; assumption|exact T'].
Qed.
Lemma c53_chains : forall (n : nat) (h : heap) (tg : list rawtier) (cs : list cid) (chs : list (list cid)) (lo hi : Z),
  class_table h -> (forall ch, In ch chs -> exists t b, class_chain h t ch b) -> Permutation cs (concat chs) -> NoDup cs -> (2 <= List.length chs)%nat ->
  (List.length cs <= List.length tg)%nat -> names_apart h cs -> gapless tg ->
  (forall ch row, In ch chs -> Forall2 (fun c r => exists k, nth_error cs k = Some c /\ nth_error tg k = Some r) ch row -> readable h lo hi row ch) ->
  exists f a h' rows css, new_grid_textgrid n tg (Flat cs) h = Ok a h' /\ Permutation css chs /\ keep_if (top_class h) cs (map (hd 0%nat) css) /\
    Forall2 (Forall2 (fun c r => exists k, nth_error cs k = Some c /\ nth_error tg k = Some r)) css rows /\
    grid_read lo hi f h h' rows css a /\ class_table h'.
Proof.
  intros n h tg cs chs lo hi T Ch P Nd L2 Lt Na Gp R. destruct (any_chains n h tg cs chs lo hi T Ch P Nd L2 Lt Na (or_introl Gp) R) as (f & a & h' & rows & css & E & Q1 & Q2 & Fp & G & T').
  exists f, a, h', rows, css. split; [exact E|]. split; [exact Q1|]. split; [exact Q2|]. split; [exact Fp|]. split; [|exact T']. apply gapless_read; [|exact G].
  intros r Hr. apply Gp. apply in_concat in Hr. destruct Hr as (row & Hrow & Hr). destruct (F2_in _ _ _ row Fp Hrow) as (ch & _ & Fr). destruct (F2_in _ _ _ r Fr Hr) as (c & _ & k & _ & K). eapply nth_error_In; eauto.
Qed.
(** Plugged, the entries leave no gap, and those there were are still there. *)
Lemma c65_plugged : forall (lo hi : Z) (l : list entry), raw_turns lo l hi ->
  raw_tiles lo (plugged l) hi /\ exists keep : list bool, List.length keep = List.length (plugged l) /\
    map fst (List.filter snd (combine (plugged l) keep)) = l /\ forall e, In (e, false) (combine (plugged l) keep) -> exists s m, e = ERaw (Some s) (Some m) EmptyString.
Proof.
  intros lo hi l Q. split; [apply plugged_tiles, Q|]. clear Q. induction l as [|e l (keep & K1 & K2 & K3)]; [exists []; repeat split; intros e []|].
  assert (One : exists keep, List.length keep = List.length (e :: plugged l) /\ map fst (List.filter snd (combine (e :: plugged l) keep)) = e :: l /\ forall x, In (x, false) (combine (e :: plugged l) keep) -> exists s m, x = ERaw (Some s) (Some m) EmptyString).
  { exists (true :: keep). cbn [List.length combine List.filter snd map fst]. split; [lia|]. split; [rewrite K2; reflexivity|]. intros x [X|X]; [discriminate|apply K3, X]. }
  cbn [plugged]. destruct e as [o|a [m|] x]; try exact One. destruct l as [|[o|[s|] m' y] l']; try exact One. destruct (m <? s); [|exact One].
  exists (true :: false :: keep). cbn [List.length combine List.filter snd map fst]. split; [cbn [List.length] in K1; lia|]. split; [rewrite K2; reflexivity|]. intros z [X|[X|X]]; [discriminate|injection X as <-; eauto|apply K3, X].
Qed.
(** Gaps: every tier group with one is plugged. *)
Lemma c65_nested : forall (n : nat) (h : heap) (rows : list (list rawtier)) (css : list (list cid)) (rest : list rawtier) (lo hi : Z),
  class_table h -> Forall2 (readable h lo hi) rows css -> names_apart h (concat css) -> some_intervals h rows css ->
  0 < lo -> (forall row, In row rows -> (List.length row <= n)%nat) ->
  exists f a h', new_grid_textgrid n (concat rows ++ rest) (Nested css) h = Ok a h' /\ grid_as (either_group lo hi f h h') f h h' rows css a /\ class_table h'.
Proof. intros n h rows css rest lo hi T F Na Si Pos Ln. apply any_nested; auto. Qed.
Lemma c65_flat : forall (n : nat) (h : heap) (rows : list (list rawtier)) (rest : list rawtier) (t : cid) (cs : list cid) (b : cid) (given : list cid) (lo hi : Z),
  class_table h -> class_chain h t cs b -> Permutation given cs -> names_apart h cs ->
  rows <> [] -> (forall row, In row rows -> readable h lo hi row given) -> (List.length rest < List.length given)%nat ->
  0 < lo -> (List.length cs <= n)%nat ->
  exists f a h', new_grid_textgrid n (concat rows ++ rest) (Flat given) h = Ok a h' /\
    grid_as (either_group lo hi f h h') f h h' rows (repeat given (List.length rows)) a /\ class_table h'.
Proof. intros n h rows rest t cs b given lo hi T C P Na Nr R Lr Pos Ln. apply (any_flat n h rows rest t cs b); auto. Qed.
Lemma c65_chains : forall (n : nat) (h : heap) (tg : list rawtier) (cs : list cid) (chs : list (list cid)) (lo hi : Z),
  class_table h -> (forall ch, In ch chs -> exists t b, class_chain h t ch b) -> Permutation cs (concat chs) -> NoDup cs -> (2 <= List.length chs)%nat ->
  (List.length cs <= List.length tg)%nat -> names_apart h cs ->
  0 < lo -> (forall ch, In ch chs -> (List.length ch <= n)%nat) ->
  (forall ch row, In ch chs -> Forall2 (fun c r => exists k, nth_error cs k = Some c /\ nth_error tg k = Some r) ch row -> readable h lo hi row ch) ->
  exists f a h' rows css, new_grid_textgrid n tg (Flat cs) h = Ok a h' /\ Permutation css chs /\ keep_if (top_class h) cs (map (hd 0%nat) css) /\
    Forall2 (Forall2 (fun c r => exists k, nth_error cs k = Some c /\ nth_error tg k = Some r)) css rows /\
    grid_as (either_group lo hi f h h') f h h' rows css a /\ class_table h'.
Proof. intros n h tg cs chs lo hi T Ch P Nd L2 Lt Na Pos Ln R. apply (any_chains n h tg cs chs lo hi); auto. Qed.
End Given.
