(** * CleanFinal: cleaning up a group. *)
From Verif Require Export CleanDownFinal.
From Verif Require Import GapFinal ReadSpec WeaveFinal OwnFinal ClassFinal PointFinal ReadClasses ReadMade RelateFinal GrowFinal.
From Verif Require Import CleanSpec.
From Coq Require Import Sorting.Sorted.
Open Scope Z_scope.

Section WithEnv.
Context `{Env}.
Opaque span_of.

(** ** Parents and children in a group *)
Lemma kin_down h : forall ts bss, snug h ts bss -> related_tiers h ts bss -> forall k u t p, nth_error ts k = Some u -> nth_error ts (S k) = Some t ->
  In p (t_seq (tob h u)) -> fills h p (s_subset (sob h p)) /\ forall y, In y (s_subset (sob h p)) -> In y (t_seq (tob h t)) /\ s_super (sob h y) = Some p.
Proof.
  induction ts as [|a ts IH]; intros bss Sn R k u t p Hu Ht Hp; [destruct k; discriminate|]. destruct ts as [|b ts]; [destruct k; discriminate|].
  destruct bss as [|bs bss]; [destruct Sn|]. rewrite snug_cons in Sn. rewrite related_cons in R. destruct Sn as (S1 & S2 & S3), R as (R1 & R2).
  destruct k as [|k]; [|exact (IH bss S3 R2 k u t p Hu Ht Hp)]. injection Hu as ->. injection Ht as ->.
  apply In_nth_error in Hp. destruct Hp as [i Hp]. destruct (nth_error bs i) as [c|] eqn:Hc.
  2:{ apply nth_error_None in Hc. assert (i < List.length (t_seq (tob h u)))%nat by (apply nth_error_Some; congruence). apply Forall2_length in S2. lia. }
  destruct (GroupFinal.Forall2_nth _ _ _ S2 i p c Hp Hc) as (s & e & F). destruct (GroupFinal.Forall2_nth _ _ _ R1 i p c Hp Hc) as (-> & _ & P).
  split; [exists s, e; exact F|]. intros y Hy. split; [|apply P, Hy]. rewrite <- S1. apply in_concat. exists c. split; [eapply nth_error_In; eauto|exact Hy].
Qed.
Lemma kin_up h : forall ts bss, snug h ts bss -> related_tiers h ts bss -> forall k t x, nth_error ts (S k) = Some t -> In x (t_seq (tob h t)) ->
  exists u p, nth_error ts k = Some u /\ In p (t_seq (tob h u)) /\ s_super (sob h x) = Some p /\ In x (s_subset (sob h p)).
Proof.
  induction ts as [|a ts IH]; intros bss Sn R k t x Ht Hx; [discriminate|]. destruct ts as [|b ts]; [destruct k; discriminate|].
  destruct bss as [|bs bss]; [destruct Sn|]. rewrite snug_cons in Sn. rewrite related_cons in R. destruct Sn as (S1 & S2 & S3), R as (R1 & R2).
  destruct k as [|k]; [|exact (IH bss S3 R2 k t x Ht Hx)]. injection Ht as ->. rewrite <- S1 in Hx. apply in_concat in Hx. destruct Hx as (c & Hc & Hx).
  apply In_nth_error in Hc. destruct Hc as [i Hc]. destruct (nth_error (t_seq (tob h a)) i) as [p|] eqn:Hp.
  2:{ apply nth_error_None in Hp. assert (i < List.length bs)%nat by (apply nth_error_Some; congruence). apply Forall2_length in S2. lia. }
  destruct (GroupFinal.Forall2_nth _ _ _ R1 i p c Hp Hc) as (Q & _ & P). exists a, p. split; [reflexivity|]. split; [eapply nth_error_In; eauto|]. split; [apply P, Hx|]. rewrite Q. exact Hx.
Qed.
(** Every parent is in the tier above. *)
Lemma kin_any h g ts bss t x p : good_group h g ts bss -> In t ts -> In x (t_seq (tob h t)) -> s_super (sob h x) = Some p ->
  exists k u, nth_error ts k = Some u /\ nth_error ts (S k) = Some t /\ In p (t_seq (tob h u)) /\ In x (s_subset (sob h p)).
Proof.
  intros G Ht Hx Hp. destruct G as (_ & _ & _ & _ & _ & _ & Sn & R & _ & Tp). apply In_nth_error in Ht. destruct Ht as [[|k] Hk].
  - exfalso. destruct (Tp t) as [_ Q]; [destruct ts; [discriminate|exact Hk]|]. destruct (Q x Hx) as [_ Q2]. congruence.
  - destruct (kin_up h ts bss Sn R k t x Hk Hx) as (u & q & A & B & C & D). assert (q = p) by congruence. subst q. exists k, u. auto.
Qed.
Lemma good_turn h : forall ts bss, snug h ts bss -> (forall t, hd_error ts = Some t -> in_turn h (t_seq (tob h t)) /\ forall x, In x (t_seq (tob h t)) -> dated h x) ->
  forall t, In t ts -> in_turn h (t_seq (tob h t)) /\ forall x, In x (t_seq (tob h t)) -> dated h x.
Proof.
  induction ts as [|a ts IH]; intros bss Sn Tp t Ht; [destruct Ht|]. destruct ts as [|b ts].
  { destruct Ht as [->|[]]. apply Tp. reflexivity. }
  destruct bss as [|bs bss]; [destruct Sn|]. rewrite snug_cons in Sn. destruct Sn as (S1 & S2 & S3). destruct Ht as [->|Ht]; [apply Tp; reflexivity|].
  apply (IH bss S3); [|exact Ht]. intros v Hv. injection Hv as <-. rewrite <- S1. split.
  - apply (fills_in_turn h _ _ S2). apply Tp. reflexivity.
  - intros x Hx. apply in_concat in Hx. destruct Hx as (c & Hc & Hx). destruct (Forall2_in_r _ _ _ c S2 Hc) as (p & _ & s & e & _ & _ & _ & T).
    apply (GroupFinal.tiles_in h c s e x T Hx).
Qed.
Lemma good_turns h g ts bss : good_group h g ts bss -> forall t, In t ts -> in_turn h (t_seq (tob h t)) /\ forall x, In x (t_seq (tob h t)) -> dated h x.
Proof.
  intros (_ & _ & _ & _ & _ & _ & Sn & _ & _ & Tp). apply (good_turn h ts bss Sn). intros t Ht. destruct (Tp t Ht) as [A B]. split; [exact A|]. intros x Hx. apply (B x Hx).
Qed.
Lemma nth_removelast {A} (l : list A) k u t : nth_error l k = Some u -> nth_error l (S k) = Some t -> In u (removelast l).
Proof.
  revert k. induction l as [|a l IH]; intros k Hu Ht; [destruct k; discriminate|]. destruct l as [|b l]; [destruct k; discriminate|].
  destruct k as [|k]; [injection Hu as ->; simpl; auto|]. right. apply (IH k); auto.
Qed.
Lemma removelast_nth {A} (l : list A) u : In u (removelast l) -> exists k t, nth_error l k = Some u /\ nth_error l (S k) = Some t.
Proof.
  induction l as [|a l IH]; intros Hu; [destruct Hu|]. destruct l as [|b l]; [destruct Hu|]. destruct Hu as [->|Hu]; [exists 0%nat, b; auto|].
  destruct (IH Hu) as (k & t & A1 & A2). exists (S k), t. auto.
Qed.
(** Nothing outside the tiers is involved in relating them. *)
Lemma not_involved h g ts bss i : good_group h g ts bss -> (forall t, In t ts -> ~ In i (t_seq (tob h t))) -> ~ involved h ts i.
Proof.
  intros G N (t & x & Ht & Hx & [-> | (p & Hp & Q)]); [apply (N t Ht Hx)|]. destruct (kin_any h g ts bss t x p G Ht Hx Hp) as (k & u & A & B & C & D).
  destruct Q as [->|Q]; [apply (N u (nth_error_In _ _ A) C)|]. pose proof G as (_ & _ & _ & _ & _ & _ & Sn & R & _).
  destruct (kin_down h ts bss Sn R k u t p A B C) as [_ K]. destruct (K i Q) as [K1 _]. apply (N t Ht K1).
Qed.
Lemma tiles_once h l : forall a b u v s e, tiles h a l b -> In u l -> In v l -> s < e ->
  fst (span_of h u) <= s -> e <= snd (span_of h u) -> fst (span_of h v) <= s -> e <= snd (span_of h v) -> u = v.
Proof.
  induction l as [|x l IH]; intros a b u v s e T Hu Hv L U1 U2 V1 V2; [destruct Hu|]. destruct T as (m & T1 & T2 & T3 & T4).
  destruct (dated_by h x a m T1 T2 T3) as [_ Sx].
  destruct Hu as [->|Hu], Hv as [->|Hv]; [reflexivity| | |eapply IH; eauto].
  - destruct (GroupFinal.tiles_in h l m b v T4 Hv) as (_ & Q & _). rewrite Sx in *. cbn in *. lia.
  - destruct (GroupFinal.tiles_in h l m b u T4 Hu) as (_ & Q & _). rewrite Sx in *. cbn in *. lia.
Qed.
Lemma tiles_twice h : forall l l' a b, tiles h a l b -> tiles h a l' b -> (forall x, In x l -> In x l') -> l = l'.
Proof.
  induction l as [|x l IH]; intros l' a b T T' I.
  - cbn in T. subst b. destruct l' as [|y l']; [reflexivity|]. exfalso. destruct T' as (m & A & B & C & D). destruct l' as [|z l']; [cbn in D; lia|].
    destruct (GroupFinal.tiles_in h (z :: l') m a z D ltac:(simpl; auto)) as ((_ & _ & Q) & Q1 & Q2). lia.
  - destruct l' as [|y l']; [exfalso; apply (I x); simpl; auto|].
    assert (x = y).
    { apply (tiles_distinct h (y :: l') a b T'); [apply I; simpl; auto|simpl; auto|]. destruct T as (m & -> & _), T' as (m' & -> & _). reflexivity. }
    subst y. destruct T as (m & A & B & C & D), T' as (m' & A' & B' & C' & D'). assert (m' = m) by congruence. subst m'. f_equal. apply (IH l' m b D D').
    intros z Hz. destruct (I z ltac:(simpl; auto)) as [->|Q]; [|exact Q]. exfalso.
    destruct (GroupFinal.tiles_in h l m b z D Hz) as ((Q1 & _) & Q2 & _). rewrite Q1 in A. injection A as A. lia.
Qed.

(** ** Relating a group in order changes nothing that shows *)
Definition steady (g : gid) (ts : list tid) (h h' : heap) : Prop :=
  all_else_kept h h' g ts /\ forall t, tob h' t = tob h t.
Lemma steady_relate n h g ts bss : good_group h g ts bss ->
  exists h', re_relate n g h = Ok tt h' /\ good_group h' g ts bss /\ steady g ts h h'.
Proof.
  intros G. pose proof (good_fit h g ts bss G) as Fit. pose proof G as (G1 & G2 & G3 & G4 & C & J & Sn & R & Wi & Tp).
  destruct (c49_stable n h g ts bss G) as (h' & E & G' & An & _ & _ & Su).
  assert (X : exists h', re_relate n g h = Ok tt h' /\ List.length (h_grp h') = List.length (h_grp h) /\ (forall k, k <> g -> gob h' k = gob h k) /\ g_within (gob h' g) = g_within (gob h g)).
  { destruct (c49_again n h g ts bss) as (h2 & E2 & _ & _ & Q1 & Q2 & Q3 & _); auto; [rewrite G3; apply Permutation_refl| |exists h2; auto].
    intros t Ht. destruct (Tp t Ht) as (T1 & T2). split; [exact T1|]. intros x Hx. apply (T2 x Hx). }
  destruct X as (h2 & E2 & Q1 & Q2 & Q3). rewrite E in E2. injection E2 as <-.
  exists h'. split; [exact E|]. split; [exact G'|]. pose proof An as (A1 & A2 & A3 & A4 & A5 & A6 & A7 & A8 & A9 & A10).
  assert (Tk : forall t, tob h' t = tob h t).
  { intros t. destruct (in_dec Nat.eq_dec t ts) as [Ht|Ht]; [|apply A8, Ht]. rewrite (A9 t Ht). destruct (Wi t Ht) as [W _]. destruct (tob h t); cbn in *; subst; reflexivity. }
  split; [|exact Tk]. pose proof G' as (_ & _ & _ & _ & _ & _ & Sn' & R' & _ & _).
  assert (Sup : forall i, (i < List.length (h_seq h))%nat -> s_super (sob h' i) = s_super (sob h i) /\ s_subset (sob h' i) = s_subset (sob h i)).
  { intros i Hi. split.
    - destruct (List.Exists_dec (fun t => In i (t_seq (tob h t))) ts (fun t => in_dec Nat.eq_dec i (t_seq (tob h t)))) as [X|X].
      + apply List.Exists_exists in X. destruct X as (t & Ht & Hx). apply (Su t i Ht Hx).
      + rewrite A2; [reflexivity|exact Hi|]. apply (not_involved h g ts bss i G). intros t Ht Hx. apply X. apply List.Exists_exists. exists t. auto.
    - destruct (List.Exists_dec (fun t => In i (t_seq (tob h t))) (removelast ts) (fun t => in_dec Nat.eq_dec i (t_seq (tob h t)))) as [X|X].
      + apply List.Exists_exists in X. destruct X as (u & Hu & Hx). apply removelast_nth in Hu. destruct Hu as (k & t & Hk & Hk').
        destruct (kin_down h ts bss Sn R k u t i Hk Hk' Hx) as [(s & e & F1 & F2 & F3 & F4) Kd].
        destruct (kin_down h' ts bss Sn' R' k u t i Hk Hk') as [(s' & e' & F1' & F2' & F3' & F4') _]; [rewrite Tk; exact Hx|].
        destruct (A1 i Hi) as (_ & B1 & B2 & _). assert (s' = s) by congruence. assert (e' = e) by congruence. subst s' e'. symmetry.
        apply (tiles_twice h' _ _ s e); [|exact F4'|].
        * apply (tiles_same h h'); [|exact F4]. intros y Hy. destruct (Kd y Hy) as [Y1 _]. destruct (Wi t (nth_error_In _ _ Hk')) as (_ & (_ & Lk) & _).
          destruct (Lk y Y1) as (Ly & _). destruct (A1 y Ly) as (_ & Z1 & Z2 & _). auto.
        * intros y Hy. destruct (Kd y Hy) as [Y1 Y2]. destruct (kin_up h' ts bss Sn' R' k t y Hk') as (u' & p & V1 & V2 & V3 & V4); [rewrite Tk; exact Y1|].
          rewrite (Su t y (nth_error_In _ _ Hk') Y1), Y2 in V3. injection V3 as <-. exact V4.
      + apply A10; [exact Hi| |].
        * intros t Ht Hx. apply X. apply List.Exists_exists. exists t. auto.
        * intros t x Ht Hx Q. destruct (kin_any h g ts bss t x i G Ht Hx Q) as (k & u & K1 & K2 & K3 & _). apply X. apply List.Exists_exists.
          exists u. split; [eapply nth_removelast; eauto|exact K3]. }
  split; [intros t Ht; rewrite Tk; auto|]. split; [intros t Ht; apply Tk|]. split; [exact A7|]. split.
  { intros i Hi. destruct (A1 i Hi) as (B1 & B2 & B3 & B4 & B5). destruct (Sup i Hi) as [B6 B7]. auto 10. }
  split; [intros i Hi Ni; apply A2; [exact Hi|apply (not_involved h g ts bss i G Ni)]|]. auto 10.
Qed.

(** ** Relating a group after filling its gaps *)
Lemma refilled_snug h h' all : refilled h h' all -> forall ts bss, (forall t, In t ts -> In t all /\ in_turn h (t_seq (tob h t)) /\ forall x, In x (t_seq (tob h t)) -> dated h x) ->
  snug h ts bss -> exists bss', snug h' ts bss'.
Proof.
  intros R. induction ts as [|t ts IH]; intros bss Hts Sn; [destruct bss; destruct Sn|]. destruct ts as [|u ts].
  { exists []. exact I. }
  destruct bss as [|bs bss]; [destruct Sn|]. rewrite snug_cons in Sn. destruct Sn as (S1 & S2 & S3).
  destruct (IH bss) as (bss' & Q); [intros v Hv; apply Hts; simpl in *; auto|exact S3|].
  destruct (Hts t ltac:(simpl; auto)) as (It & Tt & Dt). destruct (Hts u ltac:(simpl; auto)) as (Iu & _).
  destruct (filled_pair h h' _ _ (t_seq (tob h' t)) (t_seq (tob h' u)) bs Tt Dt S1 S2) as (bs' & Q1 & Q2); try (apply R; assumption).
  - intros x Hx. apply (rf_live _ _ _ R t x It Hx).
  - intros x Hx. apply (rf_live _ _ _ R u x Iu Hx).
  - exists (bs' :: bss'). rewrite snug_cons. auto.
Qed.
Lemma refilled_old h h' ts t x : refilled h h' ts -> In t ts -> In x (t_seq (tob h' t)) -> (x < List.length (h_seq h))%nat -> In x (t_seq (tob h t)).
Proof.
  intros R Ht Hx Lx. destruct (rf_put _ _ _ R t Ht) as (_ & <- & _). apply filter_In. split; [exact Hx|apply Nat.ltb_lt, Lx].
Qed.
Lemma refilled_in h h' ts t x : refilled h h' ts -> In t ts -> In x (t_seq (tob h t)) -> In x (t_seq (tob h' t)).
Proof. intros R Ht Hx. destruct (rf_put _ _ _ R t Ht) as (_ & Q & _). rewrite <- Q in Hx. apply filter_In in Hx. apply Hx. Qed.
Lemma refilled_fit h h' g ts bss : good_group h g ts bss -> refilled h h' ts -> forall t, In t ts -> fit_tier h' t.
Proof.
  intros G R t Ht. destruct (good_fit h g ts bss G t Ht) as ((N & Lk) & Np & Fi). destruct (refilled_within _ _ _ R t) as (_ & Ec & _).
  destruct (rf_put _ _ _ R t Ht) as ((x0 & y0 & a & b & _ & _ & _ & _ & T) & F & P & _). unfold fit_tier. rewrite Ec. split; [split|split].
  - apply (turn_nodup h'); [eapply tiles_in_turn; eauto|]. intros y Hy. apply (rf_live _ _ _ R t y Ht Hy).
  - intros x Hx. destruct (Nat.lt_ge_cases x (List.length (h_seq h))) as [Q|Q].
    + destruct (Lk x (refilled_old h h' ts t x R Ht Hx Q)) as (A & B & C). rewrite (rf_old _ _ _ R x Q). split; [|auto]. pose proof (rf_len _ _ _ R). lia.
    + destruct (P x Hx Q) as (A & B & _). split; [apply (rf_live _ _ _ R t x Ht Hx)|]. split; [exact A|]. rewrite B. discriminate.
  - rewrite (issubclass_ext h h') by apply R. exact Np.
  - intros x Hx. destruct (Nat.lt_ge_cases x (List.length (h_seq h))) as [Q|Q].
    2:{ destruct (rf_new _ _ _ R t x Ht Hx Q) as [A _]. intros p Hp. congruence. }
    intros p Hp. rewrite (rf_old _ _ _ R x Q) in Hp. destruct (Fi x (refilled_old h h' ts t x R Ht Hx Q) p Hp) as (A & B & C & D1 & D2).
    pose proof (rf_len _ _ _ R) as Le. split; [lia|]. split; [exact B|]. unfold brood. rewrite (rf_old _ _ _ R p A). split; [exact C|]. split; [exact D1|].
    intros y Hy. destruct (D2 y Hy) as (E1 & E2 & E3 & E4). rewrite (rf_old _ _ _ R y E1). split; [lia|]. split; [exact E2|]. split; [exact E3|].
    intros z Hz. destruct (D2 z Hz) as (Lz & _). destruct (E4 z Hz) as [E5 E6]. rewrite (rf_old _ _ _ R z Lz). split; [exact E5|]. intros (V1 & V2 & V3 & V4). apply E6.
    assert (Pt : forall w, (w < List.length (h_seq h))%nat -> is_point h' w = is_point h w).
    { intros w Lw. unfold is_point, is_point_cls. rewrite (rf_old _ _ _ R w Lw). apply issubclass_ext, R. }
    rewrite (Pt y E1), (Pt z Lz) in *. rewrite (rf_old _ _ _ R y E1), (rf_old _ _ _ R z Lz) in *. split; [exact V1|]. auto.
Qed.
Lemma refill_relate n h h1 g ts bss : good_group h g ts bss -> refilled h h1 ts ->
  exists h' bss', re_relate n g h1 = Ok tt h' /\ good_group h' g ts bss' /\ all_else_kept h h' g ts /\ (forall t, In t ts -> blanks_put h h' t).
Proof.
  intros G R. pose proof G as (G1 & G2 & G3 & G4 & C & J & Sn & Re & Wi & Tp). pose proof (good_turns h g ts bss G) as Tu.
  pose proof (refilled_fit h h1 g ts bss G R) as Fit. pose proof (refilled_within _ _ _ R) as Rw. pose proof (rf_len _ _ _ R) as Le.
  destruct (refilled_snug h h1 ts R ts bss ltac:(auto) Sn) as (bss' & Sn1).
  assert (Eg : gob h1 g = gob h g) by (unfold gob; rewrite (rf_grp _ _ _ R); reflexivity).
  destruct (c49_again n h1 g ts bss') as (h' & E & G' & An & Q1 & Q2 & Q3 & _).
  - rewrite (rf_grp _ _ _ R). exact G1.
  - rewrite Eg. exact G2.
  - rewrite Eg, G3. apply Permutation_refl.
  - apply (RelateFinal.tier_chain_same h h1); auto; try apply R. intros t Ht. destruct (Rw t) as (_ & A & B & D & _). auto.
  - apply (RelateFinal.classes_joined_same h h1); auto; try apply R. intros t Ht. apply Rw.
  - exact Fit.
  - exact Sn1.
  - intros t Ht. assert (It : In t ts) by (apply hd_in, Ht). destruct (rf_put _ _ _ R t It) as ((x0 & y0 & a & b & _ & _ & _ & _ & T) & _).
    split; [eapply tiles_in_turn; eauto|]. intros x Hx. apply (rf_live _ _ _ R t x It Hx).
  - exists h', bss'. split; [exact E|]. split; [exact G'|]. pose proof An as (A1 & A2 & A3 & A4 & A5 & A6 & A7 & A8 & A9 & A10).
    pose proof G' as (_ & _ & _ & _ & _ & _ & Sn' & Re' & Wi' & Tp').
    assert (Tk : forall t, t_seq (tob h' t) = t_seq (tob h1 t) /\ t_ec (tob h' t) = t_ec (tob h1 t) /\ t_super (tob h' t) = t_super (tob h1 t) /\
      t_sub (tob h' t) = t_sub (tob h1 t) /\ t_name (tob h' t) = t_name (tob h1 t)).
    { intros t. destruct (in_dec Nat.eq_dec t ts) as [Ht|Ht]; [rewrite (A9 t Ht)|rewrite (A8 t Ht)]; auto. }
    assert (Ts : forall t, t_seq (tob h' t) = t_seq (tob h1 t)) by (intros t; apply Tk).
    assert (Vl : forall x, (x < List.length (h_seq h1))%nat -> s_cls (sob h' x) = s_cls (sob h1 x) /\ s_start (sob h' x) = s_start (sob h1 x) /\ s_end (sob h' x) = s_end (sob h1 x) /\ s_label (sob h' x) = s_label (sob h1 x)).
    { intros x Hx. destruct (A1 x Hx) as (B1 & B2 & B3 & B4 & _). auto. }
    assert (Vo : forall x, (x < List.length (h_seq h))%nat -> s_cls (sob h' x) = s_cls (sob h x) /\ s_start (sob h' x) = s_start (sob h x) /\ s_end (sob h' x) = s_end (sob h x) /\ s_label (sob h' x) = s_label (sob h x)).
    { intros x Hx. rewrite <- (rf_old _ _ _ R x Hx). apply Vl. lia. }
    assert (Bl : forall t, In t ts -> blanks_put h h' t).
    { intros t Ht. destruct (rf_put _ _ _ R t Ht) as ((x & y & a & b & P1 & P2 & P3 & P4 & P5) & P6 & P7 & Pc). unfold blanks_put. rewrite Ts. split; [|split; [exact P6|split; [|rewrite (A9 t Ht); exact Pc]]].
      - exists x, y, a, b. split; [exact P1|]. split; [exact P2|]. split; [exact P3|]. split; [exact P4|]. apply (tiles_same h1 h'); [|exact P5].
        intros z Hz. destruct (Vl z) as (_ & B2 & B3 & _); [apply (rf_live _ _ _ R t z Ht Hz)|]. auto.
      - intros z Hz Lz. destruct (Vl z) as (B1 & B2 & B3 & B4); [apply (rf_live _ _ _ R t z Ht Hz)|]. rewrite B1, B2, B3, B4. apply (P7 z Hz Lz). }
    split; [|exact Bl].
    assert (Lo : forall t x, In t ts -> In x (t_seq (tob h t)) -> (x < List.length (h_seq h))%nat).
    { intros t x Ht Hx. destruct (Wi t Ht) as (_ & (_ & Lk) & _). apply (Lk x Hx). }
    assert (Inn : forall t x, In t ts -> In x (t_seq (tob h t)) -> In x (t_seq (tob h' t))) by (intros t x Ht Hx; rewrite Ts; apply (refilled_in h h1 ts t x R Ht Hx)).
    (* the parents *)
    assert (Su : forall t x, In t ts -> In x (t_seq (tob h t)) -> s_super (sob h' x) = s_super (sob h x)).
    { intros t x Ht Hx. pose proof Ht as Ht0. apply In_nth_error in Ht0. destruct Ht0 as [[|k] Hk].
      - assert (Hd : hd_error ts = Some t) by (destruct ts; [discriminate|exact Hk]). destruct (Tp t Hd) as [_ B]. destruct (Tp' t Hd) as [_ B'].
        destruct (B x Hx) as [_ ->]. destruct (B' x (Inn t x Ht Hx)) as [_ ->]. reflexivity.
      - destruct (kin_up h ts bss Sn Re k t x Hk Hx) as (u & p & U1 & U2 & U3 & U4). destruct (kin_up h' ts bss' Sn' Re' k t x Hk (Inn t x Ht Hx)) as (u' & p' & V1 & V2 & V3 & V4).
        assert (u' = u) by congruence. subst u'. rewrite U3, V3. f_equal. assert (Hu : In u ts) by (eapply nth_error_In; eauto).
        destruct (Bl u Hu) as ((x0 & y0 & a & b & _ & _ & _ & _ & T) & _).
        destruct (kin_down h ts bss Sn Re k u t p U1 Hk U2) as [(s & e & F1 & F2 & F3 & F4) _]. destruct (kin_down h' ts bss' Sn' Re' k u t p' V1 Hk V2) as [(s' & e' & F1' & F2' & F3' & F4') _].
        destruct (GroupFinal.tiles_in h _ s e x F4 U4) as ((X1 & X2 & X3) & X4 & X5). destruct (GroupFinal.tiles_in h' _ s' e' x F4' V4) as ((X1' & X2' & X3') & X4' & X5').
        destruct (Vo x (Lo t x Ht Hx)) as (_ & B2 & B3 & _). destruct (Vo p (Lo u p Hu U2)) as (_ & C2 & C3 & _).
        destruct (dated_by h' p s e ltac:(congruence) ltac:(congruence) F3) as [_ Sp]. destruct (dated_by h' p' s' e' F1' F2' F3') as [_ Sp'].
        assert (H1 : fst (span_of h' x) = fst (span_of h x)) by congruence. assert (H2 : snd (span_of h' x) = snd (span_of h x)) by congruence.
        apply (tiles_once h' _ a b p' p (fst (span_of h x)) (snd (span_of h x)) T V2 (Inn u p Hu U2)); rewrite ?Sp, ?Sp'; cbn [fst snd]; lia. }
    assert (Any : forall t x p, In t ts -> In x (t_seq (tob h1 t)) -> s_super (sob h1 x) = Some p -> In x (t_seq (tob h t)) /\ s_super (sob h x) = Some p).
    { intros t x p Ht Hx Hp. destruct (Nat.lt_ge_cases x (List.length (h_seq h))) as [Q|Q].
      - rewrite (rf_old _ _ _ R x Q) in Hp. split; [apply (refilled_old h h1 ts t x R Ht Hx Q)|exact Hp].
      - destruct (rf_new _ _ _ R t x Ht Hx Q) as [B _]. congruence. }
    assert (Ni : forall i, (i < List.length (h_seq h))%nat -> (forall t, In t ts -> ~ In i (t_seq (tob h t))) -> sob h' i = sob h i).
    { intros i Hi N. rewrite A2; [apply R, Hi|lia|]. intros (t & x & Ht & Hx & [-> | (p & Hp & Q)]).
      - apply (N t Ht). apply (refilled_old h h1 ts t x R Ht Hx Hi).
      - destruct (Any t x p Ht Hx Hp) as [Hx0 Hp0]. destruct (kin_any h g ts bss t x p G Ht Hx0 Hp0) as (k & u & U1 & U2 & U3 & U4).
        assert (Hu : In u ts) by (eapply nth_error_In; eauto). destruct Q as [->|Q]; [apply (N u Hu U3)|].
        rewrite (rf_old _ _ _ R p (Lo u p Hu U3)) in Q. destruct (kin_down h ts bss Sn Re k u t p U1 U2 U3) as [_ Kd]. destruct (Kd i Q) as [K1 _]. apply (N t Ht K1). }
    assert (Sup : forall i, (i < List.length (h_seq h))%nat -> s_super (sob h' i) = s_super (sob h i) /\ s_subset (sob h' i) = s_subset (sob h i)).
    { intros i Hi. split.
      - destruct (List.Exists_dec (fun t => In i (t_seq (tob h t))) ts (fun t => in_dec Nat.eq_dec i (t_seq (tob h t)))) as [X|X].
        + apply List.Exists_exists in X. destruct X as (t & Ht & Hx). apply (Su t i Ht Hx).
        + rewrite Ni; [reflexivity|exact Hi|]. intros t Ht Hx. apply X. apply List.Exists_exists. exists t. auto.
      - destruct (List.Exists_dec (fun t => In i (t_seq (tob h t))) (removelast ts) (fun t => in_dec Nat.eq_dec i (t_seq (tob h t)))) as [X|X].
        + apply List.Exists_exists in X. destruct X as (u & Hu & Hx). apply removelast_nth in Hu. destruct Hu as (k & t & Hk & Hk').
          assert (Hu : In u ts) by (eapply nth_error_In; eauto). assert (Ht : In t ts) by (eapply nth_error_In; eauto).
          destruct (kin_down h ts bss Sn Re k u t i Hk Hk' Hx) as [(s & e & F1 & F2 & F3 & F4) Kd].
          destruct (kin_down h' ts bss' Sn' Re' k u t i Hk Hk' (Inn u i Hu Hx)) as [(s' & e' & F1' & F2' & F3' & F4') _].
          destruct (Vo i Hi) as (_ & B1 & B2 & _). assert (s' = s) by congruence. assert (e' = e) by congruence. subst s' e'. symmetry.
          apply (tiles_twice h' _ _ s e); [|exact F4'|].
          * apply (tiles_same h h'); [|exact F4]. intros y Hy. destruct (Kd y Hy) as [Y1 _]. destruct (Vo y (Lo t y Ht Y1)) as (_ & Z1 & Z2 & _). auto.
          * intros y Hy. destruct (Kd y Hy) as [Y1 Y2]. destruct (kin_up h' ts bss' Sn' Re' k t y Hk' (Inn t y Ht Y1)) as (u' & p & V1 & V2 & V3 & V4).
            rewrite (Su t y Ht Y1), Y2 in V3. injection V3 as <-. exact V4.
        + rewrite <- (rf_old _ _ _ R i Hi). apply A10; [lia| |].
          * intros t Ht Hx. apply X. apply List.Exists_exists. exists t. split; [exact Ht|]. apply (refilled_old h h1 ts t i R); auto.
            apply removelast_nth in Ht. destruct Ht as (k & v & Hk & _). eapply nth_error_In; eauto.
          * intros t x Ht Hx Q. destruct (Any t x i Ht Hx Q) as [Hx0 Hp0]. destruct (kin_any h g ts bss t x i G Ht Hx0 Hp0) as (k & u & K1 & K2 & K3 & _).
            apply X. apply List.Exists_exists. exists u. split; [eapply nth_removelast; eauto|exact K3]. }
    split.
    { intros t Ht. destruct (Tk t) as (_ & B1 & B2 & B3 & B4). destruct (Rw t) as (C1 & C2 & C3 & C4 & C5). destruct (Wi t Ht) as [W _]. destruct (Wi' t Ht) as [W' _].
      rewrite B1, B2, B3, B4, C2, C3, C4, C5, W, W'. auto. }
    split; [intros t Ht; rewrite (A8 t Ht); apply R, Ht|]. split; [rewrite A7; apply R|]. split.
    { intros i Hi. destruct (A1 i) as (B1 & B2 & B3 & B4 & B5); [lia|]. destruct (Sup i Hi) as [B6 B7]. rewrite (rf_old _ _ _ R i Hi) in B1, B2, B3, B4, B5. auto 10. }
    split; [exact Ni|]. split; [lia|]. split; [rewrite Q1, (rf_grp _ _ _ R); reflexivity|]. split.
    { intros k Hk. rewrite (Q2 k Hk). unfold gob. rewrite (rf_grp _ _ _ R). reflexivity. }
    split; [rewrite Q3, Eg; reflexivity|]. split; [rewrite A5; apply R|]. rewrite A6. apply R.
Qed.

(** ** The whole group *)
Lemma else_trans g ts h h1 h2 : (forall t x, In t ts -> In x (t_seq (tob h1 t)) -> (x < List.length (h_seq h))%nat -> In x (t_seq (tob h t))) ->
  all_else_kept h h1 g ts -> all_else_kept h1 h2 g ts -> all_else_kept h h2 g ts.
Proof.
  intros I (A1 & A2 & A3 & A4 & A5 & A6 & A7 & A8 & A9 & A10 & A11) (B1 & B2 & B3 & B4 & B5 & B6 & B7 & B8 & B9 & B10 & B11).
  split; [intros t Ht; destruct (A1 t Ht) as (C1 & C2 & C3 & C4 & C5), (B1 t Ht) as (D1 & D2 & D3 & D4 & D5); rewrite D1, D2, D3, D4, D5; auto|].
  split; [intros t Ht; rewrite (B2 t Ht); apply A2, Ht|]. split; [congruence|].
  split; [intros i Hi; destruct (A4 i Hi) as (C1 & C2 & C3 & C4 & C5 & C6 & C7), (B4 i ltac:(lia)) as (D1 & D2 & D3 & D4 & D5 & D6 & D7); rewrite D1, D2, D3, D4, D5, D6, D7; auto 10|].
  split; [intros i Hi N; rewrite B5; [apply A5; auto|lia|]; intros t Ht Hx; apply (N t Ht), (I t i Ht Hx Hi)|].
  split; [lia|]. split; [congruence|]. split; [intros k Hk; rewrite (B8 k Hk); apply A8, Hk|]. split; [congruence|]. split; congruence.
Qed.
Lemma blanks_from g ts h h1 h2 t : steady g ts h h1 -> (forall x, In x (t_seq (tob h t)) -> (x < List.length (h_seq h))%nat) -> blanks_put h1 h2 t -> blanks_put h h2 t.
Proof.
  intros ((_ & _ & _ & A4 & _ & A6 & _) & Tk) Lv ((x & y & a & b & P1 & P2 & P3 & P4 & P5) & P6 & P7 & Pc). unfold blanks_put. rewrite (Tk t) in *.
  assert (V : forall x, In x (t_seq (tob h t)) -> s_start (sob h1 x) = s_start (sob h x) /\ s_end (sob h1 x) = s_end (sob h x)).
  { intros z Hz. destruct (A4 z (Lv z Hz)) as (_ & Q1 & Q2 & _). auto. }
  split; [|split; [|split; [|exact Pc]]].
  - exists x, y, a, b. destruct (V x (hd_in _ _ P1)) as [Q1 _]. destruct (V y (hd_rev_in _ _ P2)) as [_ Q2]. rewrite Q1 in P3. rewrite Q2 in P4. auto.
  - apply (filter_within _ _ _ _ (fun x Q => proj2 (Nat.ltb_lt x _) (Nat.lt_le_trans _ _ _ (proj1 (Nat.ltb_lt x _) Q) A6)) P6). intros z Hz. apply Nat.ltb_lt, Lv, Hz.
  - intros z Hz Lz. destruct (Nat.lt_ge_cases z (List.length (h_seq h1))) as [Q|Q].
    { exfalso. assert (Hz' : In z (t_seq (tob h t))) by (rewrite <- P6; apply filter_In; split; [exact Hz|apply Nat.ltb_lt; exact Q]). pose proof (Lv z Hz'). lia. }
    destruct (P7 z Hz Q) as (P8 & P9 & s & e & P10 & P11 & (i & v & w & W1 & W2 & W3 & W4 & W5)). split; [exact P8|]. split; [exact P9|].
    exists s, e. split; [exact P10|]. split; [exact P11|]. exists i, v, w. destruct (V v (nth_error_In _ _ W1)) as [_ Q1]. destruct (V w (nth_error_In _ _ W2)) as [Q2 _].
    rewrite Q1 in W3. rewrite Q2 in W4. auto.
Qed.
Lemma blanks_to g ts h h1 h2 t : steady g ts h1 h2 -> (forall x, In x (t_seq (tob h1 t)) -> (x < List.length (h_seq h1))%nat) -> blanks_put h h1 t -> blanks_put h h2 t.
Proof.
  intros ((_ & _ & _ & A4 & _ & A6 & _) & Tk) Lv ((x & y & a & b & P1 & P2 & P3 & P4 & P5) & P6 & P7 & Pc). unfold blanks_put. rewrite (Tk t).
  split; [|split; [exact P6|split; [|exact Pc]]].
  - exists x, y, a, b. split; [exact P1|]. split; [exact P2|]. split; [exact P3|]. split; [exact P4|]. apply (tiles_same h1 h2); [|exact P5].
    intros z Hz. destruct (A4 z (Lv z Hz)) as (_ & Q1 & Q2 & _). auto.
  - intros z Hz Lz. destruct (A4 z (Lv z Hz)) as (-> & -> & -> & -> & _). apply (P7 z Hz Lz).
Qed.
Lemma tight_not_wide h l a b : tiles h a l b -> ~ wide (map (span_of h) l).
Proof.
  intros T (p & Hp & _). destruct l as [|x l]; [destruct Hp|]. pose proof (gaps_tiled (map (span_of h) (x :: l)) a b [] (spans_tile h _ a b T) ltac:(discriminate)) as Q.
  rewrite app_nil_r in Q. rewrite Q in Hp. destruct Hp.
Qed.
Lemma good_point h g ts bss t : good_group h g ts bss -> In t ts -> is_point_tier h t = false /\ forall x, In x (t_seq (tob h t)) -> is_point h x = false.
Proof.
  intros (_ & _ & _ & _ & _ & _ & _ & _ & Wi & _) Ht. destruct (Wi t Ht) as (_ & (_ & Lk) & Q). split; [exact Q|]. intros x Hx. destruct (Lk x Hx) as (_ & E & _).
  unfold is_point, is_point_cls. rewrite E. exact Q.
Qed.
Lemma calm_tier n h g ts bss t : good_group h g ts bss -> In t ts -> ~ wide (map (span_of h) (t_seq (tob h t))) -> tier_cleanup (S n) t h = Ok tt h.
Proof.
  intros G Ht W. destruct (good_turns h g ts bss G t Ht) as [T D]. destruct (good_point h g ts bss t G Ht) as [P1 P2].
  cbn [tier_cleanup]. rewrite bind_gets, P1, !bind_gets. unfold tstarts, tends. rewrite starts_dated, ends_dated by auto.
  pose proof (wide_open h _ D T) as Q. rewrite !map_map in Q. destruct (allclose _ _) eqn:E; [reflexivity|]. exfalso. apply W, Q. reflexivity.
Qed.
Lemma gaps_steady g ts h h' t : steady g ts h h' -> (forall x, In x (t_seq (tob h t)) -> (x < List.length (h_seq h))%nat) ->
  map (span_of h') (t_seq (tob h' t)) = map (span_of h) (t_seq (tob h t)).
Proof.
  intros ((_ & _ & _ & A4 & _) & Tk) Lv. rewrite (Tk t). apply map_ext_in. intros x Hx. destruct (A4 x (Lv x Hx)) as (_ & Q1 & Q2 & _).
  Transparent span_of. unfold span_of. rewrite Q1, Q2. reflexivity.
Qed.
Opaque span_of.
Lemma steady_refl g ts h : steady g ts h h.
Proof. split; [|reflexivity]. do 3 (split; [auto 10|]). auto 20. Qed.
Lemma good_live h g ts bss t x : good_group h g ts bss -> In t ts -> In x (t_seq (tob h t)) -> (x < List.length (h_seq h))%nat.
Proof. intros (_ & _ & _ & _ & _ & _ & _ & _ & Wi & _) Ht Hx. destruct (Wi t Ht) as (_ & (_ & Lk) & _). apply (Lk x Hx). Qed.
(** Looking for intervals that are nowhere: there are none below the first tier,
    and there is nothing above it. *)
Lemma orphans n h g t0 r bss : good_group h g (t0 :: r) bss -> up_to_date h t0 ->
  exists h1 w, orphan_pass (S (S (List.length r))) n g 0 false h = Ok w h1 /\ good_group h1 g (t0 :: r) bss /\ steady g (t0 :: r) h h1 /\
    (w = true <-> wide (map (span_of h) (t_seq (tob h t0)))) /\ ((forall x, In x (t_seq (tob h t0)) -> within_truthy h x = true) -> h1 = h).
Proof.
  intros G Up. set (ts := t0 :: r) in *.
  set (w := negb (allclose (tl (map (fun x => fst (span_of h x)) (t_seq (tob h t0)))) (removelast (map (fun x => snd (span_of h x)) (t_seq (tob h t0)))))).
  assert (Iw : w = true <-> wide (map (span_of h) (t_seq (tob h t0)))).
  { destruct (good_turns h g ts bss G t0 ltac:(simpl; auto)) as [T D]. rewrite (wide_open h _ D T), !map_map. unfold w. destruct (allclose _ _); cbn [negb]; split; congruence. }
  remember w as w0 eqn:Ew0. unfold w in Ew0. clear w. rename w0 into w.
  (* the lower tiers *)
  assert (Lo : forall h1, good_group h1 g ts bss -> (w = true <-> wide (map (span_of h1) (t_seq (tob h1 t0)))) -> forall d i, (d + S i)%nat = List.length ts -> orphan_pass (S d) n g (S i) w h1 = Ok w h1).
  { intros h1 G1 W1. pose proof G1 as (_ & _ & E & _ & _ & _ & Sn & Re & _). induction d as [|d IH]; intros i Hi; cbn [orphan_pass]; rewrite bind_gets, E.
    - replace (nth_error ts (S i)) with (@None tid) by (symmetry; apply nth_error_None; lia). reflexivity.
    - destruct (nth_error ts (S i)) as [k|] eqn:Ek; [|apply nth_error_None in Ek; lia]. assert (Hk : In k ts) by (eapply nth_error_In; eauto).
      assert (Hk' : In k (tl ts)) by (apply (nth_error_In r i); exact Ek).
      destruct (good_turns h1 g ts bss G1 k Hk) as [T D]. destruct (good_point h1 g ts bss k G1 Hk) as [_ Np].
      rewrite !bind_gets. unfold tstarts, tends. rewrite starts_dated, ends_dated by auto. rewrite !bind_gets.
      assert (Ex : existsb (fun x => negb (within_truthy h1 x)) (t_seq (tob h1 k)) = false).
      { apply not_true_is_false. intros Q. apply existsb_exists in Q. destruct Q as (x & Hx & Q). destruct (lower_within h1 ts bss Sn Re k x Hk' Hx) as (p & Q1 & Q2).
        unfold within_truthy in Q. rewrite Q1 in Q. destruct (s_subset (sob h1 p)); [destruct Q2|discriminate]. }
      rewrite Ex. cbn [when]. rewrite bind_ret.
      assert (Ew : w || negb (allclose (tl (map (fun x => fst (span_of h1 x)) (t_seq (tob h1 k)))) (removelast (map (fun x => snd (span_of h1 x)) (t_seq (tob h1 k))))) = w).
      { clear Ew0. destruct w eqn:E0; [reflexivity|]. cbn [orb]. pose proof (wide_open h1 _ D T) as Q. rewrite !map_map in Q. destruct (allclose _ _) eqn:Ea; [reflexivity|]. exfalso.
        assert (X : false = true); [|discriminate]. apply W1. destruct (proj2 Q eq_refl) as (p & Hp & Np'). exists p. rewrite (snug_gaps h1 r bss t0 Sn k Hk) in Hp. auto. }
      rewrite Ew. apply IH. lia. }
  (* the first tier *)
  pose proof G as (_ & _ & E & _ & Ch & _ & Sn & Re & Wi & _). destruct (good_turns h g ts bss G t0 ltac:(simpl; auto)) as [T D]. destruct (good_point h g ts bss t0 G ltac:(simpl; auto)) as [_ Np].
  assert (St : exists h1, (orph <- gets (fun h' => existsb (fun x => negb (within_truthy h' x)) (t_seq (tob h t0))) ;;
      when orph (forM (t_seq (tob h t0)) (fun x => w <- gets (fun h => within_truthy h x) ;; if (w : bool) then ret tt else project_up n x) ;;; re_relate n g)) h = Ok tt h1 /\
    good_group h1 g ts bss /\ steady g ts h h1 /\ ((forall x, In x (t_seq (tob h t0)) -> within_truthy h x = true) -> h1 = h)).
  { rewrite bind_gets. destruct (existsb (fun x => negb (within_truthy h x)) (t_seq (tob h t0))) eqn:Ex; cbn [when].
    - assert (Fo : forM (t_seq (tob h t0)) (fun x => w <- gets (fun h => within_truthy h x) ;; if (w : bool) then ret tt else project_up n x) h = Ok tt h).
      { assert (Q : forall x, In x (t_seq (tob h t0)) -> (w <- gets (fun h => within_truthy h x) ;; if (w : bool) then ret tt else project_up n x) h = Ok tt h).
        { intros x Hx. rewrite bind_gets. destruct (within_truthy h x); [reflexivity|]. unfold project_up. rewrite bind_get_seq, bind_gets.
          destruct (Wi t0 ltac:(simpl; auto)) as (_ & (_ & Lk) & _). destruct (Lk x Hx) as (_ & Ec & _). rewrite Ec. destruct Up as [U1 _]. rewrite <- U1.
          destruct Ch as (_ & _ & _ & (t & Ht & c & C1 & C2) & _). injection Ht as <-. rewrite C1. rewrite (bind_ok _ _ _ _ _ (issub_m h c cTop)), C2. reflexivity. }
        revert Q. generalize (t_seq (tob h t0)). clear. induction l as [|x l IH]; intros Q; [reflexivity|]. cbn [forM]. rewrite (bind_ok _ _ _ _ _ (Q x ltac:(simpl; auto))). apply IH. intros y Hy. apply Q. simpl; auto. }
      rewrite (bind_ok _ _ _ _ _ Fo). destruct (steady_relate n h g ts bss G) as (h1 & E1 & G1 & S1). exists h1. split; [exact E1|]. split; [exact G1|]. split; [exact S1|].
      intros X. exfalso. apply existsb_exists in Ex. destruct Ex as (x & Hx & Q). rewrite (X x Hx) in Q. discriminate.
    - exists h. split; [reflexivity|]. split; [exact G|]. split; [apply steady_refl|auto]. }
  destruct St as (h1 & E1 & G1 & S1 & X1). exists h1, w.
  assert (W1 : w = true <-> wide (map (span_of h1) (t_seq (tob h1 t0)))).
  { rewrite (gaps_steady g ts h h1 t0 S1); [exact Iw|]. intros x Hx. apply (good_live h g ts bss t0 x G); simpl; auto. }
  split; [|auto]. change (orphan_pass (S (S (List.length r))) n g 0 false) with (orphan_pass (S (List.length ts)) n g 0 false).
  cbn [orphan_pass]. rewrite bind_gets, E. cbn [nth_error ts]. fold ts. rewrite !bind_gets. unfold tstarts, tends. rewrite starts_dated, ends_dated by auto. rewrite bind_gets.
  cbn [orb]. rewrite <- Ew0. rewrite <- bind_assoc. rewrite (bind_ok _ _ _ _ _ E1). apply (Lo h1 G1 W1 (List.length r) O). cbn. lia.
Qed.
(** After the first tier there is nothing left to fill. *)
Lemma calm_tiers n h g ts bss : good_group h g ts bss -> (forall t, In t ts -> ~ wide (map (span_of h) (t_seq (tob h t)))) ->
  forall d i, (d + i)%nat = List.length ts -> cleanup_tiers (S d) (S n) g i h = Ok tt h.
Proof.
  intros G W. pose proof G as (_ & _ & E & _). induction d as [|d IH]; intros i Hi; cbn [cleanup_tiers]; rewrite bind_gets, E.
  - replace (nth_error ts i) with (@None tid) by (symmetry; apply nth_error_None; lia). reflexivity.
  - destruct (nth_error ts i) as [t|] eqn:Et; [|apply nth_error_None in Et; lia]. assert (Ht : In t ts) by (eapply nth_error_In; eauto).
    rewrite (bind_ok _ _ _ _ _ (calm_tier n h g ts bss t G Ht (W t Ht))). apply IH. lia.
Qed.
Lemma good_top h g ts bss : good_group h g ts bss -> exists t r, ts = t :: r.
Proof. intros (_ & _ & _ & _ & (_ & _ & _ & (t & Ht & _) & _) & _). destruct ts as [|a r]; [discriminate|]. exists a, r. reflexivity. Qed.

Lemma c63_filled : forall n h g ts bss t, good_group h g ts bss -> (forall u, In u ts -> gappy h u) ->
  hd_error ts = Some t -> up_to_date h t -> real_gap h (t_seq (tob h t)) -> (List.length ts <= n)%nat ->
  exists h' bss', grp_cleanup n g h = Ok tt h' /\ good_group h' g ts bss' /\ all_else_kept h h' g ts /\ (forall u, In u ts -> blanks_put h h' u).
Proof.
  intros n h g ts bss t G Ga Ht Up Rg Fu. destruct (good_top h g ts bss G) as (t0 & r & ->). injection Ht as ->. set (ts := t :: r) in *.
  destruct (good_turns h g ts bss G t ltac:(simpl; auto)) as [T D]. pose proof (proj1 (real_wide h _ D T) Rg) as Wi.
  destruct (orphans n h g t r bss G Up) as (h1 & w & E1 & G1 & S1 & W1 & _). fold ts in G1, S1. assert (w = true) by (apply W1, Wi). subst w.
  pose proof G as (_ & _ & Et & _). pose proof G1 as (_ & _ & Et1 & Ct1 & (C1 & C2 & C3 & C4 & C5) & J1 & Sn1 & Re1 & Wi1 & _). pose proof (good_live h g ts bss) as Lv. pose proof S1 as (K1 & Tk1).
  assert (Ga1 : forall u, In u ts -> gappy h1 u).
  { intros u Hu. apply (gappy_same h h1); auto; try apply K1. intros x Hx Lx. destruct K1 as (_ & _ & _ & A4 & _). destruct (A4 x Lx) as (Q1 & Q2 & Q3 & _). auto. }
  destruct n as [|n]; [cbn in Fu; lia|].
  destruct (clean_down g r (S n) t [] h1 bss) as (h2 & m & E2 & R2).
  - split; [exact Et1|]. split; [exact Ct1|]. split; [|intros u Hu; apply (Wi1 u Hu)]. eapply NoDup_map_inv. apply NoDup_ListNoDup. exact C2.
  - exact C1.
  - intros u Hu. split; [apply Ga1, Hu|]. apply (C3 u Hu).
  - exact C5.
  - exact Sn1.
  - rewrite (gaps_steady g ts h h1 t S1); [exact Wi|]. intros x Hx. apply (Lv t x G); simpl; auto.
  - cbn in Fu. lia.
  - destruct (refill_relate m h1 h2 g ts bss G1 R2) as (h3 & bss' & E3 & G3 & K3 & B3).
    assert (W3 : forall u, In u ts -> ~ wide (map (span_of h3) (t_seq (tob h3 u)))).
    { intros u Hu. destruct (B3 u Hu) as ((x & y & a & b & _ & _ & _ & _ & Ti) & _). apply (tight_not_wide h3 _ a b Ti). }
    destruct (steady_relate (S n) h3 g ts bss' G3) as (h4 & E4 & G4 & S4). exists h4, bss'. split; [|split; [exact G4|split]].
    + unfold grp_cleanup. rewrite bind_gets, Et. change (S (List.length ts)) with (S (S (List.length r))). rewrite (bind_ok _ _ _ _ _ E1). cbn [negb].
      rewrite bind_gets, Et1. assert (E5 : cleanup_tiers (S (List.length ts)) (S n) g 0 h1 = Ok tt h3).
      { cbn [cleanup_tiers]. rewrite bind_gets, Et1. cbn [nth_error ts]. rewrite (bind_ok _ _ _ tt h3) by (rewrite E2; exact E3).
        apply (calm_tiers n h3 g ts bss' G3 W3 (List.length r) 1%nat). cbn. lia. }
      rewrite (bind_ok _ _ _ _ _ E5). exact E4.
    + assert (O3 : forall u x, In u ts -> In x (t_seq (tob h3 u)) -> (x < List.length (h_seq h1))%nat -> In x (t_seq (tob h1 u))).
      { intros u x Hu Hx Lx. destruct (B3 u Hu) as (_ & <- & _). apply filter_In. split; [exact Hx|apply Nat.ltb_lt, Lx]. }
      pose proof K1 as (_ & _ & _ & _ & _ & Le1 & _).
      assert (K13 : all_else_kept h h3 g ts) by (apply (else_trans g ts h h1 h3); [intros u x _ Hx _; rewrite <- (Tk1 u); exact Hx|exact K1|exact K3]).
      apply (else_trans g ts h h3 h4); [|exact K13|apply S4]. intros u x Hu Hx Lx. rewrite <- (Tk1 u). apply (O3 u x Hu Hx). lia.
    + intros u Hu. apply (blanks_to g ts h h3 h4 u S4); [intros x Hx; apply (good_live h3 g ts bss' u x G3 Hu Hx)|].
      apply (blanks_from g ts h h1 h3 u S1); [intros x Hx; apply (Lv u x G Hu Hx)|apply B3, Hu].
Qed.
Lemma c63_nothing : forall n h g ts bss t, good_group h g ts bss ->
  hd_error ts = Some t -> up_to_date h t -> ~ real_gap h (t_seq (tob h t)) ->
  exists h', grp_cleanup n g h = Ok tt h' /\ good_group h' g ts bss /\ all_else_kept h h' g ts /\ (forall u, tob h' u = tob h u) /\
    ((forall x, In x (t_seq (tob h t)) -> s_within (sob h x) = Some (WTier t)) -> h' = h).
Proof.
  intros n h g ts bss t G Ht Up Rg. destruct (good_top h g ts bss G) as (t0 & r & ->). injection Ht as ->. set (ts := t :: r) in *.
  destruct (good_turns h g ts bss G t ltac:(simpl; auto)) as [T D].
  destruct (orphans n h g t r bss G Up) as (h1 & w & E1 & G1 & S1 & W1 & X1). assert (w = false) by (destruct w; [exfalso; apply Rg, (real_wide h _ D T), W1; reflexivity|reflexivity]). subst w.
  pose proof G as (_ & _ & Et & _). exists h1. split.
  { unfold grp_cleanup. rewrite bind_gets, Et. change (S (List.length ts)) with (S (S (List.length r))). rewrite (bind_ok _ _ _ _ _ E1). reflexivity. }
  split; [exact G1|]. split; [apply S1|]. split; [apply S1|]. intros W. apply X1. intros x Hx. unfold within_truthy. rewrite (W x Hx). apply Nat.ltb_lt. destruct (t_seq (tob h t)); [destruct Hx|cbn; lia].
Qed.
Lemma c63_twice : forall n h g ts bss t h', good_group h g ts bss -> (forall u, In u ts -> gappy h u) ->
  hd_error ts = Some t -> up_to_date h t -> (List.length ts <= n)%nat -> grp_cleanup n g h = Ok tt h' ->
  exists h'', grp_cleanup n g h' = Ok tt h'' /\ all_else_kept h' h'' g ts /\ (forall u, tob h'' u = tob h' u).
Proof.
  intros n h g ts bss t h' G Ga Ht Up Fu E. assert (It : In t ts) by (apply hd_in, Ht). destruct (good_turns h g ts bss G t It) as [T D].
  assert (Dec : real_gap h (t_seq (tob h t)) \/ ~ real_gap h (t_seq (tob h t))).
  { rewrite (real_wide h _ D T). rewrite (wide_open h _ D T). destruct (allclose _ _); [right|left]; congruence. }
  assert (Y : exists bss', good_group h' g ts bss' /\ all_else_kept h h' g ts /\ ~ real_gap h' (t_seq (tob h' t))).
  { destruct Dec as [Rg|Rg].
    - destruct (c63_filled n h g ts bss t G Ga Ht Up Rg Fu) as (h1 & bss' & E1 & G1 & K1 & B1). rewrite E in E1. injection E1 as <-. exists bss'. split; [exact G1|]. split; [exact K1|].
      destruct (good_turns h' g ts bss' G1 t It) as [T1 D1]. rewrite (real_wide h' _ D1 T1). destruct (B1 t It) as ((x & y & a & b & _ & _ & _ & _ & Ti) & _). apply (tight_not_wide h' _ a b Ti).
    - destruct (c63_nothing n h g ts bss t G Ht Up Rg) as (h1 & E1 & G1 & K1 & Tk & _). rewrite E in E1. injection E1 as <-. exists bss. split; [exact G1|]. split; [exact K1|].
      destruct (good_turns h' g ts bss G1 t It) as [T1 D1]. rewrite (real_wide h' _ D1 T1). rewrite (gaps_steady g ts h h' t (conj K1 Tk)) by (intros x Hx; apply (good_live h g ts bss t x G It Hx)).
      rewrite <- (real_wide h _ D T). exact Rg. }
  destruct Y as (bss' & G1 & K1 & Rg1). destruct (c63_nothing n h' g ts bss' t G1 Ht) as (h2 & E2 & _ & K2 & Tk2 & _); [|exact Rg1|exists h2; auto].
  destruct K1 as (A1 & _ & _ & _ & _ & _ & _ & _ & _ & A10 & _). destruct (A1 t It) as (B1 & B2 & B3 & _). destruct Up as [U1 U2]. unfold up_to_date. rewrite B1, B2, B3.
  rewrite (superset_class_ext h h'), (subset_class_ext h h') by exact A10. auto.
Qed.
End WithEnv.
