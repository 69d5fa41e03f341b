(** * SpliceFinal: concatenating tier groups (C55). *)
From Coq Require Import Sorting.Sorted.
From Verif Require Export PopFinal GrowFinal SpliceSpec.
Open Scope Z_scope.

Section WithEnv.
Context `{Env}.
Opaque span_of.

(** ** Generations *)
Lemma level_snoc h : forall k x, level h (S k) x = flat_map (fun y => s_subset (sob h y)) (level h k x).
Proof.
  induction k as [|k IH]; intros x.
  - cbn [level flat_map]. rewrite app_nil_r. induction (s_subset (sob h x)) as [|y l IHl]; [reflexivity|]. cbn [flat_map app]. f_equal. exact IHl.
  - change (level h (S (S k)) x) with (flat_map (level h (S k)) (s_subset (sob h x))).
    change (level h (S k) x) with (flat_map (level h k) (s_subset (sob h x))). rewrite flat_flat. apply flat_map_ext. exact IH.
Qed.
Lemma rows_levels h : forall ts bss t, snug h (t :: ts) bss -> related_tiers h (t :: ts) bss ->
  forall k u, nth_error (t :: ts) k = Some u -> t_seq (tob h u) = flat_map (level h k) (t_seq (tob h t)).
Proof.
  induction ts as [|v ts IH]; intros bss t S R k u Hu.
  - destruct k as [|[|k]]; [|discriminate|discriminate]. injection Hu as ->. cbn [level]. clear. induction (t_seq (tob h u)) as [|y l IHl]; [reflexivity|].
    cbn [flat_map app]. f_equal. exact IHl.
  - destruct k as [|k].
    + injection Hu as ->. cbn [level]. clear. induction (t_seq (tob h u)) as [|y l IHl]; [reflexivity|]. cbn [flat_map app]. f_equal. exact IHl.
    + destruct bss as [|bs bss]; [destruct S|]. rewrite snug_cons in S. destruct S as (S1 & S2 & S3). rewrite related_cons in R. destruct R as (R1 & R2).
      rewrite (IH bss v S3 R2 k u Hu). assert (E : t_seq (tob h v) = flat_map (fun x => s_subset (sob h x)) (t_seq (tob h t))).
      { rewrite <- S1. clear -R1. induction R1 as [|x b l bs (P & _) F IHF]; [reflexivity|]. cbn [concat flat_map]. rewrite P, IHF. reflexivity. }
      rewrite E, flat_flat. reflexivity.
Qed.
Lemma sprout_level h : forall k ts x z, sprout h ts x -> In z (level h k x) -> (k < List.length ts)%nat -> sprout h (drop k ts) z.
Proof.
  induction k as [|k IH]; intros ts x z S Hz Lk.
  - destruct Hz as [<-|[]]. exact S.
  - destruct ts as [|t r]; [cbn in Lk; lia|]. destruct r as [|u r]; [cbn in Lk; lia|]. destruct S as (_ & _ & _ & _ & _ & _ & K).
    cbn [level] in Hz. apply in_flat_map in Hz. destruct Hz as (y & Hy & Hz). cbn [drop]. apply (IH (u :: r) y z (K y Hy) Hz). cbn in *. lia.
Qed.
Lemma sprout_at h k ts x z : sprout h ts x -> In z (level h k x) -> (k < List.length ts)%nat ->
  exists w, nth_error ts k = Some w /\ live h z /\ s_cls (sob h z) = t_ec (tob h w) /\ s_label (sob h z) <> "#"%string /\ dated h z.
Proof.
  intros S Hz Lk. pose proof (sprout_level h k ts x z S Hz Lk) as Sz. destruct (nth_error ts k) as [w|] eqn:Q; [|apply nth_error_None in Q; lia].
  rewrite (drop_cons ts k w Q) in Sz. destruct Sz as (A & B & C & D & _). exists w. auto.
Qed.
Lemma sprout_end h : forall ts x k, sprout h ts x -> (List.length ts <= k)%nat -> level h k x = [].
Proof.
  induction ts as [|t r IH]; intros x k S Lk; [destruct S|]. destruct k as [|k]; [cbn in Lk; lia|]. destruct S as (_ & _ & _ & _ & S). cbn [level].
  destruct r as [|u r]; [rewrite S; reflexivity|]. destruct S as (_ & _ & K). cbn [List.length] in Lk.
  assert (Q : forall y, In y (s_subset (sob h x)) -> level h k y = []) by (intros y Hy; apply (IH y k (K y Hy)); cbn [List.length]; lia).
  clear -Q. induction (s_subset (sob h x)) as [|y l IHl]; [reflexivity|]. cbn [flat_map]. rewrite Q by (simpl; auto). apply IHl. intros z Hz. apply Q. simpl; auto.
Qed.
(** Nothing is below two roots. *)
Lemma one_root h ts : NoDup (map (fun t => t_ec (tob h t)) ts) -> forall k k' x x' z, sprout h ts x -> sprout h ts x' ->
  In z (level h k x) -> In z (level h k' x') -> k = k' /\ x = x'.
Proof.
  intros Nd k k' x x' z S S' Hz Hz'.
  assert (Lk : (k < List.length ts)%nat). { destruct (decide (k < List.length ts)%nat); [auto|]. rewrite (sprout_end h ts x k S) in Hz by lia. destruct Hz. }
  assert (Lk' : (k' < List.length ts)%nat). { destruct (decide (k' < List.length ts)%nat); [auto|]. rewrite (sprout_end h ts x' k' S') in Hz' by lia. destruct Hz'. }
  destruct (sprout_at h k ts x z S Hz Lk) as (w & W1 & _ & W2 & _). destruct (sprout_at h k' ts x' z S' Hz' Lk') as (w' & W1' & _ & W2' & _).
  assert (k = k'). { apply NoDup_ListNoDup in Nd. rewrite NoDup_nth_error in Nd. apply Nd; [rewrite map_length; exact Lk|]. rewrite !nth_error_map, W1, W1'. cbn. congruence. }
  subst k'. split; [reflexivity|]. clear w w' W1 W1' W2 W2' Lk'. revert z Hz Hz'. induction k as [|k IH]; intros z Hz Hz'.
  - destruct Hz as [<-|[]]. destruct Hz' as [<-|[]]. reflexivity.
  - rewrite level_snoc in Hz, Hz'. apply in_flat_map in Hz, Hz'. destruct Hz as (p & Hp & Hz). destruct Hz' as (p' & Hp' & Hz').
    assert (Br : forall q y, sprout h ts y -> In q (level h k y) -> brood h q).
    { intros q y Sy Hq. pose proof (sprout_level h k ts y q Sy Hq ltac:(lia)) as Sq. destruct (nth_error ts k) as [w|] eqn:Q; [|apply nth_error_None in Q; lia].
      rewrite (drop_cons ts k w Q) in Sq. destruct (nth_error ts (Datatypes.S k)) as [w2|] eqn:Q2; [|apply nth_error_None in Q2; lia]. rewrite (drop_cons ts (Datatypes.S k) w2 Q2) in Sq.
      apply Sq. }
    destruct (Br p x S Hp) as (_ & B1). destruct (Br p' x' S' Hp') as (_ & B2). destruct (B1 z Hz) as (_ & _ & E1 & _). destruct (B2 z Hz') as (_ & _ & E2 & _).
    assert (p' = p) by congruence. subst p'. apply (IH ltac:(lia) p Hp Hp').
Qed.
(** ** The intervals below an interval *)
Lemma tree_below h : forall ts x, NoDup (map (fun t => t_ec (tob h t)) ts) -> sprout h ts x ->
  exists ns, below h [x] ns /\ NoDup ns /\ forall i, In i ns <-> exists k, In i (level h k x).
Proof.
  induction ts as [|t r IH]; intros x Nd S; [destruct S|]. destruct r as [|u r].
  - pose proof S as (_ & _ & _ & _ & E). exists [x]. split; [|split].
    + apply (below_cons h x [] [] []); [rewrite E|]; constructor.
    + apply NoDup_cons. split; [intros Q; inversion Q|constructor].
    + intros i. split; [intros Hi; exists 0%nat; exact Hi|]. intros ([|k] & Hk); [exact Hk|]. cbn [level] in Hk. rewrite E in Hk. destruct Hk.
  - pose proof S as (_ & Cx & _ & _ & _ & (Nb & _) & K).
    assert (Nd' : NoDup (map (fun t => t_ec (tob h t)) (u :: r))). { cbn [map] in Nd. apply NoDup_cons in Nd. apply Nd. }
    assert (Q : forall L, NoDup L -> (forall y, In y L -> sprout h (u :: r) y) ->
      exists ns, below h L ns /\ NoDup ns /\ forall i, In i ns <-> exists y k, In y L /\ In i (level h k y)).
    { induction L as [|y L IHL]; intros NL SL.
      - exists []. split; [constructor|]. split; [constructor|]. intros i. split; [intros []|intros (y & k & [] & _)].
      - apply NoDup_cons in NL. destruct NL as [Ny NL]. rewrite elem_of_list_In in Ny.
        destruct (IHL NL ltac:(intros z Hz; apply SL; simpl; auto)) as (n2 & B2 & D2 & I2).
        destruct (IH y Nd' (SL y ltac:(simpl; auto))) as (n1 & B1 & D1 & I1). inversion B1 as [|? ? a b Ba Bb]; subst. inversion Bb; subst. rewrite app_nil_r in *.
        exists (y :: a ++ n2)%list. split; [constructor; auto|]. split.
        + change (y :: a ++ n2)%list with ((y :: a) ++ n2)%list. apply NoDup_app. split; [exact D1|]. split; [|exact D2].
          intros i Hi Hi2. rewrite elem_of_list_In in Hi, Hi2. apply I1 in Hi. apply I2 in Hi2. destruct Hi as (k & Hk). destruct Hi2 as (y2 & k2 & Hy2 & Hk2).
          destruct (one_root h (u :: r) Nd' k k2 y y2 i) as (_ & Ey); [apply SL; simpl; auto|apply SL; simpl; auto|exact Hk|exact Hk2|]. subst y2. auto.
        + intros i. change (y :: a ++ n2)%list with ((y :: a) ++ n2)%list. rewrite in_app_iff, I1, I2. split.
          * intros [(k & Hk)|(z & k & Hz & Hk)]; [exists y, k|exists z, k]; (split; [simpl; auto|exact Hk]).
          * intros (z & k & [<-|Hz] & Hk); [left; eauto|right; eauto]. }
    destruct (Q (s_subset (sob h x)) Nb K) as (ns & B & D & I). exists (x :: ns ++ [])%list. rewrite app_nil_r. split; [|split].
    + pose proof (below_cons h x [] ns [] B (below_nil h)) as P. rewrite app_nil_r in P. exact P.
    + apply NoDup_cons. split; [|exact D]. rewrite elem_of_list_In. intros Hx. apply I in Hx. destruct Hx as (y & k & Hy & Hk).
      destruct (one_root h (t :: u :: r) Nd 0 (Datatypes.S k) x x x S S) as (E & _); [simpl; auto| |discriminate]. cbn [level]. apply in_flat_map. eauto.
    + intros i. split.
      * intros [<-|Hi]; [exists 0%nat; simpl; auto|]. apply I in Hi. destruct Hi as (y & k & Hy & Hk). exists (Datatypes.S k). cbn [level]. apply in_flat_map. eauto.
      * intros ([|k] & Hk); [left; destruct Hk as [<-|[]]; reflexivity|]. right. apply I. cbn [level] in Hk. apply in_flat_map in Hk. destruct Hk as (y & Hy & Hk). eauto.
Qed.
(** ** Times changed by a strictly increasing function *)
Lemma moved_value h h' f x y : (forall a b, a < b -> f a < f b) -> h_cls h' = h_cls h -> dated h x -> dated h y ->
  retimed f (sob h x) (sob h' x) -> retimed f (sob h y) (sob h' y) -> same_value h' x y -> same_value h x y.
Proof.
  intros F Ec (A1 & A2 & _) (B1 & B2 & _) (C1 & C2 & _ & _ & C3 & C4) (D1 & D2 & _ & _ & D3 & D4) (V1 & V2 & V3 & V4).
  assert (Inj : forall a b, f a = f b -> a = b). { intros a b Q. destruct (Z.lt_trichotomy a b) as [L|[L|L]]; [apply F in L; lia|exact L|apply F in L; lia]. }
  assert (P : forall z, s_cls (sob h' z) = s_cls (sob h z) -> is_point h' z = is_point h z).
  { intros z Ez. unfold is_point. rewrite Ez. apply issubclass_ext. exact Ec. }
  rewrite (P x C1), (P y D1) in V1. rewrite (P x C1) in V4.
  split; [exact V1|]. rewrite C3, D3, A1, B1 in V2. cbn in V2. rewrite C4, D4, A2, B2 in V4. cbn in V4.
  split; [rewrite A1, B1; f_equal; apply Inj; congruence|]. split; [congruence|]. intros Q. specialize (V4 Q). rewrite A2, B2. f_equal. apply Inj. congruence.
Qed.
Lemma moved_dated h h' f x : (forall a b, a < b -> f a < f b) -> retimed f (sob h x) (sob h' x) -> dated h x -> dated h' x.
Proof.
  intros F (_ & _ & _ & _ & C3 & C4) (A1 & A2 & A3). rewrite A1 in C3. rewrite A2 in C4. cbn in C3, C4. apply (dated_by h' x _ _ C3 C4). apply F, A3.
Qed.
Lemma moved_tiles h h' f : (forall a b, a < b -> f a < f b) -> forall l a b, (forall x, In x l -> retimed f (sob h x) (sob h' x)) ->
  tiles h a l b -> tiles h' (f a) l (f b).
Proof.
  intros F. induction l as [|x l IH]; intros a b M T; [cbn in *; congruence|]. destruct T as (m & T1 & T2 & T3 & T4).
  destruct (M x ltac:(simpl; auto)) as (_ & _ & _ & _ & C3 & C4). exists (f m). rewrite C3, C4, T1, T2. split; [reflexivity|]. split; [reflexivity|]. split; [apply F, T3|].
  apply IH; [|exact T4]. intros y Hy. apply M. simpl; auto.
Qed.
Lemma moved_sprout h h' f : (forall a b, a < b -> f a < f b) -> h_cls h' = h_cls h -> (List.length (h_seq h) <= List.length (h_seq h'))%nat ->
  (forall t, t_ec (tob h' t) = t_ec (tob h t)) ->
  forall ts x, (forall k i, In i (level h k x) -> retimed f (sob h i) (sob h' i)) -> sprout h ts x -> sprout h' ts x.
Proof.
  intros F Ec Len Et. induction ts as [|t r IH]; intros x M S; [destruct S|]. pose proof S as (S1 & S2 & S3 & S4 & S5).
  pose proof (M 0%nat x ltac:(simpl; auto)) as Mx. pose proof Mx as (C1 & C2 & C3 & C4 & C5 & C6).
  split; [lia|]. split; [rewrite Et; congruence|]. split; [congruence|]. split; [eapply moved_dated; eauto|]. rewrite C4.
  destruct r as [|u r]; [exact S5|]. destruct S5 as ((s & e & F1 & F2 & F3 & F4) & (B1 & B2) & K).
  assert (Mk : forall y k i, In y (s_subset (sob h x)) -> In i (level h k y) -> retimed f (sob h i) (sob h' i)).
  { intros y k i Hy Hi. apply (M (Datatypes.S k) i). cbn [level]. apply in_flat_map. eauto. }
  assert (M0 : forall y, In y (s_subset (sob h x)) -> retimed f (sob h y) (sob h' y)) by (intros y Hy; apply (Mk y 0%nat y Hy); simpl; auto).
  split; [|split].
  - exists (f s), (f e). rewrite C5, C6, F1, F2. split; [reflexivity|]. split; [reflexivity|]. split; [apply F, F3|]. apply (moved_tiles h h' f F); auto.
  - unfold brood. rewrite C4. split; [exact B1|]. intros y Hy. destruct (B2 y Hy) as (Y1 & Y2 & Y3 & Y4). destruct (M0 y Hy) as (D1 & D2 & D3 & _).
    split; [lia|]. split; [congruence|]. split; [congruence|]. intros z Hz. destruct (Y4 z Hz) as (Z1 & Z2). destruct (M0 z Hz) as (E1 & _). split; [congruence|].
    intros V. apply Z2. apply (moved_value h h' f); auto; [apply (K y Hy)|apply (K z Hz)].
  - intros y Hy. apply IH; [|apply K, Hy]. intros k i Hi. apply (Mk y k i Hy Hi).
Qed.

Definition under (h : heap) (X : list oid) (i : oid) : Prop := exists x k, In x X /\ In i (level h k x).
Definition later (d a : Z) : Z := fadd a d.
Lemma shift_tree h ts x d : NoDup (map (fun t => t_ec (tob h t)) ts) -> sprout h ts x ->
  (forall t, In t ts -> issubclass h (t_ec (tob h t)) cPoint = false) ->
  exists h1, seq_shift d x h = Ok tt h1 /\ h_cls h1 = h_cls h /\ h_tier h1 = h_tier h /\ h_grp h1 = h_grp h /\ h_grid h1 = h_grid h /\
    List.length (h_seq h1) = List.length (h_seq h) /\
    (forall i, under h [x] i -> retimed (later d) (sob h i) (sob h1 i)) /\ (forall i, ~ under h [x] i -> sob h1 i = sob h i).
Proof.
  intros Nd Sx Np. destruct (tree_below h ts x Nd Sx) as (ns & B & D & I).
  assert (At : forall i, In i ns -> live h i /\ dated h i /\ is_pt h i = false).
  { intros i Hi. apply I in Hi. destruct Hi as (k & Hk). assert (Lk : (k < List.length ts)%nat).
    { destruct (decide (k < List.length ts)%nat); [auto|]. rewrite (sprout_end h ts x k Sx) in Hk by lia. destruct Hk. }
    destruct (sprout_at h k ts x i Sx Hk Lk) as (w & W1 & W2 & W3 & _ & W4). split; [exact W2|]. split; [exact W4|]. unfold is_pt, is_point_cls. rewrite W3.
    apply Np. eapply nth_error_In; eauto. }
  exists (shifts d ns h). split.
  { apply seq_shift_forest; auto. intros y Hy. destruct (At y Hy) as (L & (A1 & A2 & _) & P). split; [exact L|]. split; [congruence|]. split; [congruence|]. congruence. }
  destruct (shifts_frame d ns h) as (F1 & F2 & F3 & F4). destruct (shifts_shape d ns h) as (_ & F5 & _). repeat (split; [assumption|]).
  assert (U : forall i, under h [x] i <-> In i ns).
  { intros i. rewrite I. split; [intros (y & k & [<-|[]] & Hk); eauto|]. intros (k & Hk). exists x, k. simpl; auto. }
  split.
  - intros i Hi. apply U in Hi. destruct (At i Hi) as (L & _ & P). rewrite (sob_shifts_in d ns h i D Hi L), P. cbn. unfold retimed, later. cbn. auto 10.
  - intros i Hi. apply sob_shifts_notin. intros Q. apply Hi, U, Q.
Qed.
Lemma level_local h h' x : (forall k i, In i (level h k x) -> s_subset (sob h' i) = s_subset (sob h i)) -> forall k, level h' k x = level h k x.
Proof.
  intros E. induction k as [|k IH]; [reflexivity|]. rewrite !level_snoc, IH. specialize (E k). revert E. generalize (level h k x). clear.
  intros l E. induction l as [|y l IHl]; [reflexivity|]. cbn [flat_map]. rewrite (E y) by (simpl; auto). f_equal. apply IHl. intros z Hz. apply E. simpl; auto.
Qed.
Lemma good_untouched h h' g ts bss : good_group h g ts bss -> h_cls h' = h_cls h -> h_tier h' = h_tier h -> h_grp h' = h_grp h ->
  List.length (h_seq h') = List.length (h_seq h) -> (forall t x, In t ts -> In x (t_seq (tob h t)) -> sob h' x = sob h x) ->
  (forall k, is_boundary h k -> is_boundary h' k) -> good_group h' g ts bss.
Proof.
  intros GG E1 E2 E3 E4 Es Bd. assert (Et : forall t, tob h' t = tob h t) by (intros t; unfold tob; rewrite E2; reflexivity).
  assert (Eg : forall t, gob h' t = gob h t) by (intros t; unfold gob; rewrite E3; reflexivity).
  apply (good_same h h' g ts bss); rewrite ?Eg; auto.
  - rewrite E3. apply GG.
  - rewrite E2. reflexivity.
  - lia.
  - intros t x Ht Hx. rewrite (Es t x Ht Hx). split; [apply GroupFinal.kept_refl|auto].
  - intros t x Ht Hx. rewrite (Es t x); [reflexivity| |exact Hx]. revert Ht. clear. induction ts as [|a l IH]; [intros []|]. destruct l as [|b l]; [intros []|].
    intros [->|Ht]; [simpl; auto|]. right. apply IH, Ht.
  - intros x y. apply issubclass_ext. exact E1.
  - apply (classes_joined_same h h'); auto. intros t _. rewrite Et. reflexivity. apply GG.
Qed.
Lemma splice_tops n g t r d : (forall a b, a < b -> fadd a d < fadd b d) -> (List.length (t :: r) < n)%nat -> forall X h bss,
  good_group h g (t :: r) bss -> (forall u, In u (t :: r) -> housed h u) ->
  (forall x, In x X -> sprout h (t :: r) x /\ s_super (sob h x) = None) -> NoDup X ->
  (forall i u, under h X i -> In u (t :: r) -> ~ In i (t_seq (tob h u))) -> in_turn h X ->
  (forall a x, In a (t_seq (tob h t)) -> In x X -> exists e s, s_end (sob h a) = Some e /\ s_start (sob h x) = Some s /\ e <= fadd s d) ->
  exists h' bss', forM X (concat_one n (Some d) t) h = Ok tt h' /\ good_group h' g (t :: r) bss' /\ (forall u, In u (t :: r) -> housed h' u) /\
    t_seq (tob h' t) = (t_seq (tob h t) ++ X)%list /\
    (forall i, under h X i -> retimed (later d) (sob h i) (sob h' i)) /\
    (forall i, live h i -> ~ under h X i -> same_self (sob h i) (sob h' i)) /\
    (forall i, live h i -> ~ under h X i -> (forall u, In u (t :: r) -> ~ In i (t_seq (tob h u))) -> sob h' i = sob h i) /\
    (List.length (h_seq h) <= List.length (h_seq h'))%nat /\
    (forall i, (List.length (h_seq h) <= i < List.length (h_seq h'))%nat -> is_boundary h' i) /\
    h_cls h' = h_cls h /\ h_grid h' = h_grid h /\ List.length (h_tier h') = List.length (h_tier h) /\
    (forall u, ~ In u (t :: r) -> tob h' u = tob h u) /\
    (forall u, t_ec (tob h' u) = t_ec (tob h u) /\ t_name (tob h' u) = t_name (tob h u)) /\
    List.length (h_grp h') = List.length (h_grp h) /\ (forall k, k <> g -> gob h' k = gob h k).
Proof.
  intros Fd Fu. induction X as [|x X IH]; intros h bss GG Ho Sp Nx Di Tu Ti.
  { exists h, bss. split; [reflexivity|]. split; [exact GG|]. split; [exact Ho|]. split; [rewrite app_nil_r; reflexivity|].
    split; [intros i (y & k & [] & _)|]. split; [intros i _ _; unfold same_self; auto 10|]. split; [auto|]. split; [lia|]. split; [intros i Hi; lia|]. auto 15. }
  pose proof GG as (G1 & G2 & G3 & G4 & G5 & G6 & G7 & G8 & G9 & G10).
  destruct (Sp x ltac:(simpl; auto)) as (Sx & Ux). apply NoDup_cons in Nx. destruct Nx as [Nx NX]. rewrite elem_of_list_In in Nx.
  assert (Nd : NoDup (map (fun t => t_ec (tob h t)) (t :: r))) by apply G5.
  destruct (shift_tree h (t :: r) x d Nd Sx) as (h1 & E1 & Q1 & Q2 & Q3 & Q4 & Q5 & Mv & Un). { intros u Hu. apply G9, Hu. }
  assert (Et : forall u, tob h1 u = tob h u) by (intros u; unfold tob; rewrite Q2; reflexivity).
  assert (Ux1 : forall i, under h [x] i -> live h i /\ s_label (sob h i) <> "#"%string).
  { intros i (y & k & [<-|[]] & Hk). assert (Lk : (k < List.length (t :: r))%nat).
    { destruct (decide (k < List.length (t :: r))%nat); [auto|]. rewrite (sprout_end h (t :: r) x k Sx) in Hk by lia. destruct Hk. }
    destruct (sprout_at h k (t :: r) x i Sx Hk Lk) as (w & W1 & W2 & W3 & W4 & _). auto. }
  assert (Bd1 : forall k, is_boundary h k -> is_boundary h1 k).
  { intros k Bk. assert (Nk : ~ under h [x] k). { intros U. apply Ux1 in U. destruct Bk as (_ & Q & _). apply U, Q. }
    unfold is_boundary. rewrite (Un k Nk), Q5. exact Bk. }
  assert (Ent : forall u y, In u (t :: r) -> In y (t_seq (tob h u)) -> sob h1 y = sob h y).
  { intros u y Hu Hy. apply Un. intros (z & k & [<-|[]] & Hk). apply (Di y u); auto. exists x, k. simpl; auto. }
  assert (GG1 : good_group h1 g (t :: r) bss) by (apply (good_untouched h h1); auto).
  assert (Ho1 : forall u, In u (t :: r) -> housed h1 u).
  { intros u Hu. destruct (Ho u Hu) as (C & I). split; [unfold classed; rewrite Et; exact C|]. intros y Hy. rewrite Et in Hy. rewrite (Ent u y Hu Hy). apply I, Hy. }
  assert (Mx : retimed (later d) (sob h x) (sob h1 x)) by (apply Mv; exists x, 0%nat; simpl; auto).
  assert (Sx1 : sprout h1 (t :: r) x).
  { apply (moved_sprout h h1 (later d)); auto; [lia|intros u; rewrite Et; reflexivity|]. intros k i Hi. apply Mv. exists x, k. simpl; auto. }
  pose proof Mx as (M1 & M2 & M3 & M4 & M5 & M6).
  destruct (c50_append n h1 g t r bss x (t_seq (tob h t)) [] GG1 Ho1 Sx1) as (h2 & bss2 & E2 & GG2 & T2 & Rows & Gr); auto.
  { congruence. }
  { rewrite Et, app_nil_r. reflexivity. }
  { intros a Ha. destruct (Ti a x Ha ltac:(simpl; auto)) as (e & s & A1 & A2 & A3). exists e, (fadd s d). rewrite (Ent t a ltac:(simpl; auto) Ha).
    split; [exact A1|]. split; [|exact A3]. rewrite M5, A2. reflexivity. }
  { intros b []. }
  destruct Gr as (R1 & R2 & R0 & R3 & R4 & R5 & R6 & R7 & R8 & R9 & R10).
  assert (Ho2 : forall u, In u (t :: r) -> housed h2 u). { intros u Hu. destruct (In_nth_error _ _ Hu) as [k Hk]. apply (Rows k u Hk). }
  (* what is below [x] and what is not *)
  assert (Lv : forall i k y, In y (x :: X) -> In i (level h k y) -> live h i).
  { intros i k y Hy Hi. destruct (Sp y Hy) as (Sy & _). assert (Lk : (k < List.length (t :: r))%nat).
    { destruct (decide (k < List.length (t :: r))%nat); [auto|]. rewrite (sprout_end h (t :: r) y k Sy) in Hi by lia. destruct Hi. }
    destruct (sprout_at h k (t :: r) y i Sy Hi Lk) as (w & _ & W & _). exact W. }
  assert (Apart : forall i, under h X i -> ~ under h [x] i).
  { intros i (y & k & Hy & Hk) (z & k' & [<-|[]] & Hk'). destruct (Sp y ltac:(simpl; auto)) as (Sy & _).
    destruct (one_root h (t :: r) Nd k k' y x i Sy Sx Hk Hk') as (_ & ->). auto. }
  assert (Lev : forall k, level h1 k x = level h k x).
  { apply level_local. intros k i Hi. destruct (Mv i) as (_ & _ & _ & Q & _); [exists x, k; simpl; auto|exact Q]. }
  assert (Row2 : forall k u i, nth_error (t :: r) k = Some u -> In i (t_seq (tob h2 u)) -> In i (t_seq (tob h u)) \/ under h [x] i).
  { intros k u i Hu Hi. destruct (Rows k u Hu) as (_ & Ak & Bk & Z1 & Z2). rewrite Et in Z1. rewrite Z2 in Hi. rewrite Z1, Lev in *. rewrite !in_app_iff in *.
    destruct Hi as [Hi|[Hi|Hi]]; auto. right. exists x, k. simpl; auto. }
  assert (Out : forall i, live h i -> ~ under h [x] i -> (forall u, In u (t :: r) -> ~ In i (t_seq (tob h u))) -> sob h2 i = sob h i).
  { intros i Li Ni Hi. rewrite R2; [apply Un, Ni|unfold live in Li; lia|]. intros (u & Hu & Q). destruct (In_nth_error _ _ Hu) as [k Hk].
    destruct (Row2 k u i Hk Q) as [Q'|Q']; [apply (Hi u Hu Q')|apply Ni, Q']. }
  assert (OutX : forall i, under h X i -> sob h2 i = sob h i).
  { intros i Hi. pose proof Hi as (y & k & Hy & Hk). apply Out; [eapply Lv; [right; exact Hy|exact Hk]|apply Apart, Hi|].
    intros u Hu. apply Di; [|exact Hu]. exists y, k. simpl; auto. }
  assert (LevX : forall y, In y X -> forall k, level h2 k y = level h k y).
  { intros y Hy. apply level_local. intros k i Hi. rewrite OutX; [reflexivity|]. exists y, k. auto. }
  assert (UnX : forall i, under h2 X i <-> under h X i).
  { intros i. split; intros (y & k & Hy & Hk); exists y, k; (split; [exact Hy|]); [rewrite <- (LevX y Hy)|rewrite (LevX y Hy)]; exact Hk. }
  (* the rest *)
  assert (Mv2 : forall i, under h [x] i -> retimed (later d) (sob h i) (sob h2 i)).
  { intros i Hi. destruct (Ux1 i Hi) as (Li & _). destruct (Mv i Hi) as (A1 & A2 & A3 & A4 & A5 & A6). destruct (R1 i ltac:(unfold live in Li; lia)) as (B1 & B2 & B3 & B4 & B5 & B6).
    unfold retimed. repeat split; congruence. }
  assert (Se2 : forall i, live h i -> ~ under h [x] i -> same_self (sob h i) (sob h2 i)).
  { intros i Li Hi. destruct (R1 i ltac:(unfold live in Li; lia)) as (B1 & B2 & B3 & B4 & B5 & B6). rewrite (Un i Hi) in *. unfold same_self. auto 10. }
  destruct (IH h2 bss2 GG2 Ho2) as (h3 & bss3 & E3 & GG3 & Ho3 & T3 & P1 & P2 & P3 & P4 & P5 & P6 & P7 & P8 & P9 & P10 & P11 & P12).
  - intros y Hy. destruct (Sp y ltac:(simpl; auto)) as (Sy & Uy). split.
    + apply (moved_sprout h h2 (fun a => a)); auto; [congruence|lia|intros u; rewrite (proj1 (R8 u)), Et; reflexivity|].
      intros k i Hi. rewrite OutX; [|exists y, k; auto]. unfold retimed. repeat (split; [reflexivity|]). split; [destruct (s_start (sob h i)) as [?|]; reflexivity|destruct (s_end (sob h i)) as [?|]; reflexivity].
    + rewrite OutX; [exact Uy|]. exists y, 0%nat. simpl; auto.
  - exact NX.
  - intros i u Hi Hu Q. apply UnX in Hi. destruct (In_nth_error _ _ Hu) as [k Hk]. destruct (Row2 k u i Hk Q) as [Q'|Q']; [|apply (Apart i Hi Q')].
    apply (Di i u); auto. destruct Hi as (y & j & Hy & Hj). exists y, j. simpl; auto.
  - assert (E : forall y, In y X -> sob h2 y = sob h y) by (intros y Hy; apply OutX; exists y, 0%nat; simpl; auto).
    apply (in_turn_same h h2); [intros y Hy; rewrite (E y Hy); auto|]. intros i j a b Hij Ha Hb. apply (Tu (Datatypes.S i) (Datatypes.S j) a b); auto. lia.
  - intros a y Ha Hy. rewrite T2 in Ha. assert (E : sob h2 y = sob h y) by (apply OutX; exists y, 0%nat; simpl; auto). rewrite E.
    apply in_app_iff in Ha. destruct Ha as [Ha|[<-|[]]].
    + destruct (Ti a y Ha ltac:(simpl; auto)) as (e & s & A1 & A2 & A3). exists e, s. split; [|auto].
      assert (La : live h a). { destruct (G9 t ltac:(simpl; auto)) as (_ & (_ & Q) & _). apply (Q a Ha). }
      destruct (R1 a ltac:(unfold live in La; lia)) as (_ & _ & B3 & _). rewrite B3, (Ent t a ltac:(simpl; auto) Ha). exact A1.
    + destruct (In_nth_error _ _ Hy) as [j Hj]. destruct (Tu 0%nat (Datatypes.S j) x y ltac:(lia) eq_refl Hj) as (e & s & A1 & A2 & A3).
      exists (fadd e d), s. split; [|split; [exact A2|]].
      * destruct (Mv2 x) as (_ & _ & _ & _ & _ & ->); [exists x, 0%nat; simpl; auto|]. rewrite A1. reflexivity.
      * destruct (Z.eq_dec e s) as [->|]; [lia|]. assert (fadd e d < fadd s d) by (apply Fd; lia). lia.
  - assert (Split : forall i, under h (x :: X) i -> under h [x] i \/ under h X i).
    { intros i (y & k & [<-|Hy] & Hk); [left; exists x, k; simpl; auto|right; exists y, k; auto]. }
    assert (In1 : forall i, under h [x] i -> under h (x :: X) i) by (intros i (y & k & [<-|[]] & Hk); exists x, k; simpl; auto).
    assert (In2 : forall i, under h X i -> under h (x :: X) i) by (intros i (y & k & Hy & Hk); exists y, k; simpl; auto).
    exists h3, bss3. split; [|split; [exact GG3|split; [exact Ho3|]]].
    { cbn [forM]. assert (E : concat_one n (Some d) t x h = Ok tt h2); [|rewrite (bind_ok _ _ _ _ _ E); exact E3].
      unfold concat_one. rewrite bind_gets. unfold is_point_cls. destruct Sx as (_ & Cx & _). rewrite Cx.
      destruct (G9 t ltac:(simpl; auto)) as (_ & _ & Np). rewrite Np. rewrite bind_get_seq, Ux, bind_gets.
      assert (Nin : existsb (Nat.eqb x) (t_seq (tob h t)) = false).
      { apply not_true_iff_false. intros Q. apply existsb_exists in Q. destruct Q as (y & Hy & Ey). apply Nat.eqb_eq in Ey. subst y.
        apply (Di x t); [exists x, 0%nat; simpl; auto|simpl; auto|exact Hy]. }
      rewrite Nin. rewrite (bind_ok _ _ _ _ _ E1). exact E2. }
    split; [rewrite T3, T2, <- app_assoc; reflexivity|].
    split. { intros i Hi. apply Split in Hi. destruct Hi as [Hi|Hi].
      - destruct (Ux1 i Hi) as (Li & _). assert (N2 : ~ under h2 X i) by (intros Q; apply UnX in Q; apply (Apart i Q Hi)).
        destruct (P2 i ltac:(unfold live in *; lia) N2) as (B1 & B2 & B3 & B4 & B5 & B6). destruct (Mv2 i Hi) as (A1 & A2 & A3 & A4 & A5 & A6). unfold retimed. repeat split; congruence.
      - rewrite <- (OutX i Hi). apply P1, UnX, Hi. }
    split. { intros i Li Ni. destruct (Se2 i Li ltac:(auto)) as (A1 & A2 & A3 & A4 & A5 & A6).
      destruct (P2 i ltac:(unfold live in *; lia)) as (B1 & B2 & B3 & B4 & B5 & B6); [intros Q; apply Ni, In2, UnX, Q|]. unfold same_self. repeat split; congruence. }
    split. { intros i Li Ni Nu. rewrite <- (Out i Li ltac:(auto) Nu). apply P3; [unfold live in *; lia|intros Q; apply Ni, In2, UnX, Q|].
      intros u Hu Q. destruct (In_nth_error _ _ Hu) as [k Hk]. destruct (Row2 k u i Hk Q) as [Q'|Q']; [apply (Nu u Hu Q')|apply Ni, In1, Q']. }
    split; [lia|]. split.
    { intros i Hi. destruct (decide (i < List.length (h_seq h2))%nat) as [Q|Q]; [|apply P5; lia].
      assert (B : is_boundary h2 i) by (apply R3; lia).
      assert (E : sob h3 i = sob h2 i).
      { apply P3; [exact Q| |].
        - intros U. apply UnX in U. destruct U as (y & k & Hy & Hk). pose proof (Lv i k y ltac:(simpl; auto) Hk). unfold live in *. lia.
        - intros u Hu Qi. destruct GG2 as (_ & _ & _ & _ & _ & _ & _ & _ & G9' & _). destruct (G9' u Hu) as (_ & (_ & L) & _). destruct (L i Qi) as (_ & _ & L3). destruct B as (_ & B2 & _). auto. }
      unfold is_boundary. rewrite E. destruct B as (B1 & B). split; [lia|exact B]. }
    split; [congruence|]. split; [congruence|]. split; [congruence|]. split; [intros u Hu; rewrite P9, R7, Et by exact Hu; reflexivity|].
    split. { intros u. destruct (P10 u) as (-> & ->). destruct (R8 u) as (-> & ->). rewrite Et. auto. }
    split; [congruence|]. intros k Hk. rewrite P12, R10 by exact Hk. unfold gob. rewrite Q3. reflexivity.
Qed.

(** ** Everything in a tier *)
Lemma tiles_in h y : forall l a b, tiles h a l b -> In y l -> exists s e, s_start (sob h y) = Some s /\ s_end (sob h y) = Some e /\ a <= s /\ s < e /\ e <= b.
Proof.
  induction l as [|x l IH]; intros a b T Hy; [destruct Hy|]. destruct T as (m & T1 & T2 & T3 & T4). pose proof (tiles_le h l m b T4). destruct Hy as [->|Hy].
  - exists a, m. split; [exact T1|]. split; [exact T2|]. lia.
  - destruct (IH m b T4 Hy) as (s & e & A & B & C). exists s, e. split; [exact A|]. split; [exact B|]. lia.
Qed.
Lemma snug_inside h : forall ts bss t, snug h (t :: ts) bss -> (forall x, In x (t_seq (tob h t)) -> dated h x) -> forall u, In u (t :: ts) ->
  (forall y, In y (t_seq (tob h u)) -> dated h y /\ exists x e e', In x (t_seq (tob h t)) /\ s_end (sob h y) = Some e /\ s_end (sob h x) = Some e' /\ e <= e') /\
  (t_seq (tob h t) <> [] -> t_seq (tob h u) <> []).
Proof.
  induction ts as [|v ts IH]; intros bss t S D u Hu.
  - destruct Hu as [->|[]]. split; [|auto]. intros y Hy. split; [auto|]. destruct (D y Hy) as (_ & Q & _). exists y, (snd (span_of h y)), (snd (span_of h y)). auto using Z.le_refl.
  - destruct bss as [|bs bss]; [destruct S|]. rewrite snug_cons in S. destruct S as (S1 & S2 & S3).
    assert (B : forall y, In y (t_seq (tob h v)) -> dated h y /\ exists x e e', In x (t_seq (tob h t)) /\ s_end (sob h y) = Some e /\ s_end (sob h x) = Some e' /\ e <= e').
    { intros y Hy. rewrite <- S1 in Hy. clear -S2 Hy. revert Hy. induction S2 as [|x b l bs (s & e & F1 & F2 & F3 & F4) F IHF]; intros Hy; [destruct Hy|].
      cbn [concat] in Hy. apply in_app_iff in Hy. destruct Hy as [Hy|Hy].
      - destruct (tiles_in h y b s e F4 Hy) as (s' & e' & A1 & A2 & A3 & A4 & A5). split; [apply (dated_by h y s' e' A1 A2 A4)|]. exists x, e', e. simpl; auto.
      - destruct (IHF Hy) as (Q1 & x' & Q2 & Q3 & Q4 & Q5). split; [exact Q1|]. exists x', Q2, Q3. simpl; auto. }
    assert (Ne : t_seq (tob h t) <> [] -> t_seq (tob h v) <> []).
    { intros N. rewrite <- S1. inversion S2 as [E|x b l bs' Fx F E1 E2]; [congruence|]. cbn [concat]. pose proof (fills_nonempty h x b Fx) as Nb. destruct b; [congruence|discriminate]. }
    destruct Hu as [->|Hu].
    + split; [|auto]. intros y Hy. split; [auto|]. destruct (D y Hy) as (_ & Q & _). exists y, (snd (span_of h y)), (snd (span_of h y)). auto using Z.le_refl.
    + destruct (IH bss v S3 ltac:(intros x Hx; apply (B x Hx)) u Hu) as (I1 & I2). split; [|auto]. intros y Hy. destruct (I1 y Hy) as (Q1 & x & e & e' & Q2 & Q3 & Q4 & Q5). split; [exact Q1|].
      destruct (B x Q2) as (_ & z & e1 & e2 & Z1 & Z2 & Z3 & Z4). exists z, e, e2. split; [exact Z1|]. split; [exact Q3|]. split; [exact Z3|]. assert (e1 = e') by congruence. lia.
Qed.
Lemma snug_sprout h : forall ts bss t, snug h (t :: ts) bss -> related_tiers h (t :: ts) bss -> (forall u, In u (t :: ts) -> fit_tier h u) ->
  (forall u y, In u (t :: ts) -> In y (t_seq (tob h u)) -> dated h y) -> bare_bottom h (t :: ts) -> forall x, In x (t_seq (tob h t)) -> sprout h (t :: ts) x.
Proof.
  induction ts as [|v ts IH]; intros bss t S R Fi D Bb x Hx; destruct (Fi t ltac:(simpl; auto)) as ((_ & Lk) & _ & _); destruct (Lk x Hx) as (L1 & L2 & L3).
  - split; [exact L1|]. split; [exact L2|]. split; [exact L3|]. split; [apply (D t x); simpl; auto|]. apply (Bb t x); auto.
  - split; [exact L1|]. split; [exact L2|]. split; [exact L3|]. split; [apply (D t x); simpl; auto|].
    destruct bss as [|bs bss]; [destruct S|]. rewrite snug_cons in S. destruct S as (S1 & S2 & S3). rewrite related_cons in R. destruct R as (R1 & R2).
    assert (Bl : fills h x (s_subset (sob h x)) /\ incl (s_subset (sob h x)) (t_seq (tob h v)) /\ forall y, In y (s_subset (sob h x)) -> s_super (sob h y) = Some x).
    { rewrite <- S1. clear -Hx S2 R1. revert bs S2 R1 Hx. induction (t_seq (tob h t)) as [|a l IHl]; intros bs S2 R1 Hx; [destruct Hx|].
      inversion S2 as [|? b ? bs' Fa Fr]; subst. inversion R1 as [|? ? ? ? (P1 & _ & P2) Rr]; subst. destruct Hx as [->|Hx].
      - split; [exact Fa|]. split; [cbn [concat]; intros y Hy; apply in_app_iff; auto|]. intros y Hy. apply P2, Hy.
      - destruct (IHl bs' Fr Rr Hx) as (A & B & C). split; [exact A|]. split; [|exact C]. intros y Hy. cbn [concat]. apply in_app_iff. right. apply B, Hy. }
    destruct Bl as (B1 & B2 & B3). split; [exact B1|]. split.
    + pose proof (fills_nonempty h x _ B1) as Ne. destruct (s_subset (sob h x)) as [|y l] eqn:E; [congruence|].
      destruct (Fi v ltac:(simpl; auto)) as (_ & _ & Ff). apply (Ff y); [apply B2; simpl; auto|apply B3; simpl; auto].
    + intros y Hy. apply (IH bss v S3 R2); [intros u Hu; apply Fi; right; exact Hu|intros u z Hu Hz; apply (D u z); [right; exact Hu|exact Hz]| |apply B2, Hy].
      intros w z Hw Hz. apply (Bb w z); [|exact Hz]. cbn [rev] in *. destruct (rev ts ++ [v])%list eqn:E; [destruct (rev ts); discriminate|]. exact Hw.
Qed.
Lemma sprout_ecs h : forall ts ts2 x, map (fun t => t_ec (tob h t)) ts = map (fun t => t_ec (tob h t)) ts2 -> sprout h ts2 x -> sprout h ts x.
Proof.
  induction ts as [|t r IH]; intros ts2 x E S; destruct ts2 as [|t2 r2]; try discriminate; [destruct S|]. cbn [map] in E. injection E as E1 E2.
  destruct S as (S1 & S2 & S3 & S4 & S5). split; [exact S1|]. split; [congruence|]. split; [exact S3|]. split; [exact S4|].
  destruct r as [|u r]; destruct r2 as [|u2 r2]; try discriminate; [exact S5|]. destruct S5 as (F & B & K). split; [exact F|]. split; [exact B|].
  intros y Hy. apply (IH (u2 :: r2) y E2), K, Hy.
Qed.
Lemma skip_lower n inc : forall r r2 h, (forall u x, In u r2 -> In x (t_seq (tob h u)) -> is_point h x = false /\ s_super (sob h x) <> None) ->
  concat_tiers n inc r r2 h = Ok tt h.
Proof.
  induction r as [|t r IH]; intros r2 h K; [reflexivity|]. destruct r2 as [|t2 r2]; [reflexivity|]. cbn [concat_tiers]. rewrite bind_gets.
  assert (E : forall l, (forall x, In x l -> is_point h x = false /\ s_super (sob h x) <> None) -> forM l (concat_one n inc t) h = Ok tt h).
  { induction l as [|x l IHl]; intros Kl; [reflexivity|]. cbn [forM]. destruct (Kl x ltac:(simpl; auto)) as (K1 & K2).
    assert (Ex : concat_one n inc t x h = Ok tt h).
    { unfold concat_one. rewrite bind_gets. unfold is_point_cls. unfold is_point in K1. rewrite K1, bind_get_seq. destruct (s_super (sob h x)); [reflexivity|congruence]. }
    rewrite (bind_ok _ _ _ _ _ Ex). apply IHl. intros y Hy. apply Kl. simpl; auto. }
  rewrite (bind_ok _ _ _ _ _ (E _ ltac:(intros x Hx; apply (K t2 x); [simpl; auto|exact Hx]))). apply IH. intros u x Hu Hx. apply (K u x); [simpl; auto|exact Hx].
Qed.
Lemma c55_concat : forall n h g t r bss g2 t2 r2 bss2 d,
  good_group h g (t :: r) bss -> (forall u, In u (t :: r) -> housed h u) ->
  good_group h g2 (t2 :: r2) bss2 -> bare_bottom h (t2 :: r2) ->
  map (fun u => t_ec (tob h u)) (t :: r) = map (fun u => t_ec (tob h u)) (t2 :: r2) ->
  (forall x, In x (entries_of h (t :: r)) -> ~ In x (entries_of h (t2 :: r2))) ->
  greatest (ends_on h t) d ->
  (forall a b, a < b -> fadd a d < fadd b d) -> (forall a, starts_on h t2 a -> d <= fadd a d) ->
  (List.length (t :: r) < n)%nat ->
  exists h' bss', grp_concat n g g2 h = Ok tt h' /\ good_group h' g (t :: r) bss' /\ (forall u, In u (t :: r) -> housed h' u) /\
    spliced (fun a => fadd a d) g (t :: r) (t2 :: r2) h h'.
Proof.
  intros n h g t r bss g2 t2 r2 bss2 d GG Ho GG2 Bb Ec Dj Gd Fd Fs Fu.
  pose proof GG as (G1 & G2 & G3 & G4 & G5 & G6 & G7 & G8 & G9 & G10). pose proof GG2 as (L1 & L2 & L3 & L4 & L5 & L6 & L7 & L8 & L9 & L10).
  destruct (G10 t eq_refl) as (Tu & Td). destruct (L10 t2 eq_refl) as (Tu2 & Td2).
  pose proof (snug_inside h r bss t G7 ltac:(intros x Hx; apply (Td x Hx))) as Ins.
  pose proof (snug_inside h r2 bss2 t2 L7 ltac:(intros x Hx; apply (Td2 x Hx))) as Ins2.
  assert (Np : forall u x, In u (t :: r) -> In x (t_seq (tob h u)) -> is_point h x = false).
  { intros u x Hu Hx. destruct (G9 u Hu) as (_ & (_ & Q) & P). destruct (Q x Hx) as (_ & C & _). apply (nonpoint h x _ C P). }
  assert (Np2 : forall u x, In u (t2 :: r2) -> In x (t_seq (tob h u)) -> is_point h x = false).
  { intros u x Hu Hx. destruct (L9 u Hu) as (_ & (_ & Q) & P). destruct (Q x Hx) as (_ & C & _). apply (nonpoint h x _ C P). }
  assert (Ne : t_seq (tob h t) <> []). { destruct Gd as ((x & Hx & _) & _). intros Q. rewrite Q in Hx. destruct Hx. }
  assert (Xm : grp_xmax g h = Ok (Some d) h).
  { destruct (c20_group h g G2) as (a & b & _ & X & _ & (Gb1 & Gb2)).
    - rewrite G3. discriminate.
    - rewrite G3. intros u Hu. destruct (Ins u Hu) as (I1 & I2). split; [|auto]. intros x Hx. destruct (I1 x Hx) as ((D1 & D2 & _) & _). split; [congruence|].
      unfold end_at. rewrite (Np u x Hu Hx). congruence.
    - rewrite G3 in *. assert (b = d); [|subst b; exact X]. apply Z.le_antisymm.
      + destruct Gb1 as (u & Hu & x & Hx & Ex). unfold end_at in Ex. rewrite (Np u x Hu Hx) in Ex. destruct (Ins u Hu) as (I1 & _). destruct (I1 x Hx) as (_ & y & e & e' & Y1 & Y2 & Y3 & Y4).
        destruct Gd as (_ & Gd). assert (e' <= d); [|assert (e = b) by congruence; lia]. apply Gd. exists y. split; [exact Y1|]. unfold end_at. rewrite (Np t y ltac:(simpl; auto) Y1). exact Y3.
      + apply Gb2. exists t. split; [simpl; auto|apply Gd]. }
  assert (Ent2 : forall i, under h (t_seq (tob h t2)) i <-> In i (entries_of h (t2 :: r2))).
  { intros i. unfold entries_of. rewrite in_flat_map. split.
    - intros (x & k & Hx & Hk). assert (Sx : sprout h (t2 :: r2) x).
      { apply (snug_sprout h r2 bss2 t2 L7 L8); auto; [apply (good_fit h g2 _ bss2 GG2)|]. intros u y Hu Hy. apply (Ins2 u Hu), Hy. }
      destruct (nth_error (t2 :: r2) k) as [u|] eqn:Q; [|apply nth_error_None in Q; rewrite (sprout_end h _ x k Sx Q) in Hk; destruct Hk].
      exists u. split; [eapply nth_error_In; eauto|]. rewrite (rows_levels h r2 bss2 t2 L7 L8 k u Q). apply in_flat_map. eauto.
    - intros (u & Hu & Hi). destruct (In_nth_error _ _ Hu) as [k Hk]. rewrite (rows_levels h r2 bss2 t2 L7 L8 k u Hk) in Hi. apply in_flat_map in Hi.
      destruct Hi as (x & Hx & Hi). exists x, k. auto. }
  assert (Tops : forall x, In x (t_seq (tob h t2)) -> sprout h (t :: r) x /\ s_super (sob h x) = None).
  { intros x Hx. split; [|apply (Td2 x Hx)]. apply (sprout_ecs h (t :: r) (t2 :: r2) x Ec).
    apply (snug_sprout h r2 bss2 t2 L7 L8); auto; [apply (good_fit h g2 _ bss2 GG2)|]. intros u y Hu Hy. apply (Ins2 u Hu), Hy. }
  destruct (splice_tops n g t r d Fd Fu (t_seq (tob h t2)) h bss GG Ho Tops) as (h' & bss' & E' & GG' & Ho' & T' & P1 & P2 & P3 & P4 & P5 & P6 & P7 & P8 & P9 & P10 & P11 & P12).
  { destruct (L9 t2 ltac:(simpl; auto)) as (_ & (Q & _) & _). exact Q. }
  { intros i u Hi Hu Q. apply Ent2 in Hi. apply (Dj i); [|exact Hi]. unfold entries_of. apply in_flat_map. eauto. }
  { exact Tu2. }
  { intros a x Ha Hx. destruct (Td a Ha) as ((_ & A & _) & _). destruct (Td2 x Hx) as ((B & _) & _). exists (snd (span_of h a)), (fst (span_of h x)). split; [exact A|]. split; [exact B|].
    assert (snd (span_of h a) <= d). { apply (proj2 Gd). exists a. split; [exact Ha|]. unfold end_at. rewrite (Np t a ltac:(simpl; auto) Ha). exact A. }
    assert (d <= fadd (fst (span_of h x)) d) by (apply Fs; exists x; auto). lia. }
  assert (Ng : g2 <> g).
  { intros ->. assert (Q : t :: r = t2 :: r2) by congruence. injection Q as -> ->. destruct (t_seq (tob h t2)) as [|a l] eqn:E; [congruence|].
    assert (I : In a (entries_of h (t2 :: r2))) by (unfold entries_of; cbn [flat_map]; rewrite E; simpl; auto). apply (Dj a I I). }
  assert (Nt : forall u, In u (t2 :: r2) -> ~ In u (t :: r)).
  { intros u Hu Hu'. destruct (L9 u Hu) as (Q1 & _). destruct (G9 u Hu') as (Q2 & _). congruence. }
  assert (Sub : forall i, live h i -> s_subset (sob h' i) = s_subset (sob h i)).
  { intros i Li. destruct (in_dec Nat.eq_dec i (entries_of h (t2 :: r2))) as [Q|Q].
    - apply Ent2 in Q. apply (P1 i Q).
    - apply (P2 i Li). intros U. apply Q, Ent2, U. }
  assert (Lvt : forall k u x i, nth_error (t :: r) k = Some u -> In x (t_seq (tob h t)) -> In i (level h k x) -> live h i).
  { intros k u x i Hu Hx Hi. destruct (G9 u (nth_error_In _ _ Hu)) as (_ & (_ & Q) & _). apply (Q i). rewrite (rows_levels h r bss t G7 G8 k u Hu). apply in_flat_map. eauto. }
  exists h', bss'. split; [|split; [exact GG'|split; [exact Ho'|]]].
  - unfold grp_concat. assert (Ck : class_check g g2 h = Ok tt h).
    { unfold class_check. rewrite G3, L3. assert (El : List.length (t :: r) = List.length (t2 :: r2)) by (apply (f_equal (@List.length cid)) in Ec; rewrite !map_length in Ec; exact Ec).
      rewrite El, Nat.eqb_refl. unfold grp_class_names. rewrite G3, L3. rewrite <- !(map_map (fun u => t_ec (tob h u)) (class_name h)), Ec. rewrite bool_decide_true by reflexivity. reflexivity. }
    rewrite (bind_ok _ _ _ _ _ Ck), (bind_ok _ _ _ _ _ Xm), bind_get_grp, bind_get_grp. rewrite G3, L3. cbn [concat_tiers]. rewrite bind_gets, (bind_ok _ _ _ _ _ E').
    apply skip_lower. intros u x Hu Hx. rewrite P9 in Hx by (apply Nt; right; exact Hu).
    assert (Hin : In x (entries_of h (t2 :: r2))) by (unfold entries_of; apply in_flat_map; exists u; simpl; auto).
    destruct (P1 x (proj2 (Ent2 x) Hin)) as (C1 & _ & C3 & _). split.
    + unfold is_point. rewrite C1, (issubclass_ext h h') by exact P6. apply (Np2 u x); simpl; auto.
    + rewrite C3. destruct (related_fit h (t2 :: r2) bss2 L7 L8 (proj1 (proj2 L5)) ltac:(intros k Hk; apply (L9 k Hk)) u x Hu Hx) as (w & q & b & _ & _ & Q6 & _). congruence.
  - split; [|split; [|split; [|split; [|split; [exact P4|split; [exact P5|split; [exact P6|split; [exact P7|split; [exact P8|split; [exact P9|split; [exact P10|split; [exact P11|exact P12]]]]]]]]]]]].
    + intros k u u2 Hu Hu2. destruct GG' as (_ & _ & _ & _ & _ & _ & G7' & G8' & _). rewrite (rows_levels h' r bss' t G7' G8' k u Hu), T', flat_map_app.
      rewrite (rows_levels h r bss t G7 G8 k u Hu), (rows_levels h r2 bss2 t2 L7 L8 k u2 Hu2).
      assert (Fe : forall l, (forall x, In x l -> level h' k x = level h k x) -> flat_map (level h' k) l = flat_map (level h k) l).
      { clear. induction l as [|x l IH]; intros K; [reflexivity|]. cbn [flat_map]. rewrite (K x) by (simpl; auto). rewrite IH; auto. intros y Hy. apply K. simpl; auto. }
      f_equal; apply Fe; intros x Hx.
      * assert (Lx : forall j, (j <= k)%nat -> level h' j x = level h j x); [|apply Lx; lia].
        induction j as [|j IHj]; intros Hj; [reflexivity|]. rewrite !level_snoc, IHj by lia.
        destruct (nth_error (t :: r) j) as [w|] eqn:Qw; [|apply nth_error_None in Qw; assert (k < List.length (t :: r))%nat by (apply nth_error_Some; congruence); lia].
        assert (Q : forall i, In i (level h j x) -> s_subset (sob h' i) = s_subset (sob h i)) by (intros i Hi; apply Sub; eapply Lvt; eauto).
        revert Q. generalize (level h j x). clear. intros l Q. induction l as [|y l IHl]; [reflexivity|]. cbn [flat_map]. rewrite (Q y) by (simpl; auto). f_equal. apply IHl. intros z Hz. apply Q. simpl; auto.
      * apply level_local. intros j i Hi. destruct (P1 i) as (_ & _ & _ & Q & _); [exists x, j; auto|exact Q].
    + intros i Hi. apply Ent2 in Hi. apply (P1 i Hi).
    + intros i Li Ni. apply (P2 i Li). intros U. apply Ni, Ent2, U.
    + intros i Li Ni Ni2. apply (P3 i Li); [intros U; apply Ni2, Ent2, U|]. intros u Hu Q. apply Ni. unfold entries_of. apply in_flat_map. eauto.
Qed.
Lemma c55_points : forall n h g g2 t r t2 r2 x l d, g_tiers (gob h g) = t :: r -> g_tiers (gob h g2) = t2 :: r2 -> t_seq (tob h t2) = x :: l ->
  is_point h x = true -> grp_class_names h g = grp_class_names h g2 -> grp_xmax g h = Ok d h -> grp_concat n g g2 h = Raise AttributeError h.
Proof.
  intros n h g g2 t r t2 r2 x l d E1 E2 E3 P En Ex. unfold grp_concat.
  assert (Ck : class_check g g2 h = Ok tt h).
  { unfold class_check. assert (El : List.length (g_tiers (gob h g)) = List.length (g_tiers (gob h g2))).
    { apply (f_equal (@List.length string)) in En. unfold grp_class_names in En. rewrite !map_length in En. exact En. }
    rewrite El, Nat.eqb_refl, En, bool_decide_true by reflexivity. reflexivity. }
  rewrite (bind_ok _ _ _ _ _ Ck), (bind_ok _ _ _ _ _ Ex), bind_get_grp, bind_get_grp, E1, E2. cbn [concat_tiers]. rewrite bind_gets, E3. cbn [forM].
  assert (Q : concat_one n d t x h = Raise AttributeError h). { unfold concat_one. rewrite bind_gets. unfold is_point_cls. unfold is_point in P. rewrite P. reflexivity. }
  rewrite (bind_raise _ _ _ _ _ (bind_raise _ _ _ _ _ Q)). reflexivity.
Qed.
Lemma c55_classes : forall n h g g2, grp_class_names h g <> grp_class_names h g2 -> grp_concat n g g2 h = Raise ValueError h.
Proof.
  intros n h g g2 N. unfold grp_concat. assert (Ck : class_check g g2 h = Raise ValueError h).
  { unfold class_check. rewrite (bool_decide_false _ N), andb_false_r. reflexivity. }
  rewrite (bind_raise _ _ _ _ _ Ck). reflexivity.
Qed.
End WithEnv.
