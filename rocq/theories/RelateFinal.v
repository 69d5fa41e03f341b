(** * RelateFinal: relating tiers again (C49). *)
From Verif Require Export EditFinal ArrangeFinal RelateSpec AdoptProofs.
Open Scope Z_scope.

Section WithEnv.
Context `{Env}.
Opaque span_of.

(** ** Leaving a parent *)
Definition kin (h : heap) (X : list oid) (i : oid) : Prop :=
  exists x p, In x X /\ s_super (sob h x) = Some p /\ (i = p \/ In i (s_subset (sob h p))).
Record frees (X : list oid) (h h' : heap) : Prop := {
  fr_rest : same_rest h h';
  fr_len : (List.length (h_seq h) <= List.length (h_seq h'))%nat;
  fr_kept : forall i, live h i -> kept (sob h i) (sob h' i);
  fr_bd : forall k, is_boundary h k -> is_boundary h' k;
  fr_new : forall i, live h' i -> ~ live h i -> is_boundary h' i;
  fr_out : forall x, In x X -> s_super (sob h' x) = None;
  fr_super : forall i, live h i -> s_super (sob h' i) = s_super (sob h i) \/ s_super (sob h' i) = None;
  fr_subset : forall i, live h i -> incl (s_subset (sob h' i)) (s_subset (sob h i));
  fr_filed : forall x, live h x -> filed h x -> filed h' x;
  fr_same : forall i, live h i -> ~ kin h X i -> sob h' i = sob h i;
  fr_kids : forall i, live h i -> (forall x, In x X -> s_super (sob h x) <> Some i) -> s_subset (sob h' i) = s_subset (sob h i);
  fr_loose : forall i, live h i -> s_super (sob h i) = None -> unmoved (sob h i) (sob h' i)
}.
Lemma frees_none X h : (forall x, In x X -> s_super (sob h x) = None) -> frees X h h.
Proof.
  intros N. constructor; auto; [repeat split|intros; apply kept_refl|intros; contradiction|intros i _ y Hy; exact Hy|intros; repeat split].
Qed.
Lemma frees_trans X Y h h1 h' : (forall x, In x X -> live h x) -> (forall y, In y Y -> live h y) ->
  frees X h h1 -> frees Y h1 h' -> frees (X ++ Y) h h'.
Proof.
  intros LX LY [A1 A2 A3 A4 A5 A6 A7 A8 A9 A10 A11 A12] [B1 B2 B3 B4 B5 B6 B7 B8 B9 B10 B11 B12].
  assert (Lv : forall i, live h i -> live h1 i) by (intros i Hi; unfold live in *; lia).
  assert (Sub : forall i, incl (s_subset (sob h1 i)) (s_subset (sob h i))).
  { intros i. destruct (decide (live h i)) as [Hi|Hi]; [auto|]. destruct (decide (live h1 i)) as [H1|H1].
    - destruct (A5 i H1 Hi) as (_ & _ & _ & _ & _ & ->). intros y [].
    - rewrite !sob_dead by auto. intros y Hy. exact Hy. }
  constructor.
  - destruct A1 as (P1 & P2 & P3 & P4), B1 as (Q1 & Q2 & Q3 & Q4). repeat split; congruence.
  - lia.
  - intros i Hi. eapply kept_trans; [apply A3|apply B3]; auto.
  - auto.
  - intros i Hi Hn. destruct (decide (live h1 i)) as [H1|H1]; [apply B4, A5; auto|apply B5; auto].
  - intros x Hx. apply in_app_iff in Hx. destruct Hx as [Hx|Hx]; [|auto].
    destruct (B7 x) as [Q|Q]; auto. rewrite Q. auto.
  - intros i Hi. destruct (B7 i (Lv i Hi)) as [Q|Q]; [rewrite Q; auto|auto].
  - intros i Hi y Hy. apply Sub, B8; auto.
  - auto.
  - intros i Hi Hn. rewrite B10, A10; auto.
    + intros (x & p & Hx & Hp & Q). apply Hn. exists x, p. rewrite in_app_iff. auto.
    + intros (x & p & Hx & Hp & Q). apply Hn. exists x, p. rewrite in_app_iff. split; [auto|].
      destruct (A7 x (LY x Hx)) as [R|R]; [|congruence]. split; [congruence|]. destruct Q as [Q|Q]; [auto|right; apply Sub, Q].
  - intros i Hi Hn. rewrite B11, A11; auto.
    + intros x Hx. apply Hn. apply in_app_iff. auto.
    + intros x Hx Q. apply (Hn x); [apply in_app_iff; auto|]. destruct (A7 x (LY x Hx)) as [R|R]; congruence.
  - intros i Hi Hs. destruct (A12 i Hi Hs) as (P1 & P2 & P3). destruct (B12 i (Lv i Hi)) as (Q1 & Q2 & Q3); [destruct (A7 i Hi); congruence|].
    repeat split; congruence.
Qed.

Lemma free_one x h : live h x -> filed h x -> exists h', remove_superset x h = Ok tt h' /\ frees [x] h h'.
Proof.
  intros Lx F. destruct (s_super (sob h x)) as [s|] eqn:Sx.
  2:{ exists h. split; [unfold remove_superset; rewrite Sx; reflexivity|]. apply frees_none. intros y [<-|[]]. exact Sx. }
  destruct (F s Sx) as (Ls & Hne & Hx & Nd & Hall). destruct (in_split _ _ Hx) as (l1 & l2 & Hsub).
  rewrite Hsub in Nd. destruct (NoDup_mid _ _ _ Nd) as (N1 & N2 & N3 & N4).
  destruct (remove_superset_child x s l1 l2 (s_cls (sob h x)) h) as (h' & E & S); auto.
  { intros y Hy. rewrite <- Hsub in Hy. destruct (Hall y Hy) as (A & B & _ & C). split; [exact A|]. split; [|exact B].
    symmetry. apply C. exact Hx. }
  { intros y Hy V. rewrite <- Hsub in Hy. apply (Hall y Hy); auto. }
  exists h'. split; [exact E|].
  assert (V : forall i, s_super (sob h' i) = (if decide (i = x) then None else s_super (sob h i)) /\
     s_subset (sob h' i) = (if decide (i = s) then (l1 ++ l2)%list else s_subset (sob h i))).
  { intros i. destruct (settles_view _ _ _ i S) as [-> ->].
    destruct (cut_view s (l1 ++ l2) x h i Lx Ls ltac:(auto)) as (-> & -> & _). auto. }
  assert (Co : core_same h h') by (eapply core_settles; [apply cut_core|apply cut_live|exact S]).
  pose proof Co as (Re & Le & Ke & Bo).
  assert (Sv : forall i j, live h i -> live h j -> same_value h' i j -> same_value h i j).
  { intros i j Hi Hj. destruct (Ke i Hi) as (C1 & S1 & E1 & L1 & _). destruct (Ke j Hj) as (C2 & S2 & E2 & L2 & _).
    unfold same_value, is_point, is_point_cls. rewrite C1, C2, S1, S2, E1, E2, L1, L2, !(issubclass_ext h h') by apply Re. auto. }
  assert (Br : forall p, brood h p -> brood h' p).
  { intros p (B1 & B2). assert (Sb : incl (s_subset (sob h' p)) (s_subset (sob h p))).
    { destruct (V p) as [_ ->]. destruct (decide (p = s)) as [->|]; [|intros y Hy; exact Hy]. rewrite Hsub. intros y Hy.
      apply in_app_iff in Hy. apply in_app_iff. simpl. tauto. }
    split.
    - destruct (V p) as [_ ->]. destruct (decide (p = s)); auto.
    - intros y Hy. destruct (B2 y (Sb y Hy)) as (Y1 & Y2 & Y3 & Y4). destruct (Ke y Y1) as (C1 & _ & _ & L1 & _).
      split; [lia|]. split; [congruence|]. split.
      + destruct (V y) as [-> _]. destruct (decide (y = x)) as [->|]; [|exact Y3]. exfalso.
        assert (p = s) by congruence. subst p. destruct (V s) as [_ Q]. rewrite Q in Hy. destruct (decide (s = s)); [|congruence].
        apply in_app_iff in Hy. tauto.
      + intros z Hz. destruct (Y4 z (Sb z Hz)) as (Z1 & Z2). destruct (B2 z (Sb z Hz)) as (Lz & _).
        destruct (Ke z Lz) as (C2 & _). split; [congruence|]. intros Q. apply Z2, Sv; auto. }
  constructor.
  - exact Re.
  - exact Le.
  - intros i Hi. destruct (Ke i Hi) as (A1 & A2 & A3 & A4 & A5). unfold kept. auto.
  - intros k (K1 & K2 & K3 & K4 & K5 & K6). destruct (Ke k K1) as (_ & A2 & A3 & A4 & _). destruct (V k) as [V1 V2].
    split; [lia|]. rewrite A2, A3, A4, V1, V2. split; [auto|]. split; [auto|]. split; [auto|].
    split; [destruct (decide (k = x)); auto|]. destruct (decide (k = s)) as [->|]; [|exact K6]. rewrite K6 in Hsub. destruct l1; discriminate.
  - intros i Hi Hn. apply boundary_is_boundary; [auto|]. apply Bo; auto.
  - intros y [<-|[]]. destruct (V x) as [-> _]. destruct (decide (x = x)); [auto|congruence].
  - intros i _. destruct (V i) as [-> _]. destruct (decide (i = x)); auto.
  - intros i _. destruct (V i) as [_ ->]. destruct (decide (i = s)) as [->|]; [|intros y Hy; exact Hy]. rewrite Hsub. intros y Hy.
    apply in_app_iff in Hy. apply in_app_iff. simpl. tauto.
  - intros y Hy Fy p Hp. destruct (V y) as [V1 _]. rewrite V1 in Hp. destruct (decide (y = x)) as [|Ny]; [discriminate|].
    destruct (Fy p Hp) as (P1 & P2 & P3 & P4). split; [lia|]. split; [auto|]. split; [|auto].
    destruct (V p) as [_ ->]. destruct (decide (p = s)) as [->|]; [|exact P3]. rewrite Hsub in P3.
    apply in_app_iff in P3. apply in_app_iff. simpl in P3. destruct P3 as [|[|]]; [auto|congruence|auto].
  - intros i Hi Hn. assert (Ni : ~ In i (s_subset (sob h s)) /\ i <> s).
    { split; intros Q; apply Hn; exists x, s; simpl; auto. }
    destruct Ni as [Ni1 Ni2]. destruct S as (_ & S2 & _). rewrite S2.
    + unfold cut. rewrite sob_upd_ne by (intros ->; auto). apply sob_upd_ne; auto.
    + apply cut_live. exact Hi.
    + intros Q. apply Ni1. rewrite Hsub. apply in_app_iff in Q. apply in_app_iff. simpl. tauto.
  - intros i _ Hn. destruct (V i) as [_ ->]. destruct (decide (i = s)) as [->|]; [|reflexivity]. exfalso. apply (Hn x); simpl; auto.
  - intros i Hi Hs. assert (Ni : ~ In i (s_subset (sob h s))) by (intros Q; destruct (Hall i Q) as (_ & _ & Q' & _); congruence).
    destruct S as (_ & S2 & _). rewrite S2.
    + unfold cut. rewrite sob_upd_ne by (intros ->; auto). destruct (decide (i = s)) as [->|Ns]; [rewrite sob_upd_eq by exact Ls|rewrite sob_upd_ne by auto]; repeat split.
    + apply cut_live. exact Hi.
    + intros Q. apply Ni. rewrite Hsub. apply in_app_iff in Q. apply in_app_iff. simpl. tauto.
Qed.
Lemma free_all X : forall h, (forall x, In x X -> live h x /\ filed h x) ->
  exists h', forM X remove_superset h = Ok tt h' /\ frees X h h'.
Proof.
  induction X as [|x X IH]; intros h A.
  - exists h. split; [reflexivity|]. apply frees_none. intros x [].
  - destruct (A x) as [Lx Fx]; [simpl; auto|]. destruct (free_one x h Lx Fx) as (h1 & E1 & F1).
    destruct (IH h1) as (h' & E2 & F2).
    { intros y Hy. destruct (A y) as [Ly Fy]; [simpl; auto|]. pose proof (fr_len _ _ _ F1). split; [unfold live in *; lia|]. apply F1; auto. }
    exists h'. split; [cbn [forM]; rewrite (bind_ok _ _ _ _ _ E1); exact E2|].
    apply (frees_trans [x] X h h1 h'); auto.
    + intros y [<-|[]]. exact Lx.
    + intros y Hy. apply A. simpl; auto.
Qed.
Lemma free_tiers ts : forall h, (forall t x, In t ts -> In x (t_seq (tob h t)) -> live h x /\ filed h x) ->
  exists h', forM ts (fun t => l <- gets (fun h => t_seq (tob h t)) ;; forM l remove_superset) h = Ok tt h' /\
    frees (flat_map (fun t => t_seq (tob h t)) ts) h h'.
Proof.
  induction ts as [|t ts IH]; intros h A.
  - exists h. split; [reflexivity|]. apply frees_none. intros x [].
  - destruct (free_all (t_seq (tob h t)) h) as (h1 & E1 & F1); [intros x Hx; apply (A t); simpl; auto|].
    assert (Tk : forall u, tob h1 u = tob h u) by (intros u; unfold tob; destruct (fr_rest _ _ _ F1) as (_ & -> & _); reflexivity).
    destruct (IH h1) as (h' & E2 & F2).
    { intros u x Hu Hx. rewrite Tk in Hx. destruct (A u x) as [L F]; [simpl; auto|auto|]. pose proof (fr_len _ _ _ F1).
      split; [unfold live in *; lia|]. apply F1; auto. }
    exists h'. split.
    + cbn [forM]. rewrite (bind_ok _ _ _ tt h1); [exact E2|]. mstep. exact E1.
    + cbn [flat_map]. apply (frees_trans _ _ h h1 h').
      * intros x Hx. apply (A t); simpl; auto.
      * intros x Hx. apply in_flat_map in Hx. destruct Hx as (u & Hu & Hx). apply (A u); simpl; auto.
      * exact F1.
      * rewrite (flat_map_ext (fun t => t_seq (tob h t)) (fun t => t_seq (tob h1 t))); [exact F2|]. intros u. rewrite Tk. reflexivity.
Qed.

(** ** Relating tiers that may have been related before *)
Lemma frees_prep d h h' X ts bss : frees X h h' -> (forall t, In t ts -> linkable h (t_ec (tob h t)) (t_seq (tob h t)) /\ issubclass h (t_ec (tob h t)) cPoint = false) ->
  cut_up h ts bss -> d = true \/ snug h ts bss -> classes_joined h ts -> NoDup (map (fun t => t_ec (tob h t)) ts) ->
  (forall t x, In t ts -> In x (t_seq (tob h t)) -> In x X) -> prep d h' ts bss.
Proof.
  intros [(R1 & R2 & R3 & R4) B2 B3 B4 B5 B6 B7 B8 B9 B10 _ _] Ok C S J N X0.
  assert (Tk : forall u, tob h' u = tob h u) by (intros u; unfold tob; rewrite R2; reflexivity).
  assert (Kp : forall t x, In t ts -> In x (t_seq (tob h t)) -> kept (sob h x) (sob h' x)).
  { intros t x Ht Hx. apply B3. apply (Ok t Ht). exact Hx. }
  constructor.
  - eapply cut_kept; eauto.
  - destruct S as [S|S]; [auto|]. right. eapply snug_kept; eauto.
  - eapply classes_joined_ext; eauto.
  - erewrite map_ext; [exact N|]. intros k. rewrite Tk. reflexivity.
  - intros t Ht. rewrite Tk. destruct (Ok t Ht) as ((A1 & A2) & A3). split.
    + split; [exact A1|]. intros x Hx. destruct (A2 x Hx) as (Q1 & Q2 & Q3). destruct (Kp t x Ht Hx) as (K1 & _ & _ & K4 & _).
      split; [lia|]. split; congruence.
    + rewrite (issubclass_ext h h') by exact R1. exact A3.
  - intros t x Ht Hx. rewrite Tk in Hx. apply B6, (X0 t); auto. destruct ts; [destruct Ht|right; exact Ht].
Qed.

Lemma init_again n d g ts0 ts nm h bss : glive h g -> Permutation ts0 ts -> tier_chain h ts -> classes_joined h ts ->
  (forall t, In t ts -> fit_tier h t) -> cut_up h ts bss -> d = true \/ snug h ts bss ->
  exists h', tg_init n g ts0 nm d h = Ok tt h' /\
    g_tiers (gob h' g) = ts /\ g_contains (gob h' g) = CAlias /\ g_points (gob h' g) = g_points (gob h g) /\
    g_within (gob h' g) = g_within (gob h g) /\
    List.length (h_grp h') = List.length (h_grp h) /\ (forall k, k <> g -> gob h' k = gob h k) /\
    related_tiers h' ts bss /\ relates_anew g ts h h' /\
    (forall t x, hd_error ts = Some t -> In x (t_seq (tob h t)) -> s_super (sob h' x) = None) /\
    (forall t x, hd_error ts = Some t -> In x (t_seq (tob h t)) -> s_super (sob h x) = None -> unmoved (sob h x) (sob h' x)).
Proof.
  intros Lg P C J Fit Cu Sn. destruct (tg_init_head n g ts0 ts nm d h Lg P C) as (h1 & E & Hd).
  pose proof Hd as [(A1 & A2 & A3) (B1 & B2) C1 C2 (D1 & D2 & D3 & D4) F]. simpl in A1, A2, A3, B1, B2.
  assert (Es : forall x, sob h1 x = sob h x) by (intros x; unfold sob; rewrite A2; reflexivity).
  assert (Et : forall t, t_seq (tob h1 t) = t_seq (tob h t) /\ t_ec (tob h1 t) = t_ec (tob h t)).
  { intros t. destruct (in_dec Nat.eq_dec t ts); [rewrite C1 by auto|rewrite C2 by auto]; split; reflexivity. }
  assert (Lv : forall i, live h1 i <-> live h i) by (intros i; unfold live; rewrite A2; reflexivity).
  assert (Fi : forall x, filed h x -> filed h1 x).
  { intros x Fx p. rewrite Es. intros Hp. destruct (Fx p Hp) as (Q1 & Q2 & Q3 & Q4 & Q5). split; [apply Lv; exact Q1|]. split; [exact Q2|].
    rewrite !Es. split; [exact Q3|]. unfold brood. rewrite Es. split; [exact Q4|]. intros y Hy. rewrite Es. destruct (Q5 y Hy) as (R1 & R2 & R3 & R4).
    split; [apply Lv; exact R1|]. split; [exact R2|]. split; [exact R3|]. intros z Hz. rewrite Es. destruct (R4 z Hz) as (R5 & R6). split; [exact R5|].
    intros V. apply R6. revert V. unfold same_value, is_point, is_point_cls. rewrite !Es, !(issubclass_ext h h1) by exact A1. auto. }
  destruct (free_tiers ts0 h1) as (h2 & E2 & Fr).
  { intros t x Ht Hx. destruct (Et t) as [Q _]. rewrite Q in Hx. apply (Permutation_in _ P) in Ht. destruct (Fit t Ht) as ((_ & L) & _ & Fl).
    split; [apply Lv; apply L, Hx|]. apply Fi, Fl, Hx. }
  set (X := flat_map (fun t => t_seq (tob h1 t)) ts0) in *.
  assert (HX : forall t x, In t ts -> In x (t_seq (tob h t)) -> In x X).
  { intros t x Ht Hx. apply in_flat_map. exists t. split; [eapply Permutation_in; [apply Permutation_sym, P|exact Ht]|]. destruct (Et t) as [-> _]. exact Hx. }
  assert (XH : forall x, In x X -> exists t, In t ts /\ In x (t_seq (tob h t))).
  { intros x Hx. apply in_flat_map in Hx. destruct Hx as (t & Ht & Hx). exists t. destruct (Et t) as [Q _]. rewrite Q in Hx. split; [|exact Hx].
    eapply Permutation_in; eauto. }
  assert (Ea : forall t, t_seq (tob h1 t) = t_seq (tob h t)) by (intros t; apply Et).
  assert (Eb : forall t, t_ec (tob h1 t) = t_ec (tob h t)) by (intros t; apply Et).
  assert (Pr : prep d h2 ts bss).
  { apply (frees_prep d h1 h2 X ts bss Fr).
    - intros t Ht. rewrite Ea, Eb. destruct (Fit t Ht) as ((Q1 & Q2) & Q3 & _). split.
      + split; [exact Q1|]. intros x Hx. rewrite Es, A2. apply Q2. exact Hx.
      + rewrite (issubclass_ext h h1) by auto. exact Q3.
    - eapply cut_ext; eauto.
    - destruct Sn as [Sn|Sn]; [auto|]. right. eapply snug_ext; eauto.
    - clear -J A1 Eb. induction ts as [|t ts IH]; [exact J|]. destruct ts as [|u r]; [exact J|]. rewrite classes_joined_cons in *.
      destruct J as [Q1 Q2]. rewrite !Eb. split; [|auto]. rewrite (subset_class_ext h h1) by auto. exact Q1.
    - erewrite map_ext; [apply C|]. intros k. apply Eb.
    - intros t x Ht Hx. rewrite Ea in Hx. eauto. }
  destruct (relate_tiers_cut n d ts bss h2 Pr) as (h3 & E3 & L & R).
  exists h3. pose proof L as [(L1 & L2 & L3 & L4) L5 L6 L7 L8 L9 L10]. pose proof Fr as [(R1 & R2 & R3 & R4) F2 F3 F4 F5 F6 F7 F8 F9 F10 F11 F12].
  assert (Tk : forall t, tob h3 t = tob h1 t) by (intros t; unfold tob; rewrite L2, R2; reflexivity).
  assert (Gk : forall k, gob h3 k = gob h1 k) by (intros k; unfold gob; rewrite L3, R3; reflexivity).
  assert (Len : List.length (h_seq h1) = List.length (h_seq h)) by (rewrite A2; reflexivity).
  assert (Lb : forall t x, In t ts -> In x (t_seq (tob h2 t)) -> s_label (sob h2 x) <> "#"%string).
  { intros t x Ht Hx. destruct (pr_ok _ _ _ _ Pr t Ht) as ((_ & Q) & _). apply Q, Hx. }
  assert (L12 : forall i, live h1 i -> live h2 i) by (intros i; unfold live; lia).
  split; [rewrite E, (bind_ok _ _ _ _ _ E2); exact E3|].
  rewrite Gk. split; [exact D1|]. split; [exact D2|]. split; [exact D3|]. split; [exact D4|].
  split; [rewrite L3, R3; exact B2|]. split; [intros k Hk; rewrite Gk; auto|]. split; [exact R|]. split; [|split].
  - split; [|split; [|split; [|split; [|split; [|split; [|split; [|split; [|split]]]]]]]].
    + intros i Hi. assert (K : kept (sob h i) (sob h3 i)).
      { rewrite <- Es. eapply kept_trans; [apply F3; apply Lv; exact Hi|]. apply L8. apply L12, Lv. exact Hi. }
      destruct K as (K1 & K2 & K3 & K4 & K5). auto.
    + intros i Hi Hn. rewrite L7, F10, Es; auto.
      * apply Lv. exact Hi.
      * intros (x & p & Hx & Hp & Q). rewrite !Es in *. destruct (XH x Hx) as (t & Ht & Hx'). apply Hn. exists t, x. split; [exact Ht|]. split; [exact Hx'|]. right. eauto.
      * apply L12, Lv. exact Hi.
      * intros t Ht Hx. apply Hn. exists t, i. split; [exact Ht|]. split; [|auto]. unfold tob in Hx. rewrite R2 in Hx. fold (tob h1 t) in Hx. rewrite Ea in Hx. exact Hx.
    + lia.
    + intros i Hi. destruct (decide (live h2 i)) as [Q|Q].
      * eapply linked_up_boundary; [exact L|exact Lb|]. apply F5; [exact Q|]. unfold live. lia.
      * apply L6; [unfold live; lia|exact Q].
    + congruence.
    + congruence.
    + rewrite L2, R2. exact B1.
    + intros t Ht. rewrite Tk. auto.
    + intros t Ht. rewrite Tk. auto.
    + intros i Hi Hn Hs. rewrite L10, F11, Es; auto.
      * apply Lv. exact Hi.
      * intros x Hx. rewrite Es. destruct (XH x Hx) as (t & Ht & Hx'). eauto.
      * apply L12, Lv. exact Hi.
      * intros t Ht Hx. apply (Hn t Ht). unfold tob in Hx. rewrite R2 in Hx. fold (tob h1 t) in Hx. rewrite Ea in Hx. exact Hx.
  - intros t x Ht Hx. destruct (L9 t x Ht) as (-> & _).
    + unfold tob. rewrite R2. fold (tob h1 t). rewrite Ea. exact Hx.
    + apply F6. apply (HX t); [|exact Hx]. destruct ts; [discriminate|]. injection Ht as ->. simpl. auto.
  - intros t x Ht Hx Hs. assert (It : In t ts) by (destruct ts; [discriminate|]; injection Ht as ->; simpl; auto).
    assert (Lx : live h x) by (destruct (Fit t It) as ((_ & Q) & _); apply Q, Hx).
    destruct (F12 x) as (P1 & P2 & P3); [apply Lv; exact Lx|rewrite Es; exact Hs|]. rewrite Es in P1, P2, P3.
    destruct (L9 t x Ht) as (_ & Q1 & Q2 & Q3).
    + unfold tob. rewrite R2. fold (tob h1 t). rewrite Ea. exact Hx.
    + repeat split; congruence.
Qed.

(** ** Groups in good order *)
Lemma tiles_distinct h l : forall a b, tiles h a l b -> forall x y, In x l -> In y l -> s_start (sob h x) = s_start (sob h y) -> x = y.
Proof.
  induction l as [|z l IH]; intros a b T x y Hx Hy E; [destruct Hx|]. destruct T as (m & T1 & T2 & T3 & T4).
  assert (Lt : forall w, In w l -> s_start (sob h w) <> Some a).
  { intros w Hw. destruct (tiles_in h l m b w T4 Hw) as ((Q & _) & Q2 & _). rewrite Q. intros [= R]. lia. }
  destruct Hx as [<-|Hx], Hy as [<-|Hy]; auto.
  - exfalso. apply (Lt y Hy). congruence.
  - exfalso. apply (Lt x Hx). congruence.
  - eapply IH; eauto.
Qed.
Lemma fills_distinct h u b : fills h u b -> forall x y, In x b -> In y b -> same_value h x y -> x = y.
Proof. intros (s & e & _ & _ & _ & T) x y Hx Hy (_ & V & _). eapply tiles_distinct; eauto. Qed.

Lemma related_fit h : forall ts bss, snug h ts bss -> related_tiers h ts bss ->
  NoDup (map (fun t => t_ec (tob h t)) ts) ->
  (forall t, In t ts -> linkable h (t_ec (tob h t)) (t_seq (tob h t))) ->
  forall t x, In t (tl ts) -> In x (t_seq (tob h t)) ->
  exists u p b, In u ts /\ In p (t_seq (tob h u)) /\ s_super (sob h x) = Some p /\ s_subset (sob h p) = b /\ In x b /\ fills h p b /\
    p <> x /\ (forall y, In y b -> In y (t_seq (tob h t)) /\ s_super (sob h y) = Some p) /\ brood h p.
Proof.
  induction ts as [|t ts IH]; intros bss S R N Lk t' x Ht' Hx; [destruct Ht'|]. destruct ts as [|u r]; [destruct Ht'|].
  destruct bss as [|bs bss]; [destruct S|]. rewrite snug_cons in S. rewrite related_cons in R. destruct S as (S1 & S2 & S3), R as (R1 & R2).
  cbn [map] in N. apply NoDup_cons in N. destruct N as [Nt N]. rewrite elem_of_list_In in Nt.
  cbn [tl] in Ht'. destruct Ht' as [<-|Ht'].
  - rewrite <- S1 in Hx. apply in_concat in Hx. destruct Hx as (b & Hb & Hx). apply In_nth_error in Hb. destruct Hb as [i Hb].
    destruct (nth_error (t_seq (tob h t)) i) as [p|] eqn:Hp.
    2:{ apply nth_error_None in Hp. assert (i < List.length bs)%nat by (apply nth_error_Some; congruence). apply Forall2_length in S2. lia. }
    pose proof (Forall2_nth _ _ _ S2 i p b Hp Hb) as Fl. destruct (Forall2_nth _ _ _ R1 i p b Hp Hb) as (P1 & P2 & P3).
    assert (Hin : forall y, In y b -> In y (t_seq (tob h u))) by (intros y Hy; rewrite <- S1; eapply in_concat'; [eapply nth_error_In; eauto|exact Hy]).
    destruct (Lk u) as (Nu & Ku); [simpl; auto|]. destruct (Lk t) as (_ & Kt); [simpl; auto|].
    exists t, p, b. split; [simpl; auto|]. split; [eapply nth_error_In; eauto|]. split; [apply P3, Hx|]. split; [exact P1|]. split; [exact Hx|].
    split; [exact Fl|]. split.
    { intros ->. apply Nt. destruct (Kt x (nth_error_In _ _ Hp)) as (_ & Q1 & _). destruct (Ku x (Hin x Hx)) as (_ & Q2 & _). simpl. left. congruence. }
    split; [intros y Hy; split; [auto|apply P3, Hy]|]. unfold brood. rewrite P1. split.
    { destruct (nth_error_split _ _ Hb) as (q1 & q2 & Q & _). rewrite <- S1, Q, concat_app in Nu. cbn [concat] in Nu.
      apply NoDup_app in Nu. destruct Nu as (_ & _ & Nu). apply NoDup_app in Nu. apply Nu. }
    intros y Hy. destruct (Ku y (Hin y Hy)) as (Y1 & Y2 & Y3). split; [exact Y1|]. split; [exact Y3|]. split; [apply P3, Hy|].
    intros z Hz. destruct (Ku z (Hin z Hz)) as (_ & Z2 & _). split; [congruence|]. intros V. eapply fills_distinct; eauto.
  - destruct (IH bss S3 R2 N ltac:(intros k Hk; apply Lk; right; exact Hk) t' x Ht' Hx) as (u0 & p & b & Q1 & Q2). exists u0, p, b. split; [right; exact Q1|exact Q2].
Qed.
Lemma good_fit h g ts bss : good_group h g ts bss -> forall t, In t ts -> fit_tier h t.
Proof.
  intros (_ & _ & _ & _ & C & J & S & R & Ok & Tp) t Ht. destruct (Ok t Ht) as (_ & Lk & Np). split; [exact Lk|]. split; [exact Np|].
  intros x Hx p Hp. destruct ts as [|t0 ts]; [destruct Ht|]. destruct Ht as [->|Ht].
  - destruct (Tp t eq_refl) as (_ & Q). destruct (Q x Hx) as [_ Q2]. congruence.
  - destruct (related_fit h (t0 :: ts) bss S R (proj1 (proj2 C)) ltac:(intros k Hk; apply (Ok k Hk)) t x Ht Hx) as (u & q & b & Q1 & Q2 & Q3 & Q4 & Q5 & Q6 & Q7 & Q8 & Q9).
    assert (q = p) by congruence. subst q. destruct (Ok u Q1) as (_ & (_ & Ku) & _). split; [apply Ku, Q2|]. split; [exact Q7|]. split; [rewrite Q4; exact Q5|exact Q9].
Qed.
Lemma anew_tier g ts h h' : relates_anew g ts h h' -> forall t,
  t_seq (tob h' t) = t_seq (tob h t) /\ t_ec (tob h' t) = t_ec (tob h t) /\ t_super (tob h' t) = t_super (tob h t) /\ t_sub (tob h' t) = t_sub (tob h t) /\
  t_name (tob h' t) = t_name (tob h t) /\ t_seqec (tob h' t) = t_seqec (tob h t).
Proof.
  intros (_ & _ & _ & _ & _ & _ & _ & A & B & _) t. destruct (in_dec Nat.eq_dec t ts); [rewrite B by auto|rewrite A by auto]; repeat (split; [reflexivity|]); reflexivity.
Qed.
Lemma tier_chain_same h h' ts : h_cls h' = h_cls h -> List.length (h_tier h') = List.length (h_tier h) ->
  (forall t, In t ts -> t_ec (tob h' t) = t_ec (tob h t) /\ t_super (tob h' t) = t_super (tob h t) /\ t_sub (tob h' t) = t_sub (tob h t)) ->
  tier_chain h ts -> tier_chain h' ts.
Proof.
  intros Ec El Et (J & N & L & (a & A1 & c & A2 & A3) & (b & B1 & d & B2 & B3)).
  assert (Es : forall x y, issubclass h' x y = issubclass h x y) by (intros; apply issubclass_ext; auto).
  split; [|split; [|split; [|split]]].
  - clear -J Et. induction ts as [|t ts IH]; [exact J|]. destruct ts as [|u r]; [exact J|]. destruct J as (J1 & J2 & J3).
    destruct (Et t) as (P1 & P2 & P3); [simpl; auto|]. destruct (Et u) as (Q1 & Q2 & Q3); [simpl; auto|].
    split; [congruence|]. split; [congruence|]. apply IH; [|exact J3]. intros k Hk. apply Et. right. exact Hk.
  - erewrite map_ext_in; [exact N|]. intros k Hk. apply Et. exact Hk.
  - intros t Ht. destruct (Et t Ht) as (P1 & _). rewrite El, P1, !Es. apply L, Ht.
  - exists a. split; [exact A1|]. exists c. destruct (Et a) as (_ & P2 & _); [destruct ts; [discriminate|injection A1 as ->; simpl; auto]|]. rewrite P2, Es. auto.
  - exists b. split; [exact B1|]. exists d. destruct (Et b) as (_ & _ & P2).
    { apply in_rev. destruct (rev ts); [discriminate|injection B1 as ->; simpl; auto]. }
    rewrite P2, Es. auto.
Qed.
Lemma classes_joined_same h h' ts : h_cls h' = h_cls h -> (forall t, In t ts -> t_ec (tob h' t) = t_ec (tob h t)) -> classes_joined h ts -> classes_joined h' ts.
Proof.
  intros Ec Et. induction ts as [|t ts IH]; intros J; [exact J|]. destruct ts as [|u r]; [exact J|]. rewrite classes_joined_cons in *.
  destruct J as [Q1 Q2]. rewrite (Et t), (Et u) by (simpl; auto). split; [|apply IH; [intros k Hk; apply Et; right; exact Hk|exact Q2]].
  rewrite (subset_class_ext h h') by auto. exact Q1.
Qed.
(** [snug] looks at the entries and times only. *)
Lemma snug_same h h' ts : (forall t, In t ts -> t_seq (tob h' t) = t_seq (tob h t)) ->
  (forall t x, In t ts -> In x (t_seq (tob h t)) -> s_start (sob h' x) = s_start (sob h x) /\ s_end (sob h' x) = s_end (sob h x)) ->
  forall bss, snug h ts bss -> snug h' ts bss.
Proof.
  induction ts as [|t ts IH]; intros Et Es bss S; [exact S|]. destruct ts as [|u r]; [exact S|].
  destruct bss as [|bs bss]; [exact S|]. rewrite snug_cons in S. rewrite snug_cons. destruct S as (S1 & S2 & S3).
  rewrite (Et t), (Et u) by (simpl; auto).
  split; [exact S1|]. split.
  2:{ apply IH; [intros k Hk; apply Et; right; exact Hk|intros k x Hk; apply Es; right; exact Hk|exact S3]. }
  eapply Forall2_weaken; [exact S2|]. intros x b Hx Hb (s & e & F1 & F2 & F3 & F4).
  destruct (Es t x) as [Q1 Q2]; [simpl; auto|exact Hx|]. exists s, e. rewrite Q1, Q2. split; [exact F1|]. split; [exact F2|]. split; [exact F3|].
  assert (Hin : forall y, In y b -> s_start (sob h' y) = s_start (sob h y) /\ s_end (sob h' y) = s_end (sob h y)).
  { intros y Hy. apply (Es u); [simpl; auto|]. rewrite <- S1. eapply in_concat'; eauto. }
  clear -F4 Hin. revert s F4. induction b as [|y b IH]; intros s F4; [exact F4|]. destruct F4 as (m & T1 & T2 & T3 & T4).
  destruct (Hin y) as [R1 R2]; [simpl; auto|]. exists m. rewrite R1, R2. split; [exact T1|]. split; [exact T2|]. split; [exact T3|].
  apply IH; [intros z Hz; apply Hin; simpl; auto|exact T4].
Qed.
Lemma in_turn_same h h' l : (forall x, In x l -> s_start (sob h' x) = s_start (sob h x) /\ s_end (sob h' x) = s_end (sob h x)) ->
  in_turn h l -> in_turn h' l.
Proof.
  intros E I i j x y Hij Hx Hy. destruct (I i j x y Hij Hx Hy) as (e & s & A & B & C). exists e, s.
  destruct (E x (nth_error_In _ _ Hx)) as [_ ->]. destruct (E y (nth_error_In _ _ Hy)) as [-> _]. auto.
Qed.
Lemma dated_same h h' x : s_start (sob h' x) = s_start (sob h x) -> s_end (sob h' x) = s_end (sob h x) -> dated h x -> dated h' x.
Proof.
  intros A B (D1 & D2 & D3). apply (dated_by h' x (fst (span_of h x)) (snd (span_of h x))); congruence.
Qed.

Lemma anew_good h g ts bss h' : (g < List.length (h_grp h'))%nat -> g_points (gob h' g) = false -> g_tiers (gob h' g) = ts ->
  g_contains (gob h' g) = CAlias -> tier_chain h ts -> classes_joined h ts -> snug h ts bss -> related_tiers h' ts bss ->
  (forall t, In t ts -> fit_tier h t) ->
  (forall t, hd_error ts = Some t -> in_turn h (t_seq (tob h t)) /\ forall x, In x (t_seq (tob h t)) -> dated h x) ->
  relates_anew g ts h h' ->
  (forall t x, hd_error ts = Some t -> In x (t_seq (tob h t)) -> s_super (sob h' x) = None) ->
  good_group h' g ts bss.
Proof.
  intros Lg Gp Gt Gc C J S R Fit Tp An Sp. pose proof (anew_tier g ts h h' An) as Tk.
  pose proof An as (A1 & _ & A2 & A3 & A4 & A5 & A6 & A7 & A8 & A9).
  assert (Vx : forall t x, In t ts -> In x (t_seq (tob h t)) -> s_start (sob h' x) = s_start (sob h x) /\ s_end (sob h' x) = s_end (sob h x)).
  { intros t x Ht Hx. destruct (Fit t Ht) as ((_ & L) & _). destruct (A1 x) as (_ & Q1 & Q2 & _); [apply L, Hx|]. auto. }
  assert (Hin : forall t, hd_error ts = Some t -> In t ts) by (intros t Ht; destruct ts; [discriminate|injection Ht as ->; simpl; auto]).
  split; [exact Lg|]. split; [exact Gp|]. split; [exact Gt|]. split; [simpl; rewrite Gc, Gt; reflexivity|].
  split; [apply (tier_chain_same h h'); auto; intros t _; destruct (Tk t) as (_ & Q1 & Q2 & Q3 & _); auto|].
  split; [apply (classes_joined_same h h'); auto; intros t _; apply Tk|].
  split; [apply (snug_same h h'); auto; intros t _; apply Tk|]. split; [exact R|]. split.
  - intros t Ht. split; [rewrite A8 by auto; reflexivity|]. destruct (Tk t) as (-> & -> & _). destruct (Fit t Ht) as ((L1 & L2) & L3 & _). split.
    + split; [exact L1|]. intros x Hx. destruct (L2 x Hx) as (Q1 & Q2 & Q3). destruct (A1 x Q1) as (K1 & _ & _ & K4 & _). split; [lia|]. split; congruence.
    + rewrite (issubclass_ext h h') by auto. exact L3.
  - intros t Ht. destruct (Tp t Ht) as (T1 & T2). destruct (Tk t) as (-> & _). split.
    + apply (in_turn_same h h'); [intros x Hx; apply (Vx t x (Hin t Ht) Hx)|exact T1].
    + intros x Hx. destruct (Vx t x (Hin t Ht) Hx) as [V1 V2]. split; [apply (dated_same h h'); auto|eauto].
Qed.

Lemma c49_new : forall n h ts0 ts bss, Permutation ts0 ts -> tier_chain h ts -> classes_joined h ts ->
  (forall t, In t ts -> fit_tier h t) -> snug h ts bss ->
  (forall t, hd_error ts = Some t -> in_turn h (t_seq (tob h t)) /\ forall x, In x (t_seq (tob h t)) -> dated h x) ->
  exists g h', new_tg n ts0 h = Ok g h' /\ good_group h' g ts bss /\ relates_anew g ts h h' /\
    g = List.length (h_grp h) /\ List.length (h_grp h') = S g /\ (forall k, (k < g)%nat -> gob h' k = gob h k) /\
    (forall t x, hd_error ts = Some t -> In x (t_seq (tob h t)) -> s_super (sob h x) = None -> unmoved (sob h x) (sob h' x)).
Proof.
  intros n h ts0 ts bss P C J Fit S Tp. set (g := List.length (h_grp h)).
  set (h0 := Heap (h_cls h) (h_seq h) (h_tier h) (h_grp h ++ [blank_grp false]) (h_grid h)).
  assert (Lg : glive h0 g) by (unfold glive, h0, g; simpl; rewrite app_length; simpl; lia).
  assert (C0 : tier_chain h0 ts) by (apply (tier_chain_ext h h0); auto).
  assert (J0 : classes_joined h0 ts) by (apply (classes_joined_ext h h0); auto).
  assert (F0 : forall t, In t ts -> fit_tier h0 t) by exact Fit.
  assert (S0 : snug h0 ts bss) by (apply (snug_ext h h0); auto).
  assert (T0 : forall t, hd_error ts = Some t -> in_turn h0 (t_seq (tob h0 t)) /\ forall x, In x (t_seq (tob h0 t)) -> dated h0 x) by exact Tp.
  assert (Cu : cut_up h0 ts bss) by (apply snug_cut; [exact S0|intros t Ht; apply (T0 t Ht)]).
  destruct (init_again n false g ts0 ts None h0 bss Lg P C0 J0 F0 Cu ltac:(auto)) as (h' & E & G1 & G2 & G3 & G4 & G5 & G6 & R & An & Sp & Un).
  assert (Gb : gob h0 g = blank_grp false) by (unfold gob, h0, g; simpl; rewrite lookup_app_r, Nat.sub_diag by lia; reflexivity).
  exists g, h'. split.
  { change (new_tg n ts0 h) with (match tg_init n g ts0 None false h0 with Ok _ h1 => Ok g h1 | Raise e h1 => Raise e h1 end). rewrite E. reflexivity. }
  split.
  { apply (anew_good h0 g ts bss h'); auto; [rewrite G5; exact Lg|rewrite G3, Gb; reflexivity]. }
  split; [exact An|]. split; [reflexivity|]. split; [rewrite G5; unfold h0, g; simpl; rewrite app_length; simpl; lia|].
  split; [|exact Un]. intros k Hk. rewrite G6 by lia. unfold gob, h0. simpl. rewrite lookup_app_l by exact Hk. reflexivity.
Qed.

(** The name a group gets on being related again. *)
Lemma grp_name_ok g h : g_tiers (gob h g) <> [] -> exists nm h1, grp_name g h = Ok nm h1 /\
  (h1 = h \/ h1 = upd_grp g (set_g_name nm) h) /\ (str_truthy (g_name (gob h g)) = true -> nm = g_name (gob h g) /\ h1 = h).
Proof.
  intros Ne. unfold grp_name. rewrite bind_get_grp. destruct (str_truthy (g_name (gob h g))) eqn:St.
  - exists (g_name (gob h g)), h. auto.
  - assert (Mk : exists m, make_name g h = Ok m h).
    { unfold make_name. destruct (g_tiers (gob h g)) as [|t ts]; [congruence|]. cbn [map].
      match goal with |- context[if ?b then _ else _] => destruct b end; [eauto|].
      destruct (g_within _) as [[ | | |]|]; eauto. destruct (index_of _ _); eauto. }
    destruct Mk as [m Mk]. rewrite (bind_ok _ _ _ _ _ Mk). exists m, (upd_grp g (set_g_name m) h). split; [reflexivity|]. split; [auto|discriminate].
Qed.
Lemma c49_again : forall n h g ts bss, (g < List.length (h_grp h))%nat -> g_points (gob h g) = false ->
  Permutation (g_tiers (gob h g)) ts -> tier_chain h ts -> classes_joined h ts ->
  (forall t, In t ts -> fit_tier h t) -> snug h ts bss ->
  (forall t, hd_error ts = Some t -> in_turn h (t_seq (tob h t)) /\ forall x, In x (t_seq (tob h t)) -> dated h x) ->
  exists h', re_relate n g h = Ok tt h' /\ good_group h' g ts bss /\ relates_anew g ts h h' /\
    List.length (h_grp h') = List.length (h_grp h) /\ (forall k, k <> g -> gob h' k = gob h k) /\
    g_within (gob h' g) = g_within (gob h g) /\
    (forall t x, hd_error ts = Some t -> In x (t_seq (tob h t)) -> s_super (sob h x) = None -> unmoved (sob h x) (sob h' x)).
Proof.
  intros n h g ts bss Lg Gp P C J Fit S Tp.
  assert (Ne : g_tiers (gob h g) <> []).
  { intros Q. rewrite Q in P. apply Permutation_nil in P. subst ts. destruct C as (_ & _ & _ & (t & Ht & _) & _). discriminate. }
  destruct (grp_name_ok g h Ne) as (nm & h1 & E1 & H1 & _).
  assert (K : h_cls h1 = h_cls h /\ h_seq h1 = h_seq h /\ h_tier h1 = h_tier h /\ h_grid h1 = h_grid h /\ List.length (h_grp h1) = List.length (h_grp h) /\
    (forall k, k <> g -> gob h1 k = gob h k) /\ g_points (gob h1 g) = g_points (gob h g) /\ g_within (gob h1 g) = g_within (gob h g)).
  { destruct H1 as [-> | ->]; [auto 10|]. do 4 (split; [reflexivity|]). split; [unfold upd_grp; simpl; apply alter_length|].
    split; [intros k Hk; apply gob_upd_ne; auto|]. rewrite gob_upd_eq by exact Lg. split; reflexivity. }
  destruct K as (K1 & K2 & K3 & K4 & K5 & K6 & K7 & K8).
  destruct h1 as [c1 s1 t1 g1 a1]. simpl in K1, K2, K3, K4, K5. subst c1 s1 t1 a1.
  set (h1 := Heap (h_cls h) (h_seq h) (h_tier h) g1 (h_grid h)) in *.
  assert (Lg1 : glive h1 g) by (unfold glive, h1; simpl; lia).
  assert (C0 : tier_chain h1 ts) by (apply (tier_chain_ext h h1); auto).
  assert (J0 : classes_joined h1 ts) by (apply (classes_joined_ext h h1); auto).
  assert (F0 : forall t, In t ts -> fit_tier h1 t) by exact Fit.
  assert (S0 : snug h1 ts bss) by (apply (snug_ext h h1); auto).
  assert (T0 : forall t, hd_error ts = Some t -> in_turn h1 (t_seq (tob h1 t)) /\ forall x, In x (t_seq (tob h1 t)) -> dated h1 x) by exact Tp.
  assert (Cu : cut_up h1 ts bss) by (apply snug_cut; [exact S0|intros t Ht; apply (T0 t Ht)]).
  destruct (init_again n false g (g_tiers (gob h g)) ts nm h1 bss Lg1 P C0 J0 F0 Cu ltac:(auto)) as (h' & E & G1 & G2 & G3 & G4 & G5 & G6 & R & An & Sp & Un).
  exists h'. split.
  { unfold re_relate. rewrite bind_get_grp, Gp, (bind_ok _ _ _ _ _ E1). exact E. }
  split.
  { apply (anew_good h1 g ts bss h'); auto; [rewrite G5; exact Lg1|congruence]. }
  split; [exact An|]. split; [rewrite G5; exact K5|]. split; [intros k Hk; rewrite G6 by auto; auto|]. split; [congruence|exact Un].
Qed.
Lemma c49_stable : forall n h g ts bss, good_group h g ts bss ->
  exists h', re_relate n g h = Ok tt h' /\ good_group h' g ts bss /\ relates_anew g ts h h' /\
    List.length (h_grp h') = List.length (h_grp h) /\ (forall k, k <> g -> gob h' k = gob h k) /\
    (forall t x, In t ts -> In x (t_seq (tob h t)) -> s_super (sob h' x) = s_super (sob h x)).
Proof.
  intros n h g ts bss G. pose proof (good_fit h g ts bss G) as Fit.
  pose proof G as (G1 & G2 & G3 & G4 & C & J & S & R & Ok & Tp).
  destruct (c49_again n h g ts bss) as (h' & E & G' & An & L & O & _); auto.
  - rewrite G3. apply Permutation_refl.
  - intros t Ht. destruct (Tp t Ht) as (T1 & T2). split; [exact T1|]. intros x Hx. apply (T2 x Hx).
  - exists h'. split; [exact E|]. split; [exact G'|]. split; [exact An|]. split; [exact L|]. split; [exact O|].
    pose proof G' as (_ & _ & _ & _ & _ & _ & _ & R' & _ & Tp'). intros t x Ht Hx.
    pose proof (anew_tier g ts h h' An) as Tk. destruct ts as [|t0 ts]; [destruct Ht|]. destruct Ht as [<-|Ht].
    + destruct (Tp t0 eq_refl) as (_ & T2). destruct (Tp' t0 eq_refl) as (_ & T2').
      destruct (T2 x Hx) as [_ ->]. apply T2'. destruct (Tk t0) as (-> & _). exact Hx.
    + clear -S R R' Ht Hx Tk. revert t0 bss S R R' Ht. induction ts as [|u r IH]; intros t0 bss S R R' Ht; [destruct Ht|].
      destruct bss as [|bs bss]; [destruct S|]. rewrite snug_cons in S. rewrite related_cons in R, R'. destruct S as (S1 & S2 & S3), R as (R1 & R2), R' as (R1' & R2').
      destruct Ht as [->|Ht]; [|apply (IH u bss); auto].
      rewrite <- S1 in Hx. apply in_concat in Hx. destruct Hx as (b & Hb & Hx). apply In_nth_error in Hb. destruct Hb as [i Hb].
      destruct (Tk t0) as (Q & _). rewrite Q in R1'.
      destruct (nth_error (t_seq (tob h t0)) i) as [p|] eqn:Hp.
      2:{ apply nth_error_None in Hp. assert (i < List.length bs)%nat by (apply nth_error_Some; congruence). apply Forall2_length in S2. lia. }
      destruct (Forall2_nth _ _ _ R1 i p b Hp Hb) as (_ & _ & P). destruct (Forall2_nth _ _ _ R1' i p b Hp Hb) as (_ & _ & P').
      destruct (P x Hx) as [-> _]. destruct (P' x Hx) as [-> _]. reflexivity.
Qed.
End WithEnv.
