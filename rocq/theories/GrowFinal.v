(** * GrowFinal: appending to a tier of a group (C50). *)
From Coq Require Import Sorting.Sorted.
From Verif Require Export RelateFinal GrowSpec.
Open Scope Z_scope.

Section WithEnv.
Context `{Env}.
Opaque span_of.

(** ** One interval into one tier *)
Lemma dated_starts h l : (forall x, In x l -> dated h x) -> known_starts h l.
Proof. intros D x Hx. destruct (D x Hx) as (A & _). eauto. Qed.
Lemma nonpoint h x c : s_cls (sob h x) = c -> issubclass h c cPoint = false -> is_point h x = false.
Proof. intros <- P. exact P. Qed.

Lemma put_loose t x h : (t < List.length (h_tier h))%nat -> t_super (tob h t) <> None -> issubclass h (t_ec (tob h t)) cPoint = false ->
  linkable h (t_ec (tob h t)) (t_seq (tob h t) ++ [x]) -> classed h t ->
  (forall y, In y (t_seq (tob h t) ++ [x]) -> (exists a, s_start (sob h y) = Some a) /\ exists b, s_end (sob h y) = Some b) ->
  (forall y z, In y (t_seq (tob h t) ++ [x]) -> In z (t_seq (tob h t) ++ [x]) -> s_start (sob h y) = s_start (sob h z) -> y = z) -> exists h',
  (o <- get_tier t ;; v <- sl_add (OTier t) (seq_slv o) [x] ;; pt <- gets (fun h => is_point_tier h t) ;;
   (if (pt : bool) then rebind_seq t v else tier_set_seq t (sv_vals v))) h = Ok tt h' /\
  Permutation (t_seq (tob h' t)) (t_seq (tob h t) ++ [x]) /\ orderly h' t /\
  (forall y, In y (t_seq (tob h t) ++ [x]) -> same_but_place (sob h y) (sob h' y)) /\
  touches_only t (t_seq (tob h t) ++ [x]) h h' /\ t_seqec (tob h' t) = Some (t_ec (tob h t)).
Proof.
  intros Ht Hsup Hp Lk Sc Da Ds. unfold classed in Sc. set (c := t_ec (tob h t)) in *. set (l := t_seq (tob h t)) in *.
  assert (Nx : ~ In x l).
  { destruct Lk as (N & _). apply NoDup_app in N. destruct N as (_ & N & _). intros Q. apply (N x); [apply elem_of_list_In; exact Q|apply elem_of_list_singleton; reflexivity]. }
  assert (Nl : sl_contains h l x = false).
  { destruct (sl_contains h l x) eqn:Q; auto. apply sl_contains_iff in Q. destruct Q as (y & Hy & Q). exfalso. apply Nx.
    replace x with y; [exact Hy|]. destruct Q as [Q|(_ & Q & _)]; [exact Q|]. apply Ds; [apply in_app_iff; auto|apply in_app_iff; simpl; auto|exact Q]. }
  set (h1 := match t_seqec (tob h t) with Some _ => h | None => upd_tier t (set_t_seqec (Some c)) h end).
  assert (H1 : h_cls h1 = h_cls h /\ h_seq h1 = h_seq h /\ h_grp h1 = h_grp h /\ h_grid h1 = h_grid h /\
    List.length (h_tier h1) = List.length (h_tier h) /\ (forall u, u <> t -> tob h1 u = tob h u) /\ tob h1 t = set_t_seqec (Some c) (tob h t)).
  { unfold h1. destruct (t_seqec (tob h t)) eqn:Q.
    - do 6 (split; [auto|]). destruct Sc as [Sc|[_ Sc]]; [|congruence]. rewrite <- Sc, <- Q. destruct (tob h t); reflexivity.
    - do 4 (split; [reflexivity|]). split; [apply len_upd_tier|]. split; [intros u Hu; apply tob_upd_ne; auto|]. apply tob_upd_eq. exact Ht. }
  destruct H1 as (Q1 & Q2 & Q3 & Q4 & Q5 & Q6 & Q7).
  assert (Es : forall y, sob h1 y = sob h y) by (intros y; unfold sob; rewrite Q2; reflexivity).
  assert (E : exists l', sl_add (OTier t) (seq_slv (tob h t)) [x] h = Ok (Slv l' (Some c)) h1 /\ Permutation l' (l ++ [x]) /\ sorted_starts h l').
  { assert (Ks : known_starts h (l ++ [x])) by (intros y Hy; apply (Da y Hy)).
    assert (Ke : known_ends h (l ++ [x])).
    { intros y Hy. destruct (Da y Hy) as (_ & b & D2). exists b. rewrite end_of_at. unfold end_at. rewrite (nonpoint h y c); [exact D2|apply Lk, Hy|exact Hp]. }
    assert (Cl : forall y, In y (l ++ [x]) -> s_cls (sob h y) = c) by (intros y Hy; apply Lk, Hy).
    destruct (t_seqec (tob h t)) as [c0|] eqn:Q.
    - assert (c0 = c) by (destruct Sc as [Sc|[_ Sc]]; congruence). subst c0.
      pose proof (sl_add_same h (OTier t) (seq_slv (tob h t)) [x] c) as S. cbv zeta in S.
      assert (F : List.filter (fun y => negb (sl_contains h (sv_vals (seq_slv (tob h t))) y)) [x] = [x]).
      { cbn [List.filter]. change (sv_vals (seq_slv (tob h t))) with l. rewrite Nl. reflexivity. }
      rewrite F in S. destruct S as (l' & S1 & S2 & S3 & _); auto.
      + intros y Hy. apply Cl, in_app_iff. auto.
      + intros y Hy. apply Cl, in_app_iff. auto.
      + apply issubclass_refl.
      + exists l'. split; [exact S1|]. split; [exact S2|exact S3].
    - destruct Sc as [Sc|[Sc _]]; [congruence|]. fold l in Sc. rewrite Sc in *.
      pose proof (sl_add_same h1 ONone (Slv [] None) [x] c) as S.
      assert (F : List.filter (fun y => negb (sl_contains h1 (sv_vals (Slv [] None)) y)) [x] = [x]) by reflexivity.
      rewrite F in S. clear F. cbv zeta in S. destruct S as (l' & S1 & S2 & S3 & _).
      + right. auto.
      + intros y [].
      + intros y Hy. rewrite Es. apply Cl, Hy.
      + intros y Hy. destruct (Ks y Hy) as [z Hz]. exists z. rewrite Es. exact Hz.
      + intros y Hy. destruct (Ke y Hy) as [z Hz]. exists z. exact Hz.
      + apply issubclass_refl.
      + exists l'. split; [|split; [exact S2|]].
        * rewrite <- S1. unfold seq_slv. fold l. rewrite Sc, Q.
          assert (Eh : h1 = upd_tier t (set_t_seqec (Some (s_cls (sob h x)))) h) by (rewrite (Cl x ltac:(simpl; auto)); reflexivity).
          rewrite Eh. reflexivity.
        * eapply sorted_ext; [|exact S3]. intros y _. rewrite Es. reflexivity. }
  destruct E as (l' & E & Pm & So).
  assert (Lk' : linkable h1 c l').
  { apply (linkable_perm h1 c (l ++ [x]) l' Pm). destruct Lk as (N & Lk). split; [exact N|]. intros y Hy. rewrite Es, Q2. apply Lk, Hy. }
  assert (Hin : forall y, In y l' <-> In y (l ++ [x])).
  { intros y. split; apply Permutation_in; [exact Pm|apply Permutation_sym, Pm]. }
  destruct (set_seq_edit h1 t c l') as (h2 & E2 & P2 & I2 & Or & To & Pl & Sq).
  - rewrite Q5. exact Ht.
  - rewrite Q7. exact Hsup.
  - exact Lk'.
  - intros y Hy. rewrite Es. apply (Da y). apply Hin, Hy.
  - exists h2. split; [|split; [|split; [exact Or|split; [|split]]]].
    + mstep. rewrite (bind_ok _ _ _ _ _ E). mstep.
      assert (Pt : is_point_tier h1 t = false) by (unfold is_point_tier, is_point_cls; rewrite (issubclass_ext h) by exact Q1; rewrite Q7; exact Hp).
      rewrite Pt. exact E2.
    + rewrite P2. exact Pm.
    + intros y Hy. rewrite <- Es. apply Pl, Hin, Hy.
    + destruct To as (A1 & A2 & A3 & A4 & A5 & A6 & A7 & A8 & A9). rewrite Q2 in *. rewrite Q7 in A9. cbn in A9.
      split; [intros i Hi Hn; rewrite A1; auto; rewrite Hin; exact Hn|]. split; [exact A2|]. split; [exact A3|]. split; [congruence|].
      split; [congruence|]. split; [congruence|]. split; [congruence|]. split; [intros u Hu; rewrite A8 by auto; auto|]. exact A9.
    + rewrite Sq. destruct l'; [|reflexivity]. apply Permutation_nil in Pm. destruct l; discriminate.
Qed.

Lemma put_in t x h : roomy h t [x] -> exists h',
  (o <- get_tier t ;; v <- sl_add (OTier t) (seq_slv o) [x] ;; pt <- gets (fun h => is_point_tier h t) ;;
   (if (pt : bool) then rebind_seq t v else tier_set_seq t (sv_vals v))) h = Ok tt h' /\
  Permutation (t_seq (tob h' t)) (t_seq (tob h t) ++ [x]) /\ orderly h' t /\
  (forall y, In y (t_seq (tob h t) ++ [x]) -> same_but_place (sob h y) (sob h' y)) /\
  touches_only t (t_seq (tob h t) ++ [x]) h h' /\ t_seqec (tob h' t) = Some (t_ec (tob h t)).
Proof.
  intros (Ht & Hsup & Hp & Lk & Sc & Da & Ds). apply put_loose; auto. intros y Hy. destruct (Da y Hy) as (A & B & _). eauto.
Qed.

(** ** A tree of intervals into the tiers of a group *)
Record grown (ts : list tid) (h h' : heap) : Prop := {
  gn_rest : h_cls h' = h_cls h /\ h_grp h' = h_grp h /\ h_grid h' = h_grid h /\ List.length (h_tier h') = List.length (h_tier h);
  gn_out : forall u, ~ In u ts -> tob h' u = tob h u;
  gn_tier : forall u, t_ec (tob h' u) = t_ec (tob h u) /\ t_super (tob h' u) = t_super (tob h u) /\ t_sub (tob h' u) = t_sub (tob h u) /\
    t_name (tob h' u) = t_name (tob h u) /\ t_within (tob h' u) = t_within (tob h u);
  gn_len : (List.length (h_seq h) <= List.length (h_seq h'))%nat;
  gn_new : forall i, live h' i -> ~ live h i -> is_boundary h' i;
  gn_obj : forall i, live h i -> same_but_place (sob h i) (sob h' i);
  gn_mono : forall u, incl (t_seq (tob h u)) (t_seq (tob h' u));
  gn_same : forall i, live h i -> (forall u, In u ts -> ~ In i (t_seq (tob h' u))) -> sob h' i = sob h i
}.
Lemma place_trans a b c : same_but_place a b -> same_but_place b c -> same_but_place a c.
Proof. unfold same_but_place. intros (A1 & A2 & A3 & A4 & A5 & A6 & A7 & A8) (B1 & B2 & B3 & B4 & B5 & B6 & B7 & B8). repeat split; congruence. Qed.
Lemma place_refl a : same_but_place a a.
Proof. unfold same_but_place. auto 10. Qed.
Lemma grown_refl ts h : grown ts h h.
Proof. constructor; auto 10; [intros; contradiction|intros; apply place_refl|intros u y Hy; exact Hy]. Qed.
Lemma grown_bd ts h h' k : grown ts h h' -> is_boundary h k -> is_boundary h' k.
Proof.
  intros G (K1 & K2 & K3 & K4 & K5 & K6). destruct (gn_obj _ _ _ G k K1) as (_ & A2 & A3 & A4 & A5 & A6 & _). pose proof (gn_len _ _ _ G).
  split; [lia|]. repeat split; congruence.
Qed.
Lemma grown_trans ts h h1 h' : grown ts h h1 -> grown ts h1 h' -> grown ts h h'.
Proof.
  intros G1 G2. pose proof G1 as [(A1 & A2 & A3 & A4) A5 A6 A7 A8 A9 A10 A11]. pose proof G2 as [(B1 & B2 & B3 & B4) B5 B6 B7 B8 B9 B10 B11].
  constructor.
  - repeat split; congruence.
  - intros u Hu. rewrite B5, A5; auto.
  - intros u. destruct (A6 u) as (P1 & P2 & P3 & P4 & P5). destruct (B6 u) as (Q1 & Q2 & Q3 & Q4 & Q5). repeat split; congruence.
  - lia.
  - intros i Hi Hn. destruct (decide (live h1 i)) as [Q|Q]; [|auto]. apply (grown_bd ts h1 h'); auto.
  - intros i Hi. eapply place_trans; [apply A9; exact Hi|apply B9; unfold live in *; lia].
  - intros u y Hy. apply B10, A10, Hy.
  - intros i Hi Hn. rewrite B11, A11; auto.
    + intros u Hu Q. apply (Hn u Hu). apply B10, Q.
    + unfold live in *; lia.
Qed.
Lemma grown_view ts h h' i : grown ts h h' -> s_subset (sob h' i) = s_subset (sob h i) /\ s_super (sob h' i) = s_super (sob h i).
Proof.
  intros G. destruct (decide (live h i)) as [Hi|Hi]; [destruct (gn_obj _ _ _ G i Hi) as (_ & _ & _ & _ & A & B & _); auto|].
  destruct (decide (live h' i)) as [H1|H1].
  - destruct (gn_new _ _ _ G i H1 Hi) as (_ & _ & _ & _ & A & B). rewrite (sob_dead h i Hi), A, B. auto.
  - rewrite !sob_dead by auto. auto.
Qed.
Lemma level_same h h' : (forall i, s_subset (sob h' i) = s_subset (sob h i)) -> forall k x, level h' k x = level h k x.
Proof. intros E. induction k as [|k IH]; intros x; [reflexivity|]. cbn [level]. rewrite E. apply flat_map_ext. auto. Qed.
Lemma place_span h h' x : same_but_place (sob h x) (sob h' x) -> s_start (sob h' x) = s_start (sob h x) /\ s_end (sob h' x) = s_end (sob h x).
Proof. intros (_ & A & B & _). auto. Qed.
Lemma tiles_same h h' l : (forall x, In x l -> s_start (sob h' x) = s_start (sob h x) /\ s_end (sob h' x) = s_end (sob h x)) ->
  forall a b, tiles h a l b -> tiles h' a l b.
Proof.
  induction l as [|x l IH]; intros E a b T; [exact T|]. destruct T as (m & T1 & T2 & T3 & T4). destruct (E x) as [Q1 Q2]; [simpl; auto|].
  exists m. rewrite Q1, Q2. split; [exact T1|]. split; [exact T2|]. split; [exact T3|]. apply IH; [|exact T4]. intros y Hy. apply E. simpl. auto.
Qed.
Lemma grown_value ts h h' x y : grown ts h h' -> live h x -> live h y -> same_value h' x y -> same_value h x y.
Proof.
  intros G Lx Ly. destruct (gn_obj _ _ _ G x Lx) as (A1 & A2 & A3 & A4 & _). destruct (gn_obj _ _ _ G y Ly) as (B1 & B2 & B3 & B4 & _).
  unfold same_value, is_point, is_point_cls. rewrite A1, A2, A3, A4, B1, B2, B3, B4, !(issubclass_ext h h') by apply G. auto.
Qed.
Lemma grown_brood ts h h' p : grown ts h h' -> brood h p -> brood h' p.
Proof.
  intros G (B1 & B2). destruct (grown_view ts h h' p G) as [V1 _]. pose proof (gn_len _ _ _ G).
  split; [rewrite V1; exact B1|]. rewrite V1. intros y Hy. destruct (B2 y Hy) as (Y1 & Y2 & Y3 & Y4).
  destruct (gn_obj _ _ _ G y Y1) as (C1 & _ & _ & C4 & C5 & _). split; [lia|]. split; [congruence|]. split; [congruence|].
  intros z Hz. destruct (Y4 z Hz) as (Z1 & Z2). destruct (B2 z Hz) as (Lz & _). destruct (gn_obj _ _ _ G z Lz) as (D1 & _).
  split; [congruence|]. intros V. apply Z2. eapply grown_value; eauto.
Qed.
Lemma sprout_live h ts x : sprout h ts x -> live h x.
Proof. destruct ts; [intros []|]. intros (A & _). exact A. Qed.
Lemma grown_sprout h h' ts0 : grown ts0 h h' -> forall ts x, sprout h ts x -> sprout h' ts x.
Proof.
  intros G. induction ts as [|t r IH]; intros x S; [destruct S|]. pose proof S as (S1 & S2 & S3 & S4 & S5).
  destruct (gn_obj _ _ _ G x S1) as (C1 & C2 & C3 & C4 & _). destruct (grown_view _ _ _ x G) as [V _]. pose proof (gn_len _ _ _ G).
  destruct (gn_tier _ _ _ G t) as (T1 & _).
  split; [lia|]. split; [congruence|]. split; [congruence|]. split; [apply (dated_same h h'); auto|]. rewrite V.
  destruct r as [|u r]; [exact S5|]. destruct S5 as ((s & e & F1 & F2 & F3 & F4) & B & K). split; [|split].
  - exists s, e. rewrite C2, C3. split; [exact F1|]. split; [exact F2|]. split; [exact F3|]. apply (tiles_same h h'); [|exact F4].
    intros y Hy. apply place_span. apply G. apply (sprout_live h (u :: r)). apply K, Hy.
  - eapply grown_brood; eauto.
  - intros y Hy. apply IH, K, Hy.
Qed.
Lemma grown_roomy ts h h' w L1 L2 : grown ts h h' -> roomy h w (L1 ++ L2) -> Permutation (t_seq (tob h' w)) (t_seq (tob h w) ++ L1) ->
  classed h' w -> roomy h' w L2.
Proof.
  intros G (R1 & R2 & R3 & (N & Lk) & R5 & R6 & R7) P C.
  assert (P' : Permutation (t_seq (tob h' w) ++ L2) (t_seq (tob h w) ++ L1 ++ L2)) by (rewrite P, app_assoc; reflexivity).
  assert (Hin : forall y, In y (t_seq (tob h' w) ++ L2) -> In y (t_seq (tob h w) ++ L1 ++ L2)) by (intros y; apply Permutation_in, P').
  destruct (gn_tier _ _ _ G w) as (T1 & T2 & _). destruct (gn_rest _ _ _ G) as (Ec & _ & _ & El). pose proof (gn_len _ _ _ G).
  assert (O : forall y, In y (t_seq (tob h' w) ++ L2) -> same_but_place (sob h y) (sob h' y)).
  { intros y Hy. apply G. apply Lk, Hin, Hy. }
  split; [lia|]. split; [congruence|]. split; [rewrite T1, (issubclass_ext h h') by exact Ec; exact R3|]. split.
  { split; [apply NoDup_ListNoDup; eapply Permutation_NoDup; [apply Permutation_sym, P'|]; apply NoDup_ListNoDup; exact N|].
    intros y Hy. destruct (Lk y (Hin y Hy)) as (Q1 & Q2 & Q3). destruct (O y Hy) as (C1 & _ & _ & C4 & _). split; [lia|]. split; congruence. }
  split; [exact C|]. split.
  - intros y Hy. destruct (O y Hy) as (_ & C2 & C3 & _). apply (dated_same h h'); auto.
  - intros x y Hx Hy. destruct (O x Hx) as (_ & C2 & _). destruct (O y Hy) as (_ & D2 & _). rewrite C2, D2. auto.
Qed.

Definition anchored (h : heap) (ts : list tid) (p : nat) (x : oid) : Prop :=
  forall q, s_super (sob h x) = Some q -> s_subset (sob h q) <> [] /\
    exists p' u, p = S p' /\ nth_error ts p' = Some u /\ In q (t_seq (tob h u)).

Lemma skel_group h g ts t : skel h g ts -> In t ts -> truthy_group h t = Some g.
Proof.
  intros S Ht. unfold truthy_group, tier_group. destruct (sk_within _ _ _ S t Ht) as [-> _]. rewrite (sk_tiers _ _ _ S).
  destruct ts; [destruct Ht|]. reflexivity.
Qed.
Lemma skel_nodup h g ts : skel h g ts -> NoDup ts.
Proof. intros S. apply NoDup_ListNoDup. eapply NoDup_map_inv. apply NoDup_ListNoDup, S. Qed.
Lemma skel_sibling h g ts p q t u d : skel h g ts -> nth_error ts p = Some t -> nth_error ts q = Some u -> Z.of_nat p + d = Z.of_nat q ->
  sibling_tier t g d h = Ok u h.
Proof.
  intros S Hp Hq E. unfold sibling_tier. rewrite (bind_ok _ _ _ (Some p) h).
  - unfold group_item. rewrite (sk_tiers _ _ _ S). rewrite E. unfold py_index. destruct (0 <=? Z.of_nat q) eqn:Q; [|lia]. rewrite Nat2Z.id, Hq. reflexivity.
  - unfold tier_within_index, index_in. destruct (sk_within _ _ _ S t (nth_error_In _ _ Hp)) as [-> _].
    pose proof (sk_contains _ _ _ S) as C. rewrite C. rewrite (index_of_nth t ts p Hp); [reflexivity|]. apply NoDup_ListNoDup. eapply skel_nodup; eauto.
Qed.

Lemma put_step g ts t x h h' : skel h g ts -> In t ts -> roomy h t [x] ->
  Permutation (t_seq (tob h' t)) (t_seq (tob h t) ++ [x]) -> orderly h' t ->
  (forall y, In y (t_seq (tob h t) ++ [x]) -> same_but_place (sob h y) (sob h' y)) ->
  touches_only t (t_seq (tob h t) ++ [x]) h h' -> t_seqec (tob h' t) = Some (t_ec (tob h t)) ->
  skel h' g ts /\ grown ts h h'.
Proof.
  intros S Ht (R1 & R2 & R3 & (N & Lk) & R5 & R6 & R7) P (O1 & O2 & O3) Pl (A1 & A2 & A3 & A4 & A5 & A6 & A7 & A8 & A9) Sq.
  destruct A9 as (A9 & A10 & A11 & A12 & A13).
  assert (Hin : forall y, In y (t_seq (tob h' t)) <-> In y (t_seq (tob h t) ++ [x])) by (intros y; split; apply Permutation_in; [exact P|apply Permutation_sym, P]).
  assert (G : grown ts h h').
  { constructor.
    - auto.
    - intros u Hu. apply A8. intros ->. auto.
    - intros u. destruct (decide (u = t)) as [->|Hu]; [auto 10|]. rewrite A8 by auto. auto 10.
    - exact A2.
    - intros i Hi Hn. apply A3. unfold live in *. lia.
    - intros i Hi. destruct (in_dec Nat.eq_dec i (t_seq (tob h t) ++ [x])); [auto|]. rewrite A1 by auto. apply place_refl.
    - intros u y Hy. destruct (decide (u = t)) as [->|Hu]; [apply Hin, in_app_iff; auto|]. rewrite A8 by auto. exact Hy.
    - intros i Hi Hn. apply A1; [exact Hi|]. rewrite <- Hin. auto. }
  split; [|exact G]. constructor.
  - unfold gob. rewrite A5. apply S.
  - pose proof (sk_contains _ _ _ S) as C. unfold contains_of, gob in *. rewrite A5. exact C.
  - intros u Hu. destruct (gn_tier _ _ _ G u) as (_ & _ & _ & _ & ->). rewrite A7. apply S, Hu.
  - erewrite map_ext; [apply S|]. intros u. apply (gn_tier _ _ _ G u).
  - intros u y Hu Hy. destruct (gn_tier _ _ _ G u) as (-> & _). destruct (decide (u = t)) as [->|Hne].
    + pose proof Hy as Hy2. apply Hin in Hy. destruct (Lk y Hy) as (L1 & L2 & _). split; [unfold live; lia|]. split; [|apply O3, Hy2].
      destruct (Pl y Hy) as (-> & _). exact L2.
    + rewrite A8 in Hy by auto. destruct (sk_entry _ _ _ S u y Hu Hy) as (L1 & L2 & L3). rewrite A1; [|exact L1|].
      * split; [unfold live in *; lia|auto].
      * intros Q. apply Hne. destruct (Lk y Q) as (_ & L4 & _). destruct (In_nth_error _ _ Hu) as (a & Ha). destruct (In_nth_error _ _ Ht) as (b & Hb).
        assert (Eab : a = b); [|congruence]. pose proof (sk_ecs _ _ _ S) as Nd. apply NoDup_ListNoDup in Nd. rewrite NoDup_nth_error in Nd. apply Nd.
        { rewrite map_length. apply nth_error_Some. congruence. }
        rewrite !nth_error_map, Ha, Hb. cbn. congruence.
  - intros u Hu. destruct (decide (u = t)) as [->|Hne]; [exact O1|]. rewrite A8 by auto. eapply sorted_ext; [|apply S; exact Hu].
    intros y Hy. apply place_span, G. apply (sk_entry _ _ _ S u y Hu Hy).
  - intros u Hu. unfold classed. destruct (decide (u = t)) as [->|Hne]; [left; congruence|]. rewrite A8 by auto. apply S. exact Hu.
Qed.

Lemma append_again n u q h : s_cls (sob h q) = t_ec (tob h u) -> In q (t_seq (tob h u)) -> tier_append_n (S n) u q h = Ok false h.
Proof.
  intros C I. cbn [tier_append_n]. mstep. rewrite C, issubclass_refl. cbn [orb negb]. mstep.
  assert (Q : existsb (Nat.eqb q) (t_seq (tob h u)) = true) by (apply existsb_exists; exists q; split; [exact I|apply Nat.eqb_refl]).
  rewrite Q. reflexivity.
Qed.
Lemma append_run n g ts p t x h h1 h2 : skel h g ts -> skel h2 g ts -> nth_error ts p = Some t -> s_cls (sob h x) = t_ec (tob h t) ->
  ~ In x (t_seq (tob h t)) ->
  (o <- get_tier t ;; v <- sl_add (OTier t) (seq_slv o) [x] ;; pt <- gets (fun h => is_point_tier h t) ;;
   (if (pt : bool) then rebind_seq t v else tier_set_seq t (sv_vals v))) h = Ok tt h1 ->
  skel h1 g ts ->
  forM (s_subset (sob h1 x)) (fun y => d <- sibling_tier t g 1 ;; _b <- tier_append_n (S n) d y ;; ret tt) h1 = Ok tt h2 ->
  anchored h2 ts p x -> tier_append_n (S (S n)) t x h = Ok true h2.
Proof.
  intros Sk Sk2 Hp C Nx E1 Sk1 E2 An. assert (Ht : In t ts) by (eapply nth_error_In; eauto).
  set (m := S n) in *. cbn [tier_append_n]. mstep. rewrite C, issubclass_refl. cbn [orb negb]. mstep.
  assert (Q : existsb (Nat.eqb x) (t_seq (tob h t)) = false).
  { destruct (existsb _ _) eqn:Q; auto. apply existsb_exists in Q. destruct Q as (y & Hy & Q). apply Nat.eqb_eq in Q. congruence. }
  rewrite Q.
  match goal with |- ?L = _ => assert (EL : L = ((o <- get_tier t ;; v <- sl_add (OTier t) (seq_slv o) [x] ;; pt <- gets (fun h => is_point_tier h t) ;;
   (if (pt : bool) then rebind_seq t v else tier_set_seq t (sv_vals v))) ;;;
        xo <- get_seq x ;;
        tg <- gets (fun h => truthy_group h t) ;;
        (match s_subset xo, tg with
         | _ :: _, Some g =>
           forM (s_subset xo) (fun y =>
             d <- sibling_tier t g 1 ;;
             _b <- tier_append_n m d y ;; ret tt)
         | _, _ => ret tt
         end) ;;;
        xo2 <- get_seq x ;;
        tr <- gets (fun h => seq_truthy h (s_super xo2)) ;;
        tg2 <- gets (fun h => truthy_group h t) ;;
        (match s_super xo2, tg2 with
         | Some s, Some g =>
           if (tr : bool) then
             u <- sibling_tier t g (-1) ;;
             _b <- tier_append_n m u s ;; ret tt
           else ret tt
         | _, _ => ret tt
         end) ;;;
        ret true) h) end.
  { unfold bind, get_tier, gets. destruct (sl_add (OTier t) (seq_slv (tob h t)) [x] h) as [v h0|e h0]; reflexivity. }
  rewrite EL, (bind_ok _ _ _ _ _ E1). mstep. mstep. rewrite (skel_group h1 g ts t Sk1 Ht).
  assert (E2' : (match s_subset (sob h1 x) with [] => ret tt | _ :: _ => forM (s_subset (sob h1 x)) (fun y => d <- sibling_tier t g 1 ;; _b <- tier_append_n m d y ;; ret tt) end) h1 = Ok tt h2).
  { destruct (s_subset (sob h1 x)) eqn:Es; [exact E2|exact E2]. }
  rewrite (bind_ok _ _ _ _ _ E2'). mstep. mstep. mstep. rewrite (skel_group h2 g ts t Sk2 Ht).
  destruct (s_super (sob h2 x)) as [q|] eqn:Su; [|reflexivity].
  destruct (An q Su) as (Nq & p' & u & -> & Hu & Iq).
  assert (Tr : seq_truthy h2 (Some q) = true) by (cbn [seq_truthy]; destruct (s_subset (sob h2 q)) as [|z l] eqn:Ez; [exfalso; apply Nq; reflexivity|reflexivity]).
  rewrite Tr. rewrite (bind_ok _ _ _ tt h2); [reflexivity|].
  rewrite (bind_ok _ _ _ u h2) by (eapply skel_sibling; eauto; lia).
  rewrite (bind_ok _ _ _ false h2); [reflexivity|]. unfold m. apply append_again; [|exact Iq]. apply (sk_entry _ _ _ Sk2 u q); [eapply nth_error_In; eauto|exact Iq].
Qed.
Lemma grown_anchored ts h h' p x : grown ts h h' -> anchored h ts p x -> anchored h' ts p x.
Proof.
  intros G A q Q. destruct (grown_view ts h h' x G) as [_ V]. rewrite V in Q. destruct (A q Q) as (B & p' & u & C & D & I).
  destruct (grown_view ts h h' q G) as [W _]. rewrite W. split; [exact B|]. exists p', u. split; [exact C|]. split; [exact D|]. apply G, I.
Qed.
Lemma drop_cons {A} (l : list A) p x : nth_error l p = Some x -> drop p l = x :: drop (S p) l.
Proof. revert p. induction l as [|a l IH]; intros [|p] E; [discriminate|discriminate|injection E as ->; reflexivity|]. exact (IH p E). Qed.
Lemma grow_at g ts : forall d n p t x h, skel h g ts -> nth_error ts p = Some t -> List.length ts = (p + d + 1)%nat -> (d + 2 <= n)%nat ->
  anchored h ts p x -> sprout h (drop p ts) x -> (forall k w, nth_error ts (p + k) = Some w -> roomy h w (level h k x)) ->
  exists h', tier_append_n n t x h = Ok true h' /\ skel h' g ts /\ grown ts h h' /\
    (forall k w, (k < p)%nat -> nth_error ts k = Some w -> t_seq (tob h' w) = t_seq (tob h w)) /\
    (forall k w, nth_error ts (p + k) = Some w -> Permutation (t_seq (tob h' w)) (t_seq (tob h w) ++ level h k x)).
Proof.
  induction d as [|d IHd]; intros n p t x h Sk Hp Len Fu An Sp Ro;
  (destruct n as [|n]; [lia|]); (destruct n as [|n]; [lia|]);
  assert (R0 : roomy h t [x]) by (apply (Ro 0%nat t); rewrite Nat.add_0_r; exact Hp);
  destruct (put_in t x h R0) as (h1 & E1 & P1 & O1 & Pl & To & Sq);
  assert (Ht : In t ts) by (eapply nth_error_In; eauto);
  destruct (put_step g ts t x h h1 Sk Ht R0 P1 O1 Pl To Sq) as (Sk1 & G1);
  assert (Nx : ~ In x (t_seq (tob h t)));
  try (destruct R0 as (_ & _ & _ & (N & _) & _); apply NoDup_app in N; destruct N as (_ & N & _);
       intros Q; apply (N x); [apply elem_of_list_In; exact Q|apply elem_of_list_singleton; reflexivity]);
  rewrite (drop_cons ts p t Hp) in Sp; pose proof Sp as (Lx & Cx & _);
  assert (Oth : forall u, u <> t -> tob h1 u = tob h u) by apply To;
  assert (Up : forall k w, (k < p)%nat -> nth_error ts k = Some w -> t_seq (tob h1 w) = t_seq (tob h w));
  try (intros k w Hk Hw; rewrite Oth; [reflexivity|]; intros ->; pose proof (skel_nodup _ _ _ Sk) as Nd; apply NoDup_ListNoDup in Nd; rewrite NoDup_nth_error in Nd;
       assert (k = p); [apply Nd; [apply nth_error_Some; congruence|congruence]|lia]).
  - exists h1. destruct Sp as (_ & _ & _ & _ & Sp). assert (Dr : drop (S p) ts = []) by (apply drop_ge; lia). rewrite Dr in Sp.
    split; [|split; [exact Sk1|split; [exact G1|split; [exact Up|]]]].
    + eapply append_run; eauto.
      * destruct (grown_view ts h h1 x G1) as [-> _]. rewrite Sp. reflexivity.
      * eapply grown_anchored; eauto.
    + intros k w Hw. assert (k = 0%nat) by (assert (p + k < List.length ts)%nat by (apply nth_error_Some; congruence); lia). subst k.
      rewrite Nat.add_0_r in Hw. assert (w = t) by congruence. subst w. exact P1.
  - destruct Sp as (_ & _ & _ & _ & Sp).
    destruct (nth_error ts (S p)) as [u|] eqn:Hu; [|apply nth_error_None in Hu; lia].
    rewrite (drop_cons ts (S p) u Hu) in Sp. destruct Sp as (Fi & Br & Kd). rewrite <- (drop_cons ts (S p) u Hu) in Kd.
    (* the children *)
    assert (In1 : forall ys h2, skel h2 g ts -> (forall y, In y ys -> anchored h2 ts (S p) y /\ sprout h2 (drop (S p) ts) y) ->
      (forall k w, nth_error ts (S p + k) = Some w -> roomy h2 w (flat_map (level h2 k) ys)) ->
      exists h3, forM ys (fun y => d <- sibling_tier t g 1 ;; _b <- tier_append_n (S n) d y ;; ret tt) h2 = Ok tt h3 /\ skel h3 g ts /\ grown ts h2 h3 /\
        (forall k w, (k < S p)%nat -> nth_error ts k = Some w -> t_seq (tob h3 w) = t_seq (tob h2 w)) /\
        (forall k w, nth_error ts (S p + k) = Some w -> Permutation (t_seq (tob h3 w)) (t_seq (tob h2 w) ++ flat_map (level h2 k) ys))).
    { induction ys as [|y ys IHy]; intros h2 Sk2 Ky Ry.
      - exists h2. split; [reflexivity|]. split; [exact Sk2|]. split; [apply grown_refl|]. split; [auto|]. intros k w _. cbn. rewrite app_nil_r. reflexivity.
      - destruct (Ky y) as [Ay Sy]; [simpl; auto|].
        destruct (IHd (S n) (S p) u y h2 Sk2 Hu ltac:(lia) ltac:(lia) Ay Sy) as (h3 & E3 & Sk3 & G3 & U3 & P3).
        { intros k w Hw. specialize (Ry k w Hw). cbn [flat_map] in Ry. destruct Ry as (Q1 & Q2 & Q3 & (Q4 & Q5) & Q6 & Q7 & Q8).
          assert (In3 : forall z, In z (t_seq (tob h2 w) ++ level h2 k y) -> In z (t_seq (tob h2 w) ++ level h2 k y ++ flat_map (level h2 k) ys)).
          { intros z. rewrite !in_app_iff. tauto. }
          split; [exact Q1|]. split; [exact Q2|]. split; [exact Q3|]. split; [split; [|auto]|].
          - rewrite app_assoc in Q4. apply NoDup_app in Q4. apply Q4.
          - split; [exact Q6|]. split; [auto|]. intros a b Ha Hb. apply Q8; auto. }
        assert (Lv : forall k x, level h3 k x = level h2 k x) by (intros k z; apply level_same; intros i; apply (grown_view ts h2 h3 i G3)).
        destruct (IHy h3 Sk3) as (h4 & E4 & Sk4 & G4 & U4 & P4).
        { intros z Hz. destruct (Ky z) as [Az Sz]; [simpl; auto|]. split; [eapply grown_anchored; eauto|eapply grown_sprout; eauto]. }
        { intros k w Hw. specialize (Ry k w Hw). cbn [flat_map] in Ry. rewrite (flat_map_ext (level h3 k) (level h2 k)) by auto.
          eapply grown_roomy; eauto. apply Sk3. eapply nth_error_In; eauto. }
        exists h4. split; [|split; [exact Sk4|split; [eapply grown_trans; eauto|split]]].
        + cbn [forM]. rewrite (bind_ok _ _ _ tt h3); [exact E4|]. rewrite (bind_ok _ _ _ u h2) by (eapply skel_sibling; eauto; lia).
          rewrite (bind_ok _ _ _ true h3) by exact E3. reflexivity.
        + intros k w Hk Hw. rewrite (U4 k w), (U3 k w); auto.
        + intros k w Hw. cbn [flat_map]. rewrite (P4 k w Hw), (P3 k w Hw). rewrite (flat_map_ext (level h3 k) (level h2 k)) by auto. rewrite app_assoc. reflexivity. }
    destruct (In1 (s_subset (sob h x)) h1 Sk1) as (h2 & E2 & Sk2 & G2 & U2 & P2).
    { intros y Hy. split; [|eapply grown_sprout; eauto].
      intros q Q. destruct (grown_view ts h h1 y G1) as [_ V]. rewrite V in Q. destruct Br as (_ & Br). destruct (Br y Hy) as (_ & _ & B3 & _).
      assert (q = x) by congruence. subst q. destruct (grown_view ts h h1 x G1) as [-> _]. split; [intros Q0; rewrite Q0 in Hy; destruct Hy|].
      exists p, t. split; [reflexivity|]. split; [exact Hp|]. apply Permutation_in with (1 := Permutation_sym P1). apply in_app_iff. simpl. auto. }
    { intros k w Hw. assert (Lv : flat_map (level h1 k) (s_subset (sob h x)) = level h (S k) x).
      { cbn [level]. apply flat_map_ext. intros z. apply level_same. intros i. apply (grown_view ts h h1 i G1). }
      rewrite Lv. apply (grown_roomy ts h h1 w [] (level h (S k) x)); auto.
      - apply Ro. replace (p + S k)%nat with (S p + k)%nat by lia. exact Hw.
      - rewrite Oth; [rewrite app_nil_r; reflexivity|]. intros ->. pose proof (skel_nodup _ _ _ Sk) as Nd. apply NoDup_ListNoDup in Nd. rewrite NoDup_nth_error in Nd.
        assert (p = S p + k)%nat; [apply Nd; [apply nth_error_Some; congruence|congruence]|lia].
      - apply Sk1. eapply nth_error_In; eauto. }
    exists h2. split; [|split; [exact Sk2|split; [eapply grown_trans; eauto|split]]].
    + eapply append_run; eauto.
      * destruct (grown_view ts h h1 x G1) as [-> _]. exact E2.
      * apply (grown_anchored ts h); [eapply grown_trans; eauto|exact An].
    + intros k w Hk Hw. rewrite (U2 k w), (Up k w); auto.
    + intros k w Hw. destruct k as [|k].
      * rewrite Nat.add_0_r in Hw. assert (w = t) by congruence. subst w. rewrite (U2 p t) by auto. exact P1.
      * replace (p + S k)%nat with (S p + k)%nat in Hw by lia. rewrite (P2 k w Hw).
        assert (Lv : flat_map (level h1 k) (s_subset (sob h x)) = level h (S k) x).
        { cbn [level]. apply flat_map_ext. intros z. apply level_same. intros i. apply (grown_view ts h h1 i G1). }
        rewrite Lv. rewrite Oth; [reflexivity|]. intros ->. pose proof (skel_nodup _ _ _ Sk) as Nd. apply NoDup_ListNoDup in Nd. rewrite NoDup_nth_error in Nd.
        assert (p = S p + k)%nat; [apply Nd; [apply nth_error_Some; congruence|congruence]|lia].
Qed.

(** ** The rows of the tiers afterwards *)
Fixpoint rows_ok (h : heap) (ls : list (list oid)) : Prop :=
  match ls with
  | l :: ((m :: _) as r) =>
    concat (map (fun u => s_subset (sob h u)) l) = m /\ (forall u, In u l -> fills h u (s_subset (sob h u)) /\ brood h u) /\ rows_ok h r
  | _ => True
  end.
Lemma rows_cons h l m r : rows_ok h (l :: m :: r) =
  (concat (map (fun u => s_subset (sob h u)) l) = m /\ (forall u, In u l -> fills h u (s_subset (sob h u)) /\ brood h u) /\ rows_ok h (m :: r)).
Proof. reflexivity. Qed.
Lemma fills_nonempty h u b : fills h u b -> b <> [].
Proof. intros (s & e & _ & _ & L & T) ->. cbn in T. lia. Qed.
Lemma tiles_le h l : forall a b, tiles h a l b -> a <= b.
Proof. induction l as [|x l IH]; intros a b T; [cbn in T; lia|]. destruct T as (m & _ & _ & L & T). apply IH in T. lia. Qed.
Lemma tiles_join h l1 l2 : forall a m b, tiles h a l1 m -> tiles h m l2 b -> tiles h a (l1 ++ l2) b.
Proof.
  induction l1 as [|x l1 IH]; intros a m b T1 T2; [cbn in T1; subst; exact T2|]. destruct T1 as (k & A & B & C & T1). exists k.
  split; [exact A|]. split; [exact B|]. split; [exact C|]. eapply IH; eauto.
Qed.
Lemma tiles_kids h L : forall s e, tiles h s L e -> (forall y, In y L -> fills h y (s_subset (sob h y))) ->
  tiles h s (concat (map (fun u => s_subset (sob h u)) L)) e.
Proof.
  induction L as [|x L IH]; intros s e T F; [exact T|]. destruct T as (m & A & B & C & T). cbn [map concat].
  destruct (F x) as (s' & e' & F1 & F2 & _ & F3); [simpl; auto|]. assert (s' = s) by congruence. assert (e' = m) by congruence. subst.
  eapply tiles_join; [exact F3|]. apply IH; [exact T|]. intros y Hy. apply F. simpl. auto.
Qed.
Lemma turn_three h (A L B : list oid) s e : in_turn h (A ++ B) -> (forall y, In y (A ++ B) -> dated h y) ->
  (forall a, In a A -> snd (span_of h a) <= s) -> (forall b, In b B -> e <= fst (span_of h b)) -> tiles h s L e ->
  in_turn h (A ++ L ++ B) /\ (forall y, In y (A ++ L ++ B) -> dated h y).
Proof.
  intros T D Ba Bb Tl. assert (TA : in_turn h A /\ in_turn h B /\ forall a b, In a A -> In b B -> before h a b).
  { clear -T. induction A as [|a A IH]; [split; [intros i j x y _ Q; destruct i; discriminate|split; [exact T|intros a b []]]|].
    cbn [app] in T. apply in_turn_cons in T. destruct T as [T1 T2]. destruct (IH T2) as (I1 & I2 & I3). split; [|split; [exact I2|]].
    - apply in_turn_cons. split; [intros y Hy; apply T1, in_app_iff; auto|exact I1].
    - intros x b [<-|Hx] Hb; [apply T1, in_app_iff; auto|auto]. }
  destruct TA as (TA & TB & TAB). pose proof (tiles_le h L s e Tl) as Lse. split.
  - apply in_turn_app; [exact TA|apply in_turn_app; [eapply tiles_in_turn; eauto|exact TB|]|].
    + intros x y Hx Hy. destruct (tiles_in h L s e x Tl Hx) as ((D1 & D2 & D3) & _ & Le). destruct (D y) as (E1 & E2 & E3); [apply in_app_iff; auto|].
      exists (snd (span_of h x)), (fst (span_of h y)). split; [exact D2|]. split; [exact E1|]. specialize (Bb y Hy). lia.
    + intros x y Hx Hy. apply in_app_iff in Hy. destruct Hy as [Hy|Hy]; [|auto].
      destruct (tiles_in h L s e y Tl Hy) as ((D1 & D2 & D3) & Le & _). destruct (D x) as (E1 & E2 & E3); [apply in_app_iff; auto|].
      exists (snd (span_of h x)), (fst (span_of h y)). split; [exact E2|]. split; [exact D1|]. specialize (Ba x Hx). lia.
  - intros y Hy. rewrite !in_app_iff in Hy. destruct Hy as [Hy|[Hy|Hy]]; [apply D, in_app_iff; auto|apply (tiles_in h L s e y Tl Hy)|apply D, in_app_iff; auto].
Qed.
Lemma flat_concat {A B} (f : A -> list B) l : flat_map f l = concat (map f l).
Proof. induction l; cbn; [reflexivity|f_equal; auto]. Qed.
Lemma flat_flat {A B C} (f : B -> list C) (g : A -> list B) l : flat_map f (flat_map g l) = flat_map (fun x => flat_map f (g x)) l.
Proof. induction l as [|x l IH]; [reflexivity|]. cbn [flat_map]. rewrite flat_map_app, IH. reflexivity. Qed.
Lemma spread h : forall ts bss t (A B L : list oid) s e, snug h (t :: ts) bss -> related_tiers h (t :: ts) bss -> (forall w, In w (t :: ts) -> fit_tier h w) ->
  t_seq (tob h t) = (A ++ B)%list -> in_turn h (A ++ B) -> (forall y, In y (A ++ B) -> dated h y) ->
  (forall a, In a A -> snd (span_of h a) <= s) -> (forall b, In b B -> e <= fst (span_of h b)) -> tiles h s L e ->
  (forall y, In y L -> sprout h (t :: ts) y) ->
  exists ls, List.length ls = S (List.length ts) /\ hd_error ls = Some (A ++ L ++ B)%list /\ rows_ok h ls /\
    forall k w, nth_error (t :: ts) k = Some w -> exists l Ak Bk, nth_error ls k = Some l /\ t_seq (tob h w) = (Ak ++ Bk)%list /\
      l = (Ak ++ flat_map (level h k) L ++ Bk)%list /\ in_turn h (Ak ++ Bk) /\ in_turn h l /\ (forall y, In y l -> dated h y) /\
      forall y, In y (flat_map (level h k) L) -> sprout h (drop k (t :: ts)) y.
Proof.
  induction ts as [|u ts IH]; intros bss t A B L s e S R Ft Et Tu Da Ba Bb Tl Sp.
  - destruct (turn_three h A L B s e Tu Da Ba Bb Tl) as (T1 & T2).
    exists [A ++ L ++ B]%list. split; [reflexivity|]. split; [reflexivity|]. split; [exact I|]. intros k w Hw. destruct k as [|k]; [|destruct k; discriminate].
    injection Hw as <-. exists (A ++ L ++ B)%list, A, B. rewrite (flat_map_ext (level h 0) (fun x => [x])) by reflexivity.
    assert (Q : flat_map (fun x => [x]) L = L) by (clear; induction L; cbn; [reflexivity|f_equal; auto]). rewrite Q.
    split; [reflexivity|]. split; [exact Et|]. split; [reflexivity|]. split; [exact Tu|]. split; [exact T1|]. split; [exact T2|exact Sp].
  - destruct bss as [|bs bss]; [destruct S|]. rewrite snug_cons in S. rewrite related_cons in R. destruct S as (S1 & S2 & S3), R as (R1 & R2).
    destruct (turn_three h A L B s e Tu Da Ba Bb Tl) as (T1 & T2).
    set (kids := fun u => s_subset (sob h u)).
    assert (Eb : bs = map kids (t_seq (tob h t))).
    { clear -R1. induction R1 as [|p b l bs (P & _) _ IH]; [reflexivity|]. cbn [map]. f_equal; [symmetry; exact P|exact IH]. }
    assert (Fo : forall p, In p (A ++ B) -> fills h p (kids p)).
    { intros p Hp. rewrite <- Et in Hp. rewrite Eb in S2. clear -S2 Hp. revert S2 Hp. generalize (t_seq (tob h t)). intros l. induction l as [|a l IH]; intros F Hp; [destruct Hp|].
      cbn [map] in F. inversion F; subst. destruct Hp as [->|Hp]; auto. }
    assert (Po : forall p y, In p (A ++ B) -> In y (kids p) -> In y (t_seq (tob h u)) /\ s_super (sob h y) = Some p).
    { intros p y Hp Hy. rewrite <- Et in Hp. split.
      - rewrite <- S1, Eb. apply in_concat. exists (kids p). split; [apply in_map; exact Hp|exact Hy].
      - rewrite Eb in R1. clear -R1 Hp Hy. revert R1 Hp. generalize (t_seq (tob h t)). intros l. induction l as [|a l IH]; intros F Hp; [destruct Hp|].
        cbn [map] in F. inversion F as [|? ? ? ? (_ & _ & P) F']; subst. destruct Hp as [->|Hp]; [apply P; exact Hy|auto]. }
    assert (Bo : forall p, In p (A ++ B) -> brood h p).
    { intros p Hp. destruct (kids p) as [|y l] eqn:Ek; [destruct (fills_nonempty h p (kids p) (Fo p Hp) Ek)|].
      destruct (Po p y Hp) as [Y1 Y2]; [rewrite Ek; simpl; auto|]. destruct (Ft u) as (_ & _ & Fu); [simpl; auto|]. apply (Fu y Y1 p Y2). }
    assert (Fn : forall p, In p L -> fills h p (kids p) /\ brood h p /\ forall y, In y (kids p) -> sprout h (u :: ts) y).
    { intros p Hp. destruct (Sp p Hp) as (_ & _ & _ & _ & Q). exact Q. }
    destruct (IH bss u (concat (map kids A)) (concat (map kids B)) (concat (map kids L)) s e S3 R2) as (ls & L1 & L2 & L3 & L4).
    { intros w Hw. apply Ft. right. exact Hw. }
    { rewrite <- S1, Eb, Et, map_app, concat_app. reflexivity. }
    { rewrite <- concat_app, <- map_app, <- Et, <- Eb. eapply fills_in_turn; eauto. rewrite Et. exact Tu. }
    { intros y Hy. rewrite <- concat_app, <- map_app in Hy. apply in_concat in Hy. destruct Hy as (b & Hb & Hy). apply in_map_iff in Hb. destruct Hb as (p & <- & Hp).
      destruct (Fo p Hp) as (s' & e' & _ & _ & _ & T). apply (tiles_in h _ _ _ y T Hy). }
    { intros y Hy. apply in_concat in Hy. destruct Hy as (b & Hb & Hy). apply in_map_iff in Hb. destruct Hb as (p & <- & Hp).
      assert (Hp' : In p (A ++ B)) by (apply in_app_iff; auto). destruct (Fo p Hp') as (s' & e' & _ & F2 & _ & T).
      destruct (tiles_in h _ _ _ y T Hy) as (_ & _ & Q). destruct (Da p Hp') as (_ & D2 & _). assert (e' = snd (span_of h p)) by congruence. specialize (Ba p Hp). lia. }
    { intros y Hy. apply in_concat in Hy. destruct Hy as (b & Hb & Hy). apply in_map_iff in Hb. destruct Hb as (p & <- & Hp).
      assert (Hp' : In p (A ++ B)) by (apply in_app_iff; auto). destruct (Fo p Hp') as (s' & e' & F1 & _ & _ & T).
      destruct (tiles_in h _ _ _ y T Hy) as (_ & Q & _). destruct (Da p Hp') as (D1 & _). assert (s' = fst (span_of h p)) by congruence. specialize (Bb p Hp). lia. }
    { apply tiles_kids; [exact Tl|]. intros y Hy. apply Fn, Hy. }
    { intros y Hy. apply in_concat in Hy. destruct Hy as (b & Hb & Hy). apply in_map_iff in Hb. destruct Hb as (p & <- & Hp). apply (Fn p Hp), Hy. }
    destruct ls as [|m ls]; [discriminate|]. cbn [hd_error] in L2. injection L2 as ->.
    set (m := (concat (map kids A) ++ concat (map kids L) ++ concat (map kids B))%list) in *.
    exists ((A ++ L ++ B)%list :: m :: ls). split; [cbn [List.length] in *; lia|]. split; [reflexivity|]. split; [|].
    + rewrite rows_cons. split; [unfold m, kids; rewrite !map_app, !concat_app; reflexivity|]. split; [|exact L3].
      intros p Hp. rewrite !in_app_iff in Hp. destruct Hp as [Hp|[Hp|Hp]].
      * split; [apply Fo|apply Bo]; apply in_app_iff; auto.
      * split; apply Fn, Hp.
      * split; [apply Fo|apply Bo]; apply in_app_iff; auto.
    + intros k w Hw. destruct k as [|k].
      * injection Hw as <-. exists (A ++ L ++ B)%list, A, B. rewrite (flat_map_ext (level h 0) (fun x => [x])) by reflexivity.
        assert (Q : flat_map (fun x => [x]) L = L) by (clear; induction L; cbn; [reflexivity|f_equal; auto]). rewrite Q.
        split; [reflexivity|]. split; [exact Et|]. split; [reflexivity|]. split; [exact Tu|]. split; [exact T1|]. split; [exact T2|exact Sp].
      * destruct (L4 k w Hw) as (l & Ak & Bk & Q1 & Q2 & Q3 & Q0 & Q4 & Q5 & Q6).
        assert (El : flat_map (level h (Datatypes.S k)) L = flat_map (level h k) (concat (map kids L))) by (rewrite <- flat_concat, flat_flat; reflexivity).
        exists l, Ak, Bk. rewrite El. split; [exact Q1|]. split; [exact Q2|]. split; [exact Q3|]. split; [exact Q0|]. split; [exact Q4|]. split; [exact Q5|exact Q6].
Qed.
Lemma sorted_once h l : in_turn h l -> (forall y, In y l -> dated h y) -> forall l', sorted_starts h l' -> Permutation l' l -> l' = l.
Proof.
  induction l as [|x l IH]; intros T D l' So P; [apply Permutation_nil, Permutation_sym, P|].
  destruct l' as [|y l']; [apply Permutation_nil in P; discriminate|].
  apply in_turn_cons in T. destruct T as [T1 T2].
  assert (E : y = x).
  { assert (Hy : In y (x :: l)) by (apply (Permutation_in _ P); simpl; auto). destruct Hy as [->|Hy]; [reflexivity|].
    assert (Hx : In x (y :: l')) by (apply (Permutation_in _ (Permutation_sym P)); simpl; auto). destruct Hx as [->|Hx]; [reflexivity|]. exfalso.
    destruct (T1 y Hy) as (e & s & E1 & E2 & Le). destruct (In_nth_error _ _ Hx) as [j Hj].
    destruct (So 0%nat (S j) y x ltac:(lia) eq_refl Hj) as (a & b & E3 & E4 & Le'). destruct (D x ltac:(simpl; auto)) as (D1 & D2 & D3).
    assert (s = a) by congruence. assert (b = fst (span_of h x)) by congruence. assert (e = snd (span_of h x)) by congruence. lia. }
  subst y. f_equal. apply IH; [exact T2|intros z Hz; apply D; simpl; auto| |eapply Permutation_cons_inv; exact P].
  intros i j a b Hij Ha Hb. apply (So (S i) (S j) a b); [lia|exact Ha|exact Hb].
Qed.
Lemma turn_starts h l : in_turn h l -> (forall y, In y l -> dated h y) -> forall x y, In x l -> In y l -> s_start (sob h x) = s_start (sob h y) -> x = y.
Proof.
  intros T D x y Hx Hy E. destruct (In_nth_error _ _ Hx) as [i Hi]. destruct (In_nth_error _ _ Hy) as [j Hj].
  assert (W : forall i j x y, In x l -> (i < j)%nat -> nth_error l i = Some x -> nth_error l j = Some y -> s_start (sob h x) <> s_start (sob h y)).
  { clear i j x y Hx Hy E Hi Hj. intros i j x y Hx Hij Hi Hj E. destruct (T i j x y Hij Hi Hj) as (e & s & E1 & E2 & Le). destruct (D x Hx) as (D1 & D2 & D3).
    assert (s = fst (span_of h x)) by congruence. assert (e = snd (span_of h x)) by congruence. lia. }
  destruct (lt_eq_lt_dec i j) as [[Q|Q]|Q]; [destruct (W i j x y Hx Q Hi Hj E)| |destruct (W j i y x Hy Q Hj Hi (eq_sym E))]. congruence.
Qed.
Lemma turn_nodup h l : in_turn h l -> (forall y, In y l -> dated h y) -> NoDup l.
Proof.
  induction l as [|x l IH]; intros T D; [constructor|]. apply in_turn_cons in T. destruct T as [T1 T2]. constructor; [|apply IH; auto; intros y Hy; apply D; simpl; auto].
  rewrite elem_of_list_In. intros Hx. destruct (T1 x Hx) as (e & s & E1 & E2 & Le). destruct (D x ltac:(simpl; auto)) as (D1 & D2 & D3).
  assert (s = fst (span_of h x)) by congruence. assert (e = snd (span_of h x)) by congruence. lia.
Qed.

Lemma turn_sorted h l : in_turn h l -> (forall y, In y l -> dated h y) -> sorted_starts h l.
Proof.
  intros T D i j a b Hij Ha Hb. destruct (T i j a b Hij Ha Hb) as (e & s & E1 & E2 & Le). destruct (D a (nth_error_In _ _ Ha)) as (D1 & D2 & D3).
  exists (fst (span_of h a)), s. split; [exact D1|]. split; [exact E2|]. assert (e = snd (span_of h a)) by congruence. lia.
Qed.
Lemma chain_super h ts : tier_chain h ts -> forall t, In t ts -> t_super (tob h t) <> None.
Proof.
  intros (J & _ & _ & (t0 & H0 & c & H1 & _) & _) t Ht. destruct ts as [|a ts]; [destruct Ht|]. injection H0 as ->.
  destruct Ht as [->|Ht]; [congruence|]. clear H1. revert t0 J Ht. induction ts as [|u ts IH]; intros t0 J Ht; [destruct Ht|].
  destruct J as (_ & J1 & J2). destruct Ht as [->|Ht]; [congruence|]. eapply IH; eauto.
Qed.
(** A related group whose rows are known. *)
Lemma rows_snug h h' : (forall i, live h i -> s_start (sob h' i) = s_start (sob h i) /\ s_end (sob h' i) = s_end (sob h i)) ->
  forall ts ls, ts <> [] -> List.length ls = List.length ts -> rows_ok h ls -> (forall l x, In l ls -> In x l -> live h x) ->
  (forall k u l, nth_error ts k = Some u -> nth_error ls k = Some l -> t_seq (tob h' u) = l) ->
  snug h' ts (map (map (fun u => s_subset (sob h u))) (removelast ls)).
Proof.
  intros Es. induction ts as [|t ts IH]; intros ls Ne Len R Lv Row; [congruence|]. destruct ls as [|l ls]; [discriminate|].
  destruct ts as [|u ts].
  - destruct ls; [|discriminate]. exact I.
  - destruct ls as [|m ls]; [discriminate|]. rewrite rows_cons in R. destruct R as (R1 & R2 & R3).
    change (removelast (l :: m :: ls)) with (l :: removelast (m :: ls)). cbn [map]. rewrite snug_cons.
    rewrite (Row 0%nat t l eq_refl eq_refl), (Row 1%nat u m eq_refl eq_refl). split; [exact R1|]. split.
    + assert (Lm : forall x, In x m -> live h x) by (intros x; apply Lv; simpl; auto). rewrite <- R1 in Lm.
      assert (Ll : forall x, In x l -> live h x) by (intros x; apply Lv; simpl; auto).
      clear -Es R2 Lm Ll. induction l as [|p l IH]; cbn [map]; constructor.
      * destruct (R2 p) as ((s & e & F1 & F2 & F3 & F4) & _); [simpl; auto|]. destruct (Es p (Ll p ltac:(simpl; auto))) as [E1 E2].
        exists s, e. rewrite E1, E2. split; [exact F1|]. split; [exact F2|]. split; [exact F3|]. apply (tiles_same h h'); [|exact F4].
        intros y Hy. apply Es, Lm. cbn [map concat]. apply in_app_iff. auto.
      * apply IH; [intros; apply R2; simpl; auto|intros x Hx; apply Lm; cbn [map concat]; apply in_app_iff; auto|intros; apply Ll; simpl; auto].
    + apply IH; [discriminate|cbn [List.length] in *; lia|exact R3|intros l0 x Hl; apply Lv; simpl; auto|].
      intros k w l0 Hw Hl. apply (Row (S k) w l0 Hw Hl).
Qed.
Lemma rows_parent h : forall ls k m y, rows_ok h ls -> nth_error ls (S k) = Some m -> In y m ->
  exists l p, nth_error ls k = Some l /\ In p l /\ In y (s_subset (sob h p)) /\ brood h p /\ incl (s_subset (sob h p)) m.
Proof.
  induction ls as [|l ls IH]; intros k m y R Hm Hy; [destruct k; discriminate|]. destruct ls as [|m0 ls]; [destruct k; discriminate|].
  rewrite rows_cons in R. destruct R as (R1 & R2 & R3). destruct k as [|k].
  - cbn in Hm. injection Hm as <-. rewrite <- R1 in Hy. apply in_concat in Hy. destruct Hy as (b & Hb & Hy). apply in_map_iff in Hb. destruct Hb as (p & <- & Hp).
    exists l, p. split; [reflexivity|]. split; [exact Hp|]. split; [exact Hy|]. split; [apply R2, Hp|]. intros z Hz. rewrite <- R1. apply in_concat. eexists. split; [apply in_map_iff; exists p; split; [reflexivity|exact Hp]|exact Hz].
  - destruct (IH k m y R3 Hm Hy) as (l0 & p & Q). exists l0, p. exact Q.
Qed.
Lemma rows_related h : forall ts ls h', related_tiers h' ts (map (map (fun u => s_subset (sob h u))) (removelast ls)) -> List.length ls = List.length ts ->
  (forall k u l, nth_error ts k = Some u -> nth_error ls k = Some l -> t_seq (tob h' u) = l) ->
  forall k l p, nth_error ls k = Some l -> (S k < List.length ls)%nat -> In p l ->
  s_subset (sob h' p) = s_subset (sob h p) /\ forall y, In y (s_subset (sob h p)) -> s_super (sob h' y) = Some p.
Proof.
  induction ts as [|t ts IH]; intros ls h' R Len Row k l p Hl Hk Hp; [destruct ls; [destruct k; discriminate|discriminate]|].
  destruct ls as [|l0 ls]; [discriminate|]. destruct ts as [|u ts]; [destruct ls; [cbn in Hk; lia|discriminate]|].
  destruct ls as [|m ls]; [discriminate|]. change (removelast (l0 :: m :: ls)) with (l0 :: removelast (m :: ls)) in R. cbn [map] in R.
  rewrite related_cons in R. destruct R as (R1 & R2). destruct k as [|k].
  - cbn in Hl. injection Hl as ->. rewrite (Row 0%nat t l eq_refl eq_refl) in R1. clear -R1 Hp. induction l as [|a l IH]; [destruct Hp|].
    cbn [map] in R1. inversion R1 as [|? ? ? ? (P1 & _ & P2) F]; subst. destruct Hp as [->|Hp]; [|auto]. split; [exact P1|]. intros y Hy. apply P2, Hy.
  - apply (IH (m :: ls) h' R2 ltac:(cbn [List.length] in *; lia) ltac:(intros k0 w l1 Hw Hl1; apply (Row (S k0) w l1 Hw Hl1)) k l p Hl ltac:(cbn [List.length] in *; lia) Hp).
Qed.

Lemma c50_append : forall n h g t r bss x (A B : list oid), good_group h g (t :: r) bss -> (forall u, In u (t :: r) -> housed h u) ->
  sprout h (t :: r) x -> s_super (sob h x) = None -> t_seq (tob h t) = (A ++ B)%list ->
  (forall a, In a A -> precedes h a x) -> (forall b, In b B -> precedes h x b) -> (List.length (t :: r) < n)%nat ->
  exists h' bss', tier_append n t x h = Ok tt h' /\ good_group h' g (t :: r) bss' /\ t_seq (tob h' t) = (A ++ x :: B)%list /\
    (forall k u, nth_error (t :: r) k = Some u -> housed h' u /\
       exists Ak Bk, t_seq (tob h u) = (Ak ++ Bk)%list /\ t_seq (tob h' u) = (Ak ++ level h k x ++ Bk)%list) /\
    grows g (t :: r) (fun i => exists u, In u (t :: r) /\ In i (t_seq (tob h' u))) h h'.
Proof.
  intros n h g t r bss x A B GG Ho Sp Su Et PA PB Fu. pose proof GG as (G1 & G2 & G3 & G4 & G5 & G6 & G7 & G8 & G9 & G10).
  set (ts := t :: r) in *.
  destruct (G10 t eq_refl) as (Tu & Td). rewrite Et in Tu, Td.
  pose proof Sp as (Lx & _ & _ & (X1 & X2 & X3) & _).
  set (s := fst (span_of h x)) in *. set (e := snd (span_of h x)) in *.
  destruct (spread h r bss t A B [x] s e G7 G8 (good_fit h g ts bss GG) Et Tu ltac:(intros y Hy; apply Td, Hy)) as (ls & L1 & L2 & L3 & L4).
  { intros a Ha. destruct (PA a Ha) as (e' & s' & P1 & P2 & P3). destruct (Td a ltac:(apply in_app_iff; auto)) as ((_ & D2 & _) & _).
    assert (e' = snd (span_of h a)) by congruence. assert (s' = s) by congruence. lia. }
  { intros b Hb. destruct (PB b Hb) as (e' & s' & P1 & P2 & P3). destruct (Td b ltac:(apply in_app_iff; auto)) as ((D1 & _) & _).
    assert (s' = fst (span_of h b)) by congruence. assert (e' = e) by congruence. lia. }
  { exists e. split; [exact X1|]. split; [exact X2|]. split; [exact X3|reflexivity]. }
  { intros y [<-|[]]. exact Sp. }
  assert (L4' : forall k w, nth_error ts k = Some w -> exists l Ak Bk, nth_error ls k = Some l /\ t_seq (tob h w) = (Ak ++ Bk)%list /\
      l = (Ak ++ level h k x ++ Bk)%list /\ in_turn h (Ak ++ Bk) /\ in_turn h l /\ (forall y, In y l -> dated h y) /\
      forall y, In y (level h k x) -> sprout h (drop k ts) y).
  { intros k w Hw. destruct (L4 k w Hw) as (l & Ak & Bk & Q). cbn [flat_map] in Q. rewrite app_nil_r in Q. exists l, Ak, Bk. exact Q. }
  clear L4. assert (Ld : forall k w y, nth_error ts k = Some w -> In y (t_seq (tob h w)) -> dated h y).
  { intros k w y Hw Hy. destruct (L4' k w Hw) as (l & Ak & Bk & _ & Q2 & Q3 & _ & _ & Q5 & _). apply Q5. rewrite Q3, !in_app_iff. rewrite Q2, in_app_iff in Hy. tauto. }
  assert (Sk : skel h g ts).
  { constructor.
    - exact G3.
    - exact G4.
    - intros u Hu. split; [apply G9, Hu|apply G5, Hu].
    - apply G5.
    - intros u y Hu Hy. destruct (G9 u Hu) as (_ & (_ & Q) & _). destruct (Q y Hy) as (Q1 & Q2 & _). split; [exact Q1|]. split; [exact Q2|]. apply (Ho u Hu), Hy.
    - intros u Hu. destruct (In_nth_error _ _ Hu) as [k Hk]. destruct (L4' k u Hk) as (l & Ak & Bk & _ & Q2 & _ & Q4 & _).
      apply turn_sorted; [rewrite Q2; exact Q4|]. intros y Hy. eapply Ld; eauto.
    - intros u Hu. apply Ho, Hu. }
  assert (Ro : forall k w, nth_error ts (0 + k) = Some w -> roomy h w (level h k x)).
  { intros k w Hw. cbn [Nat.add] in Hw. assert (Hin : In w ts) by (eapply nth_error_In; eauto).
    destruct (L4' k w Hw) as (l & Ak & Bk & Q1 & Q2 & Q3 & Q4 & Q5 & Q6 & Q7). destruct (G9 w Hin) as (_ & (N1 & N2) & N3).
    assert (P : Permutation (t_seq (tob h w) ++ level h k x) l).
    { rewrite Q2, Q3, <- app_assoc. apply Permutation_app_head, Permutation_app_comm. }
    assert (Pi : forall y, In y (t_seq (tob h w) ++ level h k x) -> In y l) by (intros y; apply Permutation_in, P).
    split; [apply G5, Hin|]. split; [eapply chain_super; eauto|]. split; [exact N3|]. split; [|split; [apply Ho, Hin|split]].
    - split; [apply NoDup_ListNoDup; eapply Permutation_NoDup; [apply Permutation_sym, P|]; apply NoDup_ListNoDup; eapply turn_nodup; eauto|].
      intros y Hy. apply in_app_iff in Hy. destruct Hy as [Hy|Hy]; [apply N2, Hy|]. pose proof (Q7 y Hy) as Sy.
      rewrite (drop_cons ts k w Hw) in Sy. destruct Sy as (S1 & S2 & S3 & _). auto.
    - intros y Hy. apply Q6, Pi, Hy.
    - intros a b Ha Hb. apply (turn_starts h l Q5 Q6); auto. }
  destruct (grow_at g ts (List.length r) n 0 t x h Sk eq_refl) as (h1 & E1 & Sk1 & Gr & _ & Pm).
  { cbn [ts List.length]. lia. }
  { cbn [ts List.length] in Fu. lia. }
  { intros q Q. congruence. }
  { exact Sp. }
  { exact Ro. }
  (* what the tiers list now *)
  assert (Es : forall i, live h i -> s_start (sob h1 i) = s_start (sob h i) /\ s_end (sob h1 i) = s_end (sob h i)).
  { intros i Hi. apply place_span, Gr, Hi. }
  assert (Ll : forall k w l, nth_error ts k = Some w -> nth_error ls k = Some l -> forall y, In y l -> live h y /\ s_cls (sob h y) = t_ec (tob h w) /\ s_label (sob h y) <> "#"%string).
  { intros k w l Hw Hl y Hy. destruct (L4' k w Hw) as (l' & Ak & Bk & Q1 & Q2 & Q3 & _). assert (El : l' = l) by congruence. rewrite El in *. clear El l'.
    destruct (Ro k w Hw) as (_ & _ & _ & (_ & Q) & _). apply Q. rewrite Q2. rewrite Q3 in Hy. rewrite !in_app_iff in *. tauto. }
  assert (Row : forall k u l, nth_error ts k = Some u -> nth_error ls k = Some l -> t_seq (tob h1 u) = l).
  { intros k u l Hu Hl. destruct (L4' k u Hu) as (l' & Ak & Bk & Q1 & Q2 & Q3 & Q4 & Q5 & Q6 & Q7). assert (El : l' = l) by congruence. rewrite El in *. clear El l'.
    apply (sorted_once h l Q5 Q6).
    - pose proof (sk_sorted _ _ _ Sk1 u (nth_error_In _ _ Hu)) as So. eapply (sorted_ext h1 h); [|exact So].
      intros y Hy. symmetry. apply Es. apply (Permutation_in _ (Pm k u Hu)) in Hy. destruct (Ro k u Hu) as (_ & _ & _ & (_ & Q) & _). apply Q, Hy.
    - rewrite (Pm k u Hu), Q2, Q3, <- app_assoc. apply Permutation_app_head, Permutation_app_comm. }
  assert (Lk : List.length ls = List.length ts) by (cbn [ts List.length]; exact L1).
  assert (Lrow : forall k u, nth_error ts k = Some u -> exists l, nth_error ls k = Some l).
  { intros k u Hu. destruct (L4' k u Hu) as (l & _ & _ & Q & _). eauto. }
  assert (Lup : forall k l, nth_error ls k = Some l -> exists u, nth_error ts k = Some u).
  { intros k l Hl. assert (k < List.length ls)%nat by (apply nth_error_Some; congruence). destruct (nth_error ts k) eqn:Q; [eauto|apply nth_error_None in Q; lia]. }
  assert (Top : forall y, In y (A ++ x :: B) -> s_super (sob h y) = None).
  { intros y Hy. apply in_app_iff in Hy. destruct Hy as [Hy|[<-|Hy]]; [apply Td, in_app_iff; auto|exact Su|apply Td, in_app_iff; auto]. }
  pose proof (gn_rest _ _ _ Gr) as (Z1 & Z2 & Z3 & Z4).
  assert (Ch : tier_chain h1 ts).
  { apply (tier_chain_same h h1); auto. intros u _. destruct (gn_tier _ _ _ Gr u) as (Q1 & Q2 & Q3 & _). auto. }
  assert (Cj : classes_joined h1 ts).
  { apply (classes_joined_same h h1); auto. intros u _. apply (gn_tier _ _ _ Gr u). }
  assert (Lvr : forall l y, In l ls -> In y l -> live h y).
  { intros l y Hl Hy. destruct (In_nth_error _ _ Hl) as [k Hk]. destruct (Lup k l Hk) as [u Hu]. apply (Ll k u l Hu Hk y Hy). }
  assert (Sn : snug h1 ts (map (map (fun u => s_subset (sob h u))) (removelast ls))).
  { apply rows_snug; auto; discriminate. }
  assert (Par : forall k u l y, nth_error ts k = Some u -> nth_error ls k = Some l -> In y l -> forall p, s_super (sob h y) = Some p ->
    exists k' l', k = S k' /\ nth_error ls k' = Some l' /\ In p l' /\ In y (s_subset (sob h p)) /\ brood h p /\ incl (s_subset (sob h p)) l).
  { intros k u l y Hu Hl Hy p Hp. destruct k as [|k].
    - destruct ls as [|l0 ls]; [discriminate|]. injection Hl as ->. injection L2 as ->. rewrite (Top y) in Hp; [discriminate|]. exact Hy.
    - destruct (rows_parent h ls k l y L3 Hl Hy) as (l' & q & Q1 & Q2 & Q3 & Q4 & Q5). exists k, l'.
      assert (q = p); [|subst q; auto 10]. destruct Q4 as (_ & Q4). destruct (Q4 y Q3) as (_ & _ & Q6 & _). congruence. }
  assert (Fit : forall u, In u ts -> fit_tier h1 u).
  { intros u Hu. destruct (In_nth_error _ _ Hu) as [k Hk]. destruct (Lrow k u Hk) as [l Hl]. pose proof (Row k u l Hk Hl) as El.
    destruct (gn_tier _ _ _ Gr u) as (T1 & _). unfold fit_tier. rewrite El, T1. split; [|split].
    - destruct (L4' k u Hk) as (l' & Ak & Bk & Q1 & Q2 & Q3 & Q4 & Q5 & Q6 & Q7). assert (El' : l' = l) by congruence. rewrite El' in *. clear El' l'.
      split; [eapply turn_nodup; eauto|]. intros y Hy. destruct (Ll k u l Hk Hl y Hy) as (P1 & P2 & P3). destruct (gn_obj _ _ _ Gr y P1) as (C1 & _ & _ & C4 & _).
      split; [pose proof (gn_len _ _ _ Gr); unfold live in *; lia|]. split; congruence.
    - rewrite (issubclass_ext h h1) by exact Z1. apply G9, Hu.
    - intros y Hy p Hp. destruct (grown_view ts h h1 y Gr) as [_ V]. rewrite V in Hp.
      destruct (Par k u l y Hk Hl Hy p Hp) as (k' & l' & -> & P1 & P2 & P3 & P4 & P5). destruct (Lup k' l' P1) as [w Hw].
      split; [pose proof (gn_len _ _ _ Gr); pose proof (Lvr l' p (nth_error_In _ _ P1) P2); unfold live in *; lia|]. split.
      + intros ->. destruct (Ll k' w l' Hw P1 y P2) as (_ & C1 & _). destruct (Ll (S k') u l Hk Hl y Hy) as (_ & C2 & _).
        pose proof (sk_ecs _ _ _ Sk) as Nd. apply NoDup_ListNoDup in Nd. rewrite NoDup_nth_error in Nd.
        assert (k' = S k'); [|lia]. apply Nd; [rewrite map_length; apply nth_error_Some; congruence|]. rewrite !nth_error_map, Hk, Hw. cbn. congruence.
      + destruct (grown_view ts h h1 p Gr) as [W _]. rewrite W. split; [exact P3|]. eapply grown_brood; eauto. }
  assert (Tl0 : nth_error ls 0 = Some (A ++ x :: B)%list) by (destruct ls; [discriminate|exact L2]).
  assert (Hd : forall t0, hd_error ts = Some t0 -> in_turn h1 (t_seq (tob h1 t0)) /\ forall y, In y (t_seq (tob h1 t0)) -> dated h1 y).
  { intros t0 [= <-]. rewrite (Row 0%nat t _ eq_refl Tl0). destruct (L4' 0%nat t eq_refl) as (l' & Ak & Bk & Q1 & Q2 & Q3 & Q4 & Q5 & Q6 & Q7).
    assert (El' : l' = (A ++ x :: B)%list) by congruence. rewrite El' in *. clear El'.
    assert (Q : forall y, In y (A ++ x :: B) -> s_start (sob h1 y) = s_start (sob h y) /\ s_end (sob h1 y) = s_end (sob h y)).
    { intros y Hy. apply Es. apply (Lvr (A ++ x :: B)%list y (nth_error_In _ _ Tl0) Hy). }
    split; [apply (in_turn_same h h1); auto|]. intros y Hy. destruct (Q y Hy). apply (dated_same h h1); auto. }
  assert (Gob : forall k, gob h1 k = gob h k) by (intros k; unfold gob; rewrite Z2; reflexivity).
  destruct (c49_again n h1 g ts _ ltac:(rewrite Z2; exact G1) ltac:(rewrite Gob; exact G2) ltac:(rewrite Gob, G3; reflexivity) Ch Cj Fit Sn Hd)
    as (h' & E2 & GG' & An & Lg & Og & _).
  pose proof An as (N1 & N2 & N3 & N4 & N5 & N6 & N7 & N8 & N9 & N10).
  assert (Row' : forall k u l, nth_error ts k = Some u -> nth_error ls k = Some l -> t_seq (tob h' u) = l).
  { intros k u l Hu Hl. destruct (anew_tier g ts h1 h' An u) as (Q & _). rewrite Q. eapply Row; eauto. }
  pose proof GG' as (_ & _ & _ & _ & _ & _ & _ & Rel & _ & Tp').
  pose proof (rows_related h ts ls h' Rel Lk Row') as RR.
  assert (Inv : forall i, involved h1 ts i -> exists k u l, nth_error ts k = Some u /\ nth_error ls k = Some l /\ In i l).
  { intros i (u & y & Hu & Hy & Hi). destruct (In_nth_error _ _ Hu) as [k Hk]. destruct (Lrow k u Hk) as [l Hl]. rewrite (Row k u l Hk Hl) in Hy.
    destruct Hi as [->|(p & Hp & Hi)]; [exists k, u, l; auto|]. destruct (grown_view ts h h1 y Gr) as [_ V]. rewrite V in Hp.
    destruct (grown_view ts h h1 p Gr) as [W _]. rewrite W in Hi.
    destruct (Par k u l y Hk Hl Hy p Hp) as (k' & l' & -> & P1 & P2 & P3 & P4 & P5). destruct Hi as [->|Hi].
    - destruct (Lup k' l' P1) as [w Hw]. exists k', w, l'. auto.
    - exists (S k'), u, l. split; [exact Hk|]. split; [exact Hl|]. apply P5, Hi. }
  pose proof (gn_len _ _ _ Gr) as Len1.
  exists h', (map (map (fun u => s_subset (sob h u))) (removelast ls)). split; [|split; [exact GG'|split; [|split]]].
  - unfold tier_append. rewrite (bind_ok _ _ _ _ _ E1). mstep. rewrite (skel_group h1 g ts t Sk1 ltac:(simpl; auto)). exact E2.
  - apply (Row' 0%nat t _ eq_refl Tl0).
  - intros k u Hu. destruct (L4' k u Hu) as (l & Ak & Bk & Q1 & Q2 & Q3 & _). destruct (anew_tier g ts h1 h' An u) as (T1 & T2 & _ & _ & _ & T6).
    assert (Hin : In u ts) by (eapply nth_error_In; eauto).
    split; [split|].
    + unfold classed. rewrite T1, T2, T6. apply (sk_classed _ _ _ Sk1 u Hin).
    + intros y Hy. rewrite T1 in Hy. destruct (sk_entry _ _ _ Sk1 u y Hin Hy) as (Q4 & _ & Q5). destruct (N1 y Q4) as (_ & _ & _ & _ & ->). exact Q5.
    + exists Ak, Bk. split; [exact Q2|]. rewrite (Row' k u l Hu Q1). exact Q3.
  - assert (Sup : forall i, live h i -> s_super (sob h' i) = s_super (sob h i)).
    { intros i Hi. destruct (grown_view ts h h1 i Gr) as [_ V].
      destruct (in_dec Nat.eq_dec i (concat ls)) as [Q|Q].
      - apply in_concat in Q. destruct Q as (l & Hl & Q). destruct (In_nth_error _ _ Hl) as [k Hk]. destruct (Lup k l Hk) as [u Hu].
        destruct k as [|k].
        + assert (l = (A ++ x :: B)%list) by congruence. subst l. rewrite (Top i Q). injection Hu as <-. destruct (Tp' t eq_refl) as (_ & T).
          apply (T i). rewrite (Row' 0%nat t _ eq_refl Tl0). exact Q.
        + destruct (rows_parent h ls k l i L3 Hk Q) as (l' & q & Q1 & Q2 & Q3 & (_ & Q4) & Q5). destruct (Q4 i Q3) as (_ & _ & Q6 & _). rewrite Q6.
          destruct (RR k l' q Q1) as (_ & R2); [apply nth_error_Some; congruence|exact Q2|]. apply R2, Q3.
      - rewrite N2; [exact V|unfold live in Hi; lia|]. intros In1. apply Inv in In1. destruct In1 as (k & u & l & _ & Hl & Q1). apply Q. apply in_concat. exists l. split; [eapply nth_error_In; eauto|exact Q1]. }
    assert (Sub : forall i, live h i -> s_subset (sob h' i) = s_subset (sob h i)).
    { intros i Hi. destruct (grown_view ts h h1 i Gr) as [V _].
      destruct (in_dec Nat.eq_dec i (concat ls)) as [Q|Q].
      - apply in_concat in Q. destruct Q as (l & Hl & Q). destruct (In_nth_error _ _ Hl) as [k Hk]. destruct (Lup k l Hk) as [u Hu].
        assert (k < List.length ls)%nat by (apply nth_error_Some; congruence).
        destruct (decide (S k < List.length ls)%nat) as [Lt|Ge]; [apply (RR k l i Hk Lt Q)|].
        assert (Only : forall k' u' l', nth_error ts k' = Some u' -> nth_error ls k' = Some l' -> In i l' -> k' = k).
        { intros k' u' l' Hu' Hl' Q'. destruct (Ll k' u' l' Hu' Hl' i Q') as (_ & C1 & _). destruct (Ll k u l Hu Hk i Q) as (_ & C2 & _).
          pose proof (sk_ecs _ _ _ Sk) as Nd. apply NoDup_ListNoDup in Nd. rewrite NoDup_nth_error in Nd.
          apply Nd; [rewrite map_length; apply nth_error_Some; congruence|]. rewrite !nth_error_map, Hu, Hu'. cbn. congruence. }
        rewrite N10; [exact V|unfold live in Hi; lia| |].
        + intros w Hw Qw. rewrite removelast_firstn_len in Hw. destruct (In_nth_error _ _ Hw) as [k' Hk'].
          assert (B' : (k' < List.length (firstn (Init.Nat.pred (List.length ts)) ts))%nat) by (apply nth_error_Some; congruence). rewrite firstn_length in B'.
          assert (Hk2 : nth_error ts k' = Some w).
          { rewrite <- (firstn_skipn (Init.Nat.pred (List.length ts)) ts). rewrite nth_error_app1; [exact Hk'|rewrite firstn_length; lia]. }
          destruct (Lrow k' w Hk2) as [l' Hl']. rewrite (Row k' w l' Hk2 Hl') in Qw. pose proof (Only k' w l' Hk2 Hl' Qw). lia.
        + intros w y Hw Hy Hs. destruct (In_nth_error _ _ Hw) as [k' Hk']. destruct (Lrow k' w Hk') as [l' Hl']. rewrite (Row k' w l' Hk' Hl') in Hy.
          destruct (grown_view ts h h1 y Gr) as [_ V']. rewrite V' in Hs. destruct (Par k' w l' y Hk' Hl' Hy i Hs) as (k2 & l2 & -> & P1 & P2 & _).
          destruct (Lup k2 l2 P1) as [w2 Hw2]. pose proof (Only k2 w2 l2 Hw2 P1 P2). assert (S k2 < List.length ls)%nat by (apply nth_error_Some; congruence). lia.
      - rewrite N2; [exact V|unfold live in Hi; lia|]. intros In1. apply Inv in In1. destruct In1 as (k & u & l & _ & Hl & Q1). apply Q. apply in_concat. exists l. split; [eapply nth_error_In; eauto|exact Q1]. }
    unfold grows. split; [|split; [|split; [lia|split; [|split; [|split; [|split; [|split; [|split; [|split]]]]]]]]].
    + intros i Hi. destruct (gn_obj _ _ _ Gr i Hi) as (C1 & C2 & C3 & C4 & _). destruct (N1 i ltac:(lia)) as (M1 & M2 & M3 & M4 & _).
      unfold same_self. split; [congruence|]. split; [congruence|]. split; [congruence|]. split; [congruence|]. split; [apply Sup, Hi|apply Sub, Hi].
    + intros i Hi Hn. assert (Hn' : forall k u l, nth_error ts k = Some u -> nth_error ls k = Some l -> ~ In i l).
      { intros k u l Hu Hl Q. apply Hn. exists u. split; [eapply nth_error_In; eauto|]. rewrite (Row' k u l Hu Hl). exact Q. }
      rewrite N2; [|lia|intros Q; apply Inv in Q; destruct Q as (k & u & l & Q1 & Q2 & Q3); eapply Hn'; eauto].
      apply (gn_same _ _ _ Gr i Hi). intros u Hu Q. destruct (In_nth_error _ _ Hu) as [k Hk]. destruct (Lrow k u Hk) as [l Hl]. rewrite (Row k u l Hk Hl) in Q. eapply Hn'; eauto.
    + intros i [Hi1 Hi2]. destruct (decide (i < List.length (h_seq h1))%nat) as [Q|Q]; [|apply N4; lia].
      assert (Bd : is_boundary h1 i) by (apply (gn_new _ _ _ Gr); [exact Q|unfold live; lia]).
      assert (Ei : sob h' i = sob h1 i).
      { apply N2; [exact Q|]. intros Iv. apply Inv in Iv. destruct Iv as (k & u & l & Q1 & Q2 & Q3). pose proof (Lvr l i (nth_error_In _ _ Q2) Q3). unfold live in *. lia. }
      destruct Bd as (B1 & B2 & B3 & B4 & B5 & B6). unfold is_boundary. rewrite Ei. split; [lia|auto 10].
    + congruence.
    + congruence.
    + congruence.
    + intros u Hu. rewrite N8 by exact Hu. apply Gr, Hu.
    + intros u. destruct (anew_tier g ts h1 h' An u) as (T1 & T2 & _ & _ & T5 & _). destruct (gn_tier _ _ _ Gr u) as (U1 & _ & _ & U4 & _). split; congruence.
    + rewrite Lg, Z2. reflexivity.
    + intros k Hk. rewrite Og by exact Hk. apply Gob.
Qed.
Lemma c50_there : forall n h t x, In x (t_seq (tob h t)) -> s_cls (sob h x) = t_ec (tob h t) -> tier_append (S n) t x h = Ok tt h.
Proof. intros n h t x I C. unfold tier_append. rewrite (bind_ok _ _ _ _ _ (append_again n t x h C I)). reflexivity. Qed.
End WithEnv.
