(** * MendGroupFinal: filling the gaps between the children of an interval whose tier is in a group (C68). *)
From Verif Require Export BroodFinal MendFinal.
From Verif Require Import GapFinal QueryFinal.
From Verif Require Import ChildSpec MendSpec ChildFinal.
Open Scope Z_scope.

Section WithEnv.
Context `{Env}.
Opaque span_of.

(** What adding children to [u] and entries to the tier [d] leaves alone. *)
Record fed (ts : list tid) (u : oid) (d : tid) (b : list oid) (h h' : heap) : Prop := {
  fe_rest : h_cls h' = h_cls h /\ h_grp h' = h_grp h /\ h_grid h' = h_grid h /\ List.length (h_tier h') = List.length (h_tier h);
  fe_out : forall w, ~ In w ts -> tob h' w = tob h w;
  fe_tier : forall w, t_ec (tob h' w) = t_ec (tob h w) /\ t_super (tob h' w) = t_super (tob h w) /\ t_sub (tob h' w) = t_sub (tob h w) /\
    t_name (tob h' w) = t_name (tob h w) /\ t_within (tob h' w) = t_within (tob h w);
  fe_seq : forall w, w <> d -> t_seq (tob h' w) = t_seq (tob h w);
  fe_len : (List.length (h_seq h) <= List.length (h_seq h'))%nat;
  fe_new : forall i, live h' i -> ~ live h i -> is_boundary h' i;
  fe_val : forall i, live h i -> s_cls (sob h' i) = s_cls (sob h i) /\ s_start (sob h' i) = s_start (sob h i) /\
       s_end (sob h' i) = s_end (sob h i) /\ s_label (sob h' i) = s_label (sob h i) /\
       (i <> u -> s_subset (sob h' i) = s_subset (sob h i)) /\ (~ In i b -> s_super (sob h' i) = s_super (sob h i))
}.
Lemma fed_refl ts u d b h : fed ts u d b h h.
Proof. constructor; auto 10. intros; contradiction. Qed.
Lemma fed_bd ts u d b h h' k : fed ts u d b h h' -> k <> u -> ~ In k b -> is_boundary h k -> is_boundary h' k.
Proof.
  intros F Hu Hb (L & S1 & S2 & S3 & S4 & S5). destruct (fe_val _ _ _ _ _ _ F k L) as (A1 & A2 & A3 & A4 & A5 & A6). pose proof (fe_len _ _ _ _ _ _ F).
  unfold is_boundary. rewrite A2, A3, A4, A5, A6 by auto. split; [lia|auto].
Qed.
Lemma fed_trans ts u d b1 b2 h h1 h2 : fed ts u d b1 h h1 -> fed ts u d b2 h1 h2 -> incl b1 b2 -> live h u -> (forall y, In y b2 -> live h y) -> fed ts u d b2 h h2.
Proof.
  intros F G Ib Lu Lb. pose proof F as [(A1 & A2 & A3 & A4) A5 A6 A7 A8 A9 A10]. pose proof G as [(B1 & B2 & B3 & B4) B5 B6 B7 B8 B9 B10]. constructor.
  - repeat split; congruence.
  - intros w Hw. rewrite B5, A5; auto.
  - intros w. destruct (A6 w) as (a1 & a2 & a3 & a4 & a5). destruct (B6 w) as (b3 & b4 & b5 & b6 & b7). repeat split; congruence.
  - intros w Hw. rewrite B7, A7; auto.
  - lia.
  - intros i Hi Hn. destruct (decide (live h1 i)) as [L1|L1]; [|apply B9; auto].
    eapply fed_bd; [exact G|intros ->; contradiction|intros Q; apply Hn, Lb, Q|]. apply A9; auto.
  - intros i Hi. assert (L1 : live h1 i) by (unfold live in *; lia). destruct (A10 i Hi) as (a1 & a2 & a3 & a4 & a5 & a6). destruct (B10 i L1) as (b3 & b4 & b5 & b6 & b7 & b8).
    split; [congruence|]. split; [congruence|]. split; [congruence|]. split; [congruence|]. split; intros Q; [rewrite b7, a5; auto|rewrite b8, a6; auto].
Qed.
Lemma wired_grown_fed c ts u d b h h1 h' : wired c [u] [b] h h1 -> grown ts h1 h' -> ~ In u b -> live h u -> (forall y, In y b -> live h y) ->
  (forall w, w <> d -> t_seq (tob h' w) = t_seq (tob h w)) -> fed ts u d b h h'.
Proof.
  intros W G Nu Lu Lb Sq. pose proof (wired_reared c u b h h1 W Nu) as R. pose proof (wi_rest _ _ _ _ _ W) as (R1 & R2 & R3 & R4).
  destruct (gn_rest _ _ _ G) as (X1 & X2 & X3 & X4). pose proof (gn_len _ _ _ G) as Le. pose proof (wi_len _ _ _ _ _ W) as Le1.
  assert (Et : forall w, tob h1 w = tob h w) by (intros w; unfold tob; rewrite R2; reflexivity). constructor.
  - repeat split; congruence.
  - intros w Hw. rewrite (gn_out _ _ _ G w Hw). apply Et.
  - intros w. rewrite <- Et. apply (gn_tier _ _ _ G).
  - exact Sq.
  - lia.
  - intros i Hi Hn. destruct (decide (live h1 i)) as [L1|L1]; [|apply (gn_new _ _ _ G); auto]. apply (grown_bd ts h1 h'); [exact G|]. apply (wi_new _ _ _ _ _ W); auto.
  - intros i Hi. assert (L1 : live h1 i) by (unfold live in *; lia). destruct (gn_obj _ _ _ G i L1) as (B1 & B2 & B3 & B4 & B5 & B6 & _).
    destruct (ra_val _ _ _ _ R i Hi) as (A1 & A2 & A3 & A4 & _).
    split; [congruence|]. split; [congruence|]. split; [congruence|]. split; [congruence|]. split; intros Q.
    + rewrite B6. apply (ra_kids _ _ _ _ R); auto.
    + rewrite B5. apply (ra_super _ _ _ _ R); auto.
Qed.
Lemma roomy_incl h d L L' : roomy h d L -> incl L' L -> NoDup (t_seq (tob h d) ++ L') -> roomy h d L'.
Proof.
  intros (Q1 & Q2 & Q3 & (Q4 & Q5) & Q6 & Q7 & Q8) I Nd.
  assert (K : forall y, In y (t_seq (tob h d) ++ L') -> In y (t_seq (tob h d) ++ L)) by (intros y; rewrite !in_app_iff; intros [Q|Q]; auto).
  split; [exact Q1|]. split; [exact Q2|]. split; [exact Q3|]. split; [split; [exact Nd|auto]|]. split; [exact Q6|]. split; auto.
Qed.
Lemma fed_roomy ts u d b h h' x r : fed ts u d b h h' -> classed h' d -> Permutation (t_seq (tob h' d)) (t_seq (tob h d) ++ [x]) -> roomy h d (x :: r) -> roomy h' d r.
Proof.
  intros F Cd P (Q1 & Q2 & Q3 & (Q4 & Q5) & Q6 & Q7 & Q8). destruct (fe_tier _ _ _ _ _ _ F d) as (T1 & T2 & _). destruct (fe_rest _ _ _ _ _ _ F) as (R1 & R2 & R3 & R4).
  assert (P' : Permutation (t_seq (tob h' d) ++ r) (t_seq (tob h d) ++ x :: r)) by (rewrite P, <- app_assoc; reflexivity).
  assert (K : forall y, In y (t_seq (tob h' d) ++ r) -> In y (t_seq (tob h d) ++ x :: r)) by (intros y; apply Permutation_in; exact P').
  assert (V : forall y, In y (t_seq (tob h' d) ++ r) -> live h y /\ s_cls (sob h' y) = s_cls (sob h y) /\ s_start (sob h' y) = s_start (sob h y) /\
       s_end (sob h' y) = s_end (sob h y) /\ s_label (sob h' y) = s_label (sob h y)).
  { intros y Hy. destruct (Q5 y (K y Hy)) as (A & _). split; [exact A|]. destruct (fe_val _ _ _ _ _ _ F y A) as (V1 & V2 & V3 & V4 & _). auto. }
  pose proof (fe_len _ _ _ _ _ _ F) as Le. unfold roomy, linkable. rewrite T1, T2, R4, (issubclass_ext h h') by exact R1.
  split; [exact Q1|]. split; [exact Q2|]. split; [exact Q3|]. split; [split|split; [exact Cd|split]].
  - apply NoDup_ListNoDup. eapply Permutation_NoDup; [symmetry; exact P'|]. apply NoDup_ListNoDup. exact Q4.
  - intros y Hy. destruct (V y Hy) as (A & V1 & V2 & V3 & V4). rewrite V1, V4. destruct (Q5 y (K y Hy)) as (_ & B). split; [unfold live in *; lia|exact B].
  - intros y Hy. destruct (V y Hy) as (A & V1 & V2 & V3 & V4). apply (dated_same h h'); auto.
  - intros y z Hy Hz. destruct (V y Hy) as (A & V1 & V2 & V3 & V4). destruct (V z Hz) as (B & W1 & W2 & W3 & W4). rewrite V2, W2. apply Q8; auto.
Qed.

(** Appending several childless intervals to an interval of the second lowest tier. *)
Lemma fill_grouped n g ts p t d u xs : forall h, skel h g ts -> nth_error ts p = Some t -> nth_error ts (S p) = Some d -> List.length ts = S (S p) ->
  In u (t_seq (tob h t)) -> family h (t_ec (tob h d)) u ->
  (forall x, In x xs -> s_super (sob h x) = None /\ s_subset (sob h x) = [] /\ ~ In (s_start (sob h x)) (map (fun y => s_start (sob h y)) (s_subset (sob h u)))) ->
  roomy h d xs -> (List.length ts < n)%nat ->
  exists h' b, forM xs (fun x => seq_append n u x) h = Ok tt h' /\ Permutation b (xs ++ s_subset (sob h u)) /\ s_subset (sob h' u) = b /\
    family h' (t_ec (tob h d)) u /\ skel h' g ts /\ Permutation (t_seq (tob h' d)) (t_seq (tob h d) ++ xs) /\ roomy h' d [] /\ fed ts u d b h h'.
Proof.
  induction xs as [|x xs IH]; intros h Sk Hp Hd Hl Hu Fa Hx Ro Fu.
  { exists h, (s_subset (sob h u)). rewrite app_nil_r. split; [reflexivity|]. split; [reflexivity|]. split; [reflexivity|]. split; [exact Fa|]. split; [exact Sk|].
    split; [reflexivity|]. split; [exact Ro|apply fed_refl]. }
  destruct (Hx x) as (X1 & X2 & X3); [simpl; auto|]. pose proof Ro as (_ & _ & _ & (Rn & Rl) & _ & Rd & Rs).
  assert (Xin : In x (t_seq (tob h d) ++ x :: xs)) by (apply in_app_iff; simpl; auto).
  destruct (Rl x Xin) as (Lx & Cx & Nx).
  assert (Dr : drop (S p) ts = [d]) by (rewrite (drop_cons ts (S p) d Hd), drop_ge by lia; reflexivity).
  assert (Ndx : NoDup (t_seq (tob h d) ++ [x])).
  { apply NoDup_app in Rn. destruct Rn as (N1 & N2 & N3). apply NoDup_app. split; [exact N1|]. split; [|apply NoDup_singleton]. intros y Hy Q.
    apply elem_of_list_singleton in Q. subst y. apply (N2 x Hy). left. }
  assert (Ht : In t ts) by (eapply nth_error_In; eauto).
  destruct (sk_entry _ _ _ Sk t u Ht Hu) as (Lu & Cu & Tu). pose proof Fa as (_ & Nu & Sc & Iu & Nd & Ss & Ec & Kd).
  destruct (append_grouped n h g ts p t d u x Sk Hp Hd Hu Fa) as (h1 & h2 & b1 & E1 & P1 & S1 & W1 & G1 & Sk1 & Up1 & Pm1); [|exact X1| | |exact Fu|].
  { intros (y & Hy & D). apply X3. apply in_map_iff. exists y. split; [|exact Hy]. destruct D as [->|(_ & D & _)]; auto. }
  { rewrite Dr. cbn [sprout]. auto 10. }
  { intros [|k] w Hw.
    - rewrite Nat.add_0_r, Hd in Hw. injection Hw as <-. cbn [level]. apply (roomy_incl h d (x :: xs)); [exact Ro|intros y [<-|[]]; simpl; auto|exact Ndx].
    - exfalso. assert (S p + S k < List.length ts)%nat by (apply nth_error_Some; congruence). lia. }
  assert (Nxk : ~ In x (s_subset (sob h u))) by (intros Q; apply X3; exact (in_map (fun y => s_start (sob h y)) _ _ Q)).
  assert (Ib : forall y, In y b1 <-> y = x \/ In y (s_subset (sob h u))).
  { intros y. split; intros Hy; [apply (Permutation_in y P1) in Hy; simpl in Hy; intuition|]. apply (Permutation_in y (Permutation_sym P1)). simpl. intuition. }
  assert (Hxu : x <> u).
  { intros ->. assert (p = S p); [|lia]. apply (skel_class h g ts p (S p) t d); auto. congruence. }
  assert (Nub : ~ In u b1) by (intros Q; apply Ib in Q; destruct Q; [congruence|contradiction]).
  assert (Sdb : forall y, In y b1 -> sound_child h (t_ec (tob h d)) y).
  { intros y Hy. apply Ib in Hy. destruct Hy as [->|Hy]; [|apply Kd, Hy]. destruct (Rd x Xin) as (D1 & D2 & _). split; [exact Lx|]. split; [exact Cx|]. split; [exact Nx|]. split; eauto. }
  assert (Ndb : NoDup b1).
  { apply NoDup_ListNoDup. eapply Permutation_NoDup; [symmetry; exact P1|]. apply NoDup_ListNoDup, NoDup_cons. split; [|exact Nd]. rewrite elem_of_list_In. exact Nxk. }
  assert (Fa2 : family h2 (t_ec (tob h d)) u) by (eapply wired_grown_family; eauto).
  assert (Sb2 : s_subset (sob h2 u) = b1).
  { destruct (grown_view ts h1 h2 u G1) as [-> _]. destruct (wired_one _ _ _ _ _ W1) as (V1 & _). rewrite V1. reflexivity. }
  assert (Pd : Permutation (t_seq (tob h2 d)) (t_seq (tob h d) ++ [x])).
  { specialize (Pm1 0%nat d). rewrite Nat.add_0_r in Pm1. exact (Pm1 Hd). }
  assert (F1 : fed ts u d b1 h h2).
  { eapply wired_grown_fed; eauto; [intros y Hy; apply (Sdb y Hy)|]. intros w Hw. destruct (in_dec Nat.eq_dec w ts) as [Q|Q].
    - apply In_nth_error in Q. destruct Q as (k & Hk). assert (k < List.length ts)%nat by (apply nth_error_Some; congruence).
      destruct (Nat.eq_dec k (S p)) as [->|]; [congruence|]. apply (Up1 k w); [lia|exact Hk].
    - rewrite (gn_out _ _ _ G1 w Q). unfold tob. destruct (wi_rest _ _ _ _ _ W1) as (_ & -> & _). reflexivity. }
  assert (Etd : t_ec (tob h2 d) = t_ec (tob h d)) by apply (fe_tier _ _ _ _ _ _ F1 d).
  assert (Hdt : In d ts) by (eapply nth_error_In; eauto).
  assert (Hut : In u (t_seq (tob h2 t))) by (rewrite (Up1 p t) by auto; exact Hu).
  destruct (IH h2 Sk1 Hp Hd Hl Hut) as (h3 & b & E3 & P3 & Sb3 & Fa3 & Sk3 & Pd3 & Ro3 & F3).
  - rewrite Etd. exact Fa2.
  - intros y Hy. destruct (Hx y) as (Y1 & Y2 & Y3); [simpl; auto|]. assert (Yin : In y (t_seq (tob h d) ++ x :: xs)) by (apply in_app_iff; simpl; auto).
    destruct (Rl y Yin) as (Ly & Cy & Ny). destruct (fe_val _ _ _ _ _ _ F1 y Ly) as (V1 & V2 & V3 & V4 & V5 & V6).
    assert (Yx : s_start (sob h y) <> s_start (sob h x)).
    { intros Q. assert (y = x) by (apply Rs; auto). subst y. apply NoDup_app in Rn. destruct Rn as (_ & _ & N3). apply NoDup_cons in N3. destruct N3 as [N3 _]. apply N3, elem_of_list_In, Hy. }
    assert (Yb : ~ In y b1).
    { intros Q. apply Ib in Q. destruct Q as [->|Q]; [apply Yx; reflexivity|]. apply Y3. exact (in_map (fun y => s_start (sob h y)) _ _ Q). }
    assert (Yu : y <> u).
    { intros ->. assert (p = S p); [|lia]. apply (skel_class h g ts p (S p) t d); auto. congruence. }
    rewrite V5, V6 by auto. split; [exact Y1|]. split; [exact Y2|]. rewrite V2, Sb2. intros Q. apply in_map_iff in Q. destruct Q as (z & Q & Hz).
    destruct (Sdb z Hz) as (Lz & _). destruct (fe_val _ _ _ _ _ _ F1 z Lz) as (_ & Z2 & _). rewrite Z2 in Q. apply Ib in Hz. destruct Hz as [->|Hz]; [apply Yx; auto|].
    apply Y3, in_map_iff. eauto.
  - eapply fed_roomy; eauto. apply (sk_classed _ _ _ Sk1 d Hdt).
  - exact Fu.
  - rewrite Sb2 in P3. rewrite Etd in Fa3. exists h3, b. split; [cbn [forM]; rewrite (bind_ok _ _ _ _ _ E1); exact E3|].
    assert (P : Permutation b ((x :: xs) ++ s_subset (sob h u))).
    { rewrite P3, P1. symmetry. apply Permutation_middle. }
    split; [exact P|]. split; [exact Sb3|]. split; [exact Fa3|]. split; [exact Sk3|]. split; [rewrite Pd3, Pd, <- app_assoc; reflexivity|]. split; [exact Ro3|].
    eapply fed_trans; eauto.
    + intros y Hy. apply (Permutation_in y (Permutation_sym P3)), in_app_iff. auto.
    + intros y Hy. apply (Permutation_in y P) in Hy. apply in_app_iff in Hy. destruct Hy as [Hy|Hy]; [apply Rl, in_app_iff; auto|apply (Kd y Hy)].
Qed.

Lemma adds_skel h h3 g ts : h_cls h3 = h_cls h -> h_tier h3 = h_tier h -> h_grp h3 = h_grp h -> (List.length (h_seq h) <= List.length (h_seq h3))%nat ->
  (forall i, live h i -> sob h3 i = sob h i) -> skel h g ts -> skel h3 g ts.
Proof.
  intros R1 R2 R3 Ln Od Sk. assert (Et : forall w, tob h3 w = tob h w) by (intros w; unfold tob; rewrite R2; reflexivity). constructor.
  - unfold gob. rewrite R3. apply Sk.
  - pose proof (sk_contains _ _ _ Sk) as C. unfold contains_of, gob in *. rewrite R3. exact C.
  - intros t Ht. rewrite Et, R2. apply Sk, Ht.
  - rewrite (map_ext _ (fun t => t_ec (tob h t))) by (intros w; rewrite Et; reflexivity). apply Sk.
  - intros t y Ht Hy. rewrite Et in *. destruct (sk_entry _ _ _ Sk t y Ht Hy) as (A & B & C). rewrite Od by exact A. split; [lia|auto].
  - intros t Ht. rewrite Et. eapply sorted_ext; [|apply Sk; exact Ht]. intros y Hy. destruct (sk_entry _ _ _ Sk t y Ht Hy) as (A & _). rewrite Od by exact A. reflexivity.
  - intros t Ht. unfold classed. rewrite Et. apply Sk, Ht.
Qed.
Lemma adds_roomy h h3 d v : h_cls h3 = h_cls h -> h_tier h3 = h_tier h -> (List.length (h_seq h) <= List.length (h_seq h3))%nat ->
  (forall i, live h i -> sob h3 i = sob h i) -> roomy h d [] -> NoDup v -> (forall x, In x v -> exists q, fresh_blank h h3 (t_ec (tob h d)) x q /\ fst q < snd q) ->
  (forall x y, In x v -> In y v -> s_start (sob h3 x) = s_start (sob h3 y) -> x = y) ->
  (forall x y, In x v -> In y (t_seq (tob h d)) -> s_start (sob h3 x) <> s_start (sob h3 y)) -> roomy h3 d v.
Proof.
  intros R1 R2 Ln Od (Q1 & Q2 & Q3 & (Q4 & Q5) & Q6 & Q7 & Q8) Nd Fr Di Dj. rewrite app_nil_r in Q4, Q5, Q7, Q8.
  assert (Et : tob h3 d = tob h d) by (unfold tob; rewrite R2; reflexivity).
  assert (Fv : forall x, In x v -> ~ live h x) by (intros x Hx; destruct (Fr x Hx) as (q & [L _] & _); unfold live; lia).
  unfold roomy, linkable, classed. rewrite Et, R2, (issubclass_ext h h3) by exact R1.
  split; [exact Q1|]. split; [exact Q2|]. split; [exact Q3|]. split; [split|split; [exact Q6|split]].
  - apply NoDup_app. split; [exact Q4|]. split; [|exact Nd]. intros y Hy Q. apply elem_of_list_In in Hy, Q. apply (Fv y Q), (Q5 y Hy).
  - intros y Hy. apply in_app_iff in Hy. destruct Hy as [Hy|Hy].
    + destruct (Q5 y Hy) as (A & B). rewrite Od by exact A. split; [unfold live in *; lia|exact B].
    + destruct (Fr y Hy) as (q & F & _). destruct (fresh_fields _ _ _ _ _ F) as (A1 & A2 & A3 & A4 & A5 & _). rewrite A5. split; [exact A1|]. split; [exact A2|discriminate].
  - intros y Hy. apply in_app_iff in Hy. destruct Hy as [Hy|Hy].
    + destruct (Q5 y Hy) as (A & _). apply (dated_same h h3); [rewrite Od by exact A; reflexivity|rewrite Od by exact A; reflexivity|auto].
    + destruct (Fr y Hy) as (q & F & Lt). destruct (fresh_fields _ _ _ _ _ F) as (A1 & A2 & A3 & A4 & A5 & _). apply (dated_by h3 y (fst q) (snd q)); auto.
  - intros y z Hy Hz. apply in_app_iff in Hy, Hz. destruct Hy as [Hy|Hy], Hz as [Hz|Hz].
    + destruct (Q5 y Hy) as (A & _). destruct (Q5 z Hz) as (B & _). rewrite !Od by auto. apply Q8; auto.
    + intros Q. exfalso. exact (Dj z y Hz Hy (eq_sym Q)).
    + intros Q. exfalso. exact (Dj y z Hy Hz Q).
    + apply Di; auto.
Qed.
Lemma map_nodup_inj {A B} (f : A -> B) l : NoDup (map f l) -> forall x y, In x l -> In y l -> f x = f y -> x = y.
Proof.
  induction l as [|a l IH]; intros N x y Hx Hy Q; [destruct Hx|]. cbn [map] in N. apply NoDup_cons in N. destruct N as [N1 N2]. rewrite elem_of_list_In in N1.
  destruct Hx as [<-|Hx], Hy as [<-|Hy]; [reflexivity| | |apply IH; auto].
  - exfalso. apply N1. rewrite Q. apply in_map, Hy.
  - exfalso. apply N1. rewrite <- Q. apply in_map, Hx.
Qed.
Lemma runs_each h l : forall a z x, runs h a l z -> In x l -> exists s e, s_start (sob h x) = Some s /\ s_end (sob h x) = Some e /\ a <= s /\ s < e /\ e <= z.
Proof.
  induction l as [|y l IH]; intros a z x R []; destruct R as (s & e & A & B & C & D & R).
  - subst y. exists s, e. split; [exact A|]. split; [exact B|]. split; [exact C|]. split; [exact D|]. clear -R. revert e R. induction l as [|y l IH]; intros e R; [exact R|].
    destruct R as (s' & e' & _ & _ & C & D & R). specialize (IH _ R). lia.
  - destruct (IH _ _ _ R H0) as (s' & e' & A' & B' & C' & D' & E'). exists s', e'. repeat split; auto; lia.
Qed.

Lemma mend_grouped : forall n h g ts p t d u s e, skel h g ts -> nth_error ts p = Some t -> nth_error ts (S p) = Some d -> List.length ts = S (S p) ->
  In u (t_seq (tob h t)) -> family h (t_ec (tob h d)) u -> s_subset (sob h u) <> [] -> s_start (sob h u) = Some s -> s_end (sob h u) = Some e ->
  runs h s (s_subset (sob h u)) e -> issubclass h (t_ec (tob h d)) cBottom = false -> issubclass h (t_ec (tob h d)) cInterval = true -> roomy h d [] ->
  (forall y q, In y (t_seq (tob h d)) -> s_start (sob h y) = Some q -> s <= q < e -> In y (s_subset (sob h u))) -> (List.length ts < n)%nat ->
  exists h' b ws, seq_cleanup (S n) u h = Ok tt h' /\ mended h h' (t_ec (tob h d)) s (s_subset (sob h u)) e b /\ s_subset (sob h' u) = b /\
    runs h' s b e /\ snug_row h' s b e /\ (forall y, In y b -> s_super (sob h' y) = Some u) /\ family h' (t_ec (tob h d)) u /\
    Permutation b (ws ++ s_subset (sob h u)) /\ (forall w, In w ws -> (List.length (h_seq h) <= w)%nat) /\
    Permutation (t_seq (tob h' d)) (t_seq (tob h d) ++ ws) /\ (forall w, w <> d -> t_seq (tob h' w) = t_seq (tob h w)) /\ skel h' g ts /\ roomy h' d [] /\
    (forall i, (i < List.length (h_seq h))%nat -> s_cls (sob h' i) = s_cls (sob h i) /\ s_start (sob h' i) = s_start (sob h i) /\
       s_end (sob h' i) = s_end (sob h i) /\ s_label (sob h' i) = s_label (sob h i) /\
       (i <> u -> s_subset (sob h' i) = s_subset (sob h i)) /\ (~ In i b -> s_super (sob h' i) = s_super (sob h i))) /\
    (forall i, (List.length (h_seq h) <= i < List.length (h_seq h'))%nat -> ~ In i ws -> is_boundary h' i) /\
    (List.length (h_seq h) <= List.length (h_seq h'))%nat /\
    h_cls h' = h_cls h /\ h_grp h' = h_grp h /\ h_grid h' = h_grid h /\ (forall w, ~ In w ts -> tob h' w = tob h w) /\
    List.length (h_tier h') = List.length (h_tier h) /\
    (forall w, t_ec (tob h' w) = t_ec (tob h w) /\ t_super (tob h' w) = t_super (tob h w) /\ t_sub (tob h' w) = t_sub (tob h w) /\
      t_name (tob h' w) = t_name (tob h w) /\ t_within (tob h' w) = t_within (tob h w)).
Proof.
  intros n h g ts p t d u s e Sk Hp Hd Hl Hu Fa Ne Es Ee Ru Nb I Ro Hy Fu.
  assert (Pt : issubclass h (t_ec (tob h d)) cPoint = false) by apply Ro.
  destruct (gap_blanks h _ u s e Fa Ne Es Ee Ru Nb I Pt) as (h3 & v & b & Er & (R1 & R2 & R3 & R4) & Ln & Od & Nw & Fr & Mb & Pv & Rb & Sb & Ri & Fa3).
  set (c := t_ec (tob h d)) in *. pose proof Fa as (Lu & Nu & Sc & Iu & Nd & Ss & Ec & Kd).
  assert (Et : forall w, tob h3 w = tob h w) by (intros w; unfold tob; rewrite R2; reflexivity).
  assert (Ou : sob h3 u = sob h u) by (apply Od; exact Lu).
  assert (Ko : forall x, In x (s_subset (sob h u)) -> sob h3 x = sob h x) by (intros x Hx; apply Od; apply (Kd x Hx)).
  assert (Nr : NoDup (map (fun x => s_start (sob h3 x)) (v ++ s_subset (sob h u)))).
  { apply NoDup_ListNoDup. eapply Permutation_NoDup; [apply Permutation_map; exact Pv|]. apply NoDup_ListNoDup, rising_nodup, Ri. }
  rewrite map_app in Nr. apply NoDup_app in Nr. destruct Nr as (N1 & N2 & N3).
  assert (Ndv : NoDup v).
  { apply NoDup_ListNoDup. eapply (NoDup_map_inv (fun x => s_start (sob h3 x))). apply NoDup_ListNoDup, N1. }
  assert (Vk : forall x, In x v -> ~ In (s_start (sob h3 x)) (map (fun y => s_start (sob h3 y)) (s_subset (sob h u)))).
  { intros x Hx Q. apply (N2 (s_start (sob h3 x))); apply elem_of_list_In; [exact (in_map (fun x => s_start (sob h3 x)) _ _ Hx)|exact Q]. }
  assert (Vt : forall x, In x v -> exists a z, s_start (sob h3 x) = Some a /\ s_end (sob h3 x) = Some z /\ s <= a /\ a < z /\ z <= e).
  { intros x Hx. apply (runs_each h3 b s e x Rb). apply (Permutation_in x (Permutation_sym Pv)), in_app_iff. auto. }
  assert (Fu3 : forall y, In y (t_seq (tob h d)) -> live h y /\ sob h3 y = sob h y).
  { intros y Hy'. destruct (sk_entry _ _ _ Sk d y) as (A & _); [eapply nth_error_In; eauto|exact Hy'|]. split; [exact A|apply Od; exact A]. }
  destruct (fill_grouped n g ts p t d u v h3) as (h' & b' & E' & P' & Sb' & Fa' & Sk' & Pd' & Ro' & F').
  - apply (adds_skel h h3); auto.
  - exact Hp.
  - exact Hd.
  - exact Hl.
  - rewrite Et. exact Hu.
  - rewrite Et. exact Fa3.
  - intros x Hx. destruct (Fr x Hx) as (q & G). destruct (fresh_fields _ _ _ _ _ G) as (A0 & A1 & A2 & A3 & A4 & A5 & A6 & _). split; [exact A5|]. split; [exact A6|].
    rewrite Ou. apply Vk, Hx.
  - apply (adds_roomy h h3 d v); auto.
    + intros x Hx. destruct (Fr x Hx) as (q & G). exists q. split; [exact G|]. destruct (fresh_fields _ _ _ _ _ G) as (_ & _ & A2 & A3 & _).
      destruct (Vt x Hx) as (a & z & B1 & B2 & B3 & B4 & B5). rewrite A2 in B1. rewrite A3 in B2. injection B1 as <-. injection B2 as <-. exact B4.
    + intros x y Hx Hy' Q. apply (map_nodup_inj (fun x => s_start (sob h3 x)) v); auto. 
    + intros x y Hx Hy' Q. destruct (Vt x Hx) as (a & z & B1 & B2 & B3 & B4 & B5). destruct (Fu3 y Hy') as [Ly Oy].
      apply (Vk x Hx). rewrite Q. apply (in_map (fun y => s_start (sob h3 y))). apply (Hy y a Hy'); [rewrite <- Oy, <- Q; exact B1|lia].
  - exact Fu.
  - rewrite Ou in P'. rewrite Et in Pd', Fa'.
    assert (Qb : b' = b).
    { apply (rising_perm h3); [exact Ri| |rewrite P'; symmetry; exact Pv]. destruct Fa' as (_ & _ & _ & _ & _ & S' & _ & K'). rewrite Sb' in S', K'. eapply sorted_ext; [|exact S'].
      intros y Hy'. symmetry. apply (fe_val _ _ _ _ _ _ F' y). apply (Permutation_in y P') in Hy'. apply in_app_iff in Hy'. destruct Hy' as [Q|Q].
      - destruct (Fr y Q) as (q & G). apply (fresh_fields _ _ _ _ _ G).
      - destruct (Kd y Q) as ((A & _) & _). unfold live. lia. }
    rewrite Qb in Sb', F'. clear P' Qb b'.
    assert (Lb : forall y, In y b -> live h3 y).
    { intros y Hy'. apply (Permutation_in y Pv) in Hy'. apply in_app_iff in Hy'. destruct Hy' as [Q|Q].
      - destruct (Fr y Q) as (q & G). apply (fresh_fields _ _ _ _ _ G).
      - destruct (Kd y Q) as ((A & _) & _). unfold live. lia. }
    pose proof (fe_len _ _ _ _ _ _ F') as Le. destruct (fe_rest _ _ _ _ _ _ F') as (X1 & X2 & X3 & X4).
    assert (Vb : forall y, In y b -> s_cls (sob h' y) = s_cls (sob h3 y) /\ s_label (sob h' y) = s_label (sob h3 y) /\ s_start (sob h' y) = s_start (sob h3 y) /\
      s_end (sob h' y) = s_end (sob h3 y) /\ s_subset (sob h' y) = s_subset (sob h3 y)).
    { intros y Hy'. destruct (fe_val _ _ _ _ _ _ F' y (Lb y Hy')) as (A1 & A2 & A3 & A4 & A5 & _). rewrite A5; [auto|]. intros ->.
      apply (Permutation_in u Pv) in Hy'. apply in_app_iff in Hy'. destruct Hy' as [Q|Q]; [|contradiction]. destruct (Fr u Q) as (q & [G _]). unfold live in *. lia. }
    assert (Mb' : mended h h' c s (s_subset (sob h u)) e b) by (apply (mended_ext h h3 h'); auto).
    destruct (mended_runs _ _ _ _ _ _ _ Mb') as [Rb' Sn']; [|exact Ru|].
    { intros x Hx. destruct (Vb x) as (_ & _ & A & B & _); [apply (Permutation_in x (Permutation_sym Pv)), in_app_iff; auto|]. rewrite A, B, Ko by exact Hx. auto. }
    exists h', b, v. split; [rewrite Er; exact E'|]. split; [exact Mb'|]. split; [exact Sb'|]. split; [exact Rb'|]. split; [exact Sn'|].
    split; [|split; [exact Fa'|split; [exact Pv|split; [|split; [exact Pd'|split; [|split; [exact Sk'|split; [exact Ro'|split; [|split; [|split; [lia|]]]]]]]]]]].
    + intros y Hy'. destruct Fa' as (_ & _ & _ & _ & _ & _ & _ & K'). apply K'. rewrite Sb'. exact Hy'.
    + intros w Hw. destruct (Fr w Hw) as (q & [G _]). lia.
    + intros w Hw. rewrite (fe_seq _ _ _ _ _ _ F' w Hw), Et. reflexivity.
    + intros i Hi. rewrite <- (Od i Hi). apply (fe_val _ _ _ _ _ _ F'). unfold live. lia.
    + intros i Hi Hv. destruct (decide (live h3 i)) as [L3|L3].
      * assert (Bi : is_boundary h3 i) by (apply Nw; auto; unfold live; lia). eapply fed_bd; [exact F'|intros ->; unfold live in *; lia| |exact Bi].
        intros Q. apply (Permutation_in i Pv) in Q. apply in_app_iff in Q. destruct Q as [Q|Q]; [contradiction|]. destruct (Kd i Q) as ((A & _) & _). unfold live in *. lia.
      * apply (fe_new _ _ _ _ _ _ F'); auto. unfold live. lia.
    + split; [congruence|]. split; [congruence|]. split; [congruence|]. split; [intros w Hw; rewrite (fe_out _ _ _ _ _ _ F' w Hw), Et; reflexivity|].
      split; [congruence|]. intros w. rewrite <- Et. apply (fe_tier _ _ _ _ _ _ F' w).
Qed.
Lemma c68_grouped : forall n h g ts p t d u s e, skel h g ts -> nth_error ts p = Some t -> nth_error ts (S p) = Some d -> List.length ts = S (S p) ->
  In u (t_seq (tob h t)) -> family h (t_ec (tob h d)) u -> s_subset (sob h u) <> [] -> s_start (sob h u) = Some s -> s_end (sob h u) = Some e ->
  runs h s (s_subset (sob h u)) e -> issubclass h (t_ec (tob h d)) cBottom = false -> issubclass h (t_ec (tob h d)) cInterval = true -> roomy h d [] ->
  (forall y q, In y (t_seq (tob h d)) -> s_start (sob h y) = Some q -> s <= q < e -> In y (s_subset (sob h u))) -> (List.length ts < n)%nat ->
  exists h' b ws, seq_cleanup (S n) u h = Ok tt h' /\ mended h h' (t_ec (tob h d)) s (s_subset (sob h u)) e b /\ s_subset (sob h' u) = b /\
    runs h' s b e /\ snug_row h' s b e /\ (forall y, In y b -> s_super (sob h' y) = Some u) /\ family h' (t_ec (tob h d)) u /\
    Permutation b (ws ++ s_subset (sob h u)) /\ (forall w, In w ws -> (List.length (h_seq h) <= w)%nat) /\
    Permutation (t_seq (tob h' d)) (t_seq (tob h d) ++ ws) /\ (forall w, w <> d -> t_seq (tob h' w) = t_seq (tob h w)) /\ skel h' g ts /\ roomy h' d [] /\
    (forall i, (i < List.length (h_seq h))%nat -> s_cls (sob h' i) = s_cls (sob h i) /\ s_start (sob h' i) = s_start (sob h i) /\
       s_end (sob h' i) = s_end (sob h i) /\ s_label (sob h' i) = s_label (sob h i) /\
       (i <> u -> s_subset (sob h' i) = s_subset (sob h i)) /\ (~ In i b -> s_super (sob h' i) = s_super (sob h i))) /\
    (forall i, (List.length (h_seq h) <= i < List.length (h_seq h'))%nat -> ~ In i ws -> is_boundary h' i) /\
    (List.length (h_seq h) <= List.length (h_seq h'))%nat /\
    h_cls h' = h_cls h /\ h_grp h' = h_grp h /\ h_grid h' = h_grid h /\ (forall w, ~ In w ts -> tob h' w = tob h w).
Proof.
  intros n h g ts p t d u s e A1 A2 A3 A4 A5 A6 A7 A8 A9 A10 A11 A12 A13 A14 A15.
  destruct (mend_grouped n h g ts p t d u s e A1 A2 A3 A4 A5 A6 A7 A8 A9 A10 A11 A12 A13 A14 A15) as
    (h' & b & ws & B1 & B2 & B3 & B4 & B5 & B6 & B7 & B8 & B9 & B10 & B11 & B12 & B13 & B14 & B15 & B16 & B17 & B18 & B19 & B20 & _).
  exists h', b, ws. auto 30.
Qed.
End WithEnv.
