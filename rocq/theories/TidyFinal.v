(** * TidyFinal: cleaning up a whole grid. *)
From Verif Require Export TidySpec CleanFinal.
From Verif Require Import GapFinal ReadSpec WeaveFinal OwnFinal ClassFinal PointFinal ReadClasses QueryFinal PopFinal ReadMade RelateFinal GrowFinal.
From Verif Require Import TidySpec.
Open Scope Z_scope.

Section WithEnv.
Context `{Env}.
Opaque span_of.

(** ** Groups that have nothing to do with what happens *)
Definition aside (h h' : heap) (g : gid) : Prop :=
  h_cls h' = h_cls h /\ (List.length (h_seq h) <= List.length (h_seq h'))%nat /\ List.length (h_tier h') = List.length (h_tier h) /\
  List.length (h_grp h') = List.length (h_grp h) /\ gob h' g = gob h g /\ (forall t, In t (g_tiers (gob h g)) -> tob h' t = tob h t) /\
  (forall t x, In t (g_tiers (gob h g)) -> In x (t_seq (tob h t)) -> sob h' x = sob h x) /\ (forall k, is_boundary h k -> is_boundary h' k).
Lemma aside_good h h' g ts bss : aside h h' g -> g_tiers (gob h g) = ts -> good_group h g ts bss -> good_group h' g ts bss.
Proof.
  intros (A1 & A2 & A3 & A4 & A5 & A6 & A7 & A8) E G. subst ts. apply (good_same h h'); try (rewrite A5; reflexivity); auto.
  - rewrite A4. apply G.
  - intros t x Ht Hx. rewrite (A7 t x Ht Hx). split; [unfold GroupFinal.kept; auto 10|auto].
  - intros t x Ht Hx. rewrite (A7 t x); auto. apply In_nth_error in Ht. destruct Ht as [k Hk]. apply removelast_nth in Hk. eapply nth_error_In; eauto.
  - intros x y. apply issubclass_ext, A1.
  - apply (RelateFinal.classes_joined_same h h'); [exact A1|intros t Ht; rewrite (A6 t Ht); reflexivity|apply G].
Qed.
Lemma ranges_same h h' l lo hi : (forall x, In x l -> s_start (sob h' x) = s_start (sob h x) /\ s_end (sob h' x) = s_end (sob h x)) -> ranges h l lo hi -> ranges h' l lo hi.
Proof.
  intros E (x & y & A & B & C & D). exists x, y. destruct (E x (hd_in _ _ A)) as [-> _]. destruct (E y (hd_rev_in _ _ B)) as [_ ->]. auto.
Qed.
Lemma current_same h h' t : h_cls h' = h_cls h -> t_ec (tob h' t) = t_ec (tob h t) -> t_super (tob h' t) = t_super (tob h t) -> t_sub (tob h' t) = t_sub (tob h t) ->
  up_to_date h t -> up_to_date h' t.
Proof.
  intros E Q1 Q2 Q3 [A B]. unfold up_to_date. rewrite Q1, Q2, Q3, (superset_class_ext h h'), (subset_class_ext h h') by exact E. auto.
Qed.
Lemma gap_same h h' l : (forall x, In x l -> s_start (sob h' x) = s_start (sob h x) /\ s_end (sob h' x) = s_end (sob h x)) -> real_gap h l -> real_gap h' l.
Proof.
  intros E (i & x & y & a & b & A & B & C & D & N). exists i, x, y, a, b. destruct (E x (nth_error_In _ _ A)) as [_ Q1]. destruct (E y (nth_error_In _ _ B)) as [Q2 _].
  split; [exact A|]. split; [exact B|]. split; [congruence|]. split; [congruence|exact N].
Qed.
Lemma aside_ready n h h' lo hi g : aside h h' g -> tidy_ready n h lo hi g -> tidy_ready n h' lo hi g.
Proof.
  intros A ((bss & G) & t & Ht & Up & Ra & Gp). pose proof A as (A1 & A2 & A3 & A4 & A5 & A6 & A7 & A8). unfold tidy_ready. rewrite A5.
  split; [exists bss; apply (aside_good h h'); auto|]. assert (It : In t (g_tiers (gob h g))) by (apply hd_in, Ht).
  exists t. split; [exact Ht|]. rewrite (A6 t It). split; [apply (current_same h h'); rewrite ?(A6 t It); auto|]. split.
  - apply (ranges_same h h'); [|exact Ra]. intros x Hx. rewrite (A7 t x It Hx). auto.
  - intros R. destruct Gp as [Ga Le]; [apply (gap_same h' h); [intros x Hx; rewrite (A7 t x It Hx); auto|exact R]|]. split; [|exact Le].
    intros u Hu. apply (gappy_same h h'); auto. intros x Hx _. rewrite (A7 u x Hu Hx). auto.
Qed.
Lemma blanks_after h h1 h2 t : (List.length (h_seq h) <= List.length (h_seq h1))%nat -> tob h1 t = tob h t ->
  (forall x, In x (t_seq (tob h t)) -> (x < List.length (h_seq h))%nat /\ s_start (sob h1 x) = s_start (sob h x) /\ s_end (sob h1 x) = s_end (sob h x)) ->
  blanks_put h1 h2 t -> blanks_put h h2 t.
Proof.
  intros A6 Tk Lv ((x & y & a & b & P1 & P2 & P3 & P4 & P5) & P6 & P7 & Pc). unfold blanks_put. rewrite Tk in *.
  split; [|split; [|split; [|exact Pc]]].
  - exists x, y, a, b. destruct (Lv x (hd_in _ _ P1)) as (_ & Q1 & _). destruct (Lv y (hd_rev_in _ _ P2)) as (_ & _ & Q2). rewrite Q1 in P3. rewrite Q2 in P4. auto.
  - apply (filter_within _ _ _ _ (fun x Q => proj2 (Nat.ltb_lt x _) (Nat.lt_le_trans _ _ _ (proj1 (Nat.ltb_lt x _) Q) A6)) P6). intros z Hz. apply Nat.ltb_lt, Lv, Hz.
  - intros z Hz Lz. destruct (Nat.lt_ge_cases z (List.length (h_seq h1))) as [Q|Q].
    { exfalso. assert (Hz' : In z (t_seq (tob h t))) by (rewrite <- P6; apply filter_In; split; [exact Hz|apply Nat.ltb_lt; exact Q]). destruct (Lv z Hz'). lia. }
    destruct (P7 z Hz Q) as (P8 & P9 & s & e & P10 & P11 & (i & v & w & W1 & W2 & W3 & W4 & W5)). split; [exact P8|]. split; [exact P9|].
    exists s, e. split; [exact P10|]. split; [exact P11|]. exists i, v, w. destruct (Lv v (nth_error_In _ _ W1)) as (_ & _ & Q1). destruct (Lv w (nth_error_In _ _ W2)) as (_ & Q2 & _).
    rewrite Q1 in W3. rewrite Q2 in W4. auto.
Qed.
Lemma blanks_before h h1 h2 t : tob h2 t = tob h1 t -> (forall x, In x (t_seq (tob h1 t)) -> sob h2 x = sob h1 x) -> blanks_put h h1 t -> blanks_put h h2 t.
Proof.
  intros Tk E ((x & y & a & b & P1 & P2 & P3 & P4 & P5) & P6 & P7 & Pc). unfold blanks_put. rewrite Tk. split; [|split; [exact P6|split; [|exact Pc]]].
  - exists x, y, a, b. split; [exact P1|]. split; [exact P2|]. split; [exact P3|]. split; [exact P4|]. apply (tiles_same h1 h2); [|exact P5]. intros z Hz. rewrite (E z Hz). auto.
  - intros z Hz Lz. rewrite (E z Hz). apply (P7 z Hz Lz).
Qed.
Lemma tidied_after h h1 h2 g : aside h h1 g -> (forall t x, In t (g_tiers (gob h g)) -> In x (t_seq (tob h t)) -> (x < List.length (h_seq h))%nat) ->
  tidied h1 h2 g -> tidied h h2 g.
Proof.
  intros (A1 & A2 & A3 & A4 & A5 & A6 & A7 & A8) Lv (T1 & T2). rewrite A5 in *. split; [exact T1|]. intros t Ht. assert (It : In t (g_tiers (gob h g))) by (apply hd_in, Ht).
  destruct (T2 t Ht) as [B1 B2]. rewrite (A6 t It) in B1, B2. split.
  - intros R u Hu. apply (blanks_after h h1 h2 u); auto; [intros x Hx; rewrite (A7 u x Hu Hx); split; [apply (Lv u x Hu Hx)|auto]|]. apply B1; auto.
    apply (gap_same h h1); [|exact R]. intros x Hx. rewrite (A7 t x It Hx). auto.
  - intros R. destruct B2 as [B2 B3]; [intros R1; apply R; apply (gap_same h1 h); [intros x Hx; rewrite (A7 t x It Hx); auto|exact R1]|].
    split; [intros u Hu; rewrite (B2 u Hu); apply A6, Hu|]. intros W. destruct B3 as [B3 B4]; [intros x Hx; rewrite (A7 t x It Hx); apply W, Hx|].
    split; [congruence|]. intros u x Hu Hx. rewrite <- (A7 u x Hu Hx). apply (B4 u x Hu). rewrite (A6 u Hu). exact Hx.
Qed.
Lemma tidied_before h h1 h2 g : aside h1 h2 g -> g_tiers (gob h1 g) = g_tiers (gob h g) -> tidied h h1 g -> tidied h h2 g.
Proof.
  intros A E ((bss & G) & T2). split; [exists bss; apply (aside_good h1 h2 g); auto|]. destruct A as (A1 & A2 & A3 & A4 & A5 & A6 & A7 & A8). rewrite E in *.
  intros t Ht. destruct (T2 t Ht) as [B1 B2]. split.
  - intros R u Hu. apply (blanks_before h h1 h2 u); auto. intros x Hx. apply (A7 u x); auto.
  - intros R. destruct (B2 R) as [B3 B4]. split; [intros u Hu; rewrite (A6 u Hu); apply B3; auto|]. intros W. destruct (B4 W) as [B5 B6]. split; [congruence|].
    intros u x Hu Hx. rewrite (A7 u x Hu); [apply (B6 u x Hu Hx)|]. rewrite (B3 u Hu). exact Hx.
Qed.

(** ** One group *)
Lemma gap_or h g ts bss t : good_group h g ts bss -> In t ts -> real_gap h (t_seq (tob h t)) \/ ~ real_gap h (t_seq (tob h t)).
Proof.
  intros G It. destruct (good_turns h g _ bss G t It) as [T D]. rewrite (real_wide h _ D T). rewrite (wide_open h _ D T). destruct (allclose _ _); [right|left]; congruence.
Qed.
Lemma tidy_one n h lo hi g : tidy_ready n h lo hi g -> exists h', grp_cleanup n g h = Ok tt h' /\ tidied h h' g /\ all_else_kept h h' g (g_tiers (gob h g)).
Proof.
  intros ((bss & G) & t & Ht & Up & Ra & Gp). assert (It : In t (g_tiers (gob h g))) by (apply hd_in, Ht).
  destruct (gap_or h g _ bss t G It) as [R|R].
  - destruct (Gp R) as [Ga Le]. destruct (c63_filled n h g _ bss t G Ga Ht Up R Le) as (h' & bss' & E & G' & K & B). exists h'. split; [exact E|]. split; [|exact K]. split; [exists bss'; exact G'|].
    intros u Hu. assert (u = t) by congruence. subst u. split; [auto|]. intros Q. destruct (Q R).
  - destruct (c63_nothing n h g _ bss t G Ht Up R) as (h' & E & G' & K & Tk & Tw). exists h'. split; [exact E|]. split; [|exact K]. split; [exists bss; exact G'|].
    intros u Hu. assert (u = t) by congruence. subst u. split; [intros Q; destruct (R Q)|]. intros _. split; [auto|]. intros W. rewrite (Tw W). auto.
Qed.
Lemma good_label h g ts bss t x : good_group h g ts bss -> In t ts -> In x (t_seq (tob h t)) -> s_label (sob h x) <> "#"%string.
Proof. intros (_ & _ & _ & _ & _ & _ & _ & _ & Wi & _) Ht Hx. destruct (Wi t Ht) as (_ & (_ & Lk) & _). apply (Lk x Hx). Qed.
Lemma else_boundary h h' g ts bss k : good_group h g ts bss -> all_else_kept h h' g ts -> is_boundary h k -> is_boundary h' k.
Proof.
  intros G (_ & _ & _ & _ & A5 & A6 & _) B. pose proof B as (B1 & B2 & _). unfold is_boundary. rewrite A5; [destruct B as (_ & B); split; [lia|exact B]|exact B1|].
  intros t Ht Hx. apply (good_label h g ts bss t k G Ht Hx B2).
Qed.
Lemma else_aside h h' g ts bss k : good_group h g ts bss -> all_else_kept h h' g ts -> k <> g ->
  (forall t, In t (g_tiers (gob h k)) -> ~ In t ts) ->
  (forall t x, In t (g_tiers (gob h k)) -> In x (t_seq (tob h t)) -> (x < List.length (h_seq h))%nat /\ forall u, In u ts -> ~ In x (t_seq (tob h u))) -> aside h h' k.
Proof.
  intros G K Nk Dt Dx. pose proof K as (A1 & A2 & A3 & A4 & A5 & A6 & A7 & A8 & A9 & A10 & A11). split; [exact A10|]. split; [exact A6|]. split; [exact A3|]. split; [exact A7|].
  split; [apply A8, Nk|]. split; [intros t Ht; apply A2, Dt, Ht|]. split; [intros t x Ht Hx; destruct (Dx t x Ht Hx) as [L N]; apply A5; auto|].
  intros b. apply (else_boundary h h' g ts bss b G K).
Qed.
Lemma rest_cons h h1 h2 g ts gs T : all_else_kept h h1 g ts -> rest_kept h1 h2 gs T -> (forall t, In t ts -> ~ In t T) -> rest_kept h h2 (g :: gs) (ts ++ T)%list.
Proof.
  intros (A1 & A2 & A3 & A4 & A5 & A6 & A7 & A8 & A9 & A10 & A11) (B1 & B2 & B3 & B4 & B5 & B6 & B7 & B8 & B9 & B10 & B11) Dj.
  split.
  { intros t Ht. destruct (in_dec Nat.eq_dec t ts) as [It|It].
    - rewrite (B2 t (Dj t It)). apply A1, It.
    - apply in_app_iff in Ht. destruct Ht as [Ht|Ht]; [destruct (It Ht)|]. rewrite <- (A2 t It). apply B1, Ht. }
  split; [intros t Ht; rewrite in_app_iff in Ht; rewrite B2, A2 by tauto; reflexivity|]. split; [congruence|].
  split; [intros i Hi; destruct (A4 i Hi) as (C1 & C2 & C3 & C4 & C5 & C6 & C7), (B4 i ltac:(lia)) as (D1 & D2 & D3 & D4 & D5 & D6 & D7); rewrite D1, D2, D3, D4, D5, D6, D7; auto 10|].
  split.
  { intros i Hi N. rewrite B5; [apply A5; [exact Hi|]|lia|]; intros t Ht; [apply N, in_app_iff; auto|].
    intros Hx. apply (N t); [apply in_app_iff; auto|]. rewrite <- (A2 t); [exact Hx|]. intros It. apply (Dj t It Ht). }
  split; [lia|]. split; [congruence|]. split; [intros k Hk; rewrite B8, A8; [reflexivity| |]; simpl in Hk; intuition congruence|].
  split; [|split; congruence]. intros k Hk. destruct (in_dec Nat.eq_dec k gs) as [Ik|Ik].
  - rewrite (B9 k Ik). destruct (Nat.eq_dec k g) as [->|Nk]; [exact A9|rewrite (A8 k Nk); reflexivity].
  - rewrite (B8 k Ik). destruct Hk as [<-|Hk]; [exact A9|destruct (Ik Hk)].
Qed.
Lemma rest_refl h : rest_kept h h [] [].
Proof. split; [intros t []|]. split; [auto|]. split; [auto|]. split; [auto 10|]. auto 20. Qed.

Lemma nodup_flat {A B} (f : A -> list B) : forall l, NoDup l -> (forall x, In x l -> NoDup (f x)) ->
  (forall x y z, In x l -> In y l -> x <> y -> In z (f x) -> In z (f y) -> False) -> NoDup (flat_map f l).
Proof.
  induction l as [|x l IH]; intros N F D; [constructor|]. cbn [flat_map]. apply NoDup_cons in N. destruct N as [N1 N2]. rewrite elem_of_list_In in N1. apply NoDup_app.
  split; [apply F; simpl; auto|]. split; [|apply IH; [exact N2|intros y Hy; apply F; simpl; auto|intros u v z Hu Hv; apply D; simpl; auto]].
  intros z Hz Hz'. apply elem_of_list_In in Hz, Hz'. apply in_flat_map in Hz'. destruct Hz' as (y & Hy & Hz'). apply (D x y z); simpl; auto. intros ->. auto.
Qed.
Lemma map_alike {A B} (f : A -> B) l : NoDup (map f l) -> forall x y, In x l -> In y l -> f x = f y -> x = y.
Proof.
  induction l as [|z l IH]; intros N x y Hx Hy E; [destruct Hx|]. cbn [map] in N. apply NoDup_cons in N. destruct N as [N1 N2]. rewrite elem_of_list_In in N1.
  destruct Hx as [<-|Hx], Hy as [<-|Hy]; [reflexivity| | |apply IH; auto]; destruct N1; [rewrite E|rewrite <- E]; apply in_map; auto.
Qed.
Lemma good_entries h g ts bss : good_group h g ts bss -> forall t, In t ts -> NoDup (entries_in h t).
Proof. intros (_ & _ & _ & _ & _ & _ & _ & _ & Wi & _) t Ht. destruct (Wi t Ht) as (_ & (N & _) & _). exact N. Qed.
Lemma good_own h g ts bss : good_group h g ts bss -> forall t u x, In t ts -> In u ts -> In x (t_seq (tob h t)) -> In x (t_seq (tob h u)) -> t = u.
Proof.
  intros (_ & _ & _ & _ & (_ & N & _) & _ & _ & _ & Wi & _) t u x Ht Hu Hx Hy.
  destruct (Wi t Ht) as (_ & (_ & Lt) & _), (Wi u Hu) as (_ & (_ & Lu) & _). apply (map_alike (fun t => t_ec (tob h t)) ts N t u Ht Hu).
  destruct (Lt x Hx) as (_ & C1 & _), (Lu x Hy) as (_ & C2 & _). congruence.
Qed.
Lemma tidied_old h h' g ts bss t x : good_group h g ts bss -> g_tiers (gob h g) = ts -> tidied h h' g -> In t ts -> In x (t_seq (tob h' t)) -> (x < List.length (h_seq h))%nat -> In x (t_seq (tob h t)).
Proof.
  intros G E (_ & T) Ht Hx Lx. rewrite E in T. destruct (good_top h g _ bss G) as (t0 & r & Er). destruct (T t0 ltac:(rewrite Er; reflexivity)) as [X1 X2].
  assert (It0 : In t0 ts) by (rewrite Er; simpl; auto).
  destruct (gap_or h g _ bss t0 G It0) as [X|X]; [|rewrite <- (proj1 (X2 X) t Ht); exact Hx]. destruct (X1 X t Ht) as (_ & <- & _). apply filter_In. split; [exact Hx|apply Nat.ltb_lt, Lx].
Qed.

(** ** All groups *)
Definition ivs_of (h : heap) (gs : list gid) : list gid := List.filter (fun g => negb (g_points (gob h g))) gs.
Lemma ready_points n h lo hi g : tidy_ready n h lo hi g -> g_points (gob h g) = false.
Proof. intros ((bss & G) & _). apply G. Qed.
Lemma tidy_groups n (lo hi : gid -> Z) : forall gs h, (forall g, In g gs -> g_points (gob h g) = true \/ tidy_ready n h (lo g) (hi g) g) -> apart_groups h (ivs_of h gs) ->
  exists h', forM gs (fun g => o <- get_grp g ;; if g_points o then ret tt else grp_cleanup n g) h = Ok tt h' /\
    (forall g, In g (ivs_of h gs) -> tidied h h' g) /\ apart_groups h' (ivs_of h gs) /\ rest_kept h h' (ivs_of h gs) (flat_map (tiers_in h) (ivs_of h gs)).
Proof.
  induction gs as [|g gs IH]; intros h K Ap.
  { exists h. split; [reflexivity|]. split; [intros g []|]. split; [exact Ap|apply rest_refl]. }
  cbn [forM]. unfold ivs_of in *. cbn [List.filter] in *. destruct (g_points (gob h g)) eqn:Ep; cbn [negb] in *.
  - destruct (IH h) as (h' & E & T & Ap' & R); [intros k Hk; apply K; simpl; auto|exact Ap|]. exists h'. split; [|auto].
    rewrite (bind_ok _ _ _ tt h); [exact E|]. rewrite bind_get_grp, Ep. reflexivity.
  - destruct (K g (or_introl eq_refl)) as [Q|Rd]; [congruence|]. destruct (tidy_one n h (lo g) (hi g) g Rd) as (h1 & E1 & T1 & K1). set (ivs := List.filter (fun g => negb (g_points (gob h g))) gs) in *.
    destruct Ap as (N1 & N2 & N3). apply NoDup_cons in N1. destruct N1 as [N1 N1']. rewrite elem_of_list_In in N1. cbn [flat_map] in N2, N3. rewrite flat_map_app in N3. apply NoDup_app in N2, N3.
    destruct N2 as (M1 & M2 & M3), N3 as (L1 & L2 & L3). destruct Rd as ((bss & G) & _).
    assert (Rdy : forall k, In k ivs -> tidy_ready n h (lo k) (hi k) k).
    { intros k Hk. apply filter_In in Hk. destruct Hk as [Hk Q]. destruct (K k (or_intror Hk)) as [Q'|Q']; [rewrite Q' in Q; discriminate|exact Q']. }
    assert (Lvk : forall k t x, In k ivs -> In t (g_tiers (gob h k)) -> In x (t_seq (tob h t)) -> (x < List.length (h_seq h))%nat).
    { intros k t x Hk Ht Hx. destruct (Rdy k Hk) as ((bk & Gk) & _). apply (good_live h k _ bk t x Gk Ht Hx). }
    assert (Dj : forall k t, In k ivs -> In t (g_tiers (gob h k)) -> ~ In t (g_tiers (gob h g))).
    { intros k t Hk Ht Q. apply (M2 t); [apply elem_of_list_In; exact Q|apply elem_of_list_In, in_flat_map; exists k; auto]. }
    assert (As : forall k, In k ivs -> aside h h1 k).
    { intros k Hk. apply (else_aside h h1 g _ bss k G K1); [intros ->; auto|intros t Ht; apply (Dj k t Hk Ht)|].
      intros t x Ht Hx. split; [eapply Lvk; eauto|]. intros u Hu Q. apply (L2 x).
      - apply elem_of_list_In, in_flat_map. exists u. auto.
      - apply elem_of_list_In, in_flat_map. exists t. split; [apply in_flat_map; exists k; auto|exact Hx]. }
    assert (Pk : forall k, g_points (gob h1 k) = g_points (gob h k)).
    { intros k. destruct (Nat.eq_dec k g) as [->|Nk]; [|destruct K1 as (_ & _ & _ & _ & _ & _ & _ & A8 & _); rewrite (A8 k Nk); reflexivity].
      destruct T1 as ((b1 & (_ & Q & _)) & _). rewrite Ep. exact Q. }
    assert (Iv : List.filter (fun g => negb (g_points (gob h1 g))) gs = ivs) by (apply filter_ext; intros k; rewrite Pk; reflexivity).
    assert (Ti : forall k, In k ivs -> tiers_in h1 k = tiers_in h k) by (intros k Hk; unfold tiers_in; destruct (As k Hk) as (_ & _ & _ & _ & -> & _); reflexivity).
    assert (Tf : flat_map (tiers_in h1) ivs = flat_map (tiers_in h) ivs).
    { clear -Ti. revert Ti. generalize ivs. intros l0 Ti. induction l0 as [|k l IHl]; [reflexivity|]. cbn [flat_map]. rewrite (IHl (fun j Hj => Ti j (or_intror Hj))), (Ti k (or_introl eq_refl)). reflexivity. }
    assert (Ef : flat_map (entries_in h1) (flat_map (tiers_in h) ivs) = flat_map (entries_in h) (flat_map (tiers_in h) ivs)).
    { assert (Q : forall t, In t (flat_map (tiers_in h) ivs) -> entries_in h1 t = entries_in h t).
      { intros t Ht. apply in_flat_map in Ht. destruct Ht as (k & Hk & Ht). unfold entries_in. destruct (As k Hk) as (_ & _ & _ & _ & _ & Q & _). rewrite (Q t Ht). reflexivity. }
      revert Q. generalize (flat_map (tiers_in h) ivs). clear. induction l as [|t l IHl]; intros Q; [reflexivity|]. cbn [flat_map]. rewrite (IHl (fun j Hj => Q j (or_intror Hj))), (Q t (or_introl eq_refl)). reflexivity. }
    destruct (IH h1) as (h' & E & T & Ap' & R).
    + intros k Hk. rewrite Pk. destruct (K k (or_intror Hk)) as [Q|Q]; [left; exact Q|]. destruct (g_points (gob h k)) eqn:Epk; [auto|]. right.
      apply (aside_ready n h h1); [|exact Q]. apply As. apply filter_In. split; [exact Hk|]. rewrite Epk. reflexivity.
    + rewrite Iv. split; [exact N1'|]. rewrite Tf, Ef. auto.
    + rewrite Iv, Tf in *. assert (G1 : g_tiers (gob h1 g) = g_tiers (gob h g)) by (destruct T1 as ((b1 & (_ & _ & Q & _)) & _); exact Q).
      assert (Dt : forall t, In t (g_tiers (gob h g)) -> ~ In t (flat_map (tiers_in h) ivs)).
      { intros t Ht Q. apply in_flat_map in Q. destruct Q as (k & Hk & Q). apply (Dj k t Hk Q Ht). }
      assert (Nx : forall t x, In t (g_tiers (gob h g)) -> In x (t_seq (tob h1 t)) -> forall u, In u (flat_map (tiers_in h) ivs) -> ~ In x (t_seq (tob h1 u))).
      { intros t x Ht Hx u Hu Q. apply in_flat_map in Hu. destruct Hu as (k & Hk & Hu). destruct (As k Hk) as (_ & _ & _ & _ & _ & Q2 & _). rewrite (Q2 u Hu) in Q.
        pose proof (Lvk k u x Hk Hu Q) as Lx. pose proof (tidied_old h h1 g _ bss t x G eq_refl T1 Ht Hx Lx) as Hx0.
        apply (L2 x); [apply elem_of_list_In, in_flat_map; exists t; auto|]. apply elem_of_list_In, in_flat_map. exists u. split; [apply in_flat_map; exists k; auto|exact Q]. }
      assert (As' : aside h1 h' g).
      { destruct T1 as ((b1 & Gd1) & T1').
        destruct R as (B1 & B2 & B3 & B4 & B5 & B6 & B7 & B8 & B9 & B10 & B11).
        split; [exact B10|]. split; [exact B6|]. split; [exact B3|]. split; [exact B7|]. split; [apply B8, N1|]. rewrite G1.
        split; [intros t Ht; apply B2, Dt, Ht|]. split.
        { intros t x Ht Hx. apply B5; [apply (good_live h1 g _ b1 t x Gd1 Ht Hx)|apply (Nx t x Ht Hx)]. }
        intros b Bd. pose proof Bd as (C1 & C2 & C3). unfold is_boundary. rewrite B5; [split; [lia|auto]|exact C1|].
        intros u Hu Q. apply in_flat_map in Hu. destruct Hu as (k & Hk & Hu). destruct (As k Hk) as (_ & _ & _ & _ & Qg & Q2 & _). unfold tiers_in in Hu; rewrite <- Qg in Hu.
        pose proof (aside_ready n h h1 (lo k) (hi k) k (As k Hk) (Rdy k Hk)) as ((bk & Gk) & _). apply (good_label h1 k _ bk u b Gk Hu Q C2). }
      exists h'. split; [|split; [|split]].
      * rewrite (bind_ok _ _ _ tt h1); [exact E|]. rewrite bind_get_grp, Ep. exact E1.
      * intros k [<-|Hk]; [apply (tidied_before h h1 h' g As' G1 T1)|].
        apply (tidied_after h h1 h' k (As k Hk)); [intros t x Ht Hx; eapply Lvk; eauto|apply T, Hk].
      * pose proof As' as (_ & _ & _ & _ & S5 & S6 & _). assert (Eg : tiers_in h' g = g_tiers (gob h g)) by (unfold tiers_in; rewrite S5; exact G1).
        assert (Eh : forall t, In t (g_tiers (gob h g)) -> entries_in h' t = entries_in h1 t) by (intros t Ht; unfold entries_in; rewrite S6 by (rewrite G1; exact Ht); reflexivity).
        assert (Er : flat_map (tiers_in h') ivs = flat_map (tiers_in h) ivs).
        { assert (Q : forall k, In k ivs -> tiers_in h' k = tiers_in h k).
          { intros k Hk. rewrite <- (Ti k Hk). destruct (T k Hk) as ((bk & (_ & _ & Q & _)) & _). exact Q. }
          clear -Q. revert Q. generalize ivs. intros l0 Q. induction l0 as [|k l IHl]; [reflexivity|]. cbn [flat_map]. rewrite (IHl (fun j Hj => Q j (or_intror Hj))), (Q k (or_introl eq_refl)). reflexivity. }
        destruct Ap' as (P1 & P2 & P3). split; [apply NoDup_cons; rewrite elem_of_list_In; auto|]. cbn [flat_map]. rewrite Eg, flat_map_app, Er in *.
        split; [apply NoDup_app; auto|]. destruct T1 as ((b1 & Gd1) & T1'). apply NoDup_app. split; [|split; [|exact P3]].
        -- apply nodup_flat; [apply M1| |].
           ++ intros t Ht. rewrite (Eh t Ht). apply (good_entries h1 g _ b1 Gd1 t Ht).
           ++ intros t u x Ht Hu N Hx Hy. rewrite (Eh t Ht) in Hx. rewrite (Eh u Hu) in Hy. apply N. apply (good_own h1 g _ b1 Gd1 t u x Ht Hu Hx Hy).
        -- intros x Hx Hy. apply elem_of_list_In, in_flat_map in Hx, Hy. destruct Hx as (t & Ht & Hx), Hy as (u & Hu & Hy). rewrite (Eh t Ht) in Hx.
           pose proof (good_live h1 g _ b1 t x Gd1 Ht Hx) as Lx. apply (Nx t x Ht Hx u Hu). apply in_flat_map in Hu. destruct Hu as (k & Hk & Hu). unfold tiers_in in Hu.
           pose proof (aside_ready n h h1 (lo k) (hi k) k (As k Hk) (Rdy k Hk)) as ((bk & Gk) & _). rewrite <- (Ti k Hk : g_tiers (gob h1 k) = g_tiers (gob h k)) in Hu. apply (tidied_old h1 h' k _ bk u x Gk eq_refl (T k Hk) Hu Hy Lx).
      * cbn [flat_map]. apply (rest_cons h h1 h' g _ ivs _ K1 R). intros t Ht Q. apply in_flat_map in Q. destruct Q as (k & Hk & Q). apply (Dj k t Hk Q Ht).
Qed.

(** ** The ends of a group *)
Definition bounded (h : heap) (l : list oid) (lo hi : Z) : Prop :=
  (exists x, In x l /\ s_start (sob h x) = Some lo) /\ (exists y, In y l /\ s_end (sob h y) = Some hi) /\
  (forall x, In x l -> dated h x /\ lo <= fst (span_of h x) /\ snd (span_of h x) <= hi).
Lemma turn_bounded h l lo hi : in_turn h l -> (forall x, In x l -> dated h x) -> ranges h l lo hi -> bounded h l lo hi.
Proof.
  intros T D (x & y & A & B & C & E). pose proof (hd_in _ _ A) as Ix. pose proof (hd_rev_in _ _ B) as Iy. split; [eauto|]. split; [eauto|].
  intros z Hz. split; [apply D, Hz|]. destruct (D z Hz) as (D1 & D2 & D3). apply In_nth_error in Hz. destruct Hz as [k Hk]. split.
  - destruct k as [|k]; [destruct l; [discriminate|]; cbn in *; assert (z = x) by congruence; subst z; assert (lo = fst (span_of h x)) by congruence; lia|].
    destruct (T 0%nat (S k) x z ltac:(lia)) as (e & s & Q1 & Q2 & Q3); [destruct l; [discriminate|exact A]|exact Hk|]. destruct (D x Ix) as (X1 & X2 & X3).
    assert (lo = fst (span_of h x)) by congruence. assert (e = snd (span_of h x)) by congruence. assert (s = fst (span_of h z)) by congruence. lia.
  - assert (Hy : nth_error l (List.length l - 1) = Some y).
    { destruct (rev l) as [|u r] eqn:Er; [discriminate|]. cbn in B. injection B as ->. assert (El : l = (rev r ++ [y])%list) by (rewrite <- (rev_involutive l), Er; reflexivity).
      rewrite El, app_length. cbn [List.length]. rewrite nth_error_app2 by lia. replace (_ - _)%nat with 0%nat by lia. reflexivity. }
    destruct (Nat.eq_dec k (List.length l - 1)%nat) as [->|Nk].
    + assert (z = y) by congruence. subst z. assert (hi = snd (span_of h y)) by congruence. lia.
    + assert (Lk : (k < List.length l)%nat) by (apply nth_error_Some; congruence). destruct (T k (List.length l - 1)%nat z y ltac:(lia) Hk Hy) as (e & s & Q1 & Q2 & Q3). destruct (D y Iy) as (X1 & X2 & X3).
      assert (hi = snd (span_of h y)) by congruence. assert (s = fst (span_of h y)) by congruence. assert (e = snd (span_of h z)) by congruence. lia.
Qed.
Lemma tiles_first h l a b : tiles h a l b -> l <> [] -> exists x, In x l /\ s_start (sob h x) = Some a.
Proof. destruct l as [|x l]; [congruence|]. intros (m & Q & _) _. exists x. simpl; auto. Qed.
Lemma tiles_last h : forall l a b, tiles h a l b -> l <> [] -> exists x, In x l /\ s_end (sob h x) = Some b.
Proof.
  induction l as [|x l IH]; intros a b T N; [congruence|]. destruct T as (m & T1 & T2 & T3 & T4). destruct l as [|y l].
  - cbn in T4. subst m. exists x. simpl; auto.
  - destruct (IH m b T4) as (z & Hz & Q); [discriminate|]. exists z. split; [simpl in *; tauto|exact Q].
Qed.
Lemma blocks_bounded h U bs lo hi : Forall2 (fills h) U bs -> bounded h U lo hi -> bounded h (concat bs) lo hi.
Proof.
  intros F ((x & Hx & Ex) & (y & Hy & Ey) & B).
  assert (K : forall u, In u U -> exists b, In b bs /\ fills h u b) by (intros u Hu; destruct (Forall2_in_l _ _ _ u F Hu) as (b & Q1 & Q2); eauto).
  split; [|split].
  - destruct (K x Hx) as (b & Hb & Fb). pose proof (fills_nonempty h x b Fb) as Ne. destruct Fb as (s & e & F1 & F2 & F3 & F4). destruct (tiles_first h b s e F4 Ne) as (z & Hz & Ez).
    exists z. split; [apply in_concat; eauto|congruence].
  - destruct (K y Hy) as (b & Hb & Fb). pose proof (fills_nonempty h y b Fb) as Ne. destruct Fb as (s & e & F1 & F2 & F3 & F4). destruct (tiles_last h b s e F4 Ne) as (z & Hz & Ez).
    exists z. split; [apply in_concat; eauto|congruence].
  - intros z Hz. apply in_concat in Hz. destruct Hz as (b & Hb & Hz). destruct (Forall2_in_r _ _ _ b F Hb) as (u & Hu & Fb). apply fills_dated in Fb. destruct Fb as [_ Fb].
    destruct (GroupFinal.tiles_in h b _ _ z Fb Hz) as (Q1 & Q2 & Q3). split; [exact Q1|]. destruct (B u Hu) as (_ & B1 & B2). lia.
Qed.
Lemma snug_bounded h lo hi : forall ts bss t, snug h (t :: ts) bss -> bounded h (t_seq (tob h t)) lo hi -> forall u, In u (t :: ts) -> bounded h (t_seq (tob h u)) lo hi.
Proof.
  induction ts as [|v ts IH]; intros bss t S B u [->|Hu]; [exact B|destruct Hu|exact B|]. destruct bss as [|bs bss]; [destruct S|].
  rewrite snug_cons in S. destruct S as (S1 & S2 & S3). apply (IH bss v S3); [|exact Hu]. rewrite <- S1. apply (blocks_bounded h (t_seq (tob h t)) bs); auto.
Qed.
Lemma bounded_ends h g ts bss t lo hi : good_group h g ts bss -> hd_error ts = Some t -> bounded h (t_seq (tob h t)) lo hi -> grp_xmin g h = Ok (Some lo) h /\ grp_xmax g h = Ok (Some hi) h.
Proof.
  intros G Ht B. pose proof G as (_ & Gp & Gt & _ & _ & _ & Sn & _). destruct ts as [|t0 r]; [discriminate|]. injection Ht as ->.
  pose proof (snug_bounded h lo hi r bss t Sn B) as Ba.
  assert (Np : forall u x, In u (t :: r) -> In x (t_seq (tob h u)) -> is_point h x = false) by (intros u x Hu Hx; apply (good_point h g _ bss u G Hu); exact Hx).
  destruct (c20_group h g Gp) as (a & e & E1 & E2 & (A1 & A2) & (B1 & B2)).
  { rewrite Gt. discriminate. }
  { rewrite Gt. intros u Hu. destruct (Ba u Hu) as ((x & Hx & _) & _ & D). split; [|intros Q; rewrite Q in Hx; destruct Hx].
    intros z Hz. destruct (D z Hz) as ((D1 & D2 & _) & _). unfold timed_both, end_at. rewrite (Np u z Hu Hz), D1, D2. split; discriminate. }
  rewrite Gt in *. destruct B as ((x & Hx & Ex) & (y & Hy & Ey) & D).
  assert (Ea : a = lo).
  { apply Z.le_antisymm.
    - apply A2. exists t. split; [simpl; auto|]. exists x. auto.
    - destruct A1 as (u & Hu & z & Hz & Q). destruct (Ba u Hu) as (_ & _ & Du). destruct (Du z Hz) as ((D1 & _) & D2 & _). assert (a = fst (span_of h z)) by congruence. lia. }
  assert (Ee : e = hi).
  { apply Z.le_antisymm.
    - destruct B1 as (u & Hu & z & Hz & Q). destruct (Ba u Hu) as (_ & _ & Du). destruct (Du z Hz) as ((_ & D1 & _) & _ & D2). unfold end_at in Q. rewrite (Np u z Hu Hz) in Q. assert (e = snd (span_of h z)) by congruence. lia.
    - apply B2. exists t. split; [simpl; auto|]. exists y. split; [exact Hy|]. unfold end_at. rewrite (Np t y) by (simpl; auto). exact Ey. }
  rewrite Ea in E1. rewrite Ee in E2. auto.
Qed.
Lemma tidied_ends n h h' lo hi g : tidy_ready n h lo hi g -> tidied h h' g -> (forall i, (i < List.length (h_seq h))%nat -> s_start (sob h' i) = s_start (sob h i) /\ s_end (sob h' i) = s_end (sob h i)) ->
  grp_xmin g h' = Ok (Some lo) h' /\ grp_xmax g h' = Ok (Some hi) h'.
Proof.
  intros ((bss & G) & t & Ht & _ & Ra & _) ((bss' & G') & T) K. apply (bounded_ends h' g _ bss' t lo hi G' Ht). destruct (T t Ht) as [X1 X2].
  assert (It : In t (g_tiers (gob h g))) by (apply hd_in, Ht). destruct (good_turns h' g _ bss' G' t It) as [Tu' D'].
  destruct (gap_or h g _ bss t G It) as [X|X].
  - destruct (X1 X t It) as ((x & y & a & b & P1 & P2 & P3 & P4 & P5) & P6 & _). destruct Ra as (x' & y' & R1 & R2 & R3 & R4).
    assert (x' = x) by congruence. assert (y' = y) by congruence. subst x' y'. assert (a = lo) by congruence. assert (b = hi) by congruence. subst a b.
    assert (Ne : t_seq (tob h' t) <> []) by (intros Q; rewrite Q in P6; rewrite <- P6 in P1; discriminate). split; [apply (tiles_first h' _ lo hi P5 Ne)|]. split; [apply (tiles_last h' _ lo hi P5 Ne)|].
    intros z Hz. apply (GroupFinal.tiles_in h' _ lo hi z P5 Hz).
  - rewrite (proj1 (X2 X) t It) in *. apply (turn_bounded h' _ lo hi Tu' D'). apply (ranges_same h h'); [|exact Ra]. intros x Hx. apply K. apply (good_live h g _ bss t x G It Hx).
Qed.

Lemma c64_tidied : forall n h a lo hi,
  (forall g, In g (a_groups (aob h a)) -> g_points (gob h g) = true \/ tidy_ready n h lo hi g) ->
  apart_groups h (interval_groups h a) -> interval_groups h a <> [] ->
  exists h', grid_cleanup n a h = Ok tt h' /\ (forall g, In g (interval_groups h a) -> tidied h h' g) /\
    apart_groups h' (interval_groups h a) /\ rest_kept h h' (interval_groups h a) (flat_map (tiers_in h) (interval_groups h a)).
Proof.
  intros n h a lo hi K Ap Ne. destruct (tidy_groups n (fun _ => lo) (fun _ => hi) (a_groups (aob h a)) h K Ap) as (h' & E1 & T & Ap' & R). exists h'. split; [|auto].
  unfold grid_cleanup. change (get_grid a) with (gets (fun h => aob h a)). rewrite bind_gets. rewrite (bind_ok _ _ _ _ _ E1). rewrite bind_gets.
  pose proof R as (R1 & R2 & R3 & R4 & R5 & R6 & R7 & R8 & R9 & R10 & R11).
  assert (Pk : forall k, g_points (gob h' k) = g_points (gob h k)).
  { intros k. destruct (in_dec Nat.eq_dec k (ivs_of h (a_groups (aob h a)))) as [Ik|Ik]; [|rewrite (R8 k Ik); reflexivity].
    destruct (T k Ik) as ((b1 & (_ & Q & _)) & _). rewrite Q. apply filter_In in Ik. destruct Ik as [_ Ik]. destruct (g_points (gob h k)); [discriminate|reflexivity]. }
  assert (Iv : List.filter (fun g => negb (g_points (gob h' g))) (a_groups (aob h a)) = interval_groups h a) by (apply filter_ext; intros k; rewrite Pk; reflexivity).
  rewrite Iv. change (ivs_of h (a_groups (aob h a))) with (interval_groups h a) in *.
  assert (En : forall g, In g (interval_groups h a) -> grp_xmin g h' = Ok (Some lo) h' /\ grp_xmax g h' = Ok (Some hi) h').
  { intros g Hg. apply (tidied_ends n h h' lo hi g); [|apply T, Hg|intros i Hi; destruct (R4 i Hi) as (_ & Q1 & Q2 & _); auto].
    apply filter_In in Hg. destruct Hg as [Hg Q]. destruct (K g Hg) as [Q'|Q']; [rewrite Q' in Q; discriminate|exact Q']. }
  destruct (mapM_const grp_xmin lo (interval_groups h a) h') as (sts & E2 & L2 & I2); [intros g Hg; apply En, Hg|].
  destruct (mapM_const grp_xmax hi (interval_groups h a) h') as (ens & E3 & L3 & I3); [intros g Hg; apply En, Hg|].
  assert (N2 : sts <> []) by (intros ->; destruct (interval_groups h a); [congruence|discriminate]). assert (N3 : ens <> []) by (intros ->; destruct (interval_groups h a); [congruence|discriminate]).
  rewrite (bind_ok _ _ _ _ _ E2), (bind_ok _ _ _ _ _ E3).
  rewrite (bind_ok _ _ _ _ _ (np_same Z.min lo sts h' (Z.min_id lo) N2 I2)), (bind_ok _ _ _ _ _ (np_same Z.max lo sts h' (Z.max_id lo) N2 I2)).
  assert (Cl : forall v, close_opt (Some v) (Some v) h' = Ok true h').
  { intros v. unfold close_opt, close_m. pose proof (allclose_refl [v]) as Q. cbn in Q. rewrite andb_true_r in Q. rewrite Q. reflexivity. }
  rewrite (bind_ok _ _ _ _ _ (Cl lo)). rewrite !bind_assoc. rewrite (bind_ok _ _ _ _ _ (np_same Z.min hi ens h' (Z.min_id hi) N3 I3)).
  rewrite !bind_assoc. rewrite (bind_ok _ _ _ _ _ (np_same Z.max hi ens h' (Z.max_id hi) N3 I3)). rewrite (bind_ok _ _ _ _ _ (Cl hi)). reflexivity.
Qed.
End WithEnv.
