(** * ReadMade: making the groups of the tiers of a text grid. *)
From Verif Require Import ReadSpec WeaveFinal OwnFinal ClassFinal PointFinal ReadClasses.
Open Scope Z_scope.

(** ** What does not change on the way *)
Definition grown (h h' : heap) : Prop :=
  h_cls h' = h_cls h /\ h_grid h' = h_grid h /\
  (List.length (h_seq h) <= List.length (h_seq h'))%nat /\ (List.length (h_tier h) <= List.length (h_tier h'))%nat /\
  (List.length (h_grp h) <= List.length (h_grp h'))%nat /\
  (forall i, live h i -> sob h' i = sob h i) /\ (forall t, tlive h t -> tob h' t = tob h t) /\
  (forall g, glive h g -> gob h' g = gob h g).
(** The same, but groups may get another name and container. *)
Definition aged (h h' : heap) : Prop :=
  h_cls h' = h_cls h /\
  (List.length (h_seq h) <= List.length (h_seq h'))%nat /\ (List.length (h_tier h) <= List.length (h_tier h'))%nat /\
  (List.length (h_grp h) <= List.length (h_grp h'))%nat /\
  (forall i, live h i -> sob h' i = sob h i) /\ (forall t, tlive h t -> tob h' t = tob h t) /\
  (forall g, glive h g -> g_points (gob h' g) = g_points (gob h g) /\ g_tiers (gob h' g) = g_tiers (gob h g) /\
     g_contains (gob h' g) = g_contains (gob h g)).
Lemma grown_refl h : grown h h.
Proof. unfold grown. auto 10. Qed.
Lemma grown_trans h1 h2 h3 : grown h1 h2 -> grown h2 h3 -> grown h1 h3.
Proof.
  intros (A1 & A2 & A3 & A4 & A5 & A6 & A7 & A8) (B1 & B2 & B3 & B4 & B5 & B6 & B7 & B8).
  split; [congruence|]. split; [congruence|]. split; [lia|]. split; [lia|]. split; [lia|].
  split; [intros i Hi; rewrite B6, A6; auto; unfold live in *; lia|].
  split; [intros i Hi; rewrite B7, A7; auto; unfold tlive in *; lia|].
  intros i Hi; rewrite B8, A8; auto; unfold glive in *; lia.
Qed.
Lemma grown_aged h h' : grown h h' -> aged h h'.
Proof.
  intros (A1 & A2 & A3 & A4 & A5 & A6 & A7 & A8). split; [exact A1|]. split; [exact A3|]. split; [exact A4|]. split; [exact A5|]. split; [exact A6|]. split; [exact A7|].
  intros g Hg. rewrite A8 by exact Hg. auto.
Qed.
Lemma aged_boundary h h' k : aged h h' -> is_boundary h k -> is_boundary h' k.
Proof. intros (A1 & A3 & A4 & A5 & A6 & A7 & A8) [L Q]. split; [lia|]. rewrite A6 by exact L. exact Q. Qed.
Lemma aged_chained h h' l : aged h h' -> (forall x, In x l -> live h x) -> chained h l -> chained h' l.
Proof.
  intros A L (C1 & C2 & C3). pose proof A as (A1 & A3 & A4 & A5 & A6 & A7 & A8). split; [|split].
  - intros i a b Ha Hb. rewrite !A6 by (apply L; eapply nth_error_In; eauto). eapply C1; eauto.
  - intros a Ha. destruct (C2 a Ha) as (k & Q1 & Q2). exists k. rewrite A6 by (apply L; eapply nth_error_In; eauto). split; [exact Q1|]. eapply aged_boundary; eauto.
  - intros a Ha. destruct (C3 a Ha) as (k & Q1 & Q2). exists k. rewrite A6 by (apply L; eapply nth_error_In; eauto). split; [exact Q1|]. eapply aged_boundary; eauto.
Qed.
Lemma cls_sub h h' x y : h_cls h' = h_cls h -> issubclass h' x y = issubclass h x y.
Proof. intros E. unfold issubclass. rewrite E. reflexivity. Qed.

(** ** Building the tiers *)
(** An interval tier [k] made since [h0] of the data and the class [p]. *)
Definition imade (h0 h : heap) (p : rawtier * cid) (k : tid) : Prop :=
  (List.length (h_tier h0) <= k)%nat /\ tlive h k /\ t_ec (tob h k) = snd p /\ t_name (tob h k) = rt_name (fst p) /\
  t_super (tob h k) = superset_class h (snd p) /\ t_sub (tob h k) = subset_class h (snd p) /\
  Forall2 (stands_for h) (rt_entries (fst p)) (t_seq (tob h k)) /\ chained h (t_seq (tob h k)) /\
  NoDup (t_seq (tob h k)) /\
  (forall x, In x (t_seq (tob h k)) -> (List.length (h_seq h0) <= x)%nat /\ live h x /\ s_cls (sob h x) = snd p /\ s_label (sob h x) <> "#"%string /\
     s_super (sob h x) = None /\ s_subset (sob h x) = [] /\ s_intier (sob h x) = Some k) /\
  (forall sc, superset_class h (snd p) = Some sc -> issubclass h sc cTop = true -> forall x, In x (t_seq (tob h k)) -> s_within (sob h x) = Some (WTier k)) /\
  classed h k.
Definition pmade (h0 h : heap) (p : rawtier * cid) (k : tid) : Prop :=
  (List.length (h_tier h0) <= k)%nat /\ tlive h k /\ t_ec (tob h k) = snd p /\ t_name (tob h k) = rt_name (fst p) /\
  (forall m, In m (map (mark_of h) (t_seq (tob h k))) <-> In m (map (mark h) (rt_entries (fst p)))) /\
  NoDup (map (mark_of h) (t_seq (tob h k))) /\ sorted_starts h (t_seq (tob h k)) /\ chained h (t_seq (tob h k)) /\
  forall x, In x (t_seq (tob h k)) -> (List.length (h_seq h0) <= x)%nat /\ live h x /\ s_cls (sob h x) = snd p /\ s_intier (sob h x) = Some k /\ s_within (sob h x) = Some (WTier k).
Lemma stands_same h h' e x : sob h' x = sob h x -> stands_for h e x -> stands_for h' e x.
Proof. unfold stands_for. intros ->. auto. Qed.
Lemma imade_aged h0 h h' p k : aged h h' -> imade h0 h p k -> imade h0 h' p k.
Proof.
  intros A (M1 & M2 & M3 & M4 & M5 & M6 & M7 & M8 & M9 & M10 & M11 & M12). pose proof A as (A1 & A3 & A4 & A5 & A6 & A7 & A8).
  assert (Tk : tob h' k = tob h k) by (apply A7, M2). unfold imade. rewrite Tk.
  assert (Lx : forall x, In x (t_seq (tob h k)) -> live h x) by (intros x Hx; apply (M10 x Hx)).
  assert (Sp : superset_class h' (snd p) = superset_class h (snd p)) by (unfold superset_class, cob; rewrite A1; reflexivity).
  assert (Sb : subset_class h' (snd p) = subset_class h (snd p)) by (unfold subset_class, cob; rewrite A1; reflexivity).
  rewrite Sp, Sb. split; [exact M1|]. split; [unfold tlive in *; lia|]. split; [exact M3|]. split; [exact M4|]. split; [exact M5|]. split; [exact M6|].
  split; [eapply Forall2_weaken; [exact M7|]; intros e x _ Hx; apply stands_same, A6, Lx, Hx|].
  split; [apply (aged_chained h); auto|]. split; [exact M9|].
  split; [|split; [|unfold classed in *; rewrite Tk; exact M12]].
  - intros x Hx. rewrite A6 by (apply Lx, Hx). destruct (M10 x Hx) as (Q1 & Q2 & Q3). split; [exact Q1|]. split; [unfold live in *; lia|exact Q3].
  - intros sc Hs Ht x Hx. rewrite A6 by (apply Lx, Hx). rewrite (cls_sub h h') in Ht by exact A1. eapply M11; eauto.
Qed.
Lemma marks_same h h' l : h' = h' -> (forall e, In e l -> match e with EObj o => sob h' o = sob h o | _ => True end) -> map (mark h') l = map (mark h) l.
Proof. intros _ Q. apply map_ext_in. intros e He. specialize (Q e He). destruct e as [o|]; unfold mark; cbn; [rewrite Q|]; reflexivity. Qed.
Lemma pmade_aged h0 h h' p k : raw_points (rt_entries (fst p)) -> aged h h' -> pmade h0 h p k -> pmade h0 h' p k.
Proof.
  intros Rp A (M1 & M2 & M3 & M4 & M5 & M6 & M7 & M8 & M9). pose proof A as (A1 & A3 & A4 & A5 & A6 & A7 & A8).
  assert (Tk : tob h' k = tob h k) by (apply A7, M2). unfold pmade. rewrite Tk.
  assert (Lx : forall x, In x (t_seq (tob h k)) -> live h x) by (intros x Hx; apply (M9 x Hx)).
  assert (Mk : map (mark_of h') (t_seq (tob h k)) = map (mark_of h) (t_seq (tob h k))).
  { apply map_ext_in. intros x Hx. unfold mark_of. rewrite A6 by (apply Lx, Hx). reflexivity. }
  assert (Me : map (mark h') (rt_entries (fst p)) = map (mark h) (rt_entries (fst p))).
  { apply marks_same; [reflexivity|]. intros e He. destruct (Rp e He) as (z & x & -> & _). exact I. }
  rewrite Mk, Me. split; [exact M1|]. split; [unfold tlive in *; lia|]. split; [exact M3|]. split; [exact M4|]. split; [exact M5|]. split; [exact M6|].
  split; [eapply sorted_ext; [|exact M7]; intros x Hx; rewrite A6 by (apply Lx, Hx); reflexivity|].
  split; [apply (aged_chained h); auto|].
  intros x Hx. rewrite A6 by (apply Lx, Hx). destruct (M9 x Hx) as (Q1 & Q2 & Q3). split; [exact Q1|]. split; [unfold live in *; lia|exact Q3].
Qed.

Lemma raw_in l : forall a b e, raw_turns a l b -> In e l -> exists s m x, e = ERaw (Some s) (Some m) x /\ a <= s < m /\ m <= b /\ x <> "#"%string.
Proof.
  assert (Le : forall l a b, raw_turns a l b -> a < b).
  { clear. induction l as [|e l IH]; intros a b Q; [destruct Q|]. destruct Q as (m & x & -> & Q1 & _ & [[-> ->]|(s & Q2 & Q3)]); [exact Q1|]. apply IH in Q3. lia. }
  induction l as [|e0 l IH]; intros a b e Q I; [destruct I|]. destruct Q as (m & x & -> & Q1 & Q2 & Q3). destruct I as [<-|I].
  - exists a, m, x. split; [reflexivity|]. destruct Q3 as [[-> ->]|(s & Q3 & Q4)]; [|pose proof (Le _ _ _ Q4)]; (split; [lia|]; split; [lia|exact Q2]).
  - destruct Q3 as [[-> _]|(s0 & Q3 & Q4)]; [destruct I|]. destruct (IH s0 b e Q4 I) as (s & m' & y & E & Q5 & Q6 & Q7). exists s, m', y. split; [exact E|]. split; [lia|]. auto.
Qed.
Lemma turns_head l a b : raw_turns a l b -> exists m x l', l = ERaw (Some a) (Some m) x :: l' /\ a < m.
Proof. destruct l as [|e l]; [intros []|]. intros (m & x & -> & Q & _). eauto. Qed.
Lemma raw_order h l : forall a b, raw_turns a l b -> in_order h l.
Proof.
  induction l as [|e l IH]; intros a b Q i j x y Hij Hx Hy; [destruct i; discriminate|].
  pose proof Q as (m & z & -> & Q1 & Q2 & Q3). destruct j as [|j]; [lia|]. cbn in Hy. destruct Q3 as [[-> _]|(s0 & Q3 & Q4)]; [destruct j; discriminate|]. destruct i as [|i].
  - injection Hx as <-. destruct (raw_in l s0 b y Q4) as (s & m' & z' & -> & Q5 & _); [eapply nth_error_In; eauto|].
    exists a, s. cbn. split; [reflexivity|]. split; [reflexivity|lia].
  - cbn in Hx. apply (IH s0 b Q4 i j x y); auto. lia.
Qed.
Lemma raw_usable h l a b : raw_turns a l b -> usable h cInterval l.
Proof.
  intros Q. split.
  - assert (E : entry_objs l = []).
    { assert (R : forall e, In e l -> exists s m x, e = ERaw s m x) by (intros e He; destruct (raw_in l a b e Q He) as (s & m & x & -> & _); eauto).
      clear Q. induction l as [|e l IH]; [reflexivity|]. destruct (R e (or_introl eq_refl)) as (s & m & x & ->). cbn. apply IH. intros e He. apply R. simpl; auto. }
    rewrite E. constructor.
  - intros e He. destruct (raw_in l a b e Q He) as (s & m & x & -> & _ & _ & Q2). cbn. split; [exact Q2|]. split; [eauto|exact I].
Qed.
Lemma points_usable h l : raw_points l -> usable_points h l.
Proof.
  intros Q e He. destruct (Q e He) as (z & x & -> & N). split; [constructor|]. intros e [<-|[]]. cbn. split; [exact N|]. split; [eauto|exact I].
Qed.

Section Build.
Context `{Env}.

Lemma build_interval r c sc a b h : issubclass h c cPoint = false -> superset_class h c = Some sc -> raw_turns a (rt_entries r) b ->
  exists t h', new_itier (FromPraat (rt_name r) (rt_entries r)) (Some c) h = Ok t h' /\ grown h h' /\ imade h h' (r, c) t /\ (t < List.length (h_tier h'))%nat.
Proof.
  intros P S Q. destruct (c18_built h (FromPraat (rt_name r) (rt_entries r)) (Some c) c sc (rt_entries r)) as
    (t & h' & ents' & E & Pm & Io & F & So & Ch & It & Wi & Ec & Nm & (O1 & O2 & O3 & O4 & O5 & O6 & O7 & O8 & O9) & Su & Sb & (Lk & Lv) & _ & Kc);
    [reflexivity|reflexivity|exact P|exact S|apply (raw_usable h _ a b Q)|].
  rewrite (Io (raw_order h _ a b Q)) in F. exists t, h'. split; [exact E|].
  assert (New : forall x, In x (t_seq (tob h' t)) -> exists s m lab, In (ERaw s m lab) (rt_entries r) /\ made h h' c (ERaw s m lab) x).
  { intros x Hx. destruct (Forall2_in_r _ _ _ x F Hx) as (e & He & M). destruct (raw_in _ a b e Q He) as (s & m & lab & -> & _). eauto 10. }
  assert (Nw : forall x, In x (t_seq (tob h' t)) -> (List.length (h_seq h) <= x)%nat).
  { intros x Hx. destruct (New x Hx) as (s & m & lab & _ & _ & _ & M). apply M. }
  assert (G : grown h h').
  { split; [exact O3|]. split; [exact O5|]. split; [exact O9|]. split; [lia|]. split; [rewrite O4; lia|].
    split; [intros i Hi; apply O1; [exact Hi|intros Q'; specialize (Nw i Q'); unfold live in Hi; lia]|].
    split; [intros u Hu; apply O8; unfold tlive in Hu; lia|]. intros g _. unfold gob. rewrite O4. reflexivity. }
  split; [exact G|]. split; [|lia].
  split; [lia|]. split; [unfold tlive; lia|]. split; [exact Ec|]. split; [exact Nm|]. cbn [snd fst].
  assert (Sp : superset_class h' c = superset_class h c) by (unfold superset_class, cob; rewrite O3; reflexivity).
  assert (Sb' : subset_class h' c = subset_class h c) by (unfold subset_class, cob; rewrite O3; reflexivity).
  split; [congruence|]. split; [congruence|].
  split. { eapply Forall2_weaken; [exact F|]. intros e x He _ (_ & V & _). destruct (raw_in _ a b e Q He) as (s & m & lab & -> & _).
    unfold stands_for. cbn in V. congruence. }
  split; [exact Ch|]. split; [exact Lk|]. split; [|split; [|unfold classed; rewrite Ec; exact Kc]].
  - intros x Hx. split; [apply Nw, Hx|]. destruct (Lv x Hx) as (L1 & L2 & L3). split; [exact L1|]. split; [exact L2|]. split; [exact L3|].
    destruct (New x Hx) as (s & m & lab & _ & _ & _ & _ & M1 & M2). auto.
  - intros sc' Hs Ht x Hx. apply Wi; [|exact Hx]. rewrite Sp, S in Hs. injection Hs as <-. rewrite <- (cls_sub h h') by exact O3. exact Ht.
Qed.
Lemma build_point r c h : issubclass h c cPoint = true -> raw_points (rt_entries r) ->
  exists t h', new_ptier (FromPraat (rt_name r) (rt_entries r)) (Some c) h = Ok t h' /\ grown h h' /\ pmade h h' (r, c) t /\ (t < List.length (h_tier h'))%nat.
Proof.
  intros P Q. destruct (c33_built h (FromPraat (rt_name r) (rt_entries r)) (Some c) c (rt_entries r)) as
    (t & h' & E & M1 & M2 & Nd & _ & So & Ch & It & Ec & Nm & (O1 & _ & O3 & O4 & O5 & O6 & O7 & O8 & O9) & Lk & Lv);
    [exact I|reflexivity|reflexivity|exact P|apply points_usable, Q|].
  exists t, h'. split; [exact E|].
  assert (New : forall x, In x (t_seq (tob h' t)) -> exists e, In e (rt_entries r) /\ mark_of h' x = mark h' e /\ (List.length (h_seq h) <= x)%nat).
  { intros x Hx. destruct (M2 x Hx) as (e & He & _ & V & M). destruct (Q e He) as (z & lab & -> & _). eexists. split; [exact He|]. split; [|apply M]. cbn in V. unfold mark_of, mark. cbn. congruence. }
  assert (G : grown h h').
  { split; [exact O3|]. split; [exact O5|]. split; [exact O9|]. split; [lia|]. split; [rewrite O4; lia|].
    split; [intros i Hi; apply O1; [exact Hi|intros Q'; destruct (Q _ Q') as (z & x & Q2 & _); discriminate]|].
    split; [intros u Hu; apply O8; unfold tlive in Hu; lia|]. intros g _. unfold gob. rewrite O4. reflexivity. }
  split; [exact G|]. split; [|lia].
  split; [lia|]. split; [unfold tlive; lia|]. split; [exact Ec|]. split; [exact Nm|]. cbn [snd fst].
  split. { intros m. rewrite !in_map_iff. split.
    - intros (x & <- & Hx). destruct (New x Hx) as (e & He & V & _). exists e. auto.
    - intros (e & <- & He). destruct (M1 e He) as (x & Hx & V). exists x. split; [|exact Hx]. rewrite V. destruct (Q e He) as (z & lab & -> & _). reflexivity. }
  split; [exact Nd|]. split; [exact So|]. split; [exact Ch|].
  intros x Hx. destruct (New x Hx) as (_ & _ & _ & N). split; [exact N|]. destruct (Lv x Hx) as (L1 & L2 & L3). split; [exact L1|]. split; [exact L2|]. apply It, Hx.
Qed.
Lemma made_before h0 h1 h p k : grown h0 h1 -> imade h1 h p k -> imade h0 h p k.
Proof.
  intros (_ & _ & A3 & A4 & _) (M1 & M2 & M3 & M4 & M5 & M6 & M7 & M8 & M9 & M10 & M11 & M12).
  split; [lia|]. repeat (split; [assumption|]). split; [|split; [exact M11|exact M12]]. intros x Hx. destruct (M10 x Hx) as [Q1 Q2]. split; [lia|exact Q2].
Qed.
Lemma pmade_before h0 h1 h p k : grown h0 h1 -> pmade h1 h p k -> pmade h0 h p k.
Proof.
  intros (_ & _ & A3 & A4 & _) (M1 & M2 & M3 & M4 & M5 & M6 & M7 & M8 & M9).
  split; [lia|]. split; [exact M2|]. split; [exact M3|]. split; [exact M4|]. split; [exact M5|]. split; [exact M6|]. split; [exact M7|]. split; [exact M8|].
  intros x Hx. destruct (M9 x Hx) as [Q1 Q2]. split; [lia|exact Q2].
Qed.
Definition buildable (h : heap) (p : rawtier * cid) : Prop :=
  (issubclass h (snd p) cPoint = true /\ issubclass h (snd p) cInterval = false /\ raw_points (rt_entries (fst p))) \/
  (issubclass h (snd p) cPoint = false /\ issubclass h (snd p) cInterval = true /\ (exists sc, superset_class h (snd p) = Some sc) /\
   exists a b, raw_turns a (rt_entries (fst p)) b).
Lemma buildable_same h h' p : h_cls h' = h_cls h -> buildable h p -> buildable h' p.
Proof.
  intros E. unfold buildable. rewrite !(cls_sub h h') by exact E. replace (superset_class h' (snd p)) with (superset_class h (snd p)); [auto|].
  unfold superset_class, cob. rewrite E. reflexivity.
Qed.
Lemma build_all ps : forall h, (forall p, In p ps -> buildable h p) ->
  exists s q h', build_tiers ps h = Ok (s, q) h' /\ grown h h' /\
    Forall2 (imade h h') (List.filter (fun p => issubclass h (snd p) cInterval) ps) s /\
    Forall2 (pmade h h') (List.filter (fun p => issubclass h (snd p) cPoint) ps) q /\ NoDup (s ++ q)%list.
Proof.
  induction ps as [|[r c] ps IH]; intros h B.
  - exists [], [], h. split; [reflexivity|]. split; [apply grown_refl|]. split; [constructor|]. split; [constructor|constructor].
  - assert (Next : forall t h1, grown h h1 -> exists s q h', build_tiers ps h1 = Ok (s, q) h' /\ grown h1 h' /\ grown h h' /\
       Forall2 (imade h h') (List.filter (fun p => issubclass h (snd p) cInterval) ps) s /\
       Forall2 (pmade h h') (List.filter (fun p => issubclass h (snd p) cPoint) ps) q /\ NoDup (s ++ q)%list /\
       ((t < List.length (h_tier h1))%nat -> ~ In t s /\ ~ In t q)).
    { intros t h1 G. pose proof G as (Ec & _). destruct (IH h1) as (s & q & h' & E & G1 & F1 & F2 & N).
      { intros p Hp. apply (buildable_same h); [exact Ec|]. apply B. simpl; auto. }
      exists s, q, h'. split; [exact E|]. split; [exact G1|]. split; [eapply grown_trans; eauto|].
      rewrite (List.filter_ext (fun p : rawtier * cid => issubclass h1 (snd p) cInterval) (fun p => issubclass h (snd p) cInterval)) in F1 by (intros p; apply cls_sub, Ec).
      rewrite (List.filter_ext (fun p : rawtier * cid => issubclass h1 (snd p) cPoint) (fun p => issubclass h (snd p) cPoint)) in F2 by (intros p; apply cls_sub, Ec).
      split; [eapply Forall2_impl; [exact F1|]; intros p k; apply made_before, G|].
      split; [eapply Forall2_impl; [exact F2|]; intros p k; apply pmade_before, G|].
      split; [exact N|]. intros Lt. split; intros I.
      - destruct (Forall2_in_r _ _ _ t F1 I) as (p & _ & Q & _). lia.
      - destruct (Forall2_in_r _ _ _ t F2 I) as (p & _ & Q & _). lia. }
    cbn [build_tiers]. rewrite !bind_gets. destruct (B (r, c) (or_introl eq_refl)) as [(P1 & P2 & P3)|(P1 & P2 & (sc & P3) & a & b & P4)]; cbn [fst snd] in *; cbn [List.filter fst snd]; rewrite P1, P2.
    + destruct (build_point r c h P1 P3) as (t & h1 & E1 & G1 & M1 & L1). destruct (Next t h1 G1) as (s & q & h' & E & G & G0 & F1 & F2 & N & Nt).
      destruct (Nt L1) as [Na Nb]. exists s, (t :: q), h'. split.
      { rewrite !bind_assoc. rewrite (bind_ok _ _ _ _ _ E1). rewrite bind_ret. rewrite bind_ret. rewrite (bind_ok _ _ _ _ _ E). reflexivity. }
      split; [exact G0|]. split; [exact F1|]. split; [constructor; [|exact F2]; apply (pmade_aged h h1 h'); auto; apply grown_aged, G|].
      apply NoDup_ListNoDup. apply NoDup_ListNoDup in N. apply (Permutation_NoDup (l := t :: s ++ q)%list); [apply Permutation_middle|]. constructor; [|exact N]. rewrite in_app_iff. tauto.
    + destruct (build_interval r c sc a b h P1 P3 P4) as (t & h1 & E1 & G1 & M1 & L1). destruct (Next t h1 G1) as (s & q & h' & E & G & G0 & F1 & F2 & N & Nt).
      destruct (Nt L1) as [Na Nb]. exists (t :: s), q, h'. split.
      { rewrite bind_ret. rewrite !bind_assoc. rewrite (bind_ok _ _ _ _ _ E1). rewrite bind_ret. rewrite (bind_ok _ _ _ _ _ E). reflexivity. }
      split; [exact G0|]. split; [constructor; [|exact F1]; apply (imade_aged h h1 h'); auto; apply grown_aged, G|]. split; [exact F2|].
      apply NoDup_ListNoDup. apply NoDup_ListNoDup in N. constructor; [|exact N]. rewrite in_app_iff. tauto.
Qed.
End Build.

(** ** Relating the tiers of a row *)
Lemma raw_made h l xs : Forall2 (stands_for h) l xs -> forall a b, raw_tiles a l b -> tiles h a xs b.
Proof.
  induction 1 as [|e x l xs S F IH]; intros a b Q; [exact Q|]. destruct Q as (m & lab & -> & Q1 & _ & Q2).
  unfold stands_for in S. injection S as S1 S2 S3. cbn [tiles]. exists m. auto.
Qed.
Lemma raw_fill h e x l xs : stands_for h e x -> Forall2 (stands_for h) l xs -> raw_fills e l -> fills h x xs.
Proof.
  intros S F (s & m & lab & -> & L & Q). unfold stands_for in S. injection S as S1 S2 S3. exists s, m.
  split; [auto|]. split; [auto|]. split; [exact L|]. eapply raw_made; eauto.
Qed.
Lemma snug_made h : forall rows ts, Forall2 (fun r k => Forall2 (stands_for h) r (t_seq (tob h k))) rows ts -> rows <> [] -> raw_snug rows ->
  exists bss, snug h ts bss.
Proof.
  intros rows ts F. induction F as [|r k rows ts S F IH]; intros N Q; [congruence|]. inversion F as [|q u rows' ts' S' F']; subst.
  - exists []. exact I.
  - destruct Q as [(bs & Eb & Q1) Q2]. destruct IH as (bss & Sn); [discriminate|exact Q2|].
    rewrite Eb in S'. destruct (cut_as (stands_for h) bs (t_seq (tob h u)) S') as (bs' & Ec & Fb). exists (bs' :: bss).
    cbn [snug]. split; [exact Ec|]. split; [|exact Sn]. clear -S Q1 Fb. revert bs' Fb. revert S. generalize (t_seq (tob h k)). intros xs S. revert xs S.
    induction Q1 as [|e b r bs Q Q1 IH]; intros xs S bs' Fb.
    + inversion S; inversion Fb; constructor.
    + inversion S as [|? x ? xs' Sx Ss]; subst. inversion Fb as [|? b' ? bs'' Bx Bs]; subst. constructor; [eapply raw_fill; eauto|]. apply IH; auto.
Qed.
Lemma raw_compose : forall r bs a b, raw_turns a r b -> Forall2 raw_fills r bs -> raw_turns a (concat bs) b.
Proof.
  assert (App : forall l a m s b k, raw_tiles a l m -> a < m -> m <= s -> raw_turns s k b -> raw_turns a (l ++ k) b).
  { induction l as [|e l IH]; intros a m s b k Q1 Lt Le Q2; [cbn in Q1; lia|]. destruct Q1 as (m' & x & -> & A & B & C). exists m', x. split; [reflexivity|]. split; [exact A|]. split; [exact B|]. right.
    destruct l as [|e l]; [cbn in C; subst m'; exists s; auto|]. exists m'. split; [lia|]. eapply IH; [exact C| |exact Le|exact Q2].
    clear -C. revert m' C. assert (Z : forall l a b, raw_tiles a l b -> a <= b) by (clear; induction l as [|e l IH]; intros a b Q; [cbn in Q; lia|]; destruct Q as (m & x & -> & Q1 & _ & Q2); apply IH in Q2; lia).
    intros m' (m2 & x & _ & Q1 & _ & Q2). apply Z in Q2. lia. }
  assert (One : forall l a b, raw_tiles a l b -> a < b -> raw_turns a l b).
  { induction l as [|e l IH]; intros a b Q1 Lt; [cbn in Q1; lia|]. destruct Q1 as (m' & x & -> & A & B & C). exists m', x. split; [reflexivity|]. split; [exact A|]. split; [exact B|].
    destruct l as [|e l]; [left; split; [reflexivity|exact C]|]. right. exists m'. split; [lia|]. apply IH; [exact C|]. clear -C.
    assert (Z : forall l a b, raw_tiles a l b -> a <= b) by (clear; induction l as [|e l IH]; intros a b Q; [cbn in Q; lia|]; destruct Q as (m & x & -> & Q1 & _ & Q2); apply IH in Q2; lia).
    destruct C as (m2 & x & _ & Q1 & _ & Q2). apply Z in Q2. lia. }
  intros r bs a b Q F. revert a Q. induction F as [|e l r bs Hf F IH]; intros a Q; [exact Q|]. destruct Q as (m & x & -> & A & B & C).
  destruct Hf as (s & e & y & E & L & T). injection E as <- <- <-. cbn [concat]. destruct C as [[-> ->]|(s & C1 & C2)].
  - inversion F; subst. cbn [concat]. rewrite app_nil_r. apply One; auto.
  - eapply App; [exact T|exact A|exact C1|]. apply IH, C2.
Qed.
Lemma raw_all rows a b : (exists r, hd_error rows = Some r /\ raw_turns a r b) -> raw_snug rows -> forall r, In r rows -> raw_turns a r b.
Proof.
  induction rows as [|r rows IH]; intros (r0 & E & Q) S x Hx; [destruct Hx|]. injection E as <-. destruct Hx as [<-|Hx]; [exact Q|].
  destruct rows as [|q rows]; [destruct Hx|]. destruct S as [(bs & Eb & F) S]. apply IH; [|exact S|exact Hx]. exists q. split; [reflexivity|].
  rewrite Eb. eapply raw_compose; eauto.
Qed.
Lemma turns_made h l xs : Forall2 (stands_for h) l xs -> forall a b, raw_turns a l b ->
  in_turn h xs /\ forall x, In x xs -> dated h x /\ exists s m, s_start (sob h x) = Some s /\ s_end (sob h x) = Some m /\ a <= s < m /\ m <= b.
Proof.
  intros F a b Q.
  assert (K : forall i x, nth_error xs i = Some x -> exists s m y, nth_error l i = Some (ERaw (Some s) (Some m) y) /\ s_start (sob h x) = Some s /\ s_end (sob h x) = Some m /\ a <= s < m /\ m <= b).
  { intros i x Hx. destruct (nth_error l i) as [e|] eqn:He; [|apply nth_error_None in He; apply Forall2_length in F; assert (i < List.length xs)%nat by (apply nth_error_Some; congruence); lia].
    destruct (raw_in l a b e Q (nth_error_In _ _ He)) as (s & m & y & -> & Q1 & Q2 & _). exists s, m, y. split; [reflexivity|].
    assert (S : stands_for h (ERaw (Some s) (Some m) y) x).
    { clear -F He Hx. revert i He Hx. induction F as [|e x0 l xs S F IH]; intros i He Hx; [destruct i; discriminate|]. destruct i as [|i]; [cbn in *; congruence|apply (IH i He Hx)]. }
    unfold stands_for in S. injection S as S1 S2 S3. auto. }
  split.
  - assert (Tn : forall l a b, raw_turns a l b -> forall i j s m y s' m' y', (i < j)%nat -> nth_error l i = Some (ERaw s (Some m) y) -> nth_error l j = Some (ERaw (Some s') m' y') -> m <= s').
    { clear. induction l as [|e l IH]; intros a b Q i j s m y s' m' y' Hij Hi Hj; [destruct i; discriminate|]. destruct Q as (m0 & x0 & -> & Q1 & Q2 & Q3). destruct j as [|j]; [lia|]. cbn in Hj.
      destruct Q3 as [[-> _]|(s0 & Q3 & Q4)]; [destruct j; discriminate|]. destruct i as [|i]; [|apply (IH s0 b Q4 i j s m y s' m' y' ltac:(lia) Hi Hj)].
      injection Hi as <- <- <-. destruct (raw_in l s0 b _ Q4 (nth_error_In _ _ Hj)) as (s & m1 & y1 & E & Q5 & _). injection E as -> -> ->. lia. }
    intros i j x y Hij Hx Hy. destruct (K i x Hx) as (s & m & lab & E1 & _ & E2 & _). destruct (K j y Hy) as (s' & m' & lab' & E3 & E4 & _).
    exists m, s'. split; [exact E2|]. split; [exact E4|]. apply (Tn l a b Q i j _ m lab s' _ lab' Hij E1 E3).
  - intros x Hx. apply In_nth_error in Hx. destruct Hx as [i Hx]. destruct (K i x Hx) as (s & m & lab & E1 & E2 & E3 & E4 & E5). split; [|exists s, m; auto].
    unfold dated, span_of. rewrite E2, E3. cbn. split; [auto|]. split; [auto|]. lia.
Qed.
Lemma chain_nth h t cs b : class_chain h t cs b -> forall i c d, nth_error cs i = Some c -> nth_error cs (S i) = Some d -> subset_class h c = Some d /\ superset_class h d = Some c.
Proof.
  intros (_ & _ & _ & _ & _ & Q) i c d Hc Hd. apply (Q (S i)).
  - change (nth_error (cs ++ [b]) i = Some c). rewrite nth_error_app1; auto. apply nth_error_Some. congruence.
  - change (nth_error (cs ++ [b]) (S i) = Some d). rewrite nth_error_app1; auto. apply nth_error_Some. congruence.
Qed.
Lemma chain_ends h t cs b : class_chain h t cs b ->
  (exists c, hd_error cs = Some c /\ superset_class h c = Some t) /\ (exists c, hd_error (rev cs) = Some c /\ subset_class h c = Some b).
Proof.
  intros (_ & N & _ & _ & _ & Q). split.
  - destruct cs as [|c cs]; [congruence|]. exists c. split; [reflexivity|]. apply (Q O t c); reflexivity.
  - destruct (exists_last N) as (l & c & ->). exists c. rewrite rev_app_distr. split; [reflexivity|]. apply (Q (S (List.length l)) c b).
    + change (nth_error ((l ++ [c]) ++ [b]) (List.length l) = Some c). rewrite <- app_assoc. rewrite nth_error_app2, Nat.sub_diag by lia. reflexivity.
    + change (nth_error ((l ++ [c]) ++ [b]) (S (List.length l)) = Some b). rewrite nth_error_app2; rewrite app_length; cbn; [|lia]. replace (S (List.length l) - (List.length l + 1))%nat with O by lia. reflexivity.
Qed.
Lemma joined_made h (cs : list cid) ts : Forall2 (fun c k => t_ec (tob h k) = c /\ t_super (tob h k) = superset_class h c /\ t_sub (tob h k) = subset_class h c) cs ts ->
  (forall i c d, nth_error cs i = Some c -> nth_error cs (S i) = Some d -> subset_class h c = Some d /\ superset_class h d = Some c) ->
  joined_tiers h ts /\ classes_joined h ts.
Proof.
  induction 1 as [|c k cs ts (M1 & M2 & M3) F IH]; intros Q; [split; exact I|]. destruct IH as [J1 J2]; [intros i x y Hx Hy; exact (Q (S i) x y Hx Hy)|].
  inversion F as [|d u cs' ts' (N1 & N2 & N3) F']; subst; [split; exact I|]. destruct (Q O _ _ eq_refl eq_refl) as [Q1 Q2].
  split.
  - cbn [joined_tiers]. split; [congruence|]. split; [congruence|exact J1].
  - cbn [classes_joined]. split; [exact Q1|exact J2].
Qed.
Lemma Forall2_hd {A B} (R : A -> B -> Prop) l l' x : Forall2 R l l' -> hd_error l = Some x -> exists y, hd_error l' = Some y /\ R x y.
Proof. intros F E. inversion F; subst; [discriminate|]. injection E as <-. eexists. split; [reflexivity|assumption]. Qed.
Lemma Forall2_rev' {A B} (R : A -> B -> Prop) l l' : Forall2 R l l' -> Forall2 R (rev l) (rev l').
Proof. induction 1; [constructor|]. cbn [rev]. apply Forall2_app; auto. Qed.
Lemma perm_made {A B} (R : A -> B -> Prop) l l' : Permutation l l' -> forall k, Forall2 R l k -> exists k', Permutation k k' /\ Forall2 R l' k'.
Proof.
  induction 1 as [|x l l' P IH|x y l|l1 l2 l3 P1 IH1 P2 IH2]; intros k F.
  - exists k. auto.
  - inversion F as [|? z ? k0 Q F']; subst. destruct (IH k0 F') as (k' & A1 & A2). exists (z :: k'). auto.
  - inversion F as [|? z ? k0 Q F']; subst. inversion F' as [|? z' ? k1 Q' F'']; subst. exists (z' :: z :: k1). split; [constructor|]. auto.
  - destruct (IH1 k F) as (k' & A1 & A2). destruct (IH2 k' A2) as (k2 & A3 & A4). exists k2. split; [etransitivity; eauto|exact A4].
Qed.
Lemma Forall2_combine {A B C} (R : A * B -> C -> Prop) : forall (l1 : list A) (l2 : list B) k, List.length l1 = List.length l2 -> Forall2 R (combine l1 l2) k ->
  Forall2 (fun a c => exists b, R (a, b) c) l1 k /\ Forall2 (fun b c => exists a, R (a, b) c) l2 k.
Proof.
  induction l1 as [|a l1 IH]; intros [|b l2] k L F; try discriminate; cbn [combine] in F; inversion F; subst; [split; constructor|].
  destruct (IH l2 l') as [A1 A2]; [cbn in L; lia|assumption|]. split; constructor; eauto.
Qed.

Section Rows.
Context `{Env}.

Lemma last_once {A} (l : list A) x : NoDup l -> hd_error (rev l) = Some x -> ~ In x (removelast l).
Proof.
  intros N E. destruct l as [|y l] using rev_ind; [discriminate|]. rewrite rev_app_distr in E. injection E as ->. rewrite removelast_last.
  apply NoDup_app in N. destruct N as (_ & N & _). intros I. apply elem_of_list_In in I. apply (N x I), elem_of_list_In. simpl; auto.
Qed.
Lemma group_made n h0 h lo hi ps s rs cs t b : class_table h -> class_chain h t cs b -> List.length rs = List.length cs ->
  Permutation ps (combine rs cs) -> Forall2 (imade h0 h) ps s ->
  (exists r, hd_error rs = Some r /\ raw_turns lo (rt_entries r) hi) -> raw_snug (map rt_entries rs) ->
  exists g h', new_tg n s h = Ok g h' /\ Permutation s (g_tiers (gob h' g)) /\ full_group h' cs g /\ Forall2 (read_as h') rs (g_tiers (gob h' g)) /\
    (forall k, hd_error (g_tiers (gob h' g)) = Some k -> chained h' (t_seq (tob h' k)) /\
       forall x, In x (t_seq (tob h' k)) -> s_within (sob h' x) = Some (WTier k)) /\
    h_cls h' = h_cls h /\ h_grid h' = h_grid h /\ (List.length (h_seq h) <= List.length (h_seq h'))%nat /\
    List.length (h_tier h') = List.length (h_tier h) /\ g = List.length (h_grp h) /\ List.length (h_grp h') = Datatypes.S g /\
    (forall k, glive h k -> gob h' k = gob h k) /\ (forall k, ~ In k s -> tob h' k = tob h k) /\
    (forall k, In k s -> t_seq (tob h' k) = t_seq (tob h k)) /\
    (forall i, live h i -> (forall k, In k s -> ~ In i (t_seq (tob h k))) -> sob h' i = sob h i).
Proof.
  intros T C Len P F Top Sn.
  destruct (perm_made _ _ _ P s F) as (ts & Ps & Ft). destruct (Forall2_combine _ rs cs ts Len Ft) as [Fr Fc].
  assert (Im : forall k, In k ts -> exists p, In (snd p) cs /\ imade h0 h p k).
  { intros k Hk. destruct (Forall2_in_r _ _ _ k Ft Hk) as ([r c] & Hp & M). exists (r, c). split; [apply in_combine_r in Hp; exact Hp|exact M]. }
  assert (Cs : map (fun k => t_ec (tob h k)) ts = cs).
  { clear -Fc. induction Fc as [|c k cs ts (r & _ & _ & M & _) F IH]; [reflexivity|]. cbn [map]. rewrite IH, M. reflexivity. }
  pose proof C as (Nc & Ne & Kt & Kb & Ki & _).
  assert (Kp : forall c, In c cs -> issubclass h c cPoint = false /\ issubclass h c cTop = false /\ issubclass h c cBottom = false).
  { intros c Hc. specialize (Ki c Hc). split; [|split]; apply (kinds_apart h c cInterval); simpl; auto; try discriminate. }
  assert (Fj : Forall2 (fun c k => t_ec (tob h k) = c /\ t_super (tob h k) = superset_class h c /\ t_sub (tob h k) = subset_class h c) cs ts).
  { eapply Forall2_impl; [exact Fc|]. intros c k (r & _ & _ & M3 & _ & M5 & M6 & _). auto. }
  destruct (joined_made h cs ts Fj (chain_nth h t cs b C)) as [J1 J2].
  destruct (chain_ends h t cs b C) as [(c1 & Hc1 & Sc1) (c2 & Hc2 & Sc2)].
  assert (Tc : tier_chain h ts).
  { split; [exact J1|]. split; [rewrite Cs; exact Nc|]. split; [|split].
    - intros k Hk. destruct (Im k Hk) as (p & Hp & _ & M2 & M3 & _). rewrite M3. split; [exact M2|]. apply Kp in Hp. tauto.
    - destruct (Forall2_hd _ _ _ c1 Fj Hc1) as (k & Hk & M1 & M2 & M3). exists k. split; [exact Hk|]. exists t. split; [congruence|exact Kt].
    - destruct (Forall2_hd _ _ _ c2 (Forall2_rev' _ _ _ Fj) Hc2) as (k & Hk & M1 & M2 & M3). exists k. split; [exact Hk|]. exists b. split; [congruence|exact Kb]. }
  assert (Fit : forall k, In k ts -> fit_tier h k).
  { intros k Hk. destruct (Im k Hk) as (p & Hp & _ & M2 & M3 & _ & _ & _ & _ & _ & M9 & M10 & _). rewrite <- M3 in Hp. split; [|split].
    - split; [exact M9|]. intros x Hx. destruct (M10 x Hx) as (_ & L1 & L2 & L3 & _). split; [exact L1|]. split; [congruence|exact L3].
    - apply Kp, Hp.
    - intros x Hx q Q. destruct (M10 x Hx) as (_ & _ & _ & _ & L & _). congruence. }
  assert (Fe : Forall2 (fun r k => Forall2 (stands_for h) r (t_seq (tob h k))) (map rt_entries rs) ts).
  { clear -Fr. induction Fr as [|r k rs ts (c & _ & _ & _ & _ & _ & _ & M & _) F IH]; [constructor|]. cbn [map]. constructor; [exact M|exact IH]. }
  destruct (snug_made h _ ts Fe) as (bss & Sg); [destruct Top as (r & Q & _); destruct rs; discriminate|exact Sn|].
  assert (Tt : forall k, hd_error ts = Some k -> in_turn h (t_seq (tob h k)) /\ forall x, In x (t_seq (tob h k)) -> dated h x).
  { intros k Hk. destruct Top as (r & Hr & Q). destruct (Forall2_hd _ _ _ (rt_entries r) Fe) as (k' & Hk' & M); [destruct rs; [discriminate|injection Hr as ->; reflexivity]|].
    assert (k' = k) by congruence. subst k'. destruct (turns_made h _ _ M lo hi Q) as [Ti D]. split; [exact Ti|]. intros x Hx. apply (D x Hx). }
  destruct (c49_new n h s ts bss Ps Tc J2 Fit Sg Tt) as (g & h' & E & Gd & (R1 & R2 & R3 & R4 & R5 & R6 & R7 & R8 & R9 & R10) & Eg & Lg & Go & Um).
  assert (Gt : g_tiers (gob h' g) = ts) by apply Gd.
  assert (Sq : forall k, t_seq (tob h' k) = t_seq (tob h k) /\ t_ec (tob h' k) = t_ec (tob h k) /\ t_name (tob h' k) = t_name (tob h k)).
  { intros k. destruct (in_dec Nat.eq_dec k ts) as [Hk|Hk]; [rewrite R9 by exact Hk|rewrite R8 by exact Hk]; auto. }
  assert (Xs : forall k x, In k ts -> In x (t_seq (tob h k)) -> live h x /\ s_label (sob h x) <> "#"%string /\ s_super (sob h x) = None /\ s_subset (sob h x) = [] /\ s_intier (sob h x) = Some k).
  { intros k x Hk Hx. destruct (Im k Hk) as (p & _ & M). destruct M as (_ & _ & _ & _ & _ & _ & _ & _ & _ & M & _). destruct (M x Hx) as (_ & Q1 & Q2 & Q3). auto. }
  assert (Old : forall i, live h i -> (forall k, In k ts -> ~ In i (t_seq (tob h k))) -> sob h' i = sob h i).
  { intros i Li Ni. apply R2; [exact Li|]. intros (k & x & Hk & Hx & [->|(q & Q & _)]); [exact (Ni k Hk Hx)|]. destruct (Xs k x Hk Hx) as (_ & _ & Q2 & _). congruence. }
  assert (Nt : NoDup ts).
  { apply (NoDup_fmap_1 (fun k => t_ec (tob h k))). change (NoDup (map (fun k => t_ec (tob h k)) ts)). rewrite Cs. exact Nc. }
  exists g, h'. rewrite Gt. split; [exact E|]. split; [exact Ps|]. split; [|split; [|split]].
  - split; [|split].
    + rewrite Gt. rewrite (map_ext _ (fun k => t_ec (tob h k))) by (intros k; apply Sq). exact Cs.
    + exists bss. rewrite Gt. exact Gd.
    + rewrite Gt. intros k x Hk Hx. assert (Ik : In k ts) by (apply in_rev; destruct (rev ts); [discriminate|injection Hk as ->; simpl; auto]).
      destruct (Sq k) as (Q & _). rewrite Q in Hx. destruct (Xs k x Ik Hx) as (Q1 & Q2 & Q3 & Q4 & Q5). rewrite R10; [exact Q4|exact Q1| |].
      * intros u Hu Hx2. destruct (Xs u x (in_removelast u ts Hu) Hx2) as (_ & _ & _ & _ & Q6). assert (u = k) by congruence. subst u. exact (last_once ts k Nt Hk Hu).
      * intros u y Hu Hy. destruct (Xs u y Hu Hy) as (_ & _ & Q6 & _). congruence.
  - assert (Fr' : Forall2 (fun r k => exists c, imade h0 h (r, c) k /\ In k ts) rs ts).
    { eapply Forall2_weaken; [exact Fr|]. intros r k _ Hk (c & M). eauto. }
    eapply Forall2_impl; [exact Fr'|]. intros r k (c & M & Hk). destruct M as (_ & _ & M3 & M4 & M5 & M6 & M7 & _ & _ & M10 & _ & M12). destruct (Sq k) as (Q1 & _ & Q3).
    split; [rewrite Q3; exact M4|]. rewrite Q1. split; [|split; [split|]].
    + eapply Forall2_weaken; [exact M7|]. intros e x _ Hx Sx. destruct (R1 x) as (_ & V1 & V2 & V3 & _); [apply (M10 x Hx)|]. unfold stands_for in *. congruence.
    + unfold classed in *. rewrite R9 by exact Hk. exact M12.
    + rewrite Q1. intros x Hx. destruct (M10 x Hx) as (_ & L & _ & _ & _ & _ & Q). destruct (R1 x L) as (_ & _ & _ & _ & V). congruence.
    + unfold up_to_date, superset_class, subset_class, cob. rewrite R9, R5 by exact Hk. cbn [t_super t_sub t_ec set_t_within]. rewrite M3. split; [exact M5|exact M6].
  - intros k Hk. assert (Ik : In k ts) by (destruct ts; [discriminate|injection Hk as ->; simpl; auto]). destruct (Sq k) as (Q1 & _). rewrite Q1.
    assert (U : forall x, In x (t_seq (tob h k)) -> unmoved (sob h x) (sob h' x)) by (intros x Hx; apply (Um k x Hk Hx), (Xs k x Ik Hx)).
    assert (Bd : forall y, is_boundary h y -> is_boundary h' y).
    { intros y By. pose proof By as (L & Q2 & Q3). split; [lia|]. rewrite Old; [split; auto|exact L|]. intros u Hu Hy. apply (Xs u y Hu Hy). exact Q2. }
    destruct (Forall2_in_r _ _ _ k Fj Ik) as (c & _ & M3 & M4 & M5).
    destruct (Im k Ik) as (p & _ & M). destruct M as (_ & _ & Mec & _ & Msup & _ & _ & M8 & _ & M10 & M11 & _). split.
    + destruct M8 as (C1 & C2 & C3). split; [|split].
      * intros i x y Hx Hy. destruct (U x) as (_ & _ & U1); [eapply nth_error_In; eauto|]. destruct (U y) as (_ & U2 & _); [eapply nth_error_In; eauto|]. rewrite U1, U2. eapply C1; eauto.
      * intros x Hx. destruct (U x) as (_ & U2 & _); [eapply nth_error_In; eauto|]. rewrite U2. destruct (C2 x Hx) as (y & Q2 & Q3). eauto.
      * intros x Hx. destruct (U x) as (_ & _ & U2); [eapply nth_error_In; eauto|]. rewrite U2. destruct (C3 x Hx) as (y & Q2 & Q3). eauto.
    + intros x Hx. destruct (U x Hx) as (U1 & _). rewrite U1. destruct Tc as (_ & _ & _ & (k' & Hk' & sc & St & Sx) & _). assert (k' = k) by congruence. subst k'.
      apply (M11 sc); [congruence|exact Sx|exact Hx].
  - split; [exact R5|]. split; [exact R6|]. split; [exact R3|]. split; [exact R7|]. split; [exact Eg|]. split; [exact Lg|].
    split; [intros k Hk; apply Go; unfold glive in Hk; lia|]. split; [intros k Hk; apply R8; intros Q; apply Hk; apply (Permutation_in k (Permutation_sym Ps) Q)|].
    split; [intros k _; apply Sq|]. intros i Li Ni. apply Old; [exact Li|]. intros k Hk. apply Ni. apply (Permutation_in k (Permutation_sym Ps) Hk).
Qed.
Lemma pgroup_made h0 h ps q : Forall2 (pmade h0 h) ps q -> q <> [] -> NoDup q ->
  exists g h', new_pg q h = Ok g h' /\ g_points (gob h' g) = true /\ g_tiers (gob h' g) = q /\ contains_of h' (WGroup g) = Some q /\
    h_cls h' = h_cls h /\ h_grid h' = h_grid h /\ h_seq h' = h_seq h /\
    List.length (h_tier h') = List.length (h_tier h) /\ g = List.length (h_grp h) /\ List.length (h_grp h') = S g /\
    (forall k, glive h k -> gob h' k = gob h k) /\ (forall k, ~ In k q -> tob h' k = tob h k) /\
    (forall k, In k q -> tob h' k = set_t_within (Some (WGroup g)) (tob h k)).
Proof.
  intros F Ne Nd. set (g := List.length (h_grp h)).
  set (h1 := Heap (h_cls h) (h_seq h) (h_tier h) (h_grp h ++ [blank_grp true]) (h_grid h)).
  assert (Lg : glive h1 g) by (unfold glive, h1, g; simpl; rewrite app_length; simpl; lia).
  set (h2 := upd_grp g (set_g_contains CAlias) (upd_grp g (set_g_tiers q) h1)).
  assert (Tl : forall k, In k q -> tlive h k) by (intros k Hk; destruct (Forall2_in_r _ _ _ k F Hk) as (p & _ & _ & M & _); exact M).
  assert (W : forall l hh, NoDup l -> (forall k, In k l -> tlive hh k) -> exists h', forM l (fun t => mod_tier t (set_t_within (Some (WGroup g)))) hh = Ok tt h' /\
     h_cls h' = h_cls hh /\ h_grid h' = h_grid hh /\ h_seq h' = h_seq hh /\ h_grp h' = h_grp hh /\ List.length (h_tier h') = List.length (h_tier hh) /\
     (forall k, ~ In k l -> tob h' k = tob hh k) /\ (forall k, In k l -> tob h' k = set_t_within (Some (WGroup g)) (tob hh k))).
  { clear. induction l as [|k l IH]; intros hh N L; [exists hh; split; [reflexivity|]; repeat (split; [reflexivity|]); intros k []|].
    apply NoDup_cons in N. destruct N as [N1 N2]. rewrite elem_of_list_In in N1. set (hk := upd_tier k (set_t_within (Some (WGroup g))) hh).
    destruct (IH hk N2) as (h' & E & A1 & A2 & A3 & A4 & A5 & A6 & A7); [intros u Hu; unfold hk; rewrite tlive_upd; apply L; simpl; auto|].
    exists h'. split; [cbn [forM]; rewrite (bind_ok _ _ _ tt hk) by reflexivity; exact E|]. split; [exact A1|]. split; [exact A2|]. split; [exact A3|]. split; [exact A4|].
    split; [rewrite A5; unfold hk; apply len_upd_tier|]. split.
    - intros u Hu. rewrite A6 by (simpl in Hu; tauto). unfold hk. apply tob_upd_ne. simpl in Hu. intuition congruence.
    - intros u [<-|Hu]; [rewrite A6 by exact N1; unfold hk; apply tob_upd_eq, L; simpl; auto|]. rewrite A7 by exact Hu. unfold hk. rewrite tob_upd_ne; [reflexivity|]. intros ->. contradiction. }
  destruct (W q h2 Nd) as (h3 & E3 & A1 & A2 & A3 & A4 & A5 & A6 & A7); [intros k Hk; exact (Tl k Hk)|].
  assert (G2 : gob h2 g = set_g_contains CAlias (set_g_tiers q (blank_grp true))).
  { unfold h2. rewrite gob_upd_eq by (unfold glive; rewrite len_upd_grp; exact Lg). rewrite gob_upd_eq by exact Lg. unfold gob, h1, g. simpl. rewrite lookup_app_r, Nat.sub_diag by lia. reflexivity. }
  assert (G3 : gob h3 g = gob h2 g) by (unfold gob; rewrite A4; reflexivity).
  assert (Mk : exists m, make_name g h3 = Ok m h3).
  { unfold make_name. rewrite G3, G2. cbn. destruct q as [|k q]; [congruence|]. cbn [map].
    match goal with |- context[if ?b then _ else _] => destruct b end; eauto. }
  destruct Mk as [m Mk]. set (h4 := upd_grp g (set_g_name m) h3).
  assert (Lg3 : glive h3 g) by (unfold glive; rewrite A4; unfold h2; rewrite !len_upd_grp; exact Lg).
  assert (G4 : gob h4 g = set_g_name m (set_g_contains CAlias (set_g_tiers q (blank_grp true)))) by (unfold h4; rewrite gob_upd_eq by exact Lg3; rewrite G3, G2; reflexivity).
  exists g, h4. split.
  { change (new_pg q h) with (match pg_init g q h1 with Ok _ h1 => Ok g h1 | Raise e h1 => Raise e h1 end). unfold pg_init.
    rewrite (bind_ok _ _ _ tt (upd_grp g (set_g_tiers q) h1)) by reflexivity. rewrite (bind_ok _ _ _ tt h2) by reflexivity. rewrite (bind_ok _ _ _ _ _ E3).
    rewrite (bind_ok _ _ _ _ _ Mk). reflexivity. }
  split; [rewrite G4; reflexivity|]. split; [rewrite G4; reflexivity|]. split; [cbn [contains_of]; rewrite G4; reflexivity|].
  split; [exact A1|]. split; [exact A2|]. split; [exact A3|]. split; [exact A5|]. split; [reflexivity|].
  split; [unfold h4; rewrite len_upd_grp, A4; unfold h2; rewrite !len_upd_grp; unfold h1, g; simpl; rewrite app_length; simpl; lia|].
  split; [|split; [exact A6|exact A7]]. intros k Hk. assert (Nk : k <> g) by (unfold glive in Hk; unfold g; lia).
  unfold h4. rewrite gob_upd_ne by exact Nk. unfold gob at 1. rewrite A4. fold (gob h2 k). unfold h2. rewrite !gob_upd_ne by exact Nk. unfold gob, h1. simpl. rewrite lookup_app_l by exact Hk. reflexivity.
Qed.
End Rows.

(** ** What has been read stays so *)
Lemma chain_cls h h' t cs b : h_cls h' = h_cls h -> class_chain h t cs b -> class_chain h' t cs b.
Proof.
  intros E (A1 & A2 & A3 & A4 & A5 & A6). split; [exact A1|]. split; [exact A2|]. rewrite !(cls_sub h h') by exact E.
  split; [exact A3|]. split; [exact A4|]. split; [intros c Hc; rewrite (cls_sub h h') by exact E; auto|].
  intros i c d Hc Hd. destruct (A6 i c d Hc Hd) as [Q1 Q2]. unfold subset_class, superset_class, cob in *. rewrite E. auto.
Qed.
Lemma unrelated_cls h h' l : h_cls h' = h_cls h -> unrelated h l -> unrelated h' l.
Proof. intros E U c d Hc Hd. rewrite (cls_sub h h') by exact E. apply U; auto. Qed.
Lemma joined_cls h h' ts : h_cls h' = h_cls h -> (forall k, In k ts -> t_ec (tob h' k) = t_ec (tob h k)) -> classes_joined h ts -> classes_joined h' ts.
Proof.
  intros E. induction ts as [|k ts IH]; intros Q C; [exact I|]. destruct ts as [|u r]; [exact I|]. destruct C as [C1 C2].
  split; [|apply IH; [intros x Hx; apply Q; right; exact Hx|exact C2]]. rewrite !Q by (simpl; auto). unfold subset_class, cob in *. rewrite E. exact C1.
Qed.
Record undisturbed (h h' : heap) (g : gid) : Prop := {
  ud_cls : h_cls h' = h_cls h;
  ud_seq : (List.length (h_seq h) <= List.length (h_seq h'))%nat;
  ud_tier : (List.length (h_tier h) <= List.length (h_tier h'))%nat;
  ud_live : (g < List.length (h_grp h'))%nat;
  ud_grp : g_points (gob h' g) = g_points (gob h g) /\ g_tiers (gob h' g) = g_tiers (gob h g) /\ g_contains (gob h' g) = g_contains (gob h g);
  ud_tiers : forall k, In k (g_tiers (gob h g)) -> tob h' k = tob h k;
  ud_sob : forall k x, In k (g_tiers (gob h g)) -> In x (t_seq (tob h k)) -> sob h' x = sob h x;
  ud_bd : forall k, is_boundary h k -> is_boundary h' k
}.
Lemma chained_move h h' l : (forall x, In x l -> sob h' x = sob h x) -> (forall k, is_boundary h k -> is_boundary h' k) -> chained h l -> chained h' l.
Proof.
  intros S B (C1 & C2 & C3). split; [|split].
  - intros i a b Ha Hb. rewrite !S by (eapply nth_error_In; eauto). eapply C1; eauto.
  - intros a Ha. destruct (C2 a Ha) as (k & Q1 & Q2). exists k. rewrite S by (eapply nth_error_In; eauto). auto.
  - intros a Ha. destruct (C3 a Ha) as (k & Q1 & Q2). exists k. rewrite S by (eapply nth_error_In; eauto). auto.
Qed.
Lemma read_group_later lo hi f h0 h h' ps g : undisturbed h h' g -> read_group lo hi f h0 h ps g -> read_group lo hi f h0 h' ps g.
Proof.
  intros [U1 U2 U3 U4 (U5 & U6 & U7) U8 U9 U10] (cs & rs & t & b & N & C & Un & (F1 & (bss & F2) & F3) & R & Tp). exists cs, rs, t, b.
  split; [exact N|]. split; [apply (chain_cls h); auto|]. split; [apply (unrelated_cls h); auto|].
  assert (Ec : forall k, In k (g_tiers (gob h g)) -> t_ec (tob h' k) = t_ec (tob h k)) by (intros k Hk; rewrite U8 by exact Hk; reflexivity).
  unfold full_group. rewrite U6. split; [|split].
  - split; [rewrite (map_ext_in _ (fun k => t_ec (tob h k))) by exact Ec; exact F1|]. split.
    + exists bss. apply (good_grow h h'); auto.
      * intros k x Hk Hx. rewrite (U9 k x Hk Hx). split; [unfold kept; auto 10|auto].
      * intros k x Hk Hx. rewrite (U9 k x (in_removelast _ _ Hk) Hx). reflexivity.
      * intros x y. apply cls_sub, U1.
      * apply (joined_cls h); auto. apply F2.
    + intros k x Hk Hx. assert (Ik : In k (g_tiers (gob h g))) by (apply in_rev; destruct (rev (g_tiers (gob h g))); [discriminate|injection Hk as ->; simpl; auto]).
      rewrite U8 in Hx by exact Ik. rewrite (U9 k x Ik Hx). eapply F3; eauto.
  - eapply Forall2_weaken; [exact R|]. intros r k _ Hk (R1 & R2 & (R3 & R4) & R5). unfold read_as, housed, classed, up_to_date, superset_class, subset_class, cob. rewrite U8, U1 by exact Hk. split; [exact R1|]. split; [|split; [split; [exact R3|]|exact R5]].
    + eapply Forall2_weaken; [exact R2|]. intros e x _ Hx. apply stands_same, (U9 k x Hk Hx).
    + intros x Hx. rewrite (U9 k x Hk Hx). auto.
  - intros k Hk. assert (Ik : In k (g_tiers (gob h g))) by (destruct (g_tiers (gob h g)); [discriminate|injection Hk as ->; simpl; auto]).
    rewrite U8 by exact Ik. destruct (Tp k Hk) as [T1 T2]. split; [apply (chained_move h); auto; intros x Hx; apply (U9 k x Ik Hx)|].
    intros x Hx. rewrite (U9 k x Ik Hx). auto.
Qed.
Lemma read_pgroup_later f h h' ps g : (forall p, In p ps -> raw_points (rt_entries (fst p))) -> undisturbed h h' g -> read_pgroup f h ps g -> read_pgroup f h' ps g.
Proof.
  intros Rp [U1 U2 U3 U4 (U5 & U6 & U7) U8 U9 U10] (P1 & P2 & P3 & P4). split; [exact U4|]. split; [congruence|].
  split; [cbn [contains_of] in *; rewrite U6, U7; exact P3|]. rewrite U6. eapply Forall2_weaken; [exact P4|].
  intros p k Hp Hk (R1 & R2 & R3 & R4 & R5 & R6 & R7 & R8). unfold read_points. rewrite U8 by exact Hk.
  assert (Mk : map (mark_of h') (t_seq (tob h k)) = map (mark_of h) (t_seq (tob h k))).
  { apply map_ext_in. intros x Hx. unfold mark_of. rewrite (U9 k x Hk Hx). reflexivity. }
  assert (Me : map (mark h') (rt_entries (fst p)) = map (mark h) (rt_entries (fst p))).
  { apply marks_same; [reflexivity|]. intros e He. destruct (Rp p Hp e He) as (z & x & -> & _). exact I. }
  rewrite Mk, Me. split; [exact R1|]. split; [exact R2|]. split; [exact R3|]. split; [exact R4|]. split; [exact R5|].
  split; [eapply sorted_ext; [|exact R6]; intros x Hx; rewrite (U9 k x Hk Hx); reflexivity|].
  split; [apply (chained_move h); auto; intros x Hx; apply (U9 k x Hk Hx)|].
  intros x Hx. rewrite (U9 k x Hk Hx). auto.
Qed.
(** The groups [gs] are there, and so are their tiers and entries. *)
Definition whole_groups (h : heap) (gs : list gid) : Prop :=
  forall g, In g gs -> glive h g /\ forall k, In k (g_tiers (gob h g)) -> tlive h k /\ NoDup (t_seq (tob h k)) /\
    forall x, In x (t_seq (tob h k)) -> live h x /\ s_intier (sob h x) = Some k.
Lemma aged_undisturbed h h' gs : aged h h' -> whole_groups h gs -> forall g, In g gs -> undisturbed h h' g.
Proof.
  intros A W g Hg. pose proof A as (A1 & A3 & A4 & A5 & A6 & A7 & A8). destruct (W g Hg) as [W1 W2].
  constructor; auto; [unfold glive in W1; lia|intros k Hk; apply A7, W2, Hk|intros k x Hk Hx; apply A6; apply (W2 k Hk), Hx|].
  intros k. apply aged_boundary, A.
Qed.
Lemma whole_aged h h' gs : aged h h' -> whole_groups h gs -> whole_groups h' gs.
Proof.
  intros A W g Hg. destruct (aged_undisturbed h h' gs A W g Hg) as [U1 U2 U3 U4 (U5 & U6 & U7) U8 U9 U10]. destruct (W g Hg) as [W1 W2]. split; [exact U4|].
  intros k Hk. rewrite U6 in Hk. destruct (W2 k Hk) as (Q1 & Q2 & Q3). rewrite U8 by exact Hk. split; [unfold tlive in *; lia|]. split; [exact Q2|].
  intros x Hx. rewrite (U9 k x Hk Hx). destruct (Q3 x Hx) as [L I]. split; [unfold live in *; lia|exact I].
Qed.
Lemma read_rows_aged lo hi f h0 h h' rows css gs : aged h h' ->
  (forall row ocs p, In (row, ocs) (combine rows css) -> In p (point_part h0 row ocs) -> raw_points (rt_entries (fst p))) ->
  whole_groups h gs -> read_rows lo hi f h0 h rows css gs -> read_rows lo hi f h0 h' rows css gs.
Proof.
  intros A. intros Rp W R. revert Rp W. induction R as [|row ocs gs rows css gs' (g1 & g2 & -> & R1 & R2) R IH]; intros Rp W; [constructor|].
  assert (Ud : forall g, In g (g1 ++ g2)%list -> undisturbed h h' g).
  { intros g Hg. apply (aged_undisturbed h h' _ A W). apply in_app_iff. auto. }
  constructor.
  - exists g1, g2. split; [reflexivity|]. split.
    + destruct R1 as [R1|(g & -> & R1)]; [left; exact R1|right]. exists g. split; [reflexivity|]. eapply read_group_later; [|exact R1]. apply Ud. simpl; auto.
    + destruct R2 as [R2|(R2n & g & -> & R2)]; [left; exact R2|right]. split; [exact R2n|]. exists g. split; [reflexivity|]. eapply read_pgroup_later; [| |exact R2].
      * intros p Hp. apply (Rp row ocs); [simpl; auto|exact Hp].
      * apply Ud. apply in_app_iff. simpl; auto.
  - apply IH; [intros r o p Hr; apply Rp; simpl; auto|]. intros g Hg. apply W. apply in_app_iff. auto.
Qed.

Section Row.
Context `{Env}.

Definition pm (f : cid -> cid) (p : rawtier * cid) : rawtier * cid := (fst p, f (snd p)).
Lemma combine_pm (f : cid -> cid) : forall (l : list rawtier) (cs : list cid), combine l (map f cs) = map (pm f) (combine l cs).
Proof. induction l as [|r l IH]; intros [|c cs]; try reflexivity. cbn [combine map]. rewrite IH. reflexivity. Qed.
Lemma filter_pm (f : cid -> cid) (p q : rawtier * cid -> bool) l : (forall x, In x l -> p (pm f x) = q x) -> List.filter p (map (pm f) l) = map (pm f) (List.filter q l).
Proof.
  induction l as [|x l IH]; intros Q; [reflexivity|]. cbn [map List.filter]. rewrite (Q x) by (simpl; auto). rewrite IH by (intros y Hy; apply Q; simpl; auto).
  destruct (q x); reflexivity.
Qed.
Lemma unmap2 {A B C} (g : A -> B) (R : B -> C -> Prop) l k : Forall2 R (map g l) k -> Forall2 (fun a c => R (g a) c) l k.
Proof. revert k. induction l as [|a l IH]; intros k F; cbn [map] in F; inversion F; subst; constructor; auto. Qed.
(** The classes given, [flat], have their counterparts in [h1] by way of [f]. *)
Record renamed (flat : list cid) (f : cid -> cid) (h h1 : heap) : Prop := {
  rn_old : class_table h;
  rn_new : class_table h1;
  rn_point : forall c, In c flat -> lone_point h c -> lone_point h1 (f c);
  rn_chain : forall t cs b, class_chain h t cs b -> incl cs flat ->
    exists t' b', class_chain h1 t' (map f cs) b' /\ unrelated h1 (t' :: map f cs ++ [b'])
}.
Lemma renamed_cls flat f h h1 h2 : h_cls h2 = h_cls h1 -> renamed flat f h h1 -> renamed flat f h h2.
Proof.
  intros E [R1 R2 R3 R4]. constructor.
  - exact R1.
  - unfold class_table, cob in *. rewrite E. exact R2.
  - intros c Hc L. destruct (R3 c Hc L) as [Q1 Q2]. split; [rewrite (cls_sub h1 h2) by exact E; exact Q1|]. unfold superset_class, cob in *. rewrite E. exact Q2.
  - intros t cs b C I. destruct (R4 t cs b C I) as (t' & b' & Q1 & Q2). exists t', b'. split; [apply (chain_cls h1); auto|apply (unrelated_cls h1); auto].
Qed.
Lemma nested_in h lo hi ps cs rs : nested_as h lo hi ps cs rs -> (forall c, In c cs -> exists r, In (r, c) ps) /\ (forall p, In p ps -> In (snd p) cs /\ raw_turns lo (rt_entries (fst p)) hi).
Proof.
  intros (_ & _ & L & P & (r0 & Hr & Tl) & Sn). split.
  - intros c Hc. apply In_nth_error in Hc. destruct Hc as [i Hi]. destruct (nth_error rs i) as [r|] eqn:Er.
    + exists r. apply (Permutation_in _ (Permutation_sym P)). clear -Hi Er. revert cs i Hi Er. induction rs as [|x rs IH]; intros [|y cs] [|i] Hi Er; try discriminate; cbn in *.
      * injection Hi as ->. injection Er as ->. auto.
      * right. eapply IH; eauto.
    + exfalso. apply nth_error_None in Er. assert (i < List.length cs)%nat by (apply nth_error_Some; congruence). lia.
  - intros [r c] Hp. apply (Permutation_in _ P) in Hp. split; [apply in_combine_r in Hp; exact Hp|]. cbn [fst]. apply in_combine_l in Hp.
    apply (raw_all (map rt_entries rs)); [|exact Sn|apply in_map, Hp]. exists (rt_entries r0). split; [destruct rs; [discriminate|injection Hr as ->; reflexivity]|exact Tl].
Qed.
Lemma row_made n lo hi flat f h h1 row ocs : renamed flat f h h1 -> readable h lo hi row ocs -> incl ocs flat ->
  exists s q g1 g2 ha hb h2, build_tiers (combine row (map f ocs)) h1 = Ok (s, q) ha /\
    (match s with [] => ret [] | l => g <- new_tg n l ;; ret [g] end) ha = Ok g1 hb /\
    (match q with [] => ret [] | l => g <- new_pg l ;; ret [g] end) hb = Ok g2 h2 /\
    grown h1 h2 /\ read_row lo hi f h h2 row ocs (g1 ++ g2) /\ whole_groups h2 (g1 ++ g2) /\
    NoDup (g1 ++ g2)%list /\ (forall g, In g (g1 ++ g2)%list -> (List.length (h_grp h1) <= g)%nat) /\
    NoDup (flat_map (tiers_in h2) (g1 ++ g2)) /\ (forall k, In k (flat_map (tiers_in h2) (g1 ++ g2)) -> (List.length (h_tier h1) <= k)%nat /\ forall x, In x (t_seq (tob h2 k)) -> (List.length (h_seq h1) <= x)%nat).
Proof.
  intros Rn (Len & Kd & Iv & Pt) If. pose proof Rn as [T T1 Rp Rc].
  assert (Kf : forall p, In p (combine row ocs) -> buildable h1 (pm f p) /\ issubclass h1 (f (snd p)) cInterval = issubclass h (snd p) cInterval /\
     issubclass h1 (f (snd p)) cPoint = issubclass h (snd p) cPoint).
  { intros [r c] Hp. pose proof (in_combine_r _ _ _ _ Hp) as Hc. cbn [snd]. destruct (Kd c Hc) as [L|Ic].
    - pose proof (Rp c (If c Hc) L) as L1. destruct L as [P1 _]. destruct L1 as [P2 _].
      assert (I1 : issubclass h c cInterval = false) by (apply (kinds_apart h c cPoint cInterval T); simpl; auto; try discriminate).
      assert (I2 : issubclass h1 (f c) cInterval = false) by (apply (kinds_apart h1 (f c) cPoint cInterval T1); simpl; auto; try discriminate).
      split; [|split; congruence]. left. split; [exact P2|]. split; [exact I2|]. cbn [pm fst]. apply (Pt (r, c)). apply filter_In. split; [exact Hp|exact P1].
    - assert (Hi : In (r, c) (interval_part h row ocs)) by (apply filter_In; split; [exact Hp|exact Ic]).
      destruct Iv as [Iv|(cs & rs & Iv)]; [rewrite Iv in Hi; destruct Hi|]. destruct (nested_in _ _ _ _ _ _ Iv) as [N1 N2]. destruct (N2 _ Hi) as [N3 N4]. cbn [snd fst] in *.
      destruct Iv as ((t & b & C) & _).
      assert (Icf : incl cs flat).
      { intros d Hd. destruct (N1 d Hd) as (r' & Hr). apply filter_In in Hr. destruct Hr as [Hr _]. apply If. eapply in_combine_r; exact Hr. }
      destruct (Rc t cs b C Icf) as (t' & b' & C' & _).
      assert (If1 : issubclass h1 (f c) cInterval = true) by (apply C'; apply in_map; exact N3).
      assert (Pf1 : issubclass h1 (f c) cPoint = false) by (apply (kinds_apart h1 (f c) cInterval cPoint T1); simpl; auto; try discriminate).
      assert (Pc : issubclass h c cPoint = false) by (apply (kinds_apart h c cInterval cPoint T); simpl; auto; try discriminate).
      split; [|split; congruence]. right. cbn [pm fst snd]. split; [exact Pf1|]. split; [exact If1|]. split; [|eauto].
      apply in_split in N3. destruct N3 as (l1 & l2 & El). eexists. apply (chain_super h1 t' (map f cs) b' (map f l1) (f c) (map f l2) C'). rewrite El, map_app. reflexivity. }
  rewrite combine_pm.
  destruct (build_all (map (pm f) (combine row ocs)) h1) as (s & q & ha & E1 & G1 & F1 & F2 & Nd).
  { intros p Hp. apply in_map_iff in Hp. destruct Hp as (p0 & <- & Hp). apply Kf, Hp. }
  rewrite (filter_pm f _ (fun p => issubclass h (snd p) cInterval)) in F1 by (intros x Hx; apply Kf, Hx). fold (interval_part h row ocs) in F1.
  rewrite (filter_pm f _ (fun p => issubclass h (snd p) cPoint)) in F2 by (intros x Hx; apply Kf, Hx). fold (point_part h row ocs) in F2.
  pose proof G1 as (Ga1 & Ga2 & Ga3 & Ga4 & Ga5 & Ga6 & Ga7 & Ga8).
  assert (Im : forall k, In k s -> exists p, imade h1 ha p k) by (intros k Hk; destruct (Forall2_in_r _ _ _ k F1 Hk) as (p & _ & M); eauto).
  assert (Pm : forall k, In k q -> exists p, pmade h1 ha p k) by (intros k Hk; destruct (Forall2_in_r _ _ _ k F2 Hk) as (p & _ & M); eauto).
  pose proof Nd as Nd'. apply NoDup_app in Nd'. destruct Nd' as (Ns & Nsq & Nq).
  assert (Dj : forall k, In k s -> ~ In k q) by (intros k Hk Hq; apply (Nsq k); apply elem_of_list_In; auto).
  (* the interval tiers *)
  assert (Mid : exists g1 hb, (match s with [] => ret [] | l => g <- new_tg n l ;; ret [g] end) ha = Ok g1 hb /\
     h_cls hb = h_cls ha /\ h_grid hb = h_grid ha /\ (List.length (h_seq ha) <= List.length (h_seq hb))%nat /\ List.length (h_tier hb) = List.length (h_tier ha) /\
     (List.length (h_grp ha) <= List.length (h_grp hb))%nat /\ (forall k, glive ha k -> gob hb k = gob ha k) /\ (forall k, ~ In k s -> tob hb k = tob ha k) /\
     (forall i, live ha i -> (forall k, In k s -> ~ In i (t_seq (tob ha k))) -> sob hb i = sob ha i) /\
     (interval_part h row ocs = [] /\ g1 = [] \/ exists g, g1 = [g] /\ g = List.length (h_grp ha) /\ Permutation s (g_tiers (gob hb g)) /\
        (forall k, In k s -> t_seq (tob hb k) = t_seq (tob ha k) /\ forall x, In x (t_seq (tob ha k)) -> live hb x /\ s_intier (sob hb x) = Some k) /\
        read_group lo hi f h hb (interval_part h row ocs) g)).
  { destruct Iv as [Iv|(cs & rs & Iv)].
    - rewrite Iv in F1. inversion F1; subst. exists [], ha. split; [reflexivity|]. repeat (split; [first [reflexivity|lia|auto]|]). left. auto.
    - pose proof (nested_in _ _ _ _ _ _ Iv) as [N1 N2]. pose proof Iv as ((t & b & C) & Pl & Lr & Pr & Tp & Sn).
      assert (Icf : incl cs flat).
      { intros d Hd. destruct (N1 d Hd) as (r' & Hr). apply filter_In in Hr. destruct Hr as [Hr _]. apply If. eapply in_combine_r; exact Hr. }
      destruct (Rc t cs b C Icf) as (t' & b' & C' & Un).
      assert (Ta : class_table ha) by (unfold class_table, cob in *; rewrite Ga1; exact T1).
      assert (Ca : class_chain ha t' (map f cs) b') by (apply (chain_cls h1); auto).
      destruct (group_made n h1 ha lo hi (map (pm f) (interval_part h row ocs)) s rs (map f cs) t' b' Ta Ca) as
        (g & hb & E & Ps & Fg & Ra & Tc & H1 & H2 & H3 & H4 & H5 & H6 & H7 & H8 & H9 & H10).
      { rewrite map_length. exact Lr. }
      { rewrite combine_pm. apply Permutation_map, Pr. }
      { exact F1. }
      { exact Tp. }
      { exact Sn. }
      exists [g], hb. split.
      { destruct s as [|k s]; [|rewrite (bind_ok _ _ _ _ _ E); reflexivity]. exfalso. apply Permutation_nil in Ps. rewrite Ps in Ra. inversion Ra; subst.
        destruct Tp as (r & Q & _). discriminate. }
      split; [exact H1|]. split; [exact H2|]. split; [exact H3|]. split; [exact H4|]. split; [lia|]. split; [exact H7|]. split; [exact H8|]. split; [exact H10|].
      right. exists g. split; [reflexivity|]. split; [exact H5|]. split; [exact Ps|]. split.
      { intros k Hk. split; [apply H9, Hk|]. intros x Hx. destruct (Im k Hk) as (p & M). destruct M as (_ & _ & _ & _ & _ & _ & _ & _ & _ & M & _).
        split; [unfold live; destruct (M x Hx) as (_ & L & _); unfold live in L; lia|].
        apply (Permutation_in _ Ps) in Hk. destruct (Forall2_in_r _ _ _ k Ra Hk) as (r & _ & _ & _ & Q). apply Q. rewrite H9; [exact Hx|]. apply (Permutation_in _ (Permutation_sym Ps) Hk). }
      exists cs, rs, t', b'. split; [exact Iv|]. split; [apply (chain_cls ha); auto|]. split; [apply (unrelated_cls h1); [congruence|exact Un]|]. split; [exact Fg|]. split; [exact Ra|exact Tc]. }
  destruct Mid as (g1 & hb & E2 & Gb1 & Gb2 & Gb3 & Gb4 & Gb5 & Gb6 & Gb7 & Gb8 & R1).
  assert (Bd : forall y, is_boundary ha y -> is_boundary hb y).
  { intros y By. pose proof By as (L & Q2 & Q3). split; [lia|]. rewrite Gb8; [split; auto|exact L|]. intros k Hk Hy. destruct (Im k Hk) as (p & M).
    destruct M as (_ & _ & _ & _ & _ & _ & _ & _ & _ & M & _). destruct (M y Hy) as (_ & _ & _ & Q & _). contradiction. }
  assert (Px : forall k x, In k q -> In x (t_seq (tob ha k)) -> sob hb x = sob ha x).
  { intros k x Hk Hx. destruct (Pm k Hk) as (p & M). destruct M as (_ & _ & _ & _ & _ & _ & _ & _ & M). destruct (M x Hx) as (_ & L & _ & Q & _). apply Gb8; [exact L|].
    intros u Hu Hxu. destruct (Im u Hu) as (p' & M'). destruct M' as (_ & _ & _ & _ & _ & _ & _ & _ & _ & M' & _). destruct (M' x Hxu) as (_ & _ & _ & _ & _ & _ & Q'). assert (u = k) by congruence. subst u. exact (Dj k Hu Hk). }
  assert (Pt' : forall k, In k q -> tob hb k = tob ha k) by (intros k Hk; apply Gb7; intros Q; exact (Dj k Q Hk)).
  assert (F2b : Forall2 (pmade h1 hb) (map (pm f) (point_part h row ocs)) q).
  { eapply Forall2_weaken; [exact F2|]. intros p k Hp Hk (M1 & M2 & M3 & M4 & M5 & M6 & M7 & M8 & M9).
    assert (Rw : raw_points (rt_entries (fst p))) by (apply in_map_iff in Hp; destruct Hp as (p0 & <- & Hp); apply (Pt p0 Hp)).
    unfold pmade. rewrite Pt' by exact Hk.
    assert (Mk : map (mark_of hb) (t_seq (tob ha k)) = map (mark_of ha) (t_seq (tob ha k))).
    { apply map_ext_in. intros x Hx. unfold mark_of. rewrite (Px k x Hk Hx). reflexivity. }
    assert (Me : map (mark hb) (rt_entries (fst p)) = map (mark ha) (rt_entries (fst p))).
    { apply marks_same; [reflexivity|]. intros e He. destruct (Rw e He) as (z & x & -> & _). exact I. }
    rewrite Mk, Me. split; [exact M1|]. split; [unfold tlive in *; lia|]. split; [exact M3|]. split; [exact M4|]. split; [exact M5|]. split; [exact M6|].
    split; [eapply sorted_ext; [|exact M7]; intros x Hx; rewrite (Px k x Hk Hx); reflexivity|].
    split; [apply (chained_move ha); auto; intros x Hx; apply (Px k x Hk Hx)|].
    intros x Hx. rewrite (Px k x Hk Hx). destruct (M9 x Hx) as (Q1 & Q2 & Q3). split; [exact Q1|]. split; [unfold live in *; lia|exact Q3]. }
  (* the point tiers *)
  assert (Fin : exists g2 h2, (match q with [] => ret [] | l => g <- new_pg l ;; ret [g] end) hb = Ok g2 h2 /\
     h_cls h2 = h_cls hb /\ h_grid h2 = h_grid hb /\ h_seq h2 = h_seq hb /\ List.length (h_tier h2) = List.length (h_tier hb) /\
     (List.length (h_grp hb) <= List.length (h_grp h2))%nat /\ (forall k, glive hb k -> gob h2 k = gob hb k) /\ (forall k, ~ In k q -> tob h2 k = tob hb k) /\
     (point_part h row ocs = [] /\ g2 = [] \/ point_part h row ocs <> [] /\ exists g, g2 = [g] /\ g = List.length (h_grp hb) /\ q = g_tiers (gob h2 g) /\
        (forall k, In k q -> t_seq (tob h2 k) = t_seq (tob hb k)) /\ read_pgroup f h2 (point_part h row ocs) g)).
  { destruct (point_part h row ocs) as [|p0 ps0] eqn:Ep.
    - inversion F2b; subst. exists [], hb. split; [reflexivity|]. repeat (split; [first [reflexivity|lia|auto]|]). left. auto.
    - assert (Nq0 : q <> []) by (intros ->; inversion F2b).
      destruct (pgroup_made h1 hb _ q F2b Nq0 Nq) as (g & h2 & E & Q1 & Q2 & Q3 & H1 & H2 & H3 & H4 & H5 & H6 & H7 & H8 & H9).
      exists [g], h2. split. { destruct q; [congruence|]. rewrite (bind_ok _ _ _ _ _ E). reflexivity. }
      split; [exact H1|]. split; [exact H2|]. split; [exact H3|]. split; [exact H4|]. split; [lia|]. split; [exact H7|]. split; [exact H8|].
      right. split; [discriminate|]. exists g. split; [reflexivity|]. split; [exact H5|]. split; [symmetry; exact Q2|]. split; [intros k Hk; rewrite H9 by exact Hk; reflexivity|].
      assert (So : forall x, sob h2 x = sob hb x) by (intros x; unfold sob; rewrite H3; reflexivity).
      split; [lia|]. split; [exact Q1|]. rewrite Q2. split; [exact Q3|].
      pose proof (unmap2 _ _ _ _ F2b) as F2m.
      eapply Forall2_weaken; [exact F2m|]. intros p k Hp Hk (M1 & M2 & M3 & M4 & M5 & M6 & M7 & M8 & M9). cbn [pm fst snd] in *.
      assert (Mk : map (mark_of h2) (t_seq (tob hb k)) = map (mark_of hb) (t_seq (tob hb k))).
      { apply map_ext. intros x. unfold mark_of. rewrite So. reflexivity. }
      assert (Me : map (mark h2) (rt_entries (fst p)) = map (mark hb) (rt_entries (fst p))).
      { apply marks_same; [reflexivity|]. intros e He. destruct e; auto. }
      unfold read_points. rewrite H9 by exact Hk. cbn [set_t_within t_name t_ec t_within t_seq]. rewrite Mk, Me.
      split; [exact M4|]. split; [exact M3|]. split; [reflexivity|]. split; [exact M5|]. split; [exact M6|].
      split; [eapply sorted_ext; [|exact M7]; intros x _; rewrite So; reflexivity|].
      split; [apply (chained_move hb); auto; intros y (L & Q); split; [rewrite H3; exact L|rewrite So; exact Q]|].
      intros x Hx. rewrite So. destruct (M9 x Hx) as (_ & _ & Q). exact Q. }
  destruct Fin as (g2 & h2 & E3 & Gc1 & Gc2 & Gc3 & Gc4 & Gc5 & Gc6 & Gc7 & R2).
  assert (So : forall x, sob h2 x = sob hb x) by (intros x; unfold sob; rewrite Gc3; reflexivity).
  exists s, q, g1, g2, ha, hb, h2. split; [exact E1|]. split; [exact E2|]. split; [exact E3|].
  assert (Old : forall k, tlive h1 k -> ~ In k s /\ ~ In k q).
  { intros k Hk. split; intros I.
    - destruct (Im k I) as (p & M & _). unfold tlive in Hk. lia.
    - destruct (Pm k I) as (p & M & _). unfold tlive in Hk. lia. }
  split.
  { split; [congruence|]. split; [congruence|]. split; [rewrite Gc3; lia|]. split; [lia|]. split; [lia|]. split; [|split].
    - intros i Hi. rewrite So. rewrite Gb8; [apply Ga6, Hi|unfold live in *; lia|]. intros k Hk Q. destruct (Im k Hk) as (p & M).
      destruct M as (_ & _ & _ & _ & _ & _ & _ & _ & _ & M & _). destruct (M i Q) as (L & _). unfold live in Hi. lia.
    - intros k Hk. destruct (Old k Hk) as [O1 O2]. rewrite Gc7, Gb7 by auto. apply Ga7, Hk.
    - intros k Hk. rewrite Gc6, Gb6; [apply Ga8, Hk| |]; unfold glive in *; lia. }
  (* the groups *)
  assert (T1' : forall g, In g g1 -> g = List.length (h_grp ha) /\ glive hb g /\ gob h2 g = gob hb g /\ Permutation s (g_tiers (gob h2 g)) /\
     (forall k, In k s -> tob h2 k = tob hb k /\ t_seq (tob hb k) = t_seq (tob ha k) /\ forall x, In x (t_seq (tob ha k)) -> live hb x /\ s_intier (sob hb x) = Some k)).
  { intros g Hg. destruct R1 as [[_ ->]|(g' & -> & Eg & Ps & Q & Rg)]; [destruct Hg|]. destruct Hg as [<-|[]].
    assert (Lg : glive hb g') by (destruct Rg as (cs & rs & t & b & _ & _ & _ & (_ & (bss & Gd) & _) & _); apply Gd).
    split; [exact Eg|]. split; [exact Lg|]. rewrite Gc6 by exact Lg. split; [reflexivity|]. split; [exact Ps|]. intros k Hk.
    split; [apply Gc7, Dj, Hk|]. exact (Q k Hk). }
  assert (T2' : forall g, In g g2 -> g = List.length (h_grp hb) /\ glive h2 g /\ g_tiers (gob h2 g) = q /\ (forall k, In k q -> t_seq (tob h2 k) = t_seq (tob ha k))).
  { intros g Hg. destruct R2 as [[_ ->]|(_ & g' & -> & Eg & Eq & Q & Rg)]; [destruct Hg|]. destruct Hg as [<-|[]].
    split; [exact Eg|]. split; [apply Rg|]. split; [auto|]. intros k Hk. rewrite Q, Pt' by exact Hk. reflexivity. }
  assert (Sep : forall g g', In g g1 -> In g' g2 -> (g < g')%nat).
  { intros g g' Hg Hg'. destruct (T1' g Hg) as (_ & L & _). destruct (T2' g' Hg') as (E & _). unfold glive in L. lia. }
  assert (Ng1 : NoDup g1) by (destruct R1 as [[_ ->]|(g & -> & _)]; [constructor|apply NoDup_singleton]).
  assert (Ng2 : NoDup g2) by (destruct R2 as [[_ ->]|(_ & g & -> & _)]; [constructor|apply NoDup_singleton]).
  assert (Fl1 : flat_map (tiers_in h2) g1 = [] \/ Permutation s (flat_map (tiers_in h2) g1)).
  { destruct R1 as [[_ ->]|(g & -> & _)]; [left; reflexivity|right]. cbn [flat_map]. rewrite app_nil_r. apply T1'. simpl; auto. }
  assert (Fl2 : flat_map (tiers_in h2) g2 = [] \/ flat_map (tiers_in h2) g2 = q).
  { destruct R2 as [[_ ->]|(_ & g & -> & _)]; [left; reflexivity|right]. cbn [flat_map]. rewrite app_nil_r. apply T2'. simpl; auto. }
  assert (In1 : forall k, In k (flat_map (tiers_in h2) g1) -> In k s) by (intros k Hk; destruct Fl1 as [Q|Q]; [rewrite Q in Hk; destruct Hk|apply (Permutation_in k (Permutation_sym Q) Hk)]).
  assert (In2 : forall k, In k (flat_map (tiers_in h2) g2) -> In k q) by (intros k Hk; destruct Fl2 as [Q|Q]; rewrite Q in Hk; [destruct Hk|exact Hk]).
  split.
  { exists g1, g2. split; [reflexivity|]. split.
    - destruct R1 as [R1|(g & -> & Eg & Ps & Q & Rg)]; [left; exact R1|right]. exists g. split; [reflexivity|]. eapply read_group_later; [|exact Rg].
      destruct (T1' g) as (_ & Lg & Eg' & Ps' & Q'); [simpl; auto|]. constructor.
      + exact Gc1.
      + rewrite Gc3. lia.
      + lia.
      + unfold glive in Lg. lia.
      + rewrite Eg'. auto.
      + intros k Hk. apply Q'. apply (Permutation_in k (Permutation_sym Ps) Hk).
      + intros k x _ _. apply So.
      + intros y (L & Q2). split; [rewrite Gc3; exact L|rewrite So; exact Q2].
    - destruct R2 as [R2|(R2n & g & -> & Eg & Eq & Q & Rg)]; [left; exact R2|right]. split; [exact R2n|]. eauto. }
  split.
  { intros g Hg. apply in_app_iff in Hg. destruct Hg as [Hg|Hg].
    - destruct (T1' g Hg) as (Eg & Lg & Eg' & Ps & Q). split; [unfold glive in *; lia|]. intros k Hk. apply (Permutation_in k (Permutation_sym Ps)) in Hk.
      destruct (Q k Hk) as (Q1 & Q2 & Q3). destruct (Im k Hk) as (p & M). destruct M as (_ & M2 & _ & _ & _ & _ & _ & _ & M9 & _). rewrite Q1, Q2.
      split; [unfold tlive in *; lia|]. split; [exact M9|]. intros x Hx. rewrite So. destruct (Q3 x Hx) as [L I]. split; [unfold live in *; rewrite Gc3; exact L|exact I].
    - destruct (T2' g Hg) as (Eg & Lg & Eq & Q). split; [exact Lg|]. intros k Hk. rewrite Eq in Hk. rewrite (Q k Hk). destruct (Pm k Hk) as (p & M).
      destruct M as (_ & M2 & _ & _ & _ & M6 & _ & _ & M9). split; [unfold tlive in *; lia|]. split; [apply (NoDup_fmap_1 (mark_of ha)); exact M6|].
      intros x Hx. rewrite So. rewrite (Px k x Hk Hx). destruct (M9 x Hx) as (_ & L & _ & I & _). split; [unfold live in *; rewrite Gc3; lia|exact I]. }
  split.
  { apply NoDup_app. split; [exact Ng1|]. split; [|exact Ng2]. intros g Hg Hg'. apply elem_of_list_In in Hg. apply elem_of_list_In in Hg'. specialize (Sep g g Hg Hg'). lia. }
  split.
  { intros g Hg. apply in_app_iff in Hg. destruct Hg as [Hg|Hg]; [destruct (T1' g Hg) as (Eg & _)|destruct (T2' g Hg) as (Eg & _)]; lia. }
  rewrite flat_map_app. split.
  { apply NoDup_app. split; [destruct Fl1 as [Q|Q]; [rewrite Q; constructor|rewrite <- Q; exact Ns]|]. split; [|destruct Fl2 as [Q|Q]; rewrite Q; [constructor|exact Nq]].
    intros k Hk Hk'. apply elem_of_list_In in Hk. apply elem_of_list_In in Hk'. exact (Dj k (In1 k Hk) (In2 k Hk')). }
  intros k Hk. apply in_app_iff in Hk. destruct Hk as [Hk|Hk].
  - destruct (Im k (In1 k Hk)) as (p & M & _ & _ & _ & _ & _ & _ & _ & _ & M10 & _). split; [exact M|]. intros x Hx. apply in_flat_map in Hk. destruct Hk as (g & Hg & Hk).
    destruct (T1' g Hg) as (_ & _ & _ & Ps & Q). apply (Permutation_in k (Permutation_sym Ps)) in Hk. destruct (Q k Hk) as (Q1 & Q2 & _). rewrite Q1, Q2 in Hx. apply (M10 x Hx).
  - destruct (Pm k (In2 k Hk)) as (p & M & _ & _ & _ & _ & _ & _ & _ & M9). split; [exact M|]. intros x Hx. apply in_flat_map in Hk. destruct Hk as (g & Hg & Hk).
    destruct (T2' g Hg) as (_ & _ & Eq & Q). unfold tiers_in in Hk. rewrite Eq in Hk. rewrite (Q k Hk) in Hx. apply (M9 x Hx).
Qed.
Lemma rows_made n lo hi flat f h : forall rows css h1, renamed flat f h h1 -> Forall2 (readable h lo hi) rows css -> incl (concat css) flat ->
  exists gs h2, build_groups n rows (map (map f) css) h1 = Ok gs h2 /\ grown h1 h2 /\ read_rows lo hi f h h2 rows css gs /\ whole_groups h2 gs /\
    NoDup gs /\ (forall g, In g gs -> (List.length (h_grp h1) <= g)%nat) /\
    NoDup (flat_map (tiers_in h2) gs) /\ (forall k, In k (flat_map (tiers_in h2) gs) -> (List.length (h_tier h1) <= k)%nat /\ forall x, In x (t_seq (tob h2 k)) -> (List.length (h_seq h1) <= x)%nat).
Proof.
  intros rows css h1 Rn F. revert h1 Rn. induction F as [|row ocs rows css R F IH]; intros h1 Rn Ic.
  - exists [], h1. split; [reflexivity|]. split; [apply grown_refl|]. split; [constructor|]. split; [intros g []|]. split; [constructor|]. split; [intros g []|]. split; [constructor|intros k []].
  - destruct (row_made n lo hi flat f h h1 row ocs Rn R) as (s & q & g1 & g2 & ha & hb & h2 & E1 & E2 & E3 & G & Rr & Wh & N1 & B1 & N2 & B2).
    { intros c Hc. apply Ic. cbn [concat]. apply in_app_iff. auto. }
    destruct (IH h2) as (gs & h3 & E & G' & Rs & Wh' & N1' & B1' & N2' & B2').
    { apply (renamed_cls flat f h h1); [apply G|exact Rn]. }
    { intros c Hc. apply Ic. cbn [concat]. apply in_app_iff. auto. }
    pose proof (grown_aged _ _ G') as A.
    assert (Wh3 : whole_groups h3 (g1 ++ g2)) by (apply (whole_aged h2); auto).
    assert (Ti : forall g, In g (g1 ++ g2)%list -> tiers_in h3 g = tiers_in h2 g) by (intros g Hg; unfold tiers_in; apply (aged_undisturbed h2 h3 _ A Wh g Hg)).
    assert (Fl : flat_map (tiers_in h3) (g1 ++ g2) = flat_map (tiers_in h2) (g1 ++ g2)).
    { clear -Ti. induction (g1 ++ g2)%list as [|g l IHl]; [reflexivity|]. cbn [flat_map]. rewrite Ti by (simpl; auto). rewrite IHl; [reflexivity|]. intros k Hk. apply Ti. simpl; auto. }
    exists ((g1 ++ g2) ++ gs)%list, h3. split.
    { cbn [build_groups map]. rewrite (bind_ok _ _ _ _ _ E1). cbn [fst snd].
      erewrite bind_ok; [|destruct s; exact E2]. erewrite bind_ok; [|destruct q; exact E3]. rewrite (bind_ok _ _ _ _ _ E). rewrite <- app_assoc. reflexivity. }
    split; [eapply grown_trans; eauto|]. split.
    { constructor; [|exact Rs].
      assert (One : read_rows lo hi f h h3 [row] [ocs] ((g1 ++ g2) ++ [])).
      { apply (read_rows_aged lo hi f h h2 h3); [exact A| |rewrite app_nil_r; exact Wh|constructor; [exact Rr|constructor]].
        intros r o p [[= <- <-]|[]] Hp. destruct R as (_ & _ & _ & Q). apply Q, Hp. }
      inversion One as [|? ? gs1 ? ? gs2 Rr3 Rs2 E4 E5 E6]; subst. inversion Rs2; subst. rewrite !app_nil_r in E6. rewrite <- E6. exact Rr3. }
    split. { intros g Hg. apply in_app_iff in Hg. destruct Hg as [Hg|Hg]; auto. }
    assert (Lg : forall g, In g (g1 ++ g2)%list -> glive h2 g) by (intros g Hg; apply (Wh g Hg)).
    split. { apply NoDup_app. split; [exact N1|]. split; [|exact N1']. intros g Hg Hg'. apply elem_of_list_In in Hg. apply elem_of_list_In in Hg'. specialize (Lg g Hg). specialize (B1' g Hg'). unfold glive in Lg. lia. }
    split. { intros g Hg. apply in_app_iff in Hg. destruct Hg as [Hg|Hg]; [auto|]. specialize (B1' g Hg). destruct G as (_ & _ & _ & _ & L & _). lia. }
    rewrite flat_map_app, Fl. split.
    { apply NoDup_app. split; [exact N2|]. split; [|exact N2']. intros k Hk Hk'. apply elem_of_list_In in Hk. apply elem_of_list_In in Hk'. destruct (B2' k Hk') as [B3 _].
      apply in_flat_map in Hk. destruct Hk as (g & Hg & Hk). destruct (Wh g Hg) as [_ W]. destruct (W k Hk) as [L _]. unfold tlive in L. lia. }
    intros k Hk. apply in_app_iff in Hk. destruct Hk as [Hk|Hk].
    + destruct (B2 k Hk) as [B3 B4]. split; [exact B3|]. apply in_flat_map in Hk. destruct Hk as (g & Hg & Hk). rewrite (ud_tiers _ _ _ (aged_undisturbed h2 h3 _ A Wh g Hg) k Hk). exact B4.
    + destruct (B2' k Hk) as [B3 B4]. destruct G as (_ & _ & L1 & L & _). split; [lia|]. intros x Hx. specialize (B4 x Hx). lia.
Qed.
End Row.

Section Whole.
Context `{Env}.
Opaque span_of.

Lemma lower_within h : forall ts bss, snug h ts bss -> related_tiers h ts bss -> forall k x, In k (tl ts) -> In x (t_seq (tob h k)) ->
  exists p, s_within (sob h x) = Some (WSeq p) /\ In x (s_subset (sob h p)).
Proof.
  induction ts as [|t ts IH]; intros bss S R k x Hk Hx; [destruct Hk|]. cbn [tl] in Hk. destruct ts as [|u r]; [destruct Hk|].
  destruct bss as [|bs bss]; [destruct S|]. destruct S as (S1 & S2 & S3). destruct R as [R1 R2]. destruct Hk as [<-|Hk]; [|eapply IH; eauto].
  rewrite <- S1 in Hx. apply in_concat in Hx. destruct Hx as (b & Hb & Hx). destruct (Forall2_in_r _ _ _ b R1 Hb) as (p & _ & P1 & _ & P3).
  exists p. split; [apply P3, Hx|]. rewrite P1. exact Hx.
Qed.
Lemma tiles_close h l : forall a b, tiles h a l b -> tl (map (fun x => fst (span_of h x)) l) = removelast (map (fun x => snd (span_of h x)) l).
Proof.
  assert (Sp : forall x s m, s_start (sob h x) = Some s -> s_end (sob h x) = Some m -> span_of h x = (s, m)).
  { Transparent span_of. intros x s m Q1 Q2. unfold span_of. rewrite Q1, Q2. reflexivity. }
  induction l as [|x l IH]; intros a b T; [reflexivity|]. destruct T as (m & A1 & A2 & A3 & A4). cbn [map tl]. destruct l as [|y l]; [reflexivity|].
  pose proof A4 as (m' & B1 & B2 & _). change (map (fun x => fst (span_of h x)) (y :: l)) with (fst (span_of h y) :: tl (map (fun x => fst (span_of h x)) (y :: l))).
  rewrite (IH m b A4). rewrite (Sp x a m A1 A2), (Sp y m m' B1 B2). reflexivity.
Qed.
Lemma np_same (op : Z -> Z -> Z) v l h : op v v = v -> l <> [] -> (forall x, In x l -> x = Some v) -> np_ext op l h = Ok (Some v) h.
Proof.
  intros Op N Q. assert (E : l = map Some (map (fun _ => v) l)).
  { clear N. induction l as [|x l IH]; [reflexivity|]. cbn [map]. rewrite <- IH by (intros y Hy; apply Q; simpl; auto). rewrite (Q x) by (simpl; auto). reflexivity. }
  unfold np_ext. destruct l as [|x [|y l]]; [congruence|rewrite (Q x) by (simpl; auto); reflexivity|].
  rewrite E, all_some_Some. cbn [map]. f_equal. f_equal.
  assert (F : forall k, fold_left op (map (fun _ : option Z => v) k) v = v) by (induction k as [|z k IH]; [reflexivity|]; cbn [map fold_left]; rewrite Op; exact IH).
  cbn [fold_left]. rewrite Op. apply F.
Qed.
Lemma mapM_const {A} (m : A -> M (option Z)) v l h : (forall x, In x l -> m x h = Ok (Some v) h) ->
  exists r, mapM m l h = Ok r h /\ List.length r = List.length l /\ forall y, In y r -> y = Some v.
Proof.
  induction l as [|x l IH]; intros Q; [exists []; split; [reflexivity|]; split; [reflexivity|intros y []]|].
  destruct IH as (r & E & L & I); [intros y Hy; apply Q; simpl; auto|]. exists (Some v :: r). split; [|split; [cbn; lia|intros y [<-|Hy]; auto]].
  cbn [mapM]. rewrite (bind_ok _ _ _ _ _ (Q x (or_introl eq_refl))), (bind_ok _ _ _ _ _ E). reflexivity.
Qed.
(** ** Names *)
Lemma group_named g a h : glive h g -> g_tiers (gob h g) <> [] -> g_within (gob h g) = Some (WGrid a) -> In g (a_groups (aob h a)) ->
  exists nm, nm <> EmptyString /\ exists r h', grp_name g h = Ok r h' /\ g_name (gob h' g) = Some nm /\ (h' = h \/ ((forall m, g_name (gob h g) = Some m -> m = EmptyString) /\ exists m, h' = upd_grp g (set_g_name m) h)).
Proof.
  intros L Ne W I. unfold grp_name. rewrite bind_get_grp. destruct (str_truthy (g_name (gob h g))) eqn:St.
  - destruct (g_name (gob h g)) as [[|x s]|] eqn:Eg; try discriminate. exists (String x s). split; [discriminate|]. exists (Some (String x s)), h. auto.
  - assert (Mk : exists nm, nm <> EmptyString /\ make_name g h = Ok (Some nm) h).
    { unfold make_name. destruct (g_tiers (gob h g)) as [|t ts]; [congruence|]. cbn [map]. set (cand := clean_name _). destruct (1 <? String.length cand)%nat eqn:El.
      - exists cand. split; [|reflexivity]. intros Q. rewrite Q in El. discriminate.
      - rewrite W. destruct (index_of g (a_groups (aob h a))) as [i|] eqn:Ei.
        + exists ("group_" ++ nat_str i)%string. split; [discriminate|reflexivity].
        + exfalso. revert Ei I. clear. generalize (a_groups (aob h a)). intros l. induction l as [|x l IH]; [intros _ []|]. cbn [index_of]. intros E [->|I].
          * rewrite Nat.eqb_refl in E. discriminate.
          * destruct (Nat.eqb g x); [discriminate|]. destruct (index_of g l); [discriminate|]. apply IH; auto. }
    destruct Mk as (nm & N & Mk). exists nm. split; [exact N|]. exists (Some nm), (upd_grp g (set_g_name (Some nm)) h). split; [rewrite (bind_ok _ _ _ _ _ Mk); reflexivity|].
    split; [rewrite gob_upd_eq by exact L; reflexivity|]. right. split; [|eauto]. intros m Q. rewrite Q in St. destruct m; [reflexivity|discriminate].
Qed.
Lemma named_all a : forall gs h, (forall g, In g gs -> glive h g /\ g_tiers (gob h g) <> [] /\ g_within (gob h g) = Some (WGrid a) /\ In g (a_groups (aob h a))) ->
  exists h', forM gs (fun g => _n <- grp_name g ;; ret tt) h = Ok tt h' /\
    h_cls h' = h_cls h /\ h_seq h' = h_seq h /\ h_tier h' = h_tier h /\ h_grid h' = h_grid h /\ List.length (h_grp h') = List.length (h_grp h) /\
    (forall g, g_points (gob h' g) = g_points (gob h g) /\ g_tiers (gob h' g) = g_tiers (gob h g) /\ g_contains (gob h' g) = g_contains (gob h g) /\ g_within (gob h' g) = g_within (gob h g)) /\
    (forall g, ~ In g gs -> gob h' g = gob h g) /\ (forall g nm, g_name (gob h g) = Some nm -> nm <> EmptyString -> g_name (gob h' g) = Some nm) /\
    (forall g, In g gs -> exists nm, g_name (gob h' g) = Some nm /\ nm <> EmptyString).
Proof.
  induction gs as [|g gs IH]; intros h K.
  - exists h. split; [reflexivity|]. repeat (split; [reflexivity|]). split; [auto|]. split; [auto|]. split; [auto|intros g []].
  - destruct (K g (or_introl eq_refl)) as (L & Ne & W & I). destruct (group_named g a h L Ne W I) as (nm & Nn & r & h1 & E1 & Eg & Hh).
    assert (S1 : h_cls h1 = h_cls h /\ h_seq h1 = h_seq h /\ h_tier h1 = h_tier h /\ h_grid h1 = h_grid h /\ List.length (h_grp h1) = List.length (h_grp h) /\
      (forall k, g_points (gob h1 k) = g_points (gob h k) /\ g_tiers (gob h1 k) = g_tiers (gob h k) /\ g_contains (gob h1 k) = g_contains (gob h k) /\ g_within (gob h1 k) = g_within (gob h k)) /\
      (forall k, k <> g -> gob h1 k = gob h k)).
    { destruct Hh as [->|(_ & m & ->)]; [auto 10|]. repeat (split; [reflexivity|]). split; [apply len_upd_grp|]. split.
      - intros k. destruct (Nat.eq_dec k g) as [->|Nk]; [rewrite gob_upd_eq by exact L; auto|rewrite gob_upd_ne by exact Nk; auto].
      - intros k Nk. apply gob_upd_ne, Nk. }
    destruct S1 as (S1 & S2 & S3 & S4 & S5 & S6 & S7).
    destruct (IH h1) as (h' & E & A1 & A2 & A3 & A4 & A5 & A6 & A7 & A8 & A9).
    { intros k Hk. destruct (K k (or_intror Hk)) as (Q1 & Q2 & Q3 & Q4). destruct (S6 k) as (_ & T1 & _ & T2). rewrite T1, T2. split; [unfold glive in *; lia|]. split; [exact Q2|]. split; [exact Q3|]. unfold aob. rewrite S4. exact Q4. }
    exists h'. split. { cbn [forM]. rewrite bind_assoc. rewrite (bind_ok _ _ _ _ _ E1). rewrite bind_ret. exact E. }
    split; [congruence|]. split; [congruence|]. split; [congruence|]. split; [congruence|]. split; [lia|]. split.
    { intros k. destruct (S6 k) as (Q1 & Q2 & Q3 & Q4). destruct (A6 k) as (R1 & R2 & R3 & R4). repeat (split; [congruence|]). congruence. }
    split. { intros k Hk. rewrite A7, S7; [reflexivity| |]; simpl in Hk; intuition congruence. }
    split.
    { intros k m Q N. destruct (Nat.eq_dec k g) as [->|Nk]; [|apply A8; [rewrite S7 by exact Nk; exact Q|exact N]]. apply A8; [|exact N]. rewrite Eg.
      destruct Hh as [->|(Q' & m' & ->)]; [congruence|]. exfalso. apply N, Q', Q. }
    intros k [<-|Hk]; [|apply A9, Hk]. exists nm. split; [apply A8; auto|exact Nn].
Qed.
End Whole.

Lemma nodup_nested {A B} (g : A -> list B) (own : B -> A) : forall l, NoDup l -> (forall x, In x l -> NoDup (g x) /\ forall y, In y (g x) -> own y = x) -> NoDup (flat_map g l).
Proof.
  induction l as [|x l IH]; intros N K; [constructor|]. apply NoDup_cons in N. destruct N as [N1 N2]. cbn [flat_map]. apply NoDup_app.
  split; [apply (K x); simpl; auto|]. split; [|apply IH; [exact N2|intros y Hy; apply K; simpl; auto]].
  intros y Hy Q. apply elem_of_list_In in Hy, Q. apply in_flat_map in Q. destruct Q as (z & Hz & Q).
  destruct (K x (or_introl eq_refl)) as [_ K1]. destruct (K z (or_intror Hz)) as [_ K2]. rewrite <- (K1 y Hy), (K2 y Q) in N1. apply N1, elem_of_list_In, Hz.
Qed.
Lemma whole_entries h gs : whole_groups h gs -> NoDup (flat_map (tiers_in h) gs) -> NoDup (flat_map (entries_in h) (flat_map (tiers_in h) gs)).
Proof.
  intros W N. apply (nodup_nested _ (fun x => default 0%nat (s_intier (sob h x)))); [exact N|]. intros k Hk. apply in_flat_map in Hk. destruct Hk as (g & Hg & Hk).
  destruct (W g Hg) as [_ Q]. destruct (Q k Hk) as (_ & Q2 & Q3). split; [exact Q2|]. intros x Hx. destruct (Q3 x Hx) as [_ ->]. reflexivity.
Qed.
Lemma flat_classes h lo hi : forall rows css, Forall2 (readable h lo hi) rows css ->
  forall c, In c (concat css) -> lone_point h c \/
    exists t cs b, class_chain h t cs b /\ In c cs /\ incl cs (concat css) /\ forall x, In x cs -> plain_name (class_name h x).
Proof.
  intros rows css F. induction F as [|row ocs rows css (L & K & I & _) F IH]; intros c Hc; [destruct Hc|]. cbn [concat] in Hc. apply in_app_iff in Hc. destruct Hc as [Hc|Hc].
  - destruct (K c Hc) as [P|P]; [left; exact P|right].
    assert (Hp : exists r, In (r, c) (interval_part h row ocs)).
    { apply In_nth_error in Hc. destruct Hc as [i Hi]. destruct (nth_error row i) as [r|] eqn:Er.
      - exists r. apply filter_In. split; [|exact P]. clear -Hi Er. revert ocs i Hi Er. induction row as [|x row IH]; intros [|y ocs] [|i] Hi Er; try discriminate; cbn in *; [injection Hi as ->; injection Er as ->; auto|right; eapply IH; eauto].
      - exfalso. apply nth_error_None in Er. assert (i < List.length ocs)%nat by (apply nth_error_Some; congruence). lia. }
    destruct Hp as [r Hp]. destruct I as [I|(cs & rs & N)]; [rewrite I in Hp; destruct Hp|]. pose proof N as ((t & b & C) & Pl & _).
    destruct (nested_in _ _ _ _ _ _ N) as [N1 N2]. exists t, cs, b. split; [exact C|]. split; [apply (N2 _ Hp)|]. split; [|exact Pl].
    intros x Hx. destruct (N1 x Hx) as [r' Hr']. cbn [concat]. apply in_app_iff. left. apply filter_In in Hr'. destruct Hr' as [Hr' _]. apply in_combine_r in Hr'. exact Hr'.
  - destruct (IH c Hc) as [P|(t & cs & b & Q1 & Q2 & Q3 & Q4)]; [left; exact P|right]. exists t, cs, b. split; [exact Q1|]. split; [exact Q2|]. split; [|exact Q4].
    intros x Hx. cbn [concat]. apply in_app_iff. right. apply Q3, Hx.
Qed.
