(** * AppendTiers: giving the tiers of a group other classes. *)
From Verif Require Import AppendSpec RelateFinal PopFinal GrowFinal OwnFinal TierFinal.
Open Scope Z_scope.

Section WithEnv.
Context `{Env}.

Lemma cast_all c : forall l h, NoDup l -> issubclass h c cPoint = false ->
  (forall x, In x l -> live h x /\ issubclass h (s_cls (sob h x)) cInterval = true) ->
  exists h1, forM l (cast c) h = Ok tt h1 /\ same_rest h h1 /\ List.length (h_seq h1) = List.length (h_seq h) /\
    (forall x, In x l -> sob h1 x = set_s_cls c (sob h x)) /\ (forall x, ~ In x l -> sob h1 x = sob h x).
Proof.
  induction l as [|x l IH]; intros h N P U.
  - exists h. split; [reflexivity|]. split; [split; auto|]. split; [reflexivity|]. split; [intros ? []|auto].
  - apply NoDup_cons in N. destruct N as [N1 N2]. rewrite elem_of_list_In in N1. destruct (U x (or_introl eq_refl)) as [Lx Ix].
    set (h1 := upd_seq x (set_s_cls c) h).
    assert (So : forall y, y <> x -> sob h1 y = sob h y) by (intros y Hy; apply sob_upd_ne, Hy).
    destruct (IH h1 N2) as (h2 & E & R & Ln & A & B).
    { exact P. }
    { intros y Hy. destruct (U y (or_intror Hy)) as [L I]. split; [unfold live, h1 in *; rewrite len_upd_seq; exact L|].
      rewrite So by (intros ->; auto). exact I. }
    exists h2. split.
    { cbn [forM]. unfold cast at 1. rewrite bind_assoc, bind_gets. unfold is_point_cls. rewrite P, Ix. exact E. }
    split; [destruct R as (R1 & R2 & R3 & R4); split; [rewrite R1|split; [rewrite R2|split; [rewrite R3|rewrite R4]]]; reflexivity|].
    split; [rewrite Ln; apply len_upd_seq|]. split.
    + intros y [<-|Hy]; [rewrite B by exact N1; apply sob_upd_eq, Lx|]. rewrite A by exact Hy. rewrite So by (intros ->; auto). reflexivity.
    + intros y Hy. rewrite B by (simpl in Hy; tauto). apply So. intros ->. apply Hy. simpl. auto.
Qed.

(** The tier [t] got the class [c]; so did its entries. *)
Definition recast (t : tid) (c : cid) (h h' : heap) : Prop :=
  (forall x, In x (t_seq (tob h t)) -> s_cls (sob h' x) = c /\ same_family (sob h x) (sob h' x) /\ s_intier (sob h' x) = Some t) /\
  (forall i, live h i -> ~ In i (t_seq (tob h t)) -> sob h' i = sob h i) /\
  (List.length (h_seq h) <= List.length (h_seq h'))%nat /\
  (forall i, (List.length (h_seq h) <= i < List.length (h_seq h'))%nat -> is_boundary h' i) /\
  h_cls h' = h_cls h /\ h_grp h' = h_grp h /\ h_grid h' = h_grid h /\
  List.length (h_tier h') = List.length (h_tier h) /\ (forall u, u <> t -> tob h' u = tob h u) /\
  t_seq (tob h' t) = t_seq (tob h t) /\ t_ec (tob h' t) = c /\ t_super (tob h' t) = superset_class h c /\ t_sub (tob h' t) = subset_class h c /\
  t_name (tob h' t) = class_name h c /\ t_within (tob h' t) = t_within (tob h t) /\ classed h' t.

Lemma reinit_ok h t c sc l : tlive h t -> issubclass h (t_ec (tob h t)) cPoint = false -> t_seq (tob h t) = l ->
  issubclass h c cInterval = true -> issubclass h c cPoint = false -> superset_class h c = Some sc -> NoDup l ->
  (forall x, In x l -> live h x /\ issubclass h (s_cls (sob h x)) cInterval = true /\ s_label (sob h x) <> "#"%string) ->
  known_starts h l -> sorted_starts h l ->
  exists h', (forM l (cast c) ;;; tier_reinit t (FromList (map EObj l)) c) h = Ok tt h' /\ recast t c h h'.
Proof.
  intros Lt Pt El Ic Pc Sc N U Ks So.
  destruct (cast_all c l h N Pc ltac:(intros x Hx; destruct (U x Hx) as (A & B & _); auto)) as (h0 & E0 & (R1 & R2 & R3 & R4) & Ln0 & Hi & Ho).
  assert (T0 : forall u, tob h0 u = tob h u) by (intros u; unfold tob; rewrite R2; reflexivity).
  assert (Lt0 : tlive h0 t) by (unfold tlive in *; rewrite R2; exact Lt).
  set (ents := map EObj l).
  assert (Oe : entry_objs ents = l).
  { unfold ents. clear. induction l as [|x l IH]; [reflexivity|]. cbn. rewrite <- IH at 2. reflexivity. }
  assert (U0 : usable h0 cInterval ents).
  { split; [rewrite Oe; exact N|]. intros e He. apply in_map_iff in He. destruct He as (x & <- & Hx). cbn [entry_value fst snd]. rewrite Hi by exact Hx. cbn [s_label s_start s_cls set_s_cls].
    destruct (U x Hx) as (A & B & D). split; [exact D|]. split; [apply Ks, Hx|]. split; [unfold live in A; lia|].
    rewrite (issubclass_ext h h0) by exact R1. exact Ic. }
  assert (E1 := itier_start t (FromList ents) (Some c) c h0 ents eq_refl eq_refl ltac:(rewrite (issubclass_ext h h0) by exact R1; exact Pc)).
  set (hx := upd_tier t (head_of h0 (FromList ents) c ents) h0) in *.
  assert (Tx : tob hx t = head_of h0 (FromList ents) c ents (tob h0 t)) by (apply tob_upd_eq; auto).
  assert (Ux : usable hx cInterval ents) by (apply (usable_heap h0); auto).
  destruct (cast_entries_ok c cInterval ents hx Ux) as (os & h1 & Eo & M & ND & F & Gc & Ln & B & Lv & SR).
  { unfold kind_of. change (is_point_cls hx c) with (issubclass h0 c cPoint). rewrite (issubclass_ext h h0) by exact R1. rewrite Pc. reflexivity. }
  assert (Eos : os = l).
  { clear -M. unfold ents in M. revert os M. induction l as [|y l IH]; intros os M; inversion M as [|e x k os' Q M' E1 E2]; [reflexivity|].
    destruct Q as (_ & _ & -> & _). f_equal. apply IH, M'. }
  subst os.
  assert (S1 : forall x, In x l -> sob h1 x = set_s_cls c (sob h0 x)).
  { intros x Hx. rewrite Gc; [reflexivity| |rewrite Oe; exact Hx]. destruct (U x Hx) as (A & _). unfold live in *. change (h_seq hx) with (h_seq h0). lia. }
  assert (T1 : tob h1 t = tob hx t) by (apply tob_ext; apply SR).
  assert (Ht1 : tlive h1 t) by (unfold tlive in *; destruct SR as (_ & -> & _); unfold hx; rewrite len_upd_tier; auto).
  assert (Cl1 : h_cls h1 = h_cls h) by (destruct SR as (-> & _); exact R1).
  assert (Lk : linkable h1 c l).
  { split; [exact ND|]. intros x Hx. split; [apply Lv; auto|]. rewrite S1, Hi by exact Hx. cbn. split; [reflexivity|]. apply U, Hx. }
  assert (Ks1 : known_starts h1 l) by (intros x Hx; rewrite S1, Hi by exact Hx; cbn; apply Ks, Hx).
  destruct (tier_set_seq_ok h1 t c sc l Ht1 Lk Ks1) as (l' & v & h2 & Ev & E2 & P & S & I & Pl & C & Ve).
  { rewrite T1, Tx. cbn. rewrite (superset_class_ext h h0) by exact R1. exact Sc. }
  assert (Ell : l' = l).
  { apply I. intros i j x y Hij Hx Hy. rewrite S1, Hi, S1, Hi by (eapply nth_error_In; eauto). cbn. apply (So i j); auto. }
  rewrite Ell in Ev, P, S, Pl, C. clear Ell I.
  set (h1' := upd_tier t (put_seq v) h1) in *.
  assert (T1' : tob h1' t = put_seq v (tob h1 t)) by (apply tob_upd_eq; auto).
  assert (T2 : t_seq (tob h2 t) = l /\ t_super (tob h2 t) = Some sc /\ t_ec (tob h2 t) = c /\
               t_name (tob h2 t) = class_name h c /\ t_sub (tob h2 t) = subset_class h c /\ t_within (tob h2 t) = t_within (tob h t) /\ t_seqec (tob h2 t) = sv_ec v).
  { destruct Pl as (_ & _ & _ & _ & _ & _ & _ & _ & _ & Q). rewrite Q.
    assert (X : forall o, o = tob h1' t -> t_seq o = l /\ t_super o = Some sc /\ t_ec o = c /\ t_name o = class_name h c /\ t_sub o = subset_class h c /\ t_within o = t_within (tob h t) /\ t_seqec o = sv_ec v).
    { intros o ->. rewrite T1', T1, Tx. cbn. split; [exact Ev|]. split; [rewrite (superset_class_ext h h0) by exact R1; exact Sc|]. split; [reflexivity|].
      split; [unfold class_name, cob; rewrite R1; reflexivity|]. split; [apply (subset_class_ext h h0), R1|]. split; [rewrite T0; reflexivity|reflexivity]. }
    destruct (issubclass h1 sc cTop); [|auto]. destruct (X _ eq_refl) as (X1 & X2 & X3 & X4 & X5 & X6 & X7). simpl. auto 10. }
  destruct T2 as (T2s & T2p & T2e & T2n & T2b & T2w & T2v).
  assert (Lk1 : linkable h1' c l) by exact Lk.
  assert (Lk2 : linkable h2 c l) by (eapply linkable_placed; eauto).
  destruct (tier_precedence_ok h2 t c sc) as (h3 & E3 & Pl3 & C3).
  { unfold tlive in *. destruct Pl as (_ & _ & _ & _ & _ & _ & _ & -> & _). unfold h1'. rewrite len_upd_tier. auto. }
  { rewrite T2s. exact Lk2. }
  { exact T2p. }
  rewrite T2s in Pl3, C3.
  assert (Cl2 : h_cls h2 = h_cls h1) by apply Pl.
  rewrite (issubclass_ext h1 h2) in Pl3 by auto.
  assert (Pf : placed t (issubclass h1 sc cTop) l h1' h3).
  { eapply placed_trans; [exact Pl|exact Pl3|]. intros x Hx. apply Lk1; auto. }
  assert (T3 : t_seq (tob h3 t) = l /\ t_ec (tob h3 t) = c /\ t_name (tob h3 t) = class_name h c /\
               t_super (tob h3 t) = Some sc /\ t_sub (tob h3 t) = subset_class h c /\ t_within (tob h3 t) = t_within (tob h t) /\ t_seqec (tob h3 t) = sv_ec v).
  { destruct Pl3 as (_ & _ & _ & _ & _ & _ & _ & _ & _ & Q). rewrite Q.
    destruct (issubclass h1 sc cTop); simpl; auto 10. }
  destruct T3 as (T3s & T3e & T3n & T3p & T3b & T3w & T3v).
  clear C Pl Pl3. destruct Pf as (A1 & A2 & A3 & A4 & A5 & A6 & A7 & A8 & A9 & A10). destruct SR as (Q1 & Q2 & Q3 & Q4).
  exists h3. split.
  { rewrite (bind_ok _ _ _ _ _ E0). unfold tier_reinit. rewrite bind_gets. unfold is_point_tier, is_point_cls. rewrite T0, (issubclass_ext h h0), Pt by exact R1.
    fold ents. rewrite E1, (bind_ok _ _ _ _ _ Eo), (bind_ok _ _ _ _ _ E2). exact E3. }
  change (h_seq hx) with (h_seq h0) in Ln. change (h_seq h1') with (h_seq h1) in A3, A2, A4.
  unfold recast. rewrite El. split.
  { intros x Hx. destruct (A1 x Hx) as ((B1 & B2 & B3 & B4 & B5 & B6 & _) & B7 & _). change (sob h1' x) with (sob h1 x) in *.
    rewrite S1, Hi in B1, B2, B3, B4, B5, B6 by exact Hx. cbn in B1, B2, B3, B4, B5, B6. split; [exact B1|]. split; [unfold same_family; auto 10|exact B7]. }
  split.
  { intros i Li Hn. unfold live in Li. rewrite A2 by (try exact Hn; lia). change (sob h1' i) with (sob h1 i). rewrite F; [apply Ho, Hn| |rewrite Oe; exact Hn].
    unfold live. change (h_seq hx) with (h_seq h0). lia. }
  split; [lia|]. split.
  { intros i Hi2. destruct (decide (i < List.length (h_seq h1))%nat) as [Hj|Hj].
    - assert (Hn : ~ In i l) by (intros Q; destruct (U i Q) as (L & _); unfold live in L; lia). eapply boundary_kept; [apply A2; [exact Hj|exact Hn]|exact A3|].
      change (is_boundary h1 i). apply B; [change (h_seq hx) with (h_seq h0); lia|exact Hn].
    - apply A4. lia. }
  split; [rewrite A5; exact Cl1|]. split; [rewrite A6; change (h_grp h1' ) with (h_grp h1); rewrite Q3; exact R3|].
  split; [rewrite A7; change (h_grid h1' ) with (h_grid h1); rewrite Q4; exact R4|].
  split; [rewrite A8; unfold h1'; rewrite len_upd_tier, Q2; unfold hx; rewrite len_upd_tier, R2; reflexivity|].
  split.
  { intros u Hu. rewrite A9 by exact Hu. unfold h1'. rewrite tob_upd_ne by exact Hu. rewrite (tob_ext hx h1) by auto. unfold hx. rewrite tob_upd_ne by exact Hu. apply T0. }
  split; [exact T3s|]. split; [exact T3e|]. split; [rewrite Sc; exact T3p|]. split; [exact T3b|]. split; [exact T3n|]. split; [exact T3w|].
  unfold classed. rewrite T3v, Ve, T3s, T3e. destruct l; auto.
Qed.

Lemma recast_all : forall ts cs h, List.length cs = List.length ts -> NoDup ts ->
  (forall t u x, In t ts -> In u ts -> t <> u -> In x (t_seq (tob h t)) -> ~ In x (t_seq (tob h u))) ->
  (forall c, In c cs -> issubclass h c cInterval = true /\ issubclass h c cPoint = false /\ exists sc, superset_class h c = Some sc) ->
  (forall t, In t ts -> tlive h t /\ issubclass h (t_ec (tob h t)) cPoint = false /\ NoDup (t_seq (tob h t)) /\
     (forall x, In x (t_seq (tob h t)) -> live h x /\ issubclass h (s_cls (sob h x)) cInterval = true /\ s_label (sob h x) <> "#"%string) /\
     known_starts h (t_seq (tob h t)) /\ sorted_starts h (t_seq (tob h t))) ->
  exists h', recast_tiers cs ts h = Ok tt h' /\
    h_cls h' = h_cls h /\ h_grp h' = h_grp h /\ h_grid h' = h_grid h /\ List.length (h_tier h') = List.length (h_tier h) /\
    (List.length (h_seq h) <= List.length (h_seq h'))%nat /\
    (forall i, (List.length (h_seq h) <= i < List.length (h_seq h'))%nat -> is_boundary h' i) /\
    (forall i, live h i -> (forall t, In t ts -> ~ In i (t_seq (tob h t))) -> sob h' i = sob h i) /\
    (forall u, ~ In u ts -> tob h' u = tob h u) /\
    Forall2 (fun t c => t_seq (tob h' t) = t_seq (tob h t) /\ t_ec (tob h' t) = c /\ t_super (tob h' t) = superset_class h c /\
      t_sub (tob h' t) = subset_class h c /\ t_name (tob h' t) = class_name h c /\ t_within (tob h' t) = t_within (tob h t) /\ classed h' t /\
      forall x, In x (t_seq (tob h t)) -> s_cls (sob h' x) = c /\ same_family (sob h x) (sob h' x) /\ s_intier (sob h' x) = Some t) ts cs.
Proof.
  induction ts as [|t ts IH]; intros cs h Ln N Dj Cs Ts; destruct cs as [|c cs]; try discriminate.
  { exists h. split; [reflexivity|]. do 4 (split; [reflexivity|]). split; [lia|]. split; [intros i Hi; lia|]. split; [auto|]. split; [auto|constructor]. }
  apply NoDup_cons in N. destruct N as [N1 N2]. rewrite elem_of_list_In in N1.
  destruct (Ts t (or_introl eq_refl)) as (Lt & Pt & Nl & Ul & Kl & Sl). destruct (Cs c (or_introl eq_refl)) as (Ic & Pc & sc & Sc).
  destruct (reinit_ok h t c sc _ Lt Pt eq_refl Ic Pc Sc Nl Ul Kl Sl) as (h1 & E1 & A1 & A2 & A3 & A4 & A5 & A6 & A7 & A8 & A9 & A10 & A11 & A12 & A13 & A14 & A15 & A16).
  assert (Tu : forall u, In u ts -> tob h1 u = tob h u) by (intros u Hu; apply A9; intros ->; auto).
  assert (Su : forall u x, In u ts -> In x (t_seq (tob h u)) -> sob h1 x = sob h x).
  { intros u x Hu Hx. destruct (Ts u (or_intror Hu)) as (_ & _ & _ & Q & _). apply A2; [apply Q, Hx|]. apply (Dj u t x); simpl; auto. intros ->. auto. }
  destruct (IH cs h1) as (h2 & E2 & B1 & B2 & B3 & B4 & B5 & B6 & B7 & B8 & B9).
  { simpl in Ln. lia. }
  { exact N2. }
  { intros u v x Hu Hv Nv. rewrite !Tu by auto. apply Dj; simpl; auto. }
  { intros d Hd. rewrite !(issubclass_ext h h1), (superset_class_ext h h1) by exact A5. apply Cs. simpl. auto. }
  { intros u Hu. destruct (Ts u (or_intror Hu)) as (Q1 & Q2 & Q3 & Q4 & Q5 & Q6). rewrite Tu by exact Hu. split; [unfold tlive in *; lia|].
    split; [rewrite (issubclass_ext h h1) by exact A5; exact Q2|]. split; [exact Q3|]. split.
    - intros x Hx. rewrite (Su u) by auto. rewrite (issubclass_ext h h1) by exact A5. destruct (Q4 x Hx) as (L & Q). split; [unfold live in *; lia|exact Q].
    - split; [intros x Hx; rewrite (Su u) by auto; apply Q5, Hx|]. intros i j x y Hij Hx Hy. rewrite !(Su u) by (try exact Hu; eapply nth_error_In; eauto). eapply Q6; eauto. }
  exists h2. split.
  { cbn [recast_tiers]. rewrite bind_gets. rewrite <- bind_assoc. rewrite (bind_ok _ _ _ _ _ E1). exact E2. }
  split; [congruence|]. split; [congruence|]. split; [congruence|]. split; [lia|]. split; [lia|].
  assert (Nw : forall i, (List.length (h_seq h) <= i < List.length (h_seq h1))%nat -> forall u, In u ts -> ~ In i (t_seq (tob h1 u))).
  { intros i Hi u Hu Q. rewrite Tu in Q by exact Hu. destruct (Ts u (or_intror Hu)) as (_ & _ & _ & Q' & _). destruct (Q' i Q) as (L & _). unfold live in L. lia. }
  split.
  { intros i Hi. destruct (decide (i < List.length (h_seq h1))%nat) as [Hj|Hj]; [|apply B6; lia].
    eapply boundary_kept; [apply B7; [exact Hj|apply Nw; lia]|exact B5|apply A4; lia]. }
  split.
  { intros i Li Hn. rewrite B7; [apply A2; [exact Li|apply Hn; simpl; auto]|unfold live in *; lia|]. intros u Hu. rewrite Tu by exact Hu. apply Hn. simpl. auto. }
  split.
  { intros u Hu. rewrite B8 by (simpl in Hu; tauto). apply A9. intros ->. apply Hu. simpl. auto. }
  constructor.
  - rewrite (B8 t N1). split; [exact A10|]. split; [exact A11|]. split; [exact A12|]. split; [exact A13|]. split; [exact A14|]. split; [exact A15|].
    split; [unfold classed in *; rewrite (B8 t N1); exact A16|]. intros x Hx.
    assert (Q : sob h2 x = sob h1 x).
    { apply B7; [destruct (Ul x Hx) as (L & _); unfold live in *; lia|]. intros u Hu. rewrite Tu by exact Hu. apply (Dj t u x); simpl; auto. intros ->. auto. }
    rewrite Q. apply A1, Hx.
  - eapply Forall2_weaken; [exact B9|]. intros u d Hu Hd (Q1 & Q2 & Q3 & Q4 & Q5 & Q6 & Q7 & Q8). rewrite Tu in Q1, Q6, Q8 by exact Hu.
    rewrite (superset_class_ext h h1) in Q3 by exact A5. rewrite (subset_class_ext h h1) in Q4 by exact A5.
    split; [exact Q1|]. split; [exact Q2|]. split; [exact Q3|]. split; [exact Q4|]. split; [rewrite Q5; unfold class_name, cob; rewrite A5; reflexivity|].
    split; [exact Q6|]. split; [exact Q7|]. intros x Hx. rewrite <- (Su u x Hu Hx). apply Q8, Hx.
Qed.
End WithEnv.

(** ** The name of a group that is related again *)
Section Names.
Context `{Env} (g : gid) (nm : string).
Definition names_it (h h' : heap) : Prop := glive h g -> g_name (gob h g) = Some nm -> glive h' g /\ g_name (gob h' g) = Some nm.
#[local] Instance names_pre : PreOrder names_it.
Proof.
  split; [intros h L Q; auto|]. intros h1 h2 h3 A B L Q. destruct (A L Q) as [L2 Q2]. apply B; auto.
Qed.
Lemma names_same {A} (m : M A) : (forall h, h_grp (heap_of (m h)) = h_grp h) -> under names_it m.
Proof. intros K h L Q. unfold glive, gob in *. rewrite K. auto. Qed.
Lemma names_calm {A} (m : M A) : calm m -> under names_it m.
Proof. intros C. apply names_same. intros h. apply C. Qed.
Lemma names_mod k f : (forall o, g_name (f o) = g_name o \/ g_name (f o) = Some nm) -> under names_it (mod_grp k f).
Proof.
  intros K h L Q. change (heap_of (mod_grp k f h)) with (upd_grp k f h). split; [unfold glive in *; rewrite len_upd_grp; exact L|].
  destruct (Nat.eq_dec g k) as [<-|N]; [|rewrite gob_upd_ne by exact N; exact Q]. rewrite gob_upd_eq by exact L.
  destruct (K (gob h g)) as [-> | ->]; auto.
Qed.
Lemma names_init n ts : nm <> ""%string -> under names_it (tg_init n g ts (Some nm) false).
Proof.
  intros Ne. unfold tg_init. apply under_bind; [exact _| |intros r].
  { apply names_same. intros h. pose proof (arrange_incl ts h) as A. destruct (arrange ts h) as [r h1|e h1]; cbn [heap_of]; [destruct A as [-> _]|rewrite A]; reflexivity. }
  apply under_bind; [exact _| |intros _].
  { apply under_when; [exact _|]. unfold grp_set_contains. apply under_bind; [exact _|apply names_mod; auto|intros _]. apply under_forM; [exact _|].
    intros t _. apply names_same. intros h. reflexivity. }
  apply under_bind; [exact _| |intros _].
  { apply names_mod. intros o. left. reflexivity. }
  apply under_bind; [exact _| |intros _].
  { assert (Q : str_truthy (Some nm) = true) by (destruct nm; [congruence|reflexivity]). rewrite Q. apply names_mod. intros o. right. reflexivity. }
  apply under_bind; [exact _| |intros _].
  { apply under_forM; [exact _|]. intros t _. apply under_bind; [exact _|apply under_gets; exact _|intros l]. apply under_forM; [exact _|]. intros x _. apply names_calm, calm_remove. }
  apply names_calm, calm_relate_tiers.
Qed.
Lemma names_relate n h h' : nm <> ""%string -> glive h g -> g_points (gob h g) = false -> g_name (gob h g) = Some nm ->
  re_relate n g h = Ok tt h' -> g_name (gob h' g) = Some nm.
Proof.
  intros Ne L P Q E. unfold re_relate in E. rewrite bind_get_grp, P in E. unfold grp_name in E. rewrite bind_assoc, bind_get_grp, Q in E.
  assert (T : str_truthy (Some nm) = true) by (destruct nm; [congruence|reflexivity]). rewrite T, bind_ret in E.
  pose proof (names_init n (g_tiers (gob h g)) Ne h) as K. rewrite E in K. apply K; auto.
Qed.
End Names.
