(** * BuildFinal: proofs of C61. *)
From Verif Require Import AppendSpec AppendFinal ReadClasses ReadMade GroupFinal RelateFinal GrowFinal PopFinal WeaveFinal OwnFinal TierFinal ClassFinal ClassProofs.
Open Scope Z_scope.

Lemma heap_same h h' : h_cls h' = h_cls h -> h_seq h' = h_seq h -> h_tier h' = h_tier h -> h_grid h' = h_grid h ->
  List.length (h_grp h') = List.length (h_grp h) -> (forall g, glive h g -> gob h' g = gob h g) -> h' = h.
Proof.
  intros A B C D E F. assert (Q : h_grp h' = h_grp h).
  { apply list_eq. intros i. destruct (decide (i < List.length (h_grp h))%nat) as [L|L].
    - specialize (F i L). unfold gob in F. destruct (lookup_lt_is_Some_2 (h_grp h) i L) as [x Hx].
      assert (L' : (i < List.length (h_grp h'))%nat) by lia. destruct (lookup_lt_is_Some_2 (h_grp h') i L') as [y Hy].
      rewrite Hx, Hy in *. simpl in F. congruence.
    - rewrite !lookup_ge_None_2 by lia. reflexivity. }
  destruct h, h'. simpl in *. congruence.
Qed.

(** ** What later changes leave alone *)
(** Classes were only added. *)
Definition more_classes (h h' : heap) : Prop :=
  class_table h /\ class_table h' /\ (List.length (h_cls h) <= List.length (h_cls h'))%nat /\ (forall c, clive h c -> cob h' c = cob h c).
Definition reclass (h h' : heap) : heap := Heap (h_cls h') (h_seq h) (h_tier h) (h_grp h) (h_grid h).
Lemma more_kept h h' : more_classes h h' -> class_table (reclass h h') /\ classes_kept h (reclass h h').
Proof. intros (A & B & C & D). split; [exact B|]. split; [exact C|]. split; [exact D|]. repeat split. Qed.
Lemma more_chain h h' t cs b : more_classes h h' -> class_chain h t cs b -> class_chain h' t cs b.
Proof.
  intros M C. destruct (more_kept h h' M) as [T K]. apply (chain_cls (reclass h h')); [reflexivity|].
  apply (OwnFinal.chain_kept h); auto. apply M.
Qed.
Lemma more_sub h h' c k : more_classes h h' -> clive h c -> issubclass h' c k = issubclass h c k.
Proof.
  intros M L. destruct (more_kept h h' M) as [T K]. rewrite (issubclass_ext (reclass h h') h') by reflexivity.
  apply kept_sub; auto; apply table_wf; auto. apply M.
Qed.
Lemma more_super h h' c : more_classes h h' -> clive h c -> superset_class h' c = superset_class h c /\ subset_class h' c = subset_class h c.
Proof.
  intros M L. destruct (more_kept h h' M) as [T K]. rewrite (superset_class_ext (reclass h h') h'), (subset_class_ext (reclass h h') h') by reflexivity.
  assert (W : wf h) by (apply table_wf, M). assert (W' : wf (reclass h h')) by (apply table_wf, T).
  split; [change (look true (reclass h h') c = look true h c)|change (look false (reclass h h') c = look false h c)]; apply kept_look; auto.
Qed.
Lemma more_name h h' c : more_classes h h' -> clive h c -> class_name h' c = class_name h c.
Proof. intros M L. unfold class_name. destruct M as (_ & _ & _ & ->); auto. Qed.
Lemma more_trans h1 h2 h3 : more_classes h1 h2 -> more_classes h2 h3 -> more_classes h1 h3.
Proof.
  intros (A1 & A2 & A3 & A4) (B1 & B2 & B3 & B4). split; [exact A1|]. split; [exact B2|]. split; [lia|].
  intros c Hc. rewrite B4, A4; auto. unfold clive in *. lia.
Qed.
(** The group was not touched. *)
Record untouched (h h' : heap) (g : gid) : Prop := {
  un_grp : gob h' g = gob h g;
  un_tier : forall t, In t (g_tiers (gob h g)) -> tob h' t = tob h t;
  un_seq : forall t x, In t (g_tiers (gob h g)) -> In x (t_seq (tob h t)) -> sob h' x = sob h x;
  un_lens : List.length (h_grp h') = List.length (h_grp h) /\ List.length (h_tier h') = List.length (h_tier h) /\
    (List.length (h_seq h) <= List.length (h_seq h'))%nat;
  un_bd : forall k, is_boundary h k -> is_boundary h' k
}.
Lemma full_kept h h' cs g : more_classes h h' -> untouched h h' g -> (exists t b, class_chain h t cs b) -> full_group h cs g -> full_group h' cs g.
Proof.
  intros M [U1 U2 U3 (U4 & U5 & U6) U7] (t & b & C) (Em & (bss & G) & Bb).
  assert (Lc : forall c, In c cs -> clive h c).
  { intros c Hc. apply (chain_live h t cs b c); [apply M|exact C|]. right. apply in_app_iff. auto. }
  unfold full_group. rewrite U1. set (ts := g_tiers (gob h g)) in *.
  assert (Em' : map (fun k => t_ec (tob h' k)) ts = cs).
  { rewrite <- Em. apply map_ext_in. intros k Hk. rewrite U2 by exact Hk. reflexivity. }
  split; [exact Em'|]. pose proof G as (G1 & G2 & G3 & G4 & (_ & _ & TC & _) & _). split.
  - exists bss. apply (good_grow_at h h'); rewrite ?U1; auto; try lia.
    + intros k x Hk Hx. rewrite (U3 k x Hk Hx). split; [apply GroupFinal.kept_refl|auto].
    + intros k x Hk Hx. rewrite (U3 k x); [reflexivity| |exact Hx]. destruct ts as [|k0 r]; [destruct Hk|]. rewrite (app_removelast_last k0) by discriminate. apply in_app_iff. auto.
    + intros k y Hk. apply more_sub; [exact M|]. apply Lc. rewrite <- Em. apply (in_map (fun k => t_ec (tob h k))), Hk.
    + intros x y Hy Q. rewrite (more_sub h h'); auto. apply (sub_live h x y); auto. apply M.
    + apply (chain_joined h' t cs b); [apply (more_chain h h'); auto|exact Em'].
  - intros k x Hk Hx. assert (Ik : In k ts) by (apply in_rev; destruct (rev ts); [discriminate|injection Hk as ->; simpl; auto]).
    rewrite U2 in Hx by exact Ik. rewrite (U3 k x Ik Hx). apply (Bb k x Hk Hx).
Qed.

Lemma joined_kept h h1 h' a g cs' : more_classes h1 h' -> untouched h1 h' g -> (exists t b, class_chain h1 t cs' b) ->
  joined_in h h1 a g cs' -> joined_in h h' a g cs'.
Proof.
  intros M U C (J1 & J2 & J3 & J4 & J5 & J6). pose proof U as [U1 U2 U3 _ _].
  assert (Ec : forall t, In t (g_tiers (gob h g)) -> clive h1 (t_ec (tob h1 t))).
  { intros t Ht. destruct C as (u & b & C). apply (chain_live h1 u cs' b); [apply M|exact C|]. right. apply in_app_iff. left.
    destruct J1 as (<- & _). apply (in_map (fun k => t_ec (tob h1 k))). rewrite J2. exact Ht. }
  split; [apply (full_kept h1); auto|]. rewrite U1. split; [exact J2|]. split; [exact J3|]. split; [exact J4|]. split; [exact J5|].
  intros t Ht. destruct (J6 t Ht) as (P1 & P2 & P3 & P4 & P5). assert (Ht1 : In t (g_tiers (gob h1 g))) by (rewrite J2; exact Ht).
  unfold housed, classed, up_to_date in *. rewrite (U2 t Ht1). destruct (more_super h1 h' (t_ec (tob h1 t)) M (Ec t Ht)) as [-> ->].
  rewrite (more_name h1 h') by auto. split; [exact P1|]. split; [|split; [exact P3|split; [exact P4|]]].
  - split; [apply P2|]. intros y Hy. rewrite (U3 t y Ht1 Hy). apply P2, Hy.
  - intros x Hx. rewrite (U3 t x Ht1) by (rewrite P1; exact Hx). apply P5, Hx.
Qed.

(** ** One group after the other *)
Lemma boundary_outside h cs g k : full_group h cs g -> is_boundary h k -> forall t, In t (g_tiers (gob h g)) -> ~ In k (t_seq (tob h t)).
Proof.
  intros (_ & (bss & G) & _) (_ & B & _) t Ht Hk. destruct G as (_ & _ & _ & _ & _ & _ & _ & _ & Ok & _).
  destruct (Ok t Ht) as (_ & (_ & Q) & _). destruct (Q k Hk) as (_ & _ & N). contradiction.
Qed.
Lemma full_live h cs g t x : full_group h cs g -> In t (g_tiers (gob h g)) -> In x (t_seq (tob h t)) -> live h x.
Proof.
  intros (_ & (bss & G) & _) Ht Hx. destruct G as (_ & _ & _ & _ & _ & _ & _ & _ & Ok & _).
  destruct (Ok t Ht) as (_ & (_ & Q) & _). apply (Q x Hx).
Qed.
Lemma adds_untouched h h' a gs k : adds_only h h' a gs -> (forall g, In g gs -> exists cs, full_group h cs g) -> ~ In k gs ->
  (forall g t, In g gs -> In t (g_tiers (gob h k)) -> ~ In t (g_tiers (gob h g))) ->
  (forall g t u x, In g gs -> In t (g_tiers (gob h k)) -> In u (g_tiers (gob h g)) -> In x (t_seq (tob h t)) -> ~ In x (t_seq (tob h u))) ->
  (exists cs, full_group h cs k) -> untouched h h' k.
Proof.
  intros (A1 & A2 & A3 & A4 & A5 & A6 & A7 & A8 & A9 & _) Fg Nk Dt De [ds Fk]. split.
  - apply A9, Nk.
  - intros t Ht. apply A7. intros g Hg. apply (De g t t) || apply (Dt g t Hg Ht).
  - intros t x Ht Hx. apply A4; [apply (full_live h ds k t x Fk Ht Hx)|]. intros g u Hg Hu. apply (De g t u x); auto.
  - split; [exact A8|]. split; [exact A6|exact A3].
  - intros i (B1 & B2). assert (E : sob h' i = sob h i).
    { apply A4; [exact B1|]. intros g t Hg Ht. destruct (Fg g Hg) as [cs Q]. apply (boundary_outside h cs g); auto. split; auto. }
    split; [lia|]. rewrite E. exact B2.
Qed.
Lemma joins_adds h h' a g : joins_only h h' a g -> adds_only h h' a [g].
Proof.
  intros (A1 & A2 & A3 & A4 & A5 & A6 & A7 & A8 & A9 & A10 & A11). split; [exact A1|]. split; [exact A2|]. split; [exact A3|].
  split; [intros i Hi Q; apply A4; [exact Hi|]; intros t Ht; apply (Q g t); simpl; auto|]. split; [exact A5|]. split; [exact A6|].
  split; [intros t Q; apply A7, Q; simpl; auto|]. split; [exact A8|]. split; [intros k Q; apply A9; intros ->; apply Q; simpl; auto|].
  split; [lia|]. intros b _ Hb. apply A11, Hb.
Qed.
Lemma adds_step h h1 h' a g gs cs cs' : joins_only h h1 a g -> joined_in h h1 a g cs' -> full_group h cs g ->
  (forall k, In k gs -> g_tiers (gob h1 k) = g_tiers (gob h k)) -> (forall k t, In k gs -> In t (g_tiers (gob h k)) -> t_seq (tob h1 t) = t_seq (tob h t)) ->
  (forall k, In k gs -> exists ds, full_group h1 ds k) ->
  adds_only h1 h' a gs -> adds_only h h' a (g :: gs).
Proof.
  intros J Jd Fg Kt Ks Kf B. apply joins_adds in J. pose proof J as (A1 & A2 & A3 & A4 & A5 & A6 & A7 & A8 & A9 & A10 & A11).
  destruct B as (B1 & B2 & B3 & B4 & B5 & B6 & B7 & B8 & B9 & B10 & B11).
  split; [lia|]. split; [intros c Hc; rewrite B2 by lia; apply A2, Hc|]. split; [lia|].
  split.
  { intros i Hi Q. rewrite B4; [|lia|].
    - apply A4; [exact Hi|]. intros k t [<-|[]] Ht. apply (Q g t); simpl; auto.
    - intros k t Hk Ht. rewrite Kt in Ht by exact Hk. rewrite (Ks k t Hk Ht). apply (Q k t); simpl; auto. }
  split.
  { intros i Hi. destruct (Nat.lt_ge_cases i (List.length (h_seq h1))) as [L|L]; [|apply B5; lia].
    assert (Bd : is_boundary h1 i) by (apply A5; lia). pose proof Bd as (Q1 & Q2). split; [lia|]. rewrite B4; [exact Q2|exact L|].
    intros k t Hk Ht. destruct (Kf k Hk) as [ds F]. apply (boundary_outside h1 ds k); auto. }
  split; [congruence|]. split.
  { intros t Q. rewrite B7.
    - apply A7. intros k [<-|[]]. apply Q. simpl; auto.
    - intros k Hk. rewrite Kt by exact Hk. apply Q. simpl; auto. }
  split; [congruence|]. split; [intros k Hk; rewrite B9, A9; [reflexivity| |]; simpl in *; tauto|].
  split; [lia|]. intros b Hb Nb. rewrite B11, A11; auto. lia.
Qed.
Lemma familiar_names h a cs ds cs' : map (class_name h) cs = map (class_name h) ds -> familiar h a cs cs' -> familiar h a ds cs'.
Proof.
  intros E [F C]. split; [|exact C]. clear C. revert ds E. induction F as [|c c' cs cs' Q F IH]; intros [|d ds] E; try discriminate; constructor.
  - injection E as E _. rewrite <- E. exact Q.
  - apply IH. injection E as _ E. exact E.
Qed.
Lemma familiar_kept h h' a cs cs' l : more_classes h h' -> whole_chains h (a_cloned (aob h a)) -> (forall c, In c cs -> clive h c) ->
  a_cloned (aob h' a) = (a_cloned (aob h a) ++ l)%list -> familiar h a cs cs' -> familiar h' a cs cs'.
Proof.
  intros M W L E [F (t & b & C)]. split; [|exists t, b; apply (more_chain h); auto]. rewrite E. eapply Forall2_weaken; [exact F|].
  intros x y Hx _ Q. apply first_app. rewrite (more_name h h') by auto. apply (first_same h); [|exact Q].
  intros z Hz. apply more_name; [exact M|]. apply (OwnFinal.table_live h (a_cloned (aob h a)) z); auto. apply M.
Qed.
Lemma flat_map_same {A B} (f f' : A -> list B) l : (forall x, In x l -> f' x = f x) -> flat_map f' l = flat_map f l.
Proof. intros E. induction l as [|x l IH]; [reflexivity|]. cbn [flat_map]. rewrite E by (simpl; auto). f_equal. apply IH. intros; apply E; simpl; auto. Qed.
Lemma clear_more h h' cs : more_classes h h' -> clear_chain h cs -> clear_chain h' cs.
Proof.
  intros M ((t & b & C) & P & N). assert (L : forall c, In c cs -> clive h c).
  { intros c Hc. apply (chain_live h t cs b c); [apply M|exact C|]. right. apply in_app_iff. auto. }
  split; [exists t, b; apply (more_chain h); auto|]. split; [intros c Hc; rewrite (more_name h h') by auto; auto|].
  intros c d Hc Hd. rewrite !(more_name h h') by auto. apply N; auto.
Qed.
Lemma clear_live h cs c : class_table h -> clear_chain h cs -> In c cs -> clive h c.
Proof. intros T ((t & b & C) & _) Hc. apply (chain_live h t cs b c T C). right. apply in_app_iff. auto. Qed.

Section WithEnv.
Context `{Env}.
Lemma append_each n a : forall gs css h, class_table h -> (a < List.length (h_grid h))%nat -> whole_chains h (a_cloned (aob h a)) ->
  settled_groups h a -> (forall g, In g gs -> ~ In g (a_groups (aob h a))) -> apart_groups h gs ->
  Forall2 (fun g cs => full_group h cs g /\ clear_chain h cs) gs css -> names_agree h css ->
  (forall cs, In cs css -> strange h a cs \/ exists cs0, familiar h a cs cs0) ->
  exists css' h', forM gs (grid_append n a) h = Ok tt h' /\ a_groups (aob h' a) = (a_groups (aob h a) ++ gs)%list /\
    Forall2 (joined_in h h' a) gs css' /\ adds_only h h' a gs /\ List.length (h_grid h') = List.length (h_grid h) /\
    Forall2 (Forall2 (fun c c' => class_name h' c' = class_name h c)) css css' /\ Forall2 (familiar h' a) css css' /\
    (forall cs' c', In cs' css' -> In c' cs' -> In c' (a_cloned (aob h a)) \/ (List.length (h_cls h) <= c')%nat) /\
    (exists l, a_cloned (aob h' a) = (a_cloned (aob h a) ++ l)%list) /\
    more_classes h h' /\ whole_chains h' (a_cloned (aob h' a)) /\ settled_groups h' a.
Proof.
  induction gs as [|g gs IH]; intros css h T La WC Sg Ng Ap F Ag Kn.
  - inversion F; subst. exists [], h. split; [reflexivity|]. split; [rewrite app_nil_r; reflexivity|]. split; [constructor|].
    split. { split; [lia|]. split; [auto|]. split; [lia|]. split; [auto|]. split; [intros i Hi; lia|]. split; [reflexivity|]. split; [auto|]. split; [reflexivity|]. split; [auto|]. split; [lia|auto]. }
    split; [reflexivity|]. split; [constructor|]. split; [constructor|]. split; [intros ? ? []|]. split; [exists []; rewrite app_nil_r; reflexivity|].
    split; [split; [exact T|split; [exact T|split; [lia|auto]]]|]. auto.
  - inversion F as [|? cs ? css0 [Fg Cg] Fr]; subst.
    destruct (append_full n h a g cs) as (cs' & h1 & E1 & [Jg J] & O & Hs & Hf & Fa & Nm & T1 & WC1 & Sg1 & Ec).
    { split; [exact T|]. split; [exact La|]. split; [exact WC|]. split; [exact Sg|]. split; [apply Ng; simpl; auto|]. auto. }
    { apply Kn. simpl. auto. }
    destruct Ap as (Ap1 & Ap2 & Ap3). pose proof O as (O1 & O2 & O3 & O4 & O5 & O6 & O7 & O8 & O9 & O10 & O11).
    assert (M1 : more_classes h h1) by (split; [exact T|split; [exact T1|split; [exact O1|exact O2]]]).
    apply NoDup_cons in Ap1. destruct Ap1 as [Ng1 Ap1]. rewrite elem_of_list_In in Ng1.
    cbn [flat_map] in Ap2, Ap3. rewrite flat_map_app in Ap3. apply NoDup_app in Ap2. destruct Ap2 as (Ap21 & Ap22 & Ap23).
    apply NoDup_app in Ap3. destruct Ap3 as (Ap31 & Ap32 & Ap33).
    assert (Dt : forall k t, In k gs -> In t (g_tiers (gob h g)) -> ~ In t (g_tiers (gob h k))).
    { intros k t Hk Ht Q. apply (Ap22 t); [apply elem_of_list_In; exact Ht|]. apply elem_of_list_In, in_flat_map. exists k. auto. }
    assert (De : forall k t u x, In k gs -> In t (g_tiers (gob h g)) -> In u (g_tiers (gob h k)) -> In x (t_seq (tob h t)) -> ~ In x (t_seq (tob h u))).
    { intros k t u x Hk Ht Hu Hx Q. apply (Ap32 x); apply elem_of_list_In, in_flat_map; [exists t; auto|]. exists u. split; [apply in_flat_map; exists k; auto|exact Q]. }
    assert (Fk : forall k, In k gs -> exists ds, full_group h ds k /\ clear_chain h ds).
    { intros k Hk. destruct (Forall2_in_l _ _ _ k Fr Hk) as (ds & _ & Q1). eauto. }
    assert (Un : forall k, In k gs -> untouched h h1 k).
    { intros k Hk. apply (adds_untouched h h1 a [g]).
      - apply joins_adds, O.
      - intros g' [<-|[]]. eauto.
      - intros [->|[]]. contradiction.
      - intros g' t [<-|[]] Ht Q. apply (Dt k t Hk Q Ht).
      - intros g' t u x [<-|[]] Ht Hu Hx Q. apply (De k u t x Hk Hu Ht Q Hx).
      - destruct (Fk k Hk) as (ds & Q & _). eauto. }
    assert (Kt : forall k, In k gs -> g_tiers (gob h1 k) = g_tiers (gob h k)) by (intros k Hk; rewrite (un_grp _ _ _ (Un k Hk)); reflexivity).
    assert (Ks : forall k t, In k gs -> In t (g_tiers (gob h k)) -> t_seq (tob h1 t) = t_seq (tob h t)) by (intros k t Hk Ht; rewrite (un_tier _ _ _ (Un k Hk)) by exact Ht; reflexivity).
    assert (Ef : flat_map (tiers_in h1) gs = flat_map (tiers_in h) gs) by (apply flat_map_same; exact Kt).
    assert (Lds : forall ds, In ds css0 -> forall d, In d ds -> clive h d).
    { intros ds Hds d Hd. destruct (Forall2_in_r _ _ _ ds Fr Hds) as (k & _ & _ & Q). apply (clear_live h ds d T Q Hd). }
    destruct (IH css0 h1) as (css' & h' & E2 & A2 & A3 & A4 & A5 & A6 & A7 & A8 & (l & A9) & A10 & A11 & A12).
    { exact T1. }
    { rewrite O10. exact La. }
    { exact WC1. }
    { exact Sg1. }
    { intros k Hk. rewrite Jg. intros Q. apply in_app_iff in Q. destruct Q as [Q|[->|[]]]; [apply (Ng k); simpl; auto|contradiction]. }
    { split; [exact Ap1|]. rewrite Ef. split; [exact Ap23|]. rewrite (flat_map_same (entries_in h)); [exact Ap33|].
      intros t Ht. apply in_flat_map in Ht. destruct Ht as (k & Hk & Ht). apply (Ks k t Hk Ht). }
    { eapply Forall2_weaken; [exact Fr|]. intros k ds Hk _ [Q1 Q2]. split; [|apply (clear_more h); auto]. apply (full_kept h); auto. apply Q2. }
    { intros ds es Hd He. destruct (Ag ds es) as [Q|Q]; [simpl; auto|simpl; auto| |].
      - left. rewrite (map_ext_in _ (class_name h) ds), (map_ext_in _ (class_name h) es); [exact Q| |]; intros d Hd'; apply more_name; eauto.
      - right. intros d e Hd' He'. rewrite !(more_name h h1) by eauto. apply Q; auto. }
    { intros ds Hds. assert (En : map (class_name h1) ds = map (class_name h) ds) by (apply map_ext_in; intros d Hd; apply more_name; eauto).
      assert (Ec' : map (class_name h1) cs = map (class_name h) cs) by (apply map_ext_in; intros d Hd; apply more_name; [exact M1|apply (clear_live h cs d T Cg Hd)]).
      destruct (Ag cs ds) as [Q|Q]; [simpl; auto|simpl; auto| |].
      - right. exists cs'. apply (familiar_names h1 a cs); [congruence|exact Fa].
      - destruct (Kn ds) as [St|[ds0 Fd]]; [simpl; auto| |].
        + left. intros d e Hd He. rewrite Ec in He. rewrite (more_name h h1 d) by eauto. apply in_app_iff in He. destruct He as [He|He].
          * rewrite (more_name h h1 e); [apply St; auto|exact M1|apply (OwnFinal.table_live h (a_cloned (aob h a)) e T WC He)].
          * destruct (Forall2_in_r _ _ _ e Nm He) as (c & Hc & ->). apply Q; auto.
        + right. exists ds0. apply (familiar_kept h h1 a ds ds0 cs'); auto. eauto. }
    assert (U' : untouched h1 h' g).
    { apply (adds_untouched h1 h' a gs); auto.
      - intros k Hk. destruct (Fk k Hk) as (ds & Q1 & Q2). exists ds. apply (full_kept h); auto. apply Q2.
      - intros k t Hk Ht. rewrite Kt by exact Hk. destruct J as (_ & Q & _). rewrite Q in Ht. apply Dt; auto.
      - intros k t u x Hk Ht Hu Hx. rewrite Kt in Hu by exact Hk. rewrite (Ks k u Hk Hu). destruct J as (_ & Q & _ & _ & _ & J6). rewrite Q in Ht. destruct (J6 t Ht) as (P1 & _). rewrite P1 in Hx. apply (De k t u x); auto.
      - exists cs'. apply J. }
    exists (cs' :: css'), h'. split; [cbn [forM]; rewrite (bind_ok _ _ _ _ _ E1); exact E2|]. split; [rewrite A2, Jg, <- app_assoc; reflexivity|].
    split.
    { constructor; [apply (joined_kept h h1); auto; apply Fa|]. eapply Forall2_weaken; [exact A3|]. intros k ds' Hk _ (J1 & J2 & J3 & J4 & J5 & J6).
      pose proof (Un k Hk) as [V1 V2 V3 _ _]. rewrite V1 in *. split; [exact J1|]. split; [exact J2|]. split; [exact J3|]. split; [exact J4|]. split; [exact J5|].
      intros t Ht. specialize (J6 t Ht). rewrite (V2 t Ht) in J6. destruct J6 as (P1 & P2 & P3 & P4 & P5). split; [exact P1|]. split; [exact P2|]. split; [exact P3|]. split; [exact P4|].
      intros x Hx. rewrite <- (V3 t x Ht Hx). apply P5, Hx. }
    split. { apply (adds_step h h1 h' a g gs cs cs'); auto. intros k Hk. destruct (Fk k Hk) as (ds & Q1 & Q2). exists ds. apply (full_kept h); auto. apply Q2. }
    split; [congruence|]. split.
    { constructor.
      - eapply Forall2_weaken; [exact Nm|]. intros c c' Hc Hc' Q. rewrite <- Q. apply more_name; [exact A10|]. destruct Fa as (_ & u & b & C). apply (chain_live h1 u cs' b c' T1 C). right. apply in_app_iff. auto.
      - eapply Forall2_weaken; [exact A6|]. intros ds ds' Hds _ Q. eapply Forall2_weaken; [exact Q|]. intros d d' Hd _ Q'. rewrite Q'. apply more_name; eauto. }
    split. { constructor; [|exact A7]. apply (familiar_kept h1 h' a cs cs' l); auto. intros c Hc. pose proof (clear_live h cs c T Cg Hc). unfold clive in *. lia. }
    split.
    { intros ds' d' [<-|Hds] Hd.
      - destruct (Kn cs) as [St|[cs0 Fc]]; [simpl; auto| |].
        + right. destruct (Forall2_in_r _ _ _ d' (Hs St) Hd) as (c & _ & Q). apply Q.
        + left. rewrite (Hf cs0 Fc) in Hd. destruct Fc as [Fc _]. destruct (Forall2_in_r _ _ _ d' Fc Hd) as (c & _ & l1 & l2 & -> & _). apply in_elt.
      - destruct (A8 ds' d' Hds Hd) as [Q|Q]; [|right; lia]. rewrite Ec in Q. apply in_app_iff in Q. destruct Q as [Q|Q]; [auto|].
        destruct (Kn cs) as [St|[cs0 Fc]]; [simpl; auto| |].
        + right. destruct (Forall2_in_r _ _ _ d' (Hs St) Q) as (c & _ & Q'). apply Q'.
        + left. rewrite (Hf cs0 Fc) in Q. destruct Fc as [Fc _]. destruct (Forall2_in_r _ _ _ d' Fc Q) as (c & _ & l1 & l2 & -> & _). apply in_elt. }
    split; [exists (cs' ++ l)%list; rewrite A9, Ec, <- app_assoc; reflexivity|]. split; [apply (more_trans h h1); auto|]. auto.
Qed.

(** ** The constructor *)
Lemma finish_same a h : settled_groups h a -> grid_finish a h = Ok tt h.
Proof.
  intros Sg. unfold grid_finish. change (get_grid a) with (gets (fun h => aob h a)). rewrite bind_gets.
  destruct (within_all (Some (WGrid a)) (a_groups (aob h a)) h) as (h1 & E1 & A1 & A2 & A3 & A4 & A5 & A6 & A7); [intros g Hg; apply (Sg g Hg)|].
  assert (Q1 : h1 = h).
  { apply heap_same; auto. intros g _. destruct (in_dec Nat.eq_dec g (a_groups (aob h a))) as [I|I]; [|apply A7, I].
    rewrite A6 by exact I. destruct (Sg g I) as (_ & _ & W & _). rewrite <- W. destruct (gob h g). reflexivity. }
  subst h1. rewrite (bind_ok _ _ _ _ _ E1). unfold set_group_names. change (get_grid a) with (gets (fun h => aob h a)). rewrite bind_gets.
  destruct (named_all a (a_groups (aob h a)) h) as (h2 & E2 & B1 & B2 & B3 & B4 & B5 & B6 & B7 & B8 & B9).
  { intros g Hg. destruct (Sg g Hg) as (Q1 & Q2 & Q3 & _). auto. }
  rewrite E2. f_equal. apply heap_same; auto. intros g _. destruct (in_dec Nat.eq_dec g (a_groups (aob h a))) as [I|I]; [|apply B7, I].
  destruct (Sg g I) as (_ & _ & _ & nm & N1 & N2). pose proof (B8 g nm N1 N2) as N3. rewrite <- N1 in N3. destruct (B6 g) as (R1 & R2 & R3 & R4).
  destruct (gob h2 g), (gob h g). simpl in *. congruence.
Qed.
Lemma c61_build : forall n h gs css, class_table h -> gs <> [] -> apart_groups h gs ->
  Forall2 (fun g cs => full_group h cs g /\ clear_chain h cs) gs css -> names_agree h css ->
  exists css' h', let a := List.length (h_grid h) in
    new_grid_groups n gs h = Ok a h' /\ a_groups (aob h' a) = gs /\ Forall2 (joined_in h h' a) gs css' /\ adds_only h h' a gs /\
    Forall2 (Forall2 (fun c c' => class_name h' c' = class_name h c)) css css' /\
    (forall cs' c', In cs' css' -> In c' cs' -> (List.length (h_cls h) <= c')%nat) /\
    (forall i j cs ds cs' ds', nth_error css i = Some cs -> nth_error css j = Some ds -> nth_error css' i = Some cs' -> nth_error css' j = Some ds' ->
       map (class_name h) cs = map (class_name h) ds -> cs' = ds').
Proof.
  intros n h gs css T Ne Ap F Ag. set (a := List.length (h_grid h)). set (h0 := Heap (h_cls h) (h_seq h) (h_tier h) (h_grp h) (h_grid h ++ [blank_grid])).
  assert (Ea : aob h0 a = blank_grid) by (unfold aob, h0, a; cbn [h_grid]; rewrite lookup_app_r by lia; rewrite Nat.sub_diag; reflexivity).
  destruct (append_each n a gs css h0) as (css' & h' & E & A1 & A2 & A3 & A4 & A5 & A6 & A7 & _ & A8 & A9 & A10).
  { exact T. }
  { unfold h0, a. cbn [h_grid]. rewrite app_length. cbn [List.length]. lia. }
  { rewrite Ea. intros c []. }
  { intros g Hg. rewrite Ea in Hg. destruct Hg. }
  { intros g _. rewrite Ea. intros []. }
  { exact Ap. }
  { eapply Forall2_weaken; [exact F|]. intros g cs _ _ [Q1 Q2]. split; [|exact Q2]. apply (full_kept h h0); [| |apply Q2|exact Q1].
    - split; [exact T|]. split; [exact T|]. split; [apply Nat.le_refl|auto].
    - split; [reflexivity|reflexivity|reflexivity|split; [reflexivity|split; [reflexivity|apply Nat.le_refl]]|]. intros k Q. exact Q. }
  { exact Ag. }
  { intros cs _. left. intros c d _ Hd. rewrite Ea in Hd. destruct Hd. }
  exists css', h'. cbv zeta. fold a. split.
  { unfold new_grid_groups. rewrite (bind_ok _ _ h a h0) by reflexivity. destruct gs as [|g gs]; [congruence|].
    rewrite (bind_ok _ _ _ _ _ E). rewrite (bind_ok _ _ _ _ _ (finish_same a h' A10)). reflexivity. }
  split; [rewrite A1, Ea; reflexivity|]. split; [exact A2|]. split.
  { destruct A3 as (B1 & B2 & B3 & B4 & B5 & B6 & B7 & B8 & B9 & B10 & B11). split; [exact B1|]. split; [exact B2|]. split; [exact B3|]. split; [exact B4|]. split; [exact B5|].
    split; [exact B6|]. split; [exact B7|]. split; [exact B8|]. split; [exact B9|]. assert (El : List.length (h_grid h0) = Datatypes.S (List.length (h_grid h))) by (unfold h0; cbn [h_grid]; rewrite app_length; cbn [List.length]; lia).
    split; [lia|]. intros b Hb Nb. rewrite B11; [|lia|exact Nb]. unfold aob, h0. cbn [h_grid]. rewrite lookup_app_l by exact Hb. reflexivity. }
  split; [exact A5|]. split.
  { intros cs' c' Hcs Hc. destruct (A7 cs' c' Hcs Hc) as [Q|Q]; [rewrite Ea in Q; destruct Q|exact Q]. }
  intros i j cs ds cs' ds' Hi Hj Hi' Hj' En.
  assert (Q1 : familiar h' a cs cs').
  { clear -A6 Hi Hi'. revert i Hi Hi'. induction A6 as [|x y l m Q F IH]; intros [|i] Hi Hi'; try discriminate; cbn in *; [congruence|eauto]. }
  assert (Q2 : familiar h' a ds ds').
  { clear -A6 Hj Hj'. revert j Hj Hj'. induction A6 as [|x y l m Q F IH]; intros [|j] Hj Hj'; try discriminate; cbn in *; [congruence|eauto]. }
  assert (Lv : forall ds, In ds css -> forall d, In d ds -> clive h0 d).
  { intros es Hes d Hd. destruct (Forall2_in_r _ _ _ es F Hes) as (k & _ & _ & Q). apply (clear_live h es d T Q Hd). }
  assert (Nn : forall ds, In ds css -> map (class_name h') ds = map (class_name h) ds).
  { intros es Hes. apply map_ext_in. intros d Hd. apply (more_name h0 h'); [exact A8|]. apply (Lv es Hes d Hd). }
  assert (Q3 : familiar h' a ds cs').
  { apply (familiar_names h' a cs); [|exact Q1]. rewrite !Nn by (eapply nth_error_In; eauto). exact En. }
  destruct Q2 as [Q2 _], Q3 as [Q3 _]. clear -Q2 Q3. revert cs' Q3. induction Q2 as [|d d' ds ds' P Q2 IH]; intros cs' Q3; inversion Q3; subst; [reflexivity|].
  f_equal; [eapply first_unique; eauto|apply IH; assumption].
Qed.
End WithEnv.
