(** * GroupFinal: arranging and relating the tiers of a group. *)
From Coq Require Import Sorting.Sorted.
From Verif Require Export PairFinal TierFinal.
Open Scope Z_scope.

Section WithEnv.
Context `{Env}.

(** ** Giving an interval children that have no parent *)
Definition put_kids (b : list oid) (c : cid) (o : seqobj) : seqobj :=
  set_s_contains CAlias (set_s_subec (Some c) (set_s_subset b o)).
Definition kid_of (u : oid) (o o' : seqobj) : Prop :=
  s_cls o' = s_cls o /\ s_start o' = s_start o /\ s_end o' = s_end o /\ s_label o' = s_label o /\
  s_super o' = Some u /\ s_subset o' = s_subset o /\ s_subec o' = s_subec o /\
  s_intier o' = s_intier o /\ s_within o' = Some (WSeq u) /\ s_contains o' = s_contains o.
Record wired (c : cid) (U : list oid) (bs : list (list oid)) (h h' : heap) : Prop := {
  wi_rest : h_cls h' = h_cls h /\ h_tier h' = h_tier h /\ h_grp h' = h_grp h /\ h_grid h' = h_grid h;
  wi_len : (List.length (h_seq h) <= List.length (h_seq h'))%nat;
  wi_new : forall i, live h' i -> ~ live h i -> is_boundary h' i;
  wi_same : forall i, live h i -> ~ In i U -> ~ In i (concat bs) -> sob h' i = sob h i;
  wi_up : Forall2 (fun u b => sob h' u = put_kids b c (sob h u)) U bs;
  wi_kid : Forall2 (fun u b => forall y, In y b -> kid_of u (sob h y) (sob h' y)) U bs;
  wi_chain : Forall2 (fun _ b => chained h' b) U bs
}.

Lemma upd_still f x h : f (sob h x) = sob h x -> upd_seq x f h = h.
Proof.
  intros E. unfold upd_seq. destruct h as [K Q T G A]. unfold sob in E. simpl in *. f_equal.
  revert x E. induction Q as [|q Q IH]; intros x E; [reflexivity|]. destruct x as [|x]; simpl in *.
  - rewrite E. reflexivity.
  - f_equal. apply IH. exact E.
Qed.
Lemma take_own u l : forall h, (forall y, In y l -> (s_super (sob h y) = None \/ s_super (sob h y) = Some u) /\ live h y) -> NoDup l ->
  forM l (fun x => xo <- get_seq x ;;
    if bool_decide (s_super xo = Some u) then ret tt
    else remove_superset x ;;; mod_seq x (set_s_super (Some u))) h = Ok tt (upds (set_s_super (Some u)) l h).
Proof.
  induction l as [|x l IH]; intros h K N; simpl; [reflexivity|]. apply NoDup_cons in N. destruct N as [Nx N].
  rewrite elem_of_list_In in Nx. destruct (K x) as [Sx Lx]; [simpl; auto|]. mstep. mstep.
  assert (K' : forall y, In y l -> (s_super (sob (upd_seq x (set_s_super (Some u)) h) y) = None \/ s_super (sob (upd_seq x (set_s_super (Some u)) h) y) = Some u)
            /\ live (upd_seq x (set_s_super (Some u)) h) y).
  { intros y Hy. destruct (K y) as [Sy Ly]; [simpl; auto|]. rewrite live_upd. split; [|exact Ly].
    destruct (Nat.eq_dec y x) as [->|Hne]; [contradiction|]. rewrite sob_upd_ne by auto. exact Sy. }
  destruct Sx as [Sx|Sx]; rewrite Sx.
  - rewrite bool_decide_eq_false_2 by congruence.
    assert (E : remove_superset x h = Ok tt h) by (unfold remove_superset; rewrite Sx; reflexivity).
    rewrite bind_assoc. rewrite (bind_ok _ _ _ _ _ E). mstep. apply IH; auto.
  - rewrite bool_decide_eq_true_2 by reflexivity. mstep. rewrite <- (upd_still (set_s_super (Some u)) x h) at 1; [apply IH; auto|].
    destruct (sob h x). simpl in *. rewrite Sx. reflexivity.
Qed.

Lemma adopt_own u b c h : live h u -> subset_class h (s_cls (sob h u)) = Some c -> linkable h c b -> b <> [] ->
  sorted_starts h b -> known_starts h b -> (forall y, In y b -> s_super (sob h y) = None \/ s_super (sob h y) = Some u) -> ~ In u b ->
  s_label (sob h u) <> "#"%string ->
  exists h', set_subset_list u b h = Ok tt h' /\ wired c [u] [b] h h'.
Proof.
  intros Lu Hsc [Nd Hall] Hne Hs Hk Hsup Hub Hlu.
  destruct (sl_init_spec h c b) as (b' & Ei & _ & _ & Eq); [intros x Hx; apply Hall; auto|exact Hk|].
  rewrite (Eq Hs) in Ei. clear b' Eq. destruct b as [|b0 br] eqn:Eb; [congruence|]. rewrite <- Eb in *.
  assert (Ei' : sl_init b h = Ok (Slv b (Some c)) h) by (rewrite Ei; rewrite Eb; reflexivity). clear Ei.
  set (f := fun o => set_s_contains (unalias (s_contains o) (s_subset o)) (set_s_subec (Some c) (set_s_subset b o))).
  set (h1 := upd_seq u f h).
  set (h2 := upds (set_s_super (Some u)) b h1).
  set (h3 := upd_seq u (set_s_contains CAlias) h2).
  set (h4 := upds (set_s_within (Some (WSeq u))) b h3).
  assert (L1 : forall i, live h1 i <-> live h i) by (intros; apply live_upd).
  assert (L2 : forall i, live h2 i <-> live h i) by (intros; unfold h2; rewrite live_upds; auto).
  assert (L3 : forall i, live h3 i <-> live h i) by (intros; unfold h3; rewrite live_upd; auto).
  assert (L4 : forall i, live h4 i <-> live h i) by (intros; unfold h4; rewrite live_upds; auto).
  assert (Ub : forall y, In y b -> y <> u) by (intros y Hy ->; contradiction).
  assert (S4u : sob h4 u = put_kids b c (sob h u)).
  { unfold h4. rewrite sob_upds_notin by auto. unfold h3. rewrite sob_upd_eq by (apply L2; auto).
    unfold h2. rewrite sob_upds_notin by auto. unfold h1. rewrite sob_upd_eq by auto. reflexivity. }
  assert (S4y : forall y, In y b -> sob h4 y = set_s_within (Some (WSeq u)) (set_s_super (Some u) (sob h y))).
  { intros y Hy. destruct (Hall y Hy) as (Ly & _). unfold h4. rewrite sob_upds_in by (auto; apply L3; auto).
    unfold h3. rewrite sob_upd_ne by auto. unfold h2. rewrite sob_upds_in by (auto; apply L1; auto).
    unfold h1. rewrite sob_upd_ne by auto. reflexivity. }
  assert (S4o : forall i, i <> u -> ~ In i b -> sob h4 i = sob h i).
  { intros i Hi Hb. unfold h4. rewrite sob_upds_notin by auto. unfold h3. rewrite sob_upd_ne by auto.
    unfold h2. rewrite sob_upds_notin by auto. unfold h1. rewrite sob_upd_ne by auto. reflexivity. }
  assert (Rest4 : h_cls h4 = h_cls h /\ h_tier h4 = h_tier h /\ h_grp h4 = h_grp h /\ h_grid h4 = h_grid h).
  { unfold h4. destruct (upds_rest (set_s_within (Some (WSeq u))) b h3) as (-> & -> & -> & ->).
    change (h_cls h3) with (h_cls h2). change (h_tier h3) with (h_tier h2). change (h_grp h3) with (h_grp h2).
    change (h_grid h3) with (h_grid h2). unfold h2.
    destruct (upds_rest (set_s_super (Some u)) b h1) as (-> & -> & -> & ->). auto. }
  assert (Sub4 : s_subset (sob h4 u) = b) by (rewrite S4u; reflexivity).
  destruct (set_subset_precedence_ok u c h4) as (h5 & E5 & (R1 & R2 & R3 & R4 & R5 & R6 & R7) & F5 & C5).
  { rewrite Sub4. exact Nd. }
  { rewrite Sub4. intros y Hy. destruct (Hall y Hy) as (Ly & Cy & Hy'). rewrite S4y by auto. rewrite L4. auto. }
  rewrite Sub4 in F5, C5.
  exists h5. split.
  - unfold set_subset_list. mstep. rewrite Hsc.
    rewrite (bind_ok _ _ _ _ _ (mapM_isinstance c b h)).
    assert (Eall : forallb id (map (fun x => issubclass h (s_cls (sob h x)) c) b) = true).
    { apply forallb_forall. intros v Hv. apply in_map_iff in Hv. destruct Hv as (z & <- & Hz). unfold id.
      destruct (Hall z Hz) as (_ & -> & _). apply issubclass_refl. }
    rewrite Eall. rewrite (bind_ok _ _ _ _ _ Ei'). unfold rebind_subset. mstep. cbn [sv_vals sv_ec]. fold f. fold h1.
    assert (K1 : forall y, In y b -> (s_super (sob h1 y) = None \/ s_super (sob h1 y) = Some u) /\ live h1 y).
    { intros y Hy. destruct (Hall y Hy) as (Ly & _). unfold h1. rewrite sob_upd_ne by auto. rewrite live_upd. auto. }
    rewrite (bind_ok _ _ _ _ _ (take_own u b h1 K1 Nd)).
    fold h2. unfold seq_set_contains. mstep. mstep. mstep. mstep. fold h3.
    assert (E2 : s_subset (sob h2 u) = b) by (unfold h2; rewrite sob_upds_notin by auto; unfold h1; rewrite sob_upd_eq by auto; reflexivity).
    rewrite E2. rewrite (bind_ok _ _ _ _ _ (forM_mod_seq _ b h3)). fold h4. exact E5.
  - constructor.
    + destruct Rest4 as (Q1 & Q2 & Q3 & Q4). rewrite R1, R2, R3, R4. auto.
    + assert (Q : List.length (h_seq h4) = List.length (h_seq h)).
      { unfold h4. rewrite len_upds. unfold h3. rewrite len_upd_seq. unfold h2. rewrite len_upds. unfold h1. apply len_upd_seq. }
      lia.
    + intros i Li Ni. apply boundary_is_boundary; [exact Li|]. apply R7; [exact Li|]. rewrite L4. exact Ni.
    + intros i Li Nu Nb. simpl in Nu, Nb. rewrite app_nil_r in Nb. rewrite F5 by (auto; apply L4; auto). apply S4o; auto.
    + constructor; [|constructor]. rewrite F5 by (auto; apply L4; auto). exact S4u.
    + constructor; [|constructor]. intros y Hy. destruct (Hall y Hy) as (Ly & _).
      assert (Q := R6 y (proj2 (L4 y) Ly)). rewrite (S4y y Hy) in Q. apply erase_fields in Q. simpl in Q. unfold kid_of. intuition.
    + constructor; [|constructor]. exact C5.
Qed.

Lemma adopt_fresh u b c h : live h u -> subset_class h (s_cls (sob h u)) = Some c -> linkable h c b -> b <> [] ->
  sorted_starts h b -> known_starts h b -> (forall y, In y b -> s_super (sob h y) = None) -> ~ In u b ->
  s_label (sob h u) <> "#"%string ->
  exists h', set_subset_list u b h = Ok tt h' /\ wired c [u] [b] h h'.
Proof. intros. apply adopt_own; auto. Qed.

(** ** Relating two tiers whose blocks are known *)
Record ready (cU c : cid) (U : list oid) (bs : list (list oid)) (h : heap) : Prop := {
  re_U : NoDup U;
  re_L : NoDup (concat bs);
  re_sep : forall x, In x U -> ~ In x (concat bs);
  re_up : forall u, In u U -> live h u /\ s_cls (sob h u) = cU /\ s_label (sob h u) <> "#"%string;
  re_kid : forall y, In y (concat bs) -> live h y /\ s_cls (sob h y) = c /\ s_label (sob h y) <> "#"%string /\ s_super (sob h y) = None;
  re_cls : subset_class h cU = Some c;
  re_block : forall b, In b bs -> b <> [] /\ known_starts h b /\ sorted_starts h b
}.

Lemma in_concat' {A} (x : A) b bs : In b bs -> In x b -> In x (concat bs).
Proof. intros. apply in_concat. eauto. Qed.

Lemma ready_ext cU c U bs h h' : (forall i, In i U \/ In i (concat bs) -> sob h' i = sob h i) ->
  (forall i, live h i -> live h' i) -> h_cls h' = h_cls h -> ready cU c U bs h -> ready cU c U bs h'.
Proof.
  intros S L C [R1 R2 R3 R4 R5 R6 R7]. constructor; auto.
  - intros u Hu. rewrite S by auto. destruct (R4 u Hu) as (A & B & D). auto.
  - intros y Hy. rewrite S by auto. destruct (R5 y Hy) as (A & B & D). auto.
  - rewrite (subset_class_ext h h') by auto. exact R6.
  - intros b Hb. destruct (R7 b Hb) as (A & B & D). split; [exact A|]. split.
    + intros x Hx. rewrite S; [apply B; auto|]. right. eapply in_concat'; eauto.
    + eapply sorted_ext; [|exact D]. intros x Hx. rewrite S; [reflexivity|]. right. eapply in_concat'; eauto.
Qed.
Lemma ready_tail cU c u U b bs h : ready cU c (u :: U) (b :: bs) h -> ready cU c U bs h.
Proof.
  intros [R1 R2 R3 R4 R5 R6 R7]. simpl in R2. apply NoDup_app in R2. destruct R2 as (_ & _ & R2).
  apply NoDup_cons in R1. destruct R1 as [_ R1]. constructor; auto.
  - intros x Hx Hi. apply (R3 x); simpl; auto. apply in_or_app. auto.
  - intros x Hx. apply R4. simpl. auto.
  - intros x Hx. apply R5. simpl. apply in_or_app. auto.
  - intros x Hx. apply R7. simpl. auto.
Qed.

Lemma Forall2_weaken {A B} (P Q : A -> B -> Prop) W K : Forall2 P W K ->
  (forall w k, In w W -> In k K -> P w k -> Q w k) -> Forall2 Q W K.
Proof.
  induction 1 as [|w k W K Hwk _ IH]; intros G; constructor; [apply G; simpl; auto|].
  apply IH. intros a b Ha Hb. apply G; simpl; auto.
Qed.
Lemma wired_cons c cU u b U bs h h1 h2 : ready cU c (u :: U) (b :: bs) h ->
  wired c [u] [b] h h1 -> wired c U bs h1 h2 -> wired c (u :: U) (b :: bs) h h2.
Proof.
  intros R W1 W2. pose proof R as [R1 R2 R3 R4 R5 R6 R7].
  simpl in R2. apply NoDup_app in R2. destruct R2 as (Nb & Nbb & R2).
  apply NoDup_cons in R1. destruct R1 as [Nu R1]. rewrite elem_of_list_In in Nu.
  assert (Nbb' : forall y, In y b -> ~ In y (concat bs)).
  { intros y Hy Hy'. apply (Nbb y); apply elem_of_list_In; auto. }
  assert (Lv : forall i, live h i -> live h1 i) by (intros i Hi; pose proof (wi_len _ _ _ _ _ W1); unfold live in *; lia).
  assert (Sb : forall y, In y b -> sob h2 y = sob h1 y).
  { intros y Hy. apply (wi_same _ _ _ _ _ W2); auto.
    - apply Lv, R5. simpl. apply in_or_app. auto.
    - intros Hi. apply (R3 y); simpl; auto. apply in_or_app. auto. }
  assert (Su : sob h2 u = sob h1 u).
  { apply (wi_same _ _ _ _ _ W2); auto; [apply Lv, R4; simpl; auto|]. intros Hi. apply (R3 u); simpl; auto. apply in_or_app. auto. }
  assert (S1 : forall i, live h i -> i <> u -> ~ In i b -> sob h1 i = sob h i).
  { intros i Hi Hu Hb. apply (wi_same _ _ _ _ _ W1); auto; simpl.
    - intros [->|[]]. congruence.
    - rewrite app_nil_r. auto. }
  assert (SU : forall v, In v U -> sob h1 v = sob h v).
  { intros v Hv. apply S1.
    - apply R4. simpl. auto.
    - intros ->. contradiction.
    - intros Hi. apply (R3 v); simpl; auto. apply in_or_app. auto. }
  assert (SL : forall y, In y (concat bs) -> sob h1 y = sob h y).
  { intros y Hy. apply S1.
    - apply R5. simpl. apply in_or_app. auto.
    - intros ->. apply (R3 u); simpl; auto. apply in_or_app. auto.
    - intros Hi. exact (Nbb' y Hi Hy). }
  assert (Bd : forall k, is_boundary h1 k -> is_boundary h2 k).
  { intros k Bk. assert (Sk : sob h2 k = sob h1 k).
    { apply (wi_same _ _ _ _ _ W2); [apply Bk| |].
      - intros Hk. destruct (R4 k) as (_ & _ & Q); [simpl; auto|]. rewrite <- (SU k Hk) in Q. apply Q. apply Bk.
      - intros Hk. destruct (R5 k) as (_ & _ & Q & _); [simpl; apply in_or_app; auto|]. rewrite <- (SL k Hk) in Q. apply Q. apply Bk. }
    unfold is_boundary in *. rewrite Sk. pose proof (wi_len _ _ _ _ _ W2). split; [lia|apply Bk]. }
  constructor.
  - destruct (wi_rest _ _ _ _ _ W1) as (A1 & A2 & A3 & A4). destruct (wi_rest _ _ _ _ _ W2) as (B1 & B2 & B3 & B4).
    split; [congruence|]. split; [congruence|]. split; congruence.
  - pose proof (wi_len _ _ _ _ _ W1). pose proof (wi_len _ _ _ _ _ W2). lia.
  - intros i Li Ni. destruct (decide (live h1 i)) as [L1|L1].
    + apply Bd. apply (wi_new _ _ _ _ _ W1); auto.
    + apply (wi_new _ _ _ _ _ W2); auto.
  - intros i Li Hi Hb. simpl in Hi, Hb. rewrite (wi_same _ _ _ _ _ W2).
    + apply S1; auto. intros Hi'. apply Hb. apply in_or_app. auto.
    + auto.
    + auto.
    + intros Hi'. apply Hb. apply in_or_app. auto.
  - constructor.
    + rewrite Su. pose proof (wi_up _ _ _ _ _ W1) as Q. inversion Q; auto.
    + eapply Forall2_weaken; [apply (wi_up _ _ _ _ _ W2)|]. intros v k Hv _ E. rewrite E, SU by auto. reflexivity.
  - constructor.
    + intros y Hy. rewrite Sb by auto. pose proof (wi_kid _ _ _ _ _ W1) as Q. inversion Q; auto.
    + eapply Forall2_weaken; [apply (wi_kid _ _ _ _ _ W2)|]. intros v k _ Hk E y Hy. rewrite <- SL; [auto|].
      eapply in_concat'; eauto.
  - constructor.
    + pose proof (wi_chain _ _ _ _ _ W1) as Q. inversion Q as [|? ? ? ? Q1]; subst.
      eapply chained_ext; [|exact Bd|exact Q1]. intros x Hx. rewrite Sb by auto. auto.
    + apply W2.
Qed.

Lemma relate_all_ready n ut lt cU c : forall U bs pre h, t_seq (tob h ut) = (pre ++ U)%list ->
  List.length bs = List.length U -> ready cU c U bs h ->
  exists h', relate_all n ut lt false false (List.length pre) bs h = Ok tt h' /\ wired c U bs h h'.
Proof.
  induction U as [|u U IH]; intros [|b bs] pre h Hs Hl R; simpl in Hl; try discriminate.
  - exists h. split; [reflexivity|]. constructor; auto; try constructor; auto; try (intros; contradiction).
  - pose proof R as [R1 R2 R3 R4 R5 R6 R7].
    destruct (R4 u) as (Lu & Cu & Hu); [simpl; auto|]. destruct (R7 b) as (Nb & Kb & Sb); [simpl; auto|].
    destruct (adopt_fresh u b c h) as (h1 & E1 & W1); auto.
    + rewrite Cu. exact R6.
    + split.
      * simpl in R2. apply NoDup_app in R2. apply R2.
      * intros x Hx. destruct (R5 x) as (A & B & D & _); [simpl; apply in_or_app; auto|]. auto.
    + intros y Hy. apply R5. simpl. apply in_or_app. auto.
    + intros Hi. apply (R3 u); simpl; auto. apply in_or_app. auto.
    + assert (T1 : tob h1 ut = tob h ut) by (apply tob_ext; apply (wi_rest _ _ _ _ _ W1)).
      destruct (IH bs (pre ++ [u])%list h1) as (h2 & E2 & W2).
      * rewrite T1, Hs, <- app_assoc. reflexivity.
      * lia.
      * apply (ready_ext cU c U bs h).
        -- intros i Hi. simpl in R2. apply NoDup_app in R2. destruct R2 as (_ & Nbb & _).
           apply NoDup_cons in R1. destruct R1 as [Nu _]. rewrite elem_of_list_In in Nu.
           apply (wi_same _ _ _ _ _ W1).
           ++ destruct Hi as [Hi|Hi]; [apply R4; simpl; auto|apply R5; simpl; apply in_or_app; auto].
           ++ simpl. intros [->|[]]. destruct Hi as [Hi|Hi]; [auto|]. apply (R3 i); simpl; auto. apply in_or_app; auto.
           ++ simpl. rewrite app_nil_r. intros Hb. destruct Hi as [Hi|Hi].
              ** apply (R3 i); simpl; auto. apply in_or_app; auto.
              ** apply (Nbb i); apply elem_of_list_In; auto.
        -- intros i Hi. pose proof (wi_len _ _ _ _ _ W1). unfold live in *. lia.
        -- apply (wi_rest _ _ _ _ _ W1).
        -- eapply ready_tail; eauto.
      * exists h2. split; [|eapply wired_cons; eauto].
        rewrite app_length in E2. simpl in E2. replace (List.length pre + 1)%nat with (S (List.length pre)) in E2 by lia.
        cbn [relate_all].
        assert (Eo : relate_one n ut lt false false (List.length pre) b h = Ok tt h1).
        { unfold relate_one. mstep. rewrite Hs. rewrite nth_error_app2, Nat.sub_diag by lia. cbn [nth_error].
          rewrite (bind_ok _ _ _ _ _ E1). mstep. pose proof (wi_up _ _ _ _ _ W1) as Q. inversion Q as [|? ? ? ? Q1]; subst.
          rewrite Q1. cbn [put_kids s_subset set_s_contains set_s_subec set_s_subset]. destruct b; [congruence|]. reflexivity. }
        rewrite (bind_ok _ _ _ _ _ Eo). exact E2.
Qed.

(** ** Times of snug tiers *)
Lemma dated_by h x a b : s_start (sob h x) = Some a -> s_end (sob h x) = Some b -> a < b -> dated h x /\ span_of h x = (a, b).
Proof. intros A B C. unfold dated, span_of. rewrite A, B. auto. Qed.
Opaque span_of.

Lemma tiles_in h l : forall a b y, tiles h a l b -> In y l -> dated h y /\ a <= fst (span_of h y) /\ snd (span_of h y) <= b.
Proof.
  assert (Le : forall l a b, tiles h a l b -> a <= b).
  { induction l0 as [|x l0 IH]; simpl; intros a b; [intros ->; lia|]. intros (m & _ & _ & Hm & T). apply IH in T. lia. }
  induction l as [|x l IH]; simpl; intros a b y T; [intros []|]. destruct T as (m & A & B & Hm & T).
  pose proof (Le _ _ _ T). destruct (dated_by h x a m A B Hm) as [D S]. intros [<-|Hy].
  - split; [exact D|]. rewrite S. simpl. lia.
  - destruct (IH m b y T Hy) as (D' & P & Q). split; [exact D'|]. lia.
Qed.
Lemma tiles_sorted h l : forall a b, tiles h a l b -> sorted_starts h l.
Proof.
  induction l as [|x l IH]; simpl; intros a b T i j p q Hij Hp Hq; [destruct i; discriminate|].
  destruct T as (m & A & B & Hm & T). destruct i as [|i].
  - injection Hp as <-. destruct j as [|j]; [lia|]. simpl in Hq. apply nth_error_In in Hq.
    destruct (tiles_in h l m b q T Hq) as ((D & _) & P & _). exists a, (fst (span_of h q)). split; [exact A|]. split; [exact D|lia].
  - destruct j as [|j]; [lia|]. simpl in Hp, Hq. apply (IH m b T i j p q); auto. lia.
Qed.
Lemma tiles_sum h l : forall a b, tiles h a l b -> zsum (map (fun x => snd (span_of h x) - fst (span_of h x)) l) = b - a.
Proof.
  induction l as [|x l IH]; simpl; intros a b; [intros ->; lia|]. intros (m & A & B & Hm & T).
  destruct (dated_by h x a m A B Hm) as [_ S]. rewrite (IH m b T), S. simpl. lia.
Qed.
Lemma tiles_ends h l : forall a b y, tiles h a l b -> In y l ->
  In (snd (span_of h y)) (map (fun x => fst (span_of h x)) l) \/ snd (span_of h y) = b.
Proof.
  induction l as [|x l IH]; simpl; intros a b y T; [intros []|]. destruct T as (m & A & B & Hm & T).
  destruct (dated_by h x a m A B Hm) as [_ S]. intros [<-|Hy].
  - rewrite S. simpl. destruct l as [|z l]; simpl in T; [right; auto|]. destruct T as (k & A' & B' & Hk & T).
    destruct (dated_by h z m k A' B' Hk) as [_ S']. left. right. left. rewrite S'. reflexivity.
  - destruct (IH m b y T Hy) as [Q|Q]; auto.
Qed.

Lemma starts_dated h l : (forall x, In x l -> dated h x) -> all_some (starts_of h l) = Some (map (fun x => fst (span_of h x)) l).
Proof.
  intros K. unfold starts_of. replace (map (start_of h) l) with (map Some (map (fun x => fst (span_of h x)) l)).
  - apply all_some_Some.
  - rewrite map_map. apply map_ext_in. intros x Hx. symmetry. apply (K x Hx).
Qed.
Lemma ends_dated h l : (forall x, In x l -> dated h x) -> (forall x, In x l -> is_point h x = false) ->
  all_some (ends_of h l) = Some (map (fun x => snd (span_of h x)) l).
Proof.
  intros K P. unfold ends_of. replace (map (end_of h) l) with (map Some (map (fun x => snd (span_of h x)) l)).
  - apply all_some_Some.
  - rewrite map_map. apply map_ext_in. intros x Hx. symmetry. unfold end_of.
    specialize (P x Hx). unfold is_point in P. unfold is_point_cls. rewrite P. apply (K x Hx).
Qed.

(** ** numpy's unique *)
Lemma insert_uniq_in x l y : In y (insert_uniq x l) <-> y = x \/ In y l.
Proof.
  induction l as [|z l IH]; simpl; [intuition|]. destruct (x <? z) eqn:E1; [simpl; intuition|].
  destruct (x =? z) eqn:E2; [apply Z.eqb_eq in E2; subst; simpl; intuition|]. simpl. rewrite IH. intuition.
Qed.
Lemma np_unique_in l y : In y (np_unique l) <-> In y l.
Proof. unfold np_unique. induction l as [|x l IH]; simpl; [tauto|]. rewrite insert_uniq_in, IH. intuition. Qed.
Lemma insert_uniq_sorted x l : StronglySorted Z.lt l -> StronglySorted Z.lt (insert_uniq x l).
Proof.
  induction 1 as [|z l S IH F]; simpl; [repeat constructor|]. rewrite List.Forall_forall in F.
  destruct (x <? z) eqn:E1; [apply Z.ltb_lt in E1|apply Z.ltb_ge in E1].
  - constructor; [constructor; [auto|apply List.Forall_forall; auto]|]. apply List.Forall_forall.
    intros y [<-|Hy]; [auto|]. specialize (F y Hy). lia.
  - destruct (x =? z) eqn:E2; [apply Z.eqb_eq in E2|apply Z.eqb_neq in E2].
    + constructor; [auto|apply List.Forall_forall; auto].
    + constructor; [auto|]. apply List.Forall_forall. intros y Hy. apply insert_uniq_in in Hy.
      destruct Hy as [->|Hy]; [lia|auto].
Qed.
Lemma np_unique_sorted l : StronglySorted Z.lt (np_unique l).
Proof. unfold np_unique. induction l as [|x l IH]; simpl; [constructor|]. apply insert_uniq_sorted, IH. Qed.
Lemma removelast_lt l : StronglySorted Z.lt l -> forall x, In x (removelast l) -> exists y, In y l /\ x < y.
Proof.
  induction 1 as [|z l S IH F]; intros x Hx; [destruct Hx|]. rewrite List.Forall_forall in F.
  destruct l as [|w l]; [destruct Hx|]. simpl in Hx. destruct Hx as [<-|Hx].
  - exists w. split; [simpl; auto|]. apply F. simpl. auto.
  - destruct (IH x Hx) as (y & Hy & Hlt). exists y. split; [right; exact Hy|exact Hlt].
Qed.
Lemma removelast_in {A} (l : list A) x : In x (removelast l) -> In x l.
Proof.
  induction l as [|y l IH]; intros Hx; [destruct Hx|]. destruct l as [|z l]; [destruct Hx|].
  simpl in Hx. destruct Hx as [<-|Hx]; [simpl; auto|]. right. apply IH. exact Hx.
Qed.
Lemma filter_nil {A} (f : A -> bool) l : (forall x, In x l -> f x = false) -> List.filter f l = [].
Proof.
  induction l as [|x l IH]; intros K; simpl; [auto|]. rewrite (K x) by (simpl; auto). apply IH. intros y Hy. apply K. simpl. auto.
Qed.
Lemma zin_true x l : zin x l = true <-> In x l.
Proof. unfold zin. rewrite existsb_exists. split; [intros (y & Hy & E); apply Z.eqb_eq in E; congruence|]. intros Hx. exists x. rewrite Z.eqb_refl. auto. Qed.

Lemma tiles_gapless h l a b : tiles h a l b ->
  gap_pairs (map (fun x => fst (span_of h x)) l) (map (fun x => snd (span_of h x)) l) = [].
Proof.
  intros T. unfold gap_pairs. rewrite filter_nil; [reflexivity|]. intros x Hx. apply negb_false_iff, zin_true.
  destruct (removelast_lt _ (np_unique_sorted _) x Hx) as (y & Hy & Hlt).
  apply removelast_in in Hx. rewrite np_unique_in in Hx, Hy. apply in_app_or in Hx. destruct Hx as [Hx|Hx]; [exact Hx|].
  apply in_map_iff in Hx. destruct Hx as (z & <- & Hz). destruct (tiles_ends h l a b z T Hz) as [Q|Q]; [exact Q|].
  exfalso. apply in_app_or in Hy. destruct Hy as [Hy|Hy]; apply in_map_iff in Hy; destruct Hy as (w & <- & Hw);
    destruct (tiles_in h l a b w T Hw) as ((_ & _ & D) & P1 & P2); lia.
Qed.

Lemma close_gaps_snug h b c s e : tiles h s b e -> (forall x, In x b -> is_point h x = false) ->
  close_gaps (Slv b c) h = Ok (Slv b c) h.
Proof.
  intros T P. unfold close_gaps. mstep. mstep. cbn [sv_vals].
  assert (D : forall x, In x b -> dated h x) by (intros x Hx; apply (tiles_in h b s e x T Hx)).
  rewrite starts_dated, ends_dated by auto. destruct (close_first_end _ _); [reflexivity|].
  rewrite (tiles_gapless h b s e T). reflexivity.
Qed.
Lemma durations_dated h l : (forall x, In x l -> dated h x) -> (forall x, In x l -> is_point h x = false) ->
  durations h l = Some (map (fun x => snd (span_of h x) - fst (span_of h x)) l).
Proof.
  intros D P. unfold durations. rewrite starts_dated, ends_dated by auto. f_equal.
  clear. induction l as [|x l IH]; simpl; [auto|]. f_equal. exact IH.
Qed.
Lemma allclose_refl l : allclose l l = true.
Proof.
  induction l as [|x l IH]; simpl; [auto|]. rewrite IH, andb_true_r. apply isclose_spec. unfold near.
  pose proof atol_nonneg. lia.
Qed.
Lemma list_max_ge l x : In x l -> x <= TierOps.list_max l.
Proof.
  assert (G : forall l a, a <= fold_left Z.max l a /\ forall x, In x l -> x <= fold_left Z.max l a).
  { induction l0 as [|y l0 IH]; intros a; simpl; [split; [lia|intros ? []]|]. destruct (IH (Z.max a y)) as [A B].
    split; [lia|]. intros z [<-|Hz]; [lia|auto]. }
  destruct l as [|y l]; simpl; [intros []|]. destruct (G l y) as [A B]. intros [<-|Hx]; auto.
Qed.

Lemma list_max_le l b : l <> [] -> (forall x, In x l -> x <= b) -> TierOps.list_max l <= b.
Proof.
  assert (G : forall l a, a <= b -> (forall x, In x l -> x <= b) -> fold_left Z.max l a <= b).
  { induction l0 as [|y l0 IH]; intros a Ha K; simpl; [exact Ha|]. apply IH; [|intros x Hx; apply K; simpl; auto].
    pose proof (K y ltac:(simpl; auto)). lia. }
  destruct l as [|y l]; intros N K; [congruence|]. simpl. apply G; [apply K; simpl; auto|intros x Hx; apply K; simpl; auto].
Qed.

Lemma map_steps {A} (F : A -> nat) bs : forall k,
  (forall i b y, nth_error bs i = Some b -> In y b -> F y = (k + i)%nat) ->
  map F (concat bs) = steps k (map (@List.length A) bs).
Proof.
  induction bs as [|b bs IH]; intros k K; simpl; [auto|]. rewrite map_app. f_equal.
  - assert (Kb : forall y, In y b -> F y = k) by (intros y Hy; rewrite (K 0%nat b y); auto).
    clear -Kb. induction b as [|y b IH]; simpl; [auto|]. rewrite Kb by (simpl; auto). f_equal. apply IH. intros z Hz. apply Kb. simpl. auto.
  - apply IH. intros i b' y Hb Hy. rewrite (K (S i) b' y Hb Hy). lia.
Qed.
Lemma block_at {A} (bs : list (list A)) : forall i b, nth_error bs i = Some b ->
  firstn (nth i (map (@List.length A) bs) 0%nat) (skipn (list_sum (firstn i (map (@List.length A) bs))) (concat bs)) = b.
Proof.
  induction bs as [|b0 bs IH]; intros i b Hb; [destruct i; discriminate|]. destruct i as [|i]; simpl in *.
  - injection Hb as <-. rewrite drop_0, firstn_app, Nat.sub_diag, firstn_all. simpl. apply app_nil_r.
  - rewrite skipn_app. rewrite skipn_all2 by lia. simpl.
    replace (List.length b0 + list_sum (firstn i (map (@List.length A) bs)) - List.length b0)%nat
      with (list_sum (firstn i (map (@List.length A) bs))) by lia. apply IH; auto.
Qed.

(** ** Relating two snug tiers *)
Lemma Forall2_fun {A B} (f : A -> B) l ys : Forall2 (fun x y => y = f x) l ys -> ys = map f l.
Proof. induction 1; simpl; congruence. Qed.
Lemma Forall2_nth {A B} (P : A -> B -> Prop) l k : Forall2 P l k -> forall i a b,
  nth_error l i = Some a -> nth_error k i = Some b -> P a b.
Proof.
  induction 1 as [|x y l k Pxy _ IH]; intros i a b Ha Hb; [destruct i; discriminate|]. destruct i as [|i]; simpl in *; [congruence|eauto].
Qed.
Lemma map_nth_seq {A} (d : A) l : map (fun i => nth i l d) (seq 0 (List.length l)) = l.
Proof. induction l as [|x l IH]; simpl; [auto|]. f_equal. rewrite <- seq_shift, map_map. exact IH. Qed.

Lemma fills_dated h u b : fills h u b -> dated h u /\ tiles h (fst (span_of h u)) b (snd (span_of h u)).
Proof.
  intros (s & e & A & B & C & T). destruct (dated_by h u s e A B C) as [D E]. split; [exact D|]. rewrite E. exact T.
Qed.
Lemma in_turn_spans h U : (forall u, In u U -> dated h u) -> in_turn h U -> ordered (map (span_of h) U).
Proof.
  intros D T i j p q Hij Hp Hq. rewrite nth_error_map in Hp, Hq.
  destruct (nth_error U i) as [x|] eqn:Ex; [|discriminate]. destruct (nth_error U j) as [y|] eqn:Ey; [|discriminate].
  injection Hp as <-. injection Hq as <-. destruct (T i j x y Hij Ex Ey) as (e & s & A & B & C).
  destruct (D x) as (_ & E1 & _); [eapply nth_error_In; eauto|]. destruct (D y) as (E2 & _ & _); [eapply nth_error_In; eauto|].
  congruence.
Qed.
Lemma dated_lasting h U : (forall u, In u U -> dated h u) -> lasting (map (span_of h) U).
Proof. intros D p Hp. apply in_map_iff in Hp. destruct Hp as (x & <- & Hx). apply (D x Hx). Qed.

Lemma ovl_shared q p : 0 < shared p q -> ovl q p = shared p q.
Proof. unfold ovl, shared. lia. Qed.
Lemma shared_ovl q p : ovl q p <= shared p q.
Proof. unfold ovl, shared. lia. Qed.
Lemma best_chosen U q i p : best U q i -> nth_error U i = Some p -> 0 < shared p q -> np_argmax (map (ovl q) U) = i.
Proof.
  intros (p' & Hp' & K) Hp Pos. assert (p' = p) by congruence. subst p'.
  destruct (chosen_at U [q] 0 (np_argmax (map (ovl q) U))) as (q' & r & Hq & Hr & M).
  - intros ->. destruct i; discriminate.
  - rewrite chosen_map. reflexivity.
  - injection Hq as <-. destruct (M i p Hp) as [M1 M2]. destruct (K _ r Hr) as (K1 & K2 & _).
    rewrite (ovl_shared q p Pos) in M1, M2. pose proof (shared_ovl q r).
    destruct (Nat.lt_trichotomy (np_argmax (map (ovl q) U)) i) as [Hlt|[E|Hlt]]; [|exact E|].
    + specialize (K2 Pos Hlt). lia.
    + specialize (M2 Hlt). lia.
Qed.

(** Some interval of a block does not lie inside the interval it belongs to. *)
Definition juts (h : heap) (U : list oid) (bs : list (list oid)) : Prop :=
  exists i u b y, nth_error U i = Some u /\ nth_error bs i = Some b /\ In y b /\
    ~ (fst (span_of h u) <= fst (span_of h y) /\ snd (span_of h y) <= snd (span_of h u)).
Lemma relate_pair_reduce n delay ut lt cU c bs h : concat bs = t_seq (tob h lt) ->
  parted h (t_seq (tob h ut)) bs ->
  issubclass h cU cPoint = false -> issubclass h c cPoint = false ->
  ready cU c (t_seq (tob h ut)) bs h ->
  exists mm sq, relate_pair n delay ut lt h = relate_all n ut lt (mm && negb delay) (sq && negb delay) 0 bs h /\
    (mm = true <-> juts h (t_seq (tob h ut)) bs) /\ (Forall2 (fills h) (t_seq (tob h ut)) bs -> sq = false).
Proof.
  intros Hc (DU & Lb & Bk & Bst) PU PL R. remember (t_seq (tob h ut)) as U eqn:EU.
  assert (DL : forall y, In y (concat bs) -> dated h y).
  { intros y Hy. apply in_concat in Hy. destruct Hy as (b & Hb & Hy). destruct (Bk b Hb) as (_ & a & e & T).
    apply (tiles_in h b _ _ y T Hy). }
  pose proof R as [R1 R2 R3 R4 R5 R6 R7].
  assert (PU' : forall u, In u U -> is_point h u = false).
  { intros u Hu. destruct (R4 u Hu) as (_ & E & _). unfold is_point. rewrite E. exact PU. }
  assert (PL' : forall y, In y (concat bs) -> is_point h y = false).
  { intros y Hy. destruct (R5 y Hy) as (_ & E & _). unfold is_point. rewrite E. exact PL. }
  unfold relate_pair, tstarts, tends. mstep. mstep. mstep. mstep. rewrite <- EU, <- Hc.
  rewrite !starts_dated, !ends_dated by auto.
  destruct U as [|u0 U0] eqn:EU2.
  { destruct bs; [|discriminate]. simpl. exists false, false. split; [reflexivity|]. split; [|reflexivity]. split; [discriminate|].
    intros (i & u & b & y & Q & _). destruct i; discriminate. }
  rewrite <- EU2 in *. destruct bs as [|b0 bs0] eqn:Ebs; [rewrite EU2 in Lb; discriminate|]. rewrite <- Ebs in *.
  destruct (concat bs) as [|l0 L0] eqn:EL.
  { exfalso. destruct (R7 b0) as (Nb & _); [rewrite Ebs; simpl; auto|]. rewrite Ebs in EL. simpl in EL.
    apply app_eq_nil in EL. apply Nb, EL. }
  rewrite <- EL in *.
  destruct (map (fun x => fst (span_of h x)) U) as [|z1 m1] eqn:M1; [rewrite EU2 in M1; discriminate|]. rewrite <- M1.
  destruct (map (fun x => fst (span_of h x)) (concat bs)) as [|z2 m2] eqn:M2; [rewrite EL in M2; discriminate|]. rewrite <- M2.
  clear z1 m1 M1 z2 m2 M2.
  assert (At : forall i b, nth_error bs i = Some b -> exists u, nth_error U i = Some u).
  { intros i b Hb. destruct (nth_error U i) as [u|] eqn:Hu; [eauto|].
    apply nth_error_None in Hu. assert (i < List.length bs)%nat by (apply nth_error_Some; congruence). lia. }
  assert (Ecs : containers (map (fun x => fst (span_of h x)) U) (map (fun x => snd (span_of h x)) U)
              (map (fun x => fst (span_of h x)) (concat bs)) (map (fun x => snd (span_of h x)) (concat bs)) = steps 0 (map (@List.length oid) bs)).
  { rewrite <- (map_map (span_of h) fst U), <- (map_map (span_of h) snd U), <- (map_map (span_of h) fst (concat bs)), <- (map_map (span_of h) snd (concat bs)).
    pose proof (chosen_map (map (span_of h) U) (map (span_of h) (concat bs))) as CM. etransitivity; [exact CM|]. clear CM. rewrite map_map. apply map_steps.
    intros i b y Hb Hy. destruct (At i b Hb) as [u Hu]. destruct (Bst i u b y Hu Hb Hy) as [Be Sh]. simpl.
    apply (best_chosen _ _ _ (span_of h u)); auto. rewrite nth_error_map, Hu. reflexivity. }
  rewrite Ecs.
  match goal with |- context[existsb ?f ?l && negb delay] => exists (existsb f l) end.
  match goal with |- context[existsb ?f ?l && negb delay] => assert (Emm : existsb f l = true <-> juts h U bs) end.
  { rewrite <- (map_map (span_of h) fst U), <- (map_map (span_of h) snd U), <- (map_map (span_of h) fst (concat bs)), <- (map_map (span_of h) snd (concat bs)), combine_spans.
    assert (Hov : forall i u b y, nth_error U i = Some u -> nth_error bs i = Some b -> In y b ->
      TierOps.list_max (overlap_row (map fst (map (span_of h) U)) (map snd (map (span_of h) U)) (fst (span_of h y)) (snd (span_of h y)))
      = ovl (span_of h y) (span_of h u)).
    { intros i u b y Hu Hb Hy. destruct (Bst i u b y Hu Hb Hy) as ((p & Hp & K) & Sh). rewrite nth_error_map, Hu in Hp. injection Hp as <-.
      pose proof (f_equal TierOps.list_max (row_spans (map (span_of h) U) (span_of h y))) as RS. unfold span in *. rewrite RS.
      apply Z.le_antisymm.
      - apply list_max_le.
        + destruct U; [destruct i; discriminate|discriminate].
        + intros v Hv. apply in_map_iff in Hv. destruct Hv as (r & <- & Hr). apply In_nth_error in Hr. destruct Hr as [j Hj].
          destruct (K j r Hj) as (K1 & _). pose proof (shared_ovl (span_of h y) r). rewrite (ovl_shared _ _ Sh). lia.
      - apply list_max_ge. apply in_map, in_map. eapply nth_error_In; eauto. }
    assert (Hq : forall d m, In (d, m) (combine (map (fun p => snd p - fst p) (map (span_of h) (concat bs)))
        (map (fun p => TierOps.list_max (overlap_row (map fst (map (span_of h) U)) (map snd (map (span_of h) U)) (fst p) (snd p))) (map (span_of h) (concat bs)))) <->
      exists y, In y (concat bs) /\ d = snd (span_of h y) - fst (span_of h y) /\
        m = TierOps.list_max (overlap_row (map fst (map (span_of h) U)) (map snd (map (span_of h) U)) (fst (span_of h y)) (snd (span_of h y)))).
    { intros d m. generalize (concat bs) as Q. induction Q as [|q Q IH]; simpl; [split; [intros []|intros (? & [] & _)]|]. rewrite IH. split.
      - intros [E|(y & A & B & C)]; [injection E as <- <-; exists q; auto|exists y; auto].
      - intros (y & [<-|A] & -> & ->); [left; reflexivity|]. right. eauto. }
    rewrite existsb_exists. split.
    - intros ([d m] & Hin & Hlt). apply Z.ltb_lt in Hlt. simpl in Hlt. apply Hq in Hin. destruct Hin as (y & Hy & -> & ->).
      apply in_concat in Hy. destruct Hy as (b & Hb & Hy). apply In_nth_error in Hb. destruct Hb as [i Hb]. destruct (At i b Hb) as [u Hu].
      rewrite (Hov i u b y Hu Hb Hy) in Hlt. exists i, u, b, y. split; [exact Hu|]. split; [exact Hb|]. split; [exact Hy|]. unfold ovl in Hlt. lia.
    - intros (i & u & b & y & Hu & Hb & Hy & J). eexists (_, _). split.
      + apply Hq. exists y. split; [apply (in_concat' y b); [eapply nth_error_In; eauto|exact Hy]|]. split; reflexivity.
      + apply Z.ltb_lt. simpl. rewrite (Hov i u b y Hu Hb Hy).
        assert (Dy : dated h y) by (apply DL; apply (in_concat' y b); [eapply nth_error_In; eauto|exact Hy]). destruct Dy as (_ & _ & Dy).
        unfold ovl. lia. }
  match type of Emm with existsb ?f ?l = true <-> _ => revert Emm; generalize (existsb f l); intros mm Emm end. mstep. rewrite <- Hc.
  assert (Esl : mapM (fun i => sl_init (lower_slice (steps 0 (map (@List.length oid) bs)) (concat bs) i)) (seq 0 (List.length U)) h
              = Ok (map (fun b => Slv b (Some c)) bs) h).
  { destruct (mapM_read (fun i => sl_init (lower_slice (steps 0 (map (@List.length oid) bs)) (concat bs) i))
      (fun i v => v = Slv (nth i bs []) (Some c)) h (seq 0 (List.length U))) as (ys & E & F).
    - intros i Hi. apply in_seq in Hi. destruct (nth_error bs i) as [b|] eqn:Hb; [|apply nth_error_None in Hb; lia].
      rewrite slice_steps by (rewrite map_length; lia). rewrite (block_at bs i b Hb).
      rewrite (nth_error_nth bs i [] Hb). pose proof (nth_error_In _ _ Hb) as Ib. destruct (R7 b Ib) as (N & K & S).
      destruct (sl_init_spec h c b) as (b' & Ei & _ & _ & Eq); [|exact K|].
      + intros x Hx. apply (R5 x). apply (in_concat' x b); auto.
      + rewrite (Eq S) in Ei. exists (Slv b (Some c)). split; [|reflexivity]. rewrite Ei. destruct b; [congruence|reflexivity].
    - rewrite E. f_equal. rewrite (Forall2_fun _ _ _ F), <- Lb. rewrite <- (map_nth_seq [] bs) at 2. rewrite map_map. reflexivity. }
  rewrite map_length. rewrite (bind_ok _ _ _ _ _ Esl). clear Esl.
  assert (Ecl : mapM close_gaps (map (fun b => Slv b (Some c)) bs) h = Ok (map (fun b => Slv b (Some c)) bs) h).
  { destruct (mapM_read close_gaps (fun v w => w = id v) h (map (fun b => Slv b (Some c)) bs)) as (ys & E & F).
    - intros v Hv. apply in_map_iff in Hv. destruct Hv as (b & <- & Hb). exists (Slv b (Some c)). split; [|reflexivity].
      destruct (Bk b Hb) as (_ & a & e & T).
      eapply close_gaps_snug; [exact T|]. intros x Hx. apply PL'. apply (in_concat' x b); auto.
    - rewrite E. f_equal. rewrite (Forall2_fun _ _ _ F). apply map_id. }
  rewrite (bind_ok _ _ _ _ _ Ecl). clear Ecl. mstep. mstep. rewrite <- EU. rewrite durations_dated by auto.
  rewrite map_map. cbn [sv_vals].
  assert (Eld : all_some (map (fun b => option_map zsum (durations h b)) bs)
              = Some (map (fun b => zsum (map (fun x => snd (span_of h x) - fst (span_of h x)) b)) bs)).
  { rewrite <- all_some_Some. f_equal. rewrite map_map. apply map_ext_in. intros b Hb.
    rewrite durations_dated; [reflexivity| |]; intros x Hx; [apply DL|apply PL']; apply (in_concat' x b); auto. }
  rewrite Eld.
  match goal with |- context[negb (allclose ?a ?b) && negb delay] => exists (negb (allclose a b)) end.
  split; [rewrite map_map; cbn [sv_vals]; rewrite map_id; reflexivity|]. split; [exact Emm|]. intros Hf.
  match goal with |- negb (allclose ?a ?b) = _ => replace b with a end; [rewrite allclose_refl; reflexivity|].
  clear -Hf. induction Hf as [|u b U bs F _ IH]; simpl; [reflexivity|]. f_equal; [|exact IH].
  destruct (fills_dated h u b F) as [_ T]. symmetry. exact (tiles_sum h b _ _ T).
Qed.
Lemma fills_inside h U bs : Forall2 (fills h) U bs -> ~ juts h U bs.
Proof.
  intros F (i & u & b & y & Hu & Hb & Hy & J). apply J. pose proof (Forall2_nth _ _ _ F i u b Hu Hb) as Fb.
  destruct (fills_dated h u b Fb) as [_ T]. apply (tiles_in h b _ _ y T Hy).
Qed.
Lemma relate_pair_parted n delay ut lt cU c bs h : concat bs = t_seq (tob h lt) ->
  parted h (t_seq (tob h ut)) bs -> delay = true \/ Forall2 (fills h) (t_seq (tob h ut)) bs ->
  issubclass h cU cPoint = false -> issubclass h c cPoint = false ->
  ready cU c (t_seq (tob h ut)) bs h ->
  exists h', relate_pair n delay ut lt h = Ok tt h' /\ wired c (t_seq (tob h ut)) bs h h'.
Proof.
  intros Hc Pa Hd PU PL R. destruct (relate_pair_reduce n delay ut lt cU c bs h Hc Pa PU PL R) as (mm & sq & -> & Hm & Hs).
  assert (E : mm && negb delay = false /\ sq && negb delay = false).
  { destruct Hd as [->|Hf]; [split; apply andb_false_r|]. rewrite (Hs Hf). split; [|reflexivity].
    destruct mm; [|reflexivity]. exfalso. apply (fills_inside _ _ _ Hf). apply Hm. reflexivity. }
  destruct E as [-> ->]. apply (relate_all_ready n ut lt cU c (t_seq (tob h ut)) bs [] h); auto. apply Pa.
Qed.

(** ** Down the tiers *)
Definition before (h : heap) (x y : oid) : Prop :=
  exists e s, s_end (sob h x) = Some e /\ s_start (sob h y) = Some s /\ e <= s.
Lemma in_turn_cons h x l : in_turn h (x :: l) <-> (forall y, In y l -> before h x y) /\ in_turn h l.
Proof.
  split.
  - intros T. split.
    + intros y Hy. apply In_nth_error in Hy. destruct Hy as [j Hj]. apply (T 0%nat (S j) x y); auto. lia.
    + intros i j a b Hij Ha Hb. apply (T (S i) (S j) a b); auto. lia.
  - intros [B T] i j a b Hij Ha Hb. destruct j as [|j]; [lia|]. destruct i as [|i].
    + simpl in Ha, Hb. injection Ha as <-. apply B. eapply nth_error_In; eauto.
    + simpl in Ha, Hb. apply (T i j a b); auto. lia.
Qed.
Lemma in_turn_app h a b : in_turn h a -> in_turn h b -> (forall x y, In x a -> In y b -> before h x y) -> in_turn h (a ++ b).
Proof.
  induction a as [|x a IH]; intros Ta Tb B; simpl; [exact Tb|]. apply in_turn_cons in Ta. destruct Ta as [Bx Ta].
  apply in_turn_cons. split.
  - intros y Hy. apply in_app_or in Hy. destruct Hy as [Hy|Hy]; [auto|]. apply B; simpl; auto.
  - apply IH; auto. intros p q Hp Hq. apply B; simpl; auto.
Qed.
Lemma tiles_in_turn h l : forall a b, tiles h a l b -> in_turn h l.
Proof.
  induction l as [|x l IH]; simpl; intros a b T; [intros i j p q _ Hp; destruct i; discriminate|].
  destruct T as (m & A & B & Hm & T). apply in_turn_cons. split; [|eauto].
  intros y Hy. destruct (tiles_in h l m b y T Hy) as ((D & _) & P & _). exists m, (fst (span_of h y)). auto.
Qed.
Lemma fills_in_turn h U bs : Forall2 (fills h) U bs -> in_turn h U -> in_turn h (concat bs).
Proof.
  induction 1 as [|u b U bs F FF IH]; intros T; simpl; [exact T|]. apply in_turn_cons in T. destruct T as [B T].
  destruct (fills_dated h u b F) as [D Tb]. apply in_turn_app; [eapply tiles_in_turn; eauto|auto|].
  intros x y Hx Hy. apply in_concat in Hy. destruct Hy as (b' & Hb & Hy).
  destruct (Forall2_in_r _ _ _ b' FF Hb) as (u' & Hu & F'). destruct (fills_dated h u' b' F') as [D' Tb'].
  destruct (tiles_in h b _ _ x Tb Hx) as ((_ & E1 & _) & _ & L1). destruct (tiles_in h b' _ _ y Tb' Hy) as ((S1 & _) & L2 & _).
  destruct (B u' Hu) as (e & s & Q1 & Q2 & Q3). destruct D as (_ & D & _). destruct D' as (D' & _).
  exists (snd (span_of h x)), (fst (span_of h y)). split; [exact E1|]. split; [exact S1|]. assert (e = snd (span_of h u)) by congruence. assert (s = fst (span_of h u')) by congruence. lia.
Qed.

Definition kept (o o' : seqobj) : Prop :=
  s_cls o' = s_cls o /\ s_start o' = s_start o /\ s_end o' = s_end o /\ s_label o' = s_label o /\ s_intier o' = s_intier o.
Lemma kept_refl o : kept o o.
Proof. unfold kept. auto. Qed.
Lemma kept_trans a b c : kept a b -> kept b c -> kept a c.
Proof. unfold kept. intros (A1 & A2 & A3 & A4 & A5) (B1 & B2 & B3 & B4 & B5). repeat split; congruence. Qed.

Record linked_up (ts : list tid) (h h' : heap) : Prop := {
  lu_rest : h_cls h' = h_cls h /\ h_tier h' = h_tier h /\ h_grp h' = h_grp h /\ h_grid h' = h_grid h;
  lu_len : (List.length (h_seq h) <= List.length (h_seq h'))%nat;
  lu_new : forall i, live h' i -> ~ live h i -> is_boundary h' i;
  lu_same : forall i, live h i -> (forall t, In t ts -> ~ In i (t_seq (tob h t))) -> sob h' i = sob h i;
  lu_kept : forall i, live h i -> kept (sob h i) (sob h' i);
  lu_head : forall t x, hd_error ts = Some t -> In x (t_seq (tob h t)) ->
    s_super (sob h' x) = s_super (sob h x) /\ s_within (sob h' x) = s_within (sob h x) /\
    s_prev (sob h' x) = s_prev (sob h x) /\ s_fol (sob h' x) = s_fol (sob h x);
  lu_kids : forall i, live h i -> (forall t, In t (removelast ts) -> ~ In i (t_seq (tob h t))) ->
    s_subset (sob h' i) = s_subset (sob h i)
}.
Record prep (delay : bool) (h : heap) (ts : list tid) (bss : list (list (list oid))) : Prop := {
  pr_cut : cut_up h ts bss;
  pr_snug : delay = true \/ snug h ts bss;
  pr_cls : classes_joined h ts;
  pr_nodup : NoDup (map (fun t => t_ec (tob h t)) ts);
  pr_ok : forall t, In t ts -> linkable h (t_ec (tob h t)) (t_seq (tob h t)) /\ issubclass h (t_ec (tob h t)) cPoint = false;
  pr_fresh : forall t x, In t (tl ts) -> In x (t_seq (tob h t)) -> s_super (sob h x) = None
}.

Lemma snug_cons h t u r bs bss : snug h (t :: u :: r) (bs :: bss) =
  (concat bs = t_seq (tob h u) /\ Forall2 (fills h) (t_seq (tob h t)) bs /\ snug h (u :: r) bss).
Proof. reflexivity. Qed.
Lemma cut_cons h t u r bs bss : cut_up h (t :: u :: r) (bs :: bss) =
  (concat bs = t_seq (tob h u) /\ parted h (t_seq (tob h t)) bs /\ cut_up h (u :: r) bss).
Proof. reflexivity. Qed.
Lemma classes_joined_cons h t u r : classes_joined h (t :: u :: r) =
  (subset_class h (t_ec (tob h t)) = Some (t_ec (tob h u)) /\ classes_joined h (u :: r)).
Proof. reflexivity. Qed.
Lemma related_cons h t u r bs bss : related_tiers h (t :: u :: r) (bs :: bss) =
  (Forall2 (parent_of h) (t_seq (tob h t)) bs /\ related_tiers h (u :: r) bss).
Proof. reflexivity. Qed.
Lemma tiles_kept h h' l : (forall x, In x l -> kept (sob h x) (sob h' x)) -> forall a b, tiles h a l b -> tiles h' a l b.
Proof.
  induction l as [|x l IH]; simpl; intros K a b; [auto|]. intros (m & A & B & C & T). exists m.
  destruct (K x) as (_ & E1 & E2 & _); [auto|]. rewrite E1, E2. split; [exact A|]. split; [exact B|]. split; [exact C|]. apply IH; auto.
Qed.
Lemma fills_kept h h' u b : kept (sob h u) (sob h' u) -> (forall x, In x b -> kept (sob h x) (sob h' x)) -> fills h u b -> fills h' u b.
Proof.
  intros (_ & E1 & E2 & _) K (s & e & A & B & C & T). exists s, e. rewrite E1, E2. split; [exact A|]. split; [exact B|]. split; [exact C|].
  eapply tiles_kept; eauto.
Qed.
Lemma in_turn_kept h h' l : (forall x, In x l -> kept (sob h x) (sob h' x)) -> in_turn h l -> in_turn h' l.
Proof.
  intros K T i j x y Hij Hx Hy. destruct (T i j x y Hij Hx Hy) as (e & s & A & B & C). exists e, s.
  destruct (K x) as (_ & _ & E1 & _); [eapply nth_error_In; eauto|]. destruct (K y) as (_ & E2 & _); [eapply nth_error_In; eauto|].
  rewrite E1, E2. auto.
Qed.
Lemma snug_kept h h' ts : h_tier h' = h_tier h -> forall bss,
  (forall t x, In t ts -> In x (t_seq (tob h t)) -> kept (sob h x) (sob h' x)) -> snug h ts bss -> snug h' ts bss.
Proof.
  intros Et. assert (Et' : forall t, tob h' t = tob h t) by (intros t; unfold tob; rewrite Et; auto).
  induction ts as [|t ts IH]; intros bss K S; [exact S|]. destruct ts as [|u r]; [exact S|].
  destruct bss as [|bs bss]; [exact S|]. rewrite snug_cons in S. rewrite snug_cons. destruct S as (S1 & S2 & S3). rewrite !Et'. split; [exact S1|]. split.
  - eapply Forall2_weaken; [exact S2|]. intros x b Hx Hb F. apply (fills_kept h); auto.
    + apply (K t); simpl; auto.
    + intros y Hy. apply (K u); simpl; auto. rewrite <- S1. apply (in_concat' y b); auto.
  - apply IH; auto. intros t' x Ht. apply K. simpl. auto.
Qed.
Lemma span_kept h h' x : kept (sob h x) (sob h' x) -> span_of h' x = span_of h x.
Proof. intros (_ & A & B & _). with_strategy transparent [span_of] unfold span_of. rewrite A, B. reflexivity. Qed.
Lemma dated_kept h h' x : kept (sob h x) (sob h' x) -> dated h x -> dated h' x.
Proof. intros K. pose proof (span_kept h h' x K) as E. destruct K as (_ & A & B & _). unfold dated. rewrite E, A, B. auto. Qed.
Lemma parted_kept h h' U bs : (forall x, In x U \/ In x (concat bs) -> kept (sob h x) (sob h' x)) -> parted h U bs -> parted h' U bs.
Proof.
  intros K (A & B & C & D). assert (E : map (span_of h') U = map (span_of h) U).
  { apply map_ext_in. intros x Hx. apply span_kept. auto. }
  split; [intros u Hu; apply (dated_kept h); auto|]. split; [exact B|]. split.
  - intros b Hb. destruct (C b Hb) as (N & a & e & T). split; [exact N|]. exists a, e. apply (tiles_kept h); auto.
    intros x Hx. apply K. right. apply (in_concat' x b); auto.
  - intros i u b y Hu Hb Hy. rewrite E. rewrite (span_kept h h' u) by (apply K; left; eapply nth_error_In; eauto).
    rewrite (span_kept h h' y) by (apply K; right; apply (in_concat' y b); auto; eapply nth_error_In; eauto). eauto.
Qed.
Lemma cut_kept h h' ts : h_tier h' = h_tier h -> forall bss,
  (forall t x, In t ts -> In x (t_seq (tob h t)) -> kept (sob h x) (sob h' x)) -> cut_up h ts bss -> cut_up h' ts bss.
Proof.
  intros Et. assert (Et' : forall t, tob h' t = tob h t) by (intros t; unfold tob; rewrite Et; auto).
  induction ts as [|t ts IH]; intros bss K S; [exact S|]. destruct ts as [|u r]; [exact S|].
  destruct bss as [|bs bss]; [exact S|]. rewrite cut_cons in S. rewrite cut_cons. destruct S as (S1 & S2 & S3). rewrite !Et'.
  split; [exact S1|]. split.
  - apply (parted_kept h); auto. intros x [Hx|Hx]; [apply (K t); simpl; auto|]. apply (K u); simpl; auto. rewrite <- S1. exact Hx.
  - apply IH; auto. intros t' x Ht. apply K. simpl. auto.
Qed.
Lemma fills_parted h U bs : Forall2 (fills h) U bs -> in_turn h U -> parted h U bs.
Proof.
  intros F T. assert (D : forall u, In u U -> dated h u).
  { intros u Hu. destruct (Forall2_in_l _ _ _ u F Hu) as (b & _ & Fb). apply (fills_dated h u b Fb). }
  split; [exact D|]. split; [symmetry; eapply Forall2_length; eauto|]. split.
  - intros b Hb. destruct (Forall2_in_r _ _ _ b F Hb) as (u & _ & Fb). destruct (fills_dated h u b Fb) as [Du Tb]. split; [|eauto].
    intros ->. simpl in Tb. destruct Du as (_ & _ & Du). lia.
  - intros i u b y Hu Hb Hy. pose proof (Forall2_nth _ _ _ F i u b Hu Hb) as Fb. destruct (fills_dated h u b Fb) as [Du Tb].
    destruct (tiles_in h b _ _ y Tb Hy) as ((_ & _ & Ly) & A & B). split; [|unfold shared; lia].
    exists (span_of h u). split; [rewrite nth_error_map, Hu; reflexivity|]. intros j r Hr. rewrite nth_error_map in Hr.
    destruct (nth_error U j) as [v|] eqn:Hv; [|discriminate]. injection Hr as <-.
    split; [unfold shared; lia|]. split; [|unfold shared; lia]. intros _ Hlt.
    destruct (T j i v u Hlt Hv Hu) as (e & s & E1 & E2 & E3). destruct (D v) as (_ & Q1 & _); [eapply nth_error_In; eauto|].
    destruct Du as (Q2 & _). assert (e = snd (span_of h v)) by congruence. assert (s = fst (span_of h u)) by congruence.
    unfold shared. lia.
Qed.
Lemma snug_cut h ts : forall bss, snug h ts bss -> (forall t, hd_error ts = Some t -> in_turn h (t_seq (tob h t))) -> cut_up h ts bss.
Proof.
  induction ts as [|t ts IH]; intros bss S T; [exact S|]. destruct ts as [|u r]; [exact S|]. destruct bss as [|bs bss]; [exact S|].
  rewrite snug_cons in S. rewrite cut_cons. destruct S as (S1 & S2 & S3). split; [exact S1|]. split; [apply fills_parted; auto|].
  apply IH; auto. intros k [= <-]. rewrite <- S1. eapply fills_in_turn; eauto.
Qed.
Lemma classes_joined_ext h h' ts : h_cls h' = h_cls h -> h_tier h' = h_tier h -> classes_joined h ts -> classes_joined h' ts.
Proof.
  intros Ec Et. assert (Et' : forall t, tob h' t = tob h t) by (intros t; unfold tob; rewrite Et; auto).
  induction ts as [|t ts IH]; intros C; [exact C|]. destruct ts as [|u r]; [exact C|]. rewrite classes_joined_cons in C. rewrite classes_joined_cons.
  destruct C as [C1 C2]. rewrite !Et'. split; [|auto]. rewrite (subset_class_ext h h') by auto. exact C1.
Qed.
Lemma wired_kept c U bs h h' i : wired c U bs h h' -> live h i -> kept (sob h i) (sob h' i).
Proof.
  intros [W1 W2 W3 W4 W5 W6 W7] Hi. destruct (in_dec Nat.eq_dec i U) as [HU|HU].
  - destruct (Forall2_in_l _ _ _ i W5 HU) as (b & _ & ->). unfold kept, put_kids. simpl. auto.
  - destruct (in_dec Nat.eq_dec i (concat bs)) as [HL|HL].
    + apply in_concat in HL. destruct HL as (b & Hb & Hi'). destruct (Forall2_in_r _ _ _ b W6 Hb) as (u & _ & K).
      destruct (K i Hi') as (A & B & C & D & _ & _ & _ & E & _). unfold kept. auto.
    + rewrite W4 by auto. apply kept_refl.
Qed.
Lemma linked_up_boundary ts h h' k : linked_up ts h h' ->
  (forall t x, In t ts -> In x (t_seq (tob h t)) -> s_label (sob h x) <> "#"%string) -> is_boundary h k -> is_boundary h' k.
Proof.
  intros [L1 L2 L3 L4 L5 L6] N (A & B & C & D & E & F). unfold is_boundary.
  rewrite L4; [split; [lia|auto]|exact A|]. intros t Ht Hk. apply (N t k); auto.
Qed.

Lemma relate_tiers_cut n delay ts : forall bss h, prep delay h ts bss ->
  exists h', relate_tiers n delay ts h = Ok tt h' /\ linked_up ts h h' /\ related_tiers h' ts bss.
Proof.
  assert (Triv : forall ts h, linked_up ts h h).
  { intros ts0 h. constructor; auto; [intros; contradiction|intros; apply kept_refl]. }
  induction ts as [|t ts IH]; intros bss h P.
  { exists h. split; [reflexivity|]. split; [apply Triv|exact I]. }
  destruct ts as [|u r]. { exists h. split; [reflexivity|]. split; [apply Triv|exact I]. }
  pose proof P as [P1 P2 P3 P4 P5 P6]. destruct bss as [|bs bss]; [destruct P1|]. rewrite cut_cons in P1. rewrite classes_joined_cons in P3. cbn [tl] in P6.
  destruct P1 as (S1 & S2 & S3). destruct P3 as (C1 & C3).
  destruct (P5 t) as ((Nt & Kt) & Pt); [simpl; auto|]. destruct (P5 u) as ((Nu & Ku) & Pu); [simpl; auto|].
  cbn [map] in P4. apply NoDup_cons in P4. destruct P4 as [Ntu P4]. rewrite elem_of_list_In in Ntu.
  assert (Ne : t_ec (tob h t) <> t_ec (tob h u)) by (intros E; apply Ntu; simpl; auto).
  assert (Sep : forall t' x, In t' (u :: r) -> In x (t_seq (tob h t)) -> ~ In x (t_seq (tob h t'))).
  { intros t' x Ht' Hx Hx'. apply Ntu. destruct (P5 t') as ((_ & K') & _); [simpl; auto|].
    destruct (K' x Hx') as (_ & E1 & _). destruct (Kt x Hx) as (_ & E2 & _). rewrite <- E2, E1.
    exact (in_map (fun t => t_ec (tob h t)) (u :: r) t' Ht'). }
  apply NoDup_cons in P4 as P4'. destruct P4' as [Nur _]. rewrite elem_of_list_In in Nur.
  assert (Sep2 : forall t' x, In t' r -> In x (t_seq (tob h u)) -> ~ In x (t_seq (tob h t'))).
  { intros t' x Ht' Hx Hx'. apply Nur. destruct (P5 t') as ((_ & K') & _); [simpl; auto|].
    destruct (K' x Hx') as (_ & E1 & _). destruct (Ku x Hx) as (_ & E2 & _). rewrite <- E2, E1.
    exact (in_map (fun t => t_ec (tob h t)) r t' Ht'). }
  assert (R : ready (t_ec (tob h t)) (t_ec (tob h u)) (t_seq (tob h t)) bs h).
  { constructor; auto.
    - rewrite S1. exact Nu.
    - intros x Hx Hx'. rewrite S1 in Hx'. apply (Sep u x); simpl; auto.
    - intros y Hy. rewrite S1 in Hy. destruct (Ku y Hy) as (A & B & C). split; [exact A|]. split; [exact B|]. split; [exact C|].
      apply (P6 u); simpl; auto.
    - intros b Hb. destruct S2 as (_ & _ & Bk & _). destruct (Bk b Hb) as (Nb & a & e & T). split.
      + exact Nb.
      + split; [|eapply tiles_sorted; eauto]. intros y Hy. destruct (tiles_in h b _ _ y T Hy) as ((Q & _) & _). eauto. }
  assert (Fl : delay = true \/ Forall2 (fills h) (t_seq (tob h t)) bs).
  { destruct P2 as [P2|P2]; [auto|]. rewrite snug_cons in P2. right. apply P2. }
  destruct (relate_pair_parted n delay t u _ _ bs h S1 S2 Fl Pt Pu R) as (h1 & E1 & W).
  pose proof W as [W1 W2 W3 W4 W5 W6 W7]. destruct W1 as (Ec & Et & Eg & Ed).
  assert (Et' : forall k, tob h1 k = tob h k) by (intros k; unfold tob; rewrite Et; auto).
  assert (Lk : forall t' x, In t' (t :: u :: r) -> In x (t_seq (tob h t')) -> live h x /\ s_label (sob h x) <> "#"%string).
  { intros t' x Ht' Hx. destruct (P5 t' Ht') as ((_ & K') & _). destruct (K' x Hx) as (A & _ & B). auto. }
  assert (Kp : forall t' x, In t' (t :: u :: r) -> In x (t_seq (tob h t')) -> kept (sob h x) (sob h1 x)).
  { intros t' x Ht' Hx. eapply wired_kept; [exact W|]. apply (Lk t' x); auto. }
  destruct (IH bss h1) as (h2 & E2 & L & Rel).
  { constructor.
    - eapply cut_kept; [exact Et| |exact S3]. intros t' x Ht'. apply Kp. right. exact Ht'.
    - destruct P2 as [P2|P2]; [auto|]. rewrite snug_cons in P2. right. eapply snug_kept; [exact Et| |apply P2].
      intros t' x Ht'. apply Kp. right. exact Ht'.
    - eapply classes_joined_ext; eauto.
    - erewrite map_ext; [exact P4|]. intros k. rewrite Et'. reflexivity.
    - intros t' Ht'. rewrite Et'. destruct (P5 t') as ((N' & K') & Q'); [right; exact Ht'|]. split.
      + split; [exact N'|]. intros x Hx. destruct (K' x Hx) as (A & B & C). destruct (Kp t' x) as (D1 & _ & _ & D2 & _); [right; exact Ht'|exact Hx|].
        rewrite D1, D2. split; [lia|auto].
      + rewrite (issubclass_ext h h1) by auto. exact Q'.
    - intros t' x Ht' Hx. cbn [tl] in Ht'. rewrite Et' in Hx.
      rewrite W4; [apply (P6 t'); simpl; auto|apply (Lk t' x); simpl; auto| |].
      + intros Hx'. apply (Sep t' x); simpl; auto.
      + rewrite S1. intros Hx'. apply (Sep2 t' x); simpl; auto. }
  pose proof L as [(Fc & Ft & Fg & Fd) L2 L3 L4 L5 L6 L7].
  assert (Ft' : forall k, tob h2 k = tob h k) by (intros k; unfold tob; rewrite Ft, Et; auto).
  assert (Bd : forall k, is_boundary h1 k -> is_boundary h2 k).
  { intros k. eapply linked_up_boundary; [exact L|]. intros t' x Ht' Hx. rewrite Et' in Hx.
    destruct (Kp t' x) as (_ & _ & _ & -> & _); [right; exact Ht'|exact Hx|]. apply (Lk t' x); [right; exact Ht'|exact Hx]. }
  exists h2. cbn [relate_tiers]. rewrite (bind_ok _ _ _ _ _ E1). split; [exact E2|].
  assert (Tsame : forall x, In x (t_seq (tob h t)) -> sob h2 x = sob h1 x).
  { intros x Hx. apply L4; [destruct (Lk t x); [simpl; auto|auto|unfold live in *; lia]|].
    intros t' Ht'. rewrite Et'. apply Sep; auto. }
  split.
  - constructor.
    + split; [congruence|]. split; [congruence|]. split; congruence.
    + lia.
    + intros i Hi Hn. destruct (decide (live h1 i)) as [Hl|Hl]; [|apply L3; auto]. apply Bd. apply W3; auto.
    + intros i Hi Hn. rewrite L4.
      * apply W4; auto; [apply Hn; simpl; auto|]. rewrite S1. apply Hn. simpl. auto.
      * unfold live in *. lia.
      * intros t' Ht'. rewrite Et'. apply Hn. right. exact Ht'.
    + intros i Hi. eapply kept_trans; [eapply wired_kept; eauto|]. apply L5. unfold live in *. lia.
    + intros t' x [= <-] Hx. rewrite Tsame by auto. destruct (Forall2_in_l _ _ _ x W5 Hx) as (b & _ & ->).
      unfold put_kids. simpl. auto.
    + intros i Hi Hn. change (removelast (t :: u :: r)) with (t :: removelast (u :: r)) in Hn. rewrite L7.
      * assert (Nt' : ~ In i (t_seq (tob h t))) by (apply Hn; simpl; auto).
        destruct (in_dec Nat.eq_dec i (concat bs)) as [Hb|Hb]; [|rewrite W4; auto].
        apply in_concat in Hb. destruct Hb as (b & Hb & Hib). destruct (Forall2_in_r _ _ _ b W6 Hb) as (x & _ & Q).
        destruct (Q i Hib) as (_ & _ & _ & _ & _ & Q6 & _). exact Q6.
      * unfold live in *. lia.
      * intros t' Ht'. rewrite Et'. apply Hn. right. exact Ht'.
  - rewrite related_cons, Ft'. split; [|exact Rel].
    assert (Both : Forall2 (fun x b => sob h1 x = put_kids b (t_ec (tob h u)) (sob h x) /\
       (forall y, In y b -> kid_of x (sob h y) (sob h1 y)) /\ chained h1 b) (t_seq (tob h t)) bs).
    { clear -W5 W6 W7. induction W5; [constructor|]. inversion W6; subst. inversion W7; subst. constructor; auto. }
    eapply Forall2_weaken; [exact Both|]. intros x b Hx Hb (Q1 & Q2 & Q3).
    assert (Hin : forall y, In y b -> In y (t_seq (tob h1 u))).
    { intros y Hy. rewrite Et', <- S1. apply (in_concat' y b); auto. }
    split; [|split].
    + rewrite Tsame, Q1 by auto. reflexivity.
    + eapply chained_ext; [|exact Bd|exact Q3]. intros y Hy. destruct (L6 u y eq_refl (Hin y Hy)) as (_ & _ & A & B). auto.
    + intros y Hy. destruct (L6 u y eq_refl (Hin y Hy)) as (A & B & _). destruct (Q2 y Hy) as (_ & _ & _ & _ & C & _ & _ & _ & D & _).
      split; congruence.
Qed.

End WithEnv.
