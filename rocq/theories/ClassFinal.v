(** * ClassFinal: building, cloning and listing class hierarchies. *)
From Verif Require Export ClassProofs GridOps.
Open Scope string_scope.
Open Scope Z_scope.

Lemma make_top_eq h : make_top h =
  Ok (List.length (h_cls h)) (push_cls (ClsObj ("Top_" ++ nat_str (n_subclasses h cTop)) (Some cTop) Inherit Inherit) h).
Proof. reflexivity. Qed.
Lemma make_bottom_eq h : make_bottom h =
  Ok (List.length (h_cls h)) (push_cls (ClsObj ("Bottom_" ++ nat_str (n_subclasses h cBottom)) (Some cBottom) Inherit Inherit) h).
Proof. reflexivity. Qed.
Lemma type_copy_eq nm c h : type_copy nm c h =
  Ok (List.length (h_cls h)) (push_cls (ClsObj nm (Some c) (c_super (cob h c)) (c_sub (cob h c))) h).
Proof. reflexivity. Qed.

Definition kind (points : list nat) (i : nat) : cid := if existsb (Nat.eqb i) points then cPoint else cInterval.
Lemma kind_lt points i : (kind points i < 5)%nat.
Proof. unfold kind. destruct (existsb _ _); cbv; lia. Qed.
Lemma make_classes_ok points : forall names i h, class_table h ->
  exists h', make_classes i names points h = Ok (seq (List.length (h_cls h)) (List.length names)) h' /\
    classes_kept h h' /\ class_table h' /\
    List.length (h_cls h') = (List.length (h_cls h) + List.length names)%nat /\
    (forall j nm, nth_error names j = Some nm ->
       cob h' (List.length (h_cls h) + j)%nat =
       ClsObj nm (Some (kind points (i + j))) (c_super (cob h (kind points (i + j)))) (c_sub (cob h (kind points (i + j))))).
Proof.
  induction names as [|nm names IH]; intros i h T.
  - exists h. split; [reflexivity|]. split; [apply kept_refl|]. split; [exact T|]. split; [simpl; lia|]. intros [|j]; discriminate.
  - set (k := kind points i). set (o := ClsObj nm (Some k) (c_super (cob h k)) (c_sub (cob h k))).
    assert (T1 : class_table (push_cls o h)).
    { apply push_table; auto. intros b [= <-]. apply table_live; auto. apply kind_lt. }
    destruct (IH (S i) _ T1) as (h' & E & K & T' & L & P). rewrite len_push_cls in *.
    exists h'. split.
    { cbn [make_classes]. rewrite (bind_ok _ _ _ _ _ (type_copy_eq nm k h)).
      rewrite (bind_ok _ _ _ _ _ E). reflexivity. }
    split; [eapply kept_trans; [apply (kept_push o)|exact K]|]. split; [exact T'|]. split; [rewrite L; simpl; lia|].
    intros [|j] x; simpl.
    + intros [= <-]. rewrite Nat.add_0_r, Nat.add_0_r. destruct K as (_ & K & _).
      rewrite K by (rewrite len_push_cls; lia). apply cob_push_new.
    + intros Hx. replace (List.length (h_cls h) + S j)%nat with (S (List.length (h_cls h)) + j)%nat by lia.
      rewrite (P j x Hx). replace (i + S j)%nat with (S i + j)%nat by lia.
      rewrite cob_push_old by (apply table_live; auto; apply kind_lt). reflexivity.
Qed.

(** What [custom_classes_built] leaves behind. *)
Definition fresh (h : heap) (c : cid) : Prop := ~ clive h c.
Lemma built_ok names points h : class_table h ->
  (forall i nm, nth_error names i = Some nm -> ~ In i points -> plain_name nm) ->
  exists h' t b, custom_classes_built names points h = Ok (seq (S (S (List.length (h_cls h)))) (List.length names)) h' /\
    classes_kept h h' /\ class_table h' /\
    (forall i nm, nth_error names i = Some nm ->
       let c := (S (S (List.length (h_cls h))) + i)%nat in
       class_name h' c = nm /\ c_base (cob h' c) = Some (kind points i) /\ clive h' c) /\
    fresh h t /\ fresh h b /\ t <> b /\ (t < S (S (List.length (h_cls h))))%nat /\ (b < S (S (List.length (h_cls h))))%nat /\
    issubclass h' t cTop = true /\ issubclass h' b cBottom = true /\
    (let ivs := List.filter (fun c => issubclass h' c cInterval) (seq (S (S (List.length (h_cls h)))) (List.length names)) in
     ivs <> [] -> class_chain h' t ivs b).
Proof.
  intros T PN. set (n := List.length (h_cls h)).
  set (ot := ClsObj ("Top_" ++ nat_str (n_subclasses h cTop)) (Some cTop) Inherit Inherit).
  set (h1 := push_cls ot h).
  assert (T1 : class_table h1). { apply push_table; auto. intros b [= <-]. apply table_live; auto; cbv; lia. }
  set (ob := ClsObj ("Bottom_" ++ nat_str (n_subclasses h1 cBottom)) (Some cBottom) Inherit Inherit).
  set (h2 := push_cls ob h1).
  assert (T2 : class_table h2). { apply push_table; auto. intros b [= <-]. apply table_live; auto; cbv; lia. }
  assert (L1 : List.length (h_cls h1) = S n) by apply len_push_cls.
  assert (L2 : List.length (h_cls h2) = S (S n)) by (unfold h2; rewrite len_push_cls; lia).
  destruct (make_classes_ok points names 0 h2 T2) as (h3 & E3 & K3 & T3 & L3 & P3). rewrite L2 in *.
  pose proof (table_wf _ T3) as W3.
  assert (Kt : cob h3 n = ot).
  { destruct K3 as (_ & K & _). rewrite K by lia. unfold h2. rewrite cob_push_old by (unfold clive; lia). apply cob_push_new. }
  assert (Kb : cob h3 (S n) = ob).
  { destruct K3 as (_ & K & _). rewrite K by lia. unfold h2. rewrite <- L1. apply cob_push_new. }
  assert (Lt : clive h3 n) by (unfold clive; lia). assert (Lb : clive h3 (S n)) by (unfold clive; lia).
  assert (St : issubclass h3 n cTop = true).
  { rewrite sub_step by auto. rewrite Kt. cbn [c_base ot]. rewrite sub_refl. apply orb_true_r. }
  assert (Sb : issubclass h3 (S n) cBottom = true).
  { rewrite sub_step by auto. rewrite Kb. cbn [c_base ob]. rewrite sub_refl. apply orb_true_r. }
  set (cs := seq (S (S n)) (List.length names)) in *.
  assert (IN : forall c, In c cs -> exists j nm, nth_error names j = Some nm /\ c = (S (S n) + j)%nat).
  { intros c Hc. apply in_seq in Hc. destruct (nth_error names (c - S (S n))) as [nm|] eqn:E.
    - exists (c - S (S n))%nat, nm. split; [exact E|lia].
    - apply nth_error_None in E. lia. }
  set (ivs := List.filter (fun c => issubclass h3 c cInterval) cs).
  assert (IVS : forall c, In c ivs -> clive h3 c /\ issubclass h3 c cInterval = true /\ (S n < c)%nat /\
     c_base (cob h3 c) = Some cInterval /\ plain_name (c_name (cob h3 c))).
  { intros c Hc. apply filter_In in Hc. destruct Hc as [Hc Hi]. destruct (IN c Hc) as (j & nm & Hj & ->).
    pose proof (P3 j nm Hj) as Pj. cbn [Nat.add] in Pj |- *.
    assert (Lc : clive h3 (S (S (n + j)))).
    { unfold clive. rewrite L3. assert (j < List.length names)%nat by (apply nth_error_Some; congruence). lia. }
    split; [exact Lc|]. split; [exact Hi|]. split; [lia|].
    rewrite Pj. cbn [c_base c_name]. unfold kind. destruct (existsb (Nat.eqb j) points) eqn:Ep.
    - exfalso. assert (issubclass h3 (S (S (n + j))) cPoint = true).
      { rewrite sub_step by auto. rewrite Pj. cbn [c_base]. unfold kind. rewrite Ep, sub_refl. apply orb_true_r. }
      pose proof (kinds_apart h3 (S (S (n + j))) cPoint cInterval T3) as X.
      cbn [Nat.add] in Hi. rewrite X in Hi; [discriminate|simpl; auto|simpl; auto|discriminate|assumption].
    - split; [reflexivity|]. apply (PN j nm Hj). intros HI.
      assert (existsb (Nat.eqb j) points = true); [|congruence]. apply existsb_exists. exists j. split; [auto|apply Nat.eqb_refl]. }
  assert (AP : apart h3 (n :: ivs ++ [S n])).
  { assert (G : forall e, In e (n :: ivs ++ [S n]) -> clive h3 e /\ (n <= e)%nat /\ exists b, c_base (cob h3 e) = Some b /\ (b < 5)%nat).
    { intros e [<-|He]; [|apply in_app_iff in He; destruct He as [He|[<-|[]]]].
      - split; [auto|]. split; [lia|]. exists cTop. rewrite Kt. split; [reflexivity|cbv; lia].
      - destruct (IVS e He) as (A & _ & B & C & _). split; [auto|]. split; [lia|]. exists cInterval. split; [auto|cbv; lia].
      - split; [auto|]. split; [lia|]. exists cBottom. rewrite Kb. split; [reflexivity|cbv; lia]. }
    intros e k He Hk S. destruct (G e He) as (Le & Ge & b & Eb & Bb). destruct (G k Hk) as (_ & Gk & _).
    destruct (anc_base h3 e b k W3 Le Eb S) as [->|X]; [reflexivity|]. destruct T as (T & _). fold n in T. lia. }
  assert (Hier : forall c, In c ivs -> linkable h3 c /\ plain_name (c_name (cob h3 c))).
  { intros c Hc. destruct (IVS c Hc) as (A & B & _ & _ & D). split; [|exact D]. split; [exact A|].
    apply (kind_hier h3 c cInterval T3); [simpl; auto|exact B]. }
  assert (ND : NoDup (n :: ivs ++ [S n])).
  { apply NoDup_ListNoDup. constructor.
    - intros X. apply in_app_iff in X. destruct X as [X|[X|[]]]; [|lia]. destruct (IVS n X) as (_ & _ & Y & _). lia.
    - apply NoDup_ListNoDup. apply NoDup_app. split; [apply NoDup_ListNoDup, List.NoDup_filter, seq_NoDup|].
      split; [|apply NoDup_ListNoDup; constructor; [intros []|constructor]].
      intros x Hx Hy. apply elem_of_list_In in Hx, Hy. destruct Hy as [<-|[]]. destruct (IVS _ Hx) as (_ & _ & Y & _). lia. }
  assert (LKt : linkable h3 n) by (split; [auto|]; apply (kind_hier h3 n cTop T3); [simpl; auto|exact St]).
  assert (LKb : linkable h3 (S n)) by (split; [auto|]; apply (kind_hier h3 (S n) cBottom T3); [simpl; auto|exact Sb]).
  assert (K03 : classes_kept h h3).
  { eapply kept_trans; [|exact K3]. eapply kept_trans; apply kept_push. }
  assert (BODY : forall w h', wire_chain true n (S n) ivs h3 = Ok w h' ->
     custom_classes_built names points h = Ok cs h').
  { intros w h' Ew. unfold custom_classes_built. rewrite (bind_ok _ _ _ _ _ (make_top_eq h)).
    fold ot h1. rewrite (bind_ok _ _ _ _ _ (make_bottom_eq h1)). fold ob h2. rewrite (bind_ok _ _ _ _ _ E3). rewrite L1.
    rewrite bind_gets. change (List.filter (λ c : nat, issubclass h3 c cInterval) (seq (S (S n)) (List.length names))) with ivs.
    rewrite (bind_ok _ _ _ _ _ Ew). reflexivity. }
  assert (exists h', wire_chain true n (S n) ivs h3 = Ok tt h' /\ attrs_in (n :: ivs ++ [S n]) h3 h' /\
          (ivs <> [] -> walk h' (n :: ivs ++ [S n]))) as (h' & Ew & A' & WK).
  { destruct (decide (ivs = [])) as [E0|NE].
    - exists h3. rewrite E0. split; [reflexivity|]. split; [apply attrs_refl|congruence].
    - destruct (wire_ok n (S n) ivs h3) as (h' & X & Y & Z); auto.
      + rewrite Kb. apply bottom_name.
      + rewrite Kt. apply top_name.
      + exists h'. auto. }
  exists h', n, (S n). split; [apply (BODY tt h' Ew)|].
  assert (FR : forall k, In k (n :: ivs ++ [S n]) -> ~ clive h k).
  { intros k Hk. unfold clive. fold n. destruct Hk as [<-|Hk]; [lia|]. apply in_app_iff in Hk.
    destruct Hk as [Hk|[<-|[]]]; [|lia]. destruct (IVS k Hk) as (_ & _ & X & _). lia. }
  assert (K' : classes_kept h h') by (apply (attrs_kept _ h h3 h' A' K03 FR)).
  assert (W' : wf h') by (eapply attrs_wf; eauto).
  split; [exact K'|]. split; [apply (kept_table h h' T W' K')|]. split.
  { intros i nm Hi. cbv zeta. pose proof (P3 i nm Hi) as Pi. fold n. unfold class_name.
    rewrite (proj1 (proj2 A')), (proj1 (proj2 (proj2 A'))), Pi. split; [reflexivity|]. split; [reflexivity|].
    apply (attrs_live _ _ _ _ A'). unfold clive. rewrite L3.
    assert (i < List.length names)%nat by (apply nth_error_Some; congruence). lia. }
  split; [unfold fresh, clive; lia|]. split; [unfold fresh, clive; lia|]. split; [lia|]. split; [lia|]. split; [lia|].
  split; [rewrite (attrs_sub _ h3 h' _ _ W3 A'); exact St|].
  split; [rewrite (attrs_sub _ h3 h' _ _ W3 A'); exact Sb|].
  assert (EI : List.filter (fun c => issubclass h' c cInterval) cs = ivs).
  { apply List.filter_ext. intros c. apply (attrs_sub _ h3 h' _ _ W3 A'). }
  cbv zeta. rewrite EI. intros NE. apply chain_walk. split; [apply NoDup_ListNoDup, List.NoDup_filter, seq_NoDup|].
  split; [exact NE|]. split; [rewrite (attrs_sub _ h3 h' _ _ W3 A'); exact St|].
  split; [rewrite (attrs_sub _ h3 h' _ _ W3 A'); exact Sb|]. split; [|apply WK; exact NE].
  intros c Hc. rewrite (attrs_sub _ h3 h' _ _ W3 A'). apply (IVS c Hc).
Qed.

(** ** C10 *)
Lemma c10_superset :
  forall h c d, (c < List.length (h_cls h))%nat -> (d < List.length (h_cls h))%nat -> c <> d ->
  issubclass h c cHierarchyPart = true -> issubclass h d cHierarchyPart = true ->
  str_in "Top" (class_name h c) = false -> str_in "Bottom" (class_name h d) = false ->
  exists h', set_superset_class c (Some d) h = Ok tt h' /\
    superset_class h' c = Some d /\ subset_class h' d = Some c /\
    (forall k, k <> c -> k <> d -> cob h' k = cob h k) /\
    (forall k, c_name (cob h' k) = c_name (cob h k) /\ c_base (cob h' k) = c_base (cob h k)) /\
    c_sub (cob h' c) = c_sub (cob h c) /\ c_super (cob h' d) = c_super (cob h d) /\
    List.length (h_cls h') = List.length (h_cls h) /\
    h_seq h' = h_seq h /\ h_tier h' = h_tier h /\ h_grp h' = h_grp h /\ h_grid h' = h_grid h.
Proof.
  intros h c d Lc Ld N Hc Hd Tc Bd. exists (linked_classes true c d h).
  split; [apply set_hier_ok; auto|]. destruct (linked_look true c d h Lc Ld N) as [K1 K2].
  split; [exact K1|]. split; [exact K2|]. split; [intros; apply linked_other; auto|].
  split; [intros k; split; [apply linked_name|apply linked_base]|].
  split; [rewrite linked_near by auto; reflexivity|].
  split; [destruct (linked_far true c d h Lc Ld N) as [-> | ->]; reflexivity|].
  split; [apply linked_len|apply linked_rest].
Qed.
Lemma c10_subset :
  forall h c d, (c < List.length (h_cls h))%nat -> (d < List.length (h_cls h))%nat -> c <> d ->
  issubclass h c cHierarchyPart = true -> issubclass h d cHierarchyPart = true ->
  str_in "Bottom" (class_name h c) = false -> str_in "Top" (class_name h d) = false ->
  exists h', set_subset_class c (Some d) h = Ok tt h' /\
    subset_class h' c = Some d /\ superset_class h' d = Some c /\
    (forall k, k <> c -> k <> d -> cob h' k = cob h k) /\
    (forall k, c_name (cob h' k) = c_name (cob h k) /\ c_base (cob h' k) = c_base (cob h k)) /\
    c_super (cob h' c) = c_super (cob h c) /\ c_sub (cob h' d) = c_sub (cob h d) /\
    List.length (h_cls h') = List.length (h_cls h) /\
    h_seq h' = h_seq h /\ h_tier h' = h_tier h /\ h_grp h' = h_grp h /\ h_grid h' = h_grid h.
Proof.
  intros h c d Lc Ld N Hc Hd Tc Bd. exists (linked_classes false c d h).
  split; [apply set_hier_ok; auto|]. destruct (linked_look false c d h Lc Ld N) as [K1 K2].
  split; [exact K1|]. split; [exact K2|]. split; [intros; apply linked_other; auto|].
  split; [intros k; split; [apply linked_name|apply linked_base]|].
  split; [rewrite linked_near by auto; reflexivity|].
  split; [destruct (linked_far false c d h Lc Ld N) as [-> | ->]; reflexivity|].
  split; [apply linked_len|apply linked_rest].
Qed.
Lemma c10_refused :
  forall h c d, issubclass h d cHierarchyPart = false \/ d = c ->
  (str_in "Top" (class_name h c) = false -> set_superset_class c (Some d) h = Raise PyException h) /\
  (str_in "Bottom" (class_name h c) = false -> set_subset_class c (Some d) h = Raise PyException h).
Proof. intros h c d B. split; intros E; apply set_hier_bad; auto. Qed.
Lemma c10_ends :
  forall h c v, (c < List.length (h_cls h))%nat ->
  (v = None \/ str_in "Top" (class_name h c) = true ->
   exists h', set_superset_class c v h = Ok tt h' /\ superset_class h' c = None /\ forall k, k <> c -> cob h' k = cob h k) /\
  (v = None \/ str_in "Bottom" (class_name h c) = true ->
   exists h', set_subset_class c v h = Ok tt h' /\ subset_class h' c = None /\ forall k, k <> c -> cob h' k = cob h k).
Proof.
  intros h c v L. split; intros B.
  - exists (upd_cls c (setf true None) h). split; [|split].
    + destruct v as [d|]; [apply set_hier_held; destruct B; [discriminate|auto]|apply set_hier_none].
    + apply (look_upd_eq h true None c L).
    + intros k K. apply cob_upd_ne; auto.
  - exists (upd_cls c (setf false None) h). split; [|split].
    + destruct v as [d|]; [apply set_hier_held; destruct B; [discriminate|auto]|apply set_hier_none].
    + apply (look_upd_eq h false None c L).
    + intros k K. apply cob_upd_ne; auto.
Qed.

(** ** C11, C12 *)
Lemma map_nth_eq {A B} (f : A -> B) l1 l2 : List.length l1 = List.length l2 ->
  (forall i a, nth_error l1 i = Some a -> nth_error l2 i = Some (f a)) -> map f l1 = l2.
Proof.
  revert l2. induction l1 as [|a l1 IH]; intros [|b l2] L E; simpl in L; try discriminate; [reflexivity|].
  pose proof (E O a eq_refl) as E0. simpl in E0. injection E0 as ->. simpl. f_equal. apply IH; [lia|].
  intros i x Hx. apply (E (S i) x Hx).
Qed.
Lemma built_declares names points h : class_table h ->
  (forall i nm, nth_error names i = Some nm -> ~ In i points -> plain_name nm) ->
  exists h' cs, custom_classes_built names points h = Ok cs h' /\ declares h h' names points cs /\
    List.length cs = List.length names.
Proof.
  intros T PN. destruct (built_ok names points h T PN) as (h' & t & b & E & K & T' & P & Ft & Fb & _ & _ & _ & _ & _ & C).
  set (cs := seq _ _) in *. exists h', cs. split; [exact E|].
  assert (LN : List.length cs = List.length names) by apply seq_length.
  assert (NTH : forall i c, nth_error cs i = Some c -> c = (S (S (List.length (h_cls h))) + i)%nat /\ exists nm, nth_error names i = Some nm).
  { intros i c Hc. assert (i < List.length cs)%nat by (apply nth_error_Some; congruence). split.
    - apply nth_error_nth with (d := O) in Hc. unfold cs in Hc. rewrite seq_nth in Hc by lia. congruence.
    - destruct (nth_error names i) eqn:X; [eauto|]. apply nth_error_None in X. lia. }
  split; [|exact LN]. split; [exact K|]. split.
  { apply map_nth_eq; auto. intros i c Hc. destruct (NTH i c Hc) as [-> (nm & Hn)]. rewrite Hn. f_equal.
    symmetry. apply (P i nm Hn). }
  split; [apply NoDup_ListNoDup, seq_NoDup|]. split.
  { intros c Hc. apply In_nth_error in Hc. destruct Hc as [i Hc]. destruct (NTH i c Hc) as [-> (nm & Hn)].
    destruct (P i nm Hn) as (_ & _ & L). unfold clive in L. lia. }
  split.
  { intros i c Hc. destruct (NTH i c Hc) as [-> (nm & Hn)]. destruct (P i nm Hn) as (_ & B & L).
    assert (S : forall k, kind points i = k -> issubclass h' (S (S (List.length (h_cls h))) + i) k = true).
    { intros k <-. rewrite sub_step by (auto; apply table_wf; auto). rewrite B, sub_refl. apply orb_true_r. }
    unfold kind in S. split; intros I.
    - apply S. assert (existsb (Nat.eqb i) points = true) as ->; [|reflexivity].
      apply existsb_exists. exists i. split; [auto|apply Nat.eqb_refl].
    - apply S. destruct (existsb (Nat.eqb i) points) eqn:X; [|reflexivity].
      apply existsb_exists in X. destruct X as (x & Hx & Ex). apply Nat.eqb_eq in Ex. subst. contradiction. }
  exists t, b. unfold fresh, clive in *. split; [lia|]. split; [lia|]. exact C.
Qed.

Lemma str_index_nth x l i : NoDup l -> nth_error l i = Some x -> str_index x l = Some i.
Proof.
  revert i. induction l as [|y l IH]; intros i ND E; [destruct i; discriminate|]. apply NoDup_cons in ND. destruct ND as [N ND].
  simpl. destruct i as [|i]; simpl in E.
  - injection E as ->. rewrite String.eqb_refl. reflexivity.
  - destruct (String.eqb x y) eqn:Ex.
    + apply String.eqb_eq in Ex. subst. exfalso. apply N. apply elem_of_list_In. eapply nth_error_In; eauto.
    + rewrite (IH i ND E). reflexivity.
Qed.
Lemma mapM_pure {A B} (f : A -> M B) (g : A -> option B) h : (forall x y, g x = Some y -> f x h = Ok y h) ->
  forall l, (forall x, In x l -> g x <> None) ->
  exists r, mapM f l h = Ok r h /\ map g l = map Some r.
Proof.
  intros F. induction l as [|x l IH]; intros G.
  - exists []. split; reflexivity.
  - destruct (g x) as [y|] eqn:E; [|exfalso; apply (G x); simpl; auto].
    destruct IH as (r & E1 & E2); [intros; apply G; simpl; auto|].
    exists (y :: r). split; [|simpl; rewrite E, E2; reflexivity].
    cbn [mapM]. rewrite (bind_ok _ _ _ _ _ (F x y E)), (bind_ok _ _ _ _ _ E1). reflexivity.
Qed.
Lemma map_some_nth {A B} (g : A -> option B) l r : map g l = map Some r ->
  List.length r = List.length l /\ forall i x, nth_error l i = Some x -> nth_error r i = g x.
Proof.
  intros E. split.
  - apply (f_equal (@List.length _)) in E. rewrite !map_length in E. auto.
  - intros i x Hx. apply (f_equal (fun l => nth_error l i)) in E. rewrite !nth_error_map, Hx in E. simpl in E.
    destruct (nth_error r i); simpl in E; congruence.
Qed.
Lemma order_ok names order cs h : NoDup names -> Permutation order names -> names <> [] ->
  List.length cs = List.length names ->
  exists r, order_by_names names order cs h = Ok r h /\ List.length r = List.length names /\
    forall i j x, nth_error names i = Some x -> nth_error order j = Some x -> nth_error r i = nth_error cs j.
Proof.
  intros ND P NE L.
  assert (NDo : NoDup order). { apply (NoDup_Permutation_proper _ _ P). exact ND. }
  set (g := fun x => match str_index x order with None => None | Some i => nth_error cs i end).
  destruct (mapM_pure (fun x => match str_index x order with
                   | None => raise ValueError
                   | Some i => of_opt IndexError (nth_error cs i)
                   end) g h) with (l := names) as (r & E1 & E2).
  - intros x y. unfold g. destruct (str_index x order); [|discriminate]. intros ->. reflexivity.
  - intros x Hx. assert (In x order) as Ho. { apply (Permutation_in x (Permutation_sym P)); auto. }
    apply In_nth_error in Ho. destruct Ho as [j Hj]. unfold g. rewrite (str_index_nth x order j NDo Hj).
    apply nth_error_Some. rewrite L, <- (Permutation_length P). apply nth_error_Some. congruence.
  - apply map_some_nth in E2. destruct E2 as [L2 E2]. exists r. split; [|split; [exact L2|]].
    + unfold order_by_names. destruct order; [|exact E1]. apply Permutation_nil in P. congruence.
    + intros i j x Hi Hj. rewrite (E2 i x Hi). unfold g. rewrite (str_index_nth x order j NDo Hj). reflexivity.
Qed.

Lemma c11_chain :
  forall h names points, class_table h -> names <> [] -> NoDup names ->
  (forall i nm, nth_error names i = Some nm -> ~ In i points -> plain_name nm) ->
  exists h' cs, custom_classes names RNone points h = Ok cs h' /\ declares h h' names points cs.
Proof.
  intros h names points T NE ND PN. destruct (built_declares names points h T PN) as (h' & cs & E & D & L).
  destruct (order_ok names names cs h' ND (Permutation_refl _) NE L) as (r & Er & Lr & Pr).
  exists h', cs. split; [|exact D]. unfold custom_classes. rewrite (bind_ok _ _ _ _ _ E), Er. f_equal.
  apply nth_ext with (d := O) (d' := O); [congruence|]. intros i Hi.
  destruct (nth_error names i) as [x|] eqn:Ex; [|apply nth_error_None in Ex; lia].
  pose proof (Pr i i x Ex Ex) as X. rewrite (nth_error_nth' r O) in X by lia. rewrite (nth_error_nth' cs O) in X by lia. congruence.
Qed.
Lemma c11_one :
  forall h name, class_table h -> plain_name name ->
  exists h' c, custom_class1 name false h = Ok c h' /\ declares h h' [name] [] [c].
Proof.
  intros h name T PN. destruct (built_declares [name] [] h T) as (h' & cs & E & D & L).
  { intros [|[|i]] nm; simpl; try discriminate. intros [= <-] _. exact PN. }
  destruct (built_ok [name] [] h T) as (h2 & t & b & E2 & _).
  { intros [|[|i]] nm; simpl; try discriminate. intros [= <-] _. exact PN. }
  rewrite E in E2. injection E2 as -> ->. exists h2, (S (S (List.length (h_cls h)))). split; [|exact D].
  unfold custom_classes_built in E. unfold custom_class1.
  rewrite (bind_ok _ _ _ _ _ (make_top_eq h)) in E. rewrite (bind_ok _ _ _ _ _ (make_top_eq h)). set (h1 := push_cls _ h) in *.
  rewrite (bind_ok _ _ _ _ _ (make_bottom_eq h1)) in E. rewrite (bind_ok _ _ _ _ _ (make_bottom_eq h1)). set (h3 := push_cls _ h1) in *.
  cbn [make_classes existsb] in E. rewrite bind_assoc in E.
  rewrite (bind_ok _ _ _ _ _ (type_copy_eq name cInterval h3)) in E. rewrite (bind_ok _ _ _ _ _ (type_copy_eq name cInterval h3)). set (h4 := push_cls _ h3) in *.
  rewrite bind_assoc, bind_ret, bind_ret, bind_gets in E.
  assert (X : issubclass h4 (List.length (h_cls h3)) cInterval = true).
  { destruct D as (_ & _ & _ & _ & _ & D). unfold h4. rewrite sub_step.
    - rewrite cob_push_new. cbn [c_base]. rewrite sub_refl. apply orb_true_r.
    - assert (PT : forall nm k u v g, class_table g -> (k < 5)%nat -> class_table (push_cls (ClsObj nm (Some k) u v) g)).
      { intros nm k u v g Tg Hk. apply push_table; auto. intros x [= <-]. apply table_live; auto. }
      apply table_wf. apply PT; [apply PT; [apply PT; auto|]|]; cbv; lia.
    - apply clive_push_new. }
  cbn [List.filter] in E. rewrite X in E. cbn [wire_chain when] in E. rewrite !bind_assoc in E.
  destruct (set_superset_class (List.length (h_cls h3)) (Some (List.length (h_cls h))) h4) as [[] h5|] eqn:E5.
  2: { rewrite (bind_raise _ _ _ _ _ E5) in E. discriminate. }
  rewrite (bind_ok _ _ _ _ _ E5) in E. rewrite (bind_ok _ _ _ _ _ E5).
  rewrite bind_assoc in E. destruct (set_subset_class (List.length (h_cls h3)) (Some (List.length (h_cls h1))) h5) as [[] h6|] eqn:E6.
  2: { rewrite (bind_raise _ _ _ _ _ E6) in E. discriminate. }
  rewrite (bind_ok _ _ _ _ _ E6) in E. rewrite (bind_ok _ _ _ _ _ E6). rewrite bind_ret in E. injection E as <- <-. 
  unfold ret. f_equal.
Qed.
Lemma c11_empty :
  forall h points, class_table h -> exists h', custom_classes [] RNone points h = Raise IndexError h' /\ classes_kept h h'.
Proof.
  intros h points T. destruct (built_declares [] points h T) as (h' & cs & E & D & L).
  { intros [|i]; discriminate. }
  exists h'. split; [|apply D]. unfold custom_classes. rewrite (bind_ok _ _ _ _ _ E). reflexivity.
Qed.

Lemma c12_positions :
  forall h names points l, class_table h -> l <> [] ->
  (forall i nm, nth_error names i = Some nm -> ~ In i points -> plain_name nm) ->
  (forall k, In k l -> - Z.of_nat (List.length names) <= k < Z.of_nat (List.length names)) ->
  exists h' cs r, custom_classes names (RInt l) points h = Ok r h' /\ declares h h' names points cs /\
    List.length r = List.length l /\
    forall j k, nth_error l j = Some k ->
      nth_error r j = nth_error cs (Z.to_nat (k mod Z.of_nat (List.length names))).
Proof.
  intros h names points l T NE PN R. destruct (built_declares names points h T PN) as (h' & cs & E & D & L).
  destruct (mapM_pure (fun i => of_opt IndexError (py_index cs i)) (py_index cs) h') with (l := l) as (r & E1 & E2).
  { intros x y ->. reflexivity. }
  { intros k Hk. specialize (R k Hk). unfold py_index. rewrite L. destruct (0 <=? k) eqn:E0; [apply nth_error_Some; lia|].
    rewrite (proj2 (Z.leb_le _ _)) by lia. apply nth_error_Some; lia. }
  apply map_some_nth in E2. destruct E2 as [L2 E2]. exists h', cs, r. split; [|split; [exact D|split; [exact L2|]]].
  - unfold custom_classes. rewrite (bind_ok _ _ _ _ _ E). destruct l; [congruence|]. exact E1.
  - intros j k Hk. rewrite (E2 j k Hk). apply nth_error_In in Hk. specialize (R k Hk).
    unfold py_index. rewrite L. destruct (0 <=? k) eqn:E0.
    + rewrite Z.mod_small by lia. reflexivity.
    + rewrite (proj2 (Z.leb_le _ _)) by lia. f_equal. f_equal.
      symmetry. replace k with (k + Z.of_nat (List.length names) + (-1) * Z.of_nat (List.length names)) by lia.
      rewrite Z.mod_add by lia. rewrite Z.mod_small by lia. lia.
Qed.
Lemma c12_names :
  forall h names order points, class_table h -> names <> [] -> NoDup names -> Permutation order names ->
  (forall i nm, nth_error names i = Some nm -> ~ In i points -> plain_name nm) ->
  exists h' cs r, custom_classes names (RStr order) points h = Ok r h' /\ declares h h' names points cs /\
    List.length r = List.length names /\
    (forall i j x, nth_error names i = Some x -> nth_error order j = Some x -> nth_error r i = nth_error cs j) /\
    (map (class_name h') r = order <->
     forall i j x, nth_error names i = Some x -> nth_error order j = Some x -> nth_error order i = nth_error names j).
Proof.
  intros h names order points T NE ND P PN. destruct (built_declares names points h T PN) as (h' & cs & E & D & L).
  destruct (order_ok names order cs h' ND P NE L) as (r & Er & Lr & Pr).
  exists h', cs, r. split; [unfold custom_classes; rewrite (bind_ok _ _ _ _ _ E); exact Er|].
  split; [exact D|]. split; [exact Lr|]. split; [exact Pr|].
  destruct D as (_ & N & _). pose proof (Permutation_length P) as LP.
  assert (X : forall i j x, nth_error names i = Some x -> nth_error order j = Some x ->
            nth_error (map (class_name h') r) i = nth_error names j).
  { intros i j x Hi Hj. rewrite nth_error_map, (Pr i j x Hi Hj), <- N, nth_error_map. reflexivity. }
  split.
  - intros Eo i j x Hi Hj. rewrite <- (X i j x Hi Hj), Eo. reflexivity.
  - intros G. apply map_nth_eq; [congruence|]. intros i c Hc.
    assert (i < List.length names)%nat as Hl. { rewrite <- Lr. apply nth_error_Some. congruence. }
    destruct (nth_error names i) as [x|] eqn:Hi; [|apply nth_error_None in Hi; lia].
    assert (In x order) as Ho. { apply (Permutation_in x (Permutation_sym P)). eapply nth_error_In; eauto. }
    apply In_nth_error in Ho. destruct Ho as [j Hj]. rewrite (G i j x Hi Hj), <- (X i j x Hi Hj), nth_error_map, Hc. reflexivity.
Qed.

(** ** C13 *)
Definition newc (h0 h : heap) (c : cid) : Prop :=
  (List.length (h_cls h0) <= c)%nat /\ clive h c /\ exists b, c_base (cob h c) = Some b /\ clive h0 b.
Lemma new_anc h0 h e k : wf h -> newc h0 h e -> issubclass h e k = true -> k = e \/ clive h0 k.
Proof.
  intros W (A & L & b & Eb & Lb) S. destruct (anc_base h e b k W L Eb S) as [->|X]; [auto|]. right. unfold clive in *. lia.
Qed.
Lemma new_keep h0 h up c d u e : wf h -> newc h0 h c -> newc h0 h d -> c <> d -> newc h0 h e ->
  (e <> c \/ u <> up) -> (e <> d \/ u = up) ->
  look u (linked_classes up c d h) e = look u h e.
Proof.
  intros W (C0 & C1 & _) (D0 & D1 & _) N E A B. apply linked_keep; auto; [apply E|].
  intros k Hk. destruct (new_anc h0 h e k W E Hk) as [->|X]; [auto|]. right. unfold clive in X. split; lia.
Qed.
Lemma new_linked h0 h up c d e : newc h0 h e -> newc h0 (linked_classes up c d h) e.
Proof.
  intros (A & L & b & Eb & Lb). split; [exact A|]. split; [apply linked_live; exact L|].
  exists b. rewrite linked_base. auto.
Qed.
Lemma new_kept h0 h h' e : classes_kept h h' -> newc h0 h e -> newc h0 h' e.
Proof.
  intros K (A & L & b & Eb & Lb). split; [exact A|]. split; [apply (kept_live h); auto|].
  exists b. destruct K as (_ & K & _). rewrite K by exact L. auto.
Qed.
Lemma walk_new h0 h c d l : wf h -> newc h0 h c -> newc h0 h d -> (forall e, In e l -> newc h0 h e) ->
  c <> d -> ~ In c l -> ~ In d l -> walk h (d :: l) -> walk (linked_classes false c d h) (d :: l).
Proof.
  intros W C D L N N1 N2.
  assert (G : forall l, (forall e, In e l -> newc h0 h e) -> ~ In c l -> ~ In d l -> walk h l -> walk (linked_classes false c d h) l).
  { intros m Lm M1 M2. apply walk_ext. intros x Hx u. apply (new_keep h0); auto; left; intros ->; auto. }
  destruct l as [|e l]; [auto|]. intros [[P1 P2] R]. split; [|apply G; auto].
  split.
  - rewrite <- P1. exact (new_keep h0 h false c d false d W C D N D (or_introl (not_eq_sym N)) (or_intror eq_refl)).
  - rewrite <- P2. apply (new_keep h0 h false c d true e W C D N (L e (or_introl eq_refl))).
    + left. intros ->. apply N1. left. reflexivity.
    + left. intros ->. apply N2. left. reflexivity.
Qed.

Lemma copy_look h c nm u : wf h -> clive h c ->
  look u (push_cls (ClsObj nm (Some c) (c_super (cob h c)) (c_sub (cob h c))) h) (List.length (h_cls h)) = look u h c.
Proof.
  intros W L. set (o := ClsObj _ _ _ _). set (h1 := push_cls o h).
  assert (W1 : wf h1). { apply wf_push; auto. intros b [= <-]. exact L. }
  rewrite look_step; [|exact W1|apply clive_push_new]. unfold h1 at 1 2. rewrite cob_push_new.
  rewrite (look_step u h c W L). replace (attr u o) with (attr u (cob h c)) by (destruct u; reflexivity).
  destruct (attr u (cob h c)) eqn:E; [|reflexivity]. cbn [c_base o].
  rewrite (kept_look h h1 u c W W1 (kept_push _ _) L), (look_step u h c W L), E. reflexivity.
Qed.

Lemma Forall2_impl' {A B} (P Q : A -> B -> Prop) l m : (forall x y, In x l -> In y m -> P x y -> Q x y) ->
  Forall2 P l m -> Forall2 Q l m.
Proof.
  intros I F. induction F; constructor; [apply I; simpl; auto|]. apply IHF. intros. apply I; simpl; auto.
Qed.

Lemma clone_ok b : forall cs c n rc h q, class_table h -> walk h ((c :: cs) ++ [b]) ->
  (forall x, In x (c :: cs) -> issubclass h x cInterval = true /\ plain_name (class_name h x)) ->
  issubclass h b cBottom = true -> (List.length cs < n)%nat ->
  superset_class h c = Some q -> clive h q -> (rc = true \/ issubclass h q cTop = true) ->
  exists h' c' cs' b', clone_n n rc c h = Ok c' h' /\
    Forall2 (clone_of h h') (c :: cs) (c' :: cs') /\ NoDup (c' :: cs' ++ [b']) /\
    newc h h' b' /\ c_base (cob h' b') = Some cBottom /\
    walk h' ((c' :: cs') ++ [b']) /\ classes_kept h h' /\ class_table h' /\
    (if issubclass h q cTop
     then exists t', newc h h' t' /\ c_base (cob h' t') = Some cTop /\ pair_ok h' t' c'
     else superset_class h' c' = Some q).
Proof.
  induction cs as [|d cs IH]; intros c n rc h q T WK IV Bb Ln Sq Lq RC; (destruct n as [|n]; [lia|]).
  all: set (n0 := List.length (h_cls h)); pose proof (table_wf h T) as W.
  all: destruct (IV c (or_introl eq_refl)) as [Ic [PTc PBc]].
  all: assert (Lc : clive h c) by (apply (sub_live h c cInterval T); [cbv; lia|exact Ic]).
  all: set (o := ClsObj (class_name h c) (Some c) (c_super (cob h c)) (c_sub (cob h c))); set (h1 := push_cls o h).
  all: assert (T1 : class_table h1) by (apply push_table; auto; intros x [= <-]; exact Lc).
  all: pose proof (table_wf h1 T1) as W1.
  all: assert (K1 : classes_kept h h1) by apply kept_push.
  all: assert (N1 : newc h h1 n0) by
    (split; [unfold n0; lia|]; split; [apply clive_push_new|]; exists c; unfold h1; rewrite cob_push_new; auto).
  all: assert (Hc1 : issubclass h1 n0 cHierarchyPart = true) by
    (rewrite sub_step; [|exact W1|apply N1]; unfold h1 at 1; rewrite cob_push_new; cbn [c_base o];
     rewrite (kept_sub h h1 c _ W W1 K1 Lc), (kind_hier h c cInterval T) by (simpl; auto); apply orb_true_r).
  (* the Top part *)
  all: set (ist := issubclass h q cTop).
  all: assert (exists h2 top, (forall k (kk : M cid),
       (when ist (t <- make_top ;; set_superset_class n0 (Some t)) ;;; kk) h1 = k -> kk h2 = k) /\
       (forall k (kk : M cid), kk h2 = k -> (when ist (t <- make_top ;; set_superset_class n0 (Some t)) ;;; kk) h1 = k) /\
       classes_kept h h2 /\ class_table h2 /\ newc h h2 n0 /\ cob h2 n0 = (if ist then setf true (Some top) o else o) /\
       issubclass h2 n0 cHierarchyPart = true /\
       subset_class h2 n0 = subset_class h c /\ superset_class h2 n0 = Some (if ist then top else q) /\
       (ist = true -> newc h h2 top /\ c_base (cob h2 top) = Some cTop /\ top <> n0 /\ pair_ok h2 top n0))
     as (h2 & top & _ & S2 & K2 & T2 & N2 & O2 & H2 & Sub2 & Sup2 & Top2).
  1, 3: (destruct ist eqn:Eist).
  1, 3: (set (ot := ClsObj ("Top_" ++ nat_str (n_subclasses h1 cTop)) (Some cTop) Inherit Inherit);
    set (ht := push_cls ot h1); set (t := List.length (h_cls h1));
    assert (Tt : class_table ht) by (apply push_table; auto; intros x [= <-]; apply table_live; auto; cbv; lia);
    pose proof (table_wf ht Tt) as Wt;
    assert (Kt : classes_kept h1 ht) by apply kept_push;
    assert (Lt : t = S n0) by (unfold t, h1; apply len_push_cls);
    assert (NNt : newc h ht n0) by (apply (new_kept h h1); auto);
    assert (Nt : newc h ht t) by
      (split; [rewrite Lt; unfold n0; lia|]; split; [apply clive_push_new|]; exists cTop; unfold ht, t; rewrite cob_push_new;
       split; [reflexivity|apply table_live; auto; cbv; lia]);
    assert (ON : cob ht n0 = o) by (destruct Kt as (_ & Kt & _); rewrite Kt by apply N1; apply cob_push_new);
    assert (OT : cob ht t = ot) by apply cob_push_new;
    assert (Et : (t <- make_top ;; set_superset_class n0 (Some t)) h1 = Ok tt (linked_classes true n0 t ht)) by
      (rewrite (bind_ok _ _ _ _ _ (make_top_eq h1)); apply set_hier_ok;
        [apply NNt|apply Nt|lia|rewrite (kept_sub h1 ht n0 _ W1 Wt Kt (proj1 (proj2 N1))); exact Hc1
        |apply (kind_hier ht t cTop Tt); [simpl; auto|]; rewrite sub_step; [|exact Wt|apply Nt]; rewrite OT; cbn [c_base ot]; rewrite sub_refl; apply orb_true_r
        |fold ht; rewrite ON; exact PTc|fold ht; fold t; rewrite OT; apply top_name]);
    exists (linked_classes true n0 t ht), t;
    assert (W2 : wf (linked_classes true n0 t ht)) by (apply linked_wf; exact Wt);
    (split; [intros k kk; cbn [when]; rewrite (bind_ok _ _ _ _ _ Et); auto|]);
    (split; [intros k kk; cbn [when]; rewrite (bind_ok _ _ _ _ _ Et); auto|]);
    (split; [apply kept_linked; [apply (kept_trans h h1 ht K1 Kt)|unfold clive; lia|unfold clive; lia]|]);
    (split; [apply linked_table; [exact Tt| |]; destruct T as (T5 & _); fold n0 in T5; lia|]);
    (split; [apply new_linked; exact NNt|]);
    (split; [rewrite linked_near; [rewrite ON; reflexivity|apply NNt|lia]|]);
    (split; [rewrite linked_sub, (kept_sub h1 ht n0 _ W1 Wt Kt (proj1 (proj2 N1))); exact Hc1|]);
    destruct (linked_look true n0 t ht) as [LL1 LL2]; [apply NNt|apply Nt|lia|];
    (split; [change (look false (linked_classes true n0 t ht) n0 = look false h c);
      rewrite (new_keep h); [|auto|auto|auto|lia|auto|right; discriminate|left; lia];
      rewrite (kept_look h1 ht false n0 W1 Wt Kt (proj1 (proj2 N1))); apply copy_look; auto|]);
    (split; [exact LL1|]); intros _;
    (split; [apply new_linked; exact Nt|]); (split; [rewrite linked_base, OT; reflexivity|]); (split; [lia|]); split; [exact LL2|exact LL1]).
  1, 2: (exists h1, q;
    (split; [intros k kk; cbn [when]; rewrite bind_ret; auto|]); (split; [intros k kk; cbn [when]; rewrite bind_ret; auto|]);
    (split; [exact K1|]); (split; [exact T1|]); (split; [exact N1|]); (split; [apply cob_push_new|]); (split; [exact Hc1|]);
    (split; [exact (copy_look h c (class_name h c) false W Lc)|]); (split; [|discriminate]);
    rewrite <- Sq; exact (copy_look h c (class_name h c) true W Lc)).
  all: pose proof (table_wf h2 T2) as W2.
  all: assert (HEAD : forall r, (sub' <- gets (fun h => subset_class h n0) ;;
        isbot' <- issubclass_m sub' cBottom ;;
        when isbot' (b <- make_bottom ;; set_subset_class n0 (Some b)) ;;;
        sub2 <- gets (fun h => subset_class h n0) ;;
        match sub2 with
        | None => raise AttributeError
        | Some d =>
          back <- gets (fun h => superset_class h d) ;;
          subiv <- gets (fun h => issubclass h d cInterval) ;;
          if negb (bool_decide (back = Some n0)) && subiv then
            d' <- clone_n n true d ;;
            set_subset_class n0 (Some d') ;;;
            ret n0
          else ret n0
        end) h2 = r -> clone_n (S n) rc c h = r).
  1, 3: (intros r Hr; cbn [clone_n]; rewrite bind_gets, bind_gets, Ic, bind_gets, Sq; unfold issubclass_m at 1; rewrite bind_gets;
    (replace (negb (issubclass h q cTop) && negb rc) with false by (destruct RC as [-> | ->]; [rewrite andb_false_r|]; reflexivity));
    rewrite bind_gets, (bind_ok _ _ _ _ _ (type_copy_eq (class_name h c) c h)); fold o h1 n0; rewrite bind_gets;
    replace (superset_class h1 n0) with (Some q) by (rewrite <- Sq; symmetry; exact (copy_look h c (class_name h c) true W Lc));
    unfold issubclass_m at 1; rewrite bind_gets, (kept_sub h h1 q cTop W W1 K1 Lq); apply S2; exact Hr).
  - (* the last class *)
    destruct WK as [[Pb1 Pb2] _]. cbn [app] in *.
    set (ob := ClsObj ("Bottom_" ++ nat_str (n_subclasses h2 cBottom)) (Some cBottom) Inherit Inherit).
    set (h3 := push_cls ob h2). set (b' := List.length (h_cls h2)).
    assert (T3 : class_table h3) by (apply push_table; auto; intros x [= <-]; apply table_live; auto; cbv; lia).
    pose proof (table_wf h3 T3) as W3.
    assert (K3 : classes_kept h2 h3) by apply kept_push.
    assert (N3 : newc h h3 n0) by (apply (new_kept h h2); auto).
    assert (NB : (n0 < b')%nat). { destruct N2 as (_ & X & _). exact X. }
    assert (B3 : newc h h3 b').
    { split; [fold n0; lia|]. split; [apply clive_push_new|]. exists cBottom. unfold h3, b'. rewrite cob_push_new.
      split; [reflexivity|apply table_live; auto; cbv; lia]. }
    assert (ON : cob h3 n0 = cob h2 n0). { destruct K3 as (_ & X & _). apply X. apply N2. }
    assert (OB : cob h3 b' = ob) by apply cob_push_new.
    assert (Eb : (b <- make_bottom ;; set_subset_class n0 (Some b)) h2 = Ok tt (linked_classes false n0 b' h3)).
    { rewrite (bind_ok _ _ _ _ _ (make_bottom_eq h2)). apply set_hier_ok; [apply N3|apply B3|lia| | | |].
      - rewrite (kept_sub h2 h3 n0 _ W2 W3 K3); [exact H2|apply N2].
      - apply (kind_hier h3 b' cBottom T3); [simpl; auto|]. rewrite sub_step; [|exact W3|apply B3]. rewrite OB. cbn [c_base ob].
        rewrite sub_refl. apply orb_true_r.
      - fold ob h3. rewrite ON, O2. destruct ist; exact PBc.
      - fold ob h3. fold b'. rewrite OB. apply bottom_name. }
    set (h4 := linked_classes false n0 b' h3) in *.
    assert (W4 : wf h4) by (apply linked_wf; exact W3).
    destruct (linked_look false n0 b' h3) as [LL1 LL2]; [apply N3|apply B3|lia|]. fold h4 in LL1, LL2.
    assert (Lb : clive h b) by (apply (sub_live h b cBottom T); [cbv; lia|exact Bb]).
    exists h4, n0, [], b'. split.
    { apply HEAD. rewrite bind_gets, Sub2, Pb1. unfold issubclass_m. rewrite bind_gets, (kept_sub h h2 b _ W W2 K2 Lb), Bb.
      cbn [when]. rewrite (bind_ok _ _ _ _ _ Eb). rewrite bind_gets. change (subset_class h4 n0) with (look false h4 n0). rewrite LL1.
      rewrite bind_gets. change (superset_class h4 b') with (look (negb false) h4 b'). rewrite LL2, bind_gets.
      rewrite bool_decide_true by reflexivity. reflexivity. }
    assert (KA : classes_kept h h4) by (apply kept_linked; [apply (kept_trans h h2 h3 K2 K3)|unfold clive; lia|unfold clive; lia]).
    split; [|split; [|split; [|split; [|split; [|split; [|split]]]]]].
    + constructor; [|constructor]. split; [split; [unfold n0; lia|apply linked_live; apply N3]|].
      unfold class_name, h4. rewrite linked_name, linked_base, ON, O2. destruct ist; split; reflexivity.
    + apply NoDup_ListNoDup. constructor; [intros [X|[]]; lia|]. constructor; [intros []|constructor].
    + apply new_linked. exact B3.
    + unfold h4; rewrite linked_base, OB. reflexivity.
    + split; [|exact I]. split; [exact LL1|exact LL2].
    + exact KA.
    + apply linked_table; [exact T3| |]; destruct T as (T5 & _); fold n0 in T5; lia.
    + assert (LS : look true h4 n0 = look true h2 n0).
      { unfold h4. rewrite (new_keep h h3 false n0 b' true n0 W3 N3 B3); [|lia|exact N3|right; discriminate|left; lia].
        apply (kept_look h2 h3); auto; apply N2. }
      destruct ist.
      * destruct (Top2 eq_refl) as (X1 & X2 & X3 & X4 & X5). exists top.
        assert (newc h h3 top) as Y by (apply (new_kept h h2); auto).
        assert (top <> b') as X6. { destruct X1 as (_ & X1 & _). unfold b'. unfold clive in X1. lia. }
        split; [apply new_linked; exact Y|]. split.
        { unfold h4; rewrite linked_base. destruct K3 as (_ & X & _). rewrite X by apply X1. exact X2. }
        split; [|change (look true h4 n0 = Some top); rewrite LS; exact X5].
        change (look false h4 top = Some n0). unfold h4.
        rewrite (new_keep h h3 false n0 b' false top W3 N3 B3); [|lia|exact Y|left; auto|left; auto].
        rewrite (kept_look h2 h3); auto. apply X1.
      * change (look true h4 n0 = Some q). rewrite LS. exact Sup2.
  - (* recursion *)
    destruct WK as [[Pd1 Pd2] WK'].
    destruct (IV d (or_intror (or_introl eq_refl))) as [Id [PTd PBd]].
    assert (Ld : clive h d) by (apply (sub_live h d cInterval T); [cbv; lia|exact Id]).
    assert (Lb : clive h b) by (apply (sub_live h b cBottom T); [cbv; lia|exact Bb]).
    assert (LX : forall x, In x (c :: (d :: cs) ++ [b]) -> clive h x).
    { intros x [<-|Hx]; [exact Lc|]. apply in_app_iff in Hx. destruct Hx as [Hx|[<-|[]]]; [|exact Lb].
      apply (sub_live h x cInterval T); [cbv; lia|]. apply IV. right. exact Hx. }
    destruct (IH d n true h2 c) as (h5 & d' & ds & b' & E5 & F5 & ND5 & B5 & BB5 & WK5 & K5 & T5 & Sup5); auto.
    + eapply walk_ext; [|exact WK']. intros x Hx u. apply (kept_look h h2); auto. apply LX. right. exact Hx.
    + intros x Hx. assert (clive h x) as Lx. { apply LX. right. apply in_app_iff. auto. }
      destruct (IV x (or_intror Hx)) as [I1 I2]. rewrite (kept_sub h h2); auto. split; [exact I1|].
      unfold class_name. destruct K2 as (_ & K2 & _). rewrite K2 by exact Lx. exact I2.
    + rewrite (kept_sub h h2); auto.
    + simpl in Ln. lia.
    + rewrite <- Pd2. apply (kept_look h h2 true d); auto.
    + apply (kept_live h h2); auto.
    + pose proof (table_wf h5 T5) as W5.
      assert (Ntop : issubclass h2 c cTop = false).
      { rewrite (kept_sub h h2); auto. apply (kinds_apart h c cInterval cTop T); simpl; auto; discriminate. }
      rewrite Ntop in Sup5.
      assert (KK : classes_kept h h5) by (apply (kept_trans h h2 h5 K2 K5)).
      assert (NN : newc h h5 n0) by (apply (new_kept h h2); auto).
      assert (LN2 : (n0 < List.length (h_cls h2))%nat) by apply N2.
      assert (NEW : forall x e, In x (d :: cs) -> clone_of h2 h5 x e -> newc h h5 e).
      { intros x e Hx (C1 & _ & C3). split; [fold n0; lia|]. split; [apply C1|]. exists x. split; [exact C3|].
        apply LX. right. apply in_app_iff. auto. }
      assert (NDs : forall e, In e (d' :: ds) -> newc h h5 e /\ (List.length (h_cls h2) <= e)%nat).
      { intros e He. assert (exists x, In x (d :: cs) /\ clone_of h2 h5 x e) as (x & Hx & Cx).
        { clear -F5 He. revert He. induction F5 as [|x y l m C F IHF]; [intros []|]. intros [<-|He].
          - exists x. split; [left; reflexivity|exact C].
          - destruct (IHF He) as (z & Hz & Cz). exists z. split; [right; exact Hz|exact Cz]. }
        split; [apply (NEW x e Hx Cx)|apply Cx]. }
      assert (NBn : newc h h5 b').
      { destruct B5 as (X1 & X2 & bb & X3 & X4). split; [fold n0; lia|]. split; [exact X2|]. exists cBottom. split; [exact BB5|].
        apply table_live; auto; cbv; lia. }
      destruct (NDs d' (or_introl eq_refl)) as [ND' GD'].
      assert (NAME : c_name (cob h5 n0) = c_name (cob h c)).
      { destruct K5 as (_ & X & _). rewrite X by exact LN2. rewrite O2. destruct ist; reflexivity. }
      assert (NAMEd : c_name (cob h5 d') = c_name (cob h d)).
      { inversion F5 as [|x y l m CC FF]; subst. destruct CC as (_ & X & _). unfold class_name in X. rewrite X.
        destruct K2 as (_ & K2 & _). rewrite K2 by exact Ld. reflexivity. }
      assert (HIERd : issubclass h5 d' cHierarchyPart = true).
      { rewrite sub_step; [|exact W5|apply ND']. inversion F5 as [|x y l m CC FF]; subst.
        destruct CC as (_ & _ & X). rewrite X, (kept_sub h h5 d _ W W5 KK Ld), (kind_hier h d cInterval T) by (simpl; auto).
        apply orb_true_r. }
      assert (E6 : set_subset_class n0 (Some d') h5 = Ok tt (linked_classes false n0 d' h5)).
      { apply set_hier_ok; [apply NN|apply ND'|lia| |exact HIERd| |].
        - rewrite (kept_sub h2 h5 n0 _ W2 W5 K5); [exact H2|exact LN2].
        - rewrite NAME. exact PBc.
        - rewrite NAMEd. exact PTd. }
      set (h6 := linked_classes false n0 d' h5) in *.
      destruct (linked_look false n0 d' h5) as [LL1 LL2]; [apply NN|apply ND'|lia|]. fold h6 in LL1, LL2.
      assert (NX : forall e, In e (d' :: ds ++ [b']) -> newc h h5 e /\ (List.length (h_cls h2) <= e)%nat).
      { intros e [<-|He]; [apply NDs; left; reflexivity|]. apply in_app_iff in He. destruct He as [He|[<-|[]]].
        - apply NDs. right. exact He.
        - split; [exact NBn|]. apply B5. }
      exists h6, n0, (d' :: ds), b'. split.
      { apply HEAD. rewrite bind_gets, Sub2, Pd1. unfold issubclass_m. rewrite bind_gets, (kept_sub h h2 d _ W W2 K2 Ld).
        rewrite (kinds_apart h d cInterval cBottom T); [|simpl; auto|simpl; auto|discriminate|exact Id].
        cbn [when]. rewrite bind_ret, bind_gets, Sub2, Pd1, bind_gets, bind_gets.
        replace (superset_class h2 d) with (Some c) by (rewrite <- Pd2; symmetry; apply (kept_look h h2 true d W W2 K2 Ld)).
        rewrite bool_decide_false by (intros [= X]; unfold clive in Lc; fold n0 in Lc; lia).
        rewrite (kept_sub h h2 d _ W W2 K2 Ld), Id. cbn [negb andb].
        rewrite (bind_ok _ _ _ _ _ E5), (bind_ok _ _ _ _ _ E6). reflexivity. }
      assert (KA : classes_kept h h6) by (apply kept_linked; [exact KK|unfold clive; lia|unfold clive; lia]).
      split; [|split; [|split; [|split; [|split; [|split; [|split]]]]]].
      * constructor.
        -- split; [split; [unfold n0; lia|apply linked_live; apply NN]|]. unfold class_name, h6. rewrite linked_name, linked_base.
           split; [exact NAME|]. destruct K5 as (_ & X & _). rewrite X by exact LN2. rewrite O2. destruct ist; reflexivity.
        -- eapply Forall2_impl'; [|exact F5]. intros x e Hx He (C1 & C2 & C3).
           split; [split; [lia|apply linked_live; apply C1]|]. unfold class_name in *. unfold h6. rewrite linked_name, linked_base, C2.
           split; [|exact C3]. destruct K2 as (_ & K2 & _). rewrite K2; [reflexivity|]. apply LX. right. apply in_app_iff. auto.
      * apply NoDup_ListNoDup. constructor; [|apply NoDup_ListNoDup; exact ND5].
        intros X. destruct (NX n0 X) as [_ Y]. lia.
      * apply new_linked. exact NBn.
      * unfold h6; rewrite linked_base. exact BB5.
      * split; [split; [exact LL1|exact LL2]|]. apply (walk_new h); auto; [|lia| |].
        -- intros e He. apply NX. right. exact He.
        -- intros X. destruct (NX n0 (or_intror X)) as [_ Y]. lia.
        -- apply NoDup_cons in ND5. destruct ND5 as [X _]. intros Y. apply X. apply elem_of_list_In. exact Y.
      * exact KA.
      * apply linked_table; [exact T5| |]; destruct T as (T5' & _); fold n0 in T5'; lia.
      * assert (LS : look true h6 n0 = look true h2 n0).
        { unfold h6. rewrite (new_keep h h5 false n0 d' true n0 W5 NN ND'); [|lia|exact NN|right; discriminate|left; lia].
          apply (kept_look h2 h5); auto. }
        destruct ist.
        -- destruct (Top2 eq_refl) as (X1 & X2 & X3 & X4 & X5). exists top.
           assert (newc h h5 top) as Y by (apply (new_kept h h2); auto).
           assert (top <> d') as X6. { destruct X1 as (_ & X1 & _). unfold clive in X1. lia. }
           split; [apply new_linked; exact Y|]. split.
           { unfold h6; rewrite linked_base. destruct K5 as (_ & X & _). rewrite X by apply X1. exact X2. }
           split; [|change (look true h6 n0 = Some top); rewrite LS; exact X5].
           change (look false h6 top = Some n0). unfold h6.
           rewrite (new_keep h h5 false n0 d' false top W5 NN ND'); [|lia|exact Y|left; auto|left; auto].
           rewrite (kept_look h2 h5); auto. apply X1.
        -- change (look true h6 n0 = Some q). rewrite LS. exact Sup2.
Qed.

Lemma nodup_bound l n : NoDup l -> (forall x, In x l -> (x < n)%nat) -> (List.length l <= n)%nat.
Proof.
  intros ND B. rewrite <- (seq_length n 0). apply NoDup_incl_length; [apply NoDup_ListNoDup; exact ND|].
  intros x Hx. apply in_seq. specialize (B x Hx). lia.
Qed.
Lemma chain_live h t cs b x : class_table h -> class_chain h t cs b -> In x (t :: cs ++ [b]) -> clive h x.
Proof.
  intros T (_ & _ & Tt & Tb & I & _) [<-|Hx]; [apply (sub_live h t cTop); auto; cbv; lia|].
  apply in_app_iff in Hx. destruct Hx as [Hx|[<-|[]]].
  - apply (sub_live h x cInterval); auto; cbv; lia.
  - apply (sub_live h b cBottom); auto; cbv; lia.
Qed.

Lemma c13_clone :
  forall h t c cs b, class_table h -> class_chain h t (c :: cs) b ->
  (forall x, In x (c :: cs) -> plain_name (class_name h x)) ->
  exists h' t' c' cs' b', clone_class c h = Ok c' h' /\
    class_chain h' t' (c' :: cs') b' /\ Forall2 (clone_of h h') (c :: cs) (c' :: cs') /\
    (List.length (h_cls h) <= t')%nat /\ (List.length (h_cls h) <= b')%nat /\
    classes_kept h h' /\ class_chain h' t (c :: cs) b /\
    class_table h' /\ unrelated h' (t' :: c' :: cs' ++ [b']).
Proof.
  intros h t c cs b T C PN. pose proof (chain_live h t (c :: cs) b) as LV. pose proof C as C0.
  apply chain_walk in C. destruct C as (ND & _ & Tt & Tb & IV & [[P1 P2] WK]). pose proof (table_wf h T) as W.
  destruct (clone_ok b cs c (S (List.length (h_cls h))) false h t T WK) as (h' & c' & cs' & b' & E & F & ND' & NB & BB & WK' & K & T' & TT); auto.
  { assert (List.length (c :: cs) <= List.length (h_cls h))%nat; [|simpl in *; lia].
    apply nodup_bound; auto. intros x Hx. apply (LV x T C0). right. apply in_app_iff. auto. }
  { apply (LV t T C0). left. reflexivity. }
  rewrite Tt in TT. destruct TT as (t' & Nt & Bt & Pt). pose proof (table_wf h' T') as W'.
  assert (CL : forall x, In x (c' :: cs') -> exists y, In y (c :: cs) /\ clone_of h h' y x).
  { intros x Hx. clear -F Hx. induction F as [|a y l m A F' IHF]; [destruct Hx|]. destruct Hx as [<-|Hx].
    - exists a. split; [left; reflexivity|exact A].
    - destruct (IHF Hx) as (z & Z1 & Z2). exists z. split; [right; exact Z1|exact Z2]. }
  assert (NW : forall x, In x (t' :: c' :: cs' ++ [b']) -> newc h h' x).
  { intros x [<-|Hx]; [exact Nt|]. change (In x ((c' :: cs') ++ [b'])) in Hx. apply in_app_iff in Hx.
    destruct Hx as [Hx|[<-|[]]]; [|exact NB]. destruct (CL x Hx) as (y & Hy & A1 & A2 & A3).
    split; [lia|]. split; [apply A1|]. exists y. split; [exact A3|]. apply (LV y T C0). right. apply in_app_iff. auto. }
  exists h', t', c', cs', b'. split; [exact E|]. split.
  { apply chain_walk. split; [|split; [discriminate|split; [|split; [|split]]]].
    - change (c' :: cs' ++ [b'])%list with ((c' :: cs') ++ [b'])%list in ND'. apply NoDup_app in ND'. apply ND'.
    - rewrite sub_step; [|exact W'|apply Nt]. rewrite Bt, sub_refl. apply orb_true_r.
    - rewrite sub_step; [|exact W'|apply NB]. rewrite BB, sub_refl. apply orb_true_r.
    - intros x Hx. destruct (CL x Hx) as (y & Hy & A1 & A2 & A3). rewrite sub_step; [|exact W'|apply A1].
      rewrite A3, (kept_sub h h' y _ W W' K), (IV y Hy); [apply orb_true_r|]. apply (LV y T C0). right. apply in_app_iff. auto.
    - split; [exact Pt|exact WK']. }
  split; [exact F|]. split; [apply Nt|]. split; [apply NB|]. split; [exact K|]. split.
  { apply chain_walk. split; [exact ND|]. split; [discriminate|].
    split; [rewrite (kept_sub h h' t _ W W' K); [exact Tt|apply (LV t T C0); left; reflexivity]|].
    split; [rewrite (kept_sub h h' b _ W W' K); [exact Tb|apply (LV b T C0); right; apply in_app_iff; right; left; reflexivity]|].
    split; [intros x Hx; rewrite (kept_sub h h' x _ W W' K); [apply IV; exact Hx|apply (LV x T C0); right; apply in_app_iff; auto]|].
    eapply walk_ext; [|exact (conj (conj P1 P2) WK)]. intros x Hx u. apply (kept_look h h'); auto. }
  split; [exact T'|]. intros x y Hx Hy S. destruct (new_anc h h' x y W' (NW x Hx) S) as [->|X]; [reflexivity|].
  exfalso. destruct (NW y Hy) as (Y & _). unfold clive in X. lia.
Qed.
Lemma c13_not_top :
  forall h c q, issubclass h c cInterval = true -> superset_class h c = Some q -> issubclass h q cTop = false ->
  clone_class c h = Raise PyException h.
Proof.
  intros h c q I S N. unfold clone_class. cbn [clone_n]. rewrite bind_gets, bind_gets, I, bind_gets, S.
  unfold issubclass_m at 1. rewrite bind_gets, N. reflexivity.
Qed.
Lemma c13_point :
  forall h c, class_table h -> issubclass h c cPoint = true ->
  exists h' c', clone_class c h = Ok c' h' /\ clone_of h h' c c' /\ classes_kept h h' /\ issubclass h' c' cPoint = true.
Proof.
  intros h c T P.
  assert (Lc : clive h c) by (apply (sub_live h c cPoint T); [cbv; lia|exact P]).
  exists (push_cls (ClsObj (class_name h c) (Some c) (c_super (cob h c)) (c_sub (cob h c))) h), (List.length (h_cls h)).
  set (h1 := push_cls _ h).
  assert (W1 : wf h1) by (apply wf_push; [apply table_wf; auto|intros x [= <-]; exact Lc]).
  assert (O : cob h1 (List.length (h_cls h)) = ClsObj (class_name h c) (Some c) (c_super (cob h c)) (c_sub (cob h c))) by apply cob_push_new.
  split; [|split; [|split]].
  - unfold clone_class. cbn [clone_n]. rewrite bind_gets, bind_gets, P.
    rewrite (kinds_apart h c cPoint cInterval T); [|simpl; auto|simpl; auto|discriminate|exact P].
    rewrite bind_gets. apply type_copy_eq.
  - split; [split; [lia|apply clive_push_new]|]. unfold class_name. rewrite O. split; reflexivity.
  - apply kept_push.
  - rewrite sub_step; [|exact W1|apply clive_push_new]. rewrite O. cbn [c_base].
    rewrite (kept_sub h h1 c _ (table_wf h T) W1 (kept_push _ _) Lc), P. apply orb_true_r.
Qed.

(** ** C14 *)
Lemma mem_cid_In c l : mem_cid c l = true <-> In c l.
Proof.
  unfold mem_cid. rewrite existsb_exists. split.
  - intros (x & Hx & E). apply Nat.eqb_eq in E. subst. exact Hx.
  - intros H. exists c. split; [exact H|apply Nat.eqb_refl].
Qed.
Lemma mem_cid_not c l : mem_cid c l = false <-> ~ In c l.
Proof. rewrite <- mem_cid_In. destruct (mem_cid c l); split; congruence. Qed.
Definition addall (out l : list cid) : list cid :=
  fold_left (fun o c => if mem_cid c o then o else (o ++ [c])%list) l out.
Lemma addall_fresh l out : NoDup l -> (forall x, In x l -> ~ In x out) -> addall out l = (out ++ l)%list.
Proof.
  revert out. induction l as [|c l IH]; intros out ND D; simpl; [rewrite app_nil_r; reflexivity|].
  apply NoDup_cons in ND. destruct ND as [N ND]. rewrite (proj2 (mem_cid_not c out)) by (apply D; left; reflexivity).
  rewrite IH; auto.
  - rewrite <- app_assoc. reflexivity.
  - intros x Hx X. apply in_app_iff in X. destruct X as [X|[<-|[]]]; [exact (D x (or_intror Hx) X)|].
    apply N. apply elem_of_list_In. exact Hx.
Qed.
Lemma addall_known l out : (forall x, In x l -> In x out) -> addall out l = out.
Proof.
  induction l as [|c l IH]; intros D; simpl; [reflexivity|]. rewrite (proj2 (mem_cid_In c out)) by (apply D; left; reflexivity).
  apply IH. intros. apply D. right. auto.
Qed.

Lemma nth_S {A} (x : A) l n : nth_error (x :: l) (S n) = nth_error l n.
Proof. reflexivity. Qed.
Lemma chain_super h t cs b pre x suf : class_chain h t cs b -> cs = (pre ++ x :: suf)%list ->
  superset_class h x = Some (List.last pre t).
Proof.
  intros (_ & _ & _ & _ & _ & P) ->. destruct pre as [|s p _] using rev_ind.
  - destruct (P O t x) as [_ R]; [reflexivity|reflexivity|exact R].
  - rewrite List.last_last. destruct (P (S (List.length p)) s x) as [_ R]; [| |exact R].
    + rewrite nth_S. rewrite <- !app_assoc. rewrite nth_error_app2 by lia. rewrite Nat.sub_diag. reflexivity.
    + rewrite nth_S. rewrite <- !app_assoc. rewrite nth_error_app2 by lia. replace (S (List.length p) - List.length p)%nat with 1%nat by lia. reflexivity.
Qed.
Lemma chain_sub h t cs b pre x suf : class_chain h t cs b -> cs = (pre ++ x :: suf)%list ->
  subset_class h x = Some (hd b suf).
Proof.
  intros (_ & _ & _ & _ & _ & P) ->.
  destruct (P (S (List.length pre)) x (hd b suf)) as [R _]; [| |exact R].
  - rewrite nth_S. rewrite <- app_assoc. rewrite nth_error_app2 by lia. rewrite Nat.sub_diag. reflexivity.
  - rewrite nth_S. rewrite <- app_assoc. rewrite nth_error_app2 by lia. replace (S (List.length pre) - List.length pre)%nat with 1%nat by lia.
    destruct suf; reflexivity.
Qed.
Lemma last_in {A} (l : list A) d : l <> [] -> In (List.last l d) l.
Proof. intros N. destruct l as [|x l _] using rev_ind; [congruence|]. rewrite List.last_last. apply in_app_iff. right. left. reflexivity. Qed.

Lemma hier_down h t b cs : class_table h -> class_chain h t cs b -> forall suf n pre x out,
  cs = (pre ++ x :: suf)%list -> (List.length suf < n)%nat -> (pre = [] \/ In (List.last pre t) out) ->
  hier_n n x out h = Ok (addall out (x :: suf)) h.
Proof.
  intros T C. induction suf as [|y suf IH]; intros n pre x out E Ln PR; (destruct n as [|n]; [lia|]); cbn [hier_n].
  all: pose proof (chain_super _ _ _ _ _ _ _ C E) as Sx; pose proof (chain_sub _ _ _ _ _ _ _ C E) as Bx.
  all: rewrite bind_gets, Sx; unfold issubclass_m at 1; rewrite bind_gets.
  all: assert (X : negb (issubclass h (List.last pre t) cTop) && negb (mem_cid (List.last pre t) out) = false) by
    (destruct PR as [-> | PR]; [pose proof C as (_ & _ & C3 & _); cbn [List.last]; rewrite C3; reflexivity|rewrite (proj2 (mem_cid_In _ _) PR); apply andb_false_r]).
  all: rewrite X, bind_ret, bind_gets, Bx; unfold issubclass_m at 1; rewrite bind_gets.
  - cbn [hd]. destruct C as (_ & _ & _ & -> & _). reflexivity.
  - cbn [hd]. assert (In y cs) by (rewrite E; apply in_app_iff; right; right; left; reflexivity).
    destruct C as (C1 & C2 & C3 & C4 & C5 & C6). rewrite (kinds_apart h y cInterval cBottom T); [|simpl; auto|simpl; auto|discriminate|apply C5; auto].
    cbn [negb]. rewrite (IH n (pre ++ [x])%list y); [reflexivity|rewrite <- app_assoc; exact E|simpl in Ln; lia|].
    right. rewrite List.last_last. destruct (mem_cid x out) eqn:M; [apply mem_cid_In; exact M|]. apply in_app_iff. right. left. reflexivity.
Qed.
Lemma hier_up h t b cs out : class_table h -> class_chain h t cs b -> (forall x, In x cs -> ~ In x out) ->
  forall pre n x suf, cs = (pre ++ x :: suf)%list -> (List.length pre + List.length cs < n)%nat ->
  hier_n n x out h = Ok (out ++ cs)%list h.
Proof.
  intros T C D. pose proof C as (C1 & C2 & C3 & C4 & C5 & C6).
  induction pre as [|s pre IH] using rev_ind; intros n x suf E Ln.
  - rewrite (hier_down h t b cs T C suf n [] x out E); [|rewrite E in Ln; simpl in Ln; lia|auto]. f_equal.
    simpl in E. rewrite <- E. apply addall_fresh; auto.
  - destruct n as [|n]; [lia|]. cbn [hier_n]. rewrite app_length in Ln. simpl in Ln.
    rewrite bind_gets, (chain_super _ _ _ _ _ _ _ C E), List.last_last. unfold issubclass_m at 1. rewrite bind_gets.
    assert (Is : In s cs) by (rewrite E; apply in_app_iff; left; apply in_app_iff; right; left; reflexivity).
    rewrite (kinds_apart h s cInterval cTop T); [|simpl; auto|simpl; auto|discriminate|apply C5; auto].
    rewrite (proj2 (mem_cid_not s out)) by auto. cbn [negb andb].
    assert (Es : cs = (pre ++ s :: x :: suf)%list) by (rewrite E, <- app_assoc; reflexivity).
    rewrite (bind_ok _ _ _ _ _ (IH n s (x :: suf) Es ltac:(lia))).
    assert (Ix : In x cs) by (rewrite E; apply in_app_iff; right; left; reflexivity).
    rewrite (proj2 (mem_cid_In x (out ++ cs))) by (apply in_app_iff; auto).
    rewrite bind_gets, (chain_sub _ _ _ _ _ _ _ C E). unfold issubclass_m. rewrite bind_gets. destruct suf as [|y suf]; cbn [hd].
    + rewrite C4. reflexivity.
    + assert (Iy : In y cs) by (rewrite E; apply in_app_iff; right; right; left; reflexivity).
      rewrite (kinds_apart h y cInterval cBottom T); [|simpl; auto|simpl; auto|discriminate|apply C5; auto]. cbn [negb].
      assert (Ey : cs = ((pre ++ [s; x]) ++ y :: suf)%list) by (rewrite E, <- !app_assoc; reflexivity).
      rewrite (hier_down h t b cs T C suf n (pre ++ [s; x])%list y (out ++ cs)%list Ey).
      * f_equal. apply addall_known. intros z Hz. apply in_app_iff. right. rewrite Ey. apply in_app_iff. right. exact Hz.
      * rewrite Ey, !app_length in Ln. simpl in Ln. lia.
      * right. apply in_app_iff. right. change [s; x] with ([s] ++ [x])%list. rewrite app_assoc, List.last_last. exact Ix.
Qed.
Lemma c14_chain :
  forall h t cs b out c, class_table h -> class_chain h t cs b -> In c cs -> (forall x, In x cs -> ~ In x out) ->
  get_class_hierarchy c out h = Ok (out ++ cs)%list h.
Proof.
  intros h t cs b out c T C I D. apply in_split in I. destruct I as (pre & suf & E).
  unfold get_class_hierarchy. apply (hier_up h t b cs out T C D pre _ c suf E).
  assert (List.length cs <= List.length (h_cls h))%nat.
  { apply nodup_bound; [apply C|]. intros x Hx. apply (chain_live h t cs b); auto. right. apply in_app_iff. auto. }
  assert (List.length pre <= List.length cs)%nat by (rewrite E, app_length; lia). lia.
Qed.

(** ** C42 *)
Lemma walk_app h l x r : walk h (l ++ x :: r) <-> walk h (l ++ [x]) /\ walk h (x :: r).
Proof.
  induction l as [|a [|y l] IH].
  - simpl app. split; [intros A; split; [exact I|exact A]|tauto].
  - change (walk h ([a] ++ x :: r)) with (pair_ok h a x /\ walk h (x :: r)).
    change (walk h ([a] ++ [x])) with (pair_ok h a x /\ True). tauto.
  - change (walk h ((a :: y :: l) ++ x :: r)) with (pair_ok h a y /\ walk h ((y :: l) ++ x :: r)).
    change (walk h ((a :: y :: l) ++ [x])) with (pair_ok h a y /\ walk h ((y :: l) ++ [x])). rewrite IH. tauto.
Qed.
Lemma walk_ext2 h h' : forall l, (forall x, In x (removelast l) -> look false h' x = look false h x) ->
  (forall x, In x (List.tl l) -> look true h' x = look true h x) -> walk h l -> walk h' l.
Proof.
  induction l as [|c [|d l] IH]; auto. intros A B [[P1 P2] R]. split.
  - split; [rewrite <- P1; apply (A c); left; reflexivity|rewrite <- P2; apply (B d); left; reflexivity].
  - apply IH; auto.
    + intros x Hx. apply A. right. exact Hx.
    + intros x Hx. apply B. right. destruct l; [destruct Hx|exact Hx].
Qed.
(** Linking two members, in the sense of a call of one of the setters. *)
Lemma link_member h F up c d : wf h -> apart h F -> In c F -> In d F -> c <> d -> (forall x, In x F -> clive h x) ->
  forall e u, In e F -> look u (linked_classes up c d h) e =
    if decide (e = c /\ u = up) then Some d else if decide (e = d /\ u = negb up) then Some c else look u h e.
Proof.
  intros W A Ic Id N L e u Ie. destruct (linked_look up c d h (L c Ic) (L d Id) N) as [L1 L2].
  destruct (decide (e = c /\ u = up)) as [[-> ->]|X]; [exact L1|].
  destruct (decide (e = d /\ u = negb up)) as [[-> ->]|Y]; [exact L2|].
  apply linked_keep; auto.
  - intros k Hk. destruct (decide (k = c)) as [->|K1]; [left; apply (A e c); auto|].
    destruct (decide (k = d)) as [->|K2]; [left; apply (A e d); auto|auto].
  - destruct (decide (e = c)) as [->|]; [right; intros ->; apply X; auto|auto].
  - destruct (decide (e = d)) as [->|]; [|auto]. destruct (decide (u = up)) as [->|Z]; [auto|].
    exfalso. apply Y. split; [reflexivity|]. destruct u, up; simpl; congruence.
Qed.
Lemma chain_nodup h t cs b : class_table h -> class_chain h t cs b -> NoDup (t :: cs ++ [b]).
Proof.
  intros T (ND & _ & Tt & Tb & IV & _). apply NoDup_cons. split.
  - intros X. apply elem_of_list_In, in_app_iff in X. destruct X as [X|[X|[]]].
    + pose proof (IV t X) as Y. rewrite (kinds_apart h t cTop cInterval T) in Y; simpl; auto; discriminate.
    + subst. rewrite (kinds_apart h t cTop cBottom T) in Tb; simpl; auto; discriminate.
  - apply NoDup_app. split; [exact ND|]. split; [|apply NoDup_singleton].
    intros x Hx Hy. apply elem_of_list_In in Hx, Hy. destruct Hy as [<-|[]].
    pose proof (IV b Hx) as Y. rewrite (kinds_apart h b cBottom cInterval T) in Y; simpl; auto; discriminate.
Qed.
Lemma last_split {A} (l : list A) d : exists p, (d :: l)%list = (p ++ [List.last l d])%list.
Proof.
  destruct l as [|x l _] using rev_ind; [exists []; reflexivity|]. rewrite List.last_last. exists (d :: l). reflexivity.
Qed.
Lemma hd_split {A} (l : list A) b : exists r, (l ++ [b])%list = hd b l :: r.
Proof. destruct l as [|x l]; [exists []; reflexivity|exists (l ++ [b])%list; reflexivity]. Qed.
Lemma in_removelast {A} (x : A) l : In x (removelast l) -> In x l.
Proof.
  induction l as [|a [|y l] IH]; [auto|intros []|]. intros [->|H]; [left; reflexivity|right; apply IH; exact H].
Qed.
Lemma walk_cut h h' p u d r : NoDup (p ++ u :: d :: r) ->
  (forall x, In x (p ++ u :: d :: r) -> x <> u -> look false h' x = look false h x) ->
  (forall x, In x (p ++ u :: d :: r) -> x <> d -> look true h' x = look true h x) ->
  walk h (p ++ [u]) -> walk h (d :: r) -> walk h' (p ++ [u]) /\ walk h' (d :: r).
Proof.
  intros ND A B W1 W2. rewrite NoDup_ListNoDup in ND.
  assert (NP : forall x, In x p -> x <> u /\ x <> d).
  { intros x Hx. split; intros ->; apply in_split in Hx; destruct Hx as (p1 & p2 & ->); rewrite <- app_assoc in ND;
      apply NoDup_remove_2 in ND; apply ND; apply in_app_iff; right; apply in_app_iff; right; simpl; auto. }
  assert (NR : forall x, In x (d :: r) -> x <> u).
  { intros x Hx ->. apply NoDup_remove_2 in ND. apply ND. apply in_app_iff. right. exact Hx. }
  assert (NU : u <> d) by (intros E; apply (NR d (or_introl eq_refl)); auto).
  assert (ND2 : List.NoDup (d :: r)).
  { apply NoDup_remove_1 in ND. clear -ND. induction p; [exact ND|]. apply IHp. inversion ND; auto. }
  split.
  - eapply walk_ext2; [| |exact W1].
    + intros x Hx. rewrite removelast_last in Hx. apply A; [apply in_app_iff; auto|apply NP; auto].
    + intros x Hx. assert (In x (p ++ [u])) as Hx' by (destruct p; [destruct Hx|right; exact Hx]).
      apply in_app_iff in Hx'. apply B.
      * apply in_app_iff. destruct Hx' as [|[<-|[]]]; simpl; auto.
      * destruct Hx' as [X|[<-|[]]]; [apply NP; auto|auto].
  - eapply walk_ext2; [| |exact W2].
    + intros x Hx. apply in_removelast in Hx. apply A; [apply in_app_iff; right; right; exact Hx|apply NR; auto].
    + intros x Hx. apply B; [apply in_app_iff; right; right; right; exact Hx|].
      intros ->. inversion ND2; auto.
Qed.

Lemma c42_pop :
  forall h t cs1 c cs2 b, class_table h -> class_chain h t (cs1 ++ c :: cs2) b ->
  unrelated h (t :: (cs1 ++ c :: cs2) ++ [b]) -> (cs1 ++ cs2)%list <> [] ->
  (forall x, In x (cs1 ++ c :: cs2) -> plain_name (class_name h x)) ->
  str_in "Bottom" (class_name h t) = false -> str_in "Top" (class_name h b) = false ->
  exists u d h', superset_class h c = Some u /\ subset_class h c = Some d /\
    join_classes u d h = Ok tt h' /\ class_chain h' t (cs1 ++ cs2) b /\
    (forall k, k <> u -> k <> d -> cob h' k = cob h k) /\
    List.length (h_cls h') = List.length (h_cls h) /\
    h_seq h' = h_seq h /\ h_tier h' = h_tier h /\ h_grp h' = h_grp h /\ h_grid h' = h_grid h.
Proof.
  intros h t cs1 c cs2 b T C UN NE PN Nt Nb. set (u := List.last cs1 t). set (d := hd b cs2).
  pose proof (table_wf h T) as W. pose proof (chain_nodup _ _ _ _ T C) as ND.
  pose proof (fun x => chain_live _ _ _ _ x T C) as LV.
  destruct (last_split cs1 t) as (p & Ep). fold u in Ep. destruct (hd_split cs2 b) as (r & Er). fold d in Er.
  assert (EF : (t :: (cs1 ++ c :: cs2) ++ [b])%list = (p ++ u :: c :: d :: r)%list).
  { rewrite <- app_assoc. change (t :: cs1 ++ (c :: cs2) ++ [b])%list with ((t :: cs1) ++ c :: cs2 ++ [b])%list.
    rewrite Ep, Er, <- app_assoc. reflexivity. }
  rewrite EF in *. assert (Iu : In u (p ++ u :: c :: d :: r)) by (apply in_app_iff; simpl; auto).
  assert (Id : In d (p ++ u :: c :: d :: r)) by (apply in_app_iff; simpl; auto).
  assert (Nud : d <> u).
  { rewrite NoDup_ListNoDup in ND. apply NoDup_remove_2 in ND. intros E. apply ND. apply in_app_iff. rewrite <- E. simpl; auto. }
  pose proof C as C'. apply chain_walk in C'. destruct C' as (NDc & _ & Tt & Tb & IV & WK). rewrite EF in WK.
  assert (Hh : forall x, In x (p ++ u :: c :: d :: r) -> issubclass h x cHierarchyPart = true).
  { intros x. rewrite <- EF. intros [<-|Hx]; [apply (kind_hier h t cTop T); simpl; auto|]. apply in_app_iff in Hx.
    destruct Hx as [Hx|[<-|[]]]; [apply (kind_hier h x cInterval T); simpl; auto|apply (kind_hier h b cBottom T); simpl; auto]. }
  assert (Nu : str_in "Bottom" (class_name h u) = false).
  { destruct (decide (cs1 = [])) as [E|N]; [unfold u; rewrite E; exact Nt|].
    destruct (PN u) as [_ X]; [|exact X]. apply in_app_iff. left. apply last_in. exact N. }
  assert (Nd : str_in "Top" (class_name h d) = false).
  { destruct cs2 as [|y cs2]; [exact Nb|]. destruct (PN y) as [X _]; [|exact X]. apply in_app_iff. simpl; auto. }
  set (h1 := linked_classes false u d h). set (h2 := linked_classes true d u h1).
  assert (W1 : wf h1) by (apply linked_wf; exact W).
  assert (E1 : set_subset_class u (Some d) h = Ok tt h1) by (apply set_hier_ok; auto).
  assert (E2 : set_superset_class d (Some u) h1 = Ok tt h2).
  { apply set_hier_ok; auto; unfold h1; rewrite ?linked_live, ?linked_sub, ?linked_name; auto. }
  assert (LK : forall e w, In e (p ++ u :: c :: d :: r) -> look w h2 e =
     if decide (e = d /\ w = true) then Some u else if decide (e = u /\ w = false) then Some d else look w h e).
  { intros e w Ie. unfold h2. rewrite (link_member h1 (p ++ u :: c :: d :: r)); auto.
    - destruct (decide (e = d /\ w = true)); [reflexivity|]. change (negb true) with false.
      destruct (decide (e = u /\ w = false)) as [X|X]; [reflexivity|].
      unfold h1. rewrite (link_member h (p ++ u :: c :: d :: r)); auto. rewrite decide_False by auto.
      change (negb false) with true. rewrite decide_False by auto. reflexivity.
    - intros x y Hx Hy. unfold h1. rewrite linked_sub. apply UN; auto.
    - intros x Hx. apply linked_live. auto. }
  exists u, d, h2. split; [exact (chain_super _ _ _ _ _ _ _ C eq_refl)|]. split; [exact (chain_sub _ _ _ _ _ _ _ C eq_refl)|].
  split; [unfold join_classes; rewrite (bind_ok _ _ _ _ _ E1); exact E2|].
  assert (NDr : NoDup (p ++ u :: d :: r)).
  { rewrite NoDup_ListNoDup in *. change (p ++ u :: c :: d :: r)%list with (p ++ [u] ++ c :: d :: r)%list in ND.
    rewrite app_assoc in ND. apply NoDup_remove_1 in ND. rewrite <- app_assoc in ND. exact ND. }
  assert (IN : forall x, In x (p ++ u :: d :: r) -> In x (p ++ u :: c :: d :: r)).
  { intros x Hx. apply in_app_iff in Hx. apply in_app_iff. simpl in *. tauto. }
  rewrite walk_app in WK. destruct WK as [WK1 [PA [PB WK2]]].
  destruct (walk_cut h h2 p u d r NDr) as [X1 X2]; auto.
  { intros x Hx Nx. rewrite LK by auto. rewrite decide_False by (intros [_ ?]; discriminate). rewrite decide_False; [reflexivity|]. tauto. }
  { intros x Hx Nx. rewrite LK by auto. rewrite decide_False by tauto. rewrite decide_False; [reflexivity|]. intros [_ ?]; discriminate. }
  split.
  { apply chain_walk.
    assert (SB : forall x k, issubclass h2 x k = issubclass h x k) by (intros; unfold h2, h1; rewrite !linked_sub; reflexivity).
    split; [|split; [exact NE|split; [rewrite SB; exact Tt|split; [rewrite SB; exact Tb|split]]]].
    - rewrite NoDup_ListNoDup in *. apply NoDup_remove_1 in NDc. exact NDc.
    - intros x Hx. rewrite SB. apply IV. apply in_app_iff in Hx. apply in_app_iff. simpl. tauto.
    - replace (t :: (cs1 ++ cs2) ++ [b])%list with (p ++ u :: d :: r)%list.
      + apply walk_app. split; [exact X1|]. split; [|exact X2]. split.
        * change (look false h2 u = Some d). rewrite LK by auto. rewrite decide_False by (intros [? _]; auto). rewrite decide_True by auto. reflexivity.
        * change (look true h2 d = Some u). rewrite LK by auto. rewrite decide_True by auto. reflexivity.
      + rewrite <- app_assoc, Er. change (t :: cs1 ++ d :: r)%list with ((t :: cs1) ++ d :: r)%list. rewrite Ep, <- app_assoc. reflexivity. }
  split; [intros k K1 K2; unfold h2, h1; rewrite !linked_other; auto|].
  split; [unfold h2, h1; rewrite !linked_len; reflexivity|].
  destruct (linked_rest true d u h1) as (R1 & R2 & R3 & R4). destruct (linked_rest false u d h) as (Q1 & Q2 & Q3 & Q4).
  fold h1 in Q1, Q2, Q3, Q4. fold h2 in R1, R2, R3, R4. split; [congruence|]. split; [congruence|]. split; congruence.
Qed.

Lemma c42_insert :
  forall h t cs1 cs2 b new, class_table h -> class_chain h t (cs1 ++ cs2) b ->
  unrelated h (new :: t :: (cs1 ++ cs2) ++ [b]) -> ~ In new (t :: (cs1 ++ cs2) ++ [b]) ->
  issubclass h new cInterval = true -> plain_name (class_name h new) ->
  (forall x, In x (cs1 ++ cs2) -> plain_name (class_name h x)) ->
  str_in "Bottom" (class_name h t) = false -> str_in "Top" (class_name h b) = false ->
  exists h', splice_class new (Some (List.last cs1 t)) (Some (hd b cs2)) h = Ok tt h' /\
    class_chain h' t (cs1 ++ new :: cs2) b /\
    (forall k, k <> List.last cs1 t -> k <> hd b cs2 -> k <> new -> cob h' k = cob h k) /\
    (forall k, c_name (cob h' k) = c_name (cob h k) /\ c_base (cob h' k) = c_base (cob h k)) /\
    List.length (h_cls h') = List.length (h_cls h) /\
    h_seq h' = h_seq h /\ h_tier h' = h_tier h /\ h_grp h' = h_grp h /\ h_grid h' = h_grid h.
Proof.
  intros h t cs1 cs2 b c T C UN NI Ic Pc PN Nt Nb. set (u := List.last cs1 t). set (d := hd b cs2).
  pose proof (table_wf h T) as W. pose proof (chain_nodup _ _ _ _ T C) as ND.
  pose proof (fun x => chain_live _ _ _ _ x T C) as LV.
  destruct (last_split cs1 t) as (p & Ep). fold u in Ep. destruct (hd_split cs2 b) as (r & Er). fold d in Er.
  assert (EF : (t :: (cs1 ++ cs2) ++ [b])%list = (p ++ u :: d :: r)%list).
  { rewrite <- app_assoc, Er. change (t :: cs1 ++ d :: r)%list with ((t :: cs1) ++ d :: r)%list. rewrite Ep, <- app_assoc. reflexivity. }
  pose proof C as C'. apply chain_walk in C'. destruct C' as (NDc & _ & Tt & Tb & IV & WK).
  assert (Hh : forall x, In x (t :: (cs1 ++ cs2) ++ [b]) -> issubclass h x cHierarchyPart = true).
  { intros x [<-|Hx]; [apply (kind_hier h t cTop T); simpl; auto|]. apply in_app_iff in Hx.
    destruct Hx as [Hx|[<-|[]]]; [apply (kind_hier h x cInterval T); simpl; auto|apply (kind_hier h b cBottom T); simpl; auto]. }
  rewrite EF in *. assert (Iu : In u (p ++ u :: d :: r)) by (apply in_app_iff; simpl; auto).
  assert (Id : In d (p ++ u :: d :: r)) by (apply in_app_iff; simpl; auto).
  assert (Nud : d <> u).
  { rewrite NoDup_ListNoDup in ND. apply NoDup_remove_2 in ND. intros E. apply ND. apply in_app_iff. rewrite <- E. simpl; auto. }
  assert (Ncu : c <> u) by (intros ->; auto). assert (Ncd : c <> d) by (intros ->; auto).
  assert (Nu : str_in "Bottom" (class_name h u) = false).
  { destruct (decide (cs1 = [])) as [E|N]; [unfold u; rewrite E; exact Nt|].
    destruct (PN u) as [_ X]; [|exact X]. apply in_app_iff. left. apply last_in. exact N. }
  assert (Nd : str_in "Top" (class_name h d) = false).
  { destruct cs2 as [|y cs2]; [exact Nb|]. destruct (PN y) as [X _]; [|exact X]. apply in_app_iff. simpl; auto. }
  destruct Pc as [Pc1 Pc2].
  assert (Lc : clive h c) by (apply (sub_live h c cInterval T); [cbv; lia|exact Ic]).
  assert (Hc : issubclass h c cHierarchyPart = true) by (apply (kind_hier h c cInterval T); simpl; auto).
  set (h1 := linked_classes true c u h). set (h2 := linked_classes false c d h1).
  assert (W1 : wf h1) by (apply linked_wf; exact W).
  assert (E1 : set_superset_class c (Some u) h = Ok tt h1) by (apply set_hier_ok; auto).
  assert (E2 : set_subset_class c (Some d) h1 = Ok tt h2).
  { apply set_hier_ok; auto; unfold h1; rewrite ?linked_live, ?linked_sub, ?linked_name; auto. }
  set (F := c :: p ++ u :: d :: r).
  assert (LV' : forall x, In x F -> clive h x) by (intros x [<-|Hx]; auto).
  assert (LK : forall e w, In e F -> look w h2 e =
     if decide (e = c /\ w = false) then Some d else if decide (e = d /\ w = true) then Some c else
     if decide (e = c /\ w = true) then Some u else if decide (e = u /\ w = false) then Some c else look w h e).
  { intros e w Ie. unfold h2. rewrite (link_member h1 F); auto; try (right; assumption).
    - destruct (decide (e = c /\ w = false)); [reflexivity|]. change (negb false) with true.
      destruct (decide (e = d /\ w = true)) as [X|X]; [reflexivity|].
      unfold h1. rewrite (link_member h F); auto; [left; reflexivity|right; assumption].
    - intros x y Hx Hy. unfold h1. rewrite linked_sub. apply UN; auto.
    - left. reflexivity.
    - intros x Hx. apply linked_live. auto. }
  exists h2. split; [unfold splice_class; rewrite (bind_ok _ _ _ _ _ E1); exact E2|].
  rewrite walk_app in WK. destruct WK as [WK1 [_ WK2]].
  destruct (walk_cut h h2 p u d r ND) as [X1 X2]; auto.
  { intros x Hx Nx. assert (x <> c) by (intros ->; auto). rewrite LK by (right; exact Hx).
    rewrite decide_False by tauto. rewrite decide_False by (intros [_ ?]; discriminate). rewrite decide_False by tauto.
    rewrite decide_False by tauto. reflexivity. }
  { intros x Hx Nx. assert (x <> c) by (intros ->; auto). rewrite LK by (right; exact Hx).
    rewrite decide_False by tauto. rewrite decide_False by tauto. rewrite decide_False by tauto.
    rewrite decide_False by (intros [_ ?]; discriminate). reflexivity. }
  assert (K1 : look false h2 c = Some d). { rewrite LK by (left; reflexivity). rewrite decide_True by auto. reflexivity. }
  assert (K2 : look true h2 c = Some u).
  { rewrite LK by (left; reflexivity). rewrite decide_False by (intros [_ ?]; discriminate). rewrite decide_False by tauto.
    rewrite decide_True by auto. reflexivity. }
  assert (K3 : look false h2 u = Some c).
  { rewrite LK by (right; exact Iu). rewrite decide_False by (intros [? _]; congruence). rewrite decide_False by (intros [_ ?]; discriminate).
    rewrite decide_False by (intros [_ ?]; discriminate). rewrite decide_True by auto. reflexivity. }
  assert (K4 : look true h2 d = Some c).
  { rewrite LK by (right; exact Id). rewrite decide_False by (intros [_ ?]; discriminate). rewrite decide_True by auto. reflexivity. }
  split.
  { apply chain_walk.
    assert (SB : forall x k, issubclass h2 x k = issubclass h x k) by (intros; unfold h2, h1; rewrite !linked_sub; reflexivity).
    split; [|split; [destruct cs1; discriminate|split; [rewrite SB; exact Tt|split; [rewrite SB; exact Tb|split]]]].
    - rewrite NoDup_ListNoDup in *. apply NoDup_Add with (a := c) (l := (cs1 ++ cs2)%list); [apply Add_app|].
      split; [exact NDc|]. intros X. apply NI. rewrite <- EF. right. apply in_app_iff. auto.
    - intros x Hx. rewrite SB. apply in_app_iff in Hx. destruct Hx as [Hx|[<-|Hx]]; [|exact Ic|]; apply IV; apply in_app_iff; auto.
    - replace (t :: (cs1 ++ c :: cs2) ++ [b])%list with (p ++ u :: c :: d :: r)%list.
      + apply walk_app. split; [exact X1|]. split; [split; [exact K3|exact K2]|]. split; [split; [exact K1|exact K4]|exact X2].
      + rewrite <- app_assoc. change (t :: cs1 ++ (c :: cs2) ++ [b])%list with ((t :: cs1) ++ c :: cs2 ++ [b])%list.
        rewrite Ep, Er, <- app_assoc. reflexivity. }
  split; [intros k Q1 Q2 Q3; unfold h2, h1; rewrite !linked_other; auto|].
  split; [intros k; unfold h2, h1; rewrite !linked_name, !linked_base; auto|].
  split; [unfold h2, h1; rewrite !linked_len; reflexivity|].
  destruct (linked_rest false c d h1) as (R1 & R2 & R3 & R4). destruct (linked_rest true c u h) as (Q1 & Q2 & Q3 & Q4).
  fold h1 in Q1, Q2, Q3, Q4. fold h2 in R1, R2, R3, R4. split; [congruence|]. split; [congruence|]. split; congruence.
Qed.
