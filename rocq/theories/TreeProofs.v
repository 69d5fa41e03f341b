(** * TreeProofs: parents and children. *)
From Verif Require Export ListFinal.
Open Scope Z_scope.

Section WithEnv.
Context `{Env}.

(** ** Values do not depend on the family attributes *)
Definition value_free (f : seqobj -> seqobj) : Prop := forall o,
  s_cls (f o) = s_cls o /\ s_start (f o) = s_start o /\ s_end (f o) = s_end o /\ s_label (f o) = s_label o.
Lemma sob_upd_field {A} (g : seqobj -> A) h i f j :
  (forall o, g (f o) = g o) -> g (sob (upd_seq i f h) j) = g (sob h j).
Proof.
  intros Hg. destruct (decide (live h i)) as [L|L].
  - rewrite sob_upd by auto. destruct (decide (j = i)) as [->|]; auto.
  - unfold sob, upd_seq; simpl. rewrite default_alter. destruct (decide (j = i)) as [->|]; [|auto].
    destruct (decide _) as [Hl|Hl]; [unfold live in L; lia|].
    rewrite (lookup_ge_None_2 (h_seq h) i); [auto|lia].
Qed.
Lemma praatio_ext h h' x : h_cls h' = h_cls h ->
  s_cls (sob h' x) = s_cls (sob h x) -> s_start (sob h' x) = s_start (sob h x) ->
  s_end (sob h' x) = s_end (sob h x) -> s_label (sob h' x) = s_label (sob h x) ->
  praatio h' x = praatio h x.
Proof.
  intros A B C D E. unfold praatio, is_point_cls, issubclass. rewrite A, B, C, D, E. reflexivity.
Qed.
Lemma praatio_upd f h i x : value_free f -> praatio (upd_seq i f h) x = praatio h x.
Proof.
  intros F. apply praatio_ext; [reflexivity|..]; apply sob_upd_field; intros o; apply F.
Qed.
Lemma praatio_links h h' x : links_only h h' -> live h x -> praatio h' x = praatio h x.
Proof.
  intros (A & _ & _ & _ & _ & F & _) L. destruct (erase_fields _ _ (F x L)) as (F1 & F2 & F3 & F4 & _).
  apply praatio_ext; auto.
Qed.
Lemma contains_ext h h' l x : (forall y, In y l -> praatio h' y = praatio h y) ->
  praatio h' x = praatio h x -> sl_contains h' l x = sl_contains h l x.
Proof.
  intros A B. unfold sl_contains. induction l as [|y l IH]; simpl; [reflexivity|].
  f_equal; [|apply IH; intros; apply A; simpl; auto].
  unfold praatio_eqb. rewrite A, B by (simpl; auto). reflexivity.
Qed.

(** ** Frames *)
Definition core_same (h h' : heap) : Prop :=
  same_rest h h' /\ (List.length (h_seq h) <= List.length (h_seq h'))%nat /\
  (forall i, live h i -> s_cls (sob h' i) = s_cls (sob h i) /\ s_start (sob h' i) = s_start (sob h i) /\
     s_end (sob h' i) = s_end (sob h i) /\ s_label (sob h' i) = s_label (sob h i) /\
     s_intier (sob h' i) = s_intier (sob h i)) /\
  (forall i, live h' i -> ~ live h i -> boundary_obj (sob h' i)).
Lemma core_same_refl h : core_same h h.
Proof. repeat split; auto. intros; contradiction. Qed.
Lemma core_same_live h h' i : core_same h h' -> live h i -> live h' i.
Proof. intros (_ & E & _) L. unfold live in *. lia. Qed.
Lemma boundary_obj_label o : boundary_obj o -> s_label o = "#"%string.
Proof.
  intros [c E]. change (s_label (erase o) = "#"%string). rewrite E. reflexivity.
Qed.
Lemma links_core h h' : links_only h h' -> core_same h h'.
Proof.
  intros (A & B & C & D & E & F & G). split; [repeat split; auto|]. split; [auto|]. split; [|auto].
  intros i Hi. destruct (erase_fields _ _ (F i Hi)) as (F1 & F2 & F3 & F4 & _ & _ & _ & F5 & _).
  repeat split; auto.
Qed.
Definition core_free (f : seqobj -> seqobj) : Prop := forall o,
  s_cls (f o) = s_cls o /\ s_start (f o) = s_start o /\ s_end (f o) = s_end o /\
  s_label (f o) = s_label o /\ s_intier (f o) = s_intier o.
Lemma upd_core h i f : core_free f -> core_same h (upd_seq i f h).
Proof.
  intros F. split; [repeat split; auto|]. split; [rewrite len_upd_seq; lia|]. split.
  - intros j Hj. repeat split; apply sob_upd_field; intros o; apply F.
  - intros j Hj Hn. rewrite live_upd in Hj. contradiction.
Qed.
(** [core_same] composes when the objects made by the first step keep being
    boundaries. *)
Lemma core_same_trans h1 h2 h3 : core_same h1 h2 -> core_same h2 h3 ->
  (forall i, live h2 i -> boundary_obj (sob h2 i) -> ~ live h1 i -> boundary_obj (sob h3 i)) ->
  core_same h1 h3.
Proof.
  intros ((A1 & A2 & A3 & A4) & B & C & D) ((A1' & A2' & A3' & A4') & B' & C' & D') K.
  split; [repeat split; congruence|]. split; [lia|]. split.
  - intros i Hi. assert (Hi2 : live h2 i) by (unfold live in *; lia).
    destruct (C' i Hi2) as (E1 & E2 & E3 & E4 & E5). destruct (C i Hi) as (F1 & F2 & F3 & F4 & F5).
    repeat split; congruence.
  - intros i Hi Hn. destruct (decide (live h2 i)) as [L|L]; [apply K; auto|auto].
Qed.

(** ** Relinking after an update *)
Definition settles (h1 : heap) (l : list oid) (h' : heap) : Prop :=
  links_only h1 h' /\ (forall i, live h1 i -> ~ In i l -> sob h' i = sob h1 i) /\ chained h' l.

Lemma relink_ok s c h :
  NoDup (s_subset (sob h s)) ->
  (forall x, In x (s_subset (sob h s)) -> live h x /\ s_cls (sob h x) = c /\ s_label (sob h x) <> "#"%string) ->
  exists h', set_subset_precedence s h = Ok tt h' /\ settles h (s_subset (sob h s)) h'.
Proof.
  intros A B. destruct (set_subset_precedence_ok s c h A B) as (h' & E & L & F & C).
  exists h'. split; [exact E|]. split; [exact L|]. split; [exact F|exact C].
Qed.

Lemma chained_ext h h' l :
  (forall x, In x l -> s_fol (sob h' x) = s_fol (sob h x) /\ s_prev (sob h' x) = s_prev (sob h x)) ->
  (forall k, is_boundary h k -> is_boundary h' k) ->
  chained h l -> chained h' l.
Proof.
  intros A B (C1 & C2 & C3). split; [|split].
  - intros i a b Ha Hb. destruct (C1 i a b Ha Hb) as [D1 D2].
    destruct (A a (nth_error_In _ _ Ha)) as [-> _]. destruct (A b (nth_error_In _ _ Hb)) as [_ ->]. auto.
  - intros a Ha. destruct (C2 a Ha) as (k & D1 & D2). exists k.
    destruct (A a (nth_error_In _ _ Ha)) as [_ ->]. auto.
  - intros a Ha. destruct (C3 a Ha) as (k & D1 & D2). exists k.
    destruct (A a (nth_error_In _ _ Ha)) as [-> _]. auto.
Qed.
Lemma is_boundary_upd h x f k : s_label (sob h x) <> "#"%string -> is_boundary h k ->
  is_boundary (upd_seq x f h) k.
Proof.
  intros Hx (A & B & C & D & E & F). assert (k <> x) by (intros ->; auto).
  unfold is_boundary. rewrite sob_upd_ne by auto. rewrite len_upd_seq. repeat split; auto.
Qed.
Lemma is_boundary_links h h' k : links_only h h' -> is_boundary h k -> is_boundary h' k.
Proof.
  intros L (A & B & C & D & E & F). pose proof (links_only_live _ _ k L A) as A'.
  destruct L as (_ & _ & _ & _ & _ & G & _).
  destruct (erase_fields _ _ (G k A)) as (F1 & F2 & F3 & F4 & F5 & F6 & _).
  unfold is_boundary. rewrite F2, F3, F4, F5, F6. repeat split; auto.
Qed.
Lemma settles_upd h1 l h' x f : settles h1 l h' -> live h1 x ->
  (forall o, erase (f o) = f (erase o)) -> (forall o, s_fol (f o) = s_fol o) ->
  (forall o, s_prev (f o) = s_prev o) -> s_label (sob h1 x) <> "#"%string ->
  settles (upd_seq x f h1) l (upd_seq x f h').
Proof.
  intros (L & F & C) Hx Hf Hfol Hprev Hl.
  pose proof (links_only_live _ _ _ L Hx) as Hx'.
  split; [apply links_only_upd; auto|]. split.
  - intros i Hi Hn. rewrite live_upd in Hi. rewrite !sob_upd by auto.
    destruct (decide (i = x)) as [->|]; rewrite F; auto.
  - eapply chained_ext; [|intros k Hk; apply is_boundary_upd; [|exact Hk]|exact C].
    + intros y _. split; apply sob_upd_field; auto.
    + destruct L as (_ & _ & _ & _ & _ & G & _).
      destruct (erase_fields _ _ (G x Hx)) as (_ & _ & _ & -> & _). auto.
Qed.
Lemma settles_live h1 l h' i : settles h1 l h' -> live h1 i -> live h' i.
Proof. intros (L & _) Hi. eapply links_only_live; eauto. Qed.
Lemma settles_erase h1 l h' i : settles h1 l h' -> live h1 i -> erase (sob h' i) = erase (sob h1 i).
Proof. intros ((_ & _ & _ & _ & _ & G & _) & _) Hi. auto. Qed.

(** ** remove_superset *)
Definition clear_super (o : seqobj) : seqobj := set_s_within None (set_s_super None o).
Definition cut (s : oid) (l : list oid) (x : oid) (h : heap) : heap :=
  upd_seq x clear_super (upd_seq s (set_s_subset l) h).

Lemma clear_twice h x : upd_seq x (set_s_within None) (upd_seq x (set_s_super None) h) = upd_seq x clear_super h.
Proof.
  unfold upd_seq; simpl. f_equal. apply list_eq. intros i.
  destruct (decide (i = x)) as [->|]; [|rewrite !list_lookup_alter_ne; auto].
  rewrite !list_lookup_alter. destruct (h_seq h !! x); reflexivity.
Qed.
Lemma clear_cleared h x : s_super (sob h x) = None -> s_within (sob h x) = None ->
  upd_seq x clear_super h = h.
Proof.
  intros A B. apply upd_same. destruct (sob h x); simpl in *; subst. reflexivity.
Qed.

Definition twinless (h : heap) (l : list oid) (x : oid) : Prop :=
  forall y, In y l -> same_value h y x -> y = x.
Lemma twinless_drop h l1 x l2 : twinless h (l1 ++ x :: l2) x -> ~ In x l1 ->
  sl_drop h (l1 ++ x :: l2) x = Some (l1 ++ l2)%list.
Proof.
  intros T N. destruct (sl_drop h (l1 ++ x :: l2) x) as [l'|] eqn:E.
  - apply sl_drop_Some in E. destruct E as (a & y & b & E & -> & V & W). f_equal.
    assert (y = x).
    { apply T; [|apply praatio_iff; auto]. rewrite E. apply in_app_iff. simpl; auto. }
    subst y. clear -E N W.
    revert a E W. induction l1 as [|z l1 IH]; intros a E W.
    + destruct a as [|w a]; simpl in E; [congruence|]. injection E as <- E.
      exfalso. apply (W x); simpl; auto.
    + destruct a as [|w a]; simpl in E; injection E as Ez E.
      * subst. exfalso. apply N. simpl; auto.
      * subst w. simpl. f_equal. apply IH; auto; [intros HI; apply N; simpl; auto|].
        intros q Hq. apply W. simpl; auto.
  - exfalso. eapply sl_drop_None; [exact E| |reflexivity]. apply in_app_iff. simpl; auto.
Qed.
Lemma twinless_not_listed h l x : twinless h l x -> ~ In x l -> sl_contains h l x = false.
Proof.
  intros T N. apply sl_contains_false; auto. intros y Hy E. apply praatio_iff in E.
  rewrite (T y Hy E) in Hy. auto.
Qed.
Lemma contains_in h l x : In x l -> sl_contains h l x = true.
Proof. intros. apply sl_contains_spec. eauto. Qed.

Lemma NoDup_mid {A} (l1 : list A) x l2 : NoDup (l1 ++ x :: l2) -> ~ In x l1 /\ ~ In x l2 /\ NoDup (l1 ++ l2) /\ ~ In x (l1 ++ l2).
Proof.
  intros N. rewrite <- Permutation_middle in N. apply NoDup_cons in N. destruct N as [N1 N2].
  rewrite elem_of_list_In in N1. assert (~ In x l1 /\ ~ In x l2) as [B1 B2].
  { rewrite in_app_iff in N1. tauto. }
  auto.
Qed.

(** The child is not listed: only its own attributes are cleared. *)
Lemma remove_superset_unlisted n x s h : live h x -> s_super (sob h x) = Some s ->
  sl_contains h (s_subset (sob h s)) x = false ->
  remove_superset_n (S n) x h = Ok tt (upd_seq x clear_super h).
Proof.
  intros Lx Sx N. cbn [remove_superset_n]. mstep. rewrite Sx. mstep. rewrite N. mstep. mstep.
  unfold mod_seq, modify. rewrite clear_twice. reflexivity.
Qed.

Lemma remove_superset_child x s l1 l2 c h :
  live h x -> live h s -> x <> s -> s_super (sob h x) = Some s ->
  s_subset (sob h s) = (l1 ++ x :: l2)%list -> NoDup (l1 ++ x :: l2) ->
  (forall y, In y (l1 ++ x :: l2) -> live h y /\ s_cls (sob h y) = c /\ s_label (sob h y) <> "#"%string) ->
  twinless h (l1 ++ x :: l2) x ->
  exists h', remove_superset x h = Ok tt h' /\ settles (cut s (l1 ++ l2) x h) (l1 ++ l2) h'.
Proof.
  intros Lx Ls Hne Sx Hsub Hnd Hall T.
  destruct (NoDup_mid _ _ _ Hnd) as (N1 & N2 & N3 & N4).
  unfold remove_superset. rewrite Sx, Hsub.
  destruct (List.length (l1 ++ x :: l2)) as [|m] eqn:Em.
  { rewrite app_length in Em. simpl in Em. lia. }
  remember (S m) as m1. cbn [remove_superset_n]. mstep. rewrite Sx. mstep. rewrite Hsub.
  rewrite contains_in by (apply in_app_iff; simpl; auto).
  rewrite (twinless_drop h l1 x l2 T N1). mstep. mstep. subst m1.
  set (h1 := upd_seq s (set_s_subset (l1 ++ l2)) h).
  assert (Lx1 : live h1 x) by (apply live_upd; auto).
  assert (Ls1 : live h1 s) by (apply live_upd; auto).
  assert (Sx1 : sob h1 x = sob h x) by (apply sob_upd_ne; auto).
  assert (Ss1 : s_subset (sob h1 s) = (l1 ++ l2)%list).
  { unfold h1. rewrite sob_upd_eq by auto. reflexivity. }
  assert (R : remove_superset_n (S m) x h1 = Ok tt (cut s (l1 ++ l2) x h)).
  { rewrite (remove_superset_unlisted m x s h1); auto; [rewrite Sx1; auto|].
    rewrite Ss1. rewrite (contains_ext h h1).
    - apply twinless_not_listed; auto. intros y Hy. apply T. rewrite in_app_iff in *. simpl. tauto.
    - intros y Hy. apply praatio_upd. intros o; repeat split.
    - apply praatio_upd. intros o; repeat split. }
  rewrite bind_assoc, (bind_ok _ _ _ _ _ R). mstep. mstep. mstep. mstep.
  set (h2 := cut s (l1 ++ l2) x h) in *.
  rewrite clear_twice.
  assert (C2 : upd_seq x clear_super h2 = h2).
  { apply clear_cleared; unfold h2, cut; rewrite sob_upd_eq by auto; reflexivity. }
  rewrite C2.
  assert (Ss2 : s_subset (sob h2 s) = (l1 ++ l2)%list).
  { unfold h2, cut. rewrite sob_upd_ne by auto. exact Ss1. }
  destruct (relink_ok s c h2) as (h3 & E3 & S3).
  - rewrite Ss2. auto.
  - rewrite Ss2. intros y Hy.
    destruct (Hall y) as (A & B & D); [rewrite in_app_iff in *; simpl; tauto|].
    assert (K : core_free clear_super) by (intros o; repeat split).
    assert (K' : core_free (set_s_subset (l1 ++ l2))) by (intros o; repeat split).
    split; [unfold h2, cut; rewrite !live_upd; auto|].
    split; unfold h2, cut; rewrite (sob_upd_field _ _ x clear_super), (sob_upd_field _ _ s (set_s_subset _)); auto;
      intros o; apply K || apply K'.
  - rewrite Ss2 in S3. rewrite (bind_ok _ _ _ _ _ E3). mstep.
    exists h3. split; [|exact S3].
    unfold mod_seq, modify. rewrite clear_twice.
    rewrite clear_cleared; auto.
    + assert (Lx2 : live h2 x) by (unfold h2, cut; rewrite !live_upd; auto).
      destruct S3 as (_ & F & _). rewrite F by auto. unfold h2, cut. rewrite sob_upd_eq by auto. reflexivity.
    + assert (Lx2 : live h2 x) by (unfold h2, cut; rewrite !live_upd; auto).
      destruct S3 as (_ & F & _). rewrite F by auto. unfold h2, cut. rewrite sob_upd_eq by auto. reflexivity.
Qed.

(** ** The invariant

    [ex] marks parents whose list is temporarily out of step (used inside the
    assignment of a whole list). *)
Record tree (K : cid -> Prop) (ex : oid -> Prop) (h : heap) : Prop := {
  t_down : forall p x, ~ ex p -> In x (s_subset (sob h p)) ->
    live h x /\ s_super (sob h x) = Some p /\ subset_class h (s_cls (sob h p)) = Some (s_cls (sob h x));
  t_up : forall x p, s_super (sob h x) = Some p ->
    live h p /\ (~ ex p -> In x (s_subset (sob h p)));
  t_nodup : forall p, ~ ex p -> NoDup (s_subset (sob h p));
  tr_ec : forall p c, s_subec (sob h p) = Some c -> subset_class h (s_cls (sob h p)) = Some c;
  t_twin : forall p x y, ~ ex p -> In x (s_subset (sob h p)) -> In y (s_subset (sob h p)) ->
    same_value h x y -> x = y;
  t_hash : forall x, s_label (sob h x) = "#"%string -> s_super (sob h x) = None /\ s_subset (sob h x) = [];
  t_cls : forall x, live h x -> s_label (sob h x) <> "#"%string -> K (s_cls (sob h x))
}.
(** [lx]: the parents whose children may be wrongly linked for the moment. *)
Record inv_but (lx : oid -> Prop) (K : cid -> Prop) (ex : oid -> Prop) (h : heap) : Prop := {
  i_chains : separate_chains h K;
  i_tree : tree K ex h;
  i_links : forall p, ~ ex p -> ~ lx p -> chained h (s_subset (sob h p))
}.
Arguments i_chains {lx} K ex h _.
Arguments i_tree {lx} K ex h _.
Arguments i_links {lx} K ex h _ _ _ _.
Context {lx : oid -> Prop}.
Local Notation inv := (inv_but lx).

Lemma sob_dead h i : ~ live h i -> sob h i = blank_seq 0%nat None None EmptyString.
Proof. intros L. unfold sob. rewrite lookup_ge_None_2; [reflexivity|]. unfold live in L. lia. Qed.

(** What a link-only change does to an object, old or new. *)
Lemma links_view h h' : links_only h h' -> forall i,
  (live h i /\ erase (sob h' i) = erase (sob h i)) \/
  (~ live h i /\ live h' i /\ boundary_obj (sob h' i)) \/
  (~ live h i /\ ~ live h' i /\ sob h' i = sob h i).
Proof.
  intros (_ & _ & _ & _ & E & F & G) i. destruct (decide (live h i)) as [L|L]; [left; auto|].
  right. destruct (decide (live h' i)) as [L'|L']; [left; auto|right].
  split; [auto|]. split; [auto|]. rewrite !sob_dead; auto.
Qed.
Lemma boundary_obj_fields o : boundary_obj o ->
  s_start o = None /\ s_end o = None /\ s_label o = "#"%string /\ s_super o = None /\ s_subset o = [] /\
  s_subec o = None /\ s_intier o = None /\ s_within o = None /\ s_contains o = CUnset.
Proof.
  intros [c E]. destruct o. unfold erase, blank_seq, set_s_fol, set_s_prev in E. simpl in *.
  injection E. intros. subst. repeat split.
Qed.
Lemma subset_class_ext h h' c : h_cls h' = h_cls h -> subset_class h' c = subset_class h c.
Proof. unfold subset_class. intros ->. reflexivity. Qed.
Lemma superset_class_ext h h' c : h_cls h' = h_cls h -> superset_class h' c = superset_class h c.
Proof. unfold superset_class. intros ->. reflexivity. Qed.
Lemma issubclass_ext h h' c d : h_cls h' = h_cls h -> issubclass h' c d = issubclass h c d.
Proof. unfold issubclass. intros ->. reflexivity. Qed.
Lemma chains_ext h h' K : h_cls h' = h_cls h -> separate_chains h K -> separate_chains h' K.
Proof.
  intros E C. unfold separate_chains, seq_class, subset_class, superset_class, issubclass in *.
  rewrite E. exact C.
Qed.
Lemma same_value_ext h h' x y : praatio h' x = praatio h x -> praatio h' y = praatio h y ->
  same_value h' x y <-> same_value h x y.
Proof. intros A B. rewrite <- !praatio_iff, A, B. reflexivity. Qed.

Lemma tree_links K ex h h' : links_only h h' -> tree K ex h -> tree K ex h'.
Proof.
  intros L T. assert (Hc : h_cls h' = h_cls h) by apply L.
  assert (V : forall i, s_super (sob h' i) = s_super (sob h i) /\ s_subset (sob h' i) = s_subset (sob h i) /\
                        s_subec (sob h' i) = s_subec (sob h i)).
  { intros i. destruct (links_view _ _ L i) as [[A B]|[(A & B & C)|(A & B & C)]].
    - destruct (erase_fields _ _ B) as (_ & _ & _ & _ & -> & -> & -> & _). auto.
    - destruct (boundary_obj_fields _ C) as (_ & _ & _ & -> & -> & -> & _). rewrite (sob_dead h i A). auto.
    - rewrite C. auto. }
  assert (W : forall i, live h i -> s_cls (sob h' i) = s_cls (sob h i) /\ s_label (sob h' i) = s_label (sob h i)).
  { intros i A. destruct L as (_ & _ & _ & _ & _ & F & _).
    destruct (erase_fields _ _ (F i A)) as (-> & _ & _ & -> & _). auto. }
  assert (Sub : forall p x, In x (s_subset (sob h p)) -> live h p).
  { intros p x Hx. destruct (decide (live h p)) as [A|A]; auto. rewrite (sob_dead h p A) in Hx. destruct Hx. }
  constructor.
  - intros p x Hp Hx. destruct (V p) as (_ & Vp & _). rewrite Vp in Hx.
    destruct (t_down _ _ _ T p x Hp Hx) as (A & B & C). destruct (V x) as (-> & _ & _).
    rewrite (subset_class_ext _ _ _ Hc). destruct (W x A) as [-> _]. destruct (W p (Sub p x Hx)) as [-> _].
    split; [eapply links_only_live; eauto|]. auto.
  - intros x p Hx. destruct (V x) as (Vx & _ & _). rewrite Vx in Hx.
    destruct (t_up _ _ _ T x p Hx) as (A & B). destruct (V p) as (_ & -> & _).
    split; [eapply links_only_live; eauto|]. auto.
  - intros p Hp. destruct (V p) as (_ & -> & _). apply (t_nodup _ _ _ T); auto.
  - intros p c Hp. destruct (V p) as (_ & _ & Vp). rewrite Vp in Hp. rewrite (subset_class_ext _ _ _ Hc).
    destruct (decide (live h p)) as [A|A].
    + destruct (W p A) as [-> _]. apply (tr_ec _ _ _ T); auto.
    + rewrite (sob_dead h p A) in Hp. discriminate.
  - intros p x y Hp Hx Hy E. destruct (V p) as (_ & Vp & _). rewrite Vp in Hx, Hy.
    apply (t_twin _ _ _ T p); auto.
    destruct (t_down _ _ _ T p x Hp Hx) as (A & _). destruct (t_down _ _ _ T p y Hp Hy) as (B & _).
    rewrite same_value_ext in E; [exact E| |]; apply praatio_links; auto.
  - intros x Hx. destruct (V x) as (-> & -> & _).
    destruct (decide (live h x)) as [A|A].
    + apply (t_hash _ _ _ T). destruct (W x A) as [_ Wx]. congruence.
    + rewrite (sob_dead h x A). auto.
  - intros x Hx Hl. destruct (links_view _ _ L x) as [[A B]|[(A & B & C)|(A & B & C)]].
    + destruct (W x A) as [-> W2]. rewrite W2 in Hl. apply (t_cls _ _ _ T); auto.
    + exfalso. apply Hl. apply boundary_obj_label; auto.
    + contradiction.
Qed.

(** Facts about one family. *)
Lemma family K ex h p x : inv K ex h -> ~ ex p -> In x (s_subset (sob h p)) ->
  live h p /\ live h x /\ x <> p /\ s_super (sob h x) = Some p /\
  subset_class h (s_cls (sob h p)) = Some (s_cls (sob h x)) /\
  K (s_cls (sob h p)) /\ K (s_cls (sob h x)) /\
  s_label (sob h p) <> "#"%string /\ s_label (sob h x) <> "#"%string.
Proof.
  intros I Hp Hx. destruct (i_tree _ _ _ I). destruct (t_down0 p x Hp Hx) as (A & B & C).
  destruct (t_up0 x p B) as [D _].
  assert (Lp : s_label (sob h p) <> "#"%string).
  { intros E. destruct (t_hash0 p E) as [_ F]. rewrite F in Hx. destruct Hx. }
  assert (Lx : s_label (sob h x) <> "#"%string).
  { intros E. destruct (t_hash0 x E) as [F _]. congruence. }
  assert (Kp : K (s_cls (sob h p))) by auto.
  repeat split; auto. intros ->. destruct (i_chains _ _ _ I) as (_ & _ & _ & _ & Irr).
  apply (Irr _ Kp). auto.
Qed.
Lemma family_class K ex h p c : inv K ex h -> ~ ex p -> subset_class h (s_cls (sob h p)) = Some c ->
  forall y, In y (s_subset (sob h p)) -> live h y /\ s_cls (sob h y) = c /\ s_label (sob h y) <> "#"%string.
Proof.
  intros I Hp Hc y Hy. destruct (family _ _ _ _ _ I Hp Hy) as (_ & A & _ & _ & B & _ & _ & _ & C).
  repeat split; auto. congruence.
Qed.

(** The links after one list has been relinked. *)
Lemma chained_upd h x f l : s_label (sob h x) <> "#"%string ->
  (forall o, s_fol (f o) = s_fol o) -> (forall o, s_prev (f o) = s_prev o) ->
  chained h l -> chained (upd_seq x f h) l.
Proof.
  intros Hx A B C. eapply chained_ext; [|intros k Hk; apply is_boundary_upd; [exact Hx|exact Hk]|exact C].
  intros y _. split; apply sob_upd_field; auto.
Qed.
Lemma inv_settle K ex h1 L h' : separate_chains h1 K -> tree K ex h1 -> settles h1 L h' ->
  (forall p, ~ ex p -> s_subset (sob h1 p) = L \/
     (~ lx p -> chained h1 (s_subset (sob h1 p))) /\ (forall x, In x L -> ~ In x (s_subset (sob h1 p)))) ->
  inv K ex h'.
Proof.
  intros C T S P. pose proof S as (LO & F & Ch). pose proof LO as (Hc & _).
  constructor.
  - eapply chains_ext; eauto.
  - eapply tree_links; eauto.
  - intros p Hp Hl.
    assert (V : s_subset (sob h' p) = s_subset (sob h1 p)).
    { destruct (links_view _ _ LO p) as [[A B]|[(A & B & D)|(A & B & D)]].
      - destruct (erase_fields _ _ B) as (_ & _ & _ & _ & _ & -> & _). auto.
      - destruct (boundary_obj_fields _ D) as (_ & _ & _ & _ & -> & _). rewrite (sob_dead h1 p A). auto.
      - rewrite D. auto. }
    rewrite V. destruct (P p Hp) as [->|[D1 D2]]; [exact Ch|].
    eapply chained_ext; [|intros k Hk; eapply is_boundary_links; eauto|exact (D1 Hl)].
    intros x Hx. assert (live h1 x) by (apply (t_down _ _ _ T p x Hp Hx)).
    rewrite F; auto. intros HL. exact (D2 x HL Hx).
Qed.

(** ** Removing a child keeps the invariant *)
Lemma cut_view s l x h i : live h x -> live h s -> x <> s ->
  s_super (sob (cut s l x h) i) = (if decide (i = x) then None else s_super (sob h i)) /\
  s_subset (sob (cut s l x h) i) = (if decide (i = s) then l else s_subset (sob h i)) /\
  s_subec (sob (cut s l x h) i) = s_subec (sob h i).
Proof.
  intros Lx Ls Hne. unfold cut. rewrite sob_upd by (apply live_upd; auto).
  rewrite !sob_upd by auto.
  destruct (decide (i = x)) as [->|]; destruct (decide (x = s)); try contradiction; simpl.
  - destruct (decide (x = s)); [contradiction|]. auto.
  - destruct (decide (i = s)) as [->|]; auto.
Qed.
Lemma cut_core s l x h : core_same h (cut s l x h).
Proof.
  unfold cut. apply (core_same_trans _ (upd_seq s (set_s_subset l) h)); [apply upd_core; intros o; repeat split|apply upd_core; intros o; repeat split|].
  intros i A B C. rewrite live_upd in A. contradiction.
Qed.
Lemma core_cls h h' i : core_same h h' -> live h i ->
  s_cls (sob h' i) = s_cls (sob h i) /\ s_label (sob h' i) = s_label (sob h i) /\
  praatio h' i = praatio h i.
Proof.
  intros ((A & _) & _ & C & _) L. destruct (C i L) as (C1 & C2 & C3 & C4 & _).
  repeat split; auto. apply praatio_ext; auto.
Qed.
Lemma cut_live s l x h i : live (cut s l x h) i <-> live h i.
Proof. unfold cut. rewrite !live_upd. reflexivity. Qed.

Lemma tree_cut K ex h s l1 x l2 : inv K ex h -> ~ ex s ->
  s_subset (sob h s) = (l1 ++ x :: l2)%list -> tree K ex (cut s (l1 ++ l2) x h).
Proof.
  intros I Hs Hsub.
  assert (Hx : In x (s_subset (sob h s))) by (rewrite Hsub; apply in_app_iff; simpl; auto).
  destruct (family _ _ _ _ _ I Hs Hx) as (Ls & Lx & Hne & Sx & _).
  pose proof (i_tree _ _ _ I) as T.
  pose proof (t_nodup _ _ _ T s Hs) as Nd. rewrite Hsub in Nd.
  destruct (NoDup_mid _ _ _ Nd) as (N1 & N2 & N3 & N4).
  pose proof (fun i => cut_view s (l1 ++ l2) x h i Lx Ls Hne) as V.
  pose proof (cut_core s (l1 ++ l2) x h) as Co.
  set (h1 := cut s (l1 ++ l2) x h) in *.
  assert (Hc : h_cls h1 = h_cls h) by reflexivity.
  assert (Sub : forall p y, In y (s_subset (sob h1 p)) -> In y (s_subset (sob h p)) /\ (~ ex p -> y <> x)).
  { intros p y Hy. destruct (V p) as (_ & Vp & _). rewrite Vp in Hy.
    destruct (decide (p = s)) as [->|Hp].
    - rewrite Hsub. split; [rewrite in_app_iff in *; simpl; tauto|]. intros _ ->. auto.
    - split; [auto|]. intros Hex ->. destruct (t_down _ _ _ T p x Hex Hy) as (_ & B & _). congruence. }
  constructor.
  - intros p y Hp Hy. destruct (Sub p y Hy) as [Hy' Hyx]. specialize (Hyx Hp).
    destruct (t_down _ _ _ T p y Hp Hy') as (A & B & C).
    destruct (t_up _ _ _ T y p B) as [Lp _].
    rewrite (subset_class_ext _ _ _ Hc).
    destruct (core_cls _ _ y Co A) as (-> & _). destruct (core_cls _ _ p Co Lp) as (-> & _).
    destruct (V y) as (-> & _). destruct (decide (y = x)); [contradiction|].
    split; [apply cut_live; auto|]. auto.
  - intros y p Hy. destruct (V y) as (Vy & _). rewrite Vy in Hy.
    destruct (decide (y = x)); [discriminate|].
    destruct (t_up _ _ _ T y p Hy) as [A B]. split; [apply cut_live; auto|].
    intros Hp. specialize (B Hp). destruct (V p) as (_ & -> & _).
    destruct (decide (p = s)) as [->|]; [|auto].
    rewrite Hsub in B. rewrite in_app_iff in *. simpl in B. intuition congruence.
  - intros p Hp. destruct (V p) as (_ & -> & _).
    destruct (decide (p = s)); [auto|]. apply (t_nodup _ _ _ T); auto.
  - intros p c Hp. destruct (V p) as (_ & _ & Vp). rewrite Vp in Hp. rewrite (subset_class_ext _ _ _ Hc).
    destruct (decide (live h p)) as [A|A].
    + destruct (core_cls _ _ p Co A) as (-> & _). apply (tr_ec _ _ _ T); auto.
    + rewrite (sob_dead h p A) in Hp. discriminate.
  - intros p a b Hp Ha Hb E. apply Sub in Ha, Hb. destruct Ha as [Ha _], Hb as [Hb _].
    apply (t_twin _ _ _ T p); auto.
    destruct (t_down _ _ _ T p a Hp Ha) as (A & _). destruct (t_down _ _ _ T p b Hp Hb) as (B & _).
    rewrite same_value_ext in E; [exact E| |]; apply (core_cls _ _ _ Co); auto.
  - intros y Hy. destruct (V y) as (-> & -> & _).
    destruct (decide (live h y)) as [A|A].
    + destruct (core_cls _ _ y Co A) as (_ & E & _). rewrite E in Hy.
      destruct (t_hash _ _ _ T y Hy) as [E1 E2].
      destruct (decide (y = s)) as [->|].
      * rewrite Hsub in E2. destruct l1; discriminate.
      * split; [destruct (decide (y = x)); auto|auto].
    + rewrite (sob_dead h y A). simpl. destruct (decide (y = x)), (decide (y = s)); subst; try contradiction; auto.
  - intros y Hy Hl. apply cut_live in Hy. destruct (core_cls _ _ y Co Hy) as (-> & E & _).
    rewrite E in Hl. apply (t_cls _ _ _ T); auto.
Qed.

Lemma inv_cut K ex h s l1 x l2 h' : inv K ex h -> ~ ex s ->
  s_subset (sob h s) = (l1 ++ x :: l2)%list ->
  settles (cut s (l1 ++ l2) x h) (l1 ++ l2) h' -> inv K ex h'.
Proof.
  intros I Hs Hsub S.
  assert (Hx : In x (s_subset (sob h s))) by (rewrite Hsub; apply in_app_iff; simpl; auto).
  destruct (family _ _ _ _ _ I Hs Hx) as (Ls & Lx & Hne & Sx & _ & _ & _ & Lbs & Lbx).
  eapply inv_settle; [| |exact S|].
  - eapply chains_ext; [|apply (i_chains _ _ _ I)]. reflexivity.
  - apply tree_cut; auto.
  - intros p Hp. destruct (cut_view s (l1 ++ l2) x h p Lx Ls Hne) as (_ & -> & _).
    destruct (decide (p = s)) as [->|Hps]; [left; reflexivity|right].
    split.
    + intros Hl. unfold cut. apply chained_upd; auto.
      * rewrite (sob_upd_field s_label); auto.
      * apply chained_upd; auto. apply (i_links _ _ _ I); auto.
    + intros y Hy Hy'. destruct (t_down _ _ _ (i_tree _ _ _ I) p y Hp Hy') as (_ & B & _).
      assert (In y (s_subset (sob h s))) as Hy2 by (rewrite Hsub; rewrite in_app_iff in *; simpl; tauto).
      destruct (t_down _ _ _ (i_tree _ _ _ I) s y Hs Hy2) as (_ & C & _). congruence.
Qed.

Lemma child_twinless K ex h s x : inv K ex h -> ~ ex s -> In x (s_subset (sob h s)) ->
  twinless h (s_subset (sob h s)) x.
Proof. intros I Hs Hx y Hy E. apply (t_twin _ _ _ (i_tree _ _ _ I) s); auto. Qed.

Lemma inv_remove K ex h s x : inv K ex h -> ~ ex s -> s_super (sob h x) = Some s ->
  exists l1 l2 h', s_subset (sob h s) = (l1 ++ x :: l2)%list /\
    remove_superset x h = Ok tt h' /\ settles (cut s (l1 ++ l2) x h) (l1 ++ l2) h' /\ inv K ex h'.
Proof.
  intros I Hs Sx. destruct (t_up _ _ _ (i_tree _ _ _ I) x s Sx) as [_ Hx]. specialize (Hx Hs).
  destruct (family _ _ _ _ _ I Hs Hx) as (Ls & Lx & Hne & _ & Cx & _).
  pose proof (child_twinless _ _ _ _ _ I Hs Hx) as Tw.
  pose proof (t_nodup _ _ _ (i_tree _ _ _ I) s Hs) as Nd.
  pose proof (family_class _ _ _ _ _ I Hs Cx) as Fc.
  destruct (in_split _ _ Hx) as (l1 & l2 & Hsub). rewrite Hsub in Tw, Nd, Fc.
  destruct (remove_superset_child x s l1 l2 (s_cls (sob h x)) h) as (h' & E & S); auto.
  exists l1, l2, h'. split; [auto|]. split; [exact E|]. split; [exact S|]. eapply inv_cut; eauto.
Qed.

(** ** Public removal *)
Lemma subset_remove_ok K ex h s x l1 l2 : inv K ex h -> ~ ex s ->
  s_subset (sob h s) = (l1 ++ x :: l2)%list ->
  subset_remove s x h = Ok tt (cut s (l1 ++ l2) x h).
Proof.
  intros I Hs Hsub.
  assert (Hx : In x (s_subset (sob h s))) by (rewrite Hsub; apply in_app_iff; simpl; auto).
  destruct (family _ _ _ _ _ I Hs Hx) as (Ls & Lx & Hne & Sx & Cx & _).
  pose proof (child_twinless _ _ _ _ _ I Hs Hx) as Tw.
  pose proof (t_nodup _ _ _ (i_tree _ _ _ I) s Hs) as Nd.
  rewrite Hsub in Tw, Nd. destruct (NoDup_mid _ _ _ Nd) as (N1 & N2 & N3 & N4).
  unfold subset_remove. mstep. rewrite Hsub, (twinless_drop h l1 x l2 Tw N1). mstep.
  set (h1 := upd_seq s (set_s_subset (l1 ++ l2)) h).
  unfold remove_superset.
  assert (E : sob h1 x = sob h x) by (apply sob_upd_ne; auto). rewrite E, Sx.
  rewrite (remove_superset_unlisted _ x s h1).
  - reflexivity.
  - apply live_upd; auto.
  - rewrite E. auto.
  - unfold h1. rewrite sob_upd_eq by auto. simpl. rewrite (contains_ext h).
    + apply twinless_not_listed; auto. intros y Hy. apply Tw. rewrite in_app_iff in *. simpl. tauto.
    + intros y Hy. apply praatio_upd. intros o; repeat split.
    + apply praatio_upd. intros o; repeat split.
Qed.
Lemma relink_cut K ex h s x l1 l2 : inv K ex h -> ~ ex s ->
  s_subset (sob h s) = (l1 ++ x :: l2)%list ->
  exists h', set_subset_precedence s (cut s (l1 ++ l2) x h) = Ok tt h' /\
    settles (cut s (l1 ++ l2) x h) (l1 ++ l2) h' /\ inv K ex h'.
Proof.
  intros I Hs Hsub.
  assert (Hx : In x (s_subset (sob h s))) by (rewrite Hsub; apply in_app_iff; simpl; auto).
  destruct (family _ _ _ _ _ I Hs Hx) as (Ls & Lx & Hne & Sx & Cx & _).
  pose proof (t_nodup _ _ _ (i_tree _ _ _ I) s Hs) as Nd. rewrite Hsub in Nd.
  destruct (NoDup_mid _ _ _ Nd) as (N1 & N2 & N3 & N4).
  destruct (cut_view s (l1 ++ l2) x h s Lx Ls Hne) as (_ & V & _).
  destruct (decide (s = s)); [|contradiction].
  destruct (relink_ok s (s_cls (sob h x)) (cut s (l1 ++ l2) x h)) as (h' & E & S).
  - rewrite V. auto.
  - rewrite V. intros y Hy. destruct (family_class _ _ _ _ _ I Hs Cx y) as (A & B & C).
    { rewrite Hsub. rewrite in_app_iff in *. simpl. tauto. }
    destruct (core_cls _ _ y (cut_core s (l1 ++ l2) x h) A) as (-> & -> & _).
    split; [apply cut_live; auto|auto].
  - rewrite V in S. exists h'. split; [exact E|]. split; [exact S|]. eapply inv_cut; eauto.
Qed.
Lemma cut_cleared s l x h : live h x -> upd_seq x clear_super (cut s l x h) = cut s l x h.
Proof.
  intros Lx. apply clear_cleared; unfold cut; rewrite sob_upd_eq by (apply live_upd; auto); reflexivity.
Qed.

Lemma inv_remove_from K ex h s x l1 l2 : inv K ex h -> ~ ex s ->
  s_subset (sob h s) = (l1 ++ x :: l2)%list ->
  exists h', remove_from_subset_list s x h = Ok tt h' /\
    settles (cut s (l1 ++ l2) x h) (l1 ++ l2) h' /\ inv K ex h'.
Proof.
  intros I Hs Hsub. pose proof (subset_remove_ok _ _ _ _ _ _ _ I Hs Hsub) as E1.
  destruct (relink_cut _ _ _ _ _ _ _ I Hs Hsub) as (h' & E & S & I').
  assert (Hx : In x (s_subset (sob h s))) by (rewrite Hsub; apply in_app_iff; simpl; auto).
  destruct (family _ _ _ _ _ I Hs Hx) as (Ls & Lx & _).
  exists h'. split; [|auto]. unfold remove_from_subset_list. mstep. rewrite contains_in by auto. cbn [negb].
  rewrite (bind_ok _ _ _ _ _ E1). mstep. mstep. rewrite clear_twice, cut_cleared by auto. exact E.
Qed.
Lemma inv_pop K ex h s x l1 l2 : inv K ex h -> ~ ex s ->
  s_subset (sob h s) = (l1 ++ x :: l2)%list ->
  exists h', seq_pop s x h = Ok tt h' /\
    settles (cut s (l1 ++ l2) x h) (l1 ++ l2) h' /\ inv K ex h'.
Proof.
  intros I Hs Hsub. pose proof (subset_remove_ok _ _ _ _ _ _ _ I Hs Hsub) as E1.
  destruct (relink_cut _ _ _ _ _ _ _ I Hs Hsub) as (h' & E & S & I').
  assert (Hx : In x (s_subset (sob h s))) by (rewrite Hsub; apply in_app_iff; simpl; auto).
  exists h'. split; [|auto]. unfold seq_pop. mstep. rewrite contains_in by auto. unfold when.
  rewrite (bind_ok _ _ _ _ _ E1). exact E.
Qed.
(** An object that is not a child and has no twin among the children. *)
Lemma remove_from_absent h s x : twinless h (s_subset (sob h s)) x -> ~ In x (s_subset (sob h s)) ->
  remove_from_subset_list s x h = Ok tt h.
Proof.
  intros T N. unfold remove_from_subset_list. mstep. rewrite twinless_not_listed by auto. reflexivity.
Qed.
Lemma inv_relink K ex h s : inv K ex h -> ~ ex s ->
  exists h', set_subset_precedence s h = Ok tt h' /\ settles h (s_subset (sob h s)) h' /\ inv K ex h'.
Proof.
  intros I Hs.
  assert (Hc : exists c, forall y, In y (s_subset (sob h s)) ->
     live h y /\ s_cls (sob h y) = c /\ s_label (sob h y) <> "#"%string).
  { destruct (s_subset (sob h s)) as [|z l] eqn:El; [exists 0%nat; intros y []|].
    assert (Hz : In z (s_subset (sob h s))) by (rewrite El; simpl; auto).
    destruct (family _ _ _ _ _ I Hs Hz) as (_ & _ & _ & _ & C & _).
    exists (s_cls (sob h z)). rewrite <- El. apply (family_class _ _ _ _ _ I Hs C). }
  destruct Hc as [c Hc].
  destruct (relink_ok s c h (t_nodup _ _ _ (i_tree _ _ _ I) s Hs) Hc) as (h' & E & S).
  exists h'. split; [exact E|]. split; [exact S|].
  eapply inv_settle; [apply (i_chains _ _ _ I)|apply (i_tree _ _ _ I)|exact S|].
  intros p Hp. destruct (decide (p = s)) as [->|Hps]; [left; reflexivity|right].
  split; [apply (i_links _ _ _ I); auto|].
  intros y Hy Hy'. destruct (t_down _ _ _ (i_tree _ _ _ I) p y Hp Hy') as (_ & B & _).
  destruct (t_down _ _ _ (i_tree _ _ _ I) s y Hs Hy) as (_ & C & _). congruence.
Qed.
Lemma inv_pop_absent K ex h s x : inv K ex h -> ~ ex s ->
  twinless h (s_subset (sob h s)) x -> ~ In x (s_subset (sob h s)) ->
  exists h', seq_pop s x h = Ok tt h' /\ settles h (s_subset (sob h s)) h' /\ inv K ex h'.
Proof.
  intros I Hs T N. destruct (inv_relink _ _ _ _ I Hs) as (h' & E & S & I').
  exists h'. split; [|auto]. unfold seq_pop. mstep. rewrite twinless_not_listed by auto. exact E.
Qed.

(** ** Updates that the invariant does not see *)
Definition inert (f : seqobj -> seqobj) : Prop := forall o,
  s_cls (f o) = s_cls o /\ s_start (f o) = s_start o /\ s_end (f o) = s_end o /\ s_label (f o) = s_label o /\
  s_fol (f o) = s_fol o /\ s_prev (f o) = s_prev o /\
  s_super (f o) = s_super o /\ s_subset (f o) = s_subset o /\ s_subec (f o) = s_subec o.
Lemma inv_inert K ex h i f : inert f -> inv K ex h -> inv K ex (upd_seq i f h).
Proof.
  intros F [C T L].
  assert (G : forall j, (s_cls (sob (upd_seq i f h) j) = s_cls (sob h j) /\
     s_label (sob (upd_seq i f h) j) = s_label (sob h j) /\
     s_super (sob (upd_seq i f h) j) = s_super (sob h j) /\
     s_subset (sob (upd_seq i f h) j) = s_subset (sob h j) /\
     s_subec (sob (upd_seq i f h) j) = s_subec (sob h j)) /\
     s_start (sob (upd_seq i f h) j) = s_start (sob h j) /\ s_end (sob (upd_seq i f h) j) = s_end (sob h j) /\
     s_fol (sob (upd_seq i f h) j) = s_fol (sob h j) /\ s_prev (sob (upd_seq i f h) j) = s_prev (sob h j)).
  { intros j. repeat split; apply sob_upd_field; intros o; apply F. }
  assert (P : forall j, praatio (upd_seq i f h) j = praatio h j).
  { intros j. apply praatio_upd. intros o. repeat split; apply F. }
  set (h1 := upd_seq i f h) in *.
  assert (Hc : h_cls h1 = h_cls h) by reflexivity.
  constructor.
  - eapply chains_ext; eauto.
  - constructor.
    + intros p x Hp. destruct (G p) as ((-> & _ & _ & -> & _) & _). destruct (G x) as ((-> & _ & -> & _) & _).
      rewrite (subset_class_ext _ _ _ Hc). intros Hx.
      destruct (t_down _ _ _ T p x Hp Hx) as (A & B). split; [apply live_upd; auto|auto].
    + intros x p. destruct (G x) as ((_ & _ & -> & _) & _). destruct (G p) as ((_ & _ & _ & -> & _) & _).
      intros Hx. destruct (t_up _ _ _ T x p Hx). split; [apply live_upd; auto|auto].
    + intros p Hp. destruct (G p) as ((_ & _ & _ & -> & _) & _). apply (t_nodup _ _ _ T); auto.
    + intros p c. destruct (G p) as ((-> & _ & _ & _ & ->) & _). rewrite (subset_class_ext _ _ _ Hc).
      apply (tr_ec _ _ _ T).
    + intros p x y Hp. destruct (G p) as ((_ & _ & _ & -> & _) & _). rewrite same_value_ext by auto.
      apply (t_twin _ _ _ T); auto.
    + intros x. destruct (G x) as ((_ & -> & -> & -> & _) & _). apply (t_hash _ _ _ T).
    + intros x Hx. apply live_upd in Hx. destruct (G x) as ((-> & -> & _) & _). apply (t_cls _ _ _ T); auto.
  - intros p Hp Hl. destruct (G p) as ((_ & _ & _ & -> & _) & _).
    eapply chained_ext; [| |apply L; auto].
    + intros x _. destruct (G x) as (_ & _ & _ & -> & ->). auto.
    + intros k (A1 & A2 & A3 & A4 & A5 & A6). destruct (G k) as ((_ & G1 & G2 & G3 & _) & G4 & G5 & _).
      unfold is_boundary. rewrite G1, G2, G3, G4, G5. repeat split; auto. apply live_upd; auto.
Qed.

End WithEnv.
Arguments i_chains {lx} K ex h _.
Arguments i_tree {lx} K ex h _.
Arguments i_links {lx} K ex h _ _ _ _.
