(** * AdoptProofs: appending a child, from either side. *)
From Verif Require Export TreeProofs.
Open Scope Z_scope.

Section WithEnv.
Context `{Env} {lx : oid -> Prop}.
Local Notation inv := (inv_but lx).

(** ** Appending to a list whose times may be unknown or zero *)
Lemma sl_append_gen h v x c : (sv_ec v = Some c \/ sv_ec v = None) -> s_cls (sob h x) = c ->
  seq_class h c -> sl_contains h (sv_vals v) x = false ->
  (exists l1 l2, sv_vals v = (l1 ++ l2)%list /\
     sl_append v x false h = Ok (Slv (l1 ++ x :: l2) (Some c)) h) \/
  (sl_append v x false h = Raise TypeError h /\ sv_vals v <> []).
Proof.
  intros Hec Hx Hk Hn. unfold sl_append. mstep. rewrite Hn. mstep. mstep. rewrite Hx.
  assert (Ho : match sv_ec v with None => true | Some ec => issubclass h ec c || issubclass h c ec end = true).
  { destruct Hec as [-> | ->]; [rewrite issubclass_refl|]; reflexivity. }
  rewrite Ho. cbn [negb].
  assert (He : match sv_ec v with None => c | Some e => e end = c) by (destruct Hec as [-> | ->]; reflexivity).
  rewrite He, (bind_ok _ _ _ _ _ (cast_same h c x Hx (seq_class_kind h c Hk))).
  unfold when. mstep. mstep.
  destruct ((0 <? _)%nat && _) eqn:Et.
  - mstep. destruct (all_some (starts_of h (sv_vals v))) as [st|]; [destruct (start_of h x) as [t|]|].
    + left. exists (firstn (searchsorted st t) (sv_vals v)), (skipn (searchsorted st t) (sv_vals v)).
      split; [rewrite firstn_skipn; auto|reflexivity].
    + right. split; [reflexivity|]. intros E. rewrite E in Et. discriminate.
    + right. split; [reflexivity|]. intros E. rewrite E in Et. discriminate.
  - left. exists (sv_vals v), []. rewrite app_nil_r. auto.
Qed.

(** ** The tree with one more child *)
Definition put_list (l : list oid) (c : cid) (o : seqobj) : seqobj := set_s_subec (Some c) (set_s_subset l o).
Definition graft (s : oid) (l : list oid) (c : cid) (x : oid) (h : heap) : heap :=
  upd_seq x (set_s_super (Some s)) (upd_seq s (put_list l c) h).

Lemma graft_view s l c x h i : live h x -> live h s -> x <> s ->
  s_super (sob (graft s l c x h) i) = (if decide (i = x) then Some s else s_super (sob h i)) /\
  s_subset (sob (graft s l c x h) i) = (if decide (i = s) then l else s_subset (sob h i)) /\
  s_subec (sob (graft s l c x h) i) = (if decide (i = s) then Some c else s_subec (sob h i)).
Proof.
  intros Lx Ls Hne. unfold graft. rewrite sob_upd by (apply live_upd; auto).
  rewrite !sob_upd by auto.
  destruct (decide (i = x)) as [->|]; destruct (decide (x = s)); try contradiction; simpl; auto.
  destruct (decide (i = s)) as [->|]; auto.
Qed.
Lemma graft_core s l c x h : core_same h (graft s l c x h).
Proof.
  unfold graft. apply (core_same_trans _ (upd_seq s (put_list l c) h));
    [apply upd_core; intros o; repeat split|apply upd_core; intros o; repeat split|].
  intros i A B C. rewrite live_upd in A. contradiction.
Qed.
Lemma graft_live s l c x h i : live (graft s l c x h) i <-> live h i.
Proof. unfold graft. rewrite !live_upd. reflexivity. Qed.
Lemma upd_comm h i j f g : i <> j -> upd_seq i f (upd_seq j g h) = upd_seq j g (upd_seq i f h).
Proof. intros. unfold upd_seq; simpl. f_equal. apply list_alter_commute. auto. Qed.

Definition may_adopt (h : heap) (K : cid -> Prop) (s x : oid) : Prop :=
  live h s /\ live h x /\ s_label (sob h s) <> "#"%string /\ s_label (sob h x) <> "#"%string /\
  subset_class h (s_cls (sob h s)) = Some (s_cls (sob h x)).
Lemma may_adopt_ne K ex h s x : inv K ex h -> may_adopt h K s x -> x <> s.
Proof.
  intros I (A & B & C & D & E) ->. destruct (i_chains _ _ _ I) as (_ & _ & _ & _ & Irr).
  eapply Irr; [|exact E]. apply (t_cls _ _ _ (i_tree _ _ _ I)); auto.
Qed.

Lemma tree_graft K ex h s l1 x l2 : inv K ex h -> ~ ex s -> may_adopt h K s x ->
  s_super (sob h x) = None -> twinless h (s_subset (sob h s)) x ->
  s_subset (sob h s) = (l1 ++ l2)%list ->
  tree K ex (graft s (l1 ++ x :: l2) (s_cls (sob h x)) x h).
Proof.
  intros I Hs MA Sx Tw Hsub. pose proof (may_adopt_ne _ _ _ _ _ I MA) as Hne.
  destruct MA as (Ls & Lx & Lbs & Lbx & Cx).
  pose proof (i_tree _ _ _ I) as T.
  assert (Nx : forall p, ~ ex p -> ~ In x (s_subset (sob h p))).
  { intros p Hp Hx. destruct (t_down _ _ _ T p x Hp Hx) as (_ & A & _). congruence. }
  pose proof (fun i => graft_view s (l1 ++ x :: l2) (s_cls (sob h x)) x h i Lx Ls Hne) as V.
  pose proof (graft_core s (l1 ++ x :: l2) (s_cls (sob h x)) x h) as Co.
  assert (Hc : h_cls (graft s (l1 ++ x :: l2) (s_cls (sob h x)) x h) = h_cls h) by reflexivity.
  pose proof (fun i => graft_live s (l1 ++ x :: l2) (s_cls (sob h x)) x h i) as Lv.
  set (h1 := graft s (l1 ++ x :: l2) (s_cls (sob h x)) x h) in *.
  assert (Sub : forall p y, In y (s_subset (sob h1 p)) -> (p = s /\ y = x) \/ In y (s_subset (sob h p))).
  { intros p y Hy. destruct (V p) as (_ & Vp & _). rewrite Vp in Hy.
    destruct (decide (p = s)) as [->|Hp]; [|auto].
    rewrite Hsub. rewrite in_app_iff in *. simpl in Hy. intuition. }
  constructor.
  - intros p y Hp Hy. rewrite (subset_class_ext _ _ _ Hc). destruct (Sub p y Hy) as [[-> ->]|Hy'].
    + destruct (V x) as (-> & _). destruct (decide (x = x)); [|contradiction].
      destruct (core_cls _ _ x Co Lx) as (-> & _). destruct (core_cls _ _ s Co Ls) as (-> & _).
      split; [apply Lv; auto|auto].
    + destruct (t_down _ _ _ T p y Hp Hy') as (A & B & C).
      destruct (t_up _ _ _ T y p B) as [Lp _].
      destruct (core_cls _ _ y Co A) as (-> & _). destruct (core_cls _ _ p Co Lp) as (-> & _).
      destruct (V y) as (-> & _). destruct (decide (y = x)); [congruence|].
      split; [apply Lv; auto|auto].
  - intros y p Hy. destruct (V y) as (Vy & _). rewrite Vy in Hy. destruct (V p) as (_ & -> & _).
    destruct (decide (y = x)) as [->|].
    + injection Hy as <-. destruct (decide (s = s)); [|contradiction]. split; [apply Lv; auto|].
      intros _. apply in_app_iff. simpl; auto.
    + destruct (t_up _ _ _ T y p Hy) as [A B]. split; [apply Lv; auto|].
      intros Hp. specialize (B Hp). destruct (decide (p = s)) as [->|]; [|auto].
      rewrite Hsub in B. rewrite in_app_iff in *. simpl. tauto.
  - intros p Hp. destruct (V p) as (_ & -> & _). pose proof (t_nodup _ _ _ T p Hp) as Nd.
    destruct (decide (p = s)) as [->|]; [|auto].
    rewrite <- Permutation_middle. apply NoDup_cons. rewrite elem_of_list_In. rewrite <- Hsub. auto.
  - intros p c Hp. destruct (V p) as (_ & _ & Vp). rewrite Vp in Hp. rewrite (subset_class_ext _ _ _ Hc).
    destruct (decide (p = s)) as [->|].
    + injection Hp as <-. destruct (core_cls _ _ s Co Ls) as (-> & _). auto.
    + destruct (decide (live h p)) as [A|A].
      * destruct (core_cls _ _ p Co A) as (-> & _). apply (tr_ec _ _ _ T); auto.
      * rewrite (sob_dead h p A) in Hp. discriminate.
  - intros p a b Hp Ha Hb E.
    assert (La : live h a).
    { apply Sub in Ha. destruct Ha as [[-> ->]|Ha]; [auto|]. apply (t_down _ _ _ T p a Hp Ha). }
    assert (Lb : live h b).
    { apply Sub in Hb. destruct Hb as [[-> ->]|Hb]; [auto|]. apply (t_down _ _ _ T p b Hp Hb). }
    assert (E' : same_value h a b).
    { rewrite same_value_ext in E; [exact E| |]; apply (core_cls _ _ _ Co); auto. }
    apply Sub in Ha, Hb. destruct Ha as [[-> ->]|Ha], Hb as [[Hb1 Hb2]|Hb]; subst; auto.
    + symmetry. apply Tw; auto. apply praatio_iff. apply praatio_iff in E'. auto.
    + apply (t_twin _ _ _ T p); auto.
  - intros y Hy. destruct (decide (live h y)) as [A|A].
    + destruct (core_cls _ _ y Co A) as (_ & E & _). rewrite E in Hy.
      destruct (t_hash _ _ _ T y Hy) as [E1 E2]. destruct (V y) as (-> & -> & _).
      destruct (decide (y = x)); [congruence|]. destruct (decide (y = s)); [congruence|]. auto.
    + destruct (V y) as (-> & -> & _). destruct (decide (y = x)), (decide (y = s)); subst; try contradiction.
      rewrite (sob_dead h y A). auto.
  - intros y Hy Hl. apply Lv in Hy. destruct (core_cls _ _ y Co Hy) as (-> & E & _).
    rewrite E in Hl. apply (t_cls _ _ _ T); auto.
Qed.

Lemma inv_graft K ex h s l1 x l2 h' : inv K ex h -> ~ ex s -> may_adopt h K s x ->
  s_super (sob h x) = None -> twinless h (s_subset (sob h s)) x ->
  s_subset (sob h s) = (l1 ++ l2)%list ->
  settles (graft s (l1 ++ x :: l2) (s_cls (sob h x)) x h) (l1 ++ x :: l2) h' -> inv K ex h'.
Proof.
  intros I Hs MA Sx Tw Hsub S. pose proof (may_adopt_ne _ _ _ _ _ I MA) as Hne.
  pose proof (tree_graft _ _ _ _ _ _ _ I Hs MA Sx Tw Hsub) as T1.
  destruct MA as (Ls & Lx & Lbs & Lbx & Cx).
  eapply inv_settle; [|exact T1|exact S|].
  - eapply chains_ext; [|apply (i_chains _ _ _ I)]. reflexivity.
  - intros p Hp. destruct (graft_view s (l1 ++ x :: l2) (s_cls (sob h x)) x h p Lx Ls Hne) as (_ & -> & _).
    destruct (decide (p = s)) as [->|Hps]; [left; reflexivity|right].
    split.
    + intros Hl. unfold graft. apply chained_upd; auto.
      * rewrite (sob_upd_field s_label); auto.
      * apply chained_upd; auto. apply (i_links _ _ _ I); auto.
    + intros y Hy Hy'. destruct (t_down _ _ _ (i_tree _ _ _ I) p y Hp Hy') as (_ & B & _).
      assert (y = x \/ In y (s_subset (sob h s))) as [->|Hy2].
      { rewrite Hsub. rewrite in_app_iff in *. simpl in Hy. intuition. }
      * congruence.
      * destruct (t_down _ _ _ (i_tree _ _ _ I) s y Hs Hy2) as (_ & C & _). congruence.
Qed.

(** Relinking after the list of [s] has been extended. *)
Lemma relink_graft K ex h s l1 x l2 : inv K ex h -> ~ ex s -> may_adopt h K s x ->
  s_super (sob h x) = None -> twinless h (s_subset (sob h s)) x ->
  s_subset (sob h s) = (l1 ++ l2)%list -> forall f, inert f \/ f = set_s_super (Some s) ->
  exists h', set_subset_precedence s (upd_seq s (put_list (l1 ++ x :: l2) (s_cls (sob h x))) (upd_seq x f h)) = Ok tt h' /\
    settles (upd_seq s (put_list (l1 ++ x :: l2) (s_cls (sob h x))) (upd_seq x f h)) (l1 ++ x :: l2) h'.
Proof.
  intros I Hs MA Sx Tw Hsub f Hf. pose proof (may_adopt_ne _ _ _ _ _ I MA) as Hne.
  destruct MA as (Ls & Lx & Lbs & Lbx & Cx).
  set (h1 := upd_seq s (put_list (l1 ++ x :: l2) (s_cls (sob h x))) (upd_seq x f h)).
  assert (V : s_subset (sob h1 s) = (l1 ++ x :: l2)%list).
  { unfold h1. rewrite sob_upd_eq by (apply live_upd; auto). reflexivity. }
  destruct (relink_ok s (s_cls (sob h x)) h1) as (h' & E & S).
  - rewrite V, <- Permutation_middle. apply NoDup_cons. rewrite elem_of_list_In, <- Hsub.
    split; [|apply (t_nodup _ _ _ (i_tree _ _ _ I)); auto].
    intros Hx. destruct (t_down _ _ _ (i_tree _ _ _ I) s x Hs Hx) as (_ & A & _). congruence.
  - rewrite V. intros y Hy.
    assert (live h y /\ s_cls (sob h y) = s_cls (sob h x) /\ s_label (sob h y) <> "#"%string) as (A & B & C).
    { assert (y = x \/ In y (s_subset (sob h s))) as [->|Hy2].
      { rewrite Hsub. rewrite in_app_iff in *. simpl in Hy. intuition. }
      - auto.
      - apply (family_class _ _ _ _ _ I Hs Cx); auto. }
    assert (F1 : forall o, s_cls (f o) = s_cls o) by (destruct Hf as [Hf| ->]; [intros; apply Hf|reflexivity]).
    assert (F2 : forall o, s_label (f o) = s_label o) by (destruct Hf as [Hf| ->]; [intros; apply Hf|reflexivity]).
    split; [unfold h1; rewrite !live_upd; auto|].
    unfold h1. rewrite !(sob_upd_field s_cls), !(sob_upd_field s_label) by auto. auto.
  - rewrite V in S. eauto.
Qed.

(** [s.append_subset_list(x)] after [x] has been detached. *)
Definition append_tail (n : nat) (s x : oid) : M unit :=
  so <- get_seq s ;;
  v <- sl_append (subset_slv so) x false ;;
  store_subset s v ;;;
  set_subset_precedence s ;;;
  xo <- get_seq x ;;
  if bool_decide (s_super xo = Some s) then ret tt else adopt n (SupI x s).

Lemma adopt_AppL n s x h : adopt (S n) (AppL s x) h =
  (sc <- gets (fun h => subset_class h (s_cls (sob h s))) ;;
   ok <- isinstance_m x sc ;;
   isin <- gets (fun h => sl_contains h (s_subset (sob h s)) x) ;;
   if (ok : bool) then
     if (isin : bool) then ret tt
     else
       tr <- gets (fun h => seq_truthy h (s_super (sob h x))) ;;
       when tr (remove_superset x) ;;;
       append_tail n s x
   else raise PyException) h.
Proof. reflexivity. Qed.
Lemma adopt_SupI n s x h : adopt (S n) (SupI x s) h =
  (sc <- gets (fun h => superset_class h (s_cls (sob h x))) ;;
   ok <- isinstance_m s sc ;;
   xo <- get_seq x ;;
   if ok && negb (bool_decide (s_super xo = Some s)) then
     mod_seq x (set_s_super (Some s)) ;;;
     adopt n (AppL s x)
   else raise PyException) h.
Proof. reflexivity. Qed.

Lemma superset_of K ex h s x : inv K ex h -> may_adopt h K s x ->
  superset_class h (s_cls (sob h x)) = Some (s_cls (sob h s)).
Proof.
  intros I (A & B & C & D & E). destruct (i_chains _ _ _ I) as (_ & _ & _ & Ag & _).
  apply Ag; auto; apply (t_cls _ _ _ (i_tree _ _ _ I)); auto.
Qed.
Lemma may_adopt_links K h h' s x : links_only h h' -> may_adopt h K s x -> may_adopt h' K s x.
Proof.
  intros L (A & B & C & D & E). pose proof (links_core _ _ L) as Co.
  destruct (core_cls _ _ s Co A) as (E1 & E2 & _). destruct (core_cls _ _ x Co B) as (E3 & E4 & _).
  unfold may_adopt. rewrite E1, E2, E3, E4, (subset_class_ext h h') by apply L.
  repeat split; auto; eapply links_only_live; eauto.
Qed.

Lemma append_orphan K ex h s x n : inv K ex h -> ~ ex s -> may_adopt h K s x ->
  s_super (sob h x) = None -> twinless h (s_subset (sob h s)) x -> (2 <= n)%nat ->
  (exists l1 l2 h', s_subset (sob h s) = (l1 ++ l2)%list /\ append_tail n s x h = Ok tt h' /\
     sl_append (subset_slv (sob h s)) x false h = Ok (Slv (l1 ++ x :: l2) (Some (s_cls (sob h x)))) h /\
     settles (graft s (l1 ++ x :: l2) (s_cls (sob h x)) x h) (l1 ++ x :: l2) h' /\ inv K ex h') \/
  (append_tail n s x h = Raise TypeError h /\ sl_append (subset_slv (sob h s)) x false h = Raise TypeError h /\
   s_subset (sob h s) <> []).
Proof.
  intros I Hs MA Sx Tw Hn. pose proof (may_adopt_ne _ _ _ _ _ I MA) as Hne.
  pose proof MA as (Ls & Lx & Lbs & Lbx & Cx).
  assert (Nx : ~ In x (s_subset (sob h s))).
  { intros Hx. destruct (t_down _ _ _ (i_tree _ _ _ I) s x Hs Hx) as (_ & A & _). congruence. }
  assert (Kx : K (s_cls (sob h x))) by (apply (t_cls _ _ _ (i_tree _ _ _ I)); auto).
  destruct (sl_append_gen h (subset_slv (sob h s)) x (s_cls (sob h x))) as [(l1 & l2 & Hsub & E)|[E Hne2]].
  - simpl. destruct (s_subec (sob h s)) as [e|] eqn:Ee; [left|right; auto].
    pose proof (tr_ec _ _ _ (i_tree _ _ _ I) s e Ee). congruence.
  - auto.
  - apply (i_chains _ _ _ I); auto.
  - simpl. apply twinless_not_listed; auto.
  - left. simpl in Hsub.
    destruct (relink_graft K ex h s l1 x l2 I Hs MA Sx Tw Hsub (fun o => o)) as (h1 & E1 & S1).
    { left. intros o; repeat split. }
    rewrite upd_seq_id in E1, S1.
    set (h0 := upd_seq s (put_list (l1 ++ x :: l2) (s_cls (sob h x))) h) in *.
    assert (Sx0 : sob h0 x = sob h x) by (apply sob_upd_ne; auto).
    assert (Lx0 : live h0 x) by (apply live_upd; auto).
    assert (Sx1 : erase (sob h1 x) = erase (sob h x)).
    { rewrite (settles_erase _ _ _ x S1 Lx0), Sx0. reflexivity. }
    destruct (erase_fields _ _ Sx1) as (F1 & _ & _ & F2 & F3 & _).
    assert (MA1 : may_adopt h1 K s x).
    { eapply may_adopt_links; [apply S1|]. unfold may_adopt. rewrite Sx0. unfold h0.
      rewrite !live_upd, (subset_class_ext h) by reflexivity. rewrite sob_upd_eq by auto. simpl. auto. }
    exists l1, l2, (upd_seq x (set_s_super (Some s)) h1). split; [exact Hsub|].
    assert (S2 : settles (graft s (l1 ++ x :: l2) (s_cls (sob h x)) x h) (l1 ++ x :: l2)
                         (upd_seq x (set_s_super (Some s)) h1)).
    { unfold graft. fold h0. apply settles_upd; auto. rewrite Sx0. auto. }
    split; [|split; [exact E|split; [exact S2|]]].
    + unfold append_tail. mstep. rewrite (bind_ok _ _ _ _ _ E). unfold store_subset. mstep.
      change (upd_seq s _ h) with h0. rewrite (bind_ok _ _ _ _ _ E1). mstep. rewrite F3, Sx.
      rewrite bool_decide_eq_false_2 by discriminate.
      destruct n as [|[|n]]; [lia|lia|]. rewrite adopt_SupI. mstep.
      rewrite F1. rewrite (superset_class_ext h h1) by apply S1. rewrite (superset_of _ _ _ _ _ I MA).
      unfold isinstance_m. mstep. mstep.
      destruct (core_cls _ _ s (links_core _ _ (proj1 S1))) as (G1 & _); [apply live_upd; auto|].
      rewrite G1. unfold h0 at 1. rewrite sob_upd_eq by auto. cbn [s_cls put_list set_s_subec set_s_subset].
      rewrite issubclass_refl, F3, Sx. rewrite bool_decide_eq_false_2 by discriminate. cbn [negb andb].
      mstep. rewrite adopt_AppL. mstep.
      set (h2 := upd_seq x (set_s_super (Some s)) h1) in *.
      assert (H2s : s_cls (sob h2 s) = s_cls (sob h s)).
      { unfold h2. rewrite (sob_upd_field s_cls) by auto. rewrite G1. unfold h0. rewrite sob_upd_eq by auto. reflexivity. }
      assert (H2x : s_cls (sob h2 x) = s_cls (sob h x)).
      { unfold h2. rewrite (sob_upd_field s_cls) by auto. auto. }
      rewrite H2s, (subset_class_ext h h2), Cx by apply S2. unfold isinstance_m. mstep. mstep.
      rewrite H2x, issubclass_refl.
      assert (H2l : s_subset (sob h2 s) = (l1 ++ x :: l2)%list).
      { unfold h2. rewrite sob_upd_ne by auto.
        destruct (erase_fields _ _ (settles_erase _ _ _ s S1 ltac:(apply live_upd; auto))) as (_ & _ & _ & _ & _ & -> & _).
        unfold h0. rewrite sob_upd_eq by auto. reflexivity. }
      rewrite H2l, contains_in by (apply in_app_iff; simpl; auto). reflexivity.
    + eapply inv_graft; eauto.
  - right. split; [|split; [exact E|exact Hne2]].
    unfold append_tail. mstep. rewrite (bind_raise _ _ _ _ _ E). reflexivity.
Qed.

(** ** Effects in terms of the attributes *)
Definition nowhere : oid -> Prop := fun _ => False.
Definition moved (x : oid) (dst : option oid) (h h' : heap) : Prop :=
  core_same h h' /\ s_super (sob h' x) = dst /\
  (forall y, y <> x -> s_super (sob h' y) = s_super (sob h y)) /\
  (forall q, dst <> Some q -> keep_if (fun y => y <> x) (s_subset (sob h q)) (s_subset (sob h' q))).

Lemma settles_view h1 l h' i : settles h1 l h' ->
  s_super (sob h' i) = s_super (sob h1 i) /\ s_subset (sob h' i) = s_subset (sob h1 i).
Proof.
  intros (L & _). destruct (links_view _ _ L i) as [[A B]|[(A & B & C)|(A & B & C)]].
  - destruct (erase_fields _ _ B) as (_ & _ & _ & _ & -> & -> & _). auto.
  - destruct (boundary_obj_fields _ C) as (_ & _ & _ & -> & -> & _). rewrite (sob_dead h1 i A). auto.
  - rewrite C. auto.
Qed.
Lemma core_settles h h1 l h' : core_same h h1 -> (forall i, live h1 i <-> live h i) -> settles h1 l h' ->
  core_same h h'.
Proof.
  intros C Lv (L & _). eapply core_same_trans; [exact C|apply links_core; exact L|].
  intros i A _ B. exfalso. apply B, Lv, A.
Qed.
Lemma keep_if_all {A} (P : A -> Prop) l : (forall x, In x l -> P x) -> keep_if P l l.
Proof. intros A0. induction l; [constructor|]. constructor; [apply A0; simpl; auto|apply IHl; intros; apply A0; simpl; auto]. Qed.
Lemma keep_if_app {A} (P : A -> Prop) a b c d : keep_if P a c -> keep_if P b d -> keep_if P (a ++ b) (c ++ d).
Proof. intros K1 K2. induction K1; simpl; [auto|constructor; auto|constructor; auto]. Qed.

Lemma cut_moved K h s l1 x l2 h' : inv K nowhere h -> s_subset (sob h s) = (l1 ++ x :: l2)%list ->
  settles (cut s (l1 ++ l2) x h) (l1 ++ l2) h' ->
  moved x None h h' /\ s_subset (sob h' s) = (l1 ++ l2)%list.
Proof.
  intros I Hsub S. assert (Hs : ~ nowhere s) by (intros []).
  assert (Hx : In x (s_subset (sob h s))) by (rewrite Hsub; apply in_app_iff; simpl; auto).
  destruct (family _ _ _ _ _ I Hs Hx) as (Ls & Lx & Hne & Sx & _).
  pose proof (t_nodup _ _ _ (i_tree _ _ _ I) s Hs) as Nd. rewrite Hsub in Nd.
  destruct (NoDup_mid _ _ _ Nd) as (N1 & N2 & N3 & N4).
  assert (V : forall i, s_super (sob h' i) = (if decide (i = x) then None else s_super (sob h i)) /\
     s_subset (sob h' i) = (if decide (i = s) then (l1 ++ l2)%list else s_subset (sob h i))).
  { intros i. destruct (settles_view _ _ _ i S) as [-> ->].
    destruct (cut_view s (l1 ++ l2) x h i Lx Ls Hne) as (-> & -> & _). auto. }
  split; [split; [|split; [|split]]|].
  - eapply core_settles; [apply cut_core|apply cut_live|exact S].
  - destruct (V x) as [-> _]. destruct (decide (x = x)); [auto|contradiction].
  - intros y Hy. destruct (V y) as [-> _]. destruct (decide (y = x)); [contradiction|auto].
  - intros q _. destruct (V q) as [_ ->]. destruct (decide (q = s)) as [->|Hq].
    + rewrite Hsub. apply keep_if_app; [apply keep_if_all; intros y Hy ->; auto|].
      apply keep_no; [auto|]. apply keep_if_all. intros y Hy ->. auto.
    + apply keep_if_all. intros y Hy ->.
      destruct (t_down _ _ _ (i_tree _ _ _ I) q x) as (_ & B & _); [intros []|auto|]. congruence.
  - destruct (V s) as [_ ->]. destruct (decide (s = s)); [auto|contradiction].
Qed.
Lemma graft_moved K h s l1 x l2 h' : inv K nowhere h -> may_adopt h K s x ->
  s_super (sob h x) = None -> s_subset (sob h s) = (l1 ++ l2)%list ->
  settles (graft s (l1 ++ x :: l2) (s_cls (sob h x)) x h) (l1 ++ x :: l2) h' ->
  moved x (Some s) h h' /\ s_subset (sob h' s) = (l1 ++ x :: l2)%list.
Proof.
  intros I MA Sx Hsub S. pose proof (may_adopt_ne _ _ _ _ _ I MA) as Hne.
  destruct MA as (Ls & Lx & Lbs & Lbx & Cx).
  assert (V : forall i, s_super (sob h' i) = (if decide (i = x) then Some s else s_super (sob h i)) /\
     s_subset (sob h' i) = (if decide (i = s) then (l1 ++ x :: l2)%list else s_subset (sob h i))).
  { intros i. destruct (settles_view _ _ _ i S) as [-> ->].
    destruct (graft_view s (l1 ++ x :: l2) (s_cls (sob h x)) x h i Lx Ls Hne) as (-> & -> & _). auto. }
  split; [split; [|split; [|split]]|].
  - eapply core_settles; [apply graft_core|apply graft_live|exact S].
  - destruct (V x) as [-> _]. destruct (decide (x = x)); [auto|contradiction].
  - intros y Hy. destruct (V y) as [-> _]. destruct (decide (y = x)); [contradiction|auto].
  - intros q Hq. destruct (V q) as [_ ->]. destruct (decide (q = s)) as [->|Hq']; [congruence|].
    apply keep_if_all. intros y Hy ->.
    destruct (t_down _ _ _ (i_tree _ _ _ I) q x) as (_ & B & _); [intros []|auto|]. congruence.
  - destruct (V s) as [_ ->]. destruct (decide (s = s)); [auto|contradiction].
Qed.
Lemma keep_if_trans {A} (P Q : A -> Prop) a b c : keep_if P a b -> keep_if Q b c ->
  (forall x, In x a -> P x -> Q x) -> c = b.
Proof.
  intros K1. revert c. induction K1 as [|x l k Px K1 IH|x l k Px K1 IH]; intros c K2 Hpq.
  - inversion K2. auto.
  - inversion K2; subst.
    + f_equal. apply IH; auto. intros; apply Hpq; simpl; auto.
    + exfalso. match goal with Hq : ~ Q x |- _ => apply Hq end. apply Hpq; simpl; auto.
  - apply IH; auto. intros; apply Hpq; simpl; auto.
Qed.
Lemma boundary_super h h' i : core_same h h' -> ~ live h i -> live h' i -> boundary_obj (sob h' i).
Proof. intros (_ & _ & _ & D) A B. auto. Qed.
Lemma moved_moved x dst h h1 h' : moved x None h h1 -> moved x dst h1 h' ->
  (forall i, live h1 i -> boundary_obj (sob h1 i) -> ~ live h i -> boundary_obj (sob h' i)) ->
  moved x dst h h'.
Proof.
  intros (A1 & A2 & A3 & A4) (B1 & B2 & B3 & B4) K.
  split; [eapply core_same_trans; eauto|]. split; [auto|]. split.
  - intros y Hy. rewrite B3, A3; auto.
  - intros q Hq. pose proof (A4 q ltac:(discriminate)) as C1. pose proof (B4 q Hq) as C2.
    rewrite (keep_if_trans _ _ _ _ _ C1 C2); auto.
Qed.

(** Boundaries stay boundaries under settling updates of non-boundaries. *)
Lemma settles_boundary h1 l h' i : settles h1 l h' -> live h1 i -> boundary_obj (sob h1 i) -> boundary_obj (sob h' i).
Proof.
  intros S Li [c B]. exists c. rewrite (settles_erase _ _ _ i S Li). auto.
Qed.

(** [x] without its parent. *)
Lemma detach K h x : inv K nowhere h -> live h x ->
  exists h1, remove_superset x h = Ok tt h1 /\ inv K nowhere h1 /\ moved x None h h1 /\
    (s_super (sob h x) = None -> h1 = h).
Proof.
  intros I Lx. destruct (s_super (sob h x)) as [q|] eqn:Sx.
  - destruct (inv_remove _ _ _ q x I) as (l1 & l2 & h1 & Hsub & E & S & I1); [intros []|auto|].
    exists h1. split; [exact E|]. split; [exact I1|]. split; [|discriminate].
    eapply cut_moved; eauto.
  - exists h. split; [unfold remove_superset; rewrite Sx; reflexivity|]. split; [auto|].
    split; [|auto]. split; [apply core_same_refl|]. split; [auto|]. split; [auto|].
    intros q _. apply keep_if_all. intros y Hy ->.
    destruct (t_down _ _ _ (i_tree _ _ _ I) q x) as (_ & B & _); [intros []|auto|]. congruence.
Qed.

Lemma twinless_core h h' l x : core_same h h' -> (forall y, In y l -> live h y) -> live h x ->
  twinless h l x -> twinless h' l x.
Proof.
  intros Co Ll Lx T y Hy E. apply T; auto.
  rewrite same_value_ext in E; [exact E| |]; apply (core_cls _ _ _ Co); auto.
Qed.
Lemma may_adopt_core K h h' s x : core_same h h' -> may_adopt h K s x -> may_adopt h' K s x.
Proof.
  intros Co (A & B & C & D & E).
  destruct (core_cls _ _ s Co A) as (E1 & E2 & _). destruct (core_cls _ _ x Co B) as (E3 & E4 & _).
  unfold may_adopt. rewrite E1, E2, E3, E4, (subset_class_ext h h') by apply Co.
  repeat split; auto; eapply core_same_live; eauto.
Qed.
Lemma keep_if_in {A} (P : A -> Prop) a b x : keep_if P a b -> In x b <-> In x a /\ P x.
Proof.
  intros K1. induction K1 as [|y l k Py K1 IH|y l k Py K1 IH]; simpl.
  - tauto.
  - rewrite IH. split; [intros [->|[]]; auto|intros [[->|] ?]; auto].
  - rewrite IH. split; [tauto|intros [[->|] ?]; tauto].
Qed.

(** ** append_subset_list *)
Lemma append_ok K h s x : inv K nowhere h -> may_adopt h K s x -> twinless h (s_subset (sob h s)) x ->
  s_super (sob h x) <> Some s ->
  exists h1, inv K nowhere h1 /\ moved x None h h1 /\ (s_super (sob h x) = None -> h1 = h) /\
   s_subset (sob h1 s) = s_subset (sob h s) /\ s_subec (sob h1 s) = s_subec (sob h s) /\
   ((exists l1 l2 h', s_subset (sob h s) = (l1 ++ l2)%list /\ append_subset_list s x h = Ok tt h' /\
      sl_append (subset_slv (sob h s)) x false h1 = Ok (Slv (l1 ++ x :: l2) (Some (s_cls (sob h x)))) h1 /\
      moved x (Some s) h h' /\ s_subset (sob h' s) = (l1 ++ x :: l2)%list /\ inv K nowhere h') \/
    (append_subset_list s x h = Raise TypeError h1 /\
     sl_append (subset_slv (sob h s)) x false h1 = Raise TypeError h1)).
Proof.
  intros I MA Tw Hns. assert (Hs : ~ nowhere s) by (intros []).
  pose proof MA as (Ls & Lx & Lbs & Lbx & Cx).
  assert (Nx : ~ In x (s_subset (sob h s))).
  { intros Hx. destruct (t_down _ _ _ (i_tree _ _ _ I) s x Hs Hx) as (_ & A & _). congruence. }
  assert (D : exists h1, when (seq_truthy h (s_super (sob h x))) (remove_superset x) h = Ok tt h1 /\
     inv K nowhere h1 /\ moved x None h h1 /\ (s_super (sob h x) = None -> h1 = h) /\
     s_subec (sob h1 s) = s_subec (sob h s)).
  { destruct (s_super (sob h x)) as [q|] eqn:Sx.
    - destruct (t_up _ _ _ (i_tree _ _ _ I) x q Sx) as [Lq Hq]. specialize (Hq ltac:(intros [])).
      assert (Tr : seq_truthy h (Some q) = true).
      { unfold seq_truthy. apply Nat.ltb_lt. destruct (s_subset (sob h q)); [destruct Hq|simpl; lia]. }
      rewrite Tr. unfold when.
      destruct (inv_remove _ _ _ q x I) as (l1 & l2 & h1 & Hsub & E & S & I1); [intros []|auto|].
      exists h1. split; [exact E|]. split; [exact I1|]. split; [eapply cut_moved; eauto|].
      split; [discriminate|].
      destruct (erase_fields _ _ (settles_erase _ _ _ s S ltac:(apply cut_live; auto))) as (_ & _ & _ & _ & _ & _ & -> & _).
      assert (x <> q) by (intros ->; destruct (family _ _ _ _ _ I (fun z => z) Hq) as (_ & _ & ? & _); auto).
      destruct (cut_view q (l1 ++ l2) x h s Lx Lq ltac:(auto)) as (_ & _ & ->). auto.
    - unfold seq_truthy, when. exists h. split; [reflexivity|]. split; [auto|]. split; [|auto].
      split; [apply core_same_refl|]. split; [auto|]. split; [auto|].
      intros q _. apply keep_if_all. intros y Hy ->.
      destruct (t_down _ _ _ (i_tree _ _ _ I) q x) as (_ & B & _); [intros []|auto|]. congruence. }
  destruct D as (h1 & E1 & I1 & M1 & M2 & M3). pose proof M1 as (Co & Sx1 & Su1 & Sub1).
  assert (Ss1 : s_subset (sob h1 s) = s_subset (sob h s)).
  { eapply keep_if_fun; [apply (Sub1 s); discriminate|]. apply keep_if_all. intros y Hy ->. auto. }
  assert (MA1 : may_adopt h1 K s x) by (eapply may_adopt_core; eauto).
  assert (Tw1 : twinless h1 (s_subset (sob h1 s)) x).
  { rewrite Ss1. eapply twinless_core; eauto. intros y Hy. apply (t_down _ _ _ (i_tree _ _ _ I) s y Hs Hy). }
  exists h1. split; [auto|]. split; [auto|]. split; [auto|]. split; [auto|]. split; [auto|].
  assert (Ec : s_cls (sob h1 x) = s_cls (sob h x)) by (apply (core_cls _ _ x Co); auto).
  assert (Esl : subset_slv (sob h1 s) = subset_slv (sob h s)).
  { unfold subset_slv. rewrite Ss1, M3. auto. }
  assert (Head : append_subset_list s x h = append_tail 5 s x h1).
  { unfold append_subset_list. rewrite adopt_AppL. mstep. rewrite Cx. unfold isinstance_m. mstep. mstep.
    rewrite issubclass_refl, twinless_not_listed by auto. mstep. rewrite (bind_ok _ _ _ _ _ E1). reflexivity. }
  rewrite Head.
  destruct (append_orphan K nowhere h1 s x 5 I1 Hs MA1 Sx1 Tw1 ltac:(lia)) as [(l1 & l2 & h' & A & B & C & S & I')|(A & B & C)].
  - left. exists l1, l2, h'. rewrite Ss1 in A. rewrite Esl, Ec in C. split; [auto|]. split; [auto|]. split; [auto|].
    destruct (graft_moved _ _ _ _ _ _ _ I1 MA1 Sx1 ltac:(rewrite Ss1; exact A) S) as [G1 G2].
    split; [|auto]. eapply moved_moved; eauto.
    intros i Li Bi Ni. eapply settles_boundary; [exact S|apply graft_live; auto|].
    assert (Hi : i <> x /\ i <> s) by (split; intros ->; auto).
    unfold graft. rewrite !sob_upd_ne by tauto. auto.
  - right. rewrite Esl in B. auto.
Qed.

Lemma append_child K h s x : inv K nowhere h -> In x (s_subset (sob h s)) ->
  append_subset_list s x h = Ok tt h.
Proof.
  intros I Hx. destruct (family _ _ _ _ _ I (fun z => z) Hx) as (Ls & Lx & Hne & Sx & Cx & _).
  unfold append_subset_list. rewrite adopt_AppL. mstep. rewrite Cx. unfold isinstance_m. mstep. mstep.
  rewrite issubclass_refl, contains_in by auto. reflexivity.
Qed.
Lemma append_wrong h s x c : subset_class h (s_cls (sob h s)) = Some c ->
  issubclass h (s_cls (sob h x)) c = false -> append_subset_list s x h = Raise PyException h.
Proof.
  intros A B. unfold append_subset_list. rewrite adopt_AppL. mstep. rewrite A. unfold isinstance_m.
  mstep. mstep. rewrite B. reflexivity.
Qed.
Lemma append_none h s x : subset_class h (s_cls (sob h s)) = None ->
  append_subset_list s x h = Raise TypeError h.
Proof.
  intros A. unfold append_subset_list. rewrite adopt_AppL. mstep. rewrite A. reflexivity.
Qed.

(** ** set_super_instance *)
Lemma super_same h x s : s_super (sob h x) = Some s ->
  set_super_instance x s h = Raise PyException h \/ set_super_instance x s h = Raise TypeError h.
Proof.
  intros A. unfold set_super_instance. rewrite adopt_SupI. mstep.
  destruct (superset_class _ _) as [c|]; [|right; reflexivity]. left.
  unfold isinstance_m. mstep. mstep. rewrite A, bool_decide_eq_true_2 by auto. cbn [negb].
  rewrite andb_false_r. reflexivity.
Qed.
Lemma super_wrong h s x c : superset_class h (s_cls (sob h x)) = Some c ->
  issubclass h (s_cls (sob h s)) c = false -> set_super_instance x s h = Raise PyException h.
Proof.
  intros A B. unfold set_super_instance. rewrite adopt_SupI. mstep. rewrite A. unfold isinstance_m.
  mstep. mstep. rewrite B. reflexivity.
Qed.
Lemma super_none h s x : superset_class h (s_cls (sob h x)) = None ->
  set_super_instance x s h = Raise TypeError h.
Proof.
  intros A. unfold set_super_instance. rewrite adopt_SupI. mstep. rewrite A. reflexivity.
Qed.

Lemma super_ok K h s x : inv K nowhere h -> may_adopt h K s x -> twinless h (s_subset (sob h s)) x ->
  s_super (sob h x) = None ->
  exists h1, inv K nowhere h1 /\ moved x None h h1 /\
   ((exists l1 l2 h', s_subset (sob h s) = (l1 ++ l2)%list /\ set_super_instance x s h = Ok tt h' /\
      sl_append (subset_slv (sob h s)) x false h1 = Ok (Slv (l1 ++ x :: l2) (Some (s_cls (sob h x)))) h1 /\
      moved x (Some s) h h' /\ s_subset (sob h' s) = (l1 ++ x :: l2)%list /\ inv K nowhere h') \/
    (set_super_instance x s h = Raise TypeError h1 /\
     sl_append (subset_slv (sob h s)) x false h1 = Raise TypeError h1)).
Proof.
  intros I MA Tw Sx. assert (Hs : ~ nowhere s) by (intros []).
  pose proof (may_adopt_ne _ _ _ _ _ I MA) as Hne.
  pose proof MA as (Ls & Lx & Lbs & Lbx & Cx).
  assert (Nx : ~ In x (s_subset (sob h s))).
  { intros Hx. destruct (t_down _ _ _ (i_tree _ _ _ I) s x Hs Hx) as (_ & A & _). congruence. }
  set (h0 := upd_seq x (set_s_super (Some s)) h).
  assert (S0 : sob h0 s = sob h s) by (apply sob_upd_ne; auto).
  assert (X0 : s_super (sob h0 x) = Some s) by (unfold h0; rewrite sob_upd_eq by auto; reflexivity).
  assert (C0 : s_cls (sob h0 x) = s_cls (sob h x)) by (apply (sob_upd_field s_cls); auto).
  assert (P0 : forall i, praatio h0 i = praatio h i) by (intros i; apply praatio_upd; intros o; repeat split).
  assert (Head : set_super_instance x s h =
     bind (when (seq_truthy h0 (Some s)) (remove_superset x)) (fun _ => append_tail 4 s x) h0).
  { unfold set_super_instance. rewrite adopt_SupI. mstep. rewrite (superset_of _ _ _ _ _ I MA).
    unfold isinstance_m. mstep. mstep. rewrite issubclass_refl, Sx, bool_decide_eq_false_2 by discriminate.
    cbn [negb andb]. mstep. fold h0. rewrite adopt_AppL. mstep.
    rewrite S0, (subset_class_ext h h0), Cx by reflexivity. unfold isinstance_m. mstep. mstep.
    rewrite C0, issubclass_refl, S0, (contains_ext h h0), twinless_not_listed by auto. mstep.
    rewrite X0. reflexivity. }
  rewrite Head.
  set (h1 := upd_seq x (set_s_within None) h).
  assert (I1 : inv K nowhere h1) by (apply inv_inert; [intros o; repeat split|auto]).
  assert (Co1 : core_same h h1) by (apply upd_core; intros o; repeat split).
  assert (V1 : forall i, s_super (sob h1 i) = s_super (sob h i) /\ s_subset (sob h1 i) = s_subset (sob h i)).
  { intros i. split; [apply (sob_upd_field s_super)|apply (sob_upd_field s_subset)]; auto. }
  assert (M1 : moved x None h h1).
  { split; [auto|]. split; [destruct (V1 x) as [-> _]; auto|]. split; [intros y _; apply V1|].
    intros q _. destruct (V1 q) as [_ ->]. apply keep_if_all. intros y Hy ->.
    destruct (t_down _ _ _ (i_tree _ _ _ I) q x) as (_ & B & _); [intros []|auto|]. congruence. }
  assert (MA1 : may_adopt h1 K s x) by (eapply may_adopt_core; eauto).
  assert (Ss1 : sob h1 s = sob h s) by (apply sob_upd_ne; auto).
  assert (Tw1 : twinless h1 (s_subset (sob h1 s)) x).
  { rewrite Ss1. eapply twinless_core; eauto. intros y Hy. apply (t_down _ _ _ (i_tree _ _ _ I) s y Hs Hy). }
  assert (Ec : s_cls (sob h1 x) = s_cls (sob h x)) by (apply (core_cls _ _ x Co1); auto).
  assert (Sx1 : s_super (sob h1 x) = None) by (destruct (V1 x) as [-> _]; auto).
  exists h1. split; [auto|]. split; [auto|].
  destruct (s_subset (sob h s)) as [|z l] eqn:El.
  - (* no children yet: the parent is falsy, and nothing is removed *)
    left. unfold seq_truthy. rewrite S0, El. cbn [List.length Nat.ltb Nat.leb]. unfold when. mstep.
    destruct (relink_graft K nowhere h s [] x [] I Hs MA Sx ltac:(rewrite El; exact Tw) El (set_s_super (Some s))
                (or_intror eq_refl)) as (h' & E & S).
    fold h0 in E, S. simpl app in E, S.
    assert (Eg : upd_seq s (put_list [x] (s_cls (sob h x))) h0 = graft s [x] (s_cls (sob h x)) x h).
    { unfold graft, h0. apply upd_comm. auto. }
    rewrite Eg in S.
    assert (Ec0 : forall hh, h_cls hh = h_cls h -> s_cls (sob hh x) = s_cls (sob h x) -> sl_append (subset_slv (sob h s)) x false hh = Ok (Slv [x] (Some (s_cls (sob h x)))) hh).
    { intros hh Hcl Hcx. destruct (sl_append_gen hh (subset_slv (sob h s)) x (s_cls (sob h x))) as [(l1 & l2 & A & B)|[A B]].
      - simpl. destruct (s_subec (sob h s)) as [e|] eqn:Ee; [left|right; auto].
        pose proof (tr_ec _ _ _ (i_tree _ _ _ I) s e Ee). congruence.
      - auto.
      - assert (Kx : K (s_cls (sob h x))) by (apply (t_cls _ _ _ (i_tree _ _ _ I)); auto).
        pose proof (proj1 (i_chains _ _ _ I) _ Kx) as Sq. unfold seq_class, issubclass in *. rewrite Hcl. auto.
      - simpl. rewrite El. reflexivity.
      - simpl in A. rewrite El in A. symmetry in A. apply app_eq_nil in A. destruct A as [-> ->]. exact B.
      - simpl in B. congruence. }
    exists [], [], h'. split; [reflexivity|]. split.
    + unfold append_tail. mstep. rewrite S0. rewrite (bind_ok _ _ _ _ _ (Ec0 h0 eq_refl C0)).
      unfold store_subset. mstep. change (upd_seq s _ h0) with (upd_seq s (put_list [x] (s_cls (sob h x))) h0).
      rewrite (bind_ok _ _ _ _ _ E). mstep.
      destruct (settles_view _ _ _ x S) as [-> _].
      destruct (graft_view s [x] (s_cls (sob h x)) x h x Lx Ls Hne) as (-> & _).
      destruct (decide (x = x)); [|contradiction]. rewrite bool_decide_eq_true_2 by auto. reflexivity.
    + split; [apply Ec0; auto|].
      destruct (graft_moved K h s [] x [] h' I MA Sx El S) as [G1 G2].
      split; [auto|]. split; [auto|]. eapply (inv_graft K nowhere h s [] x []); eauto. rewrite El. auto.
  - assert (Tr : seq_truthy h0 (Some s) = true).
    { unfold seq_truthy. rewrite S0, El. reflexivity. }
    rewrite Tr. unfold when.
    assert (R : remove_superset x h0 = Ok tt h1).
    { unfold remove_superset. rewrite X0. rewrite (remove_superset_unlisted _ x s h0).
      - f_equal. unfold h0, h1, upd_seq; simpl. f_equal. rewrite <- list_alter_compose.
        apply alter_ext_at with (d := blank_seq 0%nat None None EmptyString). fold (sob h x). unfold compose, clear_super. destruct (sob h x); simpl in *; subst. reflexivity.
      - apply live_upd; auto.
      - auto.
      - rewrite S0, (contains_ext h h0), El by auto. apply twinless_not_listed; auto. }
    rewrite (bind_ok _ _ _ _ _ R). rewrite Ss1 in Tw1.
    destruct (append_orphan K nowhere h1 s x 4 I1 Hs MA1 Sx1) as [(l1 & l2 & h' & A & B & C & S & I')|(A & B & C)].
    { rewrite Ss1. auto. }
    { lia. }
    + left. exists l1, l2, h'. rewrite Ss1, El in A. rewrite Ss1, Ec in C. split; [auto|]. split; [auto|]. split; [auto|].
      destruct (graft_moved _ _ _ _ _ _ _ I1 MA1 Sx1 ltac:(rewrite Ss1, El; exact A) S) as [G1 G2].
      split; [|auto]. eapply moved_moved; eauto.
      intros i Li Bi Ni. eapply settles_boundary; [exact S|apply graft_live; auto|].
      assert (Hi : i <> x /\ i <> s) by (split; intros ->; auto).
      unfold graft. rewrite !sob_upd_ne by tauto. auto.
    + right. rewrite Ss1 in B. auto.
Qed.

End WithEnv.
