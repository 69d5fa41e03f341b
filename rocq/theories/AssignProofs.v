(** * AssignProofs: parent.subset_list = l. *)
From Verif Require Export AdoptProofs.
Open Scope Z_scope.

Section WithEnv.
Context `{Env} {lx : oid -> Prop}.
Local Notation inv := (inv_but lx).

Lemma all_same_inv h x l : all_same (classes_of h (x :: l)) = true -> same_class h (s_cls (sob h x)) (x :: l).
Proof.
  unfold all_same, classes_of; simpl. intros E y [->|Hy]; [auto|].
  rewrite forallb_forall in E. specialize (E (s_cls (sob h y))).
  symmetry. apply Nat.eqb_eq, E. apply in_map_iff. eauto.
Qed.
Lemma sl_sort_perm h l l' h' : sl_sort l h = Ok l' h' -> h' = h /\ Permutation l' l.
Proof.
  unfold sl_sort. destruct l as [|x l]; [intros [= <- <-]; auto|].
  destruct (le_adj _) as [[]|]; [intros [= <- <-]; auto| |discriminate].
  destruct (all_some _) as [st|] eqn:E; [|discriminate]. intros [= <- <-]. split; [auto|].
  apply pick_perm. pose proof (argsort_perm st) as P.
  rewrite (all_some_length _ _ E) in P. unfold starts_of in P. rewrite map_length in P. exact P.
Qed.
Lemma sl_init_ok h l v h' : sl_init l h = Ok v h' ->
  h' = h /\ Permutation (sv_vals v) l /\
  (exists c, same_class h c l /\ ((l <> [] /\ sv_ec v = Some c) \/ (l = [] /\ sv_ec v = None))).
Proof.
  unfold sl_init. destruct l as [|x l].
  - intros [= <- <-]. split; [auto|]. split; [auto|]. exists 0%nat. split; [intros y []|auto].
  - destruct (all_same _) eqn:Ea; [|discriminate].
    destruct (sl_sort (x :: l) h) as [l' h1|] eqn:Es; [|discriminate]. intros [= <- <-].
    destruct (sl_sort_perm _ _ _ _ Es) as [-> P]. split; [auto|]. split; [exact P|].
    exists (s_cls (sob h x)). split; [apply all_same_inv; auto|]. left. split; [discriminate|auto].
Qed.

(** ** Updates of the super attribute between "none" and [s] *)
Lemma inv_resuper K h s x f : inv K (eq s) h -> live h s -> live h x ->
  s_label (sob h x) <> "#"%string ->
  (s_super (sob h x) = None \/ s_super (sob h x) = Some s) ->
  (s_super (f (sob h x)) = None \/ s_super (f (sob h x)) = Some s) ->
  (forall o, s_cls (f o) = s_cls o /\ s_start (f o) = s_start o /\ s_end (f o) = s_end o /\ s_label (f o) = s_label o /\
     s_fol (f o) = s_fol o /\ s_prev (f o) = s_prev o /\ s_subset (f o) = s_subset o /\ s_subec (f o) = s_subec o) ->
  inv K (eq s) (upd_seq x f h).
Proof.
  intros [C T L] Ls Lx Lb Old New F.
  assert (G : forall j, (s_cls (sob (upd_seq x f h) j) = s_cls (sob h j) /\
     s_label (sob (upd_seq x f h) j) = s_label (sob h j) /\
     s_subset (sob (upd_seq x f h) j) = s_subset (sob h j) /\
     s_subec (sob (upd_seq x f h) j) = s_subec (sob h j)) /\
     s_fol (sob (upd_seq x f h) j) = s_fol (sob h j) /\ s_prev (sob (upd_seq x f h) j) = s_prev (sob h j)).
  { intros j. repeat split; apply sob_upd_field; intros o; apply F. }
  assert (P : forall j, praatio (upd_seq x f h) j = praatio h j).
  { intros j. apply praatio_upd. intros o. repeat split; apply F. }
  assert (Su : forall j, j <> x -> s_super (sob (upd_seq x f h) j) = s_super (sob h j)).
  { intros j Hj. rewrite sob_upd_ne; auto. }
  assert (Sx : s_super (sob (upd_seq x f h) x) = None \/ s_super (sob (upd_seq x f h) x) = Some s).
  { rewrite sob_upd_eq by auto. auto. }
  set (h1 := upd_seq x f h) in *.
  assert (Hc : h_cls h1 = h_cls h) by reflexivity.
  constructor.
  - eapply chains_ext; eauto.
  - constructor.
    + intros p y Hp. destruct (G p) as ((-> & _ & -> & _) & _). destruct (G y) as ((-> & _) & _).
      rewrite (subset_class_ext _ _ _ Hc). intros Hy.
      destruct (t_down _ _ _ T p y Hp Hy) as (A & B & D). split; [apply live_upd; auto|].
      rewrite Su; [auto|]. intros ->. destruct Old; congruence.
    + intros y p Hy. destruct (G p) as ((_ & _ & -> & _) & _).
      destruct (decide (y = x)) as [->|Hyx].
      * destruct Sx as [E|E]; [congruence|]. assert (p = s) as -> by congruence.
        split; [apply live_upd; auto|]. intros HH. exfalso. apply HH. reflexivity.
      * rewrite Su in Hy by auto. destruct (t_up _ _ _ T y p Hy). split; [apply live_upd; auto|auto].
    + intros p Hp. destruct (G p) as ((_ & _ & -> & _) & _). apply (t_nodup _ _ _ T); auto.
    + intros p c. destruct (G p) as ((-> & _ & _ & ->) & _). rewrite (subset_class_ext _ _ _ Hc).
      apply (tr_ec _ _ _ T).
    + intros p a b Hp. destruct (G p) as ((_ & _ & -> & _) & _). rewrite same_value_ext by auto.
      apply (t_twin _ _ _ T); auto.
    + intros y. destruct (G y) as ((_ & -> & -> & _) & _). intros Hy. rewrite Su; [apply (t_hash _ _ _ T); auto|].
      intros ->. auto.
    + intros y Hy. apply live_upd in Hy. destruct (G y) as ((-> & -> & _) & _). apply (t_cls _ _ _ T); auto.
  - intros p Hp Hl. destruct (G p) as ((_ & _ & -> & _) & _).
    apply chained_upd; [auto| | |apply L; auto]; intros o; apply F.
Qed.

(** Replacing the list of [s]. *)
Lemma inv_open K h s f : inv K nowhere h -> live h s -> s_label (sob h s) <> "#"%string ->
  (forall o, s_cls (f o) = s_cls o /\ s_start (f o) = s_start o /\ s_end (f o) = s_end o /\ s_label (f o) = s_label o /\
     s_fol (f o) = s_fol o /\ s_prev (f o) = s_prev o /\ s_super (f o) = s_super o) ->
  (forall c, s_subec (f (sob h s)) = Some c -> subset_class h (s_cls (sob h s)) = Some c) ->
  inv K (eq s) (upd_seq s f h).
Proof.
  intros [C T L] Ls Lb F Fe.
  assert (G : forall j, (s_cls (sob (upd_seq s f h) j) = s_cls (sob h j) /\
     s_label (sob (upd_seq s f h) j) = s_label (sob h j) /\
     s_super (sob (upd_seq s f h) j) = s_super (sob h j)) /\
     s_fol (sob (upd_seq s f h) j) = s_fol (sob h j) /\ s_prev (sob (upd_seq s f h) j) = s_prev (sob h j)).
  { intros j. repeat split; apply sob_upd_field; intros o; apply F. }
  assert (P : forall j, praatio (upd_seq s f h) j = praatio h j).
  { intros j. apply praatio_upd. intros o. repeat split; apply F. }
  assert (Ne : forall j, j <> s -> sob (upd_seq s f h) j = sob h j) by (intros; apply sob_upd_ne; auto).
  assert (Es : sob (upd_seq s f h) s = f (sob h s)) by (apply sob_upd_eq; auto).
  set (h1 := upd_seq s f h) in *.
  assert (Hc : h_cls h1 = h_cls h) by reflexivity.
  assert (NN : forall p, ~ nowhere p) by (intros p []).
  constructor.
  - eapply chains_ext; eauto.
  - constructor.
    + intros p y Hp. rewrite (Ne p) by auto. destruct (G y) as ((-> & _ & ->) & _).
      rewrite (subset_class_ext _ _ _ Hc). intros Hy.
      destruct (t_down _ _ _ T p y (NN p) Hy) as (A & B & D). split; [apply live_upd; auto|auto].
    + intros y p. destruct (G y) as ((_ & _ & ->) & _). intros Hy.
      destruct (t_up _ _ _ T y p Hy) as [A B]. split; [apply live_upd; auto|]. intros Hp. rewrite Ne by auto. auto.
    + intros p Hp. rewrite Ne by auto. apply (t_nodup _ _ _ T); auto.
    + intros p c. rewrite (subset_class_ext _ _ _ Hc). destruct (G p) as ((-> & _) & _).
      destruct (decide (p = s)) as [->|]; [rewrite Es; auto|]. rewrite Ne by auto. apply (tr_ec _ _ _ T).
    + intros p a b Hp. rewrite Ne by auto. rewrite same_value_ext by auto. apply (t_twin _ _ _ T); auto.
    + intros y. destruct (G y) as ((_ & -> & ->) & _). intros Hy. rewrite Ne; [apply (t_hash _ _ _ T); auto|].
      intros ->. auto.
    + intros y Hy. apply live_upd in Hy. destruct (G y) as ((-> & -> & _) & _). apply (t_cls _ _ _ T); auto.
  - intros p Hp Hl. rewrite Ne by auto.
    apply chained_upd; [auto| | |apply L; auto]; intros o; apply F.
Qed.

(** [s] is back in step. *)
Lemma inv_close K h s : inv K (eq s) h ->
  NoDup (s_subset (sob h s)) ->
  (forall x, In x (s_subset (sob h s)) -> live h x /\ s_super (sob h x) = Some s /\
     subset_class h (s_cls (sob h s)) = Some (s_cls (sob h x))) ->
  (forall x y, In x (s_subset (sob h s)) -> In y (s_subset (sob h s)) -> same_value h x y -> x = y) ->
  (forall x, s_super (sob h x) = Some s -> In x (s_subset (sob h s))) ->
  chained h (s_subset (sob h s)) -> inv K nowhere h.
Proof.
  intros [C T L] Nd Dn Tw Up Ch. constructor; [auto| |].
  - constructor.
    + intros p x _ Hx. destruct (decide (s = p)) as [<-|Hp]; [auto|]. apply (t_down _ _ _ T); auto.
    + intros x p Hx. destruct (t_up _ _ _ T x p Hx) as [A B]. split; [auto|]. intros _.
      destruct (decide (s = p)) as [<-|Hp]; auto.
    + intros p _. destruct (decide (s = p)) as [<-|Hp]; [auto|]. apply (t_nodup _ _ _ T); auto.
    + apply (tr_ec _ _ _ T).
    + intros p x y _. destruct (decide (s = p)) as [<-|Hp]; [auto|]. apply (t_twin _ _ _ T); auto.
    + apply (t_hash _ _ _ T).
    + apply (t_cls _ _ _ T).
  - intros p _. destruct (decide (s = p)) as [<-|Hp]; auto.
Qed.

(** ** The loop that takes the new children over *)
Definition take (s x : oid) : M unit :=
  xo <- get_seq x ;;
  if bool_decide (s_super xo = Some s) then ret tt
  else remove_superset x ;;; mod_seq x (set_s_super (Some s)).

(** Effect on parents and children when the members of [l] go to [s]. *)
Definition taken (s : oid) (l : list oid) (h h' : heap) : Prop :=
  core_same h h' /\ sob h' s = sob h s /\
  (forall x, In x l -> s_super (sob h' x) = Some s) /\
  (forall x, ~ In x l -> s_super (sob h' x) = s_super (sob h x)) /\
  (forall q, q <> s -> keep_if (fun y => ~ In y l) (s_subset (sob h q)) (s_subset (sob h' q))) /\
  (forall i, live h' i -> ~ live h i -> boundary_obj (sob h' i)).

Lemma core_boundary h h' i : core_same h h' -> live h' i -> ~ live h i -> boundary_obj (sob h' i).
Proof. intros (_ & _ & _ & D). auto. Qed.

Lemma take_ok K s x h : inv K (eq s) h -> live h s -> live h x -> s_label (sob h x) <> "#"%string ->
  s_cls (sob h x) <> s_cls (sob h s) ->
  exists h', take s x h = Ok tt h' /\ inv K (eq s) h' /\ core_same h h' /\ sob h' s = sob h s /\
    s_super (sob h' x) = Some s /\
    (forall y, y <> x -> s_super (sob h' y) = s_super (sob h y)) /\
    (forall q, q <> s -> keep_if (fun y => y <> x) (s_subset (sob h q)) (s_subset (sob h' q))) /\
    (forall b, live h b -> boundary_obj (sob h b) -> boundary_obj (sob h' b)).
Proof.
  intros I Ls Lx Lb Hcls. assert (Hne : x <> s) by (intros ->; auto).
  assert (Hb : forall b, live h b -> boundary_obj (sob h b) -> b <> x).
  { intros b _ Bb ->. apply Lb, boundary_obj_label; auto. }
  unfold take. mstep.
  destruct (decide (s_super (sob h x) = Some s)) as [E|E].
  { rewrite bool_decide_eq_true_2 by auto. exists h. split; [reflexivity|]. split; [auto|].
    split; [apply core_same_refl|]. split; [auto|]. split; [auto|]. split; [auto|]. split; [|auto].
    intros q Hq. apply keep_if_all. intros y Hy ->.
    destruct (t_down _ _ _ (i_tree _ _ _ I) q x) as (_ & A & _); [auto|auto|congruence]. }
  rewrite bool_decide_eq_false_2 by auto.
  destruct (s_super (sob h x)) as [q|] eqn:Sx.
  - assert (Hqs : s <> q) by congruence.
    destruct (inv_remove _ _ _ q x I Hqs Sx) as (l1 & l2 & h1 & Hsub & R & S & I1).
    assert (Hx : In x (s_subset (sob h q))) by (rewrite Hsub; apply in_app_iff; simpl; auto).
    destruct (family _ _ _ _ _ I Hqs Hx) as (Lq & _ & Hxq & _ & _ & _ & _ & Lbq & _).
    rewrite (bind_ok _ _ _ _ _ R). unfold mod_seq, modify.
    assert (V : forall i, s_super (sob h1 i) = (if decide (i = x) then None else s_super (sob h i)) /\
       s_subset (sob h1 i) = (if decide (i = q) then (l1 ++ l2)%list else s_subset (sob h i))).
    { intros i. destruct (settles_view _ _ _ i S) as [-> ->].
      destruct (cut_view q (l1 ++ l2) x h i Lx Lq Hxq) as (-> & -> & _). auto. }
    assert (Co1 : core_same h h1) by (eapply core_settles; [apply cut_core|apply cut_live|exact S]).
    assert (Lx1 : live h1 x) by (eapply core_same_live; eauto).
    assert (Ls1 : live h1 s) by (eapply core_same_live; eauto).
    assert (Sx1 : s_super (sob h1 x) = None).
    { destruct (V x) as [-> _]. destruct (decide (x = x)); [auto|contradiction]. }
    assert (Lb1 : s_label (sob h1 x) <> "#"%string).
    { destruct (core_cls _ _ x Co1 Lx) as (_ & -> & _). auto. }
    assert (Ss1 : sob h1 s = sob h s).
    { destruct S as (_ & F & _). rewrite F.
      - unfold cut. rewrite !sob_upd_ne by auto. auto.
      - apply cut_live; auto.
      - intros Hs. assert (Hs' : In s (s_subset (sob h q))) by (rewrite Hsub; rewrite in_app_iff in *; simpl; tauto).
        destruct (t_down _ _ _ (i_tree _ _ _ I) q s Hqs Hs') as (_ & _ & A).
        destruct (t_down _ _ _ (i_tree _ _ _ I) q x Hqs Hx) as (_ & _ & B). congruence. }
    exists (upd_seq x (set_s_super (Some s)) h1). split; [reflexivity|].
    split; [apply inv_resuper; auto; intros o; repeat split|].
    split; [eapply core_same_trans; [exact Co1|apply upd_core; intros o; repeat split|]|].
    { intros i Li Bi Ni. rewrite sob_upd_ne; [auto|]. intros ->. auto. }
    split; [rewrite sob_upd_ne by auto; auto|].
    split; [rewrite sob_upd_eq by auto; reflexivity|].
    split.
    { intros y Hy. rewrite sob_upd_ne by auto. destruct (V y) as [-> _]. destruct (decide (y = x)); [contradiction|auto]. }
    split.
    { intros p Hp. rewrite (sob_upd_field s_subset) by auto. destruct (V p) as [_ ->].
      pose proof (t_nodup _ _ _ (i_tree _ _ _ I) q Hqs) as Nd. rewrite Hsub in Nd.
      destruct (NoDup_mid _ _ _ Nd) as (N1 & N2 & N3 & N4).
      destruct (decide (p = q)) as [->|Hpq].
      - rewrite Hsub. apply keep_if_app; [apply keep_if_all; intros y Hy ->; auto|].
        apply keep_no; [auto|]. apply keep_if_all. intros y Hy ->. auto.
      - apply keep_if_all. intros y Hy ->.
        destruct (t_down _ _ _ (i_tree _ _ _ I) p x) as (_ & A & _); [auto|auto|congruence]. }
    { intros b Lb' Bb. pose proof (Hb b Lb' Bb) as Hbx. rewrite sob_upd_ne by auto.
      assert (Hbq : b <> q). { intros ->. apply Lbq. apply boundary_obj_label; auto. }
      eapply settles_boundary; [exact S|apply cut_live; auto|]. unfold cut. rewrite !sob_upd_ne by auto. auto. }
  - assert (R : remove_superset x h = Ok tt h) by (unfold remove_superset; rewrite Sx; reflexivity).
    rewrite (bind_ok _ _ _ _ _ R). unfold mod_seq, modify.
    exists (upd_seq x (set_s_super (Some s)) h). split; [reflexivity|].
    split; [apply inv_resuper; auto; intros o; repeat split|].
    split; [apply upd_core; intros o; repeat split|].
    split; [rewrite sob_upd_ne by auto; auto|].
    split; [rewrite sob_upd_eq by auto; reflexivity|].
    split; [intros y Hy; rewrite sob_upd_ne by auto; auto|].
    split.
    { intros p Hp. rewrite (sob_upd_field s_subset) by auto. apply keep_if_all. intros y Hy ->.
      destruct (t_down _ _ _ (i_tree _ _ _ I) p x) as (_ & A & _); [auto|auto|congruence]. }
    { intros b Lb' Bb. pose proof (Hb b Lb' Bb) as Hbx. rewrite sob_upd_ne by auto. auto. }
Qed.

Lemma keep_if_weaken {A} (P Q : A -> Prop) l k : (forall x, In x l -> P x <-> Q x) -> keep_if P l k -> keep_if Q l k.
Proof.
  intros E K1. induction K1 as [|x l k Px K1 IH|x l k Px K1 IH]; [constructor|apply keep_yes|apply keep_no].
  - apply E; simpl; auto.
  - apply IH. intros; apply E; simpl; auto.
  - rewrite <- E by (simpl; auto). auto.
  - apply IH. intros; apply E; simpl; auto.
Qed.
Lemma keep_if_comp {A} (P Q : A -> Prop) a b c : keep_if P a b -> keep_if Q b c -> keep_if (fun x => P x /\ Q x) a c.
Proof.
  intros K1. revert c. induction K1 as [|x l k Px K1 IH|x l k Px K1 IH]; intros c K2.
  - inversion K2. constructor.
  - inversion K2; subst; [apply keep_yes; auto|apply keep_no; [tauto|auto]].
  - apply keep_no; [tauto|auto].
Qed.
Lemma core_same_bound h1 h2 h3 : core_same h1 h2 -> core_same h2 h3 ->
  (forall b, live h2 b -> boundary_obj (sob h2 b) -> boundary_obj (sob h3 b)) -> core_same h1 h3.
Proof. intros A B C. eapply core_same_trans; eauto. Qed.

Lemma take_loop K s l : forall h, inv K (eq s) h -> live h s ->
  (forall x, In x l -> live h x /\ s_label (sob h x) <> "#"%string /\ s_cls (sob h x) <> s_cls (sob h s)) ->
  exists h', forM l (take s) h = Ok tt h' /\ inv K (eq s) h' /\ core_same h h' /\ sob h' s = sob h s /\
    (forall x, In x l -> s_super (sob h' x) = Some s) /\
    (forall x, ~ In x l -> s_super (sob h' x) = s_super (sob h x)) /\
    (forall q, q <> s -> keep_if (fun y => ~ In y l) (s_subset (sob h q)) (s_subset (sob h' q))) /\
    (forall b, live h b -> boundary_obj (sob h b) -> boundary_obj (sob h' b)).
Proof.
  induction l as [|x l IH]; intros h I Ls Hall.
  - exists h. split; [reflexivity|]. split; [auto|]. split; [apply core_same_refl|]. split; [auto|].
    split; [intros x []|]. split; [auto|]. split; [|auto]. intros q Hq. apply keep_if_all. auto.
  - destruct (Hall x) as (Lx & Lbx & Hne); [simpl; auto|].
    destruct (take_ok K s x h) as (h1 & E1 & I1 & C1 & S1 & X1 & Y1 & Q1 & B1); auto.
    destruct (IH h1) as (h' & E2 & I2 & C2 & S2 & X2 & Y2 & Q2 & B2); auto.
    { eapply core_same_live; eauto. }
    { intros y Hy. destruct (Hall y) as (Ly & Lby & Hney); [simpl; auto|].
      split; [eapply core_same_live; eauto|]. destruct (core_cls _ _ y C1 Ly) as (-> & -> & _).
      rewrite S1. auto. }
    exists h'. split; [simpl; rewrite (bind_ok _ _ _ _ _ E1); exact E2|]. split; [auto|].
    split; [eapply core_same_bound; eauto|]. split; [congruence|].
    split.
    { intros y [<-|Hy]; [|auto]. destruct (in_dec Nat.eq_dec x l) as [Hi|Hi]; [auto|]. rewrite Y2; auto. }
    split.
    { intros y Hy. rewrite Y2, Y1; auto; intros HH; apply Hy; simpl; auto. }
    split; [|intros b Lb Bb; apply B2; [eapply core_same_live; eauto|auto]].
    intros q Hq. eapply keep_if_weaken; [|eapply keep_if_comp; [apply Q1; auto|apply Q2; auto]].
    intros y _. simpl. split; [intros [A B] [C|C]; auto|intros A; split; intros C; apply A; auto].
Qed.

(** ** set_subset_list *)

(** [contains = subset_list] on [s]: seen by no invariant. *)
Lemma set_contains_ok K ex s h : inv K ex h -> exists h', seq_set_contains s h = Ok tt h' /\ inv K ex h' /\
  core_same h h' /\ (forall i, live h' i <-> live h i) /\
  (forall i, s_super (sob h' i) = s_super (sob h i) /\ s_subset (sob h' i) = s_subset (sob h i) /\
             s_subec (sob h' i) = s_subec (sob h i) /\ s_fol (sob h' i) = s_fol (sob h i) /\
             s_prev (sob h' i) = s_prev (sob h i)) /\
  (forall i, i <> s -> ~ In i (s_subset (sob h s)) -> sob h' i = sob h i).
Proof.
  intros I. unfold seq_set_contains. mstep. mstep.
  assert (Loop : forall l g, inv K ex g -> exists h', forM l (fun o => mod_seq o (set_s_within (Some (WSeq s)))) g = Ok tt h' /\
    inv K ex h' /\ core_same g h' /\ (forall i, live h' i <-> live g i) /\
    (forall i, s_super (sob h' i) = s_super (sob g i) /\ s_subset (sob h' i) = s_subset (sob g i) /\
             s_subec (sob h' i) = s_subec (sob g i) /\ s_fol (sob h' i) = s_fol (sob g i) /\
             s_prev (sob h' i) = s_prev (sob g i)) /\
    (forall i, ~ In i l -> sob h' i = sob g i)).
  { induction l as [|x l IH]; intros g Ig.
    - exists g. split; [reflexivity|]. split; [auto|]. split; [apply core_same_refl|]. split; [reflexivity|].
      split; [intros i; repeat split|]. auto.
    - destruct (IH (upd_seq x (set_s_within (Some (WSeq s))) g)) as (h' & E & I' & C & L & V & F).
      { apply inv_inert; [intros o; repeat split|auto]. }
      exists h'. split; [exact E|]. split; [auto|]. split.
      { apply (core_same_trans _ (upd_seq x (set_s_within (Some (WSeq s))) g)); [apply upd_core; intros o; repeat split|exact C|].
        intros i Hi _ Hn. apply live_upd in Hi. contradiction. }
      split; [intros i; rewrite L, live_upd; reflexivity|].
      split.
      { intros i. destruct (V i) as (-> & -> & -> & -> & ->). repeat split; apply sob_upd_field; auto. }
      { intros i Hi. rewrite F by (intros HH; apply Hi; simpl; auto). apply sob_upd_ne. intros ->. apply Hi; simpl; auto. } }
  destruct (Loop (s_subset (sob h s)) (upd_seq s (set_s_contains CAlias) h)) as (h' & E & I' & C & L & V & F).
  { apply inv_inert; [intros o; repeat split|auto]. }
  exists h'. split; [exact E|]. split; [auto|]. split.
  { apply (core_same_trans _ (upd_seq s (set_s_contains CAlias) h)); [apply upd_core; intros o; repeat split|exact C|].
    intros i Hi _ Hn. apply live_upd in Hi. contradiction. }
  split; [intros i; rewrite L, live_upd; reflexivity|].
  split.
  { intros i. destruct (V i) as (-> & -> & -> & -> & ->). repeat split; apply sob_upd_field; auto. }
  { intros i Hi Hn. rewrite F by auto. apply sob_upd_ne. auto. }
Qed.

Lemma mapM_isinstance c l h :
  mapM (fun x => isinstance_m x (Some c)) l h = Ok (map (fun x => issubclass h (s_cls (sob h x)) c) l) h.
Proof.
  induction l as [|x l IH]; [reflexivity|]. cbn [mapM]. unfold isinstance_m. mstep. rewrite (bind_ok _ _ _ _ _ IH). reflexivity.
Qed.
Lemma mapM_isinstance_none x l h : mapM (fun x => isinstance_m x None) (x :: l) h = Raise TypeError h.
Proof. reflexivity. Qed.

Definition stand_apart (h : heap) (l : list oid) : Prop :=
  NoDup l /\ forall x y, In x l -> In y l -> same_value h x y -> x = y.

(** The arguments are accepted: what [set_subset_list] does. *)
Lemma set_subset_list_ok K h s l v : inv K nowhere h -> live h s -> s_label (sob h s) <> "#"%string ->
  (forall x, In x l -> live h x /\ s_label (sob h x) <> "#"%string /\
     subset_class h (s_cls (sob h s)) = Some (s_cls (sob h x))) ->
  stand_apart h l -> sl_init l h = Ok v h ->
  exists h', set_subset_list s l h = Ok tt h' /\ inv K (eq s) h' /\ core_same h h' /\
    s_subset (sob h' s) = sv_vals v /\
    (forall x, In x l -> s_super (sob h' x) = Some s) /\
    (forall x, ~ In x l -> s_super (sob h' x) = s_super (sob h x)) /\
    (forall q, q <> s -> keep_if (fun y => ~ In y l) (s_subset (sob h q)) (s_subset (sob h' q))) /\
    chained h' (sv_vals v).
Proof.
  intros I Ls Lbs Hall [Nd Tw] Ei.
  assert (Irr : forall x, In x l -> s_cls (sob h x) <> s_cls (sob h s)).
  { intros x Hx E. destruct (Hall x Hx) as (_ & _ & B). destruct (i_chains _ _ _ I) as (_ & _ & _ & _ & Irr).
    apply (Irr (s_cls (sob h s))); [apply (t_cls _ _ _ (i_tree _ _ _ I)); auto|congruence]. }
  destruct (sl_init_ok _ _ _ _ Ei) as (_ & P & (c & Hsc & Hec)).
  set (f := fun o => set_s_contains (unalias (s_contains o) (s_subset o))
                        (set_s_subec (sv_ec v) (set_s_subset (sv_vals v) o))).
  assert (I1 : inv K (eq s) (upd_seq s f h)).
  { apply inv_open; auto; [intros o; repeat split|].
    intros d Hd. unfold f in Hd. simpl in Hd. destruct Hec as [[Ne E]|[_ E]]; [|congruence].
    destruct l as [|y l]; [contradiction|].
    { destruct (Hall y) as (_ & _ & B); [simpl; auto|]. rewrite B, (Hsc y) by (simpl; auto). congruence. } }
  set (h1 := upd_seq s f h) in *.
  assert (C1 : core_same h h1) by (apply upd_core; intros o; repeat split).
  assert (Ls1 : live h1 s) by (apply live_upd; auto).
  assert (S1 : s_subset (sob h1 s) = sv_vals v) by (unfold h1; rewrite sob_upd_eq by auto; reflexivity).
  destruct (take_loop K s l h1 I1 Ls1) as (h2 & E2 & I2 & C2 & S2 & X2 & Y2 & Q2 & B2).
  { intros x Hx. destruct (Hall x Hx) as (A & B & D). destruct (core_cls _ _ x C1 A) as (-> & -> & _).
    destruct (core_cls _ _ s C1 Ls) as (-> & _). split; [apply live_upd; auto|]. auto. }
  destruct (set_contains_ok K (eq s) s h2 I2) as (h3 & E3 & I3 & C3 & L3 & V3 & F3).
  assert (C13 : core_same h h3).
  { eapply core_same_trans; [eapply core_same_trans; [exact C1|exact C2|]|exact C3|].
    - intros i Hi _ Hn. apply live_upd in Hi. contradiction.
    - intros i Hi Bi Hn. assert (Hl : s_label (sob h2 i) = "#"%string) by (apply boundary_obj_label; auto).
      rewrite F3; auto.
      + intros ->. auto.
      + intros Hin. rewrite S2, S1 in Hin. apply (Permutation_in _ P) in Hin. destruct (Hall i Hin). auto. }
  assert (S3 : s_subset (sob h3 s) = sv_vals v).
  { destruct (V3 s) as (_ & -> & _). rewrite S2. auto. }
  destruct (relink_ok s c h3) as (h4 & E4 & S4).
  { rewrite S3, P. exact Nd. }
  { rewrite S3. intros x Hx. apply (Permutation_in _ P) in Hx. destruct (Hall x Hx) as (A & B & D).
    destruct (core_cls _ _ x C13 A) as (-> & -> & _). split; [eapply core_same_live; eauto|].
    split; [apply Hsc; auto|auto]. }
  rewrite S3 in S4.
  exists h4. split.
  { unfold set_subset_list. mstep.
    assert (Em : exists bs, mapM (fun x => isinstance_m x (subset_class h (s_cls (sob h s)))) l h = Ok bs h /\ forallb id bs = true).
    { destruct l as [|y l]; [exists []; auto|].
      destruct (Hall y) as (_ & _ & B); [simpl; auto|]. rewrite B, mapM_isinstance.
      eexists. split; [reflexivity|]. apply forallb_forall. intros b Hb.
      apply in_map_iff in Hb. destruct Hb as (z & <- & Hz). unfold id.
      rewrite (Hsc z Hz), (Hsc y) by (simpl; auto). apply issubclass_refl. }
    destruct Em as (bs & Em & Eb). rewrite (bind_ok _ _ _ _ _ Em), Eb.
    rewrite (bind_ok _ _ _ _ _ Ei). unfold rebind_subset. mstep. fold f h1.
    change (forM l _) with (forM l (take s)).
    rewrite (bind_ok _ _ _ _ _ E2), (bind_ok _ _ _ _ _ E3). exact E4. }
  assert (I4 : inv K (eq s) h4).
  { eapply inv_settle; [apply (i_chains _ _ _ I3)|apply (i_tree _ _ _ I3)|exact S4|].
    intros p Hp. right. split; [apply (i_links _ _ _ I3); auto|].
    intros x Hx Hx'. destruct (t_down _ _ _ (i_tree _ _ _ I3) p x Hp Hx') as (_ & A & _).
    destruct (V3 x) as (B & _). rewrite B, X2 in A; [congruence|]. apply (Permutation_in _ P); auto. }
  assert (V4 : forall i, s_super (sob h4 i) = s_super (sob h2 i) /\ s_subset (sob h4 i) = s_subset (sob h2 i)).
  { intros i. destruct (settles_view _ _ _ i S4) as [-> ->]. destruct (V3 i) as (-> & -> & _). auto. }
  assert (V1 : forall i, s_super (sob h1 i) = s_super (sob h i)).
  { intros i. apply (sob_upd_field s_super). auto. }
  split; [auto|]. split; [|split; [|split; [|split; [|split]]]].
  - eapply core_same_trans; [exact C13|apply links_core; apply S4|].
    intros i Li Bi _. eapply settles_boundary; eauto.
  - destruct (V4 s) as [_ ->]. rewrite S2. auto.
  - intros x Hx. destruct (V4 x) as [-> _]. auto.
  - intros x Hx. destruct (V4 x) as [-> _]. rewrite Y2 by auto. auto.
  - intros q Hq. destruct (V4 q) as [_ ->]. specialize (Q2 q Hq).
    unfold h1 in Q2. rewrite (sob_upd_ne h s f q Hq) in Q2. exact Q2.
  - apply S4.
Qed.

(** ** The property setter *)
Definition assigned (s : oid) (l : list oid) (h h' : heap) : Prop :=
  core_same h h' /\ Permutation (s_subset (sob h' s)) l /\
  (forall x, In x l -> s_super (sob h' x) = Some s) /\
  (forall x, ~ In x l -> s_super (sob h' x) = match s_super (sob h x) with
                                              | Some p => if decide (p = s) then None else Some p
                                              | None => None end) /\
  (forall q, q <> s -> keep_if (fun y => ~ In y l) (s_subset (sob h q)) (s_subset (sob h' q))).

(** The loop that lets the former children go. *)
Local Instance In_decision (x : nat) (l : list nat) : Decision (In x l) := in_dec Nat.eq_dec x l.
Definition let_go (s o : oid) : M unit :=
  isin <- gets (fun h => sl_contains h (s_subset (sob h s)) o) ;;
  if (isin : bool) then ret tt else remove_superset o.
Lemma let_go_loop K s orig : forall h, inv K (eq s) h -> live h s ->
  (forall o, In o orig -> live h o /\ s_label (sob h o) <> "#"%string /\ o <> s /\
     twinless h (s_subset (sob h s)) o /\
     (~ In o (s_subset (sob h s)) -> s_super (sob h o) = Some s \/ s_super (sob h o) = None)) ->
  exists h', forM orig (let_go s) h = Ok tt h' /\ inv K (eq s) h' /\ core_same h h' /\
    (forall i, live h' i <-> live h i) /\
    (forall i, s_subset (sob h' i) = s_subset (sob h i)) /\
    (forall i, s_super (sob h' i) = if decide (In i orig /\ ~ In i (s_subset (sob h s))) then None else s_super (sob h i)) /\
    (forall l, chained h l -> chained h' l) /\ (forall i, ~ In i orig -> sob h' i = sob h i).
Proof.
  induction orig as [|o orig IH]; intros h I Ls Hall.
  - exists h. split; [reflexivity|]. split; [auto|]. split; [apply core_same_refl|]. split; [reflexivity|].
    split; [auto|]. split; [|auto]. intros i. destruct (decide _) as [[[] _]|]; auto.
  - destruct (Hall o) as (Lo & Lbo & Hos & To & So); [simpl; auto|].
    assert (Step : exists h1, let_go s o h = Ok tt h1 /\ inv K (eq s) h1 /\ core_same h h1 /\
      (forall i, live h1 i <-> live h i) /\ (forall i, s_subset (sob h1 i) = s_subset (sob h i)) /\
      (forall i, s_super (sob h1 i) = if decide (i = o /\ ~ In i (s_subset (sob h s))) then None else s_super (sob h i)) /\
      (forall l, chained h l -> chained h1 l) /\ (forall i, i <> o -> sob h1 i = sob h i)).
    { unfold let_go. mstep. destruct (in_dec Nat.eq_dec o (s_subset (sob h s))) as [Hi|Hi].
      - rewrite contains_in by auto. exists h. split; [reflexivity|]. split; [auto|]. split; [apply core_same_refl|].
        split; [reflexivity|]. split; [auto|]. split; [|auto]. intros i. destruct (decide _) as [[-> ?]|]; [contradiction|auto].
      - rewrite twinless_not_listed by auto. destruct (So Hi) as [E|E].
        + exists (upd_seq o clear_super h). split.
          { unfold remove_superset. rewrite E. rewrite (remove_superset_unlisted _ o s h); auto.
            apply twinless_not_listed; auto. }
          split; [apply inv_resuper; auto; intros z; repeat split|].
          split; [apply upd_core; intros z; repeat split|]. split; [intros; apply live_upd|].
          split; [intros; apply sob_upd_field; auto|].
          split; [|split; [intros; apply chained_upd; auto|intros; apply sob_upd_ne; auto]].
          intros i. rewrite sob_upd by auto. destruct (decide (i = o)) as [->|Hio].
          * rewrite decide_True by auto. reflexivity.
          * rewrite decide_False by tauto. auto.
        + exists h. split; [unfold remove_superset; rewrite E; reflexivity|]. split; [auto|]. split; [apply core_same_refl|].
          split; [reflexivity|]. split; [auto|]. split; [|auto]. intros i. destruct (decide _) as [[-> ?]|]; [auto|auto]. }
    destruct Step as (h1 & E1 & I1 & C1 & L1 & B1 & P1 & K1 & F1).
    destruct (IH h1) as (h' & E2 & I2 & C2 & L2 & B2 & P2 & K2 & F2); auto.
    { apply L1; auto. }
    { intros z Hz. destruct (Hall z) as (Lz & Lbz & Hzs & Tz & Sz); [simpl; auto|].
      rewrite B1. split; [apply L1; auto|]. split; [destruct (core_cls _ _ z C1 Lz) as (_ & -> & _); auto|].
      split; [auto|]. split.
      - intros y Hy E. apply Tz; auto. destruct (decide (live h y)) as [Ly|Ly].
        + rewrite same_value_ext in E; [exact E| |]; apply (core_cls _ _ _ C1); auto.
        + assert (~ live h1 y) by (rewrite L1; auto).
          rewrite same_value_ext in E; [exact E| |].
          * apply praatio_ext; [apply C1|..]; rewrite !sob_dead; auto.
          * apply (core_cls _ _ _ C1); auto.
      - intros Hn. rewrite P1. destruct (decide _) as [_|_]; auto. }
    exists h'. split; [simpl; rewrite (bind_ok _ _ _ _ _ E1); exact E2|]. split; [auto|].
    split; [eapply core_same_trans; eauto; intros i Hi _ Hn; apply L1 in Hi; contradiction|].
    split; [intros i; rewrite L2, L1; reflexivity|].
    split; [intros i; rewrite B2, B1; auto|].
    split; [|split; [auto|intros i Hi; rewrite F2, F1; auto; intros HH; apply Hi; simpl; auto]].
    intros i. rewrite P2, P1, B1. cbn [In].
    repeat match goal with |- context [if ?d then _ else _] => destruct d as [?A|?A] end; auto; exfalso.
    all: simpl in *; destruct (decide (i = o)) as [->|]; intuition congruence.
Qed.

Lemma setter_ok K h s l v : inv K nowhere h -> live h s -> s_label (sob h s) <> "#"%string ->
  (forall x, In x l -> live h x /\ s_label (sob h x) <> "#"%string /\
     subset_class h (s_cls (sob h s)) = Some (s_cls (sob h x))) ->
  stand_apart h l -> (forall o, In o (s_subset (sob h s)) -> twinless h l o) ->
  sl_init l h = Ok v h -> forall v', sl_init (sv_vals v) h = Ok v' h ->
  exists h', subset_setter s l h = Ok tt h' /\ inv K nowhere h' /\ assigned s l h h' /\
    s_subset (sob h' s) = sv_vals v'.
Proof.
  intros I Ls Lbs Hall SA To Ei v' Ei'.
  destruct (sl_init_ok _ _ _ _ Ei) as (_ & P & _).
  destruct (sl_init_ok _ _ _ _ Ei') as (_ & P' & _).
  assert (PP : Permutation (sv_vals v') l) by (rewrite P'; exact P).
  assert (Hin : forall x, In x (sv_vals v) <-> In x l).
  { intros x. split; apply Permutation_in; [exact P|symmetry; exact P]. }
  assert (SA' : stand_apart h (sv_vals v)).
  { destruct SA as [Nd Tw]. split; [rewrite P; auto|]. intros x y Hx Hy. apply Tw; apply Hin; auto. }
  destruct (set_subset_list_ok K h s (sv_vals v) v' I Ls Lbs) as (h1 & E1 & I1 & C1 & S1 & X1 & Y1 & Q1 & Ch1); auto.
  { intros x Hx. apply Hall, Hin; auto. }
  assert (NN : ~ nowhere s) by (intros []).
  destruct (let_go_loop K s (s_subset (sob h s)) h1 I1) as (h2 & E2 & I2 & C2 & L2 & B2 & P2 & K2 & F2).
  { eapply core_same_live; eauto. }
  { intros o Ho. destruct (family _ _ _ _ _ I NN Ho) as (_ & Lo & Hos & So & _ & _ & _ & _ & Lbo).
    split; [eapply core_same_live; eauto|]. split; [destruct (core_cls _ _ o C1 Lo) as (_ & -> & _); auto|].
    split; [auto|]. rewrite S1. split.
    - intros y Hy E. apply (Permutation_in _ PP) in Hy. apply (To o Ho y); auto.
      destruct (Hall y Hy) as (Ly & _).
      rewrite same_value_ext in E; [exact E| |]; apply (core_cls _ _ _ C1); auto.
    - intros Hn. left. rewrite Y1; [auto|]. rewrite Hin. intros HH. apply Hn. apply (Permutation_in _ (Permutation_sym PP)). auto. }
  rewrite S1 in P2.
  assert (S2 : s_subset (sob h2 s) = sv_vals v') by (rewrite B2; auto).
  assert (Hin' : forall x, In x (sv_vals v') <-> In x l).
  { intros x. split; apply Permutation_in; [exact PP|symmetry; exact PP]. }
  assert (Sup : forall x, s_super (sob h2 x) = if decide (In x l) then Some s else
     match s_super (sob h x) with Some p => if decide (p = s) then None else Some p | None => None end).
  { intros x. rewrite P2. destruct (decide (In x l)) as [Hx|Hx].
    - rewrite decide_False; [|rewrite Hin'; tauto]. apply X1, Hin; auto.
    - rewrite Y1 by (rewrite Hin; auto). destruct (decide _) as [[A B]|A].
      + destruct (t_down _ _ _ (i_tree _ _ _ I) s x NN A) as (_ & -> & _). rewrite decide_True; auto.
      + destruct (s_super (sob h x)) as [p|] eqn:Sx; [|auto]. destruct (decide (p = s)) as [->|]; [|auto].
        exfalso. apply A. split; [|rewrite Hin'; auto]. apply (t_up _ _ _ (i_tree _ _ _ I) x s Sx). auto. }
  assert (C12 : core_same h h2).
  { eapply core_same_trans; [exact C1|exact C2|]. intros i Li Bi Ni.
    rewrite F2; [auto|]. intros Ho. apply Ni. apply (family _ _ _ _ _ I NN Ho). }
  exists h2. split.
  { unfold subset_setter. mstep. rewrite (bind_ok _ _ _ _ _ Ei), (bind_ok _ _ _ _ _ E1). exact E2. }
  split; [|split; [|auto]].
  - apply (inv_close K h2 s I2); rewrite ?S2.
    + rewrite PP. apply SA.
    + intros x Hx. apply Hin' in Hx. destruct (Hall x Hx) as (Lx & _ & Hc).
      split; [eapply core_same_live; eauto|]. rewrite Sup, decide_True by auto. split; [auto|].
      destruct (core_cls _ _ x C12 Lx) as (-> & _). destruct (core_cls _ _ s C12 Ls) as (-> & _).
      rewrite (subset_class_ext h); [auto|apply C12].
    + intros x y Hx Hy E. apply Hin' in Hx. apply Hin' in Hy. apply SA; auto.
      rewrite same_value_ext in E; [exact E| |]; apply (core_cls _ _ _ C12); apply Hall; auto.
    + intros x Hx. apply Hin'. rewrite Sup in Hx. destruct (decide (In x l)); [auto|].
      destruct (s_super (sob h x)); [|discriminate]. destruct (decide _); congruence.
    + apply K2. exact Ch1.
  - split; [auto|]. split; [rewrite S2; auto|].
    split; [intros x Hx; rewrite Sup, decide_True; auto|].
    split; [intros x Hx; rewrite Sup, decide_False; auto|].
    intros q Hq. rewrite B2. eapply keep_if_weaken; [|apply Q1; auto]. intros y _. simpl. rewrite Hin. reflexivity.
Qed.

End WithEnv.
