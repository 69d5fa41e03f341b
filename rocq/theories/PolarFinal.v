(** * PolarFinal: PoLaR labels and the pairing of levels with turning points
    (C45, C46). *)
From Verif Require Export LookupFinal PolarSpec PolarOps.
Open Scope Z_scope.

Section WithEnv.
Context `{Env}.

Lemma nearest_at_unique h t z i j : nearest_at h t z i -> nearest_at h t z j -> i = j.
Proof.
  intros (x & a & Hx & Ha & Na) (y & b & Hy & Hb & Nb).
  destruct (Nat.lt_trichotomy i j) as [L|[L|L]]; [|exact L|].
  - destruct (Nb i x a Hx Ha) as [_ K]. specialize (K L). destruct (Na j y b Hy Hb). lia.
  - destruct (Na j y b Hy Hb) as [_ K]. specialize (K L). destruct (Nb i x a Hx Ha). lia.
Qed.
Lemma closest_unique h t x y z : closest h t x y -> closest h t x z -> y = z.
Proof.
  intros (a & i & A & B & C) (b & j & D & E & F). assert (a = b) by congruence. subst b.
  assert (i = j) by (eapply nearest_at_unique; eauto). congruence.
Qed.
Lemma nearest_point_ok h t x a : s_start (sob h x) = Some a -> t_seq (tob h t) <> [] -> own_points h t ->
  exists y, nearest_point h t a = inr y /\ closest h t x y /\ In y (t_seq (tob h t)).
Proof.
  intros A Ne O. destruct (c32_nearest h t a) as (i & y & b & E & Hy & Hb & R); auto.
  { intros w Hw. apply O, Hw. }
  exists y. unfold nearest_point. rewrite E, Hy. split; [reflexivity|].
  split; [|eapply nth_error_In; eauto]. exists a, i. split; [exact A|]. split; [|exact Hy].
  exists y, b. auto.
Qed.

Section Pairing.
Context (h : heap) (lv tp : tid).
Context (Olv : own_points h lv) (Otp : own_points h tp).
Context (Ntp : t_seq (tob h lv) <> [] -> t_seq (tob h tp) <> []).

(** The side a point is on, and the tier it looks for its partner on. *)
Definition side (lev : bool) : tid := if lev then lv else tp.
Definition other (lev : bool) : tid := if lev then tp else lv.

Definition sound (p : polar) : Prop := forall lev x y, pair_of p lev x = Some y ->
  In x (t_seq (tob h (side lev))) /\ partner h (other lev) x y.
Definition settled (p : polar) (lev : bool) (x : oid) : Prop :=
  forall z, partner h (other lev) x z -> pair_of p lev x = Some z.
Definition done_but (E : bool -> oid -> Prop) (p : polar) : Prop := forall lev x y,
  pair_of p lev x = Some y -> E (negb lev) y \/ settled p (negb lev) y.
Definition reached (p : polar) : Prop := forall y x, p_level p y = Some x ->
  exists x', In x' (t_seq (tob h lv)) /\ p_turn p x' = Some y.
Definition grows (p q : polar) : Prop :=
  (forall lev x y, pair_of p lev x = Some y -> pair_of q lev x = Some y) /\ p_rtier q = p_rtier p /\ p_range q = p_range p.

(** How many points of the two tiers have no partner yet. *)
Definition unset (p : polar) (lev : bool) : nat :=
  List.length (List.filter (fun x => match pair_of p lev x with None => true | Some _ => false end) (t_seq (tob h (side lev)))).
Definition todo (p : polar) : nat := (unset p true + unset p false)%nat.

Lemma grows_refl p : grows p p.
Proof. split; [auto|split; auto]. Qed.
Lemma grows_trans p q r : grows p q -> grows q r -> grows p r.
Proof. intros (A & B & C) (A' & B' & C'). split; [auto|]. split; congruence. Qed.
Lemma settled_grows p q lev x : grows p q -> settled p lev x -> settled q lev x.
Proof. intros (A & _) S z Hz. apply A, S, Hz. Qed.

Lemma pair_set lev lev' x x' y p : pair_of (set_pair lev x y p) lev' x' =
  if (Bool.eqb lev lev' && Nat.eqb x' x)%bool then Some y else pair_of p lev' x'.
Proof. destruct lev, lev'; cbn; unfold put; destruct (Nat.eqb x' x); reflexivity. Qed.
Lemma grows_set lev x y p : pair_of p lev x = None -> grows p (set_pair lev x y p).
Proof.
  intros Hn. split; [|destruct lev; split; reflexivity]. intros lev' x' y' P. rewrite pair_set.
  destruct (Bool.eqb lev lev' && Nat.eqb x' x)%bool eqn:E; [|exact P].
  apply andb_true_iff in E. destruct E as [E1 E2]. apply eqb_prop in E1. apply Nat.eqb_eq in E2. subst. congruence.
Qed.

Lemma filter_len_le {A} (f g : A -> bool) l : (forall x, In x l -> g x = true -> f x = true) ->
  (List.length (List.filter g l) <= List.length (List.filter f l))%nat.
Proof.
  induction l as [|x l IH]; intros K; [simpl; lia|]. assert (I : forall y, In y l -> g y = true -> f y = true) by (intros; apply K; simpl; auto).
  specialize (IH I). cbn [List.filter]. destruct (g x) eqn:G.
  - rewrite (K x (or_introl eq_refl) G). simpl. lia.
  - destruct (f x); simpl; lia.
Qed.
Lemma filter_len_lt {A} (f g : A -> bool) l x : (forall x, In x l -> g x = true -> f x = true) ->
  In x l -> f x = true -> g x = false ->
  (List.length (List.filter g l) < List.length (List.filter f l))%nat.
Proof.
  induction l as [|y l IH]; intros K I F G; [destruct I|].
  assert (J : forall y, In y l -> g y = true -> f y = true) by (intros; apply K; simpl; auto).
  cbn [List.filter]. destruct I as [->|I].
  - rewrite F, G. pose proof (filter_len_le f g l J). simpl. lia.
  - specialize (IH J I F G). destruct (g y) eqn:Gy.
    + rewrite (K y (or_introl eq_refl) Gy). simpl. lia.
    + destruct (f y); simpl; lia.
Qed.
Lemma todo_set lev x y p : pair_of p lev x = None -> In x (t_seq (tob h (side lev))) ->
  (todo (set_pair lev x y p) < todo p)%nat.
Proof.
  intros Hn Hx. unfold todo, unset.
  assert (L : forall b, (List.length (List.filter (fun z => match pair_of (set_pair lev x y p) b z with None => true | Some _ => false end)
      (t_seq (tob h (side b)))) <= List.length (List.filter (fun z => match pair_of p b z with None => true | Some _ => false end) (t_seq (tob h (side b)))))%nat).
  { intros b. apply filter_len_le. intros z _. rewrite pair_set. destruct (Bool.eqb lev b && Nat.eqb z x)%bool; [discriminate|auto]. }
  assert (S : (List.length (List.filter (fun z => match pair_of (set_pair lev x y p) lev z with None => true | Some _ => false end)
      (t_seq (tob h (side lev)))) < List.length (List.filter (fun z => match pair_of p lev z with None => true | Some _ => false end) (t_seq (tob h (side lev)))))%nat).
  { apply filter_len_lt with (x := x); auto.
    - intros z _. rewrite pair_set. destruct (Bool.eqb lev lev && Nat.eqb z x)%bool; [discriminate|auto].
    - rewrite Hn. reflexivity.
    - rewrite pair_set, eqb_reflx, Nat.eqb_refl. reflexivity. }
  pose proof (L true) as L1. pose proof (L false) as L2. destruct lev; lia.
Qed.

Lemma own_side lev : own_points h (side lev).
Proof. destruct lev; auto. Qed.
Lemma own_other lev : own_points h (other lev).
Proof. destruct lev; auto. Qed.
Lemma other_side lev : other lev = side (negb lev).
Proof. destruct lev; reflexivity. Qed.

Definition nowhere_but (lev : bool) (x : oid) : bool -> oid -> Prop := fun l y => l = lev /\ y = x.
Definition nothing : bool -> oid -> Prop := fun _ _ => False.

Lemma set_partner_ok : forall n lev x p,
  (todo p < n)%nat -> In x (t_seq (tob h (side lev))) ->
  (lev = false -> exists x', In x' (t_seq (tob h lv)) /\ p_turn p x' = Some x) ->
  sound p -> done_but (nowhere_but lev x) p -> reached p ->
  exists q, set_partner n h lev x (Some (other lev)) p = POk q /\ grows p q /\
    sound q /\ done_but nothing q /\ reached q /\ settled q lev x.
Proof.
  induction n as [|n IH]; intros lev x p Hn Hx Hr So Do Re; [lia|].
  assert (Neo : t_seq (tob h (other lev)) <> []).
  { destruct lev; simpl in *.
    - apply Ntp. destruct (t_seq (tob h lv)); [destruct Hx|discriminate].
    - destruct (Hr eq_refl) as (x' & I & _). destruct (t_seq (tob h lv)); [destruct I|discriminate]. }
  destruct (own_side lev x Hx) as [Kx Ix].
  destruct (s_start (sob h x)) as [a|] eqn:Ea; [|congruence].
  destruct (nearest_point_ok h (other lev) x a Ea Neo (own_other lev)) as (y & E & C & Iy).
  destruct (own_other lev y Iy) as [Ky _].
  destruct (s_start (sob h y)) as [b|] eqn:Eb; [|congruence].
  cbn [set_partner]. rewrite Ea, E, Eb. destruct (bool_decide (pair_of p lev x = Some y)) eqn:D.
  - apply bool_decide_eq_true in D. assert (Sx : settled p lev x).
    { intros z [Cz _]. rewrite D. f_equal. eapply closest_unique; eauto. }
    exists p. split; [reflexivity|]. split; [apply grows_refl|]. split; [exact So|]. split; [|split; [exact Re|exact Sx]].
    intros l u v Hp. right. destruct (Do l u v Hp) as [[-> ->]|S]; auto.
  - apply bool_decide_eq_false in D. destruct (isclose a b) eqn:Cl.
    + apply isclose_spec in Cl. assert (Pa : partner h (other lev) x y) by (split; [exact C|]; exists a, b; auto).
      assert (Hn0 : pair_of p lev x = None).
      { destruct (pair_of p lev x) as [z|] eqn:Ez; [|reflexivity]. destruct (So lev x z Ez) as [_ [Cz _]].
        exfalso. apply D. f_equal. eapply closest_unique; eauto. }
      pose proof (grows_set lev x y p Hn0) as G1. set (p1 := set_pair lev x y p) in *.
      assert (P1 : pair_of p1 lev x = Some y) by (unfold p1; rewrite pair_set, eqb_reflx, Nat.eqb_refl; reflexivity).
      rewrite Ix. replace (side lev) with (other (negb lev)) by (destruct lev; reflexivity).
      destruct (IH (negb lev) y p1) as (q & Eq & G & Sq & Dq & Rq & Tq).
      * pose proof (todo_set lev x y p Hn0 Hx). unfold p1. lia.
      * rewrite <- other_side. exact Iy.
      * intros Q. destruct lev; [|discriminate]. exists x. split; [exact Hx|exact P1].
      * intros l u v Hp. unfold p1 in Hp. rewrite pair_set in Hp.
        destruct (Bool.eqb lev l && Nat.eqb u x)%bool eqn:B; [|apply So, Hp].
        apply andb_true_iff in B. destruct B as [B1 B2]. apply eqb_prop in B1. apply Nat.eqb_eq in B2. subst.
        injection Hp as <-. auto.
      * intros l u v Hp. unfold p1 in Hp. rewrite pair_set in Hp.
        destruct (Bool.eqb lev l && Nat.eqb u x)%bool eqn:B.
        { apply andb_true_iff in B. destruct B as [B1 B2]. apply eqb_prop in B1. apply Nat.eqb_eq in B2. subst.
          injection Hp as <-. left. split; reflexivity. }
        destruct (Do l u v Hp) as [[Q ->]|S]; right; [|eapply settled_grows; eauto].
        intros z [Cz _]. rewrite Q, P1. f_equal. rewrite Q in Cz. eapply closest_unique; eauto.
      * intros u v Hp. destruct lev.
        { destruct (Re u v Hp) as (x' & I & T). exists x'. split; [exact I|]. apply (proj1 G1 true). exact T. }
        unfold p1 in Hp. change (p_level (set_pair false x y p) u) with (pair_of (set_pair false x y p) false u) in Hp.
        rewrite pair_set in Hp. cbn [Bool.eqb andb] in Hp. destruct (Nat.eqb u x) eqn:B.
        { apply Nat.eqb_eq in B. subst u. destruct (Hr eq_refl) as (x' & I & T). exists x'. split; [exact I|exact T]. }
        destruct (Re u v Hp) as (x' & I & T). exists x'. split; [exact I|exact T].
      * exists q. split; [exact Eq|]. split; [eapply grows_trans; eauto|]. split; [exact Sq|]. split; [exact Dq|].
        split; [exact Rq|]. intros z [Cz _]. replace z with y by (eapply closest_unique; eauto). apply (proj1 G). exact P1.
    + assert (Nz : forall z, ~ partner h (other lev) x z).
      { intros z [Cz (a' & b' & A1 & B1 & N)]. assert (z = y) by (eapply closest_unique; eauto). subst z.
        assert (a' = a) by congruence. assert (b' = b) by congruence. subst.
        apply isclose_spec in N. congruence. }
      exists p. split; [reflexivity|]. split; [apply grows_refl|]. split; [exact So|].
      assert (Sx : settled p lev x) by (intros z Hz; destruct (Nz z Hz)).
      split; [|split; [exact Re|exact Sx]].
      intros l u v Hp. right. destruct (Do l u v Hp) as [[-> ->]|S]; auto.
Qed.

Lemma todo_grows p q : grows p q -> (todo q <= todo p)%nat.
Proof.
  intros G. unfold todo, unset. apply Nat.add_le_mono; apply filter_len_le.
  - intros x _. destruct (pair_of p true x) eqn:E; [rewrite (proj1 G _ _ _ E)|]; auto.
  - intros x _. destruct (pair_of p false x) eqn:E; [rewrite (proj1 G _ _ _ E)|]; auto.
Qed.
Lemma relate_ok n : forall l p, (forall x, In x l -> In x (t_seq (tob h lv))) -> (todo p < n)%nat ->
  sound p -> done_but nothing p -> reached p ->
  exists q, pfor l (fun x => set_partner n h true x (Some tp)) p = POk q /\ grows p q /\
    sound q /\ done_but nothing q /\ reached q /\ forall x, In x l -> settled q true x.
Proof.
  induction l as [|x l IH]; intros p Hl Hn So Do Re.
  - exists p. split; [reflexivity|]. split; [apply grows_refl|]. split; [auto|]. split; [auto|]. split; [auto|]. intros x [].
  - destruct (set_partner_ok n true x p) as (q & E & G & Sq & Dq & Rq & Tq); auto.
    { apply Hl. simpl; auto. } { discriminate. }
    { intros u v w Hp. destruct (Do u v w Hp) as [[]|]; auto. }
    destruct (IH q) as (r & E2 & G2 & Sr & Dr & Rr & Tr); auto.
    { intros y Hy. apply Hl. simpl; auto. } { pose proof (todo_grows p q G). lia. }
    exists r. cbn [pfor]. cbn [other] in E. rewrite E. cbn [pbind].
    split; [exact E2|]. split; [eapply grows_trans; eauto|]. split; [auto|]. split; [auto|]. split; [auto|].
    intros y [<-|Hy]; [eapply settled_grows; eauto|auto].
Qed.
End Pairing.

Lemma c45_paired : forall n h lv tp p, own_points h lv -> own_points h tp ->
  (t_seq (tob h lv) <> [] -> t_seq (tob h tp) <> []) ->
  (List.length (t_seq (tob h lv)) + List.length (t_seq (tob h tp)) < n)%nat ->
  (forall x, p_turn p x = None /\ p_level p x = None) ->
  exists q, relate_points n h lv tp p = POk q /\
    (forall x y, p_turn q x = Some y <-> In x (t_seq (tob h lv)) /\ partner h tp x y) /\
    (forall y x, p_level q y = Some x <->
       partner h lv y x /\ exists x', In x' (t_seq (tob h lv)) /\ partner h tp x' y) /\
    p_rtier q = p_rtier p /\ p_range q = p_range p.
Proof.
  intros n h lv tp p Olv Otp Ntp Hn Hp.
  assert (P0 : forall lev x, pair_of p lev x = None) by (intros [|] x; apply Hp).
  destruct (relate_ok h lv tp Olv Otp Ntp n (t_seq (tob h lv)) p) as (q & E & (G & G1 & G2) & So & Do & Re & Te); auto.
  { unfold todo, unset.
    assert (F : forall (f : oid -> bool) l, (List.length (List.filter f l) <= List.length l)%nat).
    { intros f l. induction l as [|x l IH]; [simpl; lia|]. cbn [List.filter]. destruct (f x); simpl; lia. }
    pose proof (F (fun x => match pair_of p true x with None => true | Some _ => false end) (t_seq (tob h (side lv tp true)))).
    pose proof (F (fun x => match pair_of p false x with None => true | Some _ => false end) (t_seq (tob h (side lv tp false)))).
    cbn [side] in *. lia. }
  { intros lev x y Q. rewrite P0 in Q. discriminate. }
  { intros lev x y Q. rewrite P0 in Q. discriminate. }
  { intros y x Q. change (pair_of p false y = Some x) in Q. rewrite P0 in Q. discriminate. }
  exists q. split; [exact E|]. split; [|split; [|split; auto]].
  - intros x y. split.
    + intros Q. apply (So true x y Q).
    + intros [I Pa]. apply (Te x I y Pa).
  - intros y x. split.
    + intros Q. split; [apply (So false y x Q)|]. destruct (Re y x Q) as (x' & I & T). exists x'.
      split; [exact I|]. apply (So true x' y T).
    + intros [Pa (x' & I & Pb)]. pose proof (Te x' I y Pb) as T.
      destruct (Do true x' y T) as [[]|S]. apply (S x Pa).
Qed.
Lemma c45_mutual : forall n h lv tp p q x y, own_points h lv -> own_points h tp ->
  (t_seq (tob h lv) <> [] -> t_seq (tob h tp) <> []) ->
  (List.length (t_seq (tob h lv)) + List.length (t_seq (tob h tp)) < n)%nat ->
  (forall x, p_turn p x = None /\ p_level p x = None) ->
  relate_points n h lv tp p = POk q ->
  In x (t_seq (tob h lv)) -> partner h tp x y -> partner h lv y x ->
  p_turn q x = Some y /\ p_level q y = Some x.
Proof.
  intros n h lv tp p q x y A B C D P E I P1 P2.
  destruct (c45_paired n h lv tp p A B C D P) as (q' & E' & T & L & _).
  assert (q' = q) by congruence. subst q'. split; [apply T; auto|]. apply L. split; [exact P2|]. exists x. auto.
Qed.

(** ** Ranges *)
Definition same_pairs (p q : polar) : Prop := p_turn q = p_turn p /\ p_level q = p_level p.
Lemma set_range_ok h rt x p y a : t_seq (tob h rt) <> [] -> s_start (sob h x) = Some a -> timed_tier h rt -> one_at h rt a ->
  In y (t_seq (tob h rt)) -> holds_at h y a ->
  exists q, set_range h rt x p = POk q /\ same_pairs p q /\ p_range q = put (p_range p) x (Some y) /\ p_rtier q = put (p_rtier p) x (Some rt).
Proof.
  intros Ne A T U I Hy. pose proof (c43_interval h x rt a y A T U I Hy) as E. unfold set_range.
  destruct (t_seq (tob h rt)) as [|z l]; [congruence|]. rewrite E. eexists. split; [reflexivity|].
  split; [split; reflexivity|]. split; reflexivity.
Qed.
Lemma c45_ranges : forall h lv rt p,
  (forall x, In x (t_seq (tob h lv)) -> exists a, s_start (sob h x) = Some a /\ one_at h rt a /\
     exists y, In y (t_seq (tob h rt)) /\ holds_at h y a) -> timed_tier h rt ->
  exists q, relate_ranges h lv rt p = POk q /\ p_turn q = p_turn p /\ p_level q = p_level p /\
    forall x, In x (t_seq (tob h lv)) -> p_rtier q x = Some rt /\
      forall y a, s_start (sob h x) = Some a -> In y (t_seq (tob h rt)) -> holds_at h y a -> p_range q x = Some y.
Proof.
  intros h lv rt p K T.
  assert (G : t_seq (tob h rt) <> [] -> forall l p, (forall x, In x l -> In x (t_seq (tob h lv))) ->
    exists q, pfor l (set_range h rt) p = POk q /\ same_pairs p q /\
      (forall x, ~ In x l -> p_range q x = p_range p x /\ p_rtier q x = p_rtier p x) /\
      forall x, In x l -> p_rtier q x = Some rt /\
        forall y a, s_start (sob h x) = Some a -> In y (t_seq (tob h rt)) -> holds_at h y a -> p_range q x = Some y).
  { intros Ne. induction l as [|x l IH]; intros p0 Hl.
    - exists p0. split; [reflexivity|]. split; [split; reflexivity|]. split; [auto|intros x []].
    - destruct (K x) as (a & A & U & y & Iy & Hy); [apply Hl; simpl; auto|].
      destruct (set_range_ok h rt x p0 y a Ne A T U Iy Hy) as (q & E & S & R1 & R2).
      destruct (IH q) as (r & E2 & S2 & F & V); [intros w Hw; apply Hl; simpl; auto|].
      exists r. cbn [pfor]. rewrite E. cbn [pbind]. split; [exact E2|].
      split; [destruct S, S2; split; congruence|]. split.
      + intros w Hw. destruct (F w) as [F1 F2]; [intros Q; apply Hw; simpl; auto|]. rewrite F1, F2, R1, R2. unfold put.
        destruct (Nat.eqb w x) eqn:B; [|auto]. apply Nat.eqb_eq in B. subst. destruct Hw. simpl; auto.
      + intros w Hw. destruct (in_dec Nat.eq_dec w l) as [Q|Q]; [apply V, Q|].
        destruct Hw as [<-|Hw]; [|destruct (Q Hw)]. destruct (F x Q) as [F1 F2]. rewrite F1, F2, R1, R2. unfold put.
        rewrite Nat.eqb_refl. split; [reflexivity|]. intros y' a' A' I' H'. f_equal.
        assert (a' = a) by congruence. subst. destruct (In_nth_error _ _ Iy) as [i Hi]. destruct (In_nth_error _ _ I') as [j Hj].
        assert (i = j) by (eapply U; eauto). congruence. }
  unfold relate_ranges. destruct (t_seq (tob h lv)) as [|x l] eqn:El.
  { exists p. split; [reflexivity|]. split; [reflexivity|]. split; [reflexivity|]. intros x []. }
  destruct (t_seq (tob h rt)) as [|z m] eqn:Er.
  { destruct (K x) as (a & _ & _ & y & [] & _). simpl; auto. }
  destruct (G ltac:(discriminate) (x :: l) p) as (q & E & [S1 S2] & _ & V); [auto|].
  exists q. auto.
Qed.
Lemma c45_outside : forall h lv rt p x a, hd_error (t_seq (tob h lv)) = Some x -> t_seq (tob h rt) <> [] ->
  timed_tier h rt -> s_start (sob h x) = Some a -> (forall y, In y (t_seq (tob h rt)) -> ~ holds_at h y a) ->
  exists q, relate_ranges h lv rt p = PRaise TypeError q.
Proof.
  intros h lv rt p x a Hx Ne T A K. unfold relate_ranges. destruct (t_seq (tob h lv)) as [|x' l]; [discriminate|].
  injection Hx as ->. destruct (c43_none h x rt a A T K) as [_ E]. specialize (E Ne).
  cbn [pfor]. unfold set_range at 1. destruct (t_seq (tob h rt)) as [|z m]; [congruence|]. rewrite E. cbn [pbind]. eauto.
Qed.
End WithEnv.

(** ** Labels *)
Lemma prefix_one c s : String.prefix (String c EmptyString) s = true <-> exists s', s = String c s'.
Proof.
  destruct s as [|a s]; simpl; [split; [discriminate|intros [s' Q]; discriminate]|].
  destruct (Ascii.ascii_dec c a) as [->|N].
  - destruct s; split; eauto.
  - split; [discriminate|]. intros [s' Q]. congruence.
Qed.
Lemma str_in_char c s : str_in (String c EmptyString) s = true <-> has_char c s.
Proof.
  induction s as [|a s IH]; [simpl; split; [discriminate|tauto]|].
  cbn [str_in has_char]. rewrite orb_true_iff, prefix_one, IH. split; intros [Q|Q]; auto.
  - destruct Q as [s' Q]. left. congruence.
  - left. exists s. congruence.
Qed.
Lemma c46_certainty : forall lab,
  (has_char "?"%char lab -> certainty lab = "uncertain"%string) /\ (~ has_char "?"%char lab -> certainty lab = "certain"%string).
Proof.
  intros lab. unfold certainty. pose proof (str_in_char "?"%char lab) as K.
  destruct (str_in _ lab); split; intros Q; auto; exfalso.
  - apply Q, K. reflexivity.
  - apply K in Q. discriminate.
Qed.
Lemma c46_status : forall lab,
  (has_char "*"%char lab -> prstr_status lab = "prominence"%string) /\
  (~ has_char "*"%char lab -> has_char "]"%char lab -> prstr_status lab = "edge"%string) /\
  (~ has_char "*"%char lab -> ~ has_char "]"%char lab -> prstr_status lab = lab).
Proof.
  intros lab. unfold prstr_status. pose proof (str_in_char "*"%char lab) as K. pose proof (str_in_char "]"%char lab) as L.
  destruct (str_in "*" lab).
  - split; [reflexivity|]. split; intros Q; destruct Q; apply K; reflexivity.
  - split; [intros Q; apply K in Q; discriminate|]. destruct (str_in "]" lab); split; intros Q R; auto; exfalso.
    + apply R, L. reflexivity.
    + apply L in R. discriminate.
Qed.
Lemma has_char_app c s t : has_char c (s ++ t)%string <-> has_char c s \/ has_char c t.
Proof. induction s as [|a s IH]; simpl; [tauto|]. rewrite IH. tauto. Qed.
Lemma after_last_none s : forall acc, ~ has_char ","%char s -> after_last_comma acc s = acc.
Proof.
  induction s as [|a s IH]; intros acc N; [reflexivity|]. cbn [after_last_comma].
  destruct (Ascii.eqb a ","%char) eqn:E.
  - apply Ascii.eqb_eq in E. destruct N. simpl. auto.
  - apply IH. intros Q. apply N. simpl. auto.
Qed.
Lemma after_last_split s t : forall acc, ~ has_char ","%char t -> after_last_comma acc (s ++ String ","%char t)%string = t.
Proof.
  induction s as [|a s IH]; intros acc N.
  - change (after_last_comma t t = t). apply after_last_none, N.
  - change (after_last_comma acc (String a (String.append s (String ","%char t))) = t). cbn [after_last_comma]. destruct (Ascii.eqb a ","%char); apply IH, N.
Qed.
Lemma c46_override : forall s t lab, ~ has_char ","%char t -> lab = t \/ lab = (s ++ String ","%char t)%string ->
  (t = "0"%string -> tp_override lab = None) /\ (t <> "0"%string -> tp_override lab = Some t).
Proof.
  intros s t lab N Hl. assert (E : after_last_comma lab lab = t).
  { destruct Hl as [->| ->]; [apply after_last_none, N|apply after_last_split, N]. }
  unfold tp_override. rewrite E. split; intros Q.
  - rewrite Q. reflexivity.
  - apply String.eqb_neq in Q. rewrite Q. reflexivity.
Qed.

Lemma split_none c s : ~ has_char c s -> split_on c s = [s].
Proof.
  induction s as [|a s IH]; intros N; [reflexivity|]. cbn [split_on]. destruct (Ascii.eqb a c) eqn:E.
  - apply Ascii.eqb_eq in E. destruct N. simpl. auto.
  - rewrite IH; [reflexivity|]. intros Q. apply N. simpl. auto.
Qed.
Lemma split_cons c s t : ~ has_char c s -> split_on c (s ++ String c t)%string = s :: split_on c t.
Proof.
  induction s as [|a s IH]; intros N.
  - change (split_on c (String c t) = EmptyString :: split_on c t). cbn [split_on]. rewrite Ascii.eqb_refl. reflexivity.
  - change (split_on c (String a (String.append s (String c t))) = String a s :: split_on c t). cbn [split_on]. destruct (Ascii.eqb a c) eqn:E.
    + apply Ascii.eqb_eq in E. destruct N. simpl. auto.
    + rewrite IH; [reflexivity|]. intros Q. apply N. simpl. auto.
Qed.
Lemma c46_range : forall (F : Type) (float : string -> option F) s t,
  ~ has_char "-"%char s -> ~ has_char "-"%char t ->
  (forall a b, float s = Some a -> float t = Some b ->
     rng_low float (s ++ String "-" t) = Some (Some a) /\ rng_high float (s ++ String "-" t) = Some (Some b)) /\
  (float s = None \/ float t = None ->
     rng_low float (s ++ String "-" t) = Some None /\ rng_high float (s ++ String "-" t) = Some None).
Proof.
  intros F float s t Ns Nt. unfold rng_low, rng_high, rng_range. rewrite (split_cons _ s t Ns), (split_none _ t Nt).
  cbn [map all_some]. split.
  - intros a b -> ->. split; reflexivity.
  - intros [E|E]; rewrite E; [split; reflexivity|]. destruct (float s); split; reflexivity.
Qed.
Lemma c46_range_single : forall (F : Type) (float : string -> option F) s, ~ has_char "-"%char s ->
  (forall a, float s = Some a -> rng_low float s = Some (Some a) /\ rng_high float s = None) /\
  (float s = None -> rng_low float s = Some None /\ rng_high float s = Some None).
Proof.
  intros F float s Ns. unfold rng_low, rng_high, rng_range. rewrite (split_none _ s Ns). cbn [map all_some].
  split; [intros a ->|intros ->]; split; reflexivity.
Qed.
Lemma drop_others c s : drop_char c s = others c s.
Proof.
  unfold others. induction s as [|a s IH]; [reflexivity|]. cbn. destruct (Ascii.eqb a c); cbn; [exact IH|].
  rewrite IH. reflexivity.
Qed.
Lemma c46_level : forall (int : string -> option Z) lab,
  lv_level int lab = int (others "?"%char lab) /\ (~ has_char "?"%char lab -> lv_level int lab = int lab).
Proof.
  intros int lab. unfold lv_level. rewrite drop_others. split; [reflexivity|]. intros N. rewrite <- drop_others. f_equal.
  induction lab as [|a s IH]; [reflexivity|]. cbn [drop_char]. destruct (Ascii.eqb a "?") eqn:E.
  - apply Ascii.eqb_eq in E. destruct N. simpl. auto.
  - rewrite IH; [reflexivity|]. intros Q. apply N. simpl. auto.
Qed.
Lemma bands_are low high : exists a b c d e f, rng_bands low high = [a; b; c; d; e; f] /\
  a = 5 * low /\ b = 5 * low + 1 * (high - low) /\ c = 5 * low + 2 * (high - low) /\ d = 5 * low + 3 * (high - low) /\
  e = 5 * low + 4 * (high - low) /\ f = 5 * high.
Proof. do 6 eexists. split; [reflexivity|]. cbn [Z.of_nat]. lia. Qed.
Lemma c46_band : forall low high lev,
  (1 <= lev <= 5 -> lv_band low high lev = [5 * low + (lev - 1) * (high - low); 5 * low + lev * (high - low)]) /\
  (lev = 0 \/ lev > 6 -> lv_band low high lev = []) /\ (lev = 6 -> lv_band low high lev = [5 * high]).
Proof.
  intros low high lev. unfold lv_band. destruct (bands_are low high) as (a & b & c & d & e & f & -> & B). split; [|split].
  - intros L. assert (lev = 1 \/ lev = 2 \/ lev = 3 \/ lev = 4 \/ lev = 5) as [-> |[-> |[-> |[-> | ->]]]] by lia.
    + change ([a; b] = [5 * low + (1 - 1) * (high - low); 5 * low + 1 * (high - low)]). repeat (f_equal; try lia).
    + change ([b; c] = [5 * low + (2 - 1) * (high - low); 5 * low + 2 * (high - low)]). repeat (f_equal; try lia).
    + change ([c; d] = [5 * low + (3 - 1) * (high - low); 5 * low + 3 * (high - low)]). repeat (f_equal; try lia).
    + change ([d; e] = [5 * low + (4 - 1) * (high - low); 5 * low + 4 * (high - low)]). repeat (f_equal; try lia).
    + change ([e; f] = [5 * low + (5 - 1) * (high - low); 5 * low + 5 * (high - low)]). repeat (f_equal; try lia).
  - intros [-> |L]; [reflexivity|]. unfold py_slice, py_bound. rewrite drop_ge; [apply take_nil|].
    cbn [List.length]. destruct (lev - 1 <? 0) eqn:K; [apply Z.ltb_lt in K; lia|]. lia.
  - intros ->. change ([f] = [5 * high]). f_equal. lia.
Qed.
