(** * QueryFinal: what the accessors of tiers, groups and points return. *)
From Verif Require Export ListFinal.
Open Scope Z_scope.

Section WithEnv.
Context `{Env}.

Lemma all_some_nth {A B} (f : A -> option B) l r : all_some (map f l) = Some r ->
  List.length r = List.length l /\
  forall i x, nth_error l i = Some x -> exists y, nth_error r i = Some y /\ f x = Some y.
Proof.
  intros E. apply all_some_inv in E. split.
  - apply (f_equal (@List.length _)) in E. rewrite !map_length in E. auto.
  - intros i x Hi. assert (Hm : nth_error (map f l) i = Some (f x)) by (rewrite nth_error_map, Hi; reflexivity).
    rewrite E, nth_error_map in Hm. destruct (nth_error r i) as [y|]; [|discriminate].
    injection Hm as Hm. eauto.
Qed.
Lemma timed_times h t : timed_tier h t ->
  exists st en, all_some (tstarts h t) = Some st /\ all_some (tends h t) = Some en.
Proof.
  intros T. unfold tstarts, tends, starts_of, ends_of.
  destruct (all_some_map (start_of h) (t_seq (tob h t))) as (st & E1 & _).
  { intros x Hx. destruct (T x Hx) as [A _]. unfold start_of. destruct (s_start (sob h x)); [eauto|congruence]. }
  destruct (all_some_map (end_of h) (t_seq (tob h t))) as (en & E2 & _).
  { intros x Hx. destruct (T x Hx) as [_ A]. rewrite end_of_at. destruct (end_at h x); [eauto|congruence]. }
  eauto.
Qed.

Lemma nth_error_lookup {A} (l : list A) i : nth_error l i = l !! i.
Proof. revert i; induction l; intros [|i]; simpl; auto. Qed.

(** ** Intervals at a time *)
Lemma hits_from_in tw : forall st en k i, In i (hits_from k st en tw) <->
  exists j s e, i = (k + j)%nat /\ nth_error st j = Some s /\ nth_error en j = Some e /\ 2 * s <= tw < 2 * e.
Proof.
  induction st as [|s st IH]; intros en k i; simpl.
  { split; [intros []|]. intros (j & a & b & _ & X & _). destruct j; discriminate. }
  destruct en as [|e en].
  { split; [intros []|]. intros (j & a & b & _ & _ & X & _). destruct j; discriminate. }
  assert (R : In i (hits_from (S k) st en tw) <->
    exists j a b, i = (k + S j)%nat /\ nth_error st j = Some a /\ nth_error en j = Some b /\ 2 * a <= tw < 2 * b).
  { rewrite IH. split; intros (j & a & b & X & Y); exists j, a, b; (split; [lia|exact Y]). }
  destruct ((2 * s <=? tw) && (tw <? 2 * e)) eqn:C.
  - apply andb_true_iff in C. destruct C as [C1 C2]. apply Z.leb_le in C1. apply Z.ltb_lt in C2.
    simpl. rewrite R. split.
    + intros [<-|(j & a & b & X)].
      * exists O, s, e. simpl. split; [lia|]. auto.
      * exists (S j), a, b. exact X.
    + intros ([|j] & a & b & X & Y).
      * left. lia.
      * right. exists j, a, b. auto.
  - rewrite R. split.
    + intros (j & a & b & X). exists (S j), a, b. exact X.
    + intros ([|j] & a & b & X & Y & Z' & W).
      * simpl in Y, Z'. injection Y as <-. injection Z' as <-.
        apply andb_false_iff in C. destruct C as [C|C]; [apply Z.leb_gt in C|apply Z.ltb_ge in C]; lia.
      * exists j, a, b. auto.
Qed.
Lemma hits_from_nodup tw : forall st en k, List.NoDup (hits_from k st en tw).
Proof.
  induction st as [|s st IH]; intros en k; simpl; [constructor|].
  destruct en as [|e en]; [constructor|].
  destruct (_ && _); [|auto]. constructor; [|auto].
  rewrite hits_from_in. intros (j & a & b & X & _). lia.
Qed.

Lemma hits_spec h t z st en : all_some (tstarts h t) = Some st -> all_some (tends h t) = Some en ->
  forall i, In i (hits_from 0 st en (2 * z)) <->
    exists x, nth_error (t_seq (tob h t)) i = Some x /\ holds_at h x z.
Proof.
  intros E1 E2 i. apply all_some_nth in E1. apply all_some_nth in E2.
  destruct E1 as [L1 N1], E2 as [L2 N2]. rewrite hits_from_in. split.
  - intros (j & s & e & X & Y & Z' & W). simpl in X. subst j.
    assert (Hi : (i < List.length (t_seq (tob h t)))%nat).
    { rewrite <- L1. apply nth_error_Some. congruence. }
    destruct (nth_error (t_seq (tob h t)) i) as [x|] eqn:Ex; [|apply nth_error_None in Ex; lia].
    exists x. split; [auto|]. destruct (N1 i x Ex) as (s' & A1 & A2). destruct (N2 i x Ex) as (e' & B1 & B2).
    exists s, e. rewrite <- end_of_at. unfold start_of in A2.
    split; [congruence|]. split; [congruence|lia].
  - intros (x & Ex & a & b & A & B & C).
    destruct (N1 i x Ex) as (s' & A1 & A2). destruct (N2 i x Ex) as (e' & B1 & B2).
    rewrite end_of_at in B2. unfold start_of in A2.
    exists i, s', e'. assert (s' = a) by congruence. assert (e' = b) by congruence. subst. repeat split; auto; lia.
Qed.

Lemma c19_found : forall h t z, timed_tier h t ->
  (forall i j x y, nth_error (t_seq (tob h t)) i = Some x -> nth_error (t_seq (tob h t)) j = Some y ->
     holds_at h x z -> holds_at h y z -> i = j) ->
  exists r, get_interval_at_time t z h = Ok r h /\
    (forall i, r = Some i <-> exists x, nth_error (t_seq (tob h t)) i = Some x /\ holds_at h x z) /\
    (r = None <-> forall x, In x (t_seq (tob h t)) -> ~ holds_at h x z).
Proof.
  intros h t z T U. destruct (timed_times h t T) as (st & en & E1 & E2).
  pose proof (hits_spec h t z st en E1 E2) as HS.
  pose proof (hits_from_nodup (2 * z) st en 0) as ND.
  unfold get_interval_at_time, interval_at_half. rewrite E1, E2.
  destruct (hits_from 0 st en (2 * z)) as [|i [|j r]].
  - exists None. split; [reflexivity|].
    assert (K : forall x, In x (t_seq (tob h t)) -> ~ holds_at h x z).
    { intros x Hx Hh. apply In_nth_error in Hx. destruct Hx as [i Hi]. destruct (proj2 (HS i)). eauto. }
    split; [|split; auto]. intros i. split; [discriminate|]. intros (x & A & B).
    destruct (proj2 (HS i)). eauto.
  - exists (Some i). split; [reflexivity|]. destruct (proj1 (HS i)) as (x & Hx & Hh); [simpl; auto|].
    split.
    + intros k. split.
      * intros [= <-]. eauto.
      * intros (y & A & B). f_equal. eapply U; eauto.
    + split; [discriminate|]. intros K. destruct (K x); auto. eapply nth_error_In; eauto.
  - exfalso. destruct (proj1 (HS i)) as (x & Hx & Hh); [simpl; auto|].
    destruct (proj1 (HS j)) as (y & Hy & Hg); [simpl; auto|].
    assert (i = j) by (eapply U; eauto). subst. inversion ND as [|? ? N _]. simpl in N. tauto.
Qed.

Lemma c19_many : forall h t z i j x y, timed_tier h t -> i <> j ->
  nth_error (t_seq (tob h t)) i = Some x -> nth_error (t_seq (tob h t)) j = Some y ->
  holds_at h x z -> holds_at h y z -> get_interval_at_time t z h = Raise TypeError h.
Proof.
  intros h t z i j x y T Hne Hx Hy A B. destruct (timed_times h t T) as (st & en & E1 & E2).
  pose proof (hits_spec h t z st en E1 E2) as HS.
  unfold get_interval_at_time, interval_at_half. rewrite E1, E2.
  assert (Hi : In i (hits_from 0 st en (2 * z))) by (apply HS; eauto).
  assert (Hj : In j (hits_from 0 st en (2 * z))) by (apply HS; eauto).
  destruct (hits_from 0 st en (2 * z)) as [|k [|l r]].
  - destruct Hi.
  - simpl in Hi, Hj. intuition congruence.
  - reflexivity.
Qed.

(** ** Extremes *)
Lemma fold_min_le l a : least (fun z => z = a \/ In z l) (fold_left Z.min l a).
Proof.
  revert a; induction l as [|x l IH]; intros a; simpl.
  - split; [auto|]. intros z [->|[]]; lia.
  - destruct (IH (Z.min a x)) as [A B]. split.
    + destruct A as [A|A]; [|auto]. rewrite A. destruct (Z.min_spec a x) as [[_ ->]|[_ ->]]; auto.
    + intros z Hz.
      assert (K : fold_left Z.min l (Z.min a x) <= Z.min a x) by (apply B; auto).
      destruct Hz as [->|[->|Hz]]; [lia|lia|apply B; auto].
Qed.
Lemma fold_max_le l a : greatest (fun z => z = a \/ In z l) (fold_left Z.max l a).
Proof.
  revert a; induction l as [|x l IH]; intros a; simpl.
  - split; [auto|]. intros z [->|[]]; lia.
  - destruct (IH (Z.max a x)) as [A B]. split.
    + destruct A as [A|A]; [|auto]. rewrite A. destruct (Z.max_spec a x) as [[_ ->]|[_ ->]]; auto.
    + intros z Hz.
      assert (K : Z.max a x <= fold_left Z.max l (Z.max a x)) by (apply B; auto).
      destruct Hz as [->|[->|Hz]]; [lia|lia|apply B; auto].
Qed.
Lemma np_ext_known f (l : list Z) h : l <> [] ->
  np_ext f (map Some l) h = Ok (Some (fold_left f (tl l) (hd 0 l))) h.
Proof.
  intros Hne. destruct l as [|x l]; [congruence|].
  unfold np_ext. rewrite (all_some_Some (x :: l)). destruct l; reflexivity.
Qed.
Lemma np_min_known (l : list Z) h : l <> [] ->
  exists m, np_ext Z.min (map Some l) h = Ok (Some m) h /\ least (fun z => In z l) m.
Proof.
  intros Hne. rewrite np_ext_known by auto. eexists. split; [reflexivity|].
  destruct l as [|x l]; [congruence|]. simpl. destruct (fold_min_le l x) as [A B]. split.
  - destruct A; auto.
  - intros z [<-|Hz]; apply B; auto.
Qed.
Lemma np_max_known (l : list Z) h : l <> [] ->
  exists m, np_ext Z.max (map Some l) h = Ok (Some m) h /\ greatest (fun z => In z l) m.
Proof.
  intros Hne. rewrite np_ext_known by auto. eexists. split; [reflexivity|].
  destruct l as [|x l]; [congruence|]. simpl. destruct (fold_max_le l x) as [A B]. split.
  - destruct A; auto.
  - intros z [<-|Hz]; apply B; auto.
Qed.
Lemma least_iff (P Q : Z -> Prop) m : (forall z, P z <-> Q z) -> least P m -> least Q m.
Proof. intros E [A B]. split; [apply E; auto|]. intros z Hz. apply B, E, Hz. Qed.
Lemma greatest_iff (P Q : Z -> Prop) m : (forall z, P z <-> Q z) -> greatest P m -> greatest Q m.
Proof. intros E [A B]. split; [apply E; auto|]. intros z Hz. apply B, E, Hz. Qed.

Lemma known_values {A} (f : A -> option Z) l : (forall x, In x l -> exists z, f x = Some z) ->
  exists r, map f l = map Some r /\ (forall z, In z r <-> exists x, In x l /\ f x = Some z) /\
    List.length r = List.length l.
Proof.
  intros K. destruct (all_some_map f l K) as (r & _ & E). exists r. split; [auto|]. split.
  - intros z. split.
    + intros Hz. assert (Hs : In (Some z) (map f l)) by (rewrite E; apply in_map; auto).
      apply in_map_iff in Hs. destruct Hs as (x & A1 & A2). eauto.
    + intros (x & A1 & A2). assert (Hs : In (Some z) (map Some r)) by (rewrite <- E, <- A2; apply in_map; auto).
      apply in_map_iff in Hs. destruct Hs as (y & [= <-] & B). auto.
  - apply (f_equal (@List.length _)) in E. rewrite !map_length in E. auto.
Qed.

Lemma tier_xmin_empty h t : t_seq (tob h t) = [] -> tier_xmin t h = Ok None h /\ tier_xmax t h = Ok None h.
Proof. intros E. unfold tier_xmin, tier_xmax, tstarts, tends. rewrite E. split; reflexivity. Qed.
Lemma tier_xmin_known h t : t_seq (tob h t) <> [] ->
  (forall x, In x (t_seq (tob h t)) -> s_start (sob h x) <> None) ->
  exists m, tier_xmin t h = Ok (Some m) h /\ least (starts_on h t) m.
Proof.
  intros Hne K. destruct (known_values (start_of h) (t_seq (tob h t))) as (r & E & R & L).
  { intros x Hx. specialize (K x Hx). unfold start_of. destruct (s_start (sob h x)); [eauto|congruence]. }
  assert (Hr : r <> []) by (intros ->; destruct (t_seq (tob h t)); [congruence|discriminate]).
  destruct (np_min_known r h Hr) as (m & Em & Lm).
  exists m. split.
  - unfold tier_xmin, tstarts, starts_of. rewrite E. destruct (map Some r) eqn:X; [|exact Em].
    destruct r; [congruence|discriminate].
  - eapply least_iff; [|exact Lm]. intros z. rewrite R. reflexivity.
Qed.
Lemma tier_xmax_known h t : t_seq (tob h t) <> [] ->
  (forall x, In x (t_seq (tob h t)) -> end_at h x <> None) ->
  exists m, tier_xmax t h = Ok (Some m) h /\ greatest (ends_on h t) m.
Proof.
  intros Hne K. destruct (known_values (end_of h) (t_seq (tob h t))) as (r & E & R & L).
  { intros x Hx. specialize (K x Hx). rewrite end_of_at. destruct (end_at h x); [eauto|congruence]. }
  assert (Hr : r <> []) by (intros ->; destruct (t_seq (tob h t)); [congruence|discriminate]).
  destruct (np_max_known r h Hr) as (m & Em & Lm).
  exists m. split.
  - unfold tier_xmax, tends, ends_of. rewrite E. destruct (map Some r) eqn:X; [|exact Em].
    destruct r; [congruence|discriminate].
  - eapply greatest_iff; [|exact Lm]. intros z. rewrite R. unfold ends_on.
    setoid_rewrite end_of_at. reflexivity.
Qed.

Lemma c20_tier : forall h t, timed_tier h t ->
  (t_seq (tob h t) = [] -> tier_xmin t h = Ok None h /\ tier_xmax t h = Ok None h) /\
  (t_seq (tob h t) <> [] -> exists a b, tier_xmin t h = Ok (Some a) h /\ tier_xmax t h = Ok (Some b) h /\
     least (starts_on h t) a /\ greatest (ends_on h t) b).
Proof.
  intros h t T. split; [apply tier_xmin_empty|]. intros Hne.
  destruct (tier_xmin_known h t Hne) as (a & A1 & A2); [intros x Hx; apply (T x Hx)|].
  destruct (tier_xmax_known h t Hne) as (b & B1 & B2); [intros x Hx; apply (T x Hx)|].
  exists a, b. auto.
Qed.

Lemma mapM_read {A B} (f : A -> M B) (Q : A -> B -> Prop) h l :
  (forall x, In x l -> exists y, f x h = Ok y h /\ Q x y) ->
  exists ys, mapM f l h = Ok ys h /\ Forall2 Q l ys.
Proof.
  induction l as [|x l IH]; intros K; [exists []; split; [reflexivity|constructor]|].
  destruct (K x) as (y & E & Hq); [simpl; auto|].
  destruct IH as (ys & E2 & F); [intros z Hz; apply K; simpl; auto|].
  exists (y :: ys). split; [|constructor; auto].
  cbn [mapM]. rewrite (bind_ok _ _ _ _ _ E), (bind_ok _ _ _ _ _ E2). reflexivity.
Qed.

Lemma extremes_of_tiers {A} (f : A -> M (option Z)) (P : A -> Z -> Prop) (R : (Z -> Prop) -> Z -> Prop) h l :
  (forall x, In x l -> exists m, f x h = Ok (Some m) h /\ R (P x) m) ->
  exists ms, mapM f l h = Ok (map Some ms) h /\ Forall2 (fun x m => R (P x) m) l ms.
Proof.
  induction l as [|x l IH]; intros K; [exists []; split; [reflexivity|constructor]|].
  destruct (K x) as (m & E & Hq); [simpl; auto|].
  destruct IH as (ms & E2 & F); [intros z Hz; apply K; simpl; auto|].
  exists (m :: ms). split; [|constructor; auto].
  cbn [mapM]. rewrite (bind_ok _ _ _ _ _ E), (bind_ok _ _ _ _ _ E2). reflexivity.
Qed.
Lemma Forall2_in_l {A B} (Q : A -> B -> Prop) l l' x : Forall2 Q l l' -> In x l -> exists y, In y l' /\ Q x y.
Proof. induction 1; simpl; [intros []|]. intros [->|Hx]; [eauto|]. destruct (IHForall2 Hx) as (z & ? & ?). eauto. Qed.
Lemma Forall2_in_r {A B} (Q : A -> B -> Prop) l l' y : Forall2 Q l l' -> In y l' -> exists x, In x l /\ Q x y.
Proof. induction 1; simpl; [intros []|]. intros [->|Hx]; [eauto|]. destruct (IHForall2 Hx) as (z & ? & ?). eauto. Qed.

Lemma least_union {A} (P : A -> Z -> Prop) l ms m : Forall2 (fun x m => least (P x) m) l ms ->
  least (fun z => In z ms) m -> least (fun z => exists x, In x l /\ P x z) m.
Proof.
  intros F [A1 A2]. split.
  - destruct (Forall2_in_r _ _ _ _ F A1) as (x & Hx & B & _). eauto.
  - intros z (x & Hx & Hz). destruct (Forall2_in_l _ _ _ _ F Hx) as (y & Hy & _ & B).
    specialize (A2 y Hy). specialize (B z Hz). lia.
Qed.
Lemma greatest_union {A} (P : A -> Z -> Prop) l ms m : Forall2 (fun x m => greatest (P x) m) l ms ->
  greatest (fun z => In z ms) m -> greatest (fun z => exists x, In x l /\ P x z) m.
Proof.
  intros F [A1 A2]. split.
  - destruct (Forall2_in_r _ _ _ _ F A1) as (x & Hx & B & _). eauto.
  - intros z (x & Hx & Hz). destruct (Forall2_in_l _ _ _ _ F Hx) as (y & Hy & _ & B).
    specialize (A2 y Hy). specialize (B z Hz). lia.
Qed.
Lemma Forall2_nonempty {A B} (Q : A -> B -> Prop) l l' : Forall2 Q l l' -> l <> [] -> l' <> [].
Proof. intros F Hne. inversion F; subst; congruence. Qed.

Lemma grp_xmin_known h g : g_tiers (gob h g) <> [] ->
  (forall t, In t (g_tiers (gob h g)) -> timed_tier h t /\ t_seq (tob h t) <> []) ->
  exists a, grp_xmin g h = Ok (Some a) h /\
    least (fun z => exists t, In t (g_tiers (gob h g)) /\ starts_on h t z) a.
Proof.
  intros Hne K. unfold grp_xmin. mstep.
  destruct (extremes_of_tiers tier_xmin (starts_on h) least h (g_tiers (gob h g))) as (ms & E & F).
  { intros t Ht. destruct (K t Ht) as [T Hn]. apply tier_xmin_known; auto. intros x Hx. apply (T x Hx). }
  rewrite (bind_ok _ _ _ _ _ E).
  destruct (np_min_known ms h) as (m & Em & Lm); [eapply Forall2_nonempty; eauto|].
  exists m. split; [exact Em|]. eapply least_union; eauto.
Qed.

Lemma c20_group : forall h g, g_points (gob h g) = false -> g_tiers (gob h g) <> [] ->
  (forall t, In t (g_tiers (gob h g)) -> timed_tier h t /\ t_seq (tob h t) <> []) ->
  exists a b, grp_xmin g h = Ok (Some a) h /\ grp_xmax g h = Ok (Some b) h /\
    least (fun z => exists t, In t (g_tiers (gob h g)) /\ starts_on h t z) a /\
    greatest (fun z => exists t, In t (g_tiers (gob h g)) /\ ends_on h t z) b.
Proof.
  intros h g Hp Hne K.
  destruct (grp_xmin_known h g Hne K) as (a & A1 & A2).
  destruct (extremes_of_tiers tier_xmax (ends_on h) greatest h (g_tiers (gob h g))) as (ms & E & F).
  { intros t Ht. destruct (K t Ht) as [T Hn]. apply tier_xmax_known; auto. intros x Hx. apply (T x Hx). }
  destruct (np_max_known ms h) as (m & Em & Lm); [eapply Forall2_nonempty; eauto|].
  exists a, m. split; [exact A1|]. split.
  - unfold grp_xmax. mstep. rewrite Hp, (bind_ok _ _ _ _ _ E). exact Em.
  - split; [exact A2|]. eapply greatest_union; eauto.
Qed.

(** A group with an empty tier has no xmin or xmax at all. *)
Lemma all_some_none {A} (l : list (option A)) : In None l -> all_some l = None.
Proof.
  induction l as [|x l IH]; simpl; [intros []|]. intros [->|Hx]; [reflexivity|].
  rewrite IH by auto. destruct x; reflexivity.
Qed.
Lemma np_ext_none f l h : In None l -> (2 <= List.length l)%nat -> np_ext f l h = Raise TypeError h.
Proof.
  intros Hn Hl. unfold np_ext. destruct l as [|x [|y l]]; simpl in Hl; try lia.
  rewrite (all_some_none (x :: y :: l)) by auto. destruct x; reflexivity.
Qed.
Lemma c20_empty_tier : forall h g t, g_points (gob h g) = false ->
  (forall u, In u (g_tiers (gob h g)) -> timed_tier h u) ->
  In t (g_tiers (gob h g)) -> t_seq (tob h t) = [] -> (2 <= List.length (g_tiers (gob h g)))%nat ->
  grp_xmin g h = Raise TypeError h /\ grp_xmax g h = Raise TypeError h.
Proof.
  intros h g t Hp K Ht He Hl.
  assert (G : forall f, (forall u, timed_tier h u -> exists m, f u h = Ok m h /\ (t_seq (tob h u) = [] -> m = None)) ->
     forall ex, bind (mapM f (g_tiers (gob h g))) (np_ext ex) h = Raise TypeError h).
  { intros f Hf ex.
    destruct (mapM_read f (fun u m => t_seq (tob h u) = [] -> m = None) h (g_tiers (gob h g))) as (ys & E & F).
    { intros u Hu. apply Hf, K, Hu. }
    rewrite (bind_ok _ _ _ _ _ E). apply np_ext_none.
    - destruct (Forall2_in_l _ _ _ _ F Ht) as (y & Hy & Q). rewrite (Q He) in Hy. exact Hy.
    - rewrite <- (Forall2_length _ _ _ F). exact Hl. }
  split.
  - unfold grp_xmin. mstep. apply G. intros u T. destruct (decide (t_seq (tob h u) = [])) as [E|E].
    + exists None. split; [apply tier_xmin_empty; auto|auto].
    + destruct (tier_xmin_known h u E) as (m & A & _); [intros x Hx; apply (T x Hx)|].
      exists (Some m). split; [auto|intros; congruence].
  - unfold grp_xmax. mstep. rewrite Hp. apply G. intros u T. destruct (decide (t_seq (tob h u) = [])) as [E|E].
    + exists None. split; [apply tier_xmin_empty; auto|auto].
    + destruct (tier_xmax_known h u E) as (m & A & _); [intros x Hx; apply (T x Hx)|].
      exists (Some m). split; [auto|intros; congruence].
Qed.

Lemma c20_grid : forall h a, a_groups (aob h a) <> [] ->
  (forall g, In g (a_groups (aob h a)) -> g_points (gob h g) = false /\ g_tiers (gob h g) <> [] /\
     forall t, In t (g_tiers (gob h g)) -> timed_tier h t /\ t_seq (tob h t) <> []) ->
  exists x y, grid_xmin a h = Ok (Some x) h /\ grid_xmax a h = Ok (Some y) h /\
    least (fun z => exists g, In g (a_groups (aob h a)) /\ exists t, In t (g_tiers (gob h g)) /\ starts_on h t z) x /\
    greatest (fun z => exists g, In g (a_groups (aob h a)) /\ exists t, In t (g_tiers (gob h g)) /\ ends_on h t z) y.
Proof.
  intros h a Hne K.
  destruct (extremes_of_tiers grp_xmin (fun g z => exists t, In t (g_tiers (gob h g)) /\ starts_on h t z) least h (a_groups (aob h a)))
    as (ms & E & F).
  { intros g Hg. destruct (K g Hg) as (A & B & C). destruct (c20_group h g A B C) as (p & q & X & _ & Y & _). eauto. }
  destruct (extremes_of_tiers grp_xmax (fun g z => exists t, In t (g_tiers (gob h g)) /\ ends_on h t z) greatest h (a_groups (aob h a)))
    as (ns & E' & F').
  { intros g Hg. destruct (K g Hg) as (A & B & C). destruct (c20_group h g A B C) as (p & q & _ & X & _ & Y). eauto. }
  destruct (np_min_known ms h) as (m & Em & Lm); [eapply Forall2_nonempty; eauto|].
  destruct (np_max_known ns h) as (n & En & Ln); [eapply Forall2_nonempty; eauto|].
  exists m, n. unfold grid_xmin, grid_xmax. unfold get_grid. rewrite !bind_gets.
  rewrite (bind_ok _ _ _ _ _ E), (bind_ok _ _ _ _ _ E').
  split; [exact Em|]. split; [exact En|]. split; [eapply least_union|eapply greatest_union]; eauto.
Qed.

(** ** Points groups *)
Lemma c35_points_xmax : forall h g, g_points (gob h g) = true -> g_tiers (gob h g) <> [] ->
  (forall t, In t (g_tiers (gob h g)) -> timed_tier h t /\ t_seq (tob h t) <> []) ->
  exists a b, grp_xmin g h = Ok (Some a) h /\ grp_xmax g h = Ok (Some b) h /\
    least (fun z => exists t, In t (g_tiers (gob h g)) /\ starts_on h t z) a /\
    greatest (fun z => exists t, In t (g_tiers (gob h g)) /\ least (starts_on h t) z) b /\
    forall m, greatest (fun z => exists t, In t (g_tiers (gob h g)) /\ starts_on h t z) m ->
      b <= m /\
      (b = m <-> exists t, In t (g_tiers (gob h g)) /\ forall z, starts_on h t z -> z = m).
Proof.
  intros h g Hp Hne K.
  destruct (grp_xmin_known h g Hne K) as (a & A1 & A2).
  assert (KL : forall t, In t (g_tiers (gob h g)) -> exists m, tier_xmin t h = Ok (Some m) h /\ least (starts_on h t) m).
  { intros t Ht. destruct (K t Ht) as [T Hn]. apply tier_xmin_known; auto. intros x Hx. apply (T x Hx). }
  destruct (extremes_of_tiers tier_xmin (starts_on h) least h (g_tiers (gob h g)) KL) as (ms & E & F).
  destruct (np_max_known ms h) as (b & Em & Lm); [eapply Forall2_nonempty; eauto|].
  exists a, b. split; [exact A1|]. split.
  { unfold grp_xmax. mstep. rewrite Hp, (bind_ok _ _ _ _ _ E). exact Em. }
  split; [exact A2|].
  assert (G : greatest (fun z => exists t, In t (g_tiers (gob h g)) /\ least (starts_on h t) z) b).
  { split.
    - destruct Lm as [L1 _]. destruct (Forall2_in_r _ _ _ _ F L1) as (t & Ht & Q). eauto.
    - intros z (t & Ht & Q). destruct (Forall2_in_l _ _ _ _ F Ht) as (y & Hy & Q').
      destruct Q as [Q1 Q2]. destruct Q' as [Q3 Q4]. destruct Lm as [_ L2].
      specialize (L2 y Hy). specialize (Q2 y Q3). lia. }
  split; [exact G|]. intros m [M1 M2]. destruct G as [(t & Ht & Q1 & Q2) G2].
  split; [apply M2; eauto|]. split.
  - intros ->. exists t. split; [auto|]. intros z Hz.
    specialize (Q2 z Hz). assert (z <= m) by (apply M2; eauto). lia.
  - intros (u & Hu & Q). assert (b <= m) by (apply M2; eauto).
    destruct (KL u Hu) as (k & _ & Lk). assert (k = m) by (apply Q, Lk). subst k.
    assert (m <= b) by (apply G2; eauto). lia.
Qed.

(** ** The nearest point *)
Lemma argmin_from_spec : forall l i best bv pre, i = List.length pre -> nth_error pre best = Some bv ->
  (forall j v, nth_error pre j = Some v -> bv <= v /\ ((j < best)%nat -> bv < v)) ->
  exists v, nth_error (pre ++ l) (argmin_from l i best bv) = Some v /\
    (forall j w, nth_error (pre ++ l) j = Some w -> v <= w /\ ((j < argmin_from l i best bv)%nat -> v < w)).
Proof.
  induction l as [|x l IH]; intros i best bv pre Hi Hb Hp; simpl.
  { rewrite app_nil_r. eauto. }
  assert (Eq : (pre ++ x :: l)%list = ((pre ++ [x]) ++ l)%list) by (rewrite <- app_assoc; reflexivity).
  rewrite Eq. destruct (x <? bv) eqn:C; [apply Z.ltb_lt in C|apply Z.ltb_ge in C]; apply IH.
  - rewrite app_length. simpl. lia.
  - subst i. rewrite nth_error_app2, Nat.sub_diag; auto.
  - intros j v Hj. destruct (Nat.lt_ge_cases j (List.length pre)) as [Hlt|Hge].
    + rewrite nth_error_app1 in Hj by auto. destruct (Hp j v Hj). lia.
    + rewrite nth_error_app2 in Hj by auto. destruct (j - List.length pre)%nat as [|k] eqn:D.
      * simpl in Hj. injection Hj as <-. lia.
      * simpl in Hj. destruct k; discriminate.
  - rewrite app_length. simpl. lia.
  - rewrite nth_error_app1; auto. apply nth_error_Some. congruence.
  - intros j v Hj. destruct (Nat.lt_ge_cases j (List.length pre)) as [Hlt|Hge].
    + rewrite nth_error_app1 in Hj by auto. apply Hp; auto.
    + rewrite nth_error_app2 in Hj by auto. destruct (j - List.length pre)%nat as [|k] eqn:D.
      * simpl in Hj. injection Hj as <-. assert (best < List.length pre)%nat by (apply nth_error_Some; congruence). lia.
      * simpl in Hj. destruct k; discriminate.
Qed.
Lemma argmin_spec l i : argmin l = Some i -> exists v, nth_error l i = Some v /\
  forall j w, nth_error l j = Some w -> v <= w /\ ((j < i)%nat -> v < w).
Proof.
  destruct l as [|x l]; [discriminate|]. unfold argmin. intros [= <-].
  apply (argmin_from_spec l 1 0 x [x]); auto.
  intros [|j] v; simpl; [|destruct j; discriminate]. intros [= <-]. lia.
Qed.

Lemma c32_nearest : forall h t z, (forall x, In x (t_seq (tob h t)) -> s_start (sob h x) <> None) ->
  t_seq (tob h t) <> [] ->
  exists i x a, nearest_point_index t z h = Ok i h /\ nth_error (t_seq (tob h t)) i = Some x /\
    s_start (sob h x) = Some a /\
    forall j y b, nth_error (t_seq (tob h t)) j = Some y -> s_start (sob h y) = Some b ->
      Z.abs (a - z) <= Z.abs (b - z) /\ ((j < i)%nat -> Z.abs (a - z) < Z.abs (b - z)).
Proof.
  intros h t z K Hne. unfold nearest_point_index.
  destruct (all_some_map (start_of h) (t_seq (tob h t))) as (ts & E & _).
  { intros x Hx. specialize (K x Hx). unfold start_of. destruct (s_start (sob h x)); [eauto|congruence]. }
  unfold tstarts, starts_of. rewrite E. pose proof (all_some_nth _ _ _ E) as [L N].
  destruct (argmin _) as [i|] eqn:A.
  2:{ destruct ts; [|discriminate]. destruct (t_seq (tob h t)); [congruence|discriminate]. }
  apply argmin_spec in A. destruct A as (v & Hv & Hmin).
  rewrite nth_error_map in Hv. destruct (nth_error ts i) as [a|] eqn:Ea; [|discriminate]. injection Hv as <-.
  destruct (nth_error (t_seq (tob h t)) i) as [x|] eqn:Ex.
  2:{ apply nth_error_None in Ex. assert (i < List.length ts)%nat by (apply nth_error_Some; congruence). lia. }
  destruct (N i x Ex) as (a' & B1 & B2). assert (a' = a) by congruence. subst a'.
  exists i, x, a. split; [reflexivity|]. split; [auto|]. split; [exact B2|].
  intros j y b Hy Hb. destruct (N j y Hy) as (b' & C1 & C2). unfold start_of in C2.
  assert (b' = b) by congruence. subst b'.
  apply (Hmin j). rewrite nth_error_map, C1. reflexivity.
Qed.
Lemma c32_empty : forall h t z, t_seq (tob h t) = [] -> nearest_point_index t z h = Raise ValueError h.
Proof. intros h t z E. unfold nearest_point_index, tstarts. rewrite E. reflexivity. Qed.

(** ** Distances between points *)
Lemma c34_distance : forall h p a, s_start (sob h p) = Some a ->
  (forall q b, s_fol (sob h p) = Some q -> s_start (sob h q) = Some b -> b <> 0 ->
     fol_distance p h = Ok (Some (b - a)) h) /\
  (forall q b, s_prev (sob h p) = Some q -> s_start (sob h q) = Some b -> b <> 0 ->
     prev_distance p h = Ok (Some (b - a)) h).
Proof.
  intros h p a Ha. split; intros q b Hq Hb Hnz; unfold fol_distance, prev_distance, pt_distance; mstep;
    unfold link; rewrite Hq; mstep; rewrite Hb; apply Z.eqb_neq in Hnz; rewrite Hnz, Ha; reflexivity.
Qed.
Lemma c34_boundary : forall h p q,
  (s_fol (sob h p) = Some q -> s_start (sob h q) = None -> fol_distance p h = Ok None h) /\
  (s_prev (sob h p) = Some q -> s_start (sob h q) = None -> prev_distance p h = Ok None h).
Proof.
  intros h p q. split; intros Hq Hb; unfold fol_distance, prev_distance, pt_distance; mstep;
    unfold link; rewrite Hq; mstep; rewrite Hb; reflexivity.
Qed.
Lemma c34_zero : forall h p q,
  (s_fol (sob h p) = Some q -> s_start (sob h q) = Some 0 -> fol_distance p h = Ok None h) /\
  (s_prev (sob h p) = Some q -> s_start (sob h q) = Some 0 -> prev_distance p h = Ok None h).
Proof.
  intros h p q. split; intros Hq Hb; unfold fol_distance, prev_distance, pt_distance; mstep;
    unfold link; rewrite Hq; mstep; rewrite Hb; reflexivity.
Qed.
(** Distance from a point to a point or an interval. *)
Lemma c34_from : forall h p e a b, s_start (sob h p) = Some a -> s_start (sob h e) = Some b ->
  (is_point h e = true -> distance_from p e h = Ok [a - b] h) /\
  (is_point h e = false -> forall c, s_end (sob h e) = Some c -> distance_from p e h = Ok [a - b; a - c] h).
Proof.
  intros h p e a b Ha Hb. split.
  - intros P. unfold distance_from. mstep. mstep. mstep. fold (is_point_cls h (s_cls (sob h e))).
    unfold is_point in P. unfold is_point_cls. rewrite P, Ha, Hb. reflexivity.
  - intros P c Hc. unfold distance_from. mstep. mstep. mstep.
    unfold is_point in P. unfold is_point_cls. rewrite P, Ha, Hb, Hc. reflexivity.
Qed.

(** ** Position in the tier *)
Lemma index_of_nth x l i : nth_error l i = Some x -> List.NoDup l -> index_of x l = Some i.
Proof.
  revert i; induction l as [|y l IH]; intros i Hi Hnd; [destruct i; discriminate|].
  simpl. inversion Hnd as [|? ? N1 N2]; subst. destruct i as [|i]; simpl in Hi.
  - injection Hi as ->. rewrite Nat.eqb_refl. reflexivity.
  - destruct (Nat.eqb_spec x y) as [->|_]; [destruct N1; eapply nth_error_In; eauto|].
    rewrite (IH i Hi N2). reflexivity.
Qed.
Lemma c41_tierwise : forall h x t i k, s_intier (sob h x) = Some t -> NoDup (t_seq (tob h t)) ->
  nth_error (t_seq (tob h t)) i = Some x ->
  let n := Z.of_nat (List.length (t_seq (tob h t))) in
  let j := Z.of_nat i + k in
  (0 <= j < n -> exists y, get_tierwise x k h = Ok (Some y) h /\ nth_error (t_seq (tob h t)) (Z.to_nat j) = Some y) /\
  (n <= j \/ j < - n -> get_tierwise x k h = Raise IndexError h) /\
  (- n <= j < 0 -> exists y, get_tierwise x k h = Ok (Some y) h /\ nth_error (t_seq (tob h t)) (Z.to_nat (n + j)) = Some y).
Proof.
  intros h x t i k Ht Hnd Hi n j. apply NoDup_ListNoDup in Hnd.
  assert (E : get_tierwise x k h =
    match py_index (t_seq (tob h t)) j with Some y => Ok (Some y) h | None => Raise IndexError h end).
  { unfold get_tierwise. mstep. rewrite Ht. unfold tier_index. mstep. mstep. rewrite Ht. mstep. mstep.
    rewrite (index_of_nth x _ i) by auto. mstep. mstep. fold j. destruct (py_index _ _); reflexivity. }
  rewrite E. unfold py_index. split; [|split].
  - intros Hj. rewrite (proj2 (Z.leb_le 0 j)) by lia.
    destruct (nth_error (t_seq (tob h t)) (Z.to_nat j)) as [y|] eqn:Ey; [eauto|].
    apply nth_error_None in Ey. unfold n in Hj. lia.
  - intros Hj. destruct (Z.leb_spec 0 j).
    + destruct (nth_error (t_seq (tob h t)) (Z.to_nat j)) as [y|] eqn:Ey; [|reflexivity].
      assert (Z.to_nat j < List.length (t_seq (tob h t)))%nat by (apply nth_error_Some; congruence). unfold n in Hj. lia.
    + destruct (Z.leb_spec (- n) j); [lia|]. fold n. rewrite (proj2 (Z.leb_gt (- n) j)) by lia. reflexivity.
  - intros Hj. rewrite (proj2 (Z.leb_gt 0 j)) by lia. fold n. rewrite (proj2 (Z.leb_le (- n) j)) by lia.
    destruct (nth_error (t_seq (tob h t)) (Z.to_nat (n + j))) as [y|] eqn:Ey; [eauto|].
    apply nth_error_None in Ey. unfold n in *. lia.
Qed.
Lemma c41_self : forall h x t, s_intier (sob h x) = Some t -> NoDup (t_seq (tob h t)) ->
  In x (t_seq (tob h t)) -> get_tierwise x 0 h = Ok (Some x) h.
Proof.
  intros h x t Ht Hnd Hi. apply In_nth_error in Hi. destruct Hi as [i Hi].
  destruct (c41_tierwise h x t i 0 Ht Hnd Hi) as [A _].
  assert (i < List.length (t_seq (tob h t)))%nat by (apply nth_error_Some; congruence).
  destruct A as (y & E & Ey); [lia|]. rewrite Z.add_0_r, Nat2Z.id in Ey. congruence.
Qed.

(** ** validate *)
Lemma isclose_spec a b : isclose a b = true <-> near a b.
Proof. unfold isclose, near. apply Z.leb_le. Qed.
Lemma allclose_spec : forall a b, List.length a = List.length b ->
  allclose a b = true <-> (forall i x y, nth_error a i = Some x -> nth_error b i = Some y -> near x y).
Proof.
  induction a as [|x a IH]; intros [|y b] L; simpl in L; try lia.
  - simpl. split; [intros _ [|i]; discriminate|auto].
  - simpl. rewrite andb_true_iff, isclose_spec, IH by lia. split.
    + intros [A B] [|i] u v; simpl; [intros [= <-] [= <-]; auto|apply B].
    + intros K. split; [apply (K O); reflexivity|]. intros i u v. apply (K (S i)).
Qed.

Lemma hd_nth (l : list Z) : hd 0 l = nth 0 l 0.
Proof. destruct l; reflexivity. Qed.
Lemma last_nth (l : list Z) : List.last l 0 = nth (List.length l - 1) l 0.
Proof.
  induction l as [|x [|y l] IH]; [reflexivity|reflexivity|].
  change (List.last (x :: y :: l) 0) with (List.last (y :: l) 0). rewrite IH. simpl.
  rewrite Nat.sub_0_r. reflexivity.
Qed.
Lemma nth_error_removelast {A} (l : list A) i : (S i < List.length l)%nat -> nth_error (removelast l) i = nth_error l i.
Proof.
  revert i; induction l as [|x [|y l] IH]; intros i Hi; [reflexivity|simpl in Hi; lia|].
  change (removelast (x :: y :: l)) with (x :: removelast (y :: l)).
  destruct i as [|i]; [reflexivity|]. apply IH. simpl in *. lia.
Qed.
Lemma length_removelast {A} (l : list A) : List.length (removelast l) = (List.length l - 1)%nat.
Proof.
  induction l as [|x [|y l] IH]; [reflexivity|reflexivity|].
  change (removelast (x :: y :: l)) with (x :: removelast (y :: l)).
  change (List.length (x :: removelast (y :: l))) with (S (List.length (removelast (y :: l)))).
  rewrite IH. simpl. lia.
Qed.
Lemma nth_error_tl {A} (l : list A) i : nth_error (tl l) i = nth_error l (S i).
Proof. destruct l; [destruct i; reflexivity|reflexivity]. Qed.

Lemma c30_validate : forall h s st en, s_start (sob h s) = Some st -> s_end (sob h s) = Some en ->
  (forall x, In x (s_subset (sob h s)) -> timed_both h x) ->
  exists b, seq_validate s h = Ok b h /\
    (b = true <->
      s_subset (sob h s) = [] \/
      ((forall x a, nth_error (s_subset (sob h s)) 0 = Some x -> s_start (sob h x) = Some a -> near st a) /\
       (forall x a, nth_error (s_subset (sob h s)) (List.length (s_subset (sob h s)) - 1) = Some x ->
          end_at h x = Some a -> near en a) /\
       (forall i x y a b, nth_error (s_subset (sob h s)) i = Some x -> nth_error (s_subset (sob h s)) (S i) = Some y ->
          end_at h x = Some a -> s_start (sob h y) = Some b -> near b a))).
Proof.
  intros h s st en Hs He T. unfold seq_validate. rewrite Hs, He. set (l := s_subset (sob h s)) in *.
  destruct (all_some_map (start_of h) l) as (sts & E1 & _).
  { intros x Hx. destruct (T x Hx) as [A _]. unfold start_of. destruct (s_start (sob h x)); [eauto|congruence]. }
  destruct (all_some_map (end_of h) l) as (ens & E2 & _).
  { intros x Hx. destruct (T x Hx) as [_ A]. rewrite end_of_at. destruct (end_at h x); [eauto|congruence]. }
  unfold starts_of, ends_of. rewrite E1, E2.
  pose proof (all_some_nth _ _ _ E1) as [L1 N1]. pose proof (all_some_nth _ _ _ E2) as [L2 N2]. clear E1 E2.
  destruct (decide (l = [])) as [El|El].
  { rewrite El. exists true. split; [reflexivity|]. tauto. }
  eexists. split; [destruct l; [congruence|reflexivity]|].
  assert (Hlen : (0 < List.length l)%nat) by (destruct l; [congruence|simpl; lia]).
  rewrite !andb_true_iff, !isclose_spec, allclose_spec.
  2:{ rewrite length_removelast. destruct sts; simpl in *; lia. }
  rewrite hd_nth, last_nth, L2.
  split.
  - intros [[A B] C]. right. split; [|split].
    + intros x a Hx Ha. destruct (N1 _ _ Hx) as (v & V1 & V2). unfold start_of in V2.
      rewrite (nth_error_nth _ _ 0 V1) in A. congruence.
    + intros x a Hx Ha. destruct (N2 _ _ Hx) as (v & V1 & V2). rewrite end_of_at in V2.
      rewrite (nth_error_nth _ _ 0 V1) in B. congruence.
    + intros i x y a b Hx Hy Ha Hb. destruct (N2 _ _ Hx) as (v & V1 & V2). rewrite end_of_at in V2.
      destruct (N1 _ _ Hy) as (w & W1 & W2). unfold start_of in W2.
      apply (C i); [rewrite nth_error_tl; congruence|].
      rewrite nth_error_removelast; [congruence|]. rewrite L2. apply nth_error_Some. congruence.
  - intros [?|(A & B & C)]; [congruence|].
    destruct (nth_error l 0) as [x0|] eqn:E0; [|apply nth_error_None in E0; lia].
    destruct (nth_error l (List.length l - 1)) as [x1|] eqn:E1; [|apply nth_error_None in E1; lia].
    destruct (N1 _ _ E0) as (v & V1 & V2). destruct (N2 _ _ E1) as (w & W1 & W2). rewrite end_of_at in W2.
    rewrite (nth_error_nth _ _ 0 V1), (nth_error_nth _ _ 0 W1).
    split; [split; [eapply A; eauto|eapply B; eauto]|].
    intros i a b Ha Hb. rewrite nth_error_tl in Ha.
    assert (Hi : (S i < List.length l)%nat) by (rewrite <- L1; apply nth_error_Some; congruence).
    rewrite nth_error_removelast in Hb by lia.
    destruct (nth_error l i) as [x|] eqn:Ex; [|apply nth_error_None in Ex; lia].
    destruct (nth_error l (S i)) as [y|] eqn:Ey; [|apply nth_error_None in Ey; lia].
    destruct (N2 _ _ Ex) as (p & P1 & P2). rewrite end_of_at in P2. destruct (N1 _ _ Ey) as (q & Q1 & Q2).
    unfold start_of in Q2. eapply (C i x y b a); congruence.
Qed.

(** ** The setters *)
Lemma zip_set_ok f : forall l ts h, NoDup l -> (forall x, In x l -> live h x) -> List.length ts = List.length l ->
  exists h', zip_set f ts l h = Ok tt h' /\ same_rest h h' /\
    List.length (h_seq h') = List.length (h_seq h) /\
    (forall i x z, nth_error l i = Some x -> nth_error ts i = Some z -> sob h' x = f z (sob h x)) /\
    (forall x, ~ In x l -> sob h' x = sob h x).
Proof.
  induction l as [|x l IH]; intros [|z ts] h Hnd Hl Hlen; simpl in Hlen; try lia.
  - exists h. split; [reflexivity|]. split; [repeat split|]. split; [auto|]. split; [|auto]. intros [|i]; discriminate.
  - apply NoDup_cons in Hnd. destruct Hnd as [N1 N2]. rewrite elem_of_list_In in N1.
    destruct (IH ts (upd_seq x (f z) h)) as (h' & E & R & Ln & A & B); [auto| |lia|].
    { intros y Hy. apply live_upd. apply Hl. simpl; auto. }
    exists h'. split; [cbn [zip_set]; mstep; exact E|].
    split; [destruct R as (R1 & R2 & R3 & R4); repeat split; auto|].
    split; [rewrite Ln; apply len_upd_seq|].
    assert (Hx : sob (upd_seq x (f z) h) x = f z (sob h x)) by (apply sob_upd_eq, Hl; simpl; auto).
    split.
    + intros [|i] y w Hy Hw; simpl in Hy, Hw.
      * injection Hy as <-. injection Hw as <-. rewrite B by auto. exact Hx.
      * rewrite (A i y w) by auto. rewrite sob_upd_ne; [reflexivity|].
        intros ->. apply N1. eapply nth_error_In; eauto.
    + intros y Hy. simpl in Hy. rewrite B by tauto. apply sob_upd_ne. intros ->. tauto.
Qed.

Lemma c21_starts : forall h t ts, NoDup (t_seq (tob h t)) ->
  (forall x, In x (t_seq (tob h t)) -> (x < List.length (h_seq h))%nat) ->
  List.length ts = List.length (t_seq (tob h t)) ->
  exists h', set_starts t ts h = Ok tt h' /\ same_rest h h' /\ List.length (h_seq h') = List.length (h_seq h) /\
    map (fun x => s_start (sob h' x)) (t_seq (tob h' t)) = map Some ts /\
    (forall x, In x (t_seq (tob h t)) -> s_end (sob h' x) = s_end (sob h x) /\ same_but_times (sob h x) (sob h' x)) /\
    (forall x, ~ In x (t_seq (tob h t)) -> sob h' x = sob h x).
Proof.
  intros h t ts Hnd Hl Hlen. destruct (zip_set_ok (fun z => set_s_start (Some z)) _ ts h Hnd Hl Hlen)
    as (h' & E & R & Ln & A & B).
  exists h'. split.
  { unfold set_starts. mstep. rewrite Hlen, Nat.eqb_refl. exact E. }
  split; [exact R|]. split; [exact Ln|].
  assert (Ht : t_seq (tob h' t) = t_seq (tob h t)).
  { unfold tob. destruct R as (_ & -> & _). reflexivity. }
  rewrite Ht. split; [|split; [|exact B]].
  - apply list_eq. intros i. rewrite !list_lookup_fmap.
    destruct (t_seq (tob h t) !! i) as [x|] eqn:Ex; destruct (ts !! i) as [z|] eqn:Ez; simpl.
    + rewrite (A i x z) by (rewrite nth_error_lookup; auto). reflexivity.
    + apply lookup_ge_None in Ez. apply lookup_lt_Some in Ex. lia.
    + apply lookup_ge_None in Ex. apply lookup_lt_Some in Ez. lia.
    + reflexivity.
  - intros x Hx. apply In_nth_error in Hx. destruct Hx as [i Hi].
    destruct (nth_error ts i) as [z|] eqn:Ez.
    2:{ apply nth_error_None in Ez. assert (i < List.length (t_seq (tob h t)))%nat by (apply nth_error_Some; congruence). lia. }
    rewrite (A i x z Hi Ez). repeat split.
Qed.
Lemma c21_ends : forall h t ts, NoDup (t_seq (tob h t)) ->
  (forall x, In x (t_seq (tob h t)) -> (x < List.length (h_seq h))%nat) ->
  List.length ts = List.length (t_seq (tob h t)) ->
  exists h', set_ends t ts h = Ok tt h' /\ same_rest h h' /\ List.length (h_seq h') = List.length (h_seq h) /\
    map (fun x => s_end (sob h' x)) (t_seq (tob h' t)) = map Some ts /\
    (forall x, In x (t_seq (tob h t)) -> s_start (sob h' x) = s_start (sob h x) /\ same_but_times (sob h x) (sob h' x)) /\
    (forall x, ~ In x (t_seq (tob h t)) -> sob h' x = sob h x).
Proof.
  intros h t ts Hnd Hl Hlen. destruct (zip_set_ok (fun z => set_s_end (Some z)) _ ts h Hnd Hl Hlen)
    as (h' & E & R & Ln & A & B).
  exists h'. split.
  { unfold set_ends. mstep. rewrite Hlen, Nat.eqb_refl. exact E. }
  split; [exact R|]. split; [exact Ln|].
  assert (Ht : t_seq (tob h' t) = t_seq (tob h t)).
  { unfold tob. destruct R as (_ & -> & _). reflexivity. }
  rewrite Ht. split; [|split; [|exact B]].
  - apply list_eq. intros i. rewrite !list_lookup_fmap.
    destruct (t_seq (tob h t) !! i) as [x|] eqn:Ex; destruct (ts !! i) as [z|] eqn:Ez; simpl.
    + rewrite (A i x z) by (rewrite nth_error_lookup; auto). reflexivity.
    + apply lookup_ge_None in Ez. apply lookup_lt_Some in Ex. lia.
    + apply lookup_ge_None in Ex. apply lookup_lt_Some in Ez. lia.
    + reflexivity.
  - intros x Hx. apply In_nth_error in Hx. destruct Hx as [i Hi].
    destruct (nth_error ts i) as [z|] eqn:Ez.
    2:{ apply nth_error_None in Ez. assert (i < List.length (t_seq (tob h t)))%nat by (apply nth_error_Some; congruence). lia. }
    rewrite (A i x z Hi Ez). repeat split.
Qed.
Lemma c21_length : forall h t ts, List.length ts <> List.length (t_seq (tob h t)) ->
  set_starts t ts h = Raise PyException h /\ set_ends t ts h = Raise PyException h.
Proof.
  intros h t ts Hne. unfold set_starts, set_ends. rewrite !bind_get_tier.
  rewrite (proj2 (Nat.eqb_neq _ _)) by auto. split; reflexivity.
Qed.

(** ** Shifting *)
Definition tier_all (h : heap) (t : tid) : list oid := t_seq (tob h t).
Lemma tier_shift_ok d t h : NoDup (t_seq (tob h t)) ->
  (forall x, In x (t_seq (tob h t)) -> live h x) -> timed_tier h t -> tier_kind h t ->
  tier_shift d t h = Ok tt (shifts d (t_seq (tob h t)) h).
Proof.
  intros Hnd Hl T K. destruct (timed_times h t T) as (st & en & E1 & E2).
  pose proof (all_some_nth _ _ _ E1) as [L1 N1]. pose proof (all_some_nth _ _ _ E2) as [L2 N2].
  unfold tier_shift. mstep. rewrite E1.
  destruct (c21_starts h t (map (fun a => fadd a d) st)) as (h1 & A1 & R1 & _ & S1 & M1 & O1); auto.
  { rewrite map_length. auto. }
  rewrite (bind_ok _ _ _ _ _ A1). mstep.
  assert (Hc : h_cls h1 = h_cls h) by apply R1.
  assert (Ht1 : tob h1 t = tob h t) by (unfold tob; destruct R1 as (_ & -> & _); reflexivity).
  assert (Hp : is_point_tier h1 t = is_point_cls h (t_ec (tob h t))).
  { unfold is_point_tier, is_point_cls, issubclass. rewrite Ht1, Hc. reflexivity. }
  rewrite Hp. rewrite Ht1 in S1.
  assert (St : forall x, In x (t_seq (tob h t)) -> s_start (sob h1 x) = option_map (fun a => fadd a d) (s_start (sob h x))).
  { intros x Hx. apply In_nth_error in Hx. destruct Hx as [i Hi].
    destruct (N1 i x Hi) as (a & Ha & Hs). unfold start_of in Hs. rewrite Hs. simpl.
    assert (X : nth_error (map (fun x => s_start (sob h1 x)) (t_seq (tob h t))) i = Some (s_start (sob h1 x)))
      by (rewrite nth_error_map, Hi; reflexivity).
    rewrite S1, !nth_error_map, Ha in X. simpl in X. congruence. }
  assert (Ln1 : List.length (h_seq h1) = List.length (h_seq h)).
  { unfold set_starts in A1. rewrite bind_get_tier in A1.
    destruct (zip_set_ok (fun z => set_s_start (Some z)) _ (map (fun a => fadd a d) st) h Hnd Hl) as (h1' & E' & _ & Ln' & _).
    { rewrite map_length. auto. }
    rewrite map_length, L1, Nat.eqb_refl in A1. cbn [negb] in A1. congruence. }
  assert (Fin : forall h2, same_rest h h2 -> List.length (h_seq h2) = List.length (h_seq h) ->
    (forall x, In x (t_seq (tob h t)) -> sob h2 x = shift_obj (is_pt h x) d (sob h x)) ->
    (forall x, ~ In x (t_seq (tob h t)) -> sob h2 x = sob h x) -> h2 = shifts d (t_seq (tob h t)) h).
  { intros h2 R2 L2' I2 O2. destruct (shifts_frame d (t_seq (tob h t)) h) as (F1 & F2 & F3 & F4).
    pose proof (shifts_shape d (t_seq (tob h t)) h) as (_ & F5 & _).
    assert (Hs : h_seq h2 = h_seq (shifts d (t_seq (tob h t)) h)).
    { apply list_eq. intros i. destruct (decide (live h i)) as [Li|Li].
      - assert (S2 : sob h2 i = sob (shifts d (t_seq (tob h t)) h) i).
        { destruct (in_dec Nat.eq_dec i (t_seq (tob h t))) as [Hi|Hi].
          - rewrite I2, sob_shifts_in; auto.
          - rewrite O2, sob_shifts_notin; auto. }
        unfold sob in S2. unfold live in Li.
        destruct (lookup_lt_is_Some_2 (h_seq h2) i) as [a Ea]; [lia|].
        destruct (lookup_lt_is_Some_2 (h_seq (shifts d (t_seq (tob h t)) h)) i) as [b Eb]; [lia|].
        rewrite Ea, Eb in *. simpl in S2. congruence.
      - unfold live in Li. rewrite !lookup_ge_None_2 by lia. reflexivity. }
    destruct R2 as (B1 & B2 & B3 & B4). destruct h2, (shifts d (t_seq (tob h t)) h). simpl in *. congruence. }
  destruct (is_point_cls h (t_ec (tob h t))) eqn:P.
  - unfold ret. f_equal. apply Fin; auto.
    intros x Hx. assert (Px : is_pt h x = true).
    { unfold is_pt, is_point_cls. specialize (K x Hx). unfold is_point in K. unfold is_point_cls in P. congruence. }
    rewrite Px. unfold shift_obj. destruct (M1 x Hx) as (Me & Mo). specialize (St x Hx).
    destruct Mo as (O2 & O3 & O4 & O5 & O6 & O7 & O8 & O9 & O10 & O11).
    destruct (sob h x), (sob h1 x). simpl in *. unfold set_s_start. simpl. congruence.
  - assert (Px : forall x, In x (t_seq (tob h t)) -> is_pt h x = false).
    { intros x Hx. unfold is_pt, is_point_cls. specialize (K x Hx). unfold is_point in K. unfold is_point_cls in P. congruence. }
    assert (Et : tends h1 t = tends h t).
    { unfold tends, ends_of. rewrite Ht1. apply map_ext_in. intros x Hx. unfold end_of.
      destruct (M1 x Hx) as (Me & Mc & _). rewrite Mc, Me. unfold is_point_cls, issubclass. rewrite Hc.
      specialize (Px x Hx). unfold is_pt, is_point_cls, issubclass in Px. rewrite Px. reflexivity. }
    mstep. rewrite Et, E2.
    destruct (zip_set_ok (fun z => set_s_end (Some z)) (t_seq (tob h1 t)) (map (fun a => fadd a d) en) h1) as (h2 & A2 & R2 & Ln2 & S2 & O2).
    { rewrite Ht1. auto. }
    { rewrite Ht1. intros x Hx. unfold live. rewrite Ln1. apply Hl; auto. }
    { rewrite Ht1, map_length. auto. }
    unfold set_ends. mstep. rewrite Ht1 in *. rewrite map_length, L2, Nat.eqb_refl. cbn [negb]. rewrite A2.
    f_equal. apply Fin.
    + destruct R1 as (? & ? & ? & ?), R2 as (? & ? & ? & ?). repeat split; congruence.
    + lia.
    + intros x Hx. rewrite (Px x Hx). unfold shift_obj.
      destruct (M1 x Hx) as (Me & Mo). specialize (St x Hx).
      apply In_nth_error in Hx. destruct Hx as [i Hi]. destruct (N2 i x Hi) as (e & He & Hee).
      rewrite (S2 i x (fadd e d)); auto; [|rewrite nth_error_map, He; reflexivity].
      assert (Hse : s_end (sob h x) = Some e).
      { unfold end_of in Hee. specialize (Px x). unfold is_pt in Px. rewrite Px in Hee; auto. eapply nth_error_In; eauto. }
      destruct Mo as (Q2 & Q3 & Q4 & Q5 & Q6 & Q7 & Q8 & Q9 & Q10 & Q11).
      destruct (sob h x), (sob h1 x). simpl in *. unfold set_s_start, set_s_end. simpl. subst. reflexivity.
    + intros x Hx. rewrite O2, O1 by auto. reflexivity.
Qed.
Lemma shifts_moved d l h : NoDup l -> (forall x, In x l -> live h x) -> shifted d l h (shifts d l h).
Proof.
  intros Hnd Hl. destruct (shifts_frame d l h) as (A & B & C & D).
  split; [repeat split; auto|]. split; [apply shifts_shape|].
  split; [intros x Hx; apply sob_shifts_notin; auto|].
  intros x Hx. rewrite sob_shifts_in by auto. unfold is_point. fold (is_point_cls h (s_cls (sob h x))). fold (is_pt h x).
  unfold shift_obj. destruct (is_pt h x); repeat split.
Qed.
Lemma forM_tier_shift d : forall ts h, shiftable h ts ->
  forM ts (tier_shift d) h = Ok tt (shifts d (entries_of h ts) h).
Proof.
  induction ts as [|t ts IH]; intros h (N & L & K); [reflexivity|].
  unfold entries_of in N, L |- *. cbn [flat_map] in N, L |- *. apply NoDup_app in N. destruct N as (N1 & N2 & N3).
  cbn [forM].
  assert (E : tier_shift d t h = Ok tt (shifts d (t_seq (tob h t)) h)).
  { destruct (K t) as [K1 K2]; [simpl; auto|]. apply tier_shift_ok; auto.
    intros x Hx. apply L, in_app_iff. auto. }
  rewrite (bind_ok _ _ _ _ _ E).
  destruct (shifts_moved d (t_seq (tob h t)) h) as ((R1 & R2 & R3 & R4) & Ln & O & I).
  { auto. } { intros x Hx. apply L, in_app_iff. auto. }
  set (h1 := shifts d (t_seq (tob h t)) h) in *.
  assert (Ht : forall u, tob h1 u = tob h u) by (intros u; unfold tob; rewrite R2; reflexivity).
  assert (Fe : entries_of h1 ts = entries_of h ts).
  { unfold entries_of. apply flat_map_ext. intros u. rewrite Ht. reflexivity. }
  rewrite IH.
  - rewrite Fe. unfold h1. rewrite shifts_app. reflexivity.
  - split; [rewrite Fe; auto|]. split.
    + rewrite Fe, Ln. intros x Hx. apply L, in_app_iff. auto.
    + intros u Hu. destruct (K u) as [K1 K2]; [simpl; auto|].
      assert (Same : forall x, In x (t_seq (tob h u)) -> sob h1 x = sob h x).
      { intros x Hx. apply O. intros Hx'. apply (N2 x).
        - apply elem_of_list_In; auto.
        - apply elem_of_list_In. apply in_flat_map. eauto. }
      split; intros x Hx; rewrite Ht in Hx.
      * destruct (K1 x Hx) as [A B]. unfold timed_both, end_at, is_point, issubclass. rewrite (Same x Hx), R1.
        split; [exact A|exact B].
      * unfold is_point, issubclass. rewrite (Same x Hx), R1, Ht. apply K2; auto.
Qed.

Lemma c22_tier : forall h d t, shiftable h [t] ->
  exists h', tier_shift d t h = Ok tt h' /\ shifted d (t_seq (tob h t)) h h'.
Proof.
  intros h d t S. pose proof (forM_tier_shift d [t] h S) as E. destruct S as (N & L & K).
  cbn [forM] in E. apply bind_inv in E. destruct E as ([] & h1 & E1 & E2). injection E2 as ->.
  eexists. split; [exact E1|]. unfold entries_of in *. cbn [flat_map] in *. rewrite app_nil_r in *.
  apply shifts_moved; auto.
Qed.
Lemma c22_group : forall h d g, shiftable h (g_tiers (gob h g)) ->
  exists h', grp_shift d g h = Ok tt h' /\ shifted d (entries_of h (g_tiers (gob h g))) h h'.
Proof.
  intros h d g S. eexists. split; [unfold grp_shift; mstep; apply forM_tier_shift; auto|].
  destruct S as (N & L & K). apply shifts_moved; auto.
Qed.
Lemma grid_shift_ok d gs : forall h, shiftable h (tiers_of h gs) ->
  forM gs (grp_shift d) h = Ok tt (shifts d (entries_of h (tiers_of h gs)) h).
Proof.
  intros h S. pose proof (forM_tier_shift d (tiers_of h gs) h S) as E. rewrite <- E. clear S E.
  assert (G : forall h', h_grp h' = h_grp h ->
    forM gs (grp_shift d) h' = forM (tiers_of h gs) (tier_shift d) h'); [|apply G; auto].
  unfold tiers_of. induction gs as [|g gs IH]; intros h' Hg; [reflexivity|].
  cbn [forM flat_map]. rewrite forM_app. unfold grp_shift at 1. mstep. mstep.
  replace (gob h' g) with (gob h g) by (unfold gob; rewrite Hg; reflexivity).
  assert (Fr : forall ts h1 r, forM ts (tier_shift d) h1 = r -> h_grp (heap_of r) = h_grp h1).
  { assert (Z : forall f ts l h1, h_grp (heap_of (zip_set f ts l h1)) = h_grp h1).
    { intros f ts l; revert ts; induction l as [|x l IHl]; intros [|z ts] h1; try reflexivity.
      cbn [zip_set]. mstep. rewrite IHl. reflexivity. }
    assert (T : forall t h1, h_grp (heap_of (tier_shift d t h1)) = h_grp h1).
    { intros t h1. unfold tier_shift. mstep. destruct (all_some _); [|reflexivity].
      unfold set_starts, set_ends. mstep. mstep. destruct (negb _); [reflexivity|].
      unfold bind. match goal with |- context [zip_set ?f ?a ?b ?c] => pose proof (Z f a b c) as Z1; destruct (zip_set f a b c) as [[] h2|] end.
      2: exact Z1. simpl in Z1. unfold gets. destruct (is_point_tier h2 t); [exact Z1|]. destruct (all_some _); [|exact Z1].
      unfold get_tier, gets. destruct (negb _); [exact Z1|]. rewrite Z. exact Z1. }
    induction ts as [|t ts IHt]; intros h1 r <-; [reflexivity|]. cbn [forM]. unfold bind.
    specialize (T t h1). destruct (tier_shift d t h1) as [[] h2|]; [|exact T]. rewrite (IHt h2 _ eq_refl). exact T. }
  destruct (forM (g_tiers (gob h g)) (tier_shift d) h') as [[] h1|e h1] eqn:E1.
  - rewrite !(bind_ok _ _ _ _ _ E1). apply IH. apply Fr in E1. simpl in E1. congruence.
  - rewrite !(bind_raise _ _ _ _ _ E1). reflexivity.
Qed.
Lemma c22_grid : forall h d a, shiftable h (tiers_of h (a_groups (aob h a))) ->
  exists h', grid_shift d a h = Ok tt h' /\ shifted d (entries_of h (tiers_of h (a_groups (aob h a)))) h h'.
Proof.
  intros h d a S. eexists. split.
  - unfold grid_shift, get_grid. rewrite bind_gets. apply grid_shift_ok; auto.
  - destruct S as (N & L & K). apply shifts_moved; auto.
Qed.

(** Shifting back. *)
Lemma moved_shiftable d l h h' ts : shifted d l h h' -> shiftable h ts ->
  (forall t, In t ts -> forall x, In x (t_seq (tob h t)) -> In x l) -> shiftable h' ts /\ entries_of h' ts = entries_of h ts.
Proof.
  intros ((R1 & R2 & R3 & R4) & Ln & O & I) (N & L & K) Hin.
  assert (Ht : forall u, tob h' u = tob h u) by (intros u; unfold tob; rewrite R2; reflexivity).
  assert (Fe : entries_of h' ts = entries_of h ts).
  { unfold entries_of. apply flat_map_ext. intros u. rewrite Ht. reflexivity. }
  split; [|exact Fe]. split; [rewrite Fe; auto|]. split; [rewrite Fe, Ln; auto|].
  intros t Ht'. destruct (K t Ht') as [K1 K2].
  assert (P : forall x, In x (t_seq (tob h t)) -> is_point h' x = is_point h x).
  { intros x Hx. unfold is_point, issubclass. rewrite R1. destruct (I x (Hin t Ht' x Hx)) as ((-> & _) & _). reflexivity. }
  split; intros x Hx; rewrite Ht in Hx.
  - destruct (K1 x Hx) as [A B]. destruct (I x (Hin t Ht' x Hx)) as (_ & S1 & S2).
    split.
    + rewrite S1. destruct (s_start (sob h x)); simpl; congruence.
    + unfold end_at in *. rewrite P by auto. destruct (is_point h x).
      * rewrite S1. destruct (s_start (sob h x)); simpl; congruence.
      * rewrite S2. destruct (s_end (sob h x)); simpl; congruence.
  - rewrite P by auto. unfold issubclass. rewrite R1, Ht. apply K2; auto.
Qed.
Lemma moved_back d l h h1 h2 : (forall a b, fadd a b = a + b) ->
  shifted d l h h1 -> shifted (- d) l h1 h2 -> h2 = h.
Proof.
  intros Ex ((R1 & R2 & R3 & R4) & Ln & O & I) ((R1' & R2' & R3' & R4') & Ln' & O' & I').
  assert (U : forall v, option_map (fun a => fadd a (- d)) (option_map (fun a => fadd a d) v) = v).
  { intros [v|]; [|reflexivity]. simpl. rewrite !Ex. f_equal. lia. }
  assert (Hs : h_seq h2 = h_seq h).
  { apply list_eq. intros i. destruct (decide (live h i)) as [Li|Li].
    - assert (S2 : sob h2 i = sob h i).
      { destruct (in_dec Nat.eq_dec i l) as [Hi|Hi]; [|rewrite O', O; auto].
        destruct (I i Hi) as (A & B & C). destruct (I' i Hi) as (A' & B' & C').
        assert (P : is_point h1 i = is_point h i).
        { unfold is_point, issubclass. rewrite R1. destruct A as (-> & _). reflexivity. }
        rewrite P in C'. rewrite B, U in B'.
        assert (C2 : s_end (sob h2 i) = s_end (sob h i)).
        { rewrite C'. destruct (is_point h i); rewrite C; auto. }
        clear B C C' P O I O' I' U.
        destruct A as (A1 & A2 & A3 & A4 & A5 & A6 & A7 & A8 & A9 & A10).
        destruct A' as (A1' & A2' & A3' & A4' & A5' & A6' & A7' & A8' & A9' & A10').
        destruct (sob h2 i), (sob h1 i), (sob h i). simpl in *. subst. reflexivity. }
      unfold sob in S2. unfold live in Li.
      destruct (lookup_lt_is_Some_2 (h_seq h2) i) as [a Ea]; [lia|].
      destruct (lookup_lt_is_Some_2 (h_seq h) i) as [b Eb]; [lia|].
      rewrite Ea, Eb in *. simpl in S2. congruence.
    - unfold live in Li. rewrite !lookup_ge_None_2 by lia. reflexivity. }
  destruct h2, h. simpl in *. congruence.
Qed.
Lemma c22_undo : forall h d a, (forall x y, fadd x y = x + y) -> shiftable h (tiers_of h (a_groups (aob h a))) ->
  (grid_shift d a ;;; grid_shift (- d) a) h = Ok tt h.
Proof.
  intros h d a Ex S. destruct (c22_grid h d a S) as (h1 & E1 & M1).
  rewrite (bind_ok _ _ _ _ _ E1).
  assert (Ha : aob h1 a = aob h a) by (unfold aob; destruct M1 as ((_ & _ & _ & ->) & _); reflexivity).
  assert (Hg : tiers_of h1 (a_groups (aob h1 a)) = tiers_of h (a_groups (aob h a))).
  { rewrite Ha. unfold tiers_of. apply flat_map_ext. intros g. unfold gob. destruct M1 as ((_ & _ & -> & _) & _). reflexivity. }
  destruct (moved_shiftable _ _ _ _ (tiers_of h (a_groups (aob h a))) M1 S) as [S1 E].
  { intros t Ht x Hx. apply in_flat_map. eauto. }
  rewrite <- Hg in S1. destruct (c22_grid h1 (- d) a S1) as (h2 & E2 & M2).
  rewrite E2. rewrite Hg, E in M2. f_equal. eapply moved_back; eauto.
Qed.
(** Rounding or not, no two times change order. *)
Lemma c22_order : forall h h' d a, shiftable h (tiers_of h (a_groups (aob h a))) -> grid_shift d a h = Ok tt h' ->
  forall x y, In x (entries_of h (tiers_of h (a_groups (aob h a)))) -> In y (entries_of h (tiers_of h (a_groups (aob h a)))) ->
  (forall a b a' b', s_start (sob h x) = Some a -> s_start (sob h y) = Some b ->
     s_start (sob h' x) = Some a' -> s_start (sob h' y) = Some b' -> a <= b -> a' <= b') /\
  (forall a b a' b', end_at h x = Some a -> s_start (sob h y) = Some b ->
     end_at h' x = Some a' -> s_start (sob h' y) = Some b' -> a <= b -> a' <= b') /\
  (forall a b a' b', s_start (sob h x) = Some a -> end_at h y = Some b ->
     s_start (sob h' x) = Some a' -> end_at h' y = Some b' -> a <= b -> a' <= b').
Proof.
  intros h h' d g Sh Eg x y Hx Hy.
  destruct (c22_grid h d g Sh) as (h1 & E1 & ((R1 & _) & _ & _ & I)).
  assert (h1 = h') by congruence. subst h1.
  assert (P : forall z, In z (entries_of h (tiers_of h (a_groups (aob h g)))) ->
     s_start (sob h' z) = option_map (fun a => fadd a d) (s_start (sob h z)) /\
     end_at h' z = option_map (fun a => fadd a d) (end_at h z)).
  { intros z Hz. destruct (I z Hz) as ((A & _) & B & C). split; [auto|].
    unfold end_at, is_point, issubclass in *. rewrite A, R1. destruct (is_sub _ _ _ _); auto. }
  destruct (P x Hx) as [X1 X2]. destruct (P y Hy) as [Y1 Y2]. rewrite X1, X2, Y1, Y2.
  split; [|split]; intros a b a' b' -> ->; simpl; intros [= <-] [= <-]; apply fadd_mono.
Qed.
End WithEnv.
