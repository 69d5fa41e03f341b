(** * LookupFinal: finding intervals at points and across a text grid (C43, C44). *)
From Verif Require Export QueryFinal LookupSpec.
Open Scope Z_scope.

Section WithEnv.
Context `{Env}.

Lemma c43_index : forall h p t z, s_start (sob h p) = Some z -> timed_tier h t -> one_at h t z ->
  exists r, pt_interval_index p t h = Ok r h /\
    (forall i, r = Some i <-> exists x, nth_error (t_seq (tob h t)) i = Some x /\ holds_at h x z) /\
    (r = None <-> forall x, In x (t_seq (tob h t)) -> ~ holds_at h x z).
Proof.
  intros h p t z P T U. unfold pt_interval_index. rewrite bind_get_tier.
  destruct (t_seq (tob h t)) as [|x0 l] eqn:E.
  - exists None. split; [reflexivity|]. split.
    + intros i. split; [discriminate|]. intros (x & Hx & _). destruct i; discriminate.
    + split; [intros _ x []|reflexivity].
  - rewrite bind_get_seq, P. rewrite <- E. apply c19_found; auto.
Qed.
Lemma c43_interval : forall h p t z x, s_start (sob h p) = Some z -> timed_tier h t -> one_at h t z ->
  In x (t_seq (tob h t)) -> holds_at h x z -> pt_interval p t h = Ok (Some x) h.
Proof.
  intros h p t z x P T U Hx Hh. destruct (c43_index h p t z P T U) as (r & E & Hr & _).
  destruct (In_nth_error _ _ Hx) as [i Hi]. assert (r = Some i) by (apply Hr; eauto). subst r.
  unfold pt_interval. rewrite bind_get_tier. destruct (t_seq (tob h t)) as [|y l] eqn:Es; [destruct Hx|].
  rewrite (bind_ok _ _ _ _ _ E), Hi. reflexivity.
Qed.
Lemma c43_none : forall h p t z, s_start (sob h p) = Some z -> timed_tier h t ->
  (forall x, In x (t_seq (tob h t)) -> ~ holds_at h x z) ->
  (t_seq (tob h t) = [] -> pt_interval p t h = Ok None h) /\
  (t_seq (tob h t) <> [] -> pt_interval p t h = Raise TypeError h).
Proof.
  intros h p t z P T K. assert (U : one_at h t z).
  { intros i j x y Hx _ Hh _. destruct (K x); auto. eapply nth_error_In; eauto. }
  destruct (c43_index h p t z P T U) as (r & E & _ & Hr). assert (r = None) by (apply Hr; auto). subst r.
  unfold pt_interval. rewrite bind_get_tier. destruct (t_seq (tob h t)) as [|y l]; split; intros Q; try congruence.
  - reflexivity.
  - rewrite (bind_ok _ _ _ _ _ E). reflexivity.
Qed.
Lemma c43_many : forall h p t z i j x y, s_start (sob h p) = Some z -> timed_tier h t -> i <> j ->
  nth_error (t_seq (tob h t)) i = Some x -> nth_error (t_seq (tob h t)) j = Some y ->
  holds_at h x z -> holds_at h y z ->
  pt_interval_index p t h = Raise TypeError h /\ pt_interval p t h = Raise TypeError h.
Proof.
  intros h p t z i j x y P T N Hx Hy A B. pose proof (c19_many h t z i j x y T N Hx Hy A B) as E.
  assert (K : pt_interval_index p t h = Raise TypeError h).
  { unfold pt_interval_index. rewrite bind_get_tier. destruct (t_seq (tob h t)) as [|w l] eqn:Es; [destruct i; discriminate|].
    rewrite bind_get_seq, P. exact E. }
  split; [exact K|]. unfold pt_interval. rewrite bind_get_tier.
  destruct (t_seq (tob h t)) as [|w l]; [destruct i; discriminate|]. rewrite (bind_raise _ _ _ _ _ K). reflexivity.
Qed.

(** ** Across groups *)
Lemma ask_tier h z (b : bool) t :
  (if b then t_seq (tob h t) <> [] /\ forall x, In x (t_seq (tob h t)) -> s_start (sob h x) <> None
   else timed_tier h t /\ one_at h t z) ->
  exists r, (if b then (i <- nearest_point_index t z ;; ret (Some i)) else get_interval_at_time t z) h = Ok r h /\ answer h b z t r.
Proof.
  intros K. destruct b.
  - destruct K as [Ne Kn]. destruct (c32_nearest h t z Kn Ne) as (i & x & a & E & Hx & Ha & R).
    exists (Some i). split; [rewrite (bind_ok _ _ _ _ _ E); reflexivity|]. exists i. split; [reflexivity|].
    exists x, a. auto.
  - destruct K as [T U]. destruct (c19_found h t z T U) as (r & E & R). exists r. auto.
Qed.
Lemma ask_group h z g : askable h z g ->
  exists r, grp_intervals_at_time z g h = Ok r h /\ Forall2 (answer h (g_points (gob h g)) z) (g_tiers (gob h g)) r.
Proof.
  intros K. unfold grp_intervals_at_time. rewrite bind_get_grp.
  apply mapM_read. intros t Ht. apply ask_tier, K, Ht.
Qed.
Lemma c44_group : forall h z g, askable h z g ->
  exists r, grp_intervals_at_time z g h = Ok r h /\ Forall2 (answer h (g_points (gob h g)) z) (g_tiers (gob h g)) r.
Proof. exact ask_group. Qed.
Lemma c44_grid : forall h z a, (forall g, In g (a_groups (aob h a)) -> askable h z g) ->
  exists r, grid_intervals_at_time z a h = Ok r h /\
    Forall2 (fun g => Forall2 (answer h (g_points (gob h g)) z) (g_tiers (gob h g))) (a_groups (aob h a)) r.
Proof.
  intros h z a K. unfold grid_intervals_at_time. change (get_grid a) with (gets (fun h => aob h a)). rewrite bind_gets.
  apply mapM_read. intros g Hg. apply ask_group, K, Hg.
Qed.
(** One tier that cannot be asked, and nothing is answered for any group. *)
Lemma mapM_raises {A B} (f : A -> M B) h e : forall l x, In x l -> f x h = Raise e h ->
  (forall y, In y l -> f y h = Raise e h \/ exists b, f y h = Ok b h) -> mapM f l h = Raise e h.
Proof.
  induction l as [|y l IH]; intros x Hx E K; [destruct Hx|]. cbn [mapM].
  destruct (K y) as [R|[b R]]; [simpl; auto| |].
  - rewrite (bind_raise _ _ _ _ _ R). reflexivity.
  - rewrite (bind_ok _ _ _ _ _ R). destruct Hx as [->|Hx]; [congruence|].
    assert (R2 : mapM f l h = Raise e h) by (eapply IH; eauto; intros w Hw; apply K; simpl; auto).
    rewrite (bind_raise _ _ _ _ _ R2). reflexivity.
Qed.
Lemma c44_empty_points : forall h z a g t, In g (a_groups (aob h a)) -> g_points (gob h g) = true ->
  In t (g_tiers (gob h g)) -> t_seq (tob h t) = [] ->
  (forall k, In k (a_groups (aob h a)) -> forall u, In u (g_tiers (gob h k)) ->
     (if g_points (gob h k) then forall x, In x (t_seq (tob h u)) -> s_start (sob h x) <> None
      else timed_tier h u /\ one_at h u z)) ->
  grid_intervals_at_time z a h = Raise ValueError h.
Proof.
  intros h z a g t Hg Hp Ht Ne K. unfold grid_intervals_at_time.
  change (get_grid a) with (gets (fun h => aob h a)). rewrite bind_gets.
  assert (D : forall k, In k (a_groups (aob h a)) -> forall u, In u (g_tiers (gob h k)) ->
    let f := fun t0 => if g_points (gob h k) then (i <- nearest_point_index t0 z ;; ret (Some i)) else get_interval_at_time t0 z in
    f u h = Raise ValueError h \/ exists b, f u h = Ok b h).
  { intros k Hk u Hu. cbv zeta. specialize (K k Hk u Hu).
    destruct (g_points (gob h k)) eqn:Ep.
    - destruct (t_seq (tob h u)) eqn:Eu.
      + left. rewrite (bind_raise _ _ _ _ _ (c32_empty h u z Eu)). reflexivity.
      + right. destruct (ask_tier h z true u) as (r & E & _); [|eauto].
        rewrite Eu. split; [discriminate|exact K].
    - right. destruct (ask_tier h z false u K) as (r & E & _). eauto. }
  assert (F : forall k, grp_intervals_at_time z k h =
    mapM (fun t => if g_points (gob h k) then (i <- nearest_point_index t z ;; ret (Some i)) else get_interval_at_time t z) (g_tiers (gob h k)) h).
  { intros k. unfold grp_intervals_at_time. rewrite bind_get_grp. reflexivity. }
  apply (mapM_raises _ _ _ _ g Hg).
  - rewrite F. apply (mapM_raises _ _ _ _ t Ht).
    + rewrite Hp, (bind_raise _ _ _ _ _ (c32_empty h t z Ne)). reflexivity.
    + intros u Hu. apply (D g Hg u Hu).
  - intros k Hk. rewrite F. specialize (D k Hk). cbv zeta in D. revert D.
    generalize (fun t0 => if g_points (gob h k) then (i <- nearest_point_index t0 z ;; ret (Some i)) else get_interval_at_time t0 z).
    induction (g_tiers (gob h k)) as [|u l IH]; intros f D; [right; eexists; reflexivity|].
    cbn [mapM]. destruct (D u) as [R|[b R]]; [simpl; auto| |].
    + left. rewrite (bind_raise _ _ _ _ _ R). reflexivity.
    + rewrite (bind_ok _ _ _ _ _ R). destruct (IH f) as [R2|[bs R2]]; [intros w Hw; apply D; simpl; auto| |].
      * left. rewrite (bind_raise _ _ _ _ _ R2). reflexivity.
      * right. rewrite (bind_ok _ _ _ _ _ R2). eexists. reflexivity.
Qed.
End WithEnv.
