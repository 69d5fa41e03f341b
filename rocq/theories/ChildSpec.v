(** * ChildSpec: what the properties of appending a child and of filling the gaps
    between children talk about. *)
From Verif Require Export RelateSpec.
Open Scope Z_scope.

(** Start times strictly increase along the list. *)
Definition rising (h : heap) (l : list oid) : Prop :=
  forall i j a b, (i < j)%nat -> nth_error l i = Some a -> nth_error l j = Some b ->
  exists s t, s_start (sob h a) = Some s /\ s_start (sob h b) = Some t /\ s < t.
(** An interval of class [c] with both times. *)
Definition sound_child (h : heap) (c : cid) (x : oid) : Prop :=
  (x < List.length (h_seq h))%nat /\ s_cls (sob h x) = c /\ s_label (sob h x) <> "#"%string /\
  (exists s, s_start (sob h x) = Some s) /\ exists e, s_end (sob h x) = Some e.
(** [u] is fit to have children of class [c]: that is its subset class, and the
    children it has are of that class, its own, dated and sorted. *)
Definition family (h : heap) (c : cid) (u : oid) : Prop :=
  (u < List.length (h_seq h))%nat /\ s_label (sob h u) <> "#"%string /\ subset_class h (s_cls (sob h u)) = Some c /\
  ~ In u (s_subset (sob h u)) /\ NoDup (s_subset (sob h u)) /\ sorted_starts h (s_subset (sob h u)) /\
  (s_subec (sob h u) = Some c \/ s_subset (sob h u) = [] /\ s_subec (sob h u) = None) /\
  forall y, In y (s_subset (sob h u)) -> sound_child h c y /\ s_super (sob h y) = Some u.
(** Everything but the children of [u] is as before. *)
Definition same_but_kids (o o' : seqobj) : Prop :=
  s_cls o' = s_cls o /\ s_start o' = s_start o /\ s_end o' = s_end o /\ s_label o' = s_label o /\
  s_super o' = s_super o /\ s_within o' = s_within o /\ s_prev o' = s_prev o /\ s_fol o' = s_fol o /\
  s_intier o' = s_intier o.
(** Everything but the parent and the neighbours is as before. *)
Definition same_but_home (o o' : seqobj) : Prop :=
  s_cls o' = s_cls o /\ s_start o' = s_start o /\ s_end o' = s_end o /\ s_label o' = s_label o /\
  s_subset o' = s_subset o /\ s_contains o' = s_contains o /\ s_intier o' = s_intier o.
(** The children of [u] are now [b]: they know their parent and their
    neighbours, and [u] is fit to have more. *)
Definition rears (h h' : heap) (c : cid) (u : oid) (b : list oid) : Prop :=
  s_subset (sob h' u) = b /\ same_but_kids (sob h u) (sob h' u) /\ contains_of h' (WSeq u) = Some b /\
  (forall y, In y b -> s_super (sob h' y) = Some u /\ s_within (sob h' y) = Some (WSeq u)) /\
  chained h' b /\ family h' c u.
(** No class, tier, group or grid is different, and what is new are boundary objects. *)
Definition only_links (h h' : heap) : Prop :=
  h_cls h' = h_cls h /\ h_tier h' = h_tier h /\ h_grp h' = h_grp h /\ h_grid h' = h_grid h /\
  (List.length (h_seq h) <= List.length (h_seq h'))%nat /\
  forall i, (List.length (h_seq h) <= i < List.length (h_seq h'))%nat -> is_boundary h' i.
(** [u] is in no tier of a tier group that has tiers. *)
Definition ungrouped (h : heap) (u : oid) : Prop :=
  forall t g, s_intier (sob h u) = Some t -> t_within (tob h t) = Some (WGroup g) -> g_tiers (gob h g) = [].
(** [x] is a child of [p], another interval than [u]. *)
Definition housed_with (h : heap) (u x p : oid) : Prop :=
  s_super (sob h x) = Some p /\ filed h x /\ p <> u /\ ~ In u (s_subset (sob h p)) /\ ~ In p (s_subset (sob h p)) /\
  ~ In p (s_subset (sob h u)).
