(** * EditSpec: what the properties of extending tiers talk about. *)
From Verif Require Export GroupSpec.
Open Scope Z_scope.

(** An interval tier of class [c] in good order that is in no group: its
    entries are distinct intervals of that class with known times, sorted. *)
Definition good_tier (h : heap) (t : tid) (c : cid) : Prop :=
  (t < List.length (h_tier h))%nat /\ stands_alone h t /\ t_ec (tob h t) = c /\ t_super (tob h t) <> None /\
  issubclass h c cInterval = true /\ issubclass h c cPoint = false /\
  linkable h c (t_seq (tob h t)) /\ sorted_starts h (t_seq (tob h t)) /\
  (t_seqec (tob h t) = Some c \/ t_seq (tob h t) = [] /\ t_seqec (tob h t) = None) /\
  forall x, In x (t_seq (tob h t)) -> timed_both h x.
(** A tier of class [c] whose entries are distinct, of that class, timed and sorted. *)
Definition steady (h : heap) (t : tid) (c : cid) : Prop :=
  t_ec (tob h t) = c /\ linkable h c (t_seq (tob h t)) /\ sorted_starts h (t_seq (tob h t)) /\
  (t_seqec (tob h t) = Some c \/ t_seq (tob h t) = [] /\ t_seqec (tob h t) = None) /\
  forall x, In x (t_seq (tob h t)) -> timed_both h x.
(** A point tier in no group. *)
Definition lone_points (h : heap) (t : tid) (c : cid) : Prop :=
  (t < List.length (h_tier h))%nat /\ stands_alone h t /\ issubclass h c cPoint = true /\ steady h t c.
(** The entries of [t] are sorted, linked to each other, and know their tier. *)
Definition orderly (h : heap) (t : tid) : Prop :=
  sorted_starts h (t_seq (tob h t)) /\ chained h (t_seq (tob h t)) /\
  forall x, In x (t_seq (tob h t)) -> s_intier (sob h x) = Some t.
(** Same times, label, parent and children. *)
Definition same_data (o o' : seqobj) : Prop :=
  s_start o' = s_start o /\ s_end o' = s_end o /\ s_label o' = s_label o /\
  s_super o' = s_super o /\ s_subset o' = s_subset o.
(** From [h] to [h'] no object changed but those in [l], the only new objects
    are boundaries, and no class, group, grid or tier other than [t] changed;
    of [t] the class, name and group are as before. *)
Definition touches_only (t : tid) (l : list oid) (h h' : heap) : Prop :=
  (forall i, (i < List.length (h_seq h))%nat -> ~ In i l -> sob h' i = sob h i) /\
  (List.length (h_seq h) <= List.length (h_seq h'))%nat /\
  (forall i, (List.length (h_seq h) <= i < List.length (h_seq h'))%nat -> is_boundary h' i) /\
  h_cls h' = h_cls h /\ h_grp h' = h_grp h /\ h_grid h' = h_grid h /\
  List.length (h_tier h') = List.length (h_tier h) /\ (forall u, u <> t -> tob h' u = tob h u) /\
  t_ec (tob h' t) = t_ec (tob h t) /\ t_super (tob h' t) = t_super (tob h t) /\ t_sub (tob h' t) = t_sub (tob h t) /\
  t_name (tob h' t) = t_name (tob h t) /\ t_within (tob h' t) = t_within (tob h t).
(** From [h] to [h'] the tier [n] was added and the objects of [l] were moved
    into it; no other object, tier, class, group or grid changed. *)
Definition adds_tier (n : tid) (l : list oid) (h h' : heap) : Prop :=
  n = List.length (h_tier h) /\ List.length (h_tier h') = S n /\ (forall u, (u < n)%nat -> tob h' u = tob h u) /\
  (forall i, (i < List.length (h_seq h))%nat -> ~ In i l -> sob h' i = sob h i) /\
  (List.length (h_seq h) <= List.length (h_seq h'))%nat /\
  (forall i, (List.length (h_seq h) <= i < List.length (h_seq h'))%nat -> is_boundary h' i) /\
  h_cls h' = h_cls h /\ h_grp h' = h_grp h /\ h_grid h' = h_grid h.
(** A tier of class [c] as made of a list of intervals: named after the class, in
    no group, and knowing the neighbours of the class. *)
Definition plain_tier (h : heap) (t : tid) (c : cid) : Prop :=
  t_ec (tob h t) = c /\ t_name (tob h t) = class_name h c /\ t_within (tob h t) = None /\
  t_super (tob h t) = superset_class h c /\ t_sub (tob h t) = subset_class h c /\ t_seqec (tob h t) = Some c.
(** The largest end time in [l]. *)
Definition last_end (h : heap) (l : list oid) (d : Z) : Prop :=
  (exists x, In x l /\ s_end (sob h x) = Some d) /\
  forall x e, In x l -> s_end (sob h x) = Some e -> e <= d.
(** [x] was moved by [d] and is otherwise the same, links and tier aside. *)
Definition moved_by (d : Z) (h h' : heap) (x : oid) : Prop :=
  s_start (sob h' x) = option_map (fun a => a + d) (s_start (sob h x)) /\
  end_at h' x = option_map (fun a => a + d) (end_at h x) /\
  s_cls (sob h' x) = s_cls (sob h x) /\ s_label (sob h' x) = s_label (sob h x) /\
  s_super (sob h' x) = s_super (sob h x) /\ s_subset (sob h' x) = s_subset (sob h x).
