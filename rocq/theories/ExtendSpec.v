(** * ExtendSpec: what the properties of appending a tier to a group talk about. *)
From Verif Require Export AppendSpec.
Open Scope Z_scope.

(** A points group with the tiers [ts], all of which know the group. *)
Definition points_group (h : heap) (g : gid) (ts : list tid) : Prop :=
  (g < List.length (h_grp h))%nat /\ g_points (gob h g) = true /\ g_tiers (gob h g) = ts /\ contains_of h (WGroup g) = Some ts /\
  forall t, In t ts -> t_within (tob h t) = Some (WGroup g).
(** Only the group [g] and the container of the tiers [ts] changed. *)
Definition regroups (g : gid) (ts : list tid) (h h' : heap) : Prop :=
  h_cls h' = h_cls h /\ h_seq h' = h_seq h /\ h_grid h' = h_grid h /\
  List.length (h_tier h') = List.length (h_tier h) /\ (forall t, ~ In t ts -> tob h' t = tob h t) /\
  (forall t, In t ts -> tob h' t = set_t_within (Some (WGroup g)) (tob h t)) /\
  List.length (h_grp h') = List.length (h_grp h) /\ (forall k, k <> g -> gob h' k = gob h k) /\
  g_within (gob h' g) = g_within (gob h g) /\ g_points (gob h' g) = g_points (gob h g).

(** The grid [a] uses the class [c'] for tiers of the class [c]: it is the first
    of its classes with the same name. *)
Definition used_for (h : heap) (a : aid) (c c' : cid) : Prop :=
  first_named h (a_cloned (aob h a)) (class_name h c) c'.
(** A tier of distinct existing intervals, one after the other, none of which
    has a parent. *)
Definition loose_tier (h : heap) (t : tid) : Prop :=
  (t < List.length (h_tier h))%nat /\ issubclass h (t_ec (tob h t)) cInterval = true /\
  linkable h (t_ec (tob h t)) (t_seq (tob h t)) /\
  in_turn h (t_seq (tob h t)) /\ (forall x, In x (t_seq (tob h t)) -> dated h x /\ s_super (sob h x) = None).
(** The group [g] of the grid [a] got the tier [t], which is now of class [c'],
    and has the tiers [ts]; times and labels are as before, and nothing but
    these tiers, their entries, and parents and siblings of the entries
    changed. *)
Definition extends_grid (h h' : heap) (a : aid) (g : gid) (t : tid) (c' : cid) (ts : list tid) : Prop :=
  a_groups (aob h' a) = a_groups (aob h a) /\ (forall b, b <> a -> aob h' b = aob h b) /\
  (forall c, In c (a_cloned (aob h' a)) <-> In c (a_cloned (aob h a))) /\
  g_within (gob h' g) = g_within (gob h g) /\
  List.length (h_grp h') = List.length (h_grp h) /\ (forall k, k <> g -> gob h' k = gob h k) /\
  h_cls h' = h_cls h /\ List.length (h_grid h') = List.length (h_grid h) /\
  List.length (h_tier h') = List.length (h_tier h) /\ (forall u, ~ In u ts -> tob h' u = tob h u) /\
  (forall u, t_seq (tob h' u) = t_seq (tob h u)) /\
  (forall u, In u ts -> u <> t -> t_ec (tob h' u) = t_ec (tob h u) /\ t_name (tob h' u) = t_name (tob h u)) /\
  t_ec (tob h' t) = c' /\ (t_name (tob h t) <> class_name h (t_ec (tob h t)) -> t_name (tob h' t) = t_name (tob h t)) /\
  housed h' t /\ up_to_date h' t /\
  (forall x, In x (t_seq (tob h t)) -> s_cls (sob h' x) = c') /\
  (forall i, (i < List.length (h_seq h))%nat -> ~ In i (t_seq (tob h t)) -> s_cls (sob h' i) = s_cls (sob h i)) /\
  (forall i, (i < List.length (h_seq h))%nat ->
     s_start (sob h' i) = s_start (sob h i) /\ s_end (sob h' i) = s_end (sob h i) /\ s_label (sob h' i) = s_label (sob h i)) /\
  (List.length (h_seq h) <= List.length (h_seq h'))%nat /\
  (forall i, (i < List.length (h_seq h))%nat -> ~ involved h ts i -> sob h' i = sob h i) /\
  (forall i, (List.length (h_seq h) <= i < List.length (h_seq h'))%nat -> is_boundary h' i).
