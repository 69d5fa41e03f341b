(** * NameSpec: what named access to the groups of a grid is to give. *)
From Verif Require Export WeaveSpec NameOps.
Open Scope Z_scope.

(** No two of the grid's groups have the same name. *)
Definition names_differ (h : heap) (a : aid) : Prop := NoDup (map (fun g => g_name (gob h g)) (a_groups (aob h a))).
(** Every group of the grid can be reached by its name. *)
Definition reached_by_name (d : desk) (a : aid) : Prop :=
  forall g, In g (a_groups (aob (d_heap d) a)) -> exists s, g_name (gob (d_heap d) g) = Some s /\ by_name d a s = Some g.
(** No other name has been given a new meaning. *)
Definition other_names_kept (d d' : desk) (a : aid) : Prop :=
  (forall k, k <> a -> d_attr d' k = d_attr d k) /\
  (forall s, (forall g, In g (a_groups (aob (d_heap d') a)) -> g_name (gob (d_heap d') g) <> Some s) -> by_name d' a s = by_name d a s).
(** The name [s] leads to [g], which is no longer in the grid, although a group of that name is. *)
Definition leads_astray (d : desk) (a : aid) (s : string) (g : gid) : Prop :=
  by_name d a s = Some g /\ ~ In g (a_groups (aob (d_heap d) a)) /\
  exists g', In g' (a_groups (aob (d_heap d) a)) /\ g_name (gob (d_heap d) g') = Some s.
