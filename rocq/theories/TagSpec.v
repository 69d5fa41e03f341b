(** * TagSpec: what named access to the tiers of a group is to give. *)
From Verif Require Export TagOps.
Open Scope Z_scope.

(** No two of the group's tiers have classes of the same name. *)
Definition classes_differ (h : heap) (g : gid) : Prop := NoDup (map (fun t => class_name h (t_ec (tob h t))) (g_tiers (gob h g))).
(** Every tier of the group can be reached by the name of its class. *)
Definition tiers_reached (d : desk) (g : gid) : Prop :=
  forall t, In t (g_tiers (gob (d_heap d) g)) -> by_name d g (class_name (d_heap d) (t_ec (tob (d_heap d) t))) = Some t.
(** No other name of the group, and no name of another group, has been given a new
    meaning. *)
Definition other_tiers_kept (d d' : desk) (g : gid) : Prop :=
  (forall k, k <> g -> d_attr d' k = d_attr d k) /\
  (forall s, (forall t, In t (g_tiers (gob (d_heap d') g)) -> class_name (d_heap d') (t_ec (tob (d_heap d') t)) <> s) -> by_name d' g s = by_name d g s).
(** The outcome of running the constructor of [g]. *)
Definition tiers_named (d d' : desk) (g : gid) : Prop :=
  (classes_differ (d_heap d') g -> tiers_reached d' g /\ other_tiers_kept d d' g) /\
  (~ classes_differ (d_heap d') g -> d_attr d' = d_attr d).
(** Apart from names, [m] does what [m0] does. *)
Definition does {A} (m : D A) (m0 : M A) : Prop := forall d,
  match m d with
  | DOk x d' => m0 (d_heap d) = Ok x (d_heap d')
  | DRaise e d' => m0 (d_heap d) = Raise e (d_heap d')
  end.
(** The tiers of the group exist and, if their classes have different names, can be
    reached by these. *)
Definition well_tagged (d : desk) (g : gid) : Prop :=
  (forall t, In t (g_tiers (gob (d_heap d) g)) -> (t < List.length (h_tier (d_heap d)))%nat) /\
  (classes_differ (d_heap d) g -> tiers_reached d g).
