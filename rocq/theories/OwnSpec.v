(** * OwnSpec: what it means that a grid works with its own classes (C38). *)
From Verif Require Export Spec GridOps HeapProofs.
Open Scope Z_scope.

(** Every class of [h] is still there in [h'], with the same name, base,
    superset class and subset class. *)
Definition classes_untouched (h h' : heap) : Prop :=
  (List.length (h_cls h) <= List.length (h_cls h'))%nat /\
  forall c, (c < List.length (h_cls h))%nat -> cob h' c = cob h c.

(** [t] is a tier of the grid [a]. *)
Definition in_grid (h : heap) (a : aid) (t : tid) : Prop :=
  exists g, In g (a_groups (aob h a)) /\ In t (g_tiers (gob h g)).

(** A point class as the library makes them: without superset class. *)
Definition lone_point (h : heap) (c : cid) : Prop :=
  issubclass h c cPoint = true /\ superset_class h c = None.

(** [c] is a point class, or a member of a well-formed chain of interval
    classes with ordinary names. *)
Definition grid_class (h : heap) (c : cid) : Prop :=
  lone_point h c \/
  exists t cs b, class_chain h t cs b /\ In c cs /\ forall x, In x cs -> plain_name (class_name h x).

(** [l] is made of point classes and complete chains of interval classes. *)
Definition whole_chains (h : heap) (l : list cid) : Prop :=
  forall c, In c l -> lone_point h c \/
    exists t cs b, class_chain h t cs b /\ In c cs /\ incl cs l.

(** The grid [a] works with its own classes: the classes it has collected form
    whole chains, and every one of its tiers has one of them. *)
Definition grid_owns (h : heap) (a : aid) : Prop :=
  whole_chains h (a_cloned (aob h a)) /\
  forall t, in_grid h a t -> In (t_ec (tob h t)) (a_cloned (aob h a)).

(** [c] was made between [h] and [h']. *)
Definition newly_made (h h' : heap) (c : cid) : Prop :=
  (List.length (h_cls h) <= c < List.length (h_cls h'))%nat.

(** The classes given to the constructor of a grid. *)
Definition given (ecs : eclasses) : list cid :=
  match ecs with Flat l => l | Nested l => concat l end.

(** The grids [a] and [b] share no class. *)
Definition grids_apart (h : heap) (a b : aid) : Prop :=
  forall c, In c (a_cloned (aob h a)) -> ~ In c (a_cloned (aob h b)).

(** The grid [a] exists, and so do its groups and its tiers. *)
Definition whole_grid (h : heap) (a : aid) : Prop :=
  alive h a /\ (forall g, In g (a_groups (aob h a)) -> glive h g) /\ forall t, in_grid h a t -> tlive h t.
