(** * PluckSpec: what the properties of popping an interval from a tier talk about. *)
From Verif Require Export FuseSpec ChildSpec.
Open Scope Z_scope.

(** No other entry has the times and the label of [x]. *)
Definition sole_value (h : heap) (l : list oid) (x : oid) : Prop :=
  forall y, In y l -> same_value h y x -> y = x.
(** What is not a tier or an interval is the same, and new intervals are boundaries. *)
Definition tiers_only (h h' : heap) : Prop :=
  h_cls h' = h_cls h /\ h_grp h' = h_grp h /\ h_grid h' = h_grid h /\
  (List.length (h_seq h) <= List.length (h_seq h'))%nat /\
  forall i, (List.length (h_seq h) <= i < List.length (h_seq h'))%nat -> is_boundary h' i.
(** [x] has left its parent: it has none, and the other children of the one it had
    are linked to each other. *)
Definition left_family (h h' : heap) (x : oid) : Prop :=
  s_super (sob h' x) = None /\ same_but_home (sob h x) (sob h' x) /\
  (forall p, s_super (sob h x) = Some p -> s_within (sob h' x) = None /\
     exists l1 l2, s_subset (sob h p) = (l1 ++ x :: l2)%list /\ s_subset (sob h' p) = (l1 ++ l2)%list /\
       same_but_kids (sob h p) (sob h' p) /\ chained h' (l1 ++ l2) /\
       forall y, In y (l1 ++ l2) -> same_but_links (sob h y) (sob h' y)).
