(** * PlusSpec: what the properties of adding two intervals talk about. *)
From Verif Require Export ChildSpec.
Open Scope Z_scope.

(** No two entries of the list have the same times and label. *)
Definition all_apart (h : heap) (l : list oid) : Prop :=
  forall y z, In y l -> In z l -> same_value h y z -> y = z.
(** [w] is a new object with the attributes of [s]; anything else that is new is a
    boundary object. *)
Definition twin_of (h h' : heap) (s w : oid) : Prop :=
  (List.length (h_seq h) <= w < List.length (h_seq h'))%nat /\ sob h' w = sob h' s /\
  (forall i, (List.length (h_seq h) <= i < List.length (h_seq h'))%nat -> i <> w -> is_boundary h' i) /\
  h_cls h' = h_cls h /\ h_tier h' = h_tier h /\ h_grp h' = h_grp h /\ h_grid h' = h_grid h.
(** An interval that is nobody's child any more. *)
Definition parentless (o o' : seqobj) : Prop :=
  s_super o' = None /\ s_within o' = None /\ same_but_home o o'.
