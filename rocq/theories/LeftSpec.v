(** * LeftSpec: specification vocabulary for sums with a subset_list. *)
From Verif Require Export LeftOps Spec.
Open Scope Z_scope.

(** All of [l] have the class [c] and times. *)
Definition all_of (h : heap) (c : cid) (l : list oid) : Prop :=
  forall x, In x l -> s_cls (sob h x) = c /\ timed_both h x.
(** From [h] to [h'] nothing has changed but that the subset_list of [x] has taken the entry
    class [c]. *)
Definition only_noted (x : oid) (c : cid) (h h' : heap) : Prop :=
  same_rest h h' /\ List.length (h_seq h') = List.length (h_seq h) /\ (forall y, y <> x -> sob h' y = sob h y) /\
  s_subec (sob h' x) = Some c /\ s_cls (sob h' x) = s_cls (sob h x) /\
  s_start (sob h' x) = s_start (sob h x) /\ s_end (sob h' x) = s_end (sob h x) /\ s_label (sob h' x) = s_label (sob h x) /\
  s_fol (sob h' x) = s_fol (sob h x) /\ s_prev (sob h' x) = s_prev (sob h x) /\
  s_super (sob h' x) = s_super (sob h x) /\ s_subset (sob h' x) = s_subset (sob h x) /\
  s_intier (sob h' x) = s_intier (sob h x) /\ s_within (sob h' x) = s_within (sob h x) /\ s_contains (sob h' x) = s_contains (sob h x).
