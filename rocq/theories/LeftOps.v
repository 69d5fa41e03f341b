(** * LeftOps: sums with the [subset_list] of an interval on the left. *)
From Verif Require Export GridOps.

Section WithEnv.
Context `{Env}.
(** [x.subset_list + l] ([SequenceList.__add__], sequence_list.py:69-99; the getter of
    [subset_list] gives the list itself, sequences.py:480-482). *)
Definition subset_plus (x : oid) (l : list oid) : M slv := o <- get_seq x ;; sl_add (OSeq x) (subset_slv o) l.
End WithEnv.
