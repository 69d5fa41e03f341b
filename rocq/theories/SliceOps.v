(** * SliceOps: slices [x[a:b]] of tiers, intervals, groups and grids.

    Simplification: the step is 1; the bounds are integers or left out. *)
From Verif Require Export GridOps.
Open Scope Z_scope.

(** A bound of a slice of a Python list of length [n] ([dflt] if left out): negative ones
    count from the end, and what is out of range is clipped. *)
Definition slice_bound (n dflt : nat) (i : option Z) : nat :=
  match i with
  | None => dflt
  | Some z => let z' := if z <? 0 then z + Z.of_nat n else z in Nat.min n (Z.to_nat z')
  end.
(** [l[a:b]] of a Python list. *)
Definition list_slice {A} (l : list A) (a b : option Z) : list A :=
  let n := List.length l in
  let i := slice_bound n 0 a in firstn (slice_bound n n b - i) (skipn i l).

(** [tier[a:b]] (tiers.py:131-132, points/tiers.py:110-111) and [interval[a:b]]
    (sequences.py:416-417), with [SequenceList.__getitem__] (sequence_list.py:49-50):
    plain Python lists. *)
Definition tier_slice (t : tid) (a b : option Z) : M (list oid) := o <- get_tier t ;; ret (list_slice (t_seq o) a b).
Definition seq_slice (x : oid) (a b : option Z) : M (list oid) := o <- get_seq x ;; ret (list_slice (s_subset o) a b).
(** [group[a:b]] (tiers.py:507-519, points/tiers.py:254-266) and [grid[a:b]]
    (aligned_textgrid.py:89-103): a slice is no int and has no [len]. *)
Definition grp_slice (g : gid) (a b : option Z) : M (list tid) := raise TypeError.
Definition grid_slice (g : aid) (a b : option Z) : M (list gid) := raise TypeError.
