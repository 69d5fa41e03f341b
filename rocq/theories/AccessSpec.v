(** * AccessSpec: what indexing and loops are to give. *)
From Verif Require Export LookupSpec History AccessOps.
Open Scope Z_scope.

(** [x] is entry number [i] of [l], counted from the end if [i] is negative. *)
Definition numbered {A} (l : list A) (i : Z) (x : A) : Prop :=
  0 <= i /\ nth_error l (Z.to_nat i) = Some x \/
  i < 0 /\ 0 <= Z.of_nat (List.length l) + i /\ nth_error l (Z.to_nat (Z.of_nat (List.length l) + i)) = Some x.
(** There is no such entry. *)
Definition out_of_range {A} (l : list A) (i : Z) : Prop :=
  Z.of_nat (List.length l) <= i \/ i < - Z.of_nat (List.length l).
(** What stands at time [z] on a tier: the interval around [z], or one of the points nearest to it. *)
Definition stands_at (h : heap) (points : bool) (z : Z) (t : tid) (x : oid) : Prop :=
  In x (t_seq (tob h t)) /\
  if points then forall y a b, In y (t_seq (tob h t)) -> s_start (sob h x) = Some a -> s_start (sob h y) = Some b -> Z.abs (a - z) <= Z.abs (b - z)
  else holds_at h x z.
(** What the body of a loop over [x] leaves alone: where the loop is, and the children of [x]. *)
Definition minds {A} (x : oid) (body : oid -> W A) : Prop :=
  forall y w v w', body y w = WOk v w' -> w_cur w' x = w_cur w x /\ s_subset (sob (w_heap w') x) = s_subset (sob (w_heap w) x).
(** The entries at even places of a list, and those at odd places. *)
Fixpoint evens {A} (l : list A) : list A :=
  match l with [] => [] | a :: l' => a :: odds l' end
with odds {A} (l : list A) : list A :=
  match l with [] => [] | _ :: l' => evens l' end.
