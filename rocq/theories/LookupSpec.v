(** * LookupSpec: what looking up a time is to answer. *)
From Verif Require Export Spec.
Open Scope Z_scope.

(** [one_at h t z]: at most one entry of the tier contains the time [z]. *)
Definition one_at (h : heap) (t : tid) (z : Z) : Prop :=
  forall i j x y, nth_error (t_seq (tob h t)) i = Some x -> nth_error (t_seq (tob h t)) j = Some y ->
    holds_at h x z -> holds_at h y z -> i = j.
(** [nearest_at h t z i]: entry number [i] is the first of those nearest to [z]. *)
Definition nearest_at (h : heap) (t : tid) (z : Z) (i : nat) : Prop :=
  exists x a, nth_error (t_seq (tob h t)) i = Some x /\ s_start (sob h x) = Some a /\
    forall j y b, nth_error (t_seq (tob h t)) j = Some y -> s_start (sob h y) = Some b ->
      Z.abs (a - z) <= Z.abs (b - z) /\ ((j < i)%nat -> Z.abs (a - z) < Z.abs (b - z)).
(** What a look-up at time [z] is to answer for one tier of a group of points,
    or of a group of intervals. *)
Definition answer (h : heap) (points : bool) (z : Z) (t : tid) (r : option nat) : Prop :=
  if points then exists i, r = Some i /\ nearest_at h t z i
  else (forall i, r = Some i <-> exists x, nth_error (t_seq (tob h t)) i = Some x /\ holds_at h x z) /\
       (r = None <-> forall x, In x (t_seq (tob h t)) -> ~ holds_at h x z).
(** A group all of whose tiers can be asked at time [z]. *)
Definition askable (h : heap) (z : Z) (g : gid) : Prop :=
  forall t, In t (g_tiers (gob h g)) ->
    if g_points (gob h g) then t_seq (tob h t) <> [] /\ forall x, In x (t_seq (tob h t)) -> s_start (sob h x) <> None
    else timed_tier h t /\ one_at h t z.
