(** * SliceSpec: specification vocabulary for slices. *)
From Verif Require Export SliceOps History.
Open Scope Z_scope.

(** In a list of [n] elements the bound [i] of a slice, [dflt] if left out, means the
    place [k]. *)
Definition means (n dflt : nat) (i : option Z) (k : nat) : Prop :=
  match i with
  | None => k = dflt
  | Some z => 0 <= z <= Z.of_nat n /\ Z.of_nat k = z \/ z > Z.of_nat n /\ k = n \/
              - Z.of_nat n <= z < 0 /\ Z.of_nat k = Z.of_nat n + z \/ z < - Z.of_nat n /\ k = 0%nat
  end.
(** [m] is what is between the places [a] and [b] of [l]; [p] is before and [q] after it. *)
Definition cut_out {A} (l : list A) (a b : option Z) (p m q : list A) : Prop :=
  exists i j, means (List.length l) 0 a i /\ means (List.length l) (List.length l) b j /\
    l = (p ++ m ++ q)%list /\ List.length p = i /\ List.length (p ++ m)%list = Nat.max i j.
