(** * HomeSpec: specification vocabulary for what intervals are within. *)
From Verif Require Export History TierOps.
Open Scope Z_scope.

(** What [x] is within if it gets a new parent by being appended: what it was within, if it
    had no parent, and otherwise nothing. *)
Definition home_after (h : heap) (x : oid) : option wref :=
  match s_super (sob h x) with None => s_within (sob h x) | Some _ => None end.
