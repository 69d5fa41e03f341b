(** * DemoSlice: concrete cases for C81. *)
From Verif Require Export SliceFinal DemoAccess DemoChild.
Open Scope Z_scope.

(** The word tier of the example grid is in order. *)
Lemma ex_words_sorted : sorted_starts ex_grid (t_seq (tob ex_grid 0)).
Proof. apply sorted_by. vm_compute. reflexivity. Qed.
