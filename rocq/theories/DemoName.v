(** * DemoName: concrete cases for C59. *)
From Verif Require Export NameSpec DemoPop DemoWeave DemoAdd.
From Verif Require Import NameFinal.
Open Scope Z_scope.

(** An empty grid beside two groups of the same classes, the first one appended. *)
Definition ex_desk0 : desk := Eval vm_compute in
  let E : Env := demo_env in
  match dbind (plainly (alloc_grid blank_grid)) (fun a => grid_append_named 50 a 0) (Desk ex_add (fun _ => [])) with DOk _ d | DRaise _ d => d end.
(** ... then the second one. *)
Definition ex_desk1 : desk := Eval vm_compute in
  let E : Env := demo_env in
  match grid_append_named 50 0 1 ex_desk0 with DOk _ d | DRaise _ d => d end.
Lemma desk1_ok : @grid_append_named demo_env 50 0 1 ex_desk0 = DOk tt ex_desk1.
Proof. vm_compute. reflexivity. Qed.
(** The grid of the examples of C51 and C52, whose group 0 is called KY. *)
Definition ex_named : desk := Desk ex_pop (fun k => if (k =? 0)%nat then [("KY"%string, 0%nat)] else []).
