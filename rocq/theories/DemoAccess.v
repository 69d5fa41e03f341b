(** * DemoAccess: concrete cases for C57 and C58. *)
From Verif Require Export AccessSpec AccessFinal DemoTree DemoGrid.
Open Scope Z_scope.

(** The example grid can be asked for every time. *)
Lemma ex_askable z g : In g (a_groups (aob ex_grid 0)) -> askable ex_grid z g.
Proof.
  intros Hg t Ht. members.
  1-2: change (g_points (gob ex_grid 0)) with false; split; [apply ex_timed; lia|];
    intros i j x y Hx Hy (a & b & A & B & C) (a' & b' & A' & B' & C');
    destruct i as [|[|[|[|i]]]]; try (destruct i; discriminate Hx); try discriminate Hx;
    destruct j as [|[|[|[|j]]]]; try (destruct j; discriminate Hy); try discriminate Hy; auto; exfalso;
    injection Hx as <-; injection Hy as <-; vm_compute in A, B, A', B';
    injection A as <-; injection B as <-; injection A' as <-; injection B' as <-; lia.
  all: change (g_points (gob ex_grid 1)) with true; (split; [vm_compute; discriminate|intros x Hx; members; vm_compute; discriminate]).
Qed.
(** At 35 every tier of intervals has one. *)
Lemma ex_held g t : In g (a_groups (aob ex_grid 0)) -> g_points (gob ex_grid g) = false -> In t (g_tiers (gob ex_grid g)) ->
  exists x, In x (t_seq (tob ex_grid t)) /\ holds_at ex_grid x 35.
Proof.
  intros Hg Pg Ht. members; try (vm_compute in Pg; discriminate).
  all: match goal with |- exists x, In x (t_seq (tob ex_grid ?t)) /\ _ =>
    let l := eval vm_compute in (t_seq (tob ex_grid t)) in
    let rec try_all l := match l with
      | ?x :: ?r => first [exists x; split; [vm_compute; auto 10|do 2 eexists; split; [vm_compute; reflexivity|split; [vm_compute; reflexivity|lia]]]|try_all r]
      end in try_all l end.
Qed.
(** At 1000 there is none. *)
Lemma ex_unheld x : In x (t_seq (tob ex_grid 0)) -> ~ holds_at ex_grid x 1000.
Proof. intros Hx (a & b & A & B & C). members; vm_compute in A, B; injection A as <-; injection B as <-; lia. Qed.

(** The example tree, no loop under way. *)
Definition ex_walk : walk := Walk ex_tree (fun _ => O).
(** A loop body that reads the label. *)
Definition say `{Env} (y : oid) : W string := lift (gets (fun h => s_label (sob h y))).
Lemma say_minds x : minds x (@say demo_env).
Proof. intros y w v w' E. injection E as <- <-. split; reflexivity. Qed.
