(** * DemoMend: intervals with gaps between their children, for the examples. *)
From Verif Require Export DemoChild MendSpec.
From Verif Require Import ListFinal MendFinal.
From Verif Require Import ChildSpec.
Open Scope Z_scope.

(** Word 0 from 0 to 60 with phones at 10-20, 30-40 and 40-50. *)
Definition ex_holes : heap := Eval vm_compute in
  let E : Env := demo_env in
  run (w <- new_obj 5%nat (Some 0) (Some 60) "w" ;;
       a <- new_obj 6%nat (Some 10) (Some 20) "a" ;;
       b <- new_obj 6%nat (Some 30) (Some 40) "b" ;;
       c <- new_obj 6%nat (Some 40) (Some 50) "c" ;;
       set_subset_list w [a; b; c]) boot_heap.
(** A word without syllables. *)
Definition ex_hollow : heap := Eval vm_compute in
  let E : Env := demo_env in run (new_obj 11%nat (Some 10) (Some 40) "w") ex_classes.
(** Phones at 0-20 and 10-30. *)
Definition ex_cross : heap := Eval vm_compute in
  let E : Env := demo_env in
  run (w <- new_obj 5%nat (Some 0) (Some 30) "w" ;; a <- new_obj 6%nat (Some 0) (Some 20) "a" ;; b <- new_obj 6%nat (Some 10) (Some 30) "b" ;;
       set_subset_list w [a; b]) boot_heap.
Lemma holes_family : family ex_holes 6 0.
Proof.
  split; [vm_compute; lia|]. split; [vm_compute; discriminate|]. split; [reflexivity|]. split; [vm_compute; intuition discriminate|].
  split; [apply nodup_by; vm_compute; reflexivity|]. split; [apply sorted_by; vm_compute; reflexivity|]. split; [left; reflexivity|].
  intros y Hy. members; (split; [sound|reflexivity]).
Qed.
Lemma holes_runs : runs ex_holes 0 (s_subset (sob ex_holes 0)) 60.
Proof. vm_compute. do 3 (eexists; eexists; split; [reflexivity|]; split; [reflexivity|]; split; [discriminate|]; split; [reflexivity|]). discriminate. Qed.
Lemma holes_loose u : ungrouped ex_holes u.
Proof. intros t g _ W. exfalso. destruct t; discriminate. Qed.
Lemma hollow_loose u : ungrouped ex_hollow u.
Proof. intros t g _ W. exfalso. destruct t; discriminate. Qed.

(** With children that overlap, the new child ends before it starts. *)
Lemma c68_overlap_refuted : let E : Env := demo_env in
  exists n h c u s e h' w a b, family h c u /\ ungrouped h u /\ s_start (sob h u) = Some s /\ s_end (sob h u) = Some e /\
    (forall x, In x (s_subset (sob h u)) -> exists p q, s_start (sob h x) = Some p /\ s_end (sob h x) = Some q /\ s <= p < q /\ q <= e) /\
    seq_cleanup n u h = Ok tt h' /\ In w (s_subset (sob h' u)) /\ s_start (sob h' w) = Some a /\ s_end (sob h' w) = Some b /\ b < a.
Proof.
  cbv zeta.
  exists 10%nat, ex_cross, 6%nat, 0%nat, 0, 30. eexists. exists 11%nat, 20, 10. split.
  { split; [vm_compute; lia|]. split; [vm_compute; discriminate|]. split; [reflexivity|]. split; [vm_compute; intuition discriminate|].
    split; [apply nodup_by; vm_compute; reflexivity|]. split; [apply sorted_by; vm_compute; reflexivity|]. split; [left; reflexivity|].
    intros y Hy. members; (split; [sound|reflexivity]). }
  split; [intros t g _ W; exfalso; destruct t; discriminate|]. split; [reflexivity|]. split; [reflexivity|]. split.
  { intros x Hx. members; (eexists; eexists; split; [reflexivity|]; split; [reflexivity|]; lia). }
  split; [vm_compute; reflexivity|]. split; [vm_compute; auto|]. split; [vm_compute; reflexivity|]. split; [vm_compute; reflexivity|]. lia.
Qed.
