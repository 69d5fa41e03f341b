(** * Demo: one concrete environment, used by the Examples that show that the
    theorems' hypotheses can be met.  Sorting is insertion sort, addition is
    exact, the tolerance is zero. *)
From Verif Require Export GridOps.
From Coq Require Import Sorted.
Open Scope Z_scope.

Fixpoint ins (l : list Z) (i : nat) (r : list nat) : list nat :=
  match r with
  | [] => [i]
  | j :: r' => if nth i l 0 <=? nth j l 0 then i :: j :: r' else j :: ins l i r'
  end.
Definition isort (l : list Z) : list nat := fold_right (ins l) [] (seq 0 (List.length l)).

Lemma ins_perm l i r : Permutation (ins l i r) (i :: r).
Proof.
  induction r as [|j r IH]; simpl; [auto|].
  destruct (_ <=? _); [auto|]. rewrite IH. apply perm_swap.
Qed.
Lemma isort_perm_gen l r : Permutation (fold_right (ins l) [] r) r.
Proof. induction r; simpl; [auto|]. rewrite ins_perm, IHr. auto. Qed.
Lemma ins_sorted l i r :
  StronglySorted (fun a b => nth a l 0 <= nth b l 0) r ->
  StronglySorted (fun a b => nth a l 0 <= nth b l 0) (ins l i r).
Proof.
  induction r as [|j r IH]; simpl; intros Hs.
  - repeat constructor.
  - inversion Hs as [|? ? Hs' Hf]; subst.
    destruct (nth i l 0 <=? nth j l 0) eqn:E.
    + apply Z.leb_le in E. constructor; [auto|].
      constructor; [auto|]. rewrite List.Forall_forall in *. intros x Hx. specialize (Hf x Hx). lia.
    + apply Z.leb_gt in E. constructor; [auto|].
      rewrite List.Forall_forall in *. intros x Hx.
      apply (Permutation_in _ (ins_perm l i r)) in Hx. destruct Hx as [<-|Hx]; [lia|auto].
Qed.
Lemma isort_sorted l : StronglySorted (fun a b => nth a l 0 <= nth b l 0) (isort l).
Proof. unfold isort. induction (seq 0 (List.length l)); simpl; [constructor|]. apply ins_sorted; auto. Qed.
Lemma ssorted_nth {A} (R : A -> A -> Prop) (d : A) r : StronglySorted R r ->
  forall i j, (i < j < List.length r)%nat -> R (nth i r d) (nth j r d).
Proof.
  induction 1 as [|a r Hs IH Hf]; intros i j Hij; simpl in *; [lia|].
  destruct j as [|j]; [lia|]. destruct i as [|i].
  - rewrite List.Forall_forall in Hf. apply Hf, nth_In. lia.
  - apply IH. lia.
Qed.
Lemma isort_sorts l i j : (i < j < List.length l)%nat ->
  nth (nth i (isort l) 0%nat) l 0 <= nth (nth j (isort l) 0%nat) l 0.
Proof.
  intros Hij. apply (ssorted_nth _ 0%nat _ (isort_sorted l)).
  unfold isort. rewrite (Permutation_length (isort_perm_gen l _)), seq_length. exact Hij.
Qed.
Lemma zadd_mono a b c : a <= b -> a + c <= b + c.
Proof. lia. Qed.

Definition demo_env : Env := {|
  argsort := isort;
  argsort_perm := fun l => isort_perm_gen l (seq 0 (List.length l));
  argsort_sorts := isort_sorts;
  fadd := Z.add;
  fadd_mono := zadd_mono;
  atol := 0;
  atol_nonneg := Z.le_refl 0;
  match_name := fun a b => if String.eqb a b then a else ""
|}.

(** ** Concrete states for the examples *)

(** Run a program and keep the state. *)
Definition run {A} (m : M A) (h : heap) : heap := heap_of (m h).

(** Three phones, 0 = B at 30-40, 3 = A at 10-20, 6 = C at 20-30, and a word
    9 = W at 10-30.  The numbers between are their boundary objects. *)
Definition ex_phones : heap :=
  run (new_obj cPhone (Some 30) (Some 40) "B" ;;;
       new_obj cPhone (Some 10) (Some 20) "A" ;;;
       new_obj cPhone (Some 20) (Some 30) "C" ;;;
       new_obj cWord (Some 10) (Some 30) "W") boot_heap.

(** Finite case analysis for the examples. *)
Ltac each Hx := repeat (destruct Hx as [<-|Hx]; [|]); [..|destruct Hx].
Ltac easy_case := first
  [ vm_compute; reflexivity | vm_compute; discriminate | vm_compute; congruence
  | (vm_compute; repeat eexists; (reflexivity || discriminate || congruence))
  | (vm_compute; intuition (congruence || discriminate)) ].
Ltac all_cases := intros ?x ?Hx;
  match goal with Hx : In _ _ |- _ => vm_compute in Hx; repeat (destruct Hx as [<-|Hx]); try contradiction; try easy_case end.
