(** * DemoTree: a concrete history, and counterexamples for C15-C17. *)
From Verif Require Export TreeFinal Demo.
Open Scope Z_scope.

(** The words and phones of the default class list. *)
Definition word_phone (c : cid) : Prop := c = cWord \/ c = cPhone.
Lemma word_phone_chains : separate_chains boot_heap word_phone.
Proof.
  assert (C : h_cls boot_heap = h_cls boot_heap) by reflexivity.
  split; [|split; [|split; [|split]]].
  - intros c [->| ->]; left; vm_compute; reflexivity.
  - intros c d k [->| ->] E [->| ->] S; vm_compute in E, S; try discriminate; injection E as <-; auto; vm_compute in S; discriminate.
  - intros c d k [->| ->] E [->| ->] S; vm_compute in E, S; try discriminate; injection E as <-; auto; vm_compute in S; discriminate.
  - intros c d [->| ->] [->| ->]; split; vm_compute; intros E; try discriminate; auto.
  - intros c [->| ->]; vm_compute; discriminate.
Qed.

(** Run a list of calls. *)
Definition play `{Env} (ops : list op) (h : heap) : heap := fold_left (fun h o => heap_of (call o h)) ops h.

Section WithEnv.
Context `{Env}.
(** A history may be checked call by call. *)
Fixpoint plays (K : cid -> Prop) (only : op -> Prop) (ops : list op) (h : heap) : Prop :=
  match ops with
  | [] => True
  | o :: r => allowed K h o /\ only o /\ plays K only r (heap_of (call o h))
  end.
Lemma play_reach K only ops : forall h, reach K only h -> plays K only ops h -> reach K only (play ops h).
Proof.
  induction ops as [|o r IH]; intros h R P; [exact R|]. destruct P as (A & B & C).
  simpl. apply IH; [|exact C]. apply reach_step; auto.
Qed.
End WithEnv.

Ltac user := split; [vm_compute; repeat constructor|vm_compute; discriminate].
Ltac twin := let y := fresh in let Hy := fresh in let V := fresh in let A := fresh in let B := fresh in
  intros y Hy V; destruct V as (_ & A & B & _);
  vm_compute in Hy; repeat (destruct Hy as [<-|Hy]); try contradiction; vm_compute in A, B;
  first [reflexivity | discriminate A | discriminate B].
Ltac step_ok :=
  first [ split; [first [left; reflexivity|right; reflexivity]|discriminate]
        | split; [user|split; [user|first [twin|split; [twin|left; vm_compute; reflexivity]]]]
        ].

(** Phones B 0, A 3, C 6 and D 15; words W 9 (with A, C, B) and V 12 (with
    D). *)
Definition ex_made : list op :=
  [New cPhone (Some 30) (Some 40) "B"; New cPhone (Some 10) (Some 20) "A"; New cPhone (Some 20) (Some 30) "C";
   New cWord (Some 10) (Some 40) "W"; New cWord (Some 40) (Some 60) "V"; New cPhone (Some 40) (Some 50) "D"].
Definition ex_calls : list op := (ex_made ++ [Append 9 0; Append 9 3; SetSuper 6 9; Append 12 15])%nat%list.
Definition ex_tree : heap := @play demo_env ex_calls boot_heap.

Lemma ex_tree_reach : @reach demo_env word_phone timed ex_tree.
Proof.
  apply play_reach; [apply reach_start; [vm_compute; reflexivity|exact word_phone_chains]|].
  unfold ex_calls, ex_made. cbn [plays app].
  repeat match goal with
  | |- _ /\ _ => split; [step_ok|split; [first [exact Logic.I|eexists; split; [reflexivity|discriminate]]|]]
  end.
  exact Logic.I.
Qed.
Lemma reach_any `{Env} K only h : reach K only h -> reach K (fun _ => True) h.
Proof. induction 1; [apply reach_start|apply reach_step]; auto. Qed.

(** x.set_super_instance(s) on a child of another parent leaves it listed
    there. *)
Lemma c15_second_parent_refuted : let E : Env := demo_env in
  exists h x s q h', reach word_phone timed h /\ user_obj h x /\ user_obj h s /\ no_twin h s x /\
    set_super_instance x s h = Ok tt h' /\
    s_super (sob h' x) = Some s /\ In x (s_subset (sob h' q)) /\ q <> s.
Proof.
  cbv zeta. eexists ex_tree, 3%nat, 12%nat, 9%nat, _. split; [exact ex_tree_reach|].
  split; [user|]. split; [user|]. split; [twin|]. split; [vm_compute; reflexivity|].
  split; [reflexivity|]. split; [vm_compute; auto|]. discriminate.
Qed.
(** Removing an equal-valued stranger unlists the child, which keeps its
    parent. *)
Lemma c15_twin_refuted : let E : Env := demo_env in
  exists h s x y h', reach word_phone timed h /\ user_obj h x /\ user_obj h s /\ same_value h y x /\ y <> x /\
    remove_from_subset_list s x h = Ok tt h' /\
    s_super (sob h' y) = Some s /\ ~ In y (s_subset (sob h' s)).
Proof.
  cbv zeta. pose (o := New cPhone (Some 10) (Some 20) "A").
  eexists (heap_of (@call demo_env o ex_tree)), 9%nat, (List.length (h_seq ex_tree)), 3%nat, _.
  split; [apply reach_step; [exact ex_tree_reach|step_ok|eexists; split; [reflexivity|discriminate]]|].
  split; [user|]. split; [user|].
  split; [vm_compute; repeat split|]. split; [vm_compute; discriminate|].
  split; [vm_compute; reflexivity|]. split; [reflexivity|].
  vm_compute. intros X. repeat (destruct X as [X|X]; [discriminate|]). destruct X.
Qed.
(** A child labelled "#" is never linked to its siblings. *)
Lemma c15_hash_refuted : let E : Env := demo_env in
  exists s x y, let h := play [New cWord (Some 10) (Some 30) "W"; New cPhone (Some 10) (Some 20) "#";
                       New cPhone (Some 20) (Some 30) "A"; Append 0 3; Append 0 4] boot_heap in
    s_subset (sob h s) = [x; y] /\ s_fol (sob h x) <> Some y.
Proof. exists 0%nat, 3%nat, 4%nat. vm_compute. split; [reflexivity|discriminate]. Qed.
(** set_subset_list, unlike the assignment, keeps the former children's
    parent. *)
Lemma c17_stale_refuted : let E : Env := demo_env in
  exists h s x h', reach word_phone timed h /\ In x (s_subset (sob h s)) /\
    set_subset_list s [6%nat] h = Ok tt h' /\ ~ In x (s_subset (sob h' s)) /\ s_super (sob h' x) = Some s.
Proof.
  cbv zeta. eexists ex_tree, 9%nat, 3%nat, _. split; [exact ex_tree_reach|].
  split; [vm_compute; auto|]. split; [vm_compute; reflexivity|]. split; [|reflexivity].
  vm_compute. intros [X|X]; [discriminate|destruct X].
Qed.
(** set_subset_list(q.subset_list): the loop reads q's list while shrinking
    it, so every other child keeps its old parent. *)
Lemma c17_live_refuted : let E : Env := demo_env in
  exists h s q x h', reach word_phone timed h /\ In x (s_subset (sob h q)) /\
    set_subset_list_live s q h = Ok tt h' /\ In x (s_subset (sob h' s)) /\ s_super (sob h' x) = Some q /\ q <> s.
Proof.
  cbv zeta. eexists ex_tree, 12%nat, 9%nat, 6%nat, _. split; [exact ex_tree_reach|].
  split; [vm_compute; auto|]. split; [vm_compute; reflexivity|]. split; [vm_compute; auto|]. split; [reflexivity|discriminate].
Qed.
(** The removed child keeps pointing at its former neighbours. *)
Lemma c16_links_refuted : let E : Env := demo_env in
  exists h s x y h', reach word_phone timed h /\ In x (s_subset (sob h s)) /\
    remove_from_subset_list s x h = Ok tt h' /\ s_fol (sob h' x) = Some y /\ In y (s_subset (sob h' s)).
Proof.
  cbv zeta. eexists ex_tree, 9%nat, 3%nat, 6%nat, _. split; [exact ex_tree_reach|].
  split; [vm_compute; auto|]. split; [vm_compute; reflexivity|]. split; [reflexivity|vm_compute; auto].
Qed.
