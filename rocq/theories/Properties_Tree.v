(** * Properties C15-C17: parents and children.  Theorems only; proofs in
    TreeFinal.v, counterexamples in DemoTree.v. *)
From Verif Require Import TreeFinal DemoTree.
Open Scope Z_scope.

(** C15: after any history of allowed calls, raising or not, parents and
    children agree, nobody is listed twice, and each list is linked. *)
Theorem C15_families `{Env} : forall K h, reach K (fun _ => True) h -> families_ok h.
Proof. exact c15_families. Qed.
Print Assumptions C15_families.
(** A history: six objects, four calls that build two families, one that moves
    a phone, one that raises (a word cannot have a word), one that detaches. *)
Definition C15_moves : list op := [Append 12 0; Append 9 12; Detach 3; SetLabel 6 "E"; SetTimes 6 (Some 35) (Some 45)].
Example C15_families_case : let E : Env := demo_env in
  reach word_phone (fun _ => True) (play C15_moves ex_tree) /\
  (exists e, heap_of (append_subset_list 9 12 (play [Append 12 0] ex_tree)) = play [Append 12 0] ex_tree /\
             append_subset_list 9 12 (play [Append 12 0] ex_tree) = Raise e (play [Append 12 0] ex_tree)) /\
  s_subset (sob (play C15_moves ex_tree) 9) = [6%nat] /\ s_subset (sob (play C15_moves ex_tree) 12) = [0; 15]%nat.
Proof.
  cbv zeta. split; [|split; [|split]].
  - apply play_reach; [eapply reach_any, ex_tree_reach|]. unfold C15_moves. cbn [plays].
    repeat match goal with |- _ /\ _ => split; [|split; [exact Logic.I|]] end; [..|exact Logic.I].
    + step_ok.
    + step_ok.
    + user.
    + split; [user|]. split; [discriminate|]. intros p Ep. vm_compute in Ep. injection Ep as <-. twin.
    + split; [user|]. intros p Ep. vm_compute in Ep. injection Ep as <-. twin.
  - eexists. split; vm_compute; reflexivity.
  - vm_compute; reflexivity.
  - vm_compute; reflexivity.
Qed.
(** C15: children stay in start order if starts are known and never 0. *)
Theorem C15_sorted `{Env} : forall K h, reach K timed h -> forall p, sorted_starts h (s_subset (sob h p)).
Proof. exact c15_sorted. Qed.
Print Assumptions C15_sorted.
Example C15_sorted_case : let E : Env := demo_env in
  reach word_phone timed ex_tree /\ s_subset (sob ex_tree 9) = [3; 6; 0]%nat.
Proof. cbv zeta. split; [exact ex_tree_reach|vm_compute; reflexivity]. Qed.
(** C15: append_subset_list moves exactly one child. *)
Theorem C15_join `{Env} : forall K h s x, reach K timed h ->
  user_obj h s -> user_obj h x -> no_twin h s x ->
  subset_class h (s_cls (sob h s)) = Some (s_cls (sob h x)) -> s_super (sob h x) <> Some s ->
  exists h', append_subset_list s x h = Ok tt h' /\ joined s x h h'.
Proof. exact c15_join. Qed.
Print Assumptions C15_join.
Example C15_join_case : let E : Env := demo_env in
  user_obj ex_tree 12 /\ user_obj ex_tree 3 /\ no_twin ex_tree 12 3 /\
  subset_class ex_tree (s_cls (sob ex_tree 12)) = Some (s_cls (sob ex_tree 3)) /\
  s_super (sob ex_tree 3) = Some 9%nat /\
  s_subset (sob (heap_of (append_subset_list 12 3 ex_tree)) 12) = [3; 15]%nat /\
  s_subset (sob (heap_of (append_subset_list 12 3 ex_tree)) 9) = [6; 0]%nat.
Proof. cbv zeta. split; [user|]. split; [user|]. split; [twin|]. vm_compute. repeat split. Qed.
(** C15: set_super_instance on an orphan has the same effect. *)
Theorem C15_adopt `{Env} : forall K h s x, reach K timed h ->
  user_obj h s -> user_obj h x -> no_twin h s x ->
  subset_class h (s_cls (sob h s)) = Some (s_cls (sob h x)) -> s_super (sob h x) = None ->
  exists h', set_super_instance x s h = Ok tt h' /\ joined s x h h'.
Proof. exact c15_adopt. Qed.
Print Assumptions C15_adopt.
Example C15_adopt_case : let E : Env := demo_env in
  let h := play [Detach 3] ex_tree in
  reach word_phone timed h /\ user_obj h 12 /\ user_obj h 3 /\ no_twin h 12 3 /\
  subset_class h (s_cls (sob h 12)) = Some (s_cls (sob h 3)) /\ s_super (sob h 3) = None.
Proof.
  cbv zeta. split; [|split; [user|split; [user|split; [twin|vm_compute; repeat split]]]].
  apply play_reach; [exact ex_tree_reach|]. cbn [plays]. split; [user|]. split; exact Logic.I.
Qed.
(** C15: a child of the wrong class is refused and nothing changes. *)
Theorem C15_wrong_class `{Env} : forall K only h s x, reach K only h -> user_obj h s -> user_obj h x ->
  subset_class h (s_cls (sob h s)) <> Some (s_cls (sob h x)) ->
  (exists e, append_subset_list s x h = Raise e h) /\ (exists e, set_super_instance x s h = Raise e h).
Proof. exact c15_wrong_class. Qed.
Print Assumptions C15_wrong_class.
Example C15_wrong_class_case :
  subset_class ex_tree (s_cls (sob ex_tree 12)) <> Some (s_cls (sob ex_tree 9)) /\
  subset_class ex_tree (s_cls (sob ex_tree 3)) <> Some (s_cls (sob ex_tree 6)).
Proof. vm_compute. split; discriminate. Qed.

(** C15, why set_super_instance is limited to orphans, equal-valued objects
    are kept out, and the label "#" is excluded. *)
Theorem C15_second_parent_refuted : let E : Env := demo_env in
  exists h x s q h', reach word_phone timed h /\ user_obj h x /\ user_obj h s /\ no_twin h s x /\
    set_super_instance x s h = Ok tt h' /\
    s_super (sob h' x) = Some s /\ In x (s_subset (sob h' q)) /\ q <> s.
Proof. exact c15_second_parent_refuted. Qed.
Print Assumptions C15_second_parent_refuted.
Theorem C15_twin_refuted : let E : Env := demo_env in
  exists h s x y h', reach word_phone timed h /\ user_obj h x /\ user_obj h s /\ same_value h y x /\ y <> x /\
    remove_from_subset_list s x h = Ok tt h' /\
    s_super (sob h' y) = Some s /\ ~ In y (s_subset (sob h' s)).
Proof. exact c15_twin_refuted. Qed.
Print Assumptions C15_twin_refuted.
Theorem C15_hash_refuted : let E : Env := demo_env in
  exists s x y, let h := play [New cWord (Some 10) (Some 30) "W"; New cPhone (Some 10) (Some 20) "#";
                       New cPhone (Some 20) (Some 30) "A"; Append 0 3; Append 0 4] boot_heap in
    s_subset (sob h s) = [x; y] /\ s_fol (sob h x) <> Some y.
Proof. exact c15_hash_refuted. Qed.
Print Assumptions C15_hash_refuted.

(** C16: the three ways to remove a child remove exactly it. *)
Theorem C16_removal `{Env} : forall K only h s x, reach K only h -> In x (s_subset (sob h s)) ->
  forall call', In call' [remove_from_subset_list s x; seq_pop s x; remove_superset x] ->
  exists h', call' h = Ok tt h' /\ left_parent s x h h' /\ chained h' (s_subset (sob h' s)).
Proof. exact c16_removal. Qed.
Print Assumptions C16_removal.
Example C16_removal_case : let E : Env := demo_env in
  In 6%nat (s_subset (sob ex_tree 9)) /\
  map (fun m => s_subset (sob (heap_of (m ex_tree)) 9))
    [remove_from_subset_list 9 6; seq_pop 9 6; remove_superset 6] = [[3; 0]; [3; 0]; [3; 0]]%nat.
Proof. cbv zeta. split; [vm_compute; auto|vm_compute; reflexivity]. Qed.
(** C16: the removed child's own fol and prev are not reset. *)
Theorem C16_links_refuted : let E : Env := demo_env in
  exists h s x y h', reach word_phone timed h /\ In x (s_subset (sob h s)) /\
    remove_from_subset_list s x h = Ok tt h' /\ s_fol (sob h' x) = Some y /\ In y (s_subset (sob h' s)).
Proof. exact c16_links_refuted. Qed.
Print Assumptions C16_links_refuted.

(** C17: assigning subset_list. *)
Theorem C17_assign `{Env} : forall K only h s l, reach K only h -> allowed K h (Assign s l) -> known_starts h l ->
  (forall x, In x l -> subset_class h (s_cls (sob h s)) = Some (s_cls (sob h x))) ->
  exists h', subset_setter s l h = Ok tt h' /\ reassigned s l h h' /\
    sorted_starts h' (s_subset (sob h' s)) /\ chained h' (s_subset (sob h' s)).
Proof. exact c17_assign. Qed.
Print Assumptions C17_assign.
Example C17_assign_case : let E : Env := demo_env in
  allowed word_phone ex_tree (Assign 12 [0; 3]%nat) /\ known_starts ex_tree [0; 3]%nat /\
  (forall x, In x [0; 3]%nat -> subset_class ex_tree (s_cls (sob ex_tree 12)) = Some (s_cls (sob ex_tree x))) /\
  let h := heap_of (subset_setter 12 [0; 3]%nat ex_tree) in
  s_subset (sob h 12) = [3; 0]%nat /\ s_subset (sob h 9) = [6]%nat /\ s_super (sob h 15) = None.
Proof.
  cbv zeta. split; [|split; [|split; [|vm_compute; repeat split]]].
  - split; [user|]. split; [intros x [<-|[<-|[]]]; user|].
    split; [apply NoDup_ListNoDup; repeat constructor; simpl; intuition discriminate|].
    split.
    + intros x y [<-|[<-|[]]] [<-|[<-|[]]] (_ & A & _); vm_compute in A; auto; discriminate A.
    + intros x [<-|[<-|[]]]; twin.
  - intros x [<-|[<-|[]]]; vm_compute; eauto.
  - intros x [<-|[<-|[]]]; vm_compute; reflexivity.
Qed.
(** C17: the method set_subset_list does less than the assignment. *)
Theorem C17_stale_refuted : let E : Env := demo_env in
  exists h s x h', reach word_phone timed h /\ In x (s_subset (sob h s)) /\
    set_subset_list s [6%nat] h = Ok tt h' /\ ~ In x (s_subset (sob h' s)) /\ s_super (sob h' x) = Some s.
Proof. exact c17_stale_refuted. Qed.
Print Assumptions C17_stale_refuted.
Theorem C17_live_refuted : let E : Env := demo_env in
  exists h s q x h', reach word_phone timed h /\ In x (s_subset (sob h q)) /\
    set_subset_list_live s q h = Ok tt h' /\ In x (s_subset (sob h' s)) /\ s_super (sob h' x) = Some q /\ q <> s.
Proof. exact c17_live_refuted. Qed.
Print Assumptions C17_live_refuted.
