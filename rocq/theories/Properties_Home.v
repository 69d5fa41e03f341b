(** * Property C83: what an interval is within.
    Theorems only; proofs in HomeFinal.v. *)
From Verif Require Import HomeSpec HomeFinal DemoHome.
Open Scope Z_scope.

(** C83: assigning a subset_list puts the children within their parent. *)
Theorem C83_assign `{Env} : forall K only h s l, reach K only h -> allowed K h (Assign s l) -> known_starts h l ->
  (forall x, In x l -> subset_class h (s_cls (sob h s)) = Some (s_cls (sob h x))) ->
  exists h', subset_setter s l h = Ok tt h' /\ (forall x, In x l -> s_super (sob h' x) = Some s /\ s_within (sob h' x) = Some (WSeq s)).
Proof. exact c83_assign. Qed.
Print Assumptions C83_assign.
Example C83_assign_case : let E : Env := demo_env in
  (allowed word_phone ex_tree (Assign 12 [0; 3]%nat) /\ known_starts ex_tree [0; 3]%nat /\
   (forall x, In x [0; 3]%nat -> subset_class ex_tree (s_cls (sob ex_tree 12)) = Some (s_cls (sob ex_tree x)))) /\
  reach word_phone timed ex_tree /\ s_within (sob ex_tree 0) = None /\
  exists h', subset_setter 12 [0; 3]%nat ex_tree = Ok tt h' /\ s_within (sob h' 0) = Some (WSeq 12) /\ obj_id 3 (RSeq 0) h' = Ok "1"%string h'.
Proof. cbv zeta. split; [exact ex_assign|]. split; [exact ex_tree_reach|]. split; [vm_compute; reflexivity|]. eexists. split; [vm_compute; reflexivity|]. split; vm_compute; reflexivity. Qed.
(** C83: appending a child does not: it stays within what it was within, or within nothing if it had a parent. *)
Theorem C83_append `{Env} : forall K only h s x h', reach K only h -> user_obj h s -> user_obj h x -> no_twin h s x ->
  subset_class h (s_cls (sob h s)) = Some (s_cls (sob h x)) -> s_super (sob h x) <> Some s -> append_subset_list s x h = Ok tt h' ->
  s_super (sob h' x) = Some s /\ s_within (sob h' x) = home_after h x /\
  (forall z, z <> x -> (z < List.length (h_seq h))%nat -> s_within (sob h' z) = s_within (sob h z)) /\
  (home_after h x = None -> forall n, obj_id (S n) (RSeq x) h' = Ok EmptyString h').
Proof. exact c83_append. Qed.
Print Assumptions C83_append.
Example C83_append_case : let E : Env := demo_env in
  reach word_phone (fun _ => True) ex_home /\ (user_obj ex_home 9 /\ user_obj ex_home 0 /\ no_twin ex_home 9 0) /\
  subset_class ex_home (s_cls (sob ex_home 9)) = Some (s_cls (sob ex_home 0)) /\ s_super (sob ex_home 0) = Some 12%nat /\ s_within (sob ex_home 0) = Some (WSeq 12) /\
  exists h', append_subset_list 9 0 ex_home = Ok tt h' /\ s_super (sob h' 0) = Some 9%nat /\ s_within (sob h' 0) = None.
Proof.
  cbv zeta. split; [exact ex_home_reach|]. split; [exact ex_home_back|]. split; [vm_compute; reflexivity|]. split; [vm_compute; reflexivity|]. split; [vm_compute; reflexivity|].
  eexists. split; [vm_compute; reflexivity|]. split; vm_compute; reflexivity.
Qed.
