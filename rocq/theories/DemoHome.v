(** * DemoHome: concrete cases for C83. *)
From Verif Require Export HomeSpec HomeFinal DemoTree.
Open Scope Z_scope.

(** Word 12 is given the phones 0 and 3. *)
Lemma ex_assign : @allowed demo_env word_phone ex_tree (Assign 12 [0; 3]%nat) /\ known_starts ex_tree [0; 3]%nat /\
  (forall x, In x [0; 3]%nat -> subset_class ex_tree (s_cls (sob ex_tree 12)) = Some (s_cls (sob ex_tree x))).
Proof.
  split; [|split].
  - split; [user|]. split; [intros x [<-|[<-|[]]]; user|].
    split; [apply NoDup_ListNoDup; repeat constructor; simpl; intuition discriminate|].
    split.
    + intros x y [<-|[<-|[]]] [<-|[<-|[]]] (_ & A & _); vm_compute in A; auto; discriminate A.
    + intros x [<-|[<-|[]]]; twin.
  - intros x [<-|[<-|[]]]; vm_compute; eauto.
  - intros x [<-|[<-|[]]]; vm_compute; reflexivity.
Qed.
Definition ex_home : heap := heap_of (@call demo_env (Assign 12 [0; 3]%nat) ex_tree).
Lemma ex_home_reach : @reach demo_env word_phone (fun _ => True) ex_home.
Proof. unfold ex_home. exact (@reach_step demo_env word_phone (fun _ => True) ex_tree (Assign 12 [0; 3]%nat) (@reach_any demo_env _ _ _ ex_tree_reach) (proj1 ex_assign) Logic.I). Qed.
Lemma ex_home_back : user_obj ex_home 9 /\ user_obj ex_home 0 /\ no_twin ex_home 9 0.
Proof. split; [user|]. split; [user|twin]. Qed.
