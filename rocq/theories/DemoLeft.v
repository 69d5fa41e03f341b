(** * DemoLeft: concrete cases for C82. *)
From Verif Require Export LeftSpec LeftFinal DemoTree.
Open Scope Z_scope.

(** Words 9 and 12 and phones 0, 3 and 6, not related yet. *)
Definition ex_loose : heap := Eval vm_compute in @play demo_env ex_made boot_heap.
Lemma ex_loose_word : live ex_loose 9 /\ s_subset (sob ex_loose 9) = [] /\ s_subec (sob ex_loose 9) = None /\ all_of ex_loose cWord [12%nat] /\ all_of ex_loose cPhone [3; 0]%nat.
Proof.
  split; [vm_compute; lia|]. split; [reflexivity|]. split; [reflexivity|].
  split; intros x Hx; repeat (destruct Hx as [<-|Hx]; [split; [reflexivity|split; vm_compute; discriminate]|]); destruct Hx.
Qed.
Lemma ex_loose_unrelated : ~ related ex_loose cPhone cWord.
Proof. intros [A|A]; vm_compute in A; discriminate A. Qed.
Lemma ex_tree_phones : s_subec (sob ex_tree 9) = Some cPhone /\ all_of ex_tree cPhone (s_subset (sob ex_tree 9)) /\ all_of ex_tree cPhone [15%nat].
Proof.
  split; [vm_compute; reflexivity|]. assert (E : s_subset (sob ex_tree 9) = [3; 6; 0]%nat) by (vm_compute; reflexivity). rewrite E.
  split; intros x Hx; repeat (destruct Hx as [<-|Hx]; [split; [vm_compute; reflexivity|split; vm_compute; discriminate]|]); destruct Hx.
Qed.
