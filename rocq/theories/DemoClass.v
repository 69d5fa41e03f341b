(** * DemoClass: a concrete class table and counterexamples about classes. *)
From Verif Require Export ClassFinal Demo.
Open Scope string_scope.
Open Scope Z_scope.

Lemma boot_table : class_table boot_heap.
Proof.
  split; [vm_compute; lia|]. split; [|repeat split].
  intros c b. do 9 (destruct c as [|c]; [vm_compute; intros [= <-]; lia || discriminate|]).
  intros E. exfalso. revert E. unfold cob. rewrite lookup_ge_None_2; [discriminate|vm_compute; lia].
Qed.
Ltac chain_goal := unfold class_chain;
  split; [apply NoDup_ListNoDup; repeat (constructor; [simpl; intuition discriminate|]); constructor|];
  split; [discriminate|]; split; [vm_compute; reflexivity|]; split; [vm_compute; reflexivity|];
  split; [all_cases|];
  let i := fresh "i" in intros i ?c ?d; do 5 (destruct i as [|i]; [vm_compute; first [intros [= <-] [= <-]; split; reflexivity|discriminate|intros ?; discriminate]|]);
  destruct i; discriminate.
Lemma boot_chain : class_chain boot_heap cTopwp [cWord; cPhone] cBottomwp.
Proof. chain_goal. Qed.
Lemma boot_names x : In x [cWord; cPhone] -> plain_name (class_name boot_heap x).
Proof. intros [<-|[<-|[]]]; split; reflexivity. Qed.
Lemma boot_unrelated : unrelated boot_heap (cTopwp :: [cWord; cPhone] ++ [cBottomwp]).
Proof.
  intros c d Hc Hd. simpl in Hc, Hd.
  destruct Hc as [<-|[<-|[<-|[<-|[]]]]]; destruct Hd as [<-|[<-|[<-|[<-|[]]]]]; vm_compute; congruence.
Qed.

(** Three fresh classes Word > Syl > Phone beside the library's own. *)
Definition ex_classes : heap := heap_of (custom_classes ["Word"; "Syl"; "Phone"] RNone [] boot_heap).

(** C11, duplicate names: the same class is returned twice. *)
Lemma c11_duplicates_refuted :
  exists h names, class_table h /\ names <> [] /\ (forall nm, In nm names -> plain_name nm) /\
    exists cs h', custom_classes names RNone [] h = Ok cs h' /\ ~ NoDup cs.
Proof.
  exists boot_heap, ["Seg"; "Seg"]. split; [exact boot_table|]. split; [discriminate|].
  split; [intros nm [<-|[<-|[]]]; split; reflexivity|].
  eexists _, _. split; [vm_compute; reflexivity|]. rewrite NoDup_ListNoDup. intros X. inversion X as [|? ? N _]. apply N. left. reflexivity.
Qed.
(** C11, a name containing "Top": the class has no superset class, although
    the Top class names it as its subset class. *)
Lemma c11_name_refuted :
  exists h names, class_table h /\ names <> [] /\ NoDup names /\
    exists c h', custom_classes names RNone [] h = Ok [c] h' /\ superset_class h' c = None.
Proof.
  exists boot_heap, ["Topic"]. split; [exact boot_table|]. split; [discriminate|]. split; [apply NoDup_singleton|].
  eexists _, _. split; vm_compute; reflexivity.
Qed.
(** C12: asking for three classes by name in a cyclic order. *)
Lemma c12_cycle_refuted :
  exists h names order, class_table h /\ NoDup names /\ Permutation order names /\
    (forall nm, In nm names -> plain_name nm) /\
    exists cs h', custom_classes names (RStr order) [] h = Ok cs h' /\ map (class_name h') cs <> order.
Proof.
  exists boot_heap, ["Word"; "Syl"; "Phone"], ["Syl"; "Phone"; "Word"]. split; [exact boot_table|].
  split; [apply NoDup_ListNoDup; repeat (constructor; [simpl; intuition discriminate|]); constructor|].
  split. { apply Permutation_sym. exact (Permutation_cons_append ["Syl"; "Phone"] "Word"). }
  split; [intros nm [<-|[<-|[<-|[]]]]; split; reflexivity|].
  eexists _, _. split; [vm_compute; reflexivity|]. vm_compute. discriminate.
Qed.
(** C14: [get_class_hierarchy(C)] without a list reuses the list of the
    previous call. *)
Lemma c14_default_refuted :
  exists h t1 cs1 b1 t2 cs2 b2 c1 c2, class_table h /\ class_chain h t1 cs1 b1 /\ class_chain h t2 cs2 b2 /\
    In c1 cs1 /\ In c2 cs2 /\
    exists out1 out2, get_class_hierarchy c1 [] h = Ok out1 h /\ get_class_hierarchy c2 out1 h = Ok out2 h /\ out2 <> cs2.
Proof.
  destruct (c11_chain boot_heap ["Word"; "Syl"; "Phone"] [] boot_table) as (h' & cs & E & D); [discriminate| | |].
  { apply NoDup_ListNoDup; repeat (constructor; [simpl; intuition discriminate|]); constructor. }
  { intros i nm. do 3 (destruct i as [|i]; [intros [= <-] _; split; reflexivity|]). destruct i; discriminate. }
  assert (h' = ex_classes) as -> by (unfold ex_classes; rewrite E; reflexivity).
  assert (cs = [11; 12; 13]%nat) as -> by (vm_compute in E; congruence).
  destruct D as (K & _ & _ & _ & _ & t & b & _ & _ & C).
  assert (T : class_table ex_classes).
  { apply (kept_table boot_heap); [exact boot_table| |exact K].
    intros c x. do 14 (destruct c as [|c]; [vm_compute; intros [= <-]; lia || discriminate|]).
    intros X. exfalso. revert X. unfold cob. rewrite lookup_ge_None_2; [discriminate|vm_compute; lia]. }
  exists ex_classes, cTopwp, [cWord; cPhone], cBottomwp, t, [11; 12; 13]%nat, b, cWord, 11%nat.
  split; [exact T|]. split; [chain_goal|]. split; [apply C; vm_compute; discriminate|].
  split; [left; reflexivity|]. split; [left; reflexivity|].
  eexists _, _. split; [vm_compute; reflexivity|]. split; [vm_compute; reflexivity|]. discriminate.
Qed.
