(** * Property C82: sums with a subset_list on the left.
    Theorems only; proofs in LeftFinal.v. *)
From Verif Require Import LeftSpec LeftFinal DemoLeft.
Open Scope Z_scope.

(** C82: once the subset_list has an entry class, a sum changes nothing. *)
Theorem C82_free `{Env} : forall h x c l, s_subec (sob h x) = Some c -> all_of h c (s_subset (sob h x)) -> all_of h c l ->
  exists v, subset_plus x l h = Ok v h.
Proof. exact c82_free. Qed.
Print Assumptions C82_free.
Example C82_free_case : let E : Env := demo_env in
  (s_subec (sob ex_tree 9) = Some cPhone /\ all_of ex_tree cPhone (s_subset (sob ex_tree 9)) /\ all_of ex_tree cPhone [15%nat]) /\
  subset_plus 9 [15%nat] ex_tree = Ok (Slv [3; 6; 0; 15]%nat (Some cPhone)) ex_tree.
Proof. cbv zeta. split; [exact ex_tree_phones|vm_compute; reflexivity]. Qed.
(** C82: a sum with an empty subset_list on the left leaves the entry class behind, and nothing else. *)
Theorem C82_noted `{Env} : forall h x c l, live h x -> s_subset (sob h x) = [] -> s_subec (sob h x) = None -> l <> [] -> all_of h c l ->
  exists l' h', subset_plus x l h = Ok (Slv l' (Some c)) h' /\ Permutation l' l /\ sorted_starts h' l' /\ only_noted x c h h'.
Proof. exact c82_noted. Qed.
Print Assumptions C82_noted.
Example C82_noted_case : let E : Env := demo_env in
  (live ex_loose 9 /\ s_subset (sob ex_loose 9) = [] /\ s_subec (sob ex_loose 9) = None /\ all_of ex_loose cWord [12%nat] /\ all_of ex_loose cPhone [3; 0]%nat) /\
  exists h', subset_plus 9 [0; 3]%nat ex_loose = Ok (Slv [3; 0]%nat (Some cPhone)) h' /\ s_subset (sob h' 9) = [] /\ s_subec (sob h' 9) = Some cPhone.
Proof. cbv zeta. split; [exact ex_loose_word|]. eexists. split; [vm_compute; reflexivity|]. split; vm_compute; reflexivity. Qed.
(** C82: so of two sums either works, but the second after the first does not. *)
Theorem C82_order `{Env} : forall h x c d l m, live h x -> s_subset (sob h x) = [] -> s_subec (sob h x) = None ->
  l <> [] -> m <> [] -> all_of h c l -> all_of h d m -> ~ related h d c ->
  exists v w h' h'', subset_plus x l h = Ok v h' /\ subset_plus x m h = Ok w h'' /\
    subset_plus x m h' = Raise ValueError h' /\ subset_plus x l h'' = Raise ValueError h''.
Proof. exact c82_order. Qed.
Print Assumptions C82_order.
Example C82_order_case : let E : Env := demo_env in
  (live ex_loose 9 /\ s_subset (sob ex_loose 9) = [] /\ s_subec (sob ex_loose 9) = None /\ all_of ex_loose cWord [12%nat] /\ all_of ex_loose cPhone [3; 0]%nat) /\
  ~ related ex_loose cPhone cWord.
Proof. cbv zeta. split; [exact ex_loose_word|exact ex_loose_unrelated]. Qed.
(** C82: and after a sum with intervals of another class, a proper child is refused. *)
Theorem C82_append `{Env} : forall h x c d l y, live h x -> s_subset (sob h x) = [] -> s_subec (sob h x) = None ->
  l <> [] -> all_of h c l -> subset_class h (s_cls (sob h x)) = Some d -> s_cls (sob h y) = d -> s_super (sob h y) = None -> ~ related h d c ->
  exists v h', subset_plus x l h = Ok v h' /\ append_subset_list x y h' = Raise ValueError h'.
Proof. exact c82_append. Qed.
Print Assumptions C82_append.
Example C82_append_case : let E : Env := demo_env in
  subset_class ex_loose (s_cls (sob ex_loose 9)) = Some cPhone /\ s_cls (sob ex_loose 3) = cPhone /\ s_super (sob ex_loose 3) = None /\ ~ related ex_loose cPhone cWord /\
  (exists h', append_subset_list 9 3 ex_loose = Ok tt h' /\ s_subset (sob h' 9) = [3]%nat) /\
  exists v h', subset_plus 9 [12%nat] ex_loose = Ok v h' /\ append_subset_list 9 3 h' = Raise ValueError h'.
Proof.
  cbv zeta. split; [vm_compute; reflexivity|]. split; [vm_compute; reflexivity|]. split; [vm_compute; reflexivity|]. split; [exact ex_loose_unrelated|].
  split; [eexists; split; vm_compute; reflexivity|]. do 2 eexists. split; vm_compute; reflexivity.
Qed.
