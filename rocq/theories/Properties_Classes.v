(** * Properties C10-C14 and C42: class hierarchies.  Theorems only; proofs in
    ClassFinal.v, counterexamples in DemoClass.v. *)
From Verif Require Import ClassFinal DemoClass.
Open Scope string_scope.
Open Scope Z_scope.

(** C10: set_superset_class makes the two classes agree and touches no others. *)
Theorem C10_superset : forall h c d, (c < List.length (h_cls h))%nat -> (d < List.length (h_cls h))%nat -> c <> d ->
  issubclass h c cHierarchyPart = true -> issubclass h d cHierarchyPart = true ->
  str_in "Top" (class_name h c) = false -> str_in "Bottom" (class_name h d) = false ->
  exists h', set_superset_class c (Some d) h = Ok tt h' /\
    superset_class h' c = Some d /\ subset_class h' d = Some c /\
    (forall k, k <> c -> k <> d -> cob h' k = cob h k) /\
    (forall k, c_name (cob h' k) = c_name (cob h k) /\ c_base (cob h' k) = c_base (cob h k)) /\
    c_sub (cob h' c) = c_sub (cob h c) /\ c_super (cob h' d) = c_super (cob h d) /\
    List.length (h_cls h') = List.length (h_cls h) /\
    h_seq h' = h_seq h /\ h_tier h' = h_tier h /\ h_grp h' = h_grp h /\ h_grid h' = h_grid h.
Proof. exact c10_superset. Qed.
Print Assumptions C10_superset.
Example C10_superset_case :
  superset_class boot_heap cPhone = Some cWord /\ subset_class boot_heap cTop = Some cInterval /\
  let h' := heap_of (set_superset_class cPhone (Some cTop) boot_heap) in
  superset_class h' cPhone = Some cTop /\ subset_class h' cTop = Some cPhone /\ subset_class h' cWord = Some cPhone.
Proof. vm_compute. repeat split. Qed.
(** C10: the same for set_subset_class. *)
Theorem C10_subset : forall h c d, (c < List.length (h_cls h))%nat -> (d < List.length (h_cls h))%nat -> c <> d ->
  issubclass h c cHierarchyPart = true -> issubclass h d cHierarchyPart = true ->
  str_in "Bottom" (class_name h c) = false -> str_in "Top" (class_name h d) = false ->
  exists h', set_subset_class c (Some d) h = Ok tt h' /\
    subset_class h' c = Some d /\ superset_class h' d = Some c /\
    (forall k, k <> c -> k <> d -> cob h' k = cob h k) /\
    (forall k, c_name (cob h' k) = c_name (cob h k) /\ c_base (cob h' k) = c_base (cob h k)) /\
    c_super (cob h' c) = c_super (cob h c) /\ c_sub (cob h' d) = c_sub (cob h d) /\
    List.length (h_cls h') = List.length (h_cls h) /\
    h_seq h' = h_seq h /\ h_tier h' = h_tier h /\ h_grp h' = h_grp h /\ h_grid h' = h_grid h.
Proof. exact c10_subset. Qed.
Print Assumptions C10_subset.
Example C10_subset_case :
  subset_class boot_heap cWord = Some cPhone /\
  issubclass boot_heap cWord cHierarchyPart = true /\ issubclass boot_heap cInterval cHierarchyPart = true /\
  str_in "Bottom" (class_name boot_heap cWord) = false /\ str_in "Top" (class_name boot_heap cInterval) = false /\
  superset_class (heap_of (set_subset_class cWord (Some cInterval) boot_heap)) cInterval = Some cWord.
Proof. vm_compute. repeat split. Qed.
(** C10: a class that is no hierarchy class, or the class itself, is refused. *)
Theorem C10_refused : forall h c d, issubclass h d cHierarchyPart = false \/ d = c ->
  (str_in "Top" (class_name h c) = false -> set_superset_class c (Some d) h = Raise PyException h) /\
  (str_in "Bottom" (class_name h c) = false -> set_subset_class c (Some d) h = Raise PyException h).
Proof. exact c10_refused. Qed.
Print Assumptions C10_refused.
Example C10_refused_case :
  issubclass boot_heap cPoint cHierarchyPart = false /\ str_in "Top" (class_name boot_heap cWord) = false.
Proof. vm_compute. split; reflexivity. Qed.
(** C10: the ends of the hierarchy. *)
Theorem C10_ends : forall h c v, (c < List.length (h_cls h))%nat ->
  (v = None \/ str_in "Top" (class_name h c) = true ->
   exists h', set_superset_class c v h = Ok tt h' /\ superset_class h' c = None /\ forall k, k <> c -> cob h' k = cob h k) /\
  (v = None \/ str_in "Bottom" (class_name h c) = true ->
   exists h', set_subset_class c v h = Ok tt h' /\ subset_class h' c = None /\ forall k, k <> c -> cob h' k = cob h k).
Proof. exact c10_ends. Qed.
Print Assumptions C10_ends.
Example C10_ends_case :
  str_in "Top" (class_name boot_heap cTopwp) = true /\ subset_class boot_heap cBottomwp = None /\
  superset_class (heap_of (set_superset_class cTopwp (Some cWord) boot_heap)) cTopwp = None.
Proof. vm_compute. repeat split. Qed.

(** C11: custom_classes of a duplicate-free list of names, some of them point
    classes. *)
Theorem C11_chain : forall h names points, class_table h -> names <> [] -> NoDup names ->
  (forall i nm, nth_error names i = Some nm -> ~ In i points -> plain_name nm) ->
  exists h' cs, custom_classes names RNone points h = Ok cs h' /\ declares h h' names points cs.
Proof. exact c11_chain. Qed.
Print Assumptions C11_chain.
Example C11_chain_case : class_table boot_heap /\
  map (class_name (heap_of (custom_classes ["Word"; "Tone"; "Phone"] RNone [1%nat] boot_heap)))
      (match custom_classes ["Word"; "Tone"; "Phone"] RNone [1%nat] boot_heap with Ok cs _ => cs | _ => [] end)
  = ["Word"; "Tone"; "Phone"] /\
  subset_class (heap_of (custom_classes ["Word"; "Tone"; "Phone"] RNone [1%nat] boot_heap)) 11 = Some 13%nat.
Proof. split; [exact boot_table|]. vm_compute. split; reflexivity. Qed.
(** C11: a bare string instead of a list. *)
Theorem C11_one : forall h name, class_table h -> plain_name name ->
  exists h' c, custom_class1 name false h = Ok c h' /\ declares h h' [name] [] [c].
Proof. exact c11_one. Qed.
Print Assumptions C11_one.
Example C11_one_case : class_table boot_heap /\ plain_name "Word" /\
  exists c h', custom_class1 "Word" false boot_heap = Ok c h' /\ class_name h' c = "Word".
Proof. split; [exact boot_table|]. split; [split; reflexivity|]. eexists _, _. split; vm_compute; reflexivity. Qed.
(** C11: the empty list raises and leaves the existing classes alone. *)
Theorem C11_empty : forall h points, class_table h -> exists h', custom_classes [] RNone points h = Raise IndexError h' /\ classes_kept h h'.
Proof. exact c11_empty. Qed.
Print Assumptions C11_empty.
(** C11: the condition on duplicates is needed. *)
Theorem C11_duplicates_refuted : exists h names, class_table h /\ names <> [] /\ (forall nm, In nm names -> plain_name nm) /\
    exists cs h', custom_classes names RNone [] h = Ok cs h' /\ ~ NoDup cs.
Proof. exact c11_duplicates_refuted. Qed.
Print Assumptions C11_duplicates_refuted.
(** C11: the condition on names is needed. *)
Theorem C11_name_refuted : exists h names, class_table h /\ names <> [] /\ NoDup names /\
    exists c h', custom_classes names RNone [] h = Ok [c] h' /\ superset_class h' c = None.
Proof. exact c11_name_refuted. Qed.
Print Assumptions C11_name_refuted.

(** C12: positions, counted from either end. *)
Theorem C12_positions : forall h names points l, class_table h -> l <> [] ->
  (forall i nm, nth_error names i = Some nm -> ~ In i points -> plain_name nm) ->
  (forall k, In k l -> - Z.of_nat (List.length names) <= k < Z.of_nat (List.length names)) ->
  exists h' cs r, custom_classes names (RInt l) points h = Ok r h' /\ declares h h' names points cs /\
    List.length r = List.length l /\
    forall j k, nth_error l j = Some k ->
      nth_error r j = nth_error cs (Z.to_nat (k mod Z.of_nat (List.length names))).
Proof. exact c12_positions. Qed.
Print Assumptions C12_positions.
Example C12_positions_case :
  match custom_classes ["Word"; "Syl"; "Phone"] (RInt [-1; 0; 1]) [] boot_heap with
  | Ok r h' => map (class_name h') r | _ => [] end = ["Phone"; "Word"; "Syl"].
Proof. vm_compute. reflexivity. Qed.
(** C12: names.  What is returned, and exactly when it is in the order asked for. *)
Theorem C12_names : forall h names order points, class_table h -> names <> [] -> NoDup names -> Permutation order names ->
  (forall i nm, nth_error names i = Some nm -> ~ In i points -> plain_name nm) ->
  exists h' cs r, custom_classes names (RStr order) points h = Ok r h' /\ declares h h' names points cs /\
    List.length r = List.length names /\
    (forall i j x, nth_error names i = Some x -> nth_error order j = Some x -> nth_error r i = nth_error cs j) /\
    (map (class_name h') r = order <->
     forall i j x, nth_error names i = Some x -> nth_error order j = Some x -> nth_error order i = nth_error names j).
Proof. exact c12_names. Qed.
Print Assumptions C12_names.
Example C12_names_case :
  Permutation ["Phone"; "Syl"; "Word"] ["Word"; "Syl"; "Phone"] /\
  match custom_classes ["Word"; "Syl"; "Phone"] (RStr ["Phone"; "Syl"; "Word"]) [] boot_heap with
  | Ok r h' => map (class_name h') r | _ => [] end = ["Phone"; "Syl"; "Word"].
Proof. split; [|vm_compute; reflexivity]. apply (Permutation_rev ["Phone"; "Syl"; "Word"]). Qed.
(** C12: the documented behaviour fails for a 3-cycle. *)
Theorem C12_cycle_refuted : exists h names order, class_table h /\ NoDup names /\ Permutation order names /\
    (forall nm, In nm names -> plain_name nm) /\
    exists cs h', custom_classes names (RStr order) [] h = Ok cs h' /\ map (class_name h') cs <> order.
Proof. exact c12_cycle_refuted. Qed.
Print Assumptions C12_cycle_refuted.

(** C13: cloning a hierarchy. *)
Theorem C13_clone : forall h t c cs b, class_table h -> class_chain h t (c :: cs) b ->
  (forall x, In x (c :: cs) -> plain_name (class_name h x)) ->
  exists h' t' c' cs' b', clone_class c h = Ok c' h' /\
    class_chain h' t' (c' :: cs') b' /\ Forall2 (clone_of h h') (c :: cs) (c' :: cs') /\
    (List.length (h_cls h) <= t')%nat /\ (List.length (h_cls h) <= b')%nat /\
    classes_kept h h' /\ class_chain h' t (c :: cs) b /\
    class_table h' /\ unrelated h' (t' :: c' :: cs' ++ [b']).
Proof. exact c13_clone. Qed.
Print Assumptions C13_clone.
Example C13_clone_case : class_table boot_heap /\ class_chain boot_heap cTopwp [cWord; cPhone] cBottomwp /\
  exists h', clone_class cWord boot_heap = Ok 9%nat h' /\ subset_class h' 9 = Some 11%nat /\
    superset_class h' 11 = Some 9%nat /\ subset_class h' cWord = Some cPhone.
Proof.
  split; [exact boot_table|]. split; [exact boot_chain|]. eexists. split; [vm_compute; reflexivity|]. vm_compute. repeat split.
Qed.
(** C13: only the top of a hierarchy can be cloned. *)
Theorem C13_not_top : forall h c q, issubclass h c cInterval = true -> superset_class h c = Some q -> issubclass h q cTop = false ->
  clone_class c h = Raise PyException h.
Proof. exact c13_not_top. Qed.
Print Assumptions C13_not_top.
Example C13_not_top_case : issubclass boot_heap cPhone cInterval = true /\
  superset_class boot_heap cPhone = Some cWord /\ issubclass boot_heap cWord cTop = false.
Proof. vm_compute. repeat split. Qed.
(** C13: point classes. *)
Theorem C13_point : forall h c, class_table h -> issubclass h c cPoint = true ->
  exists h' c', clone_class c h = Ok c' h' /\ clone_of h h' c c' /\ classes_kept h h' /\ issubclass h' c' cPoint = true.
Proof. exact c13_point. Qed.
Print Assumptions C13_point.
Example C13_point_case : issubclass boot_heap cPoint cPoint = true.
Proof. reflexivity. Qed.

(** C14: the whole chain, from any member, after what the list held before. *)
Theorem C14_chain : forall h t cs b out c, class_table h -> class_chain h t cs b -> In c cs -> (forall x, In x cs -> ~ In x out) ->
  get_class_hierarchy c out h = Ok (out ++ cs)%list h.
Proof. exact c14_chain. Qed.
Print Assumptions C14_chain.
Example C14_chain_case : get_class_hierarchy cPhone [] boot_heap = Ok [cWord; cPhone] boot_heap.
Proof. vm_compute. reflexivity. Qed.
(** C14: the default argument is shared between calls. *)
Theorem C14_default_refuted : exists h t1 cs1 b1 t2 cs2 b2 c1 c2, class_table h /\ class_chain h t1 cs1 b1 /\ class_chain h t2 cs2 b2 /\
    In c1 cs1 /\ In c2 cs2 /\
    exists out1 out2, get_class_hierarchy c1 [] h = Ok out1 h /\ get_class_hierarchy c2 out1 h = Ok out2 h /\ out2 <> cs2.
Proof. exact c14_default_refuted. Qed.
Print Assumptions C14_default_refuted.

(** C42: taking a class out of a chain. *)
Theorem C42_pop : forall h t cs1 c cs2 b, class_table h -> class_chain h t (cs1 ++ c :: cs2) b ->
  unrelated h (t :: (cs1 ++ c :: cs2) ++ [b]) -> (cs1 ++ cs2)%list <> [] ->
  (forall x, In x (cs1 ++ c :: cs2) -> plain_name (class_name h x)) ->
  str_in "Bottom" (class_name h t) = false -> str_in "Top" (class_name h b) = false ->
  exists u d h', superset_class h c = Some u /\ subset_class h c = Some d /\
    join_classes u d h = Ok tt h' /\ class_chain h' t (cs1 ++ cs2) b /\
    (forall k, k <> u -> k <> d -> cob h' k = cob h k) /\
    List.length (h_cls h') = List.length (h_cls h) /\
    h_seq h' = h_seq h /\ h_tier h' = h_tier h /\ h_grp h' = h_grp h /\ h_grid h' = h_grid h.
Proof. exact c42_pop. Qed.
Print Assumptions C42_pop.
Example C42_pop_case : class_table boot_heap /\ class_chain boot_heap cTopwp ([cWord] ++ cPhone :: []) cBottomwp /\
  unrelated boot_heap (cTopwp :: [cWord; cPhone] ++ [cBottomwp]) /\
  (forall x, In x [cWord; cPhone] -> plain_name (class_name boot_heap x)) /\
  subset_class (heap_of (join_classes cWord cBottomwp boot_heap)) cWord = Some cBottomwp.
Proof.
  split; [exact boot_table|]. split; [exact boot_chain|]. split; [exact boot_unrelated|].
  split; [exact boot_names|]. vm_compute. reflexivity.
Qed.
(** C42: putting a class into a chain. *)
Theorem C42_insert : forall h t cs1 cs2 b new, class_table h -> class_chain h t (cs1 ++ cs2) b ->
  unrelated h (new :: t :: (cs1 ++ cs2) ++ [b]) -> ~ In new (t :: (cs1 ++ cs2) ++ [b]) ->
  issubclass h new cInterval = true -> plain_name (class_name h new) ->
  (forall x, In x (cs1 ++ cs2) -> plain_name (class_name h x)) ->
  str_in "Bottom" (class_name h t) = false -> str_in "Top" (class_name h b) = false ->
  exists h', splice_class new (Some (List.last cs1 t)) (Some (hd b cs2)) h = Ok tt h' /\
    class_chain h' t (cs1 ++ new :: cs2) b /\
    (forall k, k <> List.last cs1 t -> k <> hd b cs2 -> k <> new -> cob h' k = cob h k) /\
    (forall k, c_name (cob h' k) = c_name (cob h k) /\ c_base (cob h' k) = c_base (cob h k)) /\
    List.length (h_cls h') = List.length (h_cls h) /\
    h_seq h' = h_seq h /\ h_tier h' = h_tier h /\ h_grp h' = h_grp h /\ h_grid h' = h_grid h.
Proof. exact c42_insert. Qed.
Print Assumptions C42_insert.
Example C42_insert_case :
  let h := heap_of (custom_classes ["Syl"] RNone [] boot_heap) in
  class_name h 11 = "Syl" /\ unrelated h (11%nat :: cTopwp :: [cWord; cPhone] ++ [cBottomwp]) /\
  let h' := heap_of (splice_class 11 (Some cWord) (Some cPhone) h) in
  subset_class h' cWord = Some 11%nat /\ superset_class h' cPhone = Some 11%nat.
Proof.
  cbv zeta. split; [vm_compute; reflexivity|]. split; [|vm_compute; split; reflexivity].
  intros c d Hc Hd. simpl in Hc, Hd.
  destruct Hc as [<-|[<-|[<-|[<-|[<-|[]]]]]]; destruct Hd as [<-|[<-|[<-|[<-|[<-|[]]]]]]; vm_compute; congruence.
Qed.
