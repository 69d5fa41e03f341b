(** * Property C81: slices.
    Theorems only; proofs in SliceFinal.v. *)
From Verif Require Import SliceSpec SliceFinal DemoSlice.
Open Scope Z_scope.

(** C81: a slice of a tier or of an interval is what is between its two places; a slice of a
    group or of a grid is refused. *)
Theorem C81_slice : forall h a b,
  (forall t, exists p m q, tier_slice t a b h = Ok m h /\ cut_out (t_seq (tob h t)) a b p m q) /\
  (forall x, exists p m q, seq_slice x a b h = Ok m h /\ cut_out (s_subset (sob h x)) a b p m q) /\
  (forall g, grp_slice g a b h = Raise TypeError h) /\ (forall g, grid_slice g a b h = Raise TypeError h).
Proof. exact c81_slice. Qed.
Print Assumptions C81_slice.
Example C81_slice_case :
  seq_slice 9 (Some 1) (Some (-1)) ex_tree = Ok [6]%nat ex_tree /\ seq_slice 9 (Some (-2)) None ex_tree = Ok [6; 0]%nat ex_tree /\
  seq_slice 9 (Some (-7)) (Some 2) ex_tree = Ok [3; 6]%nat ex_tree /\ seq_slice 9 (Some 2) (Some 1) ex_tree = Ok [] ex_tree /\
  tier_slice 0 (Some 1) (Some 9) ex_grid = Ok [3]%nat ex_grid.
Proof. split; [|split; [|split; [|split]]]; vm_compute; reflexivity. Qed.
(** C81: a tier is what is before a place, then what is after it. *)
Theorem C81_split : forall h t z, exists m1 m2, tier_slice t None (Some z) h = Ok m1 h /\ tier_slice t (Some z) None h = Ok m2 h /\ (m1 ++ m2)%list = t_seq (tob h t) /\
  (sorted_starts h (t_seq (tob h t)) ->
   forall x y, In x m1 -> In y m2 -> exists s s', s_start (sob h x) = Some s /\ s_start (sob h y) = Some s' /\ s <= s').
Proof. exact c81_split. Qed.
Print Assumptions C81_split.
Example C81_split_case : sorted_starts ex_grid (t_seq (tob ex_grid 0)) /\
  tier_slice 0 None (Some (-1)) ex_grid = Ok [0]%nat ex_grid /\ tier_slice 0 (Some (-1)) None ex_grid = Ok [3]%nat ex_grid.
Proof. split; [exact ex_words_sorted|]. split; vm_compute; reflexivity. Qed.
(** C81: popping what a slice has leaves what is before and after it, chained. *)
Theorem C81_pop `{Env} : forall K only h x a b, reach K only h ->
  exists p m q h', cut_out (s_subset (sob h x)) a b p m q /\ (l <- seq_slice x a b ;; forM l (seq_pop x)) h = Ok tt h' /\
    s_subset (sob h' x) = (p ++ q)%list /\ chained h' (p ++ q) /\ (forall y, In y m -> s_super (sob h' y) = None) /\
    (forall y, ~ In y m -> s_super (sob h' y) = s_super (sob h y)) /\ (forall z, z <> x -> s_subset (sob h' z) = s_subset (sob h z)) /\
    same_values h h'.
Proof. exact c81_pop. Qed.
Print Assumptions C81_pop.
Example C81_pop_case : let E : Env := demo_env in
  reach word_phone timed ex_tree /\ s_subset (sob ex_tree 9) = [3; 6; 0]%nat /\
  exists h', (l <- seq_slice 9 None (Some (-1)) ;; forM l (seq_pop 9)) ex_tree = Ok tt h' /\ s_subset (sob h' 9) = [0]%nat /\ s_super (sob h' 6) = None.
Proof. cbv zeta. split; [exact ex_tree_reach|]. split; [vm_compute; reflexivity|]. eexists. split; [vm_compute; reflexivity|]. split; vm_compute; reflexivity. Qed.
(** C81: popping what the whole slice has leaves nothing. *)
Theorem C81_empty `{Env} : forall K only h x, reach K only h ->
  exists h', (l <- seq_slice x None None ;; forM l (seq_pop x)) h = Ok tt h' /\ s_subset (sob h' x) = [] /\
    (forall y, In y (s_subset (sob h x)) -> s_super (sob h' y) = None) /\ same_values h h'.
Proof. exact c81_empty. Qed.
Print Assumptions C81_empty.
Example C81_empty_case : let E : Env := demo_env in
  reach word_phone timed ex_tree /\
  exists h', (l <- seq_slice 9 None None ;; forM l (seq_pop 9)) ex_tree = Ok tt h' /\ s_subset (sob h' 9) = [].
Proof. cbv zeta. split; [exact ex_tree_reach|]. eexists. split; vm_compute; reflexivity. Qed.
