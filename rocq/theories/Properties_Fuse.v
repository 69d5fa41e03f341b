(** * Property C31: fusion of neighbouring intervals.
    Theorems only; proofs in FuseFinal.v and DemoFuse.v. *)
From Verif Require Import FuseFinal DemoFuse.
Open Scope Z_scope.

(** C31: fusing a child that is in a tier with its neighbour. *)
Theorem C31_fused `{Env} : forall right jn K h p x y t, household K h -> fusible_in right jn h p x y -> tiered h x y t ->
  t_super (tob h t) <> Some cTop ->
  exists h', fuse right jn x h = Ok tt h' /\ absorbed right jn x y h h' /\ tier_loses t y h h' /\ household K h'.
Proof. exact c31_fused. Qed.
Print Assumptions C31_fused.
Example C31_fused_case : let E : Env := demo_env in
  household (fun c => In c grid_classes) ex_grid /\ fusible_in true join_sp ex_grid 0 10 13 /\ tiered ex_grid 10 13 1 /\
  t_super (tob ex_grid 1) <> Some cTop /\
  exists h', fuse_rightwards join_sp 10 ex_grid = Ok tt h' /\ s_label (sob h' 10) = "a b"%string /\
    t_seq (tob h' 1) = [10; 16; 19]%nat /\ s_subset (sob h' 0) = [10]%nat.
Proof.
  cbv zeta. split; [exact grid_household|]. destruct grid_fusible as (A & B & C).
  split; [exact A|]. split; [exact B|]. split; [exact C|]. eexists. split; [vm_compute; reflexivity|]. vm_compute. auto.
Qed.
(** C31: fusing an interval without parent with its neighbour in the tier. *)
Theorem C31_top `{Env} : forall right jn K h t x y, household K h -> fusible_top right jn h t x y ->
  exists h', fuse right jn x h = Ok tt h' /\ absorbed right jn x y h h' /\ tier_loses t y h h' /\ household K h' /\
    (exists l1 l2, t_seq (tob h t) = (l1 ++ beside right [x] [y] ++ l2)%list /\ t_seq (tob h' t) = (l1 ++ x :: l2)%list) /\
    (t_super (tob h t) = Some cTop -> chained h' (t_seq (tob h' t))).
Proof. exact c31_top. Qed.
Print Assumptions C31_top.
Example C31_top_case : let E : Env := demo_env in
  household (fun c => In c [cInterval]) ex_solo /\ fusible_top true join_sp ex_solo 0 0 3 /\ t_super (tob ex_solo 0) = Some cTop /\
  exists h', fuse_rightwards join_sp 0 ex_solo = Ok tt h' /\ s_label (sob h' 0) = "ab cd"%string /\
    t_seq (tob h' 0) = [0; 6]%nat /\ s_prev (sob h' 6) = Some 0%nat.
Proof.
  cbv zeta. split; [exact solo_household|]. split; [exact solo_fusible|]. split; [reflexivity|].
  eexists. split; [vm_compute; reflexivity|]. vm_compute. auto.
Qed.
(** The links of the tier are repaired only below Top itself. *)
Theorem C31_top_refuted : let E : Env := demo_env in
  exists K h t x y z h', household K h /\ fusible_top true join_sp h t x y /\
    (exists s, t_super (tob h t) = Some s /\ issubclass h s cTop = true) /\
    fuse_rightwards join_sp x h = Ok tt h' /\ t_seq (tob h' t) = [x; z] /\ s_fol (sob h' x) = Some z /\
    s_prev (sob h' z) = Some y /\ y <> x.
Proof. exact c31_top_refuted. Qed.
Print Assumptions C31_top_refuted.
(** C31: fusing a child that is in no tier. *)
Theorem C31_loose `{Env} : forall right jn K h p x y, household K h -> fusible_in right jn h p x y -> s_intier (sob h x) = None ->
  exists h', fuse right jn x h = Ok tt h' /\ absorbed right jn x y h h' /\ h_tier h' = h_tier h /\
    forall q, q <> p -> chained h' (s_subset (sob h' q)).
Proof. exact c31_loose. Qed.
Print Assumptions C31_loose.
Example C31_loose_case : let E : Env := demo_env in
  household word_phone ex_tree /\ fusible_in true join_sp ex_tree 9 3 6 /\ s_intier (sob ex_tree 3) = None /\
  exists h', fuse_rightwards join_sp 3 ex_tree = Ok tt h' /\ s_label (sob h' 3) = "A C"%string /\ s_subset (sob h' 9) = [3; 0]%nat.
Proof.
  cbv zeta. split; [eapply c31_reached; exact ex_tree_reach|]. split; [exact tree_fusible|]. split; [reflexivity|].
  eexists. split; [vm_compute; reflexivity|]. vm_compute. auto.
Qed.
(** There the links of the siblings are not repaired. *)
Theorem C31_loose_refuted : let E : Env := demo_env in
  exists K h p x y z h', household K h /\ fusible_in true join_sp h p x y /\ s_intier (sob h x) = None /\
    fuse_rightwards join_sp x h = Ok tt h' /\ s_subset (sob h' p) = [x; z] /\ s_fol (sob h' x) = Some z /\
    s_prev (sob h' z) = Some y /\ y <> x.
Proof. exact c31_loose_refuted. Qed.
Print Assumptions C31_loose_refuted.
(** C31: at a boundary nothing changes. *)
Theorem C31_boundary `{Env} : forall right jn h x k, neighbour right h x = Some k -> s_label (sob h k) = "#"%string ->
  fuse right jn x h = Raise PyException h.
Proof. exact c31_boundary. Qed.
Print Assumptions C31_boundary.
Example C31_boundary_case : let E : Env := demo_env in
  exists k, neighbour true ex_grid 13 = Some k /\ s_label (sob ex_grid k) = "#"%string.
Proof. eexists. split; vm_compute; reflexivity. Qed.
Theorem C31_alone `{Env} : forall right jn h x, neighbour right h x = None -> fuse right jn x h = Raise AttributeError h.
Proof. exact c31_alone. Qed.
Print Assumptions C31_alone.
Example C31_alone_case : let E : Env := demo_env in
  neighbour true (run (mod_seq 13 (set_s_fol None)) ex_grid) 13 = None.
Proof. vm_compute. reflexivity. Qed.
(** C31: the families that any history of C15 leads to are in order. *)
Theorem C31_reached `{Env} : forall K only h, reach K only h -> household K h.
Proof. exact c31_reached. Qed.
Print Assumptions C31_reached.
Example C31_reached_case : let E : Env := demo_env in reach word_phone timed ex_tree.
Proof. exact ex_tree_reach. Qed.
