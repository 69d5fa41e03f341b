(** * Property C73: tiers as attributes of a group.
    Theorems only; proofs in TagFinal.v and TagAllFinal.v. *)
From Verif Require Import TagSpec TagFinal TagAllFinal DemoTag.
Open Scope Z_scope.

(** C73: a new group. *)
Theorem C73_group `{Env} : forall n tiers d g d', new_tg_named n tiers d = DOk g d' -> new_tg n tiers (d_heap d) = Ok g (d_heap d') /\ tiers_named d d' g.
Proof. exact c73_group. Qed.
Print Assumptions C73_group.
Example C73_group_case : let E : Env := demo_env in
  exists d', new_tg_named 5 [1; 0]%nat ex_tag1 = DOk 2%nat d' /\ classes_differ (d_heap d') 2 /\ by_name d' 2 "Word" = Some 0%nat /\ by_name d' 2 "Phone" = Some 1%nat /\ by_name d' 2 "Syl" = None.
Proof. cbv zeta. eexists. split; [vm_compute; reflexivity|]. split; [apply (bool_decide_unpack _); vm_compute; exact I|]. vm_compute. auto. Qed.
(** C73: a new group of tiers of points. *)
Theorem C73_points `{Env} : forall tiers d g d', new_pg_named tiers d = DOk g d' -> new_pg tiers (d_heap d) = Ok g (d_heap d') /\ tiers_named d d' g.
Proof. exact c73_points. Qed.
Print Assumptions C73_points.
Example C73_points_case : let E : Env := demo_env in
  exists d', new_pg_named [3]%nat ex_tag1 = DOk 2%nat d' /\ classes_differ (d_heap d') 2 /\ by_name d' 2 "SequencePoint" = Some 3%nat.
Proof. cbv zeta. eexists. split; [vm_compute; reflexivity|]. split; [apply (bool_decide_unpack _); vm_compute; exact I|]. vm_compute. auto. Qed.
(** C73: relating the tiers of a group again. *)
Theorem C73_relate `{Env} : forall n g d d', re_relate_named n g d = DOk tt d' -> re_relate n g (d_heap d) = Ok tt (d_heap d') /\ tiers_named d d' g.
Proof. exact c73_relate. Qed.
Print Assumptions C73_relate.
Example C73_relate_case : let E : Env := demo_env in
  exists d', re_relate_named 5 0 (Desk (d_heap ex_tag1) (fun _ => [])) = DOk tt d' /\ by_name d' 0 "Word" = Some 0%nat /\ by_name d' 0 "Phone" = Some 1%nat.
Proof. cbv zeta. eexists. split; [vm_compute; reflexivity|]. vm_compute. auto. Qed.
(** C73: a tier appended to a group. *)
Theorem C73_add `{Env} : forall n g t d d', grp_append_named n g t d = DOk tt d' -> grp_append n g t (d_heap d) = Ok tt (d_heap d') /\ tiers_named d d' g.
Proof. exact c73_add. Qed.
Print Assumptions C73_add.
Example C73_add_case : let E : Env := demo_env in
  exists d1 d', new_tg_named 5 [0]%nat ex_tag1 = DOk 2%nat d1 /\ by_name d1 2 "Phone" = None /\ grp_append_named 5 2 1 d1 = DOk tt d' /\
    by_name d' 2 "Word" = Some 0%nat /\ by_name d' 2 "Phone" = Some 1%nat.
Proof. cbv zeta. do 2 eexists. split; [vm_compute; reflexivity|]. split; [vm_compute; reflexivity|]. split; [vm_compute; reflexivity|]. vm_compute. auto. Qed.
(** C73: an interval appended to a tier of a group. *)
Theorem C73_append `{Env} : forall n t x d d', tier_append_named n t x d = DOk tt d' -> tier_append n t x (d_heap d) = Ok tt (d_heap d') /\
  (d_attr d' = d_attr d \/ exists g, t_within (tob (d_heap d) t) = Some (WGroup g) /\ tiers_named d d' g).
Proof. exact c73_append. Qed.
Print Assumptions C73_append.
Example C73_append_case : let E : Env := demo_env in
  exists d1 d' x, plainly (new_obj (t_ec (tob (d_heap ex_tag1) 0)) (Some 90) (Some 95) "so") ex_tag1 = DOk x d1 /\ tier_append_named 5 0 x d1 = DOk tt d' /\
    t_within (tob (d_heap d1) 0) = Some (WGroup 0) /\ by_name d' 0 "Word" = Some 0%nat /\ by_name d' 0 "Phone" = Some 1%nat.
Proof. cbv zeta. do 3 eexists. split; [vm_compute; reflexivity|]. split; [vm_compute; reflexivity|]. vm_compute. auto. Qed.
(** C73: a group appended to a grid. *)
Theorem C73_grid `{Env} : forall n a g d d', grid_append_tagged n a g d = DOk tt d' -> grid_append n a g (d_heap d) = Ok tt (d_heap d') /\ tiers_named d d' g.
Proof. exact c73_grid. Qed.
Print Assumptions C73_grid.
Example C73_grid_case : let E : Env := demo_env in
  exists d1 d', plainly (alloc_grid blank_grid) (Desk ex_add (fun _ => [])) = DOk 0%nat d1 /\ grid_append_tagged 50 0 0 d1 = DOk tt d' /\ classes_differ (d_heap d') 0 /\
    map (fun t => by_name d' 0 (class_name (d_heap d') (t_ec (tob (d_heap d') t)))) (g_tiers (gob (d_heap d') 0)) = map Some (g_tiers (gob (d_heap d') 0)) /\ List.length (g_tiers (gob (d_heap d') 0)) = 3%nat.
Proof. cbv zeta. do 2 eexists. split; [vm_compute; reflexivity|]. split; [vm_compute; reflexivity|]. split; [apply (bool_decide_unpack _); vm_compute; exact I|]. vm_compute. auto. Qed.
(** C73: cleaning up a grid. *)
Theorem C73_cleanup `{Env} : forall n a d d', grid_cleanup_named n a d = DOk tt d' ->
  grid_cleanup n a (d_heap d) = Ok tt (d_heap d') /\ forall g, well_tagged d g -> well_tagged d' g.
Proof. exact c73_cleanup. Qed.
Print Assumptions C73_cleanup.
Example C73_cleanup_case : let E : Env := demo_env in
  well_tagged ex_tag1 0 /\ exists d', grid_cleanup_named 50 0 ex_tag1 = DOk tt d'.
Proof. cbv zeta. split; [exact tag1_words|]. eexists. vm_compute. reflexivity. Qed.
(** C73: cleaning up a group. *)
Theorem C73_tidy `{Env} : forall n g d d', grp_cleanup_named n g d = DOk tt d' ->
  grp_cleanup n g (d_heap d) = Ok tt (d_heap d') /\ forall k, well_tagged d k -> well_tagged d' k.
Proof. exact c73_tidy. Qed.
Print Assumptions C73_tidy.
Example C73_tidy_case : let E : Env := demo_env in
  well_tagged ex_tag1 0 /\ exists d', grp_cleanup_named 50 0 ex_tag1 = DOk tt d'.
Proof. cbv zeta. split; [exact tag1_words|]. eexists. vm_compute. reflexivity. Qed.
(** C73: reading a text grid. *)
Theorem C73_read `{Env} : forall n tg ecs d a d', read_named n tg ecs d = DOk a d' ->
  new_grid_textgrid n tg ecs (d_heap d) = Ok a (d_heap d') /\ forall g, In g (a_groups (aob (d_heap d') a)) -> well_tagged d' g.
Proof. exact c73_read. Qed.
Print Assumptions C73_read.
Example C73_read_case : let E : Env := demo_env in
  read_named 50 [ex_words; ex_segs; ex_marks; ex_tones] (Nested [[cWord; cPhone]; [cPoint; cPoint]]) ex_tag0 = DOk 0%nat ex_tag1 /\
  a_groups (aob (d_heap ex_tag1) 0) = [0; 1]%nat /\ classes_differ (d_heap ex_tag1) 0 /\ by_name ex_tag1 0 "Word" = Some 0%nat /\ by_name ex_tag1 0 "Phone" = Some 1%nat.
Proof. cbv zeta. split; [exact tag1_ok|]. split; [reflexivity|]. split; [apply (bool_decide_unpack _); vm_compute; exact I|]. vm_compute. auto. Qed.
(** C73: putting a class in. *)
Theorem C73_weave `{Env} : forall n a nm above nm2 from_below labels d d',
  List.NoDup (a_groups (aob (d_heap d) a)) -> (forall g, In g (a_groups (aob (d_heap d) a)) -> glive (d_heap d) g /\ well_tagged d g) ->
  (forall g t, In t (g_tiers (gob (d_heap d) g)) -> clive (d_heap d) (t_ec (tob (d_heap d) t))) ->
  interleave_class_tagged n a nm above nm2 from_below labels d = DOk tt d' ->
  interleave_class n a nm above nm2 from_below labels (d_heap d) = Ok tt (d_heap d') /\
  (forall g, In g (a_groups (aob (d_heap d') a)) -> well_tagged d' g) /\
  forall g, ~ In g (a_groups (aob (d_heap d) a)) -> well_tagged d g -> well_tagged d' g.
Proof. exact c73_weave. Qed.
Print Assumptions C73_weave.
Example C73_weave_case : let E : Env := demo_env in
  List.NoDup (a_groups (aob (d_heap ex_tag1) 0)) /\ (forall g, In g (a_groups (aob (d_heap ex_tag1) 0)) -> glive (d_heap ex_tag1) g /\ well_tagged ex_tag1 g) /\
  (forall g t, In t (g_tiers (gob (d_heap ex_tag1) g)) -> clive (d_heap ex_tag1) (t_ec (tob (d_heap ex_tag1) t))) /\
  interleave_class_tagged 5 0 "Syl" true "Phone" true true ex_tag1 = DOk tt ex_tag2 /\ a_groups (aob (d_heap ex_tag2) 0) = [2; 1]%nat /\
  by_name ex_tag2 2 "Word" = Some 0%nat /\ by_name ex_tag2 2 "Syl" = Some 4%nat /\ by_name ex_tag2 2 "Phone" = Some 1%nat.
Proof.
  cbv zeta. split. { apply NoDup_ListNoDup. apply (bool_decide_unpack _). vm_compute. exact I. }
  split. { intros g [<-|[<-|[]]]; (split; [unfold glive; vm_compute; lia|]); [exact tag1_words|exact tag1_marks]. }
  split; [exact tag1_classes|]. split; [exact tag2_ok|]. vm_compute. auto.
Qed.
(** C73: taking a class out. *)
Theorem C73_pop `{Env} : forall n a nm d d', (forall g, In g (a_groups (aob (d_heap d) a)) -> well_tagged d g) -> pop_class_tagged n a nm d = DOk tt d' ->
  pop_class n a nm (d_heap d) = Ok tt (d_heap d') /\
  (forall g, In g (a_groups (aob (d_heap d') a)) -> well_tagged d' g) /\ forall g, well_tagged d g -> well_tagged d' g.
Proof. exact c73_pop. Qed.
Print Assumptions C73_pop.
Example C73_pop_case : let E : Env := demo_env in
  (forall g, In g (a_groups (aob (d_heap ex_tag2) 0)) -> well_tagged ex_tag2 g) /\
  exists d', pop_class_tagged 5 0 "Word" ex_tag2 = DOk tt d' /\ a_groups (aob (d_heap d') 0) = [3; 1]%nat /\
    by_name d' 3 "Syl" = Some 4%nat /\ by_name d' 3 "Phone" = Some 1%nat /\ by_name d' 3 "Word" = None /\ by_name d' 2 "Word" = Some 0%nat.
Proof.
  cbv zeta. split. { intros g [<-|[<-|[]]]; [tagged|untagged]. }
  eexists. split; [vm_compute; reflexivity|]. vm_compute. auto 8.
Qed.
(** C73: two tiers of classes of the same name have no accessors. *)
Theorem C73_repeated_refuted : exists (n : nat) tg ecs d a d' g t, @read_named demo_env n tg ecs d = DOk a d' /\ In g (a_groups (aob (d_heap d') a)) /\
  In t (g_tiers (gob (d_heap d') g)) /\ by_name d' g (class_name (d_heap d') (t_ec (tob (d_heap d') t))) = None.
Proof. exact c73_repeated_refuted. Qed.
Print Assumptions C73_repeated_refuted.
(** C73: a group that [interleave_class] has replaced misses one. *)
Theorem C73_replaced_refuted : exists (n : nat) a nm (above : bool) nm2 (from_below labels : bool) d d' g t, In g (a_groups (aob (d_heap d) a)) /\ well_tagged d g /\
  @interleave_class_tagged demo_env n a nm above nm2 from_below labels d = DOk tt d' /\ classes_differ (d_heap d') g /\
  In t (g_tiers (gob (d_heap d') g)) /\ by_name d' g (class_name (d_heap d') (t_ec (tob (d_heap d') t))) = None.
Proof. exact c73_replaced_refuted. Qed.
Print Assumptions C73_replaced_refuted.
