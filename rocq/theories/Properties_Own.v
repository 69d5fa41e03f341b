(** * Property C38: a grid uses its own copies of the classes.
    Theorems only; proofs in OwnFinal.v. *)
From Verif Require Import OwnFinal DemoOwn.
Open Scope Z_scope.

(** C38: building and extending grids changes no existing class, whatever the
    state and whether or not the call succeeds. *)
Theorem C38_untouched `{Env} : forall n h a g t gs tg ecs,
  classes_untouched h (heap_of (grid_append n a g h)) /\
  classes_untouched h (heap_of (grp_append n g t h)) /\
  classes_untouched h (heap_of (new_grid_groups n gs h)) /\
  classes_untouched h (heap_of (new_grid_textgrid n tg ecs h)).
Proof. exact c38_untouched. Qed.
Print Assumptions C38_untouched.
Example C38_untouched_case : let E : Env := demo_env in
  new_grid_textgrid 50 [ex_words; ex_segs] (Nested [[cWord; cPhone]]) ex_more = Ok 1%nat ex_pair /\
  (List.length (h_cls ex_more) < List.length (h_cls ex_pair))%nat.
Proof. cbv zeta. split; [exact pair_ok|vm_compute; lia]. Qed.
(** C38: the classes of a grid that was read are new. *)
Theorem C38_read `{Env} : forall n tg ecs h a h', class_table h -> (forall c, In c (given ecs) -> grid_class h c) ->
  new_grid_textgrid n tg ecs h = Ok a h' ->
  class_table h' /\ grid_owns h' a /\
  (forall c, In c (a_cloned (aob h' a)) -> newly_made h h' c) /\
  (forall b, alive h b -> b <> a /\ aob h' b = aob h b) /\
  (forall t, tlive h t -> t_ec (tob h' t) = t_ec (tob h t)).
Proof. exact c38_read. Qed.
Print Assumptions C38_read.
Example C38_read_case : let E : Env := demo_env in
  class_table ex_more /\ (forall c, In c (given (Nested [[cWord; cPhone]])) -> grid_class ex_more c) /\
  new_grid_textgrid 50 [ex_words; ex_segs] (Nested [[cWord; cPhone]]) ex_more = Ok 1%nat ex_pair /\
  a_cloned (aob ex_pair 1) <> [] /\ in_grid ex_pair 1 6.
Proof.
  cbv zeta. split; [exact more_table|]. split; [exact pair_given|]. split; [exact pair_ok|]. split; [vm_compute; discriminate|].
  exists 3%nat. vm_compute. auto.
Qed.
(** C38: a grid read beside another one shares no class with it. *)
Theorem C38_apart_read `{Env} : forall n tg ecs h a h' b, class_table h -> (forall c, In c (given ecs) -> grid_class h c) ->
  new_grid_textgrid n tg ecs h = Ok a h' -> whole_grid h b -> grid_owns h b ->
  grid_owns h' b /\ grids_apart h' a b.
Proof. exact c38_apart_read. Qed.
Print Assumptions C38_apart_read.
Example C38_apart_read_case : let E : Env := demo_env in
  class_table ex_more /\ (forall c, In c (given (Nested [[cWord; cPhone]])) -> grid_class ex_more c) /\
  new_grid_textgrid 50 [ex_words; ex_segs] (Nested [[cWord; cPhone]]) ex_more = Ok 1%nat ex_pair /\
  whole_grid ex_more 0 /\ grid_owns ex_more 0 /\ a_cloned (aob ex_more 0) <> [].
Proof.
  cbv zeta. split; [exact more_table|]. split; [exact pair_given|]. split; [exact pair_ok|].
  split; [exact more_whole|]. split; [exact more_own|]. vm_compute. discriminate.
Qed.
(** C38: appending a group. *)
Theorem C38_append `{Env} : forall n h a g h', class_table h -> whole_grid h a -> grid_owns h a ->
  (forall t, In t (g_tiers (gob h g)) -> tlive h t /\ grid_class h (t_ec (tob h t))) ->
  grid_append n a g h = Ok tt h' ->
  class_table h' /\ grid_owns h' a /\ a_groups (aob h' a) = (a_groups (aob h a) ++ [g])%list /\
  (forall c, In c (a_cloned (aob h' a)) -> In c (a_cloned (aob h a)) \/ newly_made h h' c) /\
  (forall b, b <> a -> aob h' b = aob h b) /\
  (forall t, tlive h t -> ~ In t (g_tiers (gob h g)) -> t_ec (tob h' t) = t_ec (tob h t)).
Proof. exact c38_append. Qed.
Print Assumptions C38_append.
Example C38_append_case : let E : Env := demo_env in
  class_table ex_pair /\ whole_grid ex_pair 1 /\ grid_owns ex_pair 1 /\
  (forall t, In t (g_tiers (gob ex_pair 2)) -> tlive ex_pair t /\ grid_class ex_pair (t_ec (tob ex_pair t))) /\
  map (fun t => t_ec (tob ex_pair t)) (g_tiers (gob ex_pair 2)) = [cWord; cPhone] /\
  exists h', grid_append 50 1 2 ex_pair = Ok tt h' /\
    map (fun t => t_ec (tob h' t)) (g_tiers (gob h' 2)) = map (fun t => t_ec (tob ex_pair t)) (g_tiers (gob ex_pair 3)).
Proof.
  cbv zeta. split; [exact pair_table|]. split; [apply pair_whole; lia|]. split; [exact pair_own|].
  split; [intros t I; destruct (pair_group t I) as (A & B & _); auto|]. split; [vm_compute; reflexivity|].
  eexists. split; [vm_compute; reflexivity|vm_compute; reflexivity].
Qed.
(** C38: appending a group leaves the other grids alone. *)
Theorem C38_apart_append `{Env} : forall n h a g h' b, class_table h -> whole_grid h a -> grid_owns h a ->
  (forall t, In t (g_tiers (gob h g)) -> tlive h t /\ grid_class h (t_ec (tob h t))) ->
  grid_append n a g h = Ok tt h' ->
  b <> a -> whole_grid h b -> grid_owns h b -> (forall t, In t (g_tiers (gob h g)) -> ~ in_grid h b t) ->
  grids_apart h a b -> grid_owns h' b /\ grids_apart h' a b.
Proof. exact c38_apart_append. Qed.
Print Assumptions C38_apart_append.
Example C38_apart_append_case : let E : Env := demo_env in
  class_table ex_pair /\ whole_grid ex_pair 1 /\ grid_owns ex_pair 1 /\
  (forall t, In t (g_tiers (gob ex_pair 2)) -> tlive ex_pair t /\ grid_class ex_pair (t_ec (tob ex_pair t))) /\
  (exists h', grid_append 50 1 2 ex_pair = Ok tt h') /\
  0%nat <> 1%nat /\ whole_grid ex_pair 0 /\ grid_owns ex_pair 0 /\
  (forall t, In t (g_tiers (gob ex_pair 2)) -> ~ in_grid ex_pair 0 t) /\ grids_apart ex_pair 1 0.
Proof.
  cbv zeta. split; [exact pair_table|]. split; [apply pair_whole; lia|]. split; [exact pair_own|].
  split; [intros t I; destruct (pair_group t I) as (A & B & _); auto|]. split; [eexists; vm_compute; reflexivity|].
  split; [discriminate|]. split; [apply pair_whole; lia|]. split; [exact (proj1 pair_apart)|].
  split; [intros t I; apply (pair_group t I)|exact (proj2 pair_apart)].
Qed.
(** C38: appending a tier to a group of a grid. *)
Theorem C38_tier `{Env} : forall n h a g t h', class_table h -> whole_grid h a -> grid_owns h a ->
  In g (a_groups (aob h a)) -> g_within (gob h g) = Some (WGrid a) ->
  tlive h t -> grid_class h (t_ec (tob h t)) ->
  grp_append n g t h = Ok tt h' ->
  class_table h' /\ grid_owns h' a /\
  (forall c, In c (a_cloned (aob h' a)) -> In c (a_cloned (aob h a)) \/ newly_made h h' c) /\
  (forall b, b <> a -> aob h' b = aob h b) /\
  (forall u, tlive h u -> u <> t -> t_ec (tob h' u) = t_ec (tob h u)).
Proof. exact c38_tier. Qed.
Print Assumptions C38_tier.
Example C38_tier_case : let E : Env := demo_env in
  class_table ex_narrow /\ whole_grid ex_narrow 0 /\ grid_owns ex_narrow 0 /\
  In 0%nat (a_groups (aob ex_narrow 0)) /\ g_within (gob ex_narrow 0) = Some (WGrid 0) /\
  tlive ex_narrow 1 /\ grid_class ex_narrow (t_ec (tob ex_narrow 1)) /\ t_ec (tob ex_narrow 1) = cPhone /\
  exists h', grp_append 50 0 1 ex_narrow = Ok tt h' /\ g_tiers (gob h' 0) = [0; 1]%nat /\ t_ec (tob h' 1) <> cPhone.
Proof.
  cbv zeta. split; [exact narrow_table|]. split; [exact narrow_whole|]. split; [exact narrow_own|].
  split; [vm_compute; auto|]. split; [vm_compute; reflexivity|]. split; [vm_compute; lia|]. split; [exact narrow_class|].
  split; [vm_compute; reflexivity|]. eexists. split; [vm_compute; reflexivity|]. split; [vm_compute; reflexivity|vm_compute; discriminate].
Qed.
