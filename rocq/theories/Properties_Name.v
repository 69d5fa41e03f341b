(** * Property C59: groups as attributes of a grid.
    Theorems only; proofs in NameFinal.v. *)
From Verif Require Import NameSpec NameFinal DemoName.
Open Scope Z_scope.

(** C59: after a group has been appended, every group of the grid is reached by its name. *)
Theorem C59_append `{Env} : forall n a g d d', grid_append_named n a g d = DOk tt d' ->
  (names_differ (d_heap d') a -> reached_by_name d' a /\ other_names_kept d d' a) /\
  (~ names_differ (d_heap d') a -> d_attr d' = d_attr d).
Proof. exact c59_append. Qed.
Print Assumptions C59_append.
Example C59_append_case : let E : Env := demo_env in
  grid_append_named 50 0 1 ex_desk0 = DOk tt ex_desk1 /\ names_differ (d_heap ex_desk1) 0 /\
  a_groups (aob (d_heap ex_desk1) 0) = [0; 1]%nat /\ by_name ex_desk1 0 "group_0" = Some 0%nat /\ by_name ex_desk1 0 "group_1" = Some 1%nat /\
  by_name ex_desk0 0 "group_1" = None.
Proof.
  cbv zeta. split; [exact desk1_ok|]. split; [apply repeated_spec; vm_compute; reflexivity|]. repeat split; vm_compute; reflexivity.
Qed.
(** C59: likewise after a text grid has been read. *)
Theorem C59_read `{Env} : forall n tg ecs d a d', tg <> [] -> grid_of_textgrid_named n tg ecs d = DOk a d' ->
  (names_differ (d_heap d') a -> reached_by_name d' a /\ other_names_kept d d' a) /\
  (~ names_differ (d_heap d') a -> d_attr d' = d_attr d).
Proof. exact c59_read. Qed.
Print Assumptions C59_read.
Example C59_read_case : let E : Env := demo_env in
  exists d', grid_of_textgrid_named 50 [ex_words; ex_segs; ex_marks; ex_tones] (Nested [[cWord; cPhone]; [cPoint; cPoint]]) (Desk boot_heap (fun _ => [])) = DOk 0%nat d' /\
    names_differ (d_heap d') 0 /\ by_name d' 0 "group_0" = Some 0%nat /\ by_name d' 0 "group_1" = Some 1%nat /\ by_name d' 0 "group_2" = None.
Proof.
  cbv zeta. eexists. split; [vm_compute; reflexivity|]. split; [apply repeated_spec; vm_compute; reflexivity|]. repeat split; vm_compute; reflexivity.
Qed.
(** C59: after the removal of a class the name of a group leads to the group as it was before, which is no longer in the grid. *)
Theorem C59_pop `{Env} : forall n d a t cs1 c cs2 b nm gs g s, let h := d_heap d in class_table h -> class_chain h t (cs1 ++ c :: cs2) b ->
  unrelated h (t :: (cs1 ++ c :: cs2) ++ [b]) -> (cs1 ++ cs2)%list <> [] ->
  (forall x, In x (cs1 ++ c :: cs2) -> plain_name (class_name h x)) ->
  str_in "Bottom" (class_name h t) = false -> str_in "Top" (class_name h b) = false ->
  class_name h c = nm -> (forall x, In x (cs1 ++ cs2) -> class_name h x <> nm) ->
  (a < List.length (h_grid h))%nat -> a_groups (aob h a) = gs -> apart_groups h gs ->
  (forall g, In g gs -> (g < List.length (h_grp h))%nat /\
     (full_group h (cs1 ++ c :: cs2) g \/ forall k, In k (g_tiers (gob h g)) -> class_name h (t_ec (tob h k)) <> nm)) ->
  In g gs -> full_group h (cs1 ++ c :: cs2) g -> g_name (gob h g) = Some s -> s <> ""%string -> by_name d a s = Some g ->
  exists d', pop_class_named n a nm d = DOk tt d' /\ leads_astray d' a s g.
Proof. exact c59_pop. Qed.
Print Assumptions C59_pop.
Example C59_pop_case : let E : Env := demo_env in
  full_group (d_heap ex_named) ([11] ++ 12 :: [13])%nat%list 0 /\ g_name (gob (d_heap ex_named) 0) = Some "KY"%string /\ by_name ex_named 0 "KY" = Some 0%nat /\
  exists d', pop_class_named 5 0 "Syl" ex_named = DOk tt d' /\ by_name d' 0 "KY" = Some 0%nat /\ a_groups (aob (d_heap d') 0) = [3; 4; 2]%nat /\
    g_name (gob (d_heap d') 3) = Some "KY"%string /\ tiers_in (d_heap d') 0 = [1; 2; 0]%nat /\ tiers_in (d_heap d') 3 = [1; 0]%nat.
Proof.
  cbv zeta. split; [apply pop_full; simpl; auto|]. split; [reflexivity|]. split; [reflexivity|].
  eexists. split; [vm_compute; reflexivity|]. repeat split.
Qed.
(** C59: likewise after a class has been added. *)
Theorem C59_weave `{Env} : forall n d a t cs1 cs2 b sp cp nm nm2 (above from_below labels : bool) gs g s, let h := d_heap d in
  class_table h -> class_chain h t (cs1 ++ cs2) b -> unrelated h (t :: (cs1 ++ cs2) ++ [b]) -> ~ In cInterval (cs1 ++ cs2) ->
  (forall x, In x (cs1 ++ cs2) -> plain_name (class_name h x)) ->
  str_in "Bottom" (class_name h t) = false -> str_in "Top" (class_name h b) = false ->
  nm <> ""%string -> plain_name nm -> nm2 <> ""%string -> class_name h sp = nm2 ->
  (if above then hd_error cs2 else hd_error (rev cs1)) = Some sp ->
  (if from_below then hd_error cs2 else hd_error (rev cs1)) = Some cp ->
  (a < List.length (h_grid h))%nat -> a_groups (aob h a) = gs -> apart_groups h gs ->
  (forall g, In g gs -> (g < List.length (h_grp h))%nat /\ exist_tiers h g /\
     ((full_group h (cs1 ++ cs2) g /\ forall k, In k (g_tiers (gob h g)) -> t_ec (tob h k) = cp -> t_seq (tob h k) <> []) \/
      ~ In sp (map (fun k => t_ec (tob h k)) (g_tiers (gob h g))))) ->
  (forall g k, In g gs -> In k (g_tiers (gob h g)) ->
     (t_ec (tob h k) < List.length (h_cls h))%nat /\ (class_name h (t_ec (tob h k)) = nm2 -> t_ec (tob h k) = sp)) ->
  In g gs -> full_group h (cs1 ++ cs2) g -> g_name (gob h g) = Some s -> s <> ""%string -> by_name d a s = Some g ->
  exists d', interleave_class_named n a nm above nm2 from_below labels d = DOk tt d' /\ leads_astray d' a s g.
Proof. exact c59_weave. Qed.
Print Assumptions C59_weave.
Example C59_weave_case : let E : Env := demo_env in
  full_group (d_heap ex_named) ([11] ++ [12; 13])%nat%list 0 /\ g_name (gob (d_heap ex_named) 0) = Some "KY"%string /\ by_name ex_named 0 "KY" = Some 0%nat /\
  exists d', interleave_class_named 5 0 "Foot" true "Syl" true false ex_named = DOk tt d' /\ by_name d' 0 "KY" = Some 0%nat /\
    a_groups (aob (d_heap d') 0) = [3; 4; 2]%nat /\ g_name (gob (d_heap d') 3) = Some "KY"%string.
Proof.
  cbv zeta. split; [apply pop_full; simpl; auto|]. split; [reflexivity|]. split; [reflexivity|].
  eexists. split; [vm_compute; reflexivity|]. repeat split.
Qed.
