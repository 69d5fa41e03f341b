(** * Properties C60 and C61: tier groups and the grids they are put into.
    Theorems only; proofs in AppendTiers.v, AppendFinal.v and BuildFinal.v. *)
From Verif Require Import AppendSpec AppendFinal BuildFinal DemoAppend.
Open Scope Z_scope.

(** C60: a tier group appended to a grid comes last, in good order, with the
    classes of the grid: clones of its own or those the grid has already. *)
Theorem C60_append `{Env} : forall n h a g cs, append_ready h a g cs -> (strange h a cs \/ exists cs0, familiar h a cs cs0) ->
  exists cs' h', grid_append n a g h = Ok tt h' /\ joins h h' a g cs' /\ joins_only h h' a g /\
    (strange h a cs -> Forall2 (clone_of h h') cs cs') /\ (forall cs0, familiar h a cs cs0 -> cs' = cs0) /\
    familiar h' a cs cs' /\ Forall2 (fun c c' => class_name h' c' = class_name h c) cs cs' /\
    class_table h' /\ whole_chains h' (a_cloned (aob h' a)) /\ settled_groups h' a.
Proof. exact c60_append. Qed.
Print Assumptions C60_append.
Example C60_strange_case : let E : Env := demo_env in
  append_ready ex_shelf0 0 0 [11; 12; 13]%nat /\ strange ex_shelf0 0 [11; 12; 13]%nat /\
  grid_append 50 0 0 ex_shelf0 = Ok tt ex_shelf1 /\ g_tiers (gob ex_shelf1 0) = [1; 2; 0]%nat /\
  map (fun t => t_ec (tob ex_shelf1 t)) [1; 2; 0]%nat = [14; 16; 17]%nat /\ a_groups (aob ex_shelf1 0) = [0]%nat.
Proof.
  cbv zeta. split; [exact shelf_ready0|]. split; [intros c d _ []|]. split; [vm_compute; reflexivity|]. repeat split; vm_compute; reflexivity.
Qed.
Example C60_familiar_case : let E : Env := demo_env in
  append_ready ex_shelf1 0 1 [11; 12; 13]%nat /\ familiar ex_shelf1 0 [11; 12; 13]%nat [14; 16; 17]%nat /\
  exists h', grid_append 50 0 1 ex_shelf1 = Ok tt h' /\ a_groups (aob h' 0) = [0; 1]%nat /\
    map (fun t => t_ec (tob h' t)) [5; 4; 3]%nat = [14; 16; 17]%nat /\ s_super (sob h' 59) = Some 66%nat /\ s_subset (sob h' 59) = [49; 52]%nat.
Proof.
  cbv zeta. split; [exact shelf_ready1|]. split; [exact shelf_familiar|]. eexists. split; [vm_compute; reflexivity|]. repeat split; vm_compute; reflexivity.
Qed.
(** C60: what happens when the grid knows some of the names only. *)
Theorem C60_mixed_refuted : let E : Env := demo_env in
  exists n h a g cs h' t, append_ready h a g cs /\ grid_append n a g h = Ok tt h' /\
    In g (a_groups (aob h' a)) /\ In t (g_tiers (gob h g)) /\ ~ In t (g_tiers (gob h' g)).
Proof. exact c60_mixed_refuted. Qed.
Print Assumptions C60_mixed_refuted.
Theorem C60_missing_refuted : let E : Env := demo_env in
  exists n h a g cs h', append_ready h a g cs /\ grid_append n a g h = Raise ValueError h'.
Proof. exact c60_missing_refuted. Qed.
Print Assumptions C60_missing_refuted.
(** C60: names given to tiers are lost. *)
Theorem C60_names_refuted : let E : Env := demo_env in
  exists n h a g cs h' t, append_ready h a g cs /\ strange h a cs /\ grid_append n a g h = Ok tt h' /\
    In t (g_tiers (gob h g)) /\ t_name (tob h' t) <> t_name (tob h t).
Proof. exact c60_names_refuted. Qed.
Print Assumptions C60_names_refuted.

(** C61: a grid made of tier groups has these groups in good order, and those with the same class names share their classes. *)
Theorem C61_build `{Env} : forall n h gs css, class_table h -> gs <> [] -> apart_groups h gs ->
  Forall2 (fun g cs => full_group h cs g /\ clear_chain h cs) gs css -> names_agree h css ->
  exists css' h', let a := List.length (h_grid h) in
    new_grid_groups n gs h = Ok a h' /\ a_groups (aob h' a) = gs /\ Forall2 (joined_in h h' a) gs css' /\ adds_only h h' a gs /\
    Forall2 (Forall2 (fun c c' => class_name h' c' = class_name h c)) css css' /\
    (forall cs' c', In cs' css' -> In c' cs' -> (List.length (h_cls h) <= c')%nat) /\
    (forall i j cs ds cs' ds', nth_error css i = Some cs -> nth_error css j = Some ds -> nth_error css' i = Some cs' -> nth_error css' j = Some ds' ->
       map (class_name h) cs = map (class_name h) ds -> cs' = ds').
Proof. exact c61_build. Qed.
Print Assumptions C61_build.
Example C61_build_case : let E : Env := demo_env in
  class_table ex_shelf0 /\ apart_groups ex_shelf0 [0; 1]%nat /\
  Forall2 (fun g cs => full_group ex_shelf0 cs g /\ clear_chain ex_shelf0 cs) [0; 1]%nat [[11; 12; 13]; [11; 12; 13]]%nat /\
  exists h', new_grid_groups 50 [0; 1]%nat ex_shelf0 = Ok 1%nat h' /\ a_groups (aob h' 1) = [0; 1]%nat /\ a_groups (aob h' 0) = [] /\
    map (fun t => t_ec (tob h' t)) [1; 2; 0; 5; 4; 3]%nat = [14; 16; 17; 14; 16; 17]%nat.
Proof.
  cbv zeta. split; [exact shelf_table0|]. split; [exact shelf_apart|]. split; [exact shelf_both|]. eexists. split; [vm_compute; reflexivity|]. repeat split; vm_compute; reflexivity.
Qed.
