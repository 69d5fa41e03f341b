(** * Properties C62: appending a tier to a group.
    Theorems only; proofs in ExtendFinal.v and ExtendGridFinal.v. *)
From Verif Require Import ExtendSpec ExtendFinal ExtendGridFinal DemoExtend.
Open Scope Z_scope.

(** C62: a tier of a class next to those of a group in no grid can be appended;
    the group is then in good order with all its tiers. *)
Theorem C62_append `{Env} : forall n h g t ts bss, (g < List.length (h_grp h))%nat -> g_points (gob h g) = false -> g_within (gob h g) = None ->
  Permutation (g_tiers (gob h g) ++ [t]) ts -> tier_chain h ts -> classes_joined h ts ->
  (forall u, In u ts -> fit_tier h u) -> snug h ts bss ->
  (forall u, hd_error ts = Some u -> in_turn h (t_seq (tob h u)) /\ forall x, In x (t_seq (tob h u)) -> dated h x) ->
  (forall u, In u (g_tiers (gob h g)) -> ~ related h (t_ec (tob h u)) (t_ec (tob h t))) ->
  exists h', grp_append n g t h = Ok tt h' /\ good_group h' g ts bss /\ relates_anew g ts h h' /\
    List.length (h_grp h') = List.length (h_grp h) /\ (forall k, k <> g -> gob h' k = gob h k) /\
    g_within (gob h' g) = None /\
    (forall u x, hd_error ts = Some u -> In x (t_seq (tob h u)) -> s_super (sob h x) = None -> unmoved (sob h x) (sob h' x)).
Proof. exact c62_append. Qed.
Print Assumptions C62_append.
Example C62_append_case : let E : Env := demo_env in
  Permutation (g_tiers (gob ex_ext 0) ++ [1%nat]) [0; 1]%nat /\ tier_chain ex_ext [0; 1]%nat /\ classes_joined ex_ext [0; 1]%nat /\
  (forall u, In u [0; 1]%nat -> fit_tier ex_ext u) /\ snug ex_ext [0; 1]%nat ex_extblocks /\
  (forall u, In u (g_tiers (gob ex_ext 0)) -> ~ related ex_ext (t_ec (tob ex_ext u)) (t_ec (tob ex_ext 1))) /\
  exists h', grp_append 50 0 1 ex_ext = Ok tt h' /\ g_tiers (gob h' 0) = [0; 1]%nat /\ s_subset (sob h' 0) = [10; 13]%nat /\ s_super (sob h' 16) = Some 3%nat.
Proof.
  cbv zeta. split; [vm_compute; apply Permutation_refl|]. split; [exact ext_chain|]. split; [vm_compute; repeat split|]. split; [exact ext_fit|].
  split; [apply ext_snug; auto|]. split; [exact ext_new|]. eexists. split; [vm_compute; reflexivity|]. repeat split; vm_compute; reflexivity.
Qed.
(** C62: the name of the group is lost. *)
Theorem C62_name_refuted : let E : Env := demo_env in
  exists n h g t nm h', g_within (gob h g) = None /\ g_name (gob h g) = Some nm /\ nm <> ""%string /\
    grp_append n g t h = Ok tt h' /\ g_name (gob h' g) = None.
Proof. exact c62_name_refuted. Qed.
Print Assumptions C62_name_refuted.

(** C62: points do not go into groups of intervals, nor intervals into groups of points. *)
Theorem C62_kind `{Env} : forall n h g t, g_points (gob h g) <> issubclass h (t_ec (tob h t)) cPoint -> grp_append n g t h = Raise ValueError h.
Proof. exact c62_kind. Qed.
Print Assumptions C62_kind.
Example C62_kind_case : g_points (gob ex_ext 0) <> issubclass ex_ext (t_ec (tob ex_ext 2)) cPoint /\ g_points (gob ex_ext 1) <> issubclass ex_ext (t_ec (tob ex_ext 0)) cPoint.
Proof. split; vm_compute; discriminate. Qed.
(** C62: there is one tier of each class. *)
Theorem C62_taken `{Env} : forall n h g t u, g_within (gob h g) = None -> In u (g_tiers (gob h g)) -> related h (t_ec (tob h u)) (t_ec (tob h t)) ->
  grp_append n g t h = Raise ValueError h.
Proof. exact c62_taken. Qed.
Print Assumptions C62_taken.
Example C62_taken_case : g_within (gob ex_ext 0) = None /\ In 0%nat (g_tiers (gob ex_ext 0)) /\ related ex_ext (t_ec (tob ex_ext 0)) (t_ec (tob ex_ext 0)).
Proof. split; [reflexivity|]. split; [vm_compute; auto|]. left. vm_compute. reflexivity. Qed.
(** C62: a tier whose class is next to none of those in the group is refused. *)
Theorem C62_misfit `{Env} : forall n h g t, g_within (gob h g) = None -> g_points (gob h g) = false -> g_tiers (gob h g) <> [] ->
  (forall u, In u (g_tiers (gob h g)) -> exists a b, t_super (tob h u) = Some a /\ t_sub (tob h u) = Some b /\
     ~ related h a (t_ec (tob h t)) /\ ~ related h b (t_ec (tob h t))) ->
  grp_append n g t h = Raise ValueError h.
Proof. exact c62_misfit. Qed.
Print Assumptions C62_misfit.
Example C62_misfit_case : g_within (gob ex_ext 0) = None /\ g_points (gob ex_ext 0) = false /\ g_tiers (gob ex_ext 0) <> [] /\
  (forall u, In u (g_tiers (gob ex_ext 0)) -> exists a b, t_super (tob ex_ext u) = Some a /\ t_sub (tob ex_ext u) = Some b /\
     ~ related ex_ext a (t_ec (tob ex_ext 4)) /\ ~ related ex_ext b (t_ec (tob ex_ext 4))).
Proof. split; [reflexivity|]. split; [reflexivity|]. split; [vm_compute; discriminate|]. exact ext_misfit. Qed.
(** C62: in a group of points the new tier comes last, whatever its class. *)
Theorem C62_points `{Env} : forall n h g t, (g < List.length (h_grp h))%nat -> g_points (gob h g) = true -> g_within (gob h g) = None ->
  NoDup (g_tiers (gob h g) ++ [t]) -> (forall u, In u (g_tiers (gob h g) ++ [t]) -> (u < List.length (h_tier h))%nat) ->
  issubclass h (t_ec (tob h t)) cPoint = true ->
  (forall u, In u (g_tiers (gob h g)) -> ~ related h (t_ec (tob h u)) (t_ec (tob h t))) ->
  exists h', grp_append n g t h = Ok tt h' /\ points_group h' g (g_tiers (gob h g) ++ [t]) /\ regroups g (g_tiers (gob h g) ++ [t]) h h'.
Proof. exact c62_points. Qed.
Print Assumptions C62_points.
Example C62_points_case : let E : Env := demo_env in
  g_points (gob ex_ext 1) = true /\ g_within (gob ex_ext 1) = None /\ g_tiers (gob ex_ext 1) = [2]%nat /\ issubclass ex_ext (t_ec (tob ex_ext 3)) cPoint = true /\
  (forall u, In u (g_tiers (gob ex_ext 1)) -> ~ related ex_ext (t_ec (tob ex_ext u)) (t_ec (tob ex_ext 3))) /\
  exists h', grp_append 50 1 3 ex_ext = Ok tt h' /\ g_tiers (gob h' 1) = [2; 3]%nat.
Proof.
  cbv zeta. split; [reflexivity|]. split; [reflexivity|]. split; [reflexivity|]. split; [vm_compute; reflexivity|]. split; [exact ext_points|].
  eexists. split; vm_compute; reflexivity.
Qed.

(** C62: in a grid the tier gets the class the grid uses for it. *)
Theorem C62_grid `{Env} : forall n h a g t c' ts1 ts2 tc cs bc bss,
  class_table h -> (a < List.length (h_grid h))%nat -> whole_chains h (a_cloned (aob h a)) ->
  (g < List.length (h_grp h))%nat -> g_points (gob h g) = false -> In g (a_groups (aob h a)) -> g_within (gob h g) = Some (WGrid a) ->
  ~ In t (g_tiers (gob h g)) -> Permutation (g_tiers (gob h g) ++ [t]) (ts1 ++ t :: ts2) ->
  class_chain h tc cs bc -> unrelated h cs ->
  cs = (map (fun u => t_ec (tob h u)) ts1 ++ c' :: map (fun u => t_ec (tob h u)) ts2)%list ->
  (exists sc, superset_class h (t_ec (tob h t)) = Some sc) -> used_for h a (t_ec (tob h t)) c' ->
  (forall u, In u (g_tiers (gob h g)) -> (u < List.length (h_tier h))%nat /\ fit_tier h u /\ up_to_date h u /\
     forall x, In x (t_seq (tob h u)) -> ~ In x (t_seq (tob h t))) ->
  loose_tier h t -> snug h (ts1 ++ t :: ts2) bss ->
  (forall u, hd_error (ts1 ++ t :: ts2) = Some u -> in_turn h (t_seq (tob h u)) /\ forall x, In x (t_seq (tob h u)) -> dated h x) ->
  exists h', grp_append n g t h = Ok tt h' /\ good_group h' g (ts1 ++ t :: ts2) bss /\ extends_grid h h' a g t c' (ts1 ++ t :: ts2).
Proof. exact c62_grid. Qed.
Print Assumptions C62_grid.
Example C62_grid_case : let E : Env := demo_env in
  class_table ex_extgrid /\ whole_chains ex_extgrid (a_cloned (aob ex_extgrid 0)) /\ In 0%nat (a_groups (aob ex_extgrid 0)) /\
  g_within (gob ex_extgrid 0) = Some (WGrid 0) /\ Permutation (g_tiers (gob ex_extgrid 0) ++ [1%nat]) [0; 1]%nat /\
  class_chain ex_extgrid 15 [14; 16]%nat 17 /\ unrelated ex_extgrid [14; 16]%nat /\ used_for ex_extgrid 0 (t_ec (tob ex_extgrid 1)) 16 /\
  (forall u, In u (g_tiers (gob ex_extgrid 0)) -> (u < List.length (h_tier ex_extgrid))%nat /\ fit_tier ex_extgrid u /\ up_to_date ex_extgrid u /\
     forall x, In x (t_seq (tob ex_extgrid u)) -> ~ In x (t_seq (tob ex_extgrid 1))) /\
  loose_tier ex_extgrid 1 /\ snug ex_extgrid [0; 1]%nat ex_extblocks /\
  (forall t, hd_error [0; 1]%nat = Some t -> in_turn ex_extgrid (t_seq (tob ex_extgrid t)) /\ forall x, In x (t_seq (tob ex_extgrid t)) -> dated ex_extgrid x) /\
  exists h', grp_append 50 0 1 ex_extgrid = Ok tt h' /\ g_tiers (gob h' 0) = [0; 1]%nat /\ t_ec (tob h' 1) = 16%nat /\ t_ec (tob ex_extgrid 1) = cPhone.
Proof.
  cbv zeta. split; [exact extgrid_table|]. split; [exact extgrid_whole|]. split; [vm_compute; auto|]. split; [reflexivity|]. split; [vm_compute; apply Permutation_refl|].
  split; [exact extgrid_chain|]. split; [exact extgrid_unrelated|]. split; [exact extgrid_used|]. split; [exact extgrid_tiers|]. split; [exact extgrid_loose|].
  split; [apply ext_snug; auto|]. split; [apply ext_turn; auto|]. eexists. split; [vm_compute; reflexivity|]. repeat split; vm_compute; reflexivity.
Qed.
(** C62: a tier of a lower class the grid knows nothing of is refused. *)
Theorem C62_unknown `{Env} : forall n h a g t sc, class_table h -> (a < List.length (h_grid h))%nat ->
  g_points (gob h g) = false -> In g (a_groups (aob h a)) -> g_within (gob h g) = Some (WGrid a) ->
  issubclass h (t_ec (tob h t)) cInterval = true -> superset_class h (t_ec (tob h t)) = Some sc -> issubclass h sc cTop = false ->
  (forall c, In c (a_cloned (aob h a)) -> class_name h c <> class_name h (t_ec (tob h t))) ->
  exists h', grp_append n g t h = Raise ValueError h' /\ h_cls h' = h_cls h /\ h_seq h' = h_seq h /\ h_tier h' = h_tier h /\ h_grp h' = h_grp h /\
    forall b, aob h' b = aob h b.
Proof. exact c62_unknown. Qed.
Print Assumptions C62_unknown.
Example C62_unknown_case : class_table ex_extodd /\ In 0%nat (a_groups (aob ex_extodd 0)) /\ g_within (gob ex_extodd 0) = Some (WGrid 0) /\
  issubclass ex_extodd (t_ec (tob ex_extodd 5)) cInterval = true /\
  (exists sc, superset_class ex_extodd (t_ec (tob ex_extodd 5)) = Some sc /\ issubclass ex_extodd sc cTop = false) /\
  (forall c, In c (a_cloned (aob ex_extodd 0)) -> class_name ex_extodd c <> class_name ex_extodd (t_ec (tob ex_extodd 5))).
Proof.
  split; [exact extodd_table|]. split; [vm_compute; auto|]. split; [reflexivity|]. split; [vm_compute; reflexivity|].
  split; [eexists; split; vm_compute; reflexivity|exact extodd_strange].
Qed.
