(** * Properties C80: what is printed tells objects apart.
    Theorems only; proofs in ShowFinal.v and DemoShow.v. *)
From Verif Require Import ShowSpec ShowFinal DemoShow DemoTidy.
Open Scope Z_scope.

(** C80: groups print the same if and only if they are of the same kind and have the
    same classes. *)
Theorem C80_group : forall h1 g1 h2 g2, exists s1 s2, grp_repr g1 h1 = Ok s1 h1 /\ grp_repr g2 h2 = Ok s2 h2 /\
  (s1 = s2 <-> g_points (gob h1 g1) = g_points (gob h2 g2) /\ class_names h1 g1 = class_names h2 g2).
Proof. exact c80_group. Qed.
Print Assumptions C80_group.
Example C80_group_case :
  grp_repr 0 ex_grid = Ok "TierGroup with 2 tiers. ['Word', 'Phone']"%string ex_grid /\
  grp_repr 1 ex_grid = Ok "PointsGroup with 2 tiers. ['SequencePoint', 'SequencePoint']"%string ex_grid.
Proof. split; vm_compute; reflexivity. Qed.
(** C80: grids print the same if and only if their groups have the same names and classes. *)
Theorem C80_grid `{Env} : forall h1 a1 n1 k1 h2 a2 n2 k2,
  mapM grp_name (a_groups (aob h1 a1)) h1 = Ok n1 k1 -> mapM grp_name (a_groups (aob h2 a2)) h2 = Ok n2 k2 ->
  exists s1 s2, grid_repr a1 h1 = Ok s1 k1 /\ grid_repr a2 h2 = Ok s2 k2 /\
  (s1 = s2 <-> n1 = n2 /\ map (class_names k1) (a_groups (aob h1 a1)) = map (class_names k2) (a_groups (aob h2 a2))).
Proof. exact c80_grid. Qed.
Print Assumptions C80_grid.
Example C80_grid_case : let E : Env := demo_env in
  exists k, mapM grp_name (a_groups (aob ex_grid 0)) ex_grid = Ok [Some "group_0"; Some "group_1"]%string k /\
    grid_repr 0 ex_grid = Ok "AlignedTextGrid with 2 groups named ['group_0', 'group_1'] each with [2, 2] tiers. [['Word', 'Phone'], ['SequencePoint', 'SequencePoint']]"%string k.
Proof. cbv zeta. eexists. split; vm_compute; reflexivity. Qed.
(** C80: tiers of intervals print the same if and only if their classes, and the classes above and
    below, are called the same. *)
Theorem C80_tier : forall h1 t1 u1 d1 h2 t2 u2 d2,
  is_point_tier h1 t1 = false -> is_point_tier h2 t2 = false ->
  t_super (tob h1 t1) = Some u1 -> t_sub (tob h1 t1) = Some d1 -> t_super (tob h2 t2) = Some u2 -> t_sub (tob h2 t2) = Some d2 ->
  (forall c, c = t_ec (tob h1 t1) \/ c = u1 -> lacks ";" (class_name h1 c)) -> (forall c, c = t_ec (tob h2 t2) \/ c = u2 -> lacks ";" (class_name h2 c)) ->
  exists s1 s2, tier_repr t1 h1 = Ok s1 h1 /\ tier_repr t2 h2 = Ok s2 h2 /\
  (s1 = s2 <-> class_name h1 (t_ec (tob h1 t1)) = class_name h2 (t_ec (tob h2 t2)) /\ class_name h1 u1 = class_name h2 u2 /\ class_name h1 d1 = class_name h2 d2).
Proof. exact c80_tier. Qed.
Print Assumptions C80_tier.
Example C80_tier_case :
  is_point_tier ex_grid 0 = false /\ is_point_tier ex_grid 1 = false /\
  t_super (tob ex_grid 0) = Some 11%nat /\ t_sub (tob ex_grid 0) = Some 12%nat /\ t_super (tob ex_grid 1) = Some 10%nat /\ t_sub (tob ex_grid 1) = Some 13%nat /\
  (forall c, c = t_ec (tob ex_grid 0) \/ c = 11%nat -> lacks ";" (class_name ex_grid c)) /\ (forall c, c = t_ec (tob ex_grid 1) \/ c = 10%nat -> lacks ";" (class_name ex_grid c)) /\
  tier_repr 0 ex_grid = Ok "Sequence tier of Word; .superset_class: Top_1; .subset_class: Phone"%string ex_grid.
Proof.
  do 6 (split; [vm_compute; reflexivity|]). split; [|split; [|vm_compute; reflexivity]]; intros c [-> | ->]; apply lacks_by; vm_compute; reflexivity.
Qed.
(** C80: a tier whose class has no class above or below cannot be printed. *)
Theorem C80_tier_error : forall h t, is_point_tier h t = false -> t_super (tob h t) = None \/ t_sub (tob h t) = None -> tier_repr t h = Raise AttributeError h.
Proof. exact c80_tier_error. Qed.
Print Assumptions C80_tier_error.
Example C80_tier_error_case : is_point_tier ex_lowest 0 = false /\ t_sub (tob ex_lowest 0) = None /\ tier_repr 0 ex_lowest = Raise AttributeError ex_lowest.
Proof. split; [vm_compute; reflexivity|]. split; vm_compute; reflexivity. Qed.
(** C80: intervals without commas in their labels print the same if and only if their classes,
    their labels, those of the interval above and those of the intervals below are the same. *)
Theorem C80_interval : forall h1 x1 h2 x2, plainly_labelled h1 x1 -> plainly_labelled h2 x2 ->
  exists s1 s2, seq_repr x1 h1 = Ok s1 h1 /\ seq_repr x2 h2 = Ok s2 h2 /\
  (s1 = s2 <-> class_name h1 (s_cls (sob h1 x1)) = class_name h2 (s_cls (sob h2 x2)) /\ s_label (sob h1 x1) = s_label (sob h2 x2) /\
     name_above h1 x1 = name_above h2 x2 /\ label_above h1 x1 = label_above h2 x2 /\
     name_below h1 x1 = name_below h2 x2 /\ labels_below h1 x1 = labels_below h2 x2).
Proof. exact c80_interval. Qed.
Print Assumptions C80_interval.
Example C80_interval_case :
  plainly_labelled ex_tree 3 /\ plainly_labelled ex_tree 6 /\ plainly_labelled ex_tree 9 /\
  seq_repr 9 ex_tree = Ok "Class Word, label: W, .superset_class: Top_wp, .super_instance, None, .subset_class: Phone, .subset_list: ['A', 'C', 'B']"%string ex_tree.
Proof. split; [apply tree_plain; simpl; tauto|]. split; [apply tree_plain; simpl; tauto|]. split; [apply tree_plain; simpl; tauto|]. vm_compute. reflexivity. Qed.
(** C80: with commas they may print the same although they differ. *)
Theorem C80_comma_refuted : let E : Env := demo_env in
  exists h x y s, reach word_phone timed h /\ user_obj h x /\ user_obj h y /\
    seq_repr x h = Ok s h /\ seq_repr y h = Ok s h /\ s_label (sob h x) <> s_label (sob h y) /\ label_above h x <> label_above h y.
Proof. exact c80_comma_refuted. Qed.
Print Assumptions C80_comma_refuted.
(** C80: points print the same if and only if their classes, labels and places are the same. *)
Theorem C80_point : forall h1 x1 i1 h2 x2 i2,
  place h1 x1 i1 -> place h2 x2 i2 ->
  lacks "," (class_name h1 (s_cls (sob h1 x1))) -> lacks "," (class_name h2 (s_cls (sob h2 x2))) -> lacks ";" (s_label (sob h1 x1)) -> lacks ";" (s_label (sob h2 x2)) ->
  exists s1 s2, pt_repr x1 h1 = Ok s1 h1 /\ pt_repr x2 h2 = Ok s2 h2 /\
  (s1 = s2 <-> class_name h1 (s_cls (sob h1 x1)) = class_name h2 (s_cls (sob h2 x2)) /\ s_label (sob h1 x1) = s_label (sob h2 x2) /\ i1 = i2).
Proof. exact c80_point. Qed.
Print Assumptions C80_point.
Example C80_point_case :
  place ex_grid 33 (Some 1%nat) /\ place ex_grid 38 (Some 0%nat) /\ lacks "," (class_name ex_grid (s_cls (sob ex_grid 33))) /\ lacks ";" (s_label (sob ex_grid 33)) /\
  pt_repr 33 ex_grid = Ok "Class SequencePoint, label: y; tier_index: 1"%string ex_grid.
Proof.
  split; [exists 2%nat; split; [vm_compute; reflexivity|]; split; [vm_compute; reflexivity|]; intros [|j] Hj; [vm_compute; discriminate|lia]|].
  split; [exists 3%nat; split; [vm_compute; reflexivity|]; split; [vm_compute; reflexivity|]; intros j Hj; lia|].
  split; [apply lacks_by; vm_compute; reflexivity|]. split; [apply lacks_by; vm_compute; reflexivity|]. vm_compute. reflexivity.
Qed.
(** C80: the names of the tiers of a grid; an error if it has no groups or has points. *)
Theorem C80_names : forall h a,
  (a_groups (aob h a) = [] -> grid_tier_names a h = Raise ValueError h) /\
  ((exists g, In g (a_groups (aob h a)) /\ g_points (gob h g) = true) -> grid_tier_names a h = Raise AttributeError h) /\
  (a_groups (aob h a) <> [] -> (forall g, In g (a_groups (aob h a)) -> g_points (gob h g) = false) ->
     exists l, grid_tier_names a h = Ok l h /\ Forall2 (fun g r => Forall2 (fun t s => s = t_name (tob h t)) (g_tiers (gob h g)) r) (a_groups (aob h a)) l).
Proof. exact c80_names. Qed.
Print Assumptions C80_names.
Example C80_names_case :
  (exists g, In g (a_groups (aob ex_grid 0)) /\ g_points (gob ex_grid g) = true) /\ grid_tier_names 0 ex_grid = Raise AttributeError ex_grid /\
  a_groups (aob ex_uneven 0) <> [] /\ (forall g, In g (a_groups (aob ex_uneven 0)) -> g_points (gob ex_uneven g) = false) /\
  grid_tier_names 0 ex_uneven = Ok [["Word"; "Syl"; "Phone"]; ["Word"; "Syl"; "Phone"]]%string ex_uneven.
Proof.
  split; [exists 1%nat; split; [right; left|]; vm_compute; reflexivity|]. split; [vm_compute; reflexivity|]. split; [vm_compute; discriminate|].
  split; [|vm_compute; reflexivity]. intros g [<-|[<-|[]]]; vm_compute; reflexivity.
Qed.
