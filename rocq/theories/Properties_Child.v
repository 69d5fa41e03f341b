(** * C67: appending a child to an interval. *)
From Verif Require Import ListFinal ChildSpec ChildFinal BroodFinal DemoChild.
Open Scope Z_scope.

(** C67: appending an interval without parent to another adds it to the
    children, at the place its start time says; the children know their
    parent and their neighbours; nothing else changes. *)
Theorem C67_append `{Env} : forall n h c u x, family h c u -> sound_child h c x -> ~ listed h (s_subset (sob h u)) x -> x <> u ->
  s_super (sob h x) = None -> ungrouped h u ->
  exists h' b, seq_append n u x h = Ok tt h' /\
    Permutation b (x :: s_subset (sob h u)) /\ sorted_starts h' b /\
    (forall a d, s_subset (sob h u) = (a ++ d)%list -> rising h (a ++ x :: d) -> b = (a ++ x :: d)%list) /\
    rears h h' c u b /\ only_links h h' /\ (forall y, In y b -> same_but_home (sob h y) (sob h' y)) /\
    forall i, (i < List.length (h_seq h))%nat -> i <> u -> ~ In i b -> sob h' i = sob h i.
Proof. exact c67_append. Qed.
Print Assumptions C67_append.
Example C67_append_case : let E : Env := demo_env in
  family ex_kin 6 0 /\ sound_child ex_kin 6 11 /\ ~ listed ex_kin (s_subset (sob ex_kin 0)) 11 /\ s_super (sob ex_kin 11) = None /\
  ungrouped ex_kin 0 /\ s_subset (sob ex_kin 0) = [3; 6]%nat /\
  exists h', seq_append 10 0 11 ex_kin = Ok tt h' /\ s_subset (sob h' 0) = [3; 11; 6]%nat /\
    map (fun y => s_fol (sob h' y)) [3; 11]%nat = [Some 11; Some 6]%nat.
Proof.
  cbv zeta. split; [exact kin_family|]. split; [sound|]. split; [apply sl_contains_iff_not; vm_compute; reflexivity|]. split; [reflexivity|].
  split; [apply kin_loose|]. split; [reflexivity|]. eexists. split; [vm_compute; reflexivity|]. split; reflexivity.
Qed.
Example C67_append_bare_case : let E : Env := demo_env in
  family ex_kin 6 28 /\ s_subset (sob ex_kin 28) = [] /\
  exists h', seq_append 10 28 11 ex_kin = Ok tt h' /\ s_subset (sob h' 28) = [11]%nat /\ s_super (sob h' 11) = Some 28%nat.
Proof.
  cbv zeta. split; [exact kin_bare|]. split; [reflexivity|]. eexists. split; [vm_compute; reflexivity|]. split; reflexivity.
Qed.
(** C67: if it was the child of another interval, it leaves that interval,
    whose other children are linked to each other. *)
Theorem C67_moved `{Env} : forall n h c u x p, family h c u -> sound_child h c x -> ~ listed h (s_subset (sob h u)) x -> x <> u ->
  housed_with h u x p -> ungrouped h u ->
  exists h' b l1 l2, seq_append n u x h = Ok tt h' /\
    Permutation b (x :: s_subset (sob h u)) /\ sorted_starts h' b /\
    (forall a d, s_subset (sob h u) = (a ++ d)%list -> rising h (a ++ x :: d) -> b = (a ++ x :: d)%list) /\
    rears h h' c u b /\ only_links h h' /\ (forall y, In y b -> same_but_home (sob h y) (sob h' y)) /\
    s_subset (sob h p) = (l1 ++ x :: l2)%list /\ s_subset (sob h' p) = (l1 ++ l2)%list /\ same_but_kids (sob h p) (sob h' p) /\
    chained h' (l1 ++ l2) /\
    (forall y, In y (l1 ++ l2) -> same_but_home (sob h y) (sob h' y) /\ s_super (sob h' y) = Some p) /\
    forall i, (i < List.length (h_seq h))%nat -> i <> u -> i <> p -> ~ In i b -> ~ In i (l1 ++ l2) -> sob h' i = sob h i.
Proof. exact c67_moved. Qed.
Print Assumptions C67_moved.
Example C67_moved_case : let E : Env := demo_env in
  family ex_kin 6 0 /\ sound_child ex_kin 6 17 /\ ~ listed ex_kin (s_subset (sob ex_kin 0)) 17 /\ housed_with ex_kin 0 17 14 /\
  ungrouped ex_kin 0 /\ s_subset (sob ex_kin 14) = [17; 20]%nat /\
  exists h', seq_append 10 0 17 ex_kin = Ok tt h' /\ s_subset (sob h' 0) = [3; 6; 17]%nat /\ s_subset (sob h' 14) = [20]%nat.
Proof.
  cbv zeta. split; [exact kin_family|]. split; [sound|]. split; [apply sl_contains_iff_not; vm_compute; reflexivity|].
  split; [exact kin_housed|]. split; [apply kin_loose|]. split; [reflexivity|]. eexists. split; [vm_compute; reflexivity|]. split; reflexivity.
Qed.
(** C67: another object with the times and the label of a child is not added. *)
Theorem C67_twin `{Env} : forall n h c u x, family h c u -> (x < List.length (h_seq h))%nat -> s_cls (sob h x) = c -> x <> u -> ~ In x (s_subset (sob h u)) ->
  listed h (s_subset (sob h u)) x -> ungrouped h u ->
  exists h', seq_append n u x h = Ok tt h' /\ s_subset (sob h' u) = s_subset (sob h u) /\ sob h' x = sob h x.
Proof. exact c67_twin. Qed.
Print Assumptions C67_twin.
Example C67_twin_case : let E : Env := demo_env in
  family ex_kin 6 0 /\ ~ In 25%nat (s_subset (sob ex_kin 0)) /\ listed ex_kin (s_subset (sob ex_kin 0)) 25 /\
  exists h', seq_append 10 0 25 ex_kin = Ok tt h' /\ s_subset (sob h' 0) = [3; 6]%nat /\ s_super (sob h' 25) = None.
Proof.
  cbv zeta. split; [exact kin_family|]. split; [vm_compute; intuition discriminate|]. split.
  { exists 3%nat. split; [vm_compute; auto|]. right. repeat split. }
  eexists. split; [vm_compute; reflexivity|]. split; reflexivity.
Qed.
(** C67: an interval of another class is refused and nothing changes. *)
Theorem C67_refused `{Env} : forall n h u x c, subset_class h (s_cls (sob h u)) = Some c -> issubclass h c (s_cls (sob h x)) = false ->
  seq_append n u x h = Raise ValueError h.
Proof. exact c67_refused. Qed.
Print Assumptions C67_refused.
Example C67_refused_case : let E : Env := demo_env in
  subset_class ex_kin (s_cls (sob ex_kin 0)) = Some 6%nat /\ issubclass ex_kin 6 (s_cls (sob ex_kin 14)) = false /\
  seq_append 10 0 14 ex_kin = Raise ValueError ex_kin.
Proof. cbv zeta. split; [reflexivity|]. split; [reflexivity|]. vm_compute. reflexivity. Qed.
(** C67: in a tier group the new child and everything below it are also put
    into the tiers below, and the group is as well formed as before. *)
Theorem C67_grouped `{Env} : forall n h g ts p t d u x, skel h g ts -> nth_error ts p = Some t -> nth_error ts (S p) = Some d ->
  In u (t_seq (tob h t)) -> family h (t_ec (tob h d)) u -> ~ listed h (s_subset (sob h u)) x -> s_super (sob h x) = None ->
  sprout h (drop (S p) ts) x -> (forall k w, nth_error ts (S p + k) = Some w -> roomy h w (level h k x)) -> (List.length ts < n)%nat ->
  exists h' b, seq_append n u x h = Ok tt h' /\
    Permutation b (x :: s_subset (sob h u)) /\ sorted_starts h' b /\ s_subset (sob h' u) = b /\
    (forall y, In y b -> s_super (sob h' y) = Some u) /\ family h' (t_ec (tob h d)) u /\
    skel h' g ts /\ (forall k w, (k <= p)%nat -> nth_error ts k = Some w -> t_seq (tob h' w) = t_seq (tob h w)) /\
    (forall k w, nth_error ts (S p + k) = Some w -> Permutation (t_seq (tob h' w)) (t_seq (tob h w) ++ level h k x)) /\
    (forall i, (i < List.length (h_seq h))%nat -> s_cls (sob h' i) = s_cls (sob h i) /\ s_start (sob h' i) = s_start (sob h i) /\
       s_end (sob h' i) = s_end (sob h i) /\ s_label (sob h' i) = s_label (sob h i) /\
       (i <> u -> s_subset (sob h' i) = s_subset (sob h i)) /\ (~ In i b -> s_super (sob h' i) = s_super (sob h i))) /\
    (forall i, (List.length (h_seq h) <= i < List.length (h_seq h'))%nat -> is_boundary h' i) /\
    h_cls h' = h_cls h /\ h_grp h' = h_grp h /\ h_grid h' = h_grid h /\ forall w, ~ In w ts -> tob h' w = tob h w.
Proof. exact c67_grouped. Qed.
Print Assumptions C67_grouped.
Example C67_grouped_case : let E : Env := demo_env in
  skel ex_band 0 [1; 0]%nat /\ In 22%nat (t_seq (tob ex_band 1)) /\ family ex_band (t_ec (tob ex_band 0)) 22 /\
  ~ listed ex_band (s_subset (sob ex_band 22)) 35 /\ s_super (sob ex_band 35) = None /\ sprout ex_band (drop 1 [1; 0]%nat) 35 /\
  (forall k w, nth_error [1; 0]%nat (1 + k) = Some w -> roomy ex_band w (level ex_band k 35)) /\
  exists h', seq_append 3 22 35 ex_band = Ok tt h' /\ s_subset (sob h' 22) = [9; 35]%nat /\ t_seq (tob h' 0) = [0; 3; 6; 9; 35]%nat.
Proof.
  cbv zeta. split; [exact band_skel|]. split; [vm_compute; auto|]. split; [exact band_family|].
  split; [apply sl_contains_iff_not; vm_compute; reflexivity|]. split; [reflexivity|]. split; [exact band_sprout|]. split.
  { intros [|[|k]] w; intros [= <-]. exact band_roomy. }
  eexists. split; [vm_compute; reflexivity|]. split; reflexivity.
Qed.
(** C67: in a group the neighbours of the other children do not stay as they
    are: the last child of another interval is linked to the first child of the next. *)
Theorem C67_across_refuted `{Env} : let E : Env := demo_env in
  exists n h g ts p t d u x h' v y, skel h g ts /\ nth_error ts p = Some t /\ nth_error ts (S p) = Some d /\
    In u (t_seq (tob h t)) /\ family h (t_ec (tob h d)) u /\ ~ listed h (s_subset (sob h u)) x /\ s_super (sob h x) = None /\
    sprout h (drop (S p) ts) x /\ roomy h d [x] /\ seq_append n u x h = Ok tt h' /\
    v <> u /\ s_subset (sob h' v) = s_subset (sob h v) /\ In y (s_subset (sob h v)) /\ s_super (sob h' y) = Some v /\
    (exists k, s_fol (sob h y) = Some k /\ is_boundary h k) /\
    exists z, s_fol (sob h' y) = Some z /\ s_super (sob h' z) = Some u.
Proof. exact c67_across_refuted. Qed.
Print Assumptions C67_across_refuted.
