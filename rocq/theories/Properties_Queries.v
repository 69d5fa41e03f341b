(** * Properties C19-C22, C30, C32, C34, C35, C41: reading and shifting times.
    Theorems only; proofs in QueryFinal.v. *)
From Verif Require Import QueryFinal DemoGrid.
Open Scope Z_scope.

(** C19: get_interval_at_time returns the position of the only interval that
    contains the time, None exactly if there is none. *)
Theorem C19_found `{Env} : forall h t z, timed_tier h t ->
  (forall i j x y, nth_error (t_seq (tob h t)) i = Some x -> nth_error (t_seq (tob h t)) j = Some y ->
     holds_at h x z -> holds_at h y z -> i = j) ->
  exists r, get_interval_at_time t z h = Ok r h /\
    (forall i, r = Some i <-> exists x, nth_error (t_seq (tob h t)) i = Some x /\ holds_at h x z) /\
    (r = None <-> forall x, In x (t_seq (tob h t)) -> ~ holds_at h x z).
Proof. exact c19_found. Qed.
Print Assumptions C19_found.
Example C19_found_case :
  timed_tier ex_grid 1 /\
  (forall i j x y, nth_error (t_seq (tob ex_grid 1)) i = Some x -> nth_error (t_seq (tob ex_grid 1)) j = Some y ->
     holds_at ex_grid x 30 -> holds_at ex_grid y 30 -> i = j) /\
  holds_at ex_grid 16 30 /\ nth_error (t_seq (tob ex_grid 1)) 2 = Some 16%nat /\
  ~ holds_at ex_grid 13 30.
Proof.
  split; [apply ex_timed; lia|]. split.
  - intros i j x y Hx Hy (a & b & A & B & C) (a' & b' & A' & B' & C').
    destruct i as [|[|[|[|i]]]]; try (destruct i; discriminate Hx);
    destruct j as [|[|[|[|j]]]]; try (destruct j; discriminate Hy); auto; exfalso;
    injection Hx as <-; injection Hy as <-; vm_compute in A, B, A', B';
    injection A as <-; injection B as <-; injection A' as <-; injection B' as <-; lia.
  - split; [finish|]. split; [reflexivity|]. intros (a & b & A & B & C).
    vm_compute in A, B. injection A as <-. injection B as <-. lia.
Qed.
(** C19: two intervals around the time: TypeError instead of an index. *)
Theorem C19_many `{Env} : forall h t z i j x y, timed_tier h t -> i <> j ->
  nth_error (t_seq (tob h t)) i = Some x -> nth_error (t_seq (tob h t)) j = Some y ->
  holds_at h x z -> holds_at h y z -> get_interval_at_time t z h = Raise TypeError h.
Proof. exact c19_many. Qed.
Print Assumptions C19_many.
Example C19_many_case :
  let h := run (mod_seq 13 (set_s_end (Some 45))) ex_grid in
  timed_tier h 1 /\ holds_at h 13 32 /\ holds_at h 16 32 /\
  nth_error (t_seq (tob h 1)) 1 = Some 13%nat /\ nth_error (t_seq (tob h 1)) 2 = Some 16%nat.
Proof.
  cbv zeta. split; [intros x Hx; members; finish|].
  split; [finish|]. split; [finish|]. split; reflexivity.
Qed.

(** C20: xmin and xmax of a tier. *)
Theorem C20_tier `{Env} : forall h t, timed_tier h t ->
  (t_seq (tob h t) = [] -> tier_xmin t h = Ok None h /\ tier_xmax t h = Ok None h) /\
  (t_seq (tob h t) <> [] -> exists a b, tier_xmin t h = Ok (Some a) h /\ tier_xmax t h = Ok (Some b) h /\
     least (starts_on h t) a /\ greatest (ends_on h t) b).
Proof. exact c20_tier. Qed.
Print Assumptions C20_tier.
Example C20_tier_case : let E : Env := demo_env in
  timed_tier ex_grid 1 /\ t_seq (tob ex_grid 1) <> [] /\ least (starts_on ex_grid 1) 10 /\
  tier_xmax 1 ex_grid = Ok (Some 60) ex_grid.
Proof.
  cbv zeta. split; [apply ex_timed; lia|]. split; [vm_compute; discriminate|]. split; [|vm_compute; reflexivity].
  split; [exists 10%nat; split; [vm_compute; auto|reflexivity]|].
  intros z (x & Hx & Hz). members; vm_compute in Hz; injection Hz as <-; lia.
Qed.
(** C20: xmin and xmax of a TierGroup. *)
Theorem C20_group `{Env} : forall h g, g_points (gob h g) = false -> g_tiers (gob h g) <> [] ->
  (forall t, In t (g_tiers (gob h g)) -> timed_tier h t /\ t_seq (tob h t) <> []) ->
  exists a b, grp_xmin g h = Ok (Some a) h /\ grp_xmax g h = Ok (Some b) h /\
    least (fun z => exists t, In t (g_tiers (gob h g)) /\ starts_on h t z) a /\
    greatest (fun z => exists t, In t (g_tiers (gob h g)) /\ ends_on h t z) b.
Proof. exact c20_group. Qed.
Print Assumptions C20_group.
Example C20_group_case :
  g_points (gob ex_grid 0) = false /\ g_tiers (gob ex_grid 0) <> [] /\
  (forall t, In t (g_tiers (gob ex_grid 0)) -> timed_tier ex_grid t /\ t_seq (tob ex_grid t) <> []).
Proof.
  split; [reflexivity|]. split; [discriminate|]. intros t Ht.
  assert (L : (t < 4)%nat) by (members; lia). destruct (ex_timed t L) as (A & _ & B). auto.
Qed.
(** C20: a TierGroup of at least two tiers, one of them empty, has neither. *)
Theorem C20_empty_tier `{Env} : forall h g t, g_points (gob h g) = false ->
  (forall u, In u (g_tiers (gob h g)) -> timed_tier h u) ->
  In t (g_tiers (gob h g)) -> t_seq (tob h t) = [] -> (2 <= List.length (g_tiers (gob h g)))%nat ->
  grp_xmin g h = Raise TypeError h /\ grp_xmax g h = Raise TypeError h.
Proof. exact c20_empty_tier. Qed.
Print Assumptions C20_empty_tier.
Example C20_empty_tier_case :
  let h := run (mod_tier 1 (set_t_seq [])) ex_grid in
  g_points (gob h 0) = false /\ (forall u, In u (g_tiers (gob h 0)) -> timed_tier h u) /\
  In 1%nat (g_tiers (gob h 0)) /\ t_seq (tob h 1) = [] /\ List.length (g_tiers (gob h 0)) = 2%nat.
Proof.
  cbv zeta. split; [reflexivity|]. split; [|split; [vm_compute; auto|split; reflexivity]].
  intros u Hu. members; intros x Hx; members; finish.
Qed.
(** C20: xmin and xmax of a text grid of TierGroups. *)
Theorem C20_grid `{Env} : forall h a, a_groups (aob h a) <> [] ->
  (forall g, In g (a_groups (aob h a)) -> g_points (gob h g) = false /\ g_tiers (gob h g) <> [] /\
     forall t, In t (g_tiers (gob h g)) -> timed_tier h t /\ t_seq (tob h t) <> []) ->
  exists x y, grid_xmin a h = Ok (Some x) h /\ grid_xmax a h = Ok (Some y) h /\
    least (fun z => exists g, In g (a_groups (aob h a)) /\ exists t, In t (g_tiers (gob h g)) /\ starts_on h t z) x /\
    greatest (fun z => exists g, In g (a_groups (aob h a)) /\ exists t, In t (g_tiers (gob h g)) /\ ends_on h t z) y.
Proof. exact c20_grid. Qed.
Print Assumptions C20_grid.
Example C20_grid_case :
  let h := run (mod_grid 0 (set_a_groups [0; 0]%nat)) ex_grid in
  a_groups (aob h 0) <> [] /\
  (forall g, In g (a_groups (aob h 0)) -> g_points (gob h g) = false /\ g_tiers (gob h g) <> [] /\
     forall t, In t (g_tiers (gob h g)) -> timed_tier h t /\ t_seq (tob h t) <> []).
Proof.
  cbv zeta. split; [discriminate|]. intros g Hg.
  members; (split; [reflexivity|split; [discriminate|]]); intros t Ht; members;
    (split; [|discriminate]); intros x Hx; members; finish.
Qed.
(** C35: what xmin and xmax of a PointsGroup are: xmax is the greatest of the
    tiers' earliest times, and is the time of the last point only if some tier
    has all its points at that time. *)
Theorem C35_points_xmax `{Env} : forall h g, g_points (gob h g) = true -> g_tiers (gob h g) <> [] ->
  (forall t, In t (g_tiers (gob h g)) -> timed_tier h t /\ t_seq (tob h t) <> []) ->
  exists a b, grp_xmin g h = Ok (Some a) h /\ grp_xmax g h = Ok (Some b) h /\
    least (fun z => exists t, In t (g_tiers (gob h g)) /\ starts_on h t z) a /\
    greatest (fun z => exists t, In t (g_tiers (gob h g)) /\ least (starts_on h t) z) b /\
    forall m, greatest (fun z => exists t, In t (g_tiers (gob h g)) /\ starts_on h t z) m ->
      b <= m /\
      (b = m <-> exists t, In t (g_tiers (gob h g)) /\ forall z, starts_on h t z -> z = m).
Proof. exact c35_points_xmax. Qed.
Print Assumptions C35_points_xmax.
Example C35_points_xmax_case : let E : Env := demo_env in
  g_points (gob ex_grid 1) = true /\ g_tiers (gob ex_grid 1) <> [] /\
  (forall t, In t (g_tiers (gob ex_grid 1)) -> timed_tier ex_grid t /\ t_seq (tob ex_grid t) <> []) /\
  grp_xmax 1 ex_grid = Ok (Some 44) ex_grid.
Proof.
  cbv zeta. split; [reflexivity|]. split; [discriminate|]. split; [|vm_compute; reflexivity].
  intros t Ht. assert (L : (t < 4)%nat) by (members; lia). destruct (ex_timed t L) as (A & _ & B). auto.
Qed.

(** C21: assigning starts. *)
Theorem C21_starts `{Env} : forall h t ts, NoDup (t_seq (tob h t)) ->
  (forall x, In x (t_seq (tob h t)) -> (x < List.length (h_seq h))%nat) ->
  List.length ts = List.length (t_seq (tob h t)) ->
  exists h', set_starts t ts h = Ok tt h' /\ same_rest h h' /\ List.length (h_seq h') = List.length (h_seq h) /\
    map (fun x => s_start (sob h' x)) (t_seq (tob h' t)) = map Some ts /\
    (forall x, In x (t_seq (tob h t)) -> s_end (sob h' x) = s_end (sob h x) /\ same_but_times (sob h x) (sob h' x)) /\
    (forall x, ~ In x (t_seq (tob h t)) -> sob h' x = sob h x).
Proof. exact c21_starts. Qed.
Print Assumptions C21_starts.
Example C21_starts_case :
  NoDup (t_seq (tob ex_grid 1)) /\
  (forall x, In x (t_seq (tob ex_grid 1)) -> (x < List.length (h_seq ex_grid))%nat) /\
  List.length [11; 21; 31; 51] = List.length (t_seq (tob ex_grid 1)).
Proof. split; [apply nodup_by; reflexivity|]. split; [intros x Hx; members; vm_compute; lia|reflexivity]. Qed.
(** C21: assigning ends. *)
Theorem C21_ends `{Env} : forall h t ts, NoDup (t_seq (tob h t)) ->
  (forall x, In x (t_seq (tob h t)) -> (x < List.length (h_seq h))%nat) ->
  List.length ts = List.length (t_seq (tob h t)) ->
  exists h', set_ends t ts h = Ok tt h' /\ same_rest h h' /\ List.length (h_seq h') = List.length (h_seq h) /\
    map (fun x => s_end (sob h' x)) (t_seq (tob h' t)) = map Some ts /\
    (forall x, In x (t_seq (tob h t)) -> s_start (sob h' x) = s_start (sob h x) /\ same_but_times (sob h x) (sob h' x)) /\
    (forall x, ~ In x (t_seq (tob h t)) -> sob h' x = sob h x).
Proof. exact c21_ends. Qed.
Print Assumptions C21_ends.
Example C21_ends_case :
  NoDup (t_seq (tob ex_grid 0)) /\
  (forall x, In x (t_seq (tob ex_grid 0)) -> (x < List.length (h_seq ex_grid))%nat) /\
  List.length [31; 61] = List.length (t_seq (tob ex_grid 0)).
Proof. split; [apply nodup_by; reflexivity|]. split; [intros x Hx; members; vm_compute; lia|reflexivity]. Qed.
(** C21: a vector of the wrong length is refused and nothing changes. *)
Theorem C21_length `{Env} : forall h t ts, List.length ts <> List.length (t_seq (tob h t)) ->
  set_starts t ts h = Raise PyException h /\ set_ends t ts h = Raise PyException h.
Proof. exact c21_length. Qed.
Print Assumptions C21_length.
Example C21_length_case : List.length [31; 61; 91] <> List.length (t_seq (tob ex_grid 0)).
Proof. vm_compute. discriminate. Qed.

(** C22: shift of a tier. *)
Theorem C22_tier `{Env} : forall h d t, shiftable h [t] ->
  exists h', tier_shift d t h = Ok tt h' /\ shifted d (t_seq (tob h t)) h h'.
Proof. exact c22_tier. Qed.
Print Assumptions C22_tier.
Example C22_tier_case : shiftable ex_grid [2%nat] /\ t_seq (tob ex_grid 2) = [30; 33]%nat.
Proof.
  split; [|reflexivity].
  split; [apply nodup_by; reflexivity|]. split; [intros x Hx; members; vm_compute; lia|].
  intros t Ht. members. destruct (ex_timed 2 ltac:(lia)) as (A & B & _). auto.
Qed.
(** C22: shift of a TierGroup or PointsGroup. *)
Theorem C22_group `{Env} : forall h d g, shiftable h (g_tiers (gob h g)) ->
  exists h', grp_shift d g h = Ok tt h' /\ shifted d (entries_of h (g_tiers (gob h g))) h h'.
Proof. exact c22_group. Qed.
Print Assumptions C22_group.
Example C22_group_case : shiftable ex_grid (g_tiers (gob ex_grid 0)) /\
  entries_of ex_grid (g_tiers (gob ex_grid 0)) = [0; 3; 10; 13; 16; 19]%nat.
Proof.
  split; [|reflexivity].
  split; [apply nodup_by; vm_compute; reflexivity|]. split; [intros x Hx; members; vm_compute; lia|].
  intros t Ht. assert (L : (t < 4)%nat) by (members; lia). destruct (ex_timed t L) as (A & B & _). auto.
Qed.
(** C22: shift of a text grid. *)
Theorem C22_grid `{Env} : forall h d a, shiftable h (tiers_of h (a_groups (aob h a))) ->
  exists h', grid_shift d a h = Ok tt h' /\ shifted d (entries_of h (tiers_of h (a_groups (aob h a)))) h h'.
Proof. exact c22_grid. Qed.
Print Assumptions C22_grid.
Example C22_grid_case : shiftable ex_grid (tiers_of ex_grid (a_groups (aob ex_grid 0))) /\
  List.length (entries_of ex_grid (tiers_of ex_grid (a_groups (aob ex_grid 0)))) = 9%nat.
Proof. split; [exact ex_shiftable|reflexivity]. Qed.
(** C22: with exact addition, shifting back restores everything. *)
Theorem C22_undo `{Env} : forall h d a, (forall x y, fadd x y = x + y) -> shiftable h (tiers_of h (a_groups (aob h a))) ->
  (grid_shift d a ;;; grid_shift (- d) a) h = Ok tt h.
Proof. exact c22_undo. Qed.
Print Assumptions C22_undo.
Example C22_undo_case : let E : Env := demo_env in
  (forall x y, fadd x y = x + y) /\ shiftable ex_grid (tiers_of ex_grid (a_groups (aob ex_grid 0))) /\
  heap_of (grid_shift 7 0 ex_grid) <> ex_grid.
Proof.
  cbv zeta. split; [reflexivity|]. split; [exact ex_shiftable|]. intros X.
  apply (f_equal (fun h => s_start (sob h 0))) in X. vm_compute in X. discriminate.
Qed.
(** C22: with any monotone addition, times keep their order. *)
Theorem C22_order `{Env} : forall h h' d a, shiftable h (tiers_of h (a_groups (aob h a))) -> grid_shift d a h = Ok tt h' ->
  forall x y, In x (entries_of h (tiers_of h (a_groups (aob h a)))) -> In y (entries_of h (tiers_of h (a_groups (aob h a)))) ->
  (forall a b a' b', s_start (sob h x) = Some a -> s_start (sob h y) = Some b ->
     s_start (sob h' x) = Some a' -> s_start (sob h' y) = Some b' -> a <= b -> a' <= b') /\
  (forall a b a' b', end_at h x = Some a -> s_start (sob h y) = Some b ->
     end_at h' x = Some a' -> s_start (sob h' y) = Some b' -> a <= b -> a' <= b') /\
  (forall a b a' b', s_start (sob h x) = Some a -> end_at h y = Some b ->
     s_start (sob h' x) = Some a' -> end_at h' y = Some b' -> a <= b -> a' <= b').
Proof. exact c22_order. Qed.
Print Assumptions C22_order.
Example C22_order_case : let E : Env := demo_env in
  shiftable ex_grid (tiers_of ex_grid (a_groups (aob ex_grid 0))) /\
  (exists h', grid_shift 7 0 ex_grid = Ok tt h') /\
  In 13%nat (entries_of ex_grid (tiers_of ex_grid (a_groups (aob ex_grid 0)))) /\
  In 33%nat (entries_of ex_grid (tiers_of ex_grid (a_groups (aob ex_grid 0)))).
Proof.
  cbv zeta. split; [exact ex_shiftable|]. split; [eexists; vm_compute; reflexivity|]. split; vm_compute; tauto.
Qed.

(** C30: validate says whether the children tile the interval. *)
Theorem C30_validate `{Env} : forall h s st en, s_start (sob h s) = Some st -> s_end (sob h s) = Some en ->
  (forall x, In x (s_subset (sob h s)) -> timed_both h x) ->
  exists b, seq_validate s h = Ok b h /\
    (b = true <->
      s_subset (sob h s) = [] \/
      ((forall x a, nth_error (s_subset (sob h s)) 0 = Some x -> s_start (sob h x) = Some a -> near st a) /\
       (forall x a, nth_error (s_subset (sob h s)) (List.length (s_subset (sob h s)) - 1) = Some x ->
          end_at h x = Some a -> near en a) /\
       (forall i x y a b, nth_error (s_subset (sob h s)) i = Some x -> nth_error (s_subset (sob h s)) (S i) = Some y ->
          end_at h x = Some a -> s_start (sob h y) = Some b -> near b a))).
Proof. exact c30_validate. Qed.
Print Assumptions C30_validate.
Example C30_validate_case : let E : Env := demo_env in
  s_start (sob ex_grid 0) = Some 10 /\ s_end (sob ex_grid 0) = Some 30 /\
  (forall x, In x (s_subset (sob ex_grid 0)) -> timed_both ex_grid x) /\
  seq_validate 0 ex_grid = Ok true ex_grid /\
  let h := run (mod_seq 13 (set_s_start (Some 21))) ex_grid in seq_validate 0 h = Ok false h.
Proof.
  cbv zeta. split; [reflexivity|]. split; [reflexivity|]. split; [intros x Hx; members; finish|].
  split; vm_compute; reflexivity.
Qed.

(** C32: the nearest point, the first of them on a tie. *)
Theorem C32_nearest `{Env} : forall h t z, (forall x, In x (t_seq (tob h t)) -> s_start (sob h x) <> None) ->
  t_seq (tob h t) <> [] ->
  exists i x a, nearest_point_index t z h = Ok i h /\ nth_error (t_seq (tob h t)) i = Some x /\
    s_start (sob h x) = Some a /\
    forall j y b, nth_error (t_seq (tob h t)) j = Some y -> s_start (sob h y) = Some b ->
      Z.abs (a - z) <= Z.abs (b - z) /\ ((j < i)%nat -> Z.abs (a - z) < Z.abs (b - z)).
Proof. exact c32_nearest. Qed.
Print Assumptions C32_nearest.
Example C32_nearest_case : let E : Env := demo_env in
  (forall x, In x (t_seq (tob ex_grid 2)) -> s_start (sob ex_grid x) <> None) /\
  t_seq (tob ex_grid 2) <> [] /\ nearest_point_index 2 30 ex_grid = Ok 1%nat ex_grid.
Proof. cbv zeta. split; [intros x Hx; members; finish|]. split; [discriminate|vm_compute; reflexivity]. Qed.
(** C32: no nearest point on an empty tier. *)
Theorem C32_empty `{Env} : forall h t z, t_seq (tob h t) = [] -> nearest_point_index t z h = Raise ValueError h.
Proof. exact c32_empty. Qed.
Print Assumptions C32_empty.
Example C32_empty_case : t_seq (tob (run (mod_tier 2 (set_t_seq [])) ex_grid) 2) = [].
Proof. reflexivity. Qed.

(** C34: distances to the neighbours. *)
Theorem C34_distance `{Env} : forall h p a, s_start (sob h p) = Some a ->
  (forall q b, s_fol (sob h p) = Some q -> s_start (sob h q) = Some b -> b <> 0 ->
     fol_distance p h = Ok (Some (b - a)) h) /\
  (forall q b, s_prev (sob h p) = Some q -> s_start (sob h q) = Some b -> b <> 0 ->
     prev_distance p h = Ok (Some (b - a)) h).
Proof. exact c34_distance. Qed.
Print Assumptions C34_distance.
Example C34_distance_case : s_start (sob ex_grid 30) = Some 12 /\ s_fol (sob ex_grid 30) = Some 33%nat /\
  s_start (sob ex_grid 33) = Some 35 /\ s_prev (sob ex_grid 33) = Some 30%nat.
Proof. repeat split. Qed.
(** C34: None at a boundary. *)
Theorem C34_boundary `{Env} : forall h p q,
  (s_fol (sob h p) = Some q -> s_start (sob h q) = None -> fol_distance p h = Ok None h) /\
  (s_prev (sob h p) = Some q -> s_start (sob h q) = None -> prev_distance p h = Ok None h).
Proof. exact c34_boundary. Qed.
Print Assumptions C34_boundary.
Example C34_boundary_case : exists q, s_fol (sob ex_grid 33) = Some q /\ s_start (sob ex_grid q) = None.
Proof. eexists. split; vm_compute; reflexivity. Qed.
(** C34: and also None, wrongly, if the neighbour is at time 0. *)
Theorem C34_zero `{Env} : forall h p q,
  (s_fol (sob h p) = Some q -> s_start (sob h q) = Some 0 -> fol_distance p h = Ok None h) /\
  (s_prev (sob h p) = Some q -> s_start (sob h q) = Some 0 -> prev_distance p h = Ok None h).
Proof. exact c34_zero. Qed.
Print Assumptions C34_zero.
Example C34_zero_case : let h := run (mod_seq 30 (set_s_start (Some 0))) ex_grid in
  s_prev (sob h 33) = Some 30%nat /\ s_start (sob h 30) = Some 0 /\ s_start (sob h 33) = Some 35.
Proof. repeat split. Qed.
(** C34: distance from a point to another point or to an interval. *)
Theorem C34_from `{Env} : forall h p e a b, s_start (sob h p) = Some a -> s_start (sob h e) = Some b ->
  (is_point h e = true -> distance_from p e h = Ok [a - b] h) /\
  (is_point h e = false -> forall c, s_end (sob h e) = Some c -> distance_from p e h = Ok [a - b; a - c] h).
Proof. exact c34_from. Qed.
Print Assumptions C34_from.
Example C34_from_case : s_start (sob ex_grid 33) = Some 35 /\ s_start (sob ex_grid 16) = Some 30 /\
  s_end (sob ex_grid 16) = Some 50 /\ is_point ex_grid 16 = false /\ is_point ex_grid 38 = true.
Proof. vm_compute. repeat split. Qed.

(** C41: get_tierwise inside the tier, beyond its right end, and wrapping
    around its left end. *)
Theorem C41_tierwise `{Env} : forall h x t i k, s_intier (sob h x) = Some t -> NoDup (t_seq (tob h t)) ->
  nth_error (t_seq (tob h t)) i = Some x ->
  let n := Z.of_nat (List.length (t_seq (tob h t))) in
  let j := Z.of_nat i + k in
  (0 <= j < n -> exists y, get_tierwise x k h = Ok (Some y) h /\ nth_error (t_seq (tob h t)) (Z.to_nat j) = Some y) /\
  (n <= j \/ j < - n -> get_tierwise x k h = Raise IndexError h) /\
  (- n <= j < 0 -> exists y, get_tierwise x k h = Ok (Some y) h /\ nth_error (t_seq (tob h t)) (Z.to_nat (n + j)) = Some y).
Proof. exact c41_tierwise. Qed.
Print Assumptions C41_tierwise.
Example C41_tierwise_case : let E : Env := demo_env in
  s_intier (sob ex_grid 13) = Some 1%nat /\ NoDup (t_seq (tob ex_grid 1)) /\
  nth_error (t_seq (tob ex_grid 1)) 1 = Some 13%nat /\
  get_tierwise 13 2 ex_grid = Ok (Some 19%nat) ex_grid /\ get_tierwise 13 (-2) ex_grid = Ok (Some 19%nat) ex_grid.
Proof. cbv zeta. split; [reflexivity|]. split; [apply nodup_by; reflexivity|]. vm_compute. repeat split. Qed.
(** C41: get_tierwise(0) is the entry itself. *)
Theorem C41_self `{Env} : forall h x t, s_intier (sob h x) = Some t -> NoDup (t_seq (tob h t)) ->
  In x (t_seq (tob h t)) -> get_tierwise x 0 h = Ok (Some x) h.
Proof. exact c41_self. Qed.
Print Assumptions C41_self.
Example C41_self_case : s_intier (sob ex_grid 16) = Some 1%nat /\ NoDup (t_seq (tob ex_grid 1)) /\
  In 16%nat (t_seq (tob ex_grid 1)).
Proof. split; [reflexivity|]. split; [apply nodup_by; reflexivity|vm_compute; tauto]. Qed.
