(** * Properties C43, C44: looking up a time.
    Theorems only; proofs in LookupFinal.v. *)
From Verif Require Import LookupFinal DemoGrid.
Open Scope Z_scope.

(** C43: the position of the interval around a point. *)
Theorem C43_index `{Env} : forall h p t z, s_start (sob h p) = Some z -> timed_tier h t -> one_at h t z ->
  exists r, pt_interval_index p t h = Ok r h /\
    (forall i, r = Some i <-> exists x, nth_error (t_seq (tob h t)) i = Some x /\ holds_at h x z) /\
    (r = None <-> forall x, In x (t_seq (tob h t)) -> ~ holds_at h x z).
Proof. exact c43_index. Qed.
Print Assumptions C43_index.
Example C43_index_case : let E : Env := demo_env in
  s_start (sob ex_grid 33) = Some 35 /\ timed_tier ex_grid 1 /\ pt_interval_index 33 1 ex_grid = Ok (Some 2%nat) ex_grid.
Proof. cbv zeta. split; [reflexivity|]. split; [apply ex_timed; lia|vm_compute; reflexivity]. Qed.
(** C43: the interval itself. *)
Theorem C43_interval `{Env} : forall h p t z x, s_start (sob h p) = Some z -> timed_tier h t -> one_at h t z ->
  In x (t_seq (tob h t)) -> holds_at h x z -> pt_interval p t h = Ok (Some x) h.
Proof. exact c43_interval. Qed.
Print Assumptions C43_interval.
Example C43_interval_case :
  s_start (sob ex_grid 33) = Some 35 /\ timed_tier ex_grid 1 /\ one_at ex_grid 1 35 /\ In 16%nat (t_seq (tob ex_grid 1)) /\
  holds_at ex_grid 16 35.
Proof.
  split; [reflexivity|]. split; [apply ex_timed; lia|]. split.
  - intros i j x y Hx Hy (a & b & A & B & C) (a' & b' & A' & B' & C').
    destruct i as [|[|[|[|i]]]]; try (destruct i; discriminate Hx);
    destruct j as [|[|[|[|j]]]]; try (destruct j; discriminate Hy); auto; exfalso;
    injection Hx as <-; injection Hy as <-; vm_compute in A, B, A', B';
    injection A as <-; injection B as <-; injection A' as <-; injection B' as <-; lia.
  - split; [vm_compute; auto|finish].
Qed.
(** C43: no interval around the point: None on an empty tier, TypeError otherwise. *)
Theorem C43_none `{Env} : forall h p t z, s_start (sob h p) = Some z -> timed_tier h t ->
  (forall x, In x (t_seq (tob h t)) -> ~ holds_at h x z) ->
  (t_seq (tob h t) = [] -> pt_interval p t h = Ok None h) /\
  (t_seq (tob h t) <> [] -> pt_interval p t h = Raise TypeError h).
Proof. exact c43_none. Qed.
Print Assumptions C43_none.
Example C43_none_case : let E : Env := demo_env in let h := run (mod_seq 33 (set_s_start (Some 70))) ex_grid in
  s_start (sob h 33) = Some 70 /\ timed_tier h 1 /\ (forall x, In x (t_seq (tob h 1)) -> ~ holds_at h x 70) /\
  t_seq (tob h 1) <> [] /\ pt_interval_index 33 1 h = Ok None h.
Proof.
  cbv zeta. split; [reflexivity|]. split; [intros x Hx; members; finish|]. split.
  - intros x Hx (a & b & A & B & C). members; vm_compute in A, B; injection A as <-; injection B as <-; lia.
  - split; [vm_compute; discriminate|vm_compute; reflexivity].
Qed.
(** C43: two intervals around the point. *)
Theorem C43_many `{Env} : forall h p t z i j x y, s_start (sob h p) = Some z -> timed_tier h t -> i <> j ->
  nth_error (t_seq (tob h t)) i = Some x -> nth_error (t_seq (tob h t)) j = Some y ->
  holds_at h x z -> holds_at h y z ->
  pt_interval_index p t h = Raise TypeError h /\ pt_interval p t h = Raise TypeError h.
Proof. exact c43_many. Qed.
Print Assumptions C43_many.
Example C43_many_case : let h := run (mod_seq 13 (set_s_end (Some 45))) ex_grid in
  s_start (sob h 33) = Some 35 /\ timed_tier h 1 /\ holds_at h 13 35 /\ holds_at h 16 35 /\
  nth_error (t_seq (tob h 1)) 1 = Some 13%nat /\ nth_error (t_seq (tob h 1)) 2 = Some 16%nat.
Proof.
  cbv zeta. split; [reflexivity|]. split; [intros x Hx; members; finish|].
  split; [finish|]. split; [finish|]. split; reflexivity.
Qed.

(** C44: get_intervals_at_time of a group. *)
Theorem C44_group `{Env} : forall h z g, askable h z g ->
  exists r, grp_intervals_at_time z g h = Ok r h /\ Forall2 (answer h (g_points (gob h g)) z) (g_tiers (gob h g)) r.
Proof. exact c44_group. Qed.
Print Assumptions C44_group.
Example C44_group_case : let E : Env := demo_env in
  askable ex_grid 35 1 /\ g_points (gob ex_grid 1) = true /\
  grp_intervals_at_time 35 1 ex_grid = Ok [Some 1; Some 0]%nat ex_grid.
Proof.
  cbv zeta. split; [|split; vm_compute; reflexivity]. intros t Ht. change (g_points (gob ex_grid 1)) with true.
  members; (split; [vm_compute; discriminate|intros x Hx; members; vm_compute; discriminate]).
Qed.
(** C44: ... and of a text grid. *)
Theorem C44_grid `{Env} : forall h z a, (forall g, In g (a_groups (aob h a)) -> askable h z g) ->
  exists r, grid_intervals_at_time z a h = Ok r h /\
    Forall2 (fun g => Forall2 (answer h (g_points (gob h g)) z) (g_tiers (gob h g))) (a_groups (aob h a)) r.
Proof. exact c44_grid. Qed.
Print Assumptions C44_grid.
Example C44_grid_case : let E : Env := demo_env in
  (forall g, In g (a_groups (aob ex_grid 0)) -> askable ex_grid 35 g) /\
  grid_intervals_at_time 35 0 ex_grid = Ok [[Some 1; Some 2]; [Some 1; Some 0]]%nat ex_grid.
Proof.
  cbv zeta. split; [|vm_compute; reflexivity]. intros g Hg t Ht. members.
  1-2: change (g_points (gob ex_grid 0)) with false; split; [apply ex_timed; lia|];
    intros i j x y Hx Hy (a & b & A & B & C) (a' & b' & A' & B' & C');
    destruct i as [|[|[|[|i]]]]; try (destruct i; discriminate Hx); try discriminate Hx;
    destruct j as [|[|[|[|j]]]]; try (destruct j; discriminate Hy); try discriminate Hy; auto; exfalso;
    injection Hx as <-; injection Hy as <-; vm_compute in A, B, A', B';
    injection A as <-; injection B as <-; injection A' as <-; injection B' as <-; lia.
  all: change (g_points (gob ex_grid 1)) with true; (split; [vm_compute; discriminate|intros x Hx; members; vm_compute; discriminate]).
Qed.
(** C44: one empty point tier anywhere makes the look-up fail for the whole grid. *)
Theorem C44_empty_points `{Env} : forall h z a g t, In g (a_groups (aob h a)) -> g_points (gob h g) = true ->
  In t (g_tiers (gob h g)) -> t_seq (tob h t) = [] ->
  (forall k, In k (a_groups (aob h a)) -> forall u, In u (g_tiers (gob h k)) ->
     (if g_points (gob h k) then forall x, In x (t_seq (tob h u)) -> s_start (sob h x) <> None
      else timed_tier h u /\ one_at h u z)) ->
  grid_intervals_at_time z a h = Raise ValueError h.
Proof. exact c44_empty_points. Qed.
Print Assumptions C44_empty_points.
Example C44_empty_points_case : let E : Env := demo_env in let h := run (mod_tier 3 (set_t_seq [])) ex_grid in
  In 1%nat (a_groups (aob h 0)) /\ g_points (gob h 1) = true /\ In 3%nat (g_tiers (gob h 1)) /\ t_seq (tob h 3) = [] /\
  exists h', grid_intervals_at_time 35 0 h = Raise ValueError h'.
Proof.
  cbv zeta. split; [vm_compute; auto|]. split; [reflexivity|]. split; [vm_compute; auto|]. split; [reflexivity|].
  eexists. vm_compute. reflexivity.
Qed.
