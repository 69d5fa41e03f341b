(** * Properties C78: groups of points beside groups of intervals of different
    extent.
    Theorems only; proofs in MixFinal.v; the examples are from DemoMix.v. *)
From Verif Require Import MixSpec MixFinal DemoMix.
Open Scope Z_scope.

(** C78: with groups of points whose [xmin] is near the first start and whose [xmax]
    is near the last start of the groups of intervals, the latter are tidied and
    levelled and nothing else changes. *)
Theorem C78_levelled `{Env} : forall n h a lo hi pm px s0 s1 e0 e1,
  let gs := interval_groups h a in
  (forall g, In g gs -> fill_ready (S n) h (lo g) (hi g) g) -> apart_groups h gs ->
  (forall g, In g (a_groups (aob h a)) -> g_points (gob h g) = true -> points_at h gs (pm g) (px g) g) ->
  least (fun z => exists g, In g gs /\ lo g = z) s0 -> greatest (fun z => exists g, In g gs /\ lo g = z) s1 ->
  least (fun z => exists g, In g gs /\ hi g = z) e0 -> greatest (fun z => exists g, In g gs /\ hi g = z) e1 ->
  ~ (near s0 s1 /\ near e0 e1) ->
  (forall g, In g (a_groups (aob h a)) -> g_points (gob h g) = true -> near (pm g) s0 /\ near (px g) s1) ->
  exists h1 h', grid_cleanup (S n) a h = Ok tt h' /\
    (forall g, In g gs -> tidied h h1 g) /\ rest_kept h h1 gs (flat_map (tiers_in h) gs) /\
    (forall g u, In g gs -> In u (g_tiers (gob h g)) -> levelled s0 s1 e1 (lo g) (hi g) h1 h' u) /\
    level_rest h1 h' gs (flat_map (tiers_in h) gs).
Proof. exact c78_levelled. Qed.
Print Assumptions C78_levelled.
Example C78_levelled_case : let E : Env := demo_env in
  (forall g, In g (interval_groups ex_mix 0) -> fill_ready 50 ex_mix 10 (widen_hi g) g) /\ apart_groups ex_mix (interval_groups ex_mix 0) /\
  (forall g, In g (a_groups (aob ex_mix 0)) -> g_points (gob ex_mix g) = true -> points_at ex_mix (interval_groups ex_mix 0) 10 10 g) /\
  least (fun z => exists g, In g (interval_groups ex_mix 0) /\ 10 = z) 10 /\
  greatest (fun z => exists g, In g (interval_groups ex_mix 0) /\ 10 = z) 10 /\
  least (fun z => exists g, In g (interval_groups ex_mix 0) /\ widen_hi g = z) 60 /\
  greatest (fun z => exists g, In g (interval_groups ex_mix 0) /\ widen_hi g = z) 70 /\ ~ (near 10 10 /\ near 60 70) /\ near 10 10 /\
  a_groups (aob ex_mix 0) = [0; 1; 2]%nat /\ map (fun g => g_points (gob ex_mix g)) [0; 1; 2]%nat = [false; false; true] /\
  exists h', grid_cleanup 50 0 ex_mix = Ok tt h' /\
    firstn 7 (map t_seq (h_tier h')) =
      [[0; 98; 3; 6; 155]; [13; 16; 101; 19; 22; 158]; [29; 32; 35; 104; 38; 41; 44; 161]; [65; 68; 176]; [75; 173]; [82; 170]; [93]]%nat.
Proof.
  cbv zeta. split; [intros g; apply mix_all; auto|]. split; [apply mix_apart; auto|]. split; [exact mix_points|].
  destruct (mix_bounds ex_mix) as (A & B & C & D); [auto|]. split; [exact A|]. split; [exact B|]. split; [exact C|]. split; [exact D|].
  split; [exact widen_uneven|]. split; [vm_compute; discriminate|]. split; [reflexivity|]. split; [reflexivity|]. eexists. split; [vm_compute; reflexivity|]. vm_compute. reflexivity.
Qed.
(** C78: the groups of intervals then start and end together, as in C77. *)
Theorem C78_ends `{Env} : forall n h a lo hi pm px s0 s1 e0 e1,
  let gs := interval_groups h a in
  (forall g, In g gs -> fill_ready (S n) h (lo g) (hi g) g) -> apart_groups h gs ->
  (forall g, In g (a_groups (aob h a)) -> g_points (gob h g) = true -> points_at h gs (pm g) (px g) g) ->
  least (fun z => exists g, In g gs /\ lo g = z) s0 -> greatest (fun z => exists g, In g gs /\ lo g = z) s1 ->
  least (fun z => exists g, In g gs /\ hi g = z) e0 -> greatest (fun z => exists g, In g gs /\ hi g = z) e1 ->
  ~ (near s0 s1 /\ near e0 e1) ->
  (forall g, In g (a_groups (aob h a)) -> g_points (gob h g) = true -> near (pm g) s0 /\ near (px g) s1) ->
  exists h', grid_cleanup (S n) a h = Ok tt h' /\ forall g, In g gs -> exists z w,
    grp_xmin g h' = Ok (Some z) h' /\ (z = s0 \/ near (lo g) s0 /\ z = lo g) /\ grp_xmax g h' = Ok (Some w) h' /\ (w = e1 \/ near (hi g) s1 /\ w = hi g).
Proof. exact c78_ends. Qed.
Print Assumptions C78_ends.
Example C78_ends_case : let E : Env := demo_env in
  exists h', grid_cleanup 50 0 ex_mix = Ok tt h' /\ grp_xmax 1 ex_mix = Ok (Some 60) ex_mix /\
    grp_xmin 0 h' = Ok (Some 10) h' /\ grp_xmin 1 h' = Ok (Some 10) h' /\ grp_xmax 0 h' = Ok (Some 70) h' /\ grp_xmax 1 h' = Ok (Some 70) h'.
Proof. cbv zeta. eexists. split; [vm_compute; reflexivity|]. repeat split; vm_compute; reflexivity. Qed.
(** C78: with any other group of points there is an error. *)
Theorem C78_error `{Env} : forall n h a lo hi pm px s0 s1 e0 e1,
  let gs := interval_groups h a in
  (forall g, In g gs -> fill_ready (S n) h (lo g) (hi g) g) -> apart_groups h gs ->
  (forall g, In g (a_groups (aob h a)) -> g_points (gob h g) = true -> points_at h gs (pm g) (px g) g) ->
  least (fun z => exists g, In g gs /\ lo g = z) s0 -> greatest (fun z => exists g, In g gs /\ lo g = z) s1 ->
  least (fun z => exists g, In g gs /\ hi g = z) e0 -> greatest (fun z => exists g, In g gs /\ hi g = z) e1 ->
  ~ (near s0 s1 /\ near e0 e1) ->
  (exists g, In g (a_groups (aob h a)) /\ g_points (gob h g) = true /\ ~ (near (pm g) s0 /\ near (px g) s1)) ->
  exists h', grid_cleanup (S n) a h = Raise ValueError h'.
Proof. exact c78_error. Qed.
Print Assumptions C78_error.
Example C78_error_case : let E : Env := demo_env in
  let h := ex_uneven_points in
  (forall g, In g (interval_groups h 0) -> fill_ready 50 h 10 (widen_hi g) g) /\ apart_groups h (interval_groups h 0) /\
  (forall g, In g (a_groups (aob h 0)) -> g_points (gob h g) = true -> points_at h (interval_groups h 0) 15 15 g) /\
  least (fun z => exists g, In g (interval_groups h 0) /\ 10 = z) 10 /\
  greatest (fun z => exists g, In g (interval_groups h 0) /\ 10 = z) 10 /\
  least (fun z => exists g, In g (interval_groups h 0) /\ widen_hi g = z) 60 /\
  greatest (fun z => exists g, In g (interval_groups h 0) /\ widen_hi g = z) 70 /\ ~ (near 10 10 /\ near 60 70) /\
  In 2%nat (a_groups (aob h 0)) /\ g_points (gob h 2) = true /\ ~ (near 15 10 /\ near 15 10).
Proof.
  cbv zeta. split; [intros g; apply mix_all; auto|]. split; [apply mix_apart; auto|]. split; [exact mix_far|].
  destruct (mix_bounds ex_uneven_points) as (A & B & C & D); [auto|]. split; [exact A|]. split; [exact B|]. split; [exact C|]. split; [exact D|].
  split; [exact widen_uneven|]. split; [right; right; left; reflexivity|]. split; [reflexivity|]. intros [N _]. vm_compute in N. apply N. reflexivity.
Qed.
