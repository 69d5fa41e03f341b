(** * Properties C75: levelling the groups of a grid.
    Theorems only; proofs in LevelFinal.v; the example is from DemoLevel.v. *)
From Verif Require Import LevelSpec LevelFinal DemoLevel.
Open Scope Z_scope.

(** C75: if the groups of a grid do not start and end together, cleaning up gives
    each tier of each group a blank interval from the first start of all groups to
    its own, and one from its end to the last end of all groups, unless its end is
    near the last start; nothing else changes. *)
Theorem C75_levelled `{Env} : forall n h a lo hi s0 s1 e0 e1,
  let gs := a_groups (aob h a) in
  (forall g, In g gs -> level_ready (S n) h (lo g) (hi g) g) -> apart_groups h gs ->
  least (fun z => exists g, In g gs /\ lo g = z) s0 -> greatest (fun z => exists g, In g gs /\ lo g = z) s1 ->
  least (fun z => exists g, In g gs /\ hi g = z) e0 -> greatest (fun z => exists g, In g gs /\ hi g = z) e1 ->
  ~ (near s0 s1 /\ near e0 e1) ->
  exists h', grid_cleanup (S n) a h = Ok tt h' /\
    (forall g u, In g gs -> In u (g_tiers (gob h g)) -> levelled s0 s1 e1 (lo g) (hi g) h h' u) /\
    level_rest h h' gs (flat_map (tiers_in h) gs).
Proof. exact c75_levelled. Qed.
Print Assumptions C75_levelled.
Example C75_levelled_case : let E : Env := demo_env in
  (forall g, In g (a_groups (aob ex_level 0)) -> level_ready 50 ex_level (level_lo g) (level_hi g) g) /\
  apart_groups ex_level (a_groups (aob ex_level 0)) /\
  least (fun z => exists g, In g (a_groups (aob ex_level 0)) /\ level_lo g = z) 10 /\
  greatest (fun z => exists g, In g (a_groups (aob ex_level 0)) /\ level_lo g = z) 20 /\
  least (fun z => exists g, In g (a_groups (aob ex_level 0)) /\ level_hi g = z) 40 /\
  greatest (fun z => exists g, In g (a_groups (aob ex_level 0)) /\ level_hi g = z) 70 /\ ~ (near 10 20 /\ near 40 70) /\
  map t_seq (h_tier ex_level) = [[0; 3]; [10]; [17]; [28; 31; 34]; [41; 44]; [51; 54]]%nat /\
  exists h', grid_cleanup 50 0 ex_level = Ok tt h' /\
    map t_seq (h_tier h') = [[0; 3; 90]; [10; 87]; [17; 84]; [75; 28; 31; 34; 105]; [72; 41; 44; 102]; [69; 51; 54; 99]]%nat /\
    blank_at h' 13 90 40 70 /\ blank_at h' 13 75 10 20 /\ blank_at h' 13 105 70 70.
Proof.
  cbv zeta. split; [exact level_all|]. split; [exact level_apart|]. destruct level_bounds as (A & B & C & D). split; [exact A|]. split; [exact B|]. split; [exact C|]. split; [exact D|].
  split; [exact level_uneven|]. split; [vm_compute; reflexivity|]. eexists. split; [vm_compute; reflexivity|]. split; [vm_compute; reflexivity|].
  split; [|split]; vm_compute; auto 10.
Qed.
(** C75: all groups then start with the first of them, and end with the last,
    unless their end is near the last start. *)
Theorem C75_ends `{Env} : forall n h a lo hi s0 s1 e0 e1,
  let gs := a_groups (aob h a) in
  (forall g, In g gs -> level_ready (S n) h (lo g) (hi g) g) -> apart_groups h gs ->
  least (fun z => exists g, In g gs /\ lo g = z) s0 -> greatest (fun z => exists g, In g gs /\ lo g = z) s1 ->
  least (fun z => exists g, In g gs /\ hi g = z) e0 -> greatest (fun z => exists g, In g gs /\ hi g = z) e1 ->
  ~ (near s0 s1 /\ near e0 e1) ->
  exists h', grid_cleanup (S n) a h = Ok tt h' /\ forall g, In g gs -> exists z w,
    grp_xmin g h' = Ok (Some z) h' /\ (z = s0 \/ near (lo g) s0 /\ z = lo g) /\ grp_xmax g h' = Ok (Some w) h' /\ (w = e1 \/ near (hi g) s1 /\ w = hi g).
Proof. exact c75_ends. Qed.
Print Assumptions C75_ends.
Example C75_ends_case : let E : Env := demo_env in
  exists h', grid_cleanup 50 0 ex_level = Ok tt h' /\ grp_xmin 0 ex_level = Ok (Some 10) ex_level /\ grp_xmin 1 ex_level = Ok (Some 20) ex_level /\
    grp_xmax 0 ex_level = Ok (Some 40) ex_level /\ grp_xmax 1 ex_level = Ok (Some 70) ex_level /\
    grp_xmin 0 h' = Ok (Some 10) h' /\ grp_xmin 1 h' = Ok (Some 10) h' /\ grp_xmax 0 h' = Ok (Some 70) h' /\ grp_xmax 1 h' = Ok (Some 70) h'.
Proof. cbv zeta. eexists. split; [vm_compute; reflexivity|]. repeat split; vm_compute; reflexivity. Qed.
