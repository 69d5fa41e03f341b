(** * Properties C77: levelling groups with gaps, and reading a text grid whose
    rows have gaps and differ in extent.
    Theorems only; proofs in WidenFinal.v; the examples are from DemoWiden.v. *)
From Verif Require Import WidenSpec WidenFinal DemoWiden.
Open Scope Z_scope.

(** C77: cleaning up a grid whose groups do not start and end together first fills
    the gaps of each group, and then gives each tier its blank intervals before and
    after; nothing else changes. *)
Theorem C77_levelled `{Env} : forall n h a lo hi s0 s1 e0 e1,
  let gs := a_groups (aob h a) in
  (forall g, In g gs -> fill_ready (S n) h (lo g) (hi g) g) -> apart_groups h gs ->
  least (fun z => exists g, In g gs /\ lo g = z) s0 -> greatest (fun z => exists g, In g gs /\ lo g = z) s1 ->
  least (fun z => exists g, In g gs /\ hi g = z) e0 -> greatest (fun z => exists g, In g gs /\ hi g = z) e1 ->
  ~ (near s0 s1 /\ near e0 e1) ->
  exists h1 h', grid_cleanup (S n) a h = Ok tt h' /\
    (forall g, In g gs -> tidied h h1 g) /\ rest_kept h h1 gs (flat_map (tiers_in h) gs) /\
    (forall g u, In g gs -> In u (g_tiers (gob h g)) -> levelled s0 s1 e1 (lo g) (hi g) h1 h' u) /\
    level_rest h1 h' gs (flat_map (tiers_in h) gs).
Proof. exact c77_levelled. Qed.
Print Assumptions C77_levelled.
Example C77_levelled_case : let E : Env := demo_env in
  (forall g, In g (a_groups (aob ex_uneven 0)) -> fill_ready 50 ex_uneven 10 (widen_hi g) g) /\
  apart_groups ex_uneven (a_groups (aob ex_uneven 0)) /\
  least (fun z => exists g, In g (a_groups (aob ex_uneven 0)) /\ 10 = z) 10 /\
  greatest (fun z => exists g, In g (a_groups (aob ex_uneven 0)) /\ 10 = z) 10 /\
  least (fun z => exists g, In g (a_groups (aob ex_uneven 0)) /\ widen_hi g = z) 60 /\
  greatest (fun z => exists g, In g (a_groups (aob ex_uneven 0)) /\ widen_hi g = z) 70 /\ ~ (near 10 10 /\ near 60 70) /\
  firstn 6 (map t_seq (h_tier ex_uneven)) = [[0; 3; 6]; [13; 16; 19; 22]; [29; 32; 35; 38; 41; 44]; [65; 68]; [75]; [82]]%nat /\
  exists h', grid_cleanup 50 0 ex_uneven = Ok tt h' /\
    firstn 6 (map t_seq (h_tier h')) =
      [[0; 98; 3; 6; 155]; [13; 16; 101; 19; 22; 158]; [29; 32; 35; 104; 38; 41; 44; 161]; [65; 68; 176]; [75; 173]; [82; 170]]%nat.
Proof.
  cbv zeta. split; [exact widen_all|]. split; [exact widen_apart|]. destruct widen_bounds as (A & B & C & D). split; [exact A|]. split; [exact B|]. split; [exact C|]. split; [exact D|].
  split; [exact widen_uneven|]. split; [vm_compute; reflexivity|]. eexists. split; [vm_compute; reflexivity|]. vm_compute. reflexivity.
Qed.
(** C77: all groups then start with the first of them, and end with the last,
    unless their end is near the last start. *)
Theorem C77_ends `{Env} : forall n h a lo hi s0 s1 e0 e1,
  let gs := a_groups (aob h a) in
  (forall g, In g gs -> fill_ready (S n) h (lo g) (hi g) g) -> apart_groups h gs ->
  least (fun z => exists g, In g gs /\ lo g = z) s0 -> greatest (fun z => exists g, In g gs /\ lo g = z) s1 ->
  least (fun z => exists g, In g gs /\ hi g = z) e0 -> greatest (fun z => exists g, In g gs /\ hi g = z) e1 ->
  ~ (near s0 s1 /\ near e0 e1) ->
  exists h', grid_cleanup (S n) a h = Ok tt h' /\ forall g, In g gs -> exists z w,
    grp_xmin g h' = Ok (Some z) h' /\ (z = s0 \/ near (lo g) s0 /\ z = lo g) /\ grp_xmax g h' = Ok (Some w) h' /\ (w = e1 \/ near (hi g) s1 /\ w = hi g).
Proof. exact c77_ends. Qed.
Print Assumptions C77_ends.
Example C77_ends_case : let E : Env := demo_env in
  exists h', grid_cleanup 50 0 ex_uneven = Ok tt h' /\ grp_xmax 0 ex_uneven = Ok (Some 70) ex_uneven /\ grp_xmax 1 ex_uneven = Ok (Some 60) ex_uneven /\
    grp_xmin 0 h' = Ok (Some 10) h' /\ grp_xmin 1 h' = Ok (Some 10) h' /\ grp_xmax 0 h' = Ok (Some 70) h' /\ grp_xmax 1 h' = Ok (Some 70) h'.
Proof. cbv zeta. eexists. split; [vm_compute; reflexivity|]. repeat split; vm_compute; reflexivity. Qed.
(** C77: reading a text grid with such rows: those with a gap that is not within
    the tolerance have the gaps of all their tiers filled, and then all are levelled. *)
Theorem C77_read `{Env} : forall (n : nat) (h : heap) (rows : list (list rawtier)) (css : list (list cid)) (rest : list rawtier) (lo hi : list rawtier -> Z) (s0 s1 e0 e1 : Z),
  class_table h -> Forall2 (fun row ocs => nesting h (lo row) (hi row) row ocs) rows css -> names_apart h (concat css) -> (forall row, In row rows -> gapless row \/ 0 < lo row /\ (List.length row <= S n)%nat) ->
  least (fun z => exists row, In row rows /\ lo row = z) s0 -> greatest (fun z => exists row, In row rows /\ lo row = z) s1 ->
  least (fun z => exists row, In row rows /\ hi row = z) e0 -> greatest (fun z => exists row, In row rows /\ hi row = z) e1 ->
  ~ (near s0 s1 /\ near e0 e1) ->
  exists f a h', new_grid_textgrid (S n) (concat rows ++ rest) (Nested css) h = Ok a h' /\
    Forall2 (fun rc => remade_group s0 s1 e1 (lo (fst rc)) (hi (fst rc)) f h h' rc) (combine rows css) (a_groups (aob h' a)) /\
    (forall g, In g (a_groups (aob h' a)) -> g_within (gob h' g) = Some (WGrid a) /\ exists nm, g_name (gob h' g) = Some nm /\ nm <> EmptyString) /\
    (forall c, In c (concat css) -> clone_of h h' c (f c)) /\ all_kept h h'.
Proof. exact c77_read. Qed.
Print Assumptions C77_read.
Example C77_read_case : let E : Env := demo_env in
  class_table boot_heap /\ Forall2 (fun row ocs => nesting boot_heap (uneven_lo row) (uneven_hi row) row ocs) widen_rows uneven_classes /\
  names_apart boot_heap (concat uneven_classes) /\ (forall row, In row widen_rows -> gapless row \/ 0 < uneven_lo row /\ (List.length row <= 50)%nat) /\
  least (fun z => exists row, In row widen_rows /\ uneven_lo row = z) 10 /\ greatest (fun z => exists row, In row widen_rows /\ uneven_lo row = z) 25 /\
  least (fun z => exists row, In row widen_rows /\ uneven_hi row = z) 60 /\ greatest (fun z => exists row, In row widen_rows /\ uneven_hi row = z) 90 /\
  ~ (near 10 25 /\ near 60 90) /\ raw_gap (rt_entries (ex_gwords 10)) /\
  exists h', new_grid_textgrid 50 (concat widen_rows) (Nested uneven_classes) boot_heap = Ok 0%nat h' /\ a_groups (aob h' 0) = [0; 1]%nat /\
    map (fun g => map (fun t => t_name (tob h' t)) (g_tiers (gob h' g))) [0; 1]%nat = [["words"; "phones"]; ["words2"; "phones2"]]%string.
Proof.
  cbv zeta. split; [exact boot_table|]. split; [exact widen_nesting|]. split; [apply apart_boot; intros c; simpl; tauto|]. split; [exact widen_room|].
  destruct widen_bounds_rows as (A & B & C & D). split; [exact A|]. split; [exact B|]. split; [exact C|]. split; [exact D|]. split; [exact uneven_apart|]. split; [exact (ex_gap 10)|].
  eexists. split; [vm_compute; reflexivity|]. repeat split.
Qed.
(** C77: reading and writing. *)
Theorem C77_round `{Env} : forall (n : nat) (h : heap) (rows : list (list rawtier)) (css : list (list cid)) (rest : list rawtier) (lo hi : list rawtier -> Z) (s0 s1 e0 e1 : Z),
  class_table h -> Forall2 (fun row ocs => nesting h (lo row) (hi row) row ocs) rows css -> names_apart h (concat css) -> (forall row, In row rows -> gapless row \/ 0 < lo row /\ (List.length row <= S n)%nat) ->
  least (fun z => exists row, In row rows /\ lo row = z) s0 -> greatest (fun z => exists row, In row rows /\ lo row = z) s1 ->
  least (fun z => exists row, In row rows /\ hi row = z) e0 -> greatest (fun z => exists row, In row rows /\ hi row = z) e1 ->
  ~ (near s0 s1 /\ near e0 e1) -> NoDup (map rt_name (concat rows)) ->
  exists a h' outs, new_grid_textgrid (S n) (concat rows ++ rest) (Nested css) h = Ok a h' /\
    Forall2 (fun rc => wrote_row_remade s0 s1 e1 (lo (fst rc)) (hi (fst rc)) h rc) (combine rows css) outs /\
    Permutation (concat (map fst outs)) (concat rows) /\ return_textgrid h' a = concat (map snd outs).
Proof. exact c77_round. Qed.
Print Assumptions C77_round.
Example C77_round_case : let E : Env := demo_env in
  NoDup (map rt_name (concat widen_rows)) /\
  exists h', new_grid_textgrid 50 (concat widen_rows) (Nested uneven_classes) boot_heap = Ok 0%nat h' /\
    return_textgrid h' 0 =
      [("words", [(false, Some 10, Some 20, "ab"); (false, Some 20, Some 40, ""); (false, Some 40, Some 60, "cd"); (false, Some 60, Some 90, "")]);
       ("phones", [(false, Some 10, Some 15, "a"); (false, Some 15, Some 20, "b"); (false, Some 20, Some 40, ""); (false, Some 40, Some 50, "c"); (false, Some 50, Some 60, "d"); (false, Some 60, Some 90, "")]);
       ("words2", [(false, Some 10, Some 25, ""); (false, Some 25, Some 40, "ef"); (false, Some 40, Some 90, "g"); (false, Some 90, Some 90, "")]);
       ("phones2", [(false, Some 10, Some 25, ""); (false, Some 25, Some 30, "e"); (false, Some 30, Some 40, "f"); (false, Some 40, Some 90, "g"); (false, Some 90, Some 90, "")])]%string.
Proof.
  cbv zeta. split; [apply NoDup_ListNoDup; repeat (constructor; [simpl; intuition discriminate|]); constructor|].
  eexists. split; [vm_compute; reflexivity|]. vm_compute. reflexivity.
Qed.
