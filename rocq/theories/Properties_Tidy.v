(** * Properties C64: cleaning up a grid.
    Theorems only; proofs in TidyFinal.v and DemoTidy.v. *)
From Verif Require Import TidySpec TidyFinal DemoTidy.
Open Scope Z_scope.

(** C64: cleaning up a grid whose interval groups start and end together fills
    the gaps of each of them and changes nothing else. *)
Theorem C64_tidied `{Env} : forall n h a lo hi,
  (forall g, In g (a_groups (aob h a)) -> g_points (gob h g) = true \/ tidy_ready n h lo hi g) ->
  apart_groups h (interval_groups h a) -> interval_groups h a <> [] ->
  exists h', grid_cleanup n a h = Ok tt h' /\ (forall g, In g (interval_groups h a) -> tidied h h' g) /\
    apart_groups h' (interval_groups h a) /\ rest_kept h h' (interval_groups h a) (flat_map (tiers_in h) (interval_groups h a)).
Proof. exact c64_tidied. Qed.
Print Assumptions C64_tidied.
Example C64_tidied_case : let E : Env := demo_env in
  (forall g, In g (a_groups (aob ex_tidy 0)) -> g_points (gob ex_tidy g) = true \/ tidy_ready 50 ex_tidy 10 70 g) /\
  apart_groups ex_tidy (interval_groups ex_tidy 0) /\ interval_groups ex_tidy 0 = [0; 1]%nat /\
  exists h', grid_cleanup 50 0 ex_tidy = Ok tt h' /\ t_seq (tob h' 0) = [0; 98; 3; 6]%nat /\ t_seq (tob h' 5) = [82]%nat.
Proof.
  cbv zeta. split; [exact tidy_all|]. split; [exact tidy_apart|]. split; [reflexivity|]. eexists. split; [vm_compute; reflexivity|]. split; vm_compute; reflexivity.
Qed.
(** C64: not so if they do not end together. *)
Theorem C64_ends_refuted : let E : Env := demo_env in
  exists n h a h' t x u y, (forall g, In g (a_groups (aob h a)) -> exists hi, tidy_ready n h 10 hi g) /\ apart_groups h (interval_groups h a) /\
    grid_cleanup n a h = Ok tt h' /\ In x (t_seq (tob h' t)) /\ s_start (sob h' x) = s_end (sob h' x) /\
    In y (t_seq (tob h' u)) /\ t_ec (tob h' u) = 13%nat /\ s_super (sob h' y) = None.
Proof. exact c64_ends_refuted. Qed.
Print Assumptions C64_ends_refuted.
(** C64: nor if there is a group of points as well. *)
Theorem C64_points_refuted : let E : Env := demo_env in
  exists n h a h', (forall g, In g (a_groups (aob h a)) -> g_points (gob h g) = true \/ exists hi, tidy_ready n h 10 hi g) /\
    apart_groups h (interval_groups h a) /\ grid_cleanup n a h = Raise ValueError h'.
Proof. exact c64_points_refuted. Qed.
Print Assumptions C64_points_refuted.
