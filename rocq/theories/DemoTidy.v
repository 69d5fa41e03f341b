(** * DemoTidy: grids to clean up, for the examples. *)
From Verif Require Export DemoClean TidySpec.
From Verif Require Import TidyFinal.
Open Scope Z_scope.

(** Grid 0 has the groups 0 (tiers 0, 1, 2 with gaps, from 10 to 70), 1 (tiers 5,
    4, 3 without gaps, from 10 to [z]) and, if [pts], 2 (a tier of points). *)
Definition ex_tidy_to (z : Z) (pts : bool) : heap :=
  let E : Env := demo_env in
  run (p <- new_itier (FromList [ERaw (Some 10) (Some 25) "x"; ERaw (Some 25) (Some z) "y"]) (Some 13%nat) ;;
       s <- new_itier (FromList [ERaw (Some 10) (Some z) "4"]) (Some 12%nat) ;;
       w <- new_itier (FromList [ERaw (Some 10) (Some z) "xy"]) (Some 11%nat) ;;
       g <- new_tg 50 [p; s; w] ;;
       q <- new_ptier (FromList [ERaw (Some 15) None "H"]) None ;;
       k <- new_pg [q] ;;
       modify (fun h => Heap (h_cls h) (h_seq h) (h_tier h) (h_grp h) [GridObj [] []]) ;;;
       set_tier_groups 0 (if pts then [0; g; k] else [0; g])%nat) ex_clean.
Definition ex_tidy : heap := Eval vm_compute in ex_tidy_to 70 true.
Definition ex_uneven : heap := Eval vm_compute in ex_tidy_to 60 false.
Definition ex_uneven_points : heap := Eval vm_compute in ex_tidy_to 60 true.
Definition tidy_blocks2 : list (list (list nat)) := [[[75]]; [[65; 68]]]%nat.
Ltac ranged := do 2 eexists; split; [reflexivity|]; split; [reflexivity|]; split; reflexivity.
Ltac tidy_group bs :=
  split; [exists bs; all_good|];
  eexists; split; [reflexivity|]; split; [split; reflexivity|]; split; [ranged|]; intros _;
  split; [intros t Ht; members; (split; [vm_compute; lia|]); (split; [reflexivity|]); (split; [reflexivity|]); (split; [left; reflexivity|]); (split; [discriminate|]);
    (split; [apply in_turn_by; reflexivity|]);
    intros x Hx; members; (split; [vm_compute; lia|]; split; [reflexivity|]; eexists; eexists; split; [reflexivity|]; split; [reflexivity|lia])|vm_compute; lia].
Lemma tidy_ready0 : @tidy_ready demo_env 50 ex_tidy 10 70 0.
Proof. unfold tidy_ready. change (g_tiers (gob ex_tidy 0)) with [0; 1; 2]%nat. tidy_group clean_blocks. Qed.
Lemma tidy_ready1 : @tidy_ready demo_env 50 ex_tidy 10 70 1.
Proof. unfold tidy_ready. change (g_tiers (gob ex_tidy 1)) with [5; 4; 3]%nat. tidy_group tidy_blocks2. Qed.
Lemma tidy_all g : In g (a_groups (aob ex_tidy 0)) -> g_points (gob ex_tidy g) = true \/ @tidy_ready demo_env 50 ex_tidy 10 70 g.
Proof. change (a_groups (aob ex_tidy 0)) with [0; 1; 2]%nat. intros [<-|[<-|[<-|[]]]]; [right; exact tidy_ready0|right; exact tidy_ready1|left; reflexivity]. Qed.
Lemma tidy_apart : apart_groups ex_tidy (interval_groups ex_tidy 0).
Proof. change (interval_groups ex_tidy 0) with [0; 1]%nat. repeat split; apply nodup_by; vm_compute; reflexivity. Qed.
Lemma uneven_ready0 : @tidy_ready demo_env 50 ex_uneven 10 70 0.
Proof. unfold tidy_ready. change (g_tiers (gob ex_uneven 0)) with [0; 1; 2]%nat. tidy_group clean_blocks. Qed.
Lemma uneven_ready1 : @tidy_ready demo_env 50 ex_uneven 10 60 1.
Proof. unfold tidy_ready. change (g_tiers (gob ex_uneven 1)) with [5; 4; 3]%nat. tidy_group tidy_blocks2. Qed.
Lemma points_ready0 : @tidy_ready demo_env 50 ex_uneven_points 10 70 0.
Proof. unfold tidy_ready. change (g_tiers (gob ex_uneven_points 0)) with [0; 1; 2]%nat. tidy_group clean_blocks. Qed.
Lemma points_ready1 : @tidy_ready demo_env 50 ex_uneven_points 10 60 1.
Proof. unfold tidy_ready. change (g_tiers (gob ex_uneven_points 1)) with [5; 4; 3]%nat. tidy_group tidy_blocks2. Qed.

(** If the groups do not end together, the longest gets an interval that ends
    where it starts; the new interval of a lower tier in the other has no parent. *)
Lemma c64_ends_refuted : let E : Env := demo_env in
  exists n h a h' t x u y, (forall g, In g (a_groups (aob h a)) -> exists hi, tidy_ready n h 10 hi g) /\ apart_groups h (interval_groups h a) /\
    grid_cleanup n a h = Ok tt h' /\ In x (t_seq (tob h' t)) /\ s_start (sob h' x) = s_end (sob h' x) /\
    In y (t_seq (tob h' u)) /\ t_ec (tob h' u) = 13%nat /\ s_super (sob h' y) = None.
Proof.
  cbv zeta. exists 50%nat, ex_uneven, 0%nat, (run (@grid_cleanup demo_env 50 0) ex_uneven), 0%nat, 155%nat, 3%nat, 176%nat. split.
  { change (a_groups (aob ex_uneven 0)) with [0; 1]%nat. intros g [<-|[<-|[]]]; [exists 70; exact uneven_ready0|exists 60; exact uneven_ready1]. }
  split. { change (interval_groups ex_uneven 0) with [0; 1]%nat. repeat split; apply nodup_by; vm_compute; reflexivity. }
  split; [vm_compute; reflexivity|]. split; [vm_compute; tauto|]. split; [vm_compute; reflexivity|]. split; [vm_compute; tauto|]. split; vm_compute; reflexivity.
Qed.
(** If there is a group of points as well, there is an error. *)
Lemma c64_points_refuted : let E : Env := demo_env in
  exists n h a h', (forall g, In g (a_groups (aob h a)) -> g_points (gob h g) = true \/ exists hi, tidy_ready n h 10 hi g) /\
    apart_groups h (interval_groups h a) /\ grid_cleanup n a h = Raise ValueError h'.
Proof.
  cbv zeta. exists 50%nat, ex_uneven_points, 0%nat. eexists. split.
  { change (a_groups (aob ex_uneven_points 0)) with [0; 1; 2]%nat. intros g [<-|[<-|[<-|[]]]]; [right; exists 70; exact points_ready0|right; exists 60; exact points_ready1|left; reflexivity]. }
  split. { change (interval_groups ex_uneven_points 0) with [0; 1]%nat. repeat split; apply nodup_by; vm_compute; reflexivity. }
  vm_compute. reflexivity.
Qed.
