(** * Properties C79: reading a text grid with points beside rows of different extent.
    Theorems only; proofs in BesideFinal.v; the examples are from DemoBeside.v. *)
From Verif Require Import BesideSpec BesideFinal DemoBeside.
Open Scope Z_scope.

(** C79: if the point tiers of a row do not start with the first row, or the last of
    them does not start with the last, reading is an error. *)
Theorem C79_read `{Env} : forall (n : nat) (h : heap) (rows : list (list rawtier)) (css : list (list cid)) (rest : list rawtier) (lo hi : list (rawtier * cid) -> Z) (s0 s1 e0 e1 : Z),
  class_table h -> Forall2 (fun row ocs => readable h (lo (interval_part h row ocs)) (hi (interval_part h row ocs)) row ocs) rows css -> names_apart h (concat css) ->
  (forall row ocs, In (row, ocs) (combine rows css) -> gapless (map fst (interval_part h row ocs)) \/ 0 < lo (interval_part h row ocs) /\ (List.length row <= S n)%nat) ->
  least (row_value h rows css lo) s0 -> greatest (row_value h rows css lo) s1 -> least (row_value h rows css hi) e0 -> greatest (row_value h rows css hi) e1 ->
  ~ (near s0 s1 /\ near e0 e1) ->
  (forall row ocs p, In (row, ocs) (combine rows css) -> In p (point_part h row ocs) -> rt_entries (fst p) <> []) ->
  (exists row ocs p q, In (row, ocs) (combine rows css) /\ first_point (point_part h row ocs) p /\ last_first_point (point_part h row ocs) q /\ ~ (near p s0 /\ near q s1)) ->
  exists h', new_grid_textgrid (S n) (concat rows ++ rest) (Nested css) h = Raise ValueError h'.
Proof. exact c79_read. Qed.
Print Assumptions C79_read.
Example C79_read_case : let E : Env := demo_env in
  class_table boot_heap /\ Forall2 (fun row ocs => readable boot_heap (beside_lo (interval_part boot_heap row ocs)) (beside_hi (interval_part boot_heap row ocs)) row ocs) beside_rows beside_classes /\
  names_apart boot_heap (concat beside_classes) /\
  (forall row ocs, In (row, ocs) (combine beside_rows beside_classes) ->
     gapless (map fst (interval_part boot_heap row ocs)) \/ 0 < beside_lo (interval_part boot_heap row ocs) /\ (List.length row <= 50)%nat) /\
  least (row_value boot_heap beside_rows beside_classes beside_lo) 10 /\ greatest (row_value boot_heap beside_rows beside_classes beside_lo) 25 /\
  least (row_value boot_heap beside_rows beside_classes beside_hi) 60 /\ greatest (row_value boot_heap beside_rows beside_classes beside_hi) 90 /\
  ~ (near 10 25 /\ near 60 90) /\
  (forall row ocs p, In (row, ocs) (combine beside_rows beside_classes) -> In p (point_part boot_heap row ocs) -> rt_entries (fst p) <> []) /\
  In ([ex_tones], [cPoint]) (combine beside_rows beside_classes) /\ first_point (point_part boot_heap [ex_tones] [cPoint]) 44 /\
  last_first_point (point_part boot_heap [ex_tones] [cPoint]) 44 /\ ~ (near 44 10 /\ near 44 25).
Proof.
  cbv zeta. split; [exact boot_table|]. split; [exact beside_readable|]. split; [apply apart_boot; intros c; simpl; tauto|]. split; [exact beside_room|].
  destruct beside_bounds as (A & B & C & D). split; [exact A|]. split; [exact B|]. split; [exact C|]. split; [exact D|]. split; [exact uneven_apart|]. split; [exact beside_full|].
  split; [right; right; left; reflexivity|]. split; [apply tones_first|]. split; [apply tones_first|]. intros [N _]. vm_compute in N. apply N. reflexivity.
Qed.
(** C79: and if they do, the rows of intervals are levelled and the points are read. *)
Theorem C79_beside `{Env} : forall (n : nat) (h : heap) (rows : list (list rawtier)) (css : list (list cid)) (rest : list rawtier) (lo hi : list (rawtier * cid) -> Z) (s0 s1 e0 e1 : Z),
  class_table h -> Forall2 (fun row ocs => readable h (lo (interval_part h row ocs)) (hi (interval_part h row ocs)) row ocs) rows css -> names_apart h (concat css) ->
  (forall row ocs, In (row, ocs) (combine rows css) -> gapless (map fst (interval_part h row ocs)) \/ 0 < lo (interval_part h row ocs) /\ (List.length row <= S n)%nat) ->
  least (row_value h rows css lo) s0 -> greatest (row_value h rows css lo) s1 -> least (row_value h rows css hi) e0 -> greatest (row_value h rows css hi) e1 ->
  ~ (near s0 s1 /\ near e0 e1) ->
  (forall row ocs p, In (row, ocs) (combine rows css) -> In p (point_part h row ocs) -> rt_entries (fst p) <> []) ->
  (forall row ocs p q, In (row, ocs) (combine rows css) -> first_point (point_part h row ocs) p -> last_first_point (point_part h row ocs) q -> near p s0 /\ near q s1) ->
  exists f a h', new_grid_textgrid (S n) (concat rows ++ rest) (Nested css) h = Ok a h' /\
    rows_as (fun ps => remade_group s0 s1 e1 (lo ps) (hi ps) f h h' (map fst ps, map snd ps)) f h h' rows css (a_groups (aob h' a)) /\
    (forall g, In g (a_groups (aob h' a)) -> g_within (gob h' g) = Some (WGrid a) /\ exists nm, g_name (gob h' g) = Some nm /\ nm <> EmptyString) /\
    (forall c, In c (concat css) -> clone_of h h' c (f c)) /\ class_table h' /\ all_kept h h'.
Proof. exact c79_beside. Qed.
Print Assumptions C79_beside.
Example C79_beside_case : let E : Env := demo_env in
  class_table boot_heap /\ Forall2 (fun row ocs => readable boot_heap (beside_lo (interval_part boot_heap row ocs)) (beside_hi (interval_part boot_heap row ocs)) row ocs) close_rows close_classes /\
  names_apart boot_heap (concat close_classes) /\
  (forall row ocs, In (row, ocs) (combine close_rows close_classes) ->
     gapless (map fst (interval_part boot_heap row ocs)) \/ 0 < beside_lo (interval_part boot_heap row ocs) /\ (List.length row <= 50)%nat) /\
  least (row_value boot_heap close_rows close_classes beside_lo) 10 /\ greatest (row_value boot_heap close_rows close_classes beside_lo) 25 /\
  least (row_value boot_heap close_rows close_classes beside_hi) 60 /\ greatest (row_value boot_heap close_rows close_classes beside_hi) 90 /\
  ~ (near 10 25 /\ near 60 90) /\
  (forall row ocs p, In (row, ocs) (combine close_rows close_classes) -> In p (point_part boot_heap row ocs) -> rt_entries (fst p) <> []) /\
  (forall row ocs p q, In (row, ocs) (combine close_rows close_classes) -> first_point (point_part boot_heap row ocs) p -> last_first_point (point_part boot_heap row ocs) q -> near p 10 /\ near q 25) /\
  exists h', new_grid_textgrid 50 (concat close_rows) (Nested close_classes) boot_heap = Ok 0%nat h' /\ a_groups (aob h' 0) = [0; 1; 2]%nat /\
    map (fun g => map (fun t => (t_name (tob h' t), List.length (t_seq (tob h' t)))) (g_tiers (gob h' g))) [0; 1; 2]%nat =
      [[("words", 3%nat); ("phones", 5%nat)]; [("a", 2%nat); ("b", 1%nat)]; [("words2", 4%nat); ("phones2", 5%nat)]]%string.
Proof.
  cbv zeta. split; [exact boot_table|]. split; [exact close_readable|]. split; [apply apart_boot; intros c; simpl; tauto|]. split; [exact close_room|].
  destruct close_bounds as (A & B & C & D). split; [exact A|]. split; [exact B|]. split; [exact C|]. split; [exact D|]. split; [exact uneven_apart|]. split; [exact close_full|]. split; [exact close_near|].
  eexists. split; [vm_compute; reflexivity|]. split; vm_compute; reflexivity.
Qed.
(** C79: writing it gives the rows of intervals so levelled and the points. *)
Theorem C79_round `{Env} : forall (n : nat) (h : heap) (rows : list (list rawtier)) (css : list (list cid)) (rest : list rawtier) (lo hi : list (rawtier * cid) -> Z) (s0 s1 e0 e1 : Z),
  class_table h -> Forall2 (fun row ocs => readable h (lo (interval_part h row ocs)) (hi (interval_part h row ocs)) row ocs) rows css -> names_apart h (concat css) ->
  (forall row ocs, In (row, ocs) (combine rows css) -> gapless (map fst (interval_part h row ocs)) \/ 0 < lo (interval_part h row ocs) /\ (List.length row <= S n)%nat) ->
  least (row_value h rows css lo) s0 -> greatest (row_value h rows css lo) s1 -> least (row_value h rows css hi) e0 -> greatest (row_value h rows css hi) e1 ->
  ~ (near s0 s1 /\ near e0 e1) ->
  (forall row ocs p, In (row, ocs) (combine rows css) -> In p (point_part h row ocs) -> rt_entries (fst p) <> []) ->
  (forall row ocs p q, In (row, ocs) (combine rows css) -> first_point (point_part h row ocs) p -> last_first_point (point_part h row ocs) q -> near p s0 /\ near q s1) ->
  NoDup (map rt_name (concat rows)) ->
  exists a h' outs, new_grid_textgrid (S n) (concat rows ++ rest) (Nested css) h = Ok a h' /\
    Forall2 (fun rc => wrote_beside s0 s1 e1 (lo (interval_part h (fst rc) (snd rc))) (hi (interval_part h (fst rc) (snd rc))) h (fst rc) (snd rc)) (combine rows css) outs /\
    Permutation (concat (map fst outs)) (concat rows) /\ return_textgrid h' a = concat (map snd outs).
Proof. exact c79_round. Qed.
Print Assumptions C79_round.
Example C79_round_case : let E : Env := demo_env in
  class_table boot_heap /\ Forall2 (fun row ocs => readable boot_heap (beside_lo (interval_part boot_heap row ocs)) (beside_hi (interval_part boot_heap row ocs)) row ocs) close_rows close_classes /\
  names_apart boot_heap (concat close_classes) /\
  (forall row ocs, In (row, ocs) (combine close_rows close_classes) ->
     gapless (map fst (interval_part boot_heap row ocs)) \/ 0 < beside_lo (interval_part boot_heap row ocs) /\ (List.length row <= 50)%nat) /\
  least (row_value boot_heap close_rows close_classes beside_lo) 10 /\ greatest (row_value boot_heap close_rows close_classes beside_lo) 25 /\
  least (row_value boot_heap close_rows close_classes beside_hi) 60 /\ greatest (row_value boot_heap close_rows close_classes beside_hi) 90 /\
  ~ (near 10 25 /\ near 60 90) /\
  (forall row ocs p, In (row, ocs) (combine close_rows close_classes) -> In p (point_part boot_heap row ocs) -> rt_entries (fst p) <> []) /\
  (forall row ocs p q, In (row, ocs) (combine close_rows close_classes) -> first_point (point_part boot_heap row ocs) p -> last_first_point (point_part boot_heap row ocs) q -> near p 10 /\ near q 25) /\
  NoDup (map rt_name (concat close_rows)) /\
  exists h', new_grid_textgrid 50 (concat close_rows) (Nested close_classes) boot_heap = Ok 0%nat h' /\
    map fst (return_textgrid h' 0) = ["words"; "phones"; "a"; "b"; "words2"; "phones2"]%string /\
    map snd (firstn 1 (return_textgrid h' 0)) = [[(false, Some 10, Some 30, "ab"); (false, Some 30, Some 60, "cd"); (false, Some 60, Some 90, "")]]%string.
Proof.
  cbv zeta. split; [exact boot_table|]. split; [exact close_readable|]. split; [apply apart_boot; intros c; simpl; tauto|]. split; [exact close_room|].
  destruct close_bounds as (A & B & C & D). split; [exact A|]. split; [exact B|]. split; [exact C|]. split; [exact D|]. split; [exact uneven_apart|]. split; [exact close_full|]. split; [exact close_near|].
  split; [apply NoDup_ListNoDup; repeat (constructor; [vm_compute; intros Q; repeat (destruct Q as [Q|Q]; [discriminate Q|]); exact Q|]); constructor|].
  eexists. split; [vm_compute; reflexivity|]. split; vm_compute; reflexivity.
Qed.
