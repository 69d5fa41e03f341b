(** * Properties C76: reading a text grid whose rows differ in extent.
    Theorems only; proofs in UnevenFinal.v; the example is from DemoUneven.v. *)
From Verif Require Import UnevenSpec UnevenFinal DemoUneven.
Open Scope Z_scope.

(** C76: if the rows of a text grid do not start and end together, reading it makes
    one group of each row, each of its tiers with an empty interval before it from the
    first start of all rows, and one after it to the last end, unless its end is near the
    last start; nothing that existed changes. *)
Theorem C76_read `{Env} : forall (n : nat) (h : heap) (rows : list (list rawtier)) (css : list (list cid)) (rest : list rawtier) (lo hi : list rawtier -> Z) (s0 s1 e0 e1 : Z),
  class_table h -> Forall2 (fun row ocs => nesting h (lo row) (hi row) row ocs) rows css -> names_apart h (concat css) -> gapless (concat rows) ->
  least (fun z => exists row, In row rows /\ lo row = z) s0 -> greatest (fun z => exists row, In row rows /\ lo row = z) s1 ->
  least (fun z => exists row, In row rows /\ hi row = z) e0 -> greatest (fun z => exists row, In row rows /\ hi row = z) e1 ->
  ~ (near s0 s1 /\ near e0 e1) ->
  exists f a h', new_grid_textgrid (S n) (concat rows ++ rest) (Nested css) h = Ok a h' /\
    Forall2 (fun rc => widened_group s0 s1 e1 (lo (fst rc)) (hi (fst rc)) f h h' rc) (combine rows css) (a_groups (aob h' a)) /\
    (forall g, In g (a_groups (aob h' a)) -> g_within (gob h' g) = Some (WGrid a) /\ exists nm, g_name (gob h' g) = Some nm /\ nm <> EmptyString) /\
    (forall c, In c (concat css) -> clone_of h h' c (f c)) /\ all_kept h h'.
Proof. exact c76_read. Qed.
Print Assumptions C76_read.
Example C76_read_case : let E : Env := demo_env in
  class_table boot_heap /\ Forall2 (fun row ocs => nesting boot_heap (uneven_lo row) (uneven_hi row) row ocs) uneven_rows uneven_classes /\
  names_apart boot_heap (concat uneven_classes) /\ gapless (concat uneven_rows) /\
  least (fun z => exists row, In row uneven_rows /\ uneven_lo row = z) 10 /\ greatest (fun z => exists row, In row uneven_rows /\ uneven_lo row = z) 25 /\
  least (fun z => exists row, In row uneven_rows /\ uneven_hi row = z) 60 /\ greatest (fun z => exists row, In row uneven_rows /\ uneven_hi row = z) 90 /\
  ~ (near 10 25 /\ near 60 90) /\
  exists h', new_grid_textgrid 50 (concat uneven_rows) (Nested uneven_classes) boot_heap = Ok 0%nat h' /\ a_groups (aob h' 0) = [0; 1]%nat /\
    map (fun g => map (fun t => t_name (tob h' t)) (g_tiers (gob h' g))) [0; 1]%nat = [["words"; "phones"]; ["words2"; "phones2"]]%string.
Proof.
  cbv zeta. split; [exact boot_table|]. split; [exact uneven_nesting|]. split; [apply apart_boot; intros c; simpl; tauto|]. split; [gapless_goal|].
  destruct uneven_bounds as (A & B & C & D). split; [exact A|]. split; [exact B|]. split; [exact C|]. split; [exact D|]. split; [exact uneven_apart|].
  eexists. split; [vm_compute; reflexivity|]. repeat split.
Qed.
(** C76: reading and writing. *)
Theorem C76_round `{Env} : forall (n : nat) (h : heap) (rows : list (list rawtier)) (css : list (list cid)) (rest : list rawtier) (lo hi : list rawtier -> Z) (s0 s1 e0 e1 : Z),
  class_table h -> Forall2 (fun row ocs => nesting h (lo row) (hi row) row ocs) rows css -> names_apart h (concat css) -> gapless (concat rows) ->
  least (fun z => exists row, In row rows /\ lo row = z) s0 -> greatest (fun z => exists row, In row rows /\ lo row = z) s1 ->
  least (fun z => exists row, In row rows /\ hi row = z) e0 -> greatest (fun z => exists row, In row rows /\ hi row = z) e1 ->
  ~ (near s0 s1 /\ near e0 e1) -> NoDup (map rt_name (concat rows)) ->
  exists a h' outs, new_grid_textgrid (S n) (concat rows ++ rest) (Nested css) h = Ok a h' /\
    Forall2 (fun rc => wrote_row_wide s0 s1 e1 (lo (fst rc)) (hi (fst rc)) h rc) (combine rows css) outs /\
    Permutation (concat (map fst outs)) (concat rows) /\ return_textgrid h' a = concat (map snd outs).
Proof. exact c76_round. Qed.
Print Assumptions C76_round.
Example C76_round_case : let E : Env := demo_env in
  NoDup (map rt_name (concat uneven_rows)) /\
  exists h', new_grid_textgrid 50 (concat uneven_rows) (Nested uneven_classes) boot_heap = Ok 0%nat h' /\
    return_textgrid h' 0 =
      [("words", [(false, Some 10, Some 30, "ab"); (false, Some 30, Some 60, "cd"); (false, Some 60, Some 90, "")]);
       ("phones", [(false, Some 10, Some 20, "a"); (false, Some 20, Some 30, "b"); (false, Some 30, Some 50, "c"); (false, Some 50, Some 60, "d"); (false, Some 60, Some 90, "")]);
       ("words2", [(false, Some 10, Some 25, ""); (false, Some 25, Some 40, "ef"); (false, Some 40, Some 90, "g"); (false, Some 90, Some 90, "")]);
       ("phones2", [(false, Some 10, Some 25, ""); (false, Some 25, Some 30, "e"); (false, Some 30, Some 40, "f"); (false, Some 40, Some 90, "g"); (false, Some 90, Some 90, "")])]%string.
Proof.
  cbv zeta. split; [apply NoDup_ListNoDup; repeat (constructor; [simpl; intuition discriminate|]); constructor|].
  eexists. split; [vm_compute; reflexivity|]. vm_compute. reflexivity.
Qed.
(** C76: each tier of a row that lasts longest is written with a last interval that
    has no duration, unless the last end is near the last start. *)
Theorem C76_degenerate `{Env} : forall (n : nat) (h : heap) (rows : list (list rawtier)) (css : list (list cid)) (rest : list rawtier) (lo hi : list rawtier -> Z) (s0 s1 e0 e1 : Z),
  class_table h -> Forall2 (fun row ocs => nesting h (lo row) (hi row) row ocs) rows css -> names_apart h (concat css) -> gapless (concat rows) ->
  least (fun z => exists row, In row rows /\ lo row = z) s0 -> greatest (fun z => exists row, In row rows /\ lo row = z) s1 ->
  least (fun z => exists row, In row rows /\ hi row = z) e0 -> greatest (fun z => exists row, In row rows /\ hi row = z) e1 ->
  ~ (near s0 s1 /\ near e0 e1) -> NoDup (map rt_name (concat rows)) -> ~ near e1 s1 ->
  exists a h', new_grid_textgrid (S n) (concat rows ++ rest) (Nested css) h = Ok a h' /\
    forall row r, In row rows -> hi row = e1 -> In r row ->
      exists l, In (rt_name r, (l ++ [(false, Some e1, Some e1, EmptyString)])%list) (return_textgrid h' a).
Proof. exact c76_degenerate. Qed.
Print Assumptions C76_degenerate.
Example C76_degenerate_case : let E : Env := demo_env in
  ~ near 90 25 /\ uneven_hi [ex_words2; ex_segs2] = 90 /\
  exists h', new_grid_textgrid 50 (concat uneven_rows) (Nested uneven_classes) boot_heap = Ok 0%nat h' /\
    map (fun o => hd_error (rev (snd o))) (return_textgrid h' 0) =
      [Some (false, Some 60, Some 90, ""); Some (false, Some 60, Some 90, ""); Some (false, Some 90, Some 90, ""); Some (false, Some 90, Some 90, "")]%string.
Proof. cbv zeta. split; [exact uneven_late|]. split; [reflexivity|]. eexists. split; [vm_compute; reflexivity|]. vm_compute. reflexivity. Qed.
