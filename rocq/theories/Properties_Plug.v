(** * Property C65: reading a text grid with gaps.
    Theorems only; proofs in ReadFinal.v, TripFinal.v and DemoPlug.v. *)
From Verif Require Import ReadFinal TripSpec TripFinal DemoPlug.
Open Scope Z_scope.

(** C65: what it is to plug the gaps of a tier. *)
Theorem C65_plugged : forall (lo hi : Z) (l : list entry), raw_turns lo l hi ->
  raw_tiles lo (plugged l) hi /\ exists keep : list bool, List.length keep = List.length (plugged l) /\
    map fst (List.filter snd (combine (plugged l) keep)) = l /\ forall e, In (e, false) (combine (plugged l) keep) -> exists s m, e = ERaw (Some s) (Some m) EmptyString.
Proof. exact c65_plugged. Qed.
Print Assumptions C65_plugged.
Example C65_plugged_case : raw_turns 10 (rt_entries (ex_gwords 10)) 60 /\
  plugged (rt_entries (ex_gwords 10)) = [ERaw (Some 10) (Some 20) "ab"; ERaw (Some 20) (Some 40) ""; ERaw (Some 40) (Some 60) "cd"].
Proof. split; [turns_goal|reflexivity]. Qed.
(** C65: with one list of classes for each group. *)
Theorem C65_nested `{Env} : forall (n : nat) (h : heap) (rows : list (list rawtier)) (css : list (list cid)) (rest : list rawtier) (lo hi : Z),
  class_table h -> Forall2 (readable h lo hi) rows css -> names_apart h (concat css) -> some_intervals h rows css ->
  0 < lo -> (forall row, In row rows -> (List.length row <= n)%nat) ->
  exists f a h', new_grid_textgrid n (concat rows ++ rest) (Nested css) h = Ok a h' /\ grid_as (either_group lo hi f h h') f h h' rows css a /\ class_table h'.
Proof. exact c65_nested. Qed.
Print Assumptions C65_nested.
Example C65_nested_case : let E : Env := demo_env in
  let rows := [[ex_gwords 10; ex_gsegs 10]; [ex_words; ex_segs]; [ex_tones]] in let css := [[cWord; cPhone]; [cWord; cPhone]; [cPoint]] in
  class_table boot_heap /\ Forall2 (readable boot_heap 10 60) rows css /\ names_apart boot_heap (concat css) /\ some_intervals boot_heap rows css /\
  (forall row, In row rows -> (List.length row <= 50)%nat) /\ raw_gap (rt_entries (ex_gwords 10)) /\
  exists h', new_grid_textgrid 50 (concat rows) (Nested css) boot_heap = Ok 0%nat h' /\ a_groups (aob h' 0) = [0; 1; 2]%nat /\
    map (tiers_in h') [0; 1; 2]%nat = [[0; 1]; [2; 3]; [4]]%nat /\ map (fun k => List.length (entries_in h' k)) [0; 1; 2; 3; 4]%nat = [3; 5; 2; 4; 1]%nat /\
    map (fun x => (s_start (sob h' x), s_label (sob h' x))) (entries_in h' 0) = [(Some 10, "ab"); (Some 20, ""); (Some 40, "cd")]%string.
Proof.
  cbv zeta. split; [exact boot_table|]. split; [constructor; [apply ex_grow; lia|constructor; [exact ex_wrow|constructor; [exact ex_prow|constructor]]]|].
  split; [apply apart_boot; intros c; simpl; tauto|]. split; [do 2 eexists; split; [left; reflexivity|vm_compute; discriminate]|].
  split; [intros row [<-|[<-|[<-|[]]]]; cbn; lia|]. split; [apply ex_gap|].
  eexists. split; [vm_compute; reflexivity|]. repeat split.
Qed.
(** C65: with one list of classes that is used again for each group of tiers. *)
Theorem C65_flat `{Env} : forall (n : nat) (h : heap) (rows : list (list rawtier)) (rest : list rawtier) (t : cid) (cs : list cid) (b : cid) (given : list cid) (lo hi : Z),
  class_table h -> class_chain h t cs b -> Permutation given cs -> names_apart h cs ->
  rows <> [] -> (forall row, In row rows -> readable h lo hi row given) -> (List.length rest < List.length given)%nat ->
  0 < lo -> (List.length cs <= n)%nat ->
  exists f a h', new_grid_textgrid n (concat rows ++ rest) (Flat given) h = Ok a h' /\
    grid_as (either_group lo hi f h h') f h h' rows (repeat given (List.length rows)) a /\ class_table h'.
Proof. exact c65_flat. Qed.
Print Assumptions C65_flat.
Example C65_flat_case : let E : Env := demo_env in
  let rows := [[ex_words; ex_segs]; [ex_gwords 10; ex_gsegs 10]] in
  class_table boot_heap /\ class_chain boot_heap cTopwp [cWord; cPhone] cBottomwp /\ names_apart boot_heap [cWord; cPhone] /\
  (forall row, In row rows -> readable boot_heap 10 60 row [cWord; cPhone]) /\ raw_gap (rt_entries (ex_gwords 10)) /\
  exists h', new_grid_textgrid 50 (concat rows ++ [ex_turn]) (Flat [cWord; cPhone]) boot_heap = Ok 0%nat h' /\ a_groups (aob h' 0) = [0; 1]%nat /\
    map (tiers_in h') [0; 1]%nat = [[0; 1]; [2; 3]]%nat /\ map (fun k => List.length (entries_in h' k)) [0; 1; 2; 3]%nat = [2; 4; 3; 5]%nat.
Proof.
  cbv zeta. split; [exact boot_table|]. split; [exact boot_chain|]. split; [apply apart_boot; intros c; simpl; tauto|].
  split; [intros row [<-|[<-|[]]]; [exact ex_wrow|apply ex_grow; lia]|]. split; [apply ex_gap|]. eexists. split; [vm_compute; reflexivity|]. repeat split.
Qed.
(** C65: with one list of the classes of several hierarchies, in any order. *)
Theorem C65_chains `{Env} : forall (n : nat) (h : heap) (tg : list rawtier) (cs : list cid) (chs : list (list cid)) (lo hi : Z),
  class_table h -> (forall ch, In ch chs -> exists t b, class_chain h t ch b) -> Permutation cs (concat chs) -> NoDup cs -> (2 <= List.length chs)%nat ->
  (List.length cs <= List.length tg)%nat -> names_apart h cs ->
  0 < lo -> (forall ch, In ch chs -> (List.length ch <= n)%nat) ->
  (forall ch row, In ch chs -> Forall2 (fun c r => exists k, nth_error cs k = Some c /\ nth_error tg k = Some r) ch row -> readable h lo hi row ch) ->
  exists f a h' rows css, new_grid_textgrid n tg (Flat cs) h = Ok a h' /\ Permutation css chs /\ keep_if (top_class h) cs (map (hd 0%nat) css) /\
    Forall2 (Forall2 (fun c r => exists k, nth_error cs k = Some c /\ nth_error tg k = Some r)) css rows /\
    grid_as (either_group lo hi f h h') f h h' rows css a /\ class_table h'.
Proof. exact c65_chains. Qed.
Print Assumptions C65_chains.
Example C65_chains_case : let E : Env := demo_env in
  let cs := [cWord; 11%nat; cPhone] in let tg := [ex_words; ex_gturn; ex_segs] in let chs := [[11%nat]; [cWord; cPhone]] in
  class_table ex_turny /\ (forall ch, In ch chs -> exists t b, class_chain ex_turny t ch b) /\ Permutation cs (concat chs) /\ names_apart ex_turny cs /\
  (forall ch row, In ch chs -> Forall2 (fun c r => exists k, nth_error cs k = Some c /\ nth_error tg k = Some r) ch row -> readable ex_turny 10 60 row ch) /\
  exists h', new_grid_textgrid 50 tg (Flat cs) ex_turny = Ok 0%nat h' /\ a_groups (aob h' 0) = [0; 1]%nat /\
    map (fun g => map (fun t => (t_name (tob h' t), List.length (entries_in h' t))) (tiers_in h' g)) [0; 1]%nat = [[("words", 2%nat); ("phones", 4%nat)]; [("turns", 3%nat)]]%string.
Proof.
  cbv zeta. split; [exact turny_table|]. split; [intros ch [<-|[<-|[]]]; [exists 9%nat, 10%nat; exact turny_turns|exists cTopwp, cBottomwp; exact turny_words]|].
  split; [apply perm_swap|]. split; [intros c d [<-|[<-|[<-|[]]]] [<-|[<-|[<-|[]]]]; vm_compute; congruence|]. split; [exact gturny_rows|].
  eexists. split; [vm_compute; reflexivity|]. repeat split.
Qed.
(** C65: reading and writing. *)
Theorem C65_round `{Env} : forall (n : nat) (h : heap) (rows : list (list rawtier)) (css : list (list cid)) (rest : list rawtier) (lo hi : Z),
  class_table h -> Forall2 (readable h lo hi) rows css -> names_apart h (concat css) -> some_intervals h rows css -> NoDup (map rt_name (concat rows)) ->
  0 < lo -> (forall row, In row rows -> (List.length row <= n)%nat) ->
  exists a h' outs, new_grid_textgrid n (concat rows ++ rest) (Nested css) h = Ok a h' /\
    Forall2 (fun rc out => row_out h (fst rc) (snd rc) (fst out) /\ wrote_row h (fst rc) (snd rc) (fst out) (snd out)) (combine rows css) outs /\
    Permutation (map fst (concat (map fst outs))) (concat rows) /\ return_textgrid h' a = concat (map snd outs).
Proof. exact c65_round. Qed.
Print Assumptions C65_round.
Example C65_round_case : let E : Env := demo_env in
  let rows := [[ex_gwords 10; ex_gsegs 10]; [ex_tones]] in let css := [[cWord; cPhone]; [cPoint]] in
  class_table boot_heap /\ Forall2 (readable boot_heap 10 60) rows css /\ names_apart boot_heap (concat css) /\ some_intervals boot_heap rows css /\
  NoDup (map rt_name (concat rows)) /\
  exists h', new_grid_textgrid 50 (concat rows) (Nested css) boot_heap = Ok 0%nat h' /\
    return_textgrid h' 0 =
      [("words", [(false, Some 10, Some 20, "ab"); (false, Some 20, Some 40, ""); (false, Some 40, Some 60, "cd")]);
       ("phones", [(false, Some 10, Some 15, "a"); (false, Some 15, Some 20, "b"); (false, Some 20, Some 40, ""); (false, Some 40, Some 50, "c"); (false, Some 50, Some 60, "d")]);
       ("tones", [(true, Some 44, None, "H")])]%string.
Proof.
  cbv zeta. split; [exact boot_table|]. split; [constructor; [apply ex_grow; lia|constructor; [exact ex_prow|constructor]]|].
  split; [apply apart_boot; intros c; simpl; tauto|]. split; [do 2 eexists; split; [left; reflexivity|vm_compute; discriminate]|].
  split; [apply NoDup_ListNoDup; repeat (constructor; [simpl; intuition discriminate|]); constructor|].
  eexists. split; [vm_compute; reflexivity|]. vm_compute. reflexivity.
Qed.
(** C65: a text grid that begins at 0. *)
Theorem C65_zero_refuted : let E : Env := demo_env in
  exists n h rows css hi a h', class_table h /\ Forall2 (readable h 0 hi) rows css /\ names_apart h (concat css) /\ some_intervals h rows css /\
    (forall row, In row rows -> (List.length row <= n)%nat) /\ new_grid_textgrid n (concat rows) (Nested css) h = Ok a h' /\
    exists o, In o (return_textgrid h' a) /\ ~ in_time (snd o).
Proof. exact c65_zero_refuted. Qed.
Print Assumptions C65_zero_refuted.
