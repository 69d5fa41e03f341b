(** * Property C53: reading a text grid.
    Theorems only; proofs in ReadFinal.v and DemoRead.v. *)
From Verif Require Import ReadFinal DemoRead.
Open Scope Z_scope.

(** C53: with one list of classes for each group. *)
Theorem C53_nested `{Env} : forall (n : nat) (h : heap) (rows : list (list rawtier)) (css : list (list cid)) (rest : list rawtier) (lo hi : Z),
  class_table h -> Forall2 (readable h lo hi) rows css -> names_apart h (concat css) -> some_intervals h rows css -> gapless (concat rows) ->
  exists f a h', new_grid_textgrid n (concat rows ++ rest) (Nested css) h = Ok a h' /\ grid_read lo hi f h h' rows css a /\ class_table h'.
Proof. exact c53_nested. Qed.
Print Assumptions C53_nested.
Example C53_nested_case : let E : Env := demo_env in
  let rows := [[ex_segs; ex_words; ex_marks]; [ex_tones]] in let css := [[cPhone; cWord; cPoint]; [cPoint]] in
  class_table boot_heap /\ Forall2 (readable boot_heap 10 60) rows css /\ names_apart boot_heap (concat css) /\ some_intervals boot_heap rows css /\ gapless (concat rows) /\
  exists h', new_grid_textgrid 50 (concat rows ++ [ex_turn]) (Nested css) boot_heap = Ok 0%nat h' /\ a_groups (aob h' 0) = [0; 1; 2]%nat /\
    map (tiers_in h') [0; 1; 2]%nat = [[1; 0]; [2]; [3]]%nat /\ map (entries_in h') [1; 0]%nat = [[16; 19]; [0; 3; 6; 9]]%nat /\
    s_subset (sob h' 16) = [0; 3]%nat /\ s_subset (sob h' 19) = [6; 9]%nat /\ s_label (sob h' 19) = "cd"%string.
Proof.
  cbv zeta. split; [exact boot_table|]. split; [constructor; [exact ex_row|constructor; [exact ex_prow|constructor]]|].
  split; [apply apart_boot; intros c; simpl; tauto|]. split; [do 2 eexists; split; [left; reflexivity|vm_compute; discriminate]|]. split; [gapless_goal|].
  eexists. split; [vm_compute; reflexivity|]. repeat split.
Qed.
(** C53: with one list of classes that is used again for each group of tiers. *)
Theorem C53_flat `{Env} : forall (n : nat) (h : heap) (rows : list (list rawtier)) (rest : list rawtier) (t : cid) (cs : list cid) (b : cid) (given : list cid) (lo hi : Z),
  class_table h -> class_chain h t cs b -> Permutation given cs -> names_apart h cs ->
  rows <> [] -> (forall row, In row rows -> readable h lo hi row given) -> (List.length rest < List.length given)%nat -> gapless (concat rows) ->
  exists f a h', new_grid_textgrid n (concat rows ++ rest) (Flat given) h = Ok a h' /\
    grid_read lo hi f h h' rows (repeat given (List.length rows)) a /\ class_table h'.
Proof. exact c53_flat. Qed.
Print Assumptions C53_flat.
Example C53_flat_case : let E : Env := demo_env in
  let rows := [[ex_words; ex_segs]; [ex_words; ex_segs]] in
  class_table boot_heap /\ class_chain boot_heap cTopwp [cWord; cPhone] cBottomwp /\ names_apart boot_heap [cWord; cPhone] /\
  (forall row, In row rows -> readable boot_heap 10 60 row [cWord; cPhone]) /\ gapless (concat rows) /\
  exists h', new_grid_textgrid 50 (concat rows ++ [ex_turn]) (Flat [cWord; cPhone]) boot_heap = Ok 0%nat h' /\ a_groups (aob h' 0) = [0; 1]%nat /\
    map (tiers_in h') [0; 1]%nat = [[0; 1]; [2; 3]]%nat.
Proof.
  cbv zeta. split; [exact boot_table|]. split; [exact boot_chain|]. split; [apply apart_boot; intros c; simpl; tauto|].
  split; [intros row [<-|[<-|[]]]; exact ex_wrow|]. split; [gapless_goal|]. eexists. split; [vm_compute; reflexivity|]. repeat split.
Qed.
(** C53: with one list of the classes of several hierarchies, in any order. *)
Theorem C53_chains `{Env} : forall (n : nat) (h : heap) (tg : list rawtier) (cs : list cid) (chs : list (list cid)) (lo hi : Z),
  class_table h -> (forall ch, In ch chs -> exists t b, class_chain h t ch b) -> Permutation cs (concat chs) -> NoDup cs -> (2 <= List.length chs)%nat ->
  (List.length cs <= List.length tg)%nat -> names_apart h cs -> gapless tg ->
  (forall ch row, In ch chs -> Forall2 (fun c r => exists k, nth_error cs k = Some c /\ nth_error tg k = Some r) ch row -> readable h lo hi row ch) ->
  exists f a h' rows css, new_grid_textgrid n tg (Flat cs) h = Ok a h' /\ Permutation css chs /\ keep_if (top_class h) cs (map (hd 0%nat) css) /\
    Forall2 (Forall2 (fun c r => exists k, nth_error cs k = Some c /\ nth_error tg k = Some r)) css rows /\
    grid_read lo hi f h h' rows css a /\ class_table h'.
Proof. exact c53_chains. Qed.
Print Assumptions C53_chains.
Example C53_chains_case : let E : Env := demo_env in
  let cs := [cWord; 11%nat; cPhone] in let tg := [ex_words; ex_turn; ex_segs] in let chs := [[11%nat]; [cWord; cPhone]] in
  class_table ex_turny /\ (forall ch, In ch chs -> exists t b, class_chain ex_turny t ch b) /\ Permutation cs (concat chs) /\ names_apart ex_turny cs /\ gapless tg /\
  (forall ch row, In ch chs -> Forall2 (fun c r => exists k, nth_error cs k = Some c /\ nth_error tg k = Some r) ch row -> readable ex_turny 10 60 row ch) /\
  exists h', new_grid_textgrid 50 tg (Flat cs) ex_turny = Ok 0%nat h' /\ a_groups (aob h' 0) = [0; 1]%nat /\
    map (fun g => map (fun t => t_name (tob h' t)) (tiers_in h' g)) [0; 1]%nat = [["words"; "phones"]; ["turns"]]%string.
Proof.
  cbv zeta. split; [exact turny_table|]. split; [intros ch [<-|[<-|[]]]; [exists 9%nat, 10%nat; exact turny_turns|exists cTopwp, cBottomwp; exact turny_words]|].
  split; [apply perm_swap|]. split; [intros c d [<-|[<-|[<-|[]]]] [<-|[<-|[<-|[]]]]; vm_compute; congruence|]. split; [gapless_goal|]. split; [exact turny_rows|].
  eexists. split; [vm_compute; reflexivity|]. repeat split.
Qed.
(** C53: a text grid of nothing but points. *)
Theorem C53_points_refuted : let E : Env := demo_env in
  exists n h rows css lo hi h', class_table h /\ Forall2 (readable h lo hi) rows css /\ names_apart h (concat css) /\ gapless (concat rows) /\ concat rows <> [] /\
    new_grid_textgrid n (concat rows) (Nested css) h = Raise ValueError h'.
Proof. exact c53_points_refuted. Qed.
Print Assumptions C53_points_refuted.
(** C53: different classes with the same names. *)
Theorem C53_names_refuted : let E : Env := demo_env in
  exists n h rows css lo hi, class_table h /\ Forall2 (readable h lo hi) rows css /\ some_intervals h rows css /\ gapless (concat rows) /\ NoDup (concat css) /\
    exists a h', new_grid_textgrid n (concat rows) (Nested css) h = Ok a h' /\
      exists c, In c (concat css) /\ forall g k, In g (a_groups (aob h' a)) -> In k (tiers_in h' g) -> ~ clone_of h h' c (t_ec (tob h' k)).
Proof. exact c53_names_refuted. Qed.
Print Assumptions C53_names_refuted.
