(** * Property C54: writing what was read.
    Theorems only; proofs in TripFinal.v. *)
From Verif Require Import TripSpec TripFinal DemoRead.
Open Scope Z_scope.

(** C54: a grid just read, however its classes were given, writes the tiers it
    was read from. *)
Theorem C54_written `{Env} : forall (h h' : heap) (rows : list (list rawtier)) (css : list (list cid)) (lo hi : Z) (f : cid -> cid) (a : aid),
  class_table h -> class_table h' -> Forall2 (readable h lo hi) rows css -> grid_read lo hi f h h' rows css a -> NoDup (map rt_name (concat rows)) ->
  exists outs, Forall2 (fun rc out => row_out h (fst rc) (snd rc) out) (combine rows css) outs /\ Permutation (map fst (concat outs)) (concat rows) /\
    Forall2 (wrote h) (concat outs) (return_textgrid h' a).
Proof. exact c54_written. Qed.
Print Assumptions C54_written.
(** C54: reading and writing. *)
Theorem C54_round `{Env} : forall (n : nat) (h : heap) (rows : list (list rawtier)) (css : list (list cid)) (rest : list rawtier) (lo hi : Z),
  class_table h -> Forall2 (readable h lo hi) rows css -> names_apart h (concat css) -> some_intervals h rows css -> gapless (concat rows) -> NoDup (map rt_name (concat rows)) ->
  exists a h' outs, new_grid_textgrid n (concat rows ++ rest) (Nested css) h = Ok a h' /\
    Forall2 (fun rc out => row_out h (fst rc) (snd rc) out) (combine rows css) outs /\ Permutation (map fst (concat outs)) (concat rows) /\
    Forall2 (wrote h) (concat outs) (return_textgrid h' a).
Proof. exact c54_round. Qed.
Print Assumptions C54_round.
Example C54_round_case : let E : Env := demo_env in
  let rows := [[ex_segs; ex_words; ex_marks]; [ex_tones]] in let css := [[cPhone; cWord; cPoint]; [cPoint]] in
  class_table boot_heap /\ Forall2 (readable boot_heap 10 60) rows css /\ names_apart boot_heap (concat css) /\ some_intervals boot_heap rows css /\ gapless (concat rows) /\
  NoDup (map rt_name (concat rows)) /\
  exists h', new_grid_textgrid 50 (concat rows ++ [ex_turn]) (Nested css) boot_heap = Ok 0%nat h' /\
    return_textgrid h' 0 =
      [("words", [(false, Some 10, Some 30, "ab"); (false, Some 30, Some 60, "cd")]);
       ("phones", [(false, Some 10, Some 20, "a"); (false, Some 20, Some 30, "b"); (false, Some 30, Some 50, "c"); (false, Some 50, Some 60, "d")]);
       ("marks", [(true, Some 12, None, "x"); (true, Some 35, None, "y")]); ("tones", [(true, Some 44, None, "H")])]%string.
Proof.
  cbv zeta. split; [exact boot_table|]. split; [constructor; [exact ex_row|constructor; [exact ex_prow|constructor]]|].
  split; [apply apart_boot; intros c; simpl; tauto|]. split; [do 2 eexists; split; [left; reflexivity|vm_compute; discriminate]|]. split; [gapless_goal|].
  split; [apply NoDup_ListNoDup; repeat (constructor; [simpl; intuition discriminate|]); constructor|].
  eexists. split; [vm_compute; reflexivity|]. vm_compute. reflexivity.
Qed.
