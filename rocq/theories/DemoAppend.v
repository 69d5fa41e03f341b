(** * DemoAppend: concrete cases for C60. *)
From Verif Require Export AppendSpec DemoAdd.
From Verif Require Import AppendFinal.
Open Scope Z_scope.

(** An empty grid beside the groups 0 and 1 of C56, the first of which has a name. *)
Definition ex_shelf0 : heap := Eval vm_compute in
  let E : Env := demo_env in
  run (modify (upd_grp 0 (set_g_name (Some "KY"%string))) ;;; modify (upd_tier 1 (set_t_name "mine")) ;;; a <- alloc_grid blank_grid ;; ret tt) ex_add.
(** ... with group 0 appended to it. *)
Definition ex_shelf1 : heap := Eval vm_compute in
  let E : Env := demo_env in run (grid_append 50 0 0) ex_shelf0.

Ltac shelf_group := 
  split; [vm_compute; lia|]; split; [reflexivity|]; split; [reflexivity|]; split; [reflexivity|];
  split; [split; [vm_compute; repeat split|]; split; [apply nodup_by; vm_compute; reflexivity|];
    split; [intros ?t ?Ht; members; finish|]; split; eexists; (split; [reflexivity|]); eexists; split; reflexivity|];
  split; [vm_compute; repeat split|];
  split; [split; [reflexivity|]; split; [repeat (constructor; [filled|]); constructor|];
    split; [reflexivity|]; split; [repeat (constructor; [filled|]); constructor|]; exact I|];
  split; [split; [|split; [|exact I]]; repeat (constructor; [parented|]); constructor|];
  split; [intros ?t ?Ht; members; (split; [reflexivity|]); (split; [|reflexivity]); (split; [apply nodup_by; vm_compute; reflexivity|intros ?x ?Hx; members; finish])|].
Lemma shelf_table0 : class_table ex_shelf0.
Proof.
  split; [vm_compute; lia|]. split; [|repeat split].
  intros c b. do 14 (destruct c as [|c]; [vm_compute; intros [= <-]; lia || discriminate|]).
  intros E. exfalso. revert E. unfold cob. rewrite lookup_ge_None_2; [discriminate|vm_compute; lia].
Qed.
Lemma shelf_table1 : class_table ex_shelf1.
Proof.
  split; [vm_compute; lia|]. split; [|repeat split].
  intros c b. do 19 (destruct c as [|c]; [vm_compute; intros [= <-]; lia || discriminate|]).
  intros E. exfalso. revert E. unfold cob. rewrite lookup_ge_None_2; [discriminate|vm_compute; lia].
Qed.
Lemma shelf_clear h : h = ex_shelf0 \/ h = ex_shelf1 -> clear_chain h [11; 12; 13]%nat.
Proof.
  intros [-> | ->]; (split; [exists 9%nat, 10%nat; chain_goal|]); (split; [intros x Hx; members; split; reflexivity|]); intros c d Hc Hd; members; vm_compute; congruence.
Qed.
Lemma shelf_good0 : good_group ex_shelf0 0 ex_order ex_blocks.
Proof.
  shelf_group. intros t [= <-]. split; [|intros x Hx; members; finish].
  change (t_seq (tob ex_shelf0 1)) with [16; 19]%nat. eapply in_turn_two; [reflexivity|reflexivity|lia].
Qed.
Lemma shelf_good1 : good_group ex_shelf1 1 [5; 4; 3]%nat pop_blocks2.
Proof.
  shelf_group. intros t [= <-]. split; [|intros x Hx; members; finish].
  change (t_seq (tob ex_shelf1 5)) with [66]%nat. intros i j x y Hij Hx Hy. destruct j as [|j]; [lia|destruct j; discriminate].
Qed.
Lemma shelf_full0 : full_group ex_shelf0 [11; 12; 13]%nat 0.
Proof. split; [reflexivity|]. split; [eexists; exact shelf_good0|]. intros t x [= <-] Hx; members; reflexivity. Qed.
Lemma shelf_full1 : full_group ex_shelf1 [11; 12; 13]%nat 1.
Proof. split; [reflexivity|]. split; [eexists; exact shelf_good1|]. intros t x [= <-] Hx; members; reflexivity. Qed.
Lemma shelf_whole : whole_chains ex_shelf1 (a_cloned (aob ex_shelf1 0)).
Proof.
  intros c Hc. right. change (a_cloned (aob ex_shelf1 0)) with [14; 16; 17]%nat in *. exists 15%nat, [14; 16; 17]%nat, 18%nat. split; [chain_goal|]. split; [exact Hc|apply incl_refl].
Qed.
Lemma shelf_familiar : familiar ex_shelf1 0 [11; 12; 13]%nat [14; 16; 17]%nat.
Proof.
  change (a_cloned (aob ex_shelf1 0)) with [14; 16; 17]%nat.
  split; [|exists 15%nat, 18%nat; chain_goal].
  constructor; [|constructor; [|constructor; [|constructor]]].
  - exists [], [16; 17]%nat. split; [reflexivity|]. split; [reflexivity|intros x []].
  - exists [14]%nat, [17]%nat. split; [reflexivity|]. split; [reflexivity|]. intros x Hx. members; vm_compute; discriminate.
  - exists [14; 16]%nat, []. split; [reflexivity|]. split; [reflexivity|]. intros x Hx. members; vm_compute; discriminate.
Qed.
Lemma shelf_settled : settled_groups ex_shelf1 0.
Proof.
  intros g Hg. members. split; [vm_compute; lia|]. split; [discriminate|]. split; [reflexivity|]. exists "KY"%string. split; [reflexivity|discriminate].
Qed.
(** A grid that knows the classes Syl and Phone only (group 2, appended), and one that
    knows Word and Phone only; group 1 has Word, Syl and Phone. *)
Definition ex_shelf2 : heap := Eval vm_compute in
  let E : Env := demo_env in
  run (cs <- custom_classes ["Syl"; "Phone"]%string RNone [] ;;
       s <- new_itier (FromList [ERaw (Some 10) (Some 60) "4"]) (nth_error cs 0) ;;
       p <- new_itier (FromList [ERaw (Some 10) (Some 60) "x"]) (nth_error cs 1) ;;
       g <- new_tg 50 [s; p] ;; grid_append 50 0 g) ex_shelf0.
Definition ex_shelf3 : heap := Eval vm_compute in
  let E : Env := demo_env in
  run (s <- new_itier (FromList [ERaw (Some 10) (Some 60) "4"]) (Some cWord) ;;
       p <- new_itier (FromList [ERaw (Some 10) (Some 60) "x"]) (Some cPhone) ;;
       g <- new_tg 50 [s; p] ;; grid_append 50 0 g) ex_shelf0.
Tactic Notation "shelf_table" integer(n) := split; [vm_compute; lia|]; split; [|repeat split];
  intros c b; do n (destruct c as [|c]; [vm_compute; intros [= <-]; lia || discriminate|]);
  intros E; exfalso; revert E; unfold cob; rewrite lookup_ge_None_2; [discriminate|vm_compute; lia].
Lemma shelf_ready2 : append_ready ex_shelf2 0 1 [11; 12; 13]%nat.
Proof.
  split; [shelf_table 22|]. split; [vm_compute; lia|].
  split. { intros c Hc. right. change (a_cloned (aob ex_shelf2 0)) with [18; 20]%nat in *. exists 19%nat, [18; 20]%nat, 21%nat. split; [chain_goal|]. split; [exact Hc|apply incl_refl]. }
  split. { intros g Hg. members. split; [vm_compute; lia|]. split; [discriminate|]. split; [reflexivity|]. exists "group_0"%string. split; [reflexivity|discriminate]. }
  split; [vm_compute; intuition discriminate|]. split.
  { split; [reflexivity|]. split; [exists pop_blocks2|intros t x [= <-] Hx; members; reflexivity].
    change (g_tiers (gob ex_shelf2 1)) with [5; 4; 3]%nat. shelf_group. intros t [= <-]. split; [|intros x Hx; members; finish].
    change (t_seq (tob ex_shelf2 5)) with [66]%nat. intros i j x y Hij Hx Hy. destruct j as [|j]; [lia|destruct j; discriminate]. }
  split; [exists 9%nat, 10%nat; chain_goal|]. split; [intros x Hx; members; split; reflexivity|]. intros c d Hc Hd; members; vm_compute; congruence.
Qed.
Lemma shelf_ready3 : append_ready ex_shelf3 0 1 [11; 12; 13]%nat.
Proof.
  split; [shelf_table 18|]. split; [vm_compute; lia|].
  split. { intros c Hc. right. change (a_cloned (aob ex_shelf3 0)) with [14; 16]%nat in *. exists 15%nat, [14; 16]%nat, 17%nat. split; [chain_goal|]. split; [exact Hc|apply incl_refl]. }
  split. { intros g Hg. members. split; [vm_compute; lia|]. split; [discriminate|]. split; [reflexivity|]. exists "group_0"%string. split; [reflexivity|discriminate]. }
  split; [vm_compute; intuition discriminate|]. split.
  { split; [reflexivity|]. split; [exists pop_blocks2|intros t x [= <-] Hx; members; reflexivity].
    change (g_tiers (gob ex_shelf3 1)) with [5; 4; 3]%nat. shelf_group. intros t [= <-]. split; [|intros x Hx; members; finish].
    change (t_seq (tob ex_shelf3 5)) with [66]%nat. intros i j x y Hij Hx Hy. destruct j as [|j]; [lia|destruct j; discriminate]. }
  split; [exists 9%nat, 10%nat; chain_goal|]. split; [intros x Hx; members; split; reflexivity|]. intros c d Hc Hd; members; vm_compute; congruence.
Qed.
Lemma shelf_ready0 : append_ready ex_shelf0 0 0 [11; 12; 13]%nat.
Proof.
  split; [exact shelf_table0|]. split; [vm_compute; lia|]. split; [intros c []|]. split; [intros g []|]. split; [intros []|]. split; [exact shelf_full0|]. apply shelf_clear; auto.
Qed.
Lemma shelf_ready1 : append_ready ex_shelf1 0 1 [11; 12; 13]%nat.
Proof.
  split; [exact shelf_table1|]. split; [vm_compute; lia|]. split; [exact shelf_whole|]. split; [exact shelf_settled|]. split; [vm_compute; intuition discriminate|]. split; [exact shelf_full1|]. apply shelf_clear; auto.
Qed.

(** If the grid knows some of the classes but not the first, appending the group
    silently drops tiers from it. *)
Lemma c60_mixed_refuted : let E : Env := demo_env in
  exists n h a g cs h' t, append_ready h a g cs /\ grid_append n a g h = Ok tt h' /\
    In g (a_groups (aob h' a)) /\ In t (g_tiers (gob h g)) /\ ~ In t (g_tiers (gob h' g)).
Proof.
  cbv zeta. exists 50%nat, ex_shelf2, 0%nat, 1%nat, [11; 12; 13]%nat, (run (@grid_append demo_env 50 0 1) ex_shelf2), 4%nat.
  split; [exact shelf_ready2|]. split; [vm_compute; reflexivity|]. split; [vm_compute; auto|]. split; [vm_compute; auto|]. vm_compute. intuition discriminate.
Qed.
(** If it knows the first but not all of the others, there is an error. *)
Lemma c60_missing_refuted : let E : Env := demo_env in
  exists n h a g cs h', append_ready h a g cs /\ grid_append n a g h = Raise ValueError h'.
Proof.
  cbv zeta. exists 50%nat, ex_shelf3, 0%nat, 1%nat, [11; 12; 13]%nat. eexists. split; [exact shelf_ready3|]. vm_compute. reflexivity.
Qed.
(** Tiers do not keep a name of their own. *)
Lemma c60_names_refuted : let E : Env := demo_env in
  exists n h a g cs h' t, append_ready h a g cs /\ strange h a cs /\ grid_append n a g h = Ok tt h' /\
    In t (g_tiers (gob h g)) /\ t_name (tob h' t) <> t_name (tob h t).
Proof.
  cbv zeta. exists 50%nat, ex_shelf0, 0%nat, 0%nat, [11; 12; 13]%nat, ex_shelf1, 1%nat. split; [exact shelf_ready0|]. split; [intros c d _ []|].
  split; [vm_compute; reflexivity|]. split; [vm_compute; auto|]. vm_compute. discriminate.
Qed.
Lemma shelf_both : Forall2 (fun g cs => full_group ex_shelf0 cs g /\ clear_chain ex_shelf0 cs) [0; 1]%nat [[11; 12; 13]; [11; 12; 13]]%nat.
Proof.
  constructor; [split; [exact shelf_full0|apply shelf_clear; auto]|]. constructor; [|constructor]. split; [|apply shelf_clear; auto].
  split; [reflexivity|]. split; [exists pop_blocks2|intros t x [= <-] Hx; members; reflexivity].
  change (g_tiers (gob ex_shelf0 1)) with [5; 4; 3]%nat. shelf_group. intros t [= <-]. split; [|intros x Hx; members; finish].
  change (t_seq (tob ex_shelf0 5)) with [66]%nat. intros i j x y Hij Hx Hy. destruct j as [|j]; [lia|destruct j; discriminate].
Qed.
Lemma shelf_apart : apart_groups ex_shelf0 [0; 1]%nat.
Proof. repeat split; apply nodup_by; vm_compute; reflexivity. Qed.
