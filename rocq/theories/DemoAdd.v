(** * DemoAdd: two related groups, one after the other, for the examples. *)
From Verif Require Export DemoPop AddSpec.
From Verif Require Import AddFinal.
Open Scope Z_scope.

(** Groups 0 (tiers 1, 2, 0 of classes Word 11, Syl 12, Phone 13) and 1 (tiers 5, 4, 3
    of the same classes); the second is later. *)
Definition ex_add : heap := Eval vm_compute in
  let E : Env := demo_env in
  run (p <- new_itier (FromList [ERaw (Some 80) (Some 95) "x"; ERaw (Some 95) (Some 130) "y"]) (Some 13%nat) ;;
       s <- new_itier (FromList [ERaw (Some 80) (Some 130) "4"]) (Some 12%nat) ;;
       w <- new_itier (FromList [ERaw (Some 80) (Some 130) "xy"]) (Some 11%nat) ;;
       new_tg 50 [p; s; w]) ex_grouped.
Lemma add_good0 : good_group ex_add 0 ex_order ex_blocks.
Proof.
  split; [vm_compute; lia|]. split; [reflexivity|]. split; [reflexivity|]. split; [reflexivity|].
  split. { split; [vm_compute; repeat split|]. split; [apply nodup_by; vm_compute; reflexivity|].
    split; [intros t Ht; members; finish|]. split; eexists; (split; [reflexivity|]); eexists; split; reflexivity. }
  split; [vm_compute; repeat split|].
  split. { split; [reflexivity|]. split; [repeat (constructor; [filled|]); constructor|].
    split; [reflexivity|]. split; [repeat (constructor; [filled|]); constructor|]. exact I. }
  split. { split; [|split; [|exact I]]; repeat (constructor; [parented|]); constructor. }
  split. { intros t Ht. members; (split; [reflexivity|]); (split; [|reflexivity]); (split; [apply nodup_by; vm_compute; reflexivity|intros x Hx; members; finish]). }
  intros t [= <-]. split; [|intros x Hx; members; finish].
  change (t_seq (tob ex_add 1)) with [16; 19]%nat. eapply in_turn_two; [reflexivity|reflexivity|lia].
Qed.
Lemma add_good1 : good_group ex_add 1 [5; 4; 3]%nat pop_blocks2.
Proof.
  split; [vm_compute; lia|]. split; [reflexivity|]. split; [reflexivity|]. split; [reflexivity|].
  split. { split; [vm_compute; repeat split|]. split; [apply nodup_by; vm_compute; reflexivity|].
    split; [intros t Ht; members; finish|]. split; eexists; (split; [reflexivity|]); eexists; split; reflexivity. }
  split; [vm_compute; repeat split|].
  split. { split; [reflexivity|]. split; [repeat (constructor; [filled|]); constructor|].
    split; [reflexivity|]. split; [repeat (constructor; [filled|]); constructor|]. exact I. }
  split. { split; [|split; [|exact I]]; repeat (constructor; [parented|]); constructor. }
  split. { intros t Ht. members; (split; [reflexivity|]); (split; [|reflexivity]); (split; [apply nodup_by; vm_compute; reflexivity|intros x Hx; members; finish]). }
  intros t [= <-]. split; [|intros x Hx; members; finish].
  change (t_seq (tob ex_add 5)) with [66]%nat. intros i j x y Hij Hx Hy. destruct j as [|j]; [lia|destruct j; discriminate].
Qed.

Lemma add_settled t : In t ex_order \/ In t [5; 4; 3]%nat -> settled ex_add t.
Proof. intros [Ht|Ht]; members; (split; [left; reflexivity|split; [split; reflexivity|reflexivity]]). Qed.
Lemma add_perm : Permutation [16; 19; 66]%nat (t_seq (tob ex_add 5) ++ t_seq (tob ex_add 1)).
Proof.
  change (t_seq (tob ex_add 5)) with [66]%nat. change (t_seq (tob ex_add 1)) with [16; 19]%nat.
  change [16; 19; 66]%nat with (app [16; 19]%nat [66]%nat). apply Permutation_app_comm.
Qed.
Lemma in_turn_three h x y z a b c d : s_end (sob h x) = Some a -> s_start (sob h y) = Some b -> s_end (sob h y) = Some c -> s_start (sob h z) = Some d ->
  a <= b -> c <= d -> a <= d -> in_turn h [x; y; z].
Proof.
  intros E1 E2 E3 E4 L1 L2 L3 i j u v Hij Hu Hv. destruct i as [|[|[|i]]]; destruct j as [|[|[|j]]]; try lia; cbn in Hu, Hv; try discriminate Hu; try discriminate Hv; try (destruct i; discriminate Hu); try (destruct j; discriminate Hv).
  all: injection Hu as <-; injection Hv as <-; eauto.
Qed.
Lemma add_turn : in_turn ex_add [16; 19; 66]%nat.
Proof. eapply in_turn_three; [reflexivity|reflexivity|reflexivity|reflexivity|lia|lia|lia]. Qed.
(** After the addition the intervals of the added groups are said to be in the
    new tiers, and the last interval of the first group is followed by the first
    of the second. *)
Lemma c56_originals_refuted : let E : Env := demo_env in
  exists n h g g2 ts bss us css g' h' t x y, good_group h g ts bss /\ good_group h g2 us css /\ grp_add n g g2 h = Ok g' h' /\
    In t ts /\ In x (t_seq (tob h t)) /\ s_intier (sob h x) = Some t /\ s_intier (sob h' x) <> Some t /\
    t_seq (tob h' t) = t_seq (tob h t) /\ ~ In y (t_seq (tob h' t)) /\ s_fol (sob h x) <> Some y /\ s_fol (sob h' x) = Some y.
Proof.
  cbv zeta. exists 5%nat, ex_add, 0%nat, 1%nat, ex_order, ex_blocks, [5; 4; 3]%nat, pop_blocks2. do 2 eexists. exists 1%nat, 19%nat, 66%nat.
  split; [exact add_good0|]. split; [exact add_good1|]. split; [vm_compute; reflexivity|]. split; [simpl; auto|]. split; [vm_compute; auto|].
  split; [reflexivity|]. split; [vm_compute; discriminate|]. split; [reflexivity|]. split; [vm_compute; intuition discriminate|]. split; [vm_compute; discriminate|reflexivity].
Qed.
