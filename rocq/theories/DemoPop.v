(** * DemoPop: a grid of two related groups and a group of points, for the examples. *)
From Verif Require Export DemoGrow PopSpec.
From Verif Require Import PopFinal.
Open Scope Z_scope.

(** Grid 0 has the groups 0 (tiers 1, 2, 0 of classes Word 11, Syl 12, Phone 13),
    1 (tiers 5, 4, 3 of the same classes) and 2 (a tier of points). *)
Definition ex_pop : heap := Eval vm_compute in
  let E : Env := demo_env in
  run (p <- new_itier (FromList [ERaw (Some 10) (Some 25) "x"; ERaw (Some 25) (Some 60) "y"]) (Some 13%nat) ;;
       s <- new_itier (FromList [ERaw (Some 10) (Some 60) "4"]) (Some 12%nat) ;;
       w <- new_itier (FromList [ERaw (Some 10) (Some 60) "xy"]) (Some 11%nat) ;;
       g <- new_tg 50 [p; s; w] ;;
       q <- new_ptier (FromList [ERaw (Some 15) None "H"]) None ;;
       k <- new_pg [q] ;;
       modify (upd_grp 0 (set_g_name (Some "KY"%string))) ;;;
       modify (fun h => Heap (h_cls h) (h_seq h) (h_tier h) (h_grp h) [GridObj [] []]) ;;;
       set_tier_groups 0 [0; g; k]%nat) ex_grouped.
Lemma ex_pop_shape : a_groups (aob ex_pop 0) = [0; 1; 2]%nat /\ map (tiers_in ex_pop) [0; 1; 2]%nat = [[1; 2; 0]; [5; 4; 3]; [6]]%nat /\
  map (entries_in ex_pop) [1; 2; 0; 5; 4; 3; 6]%nat = [[16; 19]; [26; 29; 32]; [0; 3; 6; 9]; [66]; [59]; [49; 52]; [77]]%nat.
Proof. repeat split. Qed.
Definition pop_blocks2 : list (list (list nat)) := [[[59]]; [[49; 52]]]%nat.
Lemma pop_table : class_table ex_pop.
Proof.
  split; [vm_compute; lia|]. split; [|repeat split].
  intros c b. do 14 (destruct c as [|c]; [vm_compute; intros [= <-]; lia || discriminate|]).
  intros E. exfalso. revert E. unfold cob. rewrite lookup_ge_None_2; [discriminate|vm_compute; lia].
Qed.
Lemma pop_chain : class_chain ex_pop 9 [11; 12; 13]%nat 10.
Proof. chain_goal. Qed.
Lemma pop_unrelated : unrelated ex_pop (9 :: [11; 12; 13] ++ [10])%nat.
Proof. intros c d Hc Hd. members; members; vm_compute; congruence. Qed.
Lemma pop_names x : In x [11; 12; 13]%nat -> plain_name (class_name ex_pop x).
Proof. intros Hx. members; split; reflexivity. Qed.
Lemma pop_good0 : good_group ex_pop 0 ex_order ex_blocks.
Proof.
  split; [vm_compute; lia|]. split; [reflexivity|]. split; [reflexivity|]. split; [reflexivity|].
  split. { split; [vm_compute; repeat split|]. split; [apply nodup_by; vm_compute; reflexivity|].
    split; [intros t Ht; members; finish|]. split; eexists; (split; [reflexivity|]); eexists; split; reflexivity. }
  split; [vm_compute; repeat split|].
  split. { split; [reflexivity|]. split; [repeat (constructor; [filled|]); constructor|].
    split; [reflexivity|]. split; [repeat (constructor; [filled|]); constructor|]. exact I. }
  split. { split; [|split; [|exact I]]; repeat (constructor; [parented|]); constructor. }
  split. { intros t Ht. members; (split; [reflexivity|]); (split; [|reflexivity]); (split; [apply nodup_by; vm_compute; reflexivity|intros x Hx; members; finish]). }
  intros t [= <-]. split; [|intros x Hx; members; finish].
  change (t_seq (tob ex_pop 1)) with [16; 19]%nat. eapply in_turn_two; [reflexivity|reflexivity|lia].
Qed.
Lemma pop_good1 : good_group ex_pop 1 [5; 4; 3]%nat pop_blocks2.
Proof.
  split; [vm_compute; lia|]. split; [reflexivity|]. split; [reflexivity|]. split; [reflexivity|].
  split. { split; [vm_compute; repeat split|]. split; [apply nodup_by; vm_compute; reflexivity|].
    split; [intros t Ht; members; finish|]. split; eexists; (split; [reflexivity|]); eexists; split; reflexivity. }
  split; [vm_compute; repeat split|].
  split. { split; [reflexivity|]. split; [repeat (constructor; [filled|]); constructor|].
    split; [reflexivity|]. split; [repeat (constructor; [filled|]); constructor|]. exact I. }
  split. { split; [|split; [|exact I]]; repeat (constructor; [parented|]); constructor. }
  split. { intros t Ht. members; (split; [reflexivity|]); (split; [|reflexivity]); (split; [apply nodup_by; vm_compute; reflexivity|intros x Hx; members; finish]). }
  intros t [= <-]. split; [|intros x Hx; members; finish].
  change (t_seq (tob ex_pop 5)) with [66]%nat. intros i j x y Hij Hx Hy. destruct j as [|j]; [lia|destruct j; discriminate].
Qed.
Lemma pop_full g : In g [0; 1]%nat -> full_group ex_pop [11; 12; 13]%nat g.
Proof.
  intros Hg. members; (split; [reflexivity|]); (split; [first [eexists; exact pop_good0|eexists; exact pop_good1]|]).
  all: intros t x [= <-] Hx; members; reflexivity.
Qed.
Lemma pop_apart : apart_groups ex_pop [0; 1; 2]%nat.
Proof. repeat split; apply nodup_by; vm_compute; reflexivity. Qed.

(** A grid whose only class is Seg. *)
Definition ex_seg : heap := Eval vm_compute in
  let E : Env := demo_env in
  run (custom_classes ["Seg"%string] RNone [] ;;;
       p <- new_itier (FromList [ERaw (Some 10) (Some 25) "x"; ERaw (Some 25) (Some 60) "y"]) (Some 11%nat) ;;
       g <- new_tg 50 [p] ;;
       modify (fun h => Heap (h_cls h) (h_seq h) (h_tier h) (h_grp h) [GridObj [] []]) ;;;
       set_tier_groups 0 [g]) boot_heap.
Lemma seg_table : class_table ex_seg.
Proof.
  split; [vm_compute; lia|]. split; [|repeat split].
  intros c b. do 12 (destruct c as [|c]; [vm_compute; intros [= <-]; lia || discriminate|]).
  intros E. exfalso. revert E. unfold cob. rewrite lookup_ge_None_2; [discriminate|vm_compute; lia].
Qed.
(** The only class of a grid cannot be removed: the grid is as before and the
    caller is not told. *)
Lemma c51_only_refuted : let E : Env := demo_env in
  exists n h a g t c b nm h', class_table h /\ class_chain h t [c] b /\ class_name h c = nm /\ a_groups (aob h a) = [g] /\ full_group h [c] g /\
    pop_class n a nm h = Ok tt h' /\ a_groups (aob h' a) = [g] /\ full_group h' [c] g /\ class_name h' c = nm.
Proof.
  assert (F : full_group ex_seg [11]%nat 0).
  { split; [reflexivity|]. split; [|intros t x [= <-] Hx; members; reflexivity]. exists [].
    split; [vm_compute; lia|]. split; [reflexivity|]. split; [reflexivity|]. split; [reflexivity|].
    split. { split; [vm_compute; repeat split|]. split; [apply nodup_by; vm_compute; reflexivity|].
      split; [intros t Ht; members; finish|]. split; eexists; (split; [reflexivity|]); eexists; split; reflexivity. }
    split; [vm_compute; repeat split|]. split; [exact I|]. split; [exact I|].
    split. { intros t Ht. members; (split; [reflexivity|]); (split; [|reflexivity]); (split; [apply nodup_by; vm_compute; reflexivity|intros x Hx; members; finish]). }
    intros t [= <-]. split; [|intros x Hx; members; finish].
    change (t_seq (tob ex_seg 0)) with [0; 3]%nat. eapply in_turn_two; [reflexivity|reflexivity|lia]. }
  cbv zeta. exists 5%nat, ex_seg, 0%nat, 0%nat, 9%nat, 11%nat, 10%nat, "Seg"%string, ex_seg.
  split; [exact seg_table|]. split; [chain_goal|]. split; [reflexivity|]. split; [reflexivity|]. split; [exact F|].
  split; [vm_compute; reflexivity|]. split; [reflexivity|]. split; [exact F|reflexivity].
Qed.
(** The intervals of the removed tiers still name their old parents, which do
    not have them as children any more. *)
Lemma c51_stale_refuted : let E : Env := demo_env in
  exists n h a gs nm h' t x p, a_groups (aob h a) = gs /\ apart_groups h gs /\ (forall g, In g [0; 1]%nat -> full_group h [11; 12; 13]%nat g) /\
    pop_class n a nm h = Ok tt h' /\ class_name h (t_ec (tob h t)) = nm /\ In x (t_seq (tob h' t)) /\
    s_super (sob h' x) = Some p /\ ~ In x (s_subset (sob h' p)).
Proof.
  cbv zeta. exists 5%nat, ex_pop, 0%nat, [0; 1; 2]%nat, "Syl"%string. eexists. exists 2%nat, 26%nat, 16%nat.
  split; [reflexivity|]. split; [exact pop_apart|]. split; [exact pop_full|]. split; [vm_compute; reflexivity|].
  split; [reflexivity|]. split; [left; reflexivity|]. split; [reflexivity|]. vm_compute. intuition discriminate.
Qed.
