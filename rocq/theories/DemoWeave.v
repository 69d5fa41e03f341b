(** * DemoWeave: grids for the examples on adding a class of tiers. *)
From Verif Require Export DemoPop WeaveSpec.
From Verif Require Import WeaveFinal.
Open Scope Z_scope.

Lemma pop_exist g : In g [0; 1; 2]%nat -> exist_tiers ex_pop g.
Proof. intros Hg k Hk. members; members; (split; [vm_compute; lia|]); intros x Hx; members; vm_compute; lia. Qed.

(** A grid with a word and a phone tier that have no entries. *)
Definition ex_void : heap := Eval vm_compute in
  let E : Env := demo_env in
  run (custom_classes ["Word"%string; "Phone"%string] RNone [] ;;;
       w <- new_itier (FromList []) (Some 11%nat) ;;
       p <- new_itier (FromList []) (Some 12%nat) ;;
       g <- new_tg 50 [w; p] ;;
       modify (fun h => Heap (h_cls h) (h_seq h) (h_tier h) (h_grp h) [GridObj [] []]) ;;;
       set_tier_groups 0 [g]) boot_heap.
Lemma void_table : class_table ex_void.
Proof.
  split; [vm_compute; lia|]. split; [|repeat split].
  intros c b. do 13 (destruct c as [|c]; [vm_compute; intros [= <-]; lia || discriminate|]).
  intros E. exfalso. revert E. unfold cob. rewrite lookup_ge_None_2; [discriminate|vm_compute; lia].
Qed.
Lemma void_full : full_group ex_void [11; 12]%nat 0.
Proof.
  split; [reflexivity|]. split; [|intros t x [= <-] Hx; members]. exists [[]].
  split; [vm_compute; lia|]. split; [reflexivity|]. split; [reflexivity|]. split; [reflexivity|].
  split. { split; [vm_compute; repeat split|]. split; [apply nodup_by; vm_compute; reflexivity|].
    split; [intros t Ht; members; finish|]. split; eexists; (split; [reflexivity|]); eexists; split; reflexivity. }
  split; [vm_compute; repeat split|].
  split. { split; [reflexivity|]. split; [constructor|exact I]. }
  split. { split; [constructor|exact I]. }
  split. { intros t Ht. members; (split; [reflexivity|]); (split; [|reflexivity]); (split; [apply nodup_by; vm_compute; reflexivity|intros x Hx; members]). }
  intros t [= <-]. split; [|intros x Hx; members]. intros i j x y _ Hx. destruct i; discriminate.
Qed.
(** When the tier the times come from has no entries, the lower tiers are lost
    from the grid, and there is no tier of the new class. *)
Lemma c52_empty_refuted : let E : Env := demo_env in
  exists n h a g t cs1 cs2 b sp nm nm2 h', class_table h /\ class_chain h t (cs1 ++ cs2) b /\ plain_name nm /\ nm <> ""%string /\ hd_error cs2 = Some sp /\
    class_name h sp = nm2 /\ a_groups (aob h a) = [g] /\ full_group h (cs1 ++ cs2) g /\ interleave_class n a nm true nm2 true true h = Ok tt h' /\
    exists g' k, a_groups (aob h' a) = [g'] /\ In k (g_tiers (gob h g)) /\ ~ In k (g_tiers (gob h' g')) /\
      (forall k', In k' (g_tiers (gob h' g')) -> class_name h' (t_ec (tob h' k')) <> nm).
Proof.
  cbv zeta. exists 5%nat, ex_void, 0%nat, 0%nat, 9%nat, [11]%nat, [12]%nat, 10%nat, 12%nat, "Syl"%string, "Phone"%string. eexists.
  split; [exact void_table|]. split; [chain_goal|]. split; [split; reflexivity|]. split; [discriminate|]. split; [reflexivity|].
  split; [reflexivity|]. split; [reflexivity|]. split; [exact void_full|]. split; [vm_compute; reflexivity|].
  exists 1%nat, 1%nat. split; [reflexivity|]. split; [right; left; reflexivity|]. split; [vm_compute; intuition discriminate|].
  intros k' Hk. members. vm_compute. discriminate.
Qed.
(** A call that fails for want of a tier to take the times from leaves the grid
    alone but has changed the classes of its tiers: the new class, of which
    there is no tier, stands above the top class. *)
Lemma c52_failure_refuted : let E : Env := demo_env in
  exists n h a gs t c cs b nm nm2 h' d, class_table h /\ class_chain h t (c :: cs) b /\ plain_name nm /\ nm <> ""%string /\ class_name h c = nm2 /\
    a_groups (aob h a) = gs /\ (exists g, In g gs /\ full_group h (c :: cs) g) /\ superset_class h c = Some t /\
    interleave_class n a nm true nm2 false true h = Raise IndexError h' /\
    a_groups (aob h' a) = gs /\ superset_class h' c = Some d /\ class_name h' d = nm /\ issubclass h' d cTop = false /\
    (forall g k, In g gs -> In k (g_tiers (gob h' g)) -> t_ec (tob h' k) <> d).
Proof.
  cbv zeta. exists 5%nat, ex_pop, 0%nat, [0; 1; 2]%nat, 9%nat, 11%nat, [12; 13]%nat, 10%nat, "Foot"%string, "Word"%string. eexists. exists 16%nat.
  split; [exact pop_table|]. split; [exact pop_chain|]. split; [split; reflexivity|]. split; [discriminate|]. split; [reflexivity|].
  split; [reflexivity|]. split; [exists 0%nat; split; [left; reflexivity|apply pop_full; simpl; auto]|]. split; [reflexivity|].
  split; [vm_compute; reflexivity|]. split; [reflexivity|]. split; [reflexivity|]. split; [reflexivity|]. split; [reflexivity|].
  intros g k Hg Hk. members; members; vm_compute; discriminate.
Qed.
