(** * DemoSplice: groups to concatenate, for the examples. *)
From Verif Require Export DemoPop SpliceSpec.
From Verif Require Import SpliceFinal.
Open Scope Z_scope.

(** Groups 0 and 1, each with one tier of a class named Seg; the classes are not the same. *)
Definition ex_namesakes : heap := Eval vm_compute in
  let E : Env := demo_env in
  run (custom_classes ["Seg"%string] RNone [] ;;; custom_classes ["Seg"%string] RNone [] ;;;
       a <- new_itier (FromList [ERaw (Some 0) (Some 10) "a"]) (Some 11%nat) ;;
       b <- new_itier (FromList [ERaw (Some 0) (Some 20) "b"]) (Some 14%nat) ;;
       new_tg 50 [a] ;;; new_tg 50 [b]) boot_heap.
(** The second group is shifted before the classes are compared. *)
Lemma c55_classes_refuted : let E : Env := demo_env in
  exists n h g g2 t t2 x h', g_tiers (gob h g) = [t] /\ g_tiers (gob h g2) = [t2] /\ In x (t_seq (tob h t2)) /\
    grp_class_names h g = grp_class_names h g2 /\ t_ec (tob h t) <> t_ec (tob h t2) /\
    grp_concat n g g2 h = Raise ValueError h' /\ s_start (sob h' x) <> s_start (sob h x) /\ t_seq (tob h' t) = t_seq (tob h t).
Proof.
  cbv zeta. exists 5%nat, ex_namesakes, 0%nat, 1%nat, 0%nat, 1%nat, 7%nat. eexists. split; [reflexivity|]. split; [reflexivity|]. split; [vm_compute; auto|].
  split; [reflexivity|]. split; [vm_compute; discriminate|]. split; [vm_compute; reflexivity|]. split; [vm_compute; discriminate|reflexivity].
Qed.
Lemma pop_housed t : In t ex_order -> housed ex_pop t.
Proof. intros Ht. members; (split; [left; reflexivity|intros y Hy; members; reflexivity]). Qed.
Lemma pop_bare1 : bare_bottom ex_pop [5; 4; 3]%nat.
Proof. intros t x [= <-] Hx. members; reflexivity. Qed.
Lemma pop_greatest : greatest (ends_on ex_pop 1) 60.
Proof.
  split; [exists 19%nat; split; [vm_compute; auto|reflexivity]|]. intros z (x & Hx & Ez). members; vm_compute in Ez; injection Ez as <-; lia.
Qed.
Lemma pop_disjoint x : In x (entries_of ex_pop ex_order) -> ~ In x (entries_of ex_pop [5; 4; 3]%nat).
Proof. intros Hx Hy. vm_compute in Hx. repeat (destruct Hx as [<-|Hx]); [..|contradiction]; vm_compute in Hy; repeat (destruct Hy as [Hy|Hy]; [discriminate Hy|]); exact Hy. Qed.
