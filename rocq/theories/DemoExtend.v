(** * DemoExtend: concrete cases for C62. *)
From Verif Require Export ExtendSpec DemoAdd.
From Verif Require Import ExtendFinal ExtendGridFinal.
Open Scope Z_scope.

(** Group 0 named "KY" with a word tier; tier 1 has the phones. *)
Definition ex_ext : heap := Eval vm_compute in
  let E : Env := demo_env in
  run (w <- new_itier (FromList [ERaw (Some 0) (Some 10) "the"; ERaw (Some 10) (Some 20) "dog"]) (Some cWord) ;;
       p <- new_itier (FromList [ERaw (Some 0) (Some 5) "DH"; ERaw (Some 5) (Some 10) "AH0"; ERaw (Some 10) (Some 20) "D"]) (Some cPhone) ;;
       g <- new_tg 50 [w] ;; mod_grp g (set_g_name (Some "KY"%string)) ;;;
       cs <- custom_classes ["Tone"; "Break"; "Turn"]%string RNone [0; 1]%nat ;;
       a <- new_ptier (FromList [ERaw (Some 3) (Some 3) "H"]) (nth_error cs 0) ;;
       b <- new_ptier (FromList [ERaw (Some 7) (Some 7) "4"]) (nth_error cs 1) ;;
       k <- new_pg [a] ;;
       u <- new_itier (FromList [ERaw (Some 0) (Some 20) "1"]) (nth_error cs 2) ;; ret tt) boot_heap.
(** ... with group 0 in a grid. *)
Definition ex_extgrid : heap := Eval vm_compute in
  let E : Env := demo_env in run (a <- alloc_grid blank_grid ;; grid_append 50 a 0) ex_ext.

Definition ex_extblocks : list (list (list oid)) := [[[10; 13]; [16]]]%nat.
Lemma ext_chain : tier_chain ex_ext [0; 1]%nat.
Proof.
  split; [vm_compute; repeat split|]. split; [apply nodup_by; vm_compute; reflexivity|]. split; [intros t Ht; members; finish|]. split; eexists; (split; [reflexivity|]); eexists; split; reflexivity.
Qed.
Lemma ext_fit t : In t [0; 1]%nat -> fit_tier ex_ext t.
Proof.
  intros Ht. members; (split; [split; [apply nodup_by; vm_compute; reflexivity|intros x Hx; members; finish]|]); (split; [reflexivity|]); intros x Hx; members; intros p; vm_compute; discriminate.
Qed.
Lemma ext_snug h : h = ex_ext \/ h = ex_extgrid -> snug h [0; 1]%nat ex_extblocks.
Proof. intros [-> | ->]; (split; [reflexivity|]); (split; [repeat (constructor; [filled|]); constructor|exact I]). Qed.
Lemma ext_turn h : h = ex_ext \/ h = ex_extgrid -> forall t, hd_error [0; 1]%nat = Some t -> in_turn h (t_seq (tob h t)) /\ forall x, In x (t_seq (tob h t)) -> dated h x.
Proof.
  intros [-> | ->] t [= <-]; (split; [|intros x Hx; members; finish]).
  - change (t_seq (tob ex_ext 0)) with [0; 3]%nat. eapply in_turn_two; [reflexivity|reflexivity|lia].
  - change (t_seq (tob ex_extgrid 0)) with [0; 3]%nat. eapply in_turn_two; [reflexivity|reflexivity|lia].
Qed.
Lemma ext_new u : In u (g_tiers (gob ex_ext 0)) -> ~ related ex_ext (t_ec (tob ex_ext u)) (t_ec (tob ex_ext 1)).
Proof. intros Hu. members. intros [Q|Q]; vm_compute in Q; discriminate. Qed.
Lemma ext_points u : In u (g_tiers (gob ex_ext 1)) -> ~ related ex_ext (t_ec (tob ex_ext u)) (t_ec (tob ex_ext 3)).
Proof. intros Hu. members. intros [Q|Q]; vm_compute in Q; discriminate. Qed.
Lemma ext_misfit u : In u (g_tiers (gob ex_ext 0)) -> exists a b, t_super (tob ex_ext u) = Some a /\ t_sub (tob ex_ext u) = Some b /\
     ~ related ex_ext a (t_ec (tob ex_ext 4)) /\ ~ related ex_ext b (t_ec (tob ex_ext 4)).
Proof. intros Hu. members. exists 7%nat, 6%nat. split; [reflexivity|]. split; [reflexivity|]. split; intros [Q|Q]; vm_compute in Q; discriminate. Qed.
(** The group loses the name it was given. *)
Lemma c62_name_refuted : let E : Env := demo_env in
  exists n h g t nm h', g_within (gob h g) = None /\ g_name (gob h g) = Some nm /\ nm <> ""%string /\
    grp_append n g t h = Ok tt h' /\ g_name (gob h' g) = None.
Proof.
  cbv zeta. exists 50%nat, ex_ext, 0%nat, 1%nat, "KY"%string, (run (@grp_append demo_env 50 0 1) ex_ext).
  split; [reflexivity|]. split; [reflexivity|]. split; [discriminate|]. split; vm_compute; reflexivity.
Qed.

Lemma extgrid_table : class_table ex_extgrid.
Proof.
  split; [vm_compute; lia|]; split; [|repeat split];
  intros c b; do 18 (destruct c as [|c]; [vm_compute; intros [= <-]; lia || discriminate|]);
  intros E; exfalso; revert E; unfold cob; rewrite lookup_ge_None_2; [discriminate|vm_compute; lia].
Qed.
Lemma extgrid_chain : class_chain ex_extgrid 15 [14; 16]%nat 17.
Proof. chain_goal. Qed.
Lemma extgrid_whole : whole_chains ex_extgrid (a_cloned (aob ex_extgrid 0)).
Proof.
  intros c Hc. right. change (a_cloned (aob ex_extgrid 0)) with [14; 16]%nat in *. exists 15%nat, [14; 16]%nat, 17%nat. split; [exact extgrid_chain|]. split; [exact Hc|apply incl_refl].
Qed.
Lemma extgrid_unrelated : unrelated ex_extgrid [14; 16]%nat.
Proof. intros c d Hc Hd. members; vm_compute; intros; congruence. Qed.
Lemma extgrid_used : used_for ex_extgrid 0 (t_ec (tob ex_extgrid 1)) 16.
Proof. exists [14]%nat, []. split; [reflexivity|]. split; [reflexivity|]. intros x Hx. members; vm_compute; discriminate. Qed.
Lemma extgrid_tiers u : In u (g_tiers (gob ex_extgrid 0)) -> (u < List.length (h_tier ex_extgrid))%nat /\ fit_tier ex_extgrid u /\ up_to_date ex_extgrid u /\
     forall x, In x (t_seq (tob ex_extgrid u)) -> ~ In x (t_seq (tob ex_extgrid 1)).
Proof.
  intros Hu. members. split; [vm_compute; lia|]. split.
  - (split; [split; [apply nodup_by; vm_compute; reflexivity|intros x Hx; members; finish]|]); (split; [reflexivity|]); intros x Hx; members; intros p; vm_compute; discriminate.
  - split; [split; reflexivity|]. intros x Hx. members; vm_compute; intuition discriminate.
Qed.
Lemma extgrid_loose : loose_tier ex_extgrid 1.
Proof.
  split; [vm_compute; lia|]. split; [reflexivity|]. split; [split; [apply nodup_by; vm_compute; reflexivity|intros x Hx; members; finish]|]. split.
  - change (t_seq (tob ex_extgrid 1)) with [10; 13; 16]%nat. intros i j x y Hij Hx Hy.
    destruct i as [|[|[|i]]]; [| | |destruct i; discriminate]; (destruct j as [|[|[|j]]]; [lia| | |destruct j; discriminate]); try lia;
      cbn in Hx, Hy; injection Hx as <-; injection Hy as <-; eexists; eexists; (split; [reflexivity|]); (split; [reflexivity|lia]).
  - intros x Hx. members; (split; [finish|reflexivity]).
Qed.
(** ... and with a tier 5 of a class the grid does not know. *)
Definition ex_extodd : heap := Eval vm_compute in
  let E : Env := demo_env in
  run (cs <- custom_classes ["Line"; "Foot"]%string RNone [] ;; new_itier (FromList [ERaw (Some 0) (Some 20) "f"]) (nth_error cs 1)) ex_extgrid.
Lemma extodd_table : class_table ex_extodd.
Proof.
  split; [vm_compute; lia|]; split; [|repeat split];
  intros c b; do 22 (destruct c as [|c]; [vm_compute; intros [= <-]; lia || discriminate|]);
  intros E; exfalso; revert E; unfold cob; rewrite lookup_ge_None_2; [discriminate|vm_compute; lia].
Qed.
Lemma extodd_strange c : In c (a_cloned (aob ex_extodd 0)) -> class_name ex_extodd c <> class_name ex_extodd (t_ec (tob ex_extodd 5)).
Proof. intros Hc. members; vm_compute; discriminate. Qed.
