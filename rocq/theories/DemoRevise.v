(** * DemoRevise: a grid to make several changes to, for the examples. *)
From Verif Require Export DemoPop ReviseSpec.
From Verif Require Import ReviseFinal.
Open Scope Z_scope.

(** The grids 0, of the groups 0, 1 and 2 of [DemoPop], all with names, and 1, of
    the group 0 only. *)
Definition ex_rev : heap := Eval vm_compute in
  run (modify (upd_grp 1 (set_g_name (Some "IY"%string))) ;;;
       modify (fun h => Heap (h_cls h) (h_seq h) (h_tier h) (h_grp h) (h_grid h ++ [GridObj [0%nat] []]))) ex_pop.
Definition rev_edits : list edit :=
  [Add "Foot" "Syl" true true true; Drop "Phone"; Add "Mora" "Syl" false false false; Drop "Syl"].

Lemma rev_good0 : good_group ex_rev 0 ex_order ex_blocks.
Proof.
  split; [vm_compute; lia|]. split; [reflexivity|]. split; [reflexivity|]. split; [reflexivity|].
  split. { split; [vm_compute; repeat split|]. split; [apply nodup_by; vm_compute; reflexivity|].
    split; [intros t Ht; members; finish|]. split; eexists; (split; [reflexivity|]); eexists; split; reflexivity. }
  split; [vm_compute; repeat split|].
  split. { split; [reflexivity|]. split; [repeat (constructor; [filled|]); constructor|].
    split; [reflexivity|]. split; [repeat (constructor; [filled|]); constructor|]. exact I. }
  split. { split; [|split; [|exact I]]; repeat (constructor; [parented|]); constructor. }
  split. { intros t Ht. members; (split; [reflexivity|]); (split; [|reflexivity]); (split; [apply nodup_by; vm_compute; reflexivity|intros x Hx; members; finish]). }
  intros t [= <-]. split; [|intros x Hx; members; finish].
  change (t_seq (tob ex_rev 1)) with [16; 19]%nat. eapply in_turn_two; [reflexivity|reflexivity|lia].
Qed.
Lemma rev_good1 : good_group ex_rev 1 [5; 4; 3]%nat pop_blocks2.
Proof.
  split; [vm_compute; lia|]. split; [reflexivity|]. split; [reflexivity|]. split; [reflexivity|].
  split. { split; [vm_compute; repeat split|]. split; [apply nodup_by; vm_compute; reflexivity|].
    split; [intros t Ht; members; finish|]. split; eexists; (split; [reflexivity|]); eexists; split; reflexivity. }
  split; [vm_compute; repeat split|].
  split. { split; [reflexivity|]. split; [repeat (constructor; [filled|]); constructor|].
    split; [reflexivity|]. split; [repeat (constructor; [filled|]); constructor|]. exact I. }
  split. { split; [|split; [|exact I]]; repeat (constructor; [parented|]); constructor. }
  split. { intros t Ht. members; (split; [reflexivity|]); (split; [|reflexivity]); (split; [apply nodup_by; vm_compute; reflexivity|intros x Hx; members; finish]). }
  intros t [= <-]. split; [|intros x Hx; members; finish].
  change (t_seq (tob ex_rev 5)) with [66]%nat. intros i j x y Hij Hx Hy. destruct j as [|j]; [lia|destruct j; discriminate].
Qed.
Lemma rev_full g : In g [0; 1]%nat -> full_group ex_rev [11; 12; 13]%nat g.
Proof.
  intros Hg. members; (split; [reflexivity|]); (split; [first [eexists; exact rev_good0|eexists; exact rev_good1]|]).
  all: intros t x [= <-] Hx; members; reflexivity.
Qed.
Lemma rev_group g : In g [0; 1; 2]%nat -> group_of ex_rev [11; 12; 13]%nat ["SequencePoint"%string] g.
Proof.
  intros Hg. members; (split; [vm_compute; lia|]); (split; [intros k Hk; members; (split; [vm_compute; lia|intros x Hx; members; vm_compute; lia])|]); (split; [intros k Hk; members; (split; [vm_compute; lia|intros x Hx; members; vm_compute; lia])|]).
  - left. split; [apply rev_full; simpl; auto|]. split; [eexists; split; [reflexivity|discriminate]|]. intros k Hk. members; vm_compute; discriminate.
  - left. split; [apply rev_full; simpl; auto|]. split; [eexists; split; [reflexivity|discriminate]|]. intros k Hk. members; vm_compute; discriminate.
  - right. intros k Hk. members. split; [left; reflexivity|vm_compute; intuition discriminate].
Qed.
Lemma rev_working a : In a [0; 1]%nat -> working ex_rev a 9 [11; 12; 13]%nat 10 ["SequencePoint"%string].
Proof.
  intros Ha. split; [exact pop_table|]. split; [exact pop_chain|]. split; [exact pop_unrelated|]. split; [vm_compute; intuition discriminate|].
  split. { intros x Hx. split; [apply (pop_names x Hx)|members; vm_compute; discriminate]. }
  split; [apply (bool_decide_unpack _); vm_compute; exact I|]. split; [reflexivity|]. split; [reflexivity|].
  members; (split; [vm_compute; lia|]).
  - split; [exact pop_apart|]. split; [intros g Hg; apply rev_group; exact Hg|]. exists 0%nat. split; [vm_compute; auto|apply rev_full; simpl; auto].
  - split; [repeat split; apply nodup_by; vm_compute; reflexivity|]. split; [intros g Hg; apply rev_group; members; simpl; auto|]. exists 0%nat. split; [vm_compute; auto|apply rev_full; simpl; auto].
Qed.
Lemma rev_allowed : all_allowed ["SequencePoint"%string] (map (class_name ex_rev) [11; 12; 13]%nat) rev_edits.
Proof.
  cbn. repeat match goal with |- _ /\ _ => split | |- True => exact I end; try reflexivity; try discriminate; try (vm_compute; tauto); try (vm_compute; intuition discriminate); vm_compute; lia.
Qed.

Lemma c72_redo_refuted : exists (E : Env) (n : nat) (h : heap) (a : aid) (t : cid) (cs : list cid) (b : cid) (others : list string) (nm : string),
  working h a t cs b others /\ allowed others (map (class_name h) cs) (Drop nm) /\
  forall nm2 above from_below labels h', In nm2 (edit_names (Drop nm) (map (class_name h) cs)) ->
    make_edits n a [Drop nm; Add nm nm2 above from_below labels] h = Ok tt h' -> grid_view h' a <> grid_view h a.
Proof.
  exists demo_env, 5%nat, ex_rev, 0%nat, 9%nat, [11; 12; 13]%nat, 10%nat, ["SequencePoint"%string], "Syl"%string.
  split; [apply rev_working; simpl; auto|]. split; [split; [vm_compute; tauto|vm_compute; lia]|].
  intros nm2 above fb labels h' H2. change (edit_names (Drop "Syl") (map (class_name ex_rev) [11; 12; 13]%nat)) with ["Word"; "Phone"]%string in H2.
  destruct H2 as [<-|[<-|[]]]; destruct above, fb, labels; vm_compute; intros [= <-]; discriminate.
Qed.
