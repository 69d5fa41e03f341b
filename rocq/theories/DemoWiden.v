(** * DemoWiden: groups with gaps and of different extent, for the examples. *)
From Verif Require Export DemoTidy DemoPlug DemoUneven WidenSpec.
From Verif Require Import ReadFinal.
Open Scope Z_scope.

(** Grid 0 of [ex_uneven] has the groups 0, with gaps, from 10 to 70, and 1,
    without gaps, from 10 to 60. *)
Definition widen_hi (g : nat) : Z := match g with O => 70 | _ => 60 end.
Lemma widen_all g : In g (a_groups (aob ex_uneven 0)) -> @fill_ready demo_env 50 ex_uneven 10 (widen_hi g) g.
Proof.
  change (a_groups (aob ex_uneven 0)) with [0; 1]%nat. intros [<-|[<-|[]]].
  - split; [exact uneven_ready0|]. change (g_tiers (gob ex_uneven 0)) with [0; 1; 2]%nat. intros u Hu. members; (split; [left; reflexivity|reflexivity]).
  - split; [exact uneven_ready1|]. change (g_tiers (gob ex_uneven 1)) with [5; 4; 3]%nat. intros u Hu. members; (split; [left; reflexivity|reflexivity]).
Qed.
Lemma widen_apart : apart_groups ex_uneven (a_groups (aob ex_uneven 0)).
Proof. change (a_groups (aob ex_uneven 0)) with [0; 1]%nat. repeat split; apply nodup_by; vm_compute; reflexivity. Qed.
Lemma widen_bounds : let gs := a_groups (aob ex_uneven 0) in
  least (fun z => exists g, In g gs /\ 10 = z) 10 /\ greatest (fun z => exists g, In g gs /\ 10 = z) 10 /\
  least (fun z => exists g, In g gs /\ widen_hi g = z) 60 /\ greatest (fun z => exists g, In g gs /\ widen_hi g = z) 70.
Proof.
  cbv zeta. change (a_groups (aob ex_uneven 0)) with [0; 1]%nat.
  split; [|split; [|split]]; (split; [|intros z (g & [<-|[<-|[]]] & <-); cbn; lia]); [exists 0%nat|exists 0%nat|exists 1%nat|exists 0%nat]; cbn; auto.
Qed.
Lemma widen_uneven : ~ (@near demo_env 10 10 /\ @near demo_env 60 70).
Proof. intros [_ N]. vm_compute in N. apply N. reflexivity. Qed.

(** A speaker with a gap, from 10 to 60, and one without, from 25 to 90. *)
Definition widen_rows : list (list rawtier) := [[ex_gsegs 10; ex_gwords 10]; [ex_words2; ex_segs2]].
Lemma widen_bounds_rows :
  least (fun z => exists row, In row widen_rows /\ uneven_lo row = z) 10 /\ greatest (fun z => exists row, In row widen_rows /\ uneven_lo row = z) 25 /\
  least (fun z => exists row, In row widen_rows /\ uneven_hi row = z) 60 /\ greatest (fun z => exists row, In row widen_rows /\ uneven_hi row = z) 90.
Proof.
  split; [|split; [|split]]; (split; [|intros z (g & [<-|[<-|[]]] & <-); vm_compute; discriminate]);
    first [exists [ex_gsegs 10; ex_gwords 10]; split; [left; reflexivity|vm_compute; reflexivity]|exists [ex_words2; ex_segs2]; split; [right; left; reflexivity|vm_compute; reflexivity]].
Qed.
Lemma widen_nesting : Forall2 (fun row ocs => nesting boot_heap (uneven_lo row) (uneven_hi row) row ocs) widen_rows uneven_classes.
Proof.
  pose proof uneven_nesting as U. inversion U as [|? ? ? ? _ U2]; subst. constructor; [|exact U2]. split; [reflexivity|].
  exists [cWord; cPhone], [ex_gwords 10; ex_gsegs 10]. split; [exists cTopwp, cBottomwp; exact boot_chain|]. split; [exact boot_names|]. split; [reflexivity|].
  split; [vm_compute; apply perm_swap|]. split; [exists (ex_gwords 10); split; [reflexivity|turns_goal]|].
  cbn. split; [|exact I].
  exists [[ERaw (Some 10) (Some 15) "a"; ERaw (Some 15) (Some 20) "b"]; [ERaw (Some 40) (Some 50) "c"; ERaw (Some 50) (Some 60) "d"]]. split; [reflexivity|].
  constructor; [|constructor; [|constructor]]; (do 3 eexists; split; [reflexivity|]; split; [lia|]); cbn;
    repeat (do 2 eexists; split; [reflexivity|]; split; [lia|]; split; [discriminate|]); reflexivity.
Qed.
Lemma widen_room : forall row, In row widen_rows -> @gapless demo_env row \/ 0 < uneven_lo row /\ (List.length row <= 50)%nat.
Proof. intros row [<-|[<-|[]]]; right; (split; [vm_compute; reflexivity|cbn; lia]). Qed.
