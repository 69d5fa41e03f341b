(** * DemoPlus: examples and counterexamples of adding two intervals. *)
From Verif Require Export DemoChild PlusOps PlusSpec.
From Verif Require Import ChildSpec.
Open Scope Z_scope.

(** In [ex_kin] word 0 has phones 3 and 6, word 28 has none, and phones 11 and 25
    are loose. *)
Lemma kin_apart : all_apart ex_kin (s_subset (sob ex_kin 0)).
Proof.
  intros y z Hy Hz (V1 & V2 & V3 & V4). cbn in Hy, Hz. destruct Hy as [<-|[<-|[]]], Hz as [<-|[<-|[]]]; try reflexivity; vm_compute in V2; discriminate.
Qed.
Lemma bare_apart : all_apart ex_kin (s_subset (sob ex_kin 28)).
Proof. intros y z Hy. cbn in Hy. destruct Hy. Qed.
Ltac unlisted := intros (y & Hy & D); cbn in Hy; repeat (destruct Hy as [<-|Hy]; [destruct D as [D|(V1 & V2 & V3 & V4)]; [discriminate D|vm_compute in V2; discriminate V2]|]); destruct Hy.

(** The children of [s] are not those that it had and the added one. *)
Lemma c70_kept_refuted : let E : Env := demo_env in exists h c s x y w h',
  family h c s /\ issubclass h (s_cls (sob h s)) cInterval = true /\ superset_class h c = Some (s_cls (sob h s)) /\
  sound_child h c x /\ s_super (sob h x) = None /\ x <> s /\ ~ listed h (s_subset (sob h s)) x /\ all_apart h (s_subset (sob h s)) /\
  seq_plus s x h = Ok w h' /\ In y (s_subset (sob h s)) /\ ~ In y (s_subset (sob h' w)).
Proof.
  cbv zeta. exists ex_kin, 6%nat, 0%nat, 11%nat, 3%nat. eexists _, _. split; [exact kin_family|]. split; [reflexivity|]. split; [reflexivity|].
  split; [sound|]. split; [reflexivity|]. split; [discriminate|]. split; [unlisted|]. split; [exact kin_apart|]. split; [vm_compute; reflexivity|].
  split; [vm_compute; auto|]. vm_compute. intuition discriminate.
Qed.
(** Adding one phone to a word without phones and then another one leaves the word
    with the second alone. *)
Lemma c70_both_refuted : let E : Env := demo_env in exists h s x y w h',
  s_subset (sob h s) = [] /\ x <> y /\
  (v <- seq_plus s x ;; seq_plus v y) h = Ok w h' /\ s_subset (sob h' w) = [y] /\ s_super (sob h' x) = None.
Proof.
  cbv zeta. exists ex_kin, 28%nat, 11%nat, 25%nat. eexists _, _. split; [reflexivity|]. split; [discriminate|]. split; [vm_compute; reflexivity|].
  split; vm_compute; reflexivity.
Qed.
