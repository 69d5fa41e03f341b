(** * DemoTag: concrete cases for C73. *)
From Verif Require Export TagSpec DemoPop DemoWeave DemoAdd DemoRead.
From Verif Require Import TagFinal.
Open Scope Z_scope.

(** A text grid of words and segments with two tiers of points, read. *)
Definition ex_tag0 : desk := Desk boot_heap (fun _ => []).
Definition ex_tag1 : desk := Eval vm_compute in
  match @read_named demo_env 50 [ex_words; ex_segs; ex_marks; ex_tones] (Nested [[cWord; cPhone]; [cPoint; cPoint]]) ex_tag0 with DOk _ d | DRaise _ d => d end.
Lemma tag1_ok : @read_named demo_env 50 [ex_words; ex_segs; ex_marks; ex_tones] (Nested [[cWord; cPhone]; [cPoint; cPoint]]) ex_tag0 = DOk 0%nat ex_tag1.
Proof. vm_compute. reflexivity. Qed.
(** ... with a class put between. *)
Definition ex_tag2 : desk := Eval vm_compute in
  match @interleave_class_tagged demo_env 5 0 "Syl" true "Phone" true true ex_tag1 with DOk _ d | DRaise _ d => d end.
Lemma tag2_ok : @interleave_class_tagged demo_env 5 0 "Syl" true "Phone" true true ex_tag1 = DOk tt ex_tag2.
Proof. vm_compute. reflexivity. Qed.
Ltac tagged := split; [intros t Ht; members; vm_compute; lia|intros _ t Ht; members; vm_compute; reflexivity].
Ltac untagged := split; [intros t Ht; members; vm_compute; lia|intros C; exfalso; revert C; unfold classes_differ; vm_compute; intros C; apply NoDup_cons in C; destruct C as (C & _); apply C; constructor].
Lemma tag1_words : well_tagged ex_tag1 0.
Proof. tagged. Qed.
Lemma tag1_marks : well_tagged ex_tag1 1.
Proof. untagged. Qed.
Lemma tag1_classes : forall g t, In t (g_tiers (gob (d_heap ex_tag1) g)) -> clive (d_heap ex_tag1) (t_ec (tob (d_heap ex_tag1) t)).
Proof. intros g t Ht. destruct g as [|[|g]]; [members; unfold clive; vm_compute; lia|members; unfold clive; vm_compute; lia|destruct g; destruct Ht]. Qed.

(** Two tiers of points of the same class cannot be reached by its name. *)
Lemma c73_repeated_refuted : exists (n : nat) tg ecs d a d' g t, @read_named demo_env n tg ecs d = DOk a d' /\ In g (a_groups (aob (d_heap d') a)) /\
  In t (g_tiers (gob (d_heap d') g)) /\ by_name d' g (class_name (d_heap d') (t_ec (tob (d_heap d') t))) = None.
Proof.
  exists 50%nat, [ex_words; ex_segs; ex_marks; ex_tones], (Nested [[cWord; cPhone]; [cPoint; cPoint]]), ex_tag0, 0%nat, ex_tag1, 1%nat, 2%nat.
  split; [exact tag1_ok|]. vm_compute. tauto.
Qed.
(** A group that was replaced when a class was put in has the new tier in its list
    but not as an attribute. *)
Lemma c73_replaced_refuted : exists (n : nat) a nm (above : bool) nm2 (from_below labels : bool) d d' g t, In g (a_groups (aob (d_heap d) a)) /\ well_tagged d g /\
  @interleave_class_tagged demo_env n a nm above nm2 from_below labels d = DOk tt d' /\ classes_differ (d_heap d') g /\
  In t (g_tiers (gob (d_heap d') g)) /\ by_name d' g (class_name (d_heap d') (t_ec (tob (d_heap d') t))) = None.
Proof.
  exists 5%nat, 0%nat, "Syl"%string, true, "Phone"%string, true, true, ex_tag1, ex_tag2, 0%nat, 4%nat.
  split; [vm_compute; tauto|]. split; [exact tag1_words|]. split; [exact tag2_ok|]. split; [apply (bool_decide_unpack _); vm_compute; exact I|]. vm_compute. tauto.
Qed.
