(** * DemoRelate: the tiers of [DemoGroup], related, for the examples. *)
From Verif Require Export DemoGroup RelateSpec.
From Verif Require Import RelateFinal.
Open Scope Z_scope.

Definition ex_grouped : heap := Eval vm_compute in
  let E : Env := demo_env in run (new_tg 50 [0; 1; 2]%nat) ex_tiers.
Lemma ex_dated t : hd_error ex_order = Some t -> in_turn ex_tiers (t_seq (tob ex_tiers t)) /\ forall x, In x (t_seq (tob ex_tiers t)) -> dated ex_tiers x.
Proof. intros Ht. split; [apply ex_turn; exact Ht|]. injection Ht as <-. intros x Hx. members; finish. Qed.
Lemma ex_fit t : In t ex_order -> fit_tier ex_tiers t.
Proof.
  intros Ht. destruct (ex_fresh t Ht) as (F1 & F2 & F3). split; [exact F1|]. split; [exact F2|].
  intros x Hx p Hp. rewrite (F3 x Hx) in Hp. discriminate.
Qed.
Lemma ex_good_group : good_group ex_grouped 0 ex_order ex_blocks.
Proof.
  destruct (@c49_new demo_env 50 ex_tiers [0; 1; 2]%nat ex_order ex_blocks) as (g & h' & E & G & _ & N & _).
  - apply (Permutation_cons_append [1;2]%nat 0%nat).
  - exact ex_tier_chain.
  - exact ex_classes_joined.
  - exact ex_fit.
  - exact ex_snug.
  - exact ex_dated.
  - assert (Q : ex_grouped = h').
    { transitivity (heap_of (@new_tg demo_env 50 [0; 1; 2]%nat ex_tiers)); [vm_compute; reflexivity|rewrite E; reflexivity]. }
    rewrite Q. replace 0%nat with g by (rewrite N; reflexivity). exact G.
Qed.

(** The boundary between the two words is moved to the end of the second
    syllable, so that the syllable should have another parent. *)
Definition ex_shifted : heap := Eval vm_compute in upd_seq 16 (set_s_end (Some 50)) (upd_seq 19 (set_s_start (Some 50)) ex_grouped).
Definition ex_blocks2 : list (list (list nat)) := [[[26; 29]; [32]]; [[0; 3]; [6]; [9]]]%nat.
Lemma shifted_chain : tier_chain ex_shifted ex_order.
Proof.
  split; [vm_compute; repeat split|]. split; [apply nodup_by; vm_compute; reflexivity|].
  split; [intros t Ht; members; finish|]. split; eexists; (split; [reflexivity|]); eexists; split; reflexivity.
Qed.
Lemma shifted_joined : classes_joined ex_shifted ex_order.
Proof. vm_compute. repeat split. Qed.
Lemma shifted_snug : snug ex_shifted ex_order ex_blocks2.
Proof.
  split; [reflexivity|]. split; [repeat (constructor; [filled|]); constructor|].
  split; [reflexivity|]. split; [repeat (constructor; [filled|]); constructor|]. exact I.
Qed.
Lemma shifted_turn t : hd_error ex_order = Some t -> in_turn ex_shifted (t_seq (tob ex_shifted t)) /\ forall x, In x (t_seq (tob ex_shifted t)) -> dated ex_shifted x.
Proof.
  intros [= <-]. split; [|intros x Hx; members; finish].
  change (t_seq (tob ex_shifted 1)) with [16; 19]%nat. eapply in_turn_two; [reflexivity|reflexivity|lia].
Qed.
Lemma shifted_fit t : In t ex_order -> fit_tier ex_shifted t.
Proof.
  intros Ht. members.
  all: split; [split; [apply nodup_by; vm_compute; reflexivity|intros x Hx; members; finish]|].
  all: split; [reflexivity|].
  all: intros x Hx p Hp; members; vm_compute in Hp; try discriminate; injection Hp as <-.
  all: split; [vm_compute; lia|]; split; [discriminate|]; split; [vm_compute; auto|]; split; [apply nodup_by; vm_compute; reflexivity|].
  all: intros y Hy; members; (split; [vm_compute; lia|]); (split; [vm_compute; discriminate|]); (split; [reflexivity|]).
  all: intros z Hz; members; (split; [reflexivity|]); intros (V1 & V2 & V3 & V4); vm_compute in V1, V2, V3, V4; first [reflexivity|discriminate].
Qed.
