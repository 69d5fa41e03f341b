(** * DemoRagged: words and phones with gaps. *)
From Verif Require Export DemoGroup RaggedSpec.
Open Scope Z_scope.

(** Tier 0: three phones; tier 1: three words.  The first word has room before,
    between and after its two phones, the second has no phone at all. *)
Definition ex_ragged : heap := Eval vm_compute in
  let E : Env := demo_env in
  run (new_itier (FromList [ERaw (Some 12) (Some 20) "a"; ERaw (Some 25) (Some 28) "b"; ERaw (Some 50) (Some 60) "c"]) (Some 6%nat) ;;;
       new_itier (FromList [ERaw (Some 10) (Some 30) "ab"; ERaw (Some 30) (Some 50) "sil"; ERaw (Some 50) (Some 60) "c"]) (Some 5%nat)) boot_heap.
Lemma ragged_chain : tier_chain ex_ragged [1; 0]%nat.
Proof.
  split; [vm_compute; repeat split|]. split; [apply nodup_by; vm_compute; reflexivity|].
  split; [intros t Ht; members; finish|]. split; eexists; (split; [reflexivity|]); eexists; split; reflexivity.
Qed.
Lemma ragged_joined : classes_joined ex_ragged [1; 0]%nat.
Proof. vm_compute. repeat split. Qed.
Lemma ragged_fresh t : In t [1; 0]%nat -> fresh_tier ex_ragged t.
Proof.
  intros Ht. members.
  all: split; [split; [apply nodup_by; vm_compute; reflexivity|intros x Hx; members; finish]|].
  all: split; [reflexivity|intros x Hx; members; finish].
Qed.
Lemma ragged_home t : In t [1; 0]%nat -> at_home ex_ragged t.
Proof. intros Ht. members; (split; [left; reflexivity|intros x Hx; members; finish]). Qed.
Lemma ragged_turn : in_turn ex_ragged (t_seq (tob ex_ragged 1)).
Proof. eapply in_turn_three; [reflexivity..|lia|lia|lia]. Qed.
Lemma ragged_nested : nested ex_ragged (t_seq (tob ex_ragged 1)) [[0; 3]; []; [6]]%nat.
Proof.
  change (t_seq (tob ex_ragged 1)) with [13; 16; 19]%nat.
  constructor; [exists 10, 30|constructor; [exists 30, 50|constructor; [exists 50, 60|constructor]]];
    (split; [reflexivity|]; split; [reflexivity|]; split; [lia|]).
  - exists 12, 20. split; [reflexivity|]. split; [reflexivity|]. split; [lia|]. split; [lia|].
    exists 25, 28. split; [reflexivity|]. split; [reflexivity|]. split; [lia|]. split; [lia|]. cbn [runs]. lia.
  - cbn [runs]. lia.
  - exists 50, 60. split; [reflexivity|]. split; [reflexivity|]. split; [lia|]. split; [lia|]. cbn [runs]. lia.
Qed.
Lemma ragged_early x s : In x (t_seq (tob ex_ragged 1)) -> s_start (sob ex_ragged x) = Some s -> 0 <= s.
Proof. intros Hx Q. members; vm_compute in Q; injection Q as <-; lia. Qed.
Lemma c69_phantom_refuted : let E : Env := demo_env in
  exists h t u bs g h' x y, tier_chain h [t; u] /\ classes_joined h [t; u] /\ fresh_tier h t /\ fresh_tier h u /\ at_home h t /\ at_home h u /\
    in_turn h (t_seq (tob h t)) /\ concat bs = t_seq (tob h u) /\ nested h (t_seq (tob h t)) bs /\ new_tg 50 [t; u] h = Ok g h' /\
    In x (t_seq (tob h' t)) /\ In y (s_subset (sob h' x)) /\ s_super (sob h' y) = Some x /\ ~ In y (t_seq (tob h' u)) /\ s_intier (sob h' y) = None.
Proof.
  cbv zeta. exists ex_ragged, 1%nat, 0%nat, [[0; 3]; []; [6]]%nat, 0%nat. eexists. exists 13%nat, 26%nat.
  split; [exact ragged_chain|]. split; [exact ragged_joined|]. split; [apply ragged_fresh; simpl; auto|]. split; [apply ragged_fresh; simpl; auto|].
  split; [apply ragged_home; simpl; auto|]. split; [apply ragged_home; simpl; auto|]. split; [exact ragged_turn|]. split; [reflexivity|].
  split; [exact ragged_nested|]. split; [vm_compute; reflexivity|]. split; [vm_compute; auto|]. split; [vm_compute; auto|]. split; [reflexivity|].
  split; [vm_compute; intuition discriminate|reflexivity].
Qed.
