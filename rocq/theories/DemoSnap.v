(** * DemoSnap: words and phones whose boundaries do not match. *)
From Verif Require Export DemoGroup SnapSpec.
Open Scope Z_scope.

(** Tier 0: four phones; tier 1: two words.  The words part at 30, the phones at 31. *)
Definition ex_rough : heap := Eval vm_compute in
  let E : Env := demo_env in
  run (new_itier (FromList [ERaw (Some 8) (Some 20) "a"; ERaw (Some 20) (Some 31) "b"; ERaw (Some 31) (Some 50) "c"; ERaw (Some 50) (Some 60) "d"]) (Some 6%nat) ;;;
       new_itier (FromList [ERaw (Some 10) (Some 30) "ab"; ERaw (Some 30) (Some 60) "cd"]) (Some 5%nat)) boot_heap.
Lemma rough_shape : map t_seq (h_tier ex_rough) = [[0; 3; 6; 9]; [16; 19]]%nat.
Proof. reflexivity. Qed.
Lemma rough_chain : tier_chain ex_rough [1; 0]%nat.
Proof.
  split; [vm_compute; repeat split|]. split; [apply nodup_by; vm_compute; reflexivity|].
  split; [intros t Ht; members; finish|]. split; eexists; (split; [reflexivity|]); eexists; split; reflexivity.
Qed.
Lemma rough_joined : classes_joined ex_rough [1; 0]%nat.
Proof. vm_compute. repeat split. Qed.
Lemma rough_fresh t : In t [1; 0]%nat -> fresh_tier ex_rough t.
Proof.
  intros Ht. members.
  all: split; [split; [apply nodup_by; vm_compute; reflexivity|intros x Hx; members; finish]|].
  all: split; [reflexivity|intros x Hx; members; finish].
Qed.
Lemma rough_meeting : meeting ex_rough (t_seq (tob ex_rough 1)) (t_seq (tob ex_rough 0)).
Proof.
  change (t_seq (tob ex_rough 1)) with [16; 19]%nat. change (t_seq (tob ex_rough 0)) with [0; 3; 6; 9]%nat.
  split; [eapply in_turn_two; [reflexivity|reflexivity|lia]|]. split; [intros x Hx; members; finish|].
  split; [eexists; eexists; tiled|]. split; [apply overlap_from; vm_compute; reflexivity|]. apply best_from. vm_compute. reflexivity.
Qed.
Lemma rough_crossing : crossing ex_rough (t_seq (tob ex_rough 1)) (t_seq (tob ex_rough 0)).
Proof.
  exists 0%nat, 16%nat, 3%nat. split; [reflexivity|]. split; [right; left; reflexivity|]. split; [apply best_by; vm_compute; reflexivity|].
  intros [_ Q]. vm_compute in Q. apply Q. reflexivity.
Qed.

(** Three tiers: words and syllables match, syllables and phones do not. *)
Definition ex_three : heap := Eval vm_compute in
  let E : Env := demo_env in
  run (new_itier (FromList [ERaw (Some 10) (Some 20) "a"; ERaw (Some 20) (Some 31) "b"; ERaw (Some 31) (Some 50) "c"; ERaw (Some 50) (Some 60) "d"]) (Some 13%nat) ;;;
       new_itier (FromList [ERaw (Some 10) (Some 30) "ab"; ERaw (Some 30) (Some 60) "cd"]) (Some 11%nat) ;;;
       new_itier (FromList [ERaw (Some 10) (Some 30) "1"; ERaw (Some 30) (Some 50) "2"; ERaw (Some 50) (Some 60) "3"]) (Some 12%nat)) ex_classes.
Lemma three_chain : tier_chain ex_three ex_order.
Proof.
  split; [vm_compute; repeat split|]. split; [apply nodup_by; vm_compute; reflexivity|].
  split; [intros t Ht; members; finish|]. split; eexists; (split; [reflexivity|]); eexists; split; reflexivity.
Qed.
Lemma three_joined : classes_joined ex_three ex_order.
Proof. vm_compute. repeat split. Qed.
Lemma three_fresh t : In t ex_order -> fresh_tier ex_three t /\ t_seq (tob ex_three t) <> [].
Proof.
  intros Ht. split; [|members; vm_compute; discriminate]. members.
  all: split; [split; [apply nodup_by; vm_compute; reflexivity|intros x Hx; members; finish]|].
  all: split; [reflexivity|intros x Hx; members; finish].
Qed.
Lemma three_meeting k t u : nth_error ex_order k = Some t -> nth_error ex_order (S k) = Some u ->
  meeting ex_three (t_seq (tob ex_three t)) (t_seq (tob ex_three u)) /\ same_ends ex_three (t_seq (tob ex_three t)) (t_seq (tob ex_three u)).
Proof.
  intros Ht Hu. destruct k as [|[|k]]; [injection Ht as <-; injection Hu as <-..|simpl in Hu; destruct k; discriminate].
  - change (t_seq (tob ex_three 1)) with [16; 19]%nat. change (t_seq (tob ex_three 2)) with [26; 29; 32]%nat. split.
    + split; [eapply in_turn_two; [reflexivity|reflexivity|lia]|]. split; [intros x Hx; members; finish|].
      split; [eexists; eexists; tiled|]. split; [apply overlap_from; vm_compute; reflexivity|]. apply best_from. vm_compute. reflexivity.
    + split; intros x y [= <-] [= <-]; reflexivity.
  - change (t_seq (tob ex_three 0)) with [0; 3; 6; 9]%nat. change (t_seq (tob ex_three 2)) with [26; 29; 32]%nat. split.
    + split; [eapply in_turn_three; [reflexivity|reflexivity|reflexivity|reflexivity|lia|lia|lia]|]. split; [intros x Hx; members; finish|].
      split; [eexists; eexists; tiled|]. split; [apply overlap_from; vm_compute; reflexivity|]. apply best_from. vm_compute. reflexivity.
    + split; intros x y [= <-] [= <-]; reflexivity.
Qed.
Lemma c66_three_refuted : let E : Env := demo_env in
  exists h ts g h' x y, tier_chain h ts /\ classes_joined h ts /\
    (forall t, In t ts -> fresh_tier h t /\ t_seq (tob h t) <> []) /\
    (forall k t u, nth_error ts k = Some t -> nth_error ts (S k) = Some u ->
       meeting h (t_seq (tob h t)) (t_seq (tob h u)) /\ same_ends h (t_seq (tob h t)) (t_seq (tob h u))) /\
    new_tg 50 ts h = Ok g h' /\ hd_error (s_subset (sob h' x)) = Some y /\ s_super (sob h' y) = Some x /\
    s_start (sob h' x) = Some 30 /\ s_start (sob h' y) = Some 31.
Proof.
  cbv zeta. exists ex_three, ex_order, 0%nat. eexists. exists 19%nat, 29%nat. split; [exact three_chain|]. split; [exact three_joined|].
  split; [exact three_fresh|]. split; [exact three_meeting|]. split; [vm_compute; reflexivity|]. vm_compute. auto.
Qed.
