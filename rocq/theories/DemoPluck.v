(** * DemoPluck: examples and a counterexample of popping an interval from a tier. *)
From Verif Require Export DemoFuse PluckSpec.
From Verif Require Import ChildSpec.
Open Scope Z_scope.

(** [ex_three] with one more phone, 38, in no tier, with the times and the label of phone 19. *)
Definition ex_spare : heap := Eval vm_compute in
  let E : Env := demo_env in
  run (new_obj 11%nat (s_start (sob ex_three 19)) (s_end (sob ex_three 19)) (s_label (sob ex_three 19))) ex_three.
Definition spare : oid := Eval vm_compute in List.length (h_seq ex_three).
Definition sole_b (h : heap) (l : list oid) (x : oid) : bool :=
  forallb (fun y => Nat.eqb y x || negb (bool_decide (s_start (sob h y) = s_start (sob h x)))) l.
Lemma sole_by h l x : sole_b h l x = true -> sole_value h l x.
Proof.
  unfold sole_b. rewrite forallb_forall. intros A y Hy (_ & V & _). specialize (A y Hy). apply orb_true_iff in A. destruct A as [A|A].
  - apply Nat.eqb_eq. exact A.
  - apply negb_true_iff, bool_decide_eq_false in A. contradiction.
Qed.
Lemma three_filed : filed ex_three 19.
Proof.
  intros p [= <-]. split; [vm_compute; lia|]. split; [discriminate|]. split; [vm_compute; auto|]. split; [apply nodup_by; vm_compute; reflexivity|].
  intros y Hy. members; (split; [vm_compute; lia|]); (split; [vm_compute; discriminate|]); (split; [reflexivity|]).
  all: intros z Hz; members; (split; [reflexivity|]); intros (V1 & V2 & V3 & V4); vm_compute in V2; first [reflexivity|discriminate].
Qed.

(** In a text grid the neighbours of a popped word still point at it. *)
Lemma c71_links_refuted : let E : Env := demo_env in exists h t x h',
  (t < List.length (h_tier h))%nat /\ NoDup (t_seq (tob h t)) /\ In x (t_seq (tob h t)) /\ sole_value h (t_seq (tob h t)) x /\
  filed h x /\ chained h (t_seq (tob h t)) /\ tier_pop t x h = Ok tt h' /\ ~ In x (t_seq (tob h' t)) /\
  (exists y, In y (t_seq (tob h' t)) /\ s_fol (sob h' y) = Some x) /\ ~ chained h' (t_seq (tob h' t)).
Proof.
  cbv zeta. exists ex_three, 0%nat, 3%nat. eexists. split; [vm_compute; lia|]. split; [apply nodup_by; vm_compute; reflexivity|]. split; [vm_compute; auto|].
  split; [apply sole_by; vm_compute; reflexivity|]. split; [intros p Q; vm_compute in Q; discriminate|]. split; [apply chained_by; vm_compute; reflexivity|].
  split; [vm_compute; reflexivity|]. split; [vm_compute; intuition discriminate|]. split.
  - exists 0%nat. split; [vm_compute; auto|reflexivity].
  - intros (C & _). destruct (C 0%nat 0%nat 6%nat) as [Q _]; [reflexivity|reflexivity|]. vm_compute in Q. discriminate.
Qed.
(** A popped interval still says that it is in the tier. *)
Lemma c71_tier_refuted : let E : Env := demo_env in exists h t x h',
  In x (t_seq (tob h t)) /\ tier_pop t x h = Ok tt h' /\ ~ In x (t_seq (tob h' t)) /\ s_intier (sob h' x) = Some t.
Proof.
  cbv zeta. exists ex_three, 1%nat, 19%nat. eexists. split; [vm_compute; auto|]. split; [vm_compute; reflexivity|]. split; [vm_compute; intuition discriminate|reflexivity].
Qed.
