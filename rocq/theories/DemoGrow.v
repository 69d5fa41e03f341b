(** * DemoGrow: a related group and a word with syllables and phones that is not in
    it, for the examples. *)
From Verif Require Export DemoRelate GrowSpec.
From Verif Require Import GrowFinal.
Open Scope Z_scope.

(** Word 49 with syllables 52 and 55 and phones 58, 61 and 64; word 73 has no
    syllables; word 76 and its syllables 79 and 82 have the times and labels of
    word 19 and its syllables. *)
Definition ex_grow : heap := Eval vm_compute in
  let E : Env := demo_env in
  run (w <- new_obj 11%nat (Some 2) (Some 10) "w" ;;
       a <- new_obj 12%nat (Some 2) (Some 6) "s" ;;
       b <- new_obj 12%nat (Some 6) (Some 10) "t" ;;
       p <- new_obj 13%nat (Some 2) (Some 3) "p" ;;
       q <- new_obj 13%nat (Some 3) (Some 6) "q" ;;
       r <- new_obj 13%nat (Some 6) (Some 10) "r" ;;
       set_subset_list w [a; b] ;;; set_subset_list a [p; q] ;;; set_subset_list b [r] ;;;
       new_obj 11%nat (Some 60) (Some 80) "x" ;;;
       w2 <- new_obj 11%nat (Some 30) (Some 60) "cd" ;;
       a2 <- new_obj 12%nat (Some 30) (Some 50) "2" ;;
       b2 <- new_obj 12%nat (Some 50) (Some 60) "3" ;;
       set_subset_list w2 [a2; b2]) ex_grouped.
Lemma ex_grow_shape : s_label (sob ex_grow 49) = "w"%string /\ s_label (sob ex_grow 73) = "x"%string /\ s_label (sob ex_grow 76) = "cd"%string /\
  s_subset (sob ex_grow 76) = [79; 82]%nat.
Proof. repeat split. Qed.
Definition is_none {A} (o : option A) : bool := match o with None => true | Some _ => false end.
Definition boundary_b (h : heap) (k : oid) : bool :=
  (k <? List.length (h_seq h))%nat && String.eqb (s_label (sob h k)) "#" && is_none (s_start (sob h k)) && is_none (s_end (sob h k)) &&
  is_none (s_super (sob h k)) && match s_subset (sob h k) with [] => true | _ => false end.
Lemma boundary_by h k : boundary_b h k = true -> is_boundary h k.
Proof.
  unfold boundary_b. rewrite !andb_true_iff. intros (((((A & B) & C) & D) & F) & G).
  split; [apply Nat.ltb_lt; exact A|]. split; [apply String.eqb_eq; exact B|].
  split; [destruct (s_start (sob h k)); [discriminate|reflexivity]|]. split; [destruct (s_end (sob h k)); [discriminate|reflexivity]|].
  split; [destruct (s_super (sob h k)); [discriminate|reflexivity]|]. destruct (s_subset (sob h k)); [reflexivity|discriminate].
Qed.
Fixpoint linked_b (h : heap) (l : list oid) : bool :=
  match l with
  | a :: ((b :: _) as r) => bool_decide (s_fol (sob h a) = Some b) && bool_decide (s_prev (sob h b) = Some a) && linked_b h r
  | _ => true
  end.
Definition chained_b (h : heap) (l : list oid) : bool :=
  linked_b h l &&
  match nth_error l 0 with Some a => match s_prev (sob h a) with Some k => boundary_b h k | None => false end | None => true end &&
  match nth_error l (List.length l - 1) with Some a => match s_fol (sob h a) with Some k => boundary_b h k | None => false end | None => true end.
Lemma chained_by h l : chained_b h l = true -> chained h l.
Proof.
  unfold chained_b. rewrite !andb_true_iff. intros ((A & B) & C). split; [|split].
  - clear B C. revert A. induction l as [|x l IH]; intros A i a b Ha Hb; [destruct i; discriminate|]. destruct l as [|y l]; [destruct i; discriminate|].
    cbn [linked_b] in A. rewrite !andb_true_iff, !bool_decide_eq_true in A. destruct A as ((A1 & A2) & A3). destruct i as [|i].
    + injection Ha as <-. injection Hb as <-. auto.
    + apply (IH A3 i a b); [exact Ha|exact Hb].
  - intros a Ha. rewrite Ha in B. destruct (s_prev (sob h a)) as [k|]; [|discriminate]. exists k. split; [reflexivity|apply boundary_by; exact B].
  - intros a Ha. rewrite Ha in C. destruct (s_fol (sob h a)) as [k|]; [|discriminate]. exists k. split; [reflexivity|apply boundary_by; exact C].
Qed.
Ltac parented := split; [reflexivity|split; [apply chained_by; vm_compute; reflexivity|intros ?y ?Hy; members; split; reflexivity]].
Lemma grow_good : good_group ex_grow 0 ex_order ex_blocks.
Proof.
  split; [vm_compute; lia|]. split; [reflexivity|]. split; [reflexivity|]. split; [reflexivity|].
  split. { split; [vm_compute; repeat split|]. split; [apply nodup_by; vm_compute; reflexivity|].
    split; [intros t Ht; members; finish|]. split; eexists; (split; [reflexivity|]); eexists; split; reflexivity. }
  split; [vm_compute; repeat split|].
  split. { split; [reflexivity|]. split; [repeat (constructor; [filled|]); constructor|].
    split; [reflexivity|]. split; [repeat (constructor; [filled|]); constructor|]. exact I. }
  split. { split; [|split; [|exact I]]; repeat (constructor; [parented|]); constructor. }
  split. { intros t Ht. members; (split; [reflexivity|]); (split; [|reflexivity]); (split; [apply nodup_by; vm_compute; reflexivity|intros x Hx; members; finish]). }
  intros t [= <-]. split; [|intros x Hx; members; finish].
  change (t_seq (tob ex_grow 1)) with [16; 19]%nat. eapply in_turn_two; [reflexivity|reflexivity|lia].
Qed.

Lemma grow_housed t : In t ex_order -> housed ex_grow t.
Proof. intros Ht. members; (split; [left; reflexivity|intros y Hy; members; reflexivity]). Qed.
Lemma grow_sprout : sprout ex_grow ex_order 49.
Proof.
  split; [vm_compute; lia|]. split; [reflexivity|]. split; [vm_compute; discriminate|]. split; [finish|]. split; [filled|]. split.
  { split; [apply nodup_by; vm_compute; reflexivity|]. intros y Hy. members; (split; [vm_compute; lia|]); (split; [vm_compute; discriminate|]); (split; [reflexivity|]).
    all: intros z Hz; members; (split; [reflexivity|]); intros (V1 & V2 & V3 & V4); vm_compute in V1, V2, V3, V4; first [reflexivity|discriminate]. }
  intros y Hy. members.
  all: split; [vm_compute; lia|]; split; [reflexivity|]; split; [vm_compute; discriminate|]; split; [finish|]; split; [filled|]; split.
  all: try (split; [apply nodup_by; vm_compute; reflexivity|]; intros z Hz; members; (split; [vm_compute; lia|]); (split; [vm_compute; discriminate|]); (split; [reflexivity|]);
    intros y Hy; members; (split; [reflexivity|]); intros (V1 & V2 & V3 & V4); vm_compute in V1, V2, V3, V4; first [reflexivity|discriminate]).
  all: intros z Hz; members; (split; [vm_compute; lia|split; [reflexivity|split; [vm_compute; discriminate|split; [finish|reflexivity]]]]).
Qed.
(** A word without syllables: the last syllable before it is then followed by a
    syllable of another word. *)
Lemma c50_childless_refuted : let E : Env := demo_env in
  exists n h g t r bss x A h' y z, good_group h g (t :: r) bss /\ (forall u, In u (t :: r) -> housed h u) /\
    s_super (sob h x) = None /\ s_subset (sob h x) = [] /\ dated h x /\ s_cls (sob h x) = t_ec (tob h t) /\ t_seq (tob h t) = A /\ (forall a, In a A -> precedes h a x) /\
    tier_append n t x h = Ok tt h' /\ t_seq (tob h' t) = (A ++ [x])%list /\
    s_fol (sob h' y) = Some z /\ s_super (sob h' y) <> s_super (sob h' z) /\ s_super (sob h' z) = Some x.
Proof.
  cbv zeta. exists 4%nat, ex_grow, 0%nat, 1%nat, [2; 0]%nat, ex_blocks, 73%nat, [16; 19]%nat. eexists. exists 32%nat. eexists.
  split; [exact grow_good|]. split; [exact grow_housed|]. split; [reflexivity|]. split; [reflexivity|]. split; [finish|]. split; [reflexivity|]. split; [reflexivity|].
  split. { intros a Ha. members; (eexists; eexists; split; [reflexivity|split; [reflexivity|lia]]). }
  split; [vm_compute; reflexivity|]. split; [reflexivity|]. split; [reflexivity|]. split; [vm_compute; discriminate|reflexivity].
Qed.
(** A word with syllables that equals one already there: the two tiers call each
    other until the recursion limit. *)
Lemma c50_twin_refuted : let E : Env := demo_env in
  exists n h g t r bss x, good_group h g (t :: r) bss /\ (forall u, In u (t :: r) -> housed h u) /\
    s_super (sob h x) = None /\ listed h (t_seq (tob h t)) x /\ n = 50%nat /\ exists h', tier_append n t x h = Raise RecursionError h'.
Proof.
  cbv zeta. exists 50%nat, ex_grow, 0%nat, 1%nat, [2; 0]%nat, ex_blocks, 76%nat.
  split; [exact grow_good|]. split; [exact grow_housed|]. split; [reflexivity|]. split; [apply sl_contains_iff; reflexivity|]. split; [reflexivity|].
  eexists. vm_compute. reflexivity.
Qed.
