(** * Property C50: appending to a tier of a group.
    Theorems only; proofs in GrowFinal.v and DemoGrow.v. *)
From Verif Require Import GrowFinal DemoGrow.
Open Scope Z_scope.

(** C50: an interval with everything below it, appended to the top tier of a
    group in good order. *)
Theorem C50_append `{Env} : forall n h g t r bss x (A B : list oid), good_group h g (t :: r) bss -> (forall u, In u (t :: r) -> housed h u) ->
  sprout h (t :: r) x -> s_super (sob h x) = None -> t_seq (tob h t) = (A ++ B)%list ->
  (forall a, In a A -> precedes h a x) -> (forall b, In b B -> precedes h x b) -> (List.length (t :: r) < n)%nat ->
  exists h' bss', tier_append n t x h = Ok tt h' /\ good_group h' g (t :: r) bss' /\ t_seq (tob h' t) = (A ++ x :: B)%list /\
    (forall k u, nth_error (t :: r) k = Some u -> housed h' u /\
       exists Ak Bk, t_seq (tob h u) = (Ak ++ Bk)%list /\ t_seq (tob h' u) = (Ak ++ level h k x ++ Bk)%list) /\
    grows g (t :: r) (fun i => exists u, In u (t :: r) /\ In i (t_seq (tob h' u))) h h'.
Proof. exact c50_append. Qed.
Print Assumptions C50_append.
Example C50_append_case : let E : Env := demo_env in
  good_group ex_grow 0 ex_order ex_blocks /\ (forall u, In u ex_order -> housed ex_grow u) /\ sprout ex_grow ex_order 49 /\
  s_super (sob ex_grow 49) = None /\ t_seq (tob ex_grow 1) = ([] ++ [16; 19])%nat%list /\ (forall b, In b [16; 19]%nat -> precedes ex_grow 49 b) /\
  exists h', tier_append 4 1 49 ex_grow = Ok tt h' /\ t_seq (tob h' 1) = [49; 16; 19]%nat /\ t_seq (tob h' 2) = [52; 55; 26; 29; 32]%nat /\
    t_seq (tob h' 0) = [58; 61; 64; 0; 3; 6; 9]%nat /\ level ex_grow 2 49 = [58; 61; 64]%nat.
Proof.
  cbv zeta. split; [exact grow_good|]. split; [exact grow_housed|]. split; [exact grow_sprout|]. split; [reflexivity|]. split; [reflexivity|].
  split. { intros b Hb. members; (eexists; eexists; split; [reflexivity|split; [reflexivity|lia]]). }
  eexists. split; [vm_compute; reflexivity|]. repeat split.
Qed.
(** C50: what is already in the tier is not added again. *)
Theorem C50_there `{Env} : forall n h t x, In x (t_seq (tob h t)) -> s_cls (sob h x) = t_ec (tob h t) -> tier_append (S n) t x h = Ok tt h.
Proof. exact c50_there. Qed.
Print Assumptions C50_there.
Example C50_there_case : In 19%nat (t_seq (tob ex_grow 1)) /\ s_cls (sob ex_grow 19) = t_ec (tob ex_grow 1).
Proof. split; [vm_compute; auto|reflexivity]. Qed.
(** C50: without intervals below it, links run across words. *)
Theorem C50_childless_refuted : let E : Env := demo_env in
  exists n h g t r bss x A h' y z, good_group h g (t :: r) bss /\ (forall u, In u (t :: r) -> housed h u) /\
    s_super (sob h x) = None /\ s_subset (sob h x) = [] /\ dated h x /\ s_cls (sob h x) = t_ec (tob h t) /\ t_seq (tob h t) = A /\ (forall a, In a A -> precedes h a x) /\
    tier_append n t x h = Ok tt h' /\ t_seq (tob h' t) = (A ++ [x])%list /\
    s_fol (sob h' y) = Some z /\ s_super (sob h' y) <> s_super (sob h' z) /\ s_super (sob h' z) = Some x.
Proof. exact c50_childless_refuted. Qed.
Print Assumptions C50_childless_refuted.
(** C50: appending an equal word with syllables recurses for ever. *)
Theorem C50_twin_refuted : let E : Env := demo_env in
  exists n h g t r bss x, good_group h g (t :: r) bss /\ (forall u, In u (t :: r) -> housed h u) /\
    s_super (sob h x) = None /\ listed h (t_seq (tob h t)) x /\ n = 50%nat /\ exists h', tier_append n t x h = Raise RecursionError h'.
Proof. exact c50_twin_refuted. Qed.
Print Assumptions C50_twin_refuted.
