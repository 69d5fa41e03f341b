(** * C69: relating tiers with gaps. *)
From Verif Require Import RaggedSpec RaggedFinal DemoRagged.
Open Scope Z_scope.

(** C69: making a group of two tiers of which the lower one has gaps gives each
    interval of the upper tier the intervals inside it as children, with new
    intervals without label in the gaps: between two children always; before
    the first and after the last if some interval is longer than its children;
    and one as long as the interval if there is nothing inside it.  Those at the
    ends, and those alone, are also put in the lower tier. *)
Theorem C69_ragged `{Env} : forall n h ts0 t u bs, (2 < n)%nat -> Permutation ts0 [t; u] -> tier_chain h [t; u] -> classes_joined h [t; u] ->
  fresh_tier h t -> fresh_tier h u -> at_home h t -> at_home h u -> issubclass h (t_ec (tob h u)) cInterval = true ->
  t_seq (tob h t) <> [] -> t_seq (tob h u) <> [] -> in_turn h (t_seq (tob h t)) -> (forall x s, In x (t_seq (tob h t)) -> s_start (sob h x) = Some s -> 0 <= s) ->
  concat bs = t_seq (tob h u) -> nested h (t_seq (tob h t)) bs ->
  exists g h' sq outs, new_tg (S n) ts0 h = Ok g h' /\ g_tiers (gob h' g) = [t; u] /\
    Forall2 (fun ub o => rehoused sq h h' (t_ec (tob h u)) (fst ub) (snd ub) (fst o) (snd o)) (combine (t_seq (tob h t)) bs) outs /\
    (sq = true <-> uneven h (t_seq (tob h t)) bs) /\
    Permutation (t_seq (tob h' u)) (t_seq (tob h u) ++ concat (map snd outs)) /\ sorted_starts h' (t_seq (tob h' u)) /\
    only_rehouses g t u (concat (map fst outs)) h h'.
Proof. exact c69_ragged. Qed.
Print Assumptions C69_ragged.
Example C69_ragged_case : let E : Env := demo_env in
  Permutation [0; 1]%nat [1; 0]%nat /\ tier_chain ex_ragged [1; 0]%nat /\ classes_joined ex_ragged [1; 0]%nat /\
  fresh_tier ex_ragged 1 /\ fresh_tier ex_ragged 0 /\ at_home ex_ragged 1 /\ at_home ex_ragged 0 /\
  issubclass ex_ragged (t_ec (tob ex_ragged 0)) cInterval = true /\ t_seq (tob ex_ragged 1) <> [] /\ t_seq (tob ex_ragged 0) <> [] /\
  in_turn ex_ragged (t_seq (tob ex_ragged 1)) /\
  (forall x s, In x (t_seq (tob ex_ragged 1)) -> s_start (sob ex_ragged x) = Some s -> 0 <= s) /\
  concat [[0; 3]; []; [6]]%nat = t_seq (tob ex_ragged 0) /\ nested ex_ragged (t_seq (tob ex_ragged 1)) [[0; 3]; []; [6]]%nat /\
  exists h', new_tg 50 [0; 1]%nat ex_ragged = Ok 0%nat h' /\
    map (fun x => map (fun y => (y, span_of h' y)) (s_subset (sob h' x))) [13; 16; 19]%nat =
      [[(31%nat, (10, 12)); (0%nat, (12, 20)); (26%nat, (20, 25)); (3%nat, (25, 28)); (34%nat, (28, 30))]; [(45%nat, (30, 50))]; [(6%nat, (50, 60))]] /\
    t_seq (tob h' 0) = [31; 0; 3; 34; 45; 6]%nat.
Proof.
  cbv zeta. split; [apply perm_swap|]. split; [exact ragged_chain|]. split; [exact ragged_joined|].
  split; [apply ragged_fresh; simpl; auto|]. split; [apply ragged_fresh; simpl; auto|]. split; [apply ragged_home; simpl; auto|]. split; [apply ragged_home; simpl; auto|].
  split; [reflexivity|]. split; [vm_compute; discriminate|]. split; [vm_compute; discriminate|]. split; [exact ragged_turn|]. split; [exact ragged_early|].
  split; [reflexivity|]. split; [exact ragged_nested|]. eexists. split; [vm_compute; reflexivity|]. split; reflexivity.
Qed.
(** C69: of the children, the lower tier has those it had before and those that
    start with their parent or end with it; the case above meets the hypotheses. *)
Theorem C69_listed `{Env} : forall n h ts0 t u bs, (2 < n)%nat -> Permutation ts0 [t; u] -> tier_chain h [t; u] -> classes_joined h [t; u] ->
  fresh_tier h t -> fresh_tier h u -> at_home h t -> at_home h u -> issubclass h (t_ec (tob h u)) cInterval = true ->
  t_seq (tob h t) <> [] -> t_seq (tob h u) <> [] -> in_turn h (t_seq (tob h t)) -> (forall x s, In x (t_seq (tob h t)) -> s_start (sob h x) = Some s -> 0 <= s) ->
  concat bs = t_seq (tob h u) -> nested h (t_seq (tob h t)) bs ->
  exists g h', new_tg (S n) ts0 h = Ok g h' /\
    forall x y, In x (t_seq (tob h t)) -> In y (s_subset (sob h' x)) ->
      (In y (t_seq (tob h' u)) <-> In y (t_seq (tob h u)) \/ s_start (sob h' y) = s_start (sob h' x) \/ s_end (sob h' y) = s_end (sob h' x)).
Proof. exact c69_listed. Qed.
Print Assumptions C69_listed.
Example C69_listed_case : let E : Env := demo_env in
  exists h', new_tg 50 [0; 1]%nat ex_ragged = Ok 0%nat h' /\ In 26%nat (s_subset (sob h' 13)) /\ ~ In 26%nat (t_seq (tob h' 0)) /\ In 31%nat (t_seq (tob h' 0)).
Proof. cbv zeta. eexists. split; [vm_compute; reflexivity|]. vm_compute. intuition discriminate. Qed.
(** So it is not true that the lower tier has all children: the interval new
    between two phones is in no tier. *)
Theorem C69_phantom_refuted `{Env} : let E : Env := demo_env in
  exists h t u bs g h' x y, tier_chain h [t; u] /\ classes_joined h [t; u] /\ fresh_tier h t /\ fresh_tier h u /\ at_home h t /\ at_home h u /\
    in_turn h (t_seq (tob h t)) /\ concat bs = t_seq (tob h u) /\ nested h (t_seq (tob h t)) bs /\ new_tg 50 [t; u] h = Ok g h' /\
    In x (t_seq (tob h' t)) /\ In y (s_subset (sob h' x)) /\ s_super (sob h' y) = Some x /\ ~ In y (t_seq (tob h' u)) /\ s_intier (sob h' y) = None.
Proof. exact c69_phantom_refuted. Qed.
Print Assumptions C69_phantom_refuted.
