(** * C66: tiers whose boundaries do not match. *)
From Verif Require Import SnapSpec SnapFinal DemoSnap.
Open Scope Z_scope.

(** C66: making a group of two tiers whose boundaries do not match cuts every
    interval of the lower tier to the part inside its parent, the one that
    suits it best, and every interval of the upper tier to what its children
    cover; after that the children of each interval fill it exactly. *)
Theorem C66_snapped `{Env} : forall n h ts0 t u, Permutation ts0 [t; u] -> tier_chain h [t; u] -> classes_joined h [t; u] ->
  fresh_tier h t -> fresh_tier h u -> t_seq (tob h t) <> [] -> meeting h (t_seq (tob h t)) (t_seq (tob h u)) ->
  same_ends h (t_seq (tob h t)) (t_seq (tob h u)) \/ crossing h (t_seq (tob h t)) (t_seq (tob h u)) ->
  exists g h' bs, new_tg (S n) ts0 h = Ok g h' /\ g_tiers (gob h' g) = [t; u] /\
    snug h' [t; u] [bs] /\ related_tiers h' [t; u] [bs] /\ only_retimes g [t; u] h h' /\
    (forall i x b y, nth_error (t_seq (tob h t)) i = Some x -> nth_error bs i = Some b -> In y b ->
       best (map (span_of h) (t_seq (tob h t))) (span_of h y) i /\ span_of h' y = common (span_of h x) (span_of h y)).
Proof. exact c66_snapped. Qed.
Print Assumptions C66_snapped.
Example C66_snapped_case : let E : Env := demo_env in
  Permutation [0; 1]%nat [1; 0]%nat /\ tier_chain ex_rough [1; 0]%nat /\ classes_joined ex_rough [1; 0]%nat /\
  fresh_tier ex_rough 1 /\ fresh_tier ex_rough 0 /\ t_seq (tob ex_rough 1) <> [] /\
  meeting ex_rough (t_seq (tob ex_rough 1)) (t_seq (tob ex_rough 0)) /\
  crossing ex_rough (t_seq (tob ex_rough 1)) (t_seq (tob ex_rough 0)) /\
  exists h', new_tg 50 [0; 1]%nat ex_rough = Ok 0%nat h' /\
    map (span_of h') [16; 19]%nat = [(10, 30); (31, 60)] /\
    map (span_of h') [0; 3; 6; 9]%nat = [(10, 20); (20, 30); (31, 50); (50, 60)].
Proof.
  cbv zeta. split; [apply perm_swap|]. split; [exact rough_chain|]. split; [exact rough_joined|].
  split; [apply rough_fresh; simpl; auto|]. split; [apply rough_fresh; simpl; auto|]. split; [vm_compute; discriminate|].
  split; [exact rough_meeting|]. split; [exact rough_crossing|]. eexists. split; [vm_compute; reflexivity|]. split; reflexivity.
Qed.
(** C66 does not extend to more than two tiers: here words and syllables match
    but syllables and phones do not, and in the end the first child of a word
    that starts at 30 starts at 31. *)
Theorem C66_three_refuted `{Env} : let E : Env := demo_env in
  exists h ts g h' x y, tier_chain h ts /\ classes_joined h ts /\
    (forall t, In t ts -> fresh_tier h t /\ t_seq (tob h t) <> []) /\
    (forall k t u, nth_error ts k = Some t -> nth_error ts (S k) = Some u ->
       meeting h (t_seq (tob h t)) (t_seq (tob h u)) /\ same_ends h (t_seq (tob h t)) (t_seq (tob h u))) /\
    new_tg 50 ts h = Ok g h' /\ hd_error (s_subset (sob h' x)) = Some y /\ s_super (sob h' y) = Some x /\
    s_start (sob h' x) = Some 30 /\ s_start (sob h' y) = Some 31.
Proof. exact c66_three_refuted. Qed.
Print Assumptions C66_three_refuted.
