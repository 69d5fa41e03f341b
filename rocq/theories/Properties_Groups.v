(** * Properties C23 to C27: tier groups.
    Theorems only; proofs in PairFinal.v, GroupFinal.v and ArrangeFinal.v. *)
From Verif Require Import ArrangeFinal DemoGroup.
Open Scope Z_scope.

(** C23: the tiers of a complete chain, given in any order, are put from the top
    class to the bottom class, and the group is their container. *)
Theorem C23_arranged `{Env} : forall n ts0 ts h g h', Permutation ts0 ts -> tier_chain h ts -> new_tg n ts0 h = Ok g h' ->
  g_tiers (gob h' g) = ts /\ contains_of h' (WGroup g) = Some ts /\
  (forall t, In t ts -> t_within (tob h' t) = Some (WGroup g)) /\
  (forall t, ~ In t ts -> t_within (tob h' t) = t_within (tob h t)) /\
  (forall t, t_ec (tob h' t) = t_ec (tob h t) /\ t_name (tob h' t) = t_name (tob h t)) /\
  (forall k, (k < List.length (h_grp h))%nat -> gob h' k = gob h k) /\
  g = List.length (h_grp h) /\ h_cls h' = h_cls h /\ h_grid h' = h_grid h.
Proof. exact c23_arranged. Qed.
Print Assumptions C23_arranged.
Example C23_arranged_case : let E : Env := demo_env in
  Permutation [0; 1; 2]%nat ex_order /\ tier_chain ex_tiers ex_order /\
  exists h', new_tg 50 [0; 1; 2]%nat ex_tiers = Ok 0%nat h' /\ g_tiers (gob h' 0) = [1; 2; 0]%nat.
Proof.
  cbv zeta. split; [apply (Permutation_cons_append [1;2]%nat 0%nat)|]. split; [exact ex_tier_chain|].
  eexists. split; [vm_compute; reflexivity|reflexivity].
Qed.

(** C24: the upper interval chosen for a lower one suits it best. *)
Theorem C24_best `{Env} : forall U L j q, U <> [] -> lasting U -> lasting L -> nth_error L j = Some q ->
  exists i, nth_error (containers (map fst U) (map snd U) (map fst L) (map snd L)) j = Some i /\ best U q i.
Proof. exact c24_best. Qed.
Print Assumptions C24_best.
Example C24_best_case : let U := [(0, 4); (4, 9); (9, 12)] in let L := [(1, 3); (3, 8); (20, 22)] in
  lasting U /\ lasting L /\ containers (map fst U) (map snd U) (map fst L) (map snd L) = [0; 1; 2]%nat.
Proof.
  cbv zeta. split; [intros p Hp; simpl in Hp; repeat destruct Hp as [<-|Hp]; [simpl; lia..|contradiction]|].
  split; [intros p Hp; simpl in Hp; repeat destruct Hp as [<-|Hp]; [simpl; lia..|contradiction]|]. reflexivity.
Qed.
(** C24: an upper interval that contains the lower one is chosen. *)
Theorem C24_inside `{Env} : forall U L j q i p, ordered U -> lasting U -> lasting L -> nth_error L j = Some q ->
  nth_error U i = Some p -> fst p <= fst q -> snd q <= snd p ->
  nth_error (containers (map fst U) (map snd U) (map fst L) (map snd L)) j = Some i.
Proof. exact c24_inside. Qed.
Print Assumptions C24_inside.
Example C24_inside_case : let U := [(0, 4); (4, 9)] in let L := [(5, 9)] in
  ordered U /\ lasting U /\ lasting L /\ nth_error U 1 = Some (4, 9) /\
  containers (map fst U) (map snd U) (map fst L) (map snd L) = [1]%nat.
Proof.
  cbv zeta. split.
  { intros i j p q Hij Hp Hq. destruct i as [|[|i]]; destruct j as [|[|j]]; try lia; simpl in Hp, Hq;
      try (destruct j; discriminate); try (destruct i; discriminate). injection Hp as <-. injection Hq as <-. simpl. lia. }
  split; [intros p Hp; simpl in Hp; repeat destruct Hp as [<-|Hp]; [simpl; lia..|contradiction]|].
  split; [intros p Hp; simpl in Hp; repeat destruct Hp as [<-|Hp]; [simpl; lia..|contradiction]|]. split; reflexivity.
Qed.
(** C24: in a group of any number of tiers, made with the clean-up delayed, the
    parent of every interval is the one that suits it best. *)
Theorem C24_parent `{Env} : forall n h ts0 ts, Permutation ts0 ts -> tier_chain h ts -> classes_joined h ts ->
  (forall t, In t ts -> fresh_tier h t /\ t_seq (tob h t) <> []) ->
  (forall k t u, nth_error ts k = Some t -> nth_error ts (S k) = Some u -> meeting h (t_seq (tob h t)) (t_seq (tob h u))) ->
  exists g h', new_tg_with n true ts0 h = Ok g h' /\ g_tiers (gob h' g) = ts /\ only_relates g ts h h' /\
    forall k t u y, nth_error ts k = Some t -> nth_error ts (S k) = Some u -> In y (t_seq (tob h u)) ->
    exists i x, nth_error (t_seq (tob h t)) i = Some x /\ best (map (span_of h) (t_seq (tob h t))) (span_of h y) i /\
      s_super (sob h' y) = Some x /\ In y (s_subset (sob h' x)).
Proof. exact c24_parent. Qed.
Print Assumptions C24_parent.
Example C24_parent_case : let E : Env := demo_env in
  Permutation [0; 1; 2]%nat ex_order /\ tier_chain ex_skew ex_order /\ classes_joined ex_skew ex_order /\
  (forall t, In t ex_order -> fresh_tier ex_skew t /\ t_seq (tob ex_skew t) <> []) /\
  (forall k t u, nth_error ex_order k = Some t -> nth_error ex_order (S k) = Some u -> meeting ex_skew (t_seq (tob ex_skew t)) (t_seq (tob ex_skew u))) /\
  exists h', new_tg_with 50 true [0; 1; 2]%nat ex_skew = Ok 0%nat h' /\
    map (fun x => s_super (sob h' x)) [26; 29; 32; 0; 3; 6; 9]%nat = map Some [16; 19; 19; 26; 26; 29; 32]%nat.
Proof.
  cbv zeta. split; [apply (Permutation_cons_append [1;2]%nat 0%nat)|]. split; [exact skew_chain|]. split; [exact skew_joined|].
  split; [exact skew_fresh|]. split; [exact skew_meeting|]. eexists. split; [vm_compute; reflexivity|reflexivity].
Qed.

(** C25: the blocks of lower intervals given to successive upper intervals are
    together all lower intervals, in order, and each interval is in the block
    of the upper interval chosen for it only. *)
Theorem C25_blocks `{Env} : forall U L (lows : list oid), ordered U -> lasting U -> ordered L -> lasting L -> U <> [] ->
  List.length lows = List.length L ->
  let cs := containers (map fst U) (map snd U) (map fst L) (map snd L) in
  concat (map (lower_slice cs lows) (seq 0 (List.length U))) = lows /\
  (forall i j x, nth_error cs j = Some i -> nth_error lows j = Some x -> In x (lower_slice cs lows i)) /\
  (forall i x, In x (lower_slice cs lows i) -> exists j, nth_error cs j = Some i /\ nth_error lows j = Some x).
Proof. exact c25_blocks. Qed.
Print Assumptions C25_blocks.
Example C25_blocks_case : let U := [(0, 4); (4, 9)] in let L := [(1, 3); (3, 8); (8, 9)] in
  containers (map fst U) (map snd U) (map fst L) (map snd L) = [0; 1; 1]%nat /\
  map (lower_slice [0; 1; 1]%nat [7; 8; 9]%nat) [0; 1]%nat = [[7]; [8; 9]]%nat.
Proof. split; reflexivity. Qed.
(** C25: so the children of each upper interval of a group made with the
    clean-up delayed are its block. *)
Theorem C25_children `{Env} : forall n h ts0 ts bss, Permutation ts0 ts -> tier_chain h ts -> classes_joined h ts ->
  (forall t, In t ts -> fresh_tier h t) -> cut_up h ts bss ->
  exists g h', new_tg_with n true ts0 h = Ok g h' /\ g_tiers (gob h' g) = ts /\ related_tiers h' ts bss /\ only_relates g ts h h'.
Proof. exact c25_children. Qed.
Print Assumptions C25_children.
Example C25_children_case : let E : Env := demo_env in
  Permutation [0; 1; 2]%nat ex_order /\ tier_chain ex_loose ex_order /\ classes_joined ex_loose ex_order /\
  (forall t, In t ex_order -> fresh_tier ex_loose t) /\ cut_up ex_loose ex_order ex_blocks /\
  exists h', new_tg_with 50 true [0; 1; 2]%nat ex_loose = Ok 0%nat h' /\ s_subset (sob h' 19) = [29; 32]%nat.
Proof.
  cbv zeta. split; [apply (Permutation_cons_append [1;2]%nat 0%nat)|]. split; [exact loose_chain|]. split; [exact loose_joined|].
  split; [exact loose_fresh|]. split; [exact loose_cut|]. eexists. split; [vm_compute; reflexivity|reflexivity].
Qed.

(** C26: relating tiers whose intervals fill those above changes no time, label
    or tier, makes no interval but boundaries, and gives each interval exactly
    the intervals that fill it. *)
Theorem C26_related `{Env} : forall n h ts0 ts bss, Permutation ts0 ts -> tier_chain h ts -> classes_joined h ts ->
  (forall t, In t ts -> fresh_tier h t) -> snug h ts bss ->
  (forall t, hd_error ts = Some t -> in_turn h (t_seq (tob h t))) ->
  exists g h', new_tg n ts0 h = Ok g h' /\ g_tiers (gob h' g) = ts /\ related_tiers h' ts bss /\ only_relates g ts h h'.
Proof. exact c26_related. Qed.
Print Assumptions C26_related.
Example C26_related_case : let E : Env := demo_env in
  Permutation [0; 1; 2]%nat ex_order /\ tier_chain ex_tiers ex_order /\ classes_joined ex_tiers ex_order /\
  (forall t, In t ex_order -> fresh_tier ex_tiers t) /\ snug ex_tiers ex_order ex_blocks /\
  (forall t, hd_error ex_order = Some t -> in_turn ex_tiers (t_seq (tob ex_tiers t))) /\
  exists h', new_tg 50 [0; 1; 2]%nat ex_tiers = Ok 0%nat h' /\ s_subset (sob h' 26) = [0; 3]%nat /\ s_fol (sob h' 3) <> s_fol (sob ex_tiers 3).
Proof.
  cbv zeta. split; [apply (Permutation_cons_append [1;2]%nat 0%nat)|]. split; [exact ex_tier_chain|]. split; [exact ex_classes_joined|].
  split; [exact ex_fresh|]. split; [exact ex_snug|]. split; [exact ex_turn|].
  eexists. split; [vm_compute; reflexivity|]. split; [reflexivity|vm_compute; discriminate].
Qed.

(** C27: what is found at a time on a lower tier of such a group is a child of
    what is found on the tier above, and something is found there whenever
    something is found above. *)
Theorem C27_lookup `{Env} : forall h g bss z, g_points (gob h g) = false ->
  snug h (g_tiers (gob h g)) bss -> related_tiers h (g_tiers (gob h g)) bss ->
  (forall t x, In t (g_tiers (gob h g)) -> In x (t_seq (tob h t)) -> is_point h x = false) ->
  (forall t, hd_error (g_tiers (gob h g)) = Some t -> in_turn h (t_seq (tob h t)) /\
     forall x, In x (t_seq (tob h t)) -> exists a b, s_start (sob h x) = Some a /\ s_end (sob h x) = Some b /\ a < b) ->
  exists r, grp_intervals_at_time z g h = Ok r h /\
    forall k t u, nth_error (g_tiers (gob h g)) k = Some t -> nth_error (g_tiers (gob h g)) (S k) = Some u ->
    (forall i, nth_error r (S k) = Some (Some i) ->
       exists j x y, nth_error r k = Some (Some j) /\ nth_error (t_seq (tob h t)) j = Some x /\
         nth_error (t_seq (tob h u)) i = Some y /\ s_super (sob h y) = Some x /\ In y (s_subset (sob h x))) /\
    (forall j, nth_error r k = Some (Some j) -> exists i, nth_error r (S k) = Some (Some i)).
Proof. exact c27_lookup. Qed.
Print Assumptions C27_lookup.
Example C27_lookup_case : let E : Env := demo_env in let h := run (new_tg 50 [0; 1; 2]%nat) ex_tiers in
  g_points (gob h 0) = false /\ g_tiers (gob h 0) = ex_order /\ snug h ex_order ex_blocks /\ related_tiers h ex_order ex_blocks /\
  exists h', grp_intervals_at_time 35 0 h = Ok [Some 1; Some 1; Some 2]%nat h'.
Proof.
  cbv zeta. destruct (@C26_related demo_env 50 ex_tiers [0; 1; 2]%nat ex_order ex_blocks) as (g & h' & E & G & R & O).
  - apply (Permutation_cons_append [1;2]%nat 0%nat).
  - exact ex_tier_chain.
  - exact ex_classes_joined.
  - exact ex_fresh.
  - exact ex_snug.
  - exact ex_turn.
  - assert (Q : heap_of (@new_tg demo_env 50 [0; 1; 2]%nat ex_tiers) = h') by (rewrite E; reflexivity).
    split; [vm_compute; reflexivity|]. split; [vm_compute; reflexivity|]. split.
    + split; [vm_compute; reflexivity|]. split; [repeat (constructor; [filled|]); constructor|].
      split; [vm_compute; reflexivity|]. split; [repeat (constructor; [filled|]); constructor|]. exact I.
    + split; [change (run (@new_tg demo_env 50 [0; 1; 2]%nat) ex_tiers) with (heap_of (@new_tg demo_env 50 [0; 1; 2]%nat ex_tiers)); rewrite Q; exact R|].
      eexists. vm_compute. reflexivity.
Qed.
