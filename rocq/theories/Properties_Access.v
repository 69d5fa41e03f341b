(** * Properties C57, C58: loops over intervals, and indexing.
    Theorems only; proofs in AccessFinal.v and DemoAccess.v. *)
From Verif Require Import AccessSpec AccessFinal DemoAccess DemoAdd.
Open Scope Z_scope.

(** C57: a loop over an interval visits its children, each once and in order. *)
Theorem C57_loop `{Env} : forall (B : Type) x (body : oid -> W B) w n, minds x body -> (List.length (s_subset (sob (w_heap w) x)) < n)%nat ->
  match for_in n x body w with
  | WOk r _ => map fst r = s_subset (sob (w_heap w) x)
  | WRaise e w' => exists y w1, In y (s_subset (sob (w_heap w) x)) /\ body y w1 = WRaise e w'
  end.
Proof. exact c57_loop. Qed.
Print Assumptions C57_loop.
Example C57_loop_case : let E : Env := demo_env in
  minds 9 say /\ exists w', for_in 4 9 say ex_walk = WOk [(3, "A"); (6, "C"); (0, "B")]%nat%string w'.
Proof. cbv zeta. split; [exact (say_minds 9)|]. eexists. vm_compute. reflexivity. Qed.
(** C57: a loop over the children inside a loop over the parent visits everything. *)
Theorem C57_below `{Env} : forall (B : Type) x (f : oid -> oid -> W B) w n r w', ~ In x (s_subset (sob (w_heap w) x)) ->
  (forall a y v w1 w2, f a y w1 = WOk v w2 -> w_cur w2 x = w_cur w1 x /\ w_cur w2 a = w_cur w1 a /\
     forall z, s_subset (sob (w_heap w2) z) = s_subset (sob (w_heap w1) z)) ->
  for_in n x (fun a => for_in n a (f a)) w = WOk r w' ->
  map (fun p => (fst p, map fst (snd p))) r = map (fun a => (a, s_subset (sob (w_heap w) a))) (s_subset (sob (w_heap w) x)).
Proof. exact c57_below. Qed.
Print Assumptions C57_below.
Example C57_below_case : let E : Env := demo_env in
  ~ In 19%nat (s_subset (sob ex_add 19)) /\
  exists w', for_in 4 19 (fun a => for_in 4 a say) (Walk ex_add (fun _ => O)) = WOk [(29, [(6, "c")]); (32, [(9, "d")])]%nat%string w'.
Proof. cbv zeta. split; [vm_compute; intros [I|[I|[]]]; discriminate I|eexists; vm_compute; reflexivity]. Qed.
(** C57: a loop inside a loop over the same interval ends the outer loop after its first round. *)
Theorem C57_nested `{Env} : forall (B : Type) x (f : oid -> oid -> W B) w n r w', (forall a, minds x (f a)) -> (List.length (s_subset (sob (w_heap w) x)) < n)%nat ->
  for_in n x (fun a => for_in n x (f a)) w = WOk r w' ->
  map (fun p => (fst p, map fst (snd p))) r = match s_subset (sob (w_heap w) x) with [] => [] | a :: _ => [(a, s_subset (sob (w_heap w) x))] end.
Proof. exact c57_nested. Qed.
Print Assumptions C57_nested.
Example C57_nested_case : let E : Env := demo_env in
  minds 9 say /\ exists w', for_in 4 9 (fun a => for_in 4 9 say) ex_walk = WOk [(3, [(3, "A"); (6, "C"); (0, "B")])]%nat%string w'.
Proof. cbv zeta. split; [exact (say_minds 9)|]. eexists. vm_compute. reflexivity. Qed.
(** C57: removing the children in a loop removes every other one. *)
Theorem C57_pop `{Env} : forall K only w x n, reach K only (w_heap w) -> (List.length (s_subset (sob (w_heap w) x)) < n)%nat ->
  exists r w', for_in n x (fun y => lift (seq_pop x y)) w = WOk r w' /\ map fst r = evens (s_subset (sob (w_heap w) x)) /\
    s_subset (sob (w_heap w') x) = odds (s_subset (sob (w_heap w) x)).
Proof. exact c57_pop. Qed.
Print Assumptions C57_pop.
Example C57_pop_case : let E : Env := demo_env in
  reach word_phone timed (w_heap ex_walk) /\ s_subset (sob ex_tree 9) = [3; 6; 0]%nat /\
  exists w', for_in 4 9 (fun y => lift (seq_pop 9 y)) ex_walk = WOk [(3, tt); (0, tt)]%nat w' /\ s_subset (sob (w_heap w') 9) = [6]%nat.
Proof. cbv zeta. split; [exact ex_tree_reach|]. split; [vm_compute; reflexivity|]. eexists. split; vm_compute; reflexivity. Qed.

(** C58: indexing with numbers. *)
Theorem C58_numbers `{Env} : forall h i,
  (forall t x, numbered (t_seq (tob h t)) i x -> tier_get t (IInt i) h = Ok (VEntry x) h /\ tier_get t (INumpy i) h = Ok (VEntry x) h) /\
  (forall g t, numbered (g_tiers (gob h g)) i t -> grp_get g (IInt i) h = Ok (VTier t) h) /\
  (forall a g, numbered (a_groups (aob h a)) i g -> grid_get a (IInt i) h = Ok (VGroup g) h) /\
  (forall t, out_of_range (t_seq (tob h t)) i -> tier_get t (IInt i) h = Raise IndexError h) /\
  (forall g, out_of_range (g_tiers (gob h g)) i -> grp_get g (IInt i) h = Raise IndexError h) /\
  (forall a, out_of_range (a_groups (aob h a)) i -> grid_get a (IInt i) h = Raise IndexError h).
Proof. exact c58_numbers. Qed.
Print Assumptions C58_numbers.
Example C58_numbers_case : let E : Env := demo_env in
  tier_get 0 (IInt (-1)) ex_grid = Ok (VEntry 3) ex_grid /\ grp_get 0 (IInt 1) ex_grid = Ok (VTier 1) ex_grid /\
  grid_get 0 (IInt (-2)) ex_grid = Ok (VGroup 0) ex_grid /\ grid_get 0 (IInt (-3)) ex_grid = Raise IndexError ex_grid.
Proof. cbv zeta. repeat split; vm_compute; reflexivity. Qed.
(** C58: indexing with what get_intervals_at_time gives yields what is there at that time. *)
Theorem C58_at_time `{Env} : forall h a z, a_groups (aob h a) <> [] -> (forall g, In g (a_groups (aob h a)) -> askable h z g) ->
  (forall g t, In g (a_groups (aob h a)) -> g_points (gob h g) = false -> In t (g_tiers (gob h g)) -> exists x, In x (t_seq (tob h t)) /\ holds_at h x z) ->
  exists xss, grid_get_at_time a z h = Ok (VList (map (fun xs => VList (map VEntry xs)) xss)) h /\
    Forall2 (fun g => Forall2 (stands_at h (g_points (gob h g)) z) (g_tiers (gob h g))) (a_groups (aob h a)) xss.
Proof. exact c58_at_time. Qed.
Print Assumptions C58_at_time.
Example C58_at_time_case : let E : Env := demo_env in
  (forall g, In g (a_groups (aob ex_grid 0)) -> askable ex_grid 35 g) /\
  (forall g t, In g (a_groups (aob ex_grid 0)) -> g_points (gob ex_grid g) = false -> In t (g_tiers (gob ex_grid g)) ->
     exists x, In x (t_seq (tob ex_grid t)) /\ holds_at ex_grid x 35) /\
  grid_get_at_time 0 35 ex_grid = Ok (VList [VList [VEntry 3; VEntry 16]; VList [VEntry 33; VEntry 38]]) ex_grid.
Proof. cbv zeta. split; [exact (ex_askable 35)|]. split; [exact ex_held|vm_compute; reflexivity]. Qed.
(** C58: where an interval tier has nothing at that time, the grid cannot be indexed so. *)
Theorem C58_gap `{Env} : forall h a z g t, (forall g, In g (a_groups (aob h a)) -> askable h z g) ->
  In g (a_groups (aob h a)) -> g_points (gob h g) = false -> In t (g_tiers (gob h g)) -> (forall x, In x (t_seq (tob h t)) -> ~ holds_at h x z) ->
  grid_get_at_time a z h = Raise TypeError h.
Proof. exact c58_gap. Qed.
Print Assumptions C58_gap.
Example C58_gap_case : let E : Env := demo_env in
  (forall g, In g (a_groups (aob ex_grid 0)) -> askable ex_grid 1000 g) /\
  (forall x, In x (t_seq (tob ex_grid 0)) -> ~ holds_at ex_grid x 1000) /\
  grid_get_at_time 0 1000 ex_grid = Raise TypeError ex_grid.
Proof. cbv zeta. split; [exact (ex_askable 1000)|]. split; [exact ex_unheld|vm_compute; reflexivity]. Qed.
(** C58: lists of the wrong size. *)
Theorem C58_sizes `{Env} : forall h l,
  (forall g, List.length l <> List.length (g_tiers (gob h g)) -> grp_get g (IList l) h = Raise PyException h) /\
  (forall a, List.length l <> List.length (a_groups (aob h a)) \/ a_groups (aob h a) = [] -> grid_get a (IList l) h = Raise IndexError h).
Proof. exact c58_sizes. Qed.
Print Assumptions C58_sizes.
Example C58_sizes_case : let E : Env := demo_env in
  grp_get 0 (IList [IInt 0]) ex_grid = Raise PyException ex_grid /\ grid_get 0 (IList [IList [IInt 0; IInt 0]]) ex_grid = Raise IndexError ex_grid.
Proof. cbv zeta. split; vm_compute; reflexivity. Qed.
