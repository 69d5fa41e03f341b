(** * Properties C28, C36, C37, C39, C40: paths, export, grouping of tiers,
    class lookup, tables.
    Theorems only; proofs in OutputFinal.v. *)
From Verif Require Import OutputFinal ClassProofs DemoClass DemoGrid.
Open Scope Z_scope.

(** C28: within_path leads from the outermost container to the object. *)
Theorem C28_path : forall (h : heap) (n : nat) (r : wref) (p : list nat) (h' : heap),
  kinds_fit h -> within_path n (wref_any r) h = Ok p h' ->
  h' = h /\ exists root, outermost h r root /\ path_to h root p r.
Proof. exact c28_path. Qed.
Print Assumptions C28_path.
(** Phone 16 of the example: group 0, tier 0, word 1, first phone. *)
Example C28_path_case :
  kinds_fit ex_grid /\ within_path 5 (wref_any (WSeq 16)) ex_grid = Ok [0; 0; 1; 0]%nat ex_grid.
Proof. split; [exact ex_fits|]. vm_compute. reflexivity. Qed.
(** C28: within_path succeeds if every object is in what it is within. *)
Theorem C28_total : forall (h : heap) (r root : wref),
  kinds_fit h -> (forall v w l, container h v = Some w -> contents h w = Some l -> In v l) ->
  outermost h r root -> exists p n0, forall n, (n0 <= n)%nat -> within_path n (wref_any r) h = Ok p h.
Proof. exact c28_total. Qed.
Print Assumptions C28_total.
Example C28_total_case :
  kinds_fit ex_grid /\
  (forall v w l, container ex_grid v = Some w -> contents ex_grid w = Some l -> In v l) /\
  outermost ex_grid (WSeq 16) (WGrid 0).
Proof. split; [exact ex_fits|]. split; [|exact ex_outer]. apply found_ok. vm_compute. reflexivity. Qed.
(** C28: same outermost container and same path: same object. *)
Theorem C28_unique : forall (h : heap) (n m : nat) (r r' root : wref) (p : list nat),
  kinds_fit h -> outermost h r root -> outermost h r' root ->
  within_path n (wref_any r) h = Ok p h -> within_path m (wref_any r') h = Ok p h -> r = r'.
Proof. exact c28_unique. Qed.
Print Assumptions C28_unique.
Example C28_unique_case :
  kinds_fit ex_grid /\ outermost ex_grid (WSeq 16) (WGrid 0) /\
  within_path 5 (wref_any (WSeq 16)) ex_grid = Ok [0; 0; 1; 0]%nat ex_grid /\
  within_path 5 (wref_any (WSeq 19)) ex_grid = Ok [0; 0; 1; 1]%nat ex_grid.
Proof. split; [exact ex_fits|]. split; [exact ex_outer|]. split; vm_compute; reflexivity. Qed.
(** C28: equal ids mean equal paths. *)
Theorem C28_ids : forall (h h' : heap) (n m : nat) (r r' : wref) (s : string),
  obj_id n (wref_any r) h = Ok s h -> obj_id m (wref_any r') h' = Ok s h' ->
  exists p, within_path n (wref_any r) h = Ok p h /\ within_path m (wref_any r') h' = Ok p h'.
Proof. exact c28_ids. Qed.
Print Assumptions C28_ids.
Example C28_ids_case :
  obj_id 5 (wref_any (WSeq 16)) ex_grid = Ok "0-0-1-0"%string ex_grid /\
  obj_id 9 (wref_any (WSeq 16)) ex_grid = Ok "0-0-1-0"%string ex_grid.
Proof. split; vm_compute; reflexivity. Qed.

(** C36: exported names are distinct; the first tier of a name keeps it. *)
Theorem C36_names : forall (h : heap) (a : aid),
  let names := map (fun t => t_name (tob h t)) (tiers_of h (a_groups (aob h a))) in
  let out := map fst (return_textgrid h a) in
  (forall s t k, In s names -> In t names -> s <> (t ++ "_" ++ nat_str k)%string) ->
  List.length out = List.length names /\ NoDup out /\
  forall i s, nth_error names i = Some s ->
    (nth_error out i = Some s <-> forall j, (j < i)%nat -> nth_error names j <> Some s).
Proof. exact c36_names. Qed.
Print Assumptions C36_names.
Example C36_names_case :
  let h := run (mod_tier 1 (set_t_name "words")) ex_grid in
  let names := map (fun t => t_name (tob h t)) (tiers_of h (a_groups (aob h 0))) in
  (forall s t k, In s names -> In t names -> s <> (t ++ "_" ++ nat_str k)%string) /\
  names = ["words"; "words"; "marks"; "tones"]%string /\
  map fst (return_textgrid h 0) = ["words"; "words_0"; "marks"; "tones"]%string.
Proof.
  cbv zeta. split; [|split; vm_compute; reflexivity]. intros s t k Hs Ht E.
  apply (f_equal (has_char "_"%char)) in E. rewrite has_char_app in E.
  change (has_char "_"%char ("_" ++ nat_str k)%string) with true in E. rewrite orb_true_r in E.
  clear Ht. members; vm_compute in E; discriminate.
Qed.
(** C36: every tier is exported once, in order, with its entries. *)
Theorem C36_entries : forall (h : heap) (a : aid) (i : nat) (t : tid),
  nth_error (tiers_of h (a_groups (aob h a))) i = Some t ->
  exists nm rows, nth_error (return_textgrid h a) i = Some (nm, rows) /\
    List.length rows = List.length (t_seq (tob h t)) /\
    forall j x, nth_error (t_seq (tob h t)) j = Some x ->
      nth_error rows j = Some (is_point h x, s_start (sob h x),
        if is_point h x then None else s_end (sob h x), s_label (sob h x)).
Proof. exact c36_entries. Qed.
Print Assumptions C36_entries.
Example C36_entries_case :
  nth_error (tiers_of ex_grid (a_groups (aob ex_grid 0))) 2 = Some 2%nat /\
  nth_error (return_textgrid ex_grid 0) 2 =
    Some ("marks"%string, [(true, Some 12, None, "x"%string); (true, Some 35, None, "y"%string)]).
Proof. split; vm_compute; reflexivity. Qed.
(** C36: without the guard names can collide. *)
Theorem C36_collision_refuted : exists (h : heap) (a : aid), ~ NoDup (map fst (return_textgrid h a)).
Proof. exact c36_collision_refuted. Qed.
Print Assumptions C36_collision_refuted.

(** C37: a nested class list takes tiers consecutively. *)
Theorem C37_nested : forall (B : Type) (h : heap) (tiers : list B) (css : list (list cid)),
  css <> [] -> (List.length (concat css) <= List.length tiers)%nat ->
  exists gs, nestify tiers (Nested css) h = Ok (gs, css) h /\
    map (@List.length B) gs = map (@List.length cid) css /\ concat gs = firstn (List.length (concat css)) tiers.
Proof. exact c37_nested. Qed.
Print Assumptions C37_nested.
Example C37_nested_case :
  (List.length (concat [[cWord; cPhone]; [cPoint]]) <= List.length [ex_words; ex_segs; ex_marks; ex_tones])%nat /\
  nestify [ex_words; ex_segs; ex_marks; ex_tones] (Nested [[cWord; cPhone]; [cPoint]]) boot_heap =
    Ok ([[ex_words; ex_segs]; [ex_marks]], [[cWord; cPhone]; [cPoint]]) boot_heap.
Proof. split; [vm_compute; lia|]. vm_compute. reflexivity. Qed.
(** C37: too few tiers for a nested class list. *)
Theorem C37_too_few : forall (B : Type) (h : heap) (tiers : list B) (css : list (list cid)),
  (List.length tiers < List.length (concat css))%nat -> nestify tiers (Nested css) h = Raise IndexError h.
Proof. exact c37_too_few. Qed.
Print Assumptions C37_too_few.
Example C37_too_few_case : (List.length [ex_words] < List.length (concat [[cWord; cPhone]]))%nat.
Proof. vm_compute. lia. Qed.
(** C37: a flat class list is repeated; left-over tiers are dropped. *)
Theorem C37_flat : forall (B : Type) (h : heap) (tiers : list B) (cs : list cid),
  cs <> [] -> (forall c, In c cs -> interval_class h c) ->
  (forall i j c d, nth_error cs i = Some c -> nth_error cs j = Some d -> top_class h c -> top_class h d -> i = j) ->
  let k := List.length cs in
  let n := (List.length tiers / k)%nat in
  (n <> 0)%nat ->
  exists gs, nestify tiers (Flat cs) h = Ok (gs, repeat cs n) h /\ List.length gs = n /\
    (forall g, In g gs -> List.length g = k) /\ concat gs = firstn (n * k) tiers.
Proof. exact c37_flat. Qed.
Print Assumptions C37_flat.
Example C37_flat_case :
  (forall c, In c [cWord; cPhone] -> interval_class boot_heap c) /\
  (forall i j c d, nth_error [cWord; cPhone] i = Some c -> nth_error [cWord; cPhone] j = Some d ->
     top_class boot_heap c -> top_class boot_heap d -> i = j) /\
  nestify [1; 2; 3; 4; 5] (Flat [cWord; cPhone]) boot_heap =
    Ok ([[1; 2]; [3; 4]], [[cWord; cPhone]; [cWord; cPhone]]) boot_heap.
Proof.
  split; [intros c [<-|[<-|[]]]; split; vm_compute; congruence|]. split; [|vm_compute; reflexivity].
  assert (T : top_class boot_heap cPhone -> False).
  { intros (s & A & B). vm_compute in A. injection A as <-. vm_compute in B. discriminate. }
  intros [|[|i]] [|[|j]] c d A B P Q; try reflexivity; try (destruct i; discriminate); try (destruct j; discriminate); exfalso.
  - injection B as <-. auto.
  - injection A as <-. auto.
Qed.
(** C37: fewer tiers than classes. *)
Theorem C37_short : forall (B : Type) (h : heap) (tiers : list B) (cs : list cid),
  (List.length tiers < List.length cs)%nat -> (forall c, In c cs -> interval_class h c) ->
  (forall i j c d, nth_error cs i = Some c -> nth_error cs j = Some d -> top_class h c -> top_class h d -> i = j) ->
  nestify tiers (Flat cs) h = Raise IndexError h.
Proof. exact c37_short. Qed.
Print Assumptions C37_short.
Example C37_short_case :
  (List.length [1] < List.length [cWord; cPhone])%nat /\
  (forall c, In c [cWord; cPhone] -> interval_class boot_heap c) /\
  nestify [1] (Flat [cWord; cPhone]) boot_heap = Raise IndexError boot_heap.
Proof.
  split; [vm_compute; lia|]. split; [|vm_compute; reflexivity].
  intros c [<-|[<-|[]]]; split; vm_compute; congruence.
Qed.
(** C37: a flat list of several hierarchies: one group per hierarchy, in the
    order of their top classes, each class with the tier at its position. *)
Theorem C37_chains : forall (B : Type) (h : heap) (tiers : list B) (cs : list cid) (chs : list (list cid)),
  class_table h -> (forall ch, In ch chs -> exists t b, class_chain h t ch b) ->
  Permutation cs (concat chs) -> NoDup cs -> (2 <= List.length chs)%nat -> (List.length cs <= List.length tiers)%nat ->
  exists gs css, nestify tiers (Flat cs) h = Ok (gs, css) h /\ Permutation css chs /\
    keep_if (top_class h) cs (map (hd 0%nat) css) /\
    map (@List.length B) gs = map (@List.length cid) css /\
    (forall i g ch j t c, nth_error gs i = Some g -> nth_error css i = Some ch ->
       nth_error g j = Some t -> nth_error ch j = Some c ->
       exists k, nth_error cs k = Some c /\ nth_error tiers k = Some t).
Proof. exact c37_chains. Qed.
Print Assumptions C37_chains.
Example C37_chains_case :
  class_table ex_classes /\
  (forall ch, In ch [[cWord; cPhone]; [11; 12; 13]%nat] -> exists t b, class_chain ex_classes t ch b) /\
  Permutation [12; cPhone; 11; 13; cWord]%nat (concat [[cWord; cPhone]; [11; 12; 13]%nat]) /\
  NoDup [12; cPhone; 11; 13; cWord]%nat /\
  nestify [1; 2; 3; 4; 5] (Flat [12; cPhone; 11; 13; cWord]%nat) ex_classes =
    Ok ([[3; 1; 4]; [5; 2]], [[11; 12; 13]%nat; [cWord; cPhone]]) ex_classes.
Proof.
  split.
  { split; [vm_compute; lia|]. split; [|repeat split].
    intros c b. do 14 (destruct c as [|c]; [vm_compute; intros [= <-]; lia || discriminate|]).
    intros E. exfalso. revert E. unfold cob. rewrite lookup_ge_None_2; [discriminate|vm_compute; lia]. }
  split; [intros ch [<-|[<-|[]]]; [exists cTopwp, cBottomwp|exists 9%nat, 10%nat]; chain_goal|].
  assert (N : NoDup [12; cPhone; 11; 13; cWord]%nat) by (apply nodup_by; vm_compute; reflexivity).
  split; [|split; [exact N|vm_compute; reflexivity]].
  apply NoDup_Permutation; [exact N|apply nodup_by; vm_compute; reflexivity|].
  intros x. rewrite !elem_of_list_In. vm_compute. tauto.
Qed.

(** C39: get_class_by_name. *)
Theorem C39_lookup : forall (h : heap) (a : aid) (nm : string),
  let named c := class_name h c = nm /\ exists t, In t (tiers_of h (a_groups (aob h a))) /\ t_ec (tob h t) = c in
  exists r, get_class_by_name a nm h = Ok r h /\
  match r with
  | NoClass => forall c, ~ named c
  | OneClass c => forall d, named d <-> d = c
  | ManyClasses l => NoDup l /\ (2 <= List.length l)%nat /\ forall c, named c <-> In c l
  end.
Proof. exact c39_lookup. Qed.
Print Assumptions C39_lookup.
Example C39_lookup_case :
  get_class_by_name 0 "Phone" ex_grid = Ok (OneClass 12) ex_grid /\
  get_class_by_name 0 "Tone" ex_grid = Ok NoClass ex_grid.
Proof. split; vm_compute; reflexivity. Qed.

(** C40: the rows of an interval. *)
Theorem C40_rows : forall (h : heap) (o : oid) (ns : list oid) (n : nat),
  contained h [o] ns -> NoDup ns -> (List.length ns <= n)%nat ->
  exists rs, seq_rows n true o h = Ok rs h /\ NoDup rs /\
    (forall r, In r rs <-> df_row h o r) /\
    map last rs = map Some (List.filter (fun x => bool_decide (inside h x = [])) ns).
Proof. exact c40_rows. Qed.
Print Assumptions C40_rows.
Example C40_rows_case :
  contained ex_grid [3%nat] [3; 16; 19]%nat /\ NoDup [3; 16; 19]%nat /\
  seq_rows 3 true 3 ex_grid = Ok [[3; 16]; [3; 19]]%nat ex_grid.
Proof.
  split; [|split; [apply nodup_by; vm_compute; reflexivity|vm_compute; reflexivity]].
  change [3; 16; 19]%nat with (3 :: [16; 19] ++ [])%list%nat. apply contained_cons; [|constructor].
  change [16; 19]%nat with (16 :: [] ++ [19])%list%nat. change (inside ex_grid 3) with [16; 19]%nat. apply contained_cons; [constructor|].
  change [19]%nat with (19 :: [] ++ [])%list%nat at 2. apply contained_cons; constructor.
Qed.
(** C40: the rows of a TierGroup. *)
Theorem C40_group : forall (h : heap) (g : gid) (t : tid) (ts : list tid) (ns : list oid) (n : nat),
  g_points (gob h g) = false -> g_tiers (gob h g) = t :: ts ->
  t_seq (tob h t) <> [] -> contained h (t_seq (tob h t)) ns -> NoDup ns -> (List.length ns <= n)%nat ->
  exists rs, grp_rows n true g h = Ok rs h /\ NoDup rs /\
    (forall r, In r rs <-> exists x, In x (t_seq (tob h t)) /\ df_row h x r) /\
    map last rs = map Some (List.filter (fun x => bool_decide (inside h x = [])) ns).
Proof. exact c40_group. Qed.
Print Assumptions C40_group.
Example C40_group_case :
  g_points (gob ex_grid 0) = false /\ g_tiers (gob ex_grid 0) = [0; 1]%nat /\ t_seq (tob ex_grid 0) <> [] /\
  contained ex_grid (t_seq (tob ex_grid 0)) [0; 10; 13; 3; 16; 19]%nat /\ NoDup [0; 10; 13; 3; 16; 19]%nat /\
  grp_rows 6 true 0 ex_grid = Ok [[0; 10]; [0; 13]; [3; 16]; [3; 19]]%nat ex_grid.
Proof.
  split; [reflexivity|]. split; [reflexivity|]. split; [discriminate|].
  split; [|split; [apply nodup_by; vm_compute; reflexivity|vm_compute; reflexivity]].
  change (t_seq (tob ex_grid 0)) with [0; 3]%nat.
  assert (L : forall x l, inside ex_grid x = [] -> contained ex_grid [] [] -> forall m, contained ex_grid l m -> contained ex_grid (x :: l) (x :: m)).
  { intros x l E N m M. change (x :: m) with (x :: [] ++ m)%list. apply contained_cons; [rewrite E; exact N|exact M]. }
  change [0; 10; 13; 3; 16; 19]%nat with (0 :: [10; 13] ++ (3 :: [16; 19] ++ []))%list%nat.
  apply contained_cons; [|apply contained_cons; [|constructor]].
  - change (inside ex_grid 0) with [10; 13]%nat. repeat (apply L; [reflexivity|constructor|]). constructor.
  - change (inside ex_grid 3) with [16; 19]%nat. repeat (apply L; [reflexivity|constructor|]). constructor.
Qed.
(** C40: without subsets, one row per entry of each tier of a group. *)
Theorem C40_flat : forall (h : heap) (n : nat) (g : gid),
  g_tiers (gob h g) <> [] -> (forall t, In t (g_tiers (gob h g)) -> t_seq (tob h t) <> []) ->
  grp_rows (S n) false g h = Ok (map (fun x => [x]) (entries_of h (g_tiers (gob h g)))) h.
Proof. exact c40_flat. Qed.
Print Assumptions C40_flat.
Example C40_flat_case :
  g_tiers (gob ex_grid 0) <> [] /\ (forall t, In t (g_tiers (gob ex_grid 0)) -> t_seq (tob ex_grid t) <> []).
Proof. split; [discriminate|]. intros t Ht. members; discriminate. Qed.
(** C40: the same for a grid. *)
Theorem C40_flat_grid : forall (h : heap) (n : nat) (a : aid),
  a_groups (aob h a) <> [] ->
  (forall g, In g (a_groups (aob h a)) -> g_tiers (gob h g) <> []) ->
  (forall t, In t (tiers_of h (a_groups (aob h a))) -> t_seq (tob h t) <> []) ->
  grid_rows (S n) false a h = Ok (map (fun x => [x]) (entries_of h (tiers_of h (a_groups (aob h a))))) h.
Proof. exact c40_flat_grid. Qed.
Print Assumptions C40_flat_grid.
Example C40_flat_grid_case :
  a_groups (aob ex_grid 0) <> [] /\
  (forall g, In g (a_groups (aob ex_grid 0)) -> g_tiers (gob ex_grid g) <> []) /\
  (forall t, In t (tiers_of ex_grid (a_groups (aob ex_grid 0))) -> t_seq (tob ex_grid t) <> []).
Proof. split; [discriminate|]. split; intros t Ht; members; discriminate. Qed.
(** C40: an empty tier has no table. *)
Theorem C40_empty : forall (h : heap) (n : nat) (b : bool) (t : tid),
  t_seq (tob h t) = [] -> tier_rows n b t h = Raise ValueError h.
Proof. exact c40_empty. Qed.
Print Assumptions C40_empty.
Example C40_empty_case : t_seq (tob (run (mod_tier 1 (set_t_seq [])) ex_grid) 1) = [].
Proof. vm_compute. reflexivity. Qed.
