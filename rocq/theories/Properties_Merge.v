(** * C74: fusing the intervals of a grid. *)
From Verif Require Import MergeGridFinal MergeReadFinal DemoMerge MergeSpec.
Open Scope Z_scope.

(** C74: two intervals, next to each other in the lowest tier of a group in good
    order and inside one interval of the tier above, are fused by [fuse_rightwards]
    of the first or [fuse_leftwards] of the second: the one that is kept spans both
    and has the joined label, in the tier and among the children alike; the other
    one is in neither; nothing else has another time or label, and the group is in
    good order. *)
Theorem C74_fused `{Env} : forall (right : bool) (jn : string -> string -> string) (h : heap) (g : gid) (us : list tid) (u t : tid) (bss : list (list (list oid))) (L1 L2 : list oid) (v w z : oid) (s a b e : Z),
  good_group h g (us ++ [u; t]) bss -> bare_bottom h (us ++ [u; t]) -> at_home h t -> t_seq (tob h t) = (L1 ++ v :: w :: L2)%list -> In z (t_seq (tob h u)) ->
  s_start (sob h z) = Some s -> s_start (sob h v) = Some a -> s_end (sob h w) = Some b -> s_end (sob h z) = Some e -> s <= a -> b <= e ->
  jn (s_label (sob h v)) (s_label (sob h w)) <> "#"%string ->
  let x := if right then v else w in let y := if right then w else v in
  exists h' bss' l1 l2, fuse right jn x h = Ok tt h' /\ good_group h' g (us ++ [u; t]) bss' /\ bare_bottom h' (us ++ [u; t]) /\ at_home h' t /\
    s_subset (sob h z) = (l1 ++ v :: w :: l2)%list /\ s_subset (sob h' z) = (l1 ++ x :: l2)%list /\ t_seq (tob h' t) = (L1 ++ x :: L2)%list /\
    (s_cls (sob h' x) = s_cls (sob h x) /\ s_start (sob h' x) = Some a /\ s_end (sob h' x) = Some b /\ s_label (sob h' x) = jn (s_label (sob h v)) (s_label (sob h w)) /\ s_super (sob h' x) = Some z) /\
    s_super (sob h' y) = None /\
    (forall i, live h i -> i <> x -> s_cls (sob h' i) = s_cls (sob h i) /\ s_start (sob h' i) = s_start (sob h i) /\ s_end (sob h' i) = s_end (sob h i) /\ s_label (sob h' i) = s_label (sob h i)) /\
    (forall k, k <> t -> tob h' k = tob h k) /\ h_grp h' = h_grp h /\ h_grid h' = h_grid h.
Proof. exact c74_fused. Qed.
Print Assumptions C74_fused.
Example C74_fused_case : let E : Env := demo_env in
  good_group ex_rev 0 ([1%nat] ++ [2%nat; 0%nat])%list ex_blocks /\ bare_bottom ex_rev ([1%nat] ++ [2%nat; 0%nat])%list /\ at_home ex_rev 0 /\
  t_seq (tob ex_rev 0) = ([] ++ 0%nat :: 3%nat :: [6%nat; 9%nat])%list /\ In 26%nat (t_seq (tob ex_rev 2)) /\
  s_start (sob ex_rev 26) = Some 10 /\ s_start (sob ex_rev 0) = Some 10 /\ s_end (sob ex_rev 3) = Some 30 /\ s_end (sob ex_rev 26) = Some 30 /\
  join_labels (s_label (sob ex_rev 0)) (s_label (sob ex_rev 3)) = "a b"%string.
Proof.
  cbv zeta. split; [exact rev_good0|]. split; [intros t x [= <-] Hx; members; reflexivity|]. split; [exact rev_home|].
  split; [reflexivity|]. split; [vm_compute; auto|]. repeat split.
Qed.
(** C74: an interval of the lowest tier that ends (starts) with one of the tier
    above is not fused with what follows (precedes), and nothing changes. *)
Theorem C74_edge `{Env} : forall (right : bool) (jn : string -> string -> string) (h : heap) (g : gid) (us : list tid) (u t : tid) (bss : list (list (list oid))) (x z : oid),
  good_group h g (us ++ [u; t]) bss -> In x (t_seq (tob h t)) -> In z (t_seq (tob h u)) ->
  (if right then s_end (sob h x) = s_end (sob h z) else s_start (sob h x) = s_start (sob h z)) ->
  fuse right jn x h = Raise PyException h.
Proof. exact c74_edge. Qed.
Print Assumptions C74_edge.
Example C74_edge_case : let E : Env := demo_env in
  good_group ex_rev 0 ([1%nat] ++ [2%nat; 0%nat])%list ex_blocks /\ In 3%nat (t_seq (tob ex_rev 0)) /\ In 26%nat (t_seq (tob ex_rev 2)) /\ s_end (sob ex_rev 3) = s_end (sob ex_rev 26) /\
  In 6%nat (t_seq (tob ex_rev 0)) /\ In 29%nat (t_seq (tob ex_rev 2)) /\ s_start (sob ex_rev 6) = s_start (sob ex_rev 29).
Proof. cbv zeta. split; [exact rev_good0|]. repeat split; vm_compute; auto. Qed.
(** C74: any number of such fusions, anywhere in a grid: they all succeed, the grid
    then shows what they, made one by one to what it showed, give, and it is as it
    was for further fusions or changes of the hierarchy. *)
Theorem C74_run `{Env} : forall (fs : list fusion) (h : heap) (a : aid) (t : cid) (cs : list cid) (b : cid) (others : list string),
  working h a t cs b others -> all_lodged h a cs -> can_fuse_all (map (class_name h) cs) (grid_view h a) fs ->
  exists h', make_fusions a fs h = Ok tt h' /\ working h' a t cs b others /\ all_lodged h' a cs /\
    grid_view h' a = fold_left (fun v f => fuse_view f v) fs (grid_view h a) /\ h_cls h' = h_cls h /\ h_grp h' = h_grp h /\ h_grid h' = h_grid h.
Proof. exact c74_run. Qed.
Print Assumptions C74_run.
Example C74_run_case : let E : Env := demo_env in
  working ex_rev 0 9 [11; 12; 13]%nat 10 ["SequencePoint"%string] /\ all_lodged ex_rev 0 [11; 12; 13]%nat /\
  can_fuse_all (map (class_name ex_rev) [11; 12; 13]%nat) (grid_view ex_rev 0) rev_fusions /\
  exists h', make_fusions 0 rev_fusions ex_rev = Ok tt h' /\
    nth_error (grid_view h' 0) 1 = Some (Some "IY"%string, [("Word", "Word", [(false, Some 10, Some 60, "xy")]); ("Syl", "Syl", [(false, Some 10, Some 60, "4")]);
                                                     ("Phone", "Phone", [(false, Some 10, Some 60, "x y")])]%string).
Proof.
  cbv zeta. split; [apply rev_working; simpl; auto|]. split; [apply rev_lodged; simpl; auto|]. split; [exact rev_fusable|]. eexists. split; vm_compute; reflexivity.
Qed.
(** C74: what is written is what the fusions give. *)
Theorem C74_written `{Env} : forall (fs : list fusion) (h : heap) (a : aid) (t : cid) (cs : list cid) (b : cid) (others : list string) (h' : heap),
  working h a t cs b others -> all_lodged h a cs -> can_fuse_all (map (class_name h) cs) (grid_view h a) fs -> make_fusions a fs h = Ok tt h' ->
  let out := flat_map snd (fold_left (fun v f => fuse_view f v) fs (grid_view h a)) in
  map snd (return_textgrid h' a) = map snd out /\
  (NoDup (map (fun v : strip => snd (fst v)) out) -> return_textgrid h' a = map (fun v : strip => (snd (fst v), snd v)) out).
Proof. exact c74_written. Qed.
Print Assumptions C74_written.
Example C74_written_case : let E : Env := demo_env in
  working ex_rev 0 9 [11; 12; 13]%nat 10 ["SequencePoint"%string] /\ all_lodged ex_rev 0 [11; 12; 13]%nat /\
  can_fuse_all (map (class_name ex_rev) [11; 12; 13]%nat) (grid_view ex_rev 0) rev_fusions /\
  exists h', make_fusions 0 rev_fusions ex_rev = Ok tt h' /\
    nth_error (map snd (return_textgrid h' 0)) 2 = Some [(false, Some 10, Some 30, "a b"); (false, Some 30, Some 50, "c"); (false, Some 50, Some 60, "d")]%string.
Proof.
  cbv zeta. split; [apply rev_working; simpl; auto|]. split; [apply rev_lodged; simpl; auto|]. split; [exact rev_fusable|]. eexists. split; vm_compute; reflexivity.
Qed.
(** C74: a grid that was read is as these theorems require. *)
Theorem C74_read `{Env} : forall (n : nat) (h : heap) (rows : list (list rawtier)) (css : list (list cid)) (rest : list rawtier) (lo hi : Z) (cs : list cid) (others : list string),
  ends_named h -> Forall2 (readable h lo hi) rows css -> names_apart h (concat css) -> some_intervals h rows css -> gapless (concat rows) ->
  one_hierarchy h rows css cs others ->
  exists f a h' t b, new_grid_textgrid n (concat rows ++ rest) (Nested css) h = Ok a h' /\
    working h' a t (map f cs) b others /\ all_lodged h' a (map f cs) /\ map (class_name h') (map f cs) = map (class_name h) cs /\
    forall fs, can_fuse_all (map (class_name h) cs) (grid_view h' a) fs ->
      exists h'', make_fusions a fs h' = Ok tt h'' /\ working h'' a t (map f cs) b others /\
        grid_view h'' a = fold_left (fun v f => fuse_view f v) fs (grid_view h' a).
Proof. exact c74_read. Qed.
Print Assumptions C74_read.
Example C74_read_case : let E : Env := demo_env in
  let rows := [[ex_segs; ex_words; ex_marks]; [ex_tones]] in let css := [[cPhone; cWord; cPoint]; [cPoint]] in
  ends_named boot_heap /\ Forall2 (readable boot_heap 10 60) rows css /\ names_apart boot_heap (concat css) /\ some_intervals boot_heap rows css /\ gapless (concat rows) /\
  one_hierarchy boot_heap rows css [cWord; cPhone] ["SequencePoint"%string].
Proof.
  cbv zeta. split; [exact boot_ends|]. split; [constructor; [exact ex_row|constructor; [exact ex_prow|constructor]]|].
  split; [apply apart_boot; intros c; simpl; tauto|]. split; [do 2 eexists; split; [left; reflexivity|vm_compute; discriminate]|]. split; [gapless_goal|].
  exact boot_one.
Qed.
(** C74: reading a text grid, fusing intervals and writing it gives what the
    fusions, made to the tiers that were read, give. *)
Theorem C74_trip `{Env} : forall (n : nat) (h : heap) (rows : list (list rawtier)) (css : list (list cid)) (rest : list rawtier) (lo hi : Z) (cs : list cid),
  ends_named h -> Forall2 (readable h lo hi) rows css -> rows <> [] -> gapless (concat rows) ->
  (exists t b, class_chain h t cs b) -> (forall ocs, In ocs css -> Permutation ocs cs) -> names_apart h cs -> (forall c, In c cs -> class_name h c <> ""%string) ->
  exists a h' rss, new_grid_textgrid n (concat rows ++ rest) (Nested css) h = Ok a h' /\
    Forall2 (fun rc rs => List.length rs = List.length cs /\ Permutation (combine (fst rc) (snd rc)) (combine rs cs)) (combine rows css) rss /\
    let view := map (fun rs => (None, map (raw_strip h) (combine rs cs))) rss in
    forall fs, can_fuse_all (map (class_name h) cs) view fs ->
      exists h'', make_fusions a fs h' = Ok tt h'' /\
        let out := flat_map snd (fold_left (fun v f => fuse_view f v) fs view) in
        map snd (return_textgrid h'' a) = map snd out /\
        (NoDup (map (fun v : strip => snd (fst v)) out) -> return_textgrid h'' a = map (fun v : strip => (snd (fst v), snd v)) out).
Proof. exact c74_trip. Qed.
Print Assumptions C74_trip.
Example C74_trip_case : let E : Env := demo_env in
  let rows := [[ex_words; ex_segs]; [ex_words; ex_segs]] in let css := [[cWord; cPhone]; [cWord; cPhone]] in
  let fs := [Fusion true 1 0 join_labels; Fusion false 0 2 join_labels] in
  ends_named boot_heap /\ Forall2 (readable boot_heap 10 60) rows css /\ rows <> [] /\ gapless (concat rows) /\
  class_chain boot_heap cTopwp [cWord; cPhone] cBottomwp /\ (forall ocs, In ocs css -> Permutation ocs [cWord; cPhone]) /\ names_apart boot_heap [cWord; cPhone] /\
  (forall c, In c [cWord; cPhone] -> class_name boot_heap c <> ""%string) /\
  exists h' h'', new_grid_textgrid 50 (concat rows ++ []) (Nested css) boot_heap = Ok 0%nat h' /\ make_fusions 0 fs h' = Ok tt h'' /\
    map snd (return_textgrid h'' 0) =
      [[(false, Some 10, Some 30, "ab"); (false, Some 30, Some 60, "cd")]; [(false, Some 10, Some 20, "a"); (false, Some 20, Some 30, "b"); (false, Some 30, Some 60, "c d")];
       [(false, Some 10, Some 30, "ab"); (false, Some 30, Some 60, "cd")]; [(false, Some 10, Some 30, "a b"); (false, Some 30, Some 50, "c"); (false, Some 50, Some 60, "d")]]%string.
Proof.
  cbv zeta. split; [exact boot_ends|]. split; [constructor; [exact ex_wrow|constructor; [exact ex_wrow|constructor]]|].
  split; [discriminate|]. split; [gapless_goal|]. split; [exact boot_chain|]. split; [intros ocs [<-|[<-|[]]]; reflexivity|].
  split; [apply apart_boot; intros c; simpl; tauto|]. split; [intros c [<-|[<-|[]]]; vm_compute; discriminate|].
  do 2 eexists. split; [vm_compute; reflexivity|]. split; [vm_compute; reflexivity|]. vm_compute. reflexivity.
Qed.
