(** * C72: any number of changes to the hierarchy of a grid. *)
From Verif Require Import ReviseFinal RevReadFinal DemoRevise DemoRevRead ReviseSpec.
Open Scope Z_scope.

(** C72: any sequence of allowed [interleave_class] and [pop_class] calls succeeds;
    the grid then shows what the changes, made one by one to what it showed, give;
    its classes are chained, and its groups related, as before; no interval that
    existed has another time or label. *)
Theorem C72_edits `{Env} : forall (es : list edit) (n : nat) (h : heap) (a : aid) (t : cid) (cs : list cid) (b : cid) (others : list string),
  working h a t cs b others -> all_allowed others (map (class_name h) cs) es ->
  exists cs' h', make_edits n a es h = Ok tt h' /\ map (class_name h') cs' = fold_left (fun l e => edit_names e l) es (map (class_name h) cs) /\
    working h' a t cs' b others /\ grid_view h' a = fold_left (fun v e => edit_view e v) es (grid_view h a) /\ values_kept h h' /\
    (forall k, k <> a -> aob h' k = aob h k).
Proof. exact c72_edits. Qed.
Print Assumptions C72_edits.
Example C72_edits_case : let E : Env := demo_env in
  working ex_rev 0 9 [11; 12; 13]%nat 10 ["SequencePoint"%string] /\
  all_allowed ["SequencePoint"%string] (map (class_name ex_rev) [11; 12; 13]%nat) rev_edits /\
  exists h', make_edits 5 0 rev_edits ex_rev = Ok tt h' /\ map (class_name h') [11; 16; 19]%nat = ["Word"; "Foot"; "Mora"]%string /\
    map fst (grid_view h' 0) = [Some "KY"; Some "IY"; Some "SequencePoint"]%string /\
    nth_error (grid_view h' 0) 1 =
      Some (Some "IY"%string, [("Word", "Word", [(false, Some 10, Some 60, "xy")]); ("Foot", "Foot", [(false, Some 10, Some 60, "4")]);
                               ("Mora", "Mora", [(false, Some 10, Some 60, "")])]%string).
Proof.
  cbv zeta. split; [apply rev_working; simpl; auto|]. split; [exact rev_allowed|]. eexists. split; [vm_compute; reflexivity|]. repeat split.
Qed.
(** C72: what is written is what the changes give, under the names of the tiers if
    these differ. *)
Theorem C72_written `{Env} : forall (es : list edit) (n : nat) (h : heap) (a : aid) (t : cid) (cs : list cid) (b : cid) (others : list string) (h' : heap),
  working h a t cs b others -> all_allowed others (map (class_name h) cs) es -> make_edits n a es h = Ok tt h' ->
  let out := flat_map snd (fold_left (fun v e => edit_view e v) es (grid_view h a)) in
  map snd (return_textgrid h' a) = map snd out /\
  (NoDup (map (fun v : strip => snd (fst v)) out) -> return_textgrid h' a = map (fun v : strip => (snd (fst v), snd v)) out).
Proof. exact c72_written. Qed.
Print Assumptions C72_written.
Example C72_written_case : let E : Env := demo_env in
  working ex_rev 1 9 [11; 12; 13]%nat 10 ["SequencePoint"%string] /\
  all_allowed ["SequencePoint"%string] (map (class_name ex_rev) [11; 12; 13]%nat) rev_edits /\
  NoDup (map (fun v : strip => snd (fst v)) (flat_map snd (fold_left (fun v e => edit_view e v) rev_edits (grid_view ex_rev 1)))) /\
  exists h', make_edits 5 1 rev_edits ex_rev = Ok tt h' /\ map fst (return_textgrid h' 1) = ["Word"; "Foot"; "Mora"]%string.
Proof.
  cbv zeta. split; [apply rev_working; simpl; auto|]. split; [exact rev_allowed|]. split; [apply (bool_decide_unpack _); vm_compute; exact I|].
  eexists. split; [vm_compute; reflexivity|reflexivity].
Qed.
(** C72: popping a class that was interleaved takes the grid back to where it was. *)
Theorem C72_undo `{Env} : forall (n : nat) (h : heap) (a : aid) (t : cid) (cs : list cid) (b : cid) (others : list string) (nm nm2 : string) (above from_below labels : bool),
  working h a t cs b others -> allowed others (map (class_name h) cs) (Add nm nm2 above from_below labels) ->
  exists h1 h', interleave_class n a nm above nm2 from_below labels h = Ok tt h1 /\ pop_class n a nm h1 = Ok tt h' /\
    working h' a t cs b others /\ grid_view h' a = grid_view h a /\ return_textgrid h' a = return_textgrid h a /\
    map (class_name h') cs = map (class_name h) cs /\ values_kept h h'.
Proof. exact c72_undo. Qed.
Print Assumptions C72_undo.
Example C72_undo_case : let E : Env := demo_env in
  working ex_rev 0 9 [11; 12; 13]%nat 10 ["SequencePoint"%string] /\
  allowed ["SequencePoint"%string] (map (class_name ex_rev) [11; 12; 13]%nat) (Add "Foot" "Syl" true true true) /\
  exists h1, interleave_class 5 0 "Foot" true "Syl" true true ex_rev = Ok tt h1 /\ grid_view h1 0 <> grid_view ex_rev 0.
Proof.
  cbv zeta. split; [apply rev_working; simpl; auto|]. split; [apply rev_allowed|]. eexists. split; [vm_compute; reflexivity|vm_compute; discriminate].
Qed.
(** C72: a grid that was read can be changed in this way: if all its groups of
    intervals are of one hierarchy it is as the theorems above require. *)
Theorem C72_read `{Env} : forall (n : nat) (h : heap) (rows : list (list rawtier)) (css : list (list cid)) (rest : list rawtier) (lo hi : Z) (cs : list cid) (others : list string),
  ends_named h -> Forall2 (readable h lo hi) rows css -> names_apart h (concat css) -> some_intervals h rows css -> gapless (concat rows) ->
  one_hierarchy h rows css cs others ->
  exists f a h' t b, new_grid_textgrid n (concat rows ++ rest) (Nested css) h = Ok a h' /\ grid_read lo hi f h h' rows css a /\
    working h' a t (map f cs) b others /\ map (class_name h') (map f cs) = map (class_name h) cs.
Proof. exact c72_read. Qed.
Print Assumptions C72_read.
Example C72_read_case : let E : Env := demo_env in
  let rows := [[ex_segs; ex_words; ex_marks]; [ex_tones]] in let css := [[cPhone; cWord; cPoint]; [cPoint]] in
  ends_named boot_heap /\ Forall2 (readable boot_heap 10 60) rows css /\ names_apart boot_heap (concat css) /\ some_intervals boot_heap rows css /\ gapless (concat rows) /\
  one_hierarchy boot_heap rows css [cWord; cPhone] ["SequencePoint"%string] /\
  all_allowed ["SequencePoint"%string] (map (class_name boot_heap) [cWord; cPhone]) read_edits.
Proof.
  cbv zeta. split; [exact boot_ends|]. split; [constructor; [exact ex_row|constructor; [exact ex_prow|constructor]]|].
  split; [apply apart_boot; intros c; simpl; tauto|]. split; [do 2 eexists; split; [left; reflexivity|vm_compute; discriminate]|]. split; [gapless_goal|].
  split; [exact boot_one|]. apply read_allowed. intros x [<-|[]]. reflexivity.
Qed.
(** C72: reading a text grid, changing its hierarchy and writing it gives what the
    changes, made to the tiers that were read, give. *)
Theorem C72_trip `{Env} : forall (n : nat) (h : heap) (rows : list (list rawtier)) (css : list (list cid)) (rest : list rawtier) (lo hi : Z) (cs : list cid),
  ends_named h -> Forall2 (readable h lo hi) rows css -> rows <> [] -> gapless (concat rows) ->
  (exists t b, class_chain h t cs b) -> (forall ocs, In ocs css -> Permutation ocs cs) -> names_apart h cs -> (forall c, In c cs -> class_name h c <> ""%string) ->
  exists a h' rss, new_grid_textgrid n (concat rows ++ rest) (Nested css) h = Ok a h' /\
    Forall2 (fun rc rs => List.length rs = List.length cs /\ Permutation (combine (fst rc) (snd rc)) (combine rs cs)) (combine rows css) rss /\
    forall es, all_allowed [] (map (class_name h) cs) es ->
      exists h'', make_edits n a es h' = Ok tt h'' /\
        let out := flat_map (fun rs => fold_left (fun l e => edit_strips e l) es (map (raw_strip h) (combine rs cs))) rss in
        map snd (return_textgrid h'' a) = map snd out /\
        (NoDup (map (fun v : strip => snd (fst v)) out) -> return_textgrid h'' a = map (fun v : strip => (snd (fst v), snd v)) out).
Proof. exact c72_trip. Qed.
Print Assumptions C72_trip.
Example C72_trip_case : let E : Env := demo_env in
  let rows := [[ex_words; ex_segs]; [ex_words; ex_segs]] in let css := [[cWord; cPhone]; [cWord; cPhone]] in
  ends_named boot_heap /\ Forall2 (readable boot_heap 10 60) rows css /\ rows <> [] /\ gapless (concat rows) /\
  class_chain boot_heap cTopwp [cWord; cPhone] cBottomwp /\ (forall ocs, In ocs css -> Permutation ocs [cWord; cPhone]) /\ names_apart boot_heap [cWord; cPhone] /\
  (forall c, In c [cWord; cPhone] -> class_name boot_heap c <> ""%string) /\ all_allowed [] (map (class_name boot_heap) [cWord; cPhone]) read_edits /\
  exists h' h'', new_grid_textgrid 50 (concat rows ++ []) (Nested css) boot_heap = Ok 0%nat h' /\ make_edits 50 0 read_edits h' = Ok tt h'' /\
    hd_error (return_textgrid h'' 0) = Some ("Turn"%string, [(false, Some 10, Some 30, ""%string); (false, Some 30, Some 60, ""%string)]).
Proof.
  cbv zeta. split; [exact boot_ends|]. split; [constructor; [exact ex_wrow|constructor; [exact ex_wrow|constructor]]|].
  split; [discriminate|]. split; [gapless_goal|]. split; [exact boot_chain|]. split; [intros ocs [<-|[<-|[]]]; reflexivity|].
  split; [apply apart_boot; intros c; simpl; tauto|]. split; [intros c [<-|[<-|[]]]; vm_compute; discriminate|]. split; [apply read_allowed; intros x []|].
  do 2 eexists. split; [vm_compute; reflexivity|]. split; [vm_compute; reflexivity|]. vm_compute. reflexivity.
Qed.
(** C72: the other way round that is not so: a class that was popped cannot be
    interleaved back. *)
Theorem C72_redo_refuted : exists (E : Env) (n : nat) (h : heap) (a : aid) (t : cid) (cs : list cid) (b : cid) (others : list string) (nm : string),
  working h a t cs b others /\ allowed others (map (class_name h) cs) (Drop nm) /\
  forall nm2 above from_below labels h', In nm2 (edit_names (Drop nm) (map (class_name h) cs)) ->
    make_edits n a [Drop nm; Add nm nm2 above from_below labels] h = Ok tt h' -> grid_view h' a <> grid_view h a.
Proof. exact c72_redo_refuted. Qed.
Print Assumptions C72_redo_refuted.
