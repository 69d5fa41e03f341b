(** * ReviseSpec: what the properties of any number of changes to the hierarchy of
    a grid talk about. *)
From Verif Require Export TripSpec.
Open Scope Z_scope.

(** ** What can be seen of a grid *)

(** Of a tier: the name of its class, its own name, and what praatio is given of
    its entries. *)
Definition strip : Type := string * string * list (bool * option Z * option Z * string).
Definition tier_view (h : heap) (k : tid) : strip :=
  (class_name h (t_ec (tob h k)), t_name (tob h k), map (praatio h) (t_seq (tob h k))).
(** Of a group: its name and its tiers, the highest first. *)
Definition group_view (h : heap) (g : gid) : option string * list strip := (g_name (gob h g), map (tier_view h) (g_tiers (gob h g))).
Definition grid_view (h : heap) (a : aid) : list (option string * list strip) := map (group_view h) (a_groups (aob h a)).

(** ** The changes *)

(** [interleave_class(nm, above/below=nm2, timing_from, copy_labels)] and
    [pop_class(nm)]. *)
Inductive edit :=
| Add (nm nm2 : string) (above from_below labels : bool)
| Drop (nm : string).
Definition make_edit `{Env} (n : nat) (a : aid) (e : edit) : M unit :=
  match e with
  | Add nm nm2 above from_below labels => interleave_class n a nm above nm2 from_below labels
  | Drop nm => pop_class n a nm
  end.
Definition make_edits `{Env} (n : nat) (a : aid) (es : list edit) : M unit := forM es (make_edit n a).

(** A new tier of class [nm], with the entries of [v], with or without their labels. *)
Definition copy_strip (labels : bool) (nm : string) (v : strip) : strip :=
  (nm, nm, map (fun p => match p with (k, s, e, l) => (k, s, e, if labels then l else ""%string) end) (snd v)).
Definition put {A} (x : option A) (l : list A) : list A := match x with Some y => y :: l | None => l end.
(** Above or below the tier of class [nm2] comes a copy of the tier that is then
    below or above it. *)
Fixpoint add_strip (nm nm2 : string) (above from_below labels : bool) (up : option strip) (l : list strip) : list strip :=
  match l with
  | [] => []
  | v :: r =>
    if String.eqb (fst (fst v)) nm2 then
      if above then put (option_map (copy_strip labels nm) (if from_below then Some v else up)) (v :: r)
      else v :: put (option_map (copy_strip labels nm) (if from_below then hd_error r else Some v)) r
    else v :: add_strip nm nm2 above from_below labels (Some v) r
  end.
Definition edit_strips (e : edit) (l : list strip) : list strip :=
  match e with
  | Add nm nm2 above from_below labels => add_strip nm nm2 above from_below labels None l
  | Drop nm => List.filter (fun v => negb (String.eqb (fst (fst v)) nm)) l
  end.
Definition edit_view (e : edit) (v : list (option string * list strip)) : list (option string * list strip) :=
  map (fun g => (fst g, edit_strips e (snd g))) v.

(** What the changes do to the names of the classes of the hierarchy. *)
Fixpoint add_name (nm nm2 : string) (above : bool) (l : list string) : list string :=
  match l with
  | [] => []
  | x :: r => if String.eqb x nm2 then if above then nm :: x :: r else x :: nm :: r else x :: add_name nm nm2 above r
  end.
Definition edit_names (e : edit) (l : list string) : list string :=
  match e with
  | Add nm nm2 above _ _ => add_name nm nm2 above l
  | Drop nm => List.filter (fun x => negb (String.eqb x nm)) l
  end.
(** A change that can be made to the hierarchy [names] when the classes of the
    other groups are [others]: a new name, next to one that is there, with a tier
    to copy; one that is there and not the only one. *)
Definition allowed (others names : list string) (e : edit) : Prop :=
  match e with
  | Add nm nm2 above from_below _ =>
    nm <> ""%string /\ plain_name nm /\ ~ In nm names /\ ~ In nm others /\ In nm2 names /\
    (above = true -> from_below = false -> hd_error names <> Some nm2) /\
    (above = false -> from_below = true -> hd_error (rev names) <> Some nm2)
  | Drop nm => In nm names /\ (2 <= List.length names)%nat
  end.
Fixpoint all_allowed (others names : list string) (es : list edit) : Prop :=
  match es with
  | [] => True
  | e :: r => allowed others names e /\ all_allowed others (edit_names e names) r
  end.

(** ** The grids they are made to *)

(** The grid [a] has groups in good order with a tier of each of the classes
    [cs], and maybe other groups, of tiers of classes named [others]. *)
Definition named_group (h : heap) (g : gid) : Prop := exists nm, g_name (gob h g) = Some nm /\ nm <> ""%string.
Definition group_of (h : heap) (cs : list cid) (others : list string) (g : gid) : Prop :=
  (g < List.length (h_grp h))%nat /\ exist_tiers h g /\
  (forall k, In k (g_tiers (gob h g)) -> (t_ec (tob h k) < List.length (h_cls h))%nat /\
     forall x, In x (t_seq (tob h k)) -> (s_cls (sob h x) < List.length (h_cls h))%nat) /\
  (full_group h cs g /\ named_group h g /\ (forall k, In k (g_tiers (gob h g)) -> t_seq (tob h k) <> []) \/
   forall k, In k (g_tiers (gob h g)) -> In (class_name h (t_ec (tob h k))) others /\ ~ In (class_name h (t_ec (tob h k))) (map (class_name h) cs)).
Definition working (h : heap) (a : aid) (t : cid) (cs : list cid) (b : cid) (others : list string) : Prop :=
  class_table h /\ class_chain h t cs b /\ unrelated h (t :: cs ++ [b]) /\ ~ In cInterval cs /\
  (forall x, In x cs -> plain_name (class_name h x) /\ class_name h x <> ""%string) /\ NoDup (map (class_name h) cs) /\
  str_in "Bottom" (class_name h t) = false /\ str_in "Top" (class_name h b) = false /\
  (a < List.length (h_grid h))%nat /\ apart_groups h (a_groups (aob h a)) /\
  (forall g, In g (a_groups (aob h a)) -> group_of h cs others g) /\
  exists g, In g (a_groups (aob h a)) /\ full_group h cs g.
(** Every interval and point that existed has the times and the label it had. *)
Definition values_kept (h h' : heap) : Prop :=
  (List.length (h_seq h) <= List.length (h_seq h'))%nat /\
  forall i, (i < List.length (h_seq h))%nat -> s_cls (sob h' i) = s_cls (sob h i) /\ s_start (sob h' i) = s_start (sob h i) /\
    s_end (sob h' i) = s_end (sob h i) /\ s_label (sob h' i) = s_label (sob h i).

(** ** Text grids all groups of which have the same hierarchy *)

(** Top classes and bottom classes are named so that no test takes the one for
    the other, as the library names them. *)
Definition ends_named (h : heap) : Prop :=
  class_table h /\ (forall c, issubclass h c cTop = true -> str_in "Bottom" (class_name h c) = false) /\
  (forall c, issubclass h c cBottom = true -> str_in "Top" (class_name h c) = false).
(** The interval tiers of each row, if it has any, are one for each of the classes
    [cs]; the classes of the point tiers are named [others]. *)
Definition one_hierarchy (h : heap) (rows : list (list rawtier)) (css : list (list cid)) (cs : list cid) (others : list string) : Prop :=
  (exists t b, class_chain h t cs b) /\ (forall c, In c cs -> class_name h c <> ""%string) /\
  forall row ocs, In (row, ocs) (combine rows css) ->
    (interval_part h row ocs = [] \/ Permutation (map snd (interval_part h row ocs)) cs) /\
    forall p, In p (point_part h row ocs) -> In (class_name h (snd p)) others /\ ~ In (class_name h (snd p)) (map (class_name h) cs).
(** What is to be seen of a tier that was read. *)
Definition raw_strip (h : heap) (p : rawtier * cid) : strip :=
  (class_name h (snd p), rt_name (fst p), map (shown false) (rt_entries (fst p))).
