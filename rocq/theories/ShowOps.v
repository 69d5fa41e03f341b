(** * ShowOps: how objects print, and the names of tiers.

    Model of [__repr__] of intervals, points, tiers, groups and grids, and of the
    properties [tier_names]. *)
From Verif Require Export GridOps.
From Coq Require Import DecimalString Ascii.
Open Scope Z_scope.
Open Scope string_scope.

(** Python's [repr] of a string: in single quotes, or in double quotes if it has a
    single but no double quote; the quote and the backslash are escaped.
    Simplification: characters that do not print are not escaped. *)
Fixpoint has_char (c : ascii) (s : string) : bool :=
  match s with EmptyString => false | String d s' => Ascii.eqb c d || has_char c s' end.
Definition squote : ascii := "039"%char.
Definition dquote : ascii := "034"%char.
Definition backslash : ascii := "092"%char.
Fixpoint escape (q : ascii) (s : string) : string :=
  match s with
  | EmptyString => EmptyString
  | String c s' => if Ascii.eqb c q || Ascii.eqb c backslash then String backslash (String c (escape q s')) else String c (escape q s')
  end.
Definition repr_str (s : string) : string :=
  let q := if has_char squote s && negb (has_char dquote s) then dquote else squote in
  String q (escape q s ++ String q EmptyString).
(** [repr] of a name that may be None. *)
Definition repr_name (s : option string) : string := match s with Some s => repr_str s | None => "None" end.
(** [repr] of an int that is not negative. *)
Definition repr_nat (n : nat) : string := NilZero.string_of_uint (Nat.to_uint n).
(** [repr] of a list, whose elements print as [f] says. *)
Fixpoint comma_join (l : list string) : string :=
  match l with [] => "" | [x] => x | x :: r => x ++ ", " ++ comma_join r end.
Definition repr_list {A} (f : A -> string) (l : list A) : string := "[" ++ comma_join (map f l) ++ "]".

(** [SequenceInterval.__repr__] (sequences.py:461-477).  [if self.super_instance:]
    asks for the [len] of the parent (423-424), [if self.subset_list:] for that of the
    list (sequence_list.py:52-53); classes are always true. *)
Definition seq_repr (x : oid) : M string := fun h =>
  let o := sob h x in
  let up := match superset_class h (s_cls o) with
    | Some c => ", .superset_class: " ++ class_name h c ++
        match s_super o with
        | Some p => match s_subset (sob h p) with
                    | _ :: _ => ", .super_instance: " ++ s_label (sob h p)
                    | [] => ", .super_instance, None"
                    end
        | None => ", .super_instance, None"
        end
    | None => ", .superset_class: None"
    end in
  let down := match subset_class h (s_cls o) with
    | Some c => ", .subset_class: " ++ class_name h c ++
        match s_subset o with
        | _ :: _ => ", .subset_list: " ++ repr_list repr_str (labels_of h (s_subset o))
        | [] => ""
        end
    | None => ", .subset_class: None"
    end in
  Ok ("Class " ++ class_name h (s_cls o) ++ ", label: " ++ s_label o ++ up ++ down) h.

(** [SequencePoint.__repr__] (points.py:102-106): [if self.intier:] asks for the [len]
    of the tier (points/tiers.py:113-114). *)
Definition pt_repr (x : oid) : M string :=
  o <- get_seq x ;;
  s <- gets (fun h => "Class " ++ class_name h (s_cls o) ++ ", label: " ++ s_label o ++ ";") ;;
  match s_intier o with
  | None => ret s
  | Some t =>
      l <- gets (fun h => t_seq (tob h t)) ;;
      match l with
      | [] => ret s
      | _ => i <- tier_index x ;; ret (s ++ " tier_index: " ++ match i with Some i => repr_nat i | None => "None" end)
      end
  end.

(** [SequenceTier.__repr__] (tiers.py:179-180): None has no [__name__];
    [SequencePointTier.__repr__] (points/tiers.py:136-137). *)
Definition tier_repr (t : tid) : M string := fun h =>
  let o := tob h t in
  if is_point_cls h (t_ec o) then Ok ("Sequence Point tier of " ++ class_name h (t_ec o) ++ ";") h
  else match t_super o, t_sub o with
       | Some u, Some d => Ok ("Sequence tier of " ++ class_name h (t_ec o) ++ "; .superset_class: " ++ class_name h u ++
                               "; .subset_class: " ++ class_name h d) h
       | _, _ => Raise AttributeError h
       end.

(** [TierGroup.__repr__] (tiers.py:524-527) and [PointsGroup.__repr__]
    (points/tiers.py:325-328) with [entry_classes] (tiers.py:577-579, points/tiers.py:307-309). *)
Definition grp_repr (g : gid) : M string := fun h =>
  let o := gob h g in
  Ok ((if g_points o then "PointsGroup with " else "TierGroup with ") ++ repr_nat (List.length (g_tiers o)) ++ " tiers. " ++
      repr_list repr_str (grp_class_names h g)) h.

(** [group.tier_names] (tiers.py:581-583); a PointsGroup has no such attribute. *)
Definition grp_tier_names (g : gid) : M (list string) := fun h =>
  if g_points (gob h g) then Raise AttributeError h else Ok (map (fun t => t_name (tob h t)) (g_tiers (gob h g))) h.
(** [grid.tier_names] (aligned_textgrid.py:388-392). *)
Definition grid_tier_names (a : aid) : M (list (list string)) :=
  o <- get_grid a ;;
  match a_groups o with [] => raise ValueError | gs => mapM grp_tier_names gs end.

Section WithEnv.
Context `{Env}.
(** [AlignedTextGrid.__repr__] (aligned_textgrid.py:108-114). *)
Definition grid_repr (a : aid) : M string :=
  o <- get_grid a ;;
  names <- mapM grp_name (a_groups o) ;;
  gets (fun h =>
    "AlignedTextGrid with " ++ repr_nat (List.length (a_groups o)) ++ " groups named " ++ repr_list repr_name names ++
    " each with " ++ repr_list repr_nat (map (fun g => List.length (g_tiers (gob h g))) (a_groups o)) ++ " tiers. " ++
    repr_list (repr_list repr_str) (map (grp_class_names h) (a_groups o))).
End WithEnv.
