(** * TripSpec: what the properties of writing what was read talk about. *)
From Verif Require Export ReadSpec.
Open Scope Z_scope.

(** The tuple praatio is given for an entry it gave: of a point ([pt]) only the
    time and the label. *)
Definition shown (pt : bool) (e : entry) : bool * option Z * option Z * string :=
  match e with
  | ERaw s m l => (pt, s, if pt then None else m, l)
  | EObj _ => (pt, None, None, ""%string)
  end.
(** The times never decrease. *)
Definition in_time (l : list (bool * option Z * option Z * string)) : Prop :=
  forall i j x y, (i < j)%nat -> nth_error l i = Some x -> nth_error l j = Some y ->
    exists s t, snd (fst (fst x)) = Some s /\ snd (fst (fst y)) = Some t /\ s <= t.
(** The tier [o] written is the tier read that [p] gives with its class: the same
    name; of intervals what [q] makes of the entries, in the same order; of points
    the same entries, each once, in order of time. *)
Definition wrote_with (q : list entry -> list entry) (h : heap) (p : rawtier * cid) (o : string * list (bool * option Z * option Z * string)) : Prop :=
  fst o = rt_name (fst p) /\
  (issubclass h (snd p) cInterval = true -> snd o = map (shown false) (q (rt_entries (fst p)))) /\
  (issubclass h (snd p) cPoint = true ->
     (forall x, In x (snd o) <-> In x (map (shown true) (rt_entries (fst p)))) /\ NoDup (snd o) /\ in_time (snd o)).
(** The same entries. *)
Definition wrote (h : heap) (p : rawtier * cid) (o : string * list (bool * option Z * option Z * string)) : Prop := wrote_with (fun l => l) h p o.
(** The order in which the tiers of a row are written: the interval tiers as their
    classes are in the hierarchy, then the point tiers as they were. *)
Definition row_out (h : heap) (row : list rawtier) (ocs : list cid) (out : list (rawtier * cid)) : Prop :=
  exists rs cs, out = (combine rs cs ++ point_part h row ocs)%list /\ Permutation (interval_part h row ocs) (combine rs cs) /\
    List.length rs = List.length cs /\ (cs = [] \/ exists t b, class_chain h t cs b).

(** The tiers [o] written are those of the row, in the order [out]: with
    their gaps plugged if one of the interval tiers has a gap that is not within
    the tolerance, the same otherwise. *)
Definition wrote_row `{Env} (h : heap) (row : list rawtier) (ocs : list cid) (out : list (rawtier * cid)) (o : list (string * list (bool * option Z * option Z * string))) : Prop :=
  (exists p, In p (interval_part h row ocs) /\ raw_gap (rt_entries (fst p))) /\ Forall2 (wrote_with plugged h) out o \/
  gapless (map fst (interval_part h row ocs)) /\ Forall2 (wrote h) out o.
