(** * TierSpec: what the properties of tiers and groups talk about. *)
From Verif Require Export Spec TierOps.
Open Scope Z_scope.

(** The entries a tier is to be made from. *)
Definition gives (h : heap) (s : tsrc) (l : list entry) : Prop :=
  match s with
  | FromList k | FromPraat _ k => l = k
  | FromTier t => (t < List.length (h_tier h))%nat /\ l = map EObj (t_seq (tob h t))
  end.
(** The class of the entries: the one asked for, or else that of the first
    entry if that is an object, or else the default class. *)
Definition picks (h : heap) (dflt : cid) (l : list entry) (ec : option cid) (c : cid) : Prop :=
  match ec with
  | Some d => c = d
  | None => match l with
            | EObj o :: _ => c = s_cls (sob h o)
            | _ => c = dflt /\ entry_objs l = []
            end
  end.
(** The name: the praatio tier's; a renamed tier's; or else the class's. *)
Definition named (h : heap) (s : tsrc) (c : cid) (nm : string) : Prop :=
  match s with
  | FromList _ => nm = class_name h c
  | FromPraat n _ => nm = n
  | FromTier t => (t_name (tob h t) = class_name h (t_ec (tob h t)) /\ nm = class_name h c) \/
                  (t_name (tob h t) <> class_name h (t_ec (tob h t)) /\ nm = t_name (tob h t))
  end.
(** Entries in start order. *)
Definition in_order (h : heap) (l : list entry) : Prop :=
  forall i j a b, (i < j)%nat -> nth_error l i = Some a -> nth_error l j = Some b ->
  exists s t, fst (fst (entry_value h a)) = Some s /\ fst (fst (entry_value h b)) = Some t /\ s <= t.
(** Everything that existed before is as it was, except the objects of [l]; the
    tier [t] is new, and so are only boundary objects besides [l]. *)
Definition only_adds (t : tid) (l : list oid) (h h' : heap) : Prop :=
  (forall i, (i < List.length (h_seq h))%nat -> ~ In i l -> sob h' i = sob h i) /\
  (forall i, (List.length (h_seq h) <= i < List.length (h_seq h'))%nat -> ~ In i l -> is_boundary h' i) /\
  h_cls h' = h_cls h /\ h_grp h' = h_grp h /\ h_grid h' = h_grid h /\
  t = List.length (h_tier h) /\ List.length (h_tier h') = S t /\
  (forall u, (u < t)%nat -> tob h' u = tob h u) /\ (List.length (h_seq h) <= List.length (h_seq h'))%nat.

(** ** Points *)

(** Time and label of an entry, and of an object. *)
Definition mark (h : heap) (e : entry) : option Z * string :=
  (fst (fst (entry_value h e)), snd (entry_value h e)).
Definition mark_of (h : heap) (x : oid) : option Z * string := (s_start (sob h x), s_label (sob h x)).
(** Entries a point tier can be made of: existing points and raw data with known
    times, none labelled "#".  They need not be distinct. *)
Definition usable_points (h : heap) (l : list entry) : Prop :=
  forall e, In e l -> usable h cPoint [e].
(** The point tier [t] is new; nothing that existed changed except that the
    given points were linked, and those left out at most got the class. *)
Definition only_points (t : tid) (c : cid) (ents : list entry) (h h' : heap) : Prop :=
  (forall i, (i < List.length (h_seq h))%nat -> ~ In (EObj i) ents -> sob h' i = sob h i) /\
  (forall i, (i < List.length (h_seq h))%nat -> In (EObj i) ents -> ~ In i (t_seq (tob h' t)) ->
     sob h' i = set_s_cls c (sob h i)) /\
  h_cls h' = h_cls h /\ h_grp h' = h_grp h /\ h_grid h' = h_grid h /\
  t = List.length (h_tier h) /\ List.length (h_tier h') = S t /\
  (forall u, (u < t)%nat -> tob h' u = tob h u) /\ (List.length (h_seq h) <= List.length (h_seq h'))%nat.
Definition not_a_tier (s : tsrc) : Prop := match s with FromTier _ => False | _ => True end.
