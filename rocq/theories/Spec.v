(** * Spec: what the properties talk about, independent of how the model
    computes it.  Only observable attributes of objects are used. *)
From Verif Require Export Base.
Open Scope Z_scope.

(** [sorted_starts h l]: all start times are known and never decrease along
    the list. *)
Definition sorted_starts (h : heap) (l : list oid) : Prop :=
  forall i j a b, (i < j)%nat -> nth_error l i = Some a -> nth_error l j = Some b ->
  exists s t, s_start (sob h a) = Some s /\ s_start (sob h b) = Some t /\ s <= t.

(** [known_starts h l]: every start time is a number. *)
Definition known_starts (h : heap) (l : list oid) : Prop :=
  forall x, In x l -> exists s, s_start (sob h x) = Some s.

(** A '#' boundary object: in no family, without times. *)
Definition is_boundary (h : heap) (k : oid) : Prop :=
  (k < List.length (h_seq h))%nat /\
  s_label (sob h k) = "#"%string /\ s_start (sob h k) = None /\ s_end (sob h k) = None /\
  s_super (sob h k) = None /\ s_subset (sob h k) = [].

(** [chained h l]: the entries of [l] are linked to each other in order, and
    the two ends are linked to boundary objects. *)
Definition chained (h : heap) (l : list oid) : Prop :=
  (forall i a b, nth_error l i = Some a -> nth_error l (S i) = Some b ->
     s_fol (sob h a) = Some b /\ s_prev (sob h b) = Some a) /\
  (forall a, nth_error l 0 = Some a ->
     exists k, s_prev (sob h a) = Some k /\ is_boundary h k) /\
  (forall a, nth_error l (List.length l - 1) = Some a ->
     exists k, s_fol (sob h a) = Some k /\ is_boundary h k).

(** Two states agree on an object except for its fol/prev. *)
Definition same_but_links (o o' : seqobj) : Prop :=
  s_cls o' = s_cls o /\ s_start o' = s_start o /\ s_end o' = s_end o /\ s_label o' = s_label o /\
  s_super o' = s_super o /\ s_subset o' = s_subset o /\ s_subec o' = s_subec o /\
  s_intier o' = s_intier o /\ s_within o' = s_within o /\ s_contains o' = s_contains o.

(** Two states agree on everything but intervals and points. *)
Definition same_rest (h h' : heap) : Prop :=
  h_cls h' = h_cls h /\ h_tier h' = h_tier h /\ h_grp h' = h_grp h /\ h_grid h' = h_grid h.

(** ** Values *)

(** Points have a time and a label, intervals a start, an end and a label. *)
Definition is_point (h : heap) (x : oid) : bool := issubclass h (s_cls (sob h x)) cPoint.
Definition same_value (h : heap) (x y : oid) : Prop :=
  is_point h x = is_point h y /\ s_start (sob h x) = s_start (sob h y) /\
  s_label (sob h x) = s_label (sob h y) /\
  (is_point h x = false -> s_end (sob h x) = s_end (sob h y)).

(** [listed h l x]: the list has [x] itself or an entry of equal value. *)
Definition listed (h : heap) (l : list oid) (x : oid) : Prop :=
  exists y, In y l /\ (y = x \/ same_value h y x).

(** [keep_if P l k]: [k] is [l] without the entries that fail [P]. *)
Inductive keep_if {A} (P : A -> Prop) : list A -> list A -> Prop :=
  | keep_nil : keep_if P [] []
  | keep_yes x l k : P x -> keep_if P l k -> keep_if P (x :: l) (x :: k)
  | keep_no x l k : ~ P x -> keep_if P l k -> keep_if P (x :: l) k.

(** The class of intervals or points (not Top, Bottom, ...). *)
Definition seq_class (h : heap) (c : cid) : Prop :=
  issubclass h c cInterval = true \/ issubclass h c cPoint = true.
Definition related (h : heap) (c d : cid) : Prop :=
  issubclass h c d = true \/ issubclass h d c = true.

(** The end of an interval; a point ends where it starts. *)
Definition end_at (h : heap) (x : oid) : option Z :=
  if is_point h x then s_start (sob h x) else s_end (sob h x).
Definition timed_both (h : heap) (x : oid) : Prop :=
  s_start (sob h x) <> None /\ end_at h x <> None.

(** Two states agree on an object except for the attribute in question. *)
Definition same_but_class (o o' : seqobj) : Prop :=
  s_start o' = s_start o /\ s_end o' = s_end o /\ s_label o' = s_label o /\
  s_fol o' = s_fol o /\ s_prev o' = s_prev o /\
  s_super o' = s_super o /\ s_subset o' = s_subset o /\ s_subec o' = s_subec o /\
  s_intier o' = s_intier o /\ s_within o' = s_within o /\ s_contains o' = s_contains o.
Definition same_but_times (o o' : seqobj) : Prop :=
  s_cls o' = s_cls o /\ s_label o' = s_label o /\
  s_fol o' = s_fol o /\ s_prev o' = s_prev o /\
  s_super o' = s_super o /\ s_subset o' = s_subset o /\ s_subec o' = s_subec o /\
  s_intier o' = s_intier o /\ s_within o' = s_within o /\ s_contains o' = s_contains o.

(** Two intervals overlap in time; touching is not overlapping. *)
Definition overlap (s1 e1 s2 e2 : Z) : Prop := s2 < e1 /\ s1 < e2.

(** [below h l ns]: [ns] lists the objects of [l] and all their descendants,
    parents first. *)
Inductive below (h : heap) : list oid -> list oid -> Prop :=
  | below_nil : below h [] []
  | below_cons x l a b : below h (s_subset (sob h x)) a -> below h l b ->
      below h (x :: l) (x :: a ++ b).

(** ** Families *)

(** [separate_chains h K]: the classes in [K] are interval or point classes
    that form separate chains: a class below (above) a member of [K] has no
    other member of [K] under it, superset and subset class agree, and no class
    is its own subset class. *)
Definition separate_chains (h : heap) (K : cid -> Prop) : Prop :=
  (forall c, K c -> seq_class h c) /\
  (forall c d k, K c -> subset_class h c = Some d -> K k -> issubclass h k d = true -> k = d) /\
  (forall c d k, K c -> superset_class h c = Some d -> K k -> issubclass h k d = true -> k = d) /\
  (forall c d, K c -> K d -> subset_class h c = Some d <-> superset_class h d = Some c) /\
  (forall c, K c -> subset_class h c <> Some c).

(** ** Class chains *)

(** [class_chain h t cs b]: the interval classes [cs], from top to bottom, form
    a hierarchy under the Top class [t] and above the Bottom class [b]: every
    class is the subset class of the one before and the superset class of the
    one after. *)
Definition class_chain (h : heap) (t : cid) (cs : list cid) (b : cid) : Prop :=
  NoDup cs /\ cs <> [] /\
  issubclass h t cTop = true /\ issubclass h b cBottom = true /\
  (forall c, In c cs -> issubclass h c cInterval = true) /\
  (forall i c d, nth_error (t :: cs ++ [b]) i = Some c -> nth_error (t :: cs ++ [b]) (S i) = Some d ->
     subset_class h c = Some d /\ superset_class h d = Some c).

(** A class name that no Top or Bottom test matches. *)
Definition plain_name (s : string) : Prop := str_in "Top" s = false /\ str_in "Bottom" s = false.

(** The class table of a running program: bases are defined before the classes
    derived from them, and the library's own base classes are as the library
    defines them. *)
Definition class_table (h : heap) : Prop :=
  (5 <= List.length (h_cls h))%nat /\
  (forall c b, c_base (cob h c) = Some b -> (b < c)%nat) /\
  c_base (cob h cHierarchyPart) = None /\
  c_base (cob h cTop) = Some cHierarchyPart /\
  c_base (cob h cBottom) = Some cHierarchyPart /\
  c_base (cob h cInterval) = Some cHierarchyPart /\
  c_base (cob h cPoint) = None.

(** The existing classes, and everything but the class table, are as before. *)
Definition classes_kept (h h' : heap) : Prop :=
  (List.length (h_cls h) <= List.length (h_cls h'))%nat /\
  (forall c, (c < List.length (h_cls h))%nat -> cob h' c = cob h c) /\
  h_seq h' = h_seq h /\ h_tier h' = h_tier h /\ h_grp h' = h_grp h /\ h_grid h' = h_grid h.

(** [declares h h' names points cs]: from [h] to [h'] new classes [cs] with the
    given names came to be, point classes at the given positions and interval
    classes elsewhere, the interval classes linked in order under a new Top
    class and above a new Bottom class; nothing else changed. *)
Definition declares (h h' : heap) (names : list string) (points : list nat) (cs : list cid) : Prop :=
  classes_kept h h' /\ map (class_name h') cs = names /\ NoDup cs /\
  (forall c, In c cs -> (List.length (h_cls h) <= c < List.length (h_cls h'))%nat) /\
  (forall i c, nth_error cs i = Some c ->
     (In i points -> issubclass h' c cPoint = true) /\ (~ In i points -> issubclass h' c cInterval = true)) /\
  exists t b, (List.length (h_cls h) <= t)%nat /\ (List.length (h_cls h) <= b)%nat /\
    (let ivs := List.filter (fun c => issubclass h' c cInterval) cs in ivs <> [] -> class_chain h' t ivs b).

(** No class of the list derives from another. *)
Definition unrelated (h : heap) (l : list cid) : Prop :=
  forall c d, In c l -> In d l -> issubclass h c d = true -> d = c.

(** [clone_of h h' c c']: [c'] is a new class with the name of [c], derived from it. *)
Definition clone_of (h h' : heap) (c c' : cid) : Prop :=
  (List.length (h_cls h) <= c' < List.length (h_cls h'))%nat /\
  class_name h' c' = class_name h c /\ c_base (cob h' c') = Some c.

(** ** Times *)

(** The interval [x] contains time [z]: start included, end excluded. *)
Definition holds_at (h : heap) (x : oid) (z : Z) : Prop :=
  exists a b, s_start (sob h x) = Some a /\ end_at h x = Some b /\ a <= z < b.

Definition least (P : Z -> Prop) (m : Z) : Prop := P m /\ forall z, P z -> m <= z.
Definition greatest (P : Z -> Prop) (m : Z) : Prop := P m /\ forall z, P z -> z <= m.

(** The start (end) times found on a tier, and on the tiers of a list. *)
Definition starts_on (h : heap) (t : tid) (z : Z) : Prop :=
  exists x, In x (t_seq (tob h t)) /\ s_start (sob h x) = Some z.
Definition ends_on (h : heap) (t : tid) (z : Z) : Prop :=
  exists x, In x (t_seq (tob h t)) /\ end_at h x = Some z.

(** All times on the tier are known. *)
Definition timed_tier (h : heap) (t : tid) : Prop :=
  forall x, In x (t_seq (tob h t)) -> timed_both h x.

(** The tier's entries are of the tier's kind, intervals or points. *)
Definition tier_kind (h : heap) (t : tid) : Prop :=
  forall x, In x (t_seq (tob h t)) -> is_point h x = issubclass h (t_ec (tob h t)) cPoint.

(** numpy's default notion of two times being close: 1e-5 relative to the
    second, plus the absolute tolerance. *)
Definition near `{Env} (a b : Z) : Prop := 100000 * Z.abs (a - b) <= 100000 * atol + Z.abs b.

(** [shifted d l h h']: the start and end times of the objects in [l] were each
    increased by [d] (as computed by the time addition), and that is all. *)
Definition shifted `{Env} (d : Z) (l : list oid) (h h' : heap) : Prop :=
  same_rest h h' /\ List.length (h_seq h') = List.length (h_seq h) /\
  (forall x, ~ In x l -> sob h' x = sob h x) /\
  (forall x, In x l -> same_but_times (sob h x) (sob h' x) /\
     s_start (sob h' x) = option_map (fun a => fadd a d) (s_start (sob h x)) /\
     s_end (sob h' x) = if is_point h x then s_end (sob h x) else option_map (fun a => fadd a d) (s_end (sob h x))).
(** All entries of a list of tiers, all tiers of a list of groups. *)
Definition entries_of (h : heap) (ts : list tid) : list oid := flat_map (fun t => t_seq (tob h t)) ts.
Definition tiers_of (h : heap) (gs : list gid) : list tid := flat_map (fun g => g_tiers (gob h g)) gs.
(** Tiers whose entries exist, are distinct, of the tier's kind, and have known
    times. *)
Definition shiftable (h : heap) (ts : list tid) : Prop :=
  NoDup (entries_of h ts) /\
  (forall x, In x (entries_of h ts) -> (x < List.length (h_seq h))%nat) /\
  (forall t, In t ts -> timed_tier h t /\ tier_kind h t).

(** ** Containment *)

(** What an object contains, if its [contains] was set, and what it is within. *)
Definition contents (h : heap) (w : wref) : option (list wref) :=
  match w with
  | WSeq o => match s_contains (sob h o) with
              | CUnset => None | CAlias => Some (map WSeq (s_subset (sob h o))) | CList l => Some (map WSeq l) end
  | WTier t => match t_contains (tob h t) with
              | CUnset => None | CAlias => Some (map WSeq (t_seq (tob h t))) | CList l => Some (map WSeq l) end
  | WGroup g => match g_contains (gob h g) with
              | CUnset => None | CAlias => Some (map WTier (g_tiers (gob h g))) | CList l => Some (map WTier l) end
  | WGrid a => Some (map WGroup (a_groups (aob h a)))
  end.
Definition container (h : heap) (w : wref) : option wref :=
  match w with
  | WSeq o => s_within (sob h o)
  | WTier t => t_within (tob h t)
  | WGroup g => g_within (gob h g)
  | WGrid _ => None
  end.
(** Entries are within entries or tiers, tiers within groups, groups within
    grids. *)
Definition kinds_fit (h : heap) : Prop := forall v w, container h v = Some w ->
  match v, w with
  | WSeq _, WSeq _ | WSeq _, WTier _ | WTier _, WGroup _ | WGroup _, WGrid _ => True
  | _, _ => False
  end.
(** Following indices through [contains]. *)
Inductive path_to (h : heap) : wref -> list nat -> wref -> Prop :=
  | path_here w : path_to h w [] w
  | path_step w l i v p u : contents h w = Some l -> nth_error l i = Some v ->
      path_to h v p u -> path_to h w (i :: p) u.
(** The outermost container of an object. *)
Inductive outermost (h : heap) : wref -> wref -> Prop :=
  | outer_none w : container h w = None -> outermost h w w
  | outer_unset w c : container h w = Some c -> contents h c = None -> outermost h w w
  | outer_up w c l r : container h w = Some c -> contents h c = Some l -> outermost h c r -> outermost h w r.

(** ** Tables *)

(** The intervals an interval contains. *)
Definition inside (h : heap) (o : oid) : list oid :=
  match s_contains (sob h o) with CUnset => [] | CAlias => s_subset (sob h o) | CList l => l end.
(** A row: from the interval down to one that contains nothing. *)
Inductive df_row (h : heap) : oid -> list oid -> Prop :=
  | row_leaf o : inside h o = [] -> df_row h o [o]
  | row_step o x r : In x (inside h o) -> df_row h x r -> df_row h o (o :: r).
(** [contained h l ns]: [ns] lists the objects of [l] and everything in them,
    containers first. *)
Inductive contained (h : heap) : list oid -> list oid -> Prop :=
  | contained_nil : contained h [] []
  | contained_cons x l a b : contained h (inside h x) a -> contained h l b ->
      contained h (x :: l) (x :: a ++ b).

(** ** Class lists *)

Definition top_class (h : heap) (c : cid) : Prop :=
  exists s, superset_class h c = Some s /\ issubclass h s cTop = true.
(** An interval class with a superset class, as a flat class list may have. *)
Definition interval_class (h : heap) (c : cid) : Prop :=
  issubclass h c cPoint = false /\ superset_class h c <> None.

(** ** Tiers *)

(** Two states agree on an object except for its links, its tier and what it is
    within. *)
Definition same_but_place (o o' : seqobj) : Prop :=
  s_cls o' = s_cls o /\ s_start o' = s_start o /\ s_end o' = s_end o /\ s_label o' = s_label o /\
  s_super o' = s_super o /\ s_subset o' = s_subset o /\ s_subec o' = s_subec o /\
  s_contains o' = s_contains o.
(** [placed t top l h h']: the objects of [l] were told that they are in tier
    [t] (and, if [top], within it) and may have got new links; no other object
    changed, only boundary objects are new, no other tier, group, grid or class
    changed, and [t] itself at most contains its entries now. *)
Definition placed (t : tid) (top : bool) (l : list oid) (h h' : heap) : Prop :=
  (forall x, In x l -> same_but_place (sob h x) (sob h' x) /\ s_intier (sob h' x) = Some t /\
     s_within (sob h' x) = if top then Some (WTier t) else s_within (sob h x)) /\
  (forall i, (i < List.length (h_seq h))%nat -> ~ In i l -> sob h' i = sob h i) /\
  (List.length (h_seq h) <= List.length (h_seq h'))%nat /\
  (forall i, (List.length (h_seq h) <= i < List.length (h_seq h'))%nat -> is_boundary h' i) /\
  h_cls h' = h_cls h /\ h_grp h' = h_grp h /\ h_grid h' = h_grid h /\
  List.length (h_tier h') = List.length (h_tier h) /\
  (forall u, u <> t -> tob h' u = tob h u) /\
  tob h' t = if top then set_t_contains CAlias (tob h t) else tob h t.
(** Distinct existing objects of one class, none of them a boundary. *)
Definition linkable (h : heap) (c : cid) (l : list oid) : Prop :=
  NoDup l /\ forall x, In x l ->
    (x < List.length (h_seq h))%nat /\ s_cls (sob h x) = c /\ s_label (sob h x) <> "#"%string.

(** What a tier is given: start, end and label of an entry. *)
Definition entry_value (h : heap) (e : entry) : option Z * option Z * string :=
  match e with
  | EObj o => (s_start (sob h o), s_end (sob h o), s_label (sob h o))
  | ERaw st en lab => (st, en, lab)
  end.
(** [made h h' c e x]: the object [x] of class [c] stands for entry [e]: it is
    the entry itself if that is an object, and otherwise a new object. *)
Definition made (h h' : heap) (c : cid) (e : entry) (x : oid) : Prop :=
  s_cls (sob h' x) = c /\
  (s_start (sob h' x), s_end (sob h' x), s_label (sob h' x)) = entry_value h e /\
  match e with
  | EObj o => x = o /\ s_super (sob h' x) = s_super (sob h x) /\ s_subset (sob h' x) = s_subset (sob h x)
  | ERaw _ _ _ => (List.length (h_seq h) <= x)%nat /\ s_super (sob h' x) = None /\ s_subset (sob h' x) = []
  end.
(** Entries a tier of intervals (points) can be made of: distinct objects of
    that kind and raw data, with known starts, none labelled "#". *)
Definition entry_objs (l : list entry) : list oid :=
  flat_map (fun e => match e with EObj o => [o] | _ => [] end) l.
Definition usable (h : heap) (kind : cid) (l : list entry) : Prop :=
  NoDup (entry_objs l) /\
  forall e, In e l -> snd (entry_value h e) <> "#"%string /\
    (exists s, fst (fst (entry_value h e)) = Some s) /\
    match e with
    | EObj o => (o < List.length (h_seq h))%nat /\ issubclass h (s_cls (sob h o)) kind = true
    | ERaw _ _ _ => True
    end.
