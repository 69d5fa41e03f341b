(** * ReadSpec: what the properties of reading a text grid talk about. *)
From Verif Require Export WeaveSpec OwnSpec GrowSpec.
Open Scope Z_scope.

(** ** The data as praatio gives it *)

(** The entries [l] follow each other without gaps from time [a] to time [b],
    each of positive duration; none is labelled "#". *)
Fixpoint raw_tiles (a : Z) (l : list entry) (b : Z) : Prop :=
  match l with
  | [] => a = b
  | e :: l' => exists m x, e = ERaw (Some a) (Some m) x /\ a < m /\ x <> "#"%string /\ raw_tiles m l' b
  end.
(** The same, but there may be gaps between them. *)
Fixpoint raw_turns (a : Z) (l : list entry) (b : Z) : Prop :=
  match l with
  | [] => False
  | e :: l' => exists m x, e = ERaw (Some a) (Some m) x /\ a < m /\ x <> "#"%string /\
      (l' = [] /\ m = b \/ exists s, m <= s /\ raw_turns s l' b)
  end.
(** There is a gap that is not within the tolerance. *)
Definition raw_gap `{Env} (l : list entry) : Prop :=
  exists i a m x s e y, nth_error l i = Some (ERaw a (Some m) x) /\ nth_error l (S i) = Some (ERaw (Some s) e y) /\ ~ near s m.
(** None of the tiers has such a gap. *)
Definition gapless `{Env} (l : list rawtier) : Prop := forall r, In r l -> ~ raw_gap (rt_entries r).
(** The entries with one with the empty label added for each gap. *)
Fixpoint plugged (l : list entry) : list entry :=
  match l with
  | [] => []
  | e :: l' =>
    match e, l' with
    | ERaw _ (Some m) _, ERaw (Some s) _ _ :: _ => if m <? s then e :: ERaw (Some m) (Some s) EmptyString :: plugged l' else e :: plugged l'
    | _, _ => e :: plugged l'
    end
  end.
(** The entries [b] fill the entry [u]. *)
Definition raw_fills (u : entry) (b : list entry) : Prop :=
  exists s e x, u = ERaw (Some s) (Some e) x /\ s < e /\ raw_tiles s b e.
(** The entries of each tier fill those of the tier before. *)
Fixpoint raw_snug (rows : list (list entry)) : Prop :=
  match rows with
  | r :: ((q :: _) as rest) => (exists bs, q = concat bs /\ Forall2 raw_fills r bs) /\ raw_snug rest
  | _ => True
  end.
(** Points: a time and a label other than "#". *)
Definition raw_points (l : list entry) : Prop :=
  forall e, In e l -> exists z x, e = ERaw (Some z) None x /\ x <> "#"%string.

(** The tiers of a row that are to be interval (point) tiers. *)
Definition interval_part (h : heap) (row : list rawtier) (ocs : list cid) : list (rawtier * cid) :=
  List.filter (fun p => issubclass h (snd p) cInterval) (combine row ocs).
Definition point_part (h : heap) (row : list rawtier) (ocs : list cid) : list (rawtier * cid) :=
  List.filter (fun p => issubclass h (snd p) cPoint) (combine row ocs).
(** The pairs [ps] of a tier and its class are, in the order of a chain [cs] of
    classes with ordinary names, tiers [rs] the first of which lasts from [lo] to
    [hi], and each of the others fills the one before. *)
Definition nested_as (h : heap) (lo hi : Z) (ps : list (rawtier * cid)) (cs : list cid) (rs : list rawtier) : Prop :=
  (exists t b, class_chain h t cs b) /\ (forall c, In c cs -> plain_name (class_name h c)) /\
  List.length rs = List.length cs /\ Permutation ps (combine rs cs) /\
  (exists r, hd_error rs = Some r /\ raw_turns lo (rt_entries r) hi) /\ raw_snug (map rt_entries rs).
(** A row of tiers and their classes that can be read: its interval tiers, if it
    has any, nest and last from [lo] to [hi]; the rest are point tiers. *)
Definition readable (h : heap) (lo hi : Z) (row : list rawtier) (ocs : list cid) : Prop :=
  List.length row = List.length ocs /\
  (forall c, In c ocs -> lone_point h c \/ issubclass h c cInterval = true) /\
  (interval_part h row ocs = [] \/ exists cs rs, nested_as h lo hi (interval_part h row ocs) cs rs) /\
  (forall p, In p (point_part h row ocs) -> raw_points (rt_entries (fst p))).

(** ** What is made of it *)

(** [x] has the times and the label of the entry [e]. *)
Definition stands_for (h : heap) (e : entry) (x : oid) : Prop :=
  e = ERaw (s_start (sob h x)) (s_end (sob h x)) (s_label (sob h x)).
(** The tier [k] has the name of [r] and one interval for each entry, in
    order; the intervals know their tier, and the tier its classes. *)
Definition read_as (h : heap) (r : rawtier) (k : tid) : Prop :=
  t_name (tob h k) = rt_name r /\ Forall2 (stands_for h) (rt_entries r) (t_seq (tob h k)) /\
  housed h k /\ up_to_date h k.
(** The group [g] holds what was read from the tiers [ps], with the classes
    renamed by [f]: it is in good order, and linked at the top. *)
Definition read_group (lo hi : Z) (f : cid -> cid) (h h' : heap) (ps : list (rawtier * cid)) (g : gid) : Prop :=
  exists cs rs t' b', nested_as h lo hi ps cs rs /\
    class_chain h' t' (map f cs) b' /\ unrelated h' (t' :: map f cs ++ [b']) /\
    full_group h' (map f cs) g /\ Forall2 (read_as h') rs (g_tiers (gob h' g)) /\
    (forall k, hd_error (g_tiers (gob h' g)) = Some k -> chained h' (t_seq (tob h' k)) /\
       forall x, In x (t_seq (tob h' k)) -> s_within (sob h' x) = Some (WTier k)).
(** The tier [k] has the name and the class of [p] and, in order of time, one
    point for each different entry. *)
Definition read_points (f : cid -> cid) (h : heap) (g : gid) (p : rawtier * cid) (k : tid) : Prop :=
  t_name (tob h k) = rt_name (fst p) /\ t_ec (tob h k) = f (snd p) /\ t_within (tob h k) = Some (WGroup g) /\
  (forall m, In m (map (mark_of h) (t_seq (tob h k))) <-> In m (map (mark h) (rt_entries (fst p)))) /\
  NoDup (map (mark_of h) (t_seq (tob h k))) /\ sorted_starts h (t_seq (tob h k)) /\ chained h (t_seq (tob h k)) /\
  forall x, In x (t_seq (tob h k)) -> s_cls (sob h x) = f (snd p) /\ s_intier (sob h x) = Some k /\ s_within (sob h x) = Some (WTier k).
Definition read_pgroup (f : cid -> cid) (h' : heap) (ps : list (rawtier * cid)) (g : gid) : Prop :=
  (g < List.length (h_grp h'))%nat /\ g_points (gob h' g) = true /\
  contains_of h' (WGroup g) = Some (g_tiers (gob h' g)) /\ Forall2 (read_points f h' g) ps (g_tiers (gob h' g)).
(** As [read_as] and [read_group], for tiers with gaps: an empty interval has
    been put into each of them. *)
Definition plugged_as (h : heap) (r : rawtier) (k : tid) : Prop :=
  t_name (tob h k) = rt_name r /\ Forall2 (stands_for h) (plugged (rt_entries r)) (t_seq (tob h k)) /\ up_to_date h k.
Definition plugged_group (lo hi : Z) (f : cid -> cid) (h h' : heap) (ps : list (rawtier * cid)) (g : gid) : Prop :=
  exists cs rs t' b', nested_as h lo hi ps cs rs /\
    class_chain h' t' (map f cs) b' /\ unrelated h' (t' :: map f cs ++ [b']) /\
    map (fun t => t_ec (tob h' t)) (g_tiers (gob h' g)) = map f cs /\
    (exists bss, good_group h' g (g_tiers (gob h' g)) bss) /\ Forall2 (plugged_as h') rs (g_tiers (gob h' g)).
(** One or the other, depending on whether there is a gap that is not within the
    tolerance. *)
Definition either_group `{Env} (lo hi : Z) (f : cid -> cid) (h h' : heap) (ps : list (rawtier * cid)) (g : gid) : Prop :=
  (exists p, In p ps /\ raw_gap (rt_entries (fst p))) /\ plugged_group lo hi f h h' ps g \/
  gapless (map fst ps) /\ read_group lo hi f h h' ps g.
(** The groups made of a row: one for its interval tiers, for which [G] holds,
    one for its point tiers, unless there are none. *)
Definition row_as (G : list (rawtier * cid) -> gid -> Prop) (f : cid -> cid) (h h' : heap) (row : list rawtier) (ocs : list cid) (gs : list gid) : Prop :=
  exists g1 g2, gs = (g1 ++ g2)%list /\
    (interval_part h row ocs = [] /\ g1 = [] \/
     exists g, g1 = [g] /\ G (interval_part h row ocs) g) /\
    (point_part h row ocs = [] /\ g2 = [] \/
     point_part h row ocs <> [] /\ exists g, g2 = [g] /\ read_pgroup f h' (point_part h row ocs) g).
Inductive rows_as (G : list (rawtier * cid) -> gid -> Prop) (f : cid -> cid) (h h' : heap) : list (list rawtier) -> list (list cid) -> list gid -> Prop :=
| no_rows : rows_as G f h h' [] [] []
| more_rows row ocs gs rows css gs' : row_as G f h h' row ocs gs -> rows_as G f h h' rows css gs' ->
    rows_as G f h h' (row :: rows) (ocs :: css) (gs ++ gs').
Notation read_row lo hi f h h' := (row_as (read_group lo hi f h h') f h h').
Notation read_rows lo hi f h h' := (rows_as (read_group lo hi f h h') f h h').
(** Everything that existed is as it was. *)
Definition all_kept (h h' : heap) : Prop :=
  (forall c, (c < List.length (h_cls h))%nat -> cob h' c = cob h c) /\
  (forall i, (i < List.length (h_seq h))%nat -> sob h' i = sob h i) /\
  (forall t, (t < List.length (h_tier h))%nat -> tob h' t = tob h t) /\
  (forall g, (g < List.length (h_grp h))%nat -> gob h' g = gob h g) /\
  (forall a, (a < List.length (h_grid h))%nat -> aob h' a = aob h a) /\
  (List.length (h_cls h) <= List.length (h_cls h'))%nat /\ (List.length (h_seq h) <= List.length (h_seq h'))%nat /\
  (List.length (h_tier h) <= List.length (h_tier h'))%nat /\ (List.length (h_grp h) <= List.length (h_grp h'))%nat /\
  (List.length (h_grid h) <= List.length (h_grid h'))%nat.

(** From [h] to [h'] the grid [a] came to be: its groups hold what was read from
    the rows, [G] being true of its interval groups, its classes are copies (by way of [f]) of those given, and nothing
    that existed changed. *)
Definition grid_as (G : list (rawtier * cid) -> gid -> Prop) (f : cid -> cid) (h h' : heap) (rows : list (list rawtier)) (css : list (list cid)) (a : aid) : Prop :=
  a = List.length (h_grid h) /\ List.length (h_grid h') = S a /\
  rows_as G f h h' rows css (a_groups (aob h' a)) /\ apart_groups h' (a_groups (aob h' a)) /\
  (forall g, In g (a_groups (aob h' a)) -> g_within (gob h' g) = Some (WGrid a) /\ exists nm, g_name (gob h' g) = Some nm /\ nm <> EmptyString) /\
  (forall c, In c (concat css) -> clone_of h h' c (f c)) /\ all_kept h h'.
Notation grid_read lo hi f h h' := (grid_as (read_group lo hi f h h') f h h').
(** Different classes have different names. *)
Definition names_apart (h : heap) (l : list cid) : Prop :=
  forall c d, In c l -> In d l -> class_name h c = class_name h d -> c = d.
(** There is an interval tier to be read. *)
Definition some_intervals (h : heap) (rows : list (list rawtier)) (css : list (list cid)) : Prop :=
  exists row ocs, In (row, ocs) (combine rows css) /\ interval_part h row ocs <> [].
