(** * TierOps: tiers, tier groups, and the interval operations that reach
    into tiers.

    Model of sequences/tiers.py, points/tiers.py, mixins/tiermixins.py,
    mixins/within.py and sequences.py:96-116, 536-645. *)
From Verif Require Export SeqOps.
Open Scope Z_scope.

Section WithEnv.
Context `{Env}.

(** ** [within] and [contains] (within.py:30-60) *)
Definition cattr_list (c : cattr) (own : list nat) : option (list nat) :=
  match c with CUnset => None | CAlias => Some own | CList l => Some l end.
(** The [_contains] of a container, if it has one.  A grid's [_contains] is
    always its [_tier_groups] (aligned_textgrid.py:73,84,382). *)
Definition contains_of (h : heap) (w : wref) : option (list nat) :=
  match w with
  | WSeq o => cattr_list (s_contains (sob h o)) (s_subset (sob h o))
  | WTier t => cattr_list (t_contains (tob h t)) (t_seq (tob h t))
  | WGroup g => cattr_list (g_contains (gob h g)) (g_tiers (gob h g))
  | WGrid a => Some (a_groups (aob h a))
  end.
(** [within_index] (56-60) of an object with identifier [me]. *)
Definition index_in (h : heap) (me : nat) (w : option wref) : M (option nat) :=
  match w with
  | None => ret None
  | Some w =>
    match contains_of h w with
    | None => ret None
    | Some l => match index_of me l with Some i => ret (Some i) | None => raise ValueError end
    end
  end.
Definition tier_within_index (t : tid) : M (option nat) := fun h =>
  index_in h t (t_within (tob h t)) h.
Definition seq_within_index (o : oid) : M (option nat) := fun h =>
  index_in h o (s_within (sob h o)) h.
Definition grp_within_index (g : gid) : M (option nat) := fun h =>
  index_in h g (g_within (gob h g)) h.

(** [tier.within] when it is a group, together with Python truthiness
    ([len(group) > 0], tiers.py:521-522). *)
Definition tier_group (h : heap) (t : tid) : option gid :=
  match t_within (tob h t) with Some (WGroup g) => Some g | _ => None end.
Definition truthy_group (h : heap) (t : tid) : option gid :=
  match tier_group h t with
  | Some g => if (0 <? List.length (g_tiers (gob h g)))%nat then Some g else None
  | None => None
  end.
(** [group[i]] (tiers.py:507-512). *)
Definition group_item (g : gid) (i : Z) : M tid := fun h =>
  match py_index (g_tiers (gob h g)) i with Some t => Ok t h | None => Raise IndexError h end.
(** [self.within[self.within_index + d]]. *)
Definition sibling_tier (t : tid) (g : gid) (d : Z) : M tid :=
  i <- tier_within_index t ;;
  match i with
  | None => raise TypeError
  | Some i => group_item g (Z.of_nat i + d)
  end.

(** ** Tier construction *)

Definition is_point_tier (h : heap) (t : tid) : bool := is_point_cls h (t_ec (tob h t)).

Definition rebind_seq (t : tid) (v : slv) : M unit :=
  mod_tier t (fun o => set_t_contains (unalias (t_contains o) (t_seq o))
                         (set_t_seqec (sv_ec v) (set_t_seq (sv_vals v) o))).
Definition store_seq (t : tid) (v : slv) : M unit :=
  mod_tier t (fun o => set_t_seqec (sv_ec v) (set_t_seq (sv_vals v) o)).
Definition seq_slv (o : tierobj) : slv := Slv (t_seq o) (t_seqec o).

Definition tier_set_contains (t : tid) : M unit :=
  o <- get_tier t ;;
  mod_tier t (set_t_contains CAlias) ;;;
  forM (t_seq o) (fun x => mod_seq x (set_s_within (Some (WTier t)))).

(** [__set_precedence] of SequenceTier (tiers.py:138-160).  The [tiername]
    attribute set beside [intier] is not modelled. *)
Definition tier_precedence (t : tid) : M unit :=
  o <- get_tier t ;;
  precedence (fun x => mod_seq x (set_s_intier (Some t))) None (t_seq o) ;;;
  top <- issubclass_m (t_super o) cTop ;;
  when top (tier_set_contains t).

(** The [sequence_list] setter (tiers.py:186-189). *)
Definition tier_set_seq (t : tid) (l : list oid) : M unit :=
  v <- sl_init l ;;
  rebind_seq t v ;;;
  tier_precedence t.

(** [_cast] on a constructor entry (mixins.py:20-33). *)
Definition cast_entry (c : cid) (e : entry) : M oid :=
  match e with
  | EObj o => cast c o ;;; ret o
  | ERaw s e lab => new_obj c s e lab
  end.

(** What a tier is built from: a list, a praatio tier, or another tier. *)
Inductive tsrc := FromList (l : list entry) | FromPraat (name : string) (l : list entry) | FromTier (t : tid).

Definition is_obj (e : entry) : bool := match e with EObj _ => true | _ => false end.
Definition src_check (h : heap) (s : tsrc) : list entry :=
  match s with
  | FromList l => l
  | FromPraat _ l => l
  | FromTier t => map EObj (t_seq (tob h t))
  end.
(** Choice of entry class (tiers.py:88-98, points/tiers.py:74-84). *)
Definition src_class (dflt : cid) (s : tsrc) (ec : option cid) : M cid :=
  match ec with
  | Some c => ret c
  | None =>
    l <- gets (fun h => src_check h s) ;;
    if existsb is_obj l then
      match l with
      | EObj o :: _ => gets (fun h => s_cls (sob h o))
      | _ => raise AttributeError
      end
    else ret dflt
  end.
(** Choice of name (tiers.py:100-109, points/tiers.py:86-96). *)
Definition src_name (h : heap) (s : tsrc) (c : cid) : string :=
  match s with
  | FromList _ => class_name h c
  | FromPraat n _ => n
  | FromTier t => if String.eqb (t_name (tob h t)) (class_name h (t_ec (tob h t)))
                  then class_name h c else t_name (tob h t)
  end.

(** [SequenceTier.__init__] (tiers.py:82-116) on an allocated tier [t]. *)
Definition itier_init (t : tid) (s : tsrc) (ec : option cid) : M unit :=
  c <- src_class cInterval s ec ;;
  nm <- gets (fun h => src_name h s c) ;;
  ents <- gets (fun h => src_check h s) ;;
  mod_tier t (set_t_entries ents) ;;;
  mod_tier t (set_t_name nm) ;;;
  rebind_seq t sl_empty ;;;
  mod_tier t (set_t_ec c) ;;;
  pt <- gets (fun h => is_point_cls h c) ;;
  if (pt : bool) then raise AttributeError
  else
    sup <- gets (fun h => superset_class h c) ;;
    sub <- gets (fun h => subset_class h c) ;;
    mod_tier t (set_t_super sup) ;;;
    mod_tier t (set_t_sub sub) ;;;
    os <- mapM (cast_entry c) ents ;;
    tier_set_seq t os ;;;
    tier_precedence t.

(** [x.time] for an entry of a point tier. *)
Definition entry_time (e : entry) : M (option Z) :=
  match e with
  | EObj o => pt <- gets (fun h => is_point_cls h (s_cls (sob h o))) ;;
              if (pt : bool) then gets (fun h => s_start (sob h o)) else raise AttributeError
  | ERaw s _ _ => ret s
  end.

(** [SequencePointTier.__init__] (points/tiers.py:69-108) and its
    [__set_precedence] (116-134).  [SequencePointTier(tier)] reads the other
    tier's [entry_list], not its current points. *)
Definition ptier_precedence (t : tid) : M unit :=
  o <- get_tier t ;;
  precedence (fun x => mod_seq x (set_s_intier (Some t))) None (t_seq o) ;;;
  tier_set_contains t.
Definition ptier_entries (h : heap) (s : tsrc) : list entry :=
  match s with FromTier t => t_entries (tob h t) | _ => src_check h s end.
Definition ptier_init (t : tid) (s : tsrc) (ec : option cid) : M unit :=
  c <- src_class cPoint s ec ;;
  nm <- gets (fun h => src_name h s c) ;;
  ents <- gets (fun h => ptier_entries h s) ;;
  mod_tier t (set_t_entries ents) ;;;
  mod_tier t (set_t_ec c) ;;;
  mod_tier t (set_t_name nm) ;;;
  tms <- mapM entry_time ents ;;
  ents' <- (match all_some tms with
            | Some ts => ret (pick ents (argsort ts))
            | None => if (1 <? List.length ents)%nat then raise TypeError else ret ents
            end) ;;
  mod_tier t (set_t_entries ents') ;;;
  rebind_seq t sl_empty ;;;
  forM ents' (fun e =>
    x <- cast_entry c e ;;
    o <- get_tier t ;;
    v <- sl_append (seq_slv o) x false ;;
    store_seq t v) ;;;
  ptier_precedence t.

Definition new_itier (s : tsrc) (ec : option cid) : M tid :=
  t <- alloc_tier (blank_tier cInterval) ;; itier_init t s ec ;;; ret t.
Definition new_ptier (s : tsrc) (ec : option cid) : M tid :=
  t <- alloc_tier (blank_tier cPoint) ;; ptier_init t s ec ;;; ret t.

(** ** Tier accessors *)
Definition tstarts (h : heap) (t : tid) : list (option Z) := starts_of h (t_seq (tob h t)).
Definition tends (h : heap) (t : tid) : list (option Z) := ends_of h (t_seq (tob h t)).
Definition tlabels (h : heap) (t : tid) : list string := labels_of h (t_seq (tob h t)).

(** numpy [.min()]/[.max()] of an array of times. *)
Definition np_ext (f : Z -> Z -> Z) (l : list (option Z)) : M (option Z) :=
  match l with
  | [] => raise ValueError
  | [x] => ret x
  | _ => match all_some l with
         | Some (x :: r) => ret (Some (fold_left f r x))
         | _ => raise TypeError
         end
  end.
(** xmin/xmax of a tier (tiers.py:223-235; points/tiers.py:155-167, where
    both use the points' times). *)
Definition tier_xmin (t : tid) : M (option Z) := fun h =>
  match tstarts h t with [] => Ok None h | l => np_ext Z.min l h end.
Definition tier_xmax (t : tid) : M (option Z) := fun h =>
  match tends h t with [] => Ok None h | l => np_ext Z.max l h end.

(** Group xmin/xmax (tiers.py:585-591).  [PointsGroup.xmax]
    (points/tiers.py:318-323) is the maximum of the tiers' xmin. *)
Definition grp_xmin (g : gid) : M (option Z) :=
  o <- get_grp g ;; l <- mapM tier_xmin (g_tiers o) ;; np_ext Z.min l.
Definition grp_xmax (g : gid) : M (option Z) :=
  o <- get_grp g ;;
  l <- mapM (if g_points o then tier_xmin else tier_xmax) (g_tiers o) ;;
  np_ext Z.max l.

(** The [starts]/[ends] setters (tiers.py:195-213) and [times] setter
    (points/tiers.py:143-149). *)
Fixpoint zip_set (f : Z -> seqobj -> seqobj) (ts : list Z) (l : list oid) : M unit :=
  match ts, l with
  | t :: ts', o :: l' => mod_seq o (f t) ;;; zip_set f ts' l'
  | _, _ => ret tt
  end.
Definition set_starts (t : tid) (ts : list Z) : M unit :=
  o <- get_tier t ;;
  if negb (List.length (t_seq o) =? List.length ts)%nat then raise PyException
  else zip_set (fun z => set_s_start (Some z)) ts (t_seq o).
Definition set_ends (t : tid) (ts : list Z) : M unit :=
  o <- get_tier t ;;
  if negb (List.length (t_seq o) =? List.length ts)%nat then raise PyException
  else zip_set (fun z => set_s_end (Some z)) ts (t_seq o).

(** [tier._shift] (tiers.py:215-217; points/tiers.py:169-170):
    [self.starts += increment] reads the array, adds, and calls the setter. *)
Definition tier_shift (d : Z) (t : tid) : M unit :=
  st <- gets (fun h => all_some (tstarts h t)) ;;
  match st with
  | None => raise TypeError
  | Some st =>
    set_starts t (map (fun a => fadd a d) st) ;;;
    pt <- gets (fun h => is_point_tier h t) ;;
    if (pt : bool) then ret tt
    else
      en <- gets (fun h => all_some (tends h t)) ;;
      match en with
      | None => raise TypeError
      | Some en => set_ends t (map (fun a => fadd a d) en)
      end
  end.
(** [TierGroup.shift] (tiers.py:651-665), [PointsGroup.shift]
    (points/tiers.py:271-286). *)
Definition grp_shift (d : Z) (g : gid) : M unit :=
  o <- get_grp g ;; forM (g_tiers o) (tier_shift d).

(** [get_interval_at_time] (tiers.py:287-308).  All index positions whose
    interval satisfies start <= time < end; more than one match makes
    [int(...)] raise TypeError.  The time is given as [num/2] so that
    midpoints are exact. *)
Fixpoint hits_from (i : nat) (st en : list Z) (twice : Z) : list nat :=
  match st, en with
  | s :: st', e :: en' =>
    if (2 * s <=? twice) && (twice <? 2 * e)
    then i :: hits_from (S i) st' en' twice else hits_from (S i) st' en' twice
  | _, _ => []
  end.
Definition interval_at_half (t : tid) (twice : Z) : M (option nat) := fun h =>
  match all_some (tstarts h t), all_some (tends h t) with
  | Some st, Some en =>
    match hits_from 0 st en twice with
    | [] => Ok None h
    | [i] => Ok (Some i) h
    | _ => Raise TypeError h
    end
  | _, _ => Raise TypeError h
  end.
Definition get_interval_at_time (t : tid) (time : Z) : M (option nat) :=
  interval_at_half t (2 * time).

(** [get_nearest_point_index] (points/tiers.py:175-188):
    [np.abs(times - time).argmin()], first minimum; ValueError when empty. *)
Fixpoint argmin_from (l : list Z) (i best : nat) (bv : Z) : nat :=
  match l with
  | [] => best
  | x :: l' => if x <? bv then argmin_from l' (S i) i x else argmin_from l' (S i) best bv
  end.
Definition argmin (l : list Z) : option nat :=
  match l with [] => None | x :: l' => Some (argmin_from l' 1 0 x) end.
Definition nearest_point_index (t : tid) (time : Z) : M nat := fun h =>
  match all_some (tstarts h t) with
  | None => Raise TypeError h
  | Some ts =>
    match argmin (map (fun x => Z.abs (x - time)) ts) with
    | Some i => Ok i h
    | None => Raise ValueError h
    end
  end.

(** [TierGroup.get_intervals_at_time] (tiers.py:667-681) and
    [PointsGroup.get_intervals_at_time] (points/tiers.py:288-305). *)
Definition grp_intervals_at_time (time : Z) (g : gid) : M (list (option nat)) :=
  o <- get_grp g ;;
  mapM (fun t => if g_points o then i <- nearest_point_index t time ;; ret (Some i)
                 else get_interval_at_time t time) (g_tiers o).

(** Point accessors (points.py:140-225). *)
Definition pt_distance (d : dir) (p : oid) : M (option Z) :=
  po <- get_seq p ;;
  match link d po with
  | None => ret None
  | Some q =>
    tq <- gets (fun h => s_start (sob h q)) ;;
    match tq with
    | None => ret None
    | Some b => if b =? 0 then ret None
                else match s_start po with Some a => ret (Some (b - a)) | None => raise TypeError end
    end
  end.
Definition fol_distance := pt_distance Fol.
Definition prev_distance := pt_distance Prev.
(** [distance_from] (170-191): one number for a point, two for an interval. *)
Definition distance_from (p e : oid) : M (list Z) :=
  po <- get_seq p ;; eo <- get_seq e ;;
  pt <- gets (fun h => is_point_cls h (s_cls (sob h e))) ;;
  match s_start po with
  | None => raise TypeError
  | Some a =>
    if (pt : bool)
    then match s_start eo with Some b => ret [a - b] | None => raise TypeError end
    else match s_start eo, s_end eo with
         | Some b, Some c => ret [a - b; a - c] | _, _ => raise TypeError end
  end.
(** [get_interval_index_at_time] (193-208): None for an empty (falsy) tier. *)
Definition pt_interval_index (p : oid) (t : tid) : M (option nat) :=
  to <- get_tier t ;;
  match t_seq to with
  | [] => ret None
  | _ => po <- get_seq p ;;
         match s_start po with Some a => get_interval_at_time t a | None => raise TypeError end
  end.
(** [get_interval_at_point] (210-225). *)
Definition pt_interval (p : oid) (t : tid) : M (option oid) :=
  to <- get_tier t ;;
  match t_seq to with
  | [] => ret None
  | l => i <- pt_interval_index p t ;;
         match i with
         | None => raise TypeError
         | Some i => match nth_error l i with Some o => ret (Some o) | None => raise IndexError end
         end
  end.

(** [tier_index] (mixins.py:145-150) and [get_tierwise] (152-183). *)
Definition tier_index (x : oid) : M (option nat) :=
  xo <- get_seq x ;;
  match s_intier xo with
  | None => ret None
  | Some t => l <- gets (fun h => t_seq (tob h t)) ;;
              match index_of x l with Some i => ret (Some i) | None => raise ValueError end
  end.
Definition get_tierwise (x : oid) (k : Z) : M (option oid) :=
  xo <- get_seq x ;;
  match s_intier xo with
  | None => ret None
  | Some t =>
    i <- tier_index x ;;
    match i with
    | None => raise TypeError
    | Some i =>
      l <- gets (fun h => t_seq (tob h t)) ;;
      match py_index l (Z.of_nat i + k) with Some y => ret (Some y) | None => raise IndexError end
    end
  end.

(** ** Appending to a tier

    [tier.append(new, re_relate = False)] (tiermixins.py:54-122).  Returns
    false when the early return of line 106-107 is taken.  Appending to a tier
    inside a group appends to the tiers above and below, so the calls can
    bounce between tiers; [n] is Python's recursion budget. *)
Fixpoint tier_append_n (n : nat) (t : tid) (x : oid) : M bool :=
  match n with
  | O => raise RecursionError
  | S n' =>
    okc <- gets (fun h => let xc := s_cls (sob h x) in let tc := t_ec (tob h t) in
                          issubclass h tc xc || issubclass h xc tc) ;;
    if negb okc then raise ValueError
    else
      isin <- gets (fun h => existsb (Nat.eqb x) (t_seq (tob h t))) ;;
      if (isin : bool) then ret false
      else
        o <- get_tier t ;;
        v <- sl_add (OTier t) (seq_slv o) [x] ;;
        pt <- gets (fun h => is_point_tier h t) ;;
        (if (pt : bool) then rebind_seq t v else tier_set_seq t (sv_vals v)) ;;;
        xo <- get_seq x ;;
        tg <- gets (fun h => truthy_group h t) ;;
        (match s_subset xo, tg with
         | _ :: _, Some g =>
           forM (s_subset xo) (fun y =>
             d <- sibling_tier t g 1 ;;
             _b <- tier_append_n n' d y ;; ret tt)
         | _, _ => ret tt
         end) ;;;
        xo2 <- get_seq x ;;
        tr <- gets (fun h => seq_truthy h (s_super xo2)) ;;
        tg2 <- gets (fun h => truthy_group h t) ;;
        (match s_super xo2, tg2 with
         | Some s, Some g =>
           if (tr : bool) then
             u <- sibling_tier t g (-1) ;;
             _b <- tier_append_n n' u s ;; ret tt
           else ret tt
         | _, _ => ret tt
         end) ;;;
        ret true
  end.

(** [SequenceInterval.append] (sequences.py:109-116). *)
Definition seq_append (n : nat) (s x : oid) : M unit :=
  sc <- gets (fun h => subset_class h (s_cls (sob h s))) ;;
  xc <- gets (fun h => s_cls (sob h x)) ;;
  ok <- issubclass_m sc xc ;;
  if negb ok then raise ValueError
  else
    so <- get_seq s ;;
    v <- sl_add (OSeq s) (subset_slv so) [x] ;;
    subset_setter s (sv_vals v) ;;;
    so2 <- get_seq s ;;
    match s_intier so2 with
    | None => ret tt
    | Some t =>
      to <- get_tier t ;;
      tg <- gets (fun h => truthy_group h t) ;;
      match t_seq to, tg with
      | _ :: _, Some g =>
        d <- sibling_tier t g 1 ;;
        _b <- tier_append_n n d x ;; ret tt
      | _, _ => ret tt
      end
    end.

(** [SequenceInterval.cleanup] (sequences.py:536-580); recursion goes down the
    class hierarchy. *)
Definition close_m (a b : option Z) : M bool :=
  match a, b with Some x, Some y => ret (isclose x y) | _, _ => raise TypeError end.
Fixpoint gap_fill (sc : option cid) (l : list oid) (acc : slv) : M slv :=
  match l with
  | x :: ((y :: _) as rest) =>
    e <- gets (fun h => end_of h x) ;;
    s <- gets (fun h => start_of h y) ;;
    c <- close_m e s ;;
    if (c : bool) then gap_fill sc rest acc
    else nw <- construct3 sc e s "" ;;
         acc' <- sl_add ONone acc [nw] ;;
         gap_fill sc rest acc'
  | _ => ret acc
  end.
Fixpoint seq_cleanup (n : nat) (s : oid) : M unit :=
  match n with
  | O => raise RecursionError
  | S n' =>
    sc <- gets (fun h => subset_class h (s_cls (sob h s))) ;;
    bot <- issubclass_m sc cBottom ;;
    if (bot : bool) then ret tt
    else
      so <- get_seq s ;;
      match s_subset so with
      | [] =>
        nw <- construct3 sc (s_start so) (s_end so) "" ;;
        seq_append n' s nw ;;;
        seq_cleanup n' nw
      | f :: _ =>
        let l := List.last (s_subset so) f in
        fs <- gets (fun h => start_of h f) ;;
        le <- gets (fun h => end_of h l) ;;
        c1 <- close_m (s_start so) fs ;;
        a1 <- (if (c1 : bool) then ret sl_empty
               else nw <- construct3 sc (s_start so) fs "" ;; sl_add ONone sl_empty [nw]) ;;
        c2 <- close_m (s_end so) le ;;
        a2 <- (if (c2 : bool) then ret a1
               else nw <- construct3 sc le (s_end so) "" ;; sl_add ONone a1 [nw]) ;;
        a3 <- gap_fill sc (s_subset so) a2 ;;
        forM (sv_vals a3) (fun x => seq_append n' s x)
      end
  end.

(** ** Tier groups *)

(** [_arrange_tiers] (tiers.py:533-575).  First loop: climb from the first
    tier; second loop: descend.  Both read the tiers' own copies of the
    super/subset class. *)
Definition tier_class_idx (h : heap) (ts : list tid) (c : cid) : option nat :=
  index_of c (map (fun t => t_ec (tob h t)) ts).
Fixpoint climb (n : nat) (ts : list tid) (seed : tid) : M tid :=
  match n with
  | O => raise Diverge
  | S n' =>
    so <- get_tier seed ;;
    top <- issubclass_m (t_super so) cTop ;;
    if (top : bool) then ret seed
    else
      i <- gets (fun h => match t_super so with Some c => tier_class_idx h ts c | None => None end) ;;
      match i with
      | None => ret seed
      | Some i => match nth_error ts i with Some t => climb n' ts t | None => ret seed end
      end
  end.
Fixpoint descend (n : nat) (ts : list tid) (cur : tid) : M (list tid * bool) :=
  match n with
  | O => raise Diverge
  | S n' =>
    o <- get_tier cur ;;
    bot <- issubclass_m (t_sub o) cBottom ;;
    if (bot : bool) then ret ([cur], true)
    else
      i <- gets (fun h => match t_sub o with Some c => tier_class_idx h ts c | None => None end) ;;
      match i with
      | None => ret ([cur], false)
      | Some i =>
        match nth_error ts i with
        | Some t => r <- descend n' ts t ;; ret (cur :: fst r, snd r)
        | None => ret ([cur], false)
        end
      end
  end.
(** Returns the arranged tiers and whether the hierarchy was complete, in
    which case [contains] was set. *)
Definition arrange (ts : list tid) : M (list tid * bool) :=
  match ts with
  | [] => raise IndexError
  | t0 :: _ =>
    top <- climb (S (List.length ts)) ts t0 ;;
    descend (S (List.length ts)) ts top
  end.

(** Names (tiermixins.py:329-369).  [match_name] stands for difflib. *)
Definition is_word_char (a : ascii) : bool :=
  let n := nat_of_ascii a in
  ((48 <=? n)%nat && (n <=? 57)%nat) || ((65 <=? n)%nat && (n <=? 90)%nat)
  || ((97 <=? n)%nat && (n <=? 122)%nat) || (n =? 95)%nat.
Definition is_strip_char (a : ascii) : bool :=
  let n := nat_of_ascii a in
  (n =? 95)%nat || (n =? 45)%nat || (n =? 32)%nat || ((9 <=? n)%nat && (n <=? 13)%nat)
  || ((28 <=? n)%nat && (n <=? 31)%nat).
Fixpoint drop_strip (l : list ascii) : list ascii :=
  match l with [] => [] | a :: l' => if is_strip_char a then drop_strip l' else l end.
Definition clean_name (s : string) : string :=
  string_of_list_ascii
    (map (fun a => if is_word_char a then a else "_"%char)
       (rev (drop_strip (rev (drop_strip (list_ascii_of_string s)))))).
Definition make_name (g : gid) : M (option string) := fun h =>
  let names := map (fun t => t_name (tob h t)) (g_tiers (gob h g)) in
  match names with
  | [] => Raise TypeError h
  | n :: r =>
    let cand := clean_name (fold_left match_name r n) in
    if (1 <? String.length cand)%nat then Ok (Some cand) h
    else match g_within (gob h g) with
         | Some (WGrid a) =>
           match index_of g (a_groups (aob h a)) with
           | Some i => Ok (Some ("group_" ++ nat_str i)%string) h
           | None => Ok None h
           end
         | _ => Ok None h
         end
  end.
Definition str_truthy (s : option string) : bool :=
  match s with Some EmptyString => false | Some _ => true | None => false end.
(** The [name] property (329-335). *)
Definition grp_name (g : gid) : M (option string) :=
  o <- get_grp g ;;
  if str_truthy (g_name o) then ret (g_name o)
  else n <- make_name g ;; mod_grp g (set_g_name n) ;;; ret n.

(** numpy helpers for gap closing. *)
Fixpoint insert_uniq (x : Z) (l : list Z) : list Z :=
  match l with
  | [] => [x]
  | y :: l' => if x <? y then x :: l else if x =? y then l else y :: insert_uniq x l'
  end.
Definition np_unique (l : list Z) : list Z := fold_right insert_uniq [] l.
Definition zin (x : Z) (l : list Z) : bool := existsb (Z.eqb x) l.
(** New (start, end) pairs: boundaries that no interval starts at, paired
    with boundaries that no interval ends at (tiers.py:244-247, 467-470). *)
Definition gap_pairs (st en : list Z) : list (Z * Z) :=
  let b := np_unique (st ++ en)%list in
  combine (List.filter (fun x => negb (zin x st)) (removelast b))
          (List.filter (fun x => negb (zin x en)) (tl b)).

(** [np.allclose(lowers.starts[1:], lowers.ends[:1])] (tiers.py:466) with
    numpy broadcasting: every later start against the first end. *)
Definition close_first_end (st en : list Z) : bool :=
  match en with
  | [] => true
  | e :: _ => forallb (fun s => isclose s e) (tl st)
  end.

Definition np_argmax (l : list Z) : nat :=
  match l with [] => O | x :: l' => argmin_from (map Z.opp l') 1 0 (- x) end.

(** Overlap of lower interval (ls,le) with each upper interval
    (tiers.py:407-409). *)
Definition overlap_row (us ue : list Z) (ls le : Z) : list Z :=
  map (fun p => Z.min le (snd p) - Z.max ls (fst p)) (combine us ue).
Definition containers (us ue ls le : list Z) : list nat :=
  map (fun p => np_argmax (overlap_row us ue (fst p) (snd p))) (combine ls le).
Definition list_max (l : list Z) : Z :=
  match l with [] => 0 | x :: r => fold_left Z.max r x end.

(** First and one-past-last lower index assigned to upper [i]
    (tiers.py:423-438); None when masked. *)
Fixpoint idxs_of (i : nat) (j : nat) (cs : list nat) : list nat :=
  match cs with
  | [] => []
  | c :: cs' => if Nat.eqb c i then j :: idxs_of i (S j) cs' else idxs_of i (S j) cs'
  end.
Definition slice_of (cs : list nat) (i : nat) : option (nat * nat) :=
  match idxs_of i 0 cs with
  | [] => None
  | j :: r => Some (j, S (List.last r j))
  end.
Definition lower_slice (cs : list nat) (lows : list oid) (i : nat) : list oid :=
  match slice_of cs i with
  | None => []
  | Some (a, b) => firstn (b - a) (skipn a lows)
  end.

Definition zsum (l : list Z) : Z := fold_right Z.add 0 l.

(** Closing the gaps inside one group of lowers (tiers.py:465-473). *)
Definition close_gaps (v : slv) : M slv :=
  st <- gets (fun h => all_some (starts_of h (sv_vals v))) ;;
  en <- gets (fun h => all_some (ends_of h (sv_vals v))) ;;
  match st, en with
  | Some st, Some en =>
    if close_first_end st en then ret v
    else
      (fix go (ps : list (Z * Z)) (v : slv) : M slv :=
         match ps with
         | [] => ret v
         | (s, e) :: ps' =>
           c <- gets (fun h => match sv_vals v with o :: _ => Some (s_cls (sob h o)) | [] => None end) ;;
           nw <- construct3 c (Some s) (Some e) "" ;;
           v' <- sl_append v nw false ;;
           go ps' v'
         end) (gap_pairs st en) v
  | _, _ => raise TypeError
  end.

Definition durations (h : heap) (l : list oid) : option (list Z) :=
  match all_some (starts_of h l), all_some (ends_of h l) with
  | Some st, Some en => Some (map (fun p => snd p - fst p) (combine st en))
  | _, _ => None
  end.

(** Body of the final loop over (upper, lowers) pairs (tiers.py:487-505). *)
Definition relate_one (n : nat) (upper_t lower_t : tid) (mismatch squish : bool) (i : nat) (lows : list oid) : M unit :=
  up <- gets (fun h => nth_error (t_seq (tob h upper_t)) i) ;;
  match up with
  | None => ret tt
  | Some u =>
    set_subset_list u lows ;;;
    uo <- get_seq u ;;
    (match s_subset uo with
     | [] =>
       sc <- gets (fun h => subset_class h (s_cls (sob h u))) ;;
       nw <- construct3 sc (s_start uo) (s_end uo) "" ;;
       seq_append n u nw ;;;
       _b <- tier_append_n n lower_t nw ;; ret tt
     | _ => ret tt
     end) ;;;
    when mismatch
      (uo <- get_seq u ;;
       match s_subset uo with
       | [] => raise IndexError
       | f :: r =>
         let l := List.last r f in
         fs <- gets (fun h => start_of h f) ;;
         le <- gets (fun h => end_of h l) ;;
         match s_start uo, fs, s_end uo, le with
         | Some a, Some b, Some c, Some d =>
           mod_seq u (set_s_start (Some (Z.max a b))) ;;;
           mod_seq f (set_s_start (Some (Z.max a b))) ;;;
           mod_seq u (set_s_end (Some (Z.min c d))) ;;;
           mod_seq l (set_s_end (Some (Z.min c d)))
         | _, _, _, _ => raise TypeError
         end
       end) ;;;
    when squish (seq_cleanup n u)
  end.

Fixpoint relate_all (n : nat) (upper_t lower_t : tid) (mismatch squish : bool) (i : nat) (groups : list (list oid)) : M unit :=
  match groups with
  | [] => ret tt
  | lows :: rest =>
    relate_one n upper_t lower_t mismatch squish i lows ;;;
    relate_all n upper_t lower_t mismatch squish (S i) rest
  end.

(** Relating one adjacent pair of tiers (tiers.py:397-505). *)
Definition relate_pair (n : nat) (delay : bool) (ut lt : tid) : M unit :=
  us <- gets (fun h => all_some (tstarts h ut)) ;;
  ue <- gets (fun h => all_some (tends h ut)) ;;
  ls <- gets (fun h => all_some (tstarts h lt)) ;;
  le <- gets (fun h => all_some (tends h lt)) ;;
  match us, ue, ls, le with
  | Some us, Some ue, Some ls, Some le =>
    match us, ls with
    | [], _ | _, [] => ret tt
    | _, _ =>
      let cs := containers us ue ls le in
      let maxov := map (fun p => list_max (overlap_row us ue (fst p) (snd p))) (combine ls le) in
      let durs := map (fun p => snd p - fst p) (combine ls le) in
      let mismatch := existsb (fun p => 0 <? fst p - snd p) (combine durs maxov) in
      lows <- gets (fun h => t_seq (tob h lt)) ;;
      slvs <- mapM (fun i => sl_init (lower_slice cs lows i)) (seq 0 (List.length us)) ;;
      slvs' <- mapM close_gaps slvs ;;
      udurs <- gets (fun h => durations h (t_seq (tob h ut))) ;;
      ldurs <- gets (fun h => all_some (map (fun v => option_map zsum (durations h (sv_vals v))) slvs')) ;;
      match udurs, ldurs with
      | Some ud, Some ld =>
        let squish := negb (allclose ud ld) in
        relate_all n ut lt (mismatch && negb delay) (squish && negb delay) 0 (map sv_vals slvs')
      | _, _ => raise TypeError
      end
    end
  | _, _, _, _ => raise TypeError
  end.

Fixpoint relate_tiers (n : nat) (delay : bool) (ts : list tid) : M unit :=
  match ts with
  | u :: ((l :: _) as rest) => relate_pair n delay u l ;;; relate_tiers n delay rest
  | _ => ret tt
  end.

(** [self.contains = top_to_bottom] for a group (within.py:46-53). *)
Definition grp_set_contains (g : gid) (ts : list tid) : M unit :=
  mod_grp g (fun o => set_g_contains (CList ts) o) ;;;
  forM ts (fun t => mod_tier t (set_t_within (Some (WGroup g)))).

(** [TierGroup.__init__] (tiers.py:367-505) on group [g].  [nm] is the value
    of [tiers.name] when the argument is a group.  Named accessors
    ([_set_tier_names]) are in TagOps.v. *)
Definition tg_init (n : nat) (g : gid) (tiers : list tid) (nm : option string) (delay : bool) : M unit :=
  r <- arrange tiers ;;
  when (snd r) (grp_set_contains g (fst r)) ;;;
  mod_grp g (fun o => set_g_contains (if snd r then CAlias else unalias (g_contains o) (g_tiers o))
                        (set_g_tiers (fst r) o)) ;;;
  (if str_truthy nm then mod_grp g (set_g_name nm)
   else m <- make_name g ;; mod_grp g (set_g_name m)) ;;;
  forM tiers (fun t => l <- gets (fun h => t_seq (tob h t)) ;; forM l remove_superset) ;;;
  relate_tiers n delay (fst r).

(** [PointsGroup.__init__] (points/tiers.py:243-252). *)
Definition pg_init (g : gid) (tiers : list tid) : M unit :=
  mod_grp g (set_g_tiers tiers) ;;;
  mod_grp g (set_g_contains CAlias) ;;;
  forM tiers (fun t => mod_tier t (set_t_within (Some (WGroup g)))) ;;;
  m <- make_name g ;; mod_grp g (set_g_name m).

(** [TierGroup(tiers, delay_cleanup=delay)] (sequences/tiers.py:366-382). *)
Definition new_tg_with (n : nat) (delay : bool) (tiers : list tid) : M gid :=
  g <- alloc_grp (blank_grp false) ;; tg_init n g tiers None delay ;;; ret g.
Definition new_tg (n : nat) (tiers : list tid) : M gid := new_tg_with n false tiers.
Definition new_pg (tiers : list tid) : M gid :=
  g <- alloc_grp (blank_grp true) ;; pg_init g tiers ;;; ret g.

(** [re_relate] (tiermixins.py:341-342): [self.__init__(self)]. *)
Definition re_relate (n : nat) (g : gid) : M unit :=
  o <- get_grp g ;;
  if g_points o then pg_init g (g_tiers o)
  else nm <- grp_name g ;; tg_init n g (g_tiers o) nm false.

(** [tier.append(new)] with its default [re_relate = True]
    (tiermixins.py:54-125). *)
Definition tier_append (n : nat) (t : tid) (x : oid) : M unit :=
  b <- tier_append_n n t x ;;
  if (b : bool) then
    tg <- gets (fun h => truthy_group h t) ;;
    match tg with Some g => re_relate n g | None => ret tt end
  else ret tt.

(** [tier.concat] (tiermixins.py:129-148); a [None] from [sl_concat] means the
    list contains itself, and building a new SequenceList from it recurses
    for ever. *)
Definition tier_concat (t t2 : tid) : M unit :=
  okc <- gets (fun h => let a := t_ec (tob h t) in let b := t_ec (tob h t2) in
                        issubclass h a b || issubclass h b a) ;;
  if negb okc then raise ValueError
  else
    o <- get_tier t ;;
    l2 <- gets (fun h => t_seq (tob h t2)) ;;
    r <- sl_concat (OTier t) (seq_slv o) l2 ;;
    match r with
    | None => raise RecursionError
    | Some v =>
      pt <- gets (fun h => is_point_tier h t) ;;
      if (pt : bool) then rebind_seq t v else tier_set_seq t (sv_vals v)
    end.

(** [tier + tier] (tiermixins.py:41-52): a new tier of the same kind. *)
Definition tier_add (t t2 : tid) : M tid :=
  pts <- gets (fun h => Bool.eqb (is_point_tier h t) (is_point_tier h t2)) ;;
  okc <- gets (fun h => let a := t_ec (tob h t) in let b := t_ec (tob h t2) in
                        issubclass h a b || issubclass h b a) ;;
  if negb (pts && okc) then raise ValueError
  else
    o <- get_tier t ;;
    l2 <- gets (fun h => t_seq (tob h t2)) ;;
    v <- sl_add (OTier t) (seq_slv o) l2 ;;
    pt <- gets (fun h => is_point_tier h t) ;;
    if (pt : bool) then new_ptier (FromList (map EObj (sv_vals v))) None
    else new_itier (FromList (map EObj (sv_vals v))) None.

(** [SequenceTier.pop] (tiers.py:162-177). *)
Definition tier_pop (t : tid) (x : oid) : M unit :=
  isin <- gets (fun h => sl_contains h (t_seq (tob h t)) x) ;;
  if negb isin then raise PyException
  else
    d <- gets (fun h => sl_drop h (t_seq (tob h t)) x) ;;
    match d with
    | None => raise ValueError
    | Some l =>
      mod_tier t (set_t_seq l) ;;;
      remove_superset x ;;;
      o <- get_tier t ;;
      when (bool_decide (t_super o = Some cTop)) (tier_precedence t)
    end.

(** [SequenceTier.cleanup] (tiers.py:237-258). *)
Fixpoint fill_tier (t : tid) (ps : list (Z * Z)) : M unit :=
  match ps with
  | [] => ret tt
  | (s, e) :: ps' =>
    c <- gets (fun h => t_ec (tob h t)) ;;
    nw <- construct3 (Some c) (Some s) (Some e) "" ;;
    o <- get_tier t ;;
    v <- sl_append (seq_slv o) nw false ;;
    store_seq t v ;;;
    fill_tier t ps'
  end.
Fixpoint tier_cleanup (n : nat) (t : tid) : M unit :=
  match n with
  | O => raise RecursionError
  | S n' =>
    pt <- gets (fun h => is_point_tier h t) ;;
    if (pt : bool) then ret tt
    else
      st <- gets (fun h => all_some (tstarts h t)) ;;
      en <- gets (fun h => all_some (tends h t)) ;;
      match st, en with
      | Some st, Some en =>
        if allclose (tl st) (removelast en) then ret tt
        else
          fill_tier t (gap_pairs st en) ;;;
          o <- get_tier t ;;
          bot <- issubclass_m (t_sub o) cBottom ;;
          tg <- gets (fun h => truthy_group h t) ;;
          match tg with
          | None => ret tt
          | Some g =>
            if (bot : bool) then re_relate n' g
            else d <- sibling_tier t g 1 ;; tier_cleanup n' d
          end
      | _, _ => raise TypeError
      end
  end.

(** [TierGroup._project_up] (tiers.py:593-610). *)
Definition project_up (n : nat) (x : oid) : M unit :=
  xo <- get_seq x ;;
  sup <- gets (fun h => superset_class h (s_cls (sob h x))) ;;
  top <- issubclass_m sup cTop ;;
  if (top : bool) then ret tt
  else
    match s_intier xo with
    | None => raise AttributeError
    | Some t =>
      i <- tier_within_index t ;;
      w <- gets (fun h => tier_group h t) ;;
      match i, w with
      | Some i, Some g =>
        u <- group_item g (Z.of_nat i - 1) ;;
        match s_start xo, s_end xo with
        | Some s, Some e =>
          at_ <- interval_at_half u (s + e) ;;
          match at_ with
          | Some _ => ret tt
          | None =>
            c <- gets (fun h => t_ec (tob h u)) ;;
            nw <- construct3 (Some c) (Some s) (Some e) "" ;;
            _b <- tier_append_n n u nw ;; ret tt
          end
        | _, _ => raise TypeError
        end
      | _, _ => raise TypeError
      end
    end.

(** Truth value of an interval's [within] (tiers.py:632,638): the container's
    length is not zero. *)
Definition within_truthy (h : heap) (o : oid) : bool :=
  match s_within (sob h o) with
  | None => false
  | Some (WSeq s) => (0 <? List.length (s_subset (sob h s)))%nat
  | Some (WTier t) => (0 <? List.length (t_seq (tob h t)))%nat
  | Some (WGroup g) => (0 <? List.length (g_tiers (gob h g)))%nat
  | Some (WGrid a) => (0 <? List.length (a_groups (aob h a)))%nat
  end.

(** [TierGroup.cleanup] (tiers.py:612-648).  [for tier in self] reads the
    group's tier list by index while re-relation rebinds it. *)
Fixpoint orphan_pass (k : nat) (n : nat) (g : gid) (i : nat) (loose : bool) : M bool :=
  match k with
  | O => raise Diverge
  | S k' =>
    t <- gets (fun h => nth_error (g_tiers (gob h g)) i) ;;
    match t with
    | None => ret loose
    | Some t =>
      st <- gets (fun h => all_some (tstarts h t)) ;;
      en <- gets (fun h => all_some (tends h t)) ;;
      match st, en with
      | Some st, Some en =>
        let loose' := loose || negb (allclose (tl st) (removelast en)) in
        l <- gets (fun h => t_seq (tob h t)) ;;
        orph <- gets (fun h => existsb (fun x => negb (within_truthy h x)) l) ;;
        when orph
          (forM l (fun x => w <- gets (fun h => within_truthy h x) ;;
                            if (w : bool) then ret tt else project_up n x) ;;;
           re_relate n g) ;;;
        orphan_pass k' n g (S i) loose'
      | _, _ => raise TypeError
      end
    end
  end.
Fixpoint cleanup_tiers (k : nat) (n : nat) (g : gid) (i : nat) : M unit :=
  match k with
  | O => raise Diverge
  | S k' =>
    t <- gets (fun h => nth_error (g_tiers (gob h g)) i) ;;
    match t with
    | None => ret tt
    | Some t => tier_cleanup n t ;;; cleanup_tiers k' n g (S i)
    end
  end.
Definition grp_cleanup (n : nat) (g : gid) : M unit :=
  k <- gets (fun h => S (List.length (g_tiers (gob h g)))) ;;
  loose <- orphan_pass k n g 0 false ;;
  if negb loose then ret tt
  else
    k2 <- gets (fun h => S (List.length (g_tiers (gob h g)))) ;;
    cleanup_tiers k2 n g 0 ;;;
    re_relate n g.

(** [_class_check] (tiermixins.py:181-190). *)
Definition grp_class_names (h : heap) (g : gid) : list string :=
  map (fun t => class_name h (t_ec (tob h t))) (g_tiers (gob h g)).
Definition class_check (g g2 : gid) : M unit := fun h =>
  if (List.length (g_tiers (gob h g)) =? List.length (g_tiers (gob h g2)))%nat
     && bool_decide (grp_class_names h g = grp_class_names h g2)
  then Ok tt h else Raise ValueError h.

(** [group + group] (192-203). *)
Fixpoint zip_add (l1 l2 : list tid) : M (list tid) :=
  match l1, l2 with
  | a :: l1', b :: l2' => t <- tier_add a b ;; r <- zip_add l1' l2' ;; ret (t :: r)
  | _, _ => ret []
  end.
Definition grp_add (n : nat) (g g2 : gid) : M gid :=
  class_check g g2 ;;;
  o <- get_grp g ;; o2 <- get_grp g2 ;;
  ts <- zip_add (g_tiers o) (g_tiers o2) ;;
  g' <- (if g_points o then new_pg ts else new_tg n ts) ;;
  nm <- grp_name g ;;
  mod_grp g' (set_g_name nm) ;;;
  ret g'.

(** [group.concat(new)] (284-305).  Points have no [super_instance]:
    AttributeError at 300. *)
Definition concat_one (n : nat) (inc : option Z) (t1 : tid) (x : oid) : M unit :=
  pt <- gets (fun h => is_point_cls h (s_cls (sob h x))) ;;
  if (pt : bool) then raise AttributeError
  else
    xo <- get_seq x ;;
    match s_super xo with
    | Some _ => ret tt
    | None =>
      isin <- gets (fun h => existsb (Nat.eqb x) (t_seq (tob h t1))) ;;
      if (isin : bool) then ret tt
      else
        match inc with
        | None => raise TypeError
        | Some d => seq_shift d x ;;; tier_append n t1 x
        end
    end.
Fixpoint concat_tiers (n : nat) (inc : option Z) (l1 l2 : list tid) : M unit :=
  match l1, l2 with
  | t1 :: l1', t2 :: l2' =>
    xs <- gets (fun h => t_seq (tob h t2)) ;;
    forM xs (concat_one n inc t1) ;;;
    concat_tiers n inc l1' l2'
  | _, _ => ret tt
  end.
Definition grp_concat (n : nat) (g g2 : gid) : M unit :=
  class_check g g2 ;;;
  inc <- grp_xmax g ;;
  o <- get_grp g ;; o2 <- get_grp g2 ;;
  concat_tiers n inc (g_tiers o) (g_tiers o2).

(** ** Fusion (sequences.py:583-645); [fuse true] is [fuse_rightwards].
    [jn] is [label_fun]. *)
Definition join_sp (a b : string) : string := (a ++ " " ++ b)%string.
Definition fuse (right : bool) (jn : string -> string -> string) (x : oid) : M unit :=
  xo <- get_seq x ;;
  match (if right then s_fol xo else s_prev xo) with
  | None => raise AttributeError
  | Some y =>
    yo <- get_seq y ;;
    if is_hash (s_label yo) then raise PyException
    else
      (if right then
         mod_seq x (set_s_end (s_end yo)) ;;;
         mod_seq x (set_s_fol (s_fol yo)) ;;;
         mod_seq x (set_s_label (jn (s_label xo) (s_label yo)))
       else
         mod_seq x (set_s_start (s_start yo)) ;;;
         mod_seq x (set_s_prev (s_prev yo)) ;;;
         mod_seq x (set_s_label (jn (s_label yo) (s_label xo)))) ;;;
      v <- (if right then sl_add (OSeq x) (subset_slv xo) (s_subset yo)
            else sl_add (OSeq y) (subset_slv yo) (s_subset xo)) ;;
      subset_setter x (sv_vals v) ;;;
      xo2 <- get_seq x ;;
      sup <- gets (fun h => superset_class h (s_cls (sob h x))) ;;
      tr <- gets (fun h => match s_intier xo2 with
                           | Some t => (0 <? List.length (t_seq (tob h t)))%nat | None => false end) ;;
      let popt := match s_intier xo2 with
                  | Some t => when tr (tier_pop t y) | None => ret tt end in
      if bool_decide (sup = Some cTop) && tr then popt
      else
        popt ;;;
        xo3 <- get_seq x ;;
        match s_super xo3 with
        | None => ret tt
        | Some s =>
          ok <- gets (fun h => seq_truthy h (Some s) && sl_contains h (s_subset (sob h s)) y) ;;
          when ok (subset_remove s y)
        end
  end.
Definition fuse_rightwards := fuse true.
Definition fuse_leftwards := fuse false.

(** ** Paths and ids (within.py:62-80) *)

(** [_get_within_path]: indices from the object outwards. *)
Inductive anyref := RSeq (o : oid) | RTier (t : tid) | RGrp (g : gid) | RGrid (a : aid).
Definition wref_any (w : wref) : anyref :=
  match w with WSeq o => RSeq o | WTier t => RTier t | WGroup g => RGrp g | WGrid a => RGrid a end.
Definition any_within (h : heap) (r : anyref) : option wref :=
  match r with
  | RSeq o => s_within (sob h o)
  | RTier t => t_within (tob h t)
  | RGrp g => g_within (gob h g)
  | RGrid _ => None
  end.
Definition any_id (r : anyref) : nat := match r with RSeq o => o | RTier t => t | RGrp g => g | RGrid a => a end.
Fixpoint path_up (n : nat) (r : anyref) : M (list nat) :=
  match n with
  | O => raise RecursionError
  | S n' =>
    i <- (fun h => index_in h (any_id r) (any_within h r) h) ;;
    match i with
    | None => ret []
    | Some i =>
      w <- gets (fun h => any_within h r) ;;
      match w with
      | None => ret []
      | Some w => p <- path_up n' (wref_any w) ;; ret (i :: p)
      end
    end
  end.
Definition within_path (n : nat) (r : anyref) : M (list nat) :=
  p <- path_up n r ;; ret (rev p).
(** [id] (77-80). *)
Fixpoint join_dash (l : list string) : string :=
  match l with
  | [] => EmptyString
  | [x] => x
  | x :: l' => (x ++ "-" ++ join_dash l')%string
  end.
Definition obj_id (n : nat) (r : anyref) : M string :=
  p <- within_path n r ;; ret (join_dash (map nat_str p)).

End WithEnv.
