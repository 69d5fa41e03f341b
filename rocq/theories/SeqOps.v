(** * SeqOps: SequenceList, precedence links, parent/child operations.

    Model of sequence_list.py, mixins/mixins.py, and the parts of
    sequences/sequences.py and points/points.py that do not touch tiers.
    A SequenceList is a value [slv] (its [_values] and [entry_class]); the
    lists owned by an interval or a tier live inside the owner object.
    Warnings are not modelled. *)
From Verif Require Export ClassOps.
Open Scope Z_scope.

Section WithEnv.
Context `{Env}.

(** ** numpy helpers *)

(** All entries present, or None (numpy would raise TypeError on None). *)
Fixpoint all_some {A} (l : list (option A)) : option (list A) :=
  match l with
  | [] => Some []
  | Some x :: l' => match all_some l' with Some r => Some (x :: r) | None => None end
  | None :: _ => None
  end.

(** [np.all(a[:-1] <= a[1:])]; None stands for the TypeError raised when a
    compared entry is Python's None. *)
Fixpoint le_adj (l : list (option Z)) : option bool :=
  match l with
  | [] => Some true
  | x :: l' =>
    match l' with
    | [] => Some true
    | y :: _ =>
      match x, y, le_adj l' with
      | Some a, Some b, Some r => Some ((a <=? b) && r)
      | _, _, _ => None
      end
    end
  end.

(** [[l[i] for i in idx]]. *)
Fixpoint pick {A} (l : list A) (idx : list nat) : list A :=
  match idx with
  | [] => []
  | i :: idx' => match nth_error l i with Some x => x :: pick l idx' | None => pick l idx' end
  end.

(** [np.searchsorted(a, v)] (side='left'): numpy's binary search. *)
Fixpoint bsearch (fuel : nat) (a : list Z) (v : Z) (lo hi : nat) : nat :=
  match fuel with
  | O => lo
  | S f => if (lo <? hi)%nat
           then let mid := (lo + (hi - lo) / 2)%nat in
                if nth mid a 0 <? v then bsearch f a v (S mid) hi else bsearch f a v lo mid
           else lo
  end.
Definition searchsorted (a : list Z) (v : Z) : nat :=
  bsearch (S (List.length a)) a v 0 (List.length a).

Definition insert_at {A} (i : nat) (x : A) (l : list A) : list A :=
  (firstn i l ++ x :: skipn i l)%list.
Definition remove_at {A} (i : nat) (l : list A) : list A :=
  (firstn i l ++ skipn (S i) l)%list.

(** ** Values of objects *)

(** The praatio tuple (mixins.py:185-215): (start, end, label) for intervals,
    (time, label) for points; the boolean keeps the two shapes apart. *)
Definition praatio (h : heap) (o : oid) : bool * option Z * option Z * string :=
  let b := is_point_cls h (s_cls (sob h o)) in
  (b, s_start (sob h o), (if b then None else s_end (sob h o)), s_label (sob h o)).
Definition praatio_eqb (h : heap) (a b : oid) : bool := bool_decide (praatio h a = praatio h b).

(** [SequenceList.starts]/[.ends] (sequence_list.py:146-166).  Simplification:
    the point/interval distinction is made per element instead of on the
    first element. *)
Definition start_of (h : heap) (o : oid) : option Z := s_start (sob h o).
Definition end_of (h : heap) (o : oid) : option Z :=
  if is_point_cls h (s_cls (sob h o)) then s_start (sob h o) else s_end (sob h o).
Definition starts_of (h : heap) (l : list oid) : list (option Z) := map (start_of h) l.
Definition ends_of (h : heap) (l : list oid) : list (option Z) := map (end_of h) l.
Definition labels_of (h : heap) (l : list oid) : list string := map (fun o => s_label (sob h o)) l.

(** ** SequenceList *)
Record slv := Slv { sv_vals : list oid; sv_ec : option cid }.
Definition sl_empty : slv := Slv [] None.

(** [__contains__] (sequence_list.py:55-67): same object, or equal tuple. *)
Definition sl_contains (h : heap) (l : list oid) (x : oid) : bool :=
  existsb (fun y => Nat.eqb y x || praatio_eqb h y x) l.

(** [_sort] (104-112). *)
Definition sl_sort (l : list oid) : M (list oid) := fun h =>
  match l with
  | [] => Ok [] h
  | _ =>
    match le_adj (starts_of h l) with
    | None => Raise TypeError h
    | Some true => Ok l h
    | Some false =>
      match all_some (starts_of h l) with
      | None => Raise TypeError h
      | Some st => Ok (pick l (argsort st)) h
      end
    end
  end.

Definition all_same (l : list cid) : bool :=
  match l with [] => true | c :: l' => forallb (Nat.eqb c) l' end.
Definition classes_of (h : heap) (l : list oid) : list cid := map (fun o => s_cls (sob h o)) l.

(** [SequenceList( *args )] (33-47). *)
Definition sl_init (args : list oid) : M slv := fun h =>
  match args with
  | [] => Ok sl_empty h
  | a :: _ =>
    if all_same (classes_of h args)
    then match sl_sort args h with
         | Ok l h' => Ok (Slv l (Some (s_cls (sob h a)))) h'
         | Raise e h' => Raise e h'
         end
    else Raise ValueError h
  end.

(** [_check_no_overlaps] (128-144): the number of ordered pairs (i,j), i=j
    included, with end_i > start_j and start_i < end_j, compared with the
    length. *)
Definition n_overlaps (st en : list Z) : nat :=
  List.length (List.filter (fun p : (Z * Z) * (Z * Z) =>
     let '((s1, e1), (s2, e2)) := p in (e1 >? s2) && (s1 <? e2))
   (list_prod (combine st en) (combine st en))).
Definition check_no_overlaps (st en : list Z) : bool :=
  negb (List.length st <? n_overlaps st en)%nat.
Definition sl_check_no_overlaps (l : list oid) : M bool := fun h =>
  match all_some (starts_of h l), all_some (ends_of h l) with
  | Some st, Some en => Ok (check_no_overlaps st en) h
  | _, _ => Raise TypeError h
  end.

(** [_cast] (mixins.py:20-33) on an existing object: reassigns [__class__].
    The assertion compares the kinds (interval or point). *)
Definition cast (c : cid) (o : oid) : M unit :=
  ok <- gets (fun h => issubclass h (s_cls (sob h o))
                          (if is_point_cls h c then cPoint else cInterval)) ;;
  if ok then mod_seq o (set_s_cls c) else raise AssertionError.

(** Where a SequenceList lives, for the side effect of [+] on the left
    operand's [entry_class] (sequence_list.py:91-92). *)
Inductive owner := OSeq (o : oid) | OTier (t : tid) | ONone.
Definition set_owner_ec (w : owner) (c : cid) : M unit :=
  match w with
  | OSeq o => mod_seq o (set_s_subec (Some c))
  | OTier t => mod_tier t (set_t_seqec (Some c))
  | ONone => ret tt
  end.

(** [self + other] (69-99). *)
Definition sl_add (w : owner) (self : slv) (other : list oid) : M slv :=
  other' <- gets (fun h => List.filter (fun x => negb (sl_contains h (sv_vals self) x)) other) ;;
  match other' with
  | [] => ret self
  | x :: _ =>
    same <- gets (fun h => all_same (classes_of h other')) ;;
    if negb same then raise ValueError
    else
      inc <- gets (fun h => s_cls (sob h x)) ;;
      okc <- gets (fun h => match sv_ec self with
                            | None => true
                            | Some ec => issubclass h inc ec || issubclass h ec inc
                            end) ;;
      if negb okc then raise ValueError
      else
        (match sv_ec self with None => set_owner_ec w inc | Some _ => ret tt end) ;;;
        let ec := match sv_ec self with None => inc | Some e => e end in
        let new_list := (sv_vals self ++ other')%list in
        forM new_list (fun o => c <- gets (fun h => s_cls (sob h o)) ;;
                                if Nat.eqb c ec then ret tt else cast ec o) ;;;
        out <- sl_init new_list ;;
        vs <- sl_sort (sv_vals out) ;;
        _b <- sl_check_no_overlaps vs ;;
        ret (Slv vs (sv_ec out))
  end.

(** ** Shifting one object (sequences.py:522-526, points.py:167-168)

    The recursion follows subset lists; [n] bounds its depth. *)
Definition add_time (e : exn) (t : option Z) (d : Z) : M Z :=
  match t with None => raise e | Some a => ret (fadd a d) end.
Fixpoint shift_n (n : nat) (d : Z) (o : oid) : M unit :=
  match n with
  | O => raise RecursionError
  | S n' =>
    ob <- get_seq o ;;
    pt <- gets (fun h => is_point_cls h (s_cls (sob h o))) ;;
    s' <- add_time TypeError (s_start ob) d ;;
    mod_seq o (set_s_start (Some s')) ;;;
    if (pt : bool) then ret tt
    else
      e' <- add_time TypeError (s_end ob) d ;;
      mod_seq o (set_s_end (Some e')) ;;;
      forM (s_subset ob) (shift_n n' d)
  end.
(** A chain of subset lists longer than the number of objects is cyclic. *)
Definition seq_shift (d : Z) (o : oid) : M unit := fun h =>
  shift_n (S (List.length (h_seq h))) d o h.

(** [SequenceList.append] (175-209).  [re_init] is not modelled. *)
Definition all_truthy (l : list (option Z)) : bool :=
  forallb (fun t => match t with Some z => negb (z =? 0) | None => false end) l.
Definition sl_append (self : slv) (x : oid) (shift : bool) : M slv :=
  isin <- gets (fun h => sl_contains h (sv_vals self) x) ;;
  if (isin : bool) then ret self
  else
    xc <- gets (fun h => s_cls (sob h x)) ;;
    okc <- gets (fun h => match sv_ec self with
                          | None => true
                          | Some ec => issubclass h ec xc || issubclass h xc ec
                          end) ;;
    if negb okc then raise ValueError
    else
      let ec := match sv_ec self with None => xc | Some e => e end in
      cast ec x ;;;
      when shift
        (lst <- gets (fun h => last (ends_of h (sv_vals self))) ;;
         match lst with
         | None => seq_shift 0 x
         | Some None => raise TypeError
         | Some (Some d) => seq_shift d x
         end) ;;;
      st <- gets (fun h => starts_of h (sv_vals self)) ;;
      if (0 <? List.length st)%nat && all_truthy st then
        this <- gets (fun h => start_of h x) ;;
        match all_some st, this with
        | Some st', Some v => ret (Slv (insert_at (searchsorted st' v) x (sv_vals self)) (Some ec))
        | _, _ => raise TypeError
        end
      else ret (Slv (sv_vals self ++ [x])%list (Some ec)).

(** The list part of [SequenceList.remove]/[pop] (235-262): drop the first
    entry whose tuple equals x's. *)
Fixpoint find_idx {A} (f : A -> bool) (l : list A) : option nat :=
  match l with
  | [] => None
  | y :: l' => if f y then Some O
               else match find_idx f l' with Some k => Some (S k) | None => None end
  end.
Definition sl_drop (h : heap) (l : list oid) (x : oid) : option (list oid) :=
  match find_idx (fun y => praatio_eqb h y x) l with
  | Some i => Some (remove_at i l)
  | None => None
  end.

(** [SequenceList.concat] (211-232): the resulting [_values].  The source
    stores a SequenceList (not a list) in [_values]; [None] is returned when
    it stores the list inside itself, which makes every later use of the list
    recurse for ever. *)
Definition sl_concat (w : owner) (self : slv) (new : list oid) : M (option slv) :=
  ivs <- sl_init new ;;
  inc <- (match sv_vals self with
          | [] => ret 0
          | v => es <- gets (fun h => all_some (ends_of h v)) ;;
                 match es with
                 | Some (e :: es') => ret (fold_left Z.max es' e)
                 | _ => raise TypeError
                 end
          end) ;;
  forM (sv_vals ivs) (seq_shift inc) ;;;
  other' <- gets (fun h => List.filter (fun x => negb (sl_contains h (sv_vals self) x)) (sv_vals ivs)) ;;
  out <- sl_add w self (sv_vals ivs) ;;
  match other' with
  | [] => ret None
  | _ => ret (Some out)
  end.

(** ** Precedence links (mixins.py:65-134)

    [set_fol] and [set_prev] call each other; the recursion is at most three
    deep and [n] bounds it. *)
Inductive dir := Fol | Prev.
Definition opp (d : dir) : dir := match d with Fol => Prev | Prev => Fol end.
Definition link (d : dir) (o : seqobj) : option oid :=
  match d with Fol => s_fol o | Prev => s_prev o end.
Definition set_s_link (d : dir) (v : option oid) (o : seqobj) : seqobj :=
  match d with Fol => set_s_fol v o | Prev => set_s_prev v o end.

Definition is_hash (s : string) : bool := String.eqb s "#".

Fixpoint set_link (n : nat) (d : dir) (x y : oid) : M unit :=
  match n with
  | O => raise RecursionError
  | S n' =>
    if Nat.eqb y x then raise PyException
    else
      xo <- get_seq x ;;
      if is_hash (s_label xo) then ret tt
      else if bool_decide (link d xo = Some y) then ret tt
      else
        yo <- get_seq y ;;
        if Nat.eqb (s_cls yo) (s_cls xo) then
          mod_seq x (set_s_link d (Some y)) ;;;
          set_link n' (opp d) y x
        else raise PyException
  end.
Definition set_fol (x y : oid) : M unit := set_link 4 Fol x y.
Definition set_prev (x y : oid) : M unit := set_link 4 Prev x y.

(** [set_final]/[set_initial] (113-134): link to a fresh "#" boundary of the
    same class. *)
Definition set_boundary (d : dir) (x : oid) : M unit :=
  xo <- get_seq x ;;
  b <- alloc_seq (blank_seq (s_cls xo) None None "#") ;;
  set_link 4 d x b.
Definition set_final (x : oid) : M unit := set_boundary Fol x.
Definition set_initial (x : oid) : M unit := set_boundary Prev x.

(** Constructing an interval (sequences.py:369-411) or point
    (points.py:68-99) of class [c].  Simplifications: the label is a string,
    and the length check on the tuple (386-391) is by typing. *)
Definition new_obj (c : cid) (st en : option Z) (lab : string) : M oid :=
  x <- alloc_seq (blank_seq c st en lab) ;;
  (if is_hash lab then ret tt else set_final x ;;; set_initial x) ;;;
  ret x.

(** [c((s, e, label))] for a class value [c]: classes that are not interval
    classes reject the call (Top/Bottom take no argument: TypeError; a point
    class rejects a 3-tuple: ValueError; None is not callable). *)
Definition construct3 (c : option cid) (s e : option Z) (lab : string) : M oid :=
  match c with
  | None => raise TypeError
  | Some c =>
    iv <- gets (fun h => issubclass h c cInterval) ;;
    pt <- gets (fun h => issubclass h c cPoint) ;;
    if (iv : bool) then new_obj c s e lab
    else if (pt : bool) then raise ValueError else raise TypeError
  end.

(** The loop shared by [_set_subset_precedence] (sequences.py:221-234), the
    tier version (tiers.py:138-148) and the point-tier version
    (points/tiers.py:116-126).  [pre] is run on each element first (the tiers
    set [intier] there). *)
Fixpoint precedence (pre : oid -> M unit) (prev : option oid) (l : list oid) : M unit :=
  match l with
  | [] => ret tt
  | p :: rest =>
    pre p ;;;
    (match prev with None => set_initial p | Some q => set_prev p q end) ;;;
    (match rest with [] => set_final p | r :: _ => set_fol p r end) ;;;
    precedence pre (Some p) rest
  end.
Definition set_subset_precedence (s : oid) : M unit :=
  so <- get_seq s ;; precedence (fun _ => ret tt) None (s_subset so).

(** ** Parent / child (sequences.py:118-217, 449-492) *)

(** Rebinding [_subset_list] to a new list object: a [_contains] that was the
    old list object stays the old list object. *)
Definition unalias (c : cattr) (old : list nat) : cattr :=
  match c with CAlias => CList old | _ => c end.
Definition rebind_subset (s : oid) (v : slv) : M unit :=
  mod_seq s (fun o => set_s_contains (unalias (s_contains o) (s_subset o))
                        (set_s_subec (sv_ec v) (set_s_subset (sv_vals v) o))).
(** Mutating the list object in place. *)
Definition store_subset (s : oid) (v : slv) : M unit :=
  mod_seq s (fun o => set_s_subec (sv_ec v) (set_s_subset (sv_vals v) o)).
Definition subset_slv (o : seqobj) : slv := Slv (s_subset o) (s_subec o).

(** [remove_superset] (207-217) with [remove_from_subset_list] (191-205) and
    [SequenceList.remove] (sequence_list.py:235-247) inlined along the
    recursion remove_superset -> remove_from_subset_list -> remove ->
    remove_superset.  Every level removes one entry of the parent's list. *)
Fixpoint remove_superset_n (n : nat) (x : oid) : M unit :=
  match n with
  | O => raise RecursionError
  | S n' =>
    xo <- get_seq x ;;
    match s_super xo with
    | None => ret tt
    | Some s =>
      dropped <- gets (fun h =>
         if sl_contains h (s_subset (sob h s)) x then sl_drop h (s_subset (sob h s)) x else None) ;;
      (match dropped with
       | Some l =>
         mod_seq s (set_s_subset l) ;;;
         remove_superset_n n' x ;;;
         mod_seq x (set_s_super None) ;;;
         mod_seq x (set_s_within None) ;;;
         set_subset_precedence s
       | None => ret tt
       end) ;;;
      mod_seq x (set_s_super None) ;;;
      mod_seq x (set_s_within None)
    end
  end.
Definition remove_superset (x : oid) : M unit := fun h =>
  match s_super (sob h x) with
  | None => Ok tt h
  | Some s => remove_superset_n (S (List.length (s_subset (sob h s)))) x h
  end.

(** [SequenceList.remove] (235-247) on the list owned by [s]. *)
Definition subset_remove (s x : oid) : M unit :=
  d <- gets (fun h => sl_drop h (s_subset (sob h s)) x) ;;
  match d with
  | None => raise ValueError
  | Some l => mod_seq s (set_s_subset l) ;;; remove_superset x
  end.

(** [remove_from_subset_list] (191-205), public entry. *)
Definition remove_from_subset_list (s x : oid) : M unit :=
  isin <- gets (fun h => sl_contains h (s_subset (sob h s)) x) ;;
  if negb isin then ret tt
  else
    subset_remove s x ;;;
    mod_seq x (set_s_super None) ;;;
    mod_seq x (set_s_within None) ;;;
    set_subset_precedence s.

(** [SequenceInterval.pop] (449-459) with [SequenceList.pop]
    (sequence_list.py:249-262). *)
Definition seq_pop (s x : oid) : M unit :=
  isin <- gets (fun h => sl_contains h (s_subset (sob h s)) x) ;;
  when isin (subset_remove s x) ;;;
  set_subset_precedence s.

(** [contains = self._subset_list] (within.py:46-53). *)
Definition seq_set_contains (s : oid) : M unit :=
  so <- get_seq s ;;
  mod_seq s (set_s_contains CAlias) ;;;
  forM (s_subset so) (fun o => mod_seq o (set_s_within (Some (WSeq s)))).

(** [isinstance(x, C)] where the class attribute C may be None. *)
Definition isinstance_m (x : oid) (c : option cid) : M bool :=
  match c with
  | None => raise TypeError
  | Some c => gets (fun h => issubclass h (s_cls (sob h x)) c)
  end.

(** [set_subset_list] (138-164), and [Word.set_phones]
    (word_and_phone.py:111-117).  The argument is a list that nobody else
    mutates during the call. *)
Definition set_subset_list (s : oid) (l : list oid) : M unit :=
  sc <- gets (fun h => subset_class h (s_cls (sob h s))) ;;
  oks <- mapM (fun x => isinstance_m x sc) l ;;
  if forallb id oks then
    v <- sl_init l ;;
    rebind_subset s v ;;;
    forM l (fun x =>
      xo <- get_seq x ;;
      if bool_decide (s_super xo = Some s) then ret tt
      else remove_superset x ;;; mod_seq x (set_s_super (Some s))) ;;;
    seq_set_contains s ;;;
    set_subset_precedence s
  else raise PyException.

(** The [subset_list] property setter (484-492). *)
Definition subset_setter (s : oid) (l : list oid) : M unit :=
  orig <- gets (fun h => s_subset (sob h s)) ;;
  v <- sl_init l ;;
  set_subset_list s (sv_vals v) ;;;
  forM orig (fun o =>
    isin <- gets (fun h => sl_contains h (s_subset (sob h s)) o) ;;
    if (isin : bool) then ret tt else remove_superset o).

(** [set_subset_list(q.subset_list)] where the argument is the live list of
    another interval: the [for element in subset_list] loop of 153-156 reads
    the list by index while [remove_superset] shortens it. *)
Fixpoint live_adopt (n : nat) (s q : oid) (i : nat) : M unit :=
  match n with
  | O => raise Diverge
  | S n' =>
    qo <- get_seq q ;;
    match nth_error (s_subset qo) i with
    | None => ret tt
    | Some x =>
      xo <- get_seq x ;;
      (if bool_decide (s_super xo = Some s) then ret tt
       else remove_superset x ;;; mod_seq x (set_s_super (Some s))) ;;;
      live_adopt n' s q (S i)
    end
  end.
Definition set_subset_list_live (s q : oid) : M unit :=
  sc <- gets (fun h => subset_class h (s_cls (sob h s))) ;;
  l <- gets (fun h => s_subset (sob h q)) ;;
  oks <- mapM (fun x => isinstance_m x sc) l ;;
  if forallb id oks then
    v <- sl_init l ;;
    rebind_subset s v ;;;
    live_adopt (S (List.length l)) s q 0 ;;;
    seq_set_contains s ;;;
    set_subset_precedence s
  else raise PyException.

(** Truth value of a reference to an interval: [len(...) > 0]
    (sequences.py:423-424). *)
Definition seq_truthy (h : heap) (o : option oid) : bool :=
  match o with Some s => (0 <? List.length (s_subset (sob h s)))%nat | None => false end.

(** [set_super_instance] (118-133), [Phone.set_word]
    (word_and_phone.py:56-65), and [append_subset_list] (166-189).
    [SupI x s] is [x.set_super_instance(s)], [AppL s x] is
    [s.append_subset_list(x)]; the recursion is at most four deep. *)
Inductive adopt_call := SupI (x s : oid) | AppL (s x : oid).
Fixpoint adopt (n : nat) (c : adopt_call) : M unit :=
  match n with
  | O => raise RecursionError
  | S n' =>
    match c with
    | SupI x s =>
      sc <- gets (fun h => superset_class h (s_cls (sob h x))) ;;
      ok <- isinstance_m s sc ;;
      xo <- get_seq x ;;
      if ok && negb (bool_decide (s_super xo = Some s)) then
        mod_seq x (set_s_super (Some s)) ;;;
        adopt n' (AppL s x)
      else raise PyException
    | AppL s x =>
      sc <- gets (fun h => subset_class h (s_cls (sob h s))) ;;
      ok <- isinstance_m x sc ;;
      isin <- gets (fun h => sl_contains h (s_subset (sob h s)) x) ;;
      if (ok : bool) then
        if (isin : bool) then ret tt
        else
          tr <- gets (fun h => seq_truthy h (s_super (sob h x))) ;;
          when tr (remove_superset x) ;;;
          so <- get_seq s ;;
          v <- sl_append (subset_slv so) x false ;;
          store_subset s v ;;;
          set_subset_precedence s ;;;
          xo <- get_seq x ;;
          if bool_decide (s_super xo = Some s) then ret tt
          else adopt n' (SupI x s)
      else raise PyException
    end
  end.
Definition set_super_instance (x s : oid) : M unit := adopt 6 (SupI x s).
Definition append_subset_list (s x : oid) : M unit := adopt 6 (AppL s x).

(** [validate] (243-297). *)
Definition seq_validate (s : oid) : M bool := fun h =>
  let o := sob h s in
  match s_subset o with
  | [] => Ok true h
  | _ =>
    match s_start o with
    | None => Ok true h
    | Some st =>
      match s_end o, all_some (starts_of h (s_subset o)), all_some (ends_of h (s_subset o)) with
      | Some en, Some sts, Some ens =>
        Ok (isclose st (hd 0 sts) && isclose en (List.last ens 0)
            && allclose (tl sts) (removelast ens)) h
      | _, _, _ => Raise TypeError h
      end
    end
  end.

End WithEnv.
