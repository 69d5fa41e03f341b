(** * TagOps: tiers as attributes of a group ([group.Word]).

    Model of [_set_tier_names] (tiermixins.py:309-327) and of the methods that run
    the constructor of a group, which calls it.  The definitions of TierOps.v and
    GridOps.v are taken up here with the names given where the source gives them
    (TagFinal.v shows that apart from the names they do the same).

    The table of NameOps.v now belongs to groups: [d_attr d g] lists the names
    given to the group [g] and the tiers they were given to; the attributes of
    grids are left out.  A class name that is also the name of a method or
    property of groups is not modelled. *)
From Verif Require Export NameOps.
Open Scope Z_scope.

Section WithEnv.
Context `{Env}.

Notation "x <~ m ;; k" := (dbind m (fun x => k)) (at level 100, m at next level, right associativity).
Definition dgets {A} (f : heap -> A) : D A := plainly (gets f).
Definition draise {A} (e : exn) : D A := plainly (raise e).
Fixpoint dforM {A} (l : list A) (f : A -> D unit) : D unit :=
  match l with [] => dret tt | x :: r => _u <~ f x ;; dforM r f end.
Fixpoint dmapM {A B} (f : A -> D B) (l : list A) : D (list B) :=
  match l with [] => dret [] | x :: r => y <~ f x ;; ys <~ dmapM f r ;; dret (y :: ys) end.

(** [_set_tier_names] (tiermixins.py:309-327). *)
Definition name_tiers (g : gid) : D unit :=
  ts <~ dgets (fun h => g_tiers (gob h g)) ;;
  nms <~ dgets (fun h => grp_class_names h g) ;;
  if repeated nms then dret tt else set_attrs g (combine (map Some nms) ts).

(** [TierGroup.__init__] (tiers.py:367-505) up to line 384. *)
Definition tg_begin (g : gid) (tiers : list tid) (nm : option string) : M (list tid) :=
  r <- arrange tiers ;;
  when (snd r) (grp_set_contains g (fst r)) ;;;
  mod_grp g (fun o => set_g_contains (if snd r then CAlias else unalias (g_contains o) (g_tiers o))
                        (set_g_tiers (fst r) o)) ;;;
  (if str_truthy nm then mod_grp g (set_g_name nm)
   else m <- make_name g ;; mod_grp g (set_g_name m)) ;;;
  ret (fst r).
(** Its rest (387-505). *)
Definition tg_end (n : nat) (tiers ts : list tid) (delay : bool) : M unit :=
  forM tiers (fun t => l <- gets (fun h => t_seq (tob h t)) ;; forM l remove_superset) ;;;
  relate_tiers n delay ts.
Definition tg_init_named (n : nat) (g : gid) (tiers : list tid) (nm : option string) (delay : bool) : D unit :=
  ts <~ plainly (tg_begin g tiers nm) ;;
  _u <~ name_tiers g ;;
  plainly (tg_end n tiers ts delay).
(** [PointsGroup.__init__] (points/tiers.py:243-252). *)
Definition pg_init_named (g : gid) (tiers : list tid) : D unit :=
  _u <~ plainly (mod_grp g (set_g_tiers tiers) ;;;
                 mod_grp g (set_g_contains CAlias) ;;;
                 forM tiers (fun t => mod_tier t (set_t_within (Some (WGroup g))))) ;;
  _v <~ name_tiers g ;;
  plainly (m <- make_name g ;; mod_grp g (set_g_name m)).

Definition new_tg_named (n : nat) (tiers : list tid) : D gid :=
  g <~ plainly (alloc_grp (blank_grp false)) ;; _u <~ tg_init_named n g tiers None false ;; dret g.
Definition new_pg_named (tiers : list tid) : D gid :=
  g <~ plainly (alloc_grp (blank_grp true)) ;; _u <~ pg_init_named g tiers ;; dret g.
(** [re_relate] (tiermixins.py:341-342). *)
Definition re_relate_named (n : nat) (g : gid) : D unit :=
  o <~ dgets (fun h => gob h g) ;;
  if g_points o then pg_init_named g (g_tiers o)
  else nm <~ plainly (grp_name g) ;; tg_init_named n g (g_tiers o) nm false.
(** [tier.append] (tiermixins.py:54-125). *)
Definition tier_append_named (n : nat) (t : tid) (x : oid) : D unit :=
  b <~ plainly (tier_append_n n t x) ;;
  if (b : bool) then
    tg <~ dgets (fun h => truthy_group h t) ;;
    match tg with Some g => re_relate_named n g | None => dret tt end
  else dret tt.

(** [cleanup] of tiers, groups and grids (tiers.py:237-258, 612-648;
    aligned_textgrid.py:459-511). *)
Fixpoint tier_cleanup_named (n : nat) (t : tid) : D unit :=
  match n with
  | O => draise RecursionError
  | S n' =>
    pt <~ dgets (fun h => is_point_tier h t) ;;
    if (pt : bool) then dret tt
    else
      st <~ dgets (fun h => all_some (tstarts h t)) ;;
      en <~ dgets (fun h => all_some (tends h t)) ;;
      match st, en with
      | Some st, Some en =>
        if allclose (tl st) (removelast en) then dret tt
        else
          _u <~ plainly (fill_tier t (gap_pairs st en)) ;;
          o <~ dgets (fun h => tob h t) ;;
          bot <~ plainly (issubclass_m (t_sub o) cBottom) ;;
          tg <~ dgets (fun h => truthy_group h t) ;;
          match tg with
          | None => dret tt
          | Some g =>
            if (bot : bool) then re_relate_named n' g
            else d <~ plainly (sibling_tier t g 1) ;; tier_cleanup_named n' d
          end
      | _, _ => draise TypeError
      end
  end.
Fixpoint orphan_pass_named (k : nat) (n : nat) (g : gid) (i : nat) (loose : bool) : D bool :=
  match k with
  | O => draise Diverge
  | S k' =>
    t <~ dgets (fun h => nth_error (g_tiers (gob h g)) i) ;;
    match t with
    | None => dret loose
    | Some t =>
      st <~ dgets (fun h => all_some (tstarts h t)) ;;
      en <~ dgets (fun h => all_some (tends h t)) ;;
      match st, en with
      | Some st, Some en =>
        l <~ dgets (fun h => t_seq (tob h t)) ;;
        orph <~ dgets (fun h => existsb (fun x => negb (within_truthy h x)) l) ;;
        _u <~ (if (orph : bool) then
                 _v <~ plainly (forM l (fun x => w <- gets (fun h => within_truthy h x) ;;
                                                 if (w : bool) then ret tt else project_up n x)) ;;
                 re_relate_named n g
               else dret tt) ;;
        orphan_pass_named k' n g (S i) (loose || negb (allclose (tl st) (removelast en)))
      | _, _ => draise TypeError
      end
    end
  end.
Fixpoint cleanup_tiers_named (k : nat) (n : nat) (g : gid) (i : nat) : D unit :=
  match k with
  | O => draise Diverge
  | S k' =>
    t <~ dgets (fun h => nth_error (g_tiers (gob h g)) i) ;;
    match t with
    | None => dret tt
    | Some t => _u <~ tier_cleanup_named n t ;; cleanup_tiers_named k' n g (S i)
    end
  end.
Definition grp_cleanup_named (n : nat) (g : gid) : D unit :=
  k <~ dgets (fun h => S (List.length (g_tiers (gob h g)))) ;;
  loose <~ orphan_pass_named k n g 0 false ;;
  if negb loose then dret tt
  else
    k2 <~ dgets (fun h => S (List.length (g_tiers (gob h g)))) ;;
    _u <~ cleanup_tiers_named k2 n g 0 ;;
    re_relate_named n g.
(** The part of a grid's [cleanup] after its groups' (aligned_textgrid.py:476-511). *)
Definition level_groups (n : nat) (gs : list gid) : M unit :=
  ivs <- gets (fun h => List.filter (fun g => negb (g_points (gob h g))) gs) ;;
  sts <- mapM grp_xmin ivs ;;
  ens <- mapM grp_xmax ivs ;;
  smin <- np_ext Z.min sts ;; smax <- np_ext Z.max sts ;;
  c1 <- close_opt smin smax ;;
  done <- (if (c1 : bool)
           then emin <- np_ext Z.min ens ;; emax <- np_ext Z.max ens ;; close_opt emin emax
           else ret false) ;;
  if (done : bool) then ret tt
  else
    forM gs (fun g =>
      x <- grp_xmin g ;; c <- close_opt x smin ;;
      if (c : bool) then ret tt else blank_column n g smin x) ;;;
    forM gs (fun g =>
      x <- grp_xmax g ;; c <- close_opt x smax ;;
      if (c : bool) then ret tt
      else emax <- np_ext Z.max ens ;; blank_column n g x emax).
Definition grid_cleanup_named (n : nat) (a : aid) : D unit :=
  ao <~ dgets (fun h => aob h a) ;;
  _u <~ dforM (a_groups ao) (fun g => o <~ dgets (fun h => gob h g) ;; if g_points o then dret tt else grp_cleanup_named n g) ;;
  plainly (level_groups n (a_groups ao)).

(** [group.append(tier)] (tiermixins.py:205-282) up to line 277. *)
Definition add_tier (g : gid) (t : tid) : M (bool * list tid) :=
  go <- get_grp g ;;
  kind <- gets (fun h => Bool.eqb (g_points go) (is_point_tier h t)) ;;
  if negb kind then raise ValueError
  else
    (match g_within go with
     | Some (WGrid a) =>
       ng <- gets (fun h => List.length (a_groups (aob h a))) ;;
       if (0 <? ng)%nat then
         ec <- gets (fun h => t_ec (tob h t)) ;;
         reclone a [ec] ;;;
         cl <- gets (fun h => a_cloned (aob h a)) ;;
         nc <- swap_classes [ec] cl ;;
         match nc with
         | [c] => tier_reinit t (FromTier t) c
         | _ => raise ValueError
         end
       else ret tt
     | _ => ret tt
     end) ;;;
    ec <- gets (fun h => t_ec (tob h t)) ;;
    existing <- gets (fun h => existsb (fun u => related_cls h (t_ec (tob h u)) ec) (g_tiers go)) ;;
    if (existing : bool) then raise ValueError
    else
      fits <- (if g_points go || (List.length (g_tiers go) =? 0)%nat then ret true
               else
                 cands <- gets (fun h => flat_map (fun u => [t_sub (tob h u); t_super (tob h u)]) (g_tiers go)) ;;
                 match all_some cands with
                 | None => raise TypeError
                 | Some cs => gets (fun h => existsb (fun c => related_cls h c ec) cs)
                 end) ;;
      if negb fits then raise ValueError
      else
        mod_grp g (fun o => set_g_tiers (g_tiers o ++ [t])%list o) ;;;
        ts <- gets (fun h => g_tiers (gob h g)) ;;
        ret (g_points go, ts).
Definition grp_append_named (n : nat) (g : gid) (t : tid) : D unit :=
  r <~ plainly (add_tier g t) ;;
  if fst r : bool then pg_init_named g (snd r) else tg_init_named n g (snd r) None false.

(** [grid.append(group)] (aligned_textgrid.py:406-457) before and after the
    group's constructor is run again. *)
Definition recast_group (a : aid) (g : gid) : M unit :=
  o <- get_grp g ;;
  ecs <- gets (fun h => map (fun t => t_ec (tob h t)) (g_tiers o)) ;;
  reclone a ecs ;;;
  cl <- gets (fun h => a_cloned (aob h a)) ;;
  ncs <- swap_classes ecs cl ;;
  recast_tiers ncs (g_tiers o).
Definition list_group (a : aid) (g : gid) : M unit :=
  gs <- gets (fun h => a_groups (aob h a)) ;;
  set_tier_groups a (gs ++ [g])%list ;;;
  set_group_names a.
Definition grid_append_tagged (n : nat) (a : aid) (g : gid) : D unit :=
  _u <~ plainly (recast_group a g) ;;
  _v <~ re_relate_named n g ;;
  plainly (list_group a g).

(** Reading a textgrid (aligned_textgrid.py:61-87, 119-146, 309-344). *)
Fixpoint build_groups_named (n : nat) (tgs : list (list rawtier)) (css : list (list cid)) : D (list gid) :=
  match tgs, css with
  | ts :: tgs', cs :: css' =>
    b <~ plainly (build_tiers (combine ts cs)) ;;
    g1 <~ (match fst b with [] => dret [] | l => g <~ new_tg_named n l ;; dret [g] end) ;;
    g2 <~ (match snd b with [] => dret [] | l => g <~ new_pg_named l ;; dret [g] end) ;;
    r <~ build_groups_named n tgs' css' ;;
    dret (g1 ++ g2 ++ r)%list
  | _, _ => dret []
  end.
Definition read_named (n : nat) (tg : list rawtier) (ecs : eclasses) : D aid :=
  a <~ plainly (alloc_grid blank_grid) ;;
  match tg with
  | [] => dret a
  | _ =>
    p <~ plainly (nt <- nestify tg ecs ;;
                  reclone a (concat (snd nt)) ;;;
                  cl <- gets (fun h => a_cloned (aob h a)) ;;
                  css <- mapM (fun cs => swap_classes cs cl) (snd nt) ;;
                  ret (fst nt, css)) ;;
    gs <~ build_groups_named n (fst p) (snd p) ;;
    _u <~ plainly (set_tier_groups a gs) ;;
    _v <~ grid_cleanup_named n a ;;
    _w <~ plainly (grid_finish a) ;;
    dret a
  end.

(** [interleave_class] (528-650). *)
Definition weave_tier (new_c : cid) (copy_c down_c : option cid) (labels : bool) (g : gid) : M (list tid) :=
  o <- get_grp g ;;
  ecs <- gets (fun h => map (fun t => t_ec (tob h t)) (g_tiers o)) ;;
  ct <- gets (fun h => List.find (fun t => bool_decide (Some (t_ec (tob h t)) = copy_c)) (g_tiers o)) ;;
  match ct with
  | None => raise IndexError
  | Some ct =>
    src <- gets (fun h => t_seq (tob h ct)) ;;
    xs <- mapM (fun y => yo <- get_seq y ;; new_obj new_c (s_start yo) (s_end yo) (s_label yo)) src ;;
    nt <- new_itier (FromList (map EObj xs)) None ;;
    (if labels then ret tt
     else l <- gets (fun h => t_seq (tob h nt)) ;; forM l (fun x => mod_seq x (set_s_label ""))) ;;;
    let idx := match down_c with
               | Some d => match index_of d ecs with Some i => i | None => List.length ecs end
               | None => List.length ecs end in
    mod_grp g (fun o => set_g_tiers (insert_at idx nt (g_tiers o)) o) ;;;
    ts <- gets (fun h => g_tiers (gob h g)) ;;
    forM ts sync_tier_classes ;;;
    ret ts
  end.
Definition interleave_group_named (n : nat) (new_c : cid) (spec copy_c down_c : option cid) (labels : bool) (g : gid) : D gid :=
  ecs <~ dgets (fun h => map (fun t => t_ec (tob h t)) (g_tiers (gob h g))) ;;
  if negb (existsb (fun c => bool_decide (Some c = spec)) ecs) then dret g
  else
    ts <~ plainly (weave_tier new_c copy_c down_c labels g) ;;
    g' <~ new_tg_named n ts ;;
    _u <~ plainly (nm <- grp_name g ;; mod_grp g' (set_g_name nm)) ;;
    dret g'.
(** The classes: the one made, the one above it, the one below it, and the one next
    to which it is. *)
Definition weave_classes (a : aid) (nm : string) (above : bool) (nm2 : string) : M (cid * option cid * option cid * cid) :=
  if String.eqb nm "" || String.eqb nm2 "" then raise ValueError
  else
    cs <- custom_classes [nm] RNone [] ;;
    match cs with
    | new_c :: _ =>
      r <- get_class_by_name a nm2 ;;
      match r with
      | OneClass c =>
        pt <- gets (fun h => is_point_cls h c) ;;
        if (pt : bool) then raise AttributeError
        else
          other <- gets (fun h => if above then superset_class h c else subset_class h c) ;;
          let up_c := if above then other else Some c in
          let down_c := if above then Some c else other in
          splice_class new_c up_c down_c ;;;
          ret (new_c, up_c, down_c, c)
      | _ => raise AttributeError
      end
    | [] => raise IndexError
    end.
Definition interleave_class_tagged (n : nat) (a : aid) (nm : string) (above : bool) (nm2 : string) (from_below labels : bool) : D unit :=
  p <~ plainly (weave_classes a nm above nm2) ;;
  match p with (new_c, up_c, down_c, c) =>
    gs <~ dgets (fun h => a_groups (aob h a)) ;;
    gs' <~ dmapM (interleave_group_named n new_c (Some c) (if from_below then down_c else up_c) down_c labels) gs ;;
    plainly (set_tier_groups a gs')
  end.

(** [pop_class] (652-733). *)
Definition pop_tier (nm : string) (g : gid) : M (list tid) :=
  o <- get_grp g ;;
  pops <- gets (fun h => List.filter (fun t => String.eqb (class_name h (t_ec (tob h t))) nm) (g_tiers o)) ;;
  keep <- gets (fun h => List.filter (fun t => negb (String.eqb (class_name h (t_ec (tob h t))) nm)) (g_tiers o)) ;;
  match pops with
  | [p] =>
    c <- gets (fun h => t_ec (tob h p)) ;;
    pt <- gets (fun h => is_point_cls h c) ;;
    if (pt : bool) then raise AttributeError
    else
      sup <- gets (fun h => superset_class h c) ;;
      sub <- gets (fun h => subset_class h c) ;;
      match sup, sub with
      | Some u, Some d => join_classes u d ;;; forM keep sync_tier_classes ;;; ret keep
      | _, _ => raise AttributeError
      end
  | _ => raise ValueError
  end.
Definition pop_group_named (n : nat) (nm : string) (g : gid) : D (list gid) :=
  names <~ dgets (fun h => grp_class_names h g) ;;
  if negb (existsb (String.eqb nm) names) then dret [g]
  else if (List.length names =? 1)%nat then _u <~ plainly (grp_name g) ;; dret []
  else
    keep <~ plainly (pop_tier nm g) ;;
    g' <~ new_tg_named n keep ;;
    _u <~ plainly (lastt <- group_item g' (-1) ;;
                   l <- gets (fun h => t_seq (tob h lastt)) ;;
                   forM l (fun x => subset_setter x [] ;;; mod_seq x (set_s_contains (CList []))) ;;;
                   nm' <- grp_name g ;;
                   mod_grp g' (set_g_name nm')) ;;
    dret [g'].
Definition pop_class_tagged (n : nat) (a : aid) (nm : string) : D unit :=
  gs <~ dgets (fun h => a_groups (aob h a)) ;;
  gss <~ dmapM (pop_group_named n nm) gs ;;
  plainly (set_tier_groups a (concat gss) ;;;
           o <- get_grid a ;;
           forM (a_groups o) (fun g => mod_grp g (set_g_within (Some (WGrid a))))).
End WithEnv.
