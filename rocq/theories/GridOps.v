(** * GridOps: AlignedTextGrid, output, PoLaR.

    Model of aligned_textgrid.py, the group [append] of
    mixins/tiermixins.py:205-282, outputs/to_dataframe.py and
    polar/polar_classes.py. *)
From Verif Require Export TierOps.
Open Scope Z_scope.

Section WithEnv.
Context `{Env}.

(** [list(set(l))].  Simplification: Python's set order is arbitrary; first
    occurrences are kept in order. *)
Fixpoint dedup (l : list cid) : list cid :=
  match l with
  | [] => []
  | c :: l' => c :: List.filter (fun d => negb (Nat.eqb d c)) (dedup l')
  end.

(** [_reclone_classes] (aligned_textgrid.py:183-227); the argument is already
    flat. *)
Definition name_idx (h : heap) (nm : string) (l : list cid) : option nat :=
  str_index nm (map (class_name h) l).
Definition clone_or_reuse (existing : list cid) (c : cid) : M cid :=
  i <- gets (fun h => name_idx h (class_name h c) existing) ;;
  match i with
  | Some i => of_opt IndexError (nth_error existing i)
  | None => clone_class c
  end.
Definition is_top_cls (c : cid) : M bool :=
  iv <- gets (fun h => issubclass h c cInterval) ;;
  if (iv : bool) then sup <- gets (fun h => superset_class h c) ;; issubclass_m sup cTop
  else ret false.
Fixpoint filterM {A} (f : A -> M bool) (l : list A) : M (list A) :=
  match l with
  | [] => ret []
  | x :: l' => b <- f x ;; r <- filterM f l' ;; ret (if (b : bool) then x :: r else r)
  end.
Definition reclone (a : aid) (flat : list cid) : M unit :=
  match flat with
  | [] => raise IndexError
  | _ =>
    let u := dedup flat in
    existing <- gets (fun h => a_cloned (aob h a)) ;;
    pts <- gets (fun h => List.filter (fun c => issubclass h c cPoint) u) ;;
    tops <- filterM is_top_cls u ;;
    pcl <- mapM (clone_or_reuse existing) pts ;;
    tcl <- mapM (clone_or_reuse existing) tops ;;
    fulls <- mapM (fun c => get_class_hierarchy c []) tcl ;;
    mod_grid a (fun o => set_a_cloned (a_cloned o ++ pcl ++ concat fulls)%list o)
  end.

(** [_swap_classes] (229-240). *)
Definition swap_classes (orig new : list cid) : M (list cid) :=
  mapM (fun c => i <- gets (fun h => name_idx h (class_name h c) new) ;;
                 match i with
                 | Some i => of_opt IndexError (nth_error new i)
                 | None => raise ValueError
                 end) orig.

(** The [tier_groups] setter (373-382). *)
Definition set_tier_groups (a : aid) (gs : list gid) : M unit :=
  match gs with
  | [] => ret tt
  | _ =>
    mod_grid a (set_a_groups gs) ;;;
    forM gs (fun g => mod_grp g (set_g_within (Some (WGrid a))))
  end.
(** [_set_group_names] (346-365): evaluates every group's name (which caches
    it); the named accessors themselves are in NameOps.v. *)
Definition set_group_names (a : aid) : M unit :=
  o <- get_grid a ;; forM (a_groups o) (fun g => _n <- grp_name g ;; ret tt).

(** Re-running a group's constructor on itself. *)
Definition grp_reinit (n : nat) (g : gid) : M unit := re_relate n g.

(** Re-running a tier's constructor. *)
Definition tier_reinit (t : tid) (s : tsrc) (c : cid) : M unit :=
  pt <- gets (fun h => is_point_tier h t) ;;
  if (pt : bool) then ptier_init t s (Some c) else itier_init t s (Some c).

(** [AlignedTextGrid.append] (406-457). *)
Fixpoint recast_tiers (cs : list cid) (ts : list tid) : M unit :=
  match cs, ts with
  | c :: cs', t :: ts' =>
    l <- gets (fun h => t_seq (tob h t)) ;;
    forM l (cast c) ;;;
    tier_reinit t (FromList (map EObj l)) c ;;;
    recast_tiers cs' ts'
  | _, _ => ret tt
  end.
Definition grid_append (n : nat) (a : aid) (g : gid) : M unit :=
  o <- get_grp g ;;
  ecs <- gets (fun h => map (fun t => t_ec (tob h t)) (g_tiers o)) ;;
  reclone a ecs ;;;
  cl <- gets (fun h => a_cloned (aob h a)) ;;
  ncs <- swap_classes ecs cl ;;
  recast_tiers ncs (g_tiers o) ;;;
  grp_reinit n g ;;;
  gs <- gets (fun h => a_groups (aob h a)) ;;
  set_tier_groups a (gs ++ [g])%list ;;;
  set_group_names a.

(** [group.append(tier)] (tiermixins.py:205-282). *)
Definition related_cls (h : heap) (a b : cid) : bool := issubclass h a b || issubclass h b a.
Definition grp_append (n : nat) (g : gid) (t : tid) : M unit :=
  go <- get_grp g ;;
  kind <- gets (fun h => Bool.eqb (g_points go) (is_point_tier h t)) ;;
  if negb kind then raise ValueError
  else
    (match g_within go with
     | Some (WGrid a) =>
       ng <- gets (fun h => List.length (a_groups (aob h a))) ;;
       if (0 <? ng)%nat then
         ec <- gets (fun h => t_ec (tob h t)) ;;
         reclone a [ec] ;;;
         cl <- gets (fun h => a_cloned (aob h a)) ;;
         nc <- swap_classes [ec] cl ;;
         match nc with
         | [c] => tier_reinit t (FromTier t) c
         | _ => raise ValueError
         end
       else ret tt
     | _ => ret tt
     end) ;;;
    ec <- gets (fun h => t_ec (tob h t)) ;;
    existing <- gets (fun h => existsb (fun u => related_cls h (t_ec (tob h u)) ec) (g_tiers go)) ;;
    if (existing : bool) then raise ValueError
    else
      fits <- (if g_points go || (List.length (g_tiers go) =? 0)%nat then ret true
               else
                 cands <- gets (fun h => flat_map (fun u => [t_sub (tob h u); t_super (tob h u)]) (g_tiers go)) ;;
                 match all_some cands with
                 | None => raise TypeError
                 | Some cs => gets (fun h => existsb (fun c => related_cls h c ec) cs)
                 end) ;;
      if negb fits then raise ValueError
      else
        mod_grp g (fun o => set_g_tiers (g_tiers o ++ [t])%list o) ;;;
        ts <- gets (fun h => g_tiers (gob h g)) ;;
        if g_points go then pg_init g ts else tg_init n g ts None false.

(** ** Reading a textgrid *)
Inductive eclasses := Flat (l : list cid) | Nested (l : list (list cid)).
Record rawtier := RawTier { rt_name : string; rt_entries : list entry }.

(** Indices of the top classes of a flat class list (162-167, 272-273):
    AttributeError on a point class, TypeError on a missing superset. *)
Definition top_idxes (cs : list cid) : M (list nat) :=
  bs <- mapM (fun c => pt <- gets (fun h => is_point_cls h c) ;;
                       if (pt : bool) then raise AttributeError
                       else sup <- gets (fun h => superset_class h c) ;; issubclass_m sup cTop) cs ;;
  ret (map fst (List.filter (fun p => snd p : bool) (combine (seq 0 (List.length cs)) bs))).

(** [_extend_classes] (149-181). *)
Definition extend_classes (ntiers : nat) (ecs : eclasses) : M eclasses :=
  match ecs with
  | Nested [] | Flat [] => raise IndexError
  | Nested _ => ret ecs
  | Flat cs =>
    tops <- top_idxes cs ;;
    if (List.length cs =? 1)%nat || (List.length tops <=? 1)%nat
    then ret (Nested (repeat cs (ntiers / List.length cs)))
    else ret ecs
  end.

(** [_nestify_tiers] (242-307). *)
Fixpoint take_group {A B} (cs : list A) (i : nat) (tiers : list B) : M (list B) :=
  match cs with
  | [] => ret []
  | _ :: cs' => t <- of_opt IndexError (nth_error tiers i) ;;
                r <- take_group cs' (S i) tiers ;; ret (t :: r)
  end.
Fixpoint take_groups {A B} (css : list (list A)) (i : nat) (tiers : list B) : M (list (list B)) :=
  match css with
  | [] => ret []
  | cs :: css' => g <- take_group cs i tiers ;;
                  r <- take_groups css' (i + List.length cs) tiers ;; ret (g :: r)
  end.
Fixpoint chase_down {B} (n : nat) (cs : list cid) (tiers : list B) (cur : cid) : M (list (B * cid)) :=
  match n with
  | O => raise Diverge
  | S n' =>
    sub <- gets (fun h => subset_class h cur) ;;
    bot <- issubclass_m sub cBottom ;;
    if (bot : bool) then ret []
    else match sub with
         | None => ret []
         | Some s =>
           match index_of s cs with
           | None => ret []
           | Some i => t <- of_opt IndexError (nth_error tiers i) ;;
                       r <- chase_down n' cs tiers s ;; ret ((t, s) :: r)
           end
         end
  end.
Definition nestify {B} (tiers : list B) (ecs : eclasses) : M (list (list B) * list (list cid)) :=
  e <- extend_classes (List.length tiers) ecs ;;
  match e with
  | Nested [] => raise IndexError
  | Nested css => g <- take_groups css 0 tiers ;; ret (g, css)
  | Flat cs =>
    tops <- top_idxes cs ;;
    if (List.length tops <=? 1)%nat then ret ([tiers], [cs])
    else
      r <- mapM (fun i =>
             t <- of_opt IndexError (nth_error tiers i) ;;
             c <- of_opt IndexError (nth_error cs i) ;;
             ds <- chase_down (S (List.length cs)) cs tiers c ;;
             ret ((t, c) :: ds)) tops ;;
      ret (map (map fst) r, map (map snd) r)
  end.

(** [_relate_tiers] (309-344). *)
Fixpoint build_tiers (ps : list (rawtier * cid)) : M (list tid * list tid) :=
  match ps with
  | [] => ret ([], [])
  | (rt, c) :: ps' =>
    pt <- gets (fun h => issubclass h c cPoint) ;;
    iv <- gets (fun h => issubclass h c cInterval) ;;
    p <- (if (pt : bool) then t <- new_ptier (FromPraat (rt_name rt) (rt_entries rt)) (Some c) ;; ret [t] else ret []) ;;
    s <- (if (iv : bool) then t <- new_itier (FromPraat (rt_name rt) (rt_entries rt)) (Some c) ;; ret [t] else ret []) ;;
    r <- build_tiers ps' ;;
    ret (s ++ fst r, p ++ snd r)%list
  end.
Fixpoint build_groups (n : nat) (tgs : list (list rawtier)) (css : list (list cid)) : M (list gid) :=
  match tgs, css with
  | ts :: tgs', cs :: css' =>
    b <- build_tiers (combine ts cs) ;;
    g1 <- (match fst b with [] => ret [] | l => g <- new_tg n l ;; ret [g] end) ;;
    g2 <- (match snd b with [] => ret [] | l => g <- new_pg l ;; ret [g] end) ;;
    r <- build_groups n tgs' css' ;;
    ret (g1 ++ g2 ++ r)%list
  | _, _ => ret []
  end.
Definition relate_textgrid (n : nat) (a : aid) (tgs : list (list rawtier)) (css : list (list cid)) : M (list gid) :=
  reclone a (concat css) ;;;
  cl <- gets (fun h => a_cloned (aob h a)) ;;
  css' <- mapM (fun cs => swap_classes cs cl) css ;;
  build_groups n tgs css'.

(** [AlignedTextGrid.cleanup] (459-511).  Line 498 compares the group's end
    with the largest *start*. *)
Definition close_opt (a b : option Z) : M bool := close_m a b.
Fixpoint append_blanks (n : nat) (ts : list tid) (xs : list oid) : M unit :=
  match ts, xs with
  | t :: ts', x :: xs' => _b <- tier_append_n n t x ;; append_blanks n ts' xs'
  | _, _ => ret tt
  end.
Definition blank_column (n : nat) (g : gid) (s e : option Z) : M unit :=
  o <- get_grp g ;;
  cs <- gets (fun h => map (fun t => t_ec (tob h t)) (g_tiers o)) ;;
  xs <- mapM (fun c => construct3 (Some c) s e "") cs ;;
  append_blanks n (g_tiers o) xs.
Definition grid_cleanup (n : nat) (a : aid) : M unit :=
  ao <- get_grid a ;;
  forM (a_groups ao) (fun g => o <- get_grp g ;; if g_points o then ret tt else grp_cleanup n g) ;;;
  ivs <- gets (fun h => List.filter (fun g => negb (g_points (gob h g))) (a_groups ao)) ;;
  sts <- mapM grp_xmin ivs ;;
  ens <- mapM grp_xmax ivs ;;
  smin <- np_ext Z.min sts ;; smax <- np_ext Z.max sts ;;
  c1 <- close_opt smin smax ;;
  done <- (if (c1 : bool)
           then emin <- np_ext Z.min ens ;; emax <- np_ext Z.max ens ;; close_opt emin emax
           else ret false) ;;
  if (done : bool) then ret tt
  else
    forM (a_groups ao) (fun g =>
      x <- grp_xmin g ;; c <- close_opt x smin ;;
      if (c : bool) then ret tt else blank_column n g smin x) ;;;
    forM (a_groups ao) (fun g =>
      x <- grp_xmax g ;; c <- close_opt x smax ;;
      if (c : bool) then ret tt
      else emax <- np_ext Z.max ens ;; blank_column n g x emax).

(** [AlignedTextGrid.__init__] (61-87), from groups and from a praatio
    textgrid (119-146).  File reading is praatio's. *)
Definition grid_finish (a : aid) : M unit :=
  o <- get_grid a ;;
  forM (a_groups o) (fun g => mod_grp g (set_g_within (Some (WGrid a)))) ;;;
  set_group_names a.
Definition new_grid_groups (n : nat) (gs : list gid) : M aid :=
  a <- alloc_grid blank_grid ;;
  match gs with
  | [] => ret a
  | _ => forM gs (grid_append n a) ;;; grid_finish a ;;; ret a
  end.
Definition new_grid_textgrid (n : nat) (tg : list rawtier) (ecs : eclasses) : M aid :=
  a <- alloc_grid blank_grid ;;
  match tg with
  | [] => ret a
  | _ =>
    nt <- nestify tg ecs ;;
    gs <- relate_textgrid n a (fst nt) (snd nt) ;;
    set_tier_groups a gs ;;;
    grid_cleanup n a ;;;
    grid_finish a ;;;
    ret a
  end.

(** [shift] (513-526), xmin/xmax (394-404), [get_intervals_at_time]
    (770-784). *)
Definition grid_shift (d : Z) (a : aid) : M unit :=
  o <- get_grid a ;; forM (a_groups o) (grp_shift d).
Definition grid_xmin (a : aid) : M (option Z) :=
  o <- get_grid a ;; l <- mapM grp_xmin (a_groups o) ;; np_ext Z.min l.
Definition grid_xmax (a : aid) : M (option Z) :=
  o <- get_grid a ;; l <- mapM grp_xmax (a_groups o) ;; np_ext Z.max l.
Definition grid_intervals_at_time (time : Z) (a : aid) : M (list (list (option nat))) :=
  o <- get_grid a ;; mapM (grp_intervals_at_time time) (a_groups o).

(** [get_class_by_name] (735-768). *)
Inductive class_lookup := NoClass | OneClass (c : cid) | ManyClasses (l : list cid).
Definition grid_classes (h : heap) (a : aid) : list cid :=
  flat_map (fun g => map (fun t => t_ec (tob h t)) (g_tiers (gob h g))) (a_groups (aob h a)).
Definition get_class_by_name (a : aid) (nm : string) : M class_lookup := fun h =>
  match List.filter (fun c => String.eqb (class_name h c) nm) (dedup (grid_classes h a)) with
  | [] => Ok NoClass h
  | [c] => Ok (OneClass c) h
  | l => Ok (ManyClasses l) h
  end.

(** [interleave_class] (528-650).  [above = true]: interleave above class
    [nm2]; [timing = true]: timing from below. *)
Definition sync_tier_classes (t : tid) : M unit :=
  c <- gets (fun h => t_ec (tob h t)) ;;
  sup <- gets (fun h => superset_class h c) ;;
  sub <- gets (fun h => subset_class h c) ;;
  mod_tier t (set_t_super sup) ;;;
  mod_tier t (set_t_sub sub).
Definition interleave_group (n : nat) (new_c : cid) (spec copy_c down_c : option cid) (labels : bool) (g : gid) : M gid :=
  o <- get_grp g ;;
  ecs <- gets (fun h => map (fun t => t_ec (tob h t)) (g_tiers o)) ;;
  if negb (existsb (fun c => bool_decide (Some c = spec)) ecs) then ret g
  else
    ct <- gets (fun h => List.find (fun t => bool_decide (Some (t_ec (tob h t)) = copy_c)) (g_tiers o)) ;;
    match ct with
    | None => raise IndexError
    | Some ct =>
      src <- gets (fun h => t_seq (tob h ct)) ;;
      xs <- mapM (fun y => yo <- get_seq y ;; new_obj new_c (s_start yo) (s_end yo) (s_label yo)) src ;;
      nt <- new_itier (FromList (map EObj xs)) None ;;
      (if labels then ret tt
       else l <- gets (fun h => t_seq (tob h nt)) ;; forM l (fun x => mod_seq x (set_s_label ""))) ;;;
      let idx := match down_c with
                 | Some d => match index_of d ecs with Some i => i | None => List.length ecs end
                 | None => List.length ecs end in
      mod_grp g (fun o => set_g_tiers (insert_at idx nt (g_tiers o)) o) ;;;
      ts <- gets (fun h => g_tiers (gob h g)) ;;
      forM ts sync_tier_classes ;;;
      g' <- new_tg n ts ;;
      nm <- grp_name g ;;
      mod_grp g' (set_g_name nm) ;;;
      ret g'
    end.
(** The class changes of [interleave_class] (aligned_textgrid.py:614-615). *)
Definition splice_class (new_c : cid) (up_c down_c : option cid) : M unit :=
  set_superset_class new_c up_c ;;;
  set_subset_class new_c down_c.
Definition interleave_class (n : nat) (a : aid) (nm : string) (above : bool) (nm2 : string) (from_below labels : bool) : M unit :=
  if String.eqb nm "" || String.eqb nm2 "" then raise ValueError
  else
    cs <- custom_classes [nm] RNone [] ;;
    match cs with
    | new_c :: _ =>
      r <- get_class_by_name a nm2 ;;
      match r with
      | OneClass c =>
        pt <- gets (fun h => is_point_cls h c) ;;
        if (pt : bool) then raise AttributeError
        else
          other <- gets (fun h => if above then superset_class h c else subset_class h c) ;;
          let up_c := if above then other else Some c in
          let down_c := if above then Some c else other in
          splice_class new_c up_c down_c ;;;
          gs <- gets (fun h => a_groups (aob h a)) ;;
          gs' <- mapM (interleave_group n new_c (Some c) (if from_below then down_c else up_c) down_c labels) gs ;;
          set_tier_groups a gs'
      | _ => raise AttributeError
      end
    | [] => raise IndexError
    end.

(** [pop_class] (652-733). *)
(** The class changes of [pop_class] (aligned_textgrid.py:714-718): the
    [isinstance] tests of the source ask whether a class is an instance of
    [Top] or [Bottom], which never holds. *)
Definition join_classes (u d : cid) : M unit :=
  set_subset_class u (Some d) ;;;
  set_superset_class d (Some u).
Definition pop_group (n : nat) (nm : string) (g : gid) : M (list gid) :=
  o <- get_grp g ;;
  names <- gets (fun h => grp_class_names h g) ;;
  if negb (existsb (String.eqb nm) names) then ret [g]
  else if (List.length names =? 1)%nat then _n <- grp_name g ;; ret []
  else
    pops <- gets (fun h => List.filter (fun t => String.eqb (class_name h (t_ec (tob h t))) nm) (g_tiers o)) ;;
    keep <- gets (fun h => List.filter (fun t => negb (String.eqb (class_name h (t_ec (tob h t))) nm)) (g_tiers o)) ;;
    match pops with
    | [p] =>
      c <- gets (fun h => t_ec (tob h p)) ;;
      pt <- gets (fun h => is_point_cls h c) ;;
      if (pt : bool) then raise AttributeError
      else
        sup <- gets (fun h => superset_class h c) ;;
        sub <- gets (fun h => subset_class h c) ;;
        match sup, sub with
        | Some u, Some d =>
          join_classes u d ;;;
          forM keep sync_tier_classes ;;;
          g' <- new_tg n keep ;;
          lastt <- group_item g' (-1) ;;
          l <- gets (fun h => t_seq (tob h lastt)) ;;
          forM l (fun x => subset_setter x [] ;;; mod_seq x (set_s_contains (CList []))) ;;;
          nm' <- grp_name g ;;
          mod_grp g' (set_g_name nm') ;;;
          ret [g']
        | _, _ => raise AttributeError
        end
    | _ => raise ValueError
    end.
Definition pop_class (n : nat) (a : aid) (nm : string) : M unit :=
  gs <- gets (fun h => a_groups (aob h a)) ;;
  gss <- mapM (pop_group n nm) gs ;;
  set_tier_groups a (concat gss) ;;;
  o <- get_grid a ;;
  forM (a_groups o) (fun g => mod_grp g (set_g_within (Some (WGrid a)))).

(** ** Output *)

(** [return_textgrid] (786-807): the names given to the output tiers and the
    praatio tuples written to each.  What praatio does with them is not
    modelled. *)
Fixpoint out_names (seen : list string) (dup : nat) (names : list string) : list string :=
  match names with
  | [] => []
  | nm :: rest =>
    if existsb (String.eqb nm) seen
    then let nm' := (nm ++ "_" ++ nat_str dup)%string in
         nm' :: out_names (seen ++ [nm'])%list (S dup) rest
    else nm :: out_names (seen ++ [nm])%list dup rest
  end.
Definition grid_tiers (h : heap) (a : aid) : list tid :=
  flat_map (fun g => g_tiers (gob h g)) (a_groups (aob h a)).
Definition return_textgrid (h : heap) (a : aid)
  : list (string * list (bool * option Z * option Z * string)) :=
  combine (out_names [] 0 (map (fun t => t_name (tob h t)) (grid_tiers h a)))
          (map (fun t => map (praatio h) (t_seq (tob h t))) (grid_tiers h a)).

(** [to_df] (to_dataframe.py).  A row is the list of objects it describes,
    outermost first; each contributes its id, tier_index, label, start and
    end.  Column naming and polars' concatenation are not modelled. *)
Definition contains_seq (h : heap) (o : oid) : list oid :=
  default [] (cattr_list (s_contains (sob h o)) (s_subset (sob h o))).
Fixpoint seq_rows (n : nat) (subset : bool) (o : oid) : M (list (list oid)) :=
  match n with
  | O => raise RecursionError
  | S n' =>
    cs <- gets (fun h => contains_seq h o) ;;
    match cs, subset with
    | _ :: _, true => rs <- mapM (seq_rows n' true) cs ;; ret (map (cons o) (concat rs))
    | _, _ => ret [[o]]
    end
  end.
Definition tier_rows (n : nat) (subset : bool) (t : tid) : M (list (list oid)) :=
  l <- gets (fun h => t_seq (tob h t)) ;;
  match l with
  | [] => raise ValueError
  | _ => rs <- mapM (seq_rows n subset) l ;; ret (concat rs)
  end.
Definition grp_rows (n : nat) (subset : bool) (g : gid) : M (list (list oid)) :=
  o <- get_grp g ;;
  if negb (g_points o) && subset then
    match g_tiers o with t :: _ => tier_rows n subset t | [] => raise IndexError end
  else
    match g_tiers o with
    | [] => raise ValueError
    | ts => rs <- mapM (tier_rows n subset) ts ;; ret (concat rs)
    end.
Definition grid_rows (n : nat) (subset : bool) (a : aid) : M (list (list oid)) :=
  o <- get_grid a ;;
  match a_groups o with
  | [] => raise ValueError
  | gs => rs <- mapM (grp_rows n subset) gs ;; ret (concat rs)
  end.

(** ** PoLaR label functions (polar/polar_classes.py) *)
Definition certainty (lab : string) : string :=
  if str_in "?" lab then "uncertain" else "certain".
Definition prstr_status (lab : string) : string :=
  if str_in "*" lab then "prominence" else if str_in "]" lab then "edge" else lab.
(** [label.split(",")[-1]] (88-92). *)
Fixpoint after_last_comma (acc : string) (s : string) : string :=
  match s with
  | EmptyString => acc
  | String a s' => if Ascii.eqb a ","%char then after_last_comma s' s' else after_last_comma acc s'
  end.
Definition tp_override (lab : string) : option string :=
  let v := after_last_comma lab lab in
  if String.eqb v "0" then None else Some v.

End WithEnv.
