(** * ClassOps: the class hierarchy.

    Model of sequences/sequences.py:28-91 and 299-303, 668-694,
    sequences/word_and_phone.py:127-138, custom_classes.py.  Classes are
    entries of [h_cls]; a class attribute is [Own v] when the class's own
    [__dict__] binds it. *)
From Coq Require Export Ascii.
From Verif Require Export Base.
Open Scope string_scope.
Open Scope Z_scope.

(** [set_superset_class] (sequences.py:38-65) and [set_subset_class]
    (sequences.py:67-91).  [up = true] is the former.  They call each other;
    the recursion is at most two deep, [n] bounds it. *)
Fixpoint set_hier (n : nat) (up : bool) (c : cid) (v : option cid) : M unit :=
  match n with
  | O => raise RecursionError
  | S n' =>
    let setf := fun x => if up then set_c_super (Own x) else set_c_sub (Own x) in
    match v with
    | None => mod_cls c (setf None)
    | Some d =>
      k <- get_cls c ;;
      if str_in (if up then "Top" else "Bottom") (c_name k)
      then mod_cls c (setf None)
      else
        ok <- gets (fun h => issubclass h d cHierarchyPart) ;;
        if ok && negb (Nat.eqb d c) then
          mod_cls c (setf (Some d)) ;;;
          back <- gets (fun h => if up then subset_class h d else superset_class h d) ;;
          match back with
          | Some b => if Nat.eqb b c then ret tt else set_hier n' (negb up) d (Some c)
          | None => set_hier n' (negb up) d (Some c)
          end
        else raise PyException
    end
  end.
Definition set_superset_class (c : cid) (v : option cid) : M unit := set_hier 4 true c v.
Definition set_subset_class (c : cid) (v : option cid) : M unit := set_hier 4 false c v.

(** ** The classes that exist after importing the package *)
Definition cWord : cid := 5%nat.
Definition cPhone : cid := 6%nat.
Definition cTopwp : cid := 7%nat.
Definition cBottomwp : cid := 8%nat.

(** Class statements: sequences.py:299,305,668,678; points.py:19;
    word_and_phone.py:10,71,127,131.  SequencePoint is not a HierarchyPart and
    has no superset/subset attributes; it is given [Own None] and every use
    tests [is_point_cls] first. *)
Definition bare_classes : list clsobj :=
  [ ClsObj "HierarchyPart" None (Own None) (Own None);
    ClsObj "Top" (Some cHierarchyPart) Inherit Inherit;
    ClsObj "Bottom" (Some cHierarchyPart) Inherit Inherit;
    ClsObj "SequenceInterval" (Some cHierarchyPart) Inherit Inherit;
    ClsObj "SequencePoint" None (Own None) (Own None);
    ClsObj "Word" (Some cInterval) Inherit Inherit;
    ClsObj "Phone" (Some cInterval) Inherit Inherit;
    ClsObj "Top_wp" (Some cTop) Inherit Inherit;
    ClsObj "Bottom_wp" (Some cBottom) Inherit Inherit ].

Definition empty_heap : heap := Heap bare_classes [] [] [] [].

(** Module-level wiring: sequences.py:690-693, word_and_phone.py:136-138. *)
Definition boot : M unit :=
  set_superset_class cTop None ;;;
  set_subset_class cBottom None ;;;
  set_superset_class cInterval (Some cTop) ;;;
  set_subset_class cInterval (Some cBottom) ;;;
  set_superset_class cWord (Some cTopwp) ;;;
  set_subset_class cWord (Some cPhone) ;;;
  set_subset_class cPhone (Some cBottomwp).
Definition boot_heap : heap := heap_of (boot empty_heap).

(** ** custom_classes.py *)

(** Decimal rendering of a nat, for [f"Top_{n}"]. *)
Definition digit (n : nat) : ascii := ascii_of_nat (48 + n).
Fixpoint nat_str_aux (fuel n : nat) (acc : string) : string :=
  match fuel with
  | O => acc
  | S f => let acc' := String (digit (Nat.modulo n 10)) acc in
           if Nat.ltb n 10 then acc' else nat_str_aux f (Nat.div n 10) acc'
  end.
Definition nat_str (n : nat) : string := nat_str_aux (S n) n "".

(** [len(B.__subclasses__())]: direct subclasses.  Simplification: classes
    are never garbage collected; only the number in the name depends on it. *)
Definition n_subclasses (h : heap) (b : cid) : nat :=
  List.length (List.filter (fun k => match c_base k with Some x => Nat.eqb x b | None => false end) (h_cls h)).

(** custom_classes.py:14-24 and 26-35. *)
Definition make_top : M cid :=
  n <- gets (fun h => n_subclasses h cTop) ;;
  alloc_cls (ClsObj ("Top_" ++ nat_str n)%string (Some cTop) Inherit Inherit).
Definition make_bottom : M cid :=
  n <- gets (fun h => n_subclasses h cBottom) ;;
  alloc_cls (ClsObj ("Bottom_" ++ nat_str n)%string (Some cBottom) Inherit Inherit).

(** [type(name, (base,), dict(base.__dict__))]: a subclass whose own
    attributes start as a copy of the base's own attributes
    (custom_classes.py:106-131, 177-181, 200-204). *)
Definition type_copy (name : string) (base : cid) : M cid :=
  k <- get_cls base ;;
  alloc_cls (ClsObj name (Some base) (c_super k) (c_sub k)).

(** The chain-wiring loop custom_classes.py:138-144. *)
Fixpoint wire_chain (first : bool) (top bottom : cid) (cs : list cid) : M unit :=
  match cs with
  | [] => ret tt
  | c :: rest =>
    when first (set_superset_class c (Some top)) ;;;
    (match rest with
     | [] => set_subset_class c (Some bottom)
     | d :: _ => set_subset_class c (Some d)
     end) ;;;
    wire_chain false top bottom rest
  end.

(** Creation of the listed classes, custom_classes.py:124-132; [i] is the
    running index. *)
Fixpoint make_classes (i : nat) (names : list string) (points : list nat) : M (list cid) :=
  match names with
  | [] => ret []
  | nm :: rest =>
    c <- type_copy nm (if existsb (Nat.eqb i) points then cPoint else cInterval) ;;
    cs <- make_classes (S i) rest points ;;
    ret (c :: cs)
  end.

(** Everything of [custom_classes] (37-151) up to the choice of return
    order: the classes in the order of [class_list].  The case of a bare
    string argument (105-121) is [custom_class1]. *)
Definition custom_classes_built (names : list string) (points : list nat) : M (list cid) :=
  top <- make_top ;;
  bottom <- make_bottom ;;
  cs <- make_classes 0 names points ;;
  ivs <- gets (fun h => List.filter (fun c => issubclass h c cInterval) cs) ;;
  wire_chain true top bottom ivs ;;;
  ret cs.

(** The return order (custom_classes.py:101-102, 146-151). *)
Inductive ret_order := RNone | RInt (l : list Z) | RStr (l : list string).

Fixpoint str_index (x : string) (l : list string) : option nat :=
  match l with
  | [] => None
  | y :: l' => if String.eqb x y then Some O
               else match str_index x l' with Some k => Some (S k) | None => None end
  end.

Definition order_by_names (names order : list string) (cs : list cid) : M (list cid) :=
  match order with
  | [] => raise IndexError
  | _ =>
    mapM (fun x => match str_index x order with
                   | None => raise ValueError
                   | Some i => of_opt IndexError (nth_error cs i)
                   end) names
  end.

Definition custom_classes (names : list string) (ro : ret_order) (points : list nat) : M (list cid) :=
  cs <- custom_classes_built names points ;;
  match ro with
  | RNone => order_by_names names names cs
  | RInt [] => raise IndexError
  | RInt l => mapM (fun i => of_opt IndexError (py_index cs i)) l
  | RStr l => order_by_names names l cs
  end.

(** [custom_classes("Name")] (105-121). *)
Definition custom_class1 (name : string) (point : bool) : M cid :=
  top <- make_top ;;
  bottom <- make_bottom ;;
  if point then type_copy name cPoint
  else c <- type_copy name cInterval ;;
       set_superset_class c (Some top) ;;;
       set_subset_class c (Some bottom) ;;;
       ret c.

(** [clone_class] (custom_classes.py:153-206).  The recursion follows
    [subset_class]; [n] bounds its depth and running out stands for Python's
    RecursionError on a cyclic hierarchy. *)
Fixpoint clone_n (n : nat) (recurse : bool) (c : cid) : M cid :=
  match n with
  | O => raise RecursionError
  | S n' =>
    isiv <- gets (fun h => issubclass h c cInterval) ;;
    ispt <- gets (fun h => issubclass h c cPoint) ;;
    if isiv then
      sup <- gets (fun h => superset_class h c) ;;
      istop <- issubclass_m sup cTop ;;
      if negb istop && negb recurse then raise PyException
      else
        nm <- gets (fun h => class_name h c) ;;
        c' <- type_copy nm c ;;
        sup' <- gets (fun h => superset_class h c') ;;
        istop' <- issubclass_m sup' cTop ;;
        when istop' (t <- make_top ;; set_superset_class c' (Some t)) ;;;
        sub' <- gets (fun h => subset_class h c') ;;
        isbot' <- issubclass_m sub' cBottom ;;
        when isbot' (b <- make_bottom ;; set_subset_class c' (Some b)) ;;;
        sub2 <- gets (fun h => subset_class h c') ;;
        match sub2 with
        | None => raise AttributeError
        | Some d =>
          back <- gets (fun h => superset_class h d) ;;
          subiv <- gets (fun h => issubclass h d cInterval) ;;
          if negb (bool_decide (back = Some c')) && subiv then
            d' <- clone_n n' true d ;;
            set_subset_class c' (Some d') ;;;
            ret c'
          else ret c'
        end
    else if ispt then
      nm <- gets (fun h => class_name h c) ;;
      type_copy nm c
    else raise AttributeError
  end.
Definition clone_class (c : cid) : M cid := fun h =>
  clone_n (S (List.length (h_cls h))) false c h.

(** [get_class_hierarchy] (custom_classes.py:208-236) with an explicit
    accumulator (the mutable default argument of the source is the
    accumulator of the previous call; see [get_class_hierarchy_default]).
    It reads only the class table. *)
Definition mem_cid (c : cid) (l : list cid) : bool := existsb (Nat.eqb c) l.
Fixpoint hier_n (n : nat) (c : cid) (out : list cid) : M (list cid) :=
  match n with
  | O => raise RecursionError
  | S n' =>
    sup <- gets (fun h => superset_class h c) ;;
    istop <- issubclass_m sup cTop ;;
    out1 <- (match sup with
             | Some s => if negb istop && negb (mem_cid s out) then hier_n n' s out else ret out
             | None => ret out
             end) ;;
    let out2 := if mem_cid c out1 then out1 else (out1 ++ [c])%list in
    sub <- gets (fun h => subset_class h c) ;;
    isbot <- issubclass_m sub cBottom ;;
    match sub with
    | Some s => if negb isbot then hier_n n' s out2 else ret out2
    | None => ret out2
    end
  end.
Definition get_class_hierarchy (c : cid) (out : list cid) : M (list cid) := fun h =>
  hier_n (2 * List.length (h_cls h) + 2) c out h.
