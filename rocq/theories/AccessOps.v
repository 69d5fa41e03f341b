(** * AccessOps: indexing with [[]] and [for] loops.

    Model of [__getitem__] of tiers, groups and grids and of the iteration
    protocol of intervals ([__iter__], [__next__]), which keeps its position in
    the attribute [current] of the interval itself. *)
From Verif Require Export GridOps.
Open Scope Z_scope.

Section WithEnv.
Context `{Env}.

(** ** Indexing *)

(** What the library's users put between the brackets: a Python int, an integer
    of numpy (as [get_nearest_point_index] returns it), None, or a list of such.
    Slices, tuples and other types are not modelled. *)
Inductive index := IInt (i : Z) | INumpy (i : Z) | INone | IList (l : list index).
(** What comes out. *)
Inductive item := VGroup (g : gid) | VTier (t : tid) | VEntry (x : oid) | VList (l : list item).

(** [l[i]] of a Python list: int and numpy integers index it (negative ones from
    the end), with anything else TypeError. *)
Definition list_get {A} (l : list A) (i : index) : M A :=
  match i with
  | IInt z | INumpy z => of_opt IndexError (py_index l z)
  | INone | IList _ => raise TypeError
  end.
(** [tier[idx]] (tiers.py:131-132, points/tiers.py:110-111) with
    [SequenceList.__getitem__] (sequence_list.py:50-51). *)
Definition tier_get (t : tid) (i : index) : M item :=
  o <- get_tier t ;; x <- list_get (t_seq o) i ;; ret (VEntry x).
(** [[f(x, y) for x, y in zip(l, k)]]. *)
Fixpoint zipM {A B C} (f : A -> B -> M C) (l : list A) (k : list B) : M (list C) :=
  match l, k with
  | x :: l', y :: k' => z <- f x y ;; r <- zipM f l' k' ;; ret (z :: r)
  | _, _ => ret []
  end.
(** [group[idx]] (tiers.py:507-519, points/tiers.py:254-266): [type(idx) is int]
    fails for integers of numpy; [len] of these and of None is a TypeError. *)
Definition grp_get (g : gid) (i : index) : M item :=
  o <- get_grp g ;;
  match i with
  | IInt _ => t <- list_get (g_tiers o) i ;; ret (VTier t)
  | INumpy _ | INone => raise TypeError
  | IList l =>
      if negb (List.length l =? List.length (g_tiers o))%nat then raise PyException
      else r <- zipM (fun x t => tier_get t x) l (g_tiers o) ;; ret (VList r)
  end.
(** [grid[idx]] (aligned_textgrid.py:89-103). *)
Definition grid_get (a : aid) (i : index) : M item :=
  o <- get_grid a ;;
  match i with
  | IInt _ => g <- list_get (a_groups o) i ;; ret (VGroup g)
  | INumpy _ | INone => raise TypeError
  | IList l =>
      if negb (List.length l =? List.length (a_groups o))%nat then raise IndexError
      else match l with
           | [] => raise IndexError
           | _ => r <- zipM (fun x g => grp_get g x) l (a_groups o) ;; ret (VList r)
           end
  end.
(** The list [group.get_intervals_at_time(time)] as a Python value: a group of
    intervals answers with ints (tiers.py:300), a group of points with integers of
    numpy (points/tiers.py:185-186). *)
Definition answer_index (points : bool) (r : option nat) : index :=
  match r with
  | Some i => if points then INumpy (Z.of_nat i) else IInt (Z.of_nat i)
  | None => INone
  end.
(** [grid[grid.get_intervals_at_time(time)]]. *)
Definition grid_get_at_time (a : aid) (time : Z) : M item :=
  r <- grid_intervals_at_time time a ;;
  o <- get_grid a ;;
  pts <- gets (fun h => map (fun g => g_points (gob h g)) (a_groups o)) ;;
  grid_get a (IList (map (fun p => IList (map (answer_index (fst p)) (snd p))) (combine pts r))).

(** ** Loops over intervals *)

(** The heap together with the attribute [current] of every interval. *)
Record walk := Walk { w_heap : heap; w_cur : oid -> nat }.
Inductive wres (A : Type) := WOk (a : A) (w : walk) | WRaise (e : exn) (w : walk).
Global Arguments WOk {A} a w.
Global Arguments WRaise {A} e w.
Definition W (A : Type) := walk -> wres A.
Definition set_cur (x : oid) (i : nat) (w : walk) : walk :=
  Walk (w_heap w) (fun y => if (y =? x)%nat then i else w_cur w y).
(** A method that does not touch [current]. *)
Definition lift {A} (m : M A) : W A := fun w =>
  match m (w_heap w) with Ok a h => WOk a (Walk h (w_cur w)) | Raise e h => WRaise e (Walk h (w_cur w)) end.
(** [x.__iter__()] (sequences.py:419-421). *)
Definition iter_start (x : oid) (w : walk) : walk := set_cur x 0 w.
(** [x.__next__()] (426-432); None stands for StopIteration. *)
Definition iter_next (x : oid) (w : walk) : option oid * walk :=
  match nth_error (s_subset (sob (w_heap w) x)) (w_cur w x) with
  | Some y => (Some y, set_cur x (S (w_cur w x)) w)
  | None => (None, w)
  end.
(** [[body(y) for y in x]], together with the [y]s; at most [n] rounds, then Diverge. *)
Fixpoint go_on {A} (n : nat) (x : oid) (body : oid -> W A) : W (list (oid * A)) := fun w =>
  match n with
  | O => WRaise Diverge w
  | S n' =>
    match iter_next x w with
    | (None, w1) => WOk [] w1
    | (Some y, w1) =>
      match body y w1 with
      | WRaise e w2 => WRaise e w2
      | WOk v w2 =>
        match go_on n' x body w2 with
        | WRaise e w3 => WRaise e w3
        | WOk r w3 => WOk ((y, v) :: r) w3
        end
      end
    end
  end.
Definition for_in {A} (n : nat) (x : oid) (body : oid -> W A) : W (list (oid * A)) :=
  fun w => go_on n x body (iter_start x w).
End WithEnv.
