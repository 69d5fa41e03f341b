(** * Base: heap, exceptions, numpy primitives.

    Everything in this file is shared vocabulary for the model of
    alignedTextGrid (sources under /repo/src/aligned_textgrid, abbreviated
    [src/] below).  No proofs here. *)
From Coq Require Export ZArith String List Bool Arith Lia Permutation.
From stdpp Require Export base list strings.
Export ListNotations.
Set Default Goal Selector "1".
Open Scope Z_scope.
Open Scope list_scope.

(** ** Environment: what the code obtains from outside Python

    - [argsort] models [numpy.argsort] with its default, unstable sort kind:
      the only thing assumed is that it returns a permutation of the indices
      that sorts the array (sequence_list.py:111, points/tiers.py:328).
    - [fadd] is the floating point addition used by time shifts
      (sequences.py:522-526, tiers.py:215-217, points.py:167-168): the only
      thing assumed is monotonicity, which IEEE-754 rounding guarantees.
      Exact addition [Z.add] is one instance.
    - [atol] is numpy's absolute tolerance 1e-8 measured in time ticks.
    - [match_name] is [get_longest_name_string] (tiermixins.py:344-355), i.e.
      the first matching block found by difflib: an arbitrary function. *)
Class Env := {
  argsort : list Z -> list nat;
  argsort_perm : forall l, Permutation (argsort l) (seq 0 (List.length l));
  argsort_sorts : forall l i j, (i < j < List.length l)%nat ->
      nth (nth i (argsort l) 0%nat) l 0 <= nth (nth j (argsort l) 0%nat) l 0;
  fadd : Z -> Z -> Z;
  fadd_mono : forall a b c, a <= b -> fadd a c <= fadd b c;
  atol : Z;
  atol_nonneg : 0 <= atol;
  match_name : string -> string -> string
}.

(** numpy.isclose / allclose on scalars with the default tolerances:
    |a - b| <= atol + rtol * |b| with rtol = 1e-5.  Simplification: the
    arithmetic is exact, not rounded. *)
Definition isclose `{Env} (a b : Z) : bool :=
  100000 * Z.abs (a - b) <=? 100000 * atol + Z.abs b.

(** numpy.allclose on two arrays of equal length. *)
Fixpoint allclose `{Env} (a b : list Z) : bool :=
  match a, b with
  | x :: a', y :: b' => isclose x y && allclose a' b'
  | _, _ => true
  end.

(** ** Objects *)
Notation oid := nat (only parsing).   (* SequenceInterval / SequencePoint instances *)
Notation tid := nat (only parsing).   (* SequenceTier / SequencePointTier instances *)
Notation gid := nat (only parsing).   (* TierGroup / PointsGroup instances *)
Notation aid := nat (only parsing).   (* AlignedTextGrid instances *)
Notation cid := nat (only parsing).   (* classes *)

(** Reference held in [_within] (mixins/within.py:30-38). *)
Inductive wref := WSeq (o : oid) | WTier (t : tid) | WGroup (g : gid) | WGrid (a : aid).

(** The [_contains] attribute (mixins/within.py:40-53): unset, the very same
    list object as the owner's current list, or some other list. *)
Inductive cattr := CUnset | CAlias | CList (l : list nat).

(** An instance of SequenceInterval (sequences.py:305-411) or SequencePoint
    (points.py:19-99).  Which one is decided by its class.  A point keeps its
    time in [s_start] and has [s_end = None].  Labels are strings; the label
    [None] of a default-constructed interval is not modelled.
    [s_subset]/[s_subec] are [_subset_list._values] and
    [_subset_list.entry_class]. *)
Record seqobj := SeqObj {
  s_cls : cid;
  s_start : option Z;
  s_end : option Z;
  s_label : string;
  s_fol : option oid;
  s_prev : option oid;
  s_super : option oid;
  s_subset : list oid;
  s_subec : option cid;
  s_intier : option tid;
  s_within : option wref;
  s_contains : cattr
}.

(** What may be handed to a tier constructor: an existing interval/point, or
    raw data (a praatio Interval/Point or a tuple), which [_cast] turns into a
    new object (mixins.py:20-33).  Raw points have no end. *)
Inductive entry := EObj (o : oid) | ERaw (st : option Z) (en : option Z) (lab : string).

(** SequenceTier (sequences/tiers.py:82-116) or SequencePointTier
    (points/tiers.py:69-108).  [t_entries] is the [entry_list] attribute. *)
Record tierobj := TierObj {
  t_ec : cid;
  t_super : option cid;
  t_sub : option cid;
  t_name : string;
  t_entries : list entry;
  t_seq : list oid;
  t_seqec : option cid;
  t_within : option wref;
  t_contains : cattr
}.

(** TierGroup (sequences/tiers.py:367-505) or PointsGroup
    (points/tiers.py:243-252). [g_points] tells them apart. *)
Record grpobj := GrpObj {
  g_points : bool;
  g_tiers : list tid;
  g_within : option wref;
  g_contains : cattr;
  g_name : option string
}.

(** AlignedTextGrid (aligned_textgrid.py:61-87). *)
Record gridobj := GridObj {
  a_groups : list gid;
  a_cloned : list cid
}.

(** A class attribute: defined in the class's own [__dict__], or inherited. *)
Inductive cattrib := Inherit | Own (v : option cid).

(** A class.  Single inheritance is enough: the only mixin that matters to
    [issubclass] tests is HierarchyPart, an ancestor of SequenceInterval. *)
Record clsobj := ClsObj {
  c_name : string;
  c_base : option cid;
  c_super : cattrib;
  c_sub : cattrib
}.

Record heap := Heap {
  h_cls : list clsobj;
  h_seq : list seqobj;
  h_tier : list tierobj;
  h_grp : list grpobj;
  h_grid : list gridobj
}.

(** ** Exceptions as values *)
Inductive exn :=
  | ValueError | TypeError | IndexError | AttributeError | AssertionError
  | PyException        (* a bare [raise Exception(...)] *)
  | RecursionError     (* recursion fuel exhausted: Python's stack limit *)
  | Diverge.           (* a Python [while] loop that never ends *)

Inductive res (A : Type) := Ok (a : A) (h : heap) | Raise (e : exn) (h : heap).
Global Arguments Ok {A} a h.
Global Arguments Raise {A} e h.

Definition M (A : Type) := heap -> res A.
Definition ret {A} (a : A) : M A := fun h => Ok a h.
Definition raise {A} (e : exn) : M A := fun h => Raise e h.
Definition bind {A B} (m : M A) (k : A -> M B) : M B :=
  fun h => match m h with Ok a h' => k a h' | Raise e h' => Raise e h' end.
Definition gets {A} (f : heap -> A) : M A := fun h => Ok (f h) h.
Definition modify (f : heap -> heap) : M unit := fun h => Ok tt (f h).

Declare Scope py_scope.
Delimit Scope py_scope with py.
Notation "x <- m ;; k" := (bind m (fun x => k))
  (at level 100, m at next level, right associativity) : py_scope.
Notation "m ;;; k" := (bind m (fun _ => k))
  (at level 100, right associativity) : py_scope.
Open Scope py_scope.

Definition heap_of {A} (r : res A) : heap := match r with Ok _ h | Raise _ h => h end.

(** [for x in xs: body x] over a list that the body does not resize. *)
Fixpoint forM {A} (xs : list A) (body : A -> M unit) : M unit :=
  match xs with [] => ret tt | x :: xs' => body x ;;; forM xs' body end.

Fixpoint mapM {A B} (f : A -> M B) (xs : list A) : M (list B) :=
  match xs with
  | [] => ret []
  | x :: xs' => y <- f x ;; ys <- mapM f xs' ;; ret (y :: ys)
  end.

Definition when (b : bool) (m : M unit) : M unit := if b then m else ret tt.

Definition of_opt {A} (e : exn) (o : option A) : M A :=
  match o with Some a => ret a | None => raise e end.

(** ** Heap access *)
Definition upd_seq (i : oid) (f : seqobj -> seqobj) (h : heap) : heap :=
  Heap (h_cls h) (alter f i (h_seq h)) (h_tier h) (h_grp h) (h_grid h).
Definition upd_tier (i : tid) (f : tierobj -> tierobj) (h : heap) : heap :=
  Heap (h_cls h) (h_seq h) (alter f i (h_tier h)) (h_grp h) (h_grid h).
Definition upd_grp (i : gid) (f : grpobj -> grpobj) (h : heap) : heap :=
  Heap (h_cls h) (h_seq h) (h_tier h) (alter f i (h_grp h)) (h_grid h).
Definition upd_grid (i : aid) (f : gridobj -> gridobj) (h : heap) : heap :=
  Heap (h_cls h) (h_seq h) (h_tier h) (h_grp h) (alter f i (h_grid h)).
Definition upd_cls (i : cid) (f : clsobj -> clsobj) (h : heap) : heap :=
  Heap (alter f i (h_cls h)) (h_seq h) (h_tier h) (h_grp h) (h_grid h).

(** Reads are total: a dangling id reads as a blank object.  Python references
    never dangle, and no modelled operation creates a dangling id. *)
Definition blank_seq (c : cid) (st en : option Z) (lab : string) : seqobj :=
  SeqObj c st en lab None None None [] None None None CUnset.
Definition blank_tier (c : cid) : tierobj :=
  TierObj c None None EmptyString [] [] None None CUnset.
Definition blank_grp (pts : bool) : grpobj := GrpObj pts [] None CUnset None.
Definition blank_grid : gridobj := GridObj [] [].
Definition blank_cls : clsobj := ClsObj EmptyString None (Own None) (Own None).

Definition sob (h : heap) (i : oid) : seqobj :=
  default (blank_seq 0%nat None None EmptyString) (h_seq h !! i).
Definition tob (h : heap) (i : tid) : tierobj := default (blank_tier 0%nat) (h_tier h !! i).
Definition gob (h : heap) (i : gid) : grpobj := default (blank_grp false) (h_grp h !! i).
Definition aob (h : heap) (i : aid) : gridobj := default blank_grid (h_grid h !! i).
Definition cob (h : heap) (i : cid) : clsobj := default blank_cls (h_cls h !! i).

Definition get_seq (i : oid) : M seqobj := gets (fun h => sob h i).
Definition get_tier (i : tid) : M tierobj := gets (fun h => tob h i).
Definition get_grp (i : gid) : M grpobj := gets (fun h => gob h i).
Definition get_grid (i : aid) : M gridobj := gets (fun h => aob h i).
Definition get_cls (i : cid) : M clsobj := gets (fun h => cob h i).

Definition mod_seq i f : M unit := modify (upd_seq i f).
Definition mod_tier i f : M unit := modify (upd_tier i f).
Definition mod_grp i f : M unit := modify (upd_grp i f).
Definition mod_grid i f : M unit := modify (upd_grid i f).
Definition mod_cls i f : M unit := modify (upd_cls i f).

Definition alloc_seq (o : seqobj) : M oid := fun h =>
  Ok (List.length (h_seq h))
     (Heap (h_cls h) (h_seq h ++ [o]) (h_tier h) (h_grp h) (h_grid h)).
Definition alloc_tier (o : tierobj) : M tid := fun h =>
  Ok (List.length (h_tier h))
     (Heap (h_cls h) (h_seq h) (h_tier h ++ [o]) (h_grp h) (h_grid h)).
Definition alloc_grp (o : grpobj) : M gid := fun h =>
  Ok (List.length (h_grp h))
     (Heap (h_cls h) (h_seq h) (h_tier h) (h_grp h ++ [o]) (h_grid h)).
Definition alloc_grid (o : gridobj) : M aid := fun h =>
  Ok (List.length (h_grid h))
     (Heap (h_cls h) (h_seq h) (h_tier h) (h_grp h) (h_grid h ++ [o])).
Definition alloc_cls (o : clsobj) : M cid := fun h =>
  Ok (List.length (h_cls h))
     (Heap (h_cls h ++ [o]) (h_seq h) (h_tier h) (h_grp h) (h_grid h)).

(** ** Field setters *)
Definition set_s_cls v o := SeqObj v (s_start o) (s_end o) (s_label o) (s_fol o) (s_prev o)
  (s_super o) (s_subset o) (s_subec o) (s_intier o) (s_within o) (s_contains o).
Definition set_s_start v o := SeqObj (s_cls o) v (s_end o) (s_label o) (s_fol o) (s_prev o)
  (s_super o) (s_subset o) (s_subec o) (s_intier o) (s_within o) (s_contains o).
Definition set_s_end v o := SeqObj (s_cls o) (s_start o) v (s_label o) (s_fol o) (s_prev o)
  (s_super o) (s_subset o) (s_subec o) (s_intier o) (s_within o) (s_contains o).
Definition set_s_label v o := SeqObj (s_cls o) (s_start o) (s_end o) v (s_fol o) (s_prev o)
  (s_super o) (s_subset o) (s_subec o) (s_intier o) (s_within o) (s_contains o).
Definition set_s_fol v o := SeqObj (s_cls o) (s_start o) (s_end o) (s_label o) v (s_prev o)
  (s_super o) (s_subset o) (s_subec o) (s_intier o) (s_within o) (s_contains o).
Definition set_s_prev v o := SeqObj (s_cls o) (s_start o) (s_end o) (s_label o) (s_fol o) v
  (s_super o) (s_subset o) (s_subec o) (s_intier o) (s_within o) (s_contains o).
Definition set_s_super v o := SeqObj (s_cls o) (s_start o) (s_end o) (s_label o) (s_fol o) (s_prev o)
  v (s_subset o) (s_subec o) (s_intier o) (s_within o) (s_contains o).
Definition set_s_subset v o := SeqObj (s_cls o) (s_start o) (s_end o) (s_label o) (s_fol o) (s_prev o)
  (s_super o) v (s_subec o) (s_intier o) (s_within o) (s_contains o).
Definition set_s_subec v o := SeqObj (s_cls o) (s_start o) (s_end o) (s_label o) (s_fol o) (s_prev o)
  (s_super o) (s_subset o) v (s_intier o) (s_within o) (s_contains o).
Definition set_s_intier v o := SeqObj (s_cls o) (s_start o) (s_end o) (s_label o) (s_fol o) (s_prev o)
  (s_super o) (s_subset o) (s_subec o) v (s_within o) (s_contains o).
Definition set_s_within v o := SeqObj (s_cls o) (s_start o) (s_end o) (s_label o) (s_fol o) (s_prev o)
  (s_super o) (s_subset o) (s_subec o) (s_intier o) v (s_contains o).
Definition set_s_contains v o := SeqObj (s_cls o) (s_start o) (s_end o) (s_label o) (s_fol o) (s_prev o)
  (s_super o) (s_subset o) (s_subec o) (s_intier o) (s_within o) v.

Definition set_t_ec v o := TierObj v (t_super o) (t_sub o) (t_name o) (t_entries o) (t_seq o) (t_seqec o) (t_within o) (t_contains o).
Definition set_t_super v o := TierObj (t_ec o) v (t_sub o) (t_name o) (t_entries o) (t_seq o) (t_seqec o) (t_within o) (t_contains o).
Definition set_t_sub v o := TierObj (t_ec o) (t_super o) v (t_name o) (t_entries o) (t_seq o) (t_seqec o) (t_within o) (t_contains o).
Definition set_t_name v o := TierObj (t_ec o) (t_super o) (t_sub o) v (t_entries o) (t_seq o) (t_seqec o) (t_within o) (t_contains o).
Definition set_t_entries v o := TierObj (t_ec o) (t_super o) (t_sub o) (t_name o) v (t_seq o) (t_seqec o) (t_within o) (t_contains o).
Definition set_t_seq v o := TierObj (t_ec o) (t_super o) (t_sub o) (t_name o) (t_entries o) v (t_seqec o) (t_within o) (t_contains o).
Definition set_t_seqec v o := TierObj (t_ec o) (t_super o) (t_sub o) (t_name o) (t_entries o) (t_seq o) v (t_within o) (t_contains o).
Definition set_t_within v o := TierObj (t_ec o) (t_super o) (t_sub o) (t_name o) (t_entries o) (t_seq o) (t_seqec o) v (t_contains o).
Definition set_t_contains v o := TierObj (t_ec o) (t_super o) (t_sub o) (t_name o) (t_entries o) (t_seq o) (t_seqec o) (t_within o) v.

Definition set_g_tiers v o := GrpObj (g_points o) v (g_within o) (g_contains o) (g_name o).
Definition set_g_within v o := GrpObj (g_points o) (g_tiers o) v (g_contains o) (g_name o).
Definition set_g_contains v o := GrpObj (g_points o) (g_tiers o) (g_within o) v (g_name o).
Definition set_g_name v o := GrpObj (g_points o) (g_tiers o) (g_within o) (g_contains o) v.

Definition set_a_groups v o := GridObj v (a_cloned o).
Definition set_a_cloned v o := GridObj (a_groups o) v.

Definition set_c_super v o := ClsObj (c_name o) (c_base o) v (c_sub o).
Definition set_c_sub v o := ClsObj (c_name o) (c_base o) (c_super o) v.

(** ** Class attribute lookup and [issubclass] *)

(** Python attribute lookup of [superset_class]/[subset_class] along the
    single-inheritance chain; [n] bounds the chain length. *)
Fixpoint attr_lookup (sel : clsobj -> cattrib) (n : nat) (cs : list clsobj) (c : cid) : option cid :=
  match n with
  | O => None
  | S n' =>
    match cs !! c with
    | None => None
    | Some k =>
      match sel k with
      | Own v => v
      | Inherit =>
        match c_base k with Some b => attr_lookup sel n' cs b | None => None end
      end
    end
  end.

Definition superset_class (h : heap) (c : cid) : option cid :=
  attr_lookup c_super (List.length (h_cls h)) (h_cls h) c.
Definition subset_class (h : heap) (c : cid) : option cid :=
  attr_lookup c_sub (List.length (h_cls h)) (h_cls h) c.

(** [issubclass(c, d)]: [d] is on the base chain of [c]. *)
Fixpoint is_sub (n : nat) (cs : list clsobj) (c d : cid) : bool :=
  match n with
  | O => false
  | S n' =>
    if Nat.eqb c d then true
    else match cs !! c with
         | Some k => match c_base k with Some b => is_sub n' cs b d | None => false end
         | None => false
         end
  end.
Definition issubclass (h : heap) (c d : cid) : bool :=
  is_sub (S (List.length (h_cls h))) (h_cls h) c d.

(** [issubclass(x, d)] where [x] is a class attribute that may be None. *)
Definition issubclass_m (x : option cid) (d : cid) : M bool :=
  match x with None => raise TypeError | Some c => gets (fun h => issubclass h c d) end.

(** The base class identifiers, fixed by [boot_classes] in ClassOps.v. *)
Definition cHierarchyPart : cid := 0%nat.
Definition cTop : cid := 1%nat.
Definition cBottom : cid := 2%nat.
Definition cInterval : cid := 3%nat.   (* SequenceInterval *)
Definition cPoint : cid := 4%nat.      (* SequencePoint *)

Definition is_point_cls (h : heap) (c : cid) : bool := issubclass h c cPoint.

Definition class_name (h : heap) (c : cid) : string :=
  c_name (cob h c).

(** Python's [sub in s] on strings. *)
Fixpoint str_in (sub s : string) : bool :=
  String.prefix sub s ||
  match s with EmptyString => false | String _ s' => str_in sub s' end.

(** [list.index(x)] by identity, on ids. *)
Fixpoint index_of (x : nat) (l : list nat) : option nat :=
  match l with
  | [] => None
  | y :: l' => if Nat.eqb x y then Some O
               else match index_of x l' with Some k => Some (S k) | None => None end
  end.

(** Python indexing [l[i]] with negative wrap-around. *)
Definition py_index {A} (l : list A) (i : Z) : option A :=
  if (0 <=? i) then nth_error l (Z.to_nat i)
  else if (- Z.of_nat (List.length l) <=? i)
       then nth_error l (Z.to_nat (Z.of_nat (List.length l) + i)) else None.
