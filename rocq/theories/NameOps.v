(** * NameOps: groups as attributes of a grid ([grid.KY25A]).

    Model of [_set_group_names] (aligned_textgrid.py:346-365) and of the methods
    of grids that do or do not call it.  A name that is also the name of a method
    or property of grids is not modelled (it would replace the method, or fail). *)
From Verif Require Export GridOps.
Open Scope Z_scope.

Section WithEnv.
Context `{Env}.

(** The heap together with the attributes given to every grid by [setattr]; the
    last one given comes first. *)
Record desk := Desk { d_heap : heap; d_attr : aid -> list (string * gid) }.
Inductive dres (A : Type) := DOk (a : A) (d : desk) | DRaise (e : exn) (d : desk).
Global Arguments DOk {A} a d.
Global Arguments DRaise {A} e d.
Definition D (A : Type) := desk -> dres A.
Definition dret {A} (a : A) : D A := fun d => DOk a d.
Definition dbind {A B} (m : D A) (f : A -> D B) : D B := fun d =>
  match m d with DOk a d1 => f a d1 | DRaise e d1 => DRaise e d1 end.
(** A method that gives no attributes. *)
Definition plainly {A} (m : M A) : D A := fun d =>
  match m (d_heap d) with Ok a h => DOk a (Desk h (d_attr d)) | Raise e h => DRaise e (Desk h (d_attr d)) end.

(** [setattr(grid, name, g)]; the name must be a string. *)
Definition set_attr (a : aid) (nm : option string) (g : gid) : D unit := fun d =>
  match nm with
  | Some s => DOk tt (Desk (d_heap d) (fun k => if (k =? a)%nat then (s, g) :: d_attr d a else d_attr d k))
  | None => DRaise TypeError d
  end.
(** [grid.name]; None stands for AttributeError. *)
Definition by_name (d : desk) (a : aid) (nm : string) : option gid :=
  match List.find (fun p => String.eqb (fst p) nm) (d_attr d a) with Some (_, g) => Some g | None => None end.

(** [_set_group_names] (346-365). *)
Fixpoint set_attrs (a : aid) (l : list (option string * gid)) : D unit :=
  match l with
  | [] => dret tt
  | (nm, g) :: r => dbind (set_attr a nm g) (fun _ => set_attrs a r)
  end.
Fixpoint repeated {A} `{EqDecision A} (l : list A) : bool :=
  match l with [] => false | x :: r => bool_decide (x ∈ r) || repeated r end.
Definition name_groups (a : aid) : D unit :=
  dbind (plainly (gets (fun h => a_groups (aob h a)))) (fun gs =>
  dbind (plainly (mapM grp_name gs)) (fun nms =>
  if repeated nms then dret tt else set_attrs a (combine nms gs))).

(** [append] (406-457) ends with it ([grid_append] evaluates the names, which are
    kept in the groups; evaluating them again gives the same). *)
Definition grid_append_named (n : nat) (a : aid) (g : gid) : D unit :=
  dbind (plainly (grid_append n a g)) (fun _ => name_groups a).
(** So does the constructor (61-87). *)
Definition grid_of_textgrid_named (n : nat) (tg : list rawtier) (ecs : eclasses) : D aid :=
  dbind (plainly (new_grid_textgrid n tg ecs)) (fun a =>
  match tg with [] => dret a | _ => dbind (name_groups a) (fun _ => dret a) end).
(** [pop_class] (652-733) and [interleave_class] (528-650) do not. *)
Definition pop_class_named (n : nat) (a : aid) (nm : string) : D unit := plainly (pop_class n a nm).
Definition interleave_class_named (n : nat) (a : aid) (nm : string) (above : bool) (nm2 : string) (from_below labels : bool) : D unit :=
  plainly (interleave_class n a nm above nm2 from_below labels).
End WithEnv.
