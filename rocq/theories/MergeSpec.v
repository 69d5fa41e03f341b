(** * MergeSpec: what the properties of fusing the intervals of a grid talk about. *)
From Verif Require Export FuseSpec PluckSpec ReviseSpec.
Open Scope Z_scope.

(** ** What is to be seen of it *)

(** What praatio is given of an interval; the start, the end and the label. *)
Definition shape : Type := bool * option Z * option Z * string.
Definition begins (v : shape) : option Z := match v with (_, s, _, _) => s end.
Definition finishes (v : shape) : option Z := match v with (_, _, e, _) => e end.
Definition reads (v : shape) : string := match v with (_, _, _, l) => l end.
(** One interval in place of two. *)
Definition one_shape (jn : string -> string -> string) (v w : shape) : shape :=
  match v with (k, s, _, _) => (k, s, finishes w, jn (reads v) (reads w)) end.
(** The entries number [j] and [j + 1] become one. *)
Fixpoint merge_at (jn : string -> string -> string) (j : nat) (l : list shape) : list shape :=
  match j, l with
  | O, v :: w :: r => one_shape jn v w :: r
  | S j', v :: r => v :: merge_at jn j' r
  | _, _ => l
  end.
(** Change entry number [i], or the last one. *)
Fixpoint on_nth {A} (i : nat) (f : A -> A) (l : list A) : list A :=
  match i, l with
  | _, [] => []
  | O, x :: r => f x :: r
  | S i', x :: r => x :: on_nth i' f r
  end.
Definition on_last {A} (f : A -> A) (l : list A) : list A := on_nth (List.length l - 1) f l.

(** ** The fusions *)

(** The entries number [j] and [j + 1] of the last tier of group number [i] of the
    grid are fused, by [fuse_rightwards] of the first or [fuse_leftwards] of the
    second, with the function [jn] for the labels. *)
Record fusion := Fusion { fu_right : bool; fu_group : nat; fu_at : nat; fu_jn : string -> string -> string }.
Definition fused_entry (h : heap) (a : aid) (f : fusion) : option oid :=
  match nth_error (a_groups (aob h a)) (fu_group f) with
  | Some g => match hd_error (rev (g_tiers (gob h g))) with
              | Some k => nth_error (t_seq (tob h k)) (if fu_right f then fu_at f else S (fu_at f))
              | None => None
              end
  | None => None
  end.
Definition make_fusion `{Env} (a : aid) (f : fusion) : M unit :=
  x <- gets (fun h => fused_entry h a f) ;;
  match x with Some x => fuse (fu_right f) (fu_jn f) x | None => raise IndexError end.
Definition make_fusions `{Env} (a : aid) (fs : list fusion) : M unit := forM fs (make_fusion a).
Definition fuse_view (f : fusion) (v : list (option string * list strip)) : list (option string * list strip) :=
  on_nth (fu_group f) (fun g => (fst g, on_last (fun s : strip => (fst s, merge_at (fu_jn f) (fu_at f) (snd s))) (snd g))) v.
(** The two entries are there and lie in one entry of the tier above, in a group
    with a tier of each of the classes named [names]; the new label is not "#". *)
Definition spans_both (u v w : shape) : Prop :=
  exists s a b e, begins u = Some s /\ begins v = Some a /\ finishes w = Some b /\ finishes u = Some e /\ s <= a /\ b <= e.
Definition can_fuse (names : list string) (v : list (option string * list strip)) (f : fusion) : Prop :=
  exists nm ss up low x y, nth_error v (fu_group f) = Some (nm, ss ++ [up; low])%list /\
    map (fun s : strip => fst (fst s)) (ss ++ [up; low]) = names /\
    nth_error (snd low) (fu_at f) = Some x /\ nth_error (snd low) (S (fu_at f)) = Some y /\
    fu_jn f (reads x) (reads y) <> "#"%string /\ exists u, In u (snd up) /\ spans_both u x y.
Fixpoint can_fuse_all (names : list string) (v : list (option string * list strip)) (fs : list fusion) : Prop :=
  match fs with
  | [] => True
  | f :: r => can_fuse names v f /\ can_fuse_all names (fuse_view f v) r
  end.

(** The intervals of a tier know their tier; so do those of the last tiers. *)
Definition at_home (h : heap) (t : tid) : Prop := forall x, In x (t_seq (tob h t)) -> s_intier (sob h x) = Some t.
Definition lodged (h : heap) (g : gid) : Prop :=
  forall k x, hd_error (rev (g_tiers (gob h g))) = Some k -> In x (t_seq (tob h k)) -> s_intier (sob h x) = Some k.
Definition all_lodged (h : heap) (a : aid) (cs : list cid) : Prop :=
  forall g, In g (a_groups (aob h a)) -> full_group h cs g -> lodged h g.
