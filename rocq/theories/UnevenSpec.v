(** * UnevenSpec: what the properties of reading a text grid whose rows differ in
    extent talk about. *)
From Verif Require Export TripSpec LevelSpec.
Open Scope Z_scope.

(** A row of tiers and their classes that nest and last from [lo] to [hi]. *)
Definition nesting (h : heap) (lo hi : Z) (row : list rawtier) (ocs : list cid) : Prop :=
  List.length row = List.length ocs /\ exists cs rs, nested_as h lo hi (combine row ocs) cs rs.
(** The entries [l], from [lo] to [hi], with an empty one before them from [s0],
    unless they start then, and one after them to [e1], unless their end is near
    [s1]. *)
Definition widens `{Env} (s0 s1 e1 lo hi : Z) (l l' : list entry) : Prop :=
  exists front back, l' = (front ++ l ++ back)%list /\
    (near lo s0 /\ front = [] \/ ~ near lo s0 /\ front = [ERaw (Some s0) (Some lo) EmptyString]) /\
    (near hi s1 /\ back = [] \/ ~ near hi s1 /\ back = [ERaw (Some hi) (Some e1) EmptyString]).
(** The tier [k] has the name of [r] and one interval for each entry of [r] so
    widened, in order. *)
Definition widened_as `{Env} (s0 s1 e1 lo hi : Z) (h : heap) (r : rawtier) (k : tid) : Prop :=
  t_name (tob h k) = rt_name r /\ issubclass h (t_ec (tob h k)) cInterval = true /\
  (forall x, In x (t_seq (tob h k)) -> issubclass h (s_cls (sob h x)) cPoint = false) /\
  exists l', widens s0 s1 e1 lo hi (rt_entries r) l' /\ Forall2 (stands_for h) l' (t_seq (tob h k)).
(** The group [g] holds the tiers of the row so widened, in the order of their
    classes, which are renamed by [f]. *)
Definition widened_group `{Env} (s0 s1 e1 lo hi : Z) (f : cid -> cid) (h h' : heap) (rc : list rawtier * list cid) (g : gid) : Prop :=
  g_points (gob h' g) = false /\
  exists cs rs, nested_as h lo hi (combine (fst rc) (snd rc)) cs rs /\
    map (fun t => t_ec (tob h' t)) (g_tiers (gob h' g)) = map f cs /\
    Forall2 (widened_as s0 s1 e1 lo hi h') rs (g_tiers (gob h' g)).
(** The tier [o] written is the tier [r], so widened. *)
Definition wrote_wide `{Env} (s0 s1 e1 lo hi : Z) (r : rawtier) (o : string * list (bool * option Z * option Z * string)) : Prop :=
  fst o = rt_name r /\ exists l', widens s0 s1 e1 lo hi (rt_entries r) l' /\ snd o = map (shown false) l'.
(** The tiers [snd out] written are those of the row, in the order [fst out] of
    their classes, so widened. *)
Definition wrote_row_wide `{Env} (s0 s1 e1 lo hi : Z) (h : heap) (rc : list rawtier * list cid)
    (out : list rawtier * list (string * list (bool * option Z * option Z * string))) : Prop :=
  (exists cs, nested_as h lo hi (combine (fst rc) (snd rc)) cs (fst out)) /\ Forall2 (wrote_wide s0 s1 e1 lo hi) (fst out) (snd out).
