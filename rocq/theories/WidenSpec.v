(** * WidenSpec: what the properties of levelling groups with gaps talk about. *)
From Verif Require Export UnevenSpec.
Open Scope Z_scope.

(** A group in good order from [lo] to [hi], whose tiers know their classes. *)
Definition fill_ready `{Env} (n : nat) (h : heap) (lo hi : Z) (g : gid) : Prop :=
  tidy_ready n h lo hi g /\ forall u, In u (g_tiers (gob h g)) -> classed h u /\ issubclass h (t_ec (tob h u)) cInterval = true.
(** The entries [l] of a tier of the row with its gaps filled, if some tier of the
    row has a gap that is not within the tolerance, and else as they are. *)
Definition mended `{Env} (row : list rawtier) (l m : list entry) : Prop :=
  (exists r, In r row /\ raw_gap (rt_entries r)) /\ m = plugged l \/ gapless row /\ m = l.
(** The tier [k] has the name of [r] and one interval for each entry of [r], with
    gaps filled and then widened, in order. *)
Definition remade_as `{Env} (s0 s1 e1 lo hi : Z) (row : list rawtier) (h : heap) (r : rawtier) (k : tid) : Prop :=
  t_name (tob h k) = rt_name r /\ issubclass h (t_ec (tob h k)) cInterval = true /\
  (forall x, In x (t_seq (tob h k)) -> issubclass h (s_cls (sob h x)) cPoint = false) /\
  exists m l', mended row (rt_entries r) m /\ widens s0 s1 e1 lo hi m l' /\ Forall2 (stands_for h) l' (t_seq (tob h k)).
(** The group [g] holds the tiers of the row so remade, in the order of their
    classes, which are renamed by [f]. *)
Definition remade_group `{Env} (s0 s1 e1 lo hi : Z) (f : cid -> cid) (h h' : heap) (rc : list rawtier * list cid) (g : gid) : Prop :=
  g_points (gob h' g) = false /\
  exists cs rs, nested_as h lo hi (combine (fst rc) (snd rc)) cs rs /\
    map (fun t => t_ec (tob h' t)) (g_tiers (gob h' g)) = map f cs /\
    Forall2 (remade_as s0 s1 e1 lo hi (fst rc) h') rs (g_tiers (gob h' g)).
(** The tier [o] written is the tier [r], so remade. *)
Definition wrote_remade `{Env} (s0 s1 e1 lo hi : Z) (row : list rawtier) (r : rawtier) (o : string * list (bool * option Z * option Z * string)) : Prop :=
  fst o = rt_name r /\ exists m l', mended row (rt_entries r) m /\ widens s0 s1 e1 lo hi m l' /\ snd o = map (shown false) l'.
(** The tiers [snd out] written are those of the row, in the order [fst out] of
    their classes, so remade. *)
Definition wrote_row_remade `{Env} (s0 s1 e1 lo hi : Z) (h : heap) (rc : list rawtier * list cid)
    (out : list rawtier * list (string * list (bool * option Z * option Z * string))) : Prop :=
  (exists cs, nested_as h lo hi (combine (fst rc) (snd rc)) cs (fst out)) /\ Forall2 (wrote_remade s0 s1 e1 lo hi (fst rc)) (fst out) (snd out).
