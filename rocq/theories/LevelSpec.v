(** * LevelSpec: what the properties of levelling the groups of a grid talk about. *)
From Verif Require Export TidySpec.
Open Scope Z_scope.

(** An interval of class [c] from [a] to [b] without label, parent or children. *)
Definition blank_at (h : heap) (c : cid) (x : oid) (a b : Z) : Prop :=
  s_cls (sob h x) = c /\ s_start (sob h x) = Some a /\ s_end (sob h x) = Some b /\ s_label (sob h x) = EmptyString /\
  s_super (sob h x) = None /\ s_subset (sob h x) = [].
(** [l] is empty if [ok], and otherwise one new such interval. *)
Definition blank_unless (ok : Prop) (h h' : heap) (c : cid) (a b : Z) (l : list oid) : Prop :=
  ok /\ l = [] \/ ~ ok /\ exists x, l = [x] /\ (List.length (h_seq h) <= x < List.length (h_seq h'))%nat /\ blank_at h' c x a b.
(** The tier [u] of a group that lasts from [lo] to [hi] got a blank interval from
    the first start [s0] of all groups, unless it starts then, and one to the last
    end [e1], unless its end is near the last start [s1] of all groups. *)
Definition levelled `{Env} (s0 s1 e1 lo hi : Z) (h h' : heap) (u : tid) : Prop :=
  exists front back, t_seq (tob h' u) = (front ++ t_seq (tob h u) ++ back)%list /\
    blank_unless (near lo s0) h h' (t_ec (tob h u)) s0 lo front /\ blank_unless (near hi s1) h h' (t_ec (tob h u)) hi e1 back.
(** A group in good order from [lo] to [hi], without gaps, whose tiers know their
    classes. *)
Definition level_ready `{Env} (n : nat) (h : heap) (lo hi : Z) (g : gid) : Prop :=
  tidy_ready n h lo hi g /\ (forall t, hd_error (g_tiers (gob h g)) = Some t -> ~ real_gap h (t_seq (tob h t))) /\
  forall u, In u (g_tiers (gob h g)) -> classed h u /\ issubclass h (t_ec (tob h u)) cInterval = true.
(** No interval or point that existed changed but for its links and its tier, no
    tier but for its entries; nothing outside the groups [gs] and their tiers [ts]
    changed. *)
Definition level_rest (h h' : heap) (gs : list gid) (ts : list tid) : Prop :=
  h_cls h' = h_cls h /\ h_grid h' = h_grid h /\
  (forall g, g_tiers (gob h' g) = g_tiers (gob h g) /\ g_points (gob h' g) = g_points (gob h g) /\ g_within (gob h' g) = g_within (gob h g)) /\
  (forall g, ~ In g gs -> gob h' g = gob h g) /\ List.length (h_grp h') = List.length (h_grp h) /\
  (List.length (h_seq h) <= List.length (h_seq h'))%nat /\
  List.length (h_tier h') = List.length (h_tier h) /\
  (forall t, ~ In t ts -> tob h' t = tob h t) /\
  (forall t, t_ec (tob h' t) = t_ec (tob h t) /\ t_super (tob h' t) = t_super (tob h t) /\ t_sub (tob h' t) = t_sub (tob h t) /\
     t_name (tob h' t) = t_name (tob h t) /\ t_within (tob h' t) = t_within (tob h t)) /\
  (forall i, (i < List.length (h_seq h))%nat ->
     s_cls (sob h' i) = s_cls (sob h i) /\ s_start (sob h' i) = s_start (sob h i) /\ s_end (sob h' i) = s_end (sob h i) /\
     s_label (sob h' i) = s_label (sob h i) /\ s_super (sob h' i) = s_super (sob h i) /\ s_subset (sob h' i) = s_subset (sob h i)) /\
  (forall i, (i < List.length (h_seq h))%nat -> (forall t, In t ts -> ~ In i (t_seq (tob h t))) -> sob h' i = sob h i).
