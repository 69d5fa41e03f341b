(** * RaggedSpec: what the property of relating tiers with gaps talks about. *)
From Verif Require Export MendSpec SnapSpec GrowSpec.
Open Scope Z_scope.

(** The intervals of each block of [bs] follow each other inside the interval of
    [U] at the same place; blocks may be empty and have gaps. *)
Definition nested (h : heap) (U : list oid) (bs : list (list oid)) : Prop :=
  Forall2 (fun u b => exists s e, s_start (sob h u) = Some s /\ s_end (sob h u) = Some e /\ s < e /\ runs h s b e) U bs.
(** All but the first of [b] start, up to the tolerance, where the first ends. *)
Definition bunched `{Env} (h : heap) (b : list oid) : Prop :=
  forall x l y e s, b = x :: l -> In y l -> s_end (sob h x) = Some e -> s_start (sob h y) = Some s -> near s e.
(** [plugged h h' c b m]: [m] is [b] with a new interval of class [c] in each gap
    between two neighbours, however small. *)
Inductive plugged (h h' : heap) (c : cid) : list oid -> list oid -> Prop :=
  | plugged_one x : plugged h h' c [x] [x]
  | plugged_next x y l m a : s_end (sob h x) = Some a -> s_start (sob h y) = Some a -> plugged h h' c (y :: l) m ->
      plugged h h' c (x :: y :: l) (x :: m)
  | plugged_gap x y l m a b w : s_end (sob h x) = Some a -> s_start (sob h y) = Some b -> a < b -> blank h h' c w a b ->
      plugged h h' c (y :: l) m -> plugged h h' c (x :: y :: l) (x :: w :: m).
(** The gaps inside [b] are closed, unless [b] is bunched. *)
Definition closed `{Env} (h h' : heap) (c : cid) (b m : list oid) : Prop :=
  bunched h b /\ m = b \/ ~ bunched h b /\ plugged h h' c b m.
(** One new interval from [p] to [q] if [sq] and the times [x] and [y] differ, else nothing. *)
Definition edge `{Env} (sq : bool) (h h' : heap) (c : cid) (x y p q : Z) (l : list oid) : Prop :=
  (sq = false \/ near x y) /\ l = [] \/ sq = true /\ ~ near x y /\ exists w, l = [w] /\ blank h h' c w p q.
(** What becomes of the block [b] of [u]: the children of [u] are [k]; [ns] are
    those of them that the tier below did not have but has now. *)
Definition rehoused `{Env} (sq : bool) (h h' : heap) (c : cid) (u : oid) (b k ns : list oid) : Prop :=
  s_subset (sob h' u) = k /\ (forall y, In y k -> s_super (sob h' y) = Some u) /\
  exists s e, s_start (sob h u) = Some s /\ s_end (sob h u) = Some e /\
   (b = [] /\ (exists w, k = [w] /\ ns = [w] /\ blank h h' c w s e) \/
    exists a z m l r, (exists f, hd_error b = Some f /\ s_start (sob h f) = Some a) /\ (exists f, hd_error (rev b) = Some f /\ s_end (sob h f) = Some z) /\
      closed h h' c b m /\ edge sq h h' c s a s a l /\ edge sq h h' c e z z e r /\ k = (l ++ m ++ r)%list /\ ns = (l ++ r)%list).
(** The time the intervals of [b] take once the gaps inside are closed. *)
Definition duration (h : heap) (x : oid) : Z := snd (span_of h x) - fst (span_of h x).
Definition takes `{Env} (h : heap) (b : list oid) (d : Z) : Prop :=
  bunched h b /\ d = fold_right Z.add 0 (map (duration h) b) \/
  ~ bunched h b /\ exists f l a z, hd_error b = Some f /\ hd_error (rev b) = Some l /\ s_start (sob h f) = Some a /\ s_end (sob h l) = Some z /\ d = z - a.
(** Some block takes, beyond the tolerance, another time than its interval. *)
Definition uneven `{Env} (h : heap) (U : list oid) (bs : list (list oid)) : Prop :=
  exists i u b d, nth_error U i = Some u /\ nth_error bs i = Some b /\ takes h b d /\ ~ near (duration h u) d.
(** The entries of the tier know it, and it keeps them as intervals of its class. *)
Definition at_home (h : heap) (t : tid) : Prop :=
  classed h t /\ forall x, In x (t_seq (tob h t)) -> s_intier (sob h x) = Some t.
(** Nothing but the group [g] of the tiers [t] and [d], entries of [d], the children of
    entries of [t], and the parent of the objects [K] is different. *)
Definition only_rehouses (g : gid) (t d : tid) (K : list oid) (h h' : heap) : Prop :=
  (forall i, (i < List.length (h_seq h))%nat ->
     s_cls (sob h' i) = s_cls (sob h i) /\ s_start (sob h' i) = s_start (sob h i) /\ s_end (sob h' i) = s_end (sob h i) /\ s_label (sob h' i) = s_label (sob h i) /\
     (~ In i (t_seq (tob h t)) -> s_subset (sob h' i) = s_subset (sob h i)) /\ (~ In i K -> s_super (sob h' i) = s_super (sob h i))) /\
  (forall i, (List.length (h_seq h) <= i < List.length (h_seq h'))%nat -> ~ In i K -> is_boundary h' i) /\
  h_cls h' = h_cls h /\ h_grid h' = h_grid h /\ List.length (h_tier h') = List.length (h_tier h) /\
  (forall w, w <> t -> w <> d -> tob h' w = tob h w) /\ t_seq (tob h' t) = t_seq (tob h t) /\
  (forall w, w = t \/ w = d -> t_within (tob h' w) = Some (WGroup g) /\ t_ec (tob h' w) = t_ec (tob h w) /\ t_name (tob h' w) = t_name (tob h w) /\
     t_super (tob h' w) = t_super (tob h w) /\ t_sub (tob h' w) = t_sub (tob h w)) /\
  g = List.length (h_grp h) /\ List.length (h_grp h') = S g /\ (forall k, (k < g)%nat -> gob h' k = gob h k).
