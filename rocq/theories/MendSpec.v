(** * MendSpec: what the properties of filling the gaps between the children of
    an interval talk about. *)
From Verif Require Export ChildSpec.
Open Scope Z_scope.

(** The intervals [l] follow each other between the times [a] and [z]. *)
Fixpoint runs (h : heap) (a : Z) (l : list oid) (z : Z) : Prop :=
  match l with
  | [] => a <= z
  | x :: r => exists s e, s_start (sob h x) = Some s /\ s_end (sob h x) = Some e /\ a <= s /\ s < e /\ runs h e r z
  end.
(** The intervals [l] reach from [a] to [z] without a gap, up to the tolerance. *)
Fixpoint snug_row `{Env} (h : heap) (a : Z) (l : list oid) (z : Z) : Prop :=
  match l with
  | [] => near z a
  | x :: r => exists s e, s_start (sob h x) = Some s /\ s_end (sob h x) = Some e /\ near a s /\ snug_row h e r z
  end.
(** [w] did not exist in [h]; in [h'] it is an interval of class [c] from [a] to
    [b] without label and without children. *)
Definition blank (h h' : heap) (c : cid) (w : oid) (a b : Z) : Prop :=
  (List.length (h_seq h) <= w < List.length (h_seq h'))%nat /\ s_cls (sob h' w) = c /\ s_label (sob h' w) = EmptyString /\
  s_start (sob h' w) = Some a /\ s_end (sob h' w) = Some b /\ s_subset (sob h' w) = [].
(** [mended h h' c a l z b]: [b] is [l] with a new interval wherever [l] has a
    gap on its way from [a] to [z]. *)
Inductive mended `{Env} (h h' : heap) (c : cid) : Z -> list oid -> Z -> list oid -> Prop :=
  | mended_end a z : near z a -> mended h h' c a [] z []
  | mended_last a z w : ~ near z a -> blank h h' c w a z -> mended h h' c a [] z [w]
  | mended_next a x s e l z b : s_start (sob h x) = Some s -> s_end (sob h x) = Some e -> near a s ->
      mended h h' c e l z b -> mended h h' c a (x :: l) z (x :: b)
  | mended_gap a x s e l z b w : s_start (sob h x) = Some s -> s_end (sob h x) = Some e -> ~ near a s -> blank h h' c w a s ->
      mended h h' c e l z b -> mended h h' c a (x :: l) z (w :: x :: b).
(** From [h] to [h'] no class, tier, group or grid is different, the intervals
    other than [u] and those in [b] are not either, those in [b] that existed differ in
    parent and neighbours only, and what is new and not in [b] are boundaries. *)
Definition only_inside (h h' : heap) (u : oid) (b : list oid) : Prop :=
  h_cls h' = h_cls h /\ h_tier h' = h_tier h /\ h_grp h' = h_grp h /\ h_grid h' = h_grid h /\
  (List.length (h_seq h) <= List.length (h_seq h'))%nat /\
  (forall i, (i < List.length (h_seq h))%nat -> i <> u -> ~ In i b -> sob h' i = sob h i) /\
  (forall i, (i < List.length (h_seq h))%nat -> In i b -> same_but_home (sob h i) (sob h' i)) /\
  forall i, (List.length (h_seq h) <= i < List.length (h_seq h'))%nat -> ~ In i b -> is_boundary h' i.
(** The classes [cs] are the ones below [c], down to the last. *)
Fixpoint classes_below (h : heap) (c : cid) (cs : list cid) : Prop :=
  match cs with
  | [] => exists d, subset_class h c = Some d /\ issubclass h d cBottom = true
  | d :: r => subset_class h c = Some d /\ issubclass h d cBottom = false /\ issubclass h d cInterval = true /\
              issubclass h d cPoint = false /\ classes_below h d r
  end.
(** Below [u] there is one new interval of each of the classes [cs], each the only
    child of the one above, all from [a] to [b]; [ws] are these intervals. *)
Fixpoint lined (h h' : heap) (u : oid) (cs : list cid) (a b : Z) (ws : list oid) : Prop :=
  match cs, ws with
  | [], [] => s_subset (sob h' u) = []
  | c :: r, w :: q =>
    (List.length (h_seq h) <= w < List.length (h_seq h'))%nat /\ s_cls (sob h' w) = c /\ s_label (sob h' w) = EmptyString /\
    s_start (sob h' w) = Some a /\ s_end (sob h' w) = Some b /\ s_subset (sob h' u) = [w] /\
    s_super (sob h' w) = Some u /\ s_within (sob h' w) = Some (WSeq u) /\ chained h' [w] /\ lined h h' w r a b q
  | _, _ => False
  end.
