(** * AddSpec: what the properties of adding tier groups talk about. *)
From Verif Require Export PopSpec GrowSpec.
Open Scope Z_scope.

(** A tier of intervals that knows its classes. *)
Definition settled (h : heap) (t : tid) : Prop :=
  classed h t /\ up_to_date h t /\ issubclass h (t_ec (tob h t)) cInterval = true.
(** The tiers [ns] have, level by level below the intervals [L], what there is
    below them, and the classes of the tiers [ts]; the intervals know their
    tiers, those of the first are linked and in it. *)
Definition merged (h h' : heap) (L : list oid) (ts ns : list tid) : Prop :=
  List.length ns = List.length ts /\
  (forall k t n, nth_error ts k = Some t -> nth_error ns k = Some n ->
     (List.length (h_tier h) <= n)%nat /\ t_seq (tob h' n) = flat_map (level h k) L /\ housed h' n /\ up_to_date h' n /\
     t_ec (tob h' n) = t_ec (tob h t) /\ t_name (tob h' n) = class_name h (t_ec (tob h t))) /\
  (forall n, hd_error ns = Some n -> chained h' (t_seq (tob h' n)) /\
     forall x, In x (t_seq (tob h' n)) -> s_within (sob h' x) = Some (WTier n)).
(** From [h] to [h'] the intervals and points that existed keep class, times,
    label, parent and children; those not in [l] did not change at all, the only
    new ones are boundaries; the tiers that existed did not change, and neither
    did the groups, but that [g] may have got a name; there is one new group,
    [g'], with the name of [g]. *)
Definition adds_group (g g' : gid) (l : list oid) (h h' : heap) : Prop :=
  (forall i, (i < List.length (h_seq h))%nat -> same_self (sob h i) (sob h' i)) /\
  (forall i, (i < List.length (h_seq h))%nat -> ~ In i l -> sob h' i = sob h i) /\
  (List.length (h_seq h) <= List.length (h_seq h'))%nat /\
  (forall i, (List.length (h_seq h) <= i < List.length (h_seq h'))%nat -> is_boundary h' i) /\
  h_cls h' = h_cls h /\ h_grid h' = h_grid h /\
  (forall t, (t < List.length (h_tier h))%nat -> tob h' t = tob h t) /\
  g' = List.length (h_grp h) /\ List.length (h_grp h') = S g' /\
  (forall k, (k < g')%nat -> k <> g -> gob h' k = gob h k) /\
  gob h' g = set_g_name (g_name (gob h' g)) (gob h g) /\ g_name (gob h' g') = g_name (gob h' g) /\
  (forall nm, g_name (gob h g) = Some nm -> nm <> EmptyString -> g_name (gob h' g) = Some nm).
