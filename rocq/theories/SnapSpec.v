(** * SnapSpec: what the property of tiers whose boundaries do not match talks about. *)
From Verif Require Export RelateSpec.
Open Scope Z_scope.

(** The stretch two spans have in common. *)
Definition common (p q : span) : span := (Z.max (fst p) (fst q), Z.min (snd p) (snd q)).
(** The first of [U] starts when the first of [L] does, and the last of [U] ends
    when the last of [L] does. *)
Definition same_ends (h : heap) (U L : list oid) : Prop :=
  (forall u y, hd_error U = Some u -> hd_error L = Some y -> s_start (sob h u) = s_start (sob h y)) /\
  (forall u y, hd_error (rev U) = Some u -> hd_error (rev L) = Some y -> s_end (sob h u) = s_end (sob h y)).
(** Some interval of [L] is not inside the one of [U] that suits it best. *)
Definition crossing (h : heap) (U L : list oid) : Prop :=
  exists i u y, nth_error U i = Some u /\ In y L /\ best (map (span_of h) U) (span_of h y) i /\
    ~ (fst (span_of h u) <= fst (span_of h y) /\ snd (span_of h y) <= snd (span_of h u)).
(** Nothing but times of entries of the tiers [ts], and how these entries are
    related, is different; what is new are boundary objects and the group [g]. *)
Definition only_retimes (g : gid) (ts : list tid) (h h' : heap) : Prop :=
  (forall i, (i < List.length (h_seq h))%nat ->
     s_cls (sob h' i) = s_cls (sob h i) /\ s_label (sob h' i) = s_label (sob h i) /\ s_intier (sob h' i) = s_intier (sob h i)) /\
  (forall i, (i < List.length (h_seq h))%nat -> (forall t, In t ts -> ~ In i (t_seq (tob h t))) ->
     sob h' i = sob h i) /\
  (forall i, (List.length (h_seq h) <= i < List.length (h_seq h'))%nat -> is_boundary h' i) /\
  h_cls h' = h_cls h /\ h_grid h' = h_grid h /\ List.length (h_tier h') = List.length (h_tier h) /\
  (forall t, ~ In t ts -> tob h' t = tob h t) /\
  (forall t, In t ts -> tob h' t = set_t_within (Some (WGroup g)) (tob h t)) /\
  g = List.length (h_grp h) /\ List.length (h_grp h') = S g /\ (forall k, (k < g)%nat -> gob h' k = gob h k).
