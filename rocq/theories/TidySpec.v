(** * TidySpec: what the properties of cleaning up a whole grid talk about. *)
From Verif Require Export CleanSpec PopSpec.
Open Scope Z_scope.

(** The intervals of [l] start at [lo] and end at [hi]. *)
Definition ranges (h : heap) (l : list oid) (lo hi : Z) : Prop :=
  exists x y, hd_error l = Some x /\ hd_error (rev l) = Some y /\ s_start (sob h x) = Some lo /\ s_end (sob h y) = Some hi.
(** The group [g] is in good order and lasts from [lo] to [hi]; if one of its
    gaps is not within the tolerance, all its times are positive, and it has at
    most [n] tiers. *)
Definition tidy_ready `{Env} (n : nat) (h : heap) (lo hi : Z) (g : gid) : Prop :=
  (exists bss, good_group h g (g_tiers (gob h g)) bss) /\
  exists t, hd_error (g_tiers (gob h g)) = Some t /\ up_to_date h t /\ ranges h (t_seq (tob h t)) lo hi /\
    (real_gap h (t_seq (tob h t)) -> (forall u, In u (g_tiers (gob h g)) -> gappy h u) /\ (List.length (g_tiers (gob h g)) <= n)%nat).
(** The gaps of the group [g] have been filled, if one of them is not within the
    tolerance, and it is in good order. Otherwise its tiers are as they were, and
    so are its intervals, provided those at the top knew their tier. *)
Definition tidied `{Env} (h h' : heap) (g : gid) : Prop :=
  (exists bss, good_group h' g (g_tiers (gob h g)) bss) /\
  forall t, hd_error (g_tiers (gob h g)) = Some t ->
    (real_gap h (t_seq (tob h t)) -> forall u, In u (g_tiers (gob h g)) -> blanks_put h h' u) /\
    (~ real_gap h (t_seq (tob h t)) -> (forall u, In u (g_tiers (gob h g)) -> tob h' u = tob h u) /\
       ((forall x, In x (t_seq (tob h t)) -> s_within (sob h x) = Some (WTier t)) ->
          gob h' g = gob h g /\ forall u x, In u (g_tiers (gob h g)) -> In x (t_seq (tob h u)) -> sob h' x = sob h x)).
(** As [all_else_kept], for several groups [gs] with the tiers [ts]. *)
Definition rest_kept (h h' : heap) (gs : list gid) (ts : list tid) : Prop :=
  (forall t, In t ts -> t_ec (tob h' t) = t_ec (tob h t) /\ t_super (tob h' t) = t_super (tob h t) /\ t_sub (tob h' t) = t_sub (tob h t) /\
     t_name (tob h' t) = t_name (tob h t) /\ t_within (tob h' t) = t_within (tob h t)) /\
  (forall t, ~ In t ts -> tob h' t = tob h t) /\ List.length (h_tier h') = List.length (h_tier h) /\
  (forall i, (i < List.length (h_seq h))%nat ->
     s_cls (sob h' i) = s_cls (sob h i) /\ s_start (sob h' i) = s_start (sob h i) /\ s_end (sob h' i) = s_end (sob h i) /\
     s_label (sob h' i) = s_label (sob h i) /\ s_intier (sob h' i) = s_intier (sob h i) /\
     s_super (sob h' i) = s_super (sob h i) /\ s_subset (sob h' i) = s_subset (sob h i)) /\
  (forall i, (i < List.length (h_seq h))%nat -> (forall t, In t ts -> ~ In i (t_seq (tob h t))) -> sob h' i = sob h i) /\
  (List.length (h_seq h) <= List.length (h_seq h'))%nat /\
  List.length (h_grp h') = List.length (h_grp h) /\ (forall k, ~ In k gs -> gob h' k = gob h k) /\
  (forall k, In k gs -> g_within (gob h' k) = g_within (gob h k)) /\
  h_cls h' = h_cls h /\ h_grid h' = h_grid h.
(** The interval groups of a grid. *)
Definition interval_groups (h : heap) (a : aid) : list gid := List.filter (fun g => negb (g_points (gob h g))) (a_groups (aob h a)).
