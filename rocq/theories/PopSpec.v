(** * PopSpec: what the properties of removing a class of tiers from a grid talk
    about. *)
From Verif Require Export RelateSpec.
Open Scope Z_scope.

(** The group's tiers, and the intervals in them. *)
Definition tiers_in (h : heap) (g : gid) : list tid := g_tiers (gob h g).
Definition entries_in (h : heap) (t : tid) : list oid := t_seq (tob h t).
(** No tier is in two of the groups and no interval in two of their tiers. *)
Definition apart_groups (h : heap) (gs : list gid) : Prop :=
  NoDup gs /\ NoDup (flat_map (tiers_in h) gs) /\ NoDup (flat_map (entries_in h) (flat_map (tiers_in h) gs)).
(** The intervals of the last tier have no children. *)
Definition bare_bottom (h : heap) (ts : list tid) : Prop :=
  forall t x, hd_error (rev ts) = Some t -> In x (t_seq (tob h t)) -> s_subset (sob h x) = [].
(** [g] has one tier for each of the classes [cs] and is in good order. *)
Definition full_group (h : heap) (cs : list cid) (g : gid) : Prop :=
  map (fun t => t_ec (tob h t)) (g_tiers (gob h g)) = cs /\
  (exists bss, good_group h g (g_tiers (gob h g)) bss) /\ bare_bottom h (g_tiers (gob h g)).
(** The tiers of a group but those of class [c]. *)
Definition tiers_but (h : heap) (c : cid) (g : gid) : list tid :=
  List.filter (fun t => negb (t_ec (tob h t) =? c)%nat) (g_tiers (gob h g)).
(** [g'] is what becomes of the group [g] when the class [c] is removed: a new
    group in good order of the tiers that are left. *)
Definition without (c : cid) (cs : list cid) (h h' : heap) (g g' : gid) : Prop :=
  (List.length (h_grp h) <= g')%nat /\ g_tiers (gob h' g') = tiers_but h c g /\ full_group h' cs g' /\
  (forall nm, g_name (gob h g) = Some nm -> nm <> ""%string -> g_name (gob h' g') = Some nm) /\
  (forall t x, hd_error (rev (g_tiers (gob h' g'))) = Some t -> In x (t_seq (tob h' t)) ->
     contains_of h' (WSeq x) = Some []).
(** Values of the objects and contents of the tiers are as before; objects in
    none of the tiers [T] did not change at all. *)
Definition same_content (T : list tid) (h h' : heap) : Prop :=
  (List.length (h_seq h) <= List.length (h_seq h'))%nat /\
  (forall i, (i < List.length (h_seq h))%nat ->
     s_cls (sob h' i) = s_cls (sob h i) /\ s_start (sob h' i) = s_start (sob h i) /\
     s_end (sob h' i) = s_end (sob h i) /\ s_label (sob h' i) = s_label (sob h i) /\
     s_intier (sob h' i) = s_intier (sob h i)) /\
  (forall i, (i < List.length (h_seq h))%nat -> (forall t, In t T -> ~ In i (t_seq (tob h t))) -> sob h' i = sob h i) /\
  (forall i, (List.length (h_seq h) <= i < List.length (h_seq h'))%nat -> is_boundary h' i) /\
  List.length (h_tier h') = List.length (h_tier h) /\
  (forall t, ~ In t T -> tob h' t = tob h t) /\
  (forall t, t_seq (tob h' t) = t_seq (tob h t) /\ t_ec (tob h' t) = t_ec (tob h t) /\
     t_name (tob h' t) = t_name (tob h t)).

(** What becomes of each group. *)
Definition becomes (nm : string) (c : cid) (cs : list cid) (h h' : heap) (g g' : gid) : Prop :=
  (In c (map (fun t => t_ec (tob h t)) (g_tiers (gob h g))) /\ without c cs h h' g g') \/
  ((forall t, In t (g_tiers (gob h g)) -> class_name h (t_ec (tob h t)) <> nm) /\
   g' = g /\ g_tiers (gob h' g) = g_tiers (gob h g) /\ g_name (gob h' g) = g_name (gob h g)).
