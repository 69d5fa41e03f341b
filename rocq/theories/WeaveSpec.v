(** * WeaveSpec: what the properties of adding a class of tiers to a grid talk
    about. *)
From Verif Require Export PopSpec.
Open Scope Z_scope.

(** [x] is a copy of [y] with the same times, and with its label or none. *)
Definition copy_of (labels : bool) (h h' : heap) (y x : oid) : Prop :=
  s_start (sob h' x) = s_start (sob h y) /\ s_end (sob h' x) = s_end (sob h y) /\
  s_label (sob h' x) = (if labels then s_label (sob h y) else ""%string).
(** [g'] is what becomes of the group [g] when the class [c] is put between the
    classes [cs1] and [cs2]: a new group in good order, of the same tiers and a
    new one between them whose entries are copies of those of the tier of class
    [cp]. *)
Definition woven (labels : bool) (cs1 : list cid) (c : cid) (cs2 : list cid) (cp : cid) (h h' : heap) (g g' : gid) : Prop :=
  (List.length (h_grp h) <= g')%nat /\
  (exists ts1 k ts2 ct, g_tiers (gob h g) = (ts1 ++ ts2)%list /\ g_tiers (gob h' g') = (ts1 ++ k :: ts2)%list /\
     map (fun t => t_ec (tob h t)) ts1 = cs1 /\
     (List.length (h_tier h) <= k < List.length (h_tier h'))%nat /\ t_name (tob h' k) = class_name h' c /\
     In ct (g_tiers (gob h g)) /\ t_ec (tob h ct) = cp /\ Forall2 (copy_of labels h h') (t_seq (tob h ct)) (t_seq (tob h' k)) /\
     (forall x, In x (t_seq (tob h' k)) -> (List.length (h_seq h) <= x < List.length (h_seq h'))%nat /\ s_intier (sob h' x) = Some k)) /\
  full_group h' (cs1 ++ c :: cs2) g' /\
  (forall nm, g_name (gob h g) = Some nm -> nm <> ""%string -> g_name (gob h' g') = Some nm).
(** What becomes of each group: those with a tier of class [sp] get a new tier. *)
Definition weaves (labels : bool) (cs1 : list cid) (c : cid) (cs2 : list cid) (sp cp : cid) (h h' : heap) (g g' : gid) : Prop :=
  (In sp (map (fun t => t_ec (tob h t)) (g_tiers (gob h g))) /\ woven labels cs1 c cs2 cp h h' g g') \/
  (~ In sp (map (fun t => t_ec (tob h t)) (g_tiers (gob h g))) /\
   g' = g /\ g_tiers (gob h' g) = g_tiers (gob h g) /\ g_name (gob h' g) = g_name (gob h g)).
(** Values of the objects and contents of the tiers are as before; objects in
    none of the tiers [T] did not change at all; what is new are boundary
    objects and the entries of new tiers. *)
Definition more_content (T : list tid) (h h' : heap) : Prop :=
  (List.length (h_seq h) <= List.length (h_seq h'))%nat /\
  (forall i, (i < List.length (h_seq h))%nat ->
     s_cls (sob h' i) = s_cls (sob h i) /\ s_start (sob h' i) = s_start (sob h i) /\
     s_end (sob h' i) = s_end (sob h i) /\ s_label (sob h' i) = s_label (sob h i) /\
     s_intier (sob h' i) = s_intier (sob h i)) /\
  (forall i, (i < List.length (h_seq h))%nat -> (forall t, In t T -> ~ In i (t_seq (tob h t))) -> sob h' i = sob h i) /\
  (forall i, (List.length (h_seq h) <= i < List.length (h_seq h'))%nat -> is_boundary h' i \/
     exists t, (List.length (h_tier h) <= t < List.length (h_tier h'))%nat /\ In i (t_seq (tob h' t))) /\
  (List.length (h_tier h) <= List.length (h_tier h'))%nat /\
  (forall t, (t < List.length (h_tier h))%nat -> ~ In t T -> tob h' t = tob h t) /\
  (forall t, (t < List.length (h_tier h))%nat -> t_seq (tob h' t) = t_seq (tob h t) /\ t_ec (tob h' t) = t_ec (tob h t) /\
     t_name (tob h' t) = t_name (tob h t)).
(** The tiers of a group and their entries exist. *)
Definition exist_tiers (h : heap) (g : gid) : Prop :=
  forall k, In k (g_tiers (gob h g)) -> (k < List.length (h_tier h))%nat /\ forall x, In x (t_seq (tob h k)) -> (x < List.length (h_seq h))%nat.
