(** * AppendSpec: what the properties of adding a tier group to a grid talk
    about. *)
From Verif Require Export PopSpec GrowSpec OwnSpec ReadSpec.
Open Scope Z_scope.

(** [c'] is the first class in the list [l] with the name [nm]. *)
Definition first_named (h : heap) (l : list cid) (nm : string) (c' : cid) : Prop :=
  exists l1 l2, l = (l1 ++ c' :: l2)%list /\ class_name h c' = nm /\ forall x, In x l1 -> class_name h x <> nm.
(** The grid has no class with the name of one of [cs]. *)
Definition strange (h : heap) (a : aid) (cs : list cid) : Prop :=
  forall c d, In c cs -> In d (a_cloned (aob h a)) -> class_name h d <> class_name h c.
(** The grid's own classes with the names of [cs] are [cs'], and these are a
    whole chain. *)
Definition familiar (h : heap) (a : aid) (cs cs' : list cid) : Prop :=
  Forall2 (fun c c' => first_named h (a_cloned (aob h a)) (class_name h c) c') cs cs' /\
  exists t b, class_chain h t cs' b.
(** The groups of the grid exist, have tiers, know the grid and have names. *)
Definition settled_groups (h : heap) (a : aid) : Prop :=
  forall g, In g (a_groups (aob h a)) ->
    (g < List.length (h_grp h))%nat /\ g_tiers (gob h g) <> [] /\ g_within (gob h g) = Some (WGrid a) /\
    exists nm, g_name (gob h g) = Some nm /\ nm <> ""%string.
(** A whole chain of classes with plain and different names. *)
Definition clear_chain (h : heap) (cs : list cid) : Prop :=
  (exists t b, class_chain h t cs b) /\ (forall c, In c cs -> plain_name (class_name h c)) /\ names_apart h cs.

(** Same start, end, label, parent and children. *)
Definition same_family (o o' : seqobj) : Prop :=
  s_start o' = s_start o /\ s_end o' = s_end o /\ s_label o' = s_label o /\
  s_super o' = s_super o /\ s_subset o' = s_subset o.
(** [g] is in the grid [a] and in good order with the classes [cs'] instead of
    those it had before; its tiers and what is in them are the same, and all of
    them know where they are. *)
Definition joined_in (h h' : heap) (a : aid) (g : gid) (cs' : list cid) : Prop :=
  full_group h' cs' g /\ g_tiers (gob h' g) = g_tiers (gob h g) /\ g_within (gob h' g) = Some (WGrid a) /\
  (exists nm, g_name (gob h' g) = Some nm /\ nm <> ""%string) /\
  (forall nm, g_name (gob h g) = Some nm -> nm <> ""%string -> g_name (gob h' g) = Some nm) /\
  (forall t, In t (g_tiers (gob h g)) -> t_seq (tob h' t) = t_seq (tob h t) /\ housed h' t /\ up_to_date h' t /\
     t_name (tob h' t) = class_name h' (t_ec (tob h' t)) /\
     forall x, In x (t_seq (tob h t)) -> same_family (sob h x) (sob h' x) /\ s_cls (sob h' x) = t_ec (tob h' t)).
(** [g] became the last group of the grid [a]. *)
Definition joins (h h' : heap) (a : aid) (g : gid) (cs' : list cid) : Prop :=
  a_groups (aob h' a) = (a_groups (aob h a) ++ [g])%list /\ joined_in h h' a g cs'.
(** Everything else is as it was. *)
Definition joins_only (h h' : heap) (a : aid) (g : gid) : Prop :=
  (List.length (h_cls h) <= List.length (h_cls h'))%nat /\ (forall c, (c < List.length (h_cls h))%nat -> cob h' c = cob h c) /\
  (List.length (h_seq h) <= List.length (h_seq h'))%nat /\
  (forall i, (i < List.length (h_seq h))%nat -> (forall t, In t (g_tiers (gob h g)) -> ~ In i (t_seq (tob h t))) -> sob h' i = sob h i) /\
  (forall i, (List.length (h_seq h) <= i < List.length (h_seq h'))%nat -> is_boundary h' i) /\
  List.length (h_tier h') = List.length (h_tier h) /\ (forall t, ~ In t (g_tiers (gob h g)) -> tob h' t = tob h t) /\
  List.length (h_grp h') = List.length (h_grp h) /\ (forall k, k <> g -> gob h' k = gob h k) /\
  List.length (h_grid h') = List.length (h_grid h) /\ (forall b, b <> a -> aob h' b = aob h b).
(** The group [g] with the classes [cs], outside the grid [a], and the groups
    already in the grid are in order. *)
Definition append_ready (h : heap) (a : aid) (g : gid) (cs : list cid) : Prop :=
  class_table h /\ (a < List.length (h_grid h))%nat /\ whole_chains h (a_cloned (aob h a)) /\
  settled_groups h a /\ ~ In g (a_groups (aob h a)) /\ full_group h cs g /\ clear_chain h cs.

(** Any two of the lists of classes have the same names, or no name in common. *)
Definition names_agree (h : heap) (css : list (list cid)) : Prop :=
  forall cs ds, In cs css -> In ds css ->
    map (class_name h) cs = map (class_name h) ds \/ (forall c d, In c cs -> In d ds -> class_name h c <> class_name h d).
(** Of what there was, only the grid [a], the groups [gs], their tiers and the
    entries of these have changed; what is new are classes, boundaries and
    possibly the grid. *)
Definition adds_only (h h' : heap) (a : aid) (gs : list gid) : Prop :=
  (List.length (h_cls h) <= List.length (h_cls h'))%nat /\ (forall c, (c < List.length (h_cls h))%nat -> cob h' c = cob h c) /\
  (List.length (h_seq h) <= List.length (h_seq h'))%nat /\
  (forall i, (i < List.length (h_seq h))%nat -> (forall g t, In g gs -> In t (g_tiers (gob h g)) -> ~ In i (t_seq (tob h t))) -> sob h' i = sob h i) /\
  (forall i, (List.length (h_seq h) <= i < List.length (h_seq h'))%nat -> is_boundary h' i) /\
  List.length (h_tier h') = List.length (h_tier h) /\ (forall t, (forall g, In g gs -> ~ In t (g_tiers (gob h g))) -> tob h' t = tob h t) /\
  List.length (h_grp h') = List.length (h_grp h) /\ (forall k, ~ In k gs -> gob h' k = gob h k) /\
  (List.length (h_grid h) <= List.length (h_grid h'))%nat /\ (forall b, (b < List.length (h_grid h))%nat -> b <> a -> aob h' b = aob h b).
