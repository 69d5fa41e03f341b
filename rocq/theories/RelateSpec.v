(** * RelateSpec: what the properties of relating tiers again talk about. *)
From Verif Require Export EditSpec.
Open Scope Z_scope.

(** The children of [p] are distinct existing intervals of one class with
    different values, none is labelled "#", and all know their parent. *)
Definition brood (h : heap) (p : oid) : Prop :=
  NoDup (s_subset (sob h p)) /\
  forall y, In y (s_subset (sob h p)) ->
    (y < List.length (h_seq h))%nat /\ s_label (sob h y) <> "#"%string /\ s_super (sob h y) = Some p /\
    forall z, In z (s_subset (sob h p)) -> s_cls (sob h z) = s_cls (sob h y) /\ (same_value h y z -> y = z).
(** If [x] has a parent, it is one of the children of that parent. *)
Definition filed (h : heap) (x : oid) : Prop :=
  forall p, s_super (sob h x) = Some p ->
    (p < List.length (h_seq h))%nat /\ p <> x /\ In x (s_subset (sob h p)) /\ brood h p.
(** Entries fit to be related, whatever they were related to before. *)
Definition fit_tier (h : heap) (t : tid) : Prop :=
  linkable h (t_ec (tob h t)) (t_seq (tob h t)) /\ issubclass h (t_ec (tob h t)) cPoint = false /\
  forall x, In x (t_seq (tob h t)) -> filed h x.
(** [i] is in one of the tiers [ts], or is the parent of an entry, or has the
    same parent as an entry. *)
Definition involved (h : heap) (ts : list tid) (i : oid) : Prop :=
  exists t x, In t ts /\ In x (t_seq (tob h t)) /\
    (i = x \/ exists p, s_super (sob h x) = Some p /\ (i = p \/ In i (s_subset (sob h p)))).
(** Values of existing objects and contents of the tiers are as before; objects
    not involved did not change at all; what is new are boundary objects; only
    entries of tiers above another tier, and objects whose children are in the
    tiers, get other children. *)
Definition relates_anew (g : gid) (ts : list tid) (h h' : heap) : Prop :=
  (forall i, (i < List.length (h_seq h))%nat ->
     s_cls (sob h' i) = s_cls (sob h i) /\ s_start (sob h' i) = s_start (sob h i) /\
     s_end (sob h' i) = s_end (sob h i) /\ s_label (sob h' i) = s_label (sob h i) /\
     s_intier (sob h' i) = s_intier (sob h i)) /\
  (forall i, (i < List.length (h_seq h))%nat -> ~ involved h ts i -> sob h' i = sob h i) /\
  (List.length (h_seq h) <= List.length (h_seq h'))%nat /\
  (forall i, (List.length (h_seq h) <= i < List.length (h_seq h'))%nat -> is_boundary h' i) /\
  h_cls h' = h_cls h /\ h_grid h' = h_grid h /\ List.length (h_tier h') = List.length (h_tier h) /\
  (forall t, ~ In t ts -> tob h' t = tob h t) /\
  (forall t, In t ts -> tob h' t = set_t_within (Some (WGroup g)) (tob h t)) /\
  (forall i, (i < List.length (h_seq h))%nat -> (forall t, In t (removelast ts) -> ~ In i (t_seq (tob h t))) ->
     (forall t x, In t ts -> In x (t_seq (tob h t)) -> s_super (sob h x) <> Some i) ->
     s_subset (sob h' i) = s_subset (sob h i)).

(** Same container and neighbours. *)
Definition unmoved (o o' : seqobj) : Prop :=
  s_within o' = s_within o /\ s_prev o' = s_prev o /\ s_fol o' = s_fol o.

(** A tier group in good order: its tiers [ts] are of one chain of classes, the
    intervals of each tier but the first fill those of the tier above, as the
    blocks [bss] show, and each block are the children of the interval it fills;
    everything knows where it is. *)
Definition good_group (h : heap) (g : gid) (ts : list tid) (bss : list (list (list oid))) : Prop :=
  (g < List.length (h_grp h))%nat /\ g_points (gob h g) = false /\ g_tiers (gob h g) = ts /\ contains_of h (WGroup g) = Some ts /\
  tier_chain h ts /\ classes_joined h ts /\ snug h ts bss /\ related_tiers h ts bss /\
  (forall t, In t ts -> t_within (tob h t) = Some (WGroup g) /\
     linkable h (t_ec (tob h t)) (t_seq (tob h t)) /\ issubclass h (t_ec (tob h t)) cPoint = false) /\
  (forall t, hd_error ts = Some t -> in_turn h (t_seq (tob h t)) /\
     forall x, In x (t_seq (tob h t)) -> dated h x /\ s_super (sob h x) = None).
