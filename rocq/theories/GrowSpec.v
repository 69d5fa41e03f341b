(** * GrowSpec: what the properties of extending a tier group talk about. *)
From Verif Require Export RelateSpec.
Open Scope Z_scope.

(** The descendants of [x], [k] generations down. *)
Fixpoint level (h : heap) (k : nat) (x : oid) : list oid :=
  match k with O => [x] | S k' => flat_map (level h k') (s_subset (sob h x)) end.
(** [sprout h ts x]: [x] and its descendants are intervals of the classes of the
    tiers [ts], and the children of each fill it; those on the last tier have
    no children. *)
Fixpoint sprout (h : heap) (ts : list tid) (x : oid) : Prop :=
  match ts with
  | [] => False
  | t :: r =>
    (x < List.length (h_seq h))%nat /\ s_cls (sob h x) = t_ec (tob h t) /\ s_label (sob h x) <> "#"%string /\ dated h x /\
    match r with
    | [] => s_subset (sob h x) = []
    | _ => fills h x (s_subset (sob h x)) /\ brood h x /\ forall y, In y (s_subset (sob h x)) -> sprout h r y
    end
  end.
(** [x] ends before [y] starts. *)
Definition precedes (h : heap) (x y : oid) : Prop :=
  exists e s, s_end (sob h x) = Some e /\ s_start (sob h y) = Some s /\ e <= s.
(** The list a tier keeps knows its class. *)
Definition classed (h : heap) (t : tid) : Prop :=
  t_seqec (tob h t) = Some (t_ec (tob h t)) \/ t_seq (tob h t) = [] /\ t_seqec (tob h t) = None.
(** Same class, times, label, parent and children. *)
Definition same_self (o o' : seqobj) : Prop :=
  s_cls o' = s_cls o /\ s_start o' = s_start o /\ s_end o' = s_end o /\ s_label o' = s_label o /\ s_super o' = s_super o /\
  s_subset o' = s_subset o.
(** From [h] to [h'] the intervals and points that existed keep class, times,
    label, parent and children; those for which [P] does not hold did not change at all,
    the only new ones are boundaries; and nothing changed but the tiers [ts] and the
    group [g]. *)
Definition grows (g : gid) (ts : list tid) (P : oid -> Prop) (h h' : heap) : Prop :=
  (forall i, (i < List.length (h_seq h))%nat -> same_self (sob h i) (sob h' i)) /\
  (forall i, (i < List.length (h_seq h))%nat -> ~ P i -> sob h' i = sob h i) /\
  (List.length (h_seq h) <= List.length (h_seq h'))%nat /\
  (forall i, (List.length (h_seq h) <= i < List.length (h_seq h'))%nat -> is_boundary h' i) /\
  h_cls h' = h_cls h /\ h_grid h' = h_grid h /\ List.length (h_tier h') = List.length (h_tier h) /\
  (forall t, ~ In t ts -> tob h' t = tob h t) /\
  (forall t, t_ec (tob h' t) = t_ec (tob h t) /\ t_name (tob h' t) = t_name (tob h t)) /\
  List.length (h_grp h') = List.length (h_grp h) /\ (forall k, k <> g -> gob h' k = gob h k).
(** The list a tier keeps knows its class, and the entries know their tier. *)
Definition housed (h : heap) (t : tid) : Prop :=
  classed h t /\ forall y, In y (t_seq (tob h t)) -> s_intier (sob h y) = Some t.
(** What a tier knows of its neighbours in the hierarchy is what its class says. *)
Definition up_to_date (h : heap) (t : tid) : Prop :=
  t_super (tob h t) = superset_class h (t_ec (tob h t)) /\ t_sub (tob h t) = subset_class h (t_ec (tob h t)).
(** [u] can take the intervals [L]. *)
Definition roomy (h : heap) (u : tid) (L : list oid) : Prop :=
  (u < List.length (h_tier h))%nat /\ t_super (tob h u) <> None /\ issubclass h (t_ec (tob h u)) cPoint = false /\
  linkable h (t_ec (tob h u)) (t_seq (tob h u) ++ L) /\ classed h u /\
  (forall x, In x (t_seq (tob h u) ++ L) -> dated h x) /\
  (forall x y, In x (t_seq (tob h u) ++ L) -> In y (t_seq (tob h u) ++ L) -> s_start (sob h x) = s_start (sob h y) -> x = y).
(** The tiers [ts] of the group [g], of different classes, know where they are; their entries
    are sorted, of the class of the tier, and know their tier. *)
Record skel (h : heap) (g : gid) (ts : list tid) : Prop := {
  sk_tiers : g_tiers (gob h g) = ts;
  sk_contains : contains_of h (WGroup g) = Some ts;
  sk_within : forall t, In t ts -> t_within (tob h t) = Some (WGroup g) /\ (t < List.length (h_tier h))%nat;
  sk_ecs : NoDup (map (fun t => t_ec (tob h t)) ts);
  sk_entry : forall t y, In t ts -> In y (t_seq (tob h t)) -> (y < List.length (h_seq h))%nat /\ s_cls (sob h y) = t_ec (tob h t) /\ s_intier (sob h y) = Some t;
  sk_sorted : forall t, In t ts -> sorted_starts h (t_seq (tob h t));
  sk_classed : forall t, In t ts -> classed h t
}.
