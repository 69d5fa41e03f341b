(** * SpliceSpec: what the properties of concatenating tier groups talk about. *)
From Verif Require Export PopSpec GrowSpec.
Open Scope Z_scope.

(** Same class, label, parent and children; start and end are [f] of what they
    were. *)
Definition retimed (f : Z -> Z) (o o' : seqobj) : Prop :=
  s_cls o' = s_cls o /\ s_label o' = s_label o /\ s_super o' = s_super o /\ s_subset o' = s_subset o /\
  s_start o' = option_map f (s_start o) /\ s_end o' = option_map f (s_end o).
(** [spliced f g ts ts2 h h']: each tier of [ts] got the entries of the
    corresponding tier of [ts2] after its own; the times of these changed by [f],
    other intervals and points keep class, times, label, parent and children, those
    in none of the tiers did not change at all, the only new ones are boundaries;
    and nothing changed but the tiers [ts] and the group [g]. *)
Definition spliced (f : Z -> Z) (g : gid) (ts ts2 : list tid) (h h' : heap) : Prop :=
  (forall k u u2, nth_error ts k = Some u -> nth_error ts2 k = Some u2 ->
     t_seq (tob h' u) = (t_seq (tob h u) ++ t_seq (tob h u2))%list) /\
  (forall i, In i (entries_of h ts2) -> retimed f (sob h i) (sob h' i)) /\
  (forall i, (i < List.length (h_seq h))%nat -> ~ In i (entries_of h ts2) -> same_self (sob h i) (sob h' i)) /\
  (forall i, (i < List.length (h_seq h))%nat -> ~ In i (entries_of h ts) -> ~ In i (entries_of h ts2) -> sob h' i = sob h i) /\
  (List.length (h_seq h) <= List.length (h_seq h'))%nat /\
  (forall i, (List.length (h_seq h) <= i < List.length (h_seq h'))%nat -> is_boundary h' i) /\
  h_cls h' = h_cls h /\ h_grid h' = h_grid h /\ List.length (h_tier h') = List.length (h_tier h) /\
  (forall t, ~ In t ts -> tob h' t = tob h t) /\
  (forall t, t_ec (tob h' t) = t_ec (tob h t) /\ t_name (tob h' t) = t_name (tob h t)) /\
  List.length (h_grp h') = List.length (h_grp h) /\ (forall k, k <> g -> gob h' k = gob h k).
