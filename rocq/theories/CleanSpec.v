(** * CleanSpec: what the properties of cleaning up a group talk about. *)
From Verif Require Export GrowSpec.
Open Scope Z_scope.

Section WithEnv.
Context `{Env}.
(** There is a gap between two entries of [l] that is not within the tolerance. *)
Definition real_gap (h : heap) (l : list oid) : Prop :=
  exists i x y a b, nth_error l i = Some x /\ nth_error l (S i) = Some y /\
    s_end (sob h x) = Some a /\ s_start (sob h y) = Some b /\ ~ near b a.
End WithEnv.
(** The tier [t] has kept its entries, in order, and has a new one, of its class
    and with the empty label, for each gap and nowhere else: together they fill
    the time from the start of the first to the end of the last. If its list knew
    its class, it still does. *)
Definition blanks_put (h h' : heap) (t : tid) : Prop :=
  let l := t_seq (tob h t) in let l' := t_seq (tob h' t) in
  (exists x y a b, hd_error l = Some x /\ hd_error (rev l) = Some y /\ s_start (sob h x) = Some a /\ s_end (sob h y) = Some b /\
     tiles h' a l' b) /\
  List.filter (fun x => (x <? List.length (h_seq h))%nat) l' = l /\
  (forall y, In y l' -> (List.length (h_seq h) <= y)%nat ->
     s_cls (sob h' y) = t_ec (tob h t) /\ s_label (sob h' y) = EmptyString /\
     exists s e, s_start (sob h' y) = Some s /\ s_end (sob h' y) = Some e /\ gap h l s e) /\
  (t_seqec (tob h t) = Some (t_ec (tob h t)) -> t_seqec (tob h' t) = Some (t_ec (tob h t))).
(** Everything but the group [g] with the tiers [ts] is as it was, and what
    there was in the tiers has the same times, labels, parents and children. *)
Definition all_else_kept (h h' : heap) (g : gid) (ts : list tid) : Prop :=
  (forall t, In t ts -> t_ec (tob h' t) = t_ec (tob h t) /\ t_super (tob h' t) = t_super (tob h t) /\ t_sub (tob h' t) = t_sub (tob h t) /\
     t_name (tob h' t) = t_name (tob h t) /\ t_within (tob h' t) = t_within (tob h t)) /\
  (forall t, ~ In t ts -> tob h' t = tob h t) /\ List.length (h_tier h') = List.length (h_tier h) /\
  (forall i, (i < List.length (h_seq h))%nat ->
     s_cls (sob h' i) = s_cls (sob h i) /\ s_start (sob h' i) = s_start (sob h i) /\ s_end (sob h' i) = s_end (sob h i) /\
     s_label (sob h' i) = s_label (sob h i) /\ s_intier (sob h' i) = s_intier (sob h i) /\
     s_super (sob h' i) = s_super (sob h i) /\ s_subset (sob h' i) = s_subset (sob h i)) /\
  (forall i, (i < List.length (h_seq h))%nat -> (forall t, In t ts -> ~ In i (t_seq (tob h t))) -> sob h' i = sob h i) /\
  (List.length (h_seq h) <= List.length (h_seq h'))%nat /\
  List.length (h_grp h') = List.length (h_grp h) /\ (forall k, k <> g -> gob h' k = gob h k) /\ g_within (gob h' g) = g_within (gob h g) /\
  h_cls h' = h_cls h /\ h_grid h' = h_grid h.
