(** * ShowSpec: specification vocabulary for what is printed. *)
From Verif Require Export ShowOps.
From Coq Require Import Ascii.
Open Scope string_scope.

(** The character [c] does not occur in [s]. *)
Definition lacks (c : ascii) (s : string) : Prop := forall a b, s <> a ++ String c b.
(** The names of the classes of the tiers of a group. *)
Definition class_names (h : heap) (g : gid) : list string := map (fun t => class_name h (t_ec (tob h t))) (g_tiers (gob h g)).
(** The label of the interval above, if any, and those of the intervals below. *)
Definition label_above (h : heap) (x : oid) : option string := option_map (fun p => s_label (sob h p)) (s_super (sob h x)).
Definition labels_below (h : heap) (x : oid) : list string := map (fun y => s_label (sob h y)) (s_subset (sob h x)).
(** The names of the classes above and below. *)
Definition name_above (h : heap) (x : oid) : option string := option_map (class_name h) (superset_class h (s_cls (sob h x))).
Definition name_below (h : heap) (x : oid) : option string := option_map (class_name h) (subset_class h (s_cls (sob h x))).
(** An interval whose texts have no comma, which has intervals above and below only if
    its class does, which the interval above lists, and whose class is above and below
    others that are not called None. *)
Definition plainly_labelled (h : heap) (x : oid) : Prop :=
  lacks "," (class_name h (s_cls (sob h x))) /\ lacks "," (s_label (sob h x)) /\
  (forall n, name_above h x = Some n \/ name_below h x = Some n -> lacks "," n /\ n <> "None") /\
  (forall p, s_super (sob h x) = Some p -> In x (s_subset (sob h p)) /\ lacks "," (s_label (sob h p)) /\ name_above h x <> None) /\
  (s_subset (sob h x) <> [] -> name_below h x <> None).
(** The place of a point on its tier, None if it is on none. *)
Definition place (h : heap) (x : oid) (i : option nat) : Prop :=
  match i with
  | None => s_intier (sob h x) = None
  | Some i => exists t, s_intier (sob h x) = Some t /\ nth_error (t_seq (tob h t)) i = Some x /\ forall j, (j < i)%nat -> nth_error (t_seq (tob h t)) j <> Some x
  end.
