(** * FuseSpec: what the property of fusion talks about. *)
From Verif Require Export GroupSpec History.
Open Scope Z_scope.

Section WithEnv.
Context `{Env}.

(** [household K h]: all families are in order: parents and children agree and
    each list of children is linked ([families_ok]); children and parents are
    existing objects other than boundaries; siblings have different values; the
    class that a list of children expects is the right one; the classes of all
    objects are in [K], which forms separate chains. *)
Definition household (K : cid -> Prop) (h : heap) : Prop :=
  separate_chains h K /\ families_ok h /\
  (forall p x, In x (s_subset (sob h p)) -> user_obj h p /\ user_obj h x /\ no_twin h p x) /\
  (forall p c, s_subec (sob h p) = Some c -> subset_class h (s_cls (sob h p)) = Some c) /\
  (forall x, user_obj h x -> K (s_cls (sob h x))).

(** Intervals of positive duration, in order and not overlapping. *)
Definition in_row (h : heap) (l : list oid) : Prop := (forall x, In x l -> dated h x) /\ in_turn h l.

(** [fuse_rightwards] ([right] is [true]) works on the interval and its
    follower, [fuse_leftwards] on the interval and its predecessor. *)
Definition neighbour (right : bool) (h : heap) (x : oid) : option oid :=
  if right then s_fol (sob h x) else s_prev (sob h x).
(** [a] and then [b], or the other way round. *)
Definition beside (right : bool) (a b : list oid) : list oid := if right then (a ++ b)%list else (b ++ a)%list.

(** The label of the fused interval. *)
Definition fused_label (right : bool) (jn : string -> string -> string) (h : heap) (x y : oid) : string :=
  if right then jn (s_label (sob h x)) (s_label (sob h y)) else jn (s_label (sob h y)) (s_label (sob h x)).

(** The child [x] of [p] has a neighbour [y] with which it can be fused: not a
    boundary, and the children of [p], and those of both together, form rows. *)
Definition fusible_in (right : bool) (jn : string -> string -> string) (h : heap) (p x y : oid) : Prop :=
  s_super (sob h x) = Some p /\ neighbour right h x = Some y /\ s_label (sob h y) <> "#"%string /\ is_point h x = false /\
  fused_label right jn h x y <> "#"%string /\
  in_row h (beside right (s_subset (sob h x)) (s_subset (sob h y))) /\ in_row h (s_subset (sob h p)).
(** The same for neighbours that need not have a parent. *)
Definition fusible (right : bool) (jn : string -> string -> string) (h : heap) (x y : oid) : Prop :=
  neighbour right h x = Some y /\ x <> y /\ user_obj h x /\ user_obj h y /\ s_cls (sob h y) = s_cls (sob h x) /\
  fused_label right jn h x y <> "#"%string /\
  in_row h (beside right (s_subset (sob h x)) (s_subset (sob h y))).

(** The tier that [x] says it is in lists [y], and nothing else of that value. *)
Definition tiered (h : heap) (x y : oid) (t : tid) : Prop :=
  s_intier (sob h x) = Some t /\ (t < List.length (h_tier h))%nat /\ NoDup (t_seq (tob h t)) /\
  In y (t_seq (tob h t)) /\ forall z, In z (t_seq (tob h t)) -> same_value h z y -> z = y.

(** The interval [x] without parent is in the tier [t], a linked row of
    intervals of one class without parents, and has a neighbour [y] there with
    which it can be fused. *)
Definition fusible_top (right : bool) (jn : string -> string -> string) (h : heap) (t : tid) (x y : oid) : Prop :=
  s_intier (sob h x) = Some t /\ (t < List.length (h_tier h))%nat /\ In x (t_seq (tob h t)) /\
  in_row h (t_seq (tob h t)) /\ chained h (t_seq (tob h t)) /\
  (forall z, In z (t_seq (tob h t)) -> user_obj h z /\ s_super (sob h z) = None /\ s_cls (sob h z) = s_cls (sob h x)) /\
  neighbour right h x = Some y /\ s_label (sob h y) <> "#"%string /\ is_point h x = false /\
  fused_label right jn h x y <> "#"%string /\
  in_row h (beside right (s_subset (sob h x)) (s_subset (sob h y))).

(** From [h] to [h'], [x] has absorbed [y], and nothing else happened. *)
Definition absorbed (right : bool) (jn : string -> string -> string) (x y : oid) (h h' : heap) : Prop :=
  (** the values of [x] *)
  s_cls (sob h' x) = s_cls (sob h x) /\
  s_start (sob h' x) = s_start (sob h (if right then x else y)) /\
  s_end (sob h' x) = s_end (sob h (if right then y else x)) /\
  s_label (sob h' x) = fused_label right jn h x y /\
  (** the children of [x] and [y] *)
  s_subset (sob h' x) = beside right (s_subset (sob h x)) (s_subset (sob h y)) /\ chained h' (s_subset (sob h' x)) /\
  s_subset (sob h' y) = [] /\ (forall z, In z (s_subset (sob h y)) -> s_super (sob h' z) = Some x) /\
  (** [y] has left its parent *)
  s_super (sob h' y) = None /\
  (forall p, s_super (sob h x) = Some p -> exists l1 l2,
     s_subset (sob h p) = (l1 ++ beside right [x] [y] ++ l2)%list /\ s_subset (sob h' p) = (l1 ++ x :: l2)%list) /\
  (** other values, parents and children *)
  (forall i, (i < List.length (h_seq h))%nat -> i <> x ->
     s_cls (sob h' i) = s_cls (sob h i) /\ s_start (sob h' i) = s_start (sob h i) /\
     s_end (sob h' i) = s_end (sob h i) /\ s_label (sob h' i) = s_label (sob h i)) /\
  (forall i, i <> y -> ~ In i (s_subset (sob h y)) -> s_super (sob h' i) = s_super (sob h i)) /\
  (forall q, q <> x -> q <> y -> s_super (sob h x) <> Some q -> s_subset (sob h' q) = s_subset (sob h q)) /\
  (forall i, (List.length (h_seq h) <= i < List.length (h_seq h'))%nat -> is_boundary h' i) /\
  h_cls h' = h_cls h /\ h_grp h' = h_grp h /\ h_grid h' = h_grid h.
(** The tier [t] has lost [y], and no other tier changed. *)
Definition tier_loses (t : tid) (y : oid) (h h' : heap) : Prop :=
  (exists l1 l2, t_seq (tob h t) = (l1 ++ y :: l2)%list /\ t_seq (tob h' t) = (l1 ++ l2)%list) /\
  t_ec (tob h' t) = t_ec (tob h t) /\ t_super (tob h' t) = t_super (tob h t) /\ t_sub (tob h' t) = t_sub (tob h t) /\
  t_name (tob h' t) = t_name (tob h t) /\ t_within (tob h' t) = t_within (tob h t) /\
  List.length (h_tier h') = List.length (h_tier h) /\ forall u, u <> t -> tob h' u = tob h u.

End WithEnv.
