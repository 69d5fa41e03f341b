(** * History: sequences of calls on intervals and points, and what must hold
    after each.  Specification only. *)
From Verif Require Export Spec SeqOps.
Open Scope Z_scope.

Section WithEnv.
Context `{Env}.

(** One call of the public interface (sequences.py:118-217, 369-459, 484-492;
    assignments to the attributes start, end and label). *)
Inductive op :=
  | New (c : cid) (st en : option Z) (lab : string)  (* c((st, en, lab)) *)
  | Append (s x : oid)                               (* s.append_subset_list(x) *)
  | SetSuper (x s : oid)                             (* x.set_super_instance(s) *)
  | Assign (s : oid) (l : list oid)                  (* s.subset_list = l *)
  | Remove (s x : oid)                               (* s.remove_from_subset_list(x) *)
  | Detach (x : oid)                                 (* x.remove_superset() *)
  | Pop (s x : oid)                                  (* s.pop(x) *)
  | SetTimes (x : oid) (st en : option Z)            (* x.start, x.end = st, en *)
  | SetLabel (x : oid) (lab : string).               (* x.label = lab *)

Definition call (o : op) : M unit :=
  match o with
  | New c st en lab => new_obj c st en lab ;;; ret tt
  | Append s x => append_subset_list s x
  | SetSuper x s => set_super_instance x s
  | Assign s l => subset_setter s l
  | Remove s x => remove_from_subset_list s x
  | Detach x => remove_superset x
  | Pop s x => seq_pop s x
  | SetTimes x st en => mod_seq x (fun o => set_s_end en (set_s_start st o))
  | SetLabel x lab => mod_seq x (set_s_label lab)
  end.

(** An object the user made (not a boundary object). *)
Definition user_obj (h : heap) (x : oid) : Prop :=
  (x < List.length (h_seq h))%nat /\ s_label (sob h x) <> "#"%string.
(** No child of [s] other than [x] has [x]'s value. *)
Definition no_twin (h : heap) (s x : oid) : Prop :=
  forall y, In y (s_subset (sob h s)) -> same_value h y x -> y = x.

(** Which calls a history may contain at state [h].  [K] is the set of classes
    in use. *)
Definition allowed (K : cid -> Prop) (h : heap) (o : op) : Prop :=
  match o with
  | New c _ _ lab => K c /\ lab <> "#"%string
  | Append s x => user_obj h s /\ user_obj h x /\ no_twin h s x
  | SetSuper x s => user_obj h s /\ user_obj h x /\ no_twin h s x /\
      (s_super (sob h x) = None \/ s_super (sob h x) = Some s)
  | Assign s l => user_obj h s /\ (forall x, In x l -> user_obj h x) /\ NoDup l /\
      (forall x y, In x l -> In y l -> same_value h x y -> x = y) /\
      (forall x, In x l -> no_twin h s x)
  | Remove s x | Pop s x => user_obj h s /\ user_obj h x /\ no_twin h s x
  | Detach x => user_obj h x
  | SetTimes x _ _ => user_obj h x /\
      (forall p, s_super (sob h x) = Some p -> no_twin (heap_of (call o h)) p x)
  | SetLabel x lab => user_obj h x /\ lab <> "#"%string /\
      (forall p, s_super (sob h x) = Some p -> no_twin (heap_of (call o h)) p x)
  end.

(** [reach K only h]: [h] results from some history of allowed calls that meet
    [only], starting without objects.  A call that raises counts with the state
    it leaves behind. *)
Inductive reach (K : cid -> Prop) (only : op -> Prop) : heap -> Prop :=
  | reach_start h : h_seq h = [] -> separate_chains h K -> reach K only h
  | reach_step h o : reach K only h -> allowed K h o -> only o ->
      reach K only (heap_of (call o h)).

(** Families in order: children and parents point at each other, nobody is
    listed twice, classes fit, and each list of children is linked. *)
Definition families_ok (h : heap) : Prop :=
  (forall p x, In x (s_subset (sob h p)) ->
     s_super (sob h x) = Some p /\ subset_class h (s_cls (sob h p)) = Some (s_cls (sob h x))) /\
  (forall x p, s_super (sob h x) = Some p -> In x (s_subset (sob h p))) /\
  (forall p, NoDup (s_subset (sob h p))) /\
  (forall p, chained h (s_subset (sob h p))).

(** Calls that keep every start time a known, non-zero number. *)
Definition timed (o : op) : Prop :=
  match o with
  | New _ st _ _ => exists t, st = Some t /\ t <> 0
  | SetTimes _ _ _ => False
  | _ => True
  end.

(** Class, times and label of the existing objects are as before. *)
Definition same_values (h h' : heap) : Prop :=
  h_cls h' = h_cls h /\ h_tier h' = h_tier h /\ h_grp h' = h_grp h /\ h_grid h' = h_grid h /\
  forall i, (i < List.length (h_seq h))%nat ->
    s_cls (sob h' i) = s_cls (sob h i) /\ s_start (sob h' i) = s_start (sob h i) /\
    s_end (sob h' i) = s_end (sob h i) /\ s_label (sob h' i) = s_label (sob h i).

(** From [h] to [h'] exactly [x] has left its parent [s]. *)
Definition left_parent (s x : oid) (h h' : heap) : Prop :=
  s_super (sob h' x) = None /\
  (exists l1 l2, s_subset (sob h s) = (l1 ++ x :: l2)%list /\ s_subset (sob h' s) = (l1 ++ l2)%list /\
     ~ In x (l1 ++ l2)) /\
  (forall q, q <> s -> s_subset (sob h' q) = s_subset (sob h q)) /\
  (forall y, y <> x -> s_super (sob h' y) = s_super (sob h y)) /\
  same_values h h'.

(** From [h] to [h'] exactly [x] has become a child of [s], leaving its former
    parent if it had one. *)
Definition joined (s x : oid) (h h' : heap) : Prop :=
  s_super (sob h' x) = Some s /\
  (exists l1 l2, s_subset (sob h s) = (l1 ++ l2)%list /\ s_subset (sob h' s) = (l1 ++ x :: l2)%list) /\
  (forall q, q <> s -> keep_if (fun y => y <> x) (s_subset (sob h q)) (s_subset (sob h' q))) /\
  (forall y, y <> x -> s_super (sob h' y) = s_super (sob h y)) /\
  same_values h h'.

(** From [h] to [h'] the children of [s] have become those of [l]. *)
Definition reassigned (s : oid) (l : list oid) (h h' : heap) : Prop :=
  Permutation (s_subset (sob h' s)) l /\
  (forall x, In x l -> s_super (sob h' x) = Some s) /\
  (forall x, ~ In x l -> s_super (sob h x) = Some s -> s_super (sob h' x) = None) /\
  (forall x, ~ In x l -> s_super (sob h x) <> Some s -> s_super (sob h' x) = s_super (sob h x)) /\
  (forall q, q <> s -> keep_if (fun y => ~ In y l) (s_subset (sob h q)) (s_subset (sob h' q))) /\
  same_values h h'.

End WithEnv.
