(** * Properties C07-C09: fol and prev.  Theorems only; proofs in
    ListFinal.v and TierFinal.v. *)
From Verif Require Import ListFinal Demo Refute.
Open Scope Z_scope.

(** C07: setting fol sets the other side's prev, and nothing else. *)
Theorem C07_fol : forall h x y,
  x <> y -> (x < List.length (h_seq h))%nat -> (y < List.length (h_seq h))%nat ->
  s_cls (sob h y) = s_cls (sob h x) -> s_label (sob h x) <> "#"%string -> s_label (sob h y) <> "#"%string ->
  s_fol (sob h x) <> Some y ->
  exists h', set_fol x y h = Ok tt h' /\
    s_fol (sob h' x) = Some y /\ s_prev (sob h' y) = Some x /\
    s_prev (sob h' x) = s_prev (sob h x) /\ s_fol (sob h' y) = s_fol (sob h y) /\
    same_but_links (sob h x) (sob h' x) /\ same_but_links (sob h y) (sob h' y) /\
    (forall i, i <> x -> i <> y -> sob h' i = sob h i) /\
    List.length (h_seq h') = List.length (h_seq h) /\ same_rest h h'.
Proof. exact c07_fol. Qed.
Print Assumptions C07_fol.
Example C07_fol_case :
  s_fol (sob ex_phones 3) <> Some 6%nat /\
  exists h', set_fol 3 6 ex_phones = Ok tt h' /\ s_fol (sob h' 3) = Some 6%nat /\ s_prev (sob h' 6) = Some 3%nat.
Proof. split; [vm_compute; discriminate|]. eexists. split; [vm_compute; reflexivity|]. split; reflexivity. Qed.
Theorem C07_prev : forall h x y,
  x <> y -> (x < List.length (h_seq h))%nat -> (y < List.length (h_seq h))%nat ->
  s_cls (sob h y) = s_cls (sob h x) -> s_label (sob h x) <> "#"%string -> s_label (sob h y) <> "#"%string ->
  s_prev (sob h y) <> Some x ->
  exists h', set_prev y x h = Ok tt h' /\
    s_prev (sob h' y) = Some x /\ s_fol (sob h' x) = Some y /\
    s_fol (sob h' y) = s_fol (sob h y) /\ s_prev (sob h' x) = s_prev (sob h x) /\
    same_but_links (sob h y) (sob h' y) /\ same_but_links (sob h x) (sob h' x) /\
    (forall i, i <> y -> i <> x -> sob h' i = sob h i) /\
    List.length (h_seq h') = List.length (h_seq h) /\ same_rest h h'.
Proof. exact c07_prev. Qed.
Print Assumptions C07_prev.
Example C07_prev_case :
  s_prev (sob ex_phones 6) <> Some 3%nat /\
  exists h', set_prev 6 3 ex_phones = Ok tt h' /\ s_fol (sob h' 3) = Some 6%nat /\ s_prev (sob h' 6) = Some 3%nat.
Proof. split; [vm_compute; discriminate|]. eexists. split; [vm_compute; reflexivity|]. split; reflexivity. Qed.
(** C07: setting what is already set does nothing at all. *)
Theorem C07_settled : forall h x y,
  x <> y -> (s_fol (sob h x) = Some y -> set_fol x y h = Ok tt h) /\
  (s_prev (sob h x) = Some y -> set_prev x y h = Ok tt h).
Proof. exact c07_settled. Qed.
Print Assumptions C07_settled.
(** C07: linking an object to itself or to another class's object raises. *)
Theorem C07_self : forall h x,
  set_fol x x h = Raise PyException h /\ set_prev x x h = Raise PyException h.
Proof. exact c07_self. Qed.
Print Assumptions C07_self.
Theorem C07_class : forall h x y,
  x <> y -> s_label (sob h x) <> "#"%string -> s_cls (sob h y) <> s_cls (sob h x) ->
  (s_fol (sob h x) <> Some y -> set_fol x y h = Raise PyException h) /\
  (s_prev (sob h x) <> Some y -> set_prev x y h = Raise PyException h).
Proof. exact c07_class. Qed.
Print Assumptions C07_class.
Example C07_class_case :
  s_cls (sob ex_phones 9) <> s_cls (sob ex_phones 3) /\ set_fol 3 9 ex_phones = Raise PyException ex_phones.
Proof. split; [vm_compute; discriminate|vm_compute; reflexivity]. Qed.

(** C07, why "not already set" is needed: after A.set_fol(C), B.set_fol(C),
    A.set_fol(C) the last call does nothing, and C.prev stays B. *)
Theorem C07_settled_refuted :
  exists h x y h', x <> y /\ s_cls (sob h x) = s_cls (sob h y) /\
    s_label (sob h x) <> "#"%string /\ s_label (sob h y) <> "#"%string /\
    set_fol x y h = Ok tt h' /\ s_fol (sob h' x) = Some y /\ s_prev (sob h' y) <> Some x.
Proof. exact c07_settled_refuted. Qed.
Print Assumptions C07_settled_refuted.

(** C08: (re)linking the children of an interval links them end to end,
    whatever the links were. *)
Theorem C08_children : forall h s c,
  NoDup (s_subset (sob h s)) ->
  (forall x, In x (s_subset (sob h s)) ->
     (x < List.length (h_seq h))%nat /\ s_cls (sob h x) = c /\ s_label (sob h x) <> "#"%string) ->
  exists h', set_subset_precedence s h = Ok tt h' /\ chained h' (s_subset (sob h s)).
Proof. exact c08_children. Qed.
Print Assumptions C08_children.
Example C08_children_case :
  let h := upd_seq 9 (set_s_subset [3;6;0]%nat) ex_phones in
  NoDup (s_subset (sob h 9)) /\
  (forall x, In x (s_subset (sob h 9)) ->
     (x < List.length (h_seq h))%nat /\ s_cls (sob h x) = cPhone /\ s_label (sob h x) <> "#"%string) /\
  exists h', set_subset_precedence 9 h = Ok tt h' /\
    map (fun x => s_fol (sob h' x)) [3;6;0]%nat = [Some 6; Some 0; Some 13]%nat.
Proof.
  cbv zeta. split; [apply NoDup_ListNoDup; vm_compute; repeat constructor; simpl; intuition discriminate|].
  split.
  - intros x Hx. vm_compute in Hx. destruct Hx as [<-|[<-|[<-|[]]]]; vm_compute; repeat split; try lia; discriminate.
  - eexists. split; [vm_compute; reflexivity|]. reflexivity.
Qed.

(** C09: relinking changes only fol/prev, only of the list's members, and
    creates only boundary objects. *)
Theorem C09_children : forall h s c,
  NoDup (s_subset (sob h s)) ->
  (forall x, In x (s_subset (sob h s)) ->
     (x < List.length (h_seq h))%nat /\ s_cls (sob h x) = c /\ s_label (sob h x) <> "#"%string) ->
  let h' := heap_of (set_subset_precedence s h) in
  (forall i, (i < List.length (h_seq h))%nat -> same_but_links (sob h i) (sob h' i)) /\
  (forall i, (i < List.length (h_seq h))%nat -> ~ In i (s_subset (sob h s)) -> sob h' i = sob h i) /\
  (forall i, (List.length (h_seq h) <= i < List.length (h_seq h'))%nat -> is_boundary h' i) /\
  same_rest h h'.
Proof. exact c09_children. Qed.
Print Assumptions C09_children.
