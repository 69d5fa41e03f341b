(** * C70: adding two intervals. *)
From Verif Require Import PlusSpec PlusFinal DemoPlus.
From Verif Require Import ChildSpec.
Open Scope Z_scope.

(** C70: the sum of an interval and an interval of the class below is a new object
    that has the attributes of the left operand; the right operand is its only
    child, and knows the sum, not the left operand, as its parent; the children
    that the left operand had are without parent. *)
Theorem C70_child `{Env} : forall h c s x, family h c s -> issubclass h (s_cls (sob h s)) cInterval = true -> superset_class h c = Some (s_cls (sob h s)) ->
  sound_child h c x -> s_super (sob h x) = None -> x <> s -> ~ listed h (s_subset (sob h s)) x -> all_apart h (s_subset (sob h s)) ->
  exists w h', seq_plus s x h = Ok w h' /\ twin_of h h' s w /\
    s_subset (sob h' w) = [x] /\ contains_of h' (WSeq w) = Some [x] /\ same_but_kids (sob h s) (sob h' w) /\
    s_super (sob h' x) = Some w /\ s_within (sob h' x) = Some (WSeq w) /\ same_but_home (sob h x) (sob h' x) /\ chained h' [x] /\
    (forall y, In y (s_subset (sob h s)) -> parentless (sob h y) (sob h' y)) /\
    forall i, (i < List.length (h_seq h))%nat -> i <> s -> i <> x -> ~ In i (s_subset (sob h s)) -> sob h' i = sob h i.
Proof. exact c70_child. Qed.
Print Assumptions C70_child.
Example C70_child_case : let E : Env := demo_env in
  family ex_kin 6 28 /\ issubclass ex_kin (s_cls (sob ex_kin 28)) cInterval = true /\ superset_class ex_kin 6 = Some (s_cls (sob ex_kin 28)) /\
  sound_child ex_kin 6 11 /\ s_super (sob ex_kin 11) = None /\ ~ listed ex_kin (s_subset (sob ex_kin 28)) 11 /\ all_apart ex_kin (s_subset (sob ex_kin 28)) /\
  exists w h', seq_plus 28 11 ex_kin = Ok w h' /\ w <> 28%nat /\ s_subset (sob h' w) = [11]%nat /\ s_subset (sob h' 28) = [11]%nat /\
    s_super (sob h' 11) = Some w /\ s_label (sob h' w) = "e"%string.
Proof.
  cbv zeta. split; [exact kin_bare|]. split; [reflexivity|]. split; [reflexivity|]. split; [sound|]. split; [reflexivity|]. split; [unlisted|].
  split; [exact bare_apart|]. eexists _, _. split; [vm_compute; reflexivity|]. split; [discriminate|]. repeat split.
Qed.
(** C70: that the children which the left operand had stay is false... *)
Theorem C70_kept_refuted `{Env} : let E : Env := demo_env in exists h c s x y w h',
  family h c s /\ issubclass h (s_cls (sob h s)) cInterval = true /\ superset_class h c = Some (s_cls (sob h s)) /\
  sound_child h c x /\ s_super (sob h x) = None /\ x <> s /\ ~ listed h (s_subset (sob h s)) x /\ all_apart h (s_subset (sob h s)) /\
  seq_plus s x h = Ok w h' /\ In y (s_subset (sob h s)) /\ ~ In y (s_subset (sob h' w)).
Proof. exact c70_kept_refuted. Qed.
Print Assumptions C70_kept_refuted.
(** ...and so two sums in a row leave one child. *)
Theorem C70_both_refuted `{Env} : let E : Env := demo_env in exists h s x y w h',
  s_subset (sob h s) = [] /\ x <> y /\
  (v <- seq_plus s x ;; seq_plus v y) h = Ok w h' /\ s_subset (sob h' w) = [y] /\ s_super (sob h' x) = None.
Proof. exact c70_both_refuted. Qed.
Print Assumptions C70_both_refuted.
(** C70: the sum of an interval and an interval of the class above is a copy of the
    left operand that has been added to the children of the right one. *)
Theorem C70_under `{Env} : forall h c s x d, family h c x -> sound_child h c s -> issubclass h c cInterval = true ->
  superset_class h (s_cls (sob h x)) = Some d -> issubclass h c d = false ->
  s_super (sob h s) = None -> s <> x -> ~ listed h (s_subset (sob h x)) s ->
  exists w h' b, seq_plus s x h = Ok w h' /\ twin_of h h' s w /\
    Permutation b (w :: s_subset (sob h x)) /\ sorted_starts h' b /\ rears h h' c x b /\
    same_but_home (sob h s) (sob h' w) /\ (forall y, In y (s_subset (sob h x)) -> same_but_home (sob h y) (sob h' y)) /\
    forall i, (i < List.length (h_seq h))%nat -> i <> s -> i <> x -> ~ In i (s_subset (sob h x)) -> sob h' i = sob h i.
Proof. exact c70_under. Qed.
Print Assumptions C70_under.
Example C70_under_case : let E : Env := demo_env in
  family ex_kin 6 0 /\ sound_child ex_kin 6 11 /\ issubclass ex_kin 6 cInterval = true /\
  superset_class ex_kin (s_cls (sob ex_kin 0)) = Some 7%nat /\ issubclass ex_kin 6 7 = false /\
  s_super (sob ex_kin 11) = None /\ ~ listed ex_kin (s_subset (sob ex_kin 0)) 11 /\
  exists w h', seq_plus 11 0 ex_kin = Ok w h' /\ w <> 11%nat /\ s_subset (sob h' 0) = [3; w; 6]%nat /\ s_super (sob h' w) = Some 0%nat.
Proof.
  cbv zeta. split; [exact kin_family|]. split; [sound|]. split; [reflexivity|]. split; [reflexivity|]. split; [reflexivity|]. split; [reflexivity|].
  split; [unlisted|]. eexists _, _. split; [vm_compute; reflexivity|]. split; [discriminate|]. split; vm_compute; reflexivity.
Qed.
(** C70: two intervals of classes of which neither is next to the other are refused,
    and no object is different. *)
Theorem C70_refused `{Env} : forall h s x d e, (s < List.length (h_seq h))%nat -> s_label (sob h s) <> "#"%string -> issubclass h (s_cls (sob h s)) cInterval = true ->
  superset_class h (s_cls (sob h x)) = Some d -> issubclass h (s_cls (sob h s)) d = false ->
  subset_class h (s_cls (sob h x)) = Some e -> issubclass h (s_cls (sob h s)) e = false -> (x < List.length (h_seq h))%nat ->
  exists h', seq_plus s x h = Raise ValueError h' /\ same_rest h h' /\
    forall i, (i < List.length (h_seq h))%nat -> sob h' i = sob h i.
Proof. exact c70_refused. Qed.
Print Assumptions C70_refused.
Example C70_refused_case : let E : Env := demo_env in
  s_label (sob ex_kin 0) <> "#"%string /\ issubclass ex_kin (s_cls (sob ex_kin 0)) cInterval = true /\
  superset_class ex_kin (s_cls (sob ex_kin 14)) = Some 7%nat /\ issubclass ex_kin (s_cls (sob ex_kin 0)) 7 = false /\
  subset_class ex_kin (s_cls (sob ex_kin 14)) = Some 6%nat /\ issubclass ex_kin (s_cls (sob ex_kin 0)) 6 = false /\
  exists h', seq_plus 0 14 ex_kin = Raise ValueError h'.
Proof.
  cbv zeta. split; [vm_compute; discriminate|]. repeat (split; [reflexivity|]). eexists. vm_compute. reflexivity.
Qed.
