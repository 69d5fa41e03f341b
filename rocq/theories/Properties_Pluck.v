(** * C71: popping an interval from a tier. *)
From Verif Require Import PluckSpec PluckFinal DemoPluck.
From Verif Require Import ChildSpec.
Open Scope Z_scope.

(** C71: popping an entry takes it, and nothing else, out of the tier and out of
    its parent's children; the other children are linked to each other; nothing
    else changes. *)
Theorem C71_pop `{Env} : forall h t x, (t < List.length (h_tier h))%nat -> NoDup (t_seq (tob h t)) -> In x (t_seq (tob h t)) -> sole_value h (t_seq (tob h t)) x ->
  (x < List.length (h_seq h))%nat -> filed h x -> (forall p, s_super (sob h x) = Some p -> ~ In p (s_subset (sob h p))) ->
  t_super (tob h t) <> Some cTop ->
  exists h', tier_pop t x h = Ok tt h' /\ tier_loses t x h h' /\ left_family h h' x /\
    s_fol (sob h' x) = s_fol (sob h x) /\ s_prev (sob h' x) = s_prev (sob h x) /\ tiers_only h h' /\
    (forall i, (i < List.length (h_seq h))%nat -> i <> x ->
       (forall p, s_super (sob h x) = Some p -> i <> p /\ ~ In i (s_subset (sob h p))) -> sob h' i = sob h i).
Proof. exact c71_pop. Qed.
Print Assumptions C71_pop.
Example C71_pop_case : let E : Env := demo_env in
  (1 < List.length (h_tier ex_three))%nat /\ NoDup (t_seq (tob ex_three 1)) /\ In 19%nat (t_seq (tob ex_three 1)) /\
  sole_value ex_three (t_seq (tob ex_three 1)) 19 /\ filed ex_three 19 /\
  (forall p, s_super (sob ex_three 19) = Some p -> ~ In p (s_subset (sob ex_three p))) /\ t_super (tob ex_three 1) <> Some cTop /\
  exists h', tier_pop 1 19 ex_three = Ok tt h' /\ t_seq (tob h' 1) = [13; 16; 22; 25]%nat /\ s_subset (sob h' 3) = [22]%nat /\ s_super (sob h' 19) = None.
Proof.
  cbv zeta. split; [vm_compute; lia|]. split; [apply nodup_by; vm_compute; reflexivity|]. split; [vm_compute; auto|].
  split; [apply sole_by; vm_compute; reflexivity|]. split; [exact three_filed|]. split; [intros p [= <-]; vm_compute; intuition discriminate|].
  split; [vm_compute; discriminate|]. eexists. split; [vm_compute; reflexivity|]. repeat split.
Qed.
(** C71: in a tier whose superset class is Top, the entries that stay are linked
    to each other. *)
Theorem C71_top `{Env} : forall h t x c, (t < List.length (h_tier h))%nat -> linkable h c (t_seq (tob h t)) -> In x (t_seq (tob h t)) ->
  sole_value h (t_seq (tob h t)) x -> s_super (sob h x) = None -> t_super (tob h t) = Some cTop ->
  exists h', tier_pop t x h = Ok tt h' /\ tier_loses t x h h' /\ tiers_only h h' /\
    chained h' (t_seq (tob h' t)) /\ contains_of h' (WTier t) = Some (t_seq (tob h' t)) /\
    (forall y, In y (t_seq (tob h' t)) -> same_but_place (sob h y) (sob h' y) /\ s_intier (sob h' y) = Some t /\ s_within (sob h' y) = Some (WTier t)) /\
    (forall i, (i < List.length (h_seq h))%nat -> ~ In i (t_seq (tob h' t)) -> sob h' i = sob h i).
Proof. exact c71_top. Qed.
Print Assumptions C71_top.
Example C71_top_case : let E : Env := demo_env in
  linkable ex_solo cInterval (t_seq (tob ex_solo 0)) /\ In 3%nat (t_seq (tob ex_solo 0)) /\ sole_value ex_solo (t_seq (tob ex_solo 0)) 3 /\
  s_super (sob ex_solo 3) = None /\ t_super (tob ex_solo 0) = Some cTop /\
  exists h', tier_pop 0 3 ex_solo = Ok tt h' /\ t_seq (tob h' 0) = [0; 6]%nat /\ s_fol (sob h' 0) = Some 6%nat.
Proof.
  cbv zeta. split; [split; [apply nodup_by; vm_compute; reflexivity|intros y Hy; members; (split; [vm_compute; lia|split; [reflexivity|vm_compute; discriminate]])]|].
  split; [vm_compute; auto|]. split; [apply sole_by; vm_compute; reflexivity|]. split; [reflexivity|]. split; [reflexivity|].
  eexists. split; [vm_compute; reflexivity|]. split; reflexivity.
Qed.
(** C71: with another superset class, and without parents, they are not... *)
Theorem C71_links_refuted `{Env} : let E : Env := demo_env in exists h t x h',
  (t < List.length (h_tier h))%nat /\ NoDup (t_seq (tob h t)) /\ In x (t_seq (tob h t)) /\ sole_value h (t_seq (tob h t)) x /\
  filed h x /\ chained h (t_seq (tob h t)) /\ tier_pop t x h = Ok tt h' /\ ~ In x (t_seq (tob h' t)) /\
  (exists y, In y (t_seq (tob h' t)) /\ s_fol (sob h' y) = Some x) /\ ~ chained h' (t_seq (tob h' t)).
Proof. exact c71_links_refuted. Qed.
Print Assumptions C71_links_refuted.
(** ...and no popped entry forgets its tier. *)
Theorem C71_tier_refuted `{Env} : let E : Env := demo_env in exists h t x h',
  In x (t_seq (tob h t)) /\ tier_pop t x h = Ok tt h' /\ ~ In x (t_seq (tob h' t)) /\ s_intier (sob h' x) = Some t.
Proof. exact c71_tier_refuted. Qed.
Print Assumptions C71_tier_refuted.
(** C71: popping an interval that is not in the tier but has the times and the
    label of an entry takes that entry out of the tier; its parent keeps it. *)
Theorem C71_twin `{Env} : forall h t x a y b, (t < List.length (h_tier h))%nat -> t_seq (tob h t) = (a ++ y :: b)%list -> same_value h y x ->
  (forall z, In z a -> ~ same_value h z x) -> s_super (sob h x) = None -> t_super (tob h t) <> Some cTop ->
  exists h', tier_pop t x h = Ok tt h' /\ tier_loses t y h h' /\ h_seq h' = h_seq h /\ tiers_only h h'.
Proof. exact c71_twin. Qed.
Print Assumptions C71_twin.
Example C71_twin_case : let E : Env := demo_env in
  t_seq (tob ex_spare 1) = ([13%nat; 16%nat] ++ 19%nat :: [22%nat; 25%nat])%list /\ same_value ex_spare 19 spare /\
  (forall z, In z [13; 16]%nat -> ~ same_value ex_spare z spare) /\ s_super (sob ex_spare spare) = None /\ t_super (tob ex_spare 1) <> Some cTop /\
  exists h', tier_pop 1 spare ex_spare = Ok tt h' /\ t_seq (tob h' 1) = [13; 16; 22; 25]%nat /\ s_subset (sob h' 3) = [19; 22]%nat.
Proof.
  cbv zeta. split; [reflexivity|]. split; [repeat split|]. split; [intros z [<-|[<-|[]]] (_ & V & _); vm_compute in V; discriminate|]. split; [reflexivity|].
  split; [vm_compute; discriminate|]. eexists. split; [vm_compute; reflexivity|]. split; reflexivity.
Qed.
(** C71: popping what is not in the tier raises, and nothing changes. *)
Theorem C71_absent `{Env} : forall h t x, ~ listed h (t_seq (tob h t)) x -> tier_pop t x h = Raise PyException h.
Proof. exact c71_absent. Qed.
Print Assumptions C71_absent.
Example C71_absent_case : let E : Env := demo_env in
  ~ listed ex_three (t_seq (tob ex_three 0)) 19 /\ tier_pop 0 19 ex_three = Raise PyException ex_three.
Proof.
  cbv zeta. split; [|vm_compute; reflexivity]. intros (y & Hy & D). members; (destruct D as [D|(_ & V & V2 & _)]; [discriminate D|vm_compute in V; vm_compute in V2; discriminate]).
Qed.
