(** * Properties C08, C09 (tiers), C18 and C33: making and relinking tiers.
    Theorems only; proofs in TierFinal.v and PointFinal.v. *)
From Verif Require Import PointFinal DemoGrid.
Open Scope Z_scope.

(** C08: assigning a tier's sequence list sorts its entries and links them
    end to end, whatever the links were. *)
Theorem C08_tier `{Env} : forall h t c s l, (t < List.length (h_tier h))%nat -> linkable h c l -> known_starts h l ->
  t_super (tob h t) = Some s ->
  exists h', tier_set_seq t l h = Ok tt h' /\ Permutation (t_seq (tob h' t)) l /\
    sorted_starts h' (t_seq (tob h' t)) /\ chained h' (t_seq (tob h' t)).
Proof. exact c08_tier. Qed.
Print Assumptions C08_tier.
Example C08_tier_case : let E : Env := demo_env in
  linkable ex_grid 12%nat [19;10;16]%nat /\ known_starts ex_grid [19;10;16]%nat /\
  t_super (tob ex_grid 1) = Some 10%nat /\
  exists h', tier_set_seq 1 [19;10;16]%nat ex_grid = Ok tt h' /\ t_seq (tob h' 1) = [10;16;19]%nat /\
    s_fol (sob h' 10) = Some 16%nat /\ s_fol (sob ex_grid 10) <> Some 16%nat.
Proof.
  cbv zeta. split; [split; [apply nodup_by; reflexivity|intros x Hx; members; finish]|].
  split; [intros x Hx; members; finish|]. split; [reflexivity|].
  eexists. split; [vm_compute; reflexivity|]. split; [reflexivity|]. split; [reflexivity|vm_compute; discriminate].
Qed.
(** C08: linking a point tier. *)
Theorem C08_points `{Env} : forall h t c, (t < List.length (h_tier h))%nat -> linkable h c (t_seq (tob h t)) ->
  exists h', ptier_precedence t h = Ok tt h' /\ placed t true (t_seq (tob h t)) h h' /\
    chained h' (t_seq (tob h t)).
Proof. exact c08_points. Qed.
Print Assumptions C08_points.
Example C08_points_case : linkable ex_grid 9%nat (t_seq (tob ex_grid 2)) /\
  exists h', ptier_precedence 2 (run (mod_seq 30 (set_s_fol None)) ex_grid) = Ok tt h' /\ s_fol (sob h' 30) = Some 33%nat.
Proof.
  split; [split; [apply nodup_by; reflexivity|intros x Hx; members; finish]|].
  eexists. split; [vm_compute; reflexivity|reflexivity].
Qed.
(** C09: assigning a tier's sequence list changes nothing but the links, the
    tier and the container of the new entries. *)
Theorem C09_tier `{Env} : forall h t c s l, (t < List.length (h_tier h))%nat -> linkable h c l -> known_starts h l ->
  t_super (tob h t) = Some s ->
  let h' := heap_of (tier_set_seq t l h) in
  (forall x, In x l -> same_but_place (sob h x) (sob h' x) /\ s_intier (sob h' x) = Some t) /\
  (forall i, (i < List.length (h_seq h))%nat -> ~ In i l -> sob h' i = sob h i) /\
  (forall i, (List.length (h_seq h) <= i < List.length (h_seq h'))%nat -> is_boundary h' i) /\
  h_cls h' = h_cls h /\ h_grp h' = h_grp h /\ h_grid h' = h_grid h /\
  (forall u, u <> t -> tob h' u = tob h u).
Proof. exact c09_tier. Qed.
Print Assumptions C09_tier.
Example C09_tier_case : let E : Env := demo_env in
  linkable ex_grid 12%nat [10;16]%nat /\ known_starts ex_grid [10;16]%nat /\ t_super (tob ex_grid 1) = Some 10%nat /\
  let h' := heap_of (tier_set_seq 1 [10;16]%nat ex_grid) in sob h' 16 <> sob ex_grid 16 /\ sob h' 13 = sob ex_grid 13.
Proof.
  cbv zeta. split; [split; [apply nodup_by; reflexivity|intros x Hx; members; finish]|].
  split; [intros x Hx; members; finish|]. split; [reflexivity|]. split; [vm_compute; discriminate|reflexivity].
Qed.

(** C18: a new tier of intervals holds one object per entry, in start order,
    with the entry's times and label, linked end to end and in the tier. *)
Theorem C18_built `{Env} : forall h s ec c sc ents, gives h s ents -> picks h cInterval ents ec c ->
  issubclass h c cPoint = false -> superset_class h c = Some sc -> usable h cInterval ents ->
  exists t h' ents', new_itier s ec h = Ok t h' /\
    Permutation ents' ents /\ (in_order h ents -> ents' = ents) /\
    Forall2 (made h h' c) ents' (t_seq (tob h' t)) /\
    sorted_starts h' (t_seq (tob h' t)) /\ chained h' (t_seq (tob h' t)) /\
    (forall x, In x (t_seq (tob h' t)) -> s_intier (sob h' x) = Some t) /\
    (issubclass h sc cTop = true -> forall x, In x (t_seq (tob h' t)) -> s_within (sob h' x) = Some (WTier t)) /\
    t_ec (tob h' t) = c /\ named h s c (t_name (tob h' t)) /\ only_adds t (t_seq (tob h' t)) h h' /\
    t_super (tob h' t) = Some sc /\ t_sub (tob h' t) = subset_class h c /\ linkable h' c (t_seq (tob h' t)) /\ t_within (tob h' t) = None /\
    (t_seqec (tob h' t) = Some c \/ t_seq (tob h' t) = [] /\ t_seqec (tob h' t) = None).
Proof. exact c18_built. Qed.
Print Assumptions C18_built.
Example C18_built_case : let E : Env := demo_env in
  let ents := [EObj 16%nat; ERaw (Some 5) (Some 8) "x"; EObj 10%nat] in
  picks ex_grid cInterval ents (Some cPhone) cPhone /\ issubclass ex_grid cPhone cPoint = false /\
  superset_class ex_grid cPhone = Some cWord /\ usable ex_grid cInterval ents /\
  exists h', new_itier (FromList ents) (Some cPhone) ex_grid = Ok 4%nat h' /\
    map (fun x => s_label (sob h' x)) (t_seq (tob h' 4)) = ["x";"a";"c"]%string.
Proof.
  cbv zeta. split; [reflexivity|]. split; [reflexivity|]. split; [reflexivity|]. split.
  - split; [apply nodup_by; reflexivity|]. intros e [<-|[<-|[<-|[]]]].
    all: split; [vm_compute; discriminate|split; [vm_compute; eauto|]].
    all: first [exact I|split; [vm_compute; lia|reflexivity]].
  - eexists. split; [vm_compute; reflexivity|reflexivity].
Qed.
(** C18: an object of the wrong kind is refused. *)
Theorem C18_wrong_kind `{Env} : forall h s ec c ents o, gives h s ents -> picks h cInterval ents ec c ->
  issubclass h c cPoint = false -> (forall x, In (EObj x) ents -> (x < List.length (h_seq h))%nat) ->
  In (EObj o) ents -> issubclass h (s_cls (sob h o)) cInterval = false ->
  exists h', new_itier s ec h = Raise AssertionError h'.
Proof. exact c18_wrong_kind. Qed.
Print Assumptions C18_wrong_kind.
Example C18_wrong_kind_case : let E : Env := demo_env in
  picks ex_grid cInterval [EObj 10; EObj 30]%nat None 12%nat /\ issubclass ex_grid (s_cls (sob ex_grid 30)) cInterval = false /\
  exists h', new_itier (FromList [EObj 10; EObj 30]%nat) None ex_grid = Raise AssertionError h'.
Proof. cbv zeta. split; [reflexivity|]. split; [reflexivity|]. eexists. vm_compute. reflexivity. Qed.

(** C33: a new point tier holds, in time order and linked end to end, one
    point for each different (time, label) of the entries. *)
Theorem C33_built `{Env} : forall h s ec c ents, not_a_tier s -> gives h s ents -> picks h cPoint ents ec c ->
  issubclass h c cPoint = true -> usable_points h ents ->
  exists t h', new_ptier s ec h = Ok t h' /\
    (forall e, In e ents -> exists x, In x (t_seq (tob h' t)) /\ mark_of h' x = mark h e) /\
    (forall x, In x (t_seq (tob h' t)) -> exists e, In e ents /\ made h h' c e x) /\
    NoDup (map (mark_of h') (t_seq (tob h' t))) /\
    (NoDup (map (mark h) ents) -> Permutation (map (mark_of h') (t_seq (tob h' t))) (map (mark h) ents)) /\
    sorted_starts h' (t_seq (tob h' t)) /\ chained h' (t_seq (tob h' t)) /\
    (forall x, In x (t_seq (tob h' t)) -> s_intier (sob h' x) = Some t /\ s_within (sob h' x) = Some (WTier t)) /\
    t_ec (tob h' t) = c /\ named h s c (t_name (tob h' t)) /\ only_points t c ents h h' /\
    linkable h' c (t_seq (tob h' t)).
Proof. exact c33_built. Qed.
Print Assumptions C33_built.
Example C33_built_case : let E : Env := demo_env in
  let ents := [EObj 33%nat; ERaw (Some 0) None "z"; EObj 30%nat; ERaw (Some 35) None "y"; ERaw (Some 2) None "w"] in
  picks ex_grid cPoint ents (Some cPoint) cPoint /\ issubclass ex_grid cPoint cPoint = true /\ usable_points ex_grid ents /\
  exists h', new_ptier (FromList ents) (Some cPoint) ex_grid = Ok 4%nat h' /\
    map (mark_of h') (t_seq (tob h' 4)) =
      [(Some 0, "z"); (Some 2, "w"); (Some 12, "x"); (Some 35, "y")]%string.
Proof.
  cbv zeta. split; [reflexivity|]. split; [reflexivity|]. split.
  - intros e He. split.
    + destruct He as [<-|[<-|[<-|[<-|[<-|[]]]]]]; apply nodup_by; reflexivity.
    + intros e' [<-|[]]. destruct He as [<-|[<-|[<-|[<-|[<-|[]]]]]].
      all: split; [vm_compute; discriminate|split; [vm_compute; eauto|]].
      all: first [exact I|split; [vm_compute; lia|reflexivity]].
  - eexists. split; [vm_compute; reflexivity|reflexivity].
Qed.
(** C33, why not from a tier: SequencePointTier(tier) reads the entries the other
    tier was made from, not those it has now. *)
Theorem C33_copy_refuted : let E : Env := demo_env in
  exists h t x h1 t' h', tier_append 50 t x h = Ok tt h1 /\ In x (t_seq (tob h1 t)) /\
    new_ptier (FromTier t) None h1 = Ok t' h' /\ ~ In x (t_seq (tob h' t')).
Proof.
  cbv zeta. exists ex_grid, 2%nat, 38%nat. do 3 eexists. split; [vm_compute; reflexivity|].
  split; [vm_compute; tauto|]. split; [vm_compute; reflexivity|]. vm_compute. intuition discriminate.
Qed.
Print Assumptions C33_copy_refuted.
