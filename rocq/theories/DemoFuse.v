(** * DemoFuse: concrete families, and counterexamples for C31. *)
From Verif Require Export FuseFinal DemoTree DemoGap.
Open Scope Z_scope.

(** Checks of [chained] and [household] on a concrete heap. *)
Definition boundary_b (h : heap) (k : option oid) : bool :=
  match k with
  | None => false
  | Some k => (k <? List.length (h_seq h))%nat && String.eqb (s_label (sob h k)) "#" &&
      match s_start (sob h k), s_end (sob h k), s_super (sob h k), s_subset (sob h k) with None, None, None, [] => true | _, _, _, _ => false end
  end.
Lemma boundary_by h k : boundary_b h k = true -> exists j, k = Some j /\ is_boundary h j.
Proof.
  destruct k as [k|]; [|discriminate]. simpl. intros B. exists k. split; [reflexivity|].
  apply andb_true_iff in B as [B C]. apply andb_true_iff in B as [A B]. apply Nat.ltb_lt in A. apply String.eqb_eq in B.
  destruct (s_start (sob h k)) eqn:E1; [discriminate|]. destruct (s_end (sob h k)) eqn:E2; [discriminate|].
  destruct (s_super (sob h k)) eqn:E3; [discriminate|]. destruct (s_subset (sob h k)) eqn:E4; [|discriminate].
  repeat split; auto.
Qed.
Fixpoint linked_b (h : heap) (l : list oid) : bool :=
  match l with
  | a :: ((b :: _) as r) => bool_decide (s_fol (sob h a) = Some b) && bool_decide (s_prev (sob h b) = Some a) && linked_b h r
  | _ => true
  end.
Lemma linked_by h l : linked_b h l = true -> forall i a b, nth_error l i = Some a -> nth_error l (S i) = Some b ->
  s_fol (sob h a) = Some b /\ s_prev (sob h b) = Some a.
Proof.
  induction l as [|z l IH]; intros B i a b Ha Hb; [destruct i; discriminate|].
  destruct l as [|w l]; [destruct i; [discriminate|destruct i; discriminate]|].
  cbn [linked_b] in B. apply andb_true_iff in B as [B C]. apply andb_true_iff in B as [A B].
  apply bool_decide_eq_true in A, B. destruct i as [|i].
  - injection Ha as <-. injection Hb as <-. auto.
  - apply (IH C i); auto.
Qed.
Definition chained_b (h : heap) (l : list oid) : bool :=
  linked_b h l &&
  match nth_error l 0 with Some a => boundary_b h (s_prev (sob h a)) | None => true end &&
  match nth_error l (List.length l - 1) with Some a => boundary_b h (s_fol (sob h a)) | None => true end.
Lemma chained_by h l : chained_b h l = true -> chained h l.
Proof.
  intros B. apply andb_true_iff in B as [B C]. apply andb_true_iff in B as [A B].
  split; [apply linked_by; exact A|]. split; intros a Ha; [rewrite Ha in B|rewrite Ha in C].
  - destruct (boundary_by _ _ B) as (j & -> & Bj). eauto.
  - destruct (boundary_by _ _ C) as (j & -> & Bj). eauto.
Qed.

Definition chains_b (h : heap) (ks : list cid) : bool :=
  forallb (fun c => (issubclass h c cInterval || issubclass h c cPoint) &&
    negb (bool_decide (subset_class h c = Some c)) &&
    forallb (fun k =>
      match subset_class h c with Some d => negb (issubclass h k d) || (k =? d)%nat | None => true end &&
      match superset_class h c with Some d => negb (issubclass h k d) || (k =? d)%nat | None => true end &&
      Bool.eqb (bool_decide (subset_class h c = Some k)) (bool_decide (superset_class h k = Some c))) ks) ks.
Lemma chains_by h ks : chains_b h ks = true -> separate_chains h (fun c => In c ks).
Proof.
  intros B. unfold chains_b in B. rewrite forallb_forall in B.
  assert (P : forall c, In c ks -> seq_class h c /\ subset_class h c <> Some c /\ forall k, In k ks ->
    (forall d, subset_class h c = Some d -> issubclass h k d = true -> k = d) /\
    (forall d, superset_class h c = Some d -> issubclass h k d = true -> k = d) /\
    (subset_class h c = Some k <-> superset_class h k = Some c)).
  { intros c Hc. specialize (B c Hc). apply andb_true_iff in B as [B C]. apply andb_true_iff in B as [A B].
    split; [apply orb_true_iff in A; exact A|]. split.
    { intros E. rewrite bool_decide_eq_true_2 in B by exact E. discriminate. }
    intros k Hk. rewrite forallb_forall in C. specialize (C k Hk). apply andb_true_iff in C as [C D]. apply andb_true_iff in C as [C1 C2].
    split; [|split].
    - intros d E I. rewrite E, I in C1. simpl in C1. apply Nat.eqb_eq in C1. exact C1.
    - intros d E I. rewrite E, I in C2. simpl in C2. apply Nat.eqb_eq in C2. exact C2.
    - apply Bool.eqb_prop in D. destruct (bool_decide (subset_class h c = Some k)) eqn:E; symmetry in D.
      + apply bool_decide_eq_true in E, D. tauto.
      + apply bool_decide_eq_false in E, D. tauto. }
  split; [|split; [|split; [|split]]].
  - intros c Hc. apply P; auto.
  - intros c d k Hc E Hk. destruct (P c Hc) as (_ & _ & Q). destruct (Q k Hk) as (Q1 & _). auto.
  - intros c d k Hc E Hk. destruct (P c Hc) as (_ & _ & Q). destruct (Q k Hk) as (_ & Q2 & _). auto.
  - intros c d Hc Hd. destruct (P c Hc) as (_ & _ & Q). apply (Q d Hd).
  - intros c Hc. apply P; auto.
Qed.
Definition user_b (h : heap) (x : oid) : bool := (x <? List.length (h_seq h))%nat && negb (String.eqb (s_label (sob h x)) "#").
Lemma user_by h x : user_b h x = true <-> user_obj h x.
Proof.
  unfold user_b, user_obj. rewrite andb_true_iff, negb_true_iff, Nat.ltb_lt, String.eqb_neq. tauto.
Qed.
Definition household_b (h : heap) (ks : list cid) : bool :=
  chains_b h ks &&
  forallb (fun p => let o := sob h p in let l := s_subset o in
    forallb (fun x => bool_decide (s_super (sob h x) = Some p) && bool_decide (subset_class h (s_cls o) = Some (s_cls (sob h x))) &&
       user_b h p && user_b h x &&
       forallb (fun y => (y =? x)%nat || negb (bool_decide (s_start (sob h y) = s_start (sob h x)))) l) l &&
    match s_super o with Some q => bool_decide (p ∈ s_subset (sob h q)) | None => true end &&
    bool_decide (NoDup l) && chained_b h l &&
    match s_subec o with Some c => bool_decide (subset_class h (s_cls o) = Some c) | None => true end &&
    (negb (user_b h p) || existsb (Nat.eqb (s_cls o)) ks)) (seq 0 (List.length (h_seq h))).
Lemma household_by h ks : household_b h ks = true -> household (fun c => In c ks) h.
Proof.
  intros B. apply andb_true_iff in B as [Bc B]. rewrite forallb_forall in B.
  assert (D : forall p, (p < List.length (h_seq h))%nat \/ s_subset (sob h p) = [] /\ s_super (sob h p) = None /\ s_subec (sob h p) = None).
  { intros p. destruct (Nat.lt_ge_cases p (List.length (h_seq h))) as [L|L]; [auto|right].
    rewrite (sob_dead h p) by (unfold live; lia). auto. }
  assert (B' : forall p, (p < List.length (h_seq h))%nat -> In p (seq 0 (List.length (h_seq h)))).
  { intros p L. apply in_seq. lia. }
  split; [apply chains_by; exact Bc|]. split; [split; [|split; [|split]]|split; [|split]].
  - intros p x Hx. destruct (D p) as [L|[E _]]; [|rewrite E in Hx; destruct Hx]. specialize (B p (B' p L)). cbv zeta in B.
    do 5 apply andb_true_iff in B as [B _]. rewrite forallb_forall in B. specialize (B x Hx).
    do 3 apply andb_true_iff in B as [B _]. apply andb_true_iff in B as [B1 B2]. apply bool_decide_eq_true in B1, B2. auto.
  - intros x p Hx. destruct (D x) as [L|[_ [E _]]]; [|congruence]. specialize (B x (B' x L)). cbv zeta in B.
    do 4 apply andb_true_iff in B as [B _]. apply andb_true_iff in B as [_ B]. rewrite Hx in B.
    apply bool_decide_eq_true in B. apply elem_of_list_In. exact B.
  - intros p. destruct (D p) as [L|[E _]]; [|rewrite E; constructor]. specialize (B p (B' p L)). cbv zeta in B.
    do 3 apply andb_true_iff in B as [B _]. apply andb_true_iff in B as [_ B]. apply bool_decide_eq_true in B. exact B.
  - intros p. destruct (D p) as [L|[E _]]; [|rewrite E; apply chained_by; reflexivity]. specialize (B p (B' p L)). cbv zeta in B.
    do 2 apply andb_true_iff in B as [B _]. apply andb_true_iff in B as [_ B]. apply chained_by. exact B.
  - intros p x Hx. destruct (D p) as [L|[E _]]; [|rewrite E in Hx; destruct Hx]. specialize (B p (B' p L)). cbv zeta in B.
    do 5 apply andb_true_iff in B as [B _]. rewrite forallb_forall in B. specialize (B x Hx).
    apply andb_true_iff in B as [B B3]. apply andb_true_iff in B as [B B2]. apply andb_true_iff in B as [_ B1].
    split; [apply user_by; exact B1|]. split; [apply user_by; exact B2|].
    intros y Hy (_ & E & _). rewrite forallb_forall in B3. specialize (B3 y Hy). rewrite bool_decide_eq_true_2 in B3 by exact E.
    rewrite orb_false_r in B3. apply Nat.eqb_eq. exact B3.
  - intros p c E. destruct (D p) as [L|[_ [_ E2]]]; [|congruence]. specialize (B p (B' p L)). cbv zeta in B.
    apply andb_true_iff in B as [B _]. apply andb_true_iff in B as [_ B]. rewrite E in B. apply bool_decide_eq_true in B. exact B.
  - intros x Ux. pose proof Ux as [L _]. specialize (B x (B' x L)). cbv zeta in B. apply andb_true_iff in B as [_ B].
    apply user_by in Ux. rewrite Ux in B. simpl in B. apply existsb_exists in B. destruct B as (c & Hc & E).
    apply Nat.eqb_eq in E. rewrite E. exact Hc.
Qed.
Definition dated_b (h : heap) (x : oid) : bool :=
  match s_start (sob h x), s_end (sob h x) with Some a, Some b => a <? b | _, _ => false end.
Lemma dated_of h x : dated_b h x = true -> dated h x.
Proof.
  unfold dated_b, dated, span_of. destruct (s_start (sob h x)) as [a|]; [|discriminate].
  destruct (s_end (sob h x)) as [b|]; [|discriminate]. intros L. apply Z.ltb_lt in L. simpl. auto.
Qed.
Lemma in_row_by h l : forallb (dated_b h) l && in_turn_b h l = true -> in_row h l.
Proof.
  intros B. apply andb_true_iff in B as [A B]. split; [|apply in_turn_by; exact B].
  intros x Hx. rewrite forallb_forall in A. apply dated_of. auto.
Qed.

(** The classes of the intervals and points of [ex_grid]. *)
Definition grid_classes : list cid := Eval vm_compute in
  nodup Nat.eq_dec (map (fun x => s_cls (sob ex_grid x)) [0; 3; 10; 13; 16; 19; 30; 33; 38]%nat).
Lemma grid_household : household (fun c => In c grid_classes) ex_grid.
Proof. apply household_by. vm_compute. reflexivity. Qed.

(** Three intervals of a tier on its own; the same as words in a text grid. *)
Definition ex_tale : rawtier := RawTier "words"
  [ERaw (Some 10) (Some 30) "ab"; ERaw (Some 30) (Some 60) "cd"; ERaw (Some 60) (Some 70) "ef"].
Definition ex_sounds : rawtier := RawTier "phones" (rt_entries ex_segs ++ [ERaw (Some 60) (Some 70) "e"]).
Definition ex_solo : heap := Eval vm_compute in
  run (@new_itier demo_env (FromList (rt_entries ex_tale)) (Some cInterval)) boot_heap.
Definition ex_three : heap := Eval vm_compute in
  heap_of (@new_grid_textgrid demo_env 50 [ex_tale; ex_sounds] (Nested [[cWord; cPhone]]) boot_heap).

Ltac heap_check := first [vm_compute; reflexivity|vm_compute; discriminate|vm_compute; lia].
Lemma solo_household : household (fun c => In c [cInterval]) ex_solo.
Proof. apply household_by. vm_compute. reflexivity. Qed.
Lemma solo_fusible : fusible_top true join_sp ex_solo 0 0 3.
Proof.
  split; [heap_check|]. split; [heap_check|]. split; [vm_compute; auto|]. split; [apply in_row_by; heap_check|].
  split; [apply chained_by; heap_check|]. split.
  { intros z Hz. members; (split; [user|split; heap_check]). }
  split; [heap_check|]. split; [heap_check|]. split; [heap_check|]. split; [heap_check|]. apply in_row_by; heap_check.
Qed.
Definition three_classes : list cid := Eval vm_compute in
  nodup Nat.eq_dec (map (fun x => s_cls (sob ex_three x)) [0; 13]%nat).
Lemma three_household : household (fun c => In c three_classes) ex_three.
Proof. apply household_by. vm_compute. reflexivity. Qed.
Lemma three_fusible : fusible_top true join_sp ex_three 0 0 3.
Proof.
  split; [heap_check|]. split; [heap_check|]. split; [vm_compute; auto|]. split; [apply in_row_by; heap_check|].
  split; [apply chained_by; heap_check|]. split.
  { intros z Hz. members; (split; [user|split; heap_check]). }
  split; [heap_check|]. split; [heap_check|]. split; [heap_check|]. split; [heap_check|]. apply in_row_by; heap_check.
Qed.

(** In a text grid the classes at the top are below a copy of Top: after the
    first two of three words were fused, the third has the removed word as
    predecessor. *)
Lemma c31_top_refuted : let E : Env := demo_env in
  exists K h t x y z h', household K h /\ fusible_top true join_sp h t x y /\
    (exists s, t_super (tob h t) = Some s /\ issubclass h s cTop = true) /\
    fuse_rightwards join_sp x h = Ok tt h' /\ t_seq (tob h' t) = [x; z] /\ s_fol (sob h' x) = Some z /\
    s_prev (sob h' z) = Some y /\ y <> x.
Proof.
  cbv zeta. exists (fun c => In c three_classes), ex_three, 0%nat, 0%nat, 3%nat, 6%nat. eexists.
  split; [exact three_household|]. split; [exact three_fusible|]. split; [eexists; split; vm_compute; reflexivity|].
  split; [vm_compute; reflexivity|]. split; [vm_compute; reflexivity|]. split; [vm_compute; reflexivity|]. split; [vm_compute; reflexivity|discriminate].
Qed.

Lemma tree_fusible : fusible_in true join_sp ex_tree 9 3 6.
Proof.
  split; [heap_check|]. split; [heap_check|]. split; [heap_check|]. split; [heap_check|]. split; [heap_check|].
  split; apply in_row_by; heap_check.
Qed.
(** Outside any tier the next sibling keeps the removed one as predecessor. *)
Lemma c31_loose_refuted : let E : Env := demo_env in
  exists K h p x y z h', household K h /\ fusible_in true join_sp h p x y /\ s_intier (sob h x) = None /\
    fuse_rightwards join_sp x h = Ok tt h' /\ s_subset (sob h' p) = [x; z] /\ s_fol (sob h' x) = Some z /\
    s_prev (sob h' z) = Some y /\ y <> x.
Proof.
  cbv zeta. exists word_phone, ex_tree, 9%nat, 3%nat, 6%nat, 0%nat. eexists.
  split; [eapply c31_reached; exact ex_tree_reach|]. split; [exact tree_fusible|]. split; [vm_compute; reflexivity|].
  split; [vm_compute; reflexivity|]. split; [vm_compute; reflexivity|]. split; [vm_compute; reflexivity|]. split; [vm_compute; reflexivity|discriminate].
Qed.
Lemma grid_fusible : fusible_in true join_sp ex_grid 0 10 13 /\ tiered ex_grid 10 13 1 /\ t_super (tob ex_grid 1) <> Some cTop.
Proof.
  split; [split; [heap_check|]; split; [heap_check|]; split; [heap_check|]; split; [heap_check|]; split; [heap_check|];
    split; apply in_row_by; heap_check|]. split; [|vm_compute; discriminate].
  split; [heap_check|]. split; [heap_check|]. split; [apply nodup_by; heap_check|]. split; [vm_compute; auto|].
  intros z Hz (_ & A & _). members; vm_compute in A; congruence.
Qed.
