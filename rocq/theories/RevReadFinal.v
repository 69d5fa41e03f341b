(** * RevReadFinal: proofs about changes to the hierarchy of a grid that was read (C72). *)
From Verif Require Import TripFinal ReviseFinal OwnFinal ReadClasses ReadFinal.
From Coq Require Import RelationClasses.
Open Scope Z_scope.

(** ** The names of top and bottom classes *)
Definition naming (h h' : heap) : Prop := ends_named h -> ends_named h'.
#[export] Instance naming_pre : PreOrder naming.
Proof. split; [intros h Q; exact Q|intros a b c A B Q; apply B, A, Q]. Qed.

Lemma naming_cls h h' : h_cls h' = h_cls h -> naming h h'.
Proof.
  intros E (T & A & B). split; [unfold class_table, cob in *; rewrite E; exact T|].
  split; intros c; rewrite (issubclass_ext h h' _ _ E); unfold class_name, cob; rewrite E; [apply A|apply B].
Qed.
Lemma naming_same {A} (m : M A) : (forall h, h_cls (heap_of (m h)) = h_cls h) -> under naming m.
Proof. intros K h. apply naming_cls, K. Qed.
Lemma push_named o h b : ends_named h -> c_base o = Some b -> clive h b ->
  (issubclass h b cTop = true -> str_in "Bottom" (c_name o) = false) -> (issubclass h b cBottom = true -> str_in "Top" (c_name o) = false) ->
  ends_named (push_cls o h).
Proof.
  intros (T & A & B) Eb Lb Kt Kb. assert (Bo : forall x, c_base o = Some x -> clive h x) by (intros x Q; congruence).
  assert (T' : class_table (push_cls o h)) by (apply push_table; auto). pose proof (table_wf _ T) as W. pose proof (table_wf _ T') as W'.
  assert (Old : forall c d, clive h c -> issubclass (push_cls o h) c d = issubclass h c d).
  { intros c d L. apply sub_ext; auto; [apply clive_push, L|]. intros k Hk. rewrite cob_push_old by (unfold clive in *; lia). reflexivity. }
  assert (Nm : forall c, clive h c -> class_name (push_cls o h) c = class_name h c) by (intros c L; unfold class_name; rewrite cob_push_old by exact L; reflexivity).
  assert (Go : forall d s, (d < 5)%nat -> (issubclass h b d = true -> str_in s (c_name o) = false) -> (forall c, issubclass h c d = true -> str_in s (class_name h c) = false) ->
    forall c, issubclass (push_cls o h) c d = true -> str_in s (class_name (push_cls o h) c) = false).
  { intros d s Ld Kd All c Q. destruct (decide (clive h c)) as [L|L]; [rewrite Nm by exact L; rewrite Old in Q by exact L; apply All, Q|].
    destruct (decide (c = List.length (h_cls h))) as [-> |Nc].
    - unfold class_name. rewrite cob_push_new. apply Kd. rewrite sub_step in Q; [|exact W'|apply clive_push_new]. rewrite cob_push_new, Eb in Q.
      destruct (Nat.eqb_spec (List.length (h_cls h)) d) as [E|E]; [destruct T as [T _]; lia|]. cbn [orb] in Q. rewrite Old in Q by exact Lb. exact Q.
    - rewrite sub_dead in Q by (unfold clive in *; rewrite len_push_cls; lia). apply Nat.eqb_eq in Q. destruct T as [T _]. unfold clive in L. lia. }
  split; [exact T'|]. split; apply Go; auto; cbv; lia.
Qed.
Lemma alloc_push o h : alloc_cls o h = Ok (List.length (h_cls h)) (push_cls o h).
Proof. reflexivity. Qed.
Lemma naming_top : under naming make_top.
Proof.
  intros h Q. unfold make_top. rewrite bind_gets, alloc_push. cbn [heap_of]. pose proof Q as (T & _). eapply push_named; [exact Q|reflexivity|apply ClassProofs.table_live; auto; cbv; lia| |].
  - intros _. apply top_name.
  - intros X. rewrite (kinds_apart h cTop cTop cBottom T) in X; simpl; auto using sub_refl; try discriminate.
Qed.
Lemma naming_bottom : under naming make_bottom.
Proof.
  intros h Q. unfold make_bottom. rewrite bind_gets, alloc_push. cbn [heap_of]. pose proof Q as (T & _). eapply push_named; [exact Q|reflexivity|apply ClassProofs.table_live; auto; cbv; lia| |].
  - intros X. rewrite (kinds_apart h cBottom cBottom cTop T) in X; simpl; auto using sub_refl; try discriminate.
  - intros _. apply bottom_name.
Qed.
Lemma kind_live h c k : class_table h -> (k < 5)%nat -> issubclass h c k = true -> clive h c.
Proof.
  intros T L Q. destruct (decide (clive h c)) as [L'|L']; [exact L'|]. rewrite sub_dead in Q by exact L'. apply Nat.eqb_eq in Q. subst. apply ClassProofs.table_live; auto.
Qed.
Lemma naming_copy nm c h : (issubclass h c cInterval = true \/ issubclass h c cPoint = true) -> naming h (heap_of (type_copy nm c h)).
Proof.
  intros K Q. unfold type_copy, get_cls. rewrite bind_gets, alloc_push. cbn [heap_of]. pose proof Q as (T & _).
  eapply push_named; [exact Q|reflexivity|destruct K as [K|K]; apply (kind_live h c _ T) in K; auto; cbv; lia| |];
    intros X; exfalso; destruct K as [K|K]; [rewrite (kinds_apart h c cInterval cTop T) in X|rewrite (kinds_apart h c cPoint cTop T) in X|rewrite (kinds_apart h c cInterval cBottom T) in X|rewrite (kinds_apart h c cPoint cBottom T) in X]; simpl; auto; discriminate.
Qed.
Lemma naming_mod c f : (forall o, c_name (f o) = c_name o /\ c_base (f o) = c_base o) -> under naming (mod_cls c f).
Proof.
  intros K h (T & A & B). unfold mod_cls, modify. cbn [heap_of].
  assert (Cb : forall k, c_base (cob (upd_cls c f h) k) = c_base (cob h k) /\ c_name (cob (upd_cls c f h) k) = c_name (cob h k)).
  { intros k. destruct (decide (c = k)) as [-> |N]; [|rewrite cob_upd_ne by auto; auto]. destruct (decide (clive h k)) as [L|L].
    - rewrite cob_upd_eq by exact L. destruct (K (cob h k)). auto.
    - rewrite !cob_dead; auto. unfold clive in *. rewrite len_upd_cls. exact L. }
  assert (T' : class_table (upd_cls c f h)).
  { destruct T as (T1 & T2 & T3 & T4 & T5 & T6 & T7). split; [rewrite len_upd_cls; exact T1|]. split; [intros x b; rewrite (proj1 (Cb x)); apply T2|]. rewrite !(proj1 (Cb _)). auto 10. }
  assert (Su : forall x d, issubclass (upd_cls c f h) x d = issubclass h x d).
  { intros x d. destruct (decide (clive h x)) as [L|L]; [apply sub_ext; auto using table_wf; [unfold clive in *; rewrite len_upd_cls; exact L|intros k _; apply Cb]|].
    rewrite !sub_dead; auto. unfold clive in *. rewrite len_upd_cls. exact L. }
  split; [exact T'|]. unfold class_name. split; intros x; rewrite Su, (proj2 (Cb x)); [apply A|apply B].
Qed.
Lemma naming_hier n : forall up c v, under naming (set_hier n up c v).
Proof.
  induction n as [|n IH]; intros up c v; cbn [set_hier]; [apply under_raise; exact _|].
  assert (K : forall w, under naming (mod_cls c (if up then set_c_super (Own w) else set_c_sub (Own w)))) by (intros w; apply naming_mod; intros o; destruct up; auto).
  destruct v as [d|]; [|apply K]. under; apply K.
Qed.
Lemma naming_super c v : under naming (set_superset_class c v).
Proof. apply naming_hier. Qed.
Lemma naming_sub c v : under naming (set_subset_class c v).
Proof. apply naming_hier. Qed.
#[local] Hint Resolve naming_super naming_sub naming_top naming_bottom : own.
Lemma naming_clone n : forall rc c, under naming (clone_n n rc c).
Proof.
  induction n as [|n IH]; intros rc c; cbn [clone_n]; [apply under_raise; exact _|]. intros h. rewrite !bind_gets. destruct (issubclass h c cInterval) eqn:Iv.
  - rewrite bind_gets. destruct (superset_class h c) as [s|]; [|apply naming_cls; reflexivity]. unfold issubclass_m at 1. rewrite bind_gets. destruct (negb _ && negb rc); [apply naming_cls; reflexivity|]. rewrite bind_gets.
    pose proof (naming_copy (class_name h c) c h (or_introl Iv)) as Q. destruct (type_copy (class_name h c) c h) as [c' h1|e h1] eqn:E; [rewrite (bind_ok _ _ _ _ _ E)|rewrite (bind_raise _ _ _ _ _ E); exact Q].
    etransitivity; [exact Q|]. match goal with |- naming _ (heap_of (?m _)) => assert (U : under naming m); [|apply U] end. under.
  - destruct (issubclass h c cPoint) eqn:Pt; [|apply naming_cls; reflexivity]. rewrite bind_gets. apply naming_copy. auto.
Qed.
Lemma naming_clone_class c : under naming (clone_class c).
Proof. intros h. unfold clone_class. apply naming_clone. Qed.
#[local] Hint Resolve naming_clone_class : own.
Lemma naming_hierarchy c out : under naming (get_class_hierarchy c out).
Proof. apply naming_same. intros h. unfold get_class_hierarchy. rewrite hier_read. reflexivity. Qed.
Lemma naming_filterM {A} (f : A -> M bool) l : (forall a, under naming (f a)) -> under naming (filterM f l).
Proof. intros K. induction l as [|x l IH]; cbn [filterM]; under; auto. Qed.
Lemma naming_reclone a l : under naming (reclone a l).
Proof.
  unfold reclone. assert (Hh : forall c out, under naming (get_class_hierarchy c out)) by apply naming_hierarchy.
  assert (Ft : forall l, under naming (filterM is_top_cls l)) by (intros k; apply naming_filterM; intros c; unfold is_top_cls; under).
  assert (Rr : forall ex c, under naming (clone_or_reuse ex c)) by (intros ex c; unfold clone_or_reuse; under).
  assert (Md : forall f, under naming (mod_grid a f)) by (intros f; apply naming_same; reflexivity).
  destruct l; under; auto.
Qed.
Section WithEnv.
Context `{Env}.
Lemma naming_still {A} (m : M A) : under (still (fun _ => True)) m -> under naming m.
Proof. intros K. apply naming_same. intros h. apply K. Qed.
Lemma naming_eq {A} (m : M A) : under eq m -> under naming m.
Proof. intros K. apply naming_same. intros h. rewrite <- (K h). reflexivity. Qed.
Lemma naming_ptier s c : under naming (new_ptier s c).
Proof. unfold new_ptier. apply under_bind; [exact _|apply naming_still, still_alloc_tier|]. intros t. apply under_bind; [exact _|apply naming_still, still_ptier; exact I|]. intros _. under. Qed.
Lemma naming_itier s c : under naming (new_itier s c).
Proof. unfold new_itier. apply under_bind; [exact _|apply naming_still, still_alloc_tier|]. intros t. apply under_bind; [exact _|apply naming_still, still_itier; exact I|]. intros _. under. Qed.
Lemma naming_tg n ts : under naming (new_tg n ts).
Proof. apply naming_still, still_new_tg. Qed.
Lemma naming_pg ts : under naming (new_pg ts).
Proof. apply naming_still, still_new_pg. Qed.
#[local] Hint Resolve naming_ptier naming_itier naming_tg naming_pg naming_reclone : own.
Lemma naming_build_tiers ps : under naming (build_tiers ps).
Proof. induction ps as [|[rt c] ps IH]; cbn [build_tiers]; under. Qed.
#[local] Hint Resolve naming_build_tiers : own.
Lemma naming_build_groups n tgs : forall css, under naming (build_groups n tgs css).
Proof. induction tgs as [|ts tgs IH]; intros [|cs css]; cbn [build_groups]; under. Qed.
Lemma naming_swap l l2 : under naming (swap_classes l l2).
Proof. unfold swap_classes. under. Qed.
#[local] Hint Resolve naming_build_groups naming_swap : own.
Lemma naming_relate n a tgs css : under naming (relate_textgrid n a tgs css).
Proof. unfold relate_textgrid. under. Qed.
Lemma naming_set_groups a gs : under naming (set_tier_groups a gs).
Proof.
  unfold set_tier_groups. destruct gs; [under|]. apply under_bind; [exact _|apply naming_same; reflexivity|]. intros _. apply under_forM; [exact _|]. intros g _. apply naming_same. reflexivity.
Qed.
Lemma naming_nestify {B} (l : list B) e : under naming (nestify l e).
Proof. apply naming_eq, eq_nestify. Qed.
Lemma naming_cleanup n a : under naming (grid_cleanup n a).
Proof. apply naming_still, still_grid_cleanup. Qed.
Lemma naming_finish a : under naming (grid_finish a).
Proof.
  unfold grid_finish, set_group_names. assert (Gm : forall g f, under naming (mod_grp g f)) by (intros; apply naming_same; reflexivity).
  assert (Gn : forall g, under naming (grp_name g)) by (intros; apply naming_still, still_grp_name). under; auto.
Qed.
Lemma naming_read n tg e : under naming (new_grid_textgrid n tg e).
Proof.
  unfold new_grid_textgrid. apply under_bind; [exact _|apply naming_same; reflexivity|]. intros a. destruct tg as [|rt tg]; [under|].
  apply under_bind; [exact _|apply naming_nestify|]. intros nt. apply under_bind; [exact _|apply naming_relate|]. intros gs. apply under_bind; [exact _|apply naming_set_groups|]. intros _.
  apply under_bind; [exact _|apply naming_cleanup|]. intros _. apply under_bind; [exact _|apply naming_finish|]. intros _. under.
Qed.

(** ** Chains with the same classes are the same *)
Lemma chain_head h t cs b : class_chain h t cs b -> exists c, hd_error cs = Some c /\ top_class h c.
Proof.
  intros (_ & Ne & Ct & _ & _ & J). destruct cs as [|c cs]; [congruence|]. exists c. split; [reflexivity|]. destruct (J 0%nat t c eq_refl eq_refl) as [_ Q]. exists t. auto.
Qed.
Lemma chain_same h t cs b t2 cs2 b2 : class_table h -> class_chain h t cs b -> class_chain h t2 cs2 b2 -> Permutation cs cs2 -> cs = cs2.
Proof.
  intros T C C2 P.
  assert (L : List.length cs = List.length cs2) by (apply Permutation_length, P).
  assert (Go : forall i, (i < List.length cs)%nat -> nth_error cs i = nth_error cs2 i).
  { induction i as [|i IH]; intros Hi.
    - destruct (chain_head _ _ _ _ C2) as (c & E & Tc). assert (In c cs) by (apply (Permutation_in _ (Permutation_sym P)); destruct cs2; [discriminate|injection E as ->; simpl; auto]).
      destruct (chain_tops h t cs b T C c) as [_ Q]; [assumption|]. specialize (Q Tc). destruct cs, cs2; cbn in *; congruence.
    - specialize (IH ltac:(lia)). destruct (nth_error cs i) as [c|] eqn:E1; [|apply nth_error_None in E1; lia].
      destruct (nth_error cs (S i)) as [d|] eqn:E2; [|apply nth_error_None in E2; lia]. destruct (nth_error cs2 (S i)) as [d2|] eqn:E3; [|apply nth_error_None in E3; lia].
      destruct C as (_ & _ & _ & _ & _ & J), C2 as (_ & _ & _ & _ & _ & J2).
      assert (Nx : forall (l : list nat) (x y : nat) j (v : nat), nth_error l j = Some v -> nth_error (x :: l ++ [y]) (S j) = Some v).
      { intros l x y j v Q. change (nth_error (l ++ [y])%list j = Some v). rewrite nth_error_app1; [exact Q|]. apply nth_error_Some. congruence. }
      destruct (J (S i) c d (Nx _ _ _ _ _ E1) (Nx _ _ _ _ _ E2)) as [Q _]. destruct (J2 (S i) c d2 (Nx _ _ _ _ _ (eq_sym IH)) (Nx _ _ _ _ _ E3)) as [Q2 _]. congruence. }
  clear -L Go. revert cs2 L Go. induction cs as [|c cs IH]; intros [|c2 cs2] L Go; try discriminate; [reflexivity|]. f_equal.
  - specialize (Go 0%nat ltac:(cbn; lia)). cbn in Go. congruence.
  - apply IH; [injection L as L; exact L|]. intros i Hi. apply (Go (S i)). cbn. lia.
Qed.
Lemma map_snd_combine {A B} (l : list A) (k : list B) : List.length l = List.length k -> map snd (combine l k) = k.
Proof. revert k. induction l as [|a l IH]; intros [|b k] L; try discriminate; [reflexivity|]. cbn. rewrite IH; auto. Qed.

(** ** No tier is empty *)
Lemma turns_some a l b : raw_turns a l b -> l <> [].
Proof. destruct l; [intros []|discriminate]. Qed.
Lemma snug_some : forall rows r, raw_snug (r :: rows) -> r <> [] -> forall q, In q (r :: rows) -> q <> [].
Proof.
  induction rows as [|q rows IH]; intros r Sn Nr k Hk.
  - destruct Hk as [<-|[]]. exact Nr.
  - destruct Hk as [<-|Hk]; [exact Nr|]. destruct Sn as [(bs & -> & F) Sn]. apply (IH _ Sn); [|exact Hk].
    destruct F as [|u bl us bs (s & e & x & _ & L & Tl) F]; [congruence|]. cbn [concat]. destruct bl; [cbn in Tl; lia|discriminate].
Qed.
Lemma nested_some h lo hi ps cs rs : nested_as h lo hi ps cs rs -> forall r, In r rs -> rt_entries r <> [].
Proof.
  intros (_ & _ & _ & _ & (r0 & E & Tn) & Sn) r Hr. destruct rs as [|q rs]; [discriminate|]. injection E as ->. cbn [map] in Sn.
  apply (snug_some _ _ Sn (turns_some _ _ _ Tn)). destruct Hr as [<-|Hr]; [left; reflexivity|right; apply in_map, Hr].
Qed.

(** ** The grids that are read *)
Lemma sob_within h x k : s_intier (sob h x) = Some k -> live h x.
Proof. intros E. unfold live. destruct (decide (x < List.length (h_seq h))%nat) as [L|L]; [exact L|]. unfold sob in E. rewrite lookup_ge_None_2 in E by lia. discriminate. Qed.
Lemma tob_within h k g : t_within (tob h k) = Some g -> tlive h k.
Proof. intros E. unfold tlive. destruct (decide (k < List.length (h_tier h))%nat) as [L|L]; [exact L|]. unfold tob in E. rewrite lookup_ge_None_2 in E by lia. discriminate. Qed.
Lemma Forall2_r {A B} (R : A -> B -> Prop) l k y : Forall2 R l k -> In y k -> exists x, In x l /\ R x y.
Proof. apply F2_in. Qed.

Lemma c72_read : forall (n : nat) (h : heap) (rows : list (list rawtier)) (css : list (list cid)) (rest : list rawtier) (lo hi : Z) (cs : list cid) (others : list string),
  ends_named h -> Forall2 (readable h lo hi) rows css -> names_apart h (concat css) -> some_intervals h rows css -> gapless (concat rows) ->
  one_hierarchy h rows css cs others ->
  exists f a h' t b, new_grid_textgrid n (concat rows ++ rest) (Nested css) h = Ok a h' /\ grid_read lo hi f h h' rows css a /\
    working h' a t (map f cs) b others /\ map (class_name h') (map f cs) = map (class_name h) cs.
Proof.
  intros n h rows css rest lo hi cs others En F Na Si Gp (Ch & Nn & One). pose proof En as (T & _).
  destruct (c53_nested n h rows css rest lo hi T F Na Si Gp) as (f & a & h' & E & G & T').
  pose proof (naming_read n (concat rows ++ rest) (Nested css) h) as Nm. rewrite E in Nm. cbn [heap_of] in Nm. specialize (Nm En). destruct Nm as (_ & Nt & Nb).
  pose proof G as (Ea & La & R & Ap & Gs & Cl & Kp).
  assert (Ic : incl cs (concat css)).
  { destruct Si as (row & ocs & I & Q). destruct (One row ocs I) as [[Q2|P] _]; [contradiction|]. intros c Hc. apply in_concat. exists ocs. split; [eapply in_combine_r; exact I|].
    apply (Permutation_in _ (Permutation_sym P)) in Hc. apply in_map_iff in Hc. destruct Hc as ([r c'] & <- & Hc). apply filter_In in Hc. destruct Hc as [Hc _]. eapply in_combine_r; exact Hc. }
  assert (Nms : map (class_name h') (map f cs) = map (class_name h) cs).
  { rewrite map_map. apply map_ext_in. intros c Hc. apply (Cl c), Ic, Hc. }
  (* every interval group has the classes of the hierarchy *)
  assert (Same : forall row ocs g, In (row, ocs) (combine rows css) -> read_group lo hi f h h' (interval_part h row ocs) g ->
    exists rs t b, nested_as h lo hi (interval_part h row ocs) cs rs /\ class_chain h' t (map f cs) b /\ unrelated h' (t :: map f cs ++ [b]) /\ full_group h' (map f cs) g /\ Forall2 (read_as h') rs (g_tiers (gob h' g))).
  { intros row ocs g I (cs2 & rs & t & b & N2 & C2 & U2 & Fg & Fr & _). destruct Ch as (t0 & b0 & C0). pose proof N2 as ((t3 & b3 & C3) & _ & Lr & P & _).
    destruct (One row ocs I) as [[Q|Q] _].
    - rewrite Q in P. apply Permutation_nil in P. destruct cs2 as [|c cs2]; [destruct C3 as (_ & X & _); congruence|]. destruct rs; discriminate.
    - assert (P2 : Permutation cs cs2). { rewrite <- Q. rewrite P. rewrite map_snd_combine by exact Lr. reflexivity. }
      pose proof (chain_same h t0 cs b0 t3 cs2 b3 T C0 C3 P2) as <-. exists rs, t, b. auto 10. }
  assert (Lc : forall c, In c (concat css) -> (f c < List.length (h_cls h'))%nat) by (intros c Hc; apply (Cl c Hc)).
  assert (Each : forall g, In g (a_groups (aob h' a)) -> group_of h' (map f cs) others g).
  { intros g Hg. destruct (rows_each _ _ _ _ _ _ _ _ R g Hg) as (_ & row & ocs & I & [[Pg Rp]|[Pg Rg]]).
    - destruct Rp as (Lg & _ & _ & Fp).
      assert (Kp2 : forall k, In k (g_tiers (gob h' g)) -> exists p, In p (point_part h row ocs) /\ read_points f h' g p k) by (intros k Hk; eapply Forall2_r; eauto).
      assert (Pc : forall p, In p (point_part h row ocs) -> In (snd p) (concat css)).
      { intros [r c] Hp. apply filter_In in Hp. destruct Hp as [Hp _]. apply in_concat. exists ocs. split; [eapply in_combine_r; exact I|eapply in_combine_r; exact Hp]. }
      split; [exact Lg|]. split; [|split].
      + intros k Hk. destruct (Kp2 k Hk) as (p & Hp & _ & _ & W & _ & _ & _ & _ & X). split; [eapply tob_within; exact W|]. intros x Hx. destruct (X x Hx) as (_ & Y & _). eapply sob_within; exact Y.
      + intros k Hk. destruct (Kp2 k Hk) as (p & Hp & _ & Ec & W & _ & _ & _ & _ & X). split; [rewrite Ec; apply Lc, Pc, Hp|]. intros x Hx. destruct (X x Hx) as (-> & _). apply Lc, Pc, Hp.
      + right. intros k Hk. destruct (Kp2 k Hk) as (p & Hp & _ & Ec & _). rewrite Ec, Nms. destruct (Cl (snd p) (Pc p Hp)) as (_ & -> & _). apply (One row ocs I), Hp.
    - destruct (Same row ocs g I Rg) as (rs & t & b & N2 & C2 & U2 & Fg & Fr). pose proof Fg as (Ecs & (bss & Gd) & _). pose proof Gd as (Lg & _ & _ & _ & (_ & _ & Lt & _) & _ & _ & _ & Lk & _).
      assert (Ecl : forall k, In k (g_tiers (gob h' g)) -> (t_ec (tob h' k) < List.length (h_cls h'))%nat).
      { intros k Hk. assert (Q : In (t_ec (tob h' k)) (map f cs)) by (rewrite <- Ecs; apply (in_map (fun k => t_ec (tob h' k))), Hk). apply in_map_iff in Q. destruct Q as (c & <- & Hc). apply Lc, Ic, Hc. }
      split; [exact Lg|]. split; [|split].
      + intros k Hk. split; [apply Lt, Hk|]. intros x Hx. destruct (Lk k Hk) as (_ & (_ & Q) & _). apply (Q x Hx).
      + intros k Hk. split; [apply Ecl, Hk|]. intros x Hx. destruct (Lk k Hk) as (_ & (_ & Q) & _). destruct (Q x Hx) as (_ & -> & _). apply Ecl, Hk.
      + left. split; [exact Fg|]. split; [apply (Gs g Hg)|]. intros k Hk. destruct (Forall2_r _ _ _ k Fr Hk) as (r & Hr & (_ & Fe & _)). pose proof (nested_some _ _ _ _ _ _ N2 r Hr) as Ne.
        intros Z. rewrite Z in Fe. inversion Fe as [Q|]. congruence. }
  assert (Some_ : exists g rs t b, In g (a_groups (aob h' a)) /\ class_chain h' t (map f cs) b /\ unrelated h' (t :: map f cs ++ [b]) /\ full_group h' (map f cs) g /\ (exists lo' hi' ps, nested_as h lo' hi' ps cs rs)).
  { destruct (rows_some _ _ _ _ _ _ _ _ R Si) as (g & Hg & Pg). destruct (rows_each _ _ _ _ _ _ _ _ R g Hg) as (_ & row & ocs & I & [[Q _]|[_ Rg]]); [congruence|].
    destruct (Same row ocs g I Rg) as (rs & t & b & N2 & C2 & U2 & Fg & _). exists g, rs, t, b. eauto 10. }
  destruct Some_ as (g0 & rs0 & t & b & Hg0 & C' & U' & Fg0 & (lo' & hi' & ps & N0)). exists f, a, h', t, b. split; [exact E|]. split; [exact G|]. split; [|exact Nms].
  pose proof C' as (Nd & _ & Ct & Cb & _).
  split; [exact T'|]. split; [exact C'|]. split; [exact U'|]. split.
  { intros Q. apply in_map_iff in Q. destruct Q as (c & Q & Hc). destruct (Cl c (Ic c Hc)) as ((L1 & _) & _). destruct T as [T _]. unfold cInterval in Q. lia. }
  split. { intros x Hx. apply in_map_iff in Hx. destruct Hx as (c & <- & Hc). destruct (Cl c (Ic c Hc)) as (_ & -> & _). split; [|apply Nn, Hc]. destruct N0 as (_ & Pn & _). apply Pn, Hc. }
  split. { rewrite Nms. destruct Ch as (t0 & b0 & (Nd0 & _)). apply NoDup_fmap_2_strong; [|exact Nd0]. intros x y Hx Hy Q. apply elem_of_list_In in Hx, Hy. apply (Na x y); auto. }
  split; [apply Nt, Ct|]. split; [apply Nb, Cb|]. split; [rewrite La; lia|]. split; [exact Ap|]. split; [exact Each|]. exists g0. auto.
Qed.

(** ** Read, changed, written *)
Lemma edits_each es : forall v, flat_map snd (fold_left (fun v e => edit_view e v) es v) = flat_map (fold_left (fun l e => edit_strips e l) es) (map snd v).
Proof.
  induction es as [|e es IH]; intros v; cbn [fold_left].
  - rewrite !flat_map_concat_map, !map_map. reflexivity.
  - rewrite IH. unfold edit_view. rewrite !flat_map_concat_map, !map_map. reflexivity.
Qed.
Lemma all_intervals h row ocs : (forall c, In c ocs -> issubclass h c cInterval = true) -> interval_part h row ocs = combine row ocs.
Proof.
  intros K. unfold interval_part. revert ocs K. induction row as [|r row IH]; intros [|c ocs] K; [reflexivity..|]. cbn [combine List.filter snd]. rewrite K by (simpl; auto).
  f_equal. apply IH. intros d Hd. apply K. simpl; auto.
Qed.
Lemma no_points h row ocs : class_table h -> (forall c, In c ocs -> issubclass h c cInterval = true) -> point_part h row ocs = [].
Proof.
  intros T K. unfold point_part. revert ocs K. induction row as [|r row IH]; intros [|c ocs] K; [reflexivity..|]. cbn [combine List.filter snd].
  assert (Kc : issubclass h c cInterval = true) by (apply K; simpl; auto). rewrite (kinds_apart h c cInterval cPoint T) by (simpl; auto; discriminate). apply IH. intros d Hd. apply K. simpl; auto.
Qed.
Lemma read_view lo hi f h h' ps cs g : class_table h -> class_table h' -> read_group lo hi f h h' ps g ->
  (forall p, In p ps -> issubclass h (snd p) cInterval = true) -> (forall p, In p ps -> clone_of h h' (snd p) (f (snd p))) ->
  (exists t b, class_chain h t cs b) -> Permutation (map snd ps) cs ->
  exists rs, List.length rs = List.length cs /\ Permutation ps (combine rs cs) /\ map (tier_view h') (g_tiers (gob h' g)) = map (raw_strip h) (combine rs cs).
Proof.
  intros T T' (cs2 & rs & t & b & N & _ & _ & (Ec & Gd & _) & R & _) Ki Cl (t0 & b0 & C0) Pc.
  destruct (group_wrote (fun l => l) lo hi h h' ps cs2 rs g T N Gd) as (P & L & (t3 & b3 & C3) & W).
  { eapply Forall2_impl; [exact R|]. intros r k (X1 & X2 & _). split; auto. } { exact Ki. }
  assert (P2 : Permutation cs cs2). { rewrite <- Pc, P, map_snd_combine by exact L. reflexivity. }
  pose proof (chain_same h t0 cs b0 t3 cs2 b3 T C0 C3 P2) as <-. exists rs. split; [exact L|]. split; [exact P|].
  assert (Cl2 : forall p, In p (combine rs cs) -> clone_of h h' (snd p) (f (snd p)) /\ issubclass h (snd p) cInterval = true) by (intros p Hp; apply (Permutation_in _ (Permutation_sym P)) in Hp; auto).
  clear -W Ec Cl2 L. revert cs L Ec W Cl2. generalize (g_tiers (gob h' g)) as ts. induction rs as [|r rs IH]; intros ts [|c cs] L Ec W Cl2; try discriminate.
  - destruct ts; [reflexivity|discriminate].
  - destruct ts as [|k ts]; [discriminate|]. cbn [combine map] in *. injection Ec as Ek Ec. injection L as L. apply Forall2_cons_1 in W. destruct W as [(W1 & W2 & _) W]. f_equal.
    + unfold tier_view, raw_strip. cbn [fst snd] in *. destruct (Cl2 (r, c) (or_introl eq_refl)) as [(_ & Cn & _) Ki]. cbn [snd] in Cn, Ki. rewrite Ek, Cn. rewrite W1, W2 by exact Ki. reflexivity.
    + apply IH; auto. intros p Hp. apply Cl2. simpl; auto.
Qed.
Lemma view_rows lo hi f h h' cs : class_table h -> class_table h' -> (exists t b, class_chain h t cs b) -> (forall c, In c cs -> issubclass h c cInterval = true) ->
  forall rows css gs, read_rows lo hi f h h' rows css gs -> Forall2 (readable h lo hi) rows css -> (forall ocs, In ocs css -> Permutation ocs cs) -> (forall c, In c (concat css) -> clone_of h h' c (f c)) ->
  exists rss, Forall2 (fun rc rs => List.length rs = List.length cs /\ Permutation (combine (fst rc) (snd rc)) (combine rs cs)) (combine rows css) rss /\
    map (fun g => map (tier_view h') (g_tiers (gob h' g))) gs = map (fun rs => map (raw_strip h) (combine rs cs)) rss.
Proof.
  intros T T' Ch Kc rows css gs R. induction R as [|row ocs gs rows css gs' (g1 & g2 & -> & R1 & R2) R IH]; intros F Pc Cl.
  { exists []. split; [constructor|reflexivity]. }
  apply Forall2_cons_1 in F. destruct F as [(L & _) F]. destruct (IH F) as (rss & F2 & Ev). { intros o Ho. apply Pc. simpl; auto. } { intros c Hc. apply Cl. cbn. apply in_app_iff. auto. }
  pose proof (Pc ocs (or_introl eq_refl)) as P. assert (Ko : forall c, In c ocs -> issubclass h c cInterval = true) by (intros c Hc; apply Kc, (Permutation_in _ P Hc)).
  rewrite (all_intervals h row ocs Ko) in R1. rewrite (no_points h row ocs T Ko) in R2. destruct R2 as [[_ ->]|[Q _]]; [|congruence].
  destruct R1 as [[Q _]|(g & -> & Rg)].
  { destruct row, ocs; try discriminate. apply Permutation_nil in P. subst cs. destruct Ch as (t & b & (_ & Q2 & _)). congruence. }
  destruct (read_view lo hi f h h' (combine row ocs) cs g T T' Rg) as (rs & L2 & P2 & E).
  { intros [r c] Hp. apply Ko. eapply in_combine_r; exact Hp. } { intros [r c] Hp. apply Cl. cbn. apply in_app_iff. left. eapply in_combine_r; exact Hp. } { exact Ch. } { rewrite map_snd_combine by exact L. exact P. }
  exists (rs :: rss). split; [constructor; auto|]. rewrite app_nil_r. cbn [app map]. rewrite E, Ev. reflexivity.
Qed.
Lemma c72_trip : forall (n : nat) (h : heap) (rows : list (list rawtier)) (css : list (list cid)) (rest : list rawtier) (lo hi : Z) (cs : list cid),
  ends_named h -> Forall2 (readable h lo hi) rows css -> rows <> [] -> gapless (concat rows) ->
  (exists t b, class_chain h t cs b) -> (forall ocs, In ocs css -> Permutation ocs cs) -> names_apart h cs -> (forall c, In c cs -> class_name h c <> ""%string) ->
  exists a h' rss, new_grid_textgrid n (concat rows ++ rest) (Nested css) h = Ok a h' /\
    Forall2 (fun rc rs => List.length rs = List.length cs /\ Permutation (combine (fst rc) (snd rc)) (combine rs cs)) (combine rows css) rss /\
    forall es, all_allowed [] (map (class_name h) cs) es ->
      exists h'', make_edits n a es h' = Ok tt h'' /\
        let out := flat_map (fun rs => fold_left (fun l e => edit_strips e l) es (map (raw_strip h) (combine rs cs))) rss in
        map snd (return_textgrid h'' a) = map snd out /\
        (NoDup (map (fun v : strip => snd (fst v)) out) -> return_textgrid h'' a = map (fun v : strip => (snd (fst v), snd v)) out).
Proof.
  intros n h rows css rest lo hi cs En F Nr Gp Ch Pc Na Nn. pose proof En as (T & _).
  assert (Kc : forall c, In c cs -> issubclass h c cInterval = true) by (destruct Ch as (t & b & (_ & _ & _ & _ & K & _)); exact K).
  assert (Ko : forall ocs, In ocs css -> forall c, In c ocs -> issubclass h c cInterval = true) by (intros ocs Ho c Hc; apply Kc, (Permutation_in _ (Pc ocs Ho) Hc)).
  assert (Ne : cs <> []) by (destruct Ch as (t & b & (_ & Q & _)); exact Q).
  assert (Each : forall row ocs, In (row, ocs) (combine rows css) -> interval_part h row ocs = combine row ocs /\ List.length row = List.length ocs /\ Permutation ocs cs /\ point_part h row ocs = []).
  { intros row ocs I. pose proof (in_combine_r _ _ _ _ I) as Io. split; [apply all_intervals, (Ko ocs Io)|]. split; [|split; [auto|apply no_points; [exact T|exact (Ko ocs Io)]]].
    clear -F I. induction F as [|r o rows css (L & _) F IH]; [destruct I|]. destruct I as [I|I]; [injection I as -> ->; exact L|auto]. }
  assert (Si : some_intervals h rows css).
  { destruct F as [|row ocs rows css Q F]; [congruence|]. exists row, ocs. split; [left; reflexivity|]. destruct (Each row ocs (or_introl eq_refl)) as (-> & L & P & _). intros Z.
    destruct row, ocs; try discriminate. apply Permutation_nil in P. congruence. }
  destruct (c72_read n h rows css rest lo hi cs [] En F) as (f & a & h' & t & b & E & G & W & Nm); [|exact Si|exact Gp| |].
  { intros c d Hc Hd. apply in_concat in Hc, Hd. destruct Hc as (l & Hl & Hc), Hd as (l2 & Hl2 & Hd). apply Na; [apply (Permutation_in _ (Pc l Hl) Hc)|apply (Permutation_in _ (Pc l2 Hl2) Hd)]. }
  { split; [exact Ch|]. split; [exact Nn|]. intros row ocs I. destruct (Each row ocs I) as (-> & L & P & ->). split; [right; rewrite map_snd_combine by exact L; exact P|]. intros p []. }
  pose proof G as (_ & _ & R & _ & _ & Cl & _). pose proof W as (T' & _).
  destruct (view_rows lo hi f h h' cs T T' Ch Kc rows css _ R F Pc Cl) as (rss & F2 & Ev). exists a, h', rss. split; [exact E|]. split; [exact F2|]. intros es Al. rewrite <- Nm in Al.
  destruct (c72_edits es n h' a t (map f cs) b [] W Al) as (cs' & h'' & Ee & _). exists h''. split; [exact Ee|].
  pose proof (c72_written es n h' a t (map f cs) b [] h'' W Al Ee) as Q. cbv zeta in Q. rewrite edits_each in Q. unfold grid_view in Q. rewrite map_map in Q. cbn [snd] in Q. unfold group_view in Q. cbn [snd] in Q. rewrite Ev in Q.
  cbv zeta. rewrite flat_map_concat_map in Q. rewrite map_map in Q. rewrite flat_map_concat_map. exact Q.
Qed.
End WithEnv.
