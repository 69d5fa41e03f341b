(** * ArrangeFinal: putting the tiers of a group in order, and the whole
    construction of a group. *)
From Verif Require Export GroupFinal CalmProofs.
Open Scope Z_scope.

Section WithEnv.
Context `{Env}.
Opaque span_of.

(** ** Arranging *)
Lemma joined_nth h ts : joined_tiers h ts -> forall k t u, nth_error ts k = Some t -> nth_error ts (S k) = Some u ->
  t_sub (tob h t) = Some (t_ec (tob h u)) /\ t_super (tob h u) = Some (t_ec (tob h t)).
Proof.
  induction ts as [|x ts IH]; intros J k t u Ht Hu; [destruct k; discriminate|]. destruct ts as [|y r].
  - destruct k; simpl in Hu; [discriminate|destruct k; discriminate].
  - destruct J as (J1 & J2 & J3). destruct k as [|k]; [simpl in *; injection Ht as <-; injection Hu as <-; auto|].
    apply (IH J3 k); auto.
Qed.
Lemma pick_class h ts u : NoDup (map (fun t => t_ec (tob h t)) ts) -> In u ts ->
  exists i, tier_class_idx h ts (t_ec (tob h u)) = Some i /\ nth_error ts i = Some u.
Proof.
  intros N Hu. apply In_nth_error in Hu. destruct Hu as [i Hi]. exists i. split; [|exact Hi].
  apply index_of_nth; [rewrite nth_error_map, Hi; reflexivity|]. apply NoDup_ListNoDup, N.
Qed.

Lemma climb_chain h ts0 ts : Permutation ts0 ts -> tier_chain h ts -> forall p s n top,
  nth_error ts p = Some s -> (p < n)%nat -> nth_error ts 0 = Some top -> climb n ts0 s h = Ok top h.
Proof.
  intros P (J & N & L & (t0 & H0 & c0 & S0 & I0) & _). induction p as [|p IH]; intros s n top Hs Hn Ht; destruct n as [|n]; try lia.
  - simpl climb. mstep. destruct ts as [|x ts]; [discriminate|]. simpl in *. injection Hs as <-. injection Ht as <-. injection H0 as <-.
    unfold issubclass_m. rewrite S0. rewrite bind_gets. cbv beta iota. rewrite I0. reflexivity.
  - destruct (nth_error ts p) as [q|] eqn:Hq.
    2:{ apply nth_error_None in Hq. assert (S p < List.length ts)%nat by (apply nth_error_Some; congruence). lia. }
    destruct (joined_nth h ts J p q s Hq Hs) as [_ Sp]. destruct (L q (nth_error_In _ _ Hq)) as (_ & Nt & _).
    assert (N0 : NoDup (map (fun t => t_ec (tob h t)) ts0)).
    { apply NoDup_ListNoDup. eapply Permutation_NoDup; [|apply NoDup_ListNoDup, N]. apply Permutation_map, Permutation_sym, P. }
    destruct (pick_class h ts0 q N0) as (i & Ei & Hi).
    { eapply Permutation_in; [apply Permutation_sym, P|]. eapply nth_error_In; eauto. }
    simpl climb. mstep. unfold issubclass_m. rewrite Sp, bind_gets. cbv beta iota. rewrite Nt, bind_gets. cbv beta iota.
    rewrite Ei, Hi. apply IH; auto. lia.
Qed.

Lemma descend_chain h ts0 ts : Permutation ts0 ts -> tier_chain h ts -> forall r pre u n,
  ts = (pre ++ u :: r)%list -> (List.length r < n)%nat -> descend n ts0 u h = Ok (u :: r, true) h.
Proof.
  intros P (J & N & L & _ & (tl & Hl & cl & Sl & Il)).
  induction r as [|v r IH]; intros pre u n E Hn; destruct n as [|n]; simpl in Hn; try lia; simpl descend; mstep.
  - subst ts. rewrite rev_app_distr in Hl. simpl in Hl. injection Hl as <-.
    unfold issubclass_m. rewrite Sl, bind_gets. cbv beta iota. rewrite Il. reflexivity.
  - assert (Hu : nth_error ts (List.length pre) = Some u) by (subst ts; rewrite nth_error_app2, Nat.sub_diag by lia; reflexivity).
    assert (Hv : nth_error ts (S (List.length pre)) = Some v).
    { subst ts. rewrite nth_error_app2 by lia. replace (S (List.length pre) - List.length pre)%nat with 1%nat by lia. reflexivity. }
    destruct (joined_nth h ts J _ u v Hu Hv) as [Sb _]. destruct (L v (nth_error_In _ _ Hv)) as (_ & _ & Nb).
    assert (N0 : NoDup (map (fun t => t_ec (tob h t)) ts0)).
    { apply NoDup_ListNoDup. eapply Permutation_NoDup; [|apply NoDup_ListNoDup, N]. apply Permutation_map, Permutation_sym, P. }
    destruct (pick_class h ts0 v N0) as (i & Ei & Hi).
    { eapply Permutation_in; [apply Permutation_sym, P|]. eapply nth_error_In; eauto. }
    unfold issubclass_m. rewrite Sb, bind_gets. cbv beta iota. rewrite Nb, bind_gets. cbv beta iota. rewrite Ei, Hi.
    rewrite (bind_ok _ _ _ _ _ (IH (pre ++ [u])%list v n ltac:(subst ts; rewrite <- app_assoc; reflexivity) ltac:(lia))). reflexivity.
Qed.

Lemma arrange_chain h ts0 ts : Permutation ts0 ts -> tier_chain h ts -> arrange ts0 h = Ok (ts, true) h.
Proof.
  intros P C. pose proof C as (J & N & L & (t0 & H0 & _) & _). pose proof (Permutation_length P) as Len.
  destruct ts0 as [|s ts0].
  { apply Permutation_nil in P. subst. discriminate. }
  unfold arrange. destruct ts as [|top r] eqn:Ets; [discriminate|]. rewrite <- Ets in *.
  assert (Hs : In s ts) by (eapply Permutation_in; [exact P|simpl; auto]). apply In_nth_error in Hs. destruct Hs as [p Hp].
  assert (p < List.length ts)%nat by (apply nth_error_Some; congruence).
  rewrite (bind_ok _ _ _ _ _ (climb_chain h (s :: ts0) ts P C p s (S (List.length (s :: ts0))) top Hp ltac:(lia) ltac:(subst ts; reflexivity))).
  rewrite Ets. apply (descend_chain h (s :: ts0) ts P C r [] top); [exact Ets|]. rewrite Len, Ets. simpl. lia.
Qed.

(** ** The part of the constructor before anything is related *)
Fixpoint tupds (f : tierobj -> tierobj) (l : list tid) (h : heap) : heap :=
  match l with [] => h | t :: l' => tupds f l' (upd_tier t f h) end.
Lemma forM_mod_tier f l : forall h, forM l (fun t => mod_tier t f) h = Ok tt (tupds f l h).
Proof. induction l as [|x l IH]; intros h; simpl; [reflexivity|]. mstep. apply IH. Qed.
Lemma tupds_rest f l : forall h, h_cls (tupds f l h) = h_cls h /\ h_seq (tupds f l h) = h_seq h /\
  h_grp (tupds f l h) = h_grp h /\ h_grid (tupds f l h) = h_grid h /\ List.length (h_tier (tupds f l h)) = List.length (h_tier h).
Proof.
  induction l as [|x l IH]; intros h; simpl; [auto|]. destruct (IH (upd_tier x f h)) as (A & B & C & D & E).
  rewrite A, B, C, D, E. rewrite len_upd_tier. auto.
Qed.
Lemma tupds_notin f l t : ~ In t l -> forall h, tob (tupds f l h) t = tob h t.
Proof.
  induction l as [|x l IH]; intros N h; simpl; [auto|]. simpl in N. rewrite IH by tauto. apply tob_upd_ne. intros ->. tauto.
Qed.
Lemma tupds_in f l t : NoDup l -> In t l -> forall h, tlive h t -> tob (tupds f l h) t = f (tob h t).
Proof.
  induction l as [|x l IH]; intros N Hin h L; [destruct Hin|]. apply NoDup_cons in N. destruct N as [Nx N]. rewrite elem_of_list_In in Nx.
  simpl. destruct Hin as [->|Hin].
  - rewrite tupds_notin by auto. apply tob_upd_eq. exact L.
  - rewrite IH; auto; [|unfold tlive; rewrite len_upd_tier; exact L]. rewrite tob_upd_ne by (intros ->; auto). reflexivity.
Qed.

Record headed (g : gid) (ts : list tid) (h h' : heap) : Prop := {
  he_rest : h_cls h' = h_cls h /\ h_seq h' = h_seq h /\ h_grid h' = h_grid h;
  he_lens : List.length (h_tier h') = List.length (h_tier h) /\ List.length (h_grp h') = List.length (h_grp h);
  he_tin : forall t, In t ts -> tob h' t = set_t_within (Some (WGroup g)) (tob h t);
  he_tout : forall t, ~ In t ts -> tob h' t = tob h t;
  he_grp : g_tiers (gob h' g) = ts /\ g_contains (gob h' g) = CAlias /\ g_points (gob h' g) = g_points (gob h g) /\
           g_within (gob h' g) = g_within (gob h g);
  he_others : forall k, k <> g -> gob h' k = gob h k
}.

Lemma tier_chain_nodup h ts : tier_chain h ts -> NoDup ts.
Proof. intros (_ & N & _). apply NoDup_ListNoDup. eapply NoDup_map_inv. apply NoDup_ListNoDup, N. Qed.

Lemma tg_init_head n g ts0 ts nm delay h : glive h g -> Permutation ts0 ts -> tier_chain h ts ->
  exists h', tg_init n g ts0 nm delay h =
    (forM ts0 (fun t => l <- gets (fun h => t_seq (tob h t)) ;; forM l remove_superset) ;;; relate_tiers n delay ts) h' /\
  headed g ts h h'.
Proof.
  intros Lg P C. pose proof (tier_chain_nodup h ts C) as Nt. pose proof C as (_ & _ & L & (t0 & H0 & _) & _).
  unfold tg_init. rewrite (bind_ok _ _ _ _ _ (arrange_chain h ts0 ts P C)). cbn [fst snd when].
  unfold grp_set_contains. mstep. mstep.
  rewrite (bind_ok _ _ _ _ _ (forM_mod_tier _ _ _)). mstep.
  set (h1 := upd_grp g _ h). set (h2 := tupds _ ts h1). set (h3 := upd_grp g _ h2).
  destruct (tupds_rest (set_t_within (Some (WGroup g))) ts h1) as (T1 & T2 & T3 & T4 & T5). fold h2 in T1, T2, T3, T4, T5.
  assert (L1 : glive h1 g) by (unfold glive, h1, upd_grp; simpl; rewrite alter_length; exact Lg).
  assert (L2 : glive h2 g) by (unfold glive; rewrite T3; exact L1).
  assert (G2 : forall k, gob h2 k = gob h1 k) by (intros k; unfold gob; rewrite T3; reflexivity).
  assert (G3 : gob h3 g = set_g_contains CAlias (set_g_tiers ts (gob h2 g))) by (unfold h3; rewrite gob_upd_eq by exact L2; reflexivity).
  assert (L3 : glive h3 g) by (unfold glive, h3, upd_grp; simpl; rewrite alter_length; exact L2).
  assert (Nm : exists m, (if str_truthy nm then mod_grp g (set_g_name nm) else m <- make_name g ;; mod_grp g (set_g_name m)) h3
             = Ok tt (upd_grp g (set_g_name m) h3)).
  { destruct (str_truthy nm); [exists nm; reflexivity|].
    assert (Mk : exists m, make_name g h3 = Ok m h3).
    { unfold make_name. rewrite G3. destruct ts as [|t ts]; [discriminate|]. cbn [g_tiers set_g_contains set_g_tiers map].
      match goal with |- context[if ?b then _ else _] => destruct b end; [eauto|].
      destruct (g_within _) as [[ | | |]|]; eauto. destruct (index_of _ _); eauto. }
    destruct Mk as [m Mk]. exists m. rewrite (bind_ok _ _ _ _ _ Mk). reflexivity. }
  destruct Nm as [m Nm]. rewrite (bind_ok _ _ _ _ _ Nm). set (h4 := upd_grp g _ h3).
  exists h4. split; [reflexivity|].
  assert (T4' : forall t, tob h4 t = tob h2 t) by reflexivity.
  constructor.
  - split; [exact T1|]. split; [exact T2|exact T4].
  - split; [exact T5|]. unfold h4, h3, upd_grp. simpl. rewrite !alter_length, T3. unfold h1, upd_grp. simpl. rewrite alter_length. reflexivity.
  - intros t Ht. rewrite T4'. unfold h2. rewrite tupds_in; auto. destruct (L t Ht) as [Lt _]. exact Lt.
  - intros t Ht. rewrite T4'. unfold h2. rewrite tupds_notin by auto. reflexivity.
  - unfold h4. rewrite gob_upd_eq by exact L3. rewrite G3, G2. unfold h1. rewrite gob_upd_eq by exact Lg. simpl. auto.
  - intros k Hk. unfold h4, h3. rewrite !gob_upd_ne by auto. rewrite G2. unfold h1. apply gob_upd_ne. auto.
Qed.

Lemma joined_ext h h' ts : h_tier h' = h_tier h -> joined_tiers h ts -> joined_tiers h' ts.
Proof.
  intros Et. assert (Et' : forall t, tob h' t = tob h t) by (intros t; unfold tob; rewrite Et; auto).
  induction ts as [|t ts IH]; [auto|]. destruct ts as [|u r]; [auto|]. intros (J1 & J2 & J3).
  split; [rewrite !Et'; exact J1|]. split; [rewrite !Et'; exact J2|]. apply IH. exact J3.
Qed.
Lemma tier_chain_ext h h' ts : h_cls h' = h_cls h -> h_tier h' = h_tier h -> tier_chain h ts -> tier_chain h' ts.
Proof.
  intros Ec Et (J & N & L & (a & A1 & c & A2 & A3) & (b & B1 & d & B2 & B3)).
  assert (Et' : forall t, tob h' t = tob h t) by (intros t; unfold tob; rewrite Et; auto).
  assert (Es : forall x y, issubclass h' x y = issubclass h x y) by (intros; apply issubclass_ext; auto).
  split; [eapply joined_ext; eauto|]. split; [erewrite map_ext; [exact N|]; intros k; rewrite Et'; reflexivity|]. split.
  - intros t Ht. rewrite Et, Et', !Es. apply L. exact Ht.
  - split; [exists a; split; [exact A1|]; exists c|exists b; split; [exact B1|]; exists d]; rewrite Et', Es; auto.
Qed.

(** The group [g] is the container of the tiers [ts], in that order. *)
Lemma new_tg_head n d ts0 ts h : Permutation ts0 ts -> tier_chain h ts ->
  let g := List.length (h_grp h) in
  exists h', new_tg_with n d ts0 h =
    (forM ts0 (fun t => l <- gets (fun h => t_seq (tob h t)) ;; forM l remove_superset) ;;; relate_tiers n d ts ;;; ret g) h' /\
  headed g ts (Heap (h_cls h) (h_seq h) (h_tier h) (h_grp h ++ [blank_grp false]) (h_grid h)) h'.
Proof.
  intros P C g. set (h0 := Heap (h_cls h) (h_seq h) (h_tier h) (h_grp h ++ [blank_grp false]) (h_grid h)).
  assert (Lg : glive h0 g) by (unfold glive, h0, g; simpl; rewrite app_length; simpl; lia).
  destruct (tg_init_head n g ts0 ts None d h0 Lg P (tier_chain_ext h h0 ts eq_refl eq_refl C)) as (h' & E & Hd). exists h'. split; [|exact Hd].
  change (new_tg_with n d ts0 h) with (match tg_init n g ts0 None d h0 with Ok _ h1 => Ok g h1 | Raise e h1 => Raise e h1 end). rewrite E.
  unfold bind. destruct (forM ts0 _ h'); [|reflexivity]. destruct (relate_tiers _ _ _ _); reflexivity.
Qed.

Lemma c23_arranged : forall n ts0 ts h g h', Permutation ts0 ts -> tier_chain h ts -> new_tg n ts0 h = Ok g h' ->
  g_tiers (gob h' g) = ts /\ contains_of h' (WGroup g) = Some ts /\
  (forall t, In t ts -> t_within (tob h' t) = Some (WGroup g)) /\
  (forall t, ~ In t ts -> t_within (tob h' t) = t_within (tob h t)) /\
  (forall t, t_ec (tob h' t) = t_ec (tob h t) /\ t_name (tob h' t) = t_name (tob h t)) /\
  (forall k, (k < List.length (h_grp h))%nat -> gob h' k = gob h k) /\
  g = List.length (h_grp h) /\ h_cls h' = h_cls h /\ h_grid h' = h_grid h.
Proof.
  intros n ts0 ts h g h' P C E. destruct (new_tg_head n false ts0 ts h P C) as (h1 & E1 & Hd). unfold new_tg in E. rewrite E1 in E.
  set (g0 := List.length (h_grp h)) in *.
  set (m := (forM ts0 (fun t => l <- gets (fun h => t_seq (tob h t)) ;; forM l remove_superset) ;;; relate_tiers n false ts ;;; ret g0)) in *.
  assert (K : calm m).
  { unfold m. apply calm_bind; [|intros _; apply calm_bind; [apply calm_relate_tiers|intros _; apply calm_ret]].
    apply calm_forM. intros t. apply calm_bind; [apply calm_gets|]. intros l. apply calm_forM. apply calm_remove. }
  pose proof (K h1) as (K1 & K2 & K3 & K4 & K5 & K6). rewrite E in *. simpl in *.
  assert (g = g0).
  { unfold m, bind in E. destruct (forM ts0 _ h1); [|discriminate]. destruct (relate_tiers _ _ _ _); [|discriminate]. unfold ret in E. congruence. }
  subst g. destruct Hd as [(A1 & A2 & A3) (B1 & B2) C1 C2 (D1 & D2 & D3 & D4) F]. simpl in *.
  assert (Gk : forall k, gob h' k = gob h1 k) by (intros k; unfold gob; rewrite K2; reflexivity).
  assert (Tk : forall t, tob (Heap (h_cls h) (h_seq h) (h_tier h) (h_grp h ++ [blank_grp false]) (h_grid h)) t = tob h t) by reflexivity.
  split; [rewrite Gk; exact D1|]. split; [rewrite Gk, D1, D2; reflexivity|]. split.
  { intros t Ht. destruct (K6 t) as (_ & _ & _ & _ & ->). rewrite C1 by auto. reflexivity. }
  split. { intros t Ht. destruct (K6 t) as (_ & _ & _ & _ & ->). rewrite C2 by auto. reflexivity. }
  split. { intros t. destruct (K6 t) as (-> & _ & _ & -> & _). destruct (in_dec Nat.eq_dec t ts); [rewrite C1 by auto|rewrite C2 by auto]; split; reflexivity. }
  split. { intros k Hk. rewrite Gk, F by (unfold g0; lia). unfold gob. simpl. rewrite lookup_app_l by exact Hk. reflexivity. }
  split; [reflexivity|]. split; congruence.
Qed.

(** ** Building a group of snug tiers *)
Lemma no_parents h l : (forall x, In x l -> s_super (sob h x) = None) -> forM l remove_superset h = Ok tt h.
Proof.
  induction l as [|x l IH]; intros K; simpl; [reflexivity|].
  assert (E : remove_superset x h = Ok tt h) by (unfold remove_superset; rewrite K by (simpl; auto); reflexivity).
  rewrite (bind_ok _ _ _ _ _ E). apply IH. intros y Hy. apply K. simpl. auto.
Qed.
Lemma no_parents_tiers h ts : (forall t x, In t ts -> In x (t_seq (tob h t)) -> s_super (sob h x) = None) ->
  forM ts (fun t => l <- gets (fun h => t_seq (tob h t)) ;; forM l remove_superset) h = Ok tt h.
Proof.
  induction ts as [|t ts IH]; intros K; simpl; [reflexivity|].
  assert (E : (l <- gets (fun h => t_seq (tob h t)) ;; forM l remove_superset) h = Ok tt h).
  { mstep. apply no_parents. intros x. apply K. simpl. auto. }
  rewrite (bind_ok _ _ _ _ _ E). apply IH. intros u x Hu. apply K. simpl. auto.
Qed.
Lemma snug_ext h h' ts : (forall x, sob h' x = sob h x) -> (forall t, t_seq (tob h' t) = t_seq (tob h t)) ->
  forall bss, snug h ts bss -> snug h' ts bss.
Proof.
  intros Es Et. induction ts as [|t ts IH]; intros bss S; [exact S|]. destruct ts as [|u r]; [exact S|].
  destruct bss as [|bs bss]; [exact S|]. rewrite snug_cons in S. rewrite snug_cons. destruct S as (S1 & S2 & S3). rewrite !Et.
  split; [exact S1|]. split; [|apply IH; exact S3]. eapply Forall2_weaken; [exact S2|]. intros x b _ _ F.
  apply (fills_kept h); auto; [rewrite Es; apply kept_refl|]. intros y _. rewrite Es. apply kept_refl.
Qed.
Lemma cut_ext h h' ts : (forall x, sob h' x = sob h x) -> (forall t, t_seq (tob h' t) = t_seq (tob h t)) ->
  forall bss, cut_up h ts bss -> cut_up h' ts bss.
Proof.
  intros Es Et. induction ts as [|t ts IH]; intros bss S; [exact S|]. destruct ts as [|u r]; [exact S|].
  destruct bss as [|bs bss]; [exact S|]. rewrite cut_cons in S. rewrite cut_cons. destruct S as (S1 & S2 & S3). rewrite !Et.
  split; [exact S1|]. split; [|apply IH; exact S3]. apply (parted_kept h); auto. intros x _. rewrite Es. apply kept_refl.
Qed.
Lemma prep_headed h h' ts bss : (forall x, sob h' x = sob h x) -> h_cls h' = h_cls h ->
  List.length (h_seq h') = List.length (h_seq h) ->
  (forall t, t_seq (tob h' t) = t_seq (tob h t) /\ t_ec (tob h' t) = t_ec (tob h t)) -> forall d, prep d h ts bss -> prep d h' ts bss.
Proof.
  intros Es Ec El Et d [P1 P2 P3 P4 P5 P6].
  assert (Ea : forall t, t_seq (tob h' t) = t_seq (tob h t)) by (intros t; apply Et).
  assert (Eb : forall t, t_ec (tob h' t) = t_ec (tob h t)) by (intros t; apply Et).
  constructor.
  - eapply cut_ext; eauto.
  - destruct P2 as [P2|P2]; [auto|]. right. eapply snug_ext; eauto.
  - clear -Ec Ea Eb P3. induction ts as [|t ts IH]; [exact P3|]. destruct ts as [|u r]; [exact P3|]. rewrite classes_joined_cons in *.
    destruct P3 as [Q1 Q2]. rewrite !Eb. split; [|auto]. rewrite (subset_class_ext h h') by auto. exact Q1.
  - erewrite map_ext; [exact P4|]. intros k. apply Eb.
  - intros t Ht. rewrite Ea, Eb. destruct (P5 t Ht) as ((A & B) & C). split.
    + split; [exact A|]. intros x Hx. rewrite Es, El. apply B. exact Hx.
    + rewrite (issubclass_ext h h') by auto. exact C.
  - intros t x Ht Hx. rewrite Ea in Hx. rewrite Es. eauto.
Qed.

Lemma built n d h ts0 ts bss : Permutation ts0 ts -> tier_chain h ts -> classes_joined h ts ->
  (forall t, In t ts -> fresh_tier h t) -> cut_up h ts bss -> d = true \/ snug h ts bss ->
  exists g h', new_tg_with n d ts0 h = Ok g h' /\ g_tiers (gob h' g) = ts /\ related_tiers h' ts bss /\ only_relates g ts h h'.
Proof.
  intros P C J Fr S T. destruct (new_tg_head n d ts0 ts h P C) as (h1 & E & Hd).
  set (g := List.length (h_grp h)) in *. pose proof Hd as [(A1 & A2 & A3) (B1 & B2) C1 C2 (D1 & D2 & D3 & D4) F]. simpl in A1, A2, A3, B1, B2.
  assert (Es : forall x, sob h1 x = sob h x) by (intros x; unfold sob; rewrite A2; reflexivity).
  assert (Et : forall t, t_seq (tob h1 t) = t_seq (tob h t) /\ t_ec (tob h1 t) = t_ec (tob h t)).
  { intros t. destruct (in_dec Nat.eq_dec t ts); [rewrite C1 by auto|rewrite C2 by auto]; split; reflexivity. }
  assert (Pr : prep d h ts bss).
  { constructor; auto.
    - apply C.
    - intros t Ht. destruct (Fr t Ht) as (Q1 & Q2 & _). auto.
    - intros t x Ht Hx. destruct (Fr t) as (_ & _ & Q); [destruct ts; [destruct Ht|right; exact Ht]|]. auto. }
  pose proof (prep_headed h h1 ts bss Es A1 ltac:(rewrite A2; reflexivity) Et d Pr) as Pr1.
  destruct (relate_tiers_cut n d ts bss h1 Pr1) as (h2 & E2 & L & R).
  exists g, h2. pose proof L as [(L1 & L2 & L3 & L4) L5 L6 L7 L8 L9].
  assert (Tk : forall t, tob h2 t = tob h1 t) by (intros t; unfold tob; rewrite L2; reflexivity).
  assert (Gk : forall k, gob h2 k = gob h1 k) by (intros k; unfold gob; rewrite L3; reflexivity).
  split.
  { rewrite E. rewrite (bind_ok _ _ _ tt h1).
    - rewrite (bind_ok _ _ _ _ _ E2). reflexivity.
    - apply no_parents_tiers. intros t x Ht Hx. rewrite Es. destruct (Et t) as [Q _]. rewrite Q in Hx.
      destruct (Fr t) as (_ & _ & Q'); [eapply Permutation_in; [exact P|exact Ht]|]. auto. }
  split; [rewrite Gk; exact D1|]. split; [exact R|].
  assert (Len : List.length (h_seq h1) = List.length (h_seq h)) by (rewrite A2; reflexivity).
  assert (Lv : forall i, (i < List.length (h_seq h))%nat -> live h1 i) by (intros i Hi; unfold live; rewrite Len; exact Hi).
  split. { intros i Hi. destruct (L8 i (Lv i Hi)) as (Q1 & Q2 & Q3 & Q4 & Q5). rewrite <- (Es i). auto. }
  split. { intros i Hi Hn. rewrite <- (Es i). apply L7; [auto|]. intros t Ht. destruct (Et t) as [-> _]. auto. }
  split. { intros i Hi. apply L6; unfold live; lia. }
  split; [congruence|]. split; [congruence|]. split; [congruence|].
  split. { intros t Ht. rewrite Tk, C2 by auto. reflexivity. }
  split. { intros t Ht. rewrite Tk, C1 by auto. reflexivity. }
  split; [reflexivity|]. split. { rewrite L3, B2, app_length. simpl. unfold g. lia. }
  intros k Hk. rewrite Gk, F by lia. unfold gob. simpl. rewrite lookup_app_l by exact Hk. reflexivity.
Qed.

Lemma c25_children : forall n h ts0 ts bss, Permutation ts0 ts -> tier_chain h ts -> classes_joined h ts ->
  (forall t, In t ts -> fresh_tier h t) -> cut_up h ts bss ->
  exists g h', new_tg_with n true ts0 h = Ok g h' /\ g_tiers (gob h' g) = ts /\ related_tiers h' ts bss /\ only_relates g ts h h'.
Proof. intros. apply built; auto. Qed.
(** ** Meeting tiers can be cut up *)
Lemma best_unique U q i k p : best U q i -> best U q k -> nth_error U i = Some p -> 0 < shared p q -> i = k.
Proof.
  intros (p' & Hp' & A) (r & Hr & B) Hp Pos. assert (p' = p) by congruence. subst p'.
  destruct (A k r Hr) as (A1 & A2 & _). destruct (B i p Hp) as (B1 & B2 & _).
  destruct (Nat.lt_trichotomy i k) as [Hk|[Hk|Hk]]; [|exact Hk|]; [specialize (B2 ltac:(lia) Hk)|specialize (A2 Pos Hk)]; lia.
Qed.
Lemma tiles_app h l1 l2 : forall a b, tiles h a (l1 ++ l2) b -> exists m, tiles h a l1 m /\ tiles h m l2 b.
Proof.
  induction l1 as [|x l1 IH]; intros a b T; [exists a; split; [reflexivity|exact T]|].
  destruct T as (m & A & B & C & T). destruct (IH m b T) as (m' & T1 & T2). exists m'. split; [|exact T2]. exists m. auto.
Qed.
Lemma parted_exists h U L : U <> [] -> meeting h U L -> exists bs, concat bs = L /\ parted h U bs.
Proof.
  intros Hne (Tu & Du & (a & e & T) & Ov & Sur).
  assert (Dl : forall y, In y L -> dated h y) by (intros y Hy; apply (tiles_in h L a e y T Hy)).
  set (SU := map (span_of h) U). set (SL := map (span_of h) L).
  assert (Ne' : SU <> []) by (unfold SU; destruct U; [congruence|discriminate]).
  destruct (c25_blocks SU SL L (in_turn_spans h U Du Tu) (dated_lasting h U Du) (in_turn_spans h L Dl (tiles_in_turn h L a e T))
              (dated_lasting h L Dl) Ne' ltac:(unfold SL; rewrite map_length; reflexivity)) as (B1 & B2 & B3).
  set (cs := containers (map fst SU) (map snd SU) (map fst SL) (map snd SL)) in *.
  set (bs := map (lower_slice cs L) (seq 0 (List.length SU))) in *.
  assert (Pos : forall y i p, In y L -> best SU (span_of h y) i -> nth_error SU i = Some p -> 0 < shared p (span_of h y)).
  { intros y i p Hy (p' & Hp' & K) Hp. assert (p' = p) by congruence. subst p'. destruct (Ov y Hy) as (u & Hu & Hs).
    apply In_nth_error in Hu. destruct Hu as [k Hk]. destruct (K k (span_of h u)) as (K1 & _); [unfold SU; rewrite nth_error_map, Hk; reflexivity|]. lia. }
  assert (Ch : forall j y, nth_error L j = Some y -> exists i, nth_error cs j = Some i /\ best SU (span_of h y) i).
  { intros j y Hj. apply (c24_best SU SL j (span_of h y) Ne' (dated_lasting h U Du) (dated_lasting h L Dl)).
    unfold SL. rewrite nth_error_map, Hj. reflexivity. }
  exists bs. split; [exact B1|]. split; [exact Du|]. split; [unfold bs, SU; rewrite map_length, seq_length, map_length; reflexivity|]. split.
  - intros b Hb. split.
    + unfold bs in Hb. apply in_map_iff in Hb. destruct Hb as (i & <- & Hi). apply in_seq in Hi. unfold SU in Hi. rewrite map_length in Hi.
      destruct (Sur i ltac:(lia)) as (y & Hy & Bi). apply In_nth_error in Hy. destruct Hy as [j Hj]. destruct (Ch j y Hj) as (k & Hk & Bk).
      fold SU in Bi. destruct Bi as (p & Hp & Bi'). assert (i = k).
      { eapply best_unique; [exists p; split; [exact Hp|exact Bi']|exact Bk|exact Hp|]. eapply Pos; [eapply nth_error_In; exact Hj|exists p; split; [exact Hp|exact Bi']|exact Hp]. }
      subst k. specialize (B2 i j y Hk Hj). intros Q. rewrite Q in B2. destruct B2.
    + apply in_split in Hb. destruct Hb as (b1 & b2 & Hb). rewrite Hb in B1. rewrite concat_app in B1. cbn [concat] in B1. rewrite <- B1 in T.
      apply tiles_app in T. destruct T as (m & _ & T). apply tiles_app in T. destruct T as (m' & T & _). eauto.
  - intros i u b y Hu Hb Hy. unfold bs in Hb. rewrite nth_error_map in Hb. destruct (nth_error (seq 0 (List.length SU)) i) as [i'|] eqn:Ei; [|discriminate].
    assert (i' = i). { assert (i < List.length (seq 0 (List.length SU)))%nat by (apply nth_error_Some; congruence). rewrite seq_length in *.
      rewrite (nth_error_nth' _ 0%nat) in Ei by (rewrite seq_length; auto). rewrite seq_nth in Ei by auto. simpl in Ei. congruence. }
    subst i'. simpl in Hb. injection Hb as <-. destruct (B3 i y Hy) as (j & Hj & HL). destruct (Ch j y HL) as (k & Hk & Bk).
    assert (k = i) by congruence. subst k. split; [exact Bk|]. apply (Pos y i); auto; [eapply nth_error_In; eauto|].
    unfold SU. rewrite nth_error_map, Hu. reflexivity.
Qed.
Lemma cut_exists h ts : ts <> [] ->
  (forall k t u, nth_error ts k = Some t -> nth_error ts (S k) = Some u -> t_seq (tob h t) <> [] /\ meeting h (t_seq (tob h t)) (t_seq (tob h u))) ->
  exists bss, cut_up h ts bss.
Proof.
  induction ts as [|t ts IH]; intros Hne M; [congruence|]. destruct ts as [|u r]; [exists []; exact I|].
  destruct (M 0%nat t u eq_refl eq_refl) as [Ne Me]. destruct (parted_exists h _ _ Ne Me) as (bs & E & P).
  destruct IH as (bss & C); [discriminate|intros k a b Ha Hb; apply (M (S k) a b Ha Hb)|].
  exists (bs :: bss). rewrite cut_cons. auto.
Qed.
Lemma related_parent h ts : forall bss h', related_tiers h' ts bss -> cut_up h ts bss -> (forall t, t_seq (tob h' t) = t_seq (tob h t)) ->
  forall k t u y, nth_error ts k = Some t -> nth_error ts (S k) = Some u -> In y (t_seq (tob h u)) ->
  exists i x, nth_error (t_seq (tob h t)) i = Some x /\ best (map (span_of h) (t_seq (tob h t))) (span_of h y) i /\
    s_super (sob h' y) = Some x /\ In y (s_subset (sob h' x)).
Proof.
  induction ts as [|t0 ts IH]; intros bss h' R C Et k t u y Ht Hu Hy; [destruct k; discriminate|].
  destruct ts as [|u0 r]; [destruct k; simpl in Hu; [|destruct k]; discriminate|]. destruct bss as [|bs bss]; [destruct C|].
  rewrite cut_cons in C. rewrite related_cons in R. destruct C as (C1 & C2 & C3), R as (R1 & R2).
  destruct k as [|k]; [|apply (IH bss h' R2 C3 Et k t u y Ht Hu Hy)].
  simpl in Ht, Hu. injection Ht as <-. injection Hu as <-. rewrite <- C1 in Hy. apply in_concat in Hy. destruct Hy as (b & Hb & Hy).
  apply In_nth_error in Hb. destruct Hb as [i Hb]. destruct C2 as (_ & Len & _ & B).
  destruct (nth_error (t_seq (tob h t0)) i) as [x|] eqn:Hx.
  - exists i, x. split; [exact Hx|]. split; [apply (B i x b y Hx Hb Hy)|]. rewrite Et in R1.
    destruct (Forall2_nth _ _ _ R1 i x b Hx Hb) as (P1 & _ & P3). split; [apply P3; exact Hy|]. rewrite P1. exact Hy.
  - apply nth_error_None in Hx. assert (i < List.length bs)%nat by (apply nth_error_Some; congruence). lia.
Qed.
Lemma c24_parent : forall n h ts0 ts, Permutation ts0 ts -> tier_chain h ts -> classes_joined h ts ->
  (forall t, In t ts -> fresh_tier h t /\ t_seq (tob h t) <> []) ->
  (forall k t u, nth_error ts k = Some t -> nth_error ts (S k) = Some u -> meeting h (t_seq (tob h t)) (t_seq (tob h u))) ->
  exists g h', new_tg_with n true ts0 h = Ok g h' /\ g_tiers (gob h' g) = ts /\ only_relates g ts h h' /\
    forall k t u y, nth_error ts k = Some t -> nth_error ts (S k) = Some u -> In y (t_seq (tob h u)) ->
    exists i x, nth_error (t_seq (tob h t)) i = Some x /\ best (map (span_of h) (t_seq (tob h t))) (span_of h y) i /\
      s_super (sob h' y) = Some x /\ In y (s_subset (sob h' x)).
Proof.
  intros n h ts0 ts P C J Fr M. destruct (cut_exists h ts) as (bss & Cu).
  - destruct C as (_ & _ & _ & (t & Ht & _) & _). intros ->. discriminate.
  - intros k t u Ht Hu. split; [apply Fr; eapply nth_error_In; eauto|eauto].
  - destruct (built n true h ts0 ts bss P C J ltac:(intros t Ht; apply (Fr t Ht)) Cu ltac:(auto)) as (g & h' & E & G & R & O).
    exists g, h'. split; [exact E|]. split; [exact G|]. split; [exact O|]. apply (related_parent h ts bss h' R Cu).
    intros t. destruct O as (_ & _ & _ & _ & _ & _ & O1 & O2 & _). destruct (in_dec Nat.eq_dec t ts); [rewrite O2 by auto|rewrite O1 by auto]; reflexivity.
Qed.
Lemma c26_related : forall n h ts0 ts bss, Permutation ts0 ts -> tier_chain h ts -> classes_joined h ts ->
  (forall t, In t ts -> fresh_tier h t) -> snug h ts bss ->
  (forall t, hd_error ts = Some t -> in_turn h (t_seq (tob h t))) ->
  exists g h', new_tg n ts0 h = Ok g h' /\ g_tiers (gob h' g) = ts /\ related_tiers h' ts bss /\ only_relates g ts h h'.
Proof.
  intros n h ts0 ts bss P C J Fr S T. apply (built n false); auto. apply snug_cut; auto.
Qed.

(** ** Looking up a time across the tiers of a group *)
Lemma holds_dated h x z : dated h x -> is_point h x = false -> (holds_at h x z <-> fst (span_of h x) <= z < snd (span_of h x)).
Proof.
  intros (A & B & C) P. unfold holds_at. unfold end_at. rewrite P. split.
  - intros (s & e & E1 & E2 & E3). assert (s = fst (span_of h x)) by congruence. assert (e = snd (span_of h x)) by congruence. lia.
  - intros E. exists (fst (span_of h x)), (snd (span_of h x)). auto.
Qed.
Lemma in_turn_once h l z : (forall x, In x l -> dated h x) -> (forall x, In x l -> is_point h x = false) -> in_turn h l ->
  forall i j x y, nth_error l i = Some x -> nth_error l j = Some y -> holds_at h x z -> holds_at h y z -> i = j.
Proof.
  intros D P T.
  assert (G : forall i j x y, (i < j)%nat -> nth_error l i = Some x -> nth_error l j = Some y -> holds_at h x z -> holds_at h y z -> False).
  { intros i j x y Hij Hx Hy A B. pose proof (nth_error_In _ _ Hx). pose proof (nth_error_In _ _ Hy).
    apply holds_dated in A; auto. apply holds_dated in B; auto. destruct (T i j x y Hij Hx Hy) as (e & s & E1 & E2 & E3).
    destruct (D x) as (_ & Q1 & _); [auto|]. destruct (D y) as (Q2 & _); [auto|].
    assert (e = snd (span_of h x)) by congruence. assert (s = fst (span_of h y)) by congruence. lia. }
  intros i j x y Hx Hy A B. destruct (Nat.lt_trichotomy i j) as [Hlt|[->|Hlt]]; [|reflexivity|]; exfalso; eauto.
Qed.
Lemma tiles_cover h l : forall a b z, tiles h a l b -> a <= z < b -> exists y, In y l /\ fst (span_of h y) <= z < snd (span_of h y).
Proof.
  induction l as [|x l IH]; simpl; intros a b z T Hz; [lia|]. destruct T as (m & A & B & Hm & T).
  destruct (dated_by h x a m A B Hm) as [_ S]. destruct (Z.lt_ge_cases z m) as [Hlt|Hge].
  - exists x. split; [auto|]. rewrite S. simpl. lia.
  - destruct (IH m b z T) as (y & Hy & Q); [lia|]. exists y. split; [auto|exact Q].
Qed.

Definition level_ok (h : heap) (t : tid) : Prop :=
  in_turn h (t_seq (tob h t)) /\ forall x, In x (t_seq (tob h t)) -> dated h x /\ is_point h x = false.
Lemma snug_levels h ts : forall bss, snug h ts bss ->
  (forall t x, In t ts -> In x (t_seq (tob h t)) -> is_point h x = false) ->
  (forall t, hd_error ts = Some t -> in_turn h (t_seq (tob h t)) /\ forall x, In x (t_seq (tob h t)) -> dated h x) ->
  forall t, In t ts -> level_ok h t.
Proof.
  induction ts as [|t ts IH]; intros bss S P Hd t' Ht; [destruct Ht|].
  assert (L0 : level_ok h t).
  { destruct (Hd t eq_refl) as [T D]. split; [exact T|]. intros x Hx. split; [auto|]. apply (P t); simpl; auto. }
  destruct Ht as [<-|Ht]; [exact L0|]. destruct ts as [|u r]; [destruct Ht|]. destruct bss as [|bs bss]; [destruct S|].
  rewrite snug_cons in S. destruct S as (S1 & S2 & S3). apply (IH bss); auto.
  - intros k x Hk. apply P. right. exact Hk.
  - intros k [= <-]. rewrite <- S1. split; [apply (fills_in_turn h (t_seq (tob h t))); [exact S2|apply L0]|].
    intros x Hx. apply in_concat in Hx. destruct Hx as (b & Hb & Hx). destruct (Forall2_in_r _ _ _ b S2 Hb) as (v & _ & F).
    destruct (fills_dated h v b F) as [_ Tb]. apply (tiles_in h b _ _ x Tb Hx).
Qed.
Lemma level_lookup h t z : level_ok h t -> exists r, get_interval_at_time t z h = Ok r h /\
  forall i, r = Some i <-> exists x, nth_error (t_seq (tob h t)) i = Some x /\ holds_at h x z.
Proof.
  intros [T K]. destruct (c19_found h t z) as (r & E & A & _).
  - intros x Hx. destruct (K x Hx) as [(D1 & D2 & _) P]. unfold timed_both, end_at. rewrite P. split; congruence.
  - apply in_turn_once; auto; intros x Hx; apply (K x Hx).
  - exists r. auto.
Qed.

Lemma lookup_down h ts z : forall bss, snug h ts bss -> related_tiers h ts bss -> (forall t, In t ts -> level_ok h t) ->
  forall r, Forall2 (fun t o => forall i, o = Some i <-> exists x, nth_error (t_seq (tob h t)) i = Some x /\ holds_at h x z) ts r ->
  forall k t u, nth_error ts k = Some t -> nth_error ts (S k) = Some u ->
  (forall i, nth_error r (S k) = Some (Some i) ->
     exists j x y, nth_error r k = Some (Some j) /\ nth_error (t_seq (tob h t)) j = Some x /\
       nth_error (t_seq (tob h u)) i = Some y /\ s_super (sob h y) = Some x /\ In y (s_subset (sob h x))) /\
  (forall j, nth_error r k = Some (Some j) -> exists i, nth_error r (S k) = Some (Some i)).
Proof.
  induction ts as [|t0 ts IH]; intros bss S R L r F k t u Ht Hu; [destruct k; discriminate|].
  inversion F as [|? o ? r' Fo Fr]; subst. destruct ts as [|u0 ts]; [destruct k; simpl in Hu; [discriminate|destruct k; discriminate]|].
  destruct bss as [|bs bss]; [destruct S|]. rewrite snug_cons in S. rewrite related_cons in R. destruct S as (S1 & S2 & S3), R as (R1 & R2).
  destruct k as [|k].
  2:{ apply (IH bss S3 R2 (fun t Ht => L t (or_intror Ht)) r' Fr k t u); auto. }
  simpl in Ht, Hu. injection Ht as <-. injection Hu as <-. inversion Fr as [|? o' ? r'' Fo' _]; subst.
  destruct (L t0) as [_ L0]; [simpl; auto|]. destruct (L u0) as [T1 L1]; [simpl; auto|]. split.
  - intros i [= ->]. destruct (proj1 (Fo' i) eq_refl) as (y & Hy & Hz). pose proof (nth_error_In _ _ Hy) as Iy.
    pose proof Iy as Iy'. rewrite <- S1 in Iy'. apply in_concat in Iy'. destruct Iy' as (b & Hb & Hyb).
    apply In_nth_error in Hb. destruct Hb as [j Hb].
    destruct (nth_error (t_seq (tob h t0)) j) as [x|] eqn:Hx.
    2:{ apply nth_error_None in Hx. assert (j < List.length bs)%nat by (apply nth_error_Some; congruence).
        pose proof (Forall2_length _ _ _ S2). lia. }
    pose proof (Forall2_nth _ _ _ S2 j x b Hx Hb) as Fx. pose proof (Forall2_nth _ _ _ R1 j x b Hx Hb) as (Q1 & _ & Q3).
    destruct (fills_dated h x b Fx) as [Dx Tb]. destruct (tiles_in h b _ _ y Tb Hyb) as (Dy & B1 & B2).
    destruct (L1 y Iy) as [_ Py]. apply (holds_dated h y z Dy Py) in Hz.
    exists j, x, y. assert (o = Some j).
    { apply Fo. exists x. split; [exact Hx|]. apply holds_dated; [exact Dx|apply L0; eapply nth_error_In; eauto|lia]. }
    subst o. split; [reflexivity|]. split; [auto|]. split; [auto|]. destruct (Q3 y Hyb) as [Q4 _]. split; [exact Q4|]. rewrite Q1. exact Hyb.
  - intros j [= ->]. destruct (proj1 (Fo j) eq_refl) as (x & Hx & Hz). pose proof (nth_error_In _ _ Hx) as Ix.
    destruct (L0 x Ix) as [Dx Px]. apply (holds_dated h x z Dx Px) in Hz.
    destruct (Forall2_in_l _ _ _ x S2 Ix) as (b & Hb & Fx). destruct (fills_dated h x b Fx) as [_ Tb].
    destruct (tiles_cover h b _ _ z Tb Hz) as (y & Hy & Q). assert (Iy : In y (t_seq (tob h u0))).
    { rewrite <- S1. apply (in_concat' y b); auto. }
    apply In_nth_error in Iy. destruct Iy as [i Hi]. exists i. simpl. f_equal. apply Fo'. exists y. split; [exact Hi|].
    destruct (L1 y (nth_error_In _ _ Hi)) as [Dy Py]. apply holds_dated; auto.
Qed.

Lemma c27_lookup : forall h g bss z, g_points (gob h g) = false ->
  snug h (g_tiers (gob h g)) bss -> related_tiers h (g_tiers (gob h g)) bss ->
  (forall t x, In t (g_tiers (gob h g)) -> In x (t_seq (tob h t)) -> is_point h x = false) ->
  (forall t, hd_error (g_tiers (gob h g)) = Some t -> in_turn h (t_seq (tob h t)) /\
     forall x, In x (t_seq (tob h t)) -> exists a b, s_start (sob h x) = Some a /\ s_end (sob h x) = Some b /\ a < b) ->
  exists r, grp_intervals_at_time z g h = Ok r h /\
    forall k t u, nth_error (g_tiers (gob h g)) k = Some t -> nth_error (g_tiers (gob h g)) (S k) = Some u ->
    (forall i, nth_error r (S k) = Some (Some i) ->
       exists j x y, nth_error r k = Some (Some j) /\ nth_error (t_seq (tob h t)) j = Some x /\
         nth_error (t_seq (tob h u)) i = Some y /\ s_super (sob h y) = Some x /\ In y (s_subset (sob h x))) /\
    (forall j, nth_error r k = Some (Some j) -> exists i, nth_error r (S k) = Some (Some i)).
Proof.
  intros h g bss z Hp S R P T. remember (g_tiers (gob h g)) as ts eqn:Ets.
  assert (L : forall t, In t ts -> level_ok h t).
  { eapply snug_levels; eauto. intros t Ht. destruct (T t Ht) as [T1 T2]. split; [exact T1|]. intros x Hx.
    destruct (T2 x Hx) as (a & b & A & B & C). apply (dated_by h x a b A B C). }
  destruct (mapM_read (fun t => get_interval_at_time t z)
    (fun t o => forall i, o = Some i <-> exists x, nth_error (t_seq (tob h t)) i = Some x /\ holds_at h x z) h ts) as (r & E & F).
  { intros t Ht. apply level_lookup. auto. }
  exists r. split.
  - unfold grp_intervals_at_time. mstep. rewrite Hp, <- Ets. exact E.
  - intros k t u. eapply lookup_down; eauto.
Qed.

End WithEnv.
