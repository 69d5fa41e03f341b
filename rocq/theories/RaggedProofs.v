(** * RaggedProofs: closing the gaps of the blocks of a tier (for C69). *)
From Verif Require Export MendGroupFinal RaggedSpec.
From Verif Require Import SnapFinal GapFinal QueryFinal.
From Verif Require Import ChildSpec MendSpec ChildFinal MendFinal MendGroupFinal.
Open Scope Z_scope.

Section WithEnv.
Context `{Env}.
Opaque span_of.

(** ** Taking children in any order *)
Lemma upd_swap f x y h : upd_seq x f (upd_seq y f h) = upd_seq y f (upd_seq x f h).
Proof.
  destruct (Nat.eq_dec x y) as [->|N]; [reflexivity|]. unfold upd_seq. simpl. f_equal. apply list_alter_commute. exact N.
Qed.
Lemma upds_perm f l m : Permutation l m -> forall h, upds f l h = upds f m h.
Proof.
  induction 1 as [|x l m P IH|x y l|l m k P1 IH1 P2 IH2]; intros h; [reflexivity|simpl; apply IH|simpl; rewrite upd_swap; reflexivity|rewrite IH1; apply IH2].
Qed.
Lemma adopt_perm u l b c h : Permutation l b -> subset_class h (s_cls (sob h u)) = Some c -> linkable h c b -> b <> [] ->
  rising h b -> known_starts h b -> (forall y, In y b -> s_super (sob h y) = None \/ s_super (sob h y) = Some u) -> ~ In u b -> live h u ->
  set_subset_list u l h = set_subset_list u b h.
Proof.
  intros P Sc [Nd Al] Ne Ri Kn Su Nu Lu.
  assert (Il : forall y, In y l <-> In y b) by (intros y; split; apply Permutation_in; [exact P|symmetry; exact P]).
  assert (All : forall k, (forall y, In y k -> In y b) -> forallb id (map (fun x => issubclass h (s_cls (sob h x)) c) k) = true).
  { intros k Ik. apply forallb_forall. intros v Hv. apply in_map_iff in Hv. destruct Hv as (z & <- & Hz). unfold id.
    destruct (Al z (Ik z Hz)) as (_ & -> & _). apply issubclass_refl. }
  assert (Sl : forall k, Permutation k b -> sl_init k h = Ok (Slv b (Some c)) h).
  { intros k Pk. destruct (sl_init_spec h c k) as (k' & E & P' & So & _).
    - intros x Hx. apply Al. apply (Permutation_in x Pk Hx).
    - intros x Hx. apply Kn. apply (Permutation_in x Pk Hx).
    - rewrite E. assert (k' = b) by (apply (rising_perm h); [exact Ri|exact So|rewrite P'; exact Pk]). subst k'.
      destruct k; [apply Permutation_nil in Pk; contradiction|reflexivity]. }
  unfold set_subset_list. mstep. mstep. rewrite Sc.
  rewrite (bind_ok _ _ _ _ _ (mapM_isinstance c l h)), (bind_ok _ _ _ _ _ (mapM_isinstance c b h)).
  rewrite (All l) by (intros y; apply Il). rewrite (All b) by auto. rewrite (bind_ok _ _ _ _ _ (Sl l P)), (bind_ok _ _ _ _ _ (Sl b (Permutation_refl b))).
  unfold rebind_subset. mstep. mstep. match goal with |- bind _ _ ?a = _ => set (h1 := a) end.
  assert (K1 : forall y, In y b -> (s_super (sob h1 y) = None \/ s_super (sob h1 y) = Some u) /\ live h1 y).
  { intros y Hy. destruct (Al y Hy) as (Ly & _). assert (y <> u) by (intros ->; contradiction). unfold h1. rewrite sob_upd_ne by auto. rewrite live_upd. auto. }
  rewrite (bind_ok _ _ _ _ _ (take_own u b h1 K1 Nd)).
  rewrite (bind_ok _ _ _ _ _ (take_own u l h1 (fun y Hy => K1 y (proj1 (Il y) Hy)) (proj2 (NoDup_ListNoDup l) (Permutation_NoDup (Permutation_sym P) (proj1 (NoDup_ListNoDup b) Nd))))).
  rewrite (upds_perm _ l b P). reflexivity.
Qed.
(** Taking no children. *)
Lemma adopt_none u h c : subset_class h (s_cls (sob h u)) = Some c -> live h u ->
  exists h', set_subset_list u [] h = Ok tt h' /\ h_cls h' = h_cls h /\ h_tier h' = h_tier h /\ h_grp h' = h_grp h /\ h_grid h' = h_grid h /\
    List.length (h_seq h') = List.length (h_seq h) /\ (forall i, i <> u -> sob h' i = sob h i) /\
    sob h' u = set_s_contains CAlias (set_s_subec None (set_s_subset [] (sob h u))).
Proof.
  intros Sc Lu. unfold set_subset_list. mstep. rewrite Sc.
  rewrite (bind_ok _ _ _ _ _ (mapM_isinstance c [] h)). cbn [map forallb]. 
  rewrite (bind_ok _ _ h sl_empty h) by reflexivity. unfold rebind_subset. mstep. cbn [forM]. mstep. unfold seq_set_contains. mstep. mstep. mstep.
  match goal with |- context[upd_seq u ?f h] => set (h1 := upd_seq u f h) end.
  assert (S1 : s_subset (sob h1 u) = []) by (unfold h1; rewrite sob_upd_eq by exact Lu; reflexivity).
  rewrite S1. cbn [forM]. mstep. unfold set_subset_precedence. mstep.
  assert (L1 : live h1 u) by (unfold h1; rewrite live_upd; exact Lu).
  assert (S2 : s_subset (sob (upd_seq u (set_s_contains CAlias) h1) u) = []) by (rewrite sob_upd_eq by exact L1; exact S1).
  change (get_seq u) with (gets (fun h0 => sob h0 u)). mstep. rewrite S2. eexists. split; [reflexivity|]. split; [reflexivity|]. split; [reflexivity|]. split; [reflexivity|]. split; [reflexivity|].
  split; [rewrite len_upd_seq; unfold h1; apply len_upd_seq|]. split.
  - intros i Hi. rewrite sob_upd_ne by exact Hi. unfold h1. rewrite sob_upd_ne by exact Hi. reflexivity.
  - rewrite sob_upd_eq by exact L1. unfold h1. rewrite sob_upd_eq by exact Lu. reflexivity.
Qed.

(** ** New intervals, several times *)
Notation made_up c h h' ws ps := (adds c h h' ws ps (Slv ws None)).
Lemma made_nil c h : made_up c h h [] [].
Proof. apply adds_none. Qed.
Lemma made_trans c h h1 h2 w1 w2 p1 p2 : made_up c h h1 w1 p1 -> made_up c h1 h2 w2 p2 -> made_up c h h2 (w1 ++ w2) (p1 ++ p2).
Proof.
  intros [(R1 & R2 & R3 & R4) Ln Od Nw Ws Nd Va Ec] [(T1 & T2 & T3 & T4) Ln' Od' Nw' Ws' Nd' Va' Ec'].
  assert (F1 : forall x, In x w1 -> live h1 x /\ ~ live h x).
  { intros x Hx. destruct (Forall2_in_l _ _ _ _ Ws Hx) as (p & _ & [A _]). unfold live. lia. }
  assert (F2 : forall x, In x w2 -> ~ live h1 x).
  { intros x Hx. destruct (Forall2_in_l _ _ _ _ Ws' Hx) as (p & _ & [A _]). unfold live. lia. }
  constructor.
  - repeat split; congruence.
  - lia.
  - intros i Hi. rewrite Od' by (unfold live in *; lia). apply Od, Hi.
  - intros i Hi Hn Hw. rewrite in_app_iff in Hw. destruct (decide (live h1 i)) as [L1|L1].
    + assert (B : is_boundary h1 i) by (apply Nw; auto). destruct B as (B0 & B). split; [unfold live in *; lia|]. rewrite Od' by exact L1. exact B.
    + apply Nw'; auto.
  - apply Forall2_app.
    + eapply Forall2_impl; [exact Ws|]. intros x p [A B]. split; [lia|]. rewrite Od' by (unfold live; lia). exact B.
    + eapply Forall2_impl; [exact Ws'|]. intros x p [A B]. split; [lia|exact B].
  - apply NoDup_app. split; [exact Nd|]. split; [|exact Nd']. intros x Hx Q. apply elem_of_list_In in Hx, Q. apply (F2 x Q), (F1 x Hx).
  - reflexivity.
  - right. reflexivity.
Qed.
Lemma made_one c s e h : issubclass h c cInterval = true ->
  exists h' w, construct3 (Some c) (Some s) (Some e) "" h = Ok w h' /\ made_up c h h' [w] [(s, e)].
Proof.
  intros I. destruct (new_blank c s e h) as (h' & E & X1 & X2 & X3 & X4 & X5 & X6 & X7 & X8). exists h', (List.length (h_seq h)).
  split; [rewrite construct_blank by exact I; exact E|]. constructor; auto.
  - lia.
  - intros i Hi Hn Hw. apply X7; auto. intros ->. apply Hw. simpl. auto.
  - constructor; [split; [lia|exact X8]|constructor].
  - apply NoDup_singleton.
Qed.
Lemma append_any h self x c : (sv_ec self = Some c \/ sv_ec self = None) -> s_cls (sob h x) = c -> issubclass h c (kind_of h c) = true ->
  sl_contains h (sv_vals self) x = false -> known_starts h (sv_vals self) -> (exists v, s_start (sob h x) = Some v) ->
  exists l', Permutation l' (x :: sv_vals self) /\ sl_append self x false h = Ok (Slv l' (Some c)) h.
Proof.
  intros Hec Hc Hk Hn Kn (v & Hv). unfold sl_append. mstep. rewrite Hn. mstep. rewrite Hc. mstep.
  assert (Hok : match sv_ec self with None => true | Some ec => issubclass h ec c || issubclass h c ec end = true).
  { destruct Hec as [->| ->]; [rewrite issubclass_refl|]; reflexivity. }
  rewrite Hok. cbn [negb].
  assert (Hecc : match sv_ec self with None => c | Some e => e end = c) by (destruct Hec as [->| ->]; auto).
  rewrite Hecc. rewrite (bind_ok _ _ _ _ _ (cast_same h c x Hc Hk)). unfold when. mstep. mstep.
  destruct (_ && _).
  - mstep. unfold start_of at 1. rewrite Hv. destruct (all_some_map (start_of h) (sv_vals self)) as (st & Est & _); [intros y Hy; apply Kn, Hy|].
    fold (starts_of h (sv_vals self)) in Est. rewrite Est. eexists. split; [apply insert_at_perm|reflexivity].
  - exists (sv_vals self ++ [x])%list. split; [rewrite Permutation_app_comm; reflexivity|reflexivity].
Qed.

(** ** Closing the gaps of one block *)
Fixpoint close_loop (ps : list (Z * Z)) (v : slv) : M slv :=
  match ps with
  | [] => ret v
  | (s, e) :: ps' =>
    c <- gets (fun h => match sv_vals v with o :: _ => Some (s_cls (sob h o)) | [] => None end) ;;
    nw <- construct3 c (Some s) (Some e) "" ;;
    v' <- sl_append v nw false ;;
    close_loop ps' v'
  end.
Lemma close_loop_ok c ps : forall h l, issubclass h c cInterval = true -> issubclass h c cPoint = false -> l <> [] ->
  (forall x, In x l -> live h x /\ s_cls (sob h x) = c) -> known_starts h l ->
  (forall p x, In p ps -> In x l -> s_start (sob h x) <> Some (fst p)) -> NoDup (map fst ps) ->
  exists h' l' ws, close_loop ps (Slv l (Some c)) h = Ok (Slv l' (Some c)) h' /\ made_up c h h' ws ps /\ Permutation l' (ws ++ l).
Proof.
  induction ps as [|[s e] ps IH]; intros h l I Pt Ne Al Kn Df Nd.
  { exists h, l, []. split; [reflexivity|]. split; [apply made_nil|reflexivity]. }
  destruct (made_one c s e h I) as (h1 & w & E & M1). pose proof M1 as [(R1 & R2 & R3 & R4) Ln Od Nw Ws _ _ _].
  apply Forall2_cons_1 in Ws. destruct Ws as [Fw _]. destruct (fresh_fields _ _ _ _ _ Fw) as (Lw & Cw & Sw & Ew & _). cbn [fst snd] in Sw, Ew.
  assert (Ol : forall x, In x l -> sob h1 x = sob h x) by (intros x Hx; apply Od, (Al x Hx)).
  cbn [map] in Nd. apply NoDup_cons in Nd. destruct Nd as [N1 N2]. rewrite elem_of_list_In in N1. cbn [fst] in N1.
  assert (Kn1 : known_starts h1 l) by (intros x Hx; rewrite Ol by exact Hx; apply Kn, Hx).
  destruct (append_any h1 (Slv l (Some c)) w c) as (l1 & P1 & E1); [auto|exact Cw| | |exact Kn1|eauto|].
  { unfold kind_of, is_point_cls. rewrite !(issubclass_ext h h1) by exact R1. rewrite Pt. exact I. }
  { apply sl_contains_iff_not. cbn [sv_vals]. intros (y & Hy & D). apply (Df (s, e) y); [simpl; auto|exact Hy|]. cbn [fst]. rewrite <- (Ol y Hy).
    destruct D as [-> |(_ & D & _)]; congruence. }
  cbn [sv_vals] in P1.
  assert (I1 : forall x, In x l1 <-> x = w \/ In x l).
  { intros x. split; intros Hx; [apply (Permutation_in x P1) in Hx; simpl in Hx; intuition|]. apply (Permutation_in x (Permutation_sym P1)). simpl. intuition. }
  destruct (IH h1 l1) as (h2 & l2 & ws & E2 & M2 & P2).
  - rewrite (issubclass_ext h h1) by exact R1. exact I.
  - rewrite (issubclass_ext h h1) by exact R1. exact Pt.
  - intros ->. apply Permutation_nil in P1. discriminate.
  - intros x Hx. apply I1 in Hx. destruct Hx as [->|Hx]; [auto|]. rewrite Ol by exact Hx. destruct (Al x Hx). split; [unfold live in *; lia|auto].
  - intros x Hx. apply I1 in Hx. destruct Hx as [->|Hx]; [eauto|]. apply Kn1, Hx.
  - intros p x Hp Hx Q. apply I1 in Hx. destruct Hx as [->|Hx].
    + apply N1. rewrite Sw in Q. injection Q as ->. apply in_map, Hp.
    + rewrite Ol in Q by exact Hx. apply (Df p x); simpl; auto.
  - exact N2.
  - exists h2, l2, ([w] ++ ws)%list. split; [|split; [|]].
    + cbn [close_loop]. mstep. cbn [sv_vals]. destruct l as [|f r] eqn:El; [contradiction|]. destruct (Al f) as [_ ->]; [simpl; auto|].
      rewrite (bind_ok _ _ _ _ _ E), (bind_ok _ _ _ _ _ E1). exact E2.
    + apply (made_trans c h h1 h2 [w] ws [(s, e)] ps M1 M2).
    + rewrite P2, P1. cbn [List.app]. symmetry. apply Permutation_middle.
Qed.
Lemma times_known h b ts : Forall2 (has_times h) b ts -> (forall x, In x b -> is_point h x = false) ->
  all_some (starts_of h b) = Some (map fst ts) /\ all_some (ends_of h b) = Some (map snd ts).
Proof.
  intros F Np. rewrite <- !all_some_Some. unfold starts_of, ends_of. split; f_equal.
  - induction F as [|x p b ts [A B] F IH]; [reflexivity|]. cbn [map]. unfold start_of at 1. rewrite A, IH; [reflexivity|]. intros y Hy. apply Np. simpl. auto.
  - induction F as [|x p b ts [A B] F IH]; [reflexivity|]. cbn [map]. rewrite end_plain by (apply Np; simpl; auto). rewrite B, IH; [reflexivity|].
    intros y Hy. apply Np. simpl. auto.
Qed.
(** The pairs of times of a block. *)
Lemma chain_ordered ts : forall a z, chain_times a ts z -> ordered ts /\ lasting ts /\ (forall p, In p ts -> a <= fst p).
Proof.
  induction ts as [|p ts IH]; intros a z C.
  { split; [intros i j x y _ Hx; destruct i; discriminate|]. split; [intros x []|intros x []]. }
  destruct C as (C1 & C2 & C3). destruct (IH _ _ C3) as (O & L & B). split; [|split].
  - apply ordered_cons. split; [exact B|exact O].
  - intros q [<-|Hq]; [exact C2|apply L, Hq].
  - intros q [<-|Hq]; [exact C1|]. specialize (B q Hq). lia.
Qed.
Lemma plug_gaps h h' c l : forall x p ts ws, has_times h x p -> Forall2 (has_times h) l ts ->
  ordered (p :: ts) -> Forall2 (fun w g => blank h h' c w (fst g) (snd g)) ws (span_gaps (p :: ts)) ->
  exists m, plugged h h' c (x :: l) m /\ Permutation m (ws ++ x :: l).
Proof.
  induction l as [|y l IH]; intros x p ts ws [X1 X2] F O G.
  - apply Forall2_nil_inv_l in F. subst ts. cbn [span_gaps] in G. apply Forall2_nil_inv_r in G. subst ws. exists [x]. split; [constructor|reflexivity].
  - apply Forall2_cons_inv_l in F. destruct F as (q & ts' & [Q1 Q2] & F & ->). rewrite gaps_cons in G. apply ordered_cons in O. destruct O as [O1 O2].
    destruct (snd p <? fst q) eqn:E.
    + apply Z.ltb_lt in E. apply Forall2_cons_inv_r in G. destruct G as (w & ws' & B & G & ->). cbn [fst snd] in B.
      destruct (IH y q ts' ws' (conj Q1 Q2) F O2 G) as (m & M & P). exists (x :: w :: m). split; [eapply plugged_gap; eauto|].
      rewrite P. cbn [List.app]. rewrite perm_swap. apply perm_skip. apply Permutation_middle.
    + apply Z.ltb_ge in E. assert (fst q = snd p) by (pose proof (O1 q ltac:(simpl; auto)); lia).
      destruct (IH y q ts' ws (conj Q1 Q2) F O2 G) as (m & M & P). exists (x :: m). split.
      * eapply plugged_next; [exact X2|rewrite Q1, H0; reflexivity|exact M].
      * rewrite P. apply Permutation_middle.
Qed.
Lemma plugged_ext h h1 h' c b m : plugged h h1 c b m -> (List.length (h_seq h1) <= List.length (h_seq h'))%nat ->
  (forall w, ~ live h w -> live h1 w -> In w m -> s_cls (sob h' w) = s_cls (sob h1 w) /\ s_label (sob h' w) = s_label (sob h1 w) /\
     s_start (sob h' w) = s_start (sob h1 w) /\ s_end (sob h' w) = s_end (sob h1 w) /\ s_subset (sob h' w) = s_subset (sob h1 w)) -> plugged h h' c b m.
Proof.
  intros P Le. induction P as [x|x y l m a A B P IH|x y l m a b w A B Lt Bw P IH]; intros V.
  - constructor.
  - eapply plugged_next; eauto. apply IH. intros w Q1 Q2 Q3. apply V; simpl; auto.
  - eapply plugged_gap; eauto.
    + destruct Bw as (L & B1 & B2 & B3 & B4 & B5). destruct (V w) as (V1 & V2 & V3 & V4 & V5); [unfold live; lia|unfold live; lia|simpl; auto|].
      split; [lia|]. rewrite V1, V2, V3, V4, V5. auto.
    + apply IH. intros k Q1 Q2 Q3. apply V; simpl; auto.
Qed.
(** The intervals of [l] follow each other from [a] up to the tolerance. *)
Fixpoint abut (h : heap) (a : Z) (l : list oid) : Prop :=
  match l with
  | [] => True
  | x :: r => exists s e, s_start (sob h x) = Some s /\ s_end (sob h x) = Some e /\ near a s /\ abut h e r
  end.
Definition first_start (h : heap) (b : list oid) (a : Z) : Prop := exists f, hd_error b = Some f /\ s_start (sob h f) = Some a.
Definition last_end (h : heap) (b : list oid) (z : Z) : Prop := exists f, hd_error (rev b) = Some f /\ s_end (sob h f) = Some z.
Lemma hd_rev_cons {A} (x y : A) l : hd_error (rev (x :: y :: l)) = hd_error (rev (y :: l)).
Proof. change (rev (x :: y :: l)) with (rev (y :: l) ++ [x])%list. destruct (rev (y :: l)) eqn:E; [|reflexivity]. apply (f_equal (@List.length A)) in E. rewrite rev_length in E. discriminate. Qed.
Lemma plugged_shape h h' c b m : plugged h h' c b m -> exists f r m', b = f :: r /\ m = f :: m' /\ hd_error (rev m) = hd_error (rev b).
Proof.
  induction 1 as [x|x y l m a A B P IH|x y l m a b w A B Lt Bw P IH].
  - exists x, [], []. auto.
  - destruct IH as (f & r & m' & Q1 & -> & Q). injection Q1 as <- <-. exists x, (y :: l), (y :: m'). rewrite !hd_rev_cons. auto.
  - destruct IH as (f & r & m' & Q1 & -> & Q). injection Q1 as <- <-. exists x, (y :: l), (w :: y :: m'). rewrite !hd_rev_cons. auto.
Qed.
Lemma plugged_runs h h' c b m : plugged h h' c b m -> (forall x, In x b -> s_start (sob h' x) = s_start (sob h x) /\ s_end (sob h' x) = s_end (sob h x)) ->
  forall a z, runs h a b z -> runs h' a m z /\ exists f r e, m = f :: r /\ s_end (sob h' f) = Some e /\ abut h' e r /\
    (forall q d, last_end h b q -> first_start h b d -> zsum (map (duration h') m) = q - d).
Proof.
  induction 1 as [x|x y l m a0 A B P IH|x y l m a0 b0 w A B Lt Bw P IH]; intros V a z R.
  - destruct R as (s & e & S & E & L1 & L2 & R). destruct (V x) as [V1 V2]; [simpl; auto|].
    assert (D : duration h' x = e - s).
    { unfold duration. destruct (dated_by h' x s e) as [_ ->]; [congruence|congruence|exact L2|reflexivity]. }
    split; [exists s, e; repeat split; try congruence; auto|]. exists x, [], e. split; [reflexivity|]. split; [congruence|]. split; [exact I|].
    intros q d (f & F & Q) (f' & F' & Q'). injection F as <-. injection F' as <-. cbn [map zsum fold_right]. rewrite D. rewrite E in Q. rewrite S in Q'.
    injection Q as <-. injection Q' as <-. lia.
  - destruct R as (s & e & S & E & L1 & L2 & R). destruct (V x) as [V1 V2]; [simpl; auto|].
    destruct (IH (fun k Hk => V k (or_intror Hk)) e z R) as (Rm & f & r & e' & -> & Ef & Ab & Sm).
    destruct (plugged_shape _ _ _ _ _ P) as (f0 & r0 & m' & Q1 & Q2 & Q3). injection Q1 as <- <-. injection Q2 as -> ->.
    assert (D : duration h' x = e - s).
    { unfold duration. destruct (dated_by h' x s e) as [_ ->]; [congruence|congruence|exact L2|reflexivity]. }
    assert (a0 = e) by congruence. subst a0. destruct (V y) as [V3 V4]; [simpl; auto|].
    split; [exists s, e; repeat split; try congruence; auto|]. exists x, (y :: m'), e. split; [reflexivity|]. split; [congruence|]. split.
    + exists e, e'. split; [congruence|]. split; [exact Ef|]. split; [apply near_refl|exact Ab].
    + intros q d (k & K & Q) (k' & K' & Q'). rewrite hd_rev_cons in K. injection K' as <-. rewrite S in Q'. injection Q' as <-.
      pose proof (Sm q e (ex_intro _ k (conj K Q)) (ex_intro _ y (conj eq_refl B))) as Sq. cbn [map zsum fold_right] in Sq |- *. unfold zsum in *. cbn [fold_right] in Sq. rewrite D. lia.
  - destruct R as (s & e & S & E & L1 & L2 & R). destruct (V x) as [V1 V2]; [simpl; auto|].
    assert (R' : runs h b0 (y :: l) z).
    { destruct R as (s1 & e1 & S1 & E1 & L3 & L4 & R). exists s1, e1. assert (s1 = b0) by congruence. subst s1. split; [exact S1|]. split; [exact E1|]. split; [lia|]. auto. }
    destruct (IH (fun k Hk => V k (or_intror Hk)) b0 z R') as (Rm & f & r & e' & -> & Ef & Ab & Sm).
    destruct (plugged_shape _ _ _ _ _ P) as (f0 & r0 & m' & Q1 & Q2 & Q3). injection Q1 as <- <-. injection Q2 as -> ->.
    assert (D : duration h' x = e - s).
    { unfold duration. destruct (dated_by h' x s e) as [_ ->]; [congruence|congruence|exact L2|reflexivity]. }
    assert (a0 = e) by congruence. subst a0. destruct (V y) as [V3 V4]; [simpl; auto|]. destruct Bw as (_ & _ & _ & W1 & W2 & _).
    assert (Dw : duration h' w = b0 - e).
    { unfold duration. destruct (dated_by h' w e b0) as [_ ->]; [congruence|congruence|exact Lt|reflexivity]. }
    split.
    { exists s, e. split; [congruence|]. split; [congruence|]. split; [lia|]. split; [lia|]. exists e, b0. split; [exact W1|]. split; [exact W2|]. split; [lia|]. split; [lia|exact Rm]. }
    exists x, (w :: y :: m'), e. split; [reflexivity|]. split; [congruence|]. split.
    + exists e, b0. split; [exact W1|]. split; [exact W2|]. split; [apply near_refl|]. exists b0, e'. split; [congruence|]. split; [exact Ef|]. split; [apply near_refl|exact Ab].
    + intros q d (k & K & Q) (k' & K' & Q'). rewrite hd_rev_cons in K. injection K' as <-. rewrite S in Q'. injection Q' as <-.
      pose proof (Sm q b0 (ex_intro _ k (conj K Q)) (ex_intro _ y (conj eq_refl B))) as Sq. unfold zsum in *. cbn [map fold_right] in Sq |- *. rewrite D, Dw. lia.
Qed.
(** A bunched block has no gap beyond the tolerance. *)
Lemma bunched_abut h f r a z : 0 <= a -> runs h a (f :: r) z -> bunched h (f :: r) -> exists e, s_end (sob h f) = Some e /\ abut h e r.
Proof.
  intros A (s & e & S & E & L1 & L2 & R) B. exists e. split; [exact E|].
  assert (K : forall l e', e <= e' -> runs h e' l z -> (forall y q, In y l -> s_start (sob h y) = Some q -> near q e) -> abut h e' l).
  { induction l as [|y l IH]; intros e' Le Rl Nr; [exact I|]. destruct Rl as (s1 & e1 & S1 & E1 & M1 & M2 & Rl). exists s1, e1. split; [exact S1|]. split; [exact E1|]. split.
    - pose proof (Nr y s1 ltac:(simpl; auto) S1) as N. unfold near in *. lia.
    - apply IH; [lia|exact Rl|]. intros k q Hk. apply Nr. simpl. auto. }
  apply K; [lia|exact R|]. intros y q Hy Q. apply (B f r y e q); auto.
Qed.
Lemma bunched_dec h f r a z : runs h a (f :: r) z -> (forall x, In x (f :: r) -> is_point h x = false) ->
  exists ts, Forall2 (has_times h) (f :: r) ts /\ chain_times a ts z /\ (close_first_end (map fst ts) (map snd ts) = true <-> bunched h (f :: r)).
Proof.
  intros R Np. destruct (runs_times _ _ _ _ R) as (ts & F & C). exists ts. split; [exact F|]. split; [exact C|].
  apply Forall2_cons_inv_l in F. destruct F as (p & ts' & [P1 P2] & F & ->). cbn [map close_first_end tl]. rewrite forallb_forall. split.
  - intros K x l y e s Q Hy Ex Sy. injection Q as <- <-. destruct (Forall2_in_l _ _ _ _ F Hy) as (q & Hq & [Q1 Q2]). apply isclose_spec.
    assert (e = snd p) by congruence. assert (s = fst q) by congruence. subst. apply K, in_map, Hq.
  - intros B v Hv. apply in_map_iff in Hv. destruct Hv as (q & <- & Hq). apply isclose_spec.
    assert (Y : exists y, In y r /\ has_times h y q).
    { clear -F Hq. induction F as [|y q' r ts Y F IH]; [destruct Hq|]. destruct Hq as [<-|Hq]; [exists y; simpl; auto|]. destruct IH as (k & A & B); [exact Hq|]. exists k. simpl. auto. }
    destruct Y as (y & Hy & [Y1 Y2]). apply (B f r y (snd p) (fst q)); auto.
Qed.
Lemma close_block c f r h a z : issubclass h c cInterval = true -> issubclass h c cPoint = false ->
  (forall x, In x (f :: r) -> live h x /\ s_cls (sob h x) = c) -> runs h a (f :: r) z ->
  exists h' l ws ps m, close_gaps (Slv (f :: r) (Some c)) h = Ok (Slv l (Some c)) h' /\ made_up c h h' ws ps /\ Permutation l m /\
    Permutation m (ws ++ f :: r) /\ closed h h' c (f :: r) m.
Proof.
  intros I Pt Al R. set (b := f :: r) in *.
  assert (Np : forall x, In x b -> is_point h x = false) by (intros x Hx; unfold is_point; destruct (Al x Hx) as [_ ->]; exact Pt).
  destruct (bunched_dec h f r a z R Np) as (ts & F & C & Hb). fold b in F, Hb. destruct (times_known h b ts F Np) as [T1 T2].
  unfold close_gaps. cbn [sv_vals]. mstep. rewrite T1. mstep. rewrite T2. destruct (close_first_end (map fst ts) (map snd ts)) eqn:Cl.
  - exists h, b, [], [], b. split; [reflexivity|]. split; [apply made_nil|]. split; [reflexivity|]. split; [reflexivity|]. left. split; [apply Hb; reflexivity|reflexivity].
  - assert (Nb : ~ bunched h b) by (intros Q; apply Hb in Q; discriminate). destruct (chain_ordered _ _ _ C) as (O & L & _).
    change ((fix go (ps : list (Z * Z)) (v : slv) : M slv :=
         match ps with
         | [] => ret v
         | (s, e) :: ps' =>
           c <- gets (fun h => match sv_vals v with o :: _ => Some (s_cls (sob h o)) | [] => None end) ;;
           nw <- construct3 c (Some s) (Some e) "" ;;
           v' <- sl_append v nw false ;;
           go ps' v'
         end)) with close_loop. rewrite (gap_pairs_spans ts O L).
    destruct (close_loop_ok c (span_gaps ts) h b I Pt) as (h' & l & ws & E & M & P).
    + discriminate.
    + exact Al.
    + intros x Hx. destruct (Forall2_in_l _ _ _ _ F Hx) as (q & _ & [Q _]). eauto.
    + intros g x Hg Hx Q. destruct (Forall2_in_l _ _ _ _ F Hx) as (q & Hq & [Q1 _]). assert (E : fst q = fst g) by congruence. clear Q Q1.
      apply GapFinal.gaps_in in Hg. destruct Hg as (i & p & p' & Hp & Hp' & -> & Lt). cbn [fst] in E. apply In_nth_error in Hq. destruct Hq as (j & Hq). unfold span in *.
      pose proof (L p (nth_error_In _ _ Hp)). destruct (Nat.le_gt_cases j i) as [Hj|Hj].
      * destruct (Nat.eq_dec j i) as [->|Ne]; [assert (q = p) by congruence; subst; lia|]. pose proof (O j i q p ltac:(lia) Hq Hp). pose proof (L q (nth_error_In _ _ Hq)). lia.
      * destruct (Nat.eq_dec j (S i)) as [->|Ne]; [assert (q = p') by congruence; subst; lia|]. pose proof (O (S i) j p' q ltac:(lia) Hp' Hq). pose proof (L p' (nth_error_In _ _ Hp')). lia.
    + apply NoDup_ListNoDup, gaps_nodup; auto.
    + unfold b in F. apply Forall2_cons_inv_l in F. destruct F as (p & ts' & Hf & F & ->).
      destruct (plug_gaps h h' c r f p ts' ws Hf F) as (m & Pl & Pm); [exact O| |].
      { eapply Forall2_impl; [apply (ad_ws _ _ _ _ _ _ M)|]. intros w g. apply fresh_blank_of. }
      exists h', l, ws, (span_gaps (p :: ts')), m. split; [exact E|]. split; [exact M|]. split; [rewrite P, Pm; reflexivity|]. split; [exact Pm|]. right. split; auto.
Qed.
(** ** Closing the gaps of all blocks *)
Lemma plugged_base h0 h h' c b m : plugged h h' c b m -> (List.length (h_seq h0) <= List.length (h_seq h))%nat ->
  (forall x, In x b -> s_start (sob h0 x) = s_start (sob h x) /\ s_end (sob h0 x) = s_end (sob h x)) -> plugged h0 h' c b m.
Proof.
  intros P Le. induction P as [x|x y l m a A B P IH|x y l m a b w A B Lt Bw P IH]; intros V.
  - constructor.
  - destruct (V x) as [_ V1]; [simpl; auto|]. destruct (V y) as [V2 _]; [simpl; auto|]. eapply plugged_next; [rewrite V1; exact A|rewrite V2; exact B|].
    apply IH. intros k Hk. apply V. right. exact Hk.
  - destruct (V x) as [_ V1]; [simpl; auto|]. destruct (V y) as [V2 _]; [simpl; auto|]. eapply plugged_gap; [rewrite V1; exact A|rewrite V2; exact B|exact Lt| |].
    + destruct Bw as (L & B'). split; [lia|exact B'].
    + apply IH. intros k Hk. apply V. right. exact Hk.
Qed.
Lemma bunched_ext h h' b : (forall x, In x b -> s_start (sob h' x) = s_start (sob h x) /\ s_end (sob h' x) = s_end (sob h x)) -> bunched h b -> bunched h' b.
Proof.
  intros V B x l y e s Q Hy Ex Sy. subst b. destruct (V x) as [_ V1]; [simpl; auto|]. destruct (V y) as [V2 _]; [simpl; auto|]. apply (B x l y e s); auto; congruence.
Qed.
Lemma closed_base h0 h h' c b m : closed h h' c b m -> (List.length (h_seq h0) <= List.length (h_seq h))%nat ->
  (forall x, In x b -> s_start (sob h0 x) = s_start (sob h x) /\ s_end (sob h0 x) = s_end (sob h x)) -> closed h0 h' c b m.
Proof.
  intros [[B ->]|[B P]] Le V; [left; split; [eapply bunched_ext; eauto|reflexivity]|right]. split; [|eapply plugged_base; eauto].
  intros Q. apply B. eapply bunched_ext; [|exact Q]. intros x Hx. destruct (V x Hx). auto.
Qed.
Lemma closed_ext h h1 h' c b m : closed h h1 c b m -> (List.length (h_seq h1) <= List.length (h_seq h'))%nat ->
  (forall w, ~ live h w -> live h1 w -> In w m -> s_cls (sob h' w) = s_cls (sob h1 w) /\ s_label (sob h' w) = s_label (sob h1 w) /\
     s_start (sob h' w) = s_start (sob h1 w) /\ s_end (sob h' w) = s_end (sob h1 w) /\ s_subset (sob h' w) = s_subset (sob h1 w)) -> closed h h' c b m.
Proof. intros [Q|[B P]] Le V; [left; exact Q|right]. split; [exact B|eapply plugged_ext; eauto]. Qed.
Definition block_slv (c : cid) (b : list oid) : slv := Slv b (match b with [] => None | _ => Some c end).
Lemma close_all c bs : forall h, issubclass h c cInterval = true -> issubclass h c cPoint = false ->
  (forall x, In x (concat bs) -> live h x /\ s_cls (sob h x) = c) -> (forall b, In b bs -> exists a z, runs h a b z) ->
  exists h' vs ms W ps, mapM close_gaps (map (block_slv c) bs) h = Ok vs h' /\ made_up c h h' W ps /\
    Forall2 (fun v m => Permutation (sv_vals v) m) vs ms /\ Forall2 (closed h h' c) bs ms /\ Permutation (concat ms) (W ++ concat bs).
Proof.
  induction bs as [|b bs IH]; intros h I Pt Al R.
  { exists h, [], [], [], []. split; [reflexivity|]. split; [apply made_nil|]. split; [constructor|]. split; [constructor|reflexivity]. }
  assert (Hb : exists h1 v w ps m, close_gaps (block_slv c b) h = Ok v h1 /\ made_up c h h1 w ps /\ Permutation (sv_vals v) m /\ Permutation m (w ++ b) /\ closed h h1 c b m).
  { destruct b as [|f r].
    - exists h, (Slv [] None), [], [], []. split; [reflexivity|]. split; [apply made_nil|]. split; [reflexivity|]. split; [reflexivity|]. left. split; [intros x l y e s Q; discriminate|reflexivity].
    - destruct (R (f :: r)) as (a & z & Rb); [simpl; auto|]. destruct (close_block c f r h a z I Pt) as (h1 & l & w & ps & m & E & M & P1 & P2 & Cl); [|exact Rb|].
      + intros x Hx. apply Al. cbn [concat]. apply in_app_iff. auto.
      + exists h1, (Slv l (Some c)), w, ps, m. auto. }
  destruct Hb as (h1 & v & w & ps & m & E & M & P1 & P2 & Cl). pose proof M as [(R1 & R2 & R3 & R4) Ln Od Nw Ws Nd _ _].
  assert (Ob : forall x, In x (concat (b :: bs)) -> sob h1 x = sob h x) by (intros x Hx; apply Od, Al, Hx).
  destruct (IH h1) as (h' & vs & ms & W & ps' & E' & M' & F1 & F2 & P).
  - rewrite (issubclass_ext h h1) by exact R1. exact I.
  - rewrite (issubclass_ext h h1) by exact R1. exact Pt.
  - intros x Hx. assert (Hx' : In x (concat (b :: bs))) by (cbn [concat]; apply in_app_iff; auto). rewrite Ob by exact Hx'. destruct (Al x Hx'). split; [unfold live in *; lia|auto].
  - intros k Hk. destruct (R k) as (a & z & Rk); [simpl; auto|]. exists a, z.
    assert (V : forall x, In x k -> sob h1 x = sob h x) by (intros x Hx; apply Ob; cbn [concat]; apply in_app_iff; right; apply in_concat; eauto).
    clear -Rk V. revert a Rk. induction k as [|y k IH]; intros a Rk; [exact Rk|]. destruct Rk as (s & e & A & B & C & D & Rk). exists s, e. rewrite V by (simpl; auto).
    repeat split; auto. apply IH; [intros x Hx; apply V; simpl; auto|exact Rk].
  - pose proof M' as [_ Ln' Od' _ _ _ _ _].
    exists h', (v :: vs), (m :: ms), (w ++ W)%list, (ps ++ ps')%list. split; [|split; [|split; [|split]]].
    + cbn [map mapM]. rewrite (bind_ok _ _ _ _ _ E), (bind_ok _ _ _ _ _ E'). reflexivity.
    + eapply made_trans; eauto.
    + constructor; auto.
    + constructor.
      * apply (closed_ext h h1 h'); [exact Cl|exact Ln'|]. intros k _ Lk _. rewrite (Od' k Lk). auto.
      * assert (K : forall k, In k bs -> forall x, In x k -> sob h1 x = sob h x).
        { intros k Hk x Hx. apply Ob. cbn [concat]. apply in_app_iff. right. apply in_concat. eauto. }
        clear -F2 K Ln. induction F2 as [|k m bs ms C F IH]; constructor.
        -- apply (closed_base h h1 h'); [exact C|exact Ln|]. intros x Hx. rewrite (K k) by (simpl; auto). auto.
        -- apply IH. intros j Hj. apply K. simpl. auto.
    + cbn [concat]. rewrite P, P2. rewrite <- !app_assoc. apply Permutation_app_head. rewrite !app_assoc. apply Permutation_app_tail, Permutation_app_comm.
Qed.
(** ** Up to the loop over the upper intervals *)
Lemma rising_sorted h l : rising h l -> sorted_starts h l.
Proof. intros R i j x y Hij Hx Hy. destruct (R i j x y Hij Hx Hy) as (s & t & A & B & C). exists s, t. split; [exact A|]. split; [exact B|lia]. Qed.
Lemma zsum_perm l m : Permutation l m -> zsum l = zsum m.
Proof. induction 1 as [|x l m P IH|x y l|l m k P1 IH1 P2 IH2]; unfold zsum in *; cbn [fold_right]; lia. Qed.
Lemma takes_fun h b d d' : takes h b d -> takes h b d' -> d = d'.
Proof.
  intros [[B ->]|[B (f & l & a & z & A1 & A2 & A3 & A4 & ->)]] [[B' ->]|[B' (f' & l' & a' & z' & C1 & C2 & C3 & C4 & ->)]]; try contradiction; [reflexivity|].
  assert (f = f') by congruence. assert (l = l') by congruence. subst. assert (a = a') by congruence. assert (z = z') by congruence. lia.
Qed.
Lemma runs_ends h f r : forall a z, runs h a (f :: r) z -> exists p q, first_start h (f :: r) p /\ last_end h (f :: r) q /\ a <= p /\ q <= z /\ p < q.
Proof.
  revert f. induction r as [|y r IH]; intros f a z (s & e & A & B & C & D & R).
  - cbn [runs] in R. exists s, e. split; [exists f; auto|]. split; [exists f; auto|]. lia.
  - destruct (IH y e z R) as (p & q & (f1 & F1 & P1) & (f2 & F2 & P2) & L1 & L2 & L3). exists s, q. split; [exists f; auto|]. split; [exists f2; rewrite hd_rev_cons; auto|]. lia.
Qed.
Lemma closed_takes h h' c b m a z : closed h h' c b m -> runs h a b z ->
  (forall x, In x b -> s_start (sob h' x) = s_start (sob h x) /\ s_end (sob h' x) = s_end (sob h x)) -> takes h b (zsum (map (duration h') m)).
Proof.
  intros [[B ->]|[B P]] R V.
  - left. split; [exact B|]. unfold zsum. f_equal. apply map_ext_in. intros x Hx. destruct (V x Hx) as [V1 V2]. destruct (runs_each h b a z x R Hx) as (s & e & S & E & L & L' & _).
    unfold duration. destruct (dated_by h x s e S E L') as [_ ->]. destruct (dated_by h' x s e) as [_ ->]; [congruence|congruence|exact L'|reflexivity].
  - right. split; [exact B|]. destruct (plugged_runs _ _ _ _ _ P V a z R) as (_ & f0 & r0 & e0 & _ & _ & _ & Sm).
    destruct (plugged_shape _ _ _ _ _ P) as (f & r & m' & -> & -> & _). destruct (runs_ends h f r a z R) as (p & q & Fp & Lq & _).
    pose proof (Sm q p Lq Fp) as Q. destruct Fp as (k & Hk & Sk). destruct Lq as (k' & Hk' & Sk'). exists k, k', p, q. auto.
Qed.
Lemma nested_best h U bs i u b y : in_turn h U -> nested h U bs -> nth_error U i = Some u -> nth_error bs i = Some b -> In y b ->
  dated h y /\ fst (span_of h u) <= fst (span_of h y) /\ snd (span_of h y) <= snd (span_of h u) /\
  best (map (span_of h) U) (span_of h y) i /\ 0 < shared (span_of h u) (span_of h y).
Proof.
  intros T N Hu Hb Hy. pose proof (Forall2_nth _ _ _ N i u b Hu Hb) as (s & e & Su & Eu & Lt & R).
  destruct (dated_by h u s e Su Eu Lt) as [Du Eu']. destruct (runs_each h b s e y R Hy) as (p & q & Sy & Ey & L1 & L2 & L3). destruct (dated_by h y p q Sy Ey L2) as [Dy Ey'].
  rewrite Eu', Ey'. cbn [fst snd]. split; [exact Dy|]. split; [lia|]. split; [lia|].
  assert (Sh : shared (s, e) (p, q) = q - p) by (unfold shared; cbn [fst snd]; lia). split; [|lia].
  exists (s, e). split; [rewrite nth_error_map, Hu, <- Eu'; reflexivity|]. intros j r Hj. rewrite nth_error_map in Hj. destruct (nth_error U j) as [v|] eqn:Hv; [|discriminate].
  injection Hj as <-. assert (Hbv : exists bv, nth_error bs j = Some bv).
  { destruct (nth_error bs j) as [bv|] eqn:Q; [eauto|]. apply nth_error_None in Q. rewrite <- (Forall2_length _ _ _ N) in Q. assert (j < List.length U)%nat by (apply nth_error_Some; congruence). lia. }
  destruct Hbv as (bv & Hbv). pose proof (Forall2_nth _ _ _ N j v bv Hv Hbv) as (s' & e' & Sv & Ev & Lt' & _). destruct (dated_by h v s' e' Sv Ev Lt') as [Dv ->].
  rewrite Sh. destruct (Nat.lt_trichotomy j i) as [K|[->|K]].
  - destruct (T j i v u K Hv Hu) as (x1 & x2 & A & B & C). assert (x1 = e') by congruence. assert (x2 = s) by congruence. subst.
    assert (shared (s', e') (p, q) = 0) by (unfold shared; cbn [fst snd]; lia). lia.
  - assert (v = u) by congruence. subst v. assert (s' = s) by congruence. assert (e' = e) by congruence. subst. rewrite Sh. lia.
  - destruct (T i j u v K Hu Hv) as (x1 & x2 & A & B & C). assert (x1 = e) by congruence. assert (x2 = s') by congruence. subst.
    assert (shared (s', e') (p, q) = 0) by (unfold shared; cbn [fst snd]; lia). lia.
Qed.
Lemma ragged_head n t d c bs h : concat bs = t_seq (tob h d) -> t_seq (tob h t) <> [] -> concat bs <> [] -> in_turn h (t_seq (tob h t)) -> nested h (t_seq (tob h t)) bs ->
  (forall u, In u (t_seq (tob h t)) -> live h u /\ is_point h u = false) -> linkable h c (concat bs) -> issubclass h c cInterval = true -> issubclass h c cPoint = false ->
  exists h1 vs ms W ps sq, relate_pair n false t d h = relate_all n t d false sq 0 (map sv_vals vs) h1 /\ made_up c h h1 W ps /\
    Forall2 (fun v m => Permutation (sv_vals v) m) vs ms /\ Forall2 (closed h h1 c) bs ms /\ Permutation (concat ms) (W ++ concat bs) /\
    (sq = true <-> uneven h (t_seq (tob h t)) bs).
Proof.
  intros Hc NeU NeL T N PU (NdL & AlL) I Pt. remember (t_seq (tob h t)) as U eqn:EU.
  pose proof (Forall2_length _ _ _ N) as Lb.
  assert (At : forall i b, nth_error bs i = Some b -> exists u, nth_error U i = Some u).
  { intros i b Hb. destruct (nth_error U i) as [u|] eqn:Hu; [eauto|].
    apply nth_error_None in Hu. assert (i < List.length bs)%nat by (apply nth_error_Some; congruence). lia. }
  assert (DU : forall u, In u U -> dated h u).
  { intros u Hu. destruct (Forall2_in_l _ _ _ _ N Hu) as (b & _ & s & e & A & B & L & _). apply (dated_by h u s e A B L). }
  assert (Hy' : forall y, In y (concat bs) -> exists i u b, nth_error U i = Some u /\ nth_error bs i = Some b /\ In y b).
  { intros y Hy. apply in_concat in Hy. destruct Hy as (b & Hb & Hy). apply In_nth_error in Hb. destruct Hb as [i Hb]. destruct (At i b Hb) as [u Hu]. exists i, u, b. auto. }
  assert (DL : forall y, In y (concat bs) -> dated h y).
  { intros y Hy. destruct (Hy' y Hy) as (i & u & b & Hu & Hb & Hyb). apply (nested_best h U bs i u b y T N Hu Hb Hyb). }
  assert (PL : forall y, In y (concat bs) -> is_point h y = false).
  { intros y Hy. destruct (AlL y Hy) as (_ & E & _). unfold is_point. rewrite E. exact Pt. }
  assert (PU' : forall u, In u U -> is_point h u = false) by (intros u Hu; apply (PU u Hu)).
  assert (Rb : forall b, In b bs -> exists a z, runs h a b z).
  { intros b Hb. apply In_nth_error in Hb. destruct Hb as [i Hb]. destruct (At i b Hb) as [u Hu]. pose proof (Forall2_nth _ _ _ N i u b Hu Hb) as (s & e & _ & _ & _ & R). eauto. }
  destruct (close_all c bs h I Pt) as (h1 & vs & ms & W & ps & Ecl & M & F1 & F2 & P); [intros x Hx; destruct (AlL x Hx) as (A & B & _); auto|exact Rb|].
  pose proof M as [(R1 & R2 & R3 & R4) Ln Od Nw Ws Nd _ _].
  assert (Et : forall w, tob h1 w = tob h w) by (intros w; unfold tob; rewrite R2; reflexivity).
  assert (OU : forall u, In u U -> sob h1 u = sob h u) by (intros u Hu; apply Od, (PU u Hu)).
  assert (OL : forall y, In y (concat bs) -> sob h1 y = sob h y) by (intros y Hy; apply Od, (AlL y Hy)).
  unfold relate_pair, tstarts, tends. mstep. mstep. mstep. mstep. rewrite <- EU, <- Hc.
  rewrite !starts_dated, !ends_dated by auto.
  destruct (map (fun x => fst (span_of h x)) U) as [|z1 m1] eqn:M1; [destruct U; [contradiction|discriminate]|]. rewrite <- M1.
  destruct (map (fun x => fst (span_of h x)) (concat bs)) as [|z2 m2] eqn:M2; [destruct (concat bs); [contradiction|discriminate]|]. rewrite <- M2.
  clear z1 m1 M1 z2 m2 M2.
  assert (Ecs : containers (map (fun x => fst (span_of h x)) U) (map (fun x => snd (span_of h x)) U)
              (map (fun x => fst (span_of h x)) (concat bs)) (map (fun x => snd (span_of h x)) (concat bs)) = steps 0 (map (@List.length oid) bs)).
  { rewrite <- (map_map (span_of h) fst U), <- (map_map (span_of h) snd U), <- (map_map (span_of h) fst (concat bs)), <- (map_map (span_of h) snd (concat bs)).
    pose proof (chosen_map (map (span_of h) U) (map (span_of h) (concat bs))) as CM. etransitivity; [exact CM|]. clear CM. rewrite map_map. apply map_steps.
    intros i b y Hb Hy. destruct (At i b Hb) as [u Hu]. destruct (nested_best h U bs i u b y T N Hu Hb Hy) as (_ & _ & _ & Be & Sh). simpl.
    apply (best_chosen _ _ _ (span_of h u)); auto. rewrite nth_error_map, Hu. reflexivity. }
  rewrite Ecs.
  match goal with |- context[existsb ?f ?l && negb false] => assert (Emm : existsb f l = false) end.
  { rewrite <- (map_map (span_of h) fst U), <- (map_map (span_of h) snd U), <- (map_map (span_of h) fst (concat bs)), <- (map_map (span_of h) snd (concat bs)), combine_spans.
    assert (Hq : forall dd m, In (dd, m) (combine (map (fun p => snd p - fst p) (map (span_of h) (concat bs)))
        (map (fun p => TierOps.list_max (overlap_row (map fst (map (span_of h) U)) (map snd (map (span_of h) U)) (fst p) (snd p))) (map (span_of h) (concat bs)))) ->
      exists y, In y (concat bs) /\ dd = snd (span_of h y) - fst (span_of h y) /\
        m = TierOps.list_max (overlap_row (map fst (map (span_of h) U)) (map snd (map (span_of h) U)) (fst (span_of h y)) (snd (span_of h y)))).
    { intros dd m. generalize (concat bs) as Q. induction Q as [|q Q IH]; simpl; [intros []|].
      intros [E|Q']; [injection E as <- <-; exists q; auto|]. destruct (IH Q') as (y & A & B & C). exists y. auto. }
    destruct (existsb _ _) eqn:Ex; [|reflexivity]. apply existsb_exists in Ex. destruct Ex as ([dd m] & Hin & Hlt). apply Z.ltb_lt in Hlt. simpl in Hlt.
    apply Hq in Hin. destruct Hin as (y & Hy & -> & ->). destruct (Hy' y Hy) as (i & u & b & Hu & Hb & Hyb).
    destruct (nested_best h U bs i u b y T N Hu Hb Hyb) as ((_ & _ & Dy) & L1 & L2 & _).
    pose proof (f_equal TierOps.list_max (row_spans (map (span_of h) U) (span_of h y))) as RS. unfold span in *. rewrite RS in Hlt.
    assert (G : ovl (span_of h y) (span_of h u) <= TierOps.list_max (map (ovl (span_of h y)) (map (span_of h) U))).
    { apply list_max_ge. apply in_map, in_map. eapply nth_error_In; eauto. }
    unfold ovl at 1 in G. unfold span in *. lia. }
  rewrite Emm. mstep. rewrite <- Hc.
  assert (Esl : mapM (fun i => sl_init (lower_slice (steps 0 (map (@List.length oid) bs)) (concat bs) i)) (seq 0 (List.length U)) h
              = Ok (map (block_slv c) bs) h).
  { destruct (mapM_read (fun i => sl_init (lower_slice (steps 0 (map (@List.length oid) bs)) (concat bs) i))
      (fun i v => v = block_slv c (nth i bs [])) h (seq 0 (List.length U))) as (ys & E & F).
    - intros i Hi. apply in_seq in Hi. destruct (nth_error bs i) as [b|] eqn:Hb; [|apply nth_error_None in Hb; lia].
      rewrite slice_steps by (rewrite map_length; lia). rewrite (block_at bs i b Hb).
      rewrite (nth_error_nth bs i [] Hb). pose proof (nth_error_In _ _ Hb) as Ib. destruct (Rb b Ib) as (a & z & R).
      destruct (sl_init_spec h c b) as (b' & Ei & _ & _ & Eq).
      + intros x Hx. apply (AlL x). apply (in_concat' x b); auto.
      + intros x Hx. destruct (runs_each h b a z x R Hx) as (s & e & S & _). eauto.
      + assert (Sb : sorted_starts h b).
        { apply rising_sorted. apply (runs_rising _ _ _ _ R). }
        rewrite (Eq Sb) in Ei. exists (block_slv c b). split; [|reflexivity]. exact Ei.
    - rewrite E. f_equal. rewrite (Forall2_fun _ _ _ F), Lb. rewrite <- (map_nth_seq [] bs) at 2. rewrite map_map. reflexivity. }
  rewrite map_length. rewrite (bind_ok _ _ _ _ _ Esl). clear Esl.
  rewrite (bind_ok _ _ _ _ _ Ecl). mstep. mstep. rewrite Et, <- EU.
  assert (Spu : forall u, In u U -> span_of h1 u = span_of h u).
  { intros u Hu. with_strategy transparent [span_of] unfold span_of. rewrite OU by exact Hu. reflexivity. }
  assert (Eud : durations h1 U = Some (map (duration h) U)).
  { rewrite durations_dated.
    - f_equal. apply map_ext_in. intros u Hu. rewrite Spu by exact Hu. reflexivity.
    - intros u Hu. apply (dated_same h h1); [rewrite OU by exact Hu; reflexivity|rewrite OU by exact Hu; reflexivity|auto].
    - intros u Hu. unfold is_point. rewrite OU, (issubclass_ext h h1) by auto. apply PU', Hu. }
  rewrite Eud.
  assert (Hm : forall i b m, nth_error bs i = Some b -> nth_error ms i = Some m -> takes h b (zsum (map (duration h1) m)) /\ forall x, In x m -> dated h1 x /\ is_point h1 x = false).
  { intros i b m Hb Hm. pose proof (Forall2_nth _ _ _ F2 i b m Hb Hm) as Cl. destruct (Rb b (nth_error_In _ _ Hb)) as (a & z & R).
    assert (V : forall x, In x b -> s_start (sob h1 x) = s_start (sob h x) /\ s_end (sob h1 x) = s_end (sob h x)).
    { intros x Hx. rewrite OL; [auto|]. apply (in_concat' x b); [eapply nth_error_In; eauto|exact Hx]. }
    split; [eapply closed_takes; eauto|]. intros x Hx. assert (Hx' : In x (W ++ concat bs)).
    { apply (Permutation_in x P). apply (in_concat' x m); [eapply nth_error_In; eauto|exact Hx]. }
    split.
    - assert (Rm : runs h1 a m z).
      { destruct Cl as [[_ ->]|[_ Pl]]; [|apply (plugged_runs _ _ _ _ _ Pl V a z R)]. clear -R V. revert a R. induction b as [|y b IH]; intros a R; [exact R|].
        destruct R as (s & e & A & B & C & D & R). destruct (V y) as [V1 V2]; [simpl; auto|]. exists s, e. rewrite V1, V2. repeat split; auto. apply IH; [intros x Hx; apply V; simpl; auto|exact R]. }
      destruct (runs_each h1 m a z x Rm Hx) as (s & e & S & E & _ & L & _). apply (dated_by h1 x s e S E L).
    - unfold is_point. rewrite (issubclass_ext h h1) by auto. apply in_app_iff in Hx'. destruct Hx' as [Q|Q].
      + destruct (Forall2_in_l _ _ _ _ Ws Q) as (g & _ & G). destruct (fresh_fields _ _ _ _ _ G) as (_ & -> & _). exact Pt.
      + rewrite OL by exact Q. apply PL, Q. }
  assert (Eld : all_some (map (fun v => option_map zsum (durations h1 (sv_vals v))) vs) = Some (map (fun m => zsum (map (duration h1) m)) ms)).
  { rewrite <- all_some_Some. f_equal. clear -F1 F2 Hm. revert bs F2 Hm. induction F1 as [|v m vs ms Pv F1 IH]; intros bs F2 Hm; [reflexivity|].
    apply Forall2_cons_inv_r in F2. destruct F2 as (b & bs' & Cl & F2 & ->). cbn [map]. f_equal.
    - destruct (Hm 0%nat b m eq_refl eq_refl) as (_ & Dm). rewrite durations_dated; [|intros x Hx; apply Dm, (Permutation_in x Pv Hx)..]. cbn [option_map]. f_equal.
      apply zsum_perm. apply (Permutation_map (duration h1)) in Pv. exact Pv.
    - apply (IH bs' F2). intros i b' m' Hb Hm'. apply (Hm (S i)); auto. }
  rewrite Eld. eexists h1, vs, ms, W, ps, _. split; [cbn [negb]; rewrite !andb_true_r; reflexivity|]. split; [exact M|]. split; [exact F1|]. split; [exact F2|]. split; [exact P|].
  rewrite negb_true_iff.
  assert (Z : forall (U : list oid) bs ms, List.length U = List.length bs -> Forall2 (closed h h1 c) bs ms ->
     (forall i b m, nth_error bs i = Some b -> nth_error ms i = Some m -> takes h b (zsum (map (duration h1) m))) ->
     (allclose (map (duration h) U) (map (fun m => zsum (map (duration h1) m)) ms) = false <-> uneven h U bs)).
  { clear. induction U as [|u U IH]; intros bs ms L F K.
    - cbn [map allclose]. split; [discriminate|]. intros (i & u & b & dd & Q & _). destruct i; discriminate.
    - destruct bs as [|b bs]; [discriminate|]. injection L as L. apply Forall2_cons_inv_l in F. destruct F as (m & ms' & _ & F & ->). cbn [map allclose].
      pose proof (K 0%nat b m eq_refl eq_refl) as K0. specialize (IH bs ms' L F (fun i b' m' Hb Hm => K (S i) b' m' Hb Hm)). rewrite andb_false_iff. split.
      + intros [Q|Q].
        * exists 0%nat, u, b, (zsum (map (duration h1) m)). split; [reflexivity|]. split; [reflexivity|]. split; [exact K0|]. intros Nn. apply isclose_spec in Nn. congruence.
        * apply IH in Q. destruct Q as (i & u' & b' & dd & A). exists (S i), u', b', dd. exact A.
      + intros (i & u' & b' & dd & A & B & C & Dn). destruct i as [|i].
        * left. injection A as <-. injection B as <-. rewrite (takes_fun h b dd _ C K0) in Dn. destruct (isclose _ _) eqn:Q; [|reflexivity]. apply isclose_spec in Q. contradiction.
        * right. apply IH. exists i, u', b', dd. auto. }
  apply Z; auto. intros i b m Hb Hm'. apply (Hm i b m Hb Hm').
Qed.
End WithEnv.
