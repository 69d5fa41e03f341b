(** * ExtendGridFinal: proofs about appending a tier to a group of a grid. *)
From Verif Require Import ExtendSpec ExtendFinal RelateFinal PopFinal GrowFinal OwnFinal TierFinal ReadMade AppendTiers AppendFinal.
Open Scope Z_scope.

Section WithEnv.
Context `{Env}.

(** Like [recast], whatever the name becomes. *)
Definition recast_as (nm : string) (t : tid) (c : cid) (h h' : heap) : Prop :=
  (forall x, In x (t_seq (tob h t)) -> s_cls (sob h' x) = c /\ same_family (sob h x) (sob h' x) /\ s_intier (sob h' x) = Some t) /\
  (forall i, live h i -> ~ In i (t_seq (tob h t)) -> sob h' i = sob h i) /\
  (List.length (h_seq h) <= List.length (h_seq h'))%nat /\
  (forall i, (List.length (h_seq h) <= i < List.length (h_seq h'))%nat -> is_boundary h' i) /\
  h_cls h' = h_cls h /\ h_grp h' = h_grp h /\ h_grid h' = h_grid h /\
  List.length (h_tier h') = List.length (h_tier h) /\ (forall u, u <> t -> tob h' u = tob h u) /\
  t_seq (tob h' t) = t_seq (tob h t) /\ t_ec (tob h' t) = c /\ t_super (tob h' t) = superset_class h c /\ t_sub (tob h' t) = subset_class h c /\
  t_name (tob h' t) = nm /\ t_within (tob h' t) = t_within (tob h t) /\ classed h' t.

Lemma reinit_from h t c sc l : tlive h t -> issubclass h (t_ec (tob h t)) cPoint = false -> t_seq (tob h t) = l ->
  issubclass h c cInterval = true -> issubclass h c cPoint = false -> superset_class h c = Some sc -> NoDup l ->
  (forall x, In x l -> live h x /\ issubclass h (s_cls (sob h x)) cInterval = true /\ s_label (sob h x) <> "#"%string) ->
  known_starts h l -> sorted_starts h l ->
  exists h', tier_reinit t (FromTier t) c h = Ok tt h' /\ recast_as (src_name h (FromTier t) c) t c h h'.
Proof.
  intros Lt Pt El Ic Pc Sc N U Ks So.
  set (ents := map EObj l).
  assert (Oe : entry_objs ents = l).
  { unfold ents. clear. induction l as [|x l IH]; [reflexivity|]. cbn. rewrite <- IH at 2. reflexivity. }
  assert (U0 : usable h cInterval ents).
  { split; [rewrite Oe; exact N|]. intros e He. apply in_map_iff in He. destruct He as (x & <- & Hx). cbn [entry_value fst snd].
    destruct (U x Hx) as (A & B & D). split; [exact D|]. split; [apply Ks, Hx|]. split; [exact A|exact B]. }
  assert (Sk : src_check h (FromTier t) = ents) by (cbn [src_check]; rewrite El; reflexivity).
  assert (E1 := itier_start t (FromTier t) (Some c) c h ents eq_refl Sk Pc).
  set (hx := upd_tier t (head_of h (FromTier t) c ents) h) in *.
  assert (Tx : tob hx t = head_of h (FromTier t) c ents (tob h t)) by (apply tob_upd_eq; auto).
  assert (Ux : usable hx cInterval ents) by (apply (usable_heap h); auto).
  destruct (cast_entries_ok c cInterval ents hx Ux) as (os & h1 & Eo & M & ND & F & Gc & Ln & B & Lv & SR).
  { unfold kind_of. change (is_point_cls hx c) with (issubclass h c cPoint). rewrite Pc. reflexivity. }
  assert (Eos : os = l).
  { clear -M. unfold ents in M. revert os M. induction l as [|y l IH]; intros os M; inversion M as [|e x k os' Q M' E1 E2]; [reflexivity|].
    destruct Q as (_ & _ & -> & _). f_equal. apply IH, M'. }
  subst os.
  assert (S1 : forall x, In x l -> sob h1 x = set_s_cls c (sob h x)).
  { intros x Hx. rewrite Gc; [reflexivity| |rewrite Oe; exact Hx]. destruct (U x Hx) as (A & _). unfold live in *. change (h_seq hx) with (h_seq h). lia. }
  assert (T1 : tob h1 t = tob hx t) by (apply tob_ext; apply SR).
  assert (Ht1 : tlive h1 t) by (unfold tlive in *; destruct SR as (_ & -> & _); unfold hx; rewrite len_upd_tier; auto).
  assert (Cl1 : h_cls h1 = h_cls h) by (destruct SR as (-> & _); reflexivity).
  assert (Lk : linkable h1 c l).
  { split; [exact ND|]. intros x Hx. split; [apply Lv; auto|]. rewrite S1 by exact Hx. cbn. split; [reflexivity|]. apply U, Hx. }
  assert (Ks1 : known_starts h1 l) by (intros x Hx; rewrite S1 by exact Hx; cbn; apply Ks, Hx).
  destruct (tier_set_seq_ok h1 t c sc l Ht1 Lk Ks1) as (l' & v & h2 & Ev & E2 & P & S & I & Pl & C & Ve).
  { rewrite T1, Tx. cbn. exact Sc. }
  assert (Ell : l' = l).
  { apply I. intros i j x y Hij Hx Hy. rewrite S1, S1 by (eapply nth_error_In; eauto). cbn. apply (So i j); auto. }
  rewrite Ell in Ev, P, S, Pl, C. clear Ell I.
  set (h1' := upd_tier t (put_seq v) h1) in *.
  assert (T1' : tob h1' t = put_seq v (tob h1 t)) by (apply tob_upd_eq; auto).
  set (nm := src_name h (FromTier t) c) in *.
  assert (T2 : t_seq (tob h2 t) = l /\ t_super (tob h2 t) = Some sc /\ t_ec (tob h2 t) = c /\
               t_name (tob h2 t) = nm /\ t_sub (tob h2 t) = subset_class h c /\ t_within (tob h2 t) = t_within (tob h t) /\ t_seqec (tob h2 t) = sv_ec v).
  { destruct Pl as (_ & _ & _ & _ & _ & _ & _ & _ & _ & Q). rewrite Q.
    assert (X : forall o, o = tob h1' t -> t_seq o = l /\ t_super o = Some sc /\ t_ec o = c /\ t_name o = nm /\ t_sub o = subset_class h c /\ t_within o = t_within (tob h t) /\ t_seqec o = sv_ec v).
    { intros o ->. rewrite T1', T1, Tx. cbn [put_seq head_of t_seq t_super t_ec t_name t_sub t_within t_seqec]. split; [exact Ev|]. split; [exact Sc|]. split; [reflexivity|].
      split; [reflexivity|]. split; [reflexivity|]. split; reflexivity. }
    destruct (issubclass h1 sc cTop); [|auto]. destruct (X _ eq_refl) as (X1 & X2 & X3 & X4 & X5 & X6 & X7). simpl. auto 10. }
  destruct T2 as (T2s & T2p & T2e & T2n & T2b & T2w & T2v).
  assert (Lk1 : linkable h1' c l) by exact Lk.
  assert (Lk2 : linkable h2 c l) by (eapply linkable_placed; eauto).
  destruct (tier_precedence_ok h2 t c sc) as (h3 & E3 & Pl3 & C3).
  { unfold tlive in *. destruct Pl as (_ & _ & _ & _ & _ & _ & _ & -> & _). unfold h1'. rewrite len_upd_tier. auto. }
  { rewrite T2s. exact Lk2. }
  { exact T2p. }
  rewrite T2s in Pl3, C3.
  assert (Cl2 : h_cls h2 = h_cls h1) by apply Pl.
  rewrite (issubclass_ext h1 h2) in Pl3 by auto.
  assert (Pf : placed t (issubclass h1 sc cTop) l h1' h3).
  { eapply placed_trans; [exact Pl|exact Pl3|]. intros x Hx. apply Lk1; auto. }
  assert (T3 : t_seq (tob h3 t) = l /\ t_ec (tob h3 t) = c /\ t_name (tob h3 t) = nm /\
               t_super (tob h3 t) = Some sc /\ t_sub (tob h3 t) = subset_class h c /\ t_within (tob h3 t) = t_within (tob h t) /\ t_seqec (tob h3 t) = sv_ec v).
  { destruct Pl3 as (_ & _ & _ & _ & _ & _ & _ & _ & _ & Q). rewrite Q.
    destruct (issubclass h1 sc cTop); simpl; auto 10. }
  destruct T3 as (T3s & T3e & T3n & T3p & T3b & T3w & T3v).
  clear C Pl Pl3. destruct Pf as (A1 & A2 & A3 & A4 & A5 & A6 & A7 & A8 & A9 & A10). destruct SR as (Q1 & Q2 & Q3 & Q4).
  exists h3. split.
  { unfold tier_reinit. rewrite bind_gets. unfold is_point_tier, is_point_cls. rewrite Pt.
    rewrite E1, (bind_ok _ _ _ _ _ Eo), (bind_ok _ _ _ _ _ E2). exact E3. }
  change (h_seq hx) with (h_seq h) in Ln. change (h_seq h1') with (h_seq h1) in A3, A2, A4.
  unfold recast_as. rewrite El. split.
  { intros x Hx. destruct (A1 x Hx) as ((B1 & B2 & B3 & B4 & B5 & B6 & _) & B7 & _). change (sob h1' x) with (sob h1 x) in *.
    rewrite S1 in B1, B2, B3, B4, B5, B6 by exact Hx. cbn in B1, B2, B3, B4, B5, B6. split; [exact B1|]. split; [unfold same_family; auto 10|exact B7]. }
  split.
  { intros i Li Hn. unfold live in Li. rewrite A2 by (try exact Hn; lia). change (sob h1' i) with (sob h1 i). rewrite F; [reflexivity| |rewrite Oe; exact Hn].
    unfold live. change (h_seq hx) with (h_seq h). exact Li. }
  split; [lia|]. split.
  { intros i Hi2. destruct (decide (i < List.length (h_seq h1))%nat) as [Hj|Hj].
    - assert (Hn : ~ In i l) by (intros Q; destruct (U i Q) as (L & _); unfold live in L; lia). eapply boundary_kept; [apply A2; [exact Hj|exact Hn]|exact A3|].
      change (is_boundary h1 i). apply B; [change (h_seq hx) with (h_seq h); lia|exact Hn].
    - apply A4. lia. }
  split; [rewrite A5; exact Cl1|]. split; [rewrite A6; change (h_grp h1' ) with (h_grp h1); rewrite Q3; reflexivity|].
  split; [rewrite A7; change (h_grid h1' ) with (h_grid h1); rewrite Q4; reflexivity|].
  split; [rewrite A8; unfold h1'; rewrite len_upd_tier, Q2; unfold hx; rewrite len_upd_tier; reflexivity|].
  split.
  { intros u Hu. rewrite A9 by exact Hu. unfold h1'. rewrite tob_upd_ne by exact Hu. rewrite (tob_ext hx h1) by auto. unfold hx. rewrite tob_upd_ne by exact Hu. reflexivity. }
  split; [exact T3s|]. split; [exact T3e|]. split; [rewrite Sc; exact T3p|]. split; [exact T3b|]. split; [exact T3n|]. split; [exact T3w|].
  unfold classed. rewrite T3v, Ve, T3s, T3e. destruct l; auto.
Qed.

(** What the grid collects when it meets a class it has already. *)
Lemma reclone_known h a c c' sc : class_table h -> alive h a -> whole_chains h (a_cloned (aob h a)) ->
  issubclass h c cInterval = true -> superset_class h c = Some sc -> used_for h a c c' -> issubclass h c' cInterval = true ->
  exists l, reclone a [c] h = Ok tt (upd_grid a (fun o => set_a_cloned (a_cloned o ++ l)%list o) h) /\ incl l (a_cloned (aob h a)).
Proof.
  intros T La WC Iv Sc Uf Iv'. unfold reclone. rewrite bind_gets. set (ex := a_cloned (aob h a)) in *. rewrite bind_gets.
  cbn [dedup List.filter]. 
  rewrite (kinds_apart h c cInterval cPoint T) by (simpl; auto).
  assert (Ic' : In c' ex) by (destruct Uf as (l1 & l2 & Q & _); fold ex in Q; rewrite Q; apply in_elt).
  assert (Et : filterM is_top_cls [c] h = Ok (if issubclass h sc cTop then [c] else []) h).
  { cbn [filterM]. unfold is_top_cls. rewrite bind_assoc, bind_gets, Iv, bind_assoc, bind_gets, Sc. unfold issubclass_m. rewrite bind_gets, bind_ret. destruct (issubclass h sc cTop); reflexivity. }
  destruct (issubclass h sc cTop) eqn:Tp.
  - destruct (WC c' Ic') as [(L & _)|(t0 & cs0 & b0 & C0 & I0 & S0)].
    { rewrite (kinds_apart h c' cInterval cPoint T) in L by (simpl; auto). discriminate. }
    exists cs0. split; [|exact S0]. rewrite (bind_ok _ _ _ _ _ Et). cbn [mapM]. rewrite bind_ret.
    destruct (first_index _ _ _ _ Uf) as (i & E1 & E2).
    assert (Er : clone_or_reuse ex c h = Ok c' h) by (unfold clone_or_reuse; rewrite bind_gets; fold ex in E1, E2; rewrite E1, E2; reflexivity).
    rewrite bind_assoc, (bind_ok _ _ _ _ _ Er), bind_assoc, bind_ret, bind_ret. cbn [mapM].
    rewrite bind_assoc. rewrite (bind_ok _ _ _ cs0 h) by (apply (c14_chain h t0 cs0 b0 [] c' T C0 I0); intros ? _ []).
    rewrite bind_assoc, !bind_ret. cbn [concat app]. rewrite app_nil_r. reflexivity.
  - exists []. split; [|intros ? []]. rewrite (bind_ok _ _ _ _ _ Et). cbn [mapM]. rewrite !bind_ret. reflexivity.
Qed.

Lemma involved_same h h2 ts i : (forall u, t_seq (tob h2 u) = t_seq (tob h u)) -> (forall i, live h i -> same_family (sob h i) (sob h2 i)) ->
  (forall u x, In u ts -> In x (t_seq (tob h u)) -> live h x /\ forall p, s_super (sob h x) = Some p -> live h p) ->
  involved h2 ts i -> involved h ts i.
Proof.
  intros Es Sf Lx (u & x & Hu & Hx & Q). rewrite Es in Hx. exists u, x. split; [exact Hu|]. split; [exact Hx|]. destruct Q as [->|(p & Sp & Q)]; [auto|right].
  destruct (Lx u x Hu Hx) as [L Lp]. destruct (Sf x L) as (_ & _ & _ & S1 & _). rewrite S1 in Sp. exists p. split; [exact Sp|].
  destruct (Sf p (Lp p Sp)) as (_ & _ & _ & _ & S2). rewrite <- S2. exact Q.
Qed.

Lemma c62_grid : forall n h a g t c' ts1 ts2 tc cs bc bss,
  class_table h -> (a < List.length (h_grid h))%nat -> whole_chains h (a_cloned (aob h a)) ->
  (g < List.length (h_grp h))%nat -> g_points (gob h g) = false -> In g (a_groups (aob h a)) -> g_within (gob h g) = Some (WGrid a) ->
  ~ In t (g_tiers (gob h g)) -> Permutation (g_tiers (gob h g) ++ [t]) (ts1 ++ t :: ts2) ->
  class_chain h tc cs bc -> unrelated h cs ->
  cs = (map (fun u => t_ec (tob h u)) ts1 ++ c' :: map (fun u => t_ec (tob h u)) ts2)%list ->
  (exists sc, superset_class h (t_ec (tob h t)) = Some sc) -> used_for h a (t_ec (tob h t)) c' ->
  (forall u, In u (g_tiers (gob h g)) -> (u < List.length (h_tier h))%nat /\ fit_tier h u /\ up_to_date h u /\
     forall x, In x (t_seq (tob h u)) -> ~ In x (t_seq (tob h t))) ->
  loose_tier h t -> snug h (ts1 ++ t :: ts2) bss ->
  (forall u, hd_error (ts1 ++ t :: ts2) = Some u -> in_turn h (t_seq (tob h u)) /\ forall x, In x (t_seq (tob h u)) -> dated h x) ->
  exists h', grp_append n g t h = Ok tt h' /\ good_group h' g (ts1 ++ t :: ts2) bss /\ extends_grid h h' a g t c' (ts1 ++ t :: ts2).
Proof.
  intros n h a g t c' ts1 ts2 tc cs bc bss T La WC Lg Gp Ig Wg Nt P C Un Ecs (sc0 & Sc0) Uf Tr (Lt & Ivt & (Nl & Lkt) & Tt & Dt) Sn Tp.
  set (ts := (ts1 ++ t :: ts2)%list) in *.
  assert (Ic' : In c' cs) by (rewrite Ecs; apply in_elt).
  assert (Iv' : issubclass h c' cInterval = true) by (apply C, Ic').
  assert (Pt : issubclass h (t_ec (tob h t)) cPoint = false) by (apply (kinds_apart h _ cInterval cPoint T); simpl; auto).
  assert (Pc' : issubclass h c' cPoint = false) by (apply (kinds_apart h _ cInterval cPoint T); simpl; auto).
  destruct (reclone_known h a (t_ec (tob h t)) c' sc0 T La WC Ivt Sc0 Uf Iv') as (l & E1 & Il).
  set (h1 := upd_grid a (fun o => set_a_cloned (a_cloned o ++ l)%list o) h) in *.
  assert (Aa1 : aob h1 a = set_a_cloned (a_cloned (aob h a) ++ l)%list (aob h a)) by (unfold h1; rewrite aob_upd_eq by exact La; reflexivity).
  assert (Sw : swap_classes [t_ec (tob h t)] (a_cloned (aob h1 a)) h1 = Ok [c'] h1).
  { apply swap_first. constructor; [|constructor]. rewrite Aa1. cbn [a_cloned set_a_cloned]. apply first_app, Uf. }
  assert (Sup : exists sc, superset_class h c' = Some sc).
  { apply in_split in Ic'. destruct Ic' as (l1 & l2 & Q). eexists. exact (ClassFinal.chain_super _ _ _ _ _ _ _ C Q). }
  destruct Sup as (sc & Sc).
  assert (Dx : forall x, In x (t_seq (tob h t)) -> dated h x) by (intros x Hx; apply Dt, Hx).
  destruct (reinit_from h1 t c' sc (t_seq (tob h t)) Lt Pt eq_refl Iv' Pc' Sc Nl) as (h2 & E2 & B1 & B2 & B3 & B4 & B5 & B6 & B7 & B8 & B9 & B10 & B11 & B12 & B13 & B14 & B15 & B16).
  { intros x Hx. destruct (Lkt x Hx) as (Q1 & Q2 & Q3). split; [exact Q1|]. split; [|exact Q3]. change (issubclass h (s_cls (sob h x)) cInterval = true). rewrite Q2. exact Ivt. }
  { intros x Hx. destruct (Dx x Hx) as (D & _). eauto. }
  { exact (turn_sorted h (t_seq (tob h t)) Tt Dx). }
  change (tob h1) with (tob h) in *. change (sob h1) with (sob h) in *. change (h_seq h1) with (h_seq h) in *. change (h_cls h1) with (h_cls h) in B5.
  change (h_grp h1) with (h_grp h) in B6. change (h_tier h1) with (h_tier h) in B8.
  assert (Go : forall k, gob h2 k = gob h k) by (intros k; unfold gob; rewrite B6; reflexivity).
  assert (Ao : forall k, aob h2 k = aob h1 k) by (intros k; unfold aob; rewrite B7; reflexivity).
  assert (Sq : forall u, t_seq (tob h2 u) = t_seq (tob h u)).
  { intros u. destruct (Nat.eq_dec u t) as [->|Nu]; [exact B10|rewrite B9 by exact Nu; reflexivity]. }
  assert (Sf : forall i, live h i -> same_family (sob h i) (sob h2 i)).
  { intros i Li. destruct (in_dec Nat.eq_dec i (t_seq (tob h t))) as [I|I]; [apply (B1 i I)|rewrite B2 by auto; repeat split]. }
  assert (T2 : class_table h2) by (unfold class_table, cob in *; rewrite B5; exact T).
  assert (C2 : class_chain h2 tc cs bc) by (apply (chain_cls h); auto).
  assert (Ots : forall u, In u ts -> u <> t -> In u (g_tiers (gob h g))).
  { intros u Hu Nu. apply Permutation_sym in P. apply (Permutation_in _ P), in_app_iff in Hu. destruct Hu as [Hu|[->|[]]]; [exact Hu|contradiction]. }
  assert (Its : In t ts) by apply in_elt.
  assert (N12 : forall u, In u (ts1 ++ ts2) -> u <> t).
  { intros u Hu ->. apply Nt.
    assert (P' : Permutation (g_tiers (gob h g)) (ts1 ++ ts2)) by (apply (Permutation_cons_inv (a := t)); transitivity (g_tiers (gob h g) ++ [t])%list; [apply Permutation_cons_append|]; transitivity ts; [exact P|]; apply Permutation_sym, Permutation_middle).
    apply Permutation_sym in P'. apply (Permutation_in _ P' Hu). }
  assert (Em2 : map (fun k => t_ec (tob h2 k)) ts = cs).
  { unfold ts. rewrite map_app. cbn [map]. rewrite B11, Ecs. f_equal; [|f_equal]; apply map_ext_in; intros u Hu; rewrite B9; [reflexivity|apply N12, in_app_iff; auto|reflexivity|apply N12, in_app_iff; auto]. }
  destruct (synced_chain h2 h2 ts tc cs bc C2 eq_refl) as [TC CJ].
  { intros k Hk. unfold synced. destruct (Nat.eq_dec k t) as [->|Nk].
    - rewrite B11, (superset_class_ext h h2), (subset_class_ext h h2) by exact B5. change (superset_class h1 c') with (superset_class h c') in B12. change (subset_class h1 c') with (subset_class h c') in B13.
      rewrite <- B12, <- B13. destruct (tob h2 t). reflexivity.
    - rewrite (superset_class_ext h h2), (subset_class_ext h h2) by exact B5. rewrite B9 by exact Nk. destruct (Tr k (Ots k Hk Nk)) as (_ & _ & (U1 & U2) & _). rewrite <- U1, <- U2. destruct (tob h k). reflexivity. }
  { exact Em2. }
  { intros k Hk. split; [unfold tlive; rewrite B8; destruct (Nat.eq_dec k t) as [->|Nk]; [exact Lt|apply (Tr k (Ots k Hk Nk))]|].
    assert (Q : In (t_ec (tob h2 k)) cs) by (rewrite <- Em2; apply (in_map (fun k => t_ec (tob h2 k))), Hk).
    assert (Iv : issubclass h2 (t_ec (tob h2 k)) cInterval = true) by (apply C2, Q).
    split; [apply (kinds_apart h2 _ cInterval cTop T2)|apply (kinds_apart h2 _ cInterval cBottom T2)]; simpl; auto. }
  assert (Pk : forall i, issubclass h2 i cPoint = issubclass h i cPoint) by (intros i; apply issubclass_ext; exact B5).
  assert (Fit : forall u, In u ts -> fit_tier h2 u).
  { intros u Hu. destruct (Nat.eq_dec u t) as [->|Nu].
    - unfold fit_tier. rewrite B10, B11. split; [split; [exact Nl|]|split; [rewrite Pk; exact Pc'|]].
      + intros x Hx. destruct (Lkt x Hx) as (Q1 & _ & Q3). destruct (B1 x Hx) as (R1 & (_ & _ & R2 & _) & _). split; [lia|]. split; [exact R1|congruence].
      + intros x Hx p Sp. destruct (B1 x Hx) as (_ & (_ & _ & _ & R & _) & _). rewrite R in Sp. destruct (Dt x Hx) as [_ Q]. congruence.
    - destruct (Tr u (Ots u Hu Nu)) as (_ & ((Nd & Lk) & Pu & Fl) & _ & Dj).
      unfold fit_tier. rewrite B9 by exact Nu.
      assert (Same : forall i, live h i -> (exists p, s_super (sob h i) = Some p) \/ (exists v, In v (g_tiers (gob h g)) /\ In i (t_seq (tob h v))) -> sob h2 i = sob h i).
      { intros i Li Q. apply B2; [exact Li|]. intros Ii. destruct Q as [(p & Q)|(v & Hv & Q)]; [destruct (Dt i Ii) as [_ R]; congruence|].
        destruct (Tr v Hv) as (_ & _ & _ & D). exact (D i Q Ii). }
      split; [split; [exact Nd|]|split; [rewrite Pk; exact Pu|]].
      + intros x Hx. destruct (Lk x Hx) as (Q1 & Q2 & Q3). rewrite Same; [split; [lia|auto]|exact Q1|right; eauto].
      + intros x Hx p. destruct (Lk x Hx) as (Q1 & _). rewrite Same by (try exact Q1; right; eauto). intros Sp.
        destruct (Fl x Hx p Sp) as (L1 & L2 & L3 & L4 & L5). destruct (Sf p L1) as (_ & _ & _ & _ & Ep).
        split; [lia|]. split; [exact L2|]. rewrite Ep. split; [exact L3|]. unfold brood. rewrite Ep. split; [exact L4|].
        assert (Sy : forall y, In y (s_subset (sob h p)) -> sob h2 y = sob h y) by (intros y Hy; destruct (L5 y Hy) as (K1 & _ & K3 & _); apply Same; eauto).
        intros y Hy. destruct (L5 y Hy) as (K1 & K2 & K3 & K4). rewrite (Sy y Hy). split; [lia|]. split; [exact K2|]. split; [exact K3|].
        intros z Hz. rewrite (Sy z Hz). destruct (K4 z Hz) as (K5 & K6). split; [exact K5|]. intros V. apply K6.
        revert V. unfold same_value, is_point, is_point_cls. rewrite (Sy y Hy), (Sy z Hz), !Pk. auto. }
  assert (Lx : forall u x, In u ts -> In x (t_seq (tob h u)) -> live h x /\ forall p, s_super (sob h x) = Some p -> live h p).
  { intros u x Hu Hx. destruct (Nat.eq_dec u t) as [->|Nu].
    - split; [exact (proj1 (Lkt x Hx))|]. intros p Sp. destruct (Dt x Hx) as [_ Q]. congruence.
    - destruct (Tr u (Ots u Hu Nu)) as (_ & ((_ & Lk) & _ & Fl) & _). split; [exact (proj1 (Lk x Hx))|]. intros p Sp. exact (proj1 (Fl x Hx p Sp)). }
  destruct (extend_ok n h2 g t ts bss) as (h' & E & G & An & Lg' & Og & Wg' & _).
  { unfold glive. rewrite B6. exact Lg. }
  { rewrite Go. exact Gp. }
  { rewrite Go. exact P. }
  { exact TC. }
  { exact CJ. }
  { exact Fit. }
  { apply (snug_same h h2); [intros u _; apply Sq| |exact Sn]. intros u x Hu Hx. destruct (Sf x) as (R1 & R2 & _); [exact (proj1 (Lx u x Hu Hx))|auto]. }
  { intros u Hu. destruct (Tp u Hu) as [Q1 Q2]. assert (Iu : In u ts) by (destruct ts; [discriminate|injection Hu as ->; simpl; auto]).
    rewrite Sq. split; [apply (in_turn_same h h2); [|exact Q1]|].
    - intros x Hx. destruct (Sf x) as (R1 & R2 & _); [exact (proj1 (Lx u x Iu Hx))|auto].
    - intros x Hx. destruct (Sf x) as (R1 & R2 & _); [exact (proj1 (Lx u x Iu Hx))|]. apply (dated_same h h2); auto. }
  { rewrite Go. intros u Hu R. assert (Nu : u <> t) by (intros ->; auto). assert (Iu : In u ts) by (apply (Permutation_in _ P), in_app_iff; auto).
    assert (D : t_ec (tob h2 u) = t_ec (tob h2 t)).
    { assert (A1 : In (t_ec (tob h2 u)) cs) by (rewrite <- Em2; apply (in_map (fun k => t_ec (tob h2 k))), Iu).
      assert (A2 : In (t_ec (tob h2 t)) cs) by (rewrite <- Em2; apply (in_map (fun k => t_ec (tob h2 k))), Its).
      unfold related in R. rewrite !(issubclass_ext h h2) in R by exact B5. destruct R as [R|R]; [apply (Un _ _ A1 A2) in R|apply (Un _ _ A2 A1) in R]; congruence. }
    apply Nu. apply (map_apart (fun k => t_ec (tob h2 k)) ts); auto. apply TC. }
  exists h'. split.
  { unfold grp_append. rewrite bind_get_grp, bind_gets, Gp. unfold is_point_tier, is_point_cls. rewrite Pt. cbn [Bool.eqb negb].
    rewrite Wg. rewrite (bind_ok _ _ _ tt h2).
    - revert E. unfold extend. rewrite Go, Gp. intros E. exact E.
    - rewrite bind_gets. replace ((0 <? List.length (a_groups (aob h a)))%nat) with true by (symmetry; apply Nat.ltb_lt; destruct (a_groups (aob h a)); [destruct Ig|simpl; lia]).
      rewrite bind_gets, (bind_ok _ _ _ _ _ E1), bind_gets, (bind_ok _ _ _ _ _ Sw). exact E2. }
  split; [exact G|].
  pose proof (anew_tier g ts h2 h' An) as Tk. destruct An as (N1 & N2 & N3 & N4 & N5 & N6 & N7 & N8 & N9 & N10).
  assert (Ao' : forall k, aob h' k = aob h1 k) by (intros k; unfold aob; rewrite N6; apply Ao).
  assert (Lv2 : forall i, live h i -> live h2 i) by (intros i; unfold live; lia).
  unfold extends_grid.
  split; [rewrite Ao', Aa1; reflexivity|]. split; [intros b Nb; rewrite Ao'; apply aob_upd_ne, Nb|].
  split; [intros c; rewrite Ao', Aa1; cbn [a_cloned set_a_cloned]; rewrite in_app_iff; split; [intros [Q|Q]; auto|auto]|].
  split; [rewrite Wg', Go; reflexivity|]. split; [rewrite Lg', B6; reflexivity|]. split; [intros k Nk; rewrite Og, Go by exact Nk; reflexivity|].
  split; [rewrite N5; exact B5|]. split; [rewrite N6, B7; apply len_upd_grid|]. split; [rewrite N7; exact B8|].
  split; [intros u Hu; rewrite N8 by exact Hu; apply B9; intros ->; auto|].
  split; [intros u; destruct (Tk u) as (-> & _); apply Sq|].
  split.
  { intros u Hu Nu. rewrite N9 by exact Hu. cbn [t_ec t_name set_t_within]. rewrite B9 by exact Nu. auto. }
  assert (Tt' : tob h' t = set_t_within (Some (WGroup g)) (tob h2 t)) by (apply N9, Its).
  rewrite Tt'. cbn [t_ec t_name set_t_within]. split; [exact B11|]. split.
  { intros Nm. rewrite B14. cbn [src_name]. change (tob h1 t) with (tob h t). change (class_name h1 (t_ec (tob h t))) with (class_name h (t_ec (tob h t))). rewrite (proj2 (String.eqb_neq _ _) Nm). reflexivity. }
  split.
  { unfold housed, classed. rewrite Tt'. cbn [t_seqec t_seq t_ec set_t_within]. split; [exact B16|]. rewrite B10. intros y Hy.
    destruct (N1 y) as (_ & _ & _ & _ & ->); [exact (Lv2 _ (proj1 (Lkt y Hy)))|]. apply (B1 y Hy). }
  split.
  { unfold up_to_date. rewrite Tt'. cbn [t_super t_sub t_ec set_t_within]. rewrite B11, B12, B13. change (superset_class h1 c') with (superset_class h c'). change (subset_class h1 c') with (subset_class h c').
    rewrite (superset_class_ext h h'), (subset_class_ext h h') by congruence. auto. }
  split.
  { intros x Hx. destruct (N1 x) as (-> & _); [exact (Lv2 _ (proj1 (Lkt x Hx)))|]. apply (B1 x Hx). }
  split.
  { intros i Hi Ni. destruct (N1 i) as (-> & _); [apply Lv2, Hi|]. rewrite B2 by auto. reflexivity. }
  split.
  { intros i Hi. destruct (N1 i) as (_ & -> & -> & -> & _); [apply Lv2, Hi|]. destruct (Sf i Hi) as (-> & -> & -> & _). auto. }
  split; [lia|]. split.
  { intros i Hi Ni. rewrite N2; [|apply Lv2, Hi|].
    - apply B2; [exact Hi|]. intros Q. apply Ni. exists t, i. auto.
    - intros Q. apply Ni. apply (involved_same h h2 ts i Sq Sf Lx Q). }
  intros i Hi. destruct (lt_dec i (List.length (h_seq h2))) as [L|L]; [|apply N4; lia].
  assert (Ni : ~ involved h2 ts i).
  { intros Q. assert (Q' : involved h ts i) by (apply (involved_same h h2 ts i Sq Sf Lx Q)). destruct Q' as (u & x & Hu & Hx & Q'). destruct (Lx u x Hu Hx) as [L1 L2].
    destruct Q' as [->|(p & Sp & Q')]; [unfold live in L1; lia|]. specialize (L2 p Sp). destruct Q' as [->|Q']; [unfold live in L2; lia|].
    destruct (Nat.eq_dec u t) as [->|Nu]; [destruct (Dt x Hx) as [_ R]; congruence|]. destruct (Tr u (Ots u Hu Nu)) as (_ & (_ & _ & Fl) & _).
    destruct (Fl x Hx p Sp) as (_ & _ & _ & _ & F5). destruct (F5 i Q') as (L3 & _). unfold live in L3. lia. }
  eapply boundary_kept; [apply N2; [exact L|exact Ni]|exact N3|]. apply B4. lia.
Qed.

Lemma c62_unknown : forall n h a g t sc, class_table h -> (a < List.length (h_grid h))%nat ->
  g_points (gob h g) = false -> In g (a_groups (aob h a)) -> g_within (gob h g) = Some (WGrid a) ->
  issubclass h (t_ec (tob h t)) cInterval = true -> superset_class h (t_ec (tob h t)) = Some sc -> issubclass h sc cTop = false ->
  (forall c, In c (a_cloned (aob h a)) -> class_name h c <> class_name h (t_ec (tob h t))) ->
  exists h', grp_append n g t h = Raise ValueError h' /\ h_cls h' = h_cls h /\ h_seq h' = h_seq h /\ h_tier h' = h_tier h /\ h_grp h' = h_grp h /\
    forall b, aob h' b = aob h b.
Proof.
  intros n h a g t sc T La Gp Ig Wg Iv Sc Tp Nn.
  assert (Pt : issubclass h (t_ec (tob h t)) cPoint = false) by (apply (kinds_apart h _ cInterval cPoint T); simpl; auto).
  set (h1 := upd_grid a (fun o => set_a_cloned (a_cloned o ++ [])%list o) h).
  assert (E1 : reclone a [t_ec (tob h t)] h = Ok tt h1).
  { unfold reclone. rewrite bind_gets, bind_gets. cbn [dedup List.filter]. rewrite Pt.
    assert (Et : filterM is_top_cls [t_ec (tob h t)] h = Ok [] h).
    { cbn [filterM]. unfold is_top_cls. rewrite bind_assoc, bind_gets, Iv, bind_assoc, bind_gets, Sc. unfold issubclass_m. rewrite bind_gets, bind_ret, Tp. reflexivity. }
    rewrite (bind_ok _ _ _ _ _ Et). cbn [mapM]. rewrite !bind_ret. reflexivity. }
  assert (Ab : forall b, aob h1 b = aob h b).
  { intros b. destruct (Nat.eq_dec b a) as [->|Nb]; [|apply aob_upd_ne, Nb]. unfold h1. rewrite aob_upd_eq by exact La. rewrite app_nil_r. destruct (aob h a). reflexivity. }
  exists h1. split; [|auto 10].
  unfold grp_append. rewrite bind_get_grp, bind_gets, Gp. unfold is_point_tier, is_point_cls. rewrite Pt. cbn [Bool.eqb negb]. rewrite Wg. apply bind_raise.
  rewrite bind_gets. replace ((0 <? List.length (a_groups (aob h a)))%nat) with true by (symmetry; apply Nat.ltb_lt; destruct (a_groups (aob h a)); [destruct Ig|simpl; lia]).
  rewrite bind_gets, (bind_ok _ _ _ _ _ E1), bind_gets. apply bind_raise. unfold swap_classes. cbn [mapM]. apply bind_raise. rewrite bind_gets, Ab.
  rewrite first_none; [reflexivity|]. exact Nn.
Qed.
End WithEnv.
