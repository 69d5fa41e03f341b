(** * ExtendFinal: proofs about appending a tier to a group. *)
From Verif Require Import ExtendSpec RelateFinal PopFinal GrowFinal OwnFinal TierFinal AppendTiers AppendFinal ArrangeFinal.
Open Scope Z_scope.

Section WithEnv.
Context `{Env}.

(** What [grp_append] does once the tier has its class. *)
Definition extend (n : nat) (go : grpobj) (g : gid) (t : tid) : M unit :=
    ec <- gets (fun h => t_ec (tob h t)) ;;
    existing <- gets (fun h => existsb (fun u => related_cls h (t_ec (tob h u)) ec) (g_tiers go)) ;;
    if (existing : bool) then raise ValueError
    else
      fits <- (if g_points go || (List.length (g_tiers go) =? 0)%nat then ret true
               else
                 cands <- gets (fun h => flat_map (fun u => [t_sub (tob h u); t_super (tob h u)]) (g_tiers go)) ;;
                 match all_some cands with
                 | None => raise TypeError
                 | Some cs => gets (fun h => existsb (fun c => related_cls h c ec) cs)
                 end) ;;
      if negb fits then raise ValueError
      else
        mod_grp g (fun o => set_g_tiers (g_tiers o ++ [t])%list o) ;;;
        ts <- gets (fun h => g_tiers (gob h g)) ;;
        if g_points go then pg_init g ts else tg_init n g ts None false.

Lemma rel_cls h a b : related_cls h a b = true <-> related h a b.
Proof. unfold related_cls, related. apply orb_true_iff. Qed.
Lemma not_related h ts c : (forall u, In u ts -> ~ related h (t_ec (tob h u)) c) ->
  existsb (fun u => related_cls h (t_ec (tob h u)) c) ts = false.
Proof.
  intros U. apply not_true_is_false. intros E. apply existsb_exists in E. destruct E as (u & Hu & E). apply rel_cls in E. exact (U u Hu E).
Qed.
Lemma all_some_in {A} (l : list (option A)) : (forall o, In o l -> exists x, o = Some x) -> exists r, all_some l = Some r /\ forall x, In (Some x) l -> In x r.
Proof.
  induction l as [|o l IH]; intros U; [exists []; split; [reflexivity|intros ? []]|].
  destruct (U o (or_introl eq_refl)) as (x & ->). destruct IH as (r & E & I); [intros o Ho; apply U; right; exact Ho|].
  exists (x :: r). split; [cbn; rewrite E; reflexivity|]. intros y [Q|Q]; [injection Q as ->; left; reflexivity|right; apply I, Q].
Qed.
Lemma chain_ends h ts : tier_chain h ts -> forall u, In u ts -> exists a b, t_super (tob h u) = Some a /\ t_sub (tob h u) = Some b.
Proof.
  intros (J & _ & _ & (t & Ht & a & Sa & _) & (z & Hz & b & Sb & _)) u Hu. apply In_nth_error in Hu. destruct Hu as (k & Hk).
  assert (A : exists a, t_super (tob h u) = Some a).
  { destruct k as [|k]; [destruct ts; [discriminate|]; simpl in Hk, Ht; exists a; congruence|].
    destruct (nth_error ts k) as [v|] eqn:Hv; [|apply nth_error_None in Hv; assert (nth_error ts (S k) <> None) by congruence; apply nth_error_Some in H0; lia].
    destruct (joined_nth h ts J k v u Hv Hk) as (_ & Q). eauto. }
  assert (B : exists b, t_sub (tob h u) = Some b).
  { destruct (nth_error ts (S k)) as [v|] eqn:Hv; [destruct (joined_nth h ts J k u v Hk Hv) as (Q & _); eauto|].
    exists b. rewrite <- Sb. f_equal. f_equal.
    apply nth_error_None in Hv. assert (Lk : (k < List.length ts)%nat) by (apply nth_error_Some; congruence).
    apply nth_error_split in Hk. destruct Hk as (l1 & l2 & -> & L1). rewrite app_length in *. simpl in *.
    destruct l2; [|simpl in *; lia]. rewrite rev_app_distr in Hz. simpl in Hz. congruence. }
  destruct A as (x & A), B as (y & B). eauto.
Qed.
(** The class of a tier of a chain is the one some other tier asks for. *)
Lemma chain_asked h ts t : tier_chain h ts -> In t ts -> (1 < List.length ts)%nat -> NoDup ts ->
  exists u, In u ts /\ u <> t /\ (t_sub (tob h u) = Some (t_ec (tob h t)) \/ t_super (tob h u) = Some (t_ec (tob h t))).
Proof.
  intros (J & _) Ht Ln N. apply In_nth_error in Ht. destruct Ht as (k & Hk). pose proof (proj1 (NoDup_ListNoDup _) N) as N'.
  assert (D : forall j u, nth_error ts j = Some u -> j <> k -> u <> t).
  { intros j u Hj Nj ->. apply Nj. apply (proj1 (NoDup_nth_error ts) N'); [apply nth_error_Some; congruence|congruence]. }
  destruct k as [|k].
  - destruct (nth_error ts 1) as [u|] eqn:Hu; [|apply nth_error_None in Hu; lia].
    exists u. split; [eapply nth_error_In; eauto|]. split; [apply (D 1%nat); auto|]. right. apply (joined_nth h ts J 0 t u Hk Hu).
  - destruct (nth_error ts k) as [u|] eqn:Hu; [|apply nth_error_None in Hu; assert (nth_error ts (S k) <> None) by congruence; apply nth_error_Some in H0; lia].
    exists u. split; [eapply nth_error_In; eauto|]. split; [apply (D k); auto|]. left. apply (joined_nth h ts J k u t Hu Hk).
Qed.

Lemma extend_ok n h g t ts bss : glive h g -> g_points (gob h g) = false ->
  Permutation (g_tiers (gob h g) ++ [t]) ts -> tier_chain h ts -> classes_joined h ts ->
  (forall u, In u ts -> fit_tier h u) -> snug h ts bss ->
  (forall u, hd_error ts = Some u -> in_turn h (t_seq (tob h u)) /\ forall x, In x (t_seq (tob h u)) -> dated h x) ->
  (forall u, In u (g_tiers (gob h g)) -> ~ related h (t_ec (tob h u)) (t_ec (tob h t))) ->
  exists h', extend n (gob h g) g t h = Ok tt h' /\ good_group h' g ts bss /\ relates_anew g ts h h' /\
    List.length (h_grp h') = List.length (h_grp h) /\ (forall k, k <> g -> gob h' k = gob h k) /\
    g_within (gob h' g) = g_within (gob h g) /\
    (forall u x, hd_error ts = Some u -> In x (t_seq (tob h u)) -> s_super (sob h x) = None -> unmoved (sob h x) (sob h' x)).
Proof.
  intros Lg Gp P C J Fit S Tp U.
  set (h1 := upd_grp g (fun o => set_g_tiers (g_tiers o ++ [t])%list o) h).
  assert (Go : gob h1 g = set_g_tiers (g_tiers (gob h g) ++ [t])%list (gob h g)) by (unfold h1; rewrite gob_upd_eq by exact Lg; reflexivity).
  assert (Lg1 : glive h1 g) by (unfold glive, h1; unfold upd_grp; simpl; rewrite alter_length; exact Lg).
  assert (C0 : tier_chain h1 ts) by (apply (tier_chain_ext h h1); auto).
  assert (J0 : classes_joined h1 ts) by (apply (classes_joined_ext h h1); auto).
  assert (F0 : forall u, In u ts -> fit_tier h1 u) by exact Fit.
  assert (S0 : snug h1 ts bss) by (apply (snug_ext h h1); auto).
  assert (T0 : forall u, hd_error ts = Some u -> in_turn h1 (t_seq (tob h1 u)) /\ forall x, In x (t_seq (tob h1 u)) -> dated h1 x) by exact Tp.
  assert (Cu : cut_up h1 ts bss) by (apply snug_cut; [exact S0|intros u Hu; apply (T0 u Hu)]).
  destruct (init_again n false g (g_tiers (gob h g) ++ [t]) ts None h1 bss Lg1 P C0 J0 F0 Cu ltac:(auto)) as (h' & E & G1 & G2 & G3 & G4 & G5 & G6 & R & An & Sp & Un).
  exists h'. split.
  { unfold extend. rewrite bind_gets, bind_gets, (not_related h _ _ U).
    set (ec := t_ec (tob h t)). set (go := gob h g).
    assert (X : (if g_points go || (List.length (g_tiers go) =? 0)%nat then ret true
               else
                 cands <- gets (fun h => flat_map (fun u => [t_sub (tob h u); t_super (tob h u)]) (g_tiers go)) ;;
                 match all_some cands with
                 | None => raise TypeError
                 | Some cs => gets (fun h => existsb (fun c => related_cls h c ec) cs)
                 end) h = Ok true h).
    { unfold go, ec. rewrite Gp. cbn [orb]. destruct (List.length (g_tiers (gob h g)) =? 0)%nat eqn:Z; [reflexivity|]. apply Nat.eqb_neq in Z.
      rewrite bind_gets. destruct (all_some_in (flat_map (fun u => [t_sub (tob h u); t_super (tob h u)]) (g_tiers (gob h g)))) as (r & Er & Ir).
      { intros o Ho. apply in_flat_map in Ho. destruct Ho as (u & Hu & Ho). destruct (chain_ends h ts C u) as (a & b & A & B).
        - apply (Permutation_in _ P). apply in_app_iff. auto.
        - destruct Ho as [<-|[<-|[]]]; eauto. }
      rewrite Er. unfold gets. f_equal. apply existsb_exists. exists (t_ec (tob h t)). split.
      - assert (It : In t ts) by (apply (Permutation_in _ P), in_app_iff; simpl; auto).
        destruct (chain_asked h ts t C It) as (u & Hu & Nu & Q).
        + rewrite <- (Permutation_length P), app_length. simpl. lia.
        + destruct C as (_ & N & _). apply NoDup_ListNoDup. apply NoDup_ListNoDup in N. apply (NoDup_map_inv _ _ N).
        + apply Permutation_sym in P. apply (Permutation_in _ P) in Hu. apply in_app_iff in Hu. destruct Hu as [Hu|[->|[]]]; [|contradiction].
          apply Ir, in_flat_map. exists u. split; [exact Hu|]. simpl. destruct Q; auto.
      - apply rel_cls. left. apply issubclass_refl. }
    rewrite (bind_ok _ _ _ _ _ X). cbn [negb]. unfold mod_grp. rewrite (bind_ok _ _ _ _ _ (eq_refl : modify (upd_grp g (fun o => set_g_tiers (g_tiers o ++ [t])%list o)) h = Ok tt h1)).
    rewrite bind_gets, Go. unfold go. rewrite Gp. exact E. }
  split.
  { apply (anew_good h1 g ts bss h'); auto; [rewrite G5; exact Lg1|rewrite G3, Go; exact Gp]. }
  split; [exact An|]. split; [rewrite G5; unfold h1, upd_grp; simpl; apply alter_length|].
  split; [intros k Hk; rewrite G6 by auto; unfold h1; apply gob_upd_ne; auto|]. split; [rewrite G4, Go; reflexivity|exact Un].
Qed.

Lemma append_outside n h g t : g_within (gob h g) = None -> grp_append n g t h =
  (if negb (Bool.eqb (g_points (gob h g)) (is_point_tier h t)) then Raise ValueError h else extend n (gob h g) g t h).
Proof.
  intros W. unfold grp_append. rewrite bind_get_grp, bind_gets. destruct (negb _); [reflexivity|]. rewrite W. reflexivity.
Qed.
Lemma c62_append : forall n h g t ts bss, (g < List.length (h_grp h))%nat -> g_points (gob h g) = false -> g_within (gob h g) = None ->
  Permutation (g_tiers (gob h g) ++ [t]) ts -> tier_chain h ts -> classes_joined h ts ->
  (forall u, In u ts -> fit_tier h u) -> snug h ts bss ->
  (forall u, hd_error ts = Some u -> in_turn h (t_seq (tob h u)) /\ forall x, In x (t_seq (tob h u)) -> dated h x) ->
  (forall u, In u (g_tiers (gob h g)) -> ~ related h (t_ec (tob h u)) (t_ec (tob h t))) ->
  exists h', grp_append n g t h = Ok tt h' /\ good_group h' g ts bss /\ relates_anew g ts h h' /\
    List.length (h_grp h') = List.length (h_grp h) /\ (forall k, k <> g -> gob h' k = gob h k) /\
    g_within (gob h' g) = None /\
    (forall u x, hd_error ts = Some u -> In x (t_seq (tob h u)) -> s_super (sob h x) = None -> unmoved (sob h x) (sob h' x)).
Proof.
  intros n h g t ts bss Lg Gp W P C J Fit S Tp U.
  destruct (extend_ok n h g t ts bss Lg Gp P C J Fit S Tp U) as (h' & E & Q1 & Q2 & Q3 & Q4 & Q5 & Q6).
  exists h'. split; [|rewrite W in Q5; auto 10]. rewrite append_outside, Gp by exact W.
  assert (It : In t ts) by (apply (Permutation_in _ P), in_app_iff; simpl; auto). destruct (Fit t It) as (_ & Pt & _).
  unfold is_point_tier, is_point_cls. rewrite Pt. exact E.
Qed.
Lemma c62_kind : forall n h g t, g_points (gob h g) <> issubclass h (t_ec (tob h t)) cPoint -> grp_append n g t h = Raise ValueError h.
Proof.
  intros n h g t K. unfold grp_append. rewrite bind_get_grp, bind_gets. unfold is_point_tier, is_point_cls.
  destruct (g_points (gob h g)), (issubclass h (t_ec (tob h t)) cPoint); try congruence; reflexivity.
Qed.
Lemma c62_taken : forall n h g t u, g_within (gob h g) = None -> In u (g_tiers (gob h g)) -> related h (t_ec (tob h u)) (t_ec (tob h t)) ->
  grp_append n g t h = Raise ValueError h.
Proof.
  intros n h g t u W Iu R. rewrite append_outside by exact W. destruct (negb _); [reflexivity|]. unfold extend. rewrite bind_gets, bind_gets.
  replace (existsb _ _) with true; [reflexivity|]. symmetry. apply existsb_exists. exists u. split; [exact Iu|]. apply rel_cls, R.
Qed.
Lemma all_some_out {A} (l : list (option A)) : forall r, all_some l = Some r -> forall x, In x r -> In (Some x) l.
Proof.
  induction l as [|o l IH]; intros r E x Hx; cbn in E; [injection E as <-; destruct Hx|]. destruct o as [y|]; [|discriminate].
  destruct (all_some l) as [r'|]; [|discriminate]. injection E as <-. destruct Hx as [<-|Hx]; [left; reflexivity|right; eapply IH; eauto].
Qed.
Lemma c62_misfit : forall n h g t, g_within (gob h g) = None -> g_points (gob h g) = false -> g_tiers (gob h g) <> [] ->
  (forall u, In u (g_tiers (gob h g)) -> exists a b, t_super (tob h u) = Some a /\ t_sub (tob h u) = Some b /\
     ~ related h a (t_ec (tob h t)) /\ ~ related h b (t_ec (tob h t))) ->
  grp_append n g t h = Raise ValueError h.
Proof.
  intros n h g t W Gp Ne U. rewrite append_outside by exact W. destruct (negb _); [reflexivity|]. unfold extend. rewrite bind_gets, bind_gets.
  destruct (existsb _ _); [reflexivity|]. rewrite Gp. cbn [orb]. destruct (List.length (g_tiers (gob h g)) =? 0)%nat eqn:Z.
  { apply Nat.eqb_eq in Z. destruct (g_tiers (gob h g)); [congruence|discriminate]. }
  rewrite bind_assoc, bind_gets. destruct (all_some_in (flat_map (fun u => [t_sub (tob h u); t_super (tob h u)]) (g_tiers (gob h g)))) as (r & Er & _).
  { intros o Ho. apply in_flat_map in Ho. destruct Ho as (u & Hu & Ho). destruct (U u Hu) as (a & b & A & B & _). destruct Ho as [<-|[<-|[]]]; eauto. }
  rewrite Er, bind_gets. replace (existsb _ _) with false; [reflexivity|]. symmetry. apply not_true_is_false. intros X.
  apply existsb_exists in X. destruct X as (c & Hc & X). apply rel_cls in X. apply (all_some_out _ _ Er) in Hc. apply in_flat_map in Hc.
  destruct Hc as (u & Hu & Hc). destruct (U u Hu) as (a & b & A & B & Na & Nb). rewrite A, B in Hc.
  destruct Hc as [Q|[Q|[]]]; injection Q as <-; contradiction.
Qed.
Lemma make_some g h : g_tiers (gob h g) <> [] -> exists m, make_name g h = Ok m h.
Proof.
  intros Ne. unfold make_name. destruct (g_tiers (gob h g)) as [|t ts]; [congruence|]. cbn [map].
  match goal with |- context[if ?b then _ else _] => destruct b end; [eauto|].
  destruct (g_within _) as [[ | | |]|]; eauto. destruct (index_of _ _); eauto.
Qed.

Lemma pg_ok g ts h : glive h g -> ts <> [] -> NoDup ts -> (forall t, In t ts -> tlive h t) ->
  exists m h', pg_init g ts h = Ok tt h' /\ regroups g ts h h' /\ g_tiers (gob h' g) = ts /\ g_contains (gob h' g) = CAlias /\ g_name (gob h' g) = m.
Proof.
  intros Lg Ne N Lt. set (h1 := upd_grp g (set_g_contains CAlias) (upd_grp g (set_g_tiers ts) h)).
  set (f := set_t_within (Some (WGroup g))). set (h2 := tupds f ts h1).
  destruct (tupds_rest f ts h1) as (A & B & C & D & E). fold h2 in A, B, C, D, E.
  assert (Lg0 : glive (upd_grp g (set_g_tiers ts) h) g) by (unfold glive, upd_grp in *; simpl; rewrite alter_length; exact Lg).
  assert (G1 : gob h1 g = set_g_contains CAlias (set_g_tiers ts (gob h g))).
  { unfold h1. rewrite gob_upd_eq by exact Lg0. rewrite gob_upd_eq by exact Lg. reflexivity. }
  assert (G2 : gob h2 g = gob h1 g) by (unfold gob; rewrite C; reflexivity).
  assert (Lg2 : glive h2 g) by (unfold glive in *; rewrite C; unfold h1, upd_grp in *; simpl in *; rewrite alter_length; exact Lg0).
  destruct (make_some g h2) as (m & Em); [rewrite G2, G1; exact Ne|].
  exists m, (upd_grp g (set_g_name m) h2). split.
  { unfold pg_init. mstep. mstep. change (forM ts _) with (forM ts (fun t => mod_tier t f)). fold h1.
    rewrite (bind_ok _ _ _ _ _ (forM_mod_tier f ts h1)). fold h2. rewrite (bind_ok _ _ _ _ _ Em). reflexivity. }
  rewrite gob_upd_eq by exact Lg2. rewrite G2, G1. cbn [g_tiers g_contains g_name set_g_name set_g_tiers set_g_contains].
  split; [|auto]. unfold regroups. split; [exact A|]. split; [exact B|]. split; [exact D|]. split; [exact E|].
  change (tob (upd_grp g (set_g_name m) h2)) with (tob h2). split; [intros t Ht; unfold h2; rewrite tupds_notin by exact Ht; reflexivity|].
  split; [intros t Ht; unfold h2; rewrite tupds_in; [reflexivity|exact N|exact Ht|apply Lt, Ht]|].
  split; [unfold upd_grp; cbn [h_grp]; rewrite alter_length, C; unfold h1, upd_grp; cbn [h_grp]; rewrite !alter_length; reflexivity|].
  split.
  { intros k Hk. rewrite gob_upd_ne by auto. unfold gob at 1. rewrite C. change (gob h1 k = gob h k). unfold h1. rewrite !gob_upd_ne by auto. reflexivity. }
  rewrite gob_upd_eq by exact Lg2. rewrite G2, G1. split; reflexivity.
Qed.
Lemma c62_points : forall n h g t, (g < List.length (h_grp h))%nat -> g_points (gob h g) = true -> g_within (gob h g) = None ->
  NoDup (g_tiers (gob h g) ++ [t]) -> (forall u, In u (g_tiers (gob h g) ++ [t]) -> (u < List.length (h_tier h))%nat) ->
  issubclass h (t_ec (tob h t)) cPoint = true ->
  (forall u, In u (g_tiers (gob h g)) -> ~ related h (t_ec (tob h u)) (t_ec (tob h t))) ->
  exists h', grp_append n g t h = Ok tt h' /\ points_group h' g (g_tiers (gob h g) ++ [t]) /\ regroups g (g_tiers (gob h g) ++ [t]) h h'.
Proof.
  intros n h g t Lg Gp W N Lt Pt U. set (ts := (g_tiers (gob h g) ++ [t])%list) in *.
  set (h1 := upd_grp g (fun o => set_g_tiers (g_tiers o ++ [t])%list o) h).
  assert (Lg1 : glive h1 g) by (unfold glive, h1, upd_grp; simpl; rewrite alter_length; exact Lg).
  assert (G1 : gob h1 g = set_g_tiers ts (gob h g)) by (unfold h1; rewrite gob_upd_eq by exact Lg; reflexivity).
  destruct (pg_ok g ts h1 Lg1) as (m & h' & E & R & Q1 & Q2 & _).
  { unfold ts. destruct (g_tiers (gob h g)); discriminate. } { exact N. } { exact Lt. }
  exists h'. split.
  { rewrite append_outside, Gp by exact W. unfold is_point_tier, is_point_cls. rewrite Pt. cbn [Bool.eqb negb]. unfold extend.
    rewrite bind_gets, bind_gets, (not_related h _ _ U). rewrite Gp. cbn [orb]. rewrite bind_ret. cbn [negb]. unfold mod_grp.
    rewrite (bind_ok _ _ _ _ _ (eq_refl : modify (upd_grp g (fun o => set_g_tiers (g_tiers o ++ [t])%list o)) h = Ok tt h1)).
    rewrite bind_gets, G1. exact E. }
  pose proof R as (R1 & R2 & R3 & R4 & R5 & R6 & R7 & R8 & R9 & R10). split.
  - split; [rewrite R7; exact Lg1|]. split; [rewrite R10, G1; exact Gp|]. split; [exact Q1|]. split; [simpl; rewrite Q2, Q1; reflexivity|].
    intros u Hu. rewrite R6 by exact Hu. reflexivity.
  - split; [exact R1|]. split; [exact R2|]. split; [exact R3|]. split; [exact R4|]. split; [exact R5|]. split; [exact R6|].
    split; [rewrite R7; unfold h1, upd_grp; simpl; apply alter_length|]. split; [intros k Hk; rewrite R8 by exact Hk; apply gob_upd_ne; auto|].
    split; [rewrite R9, G1; reflexivity|rewrite R10, G1; reflexivity].
Qed.
End WithEnv.
