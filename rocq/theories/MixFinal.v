(** * MixFinal: levelling groups of intervals beside groups of points. *)
From Verif Require Import TidyFinal LevelFinal CleanFinal RefillFinal PopFinal OwnFinal ClassFinal PointFinal RelateFinal WeaveFinal ReadClasses TripFinal ReadMade ReadFinal UnevenFinal.
From Verif Require Import WidenSpec WidenFinal MixSpec.
Open Scope Z_scope.

Section WithEnv.
Context `{Env}.
Opaque span_of.

(** ** A group of points says the same after its surroundings changed *)
Definition moved {A} (h' : heap) (r : res A) : res A := match r with Ok v _ => Ok v h' | Raise e _ => Raise e h' end.
Lemma np_moved f l h h' : np_ext f l h' = moved h' (np_ext f l h).
Proof. unfold np_ext. destruct l as [|x [|y l]]; try reflexivity. destruct (all_some _) as [[|z r]|]; reflexivity. Qed.
Lemma np_keeps f l h : np_ext f l h = moved h (np_ext f l h).
Proof. apply np_moved. Qed.
Definition same_tier (h h' : heap) (t : tid) : Prop :=
  tob h' t = tob h t /\ forall x, In x (t_seq (tob h t)) -> s_start (sob h' x) = s_start (sob h x).
Lemma starts_moved h h' t : same_tier h h' t -> tstarts h' t = tstarts h t.
Proof.
  intros [T X]. unfold tstarts. rewrite T. unfold starts_of. apply map_ext_in. intros x Hx. unfold start_of. apply X, Hx.
Qed.
Lemma xmin_moved h h' t : same_tier h h' t -> tier_xmin t h' = moved h' (tier_xmin t h).
Proof. intros Q. unfold tier_xmin. rewrite (starts_moved h h' t Q). destruct (tstarts h t); [reflexivity|apply np_moved]. Qed.
Lemma xmin_keeps h t : tier_xmin t h = moved h (tier_xmin t h).
Proof. apply xmin_moved. split; auto. Qed.
Lemma all_moved h h' ts : (forall t, In t ts -> same_tier h h' t) -> mapM tier_xmin ts h' = moved h' (mapM tier_xmin ts h) /\ mapM tier_xmin ts h = moved h (mapM tier_xmin ts h).
Proof.
  induction ts as [|t ts IH]; intros Q; [split; reflexivity|]. destruct IH as [I1 I2]; [intros u Hu; apply Q; simpl; auto|]. pose proof (xmin_moved h h' t (Q t (or_introl eq_refl))) as X. pose proof (xmin_keeps h t) as Y.
  cbn [mapM]. unfold bind. rewrite X. destruct (tier_xmin t h) as [v k|e k]; cbn [moved] in *; [injection Y as ->; rewrite I1|injection Y as ->; split; reflexivity].
  destruct (mapM tier_xmin ts h) as [w k|e k]; cbn [moved] in *; injection I2 as ->; split; reflexivity.
Qed.
Lemma ends_moved h h' g v : g_points (gob h g) = true -> gob h' g = gob h g -> (forall t, In t (g_tiers (gob h g)) -> same_tier h h' t) ->
  (grp_xmin g h = Ok v h -> grp_xmin g h' = Ok v h') /\ (grp_xmax g h = Ok v h -> grp_xmax g h' = Ok v h').
Proof.
  intros P G Q. unfold grp_xmin, grp_xmax. rewrite !bind_get_grp, G, P. destruct (all_moved h h' _ Q) as [I1 I2]. unfold bind. rewrite I1.
  destruct (mapM tier_xmin (g_tiers (gob h g)) h) as [l k|e k]; cbn [moved] in *; [|split; discriminate]. injection I2 as ->.
  split; intros R; rewrite (np_moved _ l h h'), R; reflexivity.
Qed.
(** [spots]: like [points_at], with the tiers of the intervals listed. *)
Definition spots (h : heap) (T : list tid) (p q : Z) (g : gid) : Prop :=
  g_points (gob h g) = true /\ g_tiers (gob h g) <> [] /\
  grp_xmin g h = Ok (Some p) h /\ grp_xmax g h = Ok (Some q) h /\
  forall t, In t (g_tiers (gob h g)) ->
    issubclass h (t_ec (tob h t)) cPoint = true /\ issubclass h (t_ec (tob h t)) cInterval = false /\
    ~ In t T /\ forall x, In x (t_seq (tob h t)) -> live h x.
Lemma spots_moved h h' T p q g : h_cls h' = h_cls h -> gob h' g = gob h g -> (forall t, ~ In t T -> tob h' t = tob h t) ->
  (List.length (h_seq h) <= List.length (h_seq h'))%nat -> (forall i, live h i -> s_start (sob h' i) = s_start (sob h i)) ->
  spots h T p q g -> spots h' T p q g.
Proof.
  intros C G To L St (P & N & X & Y & Ts).
  assert (Q : forall t, In t (g_tiers (gob h g)) -> same_tier h h' t) by (intros t Ht; destruct (Ts t Ht) as (_ & _ & Nt & Lv); split; [apply To, Nt|intros x Hx; apply St, Lv, Hx]).
  destruct (ends_moved h h' g (Some p) P G Q) as [X' _]. destruct (ends_moved h h' g (Some q) P G Q) as [_ Y']. unfold spots. rewrite G.
  split; [exact P|]. split; [exact N|]. split; [auto|]. split; [auto|]. intros t Ht. destruct (Ts t Ht) as (A & B & D & E). rewrite (To t D). rewrite !(issubclass_ext h h') by exact C.
  split; [exact A|]. split; [exact B|]. split; [exact D|]. intros x Hx. pose proof (E x Hx). unfold live in *. lia.
Qed.
Lemma spots_widened T h h' p q g : widened T h h' -> spots h T p q g -> spots h' T p q g.
Proof.
  intros W. pose proof (wd_rest _ _ _ W) as (C & G & _). apply spots_moved; auto; [unfold gob; rewrite G; reflexivity|apply (wd_out _ _ _ W)|apply (wd_len _ _ _ W)|].
  intros i Hi. apply (wd_obj _ _ _ W i Hi).
Qed.
(** There is no blank point. *)
Lemma no_blank n h T p q g s e : spots h T p q g -> blank_column n g s e h = Raise ValueError h.
Proof.
  intros (_ & N & _ & _ & Ts). unfold blank_column. rewrite bind_get_grp, bind_gets. destruct (g_tiers (gob h g)) as [|t ts]; [congruence|]. destruct (Ts t (or_introl eq_refl)) as (A & B & _).
  cbn [map mapM]. unfold construct3 at 1. unfold bind at 1 2. rewrite bind_gets, bind_gets, B, A. reflexivity.
Qed.

(** ** The loops go over the groups of points as well *)
Lemma mixed_loop (front : bool) n (lo hi edge a b P Q ed : gid -> Z) ref (body : gid -> M unit) (iv : gid -> bool) T :
  (forall g h, rows h (lo g) (hi g) g -> body g h = if isclose (edge g) ref then Ok tt h else blank_column (S n) g (Some (a g)) (Some (b g)) h) ->
  (forall g h, spots h T (P g) (Q g) g -> body g h = if isclose (ed g) ref then Ok tt h else Raise ValueError h) ->
  forall gs h, (forall g, In g (List.filter iv gs) -> ~ near (edge g) ref -> if front then a g < lo g /\ b g = lo g else a g = hi g) ->
  NoDup (flat_map (tiers_in h) (List.filter iv gs)) -> incl (flat_map (tiers_in h) (List.filter iv gs)) T ->
  (forall g, In g (List.filter iv gs) -> rows h (lo g) (hi g) g) ->
  (forall g, In g gs -> iv g = false -> spots h T (P g) (Q g) g) ->
  if forallb (fun g => iv g || isclose (ed g) ref)%bool gs then forM gs body h = forM (List.filter iv gs) body h
  else exists h', forM gs body h = Raise ValueError h'.
Proof.
  intros Bd Bp. induction gs as [|g gs IH]; intros h Sd Nd Inc R Pt; [reflexivity|].
  cbn [forallb List.filter] in *. destruct (iv g) eqn:Ei; cbn [orb andb].
  - cbn [flat_map] in Nd, Inc. apply NoDup_app in Nd. destruct Nd as (N1 & N2 & N3).
    destruct (level_loop front n lo hi edge a b ref body Bd [g] h) as (h1 & E1 & W1 & _).
    { intros k [<-|[]]. apply Sd. simpl; auto. }
    { cbn [flat_map]. rewrite app_nil_r. exact N1. }
    { intros k [<-|[]]. apply R. simpl; auto. }
    cbn [flat_map] in W1. rewrite app_nil_r in W1. cbn [forM] in E1.
    assert (E1' : body g h = Ok tt h1) by (unfold bind, ret in E1; destruct (body g h) as [[] k|]; [exact E1|discriminate]). clear E1.
    pose proof (wd_rest _ _ _ W1) as (_ & Gk & _). assert (Go : forall k, gob h1 k = gob h k) by (intros k; unfold gob; rewrite Gk; reflexivity).
    assert (Tg : flat_map (tiers_in h1) (List.filter iv gs) = flat_map (tiers_in h) (List.filter iv gs)) by (apply flat_map_ext; intros k; unfold tiers_in; rewrite Go; reflexivity).
    assert (WT : widened T h h1) by (apply (widened_more (tiers_in h g)); [intros u Hu; apply Inc, in_or_app; auto|exact W1]).
    specialize (IH h1). cbn [forM]. rewrite !(bind_ok _ _ _ _ _ E1'). apply IH.
    + intros k Hk. apply Sd. simpl; auto.
    + rewrite Tg. exact N3.
    + rewrite Tg. intros u Hu. apply Inc, in_or_app. auto.
    + intros k Hk. destruct (R k (or_intror Hk)) as (Q1 & Q2 & Q3 & Q4). unfold rows. rewrite Go. split; [exact Q1|]. split; [exact Q2|]. split; [exact Q3|]. intros u Hu.
      apply (row_same (tiers_in h g) h h1); auto. intros Z. apply (N2 u); [apply elem_of_list_In; exact Z|apply elem_of_list_In, in_flat_map; exists k; auto].
    + intros k Hk Hi. apply (spots_widened T h h1); [exact WT|]. apply Pt; [simpl; auto|exact Hi].
  - pose proof (Bp g h (Pt g (or_introl eq_refl) Ei)) as Bg. destruct (isclose (ed g) ref); cbn [andb].
    + specialize (IH h Sd Nd Inc R (fun k Hk => Pt k (or_intror Hk))). cbn [forM]. rewrite (bind_ok _ _ _ _ _ Bg). exact IH.
    + exists h. cbn [forM]. unfold bind. rewrite Bg. reflexivity.
Qed.
Lemma mix_stage : forall n h a lo hi pm px s0 s1 e0 e1,
  let gs := interval_groups h a in
  (forall g, In g gs -> fill_ready (S n) h (lo g) (hi g) g) -> apart_groups h gs ->
  (forall g, In g (a_groups (aob h a)) -> g_points (gob h g) = true -> points_at h gs (pm g) (px g) g) ->
  least (fun z => exists g, In g gs /\ lo g = z) s0 -> greatest (fun z => exists g, In g gs /\ lo g = z) s1 ->
  least (fun z => exists g, In g gs /\ hi g = z) e0 -> greatest (fun z => exists g, In g gs /\ hi g = z) e1 ->
  ~ (near s0 s1 /\ near e0 e1) ->
  exists h1 h', (if (forallb (fun g => negb (g_points (gob h g)) || isclose (pm g) s0) (a_groups (aob h a)) && forallb (fun g => negb (g_points (gob h g)) || isclose (px g) s1) (a_groups (aob h a)))%bool
      then grid_cleanup (S n) a h = Ok tt h' else exists k, grid_cleanup (S n) a h = Raise ValueError k) /\
    (forall g, In g gs -> tidied h h1 g) /\ rest_kept h h1 gs (flat_map (tiers_in h) gs) /\
    (forall g u, In g gs -> In u (g_tiers (gob h g)) -> levelled s0 s1 e1 (lo g) (hi g) h1 h' u) /\
    level_rest h1 h' gs (flat_map (tiers_in h) gs) /\ level_rest h h' gs (flat_map (tiers_in h) gs) /\ (forall g, In g gs -> rows h1 (lo g) (hi g) g /\ g_tiers (gob h1 g) = g_tiers (gob h g)).
Proof.
  intros n h a lo hi pm px s0 s1 e0 e1 gs K Ap Pts S0 S1 E0 E1 Un. set (al := a_groups (aob h a)) in *.
  assert (Pn : forall g, In g gs -> g_points (gob h g) = false) by (intros g Hg; destruct (K g Hg) as (((bss & (_ & Q & _)) & _) & _); exact Q).
  assert (Iv : ivs_of h al = gs) by reflexivity.
  destruct (tidy_groups (S n) lo hi al h) as (h1 & R1 & T & Ap1 & Rk).
  { intros g Hg. destruct (g_points (gob h g)) eqn:Ep; [left; reflexivity|right]. apply (K g). apply filter_In. rewrite Ep. auto. }
  { rewrite Iv. exact Ap. }
  rewrite Iv in T, Ap1, Rk. pose proof Rk as (A1 & A2 & A3 & A4 & A5 & A6 & A7 & A8 & A9 & A10 & A11). set (TT := flat_map (tiers_in h) gs) in *.
  assert (Gt : forall g, In g gs -> g_tiers (gob h1 g) = g_tiers (gob h g) /\ g_points (gob h1 g) = false) by (intros g Hg; destruct (T g Hg) as ((bss & (_ & Q1 & Q2 & _)) & _); auto).
  destruct Ap as (Na & Nb & Nc).
  assert (Rw : forall g, In g gs -> rows h1 (lo g) (hi g) g).
  { intros g Hg. destruct (K g Hg) as (Rd & Cl). pose proof Rd as (Gd & t & Ht & _ & Ra & _). pose proof (T g Hg) as Tg. destruct Tg as ((bss & G) & _).
    assert (Ec : forall u, In u (g_tiers (gob h g)) -> t_ec (tob h1 u) = t_ec (tob h u)) by (intros u Hu; apply A1, in_flat_map; exists g; auto).
    apply (bound_rows h1 g (g_tiers (gob h g)) bss t); auto.
    - apply (tidied_bounded (S n) h h1 (lo g) (hi g) g Rd (T g Hg)); [|exact Ht]. intros i Hi. destruct (A4 i Hi) as (_ & Q1 & Q2 & _). auto.
    - intros u Hu. destruct (Cl u Hu) as [C1 C2]. split; [apply (tidied_classed h h1 g Gd (T g Hg) u Hu (Ec u Hu) C1)|]. rewrite (Ec u Hu), (issubclass_ext h h1) by exact A10. exact C2.
    - clear -Nb Hg. induction gs as [|k gs IH]; [destruct Hg|]. cbn [flat_map] in Nb. apply NoDup_app in Nb. destruct Nb as (N1 & _ & N2). destruct Hg as [->|Hg]; [exact N1|auto]. }
  assert (Ft : flat_map (tiers_in h1) gs = TT).
  { unfold TT. clear -Gt. induction gs as [|g gs IH]; [reflexivity|]. cbn [flat_map]. f_equal; [unfold tiers_in; apply Gt; simpl; auto|apply IH; intros k Hk; apply Gt; simpl; auto]. }
  assert (Sp : forall g, In g al -> g_points (gob h g) = true -> spots h1 TT (pm g) (px g) g).
  { intros g Hg Ep. assert (Ng : ~ In g gs) by (intros Z; rewrite (Pn g Z) in Ep; discriminate). destruct (Pts g Hg Ep) as (B1 & B2 & B3 & B4 & B5).
    apply (spots_moved h h1); auto; [intros i Hi; apply (A4 i Hi)|]. split; [exact B1|]. split; [exact B2|]. split; [exact B3|]. split; [exact B4|]. intros t Ht. destruct (B5 t Ht) as (D1 & D2 & D3 & D4).
    split; [exact D1|]. split; [exact D2|]. split; [|exact D4]. intros Z. apply in_flat_map in Z. destruct Z as (k & Hk & Z). apply (D3 k Hk Z). }
  set (iv := fun g => negb (g_points (gob h g))). assert (Fi : List.filter iv al = gs) by reflexivity.
  set (F := fun g => x <- grp_xmin g ;; c <- close_opt x (Some s0) ;; if (c : bool) then ret tt else blank_column (S n) g (Some s0) x).
  assert (F1 : forall g k, rows k (lo g) (hi g) g -> F g k = if isclose (lo g) s0 then Ok tt k else blank_column (S n) g (Some s0) (Some (lo g)) k).
  { intros g k (Q1 & Q2 & Q3 & Q4). destruct (row_ends k g (lo g) (hi g) Q1 Q2 Q4) as [X _]. unfold F. rewrite (bind_ok _ _ _ _ _ X), (bind_ok _ _ _ _ _ (close_known _ _ _)).
    destruct (isclose (lo g) s0); reflexivity. }
  assert (F2 : forall g, In g gs -> ~ near (lo g) s0 -> s0 < lo g /\ lo g = lo g).
  { intros g Hg Nn. split; [|reflexivity]. destruct S0 as [_ S0]. pose proof (S0 (lo g) (ex_intro _ g (conj Hg eq_refl))).
    destruct (Z.eq_dec s0 (lo g)) as [Q|]; [|lia]. exfalso. apply Nn. rewrite Q. unfold near. pose proof atol_nonneg. rewrite Z.sub_diag. lia. }
  assert (M1 : if forallb (fun g => iv g || isclose (pm g) s0)%bool al then forM al F h1 = forM gs F h1 else exists k, forM al F h1 = Raise ValueError k).
  { rewrite <- Fi. apply (mixed_loop true n lo hi lo (fun _ => s0) lo pm px pm s0 F iv TT); rewrite ?Fi.
    - exact F1.
    - intros g k Sg. pose proof Sg as (_ & _ & X & _). unfold F. rewrite (bind_ok _ _ _ _ _ X), (bind_ok _ _ _ _ _ (close_known _ _ _)). destruct (isclose (pm g) s0); [reflexivity|]. apply (no_blank _ _ _ _ _ _ _ _ Sg).
    - exact F2.
    - rewrite Ft. exact Nb.
    - rewrite Ft. intros u Hu; exact Hu.
    - exact Rw.
    - intros g Hg Hi. apply Sp; [exact Hg|]. unfold iv in Hi. destruct (g_points (gob h g)); [reflexivity|discriminate]. }
  destruct (level_loop true n lo hi lo (fun _ => s0) lo s0 F) with (gs := gs) (h := h1) as (h2 & R2 & W2 & C2).
  { exact F1. }
  { exact F2. }
  { rewrite Ft. exact Nb. }
  { exact Rw. }
  rewrite Ft in W2. pose proof (wd_rest _ _ _ W2) as (_ & Gk2 & _). assert (Go2 : forall k, gob h2 k = gob h1 k) by (intros k; unfold gob; rewrite Gk2; reflexivity).
  set (lo' := fun g => if isclose (lo g) s0 then lo g else s0).
  set (B := fun g => x <- grp_xmax g ;; c <- close_opt x (Some s1) ;; if (c : bool) then ret tt else emax <- np_ext Z.max (map Some (map hi gs)) ;; blank_column (S n) g x emax).
  assert (B1 : forall g k, rows k (lo' g) (hi g) g -> B g k = if isclose (hi g) s1 then Ok tt k else blank_column (S n) g (Some (hi g)) (Some e1) k).
  { intros g k (Q1 & Q2 & Q3 & Q4). destruct (row_ends k g (lo' g) (hi g) Q1 Q2 Q4) as [_ X]. unfold B. rewrite (bind_ok _ _ _ _ _ X), (bind_ok _ _ _ _ _ (close_known _ _ _)).
    destruct (isclose (hi g) s1); [reflexivity|]. rewrite (bind_ok _ _ _ _ _ (highest hi gs k e1 E1)). reflexivity. }
  assert (B2 : forall g, In g gs -> rows h2 (lo' g) (hi g) g).
  { intros g Hg. destruct (Rw g Hg) as (Q1 & Q2 & Q3 & Q4). unfold rows. rewrite Go2. split; [exact Q1|]. split; [exact Q2|]. split; [exact Q3|]. intros u Hu.
    destruct (C2 g u Hg Hu) as (Cu & l & L1 & L2). apply (row_front TT h1 h2 u (lo g) (hi g) s0 l (Q4 u Hu) W2 Cu L1 L2). destruct S0 as [_ S0]. apply (S0 (lo g)). eauto. }
  assert (Ft2 : flat_map (tiers_in h2) gs = TT) by (rewrite (flat_map_ext _ (tiers_in h1)), Ft; [reflexivity|]; intros k; unfold tiers_in; rewrite Go2; reflexivity).
  assert (M2 : if forallb (fun g => iv g || isclose (px g) s1)%bool al then forM al B h2 = forM gs B h2 else exists k, forM al B h2 = Raise ValueError k).
  { rewrite <- Fi. apply (mixed_loop false n lo' hi hi hi (fun _ => e1) pm px px s1 B iv TT); rewrite ?Fi.
    - exact B1.
    - intros g k Sg. pose proof Sg as (_ & _ & _ & X & _). unfold B. rewrite (bind_ok _ _ _ _ _ X), (bind_ok _ _ _ _ _ (close_known _ _ _)). destruct (isclose (px g) s1); [reflexivity|].
      rewrite (bind_ok _ _ _ _ _ (highest hi gs k e1 E1)). apply (no_blank _ _ _ _ _ _ _ _ Sg).
    - intros; reflexivity.
    - rewrite Ft2. exact Nb.
    - rewrite Ft2. intros u Hu; exact Hu.
    - exact B2.
    - intros g Hg Hi. apply (spots_widened TT h1 h2); [exact W2|]. apply Sp; [exact Hg|]. unfold iv in Hi. destruct (g_points (gob h g)); [reflexivity|discriminate]. }
  destruct (level_loop false n lo' hi hi hi (fun _ => e1) s1 B) with (gs := gs) (h := h2) as (h3 & R3 & W3 & C3).
  { exact B1. }
  { intros; reflexivity. }
  { rewrite Ft2. exact Nb. }
  { exact B2. }
  rewrite Ft2 in W3. exists h1, h3. split; [|split; [exact T|split; [exact Rk|split; [|split; [|split]]]]].
  - assert (Gc : grid_cleanup (S n) a h = (forM al F ;;; forM al B) h1).
    { unfold grid_cleanup. change (get_grid a) with (gets (fun h => aob h a)). rewrite bind_gets. fold al. rewrite (bind_ok _ _ _ _ _ R1). rewrite bind_gets.
    assert (Iv1 : List.filter (fun g => negb (g_points (gob h1 g))) al = gs).
    { unfold gs, interval_groups. apply filter_ext_in. intros g Hg. destruct (g_points (gob h g)) eqn:Ep; [destruct (Sp g Hg Ep) as (-> & _); reflexivity|].
      destruct (Gt g) as [_ ->]; [apply filter_In; rewrite Ep; auto|reflexivity]. }
    rewrite Iv1.
    assert (Ex : forall g, In g gs -> grp_xmin g h1 = Ok (Some (lo g)) h1 /\ grp_xmax g h1 = Ok (Some (hi g)) h1) by (intros g Hg; destruct (Rw g Hg) as (Q1 & Q2 & Q3 & Q4); apply row_ends; auto).
    rewrite (bind_ok _ _ _ _ _ (mapM_known grp_xmin lo h1 gs (fun g Hg => proj1 (Ex g Hg)))), (bind_ok _ _ _ _ _ (mapM_known grp_xmax hi h1 gs (fun g Hg => proj2 (Ex g Hg)))).
    rewrite (bind_ok _ _ _ _ _ (lowest lo gs h1 s0 S0)), (bind_ok _ _ _ _ _ (highest lo gs h1 s1 S1)), (bind_ok _ _ _ _ _ (close_known _ _ _)).
    rewrite (bind_ok _ _ _ false h1); [reflexivity|].
    destruct (isclose s0 s1) eqn:I1; [|reflexivity]. rewrite (bind_ok _ _ _ _ _ (lowest hi gs h1 e0 E0)), (bind_ok _ _ _ _ _ (highest hi gs h1 e1 E1)), close_known.
    destruct (isclose e0 e1) eqn:I2; [|reflexivity]. exfalso. apply Un. split; apply isclose_spec; assumption. }
    rewrite Gc. change (forallb (fun g => negb (g_points (gob h g)) || isclose (pm g) s0)%bool al) with (forallb (fun g => iv g || isclose (pm g) s0)%bool al).
    change (forallb (fun g => negb (g_points (gob h g)) || isclose (px g) s1)%bool al) with (forallb (fun g => iv g || isclose (px g) s1)%bool al).
    destruct (forallb (fun g => iv g || isclose (pm g) s0)%bool al); cbn [andb].
    + rewrite R2 in M1. rewrite (bind_ok _ _ _ _ _ M1). destruct (forallb (fun g => iv g || isclose (px g) s1)%bool al); [rewrite M2; exact R3|exact M2].
    + destruct M1 as (k & M1). exists k. unfold bind. rewrite M1. reflexivity.
  - intros g u Hg Hu. destruct (C2 g u Hg) as (_ & l & L1 & L2); [rewrite (proj1 (Gt g Hg)); exact Hu|]. clear M1 M2. destruct (C3 g u Hg) as (_ & m & M1 & M2); [rewrite Go2, (proj1 (Gt g Hg)); exact Hu|].
    destruct (wd_tier _ _ _ W2 u) as (Ec & _). rewrite Ec in M2. exists l, m. split; [rewrite M1, L1, app_assoc; reflexivity|]. split.
    + apply (unless_later h1 h2 h3); [apply (wd_len _ _ _ W3)|apply (wd_obj _ _ _ W3)|exact L2].
    + apply (unless_earlier h1 h2 h3); [apply (wd_len _ _ _ W2)|exact M2].
  - pose proof (widened_trans TT h1 h2 h3 W2 W3) as [(Wc & Wh & Wg & Wl) Wo Wt Wn Wobj _ _ Ws]. unfold level_rest.
    split; [congruence|]. split; [congruence|]. split.
    { intros g. assert (gob h3 g = gob h1 g) as -> by (unfold gob; rewrite Wh; reflexivity). auto. }
    split; [intros g Hg; unfold gob; rewrite Wh; reflexivity|]. split; [congruence|]. split; [lia|].
    split; [congruence|]. split; [exact Wo|]. split; [exact Wt|]. split.
    + intros i Hi. destruct (Wobj i) as (P1 & P2 & P3 & P4 & P5 & P6 & _); [exact Hi|]. repeat split; congruence.
    + intros i Hi Ni. apply (Ws i); [exact Hi|]. intros u Hu. apply Ni, Hu.
  - pose proof (widened_trans TT h1 h2 h3 W2 W3) as [(Wc & Wh & Wg & Wl) Wo Wt Wn Wobj _ _ Ws]. unfold level_rest.
    split; [congruence|]. split; [congruence|]. split.
    { intros g. assert (gob h3 g = gob h1 g) as -> by (unfold gob; rewrite Wh; reflexivity). destruct (in_dec Nat.eq_dec g gs) as [I|I]; [destruct (Gt g I); rewrite (Pn g I), (A9 g I); auto|rewrite (A8 g I); auto]. }
    split; [intros g Hg; rewrite <- (A8 g Hg); unfold gob; rewrite Wh; reflexivity|]. split; [congruence|]. split; [lia|].
    split; [congruence|]. split; [intros t Ht; rewrite (Wo t Ht); apply A2, Ht|]. split.
    { intros t. destruct (Wt t) as (-> & -> & -> & -> & ->). destruct (in_dec Nat.eq_dec t TT) as [I|I]; [apply A1, I|rewrite (A2 t I); auto]. }
    split.
    + intros i Hi. destruct (A4 i Hi) as (Q1 & Q2 & Q3 & Q4 & _ & Q5 & Q6). destruct (Wobj i) as (P1 & P2 & P3 & P4 & P5 & P6 & _); [unfold live; lia|]. repeat split; congruence.
    + intros i Hi Ni. rewrite (Ws i); [apply A5; auto|unfold live; lia|]. intros u Hu Q. apply (Ni u Hu). apply in_flat_map in Hu. destruct Hu as (g & Hg & Hu).
      destruct (K g Hg) as (((bss & G) & _) & _). apply (tidied_old h h1 g _ bss u i G eq_refl (T g Hg) Hu Q Hi).
  - intros g Hg. split; [apply Rw, Hg|apply (Gt g Hg)].
Qed.
(** ** The two outcomes *)
Lemma both_near h (gs : list gid) (pm px : gid -> Z) s0 s1 :
  if (forallb (fun g => negb (g_points (gob h g)) || isclose (pm g) s0) gs && forallb (fun g => negb (g_points (gob h g)) || isclose (px g) s1) gs)%bool
  then forall g, In g gs -> g_points (gob h g) = true -> near (pm g) s0 /\ near (px g) s1
  else exists g, In g gs /\ g_points (gob h g) = true /\ ~ (near (pm g) s0 /\ near (px g) s1).
Proof.
  induction gs as [|g gs IH]; [intros g []|]. cbn [forallb]. destruct (g_points (gob h g)) eqn:Ep; cbn [negb orb andb].
  - destruct (isclose (pm g) s0) eqn:X1; cbn [andb].
    + destruct (isclose (px g) s1) eqn:X2; cbn [andb].
      * destruct (_ && _)%bool; [|destruct IH as (k & Hk & Q); exists k; split; [right; exact Hk|exact Q]].
        intros k [<-|Hk] Q; [split; apply isclose_spec; assumption|apply IH; auto].
      * rewrite andb_false_r. exists g. split; [left; reflexivity|]. split; [exact Ep|]. intros [_ N]. apply isclose_spec in N. congruence.
    + exists g. split; [left; reflexivity|]. split; [exact Ep|]. intros [N _]. apply isclose_spec in N. congruence.
  - destruct (_ && _)%bool; [|destruct IH as (k & Hk & Q); exists k; split; [right; exact Hk|exact Q]].
    intros k [<-|Hk] Q; [congruence|apply IH; auto].
Qed.
Lemma c78_levelled : forall n h a lo hi pm px s0 s1 e0 e1,
  let gs := interval_groups h a in
  (forall g, In g gs -> fill_ready (S n) h (lo g) (hi g) g) -> apart_groups h gs ->
  (forall g, In g (a_groups (aob h a)) -> g_points (gob h g) = true -> points_at h gs (pm g) (px g) g) ->
  least (fun z => exists g, In g gs /\ lo g = z) s0 -> greatest (fun z => exists g, In g gs /\ lo g = z) s1 ->
  least (fun z => exists g, In g gs /\ hi g = z) e0 -> greatest (fun z => exists g, In g gs /\ hi g = z) e1 ->
  ~ (near s0 s1 /\ near e0 e1) ->
  (forall g, In g (a_groups (aob h a)) -> g_points (gob h g) = true -> near (pm g) s0 /\ near (px g) s1) ->
  exists h1 h', grid_cleanup (S n) a h = Ok tt h' /\
    (forall g, In g gs -> tidied h h1 g) /\ rest_kept h h1 gs (flat_map (tiers_in h) gs) /\
    (forall g u, In g gs -> In u (g_tiers (gob h g)) -> levelled s0 s1 e1 (lo g) (hi g) h1 h' u) /\
    level_rest h1 h' gs (flat_map (tiers_in h) gs).
Proof.
  intros n h a lo hi pm px s0 s1 e0 e1 gs K Ap Pt S0 S1 E0 E1 Un Nr. destruct (mix_stage n h a lo hi pm px s0 s1 e0 e1 K Ap Pt S0 S1 E0 E1 Un) as (h1 & h' & R & T & Rk & Lv & Lr & _).
  pose proof (both_near h (a_groups (aob h a)) pm px s0 s1) as B. destruct (_ && _)%bool; [exists h1, h'; auto|]. destruct B as (g & Hg & Ep & B). exfalso. apply B, Nr; assumption.
Qed.
Lemma c78_ends : forall n h a lo hi pm px s0 s1 e0 e1,
  let gs := interval_groups h a in
  (forall g, In g gs -> fill_ready (S n) h (lo g) (hi g) g) -> apart_groups h gs ->
  (forall g, In g (a_groups (aob h a)) -> g_points (gob h g) = true -> points_at h gs (pm g) (px g) g) ->
  least (fun z => exists g, In g gs /\ lo g = z) s0 -> greatest (fun z => exists g, In g gs /\ lo g = z) s1 ->
  least (fun z => exists g, In g gs /\ hi g = z) e0 -> greatest (fun z => exists g, In g gs /\ hi g = z) e1 ->
  ~ (near s0 s1 /\ near e0 e1) ->
  (forall g, In g (a_groups (aob h a)) -> g_points (gob h g) = true -> near (pm g) s0 /\ near (px g) s1) ->
  exists h', grid_cleanup (S n) a h = Ok tt h' /\ forall g, In g gs -> exists z w,
    grp_xmin g h' = Ok (Some z) h' /\ (z = s0 \/ near (lo g) s0 /\ z = lo g) /\ grp_xmax g h' = Ok (Some w) h' /\ (w = e1 \/ near (hi g) s1 /\ w = hi g).
Proof.
  intros n h a lo hi pm px s0 s1 e0 e1 gs K Ap Pt S0 S1 E0 E1 Un Nr. destruct (mix_stage n h a lo hi pm px s0 s1 e0 e1 K Ap Pt S0 S1 E0 E1 Un) as (h1 & h' & R & _ & _ & Lv & (L1 & L2 & L3 & _ & _ & _ & L4 & L5 & L6 & L7 & L8) & _ & Rw1).
  pose proof (both_near h (a_groups (aob h a)) pm px s0 s1) as B. destruct (_ && _)%bool; [clear B|destruct B as (g & Hg & Ep & B); exfalso; apply B, Nr; assumption].
  exists h'. split; [exact R|]. fold gs in Lv, L5, L8, Rw1. assert (Pk : forall k, g_points (gob h' k) = g_points (gob h1 k)) by (intros k; apply L3). assert (L3' : forall k, g_tiers (gob h' k) = g_tiers (gob h1 k)) by (intros k; apply L3). clear L3. rename L3' into L3.
  intros g Hg. destruct (Rw1 g Hg) as ((Gp & Ne & _ & Rw) & Gt).
  assert (Le : lo g <= hi g /\ s0 <= lo g /\ hi g <= e1).
  { split; [|split; [apply (proj2 S0); eauto|apply (proj2 E1); eauto]]. destruct (g_tiers (gob h1 g)) as [|u r] eqn:Eg; [congruence|]. destruct (Rw u (or_introl eq_refl)) as [_ _ _ _ _ _ Rt _ (x & Hx & _) _].
    destruct (Rt x Hx) as (s & e & _ & _ & Q). lia. }
  exists (if isclose (lo g) s0 then lo g else s0), (if isclose (hi g) s1 then hi g else e1).
  assert (Q : grp_xmin g h' = Ok (Some (if isclose (lo g) s0 then lo g else s0)) h' /\ grp_xmax g h' = Ok (Some (if isclose (hi g) s1 then hi g else e1)) h').
  { apply spread_ends; [rewrite Pk; exact Gp|rewrite L3; exact Ne|]. rewrite L3. intros u Hu. destruct (Lv g u Hg ltac:(rewrite <- Gt; exact Hu)) as (front & back & Sq & Fr & Bk). destruct (Rw u Hu) as [_ _ Np _ _ (_ & Lk) Rt _ (p & P1 & P2) (q & Q1 & Q2)].
    assert (Ip : forall x, s_cls (sob h' x) = t_ec (tob h1 u) -> is_point h' x = false) by (intros x Q; unfold is_point, is_point_cls; rewrite Q, (issubclass_ext h1 h') by exact L1; exact Np).
    assert (Fr' : isclose (lo g) s0 = true /\ front = [] \/ isclose (lo g) s0 = false /\ exists x, front = [x] /\ blank_at h' (t_ec (tob h1 u)) x s0 (lo g)).
    { destruct Fr as [[Q ->]|(Q & x & -> & _ & X)]; [left; split; [apply isclose_spec, Q|reflexivity]|right; split; [|eauto]]. destruct (isclose (lo g) s0) eqn:I; [exfalso; apply Q, isclose_spec, I|reflexivity]. }
    assert (Bk' : isclose (hi g) s1 = true /\ back = [] \/ isclose (hi g) s1 = false /\ exists x, back = [x] /\ blank_at h' (t_ec (tob h1 u)) x (hi g) e1).
    { destruct Bk as [[Q ->]|(Q & x & -> & _ & X)]; [left; split; [apply isclose_spec, Q|reflexivity]|right; split; [|eauto]]. destruct (isclose (hi g) s1) eqn:I; [exfalso; apply Q, isclose_spec, I|reflexivity]. }
    assert (B1 : forall x, In x front -> s_cls (sob h' x) = t_ec (tob h1 u) /\ s_start (sob h' x) = Some s0 /\ s_end (sob h' x) = Some (lo g) /\ isclose (lo g) s0 = false).
    { intros x Hx. destruct Fr' as [[_ ->]|(Q & y & -> & (X1 & X2 & X3 & _))]; [destruct Hx|]. destruct Hx as [<-|[]]. auto. }
    assert (B2 : forall x, In x back -> s_cls (sob h' x) = t_ec (tob h1 u) /\ s_start (sob h' x) = Some (hi g) /\ s_end (sob h' x) = Some e1 /\ isclose (hi g) s1 = false).
    { intros x Hx. destruct Bk' as [[_ ->]|(Q & y & -> & (X1 & X2 & X3 & _))]; [destruct Hx|]. destruct Hx as [<-|[]]. auto. }
    unfold LevelFinal.spread. rewrite Sq. split; [|split].
    - intros x Hx. rewrite !in_app_iff in Hx. destruct Hx as [Hx|[Hx|Hx]].
      + destruct (B1 x Hx) as (C1 & C2 & C3 & C4). split; [auto|]. exists s0, (lo g). rewrite C4. split; [exact C2|]. split; [exact C3|]. destruct (isclose (hi g) s1); lia.
      + destruct (Lk x Hx) as (Lx & Cx & _). destruct (L7 x Lx) as (D1 & D2 & D3 & _). split; [apply Ip; congruence|]. destruct (Rt x Hx) as (s & e & R1 & R2 & R3 & R4 & R5). exists s, e. rewrite D2, D3.
        split; [exact R1|]. split; [exact R2|]. destruct (isclose (lo g) s0), (isclose (hi g) s1); lia.
      + destruct (B2 x Hx) as (C1 & C2 & C3 & C4). split; [auto|]. exists (hi g), e1. rewrite C4. split; [exact C2|]. split; [exact C3|]. destruct (isclose (lo g) s0); lia.
    - destruct Fr' as [[-> ->]|(-> & y & -> & (_ & X & _))]; [exists p|exists y]; rewrite ?in_app_iff; [|simpl; auto]. destruct (L7 p (proj1 (Lk p P1))) as (_ & -> & _). auto.
    - destruct Bk' as [[-> ->]|(-> & y & -> & (_ & _ & X & _))]; [exists q|exists y]; rewrite ?in_app_iff; [|simpl; auto]. destruct (L7 q (proj1 (Lk q Q1))) as (_ & _ & -> & _). auto. }
  destruct Q as [Q1 Q2]. split; [exact Q1|]. split.
  - destruct (isclose (lo g) s0) eqn:I; [right; split; [apply isclose_spec, I|reflexivity]|auto].
  - split; [exact Q2|]. destruct (isclose (hi g) s1) eqn:I; [right; split; [apply isclose_spec, I|reflexivity]|auto].
Qed.
Lemma c78_error : forall n h a lo hi pm px s0 s1 e0 e1,
  let gs := interval_groups h a in
  (forall g, In g gs -> fill_ready (S n) h (lo g) (hi g) g) -> apart_groups h gs ->
  (forall g, In g (a_groups (aob h a)) -> g_points (gob h g) = true -> points_at h gs (pm g) (px g) g) ->
  least (fun z => exists g, In g gs /\ lo g = z) s0 -> greatest (fun z => exists g, In g gs /\ lo g = z) s1 ->
  least (fun z => exists g, In g gs /\ hi g = z) e0 -> greatest (fun z => exists g, In g gs /\ hi g = z) e1 ->
  ~ (near s0 s1 /\ near e0 e1) ->
  (exists g, In g (a_groups (aob h a)) /\ g_points (gob h g) = true /\ ~ (near (pm g) s0 /\ near (px g) s1)) ->
  exists h', grid_cleanup (S n) a h = Raise ValueError h'.
Proof.
  intros n h a lo hi pm px s0 s1 e0 e1 gs K Ap Pt S0 S1 E0 E1 Un (g & Hg & Ep & Nr). destruct (mix_stage n h a lo hi pm px s0 s1 e0 e1 K Ap Pt S0 S1 E0 E1 Un) as (h1 & h' & R & _).
  pose proof (both_near h (a_groups (aob h a)) pm px s0 s1) as B. destruct (_ && _)%bool; [|exact R]. exfalso. apply Nr, B; assumption.
Qed.
End WithEnv.
