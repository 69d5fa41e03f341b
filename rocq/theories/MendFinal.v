(** * MendFinal: filling the gaps between the children of an interval (C68). *)
From Verif Require Export ChildFinal MendSpec.
From Verif Require Import GapFinal QueryFinal.
From Verif Require Import ChildSpec MendSpec ChildFinal.
Open Scope Z_scope.

Section WithEnv.
Context `{Env}.
Opaque span_of.

(** ** New intervals *)
Lemma new_blank c s e h : exists h', new_obj c (Some s) (Some e) "" h = Ok (List.length (h_seq h)) h' /\
  h_cls h' = h_cls h /\ h_tier h' = h_tier h /\ h_grp h' = h_grp h /\ h_grid h' = h_grid h /\
  (List.length (h_seq h) < List.length (h_seq h'))%nat /\ (forall i, live h i -> sob h' i = sob h i) /\
  (forall i, live h' i -> ~ live h i -> i <> List.length (h_seq h) -> is_boundary h' i) /\
  erase (sob h' (List.length (h_seq h))) = blank_seq c (Some s) (Some e) "".
Proof.
  destruct (new_settles c (Some s) (Some e) "" h) as (h' & E & (L1 & L2 & L3 & L4 & L5 & L6 & L7) & F & _); [discriminate|].
  assert (Lx : live (push_seq (blank_seq c (Some s) (Some e) "") h) (List.length (h_seq h))) by (apply live_push; auto).
  exists h'. split; [exact E|]. split; [exact L1|]. split; [exact L2|]. split; [exact L3|]. split; [exact L4|].
  split; [unfold live in Lx; lia|]. split; [|split].
  - intros i Hi. rewrite F; [apply sob_push_old; auto|apply live_push; auto|]. intros [<-|[]]. unfold live in Hi. lia.
  - intros i Hi Hn Hx. apply boundary_is_boundary; [exact Hi|]. apply L7; [exact Hi|]. intros Q. apply live_push in Q. destruct Q; auto.
  - rewrite (L6 _ Lx), sob_push_new. reflexivity.
Qed.
Lemma construct_blank c s e h : issubclass h c cInterval = true ->
  construct3 (Some c) (Some s) (Some e) "" h = new_obj c (Some s) (Some e) "" h.
Proof. intros I. unfold construct3. mstep. rewrite I. mstep. reflexivity. Qed.

(** A new interval nobody knows yet. *)
Definition fresh_blank (h h' : heap) (c : cid) (w : oid) (p : Z * Z) : Prop :=
  (List.length (h_seq h) <= w < List.length (h_seq h'))%nat /\ erase (sob h' w) = blank_seq c (Some (fst p)) (Some (snd p)) "".
Record adds (c : cid) (h h' : heap) (ws : list oid) (ps : list (Z * Z)) (a : slv) : Prop := {
  ad_rest : h_cls h' = h_cls h /\ h_tier h' = h_tier h /\ h_grp h' = h_grp h /\ h_grid h' = h_grid h;
  ad_len : (List.length (h_seq h) <= List.length (h_seq h'))%nat;
  ad_old : forall i, live h i -> sob h' i = sob h i;
  ad_new : forall i, live h' i -> ~ live h i -> ~ In i ws -> is_boundary h' i;
  ad_ws : Forall2 (fresh_blank h h' c) ws ps;
  ad_nodup : NoDup ws;
  ad_vals : Permutation (sv_vals a) ws;
  ad_ec : sv_ec a = Some c \/ sv_ec a = None
}.
Lemma adds_none c h : adds c h h [] [] sl_empty.
Proof.
  constructor; [auto|lia|auto|intros; contradiction|constructor|apply NoDup_nil_2|reflexivity|right; reflexivity].
Qed.
Lemma fresh_fields h h' c w p : fresh_blank h h' c w p ->
  live h' w /\ s_cls (sob h' w) = c /\ s_start (sob h' w) = Some (fst p) /\ s_end (sob h' w) = Some (snd p) /\ s_label (sob h' w) = EmptyString /\
  s_super (sob h' w) = None /\ s_subset (sob h' w) = [] /\ s_subec (sob h' w) = None /\ s_intier (sob h' w) = None.
Proof.
  intros [L E]. split; [unfold live; lia|]. destruct (sob h' w) as [a0 a1 a2 a3 a4 a5 a6 a7 a8 a9 a10 a11]. unfold erase, set_s_fol, set_s_prev, blank_seq in E. simpl in E.
  injection E; intros; subst. simpl. auto 10.
Qed.
Lemma Forall2_in_l {A B} (P : A -> B -> Prop) l m x : Forall2 P l m -> In x l -> exists y, In y m /\ P x y.
Proof. induction 1 as [|a b l m Hab F IH]; intros []; [subst; exists b; simpl; auto|destruct IH as (y & ? & ?); [auto|exists y; simpl; auto]]. Qed.
Lemma adds_one c h h1 ws ps a s e : adds c h h1 ws ps a -> issubclass h c cInterval = true -> ~ In s (map fst ps) ->
  exists h2 a' w, (nw <- construct3 (Some c) (Some s) (Some e) "" ;; sl_add ONone a [nw]) h1 = Ok a' h2 /\
    adds c h h2 (ws ++ [w]) (ps ++ [(s, e)]) a'.
Proof.
  intros [(R1 & R2 & R3 & R4) Ln Od Nw Ws Nd Va Ec] I Ns.
  assert (I1 : issubclass h1 c cInterval = true) by (rewrite (issubclass_ext h h1) by auto; exact I).
  destruct (new_blank c s e h1) as (h2 & E & X1 & X2 & X3 & X4 & X5 & X6 & X7 & X8). set (w := List.length (h_seq h1)) in *.
  assert (Fw : fresh_blank h h2 c w (s, e)) by (split; [unfold w in *; lia|exact X8]).
  assert (Fo : Forall2 (fresh_blank h h2 c) ws ps).
  { eapply Forall2_impl; [exact Ws|]. intros x p [A B]. split; [lia|]. rewrite X6 by (unfold live; lia). exact B. }
  pose proof (fresh_fields _ _ _ _ _ Fw) as (_ & W1 & W2 & W3 & W4 & _). cbn [fst snd] in W2, W3.
  assert (Iv : forall y, In y (sv_vals a) -> exists p, In p ps /\ fresh_blank h h2 c y p).
  { intros y Hy. apply (Permutation_in y Va) in Hy. exact (Forall2_in_l _ _ _ _ Fo Hy). }
  assert (Nl : ~ listed h2 (sv_vals a) w).
  { intros (y & Hy & D). destruct (Iv y Hy) as (p & Hp & Fy). destruct (fresh_fields _ _ _ _ _ Fy) as (_ & _ & Y2 & _).
    assert (Q : s_start (sob h2 y) = s_start (sob h2 w)) by (destruct D as [->|(_ & D & _)]; auto).
    apply Ns. rewrite Y2, W2 in Q. injection Q as Q. rewrite <- Q. apply in_map. exact Hp. }
  assert (Nw' : ~ In w ws).
  { intros Q. destruct (Forall2_in_l _ _ _ _ Ws Q) as (p & _ & [A _]). unfold w in A. lia. }
  assert (A : exists l', sl_add ONone a [w] h2 = Ok (Slv l' (Some c)) h2 /\ Permutation l' (sv_vals a ++ [w])).
  { pose proof (sl_add_same h2 ONone a [w] c) as A. cbn [List.filter] in A. rewrite (proj2 (negb_contains h2 _ w) Nl) in A.
    destruct A as (l' & A1 & A2 & _); [| | | | | |exists l'; auto].
    - destruct Ec as [->| ->]; auto.
    - intros y Hy. destruct (Iv y Hy) as (p & _ & Fy). apply (fresh_fields _ _ _ _ _ Fy).
    - intros y [<-|[]]. exact W1.
    - intros y Hy. apply in_app_iff in Hy. destruct Hy as [Hy|[<-|[]]]; [|eauto]. destruct (Iv y Hy) as (p & _ & Fy).
      destruct (fresh_fields _ _ _ _ _ Fy) as (_ & _ & Y2 & _). eauto.
    - intros y Hy. unfold end_of. apply in_app_iff in Hy. destruct Hy as [Hy|[<-|[]]].
      + destruct (Iv y Hy) as (p & _ & Fy). destruct (fresh_fields _ _ _ _ _ Fy) as (_ & _ & Y2 & Y3 & _). destruct (is_point_cls _ _); eauto.
      + destruct (is_point_cls _ _); eauto.
    - apply issubclass_refl. }
  destruct A as (l' & A1 & A2). exists h2, (Slv l' (Some c)), w. split.
  - assert (E' : construct3 (Some c) (Some s) (Some e) "" h1 = Ok w h2) by (rewrite construct_blank by exact I1; exact E).
    rewrite (bind_ok _ _ _ _ _ E'). exact A1.
  - constructor; cbn [sv_vals sv_ec].
    + repeat split; congruence.
    + lia.
    + intros i Hi. rewrite X6 by (unfold live in *; lia). apply Od. exact Hi.
    + intros i Hi Hn Hw. rewrite in_app_iff in Hw. destruct (decide (live h1 i)) as [L1|L1].
      * assert (B : is_boundary h1 i) by (apply Nw; auto). destruct B as (B0 & B). split; [unfold live in *; lia|]. rewrite X6 by exact L1. exact B.
      * apply X7; auto. intros Q. apply Hw. right. left. auto.
    + apply Forall2_app; [exact Fo|]. constructor; [exact Fw|constructor].
    + apply NoDup_app. split; [exact Nd|]. split; [|apply NoDup_singleton]. intros y Hy Q. apply elem_of_list_In in Hy. apply elem_of_list_singleton in Q. subst. auto.
    + rewrite A2, Va. reflexivity.
    + auto.
Qed.

(** ** The gaps *)
Definition has_times (h : heap) (x : oid) (p : Z * Z) : Prop := s_start (sob h x) = Some (fst p) /\ s_end (sob h x) = Some (snd p).
Fixpoint chain_times (a : Z) (ts : list (Z * Z)) (z : Z) : Prop :=
  match ts with [] => a <= z | p :: r => a <= fst p /\ fst p < snd p /\ chain_times (snd p) r z end.
Fixpoint gaps_in (ts : list (Z * Z)) : list (Z * Z) :=
  match ts with
  | p :: ((q :: _) as r) => if isclose (snd p) (fst q) then gaps_in r else (snd p, fst q) :: gaps_in r
  | _ => []
  end.
Lemma runs_times h l : forall a z, runs h a l z -> exists ts, Forall2 (has_times h) l ts /\ chain_times a ts z.
Proof.
  induction l as [|x l IH]; intros a z R; [exists []; split; [constructor|exact R]|].
  destruct R as (s & e & A & B & C & D & R). destruct (IH _ _ R) as (ts & F & Ch). exists ((s, e) :: ts).
  split; [constructor; [split; assumption|exact F]|]. simpl. auto.
Qed.
Lemma chain_last_le ts : forall a z, chain_times a ts z -> a <= List.last (map snd ts) a.
Proof.
  induction ts as [|p r IH]; intros a z Ch; [simpl; lia|]. destruct Ch as (A & B & Ch). specialize (IH _ _ Ch). cbn [map].
  destruct (map snd r) as [|q m] eqn:E; [simpl; lia|]. change (List.last (snd p :: q :: m) a) with (List.last (q :: m) a).
  rewrite (last_indep q m _ a) in IH. lia.
Qed.
Lemma gaps_bounds ts : forall a z, chain_times a ts z -> (forall g, In g (gaps_in ts) -> a < fst g /\ fst g < List.last (map snd ts) a) /\ NoDup (map fst (gaps_in ts)).
Proof.
  induction ts as [|p r IH]; intros a z Ch; [split; [intros g []|apply NoDup_nil_2]|]. destruct Ch as (A & B & Ch).
  destruct r as [|q r]; [split; [intros g []|apply NoDup_nil_2]|]. pose proof Ch as (A1 & B1 & Ch1).
  destruct (IH _ _ Ch) as [I1 I2]. pose proof (chain_last_le _ _ _ Ch1) as Le.
  assert (El : List.last (map snd (p :: q :: r)) a = List.last (map snd (q :: r)) (snd p)).
  { cbn [map]. change (List.last (snd p :: snd q :: map snd r) a) with (List.last (snd q :: map snd r) a). apply last_indep. }
  assert (Lq : snd q <= List.last (map snd (q :: r)) (snd p)).
  { cbn [map]. destruct (map snd r) as [|v m]; [simpl; lia|]. change (List.last (snd q :: v :: m) (snd p)) with (List.last (v :: m) (snd p)).
    rewrite (last_indep v m _ (snd q)). exact Le. }
  cbn [gaps_in]. destruct (isclose (snd p) (fst q)).
  - split; [|exact I2]. intros g Hg. destruct (I1 g Hg). rewrite El. lia.
  - split.
    + intros g [<-|Hg]; [cbn [fst]; rewrite El; lia|]. destruct (I1 g Hg). rewrite El. lia.
    + cbn [map fst]. apply NoDup_cons. split; [|exact I2]. rewrite elem_of_list_In. intros Q. apply in_map_iff in Q. destruct Q as (g & Q & Hg).
      destruct (I1 g Hg). lia.
Qed.
Lemma gap_fill_adds c h l : issubclass h c cInterval = true -> issubclass h c cPoint = false ->
  (forall x, In x l -> live h x /\ s_cls (sob h x) = c) -> forall ts h1 ws ps a, Forall2 (has_times h) l ts -> adds c h h1 ws ps a ->
  (forall g, In g (gaps_in ts) -> ~ In (fst g) (map fst ps)) -> NoDup (map fst (gaps_in ts)) ->
  exists h2 a' w2, gap_fill (Some c) l a h1 = Ok a' h2 /\ adds c h h2 (ws ++ w2) (ps ++ gaps_in ts) a'.
Proof.
  intros I Pt. induction l as [|x l IH]; intros Lv ts h1 ws ps a F Ad Ni Nd.
  { apply Forall2_nil_inv_l in F. subst. exists h1, a, []. rewrite !app_nil_r. split; [reflexivity|exact Ad]. }
  apply Forall2_cons_inv_l in F. destruct F as (p & ts' & Hp & F & ->).
  destruct l as [|y l].
  { apply Forall2_nil_inv_l in F. subst. exists h1, a, []. cbn [gaps_in]. rewrite !app_nil_r. split; [reflexivity|exact Ad]. }
  pose proof F as F'. apply Forall2_cons_inv_l in F'. destruct F' as (q & ts'' & Hq & F'' & ->).
  assert (Ex : end_of h1 x = Some (snd p)).
  { destruct (Lv x) as [Lx Cx]; [simpl; auto|]. unfold end_of, is_point_cls. rewrite (ad_old _ _ _ _ _ _ Ad x Lx), Cx.
    rewrite (issubclass_ext h h1) by apply (ad_rest _ _ _ _ _ _ Ad). rewrite Pt. apply Hp. }
  assert (Ey : start_of h1 y = Some (fst q)).
  { destruct (Lv y) as [Ly Cy]; [simpl; auto|]. unfold start_of. rewrite (ad_old _ _ _ _ _ _ Ad y Ly). apply Hq. }
  assert (Lv' : forall v, In v (y :: l) -> live h v /\ s_cls (sob h v) = c) by (intros v Hv; apply Lv; right; exact Hv).
  change (gap_fill (Some c) (x :: y :: l) a) with
    (e <- gets (fun h => end_of h x) ;; s <- gets (fun h => start_of h y) ;; cl <- close_m e s ;;
     if (cl : bool) then gap_fill (Some c) (y :: l) a
     else nw <- construct3 (Some c) e s "" ;; acc' <- sl_add ONone a [nw] ;; gap_fill (Some c) (y :: l) acc').
  mstep. mstep. rewrite Ex, Ey. cbn [close_m]. mstep. cbn [gaps_in] in *. destruct (isclose (snd p) (fst q)) eqn:Cl.
  - destruct (IH Lv' _ _ _ _ _ F Ad Ni Nd) as (h2 & a' & w2 & E & Ad2). exists h2, a', w2. auto.
  - destruct (adds_one c h h1 ws ps a (snd p) (fst q) Ad I) as (h2 & a2 & w & E & Ad2); [apply (Ni (snd p, fst q)); simpl; auto|].
    cbn [map] in Nd. apply NoDup_cons in Nd. destruct Nd as [N1 N2]. rewrite elem_of_list_In in N1. cbn [fst] in N1.
    destruct (IH Lv' _ _ _ _ _ F Ad2) as (h3 & a3 & w3 & E3 & Ad3); [|exact N2|].
    + intros g Hg. rewrite map_app, in_app_iff. intros [Q|[Q|[]]]; [apply (Ni g); simpl; auto|]. cbn [fst] in Q. apply N1. rewrite Q. apply in_map. exact Hg.
    + exists h3, a3, ([w] ++ w3)%list. rewrite !app_assoc. rewrite <- !app_assoc in Ad3. cbn [List.app] in Ad3 |- *. rewrite <- !app_assoc. cbn [List.app].
      split; [|exact Ad3]. rewrite <- bind_assoc. rewrite (bind_ok _ _ _ _ _ E). exact E3.
Qed.

(** ** Appending them *)
Lemma wired_trans c u b1 b2 h h1 h2 : wired c [u] [b1] h h1 -> wired c [u] [b2] h1 h2 -> incl b1 b2 -> ~ In u b2 -> live h u ->
  (forall y, In y b2 -> live h y) -> wired c [u] [b2] h h2.
Proof.
  intros W1 W2 Ib Nu Lu Lb. destruct (wired_one _ _ _ _ _ W1) as (A1 & A2 & A3 & A4). destruct (wired_one _ _ _ _ _ W2) as (B1 & B2 & B3 & B4).
  pose proof (wi_rest _ _ _ _ _ W1) as (R1 & R2 & R3 & R4). pose proof (wi_rest _ _ _ _ _ W2) as (T1 & T2 & T3 & T4).
  pose proof (wi_len _ _ _ _ _ W1). pose proof (wi_len _ _ _ _ _ W2).
  constructor.
  - repeat split; congruence.
  - lia.
  - intros i Hi Hn. destruct (decide (live h1 i)) as [L1|L1].
    + assert (B : is_boundary h1 i) by (apply (wi_new _ _ _ _ _ W1); auto). destruct B as (B0 & B). split; [unfold live in *; lia|].
      rewrite B4; [exact B|exact L1|intros ->; contradiction|intros Q; apply Hn, Lb, Q].
    + apply (wi_new _ _ _ _ _ W2); auto.
  - intros i Hi Hu Hb. simpl in Hu, Hb. rewrite app_nil_r in Hb. rewrite B4, A4; auto; [unfold live in *; lia].
  - constructor; [|constructor]. rewrite B1, A1. reflexivity.
  - constructor; [|constructor]. intros y Hy. specialize (B2 y Hy). destruct (in_dec Nat.eq_dec y b1) as [Q|Q].
    + specialize (A2 y Q). unfold kid_of in *. destruct A2 as (a1 & a2 & a3 & a4 & a5 & a6 & a7 & a8 & a9 & a10), B2 as (e1 & e2 & e3 & e4 & e5 & e6 & e7 & e8 & e9 & e10).
      repeat split; congruence.
    + rewrite A4 in B2; auto. intros ->. contradiction.
  - constructor; [exact B3|constructor].
Qed.
Lemma fill_loop n c u xs : forall h, family h c u -> (forall x, In x xs -> sound_child h c x /\ s_super (sob h x) = None /\ x <> u) ->
  NoDup (map (fun x => s_start (sob h x)) (xs ++ s_subset (sob h u))) -> ungrouped h u ->
  exists h' b, forM xs (fun x => seq_append n u x) h = Ok tt h' /\ Permutation b (xs ++ s_subset (sob h u)) /\ sorted_starts h b /\
    (xs = [] /\ h' = h /\ b = s_subset (sob h u) \/ xs <> [] /\ wired c [u] [b] h h').
Proof.
  induction xs as [|x xs IH]; intros h Fa Sx Nd Ug.
  { exists h, (s_subset (sob h u)). split; [reflexivity|]. split; [reflexivity|]. split; [apply Fa|]. left. auto. }
  pose proof Fa as (Lu & Nu & Sc & Iu & Ndk & Ss & Ec & Kd).
  cbn [List.app map] in Nd. apply NoDup_cons in Nd. destruct Nd as [N1 N2]. rewrite elem_of_list_In in N1.
  assert (Ne : forall y, In y (xs ++ s_subset (sob h u)) -> s_start (sob h y) <> s_start (sob h x)).
  { intros y Hy Q. apply N1. rewrite <- Q. exact (in_map (fun x => s_start (sob h x)) _ _ Hy). }
  assert (Nk : ~ listed h (s_subset (sob h u)) x).
  { intros (y & Hy & D). apply (Ne y); [apply in_app_iff; auto|]. destruct D as [->|(_ & D & _)]; auto. }
  assert (Nx : ~ In x (xs ++ s_subset (sob h u))) by (intros Q; apply (Ne x Q); reflexivity).
  destruct (Sx x) as (S1 & S2 & S3); [simpl; auto|].
  destruct (append_child n h c u x Fa S1 Nk S3 S2 Ug) as (h1 & b1 & E1 & P1 & So1 & W1).
  destruct (wired_one _ _ _ _ _ W1) as (A1 & A2 & A3 & A4). pose proof (wi_rest _ _ _ _ _ W1) as (R1 & R2 & R3 & R4). pose proof (wi_len _ _ _ _ _ W1) as Le.
  assert (Ib : forall y, In y b1 <-> y = x \/ In y (s_subset (sob h u))).
  { intros y. split; intros Hy; [apply (Permutation_in y P1) in Hy; simpl in Hy; intuition|]. apply (Permutation_in y (Permutation_sym P1)). simpl. intuition. }
  assert (Nub : ~ In u b1) by (intros Q; apply Ib in Q; destruct Q as [Q|Q]; [congruence|contradiction]).
  assert (Ndb : NoDup b1).
  { apply NoDup_ListNoDup. eapply Permutation_NoDup; [symmetry; exact P1|]. apply NoDup_ListNoDup, NoDup_cons. split; [|exact Ndk]. rewrite elem_of_list_In.
    intros Q. apply Nx, in_app_iff. auto. }
  assert (Sdb : forall y, In y b1 -> sound_child h c y) by (intros y Hy; apply Ib in Hy; destruct Hy as [->|Hy]; [exact S1|apply Kd, Hy]).
  destruct (wired_rears c u b1 h h1 W1 Lu Nu Sc Nub Ndb So1 Sdb) as ((K1 & K2 & K3 & K4 & K5 & K6) & _).
  assert (Xo : forall y, In y xs -> sob h1 y = sob h y).
  { intros y Hy. apply A4; [apply (Sx y); simpl; auto|apply (Sx y); simpl; auto|]. intros Q. apply Ib in Q. destruct Q as [->|Q].
    - apply Nx, in_app_iff. auto.
    - assert (Q2 : ~ In (s_start (sob h y)) (map (fun x => s_start (sob h x)) (s_subset (sob h u)))).
      { rewrite map_app in N2. apply NoDup_app in N2. destruct N2 as (_ & N2 & _). intros Q2. apply (N2 (s_start (sob h y))).
        - apply elem_of_list_In. exact (in_map (fun x => s_start (sob h x)) _ _ Hy).
        - apply elem_of_list_In. exact Q2. }
      apply Q2. exact (in_map (fun x => s_start (sob h x)) _ _ Q). }
  assert (St : forall y, In y (x :: xs ++ s_subset (sob h u)) -> s_start (sob h1 y) = s_start (sob h y)).
  { intros y Hy. destruct (in_dec Nat.eq_dec y b1) as [Q|Q]; [apply (A2 y Q)|]. simpl in Hy. rewrite in_app_iff in Hy.
    destruct Hy as [<-|[Hy|Hy]]; [exfalso; apply Q, Ib; auto|rewrite Xo by exact Hy; reflexivity|exfalso; apply Q, Ib; auto]. }
  assert (Ug1 : ungrouped h1 u).
  { intros t g. rewrite A1. cbn. unfold tob, gob. rewrite R2, R3. apply Ug. }
  assert (Pm : Permutation (xs ++ b1) (x :: xs ++ s_subset (sob h u))) by (rewrite P1; symmetry; apply Permutation_middle).
  destruct (IH h1 K6) as (h2 & b2 & E2 & P2 & So2 & W2).
  - intros y Hy. destruct (Sx y) as (T1 & T2 & T3); [simpl; auto|]. rewrite (Xo y Hy). split; [|auto].
    apply (sound_kept h); auto; rewrite (Xo y Hy); reflexivity.
  - rewrite K1. apply NoDup_ListNoDup. eapply Permutation_NoDup; [apply Permutation_map; symmetry; exact Pm|]. apply NoDup_ListNoDup.
    rewrite (map_ext_in _ (fun x => s_start (sob h x))) by (intros y Hy; apply St; exact Hy). cbn [map]. apply NoDup_cons.
    split; [rewrite elem_of_list_In; exact N1|exact N2].
  - exact Ug1.
  - rewrite K1 in P2. assert (P2' : Permutation b2 (x :: xs ++ s_subset (sob h u))) by (etransitivity; [exact P2|exact Pm]).
    assert (Lb2 : forall y, In y b2 -> live h y /\ y <> u).
    { intros y Hy. apply (Permutation_in y P2') in Hy. destruct Hy as [<-|Hy]; [split; [apply S1|exact S3]|]. apply in_app_iff in Hy. destruct Hy as [Hy|Hy].
      - destruct (Sx y) as ((T1 & _) & _ & T3); [simpl; auto|]. auto.
      - split; [apply (Kd y Hy)|intros ->; contradiction]. }
    exists h2, b2. split; [cbn [forM]; rewrite (bind_ok _ _ _ _ _ E1); exact E2|]. split; [exact P2'|]. split.
    { eapply sorted_ext; [|exact So2]. intros y Hy. symmetry. apply St. apply (Permutation_in y P2'). exact Hy. }
    right. split; [discriminate|]. destruct W2 as [(Z1 & Z2 & Z3)|[_ W2]].
    + subst h2 b2. rewrite K1. exact W1.
    + apply (wired_trans c u b1 b2 h h1 h2 W1 W2); [|intros Q; apply (Lb2 u Q); reflexivity|exact Lu|intros y Hy; apply (Lb2 y Hy)].
      intros y Hy. apply (Permutation_in y (Permutation_sym P2)), in_app_iff. auto.
Qed.

(** ** What comes out *)
Lemma near_refl a : near a a.
Proof. unfold near. pose proof atol_nonneg. lia. Qed.
Lemma runs_rising h l : forall a z, runs h a l z -> rising h l /\ forall x s, In x l -> s_start (sob h x) = Some s -> a <= s.
Proof.
  induction l as [|x l IH]; intros a z R; [split; [intros i j p q _ Hp; destruct i; discriminate|intros x s []]|].
  destruct R as (s & e & A & B & C & D & R). destruct (IH _ _ R) as [I1 I2]. split.
  - intros i j p q Hij Hp Hq. destruct j as [|j]; [lia|]. destruct i as [|i].
    + injection Hp as <-. assert (Iq : In q l) by (eapply nth_error_In; exact Hq).
      destruct (In_nth_error _ _ Iq) as (k & Hk). assert (exists t, s_start (sob h q) = Some t) as (t & Et).
      { clear -R Iq. revert e R. induction l as [|v l IHl]; intros e R; [destruct Iq|]. destruct R as (s & e' & A & _ & _ & _ & R).
        destruct Iq as [->|Iq]; [eauto|]. exact (IHl Iq _ R). }
      exists s, t. pose proof (I2 q t Iq Et). split; [exact A|]. split; [exact Et|lia].
    + apply (I1 i j); [lia|exact Hp|exact Hq].
  - intros y t [<-|Hy] Et; [congruence|]. pose proof (I2 y t Hy Et). lia.
Qed.
Lemma mended_runs h h' c a l z b : mended h h' c a l z b -> (forall x, In x l -> s_start (sob h' x) = s_start (sob h x) /\ s_end (sob h' x) = s_end (sob h x)) ->
  runs h a l z -> runs h' a b z /\ snug_row h' a b z.
Proof.
  induction 1 as [a z N|a z w N Bw|a x s e l z b A B N M IH|a x s e l z b w A B N Bw M IH]; intros K R.
  - split; [exact R|exact N].
  - destruct Bw as (_ & _ & _ & W1 & W2 & _). simpl in R. assert (a <> z) by (intros ->; apply N, near_refl). split.
    + exists a, z. simpl. repeat split; auto; lia.
    + exists a, z. simpl. repeat split; auto; apply near_refl.
  - destruct R as (s' & e' & A' & B' & R1 & R2 & R3). rewrite A in A'. rewrite B in B'. injection A' as <-. injection B' as <-.
    destruct (K x) as [K1 K2]; [simpl; auto|]. rewrite A in K1. rewrite B in K2. destruct IH as [I1 I2]; [intros y Hy; apply K; simpl; auto|exact R3|].
    split; exists s, e; auto.
  - destruct R as (s' & e' & A' & B' & R1 & R2 & R3). rewrite A in A'. rewrite B in B'. injection A' as <-. injection B' as <-.
    destruct (K x) as [K1 K2]; [simpl; auto|]. rewrite A in K1. rewrite B in K2. destruct IH as [I1 I2]; [intros y Hy; apply K; simpl; auto|exact R3|].
    destruct Bw as (_ & _ & _ & W1 & W2 & _). assert (a <> s) by (intros ->; apply N, near_refl). split.
    + exists a, s. split; [exact W1|]. split; [exact W2|]. split; [lia|]. split; [lia|]. exists s, e. repeat split; auto; lia.
    + exists a, s. split; [exact W1|]. split; [exact W2|]. split; [apply near_refl|]. exists s, e. repeat split; auto. apply near_refl.
Qed.
Lemma weave_gaps h h' c z l : forall ts p wI wl, Forall2 (has_times h) l ts ->
  Forall2 (fun w g => blank h h' c w (fst g) (snd g)) wI (gaps_in (p :: ts)) ->
  (near z (List.last (map snd ts) (snd p)) /\ wl = [] \/ ~ near z (List.last (map snd ts) (snd p)) /\ exists w, wl = [w] /\ blank h h' c w (List.last (map snd ts) (snd p)) z) ->
  exists out, mended h h' c (snd p) l z out /\ Permutation out (wI ++ wl ++ l).
Proof.
  induction l as [|x l IH]; intros ts p wI wl F G D.
  - apply Forall2_nil_inv_l in F. subst ts. cbn [gaps_in map List.last] in *. apply Forall2_nil_inv_r in G. subst wI.
    destruct D as [[N ->]|[N (w & -> & B)]]; [exists []; split; [apply mended_end; exact N|reflexivity]|exists [w]; split; [apply mended_last; auto|reflexivity]].
  - apply Forall2_cons_inv_l in F. destruct F as (q & ts' & [Q1 Q2] & F & ->).
    assert (El : List.last (map snd (q :: ts')) (snd p) = List.last (map snd ts') (snd q)).
    { cbn [map]. destruct (map snd ts') as [|v m]; [reflexivity|]. change (List.last (snd q :: v :: m) (snd p)) with (List.last (v :: m) (snd p)). apply last_indep. }
    rewrite El in D. cbn [gaps_in] in G. destruct (isclose (snd p) (fst q)) eqn:Cl.
    + apply isclose_spec in Cl. destruct (IH ts' q wI wl F G D) as (out & M & P). exists (x :: out).
      split; [eapply mended_next; eauto|]. rewrite P. rewrite !app_assoc. apply Permutation_middle.
    + assert (Nn : ~ near (snd p) (fst q)) by (intros N; apply isclose_spec in N; congruence).
      apply Forall2_cons_inv_r in G. destruct G as (w & wI' & B & G & ->). destruct (IH ts' q wI' wl F G D) as (out & M & P). exists (w :: x :: out).
      split; [eapply mended_gap; eauto|]. cbn [List.app]. apply perm_skip. rewrite P. rewrite !app_assoc. apply Permutation_middle.
Qed.
Lemma snug_still n h c u s e : family h c u -> s_subset (sob h u) <> [] -> s_start (sob h u) = Some s -> s_end (sob h u) = Some e ->
  issubclass h c cPoint = false -> snug_row h s (s_subset (sob h u)) e -> seq_cleanup (S n) u h = Ok tt h.
Proof.
  intros (Lu & Nu & Sc & Iu & Ndk & Ss & Ec & Kd) Ne Es Ee Pt Sn. cbn [seq_cleanup]. mstep. rewrite Sc. unfold issubclass_m. mstep.
  destruct (issubclass h c cBottom); [reflexivity|]. change (get_seq u) with (gets (fun h => sob h u)). mstep. rewrite Es, Ee.
  assert (Eo : forall x, In x (s_subset (sob h u)) -> end_of h x = s_end (sob h x)).
  { intros x Hx. unfold end_of, is_point_cls. destruct (Kd x Hx) as ((_ & -> & _) & _). rewrite Pt. reflexivity. }
  clear Kd. revert Sn Eo Ne. generalize (s_subset (sob h u)). intros [|f l] Sn Eo Ne; [contradiction|].
  mstep. mstep. destruct Sn as (s1 & e1 & A & B & N & Sn).
  assert (In_last : forall (l : list oid) f, In (List.last (f :: l) f) (f :: l)).
  { clear. induction l as [|y l IH]; intros f; [simpl; auto|]. change (List.last (f :: y :: l) f) with (List.last (y :: l) f). rewrite (last_indep y l f y). right. apply IH. }
  rewrite (Eo (List.last (f :: l) f)) by apply In_last. unfold start_of. rewrite A. cbn [close_m]. mstep. rewrite (proj2 (isclose_spec s s1) N).
  mstep.
  assert (Le : exists z, s_end (sob h (List.last (f :: l) f)) = Some z /\ near e z).
  { clear -Sn B. revert f e1 B Sn. induction l as [|y l IH]; intros f e1 B Sn; [exists e1; auto|]. destruct Sn as (s2 & e2 & A2 & B2 & N2 & Sn).
    change (List.last (f :: y :: l) f) with (List.last (y :: l) f). rewrite (last_indep y l f y). eapply IH; eauto. }
  destruct Le as (z & Ez & Nz). rewrite Ez. cbn [close_m]. mstep. rewrite (proj2 (isclose_spec e z) Nz). mstep.
  assert (G : gap_fill (Some c) (f :: l) sl_empty h = Ok sl_empty h).
  { clear -Sn B Eo. revert f e1 B Sn Eo. induction l as [|y l IH]; intros f e1 B Sn Eo; [reflexivity|]. destruct Sn as (s2 & e2 & A2 & B2 & N2 & Sn).
    change (gap_fill (Some c) (f :: y :: l) sl_empty) with
      (e <- gets (fun h => end_of h f) ;; s <- gets (fun h => start_of h y) ;; cl <- close_m e s ;;
       if (cl : bool) then gap_fill (Some c) (y :: l) sl_empty
       else nw <- construct3 (Some c) e s "" ;; acc' <- sl_add ONone sl_empty [nw] ;; gap_fill (Some c) (y :: l) acc').
    mstep. mstep. rewrite (Eo f) by (simpl; auto). unfold start_of. rewrite B, A2. cbn [close_m]. mstep. rewrite (proj2 (isclose_spec e1 s2) N2).
    eapply IH; eauto. intros x Hx. apply Eo. right. exact Hx. }
  rewrite (bind_ok _ _ _ _ _ G). reflexivity.
Qed.
Definition gap_if (x y : Z) (p : Z * Z) : list (Z * Z) := if isclose x y then [] else [p].
Lemma adds_if x y c h h1 ws ps a s e : adds c h h1 ws ps a -> issubclass h c cInterval = true -> (isclose x y = false -> ~ In s (map fst ps)) ->
  exists h2 a' w2, (if isclose x y then ret a else nw <- construct3 (Some c) (Some s) (Some e) "" ;; sl_add ONone a [nw]) h1 = Ok a' h2 /\
    adds c h h2 (ws ++ w2) (ps ++ gap_if x y (s, e)) a'.
Proof.
  intros Ad I N. unfold gap_if. destruct (isclose x y).
  - exists h1, a, []. rewrite !app_nil_r. split; [reflexivity|exact Ad].
  - destruct (adds_one c h h1 ws ps a s e Ad I (N eq_refl)) as (h2 & a' & w & E & Ad2). exists h2, a', [w]. auto.
Qed.
Lemma mended_ext h h1 h' c a l z b : mended h h1 c a l z b -> (List.length (h_seq h1) <= List.length (h_seq h'))%nat ->
  (forall w, In w b -> s_cls (sob h' w) = s_cls (sob h1 w) /\ s_label (sob h' w) = s_label (sob h1 w) /\ s_start (sob h' w) = s_start (sob h1 w) /\
     s_end (sob h' w) = s_end (sob h1 w) /\ s_subset (sob h' w) = s_subset (sob h1 w)) -> mended h h' c a l z b.
Proof.
  intros M Le. assert (T : forall w a b, blank h h1 c w a b -> s_cls (sob h' w) = s_cls (sob h1 w) /\ s_label (sob h' w) = s_label (sob h1 w) /\ s_start (sob h' w) = s_start (sob h1 w) /\
     s_end (sob h' w) = s_end (sob h1 w) /\ s_subset (sob h' w) = s_subset (sob h1 w) -> blank h h' c w a b).
  { intros w a0 b0 (B1 & B2 & B3 & B4 & B5 & B6) (K1 & K2 & K3 & K4 & K5). split; [lia|]. repeat split; congruence. }
  induction M as [a z N|a z w N Bw|a x s e l z b A B N M IH|a x s e l z b w A B N Bw M IH]; intros K.
  - apply mended_end; exact N.
  - apply mended_last; [exact N|]. apply T; [exact Bw|]. apply K. simpl; auto.
  - eapply mended_next; eauto. apply IH. intros w Hw. apply K. simpl; auto.
  - eapply mended_gap; eauto; [apply T; [exact Bw|apply K; simpl; auto]|]. apply IH. intros v Hv. apply K. simpl; auto.
Qed.
Lemma rising_nodup h l : rising h l -> NoDup (map (fun x => s_start (sob h x)) l).
Proof.
  induction l as [|x l IH]; intros R; [apply NoDup_nil_2|]. cbn [map]. apply NoDup_cons. split; [|apply IH; eapply rising_tail; eauto].
  rewrite elem_of_list_In. intros Q. apply in_map_iff in Q. destruct Q as (y & Q & Hy). destruct (In_nth_error _ _ Hy) as (i & Hi).
  destruct (R 0%nat (S i) x y ltac:(lia) eq_refl Hi) as (s & t & A & B & C). rewrite A, B in Q. injection Q as Q. lia.
Qed.
Lemma fresh_blank_of h h' c w g : fresh_blank h h' c w g -> blank h h' c w (fst g) (snd g).
Proof. intros Fr. destruct (fresh_fields _ _ _ _ _ Fr) as (_ & A1 & A2 & A3 & A4 & _ & A6 & _). split; [apply Fr|]. auto. Qed.
Lemma gap_blanks h c u s e : family h c u -> s_subset (sob h u) <> [] -> s_start (sob h u) = Some s -> s_end (sob h u) = Some e ->
  runs h s (s_subset (sob h u)) e -> issubclass h c cBottom = false -> issubclass h c cInterval = true -> issubclass h c cPoint = false ->
  exists h3 v b, (forall n, seq_cleanup (S n) u h = forM v (fun x => seq_append n u x) h3) /\
    (h_cls h3 = h_cls h /\ h_tier h3 = h_tier h /\ h_grp h3 = h_grp h /\ h_grid h3 = h_grid h) /\
    (List.length (h_seq h) <= List.length (h_seq h3))%nat /\ (forall i, live h i -> sob h3 i = sob h i) /\
    (forall i, live h3 i -> ~ live h i -> ~ In i v -> is_boundary h3 i) /\
    (forall x, In x v -> exists g, fresh_blank h h3 c x g) /\
    mended h h3 c s (s_subset (sob h u)) e b /\ Permutation b (v ++ s_subset (sob h u)) /\ runs h3 s b e /\ snug_row h3 s b e /\
    rising h3 b /\ family h3 c u.
Proof.
  intros Fa Ne Es Ee Ru Nb I Pt. pose proof Fa as (Lu & Nu & Sc & Iu & Ndk & Ss & Ec & Kd).
  destruct (s_subset (sob h u)) as [|f l] eqn:Ek; [contradiction|]. clear Ne.
  destruct (runs_times _ _ _ _ Ru) as (ts0 & Ft & Ch). pose proof Ft as Ft'. apply Forall2_cons_inv_l in Ft'. destruct Ft' as (p & ts & [Tf1 Tf2] & Ft' & ->).
  destruct (gaps_bounds _ _ _ Ch) as [Gb Gn]. set (z := List.last (map snd ts) (snd p)).
  assert (Ez : List.last (map snd (p :: ts)) s = z).
  { unfold z. cbn [map]. destruct (map snd ts) as [|v m]; [reflexivity|]. change (List.last (snd p :: v :: m) s) with (List.last (v :: m) s). apply last_indep. }
  rewrite Ez in Gb.
  assert (Lk : forall x, In x (f :: l) -> live h x /\ s_cls (sob h x) = c) by (intros x Hx; destruct (Kd x Hx) as ((A & B & _) & _); auto).
  assert (Ea : forall h1 x, h_cls h1 = h_cls h -> sob h1 x = sob h x -> In x (f :: l) -> end_of h1 x = s_end (sob h x)).
  { intros h1 x Q1 Q2 Hx. unfold end_of, is_point_cls. rewrite Q2, (issubclass_ext h h1) by exact Q1. destruct (Lk x Hx) as [_ ->]. rewrite Pt. reflexivity. }
  assert (Il : In (List.last (f :: l) f) (f :: l)).
  { clear. revert f. induction l as [|y l IH]; intros f; [simpl; auto|]. change (List.last (f :: y :: l) f) with (List.last (y :: l) f). rewrite (last_indep y l f y). right. apply IH. }
  assert (El : s_end (sob h (List.last (f :: l) f)) = Some z).
  { unfold z. clear -Ft' Tf2. revert f p ts Tf2 Ft'. induction l as [|y l IH]; intros f p ts B F.
    - apply Forall2_nil_inv_l in F. subst. exact B.
    - apply Forall2_cons_inv_l in F. destruct F as (q & ts' & [Q1 Q2] & F & ->). change (List.last (f :: y :: l) f) with (List.last (y :: l) f).
      rewrite (last_indep y l f y). rewrite (IH y q ts' Q2 F). f_equal. cbn [map]. destruct (map snd ts') as [|v m]; [reflexivity|].
      change (List.last (snd q :: v :: m) (snd p)) with (List.last (v :: m) (snd p)). apply last_indep. }
  assert (Sz : s < z /\ fst p < z).
  { destruct Ch as (C1 & C2 & C3). pose proof (chain_last_le _ _ _ C3) as Q. fold z in Q. lia. }
  destruct (adds_if s (fst p) c h h [] [] sl_empty s (fst p) (adds_none c h) I) as (h1 & a1 & w1 & E1 & Ad1); [intros _ []|].
  cbn [List.app] in Ad1.
  destruct (adds_if e z c h h1 w1 _ a1 z e Ad1 I) as (h2 & a2 & w2 & E2 & Ad2).
  { intros _. unfold gap_if. destruct (isclose s (fst p)); simpl; [auto|]. intros [Q|[]]. lia. }
  destruct (gap_fill_adds c h (f :: l) I Pt Lk _ h2 _ _ a2 Ft Ad2) as (h3 & a3 & w3 & E3 & Ad3); [|exact Gn|].
  { intros g Hg. destruct (Gb g Hg). unfold gap_if. rewrite map_app, in_app_iff. destruct (isclose s (fst p)), (isclose e z); simpl; intuition lia. }
  pose proof Ad3 as [(R1 & R2 & R3 & R4) Ln Od Nw Ws Nd Va Eca].
  set (ps := ((gap_if s (fst p) (s, fst p) ++ gap_if e z (z, e)) ++ gaps_in (p :: ts))%list) in *.
  set (ws := ((w1 ++ w2) ++ w3)%list) in *.
  assert (Fp : NoDup (map fst ps)).
  { unfold ps. rewrite !map_app. apply NoDup_app. split; [|split; [|exact Gn]].
    - unfold gap_if. destruct (isclose s (fst p)), (isclose e z); simpl; try apply NoDup_nil_2; try apply NoDup_singleton.
      apply NoDup_cons. split; [|apply NoDup_singleton]. rewrite elem_of_list_singleton. lia.
    - intros v Hv Q. apply elem_of_list_In in Hv, Q. apply in_map_iff in Q. destruct Q as (g & <- & Hg). destruct (Gb g Hg). unfold gap_if in Hv.
      destruct (isclose s (fst p)), (isclose e z); simpl in Hv; intuition lia. }
  assert (Wv : exists wa wb wc, ws = ((wa ++ wb) ++ wc)%list /\ Forall2 (fresh_blank h h3 c) wa (gap_if s (fst p) (s, fst p)) /\
    Forall2 (fresh_blank h h3 c) wb (gap_if e z (z, e)) /\ Forall2 (fresh_blank h h3 c) wc (gaps_in (p :: ts))).
  { unfold ps in Ws. apply Forall2_app_inv_r in Ws. destruct Ws as (wab & wc & Wab & Wc & Q). apply Forall2_app_inv_r in Wab.
    destruct Wab as (wa & wb & Wa & Wb & ->). exists wa, wb, wc. auto. }
  destruct Wv as (wa & wb & wc & Qw & Wa & Wb & Wc).
  destruct (weave_gaps h h3 c e l ts p wc wb Ft') as (out & M & P).
  { eapply Forall2_impl; [exact Wc|]. intros w g. apply fresh_blank_of. }
  { fold z. unfold gap_if in Wb. destruct (isclose e z) eqn:Cl.
    - left. apply Forall2_nil_inv_r in Wb. split; [apply isclose_spec; exact Cl|exact Wb].
    - right. apply Forall2_cons_inv_r in Wb. destruct Wb as (w & r & Fw & Wb & ->). apply Forall2_nil_inv_r in Wb. subst r.
      split; [intros N; apply isclose_spec in N; congruence|]. exists w. split; [reflexivity|]. exact (fresh_blank_of _ _ _ _ _ Fw). }
  assert (Mb : exists b, mended h h3 c s (f :: l) e b /\ Permutation b (ws ++ f :: l)).
  { unfold gap_if in Wa. destruct (isclose s (fst p)) eqn:Cl.
    - apply Forall2_nil_inv_r in Wa. subst wa. exists (f :: out). split; [eapply mended_next; eauto; apply isclose_spec; exact Cl|].
      rewrite P, Qw. cbn [List.app]. rewrite <- Permutation_middle. apply perm_skip. rewrite !app_assoc. apply Permutation_app_tail, Permutation_app_comm.
    - apply Forall2_cons_inv_r in Wa. destruct Wa as (w & r & Fw & Wa & ->). apply Forall2_nil_inv_r in Wa. subst r. exists (w :: f :: out).
      split; [eapply mended_gap; eauto; [intros N; apply isclose_spec in N; congruence|exact (fresh_blank_of _ _ _ _ _ Fw)]|].
      rewrite P, Qw. cbn [List.app]. apply perm_skip. rewrite <- Permutation_middle. apply perm_skip. rewrite !app_assoc. apply Permutation_app_tail, Permutation_app_comm. }
  destruct Mb as (b & Mb & Pb). clear out M P.
  assert (Ko : forall x, In x (f :: l) -> sob h3 x = sob h x) by (intros x Hx; apply Od, Lk, Hx).
  destruct (mended_runs _ _ _ _ _ _ _ Mb) as [Rb Sb]; [intros x Hx; rewrite (Ko x Hx); auto|exact Ru|].
  destruct (runs_rising _ _ _ _ Rb) as [Ri _].
  assert (Ou : sob h3 u = sob h u) by (apply Od; exact Lu).
  assert (Fa3 : family h3 c u).
  { unfold family. rewrite Ou, Ek. split; [lia|]. split; [exact Nu|]. split; [rewrite (subset_class_ext h h3) by auto; exact Sc|]. split; [exact Iu|]. split; [exact Ndk|].
    split; [eapply sorted_ext; [|exact Ss]; intros x Hx; rewrite (Ko x Hx); reflexivity|]. split; [exact Ec|].
    intros y Hy. destruct (Kd y Hy) as [K1 K2]. rewrite (Ko y Hy). split; [|exact K2]. apply (sound_kept h); auto; rewrite (Ko y Hy); reflexivity. }
  assert (Pv : Permutation b (sv_vals a3 ++ f :: l)) by (rewrite Pb; apply Permutation_app_tail; symmetry; exact Va).
  assert (Fr : forall x, In x (sv_vals a3) -> exists g, fresh_blank h h3 c x g).
  { intros x Hx. apply (Permutation_in x Va) in Hx. destruct (Forall2_in_l _ _ _ _ Ws Hx) as (g & _ & G). eauto. }
  exists h3, (sv_vals a3), b. split.
  { intros n. cbn [seq_cleanup]. mstep. rewrite Sc. unfold issubclass_m. mstep. rewrite Nb. change (get_seq u) with (gets (fun h => sob h u)). mstep. rewrite Ek.
    cbv zeta. mstep. mstep. rewrite (Ea h _ eq_refl eq_refl Il), El, Es, Ee. unfold start_of. rewrite Tf1. cbn [close_m].
    mstep. rewrite (bind_ok _ _ _ _ _ E1). mstep. rewrite (bind_ok _ _ _ _ _ E2). rewrite (bind_ok _ _ _ _ _ E3). reflexivity. }
  split; [auto|]. split; [exact Ln|]. split; [exact Od|]. split; [intros i Hi Hn Hv; apply Nw; auto; intros Q; apply Hv, (Permutation_in i (Permutation_sym Va) Q)|].
  split; [exact Fr|]. split; [exact Mb|]. split; [exact Pv|]. split; [exact Rb|]. split; [exact Sb|]. split; [exact Ri|exact Fa3].
Qed.
Lemma fill_gaps n h c u s e : family h c u -> s_subset (sob h u) <> [] -> s_start (sob h u) = Some s -> s_end (sob h u) = Some e ->
  runs h s (s_subset (sob h u)) e -> issubclass h c cBottom = false -> issubclass h c cInterval = true -> issubclass h c cPoint = false -> ungrouped h u ->
  exists h' b, seq_cleanup (S n) u h = Ok tt h' /\ mended h h' c s (s_subset (sob h u)) e b /\ s_subset (sob h' u) = b /\
    only_inside h h' u b /\ (h' = h /\ b = s_subset (sob h u) \/ rears h h' c u b).
Proof.
  intros Fa Ne Es Ee Ru Nb I Pt Ug. pose proof Fa as (Lu & Nu & Sc & Iu & Ndk & Ss & Ec & Kd).
  destruct (gap_blanks h c u s e Fa Ne Es Ee Ru Nb I Pt) as (h3 & v & b & Erun & (R1 & R2 & R3 & R4) & Ln & Od & Nw & Fr & Mb & Pv & Rb & Sb & Ri & Fa3).
  assert (Ou : sob h3 u = sob h u) by (apply Od; exact Lu).
  assert (Lk : forall x, In x (s_subset (sob h u)) -> live h x /\ s_cls (sob h x) = c) by (intros x Hx; destruct (Kd x Hx) as ((A & B & _) & _); auto).
  assert (Ko : forall x, In x (s_subset (sob h u)) -> sob h3 x = sob h x) by (intros x Hx; apply Od, Lk, Hx).
  destruct (s_subset (sob h u)) as [|f l] eqn:Ek; [contradiction|]. clear Ne.
  destruct (fill_loop n c u (v) h3 Fa3) as (h' & b' & E' & P' & So & D).
  { intros x Hx. destruct (Fr x Hx) as (g & G). destruct (fresh_fields _ _ _ _ _ G) as (A0 & A1 & A2 & A3 & A4 & A5 & A6 & _).
    split; [|split; [exact A5|intros ->; destruct G as [G _]; unfold live in *; lia]].
    split; [exact A0|]. split; [exact A1|]. split; [rewrite A4; discriminate|]. split; eauto. }
  { rewrite Ou, Ek. apply NoDup_ListNoDup. eapply Permutation_NoDup; [apply Permutation_map; exact Pv|]. apply NoDup_ListNoDup, rising_nodup, Ri. }
  { intros t g. rewrite Ou. unfold tob, gob. rewrite R2, R3. apply Ug. }
  rewrite Ou, Ek in P', D.
  assert (b' = b) by (apply (rising_perm h3); [exact Ri|exact So|rewrite P'; symmetry; exact Pv]). subst b'.
  assert (Run : seq_cleanup (S n) u h = Ok tt h') by (rewrite Erun; exact E').
  exists h', b. split; [exact Run|].
  assert (Bl : forall y, In y b -> live h3 y).
  { intros y Hy. apply (Permutation_in y Pv) in Hy. apply in_app_iff in Hy. destruct Hy as [Hy|Hy]; [destruct (Fr y Hy) as (g & G); apply (fresh_fields _ _ _ _ _ G)|].
    destruct (Lk y Hy). unfold live in *. lia. }
  assert (Ow : forall y, In y b -> ~ In y (f :: l) -> ~ live h y).
  { intros y Hy Q. apply (Permutation_in y Pv) in Hy. apply in_app_iff in Hy. destruct Hy as [Hy|Hy]; [|contradiction]. destruct (Fr y Hy) as (g & [G _]). unfold live. lia. }
  assert (Nub : ~ In u b).
  { intros Q. destruct (in_dec Nat.eq_dec u (f :: l)) as [|Q2]; [contradiction|]. exact (Ow u Q Q2 Lu). }
  destruct D as [(Z1 & -> & Z3)|[Z1 W]].
  - split; [exact Mb|]. split; [rewrite Ou, Ek; symmetry; exact Z3|].
    assert (Qhh : h3 = h).
    { subst b. assert (Sn : snug_row h s (f :: l) e).
      { clear -Sb Ko. revert Sb Ko. generalize (f :: l). intros k. revert s. induction k as [|x k IH]; intros s Sb Ko; [exact Sb|].
        destruct Sb as (s1 & e1 & A & B & C & D). rewrite (Ko x) in A, B by (simpl; auto). exists s1, e1. repeat split; auto. apply IH; [exact D|].
        intros y Hy. apply Ko. right. exact Hy. }
      rewrite <- Ek in Sn. rewrite (snug_still n h c u s e Fa) in Run; auto; [injection Run; auto|rewrite Ek; discriminate]. }
    clear Run Erun E'. subst h3. split; [|left; split; [reflexivity|exact Z3]].
    split; [reflexivity|]. split; [reflexivity|]. split; [reflexivity|]. split; [reflexivity|]. split; [lia|]. split; [auto|]. split; [intros; repeat split|intros; lia].
  - destruct (wired_one _ _ _ _ _ W) as (V1 & V2 & V3 & V4). pose proof (wi_rest _ _ _ _ _ W) as (T1 & T2 & T3 & T4). pose proof (wi_len _ _ _ _ _ W) as Le'.
    assert (Ib : forall y, In y b -> sound_child h3 c y).
    { intros y Hy. apply (Permutation_in y Pv) in Hy. apply in_app_iff in Hy. destruct Hy as [Hy|Hy].
      - destruct (Fr y Hy) as (g & G). destruct (fresh_fields _ _ _ _ _ G) as (A0 & A1 & A2 & A3 & A4 & _). split; [exact A0|]. split; [exact A1|]. split; [rewrite A4; discriminate|]. split; eauto.
      - destruct Fa3 as (_ & _ & _ & _ & _ & _ & _ & K). apply K. rewrite Ou, Ek. exact Hy. }
    assert (Ndb : NoDup b).
    { apply NoDup_ListNoDup. eapply (NoDup_map_inv (fun x => s_start (sob h3 x))). apply NoDup_ListNoDup, rising_nodup, Ri. }
    destruct (wired_rears c u b h3 h' W) as ((K1 & K2 & K3 & K4 & K5 & K6) & (O1 & O2 & O3 & O4 & O5 & O6) & _ & Sh); auto.
    { unfold live in *. lia. }
    { rewrite Ou. exact Nu. }
    { apply Fa3. }
    split; [|split; [exact K1|split]].
    + apply (mended_ext h h3 h' c s (f :: l) e b Mb Le'). intros w Hw. destruct (V2 w Hw) as (q1 & q2 & q3 & q4 & q5 & q6 & _). auto.
    + split; [congruence|]. split; [congruence|]. split; [congruence|]. split; [congruence|]. split; [lia|]. split; [|split].
      * intros i Hi Hu Hb. rewrite V4, Od; auto. unfold live in *. lia.
      * intros i Hi Hb. rewrite <- (Od i Hi). apply Sh. exact Hb.
      * intros i Hi Hb. destruct (decide (live h3 i)) as [L3|L3].
        -- assert (Bd : is_boundary h3 i).
           { apply Nw; [exact L3|unfold live; lia|]. intros Q. apply Hb, (Permutation_in i (Permutation_sym Pv)), in_app_iff. auto. }
           destruct Bd as (B0 & Bd). split; [lia|]. rewrite V4; [exact Bd|exact L3|intros ->; unfold live in *; lia|exact Hb].
        -- apply O6. unfold live in L3. lia.
    + right. split; [exact K1|]. split; [rewrite <- Ou; exact K2|]. split; [exact K3|]. split; [exact K4|]. split; [exact K5|exact K6].
Qed.

Lemma c68_fill : forall n h c u s e, family h c u -> s_subset (sob h u) <> [] -> s_start (sob h u) = Some s -> s_end (sob h u) = Some e ->
  runs h s (s_subset (sob h u)) e -> issubclass h c cBottom = false -> issubclass h c cInterval = true -> issubclass h c cPoint = false -> ungrouped h u ->
  exists h' b, seq_cleanup (S n) u h = Ok tt h' /\ mended h h' c s (s_subset (sob h u)) e b /\ s_subset (sob h' u) = b /\
    runs h' s b e /\ snug_row h' s b e /\ only_inside h h' u b /\
    (snug_row h s (s_subset (sob h u)) e -> h' = h) /\ (~ snug_row h s (s_subset (sob h u)) e -> rears h h' c u b).
Proof.
  intros n h c u s e Fa Ne Es Ee Ru Nb I Pt Ug. destruct (fill_gaps n h c u s e Fa Ne Es Ee Ru Nb I Pt Ug) as (h' & b & E & M & K & O & D).
  pose proof Fa as (_ & _ & _ & _ & _ & _ & _ & Kd).
  assert (Kt : forall x, In x (s_subset (sob h u)) -> In x b).
  { clear -M. intros x. induction M; simpl; intuition. }
  destruct (mended_runs _ _ _ _ _ _ _ M) as [R1 R2]; [|exact Ru|].
  { intros x Hx. destruct O as (_ & _ & _ & _ & _ & _ & O & _). destruct (O x) as (_ & q1 & q2 & _); auto. apply (Kd x Hx). }
  exists h', b. split; [exact E|]. split; [exact M|]. split; [exact K|]. split; [exact R1|]. split; [exact R2|]. split; [exact O|]. split.
  - intros Sn. rewrite (snug_still n h c u s e Fa Ne Es Ee Pt Sn) in E. injection E. auto.
  - intros Sn. destruct D as [[-> ->]|D]; [contradiction|exact D].
Qed.
Lemma c68_again : forall n h c u s e, family h c u -> s_subset (sob h u) <> [] -> s_start (sob h u) = Some s -> s_end (sob h u) = Some e ->
  issubclass h c cPoint = false -> snug_row h s (s_subset (sob h u)) e -> seq_cleanup (S n) u h = Ok tt h.
Proof. intros n h c u s e. apply snug_still. Qed.

(** ** An interval without children *)
Lemma classes_below_ext h h' cs : h_cls h' = h_cls h -> forall c, classes_below h c cs -> classes_below h' c cs.
Proof.
  intros E. induction cs as [|d r IH]; intros c; cbn [classes_below].
  - rewrite (subset_class_ext h h') by exact E. intros (d & A & B). exists d. rewrite (issubclass_ext h h') by exact E. auto.
  - rewrite (subset_class_ext h h'), !(issubclass_ext h h') by exact E. intros (A & B & C & D & F). auto 10.
Qed.
Lemma lined_new h h' cs : forall u s e ws, lined h h' u cs s e ws -> forall y, In y ws -> (List.length (h_seq h) <= y)%nat.
Proof.
  induction cs as [|c cs IH]; intros u s e [|v ws] Li; cbn [lined] in Li; try contradiction; try (intros y []; fail).
  destruct Li as (A & _ & _ & _ & _ & _ & _ & _ & _ & Li). intros y [<-|Hy]; [lia|]. eapply IH; eauto.
Qed.
Lemma lined_weak h0 h h' cs : (List.length (h_seq h0) <= List.length (h_seq h))%nat -> forall u s e ws, lined h h' u cs s e ws -> lined h0 h' u cs s e ws.
Proof.
  intros L. induction cs as [|c cs IH]; intros u s e [|v ws] Li; cbn [lined] in *; try contradiction; try exact Li.
  destruct Li as (A & A1 & A2 & A3 & A4 & A5 & A6 & A7 & A8 & Li). split; [lia|]. repeat (split; [assumption|]). eapply IH; eauto.
Qed.
Lemma line_down cs : forall n h u s e, (u < List.length (h_seq h))%nat -> s_label (sob h u) <> "#"%string -> s_subset (sob h u) = [] ->
  s_subec (sob h u) = None \/ s_subec (sob h u) = hd_error cs -> s_start (sob h u) = Some s -> s_end (sob h u) = Some e ->
  classes_below h (s_cls (sob h u)) cs -> ungrouped h u -> (List.length cs < n)%nat ->
  exists h' ws, seq_cleanup n u h = Ok tt h' /\ lined h h' u cs s e ws /\ (cs = [] -> h' = h) /\
    same_but_kids (sob h u) (sob h' u) /\ only_inside h h' u ws.
Proof.
  induction cs as [|c cs IH]; intros n h u s e Lu Nu Eb Ec Es Ee Cl Ug Fu.
  { destruct n as [|n]; [simpl in Fu; lia|]. destruct Cl as (d & Sc & Bo). exists h, []. split.
    { cbn [seq_cleanup]. mstep. rewrite Sc. unfold issubclass_m. mstep. rewrite Bo. reflexivity. }
    split; [exact Eb|]. split; [auto|]. split; [repeat split|]. split; [reflexivity|]. split; [reflexivity|]. split; [reflexivity|]. split; [reflexivity|]. split; [lia|].
    split; [auto|]. split; [intros i _ []|intros; lia]. }
  destruct n as [|n]; [simpl in Fu; lia|]. cbn [List.length] in Fu. destruct Cl as (Sc & Bo & Iv & Pt & Cl). cbn [hd_error] in Ec.
  destruct (new_blank c s e h) as (h1 & E1 & X1 & X2 & X3 & X4 & X5 & X6 & X7 & X8). set (w := List.length (h_seq h)) in *.
  assert (Fw : fresh_blank h h1 c w (s, e)) by (split; [unfold w in *; lia|exact X8]).
  destruct (fresh_fields _ _ _ _ _ Fw) as (W0 & W1 & W2 & W3 & W4 & W5 & W6 & W7 & W8). cbn [fst snd] in W2, W3.
  assert (Ou : sob h1 u = sob h u) by (apply X6; exact Lu).
  assert (Wu : w <> u) by (unfold w in *; lia).
  assert (Fa1 : family h1 c u).
  { unfold family. rewrite Ou, Eb. split; [lia|]. split; [exact Nu|]. split; [rewrite (subset_class_ext h h1) by auto; exact Sc|]. split; [intros []|].
    split; [apply NoDup_nil_2|]. split; [intros i j p q _ Hp; destruct i; discriminate|]. split; [destruct Ec; auto|intros y []]. }
  assert (Sw : sound_child h1 c w).
  { split; [exact W0|]. split; [exact W1|]. split; [rewrite W4; discriminate|]. split; eauto. }
  assert (Ug1 : ungrouped h1 u) by (intros t g; rewrite Ou; unfold tob, gob; rewrite X2, X3; apply Ug).
  destruct (append_child n h1 c u w Fa1 Sw) as (h2 & b & E2 & P2 & So2 & Wi); auto.
  { rewrite Ou, Eb. intros (y & [] & _). }
  rewrite Ou, Eb in P2. apply Permutation_sym, Permutation_length_1_inv in P2. subst b.
  destruct (wired_one _ _ _ _ _ Wi) as (V1 & V2 & V3 & V4). pose proof (wi_rest _ _ _ _ _ Wi) as (T1 & T2 & T3 & T4). pose proof (wi_len _ _ _ _ _ Wi) as Le2.
  destruct (V2 w) as (q1 & q2 & q3 & q4 & q5 & q6 & q7 & q8 & q9 & q10); [simpl; auto|].
  destruct (IH n h2 w s e) as (h' & ws & E3 & Li & Z & Sk & (O1 & O2 & O3 & O4 & O5 & O6 & O7 & O8)).
  - unfold live in W0. lia.
  - rewrite q4, W4. discriminate.
  - rewrite q6. exact W6.
  - left. rewrite q7. exact W7.
  - rewrite q2. exact W2.
  - rewrite q3. exact W3.
  - rewrite q1, W1. apply (classes_below_ext h h2); [congruence|exact Cl].
  - intros t g. rewrite q8, W8. discriminate.
  - lia.
  - assert (Ws : forall y, In y ws -> (List.length (h_seq h2) <= y)%nat).
    { eapply lined_new. exact Li. }
    assert (Ou2 : sob h' u = sob h2 u).
    { apply O6; [lia|auto|]. intros Q. apply Ws in Q. lia. }
    assert (Ew : s_subset (sob h' u) = [w] /\ s_super (sob h' w) = Some u /\ s_within (sob h' w) = Some (WSeq u) /\ chained h' [w]).
    { destruct Sk as (_ & _ & _ & _ & k5 & k6 & k7 & k8 & _). split; [rewrite Ou2, V1; reflexivity|]. split; [congruence|]. split; [congruence|].
      destruct V3 as (_ & C2 & C3). split; [intros [|i] p q Hp Hq; [discriminate|destruct i; discriminate]|].
      assert (Bd : forall k, is_boundary h2 k -> is_boundary h' k).
      { intros k (B0 & B). split; [lia|]. rewrite O6; [exact B|exact B0| |].
        - intros ->. destruct B as (B & _). rewrite q4, W4 in B. discriminate.
        - intros Q. apply Ws in Q. lia. }
      split.
      - intros p Hp. injection Hp as <-. destruct (C2 w eq_refl) as (k & K1 & K2). exists k. split; [congruence|auto].
      - intros p Hp. injection Hp as <-. destruct (C3 w eq_refl) as (k & K1 & K2). exists k. split; [congruence|auto]. }
    destruct Ew as (Y1 & Y2 & Y3 & Y4). destruct Sk as (k1 & k2 & k3 & k4 & k5 & k6 & k7 & k8 & k9).
    exists h', (w :: ws). split.
    { cbn [seq_cleanup]. mstep. rewrite Sc. unfold issubclass_m. mstep. rewrite Bo. change (get_seq u) with (gets (fun h => sob h u)). mstep. rewrite Eb, Es, Ee.
      rewrite (bind_ok _ _ _ _ _ (eq_trans (construct_blank c s e h Iv) E1)). rewrite (bind_ok _ _ _ _ _ E2). exact E3. }
    split.
    { cbn [lined]. split; [unfold w in *; lia|]. split; [congruence|]. split; [congruence|]. split; [congruence|]. split; [congruence|].
      split; [exact Y1|]. split; [exact Y2|]. split; [exact Y3|]. split; [exact Y4|].
      apply (lined_weak h h2); [lia|exact Li]. }
    split; [discriminate|]. split; [rewrite Ou2, V1, Ou; repeat split|].
    split; [congruence|]. split; [congruence|]. split; [congruence|]. split; [congruence|]. split; [lia|]. split; [|split].
    + intros i Hi Hu Hb. simpl in Hb. rewrite O6; [|lia|auto|auto]. rewrite V4; [apply X6; exact Hi|unfold live in *; lia|exact Hu|]. intros [Q|[]]. auto.
    + intros i Hi [Q|Q]; [unfold w in *; lia|]. apply Ws in Q. lia.
    + intros i Hi Hb. simpl in Hb. destruct (decide (i < List.length (h_seq h2))%nat) as [L2|L2]; [|apply O8; [lia|auto]].
      assert (B2 : is_boundary h2 i).
      { destruct (decide (live h1 i)) as [L1|L1]; [|apply (wi_new _ _ _ _ _ Wi); auto].
        assert (B1 : is_boundary h1 i) by (apply X7; [exact L1|unfold live; lia|intros Q; apply Hb; auto]).
        destruct B1 as (B0 & B1). split; [exact L2|]. rewrite V4; [exact B1|exact L1|lia|]. intros [Q|[]]. auto. }
      destruct B2 as (B0 & B2). split; [lia|]. rewrite O6; [exact B2|exact L2|auto|auto].
Qed.
Lemma c68_down : forall cs n h u s e, (u < List.length (h_seq h))%nat -> s_label (sob h u) <> "#"%string -> s_subset (sob h u) = [] ->
  s_subec (sob h u) = None -> s_start (sob h u) = Some s -> s_end (sob h u) = Some e ->
  classes_below h (s_cls (sob h u)) cs -> ungrouped h u -> (List.length cs < n)%nat ->
  exists h' ws, seq_cleanup n u h = Ok tt h' /\ lined h h' u cs s e ws /\ (cs = [] -> h' = h) /\
    same_but_kids (sob h u) (sob h' u) /\ only_inside h h' u ws.
Proof. intros cs n h u s e A B C D. apply line_down; auto. Qed.
End WithEnv.
