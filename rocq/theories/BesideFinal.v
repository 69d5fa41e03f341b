(** * BesideFinal: reading a text grid with points beside rows of different extent. *)
From Verif Require Import TidyFinal LevelFinal CleanFinal RefillFinal PopFinal OwnFinal ClassFinal PointFinal RelateFinal WeaveFinal ReadClasses TripFinal ReadMade ReadFinal UnevenFinal.
From Verif Require Import WidenSpec WidenFinal MixSpec MixFinal BesideSpec.
Open Scope Z_scope.

Section WithEnv.
Context `{Env}.
Opaque span_of.

(** ** What a group of points that was read says *)
Lemma least_some (P : Z -> Prop) (l : list Z) : (forall z, P z <-> In z l) -> l <> [] -> exists z, least P z.
Proof.
  revert P. induction l as [|y l IH]; intros P Q N; [congruence|]. destruct l as [|y' l].
  - exists y. split; [apply Q; simpl; auto|]. intros z Hz. apply Q in Hz. destruct Hz as [<-|[]]. lia.
  - destruct (IH (fun z => In z (y' :: l))) as (m & M1 & M2); [reflexivity|discriminate|]. exists (Z.min y m). split.
    + apply Q. destruct (Z.min_spec y m) as [[_ ->]|[_ ->]]; simpl; auto.
    + intros z Hz. apply Q in Hz. destruct Hz as [<-|Hz]; [lia|]. specialize (M2 z Hz). lia.
Qed.
Lemma greatest_some (P : Z -> Prop) (l : list Z) : (forall z, P z <-> In z l) -> l <> [] -> exists z, greatest P z.
Proof.
  revert P. induction l as [|y l IH]; intros P Q N; [congruence|]. destruct l as [|y' l].
  - exists y. split; [apply Q; simpl; auto|]. intros z Hz. apply Q in Hz. destruct Hz as [<-|[]]. lia.
  - destruct (IH (fun z => In z (y' :: l))) as (m & M1 & M2); [reflexivity|discriminate|]. exists (Z.max y m). split.
    + apply Q. destruct (Z.max_spec y m) as [[_ ->]|[_ ->]]; simpl; auto.
    + intros z Hz. apply Q in Hz. destruct Hz as [<-|Hz]; [lia|]. specialize (M2 z Hz). lia.
Qed.
Lemma tier_first f h g p k : read_points f h g p k -> raw_points (rt_entries (fst p)) -> rt_entries (fst p) <> [] ->
  exists z, least (point_time (fst p)) z /\ tier_xmin k h = Ok (Some z) h.
Proof.
  intros (_ & _ & _ & M & _) Rw Ne.
  assert (Kn : forall x, In x (t_seq (tob h k)) -> exists z, s_start (sob h x) = Some z /\ point_time (fst p) z).
  { intros x Hx. assert (Q : In (mark_of h x) (map (mark h) (rt_entries (fst p)))) by (apply M, in_map, Hx). apply in_map_iff in Q. destruct Q as (e & Q & He). destruct (Rw e He) as (z & y & -> & _).
    unfold mark_of, mark in Q. cbn in Q. injection Q as Q _. exists z. split; [auto|exists y; exact He]. }
  assert (Bk : forall z, point_time (fst p) z -> exists x, In x (t_seq (tob h k)) /\ s_start (sob h x) = Some z).
  { intros z (y & Hy). assert (Q : In (mark h (ERaw (Some z) None y)) (map (mark_of h) (t_seq (tob h k)))) by (apply M, in_map, Hy). apply in_map_iff in Q. destruct Q as (x & Q & Hx). exists x. split; [exact Hx|].
    unfold mark_of, mark in Q. cbn in Q. injection Q as Q _. exact Q. }
  set (v := fun x => default 0 (s_start (sob h x))).
  assert (Eq : forall z, point_time (fst p) z <-> exists x, In x (t_seq (tob h k)) /\ v x = z).
  { intros z. split.
    - intros Q. destruct (Bk z Q) as (x & Hx & E). exists x. split; [exact Hx|unfold v; rewrite E; reflexivity].
    - intros (x & Hx & <-). destruct (Kn x Hx) as (z & E & Q). unfold v. rewrite E. exact Q. }
  assert (Nk : t_seq (tob h k) <> []).
  { destruct (rt_entries (fst p)) as [|e l] eqn:Ee; [congruence|]. destruct (Rw e (or_introl eq_refl)) as (z & y & -> & _). destruct (Bk z) as (x & Hx & _); [exists y; rewrite Ee; simpl; auto|]. intros Q. rewrite Q in Hx. destruct Hx. }
  destruct (least_some (point_time (fst p)) (map v (t_seq (tob h k)))) as (z & Lz).
  { intros z. rewrite Eq, in_map_iff. split; intros (x & A & B); exists x; auto. }
  { intros Q. apply map_eq_nil in Q. congruence. }
  exists z. split; [exact Lz|]. unfold tier_xmin. assert (Es : tstarts h k = map Some (map v (t_seq (tob h k)))).
  { unfold tstarts, starts_of. rewrite map_map. apply map_ext_in. intros x Hx. destruct (Kn x Hx) as (y & E & _). unfold v, start_of. rewrite E. reflexivity. }
  assert (Lo : np_ext Z.min (tstarts h k) h = Ok (Some z) h) by (rewrite Es; apply lowest; destruct Lz as [A B]; split; [apply Eq, A|intros y Hy; apply B, Eq, Hy]).
  destruct (tstarts h k) as [|s l] eqn:E; [destruct (t_seq (tob h k)); [congruence|discriminate]|exact Lo].
Qed.
Lemma pgroup_says f h ps g : read_pgroup f h ps g -> ps <> [] -> (forall p, In p ps -> raw_points (rt_entries (fst p)) /\ rt_entries (fst p) <> []) ->
  exists p q, first_point ps p /\ last_first_point ps q /\ grp_xmin g h = Ok (Some p) h /\ grp_xmax g h = Ok (Some q) h.
Proof.
  intros (_ & P & _ & F) Np Rw. set (ts := g_tiers (gob h g)) in *.
  set (v := fun k => match tier_xmin k h with Ok (Some z) _ => z | _ => 0 end).
  assert (K : Forall2 (fun p k => least (point_time (fst p)) (v k) /\ tier_xmin k h = Ok (Some (v k)) h) ps ts).
  { clear Np P. induction F as [|p k ps' ts' Q F IH]; constructor; [|apply IH; intros q Hq; apply Rw; simpl; auto].
    destruct (Rw p (or_introl eq_refl)) as [R1 R2]. destruct (tier_first f h g p k Q R1 R2) as (z & L & E). unfold v. rewrite E. auto. }
  assert (Nt : ts <> []) by (intros Q; rewrite Q in K; inversion K; congruence).
  assert (Kt : forall k, In k ts -> tier_xmin k h = Ok (Some (v k)) h) by (intros k Hk; destruct (Forall2_in_r _ _ _ k K Hk) as (p & _ & _ & Q); exact Q).
  destruct (least_some (fun z => exists k, In k ts /\ v k = z) (map v ts)) as (p & Lp).
  { intros z. rewrite in_map_iff. split; intros (x & A & B); exists x; auto. }
  { intros Q. apply map_eq_nil in Q. congruence. }
  destruct (greatest_some (fun z => exists k, In k ts /\ v k = z) (map v ts)) as (q & Gq).
  { intros z. rewrite in_map_iff. split; intros (x & A & B); exists x; auto. }
  { intros Q. apply map_eq_nil in Q. congruence. }
  exists p, q. split; [|split; [|split]].
  - destruct Lp as [(k & Hk & E) L]. destruct (Forall2_in_r _ _ _ k K Hk) as (r & Hr & (L1 & L2) & _). split.
    + exists r. split; [exact Hr|]. rewrite <- E. exact L1.
    + intros z (r' & Hr' & Q). destruct (Forall2_in_l _ _ _ r' K Hr') as (k' & Hk' & (_ & L3) & _). specialize (L3 z Q). specialize (L (v k') (ex_intro _ k' (conj Hk' eq_refl))). lia.
  - destruct Gq as [(k & Hk & E) L]. destruct (Forall2_in_r _ _ _ k K Hk) as (r & Hr & L1 & _). split.
    + exists r. split; [exact Hr|]. rewrite <- E. exact L1.
    + intros z (r' & Hr' & Q). destruct (Forall2_in_l _ _ _ r' K Hr') as (k' & Hk' & L3 & _). rewrite (least_one _ _ _ Q L3). apply L. eauto.
  - unfold grp_xmin. rewrite bind_get_grp. fold ts. rewrite (bind_ok _ _ _ _ _ (mapM_known tier_xmin v h ts Kt)). apply lowest, Lp.
  - unfold grp_xmax. rewrite bind_get_grp, P. fold ts. rewrite (bind_ok _ _ _ _ _ (mapM_known tier_xmin v h ts Kt)). apply highest, Gq.
Qed.
(** ** Which groups come of which rows *)
Lemma rows_from (G : list (rawtier * cid) -> gid -> Prop) f h h' rows css gs : rows_as G f h h' rows css gs ->
  (forall g, In g gs -> exists row ocs, In (row, ocs) (combine rows css) /\ (G (interval_part h row ocs) g \/ point_part h row ocs <> [] /\ read_pgroup f h' (point_part h row ocs) g)) /\
  (forall row ocs, In (row, ocs) (combine rows css) ->
     (interval_part h row ocs <> [] -> exists g, In g gs /\ G (interval_part h row ocs) g) /\
     (point_part h row ocs <> [] -> exists g, In g gs /\ read_pgroup f h' (point_part h row ocs) g)).
Proof.
  intros R. induction R as [|row ocs gs rows css gs' (g1 & g2 & -> & R1 & R2) R (I1 & I2)]; [split; [intros g []|intros r o []]|]. split.
  - intros g Hg. apply in_app_iff in Hg. destruct Hg as [Hg|Hg]; [|destruct (I1 g Hg) as (r & o & Q1 & Q2); exists r, o; split; [right; exact Q1|exact Q2]].
    exists row, ocs. split; [left; reflexivity|]. apply in_app_iff in Hg. destruct Hg as [Hg|Hg].
    + left. destruct R1 as [[_ ->]|(g' & -> & R1)]; [destruct Hg|]. destruct Hg as [<-|[]]. exact R1.
    + right. destruct R2 as [[_ ->]|(N & g' & -> & R2)]; [destruct Hg|]. destruct Hg as [<-|[]]. auto.
  - intros r o [E|I].
    + injection E as <- <-. split.
      * intros N. destruct R1 as [[Q _]|(g' & -> & R1)]; [congruence|]. exists g'. split; [simpl; auto|exact R1].
      * intros N. destruct R2 as [[Q _]|(_ & g' & -> & R2)]; [congruence|]. exists g'. split; [apply in_app_iff; left; apply in_app_iff; simpl; auto|exact R2].
    + destruct (I2 r o I) as [Q1 Q2]. split; intros N; [destruct (Q1 N) as (g & Hg & Q)|destruct (Q2 N) as (g & Hg & Q)]; exists g; (split; [apply in_app_iff; auto|exact Q]).
Qed.
Lemma each_row h (lo hi : list (rawtier * cid) -> Z) rows css : Forall2 (fun row ocs => readable h (lo (interval_part h row ocs)) (hi (interval_part h row ocs)) row ocs) rows css ->
  forall row ocs, In (row, ocs) (combine rows css) -> readable h (lo (interval_part h row ocs)) (hi (interval_part h row ocs)) row ocs.
Proof. intros F. induction F as [|r o rows css R F IH]; intros row ocs I; [destruct I|]. destruct I as [E|I]; [injection E as <- <-; exact R|auto]. Qed.
Lemma read_plain lo hi f h h' ps g : read_group lo hi f h h' ps g -> g_points (gob h' g) = false.
Proof. intros (cs & rs & t & b & _ & _ & _ & (_ & (bss & Gd) & _) & _). apply Gd. Qed.
Lemma read_some lo hi f h h' ps g : read_group lo hi f h h' ps g -> ps <> [].
Proof.
  intros (cs & rs & t & b & (_ & _ & L & Pm & (r & Hr & _) & _) & _) ->. apply Permutation_nil in Pm. destruct rs; [discriminate|]. destruct cs; [discriminate|]. discriminate.
Qed.

(** ** Reading *)
Lemma c79_read : forall (n : nat) (h : heap) (rows : list (list rawtier)) (css : list (list cid)) (rest : list rawtier) (lo hi : list (rawtier * cid) -> Z) (s0 s1 e0 e1 : Z),
  class_table h -> Forall2 (fun row ocs => readable h (lo (interval_part h row ocs)) (hi (interval_part h row ocs)) row ocs) rows css -> names_apart h (concat css) ->
  (forall row ocs, In (row, ocs) (combine rows css) -> gapless (map fst (interval_part h row ocs)) \/ 0 < lo (interval_part h row ocs) /\ (List.length row <= S n)%nat) ->
  least (row_value h rows css lo) s0 -> greatest (row_value h rows css lo) s1 -> least (row_value h rows css hi) e0 -> greatest (row_value h rows css hi) e1 ->
  ~ (near s0 s1 /\ near e0 e1) ->
  (forall row ocs p, In (row, ocs) (combine rows css) -> In p (point_part h row ocs) -> rt_entries (fst p) <> []) ->
  (exists row ocs p q, In (row, ocs) (combine rows css) /\ first_point (point_part h row ocs) p /\ last_first_point (point_part h row ocs) q /\ ~ (near p s0 /\ near q s1)) ->
  exists h', new_grid_textgrid (S n) (concat rows ++ rest) (Nested css) h = Raise ValueError h'.
Proof.
  intros n h rows css rest lo hi s0 s1 e0 e1 T Rd Na Gp S0 S1 E0 E1 Un Ne Far. set (a := List.length (h_grid h)).
  set (h0 := Heap (h_cls h) (h_seq h) (h_tier h) (h_grp h) (h_grid h ++ [blank_grid])) in *.
  assert (C0 : h_cls h0 = h_cls h) by reflexivity.
  assert (T0 : class_table h0) by (unfold class_table, cob in *; exact T).
  assert (A0 : aob h0 a = blank_grid) by (unfold aob, h0; cbn [h_grid]; unfold a; rewrite list_lookup_middle by reflexivity; reflexivity).
  assert (L0 : alive h0 a) by (unfold alive, h0; cbn [h_grid]; rewrite app_length; cbn; unfold a; lia).
  assert (Si : exists row ocs, In (row, ocs) (combine rows css) /\ interval_part h row ocs <> []) by (destruct S0 as [(row & ocs & I & Q & _) _]; eauto).
  assert (Er : forall row ocs, In (row, ocs) (combine rows css) -> readable h (lo (interval_part h row ocs)) (hi (interval_part h row ocs)) row ocs) by (apply each_row, Rd).
  assert (Fl : Forall2 (fun row ocs => List.length row = List.length ocs) rows css) by (clear -Rd; induction Rd as [|? ? ? ? [Q _]]; constructor; auto).
  assert (Nc : concat css <> []).
  { destruct Si as (row & ocs & I & Q). destruct ocs as [|c ocs]; [exfalso; apply Q; unfold interval_part; destruct row; reflexivity|].
    apply in_combine_r in I. intros E. assert (Hc : In c (concat css)) by (apply in_concat; exists (c :: ocs); simpl; auto). rewrite E in Hc. destruct Hc. }
  assert (Lp : forall c, lone_point h c <-> lone_point h0 c).
  { intros c. unfold lone_point, superset_class. rewrite (issubclass_ext h h0) by exact C0. reflexivity. }
  assert (Fc : forall c, In c (concat css) -> lone_point h c \/ exists t cs b, class_chain h t cs b /\ In c cs /\ incl cs (concat css) /\ forall x, In x cs -> plain_name (class_name h x)).
  { intros c Hc. apply in_concat in Hc. destruct Hc as (ocs & Ho & Hc).
    assert (Q : exists row, In (row, ocs) (combine rows css)).
    { clear -Fl Ho. induction Fl as [|r o rows css Q F IH]; [destruct Ho|]. destruct Ho as [->|Ho]; [exists r; left; reflexivity|]. destruct (IH Ho) as [q Q']. exists q. right. exact Q'. }
    destruct Q as [row I]. destruct (flat_classes h _ _ [row] [ocs] ltac:(constructor; [exact (Er row ocs I)|constructor]) c) as [P|(t & cs & b & Q1 & Q2 & Q3 & Q4)]; [cbn [concat]; rewrite app_nil_r; exact Hc|left; exact P|right].
    exists t, cs, b. split; [exact Q1|]. split; [exact Q2|]. split; [|exact Q4]. intros x Hx. specialize (Q3 x Hx). cbn [concat] in Q3. rewrite app_nil_r in Q3. apply in_concat. exists ocs. auto. }
  destruct (reclone_fresh h0 a (concat css) T0 L0) as (f & cl & h1 & X1 & T1 & B1 & B2 & B3 & B4 & B5 & B6 & B7 & B8 & B9 & B10 & B11 & B12); [rewrite A0; reflexivity|exact Nc| |exact Na|].
  { intros c Hc. destruct (Fc c Hc) as [P|(t & cs & b & Q1 & Q2 & Q3 & Q4)]; [left; apply Lp, P|right]. exists t, cs, b. split; [apply (chain_cls h); auto|]. auto. }
  assert (Rn : renamed (concat css) f h h1).
  { constructor; [exact T|exact T1|intros c Hc P; apply B10; [exact Hc|apply Lp, P]|]. intros t cs b C I. apply (B11 t cs b); [apply (chain_cls h); auto|exact I]. }
  destruct (rows_made_own (S n) lo hi (concat css) f h rows css h1 Rn Rd (incl_refl _)) as (gs & h2 & X2 & G2 & R2 & W2 & N2 & Bg & Nt & Bt).
  pose proof G2 as (D1 & D2 & D3 & D4 & D5 & D6 & D7 & D8).
  assert (Ng : gs <> []).
  { destruct Si as (row & ocs & I & Q). destruct (rows_from _ _ _ _ _ _ _ R2) as [_ K]. destruct (proj1 (K row ocs I) Q) as (g & Hg & _). intros ->. destruct Hg. }
  assert (L2 : alive h2 a) by (unfold alive in *; rewrite D2, B6; exact L0).
  destruct (groups_set a gs h2 Ng L2) as (h3 & X3 & F1 & F2 & F3 & F4 & F5 & F6 & F7 & F8 & F9); [intros g Hg; apply W2, Hg|].
  assert (A23 : aged h2 h3).
  { split; [exact F1|]. split; [rewrite F2; lia|]. split; [rewrite F3; lia|]. split; [lia|]. split; [intros i _; unfold sob; rewrite F2; reflexivity|]. split; [intros i _; unfold tob; rewrite F3; reflexivity|].
    intros g Hg. destruct (in_dec Nat.eq_dec g gs) as [I|I]; [rewrite F8 by exact I; auto|rewrite F9 by exact I; auto]. }
  pose proof (whole_aged _ _ _ A23 W2) as W3.
  assert (Rp : forall row ocs p, In (row, ocs) (combine rows css) -> In p (point_part h row ocs) -> raw_points (rt_entries (fst p))) by (intros row ocs p I; apply (Er row ocs I)).
  assert (R3 : rows_as (fun ps => read_group (lo ps) (hi ps) f h h3 ps) f h h3 rows css gs).
  { apply (rows_turn _ _ f h h2 h3 _ _ _ R2); intros row ocs g I Hg Q.
    - eapply read_group_later; [|exact Q]. apply (aged_undisturbed h2 h3 _ A23 W2 g Hg).
    - eapply read_pgroup_later; [intros p Hp; apply (Rp row ocs p I Hp)| |exact Q]. apply (aged_undisturbed h2 h3 _ A23 W2 g Hg). }
  assert (Ga : a_groups (aob h3 a) = gs) by (rewrite F6; reflexivity).
  assert (Tg3 : forall g, tiers_in h3 g = tiers_in h2 g).
  { intros g. unfold tiers_in. destruct (in_dec Nat.eq_dec g gs) as [I|I]; [rewrite F8 by exact I; auto|rewrite F9 by exact I; auto]. }
  assert (Nt3 : NoDup (flat_map (tiers_in h3) gs)) by (rewrite (flat_map_ext _ _ Tg3); exact Nt).
  destruct (rows_from _ _ _ _ _ _ _ R3) as [From To]. cbv beta in From, To.
  set (ivs := interval_groups h3 a).
  assert (Iv : forall g, In g ivs <-> In g gs /\ g_points (gob h3 g) = false).
  { intros g. unfold ivs, interval_groups. rewrite filter_In, Ga. destruct (g_points (gob h3 g)); cbn; intuition congruence. }
  assert (Rdy : forall row ocs g, In (row, ocs) (combine rows css) -> read_group (lo (interval_part h row ocs)) (hi (interval_part h row ocs)) f h h3 (interval_part h row ocs) g ->
    fill_ready (S n) h3 (first_of h3 g) (last_of h3 g) g /\ first_of h3 g = lo (interval_part h row ocs) /\ last_of h3 g = hi (interval_part h row ocs)).
  { intros row ocs g I Q.
    assert (Y : fill_ready (S n) h3 (lo (interval_part h row ocs)) (hi (interval_part h row ocs)) g).
    { apply (ready_fill (S n) _ _ f h h3 _ _ Q). destruct (Gp row ocs I) as [Y|[Y1 Y2]]; [left; exact Y|right]. split; [exact Y1|].
      assert (Le : forall (p : rawtier * cid -> bool) l, (List.length (List.filter p l) <= List.length l)%nat) by (clear; intros p l; induction l as [|q l IH]; cbn; [lia|destruct (p q); cbn; lia]).
      specialize (Le (fun p => issubclass h (snd p) cInterval) (combine row ocs)). rewrite combine_length in Le. unfold interval_part. lia. }
    destruct (ready_extent (S n) h3 _ _ g (proj1 Y)) as [-> ->]. auto. }
  assert (Ivr : forall g, In g ivs -> exists row ocs, In (row, ocs) (combine rows css) /\ read_group (lo (interval_part h row ocs)) (hi (interval_part h row ocs)) f h h3 (interval_part h row ocs) g).
  { intros g Hg. apply Iv in Hg. destruct Hg as [Hg Pg]. destruct (From g Hg) as (row & ocs & I & [Q|[_ (_ & Q & _)]]); [eauto|congruence]. }
  assert (Val : forall (v : list (rawtier * cid) -> Z) (w : gid -> Z), (forall row ocs g, In (row, ocs) (combine rows css) -> read_group (lo (interval_part h row ocs)) (hi (interval_part h row ocs)) f h h3 (interval_part h row ocs) g -> w g = v (interval_part h row ocs)) ->
    forall z, row_value h rows css v z <-> exists g, In g ivs /\ w g = z).
  { intros v w Vw z. split.
    - intros (row & ocs & I & N & <-). destruct (proj1 (To row ocs I) N) as (g & Hg & Q). exists g. split; [apply Iv; split; [exact Hg|apply (read_plain _ _ _ _ _ _ _ Q)]|apply (Vw row ocs g I Q)].
    - intros (g & Hg & <-). destruct (Ivr g Hg) as (row & ocs & I & Q). exists row, ocs. split; [exact I|]. split; [apply (read_some _ _ _ _ _ _ _ Q)|symmetry; apply (Vw row ocs g I Q)]. }
  assert (Vl := Val lo (first_of h3) (fun row ocs g I Q => proj1 (proj2 (Rdy row ocs g I Q)))). assert (Vh := Val hi (last_of h3) (fun row ocs g I Q => proj2 (proj2 (Rdy row ocs g I Q)))).
  assert (Says : forall row ocs g, In (row, ocs) (combine rows css) -> point_part h row ocs <> [] -> read_pgroup f h3 (point_part h row ocs) g ->
    exists p q, first_point (point_part h row ocs) p /\ last_first_point (point_part h row ocs) q /\ grp_xmin g h3 = Ok (Some p) h3 /\ grp_xmax g h3 = Ok (Some q) h3).
  { intros row ocs g I N Q. apply (pgroup_says f h3); [exact Q|exact N|]. intros p Hp. split; [apply (Rp row ocs p I Hp)|apply (Ne row ocs p I Hp)]. }
  set (pm := fun g => match grp_xmin g h3 with Ok (Some z) _ => z | _ => 0 end). set (px := fun g => match grp_xmax g h3 with Ok (Some z) _ => z | _ => 0 end).
  assert (T3 : class_table h3) by (unfold class_table, cob in *; rewrite F1, D1; exact T1).
  destruct (c78_error n h3 a (first_of h3) (last_of h3) pm px s0 s1 e0 e1) as (h4 & X4).
  { fold ivs. intros g Hg. destruct (Ivr g Hg) as (row & ocs & I & Q). apply (Rdy row ocs g I Q). }
  { fold ivs. assert (Niv : NoDup (flat_map (tiers_in h3) ivs)) by (apply nodup_part; rewrite Ga; exact Nt3). split; [apply NoDup_ListNoDup; apply List.NoDup_filter, NoDup_ListNoDup; rewrite Ga; exact N2|]. split; [exact Niv|].
    apply whole_entries; [intros g Hg; apply W3, Iv, Hg|exact Niv]. }
  { fold ivs. rewrite Ga. intros g Hg Pg. destruct (From g Hg) as (row & ocs & I & [Q|[N Q]]); [rewrite (read_plain _ _ _ _ _ _ _ Q) in Pg; discriminate|].
    destruct (Says row ocs g I N Q) as (p & q & _ & _ & Xm & Xx). pose proof Q as (_ & _ & _ & F). split; [exact Pg|]. split; [intros E; rewrite E in F; inversion F; congruence|].
    split; [unfold pm; rewrite Xm; reflexivity|]. split; [unfold px; rewrite Xx; reflexivity|]. intros t Ht. destruct (Forall2_in_r _ _ _ t F Ht) as ([r c] & Hp & (_ & Ec & _)). cbn [fst snd] in Ec.
    assert (Pc : issubclass h3 (t_ec (tob h3 t)) cPoint = true).
    { rewrite Ec, (issubclass_ext h1 h3) by congruence. apply filter_In in Hp. destruct Hp as [Hp Pt]. cbn [snd] in Pt. apply in_combine_r in Hp. assert (Hc : In c (concat css)) by (apply in_combine_r in I; apply in_concat; eauto).
      apply (rn_point _ _ _ _ Rn c Hc). destruct (Er row ocs I) as (_ & K & _). destruct (K c Hp) as [K'|K']; [exact K'|]. rewrite (kinds_apart h c cPoint cInterval T) in K'; simpl; auto; discriminate. }
    split; [exact Pc|]. split; [apply (kinds_apart h3 _ cPoint cInterval T3); simpl; auto; try discriminate|]. split.
    - intros k Hk Q'. apply Iv in Hk. destruct Hk as [Hk Pk]. rewrite (flat_own (tiers_in h3) gs Nt3 g k t Hg Hk Ht Q' N2) in Pg. congruence.
    - intros x Hx. destruct (W3 g Hg) as [_ W]. destruct (W t Ht) as (_ & _ & W'). apply (W' x Hx). }
  { fold ivs. destruct S0 as [Q1 Q2]. split; [apply Vl, Q1|]. intros z Hz. apply Q2, Vl, Hz. }
  { fold ivs. destruct S1 as [Q1 Q2]. split; [apply Vl, Q1|]. intros z Hz. apply Q2, Vl, Hz. }
  { fold ivs. destruct E0 as [Q1 Q2]. split; [apply Vh, Q1|]. intros z Hz. apply Q2, Vh, Hz. }
  { fold ivs. destruct E1 as [Q1 Q2]. split; [apply Vh, Q1|]. intros z Hz. apply Q2, Vh, Hz. }
  { exact Un. }
  { destruct Far as (row & ocs & p & q & I & Fp & Fq & Nn). assert (N : point_part h row ocs <> []) by (destruct Fp as [(r & Hr & _) _]; intros E; rewrite E in Hr; destruct Hr).
    destruct (proj2 (To row ocs I) N) as (g & Hg & Q). exists g. rewrite Ga. split; [exact Hg|]. split; [apply Q|]. destruct (Says row ocs g I N Q) as (p' & q' & Fp' & Fq' & Xm & Xx).
    unfold pm, px. rewrite Xm, Xx, (least_one _ _ _ Fp' Fp), (greatest_one _ _ _ Fq' Fq). exact Nn. }
  exists h4. unfold new_grid_textgrid. rewrite (bind_ok _ _ _ a h0) by reflexivity.
  assert (Ntg : concat rows <> []).
  { destruct Si as (row & ocs & I & Q). assert (Nr : row <> []) by (intros ->; apply Q; reflexivity). apply in_combine_l in I. destruct row as [|r row]; [congruence|]. intros E. assert (Hr : In r (concat rows)) by (apply in_concat; exists (r :: row); simpl; auto). rewrite E in Hr. destruct Hr. }
  assert (Nf : nestify (concat rows ++ rest) (Nested css) h0 = Ok (rows, css) h0).
  { destruct (OutputFinal.c37_nested rawtier h0 (concat rows ++ rest) css ltac:(intros ->; apply Nc; reflexivity)) as (gs' & E & Q1 & Q2); [rewrite app_length, (total_lengths _ _ Fl); lia|].
    rewrite E. rewrite (same_rows gs' rows css rest Q1 Fl Q2). reflexivity. }
  destruct (concat rows ++ rest)%list as [|r0 tg] eqn:Et; [destruct (concat rows); [congruence|discriminate]|]. rewrite (bind_ok _ _ _ _ _ Nf). cbn [fst snd].
  assert (Erl : relate_textgrid (S n) a rows css h0 = Ok gs h2).
  { unfold relate_textgrid. rewrite (bind_ok _ _ _ _ _ X1). rewrite bind_gets. rewrite B8. cbn [a_cloned set_a_cloned].
    assert (Em : mapM (fun cs => swap_classes cs cl) css h1 = Ok (map (map f) css) h1).
    { apply OutputFinal.mapM_pure. intros l Hl. apply B12. intros c Hc. apply in_concat. eauto. }
    rewrite (bind_ok _ _ _ _ _ Em). exact X2. }
  rewrite (bind_ok _ _ _ _ _ Erl), (bind_ok _ _ _ _ _ X3). unfold bind. rewrite X4. reflexivity.
Qed.
Lemma c79_beside : forall (n : nat) (h : heap) (rows : list (list rawtier)) (css : list (list cid)) (rest : list rawtier) (lo hi : list (rawtier * cid) -> Z) (s0 s1 e0 e1 : Z),
  class_table h -> Forall2 (fun row ocs => readable h (lo (interval_part h row ocs)) (hi (interval_part h row ocs)) row ocs) rows css -> names_apart h (concat css) ->
  (forall row ocs, In (row, ocs) (combine rows css) -> gapless (map fst (interval_part h row ocs)) \/ 0 < lo (interval_part h row ocs) /\ (List.length row <= S n)%nat) ->
  least (row_value h rows css lo) s0 -> greatest (row_value h rows css lo) s1 -> least (row_value h rows css hi) e0 -> greatest (row_value h rows css hi) e1 ->
  ~ (near s0 s1 /\ near e0 e1) ->
  (forall row ocs p, In (row, ocs) (combine rows css) -> In p (point_part h row ocs) -> rt_entries (fst p) <> []) ->
  (forall row ocs p q, In (row, ocs) (combine rows css) -> first_point (point_part h row ocs) p -> last_first_point (point_part h row ocs) q -> near p s0 /\ near q s1) ->
  exists f a h', new_grid_textgrid (S n) (concat rows ++ rest) (Nested css) h = Ok a h' /\
    rows_as (fun ps => remade_group s0 s1 e1 (lo ps) (hi ps) f h h' (map fst ps, map snd ps)) f h h' rows css (a_groups (aob h' a)) /\
    (forall g, In g (a_groups (aob h' a)) -> g_within (gob h' g) = Some (WGrid a) /\ exists nm, g_name (gob h' g) = Some nm /\ nm <> EmptyString) /\
    (forall c, In c (concat css) -> clone_of h h' c (f c)) /\ class_table h' /\ all_kept h h'.
Proof.
  intros n h rows css rest lo hi s0 s1 e0 e1 T Rd Na Gp S0 S1 E0 E1 Un Ne Cls. set (a := List.length (h_grid h)).
  set (h0 := Heap (h_cls h) (h_seq h) (h_tier h) (h_grp h) (h_grid h ++ [blank_grid])) in *.
  assert (C0 : h_cls h0 = h_cls h) by reflexivity.
  assert (T0 : class_table h0) by (unfold class_table, cob in *; exact T).
  assert (A0 : aob h0 a = blank_grid) by (unfold aob, h0; cbn [h_grid]; unfold a; rewrite list_lookup_middle by reflexivity; reflexivity).
  assert (L0 : alive h0 a) by (unfold alive, h0; cbn [h_grid]; rewrite app_length; cbn; unfold a; lia).
  assert (Si : exists row ocs, In (row, ocs) (combine rows css) /\ interval_part h row ocs <> []) by (destruct S0 as [(row & ocs & I & Q & _) _]; eauto).
  assert (Er : forall row ocs, In (row, ocs) (combine rows css) -> readable h (lo (interval_part h row ocs)) (hi (interval_part h row ocs)) row ocs) by (apply each_row, Rd).
  assert (Fl : Forall2 (fun row ocs => List.length row = List.length ocs) rows css) by (clear -Rd; induction Rd as [|? ? ? ? [Q _]]; constructor; auto).
  assert (Nc : concat css <> []).
  { destruct Si as (row & ocs & I & Q). destruct ocs as [|c ocs]; [exfalso; apply Q; unfold interval_part; destruct row; reflexivity|].
    apply in_combine_r in I. intros E. assert (Hc : In c (concat css)) by (apply in_concat; exists (c :: ocs); simpl; auto). rewrite E in Hc. destruct Hc. }
  assert (Lp : forall c, lone_point h c <-> lone_point h0 c).
  { intros c. unfold lone_point, superset_class. rewrite (issubclass_ext h h0) by exact C0. reflexivity. }
  assert (Fc : forall c, In c (concat css) -> lone_point h c \/ exists t cs b, class_chain h t cs b /\ In c cs /\ incl cs (concat css) /\ forall x, In x cs -> plain_name (class_name h x)).
  { intros c Hc. apply in_concat in Hc. destruct Hc as (ocs & Ho & Hc).
    assert (Q : exists row, In (row, ocs) (combine rows css)).
    { clear -Fl Ho. induction Fl as [|r o rows css Q F IH]; [destruct Ho|]. destruct Ho as [->|Ho]; [exists r; left; reflexivity|]. destruct (IH Ho) as [q Q']. exists q. right. exact Q'. }
    destruct Q as [row I]. destruct (flat_classes h _ _ [row] [ocs] ltac:(constructor; [exact (Er row ocs I)|constructor]) c) as [P|(t & cs & b & Q1 & Q2 & Q3 & Q4)]; [cbn [concat]; rewrite app_nil_r; exact Hc|left; exact P|right].
    exists t, cs, b. split; [exact Q1|]. split; [exact Q2|]. split; [|exact Q4]. intros x Hx. specialize (Q3 x Hx). cbn [concat] in Q3. rewrite app_nil_r in Q3. apply in_concat. exists ocs. auto. }
  destruct (reclone_fresh h0 a (concat css) T0 L0) as (f & cl & h1 & X1 & T1 & B1 & B2 & B3 & B4 & B5 & B6 & B7 & B8 & B9 & B10 & B11 & B12); [rewrite A0; reflexivity|exact Nc| |exact Na|].
  { intros c Hc. destruct (Fc c Hc) as [P|(t & cs & b & Q1 & Q2 & Q3 & Q4)]; [left; apply Lp, P|right]. exists t, cs, b. split; [apply (chain_cls h); auto|]. auto. }
  assert (Rn : renamed (concat css) f h h1).
  { constructor; [exact T|exact T1|intros c Hc P; apply B10; [exact Hc|apply Lp, P]|]. intros t cs b C I. apply (B11 t cs b); [apply (chain_cls h); auto|exact I]. }
  destruct (rows_made_own (S n) lo hi (concat css) f h rows css h1 Rn Rd (incl_refl _)) as (gs & h2 & X2 & G2 & R2 & W2 & N2 & Bg & Nt & Bt).
  pose proof G2 as (D1 & D2 & D3 & D4 & D5 & D6 & D7 & D8).
  assert (Ng : gs <> []).
  { destruct Si as (row & ocs & I & Q). destruct (rows_from _ _ _ _ _ _ _ R2) as [_ K]. destruct (proj1 (K row ocs I) Q) as (g & Hg & _). intros ->. destruct Hg. }
  assert (L2 : alive h2 a) by (unfold alive in *; rewrite D2, B6; exact L0).
  destruct (groups_set a gs h2 Ng L2) as (h3 & X3 & F1 & F2 & F3 & F4 & F5 & F6 & F7 & F8 & F9); [intros g Hg; apply W2, Hg|].
  assert (A23 : aged h2 h3).
  { split; [exact F1|]. split; [rewrite F2; lia|]. split; [rewrite F3; lia|]. split; [lia|]. split; [intros i _; unfold sob; rewrite F2; reflexivity|]. split; [intros i _; unfold tob; rewrite F3; reflexivity|].
    intros g Hg. destruct (in_dec Nat.eq_dec g gs) as [I|I]; [rewrite F8 by exact I; auto|rewrite F9 by exact I; auto]. }
  pose proof (whole_aged _ _ _ A23 W2) as W3.
  assert (Rp : forall row ocs p, In (row, ocs) (combine rows css) -> In p (point_part h row ocs) -> raw_points (rt_entries (fst p))) by (intros row ocs p I; apply (Er row ocs I)).
  assert (R3 : rows_as (fun ps => read_group (lo ps) (hi ps) f h h3 ps) f h h3 rows css gs).
  { apply (rows_turn _ _ f h h2 h3 _ _ _ R2); intros row ocs g I Hg Q.
    - eapply read_group_later; [|exact Q]. apply (aged_undisturbed h2 h3 _ A23 W2 g Hg).
    - eapply read_pgroup_later; [intros p Hp; apply (Rp row ocs p I Hp)| |exact Q]. apply (aged_undisturbed h2 h3 _ A23 W2 g Hg). }
  assert (Ga : a_groups (aob h3 a) = gs) by (rewrite F6; reflexivity).
  assert (Tg3 : forall g, tiers_in h3 g = tiers_in h2 g).
  { intros g. unfold tiers_in. destruct (in_dec Nat.eq_dec g gs) as [I|I]; [rewrite F8 by exact I; auto|rewrite F9 by exact I; auto]. }
  assert (Nt3 : NoDup (flat_map (tiers_in h3) gs)) by (rewrite (flat_map_ext _ _ Tg3); exact Nt).
  destruct (rows_from _ _ _ _ _ _ _ R3) as [From To]. cbv beta in From, To.
  set (ivs := interval_groups h3 a).
  assert (Iv : forall g, In g ivs <-> In g gs /\ g_points (gob h3 g) = false).
  { intros g. unfold ivs, interval_groups. rewrite filter_In, Ga. destruct (g_points (gob h3 g)); cbn; intuition congruence. }
  assert (Rdy : forall row ocs g, In (row, ocs) (combine rows css) -> read_group (lo (interval_part h row ocs)) (hi (interval_part h row ocs)) f h h3 (interval_part h row ocs) g ->
    fill_ready (S n) h3 (first_of h3 g) (last_of h3 g) g /\ first_of h3 g = lo (interval_part h row ocs) /\ last_of h3 g = hi (interval_part h row ocs)).
  { intros row ocs g I Q.
    assert (Y : fill_ready (S n) h3 (lo (interval_part h row ocs)) (hi (interval_part h row ocs)) g).
    { apply (ready_fill (S n) _ _ f h h3 _ _ Q). destruct (Gp row ocs I) as [Y|[Y1 Y2]]; [left; exact Y|right]. split; [exact Y1|].
      assert (Le : forall (p : rawtier * cid -> bool) l, (List.length (List.filter p l) <= List.length l)%nat) by (clear; intros p l; induction l as [|q l IH]; cbn; [lia|destruct (p q); cbn; lia]).
      specialize (Le (fun p => issubclass h (snd p) cInterval) (combine row ocs)). rewrite combine_length in Le. unfold interval_part. lia. }
    destruct (ready_extent (S n) h3 _ _ g (proj1 Y)) as [-> ->]. auto. }
  assert (Ivr : forall g, In g ivs -> exists row ocs, In (row, ocs) (combine rows css) /\ read_group (lo (interval_part h row ocs)) (hi (interval_part h row ocs)) f h h3 (interval_part h row ocs) g).
  { intros g Hg. apply Iv in Hg. destruct Hg as [Hg Pg]. destruct (From g Hg) as (row & ocs & I & [Q|[_ (_ & Q & _)]]); [eauto|congruence]. }
  assert (Val : forall (v : list (rawtier * cid) -> Z) (w : gid -> Z), (forall row ocs g, In (row, ocs) (combine rows css) -> read_group (lo (interval_part h row ocs)) (hi (interval_part h row ocs)) f h h3 (interval_part h row ocs) g -> w g = v (interval_part h row ocs)) ->
    forall z, row_value h rows css v z <-> exists g, In g ivs /\ w g = z).
  { intros v w Vw z. split.
    - intros (row & ocs & I & N & <-). destruct (proj1 (To row ocs I) N) as (g & Hg & Q). exists g. split; [apply Iv; split; [exact Hg|apply (read_plain _ _ _ _ _ _ _ Q)]|apply (Vw row ocs g I Q)].
    - intros (g & Hg & <-). destruct (Ivr g Hg) as (row & ocs & I & Q). exists row, ocs. split; [exact I|]. split; [apply (read_some _ _ _ _ _ _ _ Q)|symmetry; apply (Vw row ocs g I Q)]. }
  assert (Vl := Val lo (first_of h3) (fun row ocs g I Q => proj1 (proj2 (Rdy row ocs g I Q)))). assert (Vh := Val hi (last_of h3) (fun row ocs g I Q => proj2 (proj2 (Rdy row ocs g I Q)))).
  assert (Says : forall row ocs g, In (row, ocs) (combine rows css) -> point_part h row ocs <> [] -> read_pgroup f h3 (point_part h row ocs) g ->
    exists p q, first_point (point_part h row ocs) p /\ last_first_point (point_part h row ocs) q /\ grp_xmin g h3 = Ok (Some p) h3 /\ grp_xmax g h3 = Ok (Some q) h3).
  { intros row ocs g I N Q. apply (pgroup_says f h3); [exact Q|exact N|]. intros p Hp. split; [apply (Rp row ocs p I Hp)|apply (Ne row ocs p I Hp)]. }
  set (pm := fun g => match grp_xmin g h3 with Ok (Some z) _ => z | _ => 0 end). set (px := fun g => match grp_xmax g h3 with Ok (Some z) _ => z | _ => 0 end).
  assert (T3 : class_table h3) by (unfold class_table, cob in *; rewrite F1, D1; exact T1).
  assert (Bt3 : forall g k x, In g gs -> In k (g_tiers (gob h3 g)) -> (List.length (h_tier h1) <= k)%nat /\ (In x (t_seq (tob h3 k)) -> (List.length (h_seq h1) <= x)%nat)).
  { intros g k x Hg Hk. change (In k (tiers_in h3 g)) in Hk. rewrite Tg3 in Hk. destruct (Bt k) as [Q1 Q2]; [apply in_flat_map; eauto|]. split; [exact Q1|]. intros Hx. apply Q2. unfold tob in *. rewrite F3 in Hx. exact Hx. }
  destruct (mix_stage n h3 a (first_of h3) (last_of h3) pm px s0 s1 e0 e1) as (ht & h4 & X4 & Td & Rk & Lv & (M1 & _ & M3 & _ & _ & _ & _ & _ & M9 & M10 & _) & (K1 & K2 & K3 & K4 & K5 & K6 & K7 & K8 & K9 & K10 & K11) & Rw).
  { fold ivs. intros g Hg. destruct (Ivr g Hg) as (row & ocs & I & Q). apply (Rdy row ocs g I Q). }
  { fold ivs. assert (Niv : NoDup (flat_map (tiers_in h3) ivs)) by (apply nodup_part; rewrite Ga; exact Nt3). split; [apply NoDup_ListNoDup; apply List.NoDup_filter, NoDup_ListNoDup; rewrite Ga; exact N2|]. split; [exact Niv|].
    apply whole_entries; [intros g Hg; apply W3, Iv, Hg|exact Niv]. }
  { fold ivs. rewrite Ga. intros g Hg Pg. destruct (From g Hg) as (row & ocs & I & [Q|[N Q]]); [rewrite (read_plain _ _ _ _ _ _ _ Q) in Pg; discriminate|].
    destruct (Says row ocs g I N Q) as (p & q & _ & _ & Xm & Xx). pose proof Q as (_ & _ & _ & F). split; [exact Pg|]. split; [intros E; rewrite E in F; inversion F; congruence|].
    split; [unfold pm; rewrite Xm; reflexivity|]. split; [unfold px; rewrite Xx; reflexivity|]. intros t Ht. destruct (Forall2_in_r _ _ _ t F Ht) as ([r c] & Hp & (_ & Ec & _)). cbn [fst snd] in Ec.
    assert (Pc : issubclass h3 (t_ec (tob h3 t)) cPoint = true).
    { rewrite Ec, (issubclass_ext h1 h3) by congruence. apply filter_In in Hp. destruct Hp as [Hp Pt]. cbn [snd] in Pt. apply in_combine_r in Hp. assert (Hc : In c (concat css)) by (apply in_combine_r in I; apply in_concat; eauto).
      apply (rn_point _ _ _ _ Rn c Hc). destruct (Er row ocs I) as (_ & K & _). destruct (K c Hp) as [K'|K']; [exact K'|]. rewrite (kinds_apart h c cPoint cInterval T) in K'; simpl; auto; discriminate. }
    split; [exact Pc|]. split; [apply (kinds_apart h3 _ cPoint cInterval T3); simpl; auto; try discriminate|]. split.
    - intros k Hk Q'. apply Iv in Hk. destruct Hk as [Hk Pk]. rewrite (flat_own (tiers_in h3) gs Nt3 g k t Hg Hk Ht Q' N2) in Pg. congruence.
    - intros x Hx. destruct (W3 g Hg) as [_ W]. destruct (W t Ht) as (_ & _ & W'). apply (W' x Hx). }
  { fold ivs. destruct S0 as [Q1 Q2]. split; [apply Vl, Q1|]. intros z Hz. apply Q2, Vl, Hz. }
  { fold ivs. destruct S1 as [Q1 Q2]. split; [apply Vl, Q1|]. intros z Hz. apply Q2, Vl, Hz. }
  { fold ivs. destruct E0 as [Q1 Q2]. split; [apply Vh, Q1|]. intros z Hz. apply Q2, Vh, Hz. }
  { fold ivs. destruct E1 as [Q1 Q2]. split; [apply Vh, Q1|]. intros z Hz. apply Q2, Vh, Hz. }
  { exact Un. }
  fold ivs in Lv, K4, K8, K11, Td, Rk, Rw. destruct Rk as (J1 & J2 & J3 & J4 & J5 & J6 & J7 & J8 & J9 & J10 & J11).
  assert (X4' : grid_cleanup (S n) a h3 = Ok tt h4).
  { pose proof (both_near h3 (a_groups (aob h3 a)) pm px s0 s1) as B. destruct (_ && _)%bool; [exact X4|]. exfalso. destruct B as (g & Hg & Pg & B). rewrite Ga in Hg. apply B.
    destruct (From g Hg) as (row & ocs & I & [Q|[N Q]]); [rewrite (read_plain _ _ _ _ _ _ _ Q) in Pg; discriminate|]. destruct (Says row ocs g I N Q) as (p & q & Fp & Fq & Xm & Xx). unfold pm, px. rewrite Xm, Xx. apply (Cls row ocs); auto. }
  clear X4. rename X4' into X4.
  assert (Gd3 : forall g, In g ivs -> exists bss, good_group h3 g (g_tiers (gob h3 g)) bss) by (intros g Hg; destruct (Ivr g Hg) as (row & ocs & I & Q); destruct (Rdy row ocs g I Q) as (((Gd & _) & _) & _); exact Gd).
  assert (Bd4 : forall k, is_boundary h3 k -> is_boundary h4 k).
  { intros k (L & Q1 & Q2). unfold is_boundary. rewrite K11; [split; [lia|auto]|exact L|]. intros t Ht Hk. apply in_flat_map in Ht. destruct Ht as (g & Hg & Ht). destruct (Gd3 g Hg) as (bss & Gd). apply (good_label h3 g _ bss t k Gd Ht Hk Q1). }
  assert (Own : forall g k x, In g gs -> In k (g_tiers (gob h3 g)) -> In x (t_seq (tob h3 k)) -> live h3 x /\ s_intier (sob h3 x) = Some k).
  { intros g k x Hg Hk Hx. destruct (W3 g Hg) as [_ Q]. destruct (Q k Hk) as (_ & _ & Q3). apply (Q3 x Hx). }
  assert (Pts : forall g, In g gs -> g_points (gob h3 g) = true -> (forall k, In k (g_tiers (gob h3 g)) -> tob h4 k = tob h3 k) /\ undisturbed h3 h4 g).
  { intros g Hg Pg. assert (Ni : ~ In g ivs) by (intros I; apply Iv in I; destruct I; congruence).
    assert (Nk : forall k, In k (g_tiers (gob h3 g)) -> ~ In k (flat_map (tiers_in h3) ivs)).
    { intros k Hk Q. apply in_flat_map in Q. destruct Q as (g' & Hg' & Q). apply Ni. rewrite (flat_own (tiers_in h3) gs Nt3 g g' k Hg (proj1 (proj1 (Iv g') Hg')) Hk Q N2). exact Hg'. }
    split; [intros k Hk; apply K8, Nk, Hk|]. constructor; [exact K1|lia|lia|rewrite K5; apply (W3 g Hg)|rewrite K4 by exact Ni; auto|intros k Hk; apply K8, Nk, Hk| |exact Bd4].
    intros k x Hk Hx. destruct (Own g k x Hg Hk Hx) as [L I]. apply K11; [exact L|]. intros t Ht Q. apply in_flat_map in Ht. destruct Ht as (g' & Hg' & Ht). pose proof (proj1 (Iv g') Hg') as [Gg' _]. destruct (Own g' t x Gg' Ht Q) as [_ I'].
    assert (t = k) by congruence. subst t. apply (Nk k Hk). apply in_flat_map. exists g'. split; [exact Hg'|exact Ht]. }
  (* the rest *)
  destruct (within_all (Some (WGrid a)) gs h4) as (h5 & X5 & H1 & H2 & H3 & H4 & H5 & H6 & H7); [intros g Hg; unfold glive; rewrite K5; apply W3, Hg|].
  assert (Ga4 : a_groups (aob h4 a) = gs) by (unfold aob; rewrite K2; exact Ga).
  assert (Ga5 : a_groups (aob h5 a) = gs) by (unfold aob; rewrite H4; exact Ga4).
  assert (Tne : forall g, In g gs -> g_tiers (gob h3 g) <> []).
  { intros g Hg. destruct (From g Hg) as (row & ocs & I & [Q|[N (_ & _ & _ & F)]]); [|intros E; rewrite E in F; inversion F; congruence]. destruct (Rdy row ocs g I Q) as (((_ & t & Ht & _) & _) & _). intros Z. rewrite Z in Ht. discriminate. }
  destruct (named_all a gs h5) as (h6 & X6 & I1 & I2 & I3 & I4 & I5 & I6 & I7 & _ & I9).
  { intros g Hg. rewrite H6 by exact Hg. cbn. split; [unfold glive; rewrite H5, K5; apply W3, Hg|]. destruct (K3 g) as (-> & _). split; [apply Tne, Hg|]. split; [reflexivity|]. rewrite Ga5. exact Hg. }
  assert (Ga6 : a_groups (aob h6 a) = gs) by (unfold aob; rewrite I4; exact Ga5).
  assert (Cl6 : h_cls h6 = h_cls h1) by congruence. assert (Cl63 : h_cls h6 = h_cls h3) by congruence.
  assert (So6 : forall i, sob h6 i = sob h4 i) by (intros i; unfold sob; rewrite I2, H2; reflexivity).
  assert (To6 : forall i, tob h6 i = tob h4 i) by (intros i; unfold tob; rewrite I3, H3; reflexivity).
  assert (Tg6 : forall g, In g gs -> g_tiers (gob h6 g) = g_tiers (gob h3 g) /\ g_points (gob h6 g) = g_points (gob h3 g)).
  { intros g Hg. destruct (I6 g) as (-> & -> & _). rewrite H6 by exact Hg. cbn. destruct (K3 g) as (-> & -> & _). auto. }
  exists f, a, h6. split.
  { unfold new_grid_textgrid. rewrite (bind_ok _ _ _ a h0) by reflexivity.
  assert (Ntg : concat rows <> []).
  { destruct Si as (row & ocs & I & Q). assert (Nr : row <> []) by (intros ->; apply Q; reflexivity). apply in_combine_l in I. destruct row as [|r row]; [congruence|]. intros E. assert (Hr : In r (concat rows)) by (apply in_concat; exists (r :: row); simpl; auto). rewrite E in Hr. destruct Hr. }
  assert (Nf : nestify (concat rows ++ rest) (Nested css) h0 = Ok (rows, css) h0).
  { destruct (OutputFinal.c37_nested rawtier h0 (concat rows ++ rest) css ltac:(intros ->; apply Nc; reflexivity)) as (gs' & E & Q1 & Q2); [rewrite app_length, (total_lengths _ _ Fl); lia|].
    rewrite E. rewrite (same_rows gs' rows css rest Q1 Fl Q2). reflexivity. }
  destruct (concat rows ++ rest)%list as [|r0 tg] eqn:Et; [destruct (concat rows); [congruence|discriminate]|]. rewrite (bind_ok _ _ _ _ _ Nf). cbn [fst snd].
  assert (Erl : relate_textgrid (S n) a rows css h0 = Ok gs h2).
  { unfold relate_textgrid. rewrite (bind_ok _ _ _ _ _ X1). rewrite bind_gets. rewrite B8. cbn [a_cloned set_a_cloned].
    assert (Em : mapM (fun cs => swap_classes cs cl) css h1 = Ok (map (map f) css) h1).
    { apply OutputFinal.mapM_pure. intros l Hl. apply B12. intros c Hc. apply in_concat. eauto. }
    rewrite (bind_ok _ _ _ _ _ Em). exact X2. }
  rewrite (bind_ok _ _ _ _ _ Erl), (bind_ok _ _ _ _ _ X3), (bind_ok _ _ _ _ _ X4).
    assert (Ef : grid_finish a h4 = Ok tt h6).
    { unfold grid_finish. change (get_grid a) with (gets (fun h => aob h a)). rewrite bind_gets, Ga4, (bind_ok _ _ _ _ _ X5). unfold set_group_names. change (get_grid a) with (gets (fun h => aob h a)). rewrite bind_gets, Ga5. exact X6. }
    rewrite (bind_ok _ _ _ _ _ Ef). reflexivity. }
  rewrite Ga6. split.
  { assert (Pr4 : forall g, In g gs -> g_points (gob h3 g) = true -> undisturbed h4 h6 g).
    { intros g Hg Pg. destruct (Pts g Hg Pg) as [Pt _]. destruct (W3 g Hg) as [V1 V2]. destruct (K3 g) as (Kt & _). apply aged_present.
      - split; [congruence|]. split; [rewrite I2, H2; lia|]. split; [rewrite I3, H3; lia|]. split; [lia|]. split; [intros i _; apply So6|]. split; [intros i _; apply To6|].
        intros k Hk. destruct (I6 k) as (Q1 & Q2 & Q3 & _). rewrite Q1, Q2, Q3. destruct (in_dec Nat.eq_dec k gs) as [I|I]; [rewrite H6 by exact I; auto|rewrite H7 by exact I; auto].
      - unfold glive in *. lia.
      - rewrite Kt. intros k Hk. destruct (V2 k Hk) as (V3 & _). split; [unfold tlive in *; lia|]. rewrite (Pt k Hk). intros x Hx. destruct (Own g k x Hg Hk Hx) as [L _]. unfold live in *. lia. }
    apply (rows_turn _ _ f h h3 h6 _ _ _ R3); intros row ocs g I Hg Q.
    2: { assert (Pg : g_points (gob h3 g) = true) by apply Q. eapply read_pgroup_later; [intros p Hp; apply (Rp row ocs p I Hp)|apply (Pr4 g Hg Pg)|]. eapply read_pgroup_later; [intros p Hp; apply (Rp row ocs p I Hp)|apply (Pts g Hg Pg)|exact Q]. }
    set (ps := interval_part h row ocs) in *. destruct (Rdy row ocs g I Q) as (Y1 & Y2 & Y3). fold ps in Y2, Y3. destruct (Tg6 g Hg) as [Et Ep].
    assert (Hiv : In g ivs) by (apply Iv; split; [exact Hg|apply (read_plain _ _ _ _ _ _ _ Q)]).
    assert (Cps : combine (map fst ps) (map snd ps) = ps) by (generalize ps; clear; intros ps; induction ps as [|[? ?] ps IH]; [reflexivity|cbn; rewrite IH; reflexivity]).
    assert (Bd : forall k, is_boundary h3 k -> is_boundary ht k).
    { intros k (Lk & Q1 & Q2). unfold is_boundary. rewrite J5; [split; [lia|auto]|exact Lk|]. intros t Ht Hk. apply in_flat_map in Ht. destruct Ht as (g' & Hg' & Ht).
      destruct (Gd3 g' Hg') as (bss & Gd). apply (good_label h3 g' _ bss t k Gd Ht Hk Q1). }
    assert (Ei : either_group (lo ps) (hi ps) f h ht ps g).
    { apply (either_tidied (S n) (lo ps) (hi ps) f h h3 ht ps g Q); auto.
      - rewrite <- Y2, <- Y3. apply Y1.
      - intros t Ht. destruct (J1 t) as (V1 & V2 & V3 & V4 & _); [apply in_flat_map; exists g; auto|]. auto.
      - intros i Hi. destruct (J4 i Hi) as (_ & V1 & V2 & V3 & _). auto. }
    destruct Q as (_ & _ & _ & _ & _ & _ & _ & (_ & (bss0 & Gd0) & _) & _).
    destruct (either_mended _ _ _ _ _ _ _ Ei) as (cs & rs & t' & b' & N & C & Q1 & (bss & Gd) & R). destruct (Rw g Hiv) as [_ Gt]. rewrite Gt in *.
    unfold remade_group. cbn [fst snd]. rewrite Cps. split; [rewrite Ep; apply Gd0|]. exists cs, rs. split; [exact N|]. rewrite Et. split.
    { rewrite <- Q1. apply map_ext_in. intros t _. rewrite To6. apply M9. }
    eapply Forall2_weaken; [exact R|]. intros r k _ Hk (Z1 & m & Z0 & Z2). unfold remade_as. rewrite To6. destruct (M9 k) as (Ec & _ & _ & Nm & _). rewrite Nm, Ec.
    assert (Clt : h_cls h6 = h_cls ht) by congruence.
    split; [exact Z1|]. assert (Ik : issubclass h6 (t_ec (tob ht k)) cInterval = true) by (rewrite (issubclass_ext ht h6) by exact Clt; apply C; rewrite <- Q1; apply (in_map (fun t => t_ec (tob ht t))), Hk).
    split; [exact Ik|].
    destruct (Lv g k Hiv Hk) as (front & back & Es & Bf & Bb). rewrite Y2 in Bf. rewrite Y3 in Bb. rewrite Es.
    assert (Tb6 : class_table h6) by (unfold class_table, cob in *; rewrite Cl6; exact T1).
    assert (Kb : issubclass h6 (t_ec (tob ht k)) cPoint = false) by (apply (kinds_apart h6 _ cInterval cPoint Tb6); simpl; auto; try discriminate).
    assert (Ol : forall x, In x (t_seq (tob ht k)) -> (x < List.length (h_seq ht))%nat) by (intros x Hx; apply (good_live ht g _ bss k x Gd Hk Hx)).
    assert (Bl : forall ok u v l, blank_unless ok ht h4 (t_ec (tob ht k)) u v l -> (forall x, In x l -> issubclass h6 (s_cls (sob h6 x)) cPoint = false) /\
              exists le, Forall2 (stands_for h6) le l /\ (ok /\ le = [] \/ ~ ok /\ le = [ERaw (Some u) (Some v) EmptyString])).
    { intros ok u v l [[P ->]|(P & x & -> & _ & (V1 & V2 & V3 & V4 & _))]; [split; [intros x []|exists []; split; [constructor|auto]]|]. split.
      - intros y [<-|[]]. rewrite So6, V1. exact Kb.
      - eexists. split; [|right; split; [exact P|reflexivity]]. constructor; [|constructor]. unfold stands_for. rewrite So6, V2, V3, V4. reflexivity. }
    destruct (Bl _ _ _ _ Bf) as (Bf1 & lf & Bf2 & Bf3). destruct (Bl _ _ _ _ Bb) as (Bb1 & lb & Bb2 & Bb3). split.
    - intros x Hx. rewrite !in_app_iff in Hx. destruct Hx as [Hx|[Hx|Hx]]; auto. rewrite So6. destruct (M10 x (Ol x Hx)) as (-> & _). rewrite (issubclass_ext ht h6) by exact Clt.
      apply (proj2 (good_point ht g _ bss k Gd Hk) x Hx).
    - exists m, (lf ++ m ++ lb)%list. split; [exact Z0|]. split; [exists lf, lb; split; [reflexivity|]; split; [exact Bf3|exact Bb3]|]. apply Forall2_app; [exact Bf2|]. apply Forall2_app; [|exact Bb2].
      eapply Forall2_weaken; [exact Z2|]. intros e x _ Hx Sf. unfold stands_for in *. rewrite So6. destruct (M10 x (Ol x Hx)) as (_ & -> & -> & -> & _). exact Sf. }
  split.
  { intros g Hg. split; [|apply I9, Hg]. destruct (I6 g) as (_ & _ & _ & ->). rewrite H6 by exact Hg. reflexivity. }
  split. { intros c Hc. destruct (B9 c Hc) as [(Q1 & Q2 & Q3) _]. split; [rewrite Cl6; exact Q1|]. split; [unfold class_name, cob in *; rewrite Cl6; exact Q2|unfold cob in *; rewrite Cl6; exact Q3]. }
  split; [unfold class_table, cob in *; rewrite Cl6; exact T1|].
  split. { intros c Hc. unfold cob. rewrite Cl6. apply (B2 c Hc). }
  split. { intros i Hi. rewrite So6. assert (E : sob h3 i = sob h i).
    { unfold sob at 1. rewrite F2. fold (sob h2 i). rewrite D6; [unfold sob; rewrite B3; reflexivity|]. unfold live. rewrite B3. exact Hi. }
    rewrite K11; [exact E|rewrite F2; rewrite B3 in D3; unfold h0 in D3; cbn in D3; lia|]. intros t Ht Q. apply in_flat_map in Ht. destruct Ht as (g & Hg & Ht). apply Iv in Hg. destruct Hg as [Hg _]. destruct (Bt3 g t i Hg Ht) as [_ X]. specialize (X Q). rewrite B3 in X. unfold h0 in X. cbn in X. lia. }
  split. { intros i Hi. rewrite To6. rewrite K8; [unfold tob; rewrite F3; fold (tob h2 i); rewrite D7; [unfold tob; rewrite B4; reflexivity|]; unfold tlive; rewrite B4; exact Hi|].
    intros Ht. apply in_flat_map in Ht. destruct Ht as (g & Hg & Ht). apply Iv in Hg. destruct Hg as [Hg _]. destruct (Bt3 g i 0%nat Hg Ht) as [X _]. rewrite B4 in X. unfold h0 in X. cbn in X. lia. }
  split. { intros i Hi. assert (Ni : ~ In i gs) by (intros Q; specialize (Bg i Q); rewrite B5 in Bg; cbn in Bg; lia). rewrite I7, H7 by exact Ni. rewrite K4 by (intros Q; apply Iv in Q; tauto). rewrite F9 by exact Ni. rewrite D8; [unfold gob; rewrite B5; reflexivity|]. unfold glive. rewrite B5. exact Hi. }
  split. { intros i Hi. assert (Ni : i <> a) by (unfold a; lia). unfold aob. rewrite I4, H4, K2. fold (aob h3 i). rewrite F7 by exact Ni. unfold aob. rewrite D2. fold (aob h1 i). rewrite B7 by exact Ni. unfold aob, h0. cbn [h_grid]. rewrite lookup_app_l by exact Hi. reflexivity. }
  split; [rewrite Cl6; exact B1|]. split; [rewrite I2, H2; rewrite B3 in D3; rewrite F2 in K6; unfold h0 in D3; cbn in D3; lia|]. split; [rewrite I3, H3, K7, F3; rewrite B4 in D4; exact D4|].
  split; [rewrite I5, H5, K5, F4; rewrite B5 in D5; exact D5|]. rewrite I4, H4, K2, F5, D2, B6. unfold h0. cbn [h_grid]. rewrite app_length. lia.
Qed.

(** ** Writing it again *)
Lemma rows_beside s0 s1 e1 lo hi f h h' : class_table h -> class_table h' -> (forall x, clive h x -> cob h' x = cob h x) -> (List.length (h_cls h) <= List.length (h_cls h'))%nat ->
  forall rows css gs, rows_as (fun ps => remade_group s0 s1 e1 (lo ps) (hi ps) f h h' (map fst ps, map snd ps)) f h h' rows css gs ->
  Forall2 (fun row ocs => readable h (lo (interval_part h row ocs)) (hi (interval_part h row ocs)) row ocs) rows css -> (forall c, In c (concat css) -> clone_of h h' c (f c)) ->
  exists outs, Forall2 (fun rc => wrote_beside s0 s1 e1 (lo (interval_part h (fst rc) (snd rc))) (hi (interval_part h (fst rc) (snd rc))) h (fst rc) (snd rc)) (combine rows css) outs /\
    Permutation (concat (map fst outs)) (concat rows) /\
    concat (map snd outs) = map (fun t => (t_name (tob h' t), map (praatio h') (t_seq (tob h' t)))) (flat_map (fun g => g_tiers (gob h' g)) gs).
Proof.
  intros T T' K L rows css gs R. induction R as [|row ocs gs rows css gs' (g1 & g2 & -> & R1 & R2) R IH]; intros F Cl; [exists []; repeat (split; [constructor|]); constructor|].
  inversion F as [|? ? ? ? Rd F']; subst. destruct IH as (outs & O1 & O2 & O3); [exact F'|intros c Hc; apply Cl; cbn [concat]; apply in_app_iff; auto|].
  destruct Rd as (Lr & Kc & _ & Pt). set (ps := interval_part h row ocs) in *.
  set (out := fun g0 => map (fun t => (t_name (tob h' t), map (praatio h') (t_seq (tob h' t)))) (flat_map (fun g => g_tiers (gob h' g)) g0)).
  assert (A1 : exists rs, Permutation rs (map fst ps) /\ (ps = [] /\ rs = [] /\ out g1 = [] \/ wrote_row_remade s0 s1 e1 (lo ps) (hi ps) h (map fst ps, map snd ps) (rs, out g1))).
  { destruct R1 as [[E ->]|(g & -> & R1)]; [exists []; rewrite E; split; [constructor|left; auto]|]. destruct (group_remade _ _ _ _ _ _ _ _ _ _ R1) as (rs & W). exists rs. split.
    - destruct W as ((cs & W) & _). cbn [fst snd] in W. eapply perm_row; [|exact W]. rewrite !map_length. reflexivity.
    - right. unfold out. cbn [flat_map]. rewrite app_nil_r. exact W. }
  assert (A2 : Forall2 (wrote h) (point_part h row ocs) (out g2)).
  { destruct R2 as [[E ->]|(_ & g & -> & R2)]; [rewrite E; constructor|]. unfold out. cbn [flat_map]. rewrite app_nil_r. apply (pgroup_wrote (fun l => l) f h h' _ g T R2).
    intros p Hp. split; [apply Pt, Hp|]. apply filter_In in Hp. destruct Hp as [Hp X]. split; [exact X|]. apply (copy_kind h h' (snd p)); auto. apply Cl. cbn [concat]. apply in_app_iff. left.
    destruct p. apply in_combine_r in Hp. exact Hp. }
  destruct A1 as (rs & P1 & A1). exists (((rs ++ map fst (point_part h row ocs))%list, (out g1 ++ out g2)%list) :: outs). split; [|split].
  - cbn [combine]. constructor; [|exact O1]. exists rs, (out g1), (out g2). cbn [fst snd]. auto.
  - cbn [map concat fst]. apply Permutation_app; [|exact O2]. rewrite P1. rewrite <- map_app. unfold ps. rewrite <- (pair_split h row ocs T Kc Lr). rewrite OutputFinal.fst_combine by exact Lr. reflexivity.
  - cbn [map concat snd]. rewrite O3. unfold out. rewrite !flat_map_app, !map_app. reflexivity.
Qed.
Lemma c79_round : forall (n : nat) (h : heap) (rows : list (list rawtier)) (css : list (list cid)) (rest : list rawtier) (lo hi : list (rawtier * cid) -> Z) (s0 s1 e0 e1 : Z),
  class_table h -> Forall2 (fun row ocs => readable h (lo (interval_part h row ocs)) (hi (interval_part h row ocs)) row ocs) rows css -> names_apart h (concat css) ->
  (forall row ocs, In (row, ocs) (combine rows css) -> gapless (map fst (interval_part h row ocs)) \/ 0 < lo (interval_part h row ocs) /\ (List.length row <= S n)%nat) ->
  least (row_value h rows css lo) s0 -> greatest (row_value h rows css lo) s1 -> least (row_value h rows css hi) e0 -> greatest (row_value h rows css hi) e1 ->
  ~ (near s0 s1 /\ near e0 e1) ->
  (forall row ocs p, In (row, ocs) (combine rows css) -> In p (point_part h row ocs) -> rt_entries (fst p) <> []) ->
  (forall row ocs p q, In (row, ocs) (combine rows css) -> first_point (point_part h row ocs) p -> last_first_point (point_part h row ocs) q -> near p s0 /\ near q s1) ->
  NoDup (map rt_name (concat rows)) ->
  exists a h' outs, new_grid_textgrid (S n) (concat rows ++ rest) (Nested css) h = Ok a h' /\
    Forall2 (fun rc => wrote_beside s0 s1 e1 (lo (interval_part h (fst rc) (snd rc))) (hi (interval_part h (fst rc) (snd rc))) h (fst rc) (snd rc)) (combine rows css) outs /\
    Permutation (concat (map fst outs)) (concat rows) /\ return_textgrid h' a = concat (map snd outs).
Proof.
  intros n h rows css rest lo hi s0 s1 e0 e1 T Rd Na Gp S0 S1 E0 E1 Un Ne Cls Nd.
  destruct (c79_beside n h rows css rest lo hi s0 s1 e0 e1 T Rd Na Gp S0 S1 E0 E1 Un Ne Cls) as (f & a & h' & E & R & _ & Cl & T' & (K & _ & _ & _ & _ & L & _)).
  destruct (rows_beside s0 s1 e1 lo hi f h h' T T' K L rows css _ R Rd Cl) as (outs & O1 & O2 & O3). exists a, h', outs. split; [exact E|]. split; [exact O1|]. split; [exact O2|].
  rewrite O3. change (flat_map (fun g => g_tiers (gob h' g)) (a_groups (aob h' a))) with (grid_tiers h' a). apply written_plain.
  assert (En : map (fun t => t_name (tob h' t)) (grid_tiers h' a) = map rt_name (concat (map fst outs))).
  { assert (En : map fst (concat (map snd outs)) = map rt_name (concat (map fst outs))).
    { clear -O1. induction O1 as [|rc o l outs (rs & o1 & o2 & Q1 & Q2 & Q3 & Q4) O1 IH]; [reflexivity|]. cbn [map concat]. rewrite !map_app, IH, Q1, Q2, !map_app. f_equal. f_equal.
      - destruct Q3 as [(_ & -> & ->)|[_ W]]; [reflexivity|]. cbn [fst snd] in W. clear -W. induction W as [|r p rs ps [Q _] W IH]; [reflexivity|]. cbn [map]. rewrite IH, Q. reflexivity.
      - clear -Q4. induction Q4 as [|r p rs ps [Q _] W IH]; [reflexivity|]. cbn [map]. rewrite IH, Q. reflexivity. }
    rewrite <- En, O3, map_map. reflexivity. }
  rewrite En, O2. exact Nd.
Qed.
End WithEnv.
