(** * UnevenFinal: reading a text grid whose rows differ in extent. *)
From Verif Require Import TidyFinal LevelFinal CleanFinal RefillFinal PopFinal OwnFinal ClassFinal PointFinal RelateFinal WeaveFinal ReadClasses TripFinal ReadMade ReadFinal.
From Verif Require Import UnevenSpec.
Open Scope Z_scope.

Section WithEnv.
Context `{Env}.
Opaque span_of.

(** As [rows_made], each row with its own extent. *)
Lemma rows_made_own n (lo hi : list (rawtier * cid) -> Z) flat f h : forall rows css h1, renamed flat f h h1 ->
  Forall2 (fun row ocs => readable h (lo (interval_part h row ocs)) (hi (interval_part h row ocs)) row ocs) rows css -> incl (concat css) flat ->
  exists gs h2, build_groups n rows (map (map f) css) h1 = Ok gs h2 /\ grown h1 h2 /\
    rows_as (fun ps => read_group (lo ps) (hi ps) f h h2 ps) f h h2 rows css gs /\ whole_groups h2 gs /\
    NoDup gs /\ (forall g, In g gs -> (List.length (h_grp h1) <= g)%nat) /\
    NoDup (flat_map (tiers_in h2) gs) /\ (forall k, In k (flat_map (tiers_in h2) gs) -> (List.length (h_tier h1) <= k)%nat /\ forall x, In x (t_seq (tob h2 k)) -> (List.length (h_seq h1) <= x)%nat).
Proof.
  intros rows css h1 Rn F. revert h1 Rn. induction F as [|row ocs rows css R F IH]; intros h1 Rn Ic.
  - exists [], h1. split; [reflexivity|]. split; [apply grown_refl|]. split; [constructor|]. split; [intros g []|]. split; [constructor|]. split; [intros g []|]. split; [constructor|intros k []].
  - destruct (row_made n _ _ flat f h h1 row ocs Rn R) as (s & q & g1 & g2 & ha & hb & h2 & E1 & E2 & E3 & G & Rr & Wh & N1 & B1 & N2 & B2).
    { intros c Hc. apply Ic. cbn [concat]. apply in_app_iff. auto. }
    destruct (IH h2) as (gs & h3 & E & G' & Rs & Wh' & N1' & B1' & N2' & B2').
    { apply (renamed_cls flat f h h1); [apply G|exact Rn]. }
    { intros c Hc. apply Ic. cbn [concat]. apply in_app_iff. auto. }
    pose proof (grown_aged _ _ G') as A.
    assert (Wh3 : whole_groups h3 (g1 ++ g2)) by (apply (whole_aged h2); auto).
    assert (Ti : forall g, In g (g1 ++ g2)%list -> tiers_in h3 g = tiers_in h2 g) by (intros g Hg; unfold tiers_in; apply (aged_undisturbed h2 h3 _ A Wh g Hg)).
    assert (Fl : flat_map (tiers_in h3) (g1 ++ g2) = flat_map (tiers_in h2) (g1 ++ g2)).
    { clear -Ti. induction (g1 ++ g2)%list as [|g l IHl]; [reflexivity|]. cbn [flat_map]. rewrite Ti by (simpl; auto). rewrite IHl; [reflexivity|]. intros k Hk. apply Ti. simpl; auto. }
    exists ((g1 ++ g2) ++ gs)%list, h3. split.
    { cbn [build_groups map]. rewrite (bind_ok _ _ _ _ _ E1). cbn [fst snd].
      erewrite bind_ok; [|destruct s; exact E2]. erewrite bind_ok; [|destruct q; exact E3]. rewrite (bind_ok _ _ _ _ _ E). rewrite <- app_assoc. reflexivity. }
    split; [eapply grown_trans; eauto|]. split.
    { constructor; [|exact Rs].
      assert (One : read_rows (lo (interval_part h row ocs)) (hi (interval_part h row ocs)) f h h3 [row] [ocs] ((g1 ++ g2) ++ [])).
      { apply (read_rows_aged _ _ f h h2 h3); [exact A| |rewrite app_nil_r; exact Wh|constructor; [exact Rr|constructor]].
        intros r o p [[= <- <-]|[]] Hp. destruct R as (_ & _ & _ & Q). apply Q, Hp. }
      inversion One as [|? ? gs1 ? ? gs2 Rr3 Rs2 E4 E5 E6]; subst. inversion Rs2; subst. rewrite !app_nil_r in E6. rewrite <- E6. exact Rr3. }
    split. { intros g Hg. apply in_app_iff in Hg. destruct Hg as [Hg|Hg]; auto. }
    assert (Lg : forall g, In g (g1 ++ g2)%list -> glive h2 g) by (intros g Hg; apply (Wh g Hg)).
    split. { apply NoDup_app. split; [exact N1|]. split; [|exact N1']. intros g Hg Hg'. apply elem_of_list_In in Hg. apply elem_of_list_In in Hg'. specialize (Lg g Hg). specialize (B1' g Hg'). unfold glive in Lg. lia. }
    split. { intros g Hg. apply in_app_iff in Hg. destruct Hg as [Hg|Hg]; [auto|]. specialize (B1' g Hg). destruct G as (_ & _ & _ & _ & L & _). lia. }
    rewrite flat_map_app, Fl. split.
    { apply NoDup_app. split; [exact N2|]. split; [|exact N2']. intros k Hk Hk'. apply elem_of_list_In in Hk. apply elem_of_list_In in Hk'. destruct (B2' k Hk') as [B3 _].
      apply in_flat_map in Hk. destruct Hk as (g & Hg & Hk). destruct (Wh g Hg) as [_ W]. destruct (W k Hk) as [L _]. unfold tlive in L. lia. }
    intros k Hk. apply in_app_iff in Hk. destruct Hk as [Hk|Hk].
    + destruct (B2 k Hk) as [B3 B4]. split; [exact B3|]. apply in_flat_map in Hk. destruct Hk as (g & Hg & Hk). rewrite (ud_tiers _ _ _ (aged_undisturbed h2 h3 _ A Wh g Hg) k Hk). exact B4.
    + destruct (B2' k Hk) as [B3 B4]. destruct G as (_ & _ & L1 & L & _). split; [lia|]. intros x Hx. specialize (B4 x Hx). lia.
Qed.

(** Rows of intervals only. *)
Lemma nesting_parts h lo hi row ocs : class_table h -> nesting h lo hi row ocs ->
  interval_part h row ocs = combine row ocs /\ point_part h row ocs = [] /\ readable h lo hi row ocs /\ row <> [].
Proof.
  intros T (L & cs & rs & N). pose proof N as ((t & b & C) & _ & Lr & Pr & (r & Hr & _) & _).
  assert (In' : forall p, In p (combine row ocs) -> issubclass h (snd p) cInterval = true).
  { intros [q c] Hp. apply (Permutation_in _ Pr) in Hp. apply in_combine_r in Hp. apply C, Hp. }
  assert (Kp : forall p, In p (combine row ocs) -> issubclass h (snd p) cPoint = false).
  { intros p Hp. apply (kinds_apart h (snd p) cInterval cPoint T); simpl; auto; try discriminate. }
  assert (Ei : interval_part h row ocs = combine row ocs).
  { unfold interval_part. clear -In'. induction (combine row ocs) as [|p l IH]; [reflexivity|]. cbn [List.filter]. rewrite In' by (simpl; auto). f_equal. apply IH. intros q Hq. apply In'. simpl; auto. }
  assert (Ep : point_part h row ocs = []).
  { unfold point_part. clear -Kp. induction (combine row ocs) as [|p l IH]; [reflexivity|]. cbn [List.filter]. rewrite Kp by (simpl; auto). apply IH. intros q Hq. apply Kp. simpl; auto. }
  split; [exact Ei|]. split; [exact Ep|]. split.
  - split; [exact L|]. split; [|split; [right; rewrite Ei; eauto|rewrite Ep; intros p []]]. intros c Hc. right.
    assert (Q : exists q, In (q, c) (combine row ocs)).
    { clear -Hc L. revert ocs Hc L. induction row as [|q row IH]; intros [|d ocs] Hc L; try discriminate; [destruct Hc|]. destruct Hc as [->|Hc]; [exists q; left; reflexivity|].
      destruct (IH ocs Hc) as [q' Q]; [cbn in L; lia|]. exists q'. right. exact Q. }
    destruct Q as [q Q]. apply (In' _ Q).
  - intros ->. apply Permutation_length in Pr. rewrite !combine_length in Pr. destruct rs; [discriminate|]. cbn in *. destruct cs; cbn in *; lia.
Qed.
Lemma fst_combine_row {A B} : forall (l : list A) (k : list B), List.length l = List.length k -> map fst (combine l k) = l.
Proof. induction l as [|x l IH]; intros [|y k] L; try discriminate; [reflexivity|]. cbn. f_equal. apply IH. cbn in L. lia. Qed.
Lemma rows_one (G : list (rawtier * cid) -> gid -> Prop) f h h' : forall rows css gs,
  rows_as G f h h' rows css gs -> (forall row ocs, In (row, ocs) (combine rows css) -> interval_part h row ocs = combine row ocs /\ combine row ocs <> [] /\ point_part h row ocs = []) ->
  Forall2 (fun rc g => G (combine (fst rc) (snd rc)) g) (combine rows css) gs.
Proof.
  intros rows css gs R. induction R as [|row ocs gs rows css gs' (g1 & g2 & -> & R1 & R2) R IH]; intros K; [constructor|].
  destruct (K row ocs (or_introl eq_refl)) as (K1 & K2 & K3). destruct R1 as [[Q _]|(g & -> & R1)]; [congruence|]. destruct R2 as [[_ ->]|[Q _]]; [|congruence].
  cbn [combine app]. constructor; [cbn [fst snd]; rewrite <- K1; exact R1|]. apply IH. intros r o I. apply K. right. exact I.
Qed.
(** The extent of a group can be read off its first tier. *)
Definition first_of (h : heap) (g : gid) : Z := default 0 (s_start (sob h (hd 0%nat (t_seq (tob h (hd 0%nat (g_tiers (gob h g)))))))).
Definition last_of (h : heap) (g : gid) : Z := default 0 (s_end (sob h (hd 0%nat (rev (t_seq (tob h (hd 0%nat (g_tiers (gob h g)))))))) ).
Lemma ready_extent n h lo hi g : tidy_ready n h lo hi g -> first_of h g = lo /\ last_of h g = hi.
Proof.
  intros (_ & t & Ht & _ & (x & y & X & Y & Sx & Sy) & _). unfold first_of, last_of. destruct (g_tiers (gob h g)) as [|t' r]; [discriminate|]. injection Ht as ->. cbn [hd].
  destruct (t_seq (tob h t)) as [|x' l] eqn:E; [discriminate|]. injection X as ->. cbn [hd]. rewrite Sx. destruct (rev (x :: l)) as [|y' m]; [discriminate|]. injection Y as ->. cbn [hd]. rewrite Sy. auto.
Qed.
Lemma ready_level n lo hi f h0 h ps g : read_group lo hi f h0 h ps g -> gapless (map fst ps) -> level_ready n h lo hi g.
Proof.
  intros R Gp. pose proof (ready_read n lo hi f h0 h ps g R (or_introl Gp)) as Rd. split; [exact Rd|].
  destruct R as (cs & rs & t' & b' & N & C & Un & (F1 & (bss & Gd) & F3) & R & Tp). pose proof N as (_ & _ & Lr & Pr & (r0 & Hr & Tl) & Sn).
  split.
  - intros t Ht. destruct (ReadMade.Forall2_hd _ _ _ r0 R Hr) as (t1 & Ht1 & R1 & R2 & R3 & R4). assert (t1 = t) by congruence. subst t1. rewrite (gap_raw h _ _ R2). apply Gp.
    destruct rs as [|r1 rs]; [discriminate|]. injection Hr as ->. destruct cs as [|c cs]; [discriminate|]. apply in_map_iff. exists (r0, c). split; [reflexivity|]. apply (Permutation_in _ (Permutation_sym Pr)). left. reflexivity.
  - intros u Hu. destruct (Forall2_in_r _ _ _ u R Hu) as (q & Hq & _ & _ & (X3 & _) & _). split; [exact X3|]. apply C. rewrite <- F1. apply (in_map (fun t => t_ec (tob h t))), Hu.
Qed.

Lemma Forall2_both {A B} (P Q : A -> B -> Prop) : forall l k, Forall2 P l k -> Forall2 Q l k -> Forall2 (fun x y => P x y /\ Q x y) l k.
Proof. induction 1 as [|x y l k Pxy F IH]; intros G; inversion G; subst; constructor; auto. Qed.
Lemma combine_own {A B} (R : A -> B -> Prop) : forall l k, Forall2 R l k -> forall x y, In (x, y) (combine l k) -> R x y.
Proof. induction 1 as [|x y l k Rxy F IH]; intros u v I; [destruct I|]. destruct I as [[= <- <-]|I]; auto. Qed.
Lemma combine_left {A B} (R : A -> B -> Prop) : forall l k, Forall2 R l k -> forall x, In x l -> exists y, In (x, y) (combine l k).
Proof. induction 1 as [|x y l k Rxy F IH]; intros u I; [destruct I|]. destruct I as [<-|I]; [exists y; left; reflexivity|]. destruct (IH u I) as [v Q]. exists v. right. exact Q. Qed.

Lemma c76_read : forall (n : nat) (h : heap) (rows : list (list rawtier)) (css : list (list cid)) (rest : list rawtier) (lo hi : list rawtier -> Z) (s0 s1 e0 e1 : Z),
  class_table h -> Forall2 (fun row ocs => nesting h (lo row) (hi row) row ocs) rows css -> names_apart h (concat css) -> gapless (concat rows) ->
  least (fun z => exists row, In row rows /\ lo row = z) s0 -> greatest (fun z => exists row, In row rows /\ lo row = z) s1 ->
  least (fun z => exists row, In row rows /\ hi row = z) e0 -> greatest (fun z => exists row, In row rows /\ hi row = z) e1 ->
  ~ (near s0 s1 /\ near e0 e1) ->
  exists f a h', new_grid_textgrid (S n) (concat rows ++ rest) (Nested css) h = Ok a h' /\
    Forall2 (fun rc => widened_group s0 s1 e1 (lo (fst rc)) (hi (fst rc)) f h h' rc) (combine rows css) (a_groups (aob h' a)) /\
    (forall g, In g (a_groups (aob h' a)) -> g_within (gob h' g) = Some (WGrid a) /\ exists nm, g_name (gob h' g) = Some nm /\ nm <> EmptyString) /\
    (forall c, In c (concat css) -> clone_of h h' c (f c)) /\ all_kept h h'.
Proof.
  intros n h rows css rest lo hi s0 s1 e0 e1 T Ne Na Gp S0 S1 E0 E1 Un. set (a := List.length (h_grid h)).
  set (h0 := Heap (h_cls h) (h_seq h) (h_tier h) (h_grp h) (h_grid h ++ [blank_grid])) in *.
  assert (C0 : h_cls h0 = h_cls h) by reflexivity.
  assert (T0 : class_table h0) by (unfold class_table, cob in *; exact T).
  assert (A0 : aob h0 a = blank_grid) by (unfold aob, h0; cbn [h_grid]; unfold a; rewrite list_lookup_middle by reflexivity; reflexivity).
  assert (L0 : alive h0 a) by (unfold alive, h0; cbn [h_grid]; rewrite app_length; cbn; unfold a; lia).
  set (lo' := fun ps : list (rawtier * cid) => lo (map fst ps)). set (hi' := fun ps : list (rawtier * cid) => hi (map fst ps)).
  assert (Pa : forall row ocs, In (row, ocs) (combine rows css) -> interval_part h row ocs = combine row ocs /\ point_part h row ocs = [] /\ readable h (lo row) (hi row) row ocs /\ row <> [] /\ List.length row = List.length ocs).
  { intros row ocs I. pose proof (combine_own _ _ _ Ne row ocs I) as Q. destruct (nesting_parts h _ _ row ocs T Q) as (Q1 & Q2 & Q3 & Q4). destruct Q as [Q5 _]. auto. }
  assert (Lo : forall row ocs, List.length row = List.length ocs -> lo' (combine row ocs) = lo row /\ hi' (combine row ocs) = hi row).
  { intros row ocs L. unfold lo', hi'. rewrite fst_combine_row by exact L. auto. }
  assert (Rd : Forall2 (fun row ocs => readable h (lo' (interval_part h row ocs)) (hi' (interval_part h row ocs)) row ocs) rows css).
  { clear -Ne Pa Lo. induction Ne as [|row ocs rows css Q F IH]; [constructor|]. constructor.
    - destruct (Pa row ocs (or_introl eq_refl)) as (P1 & _ & P3 & _ & P5). rewrite P1. destruct (Lo row ocs P5) as [-> ->]. exact P3.
    - apply IH. intros r o I. apply Pa. right. exact I. }
  assert (Nr : exists row ocs, In (row, ocs) (combine rows css)).
  { destruct S0 as ((row & Hr & _) & _). destruct (combine_left _ _ _ Ne row Hr) as [ocs Q]. eauto. }
  assert (Fl : Forall2 (fun row ocs => List.length row = List.length ocs) rows css) by (clear -Ne; induction Ne as [|? ? ? ? [Q _]]; constructor; auto).
  destruct Nr as (rw & oc & Nr).
  assert (Nc : concat css <> []).
  { destruct (Pa rw oc Nr) as (_ & _ & _ & P4 & P5). destruct oc as [|c oc]; [destruct rw; [congruence|discriminate]|]. apply in_combine_r in Nr. intros E. assert (Hc : In c (concat css)) by (apply in_concat; exists (c :: oc); simpl; auto). rewrite E in Hc. destruct Hc. }
  assert (Fc : forall c, In c (concat css) -> exists t cs b, class_chain h t cs b /\ In c cs /\ incl cs (concat css) /\ forall x, In x cs -> plain_name (class_name h x)).
  { intros c Hc. apply in_concat in Hc. destruct Hc as (ocs & Ho & Hc).
    assert (Q : exists row, In (row, ocs) (combine rows css)).
    { clear -Ne Ho. induction Ne as [|r o rows css Q F IH]; [destruct Ho|]. destruct Ho as [->|Ho]; [exists r; left; reflexivity|]. destruct (IH Ho) as [q Q']. exists q. right. exact Q'. }
    destruct Q as [row I]. destruct (Pa row ocs I) as (P1 & P2 & P3 & P4 & P5).
    destruct (flat_classes h (lo row) (hi row) [row] [ocs] ltac:(constructor; [exact P3|constructor]) c) as [P|(t & cs & b & Q1 & Q2 & Q3 & Q4)]; [cbn [concat]; rewrite app_nil_r; exact Hc| |].
    - exfalso. destruct P as (P & _). assert (Hp : exists r, In (r, c) (combine row ocs)).
      { clear -Hc P5. revert ocs Hc P5. induction row as [|q row IH]; intros [|d ocs] Hc L; try discriminate; [destruct Hc|]. destruct Hc as [->|Hc]; [exists q; left; reflexivity|].
        destruct (IH ocs Hc) as [q' Q]; [cbn in L; lia|]. exists q'. right. exact Q. }
      destruct Hp as [r Hp]. assert (X : In (r, c) (point_part h row ocs)) by (apply filter_In; split; [exact Hp|exact P]). rewrite P2 in X. destruct X.
    - exists t, cs, b. split; [exact Q1|]. split; [exact Q2|]. split; [|exact Q4]. intros x Hx. specialize (Q3 x Hx). cbn [concat] in Q3. rewrite app_nil_r in Q3. apply in_concat. exists ocs. split; [apply in_combine_r in I; exact I|exact Q3]. }
  assert (Lp : forall c, lone_point h c <-> lone_point h0 c).
  { intros c. unfold lone_point, superset_class. rewrite (issubclass_ext h h0) by exact C0. reflexivity. }
  destruct (reclone_fresh h0 a (concat css) T0 L0) as (f & cl & h1 & X1 & T1 & B1 & B2 & B3 & B4 & B5 & B6 & B7 & B8 & B9 & B10 & B11 & B12); [rewrite A0; reflexivity|exact Nc| |exact Na|].
  { intros c Hc. right. destruct (Fc c Hc) as (t & cs & b & Q1 & Q2 & Q3 & Q4). exists t, cs, b. split; [apply (chain_cls h); auto|]. auto. }
  assert (Rn : renamed (concat css) f h h1).
  { constructor; [exact T|exact T1|intros c Hc P; apply B10; [exact Hc|apply Lp, P]|]. intros t cs b C I. apply (B11 t cs b); [apply (chain_cls h); auto|exact I]. }
  destruct (rows_made_own (S n) lo' hi' (concat css) f h rows css h1 Rn Rd (incl_refl _)) as (gs & h2 & X2 & G2 & R2 & W2 & N2 & Bg & Nt & Bt).
  pose proof G2 as (D1 & D2 & D3 & D4 & D5 & D6 & D7 & D8).
  assert (R2' : Forall2 (fun rc => read_group (lo (fst rc)) (hi (fst rc)) f h h2 (combine (fst rc) (snd rc))) (combine rows css) gs).
  { assert (Q := rows_one _ f h h2 rows css gs R2). cbv beta in Q. eapply Forall2_weaken; [apply Q|].
    - intros row ocs I. destruct (Pa row ocs I) as (P1 & P2 & _ & P4 & P5). split; [exact P1|]. split; [|exact P2]. destruct row; [congruence|]. destruct ocs; [discriminate|]. cbn. discriminate.
    - intros [row ocs] g I _ Q'. cbn [fst snd] in *. destruct (Pa row ocs I) as (_ & _ & _ & _ & P5). destruct (Lo row ocs P5) as [Y1 Y2]. rewrite Y1, Y2 in Q'. exact Q'. }
  assert (Ng : gs <> []) by (intros ->; inversion R2' as [Z|]; rewrite <- Z in Nr; destruct Nr).
  assert (L2 : alive h2 a) by (unfold alive in *; rewrite D2, B6; exact L0).
  destruct (groups_set a gs h2 Ng L2) as (h3 & X3 & F1 & F2 & F3 & F4 & F5 & F6 & F7 & F8 & F9); [intros g Hg; apply W2, Hg|].
  assert (A23 : aged h2 h3).
  { split; [exact F1|]. split; [rewrite F2; lia|]. split; [rewrite F3; lia|]. split; [lia|]. split; [intros i _; unfold sob; rewrite F2; reflexivity|]. split; [intros i _; unfold tob; rewrite F3; reflexivity|].
    intros g Hg. destruct (in_dec Nat.eq_dec g gs) as [I|I]; [rewrite F8 by exact I; auto|rewrite F9 by exact I; auto]. }
  pose proof (whole_aged _ _ _ A23 W2) as W3.
  assert (R3 : Forall2 (fun rc => read_group (lo (fst rc)) (hi (fst rc)) f h h3 (combine (fst rc) (snd rc))) (combine rows css) gs).
  { eapply Forall2_weaken; [exact R2'|]. intros rc g _ Hg Q. eapply read_group_later; [|exact Q]. apply (aged_undisturbed h2 h3 _ A23 W2 g Hg). }
  assert (Ga : a_groups (aob h3 a) = gs) by (rewrite F6; reflexivity).
  assert (Tg3 : forall g, tiers_in h3 g = tiers_in h2 g).
  { intros g. unfold tiers_in. destruct (in_dec Nat.eq_dec g gs) as [I|I]; [rewrite F8 by exact I; auto|rewrite F9 by exact I; auto]. }
  assert (Nt3 : NoDup (flat_map (tiers_in h3) gs)) by (rewrite (flat_map_ext _ _ Tg3); exact Nt).
  assert (Bt3 : forall g k x, In g gs -> In k (g_tiers (gob h3 g)) -> (List.length (h_tier h1) <= k)%nat /\ (In x (t_seq (tob h3 k)) -> (List.length (h_seq h1) <= x)%nat)).
  { intros g k x Hg Hk. change (In k (tiers_in h3 g)) in Hk. rewrite Tg3 in Hk. destruct (Bt k) as [Q1 Q2]; [apply in_flat_map; eauto|]. split; [exact Q1|]. intros Hx. apply Q2. unfold tob in *. rewrite F3 in Hx. exact Hx. }
  (* levelling *)
  assert (Gpr : forall row ocs, In (row, ocs) (combine rows css) -> gapless (map fst (combine row ocs))).
  { intros row ocs I r Hr. destruct (Pa row ocs I) as (_ & _ & _ & _ & P5). rewrite fst_combine_row in Hr by exact P5. apply Gp. apply in_concat. apply in_combine_l in I. eauto. }
  assert (Rdy : Forall2 (fun rc g => level_ready (S n) h3 (lo (fst rc)) (hi (fst rc)) g /\ first_of h3 g = lo (fst rc) /\ last_of h3 g = hi (fst rc)) (combine rows css) gs).
  { eapply Forall2_weaken; [exact R3|]. intros [row ocs] g I Hg Q. cbn [fst snd] in *. pose proof (ready_level (S n) _ _ _ _ _ _ _ Q (Gpr row ocs I)) as Y. split; [exact Y|]. apply (ready_extent (S n) h3). apply Y. }
  assert (Ext : forall z (P : Z -> Prop), (exists g, In g gs /\ first_of h3 g = z) <-> (exists row, In row rows /\ lo row = z)).
  { intros z _. split.
    - intros (g & Hg & Q). destruct (Forall2_in_r _ _ _ g Rdy Hg) as ([row ocs] & I & _ & Q1 & _). exists row. split; [apply in_combine_l in I; exact I|cbn in Q1; congruence].
    - intros (row & Hr & Q). destruct (combine_left _ _ _ Ne row Hr) as [ocs I]. destruct (Forall2_in_l _ _ _ _ Rdy I) as (g & Hg & _ & Q1 & _). exists g. split; [exact Hg|cbn in Q1; congruence]. }
  assert (Exh : forall z (P : Z -> Prop), (exists g, In g gs /\ last_of h3 g = z) <-> (exists row, In row rows /\ hi row = z)).
  { intros z _. split.
    - intros (g & Hg & Q). destruct (Forall2_in_r _ _ _ g Rdy Hg) as ([row ocs] & I & _ & _ & Q1). exists row. split; [apply in_combine_l in I; exact I|cbn in Q1; congruence].
    - intros (row & Hr & Q). destruct (combine_left _ _ _ Ne row Hr) as [ocs I]. destruct (Forall2_in_l _ _ _ _ Rdy I) as (g & Hg & _ & _ & Q1). exists g. split; [exact Hg|cbn in Q1; congruence]. }
  destruct (c75_levelled n h3 a (first_of h3) (last_of h3) s0 s1 e0 e1) as (h4 & X4 & Lv & (K1 & K2 & K3 & K4 & K5 & K6 & K7 & K8 & K9 & K10 & K11)).
  { rewrite Ga. intros g Hg. destruct (Forall2_in_r _ _ _ g Rdy Hg) as (rc & _ & Q & -> & ->). exact Q. }
  { rewrite Ga. split; [exact N2|]. split; [exact Nt3|apply whole_entries; auto]. }
  1-4: rewrite Ga.
  { destruct S0 as [Q1 Q2]. split; [apply (Ext s0 (fun _ => True)), Q1|]. intros z Hz. apply Q2. apply (Ext z (fun _ => True)), Hz. }
  { destruct S1 as [Q1 Q2]. split; [apply (Ext s1 (fun _ => True)), Q1|]. intros z Hz. apply Q2. apply (Ext z (fun _ => True)), Hz. }
  { destruct E0 as [Q1 Q2]. split; [apply (Exh e0 (fun _ => True)), Q1|]. intros z Hz. apply Q2. apply (Exh z (fun _ => True)), Hz. }
  { destruct E1 as [Q1 Q2]. split; [apply (Exh e1 (fun _ => True)), Q1|]. intros z Hz. apply Q2. apply (Exh z (fun _ => True)), Hz. }
  { exact Un. }
  rewrite Ga in Lv, K4, K8, K11.
  (* the rest *)
  destruct (within_all (Some (WGrid a)) gs h4) as (h5 & X5 & H1 & H2 & H3 & H4 & H5 & H6 & H7); [intros g Hg; unfold glive; rewrite K5; apply W3, Hg|].
  assert (Ga4 : a_groups (aob h4 a) = gs) by (unfold aob; rewrite K2; exact Ga).
  assert (Ga5 : a_groups (aob h5 a) = gs) by (unfold aob; rewrite H4; exact Ga4).
  assert (Tne : forall g, In g gs -> g_tiers (gob h3 g) <> []).
  { intros g Hg. destruct (Forall2_in_r _ _ _ g Rdy Hg) as (rc & _ & ((_ & t & Ht & _) & _) & _). intros Q. rewrite Q in Ht. discriminate. }
  destruct (named_all a gs h5) as (h6 & X6 & I1 & I2 & I3 & I4 & I5 & I6 & I7 & _ & I9).
  { intros g Hg. rewrite H6 by exact Hg. cbn. split; [unfold glive; rewrite H5, K5; apply W3, Hg|]. destruct (K3 g) as (-> & _). split; [apply Tne, Hg|]. split; [reflexivity|]. rewrite Ga5. exact Hg. }
  assert (Ga6 : a_groups (aob h6 a) = gs) by (unfold aob; rewrite I4; exact Ga5).
  assert (Cl6 : h_cls h6 = h_cls h1) by congruence. assert (Cl63 : h_cls h6 = h_cls h3) by congruence.
  assert (So6 : forall i, sob h6 i = sob h4 i) by (intros i; unfold sob; rewrite I2, H2; reflexivity).
  assert (To6 : forall i, tob h6 i = tob h4 i) by (intros i; unfold tob; rewrite I3, H3; reflexivity).
  assert (Tg6 : forall g, In g gs -> g_tiers (gob h6 g) = g_tiers (gob h3 g) /\ g_points (gob h6 g) = g_points (gob h3 g)).
  { intros g Hg. destruct (I6 g) as (-> & -> & _). rewrite H6 by exact Hg. cbn. destruct (K3 g) as (-> & -> & _). auto. }
  exists f, a, h6. split.
  { unfold new_grid_textgrid. rewrite (bind_ok _ _ _ a h0) by reflexivity.
    assert (Ntg : concat rows <> []).
    { destruct (Pa rw oc Nr) as (_ & _ & _ & P4 & _). apply in_combine_l in Nr. destruct rw as [|r rw]; [congruence|]. intros E. assert (Hr : In r (concat rows)) by (apply in_concat; exists (r :: rw); simpl; auto). rewrite E in Hr. destruct Hr. }
    assert (Nf : nestify (concat rows ++ rest) (Nested css) h0 = Ok (rows, css) h0).
    { destruct (OutputFinal.c37_nested rawtier h0 (concat rows ++ rest) css ltac:(intros ->; apply Nc; reflexivity)) as (gs' & E & Q1 & Q2); [rewrite app_length, (total_lengths _ _ Fl); lia|].
      rewrite E. rewrite (same_rows gs' rows css rest Q1 Fl Q2). reflexivity. }
    destruct (concat rows ++ rest)%list as [|r0 tg] eqn:Et; [destruct (concat rows); [congruence|discriminate]|]. rewrite (bind_ok _ _ _ _ _ Nf). cbn [fst snd].
    assert (Er : relate_textgrid (S n) a rows css h0 = Ok gs h2).
    { unfold relate_textgrid. rewrite (bind_ok _ _ _ _ _ X1). rewrite bind_gets. rewrite B8. cbn [a_cloned set_a_cloned].
      assert (Em : mapM (fun cs => swap_classes cs cl) css h1 = Ok (map (map f) css) h1).
      { apply OutputFinal.mapM_pure. intros l Hl. apply B12. intros c Hc. apply in_concat. eauto. }
      rewrite (bind_ok _ _ _ _ _ Em). exact X2. }
    rewrite (bind_ok _ _ _ _ _ Er), (bind_ok _ _ _ _ _ X3), (bind_ok _ _ _ _ _ X4).
    assert (Ef : grid_finish a h4 = Ok tt h6).
    { unfold grid_finish. change (get_grid a) with (gets (fun h => aob h a)). rewrite bind_gets, Ga4, (bind_ok _ _ _ _ _ X5). unfold set_group_names. change (get_grid a) with (gets (fun h => aob h a)). rewrite bind_gets, Ga5. exact X6. }
    rewrite (bind_ok _ _ _ _ _ Ef). reflexivity. }
  rewrite Ga6. split.
  { assert (Both := Forall2_both _ _ _ _ R3 Rdy). eapply Forall2_weaken; [exact Both|]. intros [row ocs] g I Hg [Q (Y1 & Y2 & Y3)]. cbn [fst snd] in *. destruct (Tg6 g Hg) as [Et Ep].
    destruct Q as (cs & rs & t' & b' & N & C & _ & (Q1 & (bss & Gd) & _) & R & _). split; [rewrite Ep; apply Gd|]. exists cs, rs. split; [exact N|]. rewrite Et. split.
    { rewrite <- Q1. apply map_ext_in. intros t _. rewrite To6. apply K9. }
    eapply Forall2_weaken; [exact R|]. intros r k _ Hk (Z1 & Z2 & Z3 & Z4). unfold widened_as. rewrite To6. destruct (K9 k) as (Ec & _ & _ & Nm & _). rewrite Nm, Ec.
    split; [exact Z1|]. assert (Ik : issubclass h6 (t_ec (tob h3 k)) cInterval = true) by (rewrite (issubclass_ext h3 h6) by exact Cl63; apply C; rewrite <- Q1; apply (in_map (fun t => t_ec (tob h3 t))), Hk).
    split; [exact Ik|].
    destruct (Lv g k Hg Hk) as (front & back & Es & Bf & Bb). rewrite Y2 in Bf. rewrite Y3 in Bb. rewrite Es.
    assert (Tb6 : class_table h6) by (unfold class_table, cob in *; rewrite Cl6; exact T1).
    assert (Kb : issubclass h6 (t_ec (tob h3 k)) cPoint = false) by (apply (kinds_apart h6 _ cInterval cPoint Tb6); simpl; auto; try discriminate).
    assert (Ol : forall x, In x (t_seq (tob h3 k)) -> (x < List.length (h_seq h3))%nat) by (intros x Hx; apply (good_live h3 g _ bss k x Gd Hk Hx)).
    assert (Bl : forall ok u v l, blank_unless ok h3 h4 (t_ec (tob h3 k)) u v l -> (forall x, In x l -> issubclass h6 (s_cls (sob h6 x)) cPoint = false) /\
              exists le, Forall2 (stands_for h6) le l /\ (ok /\ le = [] \/ ~ ok /\ le = [ERaw (Some u) (Some v) EmptyString])).
    { intros ok u v l [[P ->]|(P & x & -> & _ & (V1 & V2 & V3 & V4 & _))]; [split; [intros x []|exists []; split; [constructor|auto]]|]. split.
      - intros y [<-|[]]. rewrite So6, V1. exact Kb.
      - eexists. split; [|right; split; [exact P|reflexivity]]. constructor; [|constructor]. unfold stands_for. rewrite So6, V2, V3, V4. reflexivity. }
    destruct (Bl _ _ _ _ Bf) as (Bf1 & lf & Bf2 & Bf3). destruct (Bl _ _ _ _ Bb) as (Bb1 & lb & Bb2 & Bb3). split.
    - intros x Hx. rewrite !in_app_iff in Hx. destruct Hx as [Hx|[Hx|Hx]]; auto. rewrite So6. destruct (K10 x (Ol x Hx)) as (-> & _). rewrite (issubclass_ext h3 h6) by exact Cl63.
      apply (proj2 (good_point h3 g _ bss k Gd Hk) x Hx).
    - exists (lf ++ rt_entries r ++ lb)%list. split; [exists lf, lb; split; [reflexivity|]; split; [exact Bf3|exact Bb3]|]. apply Forall2_app; [exact Bf2|]. apply Forall2_app; [|exact Bb2].
      eapply Forall2_weaken; [exact Z2|]. intros e x _ Hx Sf. unfold stands_for in *. rewrite So6. destruct (K10 x (Ol x Hx)) as (_ & -> & -> & -> & _). exact Sf. }
  split.
  { intros g Hg. split; [|apply I9, Hg]. destruct (I6 g) as (_ & _ & _ & ->). rewrite H6 by exact Hg. reflexivity. }
  split. { intros c Hc. destruct (B9 c Hc) as [(Q1 & Q2 & Q3) _]. split; [rewrite Cl6; exact Q1|]. split; [unfold class_name, cob in *; rewrite Cl6; exact Q2|unfold cob in *; rewrite Cl6; exact Q3]. }
  split. { intros c Hc. unfold cob. rewrite Cl6. apply (B2 c Hc). }
  split. { intros i Hi. rewrite So6. assert (E : sob h3 i = sob h i).
    { unfold sob at 1. rewrite F2. fold (sob h2 i). rewrite D6; [unfold sob; rewrite B3; reflexivity|]. unfold live. rewrite B3. exact Hi. }
    rewrite K11; [exact E|rewrite F2; rewrite B3 in D3; unfold h0 in D3; cbn in D3; lia|]. intros t Ht Q. apply in_flat_map in Ht. destruct Ht as (g & Hg & Ht). destruct (Bt3 g t i Hg Ht) as [_ X]. specialize (X Q). rewrite B3 in X. unfold h0 in X. cbn in X. lia. }
  split. { intros i Hi. rewrite To6. rewrite K8; [unfold tob; rewrite F3; fold (tob h2 i); rewrite D7; [unfold tob; rewrite B4; reflexivity|]; unfold tlive; rewrite B4; exact Hi|].
    intros Ht. apply in_flat_map in Ht. destruct Ht as (g & Hg & Ht). destruct (Bt3 g i 0%nat Hg Ht) as [X _]. rewrite B4 in X. unfold h0 in X. cbn in X. lia. }
  split. { intros i Hi. assert (Ni : ~ In i gs) by (intros Q; specialize (Bg i Q); rewrite B5 in Bg; cbn in Bg; lia). rewrite I7, H7 by exact Ni. rewrite K4 by exact Ni. rewrite F9 by exact Ni. rewrite D8; [unfold gob; rewrite B5; reflexivity|]. unfold glive. rewrite B5. exact Hi. }
  split. { intros i Hi. assert (Ni : i <> a) by (unfold a; lia). unfold aob. rewrite I4, H4, K2. fold (aob h3 i). rewrite F7 by exact Ni. unfold aob. rewrite D2. fold (aob h1 i). rewrite B7 by exact Ni. unfold aob, h0. cbn [h_grid]. rewrite lookup_app_l by exact Hi. reflexivity. }
  split; [rewrite Cl6; exact B1|]. split; [rewrite I2, H2; rewrite B3 in D3; rewrite F2 in K6; unfold h0 in D3; cbn in D3; lia|]. split; [rewrite I3, H3, K7, F3; rewrite B4 in D4; exact D4|].
  split; [rewrite I5, H5, K5, F4; rewrite B5 in D5; exact D5|]. rewrite I4, H4, K2, F5, D2, B6. unfold h0. cbn [h_grid]. rewrite app_length. lia.
Qed.

Lemma group_wide s0 s1 e1 lo hi f h h' rc g : widened_group s0 s1 e1 lo hi f h h' rc g ->
  exists rs, wrote_row_wide s0 s1 e1 lo hi h rc (rs, map (fun t => (t_name (tob h' t), map (praatio h') (t_seq (tob h' t)))) (g_tiers (gob h' g))).
Proof.
  intros (_ & cs & rs & N & _ & F). exists rs. split; [exists cs; exact N|]. cbn [fst snd]. apply Forall2_map_r. eapply Forall2_impl; [exact F|]. intros r k (N1 & _ & Np & l' & W & S).
  split; [exact N1|]. exists l'. split; [exact W|]. cbn [snd]. clear -S Np. induction S as [|e x es xs Sf S IH]; [reflexivity|]. cbn [map]. rewrite IH by (intros y Hy; apply Np; simpl; auto). f_equal.
  rewrite Sf. unfold praatio, is_point_cls. rewrite Np by (simpl; auto). reflexivity.
Qed.
Lemma perm_row h lo hi row ocs cs rs : List.length row = List.length ocs -> nested_as h lo hi (combine row ocs) cs rs -> Permutation rs row.
Proof.
  intros L (_ & _ & Lr & P & _). apply (Permutation_map fst) in P. rewrite !fst_combine_row in P by assumption. symmetry. exact P.
Qed.

Lemma c76_round : forall (n : nat) (h : heap) (rows : list (list rawtier)) (css : list (list cid)) (rest : list rawtier) (lo hi : list rawtier -> Z) (s0 s1 e0 e1 : Z),
  class_table h -> Forall2 (fun row ocs => nesting h (lo row) (hi row) row ocs) rows css -> names_apart h (concat css) -> gapless (concat rows) ->
  least (fun z => exists row, In row rows /\ lo row = z) s0 -> greatest (fun z => exists row, In row rows /\ lo row = z) s1 ->
  least (fun z => exists row, In row rows /\ hi row = z) e0 -> greatest (fun z => exists row, In row rows /\ hi row = z) e1 ->
  ~ (near s0 s1 /\ near e0 e1) -> NoDup (map rt_name (concat rows)) ->
  exists a h' outs, new_grid_textgrid (S n) (concat rows ++ rest) (Nested css) h = Ok a h' /\
    Forall2 (fun rc => wrote_row_wide s0 s1 e1 (lo (fst rc)) (hi (fst rc)) h rc) (combine rows css) outs /\
    Permutation (concat (map fst outs)) (concat rows) /\ return_textgrid h' a = concat (map snd outs).
Proof.
  intros n h rows css rest lo hi s0 s1 e0 e1 T Ne Na Gp S0 S1 E0 E1 Un Nd.
  destruct (c76_read n h rows css rest lo hi s0 s1 e0 e1 T Ne Na Gp S0 S1 E0 E1 Un) as (f & a & h' & E & F & _).
  set (out := fun g => map (fun t => (t_name (tob h' t), map (praatio h') (t_seq (tob h' t)))) (g_tiers (gob h' g))).
  assert (O : exists rss, List.length rss = List.length (a_groups (aob h' a)) /\
     Forall2 (fun rc => wrote_row_wide s0 s1 e1 (lo (fst rc)) (hi (fst rc)) h rc) (combine rows css) (combine rss (map out (a_groups (aob h' a))))).
  { clear -F. induction F as [|rc g l gs Q F IH]; [exists []; split; [reflexivity|constructor]|]. destruct IH as (rss & L & IH). destruct (group_wide _ _ _ _ _ _ _ _ _ _ Q) as (rs & W).
    exists (rs :: rss). split; [cbn; lia|]. cbn [map combine]. constructor; [exact W|exact IH]. }
  destruct O as (rss & L & O). exists a, h', (combine rss (map out (a_groups (aob h' a)))). split; [exact E|]. split; [exact O|].
  assert (Pm : Permutation (concat (map fst (combine rss (map out (a_groups (aob h' a)))))) (concat rows)).
  { revert O. generalize (combine rss (map out (a_groups (aob h' a)))). clear -Ne. induction Ne as [|row ocs rows css Q Ne IH]; intros outs O; inversion O as [|? ? ? ? W O']; subst; [constructor|].
    cbn [map concat]. apply Permutation_app; [|apply IH, O']. destruct W as ((cs & W) & _). cbn [fst snd] in W. destruct Q as [Lq _]. apply (perm_row h _ _ _ _ _ _ Lq W). }
  split; [exact Pm|].
  assert (Es : map snd (combine rss (map out (a_groups (aob h' a)))) = map out (a_groups (aob h' a))) by (apply OutputFinal.snd_combine; rewrite map_length; exact L).
  rewrite Es. assert (Ec : concat (map out (a_groups (aob h' a))) = map (fun t => (t_name (tob h' t), map (praatio h') (t_seq (tob h' t)))) (grid_tiers h' a)).
  { unfold grid_tiers, out. generalize (a_groups (aob h' a)). intros l. induction l as [|g l IH]; [reflexivity|]. cbn [map concat flat_map]. rewrite IH, map_app. reflexivity. }
  rewrite Ec. apply written_plain.
  assert (En : map (fun t => t_name (tob h' t)) (grid_tiers h' a) = map rt_name (concat (map fst (combine rss (map out (a_groups (aob h' a))))))).
  { assert (En : map fst (concat (map snd (combine rss (map out (a_groups (aob h' a)))))) = map rt_name (concat (map fst (combine rss (map out (a_groups (aob h' a))))))).
    { clear -O. revert O. generalize (combine rss (map out (a_groups (aob h' a)))) (combine rows css). intros outs l O. induction O as [|rc o l outs [_ W] O IH]; [reflexivity|].
      cbn [map concat]. rewrite !map_app, IH. f_equal. clear -W. induction W as [|r p rs ps [Q _] W IH]; [reflexivity|]. cbn [map]. rewrite IH, Q. reflexivity. }
    rewrite <- En, Es, Ec, map_map. reflexivity. }
  rewrite En, Pm. exact Nd.
Qed.

(** The rows that last longest end with an interval of no duration. *)
Lemma c76_degenerate : forall (n : nat) (h : heap) (rows : list (list rawtier)) (css : list (list cid)) (rest : list rawtier) (lo hi : list rawtier -> Z) (s0 s1 e0 e1 : Z),
  class_table h -> Forall2 (fun row ocs => nesting h (lo row) (hi row) row ocs) rows css -> names_apart h (concat css) -> gapless (concat rows) ->
  least (fun z => exists row, In row rows /\ lo row = z) s0 -> greatest (fun z => exists row, In row rows /\ lo row = z) s1 ->
  least (fun z => exists row, In row rows /\ hi row = z) e0 -> greatest (fun z => exists row, In row rows /\ hi row = z) e1 ->
  ~ (near s0 s1 /\ near e0 e1) -> NoDup (map rt_name (concat rows)) -> ~ near e1 s1 ->
  exists a h', new_grid_textgrid (S n) (concat rows ++ rest) (Nested css) h = Ok a h' /\
    forall row r, In row rows -> hi row = e1 -> In r row ->
      exists l, In (rt_name r, (l ++ [(false, Some e1, Some e1, EmptyString)])%list) (return_textgrid h' a).
Proof.
  intros n h rows css rest lo hi s0 s1 e0 e1 T Ne Na Gp S0 S1 E0 E1 Un Nd Nn.
  destruct (c76_round n h rows css rest lo hi s0 s1 e0 e1 T Ne Na Gp S0 S1 E0 E1 Un Nd) as (a & h' & outs & E & O & _ & Rt).
  exists a, h'. split; [exact E|]. intros row r Hr Hh Ir. destruct (combine_left _ _ _ Ne row Hr) as [ocs I]. pose proof (combine_own _ _ _ Ne row ocs I) as [Lq _].
  destruct (Forall2_in_l _ _ _ _ O I) as ([rs os] & Ho & (cs & N) & W). cbn [fst snd] in *.
  assert (Ir' : In r rs) by (apply (Permutation_in _ (Permutation_sym (perm_row h _ _ _ _ _ _ Lq N))), Ir).
  destruct (Forall2_in_l _ _ _ _ W Ir') as ([nm l] & Io & Wn & l' & (front & back & -> & _ & Wb) & Wl). cbn [fst snd] in Wn, Wl.
  exists (map (shown false) (front ++ rt_entries r)). rewrite Rt. apply in_concat. exists os. split; [apply (in_map snd) in Ho; exact Ho|].
  destruct Wb as [[Q _]|[_ ->]]; [rewrite Hh in Q; contradiction|]. rewrite Hh in Wl. subst l nm. rewrite app_assoc, map_app in Io. exact Io.
Qed.
End WithEnv.
