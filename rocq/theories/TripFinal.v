(** * TripFinal: writing what was read (C54). *)
From Verif Require Import TripSpec ReadFinal OutputFinal ClassFinal.
Open Scope Z_scope.

Section Trip.
Context `{Env}.
Opaque span_of.

Lemma fresh_names : forall names seen dup, NoDup (seen ++ names) -> out_names seen dup names = names.
Proof.
  induction names as [|x names IH]; intros seen dup N; [reflexivity|]. cbn [out_names].
  assert (Q : existsb (String.eqb x) seen = false).
  { apply not_true_is_false. intros Q. apply existsb_exists in Q. destruct Q as (y & Hy & Q). apply String.eqb_eq in Q. subst y.
    apply NoDup_app in N. destruct N as (_ & N & _). apply (N x); [apply elem_of_list_In, Hy|left]. }
  rewrite Q. f_equal. apply IH. rewrite <- app_assoc. exact N.
Qed.
Lemma written_plain h a : NoDup (map (fun t => t_name (tob h t)) (grid_tiers h a)) ->
  return_textgrid h a = map (fun t => (t_name (tob h t), map (praatio h) (t_seq (tob h t)))) (grid_tiers h a).
Proof.
  intros N. unfold return_textgrid. rewrite fresh_names by exact N. generalize (grid_tiers h a). intros l. induction l as [|t l IH]; [reflexivity|]. cbn [map combine]. rewrite IH. reflexivity.
Qed.
(** Copies have the kind of what they are copied from. *)
Lemma copy_kind h h' c c' k : class_table h' -> (forall x, clive h x -> cob h' x = cob h x) -> (List.length (h_cls h) <= List.length (h_cls h'))%nat ->
  clone_of h h' c c' -> class_table h -> issubclass h c k = true -> issubclass h' c' k = true.
Proof.
  intros T' K L ((L1 & L2) & _ & B) T S. pose proof (table_wf h T) as W. pose proof (table_wf h' T') as W'.
  rewrite sub_step by auto. rewrite B. apply orb_true_iff. right.
  assert (G : forall n x, (x < n)%nat -> clive h x -> issubclass h x k = true -> issubclass h' x k = true).
  { clear -K L W W'. induction n as [|n IH]; intros x Hx Lx S; [lia|]. assert (Lx' : clive h' x) by (unfold clive in *; lia).
    rewrite sub_step in * by auto. rewrite K by exact Lx. apply orb_true_iff in S. apply orb_true_iff. destruct S as [S|S]; [left; exact S|right].
    destruct (c_base (cob h x)) as [b|] eqn:Eb; [|exact S]. assert (b < x)%nat by (apply W; auto). apply IH; [lia|unfold clive in *; lia|exact S]. }
  destruct (decide (clive h c)) as [Lc|Lc]; [apply (G (Datatypes.S c)); auto|].
  rewrite sub_dead in S by exact Lc. apply Nat.eqb_eq in S. subst k. apply sub_refl.
Qed.
Lemma pair_split h row ocs : class_table h -> (forall c, In c ocs -> lone_point h c \/ issubclass h c cInterval = true) -> List.length row = List.length ocs ->
  Permutation (combine row ocs) (interval_part h row ocs ++ point_part h row ocs).
Proof.
  intros T. unfold interval_part, point_part. revert ocs. induction row as [|r row IH]; intros [|c ocs] K L; try discriminate; [reflexivity|]. cbn [combine List.filter snd].
  assert (P : Permutation (combine row ocs) (List.filter (fun p => issubclass h (snd p) cInterval) (combine row ocs) ++ List.filter (fun p => issubclass h (snd p) cPoint) (combine row ocs))).
  { apply IH; [intros d Hd; apply K; simpl; auto|injection L as L; exact L]. }
  destruct (issubclass h c cInterval) eqn:Ei.
  - rewrite (kinds_apart h c cInterval cPoint T) by (simpl; auto; discriminate). cbn [app]. rewrite <- P. reflexivity.
  - destruct (K c (or_introl eq_refl)) as [[Q _]|Q]; [|congruence]. rewrite Q. rewrite <- Permutation_middle, <- P. reflexivity.
Qed.
Lemma Forall2_map_r {A B C} (R : A -> C -> Prop) (g : B -> C) l k : Forall2 (fun a b => R a (g b)) l k -> Forall2 R l (map g k).
Proof. intros F. induction F; cbn [map]; constructor; auto. Qed.

Definition made_with (q : list entry -> list entry) (h : heap) (r : rawtier) (k : tid) : Prop :=
  t_name (tob h k) = rt_name r /\ Forall2 (stands_for h) (q (rt_entries r)) (t_seq (tob h k)).
Lemma group_wrote q lo hi h h' ps cs rs g : class_table h -> nested_as h lo hi ps cs rs -> (exists bss, good_group h' g (g_tiers (gob h' g)) bss) ->
  Forall2 (made_with q h') rs (g_tiers (gob h' g)) -> (forall p, In p ps -> issubclass h (snd p) cInterval = true) ->
  Permutation ps (combine rs cs) /\ List.length rs = List.length cs /\ (exists t b, class_chain h t cs b) /\
    Forall2 (wrote_with q h) (combine rs cs) (map (fun t => (t_name (tob h' t), map (praatio h') (t_seq (tob h' t)))) (g_tiers (gob h' g))).
Proof.
  intros T N (bss & Gd) R Ki. destruct N as (Ch & _ & L & P & _).
  split; [exact P|]. split; [exact L|]. split; [exact Ch|].
  destruct Gd as (_ & _ & _ & _ & _ & _ & _ & _ & G9 & _). set (ts := g_tiers (gob h' g)) in *.
  assert (Kc : forall p, In p (combine rs cs) -> issubclass h (snd p) cInterval = true) by (intros p Hp; apply Ki, (Permutation_in _ (Permutation_sym P) Hp)).
  apply Forall2_map_r. clearbody ts. clear -T R L Kc G9. revert cs L Kc. induction R as [|r k rs ts (N & F) R IH]; intros [|c cs] L Kc; try discriminate; constructor.
  - split; [exact N|]. cbn [snd]. split.
    + intros _. cbn [fst]. destruct (G9 k (or_introl eq_refl)) as (_ & (_ & Q) & Q2).
      assert (Np : forall x, In x (t_seq (tob h' k)) -> is_point_cls h' (s_cls (sob h' x)) = false) by (intros x Hx; destruct (Q x Hx) as (_ & Q3 & _); rewrite Q3; exact Q2).
      clear -F Np. induction F as [|e x es xs S F IH]; [reflexivity|]. cbn [map]. rewrite IH by (intros y Hy; apply Np; simpl; auto). f_equal.
      rewrite S. unfold praatio. rewrite Np by (simpl; auto). reflexivity.
    + intros Q. specialize (Kc (r, c) (or_introl eq_refl)). cbn [snd] in Kc. rewrite (kinds_apart h c cPoint cInterval T) in Kc; simpl; auto; discriminate.
  - apply IH; [intros k' Hk; apply G9; simpl; auto|injection L as L; exact L|intros p Hp; apply Kc; simpl; auto].
Qed.
Lemma pgroup_wrote q f h h' ps g : class_table h -> read_pgroup f h' ps g -> (forall p, In p ps -> raw_points (rt_entries (fst p)) /\ issubclass h (snd p) cPoint = true /\ issubclass h' (f (snd p)) cPoint = true) ->
  Forall2 (wrote_with q h) ps (map (fun t => (t_name (tob h' t), map (praatio h') (t_seq (tob h' t)))) (g_tiers (gob h' g))).
Proof.
  intros T (_ & _ & _ & F) K. apply Forall2_map_r. set (ts := g_tiers (gob h' g)) in *. clearbody ts. induction F as [|[r c] k ps ts (N & E & _ & M & Nd & So & _ & Kx) F IH]; constructor.
  - destruct (K (r, c) (or_introl eq_refl)) as (Rw & Pt & Pt'). cbn [fst snd] in *. split; [exact N|]. split.
    + intros Q. cbn [fst snd] in Q. rewrite (kinds_apart h c cPoint cInterval T) in Q; simpl; auto; discriminate.
    + intros _. cbn [fst snd].
      assert (Pr : forall x, In x (t_seq (tob h' k)) -> praatio h' x = (true, fst (mark_of h' x), None, snd (mark_of h' x))).
      { intros x Hx. unfold praatio, is_point_cls. destruct (Kx x Hx) as (-> & _). rewrite Pt'. reflexivity. }
      assert (Em : map (praatio h') (t_seq (tob h' k)) = map (fun m : option Z * string => (true, fst m, @None Z, snd m)) (map (mark_of h') (t_seq (tob h' k)))).
      { rewrite map_map. apply map_ext_in. exact Pr. }
      assert (Es : map (shown true) (rt_entries r) = map (fun m : option Z * string => (true, fst m, @None Z, snd m)) (map (mark h') (rt_entries r))).
      { rewrite map_map. apply map_ext_in. intros e He. destruct (Rw e He) as (z & x & -> & _). reflexivity. }
      split; [|split].
      * intros x. rewrite Em, Es, !in_map_iff. split; intros (m & Q & I); exists m; (split; [exact Q|]); apply M; exact I.
      * rewrite Em. apply NoDup_fmap; [|exact Nd]. intros [m1 m2] [n1 n2] Q. cbn in Q. congruence.
      * intros i j x y Hij Hx Hy. rewrite nth_error_map in Hx, Hy. destruct (nth_error (t_seq (tob h' k)) i) as [u|] eqn:Eu; [|discriminate]. destruct (nth_error (t_seq (tob h' k)) j) as [v|] eqn:Ev; [|discriminate].
        injection Hx as <-. injection Hy as <-. destruct (So i j u v Hij Eu Ev) as (s & t & Q1 & Q2 & Q3). exists s, t. auto.
  - apply IH. intros p Hp. apply K. simpl; auto.
Qed.
Lemma rows_wrote (G : list (rawtier * cid) -> gid -> Prop) (Q : list (rawtier * cid) -> (list entry -> list entry) -> Prop) lo hi f h h' :
  class_table h -> class_table h' -> (forall x, clive h x -> cob h' x = cob h x) -> (List.length (h_cls h) <= List.length (h_cls h'))%nat -> Q [] (fun l => l) ->
  (forall ps g, G ps g -> exists q cs rs, Q ps q /\ nested_as h lo hi ps cs rs /\ (exists bss, good_group h' g (g_tiers (gob h' g)) bss) /\ Forall2 (made_with q h') rs (g_tiers (gob h' g))) ->
  forall rows css gs, rows_as G f h h' rows css gs -> Forall2 (readable h lo hi) rows css -> (forall c, In c (concat css) -> clone_of h h' c (f c)) ->
  exists ows, Forall2 (fun rc ow => row_out h (fst rc) (snd rc) (fst ow) /\ exists q, Q (interval_part h (fst rc) (snd rc)) q /\ Forall2 (wrote_with q h) (fst ow) (snd ow)) (combine rows css) ows /\
    Permutation (map fst (concat (map fst ows))) (concat rows) /\
    concat (map snd ows) = map (fun t => (t_name (tob h' t), map (praatio h') (t_seq (tob h' t)))) (flat_map (fun g => g_tiers (gob h' g)) gs).
Proof.
  intros T T' K L Q0 GQ rows css gs R. induction R as [|row ocs gs rows css gs' (g1 & g2 & -> & R1 & R2) R IH]; intros F Cl; [exists []; repeat (split; [constructor|]); constructor|].
  inversion F as [|? ? ? ? Rd F']; subst. destruct IH as (outs & O1 & O2 & O3); [exact F'|intros c Hc; apply Cl; cbn [concat]; apply in_app_iff; auto|].
  destruct Rd as (Lr & Kc & _ & Pt).
  assert (A1 : exists q rs cs, Q (interval_part h row ocs) q /\ Permutation (interval_part h row ocs) (combine rs cs) /\ List.length rs = List.length cs /\ (cs = [] \/ exists t b, class_chain h t cs b) /\
     Forall2 (wrote_with q h) (combine rs cs) (map (fun t => (t_name (tob h' t), map (praatio h') (t_seq (tob h' t)))) (flat_map (fun g => g_tiers (gob h' g)) g1))).
  { destruct R1 as [[E ->]|(g & -> & R1)]; [exists (fun l => l), [], []; rewrite E; repeat (split; [auto|]); constructor|].
    destruct (GQ _ _ R1) as (q & cs & rs & X1 & X2 & X3 & X4).
    destruct (group_wrote q lo hi h h' _ cs rs g T X2 X3 X4) as (Q1 & Q2 & Q3 & Q4); [intros p Hp; apply filter_In in Hp; apply Hp|].
    exists q, rs, cs. split; [exact X1|]. split; [exact Q1|]. split; [exact Q2|]. split; [right; exact Q3|]. cbn [flat_map]. rewrite app_nil_r. exact Q4. }
  assert (A2 : forall q, Forall2 (wrote_with q h) (point_part h row ocs) (map (fun t => (t_name (tob h' t), map (praatio h') (t_seq (tob h' t)))) (flat_map (fun g => g_tiers (gob h' g)) g2))).
  { intros q. destruct R2 as [[E ->]|(_ & g & -> & R2)]; [rewrite E; constructor|]. cbn [flat_map]. rewrite app_nil_r. apply (pgroup_wrote q f h h' _ g T R2).
    intros p Hp. split; [apply Pt, Hp|]. apply filter_In in Hp. destruct Hp as [Hp X]. split; [exact X|]. apply (copy_kind h h' (snd p)); auto. apply Cl. cbn [concat]. apply in_app_iff. left.
    destruct p. apply in_combine_r in Hp. exact Hp. }
  destruct A1 as (q & rs & cs & Qq & Q1 & Q2 & Q3 & Q4). specialize (A2 q).
  match type of Q4 with Forall2 _ _ ?x => match type of A2 with Forall2 _ _ ?y => exists (((combine rs cs ++ point_part h row ocs)%list, (x ++ y)%list) :: outs) end end. split; [|split].
  - cbn [combine]. constructor; [|exact O1]. cbn [fst snd]. split; [exists rs, cs; auto|]. exists q. split; [exact Qq|]. apply Forall2_app; assumption.
  - cbn [concat map fst]. rewrite map_app, O2. apply Permutation_app_tail. rewrite <- Q1, <- (pair_split h row ocs T Kc Lr). rewrite OutputFinal.fst_combine by exact Lr. reflexivity.
  - cbn [concat map snd]. rewrite O3, !flat_map_app, !map_app. reflexivity.
Qed.
Lemma out_plain {T} h h' a outs (q : T -> list entry -> list entry) : Forall2 (fun p o => exists k, wrote_with (q k) h p o) (concat outs) (map (fun t => (t_name (tob h' t), map (praatio h') (t_seq (tob h' t)))) (grid_tiers h' a)) ->
  forall rows, Permutation (map fst (concat outs)) (concat rows) -> NoDup (map rt_name (concat rows)) ->
  return_textgrid h' a = map (fun t => (t_name (tob h' t), map (praatio h') (t_seq (tob h' t)))) (grid_tiers h' a).
Proof.
  intros O3 rows O2 N. apply written_plain.
  assert (E : map (fun t => t_name (tob h' t)) (grid_tiers h' a) = map rt_name (map fst (concat outs))).
  { clear -O3. revert O3. generalize (grid_tiers h' a) (concat outs). intros l k. revert l. induction k as [|p k IH]; intros [|t l] F; inversion F as [|? ? ? ? W F']; subst; [reflexivity|]. cbn [map]. rewrite (IH _ F'). f_equal. destruct W as (w & W). apply W. }
  rewrite E. rewrite O2. exact N.
Qed.
Lemma concat_all {A B} (R : A -> B -> Prop) (ows : list (list A * list B)) : (forall ow, In ow ows -> Forall2 R (fst ow) (snd ow)) -> Forall2 R (concat (map fst ows)) (concat (map snd ows)).
Proof. induction ows as [|ow ows IH]; intros K; [constructor|]. cbn [map concat]. apply Forall2_app; [apply K; simpl; auto|apply IH; intros o Ho; apply K; simpl; auto]. Qed.

Lemma c54_written : forall (h h' : heap) (rows : list (list rawtier)) (css : list (list cid)) (lo hi : Z) (f : cid -> cid) (a : aid),
  class_table h -> class_table h' -> Forall2 (readable h lo hi) rows css -> grid_read lo hi f h h' rows css a -> NoDup (map rt_name (concat rows)) ->
  exists outs, Forall2 (fun rc out => row_out h (fst rc) (snd rc) out) (combine rows css) outs /\ Permutation (map fst (concat outs)) (concat rows) /\
    Forall2 (wrote h) (concat outs) (return_textgrid h' a).
Proof.
  intros h h' rows css lo hi f a T T' F (_ & _ & R & _ & _ & Cl & (K & _ & _ & _ & _ & L & _)) N.
  destruct (rows_wrote (read_group lo hi f h h') (fun _ q => q = fun l => l) lo hi f h h' T T' K L eq_refl) with (rows := rows) (css := css) (gs := a_groups (aob h' a)) as (ows & O1 & O2 & O3); [|exact R|exact F|exact Cl|].
  { intros ps g (cs & rs & t & b & N' & C & _ & (_ & Gd & _) & Rr & _). exists (fun l => l), cs, rs. split; [reflexivity|]. split; [exact N'|]. split; [exact Gd|]. eapply Forall2_impl; [exact Rr|]. intros r k (X1 & X2 & _). split; auto. }
  change (flat_map (fun g => g_tiers (gob h' g)) (a_groups (aob h' a))) with (grid_tiers h' a) in O3.
  assert (O4 : Forall2 (wrote h) (concat (map fst ows)) (concat (map snd ows))).
  { apply concat_all. intros ow Ho. destruct (F2_in _ _ _ ow O1 Ho) as (rc & _ & _ & q & -> & Q). exact Q. }
  exists (map fst ows). split; [|split; [exact O2|]].
  - clear -O1. induction O1 as [|rc ow l ows [Q _] O1 IH]; cbn [map]; constructor; auto.
  - rewrite (out_plain h h' a (map fst ows) (fun _ : unit => fun l => l)) with (rows := rows); [rewrite <- O3; exact O4| |exact O2|exact N].
    rewrite <- O3. eapply Forall2_impl; [exact O4|]. intros p o W. exists tt. exact W.
Qed.
Lemma c54_round : forall (n : nat) (h : heap) (rows : list (list rawtier)) (css : list (list cid)) (rest : list rawtier) (lo hi : Z),
  class_table h -> Forall2 (readable h lo hi) rows css -> names_apart h (concat css) -> some_intervals h rows css -> gapless (concat rows) -> NoDup (map rt_name (concat rows)) ->
  exists a h' outs, new_grid_textgrid n (concat rows ++ rest) (Nested css) h = Ok a h' /\
    Forall2 (fun rc out => row_out h (fst rc) (snd rc) out) (combine rows css) outs /\ Permutation (map fst (concat outs)) (concat rows) /\
    Forall2 (wrote h) (concat outs) (return_textgrid h' a).
Proof.
  intros n h rows css rest lo hi T F Na Si Gp N. destruct (c53_nested n h rows css rest lo hi T F Na Si Gp) as (f & a & h' & E & G & T').
  destruct (c54_written h h' rows css lo hi f a T T' F G N) as (outs & O). exists a, h', outs. auto.
Qed.
(** With gaps. *)
Lemma c65_round : forall (n : nat) (h : heap) (rows : list (list rawtier)) (css : list (list cid)) (rest : list rawtier) (lo hi : Z),
  class_table h -> Forall2 (readable h lo hi) rows css -> names_apart h (concat css) -> some_intervals h rows css -> NoDup (map rt_name (concat rows)) ->
  0 < lo -> (forall row, In row rows -> (List.length row <= n)%nat) ->
  exists a h' outs, new_grid_textgrid n (concat rows ++ rest) (Nested css) h = Ok a h' /\
    Forall2 (fun rc out => row_out h (fst rc) (snd rc) (fst out) /\ wrote_row h (fst rc) (snd rc) (fst out) (snd out)) (combine rows css) outs /\
    Permutation (map fst (concat (map fst outs))) (concat rows) /\ return_textgrid h' a = concat (map snd outs).
Proof.
  intros n h rows css rest lo hi T F Na Si N Pos Ln. destruct (c65_nested n h rows css rest lo hi T F Na Si Pos Ln) as (f & a & h' & E & (_ & _ & R & _ & _ & Cl & (K & _ & _ & _ & _ & L & _)) & T').
  destruct (rows_wrote (either_group lo hi f h h') (fun ps q => (exists p, In p ps /\ raw_gap (rt_entries (fst p))) /\ q = plugged \/ gapless (map fst ps) /\ q = fun l => l) lo hi f h h' T T' K L)
    with (rows := rows) (css := css) (gs := a_groups (aob h' a)) as (ows & O1 & O2 & O3); [right; split; [intros r []|reflexivity]| |exact R|exact F|exact Cl|].
  { intros ps g [[Gp (cs & rs & t & b & N' & _ & _ & _ & Gd & Rr)]|[Gp (cs & rs & t & b & N' & _ & _ & (_ & Gd & _) & Rr & _)]].
    - exists plugged, cs, rs. split; [left; auto|]. split; [exact N'|]. split; [exact Gd|]. eapply Forall2_impl; [exact Rr|]. intros r k (X1 & X2 & _). split; auto.
    - exists (fun l => l), cs, rs. split; [right; auto|]. split; [exact N'|]. split; [exact Gd|]. eapply Forall2_impl; [exact Rr|]. intros r k (X1 & X2 & _). split; auto. }
  change (flat_map (fun g => g_tiers (gob h' g)) (a_groups (aob h' a))) with (grid_tiers h' a) in O3.
  exists a, h', ows. split; [exact E|]. split; [|split; [exact O2|]].
  - eapply Forall2_impl; [exact O1|]. intros rc ow (Q1 & q & [[Gp ->]|[Gp ->]] & Q2); split; auto; [left|right]; auto.
  - rewrite O3. apply (out_plain h h' a (map fst ows) (fun k : list entry -> list entry => k)) with (rows := rows); [|exact O2|exact N].
    rewrite <- O3. apply concat_all. intros ow Ho. destruct (F2_in _ _ _ ow O1 Ho) as (rc & _ & _ & q & _ & Q). eapply Forall2_impl; [exact Q|]. intros p o W. exists q. exact W.
Qed.
End Trip.
