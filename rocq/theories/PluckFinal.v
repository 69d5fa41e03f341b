(** * PluckFinal: popping an interval from a tier (C71). *)
From Verif Require Export FuseFinal ChildFinal PluckSpec.
From Verif Require Import ChildSpec.
Open Scope Z_scope.

Section WithEnv.
Context `{Env}.
Opaque span_of.

Lemma erase_same_but_links o o' : erase o' = erase o -> same_but_links o o'.
Proof. intros E. destruct (erase_fields _ _ E) as (F1 & F2 & F3 & F4 & F5 & F6 & F7 & F8 & F9 & F10). repeat split; assumption. Qed.

Lemma tier_loses_by h h' t x a b : tlive h t -> t_seq (tob h t) = (a ++ x :: b)%list -> List.length (h_tier h') = List.length (h_tier h) ->
  (tob h' t = set_t_seq (a ++ b) (tob h t) \/ tob h' t = set_t_contains CAlias (set_t_seq (a ++ b) (tob h t))) ->
  (forall u, u <> t -> tob h' u = tob h u) -> tier_loses t x h h'.
Proof.
  intros Lt E L T O. split; [exists a, b; split; [exact E|]; destruct T as [-> | ->]; reflexivity|].
  repeat (split; [destruct T as [-> | ->]; reflexivity|]). split; [exact L|exact O].
Qed.
(** Up to the new links of the tier. *)
Lemma pop_run h t x a b h1 : t_seq (tob h t) = (a ++ x :: b)%list -> NoDup (t_seq (tob h t)) -> twinless h (t_seq (tob h t)) x -> tlive h t ->
  remove_superset x (upd_tier t (set_t_seq (a ++ b)) h) = Ok tt h1 -> h_tier h1 = h_tier (upd_tier t (set_t_seq (a ++ b)) h) ->
  tier_pop t x h = when (bool_decide (t_super (tob h t) = Some cTop)) (tier_precedence t) h1.
Proof.
  intros E Nd Tw Lt Er Ht. unfold tier_pop. mstep. rewrite contains_in by (rewrite E; apply in_app_iff; simpl; auto). cbn [negb]. mstep.
  rewrite E in Nd, Tw. rewrite E, twinless_drop; [|exact Tw|apply (NoDup_mid _ _ _ Nd)]. mstep. rewrite (bind_ok _ _ _ _ _ Er). mstep.
  assert (Q : tob h1 t = set_t_seq (a ++ b) (tob h t)) by (unfold tob at 1; rewrite Ht; apply tob_upd_eq; exact Lt). rewrite Q. reflexivity.
Qed.

Lemma c71_pop : forall h t x, (t < List.length (h_tier h))%nat -> NoDup (t_seq (tob h t)) -> In x (t_seq (tob h t)) -> sole_value h (t_seq (tob h t)) x ->
  (x < List.length (h_seq h))%nat -> filed h x -> (forall p, s_super (sob h x) = Some p -> ~ In p (s_subset (sob h p))) ->
  t_super (tob h t) <> Some cTop ->
  exists h', tier_pop t x h = Ok tt h' /\ tier_loses t x h h' /\ left_family h h' x /\
    s_fol (sob h' x) = s_fol (sob h x) /\ s_prev (sob h' x) = s_prev (sob h x) /\ tiers_only h h' /\
    (forall i, (i < List.length (h_seq h))%nat -> i <> x ->
       (forall p, s_super (sob h x) = Some p -> i <> p /\ ~ In i (s_subset (sob h p))) -> sob h' i = sob h i).
Proof.
  intros h t x Lt Nd Ix Tw Lx Fx Np Ntop. destruct (in_split _ _ Ix) as (a & b & E). set (h0 := upd_tier t (set_t_seq (a ++ b)) h).
  assert (T0 : forall h', h_tier h' = h_tier h0 -> tier_loses t x h h').
  { intros h' Q. apply (tier_loses_by h h' t x a b Lt E).
    - rewrite Q. unfold h0. apply len_upd_tier.
    - left. unfold tob at 1. rewrite Q. apply tob_upd_eq. exact Lt.
    - intros u Hu. unfold tob at 1. rewrite Q. change (tob h0 u = tob h u). apply tob_upd_ne. auto. }
  destruct (s_super (sob h x)) as [p|] eqn:Sx.
  - destruct (Fx p Sx) as (Lp & Hpx & Hx & Ndp & Hall). destruct (in_split _ _ Hx) as (l1 & l2 & Hsub).
    assert (Nm := Ndp). rewrite Hsub in Nm. destruct (NoDup_mid _ _ _ Nm) as (N1 & N2 & N3 & N4).
    destruct (remove_superset_child x p l1 l2 (s_cls (sob h x)) h0) as (h' & E' & ((B1 & B2 & B3 & B4 & B5 & B6 & B7) & SB & SC)).
    { exact Lx. }
    { exact Lp. }
    { auto. }
    { exact Sx. }
    { exact Hsub. }
    { exact Nm. }
    { intros y Hy. rewrite <- Hsub in Hy. destruct (Hall y Hy) as (A1 & A2 & A3 & A4). split; [exact A1|]. split; [|exact A2]. symmetry. apply A4. exact Hx. }
    { intros y Hy V. rewrite <- Hsub in Hy. apply (Hall y Hy); auto. }
    set (hA := cut p (l1 ++ l2) x h0) in *.
    assert (LA : forall i, live hA i <-> live h i) by (intros i; unfold hA, cut; rewrite !live_upd; reflexivity).
    assert (Ap : sob hA p = set_s_subset (l1 ++ l2) (sob h p)) by (unfold hA, cut; rewrite sob_upd_ne by auto; apply (sob_upd_eq h0); exact Lp).
    assert (Ax : sob hA x = clear_super (sob h x)) by (unfold hA, cut; rewrite sob_upd_eq by (apply live_upd; exact Lx); rewrite sob_upd_ne by auto; reflexivity).
    assert (Ao : forall i, i <> p -> i <> x -> sob hA i = sob h i) by (intros i H1 H2; unfold hA, cut; rewrite !sob_upd_ne by auto; reflexivity).
    assert (Il : forall y, In y (l1 ++ l2) -> In y (s_subset (sob h p))) by (intros y Hy; rewrite Hsub; apply in_app_iff in Hy; apply in_app_iff; simpl; tauto).
    assert (Npl : ~ In p (l1 ++ l2)) by (intros Q; apply (Np p eq_refl), Il, Q).
    assert (Xh : sob h' x = clear_super (sob h x)) by (rewrite SB; [exact Ax|apply LA; exact Lx|exact N4]).
    assert (Ph : sob h' p = set_s_subset (l1 ++ l2) (sob h p)) by (rewrite SB; [exact Ap|apply LA; exact Lp|exact Npl]).
    exists h'. split.
    { rewrite (pop_run h t x a b h' E Nd Tw Lt E' B2). rewrite bool_decide_eq_false_2 by exact Ntop. reflexivity. }
    split; [apply T0; exact B2|]. split; [|split; [rewrite Xh; reflexivity|split; [rewrite Xh; reflexivity|split]]].
    + split; [rewrite Xh; reflexivity|]. split; [rewrite Xh; repeat split|]. intros q Hq. assert (q = p) by congruence. subst q.
      split; [rewrite Xh; reflexivity|]. exists l1, l2. split; [exact Hsub|]. split; [rewrite Ph; reflexivity|]. split; [rewrite Ph; repeat split|].
      split; [exact SC|]. intros y Hy. apply erase_same_but_links. destruct (Hall y (Il y Hy)) as (Ly & _). rewrite B6 by (apply LA; exact Ly).
      rewrite Ao; [reflexivity|intros ->; contradiction|intros ->; contradiction].
    + assert (LenA : List.length (h_seq hA) = List.length (h_seq h)) by (unfold hA, cut; rewrite !len_upd_seq; reflexivity).
      split; [exact B1|]. split; [exact B3|]. split; [exact B4|]. split; [lia|]. intros i Hi. apply boundary_is_boundary; [unfold live; lia|].
      apply B7; [unfold live; lia|]. rewrite LA. unfold live. lia.
    + intros i Hi Hix Hout. destruct (Hout p eq_refl) as [O1 O2]. rewrite SB; [apply Ao; auto|apply LA; exact Hi|]. intros Q. apply O2, Il, Q.
  - assert (E' : remove_superset x h0 = Ok tt h0) by (unfold remove_superset; change (sob h0 x) with (sob h x); rewrite Sx; reflexivity).
    exists h0. split; [rewrite (pop_run h t x a b h0 E Nd Tw Lt E' eq_refl); rewrite bool_decide_eq_false_2 by exact Ntop; reflexivity|].
    split; [apply T0; reflexivity|]. split.
    { split; [exact Sx|]. split; [repeat split|]. intros p Q. congruence. }
    split; [reflexivity|]. split; [reflexivity|]. split.
    { repeat (split; [reflexivity|]). intros i Hi. cbn in Hi. lia. }
    intros i _ _ _. reflexivity.
Qed.

Lemma c71_top : forall h t x c, (t < List.length (h_tier h))%nat -> linkable h c (t_seq (tob h t)) -> In x (t_seq (tob h t)) ->
  sole_value h (t_seq (tob h t)) x -> s_super (sob h x) = None -> t_super (tob h t) = Some cTop ->
  exists h', tier_pop t x h = Ok tt h' /\ tier_loses t x h h' /\ tiers_only h h' /\
    chained h' (t_seq (tob h' t)) /\ contains_of h' (WTier t) = Some (t_seq (tob h' t)) /\
    (forall y, In y (t_seq (tob h' t)) -> same_but_place (sob h y) (sob h' y) /\ s_intier (sob h' y) = Some t /\ s_within (sob h' y) = Some (WTier t)) /\
    (forall i, (i < List.length (h_seq h))%nat -> ~ In i (t_seq (tob h' t)) -> sob h' i = sob h i).
Proof.
  intros h t x c Lt Lk Ix Tw Sx Top. destruct (in_split _ _ Ix) as (a & b & E). set (h0 := upd_tier t (set_t_seq (a ++ b)) h).
  destruct Lk as [Nd Al].
  assert (E' : remove_superset x h0 = Ok tt h0) by (unfold remove_superset; change (sob h0 x) with (sob h x); rewrite Sx; reflexivity).
  assert (T0 : tob h0 t = set_t_seq (a ++ b) (tob h t)) by (apply tob_upd_eq; exact Lt).
  assert (Sub : forall y, In y (a ++ b) -> In y (t_seq (tob h t))) by (intros y Hy; rewrite E; apply in_app_iff in Hy; apply in_app_iff; simpl; tauto).
  destruct (tier_precedence_ok h0 t c cTop) as (h' & E2 & P & C).
  { unfold tlive, h0. rewrite len_upd_tier. exact Lt. }
  { rewrite T0. cbn [set_t_seq t_seq]. split; [rewrite E in Nd; apply (NoDup_mid _ _ _ Nd)|]. intros y Hy. apply (Al y (Sub y Hy)). }
  { rewrite T0. exact Top. }
  rewrite issubclass_refl in P. rewrite T0 in P, C. cbn [set_t_seq t_seq] in P, C.
  destruct P as (P1 & P2 & P3 & P4 & P5 & P6 & P7 & P8 & P9 & P10). rewrite T0 in P10.
  assert (Tq : t_seq (tob h' t) = (a ++ b)%list) by (rewrite P10; reflexivity).
  exists h'. split; [rewrite (pop_run h t x a b h0 E Nd Tw Lt E' eq_refl); rewrite bool_decide_eq_true_2 by exact Top; exact E2|]. rewrite Tq.
  split.
  { apply (tier_loses_by h h' t x a b Lt E); [rewrite P8; unfold h0; apply len_upd_tier|right; exact P10|].
    intros u Hu. rewrite P9 by auto. unfold h0. apply tob_upd_ne. auto. }
  split; [repeat (split; [assumption|]); exact P4|]. split; [exact C|].
  split; [unfold contains_of; rewrite P10; reflexivity|]. split; [exact P1|exact P2].
Qed.

(** An interval that is not in the tier, with the times and the label of one that is. *)
Lemma c71_twin : forall h t x a y b, (t < List.length (h_tier h))%nat -> t_seq (tob h t) = (a ++ y :: b)%list -> same_value h y x ->
  (forall z, In z a -> ~ same_value h z x) -> s_super (sob h x) = None -> t_super (tob h t) <> Some cTop ->
  exists h', tier_pop t x h = Ok tt h' /\ tier_loses t y h h' /\ h_seq h' = h_seq h /\ tiers_only h h'.
Proof.
  intros h t x a y b Lt E V Na Sx Ntop. set (h0 := upd_tier t (set_t_seq (a ++ b)) h). exists h0.
  assert (T0 : tob h0 t = set_t_seq (a ++ b) (tob h t)) by (apply tob_upd_eq; exact Lt).
  assert (D : sl_drop h (a ++ y :: b) x = Some (a ++ b)%list).
  { destruct (sl_drop h (a ++ y :: b) x) as [l'|] eqn:Ed.
    - apply sl_drop_Some in Ed. destruct Ed as (a' & z & b' & Q & -> & Vz & W). f_equal.
      assert (K : a' = a /\ z :: b' = y :: b).
      { clear Lt E h0 T0. revert a' Q W. induction a as [|q a IH]; intros a' Q W.
        - destruct a' as [|q' a']; [auto|]. simpl in Q. injection Q as <- Q. exfalso. apply (W y); [simpl; auto|]. apply praatio_iff. exact V.
        - destruct a' as [|q' a']; simpl in Q; injection Q as Qe Q; [subst z|subst q'].
          + exfalso. apply (Na q); [simpl; auto|]. apply praatio_iff. exact Vz.
          + destruct (IH (fun z Hz => Na z (or_intror Hz)) a' Q) as [-> K]; [intros z' Hz'; apply W; simpl; auto|]. auto. }
      destruct K as [-> K]. injection K as _ ->. reflexivity.
    - exfalso. eapply sl_drop_None; [exact Ed|apply in_app_iff; right; left; reflexivity|]. apply praatio_iff. exact V. }
  split.
  { unfold tier_pop. mstep. rewrite E.
    assert (Q : sl_contains h (a ++ y :: b) x = true).
    { apply sl_contains_spec. exists y. split; [apply in_app_iff; simpl; auto|]. right. apply praatio_iff. exact V. }
    rewrite Q. cbn [negb]. mstep. rewrite E, D. mstep. fold h0.
    assert (E' : remove_superset x h0 = Ok tt h0) by (unfold remove_superset; change (sob h0 x) with (sob h x); rewrite Sx; reflexivity).
    rewrite (bind_ok _ _ _ _ _ E'). mstep. rewrite T0. rewrite bool_decide_eq_false_2 by exact Ntop. reflexivity. }
  split.
  { apply (tier_loses_by h h0 t y a b Lt E); [apply len_upd_tier|left; exact T0|]. intros u Hu. apply tob_upd_ne. auto. }
  split; [reflexivity|]. repeat (split; [reflexivity|]). intros i Hi. cbn in Hi. lia.
Qed.

Lemma c71_absent : forall h t x, ~ listed h (t_seq (tob h t)) x -> tier_pop t x h = Raise PyException h.
Proof.
  intros h t x N. unfold tier_pop. mstep. assert (Q : sl_contains h (t_seq (tob h t)) x = false).
  { destruct (sl_contains h (t_seq (tob h t)) x) eqn:Q; [|reflexivity]. exfalso. apply N. apply sl_contains_spec in Q. destruct Q as (y & Hy & D).
    exists y. split; [exact Hy|]. destruct D as [D|D]; [auto|right; apply praatio_iff; exact D]. }
  rewrite Q. reflexivity.
Qed.
End WithEnv.
