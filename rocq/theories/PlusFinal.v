(** * PlusFinal: adding two intervals (C70). *)
From Verif Require Export ChildFinal MendFinal PlusOps PlusSpec.
From Verif Require Import ChildSpec MendSpec ChildFinal.
Open Scope Z_scope.

Section WithEnv.
Context `{Env}.
Opaque span_of.

Lemma share_run a b h : share a b h = Ok tt (upd_seq b (fun _ => sob h a) h).
Proof. reflexivity. Qed.
Lemma same_value_ext h h' x y : (forall c d, issubclass h' c d = issubclass h c d) ->
  (forall z, z = x \/ z = y -> s_cls (sob h' z) = s_cls (sob h z) /\ s_start (sob h' z) = s_start (sob h z) /\ s_end (sob h' z) = s_end (sob h z) /\
    s_label (sob h' z) = s_label (sob h z)) -> same_value h' x y -> same_value h x y.
Proof.
  intros I A (V1 & V2 & V3 & V4). destruct (A x (or_introl eq_refl)) as (A1 & A2 & A3 & A4). destruct (A y (or_intror eq_refl)) as (B1 & B2 & B3 & B4).
  unfold same_value, is_point in *. rewrite !I, A1, B1 in *. rewrite <- A2, <- A3, <- A4, <- B2, <- B3, <- B4. auto.
Qed.

Lemma erase_super v a b : erase a = erase b -> erase (set_s_super v a) = erase (set_s_super v b).
Proof. destruct a, b. unfold erase. simpl. intros Q. injection Q as -> -> -> -> -> -> -> -> -> ->. reflexivity. Qed.
Lemma erase_clear a b : erase a = erase b -> erase (clear_super a) = erase (clear_super b).
Proof. destruct a, b. unfold erase, clear_super. simpl. intros Q. injection Q as -> -> -> -> -> -> -> -> -> ->. reflexivity. Qed.

(** The loop over the new list: every former child of [s] is taken out of it. *)
Record strips (s w x : oid) (px l : list oid) (h h' : heap) : Prop := {
  st_rest : same_rest h h';
  st_len : (List.length (h_seq h) <= List.length (h_seq h'))%nat;
  st_new : forall i, live h' i -> ~ live h i -> boundary_obj (sob h' i);
  st_s : sob h' s = set_s_subset [x] (sob h s);
  st_w : sob h' w = sob h' s;
  st_x : erase (sob h' x) = erase (set_s_super (Some w) (sob h x));
  st_out : forall y, In y l -> y <> x -> erase (sob h' y) = erase (set_s_super (Some w) (clear_super (sob h y)));
  st_same : forall i, live h i -> i <> s -> i <> w -> ~ In i (px ++ l) -> sob h' i = sob h i
}.
Lemma strip_loop s w x c : w <> s -> x <> s -> x <> w ->
  forall l px h, live h s -> live h w -> sob h w = sob h s -> s_subset (sob h s) = (px ++ l)%list -> NoDup (px ++ l) ->
  ~ In s (px ++ l) -> ~ In w (px ++ l) ->
  (px = [] /\ In x l /\ s_super (sob h x) = None \/ px = [x] /\ s_super (sob h x) = Some w) ->
  (forall y, In y (px ++ l) -> live h y /\ s_cls (sob h y) = c /\ s_label (sob h y) <> "#"%string) ->
  all_apart h (px ++ l) -> (forall y, In y l -> y <> x -> s_super (sob h y) = Some s) ->
  exists h', forM l (twin_take s w) h = Ok tt h' /\ strips s w x px l h h'.
Proof.
  intros Hws Hxs Hxw. induction l as [|y l IH]; intros px h Ls Lw Tw Sub Nd Ns Nw Px All Ap Sup.
  - destruct Px as [(_ & [] & _)|(-> & Sx)]. exists h. split; [reflexivity|]. simpl in *. constructor.
    + repeat split.
    + lia.
    + intros; contradiction.
    + destruct (sob h s); simpl in *; subst; reflexivity.
    + exact Tw.
    + f_equal. destruct (sob h x); simpl in *; subst; reflexivity.
    + intros y [].
    + reflexivity.
  - assert (Ny : ~ In y (px ++ l)) by (apply NoDup_mid in Nd; tauto).
    assert (Ly : live h y) by (apply All, in_app_iff; simpl; auto).
    assert (Hys : y <> s) by (intros ->; apply Ns, in_app_iff; simpl; auto).
    assert (Hyw : y <> w) by (intros ->; apply Nw, in_app_iff; simpl; auto).
    assert (Sb : forall z, In z (px ++ l) -> In z (px ++ y :: l)) by (intros z Hz; apply in_app_iff in Hz; apply in_app_iff; simpl; tauto).
    assert (Nd' : NoDup (px ++ l)) by (apply NoDup_mid in Nd; tauto).
    cbn [forM]. destruct (Nat.eq_dec y x) as [->|Hyx].
    + destruct Px as [(-> & _ & Sx)|(-> & _)]; [|exfalso; apply Ny; simpl; auto].
      set (h1 := upd_seq x (set_s_super (Some w)) h).
      assert (E1 : twin_take s w x h = Ok tt h1).
      { unfold twin_take. change (get_seq x) with (gets (fun h => sob h x)). mstep. rewrite Sx. rewrite bool_decide_eq_false_2 by discriminate.
        assert (Er : remove_superset x h = Ok tt h) by (unfold remove_superset; rewrite Sx; reflexivity).
        rewrite (bind_ok _ _ _ _ _ Er), (bind_ok _ _ _ _ _ (share_run s w h)).
        rewrite upd_still by (symmetry; exact Tw). reflexivity. }
      rewrite (bind_ok _ _ _ _ _ E1).
      assert (Q : forall i, i <> x -> sob h1 i = sob h i) by (intros i Hi; apply sob_upd_ne; auto).
      assert (Qx : sob h1 x = set_s_super (Some w) (sob h x)) by (apply sob_upd_eq; exact Ly).
      assert (Lv : forall i, live h1 i <-> live h i) by (intros i; apply live_upd).
      destruct (IH [x] h1) as (h' & E' & R).
      * apply Lv; exact Ls.
      * apply Lv; exact Lw.
      * rewrite !Q by auto. exact Tw.
      * rewrite Q by auto. exact Sub.
      * exact Nd.
      * exact Ns.
      * exact Nw.
      * right. split; [reflexivity|]. rewrite Qx. reflexivity.
      * intros z Hz. rewrite Lv. destruct (All z Hz) as (A1 & A2 & A3). destruct (Nat.eq_dec z x) as [->|Hz']; [rewrite Qx; auto|rewrite Q by auto; auto].
      * intros z z' Hz Hz' V. apply Ap; [exact Hz|exact Hz'|]. revert V. apply same_value_ext; [reflexivity|].
        intros i _. destruct (Nat.eq_dec i x) as [->|Hi]; [rewrite Qx; repeat split|rewrite Q by auto; auto].
      * intros z Hz Hzx. rewrite Q by auto. apply Sup; [simpl; auto|exact Hzx].
      * exists h'. split; [exact E'|]. destruct R as [R1 R2 R3 R4 R5 R6 R7 R8]. constructor.
        { destruct R1 as (R11 & R12 & R13 & R14). repeat split; [rewrite R11|rewrite R12|rewrite R13|rewrite R14]; reflexivity. }
        { unfold h1 in R2. rewrite len_upd_seq in R2. exact R2. }
        { intros i Hi Hn. apply R3; [exact Hi|]. rewrite Lv. exact Hn. }
        { rewrite R4, Q by auto. reflexivity. }
        { exact R5. }
        { rewrite R6, Qx. reflexivity. }
        { intros z [->|Hz] Hzx; [congruence|]. rewrite R7 by auto. rewrite Q by auto. reflexivity. }
        { intros i Hi H1 H2 H3. rewrite R8 by (try apply Lv; auto). apply Q. intros ->. apply H3. simpl. auto. }
    + assert (Sy : s_super (sob h y) = Some s) by (apply Sup; [simpl; auto|exact Hyx]).
      assert (Ixl : px = [] /\ In x l /\ s_super (sob h x) = None \/ px = [x] /\ s_super (sob h x) = Some w).
      { destruct Px as [(-> & [Q|Q] & Sx)|Q]; [congruence|left; auto|right; exact Q]. }
      destruct (remove_superset_child y s px l c h) as (hB & EB & (SB1 & SB2 & SB3)); auto.
      { intros z Hz V. apply Ap; [exact Hz|apply in_app_iff; simpl; auto|exact V]. }
      set (hA := cut s (px ++ l) y h) in *.
      assert (LA : forall i, live hA i <-> live h i) by (intros i; unfold hA, cut; rewrite !live_upd; reflexivity).
      assert (As : sob hA s = set_s_subset (px ++ l) (sob h s)) by (unfold hA, cut; rewrite sob_upd_ne by auto; apply sob_upd_eq; exact Ls).
      assert (Ay : sob hA y = clear_super (sob h y)) by (unfold hA, cut; rewrite sob_upd_eq by (apply live_upd; exact Ly); rewrite sob_upd_ne by auto; reflexivity).
      assert (Ao : forall i, i <> s -> i <> y -> sob hA i = sob h i) by (intros i H1 H2; unfold hA, cut; rewrite !sob_upd_ne by auto; reflexivity).
      assert (Ns' : ~ In s (px ++ l)) by (intros Q; apply Ns, Sb, Q).
      assert (Nw' : ~ In w (px ++ l)) by (intros Q; apply Nw, Sb, Q).
      destruct SB1 as (B1 & B2 & B3 & B4 & B5 & B6 & B7).
      assert (LB : forall i, live h i -> live hB i) by (intros i Hi; apply LA in Hi; unfold live in *; lia).
      assert (Bs : sob hB s = set_s_subset (px ++ l) (sob h s)) by (rewrite SB2; [exact As|apply LA; exact Ls|exact Ns']).
      assert (By : sob hB y = clear_super (sob h y)) by (rewrite SB2; [exact Ay|apply LA; exact Ly|exact Ny]).
      set (hC := upd_seq w (fun _ => sob hB s) hB).
      set (hD := upd_seq y (set_s_super (Some w)) hC).
      assert (E1 : twin_take s w y h = Ok tt hD).
      { unfold twin_take. change (get_seq y) with (gets (fun h => sob h y)). mstep. rewrite Sy. rewrite bool_decide_eq_false_2 by congruence.
        rewrite (bind_ok _ _ _ _ _ EB), (bind_ok _ _ _ _ _ (share_run s w hB)). reflexivity. }
      rewrite (bind_ok _ _ _ _ _ E1).
      assert (LD : forall i, live hD i <-> live hB i) by (intros i; unfold hD, hC; rewrite !live_upd; reflexivity).
      assert (Dw : sob hD w = set_s_subset (px ++ l) (sob h s)).
      { unfold hD. rewrite sob_upd_ne by auto. unfold hC. rewrite sob_upd_eq by (apply LB; exact Lw). exact Bs. }
      assert (Dy : sob hD y = set_s_super (Some w) (clear_super (sob h y))).
      { unfold hD. rewrite sob_upd_eq by (unfold hC; apply live_upd, LB; exact Ly). unfold hC. rewrite sob_upd_ne by auto. rewrite By. reflexivity. }
      assert (Do : forall i, i <> w -> i <> y -> sob hD i = sob hB i) by (intros i H1 H2; unfold hD, hC; rewrite !sob_upd_ne by auto; reflexivity).
      assert (Ds : sob hD s = set_s_subset (px ++ l) (sob h s)) by (rewrite Do by auto; exact Bs).
      assert (Dz : forall z, In z (px ++ l) -> erase (sob hD z) = erase (sob h z)).
      { intros z Hz. assert (z <> y) by (intros ->; contradiction). assert (z <> s) by (intros ->; contradiction). assert (z <> w) by (intros ->; contradiction).
        rewrite Do by auto. rewrite B6 by (apply LA, All, Sb, Hz). rewrite Ao by auto. reflexivity. }
      assert (Xin : In x (px ++ l)) by (destruct Ixl as [(_ & Q & _)|(-> & _)]; [apply in_app_iff; auto|simpl; auto]).
      destruct (IH px hD) as (h' & E' & R).
      * apply LD, LB; exact Ls.
      * apply LD, LB; exact Lw.
      * congruence.
      * rewrite Ds. reflexivity.
      * exact Nd'.
      * exact Ns'.
      * exact Nw'.
      * assert (Qx := Dz x Xin). apply erase_fields in Qx. destruct Qx as (_ & _ & _ & _ & -> & _). exact Ixl.
      * intros z Hz. destruct (All z (Sb z Hz)) as (A1 & A2 & A3). assert (Qz := Dz z Hz). apply erase_fields in Qz. destruct Qz as (-> & _ & _ & -> & _).
        split; [apply LD, LB; exact A1|auto].
      * intros z z' Hz Hz' V. apply Ap; [apply Sb, Hz|apply Sb, Hz'|]. revert V. apply same_value_ext; [intros; apply issubclass_ext; exact B1|].
        intros i Hi. assert (Qi : erase (sob hD i) = erase (sob h i)) by (apply Dz; destruct Hi as [-> | ->]; auto).
        apply erase_fields in Qi. destruct Qi as (Q1 & Q2 & Q3 & Q4 & _). auto.
      * intros z Hz Hzx. assert (Qz : erase (sob hD z) = erase (sob h z)) by (apply Dz, in_app_iff; auto).
        apply erase_fields in Qz. destruct Qz as (_ & _ & _ & _ & -> & _). apply Sup; [simpl; auto|exact Hzx].
      * exists h'. split; [exact E'|]. destruct R as [R1 R2 R3 R4 R5 R6 R7 R8].
        assert (LenD : List.length (h_seq hD) = List.length (h_seq hB)) by (unfold hD, hC; rewrite !len_upd_seq; reflexivity).
        assert (LenA : List.length (h_seq hA) = List.length (h_seq h)) by (unfold hA, cut; rewrite !len_upd_seq; reflexivity).
        constructor.
        { destruct R1 as (R11 & R12 & R13 & R14). split; [rewrite R11; exact B1|]. split; [rewrite R12; exact B2|]. split; [rewrite R13; exact B3|rewrite R14; exact B4]. }
        { lia. }
        { intros i Hi Hn. destruct (decide (live hD i)) as [Li|Li]; [|apply R3; auto].
          assert (i <> s) by (intros ->; contradiction). assert (i <> w) by (intros ->; contradiction). assert (i <> y) by (intros ->; contradiction).
          rewrite R8; auto; [|intros Q; apply Hn, All, Sb, Q]. rewrite Do by auto. apply B7; [apply LD; exact Li|]. rewrite LA. exact Hn. }
        { rewrite R4, Ds. reflexivity. }
        { exact R5. }
        { rewrite R6. apply erase_super, Dz, Xin. }
        { intros z [<-|Hz] Hzx.
          - rewrite <- Dy. destruct (decide (y = s)); [contradiction|]. rewrite R8; auto. apply LD, LB; exact Ly.
          - rewrite R7 by auto. apply erase_super, erase_clear, Dz, in_app_iff. auto. }
        { intros i Hi H1 H2 H3. assert (i <> y) by (intros ->; apply H3, in_app_iff; simpl; auto). assert (~ In i (px ++ l)) by (intros Q; apply H3, Sb, Q).
          rewrite R8; auto; [|apply LD, LB; exact Hi]. rewrite Do by auto. rewrite SB2 by (try apply LA; auto). apply Ao; auto. }
Qed.

Lemma release_loop s w x : forall K h, sob h w = sob h s -> s_subset (sob h w) = [x] -> NoDup K ->
  (forall y, In y K -> live h y /\ s_super (sob h y) = Some w /\ y <> s /\ y <> w /\ y <> x /\ ~ same_value h x y) ->
  forM K (fun o => isin <- gets (fun h => sl_contains h (s_subset (sob h w)) o) ;;
    if (isin : bool) then ret tt else remove_superset o ;;; share w s) h = Ok tt (upds clear_super K h).
Proof.
  induction K as [|y K IH]; intros h Tw Sub Nd A; [reflexivity|]. cbn [forM upds].
  destruct (A y (or_introl eq_refl)) as (Ly & Sy & H1 & H2 & H3 & V).
  assert (Nc : sl_contains h (s_subset (sob h w)) y = false).
  { rewrite Sub. apply sl_contains_false; [intros [Q|[]]; congruence|]. intros z [<-|[]] Q. apply V, praatio_iff, Q. }
  rewrite (bind_ok _ _ h tt (upd_seq y clear_super h)).
  - apply NoDup_cons in Nd. destruct Nd as [N1 N2]. rewrite elem_of_list_In in N1. apply IH.
    + rewrite !sob_upd_ne by auto. exact Tw.
    + rewrite sob_upd_ne by auto. exact Sub.
    + exact N2.
    + intros z Hz. destruct (A z (or_intror Hz)) as (Lz & Sz & Z1 & Z2 & Z3 & Vz). assert (z <> y) by (intros ->; contradiction).
      rewrite sob_upd_ne by auto. split; [apply live_upd; exact Lz|]. repeat (split; [assumption|]). intros Q. apply Vz. revert Q.
      apply same_value_ext; [reflexivity|]. intros i _. repeat split; apply sob_upd_field; intros o; reflexivity.
  - mstep. rewrite Nc.
    assert (Er : remove_superset y h = Ok tt (upd_seq y clear_super h)).
    { unfold remove_superset. rewrite Sy. apply (remove_superset_unlisted _ y w); auto. }
    rewrite (bind_ok _ _ _ _ _ Er). rewrite share_run. rewrite upd_still; [reflexivity|]. rewrite !sob_upd_ne by auto. exact Tw.
Qed.

Lemma twin_set s w x c b K h : w <> s -> x <> s -> x <> w -> live h s -> live h w -> sob h w = sob h s -> s_subset (sob h s) = K ->
  subset_class h (s_cls (sob h s)) = Some c -> s_label (sob h s) <> "#"%string -> Permutation b (x :: K) -> sorted_starts h b -> NoDup b -> ~ In s b -> ~ In w b ->
  (forall y, In y b -> sound_child h c y) -> all_apart h b -> s_super (sob h x) = None -> (forall y, In y K -> s_super (sob h y) = Some s) ->
  exists h', twin_setter s w b h = Ok tt h' /\ same_rest h h' /\ (List.length (h_seq h) <= List.length (h_seq h'))%nat /\
    (forall i, live h' i -> ~ live h i -> boundary_obj (sob h' i)) /\
    sob h' s = put_kids [x] c (sob h s) /\ sob h' w = sob h' s /\ kid_of w (sob h x) (sob h' x) /\ chained h' [x] /\
    (forall y, In y K -> erase (sob h' y) = erase (clear_super (sob h y))) /\
    (forall i, live h i -> i <> s -> i <> w -> ~ In i b -> sob h' i = sob h i).
Proof.
  intros Hws Hxs Hxw Ls Lw Tw Sub Sc Lab P So Nd Ns Nw Sd Ap Sx Sk.
  assert (Ib : forall y, In y b <-> y = x \/ In y K).
  { intros y. split; intros Hy; [apply (Permutation_in y P) in Hy; simpl in Hy; intuition|]. apply (Permutation_in y (Permutation_sym P)). simpl. intuition. }
  assert (NK : NoDup (x :: K)).
  { apply NoDup_ListNoDup. eapply Permutation_NoDup; [exact P|]. apply NoDup_ListNoDup. exact Nd. }
  apply NoDup_cons in NK. destruct NK as [NK1 NK2]. rewrite elem_of_list_In in NK1.
  assert (Ei : sl_init b h = Ok (Slv b (Some c)) h).
  { destruct (sl_init_spec h c b) as (b2 & Ei & _ & _ & Eq); [intros y Hy; apply Sd; auto|intros y Hy; apply (Sd y Hy)|].
    rewrite (Eq So) in Ei. rewrite Ei. destruct b; [|reflexivity]. apply Permutation_nil in P. discriminate. }
  set (h1 := upd_seq w (kids_in w b c) h).
  set (h2 := upd_seq s (fun _ => sob h1 w) h1).
  assert (L2 : forall i, live h2 i <-> live h i) by (intros i; unfold h2, h1; rewrite !live_upd; reflexivity).
  assert (W1 : sob h1 w = kids_in w b c (sob h s)) by (unfold h1; rewrite sob_upd_eq by exact Lw; rewrite Tw; reflexivity).
  assert (W2 : sob h2 w = kids_in w b c (sob h s)) by (unfold h2; rewrite sob_upd_ne by auto; exact W1).
  assert (S2 : sob h2 s = kids_in w b c (sob h s)) by (unfold h2; rewrite sob_upd_eq by (unfold h1; apply live_upd; exact Ls); exact W1).
  assert (O2 : forall i, i <> s -> i <> w -> sob h2 i = sob h i) by (intros i H1 H2; unfold h2, h1; rewrite !sob_upd_ne by auto; reflexivity).
  assert (Yo : forall y, In y b -> y <> s /\ y <> w) by (intros y Hy; split; intros ->; contradiction).
  destruct (strip_loop s w x c Hws Hxs Hxw b [] h2) as (h3 & E3 & R); simpl.
  { apply L2; exact Ls. }
  { apply L2; exact Lw. }
  { congruence. }
  { rewrite S2. reflexivity. }
  { exact Nd. }
  { exact Ns. }
  { exact Nw. }
  { left. split; [reflexivity|]. split; [apply Ib; auto|]. rewrite O2 by auto. exact Sx. }
  { intros y Hy. destruct (Sd y Hy) as (A1 & A2 & A3 & _). destruct (Yo y Hy). rewrite O2 by auto. split; [apply L2; exact A1|auto]. }
  { intros y z Hy Hz V. apply Ap; [exact Hy|exact Hz|]. revert V. apply same_value_ext; [reflexivity|].
    intros i Hi. destruct (Yo i) as [Y1 Y2]; [destruct Hi as [-> | ->]; auto|]. rewrite O2 by auto. auto. }
  { intros y Hy Hyx. destruct (Yo y Hy). rewrite O2 by auto. apply Sk. apply Ib in Hy. intuition. }
  destruct R as [(R11 & R12 & R13 & R14) R2 R3 R4 R5 R6 R7 R8].
  rewrite S2 in R4. rewrite O2 in R6 by auto.
  assert (L3 : forall i, live h i -> live h3 i) by (intros i Hi; apply L2 in Hi; unfold live in *; lia).
  set (h4 := upd_seq w (set_s_contains CAlias) h3).
  set (h5 := upd_seq x (set_s_within (Some (WSeq w))) h4).
  set (h6 := upd_seq s (fun _ => sob h5 w) h5).
  assert (Lx : live h x) by (apply Sd, Ib; auto).
  assert (L6 : forall i, live h6 i <-> live h3 i) by (intros i; unfold h6, h5, h4; rewrite !live_upd; reflexivity).
  assert (W5 : sob h5 w = put_kids [x] c (sob h s)).
  { unfold h5. rewrite sob_upd_ne by auto. unfold h4. rewrite sob_upd_eq by (apply L3; exact Lw). rewrite R5, R4. reflexivity. }
  assert (W6 : sob h6 w = put_kids [x] c (sob h s)) by (unfold h6; rewrite sob_upd_ne by auto; exact W5).
  assert (S6 : sob h6 s = put_kids [x] c (sob h s)) by (unfold h6; rewrite sob_upd_eq by (unfold h5, h4; rewrite !live_upd; apply L3; exact Ls); exact W5).
  assert (X6 : sob h6 x = set_s_within (Some (WSeq w)) (sob h3 x)).
  { unfold h6. rewrite sob_upd_ne by auto. unfold h5. rewrite sob_upd_eq by (unfold h4; apply live_upd, L3; exact Lx). unfold h4. rewrite sob_upd_ne by auto. reflexivity. }
  assert (O6 : forall i, i <> s -> i <> w -> i <> x -> sob h6 i = sob h3 i) by (intros i H1 H2 H3; unfold h6, h5, h4; rewrite !sob_upd_ne by auto; reflexivity).
  destruct (Sd x (proj2 (Ib x) (or_introl eq_refl))) as (_ & Cx & Nx & _).
  assert (X3 := erase_fields _ _ R6). simpl in X3. destruct X3 as (X31 & X32 & X33 & X34 & X35 & X36 & X37 & X38 & X39 & X40).
  destruct (relink_ok w c h6) as (h7 & E7 & ((B1 & B2 & B3 & B4 & B5 & B6 & B7) & S7 & C7)).
  { rewrite W6. simpl. apply NoDup_singleton. }
  { rewrite W6. simpl. intros y [<-|[]]. rewrite X6. simpl. split; [apply L6, L3; exact Lx|]. split; congruence. }
  rewrite W6 in S7, C7. cbn [put_kids s_subset set_s_contains set_s_subec set_s_subset] in S7, C7.
  assert (L7 : forall i, live h3 i -> live h7 i) by (intros i Hi; apply L6 in Hi; unfold live in *; lia).
  assert (W7 : sob h7 w = put_kids [x] c (sob h s)) by (rewrite S7; [exact W6|apply L6, L3; exact Lw|intros [Q|[]]; auto]).
  assert (T7 : sob h7 s = put_kids [x] c (sob h s)) by (rewrite S7; [exact S6|apply L6, L3; exact Ls|intros [Q|[]]; auto]).
  assert (O7 : forall i, live h3 i -> i <> s -> i <> w -> i <> x -> sob h7 i = sob h3 i).
  { intros i Hi H1 H2 H3. rewrite S7; [apply O6; auto|apply L6; exact Hi|intros [Q|[]]; auto]. }
  assert (KK : forall y, In y K -> In y b /\ y <> x /\ y <> s /\ y <> w).
  { intros y Hy. assert (In y b) by (apply Ib; auto). destruct (Yo y) as [Y1 Y2]; [auto|]. split; [auto|]. split; [intros ->; contradiction|auto]. }
  assert (K7 : forall y, In y K -> erase (sob h7 y) = erase (set_s_super (Some w) (clear_super (sob h y)))).
  { intros y Hy. destruct (KK y Hy) as (Y1 & Y2 & Y3 & Y4). rewrite O7 by (auto; apply L3; apply (Sd y Y1)). rewrite R7 by auto. rewrite O2 by auto. reflexivity. }
  assert (K7x : erase (sob h7 x) = erase (set_s_within (Some (WSeq w)) (sob h3 x))) by (rewrite B6 by (apply L6, L3; exact Lx); rewrite X6; reflexivity).
  assert (F7x := erase_fields _ _ K7x). simpl in F7x. destruct F7x as (F1 & F2 & F3 & F4 & F5 & F6 & F7 & F8 & F9 & F10).
  assert (E8 := release_loop s w x K h7).
  exists (upds clear_super K h7). split.
  { unfold twin_setter. mstep. rewrite (bind_ok _ _ _ _ _ Ei). cbn [sv_vals]. mstep. rewrite Tw, Sc.
    rewrite (bind_ok _ _ _ _ _ (mapM_isinstance c b h)).
    assert (Eall : forallb id (map (fun x => issubclass h (s_cls (sob h x)) c) b) = true).
    { apply forallb_forall. intros v Hv. apply in_map_iff in Hv. destruct Hv as (z & <- & Hz). unfold id.
      destruct (Sd z Hz) as (_ & -> & _). apply issubclass_refl. }
    rewrite Eall. rewrite (bind_ok _ _ _ _ _ Ei). unfold rebind_subset. mstep. cbn [sv_vals sv_ec].
    change (upd_seq w _ h) with h1. rewrite (bind_ok _ _ _ _ _ (share_run w s h1)). fold h2. rewrite (bind_ok _ _ _ _ _ E3).
    assert (Ec : seq_set_contains w h3 = Ok tt h5).
    { unfold seq_set_contains. change (get_seq w) with (gets (fun h => sob h w)). mstep. mstep. rewrite R5, R4. cbn [set_s_subset s_subset kids_in set_s_contains set_s_subec forM]. mstep. reflexivity. }
    rewrite (bind_ok _ _ _ _ _ Ec), (bind_ok _ _ _ _ _ (share_run w s h5)). fold h6. rewrite (bind_ok _ _ _ _ _ E7). rewrite Sub. apply E8.
    - congruence.
    - rewrite W7. reflexivity.
    - exact NK2.
    - intros y Hy. destruct (KK y Hy) as (Y1 & Y2 & Y3 & Y4). assert (Q := erase_fields _ _ (K7 y Hy)). simpl in Q.
      destruct Q as (Q1 & Q2 & Q3 & Q4 & Q5 & _). split; [apply L7, L3, (Sd y Y1)|]. split; [exact Q5|]. repeat (split; [assumption|]).
      intros V. apply Y2. symmetry. apply (Ap x y); [apply Ib; auto|exact Y1|]. revert V. apply same_value_ext.
      + intros c1 d1. apply issubclass_ext. rewrite B1. exact R11.
      + intros z [-> | ->]; [|auto]. repeat split; congruence. }
  assert (NKi : forall i, ~ In i K -> sob (upds clear_super K h7) i = sob h7 i) by (intros i Hi; apply sob_upds_notin; exact Hi).
  assert (Nsk : ~ In s K) by (intros Q; apply KK in Q; intuition). assert (Nwk : ~ In w K) by (intros Q; apply KK in Q; intuition).
  assert (Len2 : List.length (h_seq h2) = List.length (h_seq h)) by (unfold h2, h1; rewrite !len_upd_seq; reflexivity).
  assert (Len6 : List.length (h_seq h6) = List.length (h_seq h3)) by (unfold h6, h5, h4; rewrite !len_upd_seq; reflexivity).
  assert (New7 : forall i, live h7 i -> ~ live h i -> boundary_obj (sob h7 i)).
  { intros i Hi Hn. destruct (decide (live h3 i)) as [Q|Q].
    - rewrite O7; auto; [apply R3; [exact Q|rewrite L2; exact Hn]|intros ->; contradiction..].
    - apply B7; [exact Hi|]. rewrite L6. exact Q. }
  assert (NewK : forall i, ~ live h i -> ~ In i K) by (intros i Hi Q; apply Hi, Sd, KK, Q).
  destruct (upds_rest clear_super K h7) as (U1 & U2 & U3 & U4).
  split; [|split; [|split; [|split; [|split; [|split; [|split; [|split]]]]]]].
  - split; [rewrite U1, B1; exact R11|]. split; [rewrite U2, B2; exact R12|]. split; [rewrite U3, B3; exact R13|rewrite U4, B4; exact R14].
  - rewrite len_upds. lia.
  - intros i Hi Hn. rewrite NKi by auto. apply New7; [apply live_upds in Hi; exact Hi|exact Hn].
  - rewrite NKi by auto. exact T7.
  - rewrite !NKi by auto. congruence.
  - rewrite NKi by auto. unfold kid_of. repeat split; congruence.
  - apply (chained_ext h7); [|intros k Bk|exact C7].
    + intros y [<-|[]]. rewrite NKi by auto. auto.
    + destruct Bk as (Bk1 & Bk2 & Bk3). assert (~ In k K).
      { intros Q. destruct (KK k Q) as (Y1 & _). destruct (Sd k Y1) as (_ & _ & Y2 & _). apply Y2. assert (Q' := erase_fields _ _ (K7 k Q)). simpl in Q'. destruct Q' as (_ & _ & _ & Q' & _). congruence. }
      split; [change (live (upds clear_super K h7) k); apply live_upds; exact Bk1|]. rewrite NKi by auto. auto.
  - intros y Hy. rewrite sob_upds_in; [|exact NK2|exact Hy|destruct (KK y Hy) as (Y1 & _); apply L7, L3, (Sd y Y1)].
    rewrite (erase_clear _ _ (K7 y Hy)). reflexivity.
  - intros i Hi H1 H2 H3. assert (i <> x) by (intros ->; apply H3, Ib; auto). assert (~ In i K) by (intros Q; apply H3, KK, Q).
    rewrite NKi by auto. rewrite O7 by auto. rewrite R8 by (auto; apply L2; exact Hi). apply O2; auto.
Qed.

(** ** The new object *)
Lemma new_any c st en lab h : lab <> "#"%string -> exists h', new_obj c st en lab h = Ok (List.length (h_seq h)) h' /\
  same_rest h h' /\ (List.length (h_seq h) < List.length (h_seq h'))%nat /\ (forall i, live h i -> sob h' i = sob h i) /\
  (forall i, live h' i -> ~ live h i -> i <> List.length (h_seq h) -> boundary_obj (sob h' i)).
Proof.
  intros Nl. destruct (new_settles c st en lab h Nl) as (h' & E & (L1 & L2 & L3 & L4 & L5 & L6 & L7) & F & _).
  exists h'. split; [exact E|].
  assert (Len : List.length (h_seq (push_seq (blank_seq c st en lab) h)) = S (List.length (h_seq h))) by (unfold push_seq; cbn; rewrite app_length; cbn; lia).
  split; [repeat split; assumption|]. split; [lia|]. split.
  - intros i Hi. rewrite F; [apply sob_push_old; exact Hi|apply live_push; auto|intros [Q|[]]; unfold live in Hi; lia].
  - intros i Hi Hn Hne. apply L7; [exact Hi|]. unfold live in *. lia.
Qed.
(** What [s + x] starts from: the copy [w] has the record of [s]. *)
Record copied (s w : oid) (h h' : heap) : Prop := {
  cp_rest : same_rest h h';
  cp_w : w = List.length (h_seq h) /\ (w < List.length (h_seq h'))%nat;
  cp_twin : sob h' w = sob h s;
  cp_old : forall i, live h i -> sob h' i = sob h i;
  cp_new : forall i, live h' i -> ~ live h i -> i <> w -> boundary_obj (sob h' i)
}.
Lemma copy_made s h : live h s -> s_label (sob h s) <> "#"%string -> issubclass h (s_cls (sob h s)) cInterval = true ->
  exists w h', (w <- construct3 (Some (s_cls (sob h s))) (s_start (sob h s)) (s_end (sob h s)) (s_label (sob h s)) ;; share s w ;;; ret w) h = Ok w h' /\
    copied s w h h'.
Proof.
  intros Ls Nl Ic. destruct (new_any (s_cls (sob h s)) (s_start (sob h s)) (s_end (sob h s)) (s_label (sob h s)) h Nl) as (h1 & E & R & L & O & N).
  set (w := List.length (h_seq h)) in *. exists w, (upd_seq w (fun _ => sob h1 s) h1).
  assert (Ec : construct3 (Some (s_cls (sob h s))) (s_start (sob h s)) (s_end (sob h s)) (s_label (sob h s)) h = Ok w h1).
  { unfold construct3. mstep. rewrite Ic. exact E. }
  split; [rewrite (bind_ok _ _ _ _ _ Ec), (bind_ok _ _ _ _ _ (share_run s w h1)); reflexivity|].
  assert (Lw : live h1 w) by exact L. constructor.
  - exact R.
  - split; [reflexivity|]. rewrite len_upd_seq. exact L.
  - rewrite sob_upd_eq by exact Lw. apply O, Ls.
  - intros i Hi. rewrite sob_upd_ne by (unfold live, w in *; lia). apply O, Hi.
  - intros i Hi Hn Hne. rewrite sob_upd_ne by auto. apply N; [apply live_upd in Hi; exact Hi|exact Hn|exact Hne].
Qed.

(** [add_child] for a list whose entries belong to whoever. *)
Lemma add_kin h c u x : (u < List.length (h_seq h))%nat ->
  (s_subec (sob h u) = Some c \/ s_subset (sob h u) = [] /\ s_subec (sob h u) = None) ->
  (forall y, In y (s_subset (sob h u)) -> sound_child h c y) -> sound_child h c x -> x <> u -> ~ listed h (s_subset (sob h u)) x ->
  exists b h1, sl_add (OSeq u) (subset_slv (sob h u)) [x] h = Ok (Slv b (Some c)) h1 /\
    Permutation b (x :: s_subset (sob h u)) /\ sorted_starts h b /\
    (h1 = h \/ s_subset (sob h u) = [] /\ h1 = upd_seq u (set_s_subec (Some c)) h).
Proof.
  intros Lu Ec Kd Sx Hxu Nl.
  assert (Fl : List.filter (fun y => negb (sl_contains h (s_subset (sob h u)) y)) [x] = [x]).
  { cbn [List.filter]. rewrite (proj2 (negb_contains h _ x) Nl). reflexivity. }
  destruct Ec as [Ec|[Eb Ec]].
  - pose proof (sl_add_same h (OSeq u) (subset_slv (sob h u)) [x] c (or_introl Ec)) as A. unfold subset_slv in A. cbn [sv_vals sv_ec] in A.
    rewrite Fl in A. cbn [List.app] in A.
    assert (K : forall y, In y (s_subset (sob h u) ++ [x]) -> sound_child h c y).
    { intros y Hy. apply in_app_iff in Hy. destruct Hy as [Hy|[<-|[]]]; [apply Kd; auto|exact Sx]. }
    destruct A as (b & E & P & So & _).
    + intros y Hy. apply (Kd y Hy).
    + intros y [<-|[]]. apply Sx.
    + intros y Hy. apply (K y Hy).
    + intros y Hy. eapply sound_ends, K, Hy.
    + apply issubclass_refl.
    + exists b, h. split; [exact E|]. split; [|auto]. etransitivity; [exact P|]. symmetry. apply Permutation_cons_append.
  - exists [x], (upd_seq u (set_s_subec (Some c)) h). rewrite Eb. split; [|split; [reflexivity|split; [|auto]]].
    2:{ intros i j a b Hij Ha Hb. destruct j as [|[|j]]; [lia|discriminate|discriminate]. }
    unfold subset_slv. rewrite Eb, Ec. unfold sl_add. mstep. cbn [sv_vals sv_ec List.filter sl_contains existsb negb].
    mstep. unfold classes_of. cbn [map all_same forallb negb]. mstep. mstep.
    destruct Sx as (Lx & Cx & Nx & (s & Es) & (e & Ee)). rewrite Cx. cbn [set_owner_ec negb].
    mstep. set (h1 := upd_seq u (set_s_subec (Some c)) h).
    assert (F : s_cls (sob h1 x) = c /\ s_start (sob h1 x) = Some s /\ s_end (sob h1 x) = Some e).
    { unfold h1. rewrite sob_upd_ne by auto. auto. }
    destruct F as (F1 & F2 & F3). cbn [List.app].
    assert (Ef : forM [x] (fun o => c0 <- gets (fun h0 => s_cls (sob h0 o)) ;; (if Nat.eqb c0 c then ret tt else cast c o)) h1 = Ok tt h1).
    { cbn [forM]. unfold bind, gets, ret. rewrite F1, Nat.eqb_refl. reflexivity. }
    rewrite (bind_ok _ _ _ _ _ Ef).
    assert (Ei : sl_init [x] h1 = Ok (Slv [x] (Some c)) h1) by (unfold sl_init; cbn [classes_of map all_same forallb]; rewrite F1; reflexivity).
    rewrite (bind_ok _ _ _ _ _ Ei). cbn [sv_vals sv_ec].
    assert (Es' : sl_sort [x] h1 = Ok [x] h1) by reflexivity.
    rewrite (bind_ok _ _ _ _ _ Es').
    assert (Eo : exists v, sl_check_no_overlaps [x] h1 = Ok v h1).
    { unfold sl_check_no_overlaps, starts_of, ends_of, start_of, end_of. cbn [map]. rewrite F2, F3. destruct (is_point_cls _ _); cbn; eauto. }
    destruct Eo as (v & Eo). rewrite (bind_ok _ _ _ _ _ Eo). reflexivity.
Qed.

Lemma c70_child : forall h c s x, family h c s -> issubclass h (s_cls (sob h s)) cInterval = true -> superset_class h c = Some (s_cls (sob h s)) ->
  sound_child h c x -> s_super (sob h x) = None -> x <> s -> ~ listed h (s_subset (sob h s)) x -> all_apart h (s_subset (sob h s)) ->
  exists w h', seq_plus s x h = Ok w h' /\ twin_of h h' s w /\
    s_subset (sob h' w) = [x] /\ contains_of h' (WSeq w) = Some [x] /\ same_but_kids (sob h s) (sob h' w) /\
    s_super (sob h' x) = Some w /\ s_within (sob h' x) = Some (WSeq w) /\ same_but_home (sob h x) (sob h' x) /\ chained h' [x] /\
    (forall y, In y (s_subset (sob h s)) -> parentless (sob h y) (sob h' y)) /\
    forall i, (i < List.length (h_seq h))%nat -> i <> s -> i <> x -> ~ In i (s_subset (sob h s)) -> sob h' i = sob h i.
Proof.
  intros h c s x Fa Ic Uc Sx Hs Hxs Nl Ap. pose proof Fa as (Ls & Ns & Sc & Is & Nd & Ss & Ec & Kd).
  set (K := s_subset (sob h s)) in *.
  destruct (copy_made s h Ls Ns Ic) as (w & h1 & E1 & [Rs (Ew & Lw) Tw Old New]).
  assert (Nlw : forall i, live h i -> i <> w) by (intros i Hi; unfold live in *; lia).
  assert (L1 : forall i, live h i -> live h1 i) by (intros i Hi; unfold live in *; lia).
  assert (Hws : w <> s) by (intros Q; symmetry in Q; revert Q; apply Nlw; exact Ls).
  assert (Hxw : x <> w) by (apply Nlw, Sx).
  assert (S1 : sob h1 s = sob h s) by (apply Old; exact Ls).
  destruct Rs as (Rc & Rt & Rg & Ra).
  assert (Sd1 : forall y, sound_child h c y -> sound_child h1 c y).
  { intros y (A & B & D & F & G). split; [apply L1; exact A|]. rewrite Old by exact A. auto. }
  assert (Sv1 : forall y z, live h y -> live h z -> same_value h1 y z -> same_value h y z).
  { intros y z Hy Hz. apply same_value_ext; [intros; apply issubclass_ext; exact Rc|]. intros i [-> | ->]; rewrite Old by assumption; auto. }
  assert (KL : forall y, In y K -> live h y) by (intros y Hy; apply (Kd y Hy)).
  destruct (add_kin h1 c w x) as (b & h2 & E2 & P & So & D).
  { exact Lw. }
  { rewrite Tw. exact Ec. }
  { rewrite Tw. intros y Hy. apply Sd1, Kd, Hy. }
  { apply Sd1, Sx. }
  { exact Hxw. }
  { rewrite Tw. intros (y & Hy & Q). apply Nl. exists y. split; [exact Hy|]. destruct Q as [->|Q]; [auto|right]. revert Q. apply Sv1; [apply KL, Hy|apply Sx]. }
  rewrite Tw in P, E2. fold K in P.
  assert (T2 : sob h2 w = sob h s \/ sob h2 w = set_s_subec (Some c) (sob h s)).
  { destruct D as [->|[_ ->]]; [auto|right; rewrite sob_upd_eq by exact Lw; rewrite Tw; reflexivity]. }
  assert (O2 : forall i, i <> w -> sob h2 i = sob h1 i) by (intros i Hi; destruct D as [->|[_ ->]]; [reflexivity|apply sob_upd_ne; auto]).
  assert (R2 : same_rest h1 h2 /\ List.length (h_seq h2) = List.length (h_seq h1)).
  { destruct D as [->|[_ ->]]; [repeat split|]. rewrite len_upd_seq. repeat split. }
  destruct R2 as ((Rc2 & Rt2 & Rg2 & Ra2) & Len2).
  set (h3 := upd_seq s (fun _ => sob h2 w) h2).
  assert (Ls2 : live h2 s) by (unfold live; rewrite Len2; apply L1; exact Ls).
  assert (Len3 : List.length (h_seq h3) = List.length (h_seq h1)) by (unfold h3; rewrite len_upd_seq; exact Len2).
  assert (S3 : sob h3 s = sob h2 w) by (unfold h3; apply sob_upd_eq; exact Ls2).
  assert (W3 : sob h3 w = sob h2 w) by (unfold h3; apply sob_upd_ne; auto).
  assert (O3 : forall i, i <> s -> i <> w -> sob h3 i = sob h1 i) by (intros i H1 H2; unfold h3; rewrite sob_upd_ne by auto; apply O2; auto).
  assert (Y3 : forall i, live h i -> i <> s -> sob h3 i = sob h i) by (intros i Hi H1; rewrite O3 by auto; apply Old; exact Hi).
  assert (Ib : forall y, In y b <-> y = x \/ In y K).
  { intros y. split; intros Hy; [apply (Permutation_in y P) in Hy; simpl in Hy; intuition|]. apply (Permutation_in y (Permutation_sym P)). simpl. intuition. }
  assert (Bs : ~ In s b) by (intros Q; apply Ib in Q; destruct Q; [congruence|contradiction]).
  assert (Bl : forall y, In y b -> live h y) by (intros y Hy; apply Ib in Hy; destruct Hy as [->|Hy]; [apply Sx|apply KL, Hy]).
  assert (Bsd : forall y, In y b -> sound_child h c y) by (intros y Hy; apply Ib in Hy; destruct Hy as [->|Hy]; [exact Sx|apply Kd, Hy]).
  assert (By : forall y, In y b -> sob h3 y = sob h y) by (intros y Hy; apply Y3; [apply Bl, Hy|intros ->; contradiction]).
  destruct (twin_set s w x c b K h3) as (h' & E4 & R4 & Len4 & New4 & S4 & W4 & K4 & C4 & Out4 & O4); auto.
  { unfold live. rewrite Len3. apply L1; exact Ls. }
  { unfold live. rewrite Len3. exact Lw. }
  { congruence. }
  { rewrite S3. destruct T2 as [-> | ->]; reflexivity. }
  { rewrite S3, (subset_class_ext h h3) by (rewrite <- Rc; exact Rc2). destruct T2 as [-> | ->]; exact Sc. }
  { rewrite S3. destruct T2 as [-> | ->]; exact Ns. }
  { eapply sorted_ext; [|exact So]. intros y Hy. rewrite By by exact Hy. rewrite Old by (apply Bl, Hy). reflexivity. }
  { apply NoDup_ListNoDup. eapply Permutation_NoDup; [symmetry; exact P|]. apply NoDup_ListNoDup. apply NoDup_cons. rewrite elem_of_list_In. split; [|exact Nd].
    intros Q. apply Nl. exists x. auto. }
  { intros Q. apply (Nlw w); [apply Bl, Q|reflexivity]. }
  { intros y Hy. destruct (Bsd y Hy) as (A & B & C & F & G). split; [rewrite Len3; apply L1; exact A|]. rewrite By by exact Hy. auto. }
  { intros y z Hy Hz V. assert (V' : same_value h y z).
    { revert V. apply same_value_ext; [intros; apply issubclass_ext; rewrite <- Rc; exact Rc2|]. intros i [-> | ->]; rewrite By by assumption; auto. }
    apply Ib in Hy, Hz. destruct Hy as [->|Hy], Hz as [->|Hz]; [reflexivity| | |apply Ap; assumption].
    - exfalso. apply Nl. exists z. split; [exact Hz|right]. destruct V' as (V1 & V2 & V3 & V4). unfold same_value. rewrite <- V1, <- V2, <- V3.
      repeat split; auto. intros Q. symmetry. auto.
    - exfalso. apply Nl. exists y. auto. }
  { rewrite Y3 by (auto; apply Sx). exact Hs. }
  { intros y Hy. rewrite By by (apply Ib; auto). apply (Kd y Hy). }
  destruct R4 as (Q1 & Q2 & Q3 & Q4).
  assert (Ebelow : subclass_of_m (s_cls (sob h s)) (superset_class h1 (s_cls (sob h1 x))) h1 = Ok true h1).
  { rewrite Old by apply Sx. destruct Sx as (_ & -> & _). rewrite (superset_class_ext h h1) by exact Rc. rewrite Uc. cbn [subclass_of_m]. unfold gets. rewrite issubclass_refl. reflexivity. }
  exists w, h'. split.
  { unfold seq_plus. change (get_seq s) with (gets (fun h => sob h s)). mstep.
    destruct (construct3 (Some (s_cls (sob h s))) (s_start (sob h s)) (s_end (sob h s)) (s_label (sob h s)) h) as [w0 hc|e hc] eqn:Ek;
      [|rewrite (bind_raise _ _ _ _ _ Ek) in E1; discriminate].
    rewrite (bind_ok _ _ _ _ _ Ek) in E1. rewrite (bind_ok _ _ _ _ _ Ek). rewrite (bind_ok _ _ _ _ _ (share_run s w0 hc)) in E1.
    rewrite (bind_ok _ _ _ _ _ (share_run s w0 hc)). unfold ret in E1. injection E1 as -> E1. rewrite E1. mstep. rewrite (bind_ok _ _ _ _ _ Ebelow).
    change (get_seq w) with (gets (fun h => sob h w)). mstep. rewrite Tw. rewrite (bind_ok _ _ _ _ _ E2). rewrite (bind_ok _ _ _ _ _ (share_run w s h2)).
    fold h3. cbn [sv_vals]. rewrite (bind_ok _ _ _ _ _ E4). reflexivity. }
  assert (Put : put_kids [x] c (sob h3 s) = put_kids [x] c (sob h s)) by (rewrite S3; destruct T2 as [-> | ->]; reflexivity).
  assert (Wh : sob h' w = put_kids [x] c (sob h s)) by congruence.
  destruct K4 as (X1 & X2 & X3 & X4 & X5 & X6 & X7 & X8 & X9 & X10). rewrite (Y3 x) in X1, X2, X3, X4, X6, X7, X8, X10 by (auto; apply Sx).
  split; [|split; [|split; [|split; [|split; [exact X5|split; [exact X9|split; [|split; [exact C4|split]]]]]]]].
  - split; [split; [lia|rewrite Len3 in Len4; lia]|]. split; [exact W4|]. split.
    + intros i Hi Hne. apply boundary_is_boundary; [unfold live; lia|]. destruct (decide (live h3 i)) as [Q|Q].
      * assert (~ live h i) by (unfold live; lia). assert (i <> s) by (intros ->; contradiction). assert (~ In i b) by (intros Q'; apply Bl in Q'; contradiction).
        rewrite O4 by auto. rewrite O3 by auto. apply New; [unfold live in *; lia|assumption|exact Hne].
      * apply New4; [unfold live; lia|exact Q].
    + split; [rewrite Q1; cbn; rewrite Rc2; exact Rc|]. split; [rewrite Q2; cbn; rewrite Rt2; exact Rt|]. split; [rewrite Q3; cbn; rewrite Rg2; exact Rg|rewrite Q4; cbn; rewrite Ra2; exact Ra].
  - rewrite Wh. reflexivity.
  - unfold contains_of. rewrite Wh. reflexivity.
  - rewrite Wh. repeat split.
  - repeat split; assumption.
  - intros y Hy. assert (Q := erase_fields _ _ (Out4 y Hy)). rewrite By in Q by (apply Ib; auto). simpl in Q.
    destruct Q as (Z1 & Z2 & Z3 & Z4 & Z5 & Z6 & Z7 & Z8 & Z9 & Z10). split; [exact Z5|]. split; [exact Z9|]. repeat split; assumption.
  - intros i Hi H1 H2 H3. rewrite O4; [apply Y3; auto|unfold live; rewrite Len3; apply L1; exact Hi|exact H1|apply Nlw; exact Hi|].
    intros Q. apply Ib in Q. destruct Q; contradiction.
Qed.

(** ** A child plus its parent, and intervals that do not go together *)
Lemma c70_under : forall h c s x d, family h c x -> sound_child h c s -> issubclass h c cInterval = true ->
  superset_class h (s_cls (sob h x)) = Some d -> issubclass h c d = false ->
  s_super (sob h s) = None -> s <> x -> ~ listed h (s_subset (sob h x)) s ->
  exists w h' b, seq_plus s x h = Ok w h' /\ twin_of h h' s w /\
    Permutation b (w :: s_subset (sob h x)) /\ sorted_starts h' b /\ rears h h' c x b /\
    same_but_home (sob h s) (sob h' w) /\ (forall y, In y (s_subset (sob h x)) -> same_but_home (sob h y) (sob h' y)) /\
    forall i, (i < List.length (h_seq h))%nat -> i <> s -> i <> x -> ~ In i (s_subset (sob h x)) -> sob h' i = sob h i.
Proof.
  intros h c s x d Fa Ss Ic Uc Id Hs Hsx Nl. pose proof Fa as (Lx & Nx & Sc & Ix & Nd & So & Ec & Kd). set (K := s_subset (sob h x)) in *.
  pose proof Ss as (Ls & Cs & Ns & (st & Es) & (en & Ee)).
  destruct (copy_made s h Ls Ns ltac:(rewrite Cs; exact Ic)) as (w & h1 & E1 & [Rs (Ew & Lw) Tw Old New]).
  assert (Nlw : forall i, live h i -> i <> w) by (intros i Hi; unfold live in *; lia).
  assert (L1 : forall i, live h i -> live h1 i) by (intros i Hi; unfold live in *; lia).
  assert (Hsw : s <> w) by (apply Nlw; exact Ls). assert (Hxw : x <> w) by (apply Nlw; exact Lx).
  destruct Rs as (Rc & Rt & Rg & Ra).
  assert (KL : forall y, In y K -> live h y) by (intros y Hy; apply (Kd y Hy)).
  assert (Kk : forall y, In y K -> sob h1 y = sob h y) by (intros y Hy; apply Old, KL, Hy).
  assert (Xk : sob h1 x = sob h x) by (apply Old; exact Lx).
  assert (Sd1 : forall y, sound_child h c y -> sound_child h1 c y).
  { intros y (A & B & D & F & G). split; [apply L1; exact A|]. rewrite Old by exact A. auto. }
  assert (NsK : ~ In s K) by (intros Q; apply Nl; exists s; auto).
  assert (Fa1 : family h1 c x).
  { unfold family. rewrite Xk. fold K. split; [apply L1; exact Lx|]. split; [exact Nx|]. split; [rewrite (subset_class_ext h h1) by exact Rc; exact Sc|].
    split; [exact Ix|]. split; [exact Nd|]. split; [eapply sorted_ext; [|exact So]; intros y Hy; rewrite Kk by exact Hy; reflexivity|]. split; [exact Ec|].
    intros y Hy. destruct (Kd y Hy) as [A B]. split; [apply Sd1, A|]. rewrite Kk by exact Hy. exact B. }
  assert (Sw1 : sound_child h1 c w).
  { split; [exact Lw|]. rewrite Tw. split; [exact Cs|]. split; [exact Ns|]. split; [exists st; exact Es|exists en; exact Ee]. }
  assert (Nl1 : ~ listed h1 (s_subset (sob h1 x)) w).
  { rewrite Xk. intros (y & Hy & Q). fold K in Hy. destruct Q as [->|Q]; [apply (Nlw w); [apply KL, Hy|reflexivity]|]. apply Nl. exists y. split; [exact Hy|right].
    destruct Q as (V1 & V2 & V3 & V4). unfold same_value, is_point in *. rewrite <- Tw, <- (Kk y Hy). rewrite <- !(issubclass_ext h h1 _ cPoint Rc). auto. }
  destruct (append_kid h1 c x w) as (h2 & b & E2 & P & Sb & W); [exact Fa1|exact Sw1|exact Nl1|auto|rewrite Tw; exact Hs|].
  rewrite Xk in P. fold K in P.
  assert (Ib : forall y, In y b <-> y = w \/ In y K).
  { intros y. split; intros Hy; [apply (Permutation_in y P) in Hy; simpl in Hy; intuition|]. apply (Permutation_in y (Permutation_sym P)). simpl. intuition. }
  assert (Bx : ~ In x b) by (intros Q; apply Ib in Q; destruct Q; [congruence|contradiction]).
  assert (Bs : ~ In s b) by (intros Q; apply Ib in Q; destruct Q; [congruence|contradiction]).
  assert (Ndb : NoDup b).
  { apply NoDup_ListNoDup. eapply Permutation_NoDup; [symmetry; exact P|]. apply NoDup_ListNoDup. apply NoDup_cons. rewrite elem_of_list_In. split; [|exact Nd].
    intros Q. apply (Nlw w); [apply KL, Q|reflexivity]. }
  assert (Sdb : forall y, In y b -> sound_child h1 c y) by (intros y Hy; apply Ib in Hy; destruct Hy as [->|Hy]; [exact Sw1|apply Sd1, Kd, Hy]).
  destruct (wired_rears c x b h1 h2 W) as ((A1 & A2 & A3 & A4 & A5 & A6) & (B1 & B2 & B3 & B4 & B5 & B6) & A7 & A8); auto.
  { apply L1; exact Lx. }
  { rewrite Xk. exact Nx. }
  { apply Fa1. }
  destruct (wired_one _ _ _ _ _ W) as (_ & V2 & _ & V4).
  set (h' := upd_seq s (fun _ => sob h2 w) h2).
  assert (Ls2 : live h2 s) by (unfold live in *; lia).
  assert (O' : forall i, i <> s -> sob h' i = sob h2 i) by (intros i Hi; apply sob_upd_ne; auto).
  assert (S' : sob h' s = sob h2 w) by (apply sob_upd_eq; exact Ls2).
  assert (L' : forall i, live h' i <-> live h2 i) by (intros i; apply live_upd).
  assert (Len' : List.length (h_seq h') = List.length (h_seq h2)) by apply len_upd_seq.
  assert (Yo : forall y, In y b -> sob h' y = sob h2 y) by (intros y Hy; apply O'; intros ->; contradiction).
  assert (Iw : In w b) by (apply Ib; auto).
  assert (Bd' : forall k, is_boundary h2 k -> is_boundary h' k).
  { intros k (K1 & K2 & K3). assert (k <> s).
    { intros ->. apply Ns. rewrite <- K2. symmetry. rewrite V4 by (auto; apply L1; exact Ls). rewrite Old by exact Ls. reflexivity. }
    split; [apply L'; exact K1|]. rewrite O' by auto. auto. }
  assert (Eabove : subclass_of_m (s_cls (sob h s)) (superset_class h1 (s_cls (sob h1 x))) h1 = Ok false h1).
  { rewrite Xk, (superset_class_ext h h1) by exact Rc. rewrite Uc. cbn [subclass_of_m]. unfold gets. rewrite Cs, (issubclass_ext h h1) by exact Rc. rewrite Id. reflexivity. }
  assert (Ebelow : subclass_of_m (s_cls (sob h s)) (subset_class h1 (s_cls (sob h1 x))) h1 = Ok true h1).
  { rewrite Xk, (subset_class_ext h h1) by exact Rc. rewrite Sc. cbn [subclass_of_m]. unfold gets. rewrite Cs, issubclass_refl. reflexivity. }
  exists w, h', b. split.
  { unfold seq_plus. change (get_seq s) with (gets (fun h => sob h s)). mstep.
    destruct (construct3 (Some (s_cls (sob h s))) (s_start (sob h s)) (s_end (sob h s)) (s_label (sob h s)) h) as [w0 hc|e hc] eqn:Ek;
      [|rewrite (bind_raise _ _ _ _ _ Ek) in E1; discriminate].
    rewrite (bind_ok _ _ _ _ _ Ek) in E1. rewrite (bind_ok _ _ _ _ _ Ek). rewrite (bind_ok _ _ _ _ _ (share_run s w0 hc)) in E1.
    rewrite (bind_ok _ _ _ _ _ (share_run s w0 hc)). unfold ret in E1. injection E1 as -> E1. rewrite E1. mstep. rewrite (bind_ok _ _ _ _ _ Eabove).
    mstep. rewrite (bind_ok _ _ _ _ _ Ebelow). change (get_seq x) with (gets (fun h => sob h x)). mstep.
    destruct (sl_add (OSeq x) (subset_slv (sob h1 x)) [w] h1) as [v ha|e ha] eqn:Ea; [|rewrite (bind_raise _ _ _ _ _ Ea) in E2; discriminate].
    rewrite (bind_ok _ _ _ _ _ Ea) in E2. rewrite (bind_ok _ _ _ _ _ Ea). rewrite (bind_ok _ _ _ _ _ E2).
    rewrite bool_decide_eq_false_2 by (rewrite elem_of_list_In, Xk; exact NsK). rewrite (bind_ok _ _ _ _ _ (share_run w s h2)). reflexivity. }
  split; [|split; [exact P|split; [|split; [|split; [|split]]]]].
  - split; [rewrite Len'; lia|]. split; [rewrite S'; apply O'; auto|]. split.
    + intros i Hi Hne. rewrite Len' in Hi. apply Bd'. destruct (decide (live h1 i)) as [Q|Q].
      * assert (Nb : ~ In i b) by (intros Q'; apply Ib in Q'; destruct Q' as [Q'|Q']; [auto|apply KL in Q'; unfold live in Q'; lia]).
        apply boundary_is_boundary; [unfold live; lia|]. rewrite V4; [|exact Q|unfold live in *; lia|exact Nb]. apply New; [exact Q|unfold live; lia|exact Hne].
      * apply B6. unfold live in Q. lia.
    + split; [cbn; rewrite B1; exact Rc|]. split; [cbn; rewrite B2; exact Rt|]. split; [cbn; rewrite B3; exact Rg|cbn; rewrite B4; exact Ra].
  - eapply sorted_ext; [|exact A7]. intros y Hy. rewrite Yo by exact Hy. reflexivity.
  - assert (Ox : sob h' x = sob h2 x) by (apply O'; auto). rewrite Xk in A2.
    unfold rears. rewrite Ox. split; [exact A1|]. split; [exact A2|]. split; [unfold contains_of in *; rewrite Ox; exact A3|].
    split; [intros y Hy; rewrite Yo by exact Hy; apply A4, Hy|]. split.
    + apply (chained_ext h2); [intros y Hy; rewrite Yo by exact Hy; auto|exact Bd'|exact A5].
    + destruct A6 as (F1 & F2 & F3 & F4 & F5 & F6 & F7 & F8). unfold family. rewrite Ox, Len'.
      split; [exact F1|]. split; [exact F2|]. split; [rewrite (subset_class_ext h2 h') by reflexivity; exact F3|]. split; [exact F4|]. split; [exact F5|].
      split; [eapply sorted_ext; [|exact F6]; intros y Hy; rewrite A1 in Hy; rewrite Yo by exact Hy; reflexivity|]. split; [exact F7|].
      intros y Hy. destruct (F8 y Hy) as ((Z1 & Z2) & Z3). rewrite A1 in Hy. rewrite Yo by exact Hy. split; [|exact Z3]. split; [rewrite Len'; exact Z1|]. rewrite Yo by exact Hy. exact Z2.
  - rewrite Yo by exact Iw. rewrite <- Tw. apply A8, Iw.
  - intros y Hy. assert (Hb : In y b) by (apply Ib; auto). rewrite Yo by exact Hb. rewrite <- Kk by exact Hy. apply A8, Hb.
  - intros i Hi H1 H2 H3. rewrite O' by auto. rewrite V4; [apply Old; exact Hi|apply L1; exact Hi|exact H2|]. intros Q. apply Ib in Q. destruct Q as [Q|Q]; [revert Q; apply Nlw; exact Hi|contradiction].
Qed.

Lemma c70_refused : forall h s x d e, (s < List.length (h_seq h))%nat -> s_label (sob h s) <> "#"%string -> issubclass h (s_cls (sob h s)) cInterval = true ->
  superset_class h (s_cls (sob h x)) = Some d -> issubclass h (s_cls (sob h s)) d = false ->
  subset_class h (s_cls (sob h x)) = Some e -> issubclass h (s_cls (sob h s)) e = false -> (x < List.length (h_seq h))%nat ->
  exists h', seq_plus s x h = Raise ValueError h' /\ same_rest h h' /\
    forall i, (i < List.length (h_seq h))%nat -> sob h' i = sob h i.
Proof.
  intros h s x d e Ls Ns Ic Uc Id Dc Ie Lx.
  destruct (copy_made s h Ls Ns Ic) as (w & h1 & E1 & [Rs (Ew & Lw) Tw Old New]). pose proof Rs as (Rc & _).
  assert (Xk : sob h1 x = sob h x) by (apply Old; exact Lx).
  assert (Ea : subclass_of_m (s_cls (sob h s)) (superset_class h1 (s_cls (sob h1 x))) h1 = Ok false h1).
  { rewrite Xk, (superset_class_ext h h1) by exact Rc. rewrite Uc. cbn [subclass_of_m]. unfold gets. rewrite (issubclass_ext h h1) by exact Rc. rewrite Id. reflexivity. }
  assert (Eb : subclass_of_m (s_cls (sob h s)) (subset_class h1 (s_cls (sob h1 x))) h1 = Ok false h1).
  { rewrite Xk, (subset_class_ext h h1) by exact Rc. rewrite Dc. cbn [subclass_of_m]. unfold gets. rewrite (issubclass_ext h h1) by exact Rc. rewrite Ie. reflexivity. }
  exists h1. split; [|split; [exact Rs|exact Old]].
  unfold seq_plus. change (get_seq s) with (gets (fun h => sob h s)). mstep.
  destruct (construct3 (Some (s_cls (sob h s))) (s_start (sob h s)) (s_end (sob h s)) (s_label (sob h s)) h) as [w0 hc|e0 hc] eqn:Ek;
    [|rewrite (bind_raise _ _ _ _ _ Ek) in E1; discriminate].
  rewrite (bind_ok _ _ _ _ _ Ek) in E1. rewrite (bind_ok _ _ _ _ _ Ek). rewrite (bind_ok _ _ _ _ _ (share_run s w0 hc)) in E1.
  rewrite (bind_ok _ _ _ _ _ (share_run s w0 hc)). unfold ret in E1. injection E1 as -> E1. rewrite E1. mstep. rewrite (bind_ok _ _ _ _ _ Ea).
  mstep. rewrite (bind_ok _ _ _ _ _ Eb). reflexivity.
Qed.
End WithEnv.
