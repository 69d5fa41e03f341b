(** * MergeGridFinal: fusing the intervals of a grid in good order (C74). *)
From Verif Require Export MergeFinal.
From Verif Require Import ChildSpec CleanFinal TidyFinal.
From Verif Require TripFinal OutputFinal.
From Verif Require Import MergeSpec ReviseSpec.
Open Scope Z_scope.

(** ** Lists *)
Lemma nth_pair {A} (l : list A) j v w : nth_error l j = Some v -> nth_error l (S j) = Some w -> exists l1 l2, l = (l1 ++ v :: w :: l2)%list /\ List.length l1 = j.
Proof.
  intros Hv Hw. destruct (nth_error_split _ _ Hv) as (l1 & l2 & -> & <-). rewrite nth_error_app2 in Hw by lia. replace (S (List.length l1) - List.length l1)%nat with 1%nat in Hw by lia.
  destruct l2 as [|w' l2]; [discriminate|]. cbn in Hw. injection Hw as ->. eauto.
Qed.
Lemma on_nth_at {A} (f : A -> A) x r : forall l, on_nth (List.length l) f (l ++ x :: r) = (l ++ f x :: r)%list.
Proof. induction l as [|y l IH]; [reflexivity|]. cbn. rewrite IH. reflexivity. Qed.
Lemma on_last_at {A} (f : A -> A) x l : on_last f (l ++ [x]) = (l ++ [f x])%list.
Proof. unfold on_last. rewrite app_length. cbn [List.length]. replace (List.length l + 1 - 1)%nat with (List.length l) by lia. apply on_nth_at. Qed.
Lemma merge_there jn v w r : forall l, merge_at jn (List.length l) (l ++ v :: w :: r) = (l ++ one_shape jn v w :: r)%list.
Proof. induction l as [|y l IH]; [reflexivity|]. cbn [List.length app merge_at]. rewrite IH. reflexivity. Qed.
Lemma map_split {A B} (f : A -> B) : forall l k1 k2, map f l = (k1 ++ k2)%list -> exists l1 l2, l = (l1 ++ l2)%list /\ map f l1 = k1 /\ map f l2 = k2.
Proof.
  intros l k1. revert l. induction k1 as [|k k1 IH]; intros l k2 E; [exists [], l; auto|]. destruct l as [|x l]; [discriminate|]. cbn in E. injection E as E1 E2.
  destruct (IH l k2 E2) as (l1 & l2 & -> & A1 & A2). exists (x :: l1), l2. cbn. rewrite E1, A1. auto.
Qed.

Lemma exists_last_or {A} (l : list A) : l = [] \/ exists l0 x, l = (l0 ++ [x])%list.
Proof. destruct l as [|y l]; [auto|]. right. destruct (exists_last (l := y :: l)) as (l0 & x & ->); [discriminate|eauto]. Qed.

Section WithEnv.
Context `{Env}.
Opaque span_of.

(** ** Neighbours *)
Lemma pair_neighbours h g us u t bss v w L1 L2 z s a b e : good_group h g (us ++ [u; t]) bss -> t_seq (tob h t) = (L1 ++ v :: w :: L2)%list -> In z (t_seq (tob h u)) ->
  s_start (sob h z) = Some s -> s_start (sob h v) = Some a -> s_end (sob h w) = Some b -> s_end (sob h z) = Some e -> s <= a -> b <= e ->
  s_fol (sob h v) = Some w /\ s_prev (sob h w) = Some v.
Proof.
  intros G Es Hz Zs Va Wb Ze Hs He. pose proof (good_turns _ _ _ _ G) as Turn. pose proof G as (_ & _ & _ & _ & _ & _ & Sn & R & Ok' & _).
  destruct (snug_snoc h u t us bss Sn) as (bss1 & bs & -> & Sn1 & Ec & Fl). apply (related_snoc h u t bs us bss1 Sn1) in R. destruct R as [_ Rp].
  assert (Iu : In u (us ++ [u; t])) by (apply in_app_iff; simpl; auto). assert (It : In t (us ++ [u; t])) by (apply in_app_iff; simpl; auto).
  destruct (Turn u Iu) as [Tu Du]. destruct (Turn t It) as [Tt Dt]. destruct (Ok' t It) as (_ & (Ndt & _) & _).
  assert (Hv : In v (t_seq (tob h t))) by (rewrite Es; apply in_app_iff; simpl; auto). assert (Hw : In w (t_seq (tob h t))) by (rewrite Es; apply in_app_iff; simpl; auto).
  destruct (Dt v Hv) as (V1 & V2 & V3). destruct (Dt w Hw) as (W1 & W2 & W3). destruct (Du z Hz) as (Z1 & Z2 & Z3).
  assert (Vw : snd (span_of h v) <= fst (span_of h w)).
  { destruct (Tt (List.length L1) (S (List.length L1)) v w) as (x1 & x2 & A & B & C); [lia|rewrite Es, nth_error_app2, Nat.sub_diag by lia; reflexivity| |].
    - rewrite Es, nth_error_app2 by lia. replace (S (List.length L1) - List.length L1)%nat with 1%nat by lia. reflexivity.
    - rewrite V2 in A. rewrite W1 in B. injection A as <-. injection B as <-. exact C. }
  rewrite V1 in Va. injection Va as <-. rewrite W2 in Wb. injection Wb as <-. rewrite Z1 in Zs. injection Zs as <-. rewrite Z2 in Ze. injection Ze as <-.
  apply In_nth_error in Hz. destruct Hz as [m Hm].
  assert (Blk : forall x, In x (t_seq (tob h t)) -> fst (span_of h z) <= fst (span_of h x) -> snd (span_of h x) <= snd (span_of h z) -> exists c, nth_error bs m = Some c /\ In x c).
  { intros x Hx A B. assert (Hc : In x (concat bs)) by (rewrite Ec; exact Hx). apply in_concat in Hc. destruct Hc as (c & Hc & Hxc). apply In_nth_error in Hc. destruct Hc as [i Hi].
    destruct (nth_error (t_seq (tob h u)) i) as [q|] eqn:Hq.
    2:{ apply nth_error_None in Hq. assert (i < List.length bs)%nat by (apply nth_error_Some; congruence). apply Forall2_length in Fl. lia. }
    destruct (GroupFinal.Forall2_nth _ _ _ Fl i q c Hq Hi) as (s & e & F1 & F2 & F3 & F4). destruct (GroupFinal.tiles_in h c s e x F4 Hxc) as ((X1 & X2 & X3) & F5 & F6).
    destruct (lt_eq_lt_dec i m) as [[L|L]|L].
    - destruct (Tu i m q z L Hq Hm) as (x1 & x2 & A1 & A2 & A3). rewrite F2 in A1. rewrite Z1 in A2. injection A1 as <-. injection A2 as <-. lia.
    - subst i. eauto.
    - destruct (Tu m i z q L Hm Hq) as (x1 & x2 & A1 & A2 & A3). rewrite Z2 in A1. rewrite F1 in A2. injection A1 as <-. injection A2 as <-. lia. }
  destruct (Blk v Hv) as (c & Hc & Hvc); [lia|lia|]. destruct (Blk w Hw) as (c' & Hc' & Hwc); [lia|lia|]. assert (c' = c) by congruence. subst c'.
  destruct (GroupFinal.Forall2_nth _ _ _ Rp m z c Hm Hc) as (_ & (Ch & _) & _).
  destruct (nth_error_split _ _ Hc) as (B1 & B2 & EB & _). destruct (in_split _ _ Hvc) as (c1 & c2 & Ecv).
  assert (Q : (L1 ++ v :: w :: L2)%list = ((concat B1 ++ c1) ++ v :: (c2 ++ concat B2))%list).
  { rewrite <- Es, <- Ec, EB, concat_mid, Ecv, <- !app_assoc. reflexivity. }
  rewrite Es in Ndt. destruct (nodup_split _ _ _ _ _ Ndt Q) as [_ Q2]. destruct c2 as [|w' c2].
  - exfalso. assert (Nd2 := Ndt). rewrite <- Es, <- Ec, EB, concat_mid in Nd2. apply NoDup_app in Nd2. destruct Nd2 as (_ & _ & Nd2). apply NoDup_app in Nd2. destruct Nd2 as (_ & D & _).
    apply (D w); apply elem_of_list_In; [exact Hwc|]. cbn in Q2. rewrite <- Q2. simpl. auto.
  - cbn in Q2. injection Q2 as <- _. apply (Ch (List.length c1)); rewrite Ecv.
    + rewrite nth_error_app2, Nat.sub_diag by lia. reflexivity.
    + rewrite nth_error_app2 by lia. replace (S (List.length c1) - List.length c1)%nat with 1%nat by lia. reflexivity.
Qed.

(** ** The rest of the grid *)
Lemma cls_same h h' : h_cls h' = h_cls h -> (forall c, cob h' c = cob h c) /\ (forall c, class_name h' c = class_name h c).
Proof. intros E. assert (Q : forall c, cob h' c = cob h c) by (intros c; unfold cob; rewrite E; reflexivity). split; [exact Q|]. intros c. unfold class_name. rewrite Q. reflexivity. Qed.
Lemma table_same h h' : h_cls h' = h_cls h -> class_table h -> class_table h'.
Proof. intros E. destruct (cls_same h h' E) as [Q _]. unfold class_table. rewrite !Q, E. intros (A & B & C). split; [exact A|]. split; [|exact C]. intros c b. rewrite Q. apply B. Qed.
Lemma ccs_same h h' t cs b : h_cls h' = h_cls h -> class_chain h t cs b -> class_chain h' t cs b.
Proof.
  intros E (A & B & C & D & F & G). split; [exact A|]. split; [exact B|]. rewrite !(issubclass_ext h h') by exact E. split; [exact C|]. split; [exact D|].
  split; [intros c Hc; rewrite (issubclass_ext h h') by exact E; auto|]. intros i c d Hc Hd. rewrite (subset_class_ext h h'), (superset_class_ext h h') by exact E. eauto.
Qed.
Lemma aside_full h h' cs g : aside h h' g -> full_group h cs g -> full_group h' cs g.
Proof.
  intros As (A & (bss & B) & C). pose proof As as (_ & _ & _ & _ & E5 & E6 & E7 & _). unfold full_group. rewrite E5. split; [|split].
  - rewrite <- A. apply map_ext_in. intros k Hk. rewrite (E6 k Hk). reflexivity.
  - exists bss. rewrite <- E5 at 1. rewrite E5. apply (aside_good h h' g _ bss As eq_refl B).
  - intros k x Hk Hx. assert (Ik : In k (g_tiers (gob h g))) by (apply in_rev; destruct (rev (g_tiers (gob h g))); [discriminate|injection Hk as ->; simpl; auto]).
    rewrite (E6 k Ik) in Hx. rewrite (E7 k x Ik Hx). eapply C; eauto.
Qed.
Lemma praatio_same h h' x : h_cls h' = h_cls h -> s_cls (sob h' x) = s_cls (sob h x) -> s_start (sob h' x) = s_start (sob h x) -> s_end (sob h' x) = s_end (sob h x) -> s_label (sob h' x) = s_label (sob h x) ->
  praatio h' x = praatio h x.
Proof. intros E. apply praatio_kept. apply issubclass_ext. exact E. Qed.

(** ** One fusion in a grid *)
Lemma fuse_step h a t0 cs b others f : working h a t0 cs b others -> all_lodged h a cs -> can_fuse (map (class_name h) cs) (grid_view h a) f ->
  exists h', make_fusion a f h = Ok tt h' /\ working h' a t0 cs b others /\ all_lodged h' a cs /\ grid_view h' a = fuse_view f (grid_view h a) /\ h_cls h' = h_cls h /\ h_grp h' = h_grp h /\ h_grid h' = h_grid h.
Proof.
  intros W Lo (nm & ss & up & low & x' & y' & Ng & Nn & Nx & Ny & Nl & uu & Huu & (s & a' & b' & e & U1 & U2 & U3 & U4 & U5 & U6)).
  pose proof W as (Wt & Wc & Wu & Wi & Wn & Wnd & Wb & Wtp & Wa & Ap & Each & Some_).
  unfold grid_view in Ng. rewrite nth_error_map in Ng. destruct (nth_error (a_groups (aob h a)) (fu_group f)) as [g|] eqn:Hg; [|discriminate]. cbn [option_map] in Ng. injection Ng as Egn Egt.
  assert (Ig : In g (a_groups (aob h a))) by (eapply nth_error_In; eauto). pose proof (Each g Ig) as (Lg & Ex & Cl & Kind).
  destruct (map_split _ _ _ _ Egt) as (us & tl & Ets & Eus & Etl). destruct tl as [|u [|t [|? ?]]]; try discriminate. cbn [map] in Etl. injection Etl as Eu Et.
  assert (Full : full_group h cs g /\ named_group h g /\ (forall k, In k (g_tiers (gob h g)) -> t_seq (tob h k) <> [])).
  { destruct Kind as [K|K]; [exact K|]. exfalso. destruct (K u) as [_ Q]; [rewrite Ets; apply in_app_iff; simpl; auto|]. apply Q. rewrite <- Nn. apply in_map_iff. exists up. split; [|apply in_app_iff; simpl; auto].
    rewrite <- Eu. reflexivity. }
  destruct Full as (Full & Named & Nemp). pose proof Full as (Fcs & (bss & Gd) & Bare). rewrite Ets in Gd, Bare.
  pose proof Gd as (_ & _ & _ & _ & _ & _ & _ & _ & Ok' & _).
  assert (Iu : In u (us ++ [u; t])) by (apply in_app_iff; simpl; auto). assert (It : In t (us ++ [u; t])) by (apply in_app_iff; simpl; auto).
  destruct (Ok' u Iu) as (_ & (_ & Ku) & Npu). destruct (Ok' t It) as (_ & (Ndt & Kt) & Npt).
  rewrite <- Et in Nx, Ny. cbn [tier_view snd] in Nx, Ny. rewrite <- Eu in Huu. cbn [tier_view snd] in Huu.
  rewrite nth_error_map in Nx, Ny. destruct (nth_error (t_seq (tob h t)) (fu_at f)) as [v|] eqn:Hv; [|discriminate]. destruct (nth_error (t_seq (tob h t)) (S (fu_at f))) as [w|] eqn:Hw; [|discriminate].
  cbn [option_map] in Nx, Ny. injection Nx as <-. injection Ny as <-. apply in_map_iff in Huu. destruct Huu as (z & <- & Hz).
  destruct (nth_pair _ _ _ _ Hv Hw) as (L1 & L2 & Es & LL).
  assert (Iv : In v (t_seq (tob h t))) by (rewrite Es; apply in_app_iff; simpl; auto). assert (Iw : In w (t_seq (tob h t))) by (rewrite Es; apply in_app_iff; simpl; auto).
  assert (Pr : forall q k, In k (us ++ [u; t]) -> In q (t_seq (tob h k)) -> praatio h q = (false, s_start (sob h q), s_end (sob h q), s_label (sob h q))).
  { intros q k Hk Hq. destruct (Ok' k Hk) as (_ & (_ & Kk) & Np). unfold praatio, is_point_cls. destruct (Kk q Hq) as (_ & -> & _). rewrite Np. reflexivity. }
  rewrite (Pr z u Iu Hz) in U1, U4. rewrite (Pr v t It Iv) in U2, Nl. rewrite (Pr w t It Iw) in U3, Nl. cbn in U1, U2, U3, U4, Nl.
  destruct (pair_neighbours h g us u t bss v w L1 L2 z s a' b' e Gd Es Hz U1 U2 U3 U4 U5 U6) as [Nf Np'].
  set (right := fu_right f). set (x := if right then v else w). set (y := if right then w else v).
  assert (Eb : beside right [x] [y] = [v; w]) by (unfold x, y; destruct right; reflexivity).
  assert (Ix : In x (t_seq (tob h t))) by (unfold x; destruct right; assumption). assert (Iy : In y (t_seq (tob h t))) by (unfold y; destruct right; assumption).
  assert (Lab : fused_label right (fu_jn f) h x y = fu_jn f (s_label (sob h v)) (s_label (sob h w))) by (unfold fused_label, x, y; destruct right; reflexivity).
  assert (Lst : hd_error (rev (g_tiers (gob h g))) = Some t) by (rewrite Ets, rev_app_distr; reflexivity).
  destruct (good_merge right (fu_jn f) h g us u t bss x y Gd Bare Ix) as (p & l1 & l2 & M1 & M2 & h' & bss' & E & Lf & Hp & Ep & Sub & Es1 & Es2 & Gd' & Bare' & Bd).
  { apply (Lo g Ig Full t x Lst Ix). } { unfold neighbour, x, y. destruct right; assumption. } { apply (Kt y Iy). } { rewrite Lab. exact Nl. }
  pose proof Lf as (Tl & (Q1 & Q2 & Q3 & Q4 & Q5) & _ & _ & _ & Vx & Sx & _ & _ & Rest). pose proof (leaf_values right (fu_jn f) h h' t p x y l1 l2 Ep Lf) as Val.
  pose proof Tl as (_ & T1 & _ & _ & T4 & _ & T6 & T7).
  assert (M : M1 = L1 /\ M2 = L2). { rewrite Eb in Es1. cbn in Es1. rewrite Es in Es1. pose proof Ndt as Nd. rewrite Es in Nd. destruct (nodup_split _ _ _ _ _ Nd Es1) as [<- K]. injection K as <-. auto. }
  destruct M as [-> ->].
  destruct (apart_read h _ Ap) as (N0 & N1 & D1 & N2 & D2).
  assert (Gob : forall k, gob h' k = gob h k) by (intros k; unfold gob; rewrite Q2; reflexivity).
  assert (Aob : aob h' a = aob h a) by (unfold aob; rewrite Q3; reflexivity).
  assert (Itg : In t (tiers_in h g)) by (unfold tiers_in; rewrite Ets; exact It). assert (Iug : In u (tiers_in h g)) by (unfold tiers_in; rewrite Ets; exact Iu).
  (* groups apart from this one *)
  assert (As : forall k, In k (a_groups (aob h a)) -> k <> g -> aside h h' k).
  { intros k Hk Nk. split; [exact Q1|]. split; [exact Q4|]. split; [exact T6|]. split; [rewrite Q2; reflexivity|]. split; [apply Gob|].
    assert (Nt : forall d, In d (g_tiers (gob h k)) -> d <> t) by (intros d Hd ->; apply Nk; apply (D1 k g t); auto).
    split; [intros d Hd; apply T7, (Nt d Hd)|]. split; [|exact Bd]. intros d q Hd Hq. destruct (Each k Hk) as (_ & Ek & _). apply Rest; [apply (Ek d Hd), Hq| |].
    - intros ->. apply Nk. assert (d = u) by (apply (D2 k g d u p); auto). subst d. apply (D1 k g u); auto.
    - intros Q. apply (Nt d Hd). apply (D2 k g d t q); auto. }
  assert (Gt : g_tiers (gob h' g) = (us ++ [u; t])%list) by (rewrite Gob; exact Ets).
  assert (Tall : forall k, t_ec (tob h' k) = t_ec (tob h k) /\ t_name (tob h' k) = t_name (tob h k)) by (intros k; destruct (decide (k = t)) as [->|Nk]; [auto|rewrite T7 by exact Nk; auto]).
  assert (Sub' : forall k q, In q (t_seq (tob h' k)) -> In q (t_seq (tob h k))).
  { intros k q. destruct (decide (k = t)) as [->|Nk]; [|rewrite T7 by exact Nk; auto]. rewrite Es2, Es1, !in_app_iff. rewrite Eb; unfold x; simpl; destruct right; tauto. }
  assert (Full' : full_group h' cs g).
  { unfold full_group. rewrite Gt. split; [|split; [exists bss'; exact Gd'|exact Bare']]. rewrite <- Fcs, Ets. apply map_ext. intros k. apply Tall. }
  exists h'. split; [|split; [|split; [|split]]].
  - unfold make_fusion. rewrite bind_gets. assert (Fe : fused_entry h a f = Some x).
    { unfold fused_entry. rewrite Hg, Lst. unfold x. fold right. destruct right; assumption. }
    rewrite Fe. fold right. exact E.
  - split; [apply (table_same h h' Q1 Wt)|]. split; [apply (ccs_same h h' _ _ _ Q1 Wc)|]. split; [intros c d Hc Hd; rewrite (issubclass_ext h h') by exact Q1; apply Wu; auto|]. split; [exact Wi|].
    destruct (cls_same h h' Q1) as [_ Cn]. split; [intros c Hc; rewrite Cn; auto|]. split; [rewrite (map_ext _ _ Cn); exact Wnd|]. rewrite !Cn. split; [exact Wb|]. split; [exact Wtp|]. rewrite Q3. split; [exact Wa|]. rewrite Aob. split; [|split].
    + apply apart_made; auto.
      * intros k Hk. unfold tiers_in. rewrite Gob. apply N1, Hk.
      * intros k k' d. unfold tiers_in. rewrite !Gob. apply D1.
      * intros k d Hk Hd. unfold tiers_in in Hd. rewrite Gob in Hd. pose proof (N2 k d Hk Hd) as Nd. unfold entries_in in *. destruct (decide (d = t)) as [->|Nt]; [|rewrite T7 by exact Nt; exact Nd].
        destruct Gd' as (_ & _ & _ & _ & _ & _ & _ & _ & O & _). apply (O t It).
      * intros k k' d d' q Hk Hk' Hd Hd' Hq Hq'. unfold tiers_in in Hd, Hd'. rewrite Gob in Hd, Hd'. apply (D2 k k' d d' q); auto; unfold entries_in in *; apply Sub'; assumption.
    + intros k Hk. destruct (Each k Hk) as (K1 & K2 & K3 & K4). unfold group_of. rewrite Q2, Gob, Q1. split; [exact K1|]. split; [|split].
      * intros d Hd. rewrite Gob in Hd. destruct (K2 d Hd) as [A B]. split; [rewrite T6; exact A|]. intros q Hq. apply Sub' in Hq. specialize (B q Hq). lia.
      * intros d Hd. destruct (Tall d) as [-> _]. destruct (K3 d Hd) as [A B]. split; [exact A|]. intros q Hq. apply Sub' in Hq. specialize (B q Hq). destruct (K2 d Hd) as [_ Lq]. specialize (Lq q Hq).
        destruct (decide (q = x)) as [->|Nq]; [destruct Vx as (-> & _); exact B|]. destruct (Val q Lq Nq) as (-> & _). exact B.
      * destruct (decide (k = g)) as [->|Nk].
        { left. split; [exact Full'|]. split; [unfold named_group; rewrite Gob; exact Named|]. intros d Hd. destruct (decide (d = t)) as [->|Nd]; [rewrite Es2; destruct L1; discriminate|]. rewrite T7 by exact Nd. auto. }
        destruct K4 as [(A & B & C)|K4].
        { left. pose proof (As k Hk Nk) as Ak. split; [apply (aside_full h h' cs k Ak A)|]. split; [unfold named_group; rewrite Gob; exact B|]. intros d Hd. destruct Ak as (_ & _ & _ & _ & _ & A6 & _). rewrite (A6 d Hd). auto. }
        right. intros d Hd. destruct (Tall d) as [-> _]. rewrite Cn, (map_ext _ _ Cn). apply K4, Hd.
    + exists g. auto.
  - intros k Hk Fk d q Hd Hq. rewrite Aob in Hk. rewrite Gob in Hd. assert (Id : In d (g_tiers (gob h k))) by (apply in_rev; destruct (rev (g_tiers (gob h k))); [discriminate|injection Hd as ->; simpl; auto]).
    destruct (Each k Hk) as (_ & Lq & _ & K4). destruct (Lq d Id) as [_ Lq']. pose proof (Sub' d q Hq) as Hq'.
    assert (Fk' : full_group h cs k).
    { destruct K4 as [(A & _)|K4]; [exact A|]. exfalso. destruct (K4 d Id) as [_ Q]. apply Q. destruct Fk as (Fk & _). rewrite Gob in Fk. rewrite <- Fk. rewrite map_map. apply in_map_iff. exists d. destruct (Tall d) as [-> _]. auto. }
    pose proof (Lo k Hk Fk' d q Hd Hq') as Lt'. destruct (decide (q = x)) as [->|Nq]; [destruct Sx as (_ & _ & _ & ->); exact Lt'|]. destruct (Val q (Lq' q Hq') Nq) as (_ & _ & _ & _ & -> & _). exact Lt'.
  - unfold grid_view, fuse_view. rewrite Aob. destruct (nth_error_split _ _ Hg) as (G1 & G2 & EG & LG). rewrite EG, !map_app. cbn [map]. rewrite <- LG. replace (List.length G1) with (List.length (map (group_view h) G1)) by apply map_length. rewrite on_nth_at.
    assert (Same : forall k, In k (a_groups (aob h a)) -> k <> g -> group_view h' k = group_view h k).
    { intros k Hk Nk. destruct (As k Hk Nk) as (_ & _ & _ & _ & A5 & A6 & A7 & _). unfold group_view. rewrite A5. f_equal. apply map_ext_in. intros d Hd. unfold tier_view. rewrite (A6 d Hd). destruct (cls_same h h' Q1) as [_ ->]. f_equal.
      apply map_ext_in. intros q Hq. apply praatio_same; auto; rewrite (A7 d q Hd Hq); reflexivity. }
    assert (Ng1 : ~ In g G1 /\ ~ In g G2). { rewrite EG in N0. destruct (NoDup_mid _ _ _ N0) as (A & B & _). auto. } destruct Ng1 as [Ng1 Ng2].
    f_equal; [|f_equal].
    + apply map_ext_in. intros k Hk. apply Same; [rewrite EG; apply in_app_iff; auto|intros ->; auto].
    + unfold group_view. cbn [fst snd]. rewrite Gob. f_equal. rewrite Ets. replace (us ++ [u; t])%list with ((us ++ [u]) ++ [t])%list by (rewrite <- app_assoc; reflexivity). rewrite !map_app. cbn [map]. rewrite on_last_at.
      assert (Tv : forall k, In k (us ++ [u]) -> tier_view h' k = tier_view h k).
      { intros k Hk. assert (Ik : In k (us ++ [u; t])) by (apply in_app_iff in Hk; apply in_app_iff; simpl in *; tauto).
        assert (Nk : k <> t). { intros ->. specialize (N1 g Ig). unfold tiers_in in N1. rewrite Ets in N1. replace (us ++ [u; t])%list with ((us ++ [u]) ++ [t])%list in N1 by (rewrite <- app_assoc; reflexivity). apply NoDup_app in N1. destruct N1 as (_ & N1 & _). apply (N1 t); apply elem_of_list_In; [exact Hk|simpl; auto]. }
        unfold tier_view. rewrite (T7 k Nk). destruct (cls_same h h' Q1) as [_ ->]. f_equal. apply map_ext_in. intros q Hq. destruct (Ok' k Ik) as (_ & (_ & Kk) & _).
        assert (Nq : q <> x). { intros ->. apply Nk. apply (D2 g g k t x); auto. unfold tiers_in. rewrite Ets. exact Ik. }
        destruct (Val q (proj1 (Kk q Hq)) Nq) as (A1 & A2 & A3 & A4 & _). apply praatio_same; auto. }
      f_equal; [|f_equal].
      * rewrite (Tv u) by (apply in_app_iff; simpl; auto). f_equal. apply map_ext_in. intros k Hk. apply Tv, in_app_iff. auto.
      * unfold tier_view. cbn [fst snd]. destruct (Tall t) as [-> ->]. destruct (cls_same h h' Q1) as [_ ->]. f_equal. rewrite Es2, Es, !map_app. cbn [map]. rewrite <- LL. replace (List.length L1) with (List.length (map (praatio h) L1)) by apply map_length. rewrite merge_there.
        assert (Ne : forall q, In q L1 \/ In q L2 -> praatio h' q = praatio h q).
        { intros q Hq. assert (Iq : In q (t_seq (tob h t))) by (rewrite Es; apply in_app_iff; simpl; tauto).
          assert (Nq : q <> x). { intros ->. rewrite Es in Ndt. destruct (NoDup_mid _ _ _ Ndt) as (B1 & B2 & B3 & _). destruct (NoDup_mid _ _ _ B3) as (B4 & B5 & _). unfold x in Hq. destruct right; simpl in B2; tauto. }
          destruct (Val q (proj1 (Kt q Iq)) Nq) as (A1 & A2 & A3 & A4 & _). apply praatio_same; auto. }
        f_equal; [|f_equal]; [apply map_ext_in; intros q Hq; apply Ne; auto| |apply map_ext_in; intros q Hq; apply Ne; auto].
        rewrite (Pr v t It Iv), (Pr w t It Iw). cbn [one_shape finishes reads]. unfold praatio, is_point_cls. destruct Vx as (-> & -> & -> & ->). rewrite (issubclass_ext h h') by exact Q1. destruct (Kt x Ix) as (_ & -> & _). rewrite Npt, Lab. unfold x, y. destruct right; reflexivity.
    + apply map_ext_in. intros k Hk. apply Same; [rewrite EG; apply in_app_iff; simpl; auto|intros ->; auto].
  - auto.
Qed.

(** ** At the edge of an interval above *)
Lemma c74_edge : forall (right : bool) (jn : string -> string -> string) (h : heap) (g : gid) (us : list tid) (u t : tid) (bss : list (list (list oid))) (x z : oid),
  good_group h g (us ++ [u; t]) bss -> In x (t_seq (tob h t)) -> In z (t_seq (tob h u)) ->
  (if right then s_end (sob h x) = s_end (sob h z) else s_start (sob h x) = s_start (sob h z)) ->
  fuse right jn x h = Raise PyException h.
Proof.
  intros right jn h g us u t bss x z G Hx Hz Eq. pose proof (good_turns _ _ _ _ G) as Turn. pose proof G as (_ & _ & _ & _ & _ & _ & Sn & R & Ok' & _).
  destruct (snug_snoc h u t us bss Sn) as (bss1 & bs & -> & Sn1 & Ec & Fl). apply (related_snoc h u t bs us bss1 Sn1) in R. destruct R as [_ Rp].
  assert (Iu : In u (us ++ [u; t])) by (apply in_app_iff; simpl; auto). assert (It : In t (us ++ [u; t])) by (apply in_app_iff; simpl; auto).
  destruct (Turn u Iu) as [Tu Du]. destruct (Turn t It) as [Tt Dt]. destruct (Dt x Hx) as (X1 & X2 & X3). destruct (Du z Hz) as (Z1 & Z2 & Z3). rewrite X1, X2, Z1, Z2 in Eq.
  assert (Hc : In x (concat bs)) by (rewrite Ec; exact Hx). apply in_concat in Hc. destruct Hc as (c & Hc & Hxc). apply In_nth_error in Hc. destruct Hc as [i Hi]. apply In_nth_error in Hz. destruct Hz as [m Hm].
  destruct (nth_error (t_seq (tob h u)) i) as [q|] eqn:Hq.
  2:{ apply nth_error_None in Hq. assert (i < List.length bs)%nat by (apply nth_error_Some; congruence). apply Forall2_length in Fl. lia. }
  destruct (GroupFinal.Forall2_nth _ _ _ Fl i q c Hq Hi) as (s & e & F1 & F2 & F3 & F4). destruct (GroupFinal.tiles_in h c s e x F4 Hxc) as (_ & F5 & F6).
  assert (q = z).
  { destruct (lt_eq_lt_dec i m) as [[L|L]|L].
    - destruct (Tu i m q z L Hq Hm) as (x1 & x2 & A1 & A2 & A3). rewrite F2 in A1. rewrite Z1 in A2. injection A1 as <-. injection A2 as <-. destruct right; injection Eq as Eq; lia.
    - congruence.
    - destruct (Tu m i z q L Hm Hq) as (x1 & x2 & A1 & A2 & A3). rewrite Z2 in A1. rewrite F1 in A2. injection A1 as <-. injection A2 as <-. destruct right; injection Eq as Eq; lia. }
  subst q. rewrite Z1 in F1. rewrite Z2 in F2. injection F1 as <-. injection F2 as <-.
  destruct (GroupFinal.Forall2_nth _ _ _ Rp i z c Hq Hi) as (_ & (_ & Cf & Cl) & _). destruct (nth_error_split _ _ Hi) as (B1 & B2 & EB & _).
  destruct (in_split _ _ Hxc) as (c1 & c2 & Ecx).
  assert (Es : t_seq (tob h t) = (concat B1 ++ c1 ++ x :: c2 ++ concat B2)%list) by (rewrite <- Ec, EB, concat_mid, Ecx, <- !app_assoc; reflexivity).
  destruct right; injection Eq as Eq.
  - assert (c2 = []).
    { destruct c2 as [|d c2]; [reflexivity|]. exfalso. destruct (GroupFinal.tiles_in h c _ _ d F4) as ((D1 & D2 & D3) & _ & F8); [rewrite Ecx; apply in_app_iff; simpl; auto|].
      destruct (Tt (List.length (concat B1 ++ c1)) (S (List.length (concat B1 ++ c1))) x d) as (x1 & x2 & A1 & A2 & A3); [lia| | |].
      - rewrite Es, app_assoc, nth_error_app2, Nat.sub_diag by lia. reflexivity.
      - rewrite Es, app_assoc, nth_error_app2 by lia. replace (S (List.length (concat B1 ++ c1)) - List.length (concat B1 ++ c1))%nat with 1%nat by lia. reflexivity.
      - rewrite X2 in A1. rewrite D1 in A2. injection A1 as <-. injection A2 as <-. lia. }
    subst c2. destruct (Cl x) as (k & Fk & Bk). { rewrite Ecx, app_length. cbn [List.length]. replace (List.length c1 + 1 - 1)%nat with (List.length c1) by lia. rewrite nth_error_app2, Nat.sub_diag by lia. reflexivity. }
    apply (c31_boundary true jn h x k); [exact Fk|apply Bk].
  - assert (c1 = []).
    { destruct (exists_last_or c1) as [->|(c0 & d & ->)]; [reflexivity|]. exfalso. destruct (GroupFinal.tiles_in h c _ _ d F4) as ((D1 & D2 & D3) & F7 & _); [rewrite Ecx, <- app_assoc; apply in_app_iff; simpl; auto|].
      destruct (Tt (List.length (concat B1 ++ c0)) (S (List.length (concat B1 ++ c0))) d x) as (x1 & x2 & A1 & A2 & A3); [lia| | |].
      - rewrite Es, <- app_assoc, app_assoc, nth_error_app2, Nat.sub_diag by lia. reflexivity.
      - rewrite Es, <- app_assoc, app_assoc, nth_error_app2 by lia. replace (S (List.length (concat B1 ++ c0)) - List.length (concat B1 ++ c0))%nat with 1%nat by lia. reflexivity.
      - rewrite D2 in A1. rewrite X1 in A2. injection A1 as <-. injection A2 as <-. lia. }
    subst c1. destruct (Cf x) as (k & Fk & Bk); [rewrite Ecx; reflexivity|]. apply (c31_boundary false jn h x k); [exact Fk|apply Bk].
Qed.

(** ** One fusion in a group *)
Lemma c74_fused : forall (right : bool) (jn : string -> string -> string) (h : heap) (g : gid) (us : list tid) (u t : tid) (bss : list (list (list oid))) (L1 L2 : list oid) (v w z : oid) (s a b e : Z),
  good_group h g (us ++ [u; t]) bss -> bare_bottom h (us ++ [u; t]) -> at_home h t -> t_seq (tob h t) = (L1 ++ v :: w :: L2)%list -> In z (t_seq (tob h u)) ->
  s_start (sob h z) = Some s -> s_start (sob h v) = Some a -> s_end (sob h w) = Some b -> s_end (sob h z) = Some e -> s <= a -> b <= e ->
  jn (s_label (sob h v)) (s_label (sob h w)) <> "#"%string ->
  let x := if right then v else w in let y := if right then w else v in
  exists h' bss' l1 l2, fuse right jn x h = Ok tt h' /\ good_group h' g (us ++ [u; t]) bss' /\ bare_bottom h' (us ++ [u; t]) /\ at_home h' t /\
    s_subset (sob h z) = (l1 ++ v :: w :: l2)%list /\ s_subset (sob h' z) = (l1 ++ x :: l2)%list /\ t_seq (tob h' t) = (L1 ++ x :: L2)%list /\
    (s_cls (sob h' x) = s_cls (sob h x) /\ s_start (sob h' x) = Some a /\ s_end (sob h' x) = Some b /\ s_label (sob h' x) = jn (s_label (sob h v)) (s_label (sob h w)) /\ s_super (sob h' x) = Some z) /\
    s_super (sob h' y) = None /\
    (forall i, live h i -> i <> x -> s_cls (sob h' i) = s_cls (sob h i) /\ s_start (sob h' i) = s_start (sob h i) /\ s_end (sob h' i) = s_end (sob h i) /\ s_label (sob h' i) = s_label (sob h i)) /\
    (forall k, k <> t -> tob h' k = tob h k) /\ h_grp h' = h_grp h /\ h_grid h' = h_grid h.
Proof.
  intros right jn h g us u t bss L1 L2 v w z s a b e Gd Bare Hh Es Hz Zs Va Wb Ze Hs He Nl x y.
  destruct (pair_neighbours h g us u t bss v w L1 L2 z s a b e Gd Es Hz Zs Va Wb Ze Hs He) as [Nf Np].
  pose proof Gd as (_ & _ & _ & _ & _ & _ & Sn & R & Ok' & _). assert (It : In t (us ++ [u; t])) by (apply in_app_iff; simpl; auto). destruct (Ok' t It) as (_ & (Ndt & Kt) & _).
  assert (Iu : In u (us ++ [u; t])) by (apply in_app_iff; simpl; auto).
  assert (Iv : In v (t_seq (tob h t))) by (rewrite Es; apply in_app_iff; simpl; auto). assert (Iw : In w (t_seq (tob h t))) by (rewrite Es; apply in_app_iff; simpl; auto).
  assert (Ix : In x (t_seq (tob h t))) by (unfold x; destruct right; assumption). assert (Iy : In y (t_seq (tob h t))) by (unfold y; destruct right; assumption).
  assert (Eb : beside right [x] [y] = [v; w]) by (unfold x, y; destruct right; reflexivity).
  assert (Lab : fused_label right jn h x y = jn (s_label (sob h v)) (s_label (sob h w))) by (unfold fused_label, x, y; destruct right; reflexivity).
  destruct (good_merge right jn h g us u t bss x y Gd Bare Ix) as (p & l1 & l2 & M1 & M2 & h' & bss' & E & Lf & Hp & Ep & Sub & Es1 & Es2 & Gd' & Bare' & Bd).
  { apply Hh, Ix. } { unfold neighbour, x, y. destruct right; assumption. } { apply (Kt y Iy). } { rewrite Lab. exact Nl. }
  pose proof Lf as (Tl & (Q1 & Q2 & Q3 & Q4 & Q5) & K1 & _ & _ & (V1 & V2 & V3 & V4) & (V5 & _ & _ & V8) & _ & (Y1 & _) & _). pose proof (leaf_values right jn h h' t p x y l1 l2 Ep Lf) as Val.
  pose proof Tl as (_ & T1 & _ & _ & T4 & _ & T6 & T7).
  assert (M : M1 = L1 /\ M2 = L2). { rewrite Eb in Es1. cbn in Es1. rewrite Es in Es1. pose proof Ndt as Nd. rewrite Es in Nd. destruct (nodup_split _ _ _ _ _ Nd Es1) as [<- K]. injection K as <-. auto. }
  destruct M as [-> ->].
  (* the parent is the one above *)
  assert (p = z).
  { pose proof (good_turns _ _ _ _ Gd) as Turn. destruct (snug_snoc h u t us bss Sn) as (bss1 & bs & -> & Sn1 & Ec & Fl). apply (related_snoc h u t bs us bss1 Sn1) in R. destruct R as [_ Rp].
    destruct (Turn u Iu) as [Tu Du]. destruct (Turn t It) as [_ Dt]. destruct (Dt v Iv) as (X1 & X2 & X3). destruct (Du z Hz) as (Z1 & Z2 & Z3). destruct (Dt w Iw) as (W1 & W2 & W3).
    apply In_nth_error in Hz, Hp. destruct Hz as [m Hm], Hp as [i Hi]. destruct (nth_error bs i) as [c|] eqn:Hc.
    2:{ apply nth_error_None in Hc. assert (i < List.length (t_seq (tob h u)))%nat by (apply nth_error_Some; congruence). apply Forall2_length in Fl. lia. }
    destruct (GroupFinal.Forall2_nth _ _ _ Fl i p c Hi Hc) as (s0 & e0 & F1 & F2 & F3 & F4). destruct (GroupFinal.Forall2_nth _ _ _ Rp i p c Hi Hc) as (Sc & _).
    destruct (GroupFinal.tiles_in h c s0 e0 v F4) as (_ & F5 & F6); [rewrite <- Sc, Ep, Eb; apply in_app_iff; simpl; auto|].
    destruct (GroupFinal.tiles_in h c s0 e0 w F4) as (_ & F7 & F8); [rewrite <- Sc, Ep, Eb; apply in_app_iff; simpl; auto|].
    rewrite X1 in Va. injection Va as <-. rewrite W2 in Wb. injection Wb as <-. rewrite Z1 in Zs. injection Zs as <-. rewrite Z2 in Ze. injection Ze as <-.
    destruct (lt_eq_lt_dec i m) as [[L|L]|L].
    - destruct (Tu i m p z L Hi Hm) as (x1 & x2 & A1 & A2 & A3). rewrite F2 in A1. rewrite Z1 in A2. injection A1 as <-. injection A2 as <-. lia.
    - congruence.
    - destruct (Tu m i z p L Hm Hi) as (x1 & x2 & A1 & A2 & A3). rewrite Z2 in A1. rewrite F1 in A2. injection A1 as <-. injection A2 as <-. lia. }
  subst p. rewrite Eb in Ep. cbn [app] in Ep.
  exists h', bss', l1, l2. split; [exact E|]. split; [exact Gd'|]. split; [exact Bare'|]. split.
  { intros q Hq. rewrite Es2 in Hq. destruct (decide (q = x)) as [->|Nq]; [rewrite V8; apply Hh, Ix|].
      assert (Iq : In q (t_seq (tob h t))) by (rewrite Es; apply in_app_iff in Hq; apply in_app_iff; simpl in *; intuition congruence). destruct (Val q (proj1 (Kt q Iq)) Nq) as (_ & _ & _ & _ & -> & _). apply Hh, Iq. }
  split; [exact Ep|]. split; [exact K1|]. split; [exact Es2|]. split.
  { split; [exact V1|]. rewrite V2, V3, V4, Lab. unfold x, y. destruct right; auto. }
  split; [exact Y1|]. split; [intros i Hi Ni; destruct (Val i Hi Ni) as (A1 & A2 & A3 & A4 & _); auto|]. split; [exact T7|]. auto.
Qed.

(** ** Any number of fusions *)
Lemma c74_run : forall (fs : list fusion) (h : heap) (a : aid) (t : cid) (cs : list cid) (b : cid) (others : list string),
  working h a t cs b others -> all_lodged h a cs -> can_fuse_all (map (class_name h) cs) (grid_view h a) fs ->
  exists h', make_fusions a fs h = Ok tt h' /\ working h' a t cs b others /\ all_lodged h' a cs /\
    grid_view h' a = fold_left (fun v f => fuse_view f v) fs (grid_view h a) /\ h_cls h' = h_cls h /\ h_grp h' = h_grp h /\ h_grid h' = h_grid h.
Proof.
  induction fs as [|f fs IH]; intros h a t cs b others W Lo Can.
  - exists h. split; [reflexivity|]. auto 10.
  - destruct Can as [C1 C2]. destruct (fuse_step h a t cs b others f W Lo C1) as (h1 & E1 & W1 & Lo1 & V1 & Q1 & Q2 & Q3).
    destruct (IH h1 a t cs b others W1 Lo1) as (h2 & E2 & W2 & Lo2 & V2 & P1 & P2 & P3). { destruct (cls_same h h1 Q1) as [_ Cn]. rewrite (map_ext _ _ Cn), V1. exact C2. }
    exists h2. split. { unfold make_fusions. cbn [forM]. rewrite (bind_ok _ _ _ _ _ E1). exact E2. }
    split; [exact W2|]. split; [exact Lo2|]. cbn [fold_left]. rewrite V2, V1, P1, P2, P3. auto.
Qed.
Lemma c74_written : forall (fs : list fusion) (h : heap) (a : aid) (t : cid) (cs : list cid) (b : cid) (others : list string) (h' : heap),
  working h a t cs b others -> all_lodged h a cs -> can_fuse_all (map (class_name h) cs) (grid_view h a) fs -> make_fusions a fs h = Ok tt h' ->
  let out := flat_map snd (fold_left (fun v f => fuse_view f v) fs (grid_view h a)) in
  map snd (return_textgrid h' a) = map snd out /\
  (NoDup (map (fun v : strip => snd (fst v)) out) -> return_textgrid h' a = map (fun v : strip => (snd (fst v), snd v)) out).
Proof.
  intros fs h a t cs b others h' W Lo Can E out. destruct (c74_run fs h a t cs b others W Lo Can) as (h1 & E1 & _ & _ & V & _). rewrite E in E1. injection E1 as <-.
  unfold out. rewrite <- V, view_tiers, !map_map. cbn [tier_view fst snd]. split; [|apply TripFinal.written_plain].
  unfold return_textgrid. apply OutputFinal.snd_combine. rewrite OutputFinal.length_out_names, !map_length. reflexivity.
Qed.
End WithEnv.
