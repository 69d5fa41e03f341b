(** * AppendFinal: proofs of C60. *)
From Verif Require Import AppendSpec AppendTiers ReadClasses ReadMade NameFinal GroupFinal RelateFinal GrowFinal PopFinal WeaveFinal OwnFinal TierFinal ClassFinal ClassProofs.
Open Scope Z_scope.

(** ** Classes *)
Lemma first_index h l nm c' : first_named h l nm c' -> exists i, name_idx h nm l = Some i /\ nth_error l i = Some c'.
Proof.
  intros (l1 & l2 & -> & En & No). exists (List.length l1). split.
  - unfold name_idx. induction l1 as [|x l1 IH]; cbn [app map str_index List.length].
    + rewrite En, String.eqb_refl. reflexivity.
    + destruct (String.eqb_spec nm (class_name h x)) as [Q|Q]; [exfalso; apply (No x); simpl; auto|].
      rewrite IH by (intros y Hy; apply No; simpl; auto). reflexivity.
  - rewrite nth_error_app2 by lia. rewrite Nat.sub_diag. reflexivity.
Qed.
Lemma first_none h l nm : (forall x, In x l -> class_name h x <> nm) -> name_idx h nm l = None.
Proof.
  intros No. unfold name_idx. induction l as [|x l IH]; [reflexivity|]. cbn [map str_index].
  destruct (String.eqb_spec nm (class_name h x)) as [Q|Q]; [exfalso; apply (No x); simpl; auto|].
  rewrite IH by (intros y Hy; apply No; simpl; auto). reflexivity.
Qed.
Lemma swap_first h l : forall cs cs', Forall2 (fun c c' => first_named h l (class_name h c) c') cs cs' ->
  swap_classes cs l h = Ok cs' h.
Proof.
  induction 1 as [|c c' cs cs' Q F IH]; [reflexivity|]. unfold swap_classes. cbn [mapM]. fold (swap_classes cs l).
  destruct (first_index _ _ _ _ Q) as (i & E1 & E2).
  rewrite bind_assoc, bind_gets, E1, E2. cbn [of_opt]. rewrite bind_ret, (bind_ok _ _ _ _ _ IH). reflexivity.
Qed.
Lemma first_app h l l' nm c' : first_named h l nm c' -> first_named h (l ++ l') nm c'.
Proof. intros (l1 & l2 & -> & En & No). exists l1, (l2 ++ l')%list. rewrite <- app_assoc. auto. Qed.
Lemma first_more h l l' nm c' : (forall x, In x l -> class_name h x <> nm) -> first_named h l' nm c' -> first_named h (l ++ l') nm c'.
Proof.
  intros N (l1 & l2 & -> & En & No). exists (l ++ l1)%list, l2. rewrite <- app_assoc. split; [reflexivity|]. split; [exact En|].
  intros x Hx. apply in_app_iff in Hx. destruct Hx; auto.
Qed.
Lemma first_same h h' l nm c' : (forall x, In x l -> class_name h' x = class_name h x) -> first_named h l nm c' -> first_named h' l nm c'.
Proof.
  intros E (l1 & l2 & -> & En & No). exists l1, l2. split; [reflexivity|]. split; [rewrite E; [exact En|apply in_elt]|].
  intros x Hx. rewrite E; [apply No, Hx|]. apply in_app_iff. auto.
Qed.
Lemma first_unique h l nm c d : first_named h l nm c -> first_named h l nm d -> c = d.
Proof.
  intros P Q. destruct (first_index _ _ _ _ P) as (i & A & B), (first_index _ _ _ _ Q) as (j & A' & B'). congruence.
Qed.
Lemma first_self h : forall cs, names_apart h cs -> Forall (fun c => first_named h cs (class_name h c) c) cs.
Proof.
  intros cs N. apply Forall_forall. intros c Hc. apply elem_of_list_In in Hc.
  assert (Q : exists l1 l2, cs = (l1 ++ c :: l2)%list /\ ~ In c l1).
  { clear N. induction cs as [|x cs IH]; [destruct Hc|]. destruct (Nat.eq_dec x c) as [->|Nx]; [exists [], cs; auto|].
    destruct IH as (l1 & l2 & -> & No); [destruct Hc; congruence|]. exists (x :: l1), l2. split; [reflexivity|]. simpl. intuition. }
  destruct Q as (l1 & l2 & E & No). exists l1, l2. split; [exact E|]. split; [reflexivity|].
  intros x Hx Q. apply No. rewrite <- (N x c); auto. rewrite E. apply in_app_iff. auto.
Qed.
Lemma filter_one {A} (p : A -> bool) (l : list A) x : NoDup l -> In x l -> p x = true -> (forall y, In y l -> p y = true -> y = x) ->
  List.filter p l = [x].
Proof.
  induction l as [|y l IH]; intros N I P U; [destruct I|]. apply NoDup_cons in N. destruct N as [N1 N2]. cbn [List.filter].
  destruct I as [->|I].
  - rewrite P. f_equal. clear IH. assert (Q : forall z, In z l -> p z = false).
    { intros z Hz. destruct (p z) eqn:E; [|reflexivity]. exfalso. apply N1. apply elem_of_list_In. rewrite <- (U z); simpl; auto. }
    clear -Q. induction l as [|z l IH]; [reflexivity|]. cbn [List.filter]. rewrite Q by (simpl; auto). apply IH. intros; apply Q; simpl; auto.
  - destruct (p y) eqn:E; [|apply IH; auto; intros; apply U; simpl; auto]. exfalso. apply N1. apply elem_of_list_In.
    rewrite (U y); simpl; auto.
Qed.

Definition recloned (h : heap) (a : aid) (cs : list cid) (h1 : heap) (cs' : list cid) (l : list cid) : Prop :=
  class_table h1 /\ (List.length (h_cls h) <= List.length (h_cls h1))%nat /\ (forall c, clive h c -> cob h1 c = cob h c) /\
  h_seq h1 = h_seq h /\ h_tier h1 = h_tier h /\ h_grp h1 = h_grp h /\ List.length (h_grid h1) = List.length (h_grid h) /\
  (forall x, x <> a -> aob h1 x = aob h x) /\ aob h1 a = set_a_cloned (a_cloned (aob h a) ++ l)%list (aob h a) /\
  (exists t b, class_chain h1 t cs' b) /\
  Forall2 (fun c c' => first_named h1 (a_cloned (aob h1 a)) (class_name h1 c) c') cs cs'.

Lemma reclone_parts h a c cs t b c' cs' t' b' h1 :
  class_table h -> class_chain h t (c :: cs) b ->
  clone_or_reuse (a_cloned (aob h a)) c h = Ok c' h1 -> class_table h1 -> class_chain h1 t' (c' :: cs') b' ->
  reclone a (c :: cs) h = Ok tt (upd_grid a (fun o => set_a_cloned (a_cloned o ++ (c' :: cs'))%list o) h1).
Proof.
  intros T C E T1 C1. unfold reclone. rewrite bind_gets. set (ex := a_cloned (aob h a)) in *. rewrite bind_gets.
  assert (IV : forall x, In x (c :: cs) -> issubclass h x cInterval = true) by apply C.
  assert (Fp : List.filter (fun x => issubclass h x cPoint) (dedup (c :: cs)) = []).
  { assert (Q : forall x, In x (dedup (c :: cs)) -> issubclass h x cPoint = false).
    { intros x Hx. apply OwnFinal.dedup_in in Hx. apply (kinds_apart h x cInterval cPoint T); simpl; auto. }
    revert Q. generalize (dedup (c :: cs)). intros l. induction l as [|x l IH]; intros Q; [reflexivity|]. cbn [List.filter].
    rewrite Q by (simpl; auto). apply IH. intros; apply Q; simpl; auto. }
  rewrite Fp.
  assert (Et : filterM is_top_cls (dedup (c :: cs)) h = Ok [c] h).
  { rewrite (tops_are h (dedup (c :: cs))).
    - f_equal. apply filter_one.
      + apply dedup_once.
      + apply dedup_iff. simpl. auto.
      + unfold topped. rewrite (IV c) by (simpl; auto). rewrite (chain_super h t (c :: cs) b [] c cs C eq_refl). cbn [List.last]. apply C.
      + intros y Hy P. apply OwnFinal.dedup_in in Hy. unfold topped in P. apply andb_true_iff in P. destruct P as [_ P].
        destruct (superset_class h y) as [q|] eqn:Sq; [|discriminate].
        destruct (top_heads h t (c :: cs) b y q T C Hy Sq P) as [r Q]. injection Q as -> _. reflexivity.
    - intros x Hx _. apply OwnFinal.dedup_in in Hx. apply in_split in Hx. destruct Hx as (l1 & l2 & Q).
      eexists. exact (chain_super _ _ _ _ _ _ _ C Q). }
  rewrite (bind_ok _ _ _ _ _ Et). cbn [mapM]. rewrite bind_ret.
  rewrite bind_assoc. rewrite (bind_ok _ _ _ _ _ E). rewrite bind_assoc, bind_ret, bind_ret.
  cbn [mapM]. rewrite bind_assoc. rewrite (bind_ok _ _ _ (c' :: cs') h1) by (apply (c14_chain h1 t' (c' :: cs') b' [] c' T1 C1); [simpl; auto|intros ? _ []]).
  rewrite bind_assoc, !bind_ret. cbn [concat]. rewrite app_nil_r. reflexivity.
Qed.

Lemma reclone_strange h a cs : class_table h -> alive h a -> clear_chain h cs -> whole_chains h (a_cloned (aob h a)) -> strange h a cs ->
  exists cs' h1, reclone a cs h = Ok tt h1 /\ recloned h a cs h1 cs' cs' /\ Forall2 (clone_of h h1) cs cs' /\
    whole_chains h1 (a_cloned (aob h1 a)).
Proof.
  intros T La ((t & b & C) & Pl & Na) WC St. destruct cs as [|c cs]; [destruct C as (_ & Q & _); congruence|].
  destruct (c13_clone h t c cs b T C Pl) as (h1 & t' & c' & cs' & b' & E & C' & F & _ & _ & K & C0 & T1 & Un).
  exists (c' :: cs'). eexists. split; [|split; [|split]].
  - apply (reclone_parts h a c cs t b c' cs' t' b' h1); auto. unfold clone_or_reuse. rewrite bind_gets. rewrite first_none; [exact E|]. intros x Hx. apply St; simpl; auto.
  - destruct K as (K1 & K2 & K3 & K4 & K5 & K6).
    assert (La1 : alive h1 a) by (unfold alive in *; rewrite K6; exact La).
    split; [exact T1|]. split; [exact K1|]. split; [exact K2|]. split; [exact K3|]. split; [exact K4|]. split; [exact K5|].
    split; [rewrite len_upd_grid, K6; reflexivity|]. split; [intros x Hx; rewrite aob_upd_ne by exact Hx; unfold aob; rewrite K6; reflexivity|].
    assert (Ea : aob (upd_grid a (fun o => set_a_cloned (a_cloned o ++ c' :: cs')%list o) h1) a = set_a_cloned (a_cloned (aob h a) ++ c' :: cs')%list (aob h a)).
    { rewrite aob_upd_eq by exact La1. assert (Q : aob h1 a = aob h a) by (unfold aob; rewrite K6; reflexivity). rewrite Q. reflexivity. }
    split; [exact Ea|]. split; [exists t', b'; exact C'|]. rewrite Ea. cbn [a_cloned set_a_cloned].
    assert (Lv : forall x, In x (c :: cs) -> clive h x) by (intros x Hx; apply (chain_live h t (c :: cs) b x T C); right; apply in_app_iff; auto).
    assert (Nk : forall x, clive h x -> class_name h1 x = class_name h x) by (intros x Hx; unfold class_name; rewrite K2 by exact Hx; reflexivity).
    assert (F1 : Forall2 (fun c c' => first_named h1 (c' :: nil) (class_name h1 c) c') (c :: cs) (c' :: cs')) by
      (eapply Forall2_weaken; [exact F|]; intros x y Hx _ (_ & Q & _); exists [], []; split; [reflexivity|]; split; [rewrite Q, Nk; auto|intros ? []]).
    assert (Nm : map (class_name h1) (c' :: cs') = map (class_name h) (c :: cs)).
    { clear -F. induction F as [|x y l m (_ & Q & _) F IH]; [reflexivity|]. cbn [map]. rewrite Q, IH. reflexivity. }
    assert (Nd : NoDup (map (class_name h1) (c' :: cs'))).
    { rewrite Nm. apply names_once; [apply C|]. exact Na. }
    assert (Na' : names_apart h1 (c' :: cs')).
    { intros x y Hx Hy Q. apply In_nth_error in Hx. apply In_nth_error in Hy. destruct Hx as [i Hi], Hy as [j Hj].
      assert (i = j).
      { apply (NoDup_lookup _ i j (class_name h1 x) Nd); [rewrite list_lookup_fmap|rewrite list_lookup_fmap, Q].
        - rewrite <- nth_error_lookup, Hi. reflexivity.
        - rewrite <- nth_error_lookup, Hj. reflexivity. }
      subst j. congruence. }
    pose proof (first_self h1 (c' :: cs') Na') as Fs. rewrite Forall_forall in Fs.
    eapply Forall2_weaken; [exact F|]. intros x y Hx Hy (_ & Q & _). change (first_named h1 (a_cloned (aob h a) ++ c' :: cs') (class_name h1 x) y).
    rewrite Nk by auto. rewrite <- Q. apply first_more; [|apply Fs, elem_of_list_In, Hy].
    intros z Hz. rewrite Nk by (apply (OwnFinal.table_live h _ z T WC Hz)). rewrite Q. apply St; auto.
  - exact F.
  - assert (La1 : alive h1 a) by (unfold alive in *; destruct K as (_ & _ & _ & _ & _ & ->); exact La).
    rewrite aob_upd_eq by exact La1. cbn [a_cloned set_a_cloned]. assert (Q : aob h1 a = aob h a) by (unfold aob; destruct K as (_ & _ & _ & _ & _ & ->); reflexivity). rewrite Q.
    change (whole_chains h1 (a_cloned (aob h a) ++ c' :: cs')). intros x Hx. apply in_app_iff in Hx. destruct Hx as [Hx|Hx].
    + destruct (WC x Hx) as [L|(t2 & cs2 & b2 & C2 & I2 & I3)]; [left; apply (lone_kept h); auto|right]. exists t2, cs2, b2. split; [apply (chain_kept h); auto|].
      split; [exact I2|]. intros y Hy. apply in_app_iff. auto.
    + right. exists t', (c' :: cs'), b'. split; [exact C'|]. split; [exact Hx|]. intros y Hy. apply in_app_iff. auto.
Qed.
Lemma reclone_familiar h a cs cs0 : class_table h -> alive h a -> clear_chain h cs -> whole_chains h (a_cloned (aob h a)) -> familiar h a cs cs0 ->
  exists h1, reclone a cs h = Ok tt h1 /\ recloned h a cs h1 cs0 cs0 /\ h_cls h1 = h_cls h /\ whole_chains h1 (a_cloned (aob h1 a)).
Proof.
  intros T La ((t & b & C) & Pl & Na) WC (F & t0 & b0 & C0). destruct cs as [|c cs]; [destruct C as (_ & Q & _); congruence|].
  inversion F as [|? c0 ? cs0' Fc Fr]; subst. eexists. split; [|split; [|split]].
  - eapply reclone_parts; eauto. destruct (first_index _ _ _ _ Fc) as (i & E1 & E2). unfold clone_or_reuse. rewrite bind_gets, E1, E2. reflexivity.
  - split; [exact T|]. split; [reflexivity|]. split; [reflexivity|]. do 3 (split; [reflexivity|]).
    split; [apply len_upd_grid|]. split; [intros x Hx; apply aob_upd_ne, Hx|]. split; [rewrite aob_upd_eq by exact La; reflexivity|]. split; [exists t0, b0; exact C0|].
    rewrite aob_upd_eq by exact La. cbn [a_cloned set_a_cloned]. eapply Forall2_weaken; [exact F|]. intros x y _ _ Q.
    change (first_named h (a_cloned (aob h a) ++ c0 :: cs0') (class_name h x) y). apply first_app, Q.
  - reflexivity.
  - rewrite aob_upd_eq by exact La. cbn [a_cloned set_a_cloned]. change (whole_chains h (a_cloned (aob h a) ++ c0 :: cs0')).
    intros x Hx. apply in_app_iff in Hx. destruct Hx as [Hx|Hx].
    + destruct (WC x Hx) as [L|(t2 & cs2 & b2 & C2 & I2 & I3)]; [left; exact L|right].
      exists t2, cs2, b2. split; [exact C2|]. split; [exact I2|]. intros y Hy. apply in_app_iff. auto.
    + right. exists t0, (c0 :: cs0'), b0. split; [exact C0|]. split; [exact Hx|]. intros y Hy. apply in_app_iff. auto.
Qed.

(** ** The group *)
(** Cut in the same way, entries have the same parents and children. *)
Lemma related_agree h h' : (forall t, t_seq (tob h' t) = t_seq (tob h t)) -> forall ts bss, snug h ts bss -> related_tiers h ts bss -> related_tiers h' ts bss ->
  (forall t x, In t (removelast ts) -> In x (t_seq (tob h t)) -> s_subset (sob h' x) = s_subset (sob h x)) /\
  (forall t x, In t (tl ts) -> In x (t_seq (tob h t)) -> s_super (sob h' x) = s_super (sob h x)).
Proof.
  intros Tk. induction ts as [|t ts IH]; intros bss S R R'; [split; intros ? ? []|]. destruct ts as [|u r]; [split; intros ? ? []|].
  destruct bss as [|bs bss]; [destruct S|]. rewrite snug_cons in S. rewrite related_cons in R, R'. destruct S as (S1 & S2 & S3), R as (R1 & R2), R' as (R1' & R2').
  rewrite Tk in R1'. destruct (IH bss S3 R2 R2') as [A B].
  assert (Ps : forall b, In b bs -> exists p, parent_of h p b /\ parent_of h' p b).
  { clear -R1 R1'. revert R1'. induction R1 as [|p b U bs P R1 IH]; intros R1' b' Hb; [destruct Hb|]. inversion R1'; subst. destruct Hb as [<-|Hb]; eauto. }
  split.
  - intros k x Hk Hx. change (In k (t :: removelast (u :: r))) in Hk. destruct Hk as [<-|Hk]; [|apply (A k x Hk Hx)].
    clear -R1 R1' Hx. revert R1'. induction R1 as [|p b U bs P R1 IH]; intros R1'; [destruct Hx|]. inversion R1'; subst.
    destruct Hx as [<-|Hx]; [|apply IH; auto]. destruct P as (-> & _). match goal with Q : parent_of h' _ _ |- _ => destruct Q as (-> & _) end. reflexivity.
  - intros k x Hk Hx. cbn [tl] in Hk. destruct Hk as [<-|Hk]; [|apply (B k x); auto].
    rewrite <- S1 in Hx. apply in_concat in Hx. destruct Hx as (b & Hb & Hx). destruct (Ps b Hb) as (p & (_ & _ & P) & (_ & _ & P')).
    destruct (P x Hx) as [-> _]. destruct (P' x Hx) as [-> _]. reflexivity.
Qed.
Lemma map_apart {A B} (f : A -> B) l : NoDup (map f l) -> forall x y, In x l -> In y l -> f x = f y -> x = y.
Proof.
  intros N. induction l as [|a l IH]; intros x y Hx Hy E; [destruct Hx|]. cbn [map] in N. apply NoDup_cons in N. destruct N as [N1 N2]. rewrite elem_of_list_In in N1.
  destruct Hx as [-> |Hx], Hy as [-> |Hy]; [reflexivity| | |apply IH; auto].
  - destruct N1. rewrite E. apply in_map, Hy.
  - destruct N1. rewrite <- E. apply in_map, Hx.
Qed.
Lemma laid_apart h ts bss : laid h ts bss -> forall t u x, In t ts -> In u ts -> t <> u -> In x (t_seq (tob h t)) -> ~ In x (t_seq (tob h u)).
Proof.
  intros (Ok & N & _) t u x Ht Hu Ne Hx Hx'. destruct (Ok t Ht) as (_ & (_ & A) & _), (Ok u Hu) as (_ & (_ & B) & _).
  apply Ne. apply (map_apart (fun t => t_ec (tob h t)) ts); auto. destruct (A x Hx) as (_ & <- & _). destruct (B x Hx') as (_ & <- & _). reflexivity.
Qed.

Section WithEnv.
Context `{Env}.

(** Same tiers and entries, other classes: the group can be related again. *)
Lemma recast_fit h h2 ts cs' bss : laid h ts bss -> (List.length (h_seq h) <= List.length (h_seq h2))%nat ->
  (forall c, In c cs' -> issubclass h2 c cInterval = true /\ issubclass h2 c cPoint = false) ->
  Forall2 (fun t c => t_seq (tob h2 t) = t_seq (tob h t) /\ t_ec (tob h2 t) = c /\
      forall x, In x (t_seq (tob h t)) -> s_cls (sob h2 x) = c /\ same_family (sob h x) (sob h2 x)) ts cs' ->
  forall t, In t ts -> fit_tier h2 t.
Proof.
  intros L Ln Cs F t Ht. pose proof (laid_fit h ts bss L) as Fit. pose proof (laid_involved h ts bss L) as Inv.
  pose proof L as (Ok & N & _).
  assert (Tf : forall k, In k ts -> t_seq (tob h2 k) = t_seq (tob h k) /\ issubclass h2 (t_ec (tob h2 k)) cPoint = false /\
     forall x, In x (t_seq (tob h k)) -> s_cls (sob h2 x) = t_ec (tob h2 k) /\ same_family (sob h x) (sob h2 x)).
  { intros k Hk. destruct (Forall2_in_l _ _ _ k F Hk) as (c & Hc & Q1 & Q2 & Q3). rewrite Q2. split; [exact Q1|]. split; [apply Cs, Hc|exact Q3]. }
  assert (Sf : forall x, (exists k, In k ts /\ In x (t_seq (tob h k))) -> same_family (sob h x) (sob h2 x)).
  { intros x (k & Hk & Hx). apply (Tf k Hk), Hx. }
  destruct (Tf t Ht) as (E1 & E2 & E3). destruct (Fit t Ht) as ((Nd & Lk) & _ & Fl). unfold fit_tier. rewrite E1. split; [|split; [exact E2|]].
  - split; [exact Nd|]. intros x Hx. destruct (Lk x Hx) as (A & _ & B). destruct (E3 x Hx) as (C & (_ & _ & D & _)). split; [lia|]. split; [exact C|congruence].
  - intros x Hx p. destruct (E3 x Hx) as (_ & (_ & _ & _ & -> & _)). intros Hp. destruct (Fl x Hx p Hp) as (Q1 & Q2 & Q3 & Q4 & Q5).
    destruct (Sf p) as (_ & _ & _ & _ & Ep). { apply Inv. exists t, x. split; [exact Ht|]. split; [exact Hx|]. right. eauto. }
    split; [lia|]. split; [exact Q2|]. rewrite Ep. split; [exact Q3|]. unfold brood. rewrite Ep. split; [exact Q4|].
    assert (Wh : forall y, In y (s_subset (sob h p)) -> exists k, In k ts /\ In y (t_seq (tob h k))).
    { intros y Hy. apply Inv. exists t, x. split; [exact Ht|]. split; [exact Hx|]. right. exists p. auto. }
    intros y Hy. destruct (Q5 y Hy) as (A1 & A2 & A3 & A4). destruct (Sf y (Wh y Hy)) as (B1 & B2 & B3 & B4 & B5).
    split; [lia|]. split; [congruence|]. split; [congruence|]. intros z Hz. destruct (A4 z Hz) as [A5 A6]. destruct (Sf z (Wh z Hz)) as (C1 & C2 & C3 & _).
    destruct (Wh y Hy) as (k & Hk & Hyk), (Wh z Hz) as (k' & Hk' & Hzk).
    assert (k' = k).
    { apply (map_apart (fun t => t_ec (tob h t)) ts); auto. destruct (Ok k Hk) as (_ & (_ & D1) & _), (Ok k' Hk') as (_ & (_ & D2) & _).
      destruct (D1 y Hyk) as (_ & <- & _). destruct (D2 z Hzk) as (_ & <- & _). exact A5. }
    subst k'. destruct (Tf k Hk) as (_ & D1 & D2). destruct (D2 y Hyk) as [D3 _]. destruct (D2 z Hzk) as [D4 _].
    split; [congruence|]. intros (V1 & V2 & V3 & V4). apply A6. unfold same_value, is_point. rewrite A5. split; [reflexivity|]. split; [congruence|]. split; [congruence|].
    intros _. rewrite <- B2, <- C2. apply V4. unfold is_point. rewrite D3. exact D1.
Qed.

Lemma append_full n h a g cs : append_ready h a g cs -> (strange h a cs \/ exists cs0, familiar h a cs cs0) ->
  exists cs' h', grid_append n a g h = Ok tt h' /\ joins h h' a g cs' /\ joins_only h h' a g /\
    (strange h a cs -> Forall2 (clone_of h h') cs cs') /\ (forall cs0, familiar h a cs cs0 -> cs' = cs0) /\
    familiar h' a cs cs' /\ Forall2 (fun c c' => class_name h' c' = class_name h c) cs cs' /\
    class_table h' /\ whole_chains h' (a_cloned (aob h' a)) /\ settled_groups h' a /\ a_cloned (aob h' a) = (a_cloned (aob h a) ++ cs')%list.
Proof.
  intros (T & La & WC & Sg & Ng & (Em & (bss & G) & Bb) & Cc) Kn.
  assert (Rc : exists cs' h1, reclone a cs h = Ok tt h1 /\ recloned h a cs h1 cs' cs' /\ whole_chains h1 (a_cloned (aob h1 a)) /\
    (strange h a cs -> Forall2 (clone_of h h1) cs cs') /\ (forall cs0, familiar h a cs cs0 -> cs' = cs0)).
  { assert (No : forall cs0, strange h a cs -> familiar h a cs cs0 -> False).
    { intros cs0 St (F & _). destruct Cc as ((t & b & C) & _). destruct cs as [|c cs]; [destruct C as (_ & Q & _); congruence|].
      inversion F as [|? c0 ? cs0' Q F']; subst. destruct Q as (l1 & l2 & Q1 & Q2 & _). apply (St c c0); [simpl; auto|rewrite Q1; apply in_elt|exact Q2]. }
    destruct Kn as [St|[cs0 Fa]].
    - destruct (reclone_strange h a cs T La Cc WC St) as (cs' & h1 & E & R & F & W). exists cs', h1. split; [exact E|]. split; [exact R|]. split; [exact W|].
      split; [auto|]. intros cs0 Fa. destruct (No cs0 St Fa).
    - destruct (reclone_familiar h a cs cs0 T La Cc WC Fa) as (h1 & E & R & _ & W). exists cs0, h1. split; [exact E|]. split; [exact R|]. split; [exact W|].
      split; [intros St; destruct (No cs0 St Fa)|]. intros cs1 [F1 _]. destruct Fa as [F0 _]. clear -F0 F1. revert cs1 F1.
      induction F0 as [|c c' cs cs0 Q F IH]; intros cs1 F1; inversion F1; subst; [reflexivity|]. f_equal; [|apply IH; assumption].
      eapply first_unique; eauto. }
  destruct Rc as (cs' & h1 & E1 & (T1 & K1 & K2 & K3 & K4 & K5 & K6 & K7 & K8 & (t' & b' & C1) & F1) & W1 & Hs & Hf).
  set (ts := g_tiers (gob h g)) in *.
  assert (So1 : forall x, sob h1 x = sob h x) by (intros x; unfold sob; rewrite K3; reflexivity).
  assert (To1 : forall x, tob h1 x = tob h x) by (intros x; unfold tob; rewrite K4; reflexivity).
  assert (Go1 : forall x, gob h1 x = gob h x) by (intros x; unfold gob; rewrite K5; reflexivity).
  pose proof (good_laid h g ts bss G Bb) as L.
  assert (Lcs : forall c, In c cs -> clive h c).
  { destruct Cc as ((t & b & C) & _). intros c Hc. apply (chain_live h t cs b c T C). right. apply in_app_iff. auto. }
  assert (Sb1 : forall c k, clive h c -> issubclass h1 c k = issubclass h c k).
  { intros c k Hc. apply sub_ext; [apply table_wf; exact T|apply table_wf; exact T1|exact Hc|unfold clive in *; lia|]. intros i Hi. rewrite K2; [reflexivity|unfold clive in *; lia]. }
  pose proof L as (Lok & Ln & Ls & Lr & _ & Ltp).
  assert (Lev : forall t, In t ts -> in_turn h (t_seq (tob h t)) /\ forall x, In x (t_seq (tob h t)) -> dated h x).
  { apply (laid_levels h ts bss Ls). intros t Ht. destruct (Ltp t Ht) as (Q1 & Q2). split; [exact Q1|]. intros x Hx. apply Q2, Hx. }
  assert (Ect : forall t, In t ts -> In (t_ec (tob h t)) cs) by (intros t Ht; rewrite <- Em; apply (in_map (fun k => t_ec (tob h k))), Ht).
  assert (Civ : forall c, In c cs -> issubclass h c cInterval = true) by (destruct Cc as ((t & b & C) & _); apply C).
  assert (Nts : NoDup ts) by (apply NoDup_ListNoDup; eapply NoDup_map_inv; apply NoDup_ListNoDup; exact Ln).
  destruct (recast_all ts cs' h1) as (h2 & E2 & B1 & B2 & B3 & B4 & B5 & B6 & B7 & B8 & B9).
  { rewrite <- (Forall2_length _ _ _ F1), <- Em, map_length. reflexivity. }
  { exact Nts. }
  { intros t u x. rewrite !To1. apply (laid_apart h ts bss L). }
  { intros c Hc. assert (Iv : issubclass h1 c cInterval = true) by (apply C1, Hc). split; [exact Iv|]. split; [apply (kinds_apart h1 c cInterval cPoint T1); simpl; auto|].
    apply in_split in Hc. destruct Hc as (l1 & l2 & Q). eexists. exact (ClassFinal.chain_super _ _ _ _ _ _ _ C1 Q). }
  { intros t Ht. rewrite To1. destruct (Lok t Ht) as (Q1 & (Q2 & Q3) & Q4 & _). destruct (Lev t Ht) as [V1 V2]. split; [unfold tlive in *; rewrite K4; exact Q1|].
    split; [rewrite Sb1 by (apply Lcs, Ect, Ht); exact Q4|]. split; [exact Q2|]. split.
    - intros x Hx. rewrite So1. destruct (Q3 x Hx) as (R1 & R2 & R3). split; [unfold live; rewrite K3; exact R1|]. rewrite R2. split; [|exact R3].
      rewrite Sb1 by (apply Lcs, Ect, Ht). apply Civ, Ect, Ht.
    - split; [intros x Hx; rewrite So1; destruct (V2 x Hx) as (D & _); eauto|]. intros i j x y Hij Hx Hy. rewrite !So1. apply (turn_sorted h (t_seq (tob h t)) V1 V2 i j x y Hij Hx Hy). }
  assert (T2c : class_chain h2 t' cs' b') by (apply (chain_cls h1); auto).
  assert (Em2 : map (fun k => t_ec (tob h2 k)) ts = cs').
  { clear -B9. induction B9 as [|t c ts cs (_ & Q & _) F IH]; [reflexivity|]. cbn [map]. rewrite Q, IH. reflexivity. }
  assert (F2 : Forall2 (fun t c => t_seq (tob h2 t) = t_seq (tob h t) /\ t_ec (tob h2 t) = c /\
      forall x, In x (t_seq (tob h t)) -> s_cls (sob h2 x) = c /\ same_family (sob h x) (sob h2 x)) ts cs').
  { eapply Forall2_weaken; [exact B9|]. intros t c _ _ (Q1 & Q2 & _ & _ & _ & _ & _ & Q3). rewrite To1 in *. split; [exact Q1|]. split; [exact Q2|].
    intros x Hx. rewrite <- So1. destruct (Q3 x Hx) as (R1 & R2 & _). auto. }
  assert (Civ2 : forall c, In c cs' -> issubclass h2 c cInterval = true /\ issubclass h2 c cPoint = false).
  { intros c Hc. rewrite !(issubclass_ext h1 h2) by exact B1. assert (Iv : issubclass h1 c cInterval = true) by (apply C1, Hc). split; [exact Iv|apply (kinds_apart h1 c cInterval cPoint T1); simpl; auto]. }
  assert (Fit : forall t, In t ts -> fit_tier h2 t) by (apply (recast_fit h h2 ts cs' bss L); [rewrite K3 in B5; exact B5|exact Civ2|exact F2]).
  assert (Tq : forall t, In t ts -> t_seq (tob h2 t) = t_seq (tob h t) /\ forall x, In x (t_seq (tob h t)) -> same_family (sob h x) (sob h2 x)).
  { intros t Ht. destruct (Forall2_in_l _ _ _ t F2 Ht) as (c & _ & Q1 & _ & Q3). split; [exact Q1|]. intros x Hx. apply (Q3 x Hx). }
  destruct (synced_chain h2 h2 ts t' cs' b' T2c eq_refl) as [TC CJ].
  { intros k Hk. destruct (Forall2_in_l _ _ _ k B9 Hk) as (c & _ & _ & Q2 & Q3 & Q4 & _). unfold synced. rewrite Q2.
    rewrite (superset_class_ext h1 h2), (subset_class_ext h1 h2) by exact B1. rewrite <- Q3, <- Q4. destruct (tob h2 k). reflexivity. }
  { exact Em2. }
  { intros k Hk. split; [destruct (Lok k Hk) as (Q & _); unfold tlive in *; rewrite B4, K4; exact Q|].
    assert (Q : In (t_ec (tob h2 k)) cs') by (rewrite <- Em2; apply (in_map (fun k => t_ec (tob h2 k))), Hk).
    assert (T2 : class_table h2) by (unfold class_table, cob in *; rewrite B1; exact T1).
    destruct (Civ2 _ Q) as [Iv _]. split; [apply (kinds_apart h2 _ cInterval cTop T2)|apply (kinds_apart h2 _ cInterval cBottom T2)]; simpl; auto. }
  pose proof G as (G1 & G2 & G3 & _).
  assert (Go2 : forall k, gob h2 k = gob h k) by (intros k; rewrite <- Go1; unfold gob; rewrite B2; reflexivity).
  destruct (c49_again n h2 g ts bss) as (h3 & E3 & G' & An & Lg3 & Og3 & Wg3 & _).
  { rewrite B2, K5. exact G1. }
  { rewrite Go2. exact G2. }
  { rewrite Go2. fold ts. apply Permutation_refl. }
  { exact TC. }
  { exact CJ. }
  { exact Fit. }
  { apply (snug_same h h2); [intros t Ht; apply Tq, Ht|intros t x Ht Hx; destruct (Tq t Ht) as [_ Q]; destruct (Q x Hx) as (R1 & R2 & _); auto|exact Ls]. }
  { intros t Ht. destruct (Ltp t Ht) as [Q1 Q2]. assert (It : In t ts) by (destruct ts; [discriminate|injection Ht as ->; simpl; auto]).
    destruct (Tq t It) as [-> Q]. split; [apply (in_turn_same h h2); [intros x Hx; destruct (Q x Hx) as (R1 & R2 & _); auto|exact Q1]|].
    intros x Hx. destruct (Q x Hx) as (R1 & R2 & _). apply (dated_same h h2); auto. apply Q2, Hx. }
  pose proof (anew_tier g ts h2 h3 An) as Tk. pose proof An as (An1 & An2 & An3 & An4 & An5 & An6 & An7 & An8 & An9 & An10).
  (* the grid *)
  assert (Gs3 : a_groups (aob h3 a) = a_groups (aob h a)) by (unfold aob; rewrite An6, B3; fold (aob h1 a); rewrite K8; reflexivity).
  set (gs := a_groups (aob h a)) in *.
  assert (Gl3 : forall k, In k (gs ++ [g]) -> glive h3 k).
  { intros k Hk. unfold glive. rewrite Lg3, B2, K5. apply in_app_iff in Hk. destruct Hk as [Hk|[<-|[]]]; [apply (Sg k Hk)|exact G1]. }
  destruct (groups_set a (gs ++ [g]) h3) as (h4 & E4 & D1 & D2 & D3 & D4 & D5 & D6 & D7 & D8 & D9).
  { destruct gs; discriminate. }
  { unfold alive. rewrite An6, B3, K6. exact La. }
  { exact Gl3. }
  pose proof G' as (G1' & G2' & G3' & _).
  destruct (named_all a (gs ++ [g]) h4) as (h5 & E5 & N1 & N2 & N3 & N4 & N5 & N6 & N7 & N8 & N9).
  { intros k Hk. split; [unfold glive; rewrite D4; apply Gl3, Hk|]. rewrite D8 by exact Hk. cbn [g_tiers g_within set_g_within]. split; [|split; [reflexivity|rewrite D6; exact Hk]].
    apply in_app_iff in Hk. destruct Hk as [Hk|[<-|[]]].
    - rewrite Og3 by (intros ->; auto). rewrite Go2. apply (Sg k Hk).
    - rewrite G3'. destruct TC as (_ & _ & _ & (t0 & Q & _) & _). intros Q'. rewrite Q' in Q. discriminate. }
  assert (Cl5 : h_cls h5 = h_cls h1) by (rewrite N1, D1, An5, B1; reflexivity).
  assert (So5 : forall x, sob h5 x = sob h3 x) by (intros x; unfold sob; rewrite N2, D2; reflexivity).
  assert (To5 : forall x, tob h5 x = tob h3 x) by (intros x; unfold tob; rewrite N3, D3; reflexivity).
  assert (Ao5 : forall x, aob h5 x = aob h4 x) by (intros x; unfold aob; rewrite N4; reflexivity).
  assert (Aa5 : aob h5 a = set_a_groups (gs ++ [g]) (aob h1 a)) by (rewrite Ao5, D6; unfold aob; rewrite An6, B3; reflexivity).
  assert (Old : forall k, k <> g -> gob h5 k = gob h k).
  { intros k Nk. destruct (in_dec Nat.eq_dec k (gs ++ [g])) as [Ik|Ik].
    - assert (Ik' : In k gs) by (apply in_app_iff in Ik; destruct Ik as [Q|[Q|[]]]; [exact Q|congruence]). destruct (Sg k Ik') as (_ & _ & W & nm & Nm1 & Nm2).
      assert (Q4 : gob h4 k = gob h k) by (rewrite D8 by exact Ik; rewrite Og3, Go2 by exact Nk; rewrite <- W; destruct (gob h k); reflexivity).
      destruct (N6 k) as (R1 & R2 & R3 & R4). rewrite Q4 in R1, R2, R3, R4. pose proof (N8 k nm ltac:(rewrite Q4; exact Nm1) Nm2) as R5. rewrite <- Nm1 in R5.
      destruct (gob h5 k), (gob h k). cbn in *. congruence.
    - rewrite N7, D9, Og3, Go2 by assumption. reflexivity. }
  assert (Gg : gob h4 g = set_g_within (Some (WGrid a)) (gob h3 g)) by (apply D8, in_app_iff; simpl; auto).
  destruct (N6 g) as (M1 & M2 & M3 & M4). rewrite Gg in M1, M2, M3, M4. cbn in M1, M2, M3, M4.
  assert (Gd5 : good_group h5 g ts bss).
  { apply (good_same h3 h5); auto.
    - unfold glive in *. rewrite N5, D4. apply Gl3, in_app_iff. simpl. auto.
    - rewrite N3, D3. reflexivity.
    - rewrite N2, D2. reflexivity.
    - intros t x _ _. rewrite So5. split; [apply GroupFinal.kept_refl|auto].
    - intros t x _ _. rewrite So5. reflexivity.
    - intros k (P1 & P2). split; [rewrite N2, D2; exact P1|]. rewrite !So5. exact P2.
    - intros x y. apply issubclass_ext. rewrite N1. exact D1.
    - apply (classes_joined_same h3 h5); [rewrite N1; exact D1|intros t _; rewrite To5; reflexivity|]. apply G'. }
  (* parents and children *)
  assert (Tks : forall t, t_seq (tob h3 t) = t_seq (tob h t)).
  { intros t. destruct (Tk t) as (-> & _). destruct (in_dec Nat.eq_dec t ts) as [I|I]; [apply Tq, I|]. rewrite B8 by exact I. rewrite To1. reflexivity. }
  destruct (related_agree h h3 Tks ts bss Ls Lr ltac:(apply G')) as [Ag1 Ag2].
  assert (Lv2 : forall t x, In t ts -> In x (t_seq (tob h t)) -> (x < List.length (h_seq h2))%nat).
  { intros t x Ht Hx. destruct (Lok t Ht) as (_ & (_ & Q) & _). destruct (Q x Hx) as (Q1 & _). rewrite K3 in B5. lia. }
  assert (Bt3 : forall t x, hd_error (rev ts) = Some t -> In x (t_seq (tob h t)) -> s_subset (sob h3 x) = []).
  { intros t x Ht Hx. assert (It : In t ts) by (apply in_rev; destruct (rev ts); [discriminate|injection Ht as ->; simpl; auto]).
    destruct (Tq t It) as [_ Qt]. destruct (Qt x Hx) as (_ & _ & _ & _ & Qs). pose proof (Bb t x Ht Hx) as Z.
    rewrite An10.
    - rewrite Qs. exact Z.
    - apply (Lv2 t x It Hx).
    - intros u Hu. assert (Ets : ts = (removelast ts ++ [t])%list).
      { clear -Ht. rewrite <- (rev_involutive ts). destruct (rev ts) as [|k l]; [discriminate|]. injection Ht as ->. cbn [rev]. rewrite removelast_last. reflexivity. }
      assert (Iu : In u ts) by (rewrite Ets; apply in_app_iff; auto). assert (Ne : u <> t).
      { intros ->. pose proof Nts as Nd. rewrite Ets in Nd. apply NoDup_app in Nd. destruct Nd as (_ & Nd & _). apply (Nd t); apply elem_of_list_In; simpl; auto. }
      destruct (Tq u Iu) as [-> _]. apply (laid_apart h ts bss L t u x It Iu); auto.
    - intros u y Hu Hy Q. destruct (Tq u Hu) as [Qu Qv]. rewrite Qu in Hy. destruct (Qv y Hy) as (_ & _ & _ & Qw & _). rewrite Qw in Q.
      destruct (laid_fit h ts bss L u Hu) as (_ & _ & Fl). destruct (Fl y Hy x Q) as (_ & _ & R & _). rewrite Z in R. destruct R. }
  assert (Hd3 : forall t x, hd_error ts = Some t -> In x (t_seq (tob h t)) -> s_super (sob h3 x) = s_super (sob h x)).
  { intros t x Ht Hx. destruct (Ltp t Ht) as [_ Q]. destruct (Q x Hx) as [_ ->]. destruct G' as (_ & _ & _ & _ & _ & _ & _ & _ & _ & Tp'). destruct (Tp' t Ht) as [_ Q']. apply Q'. rewrite Tks. exact Hx. }
  assert (Fm : forall t x, In t ts -> In x (t_seq (tob h t)) -> same_family (sob h x) (sob h3 x)).
  { intros t x Ht Hx. destruct (Tq t Ht) as [_ Q]. destruct (Q x Hx) as (R1 & R2 & R3 & _). destruct (An1 x (Lv2 t x Ht Hx)) as (_ & S1 & S2 & S3 & _).
    split; [congruence|]. split; [congruence|]. split; [congruence|]. split.
    - destruct ts as [|t0 r]; [destruct Ht|]. destruct Ht as [<-|Ht]; [apply (Hd3 t0); auto|apply (Ag2 t); auto].
    - destruct (rev ts) as [|k r] eqn:Er; [rewrite <- (rev_involutive ts), Er in Ht; destruct Ht|].
      assert (Ets : ts = (rev r ++ [k])%list) by (rewrite <- (rev_involutive ts), Er; reflexivity).
      rewrite Ets in Ht. apply in_app_iff in Ht. destruct Ht as [Ht|[<-|[]]].
      + apply (Ag1 t); [|exact Hx]. rewrite Ets, removelast_last. exact Ht.
      + rewrite (Bt3 k x eq_refl Hx). symmetry. apply (Bb k); [rewrite Er; reflexivity|exact Hx]. }
  assert (Ec5 : map (fun k => t_ec (tob h5 k)) ts = cs').
  { rewrite <- Em2. apply map_ext. intros k. rewrite To5. apply Tk. }
  assert (Nk1 : forall c, clive h c -> class_name h1 c = class_name h c) by (intros c Hc; unfold class_name; rewrite K2 by exact Hc; reflexivity).
  assert (Nk5 : forall c, class_name h5 c = class_name h1 c) by (intros c; unfold class_name, cob; rewrite Cl5; reflexivity).
  exists cs', h5. split.
  { unfold grid_append. rewrite bind_get_grp, bind_gets. fold ts. rewrite Em, (bind_ok _ _ _ _ _ E1), bind_gets.
    rewrite (bind_ok _ _ _ _ _ (swap_first h1 _ cs cs' F1)). rewrite (bind_ok _ _ _ _ _ E2). unfold grp_reinit. rewrite (bind_ok _ _ _ _ _ E3), bind_gets, Gs3.
    rewrite (bind_ok _ _ _ _ _ E4). unfold set_group_names. change (get_grid a) with (gets (fun h => aob h a)). rewrite bind_gets, D6. exact E5. }
  split.
  { split; [rewrite Aa5; reflexivity|]. split; [|split; [|split; [|split; [|split]]]].
    - unfold full_group. rewrite M2, G3'. split; [exact Ec5|]. split; [eauto|]. intros t x Ht. rewrite To5, So5, Tks. apply Bt3, Ht.
    - rewrite M2, G3'. reflexivity.
    - exact M4.
    - apply N9, in_app_iff. simpl. auto.
    - intros nm Nm1 Nm2. apply N8; [|exact Nm2]. rewrite Gg. cbn. apply (names_relate g nm n h2 h3 Nm2); [unfold glive; rewrite B2, K5; exact G1|rewrite Go2; exact G2|rewrite Go2; exact Nm1|exact E3].
    - fold ts. intros t Ht. destruct (Forall2_in_l _ _ _ t B9 Ht) as (c & Hc & Q1 & Q2 & Q3 & Q4 & Q5 & Q6 & Q7 & Q8). rewrite !To1 in *.
      destruct (Tk t) as (U1 & U2 & U3 & U4 & U5 & U6). split; [rewrite To5; apply Tks|]. split; [|split; [|split]].
      + split; [unfold classed in *; rewrite To5, U1, U2, U6; exact Q7|]. intros y. rewrite To5, So5, Tks. intros Hy. destruct (An1 y (Lv2 t y Ht Hy)) as (_ & _ & _ & _ & ->). apply Q8, Hy.
      + unfold up_to_date. rewrite To5, U2, U3, U4, Q2, Q3, Q4. rewrite (superset_class_ext h1 h5), (subset_class_ext h1 h5) by exact Cl5. auto.
      + rewrite To5, U2, U5, Q2, Q5. symmetry. apply Nk5.
      + intros x Hx. rewrite So5, To5, U2, Q2. split; [apply (Fm t); auto|]. destruct (An1 x (Lv2 t x Ht Hx)) as (-> & _). apply Q8, Hx. }
  split.
  { split; [rewrite Cl5; exact K1|]. split; [intros c Hc; unfold cob; rewrite Cl5; apply (K2 c Hc)|]. split; [rewrite N2, D2; rewrite K3 in B5; lia|]. fold ts. split.
    { intros i Hi Hn. rewrite So5. rewrite An2, B7, So1; auto.
      - unfold live. rewrite K3. exact Hi.
      - intros t Ht. rewrite To1. apply Hn, Ht.
      - rewrite K3 in B5. lia.
      - intros (t & x & Ht & Hx & Q). destruct (Tq t Ht) as [Qt Qs]. rewrite Qt in Hx. destruct Q as [->|(p & Hp & Q)]; [apply (Hn t Ht Hx)|].
        destruct (Qs x Hx) as (_ & _ & _ & R & _). rewrite R in Hp. assert (Ip : involved h ts p) by (exists t, x; split; [exact Ht|]; split; [exact Hx|]; right; eauto).
        destruct (laid_involved h ts bss L p Ip) as (k & Hk & Hpk). destruct (Tq k Hk) as [_ Qk]. destruct (Qk p Hpk) as (_ & _ & _ & _ & R').
        assert (Ii : involved h ts i) by (exists t, x; split; [exact Ht|]; split; [exact Hx|]; right; exists p; split; [exact Hp|]; rewrite R' in Q; exact Q).
        destruct (laid_involved h ts bss L i Ii) as (k' & Hk' & Hik). apply (Hn k' Hk' Hik). }
    split.
    { intros i Hi. assert (Bd : is_boundary h3 i).
      { rewrite N2, D2 in Hi. destruct (decide (i < List.length (h_seq h2))%nat) as [Hj|Hj]; [|apply An4; lia].
        eapply boundary_kept; [apply An2; [exact Hj|]|exact An3|apply B6; rewrite K3; lia].
        intros (t & x & Ht & Hx & Q). destruct (Tq t Ht) as [Qt Qs]. rewrite Qt in Hx.
        assert (Ii : involved h ts i).
        { exists t, x. split; [exact Ht|]. split; [exact Hx|]. destruct Q as [Q|(p & Hp & Q)]; [auto|]. right. exists p. destruct (Qs x Hx) as (_ & _ & _ & R & _). rewrite R in Hp. split; [exact Hp|].
          assert (Ip : involved h ts p) by (exists t, x; split; [exact Ht|]; split; [exact Hx|]; right; eauto).
          destruct (laid_involved h ts bss L p Ip) as (k & Hk & Hpk). destruct (Tq k Hk) as [_ Qk]. destruct (Qk p Hpk) as (_ & _ & _ & _ & R'). rewrite R' in Q. exact Q. }
        destruct (laid_involved h ts bss L i Ii) as (k & Hk & Hik). destruct (Lok k Hk) as (_ & (_ & Z) & _). destruct (Z i Hik) as (Z1 & _). lia. }
      destruct Bd as (P1 & P2). split; [rewrite N2, D2; exact P1|]. rewrite !So5. exact P2. }
    split; [rewrite N3, D3, An7, B4, K4; reflexivity|]. split; [intros t Ht; rewrite To5, An8, B8, To1 by exact Ht; reflexivity|].
    split; [rewrite N5, D4, Lg3, B2, K5; reflexivity|]. split; [exact Old|]. split; [rewrite N4, D5, An6, B3; exact K6|].
    intros x Hx. rewrite Ao5, D7 by exact Hx. unfold aob. rewrite An6, B3. apply K7, Hx. }
  split.
  { intros St. eapply Forall2_impl; [exact (Hs St)|]. intros x y (Q1 & Q2 & Q3). unfold clone_of. rewrite Cl5, Nk5. split; [exact Q1|]. split; [exact Q2|]. unfold cob. rewrite Cl5. exact Q3. }
  split; [exact Hf|]. split.
  { split; [|exists t', b'; apply (chain_cls h1); auto]. rewrite Aa5. cbn [a_cloned set_a_groups]. eapply Forall2_impl; [exact F1|]. intros x y Q. rewrite Nk5.
    eapply first_same; [intros z _; apply Nk5|exact Q]. }
  split.
  { eapply Forall2_weaken; [exact F1|]. intros x y Hx _ (l1 & l2 & _ & Q & _). rewrite Nk5, Q. apply Nk1, Lcs, Hx. }
  split; [unfold class_table, cob in *; rewrite Cl5; exact T1|]. split.
  { rewrite Aa5. cbn [a_cloned set_a_groups]. intros c Hc. destruct (W1 c Hc) as [[P1 P2]|(t2 & cs2 & b2 & C2 & I2 & I3)].
    - left. split; [rewrite (issubclass_ext h1 h5) by exact Cl5; exact P1|rewrite (superset_class_ext h1 h5) by exact Cl5; exact P2].
    - right. exists t2, cs2, b2. split; [apply (chain_cls h1); auto|auto]. }
  split; [|rewrite Aa5; cbn [a_cloned set_a_groups]; rewrite K8; reflexivity].
  intros k Hk. rewrite Aa5 in Hk. cbn [a_groups set_a_groups] in Hk. split; [|split; [|split]].
  - rewrite N5, D4. apply Gl3, Hk.
  - destruct (N6 k) as (_ & -> & _). rewrite D8 by exact Hk. cbn. apply in_app_iff in Hk. destruct Hk as [Hk|[<-|[]]].
    + rewrite Og3 by (intros ->; auto). rewrite Go2. apply (Sg k Hk).
    + rewrite G3'. destruct TC as (_ & _ & _ & (t0 & Q & _) & _). intros Q'. rewrite Q' in Q. discriminate.
  - destruct (N6 k) as (_ & _ & _ & ->). rewrite D8 by exact Hk. reflexivity.
  - apply N9, Hk.
Qed.
Lemma c60_append : forall n h a g cs, append_ready h a g cs -> (strange h a cs \/ exists cs0, familiar h a cs cs0) ->
  exists cs' h', grid_append n a g h = Ok tt h' /\ joins h h' a g cs' /\ joins_only h h' a g /\
    (strange h a cs -> Forall2 (clone_of h h') cs cs') /\ (forall cs0, familiar h a cs cs0 -> cs' = cs0) /\
    familiar h' a cs cs' /\ Forall2 (fun c c' => class_name h' c' = class_name h c) cs cs' /\
    class_table h' /\ whole_chains h' (a_cloned (aob h' a)) /\ settled_groups h' a.
Proof.
  intros n h a g cs R K. destruct (append_full n h a g cs R K) as (cs' & h' & E & A1 & A2 & A3 & A4 & A5 & A6 & A7 & A8 & A9 & _). exists cs', h'. auto 20.
Qed.
End WithEnv.
