(** * PopFinal: removing a class of tiers from a grid (C51). *)
From Verif Require Export GrowFinal ClassFinal PopSpec GridOps.
Open Scope Z_scope.

(** ** The classes *)
Record split_chain (h : heap) (t : cid) (cs1 : list cid) (c : cid) (cs2 : list cid) (b : cid) : Prop := {
  sc_table : class_table h;
  sc_unrel : unrelated h (t :: (cs1 ++ c :: cs2) ++ [b]);
  sc_nodup : NoDup (t :: (cs1 ++ c :: cs2) ++ [b]);
  sc_live : forall x, In x (t :: (cs1 ++ c :: cs2) ++ [b]) -> clive h x;
  sc_top : issubclass h t cTop = true;
  sc_bot : issubclass h b cBottom = true;
  sc_int : forall x, In x (cs1 ++ c :: cs2) -> issubclass h x cInterval = true;
  sc_plain : forall x, In x (cs1 ++ c :: cs2) -> plain_name (class_name h x);
  sc_t : str_in "Bottom" (class_name h t) = false;
  sc_b : str_in "Top" (class_name h b) = false;
  sc_up : walk h (t :: cs1);
  sc_down : walk h (cs2 ++ [b]);
  sc_sup : superset_class h c = Some (List.last cs1 t);
  sc_sub : subset_class h c = Some (hd b cs2)
}.
Lemma split_of h t cs1 c cs2 b : class_table h -> class_chain h t (cs1 ++ c :: cs2) b ->
  unrelated h (t :: (cs1 ++ c :: cs2) ++ [b]) ->
  (forall x, In x (cs1 ++ c :: cs2) -> plain_name (class_name h x)) ->
  str_in "Bottom" (class_name h t) = false -> str_in "Top" (class_name h b) = false -> split_chain h t cs1 c cs2 b.
Proof.
  intros T C UN PN Nt Nb. pose proof C as C'. apply chain_walk in C'. destruct C' as (NDc & _ & Tt & Tb & IV & WK).
  rewrite <- app_assoc in WK. change (t :: cs1 ++ (c :: cs2) ++ [b])%list with ((t :: cs1) ++ c :: cs2 ++ [b])%list in WK.
  constructor; auto.
  - exact (chain_nodup _ _ _ _ T C).
  - intros x. exact (chain_live _ _ _ _ x T C).
  - destruct (last_split cs1 t) as (p & Ep). rewrite Ep, <- app_assoc in WK. cbn [app] in WK. apply walk_app in WK. rewrite Ep. apply WK.
  - apply walk_app in WK. destruct WK as [_ WK]. destruct (hd_split cs2 b) as (r & Er). rewrite Er in *. apply WK.
  - exact (chain_super _ _ _ _ _ _ _ C eq_refl).
  - exact (chain_sub _ _ _ _ _ _ _ C eq_refl).
Qed.
Lemma split_ext h h' t cs1 c cs2 b : h_cls h' = h_cls h -> split_chain h t cs1 c cs2 b -> split_chain h' t cs1 c cs2 b.
Proof.
  intros E. destruct h as [K S T G A], h' as [K' S' T' G' A']. cbn in E. subst K'.
  intros [A1 A2 A3 A4 A5 A6 A7 A8 A9 A10 A11 A12 A13 A14]. constructor; auto.
  - clear -A11. induction (t :: cs1) as [|x [|y l] IH]; [exact I|exact I|]. destruct A11 as [P Q]. split; [exact P|apply IH, Q].
  - clear -A12. induction (cs2 ++ [b])%list as [|x [|y l] IH]; [exact I|exact I|]. destruct A12 as [P Q]. split; [exact P|apply IH, Q].
Qed.

Lemma join_step h t cs1 c cs2 b : split_chain h t cs1 c cs2 b -> (cs1 ++ cs2)%list <> [] ->
  exists h', join_classes (List.last cs1 t) (hd b cs2) h = Ok tt h' /\ split_chain h' t cs1 c cs2 b /\
    class_chain h' t (cs1 ++ cs2) b /\
    (forall x y, issubclass h' x y = issubclass h x y) /\ (forall x, class_name h' x = class_name h x) /\
    h_seq h' = h_seq h /\ h_tier h' = h_tier h /\ h_grp h' = h_grp h /\ h_grid h' = h_grid h /\
    List.length (h_cls h') = List.length (h_cls h) /\
    (forall k, k <> List.last cs1 t -> k <> hd b cs2 -> cob h' k = cob h k).
Proof.
  intros [T UN ND LV Tt Tb IV PN Nt Nb WU WD SU SB] NE. set (u := List.last cs1 t) in *. set (d := hd b cs2) in *.
  pose proof (table_wf h T) as W.
  destruct (last_split cs1 t) as (p & Ep). fold u in Ep. destruct (hd_split cs2 b) as (r & Er). fold d in Er.
  assert (EF : (t :: (cs1 ++ c :: cs2) ++ [b])%list = (p ++ u :: c :: d :: r)%list).
  { rewrite <- app_assoc. change (t :: cs1 ++ (c :: cs2) ++ [b])%list with ((t :: cs1) ++ c :: cs2 ++ [b])%list.
    rewrite Ep, Er, <- app_assoc. reflexivity. }
  pose proof UN as UN0. pose proof ND as ND0. pose proof LV as LV0.
  rewrite EF in UN, ND, LV. assert (Iu : In u (p ++ u :: c :: d :: r)) by (apply in_app_iff; simpl; auto).
  assert (Id : In d (p ++ u :: c :: d :: r)) by (apply in_app_iff; simpl; auto).
  assert (Ic : In c (p ++ u :: c :: d :: r)) by (apply in_app_iff; simpl; auto).
  pose proof ND as ND'. rewrite NoDup_ListNoDup in ND'.
  assert (Nud : d <> u).
  { apply NoDup_remove_2 in ND'. intros E. apply ND'. apply in_app_iff. rewrite <- E. simpl; auto. }
  assert (Ncu : c <> u).
  { apply NoDup_remove_2 in ND'. intros E. apply ND'. apply in_app_iff. rewrite <- E. simpl; auto. }
  assert (Ncd : c <> d).
  { change (p ++ u :: c :: d :: r)%list with (p ++ [u] ++ c :: d :: r)%list in ND'. rewrite app_assoc in ND'.
    apply NoDup_remove_2 in ND'. intros E. apply ND'. apply in_app_iff. rewrite <- E. simpl; auto. }
  assert (Hh : forall x, In x (p ++ u :: c :: d :: r) -> issubclass h x cHierarchyPart = true).
  { intros x. rewrite <- EF. intros [<-|Hx]; [apply (kind_hier h t cTop T); simpl; auto|]. apply in_app_iff in Hx.
    destruct Hx as [Hx|[<-|[]]]; [apply (kind_hier h x cInterval T); simpl; auto|apply (kind_hier h b cBottom T); simpl; auto]. }
  assert (Nu : str_in "Bottom" (class_name h u) = false).
  { destruct (decide (cs1 = [])) as [E|N]; [unfold u; rewrite E; exact Nt|].
    destruct (PN u) as [_ X]; [|exact X]. apply in_app_iff. left. apply last_in. exact N. }
  assert (Nd : str_in "Top" (class_name h d) = false).
  { destruct cs2 as [|y cs2]; [exact Nb|]. destruct (PN y) as [X _]; [|exact X]. apply in_app_iff. simpl; auto. }
  set (h1 := linked_classes false u d h). set (h2 := linked_classes true d u h1).
  assert (W1 : wf h1) by (apply linked_wf; exact W).
  assert (E1 : set_subset_class u (Some d) h = Ok tt h1) by (apply set_hier_ok; auto).
  assert (E2 : set_superset_class d (Some u) h1 = Ok tt h2).
  { apply set_hier_ok; auto; unfold h1; rewrite ?linked_live, ?linked_sub, ?linked_name; auto. }
  assert (LK : forall e w, In e (p ++ u :: c :: d :: r) -> look w h2 e =
     if decide (e = d /\ w = true) then Some u else if decide (e = u /\ w = false) then Some d else look w h e).
  { intros e w Ie. unfold h2. rewrite (link_member h1 (p ++ u :: c :: d :: r)); auto.
    - destruct (decide (e = d /\ w = true)); [reflexivity|]. change (negb true) with false.
      destruct (decide (e = u /\ w = false)) as [X|X]; [reflexivity|].
      unfold h1. rewrite (link_member h (p ++ u :: c :: d :: r)); auto. rewrite decide_False by auto.
      change (negb false) with true. rewrite decide_False by auto. reflexivity.
    - intros x y Hx Hy. unfold h1. rewrite linked_sub. apply UN; auto.
    - intros x Hx. apply linked_live. auto. }
  assert (NDr : NoDup (p ++ u :: d :: r)).
  { rewrite NoDup_ListNoDup. change (p ++ u :: c :: d :: r)%list with (p ++ [u] ++ c :: d :: r)%list in ND'.
    rewrite app_assoc in ND'. apply NoDup_remove_1 in ND'. rewrite <- app_assoc in ND'. exact ND'. }
  assert (IN : forall x, In x (p ++ u :: d :: r) -> In x (p ++ u :: c :: d :: r)).
  { intros x Hx. apply in_app_iff in Hx. apply in_app_iff. simpl in *. tauto. }
  rewrite Ep in WU. rewrite Er in WD.
  destruct (walk_cut h h2 p u d r NDr) as [X1 X2]; auto.
  { intros x Hx Nx. rewrite LK by auto. rewrite decide_False by (intros [_ ?]; discriminate). rewrite decide_False; [reflexivity|]. tauto. }
  { intros x Hx Nx. rewrite LK by auto. rewrite decide_False by tauto. rewrite decide_False; [reflexivity|]. intros [_ ?]; discriminate. }
  assert (SUB : forall x k, issubclass h2 x k = issubclass h x k) by (intros; unfold h2, h1; rewrite !linked_sub; reflexivity).
  assert (NAM : forall x, class_name h2 x = class_name h x) by (intros; unfold class_name, h2, h1; rewrite !linked_name; reflexivity).
  assert (LN : List.length (h_cls h2) = List.length (h_cls h)) by (unfold h2, h1; rewrite !linked_len; reflexivity).
  assert (BS : forall x, c_base (cob h2 x) = c_base (cob h x)) by (intros; unfold h2, h1; rewrite !linked_base; reflexivity).
  exists h2.
  split; [unfold join_classes; rewrite (bind_ok _ _ _ _ _ E1); exact E2|].
  split; [|split].
  - constructor; auto.
    + destruct T as (T1 & T2 & T3 & T4 & T5 & T6 & T7). split; [rewrite LN; exact T1|]. split; [intros x y; rewrite BS; apply T2|]. rewrite !BS. auto.
    + intros x y Hx Hy. rewrite SUB. apply UN0; auto.
    + intros x Hx. unfold clive. rewrite LN. apply LV0; auto.
    + rewrite SUB; auto.
    + rewrite SUB; auto.
    + intros x Hx. rewrite SUB. auto.
    + intros x Hx. rewrite NAM. auto.
    + rewrite NAM. auto.
    + rewrite NAM. auto.
    + rewrite Ep. exact X1.
    + rewrite Er. exact X2.
    + change (look true h2 c = Some u). rewrite LK by auto. rewrite !decide_False by tauto. exact SU.
    + change (look false h2 c = Some d). rewrite LK by auto. rewrite !decide_False by tauto. exact SB.
  - apply chain_walk.
    split; [|split; [exact NE|split; [rewrite SUB; exact Tt|split; [rewrite SUB; exact Tb|split]]]].
    + assert (N0 : List.NoDup (cs1 ++ c :: cs2)).
      { rewrite NoDup_ListNoDup in ND0. inversion ND0 as [|? ? _ Q]; subst. apply NoDup_ListNoDup. apply NoDup_ListNoDup in Q. apply NoDup_app in Q. apply Q. }
      rewrite NoDup_ListNoDup. apply NoDup_remove_1 in N0. exact N0.
    + intros x Hx. rewrite SUB. apply IV. apply in_app_iff in Hx. apply in_app_iff. simpl. tauto.
    + replace (t :: (cs1 ++ cs2) ++ [b])%list with (p ++ u :: d :: r)%list.
      * apply walk_app. split; [exact X1|]. split; [|exact X2]. split.
        -- change (look false h2 u = Some d). rewrite LK by auto. rewrite decide_False by (intros [? _]; auto). rewrite decide_True by auto. reflexivity.
        -- change (look true h2 d = Some u). rewrite LK by auto. rewrite decide_True by auto. reflexivity.
      * rewrite <- app_assoc, Er. change (t :: cs1 ++ d :: r)%list with ((t :: cs1) ++ d :: r)%list. rewrite Ep, <- app_assoc. reflexivity.
  - destruct (linked_rest true d u h1) as (R1 & R2 & R3 & R4). destruct (linked_rest false u d h) as (Q1 & Q2 & Q3 & Q4).
    fold h1 in Q1, Q2, Q3, Q4. fold h2 in R1, R2, R3, R4.
    split; [exact SUB|]. split; [exact NAM|]. split; [congruence|]. split; [congruence|]. split; [congruence|]. split; [congruence|]. split; [exact LN|].
    intros k K1 K2. unfold h2, h1. rewrite !linked_other; auto.
Qed.

Section WithEnv.
Context `{Env}.
Opaque span_of.

(** ** The tiers *)
Definition synced (h0 : heap) (o : tierobj) : tierobj :=
  set_t_sub (subset_class h0 (t_ec o)) (set_t_super (superset_class h0 (t_ec o)) o).
Lemma sync_ok : forall ts h, NoDup ts -> (forall t, In t ts -> tlive h t) ->
  exists h', forM ts sync_tier_classes h = Ok tt h' /\ h_cls h' = h_cls h /\ h_seq h' = h_seq h /\ h_grp h' = h_grp h /\ h_grid h' = h_grid h /\
    List.length (h_tier h') = List.length (h_tier h) /\
    (forall t, In t ts -> tob h' t = synced h (tob h t)) /\ (forall t, ~ In t ts -> tob h' t = tob h t).
Proof.
  induction ts as [|t ts IH]; intros h N L.
  - exists h. split; [reflexivity|]. repeat (split; [reflexivity|]). split; [intros t []|auto].
  - apply NoDup_cons in N. destruct N as [Nt N]. rewrite elem_of_list_In in Nt.
    set (h1 := upd_tier t (synced h) h).
    assert (E1 : sync_tier_classes t h = Ok tt h1).
    { unfold sync_tier_classes. mstep. mstep. mstep. mstep. unfold mod_tier, modify, h1, upd_tier. cbn [h_tier]. f_equal. f_equal.
      rewrite <- list_alter_compose. apply list_alter_ext; [|reflexivity]. intros x Hx. unfold synced, compose. unfold tob. rewrite Hx. reflexivity. }
    destruct (IH h1 N) as (h' & E2 & A1 & A2 & A3 & A4 & A5 & A6 & A7).
    { intros u Hu. unfold h1. rewrite tlive_upd. apply L. simpl; auto. }
    exists h'. split; [cbn [forM]; rewrite (bind_ok _ _ _ _ _ E1); exact E2|].
    split; [exact A1|]. split; [exact A2|]. split; [exact A3|]. split; [exact A4|]. split; [rewrite A5; unfold h1; apply len_upd_tier|].
    split.
    + intros u [<-|Hu].
      * rewrite A7 by exact Nt. unfold h1. apply tob_upd_eq. apply L. simpl; auto.
      * rewrite A6 by exact Hu. unfold h1. rewrite tob_upd_ne by (intros ->; contradiction). reflexivity.
    + intros u Hu. rewrite A7 by (intros Q; apply Hu; simpl; auto). unfold h1. apply tob_upd_ne. intros ->. apply Hu. simpl. auto.
Qed.
Lemma synced_chain h h' ts t cs b : class_chain h t cs b -> h_cls h' = h_cls h ->
  (forall k, In k ts -> tob h' k = synced h (tob h k)) -> map (fun k => t_ec (tob h k)) ts = cs ->
  (forall k, In k ts -> tlive h' k /\ issubclass h (t_ec (tob h k)) cTop = false /\ issubclass h (t_ec (tob h k)) cBottom = false) ->
  tier_chain h' ts /\ classes_joined h' ts.
Proof.
  intros (C1 & C2 & C3 & C4 & C5 & C6) Ec Et Em Lk.
  assert (El : forall k, In k ts -> t_ec (tob h' k) = t_ec (tob h k)) by (intros k Hk; rewrite (Et k Hk); reflexivity).
  assert (Pr : forall A k u B, ts = (A ++ k :: u :: B)%list -> subset_class h (t_ec (tob h k)) = Some (t_ec (tob h u)) /\ superset_class h (t_ec (tob h u)) = Some (t_ec (tob h k))).
  { intros A k u B Q. rewrite Q, map_app in Em. cbn [map] in Em.
    assert (Nn : (nth_error (t :: cs ++ [b]) (S (List.length A)) = Some (t_ec (tob h k)) /\
      nth_error (t :: cs ++ [b]) (S (S (List.length A))) = Some (t_ec (tob h u)))%list).
    { rewrite !ClassFinal.nth_S, <- Em, <- app_assoc. split.
      - rewrite nth_error_app2 by (rewrite map_length; lia). rewrite map_length, Nat.sub_diag. reflexivity.
      - rewrite nth_error_app2 by (rewrite map_length; lia). rewrite map_length. replace (S (List.length A) - List.length A)%nat with 1%nat by lia. reflexivity. }
    apply (C6 (S (List.length A))); apply Nn. }
  assert (Sx : forall x, subset_class h' x = subset_class h x) by (intros x; apply subset_class_ext; exact Ec).
  split.
  - split; [|split; [|split; [|split]]].
    + assert (G : forall B A, ts = (A ++ B)%list -> joined_tiers h' B).
      { induction B as [|k B IHB]; intros A Q; [exact I|]. destruct B as [|u B]; [exact I|]. destruct (Pr A k u B Q) as [P1 P2].
        assert (Ik : In k ts) by (rewrite Q; apply in_app_iff; simpl; auto). assert (Iu : In u ts) by (rewrite Q; apply in_app_iff; simpl; auto).
        split; [|split].
        - rewrite (Et k Ik), (El u Iu). exact P1.
        - rewrite (Et u Iu), (El k Ik). exact P2.
        - apply (IHB (A ++ [k])%list). rewrite <- app_assoc. exact Q. }
      apply (G ts []). reflexivity.
    + rewrite (map_ext_in _ (fun k => t_ec (tob h k))) by exact El. rewrite Em. exact C1.
    + intros k Hk. destruct (Lk k Hk) as (L1 & L2 & L3). rewrite (El k Hk), !(issubclass_ext h h') by exact Ec. auto.
    + destruct ts as [|k ts]; [exfalso; apply C2; symmetry; exact Em|]. exists k. split; [reflexivity|]. exists t.
      rewrite (Et k) by (simpl; auto). rewrite (issubclass_ext h h') by exact Ec. split; [|exact C3].
      cbn [map] in Em. destruct (C6 O t (t_ec (tob h k))) as [_ Q]; [reflexivity|rewrite <- Em; reflexivity|exact Q].
    + destruct ts as [|k ts _] using rev_ind; [exfalso; apply C2; symmetry; exact Em|]. exists k. rewrite rev_app_distr. split; [reflexivity|].
      exists b. rewrite (Et k) by (apply in_app_iff; simpl; auto). rewrite (issubclass_ext h h') by exact Ec. split; [|exact C4].
      rewrite map_app in Em. cbn [map] in Em. destruct (C6 (S (List.length ts)) (t_ec (tob h k)) b) as [Q _]; [| |exact Q].
      * rewrite ClassFinal.nth_S, <- Em, <- app_assoc. rewrite nth_error_app2 by (rewrite map_length; lia). rewrite map_length, Nat.sub_diag. reflexivity.
      * rewrite ClassFinal.nth_S, <- Em, <- app_assoc. rewrite nth_error_app2 by (rewrite map_length; lia). rewrite map_length.
        replace (S (List.length ts) - List.length ts)%nat with 1%nat by lia. reflexivity.
  - assert (G : forall B A, ts = (A ++ B)%list -> classes_joined h' B).
    { induction B as [|k B IHB]; intros A Q; [exact I|]. destruct B as [|u B]; [exact I|]. destruct (Pr A k u B Q) as [P1 P2].
      assert (Ik : In k ts) by (rewrite Q; apply in_app_iff; simpl; auto). assert (Iu : In u ts) by (rewrite Q; apply in_app_iff; simpl; auto).
      split; [rewrite Sx, (El k Ik), (El u Iu); exact P1|]. apply (IHB (A ++ [k])%list). rewrite <- app_assoc. exact Q. }
    apply (G ts []). reflexivity.
Qed.

(** ** The intervals *)
Lemma tiles_compose h : forall b bs s e, tiles h s b e -> Forall2 (fills h) b bs -> tiles h s (concat bs) e.
Proof.
  induction b as [|x b IH]; intros bs s e T F; inversion F as [|? y ? bs' F1 F2]; subst; [exact T|].
  destruct T as (m & A & B & C & T). cbn [concat]. destruct F1 as (s' & e' & Q1 & Q2 & _ & Q3).
  assert (s' = s) by congruence. assert (e' = m) by congruence. subst. eapply tiles_join; [exact Q3|]. apply IH; auto.
Qed.
Lemma fills_compose h : forall U bs cs, Forall2 (fills h) U bs -> Forall2 (fills h) (concat bs) cs ->
  exists ds, concat ds = concat cs /\ Forall2 (fills h) U ds.
Proof.
  induction U as [|u U IH]; intros bs cs F G; inversion F as [|? b ? bs' F1 F2]; subst.
  - inversion G; subst. exists []. split; [reflexivity|constructor].
  - cbn [concat] in G. apply Forall2_app_inv_l in G. destruct G as (c1 & c2 & G1 & G2 & ->).
    destruct (IH bs' c2 F2 G2) as (ds & D1 & D2). exists (concat c1 :: ds). split; [cbn [concat]; rewrite D1, concat_app; reflexivity|].
    constructor; [|exact D2]. destruct F1 as (s & e & A & B & C & T). exists s, e. split; [exact A|]. split; [exact B|]. split; [exact C|].
    eapply tiles_compose; eauto.
Qed.
Lemma snug_drop h p : forall ts1 ts2 bss, snug h (ts1 ++ p :: ts2) bss -> (ts1 ++ ts2)%list <> [] ->
  exists bss', snug h (ts1 ++ ts2) bss'.
Proof.
  induction ts1 as [|u ts1 IH]; intros ts2 bss S N.
  - cbn [app] in *. destruct ts2 as [|q r]; [congruence|]. destruct bss as [|bs bss]; [destruct S|]. rewrite snug_cons in S. exists bss. apply S.
  - destruct ts1 as [|v ts1].
    + cbn [app] in *. destruct bss as [|bs bss]; [destruct S|]. rewrite snug_cons in S. destruct S as (S1 & S2 & S3).
      destruct ts2 as [|q r]; [exists []; exact I|]. destruct bss as [|cs bss]; [destruct S3|]. rewrite snug_cons in S3. destruct S3 as (S3 & S4 & S5).
      rewrite <- S1 in S4. destruct (fills_compose h _ _ _ S2 S4) as (ds & D1 & D2). exists (ds :: bss). rewrite snug_cons. split; [congruence|]. auto.
    + cbn [app] in S. destruct bss as [|bs bss]; [destruct S|]. rewrite snug_cons in S. destruct S as (S1 & S2 & S3).
      destruct (IH ts2 bss S3) as (bss' & S'); [discriminate|]. exists (bs :: bss'). cbn [app]. rewrite snug_cons. auto.
Qed.

(** ** Removing the children of an interval *)
Definition cleared (o : seqobj) : seqobj := set_s_contains (CList []) (set_s_subec None (set_s_subset [] o)).
Definition orphan (o : seqobj) : seqobj := set_s_within None (set_s_super None o).
Definition clear_one (x : oid) : M unit := subset_setter x [] ;;; mod_seq x (set_s_contains (CList [])).
Lemma upd_upd x f g h : upd_seq x f (upd_seq x g h) = upd_seq x (fun o => f (g o)) h.
Proof. unfold upd_seq. cbn [h_cls h_seq h_tier h_grp h_grid]. f_equal. symmetry. apply (list_alter_compose f g). Qed.
Lemma orphan_loop x : forall b h, s_subset (sob h x) = [] -> NoDup b -> ~ In x b ->
  (forall y, In y b -> live h y /\ s_super (sob h y) = Some x) ->
  forM b (fun o => isin <- gets (fun h => sl_contains h (s_subset (sob h x)) o) ;;
    if (isin : bool) then ret tt else remove_superset o) h = Ok tt (upds orphan b h).
Proof.
  induction b as [|y b IH]; intros h Sx N Nx K; [reflexivity|]. apply NoDup_cons in N. destruct N as [Ny N]. rewrite elem_of_list_In in Ny.
  destruct (K y) as [Ly Sy]; [simpl; auto|]. cbn [forM upds].
  assert (Ne : y <> x) by (intros ->; apply Nx; simpl; auto).
  assert (E : remove_superset y h = Ok tt (upd_seq y orphan h)).
  { unfold remove_superset. rewrite Sy, Sx. cbn [List.length remove_superset_n]. mstep. rewrite Sy. mstep. rewrite Sx. change (sl_contains h [] y) with false. cbv iota.
    rewrite bind_ret. mstep. unfold mod_seq, modify. f_equal. apply (upd_upd y (set_s_within None) (set_s_super None) h). }
  rewrite (bind_ok _ _ _ tt (upd_seq y orphan h)).
  - apply IH; auto.
    + rewrite sob_upd_ne by auto. exact Sx.
    + intros Q. apply Nx. simpl; auto.
    + intros z Hz. rewrite live_upd. destruct (K z) as [Lz Sz]; [simpl; auto|]. split; [exact Lz|]. rewrite sob_upd_ne by (intros ->; contradiction). exact Sz.
  - mstep. rewrite Sx. exact E.
Qed.
Lemma clear_one_ok x b h : live h x -> s_subset (sob h x) = b -> NoDup b -> ~ In x b ->
  (forall y, In y b -> live h y /\ s_super (sob h y) = Some x) ->
  exists h', clear_one x h = Ok tt h' /\ same_rest h h' /\ List.length (h_seq h') = List.length (h_seq h) /\
    sob h' x = cleared (sob h x) /\ (forall y, In y b -> sob h' y = orphan (sob h y)) /\
    (forall i, i <> x -> ~ In i b -> sob h' i = sob h i).
Proof.
  intros Lx Sx N Nx K.
  set (f := fun o => set_s_contains (unalias (s_contains o) (s_subset o)) (set_s_subec None (set_s_subset [] o))).
  set (h1 := upd_seq x (set_s_contains CAlias) (upd_seq x f h)).
  assert (L1 : forall i, live h1 i <-> live h i) by (intros; unfold h1; rewrite !live_upd; reflexivity).
  assert (S1 : sob h1 x = set_s_contains CAlias (f (sob h x))).
  { unfold h1. rewrite sob_upd_eq by (apply live_upd; exact Lx). rewrite sob_upd_eq by exact Lx. reflexivity. }
  assert (O1 : forall i, i <> x -> sob h1 i = sob h i) by (intros i Hi; unfold h1; rewrite !sob_upd_ne by auto; reflexivity).
  assert (E1 : set_subset_list x [] h = Ok tt h1).
  { unfold set_subset_list. mstep. cbn [mapM]. rewrite bind_ret. cbn [forallb]. cbv iota.
    rewrite (bind_ok _ _ _ sl_empty h) by reflexivity. unfold rebind_subset. mstep. cbn [forM]. rewrite bind_ret.
    unfold seq_set_contains. rewrite bind_assoc. rewrite bind_get_seq. rewrite bind_assoc. mstep.
    assert (S0 : s_subset (sob (upd_seq x (fun o => set_s_contains (unalias (s_contains o) (s_subset o)) (set_s_subec (sv_ec sl_empty) (set_s_subset (sv_vals sl_empty) o))) h) x) = []).
    { rewrite sob_upd_eq by exact Lx. reflexivity. }
    rewrite S0. cbn [forM]. rewrite bind_ret. unfold set_subset_precedence. mstep.
    rewrite sob_upd_eq by (apply live_upd; exact Lx). rewrite sob_upd_eq by exact Lx. reflexivity. }
  set (h2 := upds orphan b h1). set (h3 := upd_seq x (set_s_contains (CList [])) h2).
  exists h3. split.
  { unfold clear_one, subset_setter. rewrite bind_assoc. rewrite bind_gets. rewrite bind_assoc.
    rewrite (bind_ok _ _ _ sl_empty h) by reflexivity. rewrite bind_assoc. change (sv_vals sl_empty) with (@nil oid). rewrite (bind_ok _ _ _ _ _ E1).
    rewrite Sx. rewrite (bind_ok _ _ _ tt h2); [reflexivity|]. apply orphan_loop; auto.
    - rewrite S1. reflexivity.
    - intros y Hy. destruct (K y Hy) as [Ly Sy]. rewrite L1, O1 by (intros ->; contradiction). auto. }
  assert (R2 : forall l g, same_rest g (upds orphan l g)).
  { induction l as [|z l IHl]; intros g; [repeat split|]. cbn [upds]. destruct (IHl (upd_seq z orphan g)) as (Q1 & Q2 & Q3 & Q4). repeat split; assumption. }
  split; [|split; [|split; [|split]]].
  - destruct (R2 b h1) as (Q1 & Q2 & Q3 & Q4). repeat split; assumption.
  - unfold h3. rewrite len_upd_seq. unfold h2. rewrite len_upds. unfold h1. rewrite !len_upd_seq. reflexivity.
  - unfold h3. rewrite sob_upd_eq by (unfold h2; rewrite live_upds; apply L1; exact Lx). unfold h2. rewrite sob_upds_notin by exact Nx. rewrite S1. reflexivity.
  - intros y Hy. assert (Ne : y <> x) by (intros ->; contradiction). unfold h3. rewrite sob_upd_ne by exact Ne. unfold h2.
    rewrite sob_upds_in; auto; [rewrite O1; auto|]. apply L1. apply K. exact Hy.
  - intros i Ni Nb. unfold h3. rewrite sob_upd_ne by exact Ni. unfold h2. rewrite sob_upds_notin by exact Nb. apply O1. exact Ni.
Qed.
Definition kids (h : heap) (x : oid) (b : list oid) : Prop :=
  s_subset (sob h x) = b /\ forall y, In y b -> live h y /\ s_super (sob h y) = Some x.
Lemma clear_all : forall l bs h, NoDup l -> (forall x, In x l -> live h x) -> Forall2 (kids h) l bs -> NoDup (concat bs) ->
  (forall y, In y (concat bs) -> ~ In y l) ->
  exists h', forM l clear_one h = Ok tt h' /\ same_rest h h' /\ List.length (h_seq h') = List.length (h_seq h) /\
    (forall x, In x l -> sob h' x = cleared (sob h x)) /\ (forall y, In y (concat bs) -> sob h' y = orphan (sob h y)) /\
    (forall i, ~ In i l -> ~ In i (concat bs) -> sob h' i = sob h i).
Proof.
  induction l as [|x l IH]; intros bs h N L F Nb D; inversion F as [|? b ? bs' F1 F2]; subst.
  - exists h. split; [reflexivity|]. split; [repeat split|]. split; [reflexivity|]. split; [intros x []|]. split; [intros y []|auto].
  - apply NoDup_cons in N. destruct N as [Nx N]. rewrite elem_of_list_In in Nx. cbn [concat] in Nb, D. destruct F1 as [Sx Kx].
    apply NoDup_app in Nb. destruct Nb as (Nb1 & Nb2 & Nb3).
    assert (Dj : forall y, In y b -> ~ In y (concat bs')) by (intros y Hy Q; apply (Nb2 y); apply elem_of_list_In; auto).
    assert (Db : forall y, In y b -> ~ In y (x :: l)) by (intros y Hy; apply D; apply in_app_iff; auto).
    assert (Dc : forall y, In y (concat bs') -> ~ In y (x :: l)) by (intros y Hy; apply D; apply in_app_iff; auto).
    destruct (clear_one_ok x b h) as (h1 & E1 & R1 & L1 & X1 & B1 & O1); auto.
    { apply L; simpl; auto. } { intros Q. apply (Db x Q). simpl; auto. }
    assert (Ol : forall i, In i l -> sob h1 i = sob h i).
    { intros i Hi. apply O1; [intros ->; contradiction|]. intros Q. apply (Db i Q). simpl; auto. }
    assert (Oc : forall i, In i (concat bs') -> sob h1 i = sob h i).
    { intros i Hi. apply O1; [intros ->; apply (Dc x Hi); simpl; auto|]. intros Q. apply (Dj i Q Hi). }
    destruct (IH bs' h1 N) as (h' & E2 & R2 & L2 & X2 & B2 & O2); auto.
    { intros i Hi. unfold live. rewrite L1. apply L. simpl; auto. }
    { eapply Forall2_weaken; [exact F2|]. intros z c Hz Hc [Q1 Q2]. split; [rewrite Ol by exact Hz; exact Q1|]. intros y Hy.
      destruct (Q2 y Hy) as [Q3 Q4]. split; [unfold live in *; lia|]. rewrite Oc; [exact Q4|]. eapply in_concat'; eauto. }
    { intros y Hy Q. apply (Dc y Hy). simpl; auto. }
    exists h'. split; [cbn [forM]; rewrite (bind_ok _ _ _ _ _ E1); exact E2|].
    split; [destruct R1 as (P1 & P2 & P3 & P4), R2 as (Q1 & Q2 & Q3 & Q4); repeat split; congruence|].
    split; [congruence|]. split; [|split].
    + intros z [<-|Hz]; [|rewrite X2, Ol by exact Hz; reflexivity]. rewrite O2; [exact X1|exact Nx|]. intros Q. apply (Dc x Q). simpl; auto.
    + intros y Hy. cbn [concat] in Hy. apply in_app_iff in Hy. destruct Hy as [Hy|Hy]; [|rewrite B2, Oc by exact Hy; reflexivity].
      rewrite O2; [apply B1, Hy| |apply Dj, Hy]. intros Q. apply (Db y Hy). simpl; auto.
    + intros i Ni Nc. cbn [concat] in Nc. rewrite in_app_iff in Nc. rewrite O2, O1; auto; intros Q; apply Ni; simpl; auto.
Qed.

(** ** Groups that did not take part *)
Definition laid (h : heap) (ts : list tid) (bss : list (list (list oid))) : Prop :=
  (forall t, In t ts -> tlive h t /\ linkable h (t_ec (tob h t)) (t_seq (tob h t)) /\ issubclass h (t_ec (tob h t)) cPoint = false /\
     issubclass h (t_ec (tob h t)) cTop = false /\ issubclass h (t_ec (tob h t)) cBottom = false) /\
  NoDup (map (fun t => t_ec (tob h t)) ts) /\ snug h ts bss /\ related_tiers h ts bss /\ bare_bottom h ts /\
  (forall t, hd_error ts = Some t -> in_turn h (t_seq (tob h t)) /\
     forall x, In x (t_seq (tob h t)) -> dated h x /\ s_super (sob h x) = None).
Lemma good_laid h g ts bss : good_group h g ts bss -> bare_bottom h ts -> laid h ts bss.
Proof.
  intros (_ & _ & _ & _ & (_ & C2 & C3 & _) & _ & S & R & Ok & Tp) B. split; [|split; [exact C2|split; [exact S|split; [exact R|split; [exact B|exact Tp]]]]].
  intros t Ht. destruct (Ok t Ht) as (_ & Q1 & Q2). destruct (C3 t Ht) as (Q3 & Q4 & Q5). auto.
Qed.
Lemma laid_fit h ts bss : laid h ts bss -> forall t, In t ts -> fit_tier h t.
Proof.
  intros (Ok & N & S & R & _ & Tp) t Ht. destruct (Ok t Ht) as (_ & Lk & Np & _). split; [exact Lk|]. split; [exact Np|].
  intros x Hx p Hp. destruct ts as [|t0 ts]; [destruct Ht|]. destruct Ht as [->|Ht].
  - destruct (Tp t eq_refl) as (_ & Q). destruct (Q x Hx) as [_ Q2]. congruence.
  - destruct (related_fit h (t0 :: ts) bss S R N ltac:(intros k Hk; apply (Ok k Hk)) t x Ht Hx) as (u & q & b & Q1 & Q2 & Q3 & Q4 & Q5 & Q6 & Q7 & Q8 & Q9).
    assert (q = p) by congruence. subst q. destruct (Ok u Q1) as (_ & (_ & Ku) & _). split; [apply Ku, Q2|]. split; [exact Q7|]. split; [rewrite Q4; exact Q5|exact Q9].
Qed.
(** Whatever is involved is in a tier. *)
Lemma laid_involved h ts bss : laid h ts bss -> forall i, involved h ts i -> exists t, In t ts /\ In i (t_seq (tob h t)).
Proof.
  intros (Ok & N & S & R & _ & Tp) i (t & x & Ht & Hx & [->|(p & Hp & Q)]); [eauto|].
  destruct ts as [|t0 ts]; [destruct Ht|]. destruct Ht as [->|Ht].
  - destruct (Tp t eq_refl) as (_ & Q'). destruct (Q' x Hx) as [_ Q2]. congruence.
  - destruct (related_fit h (t0 :: ts) bss S R N ltac:(intros k Hk; apply (Ok k Hk)) t x Ht Hx) as (u & q & b & Q1 & Q2 & Q3 & Q4 & Q5 & Q6 & Q7 & Q8 & Q9).
    assert (q = p) by congruence. subst q. destruct Q as [->|Q]; [eauto|]. exists t. split; [simpl; auto|]. apply Q8. rewrite <- Q4. exact Q.
Qed.
Lemma related_same h h' : forall ts bss, snug h ts bss -> (forall t, In t ts -> t_seq (tob h' t) = t_seq (tob h t)) ->
  (forall k, is_boundary h k -> is_boundary h' k) ->
  (forall t x, In t ts -> In x (t_seq (tob h t)) -> s_super (sob h' x) = s_super (sob h x) /\ s_within (sob h' x) = s_within (sob h x) /\
     s_prev (sob h' x) = s_prev (sob h x) /\ s_fol (sob h' x) = s_fol (sob h x)) ->
  (forall t x, In t (removelast ts) -> In x (t_seq (tob h t)) -> s_subset (sob h' x) = s_subset (sob h x)) ->
  related_tiers h ts bss -> related_tiers h' ts bss.
Proof.
  induction ts as [|t ts IH]; intros bss S Et Bd Es Ek R; [exact R|]. destruct ts as [|u r]; [exact R|].
  destruct bss as [|bs bss]; [exact R|]. rewrite snug_cons in S. rewrite related_cons in *. destruct S as (S1 & _ & S3). destruct R as [R1 R2].
  split.
  2:{ apply IH; auto; [intros k Hk; apply Et; right; exact Hk|intros k x Hk; apply Es; right; exact Hk|intros k x Hk; apply Ek; right; exact Hk]. }
  rewrite (Et t) by (simpl; auto). eapply Forall2_weaken; [exact R1|]. intros x b Hx Hb (P1 & P2 & P3).
  assert (Hin : forall y, In y b -> In y (t_seq (tob h u))) by (intros y Hy; rewrite <- S1; eapply in_concat'; eauto).
  split; [rewrite (Ek t) by (simpl; auto); exact P1|]. split.
  - eapply chained_ext; [|exact Bd|exact P2]. intros y Hy. destruct (Es u y) as (_ & _ & A & B); [simpl; auto|auto|auto].
  - intros y Hy. destruct (Es u y) as (A & B & _); [simpl; auto|auto|]. rewrite A, B. auto.
Qed.
Lemma laid_more h h' ts bss : (forall t, In t ts -> t_seq (tob h' t) = t_seq (tob h t) /\ t_ec (tob h' t) = t_ec (tob h t)) ->
  (List.length (h_tier h) <= List.length (h_tier h'))%nat -> (List.length (h_seq h) <= List.length (h_seq h'))%nat ->
  (forall t x, In t ts -> In x (t_seq (tob h t)) -> sob h' x = sob h x) ->
  (forall k, is_boundary h k -> is_boundary h' k) -> (forall t y, In t ts -> issubclass h' (t_ec (tob h t)) y = issubclass h (t_ec (tob h t)) y) ->
  laid h ts bss -> laid h' ts bss.
Proof.
  intros Et Lt Ls Es Bd Sb (Ok & N & S & R & B & Tp).
  assert (Ea : forall t, In t ts -> t_seq (tob h' t) = t_seq (tob h t)) by (intros t Ht; apply Et, Ht).
  assert (Eb : forall t, In t ts -> t_ec (tob h' t) = t_ec (tob h t)) by (intros t Ht; apply Et, Ht).
  split; [|split; [|split; [|split; [|split]]]].
  - intros t Ht. destruct (Ok t Ht) as (Q1 & (Q2 & Q3) & Q4 & Q5 & Q6). rewrite Ea, Eb, !Sb by exact Ht. split; [unfold tlive in *; lia|]. split; [|auto].
    split; [exact Q2|]. intros x Hx. destruct (Q3 x Hx) as (Q7 & Q8 & Q9). rewrite (Es t) by auto. split; [lia|auto].
  - rewrite (map_ext_in _ (fun t => t_ec (tob h t))) by exact Eb. exact N.
  - apply (snug_same h h'); auto. intros t x Ht Hx. rewrite (Es t) by auto. auto.
  - apply (related_same h h'); auto; [intros t x Ht Hx; rewrite (Es t) by auto; auto|].
    intros t x Ht Hx. rewrite (Es t); auto. apply in_removelast. exact Ht.
  - intros t x Ht Hx. assert (It : In t ts) by (apply in_rev; destruct (rev ts); [discriminate|injection Ht as ->; simpl; auto]).
    rewrite Ea in Hx by exact It. rewrite (Es t) by auto. apply (B t); auto.
  - intros t Ht. assert (It : In t ts) by (destruct ts; [discriminate|injection Ht as ->; simpl; auto]).
    rewrite Ea by exact It. destruct (Tp t Ht) as [T1 T2]. split.
    + apply (in_turn_same h h'); [|exact T1]. intros x Hx. rewrite (Es t) by auto. auto.
    + intros x Hx. rewrite (Es t) by auto. destruct (T2 x Hx) as [D1 D2]. split; [|exact D2]. apply (dated_same h h'); [| |exact D1]; rewrite (Es t) by auto; auto.
Qed.
Lemma laid_grow h h' ts bss : (forall t, In t ts -> t_seq (tob h' t) = t_seq (tob h t) /\ t_ec (tob h' t) = t_ec (tob h t)) ->
  (List.length (h_tier h) <= List.length (h_tier h'))%nat -> (List.length (h_seq h) <= List.length (h_seq h'))%nat ->
  (forall t x, In t ts -> In x (t_seq (tob h t)) -> sob h' x = sob h x) ->
  (forall k, is_boundary h k -> is_boundary h' k) -> (forall x y, issubclass h' x y = issubclass h x y) ->
  laid h ts bss -> laid h' ts bss.
Proof. intros A B C D E F. apply (laid_more h h' ts bss A B C D E). intros t y _. apply F. Qed.
Lemma laid_same h h' ts bss : (forall t, In t ts -> t_seq (tob h' t) = t_seq (tob h t) /\ t_ec (tob h' t) = t_ec (tob h t)) ->
  List.length (h_tier h') = List.length (h_tier h) -> (List.length (h_seq h) <= List.length (h_seq h'))%nat ->
  (forall t x, In t ts -> In x (t_seq (tob h t)) -> sob h' x = sob h x) ->
  (forall k, is_boundary h k -> is_boundary h' k) -> (forall x y, issubclass h' x y = issubclass h x y) ->
  laid h ts bss -> laid h' ts bss.
Proof. intros A B. apply (laid_grow h h' ts bss A). lia. Qed.
Lemma good_grow_at h h' g ts bss : (g < List.length (h_grp h'))%nat -> g_points (gob h' g) = g_points (gob h g) -> g_tiers (gob h' g) = g_tiers (gob h g) ->
  g_contains (gob h' g) = g_contains (gob h g) -> (forall t, In t ts -> tob h' t = tob h t) ->
  (List.length (h_tier h) <= List.length (h_tier h'))%nat -> (List.length (h_seq h) <= List.length (h_seq h'))%nat ->
  (forall t x, In t ts -> In x (t_seq (tob h t)) -> kept (sob h x) (sob h' x) /\
     s_super (sob h' x) = s_super (sob h x) /\ s_within (sob h' x) = s_within (sob h x) /\
     s_prev (sob h' x) = s_prev (sob h x) /\ s_fol (sob h' x) = s_fol (sob h x)) ->
  (forall t x, In t (removelast ts) -> In x (t_seq (tob h t)) -> s_subset (sob h' x) = s_subset (sob h x)) ->
  (forall k, is_boundary h k -> is_boundary h' k) -> (forall t y, In t ts -> issubclass h' (t_ec (tob h t)) y = issubclass h (t_ec (tob h t)) y) ->
  (forall x y, (y < 5)%nat -> issubclass h x y = true -> issubclass h' x y = true) ->
  classes_joined h' ts -> good_group h g ts bss -> good_group h' g ts bss.
Proof.
  intros Lg Gp Gt Gc Et Lt Ls Es Ek Bd Sb Sc Cj (_ & G2 & G3 & G4 & (C1 & C2 & C3 & C4 & C5) & _ & S & R & Ok & Tp).
  split; [exact Lg|]. split; [congruence|]. split; [congruence|]. split; [simpl in *; rewrite Gt, Gc; exact G4|].
  split; [|split; [exact Cj|split; [|split; [|split]]]].
  - split; [|split; [|split; [|split]]].
    + clear -C1 Et. induction ts as [|t ts IH]; [exact I|]. destruct ts as [|u r]; [exact I|]. destruct C1 as (J1 & J2 & J3).
      split; [rewrite !Et by (simpl; auto); exact J1|]. split; [rewrite !Et by (simpl; auto); exact J2|]. apply IH; [|exact J3]. intros k Hk. apply Et. right. exact Hk.
    + rewrite (map_ext_in _ (fun t => t_ec (tob h t))); [exact C2|]. intros t Ht. rewrite Et by exact Ht. reflexivity.
    + intros t Ht. rewrite Et, !Sb by exact Ht. destruct (C3 t Ht) as (K1 & K2). split; [lia|exact K2].
    + destruct C4 as (t & Ht & c & A & B). exists t. split; [exact Ht|]. exists c. assert (It : In t ts) by (destruct ts; [discriminate|injection Ht as ->; simpl; auto]). rewrite Et by exact It. split; [exact A|]. apply Sc; [cbv; lia|exact B].
    + destruct C5 as (t & Ht & c & A & B). exists t. split; [exact Ht|]. exists c. assert (It : In t ts) by (apply in_rev; destruct (rev ts); [discriminate|injection Ht as ->; simpl; auto]). rewrite Et by exact It. split; [exact A|]. apply Sc; [cbv; lia|exact B].
  - apply (snug_same h h'); [intros t Ht; rewrite Et by exact Ht; reflexivity| |exact S]. intros t x Ht Hx. destruct (Es t x Ht Hx) as ((_ & Q1 & Q2 & _) & _). auto.
  - apply (related_same h h'); auto; [intros t Ht; rewrite Et by exact Ht; reflexivity|]. intros t x Ht Hx. apply (Es t x Ht Hx).
  - intros t Ht. destruct (Ok t Ht) as (Q1 & (Q2 & Q3) & Q4). rewrite Et, Sb by exact Ht. split; [exact Q1|]. split; [|exact Q4]. split; [exact Q2|].
    intros x Hx. destruct (Q3 x Hx) as (Q7 & Q8 & Q9). destruct (Es t x Ht Hx) as ((K1 & _ & _ & K4 & _) & _). split; [lia|]. split; congruence.
  - intros t Ht. assert (It : In t ts) by (destruct ts; [discriminate|injection Ht as ->; simpl; auto]).
    rewrite Et by exact It. destruct (Tp t Ht) as [T1 T2].
    assert (Ks : forall x, In x (t_seq (tob h t)) -> s_start (sob h' x) = s_start (sob h x) /\ s_end (sob h' x) = s_end (sob h x)).
    { intros x Hx. destruct (Es t x It Hx) as ((_ & Q1 & Q2 & _) & _). auto. }
    split; [apply (in_turn_same h h'); auto|]. intros x Hx. destruct (T2 x Hx) as [D1 D2]. destruct (Es t x It Hx) as (_ & Q & _). split; [|congruence].
    apply (dated_same h h'); auto; apply Ks, Hx.
Qed.
Lemma good_grow h h' g ts bss : (g < List.length (h_grp h'))%nat -> g_points (gob h' g) = g_points (gob h g) -> g_tiers (gob h' g) = g_tiers (gob h g) ->
  g_contains (gob h' g) = g_contains (gob h g) -> (forall t, In t ts -> tob h' t = tob h t) ->
  (List.length (h_tier h) <= List.length (h_tier h'))%nat -> (List.length (h_seq h) <= List.length (h_seq h'))%nat ->
  (forall t x, In t ts -> In x (t_seq (tob h t)) -> kept (sob h x) (sob h' x) /\
     s_super (sob h' x) = s_super (sob h x) /\ s_within (sob h' x) = s_within (sob h x) /\
     s_prev (sob h' x) = s_prev (sob h x) /\ s_fol (sob h' x) = s_fol (sob h x)) ->
  (forall t x, In t (removelast ts) -> In x (t_seq (tob h t)) -> s_subset (sob h' x) = s_subset (sob h x)) ->
  (forall k, is_boundary h k -> is_boundary h' k) -> (forall x y, issubclass h' x y = issubclass h x y) ->
  classes_joined h' ts -> good_group h g ts bss -> good_group h' g ts bss.
Proof. intros A1 A2 A3 A4 A5 B C D E F G. apply (good_grow_at h h' g ts bss A1 A2 A3 A4 A5 B C D E F); intros; rewrite G; auto. Qed.
Lemma good_same h h' g ts bss : (g < List.length (h_grp h'))%nat -> g_points (gob h' g) = g_points (gob h g) -> g_tiers (gob h' g) = g_tiers (gob h g) ->
  g_contains (gob h' g) = g_contains (gob h g) -> (forall t, In t ts -> tob h' t = tob h t) ->
  List.length (h_tier h') = List.length (h_tier h) -> (List.length (h_seq h) <= List.length (h_seq h'))%nat ->
  (forall t x, In t ts -> In x (t_seq (tob h t)) -> kept (sob h x) (sob h' x) /\
     s_super (sob h' x) = s_super (sob h x) /\ s_within (sob h' x) = s_within (sob h x) /\
     s_prev (sob h' x) = s_prev (sob h x) /\ s_fol (sob h' x) = s_fol (sob h x)) ->
  (forall t x, In t (removelast ts) -> In x (t_seq (tob h t)) -> s_subset (sob h' x) = s_subset (sob h x)) ->
  (forall k, is_boundary h k -> is_boundary h' k) -> (forall x y, issubclass h' x y = issubclass h x y) ->
  classes_joined h' ts -> good_group h g ts bss -> good_group h' g ts bss.
Proof. intros A1 A2 A3 A4 A5 B. apply (good_grow h h' g ts bss A1 A2 A3 A4 A5). lia. Qed.

(** ** One group *)
Record pframe (G : list gid) (T : list tid) (h h' : heap) : Prop := {
  pf_content : same_content T h h';
  pf_bd : forall k, is_boundary h k -> is_boundary h' k;
  pf_sub : forall x y, issubclass h' x y = issubclass h x y;
  pf_name : forall x, class_name h' x = class_name h x;
  pf_grid : h_grid h' = h_grid h;
  pf_glen : (List.length (h_grp h) <= List.length (h_grp h'))%nat;
  pf_grp : forall k, (k < List.length (h_grp h))%nat -> ~ In k G -> gob h' k = gob h k;
  pf_clen : List.length (h_cls h') = List.length (h_cls h)
}.
Lemma related_last h p z : forall ts bss, snug h (ts ++ [z; p]) bss -> related_tiers h (ts ++ [z; p]) bss ->
  exists bs, concat bs = t_seq (tob h p) /\ Forall2 (parent_of h) (t_seq (tob h z)) bs.
Proof.
  induction ts as [|t ts IH]; intros bss S R; cbn [app] in *.
  - destruct bss as [|bs bss]; [destruct S|]. rewrite snug_cons in S. rewrite related_cons in R. exists bs. split; [apply S|apply R].
  - destruct (ts ++ [z; p])%list as [|u r] eqn:E; [destruct ts; discriminate|]. destruct bss as [|bs bss]; [destruct S|].
    rewrite snug_cons in S. rewrite related_cons in R. apply (IH bss); [apply S|apply R].
Qed.
Lemma laid_levels h ts : forall bss, snug h ts bss ->
  (forall t, hd_error ts = Some t -> in_turn h (t_seq (tob h t)) /\ forall x, In x (t_seq (tob h t)) -> dated h x) ->
  forall t, In t ts -> in_turn h (t_seq (tob h t)) /\ forall x, In x (t_seq (tob h t)) -> dated h x.
Proof.
  induction ts as [|t ts IH]; intros bss S Hd t' Ht; [destruct Ht|]. destruct Ht as [<-|Ht]; [apply Hd; reflexivity|].
  destruct ts as [|u r]; [destruct Ht|]. destruct bss as [|bs bss]; [destruct S|]. rewrite snug_cons in S. destruct S as (S1 & S2 & S3).
  apply (IH bss); auto. intros k [= <-]. rewrite <- S1. split; [apply (fills_in_turn h (t_seq (tob h t))); [exact S2|apply Hd; reflexivity]|].
  intros x Hx. apply in_concat in Hx. destruct Hx as (b & Hb & Hx). destruct (Forall2_in_r _ _ _ b S2 Hb) as (v & _ & F).
  destruct (fills_dated h v b F) as [_ Tb]. apply (tiles_in h b _ _ x Tb Hx).
Qed.
(** The children of the intervals of the tier that becomes the last. *)
Lemma bottom_kids h ts1 p ts2 bss z : laid h (ts1 ++ p :: ts2) bss -> hd_error (rev (ts1 ++ ts2)) = Some z ->
  exists bs, Forall2 (kids h) (t_seq (tob h z)) bs /\ NoDup (concat bs) /\
    forall y, In y (concat bs) -> In y (t_seq (tob h p)) /\ s_subset (sob h y) = [].
Proof.
  intros (Ok & N & S & R & B & Tp) Hz. destruct ts2 as [|q ts2 _] using rev_ind.
  - rewrite app_nil_r in Hz. destruct ts1 as [|z' ts1 _] using rev_ind; [discriminate|]. rewrite rev_app_distr in Hz. injection Hz as ->.
    rewrite <- app_assoc in *. cbn [app] in *. destruct (related_last h p z ts1 bss S R) as (bs & B1 & B2).
    destruct (Ok p) as (_ & (Np & Lp) & _); [apply in_app_iff; simpl; auto|].
    exists bs. split; [|split; [rewrite B1; exact Np|]].
    2:{ rewrite B1. intros y Hy. split; [exact Hy|]. apply (B p); [|exact Hy]. rewrite rev_app_distr. reflexivity. }
    eapply Forall2_weaken; [exact B2|]. intros x b Hx Hb (P1 & _ & P3). split; [exact P1|]. intros y Hy. split; [|apply P3, Hy].
    apply Lp. rewrite <- B1. eapply in_concat'; eauto.
  - rewrite app_assoc, rev_app_distr in Hz. injection Hz as ->.
    exists (map (fun _ => []) (t_seq (tob h z))).
    assert (Cn : concat (map (fun _ => []) (t_seq (tob h z))) = (@nil oid)) by (induction (t_seq (tob h z)); auto).
    rewrite Cn. split; [|split; [constructor|intros y []]].
    assert (Bz : forall x, In x (t_seq (tob h z)) -> s_subset (sob h x) = []).
    { intros x Hx. apply (B z); [|exact Hx]. rewrite app_comm_cons, app_assoc, rev_app_distr. reflexivity. }
    clear -Bz. induction (t_seq (tob h z)) as [|x l IH]; [constructor|]. cbn [map]. constructor; [|apply IH; intros y Hy; apply Bz; simpl; auto].
    split; [apply Bz; simpl; auto|]. intros y [].
Qed.

Lemma py_last {A} (l : list A) : py_index l (-1) = hd_error (rev l).
Proof.
  unfold py_index. cbn [Z.leb Z.compare]. destruct l as [|x l _] using rev_ind; [reflexivity|]. rewrite rev_app_distr, app_length. cbn [List.length hd_error rev app].
  replace (- Z.of_nat (List.length l + 1) <=? -1) with true by (symmetry; apply Z.leb_le; lia).
  replace (Z.to_nat (Z.of_nat (List.length l + 1) + -1)) with (List.length l) by lia.
  rewrite nth_error_app2, Nat.sub_diag by lia. reflexivity.
Qed.
Lemma filter_all {A} (f : A -> bool) l : (forall x, In x l -> f x = true) -> List.filter f l = l.
Proof. induction l as [|x l IH]; intros E; [reflexivity|]. cbn [List.filter]. rewrite E by (simpl; auto). rewrite IH; [reflexivity|]. intros y Hy. apply E. simpl; auto. Qed.
Lemma filter_none {A} (f : A -> bool) l : (forall x, In x l -> f x = false) -> List.filter f l = [].
Proof. induction l as [|x l IH]; intros E; [reflexivity|]. cbn [List.filter]. rewrite E by (simpl; auto). apply IH. intros y Hy. apply E. simpl; auto. Qed.

Lemma pop_one n nm t cs1 c cs2 b g ts bss h : split_chain h t cs1 c cs2 b -> (cs1 ++ cs2)%list <> [] ->
  class_name h c = nm -> (forall x, In x (cs1 ++ cs2) -> class_name h x <> nm) ->
  glive h g -> g_tiers (gob h g) = ts -> map (fun k => t_ec (tob h k)) ts = (cs1 ++ c :: cs2)%list -> laid h ts bss ->
  let g' := List.length (h_grp h) in let keep := tiers_but h c g in
  exists h' bss', pop_group n nm g h = Ok [g'] h' /\ split_chain h' t cs1 c cs2 b /\ class_chain h' t (cs1 ++ cs2) b /\
    pframe [g] ts h h' /\ map (fun k => t_ec (tob h k)) keep = (cs1 ++ cs2)%list /\ incl keep ts /\
    List.length (h_grp h') = S g' /\ good_group h' g' keep bss' /\ bare_bottom h' keep /\
    (forall z x, hd_error (rev keep) = Some z -> In x (t_seq (tob h' z)) -> s_contains (sob h' x) = CList []) /\
    (forall m, g_name (gob h g) = Some m -> m <> ""%string -> g_name (gob h' g') = Some m).
Proof.
  intros SC NE Nm No Lg Gt Em La g' keep0.
  pose proof La as (Ok & N & S & R & B & Tp).
  destruct (map_eq_app _ _ _ _ Em) as (ts1 & ts2' & Ets & E1 & E2). destruct ts2' as [|p ts2]; [discriminate|]. cbn [map] in E2. injection E2 as Ep E2.
  set (keep := (ts1 ++ ts2)%list) in *.
  assert (Ik : incl keep ts) by (intros k Hk; unfold keep in Hk; rewrite Ets; apply in_app_iff in Hk; apply in_app_iff; simpl; tauto).
  assert (Ip : In p ts) by (rewrite Ets; apply in_app_iff; simpl; auto).
  assert (Kn : keep <> []).
  { intros Q. apply NE. rewrite <- E1, <- E2. unfold keep in Q. apply app_eq_nil in Q. destruct Q as [-> ->]. reflexivity. }
  assert (Nc : ~ In c (cs1 ++ cs2)) by (pose proof N as N'; rewrite Em, NoDup_ListNoDup in N'; apply NoDup_remove_2 in N'; exact N').
  assert (Ek : forall k, In k keep -> In (t_ec (tob h k)) (cs1 ++ cs2)).
  { intros k Hk. rewrite <- E1, <- E2, <- map_app. apply (in_map (fun k => t_ec (tob h k))). exact Hk. }
  assert (Ec : forall k, In k keep -> t_ec (tob h k) <> c) by (intros k Hk Q; apply Nc; rewrite <- Q; apply Ek, Hk).
  assert (NDt : NoDup ts) by (apply NoDup_ListNoDup; apply NoDup_ListNoDup in N; eapply NoDup_map_inv; exact N).
  assert (NDk : NoDup keep) by (rewrite Ets, NoDup_ListNoDup in NDt; apply NoDup_remove_1 in NDt; apply NoDup_ListNoDup; exact NDt).
  assert (Npk : ~ In p keep) by (rewrite Ets, NoDup_ListNoDup in NDt; apply NoDup_remove_2 in NDt; exact NDt).
  assert (K0 : keep0 = keep).
  { unfold keep0, tiers_but. rewrite Gt, Ets, List.filter_app. cbn [List.filter]. rewrite Ep, Nat.eqb_refl. cbn [negb].
    rewrite !filter_all; [reflexivity| |]; intros k Hk; apply negb_true_iff, Nat.eqb_neq, Ec; unfold keep; apply in_app_iff; auto. }
  rewrite K0. clear K0 keep0.
  assert (Nk : forall k, In k keep -> String.eqb (class_name h (t_ec (tob h k))) nm = false).
  { intros k Hk. apply String.eqb_neq, No, Ek, Hk. }
  (* classes *)
  destruct (join_step h t cs1 c cs2 b SC NE) as (h1 & J1 & SC1 & CC1 & Sb1 & Nm1 & Q1 & Q2 & Q3 & Q4 & Ql & _).
  assert (T1 : forall k, tob h1 k = tob h k) by (intros k; unfold tob; rewrite Q2; reflexivity).
  (* tiers *)
  destruct (sync_ok keep h1 NDk) as (h2 & Y1 & Y2 & Y3 & Y4 & Y5 & Y6 & Y7 & Y8).
  { intros k Hk. unfold tlive. rewrite Q2. apply Ok, Ik, Hk. }
  assert (S2 : forall i, sob h2 i = sob h i) by (intros i; unfold sob; rewrite Y3, Q1; reflexivity).
  assert (L2 : List.length (h_seq h2) = List.length (h_seq h)) by (rewrite Y3, Q1; reflexivity).
  assert (T2 : forall k, t_seq (tob h2 k) = t_seq (tob h k) /\ t_ec (tob h2 k) = t_ec (tob h k) /\ t_name (tob h2 k) = t_name (tob h k)).
  { intros k. destruct (in_dec Nat.eq_dec k keep) as [Hk|Hk]; [rewrite Y7 by exact Hk|rewrite Y8 by exact Hk]; rewrite T1; auto. }
  assert (Sb2 : forall x y, issubclass h2 x y = issubclass h x y) by (intros x y; rewrite (issubclass_ext h1 h2) by exact Y2; apply Sb1).
  assert (B2 : forall k, is_boundary h k -> is_boundary h2 k) by (intros k (A1 & A2); split; [lia|]; rewrite !S2; exact A2).
  assert (La2 : laid h2 ts bss).
  { apply (laid_same h h2); auto; [intros k _; destruct (T2 k) as (A1 & A2 & _); auto|rewrite Y6, Q2; reflexivity|lia]. }
  pose proof La2 as (Ok2 & N2 & Sn2 & R2 & Bb2 & Tp2).
  destruct (synced_chain h1 h2 keep t (cs1 ++ cs2) b CC1 Y2 Y7) as [TC CJ].
  { rewrite <- E1, <- E2, <- map_app. apply map_ext. intros k. rewrite T1. reflexivity. }
  { intros k Hk. rewrite T1, !Sb1. destruct (Ok k (Ik k Hk)) as (A1 & _ & _ & A4 & A5). split; [|auto]. unfold tlive. rewrite Y6, Q2. exact A1. }
  pose proof (laid_fit h2 ts bss La2) as Fit2.
  rewrite Ets in Sn2. destruct (snug_drop h2 p ts1 ts2 bss Sn2 Kn) as (bss' & Sn'). rewrite <- Ets in Sn2. fold keep in Sn'.
  assert (Lv2 : forall k, In k ts -> in_turn h2 (t_seq (tob h2 k)) /\ forall x, In x (t_seq (tob h2 k)) -> dated h2 x).
  { apply (laid_levels h2 ts bss Sn2). intros k Hk. destruct (Tp2 k Hk) as [A1 A2]. split; [exact A1|]. intros x Hx. apply A2, Hx. }
  (* relating *)
  destruct (c49_new n h2 keep keep bss' (Permutation_refl _) TC CJ) as (g3 & h3 & W1 & Gd & An & W2 & W3 & W4 & _); auto.
  { intros k Hk. apply Lv2, Ik. destruct keep; [discriminate|]. injection Hk as ->. simpl. auto. }
  assert (Eg : g3 = g') by (unfold g'; rewrite W2, Y4, Q3; reflexivity). rewrite Eg in *. clear Eg W2 g3.
  pose proof (anew_tier g' keep h2 h3 An) as Tk3. pose proof An as (A1 & A2 & A3 & A4 & A5 & A6 & A7 & A8 & A9 & A10).
  destruct (hd_error (rev keep)) as [z|] eqn:Ez.
  2:{ exfalso. apply Kn. destruct keep as [|x l _] using rev_ind; [reflexivity|]. rewrite rev_app_distr in Ez. discriminate. }
  assert (Iz : In z keep) by (apply in_rev; destruct (rev keep); [discriminate|injection Ez as ->; simpl; auto]).
  assert (La2' : laid h2 (ts1 ++ p :: ts2) bss) by (rewrite <- Ets; exact La2).
  destruct (bottom_kids h2 ts1 p ts2 bss z La2' Ez) as (bs & K1 & K2 & K3).
  assert (Ck : forall k x, In k ts -> In x (t_seq (tob h2 k)) -> live h2 x /\ s_cls (sob h2 x) = t_ec (tob h2 k) /\ s_label (sob h2 x) <> "#"%string).
  { intros k x Hk Hx. destruct (Ok2 k Hk) as (_ & (_ & Q) & _). apply Q, Hx. }
  assert (Sep : forall k k' x, In k ts -> In k' ts -> In x (t_seq (tob h2 k)) -> In x (t_seq (tob h2 k')) -> k = k').
  { intros k k' x Hk Hk' Hx Hx'. destruct (Ck k x Hk Hx) as (_ & C1 & _). destruct (Ck k' x Hk' Hx') as (_ & C2 & _).
    apply In_nth_error in Hk. apply In_nth_error in Hk'. destruct Hk as [i Hi], Hk' as [j Hj].
    assert (i = j); [|congruence]. apply (proj1 (NoDup_nth_error (map (fun t => t_ec (tob h2 t)) ts))).
    - apply NoDup_ListNoDup. exact N2.
    - rewrite map_length. apply nth_error_Some. congruence.
    - rewrite !nth_error_map, Hi, Hj. simpl. congruence. }
  assert (Nkp : forall k, In k keep -> k <> p) by (intros k Hk ->; contradiction).
  assert (Zn : ~ In z (removelast keep)).
  { intros Q. clear -NDk Ez Q. destruct keep as [|x l _] using rev_ind; [destruct Q|]. rewrite rev_app_distr in Ez. injection Ez as ->. rewrite removelast_last in Q.
    apply NoDup_app in NDk. destruct NDk as (_ & D & _). apply (D z); [apply elem_of_list_In; exact Q|]. apply elem_of_list_In. simpl. auto. }
  assert (Sub3 : forall x, In x (t_seq (tob h2 z)) -> s_subset (sob h3 x) = s_subset (sob h2 x)).
  { intros x Hx. apply A10; [apply (Ck z x (Ik z Iz) Hx)| |].
    - intros k Hk Hx'. apply Zn. rewrite (Sep z k x); auto. apply Ik, in_removelast, Hk.
    - intros k e Hk He Hs. destruct (Fit2 k (Ik k Hk)) as (_ & _ & Fl). destruct (Fl e He x Hs) as (_ & _ & He' & _).
      destruct (Forall2_in_l _ _ _ x K1 Hx) as (b0 & Hb0 & Q & _). rewrite Q in He'. destruct (K3 e) as [He2 _]; [eapply in_concat'; eauto|].
      apply (Nkp k Hk). apply (Sep k p e); auto. }
  assert (Kid3 : forall y, In y (concat bs) -> sob h3 y = sob h2 y).
  { intros y Hy. destruct (K3 y Hy) as [Yp Ys]. apply A2; [apply (Ck p y Ip Yp)|]. intros (k & e & Hk & He & Q). destruct Q as [->|(q & Hq & Q)].
    - apply (Nkp k Hk). apply (Sep k p e); auto.
    - destruct (Fit2 k (Ik k Hk)) as (_ & _ & Fl). destruct (Fl e He q Hq) as (_ & _ & He' & _ & Br). destruct Q as [->|Q]; [rewrite Ys in He'; destruct He'|].
      destruct (Br e He') as (_ & _ & _ & Br'). destruct (Br' y Q) as [Cy _]. destruct (Ck k e (Ik k Hk) He) as (_ & C1 & _). destruct (Ck p y Ip Yp) as (_ & C2 & _).
      apply (Ec k Hk). destruct (T2 k) as (_ & <- & _). rewrite <- C1, <- Cy, C2. destruct (T2 p) as (_ & -> & _). exact Ep. }
  (* clearing *)
  assert (Tz3 : t_seq (tob h3 z) = t_seq (tob h2 z)) by apply Tk3.
  destruct (clear_all (t_seq (tob h3 z)) bs h3) as (h4 & D1 & D2 & D3 & D4 & D5 & D6); rewrite ?Tz3.
  { apply (Ok2 z (Ik z Iz)). }
  { intros x Hx. destruct (Ck z x (Ik z Iz) Hx) as [Lx _]. unfold live in *. lia. }
  { eapply Forall2_weaken; [exact K1|]. intros x b0 Hx Hb [U1 U2]. split; [rewrite Sub3 by exact Hx; exact U1|]. intros y Hy. destruct (U2 y Hy) as [U3 U4].
    split; [unfold live in *; lia|]. rewrite Kid3; [exact U4|]. eapply in_concat'; eauto. }
  { exact K2. }
  { intros y Hy Hy'. destruct (K3 y Hy) as [Yp _]. apply (Nkp z Iz). apply (Sep z p y); auto. }
  rewrite Tz3 in *.
  assert (Tk4 : forall k, tob h4 k = tob h3 k) by (intros k; unfold tob; destruct D2 as (_ & -> & _); reflexivity).
  assert (Gk4 : forall k, gob h4 k = gob h3 k) by (intros k; unfold gob; destruct D2 as (_ & _ & -> & _); reflexivity).
  assert (Bd3 : forall k, is_boundary h k -> is_boundary h3 k).
  { intros k Hk. apply B2 in Hk. destruct Hk as (V1 & V2). unfold is_boundary. rewrite (A2 k V1); [split; [lia|exact V2]|].
    intros Q. destruct (laid_involved h2 ts bss La2 k) as (k' & Hk' & Hx).
    { destruct Q as (k' & x & Hk' & Hx & Q). exists k', x. split; [apply Ik, Hk'|]. auto. }
    destruct (Ck k' k Hk' Hx) as (_ & _ & Q'). apply Q', V2. }
  assert (Bd4 : forall k, is_boundary h3 k -> is_boundary h4 k).
  { intros k (V1 & V2). unfold is_boundary. rewrite D6; [split; [lia|exact V2]| |].
    - intros Q. destruct (Ck z k (Ik z Iz) Q) as (V4 & _ & V5). destruct (A1 k V4) as (_ & _ & _ & V6 & _). apply V5. rewrite <- V6. apply V2.
    - intros Q. destruct (K3 k Q) as [Yp _]. destruct (Ck p k Ip Yp) as (_ & _ & V5). rewrite Kid3 in V2 by exact Q. apply V5, V2. }
  assert (Kept4 : forall i, live h2 i -> kept (sob h i) (sob h4 i)).
  { intros i Hi. rewrite <- S2. destruct (A1 i Hi) as (V1 & V2 & V3 & V4 & V5). apply (GroupFinal.kept_trans _ (sob h3 i)); [unfold kept; auto|].
    destruct (in_dec Nat.eq_dec i (t_seq (tob h2 z))) as [I1|I1]; [rewrite D4 by exact I1; unfold kept; auto|].
    destruct (in_dec Nat.eq_dec i (concat bs)) as [I2|I2]; [rewrite D5 by exact I2; unfold kept; auto|]. rewrite D6 by auto. apply GroupFinal.kept_refl. }
  (* names *)
  assert (Gg4 : gob h4 g = gob h g).
  { rewrite Gk4, W4 by exact Lg. unfold gob. rewrite Y4, Q3. reflexivity. }
  destruct (grp_name_ok g h4) as (nm' & h5 & M1 & M2 & M3).
  { rewrite Gg4, Gt, Ets. destruct ts1; discriminate. }
  set (h6 := upd_grp g' (set_g_name nm') h5).
  assert (E45 : h_cls h5 = h_cls h4 /\ h_seq h5 = h_seq h4 /\ h_tier h5 = h_tier h4 /\ h_grid h5 = h_grid h4 /\ List.length (h_grp h5) = List.length (h_grp h4) /\
    (forall k, k <> g -> gob h5 k = gob h4 k)).
  { destruct M2 as [->| ->]; [auto 10|]. repeat (split; [reflexivity|]). split; [apply len_upd_grp|]. intros k Hk. apply gob_upd_ne. exact Hk. }
  destruct E45 as (F1 & F2 & F3 & F4 & F5 & F6).
  assert (L6 : glive h5 g').
  { unfold glive. rewrite F5. destruct D2 as (_ & _ & -> & _). rewrite W3. lia. }
  assert (Ng : g <> g') by (unfold glive in Lg; unfold g'; lia).
  assert (G6 : gob h6 g' = set_g_name nm' (gob h3 g')).
  { unfold h6. rewrite gob_upd_eq by exact L6. rewrite F6 by auto. rewrite Gk4. reflexivity. }
  assert (S6 : forall i, sob h6 i = sob h4 i) by (intros i; unfold sob; change (h_seq h6) with (h_seq h5); rewrite F2; reflexivity).
  assert (T6 : forall k, tob h6 k = tob h3 k) by (intros k; rewrite <- Tk4; unfold tob; change (h_tier h6) with (h_tier h5); rewrite F3; reflexivity).
  assert (C6 : h_cls h6 = h_cls h1).
  { change (h_cls h6) with (h_cls h5). rewrite F1. destruct D2 as (-> & _). rewrite A5. exact Y2. }
  assert (Ls6 : List.length (h_seq h6) = List.length (h_seq h3)) by (change (h_seq h6) with (h_seq h5); rewrite F2; exact D3).
  assert (Lt6 : List.length (h_tier h6) = List.length (h_tier h3)) by (change (h_tier h6) with (h_tier h5); rewrite F3; destruct D2 as (_ & -> & _); reflexivity).
  assert (Lg6 : List.length (h_grp h6) = Datatypes.S g').
  { unfold h6. rewrite len_upd_grp, F5. destruct D2 as (_ & _ & -> & _). exact W3. }
  assert (B6 : forall k, is_boundary h4 k -> is_boundary h6 k).
  { intros k (V1 & V2). split; [change (h_seq h6) with (h_seq h5); rewrite F2; exact V1|]. rewrite !S6. exact V2. }
  assert (Sb6 : forall x y, issubclass h6 x y = issubclass h x y) by (intros x y; rewrite (issubclass_ext h1 h6) by exact C6; apply Sb1).
  assert (T23 : forall k, t_seq (tob h6 k) = t_seq (tob h k) /\ t_ec (tob h6 k) = t_ec (tob h k) /\ t_name (tob h6 k) = t_name (tob h k)).
  { intros k. rewrite T6. destruct (Tk3 k) as (-> & -> & _ & _ & -> & _). apply T2. }
  exists h6, bss'. split.
  { unfold pop_group. rewrite bind_get_grp. mstep.
    assert (X1 : existsb (String.eqb nm) (grp_class_names h g) = true).
    { apply existsb_exists. exists nm. split; [|apply String.eqb_refl]. unfold grp_class_names. rewrite Gt, <- Nm, <- Ep. apply (in_map (fun t => class_name h (t_ec (tob h t)))). exact Ip. }
    rewrite X1. cbn [negb].
    assert (X2 : (List.length (grp_class_names h g) =? 1)%nat = false).
    { apply Nat.eqb_neq. unfold grp_class_names. rewrite map_length, Gt, Ets, app_length. cbn [List.length]. unfold keep in Kn. destruct ts1, ts2; cbn [List.length]; [exfalso; apply Kn; reflexivity|lia|lia|lia]. }
    rewrite X2. mstep. mstep. rewrite Gt.
    assert (X3 : List.filter (fun t0 => String.eqb (class_name h (t_ec (tob h t0))) nm) ts = [p]).
    { rewrite Ets, List.filter_app. cbn [List.filter]. rewrite Ep, Nm, String.eqb_refl. rewrite !filter_none; [reflexivity| |]; intros k Hk; apply Nk; unfold keep; apply in_app_iff; auto. }
    assert (X4 : List.filter (fun t0 => negb (String.eqb (class_name h (t_ec (tob h t0))) nm)) ts = keep).
    { rewrite Ets, List.filter_app. cbn [List.filter]. rewrite Ep, Nm, String.eqb_refl. cbn [negb]. rewrite !filter_all; [reflexivity| |]; intros k Hk; rewrite Nk; auto; unfold keep; apply in_app_iff; auto. }
    rewrite X3, X4. mstep. mstep. rewrite Ep.
    assert (X5 : is_point_cls h c = false) by (unfold is_point_cls; rewrite <- Ep; apply (Ok p Ip)).
    rewrite X5. mstep. mstep. rewrite (sc_sup _ _ _ _ _ _ SC), (sc_sub _ _ _ _ _ _ SC).
    rewrite (bind_ok _ _ _ _ _ J1), (bind_ok _ _ _ _ _ Y1), (bind_ok _ _ _ _ _ W1).
    assert (X6 : group_item g' (-1) h3 = Base.Ok z h3).
    { unfold group_item. destruct Gd as (_ & _ & Gt3 & _). rewrite Gt3, py_last, Ez. reflexivity. }
    rewrite (bind_ok _ _ _ _ _ X6). mstep. rewrite Tz3. rewrite (bind_ok _ _ _ tt h4) by exact D1.
    rewrite (bind_ok _ _ _ _ _ M1). reflexivity. }
  split; [apply (split_ext h1); [exact C6|exact SC1]|].
  split; [apply (proj2 (chain_walk _ _ _ _)); apply (proj1 (chain_walk _ _ _ _)) in CC1|].
  { destruct CC1 as (V1 & V2 & V3 & V4 & V5 & V6). split; [exact V1|]. split; [exact V2|]. rewrite !(issubclass_ext h1 h6) by exact C6. split; [exact V3|]. split; [exact V4|].
    split; [intros x Hx; rewrite (issubclass_ext h1 h6) by exact C6; auto|].
    clear -V6 C6. induction (t :: (cs1 ++ cs2) ++ [b])%list as [|x [|y l] IHl]; [exact I|exact I|]. destruct V6 as [[P1 P2] Q]. split; [|apply IHl, Q].
    split; [rewrite (subset_class_ext h1 h6) by exact C6; exact P1|]. unfold superset_class in *. rewrite C6. exact P2. }
  split.
  { constructor.
    - split; [rewrite Ls6; lia|]. split; [|split; [|split; [|split; [|split]]]].
      + intros i Hi. rewrite S6. destruct (Kept4 i) as (V1 & V2 & V3 & V4 & V5); [unfold live; lia|]. auto.
      + intros i Hi Hn. rewrite S6, D6, A2, S2; auto; [lia| | |].
        * intros Q. destruct (laid_involved h2 ts bss La2 i) as (k' & Hk' & Hx).
          { destruct Q as (k' & x & Hk' & Hx & Q). exists k', x. split; [apply Ik, Hk'|]. auto. }
          apply (Hn k' Hk'). destruct (T2 k') as (<- & _). exact Hx.
        * intros Q. apply (Hn z (Ik z Iz)). destruct (T2 z) as (<- & _). exact Q.
        * intros Q. apply (Hn p Ip). destruct (T2 p) as (<- & _). apply K3, Q.
      + intros i Hi. apply B6, Bd4, A4. lia.
      + rewrite Lt6, A7, Y6, Q2. reflexivity.
      + intros k Hk. assert (Hk' : ~ In k keep) by (intros Q; apply Hk, Ik, Q). rewrite T6, A8, Y8, T1 by exact Hk'. reflexivity.
      + exact T23.
    - intros k Hk. apply B6, Bd4, Bd3, Hk.
    - exact Sb6.
    - intros x. unfold class_name, cob. rewrite C6. apply Nm1.
    - change (h_grid h6) with (h_grid h5). rewrite F4. destruct D2 as (_ & _ & _ & ->). rewrite A6, Y5. exact Q4.
    - rewrite Lg6. unfold g'. lia.
    - intros k Hk Hn. unfold h6. rewrite gob_upd_ne by (unfold g'; lia). rewrite F6 by (intros ->; apply Hn; simpl; auto). rewrite Gk4, W4 by exact Hk. unfold gob. rewrite Y4, Q3. reflexivity.
    - rewrite C6. exact Ql. }
  split; [unfold keep; rewrite map_app; congruence|]. split; [exact Ik|]. split; [exact Lg6|]. split; [|split; [|split]].
  - apply (good_same h3 h6 g' keep bss').
    + rewrite Lg6. lia.
    + rewrite G6. reflexivity.
    + rewrite G6. reflexivity.
    + rewrite G6. reflexivity.
    + intros k _. apply T6.
    + exact Lt6.
    + lia.
    + intros k x Hk Hx. rewrite S6. destruct (Tk3 k) as (Ek3 & _). rewrite Ek3 in Hx.
      destruct (in_dec Nat.eq_dec x (t_seq (tob h2 z))) as [I1|I1]; [rewrite D4 by exact I1; unfold kept, cleared; cbn; auto 10|].
      rewrite D6; [|exact I1|]; [split; [apply GroupFinal.kept_refl|auto]|]. intros Q. apply (Nkp k Hk). apply (Sep k p x); auto. apply K3, Q.
    + intros k x Hk Hx. rewrite S6. destruct (Tk3 k) as (Ek3 & _). rewrite Ek3 in Hx. assert (Hk' : In k keep) by (apply in_removelast; exact Hk).
      rewrite D6; [reflexivity| |].
      * intros Q. apply Zn. rewrite (Sep z k x); auto.
      * intros Q. apply (Nkp k Hk'). apply (Sep k p x); auto. apply K3, Q.
    + intros k Hk. apply B6, Bd4, Hk.
    + intros x y. rewrite Sb6. destruct Gd as (_ & _). rewrite (issubclass_ext h2 h3) by exact A5. symmetry. apply Sb2.
    + apply (classes_joined_same h2 h6); [rewrite C6; symmetry; exact Y2| |exact CJ]. intros k _. rewrite T6. apply Tk3.
    + exact Gd.
  - intros k x Hk Hx. assert (k = z) by congruence. subst k. destruct (T23 z) as (Tz & _). rewrite Tz in Hx. rewrite S6, D4; [reflexivity|]. destruct (T2 z) as (-> & _). exact Hx.
  - intros k x Hk Hx. assert (k = z) by congruence. subst k. destruct (T23 z) as (Tz & _). rewrite Tz in Hx. rewrite S6, D4; [reflexivity|]. destruct (T2 z) as (-> & _). exact Hx.
  - intros m Hm Hm'. rewrite G6. cbn [g_name set_g_name]. rewrite Gg4 in M3. destruct M3 as [M3 _]; [|rewrite M3; exact Hm].
    rewrite Hm. destruct m; [congruence|reflexivity].
Qed.

(** ** All groups *)
Lemma content_trans T1 T2 h h1 h2 : same_content T1 h h1 -> same_content T2 h1 h2 ->
  (forall k, is_boundary h1 k -> is_boundary h2 k) -> same_content (T1 ++ T2) h h2.
Proof.
  intros (A1 & A2 & A3 & A4 & A5 & A6 & A7) (B1 & B2 & B3 & B4 & B5 & B6 & B7) Bd. split; [lia|]. split; [|split; [|split; [|split; [|split]]]].
  - intros i Hi. destruct (A2 i Hi) as (P1 & P2 & P3 & P4 & P5). destruct (B2 i) as (Q1 & Q2 & Q3 & Q4 & Q5); [lia|]. repeat split; congruence.
  - intros i Hi Hn. rewrite B3, A3; auto; [| lia|].
    + intros t Ht. apply Hn. apply in_app_iff. auto.
    + intros t Ht. destruct (A7 t) as (-> & _). apply Hn. apply in_app_iff. auto.
  - intros i Hi. destruct (decide (i < List.length (h_seq h1))%nat) as [Q|Q]; [apply Bd, A4; lia|apply B4; lia].
  - congruence.
  - intros t Ht. rewrite B6, A6; auto; intros Q; apply Ht; apply in_app_iff; auto.
  - intros t. destruct (A7 t) as (P1 & P2 & P3), (B7 t) as (Q1 & Q2 & Q3). repeat split; congruence.
Qed.
Lemma pframe_trans G1 G2 T1 T2 h h1 h2 : pframe G1 T1 h h1 -> pframe G2 T2 h1 h2 -> pframe (G1 ++ G2) (T1 ++ T2) h h2.
Proof.
  intros [A1 A2 A3 A4 A5 A6 A7 A8] [B1 B2 B3 B4 B5 B6 B7 B8]. constructor.
  - eapply content_trans; eauto.
  - auto.
  - intros x y. rewrite B3. apply A3.
  - intros x. rewrite B4. apply A4.
  - congruence.
  - lia.
  - intros k Hk Hn. rewrite B7, A7; auto; [|lia|]; intros Q; apply Hn; apply in_app_iff; auto.
  - congruence.
Qed.
Lemma pframe_refl G T h : pframe G T h h.
Proof.
  constructor; auto. split; [lia|]. split; [auto 10|]. split; [auto|]. split; [intros i Hi; lia|]. split; [auto|]. split; [auto|]. auto.
Qed.
Lemma chain_joined h t cs b ts : class_chain h t cs b -> map (fun k => t_ec (tob h k)) ts = cs -> classes_joined h ts.
Proof.
  intros (C1 & C2 & C3 & C4 & C5 & C6) Em.
  assert (Pr : forall A k u B, ts = (A ++ k :: u :: B)%list -> subset_class h (t_ec (tob h k)) = Some (t_ec (tob h u))).
  { intros A k u B Q. rewrite Q, map_app in Em. cbn [map] in Em. apply (C6 (S (List.length A))); rewrite ClassFinal.nth_S, <- Em, <- app_assoc.
    - rewrite nth_error_app2 by (rewrite map_length; lia). rewrite map_length, Nat.sub_diag. reflexivity.
    - rewrite nth_error_app2 by (rewrite map_length; lia). rewrite map_length. replace (S (List.length A) - List.length A)%nat with 1%nat by lia. reflexivity. }
  assert (G : forall B A, ts = (A ++ B)%list -> classes_joined h B).
  { induction B as [|k B IHB]; intros A Q; [exact I|]. destruct B as [|u B]; [exact I|]. split; [exact (Pr A k u B Q)|].
    apply (IHB (A ++ [k])%list). rewrite <- app_assoc. exact Q. }
  apply (G ts []). reflexivity.
Qed.
Definition ready_group (nm : string) (cs : list cid) (h : heap) (g : gid) : Prop :=
  glive h g /\
  ((map (fun k => t_ec (tob h k)) (g_tiers (gob h g)) = cs /\ exists bss, laid h (g_tiers (gob h g)) bss) \/
   (forall k, In k (g_tiers (gob h g)) -> class_name h (t_ec (tob h k)) <> nm)).
Lemma ready_group_same nm cs G T h h' g : pframe G T h h' -> ~ In g G -> (forall k, In k (g_tiers (gob h g)) -> ~ In k T) ->
  (forall k x, In k (g_tiers (gob h g)) -> In x (t_seq (tob h k)) -> forall t, In t T -> ~ In x (t_seq (tob h t))) ->
  ready_group nm cs h g -> ready_group nm cs h' g.
Proof.
  intros [A1 A2 A3 A4 A5 A6 A7] Ng Nt Nx [Lg R]. pose proof A1 as (B1 & B2 & B3 & B4 & B5 & B6 & B7).
  split; [unfold glive in *; lia|]. rewrite (A7 g) by auto. destruct R as [[R1 (bss & R2)]|R].
  - left. split; [rewrite <- R1; apply map_ext; intros k; apply B7|]. exists bss. apply (laid_same h h'); auto.
    + intros k _. destruct (B7 k) as (P & Q & _). auto.
    + intros k x Hk Hx. apply B3; [|intros t Ht; apply (Nx k x); auto]. destruct R2 as (R2 & _). destruct (R2 k Hk) as (_ & (_ & Q) & _). apply Q, Hx.
  - right. intros k Hk. destruct (B7 k) as (_ & -> & _). rewrite A4. apply R, Hk.
Qed.
Lemma tiers_but_same G T h h' c g : pframe G T h h' -> glive h g -> ~ In g G -> tiers_but h' c g = tiers_but h c g.
Proof.
  intros [A1 A2 A3 A4 A5 A6 A7] Lg Ng. pose proof A1 as (B1 & B2 & B3 & B4 & B5 & B6 & B7). unfold tiers_but. rewrite (A7 g) by auto.
  apply List.filter_ext. intros k. destruct (B7 k) as (_ & -> & _). reflexivity.
Qed.
Lemma without_later c cs G T h h1 h2 g g' t b : pframe G T h1 h2 -> ~ In g' G -> (g' < List.length (h_grp h1))%nat ->
  (forall k, In k (tiers_but h c g) -> ~ In k T) ->
  (forall k x, In k (tiers_but h c g) -> In x (t_seq (tob h1 k)) -> forall u, In u T -> ~ In x (t_seq (tob h1 u))) ->
  class_chain h2 t cs b -> without c cs h h1 g g' -> without c cs h h2 g g'.
Proof.
  intros [A1 A2 A3 A4 A5 A6 A7] Ng Lg Nt Nx CC (W1 & W2 & (W3 & (bss & W4) & W5) & W6 & W7).
  pose proof A1 as (B1 & B2 & B3 & B4 & B5 & B6 & B7).
  assert (Eg : gob h2 g' = gob h1 g') by (apply A7; auto).
  assert (Sx : forall k x, In k (tiers_but h c g) -> In x (t_seq (tob h1 k)) -> sob h2 x = sob h1 x).
  { intros k x Hk Hx. apply B3; [|apply (Nx k x); auto]. rewrite <- W2 in Hk. destruct W4 as (_ & _ & _ & _ & _ & _ & _ & _ & Q & _).
    destruct (Q k Hk) as (_ & (_ & L) & _). apply L, Hx. }
  assert (Hl : forall k, hd_error (rev (tiers_but h c g)) = Some k -> In k (tiers_but h c g)).
  { intros k Hk. apply in_rev. destruct (rev (tiers_but h c g)); [discriminate|injection Hk as ->; simpl; auto]. }
  split; [exact W1|]. rewrite Eg. split; [exact W2|].
  assert (Em : map (fun k => t_ec (tob h2 k)) (tiers_but h c g) = cs).
  { rewrite <- W3, W2. apply map_ext. intros k. apply B7. }
  split; [split; [rewrite Eg, W2; exact Em|split]|split].
  - exists bss. rewrite Eg. rewrite W2 in *. apply (good_same h1 h2); auto.
    + lia.
    + rewrite Eg; reflexivity.
    + rewrite Eg; reflexivity.
    + rewrite Eg; reflexivity.
    + intros k x Hk Hx. rewrite (Sx k x) by auto. split; [apply GroupFinal.kept_refl|auto].
    + intros k x Hk Hx. rewrite (Sx k x); auto. apply in_removelast, Hk.
    + eapply chain_joined; eauto.
  - rewrite Eg, W2 in *. intros k x Hk Hx. destruct (B7 k) as (Q & _). rewrite Q in Hx. rewrite (Sx k x) by auto. apply (W5 k); auto.
  - exact W6.
  - rewrite W2 in *. intros k x Hk Hx. destruct (B7 k) as (Q & _). rewrite Q in Hx. cbn. rewrite (Sx k x) by auto. apply (W7 k x Hk Hx).
Qed.
Lemma pop_all n nm t cs1 c cs2 b : (cs1 ++ cs2)%list <> [] -> forall gs h, split_chain h t cs1 c cs2 b ->
  class_name h c = nm -> (forall x, In x (cs1 ++ cs2) -> class_name h x <> nm) ->
  (forall g, In g gs -> ready_group nm (cs1 ++ c :: cs2) h g) -> apart_groups h gs ->
  exists gs' h', mapM (pop_group n nm) gs h = Ok (map (fun g => [g]) gs') h' /\ split_chain h' t cs1 c cs2 b /\
    (class_chain h' t (cs1 ++ cs2) b \/ (h' = h /\ forall g k, In g gs -> In k (g_tiers (gob h g)) -> t_ec (tob h k) <> c)) /\
    pframe gs (flat_map (tiers_in h) gs) h h' /\ Forall2 (becomes nm c (cs1 ++ cs2) h h') gs gs' /\
    (forall g', In g' gs' -> glive h' g') /\ NoDup gs'.
Proof.
  intros NE. induction gs as [|g gs IH]; intros h SC Nm No Rd (Ng & Nt & Nx).
  - exists [], h. split; [reflexivity|]. split; [exact SC|]. split; [right; split; [reflexivity|intros g k []]|]. split; [apply pframe_refl|]. split; [constructor|].
    split; [intros g' []|constructor].
  - apply NoDup_cons in Ng. destruct Ng as [Ng Ngs]. rewrite elem_of_list_In in Ng. cbn [flat_map] in Nt, Nx.
    rewrite flat_map_app in Nx. apply NoDup_app in Nt. destruct Nt as (_ & Nt2 & Nt3). apply NoDup_app in Nx. destruct Nx as (_ & Nx2 & Nx3).
    assert (Dt : forall k, In k (g_tiers (gob h g)) -> ~ In k (flat_map (tiers_in h) gs)).
    { intros k Hk Q. apply (Nt2 k); apply elem_of_list_In; auto. }
    assert (Dx : forall k x, In k (g_tiers (gob h g)) -> In x (t_seq (tob h k)) -> forall u, In u (flat_map (tiers_in h) gs) -> ~ In x (t_seq (tob h u))).
    { intros k x Hk Hx u Hu Q. apply (Nx2 x); apply elem_of_list_In; apply in_flat_map; eauto. }
    destruct (Rd g) as [Lg R]; [simpl; auto|].
    (* the first group *)
    assert (First : exists g' h1, pop_group n nm g h = Ok [g'] h1 /\ split_chain h1 t cs1 c cs2 b /\
      (class_chain h1 t (cs1 ++ cs2) b \/ (h1 = h /\ forall k, In k (g_tiers (gob h g)) -> t_ec (tob h k) <> c)) /\
      pframe [g] (g_tiers (gob h g)) h h1 /\ becomes nm c (cs1 ++ cs2) h h1 g g' /\ glive h1 g' /\ (g' = g \/ (List.length (h_grp h) <= g')%nat) /\
      (g' = g \/ incl (tiers_but h c g) (g_tiers (gob h g)) /\ class_chain h1 t (cs1 ++ cs2) b)).
    { destruct R as [[R1 (bss & R2)]|R].
      - destruct (pop_one n nm t cs1 c cs2 b g _ bss h SC NE Nm No Lg eq_refl R1 R2) as (h1 & bss' & E & P1 & P2 & P3 & P4 & P5 & P6 & P7 & P8 & P9 & P10).
        exists (List.length (h_grp h)), h1. split; [exact E|]. split; [exact P1|]. split; [auto|]. split; [exact P3|]. split; [|split; [unfold glive; lia|split; [right; lia|right; split; auto]]].
        left. split; [rewrite R1; apply in_app_iff; simpl; auto|]. pose proof P3 as [(_ & _ & _ & _ & _ & _ & C7) _ _ _ _ _ _]. pose proof P7 as (_ & _ & P7' & _).
        split; [lia|]. split; [exact P7'|]. split; [|split].
        + split; [rewrite P7', <- P4; apply map_ext; intros k; apply C7|]. rewrite P7'. split; [eauto|exact P8].
        + intros m. apply P10.
        + rewrite P7'. intros k x Hk Hx. cbn. rewrite (P9 k x Hk Hx). reflexivity.
      - exists g, h. split.
        + unfold pop_group. rewrite bind_get_grp. mstep. replace (existsb (String.eqb nm) (grp_class_names h g)) with false; [reflexivity|].
          symmetry. apply not_true_is_false. intros Q. apply existsb_exists in Q. destruct Q as (m & Hm & Q). apply String.eqb_eq in Q. subst m.
          apply in_map_iff in Hm. destruct Hm as (k & Q & Hk). apply (R k Hk Q).
        + split; [exact SC|]. split; [right; split; [reflexivity|]; intros k Hk Q; apply (R k Hk); rewrite Q; exact Nm|]. split; [apply pframe_refl|].
          split; [right; auto|]. auto. }
    destruct First as (g' & h1 & E1 & SC1 & CC1 & PF1 & Bc & Lg' & Fr & Cc).
    pose proof PF1 as [(B1 & B2 & B3 & B4 & B5 & B6 & B7) A2 A3 A4 A5 A6 A7].
    assert (Lgs : forall k, In k gs -> glive h k /\ k <> g) by (intros k Hk; split; [apply Rd; simpl; auto|intros ->; contradiction]).
    assert (Gs : forall k, In k gs -> gob h1 k = gob h k).
    { intros k Hk. destruct (Lgs k Hk) as [L1 L2]. apply A7; [exact L1|]. intros [Q|[]]; congruence. }
    assert (Fm : flat_map (tiers_in h1) gs = flat_map (tiers_in h) gs).
    { clear -Gs. induction gs as [|k gs IH]; [reflexivity|]. cbn [flat_map]. rewrite IH by (intros q Hq; apply Gs; simpl; auto). unfold tiers_in at 1 3. rewrite Gs by (simpl; auto). reflexivity. }
    destruct (IH h1) as (gs' & h2 & E2 & SC2 & CC2 & PF2 & Bs & Lgs' & Nd'); auto.
    { rewrite A4. exact Nm. }
    { intros x Hx. rewrite A4. auto. }
    { intros k Hk. apply (ready_group_same nm (cs1 ++ c :: cs2) [g] (g_tiers (gob h g)) h h1 k PF1).
      - intros [Q|[]]. subst k. contradiction.
      - intros u Hu Q. apply (Dt u Q). apply in_flat_map. eauto.
      - intros u x Hu Hx v Hv Hxv. apply (Dx v x Hv Hxv u); [apply in_flat_map; eauto|exact Hx].
      - apply Rd. simpl; auto. }
    { split; [exact Ngs|]. rewrite Fm. split; [exact Nt3|].
      rewrite (flat_map_ext (entries_in h1) (entries_in h)); [exact Nx3|]. intros k. apply B7. }
    rewrite Fm in PF2. pose proof PF2 as [(C1 & C2 & C3 & C4 & C5 & C6 & C7) D2 D3 D4 D5 D6 D7].
    exists (g' :: gs'), h2.
    assert (Em : mapM (pop_group n nm) (g :: gs) h = Ok (map (fun g0 => [g0]) (g' :: gs')) h2).
    { cbn [mapM map]. rewrite (bind_ok _ _ _ _ _ E1). rewrite (bind_ok _ _ _ _ _ E2). reflexivity. }
    split; [exact Em|]. split; [exact SC2|].
    assert (Ng' : ~ In g' gs).
    { intros Q. destruct (Lgs g' Q) as [L1 L2]. destruct Fr as [Fr|Fr]; [congruence|]. unfold glive in L1. lia. }
    split; [|split; [|split; [|split]]].
    + destruct CC2 as [CC2|[-> CC2]]; [auto|]. destruct CC1 as [CC1|[-> CC1]]; [auto|]. right. split; [reflexivity|]. intros k u [<-|Hk]; [apply CC1|apply CC2; exact Hk].
    + exact (pframe_trans [g] gs _ _ h h1 h2 PF1 PF2).
    + constructor.
      * destruct Bc as [[Bc1 Bc2]|(Bc1 & -> & Bc2 & Bc3)].
        -- left. split; [exact Bc1|]. destruct Cc as [Cc|[Cc1 Cc2]].
           { exfalso. destruct Bc2 as (Q & _). unfold glive in Lg. lia. }
           apply (without_later c (cs1 ++ cs2) gs (flat_map (tiers_in h) gs) h h1 h2 g g' t b); auto.
           ++ intros k x Hk Hx u Hu. destruct (B7 u) as (-> & _). destruct (B7 k) as (Q & _). rewrite Q in Hx. apply (Dx k x); auto.
           ++ destruct CC2 as [CC2|[-> CC2]]; auto.
        -- right. split; [exact Bc1|]. split; [reflexivity|]. rewrite D7 by auto. auto.
      * eapply Forall2_weaken; [exact Bs|]. intros k k' Hk Hk' Q. destruct (Lgs k Hk) as [L1 L2]. pose proof (Gs k Hk) as Gk. unfold becomes in *. rewrite Gk in Q.
        destruct Q as [[Q1 (Q2 & Q3 & Q4 & Q5)]|(Q1 & Q2 & Q3 & Q4)].
        -- left. split.
           { erewrite map_ext; [exact Q1|]. intros u. symmetry. apply B7. }
           rewrite (tiers_but_same [g] (g_tiers (gob h g)) h h1 c k PF1 L1) in Q3 by (intros [Q|[]]; congruence).
           rewrite Gk in Q5. split; [lia|]. auto.
        -- right. split; [|auto]. intros u Hu. destruct (B7 u) as (_ & E & _). rewrite <- E, <- A4. apply Q1, Hu.
    + intros k [<-|Hk]; [unfold glive in *; lia|auto].
    + apply NoDup_cons. split; [|exact Nd']. rewrite elem_of_list_In. intros Q.
      destruct (Forall2_in_r _ _ _ g' Bs Q) as (k & Hk & Q'). destruct Q' as [[_ (Q1 & _)]|(_ & -> & _)]; [unfold glive in Lg'; lia|contradiction].
Qed.

(** ** The grid *)
Lemma within_all w : forall gs h, (forall g, In g gs -> glive h g) ->
  exists h', forM gs (fun g => mod_grp g (set_g_within w)) h = Ok tt h' /\
    h_cls h' = h_cls h /\ h_seq h' = h_seq h /\ h_tier h' = h_tier h /\ h_grid h' = h_grid h /\ List.length (h_grp h') = List.length (h_grp h) /\
    (forall g, In g gs -> gob h' g = set_g_within w (gob h g)) /\ (forall g, ~ In g gs -> gob h' g = gob h g).
Proof.
  induction gs as [|g gs IH]; intros h L.
  - exists h. split; [reflexivity|]. repeat (split; [reflexivity|]). split; [intros g []|auto].
  - set (h1 := upd_grp g (set_g_within w) h).
    destruct (IH h1) as (h' & E & A1 & A2 & A3 & A4 & A5 & A6 & A7).
    { intros k Hk. unfold glive, h1. rewrite len_upd_grp. apply L. simpl; auto. }
    exists h'. split; [cbn [forM]; rewrite (bind_ok _ _ _ tt h1) by reflexivity; exact E|].
    split; [exact A1|]. split; [exact A2|]. split; [exact A3|]. split; [exact A4|]. split; [rewrite A5; unfold h1; apply len_upd_grp|].
    assert (G1 : gob h1 g = set_g_within w (gob h g)) by (unfold h1; apply gob_upd_eq; apply L; simpl; auto).
    split.
    + intros k Hk. destruct (Nat.eq_dec k g) as [->|Nk].
      * destruct (in_dec Nat.eq_dec g gs) as [Q|Q]; [rewrite A6 by exact Q|rewrite A7 by exact Q]; rewrite G1; [destruct (gob h g)|]; reflexivity.
      * destruct Hk as [Q|Hk]; [congruence|]. rewrite A6 by exact Hk. unfold h1. rewrite gob_upd_ne by exact Nk. reflexivity.
    + intros k Hk. rewrite A7 by (intros Q; apply Hk; simpl; auto). unfold h1. apply gob_upd_ne. intros ->. apply Hk. simpl; auto.
Qed.
Definition same_but_within (o o' : grpobj) : Prop :=
  g_points o' = g_points o /\ g_tiers o' = g_tiers o /\ g_contains o' = g_contains o /\ g_name o' = g_name o.
Lemma becomes_regroup nm c cs h h1 h2 g g' : h_cls h2 = h_cls h1 -> h_seq h2 = h_seq h1 -> h_tier h2 = h_tier h1 ->
  List.length (h_grp h2) = List.length (h_grp h1) -> (forall k, same_but_within (gob h1 k) (gob h2 k)) ->
  becomes nm c cs h h1 g g' -> becomes nm c cs h h2 g g'.
Proof.
  intros Ec Es Et Lg Gk.
  assert (S2 : forall i, sob h2 i = sob h1 i) by (intros i; unfold sob; rewrite Es; reflexivity).
  assert (T2 : forall i, tob h2 i = tob h1 i) by (intros i; unfold tob; rewrite Et; reflexivity).
  intros [[Q1 (W1 & W2 & (W3 & (bss & W4) & W5) & W6 & W7)]|(Q1 & Q2 & Q3 & Q4)].
  - left. split; [exact Q1|]. destruct (Gk g') as (G1 & G2 & G3 & G4). split; [exact W1|]. rewrite G2, G4. split; [exact W2|]. unfold full_group. rewrite G2.
    split; [split; [|split]|split].
    + rewrite <- W3. apply map_ext. intros k. rewrite T2. reflexivity.
    + exists bss. apply (good_same h1 h2); auto.
      * destruct W4 as (Q & _). lia.
      * rewrite Et. reflexivity.
      * rewrite Es. lia.
      * intros t x _ _. rewrite S2. split; [apply GroupFinal.kept_refl|auto].
      * intros t x _ _. rewrite S2. reflexivity.
      * intros k (P1 & P2). split; [rewrite Es; exact P1|]. rewrite !S2. exact P2.
      * intros x y. apply issubclass_ext. exact Ec.
      * apply (classes_joined_same h1 h2); [exact Ec|intros t _; rewrite T2; reflexivity|]. apply W4.
    + intros t x Ht. rewrite T2, S2. apply W5. exact Ht.
    + exact W6.
    + intros t x Ht. rewrite T2. cbn. rewrite S2. apply (W7 t x Ht).
  - right. destruct (Gk g) as (G1 & G2 & G3 & G4). rewrite G2, G4. auto.
Qed.
Lemma aob_upd_eq h i f : alive h i -> aob (upd_grid i f h) i = f (aob h i).
Proof.
  unfold alive, aob, upd_grid; simpl; intros Hl. rewrite default_alter.
  destruct (decide (i = i)); [|congruence]. destruct (decide _); [reflexivity|contradiction].
Qed.
Lemma aob_upd_ne h i f j : j <> i -> aob (upd_grid i f h) j = aob h j.
Proof. intros. unfold aob, upd_grid; simpl. rewrite list_lookup_alter_ne; auto. Qed.
Lemma len_upd_grid h i f : List.length (h_grid (upd_grid i f h)) = List.length (h_grid h).
Proof. unfold upd_grid; simpl. apply alter_length. Qed.
Lemma tier_groups_ok a gs h : gs <> [] -> alive h a -> (forall g, In g gs -> glive h g) ->
  exists h', (set_tier_groups a gs ;;; (o <- get_grid a ;; forM (a_groups o) (fun g => mod_grp g (set_g_within (Some (WGrid a)))))) h = Ok tt h' /\
    h_cls h' = h_cls h /\ h_seq h' = h_seq h /\ h_tier h' = h_tier h /\ List.length (h_grp h') = List.length (h_grp h) /\
    List.length (h_grid h') = List.length (h_grid h) /\ aob h' a = set_a_groups gs (aob h a) /\ (forall k, k <> a -> aob h' k = aob h k) /\
    (forall g, In g gs -> gob h' g = set_g_within (Some (WGrid a)) (gob h g)) /\ (forall g, ~ In g gs -> gob h' g = gob h g).
Proof.
  intros Ne La Lg. set (h1 := upd_grid a (set_a_groups gs) h).
  assert (A1 : aob h1 a = set_a_groups gs (aob h a)).
  { unfold h1. apply aob_upd_eq. exact La. }
  destruct (within_all (Some (WGrid a)) gs h1) as (h2 & E2 & B1 & B2 & B3 & B4 & B5 & B6 & B7); [exact Lg|].
  assert (A2 : aob h2 a = aob h1 a) by (unfold aob; rewrite B4; reflexivity).
  destruct (within_all (Some (WGrid a)) gs h2) as (h3 & E3 & C1 & C2 & C3 & C4 & C5 & C6 & C7).
  { intros g Hg. unfold glive. rewrite B5. apply Lg, Hg. }
  exists h3. split.
  { unfold set_tier_groups. destruct gs as [|g0 gs0]; [congruence|]. set (gs := g0 :: gs0) in *. rewrite bind_assoc.
    rewrite (bind_ok _ _ _ tt h1) by reflexivity. rewrite (bind_ok _ _ _ _ _ E2).
    change (get_grid a) with (gets (fun h => aob h a)). rewrite bind_gets, A2, A1. exact E3. }
  split; [rewrite C1; exact B1|]. split; [rewrite C2; exact B2|]. split; [rewrite C3; exact B3|]. split; [rewrite C5; exact B5|].
  split; [rewrite C4, B4; unfold h1; apply len_upd_grid|]. split; [unfold aob; rewrite C4; fold (aob h2 a); rewrite A2; exact A1|].
  split; [intros k Hk; unfold aob; rewrite C4, B4; fold (aob h1 k); unfold h1; apply aob_upd_ne; exact Hk|]. split.
  - intros g Hg. rewrite C6, B6 by exact Hg. change (gob h1 g) with (gob h g). destruct (gob h g). reflexivity.
  - intros g Hg. rewrite C7, B7 by exact Hg. reflexivity.
Qed.

Lemma c51_pop : forall n h a t cs1 c cs2 b nm gs, class_table h -> class_chain h t (cs1 ++ c :: cs2) b ->
  unrelated h (t :: (cs1 ++ c :: cs2) ++ [b]) -> (cs1 ++ cs2)%list <> [] ->
  (forall x, In x (cs1 ++ c :: cs2) -> plain_name (class_name h x)) ->
  str_in "Bottom" (class_name h t) = false -> str_in "Top" (class_name h b) = false ->
  class_name h c = nm -> (forall x, In x (cs1 ++ cs2) -> class_name h x <> nm) ->
  (a < List.length (h_grid h))%nat -> a_groups (aob h a) = gs -> apart_groups h gs ->
  (forall g, In g gs -> (g < List.length (h_grp h))%nat /\
     (full_group h (cs1 ++ c :: cs2) g \/ forall k, In k (g_tiers (gob h g)) -> class_name h (t_ec (tob h k)) <> nm)) ->
  (exists g, In g gs /\ full_group h (cs1 ++ c :: cs2) g) ->
  exists gs' h', pop_class n a nm h = Ok tt h' /\ a_groups (aob h' a) = gs' /\ NoDup gs' /\
    Forall2 (becomes nm c (cs1 ++ cs2) h h') gs gs' /\
    (forall g', In g' gs' -> g_within (gob h' g') = Some (WGrid a)) /\
    class_chain h' t (cs1 ++ cs2) b /\ same_content (flat_map (tiers_in h) gs) h h' /\
    List.length (h_grid h') = List.length (h_grid h) /\ (forall k, k <> a -> aob h' k = aob h k) /\
    class_table h' /\ List.length (h_cls h') = List.length (h_cls h) /\ (forall x, class_name h' x = class_name h x) /\
    (forall x y, issubclass h' x y = issubclass h x y).
Proof.
  intros n h a t cs1 c cs2 b nm gs T C UN NE PN Nt Nb Nm No La Ga Ap Rd (g0 & Hg0 & Fg0).
  pose proof (split_of h t cs1 c cs2 b T C UN PN Nt Nb) as SC.
  destruct (pop_all n nm t cs1 c cs2 b NE gs h SC Nm No) as (gs' & h1 & E & SC1 & CC & PF & Bc & Lg & Nd); auto.
  { intros g Hg. destruct (Rd g Hg) as [Lg [(F1 & (bss & F2) & F3)|F]]; split; auto. left. split; [exact F1|]. exists bss. eapply good_laid; eauto. }
  assert (CC1 : class_chain h1 t (cs1 ++ cs2) b).
  { destruct CC as [CC|[_ CC]]; [exact CC|]. exfalso. destruct Fg0 as (F1 & _).
    assert (Q : In c (map (fun k => t_ec (tob h k)) (g_tiers (gob h g0)))) by (rewrite F1; apply in_app_iff; simpl; auto).
    apply in_map_iff in Q. destruct Q as (k & Q & Hk). apply (CC g0 k Hg0 Hk Q). }
  pose proof PF as [Ct P2 P3 P4 P5 P6 P7 P8].
  assert (Ne : gs' <> []).
  { intros ->. inversion Bc; subst. rewrite <- H0 in Hg0. destruct Hg0. }
  destruct (tier_groups_ok a gs' h1 Ne) as (h2 & E2 & D1 & D2 & D3 & D4 & D5 & D6 & D7 & D8 & D9); auto.
  { unfold alive. rewrite P5. exact La. }
  assert (Cn : concat (map (fun g => [g]) gs') = gs') by (clear; induction gs'; cbn; [reflexivity|f_equal; auto]).
  assert (S2 : forall i, sob h2 i = sob h1 i) by (intros i; unfold sob; rewrite D2; reflexivity).
  assert (T2 : forall i, tob h2 i = tob h1 i) by (intros i; unfold tob; rewrite D3; reflexivity).
  exists gs', h2. split.
  { unfold pop_class. rewrite bind_gets, Ga. rewrite (bind_ok _ _ _ _ _ E). rewrite Cn. exact E2. }
  split; [rewrite D6; reflexivity|]. split; [exact Nd|]. split; [|split; [|split; [|split; [|split; [|split; [|split; [|split; [|split]]]]]]]].
  - eapply Forall2_weaken; [exact Bc|]. intros g g' _ _ Q. apply (becomes_regroup nm c (cs1 ++ cs2) h h1 h2); auto.
    intros k. destruct (in_dec Nat.eq_dec k gs') as [Q'|Q']; [rewrite D8 by exact Q'|rewrite D9 by exact Q']; repeat split.
  - intros g' Hg'. rewrite D8 by exact Hg'. reflexivity.
  - destruct CC1 as (V1 & V2 & V3 & V4 & V5 & V6). split; [exact V1|]. split; [exact V2|]. rewrite !(issubclass_ext h1 h2) by exact D1. split; [exact V3|]. split; [exact V4|].
    split; [intros x Hx; rewrite (issubclass_ext h1 h2) by exact D1; auto|]. intros i x y Hx Hy. destruct (V6 i x y Hx Hy) as [X1 X2].
    split; [rewrite (subset_class_ext h1 h2) by exact D1; exact X1|]. unfold superset_class in *. rewrite D1. exact X2.
  - destruct Ct as (C1 & C2 & C3 & C4 & C5 & C6 & C7). unfold same_content. rewrite D2, D3. split; [exact C1|].
    split; [intros i Hi; rewrite S2; auto|]. split; [intros i Hi Hn; rewrite S2; auto|].
    split; [intros i Hi; destruct (C4 i Hi) as (Y1 & Y2); split; [rewrite D2; exact Y1|rewrite !S2; exact Y2]|].
    split; [exact C5|]. split; [intros k Hk; rewrite T2; auto|]. intros k. rewrite T2. auto.
  - rewrite D5, P5. reflexivity.
  - intros k Hk. rewrite D7 by exact Hk. unfold aob. rewrite P5. reflexivity.  - pose proof (sc_table _ _ _ _ _ _ SC1) as (V1 & V2 & V3). unfold class_table, cob in *. rewrite D1. auto.
  - rewrite D1. exact P8.
  - intros x. rewrite <- P4. unfold class_name, cob. rewrite D1. reflexivity.
  - intros x y. rewrite (issubclass_ext h1 h2) by exact D1. apply P3.
Qed.

(** Removing a class that no tier of the grid has. *)
Lemma c51_absent : forall n h a nm gs, (a < List.length (h_grid h))%nat -> a_groups (aob h a) = gs -> gs <> [] ->
  (forall g, In g gs -> (g < List.length (h_grp h))%nat /\ forall k, In k (g_tiers (gob h g)) -> class_name h (t_ec (tob h k)) <> nm) ->
  exists h', pop_class n a nm h = Ok tt h' /\ h_cls h' = h_cls h /\ h_seq h' = h_seq h /\ h_tier h' = h_tier h /\
    a_groups (aob h' a) = gs /\ (forall k, k <> a -> aob h' k = aob h k) /\
    (forall g, In g gs -> gob h' g = set_g_within (Some (WGrid a)) (gob h g)) /\ (forall g, ~ In g gs -> gob h' g = gob h g).
Proof.
  intros n h a nm gs La Ga Ne Rd.
  assert (E : mapM (pop_group n nm) gs h = Ok (map (fun g => [g]) gs) h).
  { clear Ga Ne. induction gs as [|g gs IH]; [reflexivity|]. cbn [mapM map].
    assert (E1 : pop_group n nm g h = Ok [g] h).
    { unfold pop_group. rewrite bind_get_grp. mstep. replace (existsb (String.eqb nm) (grp_class_names h g)) with false; [reflexivity|].
      symmetry. apply not_true_is_false. intros Q. apply existsb_exists in Q. destruct Q as (m & Hm & Q). apply String.eqb_eq in Q. subst m.
      apply in_map_iff in Hm. destruct Hm as (k & Q & Hk). apply (Rd g) with k; simpl; auto. }
    rewrite (bind_ok _ _ _ _ _ E1). rewrite (bind_ok _ _ _ _ _ (IH ltac:(intros k Hk; apply Rd; simpl; auto))). reflexivity. }
  destruct (tier_groups_ok a gs h Ne La) as (h2 & E2 & D1 & D2 & D3 & D4 & D5 & D6 & D7 & D8 & D9); [intros g Hg; apply Rd, Hg|].
  exists h2. split.
  { unfold pop_class. rewrite bind_gets, Ga. rewrite (bind_ok _ _ _ _ _ E).
    replace (concat (map (fun g => [g]) gs)) with gs by (clear; induction gs; cbn; [reflexivity|f_equal; auto]). exact E2. }
  split; [exact D1|]. split; [exact D2|]. split; [exact D3|]. split; [rewrite D6; reflexivity|]. auto.
Qed.
End WithEnv.
