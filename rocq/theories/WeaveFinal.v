(** * WeaveFinal: adding a class of tiers to a grid (C52). *)
From Verif Require Export PopFinal WeaveSpec.
From Verif Require OutputFinal.
Open Scope Z_scope.

(** ** Intervals with the same times *)
Definition spans_as (h : heap) (y x : oid) : Prop := s_start (sob h x) = s_start (sob h y) /\ s_end (sob h x) = s_end (sob h y).
Lemma tiles_as h : forall l l', Forall2 (spans_as h) l l' -> forall a b, tiles h a l b -> tiles h a l' b.
Proof.
  induction 1 as [|y x l l' [S1 S2] F IH]; intros a b T; [exact T|]. destruct T as (m & T1 & T2 & T3 & T4).
  exists m. split; [congruence|]. split; [congruence|]. split; [exact T3|]. apply IH. exact T4.
Qed.
Lemma fills_as h u b b' : Forall2 (spans_as h) b b' -> fills h u b -> fills h u b'.
Proof. intros F (s & e & A & B & C & D). exists s, e. split; [exact A|]. split; [exact B|]. split; [exact C|]. eapply tiles_as; eauto. Qed.
Lemma fills_host h u v b : spans_as h u v -> fills h u b -> fills h v b.
Proof. intros [S1 S2] (s & e & A & B & C & D). exists s, e. split; [congruence|]. split; [congruence|]. auto. Qed.
Lemma cut_as {A B} (R : A -> B -> Prop) : forall bs l, Forall2 R (concat bs) l -> exists bs', concat bs' = l /\ Forall2 (Forall2 R) bs bs'.
Proof.
  induction bs as [|b bs IH]; intros l F; cbn [concat] in F.
  - inversion F; subst. exists []. split; [reflexivity|constructor].
  - apply Forall2_app_inv_l in F. destruct F as (l1 & l2 & F1 & F2 & ->). destruct (IH l2 F2) as (bs' & Q1 & Q2).
    exists (l1 :: bs'). split; [cbn [concat]; congruence|]. constructor; auto.
Qed.
Lemma blocks_as h : forall U bs bs', Forall2 (fills h) U bs -> Forall2 (Forall2 (spans_as h)) bs bs' -> Forall2 (fills h) U bs'.
Proof.
  intros U bs bs' F. revert bs'. induction F as [|u b U bs F1 F2 IH]; intros bs' Q; inversion Q; subst; constructor; auto.
  eapply fills_as; eauto.
Qed.
Lemma hosts_as h : forall U V bs, Forall2 (spans_as h) U V -> Forall2 (fills h) U bs -> Forall2 (fills h) V bs.
Proof.
  intros U V bs S. revert bs. induction S as [|u v U V S1 S2 IH]; intros bs F; inversion F; subst; constructor; auto. eapply fills_host; eauto.
Qed.
Lemma fills_self h x : dated h x -> fills h x [x].
Proof. intros (A & B & C). eexists _, _. split; [exact A|]. split; [exact B|]. split; [exact C|]. exists (snd (span_of h x)). split; [exact A|]. split; [exact B|]. split; [exact C|reflexivity]. Qed.
Lemma singles_fill h l : (forall x, In x l -> dated h x) -> Forall2 (fills h) l (map (fun x => [x]) l).
Proof.
  induction l as [|x l IH]; intros D; constructor; [apply fills_self, D; simpl; auto|]. apply IH. intros y Hy. apply D. simpl; auto.
Qed.
Lemma concat_singles {A} (l : list A) : concat (map (fun x => [x]) l) = l.
Proof. induction l; cbn; [reflexivity|congruence]. Qed.
Lemma spans_sym h U V : Forall2 (spans_as h) U V -> Forall2 (spans_as h) V U.
Proof. induction 1 as [|u v U V [A B] _ IH]; constructor; auto. split; congruence. Qed.
(** A copy of the tier below. *)
Lemma snug_over h k q : Forall2 (spans_as h) (t_seq (tob h q)) (t_seq (tob h k)) -> (forall x, In x (t_seq (tob h q)) -> dated h x) ->
  forall ts1 ts2 bss, snug h (ts1 ++ q :: ts2) bss -> exists bss', snug h (ts1 ++ k :: q :: ts2) bss'.
Proof.
  intros F D. induction ts1 as [|u ts1 IH]; intros ts2 bss S.
  - exists (map (fun x => [x]) (t_seq (tob h q)) :: bss). cbn [app]. rewrite snug_cons. split; [apply concat_singles|]. split; [|exact S].
    apply (hosts_as h (t_seq (tob h q))); [exact F|]. apply singles_fill. exact D.
  - destruct ts1 as [|v ts1].
    + cbn [app] in *. destruct bss as [|bs bss]; [destruct S|]. rewrite snug_cons in S. destruct S as (S1 & S2 & S3).
      rewrite <- S1 in F. destruct (cut_as _ _ _ F) as (bs' & Q1 & Q2). destruct (IH ts2 bss S3) as (bss' & S').
      exists (bs' :: bss'). rewrite snug_cons. split; [exact Q1|]. split; [eapply blocks_as; eauto|exact S'].
    + cbn [app] in *. destruct bss as [|bs bss]; [destruct S|]. rewrite snug_cons in S. destruct S as (S1 & S2 & S3).
      destruct (IH ts2 bss S3) as (bss' & S'). exists (bs :: bss'). rewrite snug_cons. auto.
Qed.
(** A copy of the tier above. *)
Lemma snug_under h k q : Forall2 (spans_as h) (t_seq (tob h q)) (t_seq (tob h k)) -> (forall x, In x (t_seq (tob h q)) -> dated h x) ->
  forall ts1 ts2 bss, snug h (ts1 ++ q :: ts2) bss -> exists bss', snug h (ts1 ++ q :: k :: ts2) bss'.
Proof.
  intros F D. assert (Sg : exists bs, concat bs = t_seq (tob h k) /\ Forall2 (fills h) (t_seq (tob h q)) bs).
  { pose proof F as F'. rewrite <- (concat_singles (t_seq (tob h q))) in F'. destruct (cut_as _ _ _ F') as (bs & Q1 & Q2). exists bs. split; [exact Q1|].
    eapply blocks_as; [apply singles_fill; exact D|exact Q2]. }
  destruct Sg as (bs0 & G1 & G2).
  induction ts1 as [|u ts1 IH]; intros ts2 bss S.
  - cbn [app] in *. destruct ts2 as [|v ts2].
    + exists [bs0]. rewrite snug_cons. split; [exact G1|]. split; [exact G2|exact I].
    + destruct bss as [|bs bss]; [destruct S|]. rewrite snug_cons in S. destruct S as (S1 & S2 & S3).
      exists (bs0 :: bs :: bss). rewrite snug_cons. split; [exact G1|]. split; [exact G2|]. rewrite snug_cons. split; [exact S1|]. split; [|exact S3].
      eapply hosts_as; eauto.
  - destruct ts1 as [|v ts1].
    + cbn [app] in *. destruct bss as [|bs bss]; [destruct S|]. rewrite snug_cons in S. destruct S as (S1 & S2 & S3).
      destruct (IH ts2 bss S3) as (bss' & S'). exists (bs :: bss'). rewrite snug_cons. auto.
    + cbn [app] in *. destruct bss as [|bs bss]; [destruct S|]. rewrite snug_cons in S. destruct S as (S1 & S2 & S3).
      destruct (IH ts2 bss S3) as (bss' & S'). exists (bs :: bss'). rewrite snug_cons. auto.
Qed.
Lemma turn_as h l l' : Forall2 (spans_as h) l l' -> in_turn h l -> in_turn h l'.
Proof.
  intros F T i j x y Hij Hx Hy.
  assert (G : forall n z, nth_error l' n = Some z -> exists w, nth_error l n = Some w /\ spans_as h w z).
  { clear -F. induction F as [|a b l l' R F IH]; intros n z Hz; [destruct n; discriminate|]. destruct n as [|n]; [injection Hz as <-; exists a; auto|apply (IH n z Hz)]. }
  destruct (G i x Hx) as (a & Ha & Sa1 & Sa2). destruct (G j y Hy) as (b & Hb & Sb1 & Sb2). destruct (T i j a b Hij Ha Hb) as (e & s & Q1 & Q2 & Q3).
  exists e, s. split; [congruence|]. split; [congruence|exact Q3].
Qed.
Lemma dated_as h l l' : Forall2 (spans_as h) l l' -> (forall x, In x l -> dated h x) -> forall x, In x l' -> dated h x.
Proof.
  intros F D x Hx. destruct (Forall2_in_r _ _ _ x F Hx) as (y & Hy & S1 & S2). destruct (D y Hy) as (D1 & D2 & D3).
  apply (dated_by h x (fst (span_of h y)) (snd (span_of h y))); congruence.
Qed.

(** ** Copying *)
Definition raw_of (h : heap) (y : oid) : entry := ERaw (s_start (sob h y)) (s_end (sob h y)) (s_label (sob h y)).
Lemma copy_loop c : forall src h, (forall y, In y src -> live h y) ->
  mapM (fun y => yo <- get_seq y ;; new_obj c (s_start yo) (s_end yo) (s_label yo)) src h = mapM (cast_entry c) (map (raw_of h) src) h.
Proof.
  induction src as [|y src IH]; intros h L; [reflexivity|]. cbn [mapM map]. unfold raw_of at 1. cbn [cast_entry].
  destruct (new_obj_frame c (s_start (sob h y)) (s_end (sob h y)) (s_label (sob h y)) h) as (h1 & E & _ & F).
  rewrite (bind_ok _ _ _ (List.length (h_seq h)) h1); [|rewrite bind_get_seq; exact E]. rewrite (bind_ok _ _ _ _ _ E).
  assert (R : map (raw_of h) src = map (raw_of h1) src).
  { apply map_ext_in. intros z Hz. destruct (F z) as [_ Q]; [apply L; simpl; auto|]. unfold raw_of. rewrite Q. reflexivity. }
  rewrite R. assert (Q : forall z, In z src -> live h1 z) by (intros z Hz; apply F, L; simpl; auto). specialize (IH h1 Q).
  destruct (mapM (cast_entry c) (map (raw_of h1) src) h1) as [v h2|e h2] eqn:Q2; [rewrite (bind_ok _ _ _ _ _ IH), (bind_ok _ _ _ _ _ Q2)|rewrite (bind_raise _ _ _ _ _ IH), (bind_raise _ _ _ _ _ Q2)]; reflexivity.
Qed.
Section WithEnv.
Context `{Env}.
Opaque span_of.

(** ** The new tier *)
Lemma objs_of xs : entry_objs (map EObj xs) = xs.
Proof. unfold entry_objs. induction xs as [|x xs IH]; [reflexivity|]. cbn [map flat_map]. rewrite IH. reflexivity. Qed.
Definition blanked (labels : bool) (l : list oid) (h : heap) : heap := if labels then h else upds (set_s_label "") l h.
Lemma blank_labels (labels : bool) l h : (if labels then ret tt else forM l (fun x => mod_seq x (set_s_label ""))) h = Ok tt (blanked labels l h).
Proof.
  destruct labels; [reflexivity|]. unfold blanked. revert h. induction l as [|x l IH]; intros h; [reflexivity|]. cbn [forM upds].
  rewrite (bind_ok _ _ _ tt (upd_seq x (set_s_label "") h)) by reflexivity. apply IH.
Qed.
Lemma upds_rest f : forall l h, same_rest h (upds f l h).
Proof. induction l as [|z l IH]; intros g; [repeat split|]. cbn [upds]. destruct (IH (upd_seq z f g)) as (Q1 & Q2 & Q3 & Q4). repeat split; assumption. Qed.

Lemma copied_tier h src c sc (labels : bool) : src <> [] ->
  (forall y, In y src -> live h y /\ s_label (sob h y) <> "#"%string /\ dated h y) -> in_turn h src ->
  issubclass h c cInterval = true -> issubclass h c cPoint = false -> superset_class h c = Some sc ->
  let nt := List.length (h_tier h) in
  exists xs h1 h2 h3, mapM (fun y => yo <- get_seq y ;; new_obj c (s_start yo) (s_end yo) (s_label yo)) src h = Ok xs h1 /\
    new_itier (FromList (map EObj xs)) None h1 = Ok nt h2 /\ t_seq (tob h2 nt) = xs /\ h3 = blanked labels xs h2 /\
    t_seq (tob h3 nt) = xs /\ t_ec (tob h3 nt) = c /\ t_name (tob h3 nt) = class_name h c /\
    Forall2 (copy_of labels h h3) src xs /\ linkable h3 c xs /\
    (forall x, In x xs -> (List.length (h_seq h) <= x < List.length (h_seq h3))%nat /\ s_super (sob h3 x) = None /\ s_subset (sob h3 x) = []) /\
    (forall x, In x xs -> s_intier (sob h3 x) = Some nt) /\
    (List.length (h_seq h) <= List.length (h_seq h3))%nat /\
    (forall i, live h i -> sob h3 i = sob h i) /\
    (forall i, (List.length (h_seq h) <= i < List.length (h_seq h3))%nat -> ~ In i xs -> is_boundary h3 i) /\
    h_cls h3 = h_cls h /\ h_grp h3 = h_grp h /\ h_grid h3 = h_grid h /\ List.length (h_tier h3) = S nt /\
    (forall u, (u < nt)%nat -> tob h3 u = tob h u).
Proof.
  intros Ne Ls Tn Ci Cp Cs nt.
  assert (Us : usable h cInterval (map (raw_of h) src)).
  { split.
    - replace (entry_objs (map (raw_of h) src)) with (@nil oid); [constructor|]. clear. induction src as [|y l IH]; [reflexivity|exact IH].
    - intros e He. apply in_map_iff in He. destruct He as (y & <- & Hy). destruct (Ls y Hy) as (_ & Q & D & _). cbn. split; [exact Q|]. split; [eauto|exact I]. }
  destruct (cast_entries_ok c cInterval (map (raw_of h) src) h Us) as (xs & h1 & E1 & M & ND & F & _ & Ln & B & Lv & SR).
  { unfold kind_of, is_point_cls. rewrite Cp. reflexivity. }
  destruct SR as (R1 & R2 & R3 & R4).
  assert (Nobj : forall i, ~ In i (entry_objs (map (raw_of h) src))).
  { intros i Q. apply entry_objs_in in Q. apply in_map_iff in Q. destruct Q as (y & Q & _). discriminate. }
  assert (M1 : Forall2 (fun y x => (List.length (h_seq h) <= x)%nat /\ s_cls (sob h1 x) = c /\ s_start (sob h1 x) = s_start (sob h y) /\
      s_end (sob h1 x) = s_end (sob h y) /\ s_label (sob h1 x) = s_label (sob h y) /\ s_super (sob h1 x) = None /\ s_subset (sob h1 x) = []) src xs).
  { clear -M. revert xs M. induction src as [|y l IH]; intros xs M; inversion M as [|? x ? xs' M1 M2]; subst; constructor; [|apply IH; exact M2].
    destruct M1 as (Q1 & Q2 & Q3 & Q4 & Q5). cbn in Q2. injection Q2 as Qa Qb Qc. auto 10. }
  assert (Xs : forall x, In x xs -> exists y, In y src /\ (List.length (h_seq h) <= x)%nat /\ s_cls (sob h1 x) = c /\ s_start (sob h1 x) = s_start (sob h y) /\
      s_end (sob h1 x) = s_end (sob h y) /\ s_label (sob h1 x) = s_label (sob h y) /\ s_super (sob h1 x) = None /\ s_subset (sob h1 x) = []).
  { intros x Hx. destruct (Forall2_in_r _ _ _ x M1 Hx) as (y & Hy & Q). eauto. }
  assert (Sb1 : forall x y, issubclass h1 x y = issubclass h x y) by (intros x y; apply issubclass_ext; exact R1).
  destruct (c18_built h1 (FromList (map EObj xs)) None c sc (map EObj xs)) as (t & h2 & ents & E2 & P & Io & Md & _ & _ & Itr & _ & Te & Tn2 & Oa & _).
  { reflexivity. }
  { cbn. destruct src as [|y src]; [congruence|]. inversion M1 as [|? x ? xs' Q1 Q2]; subst. cbn. symmetry. apply Q1. }
  { rewrite Sb1. exact Cp. }
  { unfold superset_class in *. rewrite R1. exact Cs. }
  { split; [rewrite objs_of; exact ND|]. intros e He. apply in_map_iff in He. destruct He as (x & <- & Hx). destruct (Xs x Hx) as (y & Hy & Q1 & Q2 & Q3 & Q4 & Q5 & _).
    destruct (Ls y Hy) as (_ & Q & D & _). cbn [entry_value fst snd]. split; [congruence|]. split; [rewrite Q3; eauto|]. split; [apply Lv, Hx|]. rewrite Q2, Sb1. exact Ci. }
  assert (Ents : ents = map EObj xs).
  { apply Io. intros i j a b Hij Ha Hb. rewrite nth_error_map in Ha, Hb.
    destruct (nth_error xs i) as [x|] eqn:Ex; [|discriminate]. destruct (nth_error xs j) as [x'|] eqn:Ex'; [|discriminate]. injection Ha as <-. injection Hb as <-. cbn.
    destruct (TierFinal.Forall2_nth _ _ _ _ _ M1 Ex) as (y & Hy & Q1 & Q2 & Q3 & _). destruct (TierFinal.Forall2_nth _ _ _ _ _ M1 Ex') as (y' & Hy' & Q1' & Q2' & Q3' & _).
    destruct (Tn i j y y' Hij Hy Hy') as (e & s & T1 & T2 & T3). destruct (Ls y) as (_ & _ & D1 & D2 & D3); [eapply nth_error_In; eauto|].
    exists (fst (span_of h y)), s. split; [congruence|]. split; [congruence|]. assert (snd (span_of h y) = e) by congruence. lia. }
  destruct Oa as (O1 & O2 & O3 & O4 & O5 & O6 & O7 & O8 & O9).
  assert (Et : t = nt) by (unfold nt; rewrite O6, R2; reflexivity). rewrite Et in *. clear Et.
  rewrite Ents in Md.
  assert (Sq : t_seq (tob h2 nt) = xs).
  { clear -Md. remember (t_seq (tob h2 nt)) as l eqn:El. clear El. revert xs Md. induction l as [|z l IH]; intros xs Md; destruct xs as [|x xs]; inversion Md as [|? ? ? ? Q1 Q2]; subst; [reflexivity|].
    destruct Q1 as (_ & _ & -> & _). f_equal. apply IH. exact Q2. }
  rewrite Sq in *.
  set (h3 := blanked labels xs h2).
  assert (L3 : List.length (h_seq h3) = List.length (h_seq h2)) by (unfold h3, blanked; destruct labels; [reflexivity|apply len_upds]).
  assert (R3' : same_rest h2 h3) by (unfold h3, blanked; destruct labels; [repeat split|apply upds_rest]).
  destruct R3' as (B1 & B2 & B3 & B4).
  assert (O3' : forall i, ~ In i xs -> sob h3 i = sob h2 i) by (intros i Hi; unfold h3, blanked; destruct labels; [reflexivity|apply sob_upds_notin; exact Hi]).
  assert (Lv2 : forall x, In x xs -> live h2 x) by (intros x Hx; pose proof (Lv x Hx) as Q; unfold live in *; lia).
  assert (X3 : forall x, In x xs -> sob h3 x = if labels then sob h2 x else set_s_label "" (sob h2 x)).
  { intros x Hx. unfold h3, blanked. destruct labels; [reflexivity|]. apply sob_upds_in; auto. }
  assert (T3 : forall u, tob h3 u = tob h2 u) by (intros u; unfold tob; rewrite B2; reflexivity).
  assert (Md' : forall x, In x xs -> made h1 h2 c (EObj x) x).
  { intros x Hx. destruct (Forall2_in_r _ _ _ x Md Hx) as (e & He & Q). apply in_map_iff in He. destruct He as (z & <- & Hz).
    pose proof Q as (_ & _ & Q' & _). subst z. exact Q. }
  assert (Md2 : Forall2 (fun y x => (List.length (h_seq h) <= x)%nat /\ In x xs /\ s_cls (sob h3 x) = c /\ copy_of labels h h3 y x /\ s_super (sob h3 x) = None /\ s_subset (sob h3 x) = []) src xs).
  { eapply Forall2_weaken; [exact M1|]. intros y x Hy Hx (Q1 & Q2 & Q3 & Q4 & Q5 & Q6 & Q7). destruct (Md' x Hx) as (P1 & P2 & _ & P3 & P4). cbn in P2. injection P2 as P5 P6 P7.
    unfold copy_of. rewrite (X3 x Hx). split; [exact Q1|]. split; [exact Hx|].
    destruct labels; cbn; (split; [congruence|]); (split; [|split; congruence]); repeat split; congruence. }
  exists xs, h1, h2, h3. split; [rewrite <- E1; apply copy_loop; intros y Hy; apply Ls, Hy|]. split; [exact E2|]. split; [exact Sq|]. split; [reflexivity|].
  rewrite !T3. split; [exact Sq|]. split; [exact Te|]. split; [cbn in Tn2; rewrite Tn2; unfold class_name, cob; rewrite R1; reflexivity|].
  split; [eapply Forall2_weaken; [exact Md2|]; intros y x _ _ Q; apply Q|]. split.
  { split; [exact ND|]. intros x Hx. split; [unfold live in *; rewrite L3; apply Lv2, Hx|]. destruct (Forall2_in_r _ _ _ x Md2 Hx) as (y & Hy & _ & _ & Q1 & (_ & _ & Q2) & _).
    split; [exact Q1|]. rewrite Q2. destruct labels; [apply Ls, Hy|discriminate]. }
  split. { intros x Hx. destruct (Forall2_in_r _ _ _ x Md2 Hx) as (y & Hy & Q1 & _ & _ & _ & Q2). split; [|exact Q2]. split; [exact Q1|]. rewrite L3. apply (Lv2 x Hx). }
  split. { intros x Hx. rewrite (X3 x Hx). destruct labels; cbn; apply Itr, Hx. }
  split; [lia|]. split.
  { intros i Hi. assert (Ni : ~ In i xs) by (intros Q; destruct (Xs i Q) as (y & _ & Q1 & _); unfold live in Hi; lia).
    rewrite O3', O1, F by (try exact Ni; unfold live in *; auto; lia). reflexivity. }
  split.
  { intros i Hi Ni. assert (Q : is_boundary h2 i).
    { destruct (le_lt_dec (List.length (h_seq h1)) i) as [Q|Q]; [apply O2; [lia|exact Ni]|].
      destruct (B i) as (V1 & V2); [lia|exact Ni|]. split; [lia|]. rewrite (O1 i Q Ni). exact V2. }
    destruct Q as (V1 & V2). split; [lia|]. rewrite O3' by exact Ni. exact V2. }
  split; [congruence|]. split; [congruence|]. split; [congruence|]. split; [rewrite B2; exact O7|].
  intros u Hu. rewrite T3, O8 by exact Hu. unfold tob. rewrite R2. reflexivity.
Qed.

(** ** One group *)
Record wframe (G : list gid) (T : list tid) (h h' : heap) : Prop := {
  wf_content : more_content T h h';
  wf_bd : forall k, is_boundary h k -> is_boundary h' k;
  wf_cls : h_cls h' = h_cls h;
  wf_grid : h_grid h' = h_grid h;
  wf_glen : (List.length (h_grp h) <= List.length (h_grp h'))%nat;
  wf_grp : forall k, (k < List.length (h_grp h))%nat -> ~ In k G -> gob h' k = gob h k
}.
Lemma find_only {A B} (f : A -> B) (p : A -> bool) l x : NoDup (map f l) -> In x l -> p x = true ->
  (forall y, p y = true -> f y = f x) -> List.find p l = Some x.
Proof.
  intros N Hx Px U. destruct (List.find p l) as [y|] eqn:E.
  - apply find_some in E. destruct E as [Hy Py]. f_equal. apply In_nth_error in Hx. apply In_nth_error in Hy. destruct Hx as [i Hi], Hy as [j Hj].
    assert (i = j); [|congruence]. rewrite NoDup_ListNoDup in N. apply (proj1 (NoDup_nth_error (map f l)) N).
    + rewrite map_length. apply nth_error_Some. congruence.
    + rewrite !nth_error_map, Hi, Hj. simpl. f_equal. symmetry. apply U. exact Py.
  - pose proof (find_none _ _ E x Hx). congruence.
Qed.
Lemma insert_mid {A} (x : A) l1 l2 : insert_at (List.length l1) x (l1 ++ l2) = (l1 ++ x :: l2)%list.
Proof.
  unfold insert_at. rewrite firstn_app, firstn_all, Nat.sub_diag, skipn_app, skipn_all, Nat.sub_diag. cbn. rewrite app_nil_r. reflexivity.
Qed.
Lemma index_mid (d : nat) l1 l2 : ~ In d l1 -> index_of d (l1 ++ d :: l2) = Some (List.length l1).
Proof.
  induction l1 as [|y l1 IH]; intros N; cbn [app index_of List.length].
  - destruct (Nat.eqb_spec d d); [reflexivity|congruence].
  - destruct (Nat.eqb_spec d y) as [->|_]; [exfalso; apply N; simpl; auto|]. rewrite IH; [reflexivity|]. intros Q. apply N. simpl; auto.
Qed.
Lemma index_absent (d : nat) l : ~ In d l -> index_of d l = None.
Proof.
  induction l as [|y l IH]; intros N; cbn [index_of]; [reflexivity|].
  destruct (Nat.eqb_spec d y) as [->|_]; [exfalso; apply N; simpl; auto|]. rewrite IH; [reflexivity|]. intros Q. apply N. simpl; auto.
Qed.
Lemma weave_one n t cs1 c cs2 b sp cp (labels : bool) g ts bss h : class_chain h t (cs1 ++ c :: cs2) b -> ~ In b (cs1 ++ cs2) ->
  issubclass h c cPoint = false -> issubclass h c cTop = false -> issubclass h c cBottom = false ->
  In sp (cs1 ++ cs2) -> (exists r, cs2 = cp :: r) \/ (exists r, cs1 = (r ++ [cp])%list) ->
  glive h g -> g_tiers (gob h g) = ts -> map (fun k => t_ec (tob h k)) ts = (cs1 ++ cs2)%list -> laid h ts bss ->
  (forall k, In k ts -> t_ec (tob h k) = cp -> t_seq (tob h k) <> []) ->
  let g' := List.length (h_grp h) in
  exists h', interleave_group n c (Some sp) (Some cp) (Some (hd b cs2)) labels g h = Ok g' h' /\
    wframe [g] ts h h' /\ List.length (h_grp h') = S g' /\ woven labels cs1 c cs2 cp h h' g g'.
Proof.
  intros CC Nb Cp Ct Cb Isp Wh Lg Gt Em La Ne g'.
  pose proof La as (Okt & N & S & R & B & Tp).
  pose proof CC as (C1 & C2 & C3 & C4 & C5 & C6).
  assert (Ci : issubclass h c cInterval = true) by (apply C5, in_app_iff; simpl; auto).
  pose proof (chain_super _ _ _ _ _ _ _ CC eq_refl) as Csup.
  destruct (map_eq_app _ _ _ _ Em) as (ts1 & ts2 & Ets & E1 & E2).
  assert (Hct : exists ct, In ct ts /\ t_ec (tob h ct) = cp /\ ((exists r, ts2 = ct :: r) \/ (exists r, ts1 = (r ++ [ct])%list))).
  { destruct Wh as [(r & Hr)|(r & Hr)].
    - destruct ts2 as [|ct ts2]; [rewrite Hr in E2; discriminate|]. rewrite Hr in E2. cbn [map] in E2. injection E2 as Q1 Q2.
      exists ct. split; [rewrite Ets; apply in_app_iff; simpl; auto|]. split; [exact Q1|]. eauto.
    - rewrite Hr in E1. destruct (map_eq_app _ _ _ _ E1) as (u1 & u2 & -> & Q1 & Q2). destruct u2 as [|ct [|? ?]]; try discriminate. cbn [map] in Q2. injection Q2 as Q2.
      exists ct. split; [rewrite Ets; apply in_app_iff; left; apply in_app_iff; simpl; auto|]. split; [exact Q2|]. eauto. }
  destruct Hct as (ct & Ict & Ecp & Wct).
  assert (Lv : forall k, In k ts -> in_turn h (t_seq (tob h k)) /\ forall x, In x (t_seq (tob h k)) -> dated h x).
  { apply (laid_levels h ts bss S). intros k Hk. destruct (Tp k Hk) as [A1 A2]. split; [exact A1|]. intros x Hx. apply A2, Hx. }
  assert (Ck0 : forall k x, In k ts -> In x (t_seq (tob h k)) -> live h x /\ s_cls (sob h x) = t_ec (tob h k) /\ s_label (sob h x) <> "#"%string).
  { intros k x Hk Hx. destruct (Okt k Hk) as (_ & (_ & Q) & _). apply Q, Hx. }
  (* the new tier *)
  destruct (copied_tier h (t_seq (tob h ct)) c (List.last cs1 t) labels (Ne ct Ict Ecp)) as (xs & h1 & h2 & h3 & X1 & X2 & X3 & X4 & X5 & X6 & X7 & X8 & X9 & X10 & X10' & X11 & X12 & X13 & X14 & X15 & X16 & X17 & X18).
  { intros y Hy. destruct (Ck0 ct y Ict Hy) as (Q1 & _ & Q2). split; [exact Q1|]. split; [exact Q2|]. apply (Lv ct Ict), Hy. }
  { apply Lv, Ict. }
  { exact Ci. }
  { exact Cp. }
  { exact Csup. }
  set (nt := List.length (h_tier h)) in *.
  assert (Tl : forall k, In k ts -> (k < nt)%nat) by (intros k Hk; apply (Okt k Hk)).
  set (ts' := (ts1 ++ nt :: ts2)%list).
  set (h4 := upd_grp g (set_g_tiers ts') h3).
  assert (Its : forall k, In k ts' -> k = nt \/ In k ts).
  { intros k Hk. unfold ts' in Hk. apply in_app_iff in Hk. rewrite Ets. destruct Hk as [Hk|[Hk|Hk]]; [right|left|right]; auto; apply in_app_iff; auto. }
  assert (Ik : forall k, In k ts -> In k ts').
  { intros k Hk. rewrite Ets in Hk. unfold ts'. apply in_app_iff in Hk. apply in_app_iff. simpl. tauto. }
  assert (Int : In nt ts') by (unfold ts'; apply in_app_iff; simpl; auto).
  assert (Gl4 : glive h4 g) by (unfold glive, h4; rewrite len_upd_grp, X15; exact Lg).
  assert (G4 : gob h4 g = set_g_tiers ts' (gob h g)).
  { unfold h4. rewrite gob_upd_eq by (unfold glive; rewrite X15; exact Lg). unfold gob. rewrite X15. reflexivity. }
  assert (Ec3 : forall k, In k ts' -> t_ec (tob h3 k) = if decide (k = nt) then c else t_ec (tob h k)).
  { intros k Hk. destruct (decide (k = nt)) as [->|Nk]; [exact X6|]. destruct (Its k Hk) as [Q|Q]; [congruence|]. rewrite X18 by auto. reflexivity. }
  assert (Em3 : map (fun k => t_ec (tob h3 k)) ts' = (cs1 ++ c :: cs2)%list).
  { unfold ts'. rewrite map_app. cbn [map]. rewrite X6, <- E1, <- E2.
    rewrite (map_ext_in (fun k => t_ec (tob h3 k)) (fun k => t_ec (tob h k)) ts1), (map_ext_in (fun k => t_ec (tob h3 k)) (fun k => t_ec (tob h k)) ts2); [reflexivity| |];
      intros k Hk; rewrite X18; [reflexivity| |reflexivity|]; apply Tl; rewrite Ets; apply in_app_iff; auto. }
  assert (NDk : NoDup ts').
  { apply NoDup_ListNoDup. apply (NoDup_map_inv (fun k => t_ec (tob h3 k))). rewrite Em3. apply NoDup_ListNoDup. exact C1. }
  (* classes of the tiers *)
  destruct (sync_ok ts' h4 NDk) as (h5 & Y1 & Y2 & Y3 & Y4 & Y5 & Y6 & Y7 & Y8).
  { intros k Hk. unfold tlive. change (h_tier h4) with (h_tier h3). rewrite X17. destruct (Its k Hk) as [->|Q]; [lia|]. pose proof (Tl k Q). lia. }
  change (h_cls h4) with (h_cls h3) in Y2. change (h_seq h4) with (h_seq h3) in Y3. change (h_tier h4) with (h_tier h3) in Y6. change (h_grid h4) with (h_grid h3) in Y5.
  assert (T4 : forall k, tob h4 k = tob h3 k) by reflexivity.
  assert (S5 : forall i, sob h5 i = sob h3 i) by (intros i; unfold sob; rewrite Y3; reflexivity).
  assert (T5 : forall k, t_seq (tob h5 k) = t_seq (tob h3 k) /\ t_ec (tob h5 k) = t_ec (tob h3 k) /\ t_name (tob h5 k) = t_name (tob h3 k)).
  { intros k. destruct (in_dec Nat.eq_dec k ts') as [Hk|Hk]; [rewrite Y7 by exact Hk|rewrite Y8 by exact Hk]; rewrite T4; auto. }
  assert (C5h : h_cls h5 = h_cls h) by congruence.
  assert (Sb5 : forall x y, issubclass h5 x y = issubclass h x y) by (intros x y; apply issubclass_ext; exact C5h).
  assert (O5 : forall k, In k ts -> t_seq (tob h5 k) = t_seq (tob h k) /\ t_ec (tob h5 k) = t_ec (tob h k)).
  { intros k Hk. destruct (T5 k) as (-> & -> & _). rewrite X18 by auto. auto. }
  assert (L5 : List.length (h_seq h5) = List.length (h_seq h3)) by (rewrite Y3; reflexivity).
  assert (B3 : forall k, is_boundary h k -> is_boundary h5 k).
  { intros k (A1 & A2). split; [lia|]. rewrite !S5, X12 by exact A1. exact A2. }
  assert (La5 : laid h5 ts bss).
  { apply (laid_grow h h5); auto; [rewrite Y6, X17; unfold nt; lia|lia|]. intros k x Hk Hx. rewrite S5, X12; [reflexivity|]. apply (Ck0 k x Hk Hx). }
  pose proof La5 as (Okt5 & N5 & Sn5 & R5 & Bb5 & Tp5). pose proof (laid_fit h5 ts bss La5) as Fit5.
  assert (CC3 : class_chain h4 t (cs1 ++ c :: cs2) b).
  { change (class_chain h4) with (class_chain h4). split; [exact C1|]. split; [exact C2|].
    assert (Es : forall x y, issubclass h4 x y = issubclass h x y) by (intros x y; apply issubclass_ext; exact X14).
    rewrite !Es. split; [exact C3|]. split; [exact C4|]. split; [intros x Hx; rewrite Es; auto|].
    intros i x y Hx Hy. destruct (C6 i x y Hx Hy) as [Q1 Q2]. split; [rewrite (subset_class_ext h h4) by exact X14; exact Q1|].
    unfold superset_class in *. change (h_cls h4) with (h_cls h3). rewrite X14. exact Q2. }
  destruct (synced_chain h4 h5 ts' t (cs1 ++ c :: cs2) b CC3 Y2 Y7 Em3) as [TC CJ].
  { intros k Hk. assert (Es : forall x y, issubclass h4 x y = issubclass h x y) by (intros x y; apply issubclass_ext; exact X14). rewrite !Es, T4, (Ec3 k Hk).
    split; [unfold tlive; rewrite Y6, X17; destruct (Its k Hk) as [->|Q]; [lia|]; pose proof (Tl k Q); lia|].
    destruct (decide (k = nt)) as [->|Nk]; [auto|]. destruct (Its k Hk) as [Q|Q]; [congruence|]. destruct (Okt k Q) as (_ & _ & _ & A4 & A5). auto. }
  (* times *)
  assert (Sq5 : t_seq (tob h5 nt) = xs) by (destruct (T5 nt) as (-> & _); exact X5).
  assert (Sp : Forall2 (spans_as h5) (t_seq (tob h5 ct)) (t_seq (tob h5 nt))).
  { rewrite Sq5. destruct (O5 ct Ict) as (-> & _). eapply Forall2_weaken; [exact X8|]. intros y x Hy Hx (Q1 & Q2 & _). unfold spans_as. rewrite !S5.
    rewrite (X12 y) by (apply (Ck0 ct y Ict Hy)). auto. }
  assert (Lv5 : forall k, In k ts -> in_turn h5 (t_seq (tob h5 k)) /\ forall x, In x (t_seq (tob h5 k)) -> dated h5 x).
  { apply (laid_levels h5 ts bss Sn5). intros k Hk. destruct (Tp5 k Hk) as [A1 A2]. split; [exact A1|]. intros x Hx. apply A2, Hx. }
  assert (Sn' : exists bss', snug h5 ts' bss').
  { unfold ts'. rewrite Ets in Sn5. destruct Wct as [(r & Hr)|(r & Hr)]; rewrite Hr in *.
    - eapply snug_over; [exact Sp|apply Lv5, Ict|exact Sn5].
    - rewrite <- app_assoc in *. eapply snug_under; [exact Sp|apply Lv5, Ict|exact Sn5]. }
  destruct Sn' as (bss' & Sn').
  assert (Old : forall k x, In k ts -> In x (t_seq (tob h5 k)) -> live h x).
  { intros k x Hk Hx. destruct (O5 k Hk) as (Q & _). rewrite Q in Hx. apply (Ck0 k x Hk Hx). }
  assert (New : forall x, In x (t_seq (tob h5 nt)) -> (List.length (h_seq h) <= x < List.length (h_seq h5))%nat /\ s_super (sob h5 x) = None /\ s_subset (sob h5 x) = []).
  { intros x Hx. rewrite Sq5 in Hx. rewrite L5, !S5. apply X10, Hx. }
  assert (Fit : forall k, In k ts' -> fit_tier h5 k).
  { intros k Hk. destruct (Its k Hk) as [->|Q]; [|apply Fit5, Q]. destruct (T5 nt) as (_ & Q2 & _). unfold fit_tier. rewrite Sq5, Q2, X6, Sb5. split; [|split; [exact Cp|]].
    - destruct X9 as (V1 & V2). split; [exact V1|]. intros x Hx. rewrite L5, S5. apply V2, Hx.
    - intros x Hx p Hp. rewrite <- Sq5 in Hx. destruct (New x Hx) as (_ & Q & _). congruence. }
  (* relating *)
  destruct (c49_new n h5 ts' ts' bss' (Permutation_refl _) TC CJ Fit Sn') as (g3 & h6 & W1 & Gd & An & W2 & W3 & W4 & _).
  { intros k Hk. unfold ts' in Hk. destruct ts1 as [|k0 ts1]; [cbn [app hd_error] in Hk; injection Hk as <-|].
    - split; [eapply turn_as; [exact Sp|]; apply Lv5, Ict|eapply dated_as; [exact Sp|]; apply Lv5, Ict].
    - cbn [app hd_error] in Hk. injection Hk as ->. apply Lv5. rewrite Ets. simpl. auto. }
  assert (Lgr : List.length (h_grp h5) = List.length (h_grp h)) by (rewrite Y4; unfold h4; rewrite len_upd_grp, X15; reflexivity).
  assert (Eg : g3 = g') by (unfold g'; rewrite W2; exact Lgr). rewrite Eg in *. clear Eg W2 g3.
  pose proof (anew_tier g' ts' h5 h6 An) as Tk6. pose proof An as (A1 & A2 & A3 & A4 & A5 & A6 & A7 & A8 & A9 & A10).
  assert (Ck : forall k x, In k ts' -> In x (t_seq (tob h5 k)) -> live h5 x /\ s_cls (sob h5 x) = t_ec (tob h5 k) /\ s_label (sob h5 x) <> "#"%string).
  { intros k x Hk Hx. destruct (Fit k Hk) as ((_ & Q) & _). apply Q, Hx. }
  assert (Sep : forall k k' x, In k ts' -> In k' ts' -> In x (t_seq (tob h5 k)) -> In x (t_seq (tob h5 k')) -> k = k').
  { intros k k' x Hk Hk' Hx Hx'. destruct (Ck k x Hk Hx) as (_ & V1 & _). destruct (Ck k' x Hk' Hx') as (_ & V2 & _).
    apply In_nth_error in Hk. apply In_nth_error in Hk'. destruct Hk as [i Hi], Hk' as [j Hj].
    assert (i = j); [|congruence]. apply (proj1 (NoDup_nth_error (map (fun t => t_ec (tob h5 t)) ts'))).
    - apply NoDup_ListNoDup. rewrite (map_ext (fun t => t_ec (tob h5 t)) (fun k => t_ec (tob h3 k))) by (intros u; apply T5). rewrite Em3. exact C1.
    - rewrite map_length. apply nth_error_Some. congruence.
    - rewrite !nth_error_map, Hi, Hj. simpl. congruence. }
  assert (Inv : forall i, involved h5 ts' i -> exists k, In k ts' /\ In i (t_seq (tob h5 k))).
  { intros i (k & x & Hk & Hx & Q). destruct Q as [->|Q]; [eauto|]. destruct (Its k Hk) as [->|Hk'].
    - destruct Q as (p & Q & _). destruct (New x Hx) as (_ & Q2 & _). congruence.
    - destruct (laid_involved h5 ts bss La5 i) as (k' & P1 & P2); [|eauto]. exists k, x. auto. }
  assert (Bd6 : forall k, is_boundary h5 k -> is_boundary h6 k).
  { intros k (V1 & V2). unfold is_boundary. rewrite (A2 k V1); [split; [lia|exact V2]|].
    intros Q. destruct (Inv k Q) as (k' & P1 & P2). destruct (Ck k' k P1 P2) as (_ & _ & P3). apply P3, V2. }
  assert (Bare : bare_bottom h6 ts').
  { intros z x Hz Hx. destruct (Tk6 z) as (Q & _). rewrite Q in Hx. clear Q.
    assert (Iz : In z ts') by (apply in_rev; destruct (rev ts'); [discriminate|injection Hz as ->; simpl; auto]).
    assert (Sx : s_subset (sob h5 x) = []).
    { unfold ts' in Hz. destruct ts2 as [|z0 ts2 _] using rev_ind.
      - rewrite rev_app_distr in Hz. cbn in Hz. injection Hz as <-. apply New, Hx.
      - rewrite app_comm_cons, app_assoc, rev_app_distr in Hz. cbn in Hz. injection Hz as ->. apply (Bb5 z); [|exact Hx].
        rewrite Ets, app_assoc, rev_app_distr. reflexivity. }
    rewrite A10; [exact Sx|apply (Ck z x Iz Hx)| |].
    - intros k Hk Hx'. assert (k = z) by (apply (Sep k z x); auto; apply in_removelast, Hk). subst k. clear -NDk Hz Hk.
      destruct ts' as [|y l _] using rev_ind; [destruct Hk|]. rewrite rev_app_distr in Hz. injection Hz as ->. rewrite removelast_last in Hk.
      apply NoDup_app in NDk. destruct NDk as (_ & D & _). apply (D z); apply elem_of_list_In; [exact Hk|]. simpl. auto.
    - intros k e Hk He Hs. destruct (Fit k Hk) as (_ & _ & Fl). destruct (Fl e He x Hs) as (_ & _ & He' & _). rewrite Sx in He'. destruct He'. }
  (* names *)
  assert (Gg6 : gob h6 g = set_g_tiers ts' (gob h g)).
  { rewrite W4 by exact Lg. unfold gob. rewrite Y4. exact G4. }
  destruct (grp_name_ok g h6) as (nm' & h7 & M1 & M2 & M3).
  { rewrite Gg6. unfold ts'. cbn. destruct ts1; discriminate. }
  set (h8 := upd_grp g' (set_g_name nm') h7).
  assert (E67 : h_cls h7 = h_cls h6 /\ h_seq h7 = h_seq h6 /\ h_tier h7 = h_tier h6 /\ h_grid h7 = h_grid h6 /\ List.length (h_grp h7) = List.length (h_grp h6) /\
    (forall k, k <> g -> gob h7 k = gob h6 k)).
  { destruct M2 as [->| ->]; [auto 10|]. repeat (split; [reflexivity|]). split; [apply len_upd_grp|]. intros k Hk. apply gob_upd_ne. exact Hk. }
  destruct E67 as (F1 & F2 & F3 & F4 & F5 & F6).
  assert (L7 : glive h7 g') by (unfold glive; rewrite F5, W3; lia).
  assert (Ng : g <> g') by (unfold glive in Lg; unfold g'; lia).
  assert (G8 : gob h8 g' = set_g_name nm' (gob h6 g')) by (unfold h8; rewrite gob_upd_eq by exact L7; rewrite F6 by auto; reflexivity).
  assert (S8 : forall i, sob h8 i = sob h6 i) by (intros i; unfold sob; change (h_seq h8) with (h_seq h7); rewrite F2; reflexivity).
  assert (T8 : forall k, tob h8 k = tob h6 k) by (intros k; unfold tob; change (h_tier h8) with (h_tier h7); rewrite F3; reflexivity).
  assert (C8 : h_cls h8 = h_cls h) by (change (h_cls h8) with (h_cls h7); congruence).
  assert (Ls8 : List.length (h_seq h8) = List.length (h_seq h6)) by (change (h_seq h8) with (h_seq h7); rewrite F2; reflexivity).
  assert (Lt8 : List.length (h_tier h8) = Datatypes.S nt) by (change (h_tier h8) with (h_tier h7); rewrite F3, A7, Y6; exact X17).
  assert (Lg8 : List.length (h_grp h8) = Datatypes.S g') by (unfold h8; rewrite len_upd_grp, F5; exact W3).
  assert (B8 : forall k, is_boundary h6 k -> is_boundary h8 k).
  { intros k (V1 & V2). split; [rewrite Ls8; exact V1|]. rewrite !S8. exact V2. }
  assert (Kp : forall i, live h i -> kept (sob h i) (sob h8 i)).
  { intros i Hi. rewrite S8. destruct (A1 i) as (V1 & V2 & V3 & V4 & V5); [unfold live in Hi; lia|]. rewrite S5, X12 in V1, V2, V3, V4, V5 by exact Hi. unfold kept. auto. }
  assert (T18 : forall k, (k < nt)%nat -> t_seq (tob h8 k) = t_seq (tob h k) /\ t_ec (tob h8 k) = t_ec (tob h k) /\ t_name (tob h8 k) = t_name (tob h k)).
  { intros k Hk. rewrite T8. destruct (Tk6 k) as (-> & -> & _ & _ & -> & _). destruct (T5 k) as (-> & -> & ->). rewrite X18 by exact Hk. auto. }
  assert (Tn8 : t_seq (tob h8 nt) = xs /\ t_ec (tob h8 nt) = c /\ t_name (tob h8 nt) = class_name h c).
  { rewrite T8. destruct (Tk6 nt) as (-> & -> & _ & _ & -> & _). destruct (T5 nt) as (-> & -> & ->). auto. }
  destruct Tn8 as (Tn1 & Tn2 & Tn3).
  assert (Gt8 : g_tiers (gob h8 g') = ts') by (rewrite G8; cbn; apply Gd).
  exists h8. split.
  { unfold interleave_group. rewrite bind_get_grp. mstep. rewrite Gt, Em.
    assert (Z1 : existsb (fun c0 => bool_decide (Some c0 = Some sp)) (cs1 ++ cs2) = true).
    { apply existsb_exists. exists sp. split; [exact Isp|]. apply bool_decide_eq_true. reflexivity. }
    rewrite Z1. cbn [negb]. mstep.
    assert (Z2 : List.find (fun t0 => bool_decide (Some (t_ec (tob h t0)) = Some cp)) ts = Some ct).
    { apply (find_only (fun k => t_ec (tob h k))); auto; [apply bool_decide_eq_true; congruence|]. intros y Hy. apply bool_decide_eq_true in Hy. congruence. }
    rewrite Z2. mstep. rewrite (bind_ok _ _ _ _ _ X1), (bind_ok _ _ _ _ _ X2).
    assert (Z3 : (if labels then ret tt else l <- gets (fun h => t_seq (tob h nt)) ;; forM l (fun x => mod_seq x (set_s_label ""))) h2 = Ok tt h3).
    { rewrite X4. pose proof (blank_labels labels xs h2) as Q. destruct labels; [exact Q|]. rewrite bind_gets, X3. exact Q. }
    rewrite (bind_ok _ _ _ _ _ Z3).
    assert (Z4 : match index_of (hd b cs2) (cs1 ++ cs2) with Some i => i | None => List.length (cs1 ++ cs2) end = List.length ts1).
    { assert (Q1 : List.length cs1 = List.length ts1) by (rewrite <- E1; apply map_length). rewrite <- Q1.
      destruct cs2 as [|d cs2']; cbn [hd].
      - rewrite app_nil_r in *. rewrite index_absent by exact Nb. reflexivity.
      - rewrite index_mid; [reflexivity|]. rewrite Em in N. apply NoDup_app in N. destruct N as (_ & D & _). intros Q. apply (D d); apply elem_of_list_In; [exact Q|simpl; auto]. }
    rewrite Z4. rewrite (bind_ok _ _ _ tt h4).
    2:{ unfold mod_grp, modify, h4. f_equal. unfold upd_grp. f_equal. apply list_alter_ext; [|reflexivity]. intros o Ho.
        assert (o = gob h g) by (unfold gob; rewrite <- X15, Ho; reflexivity). subst o. rewrite Gt, Ets, insert_mid. reflexivity. }
    rewrite bind_gets, G4. cbn [g_tiers set_g_tiers]. rewrite (bind_ok _ _ _ _ _ Y1), (bind_ok _ _ _ _ _ W1), (bind_ok _ _ _ _ _ M1). reflexivity. }
  split.
  { constructor.
    - split; [lia|]. split; [|split; [|split; [|split; [|split]]]].
      + intros i Hi. destruct (Kp i Hi) as (V1 & V2 & V3 & V4 & V5). auto.
      + intros i Hi Hn. rewrite S8, A2, S5, X12; auto; [lia|]. intros Q. destruct (Inv i Q) as (k & P1 & P2). destruct (Its k P1) as [->|P3].
        * destruct (New i P2) as (P4 & _). lia.
        * apply (Hn k P3). destruct (O5 k P3) as (<- & _). exact P2.
      + intros i Hi. destruct (le_lt_dec (List.length (h_seq h5)) i) as [Q|Q]; [left; apply B8, A4; lia|].
        destruct (in_dec Nat.eq_dec i xs) as [Q2|Q2].
        * right. exists nt. split; [lia|]. rewrite Tn1. exact Q2.
        * left. apply B8, Bd6. destruct (X13 i) as (V1 & V2); [lia|exact Q2|]. split; [lia|]. rewrite !S5. exact V2.
      + lia.
      + intros k Hk Hn. assert (Hk' : ~ In k ts') by (intros Q; destruct (Its k Q) as [->|Q']; [unfold nt in Hk; lia|contradiction]).
        rewrite T8, A8, Y8, T4, X18; auto.
      + exact T18.
    - intros k Hk. apply B8, Bd6, B3, Hk.
    - exact C8.
    - change (h_grid h8) with (h_grid h7). congruence.
    - lia.
    - intros k Hk Hn. assert (Nk : k <> g) by (intros ->; apply Hn; simpl; auto). unfold h8. rewrite gob_upd_ne by (unfold g'; lia). rewrite F6 by exact Nk. rewrite W4 by exact Hk.
      unfold gob. rewrite Y4. fold (gob h4 k). unfold h4. rewrite gob_upd_ne by exact Nk. unfold gob. rewrite X15. reflexivity. }
  split; [exact Lg8|]. split; [unfold g'; lia|]. split; [|split].
  - exists ts1, nt, ts2, ct. rewrite Gt. split; [exact Ets|]. split; [exact Gt8|]. split; [exact E1|]. split; [lia|].
    split; [rewrite Tn3; unfold class_name, cob; rewrite C8; reflexivity|]. split; [exact Ict|]. split; [exact Ecp|]. rewrite Tn1. split.
    + eapply Forall2_weaken; [exact X8|]. intros y x Hy Hx (V1 & V2 & V3). unfold copy_of. rewrite !S8. destruct (A1 x) as (P1 & P2 & P3 & P4 & _).
      { destruct (X10 x Hx) as (Q & _). lia. }
      rewrite P2, P3, P4, S5. auto.
    + intros x Hx. destruct (X10 x Hx) as (Q & _). split; [lia|]. rewrite S8. destruct (A1 x) as (_ & _ & _ & _ & ->); [lia|]. rewrite S5. apply X10', Hx.
  - unfold full_group. rewrite Gt8. split; [|split].
    + rewrite <- Em3. apply map_ext. intros k. rewrite T8. destruct (Tk6 k) as (_ & -> & _). apply T5.
    + exists bss'. apply (good_same h6 h8 g' ts' bss').
      * lia.
      * rewrite G8. reflexivity.
      * rewrite G8. reflexivity.
      * rewrite G8. reflexivity.
      * intros k _. apply T8.
      * rewrite Lt8, A7, Y6. symmetry. exact X17.
      * lia.
      * intros k x Hk Hx. rewrite S8. split; [apply GroupFinal.kept_refl|auto].
      * intros k x Hk Hx. rewrite S8. reflexivity.
      * exact B8.
      * intros x y. apply issubclass_ext. congruence.
      * apply (classes_joined_same h5 h8); [congruence| |exact CJ]. intros k _. rewrite T8. apply Tk6.
      * exact Gd.
    + intros k x Hk. rewrite T8, S8. apply Bare. exact Hk.
  - intros m Hm Hm'. rewrite G8. cbn [g_name set_g_name]. rewrite Gg6 in M3. cbn [g_name set_g_tiers] in M3. destruct M3 as [M3 _]; [|rewrite M3; exact Hm].
    rewrite Hm. destruct m; [congruence|reflexivity].
Qed.

(** ** All groups *)
Lemma more_trans T1 T2 h h1 h2 : more_content T1 h h1 -> more_content T2 h1 h2 ->
  (forall k, is_boundary h1 k -> is_boundary h2 k) -> (forall k, In k T2 -> tlive h k) -> more_content (T1 ++ T2) h h2.
Proof.
  intros (A1 & A2 & A3 & A4 & A5 & A6 & A7) (B1 & B2 & B3 & B4 & B5 & B6 & B7) Bd Lt. split; [lia|]. split; [|split; [|split; [|split; [|split]]]].
  - intros i Hi. destruct (A2 i Hi) as (P1 & P2 & P3 & P4 & P5). destruct (B2 i) as (Q1 & Q2 & Q3 & Q4 & Q5); [lia|]. repeat split; congruence.
  - intros i Hi Hn. rewrite B3, A3; auto; [| lia|].
    + intros t Ht. apply Hn. apply in_app_iff. auto.
    + intros t Ht. destruct (A7 t (Lt t Ht)) as (-> & _). apply Hn. apply in_app_iff. auto.
  - intros i Hi. destruct (decide (i < List.length (h_seq h1))%nat) as [Q|Q].
    + destruct (A4 i) as [P|(t & P1 & P2)]; [lia|left; apply Bd, P|]. right. exists t. destruct (B7 t) as (-> & _); [lia|]. split; [lia|exact P2].
    + destruct (B4 i) as [P|(t & P1 & P2)]; [lia|auto|]. right. exists t. split; [lia|exact P2].
  - lia.
  - intros t Ht Hn. rewrite B6, A6; auto; [|lia|]; intros Q; apply Hn; apply in_app_iff; auto.
  - intros t Ht. destruct (A7 t Ht) as (P1 & P2 & P3), (B7 t) as (Q1 & Q2 & Q3); [lia|]. repeat split; congruence.
Qed.
Lemma wframe_trans G1 G2 T1 T2 h h1 h2 : wframe G1 T1 h h1 -> wframe G2 T2 h1 h2 -> (forall k, In k T2 -> tlive h k) -> wframe (G1 ++ G2) (T1 ++ T2) h h2.
Proof.
  intros [A1 A2 A3 A4 A5 A6] [B1 B2 B3 B4 B5 B6] Lt. constructor; try congruence; try lia.
  - eapply more_trans; eauto.
  - auto.
  - intros k Hk Hn. rewrite B6, A6; auto; [|lia|]; intros Q; apply Hn; apply in_app_iff; auto.
Qed.
Lemma wframe_refl G T h : wframe G T h h.
Proof.
  constructor; auto. split; [lia|]. split; [auto 10|]. split; [auto|]. split; [intros i Hi; lia|]. split; [auto|]. split; [auto|]. auto.
Qed.
Definition ready_weave (cs : list cid) (sp cp : cid) (h : heap) (g : gid) : Prop :=
  glive h g /\ exist_tiers h g /\
  ((map (fun k => t_ec (tob h k)) (g_tiers (gob h g)) = cs /\ (exists bss, laid h (g_tiers (gob h g)) bss) /\
    forall k, In k (g_tiers (gob h g)) -> t_ec (tob h k) = cp -> t_seq (tob h k) <> []) \/
   ~ In sp (map (fun k => t_ec (tob h k)) (g_tiers (gob h g)))).
Lemma ready_weave_same cs sp cp G T h h' g : wframe G T h h' -> ~ In g G ->
  (forall k x, In k (g_tiers (gob h g)) -> In x (t_seq (tob h k)) -> forall t, In t T -> ~ In x (t_seq (tob h t))) ->
  ready_weave cs sp cp h g -> ready_weave cs sp cp h' g.
Proof.
  intros [A1 A2 A3 A4 A5 A6] Ng Nx (Lg & Ex & R). pose proof A1 as (B1 & B2 & B3 & B4 & B5 & B6 & B7).
  split; [unfold glive in *; lia|]. unfold exist_tiers. rewrite (A6 g) by auto.
  assert (Tk : forall k, In k (g_tiers (gob h g)) -> t_seq (tob h' k) = t_seq (tob h k) /\ t_ec (tob h' k) = t_ec (tob h k)).
  { intros k Hk. destruct (B7 k) as (Q1 & Q2 & _); [apply Ex, Hk|]. auto. }
  split; [|destruct R as [(R1 & (bss & R2) & R3)|R]; [left|right]].
  - intros k Hk. destruct (Ex k Hk) as [E1 E2]. destruct (Tk k Hk) as (-> & _). split; [unfold tlive in *; lia|]. intros x Hx. apply E2 in Hx. unfold live in *. lia.
  - split; [rewrite <- R1; apply map_ext_in; intros k Hk; apply Tk, Hk|]. split.
    + exists bss. apply (laid_grow h h'); auto.
      * intros k x Hk Hx. apply B3; [|intros t Ht; apply (Nx k x); auto]. apply (Ex k Hk), Hx.
      * intros x y. apply issubclass_ext. exact A3.
    + intros k Hk. destruct (Tk k Hk) as (-> & ->). apply R3, Hk.
  - erewrite map_ext_in; [exact R|]. intros k Hk. apply Tk, Hk.
Qed.
Lemma woven_later labels cs1 c cs2 cp G T h h1 h2 g g' : wframe G T h1 h2 -> ~ In g' G -> (List.length (h_tier h) <= List.length (h_tier h1))%nat ->
  (forall k, In k (g_tiers (gob h1 g')) -> ~ In k T) ->
  (forall k x, In k (g_tiers (gob h1 g')) -> In x (t_seq (tob h1 k)) -> forall u, In u T -> ~ In x (t_seq (tob h1 u))) ->
  woven labels cs1 c cs2 cp h h1 g g' -> woven labels cs1 c cs2 cp h h2 g g'.
Proof.
  intros [A1 A2 A3 A4 A5 A6] Ng Lt Nt Nx (W1 & (ts1 & k & ts2 & ct & V1 & V2 & V3 & V4 & V5 & V6 & V7 & V8 & V9) & (W3 & (bss & W4) & W5) & W6).
  pose proof A1 as (B1 & B2 & B3 & B4 & B5 & B6 & B7).
  assert (Lg : glive h1 g') by apply W4.
  assert (Eg : gob h2 g' = gob h1 g') by (apply A6; auto).
  set (ts := g_tiers (gob h1 g')) in *.
  assert (Tl : forall u, In u ts -> tlive h1 u).
  { intros u Hu. destruct W4 as (_ & _ & _ & _ & (_ & _ & Q & _) & _). apply Q, Hu. }
  assert (Sx : forall u x, In u ts -> In x (t_seq (tob h1 u)) -> sob h2 x = sob h1 x).
  { intros u x Hu Hx. apply B3; [|apply (Nx u x); auto]. destruct W4 as (_ & _ & _ & _ & _ & _ & _ & _ & Q & _).
    destruct (Q u Hu) as (_ & (_ & L) & _). apply L, Hx. }
  assert (Tx : forall u, In u ts -> tob h2 u = tob h1 u) by (intros u Hu; apply B6; [apply Tl, Hu|apply Nt, Hu]).
  assert (Hk : In k ts) by (rewrite V2; apply in_app_iff; simpl; auto).
  split; [exact W1|]. rewrite Eg. fold ts. split; [|split].
  - exists ts1, k, ts2, ct. rewrite (Tx k Hk). split; [exact V1|]. split; [exact V2|]. split; [exact V3|]. split; [lia|].
    split; [rewrite V5; unfold class_name, cob; rewrite A3; reflexivity|]. split; [exact V6|]. split; [exact V7|]. split.
    + eapply Forall2_weaken; [exact V8|]. intros y x _ Hx (Q1 & Q2 & Q3). unfold copy_of. rewrite (Sx k x) by auto. auto.
    + intros x Hx. destruct (V9 x Hx) as [V9a V9b]. split; [lia|]. rewrite (Sx k x) by auto. exact V9b.
  - unfold full_group. rewrite Eg. fold ts. split; [|split].
    + rewrite <- W3. apply map_ext_in. intros u Hu. rewrite Tx by exact Hu. reflexivity.
    + exists bss. apply (good_grow h1 h2); auto.
      * unfold glive in Lg. lia.
      * rewrite Eg; reflexivity.
      * rewrite Eg; reflexivity.
      * rewrite Eg; reflexivity.
      * intros u x Hu Hx. rewrite (Sx u x) by auto. split; [apply GroupFinal.kept_refl|auto].
      * intros u x Hu Hx. rewrite (Sx u x); auto. apply in_removelast, Hu.
      * intros x y. apply issubclass_ext. exact A3.
      * apply (classes_joined_same h1 h2); [exact A3|intros u Hu; rewrite Tx by exact Hu; reflexivity|]. apply W4.
    + intros u x Hu Hx. assert (Iu : In u ts) by (apply in_rev; destruct (rev ts); [discriminate|injection Hu as ->; simpl; auto]).
      rewrite Tx in Hx by exact Iu. rewrite (Sx u x) by auto. apply (W5 u); auto.
  - exact W6.
Qed.
Lemma woven_earlier labels cs1 c cs2 cp G T h h1 h2 g g' : wframe G T h h1 -> ~ In g G -> glive h g -> exist_tiers h g ->
  woven labels cs1 c cs2 cp h1 h2 g g' -> woven labels cs1 c cs2 cp h h2 g g'.
Proof.
  intros [A1 A2 A3 A4 A5 A6] Ng Lg Ex (W1 & (ts1 & k & ts2 & ct & V1 & V2 & V3 & V4 & V5 & V6 & V7 & V8 & V9) & W2 & W3).
  pose proof A1 as (B1 & B2 & B3 & B4 & B5 & B6 & B7). rewrite (A6 g) in * by auto.
  split; [lia|]. split; [|split; [exact W2|exact W3]]. exists ts1, k, ts2, ct. split; [exact V1|]. split; [exact V2|].
  split. { rewrite <- V3. apply map_ext_in. intros u Hu. symmetry. apply B7, Ex. rewrite V1. apply in_app_iff; auto. }
  split; [lia|]. split; [exact V5|]. split; [exact V6|]. destruct (Ex ct V6) as [E1 E2]. destruct (B7 ct E1) as (Q1 & Q2 & _). split; [congruence|].
  rewrite Q1 in V8. split.
  - eapply Forall2_weaken; [exact V8|]. intros y x Hy _ (P1 & P2 & P3). destruct (B2 y (E2 y Hy)) as (_ & R1 & R2 & R3 & _). unfold copy_of. rewrite P1, P2, P3, R1, R2, R3. auto.
  - intros x Hx. destruct (V9 x Hx) as [V9a V9b]. split; [lia|exact V9b].
Qed.
Lemma weave_all n t cs1 c cs2 b sp cp (labels : bool) : ~ In b (cs1 ++ cs2) -> In sp (cs1 ++ cs2) ->
  (exists r, cs2 = cp :: r) \/ (exists r, cs1 = (r ++ [cp])%list) -> forall gs h, class_chain h t (cs1 ++ c :: cs2) b ->
  issubclass h c cPoint = false -> issubclass h c cTop = false -> issubclass h c cBottom = false ->
  (forall g, In g gs -> ready_weave (cs1 ++ cs2) sp cp h g) -> apart_groups h gs ->
  exists gs' h', mapM (interleave_group n c (Some sp) (Some cp) (Some (hd b cs2)) labels) gs h = Ok gs' h' /\
    wframe gs (flat_map (tiers_in h) gs) h h' /\ Forall2 (weaves labels cs1 c cs2 sp cp h h') gs gs' /\
    (forall g', In g' gs' -> glive h' g') /\ NoDup gs'.
Proof.
  intros Nb Isp Wh. induction gs as [|g gs IH]; intros h CC Cp Ct Cb Rd (Ng & Nt & Nx).
  - exists [], h. split; [reflexivity|]. split; [apply wframe_refl|]. split; [constructor|]. split; [intros g' []|constructor].
  - apply NoDup_cons in Ng. destruct Ng as [Ng Ngs]. rewrite elem_of_list_In in Ng. cbn [flat_map] in Nt, Nx.
    rewrite flat_map_app in Nx. apply NoDup_app in Nt. destruct Nt as (_ & Nt2 & Nt3). apply NoDup_app in Nx. destruct Nx as (_ & Nx2 & Nx3).
    assert (Dt : forall k, In k (g_tiers (gob h g)) -> ~ In k (flat_map (tiers_in h) gs)).
    { intros k Hk Q. apply (Nt2 k); apply elem_of_list_In; auto. }
    assert (Dx : forall k x, In k (g_tiers (gob h g)) -> In x (t_seq (tob h k)) -> forall u, In u (flat_map (tiers_in h) gs) -> ~ In x (t_seq (tob h u))).
    { intros k x Hk Hx u Hu Q. apply (Nx2 x); apply elem_of_list_In; apply in_flat_map; eauto. }
    assert (Tg : forall u, In u (flat_map (tiers_in h) gs) -> tlive h u /\ forall x, In x (t_seq (tob h u)) -> live h x).
    { intros u Hu. apply in_flat_map in Hu. destruct Hu as (k & Hk & Hu). destruct (Rd k) as (_ & Q & _); [simpl; auto|]. apply Q, Hu. }
    destruct (Rd g) as (Lg & Ex & R); [simpl; auto|].
    assert (First : exists g' h1, interleave_group n c (Some sp) (Some cp) (Some (hd b cs2)) labels g h = Ok g' h1 /\
      wframe [g] (g_tiers (gob h g)) h h1 /\ weaves labels cs1 c cs2 sp cp h h1 g g' /\ glive h1 g' /\ (g' = g \/ (List.length (h_grp h) <= g')%nat)).
    { destruct R as [(R1 & (bss & R2) & R3)|R].
      - destruct (weave_one n t cs1 c cs2 b sp cp labels g _ bss h CC Nb Cp Ct Cb Isp Wh Lg eq_refl R1 R2 R3) as (h1 & E & P1 & P2 & P3).
        exists (List.length (h_grp h)), h1. split; [exact E|]. split; [exact P1|]. split; [left; rewrite R1; auto|]. split; [unfold glive; lia|right; lia].
      - exists g, h. split.
        + unfold interleave_group. rewrite bind_get_grp. mstep.
          match goal with |- (if negb ?b then _ else _) _ = _ => replace b with false; [reflexivity|] end.
          symmetry. apply not_true_is_false. intros Q. apply existsb_exists in Q. destruct Q as (m & Hm & Q). apply bool_decide_eq_true in Q. injection Q as ->. contradiction.
        + split; [apply wframe_refl|]. split; [right; auto|]. auto. }
    destruct First as (g' & h1 & E1 & WF1 & Bc & Lg' & Fr).
    pose proof WF1 as [(B1 & B2 & B3 & B4 & B5 & B6 & B7) A2 A3 A4 A5 A6].
    assert (Lgs : forall k, In k gs -> glive h k /\ k <> g) by (intros k Hk; split; [apply Rd; simpl; auto|intros ->; contradiction]).
    assert (Gs : forall k, In k gs -> gob h1 k = gob h k).
    { intros k Hk. destruct (Lgs k Hk) as [L1 L2]. apply A6; [exact L1|]. intros [Q|[]]; congruence. }
    assert (Fm : flat_map (tiers_in h1) gs = flat_map (tiers_in h) gs).
    { clear -Gs. induction gs as [|k gs IH]; [reflexivity|]. cbn [flat_map]. rewrite IH by (intros q Hq; apply Gs; simpl; auto). unfold tiers_in at 1 3. rewrite Gs by (simpl; auto). reflexivity. }
    assert (Sb : forall x y, issubclass h1 x y = issubclass h x y) by (intros x y; apply issubclass_ext; exact A3).
    destruct (IH h1) as (gs' & h2 & E2 & WF2 & Bs & Lgs' & Nd'); rewrite ?Sb; auto.
    { destruct CC as (V1 & V2 & V3 & V4 & V5 & V6). split; [exact V1|]. split; [exact V2|]. rewrite !Sb. split; [exact V3|]. split; [exact V4|].
      split; [intros x Hx; rewrite Sb; auto|]. intros i x y Hx Hy. destruct (V6 i x y Hx Hy) as [X1 X2].
      split; [rewrite (subset_class_ext h h1) by exact A3; exact X1|]. unfold superset_class in *. rewrite A3. exact X2. }
    { intros k Hk. apply (ready_weave_same (cs1 ++ cs2) sp cp [g] (g_tiers (gob h g)) h h1 k WF1).
      - intros [Q|[]]. subst k. contradiction.
      - intros u x Hu Hx v Hv Hxv. apply (Dx v x Hv Hxv u); [apply in_flat_map; eauto|exact Hx].
      - apply Rd. simpl; auto. }
    { split; [exact Ngs|]. rewrite Fm. split; [exact Nt3|].
      replace (flat_map (entries_in h1) (flat_map (tiers_in h) gs)) with (flat_map (entries_in h) (flat_map (tiers_in h) gs)); [exact Nx3|].
      clear -Tg B7. induction (flat_map (tiers_in h) gs) as [|u l IHl]; [reflexivity|]. cbn [flat_map]. rewrite IHl by (intros v Hv; apply Tg; simpl; auto).
      unfold entries_in at 1 3. destruct (B7 u) as (-> & _); [apply Tg; simpl; auto|reflexivity]. }
    rewrite Fm in WF2. pose proof WF2 as [(C1 & C2 & C3 & C4 & C5 & C6 & C7) D2 D3 D4 D5 D6].
    exists (g' :: gs'), h2.
    split; [cbn [mapM]; rewrite (bind_ok _ _ _ _ _ E1), (bind_ok _ _ _ _ _ E2); reflexivity|].
    assert (Ng' : ~ In g' gs).
    { intros Q. destruct (Lgs g' Q) as [L1 L2]. destruct Fr as [Fr|Fr]; [congruence|]. unfold glive in L1. lia. }
    split; [|split; [|split]].
    + apply (wframe_trans [g] gs _ _ h h1 h2 WF1 WF2). intros k Hk. apply Tg, Hk.
    + constructor.
      * destruct Bc as [[Bc1 Bc2]|(Bc1 & -> & Bc2 & Bc3)].
        -- left. split; [exact Bc1|].
           assert (Tn : forall k, In k (g_tiers (gob h1 g')) -> In k (g_tiers (gob h g)) \/
             (~ tlive h k /\ forall x, In x (t_seq (tob h1 k)) -> ~ live h x)).
           { destruct Bc2 as (_ & (ts1 & q & ts2 & ct & V1 & V2 & V3 & V4 & V5 & V6 & V7 & V8 & V9) & _). rewrite V1, V2. intros k Hk. apply in_app_iff in Hk.
             destruct Hk as [Hk|[<-|Hk]]; [left; apply in_app_iff; auto|right|left; apply in_app_iff; auto].
             split; [unfold tlive; lia|]. intros x Hx. apply V9 in Hx. destruct Hx as [Hx _]. unfold live. lia. }
           apply (woven_later labels cs1 c cs2 cp gs (flat_map (tiers_in h) gs) h h1 h2 g g' WF2 Ng' B5); auto.
           ++ intros k Hk Q. destruct (Tn k Hk) as [P|[P _]]; [apply (Dt k P Q)|]. apply P, Tg, Q.
           ++ intros k x Hk Hx u Hu Hxu. destruct (B7 u) as (Q & _); [apply Tg, Hu|]. rewrite Q in Hxu. destruct (Tn k Hk) as [P|[_ P]].
              ** destruct (B7 k) as (Q' & _); [apply Ex, P|]. rewrite Q' in Hx. apply (Dx k x P Hx u Hu Hxu).
              ** apply (P x Hx). apply (Tg u Hu), Hxu.
        -- right. split; [exact Bc1|]. split; [reflexivity|]. rewrite D6 by auto. auto.
      * eapply Forall2_weaken; [exact Bs|]. intros k k' Hk Hk' Q. destruct (Lgs k Hk) as [L1 L2]. pose proof (Gs k Hk) as Gk.
        destruct (Rd k) as (_ & Exk & _); [simpl; auto|].
        assert (Em : map (fun u => t_ec (tob h1 u)) (g_tiers (gob h k)) = map (fun u => t_ec (tob h u)) (g_tiers (gob h k))).
        { apply map_ext_in. intros u Hu. apply B7, Exk, Hu. }
        unfold weaves in *. rewrite Gk, Em in Q. destruct Q as [[Q1 Q2]|(Q1 & Q2)]; [left; split; [exact Q1|]|right; auto].
        apply (woven_earlier labels cs1 c cs2 cp [g] (g_tiers (gob h g)) h h1 h2 k k' WF1); auto. intros [P|[]]; congruence.
    + intros k [<-|Hk]; [unfold glive in *; lia|auto].
    + apply NoDup_cons. split; [|exact Nd']. rewrite elem_of_list_In. intros Q.
      destruct (Forall2_in_r _ _ _ g' Bs Q) as (k & Hk & Q'). destruct Q' as [[_ (Q1 & _)]|(_ & -> & _)]; [unfold glive in Lg'; lia|contradiction].
Qed.

(** ** The classes *)
Lemma subs_same h h' : wf h -> wf h' -> List.length (h_cls h') = List.length (h_cls h) -> (forall k, c_base (cob h' k) = c_base (cob h k)) ->
  forall x y, issubclass h' x y = issubclass h x y.
Proof.
  intros W W' L B x y. destruct (decide (clive h x)) as [Q|Q].
  - apply sub_ext; auto. unfold clive in *. lia.
  - rewrite !sub_dead; auto. unfold clive in *. lia.
Qed.
Lemma one_class h nm : class_table h -> plain_name nm ->
  let c := S (S (List.length (h_cls h))) in
  exists h1, custom_classes [nm] RNone [] h = Ok [c] h1 /\ classes_kept h h1 /\ class_table h1 /\
    class_name h1 c = nm /\ c_base (cob h1 c) = Some cInterval /\ clive h1 c.
Proof.
  intros T P c. destruct (built_ok [nm] [] h T) as (h1 & t & b & E & K & T1 & Q & _).
  { intros i m Hi _. destruct i as [|[|i]]; cbn in Hi; [injection Hi as <-; exact P|discriminate|discriminate]. }
  destruct (Q O nm eq_refl) as (Q1 & Q2 & Q3). rewrite Nat.add_0_r in Q1, Q2, Q3.
  destruct (order_ok [nm] [nm] (seq c 1) h1) as (r & Er & Lr & Pr).
  { apply NoDup_singleton. }
  { reflexivity. }
  { discriminate. }
  { reflexivity. }
  exists h1. split; [|split; [exact K|split; [exact T1|split; [exact Q1|split; [exact Q2|exact Q3]]]]].
  unfold custom_classes. rewrite (bind_ok _ _ _ _ _ E). change (List.length [nm]) with 1%nat. fold c. rewrite Er.
  specialize (Pr O O nm eq_refl eq_refl). destruct r as [|z [|? ?]]; cbn in *; try discriminate. injection Pr as ->. reflexivity.
Qed.
Lemma chain_kept h h1 t cs b : class_table h -> class_table h1 -> classes_kept h h1 -> class_chain h t cs b -> class_chain h1 t cs b.
Proof.
  intros T T1 K C. pose proof (table_wf h T) as W. pose proof (table_wf h1 T1) as W1.
  assert (Lv : forall x, In x (t :: cs ++ [b]) -> clive h x) by (intros x; apply (chain_live _ _ _ _ x T C)).
  destruct C as (V1 & V2 & V3 & V4 & V5 & V6). split; [exact V1|]. split; [exact V2|].
  assert (Sb : forall x y, In x (t :: cs ++ [b]) -> issubclass h1 x y = issubclass h x y) by (intros x y Hx; apply (kept_sub h h1 x y W W1 K), Lv, Hx).
  split; [rewrite Sb; [exact V3|simpl; auto]|]. split; [rewrite Sb; [exact V4|right; apply in_app_iff; simpl; auto]|].
  split; [intros x Hx; rewrite Sb; [auto|right; apply in_app_iff; auto]|].
  intros i x y Hx Hy. destruct (V6 i x y Hx Hy) as [X1 X2].
  split; [change (look false h1 x = Some y)|change (look true h1 y = Some x)]; rewrite (kept_look h h1); auto; eapply Lv, nth_error_In; eauto.
Qed.
Lemma new_unrelated h c t cs b : class_table h -> class_chain h t cs b -> unrelated h (t :: cs ++ [b]) -> ~ In cInterval cs ->
  c_base (cob h c) = Some cInterval -> clive h c -> (forall x, In x (t :: cs ++ [b]) -> (x < c)%nat) -> unrelated h (c :: t :: cs ++ [b]).
Proof.
  intros T C UN NI Bc Lc Lt x y Hx Hy E. pose proof (table_wf h T) as W. destruct C as (_ & _ & Tt & Tb & IV & _).
  destruct Hx as [<-|Hx].
  - destruct Hy as [<-|Hy]; [reflexivity|]. exfalso. pose proof (Lt y Hy) as Ly. rewrite sub_step in E by auto. rewrite Bc in E.
    rewrite (proj2 (Nat.eqb_neq c y)) in E by lia. cbn [orb] in E. rewrite kind_subs in E by (simpl; auto).
    assert (Hd : y = cInterval \/ y = cHierarchyPart).
    { apply orb_true_iff in E. destruct E as [E|E]; apply Nat.eqb_eq in E; auto. }
    destruct Hy as [<-|Hy]; [destruct Hd as [-> | ->]; [rewrite kind_subs in Tt by (simpl; auto)|rewrite hier_subs in Tt by auto]; discriminate|].
    apply in_app_iff in Hy. destruct Hy as [Hy|[<-|[]]].
    + destruct Hd as [-> | ->]; [contradiction|]. specialize (IV _ Hy). rewrite hier_subs in IV by auto. discriminate.
    + destruct Hd as [-> | ->]; [rewrite kind_subs in Tb by (simpl; auto)|rewrite hier_subs in Tb by auto]; discriminate.
  - destruct Hy as [<-|Hy]; [|apply UN; auto]. exfalso. pose proof (Lt x Hx). pose proof (sub_le h x c W E). lia.
Qed.
Lemma laid_cls h h' ts bss : h_seq h' = h_seq h -> h_tier h' = h_tier h -> (forall k y, In k ts -> issubclass h' (t_ec (tob h k)) y = issubclass h (t_ec (tob h k)) y) ->
  laid h ts bss -> laid h' ts bss.
Proof.
  intros Es Et Sb. assert (Sob : forall k, sob h' k = sob h k) by (intros k; unfold sob; rewrite Es; reflexivity).
  assert (Tob : forall k, tob h' k = tob h k) by (intros k; unfold tob; rewrite Et; reflexivity).
  apply laid_more; auto.
  - intros k _. rewrite Tob. auto.
  - rewrite Et. lia.
  - rewrite Es. lia.
  - intros k (P1 & P2). split; [rewrite Es; exact P1|]. rewrite !Sob. exact P2.
Qed.
Lemma weaves_cls labels cs1 c cs2 sp cp h h' h2 g g' : h_seq h' = h_seq h -> h_tier h' = h_tier h -> h_grp h' = h_grp h ->
  weaves labels cs1 c cs2 sp cp h' h2 g g' -> weaves labels cs1 c cs2 sp cp h h2 g g'.
Proof. destruct h as [c1 s1 t1 g1 a1], h' as [c2 s2 t2 g2 a2]. cbn [h_seq h_tier h_grp]. intros -> -> -> Q. exact Q. Qed.
Lemma more_cls T h h' h2 : h_seq h' = h_seq h -> h_tier h' = h_tier h -> more_content T h' h2 -> more_content T h h2.
Proof. destruct h as [c1 s1 t1 g1 a1], h' as [c2 s2 t2 g2 a2]. cbn [h_seq h_tier]. intros -> -> Q. exact Q. Qed.
Lemma weaves_regroup labels cs1 c cs2 sp cp h h1 h2 g g' : h_cls h2 = h_cls h1 -> h_seq h2 = h_seq h1 -> h_tier h2 = h_tier h1 ->
  List.length (h_grp h2) = List.length (h_grp h1) -> (forall k, same_but_within (gob h1 k) (gob h2 k)) ->
  weaves labels cs1 c cs2 sp cp h h1 g g' -> weaves labels cs1 c cs2 sp cp h h2 g g'.
Proof.
  intros Ec Es Et Lg Gk.
  assert (S2 : forall i, sob h2 i = sob h1 i) by (intros i; unfold sob; rewrite Es; reflexivity).
  assert (T2 : forall i, tob h2 i = tob h1 i) by (intros i; unfold tob; rewrite Et; reflexivity).
  intros [[Q1 (W1 & (ts1 & k & ts2 & ct & V1 & V2 & V3 & V4 & V5 & V6 & V7 & V8 & V9) & (W3 & (bss & W4) & W5) & W6)]|(Q1 & Q2 & Q3 & Q4)].
  - left. split; [exact Q1|]. destruct (Gk g') as (G1 & G2 & G3 & G4). split; [exact W1|]. unfold full_group. rewrite G2, G4.
    split; [|split; [split; [|split]|exact W6]].
    + exists ts1, k, ts2, ct. rewrite T2. split; [exact V1|]. split; [exact V2|]. split; [exact V3|]. split; [rewrite Et; exact V4|].
      split; [rewrite V5; unfold class_name, cob; rewrite Ec; reflexivity|]. split; [exact V6|]. split; [exact V7|]. split; [|intros x Hx; rewrite Es, S2; apply V9, Hx].
      eapply Forall2_weaken; [exact V8|]. intros y x _ _ Q. unfold copy_of. rewrite S2. exact Q.
    + rewrite <- W3. apply map_ext. intros u. rewrite T2. reflexivity.
    + exists bss. apply (good_same h1 h2); auto.
      * destruct W4 as (Q & _). lia.
      * rewrite Et. reflexivity.
      * rewrite Es. lia.
      * intros t x _ _. rewrite S2. split; [apply GroupFinal.kept_refl|auto].
      * intros t x _ _. rewrite S2. reflexivity.
      * intros u (P1 & P2). split; [rewrite Es; exact P1|]. rewrite !S2. exact P2.
      * intros x y. apply issubclass_ext. exact Ec.
      * apply (classes_joined_same h1 h2); [exact Ec|intros t _; rewrite T2; reflexivity|]. apply W4.
    + intros t x Ht. rewrite T2, S2. apply W5. exact Ht.
  - right. destruct (Gk g) as (G1 & G2 & G3 & G4). rewrite G2, G4. auto.
Qed.
Lemma groups_set a gs h : gs <> [] -> alive h a -> (forall g, In g gs -> glive h g) ->
  exists h', set_tier_groups a gs h = Ok tt h' /\
    h_cls h' = h_cls h /\ h_seq h' = h_seq h /\ h_tier h' = h_tier h /\ List.length (h_grp h') = List.length (h_grp h) /\
    List.length (h_grid h') = List.length (h_grid h) /\ aob h' a = set_a_groups gs (aob h a) /\ (forall k, k <> a -> aob h' k = aob h k) /\
    (forall g, In g gs -> gob h' g = set_g_within (Some (WGrid a)) (gob h g)) /\ (forall g, ~ In g gs -> gob h' g = gob h g).
Proof.
  intros Ne La Lg. set (h1 := upd_grid a (set_a_groups gs) h).
  destruct (within_all (Some (WGrid a)) gs h1) as (h2 & E2 & B1 & B2 & B3 & B4 & B5 & B6 & B7); [exact Lg|].
  exists h2. split.
  { unfold set_tier_groups. destruct gs as [|g0 gs0]; [congruence|]. rewrite (bind_ok _ _ _ tt h1) by reflexivity. exact E2. }
  split; [exact B1|]. split; [exact B2|]. split; [exact B3|]. split; [exact B5|]. split; [rewrite B4; apply len_upd_grid|].
  split; [unfold aob; rewrite B4; fold (aob h1 a); unfold h1; apply aob_upd_eq; exact La|].
  split; [intros k Hk; unfold aob; rewrite B4; fold (aob h1 k); unfold h1; apply aob_upd_ne; exact Hk|]. split; [exact B6|exact B7].
Qed.

Lemma c52_weave : forall n h a t cs1 cs2 b sp cp nm nm2 (above from_below labels : bool) gs,
  class_table h -> class_chain h t (cs1 ++ cs2) b -> unrelated h (t :: (cs1 ++ cs2) ++ [b]) -> ~ In cInterval (cs1 ++ cs2) ->
  (forall x, In x (cs1 ++ cs2) -> plain_name (class_name h x)) ->
  str_in "Bottom" (class_name h t) = false -> str_in "Top" (class_name h b) = false ->
  nm <> ""%string -> plain_name nm -> nm2 <> ""%string -> class_name h sp = nm2 ->
  (if above then hd_error cs2 else hd_error (rev cs1)) = Some sp ->
  (if from_below then hd_error cs2 else hd_error (rev cs1)) = Some cp ->
  (a < List.length (h_grid h))%nat -> a_groups (aob h a) = gs -> apart_groups h gs ->
  (forall g, In g gs -> (g < List.length (h_grp h))%nat /\ exist_tiers h g /\
     ((full_group h (cs1 ++ cs2) g /\ forall k, In k (g_tiers (gob h g)) -> t_ec (tob h k) = cp -> t_seq (tob h k) <> []) \/
      ~ In sp (map (fun k => t_ec (tob h k)) (g_tiers (gob h g))))) ->
  (forall g k, In g gs -> In k (g_tiers (gob h g)) ->
     (t_ec (tob h k) < List.length (h_cls h))%nat /\ (class_name h (t_ec (tob h k)) = nm2 -> t_ec (tob h k) = sp)) ->
  (exists g, In g gs /\ full_group h (cs1 ++ cs2) g) ->
  exists gs' c h', interleave_class n a nm above nm2 from_below labels h = Ok tt h' /\
    (List.length (h_cls h) <= c < List.length (h_cls h'))%nat /\ class_name h' c = nm /\ class_chain h' t (cs1 ++ c :: cs2) b /\
    (forall k, (k < List.length (h_cls h))%nat -> k <> List.last cs1 t -> k <> hd b cs2 -> cob h' k = cob h k) /\
    (forall k, (k < List.length (h_cls h))%nat -> c_name (cob h' k) = c_name (cob h k) /\ c_base (cob h' k) = c_base (cob h k)) /\
    a_groups (aob h' a) = gs' /\ NoDup gs' /\ Forall2 (weaves labels cs1 c cs2 sp cp h h') gs gs' /\
    (forall g', In g' gs' -> g_within (gob h' g') = Some (WGrid a)) /\
    more_content (flat_map (tiers_in h) gs) h h' /\
    List.length (h_grid h') = List.length (h_grid h) /\ (forall k, k <> a -> aob h' k = aob h k) /\
    class_table h' /\ unrelated h' (t :: (cs1 ++ c :: cs2) ++ [b]).
Proof.
  intros n h a t cs1 cs2 b sp cp nm nm2 above from_below labels gs T C UN NI PN Nt Nb Nm Pnm Nm2 Esp Hsp Hcp La Ga Ap Rd Cl (g0 & Hg0 & Fg0).
  pose proof (table_wf h T) as W. pose proof (fun x => chain_live _ _ _ _ x T C) as LV. pose proof (chain_nodup _ _ _ _ T C) as ND.
  destruct (one_class h nm T Pnm) as (h1 & E1 & K & T1 & Cn & Cb & Lc). set (c := S (S (List.length (h_cls h)))) in *.
  pose proof (table_wf h1 T1) as W1. pose proof (chain_kept h h1 t (cs1 ++ cs2) b T T1 K C) as C1. pose proof K as (K1 & K2 & K3 & K4 & K5 & K6).
  assert (Nk : forall x, clive h x -> class_name h1 x = class_name h x) by (intros x Hx; unfold class_name; rewrite K2; auto).
  assert (Fresh : forall x, In x (t :: (cs1 ++ cs2) ++ [b]) -> (x < c)%nat).
  { intros x Hx. pose proof (LV x Hx) as Q. unfold clive in Q. unfold c. lia. }
  assert (Int : issubclass h1 c cInterval = true).
  { rewrite sub_step by auto. rewrite Cb, sub_refl. apply orb_true_r. }
  assert (UN1 : unrelated h1 (t :: (cs1 ++ cs2) ++ [b])).
  { intros x y Hx Hy E. apply UN; auto. rewrite <- (kept_sub h h1 x y W W1 K); auto. }
  assert (UN2 : unrelated h1 (c :: t :: (cs1 ++ cs2) ++ [b])) by (apply new_unrelated; auto).
  destruct (c42_insert h1 t cs1 cs2 b c T1 C1) as (h2 & E2 & CC & Oth & Bs & Len & R1 & R2 & R3 & R4).
  { exact UN2. }
  { intros Q. specialize (Fresh c Q). lia. }
  { exact Int. }
  { rewrite Cn. exact Pnm. }
  { intros x Hx. rewrite Nk by (apply LV; right; apply in_app_iff; auto). auto. }
  { rewrite Nk by (apply LV; simpl; auto). exact Nt. }
  { rewrite Nk by (apply LV; right; apply in_app_iff; simpl; auto). exact Nb. }
  assert (T2 : class_table h2).
  { destruct T1 as (Q1 & Q2 & Q3). split; [lia|]. split; [intros x y Hxy; apply Q2; destruct (Bs x) as [_ <-]; exact Hxy|].
    destruct Q3 as (Q3 & Q4 & Q5 & Q6 & Q7). destruct (Bs cHierarchyPart) as [_ ->], (Bs cTop) as [_ ->], (Bs cBottom) as [_ ->], (Bs cInterval) as [_ ->], (Bs cPoint) as [_ ->]. auto. }
  pose proof (table_wf h2 T2) as W2.
  assert (Sb12 : forall x y, issubclass h2 x y = issubclass h1 x y) by (apply subs_same; auto; intros k; apply Bs).
  assert (Sb : forall x y, clive h x -> issubclass h2 x y = issubclass h x y) by (intros x y Hx; rewrite Sb12; apply (kept_sub h h1 x y W W1 K); exact Hx).
  assert (S2 : h_seq h2 = h_seq h) by congruence. assert (Ti2 : h_tier h2 = h_tier h) by congruence.
  assert (G2 : h_grp h2 = h_grp h) by congruence. assert (A2 : h_grid h2 = h_grid h) by congruence.
  assert (Tob : forall k, tob h2 k = tob h k) by (intros k; unfold tob; rewrite Ti2; reflexivity).
  assert (Gob : forall k, gob h2 k = gob h k) by (intros k; unfold gob; rewrite G2; reflexivity).
  assert (Sob : forall k, sob h2 k = sob h k) by (intros k; unfold sob; rewrite S2; reflexivity).
  assert (Tob1 : forall k, tob h1 k = tob h k) by (intros k; unfold tob; rewrite K4; reflexivity).
  assert (Gob1 : forall k, gob h1 k = gob h k) by (intros k; unfold gob; rewrite K5; reflexivity).
  assert (Int2 : issubclass h2 c cInterval = true) by (rewrite Sb12; exact Int).
  assert (Isp : In sp (cs1 ++ cs2)).
  { apply in_app_iff. destruct above; [right; destruct cs2; [discriminate|injection Hsp as ->; simpl; auto]|left].
    apply in_rev. destruct (rev cs1); [discriminate|injection Hsp as ->; simpl; auto]. }
  assert (Lsp : clive h sp) by (apply LV; right; apply in_app_iff; auto).
  assert (Wh : (exists r, cs2 = cp :: r) \/ (exists r, cs1 = (r ++ [cp])%list)).
  { destruct from_below; [left; destruct cs2; [discriminate|injection Hcp as ->; eauto]|right].
    destruct cs1 as [|z l _] using rev_ind; [discriminate|]. rewrite rev_app_distr in Hcp. injection Hcp as ->. eauto. }
  assert (Nbc : ~ In b (cs1 ++ cs2)).
  { intros Q. destruct C as (_ & _ & _ & Tb & IV & _). specialize (IV b Q). rewrite (kinds_apart h b cBottom cInterval T) in IV; simpl; auto; discriminate. }
  destruct (weave_all n t cs1 c cs2 b sp cp labels Nbc Isp Wh gs h2 CC) as (gs' & h3 & E3 & WF & Wv & Lg & Nd).
  { apply (kinds_apart h2 c cInterval); simpl; auto; discriminate. }
  { apply (kinds_apart h2 c cInterval); simpl; auto; discriminate. }
  { apply (kinds_apart h2 c cInterval); simpl; auto; discriminate. }
  { intros g Hg. destruct (Rd g Hg) as (Q1 & Q2 & Q3). split; [unfold glive; rewrite G2; exact Q1|]. unfold exist_tiers. rewrite Gob. split.
    - intros k Hk. rewrite Tob. destruct (Q2 k Hk) as [Q4 Q5]. unfold tlive, live. rewrite Ti2, S2. auto.
    - rewrite (map_ext (fun k => t_ec (tob h2 k)) (fun k => t_ec (tob h k))) by (intros k; rewrite Tob; reflexivity).
      destruct Q3 as [((F1 & (bss & F2) & F3) & F4)|Q3]; [left|right; exact Q3]. split; [exact F1|]. split.
      + exists bss. apply (laid_cls h h2); auto; [|eapply good_laid; eauto]. intros k y Hk. apply Sb. unfold clive. apply (Cl g k Hg Hk).
      + intros k Hk. rewrite Tob. apply F4, Hk. }
  { destruct Ap as (P1 & P2 & P3). split; [exact P1|]. rewrite (flat_map_ext (tiers_in h2) (tiers_in h)) by (intros k; unfold tiers_in; rewrite Gob; reflexivity).
    split; [exact P2|]. rewrite (flat_map_ext (entries_in h2) (entries_in h)) by (intros k; unfold entries_in; rewrite Tob; reflexivity). exact P3. }
  rewrite (flat_map_ext (tiers_in h2) (tiers_in h)) in WF by (intros k; unfold tiers_in; rewrite Gob; reflexivity).
  pose proof WF as [Ct F2 F3 F4 F5 F6].
  assert (Ne : gs' <> []) by (intros ->; inversion Wv as [Q|]; rewrite <- Q in Hg0; destruct Hg0).
  destruct (groups_set a gs' h3 Ne) as (h4 & E4 & D1 & D2 & D3 & D4 & D5 & D6 & D7 & D8 & D9); auto.
  { unfold alive. rewrite F4, A2. exact La. }
  assert (C4 : h_cls h4 = h_cls h2) by congruence.
  assert (Cob4 : forall k, cob h4 k = cob h2 k) by (intros k; unfold cob; rewrite C4; reflexivity).
  exists gs', c, h4. split.
  { unfold interleave_class. rewrite (proj2 (String.eqb_neq nm "")) by exact Nm. rewrite (proj2 (String.eqb_neq nm2 "")) by exact Nm2. cbn [orb].
    rewrite (bind_ok _ _ _ _ _ E1).
    destruct (OutputFinal.c39_lookup h1 a nm2) as (r & Er & Hr). rewrite (bind_ok _ _ _ _ _ Er).
    assert (Ga1 : a_groups (aob h1 a) = gs) by (unfold aob; rewrite K6; exact Ga).
    assert (Named : forall d, (class_name h1 d = nm2 /\ exists t0, In t0 (tiers_of h1 (a_groups (aob h1 a))) /\ t_ec (tob h1 t0) = d) <-> d = sp).
    { intros d. rewrite Ga1. unfold tiers_of. split.
      - intros (Q1 & k & Hk & Q2). apply in_flat_map in Hk. destruct Hk as (g & Hg & Hk). rewrite Gob1 in Hk. rewrite Tob1 in Q2. destruct (Cl g k Hg Hk) as [Q3 Q4].
        rewrite Q2 in Q3, Q4. apply Q4. rewrite <- Nk by exact Q3. exact Q1.
      - intros ->. split; [rewrite Nk by exact Lsp; exact Esp|]. destruct Fg0 as (F1 & _). rewrite <- F1 in Isp. apply in_map_iff in Isp. destruct Isp as (k & Q1 & Q2).
        exists k. split; [apply in_flat_map; exists g0; rewrite Gob1; auto|]. rewrite Tob1. exact Q1. }
    assert (Hr' : r = OneClass sp).
    { destruct r as [|d|l].
      - exfalso. apply (Hr sp). apply Named. reflexivity.
      - f_equal. symmetry. apply Hr. apply Named. reflexivity.
      - exfalso. destruct Hr as (Q1 & Q2 & Q3). destruct l as [|x [|y l]]; cbn in Q2; [lia|lia|].
        assert (x = sp) by (apply Named, Q3; simpl; auto). assert (y = sp) by (apply Named, Q3; simpl; auto). subst.
        apply NoDup_cons in Q1. destruct Q1 as [Q1 _]. apply Q1, elem_of_list_In. simpl; auto. }
    rewrite Hr'. mstep.
    assert (Pt : is_point_cls h1 sp = false).
    { unfold is_point_cls. apply (kinds_apart h1 sp cInterval); simpl; auto; try discriminate. apply C1. exact Isp. }
    rewrite Pt. mstep.
    assert (Up : (if above then (if above then superset_class h1 sp else subset_class h1 sp) else Some sp) = Some (List.last cs1 t)).
    { destruct above.
      - destruct cs2 as [|z r2]; [discriminate|]. injection Hsp as ->. exact (chain_super _ _ _ _ _ _ _ C1 eq_refl).
      - destruct cs1 as [|z l _] using rev_ind; [discriminate|]. rewrite rev_app_distr in Hsp. injection Hsp as ->. rewrite List.last_last. reflexivity. }
    assert (Dn : (if above then Some sp else (if above then superset_class h1 sp else subset_class h1 sp)) = Some (hd b cs2)).
    { destruct above.
      - destruct cs2 as [|z r2]; [discriminate|]. injection Hsp as ->. reflexivity.
      - destruct cs1 as [|z l _] using rev_ind; [discriminate|]. rewrite rev_app_distr in Hsp. injection Hsp as ->. 
        apply (chain_sub _ _ _ _ l sp cs2 C1). rewrite <- app_assoc. reflexivity. }
    rewrite Up, Dn. rewrite (bind_ok _ _ _ _ _ E2). rewrite bind_gets. replace (a_groups (aob h2 a)) with gs by (unfold aob; rewrite A2; symmetry; exact Ga).
    assert (Cpy : (if from_below then Some (hd b cs2) else Some (List.last cs1 t)) = Some cp).
    { destruct from_below; [destruct cs2; [discriminate|injection Hcp as ->; reflexivity]|].
      destruct cs1 as [|z l _] using rev_ind; [discriminate|]. rewrite rev_app_distr in Hcp. injection Hcp as ->. rewrite List.last_last. reflexivity. }
    rewrite Cpy. rewrite (bind_ok _ _ _ _ _ E3). exact E4. }
  split; [unfold c, clive in *; rewrite C4; lia|].
  split. { unfold class_name. rewrite Cob4. destruct (Bs c) as [-> _]. exact Cn. }
  split. { destruct CC as (V1 & V2 & V3 & V4 & V5 & V6). split; [exact V1|]. split; [exact V2|]. rewrite !(issubclass_ext h2 h4) by exact C4. split; [exact V3|]. split; [exact V4|].
    split; [intros x Hx; rewrite (issubclass_ext h2 h4) by exact C4; auto|]. intros i x y Hx Hy. destruct (V6 i x y Hx Hy) as [X1 X2].
    split; [rewrite (subset_class_ext h2 h4) by exact C4; exact X1|]. unfold superset_class in *. rewrite C4. exact X2. }
  split. { intros k Hk Q1 Q2. rewrite Cob4, Oth; auto. unfold c. lia. }
  split. { intros k Hk. rewrite Cob4. destruct (Bs k) as [-> ->]. rewrite K2 by exact Hk. auto. }
  split; [rewrite D6; reflexivity|]. split; [exact Nd|]. split; [|split; [|split; [|split; [|split; [|split]]]]].
  - eapply Forall2_weaken; [exact Wv|]. intros g g' _ _ Q. apply (weaves_cls labels cs1 c cs2 sp cp h h2 h4); auto.
    apply (weaves_regroup labels cs1 c cs2 sp cp h2 h3 h4); auto.
    intros k. destruct (in_dec Nat.eq_dec k gs') as [Q'|Q']; [rewrite D8 by exact Q'|rewrite D9 by exact Q']; repeat split.
  - intros g' Hg'. rewrite D8 by exact Hg'. reflexivity.
  - apply (more_cls _ h h2); auto. destruct Ct as (Y1 & Y2 & Y3 & Y4 & Y5 & Y6 & Y7). unfold more_content.
    assert (S4 : forall i, sob h4 i = sob h3 i) by (intros i; unfold sob; rewrite D2; reflexivity).
    assert (T4 : forall i, tob h4 i = tob h3 i) by (intros i; unfold tob; rewrite D3; reflexivity).
    rewrite D2, D3. split; [exact Y1|]. split; [intros i Hi; rewrite S4; auto|]. split; [intros i Hi Hn; rewrite S4; auto|].
    split. { intros i Hi. destruct (Y4 i Hi) as [(Q1 & Q2)|(k & Q1 & Q2)]; [left; split; [rewrite D2; exact Q1|rewrite !S4; exact Q2]|right; exists k; rewrite T4; auto]. }
    split; [exact Y5|]. split; [intros k Hk Hn; rewrite T4; auto|]. intros k Hk. rewrite T4. auto.
  - rewrite D5, F4, A2. reflexivity.
  - intros k Hk. rewrite D7 by exact Hk. unfold aob. rewrite F4, A2. reflexivity.  - destruct T2 as (V1 & V2 & V3). unfold class_table, cob in *. rewrite C4. auto.
  - intros x y Hx Hy Q. rewrite (issubclass_ext h2 h4) in Q by exact C4. rewrite Sb12 in Q.
    assert (Mv : forall z, In z (t :: (cs1 ++ c :: cs2) ++ [b]) -> In z (c :: t :: (cs1 ++ cs2) ++ [b])).
    { intros z [Hz|Hz]; [right; left; exact Hz|]. apply in_app_iff in Hz. destruct Hz as [Hz|Hz]; [|do 2 right; apply in_app_iff; auto].
      apply in_app_iff in Hz. destruct Hz as [Hz|[Hz|Hz]]; [do 2 right; apply in_app_iff; left; apply in_app_iff; auto|left; exact Hz|do 2 right; apply in_app_iff; left; apply in_app_iff; auto]. }
    apply UN2; auto.
Qed.
Lemma c52_absent : forall n h a nm nm2 (above from_below labels : bool), class_table h -> nm <> ""%string -> plain_name nm -> nm2 <> ""%string ->
  (forall g k, In g (a_groups (aob h a)) -> In k (g_tiers (gob h g)) ->
     (t_ec (tob h k) < List.length (h_cls h))%nat /\ class_name h (t_ec (tob h k)) <> nm2) ->
  exists h', interleave_class n a nm above nm2 from_below labels h = Raise AttributeError h' /\
    (List.length (h_cls h) <= List.length (h_cls h'))%nat /\ (forall k, (k < List.length (h_cls h))%nat -> cob h' k = cob h k) /\
    h_seq h' = h_seq h /\ h_tier h' = h_tier h /\ h_grp h' = h_grp h /\ h_grid h' = h_grid h.
Proof.
  intros n h a nm nm2 above from_below labels T Nm Pnm Nm2 Cl.
  destruct (one_class h nm T Pnm) as (h1 & E1 & K & _). pose proof K as (K1 & K2 & K3 & K4 & K5 & K6).
  exists h1. split; [|auto 10].
  unfold interleave_class. rewrite (proj2 (String.eqb_neq nm "")) by exact Nm. rewrite (proj2 (String.eqb_neq nm2 "")) by exact Nm2. cbn [orb].
  rewrite (bind_ok _ _ _ _ _ E1).
  destruct (OutputFinal.c39_lookup h1 a nm2) as (r & Er & Hr). rewrite (bind_ok _ _ _ _ _ Er).
  assert (Ga1 : a_groups (aob h1 a) = a_groups (aob h a)) by (unfold aob; rewrite K6; reflexivity).
  assert (Tob1 : forall k, tob h1 k = tob h k) by (intros k; unfold tob; rewrite K4; reflexivity).
  assert (Gob1 : forall k, gob h1 k = gob h k) by (intros k; unfold gob; rewrite K5; reflexivity).
  assert (No : forall d, ~ (class_name h1 d = nm2 /\ exists t0, In t0 (tiers_of h1 (a_groups (aob h1 a))) /\ t_ec (tob h1 t0) = d)).
  { intros d (Q1 & k & Hk & Q2). rewrite Ga1 in Hk. unfold tiers_of in Hk. apply in_flat_map in Hk. destruct Hk as (g & Hg & Hk). rewrite Gob1 in Hk. rewrite Tob1 in Q2.
    destruct (Cl g k Hg Hk) as [Q3 Q4]. rewrite Q2 in Q3, Q4. apply Q4. unfold class_name in *. rewrite <- (K2 d) by exact Q3. exact Q1. }
  destruct r as [|d|l]; [reflexivity| |reflexivity].
  exfalso. apply (No d). apply Hr. reflexivity.
Qed.
End WithEnv.
