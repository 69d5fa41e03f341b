(** * ReadClasses: the classes a grid makes for itself when it reads a text grid. *)
From Verif Require Import ReadSpec WeaveFinal OwnFinal ClassFinal PointFinal.
Open Scope Z_scope.

(** ** The grid's own classes *)
Lemma chain_same h t1 cs1 b1 t2 cs2 b2 c : class_table h -> class_chain h t1 cs1 b1 -> class_chain h t2 cs2 b2 ->
  In c cs1 -> In c cs2 -> cs1 = cs2.
Proof.
  intros T C1 C2 I1 I2. pose proof (c14_chain h t1 cs1 b1 [] c T C1 I1 ltac:(intros ? _ [])) as E1.
  rewrite (c14_chain h t2 cs2 b2 [] c T C2 I2 ltac:(intros ? _ [])) in E1. injection E1. auto.
Qed.
Definition topped (h : heap) (c : cid) : bool :=
  issubclass h c cInterval && match superset_class h c with Some q => issubclass h q cTop | None => false end.
Lemma tops_are h l : (forall c, In c l -> issubclass h c cInterval = true -> exists q, superset_class h c = Some q) ->
  filterM is_top_cls l h = Ok (List.filter (topped h) l) h.
Proof.
  induction l as [|c l IH]; intros U; [reflexivity|]. cbn [filterM List.filter].
  assert (E : is_top_cls c h = Ok (topped h c) h).
  { unfold is_top_cls, topped. rewrite bind_gets. destruct (issubclass h c cInterval) eqn:Ic; [|reflexivity].
    destruct (U c) as [q Q]; [simpl; auto|exact Ic|]. rewrite bind_gets, Q. reflexivity. }
  rewrite (bind_ok _ _ _ _ _ E), (bind_ok _ _ _ _ _ (IH (fun d Hd => U d (or_intror Hd)))). destruct (topped h c); reflexivity.
Qed.
Lemma clone_up h h1 h' c c' : classes_kept h h1 -> clive h c -> clone_of h1 h' c c' -> clone_of h h' c c'.
Proof.
  intros (K1 & K2 & _) L (A & B & D). split; [lia|]. split; [|exact D]. rewrite B. unfold class_name. rewrite K2 by exact L. reflexivity.
Qed.
Lemma clone_down h h1 h' c c' : classes_kept h1 h' -> clone_of h h1 c c' -> clone_of h h' c c'.
Proof.
  intros (K1 & K2 & _) (A & B & D). split; [lia|]. unfold class_name. rewrite K2 by lia. auto.
Qed.
Lemma unrelated_kept h h' l : class_table h -> class_table h' -> classes_kept h h' -> (forall c, In c l -> clive h c) -> unrelated h l -> unrelated h' l.
Proof.
  intros T T' K L U c d Hc Hd S. apply U; auto. rewrite (kept_sub h h' c d (table_wf h T) (table_wf h' T') K (L c Hc)) in S. exact S.
Qed.
(** The clones [full] of the chain of [c]. *)
Definition cloned (h h' : heap) (c : cid) (full : list cid) : Prop :=
  exists t cs b t' b', class_chain h t (c :: cs) b /\ class_chain h' t' full b' /\
    Forall2 (clone_of h h') (c :: cs) full /\ unrelated h' (t' :: full ++ [b']).
Lemma cloned_down h h1 h' c full : class_table h1 -> class_table h' -> classes_kept h1 h' -> cloned h h1 c full -> cloned h h' c full.
Proof.
  intros T1 T' K (t & cs & b & t' & b' & C & C' & F & U). exists t, cs, b, t', b'. split; [exact C|].
  split; [apply (chain_kept h1); auto|]. split; [eapply Forall2_impl; [exact F|]; intros x y Q; apply (clone_down h h1); auto|].
  apply (unrelated_kept h1); auto. intros x Hx. apply (chain_live h1 t' full b' x T1 C' Hx).
Qed.
Lemma clone_fresh c h : clone_or_reuse [] c h = clone_class c h.
Proof. unfold clone_or_reuse. rewrite bind_gets. reflexivity. Qed.
Lemma clone_tops l : forall h, class_table h ->
  (forall c, In c l -> exists t cs b, class_chain h t (c :: cs) b /\ forall x, In x (c :: cs) -> plain_name (class_name h x)) ->
  exists fulls h', mapM (clone_or_reuse []) l h = Ok (map (hd 0%nat) fulls) h' /\ class_table h' /\ classes_kept h h' /\
    Forall2 (cloned h h') l fulls /\ (forall full, In full fulls -> full <> []).
Proof.
  induction l as [|c l IH]; intros h T U.
  { exists [], h. split; [reflexivity|]. split; [exact T|]. split; [apply kept_refl|]. split; [constructor|intros ? []]. }
  destruct (U c (or_introl eq_refl)) as (t & cs & b & C & N).
  destruct (c13_clone h t c cs b T C N) as (h1 & t' & c' & cs' & b' & E & C' & F & _ & _ & K & _ & T1 & Un).
  destruct (IH h1 T1) as (fulls & h' & E2 & T2 & K2 & F2 & Ne).
  { intros d Hd. destruct (U d (or_intror Hd)) as (t2 & cs2 & b2 & C2 & N2). exists t2, cs2, b2.
    split; [apply (chain_kept h); auto|]. intros x Hx. unfold class_name. destruct K as (_ & K & _). rewrite K; [apply N2, Hx|].
    apply (chain_live h t2 (d :: cs2) b2 x T C2). right. apply in_app_iff. auto. }
  exists ((c' :: cs') :: fulls), h'. split.
  { cbn [mapM map]. rewrite <- clone_fresh in E. rewrite (bind_ok _ _ _ _ _ E), (bind_ok _ _ _ _ _ E2). reflexivity. }
  split; [exact T2|]. split; [apply (kept_trans h h1); auto|]. split.
  - constructor.
    + apply (cloned_down h h1); auto. exists t, cs, b, t', b'. auto.
    + assert (Q : forall d, In d l -> exists t cs b, class_chain h t (d :: cs) b) by (intros d Hd; destruct (U d (or_intror Hd)) as (? & ? & ? & ? & _); eauto).
      clear -F2 K T T1 Q. induction F2 as [|d full l fulls (t & cs & b & t' & b' & C & C' & F & Un) F2 IH]; constructor; [|apply IH; intros; apply Q; simpl; auto].
      destruct (Q d (or_introl eq_refl)) as (t0 & cs0 & b0 & C0).
      assert (Ecs : d :: cs0 = d :: cs).
      { apply (chain_same h1 t0 _ b0 t _ b d T1); [apply (chain_kept h); auto|exact C|simpl; auto|simpl; auto]. }
      exists t0, cs0, b0, t', b'. split; [exact C0|]. split; [exact C'|]. split; [|exact Un]. rewrite Ecs.
      eapply Forall2_weaken; [exact F|]. intros x y Hx _ Q'. apply (clone_up h h1); auto.
      apply (chain_live h t0 (d :: cs0) b0 x T C0). right. apply in_app_iff. rewrite Ecs. auto.
  - intros full [<-|Hf]; [discriminate|auto].
Qed.
Lemma clone_points l : forall h, class_table h -> (forall c, In c l -> lone_point h c) ->
  exists r h', mapM (clone_or_reuse []) l h = Ok r h' /\ class_table h' /\ classes_kept h h' /\
    Forall2 (fun c c' => clone_of h h' c c' /\ lone_point h' c') l r.
Proof.
  induction l as [|c l IH]; intros h T U.
  { exists [], h. split; [reflexivity|]. split; [exact T|]. split; [apply kept_refl|constructor]. }
  pose proof (U c (or_introl eq_refl)) as Lp. pose proof Lp as [P S].
  assert (Lc : clive h c) by (apply (sub_live h c cPoint T); [cbv; lia|exact P]).
  destruct (c13_point h c T P) as (h1 & c' & E & Cl & K & P').
  rewrite <- clone_fresh in E.
  assert (Q : class_table h1 /\ lone_point h1 c').
  { destruct (obtain_one h h [] c c' h1 T (le_n _) (or_introl Lp) E) as (T1 & _ & _ & Q). split; [exact T1|].
    destruct (Q Lp) as [[]|Q']. exact Q'. }
  destruct Q as [T1 Lp1].
  destruct (IH h1 T1) as (r & h' & E2 & T2 & K2 & F2); [intros d Hd; apply (lone_kept h); auto; apply U; simpl; auto|].
  exists (c' :: r), h'. split; [cbn [mapM]; rewrite (bind_ok _ _ _ _ _ E), (bind_ok _ _ _ _ _ E2); reflexivity|].
  split; [exact T2|]. split; [apply (kept_trans h h1); auto|]. constructor.
  - split; [apply (clone_down h h1); auto|apply (lone_kept h1); auto].
  - eapply Forall2_weaken; [exact F2|]. intros x y Hx _ [Q1 Q2]. split; [|exact Q2]. apply (clone_up h h1); auto.
    destruct (U x (or_intror Hx)) as [Px _]. apply (sub_live h x cPoint T); [cbv; lia|exact Px].
Qed.
Lemma hier_fulls h fulls : class_table h -> (forall full, In full fulls -> full <> [] /\ exists t b, class_chain h t full b) ->
  mapM (fun c => get_class_hierarchy c []) (map (hd 0%nat) fulls) h = Ok fulls h.
Proof.
  intros T. induction fulls as [|full fulls IH]; intros U; [reflexivity|]. cbn [map mapM].
  destruct (U full (or_introl eq_refl)) as (Ne & t & b & C). destruct full as [|c full]; [congruence|].
  rewrite (bind_ok _ _ _ (c :: full) h) by (apply (c14_chain h t (c :: full) b [] c T C); [simpl; auto|intros ? _ []]).
  rewrite (bind_ok _ _ _ _ _ (IH (fun f Hf => U f (or_intror Hf)))). reflexivity.
Qed.
Lemma dedup_iff c l : In c (dedup l) <-> In c l.
Proof.
  split; [apply dedup_in|]. induction l as [|x l IH]; [auto|]. cbn [dedup]. intros [<-|I]; [simpl; auto|].
  destruct (Nat.eq_dec c x) as [->|N]; [simpl; auto|]. right. apply filter_In. split; [auto|]. apply negb_true_iff, Nat.eqb_neq. exact N.
Qed.
Lemma dedup_once l : NoDup (dedup l).
Proof.
  induction l as [|x l IH]; [constructor|]. cbn [dedup]. constructor.
  - intros Q. apply elem_of_list_In, filter_In in Q. destruct Q as [_ Q]. rewrite Nat.eqb_refl in Q. discriminate.
  - apply NoDup_ListNoDup. apply List.NoDup_filter. apply NoDup_ListNoDup. exact IH.
Qed.
Lemma names_once (h : heap) (l : list cid) : NoDup l -> (forall c d, In c l -> In d l -> class_name h c = class_name h d -> c = d) ->
  NoDup (map (class_name h) l).
Proof.
  induction l as [|c l IH]; intros N U; [constructor|]. apply NoDup_cons in N. destruct N as [N1 N2]. cbn [map]. constructor.
  - intros Q. apply elem_of_list_In, in_map_iff in Q. destruct Q as (d & Q1 & Q2). apply N1, elem_of_list_In.
    rewrite <- (U d c) by (simpl; auto). exact Q2.
  - apply IH; [exact N2|]. intros a b Ha Hb. apply U; simpl; auto.
Qed.
(** The class found under the name of [c] in the list [cl]. *)
Definition by_name (h : heap) (cl : list cid) (c : cid) : cid :=
  match name_idx h (class_name h c) cl with Some i => nth i cl 0%nat | None => 0%nat end.
Lemma by_name_src h h' src cl : NoDup src -> (forall c d, In c src -> In d src -> class_name h c = class_name h d -> c = d) ->
  (forall c, In c src -> class_name h' c = class_name h c) -> Forall2 (fun c c' => class_name h' c' = class_name h c) src cl ->
  cl = map (by_name h' cl) src /\
  forall l, incl l src -> swap_classes l cl h' = Ok (map (by_name h' cl) l) h'.
Proof.
  intros N U Nm F.
  assert (En : map (class_name h') cl = map (class_name h) src).
  { clear -F. induction F as [|c c' l l' Q F IH]; [reflexivity|]. cbn [map]. rewrite Q, IH. reflexivity. }
  assert (Nd : NoDup (map (class_name h') cl)) by (rewrite En; apply names_once; auto).
  assert (Len : List.length cl = List.length src) by (symmetry; eapply Forall2_length; exact F).
  assert (Ix : forall i c, nth_error src i = Some c -> name_idx h' (class_name h' c) cl = Some i).
  { intros i c Hi. unfold name_idx. apply str_index_nth; [exact Nd|]. rewrite En, nth_error_map, Hi. cbn. rewrite Nm; [reflexivity|]. eapply nth_error_In; eauto. }
  assert (By : forall i c, nth_error src i = Some c -> nth_error cl i = Some (by_name h' cl c)).
  { intros i c Hi. unfold by_name. rewrite (Ix i c Hi). apply nth_error_nth'. rewrite Len. apply nth_error_Some. congruence. }
  split.
  - apply nth_ext with (d := 0%nat) (d' := 0%nat); [rewrite map_length; exact Len|]. intros i Hi.
    destruct (nth_error src i) as [c|] eqn:E; [|apply nth_error_None in E; lia].
    rewrite (nth_error_nth _ _ _ (By i c E)). rewrite (nth_error_nth (map (by_name h' cl) src) i 0%nat (x := by_name h' cl c)); [reflexivity|]. rewrite nth_error_map, E. reflexivity.
  - induction l as [|c l IH]; intros I; [reflexivity|]. unfold swap_classes. cbn [mapM map].
    assert (Ic : In c src) by (apply I; simpl; auto). apply In_nth_error in Ic. destruct Ic as [i Hi].
    erewrite bind_ok; [|rewrite bind_gets, (Ix i c Hi), (By i c Hi); reflexivity].
    fold (swap_classes l cl). rewrite (bind_ok _ _ _ _ _ (IH (fun x Hx => I x (or_intror Hx)))). reflexivity.
Qed.
Lemma swap_ext l cl h h' : h_cls h' = h_cls h -> forall r, swap_classes l cl h = Ok r h -> swap_classes l cl h' = Ok r h'.
Proof.
  intros E. induction l as [|c l IH]; intros r Q; [injection Q as <-; reflexivity|]. unfold swap_classes in *. cbn [mapM] in *.
  fold (swap_classes l cl) in *. rewrite !bind_assoc in *. rewrite !bind_gets in *.
  assert (En : name_idx h' (class_name h' c) cl = name_idx h (class_name h c) cl).
  { unfold name_idx, class_name, cob. rewrite E. reflexivity. }
  rewrite En. destruct (name_idx h (class_name h c) cl) as [i|]; [|discriminate]. destruct (nth_error cl i) as [d|]; [|discriminate].
  cbn [of_opt] in *. rewrite bind_ret in *. destruct (ok_bind _ _ _ _ _ Q) as (r2 & h2 & E2 & E3). injection E3 as <- ->.
  rewrite (bind_ok _ _ _ _ _ (IH _ E2)). reflexivity.
Qed.

Lemma reclone_fresh h a flat : class_table h -> alive h a -> a_cloned (aob h a) = [] -> flat <> [] ->
  (forall c, In c flat -> lone_point h c \/
     exists t cs b, class_chain h t cs b /\ In c cs /\ incl cs flat /\ forall x, In x cs -> plain_name (class_name h x)) ->
  (forall c d, In c flat -> In d flat -> class_name h c = class_name h d -> c = d) ->
  exists f cl h', reclone a flat h = Ok tt h' /\ class_table h' /\
    (List.length (h_cls h) <= List.length (h_cls h'))%nat /\ (forall c, clive h c -> cob h' c = cob h c) /\
    h_seq h' = h_seq h /\ h_tier h' = h_tier h /\ h_grp h' = h_grp h /\ List.length (h_grid h') = List.length (h_grid h) /\
    (forall x, x <> a -> aob h' x = aob h x) /\ aob h' a = set_a_cloned cl (aob h a) /\
    (forall c, In c flat -> clone_of h h' c (f c) /\ In (f c) cl) /\
    (forall c, In c flat -> lone_point h c -> lone_point h' (f c)) /\
    (forall t cs b, class_chain h t cs b -> incl cs flat ->
       exists t' b', class_chain h' t' (map f cs) b' /\ unrelated h' (t' :: map f cs ++ [b'])) /\
    (forall l, incl l flat -> swap_classes l cl h' = Ok (map f l) h').
Proof.
  intros T La Ac Ne U Nm.
  assert (Kd : forall c, lone_point h c -> issubclass h c cInterval = false).
  { intros c [P _]. apply (kinds_apart h c cPoint cInterval T); simpl; auto; try discriminate. }
  set (u := dedup flat). set (pts := List.filter (fun c => issubclass h c cPoint) u). set (tops := List.filter (topped h) u).
  assert (Pp : forall c, In c pts -> In c flat /\ lone_point h c).
  { intros c Hc. apply filter_In in Hc. destruct Hc as [I P]. apply dedup_in in I. split; [exact I|].
    destruct (U c I) as [L|(t & cs & b & C & I2 & _ & N)]; [auto|]. exfalso. destruct C as (_ & _ & _ & _ & IV & _). specialize (IV c I2).
    rewrite (kinds_apart h c cPoint cInterval T) in IV; [discriminate|simpl; auto|simpl; auto|discriminate|exact P]. }
  assert (Tp : forall c, In c tops -> In c flat /\ exists t cs b, class_chain h t (c :: cs) b /\ incl (c :: cs) flat /\
     forall x, In x (c :: cs) -> plain_name (class_name h x)).
  { intros c Hc. apply filter_In in Hc. destruct Hc as [I P]. apply dedup_in in I. split; [exact I|].
    unfold topped in P. apply andb_true_iff in P. destruct P as [P1 P2]. destruct (superset_class h c) as [q|] eqn:Sq; [|discriminate].
    destruct (U c I) as [L|(t & cs & b & C & I2 & I3 & N)]; [rewrite (Kd c L) in P1; discriminate|].
    destruct (top_heads h t cs b c q T C I2 Sq P2) as [cs' ->]. eauto 10. }
  assert (Et : filterM is_top_cls u h = Ok tops h).
  { apply tops_are. intros c Hc Ic. apply dedup_in in Hc. destruct (U c Hc) as [L|(t & cs & b & C & I2 & _)]; [rewrite (Kd c L) in Ic; discriminate|].
    apply in_split in I2. destruct I2 as (l1 & l2 & ->). eexists. exact (chain_super _ _ _ _ _ _ _ C eq_refl). }
  destruct (clone_points pts h T) as (pcl & h1 & E1 & T1 & K1 & F1); [intros c Hc; apply Pp, Hc|].
  destruct (clone_tops tops h1 T1) as (fulls & h2 & E2 & T2 & K2 & F2 & Nf).
  { intros c Hc. destruct (Tp c Hc) as (_ & t & cs & b & C & _ & N). exists t, cs, b. split; [apply (chain_kept h); auto|].
    intros x Hx. unfold class_name. destruct K1 as (_ & K1 & _). rewrite K1; [apply N, Hx|]. apply (chain_live h t (c :: cs) b x T C). right. apply in_app_iff. auto. }
  assert (K : classes_kept h h2) by (apply (kept_trans h h1); auto).
  (* the chains themselves *)
  assert (Ch : exists chs, Forall2 (fun c cs => exists r, cs = c :: r) tops chs /\
      Forall2 (fun cs full => incl cs flat /\ (exists t b, class_chain h t cs b) /\ Forall2 (clone_of h h2) cs full /\
        exists t' b', class_chain h2 t' full b' /\ unrelated h2 (t' :: full ++ [b'])) chs fulls).
  { assert (Q : forall c, In c tops -> exists t cs b, class_chain h t (c :: cs) b /\ incl (c :: cs) flat).
    { intros c Hc. destruct (Tp c Hc) as (_ & t & cs & b & C & I & _). eauto. }
    clear -F2 Q T K1 T1 K. revert Q. induction F2 as [|c full l fulls (t & cs & b & t' & b' & C & C' & F & Un) F2 IH]; intros Q.
    - exists []. split; constructor.
    - destruct IH as (chs & A & B); [intros d Hd; apply Q; simpl; auto|]. destruct (Q c (or_introl eq_refl)) as (t0 & cs0 & b0 & C0 & I0).
      assert (Ecs : c :: cs0 = c :: cs).
      { apply (chain_same h1 t0 _ b0 t _ b c T1); [apply (chain_kept h); auto|exact C|simpl; auto|simpl; auto]. }
      exists ((c :: cs0) :: chs). split; [constructor; eauto|]. constructor; [|exact B].
      split; [exact I0|]. split; [eauto|]. split; [|eauto]. rewrite Ecs. eapply Forall2_weaken; [exact F|]. intros x y Hx _ Q'.
      apply (clone_up h h1); auto. apply (chain_live h t0 (c :: cs0) b0 x T C0). right. apply in_app_iff. rewrite Ecs. auto. }
  destruct Ch as (chs & Hd & Fs).
  set (src := (pts ++ concat chs)%list). set (cl := (pcl ++ concat fulls)%list).
  assert (Fsrc : Forall2 (clone_of h h2) src cl).
  { apply Forall2_app.
    - eapply Forall2_impl; [exact F1|]. intros x y [Q _]. apply (clone_down h h1); auto.
    - clear -Fs. induction Fs as [|cs full chs fulls (_ & _ & F & _) Fs IH]; [constructor|]. cbn [concat]. apply Forall2_app; auto. }
  assert (Chs : forall cs, In cs chs -> exists t b, class_chain h t cs b).
  { intros cs Hc. destruct (Forall2_in_l _ _ _ cs Fs Hc) as (full & _ & _ & Q & _). exact Q. }
  assert (Isrc : incl src flat).
  { intros c Hc. apply in_app_iff in Hc. destruct Hc as [Hc|Hc]; [apply Pp, Hc|]. apply in_concat in Hc. destruct Hc as (cs & Hcs & Hc).
    destruct (Forall2_in_l _ _ _ cs Fs Hcs) as (full & _ & Q & _). apply Q, Hc. }
  assert (Lf : forall c, In c flat -> clive h c).
  { intros c Hc. destruct (U c Hc) as [[P _]|(t & cs & b & C & I2 & _)]; [apply (sub_live h c cPoint T); [cbv; lia|exact P]|].
    apply (chain_live h t cs b c T C). right. apply in_app_iff. auto. }
  assert (Fsub : incl flat src).
  { intros c Hc. apply in_app_iff. destruct (U c Hc) as [L|(t & cs & b & C & I2 & I3 & N)].
    - left. apply filter_In. split; [apply dedup_iff; exact Hc|apply L].
    - right. assert (Hh : exists d r, cs = d :: r) by (destruct cs as [|d r]; [destruct I2|eauto]). destruct Hh as (d & r & Ecs).
      assert (Hd' : In d tops).
      { apply filter_In. split; [apply dedup_iff; apply I3; rewrite Ecs; simpl; auto|]. unfold topped.
        rewrite (chain_super h t cs b [] d r C Ecs). cbn [List.last]. destruct C as (_ & _ & Q1 & _ & Q2 & _). rewrite (Q2 d) by (rewrite Ecs; simpl; auto). exact Q1. }
      destruct (Forall2_in_l _ _ _ d Hd Hd') as (cs' & Hc' & r' & ->). destruct (Chs _ Hc') as (t2 & b2 & C2).
      assert (Eq : cs = d :: r') by (apply (chain_same h t cs b t2 (d :: r') b2 d T C C2); [rewrite Ecs|]; simpl; auto).
      apply in_concat. exists (d :: r'). split; [exact Hc'|]. rewrite <- Eq. exact I2. }
  assert (Nsrc : NoDup src).
  { apply NoDup_app. split; [apply NoDup_ListNoDup, List.NoDup_filter, NoDup_ListNoDup, dedup_once|]. split.
    - intros c Hc Q. apply elem_of_list_In in Hc. apply elem_of_list_In in Q. apply Pp in Hc. destruct Hc as [_ L]. apply in_concat in Q. destruct Q as (cs & Hcs & Q).
      destruct (Chs cs Hcs) as (t & b & C). pose proof (Kd c L) as X. destruct C as (_ & _ & _ & _ & IV & _). rewrite (IV c Q) in X. discriminate.
    - assert (Nt : NoDup tops) by (apply NoDup_ListNoDup, List.NoDup_filter, NoDup_ListNoDup, dedup_once).
      clear -Hd Chs Nt T. revert Nt Chs. induction Hd as [|c cs tops chs (r & ->) Hd IH]; intros Nt Chs; [constructor|]. cbn [concat].
      apply NoDup_cons in Nt. destruct Nt as [N1 N2]. destruct (Chs _ (or_introl eq_refl)) as (t & b & C).
      apply NoDup_app. split; [apply C|]. split; [|apply IH; [exact N2|intros x Hx; apply Chs; simpl; auto]].
      intros x Hx Q. apply elem_of_list_In in Hx. apply elem_of_list_In, in_concat in Q. destruct Q as (cs2 & Hcs & Q).
      destruct (Forall2_in_r _ _ _ cs2 Hd Hcs) as (d & Hdt & r2 & ->). destruct (Chs _ (or_intror Hcs)) as (t2 & b2 & C2).
      pose proof (chain_same h t _ b t2 _ b2 x T C C2 Hx Q) as E. injection E as -> _. apply N1, elem_of_list_In. exact Hdt. }
  destruct (by_name_src h h2 src cl Nsrc) as [Ecl Sw].
  { intros c d Hc Hd2. apply Nm; apply Isrc; auto. }
  { intros c Hc. unfold class_name. destruct K as (_ & K & _). rewrite K; [reflexivity|]. apply Lf, Isrc, Hc. }
  { eapply Forall2_impl; [exact Fsrc|]. intros x y (_ & Q & _). exact Q. }
  set (f := by_name h2 cl) in *.
  assert (Cf : forall c, In c src -> clone_of h h2 c (f c)).
  { rewrite Ecl in Fsrc. clear -Fsrc. intros c Hc. remember src as l eqn:El. clear El. revert Fsrc. induction l as [|d l IH]; intros F; [destruct Hc|]. cbn [map] in F. inversion F; subst.
    destruct Hc as [->|Hc]; auto. }
  assert (Pf : Forall2 (fun c c' => c' = f c) pts pcl /\ Forall2 (fun cs full => full = map f cs) chs fulls).
  { assert (L1 : List.length pcl = List.length pts) by (symmetry; eapply Forall2_length; exact F1).
    unfold src, cl in Ecl. rewrite map_app in Ecl. assert (Ecl' : (pcl ++ concat fulls = map f pts ++ map f (concat chs))%list) by exact Ecl.
    apply app_inj_1 in Ecl'; [|rewrite map_length; exact L1]. destruct Ecl' as [Q1 Q2]. split.
    - rewrite Q1. clear. induction pts; constructor; auto.
    - assert (Q3 : Forall2 (fun cs full => List.length full = List.length cs) chs fulls).
      { eapply Forall2_impl; [exact Fs|]. intros x y (_ & _ & Q & _). symmetry. eapply Forall2_length; exact Q. }
      clearbody f. clear -Q2 Q3. revert Q2. induction Q3 as [|cs full chs fulls Q Q3 IH]; intros Q2; [constructor|]. cbn [concat] in Q2. rewrite map_app in Q2.
      apply app_inj_1 in Q2; [|rewrite map_length; exact Q]. destruct Q2 as [Qa Qb]. constructor; auto. }
  destruct Pf as [Pf1 Pf2].
  assert (E3 : mapM (fun c => get_class_hierarchy c []) (map (hd 0%nat) fulls) h2 = Ok fulls h2).
  { apply hier_fulls; [exact T2|]. intros full Hf. split; [apply Nf, Hf|]. destruct (Forall2_in_r _ _ _ full Fs Hf) as (cs & _ & _ & _ & _ & t' & b' & C & _). eauto. }
  set (h3 := upd_grid a (fun o => set_a_cloned (a_cloned o ++ pcl ++ concat fulls)%list o) h2).
  assert (Gr : h_grid h2 = h_grid h) by apply K.
  assert (La2 : alive h2 a) by (unfold alive in *; rewrite Gr; exact La).
  exists f, cl, h3. split.
  { unfold reclone. destruct flat as [|f0 fl]; [congruence|]. rewrite bind_gets. rewrite Ac. rewrite bind_gets. fold u. fold pts.
    rewrite (bind_ok _ _ _ _ _ Et), (bind_ok _ _ _ _ _ E1), (bind_ok _ _ _ _ _ E2), (bind_ok _ _ _ _ _ E3). reflexivity. }
  split; [exact T2|]. split; [apply K|]. split; [intros c Hc; apply K, Hc|]. split; [apply K|]. split; [apply K|]. split; [apply K|].
  split; [unfold h3; rewrite len_upd_grid, Gr; reflexivity|].
  split; [intros x Hx; unfold h3; rewrite aob_upd_ne by exact Hx; unfold aob; rewrite Gr; reflexivity|].
  assert (Aa : aob h2 a = aob h a) by (unfold aob; rewrite Gr; reflexivity).
  split. { unfold h3. rewrite aob_upd_eq by exact La2. rewrite Aa, Ac. reflexivity. }
  split. { intros c Hc. split; [exact (Cf c (Fsub c Hc))|]. rewrite Ecl. apply in_map. apply Fsub, Hc. }
  split. { intros c Hc L. change (lone_point h2 (f c)). assert (Hp : In c pts) by (apply filter_In; split; [apply dedup_iff; exact Hc|apply L]).
    destruct (Forall2_in_l _ _ _ c F1 Hp) as (c' & Hc' & _ & L').
    assert (Q : Forall2 (fun c c' => lone_point h1 c' /\ c' = f c) pts pcl).
    { clearbody f. clear -F1 Pf1. revert Pf1. induction F1 as [|x y l m Q F IH]; intros Pf1; inversion Pf1; constructor; auto. split; [apply Q|assumption]. }
    destruct (Forall2_in_l _ _ _ c Q Hp) as (c2 & _ & Q1 & ->). apply (lone_kept h1); auto. }
  split.
  { intros t cs b C Ic. assert (Hh : exists d r, cs = d :: r) by (destruct C as (_ & Q & _); destruct cs as [|d r]; [congruence|eauto]). destruct Hh as (d & r & Ecs).
    assert (Hd' : In d tops).
    { apply filter_In. split; [apply dedup_iff; apply Ic; rewrite Ecs; simpl; auto|]. unfold topped.
      rewrite (chain_super h t cs b [] d r C Ecs). cbn [List.last]. destruct C as (_ & _ & Q1 & _ & Q2 & _). rewrite (Q2 d) by (rewrite Ecs; simpl; auto). exact Q1. }
    destruct (Forall2_in_l _ _ _ d Hd Hd') as (cs' & Hc' & r' & ->). destruct (Chs _ Hc') as (t2 & b2 & C2).
    assert (Eq : cs = d :: r') by (apply (chain_same h t cs b t2 (d :: r') b2 d T C C2); [rewrite Ecs|]; simpl; auto).
    rewrite Eq. assert (Q : Forall2 (fun cs full => full = map f cs /\ exists t' b', class_chain h2 t' full b' /\ unrelated h2 (t' :: full ++ [b'])) chs fulls).
    { clearbody f. clear -Fs Pf2. revert Pf2. induction Fs as [|x y l m Q F IH]; intros Pf2; inversion Pf2; constructor; auto. split; [assumption|apply Q]. }
    destruct (Forall2_in_l _ _ _ _ Q Hc') as (full & _ & -> & t' & b' & Q1 & Q2). exists t', b'. auto. }
  intros l Hl. apply (swap_ext l cl h2 h3); [reflexivity|]. apply Sw. intros x Hx. apply Fsub, Hl, Hx.
Qed.
