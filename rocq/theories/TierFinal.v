(** * TierFinal: building and relinking tiers. *)
From Verif Require Export TierSpec TreeFinal QueryFinal.
Open Scope Z_scope.

Section WithEnv.
Context `{Env}.

(** ** Loops that write the same attribute of many objects *)
Lemma forM_mod_seq f l h : forM l (fun x => mod_seq x f) h = Ok tt (upds f l h).
Proof. revert h; induction l as [|x l IH]; intros h; simpl; [reflexivity|]. mstep. apply IH. Qed.
Lemma upds_rest f l h : h_cls (upds f l h) = h_cls h /\ h_tier (upds f l h) = h_tier h /\
  h_grp (upds f l h) = h_grp h /\ h_grid (upds f l h) = h_grid h.
Proof.
  revert h; induction l as [|x l IH]; intros h; simpl; [auto|].
  destruct (IH (upd_seq x f h)) as (A & B & C & D). rewrite A, B, C, D. auto.
Qed.
Lemma tob_ext h h' t : h_tier h' = h_tier h -> tob h' t = tob h t.
Proof. unfold tob. intros ->. reflexivity. Qed.

Lemma boundary_within h h' k : s_label (sob h' k) = s_label (sob h k) ->
  s_start (sob h' k) = s_start (sob h k) -> s_end (sob h' k) = s_end (sob h k) ->
  s_super (sob h' k) = s_super (sob h k) -> s_subset (sob h' k) = s_subset (sob h k) ->
  (List.length (h_seq h) <= List.length (h_seq h'))%nat -> is_boundary h k -> is_boundary h' k.
Proof. unfold is_boundary. intros -> -> -> -> -> L (A & B). split; [lia|exact B]. Qed.

(** ** Relinking a tier *)
Lemma tier_relink t c l h : tlive h t -> linkable h c l ->
  exists h1, precedence (fun x => mod_seq x (set_s_intier (Some t))) None l h = Ok tt h1 /\
    placed t false l h h1 /\ chained h1 l.
Proof.
  intros Ht [Hnd Hall].
  destruct (precedence_chained (set_s_intier (Some t)) l c h (benign_intier _) Hnd Hall) as (h1 & E & L & F & C).
  exists h1. split; [exact E|]. split; [|exact C].
  destruct L as (L1 & L2 & L3 & L4 & L5 & L6 & L7). destruct (upds_rest (set_s_intier (Some t)) l h) as (U1 & U2 & U3 & U4).
  rewrite len_upds in L5.
  split; [|split; [exact F|split; [exact L5|split]]].
  - intros x Hx. destruct (Hall x Hx) as (Hl & _).
    assert (K := L6 x (proj2 (live_upds _ _ _ _) Hl)). rewrite sob_upds_in in K by auto.
    apply erase_fields in K. destruct (sob h x), (sob h1 x); unfold same_but_place, set_s_intier in *; simpl in *.
    intuition.
  - intros i Hi. apply boundary_is_boundary; [unfold live; lia|]. apply L7; [unfold live; lia|].
    rewrite live_upds. unfold live. lia.
  - split; [congruence|]. split; [congruence|]. split; [congruence|]. split; [congruence|].
    split; [intros u _|]; apply tob_ext; congruence.
Qed.

Lemma contain_placed t l h h1 : tlive h t -> t_seq (tob h t) = l -> (forall x, In x l -> live h x) -> NoDup l ->
  placed t false l h h1 -> chained h1 l -> (forall x, In x l -> s_label (sob h x) <> "#"%string) ->
  exists h2, tier_set_contains t h1 = Ok tt h2 /\ placed t true l h h2 /\ chained h2 l.
Proof.
  intros Ht Hl Hlv Hnd (P1 & P2 & P3 & P4 & P5 & P6 & P7 & P8 & P9 & P10) C Hh.
  unfold tier_set_contains. mstep. rewrite P10, Hl. mstep. rewrite forM_mod_seq.
  set (h1' := upd_tier t (set_t_contains CAlias) h1).
  set (h2 := upds (set_s_within (Some (WTier t))) l h1').
  exists h2. split; [reflexivity|].
  assert (Ht1 : tlive h1 t) by (unfold tlive in *; lia).
  assert (Lv : forall x, In x l -> live h1' x) by (intros x Hx; specialize (Hlv x Hx); unfold live, h1' in *; simpl; lia).
  assert (Sin : forall x, In x l -> sob h2 x = set_s_within (Some (WTier t)) (sob h1 x)).
  { intros x Hx. unfold h2. rewrite sob_upds_in by auto. reflexivity. }
  assert (Sout : forall x, ~ In x l -> sob h2 x = sob h1 x).
  { intros x Hx. unfold h2. rewrite sob_upds_notin by auto. reflexivity. }
  assert (Ln : List.length (h_seq h2) = List.length (h_seq h1)) by (unfold h2; rewrite len_upds; reflexivity).
  assert (B : forall k, is_boundary h1 k -> is_boundary h2 k).
  { intros k Bk. assert (~ In k l).
    { intros Hk. destruct (P1 k Hk) as ((_ & _ & _ & Q & _) & _). apply (Hh k Hk). rewrite <- Q. apply Bk. }
    eapply boundary_within; [..|exact Bk]; rewrite ?Sout by auto; auto. lia. }
  destruct (upds_rest (set_s_within (Some (WTier t))) l h1') as (U1 & U2 & U3 & U4). fold h2 in U1, U2, U3, U4.
  split.
  - split; [|split; [|split; [lia|split]]].
    + intros x Hx. rewrite (Sin x Hx). destruct (P1 x Hx) as (Q1 & Q2 & Q3).
      split; [exact Q1|]. split; [exact Q2|reflexivity].
    + intros i Hi Hn. rewrite Sout by auto. apply P2; auto.
    + intros i Hi. apply B, P4. lia.
    + split; [rewrite U1; exact P5|]. split; [rewrite U3; exact P6|]. split; [rewrite U4; exact P7|].
      split; [rewrite U2; unfold h1'; rewrite len_upd_tier; exact P8|].
      split.
      * intros u Hu. rewrite (tob_ext h1' h2) by auto. unfold h1'. rewrite tob_upd_ne by auto. auto.
      * rewrite (tob_ext h1' h2) by auto. unfold h1'. rewrite tob_upd_eq by auto. rewrite P10. reflexivity.
  - eapply chained_ext; [|exact B|exact C]. intros x Hx. rewrite (Sin x Hx). split; reflexivity.
Qed.

Lemma tier_precedence_ok h t c s : tlive h t -> linkable h c (t_seq (tob h t)) -> t_super (tob h t) = Some s ->
  exists h', tier_precedence t h = Ok tt h' /\ placed t (issubclass h s cTop) (t_seq (tob h t)) h h' /\
    chained h' (t_seq (tob h t)).
Proof.
  intros Ht Hl Hs. destruct (tier_relink t c _ h Ht Hl) as (h1 & E1 & P1 & C1).
  unfold tier_precedence. mstep. rewrite (bind_ok _ _ _ _ _ E1). rewrite Hs. unfold issubclass_m. mstep.
  assert (Hc : h_cls h1 = h_cls h) by apply P1. rewrite (issubclass_ext h h1) by auto.
  destruct (issubclass h s cTop) eqn:Etop.
  - simpl. destruct Hl as [Hnd Hall].
    destruct (contain_placed t (t_seq (tob h t)) h h1) as (h2 & E2 & P2 & C2); auto.
    + intros x Hx. apply Hall; auto.
    + intros x Hx. apply Hall; auto.
    + exists h2. auto.
  - exists h1. auto.
Qed.
Lemma ptier_precedence_ok h t c : tlive h t -> linkable h c (t_seq (tob h t)) ->
  exists h', ptier_precedence t h = Ok tt h' /\ placed t true (t_seq (tob h t)) h h' /\
    chained h' (t_seq (tob h t)).
Proof.
  intros Ht Hl. destruct (tier_relink t c _ h Ht Hl) as (h1 & E1 & P1 & C1).
  unfold ptier_precedence. mstep. rewrite (bind_ok _ _ _ _ _ E1). destruct Hl as [Hnd Hall].
  destruct (contain_placed t (t_seq (tob h t)) h h1) as (h2 & E2 & P2 & C2); auto.
  - intros x Hx. apply Hall; auto.
  - intros x Hx. apply Hall; auto.
  - exists h2. auto.
Qed.

(** ** Making the entries *)
Definition kind_of (h : heap) (c : cid) : cid := if is_point_cls h c then cPoint else cInterval.

Definition built (c : cid) (h h1 : heap) (ents : list entry) (os : list oid) : Prop :=
  Forall2 (made h h1 c) ents os /\ NoDup os /\
  (forall i, live h i -> ~ In i (entry_objs ents) -> sob h1 i = sob h i) /\
  (forall i, live h i -> In i (entry_objs ents) -> sob h1 i = set_s_cls c (sob h i)) /\
  (List.length (h_seq h) <= List.length (h_seq h1))%nat /\
  (forall i, (List.length (h_seq h) <= i < List.length (h_seq h1))%nat -> ~ In i os -> is_boundary h1 i) /\
  (forall x, In x os -> live h1 x) /\ same_rest h h1.

Lemma made_where h h1 c ents os x : Forall2 (made h h1 c) ents os -> In x os ->
  In x (entry_objs ents) \/ (List.length (h_seq h) <= x)%nat.
Proof.
  induction 1 as [|e y ents os M _ IH]; intros [].
  - subst y. destruct M as (_ & _ & M). destruct e; simpl in *; [left; left|right]; intuition congruence.
  - destruct (IH H0) as [A|A]; [left|right; auto]. unfold entry_objs. simpl. apply in_or_app. right. exact A.
Qed.

Lemma boundary_kept h h' k : sob h' k = sob h k -> (List.length (h_seq h) <= List.length (h_seq h'))%nat ->
  is_boundary h k -> is_boundary h' k.
Proof. unfold is_boundary. intros -> L (A & B). split; [lia|exact B]. Qed.

(** One entry. *)
Lemma cast_entry_ok c e h : usable h (kind_of h c) [e] ->
  exists x h1, cast_entry c e h = Ok x h1 /\ built c h h1 [e] [x].
Proof.
  intros [_ U]. destruct (U e) as (Hh & Hs & He); [simpl; auto|].
  destruct e as [o|st en lab].
  - destruct He as [Hl Hk]. exists o, (upd_seq o (set_s_cls c) h). split.
    { unfold cast_entry, cast. mstep. mstep. fold (kind_of h c). rewrite Hk. reflexivity. }
    assert (So : sob (upd_seq o (set_s_cls c) h) o = set_s_cls c (sob h o)) by (apply sob_upd_eq; auto).
    split; [|split; [apply NoDup_singleton|split; [|split; [|split; [|split; [|split]]]]]].
    + constructor; [|constructor]. unfold made. rewrite So. simpl. auto.
    + intros i Hi Hn. apply sob_upd_ne. intros ->. apply Hn. simpl. auto.
    + intros i Hi [<-|[]]. exact So.
    + rewrite len_upd_seq. auto.
    + intros i Hi. rewrite len_upd_seq in Hi. lia.
    + intros x [<-|[]]. rewrite live_upd. exact Hl.
    + split; [|split; [|split]]; reflexivity.
  - destruct (new_settles c st en lab h Hh) as (h1 & E & L & F & C).
    exists (List.length (h_seq h)), h1. split; [exact E|].
    set (n := List.length (h_seq h)) in *. set (hp := push_seq (blank_seq c st en lab) h) in *.
    assert (Lp : forall i, live h i -> live hp i) by (intros i Hi; apply live_push; auto).
    assert (Ln : live hp n) by (apply live_push; auto).
    assert (Hlen : List.length (h_seq hp) = S n) by (unfold hp; simpl; rewrite app_length; simpl; unfold n; lia).
    destruct L as (L1 & L2 & L3 & L4 & L5 & L6 & L7).
    assert (K := L6 n Ln). assert (Sn : sob hp n = blank_seq c st en lab) by apply sob_push_new. rewrite Sn in K. apply erase_fields in K. simpl in K.
    split; [|split; [apply NoDup_singleton|split; [|split; [|split; [|split; [|split]]]]]].
    + constructor; [|constructor]. unfold made.
      destruct K as (-> & -> & -> & -> & -> & -> & _). split; [reflexivity|]. split; [reflexivity|].
      split; [unfold n; lia|]. auto.
    + intros i Hi _. rewrite F; [apply sob_push_old; auto|apply Lp; auto|].
      intros [<-|[]]. unfold live, n in *. lia.
    + intros i Hi [].
    + unfold n in *; lia.
    + intros i Hi Hn. apply boundary_is_boundary; [unfold live; lia|]. apply L7; [unfold live; lia|].
      unfold live. rewrite Hlen. simpl in Hn. lia.
    + intros x [<-|[]]. unfold live. lia.
    + split; [exact L1|]. split; [exact L2|]. split; auto.
Qed.

Lemma usable_cons h k e ents : usable h k (e :: ents) ->
  usable h k [e] /\ usable h k ents /\ (forall o, e = EObj o -> ~ In o (entry_objs ents)).
Proof.
  intros [A B]. unfold entry_objs in A. simpl in A. apply NoDup_app in A. destruct A as (A1 & A2 & A3).
  split; [|split].
  - split; [unfold entry_objs; simpl; rewrite app_nil_r; exact A1|]. intros e' [<-|[]]. apply B. simpl; auto.
  - split; [exact A3|]. intros e' He. apply B. simpl; auto.
  - intros o -> Ho. apply (A2 o); [apply elem_of_list_In; simpl; auto|]. apply elem_of_list_In. exact Ho.
Qed.
Lemma entry_objs_in o l : In o (entry_objs l) <-> In (EObj o) l.
Proof.
  unfold entry_objs. rewrite in_flat_map. split.
  - intros (e & He & Ho). destruct e; [|destruct Ho]. destruct Ho as [->|[]]. exact He.
  - intros Ho. exists (EObj o). split; [auto|]. simpl; auto.
Qed.
Lemma entry_value_ext h h' e : (forall o, e = EObj o -> s_start (sob h' o) = s_start (sob h o) /\
    s_end (sob h' o) = s_end (sob h o) /\ s_label (sob h' o) = s_label (sob h o)) ->
  entry_value h' e = entry_value h e.
Proof. destruct e as [o|]; [|reflexivity]. intros A. simpl. destruct (A o eq_refl) as (-> & -> & ->). reflexivity. Qed.

Lemma cast_entries_ok c k ents : forall h, usable h k ents -> k = kind_of h c ->
  exists os h1, mapM (cast_entry c) ents h = Ok os h1 /\ built c h h1 ents os.
Proof.
  induction ents as [|e ents IH]; intros h U Hk.
  - exists [], h. split; [reflexivity|]. split; [constructor|]. split; [constructor|].
    split; [auto|]. split; [intros i _ []|]. split; [auto|]. split; [intros i Hi; lia|]. split; [intros x []|].
    split; [|split; [|split]]; reflexivity.
  - apply usable_cons in U. destruct U as (U1 & U2 & Ne).
    rewrite Hk in U1. destruct (cast_entry_ok c e h U1) as (x & ha & Ex & M & _ & F & G & Ln & B & Lv & SR).
    assert (M1 : made h ha c e x) by (inversion M; auto).
    assert (Hc : h_cls ha = h_cls h) by apply SR.
    assert (Old : forall o, In (EObj o) ents -> sob ha o = sob h o).
    { intros o Ho. apply F.
      - apply U2 in Ho. apply Ho.
      - rewrite entry_objs_in. intros [Ee|[]]. apply (Ne o); [auto|]. apply entry_objs_in. auto. }
    assert (Hka : k = kind_of ha c).
    { rewrite Hk. unfold kind_of, is_point_cls. rewrite (issubclass_ext h ha) by auto. reflexivity. }
    assert (EV : forall e', In e' ents -> entry_value ha e' = entry_value h e').
    { intros e' He. apply entry_value_ext. intros o ->. rewrite Old by auto. auto. }
    assert (U2a : usable ha k ents).
    { destruct U2 as [ND U2]. split; [exact ND|]. intros e' He. rewrite EV by auto.
      destruct (U2 e' He) as (Q1 & Q2 & Q3). split; [auto|]. split; [auto|].
      destruct e' as [o|]; [|auto]. rewrite Old by auto. rewrite (issubclass_ext h ha) by auto.
      destruct Q3. split; [lia|auto]. }
    destruct (IH ha U2a Hka) as (os & h1 & Eo & M' & ND' & F' & G' & Ln' & B' & Lv' & SR').
    assert (Xl : live ha x) by (apply Lv; simpl; auto).
    assert (Xn : ~ In x (entry_objs ents)).
    { destruct M1 as (_ & _ & M1). destruct e as [o|st en lab].
      - destruct M1 as (-> & _). apply Ne; auto.
      - destruct M1 as (M1 & _). rewrite entry_objs_in. intros Ho. apply U2 in Ho. destruct Ho as (_ & _ & Ho & _). lia. }
    assert (Sx : sob h1 x = sob ha x) by (apply F'; auto).
    exists (x :: os), h1. split.
    { cbn [mapM]. rewrite (bind_ok _ _ _ _ _ Ex). rewrite (bind_ok _ _ _ _ _ Eo). reflexivity. }
    split; [|split; [|split; [|split; [|split; [lia|split; [|split]]]]]].
    + constructor.
      * unfold made in *. rewrite Sx. exact M1.
      * assert (Q : Forall2 (fun e y => made ha h1 c e y /\ In e ents) ents os).
        { clear -M'. induction M' as [|a b la lb Hm _ IHm]; constructor.
          - split; [exact Hm|simpl; auto].
          - eapply Forall2_impl; [exact IHm|]. intros e y [A1 A2]. split; [auto|simpl; auto]. }
        eapply Forall2_impl; [exact Q|]. intros e' y [(A1 & A2 & A3) He].
        split; [exact A1|]. split; [rewrite <- EV by auto; exact A2|]. destruct e' as [o|].
        -- destruct A3 as (-> & A3 & A4). rewrite Old in A3, A4 by auto. auto.
        -- destruct A3 as (A3 & A4). split; [lia|auto].
    + apply NoDup_cons. split; [|exact ND']. rewrite elem_of_list_In. intros Hx.
      destruct (made_where _ _ _ _ _ _ M' Hx) as [A|A]; [contradiction|]. unfold live in Xl. lia.
    + intros i Hi Hn. assert (Hn1 : ~ In i (entry_objs [e])).
      { rewrite entry_objs_in. intros [->|[]]. apply Hn. apply entry_objs_in. simpl; auto. }
      assert (Hn2 : ~ In i (entry_objs ents)).
      { rewrite entry_objs_in. intros Ho. apply Hn. apply entry_objs_in. simpl; auto. }
      rewrite F' by (auto; unfold live in *; lia). apply F; auto.
    + intros i Hi Ho. apply entry_objs_in in Ho. destruct Ho as [->|Ho].
      * rewrite F' by (try (apply Ne; auto); unfold live in *; lia). apply G; [auto|]. simpl; auto.
      * rewrite G' by (try (apply entry_objs_in; auto); unfold live in *; lia). rewrite Old by auto. reflexivity.
    + intros i Hi Hn. destruct (decide (live ha i)) as [Ha|Ha].
      * assert (Bi : is_boundary ha i).
        { apply B; [unfold live in Ha; lia|]. intros [->|[]]. apply Hn. simpl; auto. }
        assert (Hno : ~ In i (entry_objs ents)).
        { rewrite entry_objs_in. intros Ho. apply U2 in Ho. destruct Ho as (_ & _ & Ho & _). lia. }
        eapply boundary_kept; [|exact Ln'|exact Bi]. apply F'; auto.
      * apply B'; [unfold live in Ha; lia|]. intros Ho. apply Hn. simpl; auto.
    + intros y [<-|Hy]; [unfold live in *; lia|auto].
    + destruct SR as (S1 & S2 & S3 & S4), SR' as (T1 & T2 & T3 & T4).
      split; [congruence|]. split; [congruence|]. split; congruence.
Qed.

(** ** Assigning the entries of a tier *)
Definition put_seq (v : slv) (o : tierobj) : tierobj :=
  set_t_contains (unalias (t_contains o) (t_seq o)) (set_t_seqec (sv_ec v) (set_t_seq (sv_vals v) o)).

Lemma linkable_perm h c l l' : Permutation l' l -> linkable h c l -> linkable h c l'.
Proof.
  intros P [A B]. split.
  - apply NoDup_ListNoDup. apply NoDup_ListNoDup in A. eapply Permutation_NoDup; [apply Permutation_sym; exact P|exact A].
  - intros x Hx. apply B. eapply Permutation_in; eauto.
Qed.
Lemma placed_start t top l h h' x : placed t top l h h' -> In x l -> s_start (sob h' x) = s_start (sob h x).
Proof. intros (P & _) Hx. apply P in Hx. apply Hx. Qed.

Lemma tier_set_seq_ok h t c s l : tlive h t -> linkable h c l -> known_starts h l -> t_super (tob h t) = Some s ->
  exists l' v h', sv_vals v = l' /\ tier_set_seq t l h = Ok tt h' /\
    Permutation l' l /\ sorted_starts h' l' /\ (sorted_starts h l -> l' = l) /\
    placed t (issubclass h s cTop) l' (upd_tier t (put_seq v) h) h' /\ chained h' l' /\ sv_ec v = match l with [] => None | _ => Some c end.
Proof.
  intros Ht Hl Hk Hs. destruct (sl_init_spec h c l) as (l' & E & P & S & I).
  { intros x Hx. apply Hl; auto. }
  { auto. }
  set (v := Slv l' match l with [] => None | _ => Some c end) in *.
  set (h1 := upd_tier t (put_seq v) h).
  assert (T1 : tob h1 t = put_seq v (tob h t)) by (apply tob_upd_eq; auto).
  destruct (tier_precedence_ok h1 t c s) as (h' & E' & P' & C').
  - unfold h1. rewrite tlive_upd. auto.
  - rewrite T1. simpl. apply (linkable_perm h c l l' P). exact Hl.
  - rewrite T1. exact Hs.
  - rewrite T1 in P', C'. simpl in P', C'. exists l', v, h'. split; [reflexivity|]. split.
    { unfold tier_set_seq. rewrite (bind_ok _ _ _ _ _ E). unfold rebind_seq. mstep.
      change (tier_precedence t h1 = Ok tt h'). exact E'. }
    split; [exact P|]. split; [|split; [exact I|split; [exact P'|split; [exact C'|reflexivity]]]].
    eapply sorted_ext; [|exact S]. intros x Hx. exact (placed_start _ _ _ _ _ _ P' Hx).
Qed.

(** C08, C09: assigning [tier.sequence_list]. *)
Lemma c08_tier : forall h t c s l, (t < List.length (h_tier h))%nat -> linkable h c l -> known_starts h l ->
  t_super (tob h t) = Some s ->
  exists h', tier_set_seq t l h = Ok tt h' /\ Permutation (t_seq (tob h' t)) l /\
    sorted_starts h' (t_seq (tob h' t)) /\ chained h' (t_seq (tob h' t)).
Proof.
  intros h t c s l Ht Hl Hk Hs. destruct (tier_set_seq_ok h t c s l Ht Hl Hk Hs) as (l' & v & h' & Ev & E & P & S & _ & Pl & C & _).
  assert (T : t_seq (tob h' t) = l').
  { destruct Pl as (_ & _ & _ & _ & _ & _ & _ & _ & _ & Q). rewrite Q, tob_upd_eq by auto.
    destruct (issubclass h s cTop); exact Ev. }
  exists h'. rewrite T. auto.
Qed.
Lemma c09_tier : forall h t c s l, (t < List.length (h_tier h))%nat -> linkable h c l -> known_starts h l ->
  t_super (tob h t) = Some s ->
  let h' := heap_of (tier_set_seq t l h) in
  (forall x, In x l -> same_but_place (sob h x) (sob h' x) /\ s_intier (sob h' x) = Some t) /\
  (forall i, (i < List.length (h_seq h))%nat -> ~ In i l -> sob h' i = sob h i) /\
  (forall i, (List.length (h_seq h) <= i < List.length (h_seq h'))%nat -> is_boundary h' i) /\
  h_cls h' = h_cls h /\ h_grp h' = h_grp h /\ h_grid h' = h_grid h /\
  (forall u, u <> t -> tob h' u = tob h u).
Proof.
  intros h t c s l Ht Hl Hk Hs. destruct (tier_set_seq_ok h t c s l Ht Hl Hk Hs) as (l' & v & h' & Ev & E & P & S & _ & Pl & C & _).
  rewrite E. cbv zeta. cbn [heap_of].
  assert (Q : forall x, In x l <-> In x l').
  { intros x. split; apply Permutation_in; auto. apply Permutation_sym; auto. }
  destruct Pl as (P1 & P2 & P3 & P4 & P5 & P6 & P7 & P8 & P9 & P10).
  split; [|split; [|split; [exact P4|split; [exact P5|split; [exact P6|split; [exact P7|]]]]]].
  - intros x Hx. apply Q in Hx. destruct (P1 x Hx) as (A & B & _). auto.
  - intros i Hi Hn. apply P2; [exact Hi|]. rewrite <- Q. exact Hn.
  - intros u Hu. rewrite P9 by auto. apply tob_upd_ne. auto.
Qed.
Lemma c08_points : forall h t c, (t < List.length (h_tier h))%nat -> linkable h c (t_seq (tob h t)) ->
  exists h', ptier_precedence t h = Ok tt h' /\ placed t true (t_seq (tob h t)) h h' /\
    chained h' (t_seq (tob h t)).
Proof. intros h t c. apply ptier_precedence_ok. Qed.

(** ** Constructing an interval tier *)
Lemma placed_trans t top l h1 h2 h3 : placed t top l h1 h2 -> placed t top l h2 h3 ->
  (forall x, In x l -> live h1 x) -> placed t top l h1 h3.
Proof.
  intros (A1 & A2 & A3 & A4 & A5 & A6 & A7 & A8 & A9 & A10) (B1 & B2 & B3 & B4 & B5 & B6 & B7 & B8 & B9 & B10) Hl.
  split; [|split; [|split; [lia|split]]].
  - intros x Hx. destruct (A1 x Hx) as (P1 & P2 & P3), (B1 x Hx) as (Q1 & Q2 & Q3).
    split; [|split; [exact Q2|]].
    + unfold same_but_place in *. intuition congruence.
    + destruct top; congruence.
  - intros i Hi Hn. rewrite B2 by (auto; lia). apply A2; auto.
  - intros i Hi. destruct (decide (i < List.length (h_seq h2))%nat) as [Hj|Hj].
    + eapply boundary_kept; [|exact B3|apply A4; lia]. apply B2; [lia|]. intros Hx. apply Hl in Hx. unfold live in Hx. lia.
    + apply B4. lia.
  - split; [congruence|]. split; [congruence|]. split; [congruence|]. split; [congruence|]. split.
    + intros u Hu. rewrite B9, A9; auto.
    + rewrite B10. destruct top; rewrite A10; reflexivity.
Qed.
Lemma linkable_placed t top c l h h' : placed t top l h h' -> linkable h c l -> linkable h' c l.
Proof.
  intros (A1 & _ & A3 & _) [N L]. split; [exact N|]. intros x Hx. destruct (L x Hx) as (P & Q & R).
  destruct (A1 x Hx) as ((Q1 & Q2 & Q3 & Q4 & _) & _). split; [lia|]. split; congruence.
Qed.

Lemma class_chosen h dflt s l ec c : gives h s l -> picks h dflt l ec c ->
  src_class dflt s ec h = Ok c h.
Proof.
  intros G P. unfold src_class. destruct ec as [d|]; [simpl in P; subst; reflexivity|]. mstep.
  assert (E : src_check h s = l) by (destruct s; simpl in *; intuition congruence). rewrite E. simpl in P.
  destruct l as [|[o|st en lab] l]; simpl in *.
  - destruct P as [-> _]. reflexivity.
  - subst c. reflexivity.
  - destruct P as [-> P]. replace (existsb is_obj l) with false; [reflexivity|].
    symmetry. apply Bool.not_true_is_false. intros X. apply existsb_exists in X. destruct X as (e & He & X).
    destruct e as [o|]; [|discriminate]. assert (Ho : In o (entry_objs l)) by (apply entry_objs_in; auto).
    unfold entry_objs in *. simpl in P. rewrite P in Ho. destruct Ho.
Qed.

Lemma gives_push h o s l : gives h s l -> gives (push_tier o h) s l.
Proof.
  destruct s; simpl; auto. intros [A ->]. split; [rewrite app_length; lia|]. rewrite tob_push_old by auto. reflexivity.
Qed.
Lemma gives_check h s l : gives h s l -> src_check h s = l.
Proof. destruct s; simpl; intuition congruence. Qed.
Lemma name_push h o s l c : gives h s l -> src_name (push_tier o h) s c = src_name h s c.
Proof.
  destruct s; simpl; auto. intros [A _]. rewrite tob_push_old by auto. reflexivity.
Qed.
Lemma named_name h s c : named h s c (src_name h s c).
Proof.
  destruct s; simpl; auto. destruct (String.eqb _ _) eqn:E; [apply String.eqb_eq in E; auto|].
  apply String.eqb_neq in E. auto.
Qed.

Lemma usable_heap h h' k l : h_seq h' = h_seq h -> h_cls h' = h_cls h -> usable h k l -> usable h' k l.
Proof.
  intros Es Ec [A B]. split; [exact A|]. intros e He. destruct (B e He) as (P & Q & R).
  assert (S : forall o, sob h' o = sob h o) by (intros o; unfold sob; rewrite Es; reflexivity).
  assert (V : entry_value h' e = entry_value h e) by (destruct e; simpl; rewrite ?S; reflexivity).
  rewrite V. split; [exact P|]. split; [exact Q|]. destruct e; [|exact I].
  rewrite S, Es. rewrite (issubclass_ext h h') by auto. exact R.
Qed.

Lemma made_start h h1 c e x : made h h1 c e x -> s_start (sob h1 x) = fst (fst (entry_value h e)).
Proof. intros (_ & A & _). rewrite <- A. reflexivity. Qed.
Lemma made_label h h1 c e x : made h h1 c e x -> s_label (sob h1 x) = snd (entry_value h e).
Proof. intros (_ & A & _). rewrite <- A. reflexivity. Qed.

Lemma Forall2_nth {A B} (R : A -> B -> Prop) l k i y : Forall2 R l k -> nth_error k i = Some y ->
  exists x, nth_error l i = Some x /\ R x y.
Proof.
  intros F. revert i. induction F as [|a b l k Hab F IH]; intros [|i] E; simpl in *; try discriminate.
  - injection E as <-. eauto.
  - apply IH; auto.
Qed.

Lemma made_obj h h1 c l k o : Forall2 (made h h1 c) l k -> In (EObj o) l -> In o k.
Proof.
  induction 1 as [|e x l k Hm _ IH]; [intros []|]. intros [->|Ho].
  - destruct Hm as (_ & _ & -> & _). simpl; auto.
  - simpl. auto.
Qed.
(** A permutation of the objects is one of the entries they were made from. *)
Lemma made_perm {A B} (R : A -> B -> Prop) l k k' : Forall2 R l k -> Permutation k' k ->
  exists l', Permutation l' l /\ Forall2 R l' k'.
Proof.
  intros F P. revert l F. apply Permutation_sym in P. induction P as [|x k k' P IH|x y k|k k1 k2 P1 IH1 P2 IH2]; intros l F.
  - inversion F; subst. exists []. auto.
  - inversion F as [|a b l0 k0 Hab F0]; subst. destruct (IH l0 F0) as (l' & Q & G). exists (a :: l'). split; auto.
  - inversion F as [|a b l0 k0 Hab F0]; subst. inversion F0 as [|a' b' l1 k1 Hab' F1]; subst.
    exists (a' :: a :: l1). split; [constructor|]. repeat constructor; auto.
  - destruct (IH1 l F) as (l1 & Q1 & G1). destruct (IH2 l1 G1) as (l2 & Q2 & G2).
    exists l2. split; [|exact G2]. transitivity l1; auto.
Qed.
Lemma Forall2_same_r {A B} (R : A -> B -> Prop) (f : A -> B) l k : (forall x y, R x y -> y = f x) ->
  Forall2 R l k -> k = map f l.
Proof. intros Hf. induction 1; simpl; [reflexivity|]. f_equal; auto. Qed.

Lemma upd_tier_twice t f g h : upd_tier t f (upd_tier t g h) = upd_tier t (fun o => f (g o)) h.
Proof.
  unfold upd_tier. simpl. f_equal. apply list_eq. intros i. destruct (decide (i = t)) as [->|Hn].
  - rewrite !list_lookup_alter. destruct (h_tier h !! t); reflexivity.
  - rewrite !list_lookup_alter_ne; auto.
Qed.
Definition head_of (h : heap) (s : tsrc) (c : cid) (ents : list entry) (o : tierobj) : tierobj :=
  TierObj c (superset_class h c) (subset_class h c) (src_name h s c) ents [] None (t_within o)
    (unalias (t_contains o) (t_seq o)).
Lemma itier_start t s ec c h ents : src_class cInterval s ec h = Ok c h -> src_check h s = ents ->
  issubclass h c cPoint = false ->
  itier_init t s ec h =
    (os <- mapM (cast_entry c) ents ;; tier_set_seq t os ;;; tier_precedence t) (upd_tier t (head_of h s c ents) h).
Proof.
  intros E1 E2 E3. unfold itier_init. rewrite (bind_ok _ _ _ _ _ E1). mstep. mstep. rewrite E2.
  mstep. mstep. unfold rebind_seq. mstep. mstep. mstep.
  match goal with |- context [is_point_cls ?hh c] => change (is_point_cls hh c) with (issubclass h c cPoint) end.
  rewrite E3. mstep. mstep. mstep. mstep. rewrite !upd_tier_twice. reflexivity.
Qed.

Lemma c18_built : forall h s ec c sc ents, gives h s ents -> picks h cInterval ents ec c ->
  issubclass h c cPoint = false -> superset_class h c = Some sc -> usable h cInterval ents ->
  exists t h' ents', new_itier s ec h = Ok t h' /\
    Permutation ents' ents /\ (in_order h ents -> ents' = ents) /\
    Forall2 (made h h' c) ents' (t_seq (tob h' t)) /\
    sorted_starts h' (t_seq (tob h' t)) /\ chained h' (t_seq (tob h' t)) /\
    (forall x, In x (t_seq (tob h' t)) -> s_intier (sob h' x) = Some t) /\
    (issubclass h sc cTop = true -> forall x, In x (t_seq (tob h' t)) -> s_within (sob h' x) = Some (WTier t)) /\
    t_ec (tob h' t) = c /\ named h s c (t_name (tob h' t)) /\ only_adds t (t_seq (tob h' t)) h h' /\
    t_super (tob h' t) = Some sc /\ t_sub (tob h' t) = subset_class h c /\ linkable h' c (t_seq (tob h' t)) /\ t_within (tob h' t) = None /\
    (t_seqec (tob h' t) = Some c \/ t_seq (tob h' t) = [] /\ t_seqec (tob h' t) = None).
Proof.
  intros h s ec c sc ents G Pk Hpt Hsup U.
  unfold new_itier. mstep. set (t := List.length (h_tier h)). set (h0 := push_tier (blank_tier cInterval) h).
  assert (G0 : gives h0 s ents) by (apply gives_push; auto).
  assert (Pk0 : picks h0 cInterval ents ec c) by exact Pk.
  assert (Ht0 : tlive h0 t) by (unfold tlive, h0, t; simpl; rewrite app_length; simpl; lia).
  assert (E0 := itier_start t s ec c h0 ents (class_chosen h0 _ s ents ec c G0 Pk0) (gives_check h0 s ents G0) Hpt).
  set (hx := upd_tier t (head_of h0 s c ents) h0) in *.
  assert (Tx : tob hx t = head_of h0 s c ents (tob h0 t)) by (apply tob_upd_eq; auto).
  assert (Htx : tlive hx t) by (unfold hx; rewrite tlive_upd; auto).
  assert (Ux : usable hx cInterval ents) by (apply (usable_heap h); auto).
  destruct (cast_entries_ok c cInterval ents hx Ux) as (os & h1 & Eo & M & ND & F & Gc & Ln & B & Lv & SR).
  { unfold kind_of. change (is_point_cls hx c) with (issubclass h c cPoint). rewrite Hpt. reflexivity. }
  assert (T1 : tob h1 t = tob hx t) by (apply tob_ext; apply SR).
  assert (Ht1 : tlive h1 t) by (unfold tlive in *; destruct SR as (_ & -> & _); auto).
  assert (Cl1 : h_cls h1 = h_cls h) by (destruct SR as (-> & _); reflexivity).
  assert (Os : forall x, In x os -> exists e, In e ents /\ made hx h1 c e x).
  { intros x Hx. apply In_nth_error in Hx. destruct Hx as [i Hi].
    destruct (Forall2_nth _ _ _ _ _ M Hi) as (e & He & Hm). exists e. split; [eapply nth_error_In; eauto|auto]. }
  assert (Lk : linkable h1 c os).
  { split; [exact ND|]. intros x Hx. split; [apply Lv; auto|]. destruct (Os x Hx) as (e & He & Hm).
    split; [apply Hm|]. rewrite (made_label _ _ _ _ _ Hm). apply Ux; auto. }
  assert (Ks : known_starts h1 os).
  { intros x Hx. destruct (Os x Hx) as (e & He & Hm). rewrite (made_start _ _ _ _ _ Hm). apply Ux; auto. }
  destruct (tier_set_seq_ok h1 t c sc os Ht1 Lk Ks) as (l & v & h2 & Ev & E2 & P & S & I & Pl & C & Ve).
  { rewrite T1, Tx. exact Hsup. }
  set (h1' := upd_tier t (put_seq v) h1) in *.
  assert (T1' : tob h1' t = put_seq v (tob h1 t)) by (apply tob_upd_eq; auto).
  assert (T2 : t_seq (tob h2 t) = l /\ t_super (tob h2 t) = Some sc /\ t_ec (tob h2 t) = c /\
               t_name (tob h2 t) = src_name h0 s c /\ t_sub (tob h2 t) = subset_class h c /\ t_within (tob h2 t) = None /\ t_seqec (tob h2 t) = sv_ec v).
  { destruct Pl as (_ & _ & _ & _ & _ & _ & _ & _ & _ & Q). rewrite Q.
    assert (X : forall o, o = tob h1' t -> t_seq o = l /\ t_super o = Some sc /\ t_ec o = c /\ t_name o = src_name h0 s c /\ t_sub o = subset_class h c /\ t_within o = None /\ t_seqec o = sv_ec v).
    { intros o ->. rewrite T1', T1, Tx. simpl. split; [exact Ev|]. split; [exact Hsup|]. split; [reflexivity|]. split; [reflexivity|]. split; [reflexivity|]. split; [|reflexivity].
      unfold h0, t. rewrite tob_push_new. reflexivity. }
    destruct (issubclass h1 sc cTop); [|auto]. destruct (X _ eq_refl) as (X1 & X2 & X3 & X4 & X5 & X6 & X7). simpl. auto 10. }
  destruct T2 as (T2s & T2p & T2e & T2n & T2b & T2w & T2v).
  assert (Lk1 : linkable h1' c l) by (apply (linkable_perm h1' c os l P); exact Lk).
  assert (Lk2 : linkable h2 c l) by (eapply linkable_placed; eauto).
  destruct (tier_precedence_ok h2 t c sc) as (h3 & E3 & Pl3 & C3).
  { unfold tlive in *. destruct Pl as (_ & _ & _ & _ & _ & _ & _ & -> & _). unfold h1'. rewrite len_upd_tier. auto. }
  { rewrite T2s. exact Lk2. }
  { exact T2p. }
  rewrite T2s in Pl3, C3.
  assert (Cl2 : h_cls h2 = h_cls h1) by apply Pl.
  rewrite (issubclass_ext h1 h2) in Pl3 by auto.
  assert (Pf : placed t (issubclass h1 sc cTop) l h1' h3).
  { eapply placed_trans; [exact Pl|exact Pl3|]. intros x Hx. apply Lk1; auto. }
  assert (T3 : t_seq (tob h3 t) = l /\ t_ec (tob h3 t) = c /\ t_name (tob h3 t) = src_name h0 s c /\
               t_super (tob h3 t) = Some sc /\ t_sub (tob h3 t) = subset_class h c /\ t_within (tob h3 t) = None /\ t_seqec (tob h3 t) = sv_ec v).
  { destruct Pl3 as (_ & _ & _ & _ & _ & _ & _ & _ & _ & Q). rewrite Q.
    destruct (issubclass h1 sc cTop); simpl; auto 10. }
  destruct T3 as (T3s & T3e & T3n & T3p & T3b & T3w & T3v).
  assert (T3c : t_seqec (tob h3 t) = Some c \/ l = [] /\ t_seqec (tob h3 t) = None).
  { rewrite T3v, Ve. destruct os as [|o os']; [|auto]. right. split; [|reflexivity]. apply Permutation_nil, Permutation_sym, P. }
  assert (S3 : sorted_starts h3 l).
  { eapply sorted_ext; [|exact S]. intros x Hx. exact (placed_start _ _ _ _ _ _ Pl3 Hx). }
  assert (Lk3 : linkable h3 c l) by (eapply linkable_placed; eauto).
  clear C Pl Pl3. destruct Pf as (A1 & A2 & A3 & A4 & A5 & A6 & A7 & A8 & A9 & A10).
  assert (Mf : Forall2 (made h h3 c) ents os).
  { assert (Q : Forall2 (fun e x => made hx h1 c e x /\ In x os) ents os).
    { clear -M. induction M as [|a b la lb Hm _ IHm]; constructor.
      - split; [exact Hm|simpl; auto].
      - eapply Forall2_impl; [exact IHm|]. intros e y [X1 X2]. split; [auto|simpl; auto]. }
    eapply Forall2_impl; [exact Q|]. intros e x [(Q1 & Q2 & Q3) Hx].
    assert (Hxl : In x l) by (eapply Permutation_in; [apply Permutation_sym; exact P|exact Hx]).
    destruct (A1 x Hxl) as ((B1 & B2 & B3 & B4 & B5 & B6 & _) & _).
    change (sob h1' x) with (sob h1 x) in *.
    unfold made. rewrite B1, B2, B3, B4, B5, B6. split; [exact Q1|]. split; [exact Q2|]. exact Q3. }
  destruct (made_perm _ _ _ _ Mf P) as (ents' & Pe & Me).
  assert (Hio : in_order h ents -> os = l).
  { intros Ho. symmetry. apply I. intros i j a b Hij Ha Hb.
    destruct (Forall2_nth _ _ _ _ _ M Ha) as (e1 & He1 & Hm1). destruct (Forall2_nth _ _ _ _ _ M Hb) as (e2 & He2 & Hm2).
    rewrite (made_start _ _ _ _ _ Hm1), (made_start _ _ _ _ _ Hm2). exact (Ho i j e1 e2 Hij He1 He2). }
  assert (Ee : exists e2, Permutation e2 ents /\ (in_order h ents -> e2 = ents) /\ Forall2 (made h h3 c) e2 l).
  { destruct (decide (l = os)) as [Elo|Nlo].
    - exists ents. rewrite Elo. auto.
    - exists ents'. split; [auto|]. split; [|auto]. intros Ho. destruct Nlo. symmetry. auto. }
  destruct Ee as (e2 & Q1 & Q2 & Q3).
  assert (Inc : forall o, In o (entry_objs ents) -> In o l).
  { intros o Ho. apply entry_objs_in in Ho. eapply Permutation_in; [apply Permutation_sym; exact P|].
    exact (made_obj _ _ _ _ _ _ M Ho). }
  exists t, h3, e2. rewrite T3s. split.
  { assert (E4 : itier_init t s ec h0 = Ok tt h3).
    { rewrite E0. rewrite (bind_ok _ _ _ _ _ Eo). rewrite (bind_ok _ _ _ _ _ E2). exact E3. }
    rewrite (bind_ok _ _ _ _ _ E4). reflexivity. }
  split; [exact Q1|]. split; [exact Q2|]. split; [exact Q3|]. split; [exact S3|]. split; [exact C3|].
  split; [intros x Hx; apply A1; auto|].
  split.
  { intros Ht x Hx. destruct (A1 x Hx) as (_ & _ & W). rewrite W.
    rewrite (issubclass_ext h h1) by auto. rewrite Ht. reflexivity. }
  split; [exact T3e|]. split; [rewrite T3n; unfold h0; rewrite (name_push h _ s ents) by auto; apply named_name|].
  destruct SR as (R1 & R2 & R3 & R4). split; [|split; [exact T3p|split; [exact T3b|split; [exact Lk3|split; [exact T3w|exact T3c]]]]].
  split; [|split; [|split; [|split; [|split; [|split; [reflexivity|split; [|split]]]]]]].
  - intros i Hi Hn. rewrite A2; [|simpl; change (h_seq hx) with (h_seq h) in Ln; lia|exact Hn].
    change (sob h1' i) with (sob h1 i). rewrite F; [reflexivity|exact Hi|]. intros Ho. apply Hn. auto.
  - intros i Hi Hn. destruct (decide (i < List.length (h_seq h1))%nat) as [Hj|Hj].
    + eapply boundary_kept; [|exact A3|].
      * apply A2; auto.
      * change (is_boundary h1 i). apply B; [change (h_seq hx) with (h_seq h); lia|].
        intros Ho. apply Hn. eapply Permutation_in; [apply Permutation_sym; exact P|exact Ho].
    + apply A4. simpl. lia.
  - rewrite A5. exact Cl1.
  - rewrite A6. simpl. rewrite R3. reflexivity.
  - rewrite A7. simpl. rewrite R4. reflexivity.
  - rewrite A8. unfold h1'. rewrite len_upd_tier, R2. unfold hx. rewrite len_upd_tier. unfold h0, t. simpl. rewrite app_length. simpl. lia.
  - intros u Hu. rewrite A9 by lia. unfold h1'. rewrite tob_upd_ne by lia. rewrite (tob_ext hx h1) by auto.
    unfold hx. rewrite tob_upd_ne by lia. apply tob_push_old. exact Hu.
  - change (h_seq hx) with (h_seq h) in Ln. change (h_seq h1') with (h_seq h1) in A3. lia.
Qed.

(** An entry of the wrong kind. *)
Lemma new_obj_frame c st en lab h : exists h', new_obj c st en lab h = Ok (List.length (h_seq h)) h' /\
  h_cls h' = h_cls h /\ (forall i, live h i -> live h' i /\ sob h' i = sob h i).
Proof.
  destruct (String.eqb lab "#") eqn:El.
  - exists (push_seq (blank_seq c st en lab) h). split.
    { unfold new_obj. mstep. unfold is_hash. rewrite El. reflexivity. }
    split; [reflexivity|]. intros i Hi. split; [apply live_push; auto|apply sob_push_old; auto].
  - apply String.eqb_neq in El. destruct (new_settles c st en lab h El) as (h' & E & L & F & _).
    exists h'. split; [exact E|]. split; [apply L|]. intros i Hi.
    assert (Hp : live (push_seq (blank_seq c st en lab) h) i) by (apply live_push; auto).
    split; [eapply links_only_live; eauto|]. rewrite F; [apply sob_push_old; auto|auto|].
    intros [<-|[]]. unfold live in Hi. lia.
Qed.
Lemma cast_entries_raise c ents : forall h o, (forall x, In (EObj x) ents -> live h x) ->
  In (EObj o) ents -> issubclass h (s_cls (sob h o)) (kind_of h c) = false ->
  exists h', mapM (cast_entry c) ents h = Raise AssertionError h'.
Proof.
  induction ents as [|e ents IH]; intros h o Hl Ho Hk; [destruct Ho|]. cbn [mapM].
  destruct e as [y|st en lab].
  - destruct (issubclass h (s_cls (sob h y)) (kind_of h c)) eqn:Ey.
    + assert (Hne : y <> o) by congruence. destruct Ho as [[= ->]|Ho]; [congruence|].
      destruct (IH (upd_seq y (set_s_cls c) h) o) as (h' & E).
      * intros x Hx. rewrite live_upd. apply Hl. simpl; auto.
      * auto.
      * rewrite sob_upd_ne by auto. exact Hk.
      * exists h'. assert (Ec : cast_entry c (EObj y) h = Ok y (upd_seq y (set_s_cls c) h)).
        { unfold cast_entry, cast. mstep. mstep. fold (kind_of h c). rewrite Ey. reflexivity. }
        rewrite (bind_ok _ _ _ _ _ Ec). rewrite (bind_raise _ _ _ _ _ E). reflexivity.
    + exists h. assert (Ec : cast_entry c (EObj y) h = Raise AssertionError h).
      { unfold cast_entry, cast. mstep. mstep. fold (kind_of h c). rewrite Ey. reflexivity. }
      rewrite (bind_raise _ _ _ _ _ Ec). reflexivity.
  - destruct Ho as [Ho|Ho]; [discriminate|]. destruct (new_obj_frame c st en lab h) as (h1 & E1 & C1 & F1).
    destruct (IH h1 o) as (h' & E).
    + intros x Hx. apply F1. apply Hl. simpl; auto.
    + auto.
    + destruct (F1 o) as (_ & ->); [apply Hl; simpl; auto|].
      unfold kind_of, is_point_cls in *. rewrite !(issubclass_ext h h1) by auto. exact Hk.
    + exists h'. unfold cast_entry at 1. rewrite (bind_ok _ _ _ _ _ E1). rewrite (bind_raise _ _ _ _ _ E). reflexivity.
Qed.
Lemma c18_wrong_kind : forall h s ec c ents o, gives h s ents -> picks h cInterval ents ec c ->
  issubclass h c cPoint = false -> (forall x, In (EObj x) ents -> (x < List.length (h_seq h))%nat) ->
  In (EObj o) ents -> issubclass h (s_cls (sob h o)) cInterval = false ->
  exists h', new_itier s ec h = Raise AssertionError h'.
Proof.
  intros h s ec c ents o G Pk Hpt Hl Ho Hk.
  unfold new_itier. mstep. set (t := List.length (h_tier h)). set (h0 := push_tier (blank_tier cInterval) h).
  assert (G0 : gives h0 s ents) by (apply gives_push; auto).
  assert (E0 := itier_start t s ec c h0 ents (class_chosen h0 _ s ents ec c G0 Pk) (gives_check h0 s ents G0) Hpt).
  set (hx := upd_tier t (head_of h0 s c ents) h0) in *.
  destruct (cast_entries_raise c ents hx o) as (h' & E).
  - exact Hl.
  - exact Ho.
  - unfold kind_of. change (is_point_cls hx c) with (issubclass h c cPoint). rewrite Hpt. exact Hk.
  - exists h'. assert (E4 : itier_init t s ec h0 = Raise AssertionError h').
    { rewrite E0. rewrite (bind_raise _ _ _ _ _ E). reflexivity. }
    rewrite (bind_raise _ _ _ _ _ E4). reflexivity.
Qed.

End WithEnv.
