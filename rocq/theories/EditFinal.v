(** * EditFinal: appending to, adding and concatenating tiers (C47, C48). *)
From Verif Require Export TierFinal EditSpec PointFinal.
Open Scope Z_scope.

Section WithEnv.
Context `{Env}.

Lemma sl_add_owner w a b h c : sv_ec a = Some c -> sl_add w a b h = sl_add ONone a b h.
Proof. intros E. unfold sl_add. rewrite E. reflexivity. Qed.

Lemma alone_group h t : stands_alone h t -> truthy_group h t = None.
Proof. intros A. unfold truthy_group, tier_group. destruct (t_within (tob h t)) as [[]|] eqn:E; auto. destruct (A g E). Qed.

(** Assigning the entries of a tier, seen as a whole. *)
Lemma set_seq_edit h t c l : (t < List.length (h_tier h))%nat -> t_super (tob h t) <> None ->
  linkable h c l -> known_starts h l ->
  exists h', tier_set_seq t l h = Ok tt h' /\ Permutation (t_seq (tob h' t)) l /\ (sorted_starts h l -> t_seq (tob h' t) = l) /\
    orderly h' t /\ touches_only t l h h' /\ (forall x, In x l -> same_but_place (sob h x) (sob h' x)) /\
    t_seqec (tob h' t) = match l with [] => None | _ => Some c end.
Proof.
  intros Ht Hs Hl Hk. destruct (t_super (tob h t)) as [s|] eqn:Es; [|congruence]. clear Hs.
  destruct (sl_init_spec h c l) as (l' & E & P & S & I); [intros x Hx; apply Hl; auto|auto|].
  set (v := Slv l' match l with [] => None | _ => Some c end) in *.
  set (h1 := upd_tier t (put_seq v) h).
  assert (T1 : tob h1 t = put_seq v (tob h t)) by (apply tob_upd_eq; auto).
  destruct (tier_precedence_ok h1 t c s) as (h' & E' & P' & C').
  - unfold h1. rewrite tlive_upd. auto.
  - rewrite T1. simpl. apply (linkable_perm h c l l' P). exact Hl.
  - rewrite T1. exact Es.
  - rewrite T1 in P', C'. simpl in P', C'.
    assert (E3 : tier_set_seq t l h = Ok tt h').
    { unfold tier_set_seq. rewrite (bind_ok _ _ _ _ _ E). unfold rebind_seq. mstep.
      change (tier_precedence t h1 = Ok tt h'). exact E'. }
    exists h'. split; [exact E3|].
    pose proof P' as (P1 & P2 & P3 & P4 & P5 & P6 & P7 & P8 & P9 & P10).
    assert (T : t_seq (tob h' t) = l') by (rewrite P10, T1; destruct (issubclass h1 s cTop); reflexivity).
    assert (Q : forall x, In x l <-> In x l').
    { intros x. split; apply Permutation_in; auto. apply Permutation_sym; auto. }
    split; [rewrite T; exact P|]. split; [rewrite T; exact I|]. split.
    { unfold orderly. rewrite T. split; [|split; [exact C'|]].
      - eapply sorted_ext; [|exact S]. intros x Hx. exact (placed_start _ _ _ _ _ _ P' Hx).
      - intros x Hx. apply P1; auto. }
    split; [|split].
    + split; [|split; [exact P3|split; [exact P4|split; [exact P5|split; [exact P6|split; [exact P7|split; [|split]]]]]]].
      * intros i Hi Hn. apply P2; [exact Hi|]. rewrite <- Q. exact Hn.
      * rewrite P8. apply len_upd_tier.
      * intros u Hu. rewrite P9 by auto. apply tob_upd_ne. auto.
      * rewrite P10, T1. destruct (issubclass h1 s cTop); repeat (split; [reflexivity|]); reflexivity.
    + intros x Hx. apply Q in Hx. destruct (P1 x Hx) as (A & _). exact A.
    + rewrite P10, T1. destruct (issubclass h1 s cTop); reflexivity.
Qed.

Lemma touches_trans t l h h1 h' : touches_only t l h1 h' ->
  List.length (h_seq h1) = List.length (h_seq h) -> (forall i, ~ In i l -> sob h1 i = sob h i) -> same_rest h h1 ->
  touches_only t l h h'.
Proof.
  intros (A1 & A2 & A3 & A4 & A5 & A6 & A7 & A8 & A9) Ln F (R1 & R2 & R3 & R4). rewrite Ln in *.
  assert (T : forall u, tob h1 u = tob h u) by (intros u; unfold tob; rewrite R2; reflexivity).
  split; [intros i Hi Hn; rewrite A1 by auto; auto|]. split; [exact A2|]. split; [exact A3|].
  split; [congruence|]. split; [congruence|]. split; [congruence|]. split; [rewrite A7, R2; reflexivity|].
  split; [intros u Hu; rewrite A8 by auto; apply T|]. rewrite <- !T. exact A9.
Qed.

Lemma no_sibling n x t h : truthy_group h t = None ->
  (xo <- get_seq x ;; tg <- gets (fun h => truthy_group h t) ;;
   (match s_subset xo, tg with
    | _ :: _, Some g => forM (s_subset xo) (fun y => d <- sibling_tier t g 1 ;; _b <- tier_append_n n d y ;; ret tt)
    | _, _ => ret tt end) ;;;
   xo2 <- get_seq x ;; tr <- gets (fun h => seq_truthy h (s_super xo2)) ;; tg2 <- gets (fun h => truthy_group h t) ;;
   (match s_super xo2, tg2 with
    | Some s, Some g => if (tr : bool) then u <- sibling_tier t g (-1) ;; _b <- tier_append_n n u s ;; ret tt else ret tt
    | _, _ => ret tt end) ;;; ret true) h = Ok true h.
Proof.
  intros G. mstep. mstep. rewrite G.
  assert (K : forall A (l : list A) (m : M unit), match l, None (A := gid) with _ :: _, Some g => m | _, _ => ret tt end = ret tt)
    by (intros A [|a l] m; reflexivity).
  destruct (s_subset (sob h x)); (rewrite bind_ret; mstep; mstep; mstep; rewrite G; destruct (s_super (sob h x)); reflexivity).
Qed.

(** Appending to a tier in no group. *)
Lemma append_parts n t x h v h1 h2 :
  related h (t_ec (tob h t)) (s_cls (sob h x)) -> ~ In x (t_seq (tob h t)) ->
  sl_add (OTier t) (seq_slv (tob h t)) [x] h = Ok v h1 ->
  (if is_point_tier h1 t then rebind_seq t v else tier_set_seq t (sv_vals v)) h1 = Ok tt h2 ->
  truthy_group h2 t = None -> tier_append (S n) t x h = Ok tt h2.
Proof.
  intros R Nx E1 E2 G. unfold tier_append. cbn [tier_append_n].
  assert (B : tier_append_n (S n) t x h = Ok true h2).
  { cbn [tier_append_n]. mstep.
    assert (Ro : (issubclass h (t_ec (tob h t)) (s_cls (sob h x)) || issubclass h (s_cls (sob h x)) (t_ec (tob h t)))%bool = true).
    { destruct R as [-> | ->]; [reflexivity|apply orb_true_r]. }
    rewrite Ro. cbn [negb]. mstep.
    assert (Nb : existsb (Nat.eqb x) (t_seq (tob h t)) = false).
    { destruct (existsb _ _) eqn:Q; auto. apply existsb_exists in Q. destruct Q as (y & Hy & Q). apply Nat.eqb_eq in Q. subst. contradiction. }
    rewrite Nb. mstep. rewrite (bind_ok _ _ _ _ _ E1). mstep. rewrite (bind_ok _ _ _ _ _ E2). apply no_sibling, G. }
  cbn [tier_append_n] in B. rewrite (bind_ok _ _ _ _ _ B). mstep. rewrite G. reflexivity.
Qed.

Lemma c47_append : forall n h t c x, good_tier h t c -> t_seq (tob h t) <> [] ->
  (x < List.length (h_seq h))%nat -> timed_both h x -> s_label (sob h x) <> "#"%string ->
  issubclass h (s_cls (sob h x)) cInterval = true -> is_point h x = false -> related h c (s_cls (sob h x)) ->
  ~ listed h (t_seq (tob h t)) x ->
  exists h', tier_append (S n) t x h = Ok tt h' /\
    Permutation (t_seq (tob h' t)) (t_seq (tob h t) ++ [x]) /\ orderly h' t /\
    s_cls (sob h' x) = c /\ same_data (sob h x) (sob h' x) /\
    (forall y, In y (t_seq (tob h t)) -> same_but_place (sob h y) (sob h' y)) /\
    touches_only t (t_seq (tob h t) ++ [x]) h h'.
Proof.
  intros n h t c x (Ht & Al & Ec & Hsup & Hi & Hp & Lk & So & Sc & Tm) Ne Hx Tx Lx Hix Hpx Hr Nl.
  assert (Sec : t_seqec (tob h t) = Some c) by (destruct Sc as [Q|[Q _]]; [exact Q|congruence]).
  set (a := seq_slv (tob h t)).
  assert (Ea : sv_ec a = Some c) by exact Sec. assert (Va : sv_vals a = t_seq (tob h t)) by reflexivity.
  destruct (c02_add_cast h a [x] c (s_cls (sob h x))) as (l' & k & h1 & E & Kp & Pm & So1 & Cl & Sb & Fr & Len & Re).
  - exact Ea.
  - rewrite Va. intros y Hy. apply Lk, Hy.
  - intros y [<-|[]]. reflexivity.
  - rewrite Va. intros y Hy. apply in_app_iff in Hy. destruct Hy as [Hy|[<-|[]]]; [|auto]. split; [apply Lk, Hy|apply Tm, Hy].
  - rewrite Va. exact So.
  - left. exact Hi.
  - left. exact Hix.
  - destruct Hr; [right|left]; auto.
  - rewrite Hp. exact Hpx.
  - rewrite Va in *. assert (k = [x]).
    { inversion Kp as [|? ? ? Q K2|? ? ? Q K2]; subst; [inversion K2; subst; reflexivity|]. destruct (Q Nl). }
    subst k. pose proof Re as (R1 & R2 & R3 & R4).
    assert (T1 : forall u, tob h1 u = tob h u) by (intros u; unfold tob; rewrite R2; reflexivity).
    assert (Hin : forall y, In y l' <-> In y (t_seq (tob h t) ++ [x])).
    { intros y. split; apply Permutation_in; [exact Pm|apply Permutation_sym, Pm]. }
    assert (Nx : ~ In x (t_seq (tob h t))) by (intros Q; apply Nl; exists x; auto).
    destruct (set_seq_edit h1 t c l') as (h2 & E2 & P2 & _ & Or & To & Pl & _).
    + rewrite R2. exact Ht.
    + rewrite T1. exact Hsup.
    + apply (linkable_perm h1 c (t_seq (tob h t) ++ [x]) l' Pm). split.
      * apply NoDup_app. split; [apply Lk|]. split; [|apply NoDup_singleton].
        intros y Hy Q. apply elem_of_list_singleton in Q. subst. apply Nx. apply elem_of_list_In, Hy.
      * intros y Hy. rewrite Len. split; [|split; [apply Cl, Hin, Hy|]].
        -- apply in_app_iff in Hy. destruct Hy as [Hy|[<-|[]]]; [apply Lk, Hy|exact Hx].
        -- destruct (Sb y) as (_ & _ & -> & _). apply in_app_iff in Hy. destruct Hy as [Hy|[<-|[]]]; [apply Lk, Hy|exact Lx].
    + intros y Hy. destruct (Sb y) as (-> & _). apply Hin, in_app_iff in Hy.
      assert (K : timed_both h y) by (destruct Hy as [Hy|[<-|[]]]; [apply Tm, Hy|exact Tx]).
      destruct K as [K _]. destruct (s_start (sob h y)); [eauto|congruence].
    + assert (To' : touches_only t (t_seq (tob h t) ++ [x]) h h2).
      { apply (touches_trans t _ h h1 h2).
        - destruct To as (Q1 & Q2). split; [|exact Q2]. intros i Li Hn. apply Q1; auto. rewrite Hin. exact Hn.
        - exact Len.
        - intros i Hn. apply Fr. intros [<-|[]]. apply Hn, in_app_iff. simpl; auto.
        - exact Re. }
      exists h2. split; [|split; [|split; [exact Or|split; [|split; [|split; [|exact To']]]]]].
      * apply append_parts with (v := Slv l' (Some c)) (h1 := h1).
        -- rewrite Ec. exact Hr.
        -- exact Nx.
        -- rewrite (sl_add_owner _ a _ _ c) by exact Ea. exact E.
        -- assert (Pt : is_point_tier h1 t = false) by (unfold is_point_tier, is_point_cls; rewrite (issubclass_ext h) by exact R1; rewrite T1, Ec; exact Hp).
           rewrite Pt. exact E2.
        -- apply alone_group. intros g. destruct To' as (_ & _ & _ & _ & _ & _ & _ & _ & _ & _ & _ & _ & ->). apply Al.
      * rewrite P2. exact Pm.
      * destruct (Pl x) as (-> & _); [apply Hin, in_app_iff; simpl; auto|]. apply Cl, Hin, in_app_iff. simpl; auto.
      * destruct (Pl x) as (_ & A1 & A2 & A3 & A4 & A5 & _); [apply Hin, in_app_iff; simpl; auto|].
        destruct (Sb x) as (B1 & B2 & B3 & _ & _ & B4 & B5 & _). unfold same_data. repeat split; congruence.
      * intros y Hy. rewrite <- (Fr y) by (intros [<-|[]]; auto). apply Pl, Hin, in_app_iff. auto.
Qed.
(** What is already listed, itself or as an equal one, is not added. *)
Lemma c47_listed : forall n h t c x, good_tier h t c -> related h c (s_cls (sob h x)) ->
  listed h (t_seq (tob h t)) x ->
  exists h', tier_append (S n) t x h = Ok tt h' /\ t_seq (tob h' t) = t_seq (tob h t) /\
    (forall y, In y (t_seq (tob h t)) -> same_but_place (sob h y) (sob h' y)) /\
    touches_only t (t_seq (tob h t)) h h'.
Proof.
  intros n h t c x (Ht & Al & Ec & Hsup & Hi & Hp & Lk & So & Sc & Tm) Hr Li.
  destruct (in_dec Nat.eq_dec x (t_seq (tob h t))) as [I|Nx].
  - exists h. split.
    + assert (B : tier_append_n (S n) t x h = Ok false h).
      { cbn [tier_append_n]. mstep.
        assert (Ro : (issubclass h (t_ec (tob h t)) (s_cls (sob h x)) || issubclass h (s_cls (sob h x)) (t_ec (tob h t)))%bool = true).
        { rewrite Ec. destruct Hr as [-> | ->]; [reflexivity|apply orb_true_r]. }
        rewrite Ro. cbn [negb]. mstep.
        assert (Nb : existsb (Nat.eqb x) (t_seq (tob h t)) = true) by (apply existsb_exists; exists x; split; [auto|apply Nat.eqb_refl]).
        rewrite Nb. reflexivity. }
      unfold tier_append. rewrite (bind_ok _ _ _ _ _ B). reflexivity.
    + split; [reflexivity|]. split; [intros y _; repeat split|].
      split; [auto|]. split; [lia|]. split; [intros i Q; lia|]. do 5 (split; [reflexivity|]). auto 10.
  - assert (Ne : t_seq (tob h t) <> []) by (destruct Li as (y & Hy & _); destruct (t_seq (tob h t)); [destruct Hy|discriminate]).
    destruct (set_seq_edit h t c (t_seq (tob h t)) Ht Hsup Lk) as (h2 & E2 & P2 & I2 & Or & To & Pl & _).
    { intros y Hy. destruct (Tm y Hy) as [K _]. destruct (s_start (sob h y)); [eauto|congruence]. }
    exists h2. split; [|split; [apply I2, So|split; [exact Pl|exact To]]].
    apply append_parts with (v := seq_slv (tob h t)) (h1 := h).
    + rewrite Ec. exact Hr.
    + exact Nx.
    + unfold sl_add. mstep. cbn [sv_vals seq_slv List.filter]. apply sl_contains_iff in Li. rewrite Li. reflexivity.
    + unfold is_point_tier, is_point_cls. rewrite Ec, Hp. exact E2.
    + apply alone_group. intros g. destruct To as (_ & _ & _ & _ & _ & _ & _ & _ & _ & _ & _ & _ & ->). apply Al.
Qed.
(** An empty tier takes anything of a related class as it is. *)
Lemma c47_first : forall n h t c x, good_tier h t c -> t_seq (tob h t) = [] -> t_seqec (tob h t) = None ->
  (x < List.length (h_seq h))%nat -> timed_both h x -> s_label (sob h x) <> "#"%string ->
  related h c (s_cls (sob h x)) ->
  exists h', tier_append (S n) t x h = Ok tt h' /\ t_seq (tob h' t) = [x] /\ orderly h' t /\
    same_but_place (sob h x) (sob h' x) /\ touches_only t [x] h h'.
Proof.
  intros n h t c x (Ht & Al & Ec & Hsup & Hi & Hp & Lk & So & Sc & Tm) Em Sec Hx Tx Lx Hr.
  set (h1 := upd_tier t (set_t_seqec (Some (s_cls (sob h x)))) h).
  destruct Tx as [T1 T2]. destruct (s_start (sob h x)) as [z1|] eqn:Es; [|congruence].
  destruct (end_of h x) as [z2|] eqn:Ee; [|rewrite end_of_at in Ee; congruence].
  assert (E : sl_add (OTier t) (seq_slv (tob h t)) [x] h = Ok (Slv [x] (Some (s_cls (sob h x)))) h1).
  { pose proof (sl_add_same h1 ONone (Slv [] None) [x] (s_cls (sob h x))) as Q.
    assert (F : List.filter (fun y => negb (sl_contains h1 (sv_vals (Slv [] None)) y)) [x] = [x]) by reflexivity.
    rewrite F in Q. clear F. cbv zeta in Q. destruct Q as (l' & Q & Pm & _).
    - right. auto.
    - intros y [].
    - intros y [<-|[]]. reflexivity.
    - intros y [<-|[]]. exists z1. exact Es.
    - intros y [<-|[]]. exists z2. exact Ee.
    - apply issubclass_refl.
    - symmetry in Pm. apply Permutation_length_1_inv in Pm. cbn [sv_vals app] in Pm. subst l'.
      rewrite <- Q. unfold seq_slv. rewrite Em, Sec. reflexivity. }
  assert (T0 : tob h1 t = set_t_seqec (Some (s_cls (sob h x))) (tob h t)) by (apply tob_upd_eq; auto).
  destruct (set_seq_edit h1 t (s_cls (sob h x)) [x]) as (h2 & E2 & P2 & _ & Or & To & Pl & _).
  - unfold h1. rewrite len_upd_tier. exact Ht.
  - rewrite T0. exact Hsup.
  - split; [apply NoDup_singleton|]. intros y [<-|[]]. split; [exact Hx|]. split; [reflexivity|exact Lx].
  - intros y [<-|[]]. exists z1. exact Es.
  - assert (To' : touches_only t [x] h h2).
    { destruct To as (A1 & A2 & A3 & A4 & A5 & A6 & A7 & A8 & A9). rewrite T0 in A9.
      split; [exact A1|]. split; [exact A2|]. split; [exact A3|]. split; [exact A4|]. split; [exact A5|]. split; [exact A6|].
      split; [rewrite A7; apply len_upd_tier|]. split; [|exact A9]. intros u Hu. rewrite A8 by auto. apply tob_upd_ne. auto. }
    exists h2. split; [|split; [|split; [exact Or|split; [|exact To']]]].
    + apply append_parts with (v := Slv [x] (Some (s_cls (sob h x)))) (h1 := h1).
      * rewrite Ec. exact Hr.
      * rewrite Em. auto.
      * exact E.
      * assert (Pt : is_point_tier h1 t = false) by (unfold is_point_tier; rewrite T0; change (issubclass h (t_ec (tob h t)) cPoint = false); rewrite Ec; exact Hp).
        rewrite Pt. exact E2.
      * apply alone_group. intros g. destruct To' as (_ & _ & _ & _ & _ & _ & _ & _ & _ & _ & _ & _ & ->). apply Al.
    + apply Permutation_length_1_inv. symmetry. exact P2.
    + apply (Pl x). simpl; auto.
Qed.
Lemma c47_unrelated : forall n h t x, ~ related h (t_ec (tob h t)) (s_cls (sob h x)) ->
  tier_append (S n) t x h = Raise ValueError h.
Proof.
  intros n h t x Hr. unfold tier_append. cbn [tier_append_n].
  assert (B : tier_append_n (S n) t x h = Raise ValueError h).
  { cbn [tier_append_n]. mstep.
    assert (Ro : (issubclass h (t_ec (tob h t)) (s_cls (sob h x)) || issubclass h (s_cls (sob h x)) (t_ec (tob h t)))%bool = false).
    { apply orb_false_iff. split; destruct (issubclass _ _ _) eqn:Q; auto; exfalso; apply Hr; [left|right]; auto. }
    rewrite Ro. reflexivity. }
  cbn [tier_append_n] in B. rewrite (bind_raise _ _ _ _ _ B). reflexivity.
Qed.

(** ** Point tiers *)
Lemma c47_point : forall n h t c x, lone_points h t c -> t_seq (tob h t) <> [] ->
  (x < List.length (h_seq h))%nat -> timed_both h x -> is_point h x = true -> related h c (s_cls (sob h x)) ->
  ~ listed h (t_seq (tob h t)) x ->
  exists h', tier_append (S n) t x h = Ok tt h' /\
    Permutation (t_seq (tob h' t)) (t_seq (tob h t) ++ [x]) /\ sorted_starts h' (t_seq (tob h' t)) /\
    s_cls (sob h' x) = c /\ same_but_class (sob h x) (sob h' x) /\
    (forall y, y <> x -> sob h' y = sob h y) /\ touches_only t [x] h h'.
Proof.
  intros n h t c x (Ht & Al & Hp & Ec & Lk & So & Sc & Tm) Ne Hx Tx Hpx Hr Nl.
  assert (Sec : t_seqec (tob h t) = Some c) by (destruct Sc as [Q|[Q _]]; [exact Q|congruence]).
  set (a := seq_slv (tob h t)).
  assert (Ea : sv_ec a = Some c) by exact Sec. assert (Va : sv_vals a = t_seq (tob h t)) by reflexivity.
  destruct (c02_add_cast h a [x] c (s_cls (sob h x))) as (l' & k & h1 & E & Kp & Pm & So1 & Cl & Sb & Fr & Len & Re).
  - exact Ea.
  - rewrite Va. intros y Hy. apply Lk, Hy.
  - intros y [<-|[]]. reflexivity.
  - rewrite Va. intros y Hy. apply in_app_iff in Hy. destruct Hy as [Hy|[<-|[]]]; [|auto]. split; [apply Lk, Hy|apply Tm, Hy].
  - rewrite Va. exact So.
  - right. exact Hp.
  - right. exact Hpx.
  - destruct Hr; [right|left]; auto.
  - rewrite Hp. exact Hpx.
  - rewrite Va in *. assert (k = [x]).
    { inversion Kp as [|? ? ? Q K2|? ? ? Q K2]; subst; [inversion K2; subst; reflexivity|]. destruct (Q Nl). }
    subst k. pose proof Re as (R1 & R2 & R3 & R4).
    assert (T1 : forall u, tob h1 u = tob h u) by (intros u; unfold tob; rewrite R2; reflexivity).
    set (h2 := upd_tier t (fun o => set_t_contains (unalias (t_contains o) (t_seq o)) (set_t_seqec (Some c) (set_t_seq l' o))) h1).
    assert (T2 : tob h2 t = (fun o => set_t_contains (unalias (t_contains o) (t_seq o)) (set_t_seqec (Some c) (set_t_seq l' o))) (tob h t)).
    { unfold h2. rewrite tob_upd_eq by (unfold tlive; rewrite R2; exact Ht). rewrite T1. reflexivity. }
    assert (Nx : ~ In x (t_seq (tob h t))) by (intros Q; apply Nl; exists x; auto).
    assert (To : touches_only t [x] h h2).
    { split; [intros i _ Hn; apply Fr; exact Hn|]. split; [change (List.length (h_seq h) <= List.length (h_seq h1))%nat; lia|].
      split; [intros i Li; change (List.length (h_seq h) <= i < List.length (h_seq h1))%nat in Li; lia|].
      split; [exact R1|]. split; [exact R3|]. split; [exact R4|]. split; [unfold h2; rewrite len_upd_tier, R2; reflexivity|].
      split; [intros u Hu; unfold h2; rewrite tob_upd_ne by auto; apply T1|].
      rewrite T2. repeat (split; [reflexivity|]). reflexivity. }
    exists h2. split; [|split; [|split; [|split; [|split; [|split; [|exact To]]]]]].
    + apply append_parts with (v := Slv l' (Some c)) (h1 := h1).
      * rewrite Ec. exact Hr.
      * exact Nx.
      * rewrite (sl_add_owner _ a _ _ c) by exact Ea. exact E.
      * assert (Pt : is_point_tier h1 t = true) by (unfold is_point_tier, is_point_cls; rewrite (issubclass_ext h) by exact R1; rewrite T1, Ec; exact Hp).
        rewrite Pt. reflexivity.
      * apply alone_group. intros g. rewrite T2. apply Al.
    + rewrite T2. exact Pm.
    + rewrite T2. exact So1.
    + apply Cl. eapply Permutation_in; [apply Permutation_sym, Pm|]. apply in_app_iff. simpl; auto.
    + apply (Sb x).
    + intros y Hy. apply Fr. intros [<-|[]]. auto.
Qed.

(** ** Adding tiers *)
Lemma objs_of l : entry_objs (map EObj l) = l.
Proof. induction l as [|a l IH]; [reflexivity|]. simpl. f_equal. exact IH. Qed.
Lemma perm_objs ents l : Permutation ents (map EObj l) -> exists l', ents = map EObj l' /\ Permutation l' l.
Proof.
  intros P. exists (entry_objs ents). split.
  - assert (Q : forall e, In e ents -> exists o, e = EObj o).
    { intros e He. apply (Permutation_in _ P), in_map_iff in He. destruct He as (o & <- & _). eauto. }
    clear P. induction ents as [|e ents IH]; [reflexivity|]. destruct (Q e) as (o & ->); [simpl; auto|].
    simpl. f_equal. apply IH. intros; apply Q; simpl; auto.
  - assert (Q : Permutation (entry_objs ents) (entry_objs (map EObj l))) by (unfold entry_objs; apply Permutation_flat_map; exact P).
    rewrite objs_of in Q. exact Q.
Qed.
Lemma c48_add : forall h t u c d sc, steady h t c -> steady h u d -> t_seq (tob h t) <> [] ->
  issubclass h c cInterval = true -> issubclass h c cPoint = false ->
  issubclass h d cInterval = true -> issubclass h d cPoint = false ->
  related h c d -> superset_class h c = Some sc ->
  exists n h' k, tier_add t u h = Ok n h' /\
    keep_if (fun x => ~ listed h (t_seq (tob h t)) x) (t_seq (tob h u)) k /\
    Permutation (t_seq (tob h' n)) (t_seq (tob h t) ++ k) /\ orderly h' n /\ plain_tier h' n c /\
    (forall x, In x (t_seq (tob h' n)) -> s_cls (sob h' x) = c /\ same_data (sob h x) (sob h' x)) /\
    (issubclass h sc cTop = true -> forall x, In x (t_seq (tob h' n)) -> s_within (sob h' x) = Some (WTier n)) /\
    adds_tier n (t_seq (tob h t) ++ k) h h'.
Proof.
  intros h t u c d sc (Ec & Lk & So & Sc & Tm) (Ed & Lk2 & So2 & Sc2 & Tm2) Ne Hi Hp Hi2 Hp2 Hr Hsc.
  assert (Sec : t_seqec (tob h t) = Some c) by (destruct Sc as [Q|[Q _]]; [exact Q|congruence]).
  set (a := seq_slv (tob h t)).
  assert (Ea : sv_ec a = Some c) by exact Sec. assert (Va : sv_vals a = t_seq (tob h t)) by reflexivity.
  destruct (c02_add_cast h a (t_seq (tob h u)) c d) as (l' & k & h1 & E & Kp & Pm & So1 & Cl & Sb & Fr & Len & Re).
  - exact Ea.
  - rewrite Va. intros y Hy. apply Lk, Hy.
  - intros y Hy. apply Lk2, Hy.
  - rewrite Va. intros y Hy. apply in_app_iff in Hy. destruct Hy as [Hy|Hy]; split; [apply Lk, Hy|apply Tm, Hy|apply Lk2, Hy|apply Tm2, Hy].
  - rewrite Va. exact So.
  - left. exact Hi.
  - left. exact Hi2.
  - destruct Hr; [right|left]; auto.
  - rewrite Hp. exact Hp2.
  - rewrite Va in *. pose proof Re as (R1 & R2 & R3 & R4).
    assert (Nl : l' <> []).
    { intros ->. apply Permutation_nil in Pm. destruct (t_seq (tob h t)); [auto|discriminate]. }
    assert (Hk : forall y, In y k -> In y (t_seq (tob h u)) /\ ~ In y (t_seq (tob h t))).
    { intros y Hy. apply (keep_if_in _ _ _ _ Kp) in Hy. destruct Hy as [A B]. split; auto. intros Q. apply B. exists y; auto. }
    assert (Hl : forall y, In y l' -> (y < List.length (h_seq h))%nat /\ timed_both h y /\ s_label (sob h y) <> "#"%string).
    { intros y Hy. apply (Permutation_in _ Pm), in_app_iff in Hy. destruct Hy as [Hy|Hy].
      - split; [apply Lk, Hy|]. split; [apply Tm, Hy|apply Lk, Hy].
      - apply Hk in Hy. destruct Hy as [Hy _]. split; [apply Lk2, Hy|]. split; [apply Tm2, Hy|apply Lk2, Hy]. }
    assert (ND : NoDup l').
    { apply NoDup_ListNoDup. eapply Permutation_NoDup; [apply Permutation_sym, Pm|]. apply NoDup_ListNoDup, NoDup_app.
      split; [apply Lk|]. split.
      - intros y Hy Q. apply elem_of_list_In in Hy, Q. apply (proj2 (Hk y Q) Hy).
      - assert (N2 : NoDup (t_seq (tob h u))) by apply Lk2. clear -Kp N2. induction Kp as [|y l k Py K IH|y l k Py K IH].
        + constructor.
        + apply NoDup_cons in N2. destruct N2 as [A B]. apply NoDup_cons. split; [|auto].
          intros Q. apply A. apply elem_of_list_In. apply elem_of_list_In in Q. apply (keep_if_in _ _ _ _ K) in Q. tauto.
        + apply NoDup_cons in N2. apply IH, N2. }
    destruct (c18_built h1 (FromList (map EObj l')) None c sc (map EObj l')) as (n & h' & ents & B & Pe & _ & Mk & B1 & B2 & B3 & B4 & B5 & B6 & B7 & B8 & B9 & B10 & B11 & B12).
    + reflexivity.
    + destruct l' as [|y l']; [congruence|]. simpl. symmetry. apply Cl. simpl; auto.
    + rewrite (issubclass_ext h) by exact R1. exact Hp.
    + unfold superset_class, cob. rewrite R1. exact Hsc.
    + split; [rewrite objs_of; exact ND|]. intros e He. apply in_map_iff in He. destruct He as (y & <- & Hy).
      destruct (Hl y Hy) as (A1 & (A2 & _) & A3). destruct (Sb y) as (S1 & S2 & S3 & _). cbn [entry_value fst snd].
      split; [rewrite S3; exact A3|]. split; [rewrite S1; destruct (s_start (sob h y)); [eauto|congruence]|].
      split; [rewrite Len; exact A1|]. rewrite (Cl y Hy), (issubclass_ext h) by exact R1. exact Hi.
    + destruct (perm_objs ents l' Pe) as (l2 & -> & P2).
      assert (Eq : t_seq (tob h' n) = l2 /\ forall y, In y l2 -> s_cls (sob h' y) = c /\ same_data (sob h1 y) (sob h' y)).
      { clear -Mk. revert Mk. generalize (t_seq (tob h' n)). induction l2 as [|y l2 IH]; intros l Mk; inversion Mk as [|? z ? l3 M1 M2]; subst.
        - split; [reflexivity|intros y []].
        - destruct (IH l3 M2) as (-> & Q). destruct M1 as (C1 & C2 & -> & C4 & C5). split; [reflexivity|].
          intros w [<-|Hw]; [|auto]. split; [exact C1|]. simpl in C2. injection C2 as D1 D2 D3. unfold same_data. auto. }
      destruct Eq as (Eq & Dt). exists n, h', k. split; [|split; [exact Kp|split; [rewrite Eq, P2; exact Pm|split; [|split; [|split; [|split]]]]]].
      * unfold tier_add. mstep. mstep.
        assert (Pts : Bool.eqb (is_point_tier h t) (is_point_tier h u) = true).
        { unfold is_point_tier, is_point_cls. rewrite Ec, Ed, Hp, Hp2. reflexivity. }
        rewrite Pts, Ec, Ed.
        assert (Okc : (issubclass h c d || issubclass h d c)%bool = true) by (destruct Hr as [-> | ->]; [reflexivity|apply orb_true_r]).
        rewrite Okc. cbn [negb andb]. mstep. mstep.
        assert (E' : sl_add (OTier t) (seq_slv (tob h t)) (t_seq (tob h u)) h = Ok (Slv l' (Some c)) h1)
          by (rewrite (sl_add_owner _ a _ _ c) by exact Ea; exact E).
        rewrite (bind_ok _ _ _ _ _ E'). mstep.
        assert (Pt : is_point_tier h1 t = false).
        { unfold is_point_tier, is_point_cls, tob. rewrite R2, (issubclass_ext h) by exact R1. fold (tob h t). rewrite Ec. exact Hp. }
        rewrite Pt. exact B.
      * split; [exact B1|]. split; [exact B2|exact B3].
      * assert (Ch : h_cls h' = h_cls h) by (destruct B7 as (_ & _ & F3 & _); congruence).
        unfold plain_tier, superset_class, subset_class, class_name, cob in *. rewrite Ch. split; [exact B5|]. split; [cbn [named] in B6; unfold class_name, cob in B6; rewrite B6, R1; reflexivity|]. split; [exact B11|].
        split; [rewrite B8; symmetry; exact Hsc|]. split; [rewrite B9, R1; reflexivity|]. destruct B12 as [Q|[Q _]]; [exact Q|].
        destruct l' as [|w l']; [congruence|]. rewrite Eq in Q. rewrite Q in P2. apply Permutation_nil in P2. discriminate.
      * intros y Hy. rewrite Eq in Hy. destruct (Dt y Hy) as (D1 & D2 & D3 & D4 & D5 & D6).
        destruct (Sb y) as (A1 & A2 & A3 & _ & _ & A4 & A5 & _). split; [exact D1|]. unfold same_data. repeat split; congruence.
      * rewrite <- (issubclass_ext h h1 _ _ R1). exact B4.
      * destruct B7 as (F1 & F2 & F3 & F4 & F5 & F6 & F7 & F8 & F9). rewrite Eq in F1, F2.
        assert (Hin : forall y, In y l2 <-> In y (t_seq (tob h t) ++ k)).
        { intros y. split; apply Permutation_in; [|symmetry]; rewrite P2; exact Pm. }
        split; [rewrite F6, R2; reflexivity|]. split; [exact F7|]. split; [intros w Hw; rewrite F8 by exact Hw; unfold tob; rewrite R2; reflexivity|].
        split; [|split; [lia|split; [|split; [congruence|split; congruence]]]].
        -- intros i Li Hn. rewrite F1; [|lia|rewrite Hin; exact Hn]. apply Fr. intros Q. apply Hn, in_app_iff; auto.
        -- intros i Li. apply F2; [lia|]. intros Q. apply (Permutation_in _ P2), Hl in Q. lia.
Qed.
Lemma c48_mixed : forall h t u, is_point_tier h t <> is_point_tier h u \/ ~ related h (t_ec (tob h t)) (t_ec (tob h u)) ->
  tier_add t u h = Raise ValueError h.
Proof.
  intros h t u A. unfold tier_add. mstep. mstep.
  assert (Q : (Bool.eqb (is_point_tier h t) (is_point_tier h u) &&
     (issubclass h (t_ec (tob h t)) (t_ec (tob h u)) || issubclass h (t_ec (tob h u)) (t_ec (tob h t))))%bool = false).
  { apply andb_false_iff. destruct A as [A|A].
    - left. apply not_true_iff_false. intros Q. apply A, eqb_prop, Q.
    - right. apply orb_false_iff. split; apply not_true_iff_false; intros Q; apply A; [left|right]; exact Q. }
  rewrite Q. reflexivity.
Qed.

(** ** Concatenating tiers *)
Lemma sl_concat_owner w a b h c : sv_ec a = Some c -> sl_concat w a b h = sl_concat ONone a b h.
Proof. intros E. unfold sl_concat, sl_add. rewrite E. reflexivity. Qed.
Lemma c48_concat : forall h t u c ns, (forall p q, fadd p q = p + q) ->
  steady h t c -> steady h u c -> (t < List.length (h_tier h))%nat -> t_super (tob h t) <> None ->
  t_seq (tob h t) <> [] -> t_seq (tob h u) <> [] -> issubclass h c cPoint = false ->
  (forall x a b, In x (t_seq (tob h t)) -> s_start (sob h x) = Some a -> s_end (sob h x) = Some b -> a < b) ->
  (forall x a, In x (t_seq (tob h u)) -> s_start (sob h x) = Some a -> 0 <= a) ->
  below h (t_seq (tob h u)) ns -> NoDup ns -> (forall y, In y ns -> (y < List.length (h_seq h))%nat /\ timed_both h y) ->
  (forall y, In y ns -> is_point h y = true -> s_subset (sob h y) = []) ->
  (forall x, In x (t_seq (tob h t)) -> ~ In x ns) ->
  exists d srt h', tier_concat t u h = Ok tt h' /\ last_end h (t_seq (tob h t)) d /\
    Permutation srt (t_seq (tob h u)) /\ t_seq (tob h' t) = (t_seq (tob h t) ++ srt)%list /\ orderly h' t /\
    (forall y, In y ns -> moved_by d h h' y) /\
    (forall x, In x (t_seq (tob h t)) -> same_but_place (sob h x) (sob h' x)) /\
    touches_only t (t_seq (tob h t) ++ ns) h h'.
Proof.
  intros h t u c ns Hadd (Ec & Lk & So & Sc & Tm) (Ed & Lk2 & So2 & Sc2 & Tm2) Ht Hsup Ne Ne2 Hp Hpos Hnn Bl Nd Tn Tp Dj.
  assert (Sec : t_seqec (tob h t) = Some c) by (destruct Sc as [Q|[Q _]]; [exact Q|congruence]).
  set (a := seq_slv (tob h t)).
  assert (Ea : sv_ec a = Some c) by exact Sec. assert (Va : sv_vals a = t_seq (tob h t)) by reflexivity.
  assert (Np : forall x, In x (t_seq (tob h t)) -> is_point h x = false).
  { intros x Hx. unfold is_point. destruct Lk as [_ L]. destruct (L x Hx) as (_ & -> & _). exact Hp. }
  assert (Ts : forall x, In x (t_seq (tob h t)) -> exists s e, s_start (sob h x) = Some s /\ s_end (sob h x) = Some e /\ s < e).
  { intros x Hx. destruct (Tm x Hx) as [A B]. unfold end_at in B. rewrite (Np x Hx) in B.
    destruct (s_start (sob h x)) as [s|] eqn:E1; [|congruence]. destruct (s_end (sob h x)) as [e|] eqn:E2; [|congruence].
    exists s, e. split; [reflexivity|]. split; [reflexivity|]. eapply Hpos; eauto. }
  assert (Tn' : forall y, In y ns -> timed h y).
  { intros y Hy. destruct (Tn y Hy) as (A & B & C). split; [exact A|]. split; [exact B|]. split.
    - intros Q. unfold end_at in C. change (is_pt h y) with (is_point h y) in Q. rewrite Q in C. exact C.
    - intros Q. apply Tp; auto. }
  destruct (sl_concat_spec h a (t_seq (tob h u)) c ns) as (d & ns' & srt & Pn & D1 & D2 & E & Ps & Ss); auto.
  - rewrite Va. intros x Hx. apply Lk, Hx.
  - intros x Hx. apply Lk2, Hx.
  - apply issubclass_refl.
  - intros x Hx. destruct (Tm2 x Hx) as [A _]. destruct (s_start (sob h x)) as [s|] eqn:E1; [|congruence]. exists s. split; [reflexivity|]. eapply Hnn; eauto.
  - rewrite Va in *. set (h1 := shifts d ns' h) in *.
    assert (Nd' : NoDup ns').
    { apply NoDup_ListNoDup. eapply Permutation_NoDup; [apply Permutation_sym, Pn|]. apply NoDup_ListNoDup, Nd. }
    assert (Hns : forall y, In y ns' <-> In y ns) by (intros y; split; apply Permutation_in; [exact Pn|symmetry; exact Pn]).
    destruct (shifts_frame d ns' h) as (R1 & R2 & R3 & R4). destruct (shifts_shape d ns' h) as (_ & Len & Sh). fold h1 in R1, R2, R3, R4, Len, Sh.
    assert (T1 : forall w, tob h1 w = tob h w) by (intros w; unfold tob; rewrite R2; reflexivity).
    assert (In1 : forall y, In y ns -> sob h1 y = shift_obj (is_pt h y) d (sob h y)).
    { intros y Hy. apply sob_shifts_in; [exact Nd'|apply Hns, Hy|apply Tn, Hy]. }
    assert (Out1 : forall y, ~ In y ns -> sob h1 y = sob h y) by (intros y Hy; apply sob_shifts_notin; rewrite Hns; exact Hy).
    assert (Roots : forall y, In y (t_seq (tob h u)) -> In y ns) by (eapply forest_roots; eauto).
    assert (Lb : forall y, s_label (sob h1 y) = s_label (sob h y)).
    { intros y. destruct (in_dec Nat.eq_dec y ns) as [I|I]; [rewrite In1 by exact I; destruct (is_pt h y); reflexivity|rewrite Out1 by exact I; reflexivity]. }
    assert (Hl : forall y, In y (t_seq (tob h t) ++ srt) -> (y < List.length (h_seq h1))%nat /\ s_cls (sob h1 y) = c /\ s_label (sob h1 y) <> "#"%string).
    { intros y Hy. rewrite Len, Lb. destruct (Sh y) as [_ ->]. apply in_app_iff in Hy.
      destruct Hy as [Hy|Hy]; [apply Lk, Hy|apply (Permutation_in _ Ps) in Hy; apply Lk2, Hy]. }
    destruct (set_seq_edit h1 t c (t_seq (tob h t) ++ srt)) as (h2 & E2 & _ & I2 & Or & To & Pl & _).
    + rewrite R2. exact Ht.
    + rewrite T1. exact Hsup.
    + split; [|exact Hl]. apply NoDup_app. split; [apply Lk|]. split.
      * intros y Hy Q. apply elem_of_list_In in Hy, Q. apply (Permutation_in _ Ps), Roots in Q. apply (Dj y); auto.
      * apply NoDup_ListNoDup. eapply Permutation_NoDup; [apply Permutation_sym, Ps|]. apply NoDup_ListNoDup, Lk2.
    + intros y Hy. apply in_app_iff in Hy. destruct Hy as [Hy|Hy].
      * rewrite Out1 by (apply Dj, Hy). destruct (Ts y Hy) as (s & e & Q & _). eauto.
      * apply (Permutation_in _ Ps) in Hy. rewrite In1 by (apply Roots, Hy). destruct (Tm2 y Hy) as [Q _].
        destruct (s_start (sob h y)) as [s|] eqn:Q2; [|congruence]. destruct (is_pt h y); cbn; rewrite Q2; simpl; eauto.
    + assert (Sub : forall y, In y (t_seq (tob h t) ++ srt) -> In y (t_seq (tob h t) ++ ns)).
      { intros y Hy. apply in_app_iff in Hy. apply in_app_iff. destruct Hy as [Hy|Hy]; [auto|right]. apply Roots, (Permutation_in _ Ps), Hy. }
      assert (Tail : forall y, (y < List.length (h_seq h))%nat -> s_start (sob h2 y) = s_start (sob h1 y) /\ s_end (sob h2 y) = s_end (sob h1 y) /\
         s_cls (sob h2 y) = s_cls (sob h1 y) /\ s_label (sob h2 y) = s_label (sob h1 y) /\ s_super (sob h2 y) = s_super (sob h1 y) /\ s_subset (sob h2 y) = s_subset (sob h1 y)).
      { intros y Ly. destruct (in_dec Nat.eq_dec y (t_seq (tob h t) ++ srt)) as [I|I].
        - destruct (Pl y I) as (A1 & A2 & A3 & A4 & A5 & A6 & _). auto 10.
        - destruct To as (A & _). rewrite A; [auto 10|rewrite Len; exact Ly|exact I]. }
      exists d, srt, h2. split; [|split; [split; [exact D1|exact D2]|split; [exact Ps|split; [apply I2; exact Ss|split; [exact Or|split; [|split]]]]]].
      * unfold tier_concat. mstep.
        assert (Okc : (issubclass h (t_ec (tob h t)) (t_ec (tob h u)) || issubclass h (t_ec (tob h u)) (t_ec (tob h t)))%bool = true)
          by (rewrite Ec, Ed, issubclass_refl; reflexivity).
        rewrite Okc. cbn [negb]. mstep. mstep.
        assert (E' : sl_concat (OTier t) (seq_slv (tob h t)) (t_seq (tob h u)) h = Ok (Some (Slv (t_seq (tob h t) ++ srt) (Some c))) h1)
          by (rewrite (sl_concat_owner _ a _ _ c) by exact Ea; exact E).
        rewrite (bind_ok _ _ _ _ _ E'). mstep.
        assert (Pt : is_point_tier h1 t = false).
        { unfold is_point_tier, is_point_cls. rewrite T1, (issubclass_ext h) by exact R1. rewrite Ec. exact Hp. }
        rewrite Pt. exact E2.
      * intros y Hy. destruct (Tail y) as (A1 & A2 & A3 & A4 & A5 & A6); [apply Tn, Hy|].
        assert (Pq : is_point h2 y = is_point h y).
        { unfold is_point. rewrite A3. destruct (Sh y) as [_ ->]. apply issubclass_ext. destruct To as (_ & _ & _ & -> & _). exact R1. }
        unfold moved_by, end_at. rewrite Pq, A1, A2, A3, A4, A5, A6, (In1 y Hy). change (is_pt h y) with (is_point h y).
        assert (F : forall o : option Z, option_map (fun a => fadd a d) o = option_map (fun a => a + d) o) by (intros [z|]; simpl; [rewrite Hadd|]; reflexivity).
        destruct (is_point h y); cbn [shift_obj s_start s_end s_cls s_label s_super s_subset set_s_start set_s_end]; rewrite ?F; auto 10.
      * intros x Hx. rewrite <- (Out1 x) by (apply Dj, Hx). apply Pl, in_app_iff. auto.
      * destruct To as (A1 & A2 & A3 & A4 & A5 & A6 & A7 & A8 & A9). rewrite !Len in *. rewrite !T1 in A9.
        split; [|split; [exact A2|split; [exact A3|split; [congruence|split; [congruence|split; [congruence|split; [congruence|split; [|exact A9]]]]]]]].
        -- intros i Li Hn. rewrite A1; [|exact Li|intros Q; apply Hn, Sub, Q]. apply Out1. intros Q. apply Hn, in_app_iff; auto.
        -- intros w Hw. rewrite A8 by exact Hw. apply T1.
Qed.
End WithEnv.
