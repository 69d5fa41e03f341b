(** * MergeLeaf: fusing an interval without children with its sibling. *)
From Verif Require Export PluckFinal ReviseFinal MergeSpec.
From Verif Require Import ChildSpec.
Open Scope Z_scope.

Section WithEnv.
Context `{Env}.
Opaque span_of.

(** What the interval is once it has the values of both. *)
Definition leaf_grown (right : bool) (jn : string -> string -> string) (h : heap) (x y : oid) (o : seqobj) : seqobj :=
  set_s_contains CAlias (set_s_contains (unalias (s_contains o) (s_subset o)) (set_s_subec None (set_s_subset [] (new_link right h y (new_values right jn h x y o))))).
Lemma fuse_grows right jn h x y : live h x -> neighbour right h x = Some y -> s_label (sob h y) <> "#"%string ->
  s_subset (sob h x) = [] -> s_subset (sob h y) = [] ->
  fuse right jn x h = fuse_tail x y (upd_seq x (leaf_grown right jn h x y) h).
Proof.
  intros Lx Nb Ny Kx Ky. set (h2 := upd_seq x (leaf_grown right jn h x y) h). set (h1 := upd_seq x (fun o => new_link right h y (new_values right jn h x y o)) h).
  assert (S1 : sob h1 x = new_link right h y (new_values right jn h x y (sob h x))) by (apply sob_upd_eq; exact Lx).
  assert (K1 : s_subset (sob h1 x) = []) by (rewrite S1; unfold new_link, new_values; destruct right; exact Kx).
  assert (Set1 : subset_setter x [] h1 = Ok tt h2).
  { assert (L1 : live h1 x) by (apply live_upd; exact Lx).
    set (h1' := upd_seq x (fun o => set_s_contains (unalias (s_contains o) (s_subset o)) (set_s_subec None (set_s_subset [] o))) h1).
    assert (K1' : s_subset (sob h1' x) = []) by (unfold h1'; rewrite sob_upd_eq by exact L1; reflexivity).
    assert (E : set_subset_list x [] h1 = Ok tt h2).
    { transitivity ((seq_set_contains x ;;; set_subset_precedence x) h1'); [reflexivity|].
      unfold seq_set_contains. repeat mstep. rewrite K1'. cbn [forM]. repeat mstep. unfold set_subset_precedence. repeat mstep.
      assert (Q : upd_seq x (set_s_contains CAlias) h1' = h2).
      { assert (Q : h1' = upd_seq x (fun o => set_s_contains (unalias (s_contains o) (s_subset o)) (set_s_subec None (set_s_subset [] (new_link right h y (new_values right jn h x y o))))) h).
        { unfold h1', h1. apply FuseFinal.upd_upd. intros o. unfold new_link, new_values. destruct right; reflexivity. }
        rewrite Q. unfold h2. apply FuseFinal.upd_upd. intros o. reflexivity. }
      rewrite Q. assert (K2 : s_subset (sob h2 x) = []) by (unfold h2; rewrite sob_upd_eq by exact Lx; reflexivity). rewrite K2. reflexivity. }
    unfold subset_setter. mstep. rewrite K1. change (sl_init [] h1) with (Ok sl_empty h1). unfold bind at 1. change (sl_init [] h1) with (Ok sl_empty h1). cbn [sl_empty sv_vals].
    rewrite (bind_ok _ _ _ _ _ E). reflexivity. }
  assert (Nh : is_hash (s_label (sob h y)) = false) by (unfold is_hash; apply String.eqb_neq; exact Ny).
  unfold fuse. mstep. change (if right then s_fol (sob h x) else s_prev (sob h x)) with (neighbour right h x). rewrite Nb. repeat mstep. rewrite Nh.
  assert (Up : (if right then mod_seq x (set_s_end (s_end (sob h y))) ;;; mod_seq x (set_s_fol (s_fol (sob h y))) ;;;
                   mod_seq x (set_s_label (jn (s_label (sob h x)) (s_label (sob h y))))
                else mod_seq x (set_s_start (s_start (sob h y))) ;;; mod_seq x (set_s_prev (s_prev (sob h y))) ;;;
                   mod_seq x (set_s_label (jn (s_label (sob h y)) (s_label (sob h x))))) h = Ok tt h1).
  { unfold h1. destruct right; repeat mstep; unfold mod_seq; f_equal; [set (f := set_s_end (s_end (sob h y))); set (k := set_s_fol (s_fol (sob h y)))|set (f := set_s_start (s_start (sob h y))); set (k := set_s_prev (s_prev (sob h y)))]; rewrite (FuseFinal.upd_upd h x k f (fun o => k (f o)) (fun o => eq_refl)); unfold modify; f_equal; apply FuseFinal.upd_upd; intros o; reflexivity. }
  rewrite (bind_ok _ _ _ _ _ Up).
  assert (Ad : (if right then sl_add (OSeq x) (subset_slv (sob h x)) (s_subset (sob h y)) else sl_add (OSeq y) (subset_slv (sob h y)) (s_subset (sob h x))) h1
     = Ok (Slv [] (s_subec (sob h (if right then x else y)))) h1).
  { unfold sl_add, subset_slv. destruct right; rewrite Kx, Ky; reflexivity. }
  rewrite (bind_ok _ _ _ _ _ Ad). cbn [sv_vals]. rewrite (bind_ok _ _ _ _ _ Set1). reflexivity.
Qed.

(** The result of fusing the siblings [x] and [y], children of [p], of the tier [t]. *)
Definition leaf_fused (right : bool) (jn : string -> string -> string) (h h' : heap) (t : tid) (p x y : oid) (l1 l2 : list oid) : Prop :=
  tier_loses t y h h' /\ tiers_only h h' /\
  s_subset (sob h' p) = (l1 ++ x :: l2)%list /\ chained h' (l1 ++ x :: l2) /\ same_but_kids (sob h p) (sob h' p) /\
  (s_cls (sob h' x) = s_cls (sob h x) /\ s_start (sob h' x) = s_start (sob h (if right then x else y)) /\ s_end (sob h' x) = s_end (sob h (if right then y else x)) /\
   s_label (sob h' x) = fused_label right jn h x y) /\
  (s_super (sob h' x) = Some p /\ s_within (sob h' x) = s_within (sob h x) /\ s_subset (sob h' x) = [] /\ s_intier (sob h' x) = s_intier (sob h x)) /\
  (forall z, In z (l1 ++ l2) -> same_but_links (sob h z) (sob h' z)) /\
  (s_super (sob h' y) = None /\ same_but_home (sob h y) (sob h' y)) /\
  (forall i, (i < List.length (h_seq h))%nat -> i <> p -> ~ In i (s_subset (sob h p)) -> sob h' i = sob h i).
Lemma fuse_leaf right jn h x y p t l1 l2 : neighbour right h x = Some y -> s_label (sob h y) <> "#"%string -> fused_label right jn h x y <> "#"%string ->
  s_subset (sob h x) = [] -> s_subset (sob h y) = [] -> live h p -> s_super (sob h x) = Some p -> ~ In p (s_subset (sob h p)) ->
  s_subset (sob h p) = (l1 ++ beside right [x] [y] ++ l2)%list -> NoDup (s_subset (sob h p)) ->
  (forall z, In z (s_subset (sob h p)) -> live h z /\ s_label (sob h z) <> "#"%string /\ s_cls (sob h z) = s_cls (sob h y) /\ s_super (sob h z) = Some p /\ In z (t_seq (tob h t))) ->
  s_intier (sob h x) = Some t -> tlive h t -> NoDup (t_seq (tob h t)) -> t_super (tob h t) <> Some cTop -> is_point h x = false ->
  (forall z w, In z (t_seq (tob h t)) -> In w (t_seq (tob h t)) -> s_start (sob h z) = s_start (sob h w) \/ s_end (sob h z) = s_end (sob h w) -> z = w) ->
  exists h', fuse right jn x h = Ok tt h' /\ leaf_fused right jn h h' t p x y l1 l2.
Proof.
  intros Nb Ny Nl Kx Ky Lp Px Np Eb Nd Kid It Lt Ndt Ntop Ip Ds. set (h2 := upd_seq x (leaf_grown right jn h x y) h).
  assert (Ix : In x (s_subset (sob h p))) by (rewrite Eb; apply in_app_iff; right; apply in_app_iff; left; destruct right; simpl; auto).
  assert (Iy : In y (s_subset (sob h p))) by (rewrite Eb; apply in_app_iff; right; apply in_app_iff; left; destruct right; simpl; auto).
  destruct (Kid x Ix) as (Lx & Nx & Cx & _ & Tx). destruct (Kid y Iy) as (Ly & _ & _ & Py & Ty).
  assert (Hxy : x <> y).
  { intros ->. rewrite Eb in Nd. apply NoDup_app in Nd. destruct Nd as (_ & _ & Nd). apply NoDup_app in Nd. destruct Nd as (Nd & _).
    destruct right; cbn in Nd; apply NoDup_cons in Nd; destruct Nd as [Nd _]; apply Nd; rewrite elem_of_list_In; simpl; auto. }
  assert (Npx : p <> x) by (intros ->; auto). assert (Npy : p <> y) by (intros ->; auto).
  assert (X2 : sob h2 x = leaf_grown right jn h x y (sob h x)) by (apply sob_upd_eq; exact Lx).
  assert (O2 : forall i, i <> x -> sob h2 i = sob h i) by (intros i Hi; unfold h2; apply sob_upd_ne; auto).
  assert (V2 : s_cls (sob h2 x) = s_cls (sob h x) /\ s_start (sob h2 x) = s_start (sob h (if right then x else y)) /\ s_end (sob h2 x) = s_end (sob h (if right then y else x)) /\
     s_label (sob h2 x) = fused_label right jn h x y /\ s_super (sob h2 x) = Some p /\ s_within (sob h2 x) = s_within (sob h x) /\ s_subset (sob h2 x) = [] /\ s_intier (sob h2 x) = s_intier (sob h x)).
  { rewrite X2. unfold leaf_grown, new_link, new_values. destruct right; cbn; auto 10. }
  destruct V2 as (V1 & V2 & V3 & V4 & V5 & V6 & V7 & V8).
  assert (Sv : forall z w, In z (t_seq (tob h t)) -> In w (t_seq (tob h t)) -> same_value h2 z w -> z = w).
  { intros z w Hz Hw (I1 & I2 & I3 & I4).
    assert (One : forall w, In w (t_seq (tob h t)) -> s_start (sob h2 x) = s_start (sob h2 w) -> s_end (sob h2 x) = s_end (sob h2 w) -> x = w).
    { clear - Ds V2 V3 O2 Tx. intros w Hw A B. destruct (decide (w = x)) as [->|Nw]; [reflexivity|]. rewrite (O2 w) in A, B by exact Nw. destruct right.
      - apply Ds; auto. left. congruence.
      - apply Ds; auto. right. congruence. }
    assert (Ipx : is_point h2 x = false) by (unfold is_point; rewrite V1; exact Ip).
    destruct (decide (z = x)) as [->|Nz]; [apply One; auto|]. destruct (decide (w = x)) as [->|Nw].
    - symmetry. apply One; [exact Hz|congruence|]. symmetry. apply I4. congruence.
    - rewrite !O2 in I2 by auto. auto. }
  assert (Fy : filed h2 y).
  { intros q Hq. rewrite O2 in Hq by auto. assert (q = p) by congruence. subst q. unfold brood. rewrite !(O2 p) by auto. unfold h2 at 1. rewrite len_upd_seq. split; [exact Lp|]. split; [exact Npy|]. split; [exact Iy|].
    split; [exact Nd|]. intros z Hz. destruct (Kid z Hz) as (A1 & A2 & A3 & A4 & A5). split; [unfold h2; rewrite len_upd_seq; exact A1|].
    assert (Cl : forall w, In w (s_subset (sob h p)) -> s_cls (sob h2 w) = s_cls (sob h y)).
    { intros w Hw. destruct (decide (w = x)) as [->|Nw]; [congruence|]. rewrite O2 by exact Nw. apply (Kid w Hw). }
    split; [destruct (decide (z = x)) as [->|Nz]; [congruence|rewrite O2 by exact Nz; exact A2]|].
    split; [destruct (decide (z = x)) as [->|Nz]; [congruence|rewrite O2 by exact Nz; exact A4]|]. intros w Hw. rewrite !Cl by auto. split; [reflexivity|].
    intros V. apply Sv; auto. apply (Kid w Hw). }
  destruct (c71_pop h2 t y Lt Ndt Ty) as (h' & E & Tl & Lf & _ & _ & To & Rest).
  { intros z Hz V. apply Sv; auto. }
  { unfold h2. rewrite len_upd_seq. exact Ly. }
  { exact Fy. }
  { intros q Hq. rewrite O2 in Hq by auto. assert (q = p) by congruence. subst q. rewrite O2 by auto. exact Np. }
  { exact Ntop. }
  destruct Lf as (Ly1 & Ly2 & Lf). rewrite (O2 y) in Lf by auto. destruct (Lf p Py) as (_ & a & b & Ea & Eb' & Skp & Ch & Lk). rewrite !(O2 p) in * by auto.
  assert (Q : a = (if right then l1 ++ [x] else l1)%list /\ b = (if right then l2 else x :: l2)).
  { rewrite Ea in Nd. rewrite Eb in Ea. destruct right; cbn in Ea.
    - apply (nodup_split a b (l1 ++ [x]) l2 y Nd). rewrite <- Ea, <- app_assoc. reflexivity.
    - apply (nodup_split a b l1 (x :: l2) y Nd). rewrite <- Ea. reflexivity. }
  assert (Eab : (a ++ b)%list = (l1 ++ x :: l2)%list) by (destruct Q as [-> ->]; destruct right; [rewrite <- app_assoc|]; reflexivity). rewrite Eab in *.
  assert (Hx' : same_but_links (sob h2 x) (sob h' x)) by (apply Lk, in_app_iff; simpl; auto).
  destruct Hx' as (B1 & B2 & B3 & B4 & B5 & B6 & B7 & B8 & B9 & B10).
  assert (Out : forall z, In z (l1 ++ x :: l2) -> In z (s_subset (sob h p)) /\ z <> y).
  { intros z Hz. rewrite <- Eab in Hz. rewrite Ea in Nd |- *. destruct (NoDup_mid _ _ _ Nd) as (_ & _ & _ & N4). split; [apply in_app_iff in Hz; apply in_app_iff; simpl; tauto|]. intros ->. apply N4, Hz. }
  exists h'. split.
  - rewrite (fuse_grows right jn h x y Lx Nb Ny Kx Ky). fold h2. unfold fuse_tail. repeat mstep. rewrite V8, It.
    assert (Tr : (0 <? List.length (t_seq (tob h2 t)))%nat = true) by (apply Nat.ltb_lt; change (tob h2 t) with (tob h t); destruct (t_seq (tob h t)); [destruct Tx|simpl; lia]).
    rewrite Tr. cbn [when]. destruct (bool_decide _); cbn [andb]; [exact E|]. rewrite (bind_ok _ _ _ _ _ E). repeat mstep. rewrite B5, V5. mstep.
    rewrite Eb'. assert (C : sl_contains h' (l1 ++ x :: l2) y = false).
    { destruct (sl_contains h' (l1 ++ x :: l2) y) eqn:C; [|reflexivity]. exfalso. apply sl_contains_spec in C. destruct C as (z & Hz & D). destruct (Out z Hz) as [Z1 Z2].
      destruct D as [D|D]; [congruence|]. apply praatio_iff in D. apply Z2. apply Sv; [apply (Kid z Z1)|exact Ty|]. destruct (Lk z Hz) as (C1 & C2 & C3 & C4 & _). destruct Ly2 as (D1 & D2 & D3 & D4 & _).
      revert D. unfold same_value, is_point. rewrite C1, C2, C3, C4, D1, D2, D3, D4. destruct To as (Qc & _). rewrite !(issubclass_ext h2 h') by exact Qc. auto. }
    rewrite C, andb_false_r. reflexivity.
  - split; [exact Tl|]. split.
    { destruct To as (T1 & T2 & T3 & T4 & T5). unfold h2 in T4, T5. rewrite len_upd_seq in T4, T5. unfold tiers_only. auto 10. }
    split; [exact Eb'|]. split; [exact Ch|]. split; [exact Skp|]. split; [split; [congruence|]; split; [congruence|]; split; congruence|]. split; [split; [congruence|]; split; [congruence|]; split; congruence|].
    split; [|split; [split; [exact Ly1|rewrite O2 in Ly2 by auto; exact Ly2]|]].
    + intros z Hz. assert (Hz' : In z (l1 ++ x :: l2)) by (apply in_app_iff in Hz; apply in_app_iff; simpl; tauto). specialize (Lk z Hz'). rewrite O2 in Lk; [exact Lk|].
      intros ->. rewrite Ea in Nd. destruct (NoDup_mid _ _ _ Nd) as (_ & _ & N1 & _). rewrite Eab in N1. destruct (NoDup_mid _ _ _ N1) as (_ & _ & _ & N4). apply N4, Hz.
    + intros i Hi Hip Hk. assert (i <> x) by (intros ->; auto). rewrite Rest; [apply O2; auto|unfold h2; rewrite len_upd_seq; exact Hi|intros ->; auto|].
      intros q Hq. rewrite O2 in Hq by auto. assert (q = p) by congruence. subst q. rewrite O2 by auto. auto.
Qed.
End WithEnv.
