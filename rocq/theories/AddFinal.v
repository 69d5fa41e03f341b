(** * AddFinal: adding tier groups (C56). *)
From Verif Require Import AddSpec GrowFinal EditFinal RelateFinal SpliceFinal PopFinal.
From Verif Require ReadMade.
Open Scope Z_scope.

Section WithEnv.
Context `{Env}.

(** ** Rows *)
Lemma turn_kids h : forall l, in_turn h l -> (forall u, In u l -> fills h u (s_subset (sob h u))) ->
  in_turn h (flat_map (fun u => s_subset (sob h u)) l) /\ forall y, In y (flat_map (fun u => s_subset (sob h u)) l) -> dated h y.
Proof.
  induction l as [|u l IH]; intros T F; [split; [intros i j x y _ Q; destruct i; discriminate|intros y []]|].
  apply in_turn_cons in T. destruct T as [T1 T2]. destruct (IH T2) as [I1 I2]; [intros w Hw; apply F; simpl; auto|].
  destruct (F u ltac:(simpl; auto)) as (s & e & E1 & E2 & Lt & Ti). cbn [flat_map]. split.
  - apply in_turn_app; [eapply tiles_in_turn; eauto|exact I1|]. intros x y Hx Hy. apply in_flat_map in Hy. destruct Hy as (w & Hw & Hy).
    destruct (F w ltac:(simpl; auto)) as (s' & e' & E1' & E2' & _ & Ti'). destruct (GroupFinal.tiles_in h _ _ _ x Ti Hx) as ((_ & X2 & _) & _ & Le).
    destruct (GroupFinal.tiles_in h _ _ _ y Ti' Hy) as ((Y1 & _) & Le' & _). destruct (T1 w Hw) as (a & b & Ea & Eb & Lab).
    assert (a = e) by congruence. assert (b = s') by congruence. exists (snd (span_of h x)), (fst (span_of h y)). split; [exact X2|]. split; [exact Y1|lia].
  - intros y Hy. apply in_app_iff in Hy. destruct Hy as [Hy|Hy]; [apply (GroupFinal.tiles_in h _ _ _ y Ti Hy)|auto].
Qed.
(** Intervals above the last tier of a good group are filled by their children. *)
Lemma row_filled h g ts bss : good_group h g ts bss -> forall k t x, nth_error ts k = Some t -> (S k < List.length ts)%nat -> In x (t_seq (tob h t)) ->
  fills h x (s_subset (sob h x)) /\ brood h x.
Proof.
  intros (_ & _ & _ & _ & C & _ & S & R & Ok & _). pose proof (related_fit h ts bss S R (proj1 (proj2 C)) ltac:(intros k Hk; apply (Ok k Hk))) as Fit.
  assert (F : forall k t x, nth_error ts k = Some t -> (Datatypes.S k < List.length ts)%nat -> In x (t_seq (tob h t)) ->
    fills h x (s_subset (sob h x)) /\ exists u, In u (tl ts) /\ forall y, In y (s_subset (sob h x)) -> In y (t_seq (tob h u)) /\ s_super (sob h y) = Some x).
  { clear -S R. revert bss S R. induction ts as [|t ts IH]; intros bss S R k w x Hw Hk Hx; [destruct k; discriminate|].
    destruct ts as [|u r]; [cbn in Hk; lia|]. destruct bss as [|bs bss]; [destruct S|]. rewrite snug_cons in S. rewrite related_cons in R.
    destruct S as (S1 & S2 & S3), R as (R1 & R2). destruct k as [|k].
    - injection Hw as <-. assert (Q : exists b, In b bs /\ fills h x b /\ parent_of h x b).
      { clear -S2 R1 Hx. revert bs S2 R1. induction (t_seq (tob h t)) as [|a l IHl]; intros bs S2 R1; [destruct Hx|].
        inversion S2 as [|? b ? bs' F1 F2]; subst. inversion R1 as [|? ? ? ? P1 P2]; subst. destruct Hx as [->|Hx]; [exists b; simpl; auto|].
        destruct (IHl Hx bs' F2 P2) as (b' & Q1 & Q2). exists b'. simpl; auto. }
      destruct Q as (b & Hb & Fb & P1 & P2 & P3). rewrite P1. split; [exact Fb|]. exists u. split; [simpl; auto|]. intros y Hy. split; [|apply P3, Hy].
      rewrite <- S1. apply in_concat. eauto.
    - destruct (IH bss S3 R2 k w x Hw ltac:(cbn in *; lia) Hx) as (Q1 & v & Hv & Q2). split; [exact Q1|]. exists v. split; [right; exact Hv|exact Q2]. }
  intros k t x Ht Hk Hx. destruct (F k t x Ht Hk Hx) as (Fx & u & Hu & Q). split; [exact Fx|].
  destruct (s_subset (sob h x)) as [|y l] eqn:E; [apply fills_nonempty in Fx; congruence|]. destruct (Q y ltac:(simpl; auto)) as (Q1 & Q2).
  destruct (Fit u y Hu Q1) as (v & p & b & _ & _ & P1 & P2 & _ & _ & _ & _ & P3). assert (p = x) by congruence. subst p. exact P3.
Qed.
Definition levels (h : heap) (L : list oid) (a m : nat) : list (list oid) := map (fun k => flat_map (level h k) L) (List.seq a m).
Lemma levels_nth h L a m k l : nth_error (levels h L a m) k = Some l -> (k < m)%nat /\ l = flat_map (level h (a + k)) L.
Proof.
  unfold levels. revert a k. induction m as [|m IH]; intros a k Hl; [destruct k; discriminate|]. cbn [List.seq map] in Hl. destruct k as [|k].
  - cbn in Hl. injection Hl as <-. split; [lia|]. rewrite Nat.add_0_r. reflexivity.
  - cbn in Hl. apply IH in Hl. destruct Hl as [Q1 ->]. split; [lia|]. replace (S a + k)%nat with (a + S k)%nat by lia. reflexivity.
Qed.
Lemma level_concat h L k : concat (map (fun u => s_subset (sob h u)) (flat_map (level h k) L)) = flat_map (level h (S k)) L.
Proof. rewrite <- flat_concat, flat_flat. apply flat_map_ext. intros x. symmetry. apply level_snoc. Qed.
Lemma levels_rows h L : forall m a, (forall k u, (S k < a + m)%nat -> In u (flat_map (level h k) L) -> fills h u (s_subset (sob h u)) /\ brood h u) ->
  rows_ok h (levels h L a m).
Proof.
  induction m as [|m IH]; intros a F; [exact I|]. destruct m as [|m]; [exact I|].
  change (levels h L a (S (S m))) with (flat_map (level h a) L :: flat_map (level h (S a)) L :: levels h L (S (S a)) m). rewrite rows_cons.
  split; [apply level_concat|]. split; [intros u; apply F; lia|]. apply (IH (S a)). intros k u Hk. apply F. lia.
Qed.
Lemma levels_turn h L : in_turn h L -> (forall x, In x L -> dated h x) -> forall k,
  (forall j u, (j < k)%nat -> In u (flat_map (level h j) L) -> fills h u (s_subset (sob h u))) ->
  in_turn h (flat_map (level h k) L) /\ forall y, In y (flat_map (level h k) L) -> dated h y.
Proof.
  intros T D. induction k as [|k IH]; intros F.
  - assert (E : flat_map (level h 0) L = L) by (cbn [level]; clear; induction L; cbn; [reflexivity|f_equal; auto]). rewrite E. auto.
  - rewrite <- level_concat, <- flat_concat. apply turn_kids; [apply IH; intros j u Hj; apply F; lia|]. intros u. apply F. lia.
Qed.

(** ** Adding the tiers one by one *)
Definition selfsame (h h' : heap) : Prop :=
  h_cls h' = h_cls h /\ (List.length (h_seq h) <= List.length (h_seq h'))%nat /\ forall i, live h i -> same_self (sob h i) (sob h' i).
Lemma self_trans a b c : selfsame a b -> selfsame b c -> selfsame a c.
Proof.
  intros (A1 & A2 & A3) (B1 & B2 & B3). split; [congruence|]. split; [lia|]. intros i Li. destruct (A3 i Li) as (P1 & P2 & P3 & P4 & P5 & P6).
  destruct (B3 i) as (Q1 & Q2 & Q3 & Q4 & Q5 & Q6); [unfold live in *; lia|]. unfold same_self. repeat (split; [congruence|]). congruence.
Qed.
Lemma self_point h h' x : selfsame h h' -> live h x -> is_point h' x = is_point h x.
Proof. intros (A1 & _ & A3) Lx. unfold is_point. destruct (A3 x Lx) as (-> & _). apply issubclass_ext, A1. Qed.
Lemma self_timed h h' x : selfsame h h' -> live h x -> timed_both h x -> timed_both h' x.
Proof.
  intros S Lx (A & B). pose proof (self_point h h' x S Lx) as P. destruct S as (_ & _ & S). destruct (S x Lx) as (_ & E1 & E2 & _). split; [congruence|].
  unfold end_at in *. rewrite P, E1, E2. exact B.
Qed.
Lemma self_linkable h h' c l : selfsame h h' -> linkable h c l -> linkable h' c l.
Proof.
  intros (A1 & A2 & A3) (N & Q). split; [exact N|]. intros x Hx. destruct (Q x Hx) as (Q1 & Q2 & Q3). destruct (A3 x Q1) as (E1 & _ & _ & E2 & _).
  split; [lia|]. split; congruence.
Qed.
Lemma self_value h h' x y : selfsame h h' -> live h x -> live h y -> same_value h' x y -> same_value h x y.
Proof.
  intros S Lx Ly (A & B & C & D). rewrite (self_point h h' x S Lx), (self_point h h' y S Ly) in A. rewrite (self_point h h' x S Lx) in D.
  destruct S as (_ & _ & S). destruct (S x Lx) as (_ & X1 & X2 & X3 & _). destruct (S y Ly) as (_ & Y1 & Y2 & Y3 & _).
  split; [exact A|]. split; [congruence|]. split; [congruence|]. intros P. specialize (D P). congruence.
Qed.
Lemma self_dated h h' x : selfsame h h' -> live h x -> dated h x -> dated h' x.
Proof. intros (_ & _ & S) Lx (A & B & C). destruct (S x Lx) as (_ & E1 & E2 & _). unfold dated, span_of in *. rewrite E1, E2. auto. Qed.
Lemma self_turn h h' l : selfsame h h' -> (forall x, In x l -> live h x) -> in_turn h l -> in_turn h' l.
Proof.
  intros (_ & _ & S) Lv T i j x y Hij Hx Hy. destruct (T i j x y Hij Hx Hy) as (e & s & E1 & E2 & Le).
  destruct (S x) as (_ & _ & Q1 & _); [apply Lv; eapply nth_error_In; eauto|]. destruct (S y) as (_ & Q2 & _); [apply Lv; eapply nth_error_In; eauto|].
  exists e, s. split; [congruence|]. split; [congruence|exact Le].
Qed.
Lemma self_sorted h h' l : selfsame h h' -> (forall x, In x l -> live h x) -> sorted_starts h l -> sorted_starts h' l.
Proof.
  intros (_ & _ & S) Lv T i j x y Hij Hx Hy. destruct (T i j x y Hij Hx Hy) as (e & s & E1 & E2 & Le).
  destruct (S x) as (_ & Q1 & _); [apply Lv; eapply nth_error_In; eauto|]. destruct (S y) as (_ & Q2 & _); [apply Lv; eapply nth_error_In; eauto|].
  exists e, s. split; [congruence|]. split; [congruence|exact Le].
Qed.
Lemma self_filed h h' x : selfsame h h' -> live h x -> filed h x -> filed h' x.
Proof.
  intros S Lx F p Hp. pose proof S as (A1 & A2 & A3). destruct (A3 x Lx) as (_ & _ & _ & _ & E & _). rewrite E in Hp.
  destruct (F p Hp) as (P1 & P2 & P3 & (N & B)). destruct (A3 p P1) as (_ & _ & _ & _ & _ & Ep). unfold brood. rewrite Ep. split; [lia|]. split; [exact P2|]. split; [exact P3|].
  split; [exact N|]. intros y Hy. destruct (B y Hy) as (B1 & B2 & B3 & B4). destruct (A3 y B1) as (Y1 & _ & _ & Y2 & Y3 & _).
  split; [lia|]. split; [congruence|]. split; [congruence|]. intros z Hz. destruct (B4 z Hz) as (B5 & B6). destruct (B z Hz) as (Z1 & _). destruct (A3 z Z1) as (Z2 & _).
  split; [congruence|]. intros V. apply B6. apply (self_value h h'); auto.
Qed.
Definition rowed (h : heap) (t u : tid) (l : list oid) : Prop :=
  tlive h t /\ tlive h u /\ steady h t (t_ec (tob h t)) /\ steady h u (t_ec (tob h t)) /\ t_seq (tob h t) <> [] /\
  issubclass h (t_ec (tob h t)) cInterval = true /\ issubclass h (t_ec (tob h t)) cPoint = false /\
  superset_class h (t_ec (tob h t)) <> None /\
  Permutation l (t_seq (tob h t) ++ t_seq (tob h u)) /\ in_turn h l /\ forall x, In x l -> dated h x.
Lemma steady_self h h' t c : selfsame h h' -> tob h' t = tob h t -> steady h t c -> steady h' t c.
Proof.
  intros S E (A & B & C & D & F). unfold steady. rewrite E. split; [exact A|]. split; [apply (self_linkable h h'); auto|].
  split; [apply (self_sorted h h'); auto; intros x Hx; apply B, Hx|]. split; [exact D|]. intros x Hx. apply (self_timed h h'); auto. apply B, Hx.
Qed.
Lemma rowed_live h t u l x : rowed h t u l -> In x l -> live h x /\ s_cls (sob h x) = t_ec (tob h t) /\ s_label (sob h x) <> "#"%string.
Proof.
  intros (_ & _ & (_ & (_ & A) & _) & (_ & (_ & B) & _) & _ & _ & _ & _ & P & _) Hx. apply (Permutation_in _ P), in_app_iff in Hx. destruct Hx as [Hx|Hx]; [apply (A x Hx)|apply (B x Hx)].
Qed.
Lemma rowed_self h h' t u l : selfsame h h' -> (List.length (h_tier h) <= List.length (h_tier h'))%nat -> tob h' t = tob h t -> tob h' u = tob h u -> rowed h t u l -> rowed h' t u l.
Proof.
  intros S Lt Et Eu R. pose proof R as (R1 & R2 & R3 & R4 & R5 & R6 & R7 & R8 & R9 & R10 & R11). pose proof (fun x => rowed_live h t u l x R) as Lv.
  unfold rowed. rewrite Et, Eu. split; [unfold tlive in *; lia|]. split; [unfold tlive in *; lia|].
  split; [apply (steady_self h h'); auto|]. split; [apply (steady_self h h'); auto|]. split; [exact R5|].
  destruct S as (Sc & S2 & S3). rewrite !(issubclass_ext h h') by exact Sc. split; [exact R6|]. split; [exact R7|].
  split; [unfold superset_class, cob in *; rewrite Sc; exact R8|]. split; [exact R9|].
  split; [apply (self_turn h h'); [split; auto|intros x Hx; apply Lv, Hx|exact R10]|]. intros x Hx. apply (self_dated h h'); [split; auto|apply Lv, Hx|auto].
Qed.
Fixpoint rowed_all (h : heap) (ts us : list tid) (ls : list (list oid)) : Prop :=
  match ts, us, ls with
  | t :: ts', u :: us', l :: ls' => rowed h t u l /\ rowed_all h ts' us' ls'
  | [], [], [] => True
  | _, _, _ => False
  end.
(** The tier [n] has the row [l]. *)
Definition has_row (h : heap) (c : cid) (l : list oid) (n : tid) : Prop :=
  t_seq (tob h n) = l /\ plain_tier h n c /\ (forall x, In x l -> s_intier (sob h x) = Some n) /\ chained h l /\
  (forall sc, superset_class h c = Some sc -> issubclass h sc cTop = true -> forall x, In x l -> s_within (sob h x) = Some (WTier n)).
Fixpoint have_rows (h : heap) (cs : list cid) (ls : list (list oid)) (ns : list tid) : Prop :=
  match cs, ls, ns with
  | c :: cs', l :: ls', n :: ns' => has_row h c l n /\ have_rows h cs' ls' ns'
  | [], [], [] => True
  | _, _, _ => False
  end.
Definition tiers_added (l : list oid) (h h' : heap) : Prop :=
  selfsame h h' /\ (forall i, live h i -> ~ In i l -> sob h' i = sob h i) /\
  (forall i, (List.length (h_seq h) <= i < List.length (h_seq h'))%nat -> is_boundary h' i) /\
  h_grp h' = h_grp h /\ h_grid h' = h_grid h /\ (List.length (h_tier h) <= List.length (h_tier h'))%nat /\
  (forall t, tlive h t -> tob h' t = tob h t).
Lemma all_kept_listed (l k : list oid) (P : oid -> Prop) : (forall x, In x l -> P x) -> keep_if P l k -> k = l.
Proof.
  intros Hp K. induction K as [|x l k Px K IH|x l k Px K IH]; [reflexivity| |].
  - f_equal. apply IH. intros y Hy. apply Hp. simpl; auto.
  - destruct Px. apply Hp. simpl; auto.
Qed.
Lemma add_one h t u l : rowed h t u l -> exists n h', tier_add t u h = Ok n h' /\ n = List.length (h_tier h) /\ List.length (h_tier h') = S n /\
  has_row h' (t_ec (tob h t)) l n /\ tiers_added l h h'.
Proof.
  intros R. pose proof R as (R1 & R2 & R3 & R4 & R5 & R6 & R7 & R8 & R9 & R10 & R11). pose proof (fun x => rowed_live h t u l x R) as Lv.
  destruct (superset_class h (t_ec (tob h t))) as [sc|] eqn:Hsc; [|congruence]. set (c := t_ec (tob h t)) in *.
  destruct (c48_add h t u c c sc R3 R4 R5 R6 R7 R6 R7) as (n & h' & k & E & Kp & P & (O1 & O2 & O3) & Pt & Dt & Wi & (A1 & A2 & A3 & A4 & A5 & A6 & A7 & A8 & A9)).
  { left. apply sub_refl. }
  { exact Hsc. }
  assert (Nd : NoDup (t_seq (tob h t) ++ t_seq (tob h u))).
  { apply NoDup_ListNoDup. eapply Permutation_NoDup; [exact R9|]. apply NoDup_ListNoDup. apply (turn_nodup h); auto. }
  assert (Ek : k = t_seq (tob h u)).
  { apply (all_kept_listed _ _ _) with (2 := Kp). intros x Hx (y & Hy & V). apply NoDup_app in Nd. destruct Nd as (_ & Nd & _).
    assert (Hxl : In x l) by (apply (Permutation_in _ (Permutation_sym R9)), in_app_iff; auto). assert (Hyl : In y l) by (apply (Permutation_in _ (Permutation_sym R9)), in_app_iff; auto).
    assert (Q : y = x); [|subst y; apply (Nd x); apply elem_of_list_In; auto]. destruct V as [V|(_ & V & _)]; [exact V|]. apply (turn_starts h l); auto. }
  subst k.
  assert (Ss : selfsame h h').
  { split; [exact A7|]. split; [exact A5|]. intros i Li. destruct (in_dec Nat.eq_dec i (t_seq (tob h t) ++ t_seq (tob h u))) as [Q|Q]; [|rewrite A4 by auto; unfold same_self; auto 10].
    assert (Hi : In i (t_seq (tob h' n))) by (apply (Permutation_in _ (Permutation_sym P) Q)). destruct (Dt i Hi) as (D1 & D2 & D3 & D4 & D5 & D6).
    destruct (Lv i) as (_ & Ci & _); [apply (Permutation_in _ (Permutation_sym R9) Q)|]. unfold same_self. split; [rewrite D1, Ci; reflexivity|]. auto 10. }
  assert (Es : t_seq (tob h' n) = l).
  { apply (sorted_once h' l); [apply (self_turn h h'); auto; intros x Hx; apply Lv, Hx|intros x Hx; apply (self_dated h h'); auto; apply Lv, Hx|exact O1|].
    rewrite P. symmetry. exact R9. }
  exists n, h'. split; [exact E|]. split; [exact A1|]. split; [exact A2|]. split.
  - unfold has_row. rewrite Es in *. split; [reflexivity|]. split; [exact Pt|]. split; [exact O3|]. split; [exact O2|]. intros sc' Hs Ht. apply Wi.
    unfold superset_class, cob in Hs, Hsc. rewrite A7 in Hs. assert (sc' = sc) by congruence. subst sc'. rewrite (issubclass_ext h h') in Ht by exact A7. exact Ht.
  - split; [exact Ss|]. split; [|split; [exact A6|split; [exact A8|split; [exact A9|split; [lia|intros w Hw; apply A3; unfold tlive in Hw; lia]]]]].
    intros i Li Ni. apply A4; [exact Li|]. intros Q. apply Ni, (Permutation_in _ (Permutation_sym R9) Q).
Qed.
Lemma added_trans l1 l2 a b c : tiers_added l1 a b -> tiers_added l2 b c -> (forall i, In i l2 -> s_label (sob b i) <> "#"%string) -> tiers_added (l1 ++ l2) a c.
Proof.
  intros (A1 & A2 & A3 & A4 & A5 & A6 & A7) (B1 & B2 & B3 & B4 & B5 & B6 & B7) Nb. pose proof A1 as (_ & La & _). pose proof B1 as (_ & Lb & _).
  split; [eapply self_trans; eauto|]. split; [|split; [|split; [congruence|split; [congruence|split; [lia|]]]]].
  - intros i Li Ni. rewrite B2, A2; auto; try (intros Q; apply Ni, in_app_iff; auto). unfold live in *; lia.
  - intros i Li. destruct (decide (i < List.length (h_seq b))%nat) as [Q|Q]; [|apply B3; lia].
    destruct (A3 i ltac:(lia)) as (Q1 & Q2 & Q3). split; [lia|]. rewrite B2; auto. intros Q4. exact (Nb i Q4 Q2).
  - intros t Ht. rewrite B7, A7; auto. unfold tlive in *. lia.
Qed.
Lemma row_kept l h h' c m n : tiers_added l h h' -> (forall i, In i l -> s_label (sob h i) <> "#"%string) -> tlive h n -> (forall x, In x m -> live h x /\ ~ In x l) ->
  has_row h c m n -> has_row h' c m n.
Proof.
  intros ((S1 & S2 & S3) & A2 & A3 & A4 & A5 & A6 & A7) Nb Ln Hm (R1 & R2 & R3 & R4 & R5).
  assert (Bd : forall k, is_boundary h k -> is_boundary h' k).
  { intros k (K1 & K2 & K3). split; [lia|]. rewrite A2; [auto|exact K1|]. intros Q. exact (Nb k Q K2). }
  unfold has_row, plain_tier, superset_class, subset_class, class_name, cob in *. rewrite A7, S1 by exact Ln. split; [exact R1|]. split; [exact R2|].
  split; [intros x Hx; destruct (Hm x Hx); rewrite A2 by auto; auto|]. split.
  - destruct R4 as (C1 & C2 & C3). assert (Es : forall x, In x m -> sob h' x = sob h x) by (intros x Hx; destruct (Hm x Hx); apply A2; auto). split; [|split].
    + intros i a b Ha Hb. rewrite !Es by (eapply nth_error_In; eauto). eapply C1; eauto.
    + intros a Ha. rewrite Es by (eapply nth_error_In; eauto). destruct (C2 a Ha) as (k & K1 & K2). eauto.
    + intros a Ha. rewrite Es by (eapply nth_error_In; eauto). destruct (C3 a Ha) as (k & K1 & K2). eauto.
  - intros sc Hs Ht x Hx. destruct (Hm x Hx) as [Q1 Q2]. rewrite A2 by auto. apply (R5 sc); auto. rewrite (issubclass_ext h h') in Ht by exact S1. exact Ht.
Qed.
Lemma rowed_tiers h : forall ts us ls, rowed_all h ts us ls -> forall w, In w (ts ++ us) -> tlive h w.
Proof.
  induction ts as [|t ts IH]; intros us ls R w Hw; destruct us as [|u us]; destruct ls as [|l ls]; try contradiction.
  destruct R as [R1 R2]. cbn [app] in Hw. destruct Hw as [->|Hw]; [apply R1|]. apply in_app_iff in Hw. destruct Hw as [Hw|[->|Hw]]; [|apply R1|]; apply (IH us ls R2), in_app_iff; auto.
Qed.
Lemma zip_ok : forall ts us ls h, rowed_all h ts us ls -> NoDup (map (fun t => t_ec (tob h t)) ts) ->
  exists ns h', zip_add ts us h = Ok ns h' /\ have_rows h' (map (fun t => t_ec (tob h t)) ts) ls ns /\ tiers_added (concat ls) h h' /\
    (forall n, In n ns -> (List.length (h_tier h) <= n < List.length (h_tier h'))%nat).
Proof.
  induction ts as [|t ts IH]; intros us ls h R N.
  - destruct us; [|destruct R]. destruct ls; [|destruct R]. exists [], h. split; [reflexivity|]. split; [exact I|]. split; [|intros n []].
    split; [split; [reflexivity|split; [lia|intros; unfold same_self; auto 10]]|]. split; [auto|]. split; [intros i Hi; lia|]. auto 10.
  - destruct us as [|u us]; [destruct R|]. destruct ls as [|l ls]; [destruct R|]. destruct R as [R1 R2].
    cbn [map] in N. apply NoDup_cons in N. destruct N as [Nt N].
    destruct (add_one h t u l R1) as (n & h1 & E1 & En & Ln & Hr & Ad). pose proof Ad as (Ss & A2 & A3 & A4 & A5 & A6 & A7).
    pose proof (rowed_tiers h ts us ls R2) as Lt.
    assert (R2' : rowed_all h1 ts us ls).
    { clear -R2 Ss A6 A7 Lt. revert us ls R2 Lt. induction ts as [|t ts IH]; intros us ls R2 Lt; destruct us as [|u us]; destruct ls as [|l ls]; try contradiction; [exact I|].
      destruct R2 as [R1 R2]. split; [apply (rowed_self h h1); auto; apply A7; apply R1|]. apply IH; auto. intros w Hw. apply Lt. apply in_app_iff in Hw. cbn [app].
      destruct Hw; right; apply in_app_iff; simpl; auto. }
    assert (Em : map (fun w => t_ec (tob h1 w)) ts = map (fun w => t_ec (tob h w)) ts).
    { apply map_ext_in. intros w Hw. rewrite A7; [reflexivity|]. apply Lt, in_app_iff; auto. }
    destruct (IH us ls h1 R2') as (ns & h' & E2 & Hr2 & Ad2 & Nn); [rewrite Em; exact N|].
    assert (Cx : forall x, In x (concat ls) -> exists w, In w ts /\ s_cls (sob h x) = t_ec (tob h w) /\ s_cls (sob h1 x) = t_ec (tob h w) /\ s_label (sob h1 x) <> "#"%string).
    { intros x Hx. apply in_concat in Hx. destruct Hx as (m & Hm & Hx). clear -R2 Ss Hm Hx. revert us ls R2 Hm. induction ts as [|t ts IH]; intros us ls R2 Hm; destruct us as [|u us]; destruct ls as [|l ls]; try contradiction.
      destruct R2 as [R1 R2]. destruct Hm as [->|Hm].
      - exists t. destruct (rowed_live h t u m x R1 Hx) as (Q1 & Q2 & Q3). destruct Ss as (_ & _ & Ss). destruct (Ss x Q1) as (P1 & _ & _ & P2 & _). split; [simpl; auto|]. split; [exact Q2|]. split; congruence.
      - destruct (IH us ls R2 Hm) as (w & Hw & Q). exists w. split; [simpl; auto|exact Q]. }
    assert (Nb : forall i, In i (concat ls) -> s_label (sob h1 i) <> "#"%string) by (intros i Hi; destruct (Cx i Hi) as (w & _ & _ & _ & Q); exact Q).
    exists (n :: ns), h'. split; [|split; [|split]].
    + cbn [zip_add]. rewrite (bind_ok _ _ _ _ _ E1), (bind_ok _ _ _ _ _ E2). reflexivity.
    + cbn [map have_rows]. rewrite <- Em. split; [|exact Hr2]. apply (row_kept (concat ls) h1 h'); auto; [unfold tlive; lia|].
      intros x Hx. destruct (rowed_live h t u l x R1 Hx) as (Q1 & Q2 & _). split; [destruct Ss as (_ & Q & _); unfold live in *; lia|]. intros Q. destruct (Cx x Q) as (w & Hw & Q3 & _).
      apply Nt. apply elem_of_list_In, in_map_iff. exists w. split; [congruence|exact Hw].
    + cbn [concat]. eapply added_trans; eauto.
    + destruct Ad2 as (_ & _ & _ & _ & _ & L2 & _). intros w [<-|Hw]; [lia|]. specialize (Nn w Hw). lia.
Qed.

(** ** The new group *)
Lemma have_nth h : forall cs ls ns, have_rows h cs ls ns -> List.length ls = List.length cs /\ List.length ns = List.length cs /\
  forall k n, nth_error ns k = Some n -> exists c l, nth_error cs k = Some c /\ nth_error ls k = Some l /\ has_row h c l n.
Proof.
  induction cs as [|c cs IH]; intros ls ns R; destruct ls as [|l ls]; destruct ns as [|n ns]; try contradiction.
  - split; [reflexivity|]. split; [reflexivity|]. intros k n Hn. destruct k; discriminate.
  - destruct R as [R1 R2]. destruct (IH ls ns R2) as (L1 & L2 & Q). split; [cbn; lia|]. split; [cbn; lia|]. intros k m Hm. destruct k as [|k].
    + injection Hm as <-. exists c, l. auto.
    + apply (Q k m Hm).
Qed.
Lemma chain_copy h h' : h_cls h' = h_cls h -> forall ts ns, Forall2 (fun t n => tlive h' n /\ t_ec (tob h' n) = t_ec (tob h t) /\
    t_super (tob h' n) = t_super (tob h t) /\ t_sub (tob h' n) = t_sub (tob h t)) ts ns ->
  (tier_chain h ts -> tier_chain h' ns) /\ (classes_joined h ts -> classes_joined h' ns).
Proof.
  intros Ec ts ns F.
  assert (Es : forall x y, issubclass h' x y = issubclass h x y) by (intros; apply issubclass_ext; auto).
  split.
  - intros (J & N & L & (a & A1 & c & A2 & A3) & (b & B1 & d & B2 & B3)). split; [|split; [|split; [|split]]].
    + clear -F J. revert J. induction F as [|t n ts ns (P1 & P2 & P3 & P4) F IH]; intros J; [exact I|]. destruct F as [|u m ts ns (Q1 & Q2 & Q3 & Q4) F]; [exact I|].
      destruct J as (J1 & J2 & J3). split; [congruence|]. split; [congruence|]. apply IH, J3.
    + assert (E : map (fun t => t_ec (tob h' t)) ns = map (fun t => t_ec (tob h t)) ts); [|rewrite E; exact N].
      clear -F. induction F as [|t n ts ns (P1 & P2 & P3 & P4) F IH]; [reflexivity|]. cbn [map]. congruence.
    + intros n Hn. destruct (Forall2_in_r _ _ _ n F Hn) as (t & Ht & P1 & P2 & _). destruct (L t Ht) as (_ & L2 & L3). rewrite P2, !Es. split; [exact P1|auto].
    + destruct (ReadMade.Forall2_hd _ _ _ a F A1) as (n & Hn & _ & _ & P3 & _). exists n. split; [exact Hn|]. exists c. rewrite Es. split; [congruence|exact A3].
    + destruct (ReadMade.Forall2_hd _ _ _ b (ReadMade.Forall2_rev' _ _ _ F) B1) as (n & Hn & _ & _ & _ & P4). exists n. split; [exact Hn|]. exists d. rewrite Es. split; [congruence|exact B3].
  - clear -F Ec. induction F as [|t n ts ns (P1 & P2 & P3 & P4) F IH]; intros J; [exact I|]. destruct F as [|u m ts ns (Q1 & Q2 & Q3 & Q4) F]; [exact I|].
    destruct J as (J1 & J2). split; [unfold subset_class, cob in *; rewrite Ec; congruence|]. apply IH, J2.
Qed.

Lemma nth_Forall2 {A B} (R : A -> B -> Prop) : forall l l', List.length l = List.length l' ->
  (forall k a b, nth_error l k = Some a -> nth_error l' k = Some b -> R a b) -> Forall2 R l l'.
Proof.
  induction l as [|a l IH]; intros [|b l'] E Q; try discriminate; constructor; [apply (Q 0%nat); reflexivity|].
  apply IH; [cbn in E; lia|]. intros k x y Hx Hy. apply (Q (S k)); auto.
Qed.
Lemma rowed_intro h : forall ts us ls, List.length us = List.length ts -> List.length ls = List.length ts ->
  (forall k t u l, nth_error ts k = Some t -> nth_error us k = Some u -> nth_error ls k = Some l -> rowed h t u l) -> rowed_all h ts us ls.
Proof.
  induction ts as [|t ts IH]; intros [|u us] [|l ls] E1 E2 Q; try discriminate; [exact I|]. split; [apply (Q 0%nat); reflexivity|].
  apply IH; [cbn in *; lia|cbn in *; lia|]. intros k a b c Ha Hb Hc. apply (Q (S k)); auto.
Qed.
Lemma grp_name_is g h : g_tiers (gob h g) <> [] -> glive h g -> exists nm h1, grp_name g h = Ok nm h1 /\
  h_cls h1 = h_cls h /\ h_seq h1 = h_seq h /\ h_tier h1 = h_tier h /\ h_grid h1 = h_grid h /\ List.length (h_grp h1) = List.length (h_grp h) /\
  (forall k, k <> g -> gob h1 k = gob h k) /\ gob h1 g = set_g_name nm (gob h g) /\
  (forall s, g_name (gob h g) = Some s -> s <> EmptyString -> nm = Some s).
Proof.
  intros Ne Lg. unfold grp_name. rewrite bind_get_grp. destruct (str_truthy (g_name (gob h g))) eqn:St.
  - exists (g_name (gob h g)), h. split; [reflexivity|]. do 5 (split; [reflexivity|]). split; [auto|]. split; [destruct (gob h g); reflexivity|auto].
  - assert (Mk : exists m, make_name g h = Ok m h).
    { unfold make_name. destruct (g_tiers (gob h g)) as [|t ts]; [congruence|]. cbn [map].
      match goal with |- context[if ?b then _ else _] => destruct b end; [eauto|].
      destruct (g_within _) as [[ | | |]|]; eauto. destruct (index_of _ _); eauto. }
    destruct Mk as [m Mk]. rewrite (bind_ok _ _ _ _ _ Mk). exists m, (upd_grp g (set_g_name m) h). split; [reflexivity|]. do 4 (split; [reflexivity|]).
    split; [unfold upd_grp; simpl; apply alter_length|]. split; [intros k Hk; apply gob_upd_ne; auto|]. split; [apply gob_upd_eq, Lg|].
    intros s Es Hs. rewrite Es in St. destruct s; [congruence|discriminate].
Qed.

Lemma in_removelast {A} (x : A) : forall l, In x (removelast l) -> exists k, nth_error l k = Some x /\ (S k < List.length l)%nat.
Proof.
  induction l as [|a [|b l] IH]; intros I; [destruct I|destruct I|]. change (removelast (a :: b :: l)) with (a :: removelast (b :: l)) in I. destruct I as [->|I].
  - exists 0%nat. cbn. split; [reflexivity|lia].
  - destruct (IH I) as (k & K1 & K2). exists (S k). split; [exact K1|cbn in *; lia].
Qed.

Lemma c56_add : forall n h g t r bss g2 t2 r2 bss2 L,
  good_group h g (t :: r) bss -> good_group h g2 (t2 :: r2) bss2 -> (forall u, In u (t :: r) \/ In u (t2 :: r2) -> settled h u) ->
  map (fun u => t_ec (tob h u)) (t :: r) = map (fun u => t_ec (tob h u)) (t2 :: r2) ->
  t_seq (tob h t) <> [] -> Permutation L (t_seq (tob h t) ++ t_seq (tob h t2)) -> in_turn h L ->
  exists g' ns h' bss', grp_add n g g2 h = Ok g' h' /\ good_group h' g' ns bss' /\ merged h h' L (t :: r) ns /\
    adds_group g g' (entries_of h (t :: r) ++ entries_of h (t2 :: r2)) h h'.
Proof.
  intros n h g t r bss g2 t2 r2 bss2 L GG GG2 St Ec Ne PL TL.
  pose proof GG as (G1 & G2 & G3 & G4 & G5 & G6 & G7 & G8 & G9 & G10). pose proof GG2 as (L1 & L2 & L3 & L4 & L5 & L6 & L7 & L8 & L9 & L10).
  set (ts := t :: r) in *. set (us := t2 :: r2) in *. set (m := List.length ts). set (ls := levels h L 0 m).
  assert (Elen : List.length us = List.length ts) by (apply (f_equal (@List.length cid)) in Ec; rewrite !map_length in Ec; auto).
  assert (Lls : List.length ls = m) by (unfold ls, levels; rewrite map_length, seq_length; reflexivity).
  assert (Ek : forall k a b, nth_error ts k = Some a -> nth_error us k = Some b -> t_ec (tob h b) = t_ec (tob h a)).
  { intros k a b Ha Hb. assert (Q1 := map_nth_error (fun u => t_ec (tob h u)) k ts Ha). assert (Q2 := map_nth_error (fun u => t_ec (tob h u)) k us Hb). rewrite Ec in Q1. congruence. }
  assert (Row : forall k a b, nth_error ts k = Some a -> nth_error us k = Some b -> Permutation (flat_map (level h k) L) (t_seq (tob h a) ++ t_seq (tob h b))).
  { intros k a b Ha Hb. rewrite (rows_levels h r bss t G7 G8 k a Ha), (rows_levels h r2 bss2 t2 L7 L8 k b Hb), <- flat_map_app. apply Permutation_flat_map, PL. }
  assert (Two : forall k, (k < m)%nat -> exists a b, nth_error ts k = Some a /\ nth_error us k = Some b).
  { intros k Hk. destruct (nth_error ts k) as [a|] eqn:Ha; [|apply nth_error_None in Ha; unfold m in Hk; lia].
    destruct (nth_error us k) as [b|] eqn:Hb; [|apply nth_error_None in Hb; unfold m in Hk; lia]. eauto. }
  assert (Fill : forall k u, (S k < m)%nat -> In u (flat_map (level h k) L) -> fills h u (s_subset (sob h u)) /\ brood h u).
  { intros k u Hk Hu. destruct (Two k ltac:(lia)) as (a & b & Ha & Hb). apply (Permutation_in _ (Row k a b Ha Hb)), in_app_iff in Hu.
    destruct Hu as [Hu|Hu]; [apply (row_filled h g ts bss GG k a u Ha Hk Hu)|apply (row_filled h g2 us bss2 GG2 k b u Hb ltac:(unfold m in Hk; lia) Hu)]. }
  assert (Dl : forall x, In x L -> dated h x).
  { intros x Hx. apply (Permutation_in _ PL), in_app_iff in Hx. destruct Hx as [Hx|Hx]; [apply (proj2 (G10 t eq_refl) x Hx)|apply (proj2 (L10 t2 eq_refl) x Hx)]. }
  assert (Turn : forall k, (k < m)%nat -> in_turn h (flat_map (level h k) L) /\ forall y, In y (flat_map (level h k) L) -> dated h y).
  { intros k Hk. apply levels_turn; auto. intros j u Hj. apply Fill. lia. }
  assert (NoP : forall a, In a ts -> issubclass h (t_ec (tob h a)) cPoint = false) by (intros a Ha; apply (G9 a Ha)).
  assert (Rw : rowed_all h ts us ls).
  { apply rowed_intro; [exact Elen|exact Lls|]. intros k a b l Ha Hb Hl. apply levels_nth in Hl. destruct Hl as (Hk & ->). cbn [Nat.add].
    assert (Ia : In a ts) by (eapply nth_error_In; eauto). assert (Ib : In b us) by (eapply nth_error_In; eauto).
    destruct (St a (or_introl Ia)) as (Sa1 & (Sa2 & _) & Sa3). destruct (St b (or_intror Ib)) as (Sb1 & _). destruct (Turn k Hk) as (T1 & T2).
    pose proof (Ek k a b Ha Hb) as Eb. pose proof (Row k a b Ha Hb) as Pk.
    assert (Std : forall w, (w = a \/ w = b) -> t_ec (tob h w) = t_ec (tob h a) -> linkable h (t_ec (tob h w)) (t_seq (tob h w)) -> classed h w -> in_turn h (t_seq (tob h w)) -> steady h w (t_ec (tob h a))).
    { intros w Hw Ew Lw Cw Tw. assert (Dw : forall x, In x (t_seq (tob h w)) -> dated h x).
      { intros x Hx. apply T2. apply (Permutation_in _ (Permutation_sym Pk)), in_app_iff. destruct Hw as [-> | ->]; auto. }
      split; [exact Ew|]. rewrite <- Ew. split; [exact Lw|]. split; [apply turn_sorted; auto|]. split; [exact Cw|].
      intros x Hx. destruct (Dw x Hx) as (D1 & D2 & _). split; [congruence|]. unfold end_at. destruct Lw as (_ & Q). destruct (Q x Hx) as (_ & C & _).
      rewrite (nonpoint h x _ C) by (rewrite Ew; apply NoP, Ia). congruence. }
    assert (Fl : forall w ws X y, (forall k u, (S k < m)%nat -> In u (flat_map (level h k) X) -> fills h u (s_subset (sob h u))) ->
       nth_error ws k = Some w -> t_seq (tob h w) = flat_map (level h k) X -> in_turn h X -> (forall x, In x X -> dated h x) -> y = w -> in_turn h (t_seq (tob h y))).
    { intros w ws X y Fx _ Ex Tx Dx ->. rewrite Ex. apply levels_turn; auto. intros j u Hj. apply Fx. lia. }
    split; [apply G5, Ia|]. split; [apply L5, Ib|].
    split; [|split; [|split; [|split; [exact Sa3|split; [apply NoP, Ia|split; [|split; [exact Pk|split; [exact T1|exact T2]]]]]]]].
    - apply Std; auto; [apply (G9 a Ia)|]. apply (Fl a ts (t_seq (tob h t)) a); auto; [|apply (rows_levels h r bss t G7 G8 k a Ha)|apply (G10 t eq_refl)|intros x Hx; apply (proj2 (G10 t eq_refl) x Hx)].
      intros j u Hj Hu. apply (Fill j u Hj). rewrite (Permutation_flat_map (level h j) PL), flat_map_app. apply in_app_iff; auto.
    - apply Std; auto; [apply (L9 b Ib)|]. apply (Fl b us (t_seq (tob h t2)) b); auto; [|apply (rows_levels h r2 bss2 t2 L7 L8 k b Hb)|apply (L10 t2 eq_refl)|intros x Hx; apply (proj2 (L10 t2 eq_refl) x Hx)].
      intros j u Hj Hu. apply (Fill j u Hj). rewrite (Permutation_flat_map (level h j) PL), flat_map_app. apply in_app_iff; auto.
    - apply (snug_inside h r bss t G7 ltac:(intros x Hx; apply (proj2 (G10 t eq_refl) x Hx)) a Ia). exact Ne.
    - rewrite <- Sa2. apply (GrowFinal.chain_super h ts G5 a Ia). }
  destruct (zip_ok ts us ls h Rw (proj1 (proj2 G5))) as (ns & h1 & Ez & Hv & Ad & Nn). pose proof Ad as (Ss & Z2 & Z3 & Z4 & Z5 & Z6 & Z7). pose proof Ss as (Sc & Sl & Sf).
  destruct (have_nth h1 _ ls ns Hv) as (_ & Lns & Hn). rewrite map_length in Lns.
  assert (Hk : forall k a w, nth_error ts k = Some a -> nth_error ns k = Some w -> has_row h1 (t_ec (tob h a)) (flat_map (level h k) L) w).
  { intros k a w Ha Hw. destruct (Hn k w Hw) as (c & l & Q1 & Q2 & Q3). assert (Q4 := map_nth_error (fun u => t_ec (tob h u)) k ts Ha). rewrite Q4 in Q1. injection Q1 as <-.
    apply levels_nth in Q2. destruct Q2 as (_ & ->). exact Q3. }
  assert (Fcp : Forall2 (fun a w => tlive h1 w /\ t_ec (tob h1 w) = t_ec (tob h a) /\ t_super (tob h1 w) = t_super (tob h a) /\ t_sub (tob h1 w) = t_sub (tob h a)) ts ns).
  { apply nth_Forall2; [auto|]. intros k a w Ha Hw. destruct (Hk k a w Ha Hw) as (_ & (P1 & P2 & P3 & P4 & P5 & P6) & _).
    destruct (St a (or_introl (nth_error_In _ _ Ha))) as (_ & (U1 & U2) & _). unfold superset_class, subset_class, cob in *. rewrite Sc in P4, P5.
    split; [apply (Nn w), (nth_error_In _ _ Hw)|]. split; [exact P1|]. split; congruence. }
  destruct (chain_copy h h1 Sc ts ns Fcp) as [Cc Cj].
  assert (Lrow : forall k y, (k < m)%nat -> In y (flat_map (level h k) L) -> live h y /\ filed h y /\ exists a, nth_error ts k = Some a /\ s_cls (sob h y) = t_ec (tob h a) /\ s_label (sob h y) <> "#"%string).
  { intros k y Hkm Hy. destruct (Two k Hkm) as (a & b & Ha & Hb). apply (Permutation_in _ (Row k a b Ha Hb)), in_app_iff in Hy. destruct Hy as [Hy|Hy].
    - destruct (good_fit h g ts bss GG a (nth_error_In _ _ Ha)) as ((_ & Q1) & _ & Q2). destruct (Q1 y Hy) as (Y1 & Y2 & Y3). split; [exact Y1|]. split; [apply Q2, Hy|]. exists a. auto.
    - destruct (good_fit h g2 us bss2 GG2 b (nth_error_In _ _ Hb)) as ((_ & Q1) & _ & Q2). destruct (Q1 y Hy) as (Y1 & Y2 & Y3). split; [exact Y1|]. split; [apply Q2, Hy|]. exists a.
      split; [exact Ha|]. split; [rewrite <- (Ek k a b Ha Hb); exact Y2|exact Y3]. }
  assert (Fit : forall w, In w ns -> fit_tier h1 w).
  { intros w Hw. destruct (In_nth_error _ _ Hw) as [k Hkw]. assert (Hkm : (k < m)%nat) by (assert (k < List.length ns)%nat by (apply nth_error_Some; congruence); unfold m; lia).
    destruct (Two k Hkm) as (a & b & Ha & Hb). destruct (Hk k a w Ha Hkw) as (R1 & (P1 & _) & _). unfold fit_tier. rewrite R1, P1.
    assert (Lv : forall y, In y (flat_map (level h k) L) -> live h y) by (intros y Hy; exact (proj1 (Lrow k y Hkm Hy))).
    split; [|split].
    - apply (self_linkable h h1 _ _ Ss). split; [apply (turn_nodup h); apply (Turn k Hkm)|]. intros y Hy. destruct (Lrow k y Hkm Hy) as (Y1 & _ & a' & Ha' & Y2). assert (a' = a) by congruence. subst a'. split; [exact Y1|exact Y2].
    - rewrite (issubclass_ext h h1) by exact Sc. apply NoP, (nth_error_In _ _ Ha).
    - intros y Hy. destruct (Lrow k y Hkm Hy) as (Y1 & Y2 & _). apply (self_filed h h1 y Ss Y1 Y2). }
  set (bss' := map (map (fun u => s_subset (sob h u))) (removelast ls)).
  assert (Rok : rows_ok h ls) by (apply levels_rows; intros k u Hku; apply Fill; exact Hku).
  assert (Nns : ns <> []) by (destruct ns; [cbn in Lns; discriminate|discriminate]).
  assert (Rown : forall k w l, nth_error ns k = Some w -> nth_error ls k = Some l -> t_seq (tob h1 w) = l).
  { intros k w l Hw Hl. destruct (Hn k w Hw) as (c & l' & _ & Q2 & Q3 & _). congruence. }
  assert (Sg : snug h1 ns bss').
  { apply (rows_snug h h1); auto; [intros i Li; destruct (Sf i Li) as (_ & Q1 & Q2 & _); auto|unfold m in Lls; lia|].
    intros l x Hl Hx. destruct (In_nth_error _ _ Hl) as [k Hkl]. apply levels_nth in Hkl. destruct Hkl as (Hkm & ->). exact (proj1 (Lrow k x Hkm Hx)). }
  assert (L0 : flat_map (level h 0) L = L) by (cbn [level]; clear; induction L; cbn; [reflexivity|f_equal; auto]).
  assert (Top : forall w, hd_error ns = Some w -> t_seq (tob h1 w) = L).
  { intros w Hw. destruct (Hk 0%nat t w eq_refl) as (R1 & _); [destruct ns; exact Hw|]. rewrite L0 in R1. exact R1. }
  assert (LvL : forall x, In x L -> live h x) by (intros x Hx; rewrite <- L0 in Hx; exact (proj1 (Lrow 0%nat x ltac:(unfold m, ts; cbn; lia) Hx))).
  destruct (c49_new n h1 ns ns bss' (Permutation_refl _) (Cc G5) (Cj G6) Fit Sg) as (g' & h2 & En & Gd & An & Eg & Lg & Go & Um).
  { intros w Hw. rewrite (Top w Hw). split; [apply (self_turn h h1); auto|]. intros x Hx. apply (self_dated h h1); auto. }
  pose proof An as (N1 & N2 & N3 & N4 & N5 & N6 & N7 & N8 & N9 & N10). rewrite Z4 in Eg.
  assert (Gg : gob h2 g = gob h g) by (rewrite Go by lia; unfold gob; rewrite Z4; reflexivity).
  destruct (grp_name_is g h2) as (nm & h3 & E3 & M1 & M2 & M3 & M4 & M5 & M6 & M7 & M8).
  { rewrite Gg, G3. discriminate. }
  { unfold glive. lia. }
  set (h4 := upd_grp g' (set_g_name nm) h3).
  assert (Lg' : glive h3 g') by (unfold glive; lia).
  assert (O1 : h_cls h4 = h_cls h2) by exact M1. assert (O2 : h_seq h4 = h_seq h2) by exact M2. assert (O3 : h_tier h4 = h_tier h2) by exact M3. assert (O4 : h_grid h4 = h_grid h2) by exact M4.
  assert (O5 : forall k, k <> g' -> gob h4 k = gob h3 k) by (intros k Q; apply gob_upd_ne; auto).
  assert (O6 : gob h4 g' = set_g_name nm (gob h2 g')) by (unfold h4; rewrite gob_upd_eq by exact Lg'; rewrite M6 by lia; reflexivity).
  assert (So : forall i, sob h4 i = sob h2 i) by (intros i; unfold sob; rewrite O2; reflexivity).
  assert (To : forall i, tob h4 i = tob h2 i) by (intros i; unfold tob; rewrite O3; reflexivity).
  exists g', ns, h4, bss'.
  assert (Rel : related_tiers h2 ns bss') by apply Gd.
  assert (Rown2 : forall k w l, nth_error ns k = Some w -> nth_error ls k = Some l -> t_seq (tob h2 w) = l).
  { intros k w l Hw Hl. rewrite N9 by (eapply nth_error_In; eauto). apply (Rown k w l Hw Hl). }
  pose proof (rows_related h ns ls h2 Rel ltac:(unfold m in Lls; lia) Rown2) as Rr.
  assert (Lk : forall k, (k < m)%nat -> nth_error ls k = Some (flat_map (level h k) L)).
  { intros k Hkm. destruct (nth_error ls k) as [l|] eqn:Q; [|apply nth_error_None in Q; lia]. apply levels_nth in Q. destruct Q as (_ & ->). reflexivity. }
  assert (Ent : forall i, In i (entries_of h ts ++ entries_of h us) <-> exists k, (k < m)%nat /\ In i (flat_map (level h k) L)).
  { intros i. rewrite in_app_iff. unfold entries_of. rewrite !in_flat_map. split.
    - intros [(a & Ia & Hi)|(b & Ib & Hi)].
      + destruct (In_nth_error _ _ Ia) as [k Ha]. assert (Hkm : (k < m)%nat) by (apply nth_error_Some; congruence). destruct (Two k Hkm) as (a' & b & Ha' & Hb).
        exists k. split; [exact Hkm|]. apply (Permutation_in _ (Permutation_sym (Row k a b Ha Hb))), in_app_iff. auto.
      + destruct (In_nth_error _ _ Ib) as [k Hb]. assert (Hkm : (k < m)%nat) by (unfold m; rewrite <- Elen; apply nth_error_Some; congruence). destruct (Two k Hkm) as (a & b' & Ha & Hb').
        exists k. split; [exact Hkm|]. apply (Permutation_in _ (Permutation_sym (Row k a b Ha Hb))), in_app_iff. auto.
    - intros (k & Hkm & Hi). destruct (Two k Hkm) as (a & b & Ha & Hb). apply (Permutation_in _ (Row k a b Ha Hb)), in_app_iff in Hi.
      destruct Hi as [Hi|Hi]; [left; exists a|right; exists b]; (split; [eapply nth_error_In; eauto|exact Hi]). }
  assert (Sup : forall k x, (k < m)%nat -> In x (flat_map (level h k) L) -> k = 0%nat /\ s_super (sob h x) = None \/
     exists p j, k = S j /\ In p (flat_map (level h j) L) /\ In x (s_subset (sob h p)) /\ s_super (sob h x) = Some p).
  { intros k x Hkm Hx. destruct k as [|j].
    - left. split; [reflexivity|]. rewrite L0 in Hx. apply (Permutation_in _ PL), in_app_iff in Hx.
      destruct Hx as [Hx|Hx]; [apply (proj2 (G10 t eq_refl) x Hx)|apply (proj2 (L10 t2 eq_refl) x Hx)].
    - right. rewrite <- level_concat in Hx. apply in_concat in Hx. destruct Hx as (b & Hb & Hx). apply in_map_iff in Hb. destruct Hb as (p & <- & Hp).
      exists p, j. split; [reflexivity|]. split; [exact Hp|]. split; [exact Hx|]. apply (Fill j p Hkm Hp), Hx. }
  assert (Sub1 : forall i, live h i -> s_super (sob h1 i) = s_super (sob h i) /\ s_subset (sob h1 i) = s_subset (sob h i)) by (intros i Li; destruct (Sf i Li) as (_ & _ & _ & _ & Q1 & Q2); auto).
  assert (Rin : forall w x, In w ns -> In x (t_seq (tob h1 w)) -> exists k, (k < m)%nat /\ nth_error ns k = Some w /\ In x (flat_map (level h k) L)).
  { intros w x Hw Hx. destruct (In_nth_error _ _ Hw) as [k Hkw]. assert (Hkm : (k < m)%nat) by (assert (k < List.length ns)%nat by (apply nth_error_Some; congruence); unfold m; lia).
    destruct (Two k Hkm) as (a & b & Ha & Hb). destruct (Hk k a w Ha Hkw) as (R1 & _). rewrite R1 in Hx. eauto. }
  assert (Inv : forall i, involved h1 ns i -> exists k, (k < m)%nat /\ In i (flat_map (level h k) L)).
  { intros i (w & x & Hw & Hx & Hi). destruct (Rin w x Hw Hx) as (k & Hkm & _ & Hxk). destruct Hi as [-> |(p & Hp & Hi)]; [eauto|].
    rewrite (proj1 (Sub1 x (proj1 (Lrow k x Hkm Hxk)))) in Hp. destruct (Sup k x Hkm Hxk) as [(_ & Q)|(p' & j & -> & Q1 & Q2 & Q3)]; [congruence|].
    assert (p' = p) by congruence. subst p'. destruct Hi as [-> |Hi]; [exists j; split; [lia|exact Q1]|].
    rewrite (proj2 (Sub1 p (proj1 (Lrow j p ltac:(lia) Q1)))) in Hi. exists (S j). split; [exact Hkm|]. rewrite <- level_concat. apply in_concat. exists (s_subset (sob h p)). split; [apply (in_map (fun u => s_subset (sob h u)) _ _ Q1)|exact Hi]. }
  assert (SS : forall i, live h1 i -> same_self (sob h1 i) (sob h2 i)).
  { intros i Li. destruct (N1 i Li) as (A1 & A2 & A3 & A4 & _). split; [exact A1|]. split; [exact A2|]. split; [exact A3|]. split; [exact A4|].
    destruct (in_dec Nat.eq_dec i (entries_of h ts ++ entries_of h us)) as [I|I].
    - apply Ent in I. destruct I as (k & Hkm & Hi). pose proof (proj1 (Lrow k i Hkm Hi)) as Lhi. destruct (Sub1 i Lhi) as (S1 & S2). rewrite S1, S2. split.
      + destruct (Sup k i Hkm Hi) as [(-> & Q)|(p & j & -> & Q1 & Q2 & Q3)].
        * rewrite Q. destruct Gd as (_ & _ & _ & _ & _ & _ & _ & _ & _ & Gt). destruct ns as [|w ns']; [congruence|]. apply (proj2 (Gt w eq_refl)).
          rewrite N9 by (simpl; auto). simpl. rewrite (Top w eq_refl), <- L0. exact Hi.
        * rewrite Q3. destruct (Rr j _ p (Lk j ltac:(lia)) ltac:(lia) Q1) as (_ & Q). apply Q, Q2.
      + destruct (in_dec Nat.eq_dec i (flat_map (fun j => flat_map (level h j) L) (List.seq 0 (m - 1)))) as [J|J].
        * apply in_flat_map in J. destruct J as (j & Hj & Hij). apply in_seq in Hj. apply (Rr j _ i (Lk j ltac:(lia)) ltac:(lia) Hij).
        * rewrite N10; [exact S2|exact Li| |].
          -- intros w Hw Hx. destruct (in_removelast w ns Hw) as (j & J1 & J2). apply J. apply in_flat_map. exists j. split; [apply in_seq; unfold m; lia|].
             rewrite <- (Rown j w _ J1 (Lk j ltac:(unfold m; lia))). exact Hx.
          -- intros w x Hw Hx Q. destruct (Rin w x Hw Hx) as (j & Hj & _ & Hxj). rewrite (proj1 (Sub1 x (proj1 (Lrow j x Hj Hxj)))) in Q.
             destruct (Sup j x Hj Hxj) as [(_ & Q')|(p & j' & -> & Q1 & Q2 & Q3)]; [congruence|]. assert (p = i) by congruence. subst p.
             apply J. apply in_flat_map. exists j'. split; [apply in_seq; lia|exact Q1].
    - rewrite (N2 i Li) by (intros V; apply I, Ent, Inv, V). auto. }
  assert (Bd : forall k, is_boundary h1 k -> is_boundary h2 k).
  { intros k (B1 & B2 & B3 & B4 & B5 & B6). destruct (SS k B1) as (Q1 & Q2 & Q3 & Q4 & Q5 & Q6). unfold is_boundary. rewrite Q2, Q3, Q4, Q5, Q6. repeat (split; [first [assumption|lia]|]). exact B6. }
  assert (Bd4 : forall k, is_boundary h2 k -> is_boundary h4 k) by (intros k; unfold is_boundary; rewrite So, O2; auto).
  assert (Cl : h_cls h4 = h_cls h) by (rewrite O1, N5; exact Sc).
  split; [|split; [|split]].
  - unfold grp_add. assert (Ck : class_check g g2 h = Ok tt h).
    { unfold class_check. rewrite G3, L3, Elen, Nat.eqb_refl. unfold grp_class_names. rewrite G3, L3. rewrite <- !(map_map (fun u => t_ec (tob h u)) (class_name h)), Ec. rewrite bool_decide_true by reflexivity. reflexivity. }
    rewrite (bind_ok _ _ _ _ _ Ck), bind_get_grp, bind_get_grp, G3, L3, (bind_ok _ _ _ _ _ Ez), G2, (bind_ok _ _ _ _ _ En), (bind_ok _ _ _ _ _ E3). reflexivity.
  - apply (good_same h2 h4); auto; try (rewrite O6; reflexivity).
    + unfold h4, upd_grp; simpl. rewrite alter_length. exact Lg'.
    + rewrite O3. reflexivity.
    + rewrite O2. lia.
    + intros w x _ _. rewrite So. split; [apply GroupFinal.kept_refl|auto].
    + intros w x _ _. rewrite So. reflexivity.
    + intros x y. apply issubclass_ext, O1.
    + apply (classes_joined_same h2 h4); [exact O1|intros w _; rewrite To; reflexivity|apply Gd].
  - split; [exact Lns|]. split.
    + intros k a w Ha Hw. destruct (Hk k a w Ha Hw) as (R1 & (P1 & P2 & P3 & P4 & P5 & P6) & R3 & R4 & R5). pose proof (nth_error_In _ _ Hw) as Iw.
      split; [apply (Nn w Iw)|]. assert (Ew : tob h4 w = set_t_within (Some (WGroup g')) (tob h1 w)) by (rewrite To; apply N9, Iw).
      assert (Ex : forall c, superset_class h4 c = superset_class h1 c /\ subset_class h4 c = subset_class h1 c) by (intros c; unfold superset_class, subset_class, cob; rewrite Cl, Sc; auto).
      unfold housed, classed, up_to_date. rewrite Ew. simpl. rewrite R1, P1, P4, P5, P6. destruct (Ex (t_ec (tob h a))) as (-> & ->).
      split; [reflexivity|]. split; [|split; [auto|]].
      * split; [auto|]. intros y Hy. rewrite So. destruct (N1 y) as (_ & _ & _ & _ & ->); [|apply R3, Hy].
        assert (Hkm : (k < m)%nat) by (apply nth_error_Some; congruence). pose proof (proj1 (Lrow k y Hkm Hy)). unfold live in *. lia.
      * split; [reflexivity|]. rewrite P2. unfold class_name, cob. rewrite Sc. reflexivity.
    + intros w Hw. assert (Hw0 : nth_error ns 0 = Some w) by (destruct ns; exact Hw). destruct (Hk 0%nat t w eq_refl Hw0) as (R1 & (P1 & P2 & P3 & P4 & P5 & P6) & R3 & R4 & R5). rewrite L0 in *.
      rewrite To, N9 by (eapply nth_error_In; eauto). simpl. rewrite R1.
      assert (Um' : forall x, In x L -> unmoved (sob h1 x) (sob h2 x)).
      { intros x Hx. apply (Um w x Hw); [rewrite R1; exact Hx|]. rewrite (proj1 (Sub1 x (LvL x Hx))). destruct (Sup 0%nat x) as [(_ & Q)|(p & j & Q & _)]; [unfold m, ts; cbn; lia|rewrite L0; exact Hx|exact Q|discriminate]. }
      split.
      * eapply chained_ext; [| |exact R4].
        -- intros x Hx. rewrite So. destruct (Um' x Hx) as (_ & Q2 & Q3). auto.
        -- intros k B. apply Bd4, Bd, B.
      * intros x Hx. rewrite So. destruct (Um' x Hx) as (-> & _). destruct G5 as (_ & _ & _ & (a & A1 & c & A2 & A3) & _). injection A1 as <-.
        destruct (St t (or_introl (or_introl eq_refl))) as (_ & (U1 & _) & _). apply (R5 c); [unfold superset_class, cob; rewrite Sc; rewrite <- A2; symmetry; exact U1|rewrite (issubclass_ext h h1) by exact Sc; exact A3|exact Hx].
  - split; [|split; [|split; [|split; [|split; [exact Cl|split; [rewrite O4, N6; exact Z5|split; [|split; [exact Eg|split; [|split; [|split; [|split]]]]]]]]]]].
    + intros i Li. rewrite So. destruct (Sf i Li) as (Q1 & Q2 & Q3 & Q4 & Q5 & Q6). destruct (SS i ltac:(unfold live; lia)) as (V1 & V2 & V3 & V4 & V5 & V6). unfold same_self. repeat (split; [congruence|]). congruence.
    + intros i Li Ni. rewrite So. rewrite N2; [|lia|intros V; apply Ni, Ent, Inv, V]. apply Z2; [exact Li|]. intros Q. apply in_concat in Q. destruct Q as (l & Q1 & Q2).
      destruct (In_nth_error _ _ Q1) as [k Q3]. apply levels_nth in Q3. destruct Q3 as (Q3 & ->). apply Ni, Ent. exists k. auto.
    + rewrite O2. lia.
    + rewrite O2. intros i Li. apply Bd4. destruct (Nat.lt_ge_cases i (List.length (h_seq h1))) as [Q|Q]; [apply Bd, (Z3 i); lia|apply (N4 i); lia].
    + intros w Lw. rewrite To, N8; [apply Z7, Lw|]. intros Q. apply Nn in Q. lia.
    + unfold h4, upd_grp; simpl. rewrite alter_length. lia.
    + intros k Hkg Hn'. rewrite O5, M6 by lia. rewrite Go by lia. unfold gob. rewrite Z4. reflexivity.
    + rewrite O5 by lia. rewrite M7, Gg. reflexivity.
    + rewrite O6, O5, M7 by lia. reflexivity.
    + intros s Es Hs. rewrite O5 by lia. rewrite M7. simpl. apply (M8 s); [rewrite Gg; exact Es|exact Hs].
Qed.
Lemma c56_classes : forall n h g g2, grp_class_names h g <> grp_class_names h g2 -> grp_add n g g2 h = Raise ValueError h.
Proof.
  intros n h g g2 N. unfold grp_add. assert (Ck : class_check g g2 h = Raise ValueError h).
  { unfold class_check. rewrite (bool_decide_false _ N), andb_false_r. reflexivity. }
  rewrite (bind_raise _ _ _ _ _ Ck). reflexivity.
Qed.
End WithEnv.
