(** * AccessFinal: proofs about indexing and loops. *)
From Verif Require Import TreeProofs AdoptProofs AssignProofs TreeFinal LookupFinal AccessSpec.
From Verif Require OwnFinal.
Open Scope Z_scope.

(** ** C57: loops *)
Section Loops.
Context `{Env}.
Lemma set_cur_eq x i w : w_cur (set_cur x i w) x = i.
Proof. unfold set_cur; simpl. rewrite Nat.eqb_refl. reflexivity. Qed.
Lemma set_cur_ne x y i w : y <> x -> w_cur (set_cur x i w) y = w_cur w y.
Proof. intros N. unfold set_cur; simpl. rewrite (proj2 (Nat.eqb_neq y x) N). reflexivity. Qed.
Lemma go_visits {A} x (body : oid -> W A) l : minds x body -> forall l1 l2 w n, l = (l1 ++ l2)%list -> s_subset (sob (w_heap w) x) = l -> w_cur w x = List.length l1 ->
  (List.length l2 < n)%nat ->
  match go_on n x body w with
  | WOk r w' => map fst r = l2 /\ w_cur w' x = List.length l /\ s_subset (sob (w_heap w') x) = l
  | WRaise e w' => exists y w1, In y l2 /\ body y w1 = WRaise e w'
  end.
Proof.
  intros Mi l1 l2. revert l1. induction l2 as [|y l2 IH]; intros l1 w n El Es Ec Hn; (destruct n as [|n]; [lia|]); cbn [go_on]; unfold iter_next; rewrite Es, Ec, El.
  - rewrite nth_error_app2, Nat.sub_diag by lia. cbn. rewrite Es, Ec, El, app_nil_r. auto.
  - rewrite nth_error_app2, Nat.sub_diag by lia. cbn [nth_error].
    destruct (body y (set_cur x (S (List.length l1)) w)) as [v w2|e w2] eqn:Eb; [|exists y; eexists; split; [simpl; auto|exact Eb]].
    destruct (Mi _ _ _ _ Eb) as (K1 & K2). rewrite set_cur_eq in K1. change (w_heap (set_cur x (S (List.length l1)) w)) with (w_heap w) in K2. rewrite Es in K2.
    specialize (IH (l1 ++ [y])%list w2 n). rewrite <- app_assoc in IH. specialize (IH El K2). rewrite app_length in IH. cbn [List.length] in IH. specialize (IH ltac:(lia) ltac:(cbn in Hn; lia)).
    destruct (go_on n x body w2) as [r w3|e w3].
    + destruct IH as (I1 & I2 & I3). cbn [map fst]. rewrite I1, <- El. auto.
    + destruct IH as (z & w1 & Iz & Ez). exists z, w1. simpl; auto.
Qed.
Lemma for_visits {A} x (body : oid -> W A) w n : minds x body -> (List.length (s_subset (sob (w_heap w) x)) < n)%nat ->
  match for_in n x body w with
  | WOk r w' => map fst r = s_subset (sob (w_heap w) x) /\ w_cur w' x = List.length (s_subset (sob (w_heap w) x)) /\ s_subset (sob (w_heap w') x) = s_subset (sob (w_heap w) x)
  | WRaise e w' => exists y w1, In y (s_subset (sob (w_heap w) x)) /\ body y w1 = WRaise e w'
  end.
Proof. intros Mi Hn. apply (go_visits x body (s_subset (sob (w_heap w) x)) Mi [] (s_subset (sob (w_heap w) x))); auto. unfold iter_start. apply set_cur_eq. Qed.
Lemma go_ok {A} (P : oid -> A -> Prop) (I : walk -> Prop) x (body : oid -> W A) l :
  (forall y w v w', In y l -> I w -> body y w = WOk v w' -> w_cur w' x = w_cur w x /\ I w' /\ P y v) ->
  (forall w i, I w -> I (set_cur x i w)) -> (forall w, I w -> s_subset (sob (w_heap w) x) = l) ->
  forall n l2 l1 w r w', l = (l1 ++ l2)%list -> I w -> w_cur w x = List.length l1 -> go_on n x body w = WOk r w' ->
  map fst r = l2 /\ Forall (fun p => P (fst p) (snd p)) r /\ I w'.
Proof.
  intros Hb Hc Hs. induction n as [|n IH]; intros l2 l1 w r w' El Iw Ec E; [discriminate|]. cbn [go_on] in E. unfold iter_next in E.
  rewrite (Hs w Iw), Ec, El, nth_error_app2, Nat.sub_diag in E by lia. destruct l2 as [|y l2]; cbn [nth_error] in E.
  - injection E as <- <-. auto.
  - destruct (body y (set_cur x (S (List.length l1)) w)) as [v w2|e w2] eqn:Eb; [|discriminate].
    destruct (go_on n x body w2) as [r3 w3|e w3] eqn:Eg; [|discriminate]. injection E as <- <-.
    assert (Iy : In y l) by (rewrite El; apply in_app_iff; simpl; auto).
    destruct (Hb y _ v w2 Iy (Hc w _ Iw) Eb) as (K1 & K2 & K3). rewrite set_cur_eq in K1.
    destruct (IH l2 (l1 ++ [y])%list w2 r3 w3) as (R1 & R2 & R3); auto; [rewrite <- app_assoc; exact El|rewrite app_length; cbn; lia|].
    cbn [map fst]. rewrite R1. auto.
Qed.
End Loops.

Section WithEnv.
Context `{Env}.
Lemma c57_loop : forall (B : Type) x (body : oid -> W B) w n, minds x body -> (List.length (s_subset (sob (w_heap w) x)) < n)%nat ->
  match for_in n x body w with
  | WOk r _ => map fst r = s_subset (sob (w_heap w) x)
  | WRaise e w' => exists y w1, In y (s_subset (sob (w_heap w) x)) /\ body y w1 = WRaise e w'
  end.
Proof.
  intros B x body w n Mi Hn. pose proof (for_visits x body w n Mi Hn) as Q. destruct (for_in n x body w); [apply Q|exact Q].
Qed.
Lemma c57_below : forall (B : Type) x (f : oid -> oid -> W B) w n r w', ~ In x (s_subset (sob (w_heap w) x)) ->
  (forall a y v w1 w2, f a y w1 = WOk v w2 -> w_cur w2 x = w_cur w1 x /\ w_cur w2 a = w_cur w1 a /\
     forall z, s_subset (sob (w_heap w2) z) = s_subset (sob (w_heap w1) z)) ->
  for_in n x (fun a => for_in n a (f a)) w = WOk r w' ->
  map (fun p => (fst p, map fst (snd p))) r = map (fun a => (a, s_subset (sob (w_heap w) a))) (s_subset (sob (w_heap w) x)).
Proof.
  intros B x f w n r w' Nx Hf E. set (sub := fun z => s_subset (sob (w_heap w) z)).
  pose (I0 := fun w1 : walk => forall z, s_subset (sob (w_heap w1) z) = sub z).
  destruct (go_ok (fun a v => map fst v = sub a) I0 x (fun a => for_in n a (f a)) (sub x)) with (n := n) (l2 := sub x) (l1 := @nil oid) (w := iter_start x w) (r := r) (w' := w') as (R1 & R2 & _).
  - intros a w1 v w2 Ia I1 Ea. assert (Na : a <> x) by (intros ->; exact (Nx Ia)).
    pose (I1' := fun w3 : walk => I0 w3 /\ w_cur w3 x = w_cur w1 x).
    destruct (go_ok (fun _ _ => True) I1' a (f a) (sub a)) with (n := n) (l2 := sub a) (l1 := @nil oid) (w := iter_start a w1) (r := v) (w' := w2) as (Q1 & _ & Q2 & Q3).
    + intros y w3 v3 w4 _ (J1 & J2) Ey. destruct (Hf _ _ _ _ _ Ey) as (K1 & K2 & K3). split; [exact K2|]. split; [|exact I].
      split; [intros z; rewrite K3; apply J1|congruence].
    + intros w3 i (J1 & J2). split; [exact J1|]. rewrite set_cur_ne by auto. exact J2.
    + intros w3 (J1 & _). apply J1.
    + reflexivity.
    + split; [exact I1|]. unfold iter_start. apply set_cur_ne. auto.
    + apply set_cur_eq.
    + exact Ea.
    + auto.
  - intros w1 i I1. exact I1.
  - intros w1 I1. apply I1.
  - reflexivity.
  - intros z. reflexivity.
  - apply set_cur_eq.
  - exact E.
  - fold (sub x). rewrite <- R1. clear -R2. induction r as [|[a v] r IH]; [reflexivity|]. inversion R2 as [|p q P1 P2]; subst. cbn [map fst snd] in *. rewrite P1. f_equal. apply IH, P2.
Qed.
Lemma c57_nested : forall (B : Type) x (f : oid -> oid -> W B) w n r w', (forall a, minds x (f a)) -> (List.length (s_subset (sob (w_heap w) x)) < n)%nat ->
  for_in n x (fun a => for_in n x (f a)) w = WOk r w' ->
  map (fun p => (fst p, map fst (snd p))) r = match s_subset (sob (w_heap w) x) with [] => [] | a :: _ => [(a, s_subset (sob (w_heap w) x))] end.
Proof.
  intros B x f w n r w' Mi Hn E. destruct n as [|n]; [lia|]. unfold for_in at 1 in E. cbn [go_on] in E. unfold iter_next in E.
  change (w_heap (iter_start x w)) with (w_heap w) in E. assert (Ec : w_cur (iter_start x w) x = 0%nat) by apply set_cur_eq. rewrite Ec in E.
  destruct (s_subset (sob (w_heap w) x)) as [|a l] eqn:Es; [injection E as <- <-; reflexivity|]. cbn [nth_error] in E.
  set (w1 := set_cur x 1 (iter_start x w)) in *. 
  pose proof (for_visits x (f a) w1 (S n) (Mi a)) as Q. change (w_heap w1) with (w_heap w) in Q. rewrite Es in Q. specialize (Q Hn).
  destruct (for_in (S n) x (f a) w1) as [v w2|e w2] eqn:E2; [|discriminate]. destruct Q as (Q1 & Q2 & Q3).
  destruct n as [|n]; [cbn in Hn; lia|]. cbn [go_on] in E. unfold iter_next in E. rewrite Q3, Q2 in E. rewrite (proj2 (nth_error_None _ _)) in E by auto.
  injection E as <- <-. cbn [map fst snd]. rewrite Q1. reflexivity.
Qed.

Lemma evens_odds {A} : forall l : list A, Permutation l (evens l ++ odds l).
Proof.
  induction l as [|a l IH]; [constructor|]. cbn [evens odds app]. constructor. rewrite IH at 1. apply Permutation_app_comm.
Qed.
Lemma split_unique {A} (y : A) : forall l1 k1 l2 k2, (l1 ++ y :: l2)%list = (k1 ++ y :: k2)%list -> ~ In y (k1 ++ k2) -> l1 = k1 /\ l2 = k2.
Proof.
  induction l1 as [|a l1 IH]; intros [|b k1] l2 k2 E N; cbn [app] in *.
  - injection E as ->. auto.
  - injection E as -> ->. destruct N. simpl; auto.
  - injection E as -> <-. destruct N. apply in_app_iff. simpl; auto.
  - injection E as -> E. destruct (IH k1 l2 k2 E) as (-> & ->); [intros I; apply N; simpl; auto|]. auto.
Qed.
(** A loop that pops what it visits. *)
Lemma pop_walk K x : forall n l2 l1 w, inv_but nowhere K nowhere (w_heap w) -> s_subset (sob (w_heap w) x) = (l1 ++ l2)%list -> w_cur w x = List.length l1 ->
  (List.length l2 < n)%nat ->
  exists r w', go_on n x (fun y => lift (seq_pop x y)) w = WOk r w' /\ map fst r = evens l2 /\ s_subset (sob (w_heap w') x) = (l1 ++ odds l2)%list.
Proof.
  induction n as [|n IH]; intros l2 l1 w R Es Ec Hn; [lia|]. cbn [go_on]. unfold iter_next. rewrite Es, Ec, nth_error_app2, Nat.sub_diag by lia.
  destruct l2 as [|y l2]; cbn [nth_error].
  - exists [], w. auto.
  - assert (Iy : In y (s_subset (sob (w_heap w) x))) by (rewrite Es; apply in_app_iff; simpl; auto).
    destruct (removal K (w_heap w) x y R Iy (seq_pop x y) ltac:(simpl; auto)) as (h' & E' & (_ & (k1 & k2 & D1 & D2 & D3) & _) & _ & R' & _).
    rewrite Es in D1. destruct (split_unique y _ _ _ _ D1 D3) as (<- & <-).
    unfold lift at 1. change (w_heap (set_cur x (S (List.length l1)) w)) with (w_heap w). rewrite E'.
    set (w2 := Walk h' _). destruct l2 as [|z l2].
    + destruct n as [|n]; [cbn in Hn; lia|]. cbn [go_on]. unfold iter_next. change (w_heap w2) with h'. rewrite D2, app_nil_r.
      replace (w_cur w2 x) with (S (List.length l1)) by (symmetry; apply set_cur_eq). rewrite (proj2 (nth_error_None l1 _)) by lia.
      exists [(y, tt)], w2. split; [reflexivity|]. split; [reflexivity|]. change (w_heap w2) with h'. rewrite D2. reflexivity.
    + destruct (IH l2 (l1 ++ [z])%list w2) as (r & w' & G1 & G2 & G3).
      * exact R'.
      * change (w_heap w2) with h'. rewrite D2, <- app_assoc. reflexivity.
      * rewrite app_length. cbn [List.length]. replace (w_cur w2 x) with (S (List.length l1)) by (symmetry; apply set_cur_eq). lia.
      * cbn in Hn. lia.
      * rewrite G1. exists ((y, tt) :: r), w'. split; [reflexivity|]. cbn [map fst evens odds]. rewrite G2, G3, <- app_assoc. auto.
Qed.
Lemma c57_pop : forall K only w x n, reach K only (w_heap w) -> (List.length (s_subset (sob (w_heap w) x)) < n)%nat ->
  exists r w', for_in n x (fun y => lift (seq_pop x y)) w = WOk r w' /\ map fst r = evens (s_subset (sob (w_heap w) x)) /\
    s_subset (sob (w_heap w') x) = odds (s_subset (sob (w_heap w) x)).
Proof.
  intros K only w x n R Hn. apply (pop_walk K x n (s_subset (sob (w_heap w) x)) [] (iter_start x w)); auto; [exact (inv_reach K only _ R)|apply set_cur_eq].
Qed.

(** ** C58: indexing *)
Lemma index_numbered {A} (l : list A) i x : numbered l i x -> py_index l i = Some x.
Proof.
  unfold py_index. intros [(P & E)|(P & Q & E)].
  - rewrite (proj2 (Z.leb_le 0 i) P). exact E.
  - rewrite (proj2 (Z.leb_gt 0 i) P), (proj2 (Z.leb_le _ i)) by lia. exact E.
Qed.
Lemma index_out {A} (l : list A) i : out_of_range l i -> py_index l i = None.
Proof.
  unfold py_index. intros [P|P].
  - rewrite (proj2 (Z.leb_le 0 i)) by lia. apply nth_error_None. lia.
  - rewrite (proj2 (Z.leb_gt 0 i)), (proj2 (Z.leb_gt _ i)) by lia. reflexivity.
Qed.
Lemma numbered_nat {A} (l : list A) i x : nth_error l i = Some x -> numbered l (Z.of_nat i) x.
Proof. intros E. left. split; [lia|]. rewrite Nat2Z.id. exact E. Qed.
Lemma c58_numbers : forall h i,
  (forall t x, numbered (t_seq (tob h t)) i x -> tier_get t (IInt i) h = Ok (VEntry x) h /\ tier_get t (INumpy i) h = Ok (VEntry x) h) /\
  (forall g t, numbered (g_tiers (gob h g)) i t -> grp_get g (IInt i) h = Ok (VTier t) h) /\
  (forall a g, numbered (a_groups (aob h a)) i g -> grid_get a (IInt i) h = Ok (VGroup g) h) /\
  (forall t, out_of_range (t_seq (tob h t)) i -> tier_get t (IInt i) h = Raise IndexError h) /\
  (forall g, out_of_range (g_tiers (gob h g)) i -> grp_get g (IInt i) h = Raise IndexError h) /\
  (forall a, out_of_range (a_groups (aob h a)) i -> grid_get a (IInt i) h = Raise IndexError h).
Proof.
  intros h i. repeat split; intros; unfold tier_get, grp_get, grid_get; change (get_grid) with (fun a => gets (fun h => aob h a)); cbv beta; rewrite ?bind_get_tier, ?bind_get_grp, ?bind_gets; cbn [list_get];
    rewrite ?(index_numbered _ _ _ ltac:(eassumption)), ?(index_out _ _ ltac:(eassumption)); reflexivity.
Qed.
Lemma zip_read {A B C} (f : A -> B -> M C) (R : B -> C -> Prop) h : forall l k, Forall2 (fun x y => exists z, f x y h = Ok z h /\ R y z) l k ->
  exists r, zipM f l k h = Ok r h /\ Forall2 R k r.
Proof.
  induction 1 as [|x y l k (z & E & Q) F IH]; [exists []; split; [reflexivity|constructor]|]. destruct IH as (r & E2 & F2).
  exists (z :: r). cbn [zipM]. rewrite (bind_ok _ _ _ _ _ E), (bind_ok _ _ _ _ _ E2). split; [reflexivity|constructor; auto].
Qed.
Lemma zip_raises {A B C} (f : A -> B -> M C) h e : forall l k, Forall2 (fun x y => f x y h = Raise e h \/ exists z, f x y h = Ok z h) l k ->
  (exists i x y, nth_error l i = Some x /\ nth_error k i = Some y /\ f x y h = Raise e h) -> zipM f l k h = Raise e h.
Proof.
  induction 1 as [|x y l k D F IH]; intros (i & a & b & Ha & Hb & E); [destruct i; discriminate|]. cbn [zipM]. destruct D as [D|(z & D)].
  - rewrite (bind_raise _ _ _ _ _ D). reflexivity.
  - rewrite (bind_ok _ _ _ _ _ D). destruct i as [|i]; [cbn in Ha, Hb; injection Ha as <-; injection Hb as <-; congruence|].
    rewrite (bind_raise _ _ _ _ _ (IH ltac:(exists i, a, b; auto))). reflexivity.
Qed.

Lemma answer_found h pts z t r : answer h pts z t r -> (pts = false -> exists x, In x (t_seq (tob h t)) /\ holds_at h x z) ->
  exists x, tier_get t (answer_index pts r) h = Ok (VEntry x) h /\ stands_at h pts z t x.
Proof.
  unfold answer, stands_at. intros A Ne. destruct pts.
  - destruct A as (i & -> & x & a & E & Ea & Q). exists x. split.
    + cbn [answer_index]. apply (proj1 (c58_numbers h (Z.of_nat i)) t x). apply numbered_nat, E.
    + split; [eapply nth_error_In; eauto|]. intros y a' b Iy E1 E2. destruct (In_nth_error _ _ Iy) as [j Hj]. assert (a' = a) by congruence. subst a'. apply (Q j y b Hj E2).
  - destruct A as (A1 & A2). destruct r as [i|].
    + destruct (proj1 (A1 i) eq_refl) as (x & Ex & Hx). exists x. split; [|split; [eapply nth_error_In; eauto|exact Hx]].
      cbn [answer_index]. apply (proj1 (c58_numbers h (Z.of_nat i)) t x). apply numbered_nat, Ex.
    + destruct (Ne eq_refl) as (x & Ix & Hx). destruct (proj1 A2 eq_refl x Ix Hx).
Qed.
Lemma combine_map {A B C D} (f : A -> B) (g : B * C -> D) : forall (l : list A) (r : list C),
  map g (combine (map f l) r) = map (fun p => g (f (fst p), snd p)) (combine l r).
Proof. induction l as [|a l IH]; intros [|c r]; cbn; [reflexivity|reflexivity|reflexivity|]. f_equal. apply IH. Qed.
Lemma Forall2_combine {A B C} (g : A * B -> C) (R : C -> A -> Prop) : forall l r, Forall2 (fun a b => R (g (a, b)) a) l r -> Forall2 R (map g (combine l r)) l.
Proof. induction 1; cbn; constructor; auto. Qed.
Lemma Forall2_mono {A B} (R Q : A -> B -> Prop) : forall l k, (forall x y, In x l -> R x y -> Q x y) -> Forall2 R l k -> Forall2 Q l k.
Proof. intros l k I F. induction F; constructor; [apply I; simpl; auto|]. apply IHF. intros a b Ha. apply I. simpl; auto. Qed.
Lemma Forall2_mapl {A B C} (f : A -> C) (R : C -> B -> Prop) l k : Forall2 (fun a b => R (f a) b) l k -> Forall2 R (map f l) k.
Proof. induction 1; cbn; constructor; auto. Qed.
Lemma Forall2_swap {A B} (R : A -> B -> Prop) l k : Forall2 R l k -> Forall2 (fun b a => R a b) k l.
Proof. induction 1; constructor; auto. Qed.
Lemma Forall2_len {A B} (R : A -> B -> Prop) l k : Forall2 R l k -> List.length l = List.length k.
Proof. induction 1; cbn; auto. Qed.
Lemma grp_found h z g r : askable h z g -> Forall2 (answer h (g_points (gob h g)) z) (g_tiers (gob h g)) r ->
  (g_points (gob h g) = false -> forall t, In t (g_tiers (gob h g)) -> exists x, In x (t_seq (tob h t)) /\ holds_at h x z) ->
  exists xs, grp_get g (IList (map (answer_index (g_points (gob h g))) r)) h = Ok (VList (map VEntry xs)) h /\
    Forall2 (stands_at h (g_points (gob h g)) z) (g_tiers (gob h g)) xs.
Proof.
  intros _ F Ne. unfold grp_get. rewrite bind_get_grp. rewrite map_length, <- (Forall2_len _ _ _ F), Nat.eqb_refl. cbn [negb].
  destruct (zip_read (fun x t => tier_get t x) (fun t v => exists x, v = VEntry x /\ stands_at h (g_points (gob h g)) z t x) h
     (map (answer_index (g_points (gob h g))) r) (g_tiers (gob h g))) as (vs & Ev & Fv).
  - apply Forall2_mapl, Forall2_swap. eapply Forall2_mono; [|exact F]. intros t a It Q. cbv beta.
    destruct (answer_found h _ z t a Q ltac:(intros E; apply Ne; auto)) as (x & E & S). exists (VEntry x). split; [exact E|eauto].
  - rewrite (bind_ok _ _ _ _ _ Ev). clear -Fv. assert (Q : exists xs, vs = map VEntry xs /\ Forall2 (stands_at h (g_points (gob h g)) z) (g_tiers (gob h g)) xs).
    { induction Fv as [|t v ts vs (x & -> & S) F (xs & -> & Q)]; [exists []; split; [reflexivity|constructor]|]. exists (x :: xs). split; [reflexivity|constructor; auto]. }
    destruct Q as (xs & -> & Q). exists xs. split; [reflexivity|exact Q].
Qed.
Lemma c58_at_time : forall h a z, a_groups (aob h a) <> [] -> (forall g, In g (a_groups (aob h a)) -> askable h z g) ->
  (forall g t, In g (a_groups (aob h a)) -> g_points (gob h g) = false -> In t (g_tiers (gob h g)) -> exists x, In x (t_seq (tob h t)) /\ holds_at h x z) ->
  exists xss, grid_get_at_time a z h = Ok (VList (map (fun xs => VList (map VEntry xs)) xss)) h /\
    Forall2 (fun g => Forall2 (stands_at h (g_points (gob h g)) z) (g_tiers (gob h g))) (a_groups (aob h a)) xss.
Proof.
  intros h a z Ng As Ne. destruct (c44_grid h z a As) as (r & Er & F). unfold grid_get_at_time. rewrite (bind_ok _ _ _ _ _ Er).
  change (get_grid a) with (gets (fun h => aob h a)). rewrite bind_gets, bind_gets. unfold grid_get. change (get_grid a) with (gets (fun h => aob h a)). rewrite bind_gets.
  pose proof (Forall2_len _ _ _ F) as Ln. rewrite map_length, combine_length, map_length, <- Ln, Nat.min_id, Nat.eqb_refl. cbn [negb]. rewrite combine_map. cbn [fst snd].
  destruct (zip_read (fun x g => grp_get g x) (fun g v => exists xs, v = VList (map VEntry xs) /\ Forall2 (stands_at h (g_points (gob h g)) z) (g_tiers (gob h g)) xs) h
     (map (fun p => IList (map (answer_index (g_points (gob h (fst p)))) (snd p))) (combine (a_groups (aob h a)) r)) (a_groups (aob h a))) as (vs & Ev & Fv).
  { apply Forall2_combine. cbn [fst snd]. eapply Forall2_mono; [|exact F]. intros g k Ig Q. cbv beta.
    destruct (grp_found h z g k (As g Ig) Q ltac:(intros E t It; apply (Ne g t Ig E It))) as (xs & E & S). eexists. split; [exact E|]. exists xs. auto. }
  destruct (a_groups (aob h a)) as [|g gs] eqn:Eg; [congruence|]. destruct r as [|k r]; [discriminate|]. cbn [combine map].
  cbn [combine map] in Ev. rewrite (bind_ok _ _ _ _ _ Ev). clear -Fv.
  assert (Q : exists xss, vs = map (fun xs => VList (map VEntry xs)) xss /\ Forall2 (fun g => Forall2 (stands_at h (g_points (gob h g)) z) (g_tiers (gob h g))) (g :: gs) xss).
  { induction Fv as [|k v ks vs (xs & -> & S) F (xss & -> & Q)]; [exists []; split; [reflexivity|constructor]|]. exists (xs :: xss). split; [reflexivity|constructor; auto]. }
  destruct Q as (xss & -> & Q). exists xss. split; [reflexivity|exact Q].
Qed.
Lemma c58_gap : forall h a z g t, (forall g, In g (a_groups (aob h a)) -> askable h z g) ->
  In g (a_groups (aob h a)) -> g_points (gob h g) = false -> In t (g_tiers (gob h g)) -> (forall x, In x (t_seq (tob h t)) -> ~ holds_at h x z) ->
  grid_get_at_time a z h = Raise TypeError h.
Proof.
  intros h a z g t As Ig Pg It Nt. destruct (c44_grid h z a As) as (r & Er & F). unfold grid_get_at_time. rewrite (bind_ok _ _ _ _ _ Er).
  change (get_grid a) with (gets (fun h => aob h a)). rewrite bind_gets, bind_gets. unfold grid_get. change (get_grid a) with (gets (fun h => aob h a)). rewrite bind_gets.
  pose proof (Forall2_len _ _ _ F) as Ln. rewrite map_length, combine_length, map_length, <- Ln, Nat.min_id, Nat.eqb_refl. cbn [negb]. rewrite combine_map. cbn [fst snd].
  set (ix := fun p : gid * list (option nat) => IList (map (answer_index (g_points (gob h (fst p)))) (snd p))).
  assert (One : forall k pts u o, In k (a_groups (aob h a)) -> pts = g_points (gob h k) -> In u (g_tiers (gob h k)) -> answer h pts z u o ->
     tier_get u (answer_index pts o) h = Raise TypeError h \/ exists v, tier_get u (answer_index pts o) h = Ok v h).
  { intros k pts u o Ik -> Iu A. destruct o as [i|].
    - right. assert (Q : exists x, nth_error (t_seq (tob h u)) i = Some x).
      { unfold answer in A. destruct (g_points (gob h k)); [destruct A as (j & [= <-] & x & b & E & _); eauto|destruct (proj1 (proj1 A i) eq_refl) as (x & E & _); eauto]. }
      destruct Q as (x & E). exists (VEntry x). pose proof (proj1 (c58_numbers h (Z.of_nat i)) u x (numbered_nat _ _ _ E)) as (Q1 & Q2). cbn [answer_index]. destruct (g_points (gob h k)); assumption.
    - left. unfold tier_get. rewrite bind_get_tier. reflexivity. }
  assert (Z : zipM (fun x g => grp_get g x) (map ix (combine (a_groups (aob h a)) r)) (a_groups (aob h a)) h = Raise TypeError h).
  { apply zip_raises.
    - apply Forall2_combine. eapply Forall2_mono; [|exact F]. intros k o Ik Q. unfold ix. cbn [fst snd]. unfold grp_get. rewrite bind_get_grp.
      rewrite map_length, <- (Forall2_len _ _ _ Q), Nat.eqb_refl. cbn [negb].
      assert (D : Forall2 (fun x t0 => tier_get t0 x h = Raise TypeError h \/ exists v, tier_get t0 x h = Ok v h) (map (answer_index (g_points (gob h k))) o) (g_tiers (gob h k))).
      { apply Forall2_mapl, Forall2_swap. eapply Forall2_mono; [|exact Q]. intros u i Iu A. apply (One k _ u i Ik eq_refl Iu A). }
      destruct (zipM (fun x t0 => tier_get t0 x) (map (answer_index (g_points (gob h k))) o) (g_tiers (gob h k)) h) as [v h1|e h1] eqn:E.
      + right. assert (h1 = h). { clear -D E. revert v h1 E. induction D as [|x u l m Dx D IH]; intros v h1 E; cbn [zipM] in E; [injection E as _ <-; reflexivity|].
          destruct Dx as [Dx|(w & Dx)]; [rewrite (bind_raise _ _ _ _ _ Dx) in E; discriminate|]. rewrite (bind_ok _ _ _ _ _ Dx) in E. apply OwnFinal.ok_bind in E. destruct E as (r1 & h2 & E1 & E2).
          specialize (IH r1 h2 E1). subst h2. injection E2 as _ <-. reflexivity. }
        subst h1. exists (VList v). rewrite (bind_ok _ _ _ _ _ E). reflexivity.
      + left. rewrite (bind_raise _ _ _ _ _ E). clear -D E. revert e h1 E. induction D as [|x u l m Dx D IH]; intros e h1 E; cbn [zipM] in E; [discriminate|].
        destruct Dx as [Dx|(w & Dx)]; [rewrite (bind_raise _ _ _ _ _ Dx) in E; congruence|]. rewrite (bind_ok _ _ _ _ _ Dx) in E.
        destruct (zipM (fun x t0 => tier_get t0 x) l m h) as [r1 h2|e2 h2] eqn:E1; [rewrite (bind_ok _ _ _ _ _ E1) in E; discriminate|]. rewrite (bind_raise _ _ _ _ _ E1) in E.
        specialize (IH e2 h2 eq_refl). congruence.
    - destruct (In_nth_error _ _ Ig) as [i Hi]. assert (Hr : exists o, nth_error r i = Some o).
      { destruct (nth_error r i) eqn:Q; [eauto|]. apply nth_error_None in Q. assert (i < List.length (a_groups (aob h a)))%nat by (apply nth_error_Some; congruence). lia. }
      destruct Hr as (o & Ho). assert (Fo : Forall2 (answer h (g_points (gob h g)) z) (g_tiers (gob h g)) o).
      { clear -F Hi Ho. revert i Hi Ho. induction F as [|k b ks r Q F IH]; intros [|i] Hi Ho; try discriminate; [injection Hi as <-; injection Ho as <-; exact Q|]. eapply IH; eauto. }
      exists i, (ix (g, o)), g. split; [|split; [exact Hi|]].
      + rewrite nth_error_map. replace (nth_error (combine (a_groups (aob h a)) r) i) with (Some (g, o)); [reflexivity|]. clear -Hi Ho. revert r i Hi Ho.
        induction (a_groups (aob h a)) as [|k ks IH]; intros [|b r] [|i] Hi Ho; try discriminate; cbn in *; [congruence|apply IH; auto].
      + unfold ix, grp_get. cbn [fst snd]. rewrite bind_get_grp, map_length, <- (Forall2_len _ _ _ Fo), Nat.eqb_refl. cbn [negb].
        rewrite (bind_raise _ _ h TypeError h); [reflexivity|]. apply zip_raises.
        * apply Forall2_mapl, Forall2_swap. eapply Forall2_mono; [|exact Fo]. intros u j Iu A. apply (One g _ u j Ig eq_refl Iu A).
        * destruct (In_nth_error _ _ It) as [j Hj]. assert (Ho' : nth_error o j = Some None).
          { assert (Q : exists b, nth_error o j = Some b /\ answer h (g_points (gob h g)) z t b).
            { clear -Fo Hj. revert j Hj. induction Fo as [|u b us o Q F IH]; intros [|j] Hj; try discriminate; [injection Hj as <-; eauto|]. apply IH, Hj. }
            destruct Q as (b & Hb & A). rewrite Pg in A. destruct A as (_ & A). rewrite (proj2 A Nt) in Hb. exact Hb. }
          exists j, INone, t. split; [rewrite nth_error_map, Ho'; reflexivity|]. split; [exact Hj|]. unfold tier_get. rewrite bind_get_tier. reflexivity. }
  destruct (combine (a_groups (aob h a)) r) as [|p l] eqn:Ec.
  - destruct (a_groups (aob h a)) as [|k ks]; [destruct Ig|]. destruct r; [discriminate|discriminate].
  - change (map (fun p0 => IList (map (answer_index (g_points (gob h (fst p0)))) (snd p0))) (p :: l)) with (map ix (p :: l)). cbn [map] in *. rewrite (bind_raise _ _ _ _ _ Z). reflexivity.
Qed.
Lemma c58_sizes : forall h l,
  (forall g, List.length l <> List.length (g_tiers (gob h g)) -> grp_get g (IList l) h = Raise PyException h) /\
  (forall a, List.length l <> List.length (a_groups (aob h a)) \/ a_groups (aob h a) = [] -> grid_get a (IList l) h = Raise IndexError h).
Proof.
  intros h l. split.
  - intros g N. unfold grp_get. rewrite bind_get_grp, (proj2 (Nat.eqb_neq _ _) N). reflexivity.
  - intros a N. unfold grid_get. change (get_grid a) with (gets (fun h => aob h a)). rewrite bind_gets.
    destruct (Nat.eqb_spec (List.length l) (List.length (a_groups (aob h a)))) as [E|E]; [|reflexivity]. destruct N as [N|N]; [contradiction|].
    rewrite N in E. destruct l; [reflexivity|discriminate].
Qed.
End WithEnv.
