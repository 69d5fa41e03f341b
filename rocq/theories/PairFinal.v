(** * PairFinal: which lower intervals go to which upper interval. *)
From Verif Require Export GroupSpec QueryFinal.
Open Scope Z_scope.

Section WithEnv.
Context `{Env}.

(** [containers] on lists of spans. *)
Definition chosen (U L : list span) : list nat :=
  containers (map fst U) (map snd U) (map fst L) (map snd L).

Lemma combine_spans (L : list span) : combine (map fst L) (map snd L) = L.
Proof. induction L as [|[a b] L IH]; simpl; [reflexivity|]. f_equal. exact IH. Qed.
Definition ovl (q p : span) : Z := Z.min (snd q) (snd p) - Z.max (fst q) (fst p).
Lemma row_spans U q : overlap_row (map fst U) (map snd U) (fst q) (snd q) = map (ovl q) U.
Proof. unfold overlap_row. rewrite combine_spans. reflexivity. Qed.
Lemma chosen_map U L : chosen U L = map (fun q => np_argmax (map (ovl q) U)) L.
Proof.
  unfold chosen, containers. rewrite combine_spans. apply map_ext. intros q. rewrite row_spans. reflexivity.
Qed.

Lemma argmax_spec l : l <> [] -> exists v, nth_error l (np_argmax l) = Some v /\
  forall j w, nth_error l j = Some w -> w <= v /\ ((j < np_argmax l)%nat -> w < v).
Proof.
  destruct l as [|x l]; [congruence|]. intros _. unfold np_argmax.
  destruct (argmin_spec (map Z.opp (x :: l)) (argmin_from (map Z.opp l) 1 0 (- x))) as (v & Hv & K); [reflexivity|].
  rewrite nth_error_map in Hv. destruct (nth_error (x :: l) _) as [u|] eqn:E; [|discriminate]. injection Hv as <-.
  exists u. split; [reflexivity|]. intros j w Hj. destruct (K j (- w)) as [A B].
  - rewrite nth_error_map, Hj. reflexivity.
  - split; [lia|]. intros Hlt. specialize (B Hlt). lia.
Qed.

Lemma chosen_at U L j i : U <> [] -> nth_error (chosen U L) j = Some i ->
  exists q p, nth_error L j = Some q /\ nth_error U i = Some p /\
    forall k r, nth_error U k = Some r -> ovl q r <= ovl q p /\ ((k < i)%nat -> ovl q r < ovl q p).
Proof.
  intros Hne. rewrite chosen_map, nth_error_map. destruct (nth_error L j) as [q|]; [|discriminate]. intros [= <-].
  destruct (argmax_spec (map (ovl q) U)) as (v & Hv & K); [destruct U; [congruence|discriminate]|].
  rewrite nth_error_map in Hv. destruct (nth_error U _) as [p|] eqn:E; [|discriminate]. injection Hv as <-.
  exists q, p. split; [reflexivity|]. split; [reflexivity|]. intros k r Hk. apply K. rewrite nth_error_map, Hk. reflexivity.
Qed.

Lemma c24_best : forall U L j q, U <> [] -> lasting U -> lasting L -> nth_error L j = Some q ->
  exists i, nth_error (containers (map fst U) (map snd U) (map fst L) (map snd L)) j = Some i /\ best U q i.
Proof.
  intros U L j q Hne Pu Pl Hq. fold (chosen U L).
  destruct (nth_error (chosen U L) j) as [i|] eqn:E.
  - exists i. split; [reflexivity|]. destruct (chosen_at U L j i Hne E) as (q' & p & Hq' & Hp & K).
    assert (q' = q) by congruence. subst q'. exists p. split; [exact Hp|]. intros k r Hr. destruct (K k r Hr) as [A B].
    pose proof (Pu p (nth_error_In _ _ Hp)). pose proof (Pu r (nth_error_In _ _ Hr)). pose proof (Pl q (nth_error_In _ _ Hq)).
    unfold ovl, shared, apart_by in *. split; [lia|]. split; [intros ? Hk; specialize (B Hk)|]; lia.
  - apply nth_error_None in E. rewrite chosen_map, map_length in E.
    assert (j < List.length L)%nat by (apply nth_error_Some; congruence). lia.
Qed.

Lemma c24_inside : forall U L j q i p, ordered U -> lasting U -> lasting L -> nth_error L j = Some q ->
  nth_error U i = Some p -> fst p <= fst q -> snd q <= snd p ->
  nth_error (containers (map fst U) (map snd U) (map fst L) (map snd L)) j = Some i.
Proof.
  intros U L j q i p Ou Pu Pl Hq Hp H1 H2. fold (chosen U L).
  assert (Hne : U <> []) by (intros ->; destruct i; discriminate).
  destruct (nth_error (chosen U L) j) as [k|] eqn:E.
  - f_equal. destruct (chosen_at U L j k Hne E) as (q' & r & Hq' & Hr & K).
    assert (q' = q) by congruence. subst q'. destruct (K i p Hp) as [A _].
    pose proof (Pu p (nth_error_In _ _ Hp)). pose proof (Pu r (nth_error_In _ _ Hr)). pose proof (Pl q (nth_error_In _ _ Hq)).
    destruct (Nat.lt_trichotomy k i) as [Hk|[Hk|Hk]]; [|exact Hk|].
    + pose proof (Ou k i r p Hk Hr Hp). unfold ovl in A. lia.
    + pose proof (Ou i k p r Hk Hp Hr). unfold ovl in A. lia.
  - apply nth_error_None in E. rewrite chosen_map, map_length in E.
    assert (j < List.length L)%nat by (apply nth_error_Some; congruence). lia.
Qed.

(** Later intervals go to the same or later uppers. *)
Lemma chosen_mono U L j k a b : ordered U -> lasting U -> ordered L -> lasting L -> U <> [] -> (j < k)%nat ->
  nth_error (chosen U L) j = Some a -> nth_error (chosen U L) k = Some b -> (a <= b)%nat.
Proof.
  intros Ou Pu Ol Pl Hne Hjk Ha Hb. destruct (Nat.le_gt_cases a b) as [|Hlt]; [auto|exfalso].
  destruct (chosen_at U L j a Hne Ha) as (q & pa & Hq & Hpa & K1).
  destruct (chosen_at U L k b Hne Hb) as (q' & pb & Hq' & Hpb & K2).
  pose proof (Ol j k q q' Hjk Hq Hq'). pose proof (Ou b a pb pa Hlt Hpb Hpa).
  pose proof (Pu pa (nth_error_In _ _ Hpa)). pose proof (Pu pb (nth_error_In _ _ Hpb)).
  pose proof (Pl q (nth_error_In _ _ Hq)). pose proof (Pl q' (nth_error_In _ _ Hq')).
  destruct (K1 b pb Hpb) as [_ X]. specialize (X Hlt). destruct (K2 a pa Hpa) as [Y _].
  unfold ovl in *. lia.
Qed.

(** ** Runs *)
Fixpoint steps (k : nat) (ms : list nat) : list nat :=
  match ms with [] => [] | m :: ms' => repeat k m ++ steps (S k) ms' end.

Lemma steps_ge ms : forall k x, In x (steps k ms) -> (k <= x)%nat.
Proof.
  induction ms as [|m ms IH]; intros k x; simpl; [intros []|]. intros Hx. apply in_app_or in Hx. destruct Hx as [Hx|Hx].
  - apply repeat_spec in Hx. lia.
  - apply IH in Hx. lia.
Qed.
Lemma steps_length ms : forall k, List.length (steps k ms) = list_sum ms.
Proof. induction ms as [|m ms IH]; intros k; simpl; [auto|]. rewrite app_length, repeat_length, IH. reflexivity. Qed.

Lemma idxs_app i a : forall j b, idxs_of i j (a ++ b) = (idxs_of i j a ++ idxs_of i (j + List.length a) b)%list.
Proof.
  induction a as [|c a IH]; intros j b; simpl; [rewrite Nat.add_0_r; reflexivity|].
  rewrite IH. replace (S j + List.length a)%nat with (j + S (List.length a))%nat by lia. destruct (Nat.eqb c i); reflexivity.
Qed.
Lemma idxs_none i a : forall j, ~ In i a -> idxs_of i j a = [].
Proof.
  induction a as [|c a IH]; intros j Hn; simpl; [auto|]. destruct (Nat.eqb_spec c i); [subst; destruct Hn; simpl; auto|].
  apply IH. intros Hi. apply Hn. simpl. auto.
Qed.
Lemma idxs_repeat i m : forall j, idxs_of i j (repeat i m) = seq j m.
Proof. induction m as [|m IH]; intros j; simpl; [auto|]. rewrite Nat.eqb_refl, IH. reflexivity. Qed.

Lemma idxs_steps ms : forall k i j, (i < List.length ms)%nat ->
  idxs_of (k + i) j (steps k ms) = seq (j + list_sum (firstn i ms)) (nth i ms 0%nat).
Proof.
  induction ms as [|m ms IH]; intros k i j Hi; simpl in Hi; [lia|]. cbn [steps]. rewrite idxs_app, repeat_length.
  destruct i as [|i].
  - rewrite Nat.add_0_r, idxs_repeat. simpl. rewrite Nat.add_0_r.
    rewrite (idxs_none k (steps (S k) ms)); [apply app_nil_r|]. intros Hx. apply steps_ge in Hx. lia.
  - rewrite (idxs_none _ (repeat k m)).
    + replace (k + S i)%nat with (S k + i)%nat by lia. rewrite IH by lia. simpl. f_equal. lia.
    + intros Hx. apply repeat_spec in Hx. lia.
Qed.

Lemma last_seq a m d : List.last (seq a m) d = match m with O => d | S k => (a + k)%nat end.
Proof.
  revert a d; induction m as [|m IH]; intros a d; [reflexivity|]. cbn [seq].
  destruct m as [|m]; [simpl; lia|]. change (List.last (a :: seq (S a) (S m)) d) with (List.last (seq (S a) (S m)) d).
  rewrite IH. lia.
Qed.
Lemma last_cons_seq a m : S (List.last (seq (S a) m) a) = (a + S m)%nat.
Proof. rewrite last_seq. destruct m; lia. Qed.

(** The block of lowers for upper [i]. *)
Lemma slice_steps ms lows i : (i < List.length ms)%nat ->
  lower_slice (steps 0 ms) lows i = firstn (nth i ms 0%nat) (skipn (list_sum (firstn i ms)) lows).
Proof.
  intros Hi. unfold lower_slice, slice_of. pose proof (idxs_steps ms 0 i 0 Hi) as E. simpl in E. rewrite E.
  destruct (nth i ms 0%nat) as [|m]; [reflexivity|]. cbn [seq]. rewrite last_cons_seq.
  f_equal. lia.
Qed.

Lemma mono_steps n : forall k cs, (forall i j a b, (i < j)%nat -> nth_error cs i = Some a -> nth_error cs j = Some b -> (a <= b)%nat) ->
  (forall x, In x cs -> (k <= x < k + n)%nat) -> exists ms, List.length ms = n /\ cs = steps k ms.
Proof.
  induction n as [|n IH]; intros k cs Mo R.
  { exists []. split; [reflexivity|]. destruct cs as [|c cs]; [reflexivity|]. specialize (R c). simpl in R. assert (k <= c < k + 0)%nat by auto. lia. }
  assert (S : exists m rest, cs = (repeat k m ++ rest)%list /\ forall x, In x rest -> (S k <= x < S k + n)%nat).
  { clear IH. induction cs as [|c cs IHc].
    - exists O, []. split; [reflexivity|]. intros x [].
    - destruct (Nat.eq_dec c k) as [->|Hc].
      + destruct IHc as (m & rest & -> & Hr).
        * intros i j a b Hij Ha Hb. apply (Mo (S i) (S j)); auto. lia.
        * intros x Hx. apply R. simpl. auto.
        * exists (S m), rest. auto.
      + exists O, (c :: cs). split; [reflexivity|]. intros x Hx. assert (k <= x < k + S n)%nat by auto.
        assert (k <= c)%nat by (apply R; simpl; auto).
        destruct Hx as [->|Hx]; [lia|]. apply In_nth_error in Hx. destruct Hx as [i Hi].
        pose proof (Mo 0%nat (S i) c x ltac:(lia) eq_refl Hi). lia. }
  destruct S as (m & rest & -> & Hr). destruct (IH (S k) rest) as (ms & El & ->).
  - intros i j a b Hij Ha Hb.
    apply (Mo (List.length (repeat k m) + i)%nat (List.length (repeat k m) + j)%nat); [lia| |].
    + rewrite nth_error_app2 by lia. replace (_ + i - _)%nat with i by lia. auto.
    + rewrite nth_error_app2 by lia. replace (_ + j - _)%nat with j by lia. auto.
  - exact Hr.
  - exists (m :: ms). simpl. auto.
Qed.

Lemma slices_concat ms : forall (lows : list oid), List.length lows = list_sum ms ->
  concat (map (fun i => firstn (nth i ms 0%nat) (skipn (list_sum (firstn i ms)) lows)) (seq 0 (List.length ms))) = lows.
Proof.
  induction ms as [|m ms IH]; intros lows Hl; simpl in Hl.
  - destruct lows; [reflexivity|discriminate].
  - assert (Hr : concat (map (fun i => firstn (nth (S i) (m :: ms) 0%nat) (skipn (list_sum (firstn (S i) (m :: ms))) lows))
                    (seq 0 (List.length ms))) = skipn m lows).
    { etransitivity; [|apply (IH (skipn m lows)); rewrite skipn_length; lia]. f_equal. apply map_ext. intros i.
      cbn [nth firstn]. change (list_sum (m :: firstn i ms)) with (m + list_sum (firstn i ms))%nat.
      f_equal. symmetry. apply drop_drop. }
    cbn [List.length seq map concat]. rewrite <- seq_shift, map_map, Hr. apply firstn_skipn.
Qed.

Lemma idxs_in i cs : forall j k, In k (idxs_of i j cs) <-> exists d, k = (j + d)%nat /\ nth_error cs d = Some i.
Proof.
  induction cs as [|c cs IH]; intros j k; simpl.
  - split; [intros []|]. intros ([|d] & _ & Hd); discriminate.
  - assert (R : In k (idxs_of i (S j) cs) <-> exists d, k = (j + S d)%nat /\ nth_error cs d = Some i).
    { rewrite IH. split; intros (d & -> & Hd); exists d; (split; [lia|exact Hd]). }
    destruct (Nat.eqb_spec c i) as [->|Hc]; simpl; rewrite R; split.
    + intros [<-|(d & -> & Hd)]; [exists 0%nat; split; [lia|reflexivity]|exists (S d); auto].
    + intros ([|d] & -> & Hd); [left; lia|right; exists d; auto].
    + intros (d & -> & Hd). exists (S d); auto.
    + intros ([|d] & -> & Hd); [simpl in Hd; congruence|exists d; auto].
Qed.
Lemma in_window {A} (l : list A) x : forall a m, In x (firstn m (skipn a l)) <->
  exists j, (a <= j < a + m)%nat /\ nth_error l j = Some x.
Proof.
  intros a m. split.
  - intros Hx. apply In_nth_error in Hx. destruct Hx as [d Hd].
    assert (Hlt : (d < m)%nat).
    { assert (d < List.length (firstn m (skipn a l)))%nat by (apply nth_error_Some; congruence). rewrite firstn_length in *. lia. }
    exists (a + d)%nat. split; [lia|].
    assert (E : nth_error l (a + d) = nth_error (skipn a l) d).
    { clear. revert a; induction l as [|y l IH]; intros [|a]; simpl; auto. destruct d; reflexivity. }
    rewrite E. rewrite <- (firstn_skipn m (skipn a l)). rewrite nth_error_app1; [exact Hd|].
    apply nth_error_Some. congruence.
  - intros (j & Hj & Hx). assert (E : nth_error (skipn a l) (j - a) = Some x).
    { rewrite <- Hx. replace j with (a + (j - a))%nat at 2 by lia. generalize (j - a)%nat. clear.
      intros d. revert a; induction l as [|y l IH]; intros [|a]; simpl; auto. destruct d; reflexivity. }
    apply (nth_error_In _ (j - a)). rewrite <- (firstn_skipn m (skipn a l)) in E.
    rewrite nth_error_app1 in E; [exact E|].
    assert (Hl : (j - a < List.length (skipn a l))%nat) by (apply nth_error_Some; rewrite firstn_skipn in E; congruence).
    rewrite firstn_length. lia.
Qed.
Lemma in_slice ms lows i x : (i < List.length ms)%nat ->
  In x (lower_slice (steps 0 ms) lows i) <-> exists j, nth_error (steps 0 ms) j = Some i /\ nth_error lows j = Some x.
Proof.
  intros Hi. rewrite slice_steps, in_window by auto. pose proof (idxs_steps ms 0 i 0 Hi) as E. simpl in E.
  assert (K : forall j, nth_error (steps 0 ms) j = Some i <-> (list_sum (firstn i ms) <= j < list_sum (firstn i ms) + nth i ms 0)%nat).
  { intros j. rewrite <- in_seq, <- E, idxs_in. split; [intros Hd; exists j; auto|intros (d & -> & Hd); exact Hd]. }
  split; intros (j & A & B); exists j; (split; [apply K; exact A|exact B]).
Qed.

Lemma c25_blocks : forall U L (lows : list oid), ordered U -> lasting U -> ordered L -> lasting L -> U <> [] ->
  List.length lows = List.length L ->
  let cs := containers (map fst U) (map snd U) (map fst L) (map snd L) in
  concat (map (lower_slice cs lows) (seq 0 (List.length U))) = lows /\
  (forall i j x, nth_error cs j = Some i -> nth_error lows j = Some x -> In x (lower_slice cs lows i)) /\
  (forall i x, In x (lower_slice cs lows i) -> exists j, nth_error cs j = Some i /\ nth_error lows j = Some x).
Proof.
  intros U L lows Ou Pu Ol Pl Hne Hlen. cbv zeta. fold (chosen U L).
  destruct (mono_steps (List.length U) 0 (chosen U L)) as (ms & El & Ec).
  - intros i j a b Hij Ha Hb. eapply (chosen_mono U L); eauto.
  - intros x Hx. apply In_nth_error in Hx. destruct Hx as [j Hj]. destruct (chosen_at U L j x Hne Hj) as (q & p & _ & Hp & _).
    split; [lia|]. apply nth_error_Some. congruence.
  - assert (Hs : List.length lows = list_sum ms).
    { rewrite <- (steps_length ms 0), <- Ec, chosen_map, map_length. exact Hlen. }
    rewrite Ec. split; [|split].
    + etransitivity; [|apply (slices_concat ms lows Hs)]. rewrite El. f_equal. apply map_ext_in. intros i Hi. apply slice_steps.
      apply in_seq in Hi. lia.
    + intros i j x Hj Hx.
      assert (Hi : (i < List.length ms)%nat).
      { rewrite El. rewrite <- Ec in Hj. destruct (chosen_at U L j i Hne Hj) as (q & p & _ & Hp & _). apply nth_error_Some. congruence. }
      apply in_slice; eauto.
    + intros i x Hx. destruct (Nat.lt_ge_cases i (List.length ms)) as [Hi|Hi]; [apply in_slice; auto|].
      exfalso. unfold lower_slice, slice_of in Hx. rewrite idxs_none in Hx; [contradiction|].
      intros Hin. apply In_nth_error in Hin. destruct Hin as [j Hj]. rewrite <- Ec in Hj.
      destruct (chosen_at U L j i Hne Hj) as (q & p & _ & Hp & _).
      assert (i < List.length U)%nat by (apply nth_error_Some; congruence). lia.
Qed.

End WithEnv.
