(** * CleanDownFinal: cleaning up a tier of a group. *)
From Verif Require Export RefillFinal.
From Verif Require Import GapFinal ReadSpec WeaveFinal OwnFinal ClassFinal PointFinal ReadClasses ReadMade RelateFinal.
From Verif Require Import CleanSpec.
From Coq Require Import Sorting.Sorted.
Open Scope Z_scope.

Section WithEnv.
Context `{Env}.
Opaque span_of.

(** The group [g] has the tiers [ts], and they know it. *)
Definition housing (h : heap) (g : gid) (ts : list tid) : Prop :=
  g_tiers (gob h g) = ts /\ contains_of h (WGroup g) = Some ts /\ List.NoDup ts /\ forall t, In t ts -> t_within (tob h t) = Some (WGroup g).
Lemma housing_group h g ts t : housing h g ts -> In t ts -> truthy_group h t = Some g.
Proof.
  intros (A & B & C & D) Ht. unfold truthy_group, tier_group. rewrite (D t Ht), A. destruct ts; [destruct Ht|]. reflexivity.
Qed.
Lemma housing_next h g pre t u r : housing h g (pre ++ t :: u :: r) -> sibling_tier t g 1 h = Ok u h.
Proof.
  intros (A & B & C & D). assert (Hp : nth_error (pre ++ t :: u :: r) (List.length pre) = Some t) by (rewrite nth_error_app2, Nat.sub_diag by lia; reflexivity).
  assert (Hq : nth_error (pre ++ t :: u :: r) (S (List.length pre)) = Some u).
  { rewrite nth_error_app2 by lia. replace (S (List.length pre) - List.length pre)%nat with 1%nat by lia. reflexivity. }
  unfold sibling_tier. rewrite (bind_ok _ _ _ (Some (List.length pre)) h).
  - unfold group_item. rewrite A. unfold py_index. destruct (0 <=? Z.of_nat (List.length pre) + 1) eqn:Q; [|apply Z.leb_gt in Q; lia].
    replace (Z.to_nat (Z.of_nat (List.length pre) + 1)) with (S (List.length pre)) by (clear; lia). rewrite Hq. reflexivity.
  - unfold tier_within_index, index_in. rewrite (D t (nth_error_In _ _ Hp)), B. rewrite (index_of_nth t _ _ Hp C). reflexivity.
Qed.
Lemma housing_kept h h' g ts : h_grp h' = h_grp h -> (forall t, t_within (tob h' t) = t_within (tob h t)) -> housing h g ts -> housing h' g ts.
Proof.
  intros E W (A & B & C & D). assert (Q : gob h' g = gob h g) by (unfold gob; rewrite E; reflexivity). unfold housing, contains_of in *. rewrite Q.
  split; [exact A|]. split; [exact B|]. split; [exact C|]. intros t Ht. rewrite W. auto.
Qed.
Lemma refilled_within h h' ts : refilled h h' ts -> forall t, t_within (tob h' t) = t_within (tob h t) /\ t_ec (tob h' t) = t_ec (tob h t) /\
  t_super (tob h' t) = t_super (tob h t) /\ t_sub (tob h' t) = t_sub (tob h t) /\ t_name (tob h' t) = t_name (tob h t).
Proof.
  intros R t. destruct (in_dec Nat.eq_dec t ts) as [Ht|Ht]; [rewrite (rf_tier _ _ _ R t Ht)|rewrite (rf_rest _ _ _ R t Ht)]; auto.
Qed.
Lemma issub_m h c d : issubclass_m (Some c) d h = Ok (issubclass h c d) h.
Proof. reflexivity. Qed.

(** Cleaning up a tier fills the gaps of that tier and of those below it, and
    relates the group again. *)
Lemma clean_down g : forall ts n t pre h bss, housing h g (pre ++ t :: ts) -> joined_tiers h (t :: ts) ->
  (forall u, In u (t :: ts) -> gappy h u /\ issubclass h (t_ec (tob h u)) cBottom = false) ->
  (exists u, hd_error (rev (t :: ts)) = Some u /\ bottoms_out h u) -> snug h (t :: ts) bss ->
  wide (map (span_of h) (t_seq (tob h t))) -> (List.length ts < n)%nat ->
  exists h' m, tier_cleanup n t h = re_relate m g h' /\ refilled h h' (t :: ts).
Proof.
  induction ts as [|u ts IH]; intros n t pre h bss Ho Jo Ga Bo Sn Wi Fu; (destruct n as [|n]; [cbn in Fu; lia|]);
  destruct (Ga t ltac:(simpl; auto)) as [Gt Bt]; pose proof (gappy_dated h t Gt) as D;
  assert (Dl : forall x, In x (t_seq (tob h t)) -> dated h x) by (intros x Hx; apply (D x Hx));
  assert (Ne : t_seq (tob h t) <> []) by (intros Q; apply (wide_ne _ Wi); rewrite Q; reflexivity);
  destruct (fill_gaps_ok h t Gt Ne) as (h1 & E1 & F1 & F2 & F3 & F4 & _ & F6);
  pose proof (refilled_one h h1 t F1 F2 F3 F4 F6) as R1; pose proof (refilled_within _ _ _ R1) as W1;
  assert (Ho1 : housing h1 g (pre ++ t :: ?[l])) by (apply (housing_kept h h1); [apply R1|intros v; apply W1|exact Ho]);
  rewrite (cleanup_starts n h t Gt), (proj1 (wide_open h _ Dl ltac:(apply Gt)) Wi);
  rewrite (bind_ok _ _ _ _ _ E1), bind_get_tier.
  - destruct Bo as (u & Hu & c & Bc & Bi). injection Hu as <-. destruct (W1 t) as (_ & _ & _ & Q & _). rewrite Q, Bc.
    rewrite (bind_ok _ _ _ _ _ (issub_m h1 c cBottom)), bind_gets. rewrite (issubclass_ext h h1) by apply R1. rewrite Bi.
    rewrite (housing_group h1 g _ t Ho1) by (apply in_app_iff; simpl; auto). exists h1, n. split; [reflexivity|exact R1].
  - destruct Jo as (J1 & J2 & J3). destruct (W1 t) as (_ & _ & _ & Q & _). rewrite Q, J1.
    rewrite (bind_ok _ _ _ _ _ (issub_m h1 _ cBottom)), bind_gets. rewrite (issubclass_ext h h1) by apply R1.
    destruct (Ga u ltac:(simpl; auto)) as [_ Bu]. rewrite Bu. rewrite (housing_group h1 g _ t Ho1) by (apply in_app_iff; simpl; auto).
    rewrite (bind_ok _ _ _ _ _ (housing_next h1 g pre t u ts Ho1)).
    assert (Nt : ~ In t (u :: ts)).
    { destruct Ho as (_ & _ & N & _). apply NoDup_remove_2 in N. intros X. apply N, in_app_iff. auto. }
    assert (Oth : forall v, In v (u :: ts) -> tob h1 v = tob h v) by (intros v Hv; apply R1; intros [->|[]]; auto).
    assert (Lv : forall v x, In v (t :: u :: ts) -> In x (t_seq (tob h v)) -> (x < List.length (h_seq h))%nat).
    { intros v x Hv Hx. destruct (Ga v Hv) as [Gv _]. apply (gappy_dated h v Gv x Hx). }
    destruct bss as [|bs bss]; [destruct Sn|]. rewrite snug_cons in Sn. destruct Sn as (S1 & S2 & S3).
    destruct (IH n u (pre ++ [t])%list h1 bss) as (h2 & m & E2 & R2).
    + rewrite <- app_assoc. exact Ho1.
    + revert J3. clear -Oth. revert Oth. generalize (u :: ts). intros l. induction l as [|a l IHl]; intros Oth J; [exact J|]. destruct l as [|b l]; [exact J|].
      destruct J as (A & B & C). split; [rewrite !Oth by (simpl; auto); exact A|]. split; [rewrite !Oth by (simpl; auto); exact B|]. apply IHl; [|exact C]. intros v Hv. apply Oth. simpl in *; auto.
    + intros v Hv. destruct (Ga v ltac:(simpl in *; tauto)) as [Gv Bv]. rewrite (Oth v Hv). rewrite (issubclass_ext h h1) by apply R1. split; [|exact Bv].
      apply (gappy_same h h1); auto; try apply R1. intros x Hx Lx. rewrite (rf_old _ _ _ R1 x Lx). auto.
    + destruct Bo as (v & Hv & c & B1 & B2). assert (Hv' : hd_error (rev (u :: ts)) = Some v).
      { change (rev (t :: u :: ts)) with (rev (u :: ts) ++ [t])%list in Hv. destruct (rev (u :: ts)) as [|z zs] eqn:Ez; [|exact Hv].
        apply (f_equal (@List.length tid)) in Ez. rewrite rev_length in Ez. discriminate. }
      exists v. split; [exact Hv'|]. exists c. rewrite (Oth v (hd_rev_in _ _ Hv')). rewrite (issubclass_ext h h1) by apply R1. auto.
    + apply (snug_same h h1); [intros v Hv; rewrite (Oth v Hv); reflexivity| |exact S3].
      intros v x Hv Hx. rewrite (rf_old _ _ _ R1 x) by (apply (Lv v x); simpl in *; tauto). auto.
    + rewrite (Oth u) by (simpl; auto). rewrite (map_span_same h h1) by (intros x Hx; apply R1, (Lv u x); simpl; auto).
      unfold wide in *. rewrite <- S1, concat_map, (gaps_blocks _ _ (fills_blocks h _ bs S2)). exact Wi.
    + cbn [List.length] in Fu. lia.
    + exists h2, m. split; [exact E2|]. apply (refilled_cons h h1 h2 t (u :: ts) Nt Lv R1 R2).
Qed.
End WithEnv.
