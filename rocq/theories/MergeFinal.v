(** * MergeFinal: fusing the intervals of a group in good order (C74). *)
From Verif Require Export MergeLeaf.
From Verif Require Import ChildSpec CleanFinal.
From Verif Require TripFinal OutputFinal.
Open Scope Z_scope.

Section WithEnv.
Context `{Env}.
Opaque span_of.

(** ** The two last tiers *)
Lemma snug_snoc h u t : forall us bss, snug h (us ++ [u; t]) bss ->
  exists bss1 bs, bss = (bss1 ++ [bs])%list /\ snug h (us ++ [u]) bss1 /\ concat bs = t_seq (tob h t) /\ Forall2 (fills h) (t_seq (tob h u)) bs.
Proof.
  induction us as [|a us IH]; intros bss S.
  - cbn [app] in S. destruct bss as [|bs bss]; [destruct S|]. rewrite snug_cons in S. destruct S as (S1 & S2 & S3). destruct bss; [|destruct S3]. exists [], bs. cbn. auto.
  - destruct bss as [|bs bss]; [destruct us; destruct S|].
    assert (Q : exists b r, (us ++ [u; t])%list = b :: r /\ exists r', (us ++ [u])%list = b :: r') by (destruct us as [|b us]; [exists u, [t]; eauto|exists b, (us ++ [u; t])%list; cbn; eauto]).
    destruct Q as (b & r & Q & r' & Q'). cbn [app] in *. rewrite Q in S. rewrite snug_cons in S. destruct S as (S1 & S2 & S3). rewrite <- Q in S3.
    destruct (IH bss S3) as (bss1 & bz & -> & A & B & C). exists (bs :: bss1), bz. split; [reflexivity|]. rewrite Q' in A |- *. rewrite snug_cons. auto.
Qed.
Lemma snug_join h u t bs : concat bs = t_seq (tob h t) -> Forall2 (fills h) (t_seq (tob h u)) bs -> forall us bss1, snug h (us ++ [u]) bss1 -> snug h (us ++ [u; t]) (bss1 ++ [bs]).
Proof.
  intros Ec F. induction us as [|a us IH]; intros bss1 S.
  - cbn [app] in S |- *. destruct bss1; [|destruct S]. cbn [app]. rewrite snug_cons. cbn. auto.
  - assert (Q : exists b r, (us ++ [u; t])%list = b :: r /\ exists r', (us ++ [u])%list = b :: r') by (destruct us as [|b us]; [exists u, [t]; eauto|exists b, (us ++ [u; t])%list; cbn; eauto]).
    destruct Q as (b & r & Q & r' & Q'). cbn [app] in *. rewrite Q' in S. destruct bss1 as [|b1 bss1]; [destruct S|]. rewrite snug_cons in S. destruct S as (S1 & S2 & S3). rewrite <- Q' in S3.
    specialize (IH bss1 S3). cbn [app]. rewrite Q in IH |- *. rewrite snug_cons. auto.
Qed.
Lemma related_snoc h u t bs : forall us bss1, snug h (us ++ [u]) bss1 -> related_tiers h (us ++ [u; t]) (bss1 ++ [bs]) <->
  related_tiers h (us ++ [u]) bss1 /\ Forall2 (parent_of h) (t_seq (tob h u)) bs.
Proof.
  induction us as [|a us IH]; intros bss1 S.
  - cbn [app] in S |- *. destruct bss1; [|destruct S]. cbn [app]. rewrite related_cons. cbn. tauto.
  - assert (Q : exists b r, (us ++ [u; t])%list = b :: r /\ exists r', (us ++ [u])%list = b :: r') by (destruct us as [|b us]; [exists u, [t]; eauto|exists b, (us ++ [u; t])%list; cbn; eauto]).
    destruct Q as (b & r & Q & r' & Q'). cbn [app] in *. rewrite Q' in S. destruct bss1 as [|b1 bss1]; [destruct S|]. rewrite snug_cons in S. destruct S as (S1 & S2 & S3). rewrite <- Q' in S3.
    specialize (IH bss1 S3). cbn [app]. rewrite Q, Q' in *. rewrite !related_cons. tauto.
Qed.
Lemma joined_snoc h u t : forall us, joined_tiers h (us ++ [u; t]) -> t_super (tob h t) = Some (t_ec (tob h u)).
Proof.
  induction us as [|a us IH]; intros J.
  - destruct J as (_ & J & _). exact J.
  - apply IH. cbn [app] in J. destruct (us ++ [u; t])%list as [|b r] eqn:Q; [destruct us; discriminate|]. destruct J as (_ & _ & J). exact J.
Qed.

(** ** Rows of intervals *)
Lemma row_ends_inj h l x y : in_row h l -> In x l -> In y l -> s_end (sob h x) = s_end (sob h y) -> x = y.
Proof.
  intros (D & T) Hx Hy E. apply In_nth_error in Hx. apply In_nth_error in Hy. destruct Hx as [i Hi], Hy as [j Hj].
  pose proof (D x (nth_error_In _ _ Hi)) as (X1 & X2 & X3). pose proof (D y (nth_error_In _ _ Hj)) as (Y1 & Y2 & Y3).
  destruct (lt_eq_lt_dec i j) as [[L|L]|L]; [|congruence|].
  - destruct (T i j x y L Hi Hj) as (e & s & A & B & C). rewrite X2 in A. rewrite Y1 in B. rewrite X2, Y2 in E. injection A as <-. injection B as <-. injection E as E. lia.
  - destruct (T j i y x L Hj Hi) as (e & s & A & B & C). rewrite Y2 in A. rewrite X1 in B. rewrite X2, Y2 in E. injection A as <-. injection B as <-. injection E as E. lia.
Qed.
Lemma tiles_merge right jn h h' t p x y l1 l2 s e : leaf_fused right jn h h' t p x y l1 l2 ->
  tiles h s (l1 ++ beside right [x] [y] ++ l2) e -> tiles h' s (l1 ++ x :: l2) e.
Proof.
  intros (_ & _ & _ & _ & _ & (_ & X1 & X2 & _) & _ & Lk & _) T. destruct (tiles_app h l1 _ s e T) as (m & T1 & T2). destruct (tiles_app h _ l2 m e T2) as (n & T3 & T4).
  assert (K : forall l, incl l (l1 ++ l2) -> forall a b, tiles h a l b -> tiles h' a l b).
  { intros l I a b. apply GrowFinal.tiles_same. intros z Hz. destruct (Lk z (I z Hz)) as (_ & A & B & _). auto. }
  apply GrowFinal.tiles_join with m; [apply K; [intros z Hz; apply in_app_iff; auto|exact T1]|].
  assert (T4' : tiles h' n l2 e) by (apply K; [intros z Hz; apply in_app_iff; auto|exact T4]). destruct right; cbn [beside app tiles] in T3;
    destruct T3 as (m1 & A1 & A2 & A3 & m2 & B1 & B2 & B3 & E); cbn [tiles] in E; subst n; exists m2; rewrite X1, X2; split; [assumption|split; [assumption|split; [lia|assumption]]|assumption|split; [assumption|split; [lia|assumption]]].
Qed.
(** What has changed of the values. *)
Lemma leaf_values right jn h h' t p x y l1 l2 : s_subset (sob h p) = (l1 ++ beside right [x] [y] ++ l2)%list -> leaf_fused right jn h h' t p x y l1 l2 -> forall i, (i < List.length (h_seq h))%nat -> i <> x ->
  s_cls (sob h' i) = s_cls (sob h i) /\ s_start (sob h' i) = s_start (sob h i) /\ s_end (sob h' i) = s_end (sob h i) /\ s_label (sob h' i) = s_label (sob h i) /\ s_intier (sob h' i) = s_intier (sob h i) /\
  (i <> p -> s_subset (sob h' i) = s_subset (sob h i)).
Proof.
  intros Eb (_ & _ & _ & _ & (P1 & P2 & P3 & P4 & _ & _ & _ & _ & P5) & _ & _ & Lk & (_ & (Y1 & Y2 & Y3 & Y4 & Y5 & _ & Y6)) & Rest) i Hi Hx.
  destruct (decide (i = y)) as [->|Hy]; [auto 10|]. destruct (in_dec Nat.eq_dec i (s_subset (sob h p))) as [I|I].
  - destruct (Lk i) as (A1 & A2 & A3 & A4 & _ & A6 & _ & A8 & _); [|auto 10]. rewrite Eb in I. apply in_app_iff in I. apply in_app_iff. destruct I as [I|I]; [auto|]. apply in_app_iff in I. destruct I as [I|I]; [|auto].
    exfalso. destruct right; cbn in I; intuition congruence.
  - destruct (decide (i = p)) as [->|Hp]; [split; [exact P1|]; split; [exact P2|]; split; [exact P3|]; split; [exact P4|]; split; [exact P5|]; intros Q; congruence|]. rewrite (Rest i Hi Hp I). auto 10.
Qed.
Lemma leaf_boundary right jn h h' t p x y l1 l2 k : leaf_fused right jn h h' t p x y l1 l2 -> s_label (sob h p) <> "#"%string -> (forall z, In z (s_subset (sob h p)) -> s_label (sob h z) <> "#"%string) ->
  is_boundary h k -> is_boundary h' k.
Proof.
  intros (_ & (_ & _ & _ & Ln & _) & _ & _ & _ & _ & _ & _ & _ & Rest) Np Nk (B1 & B2 & B). unfold is_boundary. rewrite Rest; [split; [lia|auto]|exact B1|intros ->; auto|]. intros I. apply (Nk k I B2).
Qed.
Lemma nodup_sub {A} (a b c : list A) : NoDup (a ++ b ++ c) -> NoDup b.
Proof. intros N. apply NoDup_app in N. destruct N as (_ & _ & N). apply NoDup_app in N. apply N. Qed.
Lemma concat_mid {A} (B1 : list (list A)) b B2 : concat (B1 ++ b :: B2) = (concat B1 ++ b ++ concat B2)%list.
Proof. rewrite concat_app. reflexivity. Qed.

(** ** One fusion *)
Lemma good_merge right jn h g us u t bss x y : good_group h g (us ++ [u; t]) bss -> bare_bottom h (us ++ [u; t]) -> In x (t_seq (tob h t)) -> s_intier (sob h x) = Some t ->
  neighbour right h x = Some y -> s_label (sob h y) <> "#"%string -> fused_label right jn h x y <> "#"%string ->
  exists p l1 l2 L1 L2 h' bss', fuse right jn x h = Ok tt h' /\ leaf_fused right jn h h' t p x y l1 l2 /\ In p (t_seq (tob h u)) /\
    s_subset (sob h p) = (l1 ++ beside right [x] [y] ++ l2)%list /\ (forall z, In z (s_subset (sob h p)) -> In z (t_seq (tob h t))) /\
    t_seq (tob h t) = (L1 ++ beside right [x] [y] ++ L2)%list /\ t_seq (tob h' t) = (L1 ++ x :: L2)%list /\
    good_group h' g (us ++ [u; t]) bss' /\ bare_bottom h' (us ++ [u; t]) /\ (forall k, is_boundary h k -> is_boundary h' k).
Proof.
  intros G Bare Hx It Nb Ny Nl. pose proof (good_turns _ _ _ _ G) as Turn. pose proof G as (G1 & G2 & G3 & G4 & G5 & G6 & Sn & R & Ok' & Tp).
  destruct (snug_snoc h u t us bss Sn) as (bss1 & bs & -> & Sn1 & Ec & Fl). apply (related_snoc h u t bs us bss1 Sn1) in R. destruct R as [R1 Rp].
  assert (Iu : In u (us ++ [u; t])) by (apply in_app_iff; simpl; auto). assert (Itt : In t (us ++ [u; t])) by (apply in_app_iff; simpl; auto).
  destruct (Ok' u Iu) as (_ & (Ndu & Ku) & _). destruct (Ok' t Itt) as (_ & (Ndt & Kt) & Npt).
  pose proof G5 as (J & Nc & Lt & _). pose proof (joined_snoc h u t us J) as Js.
  assert (Ut : forall v, In v (us ++ [u]) -> t_ec (tob h v) <> t_ec (tob h t) /\ v <> t).
  { intros v Hv. assert (Q : t_ec (tob h v) <> t_ec (tob h t)); [|split; [exact Q|congruence]]. intros Q. replace (us ++ [u; t])%list with ((us ++ [u]) ++ [t])%list in Nc by (rewrite <- app_assoc; reflexivity).
    rewrite map_app in Nc. apply NoDup_app in Nc. destruct Nc as (_ & Nc & _). apply (Nc (t_ec (tob h t))); apply elem_of_list_In; [rewrite <- Q; apply (in_map (fun t => t_ec (tob h t))), Hv|simpl; auto]. }
  assert (Sub : forall v, In v (us ++ [u]) -> In v (us ++ [u; t])) by (intros v Hv; apply in_app_iff in Hv; apply in_app_iff; simpl in *; tauto).
  assert (Iu' : In u (us ++ [u])) by (apply in_app_iff; simpl; auto).
  (* the block *)
  assert (Hb : In x (concat bs)) by (rewrite Ec; exact Hx). apply in_concat in Hb. destruct Hb as (b & Hb & Hxb). apply In_nth_error in Hb. destruct Hb as [i Hb].
  destruct (nth_error (t_seq (tob h u)) i) as [p|] eqn:Hp.
  2:{ apply nth_error_None in Hp. assert (i < List.length bs)%nat by (apply nth_error_Some; congruence). apply Forall2_length in Fl. lia. }
  pose proof (GroupFinal.Forall2_nth _ _ _ Fl i p b Hp Hb) as Flp. pose proof (GroupFinal.Forall2_nth _ _ _ Rp i p b Hp Hb) as (Eb & Ch & Sup).
  assert (Hpu : In p (t_seq (tob h u))) by (eapply nth_error_In; eauto).
  assert (Eb' : exists l1 l2, b = (l1 ++ beside right [x] [y] ++ l2)%list).
  { unfold neighbour in Nb. destruct right; [destruct (chain_next h b x y Ch Hxb Nb Ny) as (l1 & l2 & ->)|destruct (chain_last h b x y Ch Hxb Nb Ny) as (l1 & l2 & ->)]; exists l1, l2; reflexivity. }
  destruct Eb' as (l1 & l2 & Eb').
  destruct (nth_error_split _ _ Hb) as (B1 & B2 & EB & LB). destruct (nth_error_split _ _ Hp) as (U1 & U2 & EU & LU).
  assert (Eall : t_seq (tob h t) = ((concat B1 ++ l1) ++ beside right [x] [y] ++ (l2 ++ concat B2))%list).
  { rewrite <- Ec, EB, concat_mid, Eb', <- !app_assoc. reflexivity. }
  assert (Hbt : forall z, In z b -> In z (t_seq (tob h t))) by (intros z Hz; rewrite <- Ec; eapply in_concat'; [eapply nth_error_In; exact Hb|exact Hz]).
  assert (Hy : In y b) by (rewrite Eb'; apply in_app_iff; right; apply in_app_iff; left; destruct right; simpl; auto).
  assert (Row : in_row h (t_seq (tob h t))) by (destruct (Turn t Itt) as [A B]; split; auto).
  assert (Npb : ~ In p b). { intros Q. destruct (Ut u Iu') as [Q2 _]. apply Q2. destruct (Ku p Hpu) as (_ & <- & _). destruct (Kt p (Hbt p Q)) as (_ & <- & _). reflexivity. }
  assert (Nob : forall v z, In v (us ++ [u]) -> In z (t_seq (tob h v)) -> ~ In z b /\ z <> x /\ z <> y).
  { intros v z Hv Hz. destruct (Ok' v (Sub v Hv)) as (_ & (_ & Kv) & _). assert (Q : ~ In z b).
    { intros Q. destruct (Ut v Hv) as [Q2 _]. apply Q2. destruct (Kv z Hz) as (_ & <- & _). destruct (Kt z (Hbt z Q)) as (_ & <- & _). reflexivity. }
    split; [exact Q|]. split; intros ->; auto. }
  assert (Ndb : NoDup b). { rewrite <- Ec, EB, concat_mid in Ndt. apply nodup_sub in Ndt. exact Ndt. }
  destruct (fuse_leaf right jn h x y p t l1 l2 Nb Ny Nl) as (h' & E & Lf).
  { apply (Bare t x); [rewrite rev_app_distr; reflexivity|exact Hx]. }
  { apply (Bare t y); [rewrite rev_app_distr; reflexivity|apply Hbt, Hy]. }
  { apply (Ku p Hpu). } { apply Sup, Hxb. } { rewrite Eb. exact Npb. } { rewrite Eb. exact Eb'. } { rewrite Eb. exact Ndb. }
  { rewrite Eb. intros z Hz. destruct (Kt z (Hbt z Hz)) as (A1 & A2 & A3). destruct (Kt y (Hbt y Hy)) as (_ & A4 & _). split; [exact A1|]. split; [exact A3|]. split; [congruence|]. split; [apply Sup, Hz|apply Hbt, Hz]. }
  { exact It. } { apply (Lt t Itt). } { exact Ndt. }
  { rewrite Js. intros [= Q]. destruct (Lt u Iu) as (_ & Q2 & _). rewrite Q in Q2. rewrite issubclass_refl in Q2. discriminate. }
  { unfold is_point. destruct (Kt x Hx) as (_ & -> & _). exact Npt. }
  { intros z w Hz Hw [Q|Q]; [eapply in_row_inj; eauto|eapply row_ends_inj; eauto]. }
  pose proof Lf as (Tl & To & Ep & Chp & Kp & Vx & Sx & Lk & Y & Rest). pose proof To as (Q1 & Q2 & Q3 & Q4 & Q5).
  destruct Tl as ((m1 & m2 & M1 & M2) & T1 & T2 & T3 & T4 & T5 & T6 & T7).
  assert (Seq' : t_seq (tob h' t) = ((concat B1 ++ l1) ++ x :: (l2 ++ concat B2))%list).
  { rewrite M2. rewrite Eall in M1. rewrite Eall in Ndt. destruct right; cbn [beside app] in M1, Ndt.
    - replace ((concat B1 ++ l1) ++ x :: y :: l2 ++ concat B2)%list with (((concat B1 ++ l1) ++ [x]) ++ y :: l2 ++ concat B2)%list in M1, Ndt by (rewrite <- app_assoc; reflexivity).
      destruct (nodup_split _ _ _ _ _ Ndt M1) as [<- <-]. rewrite <- app_assoc. reflexivity.
    - destruct (nodup_split _ _ _ _ _ Ndt M1) as [<- <-]. reflexivity. }
  assert (Val := leaf_values right jn h h' t p x y l1 l2 ltac:(rewrite Eb; exact Eb') Lf).
  assert (Bd : forall k, is_boundary h k -> is_boundary h' k).
  { intros k. apply (leaf_boundary right jn h h' t p x y l1 l2 k Lf); [apply (Ku p Hpu)|]. rewrite Eb. intros z Hz. apply (Kt z (Hbt z Hz)). }
  assert (Up : forall v z, In v (us ++ [u]) -> In z (t_seq (tob h v)) -> s_start (sob h' z) = s_start (sob h z) /\ s_end (sob h' z) = s_end (sob h z) /\ s_super (sob h' z) = s_super (sob h z) /\ s_within (sob h' z) = s_within (sob h z) /\
     s_prev (sob h' z) = s_prev (sob h z) /\ s_fol (sob h' z) = s_fol (sob h z) /\ (z <> p -> s_subset (sob h' z) = s_subset (sob h z))).
  { intros v z Hv Hz. destruct (Ok' v (Sub v Hv)) as (_ & (_ & Kv) & _). destruct (Nob v z Hv Hz) as (Z1 & _). destruct (decide (z = p)) as [->|Nz].
    - destruct Kp as (_ & A2 & A3 & _ & A5 & A6 & A7 & A8 & _). repeat (split; [assumption|]). congruence.
    - rewrite Rest; [auto 10|apply (Kv z Hz)|exact Nz|rewrite Eb; exact Z1]. }
  assert (Tup : forall v, In v (us ++ [u]) -> tob h' v = tob h v) by (intros v Hv; apply T7; apply (Ut v Hv)).
  assert (All : forall v, In v (us ++ [u; t]) -> In v (us ++ [u]) \/ v = t) by (intros v Hv; apply in_app_iff in Hv; destruct Hv as [Hv|[Hv|[Hv|[]]]]; [left; apply in_app_iff; auto|left; subst; exact Iu'|auto]).
  assert (Inx : ~ In x (concat B1) /\ ~ In x (concat B2) /\ ~ In y (concat B1) /\ ~ In y (concat B2)).
  { assert (Nd' := Ndt). rewrite <- Ec, EB, concat_mid in Nd'. apply NoDup_app in Nd'. destruct Nd' as (_ & D1 & Nd'). apply NoDup_app in Nd'. destruct Nd' as (_ & D2 & _).
    split; [|split; [|split]]; intros Q.
    - apply (D1 x); apply elem_of_list_In; [exact Q|apply in_app_iff; auto].
    - apply (D2 x); apply elem_of_list_In; [exact Hxb|exact Q].
    - apply (D1 y); apply elem_of_list_In; [exact Q|apply in_app_iff; auto].
    - apply (D2 y); apply elem_of_list_In; [exact Hy|exact Q]. }
  destruct Inx as (X1 & X2 & X3 & X4).
  assert (Dis : forall z, In z (concat B1) \/ In z (concat B2) -> ~ In z b).
  { intros z Hz I. assert (Nd' := Ndt). rewrite <- Ec, EB, concat_mid in Nd'. apply NoDup_app in Nd'. destruct Nd' as (_ & D1 & Nd'). apply NoDup_app in Nd'. destruct Nd' as (_ & D2 & _).
    destruct Hz as [Hz|Hz]; [apply (D1 z)|apply (D2 z)]; apply elem_of_list_In; auto. apply in_app_iff. auto. }
  assert (Tt : forall z, In z (concat B1) \/ In z (concat B2) -> In z (t_seq (tob h t))).
  { intros z Hz. rewrite <- Ec, EB, concat_mid. apply in_app_iff. destruct Hz; [auto|right; apply in_app_iff; auto]. }
  assert (Other : forall z, In z (concat B1) \/ In z (concat B2) -> sob h' z = sob h z).
  { intros z Hz. apply Rest; [apply (Kt z (Tt z Hz))| |rewrite Eb; apply Dis, Hz]. intros ->. destruct (Ut u Iu') as [Q _]. apply Q. destruct (Ku p Hpu) as (_ & <- & _). destruct (Kt p (Tt p Hz)) as (_ & <- & _). reflexivity. }
  rewrite EB in Fl, Rp. rewrite EU in Fl, Rp. apply Forall2_app_inv in Fl; [|congruence]. apply Forall2_app_inv in Rp; [|congruence]. destruct Fl as [F1 F2], Rp as [P1 P2].
  apply Forall2_cons_1 in F2. apply Forall2_cons_1 in P2. destruct F2 as [_ F2], P2 as [_ P2].
  assert (Pne : ~ In p U1 /\ ~ In p U2). { rewrite EU in Ndu. destruct (NoDup_mid _ _ _ Ndu) as (A & B & _). auto. }
  assert (FillsO : forall v c, In v (t_seq (tob h u)) -> (forall z, In z c -> In z (concat B1) \/ In z (concat B2)) -> fills h v c -> fills h' v c).
  { intros v c Hv Hc (s & e & A1 & A2 & A3 & A4). destruct (Up u v Iu' Hv) as (V1 & V2 & _). exists s, e. rewrite V1, V2. split; [exact A1|]. split; [exact A2|]. split; [exact A3|].
    eapply GrowFinal.tiles_same; [|exact A4]. intros z Hz. rewrite (Other z (Hc z Hz)). auto. }
  assert (ParO : forall v c, In v (t_seq (tob h u)) -> v <> p -> (forall z, In z c -> In z (concat B1) \/ In z (concat B2)) -> parent_of h v c -> parent_of h' v c).
  { intros v c Hv Nv Hc (A1 & A2 & A3). destruct (Up u v Iu' Hv) as (_ & _ & _ & _ & _ & _ & V). split; [rewrite V by exact Nv; exact A1|]. split.
    - eapply chained_ext; [|exact Bd|exact A2]. intros z Hz. rewrite (Other z (Hc z Hz)). auto.
    - intros z Hz. rewrite (Other z (Hc z Hz)). auto. }
  set (bs' := (B1 ++ (l1 ++ x :: l2) :: B2)%list).
  assert (Fl' : Forall2 (fills h') (t_seq (tob h u)) bs').
  { rewrite EU. apply Forall2_app; [|constructor].
    - eapply Forall2_weaken; [exact F1|]. intros v c Hv Hc. apply FillsO; [rewrite EU; apply in_app_iff; auto|]. intros z Hz. left. eapply in_concat'; eauto.
    - destruct Flp as (s & e & A1 & A2 & A3 & A4). destruct (Up u p Iu' Hpu) as (V1 & V2 & _). exists s, e. rewrite V1, V2. split; [exact A1|]. split; [exact A2|]. split; [exact A3|].
      eapply tiles_merge; [exact Lf|]. rewrite <- Eb'. exact A4.
    - eapply Forall2_weaken; [exact F2|]. intros v c Hv Hc. apply FillsO; [rewrite EU; apply in_app_iff; simpl; auto|]. intros z Hz. right. eapply in_concat'; eauto. }
  assert (Rp' : Forall2 (parent_of h') (t_seq (tob h u)) bs').
  { rewrite EU. destruct Pne as [Pn1 Pn2]. apply Forall2_app; [|constructor].
    - eapply Forall2_weaken; [exact P1|]. intros v c Hv Hc. apply ParO; [rewrite EU; apply in_app_iff; auto|intros ->; auto|]. intros z Hz. left. eapply in_concat'; eauto.
    - split; [exact Ep|]. split; [exact Chp|]. intros z Hz. assert (Hzb : In z b).
      { rewrite Eb'. apply in_app_iff in Hz. apply in_app_iff. destruct Hz as [Hz|[<-|Hz]]; [auto| |]; right; apply in_app_iff; [left; destruct right; simpl; auto|auto]. }
      destruct (Sup z Hzb) as [A B]. destruct (decide (z = x)) as [->|Nz]; [destruct Sx as (S1 & S2 & _); split; congruence|].
      destruct (Lk z) as (_ & _ & _ & _ & K5 & _ & _ & _ & K9 & _); [apply in_app_iff in Hz; apply in_app_iff; destruct Hz as [Hz|[Hz|Hz]]; [auto|congruence|auto]|]. split; congruence.
    - eapply Forall2_weaken; [exact P2|]. intros v c Hv Hc. apply ParO; [rewrite EU; apply in_app_iff; simpl; auto|intros ->; auto|]. intros z Hz. right. eapply in_concat'; eauto. }
  assert (Ec' : concat bs' = t_seq (tob h' t)) by (unfold bs'; rewrite concat_mid, Seq', <- !app_assoc; reflexivity).
  assert (Tk : forall v, In v (us ++ [u; t]) -> t_ec (tob h' v) = t_ec (tob h v) /\ t_super (tob h' v) = t_super (tob h v) /\ t_sub (tob h' v) = t_sub (tob h v) /\ t_within (tob h' v) = t_within (tob h v)).
  { intros v Hv. destruct (All v Hv) as [Q| ->]; [rewrite (Tup v Q); auto|auto]. }
  assert (In' : forall z, In z (t_seq (tob h' t)) -> In z (t_seq (tob h t))) by (intros z Hz; rewrite M1; rewrite M2 in Hz; apply in_app_iff in Hz; apply in_app_iff; simpl; tauto).
  assert (Sn1' : snug h' (us ++ [u]) bss1).
  { apply (snug_same h h'); [intros v Hv; rewrite (Tup v Hv); reflexivity| |exact Sn1]. intros v z Hv Hz. destruct (Up v z Hv Hz) as (A & B & _). auto. }
  exists p, l1, l2, (concat B1 ++ l1)%list, (l2 ++ concat B2)%list, h', (bss1 ++ [bs'])%list. split; [exact E|]. split; [exact Lf|]. split; [exact Hpu|]. split; [rewrite Eb; exact Eb'|]. split; [rewrite Eb; exact Hbt|].
  split; [exact Eall|]. split; [exact Seq'|]. split; [|split; [|exact Bd]].
  - unfold good_group. assert (Gg : gob h' g = gob h g) by (unfold gob; rewrite Q2; reflexivity).
    split; [rewrite Q2; exact G1|]. split; [rewrite Gg; exact G2|]. split; [rewrite Gg; exact G3|]. split; [cbn [contains_of] in *; rewrite Gg; exact G4|].
    split; [apply (tier_chain_same h h'); auto; intros v Hv; destruct (Tk v Hv) as (A & B & C & _); auto|].
    split; [apply (classes_joined_same h h'); auto; intros v Hv; apply (Tk v Hv)|].
    split; [apply snug_join; [exact Ec'|rewrite (Tup u Iu'); exact Fl'|exact Sn1']|].
    split.
    { apply related_snoc; [exact Sn1'|]. split; [|rewrite (Tup u Iu'); exact Rp']. apply (related_same h h' _ _ Sn1); [intros v Hv; rewrite (Tup v Hv); reflexivity|exact Bd| | |exact R1].
      - intros v z Hv Hz. destruct (Up v z Hv Hz) as (_ & _ & A). split; [apply A|]. split; [apply A|]. split; apply A.
      - intros v z Hv Hz. rewrite removelast_last in Hv. assert (Hv' : In v (us ++ [u])) by (apply in_app_iff; auto). destruct (Up v z Hv' Hz) as (_ & _ & _ & _ & _ & _ & A). apply A. intros ->.
        assert (Q : t_ec (tob h v) = t_ec (tob h u)). { destruct (Ok' v (Sub v Hv')) as (_ & (_ & Kv) & _). destruct (Kv p Hz) as (_ & <- & _). destruct (Ku p Hpu) as (_ & <- & _). reflexivity. }
        rewrite map_app in Nc. apply NoDup_app in Nc. destruct Nc as (_ & Nc & _). apply (Nc (t_ec (tob h v))); apply elem_of_list_In; [apply (in_map (fun t => t_ec (tob h t))), Hv|rewrite Q; simpl; auto]. }
    split.
    { intros v Hv. destruct (Tk v Hv) as (A & _ & _ & D). destruct (Ok' v Hv) as (O1 & (O2 & O3) & O4). rewrite A, D. split; [exact O1|]. split; [|rewrite (issubclass_ext h h') by exact Q1; exact O4]. destruct (All v Hv) as [Hv'| ->].
      - rewrite (Tup v Hv'). split; [exact O2|]. intros z Hz. destruct (O3 z Hz) as (Z1 & Z2 & Z3). destruct (Nob v z Hv' Hz) as (_ & Nx & _). destruct (Val z Z1 Nx) as (W1 & _ & _ & W4 & _). split; [lia|]. split; congruence.
      - split; [rewrite M2; rewrite M1 in O2; apply (NoDup_mid _ _ _ O2)|]. intros z Hz. destruct (O3 z (In' z Hz)) as (Z1 & Z2 & Z3). split; [lia|]. destruct (decide (z = x)) as [->|Nz].
        + destruct Vx as (W1 & _ & _ & W4). split; congruence.
        + destruct (Val z Z1 Nz) as (W1 & _ & _ & W4 & _). split; congruence. }
    intros v Hv. assert (Hv' : In v (us ++ [u])). { destruct us as [|a us]; cbn in Hv; injection Hv as <-; simpl; auto. }
    destruct (Tp v Hv) as [A B]. rewrite (Tup v Hv'). split.
    + apply (in_turn_same h h'); [|exact A]. intros z Hz. destruct (Up v z Hv' Hz) as (C & D & _). auto.
    + intros z Hz. destruct (Up v z Hv' Hz) as (C & D & K & _). destruct (B z Hz) as [B3 B4]. split; [apply (dated_same h h'); auto|congruence].
  - intros v z Hv Hz. rewrite rev_app_distr in Hv. cbn in Hv. injection Hv as <-. assert (Q : s_subset (sob h z) = []) by (apply (Bare t z); [rewrite rev_app_distr; reflexivity|apply In', Hz]).
    destruct (decide (z = x)) as [->|Nz]; [apply Sx|]. destruct (Val z (proj1 (Kt z (In' z Hz))) Nz) as (_ & _ & _ & _ & _ & W). rewrite W; [exact Q|]. intros ->. destruct (Ut u Iu') as [W2 _]. apply W2.
    destruct (Ku p Hpu) as (_ & <- & _). destruct (Kt p (In' p Hz)) as (_ & <- & _). reflexivity.
Qed.
End WithEnv.
