(** * RaggedFinal: relating tiers with gaps (C69). *)
From Verif Require Export RaggedProofs.
From Verif Require Import SnapFinal GapFinal QueryFinal.
From Verif Require Import ChildSpec MendSpec ChildFinal MendFinal MendGroupFinal RaggedProofs.
Open Scope Z_scope.

Section WithEnv.
Context `{Env}.
Opaque span_of.
Notation made_up c h h' ws ps := (adds c h h' ws ps (Slv ws None)).

(** What giving children to the intervals [U] and entries to the tier [d] leaves alone;
    [K] are the children. *)
Record tends (ts : list tid) (d : tid) (U K : list oid) (h h' : heap) : Prop := {
  te_rest : h_cls h' = h_cls h /\ h_grp h' = h_grp h /\ h_grid h' = h_grid h /\ List.length (h_tier h') = List.length (h_tier h);
  te_out : forall w, ~ In w ts -> tob h' w = tob h w;
  te_tier : forall w, t_ec (tob h' w) = t_ec (tob h w) /\ t_super (tob h' w) = t_super (tob h w) /\ t_sub (tob h' w) = t_sub (tob h w) /\
    t_name (tob h' w) = t_name (tob h w) /\ t_within (tob h' w) = t_within (tob h w);
  te_seq : forall w, w <> d -> t_seq (tob h' w) = t_seq (tob h w);
  te_len : (List.length (h_seq h) <= List.length (h_seq h'))%nat;
  te_new : forall i, live h' i -> ~ live h i -> ~ In i K -> is_boundary h' i;
  te_val : forall i, live h i -> s_cls (sob h' i) = s_cls (sob h i) /\ s_start (sob h' i) = s_start (sob h i) /\
       s_end (sob h' i) = s_end (sob h i) /\ s_label (sob h' i) = s_label (sob h i) /\
       (~ In i U -> s_subset (sob h' i) = s_subset (sob h i)) /\ (~ In i K -> s_super (sob h' i) = s_super (sob h i))
}.
Lemma tends_refl ts d U K h : tends ts d U K h h.
Proof. constructor; auto 10. intros; contradiction. Qed.
Lemma tends_bd ts d U K h h' k : tends ts d U K h h' -> ~ In k U -> ~ In k K -> is_boundary h k -> is_boundary h' k.
Proof.
  intros F Hu Hb (L & S1 & S2 & S3 & S4 & S5). destruct (te_val _ _ _ _ _ _ F k L) as (A1 & A2 & A3 & A4 & A5 & A6). pose proof (te_len _ _ _ _ _ _ F).
  unfold is_boundary. rewrite A2, A3, A4, A5, A6 by auto. split; [lia|auto].
Qed.
Lemma tends_trans ts d U1 U2 K1 K2 h h1 h2 : tends ts d U1 K1 h h1 -> tends ts d U2 K2 h1 h2 -> (forall y, In y U2 -> live h y) ->
  tends ts d (U1 ++ U2) (K1 ++ K2) h h2.
Proof.
  intros F G LU. pose proof F as [(A1 & A2 & A3 & A4) A5 A6 A7 A8 A9 A10]. pose proof G as [(B1 & B2 & B3 & B4) B5 B6 B7 B8 B9 B10]. constructor.
  - repeat split; congruence.
  - intros w Hw. rewrite B5, A5; auto.
  - intros w. destruct (A6 w) as (a1 & a2 & a3 & a4 & a5). destruct (B6 w) as (b3 & b4 & b5 & b6 & b7). repeat split; congruence.
  - intros w Hw. rewrite B7, A7; auto.
  - lia.
  - intros i Hi Hn Hk. rewrite in_app_iff in Hk. destruct (decide (live h1 i)) as [L1|L1]; [|apply B9; auto].
    eapply tends_bd; [exact G|intros Q; apply Hn, LU, Q|auto|]. apply A9; auto.
  - intros i Hi. assert (L1 : live h1 i) by (unfold live in *; lia). destruct (A10 i Hi) as (a1 & a2 & a3 & a4 & a5 & a6). destruct (B10 i L1) as (b3 & b4 & b5 & b6 & b7 & b8).
    split; [congruence|]. split; [congruence|]. split; [congruence|]. split; [congruence|]. split; intros Q; rewrite in_app_iff in Q; [rewrite b7, a5; auto|rewrite b8, a6; auto].
Qed.
Lemma tends_incl ts d U U' K K' h h' : tends ts d U K h h' -> incl U U' -> incl K K' -> tends ts d U' K' h h'.
Proof.
  intros [A1 A2 A3 A4 A5 A6 A7] IU IK. constructor; auto. intros i Hi. destruct (A7 i Hi) as (a1 & a2 & a3 & a4 & a5 & a6).
  split; [exact a1|]. split; [exact a2|]. split; [exact a3|]. split; [exact a4|]. split; auto.
Qed.
Lemma fed_tends ts u d b h h' : fed ts u d b h h' -> tends ts d [u] b h h'.
Proof.
  intros [A1 A2 A3 A4 A5 A6 A7]. constructor; auto. intros i Hi. destruct (A7 i Hi) as (a1 & a2 & a3 & a4 & a5 & a6).
  split; [exact a1|]. split; [exact a2|]. split; [exact a3|]. split; [exact a4|]. split; [intros Q; apply a5; intros ->; apply Q; simpl; auto|exact a6].
Qed.
Lemma reared_tends ts d u b h h1 : reared u b h h1 -> h_grid h1 = h_grid h -> (forall i, live h1 i -> ~ live h i -> is_boundary h1 i) -> tends ts d [u] b h h1.
Proof.
  intros R G Nw. assert (Et : forall w, tob h1 w = tob h w) by (intros w; unfold tob; rewrite (ra_tier _ _ _ _ R); reflexivity). constructor.
  - split; [apply R|]. split; [apply R|]. split; [exact G|]. rewrite (ra_tier _ _ _ _ R). reflexivity.
  - auto.
  - intros w. rewrite Et. auto.
  - intros w _. rewrite Et. reflexivity.
  - apply R.
  - auto.
  - intros i Hi. destruct (ra_val _ _ _ _ R i Hi) as (a1 & a2 & a3 & a4 & _). split; [exact a1|]. split; [exact a2|]. split; [exact a3|]. split; [exact a4|].
    split; [intros Q; apply (ra_kids _ _ _ _ R); [exact Hi|intros ->; apply Q; simpl; auto]|apply (ra_super _ _ _ _ R); exact Hi].
Qed.
Lemma made_tends ts d U c h h' ws ps : made_up c h h' ws ps -> tends ts d U ws h h'.
Proof.
  intros [(R1 & R2 & R3 & R4) Ln Od Nw Ws Nd Va Ec]. assert (Et : forall w, tob h' w = tob h w) by (intros w; unfold tob; rewrite R2; reflexivity). constructor.
  - repeat split; auto. rewrite R2. reflexivity.
  - auto.
  - intros w. rewrite Et. auto.
  - intros w _. rewrite Et. reflexivity.
  - exact Ln.
  - exact Nw.
  - intros i Hi. rewrite (Od i Hi). auto 10.
Qed.
(** ** One upper interval *)
Definition placed (sq : bool) (h h' : heap) (c : cid) (u : oid) (m k ns : list oid) : Prop :=
  s_subset (sob h' u) = k /\ (forall y, In y k -> s_super (sob h' y) = Some u) /\
  exists s e, s_start (sob h u) = Some s /\ s_end (sob h u) = Some e /\
   (m = [] /\ (exists w, k = [w] /\ ns = [w] /\ blank h h' c w s e) \/
    exists a z l r, first_start h m a /\ last_end h m z /\ edge sq h h' c s a s a l /\ edge sq h h' c e z z e r /\ k = (l ++ m ++ r)%list /\ ns = (l ++ r)%list).
Lemma mended_edges h h' c a0 l z k : mended h h' c a0 l z k -> abut h a0 l ->
  (forall q, (l = [] /\ q = a0) \/ (exists f, hd_error (rev l) = Some f /\ s_end (sob h f) = Some q) ->
  exists r, k = (l ++ r)%list /\ edge true h h' c z q q z r).
Proof.
  induction 1 as [a z N|a z w N B|a x s e l z b S E N M IH|a x s e l z b w S E N B M IH]; intros Ab q Hq.
  - destruct Hq as [[_ ->]|(f & Q & _)]; [|discriminate]. exists []. split; [reflexivity|]. left. auto.
  - destruct Hq as [[_ ->]|(f & Q & _)]; [|discriminate]. exists [w]. split; [reflexivity|]. right. split; [reflexivity|]. split; [exact N|]. exists w. auto.
  - destruct Ab as (s' & e' & S' & E' & _ & Ab). assert (e' = e) by congruence. subst e'. destruct (IH Ab q) as (r & -> & Ed).
    + destruct Hq as [[Q _]|(f & Q & Eq)]; [discriminate|]. destruct l as [|y l].
      * injection Q as <-. left. split; [reflexivity|congruence].
      * right. exists f. rewrite hd_rev_cons in Q. auto.
    + exists r. auto.
  - destruct Ab as (s' & e' & S' & E' & N' & Ab). assert (s' = s) by congruence. subst s'. contradiction.
Qed.
Lemma mended_placed h h' c s e m k : mended h h' c s m e k -> (exists f r q, m = f :: r /\ s_end (sob h f) = Some q /\ abut h q r) ->
  exists a z l r, first_start h m a /\ last_end h m z /\ edge true h h' c s a s a l /\ edge true h h' c e z z e r /\ k = (l ++ m ++ r)%list.
Proof.
  intros M (f & r & q & -> & Eq & Ab).
  assert (Lz : exists z, last_end h (f :: r) z).
  { clear M. revert f q Eq Ab. induction r as [|y r IH]; intros f q Eq Ab; [exists q, f; auto|]. destruct Ab as (s1 & e1 & S1 & E1 & _ & Ab). destruct (IH y e1 E1 Ab) as (z & k0 & K & Z).
    exists z, k0. rewrite hd_rev_cons. auto. }
  destruct Lz as (z & Lz).
  assert (Hq : (r = [] /\ z = q) \/ (exists f, hd_error (rev r) = Some f /\ s_end (sob h f) = Some z)).
  { destruct Lz as (k0 & K & Z). destruct r as [|y r]; [injection K as <-; left; split; [reflexivity|congruence]|right; exists k0; rewrite hd_rev_cons in K; auto]. }
  inversion M as [| |a x s1 e1 l z0 b S1 E1 N1 M1|a x s1 e1 l z0 b w S1 E1 N1 B1 M1]; subst.
  - assert (e1 = q) by congruence. subst e1. destruct (mended_edges _ _ _ _ _ _ _ M1 Ab z Hq) as (r' & -> & Ed).
    exists s1, z, [], r'. split; [exists f; auto|]. split; [exact Lz|]. split; [left; auto|]. split; [exact Ed|reflexivity].
  - assert (e1 = q) by congruence. subst e1. destruct (mended_edges _ _ _ _ _ _ _ M1 Ab z Hq) as (r' & -> & Ed).
    exists s1, z, [w], r'. split; [exists f; auto|]. split; [exact Lz|]. split; [right; split; [reflexivity|]; split; [exact N1|exists w; auto]|]. split; [exact Ed|reflexivity].
Qed.
(** The upper interval [u] from [s] to [e] and the children [m] it is to get. *)
Record slot (h : heap) (t d : tid) (u : oid) (m : list oid) (s e : Z) : Prop := {
  so_in : In u (t_seq (tob h t));
  so_lab : s_label (sob h u) <> "#"%string;
  so_sub : subset_class h (s_cls (sob h u)) = Some (t_ec (tob h d));
  so_start : s_start (sob h u) = Some s;
  so_end : s_end (sob h u) = Some e;
  so_lt : s < e;
  so_kids : linkable h (t_ec (tob h d)) m;
  so_super : forall y, In y m -> s_super (sob h y) = None;
  so_runs : runs h s m e;
  so_abut : m = [] \/ exists f r q, m = f :: r /\ s_end (sob h f) = Some q /\ abut h q r;
  so_own : ~ In u m;
  so_low : forall y q, In y (t_seq (tob h d)) -> s_start (sob h y) = Some q -> s <= q < e -> In y m
}.
Lemma runs_ext h h' l : (forall x, In x l -> s_start (sob h' x) = s_start (sob h x) /\ s_end (sob h' x) = s_end (sob h x)) -> forall a z, runs h a l z -> runs h' a l z.
Proof.
  induction l as [|y l IH]; intros V a z R; [exact R|]. destruct R as (s & e & A & B & C & D & R). destruct (V y) as [V1 V2]; [simpl; auto|].
  exists s, e. rewrite V1, V2. repeat split; auto. apply IH; [intros x Hx; apply V; simpl; auto|exact R].
Qed.
Lemma abut_ext h h' l : (forall x, In x l -> s_start (sob h' x) = s_start (sob h x) /\ s_end (sob h' x) = s_end (sob h x)) -> forall a, abut h a l -> abut h' a l.
Proof.
  induction l as [|y l IH]; intros V a R; [exact R|]. destruct R as (s & e & A & B & C & R). destruct (V y) as [V1 V2]; [simpl; auto|].
  exists s, e. rewrite V1, V2. repeat split; auto. apply IH; [intros x Hx; apply V; simpl; auto|exact R].
Qed.
Lemma edges_ext h h' l : (forall x, In x l -> s_start (sob h' x) = s_start (sob h x) /\ s_end (sob h' x) = s_end (sob h x)) ->
  forall a, (first_start h l a <-> first_start h' l a) /\ (last_end h l a <-> last_end h' l a).
Proof.
  intros V a. unfold first_start, last_end. split; (split; intros (f & F & Q); exists f; (split; [exact F|])).
  - destruct (V f) as [V1 V2]; [destruct l; [discriminate|injection F as ->; simpl; auto]|]. congruence.
  - destruct (V f) as [V1 V2]; [destruct l; [discriminate|injection F as ->; simpl; auto]|]. congruence.
  - destruct (V f) as [V1 V2]; [apply in_rev; destruct (rev l); [discriminate|injection F as ->; simpl; auto]|]. congruence.
  - destruct (V f) as [V1 V2]; [apply in_rev; destruct (rev l); [discriminate|injection F as ->; simpl; auto]|]. congruence.
Qed.
Lemma place_none n h g t d u s e sq i : skel h g [t; d] -> roomy h d [] -> slot h t d u [] s e -> nth_error (t_seq (tob h t)) i = Some u ->
  issubclass h (t_ec (tob h d)) cInterval = true -> (2 < n)%nat ->
  exists h' w, relate_one (S n) t d false sq i [] h = Ok tt h' /\ tends [t; d] d [u] [w] h h' /\ placed sq h h' (t_ec (tob h d)) u [] [w] [w] /\
    skel h' g [t; d] /\ roomy h' d [] /\ Permutation (t_seq (tob h' d)) (t_seq (tob h d) ++ [w]) /\ ~ live h w /\ s_start (sob h' w) = Some s.
Proof.
  intros Sk Ro [Hu Lab Sc Es Ee Lt Kd Su Ru Ab Ow Lo] Hi I Fu. set (c := t_ec (tob h d)) in *.
  assert (Pt : issubclass h c cPoint = false) by (destruct Ro as (_ & _ & Q & _); exact Q).
  destruct (sk_entry _ _ _ Sk t u ltac:(simpl; auto) Hu) as (Lu & Cu & Tu).
  destruct (adopt_none u h c Sc Lu) as (h1 & E1 & R1 & R2 & R3 & R4 & Le & Ot & Ou).
  assert (Re : reared u [] h h1).
  { constructor; auto; [lia| | |].
    - intros j _. destruct (Nat.eq_dec j u) as [->|Q]; [rewrite Ou; unfold kept; simpl; auto|rewrite Ot by exact Q; apply kept_refl].
    - intros j _ Q. rewrite Ot by exact Q. reflexivity.
    - intros j _ _. destruct (Nat.eq_dec j u) as [->|Q]; [rewrite Ou; reflexivity|rewrite Ot by exact Q; reflexivity]. }
  assert (Sk1 : skel h1 g [t; d]) by (eapply reared_skel; eauto). assert (Ro1 : roomy h1 d []) by (eapply reared_roomy; eauto).
  assert (T1 : tends [t; d] d [u] [] h h1) by (apply (reared_tends _ _ _ _ _ _ Re); [exact R4|intros j Q1 Q2; unfold live in *; lia]).
  assert (Et1 : forall w, tob h1 w = tob h w) by (intros w; unfold tob; rewrite R2; reflexivity).
  destruct (made_one c s e h1) as (h2 & w & E2 & M2); [rewrite (issubclass_ext h h1) by exact R1; exact I|].
  pose proof M2 as [(X1 & X2 & X3 & X4) Ln Od Nw Ws Nd _ _]. apply Forall2_cons_1 in Ws. destruct Ws as [Fw _].
  destruct (fresh_fields _ _ _ _ _ Fw) as (Lw & Cw & Sw & Ew & Bw & Pw & Kw & _). cbn [fst snd] in Sw, Ew.
  assert (Fw0 : ~ live h1 w) by (destruct Fw as [Q _]; unfold live; lia).
  assert (Et2 : forall v, tob h2 v = tob h v) by (intros v; rewrite <- Et1; unfold tob; rewrite X2; reflexivity).
  assert (Ou2 : sob h2 u = sob h1 u) by (apply Od; unfold live; lia).
  assert (Sk2 : skel h2 g [t; d]) by (apply (adds_skel h1 h2); auto).
  assert (Lo1 : forall y, In y (t_seq (tob h d)) -> live h1 y /\ sob h2 y = sob h1 y /\ s_start (sob h1 y) = s_start (sob h y)).
  { intros y Hy. destruct (sk_entry _ _ _ Sk d y ltac:(simpl; auto) Hy) as (A & _). split; [unfold live; lia|]. split; [apply Od; unfold live; lia|]. apply (ra_val _ _ _ _ Re y A). }
  assert (Ro2 : roomy h2 d [w]).
  { apply (adds_roomy h1 h2 d [w]); auto.
    - intros x [<-|[]]. exists (s, e). rewrite Et1. split; [exact Fw|exact Lt].
    - intros x y [<-|[]] [<-|[]] _. reflexivity.
    - intros x y [<-|[]] Hy Q. rewrite Et1 in Hy. destruct (Lo1 y Hy) as (A & B & C). rewrite B, C, Sw in Q. apply (Lo y s Hy); [auto|lia]. }
  assert (Fa2 : family h2 c u).
  { unfold family. rewrite Ou2, Ou. cbn. split; [lia|]. split; [exact Lab|]. split; [rewrite (subset_class_ext h h2) by congruence; exact Sc|]. split; [auto|].
    split; [apply NoDup_nil_2|]. split; [intros a b x y _ Q; destruct a; discriminate|]. split; [auto|]. intros y []. }
  assert (Ku2 : s_subset (sob h2 u) = []) by (rewrite Ou2, Ou; reflexivity).
  assert (Wu : w <> u) by (intros ->; apply Fw0; unfold live; lia).
  destruct (append_grouped (S n) h2 g [t; d] 0 t d u w Sk2 eq_refl eq_refl) as (h3 & h' & b & E3 & P3 & S3 & W3 & G3 & Sk3 & Up3 & Pm3).
  { rewrite Et2. exact Hu. } { rewrite Et2. exact Fa2. } { rewrite Ku2. intros (y & [] & _). } { exact Pw. }
  { cbn [drop sprout]. rewrite Et2. split; [exact Lw|]. split; [exact Cw|]. split; [rewrite Bw; discriminate|]. split; [apply (dated_by h2 w s e Sw Ew Lt)|exact Kw]. }
  { intros [|[|k]] v Hv; [|discriminate|destruct k; discriminate]. injection Hv as <-. exact Ro2. }
  { cbn [List.length]. lia. }
  rewrite Ku2 in P3. apply Permutation_sym, Permutation_length_1_inv in P3. subst b. rewrite Et2 in W3. fold c in W3.
  assert (Pd : Permutation (t_seq (tob h' d)) (t_seq (tob h d) ++ [w])) by (rewrite <- Et2; exact (Pm3 0%nat d eq_refl)).
  assert (Lu2 : live h2 u) by (unfold live; lia).
  assert (Nuw : ~ In u [w]) by (intros [Q|[]]; congruence).
  assert (F3 : fed [t; d] u d [w] h2 h').
  { eapply wired_grown_fed; eauto; [intros y [<-|[]]; exact Lw|]. intros v Hv. destruct (in_dec Nat.eq_dec v [t; d]) as [Q|Q].
    - destruct Q as [<-|[<-|[]]]; [|contradiction]. apply (Up3 0%nat t); auto.
    - rewrite (gn_out _ _ _ G3 v Q). unfold tob. destruct (wi_rest _ _ _ _ _ W3) as (_ & -> & _). reflexivity. }
  assert (Fa3 : family h' c u).
  { eapply wired_grown_family; eauto.
    - rewrite Ou2, Ou. exact Lab.
    - rewrite Ou2, Ou. rewrite (subset_class_ext h h2) by congruence. exact Sc.
    - intros y [<-|[]]. split; [exact Lw|]. split; [exact Cw|]. split; [rewrite Bw; discriminate|]. split; eauto. }
  assert (Ku3 : s_subset (sob h' u) = [w]).
  { destruct (grown_view [t; d] h3 h' u G3) as [-> _]. destruct (wired_one _ _ _ _ _ W3) as (V1 & _). rewrite V1. reflexivity. }
  destruct (fe_val _ _ _ _ _ _ F3 u Lu2) as (_ & U2 & U3 & _). destruct (fe_val _ _ _ _ _ _ F3 w Lw) as (W1 & W2 & W4 & W5 & W6 & _).
  assert (Es3 : s_start (sob h' u) = Some s) by (rewrite U2, Ou2, Ou; exact Es). assert (Ee3 : s_end (sob h' u) = Some e) by (rewrite U3, Ou2, Ou; exact Ee).
  pose proof (fe_len _ _ _ _ _ _ F3) as Le3. destruct (fe_rest _ _ _ _ _ _ F3) as (Y1 & Y2 & Y3 & Y4).
  exists h', w. split; [|split; [|split; [|split; [exact Sk3|split; [|split; [exact Pd|split; [intros Q; apply Fw0; unfold live in *; lia|congruence]]]]]]].
  - unfold relate_one. mstep. rewrite Hi. rewrite (bind_ok _ _ _ _ _ E1). change (get_seq u) with (gets (fun h => sob h u)). mstep.
    assert (Q : s_subset (sob h1 u) = []) by (rewrite Ou; reflexivity). rewrite Q.
    assert (Q1 : s_start (sob h1 u) = Some s) by (rewrite Ou; exact Es). assert (Q2 : s_end (sob h1 u) = Some e) by (rewrite Ou; exact Ee).
    assert (Q3 : subset_class h1 (s_cls (sob h1 u)) = Some c) by (rewrite Ou, (subset_class_ext h h1) by auto; exact Sc).
    rewrite Q1, Q2. rewrite bind_assoc. mstep. rewrite Q3. rewrite !bind_assoc. rewrite (bind_ok _ _ _ _ _ E2). rewrite !bind_assoc. rewrite (bind_ok _ _ _ _ _ E3).
    rewrite !bind_assoc. rewrite (bind_ok _ _ _ false h').
    2: { apply append_again; [|apply (Permutation_in w (Permutation_sym Pd)), in_app_iff; simpl; auto]. rewrite W1, Cw. destruct (fe_tier _ _ _ _ _ _ F3 d) as (-> & _). rewrite Et2. reflexivity. }
    mstep. unfold when at 1. mstep. destruct sq; [|reflexivity]. unfold when.
    apply (snug_still n h' c u s e Fa3); auto.
    + rewrite Ku3. discriminate.
    + rewrite (issubclass_ext h h') by congruence. exact Pt.
    + rewrite Ku3. exists s, e. split; [congruence|]. split; [congruence|]. split; apply near_refl.
  - change [u] with ([u] ++ [])%list. apply (tends_incl _ _ ([u] ++ [u]) _ ([] ++ [w]) _); [|intros y Hy; simpl in *; intuition|intros y Hy; exact Hy].
    apply (tends_trans _ _ _ _ _ _ _ h1); [exact T1| |intros y [<-|[]]; exact Lu].
    apply (tends_incl _ _ ([] ++ [u]) _ ([w] ++ [w]) _); [|intros y Hy; exact Hy|intros y Hy; simpl in *; intuition].
    apply (tends_trans _ _ _ _ _ _ _ h2); [eapply made_tends; eauto|apply fed_tends; exact F3|intros y [<-|[]]; unfold live; lia].
  - split; [exact Ku3|]. split; [intros y [<-|[]]; apply Fa3; rewrite Ku3; simpl; auto|]. exists s, e. split; [exact Es|]. split; [exact Ee|]. left. split; [reflexivity|].
    exists w. split; [reflexivity|]. split; [reflexivity|]. split; [destruct Fw; lia|]. rewrite W1, W2, W4, W5, W6 by exact Wu. auto.
  - apply (fed_roomy [t; d] u d [w] h2 h' w []); auto; [apply (sk_classed _ _ _ Sk3); simpl; auto|rewrite Et2; exact Pd].
Qed.
Lemma blank_base h0 h h' c w a b : (List.length (h_seq h0) <= List.length (h_seq h))%nat -> blank h h' c w a b -> blank h0 h' c w a b.
Proof. intros Le (L & B). split; [lia|exact B]. Qed.
Lemma edge_base sq h0 h h' c x y a b l : (List.length (h_seq h0) <= List.length (h_seq h))%nat -> edge sq h h' c x y a b l -> edge sq h0 h' c x y a b l.
Proof.
  intros Le [Q|(A & B & w & -> & C)]; [left; exact Q|right]. split; [exact A|]. split; [exact B|]. exists w. split; [reflexivity|]. eapply blank_base; eauto.
Qed.
Lemma place_some n h g t d u m s e sq i lows : skel h g [t; d] -> roomy h d [] -> slot h t d u m s e -> nth_error (t_seq (tob h t)) i = Some u -> m <> [] -> Permutation lows m ->
  issubclass h (t_ec (tob h d)) cBottom = false -> issubclass h (t_ec (tob h d)) cInterval = true -> (2 < n)%nat ->
  exists h' k ns, relate_one (S n) t d false sq i lows h = Ok tt h' /\ tends [t; d] d [u] k h h' /\ placed sq h h' (t_ec (tob h d)) u m k ns /\
    skel h' g [t; d] /\ roomy h' d [] /\ Permutation (t_seq (tob h' d)) (t_seq (tob h d) ++ ns) /\
    (forall w, In w ns -> ~ live h w /\ exists q, s_start (sob h' w) = Some q /\ s <= q < e).
Proof.
  intros Sk Ro [Hu Lab Sc Es Ee Lt Kd Su Ru Ab Ow Lo] Hi Ne Pl Nb I Fu. set (c := t_ec (tob h d)) in *.
  assert (Pt : issubclass h c cPoint = false) by (destruct Ro as (_ & _ & Q & _); exact Q).
  destruct (sk_entry _ _ _ Sk t u ltac:(simpl; auto) Hu) as (Lu & Cu & Tu). destruct (runs_rising _ _ _ _ Ru) as [Ri _].
  assert (Tm : forall x, In x m -> exists a z, s_start (sob h x) = Some a /\ s_end (sob h x) = Some z /\ s <= a /\ a < z /\ z <= e) by (intros x Hx; apply (runs_each h m s e x Ru Hx)).
  assert (Kn : known_starts h m) by (intros x Hx; destruct (Tm x Hx) as (a & z & Q & _); eauto).
  assert (Su' : forall y, In y m -> s_super (sob h y) = None \/ s_super (sob h y) = Some u) by (intros y Hy; left; apply Su, Hy).
  destruct (adopt_own u m c h Lu Sc Kd Ne (rising_sorted _ _ Ri) Kn Su' Ow Lab) as (h1 & E1 & W1).
  rewrite <- (adopt_perm u lows m c h Pl Sc Kd Ne Ri Kn Su' Ow Lu) in E1.
  assert (Re : reared u m h h1) by (eapply wired_reared; eauto).
  destruct (wired_one _ _ _ _ _ W1) as (V1 & V2 & V3 & V4). pose proof (wi_rest _ _ _ _ _ W1) as (R1 & R2 & R3 & R4). pose proof (wi_len _ _ _ _ _ W1) as Le.
  assert (Et : forall w, tob h1 w = tob h w) by (intros w; unfold tob; rewrite R2; reflexivity).
  assert (Sk1 : skel h1 g [t; d]) by (eapply reared_skel; eauto). assert (Ro1 : roomy h1 d []) by (eapply reared_roomy; eauto).
  assert (T1 : tends [t; d] d [u] m h h1) by (apply (reared_tends _ _ _ _ _ _ Re); [exact R4|apply (wi_new _ _ _ _ _ W1)]).
  assert (Fa1 : family h1 c u).
  { destruct (wired_rears c u m h h1 W1 Lu Lab Sc Ow) as ((_ & _ & _ & _ & _ & Fa) & _); [apply Kd|apply rising_sorted; exact Ri| |exact Fa].
    intros y Hy. destruct Kd as [_ Kd]. destruct (Kd y Hy) as (A & B & C). destruct (Tm y Hy) as (a & z & Q1 & Q2 & _). split; [exact A|]. split; [exact B|]. split; [exact C|]. split; eauto. }
  assert (Ku : s_subset (sob h1 u) = m) by (rewrite V1; reflexivity).
  assert (Vm : forall x, In x m -> s_start (sob h1 x) = s_start (sob h x) /\ s_end (sob h1 x) = s_end (sob h x)).
  { intros x Hx. destruct (V2 x Hx) as (_ & A & B & _). auto. }
  assert (Ab1 : exists f r q, m = f :: r /\ s_end (sob h1 f) = Some q /\ abut h1 q r).
  { destruct Ab as [Q|(f & r & q & -> & Eq & Ab)]; [contradiction|]. exists f, r, q. split; [reflexivity|]. destruct (Vm f ltac:(simpl; auto)) as [_ ->]. split; [exact Eq|].
    apply (abut_ext h h1); [|exact Ab]. intros x Hx. apply Vm. simpl. auto. }
  assert (Es1 : s_start (sob h1 u) = Some s) by (rewrite V1; exact Es). assert (Ee1 : s_end (sob h1 u) = Some e) by (rewrite V1; exact Ee).
  assert (Run : relate_one (S n) t d false sq i lows h = when sq (seq_cleanup (S n) u) h1).
  { unfold relate_one. mstep. rewrite Hi. rewrite (bind_ok _ _ _ _ _ E1). change (get_seq u) with (gets (fun h => sob h u)). mstep. rewrite Ku.
    destruct m as [|f r]; [contradiction|]. mstep. unfold when at 1. mstep. reflexivity. }
  destruct sq.
  - destruct (mend_grouped n h1 g [t; d] 0 t d u s e Sk1 eq_refl eq_refl eq_refl) as
     (h' & b & ws & B1 & B2 & B3 & B4 & B5 & B6 & B7 & B8 & B9 & B10 & B11 & B12 & B13 & B14 & B15 & B16 & B17 & B18 & B19 & B20 & B21 & B22).
    { rewrite Et. exact Hu. } { rewrite Et. exact Fa1. } { rewrite Ku. exact Ne. } { exact Es1. } { exact Ee1. }
    { rewrite Ku. apply (runs_ext h h1); auto. } { rewrite Et, (issubclass_ext h h1) by exact R1. exact Nb. } { rewrite Et, (issubclass_ext h h1) by exact R1. exact I. }
    { exact Ro1. }
    { rewrite Ku, Et. intros y q Hy Q Hq. destruct (sk_entry _ _ _ Sk d y ltac:(simpl; auto) Hy) as (A & _). apply (Lo y q Hy); [|exact Hq]. rewrite <- Q. symmetry. apply (ra_val _ _ _ _ Re y A). }
    { cbn [List.length]. lia. }
    rewrite Ku in B2, B8. rewrite Et in B2, B10.
    destruct (mended_placed _ _ _ _ _ _ _ B2 Ab1) as (a & z & l & r & Fs & Ls & El & Er & Qb). fold c in El, Er.
    assert (Pw : Permutation (l ++ r) ws).
    { apply (Permutation_app_inv_r m). rewrite <- B8, Qb, <- app_assoc. apply Permutation_app_head, Permutation_app_comm. }
    destruct (edges_ext h h1 m Vm a) as [Fe _]. destruct (edges_ext h h1 m Vm z) as [_ Le'].
    exists h', b, (l ++ r)%list. split; [rewrite Run; exact B1|]. split; [|split; [|split; [exact B12|split; [exact B13|split; [rewrite Pw; exact B10|]]]]].
    + apply (tends_incl _ _ ([u] ++ [u]) _ (m ++ b) _); [|intros y Hy; simpl in *; intuition|].
      * apply (tends_trans _ _ _ _ _ _ _ h1); [exact T1| |intros y [<-|[]]; exact Lu]. constructor; auto.
        -- intros j Lj Nj Hj. apply B15; [unfold live in *; lia|]. intros Q. apply Hj. apply (Permutation_in j (Permutation_sym B8)), in_app_iff. auto.
        -- intros j Lj. destruct (B14 j Lj) as (C1 & C2 & C3 & C4 & C5 & C6). split; [exact C1|]. split; [exact C2|]. split; [exact C3|]. split; [exact C4|].
           split; [intros Q; apply C5; intros ->; apply Q; simpl; auto|exact C6].
      * intros y Hy. apply in_app_iff in Hy. destruct Hy as [Hy|Hy]; [|exact Hy]. apply (Permutation_in y (Permutation_sym B8)), in_app_iff. auto.
    + split; [exact B3|]. split; [exact B6|]. exists s, e. split; [exact Es|]. split; [exact Ee|]. right. exists a, z, l, r.
      split; [apply Fe; exact Fs|]. split; [apply Le'; exact Ls|]. split; [eapply edge_base; eauto|]. split; [eapply edge_base; eauto|]. auto.
    + intros w Hw. apply (Permutation_in w Pw) in Hw. specialize (B9 w Hw). split; [unfold live; lia|].
      destruct (runs_each h' b s e w B4) as (q & q' & Q1 & _ & Q3 & Q4 & Q5); [apply (Permutation_in w (Permutation_sym B8)), in_app_iff; auto|]. exists q. split; [exact Q1|lia].
  - assert (Lk : exists a z, first_start h m a /\ last_end h m z).
    { destruct m as [|f r]; [contradiction|]. destruct (runs_ends h f r s e Ru) as (p & q & Q1 & Q2 & _). eauto. }
    destruct Lk as (a & z & Fs & Ls).
    exists h1, m, []. split; [rewrite Run; reflexivity|]. split; [exact T1|]. split; [|split; [exact Sk1|split; [exact Ro1|split; [rewrite app_nil_r, Et; reflexivity|intros w []]]]].
    split; [exact Ku|]. split; [intros y Hy; apply (V2 y Hy)|]. exists s, e. split; [exact Es|]. split; [exact Ee|]. right. exists a, z, [], [].
    split; [exact Fs|]. split; [exact Ls|]. split; [left; auto|]. split; [left; auto|]. rewrite app_nil_r. auto.
Qed.
Lemma place_one n h g t d u m s e sq i lows : skel h g [t; d] -> roomy h d [] -> slot h t d u m s e -> nth_error (t_seq (tob h t)) i = Some u -> Permutation lows m ->
  issubclass h (t_ec (tob h d)) cBottom = false -> issubclass h (t_ec (tob h d)) cInterval = true -> (2 < n)%nat ->
  exists h' k ns, relate_one (S n) t d false sq i lows h = Ok tt h' /\ tends [t; d] d [u] k h h' /\ placed sq h h' (t_ec (tob h d)) u m k ns /\
    skel h' g [t; d] /\ roomy h' d [] /\ Permutation (t_seq (tob h' d)) (t_seq (tob h d) ++ ns) /\
    (forall w, In w ns -> ~ live h w /\ exists q, s_start (sob h' w) = Some q /\ s <= q < e).
Proof.
  intros Sk Ro So Hi Pl Nb I Fu. destruct m as [|f r].
  - apply Permutation_sym, Permutation_nil in Pl. subst lows.
    destruct (place_none n h g t d u s e sq i Sk Ro So Hi I Fu) as (h' & w & A1 & A2 & A3 & A4 & A5 & A6 & A7 & A8).
    exists h', [w], [w]. repeat (split; [assumption|]). intros x [<-|[]]. split; [exact A7|]. exists s. split; [exact A8|]. pose proof (so_lt _ _ _ _ _ _ _ So). lia.
  - apply (place_some n h g t d u (f :: r) s e sq i lows); auto.
Qed.
Lemma edge_fresh sq h h' c x y a b l w : edge sq h h' c x y a b l -> In w l -> (List.length (h_seq h) <= w < List.length (h_seq h'))%nat.
Proof. intros [[_ ->]|(_ & _ & v & -> & (B & _))]; [intros []|intros [<-|[]]; exact B]. Qed.
Lemma placed_in sq h h' c u m k ns y : placed sq h h' c u m k ns -> In y k -> In y m \/ (List.length (h_seq h) <= y < List.length (h_seq h'))%nat.
Proof.
  intros (_ & _ & s & e & _ & _ & [(-> & w & -> & _ & (B & _))|(a & z & l & r & _ & _ & L & R & -> & _)]) Hy.
  - destruct Hy as [<-|[]]. right. exact B.
  - apply in_app_iff in Hy. destruct Hy as [Hy|Hy]; [right; exact (edge_fresh _ _ _ _ _ _ _ _ _ _ L Hy)|].
    apply in_app_iff in Hy. destruct Hy as [Hy|Hy]; [left; exact Hy|right; exact (edge_fresh _ _ _ _ _ _ _ _ _ _ R Hy)].
Qed.
Lemma blank_tends ts d U K h h1 h2 c w a b : tends ts d U K h1 h2 -> (forall x, In x U -> live h x) -> blank h h1 c w a b -> blank h h2 c w a b.
Proof.
  intros T LU (L & A & B & C & D & F). pose proof (te_len _ _ _ _ _ _ T) as Le. destruct (te_val _ _ _ _ _ _ T w) as (V1 & V2 & V3 & V4 & V5 & _); [unfold live; lia|].
  split; [lia|]. rewrite V1, V2, V3, V4, V5; [auto|]. intros Q. apply LU in Q. unfold live in Q. lia.
Qed.
Lemma edge_tends ts d U K sq h h1 h2 c x y a b l : tends ts d U K h1 h2 -> (forall x, In x U -> live h x) -> edge sq h h1 c x y a b l -> edge sq h h2 c x y a b l.
Proof.
  intros T LU [Q|(A & B & w & -> & C)]; [left; exact Q|right]. split; [exact A|]. split; [exact B|]. exists w. split; [reflexivity|]. eapply blank_tends; eauto.
Qed.
Lemma placed_tends ts d U K sq h h1 h2 c u m k ns : tends ts d U K h1 h2 -> (forall x, In x U -> live h x) -> live h1 u -> ~ In u U ->
  (forall y, In y k -> live h1 y /\ ~ In y K) -> placed sq h h1 c u m k ns -> placed sq h h2 c u m k ns.
Proof.
  intros T LU Lu Nu Hk (A & B & s & e & Es & Ee & P). destruct (te_val _ _ _ _ _ _ T u Lu) as (_ & _ & _ & _ & V & _).
  split; [rewrite V by exact Nu; exact A|]. split.
  - intros y Hy. destruct (Hk y Hy) as [Ly Ny]. destruct (te_val _ _ _ _ _ _ T y Ly) as (_ & _ & _ & _ & _ & Q). rewrite Q by exact Ny. apply B, Hy.
  - exists s, e. split; [exact Es|]. split; [exact Ee|]. destruct P as [(-> & w & Q1 & Q2 & Bw)|(a & z & l & r & Fs & Ls & L & R & Q1 & Q2)].
    + left. split; [reflexivity|]. exists w. split; [exact Q1|]. split; [exact Q2|]. eapply blank_tends; eauto.
    + right. exists a, z, l, r. split; [exact Fs|]. split; [exact Ls|]. split; [eapply edge_tends; eauto|]. split; [eapply edge_tends; eauto|]. auto.
Qed.
Lemma placed_base ts d U K sq h h1 h2 c u m k ns : tends ts d U K h h1 -> live h u -> (forall y, In y m -> live h y) -> placed sq h1 h2 c u m k ns -> placed sq h h2 c u m k ns.
Proof.
  intros T Lu Lm (A & B & s & e & Es & Ee & P). pose proof (te_len _ _ _ _ _ _ T) as Le. destruct (te_val _ _ _ _ _ _ T u Lu) as (_ & V1 & V2 & _).
  assert (V : forall x, In x m -> s_start (sob h1 x) = s_start (sob h x) /\ s_end (sob h1 x) = s_end (sob h x)).
  { intros x Hx. destruct (te_val _ _ _ _ _ _ T x (Lm x Hx)) as (_ & Q1 & Q2 & _). auto. }
  split; [exact A|]. split; [exact B|]. exists s, e. split; [congruence|]. split; [congruence|].
  destruct P as [(-> & w & Q1 & Q2 & Bw)|(a & z & l & r & Fs & Ls & L & R & Q1 & Q2)].
  - left. split; [reflexivity|]. exists w. split; [exact Q1|]. split; [exact Q2|]. eapply blank_base; eauto.
  - right. exists a, z, l, r. destruct (edges_ext h h1 m V a) as [Q3 _]. destruct (edges_ext h h1 m V z) as [_ Q4].
    split; [apply Q3; exact Fs|]. split; [apply Q4; exact Ls|]. split; [eapply edge_base; eauto|]. split; [eapply edge_base; eauto|]. auto.
Qed.
Lemma slot_tends ts t d U K h h1 u m s e : tends ts d U K h h1 -> t <> d -> live h u -> (forall y, In y m -> ~ In y K) ->
  (forall y q, In y (t_seq (tob h1 d)) -> ~ In y (t_seq (tob h d)) -> s_start (sob h1 y) = Some q -> s <= q < e -> False) ->
  (forall y, In y (t_seq (tob h d)) -> live h y) -> slot h t d u m s e -> slot h1 t d u m s e.
Proof.
  intros T Nd Lu Hm Nw LL [Hu Lab Sc Es Ee Lt (Kd1 & Kd2) Su Ru Ab Ow Lo]. destruct (te_rest _ _ _ _ _ _ T) as (R1 & _).
  destruct (te_tier _ _ _ _ _ _ T d) as (Ed & _). destruct (te_val _ _ _ _ _ _ T u Lu) as (V1 & V2 & V3 & V4 & _). pose proof (te_len _ _ _ _ _ _ T) as Le.
  assert (V : forall x, In x m -> s_start (sob h1 x) = s_start (sob h x) /\ s_end (sob h1 x) = s_end (sob h x)).
  { intros x Hx. destruct (Kd2 x Hx) as (Lx & _). destruct (te_val _ _ _ _ _ _ T x Lx) as (_ & Q1 & Q2 & _). auto. }
  constructor.
  - rewrite (te_seq _ _ _ _ _ _ T) by exact Nd. exact Hu.
  - rewrite V4. exact Lab.
  - rewrite V1, Ed, (subset_class_ext h h1) by exact R1. exact Sc.
  - congruence.
  - congruence.
  - exact Lt.
  - rewrite Ed. split; [exact Kd1|]. intros x Hx. destruct (Kd2 x Hx) as (Lx & Q1 & Q2). destruct (te_val _ _ _ _ _ _ T x Lx) as (W1 & _ & _ & W2 & _). rewrite W1, W2. split; [lia|]. auto.
  - intros y Hy. destruct (Kd2 y Hy) as (Lx & _). destruct (te_val _ _ _ _ _ _ T y Lx) as (_ & _ & _ & _ & _ & Q). rewrite Q by (apply Hm, Hy). apply Su, Hy.
  - apply (runs_ext h h1); auto.
  - destruct Ab as [Q|(f & r & q & -> & Q & Ab)]; [left; exact Q|right]. exists f, r, q. split; [reflexivity|]. destruct (V f ltac:(simpl; auto)) as [_ ->]. split; [exact Q|].
    apply (abut_ext h h1); [|exact Ab]. intros x Hx. apply V. simpl. auto.
  - exact Ow.
  - intros y q Hy Q Hq. destruct (in_dec Nat.eq_dec y (t_seq (tob h d))) as [Hy'|Hy']; [|exfalso; eapply Nw; eauto].
    apply (Lo y q Hy'); [|exact Hq]. rewrite <- Q. symmetry. apply (te_val _ _ _ _ _ _ T y (LL y Hy')).
Qed.
Lemma place_all n g t d sq c : t <> d -> (2 < n)%nat -> forall U ms lss pre h, skel h g [t; d] -> roomy h d [] -> t_ec (tob h d) = c ->
  t_seq (tob h t) = (pre ++ U)%list -> Forall2 (fun l m => Permutation l m) lss ms -> Forall2 (fun u m => exists s e, slot h t d u m s e) U ms ->
  in_turn h U -> NoDup U -> NoDup (concat ms) -> issubclass h c cBottom = false -> issubclass h c cInterval = true ->
  exists h' outs, relate_all (S n) t d false sq (List.length pre) lss h = Ok tt h' /\ tends [t; d] d U (concat (map fst outs)) h h' /\
    Forall2 (fun um o => placed sq h h' c (fst um) (snd um) (fst o) (snd o)) (combine U ms) outs /\ skel h' g [t; d] /\ roomy h' d [] /\
    Permutation (t_seq (tob h' d)) (t_seq (tob h d) ++ concat (map snd outs)) /\
    (forall y, In y (concat (map fst outs)) -> In y (concat ms) \/ ~ live h y).
Proof.
  intros Nd Fu. induction U as [|u U IH]; intros ms lss pre h Sk Ro Ec Et Pl So Tu NU NM Nb I.
  { apply Forall2_nil_inv_l in So. subst ms. apply Forall2_nil_inv_r in Pl. subst lss. exists h, [].
    split; [reflexivity|]. split; [apply tends_refl|]. split; [constructor|]. split; [exact Sk|]. split; [exact Ro|]. split; [simpl; rewrite app_nil_r; reflexivity|intros y []]. }
  apply Forall2_cons_inv_l in So. destruct So as (m & ms' & (s & e & So1) & So & ->). apply Forall2_cons_inv_r in Pl. destruct Pl as (lows & lss' & Pl1 & Pl & ->).
  rename ms' into ms. rename lss' into lss. cbn [concat] in NM. apply NoDup_app in NM. destruct NM as (NM1 & NM2 & NM3).
  apply NoDup_cons in NU. destruct NU as [NU1 NU2]. rewrite elem_of_list_In in NU1. apply in_turn_cons in Tu. destruct Tu as [Tb Tu].
  assert (Hi : nth_error (t_seq (tob h t)) (List.length pre) = Some u) by (rewrite Et, nth_error_app2, Nat.sub_diag by lia; reflexivity).
  assert (LU : forall x, In x (u :: U) -> live h x).
  { intros x Hx. apply (sk_entry _ _ _ Sk t x); [simpl; auto|]. rewrite Et, in_app_iff. auto. }
  assert (LL : forall y, In y (t_seq (tob h d)) -> live h y) by (intros y Hy; apply (sk_entry _ _ _ Sk d y); [simpl; auto|exact Hy]).
  assert (Lm : forall m', In m' (m :: ms) -> forall y, In y m' -> live h y).
  { intros m' [<-|Hm'] y Hy; [destruct (so_kids _ _ _ _ _ _ _ So1) as [_ Q]; apply (Q y Hy)|].
    destruct (Forall2_in_r _ _ _ _ So Hm') as (u' & _ & s' & e' & So'). destruct (so_kids _ _ _ _ _ _ _ So') as [_ Q]; apply (Q y Hy). }
  destruct (place_one n h g t d u m s e sq (List.length pre) lows Sk Ro So1 Hi Pl1) as (h1 & k & ns & E1 & T1 & P1 & Sk1 & Ro1 & Pm1 & N1);
    [rewrite Ec; exact Nb|rewrite Ec; exact I|exact Fu|]. rewrite Ec in P1.
  destruct (te_rest _ _ _ _ _ _ T1) as (R1 & _). destruct (te_tier _ _ _ _ _ _ T1 d) as (Ed & _).
  destruct (IH ms lss (pre ++ [u])%list h1 Sk1 Ro1) as (h2 & outs & E2 & T2 & P2 & Sk2 & Ro2 & Pm2 & N2).
  { congruence. }
  { rewrite (te_seq _ _ _ _ _ _ T1) by exact Nd. rewrite Et, <- app_assoc. reflexivity. }
  { exact Pl. }
  { eapply Forall2_weaken; [exact So|]. intros u' m' Hu' Hm' (s' & e' & So'). exists s', e'. apply (slot_tends [t; d] t d [u] k h h1); auto.
    - apply LU. simpl. auto.
    - intros y Hy Q. destruct (placed_in _ _ _ _ _ _ _ _ _ P1 Q) as [Q'|Q'].
      + apply (NM2 y); rewrite elem_of_list_In; [exact Q'|]. apply (in_concat' y m'); auto.
      + pose proof (Lm m' ltac:(simpl; auto) y Hy) as L. unfold live in L. lia.
    - intros y q Hy Ny Q Hq. apply (Permutation_in y Pm1) in Hy. apply in_app_iff in Hy. destruct Hy as [Hy|Hy]; [contradiction|].
      destruct (N1 y Hy) as (_ & q' & Q1 & Q2). assert (q' = q) by congruence. subst q'. destruct (Tb u' Hu') as (e1 & s1 & B1 & B2 & B3).
      pose proof (so_end _ _ _ _ _ _ _ So1). pose proof (so_start _ _ _ _ _ _ _ So'). assert (e1 = e) by congruence. assert (s1 = s') by congruence. lia. }
  { intros a b x y Hab Hx Hy. destruct (Tu a b x y Hab Hx Hy) as (p & q & Q1 & Q2 & Q3). exists p, q.
    destruct (te_val _ _ _ _ _ _ T1 x) as (_ & _ & V1 & _); [apply LU; right; eapply nth_error_In; eauto|].
    destruct (te_val _ _ _ _ _ _ T1 y) as (_ & V2 & _); [apply LU; right; eapply nth_error_In; eauto|]. rewrite V1, V2. auto. }
  { exact NU2. } { exact NM3. } { rewrite (issubclass_ext h h1) by exact R1. exact Nb. } { rewrite (issubclass_ext h h1) by exact R1. exact I. }
  assert (LU2 : forall x, In x U -> live h x) by (intros x Hx; apply LU; simpl; auto).
  exists h2, ((k, ns) :: outs). split; [|split; [|split; [|split; [exact Sk2|split; [exact Ro2|split]]]]].
  - cbn [relate_all]. rewrite (bind_ok _ _ _ _ _ E1). rewrite app_length in E2. cbn [List.length] in E2. replace (S (List.length pre)) with (List.length pre + 1)%nat by lia. exact E2.
  - cbn [map concat fst]. apply (tends_trans [t; d] d [u] U k _ h h1); auto.
  - cbn [combine]. constructor.
    + cbn [fst snd]. apply (placed_tends _ _ _ _ _ _ _ _ _ _ _ _ _ T2 LU2); auto.
      * pose proof (te_len _ _ _ _ _ _ T1). pose proof (LU u ltac:(simpl; auto)) as L. unfold live in *. lia.
      * intros y Hy. pose proof (te_len _ _ _ _ _ _ T1). destruct (placed_in _ _ _ _ _ _ _ _ _ P1 Hy) as [Q|Q].
        -- pose proof (Lm m ltac:(simpl; auto) y Q) as L. assert (L1 : live h1 y) by (unfold live in *; lia). split; [exact L1|].
           intros Q'. apply N2 in Q'. destruct Q' as [Q'|Q']; [|contradiction]. apply (NM2 y); rewrite elem_of_list_In; auto.
        -- assert (L1 : live h1 y) by (unfold live; lia). split; [exact L1|]. intros Q'. apply N2 in Q'. destruct Q' as [Q'|Q']; [|contradiction].
           apply in_concat in Q'. destruct Q' as (m' & Hm' & Q'). pose proof (Lm m' ltac:(simpl; auto) y Q') as L. unfold live in L. lia.
    + eapply Forall2_weaken; [exact P2|]. intros [u' m'] o Hum _ Po. cbn [fst snd] in *. pose proof (in_combine_l _ _ _ _ Hum). pose proof (in_combine_r _ _ _ _ Hum).
      apply (placed_base _ _ _ _ _ _ _ _ _ _ _ _ _ T1); auto. apply Lm. simpl. auto.
  - cbn [map concat snd]. rewrite Pm2, Pm1, <- app_assoc. reflexivity.
  - cbn [map concat fst]. intros y Hy. apply in_app_iff in Hy. rewrite in_app_iff. destruct Hy as [Hy|Hy].
    + destruct (placed_in _ _ _ _ _ _ _ _ _ P1 Hy) as [Q|Q]; [auto|]. right. unfold live. lia.
    + destruct (N2 y Hy) as [Q|Q]; [auto|]. right. intros L. apply Q. pose proof (te_len _ _ _ _ _ _ T1). unfold live in *. lia.
Qed.

(** ** Making the group *)
Lemma runs_le h l : forall a m z, a <= m -> runs h m l z -> runs h a l z.
Proof. destruct l as [|x l]; intros a m z L R; [cbn [runs] in *; lia|]. destruct R as (s & e & A & B & C & R). exists s, e. split; [exact A|]. split; [exact B|]. split; [lia|exact R]. Qed.
Lemma runs_app h l k : forall a m z, runs h a l m -> runs h m k z -> runs h a (l ++ k) z.
Proof.
  induction l as [|x l IH]; intros a m z R Q; [exact (runs_le h k a m z R Q)|]. destruct R as (s & e & A & B & C & D & R). exists s, e. repeat (split; [assumption|]). apply (IH e m z R Q).
Qed.
Lemma nested_runs h : forall U bs a, in_turn h U -> nested h U bs -> (forall u s, In u U -> s_start (sob h u) = Some s -> a <= s) ->
  exists z, a <= z /\ runs h a (concat bs) z /\ runs h a U z.
Proof.
  induction U as [|u U IH]; intros bs a T N G; [apply Forall2_nil_inv_l in N; subst bs; exists a; cbn; lia|].
  apply Forall2_cons_inv_l in N. destruct N as (b & bs' & (s & e & Es & Ee & Lt & R) & N & ->). apply in_turn_cons in T. destruct T as [Bf T].
  destruct (IH bs' e T N) as (z & Lz & R1 & R2).
  { intros v q Hv Q. destruct (Bf v Hv) as (p & q' & Q1 & Q2 & Q3). assert (p = e) by congruence. assert (q' = q) by congruence. lia. }
  pose proof (G u s ltac:(simpl; auto) Es). exists z. split; [lia|]. split.
  - cbn [concat]. apply (runs_app h b (concat bs') a e z); [|exact R1]. apply (runs_le h b a s e); auto.
  - exists s, e. repeat (split; [assumption|]). exact R2.
Qed.
Lemma runs_one h l a z x y : runs h a l z -> In x l -> In y l -> s_start (sob h x) = s_start (sob h y) -> x = y.
Proof.
  intros R Hx Hy Q. apply runs_rising in R. destruct R as [R _]. apply In_nth_error in Hx, Hy. destruct Hx as [i Hi], Hy as [j Hj].
  destruct (Nat.lt_trichotomy i j) as [L|[L|L]]; [|subst j; congruence|]; [destruct (R i j x y L Hi Hj) as (s & t & A & B & C)|destruct (R j i y x L Hj Hi) as (s & t & A & B & C)];
    assert (s = t) by congruence; lia.
Qed.
Lemma Forall2_by {A B : Type} (P : A -> B -> Prop) : forall l k, List.length l = List.length k ->
  (forall i x y, nth_error l i = Some x -> nth_error k i = Some y -> P x y) -> Forall2 P l k.
Proof.
  induction l as [|x l IH]; intros [|y k] Ln Q; try discriminate; constructor; [apply (Q 0%nat); reflexivity|]. apply IH; [simpl in Ln; lia|]. intros i a b Ha Hb. apply (Q (S i)); auto.
Qed.
Lemma slots_in g t d c bs ms W ps h h1 : made_up c h h1 W ps -> skel h g [t; d] -> t_ec (tob h d) = c -> concat bs = t_seq (tob h d) -> in_turn h (t_seq (tob h t)) ->
  nested h (t_seq (tob h t)) bs -> subset_class h (t_ec (tob h t)) = Some c -> linkable h (t_ec (tob h t)) (t_seq (tob h t)) -> linkable h c (concat bs) ->
  (forall y, In y (concat bs) -> s_super (sob h y) = None) -> (forall x s, In x (t_seq (tob h t)) -> s_start (sob h x) = Some s -> 0 <= s) -> t_ec (tob h t) <> c ->
  Forall2 (closed h h1 c) bs ms -> Permutation (concat ms) (W ++ concat bs) ->
  Forall2 (fun u m => exists s e, slot h1 t d u m s e) (t_seq (tob h t)) ms.
Proof.
  intros [(A1 & A2 & A3 & A4) Ln Od Nw Ws Nd _ _] Sk Ec Hc Tu Ne Sc KU KL Sup Pos Dif Cl Pm.
  assert (Et : forall w, tob h1 w = tob h w) by (intros w; unfold tob; rewrite A2; reflexivity).
  assert (LU : forall x, In x (t_seq (tob h t)) -> live h x) by (intros x Hx; apply KU; exact Hx).
  assert (LL : forall x, In x (concat bs) -> live h x) by (intros x Hx; apply KL; exact Hx).
  assert (Nm : NoDup (concat ms)).
  { rewrite Pm. apply NoDup_app. split; [exact Nd|]. split; [|apply KL]. intros x Hx Hx'. rewrite elem_of_list_In in Hx, Hx'.
    destruct (Forall2_in_l _ _ _ _ Ws Hx) as (p & _ & (Q & _)). pose proof (LL x Hx') as L. unfold live in L. lia. }
  pose proof (Forall2_length _ _ _ Ne) as L1. pose proof (Forall2_length _ _ _ Cl) as L2.
  apply Forall2_by; [lia|]. intros i u m Hu Hm.
  destruct (nth_error bs i) as [b|] eqn:Hb; [|apply nth_error_None in Hb; assert (i < List.length ms)%nat by (apply nth_error_Some; congruence); lia].
  destruct (GroupFinal.Forall2_nth _ _ _ Ne i u b Hu Hb) as (s & e & Es & Ee & Lt & R). pose proof (GroupFinal.Forall2_nth _ _ _ Cl i b m Hb Hm) as Cm.
  pose proof (nth_error_In _ _ Hu) as Iu. pose proof (nth_error_In _ _ Hm) as Im. pose proof (nth_error_In _ _ Hb) as Ib.
  assert (Bm : forall y, In y b -> In y (concat bs)) by (intros y Hy; apply (in_concat' y b); auto).
  assert (V : forall x, In x b -> s_start (sob h1 x) = s_start (sob h x) /\ s_end (sob h1 x) = s_end (sob h x)) by (intros x Hx; rewrite Od by (apply LL, Bm, Hx); auto).
  assert (Fm : forall y, In y m -> In y W \/ In y (concat bs)) by (intros y Hy; apply in_app_iff, (Permutation_in y Pm), (in_concat' y m); auto).
  assert (Kid : forall y, In y m -> live h1 y /\ s_cls (sob h1 y) = c /\ s_label (sob h1 y) <> "#"%string /\ s_super (sob h1 y) = None).
  { intros y Hy. destruct (Fm y Hy) as [Q|Q].
    - destruct (Forall2_in_l _ _ _ _ Ws Q) as (p & _ & B). destruct (fresh_fields _ _ _ _ _ B) as (Q1 & Q2 & _ & _ & Q3 & Q4 & _). rewrite Q3. split; [exact Q1|]. split; [exact Q2|]. split; [discriminate|exact Q4].
    - pose proof (LL y Q) as Ly. destruct KL as [_ KL]. destruct (KL y Q) as (_ & Q2 & Q3). rewrite Od by exact Ly. split; [unfold live in *; lia|]. auto. }
  exists s, e. destruct KU as [_ KU]. destruct (KU u Iu) as (Lu & Cu & Lab). pose proof (Od u Lu) as Ou. constructor.
  - rewrite Et. exact Iu.
  - rewrite Ou. exact Lab.
  - rewrite Ou, Cu, Et, (subset_class_ext h h1), Ec by exact A1. exact Sc.
  - rewrite Ou. exact Es.
  - rewrite Ou. exact Ee.
  - exact Lt.
  - rewrite Et, Ec. split; [|intros y Hy; destruct (Kid y Hy) as (Q1 & Q2 & Q3 & _); auto].
    clear -Nm Hm. revert i Hm. induction ms as [|k ms IH]; intros [|i] Hm; try discriminate; cbn [concat] in Nm; apply NoDup_app in Nm; destruct Nm as (N1 & _ & N2); [injection Hm as ->; exact N1|apply (IH N2 i Hm)].
  - intros y Hy. apply (Kid y Hy).
  - destruct Cm as [[_ ->]|[_ P]]; [apply (runs_ext h h1); auto|]. apply (plugged_runs _ _ _ _ _ P V s e R).
  - destruct Cm as [[B ->]|[_ P]].
    + destruct b as [|f r]; [left; reflexivity|right]. destruct (bunched_abut h f r s e) as (q & Q & Ab); [apply (Pos u s Iu Es)|exact R|exact B|].
      exists f, r, q. split; [reflexivity|]. destruct (V f ltac:(simpl; auto)) as [_ ->]. split; [exact Q|]. apply (abut_ext h h1); [|exact Ab]. intros x Hx. apply V. simpl. auto.
    + right. destruct (plugged_runs _ _ _ _ _ P V s e R) as (_ & f & r & q & Q1 & Q2 & Q3 & _). eauto 8.
  - intros Q. destruct (Fm u Q) as [Q'|Q'].
    + destruct (Forall2_in_l _ _ _ _ Ws Q') as (p & _ & (B & _)). lia.
    + destruct KL as [_ KL]. destruct (KL u Q') as (_ & Q2 & _). congruence.
  - rewrite Et, <- Hc. intros y q Hy Q Hq. pose proof (LL y Hy) as Ly. rewrite Od in Q by exact Ly. apply in_concat in Hy. destruct Hy as (b' & Hb' & Hy).
    apply In_nth_error in Hb'. destruct Hb' as [j Hj].
    destruct (nth_error (t_seq (tob h t)) j) as [v|] eqn:Hv; [|apply nth_error_None in Hv; assert (j < List.length bs)%nat by (apply nth_error_Some; congruence); lia].
    destruct (GroupFinal.Forall2_nth _ _ _ Ne j v b' Hv Hj) as (s' & e' & Es' & Ee' & Lt' & R'). destruct (runs_each h b' s' e' y R' Hy) as (q1 & q2 & Q1 & _ & Q3 & Q4 & Q5).
    assert (q1 = q) by congruence. subst q1.
    destruct (Nat.lt_trichotomy i j) as [L|[L|L]].
    + destruct (Tu i j u v L Hu Hv) as (p1 & p2 & B1 & B2 & B3). assert (p1 = e) by congruence. assert (p2 = s') by congruence. lia.
    + subst j. assert (b' = b) by congruence. subst b'. destruct Cm as [[_ ->]|[_ P]]; [exact Hy|].
      clear -P Hy. induction P as [x|x z l m a A B P IH|x z l m a b w A B L Bw P IH]; [exact Hy|destruct Hy as [<-|Hy]; simpl; auto..].
    + destruct (Tu j i v u L Hv Hu) as (p1 & p2 & B1 & B2 & B3). assert (p1 = e') by congruence. assert (p2 = s) by congruence. lia.
Qed.
Lemma rehoused_all sq h ha h2 hb c U bs ms outs : (forall x, sob ha x = sob h x) -> List.length (h_seq ha) = List.length (h_seq h) ->
  Forall2 (closed ha hb c) bs ms -> List.length U = List.length bs -> (forall x, In x U \/ In x (concat bs) -> sob hb x = sob h x) ->
  (List.length (h_seq h) <= List.length (h_seq hb))%nat ->
  (List.length (h_seq hb) <= List.length (h_seq h2))%nat ->
  (forall w, live hb w -> ~ live h w -> s_cls (sob h2 w) = s_cls (sob hb w) /\ s_label (sob h2 w) = s_label (sob hb w) /\
     s_start (sob h2 w) = s_start (sob hb w) /\ s_end (sob h2 w) = s_end (sob hb w) /\ s_subset (sob h2 w) = s_subset (sob hb w)) ->
  Forall2 (fun um o => placed sq hb h2 c (fst um) (snd um) (fst o) (snd o)) (combine U ms) outs ->
  Forall2 (fun ub o => rehoused sq h h2 c (fst ub) (snd ub) (fst o) (snd o)) (combine U bs) outs.
Proof.
  intros Es Ln Cl L1 Ob L2 L3 V P.
  revert U outs L1 Ob V P. induction Cl as [|b m bs ms C Cl IH]; intros [|u U] outs L1 Ob V P; try discriminate; cbn [combine] in *;
    [apply Forall2_nil_inv_l in P; subst outs; constructor|].
  apply Forall2_cons_inv_l in P. destruct P as ((k & ns) & outs' & P1 & P & ->). cbn [fst snd] in *. constructor.
  - cbn [fst snd]. destruct P1 as (A & B & s & e & S1 & S2 & Q). split; [exact A|]. split; [exact B|]. exists s, e.
    rewrite (Ob u) in S1, S2 by (left; simpl; auto). split; [exact S1|]. split; [exact S2|].
    assert (C' : closed h h2 c b m).
    { apply (closed_ext h hb h2); [|lia|].
      - apply (closed_base h ha hb); [exact C|lia|]. intros x _. rewrite Es. auto.
      - intros w Nw Lw Hw. apply V; [exact Lw|exact Nw]. }
    destruct Q as [(-> & w & -> & -> & Bw)|(a & z & l & r & Fs & Ls & El & Er & -> & ->)].
    + left. split.
      * destruct C as [[_ ->]|[_ Pl]]; [reflexivity|]. apply plugged_shape in Pl. destruct Pl as (f & r & m' & _ & Q & _). discriminate.
      * exists w. split; [reflexivity|]. split; [reflexivity|]. eapply blank_base; [|exact Bw]. lia.
    + right. assert (Hd : hd_error b = hd_error m /\ hd_error (rev b) = hd_error (rev m)).
      { destruct C as [[_ ->]|[_ Pl]]; [auto|]. apply plugged_shape in Pl. destruct Pl as (f & r0 & m' & -> & -> & Q). auto. }
      destruct Hd as [H1 H2].
      assert (Hb : forall f, hd_error b = Some f \/ hd_error (rev b) = Some f -> sob hb f = sob h f).
      { intros f Hf. apply Ob. right. cbn [concat]. apply in_app_iff. left. destruct Hf as [Hf|Hf].
        - destruct b; [discriminate|]. injection Hf as ->. simpl. auto.
        - apply in_rev. destruct (rev b); [discriminate|]. injection Hf as ->. simpl. auto. }
      exists a, z, m, l, r. split; [|split; [|split; [exact C'|split; [eapply edge_base; [|exact El]; lia|split; [eapply edge_base; [|exact Er]; lia|auto]]]]].
      * destruct Fs as (f & F1 & F2). exists f. rewrite <- H1 in F1. split; [exact F1|]. rewrite Hb in F2 by auto. exact F2.
      * destruct Ls as (f & F1 & F2). exists f. rewrite <- H2 in F1. split; [exact F1|]. rewrite Hb in F2 by auto. exact F2.
  - apply IH; auto.
    + intros x [Hx|Hx]; apply Ob; [left; simpl; auto|right; cbn [concat]; apply in_app_iff; auto].
Qed.
Lemma bunched_same h h' b : (forall x, sob h' x = sob h x) -> (bunched h' b <-> bunched h b).
Proof. intros E. unfold bunched. split; intros Q x l y e s A B C D; (apply (Q x l y e s A B); [rewrite E in *|rewrite E in *]; auto). Qed.
Lemma uneven_same h h' U bs : (forall x, sob h' x = sob h x) -> uneven h' U bs -> uneven h U bs.
Proof.
  intros E (i & u & b & d & A & B & C & D). exists i, u, b, d. split; [exact A|]. split; [exact B|].
  assert (Ed : forall x, duration h' x = duration h x) by (intros x; unfold duration; with_strategy transparent [span_of] unfold span_of; rewrite E; reflexivity).
  rewrite Ed in D. split; [|exact D]. destruct C as [[C1 ->]|[C1 (f & l & a & z & C2 & C3 & C4 & C5 & C6)]].
  - left. split; [apply (bunched_same h h' b E); exact C1|]. f_equal. apply map_ext. exact Ed.
  - right. split; [intros Q; apply C1, (bunched_same h h' b E); exact Q|]. exists f, l, a, z. rewrite E in C4. rewrite E in C5. auto.
Qed.
Lemma c69_ragged : forall n h ts0 t u bs, (2 < n)%nat -> Permutation ts0 [t; u] -> tier_chain h [t; u] -> classes_joined h [t; u] ->
  fresh_tier h t -> fresh_tier h u -> at_home h t -> at_home h u -> issubclass h (t_ec (tob h u)) cInterval = true ->
  t_seq (tob h t) <> [] -> t_seq (tob h u) <> [] -> in_turn h (t_seq (tob h t)) -> (forall x s, In x (t_seq (tob h t)) -> s_start (sob h x) = Some s -> 0 <= s) ->
  concat bs = t_seq (tob h u) -> nested h (t_seq (tob h t)) bs ->
  exists g h' sq outs, new_tg (S n) ts0 h = Ok g h' /\ g_tiers (gob h' g) = [t; u] /\
    Forall2 (fun ub o => rehoused sq h h' (t_ec (tob h u)) (fst ub) (snd ub) (fst o) (snd o)) (combine (t_seq (tob h t)) bs) outs /\
    (sq = true <-> uneven h (t_seq (tob h t)) bs) /\
    Permutation (t_seq (tob h' u)) (t_seq (tob h u) ++ concat (map snd outs)) /\ sorted_starts h' (t_seq (tob h' u)) /\
    only_rehouses g t u (concat (map fst outs)) h h'.
Proof.
  intros n h ts0 t u bs Fu P C J Ft Fl (Ct & It) (Cu & Iu) Ci NeU NeL Tu Pos Hc Ne.
  destruct (new_tg_head (S n) false ts0 [t; u] h P C) as (ha & E & Hd).
  set (g := List.length (h_grp h)) in *. pose proof Hd as [(A1 & A2 & A3) (B1 & B2) C1 C2 (D1 & D2 & D3 & D4) F]. simpl in A1, A2, A3, B1, B2.
  set (U := t_seq (tob h t)) in *. set (c := t_ec (tob h u)) in *.
  assert (Es : forall x, sob ha x = sob h x) by (intros x; unfold sob; rewrite A2; reflexivity).
  assert (Ln : List.length (h_seq ha) = List.length (h_seq h)) by (rewrite A2; reflexivity).
  assert (Tt : tob ha t = set_t_within (Some (WGroup g)) (tob h t)) by (apply C1; simpl; auto).
  assert (Tl : tob ha u = set_t_within (Some (WGroup g)) (tob h u)) by (apply C1; simpl; auto).
  destruct Ft as (Kt & Pt & St), Fl as (Kl & Pl & Sl). destruct C as (Cj & Cn & Cl & _).
  assert (Dif : t_ec (tob h t) <> c).
  { simpl in Cn. apply NoDup_cons in Cn. destruct Cn as [Cn _]. intros Q. apply Cn. rewrite elem_of_list_In. simpl. left. symmetry. exact Q. }
  assert (Nd : t <> u) by (intros ->; apply Dif; reflexivity).
  destruct (Cl t ltac:(simpl; auto)) as (Lt & _). destruct (Cl u ltac:(simpl; auto)) as (Ll & _ & Nb).
  destruct Cj as (_ & Cs & _). destruct J as (Js & _).
  destruct (nested_runs h U bs 0 Tu Ne Pos) as (z & _ & RL & RU).
  assert (RLa : runs ha 0 (concat bs) z) by (apply (runs_ext h ha); [intros x _; rewrite Es; auto|exact RL]).
  assert (Lk : forall k l, linkable h k l -> linkable ha k l).
  { intros k l [Q1 Q2]. split; [exact Q1|]. intros x Hx. rewrite Es, Ln. apply Q2, Hx. }
  assert (Ska : skel ha g [t; u]).
  { constructor.
    - exact D1.
    - unfold contains_of, cattr_list. rewrite D2, D1. reflexivity.
    - intros w [<-|[<-|[]]]; [rewrite Tt|rewrite Tl]; (split; [reflexivity|rewrite B1; auto]).
    - cbn [map]. rewrite Tt, Tl. exact Cn.
    - intros w y [<-|[<-|[]]]; [rewrite Tt|rewrite Tl]; cbn; intros Hy; rewrite Es, Ln.
      + destruct Kt as [_ Kt]. destruct (Kt y Hy) as (Q1 & Q2 & _). auto.
      + destruct Kl as [_ Kl]. destruct (Kl y Hy) as (Q1 & Q2 & _). auto.
    - assert (Q : forall w, In w [t; u] -> t_seq (tob ha w) = t_seq (tob h w)) by (intros w [<-|[<-|[]]]; [rewrite Tt|rewrite Tl]; reflexivity).
      intros w Hw. rewrite (Q w Hw). intros i j x y Hij Hx Hy. rewrite !Es. revert i j x y Hij Hx Hy. destruct Hw as [<-|[<-|[]]].
      + apply rising_sorted. apply (runs_rising h U 0 z RU).
      + rewrite <- Hc. apply rising_sorted. apply (runs_rising h (concat bs) 0 z RL).
    - intros w [<-|[<-|[]]]; unfold classed; [rewrite Tt|rewrite Tl]; [exact Ct|exact Cu]. }
  assert (Ea : t_seq (tob ha t) = U /\ t_ec (tob ha t) = t_ec (tob h t)) by (rewrite Tt; auto). destruct Ea as [Ea1 Ea2].
  assert (El : t_seq (tob ha u) = t_seq (tob h u) /\ t_ec (tob ha u) = c) by (rewrite Tl; auto). destruct El as [El1 El2].
  assert (Tua : in_turn ha (t_seq (tob ha t))).
  { rewrite Ea1. intros i j x y Hij Hx Hy. rewrite !Es. apply (Tu i j x y Hij Hx Hy). }
  assert (Nea : nested ha (t_seq (tob ha t)) bs).
  { rewrite Ea1. eapply Forall2_weaken; [exact Ne|]. intros x b _ _ (s & e & Q1 & Q2 & Q3 & Q4). exists s, e. rewrite !Es. repeat (split; [assumption|]).
    apply (runs_ext h ha); [intros y _; rewrite Es; auto|exact Q4]. }
  assert (Kla : linkable ha c (concat bs)) by (rewrite Hc; apply Lk; exact Kl).
  assert (Cia : issubclass ha c cInterval = true) by (rewrite (issubclass_ext h ha) by exact A1; exact Ci).
  assert (Pla : issubclass ha c cPoint = false) by (rewrite (issubclass_ext h ha) by exact A1; exact Pl).
  assert (Nba : issubclass ha c cBottom = false) by (rewrite (issubclass_ext h ha) by exact A1; exact Nb).
  destruct (ragged_head (S n) t u c bs ha) as (hb & vs & ms & W & ps & sq & E1 & Mk & Pv & Clo & Pm & Sq).
  { rewrite El1. exact Hc. } { rewrite Ea1. exact NeU. } { rewrite Hc. exact NeL. } { exact Tua. } { exact Nea. }
  { rewrite Ea1. intros x Hx. destruct Kt as [_ Kt]. destruct (Kt x Hx) as (Q1 & Q2 & _). split; [unfold live; lia|]. unfold is_point. rewrite Es, Q2, (issubclass_ext h ha) by exact A1. exact Pt. }
  { exact Kla. } { exact Cia. } { exact Pla. }
  rewrite Ea1 in Sq.
  assert (Sl' : Forall2 (fun x m => exists s e, slot hb t u x m s e) U ms).
  { rewrite <- Ea1. apply (slots_in g t u c bs ms W ps ha hb); auto.
    - rewrite El1. exact Hc.
    - rewrite (subset_class_ext h ha), Ea2 by exact A1. exact Js.
    - rewrite Ea1, Ea2. apply Lk. exact Kt.
    - intros y Hy. rewrite Es. apply Sl. rewrite <- Hc. exact Hy.
    - rewrite Ea1. intros x s Hx. rewrite Es. apply (Pos x s Hx).
    - rewrite Ea2. exact Dif. }
  pose proof Mk as [(K1 & K2 & K3 & K4) Lb Od Nw Ws Ndw _ _].
  assert (Etb : forall w, tob hb w = tob ha w) by (intros w; unfold tob; rewrite K2; reflexivity).
  assert (Gb : forall w, gob hb w = gob ha w) by (intros w; unfold gob; rewrite K3; reflexivity).
  assert (LU : forall x, In x U -> live h x) by (intros x Hx; apply Kt; exact Hx).
  assert (LL : forall x, In x (concat bs) -> live h x) by (intros x Hx; apply Kl; rewrite <- Hc; exact Hx).
  assert (Ob : forall x, live h x -> sob hb x = sob h x) by (intros x Hx; rewrite Od; [apply Es|unfold live in *; lia]).
  assert (Skb : skel hb g [t; u]).
  { destruct Ska as [S1 S2 S3 S4 S5 S6 S7]. assert (Hw : forall w x, In w [t; u] -> In x (t_seq (tob ha w)) -> live h x).
    { intros w x [<-|[<-|[]]] Hx; [rewrite Ea1 in Hx; auto|rewrite El1, <- Hc in Hx; auto]. }
    constructor.
    - rewrite Gb. exact S1.
    - unfold contains_of. rewrite Gb. exact S2.
    - intros w Hw'. rewrite Etb, K2. apply S3, Hw'.
    - erewrite map_ext; [exact S4|]. intros w. rewrite Etb. reflexivity.
    - intros w y Hw' Hy. rewrite Etb in Hy |- *. rewrite Od by (pose proof (Hw w y Hw' Hy); unfold live in *; lia). destruct (S5 w y Hw' Hy) as (Q1 & Q2). split; [lia|exact Q2].
    - intros w Hw'. rewrite Etb. intros i j x y Hij Hx Hy. rewrite !Od by (unfold live; rewrite Ln; apply (Hw w); [exact Hw'|eapply nth_error_In; eauto]). apply (S6 w Hw' i j x y Hij Hx Hy).
    - intros w Hw'. unfold classed. rewrite Etb. apply (S7 w Hw'). }
  assert (Rob : roomy hb u []).
  { unfold roomy. rewrite app_nil_r, Etb, El1, El2, K2, B1, <- Hc. split; [exact Ll|]. split; [rewrite Tl; cbn; rewrite Cs; discriminate|].
    split; [rewrite (issubclass_ext ha hb) by exact K1; exact Pla|]. split.
    - split; [apply Kla|]. intros x Hx. destruct Kla as [_ Q]. destruct (Q x Hx) as (Q1 & Q2 & Q3). rewrite Od by exact Q1. split; [lia|]. auto.
    - split; [apply Skb; simpl; auto|]. split.
      + intros x Hx. destruct (runs_each h (concat bs) 0 z x RL Hx) as (s & e & Q1 & Q2 & _ & Q3 & _). rewrite <- (Ob x (LL x Hx)) in Q1, Q2. apply (dated_by hb x s e Q1 Q2 Q3).
      + intros x y Hx Hy Q. rewrite (Ob x (LL x Hx)), (Ob y (LL y Hy)) in Q. apply (runs_one h (concat bs) 0 z x y RL Hx Hy Q). }
  assert (Nm : NoDup (concat ms)).
  { rewrite Pm. apply NoDup_app. split; [exact Ndw|]. split; [|apply Kla]. intros x Hx Hx'. rewrite elem_of_list_In in Hx, Hx'.
    destruct (Forall2_in_l _ _ _ _ Ws Hx) as (p & _ & (Q & _)). pose proof (LL x Hx') as L. unfold live in L. lia. }
  destruct (place_all n g t u sq c Nd Fu U ms (map sv_vals vs) [] hb Skb Rob) as (h2 & outs & E2 & T2 & P2 & Sk2 & Ro2 & Pm2 & N2).
  { rewrite Etb. exact El2. } { rewrite Etb, Ea1. reflexivity. } { clear -Pv. induction Pv; simpl; constructor; auto. } { exact Sl'. }
  { intros i j x y Hij Hx Hy. rewrite !Ob by (apply LU; eapply nth_error_In; eauto). apply (Tu i j x y Hij Hx Hy). }
  { apply Kt. } { exact Nm. } { rewrite (issubclass_ext ha hb) by exact K1. exact Nba. } { rewrite (issubclass_ext ha hb) by exact K1. exact Cia. }
  assert (Iw : incl (W ++ concat (map fst outs)) (concat (map fst outs))).
  { intros x Hx. apply in_app_iff in Hx. destruct Hx as [Hx|Hx]; [|exact Hx]. assert (Q : In x (concat ms)) by (apply (Permutation_in x (Permutation_sym Pm)), in_app_iff; auto).
    apply in_concat in Q. destruct Q as (m & Hm & Q). assert (L : List.length U = List.length ms) by (rewrite (Forall2_length _ _ _ Sl'); reflexivity).
    assert (Q' : exists v, In (v, m) (combine U ms)).
    { apply In_nth_error in Hm. destruct Hm as [i Hi]. destruct (nth_error U i) as [v|] eqn:Hv; [|apply nth_error_None in Hv; assert (i < List.length ms)%nat by (apply nth_error_Some; congruence); lia].
      exists v. clear -Hi Hv. revert ms i Hi Hv. induction U as [|y U IH]; intros [|k ms] [|i] Hi Hv; try discriminate; simpl in *; [left; congruence|right; eauto]. }
    destruct Q' as [v Q']. destruct (Forall2_in_l _ _ _ _ P2 Q') as (o & Ho & Po). cbn [fst snd] in Po.
    apply (in_concat' x (fst o)); [apply in_map; exact Ho|]. destruct Po as (_ & _ & s & e & _ & _ & [(-> & _)|(a & b & l & r & _ & _ & _ & _ & -> & _)]); [destruct Q|].
    apply in_app_iff. right. apply in_app_iff. auto. }
  assert (T : tends [t; u] u U (concat (map fst outs)) ha h2).
  { apply (tends_incl _ _ (U ++ U) U (W ++ concat (map fst outs))); [|intros x Hx; apply in_app_iff in Hx; tauto|exact Iw].
    apply (tends_trans _ _ U U _ _ ha hb h2); [eapply made_tends; exact Mk|exact T2|]. intros x Hx. unfold live. rewrite Ln. apply LU, Hx. }
  destruct (te_rest _ _ _ _ _ _ T) as (R1 & R2 & R3 & R4). pose proof (te_len _ _ _ _ _ _ T) as Le.
  assert (Gk : forall k, gob h2 k = gob ha k) by (intros k; unfold gob; rewrite R2; reflexivity).
  exists g, h2, sq, outs. split; [|split; [|split; [|split; [|split; [|split]]]]].
  - unfold new_tg. rewrite E. rewrite (bind_ok _ _ _ tt ha).
    + assert (E3 : relate_tiers (S n) false [t; u] ha = Ok tt h2).
      { cbn [relate_tiers]. rewrite (bind_ok _ _ _ tt h2); [reflexivity|]. rewrite E1. exact E2. }
      rewrite (bind_ok _ _ _ _ _ E3). reflexivity.
    + apply no_parents_tiers. intros k x Hk Hx. rewrite Es. apply (Permutation_in _ P) in Hk.
      destruct Hk as [<-|[<-|[]]]; [rewrite Ea1 in Hx; auto|rewrite El1 in Hx; auto].
  - rewrite Gk. exact D1.
  - apply (rehoused_all sq h ha h2 hb c U bs ms outs Es Ln Clo); auto.
    + apply (Forall2_length _ _ _ Ne).
    + intros x [Hx|Hx]; apply Ob; auto.
    + lia.
    + apply (te_len _ _ _ _ _ _ T2).
    + intros w Lw Nl. destruct (te_val _ _ _ _ _ _ T2 w Lw) as (Q1 & Q2 & Q3 & Q4 & Q5 & _). rewrite Q5 by (intros Q; apply Nl, LU, Q). auto.
  - rewrite Sq. split; apply uneven_same; auto.
  - rewrite Pm2, Etb, El1. reflexivity.
  - apply (sk_sorted _ _ _ Sk2 u). simpl. auto.
  - split; [|split; [|split; [congruence|split; [congruence|split; [congruence|split; [|split; [|split; [|split; [reflexivity|split]]]]]]]]].
    + intros i Hi. rewrite <- !Es. apply (te_val _ _ _ _ _ _ T i). unfold live. lia.
    + intros i Hi Nk. apply (te_new _ _ _ _ _ _ T i); [unfold live; lia|unfold live; lia|exact Nk].
    + intros w N1 N3. rewrite (te_out _ _ _ _ _ _ T) by (intros [Q|[Q|[]]]; congruence). apply C2. intros [Q|[Q|[]]]; congruence.
    + rewrite (te_seq _ _ _ _ _ _ T t Nd). exact Ea1.
    + intros w Hw. destruct (te_tier _ _ _ _ _ _ T w) as (Q1 & Q2 & Q3 & Q4 & Q5). rewrite Q1, Q2, Q3, Q4, Q5. destruct Hw as [-> | ->]; [rewrite Tt|rewrite Tl]; auto.
    + rewrite R2, B2, app_length. simpl. unfold g. lia.
    + intros k Hk. rewrite Gk, F by lia. unfold gob. simpl. rewrite lookup_app_l by exact Hk. reflexivity.
Qed.

(** ** Which children the lower tier has *)
Lemma plugged_inner h h' c b m y : plugged h h' c b m -> forall s e, runs h s b e -> In y m ->
  In y b \/ exists p q, blank h h' c y p q /\ s < p /\ q < e.
Proof.
  induction 1 as [x|x k l m a A B P IH|x k l m a b w A B Lt Bw P IH]; intros s e (s1 & e1 & S1 & E1 & L1 & L2 & R) Hy.
  - left. exact Hy.
  - destruct Hy as [<-|Hy]; [left; simpl; auto|]. destruct (IH e1 e R Hy) as [Q|(p & q & Q1 & Q2 & Q3)]; [left; simpl; auto|]. right. exists p, q. split; [exact Q1|lia].
  - destruct Hy as [<-|[<-|Hy]]; [left; simpl; auto| |].
    + right. exists a, b. split; [exact Bw|]. assert (e1 = a) by congruence. destruct (runs_each h (k :: l) e1 e k R ltac:(simpl; auto)) as (s2 & e2 & S2 & _ & _ & L3 & L4). assert (s2 = b) by congruence. lia.
    + destruct (IH e1 e R Hy) as [Q|(p & q & Q1 & Q2 & Q3)]; [left; simpl; auto|]. right. exists p, q. split; [exact Q1|lia].
Qed.
Lemma c69_listed : forall n h ts0 t u bs, (2 < n)%nat -> Permutation ts0 [t; u] -> tier_chain h [t; u] -> classes_joined h [t; u] ->
  fresh_tier h t -> fresh_tier h u -> at_home h t -> at_home h u -> issubclass h (t_ec (tob h u)) cInterval = true ->
  t_seq (tob h t) <> [] -> t_seq (tob h u) <> [] -> in_turn h (t_seq (tob h t)) -> (forall x s, In x (t_seq (tob h t)) -> s_start (sob h x) = Some s -> 0 <= s) ->
  concat bs = t_seq (tob h u) -> nested h (t_seq (tob h t)) bs ->
  exists g h', new_tg (S n) ts0 h = Ok g h' /\
    forall x y, In x (t_seq (tob h t)) -> In y (s_subset (sob h' x)) ->
      (In y (t_seq (tob h' u)) <-> In y (t_seq (tob h u)) \/ s_start (sob h' y) = s_start (sob h' x) \/ s_end (sob h' y) = s_end (sob h' x)).
Proof.
  intros n h ts0 t u bs Fu P C J Ft Fl At Al Ci NeU NeL Tu Pos Hc Ne.
  destruct (c69_ragged n h ts0 t u bs Fu P C J Ft Fl At Al Ci NeU NeL Tu Pos Hc Ne) as (g & h' & sq & outs & E & _ & Re & _ & Pm & _ & On).
  exists g, h'. split; [exact E|]. intros x y Hx Hy. destruct On as (V & _). destruct Ft as ((NU & Kt) & _). destruct Fl as ((_ & Kl) & _).
  assert (Lx : (x < List.length (h_seq h))%nat) by (apply (Kt x Hx)). destruct (V x Lx) as (_ & V1 & V2 & _).
  pose proof (Forall2_length _ _ _ Ne) as L1.
  assert (At' : forall o, In o outs -> exists v b, In v (t_seq (tob h t)) /\ rehoused sq h h' (t_ec (tob h u)) v b (fst o) (snd o) /\ In b bs).
  { intros o Ho. destruct (Forall2_in_r _ _ _ _ Re Ho) as ((v & b) & Hvb & Q). exists v, b. split; [eapply in_combine_l; eauto|]. split; [exact Q|eapply in_combine_r; eauto]. }
  assert (Nk : forall v b k ns w, rehoused sq h h' (t_ec (tob h u)) v b k ns -> In w ns -> In w k /\ (List.length (h_seq h) <= w)%nat /\ (s_start (sob h' w) = s_start (sob h v) \/ s_end (sob h' w) = s_end (sob h v))).
  { intros v b k ns w (_ & _ & s & e & S1 & S2 & [(_ & w' & -> & -> & (B & _ & _ & B1 & B2 & _))|(a & z & m & l & r & _ & _ & _ & El & Er & -> & ->)]) Hw.
    - destruct Hw as [<-|[]]. split; [simpl; auto|]. split; [lia|]. left. congruence.
    - apply in_app_iff in Hw. destruct Hw as [Hw|Hw]; (split; [rewrite !in_app_iff; auto|]).
      + destruct El as [[_ ->]|(_ & _ & v' & -> & (B & _ & _ & B1 & B2 & _))]; [destruct Hw|]. destruct Hw as [<-|[]]. split; [lia|]. left. congruence.
      + destruct Er as [[_ ->]|(_ & _ & v' & -> & (B & _ & _ & B1 & B2 & _))]; [destruct Hw|]. destruct Hw as [<-|[]]. split; [lia|]. right. congruence. }
  assert (Hxo : exists b o, In b bs /\ In o outs /\ rehoused sq h h' (t_ec (tob h u)) x b (fst o) (snd o) /\ exists s e, s_start (sob h x) = Some s /\ s_end (sob h x) = Some e /\ runs h s b e).
  { apply In_nth_error in Hx. destruct Hx as [i Hi].
    destruct (nth_error bs i) as [b|] eqn:Hb; [|apply nth_error_None in Hb; assert (i < List.length (t_seq (tob h t)))%nat by (apply nth_error_Some; congruence); lia].
    assert (Q : In (x, b) (combine (t_seq (tob h t)) bs)).
    { clear -Hi Hb. revert i bs Hi Hb. induction (t_seq (tob h t)) as [|v U IH]; intros [|i] [|k bs] Hi Hb; try discriminate; simpl in *; [left; congruence|right; eauto]. }
    destruct (Forall2_in_l _ _ _ _ Re Q) as (o & Ho & Ro). exists b, o. split; [eapply nth_error_In; eauto|]. split; [exact Ho|]. split; [exact Ro|].
    destruct (GroupFinal.Forall2_nth _ _ _ Ne i x b Hi Hb) as (s & e & S1 & S2 & _ & R). eauto. }
  destruct Hxo as (b & o & Hb & Ho & Ro & s & e & S1 & S2 & R). pose proof Ro as (Q1 & Q2 & s' & e' & S1' & S2' & Q3).
  assert (s' = s) by congruence. assert (e' = e) by congruence. subst s' e'. rewrite Q1 in Hy.
  rewrite V1, V2, S1, S2. split.
  - intros Hin. apply (Permutation_in y Pm) in Hin. apply in_app_iff in Hin. destruct Hin as [Hin|Hin]; [left; exact Hin|right].
    apply in_concat in Hin. destruct Hin as (ns & Hns & Hin). apply in_map_iff in Hns. destruct Hns as (o' & <- & Ho').
    destruct (At' o' Ho') as (v & b' & Hv & Ro' & _). destruct (Nk _ _ _ _ _ Ro' Hin) as (Hk & _ & T). destruct Ro' as (_ & Q5 & _).
    assert (v = x) by (pose proof (Q5 y Hk); pose proof (Q2 y Hy); congruence). subst v. rewrite S1, S2 in T. exact T.
  - intros Hor. apply (Permutation_in y (Permutation_sym Pm)), in_app_iff.
    assert (G : In y (snd o) -> In y (concat (map snd outs))) by (intros Hn; apply (in_concat' y (snd o)); [apply in_map; exact Ho|exact Hn]).
    destruct Q3 as [(_ & w & Ek & En & _)|(a & z & m & l & r & _ & _ & Cl & El & Er & Ek & En)].
    { right. apply G. rewrite En, <- Ek. exact Hy. }
    rewrite Ek in Hy. apply in_app_iff in Hy. destruct Hy as [Hy|Hy]; [right; apply G; rewrite En; apply in_app_iff; auto|].
    apply in_app_iff in Hy. destruct Hy as [Hy|Hy]; [|right; apply G; rewrite En; apply in_app_iff; auto]. left.
    assert (In y b -> In y (t_seq (tob h u))) by (intros Q; rewrite <- Hc; apply (in_concat' y b); auto).
    destruct Cl as [[_ ->]|[_ Pl]]; [auto|]. destruct (plugged_inner _ _ _ _ _ y Pl s e R Hy) as [Q|(p & q & (B & _ & _ & B1 & B2 & _) & L3 & L4)]; [auto|].
    destruct Hor as [Q|[Q|Q]]; [exact Q|exfalso|exfalso]; rewrite ?B1, ?B2 in Q; injection Q as Q; lia.
Qed.
End WithEnv.
