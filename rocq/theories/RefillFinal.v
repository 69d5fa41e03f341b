(** * RefillFinal: filling the gaps of several tiers. *)
From Verif Require Export CleanSpec.
From Verif Require Import GapFinal ReadSpec WeaveFinal OwnFinal ClassFinal PointFinal ReadClasses ReadMade.
From Coq Require Import Sorting.Sorted.
Open Scope Z_scope.

(** ** Spans in blocks *)
Definition span_block (p : span) (b : list span) : Prop := fst p < snd p /\ span_tiles (fst p) b (snd p).
Lemma fill_tiled b : forall a e R, span_tiles a b e -> b <> [] -> (forall q, hd_error R = Some q -> e <= fst q) ->
  span_fill (b ++ R) = (b ++ match R with [] => [] | q :: _ => if e <? fst q then (e, fst q) :: span_fill R else span_fill R end)%list.
Proof.
  induction b as [|p b IH]; intros a e R T Ne Hr; [congruence|]. destruct T as (T1 & T2 & T3). destruct b as [|p' b].
  - cbn in T3. subst e. destruct R as [|q R]; [reflexivity|]. change ((p :: nil) ++ q :: R)%list with (p :: q :: R). rewrite fill_cons. reflexivity.
  - change ((p :: p' :: b) ++ R)%list with (p :: p' :: (b ++ R))%list. rewrite fill_cons. destruct T3 as (T3 & T4 & T5).
    replace (snd p <? fst p') with false by (symmetry; apply Z.ltb_ge; lia). cbn [app]. f_equal.
    change (p' :: b ++ R)%list with ((p' :: b) ++ R)%list. rewrite (IH (snd p) e R); [reflexivity|split; auto|discriminate|exact Hr].
Qed.
Lemma gaps_tiled b : forall a e R, span_tiles a b e -> b <> [] ->
  span_gaps (b ++ R) = match R with [] => [] | q :: _ => if e <? fst q then (e, fst q) :: span_gaps R else span_gaps R end.
Proof.
  induction b as [|p b IH]; intros a e R T Ne; [congruence|]. destruct T as (T1 & T2 & T3). destruct b as [|p' b].
  - cbn in T3. subst e. destruct R as [|q R]; [reflexivity|]. change ((p :: nil) ++ q :: R)%list with (p :: q :: R). rewrite gaps_cons. reflexivity.
  - change ((p :: p' :: b) ++ R)%list with (p :: p' :: (b ++ R))%list. rewrite gaps_cons. destruct T3 as (T3 & T4 & T5).
    replace (snd p <? fst p') with false by (symmetry; apply Z.ltb_ge; lia).
    change (p' :: b ++ R)%list with ((p' :: b) ++ R)%list. apply (IH (snd p) e R); [split; auto|discriminate].
Qed.
Lemma block_head p b : span_block p b -> b <> [] /\ forall R q, hd_error (b ++ R)%list = Some q -> fst q = fst p.
Proof.
  intros [L T]. destruct b as [|x b]; [cbn in T; lia|]. split; [discriminate|]. intros R q Q. injection Q as <-. apply T.
Qed.
Lemma gaps_blocks : forall U bs, Forall2 span_block U bs -> span_gaps (concat bs) = span_gaps U.
Proof.
  intros U bs F. induction F as [|p b U bs B F IH]; [reflexivity|]. cbn [concat]. destruct (block_head p b B) as [Ne Hd]. destruct B as [L T].
  rewrite (gaps_tiled b _ _ (concat bs) T Ne). destruct F as [|q c U bs B' F]; [reflexivity|]. rewrite gaps_cons. destruct (block_head q c B') as [Ne' Hd'].
  destruct c as [|x c]; [congruence|]. cbn [concat app]. rewrite (Hd' (concat bs) x eq_refl). cbn [concat app] in IH. rewrite <- IH. reflexivity.
Qed.
Lemma fill_blocks : forall U bs, ordered U -> Forall2 span_block U bs ->
  exists bs', concat bs' = span_fill (concat bs) /\ Forall2 span_block (span_fill U) bs'.
Proof.
  intros U bs O F. induction F as [|p b U bs B F IH]; [exists []; split; [reflexivity|constructor]|].
  apply ordered_cons in O. destruct O as [O1 O2]. destruct (IH O2) as (bs' & E & F'). destruct (block_head p b B) as [Ne Hd]. pose proof B as [L T].
  cbn [concat]. destruct F as [|q c U bs B' F].
  - exists [b]. cbn [concat] in *. split; [|constructor; [exact B|constructor]]. symmetry. apply (fill_tiled b _ _ [] T Ne). discriminate.
  - destruct (block_head q c B') as [Ne' Hd']. destruct c as [|x c]; [congruence|]. assert (Hx : fst x = fst q) by (apply (Hd' []); reflexivity).
    rewrite (fill_tiled b _ _ (concat ((x :: c) :: bs)) T Ne).
    2:{ cbn [concat app]. intros r [= <-]. rewrite Hx. apply O1. simpl; auto. }
    rewrite fill_cons. cbn [concat app] in *. rewrite Hx. destruct (snd p <? fst q) eqn:G.
    + exists (b :: [(snd p, fst q)] :: bs'). cbn [concat app]. split; [rewrite E; reflexivity|]. constructor; [exact B|]. constructor; [|exact F'].
      apply Z.ltb_lt in G. split; [exact G|]. split; [reflexivity|]. split; [exact G|reflexivity].
    + exists (b :: bs'). cbn [concat]. split; [rewrite E; reflexivity|]. constructor; [exact B|exact F'].
Qed.
(** Cutting a list like its image. *)
Lemma cut_like {A B} (f : A -> B) : forall bs' l, map f l = concat bs' -> exists bs, concat bs = l /\ map (map f) bs = bs'.
Proof.
  induction bs' as [|b bs' IH]; intros l E.
  - destruct l; [|discriminate]. exists []. auto.
  - cbn [concat] in E. apply map_eq_app in E. destruct E as (l1 & l2 & -> & E1 & E2). destruct (IH l2 E2) as (bs & Q1 & Q2).
    exists (l1 :: bs). cbn. rewrite Q1, Q2, E1. auto.
Qed.

Section WithEnv.
Context `{Env}.
Opaque span_of.

Lemma spans_tile h l : forall a b, tiles h a l b -> span_tiles a (map (span_of h) l) b.
Proof.
  induction l as [|x l IH]; intros a b T; [exact T|]. destruct T as (m & T1 & T2 & T3 & T4). destruct (dated_by h x a m T1 T2 T3) as [_ S].
  cbn [map span_tiles]. rewrite S. cbn. auto.
Qed.
Lemma fills_block h u b : fills h u b -> span_block (span_of h u) (map (span_of h) b).
Proof.
  intros (s & e & A & B & C & D). destruct (dated_by h u s e A B C) as [_ ->]. split; [exact C|apply spans_tile, D].
Qed.
Lemma block_fills h u b : dated h u -> (forall y, In y b -> dated h y) -> span_block (span_of h u) (map (span_of h) b) -> fills h u b.
Proof.
  intros (D1 & D2 & D3) Db [B1 B2]. exists (fst (span_of h u)), (snd (span_of h u)). split; [exact D1|]. split; [exact D2|]. split; [exact D3|]. apply tiles_of_spans; auto.
Qed.
Lemma fills_blocks h U bs : Forall2 (fills h) U bs -> Forall2 span_block (map (span_of h) U) (map (map (span_of h)) bs).
Proof. intros F. induction F as [|u b U bs Fb F IH]; [constructor|]. cbn [map]. constructor; [apply fills_block, Fb|exact IH]. Qed.
Lemma blocks_fill h U bs : (forall u, In u U -> dated h u) -> (forall y, In y (concat bs) -> dated h y) ->
  Forall2 span_block (map (span_of h) U) (map (map (span_of h)) bs) -> Forall2 (fills h) U bs.
Proof.
  intros Du Db F. remember (map (span_of h) U) as SU eqn:E1. remember (map (map (span_of h)) bs) as SB eqn:E2. revert U bs E1 E2 Du Db.
  induction F as [|p q SU SB B F IH]; intros U bs E1 E2 Du Db.
  - destruct U; [|discriminate]. destruct bs; [|discriminate]. constructor.
  - destruct U as [|u U]; [discriminate|]. destruct bs as [|b bs]; [discriminate|]. cbn [map] in E1, E2. injection E1 as -> ->. injection E2 as -> ->. constructor.
    + apply block_fills; [apply Du; simpl; auto| |exact B]. intros y Hy. apply Db. cbn [concat]. apply in_app_iff. auto.
    + apply IH; auto; [intros v Hv; apply Du; simpl; auto|]. intros y Hy. apply Db. cbn [concat]. apply in_app_iff. auto.
Qed.
(** Filling the gaps of two tiers, one filling the other. *)
Lemma filled_pair h h' U L U' L' bs : in_turn h U -> (forall u, In u U -> dated h u) -> concat bs = L -> Forall2 (fills h) U bs ->
  map (span_of h') U' = span_fill (map (span_of h) U) -> map (span_of h') L' = span_fill (map (span_of h) L) ->
  (forall u, In u U' -> dated h' u) -> (forall y, In y L' -> dated h' y) -> exists bs', concat bs' = L' /\ Forall2 (fills h') U' bs'.
Proof.
  intros T D <- F EU EL DU DL. pose proof (in_turn_spans h U D T) as O. destruct (fill_blocks _ _ O (fills_blocks h U bs F)) as (sbs & E & B).
  assert (E' : map (span_of h') L' = concat sbs) by (rewrite EL, E, concat_map; reflexivity).
  destruct (cut_like (span_of h') sbs L' E') as (bs' & Q1 & Q2). exists bs'. split; [exact Q1|]. apply blocks_fill; [exact DU|rewrite Q1; exact DL|]. rewrite EU, Q2. exact B.
Qed.

(** ** Filling the gaps of several tiers *)
Record refilled (h h' : heap) (ts : list tid) : Prop := {
  rf_span : forall t, In t ts -> map (span_of h') (t_seq (tob h' t)) = span_fill (map (span_of h) (t_seq (tob h t)));
  rf_live : forall t x, In t ts -> In x (t_seq (tob h' t)) -> live h' x /\ dated h' x;
  rf_put : forall t, In t ts -> blanks_put h h' t;
  rf_new : forall t y, In t ts -> In y (t_seq (tob h' t)) -> (List.length (h_seq h) <= y)%nat -> s_super (sob h' y) = None /\ s_subset (sob h' y) = [];
  rf_tier : forall t, In t ts -> tob h' t = set_t_seqec (t_seqec (tob h' t)) (set_t_seq (t_seq (tob h' t)) (tob h t));
  rf_rest : forall t, ~ In t ts -> tob h' t = tob h t;
  rf_tiers : List.length (h_tier h') = List.length (h_tier h);
  rf_old : forall i, (i < List.length (h_seq h))%nat -> sob h' i = sob h i;
  rf_len : (List.length (h_seq h) <= List.length (h_seq h'))%nat;
  rf_cls : h_cls h' = h_cls h; rf_grp : h_grp h' = h_grp h; rf_grid : h_grid h' = h_grid h }.

Lemma gappy_same h h' t : h_cls h' = h_cls h -> List.length (h_tier h') = List.length (h_tier h) -> tob h' t = tob h t ->
  (forall x, In x (t_seq (tob h t)) -> (x < List.length (h_seq h))%nat -> s_cls (sob h' x) = s_cls (sob h x) /\ s_start (sob h' x) = s_start (sob h x) /\ s_end (sob h' x) = s_end (sob h x)) ->
  (List.length (h_seq h) <= List.length (h_seq h'))%nat -> gappy h t -> gappy h' t.
Proof.
  intros Hc Ht Et Hs Hl (G1 & G2 & G3 & G4 & G5 & G6 & G7). unfold gappy. rewrite Et, Ht. split; [exact G1|].
  rewrite !(issubclass_ext h h') by (auto; lia). split; [exact G2|]. split; [exact G3|]. split; [exact G4|]. split; [exact G5|]. split.
  - apply (in_turn_same h h'); [|exact G6]. intros x Hx. destruct (G7 x Hx) as (L & _). destruct (Hs x Hx L) as (_ & A & B). auto.
  - intros x Hx. destruct (G7 x Hx) as (L & P & a & b & A & B & C). destruct (Hs x Hx L) as (Q1 & Q2 & Q3). split; [lia|]. split.
    + unfold is_point, is_point_cls in *. rewrite Q1. rewrite (issubclass_ext h h') by auto. exact P.
    + exists a, b. rewrite Q2, Q3. auto.
Qed.
Lemma refilled_one h h' t : gaps_filled h h' t -> map (span_of h') (t_seq (tob h' t)) = span_fill (map (span_of h) (t_seq (tob h t))) ->
  (forall x, In x (t_seq (tob h' t)) -> live h' x /\ dated h' x) -> (List.length (h_seq h) <= List.length (h_seq h'))%nat ->
  (t_seqec (tob h t) = Some (t_ec (tob h t)) -> t_seqec (tob h' t) = Some (t_ec (tob h t))) -> refilled h h' [t].
Proof.
  intros (F1 & F2 & F3 & F4 & F5 & F6 & F7 & F8 & F9 & F10) S L Le F11.
  constructor; auto.
  - intros u [<-|[]]. exact S.
  - intros u x [<-|[]]. apply L.
  - intros u [<-|[]]. split; [exact F1|]. split; [exact F2|]. split; [|exact F11]. intros y Hy Ly. destruct (F3 y Hy Ly) as (A & B & C & D & E). auto.
  - intros u y [<-|[]] Hy Ly. destruct (F3 y Hy Ly) as (A & B & C & D & E). auto.
  - intros u [<-|[]]. exact F7.
  - intros u Hu. apply F5. intros ->. apply Hu. simpl; auto.
Qed.
Lemma filter_within (p q : oid -> bool) l m : (forall x, p x = true -> q x = true) -> List.filter q l = m -> (forall x, In x m -> p x = true) -> List.filter p l = m.
Proof.
  intros Pq E Hm. assert (Q : List.filter p l = List.filter p (List.filter q l)).
  { clear E. induction l as [|x l IH]; [reflexivity|]. cbn [List.filter]. destruct (q x) eqn:Eq.
    - cbn [List.filter]. rewrite IH. reflexivity.
    - destruct (p x) eqn:Ep; [rewrite (Pq x Ep) in Eq; discriminate|exact IH]. }
  rewrite Q, E. clear - Hm. induction m as [|x m IH]; [reflexivity|]. cbn [List.filter]. rewrite (Hm x) by (simpl; auto). f_equal. apply IH. intros y Hy. apply Hm. simpl; auto.
Qed.
Lemma span_of_same h h' x : sob h' x = sob h x -> span_of h' x = span_of h x.
Proof. Transparent span_of. unfold span_of. intros ->. reflexivity. Qed.
Opaque span_of.
Lemma map_span_same h h' l : (forall x, In x l -> sob h' x = sob h x) -> map (span_of h') l = map (span_of h) l.
Proof. intros E. apply map_ext_in. intros x Hx. apply span_of_same, E, Hx. Qed.
Lemma tiles_same h h' l : forall a b, (forall x, In x l -> s_start (sob h' x) = s_start (sob h x) /\ s_end (sob h' x) = s_end (sob h x)) -> tiles h a l b -> tiles h' a l b.
Proof.
  induction l as [|x l IH]; intros a b E T; [exact T|]. destruct T as (m & T1 & T2 & T3 & T4). destruct (E x ltac:(simpl; auto)) as [E1 E2].
  exists m. split; [congruence|]. split; [congruence|]. split; [exact T3|]. apply IH; [|exact T4]. intros y Hy. apply E. simpl; auto.
Qed.
Lemma hd_in {A} (l : list A) x : hd_error l = Some x -> In x l.
Proof. destruct l; simpl; [discriminate|]. intros [= ->]. auto. Qed.
Lemma hd_rev_in {A} (l : list A) x : hd_error (rev l) = Some x -> In x l.
Proof. intros E. apply in_rev, hd_in, E. Qed.
(** One tier after the other. *)
Lemma refilled_cons h h1 h2 t ts : ~ In t ts -> (forall u x, In u (t :: ts) -> In x (t_seq (tob h u)) -> (x < List.length (h_seq h))%nat) ->
  refilled h h1 [t] -> refilled h1 h2 ts -> refilled h h2 (t :: ts).
Proof.
  intros Nt Lv A B. assert (It : In t [t]) by (simpl; auto).
  assert (Oth : forall u, In u ts -> tob h1 u = tob h u) by (intros u Hu; apply A; intros [->|[]]; auto).
  assert (Rt : tob h2 t = tob h1 t) by (apply B; exact Nt).
  assert (E1 : forall u x, In u ts -> In x (t_seq (tob h u)) -> sob h1 x = sob h x) by (intros u x Hu Hx; apply A, (Lv u x); simpl; auto).
  assert (E2 : forall x, In x (t_seq (tob h1 t)) -> sob h2 x = sob h1 x) by (intros x Hx; apply B, (rf_live _ _ _ A t x It Hx)).
  pose proof (rf_len _ _ _ A) as L1. pose proof (rf_len _ _ _ B) as L2.
  constructor.
  - intros u [<-|Hu].
    + rewrite Rt, (map_span_same h1 h2) by exact E2. apply (rf_span _ _ _ A t It).
    + rewrite (rf_span _ _ _ B u Hu), (Oth u Hu). rewrite (map_span_same h h1) by (intros x Hx; apply (E1 u x Hu Hx)). reflexivity.
  - intros u x [<-|Hu] Hx.
    + rewrite Rt in Hx. destruct (rf_live _ _ _ A t x It Hx) as [Q1 Q2]. split; [unfold live in *; lia|]. apply (dated_same h1 h2); rewrite ?(E2 x Hx); auto.
    + apply (rf_live _ _ _ B u x Hu Hx).
  - intros u [<-|Hu].
    + destruct (rf_put _ _ _ A t It) as ((x & y & a & b & P1 & P2 & P3 & P4 & P5) & P6 & P7 & Pc). unfold blanks_put. rewrite Rt. split; [|split; [exact P6|split; [|exact Pc]]].
      * exists x, y, a, b. split; [exact P1|]. split; [exact P2|]. split; [exact P3|]. split; [exact P4|]. apply (tiles_same h1 h2); [|exact P5].
        intros z Hz. rewrite (E2 z Hz). auto.
      * intros z Hz Lz. rewrite (E2 z Hz). apply (P7 z Hz Lz).
    + destruct (rf_put _ _ _ B u Hu) as ((x & y & a & b & P1 & P2 & P3 & P4 & P5) & P6 & P7 & Pc). unfold blanks_put. rewrite (Oth u Hu) in *.
      split; [|split; [|split; [|exact Pc]]].
      * exists x, y, a, b. rewrite (E1 u x Hu (hd_in _ _ P1)) in P3. rewrite (E1 u y Hu (hd_rev_in _ _ P2)) in P4. auto 10.
      * apply (filter_within _ _ _ _ (fun x Q => proj2 (Nat.ltb_lt x _) (Nat.lt_le_trans _ _ _ (proj1 (Nat.ltb_lt x _) Q) L1)) P6).
        intros z Hz. apply Nat.ltb_lt, (Lv u z); simpl; auto.
      * intros z Hz Lz. destruct (Nat.lt_ge_cases z (List.length (h_seq h1))) as [Q|Q].
        { exfalso. assert (Hz' : In z (t_seq (tob h u))) by (rewrite <- P6; apply filter_In; split; [exact Hz|apply Nat.ltb_lt; exact Q]).
          pose proof (Lv u z ltac:(simpl; auto) Hz'). lia. }
        destruct (P7 z Hz Q) as (P8 & P9 & s & e & P10 & P11 & (i & v & w & W1 & W2 & W3 & W4 & W5)). split; [exact P8|]. split; [exact P9|].
        exists s, e. split; [exact P10|]. split; [exact P11|]. exists i, v, w.
        rewrite (E1 u v Hu (nth_error_In _ _ W1)) in W3. rewrite (E1 u w Hu (nth_error_In _ _ W2)) in W4. auto.
  - intros u y [<-|Hu] Hy Ly.
    + rewrite Rt in Hy. rewrite (E2 y Hy). apply (rf_new _ _ _ A t y It Hy Ly).
    + destruct (Nat.lt_ge_cases y (List.length (h_seq h1))) as [Q|Q]; [|apply (rf_new _ _ _ B u y Hu Hy Q)].
      exfalso. destruct (rf_put _ _ _ B u Hu) as (_ & P6 & _). rewrite (Oth u Hu) in P6.
      assert (Hz' : In y (t_seq (tob h u))) by (rewrite <- P6; apply filter_In; split; [exact Hy|apply Nat.ltb_lt; exact Q]).
      pose proof (Lv u y ltac:(simpl; auto) Hz'). lia.
  - intros u [<-|Hu]; [rewrite Rt; apply (rf_tier _ _ _ A t It)|]. rewrite <- (Oth u Hu). apply (rf_tier _ _ _ B u Hu).
  - intros u Hu. rewrite (rf_rest _ _ _ B u) by (intros Q; apply Hu; simpl; auto). apply (rf_rest _ _ _ A u). intros [->|[]]. apply Hu. simpl; auto.
  - rewrite (rf_tiers _ _ _ B). apply A.
  - intros i Hi. rewrite (rf_old _ _ _ B i) by lia. apply A, Hi.
  - lia.
  - rewrite (rf_cls _ _ _ B). apply A.
  - rewrite (rf_grp _ _ _ B). apply A.
  - rewrite (rf_grid _ _ _ B). apply A.
Qed.

(** ** Gaps beyond the tolerance *)
Definition wide (l : list span) : Prop := exists p, In p (span_gaps l) /\ ~ near (snd p) (fst p).
Lemma near_refl a : near a a.
Proof. unfold near. pose proof atol_nonneg. lia. Qed.
Lemma wide_open h l : (forall x, In x l -> dated h x) -> in_turn h l ->
  wide (map (span_of h) l) <-> allclose (tl (map fst (map (span_of h) l))) (removelast (map snd (map (span_of h) l))) = false.
Proof.
  intros D T. rewrite !map_map. assert (Q : forall b : bool, b = false <-> ~ b = true) by (intros []; split; congruence). rewrite Q, (close_iff h l D). split.
  - intros (p & Hp & Np) K. destruct (gap_span h l D p Hp) as (i & x & y & A & B & C & E & _). apply Np. apply (K i x y); auto.
  - intros K. assert (X : ~ forall p, In p (span_gaps (map (span_of h) l)) -> near (snd p) (fst p)).
    { intros W. apply K. intros i x y a b Hx Hy Ha Hb. destruct (T i (S i) x y ltac:(lia) Hx Hy) as (e & s & E1 & E2 & Le).
      assert (e = a) by congruence. assert (s = b) by congruence. subst e s. destruct (Z.eq_dec a b) as [->|Ne]; [apply near_refl|].
      apply (W (a, b)). apply gaps_in. exists i, (span_of h x), (span_of h y). rewrite !nth_error_map, Hx, Hy.
      destruct (D x (nth_error_In _ _ Hx)) as (_ & A & _). destruct (D y (nth_error_In _ _ Hy)) as (B & _).
      assert (a = snd (span_of h x)) by congruence. assert (b = fst (span_of h y)) by congruence. subst a b. split; [reflexivity|]. split; [reflexivity|]. split; [reflexivity|lia]. }
    assert (Dn : forall p : span, near (snd p) (fst p) \/ ~ near (snd p) (fst p)) by (intros p; unfold near; lia).
    unfold wide. revert X. generalize (span_gaps (map (span_of h) l)). clear -Dn. induction l as [|p l IH]; intros X; [exfalso; apply X; intros p []|].
    destruct (Dn p) as [N|N]; [|exists p; simpl; auto]. destruct IH as (q & A & B); [|exists q; simpl; auto].
    intros W. apply X. intros q [<-|Hq]; auto.
Qed.
Lemma real_wide h l : (forall x, In x l -> dated h x) -> in_turn h l -> real_gap h l <-> wide (map (span_of h) l).
Proof.
  intros D T. split.
  - intros (i & x & y & a & b & A & B & C & E & N). apply (wide_open h l D T). rewrite !map_map. apply not_true_is_false. rewrite (close_iff h l D).
    intros K. apply N. apply (K i x y); auto.
  - intros (p & Hp & Np). destruct (gap_span h l D p Hp) as (i & x & y & A & B & C & E & _). exists i, x, y, (fst p), (snd p). auto.
Qed.
Lemma wide_ne l : wide l -> l <> [].
Proof. intros (p & Hp & _) ->. destruct Hp. Qed.
Lemma snug_gaps h : forall ts bss t, snug h (t :: ts) bss -> forall u, In u (t :: ts) ->
  span_gaps (map (span_of h) (t_seq (tob h u))) = span_gaps (map (span_of h) (t_seq (tob h t))).
Proof.
  induction ts as [|v ts IH]; intros bss t S u [->|Hu]; [reflexivity|destruct Hu|reflexivity|]. destruct bss as [|bs bss]; [destruct S|].
  rewrite snug_cons in S. destruct S as (S1 & S2 & S3). rewrite (IH bss v S3 u Hu). rewrite <- S1, concat_map. apply gaps_blocks, fills_blocks, S2.
Qed.
End WithEnv.
