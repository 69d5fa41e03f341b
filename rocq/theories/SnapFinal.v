(** * SnapFinal: relating two tiers whose boundaries do not match. *)
From Verif Require Export ArrangeFinal.
From Verif Require Import SnapSpec.
Open Scope Z_scope.

Section WithEnv.
Context `{Env}.
Opaque span_of.

(** ** Giving intervals other times *)
Definition retime (p : span) (o : seqobj) : seqobj := set_s_end (Some (snd p)) (set_s_start (Some (fst p)) o).
Record timed (ns : oid -> span) (X : list oid) (h hs : heap) : Prop := {
  ti_rest : h_cls hs = h_cls h /\ h_tier hs = h_tier h /\ h_grp hs = h_grp h /\ h_grid hs = h_grid h;
  ti_len : List.length (h_seq hs) = List.length (h_seq h);
  ti_in : forall i, In i X -> sob hs i = retime (ns i) (sob h i);
  ti_out : forall i, ~ In i X -> sob hs i = sob h i
}.
Lemma timed_perm ns X Y h hs : (forall i, In i X <-> In i Y) -> timed ns X h hs -> timed ns Y h hs.
Proof. intros E [A B C D]. constructor; auto; intros i Hi; [apply C|apply D]; rewrite E; auto. Qed.
Lemma timed_app ns X Y h1 h2 h3 : (forall i, In i X -> ~ In i Y) -> timed ns X h1 h2 -> timed ns Y h2 h3 -> timed ns (X ++ Y) h1 h3.
Proof.
  intros D [(A1 & A2 & A3 & A4) A5 A6 A7] [(B1 & B2 & B3 & B4) B5 B6 B7]. constructor.
  - split; [congruence|]. split; [congruence|]. split; congruence.
  - congruence.
  - intros i Hi. apply in_app_or in Hi. destruct (in_dec Nat.eq_dec i X) as [Hx|Hx].
    + rewrite B7 by auto. apply A6. exact Hx.
    + destruct Hi as [Hi|Hi]; [contradiction|]. rewrite B6 by auto. rewrite A7 by auto. reflexivity.
  - intros i Hi. rewrite B7, A7; auto; intros Q; apply Hi; apply in_or_app; auto.
Qed.
Lemma timed_exists ns X : forall h, NoDup X -> (forall x, In x X -> live h x) -> exists hs, timed ns X h hs.
Proof.
  induction X as [|x X IH]; intros h N L.
  - exists h. constructor; auto. intros i [].
  - apply NoDup_cons in N. destruct N as [Nx N]. rewrite elem_of_list_In in Nx.
    set (h1 := upd_seq x (retime (ns x)) h). destruct (IH h1 N) as (hs & T).
    { intros y Hy. unfold h1. rewrite live_upd. apply L. simpl. auto. }
    exists hs. change (x :: X) with ([x] ++ X)%list. apply (timed_app ns [x] X h h1 hs); [intros i [<-|[]]; exact Nx| |exact T].
    constructor.
    + auto.
    + unfold h1. apply len_upd_seq.
    + intros i [<-|[]]. unfold h1. apply sob_upd_eq. apply L. simpl. auto.
    + intros i Hi. unfold h1. apply sob_upd_ne. intros ->. apply Hi. simpl. auto.
Qed.
Lemma timed_boundary ns X h hs k : timed ns X h hs -> (forall x, In x X -> s_label (sob h x) <> "#"%string) -> is_boundary h k -> is_boundary hs k.
Proof.
  intros [_ L _ D] N (A & B & C). unfold is_boundary. rewrite L, D; [split; [exact A|split; [exact B|exact C]]|].
  intros Hk. apply (N k Hk). exact B.
Qed.
Lemma wired_timed ns X c U bs h h1 hs hs1 : wired c U bs h h1 -> timed ns X h hs -> timed ns X h1 hs1 ->
  (forall x, In x X -> live h x /\ s_label (sob h1 x) <> "#"%string) -> wired c U bs hs hs1.
Proof.
  intros [W1 W2 W3 W4 W5 W6 W7] T T1 LX.
  assert (Bd : forall k, is_boundary h1 k -> is_boundary hs1 k).
  { intros k. apply (timed_boundary ns X); [exact T1|]. intros x Hx. apply (LX x Hx). }
  destruct T as [(A1 & A2 & A3 & A4) A5 A6 A7], T1 as [(B1 & B2 & B3 & B4) B5 B6 B7]. destruct W1 as (C1 & C2 & C3 & C4).
  constructor.
  - split; [congruence|]. split; [congruence|]. split; congruence.
  - lia.
  - intros i Hi Hn. apply Bd. apply W3; unfold live in *; rewrite ?A5, ?B5 in *; auto.
  - intros i Hi HU Hb. assert (E : sob h1 i = sob h i) by (apply W4; auto; unfold live in *; rewrite A5 in Hi; exact Hi).
    destruct (in_dec Nat.eq_dec i X) as [Q|Q]; [rewrite B6, A6, E|rewrite B7, A7, E]; auto.
  - eapply Forall2_weaken; [exact W5|]. intros u b _ _ E. cbv beta in E.
    destruct (in_dec Nat.eq_dec u X) as [Q|Q]; [rewrite B6, A6, E|rewrite B7, A7, E]; auto.
  - eapply Forall2_weaken; [exact W6|]. intros u b _ _ K y Hy. specialize (K y Hy).
    destruct (in_dec Nat.eq_dec y X) as [Q|Q]; [rewrite B6, A6 by auto|rewrite B7, A7 by auto; exact K].
    destruct K as (K1 & K2 & K3 & K4 & K5 & K6 & K7 & K8 & K9 & K10). unfold kid_of, retime. simpl. repeat split; assumption.
  - eapply Forall2_weaken; [exact W7|]. intros u b _ _ Ch. eapply chained_ext; [|exact Bd|exact Ch]. intros x Hx.
    destruct (in_dec Nat.eq_dec x X) as [Q|Q]; [rewrite B6 by auto|rewrite B7 by auto]; split; reflexivity.
Qed.

(** ** Cleaning up an interval that is filled *)
Lemma close_same v h : close_m (Some v) (Some v) h = Ok true h.
Proof. unfold close_m. pose proof (allclose_refl [v]) as Q. cbn in Q. rewrite andb_true_r in Q. rewrite Q. reflexivity. Qed.
Lemma end_plain h x : is_point h x = false -> end_of h x = s_end (sob h x).
Proof. unfold end_of, is_point, is_point_cls. intros ->. reflexivity. Qed.
Lemma gap_fill_snug sc h l acc : forall a b, tiles h a l b -> (forall x, In x l -> is_point h x = false) -> gap_fill sc l acc h = Ok acc h.
Proof.
  induction l as [|x l IH]; intros a b T P; [reflexivity|]. destruct l as [|y r]; [reflexivity|].
  destruct T as (m & _ & Ex & _ & T). pose proof T as (m' & Sy & _ & _ & _). cbn [gap_fill]. mstep. mstep.
  rewrite (end_plain h x) by (apply P; simpl; auto). unfold start_of. rewrite Ex, Sy. rewrite (bind_ok _ _ _ _ _ (close_same m h)).
  apply (IH m b T). intros z Hz. apply P. simpl in *. auto.
Qed.
Lemma tiles_last h f r : forall a b, tiles h a (f :: r) b -> s_end (sob h (List.last r f)) = Some b.
Proof.
  revert f. induction r as [|y r IH]; intros f a b (m & _ & E & _ & T).
  - simpl in T. simpl. congruence.
  - replace (List.last (y :: r) f) with (List.last r y); [apply (IH y m b T)|]. destruct r as [|z r]; [reflexivity|exact (last_indep z r y f)].
Qed.
Lemma in_last {A} (f : A) r : In (List.last r f) (f :: r).
Proof.
  revert f. induction r as [|y r IH]; intros f; [simpl; auto|]. right. replace (List.last (y :: r) f) with (List.last r y); [apply IH|].
  destruct r as [|z r]; [reflexivity|exact (last_indep z r y f)].
Qed.
Lemma cleanup_filled n u c h : subset_class h (s_cls (sob h u)) = Some c -> issubclass h c cBottom = false ->
  s_subset (sob h u) <> [] -> fills h u (s_subset (sob h u)) -> (forall y, In y (s_subset (sob h u)) -> is_point h y = false) ->
  seq_cleanup (S n) u h = Ok tt h.
Proof.
  intros Sc Nb Ne (s & e & A & B & _ & T) P. cbn [seq_cleanup]. mstep. rewrite Sc. unfold issubclass_m. mstep. rewrite Nb. mstep.
  destruct (s_subset (sob h u)) as [|f r] eqn:Es; [congruence|]. mstep. mstep.
  assert (El : List.last (f :: r) f = List.last r f) by (destruct r; [reflexivity|]; reflexivity).
  rewrite El. pose proof (tiles_last h f r s e T) as Hl. pose proof T as (m & Sf & _ & _ & _).
  unfold start_of. rewrite (end_plain h (List.last r f)) by (apply P, in_last). rewrite Hl, Sf, A, B.
  rewrite (bind_ok _ _ _ _ _ (close_same s h)). rewrite bind_ret. rewrite (bind_ok _ _ _ _ _ (close_same e h)). rewrite bind_ret.
  rewrite (bind_ok _ _ _ _ _ (gap_fill_snug (Some c) h (f :: r) sl_empty s e T P)). reflexivity.
Qed.

(** ** Cutting a block to the interval it belongs to *)
Definition timed_as (h : heap) (x : oid) (p : span) : Prop := s_start (sob h x) = Some (fst p) /\ s_end (sob h x) = Some (snd p).
Lemma tiles_clip h hs su : forall b a e, tiles h a b e -> b <> [] -> (forall y, In y b -> 0 < shared su (span_of h y)) ->
  (forall y, In y b -> timed_as hs y (common su (span_of h y))) -> tiles hs (Z.max (fst su) a) b (Z.min (snd su) e).
Proof.
  induction b as [|y b IH]; intros a e T Ne Sh Tm; [congruence|]. destruct T as (m & A & B & Hm & T).
  destruct (dated_by h y a m A B Hm) as [_ Sp]. pose proof (Sh y ltac:(simpl; auto)) as Sy. destruct (Tm y ltac:(simpl; auto)) as (Ty1 & Ty2).
  rewrite Sp in Sy, Ty1, Ty2. unfold shared, common in *. simpl in *. destruct b as [|z r].
  - simpl in T. subst m. exists (Z.min (snd su) e). split; [exact Ty1|]. split; [exact Ty2|]. split; [lia|reflexivity].
  - pose proof T as (m' & A' & B' & Hm' & _). destruct (dated_by h z m m' A' B' Hm') as [_ Sp'].
    pose proof (Sh z ltac:(simpl; auto)) as Sz. rewrite Sp' in Sz. simpl in Sz.
    exists m. split; [exact Ty1|]. split; [rewrite Ty2; f_equal; lia|]. split; [lia|].
    specialize (IH m e T ltac:(discriminate) ltac:(intros; apply Sh; simpl in *; auto) ltac:(intros; apply Tm; simpl in *; auto)).
    replace (Z.max (fst su) m) with m in IH by lia. exact IH.
Qed.
Lemma nth_last {A} (f : A) r : nth_error (f :: r) (List.length r) = Some (List.last r f).
Proof.
  revert f. induction r as [|y r IH]; intros f; [reflexivity|]. cbn [List.length]. change (nth_error (f :: y :: r) (S (List.length r))) with (nth_error (y :: r) (List.length r)).
  rewrite IH. destruct r as [|z r]; [reflexivity|]. f_equal. exact (last_indep z r y f).
Qed.
Definition aim (h : heap) (ns : oid -> span) (u : oid) (b : list oid) : Prop :=
  dated h u /\ b <> [] /\ (forall y, In y b -> 0 < shared (span_of h u) (span_of h y)) /\
  (exists a e, tiles h a b e /\ ns u = common (span_of h u) (a, e)) /\
  forall y, In y b -> ns y = common (span_of h u) (span_of h y).
Lemma aim_ext h h' ns u b : sob h' u = sob h u -> (forall y, In y b -> sob h' y = sob h y) -> aim h ns u b -> aim h' ns u b.
Proof.
  intros Eu Ey (A & B & C & (a & e & D & D') & E).
  assert (Ku : kept (sob h u) (sob h' u)) by (rewrite Eu; apply kept_refl).
  assert (Ky : forall y, In y b -> kept (sob h y) (sob h' y)) by (intros y Hy; rewrite Ey by auto; apply kept_refl).
  pose proof (span_kept h h' u Ku) as Su. assert (Sy : forall y, In y b -> span_of h' y = span_of h y) by (intros y Hy; apply span_kept; auto).
  split; [apply (dated_kept h); auto|]. split; [exact B|]. rewrite Su. split; [intros y Hy; rewrite Sy by auto; auto|]. split.
  - exists a, e. split; [apply (tiles_kept h); auto|exact D'].
  - intros y Hy. rewrite Sy by auto. auto.
Qed.
Lemma aim_fills h hs ns u b : aim h ns u b -> timed_as hs u (ns u) -> (forall y, In y b -> timed_as hs y (ns y)) -> fills hs u b.
Proof.
  intros (A & B & C & (a & e & D & D') & E) (T1 & T2) Ty.
  assert (T : tiles hs (Z.max (fst (span_of h u)) a) b (Z.min (snd (span_of h u)) e)).
  { apply (tiles_clip h); auto. intros y Hy. rewrite <- E by auto. auto. }
  rewrite D' in T1, T2. simpl in T1, T2. exists (Z.max (fst (span_of h u)) a), (Z.min (snd (span_of h u)) e).
  split; [exact T1|]. split; [exact T2|]. split; [|exact T]. destruct b as [|y r]; [congruence|]. destruct T as (m & _ & _ & Hm & T).
  assert (Le : forall l p q, tiles hs p l q -> p <= q).
  { induction l as [|x l IH]; simpl; intros p q; [intros ->; lia|]. intros (k & _ & _ & Hk & Q). apply IH in Q. lia. }
  apply Le in T. lia.
Qed.
Lemma retime_own h x : dated h x -> retime (span_of h x) (sob h x) = sob h x.
Proof. intros (A & B & _). unfold retime. rewrite <- A, <- B. destruct (sob h x). reflexivity. Qed.
Lemma snap_ok ns u f r h : s_subset (sob h u) = f :: r -> aim h ns u (f :: r) -> live h u ->
  (forall y, In y (f :: r) -> live h y /\ is_point h y = false) -> ~ In u (f :: r) -> NoDup (f :: r) ->
  exists h',
    (uo <- get_seq u ;;
     match s_subset uo with
     | [] => raise IndexError
     | f :: r =>
       let l := List.last r f in
       fs <- gets (fun h => start_of h f) ;;
       le <- gets (fun h => end_of h l) ;;
       match s_start uo, fs, s_end uo, le with
       | Some a, Some b, Some c, Some d =>
         mod_seq u (set_s_start (Some (Z.max a b))) ;;;
         mod_seq f (set_s_start (Some (Z.max a b))) ;;;
         mod_seq u (set_s_end (Some (Z.min c d))) ;;;
         mod_seq l (set_s_end (Some (Z.min c d)))
       | _, _, _, _ => raise TypeError
       end
     end) h = Ok tt h' /\ timed ns (u :: f :: r) h h'.
Proof.
  intros Es ((Su & Eu & Du) & _ & Sh & (a & e & T & Nu) & Ny) Lu K Nin Nd.
  set (l := List.last r f). assert (Il : In l (f :: r)) by apply in_last.
  pose proof (tiles_last h f r a e T) as Hl. fold l in Hl. pose proof T as (m & Sf & Ef & Hm & T').
  destruct (dated_by h f a m Sf Ef Hm) as [Df Spf].
  destruct (tiles_in h _ _ _ l T Il) as (Dl & _ & _). assert (Ll : snd (span_of h l) = e) by (destruct Dl as (_ & Q & _); congruence).
  set (s' := Z.max (fst (span_of h u)) a). set (e' := Z.min (snd (span_of h u)) e).
  set (h1 := upd_seq u (set_s_start (Some s')) h). set (h2 := upd_seq f (set_s_start (Some s')) h1).
  set (h3 := upd_seq u (set_s_end (Some e')) h2). set (h4 := upd_seq l (set_s_end (Some e')) h3).
  assert (Uf : u <> f) by (intros ->; apply Nin; simpl; auto).
  assert (Ul : u <> l) by (intros Q; apply Nin; rewrite Q; exact Il).
  assert (Lf : live h f) by (apply K; simpl; auto). assert (Llv : live h l) by (apply K; exact Il).
  exists h4. split.
  { mstep. rewrite Es. fold l. cbv zeta. mstep. mstep. unfold start_of. rewrite (end_plain h l) by (apply K; exact Il). rewrite Su, Sf, Eu, Hl.
    fold s' e'. mstep. mstep. mstep. reflexivity. }
  constructor.
  - auto.
  - unfold h4, h3, h2, h1. rewrite !len_upd_seq. reflexivity.
  - intros i [<-|Hi].
    + unfold h4. rewrite sob_upd_ne by auto. unfold h3. rewrite sob_upd_eq by (unfold h2, h1; rewrite !live_upd; exact Lu).
      unfold h2. rewrite sob_upd_ne by auto. unfold h1. rewrite sob_upd_eq by exact Lu. unfold retime. rewrite Nu. reflexivity.
    + assert (Ui : i <> u) by (intros ->; contradiction). destruct (K i Hi) as [Li _]. destruct (tiles_in h _ _ _ i T Hi) as (Di & Bi & _).
      assert (E3 : sob h3 i = if decide (i = f) then set_s_start (Some s') (sob h i) else sob h i).
      { unfold h3. rewrite sob_upd_ne by auto. unfold h2. destruct (decide (i = f)) as [->|Q].
        - rewrite sob_upd_eq by (unfold h1; rewrite live_upd; exact Li). unfold h1. rewrite sob_upd_ne by auto. reflexivity.
        - rewrite sob_upd_ne by auto. unfold h1. apply sob_upd_ne. auto. }
      assert (E4 : sob h4 i = if decide (i = l) then set_s_end (Some e') (sob h3 i) else sob h3 i).
      { unfold h4. destruct (decide (i = l)) as [->|Q]; [|apply sob_upd_ne; auto]. apply sob_upd_eq. unfold h3, h2, h1. rewrite !live_upd. exact Llv. }
      rewrite E4, E3. rewrite (Ny i Hi).
      assert (Fst : i = f -> fst (span_of h i) = a) by (intros ->; rewrite Spf; reflexivity).
      assert (Nf : i <> f -> fst (span_of h u) <= fst (span_of h i)).
      { intros Q. destruct Hi as [Hi|Hi]; [congruence|]. destruct (tiles_in h _ _ _ i T' Hi) as (_ & Q' & _).
        pose proof (Sh f ltac:(simpl; auto)) as S0. rewrite Spf in S0. unfold shared in S0. simpl in S0. lia. }
      assert (Snd : i = l -> snd (span_of h i) = e) by (intros ->; exact Ll).
      assert (Nl : i <> l -> snd (span_of h i) <= snd (span_of h u)).
      { intros Q. apply In_nth_error in Hi. destruct Hi as [j Hj].
        assert (j < List.length r)%nat.
        { assert (j < List.length (f :: r))%nat by (apply nth_error_Some; congruence). simpl in *.
          destruct (Nat.eq_dec j (List.length r)) as [->|]; [|lia]. rewrite nth_last in Hj. fold l in Hj. congruence. }
        destruct (tiles_in_turn h (f :: r) a e T j (List.length r) i l ltac:(assumption) Hj (nth_last f r)) as (p & q & P1 & P2 & P3).
        destruct Di as (_ & D1 & _). destruct Dl as (D2 & _). pose proof (Sh l Il) as S0. unfold shared in S0.
        assert (p = snd (span_of h i)) by congruence. assert (q = fst (span_of h l)) by congruence. lia. }
      pose proof (retime_own h i Di) as Ro. unfold retime in *. unfold common. cbn [fst snd].
      destruct Di as (D1 & D2 & _).
      destruct (decide (i = f)) as [Qf|Qf], (decide (i = l)) as [Ql|Ql].
      * rewrite (Fst Qf), (Snd Ql). reflexivity.
      * rewrite (Fst Qf). replace (Z.min (snd (span_of h u)) (snd (span_of h i))) with (snd (span_of h i)) by (specialize (Nl Ql); lia).
        fold s'. rewrite <- D2. destruct (sob h i). reflexivity.
      * rewrite (Snd Ql). replace (Z.max (fst (span_of h u)) (fst (span_of h i))) with (fst (span_of h i)) by (specialize (Nf Qf); lia).
        fold e'. rewrite <- D1. destruct (sob h i). reflexivity.
      * replace (Z.max (fst (span_of h u)) (fst (span_of h i))) with (fst (span_of h i)) by (specialize (Nf Qf); lia).
        replace (Z.min (snd (span_of h u)) (snd (span_of h i))) with (snd (span_of h i)) by (specialize (Nl Ql); lia). symmetry. exact Ro.
  - intros i Hi. assert (Ui : i <> u) by (intros ->; apply Hi; simpl; auto). assert (Fi : i <> f) by (intros ->; apply Hi; simpl; auto).
    assert (Li : i <> l) by (intros ->; apply Hi; right; exact Il).
    unfold h4. rewrite sob_upd_ne by auto. unfold h3. rewrite sob_upd_ne by auto. unfold h2. rewrite sob_upd_ne by auto. unfold h1. apply sob_upd_ne. auto.
Qed.

(** ** Relating two tiers *)
Lemma timed_at ns X h hs x : timed ns X h hs -> In x X -> timed_as hs x (ns x).
Proof. intros T Hx. unfold timed_as. rewrite (ti_in _ _ _ _ T x Hx). split; reflexivity. Qed.
Lemma aims_fill h hs ns U bs : Forall2 (aim h ns) U bs -> timed ns (U ++ concat bs) h hs -> Forall2 (fills hs) U bs.
Proof.
  intros A T. eapply Forall2_weaken; [exact A|]. intros u b Hu Hb Q. apply (aim_fills h hs ns u b Q).
  - eapply timed_at; [exact T|apply in_or_app; auto].
  - intros y Hy. eapply timed_at; [exact T|apply in_or_app; right; apply (in_concat' y b); auto].
Qed.
Lemma ready_timed ns cU c U bs h hs : ready cU c U bs h -> Forall2 (aim h ns) U bs -> timed ns (U ++ concat bs) h hs -> ready cU c U bs hs.
Proof.
  intros R A T. pose proof (aims_fill h hs ns U bs A T) as F. destruct R as [R1 R2 R3 R4 R5 R6 R7]. destruct T as [(T1 & T2 & T3 & T4) T5 T6 T7].
  constructor; auto.
  - intros u Hu. rewrite T6 by (apply in_or_app; auto). destruct (R4 u Hu) as (Q1 & Q2 & Q3). split; [unfold live in *; lia|]. auto.
  - intros u Hu. rewrite T6 by (apply in_or_app; auto). destruct (R5 u Hu) as (Q1 & Q2 & Q3 & Q4). split; [unfold live in *; lia|]. auto.
  - rewrite (subset_class_ext h hs) by auto. exact R6.
  - intros b Hb. destruct (Forall2_in_r _ _ _ b F Hb) as (u & _ & (s & e & _ & _ & _ & Ti)). split; [apply (R7 b Hb)|].
    split; [|eapply tiles_sorted; eauto]. intros y Hy. destruct (tiles_in hs b _ _ y Ti Hy) as ((Q & _) & _). eauto.
Qed.
Lemma relate_all_snap n ut lt cU c ns sq : forall U bs pre h hs, t_seq (tob h ut) = (pre ++ U)%list ->
  ready cU c U bs h -> Forall2 (aim h ns) U bs -> issubclass h c cBottom = false -> issubclass h c cPoint = false ->
  timed ns (U ++ concat bs) h hs ->
  exists h', relate_all (S n) ut lt true sq (List.length pre) bs h = Ok tt h' /\ wired c U bs hs h'.
Proof.
  induction U as [|u U IH]; intros bs pre h hs Hs R A Nb Np T.
  - apply Forall2_nil_inv_l in A. subst bs. exists h. split; [reflexivity|]. destruct T as [(T1 & T2 & T3 & T4) T5 T6 T7].
    constructor; [split; [congruence|split; [congruence|split; congruence]]|lia| | |constructor|constructor|constructor].
    + intros i Hi Hn. unfold live in *. lia.
    + intros i _ _ _. symmetry. apply T7. intros [].
  - inversion A as [|x0 b l0 bs' Ab A' E1 E2]. subst bs x0 l0. rename bs' into bs. clear A. rename A' into A.
    pose proof R as [R1 R2 R3 R4 R5 R6 R7].
    destruct (R4 u) as (Lu & Cu & Hu); [simpl; auto|]. destruct (R7 b) as (Ne & Kb & Sb); [simpl; auto|].
    assert (R2' := R2). simpl in R2'. apply NoDup_app in R2'. destruct R2' as (Ndb & Nbb & R2').
    assert (R1' := R1). apply NoDup_cons in R1'. destruct R1' as [Nu R1']. rewrite elem_of_list_In in Nu.
    assert (Ub : ~ In u b) by (intros Hi; apply (R3 u); simpl; auto; apply in_or_app; auto).
    destruct (adopt_fresh u b c h) as (h1 & E1 & W1); auto.
    { rewrite Cu. exact R6. }
    { split; [exact Ndb|]. intros x Hx. destruct (R5 x) as (Q1 & Q2 & Q3 & _); [simpl; apply in_or_app; auto|]. auto. }
    { intros y Hy. apply R5. simpl. apply in_or_app. auto. }
    pose proof (wi_up _ _ _ _ _ W1) as Q. apply Forall2_cons_1 in Q. destruct Q as [Up _].
    pose proof (wi_kid _ _ _ _ _ W1) as Q. apply Forall2_cons_1 in Q. destruct Q as [Kid _].
    assert (Ab1 : aim h1 ns u b).
    { destruct Ab as (B1 & B2 & B3 & (a & e & B4 & B4') & B5).
      assert (Ku : kept (sob h u) (sob h1 u)) by (rewrite Up; unfold kept, put_kids; simpl; auto).
      assert (Ky : forall y, In y b -> kept (sob h y) (sob h1 y)).
      { intros y Hy. destruct (Kid y Hy) as (Q1 & Q2 & Q3 & Q4 & _ & _ & _ & Q5 & _). unfold kept. auto. }
      pose proof (span_kept h h1 u Ku) as Su. assert (Sy : forall y, In y b -> span_of h1 y = span_of h y) by (intros y Hy; apply span_kept; auto).
      split; [apply (dated_kept h); auto|]. split; [exact B2|]. rewrite Su. split; [intros y Hy; rewrite Sy by auto; auto|]. split.
      - exists a, e. split; [apply (tiles_kept h); auto|exact B4'].
      - intros y Hy. rewrite Sy by auto. auto. }
    destruct b as [|f r] eqn:Eb; [congruence|]. rewrite <- Eb in *.
    assert (Len1 : (List.length (h_seq h) <= List.length (h_seq h1))%nat) by apply (wi_len _ _ _ _ _ W1).
    pose proof (wi_rest _ _ _ _ _ W1) as (Rc & Rt & Rg & Rd).
    assert (Es1 : s_subset (sob h1 u) = b) by (rewrite Up; reflexivity).
    assert (Lv1 : forall i, live h i -> live h1 i) by (intros i; unfold live; lia).
    assert (Py : forall y, In y b -> live h1 y /\ is_point h1 y = false).
    { intros y Hy. destruct (R5 y) as (Q1 & Q2 & _); [simpl; apply in_or_app; auto|]. split; [auto|]. destruct (Kid y Hy) as (Q3 & _).
      unfold is_point. rewrite Q3, Q2. rewrite (issubclass_ext h h1) by exact Rc. exact Np. }
    destruct (snap_ok ns u f r h1) as (h2 & E2 & T2); rewrite <- ?Eb; auto.
    rewrite <- Eb in T2. pose proof T2 as [(Sc & St & Sg & Sd) Sl Si So].
    assert (F2 : fills h2 u b).
    { apply (aim_fills h1 h2 ns u b Ab1); [eapply timed_at; [exact T2|simpl; auto]|]. intros y Hy. eapply timed_at; [exact T2|simpl; auto]. }
    assert (E3 : when sq (seq_cleanup (S n) u) h2 = Ok tt h2).
    { destruct sq; [|reflexivity]. apply (cleanup_filled n u c h2).
      - rewrite Si by (simpl; auto). unfold retime. simpl. rewrite Up. simpl. rewrite Cu. rewrite (subset_class_ext h h2) by congruence. exact R6.
      - rewrite (issubclass_ext h h2) by congruence. exact Nb.
      - rewrite Si by (simpl; auto). unfold retime. simpl. rewrite Up. simpl. rewrite Eb. discriminate.
      - assert (Q : s_subset (sob h2 u) = b) by (rewrite Si by (simpl; auto); unfold retime; simpl; rewrite Up; reflexivity). rewrite Q. exact F2.
      - assert (Q : s_subset (sob h2 u) = b) by (rewrite Si by (simpl; auto); unfold retime; simpl; rewrite Up; reflexivity). rewrite Q.
        intros y Hy. destruct (Py y Hy) as [_ Q']. unfold is_point in *. rewrite Si by (simpl; auto). unfold retime. simpl.
        rewrite (issubclass_ext h1 h2) by auto. exact Q'. }
    assert (Out : forall i, In i U \/ In i (concat bs) -> i <> u /\ ~ In i b /\ live h i).
    { intros i Hi. split; [|split].
      - intros ->. destruct Hi as [Hi|Hi]; [auto|]. apply (R3 u); simpl; auto. apply in_or_app; auto.
      - intros Hb. destruct Hi as [Hi|Hi]; [apply (R3 i); simpl; auto; apply in_or_app; auto|]. apply (Nbb i); apply elem_of_list_In; auto.
      - destruct Hi as [Hi|Hi]; [apply R4; simpl; auto|apply R5; simpl; apply in_or_app; auto]. }
    assert (S2 : forall i, In i U \/ In i (concat bs) -> sob h2 i = sob h i).
    { intros i Hi. destruct (Out i Hi) as (O1 & O2 & O3). rewrite So by (intros [Q|Q]; [congruence|contradiction]).
      apply (wi_same _ _ _ _ _ W1); [exact O3|simpl; intros [Q|[]]; congruence|simpl; rewrite app_nil_r; exact O2]. }
    assert (Lv2 : forall i, live h i -> live h2 i) by (intros i; unfold live; lia).
    assert (Xs : exists hs2, timed ns (U ++ concat bs) h2 hs2).
    { apply timed_exists.
      - apply NoDup_app. split; [exact R1'|]. split; [|exact R2']. intros x Hx Hx'. rewrite elem_of_list_In in Hx, Hx'.
        apply (R3 x); simpl; auto. apply in_or_app. auto.
      - intros x Hx. apply in_app_or in Hx. apply Lv2. apply (Out x Hx). }
    destruct Xs as (hs2 & T3).
    destruct (IH bs (pre ++ [u])%list h2 hs2) as (h3 & E4 & W3).
    + assert (Q : tob h2 ut = tob h ut) by (unfold tob; rewrite St, Rt; reflexivity). rewrite Q, Hs, <- app_assoc. reflexivity.
    + apply (ready_ext cU c U bs h); [exact S2|exact Lv2|congruence|eapply ready_tail; eauto].
    + eapply Forall2_weaken; [exact A|]. intros v k Hv Hk Q. apply (aim_ext h); [apply S2; auto| |exact Q].
      intros y Hy. apply S2. right. apply (in_concat' y k); auto.
    + rewrite (issubclass_ext h h2) by congruence. exact Nb.
    + rewrite (issubclass_ext h h2) by congruence. exact Np.
    + exact T3.
    + exists h3. split.
      * rewrite app_length in E4. simpl in E4. replace (List.length pre + 1)%nat with (S (List.length pre)) in E4 by lia. cbn [relate_all].
        assert (Eo : relate_one (S n) ut lt true sq (List.length pre) b h = Ok tt h2).
        { unfold relate_one. mstep. rewrite Hs. rewrite nth_error_app2, Nat.sub_diag by lia. cbn [nth_error].
          rewrite (bind_ok _ _ _ _ _ E1). mstep. rewrite Es1.
          assert (Eb' : (match b with [] => sc <- gets (fun h => subset_class h (s_cls (sob h u))) ;;
               nw <- construct3 sc (s_start (sob h1 u)) (s_end (sob h1 u)) "" ;; seq_append (S n) u nw ;;; _b <- tier_append_n (S n) lt nw ;; ret tt
               | _ :: _ => ret tt end) h1 = Ok tt h1) by (rewrite Eb; reflexivity).
          rewrite (bind_ok _ _ _ _ _ Eb'). unfold when at 1. rewrite (bind_ok _ _ _ _ _ E2). exact E3. }
        rewrite (bind_ok _ _ _ _ _ Eo). exact E4.
      * apply (wired_cons c cU u b U bs hs hs2 h3); [eapply ready_timed; eauto| |exact W3].
        apply (wired_timed ns ((u :: U) ++ concat (b :: bs)) c [u] [b] h h1 hs hs2 W1 T).
        -- apply (timed_perm ns ((u :: b) ++ (U ++ concat bs))).
           ++ intros i. simpl. rewrite !in_app_iff. tauto.
           ++ apply (timed_app ns (u :: b) (U ++ concat bs) h1 h2 hs2); auto. intros i Hi Hi'. apply in_app_or in Hi'.
              destruct (Out i Hi') as (O1 & O2 & _). destruct Hi as [Hi|Hi]; [congruence|contradiction].
        -- intros x Hx. apply in_app_or in Hx.
           assert (Lx : live h x /\ s_label (sob h x) <> "#"%string).
           { destruct Hx as [Hx|Hx]; [destruct (R4 x Hx) as (Q1 & _ & Q2)|destruct (R5 x Hx) as (Q1 & _ & Q2 & _)]; auto. }
           destruct Lx as [Lx Nx]. split; [exact Lx|]. destruct (wired_kept c [u] [b] h h1 x W1 Lx) as (_ & _ & _ & -> & _). exact Nx.
Qed.

Lemma tiles_fun h b : forall a e a' e', b <> [] -> tiles h a b e -> tiles h a' b e' -> a = a' /\ e = e'.
Proof.
  induction b as [|x b IH]; intros a e a' e' Ne T T'; [congruence|]. destruct T as (m & A & B & _ & T), T' as (m' & A' & B' & _ & T').
  split; [congruence|]. assert (m = m') by congruence. subst m'. destruct b as [|y r]; [simpl in *; congruence|].
  apply (IH m e m e'); [discriminate|exact T|exact T'].
Qed.
Lemma aims_exist h U : forall bs, NoDup U -> NoDup (concat bs) -> (forall x, In x U -> ~ In x (concat bs)) ->
  Forall2 (fun u b => dated h u /\ b <> [] /\ (exists a e, tiles h a b e) /\ forall y, In y b -> 0 < shared (span_of h u) (span_of h y)) U bs ->
  exists ns, Forall2 (aim h ns) U bs.
Proof.
  induction U as [|u U IH]; intros bs N1 N2 Sep F.
  - apply Forall2_nil_inv_l in F. subst bs. exists (fun _ => (0, 0)). constructor.
  - inversion F as [|x0 b l0 bs' (D & Ne & (a & e & T) & Sh) F' E1 E2]. subst bs x0 l0. clear F. rename bs' into bs.
    apply NoDup_cons in N1. destruct N1 as [Nu N1]. rewrite elem_of_list_In in Nu. simpl in N2. apply NoDup_app in N2. destruct N2 as (N2 & Nb & N3).
    assert (Ub : ~ In u b) by (intros Q; apply (Sep u); simpl; auto; apply in_or_app; auto).
    destruct (IH bs N1 N3) as (ns & G); [|exact F'|].
    { intros x Hx Hx'. apply (Sep x); simpl; auto. apply in_or_app. auto. }
    exists (fun x => if decide (x = u) then common (span_of h u) (a, e) else if in_dec Nat.eq_dec x b then common (span_of h u) (span_of h x) else ns x).
    constructor.
    + split; [exact D|]. split; [exact Ne|]. split; [exact Sh|]. split.
      * exists a, e. split; [exact T|]. destruct (decide (u = u)); [reflexivity|congruence].
      * intros y Hy. destruct (decide (y = u)) as [->|]; [contradiction|]. destruct (in_dec Nat.eq_dec y b); [reflexivity|contradiction].
    + eapply Forall2_weaken; [exact G|]. intros v k Hv Hk (G1 & G2 & G3 & (a' & e' & G4 & G5) & G6).
      split; [exact G1|]. split; [exact G2|]. split; [exact G3|]. split.
      * exists a', e'. split; [exact G4|]. destruct (decide (v = u)) as [->|]; [contradiction|].
        destruct (in_dec Nat.eq_dec v b) as [Q|Q]; [|exact G5]. exfalso. apply (Sep v); simpl; auto. apply in_or_app. auto.
      * intros y Hy. pose proof (in_concat' y k bs Hk Hy) as Hy'. destruct (decide (y = u)) as [->|].
        -- exfalso. apply (Sep u); simpl; auto. apply in_or_app. auto.
        -- destruct (in_dec Nat.eq_dec y b) as [Q|Q]; [|apply G6; exact Hy]. exfalso. apply (Nb y); apply elem_of_list_In; auto.
Qed.
Lemma parted_each h U bs : parted h U bs ->
  Forall2 (fun u b => dated h u /\ b <> [] /\ (exists a e, tiles h a b e) /\ forall y, In y b -> 0 < shared (span_of h u) (span_of h y)) U bs.
Proof.
  intros (D & Ln & Bk & Be).
  assert (G : forall U bs, List.length bs = List.length U -> (forall u, In u U -> dated h u) -> (forall b, In b bs -> b <> [] /\ exists a e, tiles h a b e) ->
    (forall i u b y, nth_error U i = Some u -> nth_error bs i = Some b -> In y b -> 0 < shared (span_of h u) (span_of h y)) ->
    Forall2 (fun u b => dated h u /\ b <> [] /\ (exists a e, tiles h a b e) /\ forall y, In y b -> 0 < shared (span_of h u) (span_of h y)) U bs).
  { clear. induction U as [|u U IH]; intros [|b bs] Ln D Bk Be; try discriminate; constructor.
    - destruct (Bk b) as (B1 & B2); [simpl; auto|]. split; [apply D; simpl; auto|]. split; [exact B1|]. split; [exact B2|].
      intros y Hy. apply (Be 0%nat u b y); auto.
    - apply IH; [simpl in Ln; lia|intros v Hv; apply D; simpl; auto|intros k Hk; apply Bk; simpl; auto|].
      intros i v k y Hv Hk Hy. apply (Be (S i) v k y); auto. }
  apply G; auto. intros i u b y Hu Hb Hy. apply (Be i u b y Hu Hb Hy).
Qed.
Lemma fills_still h hs ns U bs : Forall2 (aim h ns) U bs -> Forall2 (fills h) U bs -> timed ns (U ++ concat bs) h hs ->
  forall x, sob hs x = sob h x.
Proof.
  intros A F T x. destruct (in_dec Nat.eq_dec x (U ++ concat bs)) as [Hx|Hx]; [|apply (ti_out _ _ _ _ T); exact Hx].
  rewrite (ti_in _ _ _ _ T x Hx).
  assert (Q : dated h x /\ ns x = span_of h x).
  { assert (G : Forall2 (fun u b => aim h ns u b /\ fills h u b) U bs).
    { clear -A F. induction A as [|u b U bs Ab A IH]; [constructor|]. apply Forall2_cons_1 in F. destruct F as [F1 F2]. constructor; auto. }
    apply in_app_or in Hx. destruct Hx as [Hx|Hx].
    - destruct (Forall2_in_l _ _ _ x G Hx) as (b & _ & (Q1 & Q2 & _ & (a & e & Q3 & Q4) & _) & Fb). split; [exact Q1|].
      destruct (fills_dated h x b Fb) as [_ T']. destruct (tiles_fun h b a e _ _ Q2 Q3 T') as [-> ->]. rewrite Q4. unfold common. simpl.
      rewrite Z.max_id, Z.min_id. destruct (span_of h x); reflexivity.
    - apply in_concat in Hx. destruct Hx as (b & Hb & Hx). destruct (Forall2_in_r _ _ _ b G Hb) as (u & _ & (_ & _ & _ & _ & Q5) & Fb).
      destruct (fills_dated h u b Fb) as [_ T']. destruct (tiles_in h b _ _ x T' Hx) as (Dx & L1 & L2). split; [exact Dx|].
      rewrite (Q5 x Hx). unfold common. rewrite Z.max_r, Z.min_r by lia. destruct (span_of h x); reflexivity. }
  destruct Q as [Dx ->]. apply retime_own. exact Dx.
Qed.
Lemma relate_pair_snap n ut lt cU c bs h : concat bs = t_seq (tob h lt) -> parted h (t_seq (tob h ut)) bs ->
  juts h (t_seq (tob h ut)) bs \/ Forall2 (fills h) (t_seq (tob h ut)) bs ->
  issubclass h cU cPoint = false -> issubclass h c cPoint = false -> issubclass h c cBottom = false ->
  ready cU c (t_seq (tob h ut)) bs h ->
  exists ns hs h', Forall2 (aim h ns) (t_seq (tob h ut)) bs /\ timed ns (t_seq (tob h ut) ++ concat bs) h hs /\
    relate_pair (S n) false ut lt h = Ok tt h' /\ wired c (t_seq (tob h ut)) bs hs h'.
Proof.
  intros Hc Pa J PU PL Nb R. pose proof R as [R1 R2 R3 R4 R5 R6 R7].
  destruct (aims_exist h (t_seq (tob h ut)) bs R1 R2 R3 (parted_each _ _ _ Pa)) as (ns & A).
  destruct (timed_exists ns (t_seq (tob h ut) ++ concat bs) h) as (hs & T).
  { apply NoDup_app. split; [exact R1|]. split; [|exact R2]. intros x Hx Hx'. rewrite elem_of_list_In in Hx, Hx'. exact (R3 x Hx Hx'). }
  { intros x Hx. apply in_app_or in Hx. destruct Hx as [Hx|Hx]; [apply (R4 x Hx)|apply (R5 x Hx)]. }
  destruct J as [J|F].
  - destruct (relate_pair_reduce (S n) false ut lt cU c bs h Hc Pa PU PL R) as (mm & sq & E & Hm & _).
    rewrite (proj2 Hm J) in E. destruct (relate_all_snap n ut lt cU c ns (sq && negb false) (t_seq (tob h ut)) bs [] h hs) as (h' & E' & W); auto.
    exists ns, hs, h'. split; [exact A|]. split; [exact T|]. split; [|exact W]. rewrite E. exact E'.
  - destruct (relate_pair_parted (S n) false ut lt cU c bs h Hc Pa (or_intror F) PU PL R) as (h' & E & W).
    exists ns, hs, h'. split; [exact A|]. split; [exact T|]. split; [exact E|].
    apply (wired_timed ns [] c _ _ h h' hs h' W); [| |intros x []].
    + destruct T as [T1 T2 T3 T4] eqn:ET. constructor; auto; [intros i []|]. intros i _. apply (fills_still h hs ns _ _ A F T).
    + constructor; auto. intros i [].
Qed.

(** ** Intervals inside those they belong to, all along *)
Lemma flush h U : forall bs a e, Forall2 (fun u b => dated h u /\ b <> [] /\
    forall y, In y b -> fst (span_of h u) <= fst (span_of h y) /\ snd (span_of h y) <= snd (span_of h u)) U bs ->
  in_turn h U -> tiles h a (concat bs) e -> (forall u, hd_error U = Some u -> s_start (sob h u) = Some a) ->
  (forall u, hd_error (rev U) = Some u -> s_end (sob h u) = Some e) -> Forall2 (fills h) U bs.
Proof.
  induction U as [|u U IH]; intros bs a e F T Ti Hd Ls; [apply Forall2_nil_inv_l in F; subst bs; constructor|].
  inversion F as [|x0 b l0 bs' (D & Ne & In') F' E1 E2]. subst bs x0 l0. clear F. rename bs' into bs. simpl in Ti.
  destruct (tiles_app h b (concat bs) a e Ti) as (m & T1 & T2). pose proof (Hd u eq_refl) as Su.
  assert (Lu : m <= snd (span_of h u)).
  { destruct b as [|f r]; [congruence|]. pose proof (tiles_last h f r a m T1) as El. destruct (tiles_in h _ _ _ _ T1 (in_last f r)) as ((_ & Q & _) & _).
    destruct (In' _ (in_last f r)) as [_ Q']. assert (snd (span_of h (List.last r f)) = m) by congruence. lia. }
  assert (Lt : a < m).
  { destruct b as [|f r]; [congruence|]. destruct T1 as (k & _ & _ & Hk & T1).
    assert (Le : forall l p q, tiles h p l q -> p <= q).
    { induction l as [|x l IHl]; simpl; intros p q; [intros ->; lia|]. intros (k' & _ & _ & Hk' & Q). apply IHl in Q. lia. }
    apply Le in T1. lia. }
  destruct D as (D1 & D2 & D3). destruct U as [|v U].
  - apply Forall2_nil_inv_l in F'. subst bs. simpl in T2. subst m. constructor; [|constructor]. exists a, e.
    split; [exact Su|]. split; [apply Ls; reflexivity|]. split; [exact Lt|exact T1].
  - inversion F' as [|x0 b' l0 bs' (Dv & Nv & Iv) F'' E1 E2]. subst bs x0 l0. rename bs' into bs.
    apply in_turn_cons in T. destruct T as [Bf T]. destruct (Bf v ltac:(simpl; auto)) as (p & q & P1 & P2 & P3).
    assert (Fv : fst (span_of h v) <= m).
    { destruct b' as [|f r]; [congruence|]. simpl in T2. destruct T2 as (k & A & B & Hk & _). destruct (dated_by h f m k A B Hk) as [_ Sp].
      destruct (Iv f ltac:(simpl; auto)) as [Q _]. rewrite Sp in Q. exact Q. }
    destruct Dv as (Dv1 & _). assert (p = snd (span_of h u)) by congruence. assert (q = fst (span_of h v)) by congruence.
    assert (Em : snd (span_of h u) = m) by lia. constructor.
    + exists a, m. split; [exact Su|]. split; [congruence|]. split; [exact Lt|exact T1].
    + apply (IH (b' :: bs) m e F' T T2).
      * intros w Hw. injection Hw as <-. rewrite Dv1. f_equal. lia.
      * intros w Hw. apply Ls. cbn [rev] in *. destruct (rev U) as [|z R]; simpl in *; exact Hw.
Qed.

(** ** Making the group *)
Lemma c66_snapped : forall n h ts0 t u, Permutation ts0 [t; u] -> tier_chain h [t; u] -> classes_joined h [t; u] ->
  fresh_tier h t -> fresh_tier h u -> t_seq (tob h t) <> [] -> meeting h (t_seq (tob h t)) (t_seq (tob h u)) ->
  same_ends h (t_seq (tob h t)) (t_seq (tob h u)) \/ crossing h (t_seq (tob h t)) (t_seq (tob h u)) ->
  exists g h' bs, new_tg (S n) ts0 h = Ok g h' /\ g_tiers (gob h' g) = [t; u] /\
    snug h' [t; u] [bs] /\ related_tiers h' [t; u] [bs] /\ only_retimes g [t; u] h h' /\
    (forall i x b y, nth_error (t_seq (tob h t)) i = Some x -> nth_error bs i = Some b -> In y b ->
       best (map (span_of h) (t_seq (tob h t))) (span_of h y) i /\ span_of h' y = common (span_of h x) (span_of h y)).
Proof.
  intros n h ts0 t u P C J Ft Fu Ne Me Ends.
  destruct (parted_exists h _ _ Ne Me) as (bs & Hc & Pa).
  destruct (new_tg_head (S n) false ts0 [t; u] h P C) as (h1 & E & Hd).
  set (g := List.length (h_grp h)) in *. pose proof Hd as [(A1 & A2 & A3) (B1 & B2) C1 C2 (D1 & D2 & D3 & D4) F]. simpl in A1, A2, A3, B1, B2.
  assert (Es : forall x, sob h1 x = sob h x) by (intros x; unfold sob; rewrite A2; reflexivity).
  assert (Et : forall k, t_seq (tob h1 k) = t_seq (tob h k) /\ t_ec (tob h1 k) = t_ec (tob h k)).
  { intros k. destruct (in_dec Nat.eq_dec k [t; u]); [rewrite C1 by auto|rewrite C2 by auto]; split; reflexivity. }
  assert (Ea : forall k, t_seq (tob h1 k) = t_seq (tob h k)) by (intros k; apply Et).
  assert (Len : List.length (h_seq h1) = List.length (h_seq h)) by (rewrite A2; reflexivity).
  assert (K1 : forall x, kept (sob h x) (sob h1 x)) by (intros x; rewrite Es; apply kept_refl).
  assert (Sp : forall x, span_of h1 x = span_of h x) by (intros x; apply span_kept, K1).
  set (U := t_seq (tob h t)) in *.
  destruct Ft as ((Nt & Kt) & Pt & St), Fu as ((Nu & Ku) & Pu & Su). fold U in Nt, Kt, St.
  assert (Sep : forall x, In x U -> ~ In x (t_seq (tob h u))).
  { intros x Hx Hx'. destruct (Kt x Hx) as (_ & Q1 & _). destruct (Ku x Hx') as (_ & Q2 & _). destruct C as (_ & Cn & _).
    simpl in Cn. apply NoDup_cons in Cn. destruct Cn as [Cn _]. apply Cn. rewrite elem_of_list_In. simpl. left. congruence. }
  assert (R : ready (t_ec (tob h t)) (t_ec (tob h u)) U bs h).
  { constructor; auto.
    - rewrite Hc. exact Nu.
    - intros x Hx. rewrite Hc. auto.
    - intros y Hy. rewrite Hc in Hy. destruct (Ku y Hy) as (Q1 & Q2 & Q3). auto.
    - apply J.
    - intros b Hb. destruct Pa as (_ & _ & Bk & _). destruct (Bk b Hb) as (Nb & a & e & T). split; [exact Nb|].
      split; [|eapply tiles_sorted; eauto]. intros y Hy. destruct (tiles_in h b _ _ y T Hy) as ((Q & _) & _). eauto. }
  assert (R1 : ready (t_ec (tob h t)) (t_ec (tob h u)) U bs h1).
  { apply (ready_ext _ _ _ _ h); auto. intros i. unfold live. lia. }
  assert (Pa1 : parted h1 U bs) by (apply (parted_kept h); auto).
  assert (JF : juts h1 U bs \/ Forall2 (fills h1) U bs).
  { destruct (relate_pair_reduce (S n) false t u (t_ec (tob h t)) (t_ec (tob h u)) bs h1) as (mm & _ & _ & Hm & _).
    - rewrite Ea. exact Hc.
    - rewrite Ea. exact Pa1.
    - rewrite (issubclass_ext h h1) by auto. exact Pt.
    - rewrite (issubclass_ext h h1) by auto. exact Pu.
    - rewrite Ea. exact R1.
    - rewrite Ea in Hm. fold U in Hm. destruct mm; [left; apply Hm; reflexivity|].
      assert (Nj : ~ juts h1 U bs) by (intros Q; apply Hm in Q; discriminate).
      destruct Ends as [(S1 & S2)|(i & x & y & Hx & Hy & Be & No)].
      + right. destruct Me as (Tu & Du & (a & e & Ti) & _ & _). apply (flush h1 U bs a e).
        * clear -Pa1 Nj. pose proof (parted_each _ _ _ Pa1) as Q.
          assert (Z : forall k U bs, (forall i x b y, nth_error U i = Some x -> nth_error bs i = Some b -> In y b ->
              fst (span_of h1 x) <= fst (span_of h1 y) /\ snd (span_of h1 y) <= snd (span_of h1 x)) ->
            Forall2 (fun u b => dated h1 u /\ b <> [] /\ k u b /\ forall y, In y b -> 0 < shared (span_of h1 u) (span_of h1 y)) U bs ->
            Forall2 (fun u b => dated h1 u /\ b <> [] /\ forall y, In y b -> fst (span_of h1 u) <= fst (span_of h1 y) /\ snd (span_of h1 y) <= snd (span_of h1 u)) U bs).
          { intros k U0 bs0 I F. induction F as [|x b U0 bs0 (Q1 & Q2 & _) F IH]; constructor.
            - split; [exact Q1|]. split; [exact Q2|]. intros y Hy. apply (I 0%nat x b y); auto.
            - apply IH. intros i x' b' y Hx Hb. apply (I (S i) x' b' y); auto. }
          apply (Z (fun _ b => exists a e, tiles h1 a b e) U bs); [|exact Q]. intros i x b y Hx Hb Hy.
          destruct (Z_le_dec (fst (span_of h1 x)) (fst (span_of h1 y))) as [L1|L1], (Z_le_dec (snd (span_of h1 y)) (snd (span_of h1 x))) as [L2|L2];
            [auto|exfalso; apply Nj; exists i, x, b, y; repeat (split; [assumption|]); intros [Q1 Q2]; contradiction..].
        * eapply in_turn_kept; [|exact Tu]. auto.
        * rewrite Hc. eapply tiles_kept; [|exact Ti]. auto.
        * intros v Hv. rewrite Es. destruct (t_seq (tob h u)) as [|y L] eqn:EL.
          { exfalso. destruct bs as [|b bs]; [destruct Pa as (_ & Q & _); destruct U; [congruence|discriminate]|].
            destruct Pa as (_ & _ & Bk & _). destruct (Bk b) as (Nb & _); [simpl; auto|]. simpl in Hc. apply app_eq_nil in Hc. apply Nb, Hc. }
          rewrite (S1 v y Hv eq_refl). destruct Ti as (k & Q & _). exact Q.
        * intros v Hv. rewrite Es. destruct (t_seq (tob h u)) as [|y L] eqn:EL.
          { exfalso. destruct bs as [|b bs]; [destruct Pa as (_ & Q & _); destruct U; [congruence|discriminate]|].
            destruct Pa as (_ & _ & Bk & _). destruct (Bk b) as (Nb & _); [simpl; auto|]. simpl in Hc. apply app_eq_nil in Hc. apply Nb, Hc. }
          pose proof (tiles_last h y L a e Ti) as El. rewrite <- El. apply (S2 v (List.last L y) Hv).
          clear. revert y. induction L as [|z L IH]; intros y; [reflexivity|]. change (rev (y :: z :: L)) with (rev (z :: L) ++ [y])%list.
          specialize (IH z). destruct (rev (z :: L)) as [|w W] eqn:Ew; [simpl in IH; discriminate|]. simpl in IH |- *. rewrite IH. f_equal.
          destruct L as [|q L]; [reflexivity|exact (last_indep q L z y)].
      + left. rewrite <- Hc in Hy. apply in_concat in Hy. destruct Hy as (b & Hb & Hy). apply In_nth_error in Hb. destruct Hb as [j Hb].
        destruct Pa as (Du & Ln & _ & Bst). assert (Hj : exists x', nth_error U j = Some x').
        { destruct (nth_error U j) as [x'|] eqn:Q; [eauto|]. apply nth_error_None in Q. assert (j < List.length bs)%nat by (apply nth_error_Some; congruence). lia. }
        destruct Hj as [x' Hx']. destruct (Bst j x' b y Hx' Hb Hy) as [Bj Sj].
        assert (j = i) by (eapply best_unique; [exact Bj|exact Be| |exact Sj]; rewrite nth_error_map, Hx'; reflexivity). subst j.
        assert (x' = x) by congruence. subst x'. exists i, x, b, y. rewrite !Sp. auto. }
  destruct (relate_pair_snap n t u (t_ec (tob h t)) (t_ec (tob h u)) bs h1) as (ns & hs & h2 & Am & Ti & E2 & W).
  { rewrite Ea. exact Hc. } { rewrite Ea. exact Pa1. } { rewrite Ea. exact JF. }
  { rewrite (issubclass_ext h h1) by auto. exact Pt. } { rewrite (issubclass_ext h h1) by auto. exact Pu. }
  { rewrite (issubclass_ext h h1) by auto. destruct C as (_ & _ & Cl & _). destruct (Cl u) as (_ & _ & Q); [simpl; auto|]. exact Q. }
  { rewrite Ea. exact R1. }
  rewrite Ea in Am, Ti, W. fold U in Am, Ti, W.
  pose proof W as [(W1 & W2 & W3 & W4) W5 W6 W7 W8 W9 W10]. pose proof Ti as [(T1 & T2 & T3 & T4) T5 T6 T7].
  assert (Lv : forall i, (i < List.length (h_seq h))%nat -> live hs i) by (intros i Hi; unfold live; lia).
  assert (Kp : forall i, (i < List.length (h_seq h))%nat -> kept (sob hs i) (sob h2 i)) by (intros i Hi; eapply wired_kept; [exact W|auto]).
  assert (Hin : forall x, In x U \/ In x (concat bs) -> (x < List.length (h_seq h))%nat).
  { intros x [Hx|Hx]; [apply (Kt x Hx)|rewrite Hc in Hx; apply (Ku x Hx)]. }
  assert (Tk : forall k, tob h2 k = tob h1 k) by (intros k; unfold tob; rewrite W2, T2; reflexivity).
  assert (Gk : forall k, gob h2 k = gob h1 k) by (intros k; unfold gob; rewrite W3, T3; reflexivity).
  exists g, h2, bs. split; [|split; [|split; [|split; [|split]]]].
  - unfold new_tg. rewrite E. rewrite (bind_ok _ _ _ tt h1).
    + assert (E3 : relate_tiers (S n) false [t; u] h1 = Ok tt h2) by (cbn [relate_tiers]; rewrite (bind_ok _ _ _ _ _ E2); reflexivity).
      rewrite (bind_ok _ _ _ _ _ E3). reflexivity.
    + apply no_parents_tiers. intros k x Hk Hx. rewrite Es. rewrite Ea in Hx. apply (Permutation_in _ P) in Hk.
      destruct Hk as [<-|[<-|[]]]; auto.
  - rewrite Gk. exact D1.
  - rewrite snug_cons. rewrite !Tk, !Ea. split; [exact Hc|]. split; [|exact I]. fold U.
    eapply Forall2_weaken; [apply (aims_fill h1 hs ns U bs Am Ti)|]. intros x b Hx Hb Fx. apply (fills_kept hs); auto.
    intros y Hy. apply Kp. apply Hin. right. apply (in_concat' y b); auto.
  - rewrite related_cons. rewrite Tk, Ea. fold U. split; [|exact I].
    assert (Both : Forall2 (fun x b => sob h2 x = put_kids b (t_ec (tob h u)) (sob hs x) /\
       (forall y, In y b -> kid_of x (sob hs y) (sob h2 y)) /\ chained h2 b) U bs).
    { clear -W8 W9 W10. induction W8; [constructor|]. inversion W9; subst. inversion W10; subst. constructor; auto. }
    eapply Forall2_weaken; [exact Both|]. intros x b Hx Hb (Q1 & Q2 & Q3). split; [rewrite Q1; reflexivity|]. split; [exact Q3|].
    intros y Hy. destruct (Q2 y Hy) as (_ & _ & _ & _ & Q4 & _ & _ & _ & Q5 & _). auto.
  - split; [|split; [|split; [|split; [|split; [|split; [|split; [|split; [|split; [|split]]]]]]]]].
    + intros i Hi. destruct (Kp i Hi) as (Q1 & _ & _ & Q2 & Q3). rewrite Q1, Q2, Q3.
      destruct (in_dec Nat.eq_dec i (U ++ concat bs)) as [Hx|Hx]; [rewrite T6 by auto|rewrite T7 by auto]; rewrite Es; auto.
    + intros i Hi Hn. assert (N1 : ~ In i U) by (apply (Hn t); simpl; auto). assert (N2 : ~ In i (concat bs)) by (rewrite Hc; apply (Hn u); simpl; auto).
      rewrite W7 by auto. rewrite T7 by (intros Q; apply in_app_or in Q; destruct Q; contradiction). apply Es.
    + intros i Hi. apply W6; unfold live; lia.
    + congruence.
    + congruence.
    + congruence.
    + intros k Hk. rewrite Tk, C2 by auto. reflexivity.
    + intros k Hk. rewrite Tk, C1 by auto. reflexivity.
    + reflexivity.
    + rewrite W3, T3, B2, app_length. simpl. unfold g. lia.
    + intros k Hk. rewrite Gk, F by lia. unfold gob. simpl. rewrite lookup_app_l by exact Hk. reflexivity.
  - intros i x b y Hx Hb Hy. destruct Pa as (_ & _ & _ & Bst). split; [apply (Bst i x b y Hx Hb Hy)|].
    assert (Iy : In y (concat bs)) by (apply (in_concat' y b); auto; eapply nth_error_In; eauto).
    destruct (Forall2_nth _ _ _ Am i x b Hx Hb) as (_ & _ & _ & _ & Q). rewrite <- !Sp. rewrite <- (Q y Hy).
    rewrite (span_kept hs h2 y) by (apply Kp, Hin; auto). with_strategy transparent [span_of] unfold span_of at 1. rewrite T6 by (apply in_or_app; auto).
    unfold retime. simpl. destruct (ns y); reflexivity.
Qed.
End WithEnv.
