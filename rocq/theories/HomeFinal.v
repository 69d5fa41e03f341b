(** * HomeFinal: proofs about what intervals are within. *)
From Verif Require Import HeapProofs ListProofs ListFinal TreeProofs AdoptProofs AssignProofs CalmProofs TreeFinal HomeSpec.
Open Scope Z_scope.

Section WithEnv.
Context `{Env}.
Lemma erase_home h1 l h' i : settles h1 l h' -> live h1 i -> s_within (sob h' i) = s_within (sob h1 i).
Proof. intros S L. destruct (erase_fields _ _ (settles_erase _ _ _ i S L)) as (_ & _ & _ & _ & _ & _ & _ & _ & A & _). exact A. Qed.
Lemma graft_home s l c x h i : live h x -> live h s -> x <> s -> s_within (sob (graft s l c x h) i) = s_within (sob h i).
Proof.
  intros Lx Ls N. unfold graft. destruct (Nat.eq_dec i x) as [->|Nx].
  - rewrite sob_upd_eq by (apply live_upd; exact Lx). rewrite sob_upd_ne by exact N. reflexivity.
  - rewrite sob_upd_ne by exact Nx. destruct (Nat.eq_dec i s) as [->|Ns]; [rewrite sob_upd_eq by exact Ls|rewrite sob_upd_ne by exact Ns]; reflexivity.
Qed.
Lemma cut_home s l x h i : live h x -> live h s -> x <> s -> s_within (sob (cut s l x h) i) = if Nat.eq_dec i x then None else s_within (sob h i).
Proof.
  intros Lx Ls N. unfold cut. destruct (Nat.eq_dec i x) as [->|Nx].
  - rewrite sob_upd_eq by (apply live_upd; exact Lx). reflexivity.
  - rewrite sob_upd_ne by exact Nx. destruct (Nat.eq_dec i s) as [->|Ns]; [rewrite sob_upd_eq by exact Ls|rewrite sob_upd_ne by exact Ns]; reflexivity.
Qed.
Lemma no_home n x h : s_within (sob h x) = None -> obj_id (S n) (RSeq x) h = Ok EmptyString h.
Proof. intros E. unfold obj_id, within_path, bind. cbn [path_up]. unfold bind. cbn [any_within any_id]. rewrite E. reflexivity. Qed.
Lemma c83_append : forall K only h s x h', reach K only h -> user_obj h s -> user_obj h x -> no_twin h s x ->
  subset_class h (s_cls (sob h s)) = Some (s_cls (sob h x)) -> s_super (sob h x) <> Some s -> append_subset_list s x h = Ok tt h' ->
  s_super (sob h' x) = Some s /\ s_within (sob h' x) = home_after h x /\
  (forall z, z <> x -> (z < List.length (h_seq h))%nat -> s_within (sob h' z) = s_within (sob h z)) /\
  (home_after h x = None -> forall n, obj_id (S n) (RSeq x) h' = Ok EmptyString h').
Proof.
  intros K only h s x h' R Us Ux Tw Hc Hns E. pose proof (inv_reach _ _ _ R) as I.
  assert (MA : may_adopt h K s x) by (destruct Us, Ux; unfold may_adopt; auto 6). pose proof (may_adopt_ne _ _ _ _ _ I MA) as Hne.
  pose proof MA as (Ls & Lx & Lbs & Lbx & Cx).
  assert (Nx : ~ In x (s_subset (sob h s))).
  { intros Hx. destruct (t_down _ _ _ (i_tree _ _ _ I) s x (nowhere_not s) Hx) as (_ & A & _). congruence. }
  assert (D : exists h1, when (seq_truthy h (s_super (sob h x))) (remove_superset x) h = Ok tt h1 /\ inv_but nowhere K nowhere h1 /\ moved x None h h1 /\
     s_within (sob h1 x) = home_after h x /\ (forall z, z <> x -> live h z -> s_within (sob h1 z) = s_within (sob h z))).
  { unfold home_after. destruct (s_super (sob h x)) as [q|] eqn:Sx.
    - destruct (t_up _ _ _ (i_tree _ _ _ I) x q Sx) as [Lq Hq]. specialize (Hq (nowhere_not q)).
      assert (Tr : seq_truthy h (Some q) = true).
      { unfold seq_truthy. apply Nat.ltb_lt. destruct (s_subset (sob h q)); [destruct Hq|simpl; lia]. }
      rewrite Tr. unfold when.
      destruct (inv_remove K nowhere h q x I (nowhere_not q) Sx) as (l1 & l2 & h1 & Hsub & E1 & S & I1).
      assert (Nq : x <> q) by (intros ->; destruct (family _ _ _ _ _ I (fun z => z) Hq) as (_ & _ & ? & _); auto).
      exists h1. split; [exact E1|]. split; [exact I1|]. split; [eapply cut_moved; eauto|].
      split; [|intros z Nz Lz]; rewrite (erase_home _ _ _ _ S) by (apply cut_live; auto); rewrite cut_home by auto; destruct (Nat.eq_dec _ _); congruence.
    - unfold seq_truthy, when. exists h. split; [reflexivity|]. split; [auto|]. split; [|auto].
      split; [apply core_same_refl|]. split; [auto|]. split; [auto|].
      intros q _. apply keep_if_all. intros y Hy ->.
      destruct (t_down _ _ _ (i_tree _ _ _ I) q x (nowhere_not q) Hy) as (_ & B & _). congruence. }
  destruct D as (h1 & E1 & I1 & M1 & M2 & M3). pose proof M1 as (Co & Sx1 & Su1 & Sub1).
  assert (Ss1 : s_subset (sob h1 s) = s_subset (sob h s)).
  { eapply keep_if_fun; [apply (Sub1 s); discriminate|]. apply keep_if_all. intros y Hy ->. auto. }
  assert (MA1 : may_adopt h1 K s x) by (eapply may_adopt_core; eauto). pose proof MA1 as (Ls1 & Lx1 & _).
  assert (Tw1 : twinless h1 (s_subset (sob h1 s)) x).
  { rewrite Ss1. eapply twinless_core; eauto. intros y Hy. apply (t_down _ _ _ (i_tree _ _ _ I) s y (nowhere_not s) Hy). }
  assert (Head : append_subset_list s x h = append_tail 5 s x h1).
  { unfold append_subset_list. rewrite adopt_AppL. mstep. rewrite Cx. unfold isinstance_m. mstep. mstep.
    rewrite issubclass_refl, twinless_not_listed by auto. mstep. rewrite (bind_ok _ _ _ _ _ E1). reflexivity. }
  rewrite Head in E.
  destruct (append_orphan K nowhere h1 s x 5 I1 (nowhere_not s) MA1 Sx1 Tw1 ltac:(lia)) as [(l1 & l2 & h2 & A & B & C & S & I')|(A & _)]; [|congruence].
  assert (h2 = h') by congruence. subst h2.
  destruct (graft_moved _ _ _ _ _ _ _ I1 MA1 Sx1 A S) as [(_ & G1 & _) _].
  split; [exact G1|]. pose proof Co as (_ & Le & _).
  assert (Hx' : s_within (sob h' x) = home_after h x) by (rewrite (erase_home _ _ _ _ S) by (apply graft_live; auto); rewrite graft_home by auto; auto).
  split; [exact Hx'|]. split; [|intros N n; apply no_home; congruence].
  intros z Nz Lz; assert (Lz1 : live h1 z) by (unfold live; lia); rewrite (erase_home _ _ _ _ S) by (apply graft_live; auto); rewrite graft_home by auto; auto.
Qed.

(** ** Assigning *)

(** From [h] to [h'] no list of children has grown, and what the objects in [P] are within is
    the same. *)
Definition homes (P : oid -> Prop) (h h' : heap) : Prop :=
  (List.length (h_seq h) <= List.length (h_seq h'))%nat /\
  forall i, live h i -> incl (s_subset (sob h' i)) (s_subset (sob h i)) /\ (P i -> s_within (sob h' i) = s_within (sob h i)).
Definition homely (P : oid -> Prop) {A} (m : M A) : Prop := forall h, homes P h (heap_of (m h)).
Lemma homes_refl P h : homes P h h.
Proof. split; [lia|]. intros i _. split; [apply incl_refl|auto]. Qed.
Lemma homes_trans P a b c : homes P a b -> homes P b c -> homes P a c.
Proof.
  intros [A1 A2] [B1 B2]. split; [lia|]. intros i L. destruct (A2 i L) as [A3 A4]. destruct (B2 i) as [B3 B4]; [unfold live in *; lia|].
  split; [eapply incl_tran; eauto|]. intros Hp. rewrite B4, A4; auto.
Qed.
Lemma homely_read {A} P (m : M A) : (forall h, heap_of (m h) = h) -> homely P m.
Proof. intros K h. rewrite K. apply homes_refl. Qed.
Lemma homely_bind {A B} P (m : M A) (k : A -> M B) : homely P m -> (forall a, homely P (k a)) -> homely P (bind m k).
Proof.
  intros Hm Hk h. specialize (Hm h). unfold bind. destruct (m h) as [a h1|e h1]; cbn [heap_of] in *; [|exact Hm]. eapply homes_trans; [exact Hm|apply Hk].
Qed.
Lemma homely_mod (P : oid -> Prop) i f : (forall o, s_subset (f o) = s_subset o) -> (P i -> forall o, s_within (f o) = s_within o) -> homely P (mod_seq i f).
Proof.
  intros Hf Hw h. unfold mod_seq, modify, homes. cbn [heap_of]. split; [unfold upd_seq; cbn; rewrite alter_length; lia|].
  intros j L. destruct (Nat.eq_dec j i) as [->|N]; [rewrite sob_upd_eq by exact L; rewrite Hf|rewrite sob_upd_ne by exact N]; (split; [apply incl_refl|auto]).
Qed.
Lemma homely_alloc P o : homely P (alloc_seq o).
Proof.
  intros h. unfold alloc_seq, homes. cbn [heap_of]. split; [cbn; rewrite app_length; lia|]. intros i L.
  match goal with |- context [sob ?H' i] => assert (E : sob H' i = sob h i) by (unfold sob; cbn; rewrite lookup_app_l; [reflexivity|exact L]) end. rewrite E. split; [apply incl_refl|auto].
Qed.
Lemma homely_link P : forall n d x y, homely P (set_link n d x y).
Proof.
  induction n as [|n IH]; intros d x y; cbn [set_link]; [apply homely_read; reflexivity|].
  destruct (Nat.eqb y x); [apply homely_read; reflexivity|]. apply homely_bind; [apply homely_read; reflexivity|intros xo].
  destruct (is_hash _); [apply homely_read; reflexivity|]. destruct (bool_decide _); [apply homely_read; reflexivity|].
  apply homely_bind; [apply homely_read; reflexivity|intros yo]. destruct (Nat.eqb _ _); [|apply homely_read; reflexivity].
  apply homely_bind; [apply homely_mod; destruct d; reflexivity|intros _; apply IH].
Qed.
Lemma homely_boundary P d x : homely P (set_boundary d x).
Proof.
  unfold set_boundary. apply homely_bind; [apply homely_read; reflexivity|intros xo]. apply homely_bind; [apply homely_alloc|intros b; apply homely_link].
Qed.
Lemma homely_precedence P : forall l p, homely P (precedence (fun _ => ret tt) p l).
Proof.
  induction l as [|x l IH]; intros p; cbn [precedence]; [apply homely_read; reflexivity|].
  apply homely_bind; [apply homely_read; reflexivity|intros _].
  apply homely_bind; [destruct p; [apply homely_link|apply homely_boundary]|intros _].
  apply homely_bind; [destruct l; [apply homely_boundary|apply homely_link]|intros _]. apply IH.
Qed.
Lemma homely_subset P s : homely P (set_subset_precedence s).
Proof. unfold set_subset_precedence. apply homely_bind; [apply homely_read; reflexivity|intros so; apply homely_precedence]. Qed.
Lemma drop_incl h l x k : sl_drop h l x = Some k -> incl k l.
Proof.
  unfold sl_drop. destruct (find_idx _ l) as [i|]; [|discriminate]. intros E. injection E as <-. intros z. unfold remove_at.
  intros Hz. apply in_app_iff in Hz as [Hz|Hz]; [rewrite <- (firstn_skipn i l)|rewrite <- (firstn_skipn (S i) l)]; apply in_app_iff; auto.
Qed.
Lemma homely_remove_n (P : oid -> Prop) x : ~ P x -> forall n, homely P (remove_superset_n n x).
Proof.
  intros Nx. induction n as [|n IH]; cbn [remove_superset_n]; [apply homely_read; reflexivity|].
  assert (Mo : homely P (mod_seq x (set_s_super None))) by (apply homely_mod; reflexivity).
  assert (Mw : homely P (mod_seq x (set_s_within None))) by (apply homely_mod; [reflexivity|contradiction]).
  intros h. unfold bind at 1. cbn [get_seq]. unfold get_seq, gets. destruct (s_super (sob h x)) as [s|]; [|apply homes_refl].
  unfold bind at 1. destruct (if sl_contains h (s_subset (sob h s)) x then sl_drop h (s_subset (sob h s)) x else None) as [l|] eqn:Ed.
  - assert (Il : incl l (s_subset (sob h s))) by (destruct (sl_contains _ _ _); [exact (drop_incl _ _ _ _ Ed)|discriminate]).
    assert (G : homely P (remove_superset_n n x ;;; mod_seq x (set_s_super None) ;;; mod_seq x (set_s_within None) ;;; set_subset_precedence s)).
    { repeat (apply homely_bind; [auto|intros _]). apply homely_subset. }
    assert (G2 : homely P (mod_seq x (set_s_super None) ;;; mod_seq x (set_s_within None))) by (apply homely_bind; auto).
    assert (G0 : homes P h (upd_seq s (set_s_subset l) h)).
    { split; [unfold upd_seq; cbn; rewrite alter_length; lia|]. intros j L.
      destruct (Nat.eq_dec j s) as [->|N]; [rewrite sob_upd_eq by exact L; split; [exact Il|auto]|rewrite sob_upd_ne by exact N; split; [apply incl_refl|auto]]. }
    change (homes P h (heap_of (((remove_superset_n n x ;;; mod_seq x (set_s_super None) ;;; mod_seq x (set_s_within None) ;;; set_subset_precedence s) ;;;
      (mod_seq x (set_s_super None) ;;; mod_seq x (set_s_within None))) (upd_seq s (set_s_subset l) h)))).
    eapply homes_trans; [exact G0|]. apply homely_bind; [exact G|intros _; exact G2].
  - apply (homely_bind P (ret tt) (fun _ => mod_seq x (set_s_super None) ;;; mod_seq x (set_s_within None))); [apply homely_read; reflexivity|intros _]. apply homely_bind; auto.
Qed.
Lemma homely_remove (P : oid -> Prop) x : ~ P x -> homely P (remove_superset x).
Proof. intros Nx h. unfold remove_superset. destruct (s_super (sob h x)); [apply homely_remove_n, Nx|apply homes_refl]. Qed.
(** The children that stay keep what they are within while the others go. *)
Lemma let_go_homes s l : forall orig h h', forM orig (let_go s) h = Ok tt h' -> live h s -> incl l (s_subset (sob h' s)) ->
  homes (fun i => In i l) h h' /\ incl l (s_subset (sob h s)).
Proof.
  assert (Sh : forall P : oid -> Prop, (forall i, ~ P i) -> forall orig, homely P (forM orig (let_go s))).
  { intros P Np. induction orig as [|o orig IH]; cbn [forM]; [apply homely_read; reflexivity|]. apply homely_bind; [|intros _; exact IH].
    unfold let_go. apply homely_bind; [apply homely_read; reflexivity|intros b]. destruct b; [apply homely_read; reflexivity|apply homely_remove, Np]. }
  induction orig as [|o orig IH]; intros h h' E L Il.
  - cbn in E. injection E as <-. split; [apply homes_refl|exact Il].
  - assert (I0 : incl l (s_subset (sob h s))).
    { pose proof (Sh (fun _ => False) (fun _ z => z) (o :: orig) h) as [_ G]. rewrite E in G. cbn [heap_of] in G. destruct (G s L) as [G1 _]. eapply incl_tran; eauto. }
    split; [|exact I0]. cbn [forM] in E. unfold bind at 1 in E. destruct (let_go s o h) as [u h1|e h1] eqn:E1; [|discriminate].
    assert (H1 : homes (fun i => In i l) h h1).
    { unfold let_go in E1. rewrite bind_gets in E1. destruct (sl_contains h (s_subset (sob h s)) o) eqn:Ec; [injection E1 as _ <-; apply homes_refl|].
      assert (No : ~ In o l) by (intros I1; rewrite (contains_in h _ _ (I0 _ I1)) in Ec; discriminate).
      pose proof (homely_remove (fun i => In i l) o No h) as G. rewrite E1 in G. exact G. }
    destruct u. destruct (IH h1 h' E) as [H2 _]; [destruct H1 as [H1 _]; unfold live in *; lia|exact Il|]. eapply homes_trans; eauto.
Qed.
Lemma move_in s : forall l h, exists h', forM l (fun o => mod_seq o (set_s_within (Some (WSeq s)))) h = Ok tt h' /\
  List.length (h_seq h') = List.length (h_seq h) /\
  (forall i, live h i -> s_subset (sob h' i) = s_subset (sob h i) /\ (In i l -> s_within (sob h' i) = Some (WSeq s)) /\ (s_within (sob h i) = Some (WSeq s) -> s_within (sob h' i) = Some (WSeq s))).
Proof.
  induction l as [|x l IH]; intros h; [exists h; cbn; split; [reflexivity|]; split; [reflexivity|]; intros i _; split; [reflexivity|]; split; [intros []|auto]|].
  cbn [forM]. unfold bind at 1. unfold mod_seq at 1, modify at 1. set (h1 := upd_seq x _ h).
  assert (L1 : forall i, live h i -> live h1 i) by (intros i Li; apply live_upd; exact Li).
  destruct (IH h1) as (h' & E & A & C). exists h'. split; [exact E|].
  split; [rewrite A; unfold h1, upd_seq; cbn; apply alter_length|].
  intros i Li. destruct (C i (L1 i Li)) as (C0 & C1 & C2). destruct (Nat.eq_dec i x) as [->|N].
  - assert (X : sob h1 x = set_s_within (Some (WSeq s)) (sob h x)) by (apply sob_upd_eq, Li).
    assert (W : s_within (sob h' x) = Some (WSeq s)) by (apply C2; rewrite X; reflexivity). rewrite C0, X. auto.
  - assert (X : sob h1 i = sob h i) by (apply sob_upd_ne, N). rewrite X in *. split; [exact C0|]. split; [intros [->|Hi]; [congruence|auto]|exact C2].
Qed.
Lemma grows {A} (m : M A) a h h1 : calm m -> m h = Ok a h1 -> (List.length (h_seq h) <= List.length (h_seq h1))%nat.
Proof. intros C E. destruct (C h) as (_ & _ & _ & _ & L & _). rewrite E in L. exact L. Qed.
Lemma c83_assign : forall K only h s l, reach K only h -> allowed K h (Assign s l) -> known_starts h l ->
  (forall x, In x l -> subset_class h (s_cls (sob h s)) = Some (s_cls (sob h x))) ->
  exists h', subset_setter s l h = Ok tt h' /\ (forall x, In x l -> s_super (sob h' x) = Some s /\ s_within (sob h' x) = Some (WSeq s)).
Proof.
  intros K only h s l R A Kn Hc. destruct (c17_assign K only h s l R A Kn Hc) as (h' & E & (Pm & Su & _) & _). exists h'. split; [exact E|].
  intros x Hx. split; [apply Su, Hx|].
  destruct A as (Us & Ul & _). assert (Lx : live h x) by apply (Ul x Hx). assert (Ls : live h s) by apply Us. clear Us Ul Kn Hc R.
  unfold subset_setter in E. rewrite bind_gets in E. apply bind_inv in E as (v & h0 & E0 & E). apply bind_inv in E as (u & h4 & E4 & E).
  pose proof (grows _ _ _ _ (calm_sl_init l) E0) as G0.
  unfold set_subset_list in E4. rewrite bind_gets in E4. apply bind_inv in E4 as (oks & h1 & E1 & E4).
  pose proof (grows _ _ _ _ (calm_mapM _ _ (fun y => calm_isinstance y _)) E1) as G1. destruct (forallb id oks); [|discriminate].
  apply bind_inv in E4 as (v2 & h2 & E2 & E4). pose proof (grows _ _ _ _ (calm_sl_init _) E2) as G2.
  apply bind_inv in E4 as (u3 & h3 & E3 & E4). pose proof (grows _ _ _ _ (calm_mod_seq _ _) E3) as G3.
  apply bind_inv in E4 as (u5 & h5 & E5 & E4).
  assert (G5 : (List.length (h_seq h3) <= List.length (h_seq h5))%nat).
  { eapply grows; [|exact E5]. apply calm_forM. intros y. apply calm_bind; [apply calm_read; reflexivity|intros yo]. destruct (bool_decide _); [apply calm_ret|].
    apply calm_bind; [apply calm_remove|intros _; apply calm_mod_seq]. }
  apply bind_inv in E4 as (u6 & h6 & E6 & E4).
  unfold seq_set_contains in E6. unfold bind, get_seq, gets, mod_seq at 1, modify at 1 in E6.
  set (h7 := upd_seq s (set_s_contains CAlias) h5) in E6. destruct (move_in s (s_subset (sob h5 s)) h7) as (h8 & E8 & L8 & W8).
  rewrite E8 in E6. injection E6 as _ <-.
  assert (L7 : List.length (h_seq h7) = List.length (h_seq h5)) by (unfold h7, upd_seq; cbn; apply alter_length).
  assert (S7 : s_subset (sob h7 s) = s_subset (sob h5 s)) by (unfold h7; rewrite sob_upd_eq by (unfold live in *; lia); reflexivity).
  pose proof (homely_subset (fun _ => True) s h8) as [P1 P2]. rewrite E4 in P1, P2. cbn [heap_of] in P1, P2.
  destruct (let_go_homes s l _ h4 h' E) as [[Q1 Q2] Q3]; [unfold live in *; lia|intros y Hy; apply (Permutation_in _ (Permutation_sym Pm)), Hy|].
  destruct (Q2 x) as [_ Q4]; [unfold live in *; lia|]. rewrite (Q4 Hx). destruct (P2 x) as [_ P3]; [unfold live in *; lia|]. rewrite (P3 Logic.I).
  destruct (W8 x) as (_ & W1 & _); [unfold live in *; lia|]. apply W1.
  destruct (W8 s) as (W2 & _); [unfold live in *; lia|]. destruct (P2 s) as [P4 _]; [unfold live in *; lia|].
  rewrite <- S7, <- W2. apply P4, Q3, Hx.
Qed.
End WithEnv.
