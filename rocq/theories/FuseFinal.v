(** * FuseFinal: fusing two neighbouring intervals. *)
From Verif Require Export FuseSpec GapFinal.
Open Scope Z_scope.

Section WithEnv.
Context `{Env}.

(** ** The specification's household and the invariant of the proofs *)
Lemma household_inv K h : household K h <-> inv_but nowhere K nowhere h.
Proof.
  split.
  - intros (C & (F1 & F2 & F3 & F4) & U & Ec & Kc). constructor; [exact C| |intros; apply F4].
    constructor.
    + intros p x _ Hx. destruct (F1 p x Hx) as [A B]. destruct (U p x Hx) as (_ & [L _] & _). auto.
    + intros x p Hx. pose proof (F2 x p Hx) as Hi. destruct (U p x Hi) as ([L _] & _). auto.
    + intros p _. apply F3.
    + exact Ec.
    + intros p x y _ Hx Hy E. destruct (U p y Hy) as (_ & _ & T). apply T; auto.
    + intros x Hl. split.
      * destruct (s_super (sob h x)) as [p|] eqn:E; [|auto]. destruct (U p x (F2 x p E)) as (_ & [_ A] & _). contradiction.
      * destruct (s_subset (sob h x)) as [|z l] eqn:E; [auto|].
        destruct (U x z) as ([_ A] & _); [rewrite E; simpl; auto|contradiction].
    + intros x L Hl. apply Kc. split; auto.
  - intros I. split; [apply (i_chains _ _ _ I)|]. split; [apply (inv_families K); exact I|].
    split; [|split].
    + intros p x Hx. destruct (family _ _ _ _ _ I (nowhere_not p) Hx) as (A & B & _ & _ & _ & _ & _ & C & D).
      split; [split; auto|]. split; [split; auto|]. intros y Hy E. apply (t_twin _ _ _ (i_tree _ _ _ I) p); auto.
    + apply (tr_ec _ _ _ (i_tree _ _ _ I)).
    + intros x [L Hl]. apply (t_cls _ _ _ (i_tree _ _ _ I)); auto.
Qed.

(** ** Rows *)
Lemma in_row_start h l i j x y : in_row h l -> (i < j)%nat -> nth_error l i = Some x -> nth_error l j = Some y ->
  exists s t, s_start (sob h x) = Some s /\ s_start (sob h y) = Some t /\ s < t.
Proof.
  intros [D T] Hij Hx Hy. destruct (T i j x y Hij Hx Hy) as (e & t & A & B & C).
  destruct (D x (nth_error_In _ _ Hx)) as (S & E & Lt). exists (fst (span_of h x)), t. split; [auto|]. split; [auto|].
  assert (e = snd (span_of h x)) by congruence. lia.
Qed.
Lemma in_row_sorted h l : in_row h l -> sorted_starts h l.
Proof. intros R i j a b Hij Ha Hb. destruct (in_row_start h l i j a b R Hij Ha Hb) as (s & t & A & B & C). exists s, t. repeat split; auto. lia. Qed.
Lemma in_row_known h l : in_row h l -> known_starts h l.
Proof. intros [D _] x Hx. destruct (D x Hx) as (A & _). eauto. Qed.
Lemma in_row_ends h l : in_row h l -> known_ends h l.
Proof.
  intros [D _] x Hx. destruct (D x Hx) as (A & B & _). unfold end_of. destruct (is_point_cls h _); eauto.
Qed.
Lemma in_row_inj h l x y : in_row h l -> In x l -> In y l -> s_start (sob h x) = s_start (sob h y) -> x = y.
Proof.
  intros R Hx Hy E. apply In_nth_error in Hx, Hy. destruct Hx as [i Hi]. destruct Hy as [j Hj].
  destruct (lt_eq_lt_dec i j) as [[L| ->]|L].
  - destruct (in_row_start h l i j x y R L Hi Hj) as (s & t & A & B & C). rewrite A, B in E. injection E as ->. lia.
  - congruence.
  - destruct (in_row_start h l j i y x R L Hj Hi) as (s & t & A & B & C). rewrite A, B in E. injection E as ->. lia.
Qed.
Lemma in_row_nodup h l : in_row h l -> NoDup l.
Proof.
  intros R. apply NoDup_ListNoDup, NoDup_nth_error. intros i j Hi E.
  destruct (nth_error l i) as [x|] eqn:Ei; [|apply nth_error_None in Ei; lia]. symmetry in E.
  destruct (lt_eq_lt_dec i j) as [[L| ->]|L]; [|reflexivity|].
  - destruct (in_row_start h l i j x x R L Ei E) as (s & t & A & B & C). rewrite A in B. injection B as ->. lia.
  - destruct (in_row_start h l j i x x R L E Ei) as (s & t & A & B & C). rewrite A in B. injection B as ->. lia.
Qed.
Lemma in_row_apart h l : in_row h l -> stand_apart h l.
Proof. intros R. split; [eapply in_row_nodup; eauto|]. intros x y Hx Hy (_ & E & _). eapply in_row_inj; eauto. Qed.
Lemma in_row_ext h h' l : (forall x, In x l -> s_start (sob h' x) = s_start (sob h x) /\ s_end (sob h' x) = s_end (sob h x)) ->
  in_row h l -> in_row h' l.
Proof.
  intros E [D T]. split.
  - intros x Hx. destruct (E x Hx) as [A B]. specialize (D x Hx). unfold dated, span_of in *. rewrite A, B. exact D.
  - intros i j x y Hij Hx Hy. destruct (T i j x y Hij Hx Hy) as (e & s & A & B & C).
    exists e, s. destruct (E x (nth_error_In _ _ Hx)) as [_ ->]. destruct (E y (nth_error_In _ _ Hy)) as [-> _]. auto.
Qed.

(** ** [self + other] for two rows *)
Lemma sl_add_owned s h vs other c : same_class h c (vs ++ other) -> in_row h (vs ++ other) ->
  exists v h', sl_add (OSeq s) (Slv vs None) other h = Ok v h' /\ sv_vals v = (vs ++ other)%list /\
    (h' = h \/ other <> [] /\ h' = upd_seq s (set_s_subec (Some c)) h).
Proof.
  intros C R. pose proof (in_row_apart _ _ R) as [Nd Tw].
  assert (F : List.filter (fun x => negb (sl_contains h vs x)) other = other).
  { apply filter_all. intros x Hx. rewrite twinless_not_listed; [reflexivity| |].
    - intros y Hy E. apply Tw; auto; apply in_app_iff; auto.
    - intros Hy. apply NoDup_app in Nd. destruct Nd as (_ & N & _). apply (N x); apply elem_of_list_In; auto. }
  destruct other as [|z r].
  { exists (Slv vs None), h. rewrite app_nil_r. split; [reflexivity|auto]. }
  set (h1 := upd_seq s (set_s_subec (Some c)) h).
  assert (V : forall x, s_cls (sob h1 x) = s_cls (sob h x) /\ s_start (sob h1 x) = s_start (sob h x) /\ s_end (sob h1 x) = s_end (sob h x)).
  { intros x. repeat split; apply sob_upd_field; auto. }
  assert (C1 : same_class h1 c (vs ++ z :: r)) by (intros x Hx; destruct (V x) as (-> & _); apply C; auto).
  assert (R1 : in_row h1 (vs ++ z :: r)) by (eapply in_row_ext; [|exact R]; intros x _; apply V).
  assert (F1 : List.filter (fun x => negb (sl_contains h1 vs x)) (z :: r) = z :: r).
  { rewrite <- F at 2. apply filter_ext_in. intros x Hx. f_equal. apply contains_ext; intros; apply praatio_upd; intros o; repeat split. }
  pose proof (sl_add_same h1 ONone (Slv vs (Some c)) (z :: r) c) as S. cbn [sv_ec sv_vals] in S. rewrite F1 in S.
  destruct S as (l' & E & P & So & Id).
  { auto. } { intros x Hx. apply C1, in_app_iff; auto. } { intros x Hx. apply C1, in_app_iff; auto. }
  { apply in_row_known; auto. } { apply in_row_ends; auto. } { apply issubclass_refl. }
  exists (Slv l' (Some c)), h1. split; [|split; [apply Id, in_row_sorted; auto|right; split; [discriminate|reflexivity]]].
  rewrite <- E. unfold sl_add. mstep. cbn [sv_vals sv_ec]. rewrite F. mstep.
  rewrite (all_same_true h c) by (intros x Hx; apply C, in_app_iff; auto). cbn [negb]. mstep. mstep.
  rewrite (C z) by (apply in_app_iff; simpl; auto). cbn [negb]. unfold set_owner_ec.
  fold h1. mstep. symmetry. mstep. rewrite F1. mstep.
  rewrite (all_same_true h1 c) by (intros x Hx; apply C1, in_app_iff; auto). cbn [negb]. mstep. mstep.
  rewrite (C1 z) by (apply in_app_iff; simpl; auto). rewrite issubclass_refl. cbn [negb orb]. reflexivity.
Qed.
Lemma sl_add_row s h vs ec other c : (ec = Some c \/ ec = None) -> same_class h c (vs ++ other) -> in_row h (vs ++ other) ->
  exists v h', sl_add (OSeq s) (Slv vs ec) other h = Ok v h' /\ sv_vals v = (vs ++ other)%list /\
    (h' = h \/ other <> [] /\ h' = upd_seq s (set_s_subec (Some c)) h).
Proof.
  intros [-> | ->] C R; [|apply sl_add_owned; auto].
  pose proof (in_row_apart _ _ R) as [Nd Tw].
  assert (F : List.filter (fun x => negb (sl_contains h vs x)) other = other).
  { apply filter_all. intros x Hx. rewrite twinless_not_listed; [reflexivity| |].
    - intros y Hy E. apply Tw; auto; apply in_app_iff; auto.
    - intros Hy. apply NoDup_app in Nd. destruct Nd as (_ & N & _). apply (N x); apply elem_of_list_In; auto. }
  pose proof (sl_add_same h (OSeq s) (Slv vs (Some c)) other c) as S. cbn [sv_ec sv_vals] in S. rewrite F in S.
  specialize (S (or_introl eq_refl)).
  specialize (S ltac:(intros x Hx; apply C, in_app_iff; auto) ltac:(intros x Hx; apply C, in_app_iff; auto)).
  specialize (S (in_row_known _ _ R) (in_row_ends _ _ R) (issubclass_refl _ _)).
  destruct other as [|z r].
  - exists (Slv vs (Some c)), h. rewrite app_nil_r. split; [exact S|]. split; [reflexivity|auto].
  - destruct S as (l' & E & P & So & Id). exists (Slv l' (Some c)), h. split; [exact E|].
    split; [apply Id, in_row_sorted; auto|auto].
Qed.

(** ** Changes of one object that keep the invariant *)
Lemma upd_upd h x f g k : (forall o, f (g o) = k o) -> upd_seq x f (upd_seq x g h) = upd_seq x k h.
Proof.
  intros E. unfold upd_seq; simpl. f_equal. apply list_eq. intros i.
  destruct (decide (i = x)) as [->|]; [|rewrite !list_lookup_alter_ne; auto].
  rewrite !list_lookup_alter. destruct (h_seq h !! x); simpl; [rewrite E|]; reflexivity.
Qed.
(** The expected class of the children, and links of [x]. *)
Lemma inv_bookkeeping lx lx' K h x f : inv_but lx K nowhere h -> s_label (sob h x) <> "#"%string ->
  (forall o, s_cls (f o) = s_cls o /\ s_start (f o) = s_start o /\ s_end (f o) = s_end o /\ s_label (f o) = s_label o /\
     s_super (f o) = s_super o /\ s_subset (f o) = s_subset o) ->
  (forall c, s_subec (f (sob h x)) = Some c -> subset_class h (s_cls (sob h x)) = Some c) ->
  (forall p, ~ lx' p -> ~ lx p /\ (In x (s_subset (sob h p)) -> s_fol (f (sob h x)) = s_fol (sob h x) /\ s_prev (f (sob h x)) = s_prev (sob h x))) ->
  inv_but lx' K nowhere (upd_seq x f h).
Proof.
  intros I Hx F Ec Lk. pose proof (i_tree _ _ _ I) as T.
  assert (V : forall i, s_cls (sob (upd_seq x f h) i) = s_cls (sob h i) /\ s_label (sob (upd_seq x f h) i) = s_label (sob h i) /\
     s_super (sob (upd_seq x f h) i) = s_super (sob h i) /\ s_subset (sob (upd_seq x f h) i) = s_subset (sob h i)).
  { intros i. repeat split; apply sob_upd_field; apply F. }
  assert (P : forall i, praatio (upd_seq x f h) i = praatio h i).
  { intros i. apply praatio_upd. intros o. repeat split; apply F. }
  constructor.
  - apply (chains_ext h); [reflexivity|apply I].
  - constructor.
    + intros p y Hp Hy. destruct (V p) as (-> & _ & _ & Sp). rewrite Sp in Hy. destruct (V y) as (-> & _ & -> & _).
      destruct (t_down _ _ _ T p y Hp Hy) as (A & B & C). split; [apply live_upd; auto|]. split; [auto|exact C].
    + intros y p Hy. destruct (V y) as (_ & _ & A & _). rewrite A in Hy. destruct (t_up _ _ _ T y p Hy) as [B C].
      destruct (V p) as (_ & _ & _ & ->). split; [apply live_upd; auto|auto].
    + intros p Hp. destruct (V p) as (_ & _ & _ & ->). apply (t_nodup _ _ _ T); auto.
    + intros p c Hc. destruct (V p) as (-> & _). change (subset_class h (s_cls (sob h p)) = Some c).
      destruct (decide (p = x)) as [->|Np]; [|rewrite sob_upd_ne in Hc by auto; apply (tr_ec _ _ _ T); auto].
      destruct (decide (live h x)) as [L|L]; [rewrite sob_upd_eq in Hc by auto; auto|].
      rewrite (sob_dead (upd_seq x f h)) in Hc by (rewrite live_upd; auto). discriminate.
    + intros p y z Hp. destruct (V p) as (_ & _ & _ & ->). rewrite same_value_ext by auto. apply (t_twin _ _ _ T); auto.
    + intros y. destruct (V y) as (_ & -> & -> & ->). apply (t_hash _ _ _ T).
    + intros y Ly. apply live_upd in Ly. destruct (V y) as (-> & -> & _). apply (t_cls _ _ _ T); auto.
  - intros p Hp Hl. destruct (V p) as (_ & _ & _ & ->). destruct (Lk p Hl) as [A B].
    eapply chained_ext; [|intros k Hk; apply is_boundary_upd; [exact Hx|exact Hk]|apply (i_links _ _ _ I); auto].
    intros y Hy. destruct (decide (y = x)) as [->|Ny]; [|rewrite sob_upd_ne by auto; auto].
    rewrite sob_upd_eq; [auto|]. apply (t_down _ _ _ T p x (nowhere_not p) Hy).
Qed.

(** ** The values and children of the fused interval *)
Definition fuse_tail (x y : oid) : M unit :=
  xo2 <- get_seq x ;;
  sup <- gets (fun h => superset_class h (s_cls (sob h x))) ;;
  tr <- gets (fun h => match s_intier xo2 with
                       | Some t => (0 <? List.length (t_seq (tob h t)))%nat | None => false end) ;;
  let popt := match s_intier xo2 with
              | Some t => when tr (tier_pop t y) | None => ret tt end in
  if bool_decide (sup = Some cTop) && tr then popt
  else
    popt ;;;
    xo3 <- get_seq x ;;
    match s_super xo3 with
    | None => ret tt
    | Some s =>
      ok <- gets (fun h => seq_truthy h (Some s) && sl_contains h (s_subset (sob h s)) y) ;;
      when ok (subset_remove s y)
    end.
Definition new_values (right : bool) (jn : string -> string -> string) (h : heap) (x y : oid) (o : seqobj) : seqobj :=
  set_s_label (fused_label right jn h x y)
    (if right then set_s_end (s_end (sob h y)) o else set_s_start (s_start (sob h y)) o).
Definition new_link (right : bool) (h : heap) (y : oid) (o : seqobj) : seqobj :=
  if right then set_s_fol (s_fol (sob h y)) o else set_s_prev (s_prev (sob h y)) o.

Record grown (right : bool) (jn : string -> string -> string) (x y : oid) (h h' : heap) : Prop := {
  gr_rest : same_rest h h';
  gr_len : (List.length (h_seq h) <= List.length (h_seq h'))%nat;
  gr_x : s_cls (sob h' x) = s_cls (sob h x) /\ s_start (sob h' x) = s_start (sob h (if right then x else y)) /\
    s_end (sob h' x) = s_end (sob h (if right then y else x)) /\ s_label (sob h' x) = fused_label right jn h x y /\
    s_intier (sob h' x) = s_intier (sob h x);
  gr_other : forall i, live h i -> i <> x -> s_cls (sob h' i) = s_cls (sob h i) /\ s_start (sob h' i) = s_start (sob h i) /\
    s_end (sob h' i) = s_end (sob h i) /\ s_label (sob h' i) = s_label (sob h i) /\ s_intier (sob h' i) = s_intier (sob h i);
  gr_new : forall i, live h' i -> ~ live h i -> boundary_obj (sob h' i);
  gr_children : s_subset (sob h' x) = beside right (s_subset (sob h x)) (s_subset (sob h y));
  gr_empty : s_subset (sob h' y) = [];
  gr_lists : forall q, q <> x -> q <> y -> s_subset (sob h' q) = s_subset (sob h q);
  gr_moved : forall z, In z (s_subset (sob h y)) -> s_super (sob h' z) = Some x;
  gr_super : forall z, ~ In z (s_subset (sob h y)) -> s_super (sob h' z) = s_super (sob h z)
}.
Lemma in_beside right a b z : In z (beside right a b) <-> In z a \/ In z b.
Proof. unfold beside. destruct right; rewrite in_app_iff; tauto. Qed.
Lemma keep_none {A} (P : A -> Prop) (l k : list A) : (forall x, In x l -> ~ P x) -> keep_if P l k -> k = [].
Proof. intros N K1. induction K1 as [|x l k Px K1 IH|x l k Px K1 IH]; [auto| |apply IH; intros; apply N; simpl; auto]. exfalso. apply (N x); simpl; auto. Qed.
Lemma keep_every {A} (P : A -> Prop) (l k : list A) : (forall x, In x l -> P x) -> keep_if P l k -> k = l.
Proof. intros N K1. apply (keep_if_fun P l); [exact K1|apply keep_if_all; exact N]. Qed.

Lemma fuse_grow right jn K h x y : household K h -> fusible right jn h x y ->
  (forall p, s_super (sob h x) = Some p -> no_twin (upd_seq x (new_values right jn h x y) h) p x) ->
  exists h', fuse right jn x h = fuse_tail x y h' /\ inv_but (fun p => s_super (sob h x) = Some p) K nowhere h' /\ grown right jn x y h h'.
Proof.
  intros Hh (Nb & Hxy & [Lx Bx] & [Ly By] & Cl & Lb & R) Tw. apply household_inv in Hh.
  assert (By' : is_hash (s_label (sob h y)) = false) by (unfold is_hash; apply String.eqb_neq; auto).
  set (lx := fun p => s_super (sob h x) = Some p).
  set (h0 := upd_seq x (new_values right jn h x y) h) in *.
  assert (I0 : inv_but nowhere K nowhere h0).
  { apply inv_value; auto.
    - intros o. unfold new_values. destruct right; repeat split. }
  assert (Sx0 : sob h0 x = new_values right jn h x y (sob h x)) by (apply sob_upd_eq; auto).
  set (h1 := upd_seq x (new_link right h y) h0).
  assert (I1 : inv_but lx K nowhere h1).
  { apply (inv_bookkeeping nowhere); auto.
    - rewrite Sx0. simpl. exact Lb.
    - intros o. unfold new_link. destruct right; repeat split.
    - intros c Hc. apply (tr_ec _ _ _ (i_tree _ _ _ I0)). unfold new_link in Hc. destruct right; exact Hc.
    - intros p Hp. split; [intros []|]. intros Hin. exfalso. apply Hp. unfold lx.
      destruct (t_down _ _ _ (i_tree _ _ _ I0) p x (nowhere_not p) Hin) as (_ & A & _).
      rewrite Sx0 in A. unfold new_values in A. destruct right; exact A. }
  assert (Sx1 : sob h1 x = new_link right h y (new_values right jn h x y (sob h x))).
  { unfold h1. rewrite sob_upd_eq by (apply live_upd; auto). rewrite Sx0. reflexivity. }
  assert (So1 : forall i, i <> x -> sob h1 i = sob h i) by (intros i Hi; unfold h1, h0; rewrite !sob_upd_ne; auto).
  assert (Sub1 : forall i, s_subset (sob h1 i) = s_subset (sob h i) /\ s_super (sob h1 i) = s_super (sob h i) /\
     s_cls (sob h1 i) = s_cls (sob h i) /\ s_subec (sob h1 i) = s_subec (sob h i)).
  { intros i. destruct (decide (i = x)) as [->|Ni]; [|rewrite So1; auto].
    rewrite Sx1. unfold new_link, new_values. destruct right; auto. }
  set (cx := s_subset (sob h x)) in *. set (cy := s_subset (sob h y)) in *.
  set (row := beside right cx cy) in *.
  pose proof (proj2 (household_inv K h) Hh) as HH.
  assert (Hrow : forall z, In z row -> live h z /\ s_label (sob h z) <> "#"%string /\ z <> x /\
     subset_class h (s_cls (sob h x)) = Some (s_cls (sob h z))).
  { intros z Hz. apply in_beside in Hz. destruct Hz as [Hz|Hz].
    - destruct (family _ _ _ _ _ Hh (nowhere_not x) Hz) as (_ & A & B & _ & C & _ & _ & _ & D). auto.
    - destruct (family _ _ _ _ _ Hh (nowhere_not y) Hz) as (_ & A & B & _ & C & _ & _ & _ & D).
      split; [auto|]. split; [auto|]. rewrite <- Cl. split; [|auto]. intros ->.
      destruct (i_chains _ _ _ Hh) as (_ & _ & _ & _ & Irr). apply (Irr (s_cls (sob h y))); [|rewrite Cl in *; auto].
      apply (t_cls _ _ _ (i_tree _ _ _ Hh)); auto. }
  set (c := match subset_class h (s_cls (sob h x)) with Some c => c | None => 0%nat end).
  assert (Crow : same_class h c row).
  { intros z Hz. unfold c. destruct (Hrow z Hz) as (_ & _ & _ & ->). reflexivity. }
  assert (R1 : in_row h1 row).
  { eapply in_row_ext; [|exact R]. intros z Hz. destruct (Hrow z Hz) as (_ & _ & Nz & _). rewrite So1 by auto. auto. }
  assert (C1 : same_class h1 c row).
  { intros z Hz. destruct (Hrow z Hz) as (_ & _ & Nz & _). rewrite So1 by auto. apply Crow; auto. }
  set (w := if right then x else y).
  assert (Add : exists v h2, (if right then sl_add (OSeq x) (subset_slv (sob h x)) (s_subset (sob h y))
                              else sl_add (OSeq y) (subset_slv (sob h y)) (s_subset (sob h x))) h1 = Ok v h2 /\ sv_vals v = row /\
     (h2 = h1 \/ row <> [] /\ h2 = upd_seq w (set_s_subec (Some c)) h1)).
  { assert (Ec : forall i, i = x \/ i = y -> s_subec (sob h i) = Some c \/ s_subec (sob h i) = None).
    { intros i Hi. destruct (s_subec (sob h i)) as [d|] eqn:Ed; [left|auto].
      apply (tr_ec _ _ _ (i_tree _ _ _ Hh)) in Ed. unfold c. destruct Hi as [-> | ->]; [|rewrite Cl in Ed]; rewrite Ed; reflexivity. }
    unfold w, row, beside in *. destruct right.
    - destruct (sl_add_row x h1 cx (s_subec (sob h x)) cy c) as (v & h2 & A & B & D); auto.
      exists v, h2. split; [exact A|]. split; [auto|]. destruct D as [D|[D1 D2]]; [auto|right]. split; [|auto].
      intros E. apply app_eq_nil in E. tauto.
    - destruct (sl_add_row y h1 cy (s_subec (sob h y)) cx c) as (v & h2 & A & B & D); auto.
      exists v, h2. split; [exact A|]. split; [auto|]. destruct D as [D|[D1 D2]]; [auto|right]. split; [|auto].
      intros E. apply app_eq_nil in E. tauto. }
  destruct Add as (v & h2 & Ea & Ev & Eh2).
  assert (Bw : s_label (sob h1 w) <> "#"%string).
  { unfold w. destruct right; [rewrite Sx1; unfold new_link, new_values; simpl; exact Lb|rewrite So1 by auto; auto]. }
  assert (I2 : inv_but lx K nowhere h2).
  { destruct Eh2 as [-> |[Ne ->]]; [exact I1|]. apply (inv_bookkeeping lx lx); [exact I1|exact Bw|intros o; repeat split| |intros p Hp; split; [exact Hp|intros _; split; reflexivity]].
    intros d [= <-]. destruct row as [|z r] eqn:Er; [contradiction|].
    destruct (Hrow z) as (_ & _ & _ & A); [simpl; auto|].
    change (subset_class h (s_cls (sob h1 w)) = Some c). destruct (Sub1 w) as (_ & _ & -> & _).
    assert (s_cls (sob h w) = s_cls (sob h x)) as -> by (unfold w; destruct right; auto).
    unfold c. rewrite A. reflexivity. }
  assert (V2 : forall i, s_cls (sob h2 i) = s_cls (sob h1 i) /\ s_start (sob h2 i) = s_start (sob h1 i) /\ s_end (sob h2 i) = s_end (sob h1 i) /\
     s_label (sob h2 i) = s_label (sob h1 i) /\ s_super (sob h2 i) = s_super (sob h1 i) /\ s_subset (sob h2 i) = s_subset (sob h1 i) /\
     s_intier (sob h2 i) = s_intier (sob h1 i)).
  { intros i. destruct Eh2 as [-> |[_ ->]]; [auto 10|]. repeat split; apply sob_upd_field; auto. }
  assert (L2 : List.length (h_seq h2) = List.length (h_seq h)).
  { destruct Eh2 as [-> |[_ ->]]; rewrite ?len_upd_seq; unfold h1, h0; rewrite !len_upd_seq; reflexivity. }
  assert (Re2 : same_rest h h2) by (destruct Eh2 as [-> |[_ ->]]; repeat split).
  assert (R2 : in_row h2 row) by (eapply in_row_ext; [|exact R1]; intros z _; split; apply V2).
  assert (C2 : same_class h2 c row) by (intros z Hz; destruct (V2 z) as (-> & _); apply C1; auto).
  assert (Hs : forall q z, In z (s_subset (sob h q)) -> s_super (sob h z) = Some q).
  { intros q z Hz. apply (t_down _ _ _ (i_tree _ _ _ Hh) q z (nowhere_not q) Hz). }
  destruct (sl_init_spec h2 c row C2 (in_row_known _ _ R2)) as (l' & Ei & _ & _ & Id).
  specialize (Id (in_row_sorted _ _ R2)). subst l'.
  destruct (setter_ok (lx:=lx) K h2 x row (Slv row (match row with [] => None | _ => Some c end)) I2) with (v' := Slv row (match row with [] => None | _ => Some c end)) as (h3 & E3 & I3 & As & S3).
  { unfold live in *. lia. }
  { destruct (V2 x) as (_ & _ & _ & -> & _). rewrite Sx1. unfold new_link, new_values, fused_label. clear -Lb. destruct right; exact Lb. }
  { intros z Hz. destruct (Hrow z Hz) as (A & B & D & E). destruct (V2 z) as (F1 & _ & _ & F2 & _).
    rewrite F1, F2, (So1 z) by auto. split; [unfold live in *; lia|]. split; [auto|].
    destruct (V2 x) as (-> & _). destruct (Sub1 x) as (_ & _ & -> & _).
    rewrite (subset_class_ext h h2); [auto|apply Re2]. }
  { apply in_row_apart; auto. }
  { intros o Ho z Hz E. apply (in_row_apart _ _ R2); auto. destruct (V2 x) as (_ & _ & _ & _ & _ & Ex & _). rewrite Ex in Ho.
    destruct (Sub1 x) as (Ex1 & _). rewrite Ex1 in Ho. apply in_beside. auto. }
  { exact Ei. }
  { cbn [sv_vals]. exact Ei. }
  exists h3. split; [|split; [exact I3|]].
  - unfold fuse. mstep. change (if right then s_fol (sob h x) else s_prev (sob h x)) with (neighbour right h x). rewrite Nb. mstep.
    rewrite By'.
    transitivity ((v <- (if right then sl_add (OSeq x) (subset_slv (sob h x)) (s_subset (sob h y))
                         else sl_add (OSeq y) (subset_slv (sob h y)) (s_subset (sob h x))) ;; subset_setter x (sv_vals v) ;;; fuse_tail x y) h1).
    + assert (Eq : h1 = if right then upd_seq x (set_s_label (fused_label right jn h x y)) (upd_seq x (set_s_fol (s_fol (sob h y))) (upd_seq x (set_s_end (s_end (sob h y))) h))
                        else upd_seq x (set_s_label (fused_label right jn h x y)) (upd_seq x (set_s_prev (s_prev (sob h y))) (upd_seq x (set_s_start (s_start (sob h y))) h))).
      { unfold h1, h0. destruct right.
        - rewrite (upd_upd h x (new_link true h y) _ (fun o => new_link true h y (new_values true jn h x y o))) by reflexivity.
          rewrite (upd_upd h x (set_s_fol _) _ (fun o => set_s_fol (s_fol (sob h y)) (set_s_end (s_end (sob h y)) o))) by reflexivity.
          symmetry. apply upd_upd. reflexivity.
        - rewrite (upd_upd h x (new_link false h y) _ (fun o => new_link false h y (new_values false jn h x y o))) by reflexivity.
          rewrite (upd_upd h x (set_s_prev _) _ (fun o => set_s_prev (s_prev (sob h y)) (set_s_start (s_start (sob h y)) o))) by reflexivity.
          symmetry. apply upd_upd. reflexivity. }
      rewrite Eq. destruct right; reflexivity.
    + rewrite (bind_ok _ _ _ _ _ Ea), Ev, (bind_ok _ _ _ _ _ E3). reflexivity.
  - destruct As as (Co & Pm & Q1 & Q2 & Q3).
    assert (Co' := Co). destruct Co' as (Cr & Cl1 & Cv & Cn).
    assert (Lv : forall i, live h2 i <-> live h i) by (intros i; unfold live; rewrite L2; reflexivity).
    constructor.
    + destruct Re2 as (A1 & A2 & A3 & A4). destruct Cr as (B1 & B2 & B3 & B4). repeat split; congruence.
    + lia.
    + destruct (Cv x) as (D1 & D2 & D3 & D4 & D5); [apply Lv; auto|]. rewrite D1, D2, D3, D4, D5.
      destruct (V2 x) as (-> & -> & -> & -> & _ & _ & ->). rewrite Sx1. unfold new_link, new_values. destruct right; repeat split.
    + intros i Li Ni. destruct (Cv i) as (D1 & D2 & D3 & D4 & D5); [apply Lv; auto|]. rewrite D1, D2, D3, D4, D5.
      destruct (V2 i) as (-> & -> & -> & -> & _ & _ & ->). rewrite So1 by auto. auto.
    + intros i Li Ni. apply Cn; [auto|]. rewrite Lv. auto.
    + exact S3.
    + apply (keep_none (fun z => ~ In z row) (s_subset (sob h2 y))); [|apply Q3; auto].
      intros z Hz N. apply N. destruct (V2 y) as (_ & _ & _ & _ & _ & E & _). rewrite E in Hz.
      destruct (Sub1 y) as (E1 & _). rewrite E1 in Hz. apply in_beside. auto.
    + intros q Hqx Hqy. destruct (V2 q) as (_ & _ & _ & _ & _ & E & _). destruct (Sub1 q) as (E1 & _). rewrite <- E1, <- E.
      apply (keep_every (fun z => ~ In z row)); [|apply Q3; auto].
      intros z Hz Hr. rewrite E, E1 in Hz. apply Hs in Hz. apply in_beside in Hr. destruct Hr as [Hr|Hr]; apply Hs in Hr; congruence.
    + intros z Hz. apply Q1. apply in_beside. auto.
    + intros z Hz. destruct (in_dec Nat.eq_dec z cx) as [Hc|Hc].
      * rewrite Q1 by (apply in_beside; auto). symmetry. apply Hs. auto.
      * rewrite Q2 by (intros Hr; apply in_beside in Hr; tauto).
        destruct (V2 z) as (_ & _ & _ & _ & -> & _). destruct (Sub1 z) as (_ & -> & _).
        destruct (s_super (sob h z)) as [p|] eqn:Ez; [|auto]. destruct (decide (p = x)) as [->|]; [|auto].
        exfalso. apply Hc. apply (t_up _ _ _ (i_tree _ _ _ Hh) z x Ez). apply nowhere_not.
Qed.

(** ** [y] leaves its parent *)
Record released (y : oid) (op : option oid) (h h' : heap) : Prop := {
  rl_len : (List.length (h_seq h) <= List.length (h_seq h'))%nat;
  rl_val : forall i, live h i -> s_cls (sob h' i) = s_cls (sob h i) /\ s_start (sob h' i) = s_start (sob h i) /\
    s_end (sob h' i) = s_end (sob h i) /\ s_label (sob h' i) = s_label (sob h i);
  rl_new : forall i, live h' i -> ~ live h i -> is_boundary h' i;
  rl_y : s_super (sob h' y) = None;
  rl_super : forall i, i <> y -> s_super (sob h' i) = s_super (sob h i);
  rl_lists : forall q, op <> Some q -> s_subset (sob h' q) = s_subset (sob h q);
  rl_list : forall p, op = Some p -> exists l1 l2, s_subset (sob h p) = (l1 ++ y :: l2)%list /\ s_subset (sob h' p) = (l1 ++ l2)%list;
  rl_rest : h_cls h' = h_cls h /\ h_grp h' = h_grp h /\ h_grid h' = h_grid h
}.
Lemma released_boundary y op h h' k : released y op h h' -> k <> y -> op <> Some k -> is_boundary h k -> is_boundary h' k.
Proof.
  intros R Ky Ko (A & B & C & D & E & F). destruct (rl_val _ _ _ _ R k A) as (_ & V2 & V3 & V4).
  pose proof (rl_len _ _ _ _ R). split; [lia|]. rewrite V2, V3, V4, (rl_super _ _ _ _ R), (rl_lists _ _ _ _ R) by auto. auto.
Qed.
Lemma nodup_split {A} (a b c d : list A) y : NoDup (a ++ y :: b) -> (a ++ y :: b)%list = (c ++ y :: d)%list -> a = c /\ b = d.
Proof.
  revert c. induction a as [|z a IH]; intros c Nd E; destruct c as [|w c]; simpl in *.
  - injection E as ->. auto.
  - injection E as -> ->. exfalso. apply NoDup_cons in Nd. destruct Nd as [N _]. apply N. apply elem_of_list_In, in_app_iff. simpl; auto.
  - injection E as -> <-. exfalso. apply NoDup_cons in Nd. destruct Nd as [N _]. apply N. apply elem_of_list_In, in_app_iff. simpl; auto.
  - injection E as -> E. apply NoDup_cons in Nd. destruct Nd as [_ N]. destruct (IH c N E) as [-> ->]. auto.
Qed.

Lemma absorbed_by right jn K h x y h2 h3 : household K h -> fusible right jn h x y -> grown right jn x y h h2 ->
  released y (s_super (sob h x)) h2 h3 -> chained h3 (s_subset (sob h3 x)) -> s_super (sob h x) <> Some x -> s_super (sob h x) <> Some y ->
  (forall p, s_super (sob h x) = Some p -> exists l1 l2, s_subset (sob h p) = (l1 ++ beside right [x] [y] ++ l2)%list) ->
  absorbed right jn x y h h3.
Proof.
  intros Hh (Nb & Hxy & [Lx Bx] & [Ly By] & Cl & Lb & R) G Rl Cx Npx Npy Sp. apply household_inv in Hh.
  destruct (gr_x _ _ _ _ _ _ G) as (X1 & X2 & X3 & X4 & _).
  pose proof (gr_len _ _ _ _ _ _ G) as Len. assert (Lx2 : live h2 x) by (unfold live in *; lia).
  destruct (rl_val _ _ _ _ Rl x Lx2) as (Y1 & Y2 & Y3 & Y4).
  assert (Sx : s_subset (sob h3 x) = s_subset (sob h2 x)) by (apply (rl_lists _ _ _ _ Rl); auto).
  assert (Ny : ~ In y (s_subset (sob h y))).
  { intros Hy. destruct (family _ _ _ _ _ Hh (nowhere_not y) Hy) as (_ & _ & N & _). auto. }
  split; [congruence|]. split; [congruence|]. split; [congruence|]. split; [rewrite Y4; exact X4|].
  split; [rewrite Sx; apply (gr_children _ _ _ _ _ _ G)|].
  split; [exact Cx|].
  split; [rewrite (rl_lists _ _ _ _ Rl) by auto; apply (gr_empty _ _ _ _ _ _ G)|].
  split. { intros z Hz. rewrite (rl_super _ _ _ _ Rl); [apply (gr_moved _ _ _ _ _ _ G); auto|intros ->; auto]. }
  split; [apply (rl_y _ _ _ _ Rl)|].
  split.
  { intros p Hp. destruct (Sp p Hp) as (l1 & l2 & E). exists l1, l2. split; [exact E|].
    destruct (rl_list _ _ _ _ Rl p Hp) as (a & b & E1 & E2). rewrite E2.
    assert (Np : p <> x /\ p <> y) by (split; intros ->; auto).
    rewrite (gr_lists _ _ _ _ _ _ G) in E1 by tauto. rewrite E in E1.
    pose proof (t_nodup _ _ _ (i_tree _ _ _ Hh) p (nowhere_not p)) as Nd. rewrite E in Nd.
    unfold beside in *. destruct right; simpl in *.
    - assert (E3 : (l1 ++ x :: y :: l2)%list = ((l1 ++ [x]) ++ y :: l2)%list) by (rewrite <- app_assoc; reflexivity).
      rewrite E3 in E1, Nd. destruct (nodup_split _ _ _ _ _ Nd E1) as [<- <-]. rewrite <- app_assoc. reflexivity.
    - destruct (nodup_split _ _ _ _ _ Nd E1) as [<- <-]. reflexivity. }
  split.
  { intros i Li Ni. destruct (gr_other _ _ _ _ _ _ G i Li Ni) as (A1 & A2 & A3 & A4 & _).
    assert (Li2 : live h2 i) by (unfold live in *; lia). destruct (rl_val _ _ _ _ Rl i Li2) as (-> & -> & -> & ->). auto. }
  split. { intros i Ni Hi. rewrite (rl_super _ _ _ _ Rl) by auto. apply (gr_super _ _ _ _ _ _ G); auto. }
  split. { intros q Hx Hy Hq. rewrite (rl_lists _ _ _ _ Rl) by auto. apply (gr_lists _ _ _ _ _ _ G); auto. }
  split.
  { intros i Hi. destruct (decide (live h2 i)) as [L2|L2]; [|apply (rl_new _ _ _ _ Rl); [unfold live; lia|auto]].
    apply (released_boundary y (s_super (sob h x)) h2); auto.
    - intros ->. lia.
    - intros E. destruct (t_up _ _ _ (i_tree _ _ _ Hh) x i E) as [L _]. unfold live in L. lia.
    - apply boundary_is_boundary; [auto|]. apply (gr_new _ _ _ _ _ _ G); [auto|unfold live; lia]. }
  destruct (gr_rest _ _ _ _ _ _ G) as (A1 & A2 & A3 & A4). destruct (rl_rest _ _ _ _ Rl) as (B1 & B2 & B3).
  split; [congruence|]. split; congruence.
Qed.

(** ** The neighbour in the parent's list *)
Lemma chain_next h l x y : chained h l -> In x l -> s_fol (sob h x) = Some y -> s_label (sob h y) <> "#"%string ->
  exists l1 l2, l = (l1 ++ x :: y :: l2)%list.
Proof.
  intros (C1 & _ & C3) Hx F Hy. apply In_nth_error in Hx. destruct Hx as [i Hi].
  destruct (nth_error l (S i)) as [z|] eqn:Ez.
  - destruct (C1 i x z Hi Ez) as [A _]. rewrite F in A. injection A as <-.
    apply nth_error_split in Hi. destruct Hi as (l1 & l2 & -> & <-). rewrite nth_error_app2 in Ez by lia.
    replace (S (List.length l1) - List.length l1)%nat with 1%nat in Ez by lia. simpl in Ez.
    destruct l2 as [|w l2]; [discriminate|]. simpl in Ez. injection Ez as ->. exists l1, l2. reflexivity.
  - exfalso. apply nth_error_None in Ez. assert (i < List.length l)%nat by (apply nth_error_Some; congruence).
    destruct (C3 x) as (k & A & B); [replace (List.length l - 1)%nat with i by lia; auto|].
    rewrite F in A. injection A as <-. apply Hy. apply B.
Qed.
Lemma chain_last h l x y : chained h l -> In x l -> s_prev (sob h x) = Some y -> s_label (sob h y) <> "#"%string ->
  exists l1 l2, l = (l1 ++ y :: x :: l2)%list.
Proof.
  intros (C1 & C2 & _) Hx F Hy. apply In_nth_error in Hx. destruct Hx as [i Hi]. destruct i as [|i].
  - exfalso. destruct (C2 x Hi) as (k & A & B). rewrite F in A. injection A as <-. apply Hy. apply B.
  - assert (Li : (i < List.length l)%nat) by (assert (S i < List.length l)%nat by (apply nth_error_Some; congruence); lia).
    destruct (nth_error l i) as [z|] eqn:Ez; [|apply nth_error_None in Ez; lia].
    destruct (C1 i z x Ez Hi) as [_ A]. rewrite F in A. injection A as <-.
    apply nth_error_split in Ez. destruct Ez as (l1 & l2 & -> & <-). rewrite nth_error_app2 in Hi by lia.
    replace (S (List.length l1) - List.length l1)%nat with 1%nat in Hi by lia. simpl in Hi.
    destruct l2 as [|w l2]; [discriminate|]. simpl in Hi. injection Hi as ->. exists l1, l2. reflexivity.
Qed.

Lemma child_fusible right jn K h p x y : household K h -> fusible_in right jn h p x y ->
  fusible right jn h x y /\ In x (s_subset (sob h p)) /\ In y (s_subset (sob h p)) /\ p <> x /\ p <> y /\
  (exists l1 l2, s_subset (sob h p) = (l1 ++ beside right [x] [y] ++ l2)%list) /\
  no_twin (upd_seq x (new_values right jn h x y) h) p x.
Proof.
  intros Hh (Sx & Nb & By & Pt & Lb & R & Rp). apply household_inv in Hh. pose proof (i_tree _ _ _ Hh) as T.
  pose proof (proj2 (t_up _ _ _ T x p Sx) (nowhere_not p)) as Hx.
  assert (Sp : exists l1 l2, s_subset (sob h p) = (l1 ++ beside right [x] [y] ++ l2)%list).
  { pose proof (i_links _ _ _ Hh p (nowhere_not p) (nowhere_not p)) as C. unfold neighbour in Nb.
    destruct right; [apply (chain_next h _ x y C)|apply (chain_last h _ x y C)]; auto. }
  assert (Hy : In y (s_subset (sob h p))).
  { destruct Sp as (l1 & l2 & ->). apply in_app_iff. right. apply in_app_iff. left. apply in_beside. simpl. auto. }
  assert (Hxy : x <> y).
  { intros <-. pose proof (t_nodup _ _ _ T p (nowhere_not p)) as Nd. destruct Sp as (l1 & l2 & E). rewrite E in Nd.
    apply NoDup_app in Nd. destruct Nd as (_ & _ & Nd). assert (E2 : beside right [x] [x] = [x; x]) by (destruct right; reflexivity). rewrite E2 in Nd.
    simpl in Nd. apply NoDup_cons in Nd. destruct Nd as [N _]. apply N. left. }
  destruct (family _ _ _ _ _ Hh (nowhere_not p) Hx) as (Lp & Lx & N1 & _ & C1 & _ & _ & _ & B1).
  destruct (family _ _ _ _ _ Hh (nowhere_not p) Hy) as (_ & Ly & N2 & _ & C2 & _ & _ & _ & B2).
  split.
  { split; [auto|]. split; [auto|]. split; [split; auto|]. split; [split; auto|]. split; [congruence|]. auto. }
  split; [auto|]. split; [auto|]. split; [auto|]. split; [auto|]. split; [exact Sp|].
  set (h0 := upd_seq x (new_values right jn h x y) h).
  assert (S0 : forall i, s_subset (sob h0 i) = s_subset (sob h i)).
  { intros i. apply sob_upd_field. intros o. unfold new_values. destruct right; reflexivity. }
  assert (Sx0 : sob h0 x = new_values right jn h x y (sob h x)) by (apply sob_upd_eq; auto).
  intros z Hz E. rewrite S0 in Hz. destruct (decide (z = x)) as [->|Nz]; [auto|]. exfalso.
  assert (Sz : sob h0 z = sob h z) by (apply sob_upd_ne; auto).
  destruct E as (E1 & E2 & _ & E4).
  assert (Pz : is_point h0 z = false).
  { rewrite E1. unfold is_point. rewrite Sx0. unfold new_values. destruct right; exact Pt. }
  specialize (E4 Pz). rewrite Sx0, Sz in E2, E4. unfold new_values in E2, E4. destruct right; simpl in E2, E4.
  - apply Nz. apply (in_row_inj h _ z x Rp); auto.
  - assert (z = y) by (apply (in_row_inj h _ z y Rp); auto). subst z.
    destruct Sp as (l1 & l2 & Ep). destruct Rp as [D Tn].
    destruct (Tn (List.length l1) (S (List.length l1)) y x) as (e & s & A1 & A2 & A3); [lia| | |].
    + rewrite Ep, nth_error_app2, Nat.sub_diag by lia. reflexivity.
    + rewrite Ep, nth_error_app2 by lia. replace (S (List.length l1) - List.length l1)%nat with 1%nat by lia. reflexivity.
    + destruct (D x Hx) as (F1 & F2 & F3). assert (s = fst (span_of h x)) by congruence. assert (e = snd (span_of h x)) by congruence. lia.
Qed.

(** ** Taking [y] out of its tier *)
Lemma inv_tier lx K h t f : inv_but lx K nowhere h -> inv_but lx K nowhere (upd_tier t f h).
Proof. intros [C T L]. constructor; [exact C| |exact L]. destruct T. constructor; assumption. Qed.
Lemma grown_value right jn x y h h' z : grown right jn x y h h' -> live h z -> z <> x -> live h y -> x <> y ->
  same_value h' z y <-> same_value h z y.
Proof.
  intros G Lz Nz Ly Nxy. destruct (gr_other _ _ _ _ _ _ G z Lz Nz) as (A1 & A2 & A3 & A4 & _).
  destruct (gr_other _ _ _ _ _ _ G y Ly) as (B1 & B2 & B3 & B4 & _); [auto|].
  unfold same_value, is_point, is_point_cls, issubclass. destruct (gr_rest _ _ _ _ _ _ G) as (E & _).
  rewrite E, A1, A2, A3, A4, B1, B2, B3, B4. reflexivity.
Qed.
Lemma cut_released K lx h p y l1 l2 h' : inv_but lx K nowhere h -> s_subset (sob h p) = (l1 ++ y :: l2)%list ->
  settles (cut p (l1 ++ l2) y h) (l1 ++ l2) h' -> released y (Some p) h h'.
Proof.
  intros I E S. destruct (cut_moved K h p l1 y l2 h' I E S) as ((C & M1 & M2 & M3) & M4).
  destruct C as ((R1 & R2 & R3 & R4) & C2 & C3 & C4). constructor.
  - auto.
  - intros i Li. destruct (C3 i Li) as (A1 & A2 & A3 & A4 & _). auto.
  - intros i Li Ni. apply boundary_is_boundary; auto.
  - auto.
  - auto.
  - intros q Hq. apply (keep_every (fun z => z <> y)); [|apply M3; discriminate].
    intros z Hz ->. apply Hq. f_equal. destruct (t_down _ _ _ (i_tree _ _ _ I) q y (nowhere_not q) Hz) as (_ & A & _).
    destruct (t_down _ _ _ (i_tree _ _ _ I) p y (nowhere_not p)) as (_ & B & _); [rewrite E; apply in_app_iff; simpl; auto|]. congruence.
  - intros q [= <-]. exists l1, l2. auto.
  - auto.
Qed.

Lemma inv_close lx K h : inv_but lx K nowhere h -> (forall p, chained h (s_subset (sob h p))) -> household K h.
Proof.
  intros [C T L] N. apply household_inv. constructor; auto.
Qed.

Lemma parent_close K h op : inv_but (fun p => op = Some p) K nowhere h ->
  (forall p, op = Some p -> chained h (s_subset (sob h p))) -> household K h.
Proof.
  intros I N. apply (inv_close _ _ _ I). intros p. destruct (decide (op = Some p)) as [E|E]; [auto|].
  apply (i_links _ _ _ I); [apply nowhere_not|exact E].
Qed.

Lemma grown_twinless right jn x y h h2 l : grown right jn x y h h2 -> live h y -> x <> y -> s_label (sob h y) <> "#"%string ->
  (forall z, In z l -> same_value h z y -> z = y) -> ~ same_value h2 x y -> twinless h2 l y.
Proof.
  intros G Ly Nxy By Tw Nx z Hz E. destruct (decide (z = x)) as [->|Nz]; [contradiction|].
  apply Tw; [auto|]. destruct (decide (live h z)) as [Lz|Lz]; [apply (grown_value _ _ _ _ _ _ _ G); auto|].
  destruct (gr_other _ _ _ _ _ _ G y Ly) as (B1 & B2 & B3 & B4 & _); [auto|].
  destruct (decide (live h2 z)) as [Lz2|Lz2].
  - exfalso. pose proof (gr_new _ _ _ _ _ _ G z Lz2 Lz) as Bd. destruct (boundary_obj_fields _ Bd) as (_ & _ & Q & _).
    destruct E as (_ & _ & E3 & _). rewrite B4 in E3. apply By. rewrite <- E3. exact Q.
  - unfold same_value, is_point, is_point_cls, issubclass in *. destruct (gr_rest _ _ _ _ _ _ G) as (E0 & _).
    rewrite (sob_dead h2 z Lz2), B1, B2, B3, B4, E0 in E. rewrite (sob_dead h z Lz). exact E.
Qed.

(** [SequenceTier.pop] of an interval with a parent, in a tier not below Top. *)
Lemma pop_child lx K h t y p a b : inv_but lx K nowhere h -> (t < List.length (h_tier h))%nat ->
  t_seq (tob h t) = (a ++ y :: b)%list -> NoDup (t_seq (tob h t)) -> twinless h (t_seq (tob h t)) y ->
  t_super (tob h t) <> Some cTop -> s_super (sob h y) = Some p ->
  exists h' l1 l2, tier_pop t y h = Ok tt h' /\ s_subset (sob h p) = (l1 ++ y :: l2)%list /\
    settles (cut p (l1 ++ l2) y (upd_tier t (set_t_seq (a ++ b)) h)) (l1 ++ l2) h' /\ inv_but lx K nowhere h'.
Proof.
  intros I Ht E Nd Tw Nt Sy. set (h0 := upd_tier t (set_t_seq (a ++ b)) h).
  assert (I0 : inv_but lx K nowhere h0) by (apply inv_tier; auto).
  destruct (inv_remove K nowhere h0 p y I0 (nowhere_not p) Sy) as (l1 & l2 & h' & E1 & E2 & S & I').
  exists h', l1, l2. split; [|split; [exact E1|split; [exact S|exact I']]].
  unfold tier_pop. mstep. rewrite contains_in by (rewrite E; apply in_app_iff; simpl; auto). cbn [negb]. mstep.
  rewrite E in *. rewrite twinless_drop; [|exact Tw|apply (NoDup_mid _ _ _ Nd)]. mstep.
  change (remove_superset y h0 = Ok tt h') in E2. rewrite (bind_ok _ _ _ _ _ E2). mstep.
  destruct S as (L & _). assert (R : tob h' t = set_t_seq (a ++ b) (tob h t)).
  { unfold tob. destruct L as (_ & L2 & _). rewrite L2. change (tob h0 t = set_t_seq (a ++ b) (tob h t)). apply tob_upd_eq. auto. }
  rewrite R. rewrite bool_decide_eq_false_2 by exact Nt. reflexivity.
Qed.

Lemma released_tier y op t f h h' : released y op (upd_tier t f h) h' -> released y op h h'.
Proof. intros []. constructor; assumption. Qed.
Lemma seq_truthy_child lx K h p x : inv_but lx K nowhere h -> In x (s_subset (sob h p)) -> seq_truthy h (Some p) = true.
Proof. intros _ Hx. unfold seq_truthy. destruct (s_subset (sob h p)); [destruct Hx|reflexivity]. Qed.

Lemma c31_fused : forall right jn K h p x y t, household K h -> fusible_in right jn h p x y -> tiered h x y t ->
  t_super (tob h t) <> Some cTop ->
  exists h', fuse right jn x h = Ok tt h' /\ absorbed right jn x y h h' /\ tier_loses t y h h' /\ household K h'.
Proof.
  intros right jn K h p x y t Hh Fi (It & Ht & Nd & Hy & Tw) Ntop.
  destruct (child_fusible _ _ _ _ _ _ _ Hh Fi) as (Fu & Hxp & Hyp & Npx & Npy & Sp & Nt).
  pose proof Fi as (Sx & _). pose proof Fu as (_ & Nxy & [Lx Bx] & [Ly By] & _).
  destruct (fuse_grow right jn K h x y Hh Fu) as (h2 & E2 & I2 & G).
  { intros q Hq. assert (q = p) by congruence. subst q. exact Nt. }
  rewrite E2. clear E2. pose proof (gr_rest _ _ _ _ _ _ G) as (R1 & R2 & R3 & R4).
  assert (Tt : tob h2 t = tob h t) by (unfold tob; rewrite R2; reflexivity).
  assert (Sub2 : s_subset (sob h2 p) = s_subset (sob h p)) by (apply (gr_lists _ _ _ _ _ _ G); auto).
  assert (Hyy : ~ In y (s_subset (sob h y)) /\ ~ In x (s_subset (sob h y))).
  { apply household_inv in Hh. split; intros Hz; destruct (t_down _ _ _ (i_tree _ _ _ Hh) y _ (nowhere_not y) Hz) as (_ & A & _).
    - destruct (family _ _ _ _ _ Hh (nowhere_not y) Hz) as (_ & _ & N & _). auto.
    - congruence. }
  assert (Sy2 : s_super (sob h2 y) = Some p).
  { rewrite (gr_super _ _ _ _ _ _ G) by tauto. apply household_inv in Hh.
    apply (t_down _ _ _ (i_tree _ _ _ Hh) p y (nowhere_not p) Hyp). }
  assert (Nv : ~ same_value h2 x y).
  { intros E. apply Nxy. apply (t_twin _ _ _ (i_tree _ _ _ I2) p); auto; try (rewrite Sub2; auto). }
  apply in_split in Hy. destruct Hy as (a & b & Ets).
  pose proof (grown_twinless right jn x y h h2 _ G Ly Nxy By Tw Nv) as Tw2.
  destruct (pop_child _ K h2 t y p a b I2) as (h3 & l1 & l2 & E3 & Es & S3 & I3); rewrite ?Tt; auto.
  { rewrite R2. exact Ht. }
  assert (Rl : released y (Some p) h2 h3).
  { apply (released_tier y (Some p) t (set_t_seq (a ++ b))). eapply cut_released; [apply inv_tier; exact I2|exact Es|exact S3]. }
  assert (Sx3 : s_super (sob h3 x) = Some p).
  { rewrite (rl_super _ _ _ _ Rl) by auto. rewrite (gr_super _ _ _ _ _ _ G) by tauto. exact Sx. }
  assert (Sub3 : s_subset (sob h3 p) = (l1 ++ l2)%list).
  { destruct (rl_list _ _ _ _ Rl p eq_refl) as (a' & b' & A & B). rewrite Es in A. rewrite B.
    pose proof (t_nodup _ _ _ (i_tree _ _ _ I2) p (nowhere_not p)) as Ndp. rewrite Es in Ndp.
    destruct (nodup_split _ _ _ _ _ Ndp A) as [-> ->]. reflexivity. }
  assert (Nl : ~ In y (l1 ++ l2)).
  { pose proof (t_nodup _ _ _ (i_tree _ _ _ I2) p (nowhere_not p)) as Ndp. rewrite Es in Ndp. apply (NoDup_mid _ _ _ Ndp). }
  assert (Cf : sl_contains h3 (s_subset (sob h3 p)) y = false).
  { apply twinless_not_listed; [|rewrite Sub3; exact Nl]. rewrite Sub3. intros z Hz E.
    assert (Hz2 : In z (s_subset (sob h2 p))) by (rewrite Es; apply in_app_iff; apply in_app_iff in Hz; simpl; tauto).
    assert (Hy2 : In y (s_subset (sob h2 p))) by (rewrite Es; apply in_app_iff; simpl; auto).
    apply (t_twin _ _ _ (i_tree _ _ _ I2) p (z) y (nowhere_not p) Hz2 Hy2).
    destruct (family _ _ _ _ _ I2 (nowhere_not p) Hz2) as (_ & Lz2 & _).
    destruct (family _ _ _ _ _ I2 (nowhere_not p) Hy2) as (_ & Ly2 & _).
    destruct (rl_val _ _ _ _ Rl z Lz2) as (A1 & A2 & A3 & A4). destruct (rl_val _ _ _ _ Rl y Ly2) as (B1 & B2 & B3 & B4).
    revert E. unfold same_value, is_point, is_point_cls, issubclass. destruct (rl_rest _ _ _ _ Rl) as (-> & _).
    rewrite A1, A2, A3, A4, B1, B2, B3, B4. auto. }
  exists h3. split.
  { unfold fuse_tail. mstep. mstep. mstep. destruct (gr_x _ _ _ _ _ _ G) as (_ & _ & _ & _ & It2). rewrite It2, It, Tt.
    assert (Tr : (0 <? List.length (t_seq (tob h t)))%nat = true).
    { apply Nat.ltb_lt. rewrite Ets, app_length. simpl. lia. }
    rewrite Tr. cbn [when]. destruct (bool_decide _ && true); [exact E3|].
    rewrite (bind_ok _ _ _ _ _ E3). mstep. rewrite Sx3. mstep. rewrite Cf, andb_false_r. reflexivity. }
  assert (Ch : household K h3).
  { apply (parent_close K h3 (s_super (sob h x)) I3). intros q Hq. assert (q = p) by congruence. subst q. rewrite Sub3. apply S3. }
  split.
  { apply (absorbed_by right jn K h x y h2 h3); auto.
    - rewrite Sx. exact Rl.
    - apply Ch.
    - congruence.
    - congruence.
    - intros q Hq. assert (q = p) by congruence. subst q. exact Sp. }
  split; [|exact Ch].
  destruct S3 as (L & _). destruct L as (_ & L2 & _).
  assert (Tb : forall u, tob h3 u = tob (upd_tier t (set_t_seq (a ++ b)) h2) u) by (intros u; unfold tob; rewrite L2; reflexivity).
  assert (Tt3 : tob h3 t = set_t_seq (a ++ b) (tob h t)).
  { rewrite Tb, tob_upd_eq, Tt; [reflexivity|]. unfold tlive. rewrite R2. exact Ht. }
  split; [exists a, b; rewrite Tt3; auto|]. rewrite Tt3. split; [reflexivity|]. split; [reflexivity|]. split; [reflexivity|].
  split; [reflexivity|]. split; [reflexivity|]. split.
  { rewrite L2. change (List.length (h_tier (upd_tier t (set_t_seq (a ++ b)) h2)) = List.length (h_tier h)). rewrite len_upd_tier, R2. reflexivity. }
  intros u Hu. rewrite Tb, tob_upd_ne by auto. unfold tob. rewrite R2. reflexivity.
Qed.

(** ** Intervals outside any tier *)
Lemma released_cut lx K h p y l1 l2 : inv_but lx K nowhere h -> s_subset (sob h p) = (l1 ++ y :: l2)%list ->
  released y (Some p) h (cut p (l1 ++ l2) y h) /\
  forall i, s_fol (sob (cut p (l1 ++ l2) y h) i) = s_fol (sob h i) /\ s_prev (sob (cut p (l1 ++ l2) y h) i) = s_prev (sob h i).
Proof.
  intros I E. assert (Hy : In y (s_subset (sob h p))) by (rewrite E; apply in_app_iff; simpl; auto).
  destruct (family _ _ _ _ _ I (nowhere_not p) Hy) as (Lp & Ly & N & _).
  assert (V := fun i => cut_view p (l1 ++ l2) y h i Ly Lp N).
  assert (F : forall (A : Type) (g : seqobj -> A) i, (forall l o, g (set_s_subset l o) = g o) -> (forall o, g (clear_super o) = g o) ->
     g (sob (cut p (l1 ++ l2) y h) i) = g (sob h i)).
  { intros A g i G1 G2. unfold cut. transitivity (g (sob (upd_seq p (set_s_subset (l1 ++ l2)) h) i)); apply sob_upd_field; auto. }
  split; [constructor|].
  - unfold cut. rewrite !len_upd_seq. lia.
  - intros i _. repeat split; apply F; auto.
  - intros i Li Ni. exfalso. apply Ni. unfold live, cut in *. rewrite !len_upd_seq in Li. exact Li.
  - destruct (V y) as (-> & _). destruct (decide (y = y)); congruence.
  - intros i Ni. destruct (V i) as (-> & _). destruct (decide (i = y)); congruence.
  - intros q Hq. destruct (V q) as (_ & -> & _). destruct (decide (q = p)); congruence.
  - intros q [= <-]. exists l1, l2. split; [exact E|]. destruct (V p) as (_ & -> & _). destruct (decide (p = p)); congruence.
  - auto.
  - intros i. split; apply F; auto.
Qed.
Lemma c31_loose : forall right jn K h p x y, household K h -> fusible_in right jn h p x y -> s_intier (sob h x) = None ->
  exists h', fuse right jn x h = Ok tt h' /\ absorbed right jn x y h h' /\ h_tier h' = h_tier h /\
    forall q, q <> p -> chained h' (s_subset (sob h' q)).
Proof.
  intros right jn K h p x y Hh Fi It.
  destruct (child_fusible _ _ _ _ _ _ _ Hh Fi) as (Fu & Hxp & Hyp & Npx & Npy & Sp & Nt).
  pose proof Fi as (Sx & _). pose proof Fu as (_ & Nxy & [Lx Bx] & [Ly By] & _).
  destruct (fuse_grow right jn K h x y Hh Fu) as (h2 & E2 & I2 & G).
  { intros q Hq. assert (q = p) by congruence. subst q. exact Nt. }
  rewrite E2. clear E2. pose proof (gr_rest _ _ _ _ _ _ G) as (R1 & R2 & R3 & R4).
  assert (Sub2 : s_subset (sob h2 p) = s_subset (sob h p)) by (apply (gr_lists _ _ _ _ _ _ G); auto).
  assert (Hyy : ~ In x (s_subset (sob h y))).
  { apply household_inv in Hh. intros Hz; destruct (t_down _ _ _ (i_tree _ _ _ Hh) y _ (nowhere_not y) Hz) as (_ & A & _). congruence. }
  rewrite <- Sub2 in Hyp. pose proof (in_split _ _ Hyp) as (l1 & l2 & Es).
  destruct (released_cut _ K h2 p y l1 l2 I2 Es) as [Rl Lk].
  set (h3 := cut p (l1 ++ l2) y h2) in *. exists h3.
  split.
  { unfold fuse_tail. mstep. mstep. mstep. destruct (gr_x _ _ _ _ _ _ G) as (_ & _ & _ & _ & It2). rewrite It2, It.
    rewrite andb_false_r. mstep. mstep. rewrite (gr_super _ _ _ _ _ _ G) by auto. rewrite Sx. mstep.
    rewrite (seq_truthy_child _ _ _ _ _ I2 Hyp), contains_in by auto. cbn [andb when].
    apply (subset_remove_ok _ _ _ _ _ _ _ I2 (nowhere_not p) Es). }
  assert (Ch : forall q, q <> p -> chained h3 (s_subset (sob h3 q))).
  { intros q Hq. rewrite (rl_lists _ _ _ _ Rl) by congruence.
    eapply chained_ext; [intros z _; apply Lk| |apply (i_links _ _ _ I2); [apply nowhere_not|intros A; apply Hq; congruence]].
    intros k Bk. apply (released_boundary _ _ _ _ _ Rl); auto.
    - intros ->. destruct (family _ _ _ _ _ I2 (nowhere_not p) Hyp) as (_ & _ & _ & _ & _ & _ & _ & _ & A). apply A. apply Bk.
    - intros [= <-]. destruct (family _ _ _ _ _ I2 (nowhere_not p) Hyp) as (_ & _ & _ & _ & _ & _ & _ & A & _). apply A. apply Bk. }
  split; [|split; [exact R2|exact Ch]].
  apply (absorbed_by right jn K h x y h2 h3); auto; try congruence.
  intros q Hq. assert (q = p) by congruence. subst q. exact Sp.
Qed.

(** ** Intervals without parent *)
Lemma inv_upds lx K f l h : inert f -> inv_but lx K nowhere h -> inv_but lx K nowhere (upds f l h).
Proof. intros F. revert h. induction l as [|x l IH]; intros h I; simpl; [auto|]. apply IH. apply inv_inert; auto. Qed.
Lemma inv_tier_precedence lx K h t c s : inv_but lx K nowhere h -> tlive h t -> linkable h c (t_seq (tob h t)) ->
  t_super (tob h t) = Some s -> (forall x, In x (t_seq (tob h t)) -> s_super (sob h x) = None) ->
  exists h', tier_precedence t h = Ok tt h' /\ placed t (issubclass h s cTop) (t_seq (tob h t)) h h' /\
    chained h' (t_seq (tob h t)) /\ inv_but lx K nowhere h'.
Proof.
  intros I Ht Hl Hs Np. destruct (tier_precedence_ok h t c s Ht Hl Hs) as (h' & E & P & C). exists h'.
  split; [exact E|]. split; [exact P|]. split; [exact C|].
  destruct Hl as [Nd Al]. destruct (precedence_chained (set_s_intier (Some t)) _ c h (benign_intier _) Nd Al) as (h1 & E1 & L & F & C1).
  assert (I1 : inv_but lx K nowhere h1).
  { set (h0 := upds (set_s_intier (Some t)) (t_seq (tob h t)) h) in *.
    assert (I0 : inv_but lx K nowhere h0) by (apply inv_upds; [intros o; repeat split|exact I]).
    assert (V : forall i, s_subset (sob h0 i) = s_subset (sob h i)).
    { intros i. unfold h0. destruct (in_dec Nat.eq_dec i (t_seq (tob h t))) as [Hi|Hi].
      - rewrite sob_upds_in; [reflexivity|exact Nd|exact Hi|apply Al; auto].
      - rewrite sob_upds_notin by auto. reflexivity. }
    apply (inv_settle K nowhere h0 (t_seq (tob h t))); [apply I0|apply I0| |].
    - split; [exact L|]. split; [|exact C1]. intros i Li Ni. unfold h0. rewrite sob_upds_notin by auto.
      apply F; [|auto]. apply live_upds in Li. exact Li.
    - intros p Hp. right. split; [apply (i_links _ _ _ I0); auto|]. intros z Hz Hz2. rewrite V in Hz2.
      destruct (t_down _ _ _ (i_tree _ _ _ I) p z Hp Hz2) as (_ & A & _). rewrite Np in A by auto. discriminate. }
  revert E. unfold tier_precedence. mstep. rewrite (bind_ok _ _ _ _ _ E1), Hs. unfold issubclass_m. mstep.
  destruct (issubclass h1 s cTop); cbn [when].
  - unfold tier_set_contains. mstep. mstep. rewrite forM_mod_seq. intros [= <-]. apply inv_upds; [intros o; repeat split|].
    apply inv_tier. exact I1.
  - intros [= <-]. exact I1.
Qed.

Lemma placed_released y t b l h h' : placed t b l h h' -> (forall z, In z l -> live h z) -> s_super (sob h y) = None -> released y None h h'.
Proof.
  intros (P1 & P2 & P3 & P4 & P5 & P6 & P7 & _) Lv Sy.
  assert (V : forall i, live h i -> same_but_place (sob h i) (sob h' i)).
  { intros i Li. destruct (in_dec Nat.eq_dec i l) as [Hi|Hi]; [apply P1; auto|]. rewrite P2 by auto. repeat split. }
  assert (W : forall i, s_super (sob h' i) = s_super (sob h i) /\ s_subset (sob h' i) = s_subset (sob h i)).
  { intros i. destruct (decide (live h i)) as [Li|Li]; [destruct (V i Li) as (_ & _ & _ & _ & A & B & _); auto|].
    rewrite (sob_dead h i Li). destruct (decide (live h' i)) as [Li'|Li']; [|rewrite (sob_dead h' i Li'); auto].
    destruct (P4 i) as (_ & A1 & A2 & A3 & A4 & A5); [unfold live in *; lia|]. auto. }
  constructor; auto.
  - intros i Li. destruct (V i Li) as (A & B & C & D & _). auto.
  - intros i L1 L2. apply P4. unfold live in *. lia.
  - destruct (W y) as [-> _]. exact Sy.
  - intros i _. apply W.
  - intros q _. apply W.
  - discriminate.
Qed.
Lemma released_refl y h : s_super (sob h y) = None -> released y None h h.
Proof.
  intros Sy. constructor; auto; try discriminate. intros i A B. contradiction.
Qed.

Lemma c31_top : forall right jn K h t x y, household K h -> fusible_top right jn h t x y ->
  exists h', fuse right jn x h = Ok tt h' /\ absorbed right jn x y h h' /\ tier_loses t y h h' /\ household K h' /\
    (exists l1 l2, t_seq (tob h t) = (l1 ++ beside right [x] [y] ++ l2)%list /\ t_seq (tob h' t) = (l1 ++ x :: l2)%list) /\
    (t_super (tob h t) = Some cTop -> chained h' (t_seq (tob h' t))).
Proof.
  intros right jn K h t x y Hh (It & Ht & Hx & Rt & Ct & Al & Nb & By & Pt & Lb & R).
  assert (Sp : exists l1 l2, t_seq (tob h t) = (l1 ++ beside right [x] [y] ++ l2)%list).
  { unfold neighbour in Nb. destruct right; [apply (chain_next h _ x y Ct)|apply (chain_last h _ x y Ct)]; auto. }
  destruct Sp as (l1 & l2 & Ets).
  assert (Nd := in_row_nodup _ _ Rt).
  assert (Hy : In y (t_seq (tob h t))).
  { rewrite Ets. apply in_app_iff. right. apply in_app_iff. left. apply in_beside. simpl. auto. }
  assert (Nxy : x <> y).
  { intros <-. rewrite Ets in Nd. apply NoDup_app in Nd. destruct Nd as (_ & _ & Nd).
    assert (E2 : beside right [x] [x] = [x; x]) by (destruct right; reflexivity). rewrite E2 in Nd.
    simpl in Nd. apply NoDup_cons in Nd. destruct Nd as [N _]. apply N. left. }
  destruct (Al x Hx) as (Ux & Sx & _). destruct (Al y Hy) as (Uy & Sy & Cy).
  assert (Fu : fusible right jn h x y) by (split; [auto|]; split; [auto|]; split; [auto|]; split; [auto|]; auto).
  destruct (fuse_grow right jn K h x y Hh Fu) as (h2 & E2 & I2 & G); [intros p A; congruence|].
  rewrite E2. clear E2. pose proof (gr_rest _ _ _ _ _ _ G) as (R1 & R2 & R3 & R4).
  assert (Tt : tob h2 t = tob h t) by (unfold tob; rewrite R2; reflexivity).
  assert (Ht2 : tlive h2 t) by (unfold tlive; rewrite R2; exact Ht).
  assert (In2 : household K h2) by (apply (parent_close K h2 _ I2); intros p A; congruence).
  assert (Ns : forall z, In z (t_seq (tob h t)) -> s_super (sob h2 z) = None).
  { intros z Hz. destruct (Al z Hz) as (_ & A & _). rewrite (gr_super _ _ _ _ _ _ G); [exact A|].
    intros Hzy. apply household_inv in Hh. destruct (t_down _ _ _ (i_tree _ _ _ Hh) y z (nowhere_not y) Hzy) as (_ & B & _). congruence. }
  assert (Nv : ~ same_value h2 x y).
  { intros (_ & E1 & _ & E4). destruct (gr_x _ _ _ _ _ _ G) as (X1 & X2 & X3 & _).
    destruct (gr_other _ _ _ _ _ _ G y) as (Y1 & Y2 & Y3 & _); [apply Uy|auto|].
    rewrite X2, Y2 in E1. rewrite X3, Y3 in E4.
    assert (Px : is_point h2 x = false).
    { unfold is_point, is_point_cls, issubclass. rewrite X1, R1. exact Pt. }
    specialize (E4 Px). destruct right; [apply Nxy; apply (in_row_inj h _ x y Rt); auto|].
    destruct Rt as [D Tn].
    destruct (Tn (List.length l1) (S (List.length l1)) y x) as (e & s & A1 & A2 & A3); [lia| | |].
    - rewrite Ets, nth_error_app2, Nat.sub_diag by lia. reflexivity.
    - rewrite Ets, nth_error_app2 by lia. replace (S (List.length l1) - List.length l1)%nat with 1%nat by lia. reflexivity.
    - destruct (D x Hx) as (F1 & F2 & F3). assert (s = fst (span_of h x)) by congruence. assert (e = snd (span_of h x)) by congruence. lia. }
  assert (Sp2 : exists a b, t_seq (tob h t) = (a ++ y :: b)%list /\ (a ++ b)%list = (l1 ++ x :: l2)%list).
  { unfold beside in Ets. destruct right; simpl in Ets.
    - exists (l1 ++ [x])%list, l2. rewrite Ets, <- !app_assoc. auto.
    - exists l1, (x :: l2). auto. }
  destruct Sp2 as (a & b & Eab & Eab2).
  assert (Tw2 : twinless h2 (t_seq (tob h t)) y).
  { apply (grown_twinless right jn x y h h2 _ G); auto; [apply Uy|]. intros z Hz (_ & E & _). apply (in_row_inj h _ z y Rt); auto. }
  set (h3 := upd_tier t (set_t_seq (a ++ b)) h2).
  assert (I3 : inv_but nowhere K nowhere h3) by (apply inv_tier; apply household_inv; exact In2).
  assert (Tt3 : tob h3 t = set_t_seq (a ++ b) (tob h t)) by (unfold h3; rewrite tob_upd_eq, Tt by exact Ht2; reflexivity).
  assert (Sub : forall z, In z (a ++ b) -> In z (t_seq (tob h t))).
  { intros z Hz. rewrite Eab. apply in_app_iff. apply in_app_iff in Hz. simpl. tauto. }
  assert (Lk : linkable h3 (s_cls (sob h x)) (t_seq (tob h3 t))).
  { rewrite Tt3. cbn [set_t_seq t_seq]. split; [rewrite Eab in Nd; apply (NoDup_mid _ _ _ Nd)|].
    intros z Hz. destruct (Al z (Sub z Hz)) as ([A1 A2] & _ & A3). change (sob h3 z) with (sob h2 z).
    change (List.length (h_seq h3)) with (List.length (h_seq h2)). pose proof (gr_len _ _ _ _ _ _ G).
    split; [lia|]. destruct (decide (z = x)) as [->|Nz].
    - destruct (gr_x _ _ _ _ _ _ G) as (-> & _ & _ & -> & _). auto.
    - destruct (gr_other _ _ _ _ _ _ G z A1 Nz) as (-> & _ & _ & -> & _). auto. }
  assert (Pop : exists h4, tier_pop t y h2 = Ok tt h4 /\ inv_but nowhere K nowhere h4 /\ released y None h3 h4 /\
     t_seq (tob h4 t) = (a ++ b)%list /\ (t_super (tob h t) = Some cTop -> chained h4 (a ++ b)) /\
     List.length (h_tier h4) = List.length (h_tier h3) /\ (forall u, u <> t -> tob h4 u = tob h3 u) /\
     (tob h4 t = tob h3 t \/ tob h4 t = set_t_contains CAlias (tob h3 t))).
  { assert (Eq : tier_pop t y h2 = when (bool_decide (t_super (tob h t) = Some cTop)) (tier_precedence t) h3).
    { unfold tier_pop. mstep. rewrite contains_in by (rewrite Tt; exact Hy). cbn [negb]. mstep. rewrite Tt.
      rewrite Eab in *. rewrite twinless_drop; [|exact Tw2|apply (NoDup_mid _ _ _ Nd)]. mstep.
      assert (Er : remove_superset y h3 = Ok tt h3).
      { unfold remove_superset. change (sob h3 y) with (sob h2 y). rewrite Ns by auto. reflexivity. }
      change (upd_tier t (set_t_seq (a ++ b)) h2) with h3. rewrite (bind_ok _ _ _ _ _ Er). mstep. rewrite Tt3. reflexivity. }
    rewrite Eq. assert (Sy3 : s_super (sob h3 y) = None) by (change (sob h3 y) with (sob h2 y); auto).
    destruct (decide (t_super (tob h t) = Some cTop)) as [Top|Top].
    - rewrite bool_decide_eq_true_2 by exact Top. cbn [when].
      destruct (inv_tier_precedence nowhere K h3 t (s_cls (sob h x)) cTop I3) as (h4 & E4 & P4 & C4 & I4).
      + unfold h3, tlive. rewrite len_upd_tier. exact Ht2.
      + exact Lk.
      + rewrite Tt3. exact Top.
      + rewrite Tt3. cbn [set_t_seq t_seq]. intros z Hz. change (sob h3 z) with (sob h2 z). apply Ns. auto.
      + exists h4. split; [exact E4|]. split; [exact I4|].
        split; [eapply placed_released; [exact P4|intros z Hz; apply Lk; exact Hz|exact Sy3]|].
        destruct P4 as (_ & _ & _ & _ & _ & _ & _ & P8 & P9 & P10). rewrite Tt3 in C4. cbn [set_t_seq t_seq] in C4.
        split; [rewrite P10, Tt3; destruct (issubclass h3 cTop cTop); reflexivity|].
        split; [auto|]. split; [auto|]. split; [auto|]. rewrite P10. destruct (issubclass h3 cTop cTop); auto.
    - rewrite bool_decide_eq_false_2 by exact Top. cbn [when]. exists h3. split; [reflexivity|]. split; [exact I3|].
      split; [apply released_refl; exact Sy3|]. split; [rewrite Tt3; reflexivity|]. split; [contradiction|]. auto. }
  destruct Pop as (h4 & E4 & I4 & Rl & Es4 & C4 & L4 & T4 & T4t).
  exists h4. assert (Sx2 : s_super (sob h4 x) = None).
  { rewrite (rl_super _ _ _ _ Rl) by auto. change (sob h3 x) with (sob h2 x). auto. }
  split.
  { unfold fuse_tail. mstep. mstep. mstep. destruct (gr_x _ _ _ _ _ _ G) as (_ & _ & _ & _ & It2). rewrite It2, It, Tt.
    assert (Tr : (0 <? List.length (t_seq (tob h t)))%nat = true).
    { apply Nat.ltb_lt. rewrite Eab, app_length. simpl. lia. }
    rewrite Tr. cbn [when]. destruct (bool_decide _ && true); [exact E4|].
    rewrite (bind_ok _ _ _ _ _ E4). mstep. rewrite Sx2. reflexivity. }
  apply household_inv in I4. split.
  { apply (absorbed_by right jn K h x y h2 h4); auto; try congruence.
    - rewrite Sx. eapply released_tier. exact Rl.
    - apply I4. }
  split.
  { split; [exists a, b; auto|]. assert (Q : forall (A : Type) (g : tierobj -> A), (forall o, g (set_t_contains CAlias o) = g o) ->
       (forall l o, g (set_t_seq l o) = g o) -> g (tob h4 t) = g (tob h t)).
    { intros A g G1 G2. destruct T4t as [-> | ->]; rewrite ?G1, Tt3; apply G2. }
    repeat (split; [apply Q; reflexivity|]). split.
    - rewrite L4. unfold h3. rewrite len_upd_tier, R2. reflexivity.
    - intros u Hu. rewrite T4 by auto. unfold h3. rewrite tob_upd_ne by auto. unfold tob. rewrite R2. reflexivity. }
  split; [exact I4|]. rewrite Es4. split; [exists l1, l2; auto|exact C4].
Qed.

(** ** Where there is nothing to fuse with *)
Lemma c31_boundary : forall right jn h x k, neighbour right h x = Some k -> s_label (sob h k) = "#"%string ->
  fuse right jn x h = Raise PyException h.
Proof.
  intros right jn h x k Nb Hk. unfold fuse. mstep. unfold neighbour in Nb. rewrite Nb. mstep. rewrite Hk. reflexivity.
Qed.
Lemma c31_alone : forall right jn h x, neighbour right h x = None -> fuse right jn x h = Raise AttributeError h.
Proof. intros right jn h x Nb. unfold fuse. mstep. unfold neighbour in Nb. rewrite Nb. reflexivity. Qed.
(** Every history of C15 leads to families in order. *)
Lemma c31_reached : forall K only h, reach K only h -> household K h.
Proof. intros K only h R. apply household_inv. eapply inv_reach; eauto. Qed.
End WithEnv.
