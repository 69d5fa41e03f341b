(** * LinkProofs: fol/prev. *)
From Verif Require Export HeapProofs Spec.
Open Scope Z_scope.

Section WithEnv.
Context `{Env}.

Lemma link_set_eq d v o : link d (set_s_link d v o) = v.
Proof. destruct d; reflexivity. Qed.
Lemma link_set_opp d v o : link (opp d) (set_s_link d v o) = link (opp d) o.
Proof. destruct d; reflexivity. Qed.
Lemma link_set_opp' d v o : link d (set_s_link (opp d) v o) = link d o.
Proof. destruct d; reflexivity. Qed.
Lemma opp_opp d : opp (opp d) = d.
Proof. destruct d; reflexivity. Qed.
Lemma erase_set_link d v o : erase (set_s_link d v o) = erase o.
Proof. destruct d; reflexivity. Qed.
Lemma cls_set_link d v o : s_cls (set_s_link d v o) = s_cls o.
Proof. destruct d; reflexivity. Qed.
Lemma label_set_link d v o : s_label (set_s_link d v o) = s_label o.
Proof. destruct d; reflexivity. Qed.

Lemma links_only_set_link h d x v : live h x -> links_only h (upd_seq x (set_s_link d v) h).
Proof.
  intros Hx. repeat split; simpl; auto.
  - rewrite alter_length. auto.
  - intros i Hi. rewrite sob_upd by auto. destruct (decide (i = x)) as [->|]; [|auto].
    apply erase_set_link.
  - intros i Hi Hn. rewrite live_upd in Hi. contradiction.
Qed.

Definition linked_once (d : dir) (x y : oid) (h h' : heap) : Prop :=
  links_only h h' /\
  List.length (h_seq h') = List.length (h_seq h) /\
  (forall i, i <> x -> i <> y -> sob h' i = sob h i) /\
  link (opp d) (sob h' x) = link (opp d) (sob h x) /\
  link d (sob h' y) = link d (sob h y) /\
  (s_label (sob h x) = "#" -> h' = h) /\
  (s_label (sob h x) <> "#" -> link d (sob h' x) = Some y) /\
  (s_label (sob h x) <> "#" -> link d (sob h x) = Some y -> h' = h) /\
  (s_label (sob h y) = "#" -> sob h' y = sob h y) /\
  (link (opp d) (sob h y) = Some x -> sob h' y = sob h y) /\
  (s_label (sob h x) <> "#" -> s_label (sob h y) <> "#" -> link d (sob h x) <> Some y ->
     link (opp d) (sob h' y) = Some x).

Lemma is_hash_spec s : is_hash s = true <-> s = "#".
Proof. unfold is_hash. apply String.eqb_eq. Qed.

Lemma set_link_ok n d x y h :
  (3 <= n)%nat -> x <> y -> live h x -> live h y -> s_cls (sob h y) = s_cls (sob h x) ->
  exists h', set_link n d x y h = Ok tt h' /\ linked_once d x y h h'.
Proof.
  intros Hn Hne Hx Hy Hc.
  destruct n as [|[|[|n]]]; try lia.
  assert (Hyx : Nat.eqb y x = false) by (apply Nat.eqb_neq; auto).
  assert (Hxy : Nat.eqb x y = false) by (apply Nat.eqb_neq; auto).
  simpl. rewrite Hyx. unfold bind at 1, get_seq, gets.
  destruct (is_hash (s_label (sob h x))) eqn:Eh.
  { apply is_hash_spec in Eh. exists h. split; [reflexivity|].
    repeat split; auto using links_only_refl; try (intros; congruence). }
  assert (Hnh : s_label (sob h x) <> "#").
  { intros E. apply is_hash_spec in E. congruence. }
  case_bool_decide as Hl.
  { exists h. split; [reflexivity|].
    repeat split; auto using links_only_refl; try (intros; congruence). }
  unfold bind at 1. rewrite Hc, Nat.eqb_refl.
  unfold bind at 1, mod_seq, modify.
  rewrite Hxy. unfold bind at 1.
  set (h1 := upd_seq x (set_s_link d (Some y)) h).
  assert (Sy : sob h1 y = sob h y) by (apply sob_upd_ne; auto).
  assert (Sx : sob h1 x = set_s_link d (Some y) (sob h x)) by (apply sob_upd_eq; auto).
  assert (L1 : links_only h h1) by (apply links_only_set_link; auto).
  rewrite Sy.
  destruct (is_hash (s_label (sob h y))) eqn:Ehy.
  { apply is_hash_spec in Ehy. exists h1. split; [reflexivity|].
    split; [auto|]. split; [unfold h1; apply len_upd_seq|].
    repeat split; auto; try (intros; congruence).
    all: intros; rewrite ?Sx, ?Sy; auto using link_set_opp, link_set_eq; unfold h1; rewrite ?sob_upd_ne; auto. }
  assert (Hnhy : s_label (sob h y) <> "#").
  { intros E. apply is_hash_spec in E. congruence. }
  case_bool_decide as Hl2.
  { exists h1. split; [reflexivity|].
    split; [auto|]. split; [unfold h1; apply len_upd_seq|].
    repeat split; auto; try (intros; congruence).
    all: intros; rewrite ?Sx, ?Sy; auto using link_set_opp, link_set_eq; unfold h1; rewrite ?sob_upd_ne; auto. }
  unfold bind at 1. rewrite Sx, cls_set_link, Hc, Nat.eqb_refl.
  unfold bind at 1. unfold bind at 1.
  set (h2 := upd_seq y (set_s_link (opp d) (Some x)) h1).
  assert (Hy1 : live h1 y) by (unfold h1; rewrite live_upd; auto).
  assert (Sx2 : sob h2 x = set_s_link d (Some y) (sob h x)).
  { unfold h2. rewrite sob_upd_ne by auto. auto. }
  assert (Sy2 : sob h2 y = set_s_link (opp d) (Some x) (sob h y)).
  { unfold h2. rewrite sob_upd_eq by auto. rewrite Sy. auto. }
  rewrite Sx2, label_set_link, Eh. rewrite opp_opp, link_set_eq.
  rewrite bool_decide_true by reflexivity.
  exists h2. split; [reflexivity|].
  split; [eapply links_only_trans; [apply L1|]; apply links_only_set_link; auto|].
  split; [unfold h2, h1; rewrite !len_upd_seq; auto|].
  repeat split; auto; try (intros; congruence).
  all: intros; rewrite ?Sx2, ?Sy2; auto using link_set_opp, link_set_opp', link_set_eq; unfold h2, h1; rewrite ?sob_upd_ne; auto.
Qed.

(** Failing calls change nothing. *)
Lemma set_link_self n d x h : set_link (S n) d x x h = Raise PyException h.
Proof. simpl. rewrite Nat.eqb_refl. reflexivity. Qed.
Lemma set_link_class n d x y h :
  x <> y -> s_label (sob h x) <> "#" -> link d (sob h x) <> Some y ->
  s_cls (sob h y) <> s_cls (sob h x) -> set_link (S n) d x y h = Raise PyException h.
Proof.
  intros Hne Hh Hl Hc. simpl.
  rewrite (proj2 (Nat.eqb_neq y x)) by auto. unfold bind, get_seq, gets.
  destruct (is_hash _) eqn:E; [apply is_hash_spec in E; contradiction|].
  rewrite bool_decide_false by auto.
  rewrite (proj2 (Nat.eqb_neq _ _)) by auto. reflexivity.
Qed.

(** A fresh boundary. *)
Lemma set_boundary_ok d x h :
  live h x -> s_label (sob h x) <> "#" ->
  exists h', set_boundary d x h = Ok tt h' /\
    links_only h h' /\
    List.length (h_seq h') = S (List.length (h_seq h)) /\
    (forall i, live h i -> i <> x -> sob h' i = sob h i) /\
    link (opp d) (sob h' x) = link (opp d) (sob h x) /\
    link d (sob h' x) = Some (List.length (h_seq h)).
Proof.
  intros Hx Hh. unfold set_boundary. unfold bind at 1, get_seq, gets.
  unfold bind. rewrite alloc_seq_eq.
  set (b := List.length (h_seq h)).
  set (h1 := push_seq (blank_seq (s_cls (sob h x)) None None "#") h).
  assert (Hx1 : sob h1 x = sob h x) by (apply sob_push_old; auto).
  assert (Hb1 : sob h1 b = blank_seq (s_cls (sob h x)) None None "#") by apply sob_push_new.
  assert (Hxb : x <> b) by (unfold live, b in *; lia).
  destruct (set_link_ok 4 d x b h1) as (h' & E & L & Ln & F & O1 & O2 & _ & K & _ & B & _).
  - lia.
  - auto.
  - apply live_push; auto.
  - apply live_push; auto.
  - rewrite Hb1, Hx1. reflexivity.
  - exists h'. split; [exact E|].
    assert (L0 : links_only h h1).
    { repeat split; simpl; auto.
      - rewrite app_length; lia.
      - intros i Hi. unfold h1. rewrite sob_push_old by auto. reflexivity.
      - intros i Hi Hn. apply live_push in Hi. destruct Hi as [Hi0 | ->]; [contradiction|].
        exists (s_cls (sob h x)). fold h1 b. rewrite Hb1. reflexivity. }
    split; [eapply links_only_trans; eauto|].
    split; [rewrite Ln; unfold h1; simpl; rewrite app_length; simpl; lia|].
    rewrite Hx1 in *.
    split; [|split; auto].
    intros i Hi Hix. rewrite F; auto.
    + apply sob_push_old; auto.
    + intros ->. unfold live, b in *. lia.
Qed.

(** ** The relinking loop *)
Fixpoint upds (f : seqobj -> seqobj) (l : list oid) (h : heap) : heap :=
  match l with [] => h | x :: l' => upds f l' (upd_seq x f h) end.

Lemma live_upds f l h i : live (upds f l h) i <-> live h i.
Proof. revert h; induction l; intros; simpl; [reflexivity|]. rewrite IHl, live_upd. reflexivity. Qed.
Lemma len_upds f l h : List.length (h_seq (upds f l h)) = List.length (h_seq h).
Proof. revert h; induction l; intros; simpl; [reflexivity|]. rewrite IHl, len_upd_seq. reflexivity. Qed.
Lemma sob_upds_notin f l h i : ~ In i l -> sob (upds f l h) i = sob h i.
Proof.
  revert h; induction l; intros h0 Hn; simpl in *; [reflexivity|].
  rewrite IHl by tauto. apply sob_upd_ne. intros ->; tauto.
Qed.
Lemma sob_upds_in f l h i : NoDup l -> In i l -> live h i -> sob (upds f l h) i = f (sob h i).
Proof.
  revert h; induction l as [|a l IH]; intros h0 Hnd Hi Hl; simpl in *; [contradiction|].
  apply NoDup_cons in Hnd. destruct Hnd as [Hna Hnd]. rewrite elem_of_list_In in Hna.
  destruct Hi as [->|Hi].
  - rewrite sob_upds_notin by auto. apply sob_upd_eq; auto.
  - rewrite IH by (rewrite ?live_upd; auto). rewrite sob_upd_ne; auto. intros ->; auto.
Qed.
Lemma links_only_upds h h' f l :
  (forall o, erase (f o) = f (erase o)) -> (forall x, In x l -> live h x) ->
  links_only h h' -> links_only (upds f l h) (upds f l h').
Proof.
  intros Hf. revert h h'; induction l as [|a l IH]; intros h0 h1 Hl L; simpl; [auto|].
  apply IH.
  - intros x Hx. rewrite live_upd. apply Hl; simpl; auto.
  - apply links_only_upd; auto. apply Hl; simpl; auto.
Qed.

(** [f] touches neither links nor class nor label. *)
Definition benign (f : seqobj -> seqobj) : Prop :=
  link_free f /\ (forall o, s_cls (f o) = s_cls o) /\ (forall o, s_label (f o) = s_label o).

Fixpoint fwd (h : heap) (l : list oid) : Prop :=
  match l with
  | a :: ((b :: _) as r) => s_fol (sob h a) = Some b /\ s_prev (sob h b) = Some a /\ fwd h r
  | _ => True
  end.

Lemma last_indep {A} (x : A) l a b : List.last (x :: l) a = List.last (x :: l) b.
Proof. revert x; induction l as [|y l IH]; intros x; [reflexivity|]. apply (IH y). Qed.

Definition prev_target (h : heap) (prev : option oid) (v : option oid) (h' : heap) : Prop :=
  match prev with
  | Some q => v = Some q
  | None => exists k, v = Some k /\ ~ live h k /\ live h' k
  end.

Lemma links_only_same h h' x : links_only h h' -> live h x ->
  s_cls (sob h' x) = s_cls (sob h x) /\ s_label (sob h' x) = s_label (sob h x).
Proof.
  intros (_ & _ & _ & _ & _ & F & _) Hx. destruct (erase_fields _ _ (F x Hx)); intuition congruence.
Qed.

Lemma precedence_ok f l : benign f -> forall h prev c,
  NoDup l -> (forall x, In x l -> live h x /\ s_cls (sob h x) = c /\ s_label (sob h x) <> "#") ->
  (forall q, prev = Some q ->
     ~ In q l /\ live h q /\ s_cls (sob h q) = c /\ s_label (sob h q) <> "#" /\
     match l with p :: _ => s_fol (sob h q) = Some p | [] => True end) ->
  exists h', precedence (fun x => mod_seq x f) prev l h = Ok tt h' /\
    links_only (upds f l h) h' /\
    (forall i, live h i -> ~ In i l -> sob h' i = sob h i) /\
    fwd h' l /\
    match l with
    | [] => True
    | p :: _ => prev_target h prev (s_prev (sob h' p)) h' /\
                exists k, s_fol (sob h' (List.last l p)) = Some k /\ ~ live h k /\ live h' k
    end.
Proof.
  intros (Hf & Hfc & Hfl). induction l as [|p rest IH]; intros h prev c Hnd Hall Hprev.
  { exists h. split; [reflexivity|]. split; [apply links_only_refl|]. split; [auto|]. split; exact I. }
  apply NoDup_cons in Hnd. destruct Hnd as [Hpn Hnd]. rewrite elem_of_list_In in Hpn.
  destruct (Hall p) as (Hp & Hpc & Hpl); [simpl; auto|].
  cbn [precedence]. unfold bind at 1, mod_seq, modify.
  set (h1 := upd_seq p f h).
  assert (S1 : sob h1 p = f (sob h p)) by (apply sob_upd_eq; auto).
  assert (N1 : forall i, i <> p -> sob h1 i = sob h i) by (intros; apply sob_upd_ne; auto).
  assert (Lv1 : forall i, live h1 i <-> live h i) by (intros; unfold h1; apply live_upd).
  (* prev part *)
  assert (P : exists h2,
     (match prev with None => set_initial p | Some q => set_prev p q end) h1 = Ok tt h2 /\
     links_only h1 h2 /\
     (forall i, live h i -> i <> p -> sob h2 i = sob h1 i) /\
     prev_target h prev (s_prev (sob h2 p)) h2).
  { destruct prev as [q|].
    - destruct (Hprev q eq_refl) as (Hqn & Hq & Hqc & Hql & Hqf). simpl in Hqn.
      assert (Hqp : q <> p) by (intros ->; tauto).
      destruct (set_link_ok 4 Prev p q h1) as (h2 & E & L & Ln & F & O1 & O2 & _ & K & _ & B & B2 & _).
      + lia.
      + auto.
      + apply Lv1; auto.
      + apply Lv1; auto.
      + rewrite S1, Hfc, (N1 q Hqp). congruence.
      + exists h2. split; [exact E|]. split; [auto|]. split.
        * intros i Hi Hip. destruct (decide (i = q)) as [->|Hiq]; [|apply F; auto].
          apply B2. simpl. rewrite (N1 q Hqp). exact Hqf.
        * simpl. apply K. rewrite S1, Hfl. auto.
    - destruct (set_boundary_ok Prev p h1) as (h2 & E & L & Ln & F & O & K).
      + apply Lv1; auto.
      + rewrite S1, Hfl. auto.
      + exists h2. split; [exact E|]. split; [auto|]. split.
        * intros i Hi Hip. apply F; auto. apply Lv1; auto.
        * simpl. exists (List.length (h_seq h1)). split; [exact K|].
          unfold live. rewrite Ln. unfold h1. rewrite len_upd_seq. lia. }
  destruct P as (h2 & E2 & L2 & F2 & T2).
  rewrite (bind_ok _ _ _ _ _ E2).
  assert (Lv2 : forall i, live h i -> live h2 i).
  { intros i Hi. eapply links_only_live; eauto. apply Lv1; auto. }
  destruct (links_only_same h1 h2 p L2) as [Pc2 Pl2]; [apply Lv1; auto|].
  rewrite S1, Hfc in Pc2. rewrite S1, Hfl in Pl2.
  (* fol part *)
  destruct rest as [|r rest'].
  - destruct (set_boundary_ok Fol p h2) as (h3 & E & L & Ln & F & O & K).
    + apply Lv2; auto.
    + congruence.
    + unfold set_final. rewrite (bind_ok _ _ _ _ _ E). simpl.
      exists h3. split; [reflexivity|].
      split; [eapply links_only_trans; eauto|].
      split; [|split; [exact I|split]].
      * intros i Hi Hn. assert (Hip : i <> p) by (intros ->; apply Hn; simpl; auto). rewrite F by auto. rewrite F2 by auto. apply N1; auto.
      * simpl in O. destruct prev as [q|]; simpl in *; [congruence|].
        destruct T2 as (k & T2a & T2b & T2c). exists k. split; [congruence|]. split; [auto|].
        eapply links_only_live; eauto.
      * exists (List.length (h_seq h2)). split; [exact K|].
        assert (Hle : (List.length (h_seq h) <= List.length (h_seq h2))%nat).
        { destruct L2 as (_ & _ & _ & _ & Hle & _). unfold h1 in Hle. rewrite len_upd_seq in Hle. auto. }
        unfold live. rewrite Ln. lia.
  - destruct (Hall r) as (Hr & Hrc & Hrl); [simpl; auto|].
    assert (Hrp : r <> p) by (intros ->; simpl in Hpn; tauto).
    assert (Sr2 : sob h2 r = sob h r) by (rewrite F2, N1; auto).
    destruct (set_link_ok 4 Fol p r h2) as (h3 & E & L & Ln & F & O1 & O2 & _ & K & _ & _ & _).
    + lia.
    + auto.
    + apply Lv2; auto.
    + apply Lv2; auto.
    + rewrite Sr2. congruence.
    + unfold set_fol. rewrite (bind_ok _ _ _ _ _ E).
      assert (L13 : links_only h1 h3) by (eapply links_only_trans; eauto).
      assert (Lv3 : forall i, live h i -> live h3 i).
      { intros i Hi. eapply links_only_live; [exact L13|apply Lv1; auto]. }
      destruct (links_only_same h2 h3 p L) as [Pc3 Pl3]; [apply Lv2; auto|].
      destruct (IH h3 (Some p) c) as (h' & E' & L' & F' & W' & T' & (k & Kl & Kn & Kv)).
      * auto.
      * intros x Hx. destruct (Hall x) as (Hlx & Hcx & Hlbx); [simpl; auto|].
        assert (Hxp : x <> p) by (intros ->; auto).
        destruct (links_only_same h1 h3 x L13) as [C3 B3]; [apply Lv1; auto|].
        rewrite (N1 x Hxp) in C3, B3.
        split; [apply Lv3; auto|]. split; congruence.
      * intros q [= <-]. split; [auto|]. split; [apply Lv3; auto|]. split; [congruence|].
        split; [congruence|]. simpl in K. apply K. congruence.
      * exists h'. split; [exact E'|].
        assert (LL : links_only (upds f (p :: r :: rest') h) h').
        { eapply links_only_trans; [|exact L'].
          change (links_only (upds f (r :: rest') h1) (upds f (r :: rest') h3)).
          apply links_only_upds; [apply Hf| |auto].
          intros x Hx. apply Lv1. apply Hall. simpl; simpl in Hx; tauto. }
        split; [exact LL|].
        assert (Sp : sob h' p = sob h3 p) by (apply F'; [apply Lv3; auto|exact Hpn]).
        split.
        { intros i Hi Hn. assert (i <> p /\ i <> r) as [Hip Hir].
          { split; intros ->; apply Hn; simpl; auto. }
          rewrite F'; [|apply Lv3; auto|simpl in *; tauto].
          rewrite F by auto. rewrite F2 by auto. apply N1; auto. }
        split.
        { change (s_fol (sob h' p) = Some r /\ s_prev (sob h' r) = Some p /\ fwd h' (r :: rest')).
          split; [rewrite Sp; simpl in K; apply K; congruence|]. split; [exact T'|exact W']. }
        split.
        { rewrite Sp. simpl in O1. rewrite O1. destruct prev as [q|]; simpl in *; [auto|].
          destruct T2 as (k' & A1 & A2 & A3). exists k'. split; [auto|]. split; [auto|].
          eapply links_only_live; [exact L'|]. apply live_upds, live_upd. eapply links_only_live; [exact L|auto]. }
        { exists k. split.
          - change (List.last (p :: r :: rest') p) with (List.last (r :: rest') p).
            rewrite <- Kl. do 2 f_equal. apply last_indep.
          - split; [|exact Kv]. intros Hk. apply Kn. apply Lv3; auto. }
Qed.

Lemma fwd_nth h l : fwd h l -> forall i a b,
  nth_error l i = Some a -> nth_error l (S i) = Some b ->
  s_fol (sob h a) = Some b /\ s_prev (sob h b) = Some a.
Proof.
  induction l as [|x l IH]; intros Hf i a b Ha Hb; [destruct i; discriminate|].
  destruct l as [|y l]; [destruct i as [|[|i]]; discriminate|].
  destruct Hf as (A & B & C). destruct i as [|i].
  - simpl in *. injection Ha as <-. injection Hb as <-. auto.
  - apply (IH C i); auto.
Qed.

Lemma nth_error_last {A} (l : list A) d a :
  nth_error l (List.length l - 1) = Some a -> List.last l d = a.
Proof.
  induction l as [|x l IH]; simpl; [discriminate|].
  destruct l as [|y l]; simpl in *; [congruence|].
  rewrite Nat.sub_0_r in *. auto.
Qed.

Lemma boundary_is_boundary h k : live h k -> boundary_obj (sob h k) -> is_boundary h k.
Proof.
  intros Hl [c Hc]. change (blank_seq c None None "#") with (erase (blank_seq c None None "#")) in Hc.
  apply erase_fields in Hc. unfold is_boundary. intuition.
Qed.

(** The loop from scratch: everything a caller sees. *)
Lemma precedence_chained f l c h : benign f -> NoDup l ->
  (forall x, In x l -> live h x /\ s_cls (sob h x) = c /\ s_label (sob h x) <> "#") ->
  exists h', precedence (fun x => mod_seq x f) None l h = Ok tt h' /\
    links_only (upds f l h) h' /\
    (forall i, live h i -> ~ In i l -> sob h' i = sob h i) /\
    chained h' l.
Proof.
  intros Hf Hnd Hall.
  destruct (precedence_ok f l Hf h None c Hnd Hall) as (h' & E & L & F & W & T).
  { intros q Hq; discriminate. }
  exists h'. repeat split; auto; try apply L.
  - eapply fwd_nth; eauto.
  - eapply fwd_nth; eauto.
  - intros a Ha. destruct l as [|p l]; [discriminate|]. simpl in Ha. injection Ha as <-.
    destruct T as ((k & A & B & C) & _). exists k. split; [auto|].
    apply boundary_is_boundary; auto. destruct L as (_ & _ & _ & _ & _ & _ & G).
    apply G; auto. rewrite live_upds. auto.
  - intros a Ha. destruct l as [|p l]; [discriminate|].
    destruct T as (_ & (k & A & B & C)). rewrite (nth_error_last _ _ _ Ha) in A.
    exists k. split; [auto|]. apply boundary_is_boundary; auto.
    destruct L as (_ & _ & _ & _ & _ & _ & G). apply G; auto. rewrite live_upds. auto.
Qed.

Lemma benign_id : benign (fun o => o).
Proof. repeat split. Qed.
Lemma benign_intier t : benign (set_s_intier t).
Proof. repeat split. Qed.

Lemma upds_id l h : upds (fun o => o) l h = h.
Proof. revert h; induction l; intros; simpl; [auto|]. rewrite upd_seq_id. auto. Qed.

Lemma precedence_ret prev l h :
  precedence (fun _ => ret tt) prev l h = precedence (fun x => mod_seq x (fun o => o)) prev l h.
Proof.
  revert prev h; induction l as [|p l IH]; intros prev h; [reflexivity|].
  cbn [precedence]. unfold bind, ret, mod_seq, modify. rewrite upd_seq_id.
  destruct (match prev with None => set_initial p | Some q => set_prev p q end h) as [u h1|]; [|reflexivity].
  destruct (match l with [] => set_final p | r :: _ => set_fol p r end h1) as [u2 h2|]; [|reflexivity].
  apply IH.
Qed.

Lemma set_subset_precedence_ok s c h :
  NoDup (s_subset (sob h s)) ->
  (forall x, In x (s_subset (sob h s)) -> live h x /\ s_cls (sob h x) = c /\ s_label (sob h x) <> "#") ->
  exists h', set_subset_precedence s h = Ok tt h' /\ links_only h h' /\
    (forall i, live h i -> ~ In i (s_subset (sob h s)) -> sob h' i = sob h i) /\
    chained h' (s_subset (sob h s)).
Proof.
  intros Hnd Hall. unfold set_subset_precedence, bind, get_seq, gets.
  rewrite precedence_ret.
  destruct (precedence_chained (fun o => o) _ c h benign_id Hnd Hall) as (h' & E & L & F & C).
  exists h'. rewrite upds_id in L. auto.
Qed.

End WithEnv.
