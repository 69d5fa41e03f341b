(** * HeapProofs: reading back what was written; the monad; frame relations. *)
From Verif Require Export GridOps.
Open Scope Z_scope.

Definition live (h : heap) (i : oid) : Prop := (i < List.length (h_seq h))%nat.
Definition tlive (h : heap) (i : tid) : Prop := (i < List.length (h_tier h))%nat.
Definition glive (h : heap) (i : gid) : Prop := (i < List.length (h_grp h))%nat.
Definition alive (h : heap) (i : aid) : Prop := (i < List.length (h_grid h))%nat.
Definition clive (h : heap) (i : cid) : Prop := (i < List.length (h_cls h))%nat.

#[global] Instance live_dec h i : Decision (live h i).
Proof. unfold live. apply _. Defined.

(** ** Reading after writing *)
Lemma default_alter {A} (d : A) f i l j :
  default d (alter f i l !! j) =
  if decide (j = i) then (if decide (i < List.length l)%nat then f (default d (l !! i)) else d)
  else default d (l !! j).
Proof.
  destruct (decide (j = i)) as [->|Hne].
  - rewrite list_lookup_alter. destruct (decide _) as [Hl|Hl].
    + destruct (lookup_lt_is_Some_2 l i Hl) as [x Hx]. rewrite Hx. reflexivity.
    + rewrite (lookup_ge_None_2 l i); [reflexivity|]. lia.
  - rewrite list_lookup_alter_ne; auto.
Qed.

Lemma sob_upd h i f j : live h i ->
  sob (upd_seq i f h) j = if decide (j = i) then f (sob h i) else sob h j.
Proof.
  unfold live, sob, upd_seq; simpl; intros Hl. rewrite default_alter.
  destruct (decide (j = i)); [|reflexivity]. destruct (decide _); [reflexivity|contradiction].
Qed.
Lemma sob_upd_eq h i f : live h i -> sob (upd_seq i f h) i = f (sob h i).
Proof. intros. rewrite sob_upd by auto. destruct (decide (i = i)); congruence. Qed.
Lemma sob_upd_ne h i f j : j <> i -> sob (upd_seq i f h) j = sob h j.
Proof. intros. unfold sob, upd_seq; simpl. rewrite list_lookup_alter_ne; auto. Qed.
Lemma tob_upd h i f j : tlive h i ->
  tob (upd_tier i f h) j = if decide (j = i) then f (tob h i) else tob h j.
Proof.
  unfold tlive, tob, upd_tier; simpl; intros Hl. rewrite default_alter.
  destruct (decide (j = i)); [|reflexivity]. destruct (decide _); [reflexivity|contradiction].
Qed.
Lemma tob_upd_eq h i f : tlive h i -> tob (upd_tier i f h) i = f (tob h i).
Proof. intros. rewrite tob_upd by auto. destruct (decide (i = i)); congruence. Qed.
Lemma tob_upd_ne h i f j : j <> i -> tob (upd_tier i f h) j = tob h j.
Proof. intros. unfold tob, upd_tier; simpl. rewrite list_lookup_alter_ne; auto. Qed.
Lemma gob_upd h i f j : glive h i ->
  gob (upd_grp i f h) j = if decide (j = i) then f (gob h i) else gob h j.
Proof.
  unfold glive, gob, upd_grp; simpl; intros Hl. rewrite default_alter.
  destruct (decide (j = i)); [|reflexivity]. destruct (decide _); [reflexivity|contradiction].
Qed.
Lemma gob_upd_eq h i f : glive h i -> gob (upd_grp i f h) i = f (gob h i).
Proof. intros. rewrite gob_upd by auto. destruct (decide (i = i)); congruence. Qed.
Lemma gob_upd_ne h i f j : j <> i -> gob (upd_grp i f h) j = gob h j.
Proof. intros. unfold gob, upd_grp; simpl. rewrite list_lookup_alter_ne; auto. Qed.
Lemma cob_upd h i f j : clive h i ->
  cob (upd_cls i f h) j = if decide (j = i) then f (cob h i) else cob h j.
Proof.
  unfold clive, cob, upd_cls; simpl; intros Hl. rewrite default_alter.
  destruct (decide (j = i)); [|reflexivity]. destruct (decide _); [reflexivity|contradiction].
Qed.
Lemma cob_upd_eq h i f : clive h i -> cob (upd_cls i f h) i = f (cob h i).
Proof. intros. rewrite cob_upd by auto. destruct (decide (i = i)); congruence. Qed.
Lemma cob_upd_ne h i f j : j <> i -> cob (upd_cls i f h) j = cob h j.
Proof. intros. unfold cob, upd_cls; simpl. rewrite list_lookup_alter_ne; auto. Qed.

Lemma len_upd_seq h i f : List.length (h_seq (upd_seq i f h)) = List.length (h_seq h).
Proof. unfold upd_seq; simpl. apply alter_length. Qed.
Lemma len_upd_tier h i f : List.length (h_tier (upd_tier i f h)) = List.length (h_tier h).
Proof. unfold upd_tier; simpl. apply alter_length. Qed.
Lemma len_upd_grp h i f : List.length (h_grp (upd_grp i f h)) = List.length (h_grp h).
Proof. unfold upd_grp; simpl. apply alter_length. Qed.
Lemma len_upd_cls h i f : List.length (h_cls (upd_cls i f h)) = List.length (h_cls h).
Proof. unfold upd_cls; simpl. apply alter_length. Qed.
Lemma live_upd h i f j : live (upd_seq i f h) j <-> live h j.
Proof. unfold live. rewrite len_upd_seq. reflexivity. Qed.
Lemma tlive_upd h i f j : tlive (upd_tier i f h) j <-> tlive h j.
Proof. unfold tlive. rewrite len_upd_tier. reflexivity. Qed.

Lemma upd_seq_id h i : upd_seq i (fun o => o) h = h.
Proof.
  unfold upd_seq. destruct h as [a b c d e]; simpl. f_equal.
  apply list_eq. intros j. destruct (decide (j = i)) as [->|Hne].
  - rewrite list_lookup_alter. destruct (b !! i); reflexivity.
  - rewrite list_lookup_alter_ne; auto.
Qed.

(** A new object. *)
Definition push_seq (o : seqobj) (h : heap) : heap :=
  Heap (h_cls h) (h_seq h ++ [o])%list (h_tier h) (h_grp h) (h_grid h).
Lemma alloc_seq_eq o h : alloc_seq o h = Ok (List.length (h_seq h)) (push_seq o h).
Proof. reflexivity. Qed.
Lemma sob_push_old h o i : live h i -> sob (push_seq o h) i = sob h i.
Proof. unfold sob, push_seq, live; simpl. intros. rewrite lookup_app_l; auto. Qed.
Lemma sob_push_new h o : sob (push_seq o h) (List.length (h_seq h)) = o.
Proof. unfold sob, push_seq; simpl. rewrite list_lookup_middle; auto. Qed.
Lemma live_push h o i : live (push_seq o h) i <-> live h i \/ i = List.length (h_seq h).
Proof. unfold live, push_seq; simpl. rewrite app_length; simpl. lia. Qed.

Definition push_tier (o : tierobj) (h : heap) : heap :=
  Heap (h_cls h) (h_seq h) (h_tier h ++ [o])%list (h_grp h) (h_grid h).
Lemma alloc_tier_eq o h : alloc_tier o h = Ok (List.length (h_tier h)) (push_tier o h).
Proof. reflexivity. Qed.
Lemma tob_push_old h o i : tlive h i -> tob (push_tier o h) i = tob h i.
Proof. unfold tob, push_tier, tlive; simpl. intros. rewrite lookup_app_l; auto. Qed.
Lemma tob_push_new h o : tob (push_tier o h) (List.length (h_tier h)) = o.
Proof. unfold tob, push_tier; simpl. rewrite list_lookup_middle; auto. Qed.

Definition push_grp (o : grpobj) (h : heap) : heap :=
  Heap (h_cls h) (h_seq h) (h_tier h) (h_grp h ++ [o])%list (h_grid h).
Lemma alloc_grp_eq o h : alloc_grp o h = Ok (List.length (h_grp h)) (push_grp o h).
Proof. reflexivity. Qed.
Lemma gob_push_old h o i : glive h i -> gob (push_grp o h) i = gob h i.
Proof. unfold gob, push_grp, glive; simpl. intros. rewrite lookup_app_l; auto. Qed.
Lemma gob_push_new h o : gob (push_grp o h) (List.length (h_grp h)) = o.
Proof. unfold gob, push_grp; simpl. rewrite list_lookup_middle; auto. Qed.

Definition push_cls (o : clsobj) (h : heap) : heap :=
  Heap (h_cls h ++ [o])%list (h_seq h) (h_tier h) (h_grp h) (h_grid h).
Lemma alloc_cls_eq o h : alloc_cls o h = Ok (List.length (h_cls h)) (push_cls o h).
Proof. reflexivity. Qed.
Lemma cob_push_old h o i : clive h i -> cob (push_cls o h) i = cob h i.
Proof. unfold cob, push_cls, clive; simpl. intros. rewrite lookup_app_l; auto. Qed.
Lemma cob_push_new h o : cob (push_cls o h) (List.length (h_cls h)) = o.
Proof. unfold cob, push_cls; simpl. rewrite list_lookup_middle; auto. Qed.

(** ** Stepping through the monad *)
Lemma bind_ok {A B} (m : M A) (k : A -> M B) h a h' :
  m h = Ok a h' -> bind m k h = k a h'.
Proof. unfold bind. intros ->. reflexivity. Qed.
Lemma bind_raise {A B} (m : M A) (k : A -> M B) h e h' :
  m h = Raise e h' -> bind m k h = Raise e h'.
Proof. unfold bind. intros ->. reflexivity. Qed.
Lemma bind_inv {A B} (m : M A) (k : A -> M B) h b h' :
  bind m k h = Ok b h' -> exists a h1, m h = Ok a h1 /\ k a h1 = Ok b h'.
Proof. unfold bind. destruct (m h) eqn:E; [eauto|discriminate]. Qed.
Lemma bind_inv_raise {A B} (m : M A) (k : A -> M B) h e h' :
  bind m k h = Raise e h' ->
  m h = Raise e h' \/ exists a h1, m h = Ok a h1 /\ k a h1 = Raise e h'.
Proof. unfold bind. destruct (m h) eqn:E; [eauto|]. intros; left; congruence. Qed.

Lemma bind_gets {A B} (f : heap -> A) (k : A -> M B) h : bind (gets f) k h = k (f h) h.
Proof. reflexivity. Qed.
Lemma bind_get_seq {B} i (k : seqobj -> M B) h : bind (get_seq i) k h = k (sob h i) h.
Proof. reflexivity. Qed.
Lemma bind_get_tier {B} i (k : tierobj -> M B) h : bind (get_tier i) k h = k (tob h i) h.
Proof. reflexivity. Qed.
Lemma bind_get_grp {B} i (k : grpobj -> M B) h : bind (get_grp i) k h = k (gob h i) h.
Proof. reflexivity. Qed.
Lemma bind_get_cls {B} i (k : clsobj -> M B) h : bind (get_cls i) k h = k (cob h i) h.
Proof. reflexivity. Qed.
Lemma bind_ret {A B} (a : A) (k : A -> M B) h : bind (ret a) k h = k a h.
Proof. reflexivity. Qed.
Lemma bind_mod_seq {B} i f (k : unit -> M B) h : bind (mod_seq i f) k h = k tt (upd_seq i f h).
Proof. reflexivity. Qed.
Lemma bind_mod_tier {B} i f (k : unit -> M B) h : bind (mod_tier i f) k h = k tt (upd_tier i f h).
Proof. reflexivity. Qed.
Lemma bind_mod_grp {B} i f (k : unit -> M B) h : bind (mod_grp i f) k h = k tt (upd_grp i f h).
Proof. reflexivity. Qed.
Lemma bind_mod_cls {B} i f (k : unit -> M B) h : bind (mod_cls i f) k h = k tt (upd_cls i f h).
Proof. reflexivity. Qed.
Lemma bind_alloc_seq {B} o (k : nat -> M B) h :
  bind (alloc_seq o) k h = k (List.length (h_seq h)) (push_seq o h).
Proof. reflexivity. Qed.
Lemma bind_alloc_tier {B} o (k : nat -> M B) h :
  bind (alloc_tier o) k h = k (List.length (h_tier h)) (push_tier o h).
Proof. reflexivity. Qed.
Lemma bind_alloc_cls {B} o (k : nat -> M B) h :
  bind (alloc_cls o) k h = k (List.length (h_cls h)) (push_cls o h).
Proof. reflexivity. Qed.
Lemma bind_assoc {A B C} (m : M A) (k : A -> M B) (k' : B -> M C) h :
  bind (bind m k) k' h = bind m (fun a => bind (k a) k') h.
Proof. unfold bind. destruct (m h); reflexivity. Qed.
(** One visible step. *)
Ltac mstep := first
  [ rewrite bind_gets | rewrite bind_get_seq | rewrite bind_get_tier | rewrite bind_get_grp
  | rewrite bind_get_cls | rewrite bind_ret | rewrite bind_mod_seq | rewrite bind_mod_tier
  | rewrite bind_mod_grp | rewrite bind_mod_cls | rewrite bind_alloc_seq | rewrite bind_alloc_tier
  | rewrite bind_alloc_cls | rewrite bind_assoc ].

Lemma forM_app {A} (xs ys : list A) f h :
  forM (xs ++ ys) f h = bind (forM xs f) (fun _ => forM ys f) h.
Proof.
  revert h; induction xs as [|x xs IH]; intros h; simpl; [reflexivity|].
  unfold bind at 1 2 3. destruct (f x h); [|reflexivity].
  rewrite IH. reflexivity.
Qed.

(** ** Link-insensitive view of objects *)
Definition erase (o : seqobj) : seqobj := set_s_fol None (set_s_prev None o).
Definition boundary_obj (o : seqobj) : Prop :=
  exists c, erase o = blank_seq c None None "#".

(** [links_only h h']: from [h] to [h'] nothing happened except changes of
    fol/prev and creation of boundary objects. *)
Definition links_only (h h' : heap) : Prop :=
  h_cls h' = h_cls h /\ h_tier h' = h_tier h /\ h_grp h' = h_grp h /\ h_grid h' = h_grid h /\
  (List.length (h_seq h) <= List.length (h_seq h'))%nat /\
  (forall i, live h i -> erase (sob h' i) = erase (sob h i)) /\
  (forall i, live h' i -> ~ live h i -> boundary_obj (sob h' i)).

Lemma links_only_refl h : links_only h h.
Proof. repeat split; auto. intros; contradiction. Qed.
Lemma links_only_trans h1 h2 h3 : links_only h1 h2 -> links_only h2 h3 -> links_only h1 h3.
Proof.
  intros (A1 & B1 & C1 & D1 & E1 & F1 & G1) (A2 & B2 & C2 & D2 & E2 & F2 & G2).
  repeat split; try congruence; try lia.
  - intros i Hi. rewrite F2, F1; auto. unfold live in *; lia.
  - intros i Hi Hn. destruct (decide (live h2 i)) as [Hl|Hl].
    + destruct (G1 i Hl Hn) as [c Hc]. exists c. rewrite F2; auto.
    + apply G2; auto.
Qed.
Lemma links_only_live h h' i : links_only h h' -> live h i -> live h' i.
Proof. intros (_ & _ & _ & _ & E & _) Hl. unfold live in *. lia. Qed.

(** A function on objects that ignores and preserves links. *)
Definition link_free (f : seqobj -> seqobj) : Prop :=
  (forall o, erase (f o) = f (erase o)) /\ (forall o, s_fol (f o) = s_fol o) /\ (forall o, s_prev (f o) = s_prev o).

Lemma links_only_upd h h' i f :
  (forall o, erase (f o) = f (erase o)) ->
  live h i -> links_only h h' -> links_only (upd_seq i f h) (upd_seq i f h').
Proof.
  intros Hf Hi L. pose proof (links_only_live _ _ _ L Hi) as Hi'.
  destruct L as (A & B & C & D & E & F & G).
  repeat split; simpl; auto.
  - rewrite !alter_length. auto.
  - intros j Hj. rewrite live_upd in Hj. rewrite !sob_upd by auto.
    destruct (decide (j = i)) as [->|]; [rewrite !Hf, F by auto|]; auto.
  - intros j Hj Hn. rewrite live_upd in Hj, Hn. rewrite sob_upd by auto.
    destruct (decide (j = i)) as [->|]; [contradiction|auto].
Qed.

Lemma erase_fields o o' : erase o = erase o' ->
  s_cls o = s_cls o' /\ s_start o = s_start o' /\ s_end o = s_end o' /\ s_label o = s_label o' /\
  s_super o = s_super o' /\ s_subset o = s_subset o' /\ s_subec o = s_subec o' /\
  s_intier o = s_intier o' /\ s_within o = s_within o' /\ s_contains o = s_contains o'.
Proof.
  intros Heq. destruct o, o'. unfold erase, set_s_fol, set_s_prev in Heq; simpl in *.
  injection Heq. intros. repeat split; assumption.
Qed.
