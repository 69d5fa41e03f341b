(** * OwnFinal: a grid works with its own copies of the classes (C38). *)
From Verif Require Export CalmProofs ClassFinal OwnSpec.
From Verif Require Import GridOps TierFinal.
From Coq Require Import RelationClasses.
Open Scope Z_scope.

(** ** Operations under a relation between the states before and after, however they end *)
Definition under (R : heap -> heap -> Prop) {A} (m : M A) : Prop := forall h, R h (heap_of (m h)).

Section Under.
Context (R : heap -> heap -> Prop) {P : PreOrder R}.
Lemma under_read {A} (m : M A) : (forall h, heap_of (m h) = h) -> under R m.
Proof. intros K h. rewrite K. reflexivity. Qed.
Lemma under_ret {A} (a : A) : under R (ret a).
Proof. apply under_read. reflexivity. Qed.
Lemma under_raise {A} e : under R (@raise A e).
Proof. apply under_read. reflexivity. Qed.
Lemma under_gets {A} (f : heap -> A) : under R (gets f).
Proof. apply under_read. reflexivity. Qed.
Lemma under_bind {A B} (m : M A) (k : A -> M B) : under R m -> (forall a, under R (k a)) -> under R (bind m k).
Proof.
  intros Hm Hk h. specialize (Hm h). unfold bind. destruct (m h) as [a h1|e h1]; simpl in *; [|exact Hm].
  etransitivity; [exact Hm|apply Hk].
Qed.
Lemma under_when b m : under R m -> under R (when b m).
Proof. destruct b; simpl; [auto|intros; apply under_ret]. Qed.
Lemma under_forM {A} (l : list A) f : (forall a, In a l -> under R (f a)) -> under R (forM l f).
Proof.
  induction l as [|x l IH]; intros K; simpl; [apply under_ret|apply under_bind; [apply K; left; auto|]].
  intros _. apply IH. intros. apply K. right. auto.
Qed.
Lemma under_mapM {A B} (f : A -> M B) l : (forall a, In a l -> under R (f a)) -> under R (mapM f l).
Proof.
  induction l as [|x l IH]; intros K; simpl; [apply under_ret|]. apply under_bind; [apply K; left; auto|]. intros a.
  apply under_bind; [apply IH; intros; apply K; right; auto|]. intros. apply under_ret.
Qed.
Lemma under_issub x d : under R (issubclass_m x d).
Proof. unfold issubclass_m. destruct x; [apply under_gets|apply under_raise]. Qed.
Lemma under_opt {A} e (o : option A) : under R (of_opt e o).
Proof. destruct o; [apply under_ret|apply under_raise]. Qed.
End Under.
#[global] Hint Resolve under_issub under_opt : own.

Ltac under :=
  repeat first
    [ solve [eauto with own typeclass_instances] | apply under_ret; [exact _] | apply under_raise; [exact _] | apply under_gets; [exact _]
    | apply under_when; [exact _|] | apply under_bind; [exact _| |intros ?] | apply under_forM; [exact _|intros ? ?] | apply under_mapM; [exact _|intros ? ?]
    | match goal with |- under _ (match ?x with _ => _ end) => destruct x end
    | match goal with |- under _ (if ?x then _ else _) => destruct x end
    | progress unfold get_seq, get_tier, get_grp, get_grid, get_cls ].

(** ** Classes, grids and the classes of the tiers outside [T] stay as they are *)
Section WithEnv.
Context `{Env}.
Definition still (T : tid -> Prop) (h h' : heap) : Prop :=
  h_cls h' = h_cls h /\ h_grid h' = h_grid h /\ (List.length (h_tier h) <= List.length (h_tier h'))%nat /\
  forall t, tlive h t -> ~ T t -> t_ec (tob h' t) = t_ec (tob h t).
#[export] Instance still_pre T : PreOrder (still T).
Proof.
  split.
  - intros h. unfold still. auto.
  - intros a b c (A1 & A2 & A3 & A4) (B1 & B2 & B3 & B4). split; [congruence|]. split; [congruence|]. split; [lia|].
    intros t L N. rewrite B4, A4; auto. unfold tlive in *. lia.
Qed.
Lemma calm_still T {A} (m : M A) : calm m -> under (still T) m.
Proof.
  intros C h. destruct (C h) as (A1 & A2 & A3 & A4 & A5 & A6). split; [auto|]. split; [auto|]. split; [lia|].
  intros t _ _. apply A6.
Qed.
Lemma still_mod_tier T i f : (T i \/ forall o, t_ec (f o) = t_ec o) -> under (still T) (mod_tier i f).
Proof.
  intros K h. unfold still, mod_tier, modify. cbn [heap_of]. split; [auto|]. split; [auto|].
  split; [unfold upd_tier; simpl; rewrite alter_length; lia|].
  intros t L N. destruct (decide (i = t)) as [->|E].
  - rewrite tob_upd_eq by exact L. destruct K as [K|K]; [contradiction|apply K].
  - rewrite tob_upd_ne by auto. reflexivity.
Qed.
Lemma still_mod_grp T i f : under (still T) (mod_grp i f).
Proof. intros h. unfold still, mod_grp, modify, upd_grp. simpl. auto. Qed.
Lemma still_alloc_grp T o : under (still T) (alloc_grp o).
Proof. intros h. unfold still, alloc_grp. simpl. auto. Qed.
Lemma still_alloc_tier T o : under (still T) (alloc_tier o).
Proof.
  intros h. unfold still, alloc_tier. simpl. rewrite app_length. split; [auto|]. split; [auto|]. split; [lia|].
  intros t L _. unfold tob. simpl. rewrite lookup_app_l; auto.
Qed.

Section Still.
Context (T : tid -> Prop).
Hint Resolve still_mod_grp still_alloc_grp still_alloc_tier : own.
Lemma still_tier_within t : under (still T) (tier_within_index t).
Proof.
  apply under_read; [exact _|]. intros h. unfold tier_within_index, index_in. destruct (t_within _); [|auto].
  destruct (contains_of _ _); [|auto]. destruct (index_of _ _); auto.
Qed.
Lemma still_group_item g i : under (still T) (group_item g i).
Proof. apply under_read; [exact _|]. intros h. unfold group_item. destruct (py_index _ _); auto. Qed.
Lemma still_sibling t g d : under (still T) (sibling_tier t g d).
Proof. apply calm_still, calm_sibling. Qed.
Lemma still_climb n ts : forall s, under (still T) (climb n ts s).
Proof. induction n as [|n IH]; intros s; simpl; under. Qed.
Hint Resolve still_tier_within still_group_item still_sibling still_climb : own.
Lemma still_descend n ts : forall s, under (still T) (descend n ts s).
Proof. induction n as [|n IH]; intros s; simpl; under. Qed.
Hint Resolve still_descend : own.
Lemma still_arrange ts : under (still T) (arrange ts).
Proof. unfold arrange. under. Qed.
Lemma still_make_name g : under (still T) (make_name g).
Proof.
  apply under_read; [exact _|]. intros h. unfold make_name. destruct (map _ _); [auto|].
  destruct (_ <? _)%nat; [auto|]. destruct (g_within _) as [[]|]; auto. destruct (index_of _ _); auto.
Qed.
Hint Resolve still_arrange still_make_name : own.
Lemma still_grp_name g : under (still T) (grp_name g).
Proof. unfold grp_name. under. Qed.
Lemma still_remove x : under (still T) (remove_superset x).
Proof. apply calm_still, calm_remove. Qed.
Lemma still_relate n d ts : under (still T) (relate_tiers n d ts).
Proof. apply calm_still, calm_relate_tiers. Qed.
Hint Resolve still_grp_name still_remove still_relate : own.
Ltac tier_step := apply still_mod_tier; right; reflexivity.
Lemma still_grp_contains g ts : under (still T) (grp_set_contains g ts).
Proof. unfold grp_set_contains. under. tier_step. Qed.
Hint Resolve still_grp_contains : own.
Lemma still_tg_init n g ts nm d : under (still T) (tg_init n g ts nm d).
Proof. unfold tg_init. under. Qed.
Lemma still_pg_init g ts : under (still T) (pg_init g ts).
Proof. unfold pg_init. under. tier_step. Qed.
Hint Resolve still_tg_init still_pg_init : own.
Lemma still_new_tg n ts : under (still T) (new_tg n ts).
Proof. unfold new_tg, new_tg_with. under. Qed.
Lemma still_new_pg ts : under (still T) (new_pg ts).
Proof. unfold new_pg. under. Qed.
Lemma still_re_relate n g : under (still T) (re_relate n g).
Proof. unfold re_relate. under. Qed.
Lemma still_append_n n t x : under (still T) (tier_append_n n t x).
Proof. apply calm_still, calm_tier_append_n. Qed.
Lemma still_construct3 c s e l : under (still T) (construct3 c s e l).
Proof. apply calm_still, calm_construct3. Qed.
Lemma still_sl_append v x b : under (still T) (sl_append v x b).
Proof. apply calm_still, calm_sl_append. Qed.
Lemma still_store t v : under (still T) (store_seq t v).
Proof. apply calm_still, calm_store_seq. Qed.
Lemma still_rebind t v : under (still T) (rebind_seq t v).
Proof. apply calm_still, calm_rebind_seq. Qed.
Hint Resolve still_new_tg still_new_pg still_re_relate still_append_n still_construct3 still_sl_append still_store still_rebind : own.
Lemma still_fill t ps : under (still T) (fill_tier t ps).
Proof. induction ps as [|[s e] ps IH]; cbn [fill_tier]; under.
Qed.
Hint Resolve still_fill : own.
Lemma still_tier_cleanup n : forall t, under (still T) (tier_cleanup n t).
Proof. induction n as [|n IH]; intros t; cbn [tier_cleanup]; under. Qed.
Lemma still_half t z : under (still T) (interval_at_half t z).
Proof.
  apply under_read; [exact _|]. intros h. unfold interval_at_half. destruct (all_some _); [|auto]. destruct (all_some _); [|auto].
  destruct (hits_from _ _ _ _) as [|? [|]]; auto.
Qed.
Hint Resolve still_tier_cleanup still_half : own.
Lemma still_project n x : under (still T) (project_up n x).
Proof. unfold project_up. under. Qed.
Hint Resolve still_project : own.
Lemma still_orphans k n g : forall i b, under (still T) (orphan_pass k n g i b).
Proof. induction k as [|k IH]; intros i b; cbn [orphan_pass]; under. Qed.
Lemma still_cleanups k n g : forall i, under (still T) (cleanup_tiers k n g i).
Proof. induction k as [|k IH]; intros i; cbn [cleanup_tiers]; under. Qed.
Hint Resolve still_orphans still_cleanups : own.
Lemma still_grp_cleanup n g : under (still T) (grp_cleanup n g).
Proof. unfold grp_cleanup. under. Qed.
Lemma still_ext f l : under (still T) (np_ext f l).
Proof. unfold np_ext. under. Qed.
Hint Resolve still_grp_cleanup still_ext : own.
Lemma still_xmin t : under (still T) (tier_xmin t).
Proof.
  apply under_read; [exact _|]. intros h. unfold tier_xmin. destruct (tstarts h t) as [|a [|b l]]; [reflexivity|reflexivity|].
  unfold np_ext. destruct (all_some _) as [[|]|]; reflexivity.
Qed.
Lemma still_xmax t : under (still T) (tier_xmax t).
Proof.
  apply under_read; [exact _|]. intros h. unfold tier_xmax. destruct (tends h t) as [|a [|b l]]; [reflexivity|reflexivity|].
  unfold np_ext. destruct (all_some _) as [[|]|]; reflexivity.
Qed.
Hint Resolve still_xmin still_xmax : own.
Lemma still_grp_xmin g : under (still T) (grp_xmin g).
Proof. unfold grp_xmin. under. Qed.
Lemma still_grp_xmax g : under (still T) (grp_xmax g).
Proof. unfold grp_xmax. under. destruct (g_points _); under. Qed.
Lemma still_close a b : under (still T) (close_opt a b).
Proof. unfold close_opt, close_m. under. Qed.
Hint Resolve still_grp_xmin still_grp_xmax still_close : own.
Lemma still_append_blanks n ts : forall xs, under (still T) (append_blanks n ts xs).
Proof. induction ts as [|t ts IH]; intros [|x xs]; cbn [append_blanks]; under. Qed.
Hint Resolve still_append_blanks : own.
Lemma still_blank_column n g s e : under (still T) (blank_column n g s e).
Proof. unfold blank_column. under. Qed.
Hint Resolve still_blank_column : own.
Lemma still_grid_cleanup n a : under (still T) (grid_cleanup n a).
Proof. unfold grid_cleanup. under. Qed.

(** Building a tier anew touches the class of that tier only. *)
Lemma still_precedence t l p : under (still T) (precedence (fun x => mod_seq x (set_s_intier (Some t))) p l).
Proof. apply calm_still, calm_precedence. intros. apply calm_mod_seq. Qed.
Lemma still_tier_contains t : under (still T) (tier_set_contains t).
Proof. apply calm_still, calm_tier_set_contains. Qed.
Lemma still_set_seq t l : under (still T) (tier_set_seq t l).
Proof. apply calm_still, calm_tier_set_seq. Qed.
Lemma still_tier_prec t : under (still T) (tier_precedence t).
Proof. apply calm_still, calm_tier_precedence. Qed.
Lemma still_cast c o : under (still T) (cast c o).
Proof. apply calm_still, calm_cast. Qed.
Lemma still_new_obj c s e l : under (still T) (new_obj c s e l).
Proof. apply calm_still, calm_new_obj. Qed.
Hint Resolve still_precedence still_tier_contains still_set_seq still_tier_prec still_cast still_new_obj : own.
Lemma still_cast_entry c e : under (still T) (cast_entry c e).
Proof. unfold cast_entry. under. Qed.
Lemma still_src_class d s ec : under (still T) (src_class d s ec).
Proof. unfold src_class. under. Qed.
Lemma still_entry_time e : under (still T) (entry_time e).
Proof. unfold entry_time. under. Qed.
Hint Resolve still_cast_entry still_src_class still_entry_time : own.
Lemma still_itier t s ec : T t -> under (still T) (itier_init t s ec).
Proof. intros Ht. unfold itier_init. under; apply still_mod_tier; left; exact Ht. Qed.
Lemma still_ptier_prec t : under (still T) (ptier_precedence t).
Proof. unfold ptier_precedence. under. Qed.
Hint Resolve still_ptier_prec : own.
Lemma still_ptier t s ec : T t -> under (still T) (ptier_init t s ec).
Proof. intros Ht. unfold ptier_init. under; apply still_mod_tier; left; exact Ht. Qed.
Hint Resolve still_itier still_ptier : own.
Lemma still_reinit t s c : T t -> under (still T) (tier_reinit t s c).
Proof. intros Ht. unfold tier_reinit. under. Qed.
End Still.
Hint Resolve still_mod_grp still_grp_name still_re_relate still_grid_cleanup still_new_tg still_new_pg still_cast still_tg_init still_pg_init : own.

(** ** The tiers of the groups stay among the tiers allowed for them *)
Definition bounded (W : gid -> tid -> Prop) (k : nat) (h : heap) : Prop :=
  (k <= List.length (h_grp h))%nat /\ forall g t, In t (g_tiers (gob h g)) -> W g t.
Definition keeps (P : heap -> Prop) (h h' : heap) : Prop := P h -> P h'.
#[export] Instance keeps_pre P : PreOrder (keeps P).
Proof. split; unfold keeps; red; auto. Qed.

Section Bound.
Context (W : gid -> tid -> Prop) (k0 : nat).
Notation fits := (keeps (bounded W k0)).
Lemma fits_grps {A} (m : M A) : (forall h, h_grp (heap_of (m h)) = h_grp h) -> under fits m.
Proof. intros K h B. unfold bounded, gob. rewrite K. apply B. Qed.
Lemma calm_fits {A} (m : M A) : calm m -> under fits m.
Proof. intros C. apply fits_grps. intros h. apply C. Qed.
Lemma fits_mod_tier i f : under fits (mod_tier i f).
Proof. apply fits_grps. reflexivity. Qed.
Lemma fits_mod_grp i f : (forall o, g_tiers (f o) = g_tiers o \/ forall t, In t (g_tiers (f o)) -> W i t) -> under fits (mod_grp i f).
Proof.
  intros K h [Bk B]. unfold mod_grp, modify. cbn [heap_of]. split; [unfold upd_grp; simpl; rewrite alter_length; exact Bk|].
  intros g. destruct (decide (i = g)) as [->|N].
  - destruct (lt_dec g (List.length (h_grp h))) as [L|L].
    + rewrite gob_upd_eq by exact L. destruct (K (gob h g)) as [->|I]; [apply B|exact I].
    + unfold gob, upd_grp. cbn [h_grp]. rewrite (lookup_ge_None_2 (alter f g (h_grp h))).
      * intros x [].
      * rewrite alter_length. lia.
  - rewrite gob_upd_ne by auto. apply B.
Qed.
Hint Resolve fits_mod_tier : own.
Ltac grp_step := apply fits_mod_grp; intros ?; left; reflexivity.
Lemma fits_climb n ts : forall s h, match climb n ts s h with Ok t h' => h' = h /\ (In s ts -> In t ts) | Raise _ h' => h' = h end.
Proof.
  induction n as [|n IH]; intros s h; simpl; [reflexivity|]. unfold get_tier. rewrite bind_gets.
  destruct (t_super (tob h s)) as [c|]; unfold issubclass_m; [|reflexivity]. rewrite bind_gets.
  destruct (issubclass h c cTop); [unfold ret; auto|]. rewrite bind_gets.
  destruct (tier_class_idx h ts c) as [i|]; [|unfold ret; auto].
  destruct (nth_error ts i) as [t|] eqn:E; [|unfold ret; auto]. specialize (IH t h). destruct (climb n ts t h) as [u h'|]; [|exact IH].
  destruct IH as [-> IH]. split; [reflexivity|]. intros _. apply IH. eapply nth_error_In; exact E.
Qed.
Lemma fits_descend n ts : forall s h, match descend n ts s h with Ok r h' => h' = h /\ (In s ts -> incl (fst r) ts) | Raise _ h' => h' = h end.
Proof.
  induction n as [|n IH]; intros s h; simpl; [reflexivity|]. unfold get_tier. rewrite bind_gets.
  assert (One : In s ts -> incl [s] ts) by (intros I x [<-|[]]; exact I).
  destruct (t_sub (tob h s)) as [c|]; unfold issubclass_m; [|reflexivity]. rewrite bind_gets.
  destruct (issubclass h c cBottom); [unfold ret; auto|]. rewrite bind_gets.
  destruct (tier_class_idx h ts c) as [i|]; [|unfold ret; auto].
  destruct (nth_error ts i) as [t|] eqn:E; [|unfold ret; auto]. specialize (IH t h). unfold bind.
  destruct (descend n ts t h) as [u h'|]; [|exact IH]. destruct IH as [-> IH]. split; [reflexivity|].
  intros I x [<-|Hx]; [exact I|]. apply IH; [eapply nth_error_In; exact E|exact Hx].
Qed.
Lemma arrange_incl ts h : match arrange ts h with Ok r h' => h' = h /\ incl (fst r) ts | Raise _ h' => h' = h end.
Proof.
  unfold arrange. destruct ts as [|t ts]; [reflexivity|]. set (n := S (List.length (t :: ts))). set (l := t :: ts).
  pose proof (fits_climb n l t h) as C. unfold bind. destruct (climb n l t h) as [u h1|]; [|exact C]. destruct C as [-> C].
  pose proof (fits_descend n l u h) as D. destruct (descend n l u h) as [r h2|]; [|exact D]. destruct D as [-> D].
  split; [reflexivity|]. apply D, C. left. reflexivity.
Qed.
Lemma fits_make_name g : under fits (make_name g).
Proof.
  apply under_read; [exact _|]. intros h. unfold make_name. destruct (map _ _); [auto|].
  destruct (_ <? _)%nat; [auto|]. destruct (g_within _) as [[]|]; auto. destruct (index_of _ _); auto.
Qed.
Hint Resolve fits_make_name : own.
Lemma fits_grp_name g : under fits (grp_name g).
Proof. unfold grp_name. under. grp_step. Qed.
Lemma fits_remove x : under fits (remove_superset x).
Proof. apply calm_fits, calm_remove. Qed.
Lemma fits_relate n d ts : under fits (relate_tiers n d ts).
Proof. apply calm_fits, calm_relate_tiers. Qed.
Hint Resolve fits_grp_name fits_remove fits_relate : own.
Lemma fits_tg_init n g ts nm d : (forall t, In t ts -> W g t) -> under fits (tg_init n g ts nm d).
Proof.
  intros I h B. unfold tg_init. pose proof (arrange_incl ts h) as A. unfold bind at 1. destruct (arrange ts h) as [r h1|]; [|subst; exact B].
  destruct A as [-> A]. revert B. change (keeps (bounded W k0) h (heap_of ((when (snd r) (grp_set_contains g (fst r)) ;;;
    mod_grp g (fun o => set_g_contains (if snd r then CAlias else unalias (g_contains o) (g_tiers o)) (set_g_tiers (fst r) o)) ;;;
    (if str_truthy nm then mod_grp g (set_g_name nm) else m <- make_name g ;; mod_grp g (set_g_name m)) ;;;
    forM ts (fun t => l <- gets (fun h => t_seq (tob h t)) ;; forM l remove_superset) ;;;
    relate_tiers n d (fst r)) h))).
  revert h. fold (under fits (when (snd r) (grp_set_contains g (fst r)) ;;;
    mod_grp g (fun o => set_g_contains (if snd r then CAlias else unalias (g_contains o) (g_tiers o)) (set_g_tiers (fst r) o)) ;;;
    (if str_truthy nm then mod_grp g (set_g_name nm) else m <- make_name g ;; mod_grp g (set_g_name m)) ;;;
    forM ts (fun t => l <- gets (fun h => t_seq (tob h t)) ;; forM l remove_superset) ;;;
    relate_tiers n d (fst r))). unfold grp_set_contains.
  under; try grp_step. apply fits_mod_grp. intros o. right. intros x Hx. apply I, A. destruct (snd r); exact Hx.
Qed.
Lemma fits_pg_init g ts : (forall t, In t ts -> W g t) -> under fits (pg_init g ts).
Proof. intros I. unfold pg_init. under; try grp_step. apply fits_mod_grp. intros o. right. exact I. Qed.
Lemma fits_re_relate n g : under fits (re_relate n g).
Proof.
  intros h B. unfold re_relate, get_grp. rewrite bind_gets. destruct (g_points (gob h g)).
  - apply fits_pg_init; [apply B|exact B].
  - pose proof (fits_grp_name g h B) as B1. unfold bind. destruct (grp_name g h) as [nm h1|]; [|exact B1].
    apply fits_tg_init; [apply B|exact B1].
Qed.
Lemma fits_tier_within t : under fits (tier_within_index t).
Proof.
  apply under_read; [exact _|]. intros h. unfold tier_within_index, index_in. destruct (t_within _); [|auto].
  destruct (contains_of _ _); [|auto]. destruct (index_of _ _); auto.
Qed.
Lemma fits_group_item g i : under fits (group_item g i).
Proof. apply under_read; [exact _|]. intros h. unfold group_item. destruct (py_index _ _); auto. Qed.
Lemma fits_sibling t g d : under fits (sibling_tier t g d).
Proof. apply calm_fits, calm_sibling. Qed.
Lemma fits_append_n n t x : under fits (tier_append_n n t x).
Proof. apply calm_fits, calm_tier_append_n. Qed.
Lemma fits_construct3 c s e l : under fits (construct3 c s e l).
Proof. apply calm_fits, calm_construct3. Qed.
Lemma fits_sl_append v x b : under fits (sl_append v x b).
Proof. apply calm_fits, calm_sl_append. Qed.
Lemma fits_store t v : under fits (store_seq t v).
Proof. apply calm_fits, calm_store_seq. Qed.
Lemma fits_half t z : under fits (interval_at_half t z).
Proof.
  apply under_read; [exact _|]. intros h. unfold interval_at_half. destruct (all_some _); [|auto]. destruct (all_some _); [|auto].
  destruct (hits_from _ _ _ _) as [|? [|]]; auto.
Qed.
Hint Resolve fits_re_relate fits_tier_within fits_group_item fits_sibling fits_append_n fits_construct3 fits_sl_append fits_store fits_half : own.
Lemma fits_fill t ps : under fits (fill_tier t ps).
Proof. induction ps as [|[s e] ps IH]; cbn [fill_tier]; under. Qed.
Hint Resolve fits_fill : own.
Lemma fits_tier_cleanup n : forall t, under fits (tier_cleanup n t).
Proof. induction n as [|n IH]; intros t; cbn [tier_cleanup]; under. Qed.
Lemma fits_project n x : under fits (project_up n x).
Proof. unfold project_up. under. Qed.
Hint Resolve fits_tier_cleanup fits_project : own.
Lemma fits_orphans k n g : forall i b, under fits (orphan_pass k n g i b).
Proof. induction k as [|k IH]; intros i b; cbn [orphan_pass]; under. Qed.
Lemma fits_cleanups k n g : forall i, under fits (cleanup_tiers k n g i).
Proof. induction k as [|k IH]; intros i; cbn [cleanup_tiers]; under. Qed.
Hint Resolve fits_orphans fits_cleanups : own.
Lemma fits_grp_cleanup n g : under fits (grp_cleanup n g).
Proof. unfold grp_cleanup. under. Qed.
Lemma fits_ext f l : under fits (np_ext f l).
Proof. unfold np_ext. under. Qed.
Lemma fits_xmin t : under fits (tier_xmin t).
Proof.
  apply under_read; [exact _|]. intros h. unfold tier_xmin. destruct (tstarts h t) as [|a [|b l]]; [reflexivity|reflexivity|].
  unfold np_ext. destruct (all_some _) as [[|]|]; reflexivity.
Qed.
Lemma fits_xmax t : under fits (tier_xmax t).
Proof.
  apply under_read; [exact _|]. intros h. unfold tier_xmax. destruct (tends h t) as [|a [|b l]]; [reflexivity|reflexivity|].
  unfold np_ext. destruct (all_some _) as [[|]|]; reflexivity.
Qed.
Hint Resolve fits_grp_cleanup fits_ext fits_xmin fits_xmax : own.
Lemma fits_grp_xmin g : under fits (grp_xmin g).
Proof. unfold grp_xmin. under. Qed.
Lemma fits_grp_xmax g : under fits (grp_xmax g).
Proof. unfold grp_xmax. under. destruct (g_points _); under. Qed.
Lemma fits_close a b : under fits (close_opt a b).
Proof. unfold close_opt, close_m. under. Qed.
Lemma fits_append_blanks n ts : forall xs, under fits (append_blanks n ts xs).
Proof. induction ts as [|t ts IH]; intros [|x xs]; cbn [append_blanks]; under. Qed.
Hint Resolve fits_grp_xmin fits_grp_xmax fits_close fits_append_blanks : own.
Lemma fits_blank_column n g s e : under fits (blank_column n g s e).
Proof. unfold blank_column. under. Qed.
Hint Resolve fits_blank_column : own.
Lemma fits_grid_cleanup n a : under fits (grid_cleanup n a).
Proof. unfold grid_cleanup. under. Qed.
End Bound.

(** ** Class operations on new classes leave the old classes alone *)
Section Spare.
Context (h0 : heap).
Definition tri {A} (m : M A) (Q : A -> Prop) : Prop :=
  forall h, classes_untouched h0 h -> match m h with Ok a h' => classes_untouched h0 h' /\ Q a | Raise _ h' => classes_untouched h0 h' end.
Definition tnew (c : cid) : Prop := (List.length (h_cls h0) <= c)%nat.
Definition any {A} (_ : A) : Prop := True.
Lemma tri_ret {A} (a : A) (Q : A -> Prop) : Q a -> tri (ret a) Q.
Proof. intros q h U. simpl. auto. Qed.
Lemma tri_raise {A} e (Q : A -> Prop) : tri (raise e) Q.
Proof. intros h U. simpl. auto. Qed.
Lemma tri_gets {A} (f : heap -> A) : tri (gets f) any.
Proof. intros h U. simpl. unfold any. auto. Qed.
Lemma tri_bind {A B} (m : M A) (k : A -> M B) (Q : A -> Prop) (Q' : B -> Prop) : tri m Q -> (forall a, Q a -> tri (k a) Q') -> tri (bind m k) Q'.
Proof.
  intros Hm Hk h U. specialize (Hm h U). unfold bind. destruct (m h) as [a h1|e h1]; [|exact Hm].
  destruct Hm as [U1 q]. exact (Hk a q h1 U1).
Qed.
Lemma tri_gets_bind {A B} (f : heap -> A) (k : A -> M B) (Q' : B -> Prop) : (forall a, tri (k a) Q') -> tri (bind (gets f) k) Q'.
Proof. intros K. apply (tri_bind _ _ any); [apply tri_gets|auto]. Qed.
Lemma tri_weak {A} (m : M A) (Q Q' : A -> Prop) : (forall a, Q a -> Q' a) -> tri m Q -> tri m Q'.
Proof. intros I Hm h U. specialize (Hm h U). destruct (m h); [|exact Hm]. destruct Hm; auto. Qed.
Lemma tri_when b m : tri m any -> tri (when b m) any.
Proof. destruct b; simpl; [auto|intros; apply tri_ret; exact I]. Qed.
Lemma tri_issub x d : tri (issubclass_m x d) any.
Proof. unfold issubclass_m. destruct x; [apply tri_gets|apply tri_raise]. Qed.
Lemma tri_opt {A} e (o : option A) : tri (of_opt e o) any.
Proof. destruct o; [apply tri_ret; exact I|apply tri_raise]. Qed.
Lemma tri_mapM {A B} (f : A -> M B) l : (forall a, tri (f a) any) -> tri (mapM f l) any.
Proof.
  intros K. induction l as [|x l IH]; simpl; [apply tri_ret; exact I|]. eapply tri_bind; [apply K|]. intros y _.
  eapply tri_bind; [exact IH|]. intros. apply tri_ret. exact I.
Qed.
Lemma tri_forM {A} (f : A -> M unit) l : (forall a, tri (f a) any) -> tri (forM l f) any.
Proof.
  intros K. induction l as [|x l IH]; simpl; [apply tri_ret; exact I|]. eapply tri_bind; [apply K|]. intros y _. exact IH.
Qed.
Lemma tri_same {A} (m : M A) : (forall h, h_cls (heap_of (m h)) = h_cls h) -> tri m any.
Proof.
  intros K h (L & U). specialize (K h). unfold any.
  assert (classes_untouched h0 (heap_of (m h))) as X by (unfold classes_untouched, cob in *; rewrite K; auto).
  destruct (m h); simpl in X; auto.
Qed.
Lemma tri_still {A} (m : M A) : under (still (fun _ => True)) m -> tri m any.
Proof. intros K. apply tri_same. intros h. apply K. Qed.
Lemma tri_alloc o : tri (alloc_cls o) tnew.
Proof.
  intros h (L & U). unfold alloc_cls. split; [|exact L]. split; [simpl; rewrite app_length; lia|].
  intros c Hc. rewrite <- U by exact Hc. apply (cob_push_old h o c). unfold clive. lia.
Qed.
Lemma tri_mod_cls c f : tnew c -> tri (mod_cls c f) any.
Proof.
  intros Nw h (L & U). unfold mod_cls, modify. split; [|exact I]. split; [rewrite len_upd_cls; exact L|].
  intros k Hk. rewrite <- U by exact Hk. apply cob_upd_ne. unfold tnew in Nw. lia.
Qed.
Lemma tri_set_hier n : forall up c v, tnew c -> match v with Some d => tnew d | None => True end -> tri (set_hier n up c v) any.
Proof.
  induction n as [|n IH]; intros up c v C D; cbn [set_hier]; [apply tri_raise|].
  assert (S : forall f, tri (mod_cls c f) any) by (intros; apply tri_mod_cls; exact C).
  destruct v as [d|]; [|apply S]. unfold get_cls. apply tri_gets_bind. intros k.
  destruct (str_in _ _); [apply S|]. apply tri_gets_bind. intros ok.
  destruct (ok && negb (Nat.eqb d c)); [|apply tri_raise]. eapply tri_bind; [apply S|]. intros _ _.
  apply tri_gets_bind. intros [b|]; [destruct (Nat.eqb b c); [apply tri_ret; exact I|]|]; apply IH; auto.
Qed.
Lemma tri_copy nm b : tri (type_copy nm b) tnew.
Proof. unfold type_copy, get_cls. apply tri_gets_bind. intros. apply tri_alloc. Qed.
Lemma tri_top : tri make_top tnew.
Proof. unfold make_top. apply tri_gets_bind. intros. apply tri_alloc. Qed.
Lemma tri_bottom : tri make_bottom tnew.
Proof. unfold make_bottom. apply tri_gets_bind. intros. apply tri_alloc. Qed.
Lemma tri_clone n : forall rc c, tri (clone_n n rc c) tnew.
Proof.
  induction n as [|n IH]; intros rc c; cbn [clone_n]; [apply tri_raise|].
  apply tri_gets_bind. intros isiv. apply tri_gets_bind. intros ispt. destruct isiv.
  - apply tri_gets_bind. intros sup. eapply tri_bind; [apply tri_issub|]. intros istop _.
    destruct (negb istop && negb rc); [apply tri_raise|]. apply tri_gets_bind. intros nm.
    eapply tri_bind; [apply tri_copy|]. intros c' Nc. apply tri_gets_bind. intros sup'.
    eapply tri_bind; [apply tri_issub|]. intros istop' _.
    eapply tri_bind; [apply tri_when; eapply tri_bind; [apply tri_top|]; intros t Nt; apply tri_set_hier; auto|]. intros _ _.
    apply tri_gets_bind. intros sub'. eapply tri_bind; [apply tri_issub|]. intros isb _.
    eapply tri_bind; [apply tri_when; eapply tri_bind; [apply tri_bottom|]; intros t Nt; apply tri_set_hier; auto|]. intros _ _.
    apply tri_gets_bind. intros [d|]; [|apply tri_raise]. apply tri_gets_bind. intros back. apply tri_gets_bind. intros si.
    destruct (negb _ && si); [|apply tri_ret; exact Nc]. eapply tri_bind; [apply IH|]. intros d' Nd.
    eapply tri_bind; [apply tri_set_hier; auto|]. intros _ _. apply tri_ret. exact Nc.
  - destruct ispt; [|apply tri_raise]. apply tri_gets_bind. intros nm. apply tri_copy.
Qed.
Lemma tri_clone_class c : tri (clone_class c) tnew.
Proof. intros h U. unfold clone_class. apply tri_clone. exact U. Qed.
Lemma tri_reuse ex c : tri (clone_or_reuse ex c) any.
Proof.
  unfold clone_or_reuse. apply tri_gets_bind. intros [i|]; [apply tri_opt|]. eapply tri_weak; [|apply tri_clone_class]. intros; exact I.
Qed.
Lemma tri_is_top c : tri (is_top_cls c) any.
Proof.
  unfold is_top_cls. apply tri_gets_bind. intros [|]; [|apply tri_ret; exact I]. apply tri_gets_bind. intros. apply tri_issub.
Qed.
Lemma tri_filterM {A} (f : A -> M bool) l : (forall a, tri (f a) any) -> tri (filterM f l) any.
Proof.
  intros K. induction l as [|x l IH]; simpl; [apply tri_ret; exact I|]. eapply tri_bind; [apply K|]. intros y _.
  eapply tri_bind; [exact IH|]. intros. apply tri_ret. exact I.
Qed.
Lemma hier_read n : forall c out h, heap_of (hier_n n c out h) = h.
Proof.
  induction n as [|n IH]; intros c out h; cbn [hier_n]; [reflexivity|]. rewrite bind_gets.
  destruct (superset_class h c) as [s|]; unfold issubclass_m; [|reflexivity]. rewrite bind_gets.
  set (m := if negb (issubclass h s cTop) && negb (mem_cid s out) then hier_n n s out else ret out).
  assert (X : heap_of (m h) = h) by (unfold m; destruct (_ && _); [apply IH|reflexivity]).
  unfold bind at 1. destruct (m h) as [o h1|]; simpl in X; [|exact X]. subst h1. rewrite bind_gets.
  destruct (subset_class h c) as [d|]; [|reflexivity]. rewrite bind_gets.
  destruct (issubclass h d cBottom); [reflexivity|apply IH].
Qed.
Lemma tri_hier c out : tri (get_class_hierarchy c out) any.
Proof. apply tri_same. intros h. unfold get_class_hierarchy. rewrite hier_read. reflexivity. Qed.
Lemma tri_reclone a l : tri (reclone a l) any.
Proof.
  unfold reclone. destruct l as [|c l]; [apply tri_raise|]. apply tri_gets_bind. intros ex. apply tri_gets_bind. intros pts.
  eapply tri_bind; [apply tri_filterM, tri_is_top|]. intros tops _. eapply tri_bind; [apply tri_mapM; intros; apply tri_reuse|]. intros pcl _.
  eapply tri_bind; [apply tri_mapM; intros; apply tri_reuse|]. intros tcl _.
  eapply tri_bind; [apply tri_mapM; intros; apply tri_hier|]. intros fs _. apply tri_same. reflexivity.
Qed.
Lemma tri_swap l l2 : tri (swap_classes l l2) any.
Proof.
  unfold swap_classes. apply tri_mapM. intros c. apply tri_gets_bind. intros [i|]; [apply tri_opt|apply tri_raise].
Qed.
Lemma tri_recast cs : forall ts, tri (recast_tiers cs ts) any.
Proof.
  induction cs as [|c cs IH]; intros [|t ts]; cbn [recast_tiers]; try (apply tri_ret; exact I).
  apply tri_gets_bind. intros l. eapply tri_bind; [apply tri_forM; intros; apply tri_still, still_cast|]. intros _ _.
  eapply tri_bind; [apply tri_still, still_reinit; exact I|]. intros _ _. apply IH.
Qed.
Lemma tri_set_groups a gs : tri (set_tier_groups a gs) any.
Proof.
  unfold set_tier_groups. destruct gs as [|g gs]; [apply tri_ret; exact I|]. eapply tri_bind; [apply tri_same; reflexivity|].
  intros _ _. apply tri_forM. intros. apply tri_same. reflexivity.
Qed.
Lemma tri_group_names a : tri (set_group_names a) any.
Proof.
  unfold set_group_names, get_grid. apply tri_gets_bind. intros o. apply tri_forM. intros g.
  eapply tri_bind; [apply tri_still, still_grp_name|]. intros _ _. apply tri_ret. exact I.
Qed.
Lemma tri_grid_append n a g : tri (grid_append n a g) any.
Proof.
  unfold grid_append, get_grp, grp_reinit. apply tri_gets_bind. intros o. apply tri_gets_bind. intros ecs.
  eapply tri_bind; [apply tri_reclone|]. intros _ _. apply tri_gets_bind. intros cl. eapply tri_bind; [apply tri_swap|]. intros ncs _.
  eapply tri_bind; [apply tri_recast|]. intros _ _. eapply tri_bind; [apply tri_still, still_re_relate|]. intros _ _.
  apply tri_gets_bind. intros gs. eapply tri_bind; [apply tri_set_groups|]. intros _ _. apply tri_group_names.
Qed.
Lemma tri_grp_append n g t : tri (grp_append n g t) any.
Proof.
  unfold grp_append, get_grp. apply tri_gets_bind. intros o. apply tri_gets_bind. intros k. destruct (negb k); [apply tri_raise|].
  eapply (tri_bind _ _ any).
  { destruct (g_within o) as [[]|]; try (apply tri_ret; exact I). apply tri_gets_bind. intros ng. destruct (0 <? ng)%nat; [|apply tri_ret; exact I].
    apply tri_gets_bind. intros ec. eapply tri_bind; [apply tri_reclone|]. intros _ _. apply tri_gets_bind. intros cl.
    eapply tri_bind; [apply tri_swap|]. intros [|c [|]] _; try apply tri_raise. apply tri_still, still_reinit. exact I. }
  intros _ _. apply tri_gets_bind. intros ec. apply tri_gets_bind. intros [|]; [apply tri_raise|].
  eapply (tri_bind _ _ any).
  { destruct (_ || _); [apply tri_ret; exact I|]. apply tri_gets_bind. intros cs. destruct (all_some cs); [apply tri_gets|apply tri_raise]. }
  intros [|] _; [|apply tri_raise]. eapply tri_bind; [apply tri_still, still_mod_grp|]. intros _ _. apply tri_gets_bind. intros ts.
  destruct (g_points o); [apply tri_still, still_pg_init|apply tri_still, still_tg_init].
Qed.
Lemma tri_build_tiers ps : tri (build_tiers ps) any.
Proof.
  induction ps as [|[rt c] ps IH]; cbn [build_tiers]; [apply tri_ret; exact I|].
  apply tri_gets_bind. intros pt. apply tri_gets_bind. intros iv.
  eapply (tri_bind _ _ any).
  { destruct pt; [|apply tri_ret; exact I]. eapply (tri_bind _ _ any); [|intros; apply tri_ret; exact I]. unfold new_ptier.
    eapply (tri_bind _ _ any); [apply tri_still, still_alloc_tier|]. intros t _. eapply (tri_bind _ _ any); [apply tri_still, still_ptier; exact I|].
    intros _ _. apply tri_ret. exact I. }
  intros p _. eapply (tri_bind _ _ any).
  { destruct iv; [|apply tri_ret; exact I]. eapply (tri_bind _ _ any); [|intros; apply tri_ret; exact I]. unfold new_itier.
    eapply (tri_bind _ _ any); [apply tri_still, still_alloc_tier|]. intros t _. eapply (tri_bind _ _ any); [apply tri_still, still_itier; exact I|].
    intros _ _. apply tri_ret. exact I. }
  intros s _. eapply tri_bind; [exact IH|]. intros r _. apply tri_ret. exact I.
Qed.
Lemma tri_build_groups n tgs : forall css, tri (build_groups n tgs css) any.
Proof.
  induction tgs as [|ts tgs IH]; intros [|cs css]; cbn [build_groups]; try (apply tri_ret; exact I).
  eapply tri_bind; [apply tri_build_tiers|]. intros b _.
  eapply (tri_bind _ _ any).
  { destruct (fst b); [apply tri_ret; exact I|]. eapply tri_bind; [apply tri_still, still_new_tg|]. intros. apply tri_ret. exact I. }
  intros g1 _. eapply (tri_bind _ _ any).
  { destruct (snd b); [apply tri_ret; exact I|]. eapply tri_bind; [apply tri_still, still_new_pg|]. intros. apply tri_ret. exact I. }
  intros g2 _. eapply tri_bind; [apply IH|]. intros. apply tri_ret. exact I.
Qed.
Lemma tri_top_idxes cs : tri (top_idxes cs) any.
Proof.
  unfold top_idxes. eapply tri_bind; [apply tri_mapM|intros; apply tri_ret; exact I]. intros c. apply tri_gets_bind. intros [|]; [apply tri_raise|].
  apply tri_gets_bind. intros. apply tri_issub.
Qed.
Lemma tri_eq {A} (m : M A) : under eq m -> tri m any.
Proof. intros K. apply tri_same. intros h. rewrite <- (K h). reflexivity. Qed.
Lemma eq_top_idxes cs : under eq (top_idxes cs).
Proof. unfold top_idxes. under. Qed.
Hint Resolve eq_top_idxes : own.
Lemma eq_extend k e : under eq (extend_classes k e).
Proof. unfold extend_classes. under. Qed.
Lemma eq_take_group {A B} (cs : list A) : forall i (l : list B), under eq (take_group cs i l).
Proof. induction cs as [|c cs IH]; intros i l; cbn [take_group]; under. Qed.
Hint Resolve eq_extend eq_take_group : own.
Lemma eq_take_groups {A B} (css : list (list A)) : forall i (l : list B), under eq (take_groups css i l).
Proof. induction css as [|c cs IH]; intros i l; cbn [take_groups]; under. Qed.
Lemma eq_chase {B} n cs (l : list B) : forall c, under eq (chase_down n cs l c).
Proof. induction n as [|n IH]; intros c; cbn [chase_down]; under. Qed.
Hint Resolve eq_take_groups eq_chase : own.
Lemma eq_nestify {B} (l : list B) e : under eq (nestify l e).
Proof. unfold nestify. under. Qed.
Lemma tri_grid_finish a : tri (grid_finish a) any.
Proof.
  unfold grid_finish, get_grid. apply tri_gets_bind. intros o.
  eapply tri_bind; [apply tri_forM; intros; apply tri_still, still_mod_grp|]. intros _ _. apply tri_group_names.
Qed.
Lemma tri_relate_tg n a tgs css : tri (relate_textgrid n a tgs css) any.
Proof.
  unfold relate_textgrid. eapply tri_bind; [apply tri_reclone|]. intros _ _. apply tri_gets_bind. intros cl.
  eapply tri_bind; [apply tri_mapM; intros; apply tri_swap|]. intros css' _. apply tri_build_groups.
Qed.
Lemma tri_read n tg e : tri (new_grid_textgrid n tg e) any.
Proof.
  unfold new_grid_textgrid. eapply (tri_bind _ _ any); [apply tri_same; reflexivity|]. intros a _.
  destruct tg as [|rt tg]; [apply tri_ret; exact I|]. eapply tri_bind; [apply tri_eq, eq_nestify|]. intros nt _.
  eapply tri_bind; [apply tri_relate_tg|]. intros gs _. eapply tri_bind; [apply tri_set_groups|]. intros _ _.
  eapply tri_bind; [apply tri_still, still_grid_cleanup|]. intros _ _. eapply tri_bind; [apply tri_grid_finish|]. intros _ _.
  apply tri_ret. exact I.
Qed.
Lemma tri_from_groups n gs : tri (new_grid_groups n gs) any.
Proof.
  unfold new_grid_groups. eapply (tri_bind _ _ any); [apply tri_same; reflexivity|]. intros a _.
  destruct gs as [|g gs]; [apply tri_ret; exact I|]. eapply tri_bind; [apply tri_forM; intros; apply tri_grid_append|]. intros _ _.
  eapply tri_bind; [apply tri_grid_finish|]. intros _ _. apply tri_ret. exact I.
Qed.
End Spare.
Lemma untouched_refl h : classes_untouched h h.
Proof. split; auto. Qed.
Lemma tri_run {A} (m : M A) h : tri h m any -> classes_untouched h (heap_of (m h)).
Proof. intros K. specialize (K h (untouched_refl h)). destruct (m h); simpl; tauto. Qed.
End WithEnv.


(** ** The classes collected by a grid *)
Lemma chain_kept h h' t cs b : class_table h -> class_table h' -> classes_kept h h' -> class_chain h t cs b -> class_chain h' t cs b.
Proof.
  intros T T' K C. pose proof (table_wf h T) as W. pose proof (table_wf h' T') as W'.
  pose proof (fun x => chain_live h t cs b x T C) as LV. apply chain_walk in C. destruct C as (ND & NE & Tt & Tb & IV & WK).
  apply chain_walk. split; [exact ND|]. split; [exact NE|].
  split; [rewrite (kept_sub h h' t _ W W' K); [exact Tt|apply LV; left; reflexivity]|].
  split; [rewrite (kept_sub h h' b _ W W' K); [exact Tb|apply LV; right; apply in_app_iff; right; left; reflexivity]|].
  split; [intros x Hx; rewrite (kept_sub h h' x _ W W' K); [apply IV; exact Hx|apply LV; right; apply in_app_iff; auto]|].
  eapply walk_ext; [|exact WK]. intros x Hx u. apply (kept_look h h'); auto.
Qed.
Lemma lone_kept h h' c : class_table h -> class_table h' -> classes_kept h h' -> lone_point h c -> lone_point h' c.
Proof.
  intros T T' K [P S]. assert (L : clive h c) by (apply (sub_live h c cPoint); auto; cbv; lia).
  split; [rewrite (kept_sub h h' c _ (table_wf h T) (table_wf h' T') K L); exact P|].
  exact (eq_trans (kept_look h h' true c (table_wf h T) (table_wf h' T') K L) S).
Qed.
Lemma grid_class_kept h h' c : class_table h -> class_table h' -> classes_kept h h' -> grid_class h c -> grid_class h' c.
Proof.
  intros T T' K [P|(t & cs & b & C & I & N)]; [left; apply (lone_kept h); auto|].
  right. exists t, cs, b. split; [apply (chain_kept h); auto|]. split; [exact I|]. intros x Hx. specialize (N x Hx).
  unfold class_name in *. destruct K as (_ & K & _). rewrite K; [exact N|].
  apply (chain_live h t cs b x T C). right. apply in_app_iff. auto.
Qed.
Lemma whole_kept h h' l : class_table h -> class_table h' -> classes_kept h h' -> whole_chains h l -> whole_chains h' l.
Proof.
  intros T T' K W c Hc. destruct (W c Hc) as [P|(t & cs & b & C & I & N)]; [left; apply (lone_kept h); auto|].
  right. exists t, cs, b. split; [apply (chain_kept h); auto|]. auto.
Qed.
Lemma top_heads h t cs b c q : class_table h -> class_chain h t cs b -> In c cs -> superset_class h c = Some q ->
  issubclass h q cTop = true -> exists cs', cs = c :: cs'.
Proof.
  intros T C I Sq Tq. apply in_split in I. destruct I as (pre & suf & ->).
  destruct (rev pre) as [|d r] eqn:R.
  - apply (f_equal (@rev cid)) in R. rewrite rev_involutive in R. subst pre. eexists. reflexivity.
  - exfalso. apply (f_equal (@rev cid)) in R. rewrite rev_involutive in R. simpl in R. subst pre.
    destruct C as (_ & _ & _ & _ & IV & WK).
    destruct (WK (S (List.length (rev r))) d c) as [_ X].
    + replace (t :: _)%list with ((t :: rev r) ++ d :: c :: suf ++ [b])%list by (simpl; rewrite <- !app_assoc; reflexivity).
      rewrite nth_error_app2 by (simpl; lia). replace (_ - _)%nat with 0%nat by (simpl; lia). reflexivity.
    + replace (t :: _)%list with ((t :: rev r) ++ d :: c :: suf ++ [b])%list by (simpl; rewrite <- !app_assoc; reflexivity).
      rewrite nth_error_app2 by (simpl; lia). replace (_ - _)%nat with 1%nat by (simpl; lia). reflexivity.
    + assert (q = d) as -> by congruence.
      rewrite (kinds_apart h d cInterval cTop T) in Tq; [discriminate|simpl; auto|simpl; auto|discriminate|].
      apply IV. apply in_app_iff. left. apply in_app_iff. right. left. reflexivity.
Qed.

(** A class obtained for the grid: one of [ex], or a new one. *)
Definition obtained (h0 h : heap) (ex : list cid) (c : cid) : Prop :=
  In c ex \/ (List.length (h_cls h0) <= c)%nat /\
    (lone_point h c \/ exists t cs b, class_chain h t cs b /\ In c cs /\ forall x, In x cs -> (List.length (h_cls h0) <= x)%nat).
Lemma obtained_kept h0 h h' ex c : class_table h -> class_table h' -> classes_kept h h' -> obtained h0 h ex c -> obtained h0 h' ex c.
Proof.
  intros T T' K [I|[F [P|(t & cs & b & C & I & N)]]]; [left; exact I|right; split; [exact F|left; apply (lone_kept h); auto]|].
  right. split; [exact F|]. right. exists t, cs, b. split; [apply (chain_kept h); auto|]. auto.
Qed.
Lemma obtain_one h0 h ex c r h' : class_table h -> (List.length (h_cls h0) <= List.length (h_cls h))%nat ->
  (lone_point h c \/ exists t cs b, class_chain h t (c :: cs) b /\ forall x, In x (c :: cs) -> plain_name (class_name h x)) ->
  clone_or_reuse ex c h = Ok r h' ->
  class_table h' /\ classes_kept h h' /\ obtained h0 h' ex r /\ (lone_point h c -> In r ex \/ lone_point h' r).
Proof.
  intros T L0 U E. unfold clone_or_reuse in E. rewrite bind_gets in E.
  destruct (name_idx h (class_name h c) ex) as [i|].
  { destruct (nth_error ex i) as [d|] eqn:X; [|discriminate]. injection E as <- <-.
    split; [exact T|]. split; [apply kept_refl|]. split; [left|left]; eapply nth_error_In; exact X. }
  destruct U as [[P S]|(t & cs & b & C & N)].
  - assert (Lc : clive h c) by (apply (sub_live h c cPoint T); [cbv; lia|exact P]).
    set (o := ClsObj (class_name h c) (Some c) (c_super (cob h c)) (c_sub (cob h c))).
    assert (X : clone_class c h = Ok (List.length (h_cls h)) (push_cls o h)).
    { unfold clone_class. cbn [clone_n]. rewrite bind_gets, bind_gets, P.
      rewrite (kinds_apart h c cPoint cInterval T); [|simpl; auto|simpl; auto|discriminate|exact P].
      rewrite bind_gets. apply type_copy_eq. }
    rewrite X in E. injection E as <- <-.
    assert (T1 : class_table (push_cls o h)) by (apply push_table; [exact T|intros x [= <-]; exact Lc]).
    split; [exact T1|]. split; [apply kept_push|]. enough (LP : lone_point (push_cls o h) (List.length (h_cls h))).
    { split; [|right; exact LP]. right. split; [exact L0|]. left. exact LP. }
    split.
    + rewrite sub_step; [|apply table_wf; exact T1|apply clive_push_new]. rewrite cob_push_new. change (c_base o) with (Some c). cbv iota beta.
      rewrite (kept_sub h (push_cls o h) c _ (table_wf h T) (table_wf _ T1) (kept_push _ _) Lc), P. apply orb_true_r.
    + exact (eq_trans (copy_look h c (class_name h c) true (table_wf h T) Lc) S).
  - destruct (c13_clone h t c cs b T C N) as (h1 & t' & c' & cs' & b' & X & C' & F & _ & _ & K & _ & T' & _).
    rewrite X in E. injection E as <- <-. split; [exact T'|]. split; [exact K|].
    assert (FR : forall x, In x (c' :: cs') -> (List.length (h_cls h0) <= x)%nat).
    { intros x Hx. clear -F Hx L0. induction F as [|a y l m (A & _) F' IHF]; [destruct Hx|]. destruct Hx as [<-|Hx]; [lia|auto]. }
    split.
    + right. split; [apply FR; left; reflexivity|]. right. exists t', (c' :: cs'), b'. split; [exact C'|]. split; [left; reflexivity|exact FR].
    + intros [P _]. exfalso. destruct C as (_ & _ & _ & _ & IV & _). specialize (IV c (or_introl eq_refl)).
      rewrite (kinds_apart h c cPoint cInterval T) in IV; [discriminate|simpl; auto|simpl; auto|discriminate|exact P].
Qed.
Lemma obtain_all h0 ex l : forall h r h', class_table h -> (List.length (h_cls h0) <= List.length (h_cls h))%nat ->
  (forall c, In c l -> lone_point h c \/ exists t cs b, class_chain h t (c :: cs) b /\ forall x, In x (c :: cs) -> plain_name (class_name h x)) ->
  mapM (clone_or_reuse ex) l h = Ok r h' ->
  class_table h' /\ classes_kept h h' /\ (forall c, In c r -> obtained h0 h' ex c) /\
  ((forall c, In c l -> lone_point h c) -> forall c, In c r -> In c ex \/ lone_point h' c).
Proof.
  induction l as [|c l IH]; intros h r h' T L0 U E; simpl in E.
  { injection E as <- <-. split; [exact T|]. split; [apply kept_refl|]. split; [intros c []|intros _ c []]. }
  unfold bind in E. destruct (clone_or_reuse ex c h) as [c1 h1|] eqn:E1; [|discriminate].
  destruct (mapM (clone_or_reuse ex) l h1) as [r2 h2|] eqn:E2; [|discriminate]. injection E as <- <-.
  destruct (obtain_one h0 h ex c c1 h1 T L0 (U c (or_introl eq_refl)) E1) as (T1 & K1 & O1 & P1).
  destruct (IH h1 r2 h2 T1) as (T2 & K2 & O2 & P2); [destruct K1; lia| |exact E2|].
  { intros d Hd. destruct (U d (or_intror Hd)) as [P|(t & cs & b & C & N)]; [left; apply (lone_kept h); auto|].
    right. exists t, cs, b. split; [apply (chain_kept h); auto|]. intros x Hx. specialize (N x Hx).
    unfold class_name in *. destruct K1 as (_ & K1 & _). rewrite K1; [exact N|].
    apply (chain_live h t (d :: cs) b x T C). right. apply in_app_iff. auto. }
  split; [exact T2|]. split; [apply (kept_trans h h1); auto|]. split; [intros d [<-|Hd]; [apply (obtained_kept h0 h1); auto|apply O2; exact Hd]|].
  intros A d [<-|Hd].
  - destruct (P1 (A c (or_introl eq_refl))) as [I|I]; [auto|right; apply (lone_kept h1); auto].
  - apply P2; [|exact Hd]. intros x Hx. apply (lone_kept h); auto. apply A. right. exact Hx.
Qed.
Lemma hier_point h c out : lone_point h c -> exists h', get_class_hierarchy c out h = Raise TypeError h'.
Proof.
  intros [_ Sn]. unfold get_class_hierarchy. replace (2 * List.length (h_cls h) + 2)%nat with (S (2 * List.length (h_cls h) + 1))%nat by lia.
  cbn [hier_n]. rewrite bind_gets, Sn. eexists. reflexivity.
Qed.
Lemma hier_all h0 h ex l : class_table h -> whole_chains h ex -> (forall c, In c l -> obtained h0 h ex c) ->
  forall r h', mapM (fun c => get_class_hierarchy c []) l h = Ok r h' -> h' = h /\
  forall cs, In cs r -> (incl cs ex \/ forall x, In x cs -> (List.length (h_cls h0) <= x)%nat) /\ exists t b, class_chain h t cs b.
Proof.
  intros T WC. induction l as [|c l IH]; intros O r h' E; simpl in E.
  { injection E as <- <-. split; [reflexivity|]. intros cs []. }
  unfold bind in E. destruct (get_class_hierarchy c [] h) as [c1 h1|] eqn:E1; [|discriminate].
  assert (X : h1 = h /\ (incl c1 ex \/ forall x, In x c1 -> (List.length (h_cls h0) <= x)%nat) /\ exists t b, class_chain h t c1 b).
  { assert (G : forall t cs b, class_chain h t cs b -> In c cs -> h1 = h /\ c1 = cs).
    { intros t cs b C I. rewrite (c14_chain h t cs b [] c T C I) in E1; [|intros x _ []]. simpl in E1. injection E1 as -> ->. auto. }
    assert (NP : ~ lone_point h c) by (intros P; destruct (hier_point h c [] P) as [h2 Q]; congruence).
    destruct (O c (or_introl eq_refl)) as [I|[F [P|(t & cs & b & C & I & N)]]]; [|contradiction|].
    - destruct (WC c I) as [P|(t & cs & b & C & I2 & N)]; [contradiction|]. destruct (G t cs b C I2) as [-> ->].
      split; [reflexivity|]. split; [left; exact N|]. eexists _, _; exact C.
    - destruct (G t cs b C I) as [-> ->]. split; [reflexivity|]. split; [right; exact N|]. eexists _, _; exact C. }
  destruct X as (-> & X1 & X2). destruct (mapM _ l h) as [r2 h2|] eqn:E2; [|discriminate]. injection E as <- <-.
  destruct (IH (fun x Hx => O x (or_intror Hx)) r2 h2 eq_refl) as [-> Y]. split; [reflexivity|].
  intros cs [<-|Hcs]; [auto|apply Y; exact Hcs].
Qed.
Lemma tops_in l : forall h r h', filterM is_top_cls l h = Ok r h' -> h' = h /\ forall c, In c r -> In c l /\
  issubclass h c cInterval = true /\ exists q, superset_class h c = Some q /\ issubclass h q cTop = true.
Proof.
  induction l as [|c l IH]; intros h r h' E; simpl in E.
  { injection E as <- <-. split; [reflexivity|]. intros c []. }
  unfold is_top_cls at 1 in E. unfold bind in E at 1. rewrite bind_gets in E.
  destruct (issubclass h c cInterval) eqn:Ic.
  - rewrite bind_gets in E. destruct (superset_class h c) as [q|] eqn:Sq; [|discriminate]. unfold issubclass_m, gets in E.
    unfold bind in E. destruct (filterM is_top_cls l h) as [r2 h2|] eqn:E2; [|discriminate]. injection E as <- <-.
    destruct (IH h r2 h2 E2) as [-> Y]. split; [reflexivity|]. intros d Hd.
    assert (D : d = c /\ issubclass h q cTop = true \/ In d r2) by (destruct (issubclass h q cTop); [destruct Hd; auto|auto]).
    destruct D as [[-> Z]|D]; [split; [left; reflexivity|]; split; [exact Ic|]; exists q; auto|].
    destruct (Y d D) as (Y1 & Y2). split; [right; exact Y1|exact Y2].
  - unfold ret, bind in E. destruct (filterM is_top_cls l h) as [r2 h2|] eqn:E2; [|discriminate]. injection E as <- <-.
    destruct (IH h r2 h2 E2) as [-> Y]. split; [reflexivity|]. intros d D. destruct (Y d D) as (Y1 & Y2). split; [right; exact Y1|exact Y2].
Qed.
Lemma dedup_in c l : In c (dedup l) -> In c l.
Proof.
  induction l as [|x l IH]; simpl; [auto|]. intros [<-|I]; [auto|]. apply filter_In in I. right. apply IH, I.
Qed.
Lemma reclone_ok h a flat h' : class_table h -> (forall c, In c flat -> grid_class h c) -> whole_chains h (a_cloned (aob h a)) -> alive h a ->
  reclone a flat h = Ok tt h' ->
  class_table h' /\ (h_seq h' = h_seq h /\ h_tier h' = h_tier h /\ h_grp h' = h_grp h) /\ List.length (h_grid h') = List.length (h_grid h) /\
  (forall x, x <> a -> aob h' x = aob h x) /\ a_groups (aob h' a) = a_groups (aob h a) /\
  whole_chains h' (a_cloned (aob h' a)) /\ incl (a_cloned (aob h a)) (a_cloned (aob h' a)) /\
  forall c, In c (a_cloned (aob h' a)) -> In c (a_cloned (aob h a)) \/ (List.length (h_cls h) <= c)%nat.
Proof.
  intros T U WC La E. unfold reclone in E. destruct flat as [|f0 fl]; [discriminate|]. set (flat := f0 :: fl) in *.
  rewrite bind_gets, bind_gets in E. set (ex := a_cloned (aob h a)) in *.
  unfold bind in E at 1. destruct (filterM is_top_cls (dedup flat) h) as [tops h1|] eqn:E1; [|discriminate].
  destruct (tops_in _ _ _ _ E1) as [-> TP].
  unfold bind in E at 1. destruct (mapM _ (List.filter _ _) h) as [pcl h2|] eqn:E2; [|discriminate].
  assert (AL : forall c, In c (List.filter (fun c => issubclass h c cPoint) (dedup flat)) -> lone_point h c).
  { intros c Hc. apply filter_In in Hc. destruct Hc as [I P]. apply dedup_in in I. destruct (U c I) as [L|(t & cs & b & C & I2 & N)]; [auto|].
    exfalso. destruct C as (_ & _ & _ & _ & IV & _). specialize (IV c I2).
    rewrite (kinds_apart h c cPoint cInterval T) in IV; [discriminate|simpl; auto|simpl; auto|discriminate|exact P]. }
  destruct (obtain_all h ex _ h pcl h2 T (le_n _) (fun c Hc => or_introl (AL c Hc)) E2) as (T2 & K2 & O2 & P2). specialize (P2 AL).
  unfold bind in E at 1. destruct (mapM _ tops h2) as [tcl h3|] eqn:E3; [|discriminate].
  destruct (obtain_all h ex tops h2 tcl h3 T2) with (3 := E3) as (T3 & K3 & O3 & _); [destruct K2; lia| |].
  { intros c Hc. destruct (TP c Hc) as (I & Iv & q & Sq & Tq). apply dedup_in in I. right.
    destruct (U c I) as [[P _]|(t & cs & b & C & I2 & N)].
    { rewrite (kinds_apart h c cPoint cInterval T) in Iv; [discriminate|simpl; auto|simpl; auto|discriminate|exact P]. }
    destruct (top_heads h t cs b c q T C I2 Sq Tq) as [cs' ->].
    exists t, cs', b. split; [apply (chain_kept h); auto|]. intros x Hx. specialize (N x Hx).
    unfold class_name in *. destruct K2 as (_ & K2 & _). rewrite K2; [exact N|].
    apply (chain_live h t (c :: cs') b x T C). right. apply in_app_iff. auto. }
  assert (K : classes_kept h h3) by (apply (kept_trans h h2); auto).
  assert (WC3 : whole_chains h3 ex) by (apply (whole_kept h); auto).
  unfold bind in E at 1. destruct (mapM _ tcl h3) as [fulls h4|] eqn:E4; [|discriminate].
  destruct (hier_all h h3 ex tcl T3 WC3 O3 fulls h4 E4) as [-> HF].
  unfold mod_grid, modify in E. injection E as <-.
  assert (La3 : alive h3 a) by (destruct K as (_ & _ & _ & _ & _ & K); unfold alive in *; rewrite K; exact La).
  assert (AE : aob h3 a = aob h a) by (destruct K as (_ & _ & _ & _ & _ & K); unfold aob; rewrite K; reflexivity).
  set (h5 := upd_grid a _ h3).
  assert (A5 : aob h5 a = set_a_cloned (ex ++ pcl ++ concat fulls)%list (aob h a)).
  { unfold h5. unfold aob at 1, upd_grid. cbn [h_grid]. rewrite list_lookup_alter. unfold alive in La3.
    destruct (lookup_lt_is_Some_2 _ _ La3) as [o Eo]. rewrite Eo. simpl. unfold aob in AE. rewrite Eo in AE. simpl in AE. subst o. reflexivity. }
  split; [exact T3|]. split; [destruct K as (_ & _ & K); intuition|].
  split; [destruct K as (_ & _ & _ & _ & _ & K); unfold h5, upd_grid; simpl; rewrite alter_length, K; reflexivity|]. split.
  { intros x N. destruct K as (_ & _ & _ & _ & _ & K). unfold h5, aob, upd_grid. cbn [h_grid]. rewrite list_lookup_alter_ne by auto. rewrite K. reflexivity. }
  rewrite A5. cbn [set_a_cloned a_groups a_cloned]. split; [reflexivity|]. split; [|split].
  - intros c Hc. change (lone_point h5 c) with (lone_point h3 c). change (class_chain h5) with (class_chain h3).
    apply in_app_iff in Hc. destruct Hc as [Hc|Hc].
    { destruct (WC3 c Hc) as [P|(t & cs & b & C & I & N)]; [auto|]. right. exists t, cs, b. split; [exact C|]. split; [exact I|].
      intros x Hx. apply in_app_iff. left. apply N. exact Hx. }
    apply in_app_iff in Hc. destruct Hc as [Hc|Hc].
    + destruct (P2 c Hc) as [I|P]; [|left; apply (lone_kept h2); auto].
      destruct (WC3 c I) as [P|(t & cs & b & C & I2 & N)]; [auto|]. right. exists t, cs, b. split; [exact C|]. split; [exact I2|].
      intros x Hx. apply in_app_iff. left. apply N. exact Hx.
    + apply in_concat in Hc. destruct Hc as (cs & Hcs & Hc). right. destruct (HF cs Hcs) as (_ & t & b & C). exists t, cs, b.
      split; [exact C|]. split; [exact Hc|]. intros x Hx. apply in_app_iff. right. apply in_app_iff. right. apply in_concat. eauto.
  - intros x Hx. apply in_app_iff. auto.
  - intros c Hc. apply in_app_iff in Hc. destruct Hc as [Hc|Hc]; [auto|]. apply in_app_iff in Hc. destruct Hc as [Hc|Hc].
    + destruct (O2 c Hc) as [I|[F _]]; auto.
    + apply in_concat in Hc. destruct Hc as (cs & Hcs & Hc). destruct (HF cs Hcs) as ([I|F] & _); auto.
Qed.

(** ** Building a tier anew gives it the class asked for *)
Section Owning.
Context `{Env}.
Definition same_grp (h h' : heap) : Prop := h_grp h' = h_grp h.
#[export] Instance same_grp_pre : PreOrder same_grp.
Proof. split; unfold same_grp; red; [reflexivity|intros; congruence]. Qed.
Lemma calm_grp {A} (m : M A) : calm m -> under same_grp m.
Proof. intros C h. apply C. Qed.
Lemma grp_mod_tier i f : under same_grp (mod_tier i f).
Proof. intros h. reflexivity. Qed.
Lemma grp_alloc_tier o : under same_grp (alloc_tier o).
Proof. intros h. reflexivity. Qed.
Lemma grp_cast c o : under same_grp (cast c o).
Proof. apply calm_grp, calm_cast. Qed.
Lemma grp_new_obj c s e l : under same_grp (new_obj c s e l).
Proof. apply calm_grp, calm_new_obj. Qed.
Lemma grp_set_seq t l : under same_grp (tier_set_seq t l).
Proof. apply calm_grp, calm_tier_set_seq. Qed.
Lemma grp_tier_prec t : under same_grp (tier_precedence t).
Proof. apply calm_grp, calm_tier_precedence. Qed.
Lemma grp_precedence t l p : under same_grp (precedence (fun x => mod_seq x (set_s_intier (Some t))) p l).
Proof. apply calm_grp, calm_precedence. intros. apply calm_mod_seq. Qed.
Lemma grp_sl_append v x b : under same_grp (sl_append v x b).
Proof. apply calm_grp, calm_sl_append. Qed.
Lemma grp_store t v : under same_grp (store_seq t v).
Proof. apply calm_grp, calm_store_seq. Qed.
Lemma grp_rebind t v : under same_grp (rebind_seq t v).
Proof. unfold rebind_seq. apply calm_grp. apply calm_rebind_seq. Qed.
Lemma grp_tier_contains t : under same_grp (tier_set_contains t).
Proof. apply calm_grp, calm_tier_set_contains. Qed.
Hint Resolve grp_tier_contains grp_mod_tier grp_alloc_tier grp_cast grp_new_obj grp_set_seq grp_tier_prec grp_precedence grp_sl_append grp_store grp_rebind : own.
Lemma grp_cast_entry c e : under same_grp (cast_entry c e).
Proof. unfold cast_entry. under. Qed.
Lemma grp_src_class d s ec : under same_grp (src_class d s ec).
Proof. unfold src_class. under. Qed.
Lemma grp_entry_time e : under same_grp (entry_time e).
Proof. unfold entry_time. under. Qed.
Hint Resolve grp_cast_entry grp_src_class grp_entry_time : own.
Lemma grp_itier t s ec : under same_grp (itier_init t s ec).
Proof. unfold itier_init. under. Qed.
Lemma grp_ptier t s ec : under same_grp (ptier_init t s ec).
Proof. unfold ptier_init, ptier_precedence. under. Qed.
Hint Resolve grp_itier grp_ptier : own.
Lemma grp_reinit_same t s c : under same_grp (tier_reinit t s c).
Proof. unfold tier_reinit. under. Qed.
Hint Resolve grp_reinit_same : own.
Lemma grp_recast cs : forall ts, under same_grp (recast_tiers cs ts).
Proof. induction cs as [|c cs IH]; intros [|t ts]; simpl; under. Qed.

Lemma under_ok (R : heap -> heap -> Prop) {A} (m : M A) h a h' : under R m -> m h = Ok a h' -> R h h'.
Proof. intros U E. specialize (U h). rewrite E in U. exact U. Qed.
Lemma ok_bind {A B} (m : M A) (k : A -> M B) h b h' : bind m k h = Ok b h' -> exists a h1, m h = Ok a h1 /\ k a h1 = Ok b h'.
Proof. unfold bind. destruct (m h) as [a h1|]; [eauto|discriminate]. Qed.
Definition none : tid -> Prop := fun _ => False.
Lemma none_mod t f : (forall o, t_ec (f o) = t_ec o) -> under (still none) (mod_tier t f).
Proof. intros K. apply still_mod_tier. right. exact K. Qed.
Hint Resolve still_cast_entry still_set_seq still_tier_prec still_entry_time still_rebind still_sl_append still_store still_tier_contains still_precedence still_cast : own.
Lemma set_class t c h : tlive h t -> t_ec (tob (upd_tier t (set_t_ec c) h) t) = c.
Proof. intros L. rewrite tob_upd_eq by exact L. reflexivity. Qed.
Lemma itier_class t s c h h' : tlive h t -> itier_init t s (Some c) h = Ok tt h' -> t_ec (tob h' t) = c.
Proof.
  intros L E. unfold itier_init in E. cbn [src_class] in E. rewrite bind_ret, bind_gets, bind_gets in E.
  apply ok_bind in E. destruct E as (z1 & h1 & E1 & E). apply ok_bind in E. destruct E as (z2 & h2 & E2 & E).
  apply ok_bind in E. destruct E as (z3 & h3 & E3 & E).
  assert (L3 : tlive h3 t).
  { pose proof (under_ok _ _ _ _ _ (still_mod_tier (fun _ => True) t (set_t_entries (src_check h s)) (or_introl I)) E1) as (_ & _ & A & _).
    pose proof (under_ok _ _ _ _ _ (still_mod_tier (fun _ => True) t (set_t_name (src_name h s c)) (or_introl I)) E2) as (_ & _ & B & _).
    pose proof (under_ok _ _ _ _ _ (still_rebind (fun _ => True) t sl_empty) E3) as (_ & _ & C & _). unfold tlive in *. lia. }
  apply ok_bind in E. destruct E as (z4 & h4 & E4 & E). unfold mod_tier, modify in E4. injection E4 as <- <-.
  set (h4 := upd_tier t (set_t_ec c) h3) in *.
  assert (L4 : tlive h4 t) by (unfold tlive, h4, upd_tier in *; simpl; rewrite alter_length; exact L3).
  rewrite <- (set_class t c h3 L3). fold h4.
  assert (U : under (still none) (pt <- gets (fun h => is_point_cls h c) ;;
    if (pt : bool) then raise AttributeError
    else
      sup <- gets (fun h => superset_class h c) ;;
      sub <- gets (fun h => subset_class h c) ;;
      mod_tier t (set_t_super sup) ;;;
      mod_tier t (set_t_sub sub) ;;;
      os <- mapM (cast_entry c) (src_check h s) ;;
      tier_set_seq t os ;;;
      tier_precedence t)).
  { under; apply none_mod; reflexivity. }
  destruct (under_ok _ _ _ _ _ U E) as (_ & _ & _ & K). apply K; [exact L4|intros []].
Qed.
Lemma ptier_class t s c h h' : tlive h t -> ptier_init t s (Some c) h = Ok tt h' -> t_ec (tob h' t) = c.
Proof.
  intros L E. unfold ptier_init in E. cbn [src_class] in E. rewrite bind_ret, bind_gets, bind_gets in E.
  apply ok_bind in E. destruct E as (z1 & h1 & E1 & E). apply ok_bind in E. destruct E as (z4 & h4 & E4 & E).
  assert (L3 : tlive h1 t).
  { pose proof (under_ok _ _ _ _ _ (still_mod_tier (fun _ => True) t (set_t_entries (ptier_entries h s)) (or_introl I)) E1) as (_ & _ & A & _).
    unfold tlive in *. lia. }
  unfold mod_tier, modify in E4. injection E4 as <- <-.
  set (h4 := upd_tier t (set_t_ec c) h1) in *.
  assert (L4 : tlive h4 t) by (unfold tlive, h4, upd_tier in *; simpl; rewrite alter_length; exact L3).
  rewrite <- (set_class t c h1 L3). fold h4.
  match type of E with ?m h4 = _ => assert (U : under (still none) m) end.
  { unfold ptier_precedence. under; apply none_mod; reflexivity. }
  destruct (under_ok _ _ _ _ _ U E) as (_ & _ & _ & K). apply K; [exact L4|intros []].
Qed.
Lemma reinit_class t s c h h' : tlive h t -> tier_reinit t s c h = Ok tt h' -> t_ec (tob h' t) = c.
Proof.
  intros L E. unfold tier_reinit in E. rewrite bind_gets in E. destruct (is_point_tier h t); [eapply ptier_class|eapply itier_class]; eauto.
Qed.
Lemma recast_class l cs : forall ts h h', List.length cs = List.length ts -> incl cs l -> (forall t, In t ts -> tlive h t) ->
  recast_tiers cs ts h = Ok tt h' ->
  still (fun t => In t ts) h h' /\ forall t, In t ts -> In (t_ec (tob h' t)) l.
Proof.
  induction cs as [|c cs IH]; intros [|t ts] h h' Len Inc Liv E; try discriminate.
  { injection E as <-. split; [reflexivity|intros t []]. }
  cbn [recast_tiers] in E. rewrite bind_gets in E. apply ok_bind in E. destruct E as (z1 & h1 & E1 & E).
  assert (S1 : still none h h1).
  { eapply under_ok; [|exact E1]. under. }
  apply ok_bind in E. destruct E as ([] & h2 & E2 & E).
  assert (S2 : still (fun u => u = t) h1 h2) by (eapply under_ok; [|exact E2]; apply still_reinit; reflexivity).
  assert (L1 : tlive h1 t) by (destruct S1 as (_ & _ & S1 & _); specialize (Liv t (or_introl eq_refl)); unfold tlive in *; lia).
  pose proof (reinit_class _ _ _ _ _ L1 E2) as C2.
  assert (LL : forall u, tlive h u -> tlive h2 u) by (destruct S1 as (_ & _ & S1 & _), S2 as (_ & _ & S2 & _); unfold tlive; intros; lia).
  destruct (IH ts h2 h') as [S3 C3]; [simpl in Len; lia|intros x Hx; apply Inc; right; exact Hx| |exact E|].
  { intros v Hv. apply LL. apply Liv. right. exact Hv. }
  split.
  - destruct S1 as (A1 & A2 & A3 & A4), S2 as (B1 & B2 & B3 & B4), S3 as (D1 & D2 & D3 & D4).
    split; [congruence|]. split; [congruence|]. split; [lia|]. intros u Lu N.
    assert (L1u : tlive h1 u) by (unfold tlive in *; lia).
    rewrite D4; [|apply LL; exact Lu|intros X; apply N; right; exact X].
    rewrite B4; [|exact L1u|intros ->; apply N; left; reflexivity]. apply A4; [exact Lu|intros []].
  - intros u [<-|Hu]; [|apply C3; exact Hu].
    destruct (in_dec Nat.eq_dec t ts) as [I|I]; [apply C3; exact I|].
    destruct S3 as (_ & _ & _ & D4). rewrite D4; [|apply LL; apply Liv; left; reflexivity|exact I]. rewrite C2. apply Inc. left. reflexivity.
Qed.
Lemma swap_in l2 l : forall h r h', swap_classes l l2 h = Ok r h' -> h' = h /\ incl r l2 /\ List.length r = List.length l.
Proof.
  unfold swap_classes. induction l as [|c l IH]; intros h r h' E; simpl in E.
  { injection E as <- <-. split; [reflexivity|]. split; [intros x []|reflexivity]. }
  rewrite bind_assoc, bind_gets in E. destruct (name_idx h (class_name h c) l2) as [i|]; [|discriminate].
  destruct (nth_error l2 i) as [d|] eqn:X; [|discriminate]. cbn [of_opt] in E. rewrite bind_ret in E.
  apply ok_bind in E. destruct E as (r2 & h2 & E2 & E). injection E as <- <-.
  destruct (IH h r2 h2 E2) as (-> & I & L). split; [reflexivity|]. split; [|simpl; lia].
  intros x [<-|Hx]; [eapply nth_error_In; exact X|apply I; exact Hx].
Qed.
End Owning.

(** ** Appending a group *)
Section Appending.
Context `{Env}.
Hint Resolve still_grp_name fits_grp_name still_mod_grp : own.
Definition was (h : heap) : gid -> tid -> Prop := fun g t => In t (g_tiers (gob h g)).
Lemma was_self h : bounded (was h) 0 h.
Proof. split; [lia|]. intros g t I. exact I. Qed.
Definition same_grid (h h' : heap) : Prop := h_grid h' = h_grid h.
Lemma whole_cls h h' l : h_cls h' = h_cls h -> whole_chains h l -> whole_chains h' l.
Proof.
  intros E. destruct h, h'; simpl in E; subst. intros W c Hc. exact (W c Hc).
Qed.
Lemma table_cls h h' : h_cls h' = h_cls h -> class_table h -> class_table h'.
Proof. intros E. destruct h, h'; simpl in E; subst. auto. Qed.
Lemma whole_untouched h h' l : class_table h -> class_table h' -> classes_untouched h h' -> whole_chains h l -> whole_chains h' l.
Proof.
  intros T T' [L K] W. set (x := Heap (h_cls h') (h_seq h) (h_tier h) (h_grp h) (h_grid h)).
  assert (Tx : class_table x) by (apply (table_cls h'); auto).
  apply (whole_cls x); [reflexivity|]. apply (whole_kept h); auto. unfold classes_kept. split; [exact L|]. split; [exact K|]. auto.
Qed.
Lemma table_live h l c : class_table h -> whole_chains h l -> In c l -> clive h c.
Proof.
  intros T W I. destruct (W c I) as [[P _]|(t & cs & b & C & J & _)].
  - apply (sub_live h c cPoint T); [cbv; lia|exact P].
  - apply (chain_live h t cs b c T C). right. apply in_app_iff. auto.
Qed.
Lemma set_groups_same a gs : forall h h', alive h a -> gs <> [] -> set_tier_groups a gs h = Ok tt h' ->
  h_cls h' = h_cls h /\ h_tier h' = h_tier h /\ (forall b, b <> a -> aob h' b = aob h b) /\
  aob h' a = set_a_groups gs (aob h a) /\ (forall W k, bounded W k h -> bounded W k h') /\ List.length (h_grid h') = List.length (h_grid h).
Proof.
  intros h h' La NE E. unfold set_tier_groups in E. destruct gs as [|g0 gs0]; [contradiction|]. set (gs := g0 :: gs0) in *.
  apply ok_bind in E. destruct E as (z & h1 & E1 & E). unfold mod_grid, modify in E1. injection E1 as <- <-.
  set (h1 := upd_grid a (set_a_groups gs) h) in *.
  assert (X : forall l h2, forM l (fun g => mod_grp g (set_g_within (Some (WGrid a)))) h1 = Ok tt h2 -> still none h1 h2 /\ h_tier h2 = h_tier h1).
  { intros l h2 X. split; [eapply under_ok; [|exact X]; under|].
    clear -X. revert X. generalize h1. induction l as [|x l IH]; intros h0 X; simpl in X; [injection X as <-; reflexivity|].
    apply ok_bind in X. destruct X as (z & h3 & X1 & X). unfold mod_grp, modify in X1. injection X1 as <- <-.
    rewrite (IH _ X). reflexivity. }
  destruct (X gs h' E) as [(C1 & G1 & _ & _) T1].
  split; [exact C1|]. split; [exact T1|].
  assert (AE : forall b, aob h' b = aob h1 b) by (intros b; unfold aob; rewrite G1; reflexivity).
  split; [intros b N; rewrite AE; unfold h1, aob, upd_grid; cbn [h_grid]; rewrite list_lookup_alter_ne by auto; reflexivity|].
  split; [rewrite AE; unfold h1, aob, upd_grid; cbn [h_grid]; rewrite list_lookup_alter; unfold alive in La;
          destruct (lookup_lt_is_Some_2 _ _ La) as [o Eo]; rewrite Eo; reflexivity|].
  split; [|rewrite G1; unfold h1, upd_grid; simpl; apply alter_length].
  intros W k B. assert (B1 : bounded W k h1) by exact B. revert B1.
  change (keeps (bounded W k) h1 h'). eapply under_ok; [|exact E].
  under; apply fits_mod_grp; intros o; left; reflexivity.
Qed.
Lemma group_names_same a h h' : set_group_names a h = Ok tt h' ->
  still none h h' /\ forall W k, bounded W k h -> bounded W k h'.
Proof.
  intros E. unfold set_group_names, get_grid in E. rewrite bind_gets in E. split.
  - eapply under_ok; [|exact E]. under.
  - intros W k. change (keeps (bounded W k) h h'). eapply under_ok; [|exact E]. under.
Qed.

Lemma append_own n h a g h' : class_table h -> alive h a -> grid_owns h a ->
  (forall t, In t (g_tiers (gob h g)) -> tlive h t /\ grid_class h (t_ec (tob h t))) ->
  (forall t, in_grid h a t -> tlive h t) ->
  grid_append n a g h = Ok tt h' ->
  class_table h' /\ grid_owns h' a /\ a_groups (aob h' a) = (a_groups (aob h a) ++ [g])%list /\
  (forall c, In c (a_cloned (aob h' a)) -> In c (a_cloned (aob h a)) \/ newly_made h h' c) /\
  (forall b, b <> a -> aob h' b = aob h b) /\
  (forall t, tlive h t -> ~ In t (g_tiers (gob h g)) -> t_ec (tob h' t) = t_ec (tob h t)) /\
  (forall b t, b <> a -> in_grid h' b t -> in_grid h b t) /\
  (List.length (h_tier h) <= List.length (h_tier h'))%nat /\ List.length (h_grid h') = List.length (h_grid h) /\
  (List.length (h_cls h) <= List.length (h_cls h'))%nat.
Proof.
  intros T La [WC OW] GC LV E. pose proof (tri_run (grid_append n a g) h (tri_grid_append h n a g)) as UT. rewrite E in UT. cbn [heap_of] in UT. destruct UT as [UT _].
  unfold grid_append, get_grp in E. rewrite bind_gets, bind_gets in E.
  set (ts := g_tiers (gob h g)) in *. set (ecs := map (fun t => t_ec (tob h t)) ts) in *.
  apply ok_bind in E. destruct E as ([] & h1 & E1 & E).
  destruct (reclone_ok h a ecs h1 T) with (4 := E1) as (T1 & (S1 & R1 & G1) & N1 & A1 & B1 & W1 & I1 & F1); [|exact WC|exact La|].
  { intros c Hc. unfold ecs in Hc. apply in_map_iff in Hc. destruct Hc as (t & <- & Ht). apply GC. exact Ht. }
  rewrite bind_gets in E. apply ok_bind in E. destruct E as (ncs & h2 & E2 & E). apply swap_in in E2. destruct E2 as (-> & I2 & L2).
  apply ok_bind in E. destruct E as ([] & h3 & E3 & E).
  destruct (recast_class (a_cloned (aob h1 a)) ncs ts h1 h3) with (4 := E3) as [S3 C3]; [unfold ecs in L2; rewrite map_length in L2; exact L2|exact I2| |].
  { intros t Ht. unfold tlive. rewrite R1. apply GC. exact Ht. }
  pose proof (under_ok _ _ _ _ _ (grp_recast ncs ts) E3) as G3. unfold same_grp in G3.
  apply ok_bind in E. destruct E as ([] & h4 & E4 & E). unfold grp_reinit in E4.
  pose proof (under_ok _ _ _ _ _ (still_re_relate none n g) E4) as S4.
  pose proof (fun W k => under_ok _ _ _ _ _ (fits_re_relate W k n g) E4) as B4.
  rewrite bind_gets in E. apply ok_bind in E. destruct E as ([] & h5 & E5 & E).
  assert (AL : alive h4 a /\ alive h1 a).
  { assert (X : alive h1 a).
    { unfold alive. rewrite N1. exact La. }
    split; [|exact X]. destruct S3 as (_ & S3 & _), S4 as (_ & S4 & _). unfold alive in *. rewrite S4, S3. exact X. }
  destruct AL as [AL4 AL1].
  destruct (set_groups_same a (a_groups (aob h4 a) ++ [g])%list h4 h5 AL4) with (2 := E5) as (C5 & R5 & A5 & D5 & B5 & N5); [destruct (a_groups _); discriminate|].
  destruct (group_names_same a h5 h' E) as [S6 B6].
  destruct S3 as (P3 & Q3 & N3 & K3), S4 as (P4 & Q4 & N4 & K4), S6 as (P6 & Q6 & N6 & K6).
  assert (AO : forall b, aob h4 b = aob h1 b) by (intros b; unfold aob; rewrite Q4, Q3; reflexivity).
  assert (AH : aob h' a = set_a_groups (a_groups (aob h1 a) ++ [g])%list (aob h1 a)).
  { unfold aob at 1. rewrite Q6. fold (aob h5 a). rewrite D5, AO. reflexivity. }
  assert (CL : h_cls h' = h_cls h1) by congruence.
  assert (LG : forall t, tlive h t -> tlive h' t) by (intros t; unfold tlive; rewrite R5 in *; rewrite R1 in *; lia).
  assert (EC : forall t, tlive h1 t -> t_ec (tob h' t) = t_ec (tob h3 t)).
  { intros t Lt. rewrite K6; [|unfold tlive in *; rewrite R5; lia|intros []]. unfold tob at 1. rewrite R5. fold (tob h4 t).
    apply K4; [unfold tlive in *; lia|intros []]. }
  assert (EO : forall t, tlive h t -> ~ In t ts -> t_ec (tob h' t) = t_ec (tob h t)).
  { intros t Lt Nt. assert (Lt1 : tlive h1 t) by (unfold tlive; rewrite R1; exact Lt).
    rewrite EC by exact Lt1. rewrite K3 by auto. unfold tob. rewrite R1. reflexivity. }
  assert (BW : bounded (was h) 0 h').
  { apply B6, B5, B4. split; [lia|]. intros x t. unfold gob. rewrite G3, G1. intros I. exact I. }
  assert (IG : forall t, in_grid h' a t -> In t ts \/ in_grid h a t).
  { intros t (x & Ix & It). rewrite AH in Ix. cbn [set_a_groups a_groups] in Ix. rewrite B1 in Ix. apply (proj2 BW) in It. unfold was in It.
    apply in_app_iff in Ix. destruct Ix as [Ix|[<-|[]]]; [right; exists x; auto|left; exact It]. }
  split; [apply (table_cls h1); auto|]. rewrite AH. cbn [set_a_groups a_groups a_cloned]. unfold grid_owns. rewrite AH. cbn [set_a_groups a_groups a_cloned].
  split; [split|].
  - apply (whole_cls h1); auto.
  - intros t It. destruct (in_dec Nat.eq_dec t ts) as [J|J].
    + rewrite EC; [apply C3; exact J|]. unfold tlive. rewrite R1. apply GC. exact J.
    + destruct (IG t It) as [K|K]; [contradiction|]. rewrite EO; [|apply LV; exact K|exact J]. apply I1, OW, K.
  - split; [rewrite B1; reflexivity|]. split; [|split; [|split; [|split; [|split; [|split]]]]].
    + intros c Hc. destruct (F1 c Hc) as [J|J]; [auto|right]. split; [exact J|]. rewrite CL. apply (table_live h1 (a_cloned (aob h1 a))); auto.
    + intros b Nb. unfold aob at 1. rewrite Q6. fold (aob h5 b). rewrite A5, AO, A1; auto.
    + exact EO.
    + intros b t Nb (x & Ix & It). exists x. split; [|apply (proj2 BW) in It; exact It].
      unfold aob in Ix at 1. rewrite Q6 in Ix. fold (aob h5 b) in Ix. rewrite A5, AO, A1 in Ix; auto.
    + rewrite R5 in N6. rewrite R1 in N3. lia.
    + rewrite Q6. rewrite <- N1, <- Q3, <- Q4. exact N5.
    + exact UT.
Qed.
End Appending.

(** ** Reading a textgrid *)
Section Reading.
Context `{Env}.
Hint Resolve still_grp_name fits_grp_name still_mod_grp still_new_tg still_new_pg : own.
Definition filled (cl : list cid) (h0 h : heap) (l : list tid) : Prop :=
  forall t, In t l -> (List.length (h_tier h0) <= t < List.length (h_tier h))%nat /\ In (t_ec (tob h t)) cl.
Lemma filled_still cl h0 h h' l : still none h h' -> filled cl h0 h l -> filled cl h0 h' l.
Proof.
  intros (_ & _ & N & K) F t It. destruct (F t It) as [A B]. split; [lia|]. rewrite K; [exact B|unfold tlive; lia|intros []].
Qed.
Lemma still_none_trans h1 h2 h3 : still none h1 h2 -> still none h2 h3 -> still none h1 h3.
Proof. intros A B. exact (transitivity A B). Qed.
Lemma new_tier_ok cl (pt : bool) s c h t h' : In c cl ->
  (if pt then new_ptier s (Some c) else new_itier s (Some c)) h = Ok t h' ->
  still none h h' /\ same_grp h h' /\ filled cl h h' [t].
Proof.
  intros I E.
  assert (X : exists c0, (u <- alloc_tier (blank_tier c0) ;; (if pt then ptier_init u s (Some c) else itier_init u s (Some c)) ;;; ret u) h = Ok t h').
  { destruct pt; eexists; exact E. }
  clear E. destruct X as [c0 E]. apply ok_bind in E. destruct E as (u & h1 & E1 & E).
  pose proof (under_ok _ _ _ _ _ (still_alloc_tier none (blank_tier c0)) E1) as S1.
  unfold alloc_tier in E1. injection E1 as <- <-. set (h1 := Heap _ _ _ _ _) in *. set (u := List.length (h_tier h)) in *.
  apply ok_bind in E. destruct E as ([] & h2 & E2 & E). injection E as <- <-.
  assert (Lu : tlive h1 u) by (unfold tlive, h1, u; simpl; rewrite app_length; simpl; lia).
  assert (S2 : still (fun x => x = u) h1 h2).
  { destruct pt; eapply under_ok; try exact E2; [apply still_ptier|apply still_itier]; reflexivity. }
  assert (G2 : same_grp h1 h2).
  { destruct pt; eapply under_ok; try exact E2; [apply grp_ptier|apply grp_itier]. }
  assert (C2 : t_ec (tob h2 u) = c) by (destruct pt; [eapply ptier_class|eapply itier_class]; eauto).
  destruct S1 as (A1 & A2 & A3 & A4), S2 as (B1 & B2 & B3 & B4).
  split; [|split; [exact G2|]].
  - split; [congruence|]. split; [congruence|]. split; [lia|]. intros t Lt _. rewrite B4; [apply A4; [exact Lt|intros []]| |].
    + unfold tlive in *. lia.
    + unfold tlive, u in *. lia.
  - intros t [<-|[]]. split; [|rewrite C2; exact I]. unfold tlive in Lu. unfold u in *. lia.
Qed.
Lemma filled_app cl h0 h a b : filled cl h0 h a -> filled cl h0 h b -> filled cl h0 h (a ++ b)%list.
Proof. intros A B t It. apply in_app_iff in It. destruct It; auto. Qed.
Lemma filled_from cl h0 h1 h l : still none h0 h1 -> filled cl h1 h l -> filled cl h0 h l.
Proof. intros (_ & _ & N & _) F t It. destruct (F t It) as [A B]. split; [lia|exact B]. Qed.
Lemma build_tiers_ok cl ps : forall h r h', (forall p, In p ps -> In (snd p) cl) -> build_tiers ps h = Ok r h' ->
  still none h h' /\ same_grp h h' /\ filled cl h h' (fst r ++ snd r)%list.
Proof.
  induction ps as [|[rt c] ps IH]; intros h r h' I E.
  { injection E as <- <-. split; [reflexivity|]. split; [reflexivity|]. intros t []. }
  cbn [build_tiers] in E. rewrite bind_gets, bind_gets in E.
  assert (Ic : In c cl) by (apply (I (rt, c)); left; reflexivity).
  assert (ONE : forall (b pt : bool) s h l h1,
    (if b then t <- (if pt then new_ptier s (Some c) else new_itier s (Some c)) ;; ret [t] else ret []) h = Ok l h1 ->
    still none h h1 /\ same_grp h h1 /\ filled cl h h1 l).
  { intros b pt s h2 l h3 X. destruct b.
    - apply ok_bind in X. destruct X as (t & h4 & X & Y). injection Y as <- <-. eapply new_tier_ok; eauto.
    - injection X as <- <-. split; [reflexivity|]. split; [reflexivity|]. intros t []. }
  apply ok_bind in E. destruct E as (p & h1 & E1 & E). destruct (ONE _ true _ h p h1 E1) as (S1 & G1 & F1).
  apply ok_bind in E. destruct E as (s & h2 & E2 & E). destruct (ONE _ false _ h1 s h2 E2) as (S2 & G2 & F2).
  apply ok_bind in E. destruct E as (q & h3 & E3 & E). injection E as <- <-.
  destruct (IH h2 q h3 (fun x Hx => I x (or_intror Hx)) E3) as (S3 & G3 & F3). cbn [fst snd].
  assert (S12 : still none h h2) by (eapply still_none_trans; eauto).
  split; [eapply still_none_trans; eauto|]. split; [unfold same_grp in *; congruence|].
  apply (filled_still _ _ _ _ _ S3) in F2. apply (filled_from _ _ _ _ _ S1) in F2.
  apply (filled_still _ _ _ _ _ S2), (filled_still _ _ _ _ _ S3) in F1. apply (filled_from _ _ _ _ _ S12) in F3.
  intros t It. rewrite !in_app_iff in It. destruct It as [[It|It]|[It|It]]; [apply F2; exact It| |apply F1; exact It|]; apply F3, in_app_iff; auto.
Qed.

Lemma new_group_ok (W : gid -> tid -> Prop) k (pt : bool) n l h g h' : (forall g t, (k <= g)%nat -> In t l -> W g t) ->
  (if pt then new_pg l else new_tg n l) h = Ok g h' -> bounded W k h ->
  still none h h' /\ bounded W k h' /\ (k <= g)%nat.
Proof.
  intros HW E B. split; [eapply under_ok; [|exact E]; destruct pt; [apply still_new_pg|apply still_new_tg]|].
  assert (X : exists o (m : gid -> M unit), g_tiers o = [] /\ (forall x, (k <= x)%nat -> under (keeps (bounded W k)) (m x)) /\ (x <- alloc_grp o ;; m x ;;; ret x) h = Ok g h').
  { destruct pt.
    - eexists _, (fun x => pg_init x l). split; [|split; [|exact E]]; [reflexivity|]. intros x Hx. apply fits_pg_init. intros t. apply HW; auto.
    - eexists _, (fun x => tg_init n x l None false). split; [|split; [|exact E]]; [reflexivity|]. intros x Hx. apply fits_tg_init. intros t. apply HW; auto. }
  destruct X as (o & m & O & HM & X). apply ok_bind in X. destruct X as (x & h1 & X1 & X).
  unfold alloc_grp in X1. injection X1 as <- <-. destruct B as [B0 B].
  apply ok_bind in X. destruct X as ([] & h2 & X2 & X). injection X as <- <-.
  split; [|exact B0]. specialize (HM _ B0). pose proof (under_ok _ _ _ _ _ HM X2) as K. apply K.
  split; [simpl; rewrite app_length; lia|]. intros y t. unfold gob. cbn [h_grp].
  destruct (lt_dec y (List.length (h_grp h))) as [L|L].
  - rewrite lookup_app_l by exact L. apply B.
  - rewrite lookup_app_r by lia. destruct (y - List.length (h_grp h))%nat as [|z]; simpl; [rewrite O|]; intros [].
Qed.
Lemma build_groups_still n tgs : forall css h gs h', build_groups n tgs css h = Ok gs h' -> still none h h'.
Proof.
  induction tgs as [|ts tgs IH]; intros [|cs css] h gs h' E; cbn [build_groups] in E; try (injection E as <- <-; reflexivity).
  apply ok_bind in E. destruct E as (b & h1 & E1 & E).
  destruct (build_tiers_ok (map snd (combine ts cs)) (combine ts cs) h b h1) with (2 := E1) as (S1 & _ & _).
  { intros p Hp. apply in_map. exact Hp. }
  apply ok_bind in E. destruct E as (g1 & h2 & E2 & E). apply ok_bind in E. destruct E as (g2 & h3 & E3 & E).
  apply ok_bind in E. destruct E as (r & h4 & E4 & E). injection E as <- <-.
  assert (S2 : still none h1 h2) by (eapply under_ok; [|exact E2]; under).
  assert (S3 : still none h2 h3) by (eapply under_ok; [|exact E3]; under).
  eapply still_none_trans; [exact S1|]. eapply still_none_trans; [exact S2|]. eapply still_none_trans; [exact S3|]. eapply IH. exact E4.
Qed.
Lemma build_groups_ok cl (W : gid -> tid -> Prop) k n tgs : forall css h gs h', (forall cs, In cs css -> incl cs cl) ->
  build_groups n tgs css h = Ok gs h' ->
  (forall N, List.length (h_tier h) = N -> forall g t, (k <= g)%nat -> (N <= t < List.length (h_tier h'))%nat -> In (t_ec (tob h' t)) cl -> W g t) ->
  bounded W k h ->
  still none h h' /\ bounded W k h' /\ forall g, In g gs -> (k <= g)%nat.
Proof.
  induction tgs as [|ts tgs IH]; intros [|cs css] h gs h' I E HW B; cbn [build_groups] in E;
    try (injection E as <- <-; split; [reflexivity|]; split; [exact B|]; intros g []).
  apply ok_bind in E. destruct E as (b & h1 & E1 & E).
  destruct (build_tiers_ok cl (combine ts cs) h b h1) with (2 := E1) as (S1 & G1 & F1).
  { intros [x y] Hp. apply in_combine_r in Hp. cbn [snd]. apply (I cs); [left; reflexivity|exact Hp]. }
  assert (B1 : bounded W k h1) by (unfold bounded, gob; rewrite G1; exact B).
  apply ok_bind in E. destruct E as (g1 & h2 & E2 & E). apply ok_bind in E. destruct E as (g2 & h3 & E3 & E).
  apply ok_bind in E. destruct E as (r & h4 & E4 & E). injection E as <- <-.
  assert (S2 : still none h1 h2) by (eapply under_ok; [|exact E2]; under).
  assert (S3 : still none h2 h3) by (eapply under_ok; [|exact E3]; under).
  assert (S4 : still none h3 h4) by (eapply build_groups_still; exact E4).
  assert (S04 : still none h h4) by (eapply still_none_trans; [eauto|]; eapply still_none_trans; [eauto|]; eapply still_none_trans; eauto).
  assert (F4 : filled cl h h4 (fst b ++ snd b)%list).
  { apply (filled_still _ _ _ _ _ S4), (filled_still _ _ _ _ _ S3), (filled_still _ _ _ _ _ S2). exact F1. }
  assert (HL : forall l, incl l (fst b ++ snd b)%list -> forall g t, (k <= g)%nat -> In t l -> W g t).
  { intros l Il g t Hg Ht. destruct (F4 t (Il t Ht)) as [X Y]. eapply HW; eauto. }
  assert (ONE : forall (pt : bool) l h gg h', incl l (fst b ++ snd b)%list ->
     match l with [] => ret [] | _ => g <- (if pt then new_pg l else new_tg n l) ;; ret [g] end h = Ok gg h' ->
     bounded W k h -> bounded W k h' /\ forall g, In g gg -> (k <= g)%nat).
  { intros pt l x gg y Il X Bx. destruct l as [|l0 ll].
    - injection X as <- <-. split; [exact Bx|intros g []].
    - apply ok_bind in X. destruct X as (g & z & X & Y). injection Y as <- <-.
      destruct (new_group_ok W k pt n (l0 :: ll) x g z (HL _ Il) X Bx) as (_ & P & Q). split; [exact P|]. intros u [<-|[]]. exact Q. }
  destruct (ONE false (fst b) h1 g1 h2) as [B2 Q2]; [intros x Hx; apply in_app_iff; auto|destruct (fst b); exact E2|exact B1|].
  destruct (ONE true (snd b) h2 g2 h3) as [B3 Q3]; [intros x Hx; apply in_app_iff; auto|destruct (snd b); exact E3|exact B2|].
  destruct (IH css h3 r h4) with (2 := E4) as (_ & B4 & Q4); [intros x Hx; apply I; right; exact Hx| |exact B3|].
  { intros N <- g t Hg Ht Hc. eapply HW; [reflexivity|exact Hg| |exact Hc].
    destruct S1 as (_ & _ & S1 & _), S2 as (_ & _ & S2 & _), S3 as (_ & _ & S3 & _). lia. }
  split; [exact S04|]. split; [exact B4|]. intros g Ig. rewrite !in_app_iff in Ig. destruct Ig as [Ig|[Ig|Ig]]; auto.
Qed.

Lemma found_in (x : nat) l i : index_of x l = Some i -> In x l.
Proof.
  revert i. induction l as [|y l IH]; intros i E; simpl in E; [discriminate|].
  destruct (Nat.eqb_spec x y) as [->|N]; [left; reflexivity|]. destruct (index_of x l) as [j|]; [|discriminate]. right. apply (IH j eq_refl).
Qed.
Lemma chase_in {B} n cs (l : list B) : forall c h r h', chase_down n cs l c h = Ok r h' -> incl (map snd r) cs.
Proof.
  induction n as [|n IH]; intros c h r h' E; [discriminate|]. cbn [chase_down] in E. rewrite bind_gets in E.
  apply ok_bind in E. destruct E as (b & h1 & E1 & E). destruct b; [injection E as <- <-; intros x []|].
  destruct (subset_class h c) as [s|]; [|injection E as <- <-; intros x []].
  destruct (index_of s cs) as [i|] eqn:I; [|injection E as <- <-; intros x []].
  apply ok_bind in E. destruct E as (t & h2 & E2 & E). apply ok_bind in E. destruct E as (q & h3 & E3 & E). injection E as <- <-.
  intros x [<-|Hx]; [apply (found_in _ _ _ I)|]. apply (IH _ _ _ _ E3). exact Hx.
Qed.
Lemma mapM_each {A B} (f : A -> M B) (P : B -> Prop) l : (forall a h b h', f a h = Ok b h' -> P b) ->
  forall h r h', mapM f l h = Ok r h' -> forall b, In b r -> P b.
Proof.
  intros K. induction l as [|a l IH]; intros h r h' E; simpl in E; [injection E as <- <-; intros b []|].
  apply ok_bind in E. destruct E as (b & h1 & E1 & E). apply ok_bind in E. destruct E as (q & h2 & E2 & E). injection E as <- <-.
  intros x [<-|Hx]; [eapply K; exact E1|eapply IH; eauto].
Qed.
Lemma nestify_given {B} (l : list B) ecs h r h' : nestify l ecs h = Ok r h' -> incl (concat (snd r)) (given ecs).
Proof.
  intros E. unfold nestify in E. apply ok_bind in E. destruct E as (e & h1 & E1 & E).
  assert (X : incl (given e) (given ecs)).
  { unfold extend_classes in E1. destruct ecs as [cs|css].
    - destruct cs as [|c0 cs0]; [discriminate|]. set (cs := c0 :: cs0) in *. apply ok_bind in E1. destruct E1 as (tops & h2 & E2 & E1).
      destruct (_ || _); injection E1 as <- <-; [|intros x Hx; exact Hx]. cbn [given]. intros x Hx. apply in_concat in Hx.
      destruct Hx as (q & Hq & Hx). apply repeat_spec in Hq. subst q. exact Hx.
    - destruct css; [discriminate|]. injection E1 as <- <-. intros x Hx; exact Hx. }
  intros x Hx. apply X. clear X E1. destruct e as [cs|css].
  - apply ok_bind in E. destruct E as (tops & h2 & E2 & E). destruct (_ <=? _)%nat.
    + injection E as <- <-. cbn [snd concat given] in *. rewrite app_nil_r in Hx. exact Hx.
    + apply ok_bind in E. destruct E as (q & h3 & E3 & E). injection E as <- <-. cbn [snd given] in *.
      apply in_concat in Hx. destruct Hx as (y & Hy & Hx). apply in_map_iff in Hy. destruct Hy as (z & <- & Hz).
      revert x Hx. change (incl (map snd z) cs). revert z Hz.
      apply (mapM_each _ (fun z => incl (map snd z) cs) tops) with (2 := E3).
      intros i h4 z h5 Z. apply ok_bind in Z. destruct Z as (t & h6 & Z1 & Z). apply ok_bind in Z. destruct Z as (c & h7 & Z2 & Z).
      apply ok_bind in Z. destruct Z as (ds & h8 & Z3 & Z). injection Z as <- <-. intros x [<-|Hx].
      * cbn [snd]. destruct (nth_error cs i) as [d|] eqn:N; [|discriminate]. injection Z2 as <- <-. eapply nth_error_In. exact N.
      * eapply chase_in; [exact Z3|exact Hx].
  - destruct css as [|c0 css]; [discriminate|]. apply ok_bind in E. destruct E as (g & h2 & E2 & E). injection E as <- <-. exact Hx.
Qed.
Lemma swap_each l2 css : forall h r h', mapM (fun cs => swap_classes cs l2) css h = Ok r h' -> h' = h /\ forall cs, In cs r -> incl cs l2.
Proof.
  induction css as [|cs css IH]; intros h r h' E; simpl in E; [injection E as <- <-; split; [reflexivity|intros cs []]|].
  apply ok_bind in E. destruct E as (b & h1 & E1 & E). apply swap_in in E1. destruct E1 as (-> & I & _).
  apply ok_bind in E. destruct E as (q & h2 & E2 & E). injection E as <- <-. destruct (IH h q h2 E2) as [-> J].
  split; [reflexivity|]. intros x [<-|Hx]; auto.
Qed.
Lemma finish_same a h h' : grid_finish a h = Ok tt h' -> still none h h' /\ forall W k, bounded W k h -> bounded W k h'.
Proof.
  intros E. unfold grid_finish, get_grid in E. rewrite bind_gets in E. apply ok_bind in E. destruct E as ([] & h1 & E1 & E).
  destruct (group_names_same a h1 h' E) as [S2 B2]. split.
  - eapply still_none_trans; [|exact S2]. eapply under_ok; [|exact E1]. under.
  - intros W k B. apply B2. revert B. change (keeps (bounded W k) h h1). eapply under_ok; [|exact E1].
    under. apply fits_mod_grp. intros o. left. reflexivity.
Qed.

Lemma read_own n tg ecs h a h' : class_table h -> (forall c, In c (given ecs) -> grid_class h c) ->
  new_grid_textgrid n tg ecs h = Ok a h' ->
  a = List.length (h_grid h) /\ alive h' a /\ class_table h' /\ grid_owns h' a /\
  (forall c, In c (a_cloned (aob h' a)) -> newly_made h h' c) /\
  (forall b, alive h b -> aob h' b = aob h b) /\
  (forall t, tlive h t -> t_ec (tob h' t) = t_ec (tob h t)) /\
  (forall b t, alive h b -> (forall g, In g (a_groups (aob h b)) -> glive h g) -> in_grid h' b t -> in_grid h b t) /\
  (forall t, in_grid h' a t -> tlive h' t /\ ~ tlive h t).
Proof.
  intros T GC E. pose proof (tri_run (new_grid_textgrid n tg ecs) h (tri_read h n tg ecs)) as UT. rewrite E in UT. cbn [heap_of] in UT. destruct UT as [UT _].
  unfold new_grid_textgrid in E. apply ok_bind in E. destruct E as (a0 & h0 & E0 & E).
  unfold alloc_grid in E0. injection E0 as <- <-. set (a1 := List.length (h_grid h)) in *. set (h0 := Heap _ _ _ _ _) in *.
  assert (T0 : class_table h0) by (apply (table_cls h); auto).
  assert (A0 : aob h0 a1 = blank_grid).
  { unfold aob, h0, a1. cbn [h_grid]. rewrite lookup_app_r by lia. rewrite Nat.sub_diag. reflexivity. }
  assert (B0 : forall b, alive h b -> aob h0 b = aob h b).
  { intros b Lb. unfold aob, h0. cbn [h_grid]. rewrite lookup_app_l; [reflexivity|exact Lb]. }
  assert (La : alive h0 a1) by (unfold alive, h0, a1; cbn [h_grid]; rewrite app_length; simpl; lia).
  assert (NB : forall b, alive h b -> b <> a1) by (intros b Lb ->; unfold alive, a1 in Lb; lia).
  assert (EMPTY : forall b t, alive h b -> in_grid h0 b t -> in_grid h b t).
  { intros b t Lb (g & Ig & It). exists g. rewrite B0 in Ig by exact Lb. auto. }
  destruct tg as [|t0 tg].
  { injection E as <- <-. split; [reflexivity|]. split; [exact La|]. split; [exact T0|].
    split; [split; [rewrite A0; intros c []|intros t (g & Ig & _); rewrite A0 in Ig; destruct Ig]|].
    split; [rewrite A0; intros c []|]. split; [exact B0|]. split; [reflexivity|]. split; [intros b t Lb _ I; exact (EMPTY b t Lb I)|].
    intros t (g & Ig & _). rewrite A0 in Ig. destruct Ig. }
  set (tgl := t0 :: tg) in *. apply ok_bind in E. destruct E as (nt & h1 & E1 & E).
  pose proof (under_ok _ _ _ _ _ (eq_nestify tgl ecs) E1) as <-.
  pose proof (nestify_given tgl ecs h0 nt h0 E1) as NG.
  apply ok_bind in E. destruct E as (gs & h3 & E3 & E). unfold relate_textgrid in E3.
  apply ok_bind in E3. destruct E3 as ([] & h2 & E2 & E3).
  destruct (reclone_ok h0 a1 (concat (snd nt)) h2 T0) with (4 := E2) as (T2 & (S2 & R2 & G2) & N2 & A2 & B2 & W2 & I2 & F2); [| |exact La|].
  { intros c Hc. exact (GC c (NG c Hc)). }
  { rewrite A0. intros c []. }
  rewrite bind_gets in E3. set (cl := a_cloned (aob h2 a1)) in *. apply ok_bind in E3. destruct E3 as (css & h2' & E4 & E3).
  apply swap_each in E4. destruct E4 as [-> J4].
  set (k := List.length (h_grp h2)). set (N := List.length (h_tier h2)).
  set (W := fun g t => if decide (g < k)%nat then In t (g_tiers (gob h2 g)) else (N <= t < List.length (h_tier h3))%nat /\ In (t_ec (tob h3 t)) cl).
  destruct (build_groups_ok cl W k n (fst nt) css h2 gs h3 J4 E3) as (S3 & B3 & Q3).
  { intros N0 <- g t Hg Ht Hc. unfold W. destruct (decide (g < k)%nat) as [L|_]; [lia|]. split; [exact Ht|exact Hc]. }
  { split; [unfold k; lia|]. intros g t It. unfold W. destruct (decide (g < k)%nat) as [L|L]; [exact It|].
    exfalso. revert It. unfold gob. rewrite lookup_ge_None_2 by (unfold k in L; lia). intros []. }
  apply ok_bind in E. destruct E as ([] & h4 & E5 & E). apply ok_bind in E. destruct E as ([] & h5 & E6 & E).
  apply ok_bind in E. destruct E as ([] & h6 & E7 & E). injection E as <- <-.
  pose proof (under_ok _ _ _ _ _ (still_grid_cleanup none n a1) E6) as S5.
  pose proof (fun W k => under_ok _ _ _ _ _ (fits_grid_cleanup W k n a1) E6) as B5.
  destruct (finish_same a1 h5 h6 E7) as [S6 B6].
  assert (S56 : still none h4 h6) by (eapply still_none_trans; eauto).
  assert (La3 : alive h3 a1) by (destruct S3 as (_ & S3 & _); unfold alive in *; rewrite S3, N2; exact La).
  assert (X4 : h_cls h4 = h_cls h3 /\ h_tier h4 = h_tier h3 /\ (forall b, b <> a1 -> aob h4 b = aob h3 b) /\
    a_cloned (aob h4 a1) = a_cloned (aob h3 a1) /\ incl (a_groups (aob h4 a1)) gs /\
    (forall W k, bounded W k h3 -> bounded W k h4) /\ List.length (h_grid h4) = List.length (h_grid h3)).
  { destruct gs as [|g0 gs0].
    - injection E5 as <-. split; [reflexivity|]. split; [reflexivity|]. split; [reflexivity|]. split; [reflexivity|].
      split; [|auto]. destruct S3 as (_ & S3 & _). unfold aob. rewrite S3. fold (aob h2 a1). rewrite B2, A0. intros x [].
    - destruct (set_groups_same a1 (g0 :: gs0) h3 h4 La3) with (2 := E5) as (C5 & R5 & A5 & D5 & B5' & N5); [discriminate|].
      split; [exact C5|]. split; [exact R5|]. split; [exact A5|]. rewrite D5. split; [reflexivity|]. split; [intros x Hx; exact Hx|]. auto. }
  destruct X4 as (C4 & R4 & A4 & D4 & G4 & B4 & N4).
  assert (BF : bounded W k h6) by (apply B6, B5, B4, B3).
  destruct S3 as (P3 & Q3' & M3 & K3), S56 as (P6 & Q6 & M6 & K6).
  assert (AO : forall b, aob h6 b = aob h4 b) by (intros b; unfold aob; rewrite Q6; reflexivity).
  assert (A3 : forall b, aob h3 b = aob h2 b) by (intros b; unfold aob; rewrite Q3'; reflexivity).
  assert (CL : h_cls h6 = h_cls h2) by congruence.
  assert (CN : a_cloned (aob h6 a1) = cl) by (rewrite AO, D4, A3; reflexivity).
  assert (EC : forall t, tlive h3 t -> t_ec (tob h6 t) = t_ec (tob h3 t)).
  { intros t Lt. rewrite K6; [|unfold tlive in *; rewrite R4; exact Lt|intros []]. unfold tob. rewrite R4. reflexivity. }
  assert (AB : forall b, alive h b -> aob h6 b = aob h b).
  { intros b Lb. rewrite AO, A4, A3, A2, B0; auto. }
  assert (IG : forall t, in_grid h6 a1 t -> (N <= t < List.length (h_tier h3))%nat /\ In (t_ec (tob h3 t)) cl).
  { intros t (g & Ig & It). rewrite AO in Ig. apply G4 in Ig. apply Q3 in Ig. apply (proj2 BF) in It. unfold W in It.
    destruct (decide (g < k)%nat); [lia|exact It]. }
  assert (LN : List.length (h_tier h) = N) by (unfold N; rewrite R2; reflexivity).
  split; [reflexivity|]. split; [unfold alive in *; rewrite Q6, N4; exact La3|]. split; [apply (table_cls h2); auto|].
  split; [|split; [|split; [|split; [|split]]]].
  - unfold grid_owns. rewrite CN. split; [apply (whole_cls h2); auto|]. intros t It. destruct (IG t It) as [Lt Ct].
    rewrite EC; [exact Ct|]. unfold tlive. lia.
  - rewrite CN. intros c Hc. destruct (F2 c Hc) as [X|X]; [rewrite A0 in X; destruct X|]. split; [exact X|].
    rewrite CL. apply (table_live h2 cl); auto.
  - exact AB.
  - intros t Lt. rewrite EC; [|unfold tlive in *; lia]. rewrite K3; [|unfold tlive in *; lia|intros []]. unfold tob. rewrite R2. reflexivity.
  - intros b t Lb Lg (g & Ig & It). rewrite AB in Ig by exact Lb. exists g. split; [exact Ig|].
    apply (proj2 BF) in It. unfold W in It. specialize (Lg g Ig). unfold glive in Lg.
    destruct (decide (g < k)%nat) as [_|L]; [|unfold k in L; rewrite G2 in L; exfalso; apply L; exact Lg].
    unfold gob in It |- *. rewrite G2 in It. exact It.
  - intros t It. destruct (IG t It) as [Lt _]. unfold tlive. rewrite R4 in M6. lia.
Qed.
End Reading.

(** ** Appending a tier to a group of a grid *)
Section AppendTier.
Context `{Env}.
Hint Resolve still_grp_name fits_grp_name still_mod_grp still_tg_init still_pg_init : own.
Lemma append_tier_own n h a g t h' : class_table h -> alive h a -> grid_owns h a -> In g (a_groups (aob h a)) ->
  g_within (gob h g) = Some (WGrid a) -> tlive h t -> grid_class h (t_ec (tob h t)) -> (forall u, in_grid h a u -> tlive h u) ->
  grp_append n g t h = Ok tt h' ->
  class_table h' /\ grid_owns h' a /\ a_groups (aob h' a) = a_groups (aob h a) /\
  (forall c, In c (a_cloned (aob h' a)) -> In c (a_cloned (aob h a)) \/ newly_made h h' c) /\
  (forall b, b <> a -> aob h' b = aob h b) /\
  (forall u, tlive h u -> u <> t -> t_ec (tob h' u) = t_ec (tob h u)).
Proof.
  intros T La [WC OW] Ig Wg Lt GC LV E. unfold grp_append, get_grp in E. rewrite bind_gets, bind_gets in E.
  destruct (negb _); [discriminate|]. rewrite Wg in E. apply ok_bind in E. destruct E as ([] & h2 & E2 & E).
  rewrite bind_gets in E2.
  replace ((0 <? List.length (a_groups (aob h a)))%nat) with true in E2
    by (symmetry; apply Nat.ltb_lt; destruct (a_groups (aob h a)); [destruct Ig|simpl; lia]).
  rewrite bind_gets in E2. apply ok_bind in E2. destruct E2 as ([] & h1 & E1 & E2).
  destruct (reclone_ok h a [t_ec (tob h t)] h1 T) with (4 := E1) as (T1 & (S1 & R1 & G1) & N1 & A1 & B1 & W1 & I1 & F1); [|exact WC|exact La|].
  { intros c [<-|[]]. exact GC. }
  rewrite bind_gets in E2. apply ok_bind in E2. destruct E2 as (nc & h1' & X & E2). apply swap_in in X. destruct X as (-> & I2 & L2).
  destruct nc as [|c [|]]; [discriminate| |discriminate].
  assert (Lt1 : tlive h1 t) by (unfold tlive; rewrite R1; exact Lt).
  pose proof (reinit_class _ _ _ _ _ Lt1 E2) as C2.
  pose proof (under_ok _ _ _ _ _ (still_reinit (fun u => u = t) t (FromTier t) c eq_refl) E2) as (P2 & Q2 & N2 & K2).
  pose proof (under_ok _ _ _ _ _ (grp_reinit_same t (FromTier t) c) E2) as G2. unfold same_grp in G2.
  set (W := fun x u => In u (g_tiers (gob h x)) \/ u = t).
  assert (X : still none h2 h' /\ (bounded W 0 h2 -> bounded W 0 h')).
  { rewrite bind_gets, bind_gets in E. destruct (existsb _ _); [discriminate|].
    apply ok_bind in E. destruct E as (f & h3 & E3 & E).
    assert (h3 = h2) as ->.
    { destruct (_ || _); [injection E3 as <- <-; reflexivity|]. rewrite bind_gets in E3.
      destruct (all_some _); [injection E3 as <- <-; reflexivity|discriminate]. }
    destruct f; [|discriminate]. cbn [negb] in E. apply ok_bind in E. destruct E as (z4 & h4 & E4 & E).
    rewrite bind_gets in E.
    assert (B4 : bounded W 0 h2 -> bounded W 0 h4).
    { intros [B0 B]. unfold mod_grp, modify in E4. injection E4 as <- <-. split; [lia|]. intros x u.
      destruct (decide (g = x)) as [->|Nx]; [|rewrite gob_upd_ne by auto; apply B].
      destruct (lt_dec x (List.length (h_grp h2))) as [L|L].
      - rewrite gob_upd_eq by exact L. cbn [set_g_tiers g_tiers]. intros I. apply in_app_iff in I.
        destruct I as [I|[<-|[]]]; [apply B; exact I|right; reflexivity].
      - unfold gob, upd_grp. cbn [h_grp]. rewrite (lookup_ge_None_2 (alter _ x (h_grp h2))); [intros []|rewrite alter_length; lia]. }
    split.
    - eapply still_none_trans; [eapply under_ok; [|exact E4]; apply still_mod_grp|]. eapply under_ok; [|exact E]. under.
    - intros B. specialize (B4 B). destruct (g_points (gob h g)).
      + exact (under_ok _ _ _ _ _ (fits_pg_init W 0 g _ (proj2 B4 g)) E B4).
      + exact (under_ok _ _ _ _ _ (fits_tg_init W 0 n g _ None false (proj2 B4 g)) E B4). }
  destruct X as [(P3 & Q3 & N3 & K3) BW].
  assert (BF : bounded W 0 h') by (apply BW; split; [lia|]; intros x u; unfold gob; rewrite G2, G1; intros I; left; exact I).
  assert (AO : forall b, aob h' b = aob h1 b) by (intros b; unfold aob; rewrite Q3, Q2; reflexivity).
  assert (EO : forall u, tlive h u -> u <> t -> t_ec (tob h' u) = t_ec (tob h u)).
  { intros u Lu Nu. assert (Lu1 : tlive h1 u) by (unfold tlive; rewrite R1; exact Lu).
    rewrite K3; [|unfold tlive in *; lia|intros []]. rewrite K2 by auto. unfold tob. rewrite R1. reflexivity. }
  assert (ET : t_ec (tob h' t) = c) by (rewrite K3; [exact C2|unfold tlive in *; lia|intros []]).
  assert (CL : h_cls h' = h_cls h1) by congruence.
  split; [apply (table_cls h1); auto|]. unfold grid_owns. rewrite !AO. split; [split|split; [|split; [|split]]].
  - apply (whole_cls h1); auto.
  - intros u (x & Ix & Iu). rewrite AO, B1 in Ix. apply (proj2 BF) in Iu. destruct (Nat.eq_dec u t) as [->|Nu].
    + rewrite ET. apply I2. left. reflexivity.
    + destruct Iu as [Iu|Iu]; [|contradiction]. assert (IG : in_grid h a u) by (exists x; auto).
      rewrite EO by (auto; apply LV; exact IG). apply I1, OW, IG.
  - exact B1.
  - intros x Hx. destruct (F1 x Hx) as [J|J]; [auto|right]. split; [exact J|]. rewrite CL. apply (table_live h1 (a_cloned (aob h1 a))); auto.
  - intros b Nb. rewrite AO. apply A1. exact Nb.
  - exact EO.
Qed.

Lemma c38_untouched :
  forall n h a g t gs tg ecs,
  classes_untouched h (heap_of (grid_append n a g h)) /\
  classes_untouched h (heap_of (grp_append n g t h)) /\
  classes_untouched h (heap_of (new_grid_groups n gs h)) /\
  classes_untouched h (heap_of (new_grid_textgrid n tg ecs h)).
Proof.
  intros. split; [|split; [|split]]; apply tri_run.
  - apply tri_grid_append.
  - apply tri_grp_append.
  - apply tri_from_groups.
  - apply tri_read.
Qed.
Lemma c38_append :
  forall n h a g h', class_table h -> whole_grid h a -> grid_owns h a ->
  (forall t, In t (g_tiers (gob h g)) -> tlive h t /\ grid_class h (t_ec (tob h t))) ->
  grid_append n a g h = Ok tt h' ->
  class_table h' /\ grid_owns h' a /\ a_groups (aob h' a) = (a_groups (aob h a) ++ [g])%list /\
  (forall c, In c (a_cloned (aob h' a)) -> In c (a_cloned (aob h a)) \/ newly_made h h' c) /\
  (forall b, b <> a -> aob h' b = aob h b) /\
  (forall t, tlive h t -> ~ In t (g_tiers (gob h g)) -> t_ec (tob h' t) = t_ec (tob h t)).
Proof.
  intros n h a g h' T (La & _ & LV) OW GC E.
  destruct (append_own n h a g h' T La OW GC LV E) as (A & B & C & D & F & G & _). auto 10.
Qed.
Lemma c38_tier :
  forall n h a g t h', class_table h -> whole_grid h a -> grid_owns h a ->
  In g (a_groups (aob h a)) -> g_within (gob h g) = Some (WGrid a) ->
  tlive h t -> grid_class h (t_ec (tob h t)) ->
  grp_append n g t h = Ok tt h' ->
  class_table h' /\ grid_owns h' a /\
  (forall c, In c (a_cloned (aob h' a)) -> In c (a_cloned (aob h a)) \/ newly_made h h' c) /\
  (forall b, b <> a -> aob h' b = aob h b) /\
  (forall u, tlive h u -> u <> t -> t_ec (tob h' u) = t_ec (tob h u)).
Proof.
  intros n h a g t h' T (La & _ & LV) OW Ig Wg Lt GC E.
  destruct (append_tier_own n h a g t h' T La OW Ig Wg Lt GC LV E) as (A & B & _ & C & D & F). auto 10.
Qed.
Lemma c38_read :
  forall n tg ecs h a h', class_table h -> (forall c, In c (given ecs) -> grid_class h c) ->
  new_grid_textgrid n tg ecs h = Ok a h' ->
  class_table h' /\ grid_owns h' a /\
  (forall c, In c (a_cloned (aob h' a)) -> newly_made h h' c) /\
  (forall b, alive h b -> b <> a /\ aob h' b = aob h b) /\
  (forall t, tlive h t -> t_ec (tob h' t) = t_ec (tob h t)).
Proof.
  intros n tg ecs h a h' T GC E. destruct (read_own n tg ecs h a h' T GC E) as (A & _ & B & C & D & F & G & _).
  split; [exact B|]. split; [exact C|]. split; [exact D|]. split; [|exact G].
  intros b Lb. split; [|apply F; exact Lb]. intros ->. rewrite A in Lb. unfold alive in Lb. lia.
Qed.
(** Another grid is not affected, and shares no class with the one read. *)
Lemma c38_apart_read :
  forall n tg ecs h a h' b, class_table h -> (forall c, In c (given ecs) -> grid_class h c) ->
  new_grid_textgrid n tg ecs h = Ok a h' -> whole_grid h b -> grid_owns h b ->
  grid_owns h' b /\ grids_apart h' a b.
Proof.
  intros n tg ecs h a h' b T GC E (Lb & Lg & LV) [WC OW].
  pose proof (tri_run (new_grid_textgrid n tg ecs) h (tri_read h n tg ecs)) as UT. rewrite E in UT. cbn [heap_of] in UT.
  destruct (read_own n tg ecs h a h' T GC E) as (_ & _ & T' & _ & D & F & G & I & _).
  split; [split|].
  - rewrite F by exact Lb. apply (whole_untouched h); auto.
  - intros t It. specialize (I b t Lb Lg It). rewrite F by exact Lb. rewrite G by (apply LV; exact I). apply OW. exact I.
  - intros c Hc Hb. rewrite F in Hb by exact Lb. destruct (D c Hc) as [X _].
    pose proof (table_live h _ c T WC Hb) as Y. unfold clive in Y. lia.
Qed.
Lemma c38_apart_append :
  forall n h a g h' b, class_table h -> whole_grid h a -> grid_owns h a ->
  (forall t, In t (g_tiers (gob h g)) -> tlive h t /\ grid_class h (t_ec (tob h t))) ->
  grid_append n a g h = Ok tt h' ->
  b <> a -> whole_grid h b -> grid_owns h b -> (forall t, In t (g_tiers (gob h g)) -> ~ in_grid h b t) ->
  grids_apart h a b -> grid_owns h' b /\ grids_apart h' a b.
Proof.
  intros n h a g h' b T (La & _ & LVa) OWa GC E Nb (Lb & Lg & LV) [WC OW] DJ AP.
  pose proof (tri_run (grid_append n a g) h (tri_grid_append h n a g)) as UT. rewrite E in UT. cbn [heap_of] in UT.
  destruct (append_own n h a g h' T La OWa GC LVa E) as (T' & _ & _ & D & F & G & I & _).
  split; [split|].
  - rewrite F by exact Nb. apply (whole_untouched h); auto.
  - intros t It. specialize (I b t Nb It). rewrite F by exact Nb. rewrite G; [apply OW; exact I|apply LV; exact I|].
    intros J. exact (DJ t J I).
  - intros c Hc Hb. rewrite F in Hb by exact Nb. destruct (D c Hc) as [X|[X _]]; [exact (AP c X Hb)|].
    pose proof (table_live h _ c T WC Hb) as Y. unfold clive in Y. lia.
Qed.
End AppendTier.
