(** * CalmProofs: operations on intervals and tiers leave classes, groups,
    grids and the make-up of the tiers alone, however they end. *)
From Verif Require Export HeapProofs.
From Verif Require Import TierOps.
Open Scope Z_scope.

Section WithEnv.
Context `{Env}.

Definition same_make (o o' : tierobj) : Prop :=
  t_ec o' = t_ec o /\ t_super o' = t_super o /\ t_sub o' = t_sub o /\ t_name o' = t_name o /\ t_within o' = t_within o.
Definition calmly (h h' : heap) : Prop :=
  h_cls h' = h_cls h /\ h_grp h' = h_grp h /\ h_grid h' = h_grid h /\ List.length (h_tier h') = List.length (h_tier h) /\
  (List.length (h_seq h) <= List.length (h_seq h'))%nat /\ forall t, same_make (tob h t) (tob h' t).
Lemma calmly_refl h : calmly h h.
Proof. unfold calmly, same_make. intuition. Qed.
Lemma calmly_trans a b c : calmly a b -> calmly b c -> calmly a c.
Proof.
  intros (A1 & A2 & A3 & A4 & A5 & A6) (B1 & B2 & B3 & B4 & B5 & B6).
  split; [congruence|]. split; [congruence|]. split; [congruence|]. split; [congruence|]. split; [lia|].
  intros t. destruct (A6 t) as (C1 & C2 & C3 & C4 & C5). destruct (B6 t) as (D1 & D2 & D3 & D4 & D5).
  unfold same_make. repeat split; congruence.
Qed.

Definition calm {A} (m : M A) : Prop := forall h, calmly h (heap_of (m h)).
Lemma calm_read {A} (m : M A) : (forall h, heap_of (m h) = h) -> calm m.
Proof. intros K h. rewrite K. apply calmly_refl. Qed.
Lemma calm_ret {A} (a : A) : calm (ret a).
Proof. apply calm_read. reflexivity. Qed.
Lemma calm_raise {A} e : calm (@raise A e).
Proof. apply calm_read. reflexivity. Qed.
Lemma calm_gets {A} (f : heap -> A) : calm (gets f).
Proof. apply calm_read. reflexivity. Qed.
Lemma calm_bind {A B} (m : M A) (k : A -> M B) : calm m -> (forall a, calm (k a)) -> calm (bind m k).
Proof.
  intros Hm Hk h. specialize (Hm h). unfold bind. destruct (m h) as [a h1|e h1]; simpl in *; [|exact Hm].
  eapply calmly_trans; [exact Hm|apply Hk].
Qed.
Lemma calm_when b m : calm m -> calm (when b m).
Proof. destruct b; simpl; [auto|intros; apply calm_ret]. Qed.
Lemma calm_forM {A} (l : list A) f : (forall a, calm (f a)) -> calm (forM l f).
Proof. intros K. induction l as [|x l IH]; simpl; [apply calm_ret|apply calm_bind; auto]. Qed.
Lemma calm_mapM {A B} (f : A -> M B) l : (forall a, calm (f a)) -> calm (mapM f l).
Proof.
  intros K. induction l as [|x l IH]; simpl; [apply calm_ret|]. apply calm_bind; [auto|]. intros a. apply calm_bind; [auto|]. intros. apply calm_ret.
Qed.
Lemma calm_mod_seq i f : calm (mod_seq i f).
Proof.
  intros h. unfold mod_seq, modify, calmly, upd_seq, same_make, tob. simpl. rewrite alter_length. intuition.
Qed.
Lemma calm_alloc o : calm (alloc_seq o).
Proof.
  intros h. unfold alloc_seq, calmly, same_make, tob. simpl. rewrite app_length. intuition lia.
Qed.
Lemma calm_mod_tier i f : (forall o, same_make o (f o)) -> calm (mod_tier i f).
Proof.
  intros K h. unfold mod_tier, modify, calmly, upd_tier. simpl. rewrite alter_length.
  split; [auto|]. split; [auto|]. split; [auto|]. split; [auto|]. split; [auto|]. intros t. unfold tob. simpl.
  destruct (decide (i = t)) as [->|Hn].
  - rewrite list_lookup_alter. destruct (h_tier h !! t); simpl; [apply K|unfold same_make; auto].
  - rewrite list_lookup_alter_ne by auto. unfold same_make. auto.
Qed.

Ltac calm :=
  repeat first
    [ solve [eauto with calm] | apply calm_ret | apply calm_raise | apply calm_gets | apply calm_mod_seq | apply calm_alloc
    | apply calm_when | apply calm_bind; [|intros ?] | apply calm_forM; intros ? | apply calm_mapM; intros ?
    | apply calm_mod_tier; intros ?; unfold same_make; cbn; repeat split
    | match goal with |- calm (match ?x with _ => _ end) => destruct x end
    | match goal with |- calm (if ?x then _ else _) => destruct x end
    | progress unfold get_seq, get_tier, get_grp ].

Lemma calm_sl_sort l : calm (sl_sort l).
Proof.
  apply calm_read. intros h. unfold sl_sort. destruct l; [auto|]. destruct (le_adj _) as [[|]|]; auto.
  destruct (all_some _); auto.
Qed.
Lemma sl_sort_read l h : heap_of (sl_sort l h) = h.
Proof.
  unfold sl_sort. destruct l; [auto|]. destruct (le_adj _) as [[|]|]; auto. destruct (all_some _); auto.
Qed.
Lemma calm_sl_init l : calm (sl_init l).
Proof.
  apply calm_read. intros h. unfold sl_init. destruct l as [|x l]; [auto|]. destruct (all_same _); [|auto].
  pose proof (sl_sort_read (x :: l) h) as Q. destruct (sl_sort (x :: l) h); simpl in *; congruence.
Qed.
Lemma calm_check l : calm (sl_check_no_overlaps l).
Proof. apply calm_read. intros h. unfold sl_check_no_overlaps. destruct (all_some _); [destruct (all_some _)|]; auto. Qed.
Hint Resolve calm_sl_sort calm_sl_init calm_check : calm.
Lemma calm_cast c o : calm (cast c o).
Proof. unfold cast. calm. Qed.
Lemma calm_set_owner w c : calm (set_owner_ec w c).
Proof. unfold set_owner_ec. calm. Qed.
Hint Resolve calm_cast calm_set_owner : calm.
Lemma calm_sl_add w v l : calm (sl_add w v l).
Proof. unfold sl_add. calm. Qed.
Lemma calm_shift_n n d : forall o, calm (shift_n n d o).
Proof. induction n as [|n IH]; intros o; simpl; unfold add_time; calm. Qed.
Lemma calm_shift d o : calm (seq_shift d o).
Proof. intros h. unfold seq_shift. apply calm_shift_n. Qed.
Hint Resolve calm_sl_add calm_shift : calm.
Lemma calm_sl_append v x b : calm (sl_append v x b).
Proof. unfold sl_append. calm. Qed.
Lemma calm_sl_concat w v l : calm (sl_concat w v l).
Proof. unfold sl_concat. calm. Qed.
Lemma calm_set_link n : forall d x y, calm (set_link n d x y).
Proof. induction n as [|n IH]; intros d x y; simpl; calm. Qed.
Hint Resolve calm_sl_append calm_sl_concat calm_set_link : calm.
Lemma calm_set_boundary d x : calm (set_boundary d x).
Proof. unfold set_boundary. calm. Qed.
Hint Resolve calm_set_boundary : calm.
Lemma calm_new_obj c s e l : calm (new_obj c s e l).
Proof. unfold new_obj, set_final, set_initial. calm. Qed.
Hint Resolve calm_new_obj : calm.
Lemma calm_construct3 c s e l : calm (construct3 c s e l).
Proof. unfold construct3. calm. Qed.
Lemma calm_precedence pre : (forall x, calm (pre x)) -> forall l p, calm (precedence pre p l).
Proof. intros K. induction l as [|x l IH]; intros p; simpl; unfold set_initial, set_final, set_prev, set_fol; calm. Qed.
Lemma calm_set_subset_precedence s : calm (set_subset_precedence s).
Proof. unfold set_subset_precedence. calm. apply calm_precedence. intros. calm. Qed.
Hint Resolve calm_construct3 calm_set_subset_precedence : calm.
Lemma calm_remove_n n : forall x, calm (remove_superset_n n x).
Proof. induction n as [|n IH]; intros x; simpl; calm.
Qed.
Lemma calm_remove x : calm (remove_superset x).
Proof. intros h. unfold remove_superset. destruct (s_super _); [apply calm_remove_n|apply calmly_refl]. Qed.
Hint Resolve calm_remove : calm.
Lemma calm_subset_remove s x : calm (subset_remove s x).
Proof. unfold subset_remove. calm. Qed.
Hint Resolve calm_subset_remove : calm.
Lemma calm_remove_from s x : calm (remove_from_subset_list s x).
Proof. unfold remove_from_subset_list. calm. Qed.
Lemma calm_seq_pop s x : calm (seq_pop s x).
Proof. unfold seq_pop. calm. Qed.
Lemma calm_seq_set_contains s : calm (seq_set_contains s).
Proof. unfold seq_set_contains. calm. Qed.
Lemma calm_isinstance x c : calm (isinstance_m x c).
Proof. unfold isinstance_m. calm. Qed.
Lemma calm_issubclass x c : calm (issubclass_m x c).
Proof. unfold issubclass_m. calm. Qed.
Hint Resolve calm_seq_set_contains calm_isinstance calm_issubclass calm_remove_from calm_seq_pop : calm.
Lemma calm_set_subset_list s l : calm (set_subset_list s l).
Proof. unfold set_subset_list, rebind_subset. calm. Qed.
Hint Resolve calm_set_subset_list : calm.
Lemma calm_subset_setter s l : calm (subset_setter s l).
Proof. unfold subset_setter. calm. Qed.
Hint Resolve calm_subset_setter : calm.
Lemma calm_adopt n : forall c, calm (adopt n c).
Proof. induction n as [|n IH]; intros [x s|s x]; simpl; unfold store_subset; calm. Qed.

(** ** Tiers *)
Lemma calm_tier_set_contains t : calm (tier_set_contains t).
Proof. unfold tier_set_contains. calm. Qed.
Hint Resolve calm_tier_set_contains : calm.
Lemma calm_tier_precedence t : calm (tier_precedence t).
Proof. unfold tier_precedence. calm. apply calm_precedence. intros. calm. Qed.
Hint Resolve calm_tier_precedence : calm.
Lemma calm_rebind_seq t v : calm (rebind_seq t v).
Proof. unfold rebind_seq. calm. Qed.
Lemma calm_store_seq t v : calm (store_seq t v).
Proof. unfold store_seq. calm. Qed.
Hint Resolve calm_rebind_seq calm_store_seq : calm.
Lemma calm_tier_set_seq t l : calm (tier_set_seq t l).
Proof. unfold tier_set_seq. calm. Qed.
Hint Resolve calm_tier_set_seq : calm.
Lemma calm_sibling t g d : calm (sibling_tier t g d).
Proof.
  unfold sibling_tier. apply calm_bind.
  - apply calm_read. intros h. unfold tier_within_index, index_in. destruct (t_within _); [|auto].
    destruct (contains_of _ _); [|auto]. destruct (index_of _ _); auto.
  - intros [i|]; [|calm]. apply calm_read. intros h. unfold group_item. destruct (py_index _ _); auto.
Qed.
Hint Resolve calm_sibling : calm.
Lemma calm_tier_append_n n : forall t x, calm (tier_append_n n t x).
Proof. induction n as [|n IH]; intros t x; simpl; calm. Qed.
Hint Resolve calm_tier_append_n : calm.
Lemma calm_seq_append n s x : calm (seq_append n s x).
Proof. unfold seq_append. calm. Qed.
Hint Resolve calm_seq_append : calm.
Lemma calm_close_m a b : calm (close_m a b).
Proof. unfold close_m. calm. Qed.
Hint Resolve calm_close_m : calm.
Lemma calm_gap_fill c l : forall v, calm (gap_fill c l v).
Proof.
  induction l as [|x l IH]; intros v; [simpl; calm|]. destruct l as [|y l]; [simpl; calm|].
  change (gap_fill c (x :: y :: l) v) with
    (e <- gets (fun h => end_of h x) ;; s <- gets (fun h => start_of h y) ;; k <- close_m e s ;;
     if (k : bool) then gap_fill c (y :: l) v
     else nw <- construct3 c e s "" ;; acc' <- sl_add ONone v [nw] ;; gap_fill c (y :: l) acc'). calm.
Qed.
Hint Resolve calm_gap_fill : calm.
Lemma calm_seq_cleanup n : forall s, calm (seq_cleanup n s).
Proof. induction n as [|n IH]; intros s; simpl; calm. Qed.
Hint Resolve calm_seq_cleanup : calm.
Lemma calm_close_gaps v : calm (close_gaps v).
Proof.
  unfold close_gaps. calm. match goal with |- calm (?f ?ps v) => generalize ps end. intros ps. revert v.
  induction ps as [|[s e] ps IH]; intros v; calm.
Qed.
Lemma calm_relate_one n u l m q i b : calm (relate_one n u l m q i b).
Proof. unfold relate_one. calm. Qed.
Hint Resolve calm_close_gaps calm_relate_one : calm.
Lemma calm_relate_all n u l m q bs : forall i, calm (relate_all n u l m q i bs).
Proof. induction bs as [|b bs IH]; intros i; simpl; calm. Qed.
Hint Resolve calm_relate_all : calm.
Lemma calm_relate_pair n d u l : calm (relate_pair n d u l).
Proof. unfold relate_pair. calm. Qed.
Hint Resolve calm_relate_pair : calm.
Lemma calm_relate_tiers n d ts : calm (relate_tiers n d ts).
Proof.
  induction ts as [|t ts IH]; [simpl; calm|]. destruct ts as [|u r]; [simpl; calm|].
  change (relate_tiers n d (t :: u :: r)) with (relate_pair n d t u ;;; relate_tiers n d (u :: r)). calm.
Qed.

End WithEnv.
