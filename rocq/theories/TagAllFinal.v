(** * TagAllFinal: every group of a grid goes on giving access to its tiers (C73). *)
From Verif Require Export TagSpec NameFinal OwnFinal CalmProofs TagFinal.
From Coq Require Import RelationClasses.
Open Scope Z_scope.
Section WithEnv.
Context `{Env}.

(** Which groups are spoken of. *)
Definition fixed (G : gid -> Prop) (h h' : heap) : Prop :=
  (List.length (h_grp h) <= List.length (h_grp h'))%nat /\ forall g, G g -> g_tiers (gob h' g) = g_tiers (gob h g).
#[export] Instance fixed_pre G : PreOrder (fixed G).
Proof. split; [intros h; split; [lia|reflexivity]|]. intros h1 h2 h3 [A0 A] [B0 B]. split; [lia|]. intros g Hg. rewrite (B g Hg). apply A, Hg. Qed.
Section Fixed.
Context (G : gid -> Prop).
Lemma fixed_grps {A} (m : M A) : (forall h, h_grp (heap_of (m h)) = h_grp h) -> under (fixed G) m.
Proof. intros K h. unfold fixed, gob. rewrite K. auto. Qed.
Lemma fixed_calm {A} (m : M A) : calm m -> under (fixed G) m.
Proof. intros C. apply fixed_grps. intros h. apply C. Qed.
Lemma fixed_mod_grp i f : (~ G i \/ forall o, g_tiers (f o) = g_tiers o) -> under (fixed G) (mod_grp i f).
Proof.
  intros K h. split; [cbn; rewrite alter_length; lia|]. intros g Hg. destruct K as [K|K].
  - cbn. rewrite gob_upd_ne by (intros ->; auto). reflexivity.
  - destruct (mod_grp_tags g i f h K) as (Q & _). exact Q.
Qed.
Lemma fixed_mod_tier i f : under (fixed G) (mod_tier i f).
Proof. apply fixed_grps. reflexivity. Qed.
Lemma fixed_mod_grid i f : under (fixed G) (mod_grid i f).
Proof. apply fixed_grps. reflexivity. Qed.
Lemma fixed_alloc_tier o : under (fixed G) (alloc_tier o).
Proof. apply fixed_grps. reflexivity. Qed.
Lemma fixed_alloc_grp o : g_tiers o = [] -> under (fixed G) (alloc_grp o).
Proof.
  intros E h. split; [cbn; rewrite app_length; simpl; lia|]. intros g _. unfold alloc_grp. cbn [heap_of]. unfold gob. cbn [h_grp]. destruct (lt_dec g (List.length (h_grp h))) as [L|L].
  - rewrite lookup_app_l by exact L. reflexivity.
  - rewrite (lookup_ge_None_2 (h_grp h)) by lia. destruct (decide (g = List.length (h_grp h))) as [-> |N].
    + rewrite list_lookup_middle by reflexivity. exact E.
    + rewrite lookup_ge_None_2; [reflexivity|]. rewrite app_length. simpl. lia.
Qed.
Lemma fixed_read {A} (m : M A) : (forall h, heap_of (m h) = h) -> under (fixed G) m.
Proof. intros K h. rewrite K. reflexivity. Qed.
Lemma fixed_make g : under (fixed G) (make_name g).
Proof. apply fixed_read, make_name_heap. Qed.
Hint Resolve fixed_make fixed_mod_tier fixed_mod_grid fixed_alloc_tier : own.
Hint Extern 2 (under (fixed _) (mod_grp _ _)) => (apply fixed_mod_grp; right; reflexivity) : own.
Hint Extern 3 (under (fixed _) _) => (apply fixed_calm; solve [auto with calm]) : own.
Lemma fixed_grp_name g : under (fixed G) (grp_name g).
Proof. unfold grp_name. under. Qed.
Lemma fixed_arrange ts : under (fixed G) (arrange ts).
Proof. apply fixed_read. intros h. pose proof (arrange_incl ts h) as Q. destruct (arrange ts h) as [r h1|e h1]; [apply Q|exact Q]. Qed.
Lemma fixed_remove x : under (fixed G) (remove_superset x).
Proof. apply fixed_calm, calm_remove. Qed.
Lemma fixed_relate n d ts : under (fixed G) (relate_tiers n d ts).
Proof. apply fixed_calm, calm_relate_tiers. Qed.
Hint Resolve fixed_grp_name fixed_arrange fixed_remove fixed_relate : own.
Lemma fixed_tg_init n g ts nm d : ~ G g -> under (fixed G) (tg_init n g ts nm d).
Proof. intros N. unfold tg_init, grp_set_contains. under; apply fixed_mod_grp; left; exact N. Qed.
Lemma fixed_pg_init g ts : ~ G g -> under (fixed G) (pg_init g ts).
Proof. intros N. unfold pg_init. under; apply fixed_mod_grp; left; exact N. Qed.
Lemma fixed_cast c o : under (fixed G) (cast c o).
Proof. apply fixed_calm, calm_cast. Qed.
Lemma fixed_new_obj c s e l : under (fixed G) (new_obj c s e l).
Proof. apply fixed_calm, calm_new_obj. Qed.
Lemma fixed_set_seq t l : under (fixed G) (tier_set_seq t l).
Proof. apply fixed_calm, calm_tier_set_seq. Qed.
Lemma fixed_prec t : under (fixed G) (tier_precedence t).
Proof. apply fixed_calm, calm_tier_precedence. Qed.
Lemma fixed_rebind t v : under (fixed G) (rebind_seq t v).
Proof. apply fixed_calm, calm_rebind_seq. Qed.
Lemma fixed_store t v : under (fixed G) (store_seq t v).
Proof. apply fixed_calm, calm_store_seq. Qed.
Lemma fixed_sl_append v x b : under (fixed G) (sl_append v x b).
Proof. apply fixed_calm, calm_sl_append. Qed.
Lemma fixed_contains t : under (fixed G) (tier_set_contains t).
Proof. apply fixed_calm, calm_tier_set_contains. Qed.
Lemma fixed_precedence t p l : under (fixed G) (precedence (fun x => mod_seq x (set_s_intier (Some t))) p l).
Proof. apply fixed_calm, calm_precedence. intros. apply calm_mod_seq. Qed.
Lemma fixed_construct3 c s e l : under (fixed G) (construct3 c s e l).
Proof. apply fixed_calm, calm_construct3. Qed.
Lemma fixed_append_n n t x : under (fixed G) (tier_append_n n t x).
Proof. apply fixed_calm, calm_tier_append_n. Qed.
Lemma fixed_setter s l : under (fixed G) (subset_setter s l).
Proof. apply fixed_calm, calm_subset_setter. Qed.
Lemma fixed_mod_seq i f : under (fixed G) (mod_seq i f).
Proof. apply fixed_calm, calm_mod_seq. Qed.
Lemma fixed_sibling t g d : under (fixed G) (sibling_tier t g d).
Proof. apply fixed_calm, calm_sibling. Qed.
Hint Resolve fixed_cast fixed_new_obj fixed_set_seq fixed_prec fixed_rebind fixed_store fixed_sl_append fixed_contains fixed_precedence fixed_construct3 fixed_append_n fixed_setter fixed_mod_seq fixed_sibling : own.
Lemma fixed_src_class d k e : under (fixed G) (src_class d k e).
Proof. unfold src_class. under. Qed.
Lemma fixed_cast_entry c e : under (fixed G) (cast_entry c e).
Proof. unfold cast_entry. under. Qed.
Lemma fixed_entry_time e : under (fixed G) (entry_time e).
Proof. unfold entry_time. under. Qed.
Lemma fixed_ptier_prec t : under (fixed G) (ptier_precedence t).
Proof. unfold ptier_precedence. under. Qed.
Hint Resolve fixed_src_class fixed_cast_entry fixed_entry_time fixed_ptier_prec : own.
Lemma fixed_itier s ec : under (fixed G) (new_itier s ec).
Proof. unfold new_itier, itier_init. under. Qed.
Lemma fixed_ptier s ec : under (fixed G) (new_ptier s ec).
Proof. unfold new_ptier, ptier_init. under. Qed.
Hint Resolve fixed_itier fixed_ptier : own.
Lemma fixed_fill t ps : under (fixed G) (fill_tier t ps).
Proof. induction ps as [|[s e] ps IH]; cbn [fill_tier]; under. Qed.
Lemma fixed_half t z : under (fixed G) (interval_at_half t z).
Proof. apply fixed_read. intros h. unfold interval_at_half. repeat match goal with |- context[match ?x with _ => _ end] => destruct x end; reflexivity. Qed.
Lemma fixed_within t : under (fixed G) (tier_within_index t).
Proof. apply fixed_read. intros h. unfold tier_within_index, index_in. repeat match goal with |- context[match ?x with _ => _ end] => destruct x end; reflexivity. Qed.
Lemma fixed_item g i : under (fixed G) (group_item g i).
Proof. apply fixed_read. intros h. unfold group_item. destruct (py_index _ _); reflexivity. Qed.
Hint Resolve fixed_fill fixed_half fixed_within fixed_item : own.
Lemma fixed_project n x : under (fixed G) (project_up n x).
Proof. unfold project_up. under. Qed.
Lemma fixed_ext f l : under (fixed G) (np_ext f l).
Proof. unfold np_ext. under. Qed.
Hint Resolve fixed_project fixed_ext : own.
Lemma fixed_xmin t : under (fixed G) (tier_xmin t).
Proof.
  apply fixed_read. intros h. unfold tier_xmin. destruct (tstarts h t) as [|a [|b l]]; [reflexivity|reflexivity|].
  unfold np_ext. destruct (all_some _) as [[|]|]; reflexivity.
Qed.
Lemma fixed_xmax t : under (fixed G) (tier_xmax t).
Proof.
  apply fixed_read. intros h. unfold tier_xmax. destruct (tends h t) as [|a [|b l]]; [reflexivity|reflexivity|].
  unfold np_ext. destruct (all_some _) as [[|]|]; reflexivity.
Qed.
Hint Resolve fixed_xmin fixed_xmax : own.
Lemma fixed_grp_xmin g : under (fixed G) (grp_xmin g).
Proof. unfold grp_xmin. under. Qed.
Lemma fixed_grp_xmax g : under (fixed G) (grp_xmax g).
Proof. unfold grp_xmax. under. destruct (g_points _); under. Qed.
Lemma fixed_close a b : under (fixed G) (close_opt a b).
Proof. unfold close_opt, close_m. under. Qed.
Lemma fixed_append_blanks n ts : forall xs, under (fixed G) (append_blanks n ts xs).
Proof. induction ts as [|t ts IH]; intros [|x xs]; cbn [append_blanks]; under. Qed.
Hint Resolve fixed_grp_xmin fixed_grp_xmax fixed_close fixed_append_blanks : own.
Lemma fixed_level n gs : under (fixed G) (level_groups n gs).
Proof. unfold level_groups, blank_column. under. Qed.
Lemma fixed_set_groups a gs : under (fixed G) (set_tier_groups a gs).
Proof. unfold set_tier_groups. under. Qed.
Lemma fixed_finish a : under (fixed G) (grid_finish a).
Proof. unfold grid_finish, set_group_names. under. Qed.
Lemma fixed_build ps : under (fixed G) (build_tiers ps).
Proof. induction ps as [|[rt c] ps IH]; cbn [build_tiers]; under. Qed.
Lemma fixed_sync t : under (fixed G) (sync_tier_classes t).
Proof. unfold sync_tier_classes. under. Qed.
End Fixed.

(** Tiers stay, with their classes, whose names do not change. *)
Definition aged (h h' : heap) : Prop :=
  (List.length (h_tier h) <= List.length (h_tier h'))%nat /\ (forall t, tlive h t -> t_ec (tob h' t) = t_ec (tob h t)) /\ forall c, class_name h' c = class_name h c.
#[export] Instance aged_pre : PreOrder aged.
Proof.
  split; [intros h; repeat split; auto|]. intros h1 h2 h3 (A1 & A2 & A3) (B1 & B2 & B3). split; [lia|]. split; [|intros; rewrite B3; auto].
  intros t Ht. rewrite B2 by (unfold tlive in *; lia). auto.
Qed.
Lemma aged_still {A} (m : M A) : under (still (fun _ => False)) m -> under aged m.
Proof.
  intros K h. destruct (K h) as (A1 & A2 & A3 & A4). split; [exact A3|]. split; [intros t Ht; apply A4; auto|].
  intros c. unfold class_name, cob. rewrite A1. reflexivity.
Qed.
Lemma aged_calm {A} (m : M A) : calm m -> under aged m.
Proof. intros C. apply aged_still, calm_still, C. Qed.
Lemma aged_mod_grp i f : under aged (mod_grp i f).
Proof. intros h. repeat split; auto. Qed.
Lemma aged_mod_grid i f : under aged (mod_grid i f).
Proof. intros h. repeat split; auto. Qed.
Lemma aged_alloc_grp o : under aged (alloc_grp o).
Proof. intros h. repeat split; auto. Qed.
Lemma aged_grp_name g : under aged (grp_name g).
Proof. apply aged_still, still_grp_name. Qed.
Lemma aged_new {A} (m : tid -> M A) o : (forall t, under (still (fun k => k = t)) (m t)) -> under aged (t <- alloc_tier o ;; m t).
Proof.
  intros K h. unfold bind, alloc_tier. set (h1 := {| h_cls := _ |}). destruct (K (List.length (h_tier h)) h1) as (A1 & A2 & A3 & A4).
  assert (L : List.length (h_tier h1) = S (List.length (h_tier h))) by (unfold h1; cbn [h_tier]; rewrite app_length; simpl; lia).
  split; [lia|]. split; [|intros c; unfold class_name, cob; rewrite A1; reflexivity].
  intros t Ht. unfold tlive in *. rewrite A4; [|unfold tlive; lia|lia]. unfold tob, h1. cbn [h_tier]. rewrite lookup_app_l by exact Ht. reflexivity.
Qed.
Lemma aged_itier s ec : under aged (new_itier s ec).
Proof. unfold new_itier. apply aged_new. intros t. apply under_bind; [exact _|apply still_itier; reflexivity|]. intros. under. Qed.
Lemma aged_ptier s ec : under aged (new_ptier s ec).
Proof. unfold new_ptier. apply aged_new. intros t. apply under_bind; [exact _|apply still_ptier; reflexivity|]. intros. under. Qed.
#[local] Hint Resolve aged_mod_grp aged_mod_grid aged_alloc_grp aged_grp_name aged_itier aged_ptier : own.
Lemma aged_set_groups a gs : under aged (set_tier_groups a gs).
Proof. unfold set_tier_groups. under. Qed.
Lemma aged_finish a : under aged (grid_finish a).
Proof. unfold grid_finish, set_group_names. under. Qed.
Lemma aged_build ps : under aged (build_tiers ps).
Proof. induction ps as [|[rt c] ps IH]; cbn [build_tiers]; under. Qed.
Lemma aged_sync t : under aged (sync_tier_classes t).
Proof.
  apply aged_still. assert (K : forall f, (forall o, t_ec (f o) = t_ec o) -> under (still (fun _ => False)) (mod_tier t f)) by (intros; apply still_mod_tier; auto).
  unfold sync_tier_classes. under; apply K; reflexivity.
Qed.
Lemma aged_level n gs : under aged (level_groups n gs).
Proof.
  apply aged_still. pose proof (still_blank_column (fun _ => False)) as B. pose proof (still_ext (fun _ => False)) as X. pose proof (still_close (fun _ => False)) as C.
  pose proof (still_grp_xmin (fun _ => False)) as X1. pose proof (still_grp_xmax (fun _ => False)) as X2. unfold level_groups. under.
Qed.
(** Changes to the hierarchy of classes alone. *)
Lemma set_hier_aged n : forall up c v, under aged (set_hier n up c v) /\ forall h, h_grp (heap_of (set_hier n up c v h)) = h_grp h.
Proof.
  assert (M1 : forall c f, (forall o, c_name (f o) = c_name o) -> under aged (mod_cls c f)).
  { intros c f F h. split; [reflexivity|]. split; [reflexivity|]. intros k. unfold class_name, cob, mod_cls, modify, upd_cls. cbn [heap_of h_cls].
    destruct (decide (c = k)) as [-> |N]; [|rewrite list_lookup_alter_ne by exact N; reflexivity]. rewrite list_lookup_alter. destruct (h_cls h !! k); [apply F|reflexivity]. }
  assert (R : under (fun h h' => h_grp h' = h_grp h) (ret tt)) by (intros h; reflexivity).
  assert (P : PreOrder (fun h h' : heap => h_grp h' = h_grp h)) by (split; [intros h; reflexivity|intros x y z A B; congruence]).
  assert (M2 : forall c f, under (fun h h' => h_grp h' = h_grp h) (mod_cls c f)) by (intros c f h; reflexivity).
  induction n as [|n IH]; intros up c v; cbn [set_hier].
  - split; [under|]. reflexivity.
  - assert (I1 : forall up c v, under aged (set_hier n up c v)) by apply IH.
    assert (I2 : forall up c v, under (fun h h' => h_grp h' = h_grp h) (set_hier n up c v)) by (intros; intros h; apply IH).
    assert (M3 : forall x, under aged (mod_cls c (if up then set_c_super (Own x) else set_c_sub (Own x)))) by (intros x; apply M1; destruct up; reflexivity).
    split; [destruct v; [|apply M3]; under|]. intros h. assert (U : forall m : M unit, under (fun h h' => h_grp h' = h_grp h) m -> h_grp (heap_of (m h)) = h_grp h) by (intros m K; apply K).
    apply U. destruct v; [|apply M2]. under.
Qed.
Lemma aged_join u d : under aged (join_classes u d).
Proof. unfold join_classes, set_subset_class, set_superset_class. apply under_bind; [exact _|apply set_hier_aged|]. intros. apply set_hier_aged. Qed.
Lemma fixed_join G u d : under (fixed G) (join_classes u d).
Proof. unfold join_classes, set_subset_class, set_superset_class. apply under_bind; [exact _|apply fixed_grps, set_hier_aged|]. intros. apply fixed_grps, set_hier_aged. Qed.

(** ** Steps *)
Definition WT (G : gid -> Prop) (d : desk) : Prop := forall g, G g -> well_tagged d g.
Definition step (G : gid -> Prop) (d d' : desk) : Prop :=
  (WT G d -> WT G d') /\ aged (d_heap d) (d_heap d') /\ (List.length (h_grp (d_heap d)) <= List.length (h_grp (d_heap d')))%nat.
Definition steps (G : gid -> Prop) {A} (m : D A) : Prop := forall d x d', m d = DOk x d' -> step G d d'.
Lemma step_refl G d : step G d d.
Proof. split; [auto|]. split; [reflexivity|lia]. Qed.
Lemma step_trans G d1 d2 d3 : step G d1 d2 -> step G d2 d3 -> step G d1 d3.
Proof. intros (A1 & A2 & A3) (B1 & B2 & B3). split; [auto|]. split; [etransitivity; eassumption|lia]. Qed.
Lemma steps_bind G {A B} (m : D A) (k : A -> D B) : steps G m -> (forall a, steps G (k a)) -> steps G (dbind m k).
Proof. intros Km Kk d x d' E. destruct (dbind_ok _ _ _ _ _ E) as (a & d1 & E1 & E2). exact (step_trans _ _ _ _ (Km _ _ _ E1) (Kk a _ _ _ E2)). Qed.
Lemma steps_ret G {A} (a : A) : steps G (dret a).
Proof. intros d x d' E. injection E as <- <-. apply step_refl. Qed.
Lemma steps_raise G {A} e : steps G (@draise A e).
Proof. intros d x d' E. discriminate. Qed.
Lemma steps_gets G {A} (f : heap -> A) : steps G (dgets f).
Proof. intros d x d' E. destruct (dgets_ok _ _ _ _ E) as (_ & ->). apply step_refl. Qed.
(** A group with its tiers and their classes unchanged. *)
Lemma tagged_same d d' g : aged (d_heap d) (d_heap d') -> g_tiers (gob (d_heap d') g) = g_tiers (gob (d_heap d) g) -> (forall s, by_name d' g s = by_name d g s) -> well_tagged d g -> well_tagged d' g.
Proof.
  intros (A1 & A2 & A3) F B (L & R). split; [intros t Ht; rewrite F in Ht; specialize (L t Ht); lia|].
  intros N t Ht. rewrite F in Ht. rewrite B, A2, A3 by (apply L; exact Ht). apply R; [|exact Ht]. unfold classes_differ in *. rewrite F in N.
  erewrite map_ext_in; [exact N|]. intros k Hk. cbn beta. rewrite A2, A3 by (apply L; exact Hk). reflexivity.
Qed.
Lemma step_plain G d d' : aged (d_heap d) (d_heap d') -> fixed G (d_heap d) (d_heap d') -> d_attr d' = d_attr d -> step G d d'.
Proof.
  intros A F B. split; [|split; [exact A|apply F]]. intros W g Hg. apply (tagged_same d d' g A); [apply F; exact Hg| |apply W; exact Hg].
  intros s. unfold by_name. rewrite B. reflexivity.
Qed.
Lemma steps_plain G {A} (m : M A) : under aged m -> under (fixed G) m -> steps G (plainly m).
Proof.
  intros Ka Kf d x d' E. destruct (plainly_ok _ _ _ _ E) as (Q & B). specialize (Ka (d_heap d)). specialize (Kf (d_heap d)). rewrite Q in Ka, Kf. apply step_plain; assumption.
Qed.
Lemma steps_forM G {A} (l : list A) f : (forall a, steps G (f a)) -> steps G (dforM l f).
Proof. intros K. induction l as [|x l IH]; cbn [dforM]; [apply steps_ret|]. apply steps_bind; [apply K|]. intros _. exact IH. Qed.
(** Running the constructor of [g] with tiers that exist. *)
Lemma step_init (G : gid -> Prop) g d d' : aged (d_heap d) (d_heap d') -> fixed (fun k => k <> g) (d_heap d) (d_heap d') -> tiers_named d d' g ->
  (G g -> WT G d -> forall t, In t (g_tiers (gob (d_heap d') g)) -> tlive (d_heap d') t) -> step G d d'.
Proof.
  intros A [Fl F] (N1 & N2) L. split; [|split; [exact A|exact Fl]]. intros W k Hk. destruct (decide (k = g)) as [-> |Nk].
  - split; [intros t Ht; apply L; auto|]. intros N. apply N1. exact N.
  - apply (tagged_same d d' k A); [apply F; exact Nk| |apply W; exact Hk]. intros s. unfold by_name.
    destruct (decide (classes_differ (d_heap d') g)) as [C|C]; [destruct (N1 C) as (_ & O & _); rewrite (O k Nk); reflexivity|rewrite (N2 C); reflexivity].
Qed.
Lemma fits_live {A} (m : M A) g (ts : list tid) (h : heap) : (forall W : gid -> tid -> Prop, (forall t, In t ts -> W g t) -> under (keeps (bounded W 0)) m) ->
  (forall t, In t ts -> tlive h t) -> (forall t, In t (g_tiers (gob h g)) -> tlive h t) -> forall t, In t (g_tiers (gob (heap_of (m h)) g)) -> tlive h t.
Proof.
  intros K L1 L2 t Ht. pose (W := fun (k : gid) (t : tid) => k = g -> tlive h t).
  assert (B : bounded W 0 h) by (split; [lia|]; intros k u Hu E; subst k; apply L2, Hu).
  destruct (K W (fun t Ht _ => L1 t Ht) h B) as (_ & B2). exact (B2 g t Ht eq_refl).
Qed.
Lemma step_tg_init (G : gid -> Prop) n g ts nm dl d d' : (G g -> WT G d -> forall t, In t ts -> tlive (d_heap d) t) -> tg_init_named n g ts nm dl d = DOk tt d' -> step G d d'.
Proof.
  intros L E. pose proof (does_tg_init n g ts nm dl d) as Q. rewrite E in Q.
  pose proof (aged_still _ (still_tg_init _ n g ts nm dl) (d_heap d)) as A. rewrite Q in A.
  apply (step_init G g); [exact A| |eapply tg_init_tags; exact E|].
  - pose proof (fixed_tg_init (fun k => k <> g) n g ts nm dl (fun N => N eq_refl) (d_heap d)) as F. rewrite Q in F. exact F.
  - intros Hg W t Ht. destruct A as (A & _). cbn [heap_of] in A. assert (tlive (d_heap d) t); [|unfold tlive in *; lia].
    apply (fits_live (tg_init n g ts nm dl) g ts (d_heap d)); [intros; apply fits_tg_init; assumption|auto|apply W, Hg|]. rewrite Q. exact Ht.
Qed.
Lemma step_pg_init (G : gid -> Prop) g ts d d' : (G g -> WT G d -> forall t, In t ts -> tlive (d_heap d) t) -> pg_init_named g ts d = DOk tt d' -> step G d d'.
Proof.
  intros L E. pose proof (does_pg_init g ts d) as Q. rewrite E in Q.
  pose proof (aged_still _ (still_pg_init _ g ts) (d_heap d)) as A. rewrite Q in A.
  apply (step_init G g); [exact A| |eapply pg_init_tags; exact E|].
  - pose proof (fixed_pg_init (fun k => k <> g) g ts (fun N => N eq_refl) (d_heap d)) as F. rewrite Q in F. exact F.
  - intros Hg W t Ht. destruct A as (A & _). cbn [heap_of] in A. assert (tlive (d_heap d) t); [|unfold tlive in *; lia].
    apply (fits_live (pg_init g ts) g ts (d_heap d)); [intros; apply fits_pg_init; assumption|auto|apply W, Hg|]. rewrite Q. exact Ht.
Qed.
Lemma steps_re_relate G n g : steps G (re_relate_named n g).
Proof.
  intros d [] d' E. unfold re_relate_named in E. destruct (dbind_ok _ _ _ _ _ E) as (o & d1 & E1 & E2). destruct (dgets_ok _ _ _ _ E1) as (-> & ->).
  destruct (g_points (gob (d_heap d) g)).
  - eapply step_pg_init; [|exact E2]. intros Hg W. apply W, Hg.
  - destruct (dbind_ok _ _ _ _ _ E2) as (nm & d2 & E3 & E4). pose proof (steps_plain (fun k => G k \/ k = g) (grp_name g) (aged_grp_name g) (fixed_grp_name _ g) _ _ _ E3) as S1.
    pose proof (steps_plain G (grp_name g) (aged_grp_name g) (fixed_grp_name _ g) _ _ _ E3) as S2. refine (step_trans _ _ _ _ S2 _).
    eapply step_tg_init; [|exact E4]. intros Hg W t Ht. destruct (plainly_ok _ _ _ _ E3) as (Q & _). pose proof (fixed_grp_name (fun _ => True) g (d_heap d)) as [_ F]. rewrite Q in F.
    apply (W g Hg). cbn [heap_of] in F. rewrite (F g I). exact Ht.
Qed.
Lemma step_new (G : gid -> Prop) o {A} (init : gid -> D A) d g d' : g_tiers o = [] ->
  (forall d1 x d2, aged (d_heap d) (d_heap d1) -> init (List.length (h_grp (d_heap d))) d1 = DOk x d2 -> step G d1 d2) ->
  dbind (plainly (alloc_grp o)) (fun g => dbind (init g) (fun _ => dret g)) d = DOk g d' -> step G d d' /\ g = List.length (h_grp (d_heap d)) /\ (g < List.length (h_grp (d_heap d')))%nat.
Proof.
  intros Eo K E. destruct (dbind_ok _ _ _ _ _ E) as (g1 & d1 & E1 & E2). destruct (dbind_ok _ _ _ _ _ E2) as (x & d2 & E3 & E4). injection E4 as -> ->.
  pose proof (steps_plain G _ (aged_alloc_grp o) (fixed_alloc_grp G o Eo) _ _ _ E1) as S1. destruct (plainly_ok _ _ _ _ E1) as (Q & _). unfold alloc_grp in Q. injection Q as Q1 Q2. subst g.
  assert (S2 : step G d1 d') by (apply (K d1 x d'); [apply S1|exact E3]).
  split; [exact (step_trans _ _ _ _ S1 S2)|]. split; [reflexivity|]. destruct S2 as (_ & _ & L). rewrite <- Q2 in L. cbn [h_grp] in L. rewrite app_length in L. simpl in L. lia.
Qed.
Lemma step_new_tg (G : gid -> Prop) n ts d g d' : (WT G d -> forall t, In t ts -> tlive (d_heap d) t) -> new_tg_named n ts d = DOk g d' ->
  (WT G d -> WT G d') /\ step (fun _ => False) d d' /\ g = List.length (h_grp (d_heap d)) /\ (g < List.length (h_grp (d_heap d')))%nat.
Proof.
  intros L E.
  assert (X : step (fun _ => False) d d' /\ g = List.length (h_grp (d_heap d)) /\ (g < List.length (h_grp (d_heap d')))%nat).
  { eapply (step_new _ (blank_grp false) (fun g => tg_init_named n g ts None false)); [reflexivity| |exact E]. intros d1 [] d2 A E1. eapply step_tg_init; [|exact E1]. intros []. }
  split; [|exact X]. intros W.
  assert (Y : step G d d'); [|apply Y; exact W].
  eapply (step_new G (blank_grp false) (fun g => tg_init_named n g ts None false)); [reflexivity| |exact E]. intros d1 [] d2 A E1. eapply step_tg_init; [|exact E1]. intros _ _ t Ht. destruct A as (A & _). specialize (L W t Ht). unfold tlive in *. lia.
Qed.
Lemma step_new_tg0 n ts d g d' : new_tg_named n ts d = DOk g d' -> step (fun _ => False) d d' /\ g = List.length (h_grp (d_heap d)) /\ (g < List.length (h_grp (d_heap d')))%nat.
Proof.
  intros E. eapply (step_new _ (blank_grp false) (fun g => tg_init_named n g ts None false)); [reflexivity| |exact E]. intros d1 [] d2 A E1. eapply step_tg_init; [|exact E1]. intros [].
Qed.
Lemma step_new_pg (G : gid -> Prop) ts d g d' : (WT G d -> forall t, In t ts -> tlive (d_heap d) t) -> new_pg_named ts d = DOk g d' ->
  (WT G d -> WT G d') /\ step (fun _ => False) d d' /\ g = List.length (h_grp (d_heap d)) /\ (g < List.length (h_grp (d_heap d')))%nat.
Proof.
  intros L E.
  assert (X : step (fun _ => False) d d' /\ g = List.length (h_grp (d_heap d)) /\ (g < List.length (h_grp (d_heap d')))%nat).
  { eapply (step_new _ (blank_grp true) (fun g => pg_init_named g ts)); [reflexivity| |exact E]. intros d1 [] d2 A E1. eapply step_pg_init; [|exact E1]. intros []. }
  split; [|exact X]. intros W.
  assert (Y : step G d d'); [|apply Y; exact W].
  eapply (step_new G (blank_grp true) (fun g => pg_init_named g ts)); [reflexivity| |exact E]. intros d1 [] d2 A E1. eapply step_pg_init; [|exact E1]. intros _ _ t Ht. destruct A as (A & _). specialize (L W t Ht). unfold tlive in *. lia.
Qed.
Lemma step_weak G d d' : step (fun _ => False) d d' -> (WT G d -> WT G d') -> step G d d'.
Proof. intros (_ & A & L) W. split; [exact W|]. split; [exact A|exact L]. Qed.

(** ** Cleanup *)
Ltac steps := repeat first
  [ apply steps_ret | apply steps_raise | apply steps_gets | apply steps_re_relate
  | match goal with |- steps _ (dbind _ _) => apply steps_bind; [|intros ?] end
  | match goal with |- steps _ (match ?x with _ => _ end) => destruct x end
  | match goal with |- steps _ (if ?x then _ else _) => destruct x end ].
Lemma steps_calm G {A} (m : M A) : calm m -> steps G (plainly m).
Proof. intros C. apply steps_plain; [apply aged_calm, C|apply fixed_calm, C]. Qed.
Lemma steps_issub G c d : steps G (plainly (issubclass_m c d)).
Proof. apply steps_plain; apply under_issub; exact _. Qed.
Lemma steps_fill G t ps : steps G (plainly (fill_tier t ps)).
Proof. apply steps_plain; [apply aged_still, still_fill|apply fixed_fill]. Qed.
Lemma steps_sibling G t g k : steps G (plainly (sibling_tier t g k)).
Proof. apply steps_calm, calm_sibling. Qed.
Lemma steps_tier_cleanup G n : forall t, steps G (tier_cleanup_named n t).
Proof. induction n as [|n IH]; intros t; cbn [tier_cleanup_named]; steps; first [apply steps_fill|apply steps_issub|apply steps_sibling|apply IH]. Qed.
Lemma steps_orphans G k n g : forall i b, steps G (orphan_pass_named k n g i b).
Proof.
  induction k as [|k IH]; intros i b; cbn [orphan_pass_named]; steps; try apply IH. apply steps_plain.
  - apply aged_still. apply under_forM; [exact _|]. intros x _. apply under_bind; [exact _|apply under_gets; exact _|]. intros []; [apply under_ret; exact _|apply still_project].
  - apply under_forM; [exact _|]. intros x _. apply under_bind; [exact _|apply under_gets; exact _|]. intros []; [apply under_ret; exact _|apply fixed_project].
Qed.
Lemma steps_cleanups G k n g : forall i, steps G (cleanup_tiers_named k n g i).
Proof. induction k as [|k IH]; intros i; cbn [cleanup_tiers_named]; steps; [apply steps_tier_cleanup|apply IH]. Qed.
Lemma steps_grp_cleanup G n g : steps G (grp_cleanup_named n g).
Proof. unfold grp_cleanup_named. steps; [apply steps_orphans|apply steps_cleanups]. Qed.
Lemma steps_level G n gs : steps G (plainly (level_groups n gs)).
Proof. apply steps_plain; [apply aged_level|apply fixed_level]. Qed.
Lemma steps_grid_cleanup G n a : steps G (grid_cleanup_named n a).
Proof. unfold grid_cleanup_named. steps; [|apply steps_level]. apply steps_forM. intros g. steps. apply steps_grp_cleanup. Qed.

Lemma c73_cleanup : forall n a d d', grid_cleanup_named n a d = DOk tt d' ->
  grid_cleanup n a (d_heap d) = Ok tt (d_heap d') /\ forall g, well_tagged d g -> well_tagged d' g.
Proof.
  intros n a d d' E. split; [pose proof (does_grid_cleanup n a d) as Q; rewrite E in Q; exact Q|]. intros g W.
  destruct (steps_grid_cleanup (fun k => k = g) n a d tt d' E) as (S1 & _). apply S1; [|reflexivity]. intros k ->. exact W.
Qed.
Lemma c73_tidy : forall n g d d', grp_cleanup_named n g d = DOk tt d' ->
  grp_cleanup n g (d_heap d) = Ok tt (d_heap d') /\ forall k, well_tagged d k -> well_tagged d' k.
Proof.
  intros n g d d' E. split; [pose proof (does_grp_cleanup n g d) as Q; rewrite E in Q; exact Q|]. intros k W.
  destruct (steps_grp_cleanup (fun x => x = k) n g d tt d' E) as (S1 & _). apply S1; [|reflexivity]. intros x ->. exact W.
Qed.

(** ** Work on classes alone *)
Definition clso (h h' : heap) : Prop :=
  h_grp h' = h_grp h /\ h_tier h' = h_tier h /\ (forall a, a_groups (aob h' a) = a_groups (aob h a)) /\
  (List.length (h_cls h) <= List.length (h_cls h'))%nat /\ forall c, clive h c -> class_name h' c = class_name h c.
#[export] Instance clso_pre : PreOrder clso.
Proof.
  split; [intros h; repeat split; auto|]. intros h1 h2 h3 (A1 & A2 & A3 & A4 & A5) (B1 & B2 & B3 & B4 & B5).
  split; [congruence|]. split; [congruence|]. split; [intros a; rewrite B3; apply A3|]. split; [lia|]. intros c Hc. rewrite B5 by (unfold clive in *; lia). auto.
Qed.
Lemma clso_alloc_grid : under clso (alloc_grid blank_grid).
Proof.
  intros h. split; [reflexivity|]. split; [reflexivity|]. split; [|split; [reflexivity|reflexivity]]. intros a. unfold alloc_grid, aob. cbn [heap_of h_grid].
  destruct (lt_dec a (List.length (h_grid h))) as [L|L]; [rewrite lookup_app_l by exact L; reflexivity|]. rewrite (lookup_ge_None_2 (h_grid h)) by lia.
  destruct (decide (a = List.length (h_grid h))) as [-> |N]; [rewrite list_lookup_middle by reflexivity; reflexivity|]. rewrite lookup_ge_None_2; [reflexivity|]. rewrite app_length. simpl. lia.
Qed.
Lemma clso_alloc_cls o : under clso (alloc_cls o).
Proof.
  intros h. split; [reflexivity|]. split; [reflexivity|]. split; [reflexivity|]. split; [cbn; rewrite app_length; lia|].
  intros c Hc. unfold class_name. cbn [heap_of alloc_cls]. f_equal. apply (cob_push_old h o c Hc).
Qed.
Lemma clso_mod_cls c f : (forall o, c_name (f o) = c_name o) -> under clso (mod_cls c f).
Proof.
  intros F h. split; [reflexivity|]. split; [reflexivity|]. split; [reflexivity|]. split; [cbn; rewrite alter_length; lia|].
  intros k _. unfold class_name, cob, mod_cls, modify, upd_cls. cbn [heap_of h_cls].
  destruct (decide (c = k)) as [-> |N]; [|rewrite list_lookup_alter_ne by exact N; reflexivity]. rewrite list_lookup_alter. destruct (h_cls h !! k); [apply F|reflexivity].
Qed.
Lemma clso_mod_grid a f : (forall o, a_groups (f o) = a_groups o) -> under clso (mod_grid a f).
Proof.
  intros F h. split; [reflexivity|]. split; [reflexivity|]. split; [|split; [reflexivity|reflexivity]].
  intros k. unfold aob, mod_grid, modify, upd_grid. cbn [heap_of h_grid].
  destruct (decide (a = k)) as [-> |N]; [|rewrite list_lookup_alter_ne by exact N; reflexivity]. rewrite list_lookup_alter. destruct (h_grid h !! k); [apply F|reflexivity].
Qed.
#[local] Hint Resolve clso_alloc_grid clso_alloc_cls : own.
Lemma clso_set_hier n : forall up c v, under clso (set_hier n up c v).
Proof.
  induction n as [|n IH]; intros up c v; cbn [set_hier]; [under|].
  assert (M3 : forall x, under clso (mod_cls c (if up then set_c_super (Own x) else set_c_sub (Own x)))) by (intros x; apply clso_mod_cls; destruct up; reflexivity).
  destruct v; [|apply M3]. under.
Qed.
#[local] Hint Resolve clso_set_hier : own.
Lemma clso_sup c v : under clso (set_superset_class c v).
Proof. apply clso_set_hier. Qed.
Lemma clso_sub c v : under clso (set_subset_class c v).
Proof. apply clso_set_hier. Qed.
Lemma clso_copy nm b : under clso (type_copy nm b).
Proof. unfold type_copy. under. Qed.
Lemma clso_top : under clso make_top.
Proof. unfold make_top. under. Qed.
Lemma clso_bottom : under clso make_bottom.
Proof. unfold make_bottom. under. Qed.
#[local] Hint Resolve clso_sup clso_sub clso_copy clso_top clso_bottom : own.
Lemma clso_wire t b cs : forall first, under clso (wire_chain first t b cs).
Proof. induction cs as [|c cs IH]; intros first; cbn [wire_chain]; under. Qed.
Lemma clso_make ps nms : forall i, under clso (make_classes i nms ps).
Proof. induction nms as [|c cs IH]; intros i; cbn [make_classes]; under. Qed.
#[local] Hint Resolve clso_wire clso_make : own.
Lemma clso_custom nms ro ps : under clso (custom_classes nms ro ps).
Proof. unfold custom_classes, custom_classes_built, order_by_names. under. Qed.
Lemma clso_clone n : forall rc c, under clso (clone_n n rc c).
Proof. induction n as [|n IH]; intros rc c; cbn [clone_n]; under. Qed.
Lemma clso_clone_class c : under clso (clone_class c).
Proof. intros h. apply (clso_clone _ false c h). Qed.
Lemma clso_hier n : forall c out, under clso (hier_n n c out).
Proof. induction n as [|n IH]; intros c out; cbn [hier_n]; under. Qed.
Lemma clso_hierarchy c out : under clso (get_class_hierarchy c out).
Proof. intros h. apply (clso_hier _ c out h). Qed.
#[local] Hint Resolve clso_custom clso_clone_class clso_hierarchy : own.
Lemma clso_filterM {A} (f : A -> M bool) l : (forall a, under clso (f a)) -> under clso (filterM f l).
Proof. intros K. induction l as [|x l IH]; cbn [filterM]; under. Qed.
Lemma clso_reclone a cs : under clso (reclone a cs).
Proof.
  unfold reclone. destruct cs; [under|]. assert (Ft : forall l, under clso (filterM is_top_cls l)) by (intros l; apply clso_filterM; intros c; unfold is_top_cls; under).
  assert (Mg : forall l1 l2, under clso (mod_grid a (fun o => set_a_cloned (a_cloned o ++ l1 ++ l2)%list o))) by (intros; apply clso_mod_grid; reflexivity).
  unfold clone_or_reuse. under.
Qed.
Lemma clso_swap l l' : under clso (swap_classes l l').
Proof. unfold swap_classes. under. Qed.
#[local] Hint Resolve clso_reclone clso_swap : own.
Lemma clso_tops cs : under clso (top_idxes cs).
Proof. unfold top_idxes. under. Qed.
#[local] Hint Resolve clso_tops : own.
Lemma clso_take {A B} (cs : list A) (ts : list B) : forall i, under clso (take_group cs i ts).
Proof. induction cs as [|c cs IH]; intros i; cbn [take_group]; under. Qed.
Lemma clso_takes {A B} (css : list (list A)) (ts : list B) : forall i, under clso (take_groups css i ts).
Proof. induction css as [|c cs IH]; intros i; cbn [take_groups]; under. apply clso_take. Qed.
Lemma clso_chase {B} n cs (ts : list B) : forall c, under clso (chase_down n cs ts c).
Proof. induction n as [|n IH]; intros c; cbn [chase_down]; under. Qed.
#[local] Hint Resolve clso_take clso_takes clso_chase : own.
Lemma clso_nestify {B} (ts : list B) ecs : under clso (nestify ts ecs).
Proof. unfold nestify, extend_classes. under. Qed.
#[local] Hint Resolve clso_nestify : own.
Lemma clso_by_name a nm : under clso (get_class_by_name a nm).
Proof. apply under_read; [exact _|]. intros h. unfold get_class_by_name. destruct (List.filter _ _) as [|c [|]]; reflexivity. Qed.
#[local] Hint Resolve clso_by_name : own.
Lemma clso_weave a nm above nm2 : under clso (weave_classes a nm above nm2).
Proof. unfold weave_classes, splice_class. under. Qed.

(** ** Reading *)
Lemma build_live ps : forall h b h', build_tiers ps h = Ok b h' -> forall t, In t (fst b) \/ In t (snd b) -> tlive h' t.
Proof.
  induction ps as [|[rt c] ps IH]; intros h b h' E; cbn [build_tiers] in E; [injection E as <- _; intros t [[]|[]]|].
  rewrite !bind_gets in E.
  assert (New : forall (bb : bool) (m : M tid) h1 l h2, (forall h3 t h4, m h3 = Ok t h4 -> tlive h4 t) -> (if bb then t <- m ;; ret [t] else ret []) h1 = Ok l h2 -> forall t, In t l -> tlive h2 t).
  { intros bb m h1 l h2 K Q. destruct bb; [|injection Q as <- <-; intros t []]. unfold bind in Q. destruct (m h1) as [t1 h3|] eqn:Em; [|discriminate]. injection Q as <- <-. intros t [<-|[]]. eapply K; exact Em. }
  assert (Ki : forall s ec h3 t h4, new_itier s ec h3 = Ok t h4 -> tlive h4 t).
  { intros s ec h3 t h4 Q. unfold new_itier, bind, alloc_tier in Q. match type of Q with context[itier_init ?t0 s ec ?hh] => pose proof (still_itier (fun k => k = t0) t0 s ec eq_refl hh) as (_ & _ & L & _); destruct (itier_init t0 s ec hh) as [u h5|] end; [|discriminate].
    injection Q as <- <-. cbn [heap_of h_tier] in L. rewrite app_length in L. simpl in L. unfold tlive. lia. }
  assert (Kp : forall s ec h3 t h4, new_ptier s ec h3 = Ok t h4 -> tlive h4 t).
  { intros s ec h3 t h4 Q. unfold new_ptier, bind, alloc_tier in Q. match type of Q with context[ptier_init ?t0 s ec ?hh] => pose proof (still_ptier (fun k => k = t0) t0 s ec eq_refl hh) as (_ & _ & L & _); destruct (ptier_init t0 s ec hh) as [u h5|] end; [|discriminate].
    injection Q as <- <-. cbn [heap_of h_tier] in L. rewrite app_length in L. simpl in L. unfold tlive. lia. }
  unfold bind at 1 in E. match type of E with context[match ?m h with _ => _ end] => destruct (m h) as [l1 h1|] eqn:E1 end; [|discriminate].
  unfold bind at 1 in E. match type of E with context[match ?m h1 with _ => _ end] => destruct (m h1) as [l2 h2|] eqn:E2 end; [|discriminate].
  unfold bind at 1 in E. pose proof (aged_build ps h2) as (A & _). destruct (build_tiers ps h2) as [r h3|] eqn:E3; [|discriminate]. injection E as <- <-. cbn [heap_of] in A.
  assert (A2 : (List.length (h_tier h1) <= List.length (h_tier h2))%nat).
  { match type of E2 with ?m h1 = _ => assert (U : under aged m) end.
    { destruct (issubclass h c cInterval); [|apply under_ret; exact _]. apply under_bind; [exact _|apply aged_itier|]. intros. apply under_ret; exact _. }
    destruct (U h1) as (U1 & _). rewrite E2 in U1. exact U1. }
  cbn [fst snd]. intros t Ht. rewrite !in_app_iff in Ht. unfold tlive in *. specialize (IH _ _ _ E3 t).
  assert (X1 : In t l1 -> (t < List.length (h_tier h1))%nat) by (apply (New _ _ _ _ _ (Kp _ _) E1)).
  assert (X2 : In t l2 -> (t < List.length (h_tier h2))%nat) by (apply (New _ _ _ _ _ (Ki _ _) E2)).
  destruct Ht as [[X|X]|[X|X]]; auto; [apply X2 in X|apply X1 in X]; lia.
Qed.
Lemma build_groups_step (G : gid -> Prop) n tgs : forall css d gs d', build_groups_named n tgs css d = DOk gs d' ->
  step G d d' /\ forall g, In g gs -> (List.length (h_grp (d_heap d)) <= g)%nat.
Proof.
  induction tgs as [|ts tgs IH]; intros [|cs css] d gs d' E; cbn [build_groups_named] in E; try (injection E as <- <-; split; [apply step_refl|intros g []]).
  destruct (dbind_ok _ _ _ _ _ E) as (b & d1 & E1 & E2). destruct (dbind_ok _ _ _ _ _ E2) as (g1 & d2 & E3 & E4). destruct (dbind_ok _ _ _ _ _ E4) as (g2 & d3 & E5 & E6). destruct (dbind_ok _ _ _ _ _ E6) as (r & d4 & E7 & E8). injection E8 as <- <-.
  destruct (plainly_ok _ _ _ _ E1) as (Q1 & _). pose proof (build_live _ _ _ _ Q1) as Lv.
  pose proof (steps_plain G _ (aged_build _) (fixed_build G _) _ _ _ E1) as S1. destruct (IH _ _ _ _ E7) as (S4 & N4).
  assert (X2 : step G d1 d2 /\ forall g, In g g1 -> (List.length (h_grp (d_heap d1)) <= g)%nat).
  { destruct (fst b) as [|t l] eqn:Eb; [injection E3 as <- <-; split; [apply step_refl|intros g []]|]. destruct (dbind_ok _ _ _ _ _ E3) as (g & d5 & E9 & E10). injection E10 as <- <-.
    destruct (step_new_tg G _ _ _ _ _ (fun _ t Ht => Lv t (or_introl Ht)) E9) as (W & S & -> & _). split; [apply step_weak; assumption|]. intros k [<-|[]]. lia. }
  destruct X2 as (S2 & N2).
  assert (Lv2 : forall t, In t (snd b) -> tlive (d_heap d2) t).
  { intros t Ht. specialize (Lv t (or_intror Ht)). destruct S2 as (_ & (A & _) & _). unfold tlive in *. lia. }
  assert (X3 : step G d2 d3 /\ forall g, In g g2 -> (List.length (h_grp (d_heap d2)) <= g)%nat).
  { destruct (snd b) as [|t l] eqn:Eb; [injection E5 as <- <-; split; [apply step_refl|intros g []]|]. destruct (dbind_ok _ _ _ _ _ E5) as (g & d5 & E9 & E10). injection E10 as <- <-.
    destruct (step_new_pg G _ _ _ _ (fun _ t Ht => Lv2 t Ht) E9) as (W & S & -> & _). split; [apply step_weak; assumption|]. intros k [<-|[]]. lia. }
  destruct X3 as (S3 & N3).
  split; [exact (step_trans _ _ _ _ S1 (step_trans _ _ _ _ S2 (step_trans _ _ _ _ S3 S4)))|].
  destruct S1 as (_ & _ & L1), S2 as (_ & _ & L2), S3 as (_ & _ & L3). intros g Hg. rewrite !in_app_iff in Hg. destruct Hg as [Hg|[Hg|Hg]]; [apply N2 in Hg|apply N3 in Hg|apply N4 in Hg]; lia.
Qed.
Lemma still_build_tiers ps : forall h, h_grid (heap_of (build_tiers ps h)) = h_grid h.
Proof.
  assert (P : PreOrder (fun h h' : heap => h_grid h' = h_grid h)) by (split; [intros h; reflexivity|intros x y z A B; congruence]).
  assert (Ki : forall s ec, under (fun h h' : heap => h_grid h' = h_grid h) (new_itier s ec)).
  { intros s ec. unfold new_itier. apply under_bind; [exact _|intros h; reflexivity|]. intros t. apply under_bind; [exact _| |intros; apply under_ret; exact _]. intros h. apply (still_itier (fun k => k = t) t s ec eq_refl h). }
  assert (Kp : forall s ec, under (fun h h' : heap => h_grid h' = h_grid h) (new_ptier s ec)).
  { intros s ec. unfold new_ptier. apply under_bind; [exact _|intros h; reflexivity|]. intros t. apply under_bind; [exact _| |intros; apply under_ret; exact _]. intros h. apply (still_ptier (fun k => k = t) t s ec eq_refl h). }
  assert (U : under (fun h h' : heap => h_grid h' = h_grid h) (build_tiers ps)); [|exact U].
  induction ps as [|[rt c] ps IH]; cbn [build_tiers]; under.
Qed.
Lemma still_build_groups n tgs : forall css h, h_grid (heap_of (build_groups n tgs css h)) = h_grid h.
Proof.
  assert (P : PreOrder (fun h h' : heap => h_grid h' = h_grid h)) by (split; [intros h; reflexivity|intros x y z A B; congruence]).
  assert (Kt : forall ts, under (fun h h' : heap => h_grid h' = h_grid h) (new_tg n ts)) by (intros ts h; apply (still_new_tg (fun _ => False) n ts h)).
  assert (Kp : forall ts, under (fun h h' : heap => h_grid h' = h_grid h) (new_pg ts)) by (intros ts h; apply (still_new_pg (fun _ => False) ts h)).
  assert (Kb : forall ps, under (fun h h' : heap => h_grid h' = h_grid h) (build_tiers ps)) by (intros ps h; apply still_build_tiers).
  assert (U : forall css, under (fun h h' : heap => h_grid h' = h_grid h) (build_groups n tgs css)); [|exact U].
  induction tgs as [|ts tgs IH]; intros [|cs css]; cbn [build_groups]; under.
Qed.
Lemma c73_read : forall n tg ecs d a d', read_named n tg ecs d = DOk a d' ->
  new_grid_textgrid n tg ecs (d_heap d) = Ok a (d_heap d') /\ forall g, In g (a_groups (aob (d_heap d') a)) -> well_tagged d' g.
Proof.
  intros n tg ecs d a d' E. split; [pose proof (does_read n tg ecs d) as Q; rewrite E in Q; exact Q|].
  unfold read_named in E. destruct (dbind_ok _ _ _ _ _ E) as (a1 & d1 & E1 & E2). destruct (plainly_ok _ _ _ _ E1) as (Q1 & _).
  pose proof (clso_alloc_grid (d_heap d)) as C1. rewrite Q1 in C1. cbn [heap_of] in C1.
  assert (Em : a_groups (aob (d_heap d1) a1) = []).
  { unfold alloc_grid in Q1. injection Q1 as <- <-. unfold aob. cbn [h_grid]. rewrite list_lookup_middle by reflexivity. reflexivity. }
  destruct tg as [|rt tg]; [injection E2 as <- <-; rewrite Em; intros g []|].
  destruct (dbind_ok _ _ _ _ _ E2) as (p & d2 & E3 & E4). destruct (dbind_ok _ _ _ _ _ E4) as (gs & d3 & E5 & E6). destruct (dbind_ok _ _ _ _ _ E6) as (u & d4 & E7 & E8).
  destruct (dbind_ok _ _ _ _ _ E8) as ([] & d5 & E9 & E10). destruct (dbind_ok _ _ _ _ _ E10) as (u2 & d6 & E11 & E12). injection E12 as <- <-.
  destruct (plainly_ok _ _ _ _ E3) as (Q3 & _). destruct (plainly_ok _ _ _ _ E7) as (Q7 & _). destruct (plainly_ok _ _ _ _ E11) as (Q11 & _).
  match type of Q3 with ?m (d_heap d1) = _ => assert (U : under clso m) by (under; apply clso_nestify) end.
  specialize (U (d_heap d1)). rewrite Q3 in U. cbn [heap_of] in U. destruct U as (U1 & U2 & U3 & _). destruct C1 as (C1 & _).
  set (G := fun g : gid => (List.length (h_grp (d_heap d)) <= g)%nat).
  assert (W2 : WT G d2).
  { intros g Hg. assert (Eg : g_tiers (gob (d_heap d2) g) = []) by (unfold gob; rewrite U1, C1, lookup_ge_None_2 by exact Hg; reflexivity).
    split; [rewrite Eg; intros t []|]. intros _ t Ht. rewrite Eg in Ht. destruct Ht. }
  destruct (build_groups_step G _ _ _ _ _ _ E5) as (S3 & N3).
  pose proof (steps_plain G _ (aged_set_groups a1 gs) (fixed_set_groups G a1 gs) _ _ _ E7) as S4.
  pose proof (steps_grid_cleanup G _ _ _ _ _ E9) as S5.
  pose proof (steps_plain G _ (aged_finish a1) (fixed_finish G a1) _ _ _ E11) as S6.
  assert (W : WT G d6) by (apply S6, S5, S4, S3, W2).
  intros g Hg. apply W. unfold G.
  assert (P : PreOrder (fun h h' : heap => h_grid h' = h_grid h)) by (split; [intros h; reflexivity|intros x y z A B; congruence]).
  assert (F6 : h_grid (d_heap d6) = h_grid (d_heap d5)).
  { assert (U : under (fun h h' : heap => h_grid h' = h_grid h) (grid_finish a1)).
    { assert (Mg : forall i f, under (fun h h' : heap => h_grid h' = h_grid h) (mod_grp i f)) by (intros i f h; reflexivity).
      assert (Gn : forall k, under (fun h h' : heap => h_grid h' = h_grid h) (grp_name k)) by (intros k h; apply (still_grp_name (fun _ => False) k h)).
      unfold grid_finish, set_group_names. under. }
    specialize (U (d_heap d5)). rewrite Q11 in U. exact U. }
  assert (F5 : h_grid (d_heap d5) = h_grid (d_heap d4)).
  { pose proof (does_grid_cleanup n a1 d4) as Q. rewrite E9 in Q. pose proof (still_grid_cleanup (fun _ => False) n a1 (d_heap d4)) as (_ & K & _). rewrite Q in K. exact K. }
  assert (F3 : h_grid (d_heap d3) = h_grid (d_heap d2)).
  { pose proof (does_build n (fst p) (snd p) d2) as Q. rewrite E5 in Q. pose proof (still_build_groups n (fst p) (snd p) (d_heap d2)) as K. rewrite Q in K. exact K. }
  assert (Hg4 : In g (a_groups (aob (d_heap d4) a1))) by (unfold aob in *; rewrite F6, F5 in Hg; exact Hg).
  assert (Hg3 : In g gs).
  { unfold set_tier_groups in Q7. destruct gs as [|k gs].
    - injection Q7 as Qu Qh. rewrite <- Qh in Hg4. assert (X : a_groups (aob (d_heap d3) a1) = []) by (unfold aob in *; rewrite F3; rewrite U3; exact Em). rewrite X in Hg4. exact Hg4.
    - assert (Kf : forall l h x h', forM l (fun k => mod_grp k (set_g_within (Some (WGrid a1)))) h = Ok x h' -> h_grid h' = h_grid h).
      { assert (U : forall l, under (fun h h' : heap => h_grid h' = h_grid h) (forM l (fun k => mod_grp k (set_g_within (Some (WGrid a1)))))) by (intros l; apply under_forM; [exact P|]; intros; intros h; reflexivity).
        intros l h x h' Q. specialize (U l h). rewrite Q in U. exact U. }
      unfold bind at 1, mod_grid, modify in Q7. apply Kf in Q7. unfold aob in Hg4. rewrite Q7 in Hg4. unfold upd_grid in Hg4. cbn [h_grid] in Hg4. rewrite list_lookup_alter in Hg4.
      destruct (h_grid (d_heap d3) !! a1); [exact Hg4|destruct Hg4]. }
  specialize (N3 g Hg3). rewrite U1, C1 in N3. exact N3.
Qed.

(** ** Taking a class out *)
Definition gsame (h h' : heap) : Prop := h_grid h' = h_grid h.
#[export] Instance gsame_pre : PreOrder gsame.
Proof. split; [intros h; reflexivity|intros x y z A B; unfold gsame in *; congruence]. Qed.
Lemma gsame_still {A} (m : M A) : under (still (fun _ => False)) m -> under gsame m.
Proof. intros K h. apply K. Qed.
Lemma gsame_hier n : forall up c v, under gsame (set_hier n up c v).
Proof.
  assert (M : forall c f, under gsame (mod_cls c f)) by (intros c f h; reflexivity).
  induction n as [|n IH]; intros up c v; cbn [set_hier]; [under|]. destruct v; [|apply M]. under.
Qed.
Lemma gsame_mod_grp i f : under gsame (mod_grp i f).
Proof. intros h. reflexivity. Qed.
Lemma gsame_mod_tier i f : under gsame (mod_tier i f).
Proof. intros h. reflexivity. Qed.
Lemma gsame_new_tg n ts : under gsame (new_tg n ts).
Proof. apply gsame_still, still_new_tg. Qed.
Lemma gsame_grp_name g : under gsame (grp_name g).
Proof. apply gsame_still, still_grp_name. Qed.
Lemma gsame_calm {A} (m : M A) : calm m -> under gsame m.
Proof. intros C. apply gsame_still, calm_still, C. Qed.
Lemma gsame_item g i : under gsame (group_item g i).
Proof. apply gsame_still, still_group_item. Qed.
Lemma gsame_setter s l : under gsame (subset_setter s l).
Proof. apply gsame_calm, calm_subset_setter. Qed.
Lemma gsame_mod_seq i f : under gsame (mod_seq i f).
Proof. intros h. reflexivity. Qed.
Lemma gsame_sync t : under gsame (sync_tier_classes t).
Proof. unfold sync_tier_classes. pose proof (gsame_mod_tier t). under. Qed.
Lemma gsame_join u d : under gsame (join_classes u d).
Proof. unfold join_classes, set_subset_class, set_superset_class. apply under_bind; [exact _|apply gsame_hier|]. intros. apply gsame_hier. Qed.
Lemma gsame_itier s ec : under gsame (new_itier s ec).
Proof.
  unfold new_itier. apply under_bind; [exact _|intros h; reflexivity|]. intros t. apply under_bind; [exact _| |intros; apply under_ret; exact _]. intros h. apply (still_itier (fun k => k = t) t s ec eq_refl h).
Qed.
Lemma gsame_new_obj c s e l : under gsame (new_obj c s e l).
Proof. apply gsame_calm, calm_new_obj. Qed.
#[local] Hint Resolve gsame_mod_grp gsame_mod_tier gsame_new_tg gsame_grp_name gsame_item gsame_setter gsame_mod_seq gsame_sync gsame_join gsame_itier gsame_new_obj : own.
Lemma gsame_pop n nm g : under gsame (pop_group n nm g).
Proof. unfold pop_group. under. Qed.
Lemma gsame_weave n c sp cp dn lb g : under gsame (interleave_group n c sp cp dn lb g).
Proof. unfold interleave_group. under. Qed.

#[local] Hint Resolve aged_sync aged_join fixed_sync fixed_join : own.
Lemma calm_empty x : calm (subset_setter x [] ;;; mod_seq x (set_s_contains (CList []))).
Proof. apply calm_bind; [apply calm_subset_setter|]. intros _. apply calm_mod_seq. Qed.
Lemma step_pop (G : gid -> Prop) n nm g d gs d' : G g -> pop_group_named n nm g d = DOk gs d' ->
  step G d d' /\ forall k, In k gs -> k = g \/ (List.length (h_grp (d_heap d)) <= k)%nat.
Proof.
  intros Hg E. unfold pop_group_named in E. destruct (dbind_ok _ _ _ _ _ E) as (nms & d1 & E1 & E2). destruct (dgets_ok _ _ _ _ E1) as (_ & ->).
  match type of E2 with context[if ?b then _ else _] => destruct b end; [injection E2 as <- <-; split; [apply step_refl|intros k [<-|[]]; auto]|].
  match type of E2 with context[if ?b then _ else _] => destruct b end.
  { destruct (dbind_ok _ _ _ _ _ E2) as (u & d2 & E3 & E4). injection E4 as <- <-. split; [|intros k []]. exact (steps_plain G _ (aged_grp_name g) (fixed_grp_name G g) _ _ _ E3). }
  destruct (dbind_ok _ _ _ _ _ E2) as (keep & d2 & E3 & E4). destruct (dbind_ok _ _ _ _ _ E4) as (g' & d3 & E5 & E6). destruct (dbind_ok _ _ _ _ _ E6) as (u & d4 & E7 & E8). injection E8 as <- <-.
  assert (S1 : step G d d2).
  { refine (steps_plain G (pop_tier nm g) _ _ _ _ _ E3); unfold pop_tier; under. }
  assert (Kp : forall t, In t keep -> In t (g_tiers (gob (d_heap d) g))).
  { destruct (plainly_ok _ _ _ _ E3) as (Q & _). unfold pop_tier, get_grp in Q. rewrite !bind_gets in Q. destruct (List.filter (fun t => String.eqb _ _) _) as [|p [|]]; [discriminate| |discriminate].
    rewrite !bind_gets in Q. match type of Q with context[if ?b then _ else _] => destruct b end; [discriminate|]. rewrite !bind_gets in Q. destruct (superset_class _ _); [|discriminate]. destruct (subset_class _ _); [|discriminate].
    unfold bind at 1 in Q. destruct (join_classes _ _ _); [|discriminate]. unfold bind in Q. match type of Q with context[match ?m with Ok _ _ => _ | Raise _ _ => _ end] => destruct m end; [|discriminate]. injection Q as <- _.
    intros t Ht. apply filter_In in Ht. apply Ht. }
  assert (L : WT G d -> forall t, In t keep -> tlive (d_heap d2) t).
  { intros W t Ht. destruct (W g Hg) as (L & _). specialize (L t (Kp t Ht)). destruct S1 as (_ & (A & _) & _). unfold tlive. lia. }
  assert (S2 : WT G d -> WT G d3) by (intros W; destruct (step_new_tg G n keep d2 g' d3 (fun _ => L W) E5) as (X & _); apply X, S1, W).
  destruct (step_new_tg0 _ _ _ _ _ E5) as (S2' & Eg & _).
  assert (S3 : step G d3 d4).
  { refine (steps_plain G _ _ _ _ _ _ E7).
    - pose proof (fun x => aged_calm _ (calm_empty x)) as K. pose proof (fun g i => aged_still _ (still_group_item _ g i)) as K2. under.
    - pose proof (fun x => fixed_calm G _ (calm_empty x)) as K. pose proof (fixed_item G) as K2. pose proof (fixed_grp_name G) as K3. under. apply fixed_mod_grp. right. reflexivity. }
  split.
  - split; [intros W; apply S3, S2, W|]. destruct S1 as (_ & A1 & L1), S2' as (_ & A2 & L2), S3 as (_ & A3 & L3). split; [etransitivity; [exact A1|]; etransitivity; eassumption|lia].
  - intros k [<-|[]]. right. destruct S1 as (_ & _ & L1). lia.
Qed.
Lemma dmapM_cons {A B} (f : A -> D B) x l d r d' : dmapM f (x :: l) d = DOk r d' -> exists y ys d1, f x d = DOk y d1 /\ dmapM f l d1 = DOk ys d' /\ r = y :: ys.
Proof.
  cbn [dmapM]. intros E. destruct (dbind_ok _ _ _ _ _ E) as (y & d1 & E1 & E2). destruct (dbind_ok _ _ _ _ _ E2) as (ys & d2 & E3 & E4). injection E4 as <- <-. exists y, ys, d1. auto.
Qed.
Lemma steps_pops (G : gid -> Prop) n nm gs : forall d gss d', (forall g, In g gs -> G g) -> dmapM (pop_group_named n nm) gs d = DOk gss d' ->
  step G d d' /\ forall k, In k (concat gss) -> In k gs \/ (List.length (h_grp (d_heap d)) <= k)%nat.
Proof.
  induction gs as [|g gs IH]; intros d gss d' I E; [injection E as <- <-; split; [apply step_refl|intros k []]|].
  destruct (dmapM_cons _ _ _ _ _ _ E) as (y & ys & d1 & E1 & E2 & ->). destruct (step_pop G n nm g d y d1 (I g (or_introl eq_refl)) E1) as (S1 & N1).
  destruct (IH _ _ _ (fun k Hk => I k (or_intror Hk)) E2) as (S2 & N2). split; [exact (step_trans _ _ _ _ S1 S2)|].
  intros k Hk. cbn [concat] in Hk. apply in_app_or in Hk. destruct Hk as [Hk|Hk]; [destruct (N1 k Hk) as [-> |X]; [left; left; reflexivity|right; exact X]|].
  destruct (N2 k Hk) as [X|X]; [left; right; exact X|]. right. destruct S1 as (_ & _ & L). lia.
Qed.
Lemma set_groups_of a gs h x h' : set_tier_groups a gs h = Ok x h' -> forall g, In g (a_groups (aob h' a)) -> In g gs \/ In g (a_groups (aob h a)).
Proof.
  intros Q g Hg. unfold set_tier_groups in Q. destruct gs as [|k gs]; [injection Q as _ Qh; rewrite <- Qh in Hg; auto|].
  assert (U : under gsame (forM (k :: gs) (fun k => mod_grp k (set_g_within (Some (WGrid a)))))) by under.
  unfold bind at 1, mod_grid, modify in Q. match type of Q with _ ?h1 = _ => specialize (U h1) end. rewrite Q in U. unfold gsame in U. cbn [heap_of] in U. unfold aob in Hg. rewrite U in Hg. unfold upd_grid in Hg. cbn [h_grid] in Hg.
  rewrite list_lookup_alter in Hg. unfold aob. destruct (h_grid h !! a); [left; exact Hg|destruct Hg].
Qed.
Lemma dead_tagged d g : (List.length (h_grp (d_heap d)) <= g)%nat -> well_tagged d g.
Proof.
  intros L. assert (Eg : g_tiers (gob (d_heap d) g) = []) by (unfold gob; rewrite lookup_ge_None_2 by exact L; reflexivity).
  split; [rewrite Eg; intros t []|]. intros _ t Ht. rewrite Eg in Ht. destruct Ht.
Qed.
Lemma c73_pop : forall n a nm d d', (forall g, In g (a_groups (aob (d_heap d) a)) -> well_tagged d g) -> pop_class_tagged n a nm d = DOk tt d' ->
  pop_class n a nm (d_heap d) = Ok tt (d_heap d') /\
  (forall g, In g (a_groups (aob (d_heap d') a)) -> well_tagged d' g) /\ forall g, well_tagged d g -> well_tagged d' g.
Proof.
  intros n a nm d d' W E. pose proof (does_pop n a nm d) as Q. rewrite E in Q. split; [exact Q|].
  unfold pop_class_tagged in E. destruct (dbind_ok _ _ _ _ _ E) as (gs & d1 & E1 & E2). destruct (dgets_ok _ _ _ _ E1) as (-> & ->).
  destruct (dbind_ok _ _ _ _ _ E2) as (gss & d2 & E3 & E4). destruct (plainly_ok _ _ _ _ E4) as (Q4 & _).
  set (G := well_tagged d). destruct (steps_pops G _ _ _ _ _ _ W E3) as (S1 & N1).
  assert (Mg : under (fixed G) (o <- get_grid a ;; forM (a_groups o) (fun g => mod_grp g (set_g_within (Some (WGrid a)))))).
  { assert (K : forall k, under (fixed G) (mod_grp k (set_g_within (Some (WGrid a))))) by (intros k; apply fixed_mod_grp; right; reflexivity). under. }
  assert (S2 : step G d2 d').
  { refine (steps_plain G _ _ _ _ _ _ E4); (apply under_bind; [exact _| |intros _]).
    - apply aged_set_groups.
    - under.
    - apply fixed_set_groups.
    - exact Mg. }
  assert (Wd : WT G d') by (apply S2, S1; intros g Hg; exact Hg).
  split; [|exact Wd]. intros g Hg. apply Wd. unfold bind at 1 in Q4. destruct (set_tier_groups a (concat gss) (d_heap d2)) as [u h3|] eqn:Es; [|discriminate].
  assert (U : under gsame (o <- get_grid a ;; forM (a_groups o) (fun g => mod_grp g (set_g_within (Some (WGrid a)))))) by under.
  specialize (U h3). rewrite Q4 in U. unfold gsame in U. cbn [heap_of] in U. assert (Hg3 : In g (a_groups (aob h3 a))) by (unfold aob in *; rewrite <- U; exact Hg).
  destruct (set_groups_of _ _ _ _ _ Es g Hg3) as [X|X]; [destruct (N1 g X) as [Y|Y]; [apply W; exact Y|apply dead_tagged; exact Y]|].
  apply W. assert (Sg : h_grid (d_heap d2) = h_grid (d_heap d)); [|unfold aob in *; rewrite <- Sg; exact X].
  pose proof (does_mapM (pop_group_named n nm) (pop_group n nm) (a_groups (aob (d_heap d) a)) (does_pop_group n nm) d) as Q3. rewrite E3 in Q3.
  assert (Um : under gsame (mapM (pop_group n nm) (a_groups (aob (d_heap d) a)))) by (apply under_mapM; [exact _|]; intros; apply gsame_pop). specialize (Um (d_heap d)). rewrite Q3 in Um. exact Um.
Qed.

(** ** Putting a class in *)
Lemma live_insert {A} (x : A) l i y : In y (insert_at i x l) -> y = x \/ In y l.
Proof.
  unfold insert_at. rewrite in_app_iff. intros [K|[<-|K]]; [right| |right]; auto; rewrite <- (firstn_skipn i l); apply in_or_app; auto.
Qed.
Lemma new_itier_live s ec h t h' : new_itier s ec h = Ok t h' -> tlive h' t.
Proof.
  intros Q. unfold new_itier, bind, alloc_tier in Q. match type of Q with context[itier_init ?t0 s ec ?hh] => pose proof (still_itier (fun k => k = t0) t0 s ec eq_refl hh) as (_ & _ & L & _); destruct (itier_init t0 s ec hh) as [u h5|] end; [|discriminate].
  injection Q as <- <-. cbn [heap_of h_tier] in L. rewrite app_length in L. simpl in L. unfold tlive. lia.
Qed.
Lemma aged_new_obj c s e l : under aged (new_obj c s e l).
Proof. apply aged_calm, calm_new_obj. Qed.
Lemma aged_mod_seq i f : under aged (mod_seq i f).
Proof. apply aged_calm, calm_mod_seq. Qed.
#[local] Hint Resolve aged_new_obj aged_mod_seq fixed_new_obj fixed_mod_seq fixed_itier : own.
Lemma aged_weave c cp dn lb g : under aged (weave_tier c cp dn lb g).
Proof. unfold weave_tier. under. Qed.
Lemma fixed_weave (G : gid -> Prop) c cp dn lb g : ~ G g -> under (fixed G) (weave_tier c cp dn lb g).
Proof.
  intros N. assert (K : forall f, under (fixed G) (mod_grp g f)) by (intros f; apply fixed_mod_grp; left; exact N). unfold weave_tier. under.
Qed.
Lemma weave_live c cp dn lb g h ts h' : weave_tier c cp dn lb g h = Ok ts h' -> (forall t, In t (g_tiers (gob h g)) -> tlive h t) -> forall t, In t ts -> tlive h' t.
Proof.
  intros E L. pose proof (aged_weave c cp dn lb g h) as Aw. rewrite E in Aw. unfold weave_tier, get_grp in E. rewrite !bind_gets in E.
  destruct (List.find _ _) as [ct|]; [|discriminate]. rewrite bind_gets in E.
  unfold bind at 1 in E. match type of E with context[match ?m h with _ => _ end] => assert (U1 : under (fixed (fun _ => True)) m) by under; specialize (U1 h); destruct (m h) as [xs h1|] eqn:E1 end; [|discriminate].
  unfold bind at 1 in E. pose proof (fixed_itier (fun _ => True) (FromList (map EObj xs)) None h1) as U2. destruct (new_itier (FromList (map EObj xs)) None h1) as [nt h2|] eqn:E2; [|discriminate].
  pose proof (new_itier_live _ _ _ _ _ E2) as Ln.
  unfold bind at 1 in E. match type of E with context[match ?m h2 with _ => _ end] => assert (U3 : under (fixed (fun _ => True)) m) by under; assert (A3 : under aged m) by under; specialize (U3 h2); specialize (A3 h2); destruct (m h2) as [u h3|] eqn:E3 end; [|discriminate].
  cbn [heap_of] in U1, U2, U3, A3, Aw. unfold bind at 1, mod_grp, modify in E. rewrite bind_gets in E. unfold bind at 1 in E.
  match type of E with context[match forM ?l sync_tier_classes ?h4 with _ => _ end] => assert (A5 : under aged (forM l sync_tier_classes)) by under; specialize (A5 h4); destruct (forM l sync_tier_classes h4) as [u5 h5|] eqn:E5 end; [|discriminate].
  injection E as <- <-. cbn [heap_of] in A5. intros t Ht.
  assert (T : t = nt \/ In t (g_tiers (gob h g))).
  { destruct (lt_dec g (List.length (h_grp h3))) as [Lg|Lg].
    - rewrite gob_upd_eq in Ht by exact Lg. cbn [g_tiers set_g_tiers] in Ht. destruct (live_insert _ _ _ _ Ht) as [K|K]; [left; exact K|right].
      destruct U1 as (_ & U1), U2 as (_ & U2), U3 as (_ & U3). rewrite (U3 g I), (U2 g I), (U1 g I) in K. exact K.
    - unfold gob, upd_grp in Ht. cbn [h_grp] in Ht. rewrite lookup_ge_None_2 in Ht by (rewrite alter_length; lia). destruct Ht. }
  destruct A3 as (A3 & _), A5 as (A5 & _), Aw as (Aw & _). change (h_tier (upd_grp g _ h3)) with (h_tier h3) in A5. unfold tlive in *. destruct T as [-> |T]; [|apply L in T]; lia.
Qed.
Lemma step_weave (G : gid -> Prop) n c sp cp dn lb g d g' d' : ~ G g -> (g < List.length (h_grp (d_heap d)))%nat -> well_tagged d g -> interleave_group_named n c sp cp dn lb g d = DOk g' d' ->
  (WT G d -> WT (fun k => G k \/ k = g') d') /\ aged (d_heap d) (d_heap d') /\ (List.length (h_grp (d_heap d)) <= List.length (h_grp (d_heap d')))%nat /\
  (g' = g \/ (List.length (h_grp (d_heap d)) <= g')%nat) /\ ((forall k, k <> g -> well_tagged d k -> well_tagged d' k)).
Proof.
  intros Ng Lg Wg E. unfold interleave_group_named in E. destruct (dbind_ok _ _ _ _ _ E) as (ecs & d1 & E1 & E2). destruct (dgets_ok _ _ _ _ E1) as (_ & ->).
  match type of E2 with context[if ?b then _ else _] => destruct b end.
  { injection E2 as <- <-. split; [intros W k [Hk| ->]; [apply W; exact Hk|exact Wg]|]. split; [reflexivity|]. split; [lia|]. split; [auto|]. auto. }
  destruct (dbind_ok _ _ _ _ _ E2) as (ts & d2 & E3 & E4). destruct (dbind_ok _ _ _ _ _ E4) as (k' & d3 & E5 & E6). destruct (dbind_ok _ _ _ _ _ E6) as (u & d4 & E7 & E8). injection E8 as <- <-.
  destruct (plainly_ok _ _ _ _ E3) as (Q3 & _). pose proof (weave_live _ _ _ _ _ _ _ _ Q3 (proj1 Wg)) as Lv. destruct (step_new_tg0 _ _ _ _ _ E5) as (S5 & Eg & _).
  assert (All : forall K : gid -> Prop, ~ K g -> step K d d4).
  { intros K Nk. pose proof (steps_plain K _ (aged_weave c cp dn lb g) (fixed_weave K c cp dn lb g Nk) _ _ _ E3) as S3.
    assert (S6 : step K d2 d3) by (apply step_weak; [exact S5|]; apply (step_new_tg K n ts d2 k' d3 (fun _ => Lv) E5)).
    assert (S7 : step K d3 d4).
    { refine (steps_plain K _ _ _ _ _ _ E7); [under|]. pose proof (fixed_grp_name K) as K3. under. apply fixed_mod_grp. right. reflexivity. }
    exact (step_trans _ _ _ _ S3 (step_trans _ _ _ _ S6 S7)). }
  destruct (steps_plain (fun _ => False) _ (aged_weave c cp dn lb g) (fixed_weave (fun _ => False) c cp dn lb g (fun F => F)) _ _ _ E3) as (_ & _ & L3).
  split; [|split; [apply (All (fun _ => False)); auto|split; [apply (All (fun _ => False)); auto|split; [right; lia|]]]].
  - intros W. apply (All (fun k => G k \/ k = k')); [intros [K|K]; [auto|lia]|]. intros k [Hk| ->]; [apply W; exact Hk|]. apply dead_tagged. lia.
  - intros k Nk Wk. apply (All (fun x => x = k)); [intros X; apply Nk; auto| |reflexivity]. intros x ->. exact Wk.
Qed.
Lemma steps_weave n c sp cp dn lb gs : forall d gs' d' (G : gid -> Prop), List.NoDup gs -> (forall g, In g gs -> ~ G g) -> (forall g, In g gs -> (g < List.length (h_grp (d_heap d)))%nat) ->
  (forall g, In g gs -> well_tagged d g) -> WT G d -> dmapM (interleave_group_named n c sp cp dn lb) gs d = DOk gs' d' -> WT (fun k => G k \/ In k gs') d'.
Proof.
  induction gs as [|g gs IH]; intros d gs' d' G Nd Ng Lg Wg W E; [injection E as <- <-; intros k [Hk|[]]; apply W; exact Hk|].
  destruct (dmapM_cons _ _ _ _ _ _ E) as (y & ys & d1 & E1 & E2 & ->). inversion Nd as [|? ? Nin Nd']; subst.
  destruct (step_weave G _ _ _ _ _ _ _ _ _ _ (Ng g (or_introl eq_refl)) (Lg g (or_introl eq_refl)) (Wg g (or_introl eq_refl)) E1) as (W1 & _ & L1 & Y & O).
  assert (X : WT (fun k => (G k \/ k = y) \/ In k ys) d').
  { apply (IH d1); [exact Nd'| | | |apply W1; exact W|exact E2].
    - intros k Hk [K|K]; [exact (Ng k (or_intror Hk) K)|]. subst k. destruct Y as [-> |Y]; [exact (Nin Hk)|]. specialize (Lg y (or_intror Hk)). lia.
    - intros k Hk. specialize (Lg k (or_intror Hk)). lia.
    - intros k Hk. apply O; [intros ->; exact (Nin Hk)|]. apply Wg. right. exact Hk. }
  intros k [Hk|[<-|Hk]]; apply X; auto.
Qed.
Lemma clso_tagged d d' g : clso (d_heap d) (d_heap d') -> d_attr d' = d_attr d -> (forall t, In t (g_tiers (gob (d_heap d) g)) -> clive (d_heap d) (t_ec (tob (d_heap d) t))) -> well_tagged d g -> well_tagged d' g.
Proof.
  intros (A1 & A2 & _ & _ & A5) B C (L & R). assert (F : g_tiers (gob (d_heap d') g) = g_tiers (gob (d_heap d) g)) by (unfold gob; rewrite A1; reflexivity).
  assert (T : forall t, tob (d_heap d') t = tob (d_heap d) t) by (intros t; unfold tob; rewrite A2; reflexivity).
  split; [intros t Ht; rewrite A2; rewrite F in Ht; apply L; exact Ht|]. intros N t Ht. rewrite F in Ht. unfold by_name. rewrite B, T, A5 by (apply C; exact Ht). apply R; [|exact Ht].
  unfold classes_differ in *. rewrite F in N. erewrite map_ext_in; [exact N|]. intros k Hk. cbn beta. rewrite T, A5 by (apply C; exact Hk). reflexivity.
Qed.
Lemma c73_weave : forall n a nm above nm2 from_below labels d d',
  List.NoDup (a_groups (aob (d_heap d) a)) -> (forall g, In g (a_groups (aob (d_heap d) a)) -> glive (d_heap d) g /\ well_tagged d g) ->
  (forall g t, In t (g_tiers (gob (d_heap d) g)) -> clive (d_heap d) (t_ec (tob (d_heap d) t))) ->
  interleave_class_tagged n a nm above nm2 from_below labels d = DOk tt d' ->
  interleave_class n a nm above nm2 from_below labels (d_heap d) = Ok tt (d_heap d') /\
  (forall g, In g (a_groups (aob (d_heap d') a)) -> well_tagged d' g) /\
  forall g, ~ In g (a_groups (aob (d_heap d) a)) -> well_tagged d g -> well_tagged d' g.
Proof.
  intros n a nm above nm2 fb lb d d' Nd W C E. pose proof (does_interleave n a nm above nm2 fb lb d) as Q. rewrite E in Q. split; [exact Q|].
  unfold interleave_class_tagged in E. destruct (dbind_ok _ _ _ _ _ E) as ([[[nc up] dn] c] & d1 & E1 & E2). destruct (plainly_ok _ _ _ _ E1) as (Q1 & B1).
  pose proof (clso_weave a nm above nm2 (d_heap d)) as K. rewrite Q1 in K. cbn [heap_of] in K. pose proof K as (K1 & K2 & K3 & _).
  destruct (dbind_ok _ _ _ _ _ E2) as (gs & d2 & E3 & E4). destruct (dgets_ok _ _ _ _ E3) as (-> & ->). destruct (dbind_ok _ _ _ _ _ E4) as (gs' & d3 & E5 & E6). destruct (plainly_ok _ _ _ _ E6) as (Q6 & _).
  rewrite K3 in E5. set (gs := a_groups (aob (d_heap d) a)) in *. set (G := fun g => ~ In g gs /\ well_tagged d g).
  assert (W1 : forall g, well_tagged d g -> well_tagged d1 g) by (intros g Hg; apply (clso_tagged d d1 g K B1); [intros t; apply C|exact Hg]).
  assert (W3 : WT (fun k => G k \/ In k gs') d3).
  { eapply (steps_weave _ _ _ _ _ _ gs d1); [exact Nd| | | | |exact E5].
    - intros g Hg (N & _). exact (N Hg).
    - intros g Hg. rewrite K1. apply W, Hg.
    - intros g Hg. apply W1, W, Hg.
    - intros g (_ & Hg). apply W1, Hg. }
  pose proof (steps_plain (fun k => G k \/ In k gs') _ (aged_set_groups a gs') (fixed_set_groups _ a gs') _ _ _ E6) as (S6 & _). specialize (S6 W3).
  split; [|intros g N Hg; apply S6; left; split; assumption]. intros g Hg. apply S6.
  destruct (set_groups_of _ _ _ _ _ Q6 g Hg) as [X|X]; [right; exact X|].
  assert (Sg : h_grid (d_heap d3) = h_grid (d_heap d1)).
  { pose proof (does_mapM _ _ gs (does_interleave_group n nc (Some c) (if fb then dn else up) dn lb) d1) as Q3. rewrite E5 in Q3.
    assert (Um : under gsame (mapM (interleave_group n nc (Some c) (if fb then dn else up) dn lb) gs)) by (apply under_mapM; [exact _|]; intros; apply gsame_weave). specialize (Um (d_heap d1)). rewrite Q3 in Um. exact Um. }
  assert (X1 : In g gs) by (unfold gs; rewrite <- K3; unfold aob in *; rewrite <- Sg; exact X).
  assert (En : gs' <> []) by (intros ->; unfold set_tier_groups in Q6; assert (Z : gs = []); [|rewrite Z in X1; exact X1]; destruct gs as [|k l]; [reflexivity|]; destruct (dmapM_cons _ _ _ _ _ _ E5) as (y & ys & dd & _ & _ & F); discriminate F).
  right. unfold set_tier_groups in Q6. destruct gs' as [|k l]; [congruence|].
  assert (U : under gsame (forM (k :: l) (fun k => mod_grp k (set_g_within (Some (WGrid a)))))) by under.
  unfold bind at 1, mod_grid, modify in Q6. match type of Q6 with _ ?h1 = _ => specialize (U h1) end. rewrite Q6 in U. unfold gsame in U. cbn [heap_of] in U. unfold aob in Hg. rewrite U in Hg. unfold upd_grid in Hg. cbn [h_grid] in Hg.
  rewrite list_lookup_alter in Hg. destruct (h_grid (d_heap d3) !! a); [exact Hg|destruct Hg].
Qed.
End WithEnv.
