(** * TagFinal: proofs about tiers as attributes of groups (C73). *)
From Verif Require Import TagSpec NameFinal OwnFinal CalmProofs.
From Coq Require Import RelationClasses.
Open Scope Z_scope.

Section WithEnv.
Context `{Env}.

Lemma bind_eq {A B} (m : M A) (k k' : A -> M B) h : (forall a h1, k a h1 = k' a h1) -> bind m k h = bind m k' h.
Proof. intros E. unfold bind. destruct (m h); auto. Qed.
Lemma bind_if {A B} (b : bool) (m m' : M A) (k : A -> M B) h : bind (if b then m else m') k h = if b then bind m k h else bind m' k h.
Proof. destruct b; reflexivity. Qed.
Ltac flat := repeat (repeat first [rewrite bind_assoc | rewrite bind_ret | rewrite bind_gets]; first [reflexivity | apply bind_eq; intros ? ? | match goal with |- (match ?x with _ => _ end) _ = _ => destruct x | |- bind (match ?x with _ => _ end) _ _ = _ => destruct x | |- _ = bind (match ?x with _ => _ end) _ _ => destruct x | |- _ = (match ?x with _ => _ end) _ => destruct x end]).
(** ** Apart from names everything is as in the model without them *)
Lemma does_plainly {A} (m : M A) : does (plainly m) m.
Proof. intros d. unfold plainly. destruct (m (d_heap d)); reflexivity. Qed.
Lemma does_ret {A} (a : A) : does (dret a) (ret a).
Proof. intros d. reflexivity. Qed.
Lemma does_gets {A} (f : heap -> A) : does (dgets f) (gets f).
Proof. apply does_plainly. Qed.
Lemma does_raise {A} e : does (@draise A e) (raise e).
Proof. apply does_plainly. Qed.
Lemma does_bind {A B} (m : D A) (m0 : M A) (k : A -> D B) (k0 : A -> M B) : does m m0 -> (forall a, does (k a) (k0 a)) -> does (dbind m k) (bind m0 k0).
Proof.
  intros P Q d. unfold dbind. specialize (P d). destruct (m d) as [a d1|e d1].
  - specialize (Q a d1). destruct (k a d1); rewrite (bind_ok _ _ _ _ _ P); exact Q.
  - apply bind_raise. exact P.
Qed.
Lemma does_ext {A} (m : D A) (m0 m1 : M A) : (forall h, m1 h = m0 h) -> does m m0 -> does m m1.
Proof. intros E P d. specialize (P d). destruct (m d); rewrite E; exact P. Qed.
Lemma does_forM {A} (f : A -> D unit) f0 l : (forall a, does (f a) (f0 a)) -> does (dforM l f) (forM l f0).
Proof. intros P. induction l as [|x l IH]; [apply does_ret|]. cbn [dforM forM]. apply does_bind; [apply P|intros _; exact IH]. Qed.
Lemma does_mapM {A B} (f : A -> D B) f0 l : (forall a, does (f a) (f0 a)) -> does (dmapM f l) (mapM f0 l).
Proof.
  intros P. induction l as [|x l IH]; [apply does_ret|]. cbn [dmapM mapM]. apply does_bind; [apply P|]. intros y. apply does_bind; [exact IH|]. intros ys. apply does_ret.
Qed.
Lemma set_attrs_ok g : forall l d, exists d', set_attrs g (map (fun p => (Some (fst p), snd p)) l) d = DOk tt d' /\ d_heap d' = d_heap d.
Proof.
  induction l as [|[s t] l IH]; intros d; cbn [map set_attrs fst snd]; [eexists; split; reflexivity|].
  unfold dbind. cbn [set_attr]. destruct (IH (Desk (d_heap d) (fun k => if (k =? g)%nat then (s, t) :: d_attr d g else d_attr d k))) as (d' & E & Q). exists d'. auto.
Qed.
Lemma combine_somes (nms : list string) : forall (ts : list nat), combine (map Some nms) ts = map (fun p => (Some (fst p), snd p)) (combine nms ts).
Proof. induction nms as [|n nms IH]; intros [|t ts]; [reflexivity..|]. cbn. rewrite IH. reflexivity. Qed.
Lemma name_tiers_spec g d : exists d', name_tiers g d = DOk tt d' /\ d_heap d' = d_heap d /\ tiers_named d d' g.
Proof.
  unfold name_tiers, dbind, dgets, plainly, gets. cbn [d_heap d_attr]. set (h := d_heap d).
  assert (Es : Desk h (d_attr d) = d) by (destruct d; reflexivity). destruct (repeated (grp_class_names h g)) eqn:R.
  - exists d. unfold dret. rewrite Es. split; [reflexivity|]. split; [reflexivity|]. split; [|reflexivity]. intros Q. apply repeated_spec in Q. fold h in Q. unfold grp_class_names in R. congruence.
  - rewrite combine_somes. rewrite Es. destruct (set_attrs_ok g (combine (grp_class_names h g) (g_tiers (gob h g))) d) as (d' & E & Q). exists d'. split; [exact E|]. split; [exact Q|].
    rewrite <- combine_somes in E. apply repeated_spec in R.
    assert (Em : map Some (grp_class_names h g) = map (fun t => Some (class_name h (t_ec (tob h t)))) (g_tiers (gob h g))) by (unfold grp_class_names; rewrite map_map; reflexivity).
    rewrite Em in E. destruct (set_attrs_spec g _ _ _ ltac:(rewrite fst_combine_map, <- Em; apply NoDup_fmap_2; [exact _|exact R]) E) as (_ & Hs & Hk & Ho).
    split; [|intros X; exfalso; apply X; unfold classes_differ; rewrite Q; exact R]. intros _. split; [|split].
    + intros t Ht. rewrite Q in Ht |- *. fold h in Ht |- *. destruct (Hs (Some (class_name h (t_ec (tob h t)))) t) as (s & Q1 & Q2); [apply In_combine_map; auto|]. injection Q1 as <-. exact Q2.
    + exact Hk.
    + intros s Ns. apply Ho. intros t I. apply In_combine_map in I. destruct I as [I1 I2]. rewrite Q in Ns. fold h in Ns. apply (Ns t I1). congruence.
Qed.
Lemma does_name g : does (name_tiers g) (ret tt).
Proof. intros d. destruct (name_tiers_spec g d) as (d' & -> & -> & _). reflexivity. Qed.
Lemma does_skip {A B} (g : gid) (m : D A) (m0 : M A) (k : A -> D B) k0 : does m m0 -> (forall a, does (k a) (k0 a)) -> does (dbind m (fun a => dbind (name_tiers g) (fun _ => k a))) (bind m0 k0).
Proof. intros P Q. apply does_bind; [exact P|]. intros a. apply (does_ext _ (bind (ret tt) (fun _ => k0 a))); [reflexivity|]. apply does_bind; [apply does_name|]. intros u. apply Q. Qed.

Lemma does_tg_init n g ts nm delay : does (tg_init_named n g ts nm delay) (tg_init n g ts nm delay).
Proof.
  unfold tg_init_named. eapply does_ext; [|apply does_skip; [apply does_plainly|intros r; apply does_plainly]].
  intros h. unfold tg_init, tg_begin, tg_end. flat.
Qed.
Lemma does_pg_init g ts : does (pg_init_named g ts) (pg_init g ts).
Proof.
  unfold pg_init_named. eapply does_ext; [|apply does_skip; [apply does_plainly|intros r; apply does_plainly]]. intros h. unfold pg_init. flat.
Qed.
Lemma does_new_tg n ts : does (new_tg_named n ts) (new_tg n ts).
Proof. unfold new_tg_named, new_tg, new_tg_with. apply does_bind; [apply does_plainly|]. intros g. apply does_bind; [apply does_tg_init|]. intros u. apply does_ret. Qed.
Lemma does_new_pg ts : does (new_pg_named ts) (new_pg ts).
Proof. unfold new_pg_named, new_pg. apply does_bind; [apply does_plainly|]. intros g. apply does_bind; [apply does_pg_init|]. intros u. apply does_ret. Qed.
Ltac does := repeat first
  [ apply does_tg_init | apply does_pg_init | apply does_new_tg | apply does_new_pg | apply does_plainly | apply does_gets | apply does_raise | apply does_ret
  | assumption | match goal with |- does (dbind _ _) _ => apply does_bind; [|intros ?] end | apply does_forM; intros ? | apply does_mapM; intros ?
  | match goal with |- does (match ?x with _ => _ end) _ => destruct x end ].
Lemma does_re_relate n g : does (re_relate_named n g) (re_relate n g).
Proof. unfold re_relate_named, re_relate, get_grp. does. Qed.
Lemma does_tier_append n t x : does (tier_append_named n t x) (tier_append n t x).
Proof. unfold tier_append_named, tier_append. does. apply does_re_relate. Qed.
Lemma does_tier_cleanup n : forall t, does (tier_cleanup_named n t) (tier_cleanup n t).
Proof. induction n as [|n IH]; intros t; cbn [tier_cleanup_named tier_cleanup]; unfold get_tier; does; [apply does_re_relate|apply IH]. Qed.
Lemma does_orphans k n g : forall i b, does (orphan_pass_named k n g i b) (orphan_pass k n g i b).
Proof.
  induction k as [|k IH]; intros i b; cbn [orphan_pass_named orphan_pass]; does.
  all: first [apply IH | apply does_re_relate].
Qed.
Lemma does_cleanups k n g : forall i, does (cleanup_tiers_named k n g i) (cleanup_tiers k n g i).
Proof. induction k as [|k IH]; intros i; cbn [cleanup_tiers_named cleanup_tiers]; does; [apply does_tier_cleanup|apply IH]. Qed.
Lemma does_grp_cleanup n g : does (grp_cleanup_named n g) (grp_cleanup n g).
Proof. unfold grp_cleanup_named, grp_cleanup. apply does_bind; [apply does_gets|]. intros k. apply does_bind; [apply does_orphans|]. intros b. destruct (negb b); [apply does_ret|]. apply does_bind; [apply does_gets|]. intros k2. apply does_bind; [apply does_cleanups|]. intros u. apply does_re_relate. Qed.
Lemma does_grid_cleanup n a : does (grid_cleanup_named n a) (grid_cleanup n a).
Proof. unfold grid_cleanup_named, grid_cleanup, get_grid, get_grp. apply does_bind; [apply does_gets|]. intros ao. apply does_bind; [|intros u; apply does_plainly]. does. apply does_grp_cleanup. Qed.
Lemma does_grp_append n g t : does (grp_append_named n g t) (grp_append n g t).
Proof.
  unfold grp_append_named. apply (does_ext _ (bind (add_tier g t) (fun r => if fst r : bool then pg_init g (snd r) else tg_init n g (snd r) None false))).
  - intros h. unfold grp_append, add_tier. flat.
  - does.
Qed.
Lemma does_grid_append n a g : does (grid_append_tagged n a g) (grid_append n a g).
Proof.
  unfold grid_append_tagged. apply (does_ext _ (bind (recast_group a g) (fun _ => bind (re_relate n g) (fun _ => list_group a g)))).
  - intros h. unfold grid_append, recast_group, grp_reinit, list_group. flat.
  - does. apply does_re_relate.
Qed.
Lemma does_build n tgs : forall css, does (build_groups_named n tgs css) (build_groups n tgs css).
Proof. induction tgs as [|ts tgs IH]; intros [|cs css]; cbn [build_groups_named build_groups]; does; apply IH. Qed.
Lemma does_read n tg ecs : does (read_named n tg ecs) (new_grid_textgrid n tg ecs).
Proof.
  unfold read_named, new_grid_textgrid. apply does_bind; [apply does_plainly|]. intros a. destruct tg as [|r tg]; [apply does_ret|].
  eapply does_ext; [|apply does_bind; [apply does_plainly|intros p; apply does_bind; [apply does_build|intros gs; apply does_bind; [apply does_plainly|intros u; apply does_bind; [apply does_grid_cleanup|intros v; apply does_bind; [apply does_plainly|intros w; apply does_ret]]]]]].
  intros h. unfold relate_textgrid. flat.
Qed.
Lemma does_interleave_group n c sp cp dn lb g : does (interleave_group_named n c sp cp dn lb g) (interleave_group n c sp cp dn lb g).
Proof.
  unfold interleave_group_named. eapply does_ext; [|apply does_bind; [apply does_gets|intros ecs]].
  2: { match goal with |- does (if ?b then _ else _) _ => instantiate (1 := fun ecs => if negb (existsb (fun c => bool_decide (Some c = sp)) ecs) then ret g else bind (weave_tier c cp dn lb g) (fun ts => bind (new_tg n ts) (fun g' => bind (bind (grp_name g) (fun nm => mod_grp g' (set_g_name nm))) (fun _ => ret g')))) end.
       cbn beta. does. }
  intros h. unfold interleave_group, weave_tier, get_grp. rewrite !bind_gets. match goal with |- (if ?b then _ else _) _ = _ => destruct b end; flat.
Qed.
Lemma does_interleave n a nm ab nm2 fb lb : does (interleave_class_tagged n a nm ab nm2 fb lb) (interleave_class n a nm ab nm2 fb lb).
Proof.
  unfold interleave_class_tagged.
  apply (does_ext _ (bind (weave_classes a nm ab nm2) (fun p => match p with (c, up, dn, sp) => bind (gets (fun h => a_groups (aob h a))) (fun gs => bind (mapM (interleave_group n c (Some sp) (if fb then dn else up) dn lb) gs) (fun gs' => set_tier_groups a gs')) end))).
  - intros h. unfold interleave_class, weave_classes. destruct (String.eqb nm "" || String.eqb nm2 ""); [reflexivity|]. flat.
  - apply does_bind; [apply does_plainly|]. intros [[[c up] dn] sp]. does. apply does_interleave_group.
Qed.
Lemma does_pop_group n nm g : does (pop_group_named n nm g) (pop_group n nm g).
Proof.
  unfold pop_group_named. eapply does_ext; [|apply does_bind; [apply does_gets|intros names]].
  2: { instantiate (1 := fun names => if negb (existsb (String.eqb nm) names) then ret [g] else if (List.length names =? 1)%nat then bind (grp_name g) (fun _ => ret []) else
         bind (pop_tier nm g) (fun keep => bind (new_tg n keep) (fun g' => bind (bind (group_item g' (-1)) (fun lastt => bind (gets (fun h => t_seq (tob h lastt))) (fun l => bind (forM l (fun x => bind (subset_setter x []) (fun _ => mod_seq x (set_s_contains (CList []))))) (fun _ => bind (grp_name g) (fun nm' => mod_grp g' (set_g_name nm')))))) (fun _ => ret [g'])))).
       cbn beta. does. }
  intros h. unfold pop_group, pop_tier, get_grp. rewrite !bind_gets. match goal with |- (if ?b then _ else _) _ = _ => destruct b end; [reflexivity|]. match goal with |- (if ?b then _ else _) _ = _ => destruct b end; flat.
Qed.
Lemma does_pop n a nm : does (pop_class_tagged n a nm) (pop_class n a nm).
Proof. unfold pop_class_tagged, pop_class. does. apply does_pop_group. Qed.

(** ** One group *)
Definition same_tags (h h' : heap) (g : gid) : Prop :=
  g_tiers (gob h' g) = g_tiers (gob h g) /\
  forall t, In t (g_tiers (gob h g)) -> class_name h' (t_ec (tob h' t)) = class_name h (t_ec (tob h t)).
Lemma same_tags_refl h g : same_tags h h g.
Proof. split; auto. Qed.
Lemma same_tags_trans h h1 h2 g : same_tags h h1 g -> same_tags h1 h2 g -> same_tags h h2 g.
Proof. intros (A & B) (C & E). split; [congruence|]. intros t Ht. rewrite E by congruence. auto. Qed.
Lemma same_differ h h' g : same_tags h h' g -> map (fun t => class_name h' (t_ec (tob h' t))) (g_tiers (gob h' g)) = map (fun t => class_name h (t_ec (tob h t))) (g_tiers (gob h g)).
Proof. intros (A & B). rewrite A. apply map_ext_in. exact B. Qed.
Lemma named_after d d1 d2 g : tiers_named d d1 g -> same_tags (d_heap d1) (d_heap d2) g -> d_attr d2 = d_attr d1 -> tiers_named d d2 g.
Proof.
  intros (P & Q) K A. pose proof (same_differ _ _ _ K) as Em. pose proof K as (K1 & K2).
  assert (Ef : classes_differ (d_heap d2) g <-> classes_differ (d_heap d1) g) by (unfold classes_differ; rewrite Em; reflexivity).
  assert (By : forall k s, by_name d2 k s = by_name d1 k s) by (intros; unfold by_name; rewrite A; reflexivity).
  split; [|intros N; rewrite A; apply Q; rewrite <- Ef; exact N].
  intros N. destruct (P (proj1 Ef N)) as (R & O1 & O2). split; [|split].
  - intros t Ht. rewrite K1 in Ht. rewrite By, K2 by exact Ht. apply R, Ht.
  - intros k Nk. rewrite A. auto.
  - intros s Ns. rewrite By. apply O2. intros t Ht. rewrite <- K2 by exact Ht. apply Ns. rewrite K1. exact Ht.
Qed.
Lemma named_before d d1 d2 g : d_attr d1 = d_attr d -> tiers_named d1 d2 g -> tiers_named d d2 g.
Proof.
  intros A (P & Q). split; [|intros N; rewrite (Q N); exact A]. intros N. destruct (P N) as (R & O1 & O2). split; [exact R|]. split.
  - intros k Nk. rewrite O1, A by exact Nk. reflexivity.
  - intros s Ns. rewrite (O2 s Ns). unfold by_name. rewrite A. reflexivity.
Qed.
Lemma calm_tags {A} (m : M A) g : calm m -> forall h, same_tags h (heap_of (m h)) g.
Proof.
  intros C h. destruct (C h) as (A1 & A2 & _ & _ & _ & A6). split; [unfold gob; rewrite A2; reflexivity|].
  intros t _. destruct (A6 t) as (-> & _). unfold class_name, cob. rewrite A1. reflexivity.
Qed.
Lemma plainly_ok {A} (m : M A) d a d' : plainly m d = DOk a d' -> m (d_heap d) = Ok a (d_heap d') /\ d_attr d' = d_attr d.
Proof. unfold plainly. destruct (m (d_heap d)) as [x h|e h]; intros E; [|discriminate]. injection E as <- <-. auto. Qed.
Lemma dbind_ok {A B} (m : D A) (k : A -> D B) d b d' : dbind m k d = DOk b d' -> exists a d1, m d = DOk a d1 /\ k a d1 = DOk b d'.
Proof. unfold dbind. destruct (m d) as [a d1|e d1]; [|discriminate]. eauto. Qed.
Lemma dgets_ok {A} (f : heap -> A) d a d' : dgets f d = DOk a d' -> a = f (d_heap d) /\ d' = d.
Proof. unfold dgets, plainly, gets. intros E. injection E as <- <-. destruct d; auto. Qed.

Lemma calm_tg_end n tiers ts delay : calm (tg_end n tiers ts delay).
Proof.
  unfold tg_end. apply calm_bind; [|intros _; apply calm_relate_tiers]. apply calm_forM. intros t. apply calm_bind; [apply calm_gets|]. intros l. apply calm_forM. intros x. apply calm_remove.
Qed.
Lemma tg_init_tags n g ts nm delay d d' : tg_init_named n g ts nm delay d = DOk tt d' -> tiers_named d d' g.
Proof.
  intros E. unfold tg_init_named in E. destruct (dbind_ok _ _ _ _ _ E) as (r & d1 & E1 & E2). destruct (dbind_ok _ _ _ _ _ E2) as (u & d2 & E3 & E4).
  destruct (plainly_ok _ _ _ _ E1) as (_ & A1). destruct (name_tiers_spec g d1) as (d2' & N1 & N2 & N3). rewrite N1 in E3. injection E3 as <- <-.
  destruct (plainly_ok _ _ _ _ E4) as (Q & A2). apply (named_before d d1); [exact A1|]. apply (named_after d1 d2'); [exact N3| |exact A2].
  pose proof (calm_tags _ g (calm_tg_end n ts r delay) (d_heap d2')) as K. rewrite Q in K. exact K.
Qed.
Lemma make_name_heap g h : heap_of (make_name g h) = h.
Proof.
  unfold make_name. destruct (map _ _); [reflexivity|]. match goal with |- context[if ?b then _ else _] => destruct b end; [reflexivity|].
  destruct (g_within (gob h g)) as [[ | | |]|]; try reflexivity. match goal with |- context[index_of ?x ?y] => destruct (index_of x y) end; reflexivity.
Qed.
Lemma mod_grp_tags g k f h : (forall o, g_tiers (f o) = g_tiers o) -> same_tags h (heap_of (mod_grp k f h)) g.
Proof.
  intros F. cbn. split; [|reflexivity]. destruct (decide (k = g)) as [-> |Nk]; [|rewrite gob_upd_ne by auto; reflexivity].
  destruct (decide (g < List.length (h_grp h))%nat) as [L|L]; [rewrite gob_upd_eq by exact L; apply F|]. unfold gob, upd_grp; cbn. rewrite !lookup_ge_None_2 by (rewrite ?alter_length; lia). reflexivity.
Qed.
Definition tagging (g : gid) (h h' : heap) : Prop := same_tags h h' g.
#[export] Instance tagging_pre g : PreOrder (tagging g).
Proof. split; [intros h; apply same_tags_refl|intros h1 h2 h3; apply same_tags_trans]. Qed.
Lemma tagging_mod_grp g k f : (forall o, g_tiers (f o) = g_tiers o) -> under (tagging g) (mod_grp k f).
Proof. intros F h. apply mod_grp_tags, F. Qed.
Lemma tagging_read {A} g (m : M A) : (forall h, heap_of (m h) = h) -> under (tagging g) m.
Proof. intros K h. rewrite K. apply same_tags_refl. Qed.
Lemma tagging_make g k : under (tagging g) (make_name k).
Proof. apply tagging_read, make_name_heap. Qed.
#[local] Hint Resolve tagging_make : own.
#[local] Hint Extern 2 (under (tagging _) (mod_grp _ _)) => (apply tagging_mod_grp; reflexivity) : own.
Lemma tagging_grp_name g k : under (tagging g) (grp_name k).
Proof. unfold grp_name. under. Qed.
#[local] Hint Resolve tagging_grp_name : own.
Lemma pg_init_tags g ts d d' : pg_init_named g ts d = DOk tt d' -> tiers_named d d' g.
Proof.
  intros E. unfold pg_init_named in E. destruct (dbind_ok _ _ _ _ _ E) as (r & d1 & E1 & E2). destruct (dbind_ok _ _ _ _ _ E2) as (u & d2 & E3 & E4).
  destruct (plainly_ok _ _ _ _ E1) as (_ & A1). destruct (name_tiers_spec g d1) as (d2' & N1 & N2 & N3). rewrite N1 in E3. injection E3 as <- <-.
  destruct (plainly_ok _ _ _ _ E4) as (Q & A2). apply (named_before d d1); [exact A1|]. apply (named_after d1 d2'); [exact N3| |exact A2].
  assert (K : under (tagging g) (m <- make_name g ;; mod_grp g (set_g_name m))) by under.
  specialize (K (d_heap d2')). rewrite Q in K. exact K.
Qed.
Lemma re_relate_tags n g d d' : re_relate_named n g d = DOk tt d' -> tiers_named d d' g.
Proof.
  intros E. unfold re_relate_named in E. destruct (dbind_ok _ _ _ _ _ E) as (o & d1 & E1 & E2). destruct (dgets_ok _ _ _ _ E1) as (-> & ->).
  destruct (g_points (gob (d_heap d) g)); [eapply pg_init_tags; exact E2|]. destruct (dbind_ok _ _ _ _ _ E2) as (nm & d2 & E3 & E4). destruct (plainly_ok _ _ _ _ E3) as (_ & A).
  apply (named_before d d2); [exact A|]. eapply tg_init_tags; exact E4.
Qed.

Lemma c73_group : forall n tiers d g d', new_tg_named n tiers d = DOk g d' -> new_tg n tiers (d_heap d) = Ok g (d_heap d') /\ tiers_named d d' g.
Proof.
  intros n tiers d g d' E. split; [pose proof (does_new_tg n tiers d) as Q; rewrite E in Q; exact Q|]. unfold new_tg_named in E.
  destruct (dbind_ok _ _ _ _ _ E) as (g1 & d1 & E1 & E2). destruct (dbind_ok _ _ _ _ _ E2) as ([] & d2 & E3 & E4). injection E4 as -> ->. destruct (plainly_ok _ _ _ _ E1) as (_ & A).
  apply (named_before d d1); [exact A|]. eapply tg_init_tags; exact E3.
Qed.
Lemma c73_points : forall tiers d g d', new_pg_named tiers d = DOk g d' -> new_pg tiers (d_heap d) = Ok g (d_heap d') /\ tiers_named d d' g.
Proof.
  intros tiers d g d' E. split; [pose proof (does_new_pg tiers d) as Q; rewrite E in Q; exact Q|]. unfold new_pg_named in E.
  destruct (dbind_ok _ _ _ _ _ E) as (g1 & d1 & E1 & E2). destruct (dbind_ok _ _ _ _ _ E2) as ([] & d2 & E3 & E4). injection E4 as -> ->. destruct (plainly_ok _ _ _ _ E1) as (_ & A).
  apply (named_before d d1); [exact A|]. eapply pg_init_tags; exact E3.
Qed.
Lemma c73_relate : forall n g d d', re_relate_named n g d = DOk tt d' -> re_relate n g (d_heap d) = Ok tt (d_heap d') /\ tiers_named d d' g.
Proof. intros n g d d' E. split; [pose proof (does_re_relate n g d) as Q; rewrite E in Q; exact Q|eapply re_relate_tags; exact E]. Qed.
Lemma c73_add : forall n g t d d', grp_append_named n g t d = DOk tt d' -> grp_append n g t (d_heap d) = Ok tt (d_heap d') /\ tiers_named d d' g.
Proof.
  intros n g t d d' E. split; [pose proof (does_grp_append n g t d) as Q; rewrite E in Q; exact Q|]. unfold grp_append_named in E.
  destruct (dbind_ok _ _ _ _ _ E) as (r & d1 & E1 & E2). destruct (plainly_ok _ _ _ _ E1) as (_ & A). apply (named_before d d1); [exact A|].
  destruct (fst r); [eapply pg_init_tags; exact E2|eapply tg_init_tags; exact E2].
Qed.
Lemma c73_append : forall n t x d d', tier_append_named n t x d = DOk tt d' -> tier_append n t x (d_heap d) = Ok tt (d_heap d') /\
  (d_attr d' = d_attr d \/ exists g, t_within (tob (d_heap d) t) = Some (WGroup g) /\ tiers_named d d' g).
Proof.
  intros n t x d d' E. split; [pose proof (does_tier_append n t x d) as Q; rewrite E in Q; exact Q|]. unfold tier_append_named in E.
  destruct (dbind_ok _ _ _ _ _ E) as (b & d1 & E1 & E2). destruct (plainly_ok _ _ _ _ E1) as (Q & A). destruct b; [|injection E2 as <-; left; exact A].
  destruct (dbind_ok _ _ _ _ _ E2) as (tg & d2 & E3 & E4). destruct (dgets_ok _ _ _ _ E3) as (-> & ->). unfold truthy_group in E4.
  pose proof (calm_tier_append_n n t x (d_heap d)) as C. rewrite Q in C. cbn [heap_of] in C. destruct C as (_ & _ & _ & _ & _ & C). destruct (C t) as (_ & _ & _ & _ & W).
  unfold tier_group in E4. rewrite W in E4. destruct (t_within (tob (d_heap d) t)) as [[ | |g|]|] eqn:Ew; try (injection E4 as <-; left; exact A).
  match type of E4 with context[if ?b then _ else _] => destruct b end; [|injection E4 as <-; left; exact A]. right. exists g. split; [reflexivity|]. apply (named_before d d1); [exact A|]. eapply re_relate_tags; exact E4.
Qed.
Lemma tagging_list_group g a k : under (tagging g) (list_group a k).
Proof.
  assert (Gm : forall f, under (tagging g) (mod_grid a f)) by (intros f; intros h; split; reflexivity).
  unfold list_group, set_tier_groups, set_group_names. under.
Qed.
Lemma c73_grid : forall n a g d d', grid_append_tagged n a g d = DOk tt d' -> grid_append n a g (d_heap d) = Ok tt (d_heap d') /\ tiers_named d d' g.
Proof.
  intros n a g d d' E. split; [pose proof (does_grid_append n a g d) as Q; rewrite E in Q; exact Q|]. unfold grid_append_tagged in E.
  destruct (dbind_ok _ _ _ _ _ E) as (u & d1 & E1 & E2). destruct (dbind_ok _ _ _ _ _ E2) as ([] & d2 & E3 & E4). destruct (plainly_ok _ _ _ _ E1) as (_ & A1). destruct (plainly_ok _ _ _ _ E4) as (Q & A2).
  apply (named_before d d1); [exact A1|]. apply (named_after d1 d2); [eapply re_relate_tags; exact E3| |exact A2]. pose proof (tagging_list_group g a g (d_heap d2)) as K. rewrite Q in K. exact K.
Qed.
End WithEnv.
