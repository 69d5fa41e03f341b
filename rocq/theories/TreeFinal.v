(** * TreeFinal: C15-C17, and the lemmas on whole histories. *)
From Verif Require Export AssignProofs History.
Open Scope Z_scope.

Section WithEnv.
Context `{Env}.
Local Notation inv := (inv_but nowhere).

(** ** Start and creation *)
Lemma sob_empty h i : h_seq h = [] -> sob h i = blank_seq 0%nat None None EmptyString.
Proof. intros E. apply sob_dead. unfold live. rewrite E. simpl. lia. Qed.
Lemma chained_nil h : chained h [].
Proof. split; [|split]; intros; destruct i || idtac; discriminate. Qed.
Lemma inv_start K h : h_seq h = [] -> separate_chains h K -> inv K nowhere h.
Proof.
  intros E C. constructor; [exact C| |].
  - constructor; intros *; rewrite ?(sob_empty h _ E); simpl; try discriminate; try contradiction; auto.
    + intros _. constructor.
    + intros L. unfold live in L. rewrite E in L. simpl in L. lia.
  - intros p _ _. rewrite (sob_empty h _ E). apply chained_nil.
Qed.

Lemma new_settles c st en lab h : lab <> "#"%string ->
  exists h', new_obj c st en lab h = Ok (List.length (h_seq h)) h' /\
    settles (push_seq (blank_seq c st en lab) h) [List.length (h_seq h)] h'.
Proof.
  intros Hl. unfold new_obj. mstep. set (x := List.length (h_seq h)). set (h1 := push_seq _ h).
  destruct (is_hash lab) eqn:E; [apply is_hash_spec in E; contradiction|].
  assert (Lx : live h1 x) by (apply live_push; auto).
  assert (Ex : sob h1 x = blank_seq c st en lab) by apply sob_push_new.
  destruct (set_boundary_ok Fol x h1) as (h2 & E2 & L2 & N2 & F2 & O2 & K2); [auto|rewrite Ex; auto|].
  assert (Lx2 : live h2 x) by (eapply links_only_live; eauto).
  assert (Ex2 : erase (sob h2 x) = erase (sob h1 x)) by (apply L2; auto).
  assert (Hl2 : s_label (sob h2 x) <> "#"%string).
  { destruct (erase_fields _ _ Ex2) as (_ & _ & _ & -> & _). rewrite Ex. auto. }
  destruct (set_boundary_ok Prev x h2) as (h3 & E3 & L3 & N3 & F3 & O3 & K3); [auto|auto|].
  assert (L13 : links_only h1 h3) by (eapply links_only_trans; eauto).
  exists h3. split.
  { unfold set_final, set_initial. mstep. rewrite (bind_ok _ _ _ _ _ E2).
    rewrite (bind_ok _ _ _ _ _ E3). reflexivity. }
  split; [exact L13|]. split.
  { intros i Hi Hn. rewrite F3, F2; auto; [|eapply links_only_live; eauto|]; intros ->; apply Hn; simpl; auto. }
  assert (B : forall k, live h3 k -> ~ live h1 k -> is_boundary h3 k).
  { intros k Hk Hn. apply boundary_is_boundary; auto. apply L13; auto. }
  assert (Len : List.length (h_seq h3) = S (S (List.length (h_seq h1)))) by lia.
  split; [|split].
  - intros [|i] a b Ha Hb; [discriminate|destruct i; discriminate].
  - intros a [= <-]. eexists. split; [exact K3|]. apply B; unfold live in *; lia.
  - intros a [= <-]. eexists. split; [simpl in O3; rewrite O3; exact K2|]. apply B; unfold live in *; lia.
Qed.

Lemma push_view o h i : s_super o = None -> s_subset o = [] -> s_subec o = None ->
  s_super (sob (push_seq o h) i) = s_super (sob h i) /\ s_subset (sob (push_seq o h) i) = s_subset (sob h i) /\
  s_subec (sob (push_seq o h) i) = s_subec (sob h i).
Proof.
  intros A B C. destruct (decide (live h i)) as [L|L]; [rewrite sob_push_old; auto|].
  rewrite (sob_dead h i L). destruct (decide (i = List.length (h_seq h))) as [->|Hi].
  - rewrite sob_push_new. rewrite A, B, C. auto.
  - rewrite sob_dead; auto. rewrite live_push. tauto.
Qed.
Lemma tree_push (K : cid -> Prop) h c st en lab : K c -> lab <> "#"%string -> tree K nowhere h ->
  tree K nowhere (push_seq (blank_seq c st en lab) h).
Proof.
  intros Kc Hl T. set (o := blank_seq c st en lab).
  assert (V : forall i, s_super (sob (push_seq o h) i) = s_super (sob h i) /\
     s_subset (sob (push_seq o h) i) = s_subset (sob h i) /\ s_subec (sob (push_seq o h) i) = s_subec (sob h i)).
  { intros i. apply push_view; reflexivity. }
  assert (Sub : forall p x, In x (s_subset (sob h p)) -> live h p).
  { intros p x Hx. destruct (decide (live h p)) as [A|A]; auto. rewrite (sob_dead h p A) in Hx. destruct Hx. }
  constructor.
  - intros p x Hp Hx. destruct (V p) as (_ & Vp & _). rewrite Vp in Hx.
    destruct (t_down _ _ _ T p x Hp Hx) as (A & B & C).
    rewrite !sob_push_old by eauto. split; [apply live_push; auto|auto].
  - intros x p Hx. destruct (V x) as (Vx & _). rewrite Vx in Hx.
    destruct (t_up _ _ _ T x p Hx) as [A B]. destruct (V p) as (_ & -> & _).
    split; [apply live_push; auto|auto].
  - intros p Hp. destruct (V p) as (_ & -> & _). apply (t_nodup _ _ _ T); auto.
  - intros p d Hp. destruct (V p) as (_ & _ & Vp). rewrite Vp in Hp.
    destruct (decide (live h p)) as [A|A]; [|rewrite (sob_dead h p A) in Hp; discriminate].
    rewrite sob_push_old by auto. apply (tr_ec _ _ _ T); auto.
  - intros p x y Hp Hx Hy E. destruct (V p) as (_ & Vp & _). rewrite Vp in Hx, Hy.
    apply (t_twin _ _ _ T p); auto.
    destruct (t_down _ _ _ T p x Hp Hx) as (A & _). destruct (t_down _ _ _ T p y Hp Hy) as (B & _).
    rewrite same_value_ext in E; [exact E| |]; apply praatio_ext; rewrite ?sob_push_old; auto.
  - intros x Hx. destruct (V x) as (-> & -> & _).
    destruct (decide (live h x)) as [A|A]; [|rewrite (sob_dead h x A); auto].
    rewrite sob_push_old in Hx by auto. apply (t_hash _ _ _ T); auto.
  - intros x Hx Hn. apply live_push in Hx. destruct Hx as [Hx| ->].
    + rewrite sob_push_old in * by auto. apply (t_cls _ _ _ T); auto.
    + rewrite sob_push_new. exact Kc.
Qed.
Lemma chained_push h o l : (forall x, In x l -> live h x) -> chained h l -> chained (push_seq o h) l.
Proof.
  intros A C. eapply chained_ext; [| |exact C].
  - intros x Hx. rewrite sob_push_old by auto. auto.
  - intros k (B & D). assert (live h k) by exact B. unfold is_boundary. rewrite sob_push_old by auto.
    split; [|auto]. apply live_push; auto.
Qed.
Lemma inv_new (K : cid -> Prop) c st en lab h : inv K nowhere h -> K c -> lab <> "#"%string ->
  exists h', new_obj c st en lab h = Ok (List.length (h_seq h)) h' /\ inv K nowhere h' /\
    settles (push_seq (blank_seq c st en lab) h) [List.length (h_seq h)] h'.
Proof.
  intros I Kc Hl. destruct (new_settles c st en lab h Hl) as (h' & E & S).
  exists h'. split; [exact E|]. split; [|exact S].
  assert (T : tree K nowhere (push_seq (blank_seq c st en lab) h)) by (apply tree_push; auto; apply I).
  eapply inv_settle; [|exact T|exact S|].
  - apply (chains_ext h); [reflexivity|apply I].
  - intros p Hp. right.
    destruct (push_view (blank_seq c st en lab) h p) as (_ & -> & _); auto.
    split.
    + intros Hn. apply chained_push; [|apply (i_links _ _ _ I); auto].
      intros x Hx. apply (t_down _ _ _ (i_tree _ _ _ I) p x Hp Hx).
    + intros x [<-|[]] Hx. destruct (t_down _ _ _ (i_tree _ _ _ I) p _ Hp Hx) as (A & _).
      unfold live in A. lia.
Qed.

(** ** Changing times or labels *)
Lemma inv_value lx K h x f : inv_but lx K nowhere h -> live h x -> s_label (sob h x) <> "#"%string ->
  (forall o, s_cls (f o) = s_cls o /\ s_fol (f o) = s_fol o /\ s_prev (f o) = s_prev o /\
     s_super (f o) = s_super o /\ s_subset (f o) = s_subset o /\ s_subec (f o) = s_subec o) ->
  s_label (f (sob h x)) <> "#"%string ->
  (forall p, s_super (sob h x) = Some p -> no_twin (upd_seq x f h) p x) ->
  inv_but lx K nowhere (upd_seq x f h).
Proof.
  intros I Lx Hx F Hl Tw. set (h' := upd_seq x f h) in *.
  assert (V : forall i, s_cls (sob h' i) = s_cls (sob h i) /\ s_super (sob h' i) = s_super (sob h i) /\
     s_subset (sob h' i) = s_subset (sob h i) /\ s_subec (sob h' i) = s_subec (sob h i)).
  { intros i. repeat split; apply sob_upd_field; apply F. }
  pose proof (i_tree _ _ _ I) as T.
  constructor.
  - apply (chains_ext h); [reflexivity|apply I].
  - constructor.
    + intros p y Hp Hy. destruct (V p) as (A & _ & B & _). rewrite B in Hy. rewrite A.
      destruct (t_down _ _ _ T p y Hp Hy) as (D1 & D2 & D3). destruct (V y) as (-> & -> & _).
      split; [apply live_upd; auto|]. auto.
    + intros y p Hy. destruct (V y) as (_ & A & _). rewrite A in Hy. destruct (t_up _ _ _ T y p Hy) as [D1 D2].
      destruct (V p) as (_ & _ & -> & _). split; [apply live_upd; auto|auto].
    + intros p Hp. destruct (V p) as (_ & _ & -> & _). apply (t_nodup _ _ _ T); auto.
    + intros p c Hp. destruct (V p) as (-> & _ & _ & A). rewrite A in Hp. apply (tr_ec _ _ _ T p c Hp).
    + intros p y z Hp Hy Hz E. destruct (V p) as (_ & _ & A & _). pose proof Hy as Hy'. pose proof Hz as Hz'.
      rewrite A in Hy', Hz'.
      destruct (t_down _ _ _ T p y Hp Hy') as (_ & Sy & _). destruct (t_down _ _ _ T p z Hp Hz') as (_ & Sz & _).
      destruct (decide (y = x)) as [->|Ny]; destruct (decide (z = x)) as [->|Nz]; auto.
      * symmetry. apply (Tw p); auto. destruct E as (E1 & E2 & E3 & E4).
        split; [auto|]. split; [auto|]. split; [auto|]. intros E5. symmetry. apply E4. congruence.
      * apply (Tw p); auto.
      * apply (t_twin _ _ _ T p); auto. rewrite same_value_ext in E; [exact E| |]; apply praatio_ext; auto; unfold h'; rewrite sob_upd_ne; auto.
    + intros y Hy. destruct (V y) as (_ & -> & -> & _). apply (t_hash _ _ _ T).
      destruct (decide (y = x)) as [->|Ny]; [unfold h' in Hy; rewrite sob_upd_eq in Hy by auto; contradiction|].
      unfold h' in Hy. rewrite sob_upd_ne in Hy; auto.
    + intros y Ly Hy. destruct (V y) as (-> & _). apply live_upd in Ly.
      apply (t_cls _ _ _ T); auto.
      destruct (decide (y = x)) as [->|Ny]; [auto|]. unfold h' in Hy. rewrite sob_upd_ne in Hy; auto.
  - intros p Hp Hn. destruct (V p) as (_ & _ & -> & _). apply chained_upd; auto; try apply F. apply (i_links _ _ _ I); auto.
Qed.

(** ** The calls *)
Lemma core_values h h' : core_same h h' -> same_values h h'.
Proof.
  intros ((A & B & C & D) & _ & E & _). unfold same_values. split; [auto|]. split; [auto|]. split; [auto|]. split; [auto|].
  intros i Hi. destruct (E i Hi) as (E1 & E2 & E3 & E4 & _). auto.
Qed.
Lemma in_split_nodup {A} (x : A) l : In x l -> exists l1 l2, l = (l1 ++ x :: l2)%list.
Proof. intros. apply in_split. auto. Qed.

Lemma nowhere_not s : ~ nowhere s.
Proof. intros []. Qed.

Lemma classes_in K h x : inv K nowhere h -> user_obj h x -> K (s_cls (sob h x)).
Proof. intros I [A B]. apply (t_cls _ _ _ (i_tree _ _ _ I)); auto. Qed.

(** A child of the wrong class is rejected before anything changes. *)
Lemma append_rejects K h s x : inv K nowhere h -> user_obj h s -> user_obj h x ->
  subset_class h (s_cls (sob h s)) <> Some (s_cls (sob h x)) ->
  exists e, append_subset_list s x h = Raise e h.
Proof.
  intros I Us Ux Hn. destruct (subset_class h (s_cls (sob h s))) as [d|] eqn:Ed.
  2:{ rewrite append_none by auto. eauto. }
  destruct (issubclass h (s_cls (sob h x)) d) eqn:Ei.
  2:{ rewrite (append_wrong h s x d) by auto. eauto. }
  exfalso. apply Hn. f_equal. symmetry. destruct (i_chains _ _ _ I) as (_ & U & _).
  apply (U (s_cls (sob h s)) d); auto; apply classes_in; auto.
Qed.
Lemma super_rejects K h s x : inv K nowhere h -> user_obj h s -> user_obj h x ->
  subset_class h (s_cls (sob h s)) <> Some (s_cls (sob h x)) ->
  exists e, set_super_instance x s h = Raise e h.
Proof.
  intros I Us Ux Hn. destruct (superset_class h (s_cls (sob h x))) as [d|] eqn:Ed.
  2:{ rewrite super_none by auto. eauto. }
  destruct (issubclass h (s_cls (sob h s)) d) eqn:Ei.
  2:{ rewrite (super_wrong h s x d) by auto. eauto. }
  exfalso. apply Hn. destruct (i_chains _ _ _ I) as (_ & _ & U & G & _).
  apply G; [apply classes_in; auto|apply classes_in; auto|]. rewrite Ed. f_equal. symmetry.
  apply (U (s_cls (sob h x)) d); auto; apply classes_in; auto.
Qed.
Lemma append_rejected K h s x : inv K nowhere h -> user_obj h s -> user_obj h x ->
  subset_class h (s_cls (sob h s)) <> Some (s_cls (sob h x)) -> heap_of (append_subset_list s x h) = h.
Proof. intros I A B C. destruct (append_rejects K h s x I A B C) as [e ->]. reflexivity. Qed.
Lemma super_rejected K h s x : inv K nowhere h -> user_obj h s -> user_obj h x ->
  subset_class h (s_cls (sob h s)) <> Some (s_cls (sob h x)) -> heap_of (set_super_instance x s h) = h.
Proof. intros I A B C. destruct (super_rejects K h s x I A B C) as [e ->]. reflexivity. Qed.

Lemma inv_append K h s x : inv K nowhere h -> user_obj h s -> user_obj h x -> no_twin h s x ->
  inv K nowhere (heap_of (append_subset_list s x h)).
Proof.
  intros I Us Ux Tw. pose proof (classes_in K h s I Us) as Ks. pose proof (classes_in K h x I Ux) as Kx.
  destruct (subset_class h (s_cls (sob h s))) as [d|] eqn:Ed.
  2:{ rewrite append_none by auto. exact I. }
  destruct (issubclass h (s_cls (sob h x)) d) eqn:Ei.
  2:{ rewrite (append_wrong h s x d) by auto. exact I. }
  destruct (i_chains _ _ _ I) as (_ & U & _).
  assert (s_cls (sob h x) = d) by exact (U _ _ _ Ks Ed Kx Ei). subst d.
  destruct (decide (s_super (sob h x) = Some s)) as [E|E].
  { rewrite (append_child (lx:=nowhere) K) by (auto; apply (t_up _ _ _ (i_tree _ _ _ I) x s E), nowhere_not). exact I. }
  destruct Us as [Ls Bs]. destruct Ux as [Lx Bx].
  destruct (append_ok K h s x I) as (h1 & I1 & _ & _ & _ & _ & [(l1 & l2 & h' & _ & -> & _ & _ & _ & I')|[-> _]]); auto.
  unfold may_adopt. auto 6.
Qed.
Lemma inv_super K h s x : inv K nowhere h -> user_obj h s -> user_obj h x -> no_twin h s x ->
  s_super (sob h x) = None \/ s_super (sob h x) = Some s ->
  inv K nowhere (heap_of (set_super_instance x s h)).
Proof.
  intros I Us Ux Tw [E|E].
  2:{ destruct (super_same h x s E) as [-> | ->]; exact I. }
  pose proof (classes_in K h s I Us) as Ks. pose proof (classes_in K h x I Ux) as Kx.
  destruct (superset_class h (s_cls (sob h x))) as [d|] eqn:Ed.
  2:{ rewrite super_none by auto. exact I. }
  destruct (issubclass h (s_cls (sob h s)) d) eqn:Ei.
  2:{ rewrite (super_wrong h s x d) by auto. exact I. }
  destruct (i_chains _ _ _ I) as (_ & _ & U & G & _).
  assert (s_cls (sob h s) = d) by exact (U _ _ _ Kx Ed Ks Ei). subst d.
  destruct Us as [Ls Bs]. destruct Ux as [Lx Bx].
  destruct (super_ok K h s x I) as (h1 & I1 & _ & [(l1 & l2 & h' & _ & -> & _ & _ & _ & I')|[-> _]]); auto.
  split; [auto|]. split; [auto|]. split; [auto|]. split; [auto|]. apply G; auto.
Qed.
Lemma setter_raise_init s l h e h1 : sl_init l h = Raise e h1 -> heap_of (subset_setter s l h) = h.
Proof.
  intros E. unfold subset_setter. mstep. rewrite (bind_raise _ _ _ _ _ E). simpl.
  pose proof (c01_frame h l) as F. rewrite E in F. exact F.
Qed.
(** Either the call stops before changing anything, or its argument is right. *)
Lemma setter_cases K h s l : inv K nowhere h -> user_obj h s -> (forall x, In x l -> user_obj h x) ->
  heap_of (subset_setter s l h) = h \/
  (exists v v', sl_init l h = Ok v h /\ sl_init (sv_vals v) h = Ok v' h /\
     forall x, In x l -> subset_class h (s_cls (sob h s)) = Some (s_cls (sob h x))).
Proof.
  intros I Us Ul. destruct (sl_init l h) as [v h1|e h1] eqn:E1.
  2:{ left. eapply setter_raise_init; eauto. }
  destruct (sl_init_ok _ _ _ _ E1) as (-> & P & _).
  assert (Hin : forall x, In x (sv_vals v) <-> In x l).
  { intros x. split; apply Permutation_in; [exact P|symmetry; exact P]. }
  set (l' := sv_vals v) in *.
  assert (W : heap_of (set_subset_list s l' h) = h /\ (exists e h1, set_subset_list s l' h = Raise e h1) ->
              heap_of (subset_setter s l h) = h).
  { intros [W1 (e & h1 & W2)]. unfold subset_setter. mstep. rewrite (bind_ok _ _ _ _ _ E1).
    fold l'. rewrite (bind_raise _ _ _ _ _ W2). rewrite W2 in W1. exact W1. }
  assert (Ks : K (s_cls (sob h s))) by (apply classes_in; auto).
  destruct (sl_init l' h) as [v' h1|e h1] eqn:E2.
  2:{ left. pose proof (c01_frame h l') as F. rewrite E2 in F. simpl in F. subst h1.
      apply W. unfold set_subset_list. mstep.
      destruct (subset_class h (s_cls (sob h s))) as [d|] eqn:Ed.
      - rewrite (bind_ok _ _ _ _ _ (mapM_isinstance d l' h)).
        destruct (forallb id _); [rewrite (bind_raise _ _ _ _ _ E2)|]; simpl; eauto.
      - destruct l' as [|y l'']; [discriminate|].
        rewrite (bind_raise _ _ _ _ _ (mapM_isinstance_none y l'' h)). simpl; eauto. }
  destruct (sl_init_ok _ _ _ _ E2) as (-> & _).
  destruct (subset_class h (s_cls (sob h s))) as [d|] eqn:Ed.
  - destruct (forallb id (map (fun x => issubclass h (s_cls (sob h x)) d) l')) eqn:Ef.
    + right. exists v, v'. split; [auto|]. split; [auto|]. intros x Hx.
      rewrite forallb_forall in Ef. specialize (Ef (issubclass h (s_cls (sob h x)) d)).
      destruct (i_chains _ _ _ I) as (_ & U & _). f_equal. symmetry. apply (U (s_cls (sob h s)) d); auto.
      * apply classes_in; auto.
      * apply Ef. apply in_map_iff. exists x. split; [auto|]. apply Hin; auto.
    + left. apply W. unfold set_subset_list. mstep. rewrite Ed.
      rewrite (bind_ok _ _ _ _ _ (mapM_isinstance d l' h)), Ef. simpl; eauto.
  - destruct l' as [|y l''] eqn:El.
    + right. exists v, v'. split; [auto|]. fold l'. rewrite El. split; [auto|]. intros x Hx. apply Hin in Hx. destruct Hx.
    + left. apply W. unfold set_subset_list. mstep. rewrite Ed.
      rewrite (bind_raise _ _ _ _ _ (mapM_isinstance_none y l'' h)). simpl; eauto.
Qed.
Lemma inv_assign K h s l : inv K nowhere h -> allowed K h (Assign s l) ->
  inv K nowhere (heap_of (subset_setter s l h)).
Proof.
  intros I (Us & Ul & Nd & Tw & To).
  destruct (setter_cases K h s l I Us Ul) as [->|(v & v' & E1 & E2 & Hc)]; [exact I|].
  destruct Us as [Ls Bs].
  destruct (setter_ok (lx:=nowhere) K h s l v) with (v' := v') as (h' & -> & I' & _); auto.
  - intros x Hx. destruct (Ul x Hx) as [A B]. split; [exact A|]. split; [exact B|]. auto.
  - split; auto.
  - intros o Ho y Hy E. symmetry. apply (To y Hy o Ho).
    destruct E as (A & B & C & D). split; [auto|]. split; [auto|]. split; [auto|]. intros F. symmetry. apply D. congruence.
Qed.

Lemma inv_detach K h x : inv K nowhere h -> user_obj h x ->
  inv K nowhere (heap_of (remove_superset x h)).
Proof.
  intros I [Lx Bx]. destruct (s_super (sob h x)) as [p|] eqn:E.
  - destruct (inv_remove K nowhere h p x I (nowhere_not p) E) as (l1 & l2 & h' & _ & -> & _ & I'). exact I'.
  - unfold remove_superset. rewrite E. exact I.
Qed.

Theorem inv_call K h o : inv K nowhere h -> allowed K h o -> inv K nowhere (heap_of (call o h)).
Proof.
  intros I A. destruct o as [c st en lab|s x|x s|s l|s x|x|s x|x st en|x lab]; cbn [call].
  - destruct A as [Kc Hl]. destruct (inv_new K c st en lab h I Kc Hl) as (h' & E & I' & _).
    rewrite (bind_ok _ _ _ _ _ E). exact I'.
  - destruct A as (A & B & C). apply inv_append; auto.
  - destruct A as (A & B & C & D). apply inv_super; auto.
  - apply inv_assign; auto.
  - destruct A as (A & B & C). destruct (in_dec Nat.eq_dec x (s_subset (sob h s))) as [Hx|Hx].
    + destruct (in_split _ _ Hx) as (l1 & l2 & Hs).
      destruct (inv_remove_from K nowhere h s x l1 l2 I (nowhere_not s) Hs) as (h' & -> & _ & I'). exact I'.
    + rewrite remove_from_absent by auto. exact I.
  - apply inv_detach; auto.
  - destruct A as (A & B & C). destruct (in_dec Nat.eq_dec x (s_subset (sob h s))) as [Hx|Hx].
    + destruct (in_split _ _ Hx) as (l1 & l2 & Hs).
      destruct (inv_pop K nowhere h s x l1 l2 I (nowhere_not s) Hs) as (h' & -> & _ & I'). exact I'.
    + destruct (inv_pop_absent K nowhere h s x I (nowhere_not s) C Hx) as (h' & -> & _ & I'). exact I'.
  - destruct A as ((A & B) & C). apply inv_value; auto. intros o; repeat split.
  - destruct A as ((A & B) & C & D). apply inv_value; auto. intros o; repeat split.
Qed.
Lemma inv_reach K only h : reach K only h -> inv K nowhere h.
Proof. induction 1; [apply inv_start|apply inv_call]; auto. Qed.

Lemma inv_families K h : inv K nowhere h -> families_ok h.
Proof.
  intros I. split; [|split; [|split]].
  - intros p x Hx. destruct (t_down _ _ _ (i_tree _ _ _ I) p x (nowhere_not p) Hx) as (_ & A & B). auto.
  - intros x p Hx. apply (t_up _ _ _ (i_tree _ _ _ I) x p Hx). apply nowhere_not.
  - intros p. apply (t_nodup _ _ _ (i_tree _ _ _ I)), nowhere_not.
  - intros p. apply (i_links _ _ _ I); apply nowhere_not.
Qed.

(** ** Lists stay in start order *)
Definition all_timed (h : heap) : Prop := forall x, user_obj h x -> exists t, s_start (sob h x) = Some t /\ t <> 0.
Definition all_sorted (h : heap) : Prop := forall p, sorted_starts h (s_subset (sob h p)).

Lemma sorted_ext h h' l : (forall x, In x l -> s_start (sob h' x) = s_start (sob h x)) ->
  sorted_starts h l -> sorted_starts h' l.
Proof.
  intros E S i j a b Hij Ha Hb. destruct (S i j a b Hij Ha Hb) as (s & t & A & B & C).
  exists s, t. rewrite !E by (eapply nth_error_In; eauto). auto.
Qed.
Lemma sorted_cons h x l : sorted_starts h (x :: l) <->
  (forall y, In y l -> exists s t, s_start (sob h x) = Some s /\ s_start (sob h y) = Some t /\ s <= t) /\
  sorted_starts h l.
Proof.
  split.
  - intros S. split.
    + intros y Hy. apply In_nth_error in Hy. destruct Hy as [j Hj]. apply (S 0%nat (Datatypes.S j) x y); auto. lia.
    + intros i j a b Hij Ha Hb. apply (S (Datatypes.S i) (Datatypes.S j) a b); auto. lia.
  - intros [A B] [|i] [|j] a b Hij Ha Hb; try lia.
    + simpl in *. injection Ha as <-. apply A. eapply nth_error_In; eauto.
    + simpl in *. apply (B i j); auto. lia.
Qed.
Lemma sorted_keep h (P : oid -> Prop) l k : keep_if P l k -> sorted_starts h l -> sorted_starts h k.
Proof.
  induction 1 as [|x l k Hx Hk IH|x l k Hx Hk IH]; auto.
  - rewrite !sorted_cons. intros [A B]. split; [|auto]. intros y Hy. apply A.
    clear -Hk Hy. induction Hk; simpl in *; intuition.
  - rewrite sorted_cons. intros [_ B]. auto.
Qed.
Lemma known_timed K h p : inv K nowhere h -> all_timed h -> forall x, In x (s_subset (sob h p)) ->
  exists t, s_start (sob h x) = Some t /\ t <> 0.
Proof.
  intros I T x Hx. destruct (family _ _ _ _ _ I (nowhere_not p) Hx) as (_ & A & _ & _ & _ & _ & _ & _ & B).
  apply T. split; auto.
Qed.
Lemma core_timed h h' : core_same h h' -> all_timed h -> all_timed h'.
Proof.
  intros (_ & _ & C & B) T x [L Hx]. destruct (decide (live h x)) as [Lx|Lx].
  - destruct (C x Lx) as (_ & C1 & _ & C2 & _). rewrite C1. apply T. split; [auto|]. congruence.
  - exfalso. apply Hx. apply boundary_obj_label. apply B; auto.
Qed.
Lemma core_start h h' x : core_same h h' -> live h x -> s_start (sob h' x) = s_start (sob h x).
Proof. intros (_ & _ & C & _) L. apply (C x L). Qed.
(** If every list of [h'] is a sublist of the one in [h]. *)
Lemma sorted_shrink K h h' (P : oid -> Prop) : inv K nowhere h -> core_same h h' -> all_sorted h ->
  (forall q, keep_if P (s_subset (sob h q)) (s_subset (sob h' q))) -> all_sorted h'.
Proof.
  intros I C S Q q. eapply sorted_keep; [apply Q|].
  eapply sorted_ext; [|apply S]. intros x Hx. apply core_start; auto.
  apply (t_down _ _ _ (i_tree _ _ _ I) q x (nowhere_not q) Hx).
Qed.

Lemma sorted_moved_out K h h' x : inv K nowhere h -> all_sorted h -> moved x None h h' -> all_sorted h'.
Proof.
  intros I S (C & _ & _ & Q). apply (sorted_shrink K h h' (fun y => y <> x)); [exact I|exact C|exact S|]. intros q. apply Q. discriminate.
Qed.
Lemma sorted_settled K h h' l : inv K nowhere h -> all_sorted h -> settles h l h' -> all_sorted h'.
Proof.
  intros I S T p. destruct (settles_view _ _ _ p T) as [_ ->].
  eapply sorted_ext; [|apply S]. intros x Hx. apply core_start; [apply links_core, T|].
  apply (t_down _ _ _ (i_tree _ _ _ I) p x (nowhere_not p) Hx).
Qed.
Lemma chains_class K h x : inv K nowhere h -> user_obj h x -> seq_class h (s_cls (sob h x)).
Proof. intros I U. apply (proj1 (i_chains _ _ _ I)). apply classes_in; auto. Qed.

(** Appending in a state where all is timed and sorted. *)
Lemma append_sorted K h s x : inv K nowhere h -> all_timed h -> all_sorted h ->
  user_obj h s -> user_obj h x -> no_twin h s x ->
  subset_class h (s_cls (sob h s)) = Some (s_cls (sob h x)) -> s_super (sob h x) <> Some s ->
  forall call', call' = append_subset_list s x \/ (call' = set_super_instance x s /\ s_super (sob h x) = None) ->
  exists h', call' h = Ok tt h' /\ inv K nowhere h' /\ joined s x h h' /\ all_timed h' /\ all_sorted h'.
Proof.
  intros I T S Us Ux Tw Hc Hne call' Hcall.
  assert (MA : may_adopt h K s x) by (destruct Us, Ux; unfold may_adopt; auto 6).
  assert (G : exists h1, inv K nowhere h1 /\ moved x None h h1 /\
    ((exists l1 l2 h', s_subset (sob h s) = (l1 ++ l2)%list /\ call' h = Ok tt h' /\
      sl_append (subset_slv (sob h s)) x false h1 = Ok (Slv (l1 ++ x :: l2) (Some (s_cls (sob h x)))) h1 /\
      moved x (Some s) h h' /\ s_subset (sob h' s) = (l1 ++ x :: l2)%list /\ inv K nowhere h') \/
    sl_append (subset_slv (sob h s)) x false h1 = Raise TypeError h1)).
  { destruct Hcall as [->|[-> Hn]].
    - destruct (append_ok K h s x I MA Tw Hne) as (h1 & I1 & M1 & _ & _ & _ & [G|[_ G]]); exists h1; auto 8.
    - destruct (super_ok K h s x I MA Tw Hn) as (h1 & I1 & M1 & [G|[_ G]]); exists h1; auto. }
  destruct G as (h1 & I1 & M1 & G).
  assert (Lv : forall y, In y (s_subset (sob h s)) -> live h y).
  { intros y Hy. apply (t_down _ _ _ (i_tree _ _ _ I) s y (nowhere_not s) Hy). }
  pose proof M1 as (C1 & _).
  assert (Ec : s_cls (sob h1 x) = s_cls (sob h x)) by (apply (core_cls _ _ x C1); apply Ux).
  assert (Sq : seq_class h1 (s_cls (sob h x))).
  { assert (E : h_cls h1 = h_cls h) by apply C1. pose proof (chains_class K h x I Ux) as Q.
    unfold seq_class, issubclass in *. rewrite E. exact Q. }
  assert (Nx : ~ In x (s_subset (sob h s))).
  { intros Hx. destruct (t_down _ _ _ (i_tree _ _ _ I) s x (nowhere_not s) Hx) as (_ & A & _). congruence. }
  destruct (sl_append_spec h1 (subset_slv (sob h s)) x (s_cls (sob h x))) as (k & Hk & E & So).
  { simpl. destruct (s_subec (sob h s)) as [e|] eqn:Ee; [left|right; auto].
    pose proof (tr_ec _ _ _ (i_tree _ _ _ I) s e Ee). congruence. }
  { exact Ec. }
  { apply issubclass_refl. }
  { apply seq_class_kind. exact Sq. }
  { apply twinless_not_listed; [|exact Nx]. eapply twinless_core; eauto. apply Ux. }
  { intros y Hy. simpl in Hy. rewrite (core_start _ _ _ C1) by auto. eapply known_timed; eauto. }
  { rewrite (core_start _ _ _ C1) by apply Ux. destruct (T x Ux) as (t & A & _). eauto. }
  { simpl. eapply sorted_ext; [|apply (S s)]. intros y Hy. apply core_start; auto. }
  destruct G as [(l1 & l2 & h' & A & B & C & M & Sb & I')|C]; [|congruence].
  rewrite E in C. injection C as C.
  exists h'. split; [exact B|]. split; [exact I'|].
  pose proof M as (C2 & X2 & Y2 & Q2).
  split; [|split; [eapply core_timed; eauto|]].
  - split; [exact X2|]. split; [eauto|]. split; [intros q Hq; apply Q2; congruence|]. split; [exact Y2|].
    apply core_values; auto.
  - intros p. destruct (decide (p = s)) as [->|Hp].
    + rewrite Sb, <- C. eapply sorted_ext; [|exact So]. intros y Hy.
      assert (Ly : live h y).
      { rewrite C in Hy. apply in_app_iff in Hy. destruct Hy as [Hy|[<-|Hy]]; [| apply Ux |]; apply Lv; rewrite A; apply in_app_iff; auto. }
      rewrite (core_start _ _ _ C1), (core_start _ _ _ C2); auto.
    + eapply sorted_keep; [apply Q2; congruence|]. eapply sorted_ext; [|apply (S p)].
      intros y Hy. apply core_start; auto. apply (t_down _ _ _ (i_tree _ _ _ I) p y (nowhere_not p) Hy).
Qed.

(** ** What each call does, in the words of the specification *)
Lemma left_of_moved K h s x l1 l2 h' : inv K nowhere h -> s_subset (sob h s) = (l1 ++ x :: l2)%list ->
  settles (cut s (l1 ++ l2) x h) (l1 ++ l2) h' -> left_parent s x h h' /\ moved x None h h'.
Proof.
  intros I E S. destruct (cut_moved K h s l1 x l2 h' I E S) as [M Sb]. split; [|exact M].
  destruct M as (C & X & Y & Q).
  pose proof (t_nodup _ _ _ (i_tree _ _ _ I) s (nowhere_not s)) as Nd. rewrite E in Nd.
  destruct (NoDup_mid _ _ _ Nd) as (_ & _ & _ & N).
  split; [exact X|]. split; [eauto 6|]. split; [|split; [exact Y|apply core_values; auto]].
  intros q Hq. specialize (Q q ltac:(discriminate)).
  eapply keep_if_fun; [exact Q|]. apply keep_if_all. intros y Hy ->.
  destruct (t_down _ _ _ (i_tree _ _ _ I) q x (nowhere_not q) Hy) as (_ & A & _).
  destruct (t_down _ _ _ (i_tree _ _ _ I) s x (nowhere_not s)) as (_ & B & _); [rewrite E; apply in_app_iff; simpl; auto|].
  congruence.
Qed.
Lemma removal K h s x : inv K nowhere h -> In x (s_subset (sob h s)) ->
  forall call', In call' [remove_from_subset_list s x; seq_pop s x; remove_superset x] ->
  exists h', call' h = Ok tt h' /\ left_parent s x h h' /\ chained h' (s_subset (sob h' s)) /\
    inv K nowhere h' /\ moved x None h h'.
Proof.
  intros I Hx call' Hc.
  assert (G : exists l1 l2 h', s_subset (sob h s) = (l1 ++ x :: l2)%list /\ call' h = Ok tt h' /\
     settles (cut s (l1 ++ l2) x h) (l1 ++ l2) h' /\ inv K nowhere h').
  { destruct (in_split _ _ Hx) as (l1 & l2 & Hs).
    destruct Hc as [<-|[<-|[<-|[]]]].
    - destruct (inv_remove_from K nowhere h s x l1 l2 I (nowhere_not s) Hs) as (h' & A & B & C). exists l1, l2, h'; auto.
    - destruct (inv_pop K nowhere h s x l1 l2 I (nowhere_not s) Hs) as (h' & A & B & C). exists l1, l2, h'; auto.
    - destruct (t_down _ _ _ (i_tree _ _ _ I) s x (nowhere_not s) Hx) as (_ & E & _).
      apply (inv_remove K nowhere h s x I (nowhere_not s) E). }
  destruct G as (l1 & l2 & h' & A & B & C & I'). exists h'. split; [exact B|].
  destruct (left_of_moved K h s x l1 l2 h' I A C) as [D E]. split; [exact D|].
  split; [apply (i_links _ _ _ I'); apply nowhere_not|]. auto.
Qed.

Lemma assign_effect K h s l : inv K nowhere h -> allowed K h (Assign s l) -> known_starts h l ->
  (forall x, In x l -> subset_class h (s_cls (sob h s)) = Some (s_cls (sob h x))) ->
  exists h', subset_setter s l h = Ok tt h' /\ inv K nowhere h' /\ reassigned s l h h' /\
    assigned s l h h' /\ sorted_starts h' (s_subset (sob h' s)).
Proof.
  intros I (Us & Ul & Nd & Tw & To) Kn Hc.
  destruct Us as [Ls Bs].
  assert (Sc : forall c y, In y l -> c = s_cls (sob h y) -> same_class h c l).
  { intros c y Hy -> z Hz. pose proof (Hc y Hy). pose proof (Hc z Hz). congruence. }
  assert (G : exists c, same_class h c l).
  { destruct l as [|y l]; [exists 0%nat; intros z []|]. exists (s_cls (sob h y)). eapply Sc; [left; reflexivity|auto]. }
  destruct G as [c G].
  destruct (sl_init_spec h c l G Kn) as (l' & E1 & P1 & S1 & _).
  assert (Kn' : known_starts h l').
  { intros x Hx. apply Kn. apply (Permutation_in _ P1); auto. }
  assert (G' : same_class h c l').
  { intros x Hx. apply G. apply (Permutation_in _ P1); auto. }
  destruct (sl_init_spec h c l' G' Kn') as (l'' & E2 & P2 & S2 & Q2).
  destruct (setter_ok (lx:=nowhere) K h s l (Slv l' (match l with [] => None | _ => Some c end)) I Ls Bs) with
    (v' := Slv l'' (match l' with [] => None | _ => Some c end)) as (h' & E & I' & A & B).
  - intros x Hx. destruct (Ul x Hx) as [U1 U2]. split; [exact U1|]. split; [exact U2|]. auto.
  - split; auto.
  - intros o Ho y Hy E. symmetry. apply (To y Hy o Ho).
    destruct E as (A & B & C & D). split; [auto|]. split; [auto|]. split; [auto|]. intros F. symmetry. apply D. congruence.
  - exact E1.
  - exact E2.
  - exists h'. split; [exact E|]. split; [exact I'|]. split; [|split; [exact A|]].
    + destruct A as (A1 & A2 & A3 & A4 & A5). split; [exact A2|]. split; [exact A3|].
      split; [intros x Hx Hs; rewrite A4, Hs, decide_True; auto|].
      split; [|split; [exact A5|apply core_values; auto]].
      intros x Hx Hs. rewrite A4 by auto. destruct (s_super (sob h x)) as [p|]; [|auto].
      rewrite decide_False; congruence.
    + rewrite B. simpl. eapply sorted_ext; [|exact S2]. intros x Hx. apply core_start; [apply A|].
      apply (Permutation_in _ P2), (Permutation_in _ P1) in Hx. apply (Ul x Hx).
Qed.

Lemma sorted_call K h o : inv K nowhere h -> all_timed h -> all_sorted h -> allowed K h o -> timed o ->
  all_timed (heap_of (call o h)) /\ all_sorted (heap_of (call o h)).
Proof.
  intros I T S A Ti. destruct o as [c st en lab|s x|x s|s l|s x|x|s x|x st en|x lab]; cbn [call].
  - destruct A as [Kc Hl]. destruct (inv_new K c st en lab h I Kc Hl) as (h' & E & I' & St).
    rewrite (bind_ok _ _ _ _ _ E). cbn [heap_of ret].
    set (h1 := push_seq (blank_seq c st en lab) h) in *.
    assert (T1 : all_timed h1).
    { intros x [Lx Hx]. apply live_push in Lx. destruct Lx as [Lx| ->].
      - unfold h1 in *. rewrite sob_push_old in * by auto. apply T. split; auto.
      - unfold h1. rewrite sob_push_new. destruct Ti as (t & -> & Ht). exists t. auto. }
    assert (I1 : tree K nowhere h1) by (apply tree_push; auto; apply I).
    split; [eapply core_timed; [apply links_core, St|exact T1]|].
    intros p. destruct (settles_view _ _ _ p St) as [_ ->].
    destruct (push_view (blank_seq c st en lab) h p) as (_ & Vp & _); auto. fold h1 in Vp. rewrite Vp.
    eapply sorted_ext; [|apply S]. intros x Hx.
    assert (Lx : live h x) by apply (t_down _ _ _ (i_tree _ _ _ I) p x (nowhere_not p) Hx).
    rewrite (core_start h1); [unfold h1; rewrite sob_push_old; auto|apply links_core, St|apply live_push; auto].
  - destruct A as (Us & Ux & Tw).
    destruct (decide (subset_class h (s_cls (sob h s)) = Some (s_cls (sob h x)))) as [Ec|Ec].
    + destruct (decide (s_super (sob h x) = Some s)) as [E|E].
      * rewrite (append_child (lx:=nowhere) K) by (auto; apply (t_up _ _ _ (i_tree _ _ _ I) x s E), nowhere_not). auto.
      * destruct (append_sorted K h s x I T S Us Ux Tw Ec E _ (or_introl eq_refl)) as (h' & -> & _ & _ & A & B). auto.
    + rewrite (append_rejected K) by auto. auto.
  - destruct A as (Us & Ux & Tw & [E|E]).
    2:{ destruct (super_same h x s E) as [-> | ->]; auto. }
    destruct (decide (subset_class h (s_cls (sob h s)) = Some (s_cls (sob h x)))) as [Ec|Ec].
    + destruct (append_sorted K h s x I T S Us Ux Tw Ec) with (call' := set_super_instance x s) as (h' & -> & _ & _ & A & B); auto. congruence.
    + rewrite (super_rejected K) by auto. auto.
  - destruct (setter_cases K h s l I (proj1 A) (proj1 (proj2 A))) as [->|(v & v' & E1 & E2 & Hc)]; [auto|].
    destruct (assign_effect K h s l I A) as (h' & -> & I' & _ & (A1 & A2 & A3 & A4 & A5) & B); [|auto|].
    { intros x Hx. destruct (T x) as (t & Ht & _); [apply A; auto|]. eauto. }
    split; [eapply core_timed; eauto|]. intros p. destruct (decide (p = s)) as [->|Hp]; [exact B|].
    eapply sorted_keep; [apply A5; auto|]. eapply sorted_ext; [|apply (S p)].
    intros y Hy. apply core_start; auto. apply (t_down _ _ _ (i_tree _ _ _ I) p y (nowhere_not p) Hy).
  - destruct A as (_ & _ & C). destruct (in_dec Nat.eq_dec x (s_subset (sob h s))) as [Hx|Hx].
    + destruct (removal K h s x I Hx (remove_from_subset_list s x)) as (h' & -> & _ & _ & _ & M); [simpl; auto|].
      split; [eapply core_timed; [apply M|auto]|eapply sorted_moved_out; eauto].
    + rewrite remove_from_absent by auto. auto.
  - destruct (s_super (sob h x)) as [p|] eqn:E.
    + pose proof (proj2 (t_up _ _ _ (i_tree _ _ _ I) x p E) (nowhere_not p)) as Hx.
      destruct (removal K h p x I Hx (remove_superset x)) as (h' & -> & _ & _ & _ & M); [simpl; auto|].
      split; [eapply core_timed; [apply M|auto]|eapply sorted_moved_out; eauto].
    + unfold remove_superset. rewrite E. auto.
  - destruct A as (_ & _ & C). destruct (in_dec Nat.eq_dec x (s_subset (sob h s))) as [Hx|Hx].
    + destruct (removal K h s x I Hx (seq_pop s x)) as (h' & -> & _ & _ & _ & M); [simpl; auto|].
      split; [eapply core_timed; [apply M|auto]|eapply sorted_moved_out; eauto].
    + destruct (inv_pop_absent K nowhere h s x I (nowhere_not s) C Hx) as (h' & -> & St & _).
      split; [eapply core_timed; [apply links_core, St|auto]|eapply sorted_settled; eauto].
  - destruct Ti.
  - destruct A as ((Lx & Bx) & Hl & _). cbn [mod_seq heap_of modify].
    assert (F : forall y, s_start (sob (upd_seq x (set_s_label lab) h) y) = s_start (sob h y)).
    { intros y. apply (sob_upd_field s_start). auto. }
    split.
    + intros y [Ly By]. apply live_upd in Ly. rewrite F. apply T. split; [auto|].
      destruct (decide (y = x)) as [->|Ny]; [auto|]. rewrite sob_upd_ne in By; auto.
    + intros p. rewrite (sob_upd_field s_subset) by auto. eapply sorted_ext; [|apply S]. auto.
Qed.
Lemma sorted_reach K h : reach K timed h -> all_timed h /\ all_sorted h.
Proof.
  induction 1 as [h E C|h o R [IH1 IH2] A Ti].
  - split.
    + intros x [L _]. rewrite E in L. simpl in L. lia.
    + intros p. rewrite (sob_empty h _ E). intros i j a b _ Ha. destruct i; discriminate.
  - eapply sorted_call; eauto. eapply inv_reach; eauto.
Qed.

(** ** C15 *)
Lemma c15_families : forall K h, reach K (fun _ => True) h -> families_ok h.
Proof. intros K h R. eapply inv_families, inv_reach; eauto. Qed.
Lemma c15_sorted : forall K h, reach K timed h -> forall p, sorted_starts h (s_subset (sob h p)).
Proof. intros K h R. apply (sorted_reach K h R). Qed.
Lemma c15_join : forall K h s x, reach K timed h ->
  user_obj h s -> user_obj h x -> no_twin h s x ->
  subset_class h (s_cls (sob h s)) = Some (s_cls (sob h x)) -> s_super (sob h x) <> Some s ->
  exists h', append_subset_list s x h = Ok tt h' /\ joined s x h h'.
Proof.
  intros K h s x R Us Ux Tw Hc Hs. destruct (sorted_reach K h R) as [T S].
  destruct (append_sorted K h s x (inv_reach _ _ _ R) T S Us Ux Tw Hc Hs _ (or_introl eq_refl)) as (h' & A & _ & B & _).
  eauto.
Qed.
Lemma c15_adopt : forall K h s x, reach K timed h ->
  user_obj h s -> user_obj h x -> no_twin h s x ->
  subset_class h (s_cls (sob h s)) = Some (s_cls (sob h x)) -> s_super (sob h x) = None ->
  exists h', set_super_instance x s h = Ok tt h' /\ joined s x h h'.
Proof.
  intros K h s x R Us Ux Tw Hc Hs. destruct (sorted_reach K h R) as [T S].
  destruct (append_sorted K h s x (inv_reach _ _ _ R) T S Us Ux Tw Hc) with (call' := set_super_instance x s)
    as (h' & A & _ & B & _); auto; [congruence|]. eauto.
Qed.
Lemma c15_wrong_class : forall K only h s x, reach K only h -> user_obj h s -> user_obj h x ->
  subset_class h (s_cls (sob h s)) <> Some (s_cls (sob h x)) ->
  (exists e, append_subset_list s x h = Raise e h) /\ (exists e, set_super_instance x s h = Raise e h).
Proof.
  intros K only h s x R Us Ux Hn. pose proof (inv_reach _ _ _ R) as I.
  split; [eapply append_rejects|eapply super_rejects]; eauto.
Qed.

(** ** C16 *)
Lemma c16_removal : forall K only h s x, reach K only h -> In x (s_subset (sob h s)) ->
  forall call', In call' [remove_from_subset_list s x; seq_pop s x; remove_superset x] ->
  exists h', call' h = Ok tt h' /\ left_parent s x h h' /\ chained h' (s_subset (sob h' s)).
Proof.
  intros K only h s x R Hx call' Hc.
  destruct (removal K h s x (inv_reach _ _ _ R) Hx call' Hc) as (h' & A & B & C & _). eauto.
Qed.

(** ** C17 *)
Lemma c17_assign : forall K only h s l, reach K only h -> allowed K h (Assign s l) -> known_starts h l ->
  (forall x, In x l -> subset_class h (s_cls (sob h s)) = Some (s_cls (sob h x))) ->
  exists h', subset_setter s l h = Ok tt h' /\ reassigned s l h h' /\
    sorted_starts h' (s_subset (sob h' s)) /\ chained h' (s_subset (sob h' s)).
Proof.
  intros K only h s l R A Kn Hc.
  destruct (assign_effect K h s l (inv_reach _ _ _ R) A Kn Hc) as (h' & B & I' & C & _ & D).
  exists h'. split; [auto|]. split; [auto|]. split; [auto|]. apply (i_links _ _ _ I'); apply nowhere_not.
Qed.

End WithEnv.
