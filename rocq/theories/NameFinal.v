(** * NameFinal: proofs of C59. *)
From Verif Require Import NameSpec WeaveFinal PopFinal OwnFinal AddFinal.
Open Scope Z_scope.

Section WithEnv.
Context `{Env}.

(** What a group's name evaluates to. *)
Definition name_of (h : heap) (g : gid) : option (option string) :=
  if str_truthy (g_name (gob h g)) then Some (g_name (gob h g))
  else match make_name g h with Ok m _ => Some m | Raise _ _ => None end.
(** Only names of groups differ, and these only by having been evaluated. *)
Definition names_only (h h' : heap) : Prop :=
  h_tier h' = h_tier h /\ h_grid h' = h_grid h /\
  (forall k, g_tiers (gob h' k) = g_tiers (gob h k) /\ g_within (gob h' k) = g_within (gob h k)) /\
  (forall k, g_name (gob h' k) = g_name (gob h k) \/ Some (g_name (gob h' k)) = name_of h k).

Lemma make_name_same h h' g m hm : h_tier h' = h_tier h -> h_grid h' = h_grid h ->
  g_tiers (gob h' g) = g_tiers (gob h g) -> g_within (gob h' g) = g_within (gob h g) ->
  make_name g h = Ok m hm -> make_name g h' = Ok m h'.
Proof.
  intros T G A B. unfold make_name. rewrite A, B. unfold tob, aob. rewrite T, G.
  destruct (map _ _) as [|n r]; [discriminate|]. match goal with |- context[if ?b then _ else _] => destruct b end; [intros E; injection E as <- _; reflexivity|].
  destruct (g_within (gob h g)) as [[ | | |]|]; try (intros E; injection E as <- _; reflexivity).
  match goal with |- context[index_of ?x ?y] => destruct (index_of x y) end; intros E; injection E as <- _; reflexivity.
Qed.
Lemma make_name_raise h h' g e hm : h_tier h' = h_tier h -> h_grid h' = h_grid h ->
  g_tiers (gob h' g) = g_tiers (gob h g) -> g_within (gob h' g) = g_within (gob h g) ->
  make_name g h = Raise e hm -> make_name g h' = Raise TypeError h'.
Proof.
  intros T G A B. unfold make_name. rewrite A, B. unfold tob, aob. rewrite T, G.
  destruct (map _ _) as [|n r]; [reflexivity|]. match goal with |- context[if ?b then _ else _] => destruct b end; [discriminate|].
  destruct (g_within (gob h g)) as [[ | | |]|]; try discriminate. match goal with |- context[index_of ?x ?y] => destruct (index_of x y) end; discriminate.
Qed.
Lemma name_of_same h h' g : names_only h h' -> name_of h' g = name_of h g.
Proof.
  intros (T & G & F & N). destruct (F g) as [A B].
  assert (Mk : match make_name g h' with Ok m _ => Some m | Raise _ _ => None end = match make_name g h with Ok m _ => Some m | Raise _ _ => None end).
  { destruct (make_name g h) as [m hm|e hm] eqn:E; [rewrite (make_name_same h h' g m hm T G A B E)|rewrite (make_name_raise h h' g e hm T G A B E)]; reflexivity. }
  destruct (N g) as [Q|Q].
  - unfold name_of. rewrite Q, Mk. reflexivity.
  - unfold name_of at 1. destruct (str_truthy (g_name (gob h' g))) eqn:S1; [exact Q|]. rewrite Mk.
    unfold name_of in Q |- *. destruct (str_truthy (g_name (gob h g))) eqn:S2; [|reflexivity].
    injection Q as Q. rewrite Q in S1. congruence.
Qed.
Lemma names_only_trans h1 h2 h3 : names_only h1 h2 -> names_only h2 h3 -> names_only h1 h3.
Proof.
  intros P Q. pose proof (fun g => name_of_same h1 h2 g P) as S.
  destruct P as (T & G & F & N), Q as (T' & G' & F' & N'). split; [congruence|]. split; [congruence|]. split.
  - intros k. destruct (F k), (F' k). split; congruence.
  - intros k. destruct (N' k) as [E|E]; [rewrite E; apply N|right; rewrite E; apply S].
Qed.
Lemma names_only_refl h : names_only h h.
Proof. repeat split; auto. Qed.

Lemma grp_name_val g h nm h1 : grp_name g h = Ok nm h1 -> name_of h g = Some nm /\ g_name (gob h1 g) = nm /\ names_only h h1.
Proof.
  intros E.
  assert (Lg : str_truthy (g_name (gob h g)) = false -> forall m hm, make_name g h = Ok m hm -> glive h g).
  { intros _ m hm Em. unfold glive. destruct (decide (g < List.length (h_grp h))%nat) as [L|L]; [exact L|]. exfalso.
    assert (Q : g_tiers (gob h g) = []). { unfold gob. rewrite lookup_ge_None_2 by lia. reflexivity. }
    unfold make_name in Em. rewrite Q in Em. discriminate. }
  unfold grp_name in E. rewrite bind_get_grp in E. unfold name_of. destruct (str_truthy (g_name (gob h g))) eqn:St.
  - injection E as <- <-. split; [reflexivity|]. split; [reflexivity|apply names_only_refl].
  - destruct (make_name g h) as [m hm|e hm] eqn:Mk; [|rewrite (bind_raise _ _ _ _ _ Mk) in E; discriminate].
    assert (hm = h) as ->.
    { unfold make_name in Mk. destruct (map _ _); [discriminate|]. destruct (1 <? _)%nat; [congruence|].
      destruct (g_within (gob h g)) as [[ | | |]|]; try congruence. match type of Mk with context[index_of ?x ?y] => destruct (index_of x y) end; congruence. }
    rewrite (bind_ok _ _ _ _ _ Mk) in E. injection E as <- <-. specialize (Lg eq_refl m h eq_refl).
    split; [reflexivity|]. split; [rewrite gob_upd_eq by exact Lg; reflexivity|].
    split; [reflexivity|]. split; [reflexivity|]. split.
    + intros k. destruct (decide (k = g)) as [-> |Nk]; [rewrite gob_upd_eq by exact Lg|rewrite gob_upd_ne by auto]; split; reflexivity.
    + intros k. destruct (decide (k = g)) as [-> |Nk]; [right|left; rewrite gob_upd_ne by auto; reflexivity].
      rewrite gob_upd_eq by exact Lg. unfold name_of. rewrite St, Mk. reflexivity.
Qed.
Lemma names_eval : forall gs h nms h1, mapM grp_name gs h = Ok nms h1 -> names_only h h1 /\ nms = map (fun g => g_name (gob h1 g)) gs.
Proof.
  induction gs as [|g gs IH]; intros h nms h1 E; cbn [mapM] in E.
  - injection E as <- <-. split; [apply names_only_refl|reflexivity].
  - destruct (ok_bind _ _ _ _ _ E) as (nm & h2 & E1 & E2). destruct (ok_bind _ _ _ _ _ E2) as (r & h3 & E3 & E4).
    injection E4 as <- <-. destruct (grp_name_val _ _ _ _ E1) as (V & N & O1). destruct (IH _ _ _ E3) as (O2 & ->).
    split; [eapply names_only_trans; eauto|]. cbn [map]. f_equal.
    destruct O2 as (_ & _ & _ & O2). destruct (O2 g) as [Q|Q]; [congruence|].
    rewrite (name_of_same _ _ _ O1), V in Q. congruence.
Qed.

Lemma repeated_spec {A} `{EqDecision A} (l : list A) : repeated l = false <-> NoDup l.
Proof.
  induction l as [|x l IH]; cbn [repeated].
  - split; [intros _; constructor|reflexivity].
  - rewrite orb_false_iff, bool_decide_eq_false, IH, NoDup_cons. reflexivity.
Qed.
Lemma attr_set a k s t g d d' : set_attr a (Some s) g d = DOk tt d' -> d_heap d' = d_heap d /\
  by_name d' k t = if (k =? a)%nat && String.eqb s t then Some g else by_name d k t.
Proof.
  intros E. injection E as <-. split; [reflexivity|]. unfold by_name. cbn [d_attr].
  destruct (k =? a)%nat eqn:K; [|reflexivity]. apply Nat.eqb_eq in K. subst k. cbn [List.find fst andb].
  destruct (String.eqb s t); reflexivity.
Qed.
Lemma set_attrs_spec a : forall l d d', NoDup (map fst l) -> set_attrs a l d = DOk tt d' -> d_heap d' = d_heap d /\
  (forall nm g, In (nm, g) l -> exists s, nm = Some s /\ by_name d' a s = Some g) /\
  (forall k, k <> a -> d_attr d' k = d_attr d k) /\
  (forall s, (forall g, ~ In (Some s, g) l) -> by_name d' a s = by_name d a s).
Proof.
  induction l as [|[nm g] l IH]; intros d d' ND E.
  - injection E as <-. repeat split; auto. intros ? ? [].
  - cbn [map fst] in ND. apply NoDup_cons in ND. destruct ND as [N1 ND].
    cbn [set_attrs] in E. unfold dbind in E. destruct nm as [s|]; [|discriminate].
    destruct (set_attr a (Some s) g d) as [u d1|] eqn:E1; [|discriminate]. destruct u.
    destruct (IH _ _ ND E) as (Hh & Hs & Hk & Ho). pose proof (fun k t => attr_set a k s t g d d1 E1) as At.
    split; [rewrite Hh; apply (At a s)|]. split; [|split].
    + intros nm g1 [Q|Q]; [|apply Hs, Q]. injection Q as <- <-. exists s. split; [reflexivity|].
      rewrite Ho; [destruct (At a s) as [_ ->]; rewrite Nat.eqb_refl, String.eqb_refl; reflexivity|].
      intros g1 Q. apply N1. apply elem_of_list_In, (in_map fst _ _ Q).
    + intros k Nk. rewrite Hk by exact Nk. injection E1 as <-. cbn [d_attr]. destruct (Nat.eqb_spec k a); congruence.
    + intros t Nt. rewrite Ho by (intros g1 Q; apply (Nt g1); right; exact Q). destruct (At a t) as [_ ->].
      destruct (String.eqb_spec s t) as [-> |]; [exfalso; apply (Nt g); left; reflexivity|rewrite andb_false_r; reflexivity].
Qed.
Lemma In_combine_map {A B} (f : A -> B) : forall l b a, In (b, a) (combine (map f l) l) <-> In a l /\ b = f a.
Proof.
  induction l as [|x l IH]; intros b a; cbn; [tauto|]. rewrite IH. split.
  - intros [Q|[Q1 Q2]]; [injection Q as <- <-|]; auto.
  - intros [[-> |Q] ->]; auto.
Qed.
Lemma fst_combine_map {A B} (f : A -> B) : forall l, map fst (combine (map f l) l) = map f l.
Proof. induction l as [|x l IH]; cbn; [reflexivity|]. f_equal. exact IH. Qed.

Lemma name_groups_spec a d d' : name_groups a d = DOk tt d' ->
  a_groups (aob (d_heap d') a) = a_groups (aob (d_heap d) a) /\
  (names_differ (d_heap d') a -> reached_by_name d' a /\ other_names_kept d d' a) /\ (~ names_differ (d_heap d') a -> d_attr d' = d_attr d).
Proof.
  unfold name_groups, dbind, plainly, gets. cbn [d_heap d_attr]. set (gs := a_groups (aob (d_heap d) a)).
  destruct (mapM grp_name gs (d_heap d)) as [nms h1|] eqn:E; [|discriminate].
  destruct (names_eval _ _ _ _ E) as ((_ & G & _) & ->).
  assert (Gs : a_groups (aob h1 a) = gs) by (unfold aob; rewrite G; reflexivity).
  destruct (repeated _) eqn:R; intros Q.
  - injection Q as <-. cbn [d_heap d_attr]. split; [exact Gs|]. split; [|reflexivity].
    intros ND. exfalso. unfold names_differ in ND. rewrite Gs in ND. apply repeated_spec in ND. congruence.
  - apply repeated_spec in R. pose proof R as R'. rewrite <- fst_combine_map in R'.
    destruct (set_attrs_spec a _ _ _ R' Q) as (Hh & Hs & Hk & Ho). cbn [d_heap d_attr] in *.
    unfold names_differ, reached_by_name, other_names_kept. rewrite Hh, Gs. split; [reflexivity|]. split; [|intros ND; exfalso; apply ND, R].
    intros _. split; [|split].
    + intros g Hg. destruct (Hs (g_name (gob h1 g)) g) as (s & E1 & E2); [apply In_combine_map; auto|]. eauto.
    + exact Hk.
    + intros s Ns. rewrite Ho; [reflexivity|]. intros g Q1. apply In_combine_map in Q1. destruct Q1 as [Q1 Q2]. apply (Ns g Q1). congruence.
Qed.

Lemma c59_append : forall n a g d d', grid_append_named n a g d = DOk tt d' ->
  (names_differ (d_heap d') a -> reached_by_name d' a /\ other_names_kept d d' a) /\
  (~ names_differ (d_heap d') a -> d_attr d' = d_attr d).
Proof.
  intros n a g d d' E. unfold grid_append_named, dbind, plainly in E.
  destruct (grid_append n a g (d_heap d)) as [[] h1|]; [|discriminate].
  destruct (name_groups_spec _ _ _ E) as (_ & A & B). split; [|exact B].
  intros ND. exact (A ND).
Qed.
Lemma c59_read : forall n tg ecs d a d', tg <> [] -> grid_of_textgrid_named n tg ecs d = DOk a d' ->
  (names_differ (d_heap d') a -> reached_by_name d' a /\ other_names_kept d d' a) /\
  (~ names_differ (d_heap d') a -> d_attr d' = d_attr d).
Proof.
  intros n tg ecs d a d' Ne E. unfold grid_of_textgrid_named, dbind, plainly in E.
  destruct (new_grid_textgrid n tg ecs (d_heap d)) as [a1 h1|]; [|discriminate]. destruct tg; [congruence|].
  destruct (name_groups a1 _) as [[] d1|] eqn:E1; [|discriminate]. injection E as <- <-.
  destruct (name_groups_spec _ _ _ E1) as (_ & A & B). split; [exact A|exact B].
Qed.
Lemma c59_pop : forall n d a t cs1 c cs2 b nm gs g s, let h := d_heap d in class_table h -> class_chain h t (cs1 ++ c :: cs2) b ->
  unrelated h (t :: (cs1 ++ c :: cs2) ++ [b]) -> (cs1 ++ cs2)%list <> [] ->
  (forall x, In x (cs1 ++ c :: cs2) -> plain_name (class_name h x)) ->
  str_in "Bottom" (class_name h t) = false -> str_in "Top" (class_name h b) = false ->
  class_name h c = nm -> (forall x, In x (cs1 ++ cs2) -> class_name h x <> nm) ->
  (a < List.length (h_grid h))%nat -> a_groups (aob h a) = gs -> apart_groups h gs ->
  (forall g, In g gs -> (g < List.length (h_grp h))%nat /\
     (full_group h (cs1 ++ c :: cs2) g \/ forall k, In k (g_tiers (gob h g)) -> class_name h (t_ec (tob h k)) <> nm)) ->
  In g gs -> full_group h (cs1 ++ c :: cs2) g -> g_name (gob h g) = Some s -> s <> ""%string -> by_name d a s = Some g ->
  exists d', pop_class_named n a nm d = DOk tt d' /\ leads_astray d' a s g.
Proof.
  intros n d a t cs1 c cs2 b nm gs g s h T C UN NE PN Nt Nb Nm No La Ga Ap Rd Hg Fg Ns Es At.
  destruct (c51_pop n h a t cs1 c cs2 b nm gs T C UN NE PN Nt Nb Nm No La Ga Ap Rd (ex_intro _ g (conj Hg Fg)))
    as (gs' & h' & E & G' & ND & F2 & _).
  exists (Desk h' (d_attr d)). unfold pop_class_named, plainly. fold h. rewrite E. split; [reflexivity|].
  split; [exact At|]. cbn [d_heap]. rewrite G'.
  assert (Cg : In c (map (fun k => t_ec (tob h k)) (g_tiers (gob h g)))) by (destruct Fg as (-> & _); apply in_app_iff; simpl; auto).
  split.
  - intros I. apply elem_of_list_In in I. destruct (proj1 (elem_of_list_lookup _ _) I) as (i & Hi).
    destruct (Forall2_lookup_r _ _ _ _ _ F2 Hi) as (g0 & Hg0 & [(_ & L & _)|(Nc & -> & _)]).
    + pose proof (proj1 (Rd g Hg)). lia.
    + apply in_map_iff in Cg. destruct Cg as (k & Ck & Hk). apply (Nc k Hk). congruence.
  - apply elem_of_list_In in Hg. destruct (proj1 (elem_of_list_lookup _ _) Hg) as (i & Hi).
    destruct (Forall2_lookup_l _ _ _ _ _ F2 Hi) as (g' & Hg' & [(_ & _ & _ & _ & Nn & _)|(Nc & _)]).
    + exists g'. split; [apply elem_of_list_In; eapply elem_of_list_lookup_2; eauto|auto].
    + exfalso. apply in_map_iff in Cg. destruct Cg as (k & Ck & Hk). apply (Nc k Hk). congruence.
Qed.
Lemma c59_weave : forall n d a t cs1 cs2 b sp cp nm nm2 (above from_below labels : bool) gs g s, let h := d_heap d in
  class_table h -> class_chain h t (cs1 ++ cs2) b -> unrelated h (t :: (cs1 ++ cs2) ++ [b]) -> ~ In cInterval (cs1 ++ cs2) ->
  (forall x, In x (cs1 ++ cs2) -> plain_name (class_name h x)) ->
  str_in "Bottom" (class_name h t) = false -> str_in "Top" (class_name h b) = false ->
  nm <> ""%string -> plain_name nm -> nm2 <> ""%string -> class_name h sp = nm2 ->
  (if above then hd_error cs2 else hd_error (rev cs1)) = Some sp ->
  (if from_below then hd_error cs2 else hd_error (rev cs1)) = Some cp ->
  (a < List.length (h_grid h))%nat -> a_groups (aob h a) = gs -> apart_groups h gs ->
  (forall g, In g gs -> (g < List.length (h_grp h))%nat /\ exist_tiers h g /\
     ((full_group h (cs1 ++ cs2) g /\ forall k, In k (g_tiers (gob h g)) -> t_ec (tob h k) = cp -> t_seq (tob h k) <> []) \/
      ~ In sp (map (fun k => t_ec (tob h k)) (g_tiers (gob h g))))) ->
  (forall g k, In g gs -> In k (g_tiers (gob h g)) ->
     (t_ec (tob h k) < List.length (h_cls h))%nat /\ (class_name h (t_ec (tob h k)) = nm2 -> t_ec (tob h k) = sp)) ->
  In g gs -> full_group h (cs1 ++ cs2) g -> g_name (gob h g) = Some s -> s <> ""%string -> by_name d a s = Some g ->
  exists d', interleave_class_named n a nm above nm2 from_below labels d = DOk tt d' /\ leads_astray d' a s g.
Proof.
  intros n d a t cs1 cs2 b sp cp nm nm2 above from_below labels gs g s h T C UN NI PN Nt Nb N1 N2 N3 Ns2 Hsp Hcp La Ga Ap Rd Cl Hg Fg Ns Es At.
  destruct (c52_weave n h a t cs1 cs2 b sp cp nm nm2 above from_below labels gs T C UN NI PN Nt Nb N1 N2 N3 Ns2 Hsp Hcp La Ga Ap Rd Cl (ex_intro _ g (conj Hg Fg)))
    as (gs' & c & h' & E & _ & _ & _ & _ & _ & G' & ND & F2 & _).
  exists (Desk h' (d_attr d)). unfold interleave_class_named, plainly. fold h. rewrite E. split; [reflexivity|].
  split; [exact At|]. cbn [d_heap]. rewrite G'.
  assert (Cg : In sp (map (fun k => t_ec (tob h k)) (g_tiers (gob h g)))).
  { destruct Fg as (-> & _). apply in_app_iff. destruct above; [right; destruct cs2; [discriminate|injection Hsp as ->; left; reflexivity]|left].
    apply in_rev. destruct (rev cs1); [discriminate|injection Hsp as ->; left; reflexivity]. }
  split.
  - intros I. apply elem_of_list_In in I. destruct (proj1 (elem_of_list_lookup _ _) I) as (i & Hi).
    destruct (Forall2_lookup_r _ _ _ _ _ F2 Hi) as (g0 & Hg0 & [(_ & L & _)|(Nc & -> & _)]).
    + pose proof (proj1 (Rd g Hg)). lia.
    + exact (Nc Cg).
  - apply elem_of_list_In in Hg. destruct (proj1 (elem_of_list_lookup _ _) Hg) as (i & Hi).
    destruct (Forall2_lookup_l _ _ _ _ _ F2 Hi) as (g' & Hg' & [(_ & _ & _ & _ & Nn)|(Nc & _)]).
    + exists g'. split; [apply elem_of_list_In; eapply elem_of_list_lookup_2; eauto|auto].
    + exfalso. exact (Nc Cg).
Qed.
End WithEnv.
