(** * LeftFinal: proofs about sums with a subset_list. *)
From Verif Require Import HeapProofs ListProofs ListFinal LeftSpec.
Open Scope Z_scope.

Lemma end_at_of h x : end_at h x = end_of h x.
Proof. reflexivity. Qed.
Lemma all_class h c l : all_of h c l -> same_class h c l.
Proof. intros A x Hx. apply (A x Hx). Qed.
Lemma all_starts h c l : all_of h c l -> known_starts h l.
Proof. intros A x Hx. destruct (A x Hx) as (_ & B & _). destruct (s_start (sob h x)); [eauto|congruence]. Qed.
Lemma all_ends h c l : all_of h c l -> known_ends h l.
Proof. intros A x Hx. destruct (A x Hx) as (_ & _ & B). rewrite end_at_of in B. destruct (end_of h x); [eauto|congruence]. Qed.

Section WithEnv.
Context `{Env}.
Lemma c82_free : forall h x c l, s_subec (sob h x) = Some c -> all_of h c (s_subset (sob h x)) -> all_of h c l ->
  exists v, subset_plus x l h = Ok v h.
Proof.
  intros h x c l E A B. unfold subset_plus. mstep.
  pose proof (sl_add_same h (OSeq x) (subset_slv (sob h x)) l c (or_introl E) (all_class _ _ _ A) (all_class _ _ _ B)) as G. cbv zeta in G.
  assert (AB : all_of h c (s_subset (sob h x) ++ l)) by (intros y Hy; apply in_app_iff in Hy as [Hy|Hy]; auto).
  specialize (G (all_starts _ _ _ AB) (all_ends _ _ _ AB) (issubclass_refl h c)).
  destruct (List.filter _ l); [eauto|]. destruct G as (l' & G & _). eauto.
Qed.
Definition noted (x : oid) (c : cid) (h : heap) : heap := upd_seq x (set_s_subec (Some c)) h.
Lemma noted_only h x c : live h x -> only_noted x c h (noted x c h).
Proof.
  intros L. unfold only_noted, noted. split; [unfold same_rest; auto|]. split; [simpl; apply alter_length|].
  split; [intros y Hy; apply sob_upd_ne, Hy|]. rewrite sob_upd_eq by exact L. repeat (split; [reflexivity|]). reflexivity.
Qed.
Lemma noted_all h x c d l : live h x -> all_of h d l -> all_of (noted x c h) d l.
Proof.
  intros L A y Hy. destruct (A y Hy) as (B & C & D). unfold timed_both, end_at, is_point, noted in *. destruct (Nat.eq_dec y x) as [->|N]; [rewrite sob_upd_eq by exact L|rewrite sob_upd_ne by exact N]; (split; [exact B|]; split; [exact C|exact D]).
Qed.
Lemma noted_run h x c y l : live h x -> s_subset (sob h x) = [] -> s_subec (sob h x) = None -> all_of h c (y :: l) ->
  subset_plus x (y :: l) h = sl_add (OSeq x) (Slv [] (Some c)) (y :: l) (noted x c h).
Proof.
  intros L E0 E1 A. pose proof (noted_all h x c c _ L A) as A'. unfold subset_plus. mstep. unfold subset_slv. rewrite E0, E1. unfold sl_add.
  cbv beta iota zeta delta [bind gets ret set_owner_ec mod_seq modify sv_vals sv_ec]. fold (noted x c h).
  assert (F : forall g, List.filter (fun z => negb (sl_contains g [] z)) (y :: l) = y :: l).
  { intros g. generalize (y :: l). intros k. induction k as [|z k IH]; [reflexivity|]. cbn [List.filter]. rewrite IH. reflexivity. }
  rewrite !F. rewrite (all_same_true h c _ (all_class _ _ _ A)), (all_same_true (noted x c h) c _ (all_class _ _ _ A')). cbn [negb].
  rewrite (proj1 (A y (or_introl eq_refl))), (proj1 (A' y (or_introl eq_refl))), issubclass_refl. reflexivity.
Qed.
Lemma noted_sum h x c l : live h x -> s_subset (sob h x) = [] -> s_subec (sob h x) = None -> l <> [] -> all_of h c l ->
  exists l', subset_plus x l h = Ok (Slv l' (Some c)) (noted x c h) /\ Permutation l' l /\ sorted_starts (noted x c h) l'.
Proof.
  intros L E0 E1 N A. destruct l as [|y l]; [contradiction|]. rewrite (noted_run h x c y l L E0 E1 A).
  pose proof (noted_all h x c c _ L A) as A'.
  pose proof (sl_add_same (noted x c h) (OSeq x) (Slv [] (Some c)) (y :: l) c (or_introl eq_refl) ltac:(intros z []) (all_class _ _ _ A') (all_starts _ _ _ A') (all_ends _ _ _ A') (issubclass_refl _ c)) as G.
  cbv zeta in G. cbn [sv_vals app] in G.
  assert (F : List.filter (fun z => negb (sl_contains (noted x c h) [] z)) (y :: l) = y :: l).
  { generalize (y :: l). intros k. induction k as [|z k IH]; [reflexivity|]. cbn [List.filter]. rewrite IH. reflexivity. }
  rewrite F in G. destruct G as (l' & G1 & G2 & G3 & _). eauto.
Qed.
Lemma c82_noted : forall h x c l, live h x -> s_subset (sob h x) = [] -> s_subec (sob h x) = None -> l <> [] -> all_of h c l ->
  exists l' h', subset_plus x l h = Ok (Slv l' (Some c)) h' /\ Permutation l' l /\ sorted_starts h' l' /\ only_noted x c h h'.
Proof.
  intros h x c l L E0 E1 N A. destruct (noted_sum h x c l L E0 E1 N A) as (l' & G1 & G2 & G3). exists l', (noted x c h).
  split; [exact G1|]. split; [exact G2|]. split; [exact G3|apply noted_only, L].
Qed.
Lemma unrelated_no h c d : ~ related h d c -> issubclass h d c = false /\ issubclass h c d = false.
Proof. intros N. unfold related in N. destruct (issubclass h d c), (issubclass h c d); auto; exfalso; auto. Qed.
Lemma c82_order : forall h x c d l m, live h x -> s_subset (sob h x) = [] -> s_subec (sob h x) = None ->
  l <> [] -> m <> [] -> all_of h c l -> all_of h d m -> ~ related h d c ->
  exists v w h' h'', subset_plus x l h = Ok v h' /\ subset_plus x m h = Ok w h'' /\
    subset_plus x m h' = Raise ValueError h' /\ subset_plus x l h'' = Raise ValueError h''.
Proof.
  intros h x c d l m L E0 E1 Nl Nm Al Am R. destruct (noted_sum h x c l L E0 E1 Nl Al) as (v & V & _), (noted_sum h x d m L E0 E1 Nm Am) as (w & W & _).
  exists (Slv v (Some c)), (Slv w (Some d)), (noted x c h), (noted x d h). split; [exact V|]. split; [exact W|].
  assert (G : forall c d m, m <> [] -> all_of h d m -> ~ related h d c -> subset_plus x m (noted x c h) = Raise ValueError (noted x c h)).
  { clear -L E0. intros c d m Nm Am R. destruct (unrelated_no h c d R) as [R1 R2]. unfold subset_plus. mstep. unfold subset_slv, noted. rewrite sob_upd_eq by exact L. cbn [s_subset s_subec set_s_subec]. rewrite E0.
    destruct m as [|y m]; [contradiction|]. apply (sl_add_unrelated _ _ _ _ d c); auto; [exact (all_class _ _ _ (noted_all h x c d _ L Am))|]. exists y. split; [left; reflexivity|reflexivity]. }
  split; [apply (G c d m Nm Am R)|apply (G d c l Nl Al)]. unfold related in *. tauto.
Qed.
Lemma c82_append : forall h x c d l y, live h x -> s_subset (sob h x) = [] -> s_subec (sob h x) = None ->
  l <> [] -> all_of h c l -> subset_class h (s_cls (sob h x)) = Some d -> s_cls (sob h y) = d -> s_super (sob h y) = None -> ~ related h d c ->
  exists v h', subset_plus x l h = Ok v h' /\ append_subset_list x y h' = Raise ValueError h'.
Proof.
  intros h x c d l y L E0 E1 Nl Al Sc Cy Py R. destruct (noted_sum h x c l L E0 E1 Nl Al) as (v & V & _). exists (Slv v (Some c)), (noted x c h). split; [exact V|].
  destruct (unrelated_no h c d R) as [R1 R2].
  assert (Fx : s_subset (sob (noted x c h) x) = [] /\ s_subec (sob (noted x c h) x) = Some c /\ s_cls (sob (noted x c h) x) = s_cls (sob h x)) by (unfold noted; rewrite sob_upd_eq by exact L; auto).
  assert (Fy : s_cls (sob (noted x c h) y) = d /\ s_super (sob (noted x c h) y) = None) by (unfold noted; destruct (Nat.eq_dec y x) as [->|N]; [rewrite sob_upd_eq by exact L|rewrite sob_upd_ne by exact N]; auto).
  destruct Fx as (F1 & F2 & F3), Fy as (F4 & F5). unfold append_subset_list.
  generalize 5%nat as n. intros n. cbn [adopt]. mstep. rewrite F3. change (subset_class (noted x c h) (s_cls (sob h x))) with (subset_class h (s_cls (sob h x))). rewrite Sc.
  unfold isinstance_m. mstep. mstep. rewrite F1, F4, issubclass_refl. cbn [sl_contains existsb]. mstep. rewrite F5. cbn [seq_truthy when]. mstep. mstep.
  assert (G : sl_append (subset_slv (sob (noted x c h) x)) y false (noted x c h) = Raise ValueError (noted x c h)).
  { unfold sl_append, subset_slv. rewrite F1, F2. mstep. cbn [sv_vals sv_ec sl_contains existsb]. mstep. mstep. rewrite F4.
    change (issubclass (noted x c h)) with (issubclass h). rewrite R1, R2. reflexivity. }
  rewrite (bind_raise _ _ _ _ _ G). reflexivity.
Qed.
End WithEnv.
