(** * OutputFinal: paths, exported names, class lookup, grouping of tiers,
    tables. *)
From Verif Require Import GridOps Spec HeapProofs LinkProofs ClassProofs ClassFinal QueryFinal.
Open Scope Z_scope.

(** ** Decimal numerals *)
Definition chars (s : string) : list ascii := list_ascii_of_string s.
Lemma chars_app a b : chars (a ++ b)%string = (chars a ++ chars b)%list.
Proof.
  induction a as [|x a IH]; [reflexivity|].
  change (x :: chars (a ++ b)%string = (x :: chars a) ++ chars b)%list. rewrite IH. reflexivity.
Qed.
Lemma chars_inj a b : chars a = chars b -> a = b.
Proof.
  intros E. rewrite <- (string_of_list_ascii_of_string a), <- (string_of_list_ascii_of_string b).
  unfold chars in E. rewrite E. reflexivity.
Qed.
Fixpoint value (k : nat) (s : list ascii) : nat :=
  match s with [] => k | a :: s' => value (k * 10 + (nat_of_ascii a - 48)) s' end.
Lemma digit_value d : (d < 10)%nat -> (nat_of_ascii (digit d) - 48 = d)%nat.
Proof. intros L. unfold digit. rewrite nat_ascii_embedding; lia. Qed.
Lemma value_aux f : forall n acc, (n < f)%nat -> value 0 (chars (nat_str_aux f n acc)) = value n (chars acc).
Proof.
  induction f as [|f IH]; intros n acc L; [lia|].
  cbn [nat_str_aux]. pose proof (Nat.mod_upper_bound n 10 ltac:(lia)) as U.
  destruct (Nat.ltb_spec n 10).
  - change (value (0 * 10 + (nat_of_ascii (digit (n mod 10)) - 48)) (chars acc) = value n (chars acc)).
    rewrite digit_value by lia. rewrite Nat.mod_small by lia. reflexivity.
  - rewrite IH.
    + change (value (n / 10 * 10 + (nat_of_ascii (digit (n mod 10)) - 48)) (chars acc) = value n (chars acc)).
      rewrite digit_value by lia. f_equal. pose proof (Nat.div_mod n 10 ltac:(lia)). lia.
    + pose proof (Nat.div_lt n 10 ltac:(lia) ltac:(lia)). lia.
Qed.
Lemma nat_str_inj a b : nat_str a = nat_str b -> a = b.
Proof.
  intros E. pose proof (value_aux (S a) a "" ltac:(lia)) as A. pose proof (value_aux (S b) b "" ltac:(lia)) as B.
  unfold nat_str in E. rewrite E in A. rewrite A in B. exact B.
Qed.
Lemma nat_str_digits n a : In a (chars (nat_str n)) -> (48 <= nat_of_ascii a <= 57)%nat.
Proof.
  assert (G : forall f n acc, (forall a, In a (chars acc) -> (48 <= nat_of_ascii a <= 57)%nat) ->
            forall a, In a (chars (nat_str_aux f n acc)) -> (48 <= nat_of_ascii a <= 57)%nat).
  { induction f as [|f IH]; intros k acc A; [exact A|]. cbn [nat_str_aux].
    assert (D : forall a, In a (chars (String (digit (Nat.modulo k 10)) acc)) -> (48 <= nat_of_ascii a <= 57)%nat).
    { intros x [<-|Hx]; [|apply A, Hx]. unfold digit. pose proof (Nat.mod_upper_bound k 10 ltac:(lia)).
      rewrite nat_ascii_embedding; lia. }
    destruct (Nat.ltb k 10); [exact D|apply IH; exact D]. }
  apply G. intros x [].
Qed.
Lemma no_dash n : ~ In "-"%char (chars (nat_str n)).
Proof. intros I. apply nat_str_digits in I. vm_compute in I. lia. Qed.
Lemma no_under n : ~ In "_"%char (chars (nat_str n)).
Proof. intros I. apply nat_str_digits in I. vm_compute in I. lia. Qed.

Lemma split_first {A} (d : A) : forall a a' b b', ~ In d a -> ~ In d a' ->
  (a ++ d :: b)%list = (a' ++ d :: b')%list -> a = a' /\ b = b'.
Proof.
  induction a as [|x a IH]; intros [|x' a'] b b' Na Na' E; cbn in E.
  - injection E as ->. auto.
  - injection E as <- _. destruct Na'. left; reflexivity.
  - injection E as -> _. destruct Na. left; reflexivity.
  - injection E as <- E. destruct (IH a' b b') as [-> ->]; auto; intros I; [apply Na|apply Na']; right; exact I.
Qed.
Lemma split_last {A} (d : A) a a' b b' : ~ In d b -> ~ In d b' ->
  (a ++ d :: b)%list = (a' ++ d :: b')%list -> a = a' /\ b = b'.
Proof.
  intros Nb Nb' E. apply (f_equal (@rev A)) in E. rewrite !rev_app_distr in E. cbn in E. rewrite <- !app_assoc in E. cbn in E.
  apply split_first in E; [|rewrite <- in_rev; assumption|rewrite <- in_rev; assumption].
  destruct E as [E1 E2]. split; [rewrite <- (rev_involutive a), <- (rev_involutive a'), E2|
    rewrite <- (rev_involutive b), <- (rev_involutive b'), E1]; reflexivity.
Qed.

(** ** Paths *)
Lemma join_cons x y l : join_dash (x :: y :: l) = (x ++ "-" ++ join_dash (y :: l))%string.
Proof. reflexivity. Qed.
Lemma join_inj : forall p q, join_dash (map nat_str p) = join_dash (map nat_str q) -> p = q.
Proof.
  assert (ne : forall n, nat_str n <> ""%string).
  { intros n. unfold nat_str. assert (G : forall f k acc, acc <> ""%string -> nat_str_aux f k acc <> ""%string).
    { induction f as [|f IH]; intros k acc A; [exact A|]. cbn [nat_str_aux]. destruct (Nat.ltb k 10); [discriminate|].
      apply IH. discriminate. }
    cbn [nat_str_aux]. destruct (Nat.ltb n 10); [discriminate|]. apply G. discriminate. }
  assert (nj : forall i p, join_dash (map nat_str (i :: p)) <> ""%string).
  { intros i [|j p]; cbn [map].
    - apply ne.
    - rewrite join_cons. intros E. apply (f_equal chars) in E. rewrite chars_app in E.
      destruct (chars (nat_str i)) eqn:C; [|discriminate]. apply (ne i). apply chars_inj. exact C. }
  induction p as [|i p IH]; intros [|j q] E.
  - reflexivity.
  - symmetry in E. destruct (nj j q E).
  - destruct (nj i p E).
  - destruct p as [|i' p], q as [|j' q]; cbn [map] in E; rewrite ?join_cons in E.
    + cbn [join_dash] in E. apply nat_str_inj in E. subst. reflexivity.
    + exfalso. apply (f_equal chars) in E. rewrite !chars_app in E. apply (no_dash i). cbn [join_dash] in E. rewrite E.
      apply in_or_app. right. left. reflexivity.
    + exfalso. apply (f_equal chars) in E. rewrite !chars_app in E. apply (no_dash j). cbn [join_dash] in E. rewrite <- E.
      apply in_or_app. right. left. reflexivity.
    + apply (f_equal chars) in E. rewrite !chars_app in E.
      change (chars (nat_str i) ++ "-"%char :: chars (join_dash (map nat_str (i' :: p))) =
              chars (nat_str j) ++ "-"%char :: chars (join_dash (map nat_str (j' :: q))))%list in E.
      apply split_first in E; [|apply no_dash|apply no_dash]. destruct E as [E1 E2].
      apply chars_inj in E1, E2. apply nat_str_inj in E1. subst j. f_equal. apply IH, E2.
Qed.

Lemma contents_of h w : contents h w =
  option_map (map (match w with WSeq _ | WTier _ => WSeq | WGroup _ => WTier | WGrid _ => WGroup end)) (contains_of h w).
Proof.
  destruct w as [o|t|g|a]; simpl; [destruct (s_contains _)|destruct (t_contains _)|destruct (g_contains _)|]; reflexivity.
Qed.
Lemma any_container h r : any_within h (wref_any r) = container h r.
Proof. destruct r; reflexivity. Qed.
Lemma index_of_some x l i : index_of x l = Some i -> nth_error l i = Some x.
Proof.
  revert i; induction l as [|y l IH]; intros i E; [discriminate|]. simpl in E.
  destruct (Nat.eqb_spec x y) as [->|N]; [injection E as <-; reflexivity|].
  destruct (index_of x l) as [k|]; [|discriminate]. injection E as <-. simpl. auto.
Qed.
Lemma index_of_in x l : In x l -> exists i, index_of x l = Some i.
Proof.
  induction l as [|y l IH]; intros I; [destruct I|]. simpl. destruct (Nat.eqb_spec x y) as [->|N]; [eauto|].
  destruct I as [->|I]; [congruence|]. destruct (IH I) as [i ->]. eauto.
Qed.
Lemma index_of_none x l : index_of x l = None -> ~ In x l.
Proof. intros E I. apply index_of_in in I. destruct I as [i Hi]. congruence. Qed.
Lemma kind_child h v w l : kinds_fit h -> container h v = Some w -> contains_of h w = Some l ->
  exists m, contents h w = Some (map m l) /\ m (any_id (wref_any v)) = v /\ (forall k, m k = v -> k = any_id (wref_any v)).
Proof.
  intros K C E. rewrite contents_of, E. specialize (K _ _ C). simpl.
  destruct v, w; try contradiction; eexists; (split; [reflexivity|]); (split; [reflexivity|]); intros k Hk; injection Hk; auto.
Qed.
Lemma path_snoc h root p w l i v : path_to h root p w -> contents h w = Some l -> nth_error l i = Some v ->
  path_to h root (p ++ [i]) v.
Proof.
  intros P C I. induction P as [w'|w' l' j u p' u' C' J P IH].
  - eapply path_step; eauto. constructor.
  - simpl. eapply path_step; eauto.
Qed.
Lemma path_up_step n r h : path_up (S n) (wref_any r) h =
  match container h r with
  | None => Ok [] h
  | Some w => match contains_of h w with
              | None => Ok [] h
              | Some l => match index_of (any_id (wref_any r)) l with
                          | Some i => bind (path_up n (wref_any w)) (fun p => ret (i :: p)) h
                          | None => Raise ValueError h end
              end
  end.
Proof.
  cbn [path_up]. unfold bind at 1, index_in. rewrite any_container.
  destruct (container h r) as [w|] eqn:C; [|reflexivity].
  destruct (contains_of h w) as [l|]; [|reflexivity].
  destruct (index_of _ l) as [i|]; [|reflexivity]. unfold ret at 1. rewrite bind_gets, any_container, C. reflexivity.
Qed.

Lemma up_spec h : kinds_fit h -> forall n r p h', path_up n (wref_any r) h = Ok p h' ->
  h' = h /\ exists root, outermost h r root /\ path_to h root (rev p) r.
Proof.
  intros K. induction n as [|n IH]; intros r p h' E; [discriminate|].
  rewrite path_up_step in E. destruct (container h r) as [w|] eqn:C.
  - destruct (contains_of h w) as [l|] eqn:L.
    + destruct (index_of _ l) as [i|] eqn:I; [|discriminate].
      apply bind_inv in E. destruct E as (q & h1 & E1 & E2). injection E2 as <- <-.
      apply IH in E1. destruct E1 as [-> (root & O & P)]. split; [reflexivity|].
      destruct (kind_child _ _ _ _ K C L) as (m & Cm & M1 & M2).
      exists root. split; [eapply outer_up; eauto|].
      simpl. eapply path_snoc; eauto. rewrite nth_error_map, (index_of_some _ _ _ I). simpl. rewrite M1. reflexivity.
    + injection E as <- <-. split; [reflexivity|]. exists r. split; [|constructor].
      eapply outer_unset; eauto. rewrite contents_of, L. reflexivity.
  - injection E as <- <-. split; [reflexivity|]. exists r. split; [|constructor]. apply outer_none, C.
Qed.
Lemma path_det h root p u v : path_to h root p u -> path_to h root p v -> u = v.
Proof.
  intros P. revert v. induction P as [w|w l i x p u C I P IH]; intros v Q; inversion Q; subst; [reflexivity|].
  apply IH. assert (l0 = l) by congruence. subst. assert (v0 = x) by congruence. subst. assumption.
Qed.

Lemma c28_path : forall (h : heap) (n : nat) (r : wref) (p : list nat) (h' : heap),
  kinds_fit h -> within_path n (wref_any r) h = Ok p h' ->
  h' = h /\ exists root, outermost h r root /\ path_to h root p r.
Proof.
  intros h n r p h' K P. unfold within_path in P. apply bind_inv in P. destruct P as (q & h1 & P & Q).
  injection Q as <- <-. apply up_spec in P; assumption.
Qed.
Lemma c28_total : forall (h : heap) (r root : wref),
  kinds_fit h -> (forall v w l, container h v = Some w -> contents h w = Some l -> In v l) ->
  outermost h r root -> exists p n0, forall n, (n0 <= n)%nat -> within_path n (wref_any r) h = Ok p h.
Proof.
  intros h r root K I O.
  assert (G : exists p n0, forall n, (n0 <= n)%nat -> path_up n (wref_any r) h = Ok p h).
  { induction O as [w C|w c C L|w c l r C L O IH].
    - exists [], 1%nat. intros [|n] Hn; [lia|]. rewrite path_up_step, C. reflexivity.
    - exists [], 1%nat. intros [|n] Hn; [lia|]. rewrite path_up_step, C. rewrite contents_of in L.
      destruct (contains_of h c); [discriminate|reflexivity].
    - destruct IH as (p & n0 & IH). pose proof (I _ _ _ C L) as X.
      destruct (contains_of h c) as [l'|] eqn:L'; [|rewrite contents_of, L' in L; discriminate].
      destruct (kind_child _ _ _ _ K C L') as (m & Cm & M1 & M2). rewrite Cm in L. injection L as <-.
      apply in_map_iff in X. destruct X as (k & Hk & Ik). apply M2 in Hk. subst k.
      apply index_of_in in Ik. destruct Ik as [i Hi].
      exists (i :: p), (S n0). intros [|n] Hn; [lia|]. rewrite path_up_step, C, L', Hi.
      rewrite (bind_ok _ _ _ _ _ (IH n ltac:(lia))). reflexivity. }
  destruct G as (p & n0 & G). exists (rev p), n0. intros n Hn. unfold within_path.
  rewrite (bind_ok _ _ _ _ _ (G n Hn)). reflexivity.
Qed.
Lemma outer_det h r a b : outermost h r a -> outermost h r b -> a = b.
Proof.
  intros O. revert b. induction O as [w C|w c C L|w c l r C L O IH]; intros b Q; inversion Q; subst; try congruence.
  apply IH. assert (c0 = c) by congruence. subst. assumption.
Qed.
Lemma c28_unique : forall (h : heap) (n m : nat) (r r' root : wref) (p : list nat),
  kinds_fit h -> outermost h r root -> outermost h r' root ->
  within_path n (wref_any r) h = Ok p h -> within_path m (wref_any r') h = Ok p h -> r = r'.
Proof.
  intros h n m r r' root p K O O' P P'. apply c28_path in P; [|assumption]. apply c28_path in P'; [|assumption].
  destruct P as [_ (a & A1 & A2)], P' as [_ (b & B1 & B2)].
  rewrite (outer_det _ _ _ _ A1 O) in A2. rewrite (outer_det _ _ _ _ B1 O') in B2.
  eapply path_det; eassumption.
Qed.
Lemma c28_ids : forall (h h' : heap) (n m : nat) (r r' : wref) (s : string),
  obj_id n (wref_any r) h = Ok s h -> obj_id m (wref_any r') h' = Ok s h' ->
  exists p, within_path n (wref_any r) h = Ok p h /\ within_path m (wref_any r') h' = Ok p h'.
Proof.
  intros h h' n m r r' s A B. unfold obj_id in A, B. apply bind_inv in A, B.
  destruct A as (p & h1 & A1 & A2), B as (q & h2 & B1 & B2). injection A2 as A2 ->. injection B2 as B2 ->.
  rewrite <- B2 in A2. apply join_inj in A2. subst q. eauto.
Qed.

(** ** Exported names *)
Lemma suffix_inj s t j k : (s ++ "_" ++ nat_str j)%string = (t ++ "_" ++ nat_str k)%string -> s = t /\ j = k.
Proof.
  intros E. apply (f_equal chars) in E. rewrite !chars_app in E.
  change (chars s ++ "_"%char :: chars (nat_str j) = chars t ++ "_"%char :: chars (nat_str k))%list in E.
  apply split_last in E; [|apply no_under|apply no_under]. destruct E as [E1 E2].
  apply chars_inj in E1, E2. apply nat_str_inj in E2. auto.
Qed.
Lemma existsb_str s l : existsb (String.eqb s) l = true <-> In s l.
Proof.
  rewrite existsb_exists. split.
  - intros (x & I & E). apply String.eqb_eq in E. subst. exact I.
  - intros I. exists s. split; [exact I|apply String.eqb_refl].
Qed.
(** Names that do not look like another name with a number attached. *)
Definition no_numbered (names : list string) : Prop :=
  forall s t k, In s names -> In t names -> s <> (t ++ "_" ++ nat_str k)%string.
Lemma out_names_spec all : no_numbered all -> forall names pre seen dup,
  (forall s, In s (pre ++ names) -> In s all) ->
  NoDup seen ->
  (forall s, In s seen -> In s pre \/ exists t k, In t all /\ (k < dup)%nat /\ s = (t ++ "_" ++ nat_str k)%string) ->
  (forall s, In s pre -> In s seen) ->
  List.length (out_names seen dup names) = List.length names /\
  NoDup (seen ++ out_names seen dup names) /\
  (forall i s, nth_error names i = Some s ->
     (nth_error (out_names seen dup names) i = Some s <->
      ~ In s pre /\ forall j, (j < i)%nat -> nth_error names j <> Some s)).
Proof.
  intros N. induction names as [|nm names IH]; intros pre seen dup A B C D.
  { simpl. rewrite app_nil_r. repeat split; auto; destruct i; discriminate. }
  cbn [out_names]. destruct (existsb (String.eqb nm) seen) eqn:X.
  - apply existsb_str in X.
    assert (P : In nm pre).
    { destruct (C _ X) as [P|(t & k & T & _ & ->)]; [exact P|].
      exfalso. apply (N (t ++ "_" ++ nat_str k)%string t k); auto. apply A. apply in_or_app. right. left. reflexivity. }
    set (nm' := (nm ++ "_" ++ nat_str dup)%string).
    assert (F : ~ In nm' seen).
    { intros I. destruct (C _ I) as [Q|(t & k & T & L & Q)].
      - apply (N nm' nm dup); auto; apply A, in_or_app; auto.
      - apply suffix_inj in Q. lia. }
    destruct (IH (pre ++ [nm])%list (seen ++ [nm'])%list (S dup)) as (I1 & I2 & I3).
    + intros s Hs. apply A. rewrite <- app_assoc in Hs. exact Hs.
    + apply NoDup_app. split; [exact B|]. split; [|apply NoDup_cons; split; [apply not_elem_of_nil|constructor]].
      intros x Hx Hy. apply elem_of_list_singleton in Hy. subst x. apply elem_of_list_In in Hx. auto.
    + intros s Hs. apply in_app_or in Hs. destruct Hs as [Hs|[<-|[]]].
      * destruct (C _ Hs) as [Q|(t & k & T & L & Q)]; [left; apply in_or_app; auto|].
        right. exists t, k. split; [exact T|]. split; [lia|exact Q].
      * right. exists nm, dup. split; [apply A, in_or_app; right; left; reflexivity|]. split; [lia|reflexivity].
    + intros s Hs. apply in_app_or in Hs. destruct Hs as [Hs|[<-|[]]]; apply in_or_app; auto.
    + split; [simpl; rewrite I1; reflexivity|]. split; [rewrite <- app_assoc in I2; exact I2|].
      intros [|i] s Hs; cbn [nth_error] in Hs |- *.
      * injection Hs as <-. split; [|tauto]. intros Q. exfalso. injection Q as Q.
        apply (N nm nm dup); auto; apply A, in_or_app; right; left; reflexivity.
      * rewrite (I3 i s Hs). split; intros [Q1 Q2].
        -- split; [intros Q; apply Q1, in_or_app; auto|]. intros [|j] Hj; cbn [nth_error]; [|apply Q2; lia].
           intros Q. injection Q as <-. apply Q1, in_or_app. auto.
        -- split; [|intros j Hj; apply (Q2 (S j)); lia]. intros Q. apply in_app_or in Q. destruct Q as [Q|[<-|[]]]; auto.
  - assert (F : ~ In nm seen).
    { intros I. apply existsb_str in I. congruence. }
    destruct (IH (pre ++ [nm])%list (seen ++ [nm])%list dup) as (I1 & I2 & I3).
    + intros s Hs. apply A. rewrite <- app_assoc in Hs. exact Hs.
    + apply NoDup_app. split; [exact B|]. split; [|apply NoDup_cons; split; [apply not_elem_of_nil|constructor]].
      intros x Hx Hy. apply elem_of_list_singleton in Hy. subst x. apply elem_of_list_In in Hx. auto.
    + intros s Hs. apply in_app_or in Hs. destruct Hs as [Hs|[<-|[]]].
      * destruct (C _ Hs) as [Q|Q]; [left; apply in_or_app; auto|right; exact Q].
      * left. apply in_or_app. right. left. reflexivity.
    + intros s Hs. apply in_app_or in Hs. destruct Hs as [Hs|[<-|[]]]; apply in_or_app; [left; auto|right; left; reflexivity].
    + split; [simpl; rewrite I1; reflexivity|]. split; [rewrite <- app_assoc in I2; exact I2|].
      intros [|i] s Hs; cbn [nth_error] in Hs |- *.
      * split; [|intros _; exact Hs]. injection Hs as <-. intros _. split; [intros Q; apply F, D, Q|lia].
      * rewrite (I3 i s Hs). split; intros [Q1 Q2].
        -- split; [intros Q; apply Q1, in_or_app; auto|]. intros [|j] Hj; cbn [nth_error]; [|apply Q2; lia].
           intros Q. injection Q as <-. apply Q1, in_or_app. right; left; reflexivity.
        -- split; [|intros j Hj; apply (Q2 (S j)); lia]. intros Q. apply in_app_or in Q. destruct Q as [Q|[<-|[]]]; auto.
           apply (Q2 0%nat ltac:(lia)). reflexivity.
Qed.
Lemma length_out_names names : forall seen dup, List.length (out_names seen dup names) = List.length names.
Proof.
  induction names as [|nm names IH]; intros seen dup; [reflexivity|]. cbn [out_names].
  destruct (existsb _ _); cbn [List.length]; rewrite IH; reflexivity.
Qed.
Lemma fst_combine {A B} (l : list A) (m : list B) : List.length l = List.length m -> map fst (combine l m) = l.
Proof. revert m; induction l as [|x l IH]; intros [|y m] L; try discriminate; [reflexivity|]. cbn. f_equal. auto. Qed.
Lemma snd_combine {A B} (l : list A) (m : list B) : List.length l = List.length m -> map snd (combine l m) = m.
Proof. revert m; induction l as [|x l IH]; intros [|y m] L; try discriminate; [reflexivity|]. cbn. f_equal. auto. Qed.
Lemma export_names h a :
  map fst (return_textgrid h a) = out_names [] 0 (map (fun t => t_name (tob h t)) (tiers_of h (a_groups (aob h a)))).
Proof. unfold return_textgrid. rewrite fst_combine; [reflexivity|]. rewrite length_out_names, !map_length. reflexivity. Qed.

Lemma c36_names : forall (h : heap) (a : aid),
  let names := map (fun t => t_name (tob h t)) (tiers_of h (a_groups (aob h a))) in
  let out := map fst (return_textgrid h a) in
  (forall s t k, In s names -> In t names -> s <> (t ++ "_" ++ nat_str k)%string) ->
  List.length out = List.length names /\ NoDup out /\
  forall i s, nth_error names i = Some s ->
    (nth_error out i = Some s <-> forall j, (j < i)%nat -> nth_error names j <> Some s).
Proof.
  intros h a names out N. subst out. rewrite export_names. fold names.
  destruct (out_names_spec names N names [] [] 0) as (A & B & C); auto; [constructor|].
  split; [exact A|]. split; [exact B|]. intros i s Hs. rewrite (C i s Hs). simpl. tauto.
Qed.
Lemma c36_entries : forall (h : heap) (a : aid) (i : nat) (t : tid),
  nth_error (tiers_of h (a_groups (aob h a))) i = Some t ->
  exists nm rows, nth_error (return_textgrid h a) i = Some (nm, rows) /\
    List.length rows = List.length (t_seq (tob h t)) /\
    forall j x, nth_error (t_seq (tob h t)) j = Some x ->
      nth_error rows j = Some (is_point h x, s_start (sob h x),
        if is_point h x then None else s_end (sob h x), s_label (sob h x)).
Proof.
  intros h a i t Ht.
  assert (S : nth_error (map snd (return_textgrid h a)) i = Some (map (praatio h) (t_seq (tob h t)))).
  { unfold return_textgrid. rewrite snd_combine by (rewrite length_out_names, !map_length; reflexivity).
    rewrite nth_error_map. unfold tiers_of in Ht. unfold grid_tiers. rewrite Ht. reflexivity. }
  rewrite nth_error_map in S. destruct (nth_error (return_textgrid h a) i) as [[nm rows]|] eqn:E; [|discriminate].
  simpl in S. injection S as ->. exists nm, (map (praatio h) (t_seq (tob h t))). split; [reflexivity|].
  split; [apply map_length|]. intros j x Hx. rewrite nth_error_map, Hx. simpl. unfold praatio.
  reflexivity.
Qed.
Lemma c36_collision_refuted : exists (h : heap) (a : aid), ~ NoDup (map fst (return_textgrid h a)).
Proof.
  exists (Heap [] [] [TierObj 0 None None "a" [] [] None None CUnset; TierObj 0 None None "a_0" [] [] None None CUnset;
                   TierObj 0 None None "a" [] [] None None CUnset] [GrpObj false [0;1;2]%nat None CUnset None] [GridObj [0%nat] []]), 0%nat.
  intros N. apply (bool_decide_pack _) in N. vm_compute in N. exact N.
Qed.

(** ** Class lookup *)
Lemma dedup_in l c : In c (dedup l) <-> In c l.
Proof.
  induction l as [|d l IH]; [reflexivity|]. simpl. rewrite filter_In, IH, negb_true_iff, Nat.eqb_neq.
  destruct (decide (c = d)) as [->|]; [tauto|]. split; [tauto|]. intros [->|]; [auto|]. tauto.
Qed.
Lemma nodup_filter (f : nat -> bool) l : List.NoDup l -> List.NoDup (List.filter f l).
Proof.
  induction 1 as [|x l Hx Hl IH]; [constructor|]. simpl. destruct (f x); [|exact IH].
  constructor; [|exact IH]. intros I. apply filter_In in I. tauto.
Qed.
Lemma dedup_nodup l : List.NoDup (dedup l).
Proof.
  induction l as [|d l IH]; [constructor|]. simpl. constructor; [|apply nodup_filter, IH].
  intros I. apply filter_In in I. destruct I as [_ I]. rewrite Nat.eqb_refl in I. discriminate.
Qed.
Lemma c39_lookup : forall (h : heap) (a : aid) (nm : string),
  let named c := class_name h c = nm /\ exists t, In t (tiers_of h (a_groups (aob h a))) /\ t_ec (tob h t) = c in
  exists r, get_class_by_name a nm h = Ok r h /\
  match r with
  | NoClass => forall c, ~ named c
  | OneClass c => forall d, named d <-> d = c
  | ManyClasses l => NoDup l /\ (2 <= List.length l)%nat /\ forall c, named c <-> In c l
  end.
Proof.
  intros h a nm named.
  set (l := List.filter (fun c => String.eqb (class_name h c) nm) (dedup (grid_classes h a))).
  assert (D : List.NoDup l) by apply nodup_filter, dedup_nodup.
  assert (I : forall c, named c <-> In c l).
  { intros c. unfold l, named, grid_classes, tiers_of. rewrite filter_In, dedup_in, String.eqb_eq, in_flat_map.
    split.
    - intros [E (t & Ht & Hc)]. split; [|exact E]. apply in_flat_map in Ht. destruct Ht as (g & G1 & G2).
      exists g. split; [exact G1|]. apply in_map_iff. eauto.
    - intros [(g & G1 & G2) E]. split; [exact E|]. apply in_map_iff in G2. destruct G2 as (t & T1 & T2).
      exists t. split; [|exact T1]. apply in_flat_map. eauto. }
  unfold get_class_by_name. fold l. destruct l as [|c [|d l']] eqn:L.
  - eexists. split; [reflexivity|]. intros c Hc. apply I in Hc. destruct Hc.
  - eexists. split; [reflexivity|]. intros d. rewrite I. simpl. split; [intros [->|[]]; reflexivity|auto].
  - eexists. split; [reflexivity|]. split; [apply NoDup_ListNoDup, D|]. split; [simpl; lia|exact I].
Qed.

(** ** Tables *)
Lemma inside_eq h o : contains_seq h o = inside h o.
Proof. unfold contains_seq, inside, cattr_list. destruct (s_contains _); reflexivity. Qed.
Definition empty_inside (h : heap) (x : oid) : bool := bool_decide (inside h x = []).
Lemma row_ne h o r : df_row h o r -> r <> [].
Proof. intros R; inversion R; discriminate. Qed.
Lemma last_cons_ne {A} (x : A) r : r <> [] -> last (x :: r) = last r.
Proof. destruct r; [congruence|reflexivity]. Qed.
Lemma map_last_cons {A} (x : A) rs : (forall r, In r rs -> r <> []) -> map last (map (cons x) rs) = map last rs.
Proof.
  intros N. rewrite map_map. apply map_ext_in. intros r Hr. apply last_cons_ne, N, Hr.
Qed.
Lemma rows_spec h l ns : contained h l ns -> forall n, (List.length ns <= n)%nat ->
  exists rss, mapM (seq_rows n true) l h = Ok rss h /\
    (forall r, In r (concat rss) <-> exists x, In x l /\ df_row h x r) /\
    map last (concat rss) = map Some (List.filter (empty_inside h) ns).
Proof.
  induction 1 as [|x l a b Ca IHa Cb IHb]; intros n L.
  { exists []. split; [reflexivity|]. split; [|reflexivity]. intros r. split; [intros []|intros (y & [] & _)]. }
  simpl in L. rewrite app_length in L. destruct n as [|n]; [lia|].
  destruct (IHa n ltac:(lia)) as (ra & A1 & A2 & A3).
  destruct (IHb (S n) ltac:(lia)) as (rb & B1 & B2 & B3).
  assert (X : exists rs, seq_rows (S n) true x h = Ok rs h /\ (forall r, In r rs <-> df_row h x r) /\
            map last rs = map Some (List.filter (empty_inside h) (x :: a))).
  { cbn [seq_rows]. rewrite bind_gets, inside_eq. destruct (inside h x) as [|y l'] eqn:I.
    - exists [[x]]. split; [reflexivity|]. inversion Ca; subst. split.
      + intros r. split; [intros [<-|[]]; apply row_leaf, I|]. intros R. inversion R; subst; [left; reflexivity|].
        rewrite I in *. contradiction.
      + cbn [List.filter]. unfold empty_inside. rewrite bool_decide_eq_true_2 by exact I. reflexivity.
    - rewrite (bind_ok _ _ _ _ _ A1). exists (map (cons x) (concat ra)). split; [reflexivity|]. split.
      + intros r. rewrite in_map_iff. split.
        * intros (q & <- & Hq). apply A2 in Hq. destruct Hq as (z & Hz & R). eapply row_step; [rewrite I; exact Hz|exact R].
        * intros R. inversion R; subst; [congruence|]. eexists. split; [reflexivity|]. apply A2. rewrite I in *. eauto.
      + rewrite map_last_cons.
        * rewrite A3. cbn [List.filter]. unfold empty_inside at 2. rewrite bool_decide_eq_false_2 by (rewrite I; discriminate).
          reflexivity.
        * intros r Hr. apply A2 in Hr. destruct Hr as (z & _ & R). eapply row_ne, R. }
  destruct X as (rx & X1 & X2 & X3).
  exists (rx :: rb). split.
  { cbn [mapM]. rewrite (bind_ok _ _ _ _ _ X1), (bind_ok _ _ _ _ _ B1). reflexivity. }
  cbn [concat]. split.
  - intros r. rewrite in_app_iff, X2, B2. split.
    + intros [R|(y & Hy & R)]; [exists x; split; [left; reflexivity|exact R]|exists y; split; [right; exact Hy|exact R]].
    + intros (y & [<-|Hy] & R); [left; exact R|right; eauto].
  - rewrite map_app, X3, B3. change (x :: a ++ b)%list with ((x :: a) ++ b)%list.
    rewrite List.filter_app, map_app. reflexivity.
Qed.
Lemma nodup_map_inv {A B} (f : A -> B) l : NoDup (map f l) -> NoDup l.
Proof. rewrite !NoDup_ListNoDup. apply List.NoDup_map_inv. Qed.
Lemma nodup_somes h ns : NoDup ns -> NoDup (map Some (List.filter (empty_inside h) ns)).
Proof.
  intros N. apply NoDup_ListNoDup in N. apply NoDup_ListNoDup. apply FinFun.Injective_map_NoDup; [intros x y E; congruence|].
  apply nodup_filter, N.
Qed.

Lemma c40_rows : forall (h : heap) (o : oid) (ns : list oid) (n : nat),
  contained h [o] ns -> NoDup ns -> (List.length ns <= n)%nat ->
  exists rs, seq_rows n true o h = Ok rs h /\ NoDup rs /\
    (forall r, In r rs <-> df_row h o r) /\
    map last rs = map Some (List.filter (fun x => bool_decide (inside h x = [])) ns).
Proof.
  intros h o ns n C N L. destruct (rows_spec h _ _ C n L) as (rss & A & B & D).
  cbn [mapM] in A. apply bind_inv in A. destruct A as (r1 & h1 & A1 & A2).
  apply bind_inv in A2. destruct A2 as (r2 & h2 & A2 & A3). injection A2 as <- <-. injection A3 as <- ->.
  cbn [concat] in B, D. rewrite app_nil_r in B, D. exists r1. split; [exact A1|]. split.
  - apply (nodup_map_inv last). rewrite D. apply nodup_somes, N.
  - split; [|exact D]. intros r. rewrite B. split; [intros (x & [<-|[]] & R); exact R|].
    intros R. exists o. split; [left; reflexivity|exact R].
Qed.
Lemma tier_rows_sub h t ns n : t_seq (tob h t) <> [] -> contained h (t_seq (tob h t)) ns -> NoDup ns ->
  (List.length ns <= n)%nat ->
  exists rs, tier_rows n true t h = Ok rs h /\ NoDup rs /\
    (forall r, In r rs <-> exists x, In x (t_seq (tob h t)) /\ df_row h x r) /\
    map last rs = map Some (List.filter (fun x => bool_decide (inside h x = [])) ns).
Proof.
  intros T C N L. destruct (rows_spec h _ _ C n L) as (rss & A & B & D).
  exists (concat rss). split.
  { unfold tier_rows. rewrite bind_gets. destruct (t_seq (tob h t)); [congruence|].
    rewrite (bind_ok _ _ _ _ _ A). reflexivity. }
  split; [|split; [exact B|exact D]].
  apply (nodup_map_inv last). rewrite D. apply nodup_somes, N.
Qed.
Lemma c40_group : forall (h : heap) (g : gid) (t : tid) (ts : list tid) (ns : list oid) (n : nat),
  g_points (gob h g) = false -> g_tiers (gob h g) = t :: ts ->
  t_seq (tob h t) <> [] -> contained h (t_seq (tob h t)) ns -> NoDup ns -> (List.length ns <= n)%nat ->
  exists rs, grp_rows n true g h = Ok rs h /\ NoDup rs /\
    (forall r, In r rs <-> exists x, In x (t_seq (tob h t)) /\ df_row h x r) /\
    map last rs = map Some (List.filter (fun x => bool_decide (inside h x = [])) ns).
Proof.
  intros h g t ts ns n P G T C N L. unfold grp_rows. rewrite bind_get_grp, P, G. apply tier_rows_sub; assumption.
Qed.
Lemma seq_rows_flat n o h : seq_rows (S n) false o h = Ok [[o]] h.
Proof. cbn [seq_rows]. rewrite bind_gets. destruct (contains_seq h o); reflexivity. Qed.
Lemma mapM_pure {A B} (f : A -> M B) (g : A -> B) h l : (forall x, In x l -> f x h = Ok (g x) h) ->
  mapM f l h = Ok (map g l) h.
Proof.
  induction l as [|x l IH]; intros E; [reflexivity|]. cbn [mapM].
  rewrite (bind_ok _ _ _ _ _ (E x (or_introl eq_refl))).
  rewrite (bind_ok _ _ _ _ _ (IH (fun y Hy => E y (or_intror Hy)))). reflexivity.
Qed.
Lemma concat_single {A} (l : list A) : concat (map (fun x => [[x]]) l) = map (fun x => [x]) l.
Proof. induction l as [|x l IH]; [reflexivity|]. cbn. f_equal. exact IH. Qed.
Lemma concat_map_flat {A B} (f : A -> list B) l : concat (map f l) = flat_map f l.
Proof. symmetry. apply flat_map_concat_map. Qed.
Lemma map_flat_map {A B C} (f : B -> C) (g : A -> list B) l : map f (flat_map g l) = flat_map (fun x => map f (g x)) l.
Proof. induction l as [|x l IH]; [reflexivity|]. cbn. rewrite map_app, IH. reflexivity. Qed.
Lemma tier_rows_flat n t h : t_seq (tob h t) <> [] -> tier_rows (S n) false t h = Ok (map (fun x => [x]) (t_seq (tob h t))) h.
Proof.
  intros T. unfold tier_rows. rewrite bind_gets. rewrite <- concat_single.
  destruct (t_seq (tob h t)) as [|x l]; [congruence|].
  rewrite (bind_ok _ _ _ _ _ (mapM_pure _ (fun x => [[x]]) _ _ (fun x _ => seq_rows_flat n x h))). reflexivity.
Qed.
Lemma grp_rows_flat n g h : g_tiers (gob h g) <> [] -> (forall t, In t (g_tiers (gob h g)) -> t_seq (tob h t) <> []) ->
  grp_rows (S n) false g h = Ok (map (fun x => [x]) (entries_of h (g_tiers (gob h g)))) h.
Proof.
  intros G T. unfold grp_rows. rewrite bind_get_grp, andb_false_r. unfold entries_of. rewrite map_flat_map, <- concat_map_flat.
  destruct (g_tiers (gob h g)) as [|t ts] eqn:E; [congruence|].
  rewrite (bind_ok _ _ _ _ _ (mapM_pure _ _ _ _ (fun t Ht => tier_rows_flat n t h (T t Ht)))). reflexivity.
Qed.
Lemma c40_flat : forall (h : heap) (n : nat) (g : gid),
  g_tiers (gob h g) <> [] -> (forall t, In t (g_tiers (gob h g)) -> t_seq (tob h t) <> []) ->
  grp_rows (S n) false g h = Ok (map (fun x => [x]) (entries_of h (g_tiers (gob h g)))) h.
Proof. intros h n g. apply grp_rows_flat. Qed.
Lemma c40_flat_grid : forall (h : heap) (n : nat) (a : aid),
  a_groups (aob h a) <> [] ->
  (forall g, In g (a_groups (aob h a)) -> g_tiers (gob h g) <> []) ->
  (forall t, In t (tiers_of h (a_groups (aob h a))) -> t_seq (tob h t) <> []) ->
  grid_rows (S n) false a h = Ok (map (fun x => [x]) (entries_of h (tiers_of h (a_groups (aob h a))))) h.
Proof.
  intros h n a A G T. unfold grid_rows, get_grid. rewrite bind_gets.
  assert (R : forall g, In g (a_groups (aob h a)) ->
    grp_rows (S n) false g h = Ok (map (fun x => [x]) (entries_of h (g_tiers (gob h g)))) h).
  { intros g Hg. apply grp_rows_flat; [apply G, Hg|]. intros t Ht. apply T, in_flat_map. eauto. }
  assert (Q : concat (map (fun g => map (fun x => [x]) (entries_of h (g_tiers (gob h g)))) (a_groups (aob h a))) =
              map (fun x => [x]) (entries_of h (tiers_of h (a_groups (aob h a))))).
  { unfold entries_of, tiers_of. clear. induction (a_groups (aob h a)) as [|g gs IH]; [reflexivity|].
    cbn [map concat flat_map]. rewrite flat_map_app, map_app, IH. reflexivity. }
  destruct (a_groups (aob h a)) as [|g gs] eqn:E; [congruence|].
  rewrite (bind_ok _ _ _ _ _ (mapM_pure _ _ _ _ R)). rewrite <- Q. reflexivity.
Qed.
Lemma c40_empty : forall (h : heap) (n : nat) (b : bool) (t : tid),
  t_seq (tob h t) = [] -> tier_rows n b t h = Raise ValueError h.
Proof. intros h n b t E. unfold tier_rows. rewrite bind_gets, E. reflexivity. Qed.

(** ** Assigning tiers to groups *)
Lemma take_group_spec {A B} (cs : list A) : forall i (tiers : list B) h,
  take_group cs i tiers h = if (i + List.length cs <=? List.length tiers)%nat || (List.length cs =? 0)%nat
    then Ok (firstn (List.length cs) (skipn i tiers)) h else Raise IndexError h.
Proof.
  induction cs as [|c cs IH]; intros i tiers h; [rewrite orb_true_r; reflexivity|].
  cbn [take_group]. change (List.length (c :: cs)) with (S (List.length cs)).
  rewrite orb_false_r. destruct (nth_error tiers i) as [t|] eqn:E; cbn [of_opt].
  - rewrite bind_ret. unfold bind. rewrite IH.
    assert (Q : (S i + List.length cs <=? List.length tiers)%nat || (List.length cs =? 0)%nat = (i + S (List.length cs) <=? List.length tiers)%nat).
    { apply nth_error_Some_length in E || (assert (L : nth_error tiers i <> None) by congruence; apply nth_error_Some in L).
      destruct (Nat.leb_spec (S i + List.length cs) (List.length tiers)), (Nat.eqb_spec (List.length cs) 0),
        (Nat.leb_spec (i + S (List.length cs)) (List.length tiers)); simpl; auto; lia. }
    rewrite Q. destruct (i + S (List.length cs) <=? List.length tiers)%nat; [|reflexivity].
    assert (K : skipn i tiers = t :: skipn (S i) tiers).
    { clear -E. revert i E. induction tiers as [|x tiers IH]; intros [|i] E; try discriminate.
      - injection E as ->. reflexivity.
      - simpl in E. apply IH in E. exact E. }
    rewrite K. reflexivity.
  - apply nth_error_None in E. destruct (Nat.leb_spec (i + S (List.length cs)) (List.length tiers)); [lia|]. reflexivity.
Qed.
Definition total {A} (css : list (list A)) : nat := List.length (concat css).
Lemma take_groups_ok {A B} (css : list (list A)) : forall i (tiers : list B) h,
  (i + total css <= List.length tiers)%nat ->
  exists gs, take_groups css i tiers h = Ok gs h /\ map (@List.length B) gs = map (@List.length A) css /\
    concat gs = firstn (total css) (skipn i tiers).
Proof.
  induction css as [|cs css IH]; intros i tiers h L; [exists []; repeat split|].
  unfold total in *. cbn [concat] in *. rewrite app_length in *.
  cbn [take_groups]. destruct (IH (i + List.length cs)%nat tiers h ltac:(lia)) as (gs & A1 & A2 & A3).
  exists (firstn (List.length cs) (skipn i tiers) :: gs). split; [|split].
  - assert (E : take_group cs i tiers h = Ok (firstn (List.length cs) (skipn i tiers)) h).
    { rewrite take_group_spec. destruct (Nat.leb_spec (i + List.length cs) (List.length tiers)); [reflexivity|lia]. }
    rewrite (bind_ok _ _ _ _ _ E), (bind_ok _ _ _ _ _ A1). reflexivity.
  - cbn [map]. rewrite A2, firstn_length, skipn_length. f_equal. lia.
  - cbn [concat]. rewrite A3. rewrite <- (firstn_skipn (List.length cs) (firstn (_ + _) _)).
    rewrite firstn_firstn, Nat.min_l by lia. f_equal.
    rewrite skipn_firstn_comm, drop_drop. f_equal. lia.
Qed.
Lemma take_groups_bad {A B} (css : list (list A)) : forall i (tiers : list B) h,
  (List.length tiers < i + total css)%nat -> (total css <> 0)%nat -> take_groups css i tiers h = Raise IndexError h.
Proof.
  induction css as [|cs css IH]; intros i tiers h L Z; [unfold total in Z; simpl in Z; lia|].
  unfold total in *. cbn [concat] in *. rewrite app_length in *. cbn [take_groups].
  pose proof (take_group_spec cs i tiers h) as E.
  destruct (Nat.leb_spec (i + List.length cs) (List.length tiers)), (Nat.eqb_spec (List.length cs) 0); simpl in E.
  1-3: rewrite (bind_ok _ _ _ _ _ E).
  - rewrite (bind_raise _ _ _ IndexError h); [reflexivity|]. apply IH; lia.
  - rewrite (bind_raise _ _ _ IndexError h); [reflexivity|]. apply IH; lia.
  - rewrite (bind_raise _ _ _ IndexError h); [reflexivity|]. apply IH; lia.
  - rewrite (bind_raise _ _ _ _ _ E). reflexivity.
Qed.
Lemma c37_nested : forall (B : Type) (h : heap) (tiers : list B) (css : list (list cid)),
  css <> [] -> (List.length (concat css) <= List.length tiers)%nat ->
  exists gs, nestify tiers (Nested css) h = Ok (gs, css) h /\
    map (@List.length B) gs = map (@List.length cid) css /\ concat gs = firstn (List.length (concat css)) tiers.
Proof.
  intros B h tiers css N L. destruct (take_groups_ok css 0 tiers h L) as (gs & A1 & A2 & A3).
  exists gs. split; [|split; [exact A2|exact A3]].
  unfold nestify. destruct css as [|cs css]; [congruence|]. cbn [extend_classes]. rewrite bind_ret.
  rewrite (bind_ok _ _ _ _ _ A1). reflexivity.
Qed.
Lemma c37_too_few : forall (B : Type) (h : heap) (tiers : list B) (css : list (list cid)),
  (List.length tiers < List.length (concat css))%nat -> nestify tiers (Nested css) h = Raise IndexError h.
Proof.
  intros B h tiers css L. unfold nestify. destruct css as [|cs css]; [reflexivity|].
  cbn [extend_classes]. rewrite bind_ret. rewrite (bind_raise _ _ _ IndexError h); [reflexivity|].
  apply take_groups_bad; unfold total; lia.
Qed.

Definition is_top (h : heap) (c : cid) : bool :=
  match superset_class h c with Some s => issubclass h s cTop | None => false end.
Lemma is_top_spec h c : is_top h c = true <-> top_class h c.
Proof.
  unfold is_top, top_class. destruct (superset_class h c) as [s|]; split.
  - eauto.
  - intros (s' & E & I). injection E as ->. exact I.
  - discriminate.
  - intros (s' & E & _). discriminate.
Qed.
Definition tops_of (h : heap) (cs : list cid) : list nat :=
  map fst (List.filter (fun p => snd p : bool) (combine (seq 0 (List.length cs)) (map (is_top h) cs))).
Lemma top_idxes_ok h cs : (forall c, In c cs -> interval_class h c) -> top_idxes cs h = Ok (tops_of h cs) h.
Proof.
  intros I. unfold top_idxes. rewrite (bind_ok _ _ h (map (is_top h) cs) h); [reflexivity|].
  apply mapM_pure. intros c Hc. destruct (I c Hc) as [P S]. rewrite bind_gets. unfold is_point_cls. rewrite P.
  rewrite bind_gets. unfold is_top. destruct (superset_class h c) as [s|]; [reflexivity|congruence].
Qed.
Lemma in_combine_seq {A} (l : list A) : forall k p, In p (combine (seq k (List.length l)) l) <->
  (k <= fst p)%nat /\ nth_error l (fst p - k) = Some (snd p).
Proof.
  induction l as [|x l IH]; intros k [i b]; cbn [combine seq List.length fst snd].
  - split; [intros []|]. intros [_ E]. destruct (i - k)%nat; discriminate.
  - cbn [In]. rewrite IH. cbn [fst snd]. split.
    + intros [E|[L E]]; [injection E as <- <-; rewrite Nat.sub_diag; split; [lia|reflexivity]|].
      split; [lia|]. replace (i - k)%nat with (S (i - S k)) by lia. exact E.
    + intros [L E]. destruct (decide (i = k)) as [->|].
      * rewrite Nat.sub_diag in E. injection E as ->. left; reflexivity.
      * right. split; [lia|]. replace (i - k)%nat with (S (i - S k)) in E by lia. exact E.
Qed.
Lemma in_tops h cs i : In i (tops_of h cs) <-> exists c, nth_error cs i = Some c /\ top_class h c.
Proof.
  unfold tops_of. rewrite in_map_iff. split.
  - intros ([j b] & <- & I). apply filter_In in I. destruct I as [I B]. cbn in B.
    rewrite <- (map_length (is_top h)) in I. apply in_combine_seq in I. destruct I as [_ I]. cbn [fst snd] in *.
    rewrite Nat.sub_0_r, nth_error_map in I. destruct (nth_error cs j) as [c|]; [|discriminate].
    injection I as I. exists c. split; [reflexivity|]. apply is_top_spec. congruence.
  - intros (c & C & T). exists (i, true). split; [reflexivity|]. apply filter_In. split; [|reflexivity].
    rewrite <- (map_length (is_top h)). apply in_combine_seq. cbn. split; [lia|].
    rewrite Nat.sub_0_r, nth_error_map, C. simpl. f_equal. apply is_top_spec, T.
Qed.
Lemma tops_nodup h cs : List.NoDup (tops_of h cs).
Proof.
  unfold tops_of. assert (G : forall k l, List.NoDup (map fst (List.filter (fun p : nat * bool => snd p) (combine (seq k (List.length l)) l)))).
  { intros k l. revert k. induction l as [|b l IH]; intros k; [constructor|]. cbn [List.length seq combine List.filter snd].
    destruct b; [|apply IH]. cbn [map fst]. constructor; [|apply IH].
    intros I. apply in_map_iff in I. destruct I as ([j c] & E & I). cbn in E. subst j.
    apply filter_In in I. destruct I as [I _]. apply in_combine_seq in I. cbn in I. lia. }
  rewrite <- (map_length (is_top h) cs) at 1. apply G.
Qed.
Lemma one_top h cs : (forall i j c d, nth_error cs i = Some c -> nth_error cs j = Some d -> top_class h c -> top_class h d -> i = j) ->
  (List.length (tops_of h cs) <= 1)%nat.
Proof.
  intros U. pose proof (tops_nodup h cs) as N. destruct (tops_of h cs) as [|i [|j l]] eqn:E; simpl; try lia. exfalso.
  assert (Hi : In i (tops_of h cs)) by (rewrite E; left; reflexivity).
  assert (Hj : In j (tops_of h cs)) by (rewrite E; right; left; reflexivity).
  apply in_tops in Hi, Hj. destruct Hi as (c & C1 & C2), Hj as (d & D1 & D2).
  inversion N; subst. apply H1. left. symmetry. eapply U; eassumption.
Qed.
Lemma total_repeat {A} (cs : list A) n : total (repeat cs n) = (n * List.length cs)%nat.
Proof. unfold total. induction n as [|n IH]; [reflexivity|]. cbn [repeat concat]. rewrite app_length, IH. simpl. lia. Qed.
Lemma c37_flat : forall (B : Type) (h : heap) (tiers : list B) (cs : list cid),
  cs <> [] -> (forall c, In c cs -> interval_class h c) ->
  (forall i j c d, nth_error cs i = Some c -> nth_error cs j = Some d -> top_class h c -> top_class h d -> i = j) ->
  let k := List.length cs in
  let n := (List.length tiers / k)%nat in
  (n <> 0)%nat ->
  exists gs, nestify tiers (Flat cs) h = Ok (gs, repeat cs n) h /\ List.length gs = n /\
    (forall g, In g gs -> List.length g = k) /\ concat gs = firstn (n * k) tiers.
Proof.
  intros B h tiers cs N I U k n Z.
  assert (K : (k <> 0)%nat) by (subst k; destruct cs; [congruence|discriminate]).
  assert (L : (n * k <= List.length tiers)%nat) by (subst n; rewrite Nat.mul_comm; apply Nat.mul_div_le; exact K).
  destruct (take_groups_ok (repeat cs n) 0 tiers h) as (gs & A1 & A2 & A3); [rewrite total_repeat; fold k; lia|].
  rewrite total_repeat in A3. fold k in A3.
  exists gs. split; [|split; [|split; [|exact A3]]].
  - unfold nestify. rewrite (bind_ok _ _ h (Nested (repeat cs n)) h).
    + destruct (repeat cs n) as [|r rs] eqn:R; [destruct n; [congruence|discriminate]|].
      rewrite (bind_ok _ _ _ _ _ A1). reflexivity.
    + pose proof (one_top _ _ U) as O. apply Nat.leb_le in O. unfold extend_classes. fold k.
      destruct cs as [|c cs]; [congruence|]. rewrite (bind_ok _ _ _ _ _ (top_idxes_ok _ _ I)). rewrite O, orb_true_r. reflexivity.
  - apply (f_equal (@List.length nat)) in A2. rewrite !map_length, repeat_length in A2. exact A2.
  - intros g Hg. apply (in_map (@List.length B)) in Hg. rewrite A2 in Hg. apply in_map_iff in Hg. destruct Hg as (x & <- & Hx).
    apply repeat_spec in Hx. subst x. reflexivity.
Qed.
Lemma c37_short : forall (B : Type) (h : heap) (tiers : list B) (cs : list cid),
  (List.length tiers < List.length cs)%nat -> (forall c, In c cs -> interval_class h c) ->
  (forall i j c d, nth_error cs i = Some c -> nth_error cs j = Some d -> top_class h c -> top_class h d -> i = j) ->
  nestify tiers (Flat cs) h = Raise IndexError h.
Proof.
  intros B h tiers cs L I U. unfold nestify. rewrite (bind_ok _ _ h (Nested []) h); [reflexivity|].
  pose proof (one_top _ _ U) as O. apply Nat.leb_le in O. unfold extend_classes.
  destruct cs as [|c cs]; [simpl in L; lia|]. rewrite (bind_ok _ _ _ _ _ (top_idxes_ok _ _ I)). rewrite O, orb_true_r.
  rewrite Nat.div_small by exact L. reflexivity.
Qed.

(** Several chains in one flat list. *)
Lemma chase_spec {B} h t ch b cs (tiers : list B) : class_table h -> class_chain h t ch b ->
  (forall c, In c ch -> In c cs) -> (List.length cs <= List.length tiers)%nat ->
  forall suf n pre x, ch = (pre ++ x :: suf)%list -> (List.length suf < n)%nat ->
  exists ds, chase_down n cs tiers x h = Ok ds h /\ map snd ds = suf /\
    (forall t c, In (t, c) ds -> exists k, nth_error cs k = Some c /\ nth_error tiers k = Some t).
Proof.
  intros T C S L. induction suf as [|y suf IH]; intros n pre x E Ln; (destruct n as [|n]; [lia|]); cbn [chase_down].
  all: pose proof (chain_sub _ _ _ _ _ _ _ C E) as Bx; rewrite bind_gets, Bx; cbn [hd]; unfold issubclass_m; rewrite bind_gets.
  - destruct C as (_ & _ & _ & -> & _). exists []. repeat split. intros ? ? [].
  - assert (Iy : In y ch) by (rewrite E; apply in_app_iff; right; right; left; reflexivity).
    pose proof C as (C1 & C2 & C3 & C4 & C5 & C6).
    rewrite (kinds_apart h y cInterval cBottom T); [|simpl; auto|simpl; auto|discriminate|apply C5; auto].
    destruct (index_of_in _ _ (S y Iy)) as [i Hi]. rewrite Hi. apply index_of_some in Hi.
    destruct (nth_error tiers i) as [ti|] eqn:Ti.
    2:{ exfalso. apply nth_error_None in Ti. assert (Q : nth_error cs i <> None) by congruence. apply nth_error_Some in Q. lia. }
    cbn [of_opt]. rewrite bind_ret.
    destruct (IH n (pre ++ [x])%list y) as (ds & D1 & D2 & D3); [rewrite <- app_assoc; exact E|simpl in Ln; lia|].
    rewrite (bind_ok _ _ _ _ _ D1). exists ((ti, y) :: ds). split; [reflexivity|]. split; [cbn; rewrite D2; reflexivity|].
    intros t' c' [X|X]; [injection X as <- <-; eauto|eauto].
Qed.
Lemma tops_values {A} (f : A -> bool) l : forall k,
  map (fun i => nth_error l (i - k)) (map fst (List.filter (fun p : nat * bool => snd p) (combine (seq k (List.length l)) (map f l)))) =
  map Some (List.filter f l).
Proof.
  induction l as [|x l IH]; intros k; [reflexivity|]. cbn [List.length seq map combine List.filter snd].
  assert (Q : map (fun i => nth_error (x :: l) (i - k)) (map fst (List.filter (fun p : nat * bool => snd p) (combine (seq (S k) (List.length l)) (map f l)))) =
              map Some (List.filter f l)).
  { rewrite <- (IH (S k)). apply map_ext_in. intros i Hi. apply in_map_iff in Hi. destruct Hi as ([j c] & <- & Hi).
    apply filter_In in Hi. destruct Hi as [Hi _]. rewrite <- (map_length f) in Hi. apply in_combine_seq in Hi.
    cbn [fst snd] in *. replace (j - k)%nat with (S (j - S k)) by lia. reflexivity. }
  destruct (f x); [|exact Q]. cbn [map fst]. rewrite Nat.sub_diag, Q. reflexivity.
Qed.
Lemma keep_filter {A} (P : A -> Prop) (f : A -> bool) l : (forall x, f x = true <-> P x) -> keep_if P l (List.filter f l).
Proof.
  intros E. induction l as [|x l IH]; [constructor|]. cbn [List.filter]. destruct (f x) eqn:X.
  - constructor; [apply E, X|exact IH].
  - constructor; [|exact IH]. intros Y. apply E in Y. congruence.
Qed.
Lemma Forall2_map_r {A B C} (P : A -> C -> Prop) (f : B -> C) l m : Forall2 (fun x y => P x (f y)) l m -> Forall2 P l (map f m).
Proof. induction 1; constructor; auto. Qed.

Lemma in_concat_nodup {A} (ls : list (list A)) x a b : List.NoDup (concat ls) -> In a ls -> In b ls -> In x a -> In x b -> a = b.
Proof.
  induction ls as [|l ls IH]; intros N Ia Ib Xa Xb; [destruct Ia|]. cbn [concat] in N.
  apply NoDup_ListNoDup, NoDup_app in N. destruct N as (N1 & N2 & N3).
  assert (D : forall m, In m ls -> In x m -> In x l -> False).
  { intros m Hm Hx Hl. apply (N2 x); apply elem_of_list_In; [exact Hl|]. apply in_concat. eauto. }
  destruct Ia as [<-|Ia], Ib as [<-|Ib]; auto.
  - exfalso; eauto.
  - exfalso; eauto.
  - apply IH; auto. apply NoDup_ListNoDup, N3.
Qed.
Lemma nodup_of_concat {A} (ls : list (list A)) : List.NoDup (concat ls) -> (forall l, In l ls -> l <> []) -> List.NoDup ls.
Proof.
  induction ls as [|l ls IH]; intros N E; [constructor|]. cbn [concat] in N. apply NoDup_ListNoDup, NoDup_app in N.
  destruct N as (N1 & N2 & N3). constructor.
  - intros I. destruct l as [|x l]; [apply (E []); [left; reflexivity|reflexivity]|].
    apply (N2 x); [left|]. apply elem_of_list_In, in_concat. exists (x :: l). split; [exact I|left; reflexivity].
  - apply IH; [apply NoDup_ListNoDup, N3|]. intros m Hm. apply E. right. exact Hm.
Qed.
Lemma c37_chains : forall (B : Type) (h : heap) (tiers : list B) (cs : list cid) (chs : list (list cid)),
  class_table h -> (forall ch, In ch chs -> exists t b, class_chain h t ch b) ->
  Permutation cs (concat chs) -> NoDup cs -> (2 <= List.length chs)%nat -> (List.length cs <= List.length tiers)%nat ->
  exists gs css, nestify tiers (Flat cs) h = Ok (gs, css) h /\ Permutation css chs /\
    keep_if (top_class h) cs (map (hd 0%nat) css) /\
    map (@List.length B) gs = map (@List.length cid) css /\
    (forall i g ch j t c, nth_error gs i = Some g -> nth_error css i = Some ch ->
       nth_error g j = Some t -> nth_error ch j = Some c ->
       exists k, nth_error cs k = Some c /\ nth_error tiers k = Some t).
Proof.
  intros B h tiers cs chs T CH PE ND L2 LT.
  assert (NDc : List.NoDup (concat chs)) by (apply NoDup_ListNoDup; rewrite <- PE; exact ND).
  assert (INc : forall c, In c cs <-> In c (concat chs)).
  { intros c. split; apply Permutation_in; [exact PE|symmetry; exact PE]. }
  assert (NE : forall ch, In ch chs -> ch <> []).
  { intros ch Hc. destruct (CH ch Hc) as (t & b & _ & X & _). exact X. }
  assert (IV : forall c, In c cs -> interval_class h c).
  { intros c Hc. apply INc, in_concat in Hc. destruct Hc as (ch & H1 & H2). destruct (CH ch H1) as (t & b & C).
    split.
    - destruct C as (_ & _ & _ & _ & C5 & _). apply (kinds_apart h c cInterval cPoint T); simpl; auto.
    - apply in_split in H2. destruct H2 as (pre & suf & ->). rewrite (chain_super _ _ _ _ _ _ _ C eq_refl). discriminate. }
  assert (TOP : forall ch c, In ch chs -> In c ch -> top_class h c <-> exists suf, ch = c :: suf).
  { intros ch c H1 H2. destruct (CH ch H1) as (t & b & C). split.
    - intros (s & S1 & S2). apply in_split in H2. destruct H2 as (pre & suf & E).
      rewrite (chain_super _ _ _ _ _ _ _ C E) in S1. injection S1 as S1.
      destruct pre as [|p pre]; [eauto|]. exfalso.
      assert (In s ch). { rewrite E, <- S1. apply in_app_iff. left. apply last_in. discriminate. }
      destruct C as (_ & _ & _ & _ & C5 & _). specialize (C5 s H).
      rewrite (kinds_apart h s cInterval cTop T) in S2; simpl; auto; discriminate.
    - intros [suf E]. exists t. split; [exact (chain_super _ _ _ _ [] _ _ C E)|]. apply C. }
  assert (HD : forall ch, In ch chs -> exists c suf, ch = c :: suf).
  { intros ch Hc. specialize (NE ch Hc). destruct ch; [congruence|eauto]. }
  set (Q := fun (i : nat) (g : list (B * cid)) => exists ch, In ch chs /\ map snd g = ch /\ nth_error cs i = head ch /\
         forall t c, In (t, c) g -> exists k, nth_error cs k = Some c /\ nth_error tiers k = Some t).
  destruct (mapM_read (fun i => t <- of_opt IndexError (nth_error tiers i) ;; c <- of_opt IndexError (nth_error cs i) ;;
              ds <- chase_down (S (List.length cs)) cs tiers c ;; ret ((t, c) :: ds)) Q h (tops_of h cs)) as (r & R1 & R2).
  { intros i Hi. apply in_tops in Hi. destruct Hi as (c & C1 & C2).
    assert (Ic : In c cs) by (eapply nth_error_In; exact C1). apply INc, in_concat in Ic. destruct Ic as (ch & H1 & H2).
    destruct (proj1 (TOP ch c H1 H2) C2) as [suf E]. destruct (CH ch H1) as (t & b & C).
    destruct (nth_error tiers i) as [ti|] eqn:Ti.
    2:{ exfalso. apply nth_error_None in Ti. assert (X : nth_error cs i <> None) by congruence. apply nth_error_Some in X. lia. }
    destruct (chase_spec h t ch b cs tiers T C) with (suf := suf) (n := S (List.length cs)) (pre := @nil nat) (x := c)
      as (ds & D1 & D2 & D3); auto.
    { intros d Hd. apply INc, in_concat. eauto. }
    { assert (List.length suf <= List.length cs)%nat; [|lia]. rewrite (Permutation_length PE).
      apply NoDup_incl_length.
      - destruct C as (CN & _). apply NoDup_ListNoDup in CN. rewrite E in CN. inversion CN; assumption.
      - intros d Hd. apply in_concat. exists ch. split; [exact H1|]. rewrite E. right. exact Hd. }
    exists ((ti, c) :: ds). cbn [of_opt]. rewrite bind_ret, C1. cbn [of_opt]. rewrite bind_ret, (bind_ok _ _ _ _ _ D1).
    split; [reflexivity|]. exists ch. split; [exact H1|]. split; [cbn; rewrite D2, E; reflexivity|].
    split; [rewrite E; exact C1|]. intros t' c' [X|X]; [injection X as <- <-; eauto|eauto]. }
  set (css := map (map snd) r).
  assert (F : Forall2 (fun i ch => In ch chs /\ nth_error cs i = head ch) (tops_of h cs) css).
  { apply Forall2_map_r. eapply Forall2_impl; [exact R2|]. intros i g (ch & G1 & G2 & G3 & _). rewrite G2. auto. }
  assert (HDS : map head css = map Some (List.filter (is_top h) cs)).
  { rewrite <- (tops_values (is_top h) cs 0). fold (tops_of h cs). clear -F.
    induction F as [|i ch ti css' [A A'] F IH]; [reflexivity|]. cbn [map]. rewrite IH, Nat.sub_0_r, A'. reflexivity. }
  assert (MEM : forall ch, In ch css <-> In ch chs).
  { intros ch. split.
    - intros I. destruct (Forall2_in_r _ _ _ _ F I) as (i & _ & Y & _). exact Y.
    - intros I. destruct (HD ch I) as (c & suf & E). assert (Ic : In c cs).
      { apply INc, in_concat. exists ch. split; [exact I|]. rewrite E. left; reflexivity. }
      assert (X : In (Some c) (map head css)).
      { rewrite HDS. apply in_map, filter_In. split; [exact Ic|]. apply is_top_spec. apply (TOP ch c I); [rewrite E; left; reflexivity|eauto]. }
      apply in_map_iff in X. destruct X as (ch' & X1 & X2). destruct (Forall2_in_r _ _ _ _ F X2) as (i & _ & Y & _).
      assert (ch' = ch); [|subst; exact X2]. apply (in_concat_nodup chs c); auto.
      + destruct ch' as [|c' suf']; [discriminate|]. injection X1 as ->. left. reflexivity.
      + rewrite E. left. reflexivity. }
  assert (NDr : List.NoDup css).
  { apply (List.NoDup_map_inv head). rewrite HDS. apply NoDup_ListNoDup in ND.
    apply FinFun.Injective_map_NoDup; [intros x y X; congruence|]. apply nodup_filter, ND. }
  assert (PC : Permutation css chs).
  { apply NoDup_Permutation; [apply NoDup_ListNoDup, NDr|apply NoDup_ListNoDup, nodup_of_concat; auto|].
    intros ch. rewrite !elem_of_list_In. apply MEM. }
  assert (LTp : List.length (tops_of h cs) = List.length chs).
  { rewrite <- (Permutation_length PC). eapply Forall2_length, F. }
  exists (map (map fst) r), css. split; [|split; [exact PC|split; [|split]]].
  - unfold nestify, extend_classes. pose proof (Permutation_length PC) as PL.
    rewrite (bind_ok _ _ h (Flat cs) h).
    + rewrite (bind_ok _ _ _ _ _ (top_idxes_ok _ _ IV)). destruct (Nat.leb_spec (List.length (tops_of h cs)) 1); [lia|].
      rewrite (bind_ok _ _ _ _ _ R1). reflexivity.
    + assert (Lc : (2 <= List.length cs)%nat).
      { rewrite (Permutation_length PE). clear -L2 NE. destruct chs as [|a [|b chs]]; simpl in L2; try lia.
        cbn [concat]. rewrite !app_length. pose proof (NE a (or_introl eq_refl)). pose proof (NE b (or_intror (or_introl eq_refl))).
        destruct a, b; try congruence. simpl. lia. }
      destruct cs as [|c cs']; [simpl in Lc; lia|]. rewrite (bind_ok _ _ _ _ _ (top_idxes_ok _ _ IV)).
      destruct (Nat.eqb_spec (List.length (c :: cs')) 1); [lia|]. destruct (Nat.leb_spec (List.length (tops_of h (c :: cs'))) 1); [lia|].
      reflexivity.
  - assert (X : map (hd 0%nat) css = List.filter (is_top h) cs).
    { clear -HDS. revert HDS. generalize (List.filter (is_top h) cs). induction css as [|ch css' IH]; intros [|x l] E; try discriminate; [reflexivity|].
      cbn [map] in *. injection E as E1 E2. rewrite (IH _ E2). destruct ch; [discriminate|]. injection E1 as ->. reflexivity. }
    rewrite X. apply keep_filter. apply is_top_spec.
  - unfold css. rewrite !map_map. apply map_ext. intros g. rewrite !map_length. reflexivity.
  - intros i g ch j t c G1 G2 G3 G4. unfold css in G2. rewrite nth_error_map in G1, G2.
    destruct (nth_error r i) as [p|] eqn:Ri; [|discriminate]. injection G1 as <-. injection G2 as <-.
    apply nth_error_In in Ri. destruct (Forall2_in_r _ _ _ _ R2 Ri) as (i' & _ & ch & _ & _ & _ & Y).
    rewrite nth_error_map in G3, G4. destruct (nth_error p j) as [[t' c']|] eqn:Pj; [|discriminate].
    injection G3 as <-. injection G4 as <-. apply (Y t' c'). eapply nth_error_In, Pj.
Qed.
