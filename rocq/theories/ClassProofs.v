(** * ClassProofs: class attributes, issubclass, and the two setters. *)
From Verif Require Export HeapProofs Spec.
Open Scope string_scope.
Open Scope Z_scope.

(** ** Tables whose bases come first *)
Global Instance clive_dec h c : Decision (clive h c).
Proof. unfold clive. apply _. Defined.

Definition wf (h : heap) : Prop := forall c b, c_base (cob h c) = Some b -> (b < c)%nat.
Lemma table_wf h : class_table h -> wf h.
Proof. intros (_ & A & _). exact A. Qed.

Lemma clookup h c : clive h c -> h_cls h !! c = Some (cob h c).
Proof.
  intros L. destruct (lookup_lt_is_Some_2 (h_cls h) c L) as [k E]. unfold cob. rewrite E. reflexivity.
Qed.
Lemma cob_dead h c : ~ clive h c -> cob h c = blank_cls.
Proof. intros L. unfold cob. rewrite lookup_ge_None_2; [reflexivity|]. unfold clive in L. lia. Qed.
Lemma base_live h c b : wf h -> clive h c -> c_base (cob h c) = Some b -> clive h b.
Proof. intros W L E. pose proof (W c b E). unfold clive in *. lia. Qed.

Lemma attr_fuel h sel : wf h -> forall c n m, (c < n)%nat -> (c < m)%nat ->
  attr_lookup sel n (h_cls h) c = attr_lookup sel m (h_cls h) c.
Proof.
  intros W. induction c as [c IH] using lt_wf_ind. intros [|n] [|m] Hn Hm; try lia. simpl.
  destruct (h_cls h !! c) as [k|] eqn:E; [|reflexivity].
  destruct (sel k) as [|v]; [|reflexivity]. destruct (c_base k) as [b|] eqn:Eb; [|reflexivity].
  assert (b < c)%nat. { apply (W c b). unfold cob. rewrite E. exact Eb. }
  apply IH; lia.
Qed.
Lemma attr_step h sel c : wf h -> clive h c ->
  attr_lookup sel (List.length (h_cls h)) (h_cls h) c =
  match sel (cob h c) with
  | Own v => v
  | Inherit => match c_base (cob h c) with
               | Some b => attr_lookup sel (List.length (h_cls h)) (h_cls h) b
               | None => None end
  end.
Proof.
  intros W L. rewrite (attr_fuel h sel W c _ (S (List.length (h_cls h)))) by (unfold clive in L; lia).
  cbn [attr_lookup]. rewrite (clookup h c L). reflexivity.
Qed.
Definition attr (up : bool) : clsobj -> cattrib := if up then c_super else c_sub.
Definition look (up : bool) (h : heap) (c : cid) : option cid :=
  if up then superset_class h c else subset_class h c.
Lemma look_attr up h c : look up h c = attr_lookup (attr up) (List.length (h_cls h)) (h_cls h) c.
Proof. destruct up; reflexivity. Qed.
Lemma look_step up h c : wf h -> clive h c ->
  look up h c = match attr up (cob h c) with
                | Own v => v
                | Inherit => match c_base (cob h c) with Some b => look up h b | None => None end
                end.
Proof.
  intros W L. rewrite look_attr, attr_step by auto. destruct (attr up (cob h c)); [|reflexivity].
  destruct (c_base (cob h c)); [rewrite look_attr|]; reflexivity.
Qed.
Lemma look_own up h c v : clive h c -> attr up (cob h c) = Own v -> look up h c = v.
Proof.
  intros L E. rewrite look_attr. destruct (List.length (h_cls h)) as [|n] eqn:En; [unfold clive in L; lia|].
  cbn [attr_lookup]. rewrite (clookup h c L), E. reflexivity.
Qed.
(** Lookup reads only the class and its bases. *)
Lemma look_ext up h h' : wf h -> wf h' -> forall c, clive h c -> clive h' c ->
  (forall k, (k <= c)%nat -> c_base (cob h' k) = c_base (cob h k) /\ attr up (cob h' k) = attr up (cob h k)) ->
  look up h' c = look up h c.
Proof.
  intros W W'. induction c as [c IH] using lt_wf_ind. intros L L' E.
  rewrite !look_step by auto. destruct (E c) as [-> ->]; [lia|].
  destruct (attr up (cob h c)); [|reflexivity]. destruct (c_base (cob h c)) as [b|] eqn:Eb; [|reflexivity].
  pose proof (W c b Eb). unfold clive in *. apply IH; [lia|lia|lia|]. intros k Hk. apply E. lia.
Qed.

(** ** issubclass *)
Lemma sub_fuel h d : wf h -> forall c n m, (c < n)%nat -> (c < m)%nat ->
  is_sub n (h_cls h) c d = is_sub m (h_cls h) c d.
Proof.
  intros W. induction c as [c IH] using lt_wf_ind. intros [|n] [|m] Hn Hm; try lia. simpl.
  destruct (Nat.eqb c d); [reflexivity|]. destruct (h_cls h !! c) as [k|] eqn:E; [|reflexivity].
  destruct (c_base k) as [b|] eqn:Eb; [|reflexivity].
  assert (b < c)%nat. { apply (W c b). unfold cob. rewrite E. exact Eb. }
  apply IH; lia.
Qed.
Lemma sub_step h c d : wf h -> clive h c ->
  issubclass h c d = Nat.eqb c d || match c_base (cob h c) with Some b => issubclass h b d | None => false end.
Proof.
  intros W L. unfold issubclass at 1. cbn [is_sub]. destruct (Nat.eqb c d); [reflexivity|].
  rewrite (clookup h c L). cbn [orb]. destruct (c_base (cob h c)) as [b|] eqn:Eb; [|reflexivity].
  pose proof (W c b Eb). unfold clive in L. unfold issubclass. apply (sub_fuel h d W); lia.
Qed.
Lemma sub_refl h c : issubclass h c c = true.
Proof. unfold issubclass. simpl. rewrite Nat.eqb_refl. reflexivity. Qed.
Lemma sub_dead h c d : ~ clive h c -> issubclass h c d = Nat.eqb c d.
Proof.
  intros L. unfold issubclass. cbn [is_sub]. destruct (Nat.eqb c d); [reflexivity|].
  rewrite lookup_ge_None_2; [reflexivity|]. unfold clive in L. lia.
Qed.
Lemma sub_trans h a b c : wf h -> issubclass h a b = true -> issubclass h b c = true -> issubclass h a c = true.
Proof.
  intros W. revert a. induction a as [a IH] using lt_wf_ind. intros A B.
  destruct (decide (clive h a)) as [L|L].
  - rewrite sub_step in * by auto. destruct (Nat.eqb a b) eqn:E.
    + apply Nat.eqb_eq in E. subst. rewrite sub_step in B by auto. exact B.
    + cbn [orb] in A. destruct (c_base (cob h a)) as [k|] eqn:Ek; [|discriminate].
      rewrite (IH k (W a k Ek) A B). apply orb_true_r.
  - rewrite sub_dead in A by auto. apply Nat.eqb_eq in A. subst. exact B.
Qed.
(** The classes above a class form one line. *)
Lemma sub_line h a b c : wf h -> issubclass h c a = true -> issubclass h c b = true ->
  issubclass h a b = true \/ issubclass h b a = true.
Proof.
  intros W. revert c. induction c as [c IH] using lt_wf_ind. intros A B.
  destruct (decide (clive h c)) as [L|L].
  - pose proof A as A'. pose proof B as B'. rewrite sub_step in A, B by auto.
    destruct (Nat.eqb c a) eqn:Ea; [apply Nat.eqb_eq in Ea; subst; auto|].
    destruct (Nat.eqb c b) eqn:Eb; [apply Nat.eqb_eq in Eb; subst; auto|].
    cbn [orb] in A, B. destruct (c_base (cob h c)) as [k|] eqn:Ek; [|discriminate].
    apply (IH k (W c k Ek)); auto.
  - rewrite sub_dead in A, B by auto. apply Nat.eqb_eq in A, B. subst. left. apply sub_refl.
Qed.
Lemma sub_ext h h' : wf h -> wf h' -> forall c d, clive h c -> clive h' c ->
  (forall k, (k <= c)%nat -> c_base (cob h' k) = c_base (cob h k)) ->
  issubclass h' c d = issubclass h c d.
Proof.
  intros W W'. induction c as [c IH] using lt_wf_ind. intros d L L' E.
  rewrite !sub_step by auto. rewrite (E c) by lia. destruct (Nat.eqb c d); [reflexivity|]. cbn [orb].
  destruct (c_base (cob h c)) as [b|] eqn:Eb; [|reflexivity].
  pose proof (W c b Eb). unfold clive in *. apply IH; [lia|lia|lia|]. intros k Hk. apply E. lia.
Qed.

(** Where the library's own classes stand. *)
Lemma table_live h c : class_table h -> (c < 5)%nat -> clive h c.
Proof. intros (A & _) L. unfold clive. lia. Qed.
Lemma hier_subs h d : class_table h -> issubclass h cHierarchyPart d = Nat.eqb cHierarchyPart d.
Proof.
  intros T. rewrite sub_step; [|apply table_wf; auto|apply table_live; auto; cbv; lia].
  destruct T as (_ & _ & -> & _). apply orb_false_r.
Qed.
Lemma kind_subs h c d : class_table h -> In c [cTop; cBottom; cInterval] ->
  issubclass h c d = Nat.eqb c d || Nat.eqb cHierarchyPart d.
Proof.
  intros T Hc. rewrite sub_step; [|apply table_wf; auto|apply table_live; auto; destruct Hc as [<-|[<-|[<-|[]]]]; cbv; lia].
  replace (c_base (cob h c)) with (Some cHierarchyPart).
  - rewrite hier_subs by auto. reflexivity.
  - destruct T as (_ & _ & _ & T1 & T2 & T3 & _). destruct Hc as [<-|[<-|[<-|[]]]]; auto.
Qed.
Lemma point_subs h d : class_table h -> issubclass h cPoint d = Nat.eqb cPoint d.
Proof.
  intros T. rewrite sub_step; [|apply table_wf; auto|apply table_live; auto; cbv; lia].
  destruct T as (_ & _ & _ & _ & _ & _ & ->). apply orb_false_r.
Qed.
Lemma kinds_apart h c k1 k2 : class_table h -> In k1 [cTop; cBottom; cInterval; cPoint] ->
  In k2 [cTop; cBottom; cInterval; cPoint] -> k1 <> k2 ->
  issubclass h c k1 = true -> issubclass h c k2 = false.
Proof.
  intros T A B N E. destruct (issubclass h c k2) eqn:E2; [|reflexivity]. exfalso.
  assert (F : forall a b, In a [cTop; cBottom; cInterval; cPoint] -> In b [cTop; cBottom; cInterval; cPoint] ->
     a <> b -> issubclass h a b = false).
  { intros a b Ha Hb Hn. destruct (in_dec Nat.eq_dec a [cTop; cBottom; cInterval]) as [Hi|Hi].
    - rewrite kind_subs by auto. rewrite (proj2 (Nat.eqb_neq a b)) by auto.
      simpl in Hb. destruct Hb as [<-|[<-|[<-|[<-|[]]]]]; reflexivity.
    - assert (a = cPoint) as ->. { destruct Ha as [X|[X|[X|[X|[]]]]]; subst; auto; exfalso; apply Hi; simpl; auto. } rewrite point_subs by auto.
      apply Nat.eqb_neq; auto. }
  destruct (sub_line h k1 k2 c (table_wf h T) E E2) as [X|X]; rewrite F in X; auto; discriminate.
Qed.
Lemma kind_hier h c k : class_table h -> In k [cTop; cBottom; cInterval] -> issubclass h c k = true ->
  issubclass h c cHierarchyPart = true.
Proof.
  intros T A E. eapply sub_trans; [apply table_wf; auto|exact E|]. rewrite kind_subs by auto. apply orb_true_r.
Qed.
Lemma sub_live h c k : class_table h -> (k < 5)%nat -> issubclass h c k = true -> clive h c.
Proof.
  intros T K E. destruct (decide (clive h c)) as [L|L]; auto. rewrite sub_dead in E by auto.
  apply Nat.eqb_eq in E. subst. apply table_live; auto.
Qed.

(** ** The two setters *)
Definition setf (up : bool) (x : option cid) : clsobj -> clsobj :=
  if up then set_c_super (Own x) else set_c_sub (Own x).
Definition hold (up : bool) : string := if up then "Top" else "Bottom".
Lemma attr_setf up x k : attr up (setf up x k) = Own x.
Proof. destruct up; reflexivity. Qed.
Lemma attr_setf_other up x k : attr (negb up) (setf up x k) = attr (negb up) k.
Proof. destruct up; reflexivity. Qed.
Lemma attr_setf_other' up x k : attr up (setf (negb up) x k) = attr up k.
Proof. destruct up; reflexivity. Qed.
Lemma base_setf up x k : c_base (setf up x k) = c_base k.
Proof. destruct up; reflexivity. Qed.
Lemma name_setf up x k : c_name (setf up x k) = c_name k.
Proof. destruct up; reflexivity. Qed.
Lemma clive_upd h i f c : clive (upd_cls i f h) c <-> clive h c.
Proof. unfold clive. rewrite len_upd_cls. tauto. Qed.
Lemma cob_base_upd h up x i k : c_base (cob (upd_cls i (setf up x) h) k) = c_base (cob h k).
Proof.
  destruct (decide (clive h i)) as [L|L].
  - rewrite cob_upd by auto. destruct (decide (k = i)); subst; [apply base_setf|reflexivity].
  - destruct (decide (k = i)) as [->|N]; [|rewrite cob_upd_ne; auto].
    rewrite !cob_dead; auto. rewrite clive_upd. auto.
Qed.
Lemma sub_upd h up x i c d : issubclass (upd_cls i (setf up x) h) c d = issubclass h c d.
Proof.
  unfold issubclass. rewrite len_upd_cls. generalize (S (List.length (h_cls h))). intros n. revert c.
  induction n as [|n IH]; intros c; [reflexivity|]. cbn [is_sub]. destruct (Nat.eqb c d); [reflexivity|].
  pose proof (cob_base_upd h up x i c) as B. unfold cob in B. unfold upd_cls in *. cbn [h_cls] in *.
  destruct (decide (c = i)) as [->|N].
  - rewrite list_lookup_alter in *. destruct (h_cls h !! i) as [k|]; cbn in *; [|reflexivity].
    rewrite base_setf. destruct (c_base k); [apply IH|reflexivity].
  - rewrite list_lookup_alter_ne by auto. destruct (h_cls h !! c) as [k|]; [|reflexivity].
    destruct (c_base k); [apply IH|reflexivity].
Qed.
Lemma look_upd_eq h up x c : clive h c -> look up (upd_cls c (setf up x) h) c = x.
Proof.
  intros L. apply look_own; [apply clive_upd; auto|]. rewrite cob_upd_eq by auto. apply attr_setf.
Qed.

(** The state after a successful call. *)
Definition linked_classes (up : bool) (c d : cid) (h : heap) : heap :=
  let h1 := upd_cls c (setf up (Some d)) h in
  if decide (look (negb up) h1 d = Some c) then h1 else upd_cls d (setf (negb up) (Some c)) h1.
Lemma set_hier_none n up c h : set_hier (S n) up c None h = Ok tt (upd_cls c (setf up None) h).
Proof. destruct up; reflexivity. Qed.
Lemma set_hier_held n up c d h : str_in (hold up) (c_name (cob h c)) = true ->
  set_hier (S n) up c (Some d) h = Ok tt (upd_cls c (setf up None) h).
Proof. intros E. cbn [set_hier]. mstep. destruct up; unfold hold in E; rewrite E; reflexivity. Qed.
Lemma set_hier_bad n up c d h : str_in (hold up) (c_name (cob h c)) = false ->
  issubclass h d cHierarchyPart = false \/ d = c ->
  set_hier (S n) up c (Some d) h = Raise PyException h.
Proof.
  intros E B. cbn [set_hier]. mstep. destruct up; unfold hold in E; rewrite E; mstep;
    (destruct B as [B|B]; rewrite B; [reflexivity|rewrite Nat.eqb_refl, andb_false_r; reflexivity]).
Qed.
Lemma set_hier_step n up c d h : str_in (hold up) (c_name (cob h c)) = false ->
  issubclass h d cHierarchyPart = true -> d <> c ->
  set_hier (S n) up c (Some d) h =
  let h1 := upd_cls c (setf up (Some d)) h in
  if decide (look (negb up) h1 d = Some c) then Ok tt h1 else set_hier n (negb up) d (Some c) h1.
Proof.
  intros E B N. cbn [set_hier]. mstep.
  replace (str_in (if up then "Top" else "Bottom") (c_name (cob h c))) with false by (destruct up; auto).
  mstep. rewrite B, (proj2 (Nat.eqb_neq d c) N). cbn [negb andb]. mstep. mstep. cbv zeta.
  change (if up then set_c_super (Own (Some d)) else set_c_sub (Own (Some d))) with (setf up (Some d)).
  set (h1 := upd_cls c _ h).
  replace (if up then subset_class h1 d else superset_class h1 d) with (look (negb up) h1 d) by (destruct up; reflexivity).
  destruct (look (negb up) h1 d) as [b|].
  - destruct (Nat.eqb b c) eqn:Eb.
    + apply Nat.eqb_eq in Eb. subst. rewrite decide_True by auto. reflexivity.
    + apply Nat.eqb_neq in Eb. rewrite decide_False by congruence. reflexivity.
  - rewrite decide_False by congruence. reflexivity.
Qed.
Lemma set_hier_ok n up c d h : clive h c -> clive h d -> c <> d ->
  issubclass h c cHierarchyPart = true -> issubclass h d cHierarchyPart = true ->
  str_in (hold up) (c_name (cob h c)) = false -> str_in (hold (negb up)) (c_name (cob h d)) = false ->
  set_hier (S (S n)) up c (Some d) h = Ok tt (linked_classes up c d h).
Proof.
  intros Lc Ld N Hc Hd Ec Ed. rewrite set_hier_step by auto. unfold linked_classes. cbv zeta.
  set (h1 := upd_cls c _ h). destruct (decide (look (negb up) h1 d = Some c)) as [|Nb]; [reflexivity|].
  rewrite set_hier_step; [|unfold h1; rewrite cob_upd_ne by auto; exact Ed|unfold h1; rewrite sub_upd; auto|auto].
  cbv zeta. rewrite decide_True; [reflexivity|]. rewrite negb_involutive.
  apply look_own; [rewrite clive_upd; unfold h1; rewrite clive_upd; auto|].
  rewrite cob_upd_ne by auto. rewrite attr_setf_other' at 1 || idtac.
  unfold h1. rewrite cob_upd_eq by auto. apply attr_setf.
Qed.
Lemma linked_look up c d h : clive h c -> clive h d -> c <> d ->
  look up (linked_classes up c d h) c = Some d /\ look (negb up) (linked_classes up c d h) d = Some c.
Proof.
  intros Lc Ld N. unfold linked_classes. cbv zeta. set (h1 := upd_cls c _ h).
  assert (A : attr up (cob h1 c) = Own (Some d)) by (unfold h1; rewrite cob_upd_eq by auto; apply attr_setf).
  assert (L1 : forall k, clive h k -> clive h1 k) by (intros; unfold h1; rewrite clive_upd; auto).
  destruct (decide (look (negb up) h1 d = Some c)) as [E|E].
  - split; [|exact E]. apply look_own; auto.
  - split; [|apply look_upd_eq; auto]. apply look_own; [rewrite clive_upd; auto|].
    rewrite cob_upd_ne by auto. exact A.
Qed.
Lemma linked_len up c d h : List.length (h_cls (linked_classes up c d h)) = List.length (h_cls h).
Proof. unfold linked_classes. cbv zeta. destruct (decide _); rewrite ?len_upd_cls; auto. Qed.
Lemma linked_live up c d h k : clive (linked_classes up c d h) k <-> clive h k.
Proof. unfold clive. rewrite linked_len. tauto. Qed.
Lemma linked_other up c d h k : k <> c -> k <> d -> cob (linked_classes up c d h) k = cob h k.
Proof. intros A B. unfold linked_classes. cbv zeta. destruct (decide _); rewrite ?cob_upd_ne; auto. Qed.
Lemma linked_near up c d h : clive h c -> c <> d -> cob (linked_classes up c d h) c = setf up (Some d) (cob h c).
Proof.
  intros L N. unfold linked_classes. cbv zeta. destruct (decide _); rewrite ?(cob_upd_ne _ d) by auto; apply cob_upd_eq; auto.
Qed.
Lemma linked_far up c d h : clive h c -> clive h d -> c <> d ->
  cob (linked_classes up c d h) d = cob h d \/ cob (linked_classes up c d h) d = setf (negb up) (Some c) (cob h d).
Proof.
  intros L L' N. unfold linked_classes. cbv zeta. destruct (decide _).
  - left. apply cob_upd_ne; auto.
  - right. rewrite cob_upd_eq by (apply clive_upd; auto). rewrite cob_upd_ne by auto. reflexivity.
Qed.
Lemma linked_base up c d h k : c_base (cob (linked_classes up c d h) k) = c_base (cob h k).
Proof. unfold linked_classes. cbv zeta. destruct (decide _); rewrite ?cob_base_upd; auto. Qed.
Lemma linked_sub up c d h a b : issubclass (linked_classes up c d h) a b = issubclass h a b.
Proof. unfold linked_classes. cbv zeta. destruct (decide _); rewrite ?sub_upd; auto. Qed.
Lemma linked_rest up c d h : h_seq (linked_classes up c d h) = h_seq h /\ h_tier (linked_classes up c d h) = h_tier h /\
  h_grp (linked_classes up c d h) = h_grp h /\ h_grid (linked_classes up c d h) = h_grid h.
Proof. unfold linked_classes. cbv zeta. destruct (decide _); auto. Qed.

(** ** Names of the fresh Top and Bottom classes *)
Fixpoint has_char (a : ascii) (s : string) : bool :=
  match s with EmptyString => false | String b s' => Ascii.eqb a b || has_char a s' end.
Lemma str_in_char a p s : str_in (String a p) s = true -> has_char a s = true.
Proof.
  induction s as [|b s IH]; simpl; [discriminate|]. destruct (ascii_dec a b) as [->|N].
  - intros _. rewrite Ascii.eqb_refl. reflexivity.
  - intros E. rewrite IH; [apply orb_true_r|exact E].
Qed.
Lemma has_char_app a s1 s2 : has_char a (s1 ++ s2)%string = has_char a s1 || has_char a s2.
Proof.
  induction s1 as [|b s1 IH]; [reflexivity|].
  change (Ascii.eqb a b || has_char a (s1 ++ s2)%string = (Ascii.eqb a b || has_char a s1) || has_char a s2).
  rewrite IH, orb_assoc. reflexivity.
Qed.
Lemma digits_only a n : (57 < nat_of_ascii a)%nat -> has_char a (nat_str n) = false.
Proof.
  intros A.
  assert (G : forall f n acc, has_char a acc = false -> has_char a (nat_str_aux f n acc) = false).
  { induction f as [|f IH]; intros k acc E; simpl; [exact E|].
    assert (D : has_char a (String (digit (Nat.modulo k 10)) acc) = false).
    { simpl has_char. rewrite E, orb_false_r. apply Ascii.eqb_neq. intros ->.
      unfold digit in A. rewrite nat_ascii_embedding in A; pose proof (Nat.mod_upper_bound k 10); lia. }
    destruct (Nat.ltb k 10); [exact D|apply IH; exact D]. }
  apply G. reflexivity.
Qed.
Lemma top_name n : str_in "Bottom" ("Top_" ++ nat_str n)%string = false.
Proof.
  destruct (str_in "Bottom" _) eqn:E; [|reflexivity]. apply str_in_char in E. rewrite has_char_app in E.
  rewrite digits_only in E by (vm_compute; lia). discriminate E.
Qed.
Lemma bottom_name n : str_in "Top" ("Bottom_" ++ nat_str n)%string = false.
Proof.
  destruct (str_in "Top" _) eqn:E; [|reflexivity]. apply str_in_char in E. rewrite has_char_app in E.
  rewrite digits_only in E by (vm_compute; lia). discriminate E.
Qed.

(** ** Ancestors and preservation *)
Lemma sub_le h c d : wf h -> issubclass h c d = true -> (d <= c)%nat.
Proof.
  intros W. revert c. induction c as [c IH] using lt_wf_ind. intros E.
  destruct (decide (clive h c)) as [L|L].
  - rewrite sub_step in E by auto. destruct (Nat.eqb c d) eqn:Ed; [apply Nat.eqb_eq in Ed; lia|].
    cbn [orb] in E. destruct (c_base (cob h c)) as [b|] eqn:Eb; [|discriminate].
    pose proof (W c b Eb). pose proof (IH b H E). lia.
  - rewrite sub_dead in E by auto. apply Nat.eqb_eq in E. lia.
Qed.
Lemma anc_base h c b d : wf h -> clive h c -> c_base (cob h c) = Some b -> issubclass h c d = true ->
  d = c \/ (d <= b)%nat.
Proof.
  intros W L Eb E. rewrite sub_step in E by auto. destruct (Nat.eqb c d) eqn:Ed; [apply Nat.eqb_eq in Ed; auto|].
  cbn [orb] in E. rewrite Eb in E. right. apply (sub_le h); auto.
Qed.
Lemma look_anc up h h' : wf h -> wf h' -> forall c, clive h c -> clive h' c ->
  (forall k, issubclass h c k = true -> c_base (cob h' k) = c_base (cob h k) /\ attr up (cob h' k) = attr up (cob h k)) ->
  look up h' c = look up h c.
Proof.
  intros W W'. induction c as [c IH] using lt_wf_ind. intros L L' E.
  rewrite !look_step by auto. destruct (E c) as [-> ->]; [apply sub_refl|].
  destruct (attr up (cob h c)); [|reflexivity]. destruct (c_base (cob h c)) as [b|] eqn:Eb; [|reflexivity].
  pose proof (W c b Eb). unfold clive in *. apply IH; [lia|lia|lia|].
  intros k Hk. apply E. rewrite sub_step by auto. rewrite Eb, Hk. apply orb_true_r.
Qed.
Lemma wf_bases h h' : wf h -> (forall k, c_base (cob h' k) = c_base (cob h k)) -> wf h'.
Proof. intros W E c b Eb. rewrite E in Eb. apply (W c b Eb). Qed.
Lemma linked_wf up c d h : wf h -> wf (linked_classes up c d h).
Proof. intros W. apply (wf_bases h); auto. apply linked_base. Qed.
Lemma linked_keep up c d h u e : wf h -> clive h c -> clive h d -> c <> d -> clive h e ->
  (forall k, issubclass h e k = true -> k = e \/ (k <> c /\ k <> d)) ->
  (e <> c \/ u <> up) -> (e <> d \/ u = up) ->
  look u (linked_classes up c d h) e = look u h e.
Proof.
  intros W Lc Ld N Le A B C. apply look_anc; auto; [apply linked_wf; auto|apply linked_live; auto|].
  intros k Hk. split; [apply linked_base|].
  destruct (A k Hk) as [->|[K1 K2]]; [|rewrite linked_other by auto; reflexivity].
  destruct (decide (e = c)) as [->|N1].
  - rewrite linked_near by auto. assert (u = negb up) as -> by (destruct u, up, B; simpl; congruence).
    apply attr_setf_other.
  - destruct (decide (e = d)) as [->|N2]; [|rewrite linked_other by auto; reflexivity].
    destruct (linked_far up c d h) as [-> | ->]; auto. assert (u = up) as -> by (destruct C; congruence).
    apply attr_setf_other'.
Qed.

(** New classes do not disturb old ones. *)
Lemma clive_push o h c : clive h c -> clive (push_cls o h) c.
Proof. unfold clive, push_cls. simpl. rewrite app_length. simpl. lia. Qed.
Lemma clive_push_new o h : clive (push_cls o h) (List.length (h_cls h)).
Proof. unfold clive, push_cls. simpl. rewrite app_length. simpl. lia. Qed.
Lemma len_push_cls o h : List.length (h_cls (push_cls o h)) = S (List.length (h_cls h)).
Proof. unfold push_cls. simpl. rewrite app_length. simpl. lia. Qed.
Lemma wf_push o h : wf h -> (forall b, c_base o = Some b -> clive h b) -> wf (push_cls o h).
Proof.
  intros W B c b E. destruct (decide (clive h c)) as [L|L].
  - rewrite cob_push_old in E by auto. apply (W c b E).
  - destruct (decide (c = List.length (h_cls h))) as [->|N].
    + rewrite cob_push_new in E. apply (B b E).
    + rewrite cob_dead in E; [discriminate|]. unfold clive in *. rewrite len_push_cls. lia.
Qed.
Lemma kept_refl h : classes_kept h h.
Proof. unfold classes_kept. split; [lia|]. auto. Qed.
Lemma kept_trans h1 h2 h3 : classes_kept h1 h2 -> classes_kept h2 h3 -> classes_kept h1 h3.
Proof.
  intros (A1 & B1 & C1 & D1 & E1 & F1) (A2 & B2 & C2 & D2 & E2 & F2). split; [lia|]. split.
  - intros c L. rewrite B2 by lia. apply B1; auto.
  - repeat split; congruence.
Qed.
Lemma kept_push o h : classes_kept h (push_cls o h).
Proof.
  split; [rewrite len_push_cls; lia|]. split; [intros; apply cob_push_old; auto|]. auto.
Qed.
Lemma kept_linked up c d h0 h : classes_kept h0 h -> ~ clive h0 c -> ~ clive h0 d ->
  classes_kept h0 (linked_classes up c d h).
Proof.
  intros (A & B & C) Nc Nd. destruct (linked_rest up c d h) as (R1 & R2 & R3 & R4).
  split; [rewrite linked_len; auto|]. split; [|rewrite R1, R2, R3, R4; exact C].
  intros k L. rewrite linked_other; [apply B; auto|intros ->; auto|intros ->; auto].
Qed.
Lemma kept_look h h' u c : wf h -> wf h' -> classes_kept h h' -> clive h c -> look u h' c = look u h c.
Proof.
  intros W W' (A & B & _) L. apply look_anc; auto; [unfold clive in *; lia|].
  intros k Hk. pose proof (sub_le h c k W Hk). rewrite B; auto. unfold clive in *. lia.
Qed.
Lemma kept_sub h h' c d : wf h -> wf h' -> classes_kept h h' -> clive h c -> issubclass h' c d = issubclass h c d.
Proof.
  intros W W' (A & B & _) L. apply sub_ext; auto; [unfold clive in *; lia|].
  intros k Hk. rewrite B; auto. unfold clive in *. lia.
Qed.
Lemma kept_table h h' : class_table h -> wf h' -> classes_kept h h' -> class_table h'.
Proof.
  intros (L & W & T) W' (A & B & _). split; [lia|]. split; [exact W'|].
  assert (K : forall k, (k < 5)%nat -> cob h' k = cob h k) by (intros; apply B; lia).
  rewrite !K by (cbv; lia). exact T.
Qed.
Lemma kept_live h h' c : classes_kept h h' -> clive h c -> clive h' c.
Proof. intros (A & _) L. unfold clive in *. lia. Qed.
Lemma push_table o h : class_table h -> (forall b, c_base o = Some b -> clive h b) -> class_table (push_cls o h).
Proof. intros T B. apply (kept_table h); auto; [apply wf_push; auto; apply table_wf; auto|apply kept_push]. Qed.
Lemma linked_table up c d h : class_table h -> (5 <= c)%nat -> (5 <= d)%nat -> class_table (linked_classes up c d h).
Proof.
  intros (L & W & T) C D. split; [rewrite linked_len; auto|]. split; [apply linked_wf; auto|].
  assert (K : forall k, (k < 5)%nat -> cob (linked_classes up c d h) k = cob h k) by (intros; apply linked_other; lia).
  rewrite !K by (cbv; lia). exact T.
Qed.

(** ** Walking a chain *)
Definition pair_ok (h : heap) (c d : cid) : Prop := subset_class h c = Some d /\ superset_class h d = Some c.
Fixpoint walk (h : heap) (l : list cid) : Prop :=
  match l with c :: ((d :: _) as r) => pair_ok h c d /\ walk h r | _ => True end.
Lemma walk_nth h l : walk h l <->
  (forall i c d, nth_error l i = Some c -> nth_error l (S i) = Some d -> pair_ok h c d).
Proof.
  induction l as [|c [|d l] IH].
  - split; [intros _ [|i] ? ?; discriminate|intros _; exact I].
  - split; [intros _ [|i] a b _; [discriminate|]|intros _; exact I]. destruct i; discriminate.
  - change (walk h (c :: d :: l)) with (pair_ok h c d /\ walk h (d :: l)). rewrite IH. split.
    + intros [A B] [|i] a b; [|intros X Y; exact (B i a b X Y)]. simpl. intros [= <-] [= <-]. exact A.
    + intros A. split; [exact (A O c d eq_refl eq_refl)|]. intros i a b X Y. exact (A (S i) a b X Y).
Qed.
Lemma chain_walk h t cs b : class_chain h t cs b <->
  NoDup cs /\ cs <> [] /\ issubclass h t cTop = true /\ issubclass h b cBottom = true /\
  (forall c, In c cs -> issubclass h c cInterval = true) /\ walk h (t :: cs ++ [b]).
Proof. unfold class_chain. rewrite walk_nth. tauto. Qed.
Lemma walk_ext h h' l : (forall c, In c l -> (forall u, look u h' c = look u h c)) -> walk h l -> walk h' l.
Proof.
  induction l as [|c [|d l] IH]; auto. intros E [A B]. split.
  - destruct A as [A1 A2]. split.
    + rewrite <- A1. exact (E c (or_introl eq_refl) false).
    + rewrite <- A2. exact (E d (or_intror (or_introl eq_refl)) true).
  - apply IH; auto. intros x Hx. apply E. right. exact Hx.
Qed.

(** ** Changing the attributes of some classes only *)
Definition attrs_in (F : list cid) (h h' : heap) : Prop :=
  List.length (h_cls h') = List.length (h_cls h) /\
  (forall k, c_base (cob h' k) = c_base (cob h k)) /\ (forall k, c_name (cob h' k) = c_name (cob h k)) /\
  (forall k, ~ In k F -> cob h' k = cob h k) /\
  h_seq h' = h_seq h /\ h_tier h' = h_tier h /\ h_grp h' = h_grp h /\ h_grid h' = h_grid h.
Lemma attrs_refl F h : attrs_in F h h.
Proof. unfold attrs_in. auto 10. Qed.
Lemma attrs_trans F h1 h2 h3 : attrs_in F h1 h2 -> attrs_in F h2 h3 -> attrs_in F h1 h3.
Proof.
  intros (A1 & A2 & A3 & A4 & A5 & A6 & A7 & A8) (B1 & B2 & B3 & B4 & B5 & B6 & B7 & B8).
  split; [congruence|]. split; [intros; rewrite B2; auto|]. split; [intros; rewrite B3; auto|].
  split; [intros; rewrite B4; auto|]. repeat split; congruence.
Qed.
Lemma attrs_incl F G h h' : incl F G -> attrs_in F h h' -> attrs_in G h h'.
Proof. intros I (A1 & A2 & A3 & A4 & A5). split; [auto|]. split; [auto|]. split; [auto|]. split; auto. Qed.
Lemma linked_name up c d h k : c_name (cob (linked_classes up c d h) k) = c_name (cob h k).
Proof.
  unfold linked_classes. cbv zeta.
  assert (G : forall i u x g j, c_name (cob (upd_cls i (setf u x) g) j) = c_name (cob g j)).
  { intros. destruct (decide (clive g i)) as [L|L].
    - rewrite cob_upd by auto. destruct (decide (j = i)); subst; [apply name_setf|reflexivity].
    - destruct (decide (j = i)) as [->|N]; [|rewrite cob_upd_ne; auto].
      rewrite !cob_dead; auto. rewrite clive_upd. auto. }
  destruct (decide _); rewrite ?G; auto.
Qed.
Lemma attrs_linked up c d h F : In c F -> In d F -> attrs_in F h (linked_classes up c d h).
Proof.
  intros C D. split; [apply linked_len|]. split; [apply linked_base|]. split; [apply linked_name|].
  split; [|apply linked_rest]. intros k K. apply linked_other; intros ->; auto.
Qed.
Lemma attrs_wf F h h' : attrs_in F h h' -> wf h -> wf h'.
Proof. intros (_ & B & _) W. apply (wf_bases h); auto. Qed.
Lemma attrs_live F h h' c : attrs_in F h h' -> clive h c -> clive h' c.
Proof. intros (L & _). unfold clive. rewrite L. auto. Qed.
Lemma attrs_sub F h h' c d : wf h -> attrs_in F h h' -> issubclass h' c d = issubclass h c d.
Proof.
  intros W A. destruct (decide (clive h c)) as [L|L].
  - apply sub_ext; auto; [eapply attrs_wf; eauto|eapply attrs_live; eauto|]. intros. apply A.
  - rewrite !sub_dead; auto. unfold clive in *. destruct A as (-> & _). exact L.
Qed.
Lemma attrs_look F h h' u c : wf h -> attrs_in F h h' -> clive h c ->
  (forall k, issubclass h c k = true -> ~ In k F) -> look u h' c = look u h c.
Proof.
  intros W A L K. apply look_anc; auto; [eapply attrs_wf; eauto|eapply attrs_live; eauto|].
  intros k Hk. destruct A as (_ & _ & _ & A & _). rewrite A; auto.
Qed.
Lemma attrs_kept F h0 h h' : attrs_in F h h' -> classes_kept h0 h -> (forall k, In k F -> ~ clive h0 k) -> classes_kept h0 h'.
Proof.
  intros (A1 & _ & _ & A4 & A5 & A6 & A7 & A8) (B1 & B2 & B3 & B4 & B5 & B6) K.
  split; [lia|]. split; [|repeat split; congruence].
  intros c L. rewrite A4; [apply B2; auto|]. intros X. exact (K c X L).
Qed.

(** Classes that can be linked to one another: none derives from another. *)
Definition apart (h : heap) (F : list cid) : Prop :=
  forall e k, In e F -> In k F -> issubclass h e k = true -> k = e.
Definition linkable (h : heap) (c : cid) : Prop := clive h c /\ issubclass h c cHierarchyPart = true.
Lemma apart_incl h F G : incl F G -> apart h G -> apart h F.
Proof. intros I A e k He Hk. apply A; auto. Qed.
Lemma apart_attrs X F h h' : wf h -> attrs_in X h h' -> apart h F -> apart h' F.
Proof. intros W A P e k He Hk. rewrite (attrs_sub X h h') by auto. apply P; auto. Qed.
Lemma linkable_attrs X h h' c : wf h -> attrs_in X h h' -> linkable h c -> linkable h' c.
Proof. intros W A [L S]. split; [eapply attrs_live; eauto|]. rewrite (attrs_sub X h h'); auto. Qed.

Lemma wire_rest b : forall cs h, wf h -> NoDup (cs ++ [b]) -> apart h (cs ++ [b]) ->
  (forall c, In c cs -> linkable h c /\ plain_name (c_name (cob h c))) ->
  linkable h b -> str_in "Top" (c_name (cob h b)) = false -> forall t, cs <> [] ->
  exists h', wire_chain false t b cs h = Ok tt h' /\ walk h' (cs ++ [b]) /\ attrs_in (cs ++ [b]) h h' /\
    (forall c, hd_error cs = Some c -> look true h' c = look true h c).
Proof.
  induction cs as [|c [|d cs] IH]; intros h W ND AP LC LB NB t NE; [congruence| |].
  - destruct (LC c (or_introl eq_refl)) as [[Lc Hc] [P1 P2]].
    assert (c <> b) as Ncb. { apply NoDup_cons in ND. destruct ND as [X _]. intros ->. apply X. left. }
    destruct LB as [Lb Hb].
    assert (E : set_subset_class c (Some b) h = Ok tt (linked_classes false c b h)).
    { apply set_hier_ok; auto. }
    exists (linked_classes false c b h). split.
    { cbn [wire_chain]. unfold when. rewrite bind_ret, (bind_ok _ _ _ _ _ E). reflexivity. }
    destruct (linked_look false c b h Lc Lb Ncb) as [K1 K2].
    split; [exact (conj (conj K1 K2) I)|]. split; [apply attrs_linked; simpl; auto|].
    intros x [= <-]. apply linked_keep; auto. intros k Hk.
    destruct (in_dec Nat.eq_dec k [c; b]) as [J|J]; [left; apply (AP c k); auto; left; auto|].
    right. split; intros ->; apply J; simpl; auto.
  - destruct (LC c (or_introl eq_refl)) as [[Lc Hc] [P1 P2]].
    destruct (LC d (or_intror (or_introl eq_refl))) as [[Ld Hd] [Q1 Q2]].
    pose proof ND as ND'. simpl in ND'. apply NoDup_cons in ND'. destruct ND' as [Nc ND'].
    assert (c <> d) as Ncd. { intros ->. apply Nc. left. }
    assert (E : set_subset_class c (Some d) h = Ok tt (linked_classes false c d h)).
    { apply set_hier_ok; auto. }
    set (h1 := linked_classes false c d h) in *.
    assert (A1 : attrs_in (c :: (d :: cs) ++ [b]) h h1).
    { apply attrs_linked; simpl; auto. }
    pose proof (attrs_wf _ _ _ A1 W) as W1.
    destruct (IH h1) with (t := t) as (h' & E' & WK & A' & K); auto.
    + apply (apart_attrs (c :: (d :: cs) ++ [b]) _ h); auto. eapply apart_incl; [|exact AP]. intros x Hx. right. exact Hx.
    + intros x Hx. destruct (LC x (or_intror Hx)) as [X1 X2].
      split; [exact (linkable_attrs _ h h1 _ W A1 X1)|].
rewrite (proj1 (proj2 (proj2 A1))). exact X2.
    + exact (linkable_attrs _ h h1 _ W A1 LB).
    + rewrite (proj1 (proj2 (proj2 A1))). exact NB.
    + assert (Kc : forall u, look u h' c = look u h1 c).
      { intros u. apply (attrs_look _ _ _ _ _ W1 A'); [apply (attrs_live _ h h1 _ A1); auto|].
        intros k Hk Hin. rewrite (attrs_sub _ h h1 c k W A1) in Hk.
        assert (k = c) as -> by (apply (AP c k); auto; [left; auto|right; exact Hin]).
        apply Nc. apply elem_of_list_In. exact Hin. }
      destruct (linked_look false c d h Lc Ld Ncd) as [K1 K2].
      exists h'. split; [|split; [|split]].
      * cbn [wire_chain]. unfold when. rewrite bind_ret, (bind_ok _ _ _ _ _ E). exact E'.
      * split; [|exact WK]. split.
        -- change (look false h' c = Some d). rewrite Kc. exact K1.
        -- change (look true h' d = Some c). rewrite (K d eq_refl). exact K2.
      * eapply attrs_trans; [exact A1|]. eapply attrs_incl; [|exact A']. intros x Hx. right. exact Hx.
      * intros x [= <-]. rewrite Kc. apply linked_keep; auto. intros k Hk.
        destruct (in_dec Nat.eq_dec k [c; d]) as [J|J].
        -- left; apply (AP c k); auto; [left; auto|]. destruct J as [<-|[<-|[]]]; simpl; auto.
        -- right. split; intros ->; apply J; simpl; auto.
Qed.

Lemma wire_ok t b cs h : wf h -> NoDup (t :: cs ++ [b]) -> apart h (t :: cs ++ [b]) ->
  (forall c, In c cs -> linkable h c /\ plain_name (c_name (cob h c))) ->
  linkable h b -> str_in "Top" (c_name (cob h b)) = false ->
  linkable h t -> str_in "Bottom" (c_name (cob h t)) = false -> cs <> [] ->
  exists h', wire_chain true t b cs h = Ok tt h' /\ walk h' (t :: cs ++ [b]) /\ attrs_in (t :: cs ++ [b]) h h'.
Proof.
  intros W ND AP LC LB NB LT NT NE. destruct cs as [|c cs]; [congruence|].
  destruct (LC c (or_introl eq_refl)) as [[Lc Hc] [P1 P2]]. destruct LT as [Lt Ht].
  pose proof ND as ND'. apply NoDup_cons in ND'. destruct ND' as [Nt ND'].
  assert (c <> t) as Nct. { intros ->. apply Nt. left. }
  assert (E : set_superset_class c (Some t) h = Ok tt (linked_classes true c t h)) by (apply set_hier_ok; auto).
  set (h1 := linked_classes true c t h) in *.
  assert (A1 : attrs_in (t :: (c :: cs) ++ [b]) h h1) by (apply attrs_linked; simpl; auto).
  pose proof (attrs_wf _ _ _ A1 W) as W1.
  destruct (wire_rest b (c :: cs) h1 W1 ND') with (t := t) as (h' & E' & WK & A' & K).
  - apply (apart_attrs (t :: (c :: cs) ++ [b]) _ h); auto. eapply apart_incl; [|exact AP]. intros x Hx. right. exact Hx.
  - intros x Hx. destruct (LC x Hx) as [X1 X2]. split; [exact (linkable_attrs _ h h1 _ W A1 X1)|]. rewrite (proj1 (proj2 (proj2 A1))). exact X2.
  - exact (linkable_attrs _ h h1 _ W A1 LB).
  - rewrite (proj1 (proj2 (proj2 A1))). exact NB.
  - discriminate.
  - destruct (linked_look true c t h Lc Lt Nct) as [K1 K2]. exists h'. split; [|split].
    +
      cbn [wire_chain when]. rewrite (bind_ok _ _ _ _ _ E). cbn [wire_chain when] in E'. rewrite bind_ret in E'. exact E'.
    + split; [|exact WK]. split; [|change (look true h' c = Some t); rewrite (K c eq_refl); exact K1].
      change (look false h' t = Some c). rewrite <- K2. apply (attrs_look _ _ _ _ _ W1 A'); [apply (attrs_live _ h h1 _ A1); auto|].
      intros k Hk Hin. rewrite (attrs_sub _ h h1 t k W A1) in Hk.
      assert (k = t) as -> by (apply (AP t k); auto; [left; auto|right; exact Hin]).
      apply Nt. apply elem_of_list_In. exact Hin.
    + eapply attrs_trans; [exact A1|]. eapply attrs_incl; [|exact A']. intros x Hx. right. exact Hx.
Qed.
