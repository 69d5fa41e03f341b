(** * GapFinal: cleaning up a tier that stands alone. *)
From Verif Require Export ArrangeFinal.
From Coq Require Import Sorting.Sorted.
Open Scope Z_scope.

(** ** Sorted lists with the same members *)
Lemma sorted_same {A} (R : A -> A -> Prop) : (forall x, ~ R x x) -> (forall x y z, R x y -> R y z -> R x z) ->
  forall l1 l2, StronglySorted R l1 -> StronglySorted R l2 -> (forall x, In x l1 <-> In x l2) -> l1 = l2.
Proof.
  intros Irr Tr l1. induction l1 as [|x l1 IH]; intros l2 S1 S2 M.
  - destruct l2 as [|y l2]; [reflexivity|]. exfalso. apply (M y). simpl. auto.
  - destruct l2 as [|y l2]; [exfalso; apply (M x); simpl; auto|].
    inversion S1 as [|? ? S1' F1]; subst. inversion S2 as [|? ? S2' F2]; subst.
    rewrite List.Forall_forall in F1, F2.
    assert (x = y).
    { destruct (proj1 (M x)) as [Q|Q]; [simpl; auto|auto|]. destruct (proj2 (M y)) as [Q'|Q']; [simpl; auto|auto|].
      exfalso. apply (Irr x). eapply Tr; [apply F1, Q'|apply F2, Q]. }
    subst y. f_equal. apply IH; auto. intros z. split; intros Hz.
    + destruct (proj1 (M z)) as [Q|Q]; [simpl; auto| |exact Q]. subst z. exfalso. apply (Irr x). auto.
    + destruct (proj2 (M z)) as [Q|Q]; [simpl; auto| |exact Q]. subst z. exfalso. apply (Irr x). auto.
Qed.
Lemma sorted_filter {A} (R : A -> A -> Prop) f l : StronglySorted R l -> StronglySorted R (List.filter f l).
Proof.
  induction 1 as [|x l S IH F]; simpl; [constructor|]. destruct (f x); [|exact IH]. constructor; [exact IH|].
  rewrite List.Forall_forall in *. intros y Hy. apply filter_In in Hy. apply F, Hy.
Qed.
Lemma sorted_removelast {A} (R : A -> A -> Prop) l : StronglySorted R l -> StronglySorted R (removelast l).
Proof.
  induction 1 as [|x l S IH F]; [constructor|]. destruct l as [|y l]; [constructor|]. change (removelast (x :: y :: l)) with (x :: removelast (y :: l)).
  constructor; [exact IH|]. rewrite List.Forall_forall in *. intros z Hz. apply F. apply removelast_in. exact Hz.
Qed.
Lemma sorted_tl {A} (R : A -> A -> Prop) l : StronglySorted R l -> StronglySorted R (tl l).
Proof. destruct 1; simpl; [constructor|auto]. Qed.
Lemma in_removelast l : StronglySorted Z.lt l -> forall x, In x (removelast l) <-> In x l /\ exists y, In y l /\ x < y.
Proof.
  intros S x. split.
  - intros Hx. split; [apply removelast_in; exact Hx|]. apply (removelast_lt l S x Hx).
  - intros (Hx & y & Hy & Hlt). induction S as [|z l S IH F]; [destruct Hx|]. rewrite List.Forall_forall in F.
    destruct l as [|w l].
    + destruct Hx as [<-|[]], Hy as [<-|[]]. lia.
    + change (removelast (z :: w :: l)) with (z :: removelast (w :: l)). destruct Hx as [<-|Hx]; [left; reflexivity|]. right. apply IH; auto.
      destruct Hy as [<-|Hy]; [|exact Hy]. specialize (F x Hx). lia.
Qed.
Lemma in_tl l : StronglySorted Z.lt l -> forall x, In x (tl l) <-> In x l /\ exists y, In y l /\ y < x.
Proof.
  intros S x. destruct S as [|z l S F]; [simpl; tauto|]. rewrite List.Forall_forall in F. simpl. split.
  - intros Hx. split; [auto|]. exists z. auto.
  - intros (Hx & y & Hy & Hlt). destruct Hx as [<-|Hx]; [|exact Hx]. destruct Hy as [<-|Hy]; [lia|]. specialize (F y Hy). lia.
Qed.

(** ** The gaps between spans *)
Fixpoint span_gaps (l : list span) : list span :=
  match l with
  | p :: ((q :: _) as r) => if snd p <? fst q then (snd p, fst q) :: span_gaps r else span_gaps r
  | _ => []
  end.
Fixpoint span_fill (l : list span) : list span :=
  match l with
  | p :: ((q :: _) as r) => p :: (if snd p <? fst q then (snd p, fst q) :: span_fill r else span_fill r)
  | _ => l
  end.
Lemma ordered_cons p l : ordered (p :: l) <-> (forall q, In q l -> snd p <= fst q) /\ ordered l.
Proof.
  split.
  - intros O. split.
    + intros q Hq. apply In_nth_error in Hq. destruct Hq as [j Hj]. apply (O 0%nat (S j) p q); [lia|reflexivity|exact Hj].
    + intros i j a b Hij Ha Hb. apply (O (S i) (S j)); [lia|exact Ha|exact Hb].
  - intros [A B] i j a b Hij Ha Hb. destruct j as [|j]; [lia|]. simpl in Hb. destruct i as [|i].
    + injection Ha as <-. apply A. eapply nth_error_In; eauto.
    + apply (B i j); auto. lia.
Qed.
Lemma gaps_cons p q r : span_gaps (p :: q :: r) = if snd p <? fst q then (snd p, fst q) :: span_gaps (q :: r) else span_gaps (q :: r).
Proof. reflexivity. Qed.
Lemma fill_cons p q r : span_fill (p :: q :: r) = p :: (if snd p <? fst q then (snd p, fst q) :: span_fill (q :: r) else span_fill (q :: r)).
Proof. reflexivity. Qed.
Lemma gaps_in l g : In g (span_gaps l) <-> exists i p q, nth_error l i = Some p /\ nth_error l (S i) = Some q /\ g = (snd p, fst q) /\ snd p < fst q.
Proof.
  induction l as [|p l IH]; [simpl; split; [tauto|intros ([|i] & ? & ? & ? & _); discriminate]|].
  destruct l as [|q r].
  { simpl. split; [tauto|]. intros ([|i] & a & b & A & B & _); [discriminate|destruct i; discriminate]. }
  rewrite gaps_cons. split.
  - intros Hg. destruct (snd p <? fst q) eqn:E; [destruct Hg as [<-|Hg]|].
    + apply Z.ltb_lt in E. exists 0%nat, p, q. auto.
    + apply IH in Hg. destruct Hg as (i & a & b & A). exists (S i), a, b. exact A.
    + apply IH in Hg. destruct Hg as (i & a & b & A). exists (S i), a, b. exact A.
  - intros (i & a & b & A & B & C & D). destruct i as [|i].
    + injection A as <-. injection B as <-. apply Z.ltb_lt in D. rewrite D. left. auto.
    + destruct (snd p <? fst q); [right|]; apply IH; exists i, a, b; auto.
Qed.
Lemma gaps_after l s : ordered l -> lasting l -> (forall p, In p l -> s <= fst p) ->
  forall g, In g (span_gaps l) -> s < fst g < snd g.
Proof.
  intros O L B g Hg. apply gaps_in in Hg. destruct Hg as (i & p & q & Hp & Hq & -> & Hlt). simpl.
  pose proof (B p (nth_error_In _ _ Hp)). pose proof (L p (nth_error_In _ _ Hp)). lia.
Qed.
Lemma lasting_cons p l : lasting (p :: l) -> fst p < snd p /\ lasting l.
Proof. intros L. split; [apply L; simpl; auto|]. intros q Hq. apply L. simpl. auto. Qed.
Definition first_lt (p q : span) : Prop := fst p < fst q.
Lemma gaps_sorted l : ordered l -> lasting l -> StronglySorted (fun p q => fst p < fst q /\ snd p < snd q) (span_gaps l).
Proof.
  induction l as [|p l IH]; intros O L; [constructor|]. destruct l as [|q r]; [constructor|].
  apply ordered_cons in O. destruct O as [O1 O2]. apply lasting_cons in L. destruct L as [L1 L2]. rewrite gaps_cons.
  destruct (snd p <? fst q) eqn:E; [|auto]. constructor; [auto|]. apply List.Forall_forall. intros g Hg. apply Z.ltb_lt in E.
  pose proof (gaps_after (q :: r) (fst q) O2 L2) as G.
  assert (B : forall p0, In p0 (q :: r) -> fst q <= fst p0).
  { intros p0 [<-|H0]; [lia|]. apply ordered_cons in O2. destruct O2 as [O2 _]. specialize (O2 p0 H0). apply lasting_cons in L2. lia. }
  specialize (G B g Hg). simpl. lia.
Qed.
Lemma sorted_map {A B} (R : A -> A -> Prop) (Q : B -> B -> Prop) (f : A -> B) l : (forall x y, R x y -> Q (f x) (f y)) ->
  StronglySorted R l -> StronglySorted Q (map f l).
Proof.
  intros K. induction 1 as [|x l S IH F]; simpl; [constructor|]. constructor; [exact IH|]. rewrite List.Forall_forall in *.
  intros y Hy. apply in_map_iff in Hy. destruct Hy as (z & <- & Hz). auto.
Qed.
Lemma gaps_nodup l : ordered l -> lasting l -> List.NoDup (map fst (span_gaps l)).
Proof.
  intros O L. pose proof (gaps_sorted l O L) as S. induction S as [|x k S IH F]; simpl; [constructor|]. constructor; [|exact IH].
  intros Hin. apply in_map_iff in Hin. destruct Hin as (y & E & Hy). rewrite List.Forall_forall in F. specialize (F y Hy). lia.
Qed.
Lemma zin_false x l : negb (zin x l) = true <-> ~ In x l.
Proof.
  rewrite negb_true_iff. split.
  - intros E Hx. apply zin_true in Hx. congruence.
  - intros N. destruct (zin x l) eqn:E; [|reflexivity]. apply zin_true in E. contradiction.
Qed.
Lemma combine_split_id {A B} (l : list (A * B)) : combine (map fst l) (map snd l) = l.
Proof. induction l as [|[a b] l IH]; simpl; congruence. Qed.
Lemma nth_succ {A} (l : list A) i x : nth_error l i = Some x -> (exists y, nth_error l (S i) = Some y) \/ S i = List.length l.
Proof.
  intros Hi. assert (i < List.length l)%nat by (apply nth_error_Some; congruence).
  destruct (nth_error l (S i)) as [y|] eqn:E; [eauto|]. apply nth_error_None in E. right. lia.
Qed.
Lemma nth_pred {A} (l : list A) i x : nth_error l i = Some x -> i = 0%nat \/ exists j y, i = S j /\ nth_error l j = Some y.
Proof.
  intros Hi. destruct i as [|j]; [auto|]. right. assert (S j < List.length l)%nat by (apply nth_error_Some; congruence).
  destruct (nth_error l j) as [y|] eqn:E; [eauto|]. apply nth_error_None in E. lia.
Qed.

Lemma gap_pairs_spans l : ordered l -> lasting l -> gap_pairs (map fst l) (map snd l) = span_gaps l.
Proof.
  intros O L. unfold gap_pairs. set (b := np_unique _). pose proof (np_unique_sorted (map fst l ++ map snd l)) as Sb. fold b in Sb.
  assert (Mb : forall x, In x b <-> exists p, In p l /\ (x = fst p \/ x = snd p)).
  { intros x. unfold b. rewrite np_unique_in, in_app_iff, !in_map_iff. split.
    - intros [(p & E & Hp)|(p & E & Hp)]; exists p; auto.
    - intros (p & Hp & [E|E]); [left|right]; exists p; auto. }
  assert (Le : forall i j p q, (i <= j)%nat -> nth_error l i = Some p -> nth_error l j = Some q -> fst p <= fst q /\ snd p <= snd q /\ ((i < j)%nat -> snd p <= fst q)).
  { intros i j p q Hij Hp Hq. destruct (Nat.eq_dec i j) as [->|Ne].
    - assert (p = q) by congruence. subst. split; [lia|]. split; [lia|]. lia.
    - pose proof (O i j p q ltac:(lia) Hp Hq). pose proof (L p (nth_error_In _ _ Hp)). pose proof (L q (nth_error_In _ _ Hq)). split; [lia|]. split; [lia|]. auto. }
  transitivity (combine (map fst (span_gaps l)) (map snd (span_gaps l))); [|apply combine_split_id]. f_equal.
  - apply (sorted_same Z.lt); [intros; lia|intros; lia|apply sorted_filter, sorted_removelast, Sb| |].
    + eapply sorted_map; [|apply gaps_sorted; auto]. simpl. tauto.
    + intros x. rewrite filter_In, (in_removelast b Sb), zin_false. split.
      * intros ((Hx & y & Hy & Hlt) & Ns). apply Mb in Hx. destruct Hx as (p & Hp & [-> | ->]); [exfalso; apply Ns, in_map; exact Hp|].
        apply In_nth_error in Hp. destruct Hp as [i Hi]. destruct (nth_succ l i p Hi) as [(q & Hq)|Last].
        -- apply in_map_iff. exists (snd p, fst q). split; [reflexivity|]. apply gaps_in. exists i, p, q. split; [exact Hi|]. split; [exact Hq|]. split; [reflexivity|].
           pose proof (O i (S i) p q ltac:(lia) Hi Hq). assert (snd p <> fst q); [|lia]. intros E. apply Ns. rewrite E. apply in_map. eapply nth_error_In; eauto.
        -- exfalso. apply Mb in Hy. destruct Hy as (q & Hq & E). apply In_nth_error in Hq. destruct Hq as [j Hj].
           assert (j < List.length l)%nat by (apply nth_error_Some; congruence). destruct (Le j i q p ltac:(lia) Hj Hi) as (? & ? & _).
           pose proof (L p (nth_error_In _ _ Hi)). destruct E; lia.
      * intros Hg. apply in_map_iff in Hg. destruct Hg as (g & <- & Hg). apply gaps_in in Hg. destruct Hg as (i & p & q & Hp & Hq & -> & Hlt). simpl. split; [split|].
        -- apply Mb. exists p. split; [eapply nth_error_In; eauto|auto].
        -- exists (fst q). split; [apply Mb; exists q; split; [eapply nth_error_In; eauto|auto]|exact Hlt].
        -- intros Hin. apply in_map_iff in Hin. destruct Hin as (r & E & Hr). apply In_nth_error in Hr. destruct Hr as [j Hj].
           pose proof (L p (nth_error_In _ _ Hp)). destruct (Nat.le_gt_cases j i) as [Hji|Hji].
           ++ destruct (Le j i r p Hji Hj Hp) as (? & _ & _). lia.
           ++ destruct (Le (S i) j q r ltac:(lia) Hq Hj) as (? & _ & _). lia.
  - apply (sorted_same Z.lt); [intros; lia|intros; lia|apply sorted_filter, sorted_tl, Sb| |].
    + eapply sorted_map; [|apply gaps_sorted; auto]. simpl. tauto.
    + intros x. rewrite filter_In, (in_tl b Sb), zin_false. split.
      * intros ((Hx & y & Hy & Hlt) & Ns). apply Mb in Hx. destruct Hx as (p & Hp & [-> | ->]); [|exfalso; apply Ns, in_map; exact Hp].
        apply In_nth_error in Hp. destruct Hp as [i Hi]. destruct (nth_pred l i p Hi) as [First|(j & q & Ej & Hq)].
        -- exfalso. apply Mb in Hy. destruct Hy as (q & Hq & E). apply In_nth_error in Hq. destruct Hq as [j Hj].
           destruct (Le i j p q ltac:(lia) Hi Hj) as (? & ? & _). pose proof (L p (nth_error_In _ _ Hi)). pose proof (L q (nth_error_In _ _ Hj)). destruct E; lia.
        -- subst i. apply in_map_iff. exists (snd q, fst p). split; [reflexivity|]. apply gaps_in. exists j, q, p. split; [exact Hq|]. split; [exact Hi|]. split; [reflexivity|].
           pose proof (O j (S j) q p ltac:(lia) Hq Hi). assert (snd q <> fst p); [|lia]. intros E. apply Ns. rewrite <- E. apply in_map. eapply nth_error_In; eauto.
      * intros Hg. apply in_map_iff in Hg. destruct Hg as (g & <- & Hg). apply gaps_in in Hg. destruct Hg as (i & p & q & Hp & Hq & -> & Hlt). simpl. split; [split|].
        -- apply Mb. exists q. split; [eapply nth_error_In; eauto|auto].
        -- exists (snd p). split; [apply Mb; exists p; split; [eapply nth_error_In; eauto|auto]|exact Hlt].
        -- intros Hin. apply in_map_iff in Hin. destruct Hin as (r & E & Hr). apply In_nth_error in Hr. destruct Hr as [j Hj].
           pose proof (L q (nth_error_In _ _ Hq)). destruct (Nat.le_gt_cases j i) as [Hji|Hji].
           ++ destruct (Le j i r p Hji Hj Hp) as (_ & ? & _). lia.
           ++ destruct (Le (S i) j q r ltac:(lia) Hq Hj) as (_ & ? & _). lia.
Qed.

(** ** Spans with their gaps filled *)
Lemma fill_in l g : In g (span_fill l) <-> In g l \/ In g (span_gaps l).
Proof.
  induction l as [|p l IH]; [simpl; tauto|]. destruct l as [|q r]; [simpl; tauto|]. rewrite fill_cons, gaps_cons.
  destruct (snd p <? fst q); simpl; simpl in IH; rewrite IH; tauto.
Qed.
Lemma fill_sorted l : ordered l -> lasting l -> StronglySorted first_lt (span_fill l).
Proof.
  induction l as [|p l IH]; intros O L; [constructor|]. destruct l as [|q r]; [repeat constructor|].
  apply ordered_cons in O. destruct O as [O1 O2]. apply lasting_cons in L. destruct L as [L1 L2]. rewrite fill_cons.
  assert (B : forall p0, In p0 (q :: r) -> fst q <= fst p0).
  { intros p0 [<-|H0]; [lia|]. apply ordered_cons in O2. destruct O2 as [O2 _]. specialize (O2 p0 H0). apply lasting_cons in L2. lia. }
  assert (G : forall g, In g (span_fill (q :: r)) -> fst q <= fst g).
  { intros g Hg. apply fill_in in Hg. destruct Hg as [Hg|Hg]; [auto|]. pose proof (gaps_after (q :: r) (fst q) O2 L2 B g Hg). lia. }
  specialize (O1 q ltac:(simpl; auto)).
  destruct (snd p <? fst q) eqn:E.
  - apply Z.ltb_lt in E. constructor; [constructor; [auto|]|]; apply List.Forall_forall; unfold first_lt; simpl.
    + intros g Hg. specialize (G g Hg). lia.
    + intros g [<-|Hg]; [simpl; lia|]. specialize (G g Hg). lia.
  - constructor; [auto|]. apply List.Forall_forall. unfold first_lt. intros g Hg. specialize (G g Hg). lia.
Qed.
Fixpoint span_tiles (a : Z) (l : list span) (b : Z) : Prop :=
  match l with [] => a = b | p :: r => fst p = a /\ fst p < snd p /\ span_tiles (snd p) r b end.
Lemma fill_tiles l : ordered l -> lasting l -> forall p q, hd_error l = Some p -> hd_error (rev l) = Some q ->
  span_tiles (fst p) (span_fill l) (snd q).
Proof.
  induction l as [|p l IH]; intros O L p' q' Hp Hq; [discriminate|]. injection Hp as <-.
  apply ordered_cons in O. destruct O as [O1 O2]. apply lasting_cons in L. destruct L as [L1 L2].
  destruct l as [|q r].
  { simpl in Hq. injection Hq as <-. simpl. auto. }
  rewrite fill_cons. assert (Hq' : hd_error (rev (q :: r)) = Some q').
  { change (rev (p :: q :: r)) with (rev (q :: r) ++ [p])%list in Hq. destruct (rev (q :: r)) as [|z zs] eqn:E; [|exact Hq].
    apply (f_equal (@List.length span)) in E. rewrite rev_length in E. discriminate. }
  specialize (IH O2 L2 q q' eq_refl Hq'). specialize (O1 q ltac:(simpl; auto)). destruct (snd p <? fst q) eqn:E.
  - apply Z.ltb_lt in E. split; [reflexivity|]. split; [exact L1|]. split; [reflexivity|]. split; [exact E|exact IH].
  - apply Z.ltb_ge in E. split; [reflexivity|]. split; [exact L1|]. replace (snd p) with (fst q) by lia. exact IH.
Qed.
Lemma tiles_of_spans h l : (forall x, In x l -> dated h x) -> forall a b, span_tiles a (map (span_of h) l) b -> tiles h a l b.
Proof.
  induction l as [|x l IH]; intros D a b T; [exact T|]. destruct T as (T1 & T2 & T3). destruct (D x ltac:(simpl; auto)) as (D1 & D2 & D3).
  exists (snd (span_of h x)). split; [congruence|]. split; [exact D2|]. split; [lia|]. apply IH; [|exact T3]. intros y Hy. apply D. simpl. auto.
Qed.
Lemma strict_starts h l : (forall x, In x l -> dated h x) -> sorted_starts h l -> List.NoDup (map (fun x => fst (span_of h x)) l) ->
  StronglySorted first_lt (map (span_of h) l).
Proof.
  induction l as [|x l IH]; intros D S N; [constructor|]. simpl. inversion N as [|? ? N1 N2]; subst.
  constructor.
  - apply IH; [intros y Hy; apply D; simpl; auto| |exact N2]. intros i j a b Hij Ha Hb. apply (S (Datatypes.S i) (Datatypes.S j)); [lia|exact Ha|exact Hb].
  - apply List.Forall_forall. intros g Hg. apply in_map_iff in Hg. destruct Hg as (y & <- & Hy).
    pose proof Hy as Hy'. apply In_nth_error in Hy'. destruct Hy' as [j Hj].
    destruct (S 0%nat (Datatypes.S j) x y ltac:(lia) eq_refl Hj) as (s & t & E1 & E2 & E3).
    destruct (D x) as (D1 & _); [simpl; auto|]. destruct (D y) as (D2 & _); [simpl; auto|].
    assert (s = fst (span_of h x)) by congruence. assert (t = fst (span_of h y)) by congruence.
    assert (fst (span_of h x) <> fst (span_of h y)); [|unfold first_lt; lia]. intros E. apply N1.
    apply in_map_iff. exists y. split; [symmetry; exact E|exact Hy].
Qed.

Section WithEnv.
Context `{Env}.
Opaque span_of.

Lemma new_interval c s e h : exists h', new_obj c (Some s) (Some e) "" h = Ok (List.length (h_seq h)) h' /\
  h_cls h' = h_cls h /\ h_tier h' = h_tier h /\ h_grp h' = h_grp h /\ h_grid h' = h_grid h /\
  (List.length (h_seq h) < List.length (h_seq h'))%nat /\ (forall i, live h i -> sob h' i = sob h i) /\
  let o := sob h' (List.length (h_seq h)) in
  s_cls o = c /\ s_start o = Some s /\ s_end o = Some e /\ s_label o = EmptyString /\ s_super o = None /\ s_subset o = [].
Proof.
  destruct (new_settles c (Some s) (Some e) "" h) as (h' & E & (L1 & L2 & L3 & L4 & L5 & L6 & L7) & F & _); [discriminate|].
  assert (Lx : live (push_seq (blank_seq c (Some s) (Some e) "") h) (List.length (h_seq h))) by (apply live_push; auto).
  exists h'. split; [exact E|]. split; [exact L1|]. split; [exact L2|]. split; [exact L3|]. split; [exact L4|].
  split; [unfold live in Lx; lia|]. split.
  - intros i Hi. rewrite F; [apply sob_push_old; auto|apply live_push; auto|]. intros [<-|[]]. unfold live in Hi. lia.
  - destruct (erase_fields _ _ (L6 _ Lx)) as (A1 & A2 & A3 & A4 & A5 & A6 & _). rewrite sob_push_new in *. simpl in *. auto 10.
Qed.

Record filling (t : tid) (c : cid) (h : heap) : Prop := {
  fi_live : tlive h t;
  fi_ec : t_ec (tob h t) = c;
  fi_sec : t_seqec (tob h t) = Some c \/ t_seqec (tob h t) = None;
  fi_int : issubclass h c cInterval = true /\ issubclass h c cPoint = false;
  fi_in : forall x, In x (t_seq (tob h t)) -> live h x /\ dated h x /\ 0 < fst (span_of h x) /\ is_point h x = false;
  fi_sorted : sorted_starts h (t_seq (tob h t));
  fi_nodup : List.NoDup (map (fun x => fst (span_of h x)) (t_seq (tob h t)))
}.
Record filled (t : tid) (c : cid) (ps : list span) (h h' : heap) : Prop := {
  fd_ok : filling t c h';
  fd_len : (List.length (h_seq h) <= List.length (h_seq h'))%nat;
  fd_old : forall x, In x (t_seq (tob h t)) -> In x (t_seq (tob h' t));
  fd_new : forall x, In x (t_seq (tob h' t)) -> In x (t_seq (tob h t)) \/
    (~ live h x /\ In (span_of h' x) ps /\ s_cls (sob h' x) = c /\ s_label (sob h' x) = EmptyString /\ s_super (sob h' x) = None /\ s_subset (sob h' x) = []);
  fd_all : forall p, In p ps -> exists x, In x (t_seq (tob h' t)) /\ span_of h' x = p;
  fd_kept : forall n, (n <= List.length (h_seq h))%nat -> List.filter (fun x => (x <? n)%nat) (t_seq (tob h' t)) = List.filter (fun x => (x <? n)%nat) (t_seq (tob h t));
  fd_frame : forall i, live h i -> sob h' i = sob h i;
  fd_tiers : (forall u, u <> t -> tob h' u = tob h u) /\ List.length (h_tier h') = List.length (h_tier h);
  fd_tier : tob h' t = set_t_seqec (t_seqec (tob h' t)) (set_t_seq (t_seq (tob h' t)) (tob h t));
  fd_rest : h_cls h' = h_cls h /\ h_grp h' = h_grp h /\ h_grid h' = h_grid h;
  fd_class : t_seqec (tob h t) = Some c -> t_seqec (tob h' t) = Some c
}.
Lemma span_same h h' x : sob h' x = sob h x -> span_of h' x = span_of h x.
Proof. intros E. with_strategy transparent [span_of] unfold span_of. rewrite E. reflexivity. Qed.
Lemma filter_insert {A} (f : A -> bool) k x l : f x = false -> List.filter f (insert_at k x l) = List.filter f l.
Proof. intros E. unfold insert_at. rewrite List.filter_app. simpl. rewrite E. rewrite <- List.filter_app, firstn_skipn. reflexivity. Qed.
Lemma filter_all {A} (f : A -> bool) l : (forall x, In x l -> f x = true) -> List.filter f l = l.
Proof. induction l as [|a l IH]; intros K; simpl; [reflexivity|]. rewrite K by (simpl; auto). f_equal. apply IH. intros x Hx. apply K. simpl. auto. Qed.
Lemma set_seq_id o : o = set_t_seqec (t_seqec o) (set_t_seq (t_seq o) o).
Proof. destruct o. reflexivity. Qed.

Lemma fill_one t c s e h : filling t c h -> 0 < s < e -> (forall x, In x (t_seq (tob h t)) -> fst (span_of h x) <> s) ->
  exists h', (nw <- construct3 (Some c) (Some s) (Some e) "" ;; o <- get_tier t ;; v <- sl_append (seq_slv o) nw false ;; store_seq t v) h = Ok tt h' /\
    filled t c [(s, e)] h h'.
Proof.
  intros [L Ec Sec (I1 & I2) In1 So Nd] Hse Ns. destruct (new_interval c s e h) as (h1 & E1 & F1 & F2 & F3 & F4 & F5 & F6 & O1 & O2 & O3 & O4 & O5 & O6).
  set (x := List.length (h_seq h)) in *.
  assert (T1 : forall u, tob h1 u = tob h u) by (intros u; unfold tob; rewrite F2; reflexivity).
  assert (Is : forall a b, issubclass h1 a b = issubclass h a b) by (intros; apply issubclass_ext; auto).
  assert (Dx : dated h1 x /\ span_of h1 x = (s, e)) by (apply dated_by; auto; lia). destruct Dx as [Dx Sx].
  assert (Sp : forall y, live h y -> span_of h1 y = span_of h y) by (intros y Hy; apply span_same; auto).
  assert (So1 : sorted_starts h1 (t_seq (tob h t))).
  { intros i j a b Hij Ha Hb. rewrite !F6 by (apply In1; eapply nth_error_In; eauto). eauto. }
  destruct (sl_append_spec h1 (seq_slv (tob h t)) x c) as (k & Hk & Ea & So2).
  - exact Sec.
  - exact O1.
  - apply issubclass_refl.
  - unfold is_point_cls. rewrite !Is, I2. exact I1.
  - apply sl_contains_iff_not. intros (y & Hy & [->|V]).
    + destruct (In1 x Hy) as (Q & _). unfold live, x in Q. lia.
    + destruct V as (_ & V & _). destruct (In1 y Hy) as (Ly & (D & _) & _). rewrite F6 in V by exact Ly. rewrite D, O2 in V. injection V as V.
      apply (Ns y Hy V).
  - intros y Hy. destruct (In1 y Hy) as (Ly & (D & _) & P & _). exists (fst (span_of h y)). rewrite F6 by exact Ly. split; [exact D|lia].
  - eauto.
  - exact So1.
  - cbn [sv_vals seq_slv] in Hk, Ea, So2. set (l' := insert_at k x (t_seq (tob h t))) in *.
    set (h2 := upd_tier t (fun o => set_t_seqec (Some c) (set_t_seq l' o)) h1). exists h2. split.
    { assert (Ec3 : construct3 (Some c) (Some s) (Some e) "" h = Ok x h1).
      { unfold construct3. mstep. mstep. rewrite I1. exact E1. }
      rewrite (bind_ok _ _ _ _ _ Ec3). mstep. rewrite T1. rewrite (bind_ok _ _ _ _ _ Ea). reflexivity. }
    assert (L1 : tlive h1 t) by (unfold tlive; rewrite F2; exact L).
    assert (Tt : tob h2 t = set_t_seqec (Some c) (set_t_seq l' (tob h t))) by (unfold h2; rewrite tob_upd_eq by exact L1; rewrite T1; reflexivity).
    assert (Tl : t_seq (tob h2 t) = l') by (rewrite Tt; reflexivity).
    assert (S2 : forall y, sob h2 y = sob h1 y) by reflexivity.
    assert (Pm : forall y, In y l' <-> y = x \/ In y (t_seq (tob h t))).
    { intros y. unfold l'. pose proof (insert_at_perm k x (t_seq (tob h t))) as P. split.
      - intros Hy. destruct (Permutation_in _ P Hy) as [<-|Q]; auto.
      - intros Q. apply (Permutation_in _ (Permutation_sym P)). destruct Q as [->|Q]; simpl; auto. }
    constructor.
    + constructor.
      * unfold tlive, h2. rewrite len_upd_tier. exact L1.
      * rewrite Tt. exact Ec.
      * rewrite Tt. left. reflexivity.
      * split; [rewrite <- I1; apply Is|rewrite <- I2; apply Is].
      * rewrite Tl. intros y Hy. apply Pm in Hy. destruct Hy as [->|Hy].
        -- split; [unfold live, x; simpl; exact F5|]. split; [exact Dx|]. split; [change (span_of h2 x) with (span_of h1 x); rewrite Sx; simpl; lia|].
           unfold is_point. rewrite S2, O1. rewrite <- I2. apply Is.
        -- destruct (In1 y Hy) as (Ly & Dy & Py & Qy). split; [unfold live in *; simpl; lia|].
           split; [apply (dated_kept h); [rewrite S2, F6 by exact Ly; apply kept_refl|exact Dy]|].
           split; [change (span_of h2 y) with (span_of h1 y); rewrite Sp by exact Ly; exact Py|].
           unfold is_point. rewrite S2, F6 by exact Ly. rewrite <- Qy. apply Is.
      * rewrite Tl. exact So2.
      * rewrite Tl. eapply Permutation_NoDup.
        { apply Permutation_map. apply Permutation_sym. apply (insert_at_perm k x (t_seq (tob h t))). }
        simpl. constructor.
        -- intros Hin. apply in_map_iff in Hin. destruct Hin as (y & Ey & Hy). change (span_of h2 y) with (span_of h1 y) in Ey.
           change (span_of h2 x) with (span_of h1 x) in Ey. rewrite Sx, Sp in Ey by (apply In1; exact Hy). apply (Ns y Hy Ey).
        -- erewrite map_ext_in; [exact Nd|]. intros y Hy. simpl. change (span_of h2 y) with (span_of h1 y). rewrite Sp by (apply In1; exact Hy). reflexivity.
    + simpl. lia.
    + rewrite Tl. intros y Hy. apply Pm. auto.
    + rewrite Tl. intros y Hy. apply Pm in Hy. destruct Hy as [->|Hy]; [right|auto]. split; [unfold live, x; lia|].
      split; [left; symmetry; exact Sx|]. rewrite S2. auto.
    + intros p [<-|[]]. exists x. rewrite Tl. split; [apply Pm; auto|exact Sx].
    + intros n Hn. rewrite Tl. apply filter_insert. apply Nat.ltb_ge. exact Hn.
    + intros i Hi. rewrite S2. auto.
    + split; [|unfold h2; rewrite len_upd_tier, F2; reflexivity]. intros u Hu. unfold h2. rewrite tob_upd_ne by auto. apply T1.
    + rewrite Tt. reflexivity.
    + split; [exact F1|]. split; [exact F3|exact F4].
    + intros _. rewrite Tt. reflexivity.
Qed.

Lemma fill_tier_ok t c ps : forall h, filling t c h -> (forall p, In p ps -> 0 < fst p < snd p) -> List.NoDup (map fst ps) ->
  (forall p x, In p ps -> In x (t_seq (tob h t)) -> fst (span_of h x) <> fst p) ->
  exists h', fill_tier t ps h = Ok tt h' /\ filled t c ps h h'.
Proof.
  induction ps as [|[s e] ps IH]; intros h Fi Pos Nd Ns.
  - exists h. split; [reflexivity|]. constructor; auto; try tauto; try (intros p []).
    apply set_seq_id.
  - inversion Nd as [|? ? N1 N2]; subst.
    destruct (fill_one t c s e h Fi (Pos (s, e) ltac:(simpl; auto))) as (h1 & E1 & Fd1).
    { intros x Hx. apply (Ns (s, e) x); simpl; auto. }
    destruct (IH h1 (fd_ok _ _ _ _ _ Fd1)) as (h2 & E2 & Fd2).
    + intros p Hp. apply Pos. simpl. auto.
    + exact N2.
    + intros p x Hp Hx. destruct (fd_new _ _ _ _ _ Fd1 x Hx) as [Hx'|(_ & [Q|[]] & _)].
      * rewrite (span_same h h1); [apply Ns; simpl; auto|]. apply (fd_frame _ _ _ _ _ Fd1). apply (fi_in _ _ _ Fi). exact Hx'.
      * rewrite <- Q. simpl. intros ->. apply N1. apply in_map. exact Hp.
    + exists h2. split.
      { unfold bind in E1. cbn [fill_tier]. mstep. rewrite (fi_ec _ _ _ Fi). unfold bind at 1. unfold bind in E1.
        destruct (construct3 _ _ _ _ h) as [nw hx|]; [|discriminate]. destruct (get_tier t hx) as [o hy|] eqn:Eg; [|discriminate].
        rewrite (bind_ok _ _ _ _ _ Eg). destruct (sl_append _ _ _ hy) as [v hz|] eqn:Es; [|discriminate].
        rewrite (bind_ok _ _ _ _ _ Es). rewrite (bind_ok _ _ _ _ _ E1). exact E2. }
      destruct Fd1 as [A1 A2 A3 A4 A5 A6 A7 (A8 & A8') A9 (A10 & A11 & A12) A13], Fd2 as [B1 B2 B3 B4 B5 B6 B7 (B8 & B8') B9 (B10 & B11 & B12) B13].
      assert (Lv : forall i, live h i -> live h1 i) by (unfold live; lia).
      constructor; auto.
      * lia.
      * intros x Hx. destruct (B4 x Hx) as [Hx'|(Q1 & Q2 & Q3)].
        -- destruct (A4 x Hx') as [Hx''|(Q1 & Q2 & Q3)]; [auto|]. right. split; [exact Q1|].
           assert (Lx : live h1 x) by (apply (fi_in _ _ _ A1); exact Hx'). rewrite B7 by exact Lx. rewrite (span_same h1 h2) by (apply B7; exact Lx).
           split; [destruct Q2 as [Q2|[]]; left; exact Q2|exact Q3].
        -- right. split; [intros Q; apply Q1, Lv, Q|]. split; [right; exact Q2|exact Q3].
      * intros p [<-|Hp].
        -- destruct (A5 (s, e)) as (x & Hx & Ex); [simpl; auto|]. exists x. split; [auto|]. rewrite (span_same h1 h2); [exact Ex|].
           apply B7. apply (fi_in _ _ _ A1). exact Hx.
        -- apply B5. exact Hp.
      * intros n Hn. rewrite B6, A6 by lia. reflexivity.
      * intros i Hi. rewrite B7 by auto. auto.
      * split; [intros u Hu; rewrite B8, A8 by auto; reflexivity|congruence].
      * rewrite B9 at 1. rewrite A9. destruct (tob h2 t), (tob h t), (tob h1 t). reflexivity.
      * split; [congruence|]. split; congruence.
Qed.

Lemma gappy_dated h t : gappy h t -> forall x, In x (t_seq (tob h t)) -> live h x /\ dated h x /\ 0 < fst (span_of h x) /\ is_point h x = false.
Proof.
  intros (_ & _ & _ & _ & _ & _ & G) x Hx. destruct (G x Hx) as (L & P & a & b & E1 & E2 & E3).
  destruct (dated_by h x a b E1 E2 ltac:(lia)) as [D S]. split; [exact L|]. split; [exact D|]. split; [rewrite S; simpl; lia|exact P].
Qed.
Lemma gappy_filling h t : gappy h t -> filling t (t_ec (tob h t)) h.
Proof.
  intros G. pose proof (gappy_dated h t G) as D. destruct G as (G1 & G2 & G3 & G4 & G5 & G6 & G7).
  pose proof (in_turn_spans h _ (fun x Hx => proj1 (proj2 (D x Hx))) G6) as O.
  pose proof (dated_lasting h _ (fun x Hx => proj1 (proj2 (D x Hx)))) as La.
  constructor; auto.
  - intros i j a b Hij Ha Hb. destruct (D a (nth_error_In _ _ Ha)) as (_ & (A1 & A2 & A3) & _). destruct (D b (nth_error_In _ _ Hb)) as (_ & (B1 & _) & _).
    destruct (G6 i j a b Hij Ha Hb) as (e & s & E1 & E2 & E3). exists (fst (span_of h a)), (fst (span_of h b)).
    split; [exact A1|]. split; [exact B1|]. assert (e = snd (span_of h a)) by congruence. assert (s = fst (span_of h b)) by congruence. lia.
  - set (l := t_seq (tob h t)) in *. clearbody l. clear -O La. induction l as [|x l IH]; simpl in *; [constructor|].
    apply ordered_cons in O. destruct O as [O1 O2]. apply lasting_cons in La. destruct La as [L1 L2]. constructor; [|auto].
    intros Hin. apply in_map_iff in Hin. destruct Hin as (y & E & Hy). specialize (O1 (span_of h y) (in_map _ _ _ Hy)). lia.
Qed.
Lemma gap_span h l : (forall x, In x l -> dated h x) -> forall g, In g (span_gaps (map (span_of h) l)) -> gap h l (fst g) (snd g).
Proof.
  intros D g Hg. apply gaps_in in Hg. destruct Hg as (i & p & q & Hp & Hq & -> & Hlt). rewrite nth_error_map in Hp, Hq.
  destruct (nth_error l i) as [x|] eqn:Ex; [|discriminate]. destruct (nth_error l (S i)) as [y|] eqn:Ey; [|discriminate].
  injection Hp as <-. injection Hq as <-. exists i, x, y. split; [exact Ex|]. split; [exact Ey|].
  destruct (D x (nth_error_In _ _ Ex)) as (_ & A & _). destruct (D y (nth_error_In _ _ Ey)) as (B & _). simpl. auto.
Qed.
Lemma hd_rev_map {A B} (f : A -> B) l x : hd_error (rev l) = Some x -> hd_error (rev (map f l)) = Some (f x).
Proof. rewrite <- map_rev. destruct (rev l); simpl; congruence. Qed.
Lemma nth_error_tl {A} (l : list A) i : nth_error (tl l) i = nth_error l (S i).
Proof. destruct l; [destruct i|]; reflexivity. Qed.
Lemma nth_removelast {A} (l : list A) : forall i x y, nth_error l i = Some x -> nth_error l (S i) = Some y -> nth_error (removelast l) i = Some x.
Proof.
  induction l as [|a l IH]; intros i x y Hx Hy; [destruct i; discriminate|]. destruct l as [|b l]; [destruct i; discriminate|].
  change (removelast (a :: b :: l)) with (a :: removelast (b :: l)). destruct i as [|i]; [exact Hx|]. simpl. eapply IH; eauto.
Qed.
Lemma removelast_nth {A} (l : list A) : forall i x, nth_error (removelast l) i = Some x -> nth_error l i = Some x.
Proof.
  induction l as [|a l IH]; intros i x Hx; [exact Hx|]. destruct l as [|b l]; [destruct i; discriminate|].
  change (removelast (a :: b :: l)) with (a :: removelast (b :: l)) in Hx. destruct i as [|i]; [exact Hx|]. apply (IH i x Hx).
Qed.
Lemma close_iff h l : (forall x, In x l -> dated h x) ->
  allclose (tl (map (fun x => fst (span_of h x)) l)) (removelast (map (fun x => snd (span_of h x)) l)) = true <->
  (forall i x y a b, nth_error l i = Some x -> nth_error l (S i) = Some y -> s_end (sob h x) = Some a -> s_start (sob h y) = Some b -> near b a).
Proof.
  intros D. rewrite allclose_spec.
  2:{ rewrite length_removelast. destruct l; simpl; rewrite ?map_length; lia. }
  split.
  - intros K i x y a b Hx Hy Ha Hb. destruct (D x (nth_error_In _ _ Hx)) as (_ & A & _). destruct (D y (nth_error_In _ _ Hy)) as (B & _).
    assert (a = snd (span_of h x)) by congruence. assert (b = fst (span_of h y)) by congruence. subst. apply (K i).
    + rewrite nth_error_tl, nth_error_map, Hy. reflexivity.
    + eapply nth_removelast; rewrite nth_error_map, ?Hx, ?Hy; reflexivity.
  - intros K i u v Hu Hv. rewrite nth_error_tl, nth_error_map in Hu. apply removelast_nth in Hv. rewrite nth_error_map in Hv.
    destruct (nth_error l (S i)) as [y|] eqn:Ey; [|discriminate]. destruct (nth_error l i) as [x|] eqn:Ex; [|discriminate].
    injection Hu as <-. injection Hv as <-. destruct (D x (nth_error_In _ _ Ex)) as (_ & A & _). destruct (D y (nth_error_In _ _ Ey)) as (B & _). eauto.
Qed.

(** Filling the gaps of a tier, wherever it is. *)
Lemma fill_gaps_ok h t : gappy h t -> t_seq (tob h t) <> [] ->
  exists h', fill_tier t (span_gaps (map (span_of h) (t_seq (tob h t)))) h = Ok tt h' /\ gaps_filled h h' t /\
    map (span_of h') (t_seq (tob h' t)) = span_fill (map (span_of h) (t_seq (tob h t))) /\
    (forall x, In x (t_seq (tob h' t)) -> live h' x /\ dated h' x) /\ (List.length (h_seq h) <= List.length (h_seq h'))%nat /\ filling t (t_ec (tob h t)) h' /\
    (t_seqec (tob h t) = Some (t_ec (tob h t)) -> t_seqec (tob h' t) = Some (t_ec (tob h t))).
Proof.
  intros G Ne. pose proof (gappy_filling h t G) as Fi. pose proof (gappy_dated h t G) as D.
  set (l := t_seq (tob h t)) in *. assert (Dl : forall x, In x l -> dated h x) by (intros z Hz; apply (D z Hz)).
  pose proof (in_turn_spans h l Dl ltac:(apply G)) as O. pose proof (dated_lasting h l Dl) as La.
  set (L := map (span_of h) l) in *.
  assert (Pos : forall p, In p (span_gaps L) -> 0 < fst p < snd p).
  { apply gaps_after; auto. intros p Hp. apply in_map_iff in Hp. destruct Hp as (z & <- & Hz). destruct (D z Hz) as (_ & _ & P & _). lia. }
  destruct (fill_tier_ok t _ (span_gaps L) h Fi Pos) as (h' & E & Fd).
  { apply (gaps_nodup L); auto. }
  { intros p z Hp Hz. apply gaps_in in Hp. destruct Hp as (k & p1 & p2 & H1 & H2 & -> & Hlt). simpl. intros Eq.
    fold l in Hz. apply In_nth_error in Hz. destruct Hz as [j Hj]. assert (Hj' : nth_error L j = Some (span_of h z)) by (unfold L; rewrite nth_error_map, Hj; reflexivity).
    pose proof (La _ (nth_error_In _ _ H1)). destruct (Nat.lt_trichotomy j k) as [Hl|[->|Hl]].
    - pose proof (O j k _ _ Hl Hj' H1). pose proof (La _ (nth_error_In _ _ Hj')). lia.
    - assert (p1 = span_of h z) by congruence. subst p1. lia.
    - destruct (Nat.eq_dec j (S k)) as [->|Ne']; [assert (p2 = span_of h z) by congruence; subst p2; lia|].
      pose proof (O (S k) j _ _ ltac:(lia) H2 Hj'). pose proof (La _ (nth_error_In _ _ H2)). lia. }
  exists h'. split; [exact E|].
  pose proof Fd as [A1 A2 A3 A4 A5 A6 A7 (A8 & A8') A9 (A10 & A11 & A12) A13]. fold l in A3, A4, A6.
  assert (Dl' : forall z, In z (t_seq (tob h' t)) -> dated h' z) by (intros z Hz; apply (fi_in _ _ _ A1 z Hz)).
  assert (Sp : forall z, In z l -> span_of h' z = span_of h z) by (intros z Hz; apply span_same, A7; apply (D z Hz)).
  assert (Lf : map (span_of h') (t_seq (tob h' t)) = span_fill L).
  { apply (sorted_same first_lt); [unfold first_lt; intros; lia|unfold first_lt; intros; lia| |apply fill_sorted; auto|].
    - apply strict_starts; auto; apply A1.
    - intros p. rewrite fill_in, in_map_iff. split.
      + intros (z & <- & Hz). destruct (A4 z Hz) as [Hz'|(_ & Q & _)]; [left|right; exact Q]. rewrite Sp by exact Hz'. apply (in_map (span_of h)). exact Hz'.
      + intros [Hp|Hp].
        * apply in_map_iff in Hp. destruct Hp as (z & <- & Hz). exists z. split; [apply Sp; exact Hz|apply A3; exact Hz].
        * destruct (A5 p Hp) as (z & Hz & Ez). eauto. }
  split; [|split; [exact Lf|split; [intros x Hx; destruct (fi_in _ _ _ A1 x Hx) as (Q1 & Q2 & _); auto|split; [exact A2|split; [exact A1|exact A13]]]]].
  unfold gaps_filled. fold l. split.
  { assert (EL : L = map (span_of h) l) by reflexivity. clearbody L l. destruct l as [|z0 l0] eqn:El; [congruence|]. rewrite <- El in *.
    destruct (rev l) as [|w ws] eqn:Er; [exfalso; apply (f_equal (@List.length nat)) in Er; rewrite rev_length, El in Er; discriminate|].
    assert (Hw : In w l) by (apply in_rev; rewrite Er; simpl; auto). assert (Hz : In z0 l) by (rewrite El; simpl; auto).
    exists z0, w, (fst (span_of h z0)), (snd (span_of h w)). split; [rewrite El; reflexivity|]. split; [reflexivity|].
    split; [apply (Dl z0 Hz)|]. split; [apply (Dl w Hw)|].
    apply tiles_of_spans; auto. rewrite Lf. apply (fill_tiles L O La (span_of h z0) (span_of h w)).
    - rewrite EL, El. reflexivity.
    - rewrite EL. apply hd_rev_map. rewrite Er. reflexivity. }
  split. { rewrite A6 by lia. apply filter_all. intros z Hz. apply Nat.ltb_lt. apply (D z Hz). }
  split.
  { intros z Hz Hn. destruct (A4 z Hz) as [Hz'|(Q1 & Q2 & Q3 & Q4 & Q5 & Q6)]; [destruct (D z Hz') as (Lz & _); unfold live in Lz; lia|].
    split; [exact Q3|]. split; [exact Q4|]. split; [exact Q5|]. split; [exact Q6|].
    exists (fst (span_of h' z)), (snd (span_of h' z)). split; [apply (Dl' z Hz)|]. split; [apply (Dl' z Hz)|]. apply gap_span; auto. }
  split; [exact A7|]. split; [exact A8|]. split; [exact A8'|]. split; [exact A9|]. auto.
Qed.
(** What [cleanup] does first. *)
Lemma cleanup_starts n h t : gappy h t ->
  tier_cleanup (S n) t h =
  (if allclose (tl (map fst (map (span_of h) (t_seq (tob h t))))) (removelast (map snd (map (span_of h) (t_seq (tob h t))))) then Ok tt h
   else (fill_tier t (span_gaps (map (span_of h) (t_seq (tob h t)))) ;;;
          o <- get_tier t ;; bot <- issubclass_m (t_sub o) cBottom ;; tg <- gets (fun h => truthy_group h t) ;;
          match tg with
          | None => ret tt
          | Some g => if (bot : bool) then re_relate n g else d <- sibling_tier t g 1 ;; tier_cleanup n d
          end) h).
Proof.
  intros G. pose proof (gappy_filling h t G) as Fi. pose proof (gappy_dated h t G) as D.
  set (l := t_seq (tob h t)) in *. assert (Dl : forall x, In x l -> dated h x) by (intros z Hz; apply (D z Hz)).
  pose proof (in_turn_spans h l Dl ltac:(apply G)) as O. pose proof (dated_lasting h l Dl) as La.
  cbn [tier_cleanup]. mstep. unfold is_point_tier, is_point_cls. destruct (fi_int _ _ _ Fi) as [I1 I2]. rewrite I2.
  mstep. mstep. unfold tstarts, tends. fold l. rewrite starts_dated, ends_dated by (auto; intros z Hz; apply (D z Hz)).
  set (L := map (span_of h) l) in *.
  replace (map (fun x => fst (span_of h x)) l) with (map fst L) by (unfold L; rewrite map_map; reflexivity).
  replace (map (fun x => snd (span_of h x)) l) with (map snd L) by (unfold L; rewrite map_map; reflexivity).
  rewrite gap_pairs_spans by auto. destruct (allclose _ _); reflexivity.
Qed.
Lemma c29_filled : forall n h t, gappy h t -> stands_alone h t ->
  (exists i x y a b, nth_error (t_seq (tob h t)) i = Some x /\ nth_error (t_seq (tob h t)) (S i) = Some y /\
     s_end (sob h x) = Some a /\ s_start (sob h y) = Some b /\ ~ near b a) ->
  exists h', tier_cleanup (S n) t h = Ok tt h' /\ gaps_filled h h' t.
Proof.
  intros n h t G Al (i & x & y & a & b & Hx & Hy & Ha & Hb & Nn). pose proof (gappy_dated h t G) as D.
  destruct (fill_gaps_ok h t G) as (h' & E & Gf & _); [intros Q; rewrite Q in Hx; destruct i; discriminate|].
  exists h'. split; [|exact Gf]. rewrite (cleanup_starts n h t G). rewrite !map_map. destruct (allclose _ _) eqn:Ac.
  { exfalso. rewrite (close_iff h) in Ac by (intros z Hz; apply (D z Hz)). apply Nn. eauto. }
  rewrite (bind_ok _ _ _ _ _ E). mstep. pose proof Gf as (_ & _ & _ & _ & _ & _ & Td & _).
  assert (Su : t_sub (tob h' t) = t_sub (tob h t)) by (rewrite Td; reflexivity).
  assert (Wi : t_within (tob h' t) = t_within (tob h t)) by (rewrite Td; reflexivity).
  destruct G as (_ & _ & _ & _ & G5 & _). rewrite Su. destruct (t_sub (tob h t)) as [sc|]; [|congruence].
  assert (Ei : exists bo, issubclass_m (Some sc) cBottom h' = Ok bo h') by (eexists; reflexivity). destruct Ei as [bo Ei]. rewrite (bind_ok _ _ _ _ _ Ei). mstep.
  assert (Tg : truthy_group h' t = None).
  { unfold truthy_group, tier_group. rewrite Wi. specialize (Al). unfold stands_alone in Al. destruct (t_within (tob h t)) as [[| |g|]|]; auto. exfalso. apply (Al g). reflexivity. }
  rewrite Tg. reflexivity.
Qed.
Lemma c29_nothing : forall n h t, gappy h t ->
  (forall i x y a b, nth_error (t_seq (tob h t)) i = Some x -> nth_error (t_seq (tob h t)) (S i) = Some y ->
     s_end (sob h x) = Some a -> s_start (sob h y) = Some b -> near b a) ->
  tier_cleanup (S n) t h = Ok tt h.
Proof.
  intros n h t G K. pose proof (gappy_dated h t G) as D. pose proof (gappy_filling h t G) as Fi.
  set (l := t_seq (tob h t)) in *. assert (Dl : forall x, In x l -> dated h x) by (intros z Hz; apply (D z Hz)).
  cbn [tier_cleanup]. mstep. unfold is_point_tier, is_point_cls. destruct (fi_int _ _ _ Fi) as [I1 I2]. rewrite I2.
  mstep. mstep. unfold tstarts, tends. fold l. rewrite starts_dated, ends_dated by (auto; intros z Hz; apply (D z Hz)).
  rewrite (proj2 (close_iff h l Dl) K). reflexivity.
Qed.
End WithEnv.
