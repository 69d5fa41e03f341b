(** * SliceFinal: proofs about slices. *)
From Verif Require Import TreeProofs AdoptProofs AssignProofs TreeFinal AccessFinal SliceSpec.
Open Scope Z_scope.

Lemma bound_means n d i : (d <= n)%nat -> means n d i (slice_bound n d i) /\ (slice_bound n d i <= n)%nat.
Proof. intros D. destruct i as [z|]; cbn; [|auto]. destruct (Z.ltb_spec z 0); lia. Qed.
Lemma slice_between {A} (l : list A) a b : exists p q, cut_out l a b p (list_slice l a b) q.
Proof.
  unfold list_slice. set (n := List.length l). destruct (bound_means n 0 a) as [Ma La]; [lia|]. destruct (bound_means n n b) as [Mb Lb]; [lia|].
  set (i := slice_bound n 0 a) in *. set (j := slice_bound n n b) in *. exists (firstn i l), (skipn (j - i) (skipn i l)).
  exists i, j. split; [exact Ma|]. split; [exact Mb|]. rewrite firstn_skipn, firstn_skipn. split; [reflexivity|].
  rewrite app_length, !firstn_length, skipn_length. fold n. lia.
Qed.
Lemma c81_slice : forall h a b,
  (forall t, exists p m q, tier_slice t a b h = Ok m h /\ cut_out (t_seq (tob h t)) a b p m q) /\
  (forall x, exists p m q, seq_slice x a b h = Ok m h /\ cut_out (s_subset (sob h x)) a b p m q) /\
  (forall g, grp_slice g a b h = Raise TypeError h) /\ (forall g, grid_slice g a b h = Raise TypeError h).
Proof.
  intros h a b. split; [|split; [|split; reflexivity]].
  - intros t. destruct (slice_between (t_seq (tob h t)) a b) as (p & q & B). do 3 eexists. split; [reflexivity|exact B].
  - intros x. destruct (slice_between (s_subset (sob h x)) a b) as (p & q & B). do 3 eexists. split; [reflexivity|exact B].
Qed.
Lemma split_slice {A} (l : list A) z : (list_slice l None (Some z) ++ list_slice l (Some z) None)%list = l.
Proof.
  unfold list_slice. cbn [slice_bound]. rewrite Nat.sub_0_r. cbn [skipn]. set (k := Nat.min _ _). rewrite (firstn_all2 (skipn k l)) by (rewrite skipn_length; lia). apply firstn_skipn.
Qed.
Lemma c81_split : forall h t z, exists m1 m2, tier_slice t None (Some z) h = Ok m1 h /\ tier_slice t (Some z) None h = Ok m2 h /\ (m1 ++ m2)%list = t_seq (tob h t) /\
  (sorted_starts h (t_seq (tob h t)) ->
   forall x y, In x m1 -> In y m2 -> exists s s', s_start (sob h x) = Some s /\ s_start (sob h y) = Some s' /\ s <= s').
Proof.
  intros h t z. do 2 eexists. split; [reflexivity|]. split; [reflexivity|]. pose proof (split_slice (t_seq (tob h t)) z) as E. split; [exact E|]. intros So x y Hx Hy. rewrite <- E in So.
  apply In_nth_error in Hx as [i Hi], Hy as [j Hj].
  assert (Li : (i < List.length (list_slice (t_seq (tob h t)) None (Some z)))%nat) by (apply nth_error_Some; congruence).
  apply (So i (List.length (list_slice (t_seq (tob h t)) None (Some z)) + j)%nat x y); [lia|rewrite nth_error_app1 by exact Li; exact Hi|].
  rewrite nth_error_app2 by lia. rewrite <- Hj. f_equal. lia.
Qed.

(** ** Removing the elements of a slice *)
Section WithEnv.
Context `{Env}.
Lemma pop_slice K x : forall m p q h, inv_but nowhere K nowhere h -> s_subset (sob h x) = (p ++ m ++ q)%list ->
  exists h', forM m (seq_pop x) h = Ok tt h' /\ s_subset (sob h' x) = (p ++ q)%list /\
    (forall y, In y m -> s_super (sob h' y) = None) /\ (forall y, ~ In y m -> s_super (sob h' y) = s_super (sob h y)) /\
    (forall z, z <> x -> s_subset (sob h' z) = s_subset (sob h z)) /\ same_values h h' /\ inv_but nowhere K nowhere h'.
Proof.
  induction m as [|y m IH]; intros p q h R Es.
  - exists h. split; [reflexivity|]. split; [exact Es|]. split; [intros y []|]. split; [auto|]. split; [auto|]. split; [unfold same_values; auto 10|exact R].
  - assert (Iy : In y (s_subset (sob h x))) by (rewrite Es; apply in_app_iff; simpl; auto).
    destruct (removal K h x y R Iy (seq_pop x y) ltac:(simpl; auto)) as (h1 & E1 & (S1 & (k1 & k2 & D1 & D2 & D3) & D4 & D5 & D6) & _ & R1 & ((_ & Le & _) & _)).
    rewrite Es in D1. change ((y :: m) ++ q)%list with (y :: (m ++ q))%list in D1. destruct (split_unique y _ _ _ _ D1 D3) as (<- & <-).
    destruct (IH p q h1 R1 D2) as (h2 & E2 & F1 & F2 & F3 & F4 & F5 & F6). exists h2.
    split; [cbn [forM]; unfold bind; rewrite E1; exact E2|]. split; [exact F1|].
    assert (Ny : ~ In y m) by (intros I; apply D3, in_app_iff; right; apply in_app_iff; auto).
    split; [intros z [<-|Hz]; [rewrite F3 by exact Ny; exact S1|apply F2, Hz]|].
    split; [intros z Hz; rewrite F3, D5; auto; intros A; apply Hz; simpl; auto|].
    split; [intros z Hz; rewrite F4, D4; auto|].
    split; [|exact F6]. destruct D6 as (V1 & V2 & V3 & V4 & V5), F5 as (W1 & W2 & W3 & W4 & W5).
    split; [congruence|]. split; [congruence|]. split; [congruence|]. split; [congruence|]. intros i Hi.
    destruct (V5 i Hi) as (U1 & U2 & U3 & U4), (W5 i ltac:(lia)) as (U5 & U6 & U7 & U8). rewrite U5, U6, U7, U8. auto.
Qed.
Lemma c81_pop : forall K only h x a b, reach K only h ->
  exists p m q h', cut_out (s_subset (sob h x)) a b p m q /\ (l <- seq_slice x a b ;; forM l (seq_pop x)) h = Ok tt h' /\
    s_subset (sob h' x) = (p ++ q)%list /\ chained h' (p ++ q) /\ (forall y, In y m -> s_super (sob h' y) = None) /\
    (forall y, ~ In y m -> s_super (sob h' y) = s_super (sob h y)) /\ (forall z, z <> x -> s_subset (sob h' z) = s_subset (sob h z)) /\
    same_values h h'.
Proof.
  intros K only h x a b R. destruct (slice_between (s_subset (sob h x)) a b) as (p & q & B).
  pose proof B as (i & j & _ & _ & E & _). destruct (pop_slice K x _ p q h (inv_reach K only _ R) E) as (h' & E' & F1 & F2 & F3 & F4 & F5 & F6).
  exists p, (list_slice (s_subset (sob h x)) a b), q, h'. split; [exact B|]. split; [exact E'|]. split; [exact F1|].
  split; [rewrite <- F1; apply (i_links _ _ _ F6); apply nowhere_not|]. auto.
Qed.
Lemma c81_empty : forall K only h x, reach K only h ->
  exists h', (l <- seq_slice x None None ;; forM l (seq_pop x)) h = Ok tt h' /\ s_subset (sob h' x) = [] /\
    (forall y, In y (s_subset (sob h x)) -> s_super (sob h' y) = None) /\ same_values h h'.
Proof.
  intros K only h x R. destruct (c81_pop K only h x None None R) as (p & m & q & h' & (i & j & Mi & Mj & E & Lp & Lm) & E' & F1 & _ & F2 & _ & _ & F5).
  cbn in Mi, Mj. rewrite Mi in Lp. rewrite Mi, Mj in Lm. destruct p as [|? p]; [|discriminate Lp]. cbn [app] in *.
  assert (Q : q = []). { destruct q as [|z q]; [reflexivity|]. exfalso. assert (G := f_equal (@List.length oid) E). rewrite app_length in G. cbn in *. lia. }
  rewrite Q in *. rewrite (app_nil_r m) in E. rewrite E. exists h'. auto.
Qed.
End WithEnv.
