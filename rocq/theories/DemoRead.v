(** * DemoRead: text grids for the examples on reading (C53). *)
From Verif Require Export DemoOwn ReadSpec.
From Verif Require Import ReadFinal.
Open Scope Z_scope.

Ltac turns_goal := cbn; do 2 eexists; split; [reflexivity|]; split; [lia|]; split; [discriminate|]; first [left; split; reflexivity|right; eexists; split; [|turns_goal]; lia].
Lemma ex_nested c1 c2 rs ps (h : heap) : class_chain h c1 [cWord; cPhone] c2 -> (forall x, In x [cWord; cPhone] -> plain_name (class_name h x)) ->
  rs = [ex_words; ex_segs] -> Permutation ps (combine rs [cWord; cPhone]) -> nested_as h 10 60 ps [cWord; cPhone] rs.
Proof.
  intros C N -> P. split; [eauto|]. split; [exact N|]. split; [reflexivity|]. split; [exact P|]. split.
  - exists ex_words. split; [reflexivity|]. turns_goal.
  - cbn. split; [|exact I].
    exists [[ERaw (Some 10) (Some 20) "a"; ERaw (Some 20) (Some 30) "b"]; [ERaw (Some 30) (Some 50) "c"; ERaw (Some 50) (Some 60) "d"]]. split; [reflexivity|].
    constructor; [|constructor; [|constructor]]; (do 3 eexists; split; [reflexivity|]; split; [lia|]); cbn;
      repeat (do 2 eexists; split; [reflexivity|]; split; [lia|]; split; [discriminate|]); reflexivity.
Qed.
(** Each entry begins where the one before ends. *)
Definition gap_free (l : list entry) : bool :=
  forallb (fun p => match p with (ERaw _ (Some m) _, ERaw (Some s) _ _) => m =? s | _ => true end) (combine l (tl l)).
Lemma gap_free_ok `{Env} l : gap_free l = true -> ~ raw_gap l.
Proof.
  intros F (i & a & m & x & s & e & y & E1 & E2 & N). apply N. unfold gap_free in F. rewrite forallb_forall in F.
  assert (I : In (ERaw a (Some m) x, ERaw (Some s) e y) (combine l (tl l))).
  { clear -E1 E2. revert i E1 E2. induction l as [|u [|v l] IH]; intros [|i] E1 E2; try discriminate; [cbn in *; left; congruence|right; apply (IH i E1 E2)]. }
  specialize (F _ I). cbn in F. apply Z.eqb_eq in F. subst s. unfold near. rewrite Z.sub_diag. pose proof atol_nonneg. lia.
Qed.
Lemma gapless_ok `{Env} l : forallb (fun r => gap_free (rt_entries r)) l = true -> gapless l.
Proof. intros F r Hr. apply gap_free_ok. rewrite forallb_forall in F. apply F, Hr. Qed.
Ltac gapless_goal := apply (@gapless_ok demo_env); reflexivity.
(** Phones, words and marks, in that order. *)
Lemma ex_row : readable boot_heap 10 60 [ex_segs; ex_words; ex_marks] [cPhone; cWord; cPoint].
Proof.
  split; [reflexivity|]. split; [intros c [<-|[<-|[<-|[]]]]; [right|right|left; split]; vm_compute; reflexivity|]. split.
  - right. exists [cWord; cPhone], [ex_words; ex_segs]. apply (ex_nested cTopwp cBottomwp); [exact boot_chain|exact boot_names|reflexivity|].
    vm_compute. apply perm_swap.
  - intros p Hp. vm_compute in Hp. destruct Hp as [<-|[]]. intros e He. vm_compute in He. destruct He as [<-|[<-|[]]]; do 2 eexists; (split; [reflexivity|discriminate]).
Qed.
Lemma ex_prow : readable boot_heap 10 60 [ex_tones] [cPoint].
Proof.
  split; [reflexivity|]. split; [intros c [<-|[]]; left; split; vm_compute; reflexivity|]. split; [left; reflexivity|].
  intros p Hp. vm_compute in Hp. destruct Hp as [<-|[]]. intros e He. vm_compute in He. destruct He as [<-|[]]; do 2 eexists; (split; [reflexivity|discriminate]).
Qed.
Lemma ex_wrow : readable boot_heap 10 60 [ex_words; ex_segs] [cWord; cPhone].
Proof.
  split; [reflexivity|]. split; [intros c [<-|[<-|[]]]; right; vm_compute; reflexivity|]. split.
  - right. exists [cWord; cPhone], [ex_words; ex_segs]. apply (ex_nested cTopwp cBottomwp); [exact boot_chain|exact boot_names|reflexivity|]. vm_compute. reflexivity.
  - intros p Hp. vm_compute in Hp. destruct Hp.
Qed.
Lemma apart_boot l : incl l [cWord; cPhone; cPoint] -> names_apart boot_heap l.
Proof. intros I c d Hc Hd. apply I in Hc, Hd. destruct Hc as [<-|[<-|[<-|[]]]], Hd as [<-|[<-|[<-|[]]]]; vm_compute; congruence. Qed.

(** Words and phones and, apart from them, turns (class 11). *)
Definition ex_turny : heap := Eval vm_compute in run (custom_classes ["Turn"%string] RNone []) boot_heap.
Definition ex_turn : rawtier := RawTier "turns" [ERaw (Some 10) (Some 40) "one"; ERaw (Some 40) (Some 60) "two"].
Lemma turny_table : class_table ex_turny.
Proof.
  split; [vm_compute; lia|]. split; [|repeat split].
  intros c b. do 12 (destruct c as [|c]; [vm_compute; intros [= <-]; lia || discriminate|]).
  intros E. exfalso. revert E. unfold cob. rewrite lookup_ge_None_2; [discriminate|vm_compute; lia].
Qed.
Lemma turny_words : class_chain ex_turny cTopwp [cWord; cPhone] cBottomwp.
Proof. chain_goal. Qed.
Lemma turny_turns : class_chain ex_turny 9%nat [11%nat] 10%nat.
Proof. chain_goal. Qed.
Lemma turny_names x : In x [cWord; cPhone] -> plain_name (class_name ex_turny x).
Proof. intros [<-|[<-|[]]]; split; reflexivity. Qed.
Lemma turny_rows ch row : In ch [[11%nat]; [cWord; cPhone]] ->
  Forall2 (fun c r => exists k, nth_error [cWord; 11%nat; cPhone] k = Some c /\ nth_error [ex_words; ex_turn; ex_segs] k = Some r) ch row -> readable ex_turny 10 60 row ch.
Proof.
  assert (At : forall c r, (exists k, nth_error [cWord; 11%nat; cPhone] k = Some c /\ nth_error [ex_words; ex_turn; ex_segs] k = Some r) ->
    (c = cWord -> r = ex_words) /\ (c = 11%nat -> r = ex_turn) /\ (c = cPhone -> r = ex_segs)).
  { intros c r (k & K1 & K2). destruct k as [|[|[|k]]]; cbn in K1, K2; [| | |destruct k; discriminate]; injection K1 as <-; injection K2 as <-; repeat split; intros Q; first [reflexivity|discriminate Q]. }
  intros [<-|[<-|[]]] F.
  - inversion F as [|? r ? ? A F']; subst. inversion F'; subst. destruct (At _ _ A) as (_ & Q & _). rewrite (Q eq_refl).
    split; [reflexivity|]. split; [intros c [<-|[]]; right; vm_compute; reflexivity|]. split; [|intros p Hp; vm_compute in Hp; destruct Hp].
    right. exists [11%nat], [ex_turn]. split; [exists 9%nat, 10%nat; exact turny_turns|]. split; [intros c [<-|[]]; split; reflexivity|]. split; [reflexivity|]. split; [vm_compute; reflexivity|].
    split; [|exact I]. exists ex_turn. split; [reflexivity|]. turns_goal.
  - inversion F as [|? r ? ? A F']; subst. inversion F' as [|? r' ? ? A' F'']; subst. inversion F''; subst.
    destruct (At _ _ A) as (Q & _). destruct (At _ _ A') as (_ & _ & Q'). rewrite (Q eq_refl), (Q' eq_refl).
    split; [reflexivity|]. split; [intros c [<-|[<-|[]]]; right; vm_compute; reflexivity|]. split; [|intros p Hp; vm_compute in Hp; destruct Hp].
    right. exists [cWord; cPhone], [ex_words; ex_segs]. apply (ex_nested cTopwp cBottomwp); [exact turny_words|exact turny_names|reflexivity|]. vm_compute. reflexivity.
Qed.

(** A text grid of nothing but points cannot be read. *)
Lemma c53_points_refuted : let E : Env := demo_env in
  exists n h rows css lo hi h', class_table h /\ Forall2 (readable h lo hi) rows css /\ names_apart h (concat css) /\ gapless (concat rows) /\ concat rows <> [] /\
    new_grid_textgrid n (concat rows) (Nested css) h = Raise ValueError h'.
Proof.
  cbv zeta. exists 50%nat, boot_heap, [[ex_tones]], [[cPoint]], 10, 60. eexists. split; [exact boot_table|]. split; [constructor; [exact ex_prow|constructor]|].
  split; [apply apart_boot; intros c; simpl; tauto|]. split; [gapless_goal|]. split; [discriminate|]. vm_compute. reflexivity.
Qed.

(** Of two classes with the same name only one counts: all tiers get the copy of
    that one. *)
Definition ex_twin : heap := Eval vm_compute in run (custom_classes ["Word"%string; "Phone"%string] RNone []) boot_heap.
Lemma twin_table : class_table ex_twin.
Proof.
  split; [vm_compute; lia|]. split; [|repeat split].
  intros c b. do 13 (destruct c as [|c]; [vm_compute; intros [= <-]; lia || discriminate|]).
  intros E. exfalso. revert E. unfold cob. rewrite lookup_ge_None_2; [discriminate|vm_compute; lia].
Qed.
Lemma twin_row c1 x y c2 : class_chain ex_twin c1 [x; y] c2 -> (forall c, In c [x; y] -> plain_name (class_name ex_twin c)) -> readable ex_twin 10 60 [ex_words; ex_segs] [x; y].
Proof.
  intros C N. pose proof C as (_ & _ & _ & _ & Iv & _). assert (X : issubclass ex_twin x cInterval = true) by (apply Iv; simpl; auto). assert (Y : issubclass ex_twin y cInterval = true) by (apply Iv; simpl; auto).
  split; [reflexivity|]. split; [intros c Hc; right; apply Iv, Hc|]. split.
  - right. exists [x; y], [ex_words; ex_segs]. unfold interval_part. cbn [combine List.filter snd]. rewrite X, Y.
    split; [eauto|]. split; [exact N|]. split; [reflexivity|]. split; [reflexivity|].
    pose proof (ex_nested cTopwp cBottomwp [ex_words; ex_segs] _ _ boot_chain boot_names eq_refl (Permutation_refl _)) as (_ & _ & _ & _ & Q). exact Q.
  - intros p Hp. unfold point_part in Hp. cbn [combine List.filter snd] in Hp.
    rewrite (kinds_apart ex_twin x cInterval cPoint twin_table), (kinds_apart ex_twin y cInterval cPoint twin_table) in Hp; simpl; auto; try discriminate. destruct Hp.
Qed.
Lemma c53_names_refuted : let E : Env := demo_env in
  exists n h rows css lo hi, class_table h /\ Forall2 (readable h lo hi) rows css /\ some_intervals h rows css /\ gapless (concat rows) /\ NoDup (concat css) /\
    exists a h', new_grid_textgrid n (concat rows) (Nested css) h = Ok a h' /\
      exists c, In c (concat css) /\ forall g k, In g (a_groups (aob h' a)) -> In k (tiers_in h' g) -> ~ clone_of h h' c (t_ec (tob h' k)).
Proof.
  cbv zeta. exists 50%nat, ex_twin, [[ex_words; ex_segs]; [ex_words; ex_segs]], [[cWord; cPhone]; [11; 12]%nat], 10, 60.
  split; [exact twin_table|]. split.
  { constructor; [apply (twin_row cTopwp _ _ cBottomwp); [chain_goal|intros c [<-|[<-|[]]]; split; reflexivity]|].
    constructor; [apply (twin_row 9%nat _ _ 10%nat); [chain_goal|intros c [<-|[<-|[]]]; split; reflexivity]|constructor]. }
  split; [do 2 eexists; split; [left; reflexivity|vm_compute; discriminate]|]. split; [gapless_goal|]. split; [apply nodup_by; vm_compute; reflexivity|].
  do 2 eexists. split; [vm_compute; reflexivity|]. exists 11%nat. split; [vm_compute; auto|].
  intros g k Hg Hk (_ & _ & Q). members; members; vm_compute in Q; discriminate.
Qed.
