(** * DemoBeside: a text grid with points beside rows of different extent, for the
    examples. *)
From Verif Require Export DemoWiden BesideSpec.
From Verif Require Import UnevenFinal.
Open Scope Z_scope.

(** A speaker with a tier of points, from 10 to 60, one without, from 25 to 90, and a
    row of points. *)
Definition beside_rows : list (list rawtier) := [[ex_segs; ex_words; ex_marks]; [ex_words2; ex_segs2]; [ex_tones]].
Definition beside_classes : list (list nat) := [[cPhone; cWord; cPoint]; [cWord; cPhone]; [cPoint]].
Definition beside_lo (ps : list (rawtier * nat)) : Z := uneven_lo (map fst ps).
Definition beside_hi (ps : list (rawtier * nat)) : Z := uneven_hi (map fst ps).
Lemma beside_readable : Forall2 (fun row ocs => readable boot_heap (beside_lo (interval_part boot_heap row ocs)) (beside_hi (interval_part boot_heap row ocs)) row ocs) beside_rows beside_classes.
Proof.
  constructor; [|constructor; [|constructor; [|constructor]]].
  - exact ex_row.
  - pose proof uneven_nesting as U. inversion U as [|? ? ? ? _ U2]; subst. inversion U2 as [|? ? ? ? U3 _]; subst. destruct (nesting_parts boot_heap _ _ _ _ boot_table U3) as (_ & _ & Q & _). exact Q.
  - destruct ex_prow as (A & B & _ & D). split; [exact A|]. split; [exact B|]. split; [left; reflexivity|exact D].
Qed.
Ltac which_row := intros [E|[E|[E|[]]]]; injection E as <- <-.
Lemma beside_bounds :
  least (row_value boot_heap beside_rows beside_classes beside_lo) 10 /\ greatest (row_value boot_heap beside_rows beside_classes beside_lo) 25 /\
  least (row_value boot_heap beside_rows beside_classes beside_hi) 60 /\ greatest (row_value boot_heap beside_rows beside_classes beside_hi) 90.
Proof.
  split; [|split; [|split]]; (split; [|intros z (row & ocs & E & N & <-); revert E N; unfold beside_rows, beside_classes; cbn [combine]; which_row; intros N; first [exfalso; apply N; reflexivity|vm_compute; discriminate]]);
    first [exists [ex_segs; ex_words; ex_marks], [cPhone; cWord; cPoint]; split; [left; reflexivity|]; split; [vm_compute; discriminate|vm_compute; reflexivity]
          |exists [ex_words2; ex_segs2], [cWord; cPhone]; split; [right; left; reflexivity|]; split; [vm_compute; discriminate|vm_compute; reflexivity]].
Qed.
Lemma beside_room : forall row ocs, In (row, ocs) (combine beside_rows beside_classes) ->
  @gapless demo_env (map fst (interval_part boot_heap row ocs)) \/ 0 < beside_lo (interval_part boot_heap row ocs) /\ (List.length row <= 50)%nat.
Proof.
  intros row ocs. unfold beside_rows, beside_classes; cbn [combine]; which_row; [right|right|left]; [split; [vm_compute; reflexivity|cbn; lia]|split; [vm_compute; reflexivity|cbn; lia]|intros r []].
Qed.
Lemma beside_full : forall row ocs p, In (row, ocs) (combine beside_rows beside_classes) -> In p (point_part boot_heap row ocs) -> rt_entries (fst p) <> [].
Proof.
  intros row ocs p. unfold beside_rows, beside_classes; cbn [combine]; which_row; intros Hp.
  - change (In p [(ex_marks, cPoint)]) in Hp. destruct Hp as [<-|[]]. discriminate.
  - change (In p []) in Hp. destruct Hp.
  - change (In p [(ex_tones, cPoint)]) in Hp. destruct Hp as [<-|[]]. discriminate.
Qed.
Lemma tones_first : first_point (point_part boot_heap [ex_tones] [cPoint]) 44 /\ last_first_point (point_part boot_heap [ex_tones] [cPoint]) 44.
Proof.
  change (point_part boot_heap [ex_tones] [cPoint]) with [(ex_tones, cPoint)].
  assert (P : forall z, point_time ex_tones z -> z = 44) by (intros z (x & [E|[]]); injection E as <- _; reflexivity).
  assert (Q : point_time ex_tones 44) by (exists "H"%string; left; reflexivity). split; split.
  - exists (ex_tones, cPoint). split; [left; reflexivity|exact Q].
  - intros z (p & [<-|[]] & R). rewrite (P z R). lia.
  - exists (ex_tones, cPoint). split; [left; reflexivity|]. split; [exact Q|]. intros z R. rewrite (P z R). lia.
  - intros z (p & [<-|[]] & R & _). rewrite (P z R). lia.
Qed.
(** Two speakers, and a row of two tiers of points, of which one starts with the
    first speaker and the other with the second. *)
Definition close_a : rawtier := RawTier "a" [ERaw (Some 10) None "x"; ERaw (Some 35) None "y"].
Definition close_b : rawtier := RawTier "b" [ERaw (Some 25) None "z"].
Definition close_rows : list (list rawtier) := [[ex_segs; ex_words]; [close_a; close_b]; [ex_words2; ex_segs2]].
Definition close_classes : list (list nat) := [[cPhone; cWord]; [cPoint; cPoint]; [cWord; cPhone]].
Lemma close_readable : Forall2 (fun row ocs => readable boot_heap (beside_lo (interval_part boot_heap row ocs)) (beside_hi (interval_part boot_heap row ocs)) row ocs) close_rows close_classes.
Proof.
  pose proof uneven_nesting as U. inversion U as [|? ? ? ? U1 U2]; subst. inversion U2 as [|? ? ? ? U3 _]; subst.
  constructor; [|constructor; [|constructor; [|constructor]]].
  - destruct (nesting_parts boot_heap _ _ _ _ boot_table U1) as (_ & _ & Q & _). exact Q.
  - split; [reflexivity|]. split; [intros c [<-|[<-|[]]]; left; split; vm_compute; reflexivity|]. split; [left; reflexivity|].
    intros p Hp. vm_compute in Hp. destruct Hp as [<-|[<-|[]]]; intros e He; vm_compute in He; [destruct He as [<-|[<-|[]]]|destruct He as [<-|[]]]; do 2 eexists; (split; [reflexivity|discriminate]).
  - destruct (nesting_parts boot_heap _ _ _ _ boot_table U3) as (_ & _ & Q & _). exact Q.
Qed.
Lemma close_bounds :
  least (row_value boot_heap close_rows close_classes beside_lo) 10 /\ greatest (row_value boot_heap close_rows close_classes beside_lo) 25 /\
  least (row_value boot_heap close_rows close_classes beside_hi) 60 /\ greatest (row_value boot_heap close_rows close_classes beside_hi) 90.
Proof.
  split; [|split; [|split]]; (split; [|intros z (row & ocs & E & N & <-); revert E N; unfold close_rows, close_classes; cbn [combine]; which_row; intros N; first [exfalso; apply N; reflexivity|vm_compute; discriminate]]);
    first [exists [ex_segs; ex_words], [cPhone; cWord]; split; [left; reflexivity|]; split; [vm_compute; discriminate|vm_compute; reflexivity]
          |exists [ex_words2; ex_segs2], [cWord; cPhone]; split; [right; right; left; reflexivity|]; split; [vm_compute; discriminate|vm_compute; reflexivity]].
Qed.
Lemma close_room : forall row ocs, In (row, ocs) (combine close_rows close_classes) ->
  @gapless demo_env (map fst (interval_part boot_heap row ocs)) \/ 0 < beside_lo (interval_part boot_heap row ocs) /\ (List.length row <= 50)%nat.
Proof.
  intros row ocs. unfold close_rows, close_classes; cbn [combine]; which_row; [right|left|right]; [split; [vm_compute; reflexivity|cbn; lia]|intros r []|split; [vm_compute; reflexivity|cbn; lia]].
Qed.
Lemma close_full : forall row ocs p, In (row, ocs) (combine close_rows close_classes) -> In p (point_part boot_heap row ocs) -> rt_entries (fst p) <> [].
Proof.
  intros row ocs p. unfold close_rows, close_classes; cbn [combine]; which_row; intros Hp.
  - change (In p []) in Hp. destruct Hp.
  - change (In p [(close_a, cPoint); (close_b, cPoint)]) in Hp. destruct Hp as [<-|[<-|[]]]; discriminate.
  - change (In p []) in Hp. destruct Hp.
Qed.
Lemma close_near : forall row ocs p q, In (row, ocs) (combine close_rows close_classes) -> first_point (point_part boot_heap row ocs) p -> last_first_point (point_part boot_heap row ocs) q ->
  @near demo_env p 10 /\ @near demo_env q 25.
Proof.
  intros row ocs p q. unfold close_rows, close_classes; cbn [combine]; which_row; intros [(r & Hr & Fr) Fl] [(k & Hk & (K1 & K2)) Kl].
  - change (In r []) in Hr. destruct Hr.
  - change (point_part boot_heap [close_a; close_b] [cPoint; cPoint]) with [(close_a, cPoint); (close_b, cPoint)] in *.
    assert (A : forall z, point_time close_a z -> z = 10 \/ z = 35) by (intros z (x & [E|[E|[]]]); injection E as <- _; auto).
    assert (B : forall z, point_time close_b z -> z = 25) by (intros z (x & [E|[]]); injection E as <- _; auto).
    assert (A' : point_time close_a 10) by (exists "x"%string; left; reflexivity). assert (B' : point_time close_b 25) by (exists "z"%string; left; reflexivity).
    assert (p = 10).
    { specialize (Fl 10 (ex_intro _ (close_a, cPoint) (conj (or_introl eq_refl) A'))). destruct Hr as [<-|[<-|[]]]; [destruct (A _ Fr)|pose proof (B _ Fr)]; lia. }
    assert (q = 25).
    { assert (Lb : least (point_time close_b) 25) by (split; [exact B'|intros z Q; rewrite (B z Q); lia]). specialize (Kl 25 (ex_intro _ (close_b, cPoint) (conj (or_intror (or_introl eq_refl)) Lb))).
      destruct Hk as [<-|[<-|[]]]; cbn [fst] in *; [specialize (K2 10 A'); lia|apply B, K1]. }
    subst p q. split; vm_compute; discriminate.
  - change (In r []) in Hr. destruct Hr.
Qed.
