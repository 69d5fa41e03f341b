(** * DemoPlug: text grids with gaps for the examples on reading (C65). *)
From Verif Require Export DemoRead TripSpec.
From Verif Require Import ReadFinal.
Open Scope Z_scope.

(** Words with a gap between them, and their phones, from [a] on. *)
Definition ex_gwords (a : Z) : rawtier := RawTier "words" [ERaw (Some a) (Some 20) "ab"; ERaw (Some 40) (Some 60) "cd"].
Definition ex_gsegs (a : Z) : rawtier := RawTier "phones"
  [ERaw (Some a) (Some 15) "a"; ERaw (Some 15) (Some 20) "b"; ERaw (Some 40) (Some 50) "c"; ERaw (Some 50) (Some 60) "d"].
Lemma ex_grow a : a < 15 -> readable boot_heap a 60 [ex_gwords a; ex_gsegs a] [cWord; cPhone].
Proof.
  intros La. split; [reflexivity|]. split; [intros c [<-|[<-|[]]]; right; vm_compute; reflexivity|]. split.
  - right. exists [cWord; cPhone], [ex_gwords a; ex_gsegs a]. split; [exists cTopwp, cBottomwp; exact boot_chain|]. split; [exact boot_names|]. split; [reflexivity|].
    split; [vm_compute; reflexivity|]. split; [exists (ex_gwords a); split; [reflexivity|turns_goal]|].
    cbn. split; [|exact I].
    exists [[ERaw (Some a) (Some 15) "a"; ERaw (Some 15) (Some 20) "b"]; [ERaw (Some 40) (Some 50) "c"; ERaw (Some 50) (Some 60) "d"]]. split; [reflexivity|].
    constructor; [|constructor; [|constructor]]; (do 3 eexists; split; [reflexivity|]; split; [lia|]); cbn;
      repeat (do 2 eexists; split; [reflexivity|]; split; [lia|]; split; [discriminate|]); reflexivity.
  - intros p Hp. vm_compute in Hp. destruct Hp.
Qed.
Lemma ex_gap a : @raw_gap demo_env (rt_entries (ex_gwords a)).
Proof. exists 0%nat. do 6 eexists. split; [reflexivity|]. split; [reflexivity|]. vm_compute. intros Q. apply Q. reflexivity. Qed.

(** A text grid that begins at 0: what fills the gap comes last. *)
Lemma c65_zero_refuted : let E : Env := demo_env in
  exists n h rows css hi a h', class_table h /\ Forall2 (readable h 0 hi) rows css /\ names_apart h (concat css) /\ some_intervals h rows css /\
    (forall row, In row rows -> (List.length row <= n)%nat) /\ new_grid_textgrid n (concat rows) (Nested css) h = Ok a h' /\
    exists o, In o (return_textgrid h' a) /\ ~ in_time (snd o).
Proof.
  cbv zeta. exists 50%nat, boot_heap, [[ex_gwords 0; ex_gsegs 0]], [[cWord; cPhone]], 60. do 2 eexists. split; [exact boot_table|]. split; [constructor; [apply ex_grow; lia|constructor]|].
  split; [apply apart_boot; intros c; simpl; tauto|]. split; [do 2 eexists; split; [left; reflexivity|vm_compute; discriminate]|].
  split; [intros row [<-|[]]; cbn; lia|]. split; [vm_compute; reflexivity|].
  eexists. split; [left; vm_compute; reflexivity|]. intros Q. destruct (Q 1%nat 2%nat _ _ ltac:(lia) eq_refl eq_refl) as (s & t & Q1 & Q2 & Q3). cbn in Q1, Q2. injection Q1 as <-. injection Q2 as <-. lia.
Qed.
(** Words and phones with a gap and, apart from them, turns with one. *)
Definition ex_gturn : rawtier := RawTier "turns" [ERaw (Some 10) (Some 30) "one"; ERaw (Some 50) (Some 60) "two"].
Lemma gturny_rows ch row : In ch [[11%nat]; [cWord; cPhone]] ->
  Forall2 (fun c r => exists k, nth_error [cWord; 11%nat; cPhone] k = Some c /\ nth_error [ex_words; ex_gturn; ex_segs] k = Some r) ch row -> readable ex_turny 10 60 row ch.
Proof.
  assert (At : forall c r, (exists k, nth_error [cWord; 11%nat; cPhone] k = Some c /\ nth_error [ex_words; ex_gturn; ex_segs] k = Some r) ->
    (c = cWord -> r = ex_words) /\ (c = 11%nat -> r = ex_gturn) /\ (c = cPhone -> r = ex_segs)).
  { intros c r (k & K1 & K2). destruct k as [|[|[|k]]]; cbn in K1, K2; [| | |destruct k; discriminate]; injection K1 as <-; injection K2 as <-; repeat split; intros Q; first [reflexivity|discriminate Q]. }
  intros [<-|[<-|[]]] F.
  - inversion F as [|? r ? ? A F']; subst. inversion F'; subst. destruct (At _ _ A) as (_ & Q & _). rewrite (Q eq_refl).
    split; [reflexivity|]. split; [intros c [<-|[]]; right; vm_compute; reflexivity|]. split; [|intros p Hp; vm_compute in Hp; destruct Hp].
    right. exists [11%nat], [ex_gturn]. split; [exists 9%nat, 10%nat; exact turny_turns|]. split; [intros c [<-|[]]; split; reflexivity|]. split; [reflexivity|]. split; [vm_compute; reflexivity|].
    split; [|exact I]. exists ex_gturn. split; [reflexivity|]. turns_goal.
  - inversion F as [|? r ? ? A F']; subst. inversion F' as [|? r' ? ? A' F'']; subst. inversion F''; subst.
    destruct (At _ _ A) as (Q & _). destruct (At _ _ A') as (_ & _ & Q'). rewrite (Q eq_refl), (Q' eq_refl).
    split; [reflexivity|]. split; [intros c [<-|[<-|[]]]; right; vm_compute; reflexivity|]. split; [|intros p Hp; vm_compute in Hp; destruct Hp].
    right. exists [cWord; cPhone], [ex_words; ex_segs]. apply (ex_nested cTopwp cBottomwp); [exact turny_words|exact turny_names|reflexivity|]. vm_compute. reflexivity.
Qed.
