(** * DemoClean: related groups with gaps, for the examples. *)
From Verif Require Export DemoGrow DemoGap CleanSpec.
From Verif Require Import CleanFinal.
Open Scope Z_scope.

(** Words, syllables and phones with a gap from [z + 20] to [z + 30]. *)
Definition ex_clean_from (z : Z) : heap :=
  let E : Env := demo_env in
  run (w <- new_itier (FromList [ERaw (Some z) (Some 30) "ab"; ERaw (Some 40) (Some 60) "cd"; ERaw (Some 60) (Some 70) "e"]) (Some 11%nat) ;;
       s <- new_itier (FromList [ERaw (Some z) (Some 20) "1"; ERaw (Some 20) (Some 30) "2"; ERaw (Some 40) (Some 60) "3"; ERaw (Some 60) (Some 70) "4"]) (Some 12%nat) ;;
       p <- new_itier (FromList [ERaw (Some z) (Some 20) "a"; ERaw (Some 20) (Some 25) "b"; ERaw (Some 25) (Some 30) "b"; ERaw (Some 40) (Some 50) "c";
         ERaw (Some 50) (Some 60) "d"; ERaw (Some 60) (Some 70) "e"]) (Some 13%nat) ;;
       new_tg 50 [w; s; p]) ex_classes.
Definition ex_clean : heap := Eval vm_compute in ex_clean_from 10.
Definition ex_clean0 : heap := Eval vm_compute in ex_clean_from 0.
Definition clean_ts : list tid := [0; 1; 2]%nat.
Definition clean_blocks : list (list (list nat)) := [[[13; 16]; [19]; [22]]; [[29]; [32; 35]; [38; 41]; [44]]]%nat.
Lemma clean_shape : map t_seq (h_tier ex_clean) = [[0; 3; 6]; [13; 16; 19; 22]; [29; 32; 35; 38; 41; 44]]%nat.
Proof. reflexivity. Qed.
Ltac all_good :=
  split; [vm_compute; lia|]; split; [reflexivity|]; split; [reflexivity|]; split; [reflexivity|];
  split; [split; [vm_compute; repeat split|]; split; [apply nodup_by; vm_compute; reflexivity|];
    split; [intros t Ht; members; finish|]; split; eexists; (split; [reflexivity|]); eexists; split; reflexivity|];
  split; [vm_compute; repeat split|];
  split; [split; [reflexivity|]; split; [repeat (constructor; [filled|]); constructor|];
    split; [reflexivity|]; split; [repeat (constructor; [filled|]); constructor|]; exact I|];
  split; [split; [|split; [|exact I]]; repeat (constructor; [parented|]); constructor|];
  split; [intros t Ht; members; (split; [reflexivity|]); (split; [|reflexivity]); (split; [apply nodup_by; vm_compute; reflexivity|intros x Hx; members; finish])|];
  intros t [= <-]; (split; [apply in_turn_by; vm_compute; reflexivity|intros x Hx; members; finish]).
Lemma clean_good : good_group ex_clean 0 clean_ts clean_blocks.
Proof. all_good. Qed.
Lemma clean0_good : good_group ex_clean0 0 clean_ts clean_blocks.
Proof. all_good. Qed.
Lemma clean_gappy t : In t clean_ts -> gappy ex_clean t.
Proof.
  intros Ht. members; (split; [vm_compute; lia|]); (split; [reflexivity|]); (split; [reflexivity|]); (split; [left; reflexivity|]); (split; [discriminate|]);
  (split; [apply in_turn_by; reflexivity|]);
  intros x Hx; members; (split; [vm_compute; lia|]; split; [reflexivity|]; eexists; eexists; split; [reflexivity|]; split; [reflexivity|lia]).
Qed.
Lemma clean_current : up_to_date ex_clean 0.
Proof. split; reflexivity. Qed.
Lemma clean_gap : @real_gap demo_env ex_clean (t_seq (tob ex_clean 0)).
Proof.
  exists 0%nat, 0%nat, 3%nat, 30, 40. split; [reflexivity|]. split; [reflexivity|]. split; [reflexivity|]. split; [reflexivity|].
  unfold near. vm_compute. intros Q. apply Q. reflexivity.
Qed.
Lemma grow_no_gap : ~ @real_gap demo_env ex_grow (t_seq (tob ex_grow 1)).
Proof.
  intros (i & x & y & a & b & Hx & Hy & Ha & Hb & N). change (t_seq (tob ex_grow 1)) with [16; 19]%nat in Hx, Hy.
  destruct i as [|i]; [|destruct i; discriminate]. injection Hx as <-. injection Hy as <-. vm_compute in Ha, Hb. injection Ha as <-. injection Hb as <-.
  apply N. vm_compute. discriminate.
Qed.
Lemma grow_current : up_to_date ex_grow 1.
Proof. split; reflexivity. Qed.

(** If the first interval starts at 0, the new intervals are put at the end of
    the tiers, which are then out of order. *)
Lemma c63_zero_refuted : let E : Env := demo_env in
  exists h g ts bss t h', good_group h g ts bss /\ hd_error ts = Some t /\ up_to_date h t /\
    (forall u x, In u ts -> In x (t_seq (tob h u)) -> exists a b, s_start (sob h x) = Some a /\ s_end (sob h x) = Some b /\ 0 <= a < b) /\
    grp_cleanup 50 g h = Ok tt h' /\ forall u, In u ts -> ~ in_turn h' (t_seq (tob h' u)).
Proof.
  cbv zeta. exists ex_clean0, 0%nat, clean_ts, clean_blocks, 0%nat. eexists. split; [exact clean0_good|]. split; [reflexivity|]. split; [split; reflexivity|].
  split.
  { intros u x Hu Hx. members; (eexists; eexists; split; [vm_compute; reflexivity|]; split; [vm_compute; reflexivity|lia]). }
  split; [vm_compute; reflexivity|].
  intros u Hu T. destruct Hu as [<-|[<-|[<-|[]]]].
  - destruct (T 2%nat 3%nat 6%nat 65%nat) as (e & s & A & B & C); [lia|vm_compute; reflexivity|vm_compute; reflexivity|].
    vm_compute in A, B. injection A as <-. injection B as <-. lia.
  - destruct (T 3%nat 4%nat 22%nat 68%nat) as (e & s & A & B & C); [lia|vm_compute; reflexivity|vm_compute; reflexivity|].
    vm_compute in A, B. injection A as <-. injection B as <-. lia.
  - destruct (T 5%nat 6%nat 44%nat 71%nat) as (e & s & A & B & C); [lia|vm_compute; reflexivity|vm_compute; reflexivity|].
    vm_compute in A, B. injection A as <-. injection B as <-. lia.
Qed.
(** A new interval in the first tier is not linked with its neighbours, and does
    not know where it is. *)
Lemma c63_links_refuted : let E : Env := demo_env in
  exists h g ts bss t h' x y, good_group h g ts bss /\ (forall u, In u ts -> gappy h u) /\ hd_error ts = Some t /\ up_to_date h t /\
    real_gap h (t_seq (tob h t)) /\ grp_cleanup 50 g h = Ok tt h' /\
    nth_error (t_seq (tob h' t)) 0 = Some x /\ nth_error (t_seq (tob h' t)) 1 = Some y /\
    s_fol (sob h' x) <> Some y /\ s_prev (sob h' y) <> Some x /\ s_intier (sob h' y) = None /\ s_within (sob h' y) = None.
Proof.
  cbv zeta. exists ex_clean, 0%nat, clean_ts, clean_blocks, 0%nat. do 3 eexists. split; [exact clean_good|]. split; [exact clean_gappy|]. split; [reflexivity|].
  split; [exact clean_current|]. split; [exact clean_gap|]. split; [vm_compute; reflexivity|]. split; [vm_compute; reflexivity|]. split; [vm_compute; reflexivity|].
  split; [vm_compute; discriminate|]. split; [vm_compute; discriminate|]. split; vm_compute; reflexivity.
Qed.
