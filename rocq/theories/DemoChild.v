(** * DemoChild: words and phones, loose and in a group, for the examples of
    appending children. *)
From Verif Require Export DemoSnap DemoGrow ChildSpec.
From Verif Require Import ListFinal BroodFinal.
Open Scope Z_scope.

(** Word 0 with phones 3 and 6 and a gap between them, where phone 11 fits;
    word 14 with phones 17 and 20; phone 25 has the times and the label of phone 3;
    word 28 has no phones. *)
Definition ex_kin : heap := Eval vm_compute in
  let E : Env := demo_env in
  run (w <- new_obj 5%nat (Some 0) (Some 30) "w" ;;
       a <- new_obj 6%nat (Some 0) (Some 10) "a" ;;
       b <- new_obj 6%nat (Some 20) (Some 30) "c" ;;
       set_subset_list w [a; b] ;;;
       new_obj 6%nat (Some 10) (Some 20) "b" ;;;
       v <- new_obj 5%nat (Some 30) (Some 50) "v" ;;
       p <- new_obj 6%nat (Some 30) (Some 40) "p" ;;
       q <- new_obj 6%nat (Some 40) (Some 50) "q" ;;
       set_subset_list v [p; q] ;;;
       new_obj 6%nat (Some 0) (Some 10) "a" ;;; new_obj 5%nat (Some 60) (Some 70) "e") boot_heap.
(** Tier 0: phones 0, 3, 6 and 9; tier 1: words 19 and 22; phone 12 was taken
    out; phone 35 takes its place. *)
Definition ex_band : heap := Eval vm_compute in
  let E : Env := demo_env in
  run (new_itier (FromList [ERaw (Some 0) (Some 10) "a"; ERaw (Some 10) (Some 20) "b"; ERaw (Some 20) (Some 30) "c"; ERaw (Some 30) (Some 40) "d";
                            ERaw (Some 40) (Some 50) "e"]) (Some 6%nat) ;;;
       new_itier (FromList [ERaw (Some 0) (Some 30) "abc"; ERaw (Some 30) (Some 50) "de"]) (Some 5%nat) ;;; new_tg 50 [1; 0]%nat ;;;
       tier_pop 0 12 ;;; new_obj 6%nat (Some 40) (Some 50) "f") boot_heap.
Lemma band_shape : map t_seq (h_tier ex_band) = [[0; 3; 6; 9]; [19; 22]]%nat /\ s_subset (sob ex_band 22) = [9]%nat /\ s_label (sob ex_band 35) = "f"%string.
Proof. repeat split. Qed.
(** A check of [sorted_starts] for a concrete list. *)
Definition sorted_b (h : heap) (l : list nat) : bool :=
  forallb (fun ix => forallb (fun jy => negb (fst ix <? fst jy)%nat ||
    match s_start (sob h (snd ix)), s_start (sob h (snd jy)) with Some e, Some s => e <=? s | _, _ => false end)
    (combine (seq 0 (List.length l)) l)) (combine (seq 0 (List.length l)) l).
Lemma sorted_by h l : sorted_b h l = true -> sorted_starts h l.
Proof.
  intros B i j x y Hij Hx Hy. unfold sorted_b in B. rewrite forallb_forall in B. specialize (B _ (in_numbered l i x Hx 0)).
  rewrite forallb_forall in B. specialize (B _ (in_numbered l j y Hy 0)). simpl in B.
  apply Nat.ltb_lt in Hij. rewrite Hij in B. simpl in B.
  destruct (s_start (sob h x)) as [e|]; [|discriminate]. destruct (s_start (sob h y)) as [s|]; [|discriminate].
  exists e, s. repeat split. apply Z.leb_le. exact B.
Qed.
Ltac sound := split; [vm_compute; lia|split; [reflexivity|split; [vm_compute; discriminate|split; eexists; reflexivity]]].
Lemma kin_family : family ex_kin 6 0.
Proof.
  split; [vm_compute; lia|]. split; [vm_compute; discriminate|]. split; [reflexivity|]. split; [vm_compute; intuition discriminate|].
  split; [apply nodup_by; vm_compute; reflexivity|]. split; [apply sorted_by; vm_compute; reflexivity|]. split; [left; reflexivity|].
  intros y Hy. members; (split; [sound|reflexivity]).
Qed.
Lemma kin_bare : family ex_kin 6 28.
Proof.
  split; [vm_compute; lia|]. split; [vm_compute; discriminate|]. split; [reflexivity|]. split; [vm_compute; intuition discriminate|].
  split; [apply nodup_by; vm_compute; reflexivity|]. split; [apply sorted_by; vm_compute; reflexivity|]. split; [right; split; reflexivity|].
  intros y Hy. members.
Qed.
Lemma kin_loose u : ungrouped ex_kin u.
Proof. intros t g _ W. exfalso. destruct t; discriminate. Qed.
Lemma kin_housed : housed_with ex_kin 0 17 14.
Proof.
  split; [reflexivity|]. split.
  { intros p [= <-]. split; [vm_compute; lia|]. split; [discriminate|]. split; [vm_compute; auto|]. split; [apply nodup_by; vm_compute; reflexivity|].
    intros y Hy. members; (split; [vm_compute; lia|]); (split; [vm_compute; discriminate|]); (split; [reflexivity|]).
    all: intros z Hz; members; (split; [reflexivity|]); intros (V1 & V2 & V3 & V4); vm_compute in V1, V2, V3, V4; first [reflexivity|discriminate]. }
  split; [discriminate|]. repeat split; vm_compute; intuition discriminate.
Qed.

Lemma band_skel : skel ex_band 0 [1; 0]%nat.
Proof.
  constructor; [reflexivity|reflexivity| | | | |].
  - intros t [<-|[<-|[]]]; (split; [reflexivity|vm_compute; lia]).
  - apply nodup_by. vm_compute. reflexivity.
  - intros t y [<-|[<-|[]]] Hy; members; (split; [vm_compute; lia|split; reflexivity]).
  - intros t [<-|[<-|[]]]; apply sorted_by; vm_compute; reflexivity.
  - intros t [<-|[<-|[]]]; left; reflexivity.
Qed.
Lemma band_family : family ex_band 6 22.
Proof.
  split; [vm_compute; lia|]. split; [vm_compute; discriminate|]. split; [reflexivity|]. split; [vm_compute; intuition discriminate|].
  split; [apply nodup_by; vm_compute; reflexivity|]. split; [apply sorted_by; vm_compute; reflexivity|]. split; [left; reflexivity|].
  intros y Hy. members; (split; [sound|reflexivity]).
Qed.
Lemma band_sprout : sprout ex_band [0]%nat 35.
Proof.
  split; [vm_compute; lia|]. split; [reflexivity|]. split; [vm_compute; discriminate|]. split; [|reflexivity].
  split; [reflexivity|]. split; [reflexivity|]. vm_compute. reflexivity.
Qed.
Lemma band_roomy : roomy ex_band 0 [35]%nat.
Proof.
  split; [vm_compute; lia|]. split; [vm_compute; discriminate|]. split; [reflexivity|]. split.
  { split; [apply nodup_by; vm_compute; reflexivity|]. intros x Hx. members; (split; [vm_compute; lia|split; [reflexivity|vm_compute; discriminate]]). }
  split; [left; reflexivity|]. split.
  { intros x Hx. members; (split; [reflexivity|]; split; [reflexivity|]; vm_compute; reflexivity). }
  intros x y Hx Hy. members; intros Q; vm_compute in Q; first [reflexivity|discriminate].
Qed.
(** Appending to an interval of a grouped tier links the whole tier below as one
    row: the last child of another interval, which had a boundary behind it,
    is now followed by the first child of its neighbour. *)
Lemma c67_across_refuted : let E : Env := demo_env in
  exists n h g ts p t d u x h' v y, skel h g ts /\ nth_error ts p = Some t /\ nth_error ts (S p) = Some d /\
    In u (t_seq (tob h t)) /\ family h (t_ec (tob h d)) u /\ ~ listed h (s_subset (sob h u)) x /\ s_super (sob h x) = None /\
    sprout h (drop (S p) ts) x /\ roomy h d [x] /\ seq_append n u x h = Ok tt h' /\
    v <> u /\ s_subset (sob h' v) = s_subset (sob h v) /\ In y (s_subset (sob h v)) /\ s_super (sob h' y) = Some v /\
    (exists k, s_fol (sob h y) = Some k /\ is_boundary h k) /\
    exists z, s_fol (sob h' y) = Some z /\ s_super (sob h' z) = Some u.
Proof.
  cbv zeta. exists 10%nat, ex_band, 0%nat, [1; 0]%nat, 0%nat, 1%nat, 0%nat, 22%nat, 35%nat. eexists. exists 19%nat, 6%nat.
  split; [exact band_skel|]. split; [reflexivity|]. split; [reflexivity|]. split; [vm_compute; auto|]. split; [exact band_family|].
  split; [apply sl_contains_iff_not; vm_compute; reflexivity|]. split; [reflexivity|]. split; [exact band_sprout|]. split; [exact band_roomy|].
  split; [vm_compute; reflexivity|]. split; [discriminate|]. split; [vm_compute; reflexivity|]. split; [vm_compute; auto|].
  split; [vm_compute; reflexivity|]. split.
  { eexists. split; [reflexivity|]. repeat split; vm_compute; lia. }
  eexists. split; vm_compute; reflexivity.
Qed.
