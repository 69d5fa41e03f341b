(** * DemoOwn: grids that work with their own classes. *)
From Verif Require Export OwnFinal DemoGrid DemoClass.
Open Scope Z_scope.

Lemma boot_own c : In c [cWord; cPhone; cPoint] -> grid_class boot_heap c.
Proof.
  intros [<-|[<-|[<-|[]]]]; [right|right|left; split; vm_compute; reflexivity];
    exists cTopwp, [cWord; cPhone], cBottomwp; (split; [exact boot_chain|]; split; [vm_compute; auto|exact boot_names]).
Qed.
Lemma ex_given c : In c (given (Nested [[cWord; cPhone]; [cPoint; cPoint]])) -> grid_class boot_heap c.
Proof. intros I. apply boot_own. vm_compute in I |- *. intuition. Qed.
Lemma ex_read_ok : @new_grid_textgrid demo_env 50 [ex_words; ex_segs; ex_marks; ex_tones]
    (Nested [[cWord; cPhone]; [cPoint; cPoint]]) boot_heap = Ok 0%nat ex_grid.
Proof. vm_compute. reflexivity. Qed.
Lemma grid_table : class_table ex_grid.
Proof. exact (proj1 (@c38_read demo_env _ _ _ _ _ _ boot_table ex_given ex_read_ok)). Qed.
Lemma grid_own : grid_owns ex_grid 0.
Proof. exact (proj1 (proj2 (@c38_read demo_env _ _ _ _ _ _ boot_table ex_given ex_read_ok))). Qed.
Lemma grid_whole : whole_grid ex_grid 0.
Proof.
  split; [vm_compute; lia|]. split.
  - intros g I. members; vm_compute; lia.
  - intros t (g & I & J). members; vm_compute; lia.
Qed.

(** The same with a second group, of two tiers with the library's own classes
    Word and Phone, that is in no grid: group 2, tiers 4 and 5. *)
Definition ex_more : heap := Eval vm_compute in
  heap_of ((t <- @new_itier demo_env (FromPraat "words" (rt_entries ex_words)) (Some cWord) ;;
            u <- @new_itier demo_env (FromPraat "phones" (rt_entries ex_segs)) (Some cPhone) ;;
            @new_tg demo_env 50 [t; u]) ex_grid).
Lemma kept_class c : In c [cWord; cPhone; cPoint] -> grid_class ex_grid c.
Proof.
  intros I. set (x := Heap (h_cls ex_grid) (h_seq boot_heap) (h_tier boot_heap) (h_grp boot_heap) (h_grid boot_heap)).
  assert (G : grid_class x c); [|exact G].
  apply (grid_class_kept boot_heap); [exact boot_table|apply (table_cls ex_grid); [reflexivity|exact grid_table]| |apply boot_own; exact I].
  pose proof (proj2 (proj2 (proj2 (@c38_untouched demo_env 50 boot_heap 0 0 0 [] [ex_words; ex_segs; ex_marks; ex_tones]
    (Nested [[cWord; cPhone]; [cPoint; cPoint]]))))) as [L K].
  rewrite ex_read_ok in L, K. split; [exact L|]. split; [exact K|]. vm_compute. auto.
Qed.
Lemma more_table : class_table ex_more.
Proof. apply (table_cls ex_grid); [vm_compute; reflexivity|exact grid_table]. Qed.
Lemma more_class c : In c [cWord; cPhone; cPoint] -> grid_class ex_more c.
Proof.
  intros I. pose proof (kept_class c I) as G. change (grid_class (Heap (h_cls ex_grid) (h_seq ex_more) (h_tier ex_more) (h_grp ex_more) (h_grid ex_more)) c) in G.
  replace ex_more with (Heap (h_cls ex_grid) (h_seq ex_more) (h_tier ex_more) (h_grp ex_more) (h_grid ex_more)); [exact G|vm_compute; reflexivity].
Qed.
Lemma more_own : grid_owns ex_more 0.
Proof.
  destruct grid_own as [A B]. split.
  - apply (whole_cls ex_grid); [vm_compute; reflexivity|]. exact A.
  - intros t (g & I & J). members; vm_compute; tauto.
Qed.
Lemma more_whole : whole_grid ex_more 0.
Proof.
  split; [vm_compute; lia|]. split.
  - intros g I. members; vm_compute; lia.
  - intros t (g & I & J). members; vm_compute; lia.
Qed.

(** A second grid, 1, is read beside it. *)
Definition ex_pair : heap := Eval vm_compute in
  heap_of (@new_grid_textgrid demo_env 50 [ex_words; ex_segs] (Nested [[cWord; cPhone]]) ex_more).
Lemma pair_given c : In c (given (Nested [[cWord; cPhone]])) -> grid_class ex_more c.
Proof. intros I. apply more_class. vm_compute in I |- *. intuition. Qed.
Lemma pair_ok : @new_grid_textgrid demo_env 50 [ex_words; ex_segs] (Nested [[cWord; cPhone]]) ex_more = Ok 1%nat ex_pair.
Proof. vm_compute. reflexivity. Qed.
Lemma pair_table : class_table ex_pair.
Proof. exact (proj1 (@c38_read demo_env _ _ _ _ _ _ more_table pair_given pair_ok)). Qed.
Lemma pair_own : grid_owns ex_pair 1.
Proof. exact (proj1 (proj2 (@c38_read demo_env _ _ _ _ _ _ more_table pair_given pair_ok))). Qed.
Lemma pair_apart : grid_owns ex_pair 0 /\ grids_apart ex_pair 1 0.
Proof. exact (@c38_apart_read demo_env _ _ _ _ _ _ 0%nat more_table pair_given pair_ok more_whole more_own). Qed.
Lemma pair_whole a : (a < 2)%nat -> whole_grid ex_pair a.
Proof.
  intros L. split; [vm_compute; lia|]. destruct a as [|[|a]]; [| |lia].
  all: split; [intros g I; members; vm_compute; lia|intros t (g & I & J); members; vm_compute; lia].
Qed.
Lemma pair_class c : In c [cWord; cPhone; cPoint] -> grid_class ex_pair c.
Proof.
  intros I. set (x := Heap (h_cls ex_pair) (h_seq ex_more) (h_tier ex_more) (h_grp ex_more) (h_grid ex_more)).
  assert (G : grid_class x c); [|exact G].
  apply (grid_class_kept ex_more); [exact more_table|apply (table_cls ex_pair); [reflexivity|exact pair_table]| |apply more_class; exact I].
  pose proof (proj2 (proj2 (proj2 (@c38_untouched demo_env 50 ex_more 0 0 0 [] [ex_words; ex_segs] (Nested [[cWord; cPhone]]))))) as [L K].
  rewrite pair_ok in L, K. split; [exact L|]. split; [exact K|]. vm_compute. auto.
Qed.
Lemma pair_group t : In t (g_tiers (gob ex_pair 2)) -> tlive ex_pair t /\ grid_class ex_pair (t_ec (tob ex_pair t)) /\ ~ in_grid ex_pair 0 t.
Proof.
  intros I. vm_compute in I. destruct I as [<-|[<-|[]]].
  - split; [vm_compute; lia|]. split; [apply pair_class; vm_compute; auto|]. intros (g & J & K). members; vm_compute in K; intuition discriminate.
  - split; [vm_compute; lia|]. split; [apply pair_class; vm_compute; auto|]. intros (g & J & K). members; vm_compute in K; intuition discriminate.
Qed.

(** A grid with a word tier only, and a phone tier in no group: tier 1. *)
Definition ex_narrow0 : heap := Eval vm_compute in
  heap_of (@new_grid_textgrid demo_env 50 [ex_words] (Nested [[cWord]]) boot_heap).
Definition ex_narrow : heap := Eval vm_compute in
  heap_of (@new_itier demo_env (FromPraat "phones" (rt_entries ex_segs)) (Some cPhone) ex_narrow0).
Lemma narrow_given c : In c (given (Nested [[cWord]])) -> grid_class boot_heap c.
Proof. intros I. apply boot_own. vm_compute in I |- *. intuition. Qed.
Lemma narrow_ok : @new_grid_textgrid demo_env 50 [ex_words] (Nested [[cWord]]) boot_heap = Ok 0%nat ex_narrow0.
Proof. vm_compute. reflexivity. Qed.
Lemma narrow_table0 : class_table ex_narrow0.
Proof. exact (proj1 (@c38_read demo_env _ _ _ _ _ _ boot_table narrow_given narrow_ok)). Qed.
Lemma narrow_table : class_table ex_narrow.
Proof. apply (table_cls ex_narrow0); [vm_compute; reflexivity|exact narrow_table0]. Qed.
Lemma narrow_own : grid_owns ex_narrow 0.
Proof.
  destruct (proj1 (proj2 (@c38_read demo_env _ _ _ _ _ _ boot_table narrow_given narrow_ok))) as [A B]. split.
  - apply (whole_cls ex_narrow0); [vm_compute; reflexivity|]. exact A.
  - intros t (g & I & J). members; vm_compute; tauto.
Qed.
Lemma narrow_whole : whole_grid ex_narrow 0.
Proof.
  split; [vm_compute; lia|]. split; [intros g I; members; vm_compute; lia|intros t (g & I & J); members; vm_compute; lia].
Qed.
Lemma narrow_class : grid_class ex_narrow cPhone.
Proof.
  set (x := Heap (h_cls ex_narrow) (h_seq boot_heap) (h_tier boot_heap) (h_grp boot_heap) (h_grid boot_heap)).
  assert (G : grid_class x cPhone); [|exact G].
  apply (grid_class_kept boot_heap); [exact boot_table|apply (table_cls ex_narrow); [reflexivity|exact narrow_table]| |apply boot_own; vm_compute; auto].
  pose proof (proj2 (proj2 (proj2 (@c38_untouched demo_env 50 boot_heap 0 0 0 [] [ex_words] (Nested [[cWord]]))))) as [L K].
  rewrite narrow_ok in L, K. split; [exact L|]. split; [exact K|]. vm_compute. auto.
Qed.
