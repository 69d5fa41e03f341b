(** * DemoEdit: tiers of words in no group, for the examples. *)
From Verif Require Export DemoGrid EditFinal.
Open Scope Z_scope.

(** Tiers 0 and 1: words, the first word of tier 1 with two phones; tier 2:
    words, but none; tier 3: points.  Besides these an interval, a point, and
    a word with the values of the first one of tier 0. *)
Definition ex_edit : heap := Eval vm_compute in
  let E : Env := demo_env in
  run (new_itier (FromList [ERaw (Some 10) (Some 20) "a"; ERaw (Some 20) (Some 30) "b"]) (Some cWord) ;;;
       new_itier (FromList [ERaw (Some 5) (Some 15) "c"; ERaw (Some 30) (Some 40) "d"]) (Some cWord) ;;;
       new_itier (FromList []) (Some cWord) ;;;
       new_ptier (FromList [ERaw (Some 10) None "p"; ERaw (Some 30) None "q"]) (Some cPoint) ;;;
       x <- new_obj cInterval (Some 15) (Some 18) "x" ;;
       y <- new_obj cPoint (Some 20) None "z" ;;
       z <- new_obj cWord (Some 10) (Some 20) "a" ;;
       a <- new_obj cPhone (Some 5) (Some 10) "C" ;;
       b <- new_obj cPhone (Some 10) (Some 15) "K" ;;
       l <- gets (fun h => t_seq (tob h 1)) ;;
       set_subset_list (nth 0 l 0%nat) [a; b]) boot_heap.
Lemma ex_edit_shape : map t_seq (h_tier ex_edit) = [[0; 3]; [10; 13]; []; [20; 23]]%nat /\
  s_subset (sob ex_edit 10) = [37; 40]%nat.
Proof. split; reflexivity. Qed.
Lemma sorted_two h x y a b : s_start (sob h x) = Some a -> s_start (sob h y) = Some b -> a <= b -> sorted_starts h [x; y].
Proof.
  intros A B C i j u v Hij Hu Hv. destruct i as [|i].
  - destruct j as [|[|j]]; [lia| |destruct j; discriminate]. injection Hu as <-. injection Hv as <-. eauto.
  - destruct i; [destruct j as [|[|j]]; [lia|lia|destruct j; discriminate]|destruct i; discriminate].
Qed.
Ltac steady_two := split; [reflexivity|split; [split; [apply nodup_by; vm_compute; reflexivity|intros ?x ?Hx; members; finish]|
  split; [eapply sorted_two; [vm_compute; reflexivity|vm_compute; reflexivity|lia]|split; [left; reflexivity|intros ?x ?Hx; members; finish]]]].
Lemma ex_steady t : In t [0; 1]%nat -> steady ex_edit t cWord.
Proof. intros [<-|[<-|[]]]; steady_two. Qed.
Lemma ex_lone_points : lone_points ex_edit 3 cPoint.
Proof. split; [vm_compute; lia|]. split; [intros g; vm_compute; discriminate|]. split; [reflexivity|]. steady_two. Qed.
Lemma ex_good : good_tier ex_edit 0 cWord.
Proof.
  destruct (ex_steady 0) as (A & B & C & D & F); [simpl; auto|].
  split; [vm_compute; lia|]. split; [intros g; vm_compute; discriminate|]. split; [exact A|]. split; [vm_compute; discriminate|].
  split; [reflexivity|]. split; [reflexivity|]. auto.
Qed.
Lemma ex_good_empty : good_tier ex_edit 2 cWord.
Proof.
  split; [vm_compute; lia|]. split; [intros g; vm_compute; discriminate|]. split; [reflexivity|]. split; [vm_compute; discriminate|].
  split; [reflexivity|]. split; [reflexivity|]. split; [split; [constructor|intros x []]|]. split; [intros i j a b _ Q; destruct i; discriminate|].
  split; [right; split; reflexivity|intros x []].
Qed.
Lemma listed_by h l x : sl_contains h l x = true -> listed h l x.
Proof. apply sl_contains_iff. Qed.
Lemma unlisted_by h l x : sl_contains h l x = false -> ~ listed h l x.
Proof. intros A B. apply sl_contains_iff in B. congruence. Qed.

(** The first entry of an empty tier of words stays what it is. *)
Lemma c47_first_refuted : let E : Env := demo_env in
  exists n h t c x h', good_tier h t c /\ timed_both h x /\ related h c (s_cls (sob h x)) /\
    tier_append n t x h = Ok tt h' /\ In x (t_seq (tob h' t)) /\ s_cls (sob h' x) <> c.
Proof.
  cbv zeta. exists 5%nat, ex_edit, 2%nat, cWord, 28%nat. eexists. split; [exact ex_good_empty|]. split; [finish|].
  split; [left; reflexivity|]. split; [vm_compute; reflexivity|]. split; [vm_compute; auto|]. vm_compute. discriminate.
Qed.
(** A point appended to a point tier does not learn which tier it is in. *)
Lemma c47_point_refuted : let E : Env := demo_env in
  exists n h t c x h', lone_points h t c /\ timed_both h x /\ related h c (s_cls (sob h x)) /\
    tier_append n t x h = Ok tt h' /\ In x (t_seq (tob h' t)) /\ s_intier (sob h' x) <> Some t /\
    ~ chained h' (t_seq (tob h' t)).
Proof.
  cbv zeta. exists 5%nat, ex_edit, 3%nat, cPoint, 31%nat. eexists. split; [exact ex_lone_points|]. split; [finish|].
  split; [left; reflexivity|]. split; [vm_compute; reflexivity|]. split; [vm_compute; auto|]. split; [vm_compute; discriminate|].
  intros (C & _). destruct (C 0%nat 20%nat 31%nat eq_refl eq_refl) as [Q _]. vm_compute in Q. discriminate.
Qed.
