(** * Property C29: the clean-up of a tier fills its gaps.
    Theorems only; proofs in GapFinal.v and DemoGap.v. *)
From Verif Require Import GapFinal DemoGap.
Open Scope Z_scope.

(** C29: when some pair of neighbours does not meet, an empty interval is put
    into every gap and nothing else happens. *)
Theorem C29_filled `{Env} : forall n h t, gappy h t -> stands_alone h t ->
  (exists i x y a b, nth_error (t_seq (tob h t)) i = Some x /\ nth_error (t_seq (tob h t)) (S i) = Some y /\
     s_end (sob h x) = Some a /\ s_start (sob h y) = Some b /\ ~ near b a) ->
  exists h', tier_cleanup (S n) t h = Ok tt h' /\ gaps_filled h h' t.
Proof. exact c29_filled. Qed.
Print Assumptions C29_filled.
Example C29_filled_case : let E : Env := demo_env in
  gappy ex_gaps 0 /\ stands_alone ex_gaps 0 /\
  (exists i x y a b, nth_error (t_seq (tob ex_gaps 0)) i = Some x /\ nth_error (t_seq (tob ex_gaps 0)) (S i) = Some y /\
     s_end (sob ex_gaps x) = Some a /\ s_start (sob ex_gaps y) = Some b /\ ~ near b a) /\
  exists h', tier_cleanup 50 0 ex_gaps = Ok tt h' /\
    map (fun x => (s_start (sob h' x), s_end (sob h' x), s_label (sob h' x))) (t_seq (tob h' 0)) =
    [(Some 10, Some 20, "a"); (Some 20, Some 25, ""); (Some 25, Some 30, "b"); (Some 30, Some 40, "c");
     (Some 40, Some 50, ""); (Some 50, Some 60, "d")]%string.
Proof.
  cbv zeta. split; [exact ex_gappy|]. split; [exact gaps_alone|]. split.
  - exists 0%nat, 0%nat, 3%nat, 20, 25. do 4 (split; [reflexivity|]). unfold near. vm_compute. intros C. apply C. reflexivity.
  - eexists. split; vm_compute; reflexivity.
Qed.
(** C29: when all neighbours meet, nothing changes. *)
Theorem C29_nothing `{Env} : forall n h t, gappy h t ->
  (forall i x y a b, nth_error (t_seq (tob h t)) i = Some x -> nth_error (t_seq (tob h t)) (S i) = Some y ->
     s_end (sob h x) = Some a -> s_start (sob h y) = Some b -> near b a) ->
  tier_cleanup (S n) t h = Ok tt h.
Proof. exact c29_nothing. Qed.
Print Assumptions C29_nothing.
Example C29_nothing_case : let E : Env := demo_env in
  gappy ex_tiers 0 /\
  forall i x y a b, nth_error (t_seq (tob ex_tiers 0)) i = Some x -> nth_error (t_seq (tob ex_tiers 0)) (S i) = Some y ->
    s_end (sob ex_tiers x) = Some a -> s_start (sob ex_tiers y) = Some b -> near b a.
Proof.
  cbv zeta. split; [exact snug_gappy|]. change (t_seq (tob ex_tiers 0)) with [0; 3; 6; 9]%nat.
  intros i x y a b Hx Hy Ha Hb. destruct i as [|[|[|i]]]; try (destruct i; discriminate).
  all: injection Hx as <-; injection Hy as <-; vm_compute in Ha, Hb; injection Ha as <-; injection Hb as <-; unfold near; vm_compute; discriminate.
Qed.
(** An interval that starts at 0 spoils it. *)
Theorem C29_zero_refuted : let E : Env := demo_env in
  exists h t h', stands_alone h t /\ in_turn h (t_seq (tob h t)) /\
    (forall x, In x (t_seq (tob h t)) -> exists a b, s_start (sob h x) = Some a /\ s_end (sob h x) = Some b /\ 0 <= a < b) /\
    tier_cleanup 50 t h = Ok tt h' /\ ~ in_turn h' (t_seq (tob h' t)).
Proof. exact c29_zero_refuted. Qed.
Print Assumptions C29_zero_refuted.
