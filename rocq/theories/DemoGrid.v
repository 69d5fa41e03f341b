(** * DemoGrid: a text grid read from raw data, for the examples. *)
From Verif Require Export Spec Demo.
Open Scope Z_scope.

(** Two words over four phones, and two point tiers. *)
Definition ex_words : rawtier := RawTier "words" [ERaw (Some 10) (Some 30) "ab"; ERaw (Some 30) (Some 60) "cd"].
Definition ex_segs : rawtier := RawTier "phones"
  [ERaw (Some 10) (Some 20) "a"; ERaw (Some 20) (Some 30) "b"; ERaw (Some 30) (Some 50) "c"; ERaw (Some 50) (Some 60) "d"].
Definition ex_marks : rawtier := RawTier "marks" [ERaw (Some 12) None "x"; ERaw (Some 35) None "y"].
Definition ex_tones : rawtier := RawTier "tones" [ERaw (Some 44) None "H"].
Definition ex_read : res aid :=
  @new_grid_textgrid demo_env 50 [ex_words; ex_segs; ex_marks; ex_tones]
    (Nested [[cWord; cPhone]; [cPoint; cPoint]]) boot_heap.
Definition ex_grid : heap := Eval vm_compute in heap_of ex_read.

(** Words 0 and 3 on tier 0; phones 10, 13, 16, 19 on tier 1; points 30 and 33
    on tier 2, 38 on tier 3; groups 0 (tiers 0 and 1) and 1 (tiers 2 and 3). *)
Lemma ex_grid_shape : map t_seq (h_tier ex_grid) = [[0; 3]; [10; 13; 16; 19]; [30; 33]; [38]]%nat /\
  map g_tiers (h_grp ex_grid) = [[0; 1]; [2; 3]]%nat /\ map a_groups (h_grid ex_grid) = [[0; 1]]%nat.
Proof. vm_compute. repeat split. Qed.

Ltac finish := first
  [ vm_compute; reflexivity | vm_compute; discriminate | vm_compute; congruence | vm_compute; lia
  | (vm_compute; repeat split; (reflexivity || discriminate || lia))
  | (vm_compute; repeat eexists; (reflexivity || discriminate || congruence || lia)) ].
(** Enumerate the members of concrete lists in the hypotheses. *)
Ltac members := repeat match goal with
  | Hx : In _ ?l |- _ => vm_compute in Hx; repeat (destruct Hx as [<-|Hx]); [..|contradiction]
  end.
Lemma nodup_by (l : list nat) : bool_decide (NoDup l) = true -> NoDup l.
Proof. apply bool_decide_eq_true. Qed.
Lemma ex_timed t : (t < 4)%nat -> timed_tier ex_grid t /\ tier_kind ex_grid t /\ t_seq (tob ex_grid t) <> [].
Proof.
  intros Ht. destruct t as [|[|[|[|t]]]]; [| | | |lia].
  all: split; [intros x Hx; members; finish|split; [intros x Hx; members; finish|vm_compute; discriminate]].
Qed.
Lemma ex_shiftable : shiftable ex_grid (tiers_of ex_grid (a_groups (aob ex_grid 0))).
Proof.
  split; [apply nodup_by; vm_compute; reflexivity|]. split; [intros x Hx; members; vm_compute; lia|].
  intros t Ht. assert (L : (t < 4)%nat) by (members; lia). destruct (ex_timed t L) as (A & B & _). auto.
Qed.

(** Checking containment on a concrete heap. *)
#[local] Instance wref_dec : EqDecision wref. Proof. solve_decision. Defined.
Definition all_refs (h : heap) : list wref :=
  (map WSeq (seq 0 (List.length (h_seq h))) ++ map WTier (seq 0 (List.length (h_tier h))) ++ map WGroup (seq 0 (List.length (h_grp h))))%list.
Definition fits (h : heap) (v : wref) : bool :=
  match container h v with
  | None => true
  | Some w => match v, w with
              | WSeq _, WSeq _ | WSeq _, WTier _ | WTier _, WGroup _ | WGroup _, WGrid _ => true
              | _, _ => false
              end
  end.
Definition found (h : heap) (v : wref) : bool :=
  match container h v with
  | None => true
  | Some w => match contents h w with None => true | Some l => bool_decide (v ∈ l) end
  end.
Lemma in_refs h v w : container h v = Some w -> In v (all_refs h).
Proof.
  intros C. unfold all_refs. rewrite !in_app_iff. destruct v as [i|i|i|i]; simpl in C; [left|right;left|right;right|discriminate].
  all: apply in_map, in_seq; split; [lia|]; simpl.
  - destruct (Nat.lt_ge_cases i (List.length (h_seq h))) as [L|L]; [exact L|]. exfalso. unfold sob in C.
    rewrite lookup_ge_None_2 in C by exact L. discriminate.
  - destruct (Nat.lt_ge_cases i (List.length (h_tier h))) as [L|L]; [exact L|]. exfalso. unfold tob in C.
    rewrite lookup_ge_None_2 in C by exact L. discriminate.
  - destruct (Nat.lt_ge_cases i (List.length (h_grp h))) as [L|L]; [exact L|]. exfalso. unfold gob in C.
    rewrite lookup_ge_None_2 in C by exact L. discriminate.
Qed.
Lemma fits_ok h : forallb (fits h) (all_refs h) = true -> kinds_fit h.
Proof.
  intros F v w C. rewrite forallb_forall in F. specialize (F v (in_refs _ _ _ C)). unfold fits in F. rewrite C in F.
  destruct v, w; congruence || exact I.
Qed.
Lemma found_ok h : forallb (found h) (all_refs h) = true ->
  forall v w l, container h v = Some w -> contents h w = Some l -> In v l.
Proof.
  intros F v w l C L. rewrite forallb_forall in F. specialize (F v (in_refs _ _ _ C)). unfold found in F. rewrite C, L in F.
  apply bool_decide_eq_true in F. apply elem_of_list_In, F.
Qed.
Lemma ex_fits : kinds_fit ex_grid.
Proof. apply fits_ok. vm_compute. reflexivity. Qed.
Lemma ex_outer : outermost ex_grid (WSeq 16) (WGrid 0).
Proof.
  eapply outer_up; [vm_compute; reflexivity|vm_compute; reflexivity|].
  eapply outer_up; [vm_compute; reflexivity|vm_compute; reflexivity|].
  eapply outer_up; [vm_compute; reflexivity|vm_compute; reflexivity|].
  eapply outer_up; [vm_compute; reflexivity|vm_compute; reflexivity|].
  apply outer_none. reflexivity.
Qed.
