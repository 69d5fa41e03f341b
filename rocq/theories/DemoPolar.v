(** * DemoPolar: a PoLaR-like annotation for the examples. *)
From Verif Require Export DemoGrid PolarFinal.
Open Scope Z_scope.

Definition ex_ranges : rawtier := RawTier "Ranges" [ERaw (Some 10) (Some 30) "75-300"; ERaw (Some 30) (Some 60) "80-250"].
Definition ex_levels : rawtier := RawTier "Levels" [ERaw (Some 12) None "1"; ERaw (Some 12) None "2"; ERaw (Some 35) None "3?"; ERaw (Some 44) None "4"].
Definition ex_turns : rawtier := RawTier "TurningPoints" [ERaw (Some 12) None "x"; ERaw (Some 35) None "y,0"; ERaw (Some 50) None "z"].
Definition ex_polar : heap := Eval vm_compute in heap_of
  (@new_grid_textgrid demo_env 50 [ex_ranges; ex_levels; ex_turns] (Nested [[cInterval]; [cPoint; cPoint]]) boot_heap).
Definition lv_tier : tid := 1%nat.
Definition tp_tier : tid := 2%nat.
Definition lvs : list oid := Eval vm_compute in t_seq (tob ex_polar 1).
Definition tps : list oid := Eval vm_compute in t_seq (tob ex_polar 2).
Definition rgs : list oid := Eval vm_compute in t_seq (tob ex_polar 0).
Lemma ex_polar_shape : t_seq (tob ex_polar 1) = lvs /\ t_seq (tob ex_polar 2) = tps /\ t_seq (tob ex_polar 0) = rgs /\
  List.length lvs = 4%nat /\ List.length tps = 3%nat.
Proof. vm_compute. repeat split. Qed.
Lemma ex_own t : (t < 3)%nat -> own_points ex_polar t.
Proof.
  intros L x Hx. destruct t as [|[|[|t]]]; [| | |lia]; members; (split; [vm_compute; discriminate|reflexivity]).
Qed.
Definition ex_paired : polar := Eval vm_compute in
  match @relate_points demo_env 10 ex_polar 1 2 polar0 with POk p => p | PRaise _ p => p end.
Lemma ex_paired_ok : @relate_points demo_env 10 ex_polar 1 2 polar0 = POk ex_paired.
Proof. vm_compute. reflexivity. Qed.

(** Finding the closest entry by computation. *)
Lemma closest_by `{Env} h t x a y : s_start (sob h x) = Some a -> t_seq (tob h t) <> [] -> own_points h t ->
  nearest_point h t a = inr y -> closest h t x y.
Proof.
  intros A N O E. destruct (nearest_point_ok h t x a A N O) as (z & E' & C & _). congruence.
Qed.

(** Two levels at the same time share a turning point, which knows only the first. *)
Lemma c45_twins_refuted : let E : Env := demo_env in
  exists n h lv tp q x y, own_points h lv /\ own_points h tp /\ t_seq (tob h tp) <> [] /\
    (List.length (t_seq (tob h lv)) + List.length (t_seq (tob h tp)) < n)%nat /\
    relate_points n h lv tp polar0 = POk q /\ In x (t_seq (tob h lv)) /\
    p_turn q x = Some y /\ p_level q y <> Some x.
Proof.
  cbv zeta. exists 10%nat, ex_polar, 1%nat, 2%nat, ex_paired, (nth 1 lvs 0%nat), (nth 0 tps 0%nat).
  split; [apply ex_own; lia|]. split; [apply ex_own; lia|]. split; [vm_compute; discriminate|]. split; [vm_compute; lia|].
  split; [exact ex_paired_ok|]. split; [vm_compute; auto|]. split; [reflexivity|]. vm_compute. discriminate.
Qed.
