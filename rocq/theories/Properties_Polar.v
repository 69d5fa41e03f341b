(** * Properties C45, C46: PoLaR annotations.
    Theorems only; proofs in PolarFinal.v and DemoPolar.v. *)
From Verif Require Import PolarFinal DemoPolar.
Open Scope Z_scope.

(** C45: each level gets exactly its partner, the nearest turning point if that
    is at practically the same time; the turning points that are partners get
    theirs among the levels. *)
Theorem C45_paired `{Env} : forall n h lv tp p, own_points h lv -> own_points h tp ->
  (t_seq (tob h lv) <> [] -> t_seq (tob h tp) <> []) ->
  (List.length (t_seq (tob h lv)) + List.length (t_seq (tob h tp)) < n)%nat ->
  (forall x, p_turn p x = None /\ p_level p x = None) ->
  exists q, relate_points n h lv tp p = POk q /\
    (forall x y, p_turn q x = Some y <-> In x (t_seq (tob h lv)) /\ partner h tp x y) /\
    (forall y x, p_level q y = Some x <->
       partner h lv y x /\ exists x', In x' (t_seq (tob h lv)) /\ partner h tp x' y) /\
    p_rtier q = p_rtier p /\ p_range q = p_range p.
Proof. exact c45_paired. Qed.
Print Assumptions C45_paired.
Example C45_paired_case : let E : Env := demo_env in
  own_points ex_polar lv_tier /\ own_points ex_polar tp_tier /\ t_seq (tob ex_polar tp_tier) <> [] /\
  (List.length (t_seq (tob ex_polar lv_tier)) + List.length (t_seq (tob ex_polar tp_tier)) < 10)%nat /\
  relate_points 10 ex_polar lv_tier tp_tier polar0 = POk ex_paired /\
  map (p_turn ex_paired) lvs = [Some (nth 0 tps 0%nat); Some (nth 0 tps 0%nat); Some (nth 1 tps 0%nat); None] /\
  map (p_level ex_paired) tps = [Some (nth 0 lvs 0%nat); Some (nth 2 lvs 0%nat); None].
Proof.
  cbv zeta. split; [apply ex_own; unfold lv_tier; lia|]. split; [apply ex_own; unfold tp_tier; lia|]. split; [vm_compute; discriminate|]. split; [vm_compute; lia|].
  split; [exact ex_paired_ok|]. split; reflexivity.
Qed.
(** C45: if each is the other's partner, both know each other. *)
Theorem C45_mutual `{Env} : forall n h lv tp p q x y, own_points h lv -> own_points h tp ->
  (t_seq (tob h lv) <> [] -> t_seq (tob h tp) <> []) ->
  (List.length (t_seq (tob h lv)) + List.length (t_seq (tob h tp)) < n)%nat ->
  (forall x, p_turn p x = None /\ p_level p x = None) ->
  relate_points n h lv tp p = POk q ->
  In x (t_seq (tob h lv)) -> partner h tp x y -> partner h lv y x ->
  p_turn q x = Some y /\ p_level q y = Some x.
Proof. exact c45_mutual. Qed.
Print Assumptions C45_mutual.
Example C45_mutual_case : let E : Env := demo_env in
  In (nth 2 lvs 0%nat) (t_seq (tob ex_polar lv_tier)) /\
  partner ex_polar tp_tier (nth 2 lvs 0%nat) (nth 1 tps 0%nat) /\ partner ex_polar lv_tier (nth 1 tps 0%nat) (nth 2 lvs 0%nat).
Proof.
  cbv zeta. split; [vm_compute; auto|]. split.
  - split; [eapply (closest_by (H := demo_env)); [reflexivity|vm_compute; discriminate|apply ex_own; unfold tp_tier; lia|vm_compute; reflexivity]|].
    exists 35, 35. split; [reflexivity|]. split; [reflexivity|]. vm_compute. discriminate.
  - split; [eapply (closest_by (H := demo_env)); [reflexivity|vm_compute; discriminate|apply ex_own; unfold lv_tier; lia|vm_compute; reflexivity]|].
    exists 35, 35. split; [reflexivity|]. split; [reflexivity|]. vm_compute. discriminate.
Qed.
(** C45: it is not always so. *)
Theorem C45_twins_refuted : let E : Env := demo_env in
  exists n h lv tp q x y, own_points h lv /\ own_points h tp /\ t_seq (tob h tp) <> [] /\
    (List.length (t_seq (tob h lv)) + List.length (t_seq (tob h tp)) < n)%nat /\
    relate_points n h lv tp polar0 = POk q /\ In x (t_seq (tob h lv)) /\
    p_turn q x = Some y /\ p_level q y <> Some x.
Proof. exact c45_twins_refuted. Qed.
Print Assumptions C45_twins_refuted.
(** C45: each level gets the range interval it lies in. *)
Theorem C45_ranges `{Env} : forall h lv rt p,
  (forall x, In x (t_seq (tob h lv)) -> exists a, s_start (sob h x) = Some a /\ one_at h rt a /\
     exists y, In y (t_seq (tob h rt)) /\ holds_at h y a) -> timed_tier h rt ->
  exists q, relate_ranges h lv rt p = POk q /\ p_turn q = p_turn p /\ p_level q = p_level p /\
    forall x, In x (t_seq (tob h lv)) -> p_rtier q x = Some rt /\
      forall y a, s_start (sob h x) = Some a -> In y (t_seq (tob h rt)) -> holds_at h y a -> p_range q x = Some y.
Proof. exact c45_ranges. Qed.
Print Assumptions C45_ranges.
Example C45_ranges_case : let E : Env := demo_env in
  (forall x, In x (t_seq (tob ex_polar lv_tier)) -> exists a y, s_start (sob ex_polar x) = Some a /\ In y (t_seq (tob ex_polar 0)) /\ holds_at ex_polar y a) /\
  timed_tier ex_polar 0 /\
  exists q, relate_ranges ex_polar lv_tier 0 polar0 = POk q /\ map (p_range q) lvs = map Some [nth 0 rgs 0; nth 0 rgs 0; nth 1 rgs 0; nth 1 rgs 0]%nat.
Proof.
  cbv zeta. split; [|split; [intros x Hx; members; finish|]].
  - intros x Hx.
    assert (K : exists k, x = nth k lvs 0%nat /\ (k < 4)%nat).
    { members; [exists 0%nat|exists 1%nat|exists 2%nat|exists 3%nat]; (split; [reflexivity|lia]). }
    destruct K as (k & -> & L). destruct k as [|[|[|[|k]]]]; [| | | |lia].
    + exists 12, (nth 0 rgs 0%nat). split; [reflexivity|]. split; [vm_compute; auto|]. exists 10, 30. repeat split; lia.
    + exists 12, (nth 0 rgs 0%nat). split; [reflexivity|]. split; [vm_compute; auto|]. exists 10, 30. repeat split; lia.
    + exists 35, (nth 1 rgs 0%nat). split; [reflexivity|]. split; [vm_compute; auto|]. exists 30, 60. repeat split; lia.
    + exists 44, (nth 1 rgs 0%nat). split; [reflexivity|]. split; [vm_compute; auto|]. exists 30, 60. repeat split; lia.
  - eexists. split; [vm_compute; reflexivity|]. reflexivity.
Qed.
(** C45: a level in no range interval makes reading fail. *)
Theorem C45_outside `{Env} : forall h lv rt p x a, hd_error (t_seq (tob h lv)) = Some x -> t_seq (tob h rt) <> [] ->
  timed_tier h rt -> s_start (sob h x) = Some a -> (forall y, In y (t_seq (tob h rt)) -> ~ holds_at h y a) ->
  exists q, relate_ranges h lv rt p = PRaise TypeError q.
Proof. exact c45_outside. Qed.
Print Assumptions C45_outside.
Example C45_outside_case : let h := run (mod_seq (nth 0 lvs 0%nat) (set_s_start (Some 5))) ex_polar in
  hd_error (t_seq (tob h lv_tier)) = Some (nth 0 lvs 0%nat) /\ t_seq (tob h 0) <> [] /\ timed_tier h 0 /\
  s_start (sob h (nth 0 lvs 0%nat)) = Some 5 /\ (forall y, In y (t_seq (tob h 0)) -> ~ holds_at h y 5).
Proof.
  cbv zeta. split; [reflexivity|]. split; [vm_compute; discriminate|]. split; [intros x Hx; members; finish|].
  split; [reflexivity|]. intros y Hy (a & b & A & B & C). members; vm_compute in A, B; injection A as <-; injection B as <-; lia.
Qed.

(** C46: certainty. *)
Theorem C46_certainty : forall lab,
  (has_char "?"%char lab -> certainty lab = "uncertain"%string) /\ (~ has_char "?"%char lab -> certainty lab = "certain"%string).
Proof. exact c46_certainty. Qed.
Print Assumptions C46_certainty.
Example C46_certainty_case : has_char "?" "3?" /\ ~ has_char "?" "3".
Proof. split; [simpl; auto|]. simpl. intros [Q|[]]. discriminate. Qed.
(** C46: status of a PrStr point. *)
Theorem C46_status : forall lab,
  (has_char "*"%char lab -> prstr_status lab = "prominence"%string) /\
  (~ has_char "*"%char lab -> has_char "]"%char lab -> prstr_status lab = "edge"%string) /\
  (~ has_char "*"%char lab -> ~ has_char "]"%char lab -> prstr_status lab = lab).
Proof. exact c46_status. Qed.
Print Assumptions C46_status.
Example C46_status_case : has_char "*" "?*]" /\ ~ has_char "*" "?]" /\ has_char "]" "?]".
Proof.
  split; [simpl; auto|]. split; [|simpl; auto]. simpl. intros [Q|[Q|[]]]; discriminate.
Qed.
(** C46: override of a TurningPoints point is what follows the last comma. *)
Theorem C46_override : forall s t lab, ~ has_char ","%char t -> lab = t \/ lab = (s ++ String ","%char t)%string ->
  (t = "0"%string -> tp_override lab = None) /\ (t <> "0"%string -> tp_override lab = Some t).
Proof. exact c46_override. Qed.
Print Assumptions C46_override.
Example C46_override_case : ~ has_char "," "120" /\ tp_override "a,b,120" = Some "120"%string.
Proof. split; [|reflexivity]. simpl. intros [Q|[Q|[Q|[]]]]; discriminate. Qed.
(** C46: low and high of a Ranges interval. *)
Theorem C46_range : forall (F : Type) (float : string -> option F) s t,
  ~ has_char "-"%char s -> ~ has_char "-"%char t ->
  (forall a b, float s = Some a -> float t = Some b ->
     rng_low float (s ++ String "-" t) = Some (Some a) /\ rng_high float (s ++ String "-" t) = Some (Some b)) /\
  (float s = None \/ float t = None ->
     rng_low float (s ++ String "-" t) = Some None /\ rng_high float (s ++ String "-" t) = Some None).
Proof. exact c46_range. Qed.
Print Assumptions C46_range.
Example C46_range_case : ~ has_char "-" "75" /\ ~ has_char "-" "300" /\
  rng_low (fun s => Some s) "75-300" = Some (Some "75"%string) /\ rng_high (fun s => Some s) "75-300" = Some (Some "300"%string).
Proof.
  split; [simpl; intros [Q|[Q|[]]]; discriminate|]. split; [simpl; intros [Q|[Q|[Q|[]]]]; discriminate|].
  split; reflexivity.
Qed.
(** C46: a label with one number has a low but no high. *)
Theorem C46_range_single : forall (F : Type) (float : string -> option F) s, ~ has_char "-"%char s ->
  (forall a, float s = Some a -> rng_low float s = Some (Some a) /\ rng_high float s = None) /\
  (float s = None -> rng_low float s = Some None /\ rng_high float s = Some None).
Proof. exact c46_range_single. Qed.
Print Assumptions C46_range_single.
Example C46_range_single_case : ~ has_char "-" "75".
Proof. simpl. intros [Q|[Q|[]]]; discriminate. Qed.
(** C46: level of a Levels point. *)
Theorem C46_level : forall (int : string -> option Z) lab,
  lv_level int lab = int (others "?"%char lab) /\ (~ has_char "?"%char lab -> lv_level int lab = int lab).
Proof. exact c46_level. Qed.
Print Assumptions C46_level.
Example C46_level_case : lv_level (fun s => if String.eqb s "3" then Some 3 else None) "?3?" = Some 3.
Proof. reflexivity. Qed.
(** C46: the band of a level, in fifths. *)
Theorem C46_band : forall low high lev,
  (1 <= lev <= 5 -> lv_band low high lev = [5 * low + (lev - 1) * (high - low); 5 * low + lev * (high - low)]) /\
  (lev = 0 \/ lev > 6 -> lv_band low high lev = []) /\ (lev = 6 -> lv_band low high lev = [5 * high]).
Proof. exact c46_band. Qed.
Print Assumptions C46_band.
Example C46_band_case : lv_band 75 300 2 = [600; 825].
Proof. reflexivity. Qed.
