(** * C68: filling the gaps between the children of an interval. *)
From Verif Require Import ListFinal MendSpec MendFinal MendGroupFinal DemoMend.
From Verif Require Import ChildSpec.
Open Scope Z_scope.

(** C68: cleaning up an interval with children that follow each other puts a
    new interval without label into every gap, between the children and at
    both ends, and nothing else changes; if there is no gap nothing changes at all. *)
Theorem C68_fill `{Env} : forall n h c u s e, family h c u -> s_subset (sob h u) <> [] -> s_start (sob h u) = Some s -> s_end (sob h u) = Some e ->
  runs h s (s_subset (sob h u)) e -> issubclass h c cBottom = false -> issubclass h c cInterval = true -> issubclass h c cPoint = false -> ungrouped h u ->
  exists h' b, seq_cleanup (S n) u h = Ok tt h' /\ mended h h' c s (s_subset (sob h u)) e b /\ s_subset (sob h' u) = b /\
    runs h' s b e /\ snug_row h' s b e /\ only_inside h h' u b /\
    (snug_row h s (s_subset (sob h u)) e -> h' = h) /\ (~ snug_row h s (s_subset (sob h u)) e -> rears h h' c u b).
Proof. exact c68_fill. Qed.
Print Assumptions C68_fill.
Example C68_fill_case : let E : Env := demo_env in
  family ex_holes 6 0 /\ s_start (sob ex_holes 0) = Some 0 /\ s_end (sob ex_holes 0) = Some 60 /\
  runs ex_holes 0 (s_subset (sob ex_holes 0)) 60 /\ ungrouped ex_holes 0 /\ s_subset (sob ex_holes 0) = [3; 6; 9]%nat /\
  issubclass ex_holes 6 cBottom = false /\ issubclass ex_holes 6 cInterval = true /\ issubclass ex_holes 6 cPoint = false /\
  exists h', seq_cleanup 10 0 ex_holes = Ok tt h' /\ s_subset (sob h' 0) = [14; 3; 20; 6; 9; 17]%nat /\
    map (fun x => s_start (sob h' x)) [14; 20; 17]%nat = [Some 0; Some 20; Some 50].
Proof.
  cbv zeta. split; [exact holes_family|]. split; [reflexivity|]. split; [reflexivity|]. split; [exact holes_runs|]. split; [apply holes_loose|].
  split; [reflexivity|]. split; [reflexivity|]. split; [reflexivity|]. split; [reflexivity|]. eexists. split; [vm_compute; reflexivity|]. split; reflexivity.
Qed.
(** C68: children that already reach from one end to the other, up to the
    tolerance, are left alone, in a group or not. *)
Theorem C68_again `{Env} : forall n h c u s e, family h c u -> s_subset (sob h u) <> [] -> s_start (sob h u) = Some s -> s_end (sob h u) = Some e ->
  issubclass h c cPoint = false -> snug_row h s (s_subset (sob h u)) e -> seq_cleanup (S n) u h = Ok tt h.
Proof. exact c68_again. Qed.
Print Assumptions C68_again.
Example C68_again_case : let E : Env := demo_env in
  family ex_band 6 19 /\ s_start (sob ex_band 19) = Some 0 /\ s_end (sob ex_band 19) = Some 30 /\
  snug_row ex_band 0 (s_subset (sob ex_band 19)) 30 /\ s_subset (sob ex_band 19) = [0; 3; 6]%nat.
Proof.
  cbv zeta. split.
  { split; [vm_compute; lia|]. split; [vm_compute; discriminate|]. split; [reflexivity|]. split; [vm_compute; intuition discriminate|].
    split; [apply nodup_by; vm_compute; reflexivity|]. split; [apply sorted_by; vm_compute; reflexivity|]. split; [left; reflexivity|].
    intros y Hy. members; (split; [sound|reflexivity]). }
  split; [reflexivity|]. split; [reflexivity|]. split; [|reflexivity].
  vm_compute. do 3 (eexists; eexists; split; [reflexivity|]; split; [reflexivity|]; split; [discriminate|]). discriminate.
Qed.
(** C68: an interval without children gets one of each class below it, each
    with the times of the interval and the only child of the one above. *)
Theorem C68_down `{Env} : forall cs n h u s e, (u < List.length (h_seq h))%nat -> s_label (sob h u) <> "#"%string -> s_subset (sob h u) = [] ->
  s_subec (sob h u) = None -> s_start (sob h u) = Some s -> s_end (sob h u) = Some e ->
  classes_below h (s_cls (sob h u)) cs -> ungrouped h u -> (List.length cs < n)%nat ->
  exists h' ws, seq_cleanup n u h = Ok tt h' /\ lined h h' u cs s e ws /\ (cs = [] -> h' = h) /\
    same_but_kids (sob h u) (sob h' u) /\ only_inside h h' u ws.
Proof. exact c68_down. Qed.
Print Assumptions C68_down.
Example C68_down_case : let E : Env := demo_env in
  s_subset (sob ex_hollow 0) = [] /\ classes_below ex_hollow (s_cls (sob ex_hollow 0)) [12; 13]%nat /\ ungrouped ex_hollow 0 /\
  exists h', seq_cleanup 3 0 ex_hollow = Ok tt h' /\ s_subset (sob h' 0) = [3]%nat /\ s_subset (sob h' 3) = [8]%nat /\
    map (fun x => (s_cls (sob h' x), s_start (sob h' x), s_end (sob h' x))) [3; 8]%nat = [(12%nat, Some 10, Some 40); (13%nat, Some 10, Some 40)].
Proof.
  cbv zeta. split; [reflexivity|]. split.
  { repeat (split; [reflexivity|]). eexists. split; reflexivity. }
  split; [apply hollow_loose|]. eexists. split; [vm_compute; reflexivity|]. split; [reflexivity|]. split; reflexivity.
Qed.
(** C68: in a group, for an interval of the second lowest tier, the new
    intervals are also inserted into the lowest tier. *)
Theorem C68_grouped `{Env} : forall n h g ts p t d u s e, skel h g ts -> nth_error ts p = Some t -> nth_error ts (S p) = Some d -> List.length ts = S (S p) ->
  In u (t_seq (tob h t)) -> family h (t_ec (tob h d)) u -> s_subset (sob h u) <> [] -> s_start (sob h u) = Some s -> s_end (sob h u) = Some e ->
  runs h s (s_subset (sob h u)) e -> issubclass h (t_ec (tob h d)) cBottom = false -> issubclass h (t_ec (tob h d)) cInterval = true -> roomy h d [] ->
  (forall y q, In y (t_seq (tob h d)) -> s_start (sob h y) = Some q -> s <= q < e -> In y (s_subset (sob h u))) -> (List.length ts < n)%nat ->
  exists h' b ws, seq_cleanup (S n) u h = Ok tt h' /\ mended h h' (t_ec (tob h d)) s (s_subset (sob h u)) e b /\ s_subset (sob h' u) = b /\
    runs h' s b e /\ snug_row h' s b e /\ (forall y, In y b -> s_super (sob h' y) = Some u) /\ family h' (t_ec (tob h d)) u /\
    Permutation b (ws ++ s_subset (sob h u)) /\ (forall w, In w ws -> (List.length (h_seq h) <= w)%nat) /\
    Permutation (t_seq (tob h' d)) (t_seq (tob h d) ++ ws) /\ (forall w, w <> d -> t_seq (tob h' w) = t_seq (tob h w)) /\ skel h' g ts /\ roomy h' d [] /\
    (forall i, (i < List.length (h_seq h))%nat -> s_cls (sob h' i) = s_cls (sob h i) /\ s_start (sob h' i) = s_start (sob h i) /\
       s_end (sob h' i) = s_end (sob h i) /\ s_label (sob h' i) = s_label (sob h i) /\
       (i <> u -> s_subset (sob h' i) = s_subset (sob h i)) /\ (~ In i b -> s_super (sob h' i) = s_super (sob h i))) /\
    (forall i, (List.length (h_seq h) <= i < List.length (h_seq h'))%nat -> ~ In i ws -> is_boundary h' i) /\
    (List.length (h_seq h) <= List.length (h_seq h'))%nat /\
    h_cls h' = h_cls h /\ h_grp h' = h_grp h /\ h_grid h' = h_grid h /\ (forall w, ~ In w ts -> tob h' w = tob h w).
Proof. exact c68_grouped. Qed.
Print Assumptions C68_grouped.
Example C68_grouped_case : let E : Env := demo_env in
  skel ex_band 0 [1; 0]%nat /\ In 22%nat (t_seq (tob ex_band 1)) /\ family ex_band (t_ec (tob ex_band 0)) 22 /\
  s_start (sob ex_band 22) = Some 30 /\ s_end (sob ex_band 22) = Some 50 /\ runs ex_band 30 (s_subset (sob ex_band 22)) 50 /\
  issubclass ex_band (t_ec (tob ex_band 0)) cBottom = false /\ issubclass ex_band (t_ec (tob ex_band 0)) cInterval = true /\ roomy ex_band 0 [] /\
  (forall y q, In y (t_seq (tob ex_band 0)) -> s_start (sob ex_band y) = Some q -> 30 <= q < 50 -> In y (s_subset (sob ex_band 22))) /\
  exists h', seq_cleanup 10 22 ex_band = Ok tt h' /\ s_subset (sob h' 22) = [9; 38]%nat /\ t_seq (tob h' 0) = [0; 3; 6; 9; 38]%nat.
Proof.
  cbv zeta. split; [exact band_skel|]. split; [vm_compute; auto|]. split; [exact band_family|]. split; [reflexivity|]. split; [reflexivity|]. split.
  { vm_compute. eexists; eexists; split; [reflexivity|]; split; [reflexivity|]; split; [discriminate|]; split; [reflexivity|]. discriminate. }
  split; [reflexivity|]. split; [reflexivity|]. split.
  { apply (roomy_incl ex_band 0 [35]%nat [] band_roomy); [intros y []|apply nodup_by; vm_compute; reflexivity]. }
  split.
  { intros y q Hy E Q. members; vm_compute in E; injection E as <-; first [lia|vm_compute; auto]. }
  eexists. split; [vm_compute; reflexivity|]. split; reflexivity.
Qed.
(** C68 needs children that do not overlap: here the new child ends before it
    starts. *)
Theorem C68_overlap_refuted `{Env} : let E : Env := demo_env in
  exists n h c u s e h' w a b, family h c u /\ ungrouped h u /\ s_start (sob h u) = Some s /\ s_end (sob h u) = Some e /\
    (forall x, In x (s_subset (sob h u)) -> exists p q, s_start (sob h x) = Some p /\ s_end (sob h x) = Some q /\ s <= p < q /\ q <= e) /\
    seq_cleanup n u h = Ok tt h' /\ In w (s_subset (sob h' u)) /\ s_start (sob h' w) = Some a /\ s_end (sob h' w) = Some b /\ b < a.
Proof. exact c68_overlap_refuted. Qed.
Print Assumptions C68_overlap_refuted.
