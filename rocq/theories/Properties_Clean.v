(** * Properties C63: cleaning up a tier group.
    Theorems only; proofs in RefillFinal.v, CleanDownFinal.v, CleanFinal.v and DemoClean.v. *)
From Verif Require Import CleanSpec CleanFinal DemoClean.
Open Scope Z_scope.

(** C63: cleaning up a group fills the gaps in all its tiers; the group is in good
    order, and what there was keeps its times, labels, parents and children. *)
Theorem C63_filled `{Env} : forall n h g ts bss t, good_group h g ts bss -> (forall u, In u ts -> gappy h u) ->
  hd_error ts = Some t -> up_to_date h t -> real_gap h (t_seq (tob h t)) -> (List.length ts <= n)%nat ->
  exists h' bss', grp_cleanup n g h = Ok tt h' /\ good_group h' g ts bss' /\ all_else_kept h h' g ts /\ (forall u, In u ts -> blanks_put h h' u).
Proof. exact c63_filled. Qed.
Print Assumptions C63_filled.
Example C63_filled_case : let E : Env := demo_env in
  good_group ex_clean 0 clean_ts clean_blocks /\ (forall u, In u clean_ts -> gappy ex_clean u) /\ up_to_date ex_clean 0 /\
  real_gap ex_clean (t_seq (tob ex_clean 0)) /\
  exists h', grp_cleanup 3 0 ex_clean = Ok tt h' /\ t_seq (tob h' 0) = [0; 65; 3; 6]%nat /\ s_subset (sob h' 65) = [68]%nat /\ s_subset (sob h' 68) = [71]%nat.
Proof.
  cbv zeta. split; [exact clean_good|]. split; [exact clean_gappy|]. split; [exact clean_current|]. split; [exact clean_gap|].
  eexists. split; [vm_compute; reflexivity|]. repeat split; vm_compute; reflexivity.
Qed.
(** C63: a group without gaps stays as it is. *)
Theorem C63_nothing `{Env} : forall n h g ts bss t, good_group h g ts bss ->
  hd_error ts = Some t -> up_to_date h t -> ~ real_gap h (t_seq (tob h t)) ->
  exists h', grp_cleanup n g h = Ok tt h' /\ good_group h' g ts bss /\ all_else_kept h h' g ts /\ (forall u, tob h' u = tob h u) /\
    ((forall x, In x (t_seq (tob h t)) -> s_within (sob h x) = Some (WTier t)) -> h' = h).
Proof. exact c63_nothing. Qed.
Print Assumptions C63_nothing.
Example C63_nothing_case : let E : Env := demo_env in
  good_group ex_grow 0 ex_order ex_blocks /\ hd_error ex_order = Some 1%nat /\ up_to_date ex_grow 1 /\ ~ real_gap ex_grow (t_seq (tob ex_grow 1)).
Proof. cbv zeta. split; [exact grow_good|]. split; [reflexivity|]. split; [exact grow_current|exact grow_no_gap]. Qed.
(** C63: cleaning up again changes nothing. *)
Theorem C63_twice `{Env} : forall n h g ts bss t h', good_group h g ts bss -> (forall u, In u ts -> gappy h u) ->
  hd_error ts = Some t -> up_to_date h t -> (List.length ts <= n)%nat -> grp_cleanup n g h = Ok tt h' ->
  exists h'', grp_cleanup n g h' = Ok tt h'' /\ all_else_kept h' h'' g ts /\ (forall u, tob h'' u = tob h' u).
Proof. exact c63_twice. Qed.
Print Assumptions C63_twice.
Example C63_twice_case : let E : Env := demo_env in
  exists h' h'', grp_cleanup 50 0 ex_clean = Ok tt h' /\ grp_cleanup 50 0 h' = Ok tt h'' /\ map t_seq (h_tier h'') = map t_seq (h_tier h').
Proof. cbv zeta. do 2 eexists. split; [vm_compute; reflexivity|]. split; [vm_compute; reflexivity|]. vm_compute. reflexivity. Qed.
(** C63: not so if an interval starts at 0. *)
Theorem C63_zero_refuted : let E : Env := demo_env in
  exists h g ts bss t h', good_group h g ts bss /\ hd_error ts = Some t /\ up_to_date h t /\
    (forall u x, In u ts -> In x (t_seq (tob h u)) -> exists a b, s_start (sob h x) = Some a /\ s_end (sob h x) = Some b /\ 0 <= a < b) /\
    grp_cleanup 50 g h = Ok tt h' /\ forall u, In u ts -> ~ in_turn h' (t_seq (tob h' u)).
Proof. exact c63_zero_refuted. Qed.
Print Assumptions C63_zero_refuted.
(** C63: the new intervals in the first tier are not linked with their neighbours. *)
Theorem C63_links_refuted : let E : Env := demo_env in
  exists h g ts bss t h' x y, good_group h g ts bss /\ (forall u, In u ts -> gappy h u) /\ hd_error ts = Some t /\ up_to_date h t /\
    real_gap h (t_seq (tob h t)) /\ grp_cleanup 50 g h = Ok tt h' /\
    nth_error (t_seq (tob h' t)) 0 = Some x /\ nth_error (t_seq (tob h' t)) 1 = Some y /\
    s_fol (sob h' x) <> Some y /\ s_prev (sob h' y) <> Some x /\ s_intier (sob h' y) = None /\ s_within (sob h' y) = None.
Proof. exact c63_links_refuted. Qed.
Print Assumptions C63_links_refuted.
