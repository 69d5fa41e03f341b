(** * Property C49: relating tiers again.
    Theorems only; proofs in RelateFinal.v and DemoRelate.v. *)
From Verif Require Import RelateFinal DemoRelate.
Open Scope Z_scope.

(** C49: a group made of tiers whose intervals fill those above is in good
    order, whatever the intervals were related to before. *)
Theorem C49_new `{Env} : forall n h ts0 ts bss, Permutation ts0 ts -> tier_chain h ts -> classes_joined h ts ->
  (forall t, In t ts -> fit_tier h t) -> snug h ts bss ->
  (forall t, hd_error ts = Some t -> in_turn h (t_seq (tob h t)) /\ forall x, In x (t_seq (tob h t)) -> dated h x) ->
  exists g h', new_tg n ts0 h = Ok g h' /\ good_group h' g ts bss /\ relates_anew g ts h h' /\
    g = List.length (h_grp h) /\ List.length (h_grp h') = S g /\ (forall k, (k < g)%nat -> gob h' k = gob h k) /\
    (forall t x, hd_error ts = Some t -> In x (t_seq (tob h t)) -> s_super (sob h x) = None -> unmoved (sob h x) (sob h' x)).
Proof. exact c49_new. Qed.
Print Assumptions C49_new.
Example C49_new_case : let E : Env := demo_env in
  Permutation [0; 1; 2]%nat ex_order /\ tier_chain ex_shifted ex_order /\ classes_joined ex_shifted ex_order /\
  (forall t, In t ex_order -> fit_tier ex_shifted t) /\ snug ex_shifted ex_order ex_blocks2 /\
  (forall t, hd_error ex_order = Some t -> in_turn ex_shifted (t_seq (tob ex_shifted t)) /\ forall x, In x (t_seq (tob ex_shifted t)) -> dated ex_shifted x) /\
  s_super (sob ex_shifted 29) = Some 19%nat /\
  exists h', new_tg 50 [0; 1; 2]%nat ex_shifted = Ok 1%nat h' /\ s_super (sob h' 29) = Some 16%nat /\ s_subset (sob h' 19) = [32]%nat.
Proof.
  cbv zeta. split; [apply (Permutation_cons_append [1;2]%nat 0%nat)|]. split; [exact shifted_chain|]. split; [exact shifted_joined|].
  split; [exact shifted_fit|]. split; [exact shifted_snug|]. split; [exact shifted_turn|]. split; [reflexivity|].
  eexists. split; [vm_compute; reflexivity|]. split; reflexivity.
Qed.
(** C49: so is an existing group after relating it again. *)
Theorem C49_again `{Env} : forall n h g ts bss, (g < List.length (h_grp h))%nat -> g_points (gob h g) = false ->
  Permutation (g_tiers (gob h g)) ts -> tier_chain h ts -> classes_joined h ts ->
  (forall t, In t ts -> fit_tier h t) -> snug h ts bss ->
  (forall t, hd_error ts = Some t -> in_turn h (t_seq (tob h t)) /\ forall x, In x (t_seq (tob h t)) -> dated h x) ->
  exists h', re_relate n g h = Ok tt h' /\ good_group h' g ts bss /\ relates_anew g ts h h' /\
    List.length (h_grp h') = List.length (h_grp h) /\ (forall k, k <> g -> gob h' k = gob h k) /\
    g_within (gob h' g) = g_within (gob h g) /\
    (forall t x, hd_error ts = Some t -> In x (t_seq (tob h t)) -> s_super (sob h x) = None -> unmoved (sob h x) (sob h' x)).
Proof. exact c49_again. Qed.
Print Assumptions C49_again.
Example C49_again_case : let E : Env := demo_env in
  (0 < List.length (h_grp ex_shifted))%nat /\ g_points (gob ex_shifted 0) = false /\ Permutation (g_tiers (gob ex_shifted 0)) ex_order /\
  tier_chain ex_shifted ex_order /\ classes_joined ex_shifted ex_order /\
  (forall t, In t ex_order -> fit_tier ex_shifted t) /\ snug ex_shifted ex_order ex_blocks2 /\
  (forall t, hd_error ex_order = Some t -> in_turn ex_shifted (t_seq (tob ex_shifted t)) /\ forall x, In x (t_seq (tob ex_shifted t)) -> dated ex_shifted x) /\
  exists h', re_relate 50 0 ex_shifted = Ok tt h' /\ s_super (sob h' 29) = Some 16%nat /\ s_subset (sob h' 19) = [32]%nat.
Proof.
  cbv zeta. split; [vm_compute; lia|]. split; [reflexivity|]. split; [vm_compute; reflexivity|]. split; [exact shifted_chain|]. split; [exact shifted_joined|].
  split; [exact shifted_fit|]. split; [exact shifted_snug|]. split; [exact shifted_turn|].
  eexists. split; [vm_compute; reflexivity|]. split; reflexivity.
Qed.
(** C49: relating a group in good order again leaves it as it is. *)
Theorem C49_stable `{Env} : forall n h g ts bss, good_group h g ts bss ->
  exists h', re_relate n g h = Ok tt h' /\ good_group h' g ts bss /\ relates_anew g ts h h' /\
    List.length (h_grp h') = List.length (h_grp h) /\ (forall k, k <> g -> gob h' k = gob h k) /\
    (forall t x, In t ts -> In x (t_seq (tob h t)) -> s_super (sob h' x) = s_super (sob h x)).
Proof. exact c49_stable. Qed.
Print Assumptions C49_stable.
Example C49_stable_case : let E : Env := demo_env in
  good_group ex_grouped 0 ex_order ex_blocks /\
  exists h', re_relate 50 0 ex_grouped = Ok tt h' /\ s_super (sob h' 29) = Some 19%nat /\ s_subset (sob h' 19) = [29; 32]%nat.
Proof.
  cbv zeta. split; [exact ex_good_group|]. eexists. split; [vm_compute; reflexivity|]. split; reflexivity.
Qed.
