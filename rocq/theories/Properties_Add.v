(** * Property C56: adding tier groups.
    Theorems only; proofs in AddFinal.v and DemoAdd.v. *)
From Verif Require Import AddSpec AddFinal DemoAdd.
Open Scope Z_scope.

(** C56: the sum of two groups is a new group with, level by level, the intervals of both in order. *)
Theorem C56_add `{Env} : forall n h g t r bss g2 t2 r2 bss2 L,
  good_group h g (t :: r) bss -> good_group h g2 (t2 :: r2) bss2 -> (forall u, In u (t :: r) \/ In u (t2 :: r2) -> settled h u) ->
  map (fun u => t_ec (tob h u)) (t :: r) = map (fun u => t_ec (tob h u)) (t2 :: r2) ->
  t_seq (tob h t) <> [] -> Permutation L (t_seq (tob h t) ++ t_seq (tob h t2)) -> in_turn h L ->
  exists g' ns h' bss', grp_add n g g2 h = Ok g' h' /\ good_group h' g' ns bss' /\ merged h h' L (t :: r) ns /\
    adds_group g g' (entries_of h (t :: r) ++ entries_of h (t2 :: r2)) h h'.
Proof. exact c56_add. Qed.
Print Assumptions C56_add.
Example C56_add_case : let E : Env := demo_env in
  good_group ex_add 0 ex_order ex_blocks /\ good_group ex_add 1 [5; 4; 3]%nat pop_blocks2 /\
  (forall u, In u ex_order \/ In u [5; 4; 3]%nat -> settled ex_add u) /\
  map (fun u => t_ec (tob ex_add u)) ex_order = map (fun u => t_ec (tob ex_add u)) [5; 4; 3]%nat /\
  t_seq (tob ex_add 5) <> [] /\ Permutation [16; 19; 66]%nat (t_seq (tob ex_add 5) ++ t_seq (tob ex_add 1)) /\ in_turn ex_add [16; 19; 66]%nat /\
  exists h', grp_add 5 1 0 ex_add = Ok 2%nat h' /\
    map (fun u => t_seq (tob h' u)) (g_tiers (gob h' 2)) = [[16; 19; 66]; [26; 29; 32; 59]; [0; 3; 6; 9; 49; 52]]%nat.
Proof.
  cbv zeta. split; [exact add_good0|]. split; [exact add_good1|]. split; [exact add_settled|]. split; [vm_compute; reflexivity|]. split; [vm_compute; discriminate|].
  split; [exact add_perm|]. split; [exact add_turn|]. eexists. split; [vm_compute; reflexivity|vm_compute; reflexivity].
Qed.
(** C56: groups of classes with different names are not added. *)
Theorem C56_classes `{Env} : forall n h g g2, grp_class_names h g <> grp_class_names h g2 -> grp_add n g g2 h = Raise ValueError h.
Proof. exact c56_classes. Qed.
Print Assumptions C56_classes.
Example C56_classes_case : grp_class_names ex_pop 0 <> grp_class_names ex_pop 2.
Proof. vm_compute. discriminate. Qed.
(** C56: the intervals leave the tiers of the groups added. *)
Theorem C56_originals_refuted : let E : Env := demo_env in
  exists n h g g2 ts bss us css g' h' t x y, good_group h g ts bss /\ good_group h g2 us css /\ grp_add n g g2 h = Ok g' h' /\
    In t ts /\ In x (t_seq (tob h t)) /\ s_intier (sob h x) = Some t /\ s_intier (sob h' x) <> Some t /\
    t_seq (tob h' t) = t_seq (tob h t) /\ ~ In y (t_seq (tob h' t)) /\ s_fol (sob h x) <> Some y /\ s_fol (sob h' x) = Some y.
Proof. exact c56_originals_refuted. Qed.
Print Assumptions C56_originals_refuted.
