(** * Property C52: adding a class of tiers to a grid.
    Theorems only; proofs in WeaveFinal.v and DemoWeave.v. *)
From Verif Require Import WeaveFinal DemoWeave.
Open Scope Z_scope.

(** C52: every group that has the named class gets a tier of copies in the right
    place and is related anew; the new class stands between its neighbours. *)
Theorem C52_weave `{Env} : forall n h a t cs1 cs2 b sp cp nm nm2 (above from_below labels : bool) gs,
  class_table h -> class_chain h t (cs1 ++ cs2) b -> unrelated h (t :: (cs1 ++ cs2) ++ [b]) -> ~ In cInterval (cs1 ++ cs2) ->
  (forall x, In x (cs1 ++ cs2) -> plain_name (class_name h x)) ->
  str_in "Bottom" (class_name h t) = false -> str_in "Top" (class_name h b) = false ->
  nm <> ""%string -> plain_name nm -> nm2 <> ""%string -> class_name h sp = nm2 ->
  (if above then hd_error cs2 else hd_error (rev cs1)) = Some sp ->
  (if from_below then hd_error cs2 else hd_error (rev cs1)) = Some cp ->
  (a < List.length (h_grid h))%nat -> a_groups (aob h a) = gs -> apart_groups h gs ->
  (forall g, In g gs -> (g < List.length (h_grp h))%nat /\ exist_tiers h g /\
     ((full_group h (cs1 ++ cs2) g /\ forall k, In k (g_tiers (gob h g)) -> t_ec (tob h k) = cp -> t_seq (tob h k) <> []) \/
      ~ In sp (map (fun k => t_ec (tob h k)) (g_tiers (gob h g))))) ->
  (forall g k, In g gs -> In k (g_tiers (gob h g)) ->
     (t_ec (tob h k) < List.length (h_cls h))%nat /\ (class_name h (t_ec (tob h k)) = nm2 -> t_ec (tob h k) = sp)) ->
  (exists g, In g gs /\ full_group h (cs1 ++ cs2) g) ->
  exists gs' c h', interleave_class n a nm above nm2 from_below labels h = Ok tt h' /\
    (List.length (h_cls h) <= c < List.length (h_cls h'))%nat /\ class_name h' c = nm /\ class_chain h' t (cs1 ++ c :: cs2) b /\
    (forall k, (k < List.length (h_cls h))%nat -> k <> List.last cs1 t -> k <> hd b cs2 -> cob h' k = cob h k) /\
    (forall k, (k < List.length (h_cls h))%nat -> c_name (cob h' k) = c_name (cob h k) /\ c_base (cob h' k) = c_base (cob h k)) /\
    a_groups (aob h' a) = gs' /\ NoDup gs' /\ Forall2 (weaves labels cs1 c cs2 sp cp h h') gs gs' /\
    (forall g', In g' gs' -> g_within (gob h' g') = Some (WGrid a)) /\
    more_content (flat_map (tiers_in h) gs) h h' /\
    List.length (h_grid h') = List.length (h_grid h) /\ (forall k, k <> a -> aob h' k = aob h k) /\
    class_table h' /\ unrelated h' (t :: (cs1 ++ c :: cs2) ++ [b]).
Proof. exact c52_weave. Qed.
Print Assumptions C52_weave.
Example C52_weave_case : let E : Env := demo_env in
  class_table ex_pop /\ class_chain ex_pop 9 ([11] ++ [12; 13])%nat%list 10 /\ unrelated ex_pop (9 :: ([11] ++ [12; 13]) ++ [10])%nat%list /\
  ~ In cInterval ([11] ++ [12; 13])%nat%list /\ (forall x, In x ([11] ++ [12; 13])%nat%list -> plain_name (class_name ex_pop x)) /\
  str_in "Bottom" (class_name ex_pop 9) = false /\ str_in "Top" (class_name ex_pop 10) = false /\ plain_name "Foot" /\
  class_name ex_pop 12 = "Syl"%string /\ a_groups (aob ex_pop 0) = [0; 1; 2]%nat /\ apart_groups ex_pop [0; 1; 2]%nat /\
  (forall g, In g [0; 1; 2]%nat -> (g < List.length (h_grp ex_pop))%nat /\ exist_tiers ex_pop g /\
     ((full_group ex_pop ([11] ++ [12; 13])%nat%list g /\ forall k, In k (g_tiers (gob ex_pop g)) -> t_ec (tob ex_pop k) = 12%nat -> t_seq (tob ex_pop k) <> []) \/
      ~ In 12%nat (map (fun k => t_ec (tob ex_pop k)) (g_tiers (gob ex_pop g))))) /\
  (forall g k, In g [0; 1; 2]%nat -> In k (g_tiers (gob ex_pop g)) ->
     (t_ec (tob ex_pop k) < List.length (h_cls ex_pop))%nat /\ (class_name ex_pop (t_ec (tob ex_pop k)) = "Syl"%string -> t_ec (tob ex_pop k) = 12%nat)) /\
  exists h', interleave_class 5 0 "Foot" true "Syl" true false ex_pop = Ok tt h' /\ a_groups (aob h' 0) = [3; 4; 2]%nat /\
    map (tiers_in h') [3; 4; 2]%nat = [[1; 7; 2; 0]; [5; 8; 4; 3]; [6]]%nat /\ entries_in h' 7 = [82; 85; 88]%nat /\
    class_name h' 16 = "Foot"%string /\ subset_class h' 11 = Some 16%nat /\ superset_class h' 12 = Some 16%nat /\
    s_subset (sob h' 16) = [82]%nat /\ s_subset (sob h' 19) = [85; 88]%nat /\ s_subset (sob h' 85) = [29]%nat.
Proof.
  cbv zeta. split; [exact pop_table|]. split; [exact pop_chain|]. split; [exact pop_unrelated|]. split; [vm_compute; intuition discriminate|]. split; [exact pop_names|].
  split; [reflexivity|]. split; [reflexivity|]. split; [split; reflexivity|]. split; [reflexivity|].
  split; [reflexivity|]. split; [exact pop_apart|].
  split. { intros g Hg. pose proof (pop_exist g Hg) as Ex. members; (split; [vm_compute; lia|]); (split; [exact Ex|]).
    - left. split; [apply pop_full; simpl; auto|]. intros k Hk. members; vm_compute; discriminate.
    - left. split; [apply pop_full; simpl; auto|]. intros k Hk. members; vm_compute; discriminate.
    - right. vm_compute. intuition discriminate. }
  split. { intros g k Hg Hk. members; members; (split; [vm_compute; lia|vm_compute; congruence]). }
  eexists. split; [vm_compute; reflexivity|]. repeat split.
Qed.
(** C52: a class none of the tiers has. *)
Theorem C52_absent `{Env} : forall n h a nm nm2 (above from_below labels : bool), class_table h -> nm <> ""%string -> plain_name nm -> nm2 <> ""%string ->
  (forall g k, In g (a_groups (aob h a)) -> In k (g_tiers (gob h g)) ->
     (t_ec (tob h k) < List.length (h_cls h))%nat /\ class_name h (t_ec (tob h k)) <> nm2) ->
  exists h', interleave_class n a nm above nm2 from_below labels h = Raise AttributeError h' /\
    (List.length (h_cls h) <= List.length (h_cls h'))%nat /\ (forall k, (k < List.length (h_cls h))%nat -> cob h' k = cob h k) /\
    h_seq h' = h_seq h /\ h_tier h' = h_tier h /\ h_grp h' = h_grp h /\ h_grid h' = h_grid h.
Proof. exact c52_absent. Qed.
Print Assumptions C52_absent.
Example C52_absent_case : let E : Env := demo_env in
  class_table ex_pop /\ plain_name "Foot" /\
  (forall g k, In g (a_groups (aob ex_pop 0)) -> In k (g_tiers (gob ex_pop g)) ->
     (t_ec (tob ex_pop k) < List.length (h_cls ex_pop))%nat /\ class_name ex_pop (t_ec (tob ex_pop k)) <> "Mora"%string).
Proof.
  cbv zeta. split; [exact pop_table|]. split; [split; reflexivity|].
  intros g k Hg Hk. members; members; (split; [vm_compute; lia|vm_compute; discriminate]).
Qed.
(** C52: with an empty tier to take the times from, tiers are lost. *)
Theorem C52_empty_refuted : let E : Env := demo_env in
  exists n h a g t cs1 cs2 b sp nm nm2 h', class_table h /\ class_chain h t (cs1 ++ cs2) b /\ plain_name nm /\ nm <> ""%string /\ hd_error cs2 = Some sp /\
    class_name h sp = nm2 /\ a_groups (aob h a) = [g] /\ full_group h (cs1 ++ cs2) g /\ interleave_class n a nm true nm2 true true h = Ok tt h' /\
    exists g' k, a_groups (aob h' a) = [g'] /\ In k (g_tiers (gob h g)) /\ ~ In k (g_tiers (gob h' g')) /\
      (forall k', In k' (g_tiers (gob h' g')) -> class_name h' (t_ec (tob h' k')) <> nm).
Proof. exact c52_empty_refuted. Qed.
Print Assumptions C52_empty_refuted.
(** C52: a failing call has changed the classes. *)
Theorem C52_failure_refuted : let E : Env := demo_env in
  exists n h a gs t c cs b nm nm2 h' d, class_table h /\ class_chain h t (c :: cs) b /\ plain_name nm /\ nm <> ""%string /\ class_name h c = nm2 /\
    a_groups (aob h a) = gs /\ (exists g, In g gs /\ full_group h (c :: cs) g) /\ superset_class h c = Some t /\
    interleave_class n a nm true nm2 false true h = Raise IndexError h' /\
    a_groups (aob h' a) = gs /\ superset_class h' c = Some d /\ class_name h' d = nm /\ issubclass h' d cTop = false /\
    (forall g k, In g gs -> In k (g_tiers (gob h' g)) -> t_ec (tob h' k) <> d).
Proof. exact c52_failure_refuted. Qed.
Print Assumptions C52_failure_refuted.
