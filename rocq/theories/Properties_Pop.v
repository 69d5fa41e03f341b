(** * Property C51: removing a class of tiers from a grid.
    Theorems only; proofs in PopFinal.v and DemoPop.v. *)
From Verif Require Import PopFinal DemoPop.
Open Scope Z_scope.

(** C51: every group that has the class is replaced by a group in good order of
    its other tiers; the classes around the removed one are joined. *)
Theorem C51_pop `{Env} : forall n h a t cs1 c cs2 b nm gs, class_table h -> class_chain h t (cs1 ++ c :: cs2) b ->
  unrelated h (t :: (cs1 ++ c :: cs2) ++ [b]) -> (cs1 ++ cs2)%list <> [] ->
  (forall x, In x (cs1 ++ c :: cs2) -> plain_name (class_name h x)) ->
  str_in "Bottom" (class_name h t) = false -> str_in "Top" (class_name h b) = false ->
  class_name h c = nm -> (forall x, In x (cs1 ++ cs2) -> class_name h x <> nm) ->
  (a < List.length (h_grid h))%nat -> a_groups (aob h a) = gs -> apart_groups h gs ->
  (forall g, In g gs -> (g < List.length (h_grp h))%nat /\
     (full_group h (cs1 ++ c :: cs2) g \/ forall k, In k (g_tiers (gob h g)) -> class_name h (t_ec (tob h k)) <> nm)) ->
  (exists g, In g gs /\ full_group h (cs1 ++ c :: cs2) g) ->
  exists gs' h', pop_class n a nm h = Ok tt h' /\ a_groups (aob h' a) = gs' /\ NoDup gs' /\
    Forall2 (becomes nm c (cs1 ++ cs2) h h') gs gs' /\
    (forall g', In g' gs' -> g_within (gob h' g') = Some (WGrid a)) /\
    class_chain h' t (cs1 ++ cs2) b /\ same_content (flat_map (tiers_in h) gs) h h' /\
    List.length (h_grid h') = List.length (h_grid h) /\ (forall k, k <> a -> aob h' k = aob h k) /\
    class_table h' /\ List.length (h_cls h') = List.length (h_cls h) /\ (forall x, class_name h' x = class_name h x) /\
    (forall x y, issubclass h' x y = issubclass h x y).
Proof. exact c51_pop. Qed.
Print Assumptions C51_pop.
Example C51_pop_case : let E : Env := demo_env in
  class_table ex_pop /\ class_chain ex_pop 9 ([11] ++ 12 :: [13])%nat%list 10 /\ unrelated ex_pop (9 :: ([11] ++ 12 :: [13]) ++ [10])%nat%list /\
  (forall x, In x [11; 12; 13]%nat -> plain_name (class_name ex_pop x)) /\
  str_in "Bottom" (class_name ex_pop 9) = false /\ str_in "Top" (class_name ex_pop 10) = false /\
  class_name ex_pop 12 = "Syl"%string /\ (forall x, In x [11; 13]%nat -> class_name ex_pop x <> "Syl"%string) /\
  (0 < List.length (h_grid ex_pop))%nat /\ a_groups (aob ex_pop 0) = [0; 1; 2]%nat /\ apart_groups ex_pop [0; 1; 2]%nat /\
  (forall g, In g [0; 1; 2]%nat -> (g < List.length (h_grp ex_pop))%nat /\
     (full_group ex_pop [11; 12; 13]%nat g \/ forall k, In k (g_tiers (gob ex_pop g)) -> class_name ex_pop (t_ec (tob ex_pop k)) <> "Syl"%string)) /\
  exists h', pop_class 5 0 "Syl" ex_pop = Ok tt h' /\ a_groups (aob h' 0) = [3; 4; 2]%nat /\ map (tiers_in h') [3; 4; 2]%nat = [[1; 0]; [5; 3]; [6]]%nat /\
    g_name (gob h' 3) = Some "KY"%string /\ subset_class h' 11 = Some 13%nat /\ superset_class h' 13 = Some 11%nat /\
    s_subset (sob h' 16) = [0; 3]%nat /\ s_subset (sob h' 19) = [6; 9]%nat /\ s_subset (sob h' 66) = [49; 52]%nat.
Proof.
  cbv zeta. split; [exact pop_table|]. split; [exact pop_chain|]. split; [exact pop_unrelated|]. split; [exact pop_names|].
  split; [reflexivity|]. split; [reflexivity|]. split; [reflexivity|]. split; [intros x Hx; members; vm_compute; discriminate|].
  split; [vm_compute; lia|]. split; [reflexivity|]. split; [exact pop_apart|].
  split. { intros g Hg. members; (split; [vm_compute; lia|]).
    - left. apply pop_full. simpl; auto.
    - left. apply pop_full. simpl; auto.
    - right. intros k Hk. members. vm_compute. discriminate. }
  eexists. split; [vm_compute; reflexivity|]. repeat split.
Qed.
(** C51: a class none of the tiers has. *)
Theorem C51_absent `{Env} : forall n h a nm gs, (a < List.length (h_grid h))%nat -> a_groups (aob h a) = gs -> gs <> [] ->
  (forall g, In g gs -> (g < List.length (h_grp h))%nat /\ forall k, In k (g_tiers (gob h g)) -> class_name h (t_ec (tob h k)) <> nm) ->
  exists h', pop_class n a nm h = Ok tt h' /\ h_cls h' = h_cls h /\ h_seq h' = h_seq h /\ h_tier h' = h_tier h /\
    a_groups (aob h' a) = gs /\ (forall k, k <> a -> aob h' k = aob h k) /\
    (forall g, In g gs -> gob h' g = set_g_within (Some (WGrid a)) (gob h g)) /\ (forall g, ~ In g gs -> gob h' g = gob h g).
Proof. exact c51_absent. Qed.
Print Assumptions C51_absent.
Example C51_absent_case : let E : Env := demo_env in
  (0 < List.length (h_grid ex_pop))%nat /\ a_groups (aob ex_pop 0) = [0; 1; 2]%nat /\
  (forall g, In g [0; 1; 2]%nat -> (g < List.length (h_grp ex_pop))%nat /\ forall k, In k (g_tiers (gob ex_pop g)) -> class_name ex_pop (t_ec (tob ex_pop k)) <> "Foot"%string).
Proof.
  cbv zeta. split; [vm_compute; lia|]. split; [reflexivity|].
  intros g Hg. members; (split; [vm_compute; lia|]); intros k Hk; members; vm_compute; discriminate.
Qed.
(** C51: the only class of a grid is not removed. *)
Theorem C51_only_refuted : let E : Env := demo_env in
  exists n h a g t c b nm h', class_table h /\ class_chain h t [c] b /\ class_name h c = nm /\ a_groups (aob h a) = [g] /\ full_group h [c] g /\
    pop_class n a nm h = Ok tt h' /\ a_groups (aob h' a) = [g] /\ full_group h' [c] g /\ class_name h' c = nm.
Proof. exact c51_only_refuted. Qed.
Print Assumptions C51_only_refuted.
(** C51: intervals of the removed tiers keep their old parents. *)
Theorem C51_stale_refuted : let E : Env := demo_env in
  exists n h a gs nm h' t x p, a_groups (aob h a) = gs /\ apart_groups h gs /\ (forall g, In g [0; 1]%nat -> full_group h [11; 12; 13]%nat g) /\
    pop_class n a nm h = Ok tt h' /\ class_name h (t_ec (tob h t)) = nm /\ In x (t_seq (tob h' t)) /\
    s_super (sob h' x) = Some p /\ ~ In x (s_subset (sob h' p)).
Proof. exact c51_stale_refuted. Qed.
Print Assumptions C51_stale_refuted.
