(** * Property C55: concatenating tier groups.
    Theorems only; proofs in SpliceFinal.v and DemoSplice.v. *)
From Verif Require Import SpliceSpec SpliceFinal DemoSplice.
Open Scope Z_scope.

(** C55: the second group, moved to the end of the first, is added to it tier by tier. *)
Theorem C55_concat `{Env} : forall n h g t r bss g2 t2 r2 bss2 d,
  good_group h g (t :: r) bss -> (forall u, In u (t :: r) -> housed h u) ->
  good_group h g2 (t2 :: r2) bss2 -> bare_bottom h (t2 :: r2) ->
  map (fun u => t_ec (tob h u)) (t :: r) = map (fun u => t_ec (tob h u)) (t2 :: r2) ->
  (forall x, In x (entries_of h (t :: r)) -> ~ In x (entries_of h (t2 :: r2))) ->
  greatest (ends_on h t) d ->
  (forall a b, a < b -> fadd a d < fadd b d) -> (forall a, starts_on h t2 a -> d <= fadd a d) ->
  (List.length (t :: r) < n)%nat ->
  exists h' bss', grp_concat n g g2 h = Ok tt h' /\ good_group h' g (t :: r) bss' /\ (forall u, In u (t :: r) -> housed h' u) /\
    spliced (fun a => fadd a d) g (t :: r) (t2 :: r2) h h'.
Proof. exact c55_concat. Qed.
Print Assumptions C55_concat.
Example C55_concat_case : let E : Env := demo_env in
  good_group ex_pop 0 ex_order ex_blocks /\ (forall u, In u ex_order -> housed ex_pop u) /\
  good_group ex_pop 1 [5; 4; 3]%nat pop_blocks2 /\ bare_bottom ex_pop [5; 4; 3]%nat /\
  map (fun u => t_ec (tob ex_pop u)) ex_order = map (fun u => t_ec (tob ex_pop u)) [5; 4; 3]%nat /\
  (forall x, In x (entries_of ex_pop ex_order) -> ~ In x (entries_of ex_pop [5; 4; 3]%nat)) /\
  greatest (ends_on ex_pop 1) 60 /\ (forall a b, a < b -> fadd a 60 < fadd b 60) /\ (forall a, starts_on ex_pop 5 a -> 60 <= fadd a 60) /\
  exists h', grp_concat 4 0 1 ex_pop = Ok tt h' /\ map (fun u => t_seq (tob h' u)) ex_order = [[16; 19; 66]; [26; 29; 32; 59]; [0; 3; 6; 9; 49; 52]]%nat /\
    map (fun i => (s_start (sob h' i), s_end (sob h' i))) [66; 49; 52]%nat = [(Some 70, Some 120); (Some 70, Some 85); (Some 85, Some 120)].
Proof.
  cbv zeta. split; [exact pop_good0|]. split; [exact pop_housed|]. split; [exact pop_good1|]. split; [exact pop_bare1|]. split; [reflexivity|].
  split; [exact pop_disjoint|]. split; [exact pop_greatest|]. split; [intros a b L; cbn; lia|].
  split. { intros a (x & Hx & Ea). members; vm_compute in Ea; injection Ea as <-; cbn; lia. }
  eexists. split; [vm_compute; reflexivity|]. split; reflexivity.
Qed.
(** C55: groups of classes with different names are not concatenated. *)
Theorem C55_classes `{Env} : forall n h g g2, grp_class_names h g <> grp_class_names h g2 -> grp_concat n g g2 h = Raise ValueError h.
Proof. exact c55_classes. Qed.
Print Assumptions C55_classes.
Example C55_classes_case : grp_class_names ex_pop 0 <> grp_class_names ex_pop 2.
Proof. vm_compute. discriminate. Qed.
(** C55: points groups cannot be concatenated. *)
Theorem C55_points `{Env} : forall n h g g2 t r t2 r2 x l d, g_tiers (gob h g) = t :: r -> g_tiers (gob h g2) = t2 :: r2 -> t_seq (tob h t2) = x :: l ->
  is_point h x = true -> grp_class_names h g = grp_class_names h g2 -> grp_xmax g h = Ok d h -> grp_concat n g g2 h = Raise AttributeError h.
Proof. exact c55_points. Qed.
Print Assumptions C55_points.
Example C55_points_case : let E : Env := demo_env in
  g_tiers (gob ex_pop 2) = [6]%nat /\ t_seq (tob ex_pop 6) = [77]%nat /\ is_point ex_pop 77 = true /\ grp_xmax 2 ex_pop = Ok (Some 15) ex_pop.
Proof. cbv zeta. repeat split. Qed.
(** C55: with classes that only have the same names the second group has already
    been moved when the error is raised. *)
Theorem C55_classes_refuted : let E : Env := demo_env in
  exists n h g g2 t t2 x h', g_tiers (gob h g) = [t] /\ g_tiers (gob h g2) = [t2] /\ In x (t_seq (tob h t2)) /\
    grp_class_names h g = grp_class_names h g2 /\ t_ec (tob h t) <> t_ec (tob h t2) /\
    grp_concat n g g2 h = Raise ValueError h' /\ s_start (sob h' x) <> s_start (sob h x) /\ t_seq (tob h' t) = t_seq (tob h t).
Proof. exact c55_classes_refuted. Qed.
Print Assumptions C55_classes_refuted.
