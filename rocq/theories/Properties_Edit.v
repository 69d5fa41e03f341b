(** * Properties C47, C48: appending to, adding and concatenating tiers.
    Theorems only; proofs in EditFinal.v and DemoEdit.v. *)
From Verif Require Import EditFinal DemoEdit.
Open Scope Z_scope.

(** C47: appending an interval to a tier in no group. *)
Theorem C47_append `{Env} : forall n h t c x, good_tier h t c -> t_seq (tob h t) <> [] ->
  (x < List.length (h_seq h))%nat -> timed_both h x -> s_label (sob h x) <> "#"%string ->
  issubclass h (s_cls (sob h x)) cInterval = true -> is_point h x = false -> related h c (s_cls (sob h x)) ->
  ~ listed h (t_seq (tob h t)) x ->
  exists h', tier_append (S n) t x h = Ok tt h' /\
    Permutation (t_seq (tob h' t)) (t_seq (tob h t) ++ [x]) /\ orderly h' t /\
    s_cls (sob h' x) = c /\ same_data (sob h x) (sob h' x) /\
    (forall y, In y (t_seq (tob h t)) -> same_but_place (sob h y) (sob h' y)) /\
    touches_only t (t_seq (tob h t) ++ [x]) h h'.
Proof. exact c47_append. Qed.
Print Assumptions C47_append.
Example C47_append_case : let E : Env := demo_env in
  good_tier ex_edit 0 cWord /\ t_seq (tob ex_edit 0) <> [] /\ (28 < List.length (h_seq ex_edit))%nat /\ timed_both ex_edit 28 /\
  s_label (sob ex_edit 28) <> "#"%string /\ issubclass ex_edit (s_cls (sob ex_edit 28)) cInterval = true /\ is_point ex_edit 28 = false /\
  related ex_edit cWord (s_cls (sob ex_edit 28)) /\ ~ listed ex_edit (t_seq (tob ex_edit 0)) 28 /\
  exists h', tier_append 5 0 28 ex_edit = Ok tt h' /\ t_seq (tob h' 0) = [0; 28; 3]%nat /\ s_cls (sob h' 28) = cWord /\ s_fol (sob h' 28) = Some 3%nat.
Proof.
  cbv zeta. split; [exact ex_good|]. split; [vm_compute; discriminate|]. split; [vm_compute; lia|]. split; [finish|].
  split; [vm_compute; discriminate|]. split; [reflexivity|]. split; [reflexivity|]. split; [left; reflexivity|].
  split; [apply unlisted_by; reflexivity|]. eexists. split; [vm_compute; reflexivity|]. split; [reflexivity|]. split; reflexivity.
Qed.
(** C47: what is already there, itself or as an equal one, is not added. *)
Theorem C47_listed `{Env} : forall n h t c x, good_tier h t c -> related h c (s_cls (sob h x)) ->
  listed h (t_seq (tob h t)) x ->
  exists h', tier_append (S n) t x h = Ok tt h' /\ t_seq (tob h' t) = t_seq (tob h t) /\
    (forall y, In y (t_seq (tob h t)) -> same_but_place (sob h y) (sob h' y)) /\
    touches_only t (t_seq (tob h t)) h h'.
Proof. exact c47_listed. Qed.
Print Assumptions C47_listed.
Example C47_listed_case : let E : Env := demo_env in
  good_tier ex_edit 0 cWord /\ related ex_edit cWord (s_cls (sob ex_edit 34)) /\ ~ In 34%nat (t_seq (tob ex_edit 0)) /\
  listed ex_edit (t_seq (tob ex_edit 0)) 34.
Proof.
  cbv zeta. split; [exact ex_good|]. split; [left; reflexivity|]. split; [vm_compute; lia|apply listed_by; reflexivity].
Qed.
(** C47: the first entry of an empty tier. *)
Theorem C47_first `{Env} : forall n h t c x, good_tier h t c -> t_seq (tob h t) = [] -> t_seqec (tob h t) = None ->
  (x < List.length (h_seq h))%nat -> timed_both h x -> s_label (sob h x) <> "#"%string ->
  related h c (s_cls (sob h x)) ->
  exists h', tier_append (S n) t x h = Ok tt h' /\ t_seq (tob h' t) = [x] /\ orderly h' t /\
    same_but_place (sob h x) (sob h' x) /\ touches_only t [x] h h'.
Proof. exact c47_first. Qed.
Print Assumptions C47_first.
Example C47_first_case : let E : Env := demo_env in
  good_tier ex_edit 2 cWord /\ t_seq (tob ex_edit 2) = [] /\ t_seqec (tob ex_edit 2) = None /\
  (28 < List.length (h_seq ex_edit))%nat /\ timed_both ex_edit 28 /\ s_label (sob ex_edit 28) <> "#"%string /\
  related ex_edit cWord (s_cls (sob ex_edit 28)).
Proof.
  cbv zeta. split; [exact ex_good_empty|]. split; [reflexivity|]. split; [reflexivity|]. split; [vm_compute; lia|]. split; [finish|].
  split; [vm_compute; discriminate|]. left; reflexivity.
Qed.
(** C47: it does not become an entry of the tier's class. *)
Theorem C47_first_refuted : let E : Env := demo_env in
  exists n h t c x h', good_tier h t c /\ timed_both h x /\ related h c (s_cls (sob h x)) /\
    tier_append n t x h = Ok tt h' /\ In x (t_seq (tob h' t)) /\ s_cls (sob h' x) <> c.
Proof. exact c47_first_refuted. Qed.
Print Assumptions C47_first_refuted.
(** C47: an entry of an unrelated class is refused. *)
Theorem C47_unrelated `{Env} : forall n h t x, ~ related h (t_ec (tob h t)) (s_cls (sob h x)) ->
  tier_append (S n) t x h = Raise ValueError h.
Proof. exact c47_unrelated. Qed.
Print Assumptions C47_unrelated.
Example C47_unrelated_case : let E : Env := demo_env in ~ related ex_edit (t_ec (tob ex_edit 0)) (s_cls (sob ex_edit 31)).
Proof. cbv zeta. intros [A|A]; vm_compute in A; discriminate. Qed.
(** C47: appending a point to a point tier sorts it in and leaves its links alone. *)
Theorem C47_point `{Env} : forall n h t c x, lone_points h t c -> t_seq (tob h t) <> [] ->
  (x < List.length (h_seq h))%nat -> timed_both h x -> is_point h x = true -> related h c (s_cls (sob h x)) ->
  ~ listed h (t_seq (tob h t)) x ->
  exists h', tier_append (S n) t x h = Ok tt h' /\
    Permutation (t_seq (tob h' t)) (t_seq (tob h t) ++ [x]) /\ sorted_starts h' (t_seq (tob h' t)) /\
    s_cls (sob h' x) = c /\ same_but_class (sob h x) (sob h' x) /\
    (forall y, y <> x -> sob h' y = sob h y) /\ touches_only t [x] h h'.
Proof. exact c47_point. Qed.
Print Assumptions C47_point.
Example C47_point_case : let E : Env := demo_env in
  lone_points ex_edit 3 cPoint /\ t_seq (tob ex_edit 3) <> [] /\ (31 < List.length (h_seq ex_edit))%nat /\ timed_both ex_edit 31 /\
  is_point ex_edit 31 = true /\ related ex_edit cPoint (s_cls (sob ex_edit 31)) /\ ~ listed ex_edit (t_seq (tob ex_edit 3)) 31 /\
  exists h', tier_append 5 3 31 ex_edit = Ok tt h' /\ t_seq (tob h' 3) = [20; 31; 23]%nat.
Proof.
  cbv zeta. split; [exact ex_lone_points|]. split; [vm_compute; discriminate|]. split; [vm_compute; lia|]. split; [finish|].
  split; [reflexivity|]. split; [left; reflexivity|]. split; [apply unlisted_by; reflexivity|].
  eexists. split; [vm_compute; reflexivity|reflexivity].
Qed.
(** C47: so the point does not know its tier and the tier's points are not linked. *)
Theorem C47_point_refuted : let E : Env := demo_env in
  exists n h t c x h', lone_points h t c /\ timed_both h x /\ related h c (s_cls (sob h x)) /\
    tier_append n t x h = Ok tt h' /\ In x (t_seq (tob h' t)) /\ s_intier (sob h' x) <> Some t /\
    ~ chained h' (t_seq (tob h' t)).
Proof. exact c47_point_refuted. Qed.
Print Assumptions C47_point_refuted.

(** C48: the sum of two tiers. *)
Theorem C48_add `{Env} : forall h t u c d sc, steady h t c -> steady h u d -> t_seq (tob h t) <> [] ->
  issubclass h c cInterval = true -> issubclass h c cPoint = false ->
  issubclass h d cInterval = true -> issubclass h d cPoint = false ->
  related h c d -> superset_class h c = Some sc ->
  exists n h' k, tier_add t u h = Ok n h' /\
    keep_if (fun x => ~ listed h (t_seq (tob h t)) x) (t_seq (tob h u)) k /\
    Permutation (t_seq (tob h' n)) (t_seq (tob h t) ++ k) /\ orderly h' n /\ plain_tier h' n c /\
    (forall x, In x (t_seq (tob h' n)) -> s_cls (sob h' x) = c /\ same_data (sob h x) (sob h' x)) /\
    (issubclass h sc cTop = true -> forall x, In x (t_seq (tob h' n)) -> s_within (sob h' x) = Some (WTier n)) /\
    adds_tier n (t_seq (tob h t) ++ k) h h'.
Proof. exact c48_add. Qed.
Print Assumptions C48_add.
Example C48_add_case : let E : Env := demo_env in
  steady ex_edit 0 cWord /\ steady ex_edit 1 cWord /\ t_seq (tob ex_edit 0) <> [] /\
  issubclass ex_edit cWord cInterval = true /\ issubclass ex_edit cWord cPoint = false /\ related ex_edit cWord cWord /\
  superset_class ex_edit cWord = Some cTopwp /\
  exists h', tier_add 0 1 ex_edit = Ok 4%nat h' /\ t_seq (tob h' 4) = [10; 0; 3; 13]%nat.
Proof.
  cbv zeta. split; [apply ex_steady; simpl; auto|]. split; [apply ex_steady; simpl; auto|]. split; [vm_compute; discriminate|].
  split; [reflexivity|]. split; [reflexivity|]. split; [left; reflexivity|]. split; [reflexivity|].
  eexists. split; [vm_compute; reflexivity|reflexivity].
Qed.
Theorem C48_mixed `{Env} : forall h t u, is_point_tier h t <> is_point_tier h u \/ ~ related h (t_ec (tob h t)) (t_ec (tob h u)) ->
  tier_add t u h = Raise ValueError h.
Proof. exact c48_mixed. Qed.
Print Assumptions C48_mixed.
Example C48_mixed_case : let E : Env := demo_env in is_point_tier ex_edit 0 <> is_point_tier ex_edit 3.
Proof. cbv zeta. vm_compute. discriminate. Qed.
(** C48: concatenation. *)
Theorem C48_concat `{Env} : forall h t u c ns, (forall p q, fadd p q = p + q) ->
  steady h t c -> steady h u c -> (t < List.length (h_tier h))%nat -> t_super (tob h t) <> None ->
  t_seq (tob h t) <> [] -> t_seq (tob h u) <> [] -> issubclass h c cPoint = false ->
  (forall x a b, In x (t_seq (tob h t)) -> s_start (sob h x) = Some a -> s_end (sob h x) = Some b -> a < b) ->
  (forall x a, In x (t_seq (tob h u)) -> s_start (sob h x) = Some a -> 0 <= a) ->
  below h (t_seq (tob h u)) ns -> NoDup ns -> (forall y, In y ns -> (y < List.length (h_seq h))%nat /\ timed_both h y) ->
  (forall y, In y ns -> is_point h y = true -> s_subset (sob h y) = []) ->
  (forall x, In x (t_seq (tob h t)) -> ~ In x ns) ->
  exists d srt h', tier_concat t u h = Ok tt h' /\ last_end h (t_seq (tob h t)) d /\
    Permutation srt (t_seq (tob h u)) /\ t_seq (tob h' t) = (t_seq (tob h t) ++ srt)%list /\ orderly h' t /\
    (forall y, In y ns -> moved_by d h h' y) /\
    (forall x, In x (t_seq (tob h t)) -> same_but_place (sob h x) (sob h' x)) /\
    touches_only t (t_seq (tob h t) ++ ns) h h'.
Proof. exact c48_concat. Qed.
Print Assumptions C48_concat.
Example C48_concat_case : let E : Env := demo_env in
  steady ex_edit 0 cWord /\ steady ex_edit 1 cWord /\ (0 < List.length (h_tier ex_edit))%nat /\ t_super (tob ex_edit 0) <> None /\
  below ex_edit (t_seq (tob ex_edit 1)) [10; 37; 40; 13]%nat /\ NoDup [10; 37; 40; 13]%nat /\
  (forall y, In y [10; 37; 40; 13]%nat -> (y < List.length (h_seq ex_edit))%nat /\ timed_both ex_edit y) /\
  exists h', tier_concat 0 1 ex_edit = Ok tt h' /\ t_seq (tob h' 0) = [0; 3; 10; 13]%nat /\
    map (fun x => s_start (sob h' x)) [10; 37; 40; 13]%nat = [Some 35; Some 35; Some 40; Some 60].
Proof.
  cbv zeta. split; [apply ex_steady; simpl; auto|]. split; [apply ex_steady; simpl; auto|]. split; [vm_compute; lia|]. split; [vm_compute; discriminate|].
  split. { change (t_seq (tob ex_edit 1)) with [10; 13]%nat.
    apply (below_cons ex_edit 10 [13]%nat [37; 40]%nat [13]%nat); [|apply (below_cons ex_edit 13 [] [] []); constructor].
    change (s_subset (sob ex_edit 10)) with [37; 40]%nat. apply (below_cons ex_edit 37 [40]%nat [] [40]%nat); [constructor|].
    apply (below_cons ex_edit 40 [] [] []); constructor. }
  split; [apply nodup_by; reflexivity|]. split; [intros y Hy; members; (split; [vm_compute; lia|finish])|].
  eexists. split; [vm_compute; reflexivity|]. split; reflexivity.
Qed.
