(** * Properties C01-C06: SequenceList.

    Theorems only; the proofs are in ListFinal.v.  A SequenceList is
    [Slv entries entry_class]. *)
From Verif Require Import ListFinal Demo Refute.
Open Scope Z_scope.

(** C01: the constructor gives exactly the arguments, sorted by start, and
    keeps arguments that are in order. *)
Theorem C01_init `{Env} : forall h c l,
  (forall x, In x l -> s_cls (sob h x) = c) -> known_starts h l ->
  exists l', sl_init l h = Ok (Slv l' (match l with [] => None | _ => Some c end)) h /\
    Permutation l' l /\ sorted_starts h l' /\ (sorted_starts h l -> l' = l).
Proof. exact c01_init. Qed.
Print Assumptions C01_init.
Example C01_init_case : let E : Env := demo_env in
  (forall x, In x [0;3;6]%nat -> s_cls (sob ex_phones x) = cPhone) /\
  known_starts ex_phones [0;3;6]%nat /\
  sl_init [0;3;6]%nat ex_phones = Ok (Slv [3;6;0]%nat (Some cPhone)) ex_phones.
Proof. split; [all_cases|]. split; [all_cases|]. vm_compute. reflexivity. Qed.

(** C01: arguments of different classes are rejected. *)
Theorem C01_mixed `{Env} : forall h l x y,
  In x l -> In y l -> s_cls (sob h x) <> s_cls (sob h y) -> sl_init l h = Raise ValueError h.
Proof. exact c01_mixed. Qed.
Print Assumptions C01_mixed.
Example C01_mixed_case : let E : Env := demo_env in
  In 3%nat [3;9]%nat /\ In 9%nat [3;9]%nat /\
  s_cls (sob ex_phones 3) <> s_cls (sob ex_phones 9) /\
  sl_init [3;9]%nat ex_phones = Raise ValueError ex_phones.
Proof. split; [left; reflexivity|]. split; [right; left; reflexivity|]. split; [vm_compute; discriminate|vm_compute; reflexivity]. Qed.

(** C01: whatever the arguments and the outcome, no object is touched. *)
Theorem C01_frame `{Env} : forall h l, heap_of (sl_init l h) = h.
Proof. exact c01_frame. Qed.
Print Assumptions C01_frame.

(** C02: [a + b] on lists of one class. *)
Theorem C02_add `{Env} : forall h a b c,
  sv_ec a = Some c \/ sv_vals a = [] /\ sv_ec a = None ->
  (forall x, In x (sv_vals a ++ b) -> s_cls (sob h x) = c) ->
  (forall x, In x (sv_vals a ++ b) -> timed_both h x) ->
  sorted_starts h (sv_vals a) ->
  exists l' ec k, sl_add ONone a b h = Ok (Slv l' ec) h /\
    keep_if (fun x => ~ listed h (sv_vals a) x) b k /\
    Permutation l' (sv_vals a ++ k) /\ sorted_starts h l' /\
    (l' <> [] -> sv_vals a <> [] \/ k <> []) /\
    (ec = Some c \/ k = [] /\ ec = sv_ec a).
Proof. exact c02_add. Qed.
Print Assumptions C02_add.
Example C02_add_case : let E : Env := demo_env in
  (forall x, In x [3;0;3;6]%nat -> s_cls (sob ex_phones x) = cPhone) /\
  (forall x, In x [3;0;3;6]%nat -> timed_both ex_phones x) /\
  sl_add ONone (Slv [3]%nat (Some cPhone)) [0;3;6]%nat ex_phones
    = Ok (Slv [3;6;0]%nat (Some cPhone)) ex_phones.
Proof.
  split; [all_cases|]. split; [|vm_compute; reflexivity].
  intros x Hx. simpl in Hx.
  destruct Hx as [<-|[<-|[<-|[<-|[]]]]]; split; vm_compute; discriminate.
Qed.

(** C02: entries of a sub- or superclass are turned into the class of [a];
    nothing else about any object changes. *)
Theorem C02_add_cast `{Env} : forall h a b ec c,
  sv_ec a = Some ec -> (forall x, In x (sv_vals a) -> s_cls (sob h x) = ec) ->
  (forall x, In x b -> s_cls (sob h x) = c) ->
  (forall x, In x (sv_vals a ++ b) -> (x < List.length (h_seq h))%nat /\ timed_both h x) ->
  sorted_starts h (sv_vals a) ->
  seq_class h ec -> seq_class h c -> related h c ec ->
  issubclass h c cPoint = issubclass h ec cPoint ->
  exists l' k h', sl_add ONone a b h = Ok (Slv l' (Some ec)) h' /\
    keep_if (fun x => ~ listed h (sv_vals a) x) b k /\
    Permutation l' (sv_vals a ++ k) /\ sorted_starts h' l' /\
    (forall x, In x l' -> s_cls (sob h' x) = ec) /\
    (forall x, same_but_class (sob h x) (sob h' x)) /\
    (forall x, ~ In x k -> sob h' x = sob h x) /\ List.length (h_seq h') = List.length (h_seq h) /\ same_rest h h'.
Proof. exact c02_add_cast. Qed.
Print Assumptions C02_add_cast.
Example C02_add_cast_case : let E : Env := demo_env in
  let h := run (new_obj cInterval (Some 5) (Some 6) "x") ex_phones in
  s_cls (sob h 12) = cInterval /\ related h cInterval cPhone /\
  exists h', sl_add ONone (Slv [3]%nat (Some cPhone)) [12]%nat h = Ok (Slv [12;3]%nat (Some cPhone)) h' /\
             s_cls (sob h' 12) = cPhone.
Proof.
  cbv zeta. split; [reflexivity|]. split; [right; reflexivity|].
  eexists. split; [vm_compute; reflexivity|reflexivity].
Qed.

(** C02: new entries of several classes, or of an unrelated class, are
    rejected before anything changes. *)
Theorem C02_mixed `{Env} : forall h w a b x y,
  In x b -> In y b -> ~ listed h (sv_vals a) x -> ~ listed h (sv_vals a) y ->
  s_cls (sob h x) <> s_cls (sob h y) -> sl_add w a b h = Raise ValueError h.
Proof. exact c02_mixed. Qed.
Print Assumptions C02_mixed.
Theorem C02_unrelated `{Env} : forall h w a b c ec x,
  sv_ec a = Some ec -> (forall z, In z b -> s_cls (sob h z) = c) ->
  In x b -> ~ listed h (sv_vals a) x -> ~ related h c ec ->
  sl_add w a b h = Raise ValueError h.
Proof. exact c02_unrelated. Qed.
Print Assumptions C02_unrelated.
Example C02_unrelated_case : let E : Env := demo_env in
  ~ related ex_phones cWord cPhone /\ s_cls (sob ex_phones 9) = cWord /\
  sl_add ONone (Slv [3]%nat (Some cPhone)) [9]%nat ex_phones = Raise ValueError ex_phones.
Proof.
  split; [intros [E|E]; vm_compute in E; discriminate|]. split; [reflexivity|vm_compute; reflexivity].
Qed.

(** C03: append puts the new entry in its place. *)
Theorem C03_append `{Env} : forall h a x c,
  sv_ec a = Some c \/ sv_vals a = [] /\ sv_ec a = None ->
  s_cls (sob h x) = c -> seq_class h c ->
  ~ listed h (sv_vals a) x ->
  (forall y, In y (sv_vals a) -> exists s, s_start (sob h y) = Some s /\ s <> 0) ->
  s_start (sob h x) <> None -> sorted_starts h (sv_vals a) ->
  exists l1 l2, sv_vals a = (l1 ++ l2)%list /\
    sl_append a x false h = Ok (Slv (l1 ++ x :: l2) (Some c)) h /\
    sorted_starts h (l1 ++ x :: l2).
Proof. exact c03_append. Qed.
Print Assumptions C03_append.
Example C03_append_case : let E : Env := demo_env in
  ~ listed ex_phones [3;0]%nat 6 /\
  sl_append (Slv [3;0]%nat (Some cPhone)) 6 false ex_phones
    = Ok (Slv [3;6;0]%nat (Some cPhone)) ex_phones.
Proof.
  split; [|vm_compute; reflexivity].
  apply sl_contains_iff_not. vm_compute. reflexivity.
Qed.
Theorem C03_present `{Env} : forall h a x, listed h (sv_vals a) x -> sl_append a x false h = Ok a h.
Proof. exact c03_present. Qed.
Print Assumptions C03_present.
Theorem C03_unrelated `{Env} : forall h a x ec,
  sv_ec a = Some ec -> ~ listed h (sv_vals a) x -> ~ related h (s_cls (sob h x)) ec ->
  sl_append a x false h = Raise ValueError h.
Proof. exact c03_unrelated. Qed.
Print Assumptions C03_unrelated.

(** C03, why the times must not be zero: with an entry at 0, the list
    [0-10, 20-30] becomes unsorted when 10-20 is appended. *)
Theorem C03_zero_start_refuted : let E : Env := demo_env in
  exists (h : heap) (a : slv) (x : nat) (v : slv),
    sorted_starts h (sv_vals a) /\ known_starts h (x :: sv_vals a) /\
    ~ listed h (sv_vals a) x /\
    sl_append a x false h = Ok v h /\ ~ sorted_starts h (sv_vals v).
Proof. exact c03_zero_refuted. Qed.
Print Assumptions C03_zero_start_refuted.

(** C04: removal takes out the first entry of equal value. *)
Theorem C04_remove : forall h l x l',
  sl_drop h l x = Some l' ->
  exists l1 y l2, l = (l1 ++ y :: l2)%list /\ l' = (l1 ++ l2)%list /\ same_value h y x /\
    (forall z, In z l1 -> ~ same_value h z x) /\ (sorted_starts h l -> sorted_starts h l').
Proof. exact c04_remove. Qed.
Print Assumptions C04_remove.
Theorem C04_found : forall h l x,
  (exists y, In y l /\ same_value h y x) -> exists l', sl_drop h l x = Some l'.
Proof. exact c04_found. Qed.
Print Assumptions C04_found.
Example C04_remove_case : sl_drop ex_phones [3;6;0]%nat 6 = Some [3;0]%nat.
Proof. vm_compute. reflexivity. Qed.
(** C04: removing what is not there raises and changes nothing. *)
Theorem C04_absent `{Env} : forall h s x,
  (forall y, In y (s_subset (sob h s)) -> ~ same_value h y x) ->
  subset_remove s x h = Raise ValueError h.
Proof. exact c04_absent. Qed.
Print Assumptions C04_absent.

(** C05: concat (exact arithmetic). *)
Theorem C05_concat `{Env} : forall h a b c,
  (forall p q, fadd p q = p + q) ->
  sv_ec a = Some c -> sv_vals a <> [] -> b <> [] ->
  issubclass h c cPoint = false ->
  (forall x, In x (sv_vals a ++ b) -> s_cls (sob h x) = c) ->
  (forall x, In x (sv_vals a) -> exists s e, s_start (sob h x) = Some s /\ s_end (sob h x) = Some e /\ s < e) ->
  sorted_starts h (sv_vals a) ->
  (forall x, In x b -> exists s e, s_start (sob h x) = Some s /\ s_end (sob h x) = Some e /\ 0 <= s /\
     s_subset (sob h x) = [] /\ (x < List.length (h_seq h))%nat) ->
  NoDup b -> (forall x, In x (sv_vals a) -> ~ In x b) ->
  exists d srt h',
    sl_concat ONone a b h = Ok (Some (Slv (sv_vals a ++ srt) (Some c))) h' /\
    (exists x, In x (sv_vals a) /\ s_end (sob h x) = Some d) /\
    (forall x e, In x (sv_vals a) -> s_end (sob h x) = Some e -> e <= d) /\
    Permutation srt b /\ sorted_starts h' (sv_vals a ++ srt) /\
    (forall x s e, In x b -> s_start (sob h x) = Some s -> s_end (sob h x) = Some e ->
       s_start (sob h' x) = Some (s + d) /\ s_end (sob h' x) = Some (e + d) /\
       same_but_times (sob h x) (sob h' x)) /\
    (forall x, ~ In x b -> sob h' x = sob h x) /\ List.length (h_seq h') = List.length (h_seq h) /\ same_rest h h'.
Proof. exact c05_concat. Qed.
Print Assumptions C05_concat.
Example C05_concat_case : let E : Env := demo_env in
  exists h', sl_concat ONone (Slv [3;0]%nat (Some cPhone)) [6]%nat ex_phones
    = Ok (Some (Slv [3;0;6]%nat (Some cPhone))) h' /\
  s_start (sob h' 6) = Some 60 /\ s_end (sob h' 6) = Some 70.
Proof. eexists. split; [vm_compute; reflexivity|]. split; reflexivity. Qed.

(** C05, why the second list must not be empty: the source then stores the
    list inside itself ([None]), and any later use recurses for ever. *)
Theorem C05_empty_refuted : let E : Env := demo_env in
  exists (h : heap) (a : slv), sv_vals a <> [] /\ sl_concat ONone a [] h = Ok None h.
Proof. exact c05_empty_refuted. Qed.
Print Assumptions C05_empty_refuted.

(** C06: the overlap check is exact for positive durations. *)
Theorem C06_exact : forall h l,
  (forall x, In x l -> exists s e, s_start (sob h x) = Some s /\ end_at h x = Some e /\ s < e) ->
  exists b, sl_check_no_overlaps l h = Ok b h /\
    (b = true <->
     forall i j x y s1 e1 s2 e2, i <> j -> nth_error l i = Some x -> nth_error l j = Some y ->
       s_start (sob h x) = Some s1 -> end_at h x = Some e1 ->
       s_start (sob h y) = Some s2 -> end_at h y = Some e2 -> ~ overlap s1 e1 s2 e2).
Proof. exact c06_exact. Qed.
Print Assumptions C06_exact.
Example C06_exact_case :
  sl_check_no_overlaps [3;6;0]%nat ex_phones = Ok true ex_phones /\
  sl_check_no_overlaps [3;6;9]%nat ex_phones = Ok false ex_phones.
Proof. vm_compute. auto. Qed.

(** C06, why the durations must be positive: 0-2 and 1-3 overlap, but two
    zero-length entries elsewhere make up for the count. *)
Theorem C06_zero_length_refuted :
  exists st en : list Z, check_no_overlaps st en = true /\
    exists i j s1 e1 s2 e2, i <> j /\
      nth_error st i = Some s1 /\ nth_error en i = Some e1 /\
      nth_error st j = Some s2 /\ nth_error en j = Some e2 /\ overlap s1 e1 s2 e2.
Proof. exact c06_zero_length_refuted. Qed.
Print Assumptions C06_zero_length_refuted.
