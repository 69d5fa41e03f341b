(** * Refute: concrete counterexamples to stronger forms of the properties. *)
From Verif Require Export ListFinal Demo.
Open Scope Z_scope.

Lemma c03_zero_refuted : let E : Env := demo_env in
  exists (h : heap) (a : slv) (x : nat) (v : slv),
    sorted_starts h (sv_vals a) /\ known_starts h (x :: sv_vals a) /\
    ~ listed h (sv_vals a) x /\
    sl_append a x false h = Ok v h /\ ~ sorted_starts h (sv_vals v).
Proof.
  cbv zeta.
  exists (run (new_obj cPhone (Some 0) (Some 10) "A" ;;; new_obj cPhone (Some 20) (Some 30) "B" ;;;
               new_obj cPhone (Some 10) (Some 20) "C") boot_heap), (Slv [0;3]%nat (Some cPhone)), 6%nat,
         (Slv [0;3;6]%nat (Some cPhone)).
  split; [|split; [|split; [|split]]].
  - intros i j a b Hij Ha Hb. simpl sv_vals in *.
    destruct i as [|[|i]], j as [|[|[|j]]]; try lia; try discriminate.
    injection Ha as <-. injection Hb as <-. vm_compute. exists 0, 20. repeat split. discriminate.
  - intros x Hx. simpl in Hx. destruct Hx as [<-|[<-|[<-|[]]]]; vm_compute; eauto.
  - apply sl_contains_iff_not. vm_compute. reflexivity.
  - vm_compute. reflexivity.
  - intros Hs. destruct (Hs 1%nat 2%nat 3%nat 6%nat) as (s & t & E1 & E2 & E3); auto.
    vm_compute in E1, E2. injection E1 as <-. injection E2 as <-. lia.
Qed.

Lemma c05_empty_refuted : let E : Env := demo_env in
  exists (h : heap) (a : slv), sv_vals a <> [] /\ sl_concat ONone a [] h = Ok None h.
Proof.
  cbv zeta. exists ex_phones, (Slv [3]%nat (Some cPhone)). split; [discriminate|]. vm_compute. reflexivity.
Qed.

Lemma c06_zero_length_refuted :
  exists st en : list Z, check_no_overlaps st en = true /\
    exists i j s1 e1 s2 e2, i <> j /\
      nth_error st i = Some s1 /\ nth_error en i = Some e1 /\
      nth_error st j = Some s2 /\ nth_error en j = Some e2 /\ overlap s1 e1 s2 e2.
Proof.
  exists [0;1;5;5], [2;3;5;5]. split; [vm_compute; reflexivity|].
  exists 0%nat, 1%nat, 0, 2, 1, 3. unfold overlap. repeat split; try lia.
Qed.

Lemma c07_settled_refuted :
  exists h x y h', x <> y /\ s_cls (sob h x) = s_cls (sob h y) /\
    s_label (sob h x) <> "#"%string /\ s_label (sob h y) <> "#"%string /\
    set_fol x y h = Ok tt h' /\ s_fol (sob h' x) = Some y /\ s_prev (sob h' y) <> Some x.
Proof.
  exists (run (set_fol 3 6 ;;; set_fol 0 6) ex_phones), 3%nat, 6%nat,
         (run (set_fol 3 6 ;;; set_fol 0 6) ex_phones).
  split; [lia|]. split; [reflexivity|]. split; [vm_compute; discriminate|].
  split; [vm_compute; discriminate|]. split; [vm_compute; reflexivity|].
  split; [reflexivity|]. vm_compute. discriminate.
Qed.
