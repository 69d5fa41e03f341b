(** * DemoGap: tiers with gaps between their intervals, for the examples. *)
From Verif Require Export DemoGroup.
Open Scope Z_scope.

(** A check of [in_turn] for a concrete list. *)
Definition in_turn_b (h : heap) (l : list nat) : bool :=
  forallb (fun ix => forallb (fun jy => negb (fst ix <? fst jy)%nat ||
    match s_end (sob h (snd ix)), s_start (sob h (snd jy)) with Some e, Some s => e <=? s | _, _ => false end)
    (combine (seq 0 (List.length l)) l)) (combine (seq 0 (List.length l)) l).
Lemma in_turn_by h l : in_turn_b h l = true -> in_turn h l.
Proof.
  intros B i j x y Hij Hx Hy. unfold in_turn_b in B. rewrite forallb_forall in B. specialize (B _ (in_numbered l i x Hx 0)).
  rewrite forallb_forall in B. specialize (B _ (in_numbered l j y Hy 0)). simpl in B.
  apply Nat.ltb_lt in Hij. rewrite Hij in B. simpl in B.
  destruct (s_end (sob h x)) as [e|]; [|discriminate]. destruct (s_start (sob h y)) as [s|]; [|discriminate].
  exists e, s. repeat split. apply Z.leb_le. exact B.
Qed.

(** Tier 0: phones with a gap after the first and after the third. *)
Definition ex_gaps : heap := Eval vm_compute in
  let E : Env := demo_env in
  run (new_itier (FromList [ERaw (Some 10) (Some 20) "a"; ERaw (Some 25) (Some 30) "b"; ERaw (Some 30) (Some 40) "c"; ERaw (Some 50) (Some 60) "d"]) (Some 13%nat)) ex_classes.
Lemma gaps_shape : t_seq (tob ex_gaps 0) = [0; 3; 6; 9]%nat.
Proof. reflexivity. Qed.
Lemma ex_gappy : gappy ex_gaps 0.
Proof.
  split; [vm_compute; lia|]. split; [reflexivity|]. split; [reflexivity|]. split; [left; reflexivity|]. split; [discriminate|].
  split; [apply in_turn_by; reflexivity|].
  intros x Hx. members; (split; [vm_compute; lia|]; split; [reflexivity|]; eexists; eexists; split; [reflexivity|]; split; [reflexivity|lia]).
Qed.
Lemma gaps_alone : stands_alone ex_gaps 0.
Proof. intros g. discriminate. Qed.
Lemma snug_gappy : gappy ex_tiers 0.
Proof.
  split; [vm_compute; lia|]. split; [reflexivity|]. split; [reflexivity|]. split; [left; reflexivity|]. split; [discriminate|].
  split; [apply in_turn_by; reflexivity|].
  intros x Hx. members; (split; [vm_compute; lia|]; split; [reflexivity|]; eexists; eexists; split; [reflexivity|]; split; [reflexivity|lia]).
Qed.

(** The same with a first entry that starts at 0: the new intervals are put at
    the end of the tier, which is then out of order. *)
Lemma c29_zero_refuted : let E : Env := demo_env in
  exists h t h', stands_alone h t /\ in_turn h (t_seq (tob h t)) /\
    (forall x, In x (t_seq (tob h t)) -> exists a b, s_start (sob h x) = Some a /\ s_end (sob h x) = Some b /\ 0 <= a < b) /\
    tier_cleanup 50 t h = Ok tt h' /\ ~ in_turn h' (t_seq (tob h' t)).
Proof.
  cbv zeta.
  exists (run (@new_itier demo_env (FromList [ERaw (Some 0) (Some 5) "a"; ERaw (Some 10) (Some 20) "b"; ERaw (Some 25) (Some 30) "c"]) (Some 13%nat)) ex_classes), 0%nat.
  eexists. split; [intros g; vm_compute; discriminate|]. split; [apply in_turn_by; vm_compute; reflexivity|].
  split.
  { intros x Hx. vm_compute in Hx. repeat destruct Hx as [<-|Hx]; try contradiction;
      (eexists; eexists; split; [vm_compute; reflexivity|]; split; [vm_compute; reflexivity|lia]). }
  split; [vm_compute; reflexivity|].
  intros T. destruct (T 2%nat 3%nat 6%nat 13%nat) as (e & s & A & B & C); [lia|vm_compute; reflexivity|vm_compute; reflexivity|].
  vm_compute in A, B. injection A as <-. injection B as <-. lia.
Qed.
