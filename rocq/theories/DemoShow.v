(** * DemoShow: printed texts, for the examples, and a counterexample for C80. *)
From Verif Require Export DemoTree DemoGrid ShowSpec.
From Verif Require Import ShowFinal.
From Coq Require Import Ascii.
Open Scope Z_scope.

Lemma lacks_by c s : has_char c s = false -> lacks c s.
Proof.
  induction s as [|d s IH]; intros E; [apply lacks_nil|]. cbn [has_char] in E. apply orb_false_iff in E as [N E].
  apply lacks_cons; [|apply IH, E]. intros ->. rewrite Ascii.eqb_refl in N. discriminate N.
Qed.
Lemma tree_plain x : In x [3; 6; 9]%nat -> plainly_labelled ex_tree x.
Proof.
  intros [<-|[<-|[<-|[]]]]; (split; [apply lacks_by; vm_compute; reflexivity|]); (split; [apply lacks_by; vm_compute; reflexivity|]);
    (split; [intros n [E|E]; vm_compute in E; injection E as <-; (split; [apply lacks_by; reflexivity|discriminate])|]);
    (split; [intros p E; vm_compute in E; first [discriminate E|injection E as <-; split; [vm_compute; tauto|]; split; [apply lacks_by; vm_compute; reflexivity|vm_compute; discriminate]]|]);
    intros _; vm_compute; discriminate.
Qed.

(** Two words with a phone each; commas in the labels. *)
Definition ex_comma_calls : list op :=
  [New cWord (Some 10) (Some 20) "b, .superset_class: Word, .super_instance: c"; New cWord (Some 20) (Some 30) "c";
   New cPhone (Some 10) (Some 15) "a"; New cPhone (Some 20) (Some 25) "a, .superset_class: Word, .super_instance: b"; Append 0%nat 6%nat; Append 3%nat 9%nat].
Definition ex_comma : heap := @play demo_env ex_comma_calls boot_heap.
Lemma ex_comma_reach : @reach demo_env word_phone timed ex_comma.
Proof.
  apply play_reach; [apply reach_start; [vm_compute; reflexivity|exact word_phone_chains]|].
  unfold ex_comma_calls. cbn [plays].
  repeat match goal with
  | |- _ /\ _ => split; [step_ok|split; [first [exact Logic.I|eexists; split; [reflexivity|discriminate]]|]]
  end.
  exact Logic.I.
Qed.
(** With commas in the labels, intervals that differ may print the same. *)
Lemma c80_comma_refuted : let E : Env := demo_env in
  exists h x y s, reach word_phone timed h /\ user_obj h x /\ user_obj h y /\
    seq_repr x h = Ok s h /\ seq_repr y h = Ok s h /\ s_label (sob h x) <> s_label (sob h y) /\ label_above h x <> label_above h y.
Proof.
  cbv zeta. eexists ex_comma, 6%nat, 9%nat, _. split; [exact ex_comma_reach|]. split; [user|]. split; [user|].
  split; [vm_compute; reflexivity|]. split; [vm_compute; reflexivity|]. split; vm_compute; discriminate.
Qed.
(** A tier of a class that nothing is below: [Phone.set_subset_class()]. *)
Definition ex_lowest : heap := Eval vm_compute in heap_of (bind (set_subset_class cPhone None) (fun _ => @new_itier demo_env (FromList []) (Some cPhone)) boot_heap).
