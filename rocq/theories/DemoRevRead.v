(** * DemoRevRead: a text grid that is read, then changed (C72). *)
From Verif Require Export DemoRead DemoClass ReviseSpec.
From Verif Require Import ReadFinal ClassProofs.
From Verif Require Import ReviseSpec.
Open Scope Z_scope.

Lemma boot_ends : ends_named boot_heap.
Proof.
  split; [exact boot_table|]. split; intros c; do 9 (destruct c as [|c]; [vm_compute; congruence|]); intros E; exfalso; revert E; rewrite sub_dead by (unfold clive; vm_compute; lia); discriminate.
Qed.
Lemma boot_one : one_hierarchy boot_heap [[ex_segs; ex_words; ex_marks]; [ex_tones]] [[cPhone; cWord; cPoint]; [cPoint]] [cWord; cPhone] ["SequencePoint"%string].
Proof.
  split; [do 2 eexists; exact boot_chain|]. split; [intros c [<-|[<-|[]]]; vm_compute; discriminate|].
  intros row ocs [I|[I|[]]]; injection I as <- <-.
  - split; [right; vm_compute; apply perm_swap|]. intros p Hp. vm_compute in Hp. destruct Hp as [<-|[]]. split; [left; reflexivity|vm_compute; intuition discriminate].
  - split; [left; reflexivity|]. intros p Hp. vm_compute in Hp. destruct Hp as [<-|[]]. split; [left; reflexivity|vm_compute; intuition discriminate].
Qed.
(** A tier of feet between words and phones, with the phones' times and labels; then one of
    turns above, with those of the words; the words go. *)
Definition read_edits : list edit := [Add "Foot" "Phone" true true true; Add "Turn" "Word" true true false; Drop "Word"].
Lemma read_allowed others : (forall x, In x others -> x = "SequencePoint"%string) -> all_allowed others (map (class_name boot_heap) [cWord; cPhone]) read_edits.
Proof.
  intros O. assert (No : forall x, x <> "SequencePoint"%string -> ~ In x others) by (intros x Q I; apply Q, O, I).
  unfold read_edits. cbn [all_allowed]. split; [|split; [|split; [|exact I]]].
  - split; [discriminate|]. split; [split; reflexivity|]. split; [vm_compute; intuition discriminate|]. split; [apply No; discriminate|]. split; [vm_compute; tauto|]. split; [discriminate|discriminate].
  - split; [discriminate|]. split; [split; reflexivity|]. split; [vm_compute; intuition discriminate|]. split; [apply No; discriminate|]. split; [vm_compute; tauto|]. split; [discriminate|discriminate].
  - split; [vm_compute; tauto|vm_compute; lia].
Qed.
