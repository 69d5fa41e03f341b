(** * DemoUneven: text grids with rows of different extent, for the examples. *)
From Verif Require Export DemoRead UnevenSpec.
From Verif Require Import ReadFinal.
Open Scope Z_scope.

(** A second speaker, from 25 to 90. *)
Definition ex_words2 : rawtier := RawTier "words2" [ERaw (Some 25) (Some 40) "ef"; ERaw (Some 40) (Some 90) "g"].
Definition ex_segs2 : rawtier := RawTier "phones2" [ERaw (Some 25) (Some 30) "e"; ERaw (Some 30) (Some 40) "f"; ERaw (Some 40) (Some 90) "g"].
Definition uneven_rows : list (list rawtier) := [[ex_segs; ex_words]; [ex_words2; ex_segs2]].
Definition uneven_classes : list (list nat) := [[cPhone; cWord]; [cWord; cPhone]].
(** When a row starts and ends. *)
Definition uneven_lo (row : list rawtier) : Z := match row with r :: _ => if String.eqb (rt_name r) "words2" then 25 else 10 | [] => 0 end.
Definition uneven_hi (row : list rawtier) : Z := match row with r :: _ => if String.eqb (rt_name r) "words2" then 90 else 60 | [] => 0 end.
Lemma uneven_nesting : Forall2 (fun row ocs => nesting boot_heap (uneven_lo row) (uneven_hi row) row ocs) uneven_rows uneven_classes.
Proof.
  constructor; [|constructor; [|constructor]]; (split; [reflexivity|]).
  - exists [cWord; cPhone], [ex_words; ex_segs]. apply (ex_nested cTopwp cBottomwp); [exact boot_chain|exact boot_names|reflexivity|]. vm_compute. apply perm_swap.
  - exists [cWord; cPhone], [ex_words2; ex_segs2]. split; [exists cTopwp, cBottomwp; exact boot_chain|]. split; [exact boot_names|]. split; [reflexivity|].
    split; [vm_compute; reflexivity|]. split; [exists ex_words2; split; [reflexivity|turns_goal]|]. cbn. split; [|exact I].
    exists [[ERaw (Some 25) (Some 30) "e"; ERaw (Some 30) (Some 40) "f"]; [ERaw (Some 40) (Some 90) "g"]]. split; [reflexivity|].
    constructor; [|constructor; [|constructor]]; (do 3 eexists; split; [reflexivity|]; split; [lia|]); cbn;
      repeat (do 2 eexists; split; [reflexivity|]; split; [lia|]; split; [discriminate|]); reflexivity.
Qed.
Lemma uneven_bounds : 
  least (fun z => exists row, In row uneven_rows /\ uneven_lo row = z) 10 /\ greatest (fun z => exists row, In row uneven_rows /\ uneven_lo row = z) 25 /\
  least (fun z => exists row, In row uneven_rows /\ uneven_hi row = z) 60 /\ greatest (fun z => exists row, In row uneven_rows /\ uneven_hi row = z) 90.
Proof.
  split; [|split; [|split]]; (split; [|intros z (g & [<-|[<-|[]]] & <-); vm_compute; discriminate]);
    first [exists [ex_segs; ex_words]; split; [left; reflexivity|vm_compute; reflexivity]|exists [ex_words2; ex_segs2]; split; [right; left; reflexivity|vm_compute; reflexivity]].
Qed.
Lemma uneven_apart : ~ (@near demo_env 10 25 /\ @near demo_env 60 90).
Proof. intros [N _]. vm_compute in N. apply N. reflexivity. Qed.
Lemma uneven_late : ~ @near demo_env 90 25.
Proof. intros N. vm_compute in N. apply N. reflexivity. Qed.
