(** * DemoMerge: fusions of the intervals of a grid, for the examples. *)
From Verif Require Export DemoRevise DemoRevRead MergeSpec.
From Verif Require Import MergeGridFinal.
Open Scope Z_scope.

(** On the grids of [DemoRevise]. *)
Definition join_labels : string -> string -> string := fun a b => (a ++ " " ++ b)%string.
Definition rev_fusions : list fusion := [Fusion true 0 0 join_labels; Fusion false 1 0 join_labels].
Lemma rev_lodged a cs : In a [0; 1]%nat -> all_lodged ex_rev a cs.
Proof. intros Ha g Hg _ k x Hk Hx. members; injection Hk as <-; members; reflexivity. Qed.
Lemma rev_home : at_home ex_rev 0.
Proof. intros x Hx. members; reflexivity. Qed.
Lemma rev_fusable : can_fuse_all (map (class_name ex_rev) [11; 12; 13]%nat) (grid_view ex_rev 0) rev_fusions.
Proof. vm_compute map. split; [|split; [|exact I]].
  - exists (Some "KY"%string). eexists [_]. do 4 eexists. split; [vm_compute; reflexivity|]. split; [vm_compute; reflexivity|]. split; [vm_compute; reflexivity|]. split; [vm_compute; reflexivity|]. split; [vm_compute; discriminate|].
    eexists. split; [left; reflexivity|]. do 4 eexists. split; [reflexivity|]. split; [reflexivity|]. split; [reflexivity|]. split; [reflexivity|]. split; vm_compute; congruence.
  - exists (Some "IY"%string). eexists [_]. do 4 eexists. split; [vm_compute; reflexivity|]. split; [vm_compute; reflexivity|]. split; [vm_compute; reflexivity|]. split; [vm_compute; reflexivity|]. split; [vm_compute; discriminate|].
    eexists. split; [left; reflexivity|]. do 4 eexists. split; [reflexivity|]. split; [reflexivity|]. split; [reflexivity|]. split; [reflexivity|]. split; vm_compute; congruence.
Qed.
