(** * DemoMix: groups of points beside groups of different extent, for the examples. *)
From Verif Require Export DemoWiden MixSpec.
Open Scope Z_scope.

(** Like [ex_uneven_points], but the point is where the groups start. *)
Definition ex_mix : heap := Eval vm_compute in (let E : Env := demo_env in run (set_starts 6 [10]) ex_uneven_points).
Lemma mix_all h g : h = ex_mix \/ h = ex_uneven_points -> In g (interval_groups h 0) -> @fill_ready demo_env 50 h 10 (widen_hi g) g.
Proof.
  assert (R0 : @tidy_ready demo_env 50 ex_mix 10 70 0) by (unfold tidy_ready; change (g_tiers (gob ex_mix 0)) with [0; 1; 2]%nat; tidy_group clean_blocks).
  assert (R1 : @tidy_ready demo_env 50 ex_mix 10 60 1) by (unfold tidy_ready; change (g_tiers (gob ex_mix 1)) with [5; 4; 3]%nat; tidy_group tidy_blocks2).
  intros [-> | ->].
  - change (interval_groups ex_mix 0) with [0; 1]%nat. intros [<-|[<-|[]]].
    + split; [exact R0|]. change (g_tiers (gob ex_mix 0)) with [0; 1; 2]%nat. intros u Hu. members; (split; [left; reflexivity|reflexivity]).
    + split; [exact R1|]. change (g_tiers (gob ex_mix 1)) with [5; 4; 3]%nat. intros u Hu. members; (split; [left; reflexivity|reflexivity]).
  - change (interval_groups ex_uneven_points 0) with [0; 1]%nat. intros [<-|[<-|[]]].
    + split; [exact points_ready0|]. change (g_tiers (gob ex_uneven_points 0)) with [0; 1; 2]%nat. intros u Hu. members; (split; [left; reflexivity|reflexivity]).
    + split; [exact points_ready1|]. change (g_tiers (gob ex_uneven_points 1)) with [5; 4; 3]%nat. intros u Hu. members; (split; [left; reflexivity|reflexivity]).
Qed.
Lemma mix_apart h : h = ex_mix \/ h = ex_uneven_points -> apart_groups h (interval_groups h 0).
Proof.
  intros [-> | ->]; [change (interval_groups ex_mix 0) with [0; 1]%nat|change (interval_groups ex_uneven_points 0) with [0; 1]%nat]; repeat split; apply nodup_by; vm_compute; reflexivity.
Qed.
Lemma mix_bounds h : h = ex_mix \/ h = ex_uneven_points -> let gs := interval_groups h 0 in
  least (fun z => exists g, In g gs /\ 10 = z) 10 /\ greatest (fun z => exists g, In g gs /\ 10 = z) 10 /\
  least (fun z => exists g, In g gs /\ widen_hi g = z) 60 /\ greatest (fun z => exists g, In g gs /\ widen_hi g = z) 70.
Proof.
  intros Q. cbv zeta. assert (interval_groups h 0 = [0; 1]%nat) as -> by (destruct Q as [-> | ->]; reflexivity).
  split; [|split; [|split]]; (split; [|intros z (g & [<-|[<-|[]]] & <-); cbn; lia]); [exists 0%nat|exists 0%nat|exists 1%nat|exists 0%nat]; cbn; auto.
Qed.
Lemma mix_points g : In g (a_groups (aob ex_mix 0)) -> g_points (gob ex_mix g) = true -> points_at ex_mix (interval_groups ex_mix 0) 10 10 g.
Proof.
  change (a_groups (aob ex_mix 0)) with [0; 1; 2]%nat. intros [<-|[<-|[<-|[]]]] Q; try discriminate Q.
  split; [reflexivity|]. split; [discriminate|]. split; [reflexivity|]. split; [reflexivity|]. change (g_tiers (gob ex_mix 2)) with [6]%nat. intros t [<-|[]].
  split; [reflexivity|]. split; [reflexivity|]. split; [|intros x [<-|[]]; vm_compute; lia].
  change (interval_groups ex_mix 0) with [0; 1]%nat. intros k [<-|[<-|[]]]; vm_compute; intros Z; repeat (destruct Z as [Z|Z]; [discriminate Z|]); exact Z.
Qed.
Lemma mix_far g : In g (a_groups (aob ex_uneven_points 0)) -> g_points (gob ex_uneven_points g) = true -> points_at ex_uneven_points (interval_groups ex_uneven_points 0) 15 15 g.
Proof.
  change (a_groups (aob ex_uneven_points 0)) with [0; 1; 2]%nat. intros [<-|[<-|[<-|[]]]] Q; try discriminate Q.
  split; [reflexivity|]. split; [discriminate|]. split; [reflexivity|]. split; [reflexivity|]. change (g_tiers (gob ex_uneven_points 2)) with [6]%nat. intros t [<-|[]].
  split; [reflexivity|]. split; [reflexivity|]. split; [|intros x [<-|[]]; vm_compute; lia].
  change (interval_groups ex_uneven_points 0) with [0; 1]%nat. intros k [<-|[<-|[]]]; vm_compute; intros Z; repeat (destruct Z as [Z|Z]; [discriminate Z|]); exact Z.
Qed.
