(** * DemoLevel: a grid with groups of different extent, for the examples. *)
From Verif Require Export DemoTidy LevelSpec.
From Verif Require Import LevelFinal.
Open Scope Z_scope.

(** Grid 0 has the groups 0 (tiers 2, 1, 0, from 10 to 40) and 1 (tiers 5, 4, 3,
    from 20 to 70), both without gaps. *)
Definition ex_level : heap := Eval vm_compute in
  let E : Env := demo_env in
  run (p <- new_itier (FromList [ERaw (Some 10) (Some 25) "x"; ERaw (Some 25) (Some 40) "y"]) (Some 13%nat) ;;
       s <- new_itier (FromList [ERaw (Some 10) (Some 40) "4"]) (Some 12%nat) ;;
       w <- new_itier (FromList [ERaw (Some 10) (Some 40) "xy"]) (Some 11%nat) ;;
       g <- new_tg 50 [p; s; w] ;;
       p' <- new_itier (FromList [ERaw (Some 20) (Some 30) "a"; ERaw (Some 30) (Some 50) "b"; ERaw (Some 50) (Some 70) "c"]) (Some 13%nat) ;;
       s' <- new_itier (FromList [ERaw (Some 20) (Some 30) "1"; ERaw (Some 30) (Some 70) "2"]) (Some 12%nat) ;;
       w' <- new_itier (FromList [ERaw (Some 20) (Some 30) "a"; ERaw (Some 30) (Some 70) "bc"]) (Some 11%nat) ;;
       g' <- new_tg 50 [p'; s'; w'] ;;
       modify (fun h => Heap (h_cls h) (h_seq h) (h_tier h) (h_grp h) [GridObj [] []]) ;;;
       set_tier_groups 0 [g; g']) ex_classes.
Definition level_blocks0 : list (list (list nat)) := [[[10]]; [[0; 3]]]%nat.
Definition level_blocks1 : list (list (list nat)) := [[[41]; [44]]; [[28]; [31; 34]]]%nat.
Definition level_lo (g : nat) : Z := match g with O => 10 | _ => 20 end.
Definition level_hi (g : nat) : Z := match g with O => 40 | _ => 70 end.
Lemma level_tidy0 : @tidy_ready demo_env 50 ex_level 10 40 0.
Proof. unfold tidy_ready. change (g_tiers (gob ex_level 0)) with [2; 1; 0]%nat. tidy_group level_blocks0. Qed.
Lemma level_tidy1 : @tidy_ready demo_env 50 ex_level 20 70 1.
Proof. unfold tidy_ready. change (g_tiers (gob ex_level 1)) with [5; 4; 3]%nat. tidy_group level_blocks1. Qed.
Lemma level_all g : In g (a_groups (aob ex_level 0)) -> @level_ready demo_env 50 ex_level (level_lo g) (level_hi g) g.
Proof.
  change (a_groups (aob ex_level 0)) with [0; 1]%nat. intros [<-|[<-|[]]].
  - split; [exact level_tidy0|]. change (g_tiers (gob ex_level 0)) with [2; 1; 0]%nat. split.
    + intros t [= <-]. intros (i & x & y & a & b & Hx & Hy & _). change (t_seq (tob ex_level 2)) with [17]%nat in Hy. destruct i; discriminate.
    + intros u Hu. members; (split; [left; reflexivity|reflexivity]).
  - split; [exact level_tidy1|]. change (g_tiers (gob ex_level 1)) with [5; 4; 3]%nat. split.
    + intros t [= <-]. intros (i & x & y & a & b & Hx & Hy & Ha & Hb & N). change (t_seq (tob ex_level 5)) with [51; 54]%nat in Hx, Hy.
      destruct i as [|i]; [|destruct i; discriminate]. injection Hx as <-. injection Hy as <-. vm_compute in Ha, Hb. injection Ha as <-. injection Hb as <-.
      apply N. vm_compute. discriminate.
    + intros u Hu. members; (split; [left; reflexivity|reflexivity]).
Qed.
Lemma level_apart : apart_groups ex_level (a_groups (aob ex_level 0)).
Proof. change (a_groups (aob ex_level 0)) with [0; 1]%nat. repeat split; apply nodup_by; vm_compute; reflexivity. Qed.
Lemma level_bounds : let gs := a_groups (aob ex_level 0) in
  least (fun z => exists g, In g gs /\ level_lo g = z) 10 /\ greatest (fun z => exists g, In g gs /\ level_lo g = z) 20 /\
  least (fun z => exists g, In g gs /\ level_hi g = z) 40 /\ greatest (fun z => exists g, In g gs /\ level_hi g = z) 70.
Proof.
  cbv zeta. change (a_groups (aob ex_level 0)) with [0; 1]%nat.
  split; [|split; [|split]]; (split; [|intros z (g & [<-|[<-|[]]] & <-); cbn; lia]); [exists 0%nat|exists 1%nat|exists 0%nat|exists 1%nat]; cbn; auto.
Qed.
Lemma level_uneven : ~ (@near demo_env 10 20 /\ @near demo_env 40 70).
Proof. intros [N _]. vm_compute in N. apply N. reflexivity. Qed.
