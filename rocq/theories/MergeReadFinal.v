(** * MergeReadFinal: fusing the intervals of a grid that was read (C74). *)
From Verif Require Export MergeGridFinal RevReadFinal.
From Verif Require Import OwnFinal ReadClasses ReadFinal ReadSpec MergeSpec ReviseSpec.
Open Scope Z_scope.

(** ** The names of the groups do not matter *)
Lemma on_nth_nth {A} (f : A -> A) : forall i l, nth_error (on_nth i f l) i = option_map f (nth_error l i).
Proof. induction i as [|i IH]; intros [|x l]; try reflexivity. cbn. apply IH. Qed.
Lemma on_nth_map {A B} (p : A -> B) (f : A -> A) (k : B -> B) : (forall x, p (f x) = k (p x)) -> forall i l, map p (on_nth i f l) = on_nth i k (map p l).
Proof. intros E. induction i as [|i IH]; intros [|x l]; try reflexivity; cbn; [rewrite E; reflexivity|rewrite IH; reflexivity]. Qed.
Lemma fuse_unnamed f v v' : map snd v = map snd v' -> map snd (fuse_view f v) = map snd (fuse_view f v').
Proof.
  intros E. unfold fuse_view. rewrite !(on_nth_map snd _ (on_last (fun s : strip => (fst s, merge_at (fu_jn f) (fu_at f) (snd s))))) by reflexivity. rewrite E. reflexivity.
Qed.
Lemma fuses_unnamed fs : forall v v', map snd v = map snd v' -> map snd (fold_left (fun v f => fuse_view f v) fs v) = map snd (fold_left (fun v f => fuse_view f v) fs v').
Proof. induction fs as [|f fs IH]; intros v v' E; [exact E|]. cbn. apply IH, fuse_unnamed, E. Qed.
Lemma can_unnamed names f v v' : map snd v = map snd v' -> can_fuse names v f -> can_fuse names v' f.
Proof.
  intros E (nm & ss & up & low & x & y & N & Q). assert (N' : nth_error (map snd v') (fu_group f) = Some (ss ++ [up; low])%list) by (rewrite <- E, nth_error_map, N; reflexivity).
  rewrite nth_error_map in N'. destruct (nth_error v' (fu_group f)) as [[nm' l]|] eqn:Nv; [|discriminate]. cbn in N'. injection N' as ->. exists nm', ss, up, low, x, y. auto.
Qed.
Lemma can_all_unnamed names fs : forall v v', map snd v = map snd v' -> can_fuse_all names v fs -> can_fuse_all names v' fs.
Proof. induction fs as [|f fs IH]; intros v v' E; [auto|]. intros [A B]. split; [apply (can_unnamed _ _ v v' E A)|]. apply (IH (fuse_view f v)); [apply fuse_unnamed, E|exact B]. Qed.

Section WithEnv.
Context `{Env}.

Lemma read_lodged lo hi f h h' rows css a cs : grid_read lo hi f h h' rows css a -> all_lodged h' a cs.
Proof.
  intros (_ & _ & R & _) g Hg _ k x Hk Hx. assert (Ik : In k (g_tiers (gob h' g))) by (apply in_rev; destruct (rev (g_tiers (gob h' g))); [discriminate|injection Hk as ->; simpl; auto]).
  destruct (rows_each _ _ _ _ _ _ _ _ R g Hg) as (_ & row & ocs & I & [[_ Rp]|[_ Rg]]).
  - destruct Rp as (_ & _ & _ & Fp). destruct (F2_in _ _ _ k Fp Ik) as (p & Hp & _ & _ & _ & _ & _ & _ & _ & X). apply (X x Hx).
  - destruct Rg as (cs2 & rs & t & b & _ & _ & _ & _ & Fr & _). destruct (F2_in _ _ _ k Fr Ik) as (r & _ & (_ & _ & (_ & Ho) & _)). apply Ho, Hx.
Qed.
Lemma c74_read : forall (n : nat) (h : heap) (rows : list (list rawtier)) (css : list (list cid)) (rest : list rawtier) (lo hi : Z) (cs : list cid) (others : list string),
  ends_named h -> Forall2 (readable h lo hi) rows css -> names_apart h (concat css) -> some_intervals h rows css -> gapless (concat rows) ->
  one_hierarchy h rows css cs others ->
  exists f a h' t b, new_grid_textgrid n (concat rows ++ rest) (Nested css) h = Ok a h' /\
    working h' a t (map f cs) b others /\ all_lodged h' a (map f cs) /\ map (class_name h') (map f cs) = map (class_name h) cs /\
    forall fs, can_fuse_all (map (class_name h) cs) (grid_view h' a) fs ->
      exists h'', make_fusions a fs h' = Ok tt h'' /\ working h'' a t (map f cs) b others /\
        grid_view h'' a = fold_left (fun v f => fuse_view f v) fs (grid_view h' a).
Proof.
  intros n h rows css rest lo hi cs others En F Na Si Gp One. destruct (c72_read n h rows css rest lo hi cs others En F Na Si Gp One) as (f & a & h' & t & b & E & G & W & Nm).
  pose proof (read_lodged _ _ _ _ _ _ _ _ (map f cs) G) as Lo. exists f, a, h', t, b. split; [exact E|]. split; [exact W|]. split; [exact Lo|]. split; [exact Nm|].
  intros fs Can. rewrite <- Nm in Can. destruct (c74_run fs h' a t (map f cs) b others W Lo Can) as (h'' & E2 & W2 & _ & V & _). eauto.
Qed.
Lemma c74_trip : forall (n : nat) (h : heap) (rows : list (list rawtier)) (css : list (list cid)) (rest : list rawtier) (lo hi : Z) (cs : list cid),
  ends_named h -> Forall2 (readable h lo hi) rows css -> rows <> [] -> gapless (concat rows) ->
  (exists t b, class_chain h t cs b) -> (forall ocs, In ocs css -> Permutation ocs cs) -> names_apart h cs -> (forall c, In c cs -> class_name h c <> ""%string) ->
  exists a h' rss, new_grid_textgrid n (concat rows ++ rest) (Nested css) h = Ok a h' /\
    Forall2 (fun rc rs => List.length rs = List.length cs /\ Permutation (combine (fst rc) (snd rc)) (combine rs cs)) (combine rows css) rss /\
    let view := map (fun rs => (None, map (raw_strip h) (combine rs cs))) rss in
    forall fs, can_fuse_all (map (class_name h) cs) view fs ->
      exists h'', make_fusions a fs h' = Ok tt h'' /\
        let out := flat_map snd (fold_left (fun v f => fuse_view f v) fs view) in
        map snd (return_textgrid h'' a) = map snd out /\
        (NoDup (map (fun v : strip => snd (fst v)) out) -> return_textgrid h'' a = map (fun v : strip => (snd (fst v), snd v)) out).
Proof.
  intros n h rows css rest lo hi cs En F Nr Gp Ch Pc Na Nn. pose proof En as (T & _).
  assert (Kc : forall c, In c cs -> issubclass h c cInterval = true) by (destruct Ch as (t & b & (_ & _ & _ & _ & K & _)); exact K).
  assert (Ko : forall ocs, In ocs css -> forall c, In c ocs -> issubclass h c cInterval = true) by (intros ocs Ho c Hc; apply Kc, (Permutation_in _ (Pc ocs Ho) Hc)).
  assert (Ne : cs <> []) by (destruct Ch as (t & b & (_ & Q & _)); exact Q).
  assert (Each : forall row ocs, In (row, ocs) (combine rows css) -> interval_part h row ocs = combine row ocs /\ List.length row = List.length ocs /\ Permutation ocs cs /\ point_part h row ocs = []).
  { intros row ocs I. pose proof (in_combine_r _ _ _ _ I) as Io. split; [apply all_intervals, (Ko ocs Io)|]. split; [|split; [auto|apply no_points; [exact T|exact (Ko ocs Io)]]].
    clear -F I. induction F as [|r o rows css (L & _) F IH]; [destruct I|]. destruct I as [I|I]; [injection I as -> ->; exact L|auto]. }
  assert (Si : some_intervals h rows css).
  { destruct F as [|row ocs rows css Q F]; [congruence|]. exists row, ocs. split; [left; reflexivity|]. destruct (Each row ocs (or_introl eq_refl)) as (-> & L & P & _). intros Z.
    destruct row, ocs; try discriminate. apply Permutation_nil in P. congruence. }
  destruct (c72_read n h rows css rest lo hi cs [] En F) as (f & a & h' & t & b & E & G & W & Nm); [|exact Si|exact Gp| |].
  { intros c d Hc Hd. apply in_concat in Hc, Hd. destruct Hc as (l & Hl & Hc), Hd as (l2 & Hl2 & Hd). apply Na; [apply (Permutation_in _ (Pc l Hl) Hc)|apply (Permutation_in _ (Pc l2 Hl2) Hd)]. }
  { split; [exact Ch|]. split; [exact Nn|]. intros row ocs I. destruct (Each row ocs I) as (-> & L & P & ->). split; [right; rewrite map_snd_combine by exact L; exact P|]. intros p []. }
  pose proof (read_lodged _ _ _ _ _ _ _ _ (map f cs) G) as Lo. pose proof G as (_ & _ & R & _ & _ & Cl & _). pose proof W as (T' & _).
  destruct (view_rows lo hi f h h' cs T T' Ch Kc rows css _ R F Pc Cl) as (rss & F2 & Ev). exists a, h', rss. split; [exact E|]. split; [exact F2|]. intros view fs Can. rewrite <- Nm in Can.
  assert (Sv : map snd view = map snd (grid_view h' a)) by (unfold view, grid_view, group_view; rewrite !map_map; cbn [snd]; symmetry; exact Ev).
  apply (can_all_unnamed _ fs _ _ Sv) in Can. destruct (c74_run fs h' a t (map f cs) b [] W Lo Can) as (h'' & Ee & _). exists h''. split; [exact Ee|].
  pose proof (c74_written fs h' a t (map f cs) b [] h'' W Lo Can Ee) as Q. cbv zeta in Q. rewrite flat_map_concat_map, <- (fuses_unnamed fs _ _ Sv), <- flat_map_concat_map in Q. exact Q.
Qed.
End WithEnv.
