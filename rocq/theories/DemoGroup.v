(** * DemoGroup: unrelated tiers of words, syllables and phones, for the examples. *)
From Verif Require Export DemoGrid DemoClass GroupSpec.
Open Scope Z_scope.

(** Tier 0: four phones; tier 1: two words; tier 2: three syllables. *)
Definition ex_tiers : heap := Eval vm_compute in
  let E : Env := demo_env in
  run (new_itier (FromList [ERaw (Some 10) (Some 20) "a"; ERaw (Some 20) (Some 30) "b"; ERaw (Some 30) (Some 50) "c"; ERaw (Some 50) (Some 60) "d"]) (Some 13%nat) ;;;
       new_itier (FromList [ERaw (Some 10) (Some 30) "ab"; ERaw (Some 30) (Some 60) "cd"]) (Some 11%nat) ;;;
       new_itier (FromList [ERaw (Some 10) (Some 30) "1"; ERaw (Some 30) (Some 50) "2"; ERaw (Some 50) (Some 60) "3"]) (Some 12%nat)) ex_classes.
Definition ex_order : list nat := [1; 2; 0]%nat.
Definition ex_blocks : list (list (list nat)) := [[[26]; [29; 32]]; [[0; 3]; [6]; [9]]]%nat.
Lemma ex_tiers_shape : map t_seq (h_tier ex_tiers) = [[0; 3; 6; 9]; [16; 19]; [26; 29; 32]]%nat.
Proof. reflexivity. Qed.
Lemma ex_tier_chain : tier_chain ex_tiers ex_order.
Proof.
  split; [vm_compute; repeat split|]. split; [apply nodup_by; vm_compute; reflexivity|].
  split; [intros t Ht; members; finish|]. split; eexists; (split; [reflexivity|]); eexists; split; reflexivity.
Qed.
Lemma ex_classes_joined : classes_joined ex_tiers ex_order.
Proof. vm_compute. repeat split. Qed.
Lemma ex_fresh t : In t ex_order -> fresh_tier ex_tiers t.
Proof.
  intros Ht. members.
  all: split; [split; [apply nodup_by; vm_compute; reflexivity|intros x Hx; members; finish]|].
  all: split; [reflexivity|intros x Hx; members; finish].
Qed.
Lemma fills_by h u b s e : s_start (sob h u) = Some s -> s_end (sob h u) = Some e -> s < e -> tiles h s b e -> fills h u b.
Proof. intros. exists s, e. auto. Qed.
Lemma tiles_by h a x m l b : s_start (sob h x) = Some a -> s_end (sob h x) = Some m -> a < m -> tiles h m l b -> tiles h a (x :: l) b.
Proof. intros. simpl. exists m. auto. Qed.
Ltac tiled := repeat first [exact (eq_refl : tiles _ _ [] _) | eapply tiles_by; [vm_compute; reflexivity|vm_compute; reflexivity|lia|]].
Ltac filled := eapply fills_by; [vm_compute; reflexivity|vm_compute; reflexivity|lia|tiled].
Lemma ex_snug : snug ex_tiers ex_order ex_blocks.
Proof.
  split; [reflexivity|]. split; [repeat (constructor; [filled|]); constructor|].
  split; [reflexivity|]. split; [repeat (constructor; [filled|]); constructor|]. exact I.
Qed.
Lemma in_turn_two h x y e s : s_end (sob h x) = Some e -> s_start (sob h y) = Some s -> e <= s -> in_turn h [x; y].
Proof.
  intros A B C i j a b Hij Ha Hb. destruct i as [|[|i]]; destruct j as [|[|j]]; try lia; try discriminate.
  - injection Ha as <-. injection Hb as <-. eauto.
  - destruct j; discriminate.
  - destruct j; discriminate.
  - destruct i; discriminate.
Qed.
Lemma ex_turn t : hd_error ex_order = Some t -> in_turn ex_tiers (t_seq (tob ex_tiers t)).
Proof. intros [= <-]. change (t_seq (tob ex_tiers 1)) with [16; 19]%nat. eapply in_turn_two; [reflexivity|reflexivity|lia]. Qed.

(** The same, with intervals that do not fill those above. *)
Definition ex_loose : heap := Eval vm_compute in
  let E : Env := demo_env in
  run (new_itier (FromList [ERaw (Some 10) (Some 21) "a"; ERaw (Some 21) (Some 27) "b"; ERaw (Some 33) (Some 49) "c"; ERaw (Some 51) (Some 60) "d"]) (Some 13%nat) ;;;
       new_itier (FromList [ERaw (Some 10) (Some 30) "ab"; ERaw (Some 30) (Some 60) "cd"]) (Some 11%nat) ;;;
       new_itier (FromList [ERaw (Some 12) (Some 28) "1"; ERaw (Some 28) (Some 50) "2"; ERaw (Some 50) (Some 58) "3"]) (Some 12%nat)) ex_classes.
Lemma loose_chain : tier_chain ex_loose ex_order.
Proof.
  split; [vm_compute; repeat split|]. split; [apply nodup_by; vm_compute; reflexivity|].
  split; [intros t Ht; members; finish|]. split; eexists; (split; [reflexivity|]); eexists; split; reflexivity.
Qed.
Lemma loose_joined : classes_joined ex_loose ex_order.
Proof. vm_compute. repeat split. Qed.
Lemma loose_fresh t : In t ex_order -> fresh_tier ex_loose t.
Proof.
  intros Ht. members.
  all: split; [split; [apply nodup_by; vm_compute; reflexivity|intros x Hx; members; finish]|].
  all: split; [reflexivity|intros x Hx; members; finish].
Qed.
Definition best_b (U : list span) (q : span) (i : nat) : bool :=
  match nth_error U i with
  | None => false
  | Some p => forallb (fun jr => (shared (snd jr) q <=? shared p q) &&
      (negb (0 <? shared p q) || negb (fst jr <? i)%nat || (shared (snd jr) q <? shared p q)) &&
      (negb (shared p q =? 0) || (apart_by p q <=? apart_by (snd jr) q))) (combine (seq 0 (List.length U)) U)
  end.
Lemma in_numbered {A} (l : list A) j r : nth_error l j = Some r -> forall k, In ((k + j)%nat, r) (combine (seq k (List.length l)) l).
Proof.
  revert j. induction l as [|a l IH]; intros j Hj k; [destruct j; discriminate|]. destruct j as [|j]; simpl in *.
  - left. injection Hj as ->. f_equal. lia.
  - right. replace (k + S j)%nat with (S k + j)%nat by lia. apply IH. exact Hj.
Qed.
Lemma best_by U q i : best_b U q i = true -> best U q i.
Proof.
  unfold best_b, best. destruct (nth_error U i) as [p|]; [|discriminate]. intros F. exists p. split; [reflexivity|].
  intros j r Hr. rewrite forallb_forall in F. specialize (F _ (in_numbered U j r Hr 0)). simpl in F.
  apply andb_prop in F. destruct F as [F C]. apply andb_prop in F. destruct F as [A B].
  apply Z.leb_le in A. split; [exact A|]. split.
  - intros Hp Hj. apply Z.ltb_lt in Hp. apply Nat.ltb_lt in Hj. rewrite Hp, Hj in B. simpl in B. apply Z.ltb_lt. exact B.
  - intros Hz. apply Z.eqb_eq in Hz. rewrite Hz in C. simpl in C. apply Z.leb_le. exact C.
Qed.
Lemma parted_by h U bs : (forall u, In u U -> dated h u) -> List.length bs = List.length U ->
  (forall b, In b bs -> b <> [] /\ exists a e, tiles h a b e) ->
  forallb (fun p => match p with (i, (u, b)) => forallb (fun y => best_b (map (span_of h) U) (span_of h y) i && (0 <? shared (span_of h u) (span_of h y))) b end)
    (combine (seq 0 (List.length (combine U bs))) (combine U bs)) = true -> parted h U bs.
Proof.
  intros A B C D. split; [exact A|]. split; [exact B|]. split; [exact C|]. intros i u b y Hu Hb Hy.
  assert (G : forall (U : list oid) (bs : list (list oid)) i, nth_error U i = Some u -> nth_error bs i = Some b -> nth_error (combine U bs) i = Some (u, b)).
  { clear. induction U as [|u' U IH]; intros [|b' bs] [|i]; simpl; try discriminate; intros H1 H2; [congruence|auto]. }
  rewrite forallb_forall in D. specialize (D _ (in_numbered _ i (u, b) (G U bs i Hu Hb) 0)). simpl in D.
  rewrite forallb_forall in D. specialize (D y Hy). apply andb_prop in D. destruct D as [D1 D2].
  split; [apply best_by; exact D1|apply Z.ltb_lt; exact D2].
Qed.
Ltac parts := apply parted_by;
  [ intros u Hu; members; finish
  | reflexivity
  | intros b Hb; members; (split; [discriminate|eexists; eexists; tiled])
  | vm_compute; reflexivity ].
Lemma loose_cut : cut_up ex_loose ex_order ex_blocks.
Proof. split; [reflexivity|]. split; [parts|]. split; [reflexivity|]. split; [parts|]. exact I. Qed.

(** Tiers without gaps whose boundaries do not match. *)
Definition ex_skew : heap := Eval vm_compute in
  let E : Env := demo_env in
  run (new_itier (FromList [ERaw (Some 9) (Some 20) "a"; ERaw (Some 20) (Some 27) "b"; ERaw (Some 27) (Some 50) "c"; ERaw (Some 50) (Some 71) "d"]) (Some 13%nat) ;;;
       new_itier (FromList [ERaw (Some 10) (Some 30) "ab"; ERaw (Some 30) (Some 60) "cd"]) (Some 11%nat) ;;;
       new_itier (FromList [ERaw (Some 8) (Some 28) "1"; ERaw (Some 28) (Some 52) "2"; ERaw (Some 52) (Some 70) "3"]) (Some 12%nat)) ex_classes.
Lemma skew_chain : tier_chain ex_skew ex_order.
Proof.
  split; [vm_compute; repeat split|]. split; [apply nodup_by; vm_compute; reflexivity|].
  split; [intros t Ht; members; finish|]. split; eexists; (split; [reflexivity|]); eexists; split; reflexivity.
Qed.
Lemma skew_joined : classes_joined ex_skew ex_order.
Proof. vm_compute. repeat split. Qed.
Lemma skew_fresh t : In t ex_order -> fresh_tier ex_skew t /\ t_seq (tob ex_skew t) <> [].
Proof.
  intros Ht. split; [|members; vm_compute; discriminate]. members.
  all: split; [split; [apply nodup_by; vm_compute; reflexivity|intros x Hx; members; finish]|].
  all: split; [reflexivity|intros x Hx; members; finish].
Qed.
Lemma in_turn_three h x y z a b c d : s_end (sob h x) = Some a -> s_start (sob h y) = Some b -> s_end (sob h y) = Some c -> s_start (sob h z) = Some d ->
  a <= b -> b <= c -> c <= d -> in_turn h [x; y; z].
Proof.
  intros A B C D L1 L2 L3 i j p q Hij Hp Hq. destruct i as [|[|[|i]]]; destruct j as [|[|[|j]]]; try lia; simpl in Hp, Hq;
    try (destruct j; discriminate); try (destruct i; discriminate).
  all: injection Hp as <-; injection Hq as <-; eexists; eexists; split; [eassumption|split; [eassumption|lia]].
Qed.
Lemma best_from (U : list span) (l : list oid) (f : oid -> span) n :
  forallb (fun i => existsb (fun y => best_b U (f y) i) l) (seq 0 n) = true ->
  forall i, (i < n)%nat -> exists y, In y l /\ best U (f y) i.
Proof.
  intros F i Hi. rewrite forallb_forall in F. specialize (F i). rewrite in_seq in F. specialize (F ltac:(lia)).
  apply existsb_exists in F. destruct F as (y & Hy & B). exists y. split; [exact Hy|apply best_by; exact B].
Qed.
Lemma overlap_from (h : heap) U l :
  forallb (fun y => existsb (fun u => 0 <? shared (span_of h u) (span_of h y)) U) l = true ->
  forall y, In y l -> exists u, In u U /\ 0 < shared (span_of h u) (span_of h y).
Proof.
  intros F y Hy. rewrite forallb_forall in F. specialize (F y Hy). apply existsb_exists in F. destruct F as (u & Hu & B).
  exists u. split; [exact Hu|apply Z.ltb_lt; exact B].
Qed.
Lemma skew_meeting k t u : nth_error ex_order k = Some t -> nth_error ex_order (S k) = Some u ->
  meeting ex_skew (t_seq (tob ex_skew t)) (t_seq (tob ex_skew u)).
Proof.
  intros Ht Hu. destruct k as [|[|k]]; [injection Ht as <-; injection Hu as <-..|simpl in Hu; destruct k; discriminate].
  - change (t_seq (tob ex_skew 1)) with [16; 19]%nat. change (t_seq (tob ex_skew 2)) with [26; 29; 32]%nat.
    split; [eapply in_turn_two; [reflexivity|reflexivity|lia]|]. split; [intros x Hx; members; finish|].
    split; [eexists; eexists; tiled|]. split; [apply overlap_from; vm_compute; reflexivity|]. apply best_from. vm_compute. reflexivity.
  - change (t_seq (tob ex_skew 0)) with [0; 3; 6; 9]%nat. change (t_seq (tob ex_skew 2)) with [26; 29; 32]%nat.
    split; [eapply in_turn_three; [reflexivity|reflexivity|reflexivity|reflexivity|lia|lia|lia]|]. split; [intros x Hx; members; finish|].
    split; [eexists; eexists; tiled|]. split; [apply overlap_from; vm_compute; reflexivity|]. apply best_from. vm_compute. reflexivity.
Qed.
