(** * ReviseFinal: any number of changes to the hierarchy of a grid (C72). *)
From Verif Require Export WeaveFinal ReviseSpec.
From Verif Require TripFinal OutputFinal.
Open Scope Z_scope.

(** ** Lists *)
Lemma nodup_parts {A B} (f : A -> list B) : forall l, NoDup l -> (forall x, In x l -> NoDup (f x)) ->
  (forall x y z, In x l -> In y l -> In z (f x) -> In z (f y) -> x = y) -> NoDup (flat_map f l).
Proof.
  induction l as [|x l IH]; intros N P D; [constructor|]. apply NoDup_cons in N. destruct N as [Nx N]. rewrite elem_of_list_In in Nx. cbn [flat_map].
  apply NoDup_app. split; [apply P; simpl; auto|]. split.
  - intros z Hz Q. rewrite elem_of_list_In in Hz, Q. apply in_flat_map in Q. destruct Q as (y & Hy & Q). apply Nx. rewrite (D x y z); simpl; auto.
  - apply IH; auto; [intros y Hy; apply P; simpl; auto|]. intros y y' z Hy Hy'. apply D; simpl; auto.
Qed.
Lemma parts_nodup {A B} (f : A -> list B) : forall l, NoDup (flat_map f l) ->
  (forall x, In x l -> NoDup (f x)) /\ (forall i j x y z, nth_error l i = Some x -> nth_error l j = Some y -> In z (f x) -> In z (f y) -> i = j).
Proof.
  induction l as [|a l IH]; intros N; [split; [intros x []|intros [|i]; discriminate]|]. cbn [flat_map] in N. apply NoDup_app in N. destruct N as (N1 & N2 & N3).
  destruct (IH N3) as [I1 I2]. split; [intros x [<-|Hx]; auto|].
  assert (Out : forall i y z, nth_error l i = Some y -> In z (f a) -> In z (f y) -> False).
  { intros i y z Hy Hz Hz'. apply (N2 z); apply elem_of_list_In; [exact Hz|]. apply in_flat_map. exists y. split; [eapply nth_error_In; eauto|exact Hz']. }
  intros [|i] [|j] x y z; cbn [nth_error]; intros Hx Hy Hz Hz'; auto.
  - injection Hx as <-. exfalso. eauto.
  - injection Hy as <-. exfalso. eauto.
  - f_equal. eauto.
Qed.
Lemma parts_apart {A B} (f : A -> list B) l : NoDup (flat_map f l) -> forall x y z, In x l -> In y l -> In z (f x) -> In z (f y) -> x = y.
Proof.
  intros N x y z Hx Hy Hz Hz'. apply In_nth_error in Hx. apply In_nth_error in Hy. destruct Hx as [i Hi], Hy as [j Hj].
  assert (i = j) by (eapply (proj2 (parts_nodup f l N)); eauto). subst. congruence.
Qed.
Lemma Forall2_same_l {A B} (R : A -> B -> Prop) l l' : Forall2 R l l' -> NoDup l ->
  forall y y', In y l' -> In y' l' -> exists x x', In x l /\ In x' l /\ R x y /\ R x' y' /\ (x = x' -> y = y').
Proof.
  intros F N y y' Hy Hy'. apply In_nth_error in Hy. apply In_nth_error in Hy'. destruct Hy as [i Hi], Hy' as [j Hj].
  destruct (TierFinal.Forall2_nth _ _ _ _ _ F Hi) as (x & Hx & Rx). destruct (TierFinal.Forall2_nth _ _ _ _ _ F Hj) as (x' & Hx' & Rx').
  exists x, x'. split; [eapply nth_error_In; eauto|]. split; [eapply nth_error_In; eauto|]. split; [exact Rx|]. split; [exact Rx'|]. intros ->.
  apply NoDup_ListNoDup in N. assert (i = j); [|subst; congruence].
  apply (proj1 (NoDup_nth_error l) N); [apply nth_error_Some; congruence|congruence].
Qed.
Lemma Forall2_map_eq {A B C} (f : A -> C) (g : B -> C) l l' : Forall2 (fun x y => g y = f x) l l' -> map g l' = map f l.
Proof. induction 1; cbn; congruence. Qed.

(** ** Groups apart from each other *)
Lemma apart_made h gs : NoDup gs -> (forall g, In g gs -> NoDup (tiers_in h g)) ->
  (forall g g' k, In g gs -> In g' gs -> In k (tiers_in h g) -> In k (tiers_in h g') -> g = g') ->
  (forall g k, In g gs -> In k (tiers_in h g) -> NoDup (entries_in h k)) ->
  (forall g g' k k' x, In g gs -> In g' gs -> In k (tiers_in h g) -> In k' (tiers_in h g') -> In x (entries_in h k) -> In x (entries_in h k') -> k = k') ->
  apart_groups h gs.
Proof.
  intros N N1 D1 N2 D2. split; [exact N|]. split; [apply nodup_parts; auto|]. apply nodup_parts.
  - apply nodup_parts; auto.
  - intros k Hk. apply in_flat_map in Hk. destruct Hk as (g & Hg & Hk). eauto.
  - intros k k' x Hk Hk'. apply in_flat_map in Hk. apply in_flat_map in Hk'. destruct Hk as (g & Hg & Hk), Hk' as (g' & Hg' & Hk'). eauto.
Qed.
Lemma apart_read h gs : apart_groups h gs -> NoDup gs /\ (forall g, In g gs -> NoDup (tiers_in h g)) /\
  (forall g g' k, In g gs -> In g' gs -> In k (tiers_in h g) -> In k (tiers_in h g') -> g = g') /\
  (forall g k, In g gs -> In k (tiers_in h g) -> NoDup (entries_in h k)) /\
  (forall g g' k k' x, In g gs -> In g' gs -> In k (tiers_in h g) -> In k' (tiers_in h g') -> In x (entries_in h k) -> In x (entries_in h k') -> k = k').
Proof.
  intros (N & N1 & N2). split; [exact N|]. split; [apply (parts_nodup _ _ N1)|]. split; [apply (parts_apart _ _ N1)|]. split.
  - intros g k Hg Hk. apply (parts_nodup _ _ N2). apply in_flat_map. eauto.
  - intros g g' k k' x Hg Hg' Hk Hk'. apply (parts_apart _ _ N2); apply in_flat_map; eauto.
Qed.

(** ** Strips *)
Lemma last_shift {A} : forall (l : list A) x d, List.last (x :: l) d = List.last l x.
Proof. induction l as [|y l IH]; intros x d; [reflexivity|]. change (List.last (y :: l) d = List.last (y :: l) x). rewrite !IH. reflexivity. Qed.
Lemma strip_absent nm nm2 above fb labels : forall l up, (forall v, In v l -> fst (fst v) <> nm2) -> add_strip nm nm2 above fb labels up l = l.
Proof.
  induction l as [|v l IH]; intros up H; [reflexivity|]. cbn [add_strip]. rewrite (proj2 (String.eqb_neq _ _)) by (apply H; simpl; auto). f_equal. apply IH. intros w Hw. apply H. simpl; auto.
Qed.
Lemma strip_above nm nm2 (fb : bool) labels (v : strip) (r : list strip) : fst (fst v) = nm2 -> forall l up src, (forall w, In w l -> fst (fst w) <> nm2) ->
  (if fb then Some v else List.last (map Some l) up) = Some src ->
  add_strip nm nm2 true fb labels up (l ++ v :: r) = (l ++ copy_strip labels nm src :: v :: r)%list.
Proof.
  intros E. induction l as [|w l IH]; intros up src H Hs.
  - cbn [app add_strip]. rewrite (proj2 (String.eqb_eq _ _)) by exact E. cbn in Hs. destruct fb; [injection Hs as <-|rewrite Hs]; reflexivity.
  - cbn [app add_strip]. rewrite (proj2 (String.eqb_neq _ _)) by (apply H; simpl; auto). f_equal. apply IH; [intros x Hx; apply H; simpl; auto|].
    destruct fb; [exact Hs|]. rewrite <- Hs. cbn [map]. symmetry. apply last_shift.
Qed.
Lemma strip_below nm nm2 (fb : bool) labels (v : strip) (r : list strip) : fst (fst v) = nm2 -> forall l up src, (forall w, In w l -> fst (fst w) <> nm2) ->
  (if fb then hd_error r else Some v) = Some src ->
  add_strip nm nm2 false fb labels up (l ++ v :: r) = (l ++ v :: copy_strip labels nm src :: r)%list.
Proof.
  intros E. induction l as [|w l IH]; intros up src H Hs.
  - cbn [app add_strip]. rewrite (proj2 (String.eqb_eq _ _)) by exact E. destruct fb; [change (@hd_error strip r = Some src) in Hs|]; unfold strip in *; rewrite Hs; reflexivity.
  - cbn [app add_strip]. rewrite (proj2 (String.eqb_neq _ _)) by (apply H; simpl; auto). f_equal. apply IH; auto. intros x Hx; apply H; simpl; auto.
Qed.
Lemma name_put nm nm2 (above : bool) r : forall l, ~ In nm2 l -> add_name nm nm2 above (l ++ nm2 :: r) = (if above then l ++ nm :: nm2 :: r else l ++ nm2 :: nm :: r)%list.
Proof.
  induction l as [|x l IH]; intros H; cbn [app add_name].
  - rewrite String.eqb_refl. destruct above; reflexivity.
  - rewrite (proj2 (String.eqb_neq _ _)) by (intros ->; apply H; simpl; auto). rewrite IH by (intros Q; apply H; simpl; auto). destruct above; reflexivity.
Qed.

(** ** The kinds of classes *)
Lemma subs_grow h h' : wf h -> wf h' -> (List.length (h_cls h) <= List.length (h_cls h'))%nat ->
  (forall k, (k < List.length (h_cls h))%nat -> c_base (cob h' k) = c_base (cob h k)) -> forall x y, clive h x -> issubclass h' x y = issubclass h x y.
Proof.
  intros W W' L B x. induction x as [x IH] using lt_wf_ind. intros y Hx. rewrite (sub_step h), (sub_step h') by (auto; unfold clive in *; lia).
  rewrite B by exact Hx. f_equal. destruct (c_base (cob h x)) as [p|] eqn:E; [|reflexivity]. apply W in E. apply IH; [exact E|]. unfold clive in *. lia.
Qed.
Lemma praatio_kept h h' x : issubclass h' (s_cls (sob h x)) cPoint = issubclass h (s_cls (sob h x)) cPoint -> s_cls (sob h' x) = s_cls (sob h x) ->
  s_start (sob h' x) = s_start (sob h x) -> s_end (sob h' x) = s_end (sob h x) -> s_label (sob h' x) = s_label (sob h x) -> praatio h' x = praatio h x.
Proof. intros K C S E L. unfold praatio, is_point_cls. rewrite C, S, E, L, K. reflexivity. Qed.

(** ** The view of one group *)
Lemma map_uniq {A B} (f : A -> B) l x y : NoDup (map f l) -> In x l -> In y l -> f x = f y -> x = y.
Proof.
  intros N Hx Hy E. apply In_nth_error in Hx. apply In_nth_error in Hy. destruct Hx as [i Hi], Hy as [j Hj]. apply NoDup_ListNoDup in N.
  assert (i = j); [|subst; congruence]. apply (proj1 (NoDup_nth_error (map f l)) N).
  - rewrite map_length. apply nth_error_Some. congruence.
  - rewrite !nth_error_map, Hi, Hj. cbn. congruence.
Qed.
Lemma view_add h ts1 ts2 sp cp nm nm2 (above fb labels : bool) ct : NoDup (map (fun k => class_name h (t_ec (tob h k))) (ts1 ++ ts2)) -> class_name h sp = nm2 ->
  (if above then hd_error (map (fun k => t_ec (tob h k)) ts2) else hd_error (rev (map (fun k => t_ec (tob h k)) ts1))) = Some sp ->
  (if fb then hd_error (map (fun k => t_ec (tob h k)) ts2) else hd_error (rev (map (fun k => t_ec (tob h k)) ts1))) = Some cp ->
  In ct (ts1 ++ ts2) -> t_ec (tob h ct) = cp ->
  add_strip nm nm2 above fb labels None (map (tier_view h) (ts1 ++ ts2)) = (map (tier_view h) ts1 ++ copy_strip labels nm (tier_view h ct) :: map (tier_view h) ts2)%list.
Proof.
  intros N Esp Hsp Hcp Ict Ect. set (ec := fun k => t_ec (tob h k)) in *.
  assert (U : forall k k', In k (ts1 ++ ts2) -> In k' (ts1 ++ ts2) -> class_name h (ec k) = class_name h (ec k') -> k = k') by (intros; eapply map_uniq; eauto).
  assert (Src : forall k, In k (ts1 ++ ts2) -> ec k = cp -> k = ct) by (intros k Hk Q; apply U; auto; unfold ec in *; congruence).
  assert (Tl : forall z l, ts1 = (l ++ [z])%list -> hd_error (rev (map ec ts1)) = Some (ec z)) by (intros z l ->; rewrite map_app, rev_app_distr; reflexivity).
  assert (Nd : NoDup (ts1 ++ ts2)) by (apply NoDup_ListNoDup; apply NoDup_ListNoDup in N; eapply NoDup_map_inv; exact N).
  destruct above.
  - destruct ts2 as [|k2 r2]; [discriminate|]. cbn [map hd_error] in Hsp. injection Hsp as Hk2. rewrite map_app. cbn [map]. rewrite (strip_above nm nm2 fb labels (tier_view h k2) (map (tier_view h) r2)) with (src := tier_view h ct).
    + reflexivity.
    + cbn. unfold ec in Hk2. rewrite Hk2. exact Esp.
    + intros w Hw. apply in_map_iff in Hw. destruct Hw as (k & <- & Hk). cbn. intros Q. assert (k = k2); [|subst k].
      { apply U; [apply in_app_iff; auto|apply in_app_iff; simpl; auto|]. unfold ec in *. congruence. }
      apply NoDup_app in Nd. destruct Nd as (_ & Nd & _). apply (Nd k2); apply elem_of_list_In; simpl; auto.
    + destruct fb.
      * cbn [map hd_error] in Hcp. injection Hcp as Hcp. do 2 f_equal. apply Src; [apply in_app_iff; simpl; auto|exact Hcp].
      * destruct ts1 as [|z l _] using rev_ind; [discriminate|]. rewrite (Tl z l eq_refl) in Hcp. injection Hcp as Hcp.
        rewrite !map_app. cbn [map]. rewrite List.last_last. do 2 f_equal. apply Src; [|exact Hcp]. apply in_app_iff. left. apply in_app_iff. simpl; auto.
  - destruct ts1 as [|z l _] using rev_ind; [discriminate|]. rewrite (Tl z l eq_refl) in Hsp, Hcp. injection Hsp as Hz. rewrite <- app_assoc in *. cbn [app] in *. rewrite !map_app. cbn [map]. rewrite <- app_assoc. cbn [app].
    rewrite (strip_below nm nm2 fb labels (tier_view h z) (map (tier_view h) ts2)) with (src := tier_view h ct).
    + reflexivity.
    + cbn. unfold ec in Hz. rewrite Hz. exact Esp.
    + intros w Hw. apply in_map_iff in Hw. destruct Hw as (k & <- & Hk). cbn. intros Q. assert (k = z); [|subst k].
      { apply U; [apply in_app_iff; auto|apply in_app_iff; simpl; auto|]. unfold ec in *. congruence. }
      apply NoDup_app in Nd. destruct Nd as (_ & Nd & _). apply (Nd z); [apply elem_of_list_In; exact Hk|left].
    + destruct fb.
      * destruct ts2 as [|k2 r2]; [discriminate|]. cbn [map hd_error] in Hcp |- *. injection Hcp as Hcp. f_equal. f_equal. apply Src; [apply in_app_iff; simpl; auto|exact Hcp].
      * injection Hcp as Hcp. do 2 f_equal. apply Src; [apply in_app_iff; simpl; auto|exact Hcp].
Qed.
Lemma view_kept h h' k : t_seq (tob h' k) = t_seq (tob h k) -> t_ec (tob h' k) = t_ec (tob h k) -> t_name (tob h' k) = t_name (tob h k) ->
  class_name h' (t_ec (tob h k)) = class_name h (t_ec (tob h k)) -> (forall x, In x (t_seq (tob h k)) -> praatio h' x = praatio h x) -> tier_view h' k = tier_view h k.
Proof. intros A B C D E. unfold tier_view. rewrite A, B, C, D. f_equal. apply map_ext_in. exact E. Qed.
Lemma within_live h g w : g_within (gob h g) = Some w -> (g < List.length (h_grp h))%nat.
Proof.
  intros E. destruct (le_lt_dec (List.length (h_grp h)) g) as [Q|Q]; [|exact Q]. exfalso. unfold gob in E. rewrite lookup_ge_None_2 in E by exact Q. discriminate.
Qed.

Section WithEnv.
Context `{Env}.
Opaque issubclass.

(** ** Adding a class *)
Lemma place_of h cs nm nm2 (above fb labels : bool) others : NoDup (map (class_name h) cs) -> allowed others (map (class_name h) cs) (Add nm nm2 above fb labels) ->
  exists cs1 cs2 sp cp, cs = (cs1 ++ cs2)%list /\ class_name h sp = nm2 /\ (if above then hd_error cs2 else hd_error (rev cs1)) = Some sp /\
    (if fb then hd_error cs2 else hd_error (rev cs1)) = Some cp /\
    add_name nm nm2 above (map (class_name h) cs) = (map (class_name h) cs1 ++ nm :: map (class_name h) cs2)%list.
Proof.
  intros N (_ & _ & _ & _ & I2 & U & D). apply in_map_iff in I2. destruct I2 as (sp & Esp & I2). apply in_split in I2. destruct I2 as (p & q & ->).
  assert (Np : ~ In nm2 (map (class_name h) p)).
  { intros Q. rewrite map_app in N. apply NoDup_app in N. destruct N as (_ & N & _). apply (N nm2); apply elem_of_list_In; [exact Q|]. cbn [map]. left. exact Esp. }
  destruct above.
  - assert (Hc : exists cp, (if fb then Some sp else hd_error (rev p)) = Some cp).
    { destruct fb; [eauto|]. destruct p as [|z l _] using rev_ind; [exfalso; apply U; auto; cbn; rewrite Esp; reflexivity|]. rewrite rev_app_distr. cbn. eauto. }
    destruct Hc as (cp & Hc). exists p, (sp :: q), sp, cp. split; [reflexivity|]. split; [exact Esp|]. split; [reflexivity|]. split; [exact Hc|].
    rewrite map_app. cbn [map]. rewrite Esp. apply (name_put nm nm2 true). exact Np.
  - assert (Hc : exists cp, (if fb then hd_error q else Some sp) = Some cp).
    { destruct fb; [|eauto]. destruct q as [|z l]; [exfalso; apply D; auto; rewrite map_app, rev_app_distr; cbn; rewrite Esp; reflexivity|]. cbn. eauto. }
    destruct Hc as (cp & Hc). exists (p ++ [sp])%list, q, sp, cp. rewrite <- app_assoc. split; [reflexivity|]. split; [exact Esp|]. rewrite rev_app_distr. split; [reflexivity|]. split; [exact Hc|].
    rewrite !map_app, <- app_assoc. cbn [map app]. rewrite Esp. apply (name_put nm nm2 false). exact Np.
Qed.

Lemma add_step n h a t cs b others nm nm2 (above fb labels : bool) : working h a t cs b others -> allowed others (map (class_name h) cs) (Add nm nm2 above fb labels) ->
  exists cs1 c cs2 h', cs = (cs1 ++ cs2)%list /\ interleave_class n a nm above nm2 fb labels h = Ok tt h' /\ class_name h' c = nm /\
    map (class_name h') (cs1 ++ c :: cs2) = edit_names (Add nm nm2 above fb labels) (map (class_name h) cs) /\
    working h' a t (cs1 ++ c :: cs2) b others /\ grid_view h' a = edit_view (Add nm nm2 above fb labels) (grid_view h a) /\ values_kept h h' /\
    (forall k, k <> a -> aob h' k = aob h k).
Proof.
  intros (T & C & UN & NI & PN & ND & Nt & Nb & La & Ap & Gs & (g0 & Hg0 & Fg0)) Al.
  destruct (place_of h cs nm nm2 above fb labels others ND Al) as (cs1 & cs2 & sp & cp & -> & Esp & Hsp & Hcp & Enm).
  destruct Al as (A1 & A2 & A3 & A4 & A5 & _). set (gs := a_groups (aob h a)) in *.
  pose proof (table_wf h T) as W. pose proof (fun x => chain_live _ _ _ _ x T C) as LV.
  assert (Isp : In sp (cs1 ++ cs2)).
  { apply in_app_iff. destruct above; [right; destruct cs2; [discriminate|injection Hsp as ->; simpl; auto]|left].
    apply in_rev. destruct (rev cs1); [discriminate|injection Hsp as ->; simpl; auto]. }
  assert (NE2 : nm2 <> ""%string) by (rewrite <- Esp; apply PN, Isp).
  assert (Full : forall g, In g gs -> In sp (map (fun k => t_ec (tob h k)) (g_tiers (gob h g))) ->
     full_group h (cs1 ++ cs2) g /\ named_group h g /\ (forall k, In k (g_tiers (gob h g)) -> t_seq (tob h k) <> [])).
  { intros g Hg Q. destruct (Gs g Hg) as (_ & _ & _ & [F|F]); [exact F|]. exfalso. apply in_map_iff in Q. destruct Q as (k & Q & Hk). destruct (F k Hk) as [_ F']. apply F'. rewrite Q. apply in_map, Isp. }
  destruct (c52_weave n h a t cs1 cs2 b sp cp nm nm2 above fb labels gs T C UN NI) as (gs' & c & h' & E & Lc & Cn & CC & _ & Bs & Ga' & Nd' & Wv & Win & Mc & Lgr & Oth & T' & UN'); auto.
  { intros x Hx. apply PN, Hx. }
  { intros g Hg. destruct (Gs g Hg) as (G1 & G2 & G3 & G4). split; [exact G1|]. split; [exact G2|]. destruct G4 as [(F1 & F2 & F3)|F]; [left; split; [exact F1|]; intros k Hk _; apply F3, Hk|right].
    intros Q. apply in_map_iff in Q. destruct Q as (k & Q & Hk). destruct (F k Hk) as [_ F']. apply F'. rewrite Q. apply in_map, Isp. }
  { intros g k Hg Hk. destruct (Gs g Hg) as (G1 & G2 & G3 & G4). split; [apply G3, Hk|]. intros Q. destruct G4 as [((F1 & _) & _)|F].
    - assert (Ik : In (t_ec (tob h k)) (cs1 ++ cs2)) by (rewrite <- F1; apply (in_map (fun k => t_ec (tob h k))); exact Hk).
      apply (map_uniq (class_name h) (cs1 ++ cs2)); auto. congruence.
    - exfalso. destruct (F k Hk) as [_ F']. apply F'. rewrite Q. exact A5. }
  { exists g0. auto. }
  pose proof (table_wf h' T') as W'. destruct Mc as (M1 & M2 & M3 & M4 & M5 & M6 & M7). pose proof (fun x => chain_live _ _ _ _ x T' CC) as LV'.
  assert (Lcls : (List.length (h_cls h) <= List.length (h_cls h'))%nat) by lia.
  assert (Nk : forall x, (x < List.length (h_cls h))%nat -> class_name h' x = class_name h x) by (intros x Hx; unfold class_name; rewrite (proj1 (Bs x Hx)); reflexivity).
  assert (Sk : forall x y, (x < List.length (h_cls h))%nat -> issubclass h' x y = issubclass h x y) by (intros x y Hx; apply subs_grow; auto; intros k Hk; apply Bs, Hk).
  assert (Nm : map (class_name h') (cs1 ++ cs2) = map (class_name h) (cs1 ++ cs2)).
  { apply map_ext_in. intros x Hx. apply Nk. apply LV. right. apply in_app_iff. auto. }
  assert (Nm' : map (class_name h') (cs1 ++ c :: cs2) = (map (class_name h) cs1 ++ nm :: map (class_name h) cs2)%list).
  { rewrite !map_app in Nm. rewrite map_app. cbn [map]. rewrite Cn. assert (Q : List.length (map (class_name h') cs1) = List.length (map (class_name h) cs1)) by (rewrite !map_length; reflexivity).
    destruct (app_inj_1 _ _ _ _ Q Nm) as [-> ->]. reflexivity. }
  (* old tiers *)
  assert (Old : forall g k, In g gs -> In k (g_tiers (gob h g)) -> tier_view h' k = tier_view h k).
  { intros g k Hg Hk. destruct (Gs g Hg) as (G1 & G2 & G3 & _). destruct (G2 k Hk) as [K1 K2]. destruct (G3 k Hk) as [K3 K4]. destruct (M7 k K1) as (Q1 & Q2 & Q3). apply view_kept; auto.
    intros x Hx. destruct (M2 x (K2 x Hx)) as (V1 & V2 & V3 & V4 & _). apply praatio_kept; auto. }
  (* new groups *)
  assert (New : forall g g', In g gs -> woven labels cs1 c cs2 cp h h' g g' -> In sp (map (fun k => t_ec (tob h k)) (g_tiers (gob h g))) ->
     group_of h' (cs1 ++ c :: cs2) others g' /\ group_view h' g' = (fst (group_view h g), edit_strips (Add nm nm2 above fb labels) (snd (group_view h g)))).
  { intros g g' Hg (W1 & (ts1 & k & ts2 & ct & V1 & V2 & V3 & V4 & V5 & V6 & V7 & V8 & V9) & W2 & W3) Hs. destruct (Full g Hg Hs) as (F1 & (m & F2 & F2') & F3).
    destruct (Gs g Hg) as (G1 & G2 & G3 & _). destruct W2 as (X1 & (bss & X2) & X3). pose proof X2 as (Y1 & Y2 & Y3 & Y4 & (Z1 & Z2 & Z3 & Z4) & Y6 & Y7 & Y8 & Y9 & Y10).
    assert (Eck : t_ec (tob h' k) = c).
    { rewrite V2, map_app in X1. cbn [map] in X1. assert (Q : List.length (map (fun t => t_ec (tob h' t)) ts1) = List.length cs1) by (rewrite <- V3, !map_length; reflexivity).
      destruct (app_inj_1 _ _ _ _ Q X1) as [_ Q']. injection Q' as Q' _. exact Q'. }
    assert (Em2 : map (fun t => t_ec (tob h t)) ts2 = cs2).
    { destruct F1 as (F1 & _). rewrite V1, map_app, V3 in F1. apply app_inv_head in F1. exact F1. }
    assert (Ec' : forall u, In u (g_tiers (gob h' g')) -> In (t_ec (tob h' u)) (cs1 ++ c :: cs2)) by (intros u Hu; rewrite <- X1; apply (in_map (fun k => t_ec (tob h' k))); exact Hu).
    split.
    - split; [exact Y1|]. split; [|split].
      + intros u Hu. split; [apply Z3, Hu|]. intros x Hx. destruct (Y9 u Hu) as (_ & (_ & Q) & _). apply Q, Hx.
      + intros u Hu. assert (Q : (t_ec (tob h' u) < List.length (h_cls h'))%nat) by (apply LV'; right; apply in_app_iff; left; apply Ec', Hu).
        split; [exact Q|]. intros x Hx. destruct (Y9 u Hu) as (_ & (_ & P) & _). destruct (P x Hx) as (_ & -> & _). exact Q.
      + left. split; [split; [exact X1|]; split; [exists bss; exact X2|exact X3]|]. split; [exists m; auto|].
        intros u Hu. rewrite V2 in Hu. apply in_app_iff in Hu. destruct Hu as [Hu|[<-|Hu]].
        * assert (Q : In u (g_tiers (gob h g))) by (rewrite V1; apply in_app_iff; auto). destruct (M7 u) as (-> & _); [apply G2, Q|apply F3, Q].
        * intros Q. rewrite Q in V8. apply (F3 ct V6). inversion V8 as [Q0|]; reflexivity.
        * assert (Q : In u (g_tiers (gob h g))) by (rewrite V1; apply in_app_iff; auto). destruct (M7 u) as (-> & _); [apply G2, Q|apply F3, Q].
    - unfold group_view. cbn [fst snd edit_strips]. f_equal; [rewrite F2; apply W3; auto|]. rewrite V1.
      rewrite (view_add h ts1 ts2 sp cp nm nm2 above fb labels ct); auto.
      + rewrite V2, map_app. cbn [map]. f_equal; [|f_equal].
        * apply map_ext_in. intros u Hu. apply (Old g); auto. rewrite V1. apply in_app_iff; auto.
        * unfold tier_view, copy_strip. rewrite Eck, V5, Cn. cbn [snd]. f_equal. rewrite map_map. apply Forall2_map_eq.
          assert (Hk : In k (g_tiers (gob h' g'))) by (rewrite V2; apply in_app_iff; simpl; auto).
          eapply Forall2_weaken; [exact V8|]. intros y x Hy Hx (P1 & P2 & P3). unfold praatio, is_point_cls. destruct (Y9 k Hk) as (_ & (_ & Q) & Q'). destruct (Q x Hx) as (_ & -> & _). rewrite Q'.
          destruct F1 as (_ & (bss0 & F1) & _). destruct F1 as (_ & _ & _ & _ & _ & _ & _ & _ & F1 & _). destruct (F1 ct V6) as (_ & (_ & R) & R'). destruct (R y Hy) as (_ & -> & _). rewrite R', P1, P2, P3. reflexivity.
        * apply map_ext_in. intros u Hu. apply (Old g); auto. rewrite V1. apply in_app_iff; auto.
      + destruct F1 as (F1 & _). rewrite V1 in F1. rewrite <- (map_map (fun k => t_ec (tob h k)) (class_name h)), F1. exact ND.
      + rewrite Em2, V3. exact Hsp.
      + rewrite Em2, V3. exact Hcp.
      + rewrite <- V1. exact V6. }
  (* other groups *)
  assert (Rest : forall g, In g gs -> In g gs' -> ~ In sp (map (fun k => t_ec (tob h k)) (g_tiers (gob h g))) -> g_tiers (gob h' g) = g_tiers (gob h g) -> g_name (gob h' g) = g_name (gob h g) ->
     group_of h' (cs1 ++ c :: cs2) others g /\ group_view h' g = (fst (group_view h g), edit_strips (Add nm nm2 above fb labels) (snd (group_view h g)))).
  { intros g Hg Hg' Hs Q1 Q2. destruct (Gs g Hg) as (G1 & G2 & G3 & G4). destruct G4 as [((F1 & _) & _)|F]; [exfalso; apply Hs; rewrite F1; exact Isp|].
    split.
    - split; [eapply within_live; apply Win; exact Hg'|]. unfold exist_tiers. rewrite Q1. split; [|split].
      + intros k Hk. destruct (G2 k Hk) as [K1 K2]. destruct (M7 k K1) as (-> & _). split; [lia|]. intros x Hx. specialize (K2 x Hx). lia.
      + intros k Hk. destruct (G2 k Hk) as [K1 K2]. destruct (G3 k Hk) as [K3 K4]. destruct (M7 k K1) as (-> & -> & _). split; [lia|]. intros x Hx. destruct (M2 x (K2 x Hx)) as (-> & _). specialize (K4 x Hx). lia.
      + right. intros k Hk. destruct (M7 k) as (_ & -> & _); [apply G2, Hk|]. rewrite Nk by (apply G3, Hk). destruct (F k Hk) as [F5 F6]. split; [exact F5|]. rewrite Nm'. intros Q. rewrite map_app in F6.
        apply in_app_iff in Q. destruct Q as [Q|[Q|Q]]; [apply F6, in_app_iff; auto| |apply F6, in_app_iff; auto]. rewrite <- Q in F5. contradiction.
    - unfold group_view. cbn [fst snd edit_strips]. rewrite Q1, Q2. f_equal. rewrite strip_absent.
      + apply map_ext_in. intros k Hk. apply (Old g); auto.
      + intros v Hv. apply in_map_iff in Hv. destruct Hv as (k & <- & Hk). cbn. intros Q. destruct (F k Hk) as [_ F']. apply F'. rewrite Q. exact A5. }
  assert (Each : Forall2 (fun g g' => group_of h' (cs1 ++ c :: cs2) others g' /\ group_view h' g' = (fst (group_view h g), edit_strips (Add nm nm2 above fb labels) (snd (group_view h g)))) gs gs').
  { eapply Forall2_weaken; [exact Wv|]. intros g g' Hg Hg' [[Q1 Q2]|(Q1 & -> & Q2 & Q3)]; [apply New; auto|apply Rest; auto]. }
  exists cs1, c, cs2, h'. split; [reflexivity|]. split; [exact E|]. split; [exact Cn|]. split; [cbn [edit_names]; rewrite Enm; exact Nm'|].
  split; [|split; [|split]].
  - split; [exact T'|]. split; [exact CC|]. split; [exact UN'|]. split.
    { intros Q. apply in_app_iff in Q. destruct Q as [Q|[Q|Q]]; [apply NI, in_app_iff; auto| |apply NI, in_app_iff; auto]. destruct T as (T1 & _). unfold cInterval in *. lia. }
    split. { intros x Hx. apply in_app_iff in Hx. destruct Hx as [Hx|[<-|Hx]].
      - rewrite Nk by (apply LV; right; apply in_app_iff; left; apply in_app_iff; auto). apply PN, in_app_iff. auto.
      - rewrite Cn. auto.
      - rewrite Nk by (apply LV; right; apply in_app_iff; left; apply in_app_iff; auto). apply PN, in_app_iff. auto. }
    split. { rewrite Nm'. apply NoDup_ListNoDup. apply NoDup_ListNoDup in ND. rewrite map_app in ND, A3. apply (NoDup_Add (a := nm) (l := (map (class_name h) cs1 ++ map (class_name h) cs2)%list)); [apply Add_app|auto]. }
    split. { rewrite Nk by (apply LV; simpl; auto). exact Nt. }
    split. { rewrite Nk by (apply LV; right; apply in_app_iff; simpl; auto). exact Nb. }
    split; [lia|]. rewrite Ga'. split; [|split].
    + destruct (apart_read h gs Ap) as (P1 & P2 & P3 & P4 & P5).
      assert (Tier : forall g g', weaves labels cs1 c cs2 sp cp h h' g g' -> In g gs -> forall k, In k (g_tiers (gob h' g')) ->
        (In k (g_tiers (gob h g)) /\ t_seq (tob h' k) = t_seq (tob h k) /\ (forall x, In x (t_seq (tob h k)) -> (x < List.length (h_seq h))%nat) /\ (k < List.length (h_tier h))%nat) \/
        ((List.length (h_tier h) <= k)%nat /\ t_within (tob h' k) = Some (WGroup g') /\ NoDup (t_seq (tob h' k)) /\
         forall x, In x (t_seq (tob h' k)) -> (List.length (h_seq h) <= x)%nat /\ s_intier (sob h' x) = Some k)).
      { intros g g' Q Hg k Hk. destruct (Gs g Hg) as (_ & G2 & _).
        assert (Keep : In k (g_tiers (gob h g)) -> In k (g_tiers (gob h g)) /\ t_seq (tob h' k) = t_seq (tob h k) /\ (forall x, In x (t_seq (tob h k)) -> (x < List.length (h_seq h))%nat) /\ (k < List.length (h_tier h))%nat).
        { intros I. destruct (G2 k I) as [K1 K2]. split; [exact I|]. split; [apply M7, K1|auto]. }
        destruct Q as [[_ (W1 & (ts1 & k0 & ts2 & ct & V1 & V2 & V3 & V4 & V5 & V6 & V7 & V8 & V9) & (_ & (bss & W2) & _) & _)]|(_ & -> & Q & _)]; [|left; apply Keep; rewrite <- Q; exact Hk].
        pose proof Hk as Hk'. rewrite V2 in Hk. apply in_app_iff in Hk. destruct Hk as [Hk|[<-|Hk]]; [left; apply Keep; rewrite V1; apply in_app_iff; auto| |left; apply Keep; rewrite V1; apply in_app_iff; auto].
        right. split; [lia|]. destruct W2 as (_ & _ & _ & _ & _ & _ & _ & _ & W2 & _). destruct (W2 k0 Hk') as (Z1 & (Z2 & _) & _). split; [exact Z1|]. split; [exact Z2|]. intros x Hx. destruct (V9 x Hx) as [Z3 Z4]. split; [lia|exact Z4]. }
      apply apart_made; [exact Nd'| | | |].
      * intros g' Hg'. unfold tiers_in. destruct (QueryFinal.Forall2_in_r _ _ _ g' Wv Hg') as (g & Hg & [[_ (_ & _ & (W1 & _) & _)]|(_ & -> & Q & _)]).
        -- apply NoDup_ListNoDup. apply (NoDup_map_inv (fun k => t_ec (tob h' k))). rewrite W1. apply NoDup_ListNoDup. apply CC.
        -- rewrite Q. apply P2, Hg.
      * intros g1' g2' k H1 H2 K1 K2. destruct (Forall2_same_l _ _ _ Wv P1 g1' g2' H1 H2) as (g1 & g2 & I1 & I2 & R1 & R2 & U). unfold tiers_in in *.
        destruct (Tier g1 g1' R1 I1 k K1) as [(B1 & B2 & B3 & B4)|(B1 & B2 & _)], (Tier g2 g2' R2 I2 k K2) as [(D1 & D2 & D3 & D4)|(D1 & D2 & _)]; [| lia | lia |congruence].
        apply U. apply (P3 g1 g2 k); auto.
      * intros g' k Hg' Hk. destruct (QueryFinal.Forall2_in_r _ _ _ g' Wv Hg') as (g & Hg & R). unfold entries_in, tiers_in in *. destruct (Tier g g' R Hg k Hk) as [(B1 & B2 & _)|(_ & _ & B3 & _)]; [rewrite B2; apply (P4 g k); auto|exact B3].
      * intros g1' g2' k1 k2 x H1 H2 K1 K2 X1 X2. unfold tiers_in, entries_in in *. destruct (QueryFinal.Forall2_in_r _ _ _ g1' Wv H1) as (g1 & I1 & R1). destruct (QueryFinal.Forall2_in_r _ _ _ g2' Wv H2) as (g2 & I2 & R2).
        destruct (Tier g1 g1' R1 I1 k1 K1) as [(B1 & B2 & B3 & B4)|(B1 & B2 & _ & B3)], (Tier g2 g2' R2 I2 k2 K2) as [(D1 & D2 & D3 & D4)|(D1 & D2 & _ & D3)].
        -- rewrite B2 in X1. rewrite D2 in X2. apply (P5 g1 g2 k1 k2 x); auto.
        -- rewrite B2 in X1. specialize (B3 x X1). destruct (D3 x X2). lia.
        -- rewrite D2 in X2. specialize (D3 x X2). destruct (B3 x X1). lia.
        -- destruct (B3 x X1), (D3 x X2). congruence.
    + intros g' Hg'. destruct (QueryFinal.Forall2_in_r _ _ _ g' Each Hg') as (g & _ & Q & _). exact Q.
    + destruct (QueryFinal.Forall2_in_l _ _ _ g0 Wv Hg0) as (g' & Hg' & [[_ (_ & _ & Q & _)]|(Q & _)]); [eauto|]. exfalso. apply Q. destruct Fg0 as (-> & _). exact Isp.
  - unfold grid_view, edit_view. rewrite Ga'. fold gs. rewrite map_map. apply Forall2_map_eq. eapply Forall2_weaken; [exact Each|]. intros g g' _ _ [_ Q]. exact Q.
  - split; [exact M1|]. intros i Hi. destruct (M2 i Hi) as (Q1 & Q2 & Q3 & Q4 & _). auto.
  - exact Oth.
Qed.

(** ** Removing a class *)
Lemma filter_none_eq {A} (f : A -> bool) l : (forall x, In x l -> f x = true) -> List.filter f l = l.
Proof. induction l as [|x l IH]; intros K; [reflexivity|]. cbn. rewrite K by (simpl; auto). f_equal. apply IH. intros y Hy. apply K. simpl; auto. Qed.
Lemma drop_step n h a t cs b others nm : working h a t cs b others -> allowed others (map (class_name h) cs) (Drop nm) ->
  exists cs1 c cs2 h', cs = (cs1 ++ c :: cs2)%list /\ class_name h c = nm /\ pop_class n a nm h = Ok tt h' /\
    map (class_name h') (cs1 ++ cs2) = edit_names (Drop nm) (map (class_name h) cs) /\
    working h' a t (cs1 ++ cs2) b others /\ grid_view h' a = edit_view (Drop nm) (grid_view h a) /\ values_kept h h' /\
    (forall k, k <> a -> aob h' k = aob h k).
Proof.
  intros (T & C & UN & NI & PN & ND & Nt & Nb & La & Ap & Gs & (g0 & Hg0 & Fg0)) (I2 & Two). apply in_map_iff in I2. destruct I2 as (c & Ec & I2). apply in_split in I2. destruct I2 as (cs1 & cs2 & ->).
  assert (NE : (cs1 ++ cs2)%list <> []).
  { intros Q. apply app_eq_nil in Q. destruct Q as [-> ->]. cbn in Two. lia. }
  assert (No : forall x, In x (cs1 ++ cs2) -> class_name h x <> nm).
  { intros x Hx Q. rewrite map_app in ND. cbn [map] in ND. apply NoDup_ListNoDup in ND. apply NoDup_remove_2 in ND. apply ND. rewrite <- map_app, Ec, <- Q. apply in_map, Hx. }
  set (gs := a_groups (aob h a)) in *.
  destruct (c51_pop n h a t cs1 c cs2 b nm gs T C UN NE) as (gs' & h' & E & Ga' & Nd' & Bc & Win & CC & (S1 & S2 & S3 & S4 & S5 & S6 & S7) & Lgr & Oth & T' & Lcls & Nk & Sk); auto.
  { intros x Hx. apply PN, Hx. }
  { intros g Hg. destruct (Gs g Hg) as (G1 & _ & _ & [(F1 & _)|F]); split; auto. right. intros k Hk Q. destruct (F k Hk) as [_ F']. apply F'. rewrite Q, <- Ec. apply in_map, in_app_iff. simpl; auto. }
  { exists g0. auto. }
  assert (Ks : forall x, In x (cs1 ++ cs2) -> In x (cs1 ++ c :: cs2)) by (intros x Hx; apply in_app_iff in Hx; apply in_app_iff; simpl; tauto).
  assert (Keq : forall k g, In g gs -> In k (g_tiers (gob h g)) -> full_group h (cs1 ++ c :: cs2) g -> (t_ec (tob h k) =? c)%nat = String.eqb (class_name h (t_ec (tob h k))) nm).
  { intros k g Hg Hk (F1 & _). assert (Ik : In (t_ec (tob h k)) (cs1 ++ c :: cs2)) by (rewrite <- F1; apply (in_map (fun k => t_ec (tob h k))); exact Hk).
    destruct (Nat.eqb_spec (t_ec (tob h k)) c) as [->|Q]; symmetry; [apply String.eqb_eq; exact Ec|]. apply String.eqb_neq, No. apply in_app_iff in Ik. apply in_app_iff. destruct Ik as [Ik|[Ik|Ik]]; auto. congruence. }
  assert (View : forall g k, In g gs -> In k (g_tiers (gob h g)) -> tier_view h' k = tier_view h k).
  { intros g k Hg Hk. destruct (S7 k) as (Q1 & Q2 & Q3). apply view_kept; auto. intros x Hx. destruct (Gs g Hg) as (_ & G2 & _). destruct (S2 x) as (V1 & V2 & V3 & V4 & _); [apply (G2 k Hk), Hx|]. apply praatio_kept; auto. }
  assert (Old : forall g g' k, becomes nm c (cs1 ++ cs2) h h' g g' -> In k (g_tiers (gob h' g')) -> In k (g_tiers (gob h g))).
  { intros g g' k [[_ (_ & Q & _)]|(_ & -> & Q & _)] Hk; rewrite Q in Hk; [|exact Hk]. unfold tiers_but in Hk. apply filter_In in Hk. apply Hk. }
  assert (Each : Forall2 (fun g g' => group_of h' (cs1 ++ cs2) others g' /\ group_view h' g' = (fst (group_view h g), edit_strips (Drop nm) (snd (group_view h g)))) gs gs').
  { eapply Forall2_weaken; [exact Bc|]. intros g g' Hg Hg' R. destruct (Gs g Hg) as (G1 & G2 & G3 & G4).
    assert (Base : (g' < List.length (h_grp h'))%nat /\ exist_tiers h' g' /\ (forall k, In k (g_tiers (gob h' g')) -> (t_ec (tob h' k) < List.length (h_cls h'))%nat /\
       forall x, In x (t_seq (tob h' k)) -> (s_cls (sob h' x) < List.length (h_cls h'))%nat)).
    { split; [eapply within_live; apply Win; exact Hg'|]. rewrite Lcls. split.
      - intros k Hk. apply (Old g g' k R) in Hk. destruct (G2 k Hk) as [K1 K2]. destruct (S7 k) as (-> & _). split; [lia|]. intros x Hx. specialize (K2 x Hx). lia.
      - intros k Hk. apply (Old g g' k R) in Hk. destruct (G2 k Hk) as [K1 K2]. destruct (G3 k Hk) as [K3 K4]. destruct (S7 k) as (-> & -> & _). split; [exact K3|]. intros x Hx. destruct (S2 x (K2 x Hx)) as (-> & _). apply K4, Hx. }
    destruct Base as (Q1 & Q2 & Q3). destruct R as [[R1 (R2 & R3 & R4 & R5 & _)]|(R1 & -> & R2 & R3)].
    - destruct G4 as [(F1 & (m & F2 & F2') & F3)|F].
      2:{ exfalso. apply in_map_iff in R1. destruct R1 as (k & R1 & Hk). destruct (F k Hk) as [_ F']. apply F'. rewrite R1. apply in_map, in_app_iff. simpl; auto. }
      split.
      + split; [exact Q1|]. split; [exact Q2|]. split; [exact Q3|]. left. split; [exact R4|]. split; [exists m; split; [apply R5; auto|exact F2']|].
        intros k Hk. rewrite R3 in Hk. unfold tiers_but in Hk. apply filter_In in Hk. destruct (S7 k) as (-> & _). apply F3, Hk.
      + unfold group_view. cbn [fst snd edit_strips]. f_equal; [rewrite F2; apply R5; auto|]. rewrite R3. unfold tiers_but. clear -View Keq Hg F1.
        assert (Sub : forall k, In k (g_tiers (gob h g)) -> In k (g_tiers (gob h g))) by auto. revert Sub. generalize (g_tiers (gob h g)) at 1 3 4. induction l as [|k l IH]; intros Sub; [reflexivity|]. cbn [List.filter map].
        rewrite (Keq k g Hg (Sub k (or_introl eq_refl)) F1). cbn [tier_view fst]. destruct (String.eqb (class_name h (t_ec (tob h k))) nm); cbn [negb map]; [|f_equal; [apply (View g); auto; apply Sub; left; reflexivity|]]; apply IH; intros u Hu; apply Sub; right; exact Hu.
    - assert (Rm : forall k, In k (g_tiers (gob h g)) -> In (class_name h (t_ec (tob h k))) others /\ ~ In (class_name h (t_ec (tob h k))) (map (class_name h) (cs1 ++ c :: cs2))).
      { destruct G4 as [((F1 & _) & _)|F]; [|exact F]. exfalso. assert (Q : In c (map (fun k => t_ec (tob h k)) (g_tiers (gob h g)))) by (rewrite F1; apply in_app_iff; simpl; auto).
        apply in_map_iff in Q. destruct Q as (k & Q & Hk). apply (R1 k Hk). rewrite Q. exact Ec. }
      split.
      + split; [exact Q1|]. split; [exact Q2|]. split; [exact Q3|]. right. rewrite R2. intros k Hk. destruct (S7 k) as (_ & -> & _). rewrite Nk. destruct (Rm k Hk) as [Y1 Y2]. split; [exact Y1|].
        intros Y. apply Y2. apply in_map_iff in Y. destruct Y as (x & Y & Hx). rewrite Nk in Y. apply in_map_iff. exists x. auto.
      + unfold group_view. cbn [fst snd edit_strips]. rewrite R2, R3. f_equal. rewrite filter_none_eq.
        * apply map_ext_in. intros k Hk. apply (View g); auto.
        * intros v Hv. apply in_map_iff in Hv. destruct Hv as (k & <- & Hk). cbn. apply negb_true_iff, String.eqb_neq, R1, Hk. }
  exists cs1, c, cs2, h'. split; [reflexivity|]. split; [exact Ec|]. split; [exact E|]. split; [|split; [|split; [|split]]].
  - cbn [edit_names]. rewrite !map_app, List.filter_app. cbn [map List.filter]. rewrite Ec, String.eqb_refl. cbn [negb].
    rewrite !filter_none_eq; [f_equal; apply map_ext; exact Nk| |]; intros y Hy; apply in_map_iff in Hy; destruct Hy as (x & <- & Hx); apply negb_true_iff, String.eqb_neq, No, in_app_iff; auto.
  - split; [exact T'|]. split; [exact CC|]. split.
    { intros x y Hx Hy Q. rewrite Sk in Q. assert (Mv : forall z, In z (t :: (cs1 ++ cs2) ++ [b]) -> In z (t :: (cs1 ++ c :: cs2) ++ [b])).
      { intros z [Hz|Hz]; [left; exact Hz|right]. apply in_app_iff in Hz. apply in_app_iff. destruct Hz as [Hz|Hz]; auto. }
      apply UN; auto. }
    split; [intros Q; apply NI, Ks, Q|]. split; [intros x Hx; rewrite Nk; apply PN, Ks, Hx|]. split.
    { rewrite (map_ext (class_name h') (class_name h)) by exact Nk. apply NoDup_ListNoDup. apply NoDup_ListNoDup in ND. rewrite map_app in ND |- *. cbn [map] in ND. apply NoDup_remove_1 in ND. exact ND. }
    rewrite !Nk. split; [exact Nt|]. split; [exact Nb|]. split; [lia|]. rewrite Ga'. split; [|split].
    + destruct (apart_read h gs Ap) as (P1 & P2 & P3 & P4 & P5). apply apart_made; [exact Nd'| | | |].
      * intros g' Hg'. unfold tiers_in. destruct (QueryFinal.Forall2_in_r _ _ _ g' Bc Hg') as (g & Hg & [[_ (_ & Q & _)]|(_ & -> & Q & _)]); rewrite Q; [|apply P2, Hg].
        unfold tiers_but. apply NoDup_ListNoDup. apply List.NoDup_filter. apply NoDup_ListNoDup. apply (P2 g Hg).
      * intros g1' g2' k H1 H2 K1 K2. destruct (Forall2_same_l _ _ _ Bc P1 g1' g2' H1 H2) as (g1 & g2 & I1 & I2 & R1 & R2 & U). apply U. apply (P3 g1 g2 k); auto; [apply (Old g1 g1')|apply (Old g2 g2')]; auto.
      * intros g' k Hg' Hk. destruct (QueryFinal.Forall2_in_r _ _ _ g' Bc Hg') as (g & Hg & R). unfold entries_in. destruct (S7 k) as (-> & _). apply (P4 g k); auto. apply (Old g g'); auto.
      * intros g1' g2' k1 k2 x H1 H2 K1 K2. unfold entries_in. destruct (S7 k1) as (-> & _), (S7 k2) as (-> & _). intros X1 X2.
        destruct (QueryFinal.Forall2_in_r _ _ _ g1' Bc H1) as (g1 & I1 & R1). destruct (QueryFinal.Forall2_in_r _ _ _ g2' Bc H2) as (g2 & I2 & R2).
        apply (P5 g1 g2 k1 k2 x); auto; [apply (Old g1 g1')|apply (Old g2 g2')]; auto.
    + intros g' Hg'. destruct (QueryFinal.Forall2_in_r _ _ _ g' Each Hg') as (g & _ & Q & _). exact Q.
    + destruct (QueryFinal.Forall2_in_l _ _ _ g0 Bc Hg0) as (g' & Hg' & [[_ (_ & _ & Q & _)]|(Q & _)]); [eauto|]. exfalso. destruct Fg0 as (F1 & _).
      assert (Y : In c (map (fun k => t_ec (tob h k)) (g_tiers (gob h g0)))) by (rewrite F1; apply in_app_iff; simpl; auto). apply in_map_iff in Y. destruct Y as (k & Y & Hk). apply (Q k Hk). rewrite Y. exact Ec.
  - unfold grid_view, edit_view. rewrite Ga'. fold gs. rewrite map_map. apply Forall2_map_eq. eapply Forall2_weaken; [exact Each|]. intros g g' _ _ [_ Q]. exact Q.
  - split; [exact S1|]. intros i Hi. destruct (S2 i Hi) as (Q1 & Q2 & Q3 & Q4 & _). auto.
  - exact Oth.
Qed.

(** ** Any number of changes *)
Lemma kept_trans h h1 h2 : values_kept h h1 -> values_kept h1 h2 -> values_kept h h2.
Proof.
  intros (A1 & A2) (B1 & B2). split; [lia|]. intros i Hi. destruct (A2 i Hi) as (P1 & P2 & P3 & P4). destruct (B2 i) as (Q1 & Q2 & Q3 & Q4); [lia|]. repeat split; congruence.
Qed.
Lemma c72_edits : forall (es : list edit) (n : nat) (h : heap) (a : aid) (t : cid) (cs : list cid) (b : cid) (others : list string),
  working h a t cs b others -> all_allowed others (map (class_name h) cs) es ->
  exists cs' h', make_edits n a es h = Ok tt h' /\ map (class_name h') cs' = fold_left (fun l e => edit_names e l) es (map (class_name h) cs) /\
    working h' a t cs' b others /\ grid_view h' a = fold_left (fun v e => edit_view e v) es (grid_view h a) /\ values_kept h h' /\
    (forall k, k <> a -> aob h' k = aob h k).
Proof.
  induction es as [|e es IH]; intros n h a t cs b others W Al.
  - exists cs, h. split; [reflexivity|]. split; [reflexivity|]. split; [exact W|]. split; [reflexivity|]. split; [|auto]. split; [lia|auto].
  - destruct Al as [A1 A2].
    assert (Step : exists cs1 h1, make_edit n a e h = Ok tt h1 /\ map (class_name h1) cs1 = edit_names e (map (class_name h) cs) /\ working h1 a t cs1 b others /\
      grid_view h1 a = edit_view e (grid_view h a) /\ values_kept h h1 /\ (forall k, k <> a -> aob h1 k = aob h k)).
    { destruct e as [nm nm2 above fb labels|nm].
      - destruct (add_step n h a t cs b others nm nm2 above fb labels W A1) as (c1 & c & c2 & h1 & _ & E & _ & Q1 & Q2 & Q3 & Q4 & Q5). exists (c1 ++ c :: c2)%list, h1. auto 10.
      - destruct (drop_step n h a t cs b others nm W A1) as (c1 & c & c2 & h1 & _ & _ & E & Q1 & Q2 & Q3 & Q4 & Q5). exists (c1 ++ c2)%list, h1. auto 10. }
    destruct Step as (cs1 & h1 & E1 & N1 & W1 & V1 & K1 & O1). rewrite <- N1 in A2.
    destruct (IH n h1 a t cs1 b others W1 A2) as (cs' & h' & E2 & N2 & W2 & V2 & K2 & O2). exists cs', h'. split.
    { unfold make_edits in *. cbn [forM]. rewrite (bind_ok _ _ _ _ _ E1). exact E2. }
    cbn [fold_left]. rewrite <- N1, <- V1. split; [exact N2|]. split; [exact W2|]. split; [exact V2|]. split; [eapply kept_trans; eauto|]. intros k Hk. rewrite O2, O1; auto.
Qed.

Lemma view_tiers h a : flat_map snd (grid_view h a) = map (tier_view h) (grid_tiers h a).
Proof.
  unfold grid_view, grid_tiers, tiers_of. induction (a_groups (aob h a)) as [|g gs IH]; [reflexivity|]. cbn [map flat_map]. rewrite IH, map_app. reflexivity.
Qed.
Lemma textgrid_view h h' a a' : grid_view h a = grid_view h' a' -> return_textgrid h a = return_textgrid h' a'.
Proof.
  intros E. apply (f_equal (flat_map snd)) in E. rewrite !view_tiers in E. unfold return_textgrid. f_equal.
  - f_equal. apply (f_equal (map (fun v : strip => snd (fst v)))) in E. rewrite !map_map in E. exact E.
  - apply (f_equal (map (fun v : strip => snd v))) in E. rewrite !map_map in E. exact E.
Qed.
Lemma c72_written : forall (es : list edit) (n : nat) (h : heap) (a : aid) (t : cid) (cs : list cid) (b : cid) (others : list string) (h' : heap),
  working h a t cs b others -> all_allowed others (map (class_name h) cs) es -> make_edits n a es h = Ok tt h' ->
  let out := flat_map snd (fold_left (fun v e => edit_view e v) es (grid_view h a)) in
  map snd (return_textgrid h' a) = map snd out /\
  (NoDup (map (fun v : strip => snd (fst v)) out) -> return_textgrid h' a = map (fun v : strip => (snd (fst v), snd v)) out).
Proof.
  intros es n h a t cs b others h' W Al E out. destruct (c72_edits es n h a t cs b others W Al) as (cs' & h1 & E1 & _ & _ & V & _). rewrite E in E1. injection E1 as <-.
  unfold out. rewrite <- V, view_tiers, !map_map. cbn [tier_view fst snd]. split; [|apply TripFinal.written_plain].
  unfold return_textgrid. apply OutputFinal.snd_combine. rewrite OutputFinal.length_out_names, !map_length. reflexivity.
Qed.

(** ** And back *)
Lemma strip_dropped nm nm2 above fb labels : forall l up, (forall v, In v l -> fst (fst v) <> nm) ->
  List.filter (fun v => negb (String.eqb (fst (fst v)) nm)) (add_strip nm nm2 above fb labels up l) = l.
Proof.
  set (keep := fun v : strip => negb (String.eqb (fst (fst v)) nm)).
  assert (Kp : forall l, (forall v, In v l -> fst (fst v) <> nm) -> List.filter keep l = l).
  { intros l Hl. apply filter_none_eq. intros v Hv. apply negb_true_iff, String.eqb_neq, Hl, Hv. }
  assert (Pt : forall x l, List.filter keep (put (option_map (copy_strip labels nm) x) l) = List.filter keep l).
  { intros [v|] l; [|reflexivity]. cbn [option_map put List.filter]. unfold keep at 1, copy_strip. cbn [fst]. rewrite String.eqb_refl. reflexivity. }
  assert (Kc : forall v l, keep v = true -> List.filter keep (v :: l) = v :: List.filter keep l) by (intros v l Q; cbn [List.filter]; rewrite Q; reflexivity).
  induction l as [|v l IH]; intros up Hl; [reflexivity|]. cbn [add_strip].
  assert (Kv : keep v = true) by (apply negb_true_iff, String.eqb_neq, Hl; simpl; auto).
  destruct (String.eqb (fst (fst v)) nm2); [destruct above|].
  - rewrite Pt. apply Kp, Hl.
  - rewrite (Kc _ _ Kv), Pt, Kp; [reflexivity|]. intros w Hw. apply Hl. simpl; auto.
  - rewrite (Kc _ _ Kv), IH; [reflexivity|]. intros w Hw. apply Hl. simpl; auto.
Qed.
Lemma name_dropped nm nm2 above : forall l, ~ In nm l -> List.filter (fun x => negb (String.eqb x nm)) (add_name nm nm2 above l) = l.
Proof.
  induction l as [|x l IH]; intros Hl; [reflexivity|]. cbn [add_name].
  assert (Kx : String.eqb x nm = false) by (apply String.eqb_neq; intros ->; apply Hl; simpl; auto).
  assert (Kl : List.filter (fun x => negb (String.eqb x nm)) l = l).
  { apply filter_none_eq. intros y Hy. apply negb_true_iff, String.eqb_neq. intros ->. apply Hl. simpl; auto. }
  destruct (String.eqb x nm2); [destruct above|]; cbn [List.filter]; rewrite ?String.eqb_refl, Kx; cbn [negb]; rewrite ?Kl, ?IH; auto. intros Q. apply Hl. simpl; auto.
Qed.
Lemma c72_undo : forall (n : nat) (h : heap) (a : aid) (t : cid) (cs : list cid) (b : cid) (others : list string) (nm nm2 : string) (above from_below labels : bool),
  working h a t cs b others -> allowed others (map (class_name h) cs) (Add nm nm2 above from_below labels) ->
  exists h1 h', interleave_class n a nm above nm2 from_below labels h = Ok tt h1 /\ pop_class n a nm h1 = Ok tt h' /\
    working h' a t cs b others /\ grid_view h' a = grid_view h a /\ return_textgrid h' a = return_textgrid h a /\
    map (class_name h') cs = map (class_name h) cs /\ values_kept h h'.
Proof.
  intros n h a t cs b others nm nm2 above fb labels W Al.
  destruct (add_step n h a t cs b others nm nm2 above fb labels W Al) as (c1 & c & c2 & h1 & Ecs & E1 & Cn & N1 & W1 & V1 & K1 & O1).
  assert (Al1 : allowed others (map (class_name h1) (c1 ++ c :: c2)) (Drop nm)).
  { split; [apply in_map_iff; exists c; split; [exact Cn|apply in_app_iff; simpl; auto]|]. rewrite map_length, app_length. cbn [List.length].
    destruct Al as (_ & _ & _ & _ & Q & _). apply in_map_iff in Q. destruct Q as (x & _ & Q). rewrite Ecs in Q. destruct c1, c2; cbn; try lia. destruct Q. }
  destruct (drop_step n h1 a t _ b others nm W1 Al1) as (d1 & d & d2 & h2 & Ecs2 & Dn & E2 & N2 & W2 & V2 & K2 & O2).
  assert (Same : (d1 ++ d2)%list = cs).
  { pose proof W1 as (_ & _ & _ & _ & _ & ND & _). assert (Q : d = c).
    { apply (map_uniq (class_name h1) (c1 ++ c :: c2)); auto; [rewrite Ecs2; apply in_app_iff; simpl; auto|apply in_app_iff; simpl; auto|congruence]. }
    subst d. apply NoDup_ListNoDup in ND. apply NoDup_map_inv in ND. rewrite Ecs. clear -Ecs2 ND. revert d1 Ecs2. induction c1 as [|x c1 IH]; intros d1 E.
    - destruct d1 as [|y d1]; cbn in E; [injection E as <-; reflexivity|]. injection E as <- E. exfalso. cbn in ND. inversion ND as [|? ? Q _]; subst. apply Q. apply in_app_iff. simpl; auto.
    - destruct d1 as [|y d1]; cbn in E; injection E as <- E; [exfalso; cbn in ND; inversion ND as [|? ? Q _]; subst; apply Q; apply in_app_iff; simpl; auto|]. cbn. f_equal. apply IH; auto. cbn in ND. inversion ND; auto. }
  rewrite Same in *. exists h1, h2. split; [exact E1|]. split; [exact E2|]. split; [exact W2|].
  assert (Gv : grid_view h2 a = grid_view h a).
  { rewrite V2, V1. unfold edit_view. rewrite map_map. cbn [fst snd edit_strips]. rewrite <- (map_id (grid_view h a)) at 2. apply map_ext_in. intros gv Hgv. destruct gv as [gn l]. cbn [fst snd]. f_equal.
    apply strip_dropped. intros v Hv. unfold grid_view in Hgv. apply in_map_iff in Hgv. destruct Hgv as (g & Q & Hg). injection Q as _ <-. apply in_map_iff in Hv. destruct Hv as (k & <- & Hk). cbn.
    destruct W as (_ & _ & _ & _ & _ & _ & _ & _ & _ & _ & Gs & _). destruct Al as (_ & _ & Nn & No & _). destruct (Gs g Hg) as (_ & _ & _ & [((F & _) & _)|F]).
    - intros Q. apply Nn. rewrite <- Q. apply in_map. rewrite <- F. apply (in_map (fun k => t_ec (tob h k))), Hk.
    - intros Q. destruct (F k Hk) as [F1 _]. rewrite Q in F1. contradiction. }
  split; [exact Gv|]. split; [apply textgrid_view, Gv|]. split; [|eapply kept_trans; eauto].
  rewrite N2, N1. cbn [edit_names]. apply name_dropped. apply Al.
Qed.
End WithEnv.
