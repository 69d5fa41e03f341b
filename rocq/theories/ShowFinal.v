(** * ShowFinal: proofs about what is printed. *)
From Verif Require Import HeapProofs ListProofs ShowSpec.
From Coq Require Import Ascii DecimalString DecimalNat.
Open Scope string_scope.
Local Arguments String.append !_ _ / : simpl nomatch.

(** ** Strings *)
Lemma sapp_assoc a b c : (a ++ b) ++ c = a ++ (b ++ c).
Proof. induction a as [|x a IH]; simpl; [reflexivity|]. rewrite IH. reflexivity. Qed.
Lemma sapp_inv a : forall b c, a ++ b = a ++ c -> b = c.
Proof. induction a as [|x a IH]; simpl; intros b c E; [exact E|]. injection E as E. auto. Qed.
Lemma sapp_nil a : a ++ "" = a.
Proof. induction a as [|x a IH]; simpl; [reflexivity|]. rewrite IH. reflexivity. Qed.
Lemma lacks_tail c d s : lacks c (String d s) -> d <> c /\ lacks c s.
Proof. intros L. split; [intros ->; apply (L "" s); reflexivity|]. intros a b E. apply (L (String d a) b). rewrite E. reflexivity. Qed.
Lemma lacks_cons c d s : d <> c -> lacks c s -> lacks c (String d s).
Proof. intros N L [|x a] b E; simpl in E; injection E; [intros _ ->; contradiction|]. intros E' _. apply (L a b E'). Qed.
Lemma lacks_nil c : lacks c "".
Proof. intros [|x a] b E; discriminate E. Qed.
Lemma lacks_app c a b : lacks c a -> lacks c b -> lacks c (a ++ b).
Proof. induction a as [|x a IH]; simpl; intros A B; [exact B|]. apply lacks_tail in A as [N A]. apply lacks_cons; auto. Qed.
Lemma cut c a : forall b r r', lacks c a -> lacks c b -> a ++ String c r = b ++ String c r' -> a = b /\ r = r'.
Proof.
  induction a as [|x a IH]; intros [|y b] r r' A B E; simpl in E.
  - injection E as ->. auto.
  - injection E as <- _. apply lacks_tail in B as [N _]. contradiction.
  - injection E as -> _. apply lacks_tail in A as [N _]. contradiction.
  - injection E as -> E. apply lacks_tail in A as [_ A], B as [_ B]. destruct (IH b r r' A B E) as [-> ->]. auto.
Qed.
(** The same when one of the two may end the text. *)
Lemma cut_end c a b r : lacks c a -> a = b ++ String c r -> False.
Proof. intros A E. apply (A b r E). Qed.

(** ** Quoted strings and lists *)
Definition decodes {A} (f : A -> string) : Prop := forall a b r r', f a ++ r = f b ++ r' -> a = b /\ r = r'.
Definition opens {A} (f : A -> string) : Prop := forall a, exists c s, f a = String c s /\ c <> "]"%char.
Lemma escape_cut q : q <> backslash -> forall s s' r r', escape q s ++ String q r = escape q s' ++ String q r' -> s = s' /\ r = r'.
Proof.
  intros Q. induction s as [|c s IH]; intros [|d s'] r r' E; simpl in E.
  - injection E as ->. auto.
  - destruct (Ascii.eqb_spec d q) as [->|Nq]; simpl in E; [injection E as E0 _; contradiction|].
    destruct (Ascii.eqb_spec d backslash) as [->|Nb]; simpl in E; injection E as E0 _; congruence.
  - destruct (Ascii.eqb_spec c q) as [->|Nq]; simpl in E; [injection E as E0 _; congruence|].
    destruct (Ascii.eqb_spec c backslash) as [->|Nb]; simpl in E; injection E as E0 _; congruence.
  - destruct (Ascii.eqb c q || Ascii.eqb c backslash) eqn:C; destruct (Ascii.eqb d q || Ascii.eqb d backslash) eqn:D; simpl in E.
    + injection E as -> E. destruct (IH s' r r' E) as [-> ->]. auto.
    + injection E as E0 _. subst d. rewrite Ascii.eqb_refl, orb_true_r in D. discriminate D.
    + injection E as E0 _. subst c. rewrite Ascii.eqb_refl, orb_true_r in C. discriminate C.
    + injection E as -> E. destruct (IH s' r r' E) as [-> ->]. auto.
Qed.
Lemma repr_str_shape s : exists q, q <> backslash /\ q <> "]"%char /\ q <> "N"%char /\ repr_str s = String q (escape q s ++ String q "").
Proof. unfold repr_str. destruct (has_char squote s && negb (has_char dquote s)); eexists; (split; [|split; [|split; [|reflexivity]]]); discriminate. Qed.
Lemma repr_str_decodes : decodes repr_str.
Proof.
  intros a b r r' E. destruct (repr_str_shape a) as (q & Nq & _ & _ & Ea), (repr_str_shape b) as (q' & _ & _ & _ & Eb). rewrite Ea, Eb in E. simpl in E.
  injection E as <- E. rewrite !sapp_assoc in E. simpl in E. exact (escape_cut q Nq a b r r' E).
Qed.
Lemma repr_str_opens : opens repr_str.
Proof. intros a. destruct (repr_str_shape a) as (q & _ & Nb & _ & ->). eauto. Qed.
Lemma repr_name_decodes : decodes repr_name.
Proof.
  intros [a|] [b|] r r' E; simpl repr_name in E.
  - destruct (repr_str_decodes a b r r' E) as [-> ->]. auto.
  - destruct (repr_str_shape a) as (q & _ & _ & Nn & Ea). rewrite Ea in E. injection E as E0 _. congruence.
  - destruct (repr_str_shape b) as (q & _ & _ & Nn & Eb). rewrite Eb in E. injection E as E0 _. congruence.
  - injection E as ->. auto.
Qed.
Lemma repr_name_opens : opens repr_name.
Proof. intros [a|]; [apply repr_str_opens|]. simpl. do 2 eexists. split; [reflexivity|discriminate]. Qed.
Lemma join_cons {A} (f : A -> string) x l : comma_join (map f (x :: l)) = f x ++ (match l with [] => "" | _ => ", " ++ comma_join (map f l) end).
Proof. destruct l; simpl; [rewrite sapp_nil|]; reflexivity. Qed.
Lemma join_cut {A} (f : A -> string) : decodes f -> opens f -> forall l l' r r',
  comma_join (map f l) ++ String "]" r = comma_join (map f l') ++ String "]" r' -> l = l' /\ r = r'.
Proof.
  intros D O. induction l as [|x l IH]; intros [|y l'] r r' E.
  - simpl in E. injection E as ->. auto.
  - rewrite join_cons in E. destruct (O y) as (c & s & Ey & N). rewrite Ey in E. simpl in E. injection E as E0 _. congruence.
  - rewrite join_cons in E. destruct (O x) as (c & s & Ex & N). rewrite Ex in E. simpl in E. injection E as E0 _. congruence.
  - rewrite !join_cons, !sapp_assoc in E. apply D in E as [-> E].
    destruct l as [|x2 l], l' as [|y2 l'].
    + injection E as ->. auto.
    + discriminate E.
    + discriminate E.
    + rewrite !sapp_assoc in E. apply (sapp_inv ", ") in E. destruct (IH (y2 :: l') r r' E) as [-> ->]. auto.
Qed.
Lemma repr_list_decodes {A} (f : A -> string) : decodes f -> opens f -> decodes (repr_list f).
Proof. intros D O a b r r' E. unfold repr_list in E. rewrite !sapp_assoc in E. apply (sapp_inv "[") in E. exact (join_cut f D O a b r r' E). Qed.
Lemma repr_list_opens {A} (f : A -> string) : opens (repr_list f).
Proof. intros a. unfold repr_list. simpl. do 2 eexists. split; [reflexivity|discriminate]. Qed.

(** ** Numbers *)
Definition digit (c : ascii) : Prop := In c ["0";"1";"2";"3";"4";"5";"6";"7";"8";"9"]%char.
Lemma uint_lacks c d : ~ digit c -> lacks c (NilEmpty.string_of_uint d).
Proof.
  intros N. induction d; simpl; [apply lacks_nil|..]; (apply lacks_cons; [|exact IHd]); intros <-; apply N; unfold digit; simpl; tauto.
Qed.
Lemma nat_lacks c n : ~ digit c -> lacks c (repr_nat n).
Proof. intros N. unfold repr_nat, NilZero.string_of_uint. pose proof (uint_lacks c (Nat.to_uint n) N) as U. destruct (Nat.to_uint n); try exact U. simpl. apply lacks_cons; [|apply lacks_nil]. intros <-. apply N. left. reflexivity. Qed.
Ltac no_digit := let D := fresh in intros D; unfold digit in D; simpl in D; repeat (destruct D as [D|D]; [discriminate D|]); exact D.
Lemma nat_cut n m r r' : repr_nat n ++ String " " r = repr_nat m ++ String " " r' -> r = r'.
Proof. intros E. apply cut in E as [_ E]; [exact E|apply nat_lacks; no_digit|apply nat_lacks; no_digit]. Qed.
Lemma nats_lack c l : ~ digit c -> c <> ","%char -> c <> " "%char -> lacks c (comma_join (map repr_nat l)).
Proof.
  intros N Nc Ns. induction l as [|n l IH]; [apply lacks_nil|]. rewrite join_cons. apply lacks_app; [apply nat_lacks, N|].
  destruct l as [|m l]; [apply lacks_nil|]. simpl append. apply lacks_cons; [congruence|]. apply lacks_cons; [congruence|]. exact IH.
Qed.
Lemma nats_cut l l' r r' : repr_list repr_nat l ++ r = repr_list repr_nat l' ++ r' -> r = r'.
Proof.
  unfold repr_list. rewrite !sapp_assoc. intros E. apply (sapp_inv "[") in E. simpl append in E.
  assert (L : forall k, lacks "]" (comma_join (map repr_nat k))) by (intros k; apply nats_lack; [no_digit|discriminate|discriminate]).
  change ("]" ++ r) with (String "]" r) in E. change ("]" ++ r') with (String "]" r') in E. apply cut in E as [_ E]; auto.
Qed.

(** ** C80: groups, grids *)
Lemma c80_group : forall h1 g1 h2 g2, exists s1 s2, grp_repr g1 h1 = Ok s1 h1 /\ grp_repr g2 h2 = Ok s2 h2 /\
  (s1 = s2 <-> g_points (gob h1 g1) = g_points (gob h2 g2) /\ class_names h1 g1 = class_names h2 g2).
Proof. intros h1 g1 h2 g2.
  do 2 eexists. split; [reflexivity|]. split; [reflexivity|]. change (grp_class_names h1 g1) with (class_names h1 g1). change (grp_class_names h2 g2) with (class_names h2 g2). split.
  - intros E.
    assert (P : g_points (gob h1 g1) = g_points (gob h2 g2)) by (destruct (g_points (gob h1 g1)), (g_points (gob h2 g2)); [reflexivity|discriminate E|discriminate E|reflexivity]).
    rewrite <- P in E. split; [exact P|]. apply sapp_inv in E. apply nat_cut in E. apply (sapp_inv "tiers. ") in E.
    rewrite <- (sapp_nil (repr_list repr_str (class_names h1 g1))), <- (sapp_nil (repr_list repr_str (class_names h2 g2))) in E.
    apply (repr_list_decodes _ repr_str_decodes repr_str_opens) in E as [E _]. exact E.
  - intros [P Q]. rewrite P, Q. assert (L : List.length (g_tiers (gob h1 g1)) = List.length (g_tiers (gob h2 g2))).
    { apply (f_equal (@List.length _)) in Q. unfold class_names in Q. rewrite !map_length in Q. exact Q. }
    rewrite L. reflexivity.
Qed.
Section WithEnv.
Context `{Env}.
Lemma c80_grid : forall h1 a1 n1 k1 h2 a2 n2 k2,
  mapM grp_name (a_groups (aob h1 a1)) h1 = Ok n1 k1 -> mapM grp_name (a_groups (aob h2 a2)) h2 = Ok n2 k2 ->
  exists s1 s2, grid_repr a1 h1 = Ok s1 k1 /\ grid_repr a2 h2 = Ok s2 k2 /\
  (s1 = s2 <-> n1 = n2 /\ map (class_names k1) (a_groups (aob h1 a1)) = map (class_names k2) (a_groups (aob h2 a2))).
Proof. intros h1 a1 n1 k1 h2 a2 n2 k2.
  intros N1 N2. unfold grid_repr, bind, get_grid, gets. rewrite N1, N2. do 2 eexists. split; [reflexivity|]. split; [reflexivity|].
  change (map (grp_class_names k1)) with (map (class_names k1)). change (map (grp_class_names k2)) with (map (class_names k2)). split.
  - intros E. apply (sapp_inv "AlignedTextGrid with ") in E. apply nat_cut in E. apply (sapp_inv "groups named ") in E.
    apply (repr_list_decodes _ repr_name_decodes repr_name_opens) in E as [-> E]. split; [reflexivity|]. apply (sapp_inv " each with ") in E. apply nats_cut in E.
    apply (sapp_inv " tiers. ") in E. rewrite <- sapp_nil in E. symmetry in E. rewrite <- sapp_nil in E. symmetry in E.
    apply (repr_list_decodes _ (repr_list_decodes _ repr_str_decodes repr_str_opens) (repr_list_opens _)) in E as [E _]. exact E.
  - intros [-> Q].
    assert (L : map (fun g => List.length (g_tiers (gob k1 g))) (a_groups (aob h1 a1)) = map (fun g => List.length (g_tiers (gob k2 g))) (a_groups (aob h2 a2))).
    { apply (f_equal (map (@List.length _))) in Q. rewrite !map_map in Q. unfold class_names in Q.
      etransitivity; [|etransitivity; [exact Q|]]; apply map_ext; intros g; rewrite map_length; reflexivity. }
    assert (L0 : List.length (a_groups (aob h1 a1)) = List.length (a_groups (aob h2 a2))).
    { apply (f_equal (@List.length _)) in Q. rewrite !map_length in Q. exact Q. }
    rewrite L, L0, Q. reflexivity.
Qed.
End WithEnv.

(** ** C80: tiers *)
Lemma c80_tier : forall h1 t1 u1 d1 h2 t2 u2 d2,
  is_point_tier h1 t1 = false -> is_point_tier h2 t2 = false ->
  t_super (tob h1 t1) = Some u1 -> t_sub (tob h1 t1) = Some d1 -> t_super (tob h2 t2) = Some u2 -> t_sub (tob h2 t2) = Some d2 ->
  (forall c, c = t_ec (tob h1 t1) \/ c = u1 -> lacks ";" (class_name h1 c)) -> (forall c, c = t_ec (tob h2 t2) \/ c = u2 -> lacks ";" (class_name h2 c)) ->
  exists s1 s2, tier_repr t1 h1 = Ok s1 h1 /\ tier_repr t2 h2 = Ok s2 h2 /\
  (s1 = s2 <-> class_name h1 (t_ec (tob h1 t1)) = class_name h2 (t_ec (tob h2 t2)) /\ class_name h1 u1 = class_name h2 u2 /\ class_name h1 d1 = class_name h2 d2).
Proof. intros h1 t1 u1 d1 h2 t2 u2 d2.
  unfold is_point_tier. intros P1 P2 U1 D1 U2 D2 L1 L2. unfold tier_repr. rewrite P1, P2, U1, D1, U2, D2. do 2 eexists. split; [reflexivity|]. split; [reflexivity|]. split.
  - intros E. apply (sapp_inv "Sequence tier of ") in E. apply cut in E as [E0 E]; auto. apply (sapp_inv " .superset_class: ") in E. apply cut in E as [E1 E]; auto.
    apply (sapp_inv " .subset_class: ") in E. auto.
  - intros (-> & -> & ->). reflexivity.
Qed.
Lemma c80_tier_error : forall h t, is_point_tier h t = false -> t_super (tob h t) = None \/ t_sub (tob h t) = None -> tier_repr t h = Raise AttributeError h.
Proof. intros h t. unfold is_point_tier. intros P D. unfold tier_repr. rewrite P. destruct (t_super (tob h t)); [|reflexivity]. destruct (t_sub (tob h t)); [|reflexivity]. destruct D; discriminate. Qed.

(** ** C80: names of tiers *)
Lemma mapM_names h : forall gs, (forall g, In g gs -> g_points (gob h g) = false) ->
  mapM grp_tier_names gs h = Ok (map (fun g => map (fun t => t_name (tob h t)) (g_tiers (gob h g))) gs) h.
Proof.
  induction gs as [|g gs IH]; intros P; [reflexivity|]. cbn [mapM map]. unfold bind at 1. unfold grp_tier_names at 1. rewrite (P g) by (left; reflexivity).
  rewrite (bind_ok _ _ _ _ _ (IH (fun k Hk => P k (or_intror Hk)))). reflexivity.
Qed.
Lemma mapM_points h : forall gs, (exists g, In g gs /\ g_points (gob h g) = true) -> mapM grp_tier_names gs h = Raise AttributeError h.
Proof.
  induction gs as [|g gs IH]; intros (k & Hk & P); [destruct Hk|]. cbn [mapM]. unfold bind at 1. unfold grp_tier_names at 1.
  destruct (g_points (gob h g)) eqn:Pg; [reflexivity|]. destruct Hk as [->|Hk]; [congruence|]. unfold bind. rewrite IH; [reflexivity|eauto].
Qed.
Lemma c80_names : forall h a,
  (a_groups (aob h a) = [] -> grid_tier_names a h = Raise ValueError h) /\
  ((exists g, In g (a_groups (aob h a)) /\ g_points (gob h g) = true) -> grid_tier_names a h = Raise AttributeError h) /\
  (a_groups (aob h a) <> [] -> (forall g, In g (a_groups (aob h a)) -> g_points (gob h g) = false) ->
     exists l, grid_tier_names a h = Ok l h /\ Forall2 (fun g r => Forall2 (fun t s => s = t_name (tob h t)) (g_tiers (gob h g)) r) (a_groups (aob h a)) l).
Proof. intros h a.
  unfold grid_tier_names, bind, get_grid, gets. split; [intros ->; reflexivity|]. split.
  - intros P. pose proof (mapM_points h _ P) as Q. destruct (a_groups (aob h a)) as [|g gs]; [destruct P as (? & [] & _)|exact Q].
  - intros Ne P. pose proof (mapM_names h _ P) as Q. destruct (a_groups (aob h a)) as [|g gs]; [contradiction|]. eexists. split; [exact Q|].
    clear. induction (g :: gs) as [|k l IH]; constructor; [|exact IH]. induction (g_tiers (gob h k)); constructor; auto.
Qed.

(** ** C80: intervals *)
Definition above_text (n l : option string) : string :=
  match n with Some n => ", .superset_class: " ++ n ++ match l with Some l => ", .super_instance: " ++ l | None => ", .super_instance, None" end
  | None => ", .superset_class: None" end.
Definition below_text (n : option string) (l : list string) : string :=
  match n with Some n => ", .subset_class: " ++ n ++ match l with [] => "" | _ => ", .subset_list: " ++ repr_list repr_str l end
  | None => ", .subset_class: None" end.
Lemma seq_text h x : plainly_labelled h x ->
  seq_repr x h = Ok ("Class " ++ class_name h (s_cls (sob h x)) ++ ", label: " ++ s_label (sob h x) ++ above_text (name_above h x) (label_above h x) ++ below_text (name_below h x) (labels_below h x)) h.
Proof.
  intros (_ & _ & _ & Up & _). unfold seq_repr, above_text, below_text, name_above, name_below, label_above, labels_below, labels_of.
  destruct (superset_class h (s_cls (sob h x))) as [u|]; cbn [option_map];
    (destruct (subset_class h (s_cls (sob h x))) as [d|]; cbn [option_map]; [destruct (s_subset (sob h x)) as [|y l]|]);
    (destruct (s_super (sob h x)) as [p|]; [destruct (Up p eq_refl) as (Ip & _); destruct (s_subset (sob h p)); [destruct Ip|]|]); reflexivity.
Qed.
Lemma below_comma n l : exists r, below_text n l = String "," r.
Proof. destruct n; simpl; eauto. Qed.
Lemma below_inj n l n' l' : (forall m, n = Some m \/ n' = Some m -> lacks "," m /\ m <> "None") -> (l <> [] -> n <> None) -> (l' <> [] -> n' <> None) ->
  below_text n l = below_text n' l' -> n = n' /\ l = l'.
Proof.
  intros L Nl Nl' E.
  assert (Z : forall k (m : option string), m = None -> (k <> [] -> m <> None) -> k = @nil string) by (intros [|? ?] m -> F; [reflexivity|]; exfalso; apply F; [discriminate|reflexivity]).
  destruct n as [n|], n' as [n'|].
  - destruct (L n (or_introl eq_refl)) as [Ln _], (L n' (or_intror eq_refl)) as [Ln' _]. unfold below_text in E. apply (sapp_inv ", .subset_class: ") in E.
    destruct l as [|y l], l' as [|y' l'].
    + rewrite !sapp_nil in E. subst. auto.
    + rewrite sapp_nil in E. exfalso. exact (cut_end _ _ _ _ Ln E).
    + rewrite sapp_nil in E. symmetry in E. exfalso. exact (cut_end _ _ _ _ Ln' E).
    + apply cut in E as [-> E]; auto. split; [reflexivity|]. apply (sapp_inv " .subset_list: ") in E. rewrite <- sapp_nil in E. symmetry in E. rewrite <- sapp_nil in E. symmetry in E.
      apply (repr_list_decodes _ repr_str_decodes repr_str_opens) in E as [E _]. exact E.
  - rewrite (Z l' None eq_refl Nl') in *. destruct (L n (or_introl eq_refl)) as [Ln Nn]. unfold below_text in E. apply (sapp_inv ", .subset_class: ") in E.
    destruct l as [|y l]; [rewrite sapp_nil in E; contradiction|]. symmetry in E. exfalso. eapply (cut_end "," "None"); [|exact E]. repeat (apply lacks_cons; [discriminate|]). apply lacks_nil.
  - rewrite (Z l None eq_refl Nl) in *. destruct (L n' (or_intror eq_refl)) as [Ln Nn]. unfold below_text in E. apply (sapp_inv ", .subset_class: ") in E.
    destruct l' as [|y l']; [rewrite sapp_nil in E; congruence|]. exfalso. eapply (cut_end "," "None"); [|exact E]. repeat (apply lacks_cons; [discriminate|]). apply lacks_nil.
  - rewrite (Z l None eq_refl Nl), (Z l' None eq_refl Nl'). auto.
Qed.
Ltac none_lacks := repeat (apply lacks_cons; [discriminate|]); apply lacks_nil.
Lemma above_inj n l n' l' b k b' k' : (forall m, n = Some m \/ n' = Some m -> lacks "," m /\ m <> "None") -> (forall m, l = Some m \/ l' = Some m -> lacks "," m) ->
  (l <> None -> n <> None) -> (l' <> None -> n' <> None) ->
  above_text n l ++ below_text b k = above_text n' l' ++ below_text b' k' -> n = n' /\ l = l' /\ below_text b k = below_text b' k'.
Proof.
  intros L Ll Nl Nl' E. destruct (below_comma b k) as [r Er], (below_comma b' k') as [r' Er']. rewrite Er, Er' in *.
  assert (Z : forall k (m : option string), m = None -> (k <> None -> m <> None) -> k = @None string) by (intros [?|] m -> F; [exfalso; apply F; [discriminate|reflexivity]|reflexivity]).
  destruct n as [n|], n' as [n'|].
  - destruct (L n (or_introl eq_refl)) as [Ln _], (L n' (or_intror eq_refl)) as [Ln' _]. unfold above_text in E. rewrite !sapp_assoc in E. apply (sapp_inv ", .superset_class: ") in E.
    destruct l as [l|], l' as [l'|]; rewrite ?sapp_assoc in E; apply cut in E as [-> E]; auto.
    + apply (sapp_inv " .super_instance: ") in E. apply cut in E as [-> ->]; auto.
    + discriminate E.
    + discriminate E.
    + apply (sapp_inv " .super_instance, None") in E. auto.
  - rewrite (Z l' None eq_refl Nl') in *. destruct (L n (or_introl eq_refl)) as [Ln Nn]. unfold above_text in E. rewrite !sapp_assoc in E. apply (sapp_inv ", .superset_class: ") in E.
    exfalso. destruct l as [l|]; rewrite ?sapp_assoc in E; apply (cut "," n "None") in E as [-> _]; auto; none_lacks.
  - rewrite (Z l None eq_refl Nl) in *. destruct (L n' (or_intror eq_refl)) as [Ln Nn]. unfold above_text in E. rewrite !sapp_assoc in E. apply (sapp_inv ", .superset_class: ") in E.
    exfalso. symmetry in E. destruct l' as [l'|]; rewrite ?sapp_assoc in E; apply (cut "," n' "None") in E as [-> _]; auto; none_lacks.
  - rewrite (Z l None eq_refl Nl), (Z l' None eq_refl Nl') in *. apply sapp_inv in E. auto.
Qed.
Lemma above_comma n l r : exists r', above_text n l ++ r = String "," r'.
Proof. destruct n; simpl; eauto. Qed.
Lemma c80_interval : forall h1 x1 h2 x2, plainly_labelled h1 x1 -> plainly_labelled h2 x2 ->
  exists s1 s2, seq_repr x1 h1 = Ok s1 h1 /\ seq_repr x2 h2 = Ok s2 h2 /\
  (s1 = s2 <-> class_name h1 (s_cls (sob h1 x1)) = class_name h2 (s_cls (sob h2 x2)) /\ s_label (sob h1 x1) = s_label (sob h2 x2) /\
     name_above h1 x1 = name_above h2 x2 /\ label_above h1 x1 = label_above h2 x2 /\
     name_below h1 x1 = name_below h2 x2 /\ labels_below h1 x1 = labels_below h2 x2).
Proof. intros h1 x1 h2 x2.
  intros P1 P2. do 2 eexists. split; [apply seq_text, P1|]. split; [apply seq_text, P2|].
  destruct P1 as (C1 & L1 & N1 & U1 & D1), P2 as (C2 & L2 & N2 & U2 & D2). split.
  - intros E. apply (sapp_inv "Class ") in E. apply cut in E as [Ec E]; auto. apply (sapp_inv " label: ") in E.
    assert (A : s_label (sob h1 x1) = s_label (sob h2 x2) /\ above_text (name_above h1 x1) (label_above h1 x1) ++ below_text (name_below h1 x1) (labels_below h1 x1) =
                above_text (name_above h2 x2) (label_above h2 x2) ++ below_text (name_below h2 x2) (labels_below h2 x2)).
    { destruct (above_comma (name_above h1 x1) (label_above h1 x1) (below_text (name_below h1 x1) (labels_below h1 x1))) as [r R],
        (above_comma (name_above h2 x2) (label_above h2 x2) (below_text (name_below h2 x2) (labels_below h2 x2))) as [r' R']. rewrite R, R' in *. apply cut in E as [-> ->]; auto. }
    destruct A as [El A]. apply above_inj in A as (Ea & Eb & B).
    + apply below_inj in B as [Eb' Ek].
      * auto 10.
      * intros m [F|F]; [apply N1|apply N2]; auto.
      * intros F. apply D1. intros Z. apply F. unfold labels_below. rewrite Z. reflexivity.
      * intros F. apply D2. intros Z. apply F. unfold labels_below. rewrite Z. reflexivity.
    + intros m [F|F]; [apply N1|apply N2]; auto.
    + unfold label_above. intros m [F|F].
      * destruct (s_super (sob h1 x1)) as [p|]; [|discriminate F]. injection F as <-. apply (U1 p eq_refl).
      * destruct (s_super (sob h2 x2)) as [p|]; [|discriminate F]. injection F as <-. apply (U2 p eq_refl).
    + unfold label_above. intros F. destruct (s_super (sob h1 x1)) as [p|]; [apply (U1 p eq_refl)|contradiction].
    + unfold label_above. intros F. destruct (s_super (sob h2 x2)) as [p|]; [apply (U2 p eq_refl)|contradiction].
  - intros (-> & -> & -> & -> & -> & ->). reflexivity.
Qed.

(** ** C80: points *)
Lemma repr_nat_inj n m : repr_nat n = repr_nat m -> n = m.
Proof.
  intros E. unfold repr_nat in E. apply (f_equal NilZero.uint_of_string) in E.
  assert (N : forall k, Nat.to_uint k <> Decimal.Nil) by (intros k; rewrite <- (DecimalNat.Unsigned.of_to k), DecimalNat.Unsigned.to_of; apply DecimalFacts.unorm_nonnil).
  rewrite !NilZero.usu in E by apply N. injection E as E. exact (DecimalNat.Unsigned.to_uint_inj _ _ E).
Qed.
Lemma index_first x : forall l i, nth_error l i = Some x -> (forall j, (j < i)%nat -> nth_error l j <> Some x) -> index_of x l = Some i.
Proof.
  induction l as [|y l IH]; intros [|i] E N; try discriminate E; simpl.
  - injection E as ->. rewrite Nat.eqb_refl. reflexivity.
  - destruct (Nat.eqb_spec x y) as [<-|Ne]; [exfalso; apply (N 0%nat); [lia|reflexivity]|].
    rewrite (IH i); [reflexivity|exact E|]. intros j Hj. apply (N (S j)). lia.
Qed.
Definition place_text (i : option nat) : string := match i with Some i => " tier_index: " ++ repr_nat i | None => "" end.
Lemma point_text h x i : place h x i -> pt_repr x h = Ok ("Class " ++ class_name h (s_cls (sob h x)) ++ ", label: " ++ s_label (sob h x) ++ ";" ++ place_text i) h.
Proof.
  intros P. unfold pt_repr, bind, get_seq, gets, ret. destruct i as [i|].
  - destruct P as (t & Et & Ei & Ne). rewrite Et. pose proof (index_first x _ i Ei Ne) as Ix. destruct (t_seq (tob h t)) as [|y l] eqn:El; [destruct i; discriminate Ei|].
    unfold tier_index, bind, get_seq, gets, ret. rewrite Et, El, Ix. rewrite !sapp_assoc. reflexivity.
  - simpl in P. rewrite P. unfold place_text. rewrite sapp_nil. reflexivity.
Qed.
Lemma c80_point : forall h1 x1 i1 h2 x2 i2,
  place h1 x1 i1 -> place h2 x2 i2 ->
  lacks "," (class_name h1 (s_cls (sob h1 x1))) -> lacks "," (class_name h2 (s_cls (sob h2 x2))) -> lacks ";" (s_label (sob h1 x1)) -> lacks ";" (s_label (sob h2 x2)) ->
  exists s1 s2, pt_repr x1 h1 = Ok s1 h1 /\ pt_repr x2 h2 = Ok s2 h2 /\
  (s1 = s2 <-> class_name h1 (s_cls (sob h1 x1)) = class_name h2 (s_cls (sob h2 x2)) /\ s_label (sob h1 x1) = s_label (sob h2 x2) /\ i1 = i2).
Proof.
  intros h1 x1 i1 h2 x2 i2 P1 P2 C1 C2 L1 L2. do 2 eexists. split; [apply point_text, P1|]. split; [apply point_text, P2|]. split.
  - intros E. apply (sapp_inv "Class ") in E. apply cut in E as [Ec E]; auto. apply (sapp_inv " label: ") in E. apply cut in E as [El E]; auto. split; [exact Ec|]. split; [exact El|].
    destruct i1 as [i1|], i2 as [i2|]; try discriminate E; [|reflexivity]. apply (sapp_inv " tier_index: ") in E. apply repr_nat_inj in E. subst. reflexivity.
  - intros (-> & -> & ->). reflexivity.
Qed.
