(** * GroupSpec: what the properties of tier groups talk about. *)
From Verif Require Export TierSpec.
Open Scope Z_scope.

(** ** Time spans *)
Definition span : Type := Z * Z.
(** The time two spans share. *)
Definition shared (p q : span) : Z := Z.max 0 (Z.min (snd p) (snd q) - Z.max (fst p) (fst q)).
(** The time between two spans that do not overlap. *)
Definition apart_by (p q : span) : Z := Z.max (fst q - snd p) (fst p - snd q).
(** Spans in order and not overlapping. *)
Definition ordered (l : list span) : Prop :=
  forall i j p q, (i < j)%nat -> nth_error l i = Some p -> nth_error l j = Some q -> snd p <= fst q.
Definition lasting (l : list span) : Prop := forall p, In p l -> fst p < snd p.
(** [best U q i]: span number [i] of [U] suits [q] best: no span shares more
    time with [q], and no earlier one shares as much; and if none shares time
    with [q], none is nearer. *)
Definition best (U : list span) (q : span) (i : nat) : Prop :=
  exists p, nth_error U i = Some p /\
    forall j r, nth_error U j = Some r ->
      shared r q <= shared p q /\
      (0 < shared p q -> (j < i)%nat -> shared r q < shared p q) /\
      (shared p q = 0 -> apart_by p q <= apart_by r q).

(** ** Related tiers *)

(** [tiles h a l b]: the intervals [l] follow each other without gaps from time
    [a] to time [b], each of positive duration. *)
Fixpoint tiles (h : heap) (a : Z) (l : list oid) (b : Z) : Prop :=
  match l with
  | [] => a = b
  | x :: l' => exists m, s_start (sob h x) = Some a /\ s_end (sob h x) = Some m /\ a < m /\ tiles h m l' b
  end.
(** The intervals [b] fill the interval [u]. *)
Definition fills (h : heap) (u : oid) (b : list oid) : Prop :=
  exists s e, s_start (sob h u) = Some s /\ s_end (sob h u) = Some e /\ s < e /\ tiles h s b e.
(** Intervals in order and not overlapping. *)
Definition in_turn (h : heap) (l : list oid) : Prop :=
  forall i j x y, (i < j)%nat -> nth_error l i = Some x -> nth_error l j = Some y ->
  exists e s, s_end (sob h x) = Some e /\ s_start (sob h y) = Some s /\ e <= s.
(** [snug h ts bss]: each tier of [ts] but the first is cut by [bss] into blocks
    that fill the intervals of the tier above. *)
Fixpoint snug (h : heap) (ts : list tid) (bss : list (list (list oid))) : Prop :=
  match ts, bss with
  | t :: ((u :: _) as r), bs :: bss' =>
    concat bs = t_seq (tob h u) /\ Forall2 (fills h) (t_seq (tob h t)) bs /\ snug h r bss'
  | [_], [] => True
  | _, _ => False
  end.

(** The time span of an interval, and that it has one. *)
Definition span_of (h : heap) (x : oid) : span :=
  (match s_start (sob h x) with Some a => a | None => 0 end, match s_end (sob h x) with Some a => a | None => 0 end).
Definition dated (h : heap) (x : oid) : Prop :=
  s_start (sob h x) = Some (fst (span_of h x)) /\ s_end (sob h x) = Some (snd (span_of h x)) /\ fst (span_of h x) < snd (span_of h x).
(** [parted h U bs]: the intervals of block number [i] of [bs] overlap interval
    number [i] of [U] and suit no other better; no block is empty and none
    has gaps. *)
Definition parted (h : heap) (U : list oid) (bs : list (list oid)) : Prop :=
  (forall u, In u U -> dated h u) /\ List.length bs = List.length U /\
  (forall b, In b bs -> b <> [] /\ exists a e, tiles h a b e) /\
  (forall i u b y, nth_error U i = Some u -> nth_error bs i = Some b -> In y b ->
     best (map (span_of h) U) (span_of h y) i /\ 0 < shared (span_of h u) (span_of h y)).
(** [cut_up h ts bss]: each tier of [ts] but the first is cut by [bss] into blocks
    that belong to the intervals of the tier above. *)
Fixpoint cut_up (h : heap) (ts : list tid) (bss : list (list (list oid))) : Prop :=
  match ts, bss with
  | t :: ((u :: _) as r), bs :: bss' =>
    concat bs = t_seq (tob h u) /\ parted h (t_seq (tob h t)) bs /\ cut_up h r bss'
  | [_], [] => True
  | _, _ => False
  end.

(** [meeting h U L]: intervals [U] in order, and intervals [L] that follow each
    other without gaps; each of [L] overlaps one of [U], and each of [U] suits
    one of [L] best. *)
Definition meeting (h : heap) (U L : list oid) : Prop :=
  in_turn h U /\ (forall u, In u U -> dated h u) /\ (exists a e, tiles h a L e) /\
  (forall y, In y L -> exists u, In u U /\ 0 < shared (span_of h u) (span_of h y)) /\
  (forall i, (i < List.length U)%nat -> exists y, In y L /\ best (map (span_of h) U) (span_of h y) i).

(** [tier_chain h ts]: the tiers [ts] are, from top to bottom, of the classes of
    one complete chain of classes. *)
Fixpoint joined_tiers (h : heap) (ts : list tid) : Prop :=
  match ts with
  | t :: ((u :: _) as r) =>
    t_sub (tob h t) = Some (t_ec (tob h u)) /\ t_super (tob h u) = Some (t_ec (tob h t)) /\ joined_tiers h r
  | _ => True
  end.
Definition tops_out (h : heap) (t : tid) : Prop :=
  exists c, t_super (tob h t) = Some c /\ issubclass h c cTop = true.
Definition bottoms_out (h : heap) (t : tid) : Prop :=
  exists c, t_sub (tob h t) = Some c /\ issubclass h c cBottom = true.
Definition tier_chain (h : heap) (ts : list tid) : Prop :=
  joined_tiers h ts /\ NoDup (map (fun t => t_ec (tob h t)) ts) /\
  (forall t, In t ts -> (t < List.length (h_tier h))%nat /\
     issubclass h (t_ec (tob h t)) cTop = false /\ issubclass h (t_ec (tob h t)) cBottom = false) /\
  (exists t, hd_error ts = Some t /\ tops_out h t) /\
  (exists t, hd_error (rev ts) = Some t /\ bottoms_out h t).

(** [parents h U bs]: the children of each interval of [U] are those of the
    corresponding block, linked end to end, and know their parent. *)
Definition parent_of (h : heap) (u : oid) (b : list oid) : Prop :=
  s_subset (sob h u) = b /\ chained h b /\
  forall y, In y b -> s_super (sob h y) = Some u /\ s_within (sob h y) = Some (WSeq u).
Fixpoint related_tiers (h : heap) (ts : list tid) (bss : list (list (list oid))) : Prop :=
  match ts, bss with
  | t :: ((u :: _) as r), bs :: bss' =>
    Forall2 (parent_of h) (t_seq (tob h t)) bs /\ related_tiers h r bss'
  | _, _ => True
  end.
(** Entries fit to be related: distinct existing intervals of the tier's class,
    with a label other than "#" and without a parent. *)
Definition fresh_tier (h : heap) (t : tid) : Prop :=
  linkable h (t_ec (tob h t)) (t_seq (tob h t)) /\ issubclass h (t_ec (tob h t)) cPoint = false /\
  forall x, In x (t_seq (tob h t)) -> s_super (sob h x) = None.
Fixpoint classes_joined (h : heap) (ts : list tid) : Prop :=
  match ts with
  | t :: ((u :: _) as r) => subset_class h (t_ec (tob h t)) = Some (t_ec (tob h u)) /\ classes_joined h r
  | _ => True
  end.
(** Values of existing objects and contents of the tiers are as before; objects
    in none of the tiers [ts] did not change at all; what is new are boundary
    objects and the group [g]. *)
Definition only_relates (g : gid) (ts : list tid) (h h' : heap) : Prop :=
  (forall i, (i < List.length (h_seq h))%nat ->
     s_cls (sob h' i) = s_cls (sob h i) /\ s_start (sob h' i) = s_start (sob h i) /\
     s_end (sob h' i) = s_end (sob h i) /\ s_label (sob h' i) = s_label (sob h i) /\
     s_intier (sob h' i) = s_intier (sob h i)) /\
  (forall i, (i < List.length (h_seq h))%nat -> (forall t, In t ts -> ~ In i (t_seq (tob h t))) ->
     sob h' i = sob h i) /\
  (forall i, (List.length (h_seq h) <= i < List.length (h_seq h'))%nat -> is_boundary h' i) /\
  h_cls h' = h_cls h /\ h_grid h' = h_grid h /\ List.length (h_tier h') = List.length (h_tier h) /\
  (forall t, ~ In t ts -> tob h' t = tob h t) /\
  (forall t, In t ts -> tob h' t = set_t_within (Some (WGroup g)) (tob h t)) /\
  g = List.length (h_grp h) /\ List.length (h_grp h') = S g /\ (forall k, (k < g)%nat -> gob h' k = gob h k).

(** ** Filling the gaps of a tier *)

(** A tier whose entries are intervals of positive duration, in order and not
    overlapping, after time 0, and whose new entries would be intervals. *)
Definition gappy (h : heap) (t : tid) : Prop :=
  (t < List.length (h_tier h))%nat /\
  issubclass h (t_ec (tob h t)) cInterval = true /\ issubclass h (t_ec (tob h t)) cPoint = false /\
  (t_seqec (tob h t) = Some (t_ec (tob h t)) \/ t_seqec (tob h t) = None) /\ t_sub (tob h t) <> None /\
  in_turn h (t_seq (tob h t)) /\
  forall x, In x (t_seq (tob h t)) -> (x < List.length (h_seq h))%nat /\ is_point h x = false /\
    exists a b, s_start (sob h x) = Some a /\ s_end (sob h x) = Some b /\ 0 < a < b.
Definition stands_alone (h : heap) (t : tid) : Prop := forall g, t_within (tob h t) <> Some (WGroup g).
(** [gap h l x y]: [y] comes right after [x] in [l] and starts at [e], later than
    the end [s] of [x]. *)
Definition gap (h : heap) (l : list oid) (s e : Z) : Prop :=
  exists i x y, nth_error l i = Some x /\ nth_error l (S i) = Some y /\
    s_end (sob h x) = Some s /\ s_start (sob h y) = Some e /\ s < e.
(** From [h] to [h'] the gaps of tier [t] have been filled, and nothing else happened. *)
Definition gaps_filled (h h' : heap) (t : tid) : Prop :=
  let l := t_seq (tob h t) in let l' := t_seq (tob h' t) in
  (exists x y a b, hd_error l = Some x /\ hd_error (rev l) = Some y /\ s_start (sob h x) = Some a /\ s_end (sob h y) = Some b /\
     tiles h' a l' b) /\
  List.filter (fun x => (x <? List.length (h_seq h))%nat) l' = l /\
  (forall y, In y l' -> (List.length (h_seq h) <= y)%nat ->
     s_cls (sob h' y) = t_ec (tob h t) /\ s_label (sob h' y) = EmptyString /\ s_super (sob h' y) = None /\ s_subset (sob h' y) = [] /\
     exists s e, s_start (sob h' y) = Some s /\ s_end (sob h' y) = Some e /\ gap h l s e) /\
  (forall i, (i < List.length (h_seq h))%nat -> sob h' i = sob h i) /\
  (forall u, u <> t -> tob h' u = tob h u) /\ List.length (h_tier h') = List.length (h_tier h) /\
  tob h' t = set_t_seqec (t_seqec (tob h' t)) (set_t_seq l' (tob h t)) /\
  h_cls h' = h_cls h /\ h_grp h' = h_grp h /\ h_grid h' = h_grid h.
