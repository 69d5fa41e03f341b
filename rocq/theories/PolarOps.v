(** * PolarOps: model of the PoLaR classes (polar/polar_classes.py,
    polar/polar_grid.py).  The label functions [certainty], [prstr_status] and
    [tp_override] are in GridOps.v. *)
From Verif Require Export GridOps.
Open Scope Z_scope.

Section WithEnv.
Context `{Env}.

(** The attributes that the PoLaR classes add to points
    (polar_classes.py:65-67, 154-158): [level] of a TurningPoints,
    [turning_point], [ranges_tier] and [range_interval] of a Levels.  All are
    None after construction. *)
Record polar := Polar {
  p_level : oid -> option oid;
  p_turn : oid -> option oid;
  p_rtier : oid -> option tid;
  p_range : oid -> option oid
}.
Definition polar0 : polar := Polar (fun _ => None) (fun _ => None) (fun _ => None) (fun _ => None).
Definition put {A} (f : oid -> option A) (x : oid) (v : option A) : oid -> option A :=
  fun y => if Nat.eqb y x then v else f y.

(** These methods read the heap of points and tiers and change only the
    attributes above; an exception keeps the attributes set so far. *)
Inductive pres := POk (p : polar) | PRaise (e : exn) (p : polar).
Definition pbind (r : pres) (f : polar -> pres) : pres :=
  match r with POk p => f p | PRaise e p => PRaise e p end.

(** [get_nearest_point] (points/tiers.py:190-202). *)
Definition nearest_point (h : heap) (t : tid) (time : Z) : exn + oid :=
  match nearest_point_index t time h with
  | Ok i _ => match nth_error (t_seq (tob h t)) i with Some y => inr y | None => inl IndexError end
  | Raise e _ => inl e
  end.

(** [Levels.set_turning_point] (polar_classes.py:167-177, [lev = true]) and
    [TurningPoints.set_level] (69-79, [lev = false]), which call each other.
    [self.intier] None makes the next [get_nearest_point] an AttributeError.
    Simplification: the points found are taken to be of the class that has the
    method that is called on them. *)
Definition pair_of (p : polar) (lev : bool) : oid -> option oid := if lev then p_turn p else p_level p.
Definition set_pair (lev : bool) (x y : oid) (p : polar) : polar :=
  if lev then Polar (p_level p) (put (p_turn p) x (Some y)) (p_rtier p) (p_range p)
  else Polar (put (p_level p) x (Some y)) (p_turn p) (p_rtier p) (p_range p).
Fixpoint set_partner (n : nat) (h : heap) (lev : bool) (x : oid) (t : option tid) (p : polar) : pres :=
  match n with
  | O => PRaise RecursionError p
  | S n' =>
    match t with
    | None => PRaise AttributeError p
    | Some t =>
      match s_start (sob h x) with
      | None => PRaise TypeError p
      | Some a =>
        match nearest_point h t a with
        | inl e => PRaise e p
        | inr y =>
          if bool_decide (pair_of p lev x = Some y) then POk p
          else match s_start (sob h y) with
               | None => PRaise TypeError p
               | Some b =>
                 if isclose a b
                 then set_partner n' h (negb lev) y (s_intier (sob h x)) (set_pair lev x y p)
                 else POk p
               end
        end
      end
    end
  end.

(** [for l in self.Levels: ...] (polar_grid.py:46-54). *)
Fixpoint pfor (l : list oid) (f : oid -> polar -> pres) (p : polar) : pres :=
  match l with [] => POk p | x :: l' => pbind (f x p) (pfor l' f) end.
(** [_relate_levels_and_points] (52-54). *)
Definition relate_points (n : nat) (h : heap) (lv tp : tid) (p : polar) : pres :=
  pfor (t_seq (tob h lv)) (fun x => set_partner n h true x (Some tp)) p.

(** [set_ranges_tier], [set_range_interval] (polar_classes.py:160-165).  An
    empty tier is false. *)
Definition set_range (h : heap) (rt : tid) (x : oid) (p : polar) : pres :=
  let p1 := Polar (p_level p) (p_turn p) (put (p_rtier p) x (Some rt)) (p_range p) in
  match t_seq (tob h rt) with
  | [] => POk p1
  | _ => match pt_interval x rt h with
         | Ok r _ => POk (Polar (p_level p1) (p_turn p1) (p_rtier p1) (put (p_range p1) x r))
         | Raise e _ => PRaise e p1
         end
  end.
(** [_relate_levels_and_ranges] (polar_grid.py:46-50). *)
Definition relate_ranges (h : heap) (lv rt : tid) (p : polar) : pres :=
  match t_seq (tob h lv), t_seq (tob h rt) with
  | _ :: _, _ :: _ => pfor (t_seq (tob h lv)) (set_range h rt) p
  | _, _ => POk p
  end.

End WithEnv.

(** ** Labels *)

(** [label.split("-")] for a one-character separator (polar_classes.py:114). *)
Fixpoint split_on (c : Ascii.ascii) (s : string) : list string :=
  match s with
  | EmptyString => [EmptyString]
  | String a s' =>
    if Ascii.eqb a c then EmptyString :: split_on c s'
    else match split_on c s' with
         | w :: ws => String a w :: ws
         | [] => [String a EmptyString]
         end
  end.
(** [Ranges.range] (112-119): None stands for nan.  [float] is any partial
    function from strings to numbers (None: ValueError). *)
Definition rng_range {F} (float : string -> option F) (lab : string) : list (option F) :=
  match all_some (map float (split_on "-"%char lab)) with
  | Some l => map Some l
  | None => [None; None]
  end.
(** [low] (121-123) and [high] (125-127): None stands for an IndexError. *)
Definition rng_low {F} (float : string -> option F) (lab : string) : option (option F) :=
  nth_error (rng_range float lab) 0.
Definition rng_high {F} (float : string -> option F) (lab : string) : option (option F) :=
  nth_error (rng_range float lab) 1.
(** [bands] (129-131): [np.linspace(low, high, num=6)].  Simplification: exact,
    in fifths of the unit of [low] and [high]. *)
Definition rng_bands (low high : Z) : list Z :=
  map (fun i => 5 * low + Z.of_nat i * (high - low)) (seq 0 6).

(** [label.replace(c, "")]. *)
Fixpoint drop_char (c : Ascii.ascii) (s : string) : string :=
  match s with
  | EmptyString => EmptyString
  | String a s' => if Ascii.eqb a c then drop_char c s' else String a (drop_char c s')
  end.
(** [Levels.level] (185-187): None stands for a ValueError. *)
Definition lv_level (int : string -> option Z) (lab : string) : option Z :=
  int (drop_char "?"%char lab).
(** Python slicing [l[i:j]] with integer bounds. *)
Definition py_bound (n : nat) (i : Z) : nat :=
  Z.to_nat (Z.min (Z.of_nat n) (if i <? 0 then Z.max 0 (i + Z.of_nat n) else i)).
Definition py_slice {A} (l : list A) (i j : Z) : list A :=
  let a := py_bound (List.length l) i in let b := py_bound (List.length l) j in
  take (b - a) (drop a l).
(** [band] (189-191). *)
Definition lv_band (low high lev : Z) : list Z := py_slice (rng_bands low high) (lev - 1) (lev + 1).
