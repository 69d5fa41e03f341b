(** * PolarSpec: what the properties of PoLaR annotations talk about. *)
From Verif Require Export LookupSpec.
Open Scope Z_scope.

(** [closest h t x y]: [y] is the entry of tier [t] nearest in time to [x] (the
    first such entry). *)
Definition closest (h : heap) (t : tid) (x y : oid) : Prop :=
  exists a i, s_start (sob h x) = Some a /\ nearest_at h t a i /\ nth_error (t_seq (tob h t)) i = Some y.
(** ... and at practically the same time. *)
Definition partner `{Env} (h : heap) (t : tid) (x y : oid) : Prop :=
  closest h t x y /\ exists a b, s_start (sob h x) = Some a /\ s_start (sob h y) = Some b /\ near a b.
(** A tier whose entries have known times and know their tier. *)
Definition own_points (h : heap) (t : tid) : Prop :=
  forall x, In x (t_seq (tob h t)) -> s_start (sob h x) <> None /\ s_intier (sob h x) = Some t.

(** A string has, or has not, the character [c]. *)
Fixpoint has_char (c : Ascii.ascii) (s : string) : Prop :=
  match s with EmptyString => False | String a s' => a = c \/ has_char c s' end.
(** The characters of a string other than [c], in order. *)
Definition others (c : Ascii.ascii) (s : string) : string :=
  string_of_list_ascii (List.filter (fun a => negb (Ascii.eqb a c)) (list_ascii_of_string s)).
