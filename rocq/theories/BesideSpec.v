(** * BesideSpec: reading a text grid with points beside rows of different extent.
    What the vocabulary of C79 means. *)
From Verif Require Import WidenSpec.
Open Scope Z_scope.

(** There is a point at [z] in the tier [r]. *)
Definition point_time (r : rawtier) (z : Z) : Prop := exists x, In (ERaw (Some z) None x) (rt_entries r).
(** Of the point tiers [ps]: the first time of all points, and the last of the times
    at which the tiers start. *)
Definition first_point (ps : list (rawtier * cid)) : Z -> Prop := least (fun z => exists p, In p ps /\ point_time (fst p) z).
Definition last_first_point (ps : list (rawtier * cid)) : Z -> Prop := greatest (fun z => exists p, In p ps /\ least (point_time (fst p)) z).
(** [v] is [z] for the interval tiers of some row. *)
Definition row_value (h : heap) (rows : list (list rawtier)) (css : list (list cid)) (v : list (rawtier * cid) -> Z) (z : Z) : Prop :=
  exists row ocs, In (row, ocs) (combine rows css) /\ interval_part h row ocs <> [] /\ v (interval_part h row ocs) = z.
(** What is written for a row: its interval tiers in the order of their classes,
    remade as in C77, then its point tiers, each with the row's points in order of time. *)
Definition wrote_beside `{Env} (s0 s1 e1 lo hi : Z) (h : heap) (row : list rawtier) (ocs : list cid)
    (out : list rawtier * list (string * list (bool * option Z * option Z * string))) : Prop :=
  exists rs o1 o2, fst out = (rs ++ map fst (point_part h row ocs))%list /\ snd out = (o1 ++ o2)%list /\
    (interval_part h row ocs = [] /\ rs = [] /\ o1 = [] \/
     wrote_row_remade s0 s1 e1 lo hi h (map fst (interval_part h row ocs), map snd (interval_part h row ocs)) (rs, o1)) /\
    Forall2 (wrote h) (point_part h row ocs) o2.
