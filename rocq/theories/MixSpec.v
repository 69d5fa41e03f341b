(** * MixSpec: groups of points beside groups of intervals that differ in extent.
    What the vocabulary of C78 means. *)
From Verif Require Import WidenSpec.
Open Scope Z_scope.

(** A group of points, apart from the groups [ivs] of intervals: it has a tier, its
    tiers are of classes of points, and [xmin] and [xmax] of the group are [p] and [q]. *)
Definition points_at (h : heap) (ivs : list gid) (p q : Z) (g : gid) : Prop :=
  g_points (gob h g) = true /\ g_tiers (gob h g) <> [] /\
  grp_xmin g h = Ok (Some p) h /\ grp_xmax g h = Ok (Some q) h /\
  forall t, In t (g_tiers (gob h g)) ->
    issubclass h (t_ec (tob h t)) cPoint = true /\ issubclass h (t_ec (tob h t)) cInterval = false /\
    (forall k, In k ivs -> ~ In t (g_tiers (gob h k))) /\ forall x, In x (t_seq (tob h t)) -> live h x.
