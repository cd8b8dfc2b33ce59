(** Specification of the pixel of a cluster over the real numbers. *)
From Coq Require Import Reals.
From Flocq Require Import Core.
From Verif Require Export S_Display.
Global Open Scope Z_scope.

(** The exact mean position in eighths of a pixel, and its rotation. *)
Definition exact_mean (s t : Z) : R := (8 * IZR s / IZR t)%R.
Definition exact_x (rot : rotation) (c : rcluster) : R :=
  (exact_mean (sum_x c) (sum_tot c) * B2R (rot_cos rot) - exact_mean (sum_y c) (sum_tot c) * B2R (rot_sin rot))%R.
Definition exact_y (rot : rotation) (c : rcluster) : R :=
  (exact_mean (sum_x c) (sum_tot c) * B2R (rot_sin rot) + exact_mean (sum_y c) (sum_tot c) * B2R (rot_cos rot))%R.

(** [i] is the integer part of a number that differs from [v] by less than
    2^-36. *)
Definition near_part (v : R) (i : Z) : Prop :=
  exists u, (Rabs (u - v) < / IZR (2 ^ 36))%R /\ i = Ztrunc u.
