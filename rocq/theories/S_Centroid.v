(** Specification of the centroid of a cluster: exact sums and means. *)
From Coq Require Import Reals.
From Flocq Require Import Core.
From Verif Require Export Base F64 M_Hit M_Neutron.
Global Open Scope Z_scope.

(** Sum of [g] over the hits. *)
Definition hsum (g : hit -> Z) (c : list hit) : Z := fold_right (fun h s => g h + s) 0 c.

Definition tof_value (h : hit) : Z := match h_tof h with Some t => t | None => 0 end.

(** What the decoder produces: sensor coordinates, 10-bit ToT, an initialised
    32-bit time of flight. *)
Definition sensor_hit (h : hit) : Prop :=
  0 <= h_x h <= 515 /\ 0 <= h_y h <= 515 /\ 0 <= h_tot h <= 1023 /\
  exists t, h_tof h = Some t /\ 0 <= t < 2 ^ 32.

(** [v] is [exact] up to a relative error of 2^-51. *)
Definition close (v : f64) (exact : R) : Prop :=
  is_finite v = true /\ (Rabs (B2R v - exact) <= bpow radix2 (-51) * Rabs exact)%R.

(** Correct rounding to nearest even. *)
Definition rounded (v : f64) (exact : R) : Prop :=
  is_finite v = true /\
  B2R v = round radix2 (FLT_exp (-1074) 53) ZnearestE exact.
