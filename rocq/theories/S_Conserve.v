(** Sums of columns of numbers, as real numbers. *)
From Coq Require Import Reals List.
From Flocq Require Import Core.
From Verif Require Export S_Centroid S_Motion.
Global Open Scope Z_scope.
Global Open Scope list_scope.

(** The sum of a column, and of the products of two columns. *)
Definition rsum (l : list f64) : R := fold_right (fun v s => (B2R v + s)%R) 0%R l.
Definition moment (xs ws : list f64) : R :=
  fold_right (fun p s => (B2R (fst p) * B2R (snd p) + s)%R) 0%R (combine xs ws).

(** [v] is [exact], which is not negative, up to a relative error of 2^-51. *)
Definition nearly (v exact : R) : Prop := (Rabs (v - exact) <= bpow radix2 (-51) * exact)%R.

(** The number of zeros in a column. *)
Definition zeros (l : list f64) : Z := zlen (filter (fun v => fle v (f_of_Z 0) && fge v (f_of_Z 0)) l).
Definition uncharged (data : list hit) : Z := zlen (filter (fun h => h_tot h =? 0) data).
