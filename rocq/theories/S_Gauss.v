(** Specification of the fast Gaussian fit. *)
From Coq Require Import Reals Sorting.Permutation Sorting.Sorted.
From Verif Require Export S_Centroid.
Global Open Scope Z_scope.
Global Open Scope list_scope.

(** A double that is exactly the integer [m], or half of it. *)
Definition is_whole (x : f64) (m : Z) : Prop := is_finite x = true /\ B2R x = IZR m.
Definition is_half (x : f64) (m : Z) : Prop := is_finite x = true /\ B2R x = (IZR m / 2)%R.

(** Twice the median of a list of integers: twice the middle one or the sum of
    the middle two of the values in ascending order. *)
Definition twice_median (l : list Z) (m : Z) : Prop :=
  exists s k, Permutation l s /\ StronglySorted Z.le s /\
    ((length s = (2 * k + 1)%nat /\ exists a, nth_error s k = Some a /\ m = 2 * a) \/
     (length s = (2 * k + 2)%nat /\ exists a b, nth_error s k = Some a /\ nth_error s (S k) = Some b /\ m = a + b)).

(** The hits above the median, in order. *)
Definition above (m : Z) (data : list hit) : list hit := filter (fun h => m <? 2 * h_tot h) data.

(** The row of the linear system for a hit: its coordinates and the logarithm
    of its height over the median; and the right hand side. *)
Definition is_row (log : f64 -> f64) (m : Z) (h : hit) (r : f64 * f64 * f64) : Prop :=
  is_whole (fst (fst r)) (h_x h) /\ is_whole (snd (fst r)) (h_y h) /\
  exists v, is_half v (2 * h_tot h - m) /\ snd r = fmul (f_of_Z 1) (log v).
Definition is_rhs (h : hit) (b : f64) : Prop := is_whole b (h_x h * h_x h + h_y h * h_y h).
