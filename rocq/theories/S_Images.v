(** Where true events and true hits are to be counted in the time-of-flight images
    (one pixel of the image per pixel of the sensor). *)
From Coq Require Import Reals.
From Flocq Require Import Core.
From Verif Require Export S_Events S_Tof.
Global Open Scope Z_scope.

(** Time of flight of an event in seconds: at least, and at most. *)
Definition at_least (ev : event) : R := (IZR (Z.max 0 (at_t (e_at ev) - 25 * e_pulse ev)) / 10 ^ 9)%R.
Definition at_most (w : Z) (ev : event) : R := (IZR (at_t (e_at ev) + w - 25 * e_pulse ev) / 10 ^ 9)%R.

(** A cell: bin, column, row; [None]: not in the images. *)
Definition cell : Type := option (nat * Z * Z).

(** Cells in which event [ev] may be counted: within [a] pixels of it, and in a bin
    that some time of the event belongs to, up to one rounding. *)
Inductive placed (a w : Z) (edges : list f64) (ev : event) : cell -> Prop :=
| placed_in i x y lo hi :
    Z.abs (x - at_x (e_at ev)) <= a -> Z.abs (y - at_y (e_at ev)) <= a -> 0 <= x <= 515 -> 0 <= y <= 515 ->
    nth_error edges i = Some lo -> nth_error edges (S i) = Some hi ->
    (B2R lo < at_most w ev * (1 + bpow radix2 (-53)))%R -> (at_least ev * (1 - bpow radix2 (-53)) <= B2R hi)%R ->
    placed a w edges ev (Some (i, x, y))
| placed_early lo : nth_error edges 0 = Some lo ->
    (at_least ev * (1 - bpow radix2 (-53)) <= B2R lo)%R -> placed a w edges ev None
| placed_late hi : nth_error edges (length edges - 1) = Some hi ->
    (B2R hi <= at_most w ev * (1 + bpow radix2 (-53)))%R -> placed a w edges ev None.

Definition is_cell (i : nat) (x y : Z) (c : cell) : bool :=
  match c with Some (j, u, v) => Nat.eqb j i && (u =? x) && (v =? y) | None => false end.
Definition in_image (i : nat) (c : cell) : bool :=
  match c with Some (j, _, _) => Nat.eqb j i | None => false end.
Definition number {A} (p : A -> bool) (l : list A) : Z := zlen (filter p l).

(** A true hit is counted in bin [i] at its own pixel. *)
Definition hit_counted (edges : list f64) (i : nat) (x y : Z) (h : hit) : Prop :=
  h_x h = x /\ h_y h = y /\
  exists t, h_tof h = Some t /\
    in_bin edges (fdiv (f_of_Z (25 * t)) (f_of_Z 1000000000)) i /\
    before_last edges (fdiv (f_of_Z (25 * t)) (f_of_Z 1000000000)).
