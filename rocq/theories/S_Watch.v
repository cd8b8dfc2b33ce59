(** What a program that ignores the pulses should see of a run (C93). *)
From Verif Require Export S_Measure S_Events S_Gui.
Global Open Scope Z_scope.
Global Open Scope list_scope.

(** A hit at [H] can be dated after one at [t]: less than 13.4 s apart, or within
    the first 26.8 s of the run. *)
Definition follows (t H : Z) : Prop := Z.abs (H - t) < 2 ^ 29 \/ t <= H < 2 ^ 30.

(** [watched can chip t l hs t']: the acts [l], after a hit at [t], have the hits
    [hs], each at a time that [can] follow the time of the one before, with the
    time in their frame of 666667 ticks.  Time packets and pulses may come at any
    time. *)
Inductive watched (can : Z -> Z -> Prop) (chip : Z) : Z -> list act -> list hit -> Z -> Prop :=
| wd_nil t : watched can chip t [] [] t
| wd_ref t G l hs t' : 0 <= G < 2 ^ 48 -> watched can chip t l hs t' -> watched can chip t (Ref G :: l) hs t'
| wd_pulse t T l hs t' : watched can chip t l hs t' -> watched can chip t (Pulse T :: l) hs t'
| wd_fire t x y tot ftoa H l hs t' :
    0 <= x < 256 -> 0 <= y < 256 -> 0 <= tot < 1024 -> 0 <= ftoa < 16 ->
    0 <= H < 2 ^ 48 -> can t H -> watched can chip H l hs t' ->
    watched can chip t (Fire x y tot ftoa H :: l)
      (Hit (fst (place chip x y)) (snd (place chip x y)) tot (H mod 2 ^ 14) ftoa (Some (H mod 666667)) H :: hs) t'.

(** All chips, dataset by dataset. *)
Inductive watched_run (can : Z -> Z -> Prop) : Z -> list (Z * Z * Z * list act) -> list hit -> Prop :=
| wr_nil t : watched_run can t [] []
| wr_cons t b3 chip b5 l hs t' xs hs' :
    is_byte b3 -> 0 <= chip < 128 -> is_byte b5 -> zlen (flat_map report l) <= 8191 ->
    watched can chip t l hs t' -> watched_run can t' xs hs' ->
    watched_run can t ((b3, chip, b5, l) :: xs) (hs ++ hs').
