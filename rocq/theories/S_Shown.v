(** What sophiread_display should save of the true hits and events (C97). *)
From Verif Require Export S_Tof S_MeasureShow S_DisplayWin S_DisplayPixel S_Events.
From Coq Require Import Reals.
Global Open Scope Z_scope.
Global Open Scope list_scope.

(** Datasets of a size that the program reads as a whole (C65). *)
Definition of_good_size (d : dataset) : Prop :=
  zlen (d_payload d) < 4096 /\ zlen (d_payload d) mod 32 < 16.

(** The position of a pixel of the sensor on its own chip. *)
Definition on_chip (x y : Z) : Z * Z :=
  if 260 <=? x then if 260 <=? y then (515 - x, 515 - y) else (x - 260, y)
  else if 260 <=? y then (255 - x, 515 - y) else (x, y).

(** The hit is counted at place [k] of the spectrum: in a corner of its chip, [k]
    steps of 100 ns after the pulse. *)
Definition enters (k : Z) (h : hit) : Prop :=
  251 <= fst (on_chip (h_x h) (h_y h)) /\ 126 <= snd (on_chip (h_x h) (h_y h)) /\
  exists t, h_tof h = Some t /\ k = t / 4.

(** The saved spectrum: at place [k] the number of these hits, in 32 bits. *)
Definition spectrum_of (hits : list hit) (f : wfile) : Prop :=
  exists g, f = WTof g /\
    (forall k, 0 <= k < 170000 -> exists n, counted (enters k) hits n /\ g k = Some (Some (n mod 2 ^ 32))) /\
    (forall k, k < 0 \/ 170000 <= k -> g k = None).

(** Columns and rows without the gap of 4 between the chips. *)
Definition display_at (v : Z) : Z := Z.min v 256 + Z.max 0 (v - 260).

(** The place of an event in eighths of a pixel, turned. *)
Definition turned_x (rot : rotation) (s : source) : R :=
  (IZR (8 * display_at (at_x s)) * B2R (rot_cos rot) - IZR (8 * display_at (at_y s)) * B2R (rot_sin rot))%R.
Definition turned_y (rot : rotation) (s : source) : R :=
  (IZR (8 * display_at (at_x s)) * B2R (rot_sin rot) + IZR (8 * display_at (at_y s)) * B2R (rot_cos rot))%R.
(** The event is shown at [px], within [a] pixels of its place: one pixel of the
    image, or nothing if that is outside of the image. *)
Definition shown_near (rot : rotation) (a : Z) (s : source) (px : list (Z * Z)) : Prop :=
  exists ix iy,
    let far := (IZR (8 * a) * (Rabs (B2R (rot_cos rot)) + Rabs (B2R (rot_sin rot))) + 1 + / IZR (2 ^ 36))%R in
    (Rabs (IZR ix - turned_x rot s) <= far)%R /\ (Rabs (IZR iy - turned_y rot s) <= far)%R /\
    ((0 <= ix < 4096 /\ 0 <= iy < 4096 /\ px = [(ix, iy)]) \/
     (~ (0 <= ix < 4096 /\ 0 <= iy < 4096) /\ px = [])).

(** The pixels of an image made of the first [n] hits: of the [m] events that have
    begun in them, all but the last 127, if they have more than 10 hits. *)
Definition image_of (rot : rotation) (a : Z) (evs : list event) (own : list nat) (hits : list hit)
    (n : nat) (pixels : list (Z * Z)) (clusters : Z) : Prop :=
  exists m pxs, (forall l, In l (firstn n own) <-> (l < m)%nat) /\
    Forall2 (fun l px => shown_near rot a (e_at (nth_event evs l)) px)
      (filter (fun l => 10 <? zlen (members l own hits)) (seq 0 (m - 127))) pxs /\
    pixels = concat pxs /\ clusters = Z.of_nat (m - 127).
