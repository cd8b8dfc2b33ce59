(** What the converter of the manufacturer and the GDC extractor should tell
    about what the detector saw. *)
From Coq Require Import Reals List ZArith.
From Verif Require Export S_Measure S_Cam S_Gdc.
Global Open Scope Z_scope.
Global Open Scope list_scope.

(** The line tells the place, the time (in one period of the 30-bit clock; the
    fine time counts backwards in steps of 25/16 ns) and the time over threshold
    of the true hit, in seconds and ns. *)
Definition tells (h : hit) (l : line) : Prop :=
  exists t tot, l = LPixel (h_x h) (h_y h) t tot /\
    rounded t (IZR (400 * (h_spider h mod 2 ^ 30) + 25 * (15 - h_ftoa h)) / 16 / 10 ^ 9) /\
    is_finite tot = true /\ B2R tot = IZR (25 * h_tot h).

(** [referenced a ps gs a']: the packets [ps] tell the times [gs]; [a]: the time
    whose lower half has come. *)
Inductive referenced : option Z -> list packet -> list Z -> option Z -> Prop :=
| rf_nil a : referenced a [] [] a
| rf_low a G p ps gs a' : b7 p = 68 -> 0 < G < 2 ^ 48 -> lsb_value p = G mod 2 ^ 32 ->
    referenced (Some G) ps gs a' -> referenced a (p :: ps) gs a'
| rf_high G p ps gs a' : b7 p = 69 -> msb_value p = G / 2 ^ 32 ->
    referenced None ps gs a' -> referenced (Some G) (p :: ps) (G :: gs) a'
| rf_other a p ps gs a' : b7 p <> 68 -> b7 p <> 69 ->
    referenced a ps gs a' -> referenced a (p :: ps) gs a'.

(** The same for a file: each time with the chip that tells it. *)
Inductive references : option Z -> list dataset -> list (Z * Z) -> option Z -> Prop :=
| rs_nil a : references a [] [] a
| rs_cons a d ds gs a1 cgs a2 :
    referenced a (d_payload d) gs a1 -> references a1 ds cgs a2 ->
    references a (d :: ds) (map (pair (d_chip d)) gs ++ cgs) a2.

(** A dataset of a chip below 128 whose header ends in the letter 3. *)
Definition plain_header (d : dataset) : Prop := d_b3 d = 51 /\ d_chip d < 128.

(** The time packets of a history. *)
Definition acts_refs (x : Z * Z * Z * list act) : list (Z * Z) :=
  match x with (_, chip, _, l) => flat_map (fun a => match a with Ref G => [(chip, G)] | _ => [] end) l end.

(** The words of a file. *)
Definition words_of (ds : list dataset) : list packet := flat_map (fun d => ds_header d :: d_payload d) ds.
