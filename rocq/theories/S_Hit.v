(** Specification of the Timepix3 pixel packet and of the sensor geometry,
    written with plain arithmetic and independent of the model. *)
From Verif Require Import Base.

(** 64-bit pixel packet, most significant field first:
    type (4) | pixel address (16) | ToA (14) | ToT (10) | fToA (4) | SPIDR (16). *)
Record pixel_fields := PF
  { f_type : Z; f_x : Z; f_y : Z; f_toa : Z; f_tot : Z; f_ftoa : Z; f_spidr : Z }.

(** Field widths; [f_x], [f_y] are chip-local pixel coordinates. *)
Definition fields_ok (f : pixel_fields) : Prop :=
  0 <= f_type f < 16 /\ 0 <= f_x f < 256 /\ 0 <= f_y f < 256 /\
  0 <= f_toa f < 16384 /\ 0 <= f_tot f < 1024 /\ 0 <= f_ftoa f < 16 /\
  0 <= f_spidr f < 65536.

(** Pixel address: double column (7 bits), super pixel (6 bits), pixel within
    the 2x4 super pixel (3 bits: column parity, row modulo 4). *)
Definition pixel_address (x y : Z) : Z :=
  (x / 2) * 512 + (y / 4) * 8 + (x mod 2) * 4 + y mod 4.

Definition pixel_word (f : pixel_fields) : Z :=
  f_type f * 2 ^ 60 + pixel_address (f_x f) (f_y f) * 2 ^ 44 +
  f_toa f * 2 ^ 30 + f_tot f * 2 ^ 20 + f_ftoa f * 2 ^ 16 + f_spidr f.

(** Little endian memory image of a 64-bit word. *)
Definition word_packet (w : Z) : packet :=
  Packet (w mod 256) ((w / 2 ^ 8) mod 256) ((w / 2 ^ 16) mod 256)
         ((w / 2 ^ 24) mod 256) ((w / 2 ^ 32) mod 256) ((w / 2 ^ 40) mod 256)
         ((w / 2 ^ 48) mod 256) ((w / 2 ^ 56) mod 256).

Definition pixel_packet (f : pixel_fields) : packet := word_packet (pixel_word f).

(** The 30-bit arrival time carried by a pixel packet. *)
Definition time30 (f : pixel_fields) : Z := 16384 * f_spidr f + f_toa f.

(** Sensor geometry: where chip-local pixel (x,y) of a chip lies. *)
Definition place (chip x y : Z) : Z * Z :=
  match chip with
  | 0 => (260 + x, y)
  | 1 => (515 - x, 515 - y)
  | 2 => (255 - x, 515 - y)
  | _ => (x, y)
  end.

(** The square occupied by each chip. *)
Definition in_square (x0 y0 : Z) (xy : Z * Z) : Prop :=
  x0 <= fst xy < x0 + 256 /\ y0 <= snd xy < y0 + 256.
Definition in_quadrant (chip : Z) (xy : Z * Z) : Prop :=
  match chip with
  | 0 => in_square 260 0 xy
  | 1 => in_square 260 260 xy
  | 2 => in_square 0 260 xy
  | _ => in_square 0 0 xy
  end.

(** The gap cross between the quadrants. *)
Definition in_gap (xy : Z * Z) : Prop :=
  256 <= fst xy < 260 \/ 256 <= snd xy < 260.

(** [T] extends the 30-bit time [s] next to the global time [g]: same low 30
    bits, and within the window that ends one second (4e7 ticks) after [g]. *)
Definition extends (s g T : Z) : Prop :=
  T mod 2 ^ 30 = s /\ g + 40000000 - 2 ^ 30 <= T < g + 40000000.
