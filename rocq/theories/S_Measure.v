(** What a detector records: true times of pulses and pixel hits, and the
    packets that carry them.  All times are in ticks of 25 ns since the clock
    of the detector was reset.  Independent of the decoders. *)
From Verif Require Export S_Hit S_Tpx3.
Global Open Scope Z_scope.
Global Open Scope list_scope.

(** What is known after some packets: the true time of the last time packet
    (reference), the one whose lower half has come (announced), and the true
    time of the last pulse of the source. *)
Record clock := Clock
  { k_ref : option Z; k_announced : option Z; k_pulse : option Z }.
Definition nothing_known : clock := Clock None None None.

(** Times that a reference [g] can place: from 25.8 s before to 1 s after it; or
    only those after it; or those in the period of the 30-bit clock after it. *)
Definition around (g t : Z) : Prop := g + 40000000 - 2 ^ 30 <= t < g + 40000000.
Definition after (g t : Z) : Prop := g <= t < g + 40000000.
Definition soon (g t : Z) : Prop := g <= t < g + 2 ^ 30.

(** The first 53 s of a run, whatever the reference. *)
Definition early_run (_ t : Z) : Prop := 0 < t < 2 ^ 31.

(** The true hit: pixel [f] of [chip] fires at time [H] after a pulse at [T]. *)
Definition true_hit (chip : Z) (f : pixel_fields) (T H : Z) : hit :=
  let (x, y) := place chip (f_x f) (f_y f) in
  Hit x y (f_tot f) (f_toa f) (f_ftoa f) (Some (H - T)) H.

(** [recorded near early chip k ps hs k']: the payload [ps] of a chip carries the
    true hits [hs].  [near g t]: how far times may be from the last reference;
    [early]: there may be pulses and hits before the first reference. *)
Inductive recorded (near : Z -> Z -> Prop) (early : bool) (chip : Z)
  : clock -> list packet -> list hit -> clock -> Prop :=
| rc_nil k : recorded near early chip k [] [] k
(** lower, then upper half of a time *)
| rc_low g a P G p ps hs k :
    b7 p = 68 -> 0 < G < 2 ^ 48 - 2 ^ 32 -> lsb_value p = G mod 2 ^ 32 ->
    recorded near early chip (Clock g (Some G) P) ps hs k ->
    recorded near early chip (Clock g a P) (p :: ps) hs k
| rc_high g G P p ps hs k :
    b7 p = 69 -> msb_value p = G / 2 ^ 32 ->
    recorded near early chip (Clock (Some G) None P) ps hs k ->
    recorded near early chip (Clock g (Some G) P) (p :: ps) hs k
(** a pulse at [T] *)
| rc_pulse g a P T p ps hs k :
    b7 p = 111 -> tdc_counter p = T mod 2 ^ 32 -> near g T ->
    recorded near early chip (Clock (Some g) a (Some T)) ps hs k ->
    recorded near early chip (Clock (Some g) a P) (p :: ps) hs k
| rc_pulse_early a P T p ps hs k :
    early = true -> b7 p = 111 -> tdc_counter p = T mod 2 ^ 32 -> T mod 2 ^ 32 <> 0 ->
    recorded near early chip (Clock None a (Some T)) ps hs k ->
    recorded near early chip (Clock None a P) (p :: ps) hs k
(** a hit at [H], within a frame of 16.67 ms of the last pulse *)
| rc_hit g a T H f p ps hs k :
    fields_ok f -> f_type f = 11 -> p = pixel_packet f -> time30 f = H mod 2 ^ 30 ->
    0 <= H -> near g H -> T <= H <= T + 666800 ->
    recorded near early chip (Clock (Some g) a (Some T)) ps hs k ->
    recorded near early chip (Clock (Some g) a (Some T)) (p :: ps) (true_hit chip f T H :: hs) k
(** a hit that cannot be placed in time *)
| rc_hit_early g a P p ps hs k :
    early = true -> g = None \/ P = None -> kind_of p = KPixel ->
    recorded near early chip (Clock g a P) ps hs k ->
    recorded near early chip (Clock g a P) (p :: ps) hs k
(** any other packet *)
| rc_other k p ps hs k' :
    kind_of p = KOther \/ (kind_of p = KGdc /\ b7 p <> 68 /\ b7 p <> 69) ->
    recorded near early chip k ps hs k' ->
    recorded near early chip k (p :: ps) hs k'.

(** A file: the datasets one after the other, all chips with one clock. *)
Inductive recording (near : Z -> Z -> Prop) (early : bool)
  : clock -> list dataset -> list (list hit) -> clock -> Prop :=
| rg_nil k : recording near early k [] [] k
| rg_cons k d ds chip hs hss k1 k2 :
    declares_chip (ds_header d) chip ->
    recorded near early chip k (d_payload d) hs k1 ->
    recording near early k1 ds hss k2 ->
    recording near early k (d :: ds) (hs :: hss) k2.

(** * Histories *)

(** What happens at a chip: a time packet at [G], a pulse at [T], pixel (x, y)
    fires at [H]. *)
Inductive act :=
| Ref (G : Z)
| Pulse (T : Z)
| Fire (x y tot ftoa H : Z).

(** The packets that report it. *)
Definition report (a : act) : list packet :=
  match a with
  | Ref G => [word_packet (68 * 2 ^ 56 + G mod 2 ^ 32 * 2 ^ 16); word_packet (69 * 2 ^ 56 + G / 2 ^ 32 * 2 ^ 16)]
  | Pulse T => [word_packet (111 * 2 ^ 56 + T mod 2 ^ 32 * 2 ^ 12)]
  | Fire x y tot ftoa H =>
      [pixel_packet (PF 11 x y (H mod 2 ^ 14) tot ftoa (H / 2 ^ 14 mod 2 ^ 16))]
  end.

(** [history near chip g T l hs g' T']: the acts [l], after a time packet at [g]
    and a pulse at [T], are plausible; their hits are [hs]. *)
Inductive history (near : Z -> Z -> Prop) (chip : Z)
  : option Z -> option Z -> list act -> list hit -> option Z -> option Z -> Prop :=
| hy_nil g T : history near chip g T [] [] g T
| hy_ref g G T l hs g' T' : 0 < G < 2 ^ 48 - 2 ^ 32 ->
    history near chip (Some G) T l hs g' T' -> history near chip g T (Ref G :: l) hs g' T'
| hy_pulse g T0 T l hs g' T' : near g T ->
    history near chip (Some g) (Some T) l hs g' T' -> history near chip (Some g) T0 (Pulse T :: l) hs g' T'
| hy_fire g T x y tot ftoa H l hs g' T' :
    0 <= x < 256 -> 0 <= y < 256 -> 0 <= tot < 1024 -> 0 <= ftoa < 16 ->
    0 <= H -> near g H -> T <= H <= T + 666800 ->
    history near chip (Some g) (Some T) l hs g' T' ->
    history near chip (Some g) (Some T) (Fire x y tot ftoa H :: l)
      (Hit (fst (place chip x y)) (snd (place chip x y)) tot (H mod 2 ^ 14) ftoa (Some (H - T)) H :: hs) g' T'.

(** The history of all chips, dataset by dataset: for each the free header bytes
    and the chip, and the acts. *)
Definition dataset_of (x : Z * Z * Z * list act) : dataset :=
  match x with (b3, chip, b5, l) => DS b3 chip b5 (flat_map report l) end.
Inductive histories (near : Z -> Z -> Prop)
  : option Z -> option Z -> list (Z * Z * Z * list act) -> list (list hit) -> Prop :=
| hs_nil g T : histories near g T [] []
| hs_cons g T b3 chip b5 l hs g' T' xs hss :
    is_byte b3 -> 0 <= chip < 128 -> is_byte b5 -> zlen (flat_map report l) <= 8191 ->
    history near chip g T l hs g' T' -> histories near g' T' xs hss ->
    histories near g T ((b3, chip, b5, l) :: xs) (hs :: hss).
