(** What the converter of the manufacturer is to write for a stream of datasets,
    in exact arithmetic. *)
From Coq Require Import Reals.
From Verif Require Export S_Hit S_Tpx3 S_Centroid M_Cam.
Global Open Scope Z_scope.

(** The chip byte of a header as a signed number. *)
Definition signed_chip (b : Z) : Z := if b <? 128 then b else b - 256.

(** Every packet of a stream with the chip of its dataset. *)
Definition tagged (ds : list dataset) : list (Z * packet) :=
  flat_map (fun d => map (fun p => (signed_chip (d_chip d), p)) (d_payload d)) ds.

(** Kinds of packets: the upper four bits. *)
Definition pixel_kind (p : packet) : bool := b7 p / 16 =? 11.
Definition trigger_kind (p : packet) : bool := b7 p / 16 =? 6.
Definition global_kind (sub : Z) (p : packet) : bool := (b7 p / 16 =? 4) && (gdc_subtype p =? sub).

(** Fine time of a trigger packet in units of 25/4096 ns: phase (3 bits) and a
    counter that starts at 1 and divides 512 units in 12. *)
Definition trigger_phase (p : packet) : Z := (le64 p / 2 ^ 9) mod 8.
Definition trigger_step (p : packet) : Z := (le64 p / 2 ^ 5) mod 16.
Definition trigger_units (p : packet) : Z :=
  4096 * tdc_counter p + 512 * trigger_phase p + 512 * (trigger_step p - 1) / 12.

(** The lines for the packets when the low part of the global time is [lsb]. *)
Inductive written : Z -> list (Z * packet) -> list line -> Prop :=
| w_nil lsb : written lsb [] []
| w_pixel lsb c p f t tot rest ls :
    fields_ok f -> f_type f = 11 -> p = pixel_packet f ->
    rounded t (IZR (400 * time30 f + 25 * (15 - f_ftoa f)) / 16 / 10 ^ 9) ->
    is_finite tot = true -> B2R tot = IZR (25 * f_tot f) ->
    written lsb rest ls ->
    written lsb ((c, p) :: rest)
      (LPixel (fst (place c (f_x f) (f_y f))) (snd (place c (f_x f) (f_y f))) t tot :: ls)
| w_trigger lsb c p t rest ls :
    trigger_kind p = true ->
    (1 <= trigger_step p <= 12 -> close t (IZR (25 * trigger_units p) / 4096 / 10 ^ 9)) ->
    written lsb rest ls ->
    written lsb ((c, p) :: rest) (LTdc t :: ls)
| w_low lsb c p rest ls :
    global_kind 4 p = true ->
    written (lsb_value p) rest ls ->
    written lsb ((c, p) :: rest) ls
| w_global lsb c p t rest ls :
    global_kind 5 p = true ->
    close t (IZR (25 * (msb_value p * 2 ^ 32 + lsb)) / 10 ^ 9) ->
    written lsb rest ls ->
    written lsb ((c, p) :: rest) (LGlobal t :: ls)
| w_other lsb c p rest ls :
    pixel_kind p = false -> trigger_kind p = false ->
    global_kind 4 p = false -> global_kind 5 p = false ->
    written lsb rest ls ->
    written lsb ((c, p) :: rest) ls.

(** A global time packet is preceded by no pixel packet. *)
Definition global_first (l : list (Z * packet)) : Prop :=
  exists pre c p post, l = pre ++ (c, p) :: post /\ global_kind 5 p = true /\
    Forall (fun q => pixel_kind (snd q) = false) pre.

Definition pixel_line (l : line) : bool := match l with LPixel _ _ _ _ => true | _ => false end.

(** The line [l] shows the hit [h] that the library makes of the same packet;
    the fine time counts backwards from 15 instead of forwards. *)
Definition shows (l : line) (h : hit) : Prop :=
  exists t tot, l = LPixel (h_x h) (h_y h) t tot /\
    is_finite tot = true /\ B2R tot = B2R (tot_ns h) /\
    rounded t ((IZR (25 * (h_spider h mod 2 ^ 30)) + 25 * 15 / 16 - B2R (ftoa_ns h)) / 10 ^ 9).

(** A file with other words between its datasets. *)
Inductive piece := PDataset (d : dataset) | PWord (p : packet).
Definition piece_ok (x : piece) : Prop :=
  match x with
  | PDataset d => dataset_ok d
  | PWord p => packet_ok p /\ ~ (b0 p = 84 /\ b1 p = 80 /\ b2 p = 88)
  end.
Definition piece_bytes (x : piece) : list Z :=
  match x with PDataset d => stream [d] | PWord p => packet_bytes p end.
Definition datasets_of (l : list piece) : list dataset :=
  flat_map (fun x => match x with PDataset d => [d] | PWord _ => [] end) l.
