(** Specification of the chip data stream: where packets are, what a header
    declares, what time packets mean.  Plain arithmetic and lists; the only
    model definitions used are the record types, and in the last section the
    single-packet step function. *)
From Verif Require Export Base M_Tpx3.

(** Packet [p] occupies the 8 bytes of [m] from offset [off]. *)
Definition packet_at (m : list Z) (off : Z) (p : packet) : Prop :=
  exists pre post, m = pre ++ packet_bytes p ++ post /\ zlen pre = off.

(** The packet starts with the bytes "TPX". *)
Definition starts_TPX (p : packet) : Prop := b0 p = 84 /\ b1 p = 80 /\ b2 p = 88.

(** A chip dataset header sits at offset [off]. *)
Definition header_at (m : list Z) (off : Z) (p : packet) : Prop :=
  off mod 8 = 0 /\ packet_at m off p /\ starts_TPX p.

(** What a header declares: whole packets of payload, signed chip byte. *)
Definition declared_packets (p : packet) : Z := (b6 p + 256 * b7 p) / 8.
Definition declares_chip (p : packet) (chip : Z) : Prop :=
  -128 <= chip <= 127 /\ (chip - b4 p) mod 256 = 0.

(** * Time packets *)

(** TDC counter: bits 12..43 of the packet word. *)
Definition tdc_counter (p : packet) : Z := (le64 p / 2 ^ 12) mod 2 ^ 32.

(** [t] is the first time at or after [g] with counter value [c]. *)
Definition first_at_or_after (g c t : Z) : Prop :=
  g <= t /\ t mod 2 ^ 32 = c /\
  forall t', g <= t' -> t' mod 2 ^ 32 = c -> t <= t'.

(** Successive true pulse times that a 32-bit counter can follow: within one
    counter period and at most half a period back, or into the next period by
    less than half a period. *)
Definition pulse_step (T T' : Z) : Prop :=
  (T' / 2 ^ 32 = T / 2 ^ 32 /\ T - T' <= 2 ^ 31) \/
  (T' / 2 ^ 32 = T / 2 ^ 32 + 1 /\ T' - T < 2 ^ 31).

Inductive pulses : Z -> list Z -> Prop :=
| pulses_nil T : pulses T []
| pulses_cons T T' Ts :
    0 <= T' < 2 ^ 48 -> pulse_step T T' -> pulses T' Ts -> pulses T (T' :: Ts).

(** GDC packets: subtype in bits 56..59, value from bit 16. *)
Definition gdc_subtype (p : packet) : Z := (le64 p / 2 ^ 56) mod 16.
Definition lsb_value (p : packet) : Z := (le64 p / 2 ^ 16) mod 2 ^ 32.
Definition msb_value (p : packet) : Z := (le64 p / 2 ^ 16) mod 2 ^ 16.

(** The LSB that is current after the packets [ps] (0 before the first). *)
Definition current_lsb (ps : list packet) (t : Z) : Prop :=
  (t = 0 /\ Forall (fun p => gdc_subtype p <> 4) ps) \/
  (exists pre p post, ps = pre ++ p :: post /\ gdc_subtype p = 4 /\
     Forall (fun q => gdc_subtype q <> 4) post /\ t = lsb_value p).

(** The MSB packet at the end of [pre ++ [p]] yields the timestamp [v]. *)
Definition completes (pre : list packet) (p : packet) (v : Z) : Prop :=
  gdc_subtype p = 5 /\ exists t, current_lsb pre t /\ v = msb_value p * 2 ^ 32 + t.

(** [g] is the timestamp of the last MSB packet that yields a non-zero one
    (0 if there is none). *)
Definition current_gdc (ps : list packet) (g : Z) : Prop :=
  (g = 0 /\ forall pre p post v, ps = pre ++ p :: post -> completes pre p v -> v = 0) \/
  (exists pre p post, ps = pre ++ p :: post /\ completes pre p g /\ g <> 0 /\
     forall pre' q post' v, post = pre' ++ q :: post' ->
       completes (pre ++ p :: pre') q v -> v = 0).

(** * Streams of chip datasets *)

(** A dataset as the detector writes it: three free header bytes and the
    payload packets. *)
Record dataset := DS { d_b3 : Z; d_chip : Z; d_b5 : Z; d_payload : list packet }.

(** The header packet in front of the payload. *)
Definition ds_header (d : dataset) : packet :=
  let n := 8 * zlen (d_payload d) in
  Packet 84 80 88 (d_b3 d) (d_chip d) (d_b5 d) (n mod 256) (n / 256).

Definition dataset_bytes (d : dataset) : list Z :=
  let n := 8 * zlen (d_payload d) in
  [84; 80; 88; d_b3 d; d_chip d; d_b5 d; n mod 256; n / 256]
    ++ flat_map packet_bytes (d_payload d).

Definition stream (ds : list dataset) : list Z := flat_map dataset_bytes ds.

(** Well-formed: byte values, and a payload that the 16-bit size field can
    declare. *)
Definition dataset_ok (d : dataset) : Prop :=
  is_byte (d_b3 d) /\ is_byte (d_chip d) /\ is_byte (d_b5 d) /\
  Forall packet_ok (d_payload d) /\ zlen (d_payload d) <= 8191.

(** No payload packet looks like a header. *)
Definition no_false_header (d : dataset) : Prop :=
  Forall (fun p => ~ starts_TPX p) (d_payload d).

(** * Packets of a batch *)

(** [ps] are the packets of the batch that starts at [idx] and declares [num]
    packets, cut at [fin]. *)
Definition is_payload (m : list Z) (fin idx num : Z) (ps : list packet) : Prop :=
  forall j p, nth_error ps j = Some p <->
    (Z.of_nat j < num /\ idx + 8 * (Z.of_nat j + 1) < fin /\
     packet_at m (idx + 8 * (Z.of_nat j + 1)) p).

(** Packet kinds by the type byte. *)
Inductive kind := KTdc | KGdc | KPixel | KOther.
Definition kind_of (p : packet) : kind :=
  if b7 p =? 111 then KTdc
  else match b7 p / 16 with 4 => KGdc | 11 => KPixel | _ => KOther end.

(** Timestamps after one packet. *)
Definition next_ts (md : mode_t) (p : packet) (s : ts) : ts :=
  match md, kind_of p with
  | GDC_mode, KTdc => TS (update_tdc_gdc p (ts_gdc s)) (ts_gdc s) (ts_timer s)
  | TDC_mode, KTdc => TS (update_tdc_only p (ts_tdc s)) (ts_gdc s) (ts_timer s)
  | GDC_mode, KGdc =>
      TS (ts_tdc s) (snd (update_gdc p (ts_timer s) (ts_gdc s)))
         (fst (update_gdc p (ts_timer s) (ts_gdc s)))
  | _, _ => s
  end.

(** Are the timestamps needed for a hit available? *)
Definition ready (md : mode_t) (s : ts) : Prop :=
  match md with
  | GDC_mode => ts_tdc s <> 0 /\ ts_gdc s <> 0
  | TDC_mode => ts_tdc s <> 0
  end.

(** The hit made from a pixel packet under the current timestamps. *)
Definition makes_hit (md : mode_t) (chip : Z) (p : packet) (s : ts) (h : hit) : Prop :=
  match md with
  | GDC_mode => hit_gdc p (ts_tdc s) (ts_gdc s) chip = Ok h
  | TDC_mode => h = hit_tdc p (ts_tdc s) chip
  end.

(** The hits that a packet sequence yields. *)
Inductive yields (md : mode_t) (chip : Z) : ts -> list packet -> list hit -> Prop :=
| y_nil s : yields md chip s [] []
| y_hit s p ps h hs :
    kind_of p = KPixel -> ready md s -> makes_hit md chip p s h ->
    yields md chip s ps hs -> yields md chip s (p :: ps) (h :: hs)
| y_unready s p ps hs :
    kind_of p = KPixel -> ~ ready md s ->
    yields md chip s ps hs -> yields md chip s (p :: ps) hs
| y_time s p ps hs :
    kind_of p <> KPixel ->
    yields md chip (next_ts md p s) ps hs -> yields md chip s (p :: ps) hs.

(** Stepping through a packet sequence. *)
Fixpoint run (md : mode_t) (extract : bool) (chip : Z) (ps : list packet)
    (s : ts) (hits : list hit) : outcome (ts * list hit) :=
  match ps with
  | [] => Ok (s, hits)
  | p :: rest =>
      let! (s', hits') := step md extract chip p s hits in
      run md extract chip rest s' hits'
  end.
