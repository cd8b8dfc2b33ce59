(** Specification of the SophireadLib decoder: framing of a byte stream,
    running time reference, frame-relative times.  Plain arithmetic and lists
    over the packet vocabulary of S_Hit and S_Tpx3. *)
From Verif Require Export S_Hit S_Tpx3 M_Lib.

(** * Framing *)

(** [framed fin m xs]: [m] is a sequence of stray packets and of complete
    datasets, up to an end accepted by [fin]; [xs] are the payload packets in
    order, each with the chip its dataset declares. *)
Inductive framed (fin : list Z -> Prop) : list Z -> list (Z * packet) -> Prop :=
| fr_end m : fin m -> framed fin m []
| fr_stray p m xs : ~ starts_TPX p -> framed fin m xs ->
    framed fin (packet_bytes p ++ m) xs
| fr_data p c ps m xs : starts_TPX p -> declares_chip p c ->
    zlen ps = declared_packets p -> framed fin m xs ->
    framed fin (packet_bytes p ++ flat_map packet_bytes ps ++ m) (map (pair c) ps ++ xs).

(** The two ends that occur: nothing left, or at most one packet's worth. *)
Definition at_end (m : list Z) : Prop := m = [].
Definition near_end (m : list Z) : Prop := zlen m <= 8.

(** The payload packets of a stream of datasets. *)
Definition payloads (ds : list dataset) : list (Z * packet) :=
  flat_map (fun d => map (pair (schar (d_chip d))) (d_payload d)) ds.

(** * Times *)

(** [T] is the first time at or after [g] whose low 30 bits are [s]. *)
Definition first_from (g s T : Z) : Prop :=
  g <= T /\ T mod 2 ^ 30 = s /\ forall T', g <= T' -> T' mod 2 ^ 30 = s -> T <= T'.

(** The running time reference after the packets [ps]. *)
Definition lsb_packet (p : packet) : Prop := b7 p = 68.
Definition msb_packet (p : packet) : Prop := b7 p = 69.
Definition tdc_packet (p : packet) : Prop := b7 p = 111.

Definition last_of (P : packet -> Prop) (ps pre : list packet) (p : packet) : Prop :=
  exists post, ps = pre ++ p :: post /\ P p /\ Forall (fun q => ~ P q) post.

Definition lsb_is (ps : list packet) (t : Z) : Prop :=
  (Forall (fun q => ~ lsb_packet q) ps /\ t = 0) \/
  (exists pre p, last_of lsb_packet ps pre p /\ t = lsb_value p).
Definition gdc_is (ps : list packet) (g : Z) : Prop :=
  (Forall (fun q => ~ msb_packet q) ps /\ g = 0) \/
  (exists pre p t, last_of msb_packet ps pre p /\ lsb_is pre t /\
     g = msb_value p * 2 ^ 32 + t).
Definition tdc_is (ps : list packet) (T : Z) : Prop :=
  (Forall (fun q => ~ tdc_packet q) ps /\ T = 0) \/
  (exists pre p g t, last_of tdc_packet ps pre p /\ gdc_is pre g /\
     first_at_or_after g (tdc_counter p) t /\ T = t mod 2 ^ 48).

(** Hits of the packets [xs], after the packets [seen]: one for each pixel
    packet, made from the current time reference. *)
Inductive stamped : list packet -> list (Z * packet) -> list hit -> Prop :=
| st_nil seen : stamped seen [] []
| st_pixel seen c p xs T g hs : kind_of p = KPixel ->
    tdc_is seen T -> gdc_is seen g -> stamped (seen ++ [p]) xs hs ->
    stamped seen ((c, p) :: xs) (lib_hit p T g c :: hs)
| st_other seen c p xs hs : kind_of p <> KPixel ->
    stamped (seen ++ [p]) xs hs -> stamped seen ((c, p) :: xs) hs.

(** * Timing without reference *)

(** Only the pixel packets. *)
Definition pixels (xs : list (Z * packet)) : list (Z * packet) :=
  filter (fun x => match kind_of (snd x) with KPixel => true | _ => false end) xs.

(** Hits of consecutive pixel packets under the alternative timing. *)
Fixpoint alt_hits (a : alt_ts) (xs : list (Z * packet)) : list hit :=
  match xs with
  | [] => []
  | (c, p) :: r => let (h, a') := packet_to_hit_alt p a c in h :: alt_hits a' r
  end.

(** The state of the alternative timing after a hit at true time [T]. *)
Definition alt_at (T : Z) : alt_ts := Alt (T / 2 ^ 30) (T mod 2 ^ 30).

(** True arrival times that a 30-bit clock can follow from [T]: each less than
    half a period (13.4 s) away from the previous one. *)
Inductive trackable : Z -> list Z -> Prop :=
| tr_nil T : trackable T []
| tr_cons T T' Ts : 0 <= T' < 2 ^ 64 -> Z.abs (T' - T) < 2 ^ 29 ->
    trackable T' Ts -> trackable T (T' :: Ts).

(** The hit says: pixel fields [f] seen on [c] at true time [T]. *)
Definition says (c : Z) (f : pixel_fields) (T : Z) (h : hit) : Prop :=
  (h_x h, h_y h) = place c (f_x f) (f_y f) /\ h_tot h = f_tot f /\
  h_toa h = f_toa f /\ h_ftoa h = f_ftoa f /\ h_spider h = T /\
  h_tof h = Some (T mod 666667).
