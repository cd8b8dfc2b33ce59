(** Properties C01-C06: decoding of one pixel packet.
    Each theorem is followed by a concrete instance of its hypotheses. *)
From Coq Require Import Reals.
From Verif Require Import P_HitProps.
Global Open Scope Z_scope.

(** A concrete pixel packet: type 0xB, local pixel (100,200), ToA 1234,
    ToT 77, fine ToA 5, SPIDR time 4321. *)
Definition ex_fields : pixel_fields := PF 11 100 200 1234 77 5 4321.
Example ex_fields_ok : fields_ok ex_fields.
Proof. unfold fields_ok, ex_fields; cbn. repeat split; reflexivity || discriminate. Qed.
Example ex_packet_ok : packet_ok (pixel_packet ex_fields).
Proof. exact (pixel_packet_ok ex_fields). Qed.

(** C01: decoding inverts the bit packing (GDC constructor). *)
Theorem C01_decode_of_encode_gdc : forall f tdc gdc chip, fields_ok f ->
  exists h, hit_gdc (pixel_packet f) tdc gdc chip = Ok h /\
    h_tot h = f_tot f /\ h_toa h = f_toa f /\ h_ftoa h = f_ftoa f /\
    (h_x h, h_y h) = place chip (f_x f) (f_y f) /\
    h_spider h mod 2 ^ 30 = time30 f.
Proof. exact C01_gdc_l. Qed.
Print Assumptions C01_decode_of_encode_gdc.
Example C01_gdc_instance :
  hit_gdc (pixel_packet ex_fields) 70000000 70000000 1 =
  Ok (Hit 415 315 77 1234 5 (Some 129831) 70796498).
Proof. vm_compute. reflexivity. Qed.

(** C01: the same for the TDC-only constructor. *)
Theorem C01_decode_of_encode_tdc : forall f tdc chip, fields_ok f -> 0 <= tdc < 2 ^ 64 ->
  let h := hit_tdc (pixel_packet f) tdc chip in
    h_tot h = f_tot f /\ h_toa h = f_toa f /\ h_ftoa h = f_ftoa f /\
    (h_x h, h_y h) = place chip (f_x f) (f_y f) /\
    h_spider h mod 2 ^ 30 = time30 f.
Proof. exact C01_tdc_l. Qed.
Print Assumptions C01_decode_of_encode_tdc.
Example C01_tdc_instance :
  hit_tdc (pixel_packet ex_fields) 70000000 1 =
  Hit 415 315 77 1234 5 (Some 796498) 70796498.
Proof. vm_compute. reflexivity. Qed.

(** C01: every packet is the packing of exactly one set of fields. *)
Theorem C01_packing_is_a_bijection : forall p, packet_ok p ->
  exists f, (fields_ok f /\ pixel_packet f = p) /\
    forall f', fields_ok f' /\ pixel_packet f' = p -> f' = f.
Proof. exact C01_bijection_l. Qed.
Print Assumptions C01_packing_is_a_bijection.

(** C01: no payload bit is ignored: packets of the same type that give the
    same hit are equal. *)
Theorem C01_no_bit_lost : forall p p' tdc gdc chip h,
  packet_ok p -> packet_ok p' -> b7 p / 16 = b7 p' / 16 -> 0 <= tdc < 2 ^ 64 ->
  (hit_gdc p tdc gdc chip = Ok h /\ hit_gdc p' tdc gdc chip = Ok h) \/
  (hit_tdc p tdc chip = h /\ hit_tdc p' tdc chip = h) ->
  p = p'.
Proof. exact C01_no_bit_lost_l. Qed.
Print Assumptions C01_no_bit_lost.
Example C01_no_bit_lost_instance :
  b7 (pixel_packet ex_fields) / 16 = 11 /\
  exists h, hit_gdc (pixel_packet ex_fields) 1 2 3 = Ok h.
Proof. split; [vm_compute; reflexivity|eexists; vm_compute; reflexivity]. Qed.

(** C02: every hit lies in the square of its chip and never in the gap. *)
Theorem C02_hits_lie_in_their_quadrant : forall p tdc gdc chip h, packet_ok p ->
  hit_gdc p tdc gdc chip = Ok h \/ hit_tdc p tdc chip = h ->
  in_quadrant chip (h_x h, h_y h) /\ ~ in_gap (h_x h, h_y h).
Proof. exact C02_quadrant_l. Qed.
Print Assumptions C02_hits_lie_in_their_quadrant.
Example C02_quadrant_instance : in_quadrant 1 (415, 315) /\ in_gap (257, 3).
Proof. unfold in_quadrant, in_square, in_gap; cbn [fst snd]. lia. Qed.

(** C02: different chips or different pixels never share a coordinate. *)
Theorem C02_coordinates_are_injective : forall f f' tdc gdc chip tdc' gdc' chip' h h',
  fields_ok f -> fields_ok f' -> 0 <= chip <= 3 -> 0 <= chip' <= 3 ->
  0 <= tdc < 2 ^ 64 -> 0 <= tdc' < 2 ^ 64 ->
  hit_gdc (pixel_packet f) tdc gdc chip = Ok h \/ hit_tdc (pixel_packet f) tdc chip = h ->
  hit_gdc (pixel_packet f') tdc' gdc' chip' = Ok h' \/ hit_tdc (pixel_packet f') tdc' chip' = h' ->
  h_x h = h_x h' -> h_y h = h_y h' ->
  chip = chip' /\ f_x f = f_x f' /\ f_y f = f_y f'.
Proof. exact C02_injective_l. Qed.
Print Assumptions C02_coordinates_are_injective.

(** C02: every coordinate of a quadrant is the place of some pixel. *)
Theorem C02_quadrants_are_covered : forall chip X Y, in_quadrant chip (X, Y) ->
  exists x y, 0 <= x < 256 /\ 0 <= y < 256 /\ place chip x y = (X, Y).
Proof. exact C02_surjective_l. Qed.
Print Assumptions C02_quadrants_are_covered.

(** C02: every chip id outside 0..2 is treated exactly like chip 3. *)
Theorem C02_other_chips_alias_chip3 : forall p tdc gdc chip, ~ (0 <= chip <= 2) ->
  hit_gdc p tdc gdc chip = hit_gdc p tdc gdc 3 /\ hit_tdc p tdc chip = hit_tdc p tdc 3.
Proof. exact C02_alias_l. Qed.
Print Assumptions C02_other_chips_alias_chip3.

(** C02 finding: injectivity is false over arbitrary chip ids. *)
Theorem C02_injective_all_chips_refuted : exists f chip chip' tdc,
  fields_ok f /\ chip <> chip' /\
  hit_tdc (pixel_packet f) tdc chip = hit_tdc (pixel_packet f) tdc chip'.
Proof. exact C02_refuted_l. Qed.
Print Assumptions C02_injective_all_chips_refuted.

(** C03: the arrival time is the extension of the 30-bit time into the window
    ending one second after the GDC; negative extensions wrap modulo 2^64.
    The disjunction excludes only the carry out of the 48-bit field. *)
Theorem C03_arrival_time : forall f tdc gdc chip h T,
  fields_ok f -> 0 <= gdc < 2 ^ 48 ->
  gdc < 2 ^ 48 - 2 ^ 30 \/ gdc mod 2 ^ 30 <= time30 f ->
  hit_gdc (pixel_packet f) tdc gdc chip = Ok h ->
  extends (time30 f) gdc T ->
  (0 <= T -> h_spider h = T) /\ (T < 0 -> h_spider h = T + 2 ^ 64).
Proof. exact C03_arrival_l. Qed.
Print Assumptions C03_arrival_time.
Example C03_instance :
  extends (time30 ex_fields) 70000000 70796498 /\ 70000000 < 2 ^ 48 - 2 ^ 30.
Proof. vm_compute. repeat split; reflexivity || discriminate. Qed.

(** C03: that extension exists and is unique. *)
Theorem C03_extension_is_unique : forall s g, 0 <= s < 2 ^ 30 ->
  exists T, extends s g T /\ forall T', extends s g T' -> T' = T.
Proof. exact C03_unique_l. Qed.
Print Assumptions C03_extension_is_unique.

(** C03: the remaining case, a carry out of the 48-bit field. *)
Theorem C03_rollover : forall f tdc gdc chip h,
  fields_ok f -> 2 ^ 48 - 2 ^ 30 <= gdc < 2 ^ 48 -> time30 f < gdc mod 2 ^ 30 ->
  hit_gdc (pixel_packet f) tdc gdc chip = Ok h ->
  h_spider h = 2 ^ 64 - 2 ^ 30 + time30 f.
Proof. exact C03_rollover_l. Qed.
Print Assumptions C03_rollover.
Example C03_rollover_instance :
  2 ^ 48 - 2 ^ 30 <= 2 ^ 48 - 1 < 2 ^ 48 /\ time30 ex_fields < (2 ^ 48 - 1) mod 2 ^ 30.
Proof. vm_compute. repeat split; reflexivity || discriminate. Qed.

(** C03: every hit leading a GDC below 2^30 by one second or more gets an
    arrival time near 2^64. *)
Theorem C03_early_run_wraps : forall f tdc gdc chip h,
  fields_ok f -> 0 <= gdc < 2 ^ 30 -> gdc + 40000000 <= time30 f ->
  hit_gdc (pixel_packet f) tdc gdc chip = Ok h ->
  h_spider h = time30 f - 2 ^ 30 + 2 ^ 64 /\ 2 ^ 63 < h_spider h.
Proof. exact C03_wrap_l. Qed.
Print Assumptions C03_early_run_wraps.
Example C03_wrap_instance : 1 + 40000000 <= time30 ex_fields.
Proof. vm_compute. discriminate. Qed.

(** C03 finding: the reported time is not always the extension. *)
Theorem C03_always_extension_refuted : exists f tdc gdc chip h T,
  fields_ok f /\ 0 < gdc < 2 ^ 48 /\ 0 < tdc < 2 ^ 48 /\
  hit_gdc (pixel_packet f) tdc gdc chip = Ok h /\ extends (time30 f) gdc T /\ h_spider h <> T.
Proof. exact C03_refuted_l. Qed.
Print Assumptions C03_always_extension_refuted.

(** C04: the time of flight exists (the loop ends), is at most 666800 ticks,
    and is determined by the 32-bit difference. *)
Theorem C04_tof_in_one_frame : forall p tdc gdc chip,
  exists h t, hit_gdc p tdc gdc chip = Ok h /\ h_tof h = Some t /\
    let d := (h_spider h - tdc) mod 2 ^ 32 in
    0 <= t <= 666800 /\ (t - d) mod 666667 = 0 /\
    (d <= 666800 -> t = d) /\ (666800 < d -> 134 <= t).
Proof. exact C04_tof_l. Qed.
Print Assumptions C04_tof_in_one_frame.
Example C04_instance : exists h, hit_gdc (pixel_packet ex_fields) 69000000 70000000 1 = Ok h /\
  h_tof h = Some 463164 /\ (h_spider h - 69000000) mod 2 ^ 32 = 1796498.
Proof. eexists. split; [vm_compute; reflexivity|]. split; vm_compute; reflexivity. Qed.

(** C05: for a hit not earlier than its TDC pulse the time of flight is the
    difference modulo the frame length. *)
Theorem C05_phase_when_not_early : forall p tdc gdc chip h t,
  hit_gdc p tdc gdc chip = Ok h -> h_tof h = Some t ->
  tdc <= h_spider h < tdc + 2 ^ 32 ->
  (t - (h_spider h - tdc)) mod 666667 = 0.
Proof. exact C05_phase_l. Qed.
Print Assumptions C05_phase_when_not_early.
Example C05_instance : exists h t, hit_gdc (pixel_packet ex_fields) 69000000 70000000 1 = Ok h /\
  h_tof h = Some t /\ 69000000 <= h_spider h < 69000000 + 2 ^ 32.
Proof. eexists; eexists. split; [vm_compute; reflexivity|]. split; [reflexivity|]. vm_compute. split; reflexivity || discriminate. Qed.

(** C05: for a hit earlier than its TDC pulse the phase is off by 298482. *)
Theorem C05_phase_when_early : forall p tdc gdc chip h t,
  hit_gdc p tdc gdc chip = Ok h -> h_tof h = Some t ->
  h_spider h < tdc <= h_spider h + 2 ^ 32 ->
  (t - (h_spider h - tdc)) mod 666667 = 298482.
Proof. exact C05_early_l. Qed.
Print Assumptions C05_phase_when_early.
Example C05_early_instance : exists h t, hit_gdc (pixel_packet ex_fields) 70796499 70000000 1 = Ok h /\
  h_tof h = Some t /\ h_spider h < 70796499 <= h_spider h + 2 ^ 32.
Proof. eexists; eexists. split; [vm_compute; reflexivity|]. split; [reflexivity|]. vm_compute. split; reflexivity || discriminate. Qed.

(** C05 finding: the time of flight is not always the phase in the frame. *)
Theorem C05_always_phase_refuted : exists f tdc gdc chip h t,
  fields_ok f /\ 0 < gdc < 2 ^ 48 /\ 0 < tdc < 2 ^ 48 /\
  hit_gdc (pixel_packet f) tdc gdc chip = Ok h /\ h_tof h = Some t /\
  (t - (h_spider h - tdc)) mod 666667 <> 0.
Proof. exact C05_refuted_l. Qed.
Print Assumptions C05_always_phase_refuted.

(** C06: TDC-only constructor: stored time and time of flight. *)
Theorem C06_tdc_mode_tof : forall f tdc chip, fields_ok f -> 0 <= tdc < 2 ^ 64 ->
  let h := hit_tdc (pixel_packet f) tdc chip in
  let s := time30 f in
  let s' := if s + 2 ^ 22 <? tdc then s + 2 ^ 30 else s in
  h_spider h = s' /\
  (tdc <= s' -> h_tof h = Some (s' - tdc)) /\ (s' < tdc -> h_tof h = None).
Proof. exact C06_tdc_l. Qed.
Print Assumptions C06_tdc_mode_tof.
Example C06_instance :
  h_tof (hit_tdc (pixel_packet ex_fields) 1000000000 0) = Some (70796498 + 2 ^ 30 - 1000000000).
Proof. vm_compute. reflexivity. Qed.

(** C06: exactly when the time of flight is left uninitialised. *)
Theorem C06_uninitialised_iff : forall f tdc chip, fields_ok f -> 0 <= tdc < 2 ^ 64 ->
  (h_tof (hit_tdc (pixel_packet f) tdc chip) = None <->
   (time30 f < tdc <= time30 f + 2 ^ 22 \/ time30 f + 2 ^ 30 < tdc)).
Proof. exact C06_iff_l. Qed.
Print Assumptions C06_uninitialised_iff.
Example C06_early_instance : h_tof (hit_tdc (pixel_packet ex_fields) 70796499 0) = None.
Proof. vm_compute. reflexivity. Qed.

(** C06 finding: after 2^31 ticks (53.7 s) no hit has a time of flight. *)
Theorem C06_no_tof_after_2_31_ticks : forall f tdc chip, fields_ok f -> 2 ^ 31 <= tdc < 2 ^ 64 ->
  h_tof (hit_tdc (pixel_packet f) tdc chip) = None.
Proof. exact C06_late_l. Qed.
Print Assumptions C06_no_tof_after_2_31_ticks.

(** C45: the conversions to nanoseconds are exact. *)
Theorem C45_ns_conversions_are_exact : forall h t,
  0 <= h_toa h < 2 ^ 14 -> 0 <= h_tot h < 2 ^ 10 -> 0 <= h_spider h < 2 ^ 48 ->
  h_tof h = Some t -> 0 <= t < 2 ^ 32 ->
  is_int (toa_ns h) (25 * h_toa h) /\ is_int (tot_ns h) (25 * h_tot h) /\
  is_int (spider_ns h) (25 * h_spider h) /\
  exists v, tof_ns h = Some v /\ is_int v (25 * t).
Proof. exact ns_exact_l. Qed.
Print Assumptions C45_ns_conversions_are_exact.

Theorem C45_fine_time_is_exact : forall h, 0 <= h_ftoa h < 16 ->
  is_finite (ftoa_ns h) = true /\ B2R (ftoa_ns h) = Rdiv (IZR (25 * h_ftoa h)) (IZR 16).
Proof. exact ftoa_ns_exact_l. Qed.
Print Assumptions C45_fine_time_is_exact.
