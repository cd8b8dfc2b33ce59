(** Properties C43 and C53 to C57: the decoder of SophireadLib.  Each theorem is
    followed by a concrete instance of its hypotheses. *)
From Coq Require Import Lia.
From Verif Require Import P_LibMore Properties_Tpx3.
Global Open Scope Z_scope.

(** * C43: timing without reference *)

(** C43: whatever the packet and the state, the time of flight is the arrival
    time within a frame of 666667 ticks, and the arrival time continues the 30
    bits of the packet. *)
Theorem C43_time_of_flight_within_frame : forall p a chip, packet_ok p ->
  let h := fst (packet_to_hit_alt p a chip) in
  exists t, h_tof h = Some t /\ 0 <= t < 666667 /\ t = h_spider h mod 666667 /\
    h_spider h mod 2 ^ 30 = spidertime30 p.
Proof. exact C43_range_l. Qed.
Print Assumptions C43_time_of_flight_within_frame.
Example C43_within_frame_instance :
  packet_to_hit_alt ex_pix1 (Alt 3 (2 ^ 30 - 1)) 1 =
  (Hit 415 315 77 5234 5 (Some 303716) 4294972530, Alt 4 5234).
Proof. vm_compute. reflexivity. Qed.

(** C43: for a whole file. *)
Theorem C43_file_times_within_frame : forall m hs, bytes_ok m -> read_raw (Some m) = Ok hs ->
  Forall (fun h => exists t, h_tof h = Some t /\ 0 <= t < 666667) hs.
Proof. exact C43_file_l. Qed.
Print Assumptions C43_file_times_within_frame.

(** C43: only pixel packets count; the time packets of the file do not
    influence any hit. *)
Theorem C43_time_packets_are_ignored : forall m xs, bytes_ok m -> framed at_end m xs ->
  read_raw (Some m) = Ok (alt_hits (Alt 0 0) (pixels xs)).
Proof. exact read_raw_framed. Qed.
Print Assumptions C43_time_packets_are_ignored.

(** C43: arrival times that follow each other within half a clock period are
    recovered exactly, starting from time 0. *)
Theorem C43_rollovers_are_followed : forall cs fs Ts T0, Forall fields_ok fs ->
  0 <= T0 < 2 ^ 64 -> trackable T0 Ts ->
  Forall2 (fun f T => T mod 2 ^ 30 = time30 f) fs Ts -> length cs = length fs ->
  let hs := alt_hits (alt_at T0) (combine cs (map pixel_packet fs)) in
  length hs = length fs /\
  forall i c f T h, nth_error cs i = Some c -> nth_error fs i = Some f ->
    nth_error Ts i = Some T -> nth_error hs i = Some h -> says c f T h.
Proof. exact C43_track_l. Qed.
Print Assumptions C43_rollovers_are_followed.
Example C43_start_instance : alt_at 0 = Alt 0 0.
Proof. reflexivity. Qed.

Example C43_file_instance :
  bytes_ok ex_stream /\ framed at_end ex_stream (payloads [ex_ds1; ex_ds2]) /\
  exists hs, read_raw (Some ex_stream) = Ok hs /\ map h_spider hs = [5234; 5234; 18729; 5234].
Proof.
  split; [exact ex_stream_ok|]. split.
  - apply stream_framed; [reflexivity|]. repeat constructor; (apply ex_ds1_ok || apply ex_ds2_ok).
  - eexists. split; [vm_compute; reflexivity|]. vm_compute. reflexivity.
Qed.
Example C43_rollover_instance :
  trackable 0 [2 ^ 29 - 1; 2 ^ 30 - 2; 2 ^ 30 + 5234; 2 ^ 30 - 3] /\
  map h_spider (alt_hits (Alt 0 0) (map (fun t => (0, pixel_packet (PF 11 3 4 (t mod 2 ^ 14) 1 0 (t / 2 ^ 14 mod 2 ^ 16))))
    [2 ^ 29 - 1; 2 ^ 30 - 2; 2 ^ 30 + 5234; 2 ^ 30 - 3])) =
  [2 ^ 29 - 1; 2 ^ 30 - 2; 2 ^ 30 + 5234; 2 ^ 30 - 3].
Proof. split; [repeat (constructor; [lia|lia|]); constructor|vm_compute; reflexivity]. Qed.

(** C43: the time of flight is not the time since the trigger: in the example
    stream the second hit comes 3234 ticks after the trigger. *)
Theorem C43_time_since_trigger_refuted : exists ds hs hs',
  Forall dataset_ok ds /\ read_raw (Some (stream ds)) = Ok hs /\ parse_raw (stream ds) = Ok hs' /\
  map h_tof hs = [Some 5234; Some 5234; Some 18729; Some 5234] /\
  map h_tof hs' = [Some 5234; Some 3234; Some 16729; Some 3234].
Proof.
  exists [ex_ds1; ex_ds2]. eexists. eexists.
  split; [repeat constructor; (apply ex_ds1_ok || apply ex_ds2_ok)|].
  split; [vm_compute; reflexivity|]. split; [vm_compute; reflexivity|].
  split; vm_compute; reflexivity.
Qed.
Print Assumptions C43_time_since_trigger_refuted.

(** * C53: hits with a time reference *)

(** C53: the fields of the packet, the chip's place, and the first time at or
    after the time reference. *)
Theorem C53_hit_fields_and_time : forall f tdc gdc chip, fields_ok f ->
  0 <= gdc < 2 ^ 48 - 2 ^ 30 ->
  let h := lib_hit (pixel_packet f) tdc gdc chip in
  (h_x h, h_y h) = place chip (f_x f) (f_y f) /\ h_tot h = f_tot f /\
  h_toa h = f_toa f /\ h_ftoa h = f_ftoa f /\ first_from gdc (time30 f) (h_spider h).
Proof. exact C53_decode_l. Qed.
Print Assumptions C53_hit_fields_and_time.
Example C53_hit_instance :
  lib_hit ex_pix1 2000 (2 ^ 32 + 1000) 1 = Hit 415 315 77 5234 5 (Some 3234) 4294972530 /\
  lib_hit ex_pix1 (2 ^ 32 + 2000) (2 ^ 32 + 1000) 1 = Hit 415 315 77 5234 5 (Some 3234) 4294972530.
Proof. vm_compute. split; reflexivity. Qed.

(** C53: agreement with the decoder of FastSophiread.  A hit that arrived
    before the reference is one clock period later here. *)
Theorem C53_agrees_with_fast_decoder : forall p tdc gdc chip h, packet_ok p ->
  0 <= gdc < 2 ^ 48 - 2 ^ 30 -> hit_gdc p tdc gdc chip = Ok h ->
  let l := lib_hit p tdc gdc chip in
  h_x h = h_x l /\ h_y h = h_y l /\ h_tot h = h_tot l /\ h_toa h = h_toa l /\
  h_ftoa h = h_ftoa l /\
  (h_spider l < gdc + 40000000 -> h_spider h = h_spider l) /\
  (gdc + 40000000 <= h_spider l -> h_spider h = (h_spider l - 2 ^ 30) mod 2 ^ 64) /\
  (h_spider l < gdc + 40000000 -> tdc <= h_spider l <= tdc + 666800 -> h = l).
Proof. exact C53_agree_l. Qed.
Print Assumptions C53_agrees_with_fast_decoder.
Example C53_agree_instance :
  hit_gdc ex_pix1 (2 ^ 32 + 2000) (2 ^ 32 + 1000) 1 = Ok (lib_hit ex_pix1 (2 ^ 32 + 2000) (2 ^ 32 + 1000) 1).
Proof. vm_compute. reflexivity. Qed.

(** C53: a hit 766 ticks before the reference is stamped almost 27 s late. *)
Theorem C53_hit_before_reference_refuted : exists f gdc,
  fields_ok f /\ 0 <= gdc < 2 ^ 48 - 2 ^ 30 /\ time30 f = (gdc - 766) mod 2 ^ 30 /\
  (exists h, hit_gdc (pixel_packet f) gdc gdc 0 = Ok h /\ h_spider h = gdc - 766) /\
  h_spider (lib_hit (pixel_packet f) gdc gdc 0) = gdc - 766 + 2 ^ 30.
Proof.
  exists (PF 11 100 200 5234 77 5 0), (2 ^ 32 + 6000).
  split; [unfold fields_ok; cbn; repeat split; reflexivity || discriminate|].
  split; [lia|]. split; [vm_compute; reflexivity|].
  split; [eexists; split; vm_compute; reflexivity|]. vm_compute. reflexivity.
Qed.
Print Assumptions C53_hit_before_reference_refuted.

(** * C54: hits before the trigger *)

(** C54: after the trigger the time of flight is the difference; before it,
    16666667 (a frame in nanoseconds) is added to a difference in ticks of
    25 ns, so a hit up to 16000000 ticks early gets a time beyond the frame. *)
Theorem C54_time_of_flight : forall p tdc gdc chip, packet_ok p ->
  0 <= gdc < 2 ^ 48 -> 0 <= tdc < 2 ^ 48 ->
  let h := lib_hit p tdc gdc chip in
  exists t, h_tof h = Some t /\
    (tdc <= h_spider h -> t = (h_spider h - tdc) mod 2 ^ 32) /\
    (h_spider h < tdc -> t = (h_spider h - tdc + 16666667) mod 2 ^ 32) /\
    (h_spider h < tdc <= h_spider h + 16000000 -> 666667 <= t).
Proof. exact C54_tof_l. Qed.
Print Assumptions C54_time_of_flight.
Example C54_early_instance : h_tof (lib_hit ex_pix1 5334 0 0) = Some 16666567.
Proof. vm_compute. reflexivity. Qed.

(** C54: packetToHit is defined exactly from the trigger on, and then equals
    the constructor; before the trigger the conversion of a number beyond
    2^32 to unsigned int is undefined. *)
Theorem C54_packet_to_hit_defined_after_trigger : forall p tdc gdc chip, packet_ok p ->
  0 <= gdc < 2 ^ 48 -> 0 <= tdc < 2 ^ 48 ->
  let h := lib_hit p tdc gdc chip in
  (tdc <= h_spider h -> packet_to_hit p tdc gdc chip = Ok h) /\
  (h_spider h < tdc -> packet_to_hit p tdc gdc chip = UB BadConversion).
Proof. exact C54_convert_l. Qed.
Print Assumptions C54_packet_to_hit_defined_after_trigger.
Example C54_convert_instance :
  packet_to_hit ex_pix1 5234 0 0 = Ok (Hit 360 200 77 5234 5 (Some 0) 5234) /\
  packet_to_hit ex_pix1 5235 0 0 = UB BadConversion.
Proof. vm_compute. split; reflexivity. Qed.

(** * C55: which inputs can be read *)

(** C55: readTimepix3RawData is defined exactly on files made of complete
    packets and datasets; on every other file it reads beyond the buffer. *)
Theorem C55_file_reader_defined_iff_framed : forall m, bytes_ok m ->
  ((exists hs, read_raw (Some m) = Ok hs) <-> exists xs, framed at_end m xs) /\
  ((exists hs, read_raw (Some m) = Ok hs) \/ read_raw (Some m) = UB OutOfBounds).
Proof. exact C55_read_iff_l. Qed.
Print Assumptions C55_file_reader_defined_iff_framed.

(** C55: the same for parseRawBytesToHits, which also accepts up to 8 stray
    bytes at the end. *)
Theorem C55_parser_defined_iff_framed : forall m, bytes_ok m ->
  ((exists hs, parse_raw m = Ok hs) <-> exists xs, framed near_end m xs) /\
  ((exists hs, parse_raw m = Ok hs) \/ parse_raw m = UB OutOfBounds).
Proof. exact C55_parse_iff_l. Qed.
Print Assumptions C55_parser_defined_iff_framed.

(** C55: well-formed streams are defined for both. *)
Theorem C55_streams_are_framed : forall ds, Forall dataset_ok ds ->
  framed at_end (stream ds) (payloads ds) /\ framed near_end (stream ds) (payloads ds).
Proof. exact C55_streams_l. Qed.
Print Assumptions C55_streams_are_framed.

(** C55: a file whose length is not a multiple of 8 is read beyond its end. *)
Theorem C55_odd_length_reads_beyond_end : forall m, bytes_ok m -> zlen m mod 8 <> 0 ->
  read_raw (Some m) = UB OutOfBounds.
Proof. exact C55_odd_l. Qed.
Print Assumptions C55_odd_length_reads_beyond_end.

(** C55: so is a stream whose last dataset is cut off. *)
Theorem C55_truncated_dataset_reads_beyond_end : forall ds p rest, Forall dataset_ok ds ->
  packet_ok p -> starts_TPX p -> bytes_ok rest -> zlen rest < 8 * declared_packets p ->
  read_raw (Some (stream ds ++ packet_bytes p ++ rest)) = UB OutOfBounds /\
  (rest <> [] -> parse_raw (stream ds ++ packet_bytes p ++ rest) = UB OutOfBounds).
Proof. exact C55_truncated_l. Qed.
Print Assumptions C55_truncated_dataset_reads_beyond_end.
Example C55_instance :
  (let! hs := parse_raw (ex_stream ++ [1; 2; 3]) in Ok (zlen hs)) = Ok 4 /\
  read_raw (Some (ex_stream ++ [1; 2; 3])) = UB OutOfBounds /\
  read_raw (Some (firstn 64 ex_stream)) = UB OutOfBounds /\
  parse_raw (firstn 64 ex_stream) = UB OutOfBounds.
Proof. vm_compute. repeat split; reflexivity. Qed.

(** * C56: fastParseTPX3Raw and processBatch *)

(** C56: fastParseTPX3Raw returns blank hits only, one for each payload packet
    of whatever kind. *)
Theorem C56_fast_parse_returns_blank_hits : forall m hs, fast_parse m = Ok hs ->
  Forall (fun h => h = Hit 0 0 0 0 0 (Some 0) 0) hs.
Proof. exact C56_blank_l. Qed.
Print Assumptions C56_fast_parse_returns_blank_hits.

Theorem C56_one_blank_hit_per_packet : forall ds, Forall dataset_ok ds ->
  Forall no_false_header ds -> zlen (flat_map d_payload ds) < 2 ^ 31 ->
  exists hs, fast_parse (stream ds) = Ok hs /\ zlen hs = zlen (flat_map d_payload ds) /\
    Forall (fun h => h = Hit 0 0 0 0 0 (Some 0) 0) hs.
Proof. exact C56_count_l. Qed.
Print Assumptions C56_one_blank_hit_per_packet.
Theorem C56_too_many_packets_overflow : forall ds, Forall dataset_ok ds ->
  Forall no_false_header ds -> 2 ^ 31 <= zlen (flat_map d_payload ds) ->
  fast_parse (stream ds) = UB SignedOverflow.
Proof. exact C56_overflow_l. Qed.
Print Assumptions C56_too_many_packets_overflow.
Example C56_blank_instance : fast_parse ex_stream = Ok (repeat (Hit 0 0 0 0 0 (Some 0) 0) 7) /\
  (let! hs := parse_raw ex_stream in Ok (zlen hs)) = Ok 4.
Proof. vm_compute. split; reflexivity. Qed.

(** C56: processBatch makes one hit for each pixel packet of the dataset, with
    a time reference that starts anew at 0. *)
Theorem C56_batches_restart_the_time_reference : forall pre d post, dataset_ok d ->
  let b := new_batch (zlen pre) (zlen (d_payload d)) (schar (d_chip d)) in
  exists hs, process_batch b (pre ++ dataset_bytes d ++ post) = Ok hs /\
    stamped [] (map (pair (schar (d_chip d))) (d_payload d)) hs.
Proof. exact C56_restart_l. Qed.
Print Assumptions C56_batches_restart_the_time_reference.

(** C56: so batch by batch is not the same as the whole stream. *)
Theorem C56_batchwise_equals_whole_refuted : exists ds hs h1 h2,
  Forall dataset_ok ds /\ Forall no_false_header ds /\
  parse_raw (stream ds) = Ok hs /\
  (let bs := lib_find (stream ds) 0 in
   map t_num bs = [5; 2] /\
   map (fun b => process_batch b (stream ds)) bs = [Ok h1; Ok h2]) /\
  map h_spider hs = [5234; 4294972530; 4294986025; 4294972530] /\
  map h_spider (h1 ++ h2) = [5234; 4294972530; 18729; 5234].
Proof.
  exists [ex_ds1; ex_ds2]. eexists. eexists. eexists.
  split; [repeat constructor; (apply ex_ds1_ok || apply ex_ds2_ok)|].
  split; [apply Forall_cons; [apply ex_ds1_ok|apply Forall_cons; [apply ex_ds2_ok|apply Forall_nil]]|].
  split; [vm_compute; reflexivity|].
  split; [split; [vm_compute; reflexivity|vm_compute; reflexivity]|].
  split; vm_compute; reflexivity.
Qed.
Print Assumptions C56_batchwise_equals_whole_refuted.

(** * C57: parseRawBytesToHits *)

(** C57: one hit for each pixel packet, in order, made from the time reference
    of all packets before it, across datasets; also before the first trigger
    or time packet. *)
Theorem C57_one_hit_per_pixel_packet : forall m xs, bytes_ok m -> framed near_end m xs ->
  exists hs, parse_raw m = Ok hs /\ stamped [] xs hs.
Proof. exact parse_raw_stamped. Qed.
Print Assumptions C57_one_hit_per_pixel_packet.

(** C57: the relation leaves no freedom. *)
Theorem C57_hits_are_determined : forall seen xs hs hs', stamped seen xs hs ->
  stamped seen xs hs' -> hs = hs'.
Proof. exact C57_unique_l. Qed.
Print Assumptions C57_hits_are_determined.
Theorem C57_as_many_hits_as_pixel_packets : forall seen xs hs, stamped seen xs hs ->
  length hs = length (pixels xs).
Proof. exact C57_count_l. Qed.
Print Assumptions C57_as_many_hits_as_pixel_packets.
Example C57_instance : (let! hs := parse_raw ex_stream in Ok (map h_tof hs)) =
  Ok [Some 5234; Some 3234; Some 16729; Some 3234] /\
  length (pixels (payloads [ex_ds1; ex_ds2])) = 4%nat.
Proof. vm_compute. split; reflexivity. Qed.
