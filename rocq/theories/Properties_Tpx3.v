(** Properties C07-C16 and C18-C20: time packets, batch discovery, packet
    iteration.  Each theorem is followed by a concrete instance of its
    hypotheses. *)
From Coq Require Import Sorted.
From Verif Require Import S_Hit P_Hit P_Core.
Global Open Scope Z_scope.

(** * Concrete data used by the instances *)

(** LSB packet with timer 1000, MSB packet with value 1, TDC packet with
    counter 2000, and two pixel packets. *)
Definition ex_lsb : packet := word_packet (0x44 * 2 ^ 56 + 1000 * 2 ^ 16).
Definition ex_msb : packet := word_packet (0x45 * 2 ^ 56 + 1 * 2 ^ 16).
Definition ex_tdc : packet := word_packet (0x6F * 2 ^ 56 + 2000 * 2 ^ 12).
Definition ex_pix1 : packet := pixel_packet (PF 11 100 200 5234 77 5 0).
Definition ex_pix2 : packet := pixel_packet (PF 11 3 4 2345 88 6 1).
Definition ex_ds1 : dataset := DS 51 0 0 [ex_pix1; ex_lsb; ex_msb; ex_tdc; ex_pix1].
Definition ex_ds2 : dataset := DS 51 2 0 [ex_pix2; ex_pix1].
Definition ex_stream : list Z := stream [ex_ds1; ex_ds2].

Lemma ex_ds1_ok : dataset_ok ex_ds1 /\ no_false_header ex_ds1.
Proof.
  split; [|repeat constructor; vm_compute; intuition discriminate].
  repeat (apply conj); try (vm_compute; intuition discriminate).
  repeat constructor; vm_compute; intuition discriminate.
Qed.
Lemma ex_ds2_ok : dataset_ok ex_ds2 /\ no_false_header ex_ds2.
Proof.
  split; [|repeat constructor; vm_compute; intuition discriminate].
  repeat (apply conj); try (vm_compute; intuition discriminate).
  repeat constructor; vm_compute; intuition discriminate.
Qed.
Lemma ex_stream_ok : bytes_ok ex_stream.
Proof.
  apply stream_ok. apply Forall_cons; [apply ex_ds1_ok|].
  apply Forall_cons; [apply ex_ds2_ok|apply Forall_nil].
Qed.
Lemma ex_stream_aligned : zlen ex_stream mod 8 = 0.
Proof. vm_compute. reflexivity. Qed.

(** * C07 *)

(** A TDC packet is extended to the first time at or after the GDC. *)
Theorem C07_tdc_is_first_time_after_gdc : forall p g, 0 <= g < 2 ^ 64 ->
  exists t, first_at_or_after (g mod 2 ^ 48) (tdc_counter p) t /\
            update_tdc_gdc p g = t mod 2 ^ 48.
Proof. exact C07_l. Qed.
Print Assumptions C07_tdc_is_first_time_after_gdc.
Example C07_instance : update_tdc_gdc ex_tdc (3 * 2 ^ 32 + 2001) = 4 * 2 ^ 32 + 2000.
Proof. vm_compute. reflexivity. Qed.
Example C07_instance_rollover : update_tdc_gdc ex_tdc (2 ^ 48 - 1) = 2000.
Proof. vm_compute. reflexivity. Qed.

(** * C08 *)

(** One pulse: the new time is right exactly for trackable steps. *)
Theorem C08_pulse_is_right_iff_trackable : forall p T T',
  0 <= T < 2 ^ 48 -> 0 <= T' < 2 ^ 48 -> tdc_counter p = T' mod 2 ^ 32 ->
  (update_tdc_only p T = T' <-> pulse_step T T').
Proof. exact C08_step_l. Qed.
Print Assumptions C08_pulse_is_right_iff_trackable.

(** A whole sequence of pulses advancing by less than 2^31 ticks each. *)
Theorem C08_slow_pulses_are_reconstructed : forall ps T0 Ts,
  0 <= T0 < 2 ^ 32 -> Forall (fun x => x < 2 ^ 48) Ts ->
  (forall i a b, nth_error (T0 :: Ts) i = Some a -> nth_error (T0 :: Ts) (S i) = Some b ->
     a <= b < a + 2 ^ 31) ->
  Forall2 (fun p T' => tdc_counter p = T' mod 2 ^ 32) ps (T0 :: Ts) ->
  fold_left (fun t p => update_tdc_only p t) ps 0 = last (T0 :: Ts) 0.
Proof. exact C08_slow_l. Qed.
Print Assumptions C08_slow_pulses_are_reconstructed.

Definition ex_pulse (c : Z) : packet := word_packet (0x6F * 2 ^ 56 + c * 2 ^ 12).
Example C08_instance :
  Forall2 (fun p T' => tdc_counter p = T' mod 2 ^ 32)
    [ex_pulse 4000000000; ex_pulse 1000000000; ex_pulse 3000000000]
    [4000000000; 5294967296; 7294967296] /\
  fold_left (fun t p => update_tdc_only p t)
    [ex_pulse 4000000000; ex_pulse 1000000000; ex_pulse 3000000000] 0 = 7294967296.
Proof. split; [repeat constructor; vm_compute; reflexivity|vm_compute; reflexivity]. Qed.

(** More generally for every trackable sequence from any start. *)
Theorem C08_trackable_pulses_are_reconstructed : forall T ps Ts,
  0 <= T < 2 ^ 48 -> pulses T Ts ->
  Forall2 (fun p T' => tdc_counter p = T' mod 2 ^ 32) ps Ts ->
  fold_left (fun t p => update_tdc_only p t) ps T = last Ts T.
Proof. exact C08_seq_l. Qed.
Print Assumptions C08_trackable_pulses_are_reconstructed.

(** Finding: a pulse out of order across a rollover is one period late. *)
Theorem C08_out_of_order_pulse_is_late : forall p T T',
  0 <= T < 2 ^ 48 -> 0 <= T' -> T' / 2 ^ 32 = T / 2 ^ 32 - 1 -> T - T' <= 2 ^ 31 ->
  tdc_counter p = T' mod 2 ^ 32 ->
  update_tdc_only p T = T' + 2 ^ 32.
Proof. exact C08_late_l. Qed.
Print Assumptions C08_out_of_order_pulse_is_late.
Example C08_late_instance : update_tdc_only (ex_pulse (2 ^ 32 - 1)) (2 ^ 32 + 5) = 2 ^ 33 - 1.
Proof. vm_compute. reflexivity. Qed.

(** Finding: the 48-bit field is not re-masked on overflow. *)
Lemma C08_refuted_l : exists p T, 0 <= T < 2 ^ 48 /\ ~ update_tdc_only p T < 2 ^ 48.
Proof.
  exists (ex_pulse 0), (2 ^ 48 - 1).
  replace (update_tdc_only (ex_pulse 0) (2 ^ 48 - 1)) with (2 ^ 48) by (vm_compute; reflexivity).
  Lia.lia.
Qed.
Theorem C08_stays_48_bit_refuted : exists p T, 0 <= T < 2 ^ 48 /\ ~ update_tdc_only p T < 2 ^ 48.
Proof. exact C08_refuted_l. Qed.
Print Assumptions C08_stays_48_bit_refuted.

(** * C09 *)

(** After any sequence of GDC packets. *)
Theorem C09_gdc_from_last_effective_pair : forall ps, Forall packet_ok ps ->
  let s := fold_left (fun s p => update_gdc p (fst s) (snd s)) ps (0, 0) in
  current_lsb ps (fst s) /\ current_gdc ps (snd s) /\
  0 <= fst s < 2 ^ 32 /\ 0 <= snd s < 2 ^ 48.
Proof. exact C09_l. Qed.
Print Assumptions C09_gdc_from_last_effective_pair.
Example C09_instance :
  fold_left (fun s p => update_gdc p (fst s) (snd s)) [ex_msb; ex_lsb; ex_msb; ex_tdc] (0, 0)
  = (1000, 2 ^ 32 + 1000).
Proof. vm_compute. reflexivity. Qed.

(** One packet: what does not change. *)
Theorem C09_frame : forall p timer g,
  packet_ok p -> 0 <= timer < 2 ^ 32 -> 0 <= g < 2 ^ 48 ->
  let s := update_gdc p timer g in
  (g <> 0 -> snd s <> 0) /\ (gdc_subtype p <> 5 -> snd s = g) /\
  (gdc_subtype p <> 4 -> fst s = timer) /\ 0 <= snd s < 2 ^ 48.
Proof. exact C09_step_l. Qed.
Print Assumptions C09_frame.
Example C09_frame_instance : packet_ok ex_msb /\ gdc_subtype ex_msb = 5 /\ gdc_subtype ex_lsb = 4.
Proof. vm_compute. intuition discriminate. Qed.

(** * C10, C11 *)

(** The batches are exactly the aligned headers. *)
Theorem C10_batches_are_the_headers : forall m b, bytes_ok m ->
  (In b (find_headers m) <->
   exists p, header_at m (t_index b) p /\ t_num b = declared_packets p /\
     declares_chip p (t_chip b) /\ t_hits b = [] /\ t_neutrons b = [] /\ t_ts b = TS 0 0 0).
Proof. exact C10_l. Qed.
Print Assumptions C10_batches_are_the_headers.

(** In increasing offset order, hence without duplicates. *)
Theorem C10_batches_in_file_order : forall m,
  StronglySorted (fun a b => t_index a < t_index b) (find_headers m).
Proof. exact C10_sorted_l. Qed.
Print Assumptions C10_batches_in_file_order.
Example C10_instance :
  map (fun b => (t_index b, t_num b, t_chip b)) (find_headers (ex_stream ++ [84; 80; 88])) =
  [(0, 5, 0); (48, 2, 2)].
Proof. vm_compute. reflexivity. Qed.

Theorem C11_batch_metadata_ranges : forall m b, bytes_ok m -> In b (find_headers m) ->
  0 <= t_num b <= 8191 /\ -128 <= t_chip b <= 127 /\
  0 <= t_index b /\ t_index b + 8 <= zlen m /\ t_index b mod 8 = 0.
Proof. exact C11_l. Qed.
Print Assumptions C11_batch_metadata_ranges.
Example C11_instance :
  map (fun b => (t_index b, t_num b, t_chip b)) (find_headers [84; 80; 88; 51; 200; 0; 255; 255])
  = [(0, 8191, -56)].
Proof. vm_compute. reflexivity. Qed.

(** * C12 *)

Theorem C12_framing_round_trip : forall ds, Forall dataset_ok ds -> Forall no_false_header ds ->
  let bs := find_headers (stream ds) in
  length bs = length ds /\
  forall i d, nth_error ds i = Some d ->
  exists b, nth_error bs i = Some b /\
    t_index b = zlen (stream (firstn i ds)) /\ t_num b = zlen (d_payload d) /\
    declares_chip (ds_header d) (t_chip b) /\
    forall md ex s, process_packets md ex b (stream ds) (zlen (stream ds)) s =
                    run md ex (t_chip b) (d_payload d) s [].
Proof. exact C12_l. Qed.
Print Assumptions C12_framing_round_trip.
Example C12_instance : Forall dataset_ok [ex_ds1; ex_ds2] /\ Forall no_false_header [ex_ds1; ex_ds2].
Proof.
  split; (apply Forall_cons; [apply ex_ds1_ok|]); (apply Forall_cons; [apply ex_ds2_ok|]);
  apply Forall_nil.
Qed.

(** Finding: a pixel packet that starts with TPX is reported as a batch. *)
Definition bad_pixel : packet := Packet 84 80 88 51 0 0 1 0xb0.
Definition bad_ds : dataset := DS 51 0 0 [ex_lsb; ex_msb; ex_tdc; bad_pixel; ex_pix1].
Lemma bad_ds_ok : dataset_ok bad_ds.
Proof.
  repeat (apply conj); try (vm_compute; intuition discriminate).
  repeat constructor; vm_compute; intuition discriminate.
Qed.
Lemma C12_refuted_l : exists ds, Forall dataset_ok ds /\
  length (find_headers (stream ds)) <> length ds /\
  exists bs s, whole GDC_mode (stream ds) ts0 = Ok (bs, s) /\
    length (concat (map t_hits bs)) = 3%nat /\
    length (filter is_pixel (flat_map d_payload ds)) = 2%nat.
Proof.
  exists [bad_ds]. split; [apply Forall_cons; [apply bad_ds_ok|apply Forall_nil]|].
  split; [vm_compute; discriminate|].
  destruct (ok_check_spec (whole GDC_mode (stream [bad_ds]) ts0)
    (fun r => Nat.eqb (length (concat (map t_hits (fst r)))) 3)) as ([bs s] & E & H);
    [vm_compute; reflexivity|].
  exists bs, s. split; [exact E|]. split; [apply Nat.eqb_eq; exact H|reflexivity].
Qed.
Theorem C12_no_side_condition_refuted : exists ds, Forall dataset_ok ds /\
  length (find_headers (stream ds)) <> length ds /\
  exists bs s, whole GDC_mode (stream ds) ts0 = Ok (bs, s) /\
    length (concat (map t_hits bs)) = 3%nat /\
    length (filter is_pixel (flat_map d_payload ds)) = 2%nat.
Proof. exact C12_refuted_l. Qed.
Print Assumptions C12_no_side_condition_refuted.

(** * C13 *)

Theorem C13_bounded_search_is_a_prefix : forall len m, 1 <= len ->
  find_headers_limited len m =
  (firstn (Z.to_nat len) (find_headers m),
   match nth_error (find_headers m) (Z.to_nat len - 1) with
   | Some b => t_index b
   | None => 8 * (zlen m / 8)
   end).
Proof. exact C13_l. Qed.
Print Assumptions C13_bounded_search_is_a_prefix.
Example C13_instance : snd (find_headers_limited 2 ex_stream) = 48 /\
  snd (find_headers_limited 3 (ex_stream ++ [1])) = 72.
Proof. vm_compute. split; reflexivity. Qed.

Theorem C13_limit_is_positive : forall env, (forall v, env = Some v -> 0 <= v) ->
  1 <= max_batch_len env /\
  (forall v, env = Some v -> v <> 0 -> max_batch_len env = v) /\
  ((env = None \/ env = Some 0) -> max_batch_len env = 100000).
Proof. exact max_batch_len_spec. Qed.
Print Assumptions C13_limit_is_positive.

(** * C14 *)

Theorem C14_resumed_search_reproduces_whole_file : forall m len s fuel,
  bytes_ok m -> zlen m mod 8 = 0 -> 2 <= len -> payloads_disjoint m ->
  (Z.to_nat (zlen m / 8) < fuel)%nat ->
  exists bs bs' s', resume_loop fuel len m 0 s [] = Ok (bs, s') /\
    whole GDC_mode m s = Ok (bs', s') /\
    concat (map t_hits bs) = concat (map t_hits bs').
Proof. exact C14_l. Qed.
Print Assumptions C14_resumed_search_reproduces_whole_file.
Example C14_instance :
  (let! (bs, _) := resume_loop 10 2 ex_stream 0 ts0 [] in
   Ok (map (fun b => length (t_hits b)) bs)) = Ok [1; 0; 2]%nat.
Proof. vm_compute. reflexivity. Qed.
Example C14_instance_disjoint : payloads_disjoint ex_stream.
Proof. exact (stream_disjoint [ex_ds1; ex_ds2] (proj1 C12_instance) (proj2 C12_instance)). Qed.

Theorem C14_terminates_on_aligned_files : forall m len s fuel,
  bytes_ok m -> zlen m mod 8 = 0 -> 2 <= len -> (Z.to_nat (zlen m / 8) < fuel)%nat ->
  exists r, resume_loop fuel len m 0 s [] = Ok r.
Proof. exact C14_terminates_l. Qed.
Print Assumptions C14_terminates_on_aligned_files.

(** Finding: trailing bytes make the loop spin for ever. *)
Theorem C14_trailing_bytes_never_terminate : forall m len s fuel,
  bytes_ok m -> zlen m mod 8 <> 0 -> 1 <= len ->
  resume_loop fuel len m 0 s [] = OutOfFuel.
Proof. exact C14_trailing_l. Qed.
Print Assumptions C14_trailing_bytes_never_terminate.
Example C14_trailing_instance : zlen (ex_stream ++ [1]) mod 8 <> 0.
Proof. vm_compute. discriminate. Qed.

(** Finding: limit 1 makes the loop spin for ever on any file with a header. *)
Theorem C14_limit_one_never_terminates : forall m s fuel off p,
  bytes_ok m -> header_at m off p -> resume_loop fuel 1 m 0 s [] = OutOfFuel.
Proof. exact C14_limit1_l. Qed.
Print Assumptions C14_limit_one_never_terminates.

(** * C15 *)

Theorem C15_no_read_outside_aligned_buffers : forall md ex m b s,
  bytes_ok m -> zlen m mod 8 = 0 -> In b (find_headers m) ->
  exists r, process_packets md ex b m (zlen m) s = Ok r.
Proof. exact C15_aligned_l. Qed.
Print Assumptions C15_no_read_outside_aligned_buffers.
Example C15_instance : In (Batch 48 2 2 [] [] ts0) (find_headers ex_stream).
Proof. vm_compute. auto. Qed.

(** Finding: reads past the end exactly when the payload covers the trailing
    partial packet. *)
Theorem C15_unaligned_buffers : forall md ex m b s,
  bytes_ok m -> zlen m mod 8 <> 0 -> In b (find_headers m) ->
  (zlen m < t_index b + 8 + 8 * t_num b -> process_packets md ex b m (zlen m) s = UB OutOfBounds) /\
  (t_index b + 8 + 8 * t_num b <= zlen m -> exists r, process_packets md ex b m (zlen m) s = Ok r).
Proof. exact C15_unaligned_l. Qed.
Print Assumptions C15_unaligned_buffers.
Example C15_unaligned_instance :
  process_packets GDC_mode true (Batch 48 2 2 [] [] ts0) (removelast ex_stream)
    (zlen (removelast ex_stream)) ts0 = UB OutOfBounds.
Proof. vm_compute. reflexivity. Qed.

(** * C16 *)

Theorem C16_two_phases_equal_one_pass : forall md m s, bytes_ok m ->
  (let! (bs, s1) := whole md m s in Ok (map t_hits bs, s1)) =
  one_pass md (find_headers m) m (zlen m) s.
Proof. exact C16_whole_l. Qed.
Print Assumptions C16_two_phases_equal_one_pass.
Example C16_instance :
  (let! (hs, _) := one_pass GDC_mode (find_headers ex_stream) ex_stream (zlen ex_stream) ts0 in
   Ok (map (@length hit) hs)) = Ok [1; 2]%nat.
Proof. vm_compute. reflexivity. Qed.

(** The same for any list of batches without hits. *)
Theorem C16_two_phases_any_batches : forall md bs m fin s,
  bytes_ok m -> Forall (fun b => t_hits b = []) bs ->
  (let! (bs1, s1) := locate md bs m fin s in
   let! bs2 := extract_all md bs1 m fin in Ok (map t_hits bs2, s1)) =
  one_pass md bs m fin s.
Proof. exact C16_l. Qed.
Print Assumptions C16_two_phases_any_batches.

(** * C18, C19, C20 *)

(** The hits of a batch: one per pixel packet seen with all timestamps
    available, in packet order, at most the declared number; nothing else of
    the batch changes except its timestamps. *)
Theorem C18_hits_are_gated_and_bounded : forall md b m fin b' ps,
  bytes_ok m -> 0 <= t_index b -> 0 <= t_num b ->
  is_payload m fin (t_index b) (t_num b) ps ->
  extract_hits md b m fin = Ok b' ->
  exists hs, t_hits b' = t_hits b ++ hs /\ yields md (t_chip b) (t_ts b) ps hs /\
    zlen hs <= t_num b /\
    t_ts b' = fold_left (fun s p => next_ts md p s) ps (t_ts b) /\
    (t_index b', t_num b', t_chip b', t_neutrons b') = (t_index b, t_num b, t_chip b, t_neutrons b).
Proof. exact C18_l. Qed.
Print Assumptions C18_hits_are_gated_and_bounded.

(** The payload in the hypothesis exists whenever extraction succeeds, and the
    relation determines the hits. *)
Theorem C18_payload_exists : forall m fin b b' md,
  bytes_ok m -> 0 <= t_index b -> 0 <= t_num b ->
  extract_hits md b m fin = Ok b' -> exists ps, is_payload m fin (t_index b) (t_num b) ps.
Proof. exact C18_exists_l. Qed.
Print Assumptions C18_payload_exists.
Theorem C18_yields_determines_hits : forall md chip s ps hs hs',
  yields md chip s ps hs -> yields md chip s ps hs' -> hs = hs'.
Proof. exact yields_functional. Qed.
Print Assumptions C18_yields_determines_hits.
Example C18_instance :
  (let! b' := extract_hits GDC_mode (Batch 0 5 0 [] [] ts0) ex_stream 72 in
   Ok (map (fun h => (h_x h, h_y h, h_tot h)) (t_hits b'), t_ts b')) =
  Ok ([(360, 200, 77)], TS (2 ^ 32 + 2000) (2 ^ 32 + 1000) 1000).
Proof. vm_compute. reflexivity. Qed.

(** Extracting twice appends the hits of a second pass that starts from the
    final timestamps. *)
Theorem C19_second_extraction_appends : forall md b m fin b1 b2 ps,
  bytes_ok m -> 0 <= t_index b -> 0 <= t_num b ->
  is_payload m fin (t_index b) (t_num b) ps ->
  extract_hits md b m fin = Ok b1 -> extract_hits md b1 m fin = Ok b2 ->
  exists hs1 hs2, t_hits b1 = t_hits b ++ hs1 /\ t_hits b2 = t_hits b ++ hs1 ++ hs2 /\
    yields md (t_chip b) (t_ts b) ps hs1 /\
    yields md (t_chip b) (fold_left (fun s p => next_ts md p s) ps (t_ts b)) ps hs2.
Proof. exact C19_l. Qed.
Print Assumptions C19_second_extraction_appends.

(** Finding: extraction is not idempotent; here the second call yields two
    more hits, including one the first call had skipped. *)
Lemma C19_refuted_l : exists b m b1 b2,
  extract_hits GDC_mode b m (zlen m) = Ok b1 /\ extract_hits GDC_mode b1 m (zlen m) = Ok b2 /\
  length (t_hits b1) = 1%nat /\ length (t_hits b2) = 3%nat.
Proof.
  pose (b := Batch 0 5 0 [] [] ts0). exists b, ex_stream.
  destruct (ok_check_spec (extract_hits GDC_mode b ex_stream (zlen ex_stream))
    (fun b1 => Nat.eqb (length (t_hits b1)) 1 &&
       ok_check (extract_hits GDC_mode b1 ex_stream (zlen ex_stream))
         (fun b2 => Nat.eqb (length (t_hits b2)) 3))) as (b1 & E1 & H1);
    [vm_compute; reflexivity|].
  apply andb_prop in H1. destruct H1 as [L1 H1]. apply ok_check_spec in H1.
  destruct H1 as (b2 & E2 & L2). apply Nat.eqb_eq in L1. apply Nat.eqb_eq in L2.
  exists b1, b2. auto.
Qed.
Theorem C19_idempotent_refuted : exists b m b1 b2,
  extract_hits GDC_mode b m (zlen m) = Ok b1 /\ extract_hits GDC_mode b1 m (zlen m) = Ok b2 /\
  length (t_hits b1) = 1%nat /\ length (t_hits b2) = 3%nat.
Proof. exact C19_refuted_l. Qed.
Print Assumptions C19_idempotent_refuted.

(** Only the bytes of the own payload matter. *)
Theorem C20_extraction_is_local : forall md ex b m m' fin s,
  0 <= t_index b -> 0 <= t_num b ->
  (forall i, t_index b + 8 <= Z.of_nat i < t_index b + 8 + 8 * t_num b ->
     nth_error m i = nth_error m' i) ->
  process_packets md ex b m fin s = process_packets md ex b m' fin s.
Proof. exact C20_l. Qed.
Print Assumptions C20_extraction_is_local.
Example C20_instance : exists m', m' <> ex_stream /\
  forall i, 0 + 8 <= Z.of_nat i < 0 + 8 + 8 * 5 -> nth_error ex_stream i = nth_error m' i.
Proof.
  exists (firstn 48 ex_stream). split; [vm_compute; discriminate|].
  intros i Hi. apply nth_error_prefix. Lia.lia.
Qed.
