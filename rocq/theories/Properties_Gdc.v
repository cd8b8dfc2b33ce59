(** Properties of the GDC extractor. *)
From Verif Require Import P_Gdc.
Local Open Scope Z_scope.
Local Open Scope list_scope.

(** Files used in the examples: a header of chip [c], an LSB packet with value
    [v], an MSB packet with value [v]. *)
Definition ex_header (c : Z) : packet := Packet 84 80 88 51 c 0 0 0.
Definition ex_lsb (v : Z) : packet := Packet 0 0 v 0 0 0 0 68.
Definition ex_msb (v : Z) : packet := Packet 0 0 v 0 0 0 0 69.
Definition ex_pixel : packet := Packet 1 2 3 4 5 6 7 176.
Definition ex_file : list packet :=
  [ex_msb 9; ex_header 2; ex_lsb 7; ex_pixel; ex_msb 1; ex_lsb 8; ex_msb 1; ex_header 3; ex_msb 2].

(** C36: for a file of packets [ps] (and possibly an incomplete one at the end)
    and chunks of [c] packets the extractor succeeds; it writes exactly the lines
    that are due, ordered by offset. *)
Theorem C36_records : forall ps rest, Forall packet_ok ps -> (length rest < 8)%nat ->
  forall m, m = flat_map packet_bytes ps ++ rest -> m <> [] -> zlen m < 2 ^ 64 ->
  forall c fuel, (0 < c)%nat -> (length m <= fuel)%nat ->
  exists rows, gdc_process fuel true (Some m) (8 * Z.of_nat c) = Ok (Some rows) /\
    (forall r, In r rows <-> due c ps r) /\
    StronglySorted (fun a b => row_offset a < row_offset b) rows.
Proof. intros ps rest Hp Hr m -> Hm Hz c fuel. exact (C36_l ps rest Hp Hr Hm Hz c fuel). Qed.
Print Assumptions C36_records.
Example C36_records_instance :
  let m := flat_map packet_bytes ex_file ++ [84; 80; 88] in
  gdc_process 100 true (Some m) 72 =
    Ok (Some [Row 2 (2 ^ 32 + 7) 32 (25 * (2 ^ 32 + 7)); Row 2 (2 ^ 32 + 8) 48 (25 * (2 ^ 32 + 8));
              Row 3 (2 * 2 ^ 32 + 8) 64 (25 * (2 * 2 ^ 32 + 8))]).
Proof. vm_compute. reflexivity. Qed.

(** C36, finding: an MSB packet that assembles to the timestamp 0 is reported with
    the timestamp before it. *)
Theorem C36_stale_timestamp : forall ps rest, Forall packet_ok ps -> (length rest < 8)%nat ->
  forall m, m = flat_map packet_bytes ps ++ rest -> zlen m < 2 ^ 64 ->
  forall c fuel k p gs v chip, (0 < c)%nat -> (length m <= fuel)%nat ->
  nth_error ps k = Some p -> msb p ->
  sublist gdc_packet (firstn k ps) gs -> completes gs p 0 -> current_gdc gs v -> v <> 0 ->
  attributed c ps k chip -> 0 <= chip ->
  exists rows, gdc_process fuel true (Some m) (8 * Z.of_nat c) = Ok (Some rows) /\
    In (Row chip v (8 * Z.of_nat k) (25 * v)) rows.
Proof. exact C36_stale_l. Qed.
Print Assumptions C36_stale_timestamp.
Example C36_stale_timestamp_instance :
  let m := flat_map packet_bytes [ex_header 0; ex_lsb 7; ex_msb 1; ex_lsb 0; ex_msb 0] in
  gdc_process 100 true (Some m) 72 =
    Ok (Some [Row 0 (2 ^ 32 + 7) 16 (25 * (2 ^ 32 + 7)); Row 0 (2 ^ 32 + 7) 32 (25 * (2 ^ 32 + 7))]).
Proof. vm_compute. reflexivity. Qed.

(** C36, finding: the lower bits sent by one chip are combined with the upper
    bits sent by another one. *)
Theorem C36_chips_mixed_refuted : exists ps rows r,
  gdc_process 100 true (Some (flat_map packet_bytes ps)) 80 = Ok (Some rows) /\ In r rows /\
  row_chip r = 1 /\
  (* the packets under the header of chip 1 alone give another timestamp *)
  ps = [ex_header 0; ex_lsb 7; ex_header 1; ex_msb 3] /\
  row_value r = 3 * 2 ^ 32 + 7 /\ completes [] (ex_msb 3) (3 * 2 ^ 32).
Proof. exact C36_mixed_l. Qed.
Print Assumptions C36_chips_mixed_refuted.

(** C37: timer and timestamp at the end of the file do not depend on the chunks. *)
Theorem C37_final_state : forall ps rest, Forall packet_ok ps -> (length rest < 8)%nat ->
  forall m, m = flat_map packet_bytes ps ++ rest -> zlen m < 2 ^ 64 ->
  forall c c' fuel, (0 < c)%nat -> (0 < c')%nat -> (length m <= fuel)%nat ->
  exists rows rows' s,
    gdc_chunks fuel (8 * Z.of_nat c) (Reader m 0) 0 (0, 0) [] = Ok (rows, s) /\
    gdc_chunks fuel (8 * Z.of_nat c') (Reader m 0) 0 (0, 0) [] = Ok (rows', s) /\
    timestamp_after ps (snd s).
Proof. exact C37_final_l. Qed.
Print Assumptions C37_final_state.
Example C37_final_state_instance :
  let m := flat_map packet_bytes ex_file in
  (let! x := gdc_chunks 100 16 (Reader m 0) 0 (0, 0) [] in Ok (snd x)) = Ok (8, 2 * 2 ^ 32 + 8) /\
  (let! x := gdc_chunks 100 40 (Reader m 0) 0 (0, 0) [] in Ok (snd x)) = Ok (8, 2 * 2 ^ 32 + 8).
Proof. vm_compute. split; reflexivity. Qed.

(** C37: two runs never report different things for the same offset. *)
Theorem C37_agree : forall ps rest, Forall packet_ok ps -> (length rest < 8)%nat ->
  forall m, m = flat_map packet_bytes ps ++ rest -> zlen m < 2 ^ 64 ->
  forall c c' fuel rows rows', (0 < c)%nat -> (0 < c')%nat -> (length m <= fuel)%nat ->
  gdc_process fuel true (Some m) (8 * Z.of_nat c) = Ok (Some rows) ->
  gdc_process fuel true (Some m) (8 * Z.of_nat c') = Ok (Some rows') ->
  forall r r', In r rows -> In r' rows' -> row_offset r = row_offset r' -> r = r'.
Proof. exact C37_agree_l. Qed.
Print Assumptions C37_agree.

(** C37: a multiple of the chunk size reports at least as much. *)
Theorem C37_larger_chunks : forall ps rest, Forall packet_ok ps -> (length rest < 8)%nat ->
  forall m, m = flat_map packet_bytes ps ++ rest -> zlen m < 2 ^ 64 ->
  forall c n fuel rows rows', (0 < c)%nat -> (0 < n)%nat -> (length m <= fuel)%nat ->
  gdc_process fuel true (Some m) (8 * Z.of_nat c) = Ok (Some rows) ->
  gdc_process fuel true (Some m) (8 * Z.of_nat (n * c)) = Ok (Some rows') ->
  incl rows rows'.
Proof. exact C37_larger_l. Qed.
Print Assumptions C37_larger_chunks.

(** C37: compared with the file in one chunk, exactly the lines are lost that have
    no header before them in their chunk. *)
Theorem C37_lost : forall ps rest, Forall packet_ok ps -> (length rest < 8)%nat ->
  forall m, m = flat_map packet_bytes ps ++ rest -> zlen m < 2 ^ 64 ->
  forall c c' fuel rows rows', (0 < c)%nat -> (0 < c')%nat -> (length ps <= c')%nat -> (length m <= fuel)%nat ->
  gdc_process fuel true (Some m) (8 * Z.of_nat c) = Ok (Some rows) ->
  gdc_process fuel true (Some m) (8 * Z.of_nat c') = Ok (Some rows') ->
  forall r, In r rows <-> In r rows' /\
    exists k j h, row_offset r = 8 * Z.of_nat k /\ (k / c * c <= j < k)%nat /\
      nth_error ps j = Some h /\ tpx3_header h.
Proof. exact C37_lost_l. Qed.
Print Assumptions C37_lost.
Example C37_lost_instance :
  let m := flat_map packet_bytes ex_file in
  gdc_process 100 true (Some m) 48 =
    Ok (Some [Row 2 (2 ^ 32 + 7) 32 (25 * (2 ^ 32 + 7)); Row 3 (2 * 2 ^ 32 + 8) 64 (25 * (2 * 2 ^ 32 + 8))]) /\
  gdc_process 100 true (Some m) 40 =
    Ok (Some [Row 2 (2 ^ 32 + 7) 32 (25 * (2 ^ 32 + 7)); Row 3 (2 * 2 ^ 32 + 8) 64 (25 * (2 * 2 ^ 32 + 8))]) /\
  gdc_process 100 true (Some m) 8 = Ok (Some []).
Proof. vm_compute. repeat split; reflexivity. Qed.

(** C37, finding: smaller chunks do not always report less: if neither size is a
    multiple of the other, each can report a line that the other one loses. *)
Theorem C37_smaller_chunks_refuted : exists ps rows rows' r,
  Forall packet_ok ps /\
  gdc_process 100 true (Some (flat_map packet_bytes ps)) (8 * 2) = Ok (Some rows) /\
  gdc_process 100 true (Some (flat_map packet_bytes ps)) (8 * 3) = Ok (Some rows') /\
  In r rows /\ ~ In r rows'.
Proof. exact C37_smaller_l. Qed.
Print Assumptions C37_smaller_chunks_refuted.

(** C49: the command line of the extractor is accepted exactly if it has no bad
    option, all sizes are numbers, input and output are named and usable and the
    chunk size is within the limits; the last value of an option counts. *)
Theorem C49_options : forall stoull e args o, parse_gdc_arguments stoull e args = Ok o <->
  acceptable_gdc stoull args /\ read_gdc_options stoull args o /\ valid_gdc_options e o.
Proof. exact C49_l. Qed.
Print Assumptions C49_options.
Example C49_options_instance :
  let e := GEnv (fun _ => true) (fun _ => true) (fun _ => true) (fun _ => true) in
  parse_gdc_arguments (fun _ => Some 3) e [Gi "a"; Go "b"; Gd; Gc "3"; Gi "c"] =
    Ok (GOpt "c" "b" 3145728 true false) /\
  parse_gdc_arguments (fun _ => Some 20481) e [Gi "a"; Go "b"; Gc "20481"] = Throw RuntimeError.
Proof. split; reflexivity. Qed.

(** C49: all other command lines are refused by an exception. *)
Theorem C49_refused : forall stoull e args,
  (exists o, parse_gdc_arguments stoull e args = Ok o) \/ parse_gdc_arguments stoull e args = Throw RuntimeError.
Proof. exact C49_refused_l. Qed.
Print Assumptions C49_refused.

(** C49: an accepted chunk size is between 1 MiB and 20 GiB and a multiple of the
    packet size, as C36 and C37 need it. *)
Theorem C49_chunk_size : forall stoull e args o, parse_gdc_arguments stoull e args = Ok o ->
  (exists n, go_chunk o = n * 2 ^ 20 /\ 1 <= n <= 20480) /\
  exists c, (0 < c)%nat /\ go_chunk o = 8 * Z.of_nat c.
Proof. exact C49_size_l. Qed.
Print Assumptions C49_chunk_size.
