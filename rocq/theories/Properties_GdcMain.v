(** Properties of the program of the GDC extractor: exit code and files. *)
From Verif Require Import P_GdcMain.
Local Open Scope Z_scope.
Local Open Scope list_scope.

(** C82: with usable options and an input file of packets, other than the output,
    the program ends with code 0; the output file then holds, as CSV text, exactly
    the lines that are due, ordered by offset; no other file changes. *)
Theorem C82_extracts : forall stoull e args o d m ps rest,
  acceptable_gdc stoull args -> read_gdc_options stoull args o -> valid_gdc_options e o ->
  go_input o <> go_output o -> d (go_input o) = Some m ->
  m = flat_map packet_bytes ps ++ rest -> Forall packet_ok ps -> (length rest < 8)%nat -> m <> [] -> zlen m < 2 ^ 64 ->
  forall fuel, (length m <= fuel)%nat ->
  exists d' rows text c, gdc_main fuel stoull None e args d = Ok (0, d') /\ only (go_output o) d d' /\
    d' (go_output o) = Some text /\ csv_file rows text /\
    go_chunk o = 8 * Z.of_nat c /\ (forall r, In r rows <-> due c ps r) /\
    StronglySorted (fun a b => row_offset a < row_offset b) rows.
Proof. exact C82_extracts_l. Qed.
Print Assumptions C82_extracts.
Example C82_extracts_instance :
  seen (gdc_main 100 (fun _ => None) None yes_env [Gi "in.tpx3"; Go "out.csv"]%string
         (on_disk [("in.tpx3", a_file)]%string)) "out.csv" =
  (* 2,4294967303,16,107374182575 *)
  Ok (0, Some (the_header ++ [50; 44; 52; 50; 57; 52; 57; 54; 55; 51; 48; 51; 44; 49; 54; 44;
                              49; 48; 55; 51; 55; 52; 49; 56; 50; 53; 55; 53; 10])).
Proof. vm_compute. reflexivity. Qed.

(** C82: the lines can be read back from the text. *)
Theorem C82_readable : forall rows rows' text, csv_file rows text -> csv_file rows' text -> rows = rows'.
Proof. exact C82_readable_l. Qed.
Print Assumptions C82_readable.
Example C82_readable_instance :
  csv_file [Row 2 7 8 175] (the_header ++ [50; 44; 55; 44; 56; 44; 49; 55; 53; 10]).
Proof. apply (csv_text_file [Row 2 7 8 175]). repeat constructor; discriminate. Qed.

(** C82: the program always ends with code 0 or 1; it is 0 exactly if the options
    are usable and the input is a file other than the output that is not empty. *)
Theorem C82_exit : forall fuel stoull room e args d,
  (forall n m, d n = Some m -> zlen m < 2 ^ 64 /\ (length m <= fuel)%nat) ->
  exists code d', gdc_main fuel stoull room e args d = Ok (code, d') /\ (code = 0 \/ code = 1) /\
    (code = 0 <-> acceptable_gdc stoull args /\ exists o m, read_gdc_options stoull args o /\ valid_gdc_options e o /\
       go_input o <> go_output o /\ d (go_input o) = Some m /\ m <> []).
Proof. exact C82_exit_l. Qed.
Print Assumptions C82_exit.
Example C82_exit_instance :
  let run e args := seen (gdc_main 100 (fun _ => Some 0) None e args (on_disk [("in.tpx3", a_file)]%string)) "out.csv" in
  run (GEnv (fun _ => true) (fun _ => false) (fun _ => true) (fun _ => true)) [Gi "in.tpx3"; Go "out.csv"]%string = Ok (1, None) /\
  run yes_env [Gi "in.tpx3"]%string = Ok (1, None) /\
  run yes_env [Gi "in.tpx3"; Go "out.csv"; Gc "0"]%string = Ok (1, Some []).
Proof. vm_compute. repeat split; reflexivity. Qed.

(** C82: a command line that is refused before the output is tried changes no file. *)
Theorem C82_refused : forall fuel stoull room e args d,
  ~ acceptable_gdc stoull args \/ (exists o, read_gdc_options stoull args o /\ ~ output_tried e o) ->
  gdc_main fuel stoull room e args d = Ok (1, d).
Proof. exact C82_refused_l. Qed.
Print Assumptions C82_refused.

(** C82: a chunk size out of bounds is refused after the output was tried: it keeps
    its content, but is made, empty, if it did not exist. *)
Theorem C82_bad_size : forall fuel stoull room e args o d, acceptable_gdc stoull args -> read_gdc_options stoull args o ->
  output_tried e o -> ~ (2 ^ 20 <= go_chunk o <= 20 * 2 ^ 30) ->
  exists d', gdc_main fuel stoull room e args d = Ok (1, d') /\ only (go_output o) d d' /\
    (d (go_output o) = None -> d' (go_output o) = Some []) /\
    (d (go_output o) <> None -> d' (go_output o) = d (go_output o)).
Proof. exact C82_bad_size_l. Qed.
Print Assumptions C82_bad_size.

(** C82: if there is nothing to read from the input, or it is the output, the
    program fails and leaves an output file without lines. *)
Theorem C82_no_data : forall fuel stoull e args o d, acceptable_gdc stoull args -> read_gdc_options stoull args o ->
  valid_gdc_options e o ->
  go_input o = go_output o \/ d (go_input o) = None \/ d (go_input o) = Some [] ->
  exists d' text, gdc_main fuel stoull None e args d = Ok (1, d') /\ only (go_output o) d d' /\
    d' (go_output o) = Some text /\ csv_file [] text.
Proof. exact C82_no_data_l. Qed.
Print Assumptions C82_no_data.

(** C82, finding: a run that fails can destroy the result of an earlier one. *)
Theorem C82_failure_keeps_output_refuted : exists stoull e args o d d' old,
  read_gdc_options stoull args o /\ gdc_main 100 stoull None e args d = Ok (1, d') /\
  d (go_output o) = Some old /\ old <> [] /\ d' (go_output o) <> Some old.
Proof. exact C82_lost_output_l. Qed.
Print Assumptions C82_failure_keeps_output_refuted.

(** C82, finding: the measured data is destroyed if the output is given the name
    of the input. *)
Theorem C82_input_kept_refuted : exists stoull e args o d d' m rows,
  read_gdc_options stoull args o /\ gdc_main 100 stoull None e args d = Ok (1, d') /\
  d (go_input o) = Some m /\ gdc_process 100 true (Some m) (go_chunk o) = Ok (Some rows) /\ rows <> [] /\
  d' (go_input o) <> Some m.
Proof. exact C82_lost_input_l. Qed.
Print Assumptions C82_input_kept_refuted.

(** C82, finding: on a full disk the exit code is 0 and the output incomplete. *)
Theorem C82_exit_zero_is_complete_refuted : exists stoull e args o d d' room text,
  read_gdc_options stoull args o /\ gdc_main 100 stoull (Some room) e args d = Ok (0, d') /\
  d' (go_output o) = Some text /\ forall rows, ~ csv_file rows text.
Proof. exact C82_full_disk_l. Qed.
Print Assumptions C82_exit_zero_is_complete_refuted.

(** C82: no exception leaves the program. *)
Theorem C82_catches : forall fuel stoull room e args d t, gdc_main fuel stoull room e args d <> Throw t.
Proof. exact C82_catches_l. Qed.
Print Assumptions C82_catches.
