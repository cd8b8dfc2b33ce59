(** Property C84: the program SophireadStream from its arguments to the exit code
    and the file it writes.  Each theorem is followed by a concrete instance of its
    hypotheses. *)
From Verif Require Import P_StreamMain Properties_Tpx3 Properties_StreamCli.
Local Open Scope string_scope.

(** * Concrete data *)
Definition sm_input (name : string) : option (list Z) :=
  if String.eqb name "a.tpx3" then Some (stream [ex_cloud]) else None.
Lemma sm_a : sm_input "a.tpx3" = Some (stream [ex_cloud]).
Proof. reflexivity. Qed.
Definition sm_disk : ldisk := fun n => if String.eqb n "other.h5" then Some [] else None.

(** C84: the exit code is 1 exactly for a wrong number of arguments; then nothing is
    written. *)
Theorem C84_exit_one : forall keep ext lib input args d e, stream_main keep ext lib input args d e ->
  (forall d', e = SExit 1 d' -> d' = d) /\ ((exists d', e = SExit 1 d') <-> length args <> 1%nat).
Proof. exact C84_exit_one_l. Qed.
Print Assumptions C84_exit_one.
Example C84_exit_one_instance : stream_main true ex_ones lib_works sm_input [] sm_disk (SExit 1 sm_disk) /\
  stream_main true ex_ones lib_works sm_input ["a.tpx3"; "b"] sm_disk (SExit 1 sm_disk).
Proof. split; reflexivity. Qed.

(** C84: if the exit code is 0, the input was read and the file holds exactly the
    events of a run, of which there is at least one; no other file changes. *)
Theorem C84_exit_zero : forall keep ext lib input args d d',
  stream_main keep ext lib input args d (SExit 0 d') ->
  exists file m r evs, args = [file] /\ input file = Some m /\ stream_run keep ext m r /\ r = Ok evs /\
    evs <> [] /\ others_kept d d' /\ streamed_file evs d'.
Proof. exact C84_exit_zero_l. Qed.
Print Assumptions C84_exit_zero.

(** C84: if reading is defined, the run ends with the events of a division of the
    hits into batches (with lost hits), or with an exception because there are no
    events or the file cannot be written. *)
Theorem C84_results : forall keep ext lib input file d e m hits,
  input file = Some m -> bytes_ok m -> rd_run keep m = Ok hits ->
  stream_main keep ext lib input [file] d e ->
  exists full lost rest evss, batched hits full lost rest /\
    Forall2 (batch_events ext) (full ++ nonempty_batch rest) evss /\
    ((exists d', e = SExit 0 d' /\ concat evss <> [] /\ others_kept d d' /\ streamed_file (concat evss) d') \/
     (concat evss = [] /\ e = SAbort d) \/
     (~ hdf5_works lib /\ exists d', e = SAbort d' /\ others_kept d d')).
Proof. exact C84_results_l. Qed.
Print Assumptions C84_results.

(** C84: every division with events is the result of some run. *)
Theorem C84_every_division : forall keep ext lib input file d m hits full lost rest evss,
  input file = Some m -> bytes_ok m -> rd_run keep m = Ok hits -> hdf5_works lib -> batched hits full lost rest ->
  Forall2 (batch_events ext) (full ++ nonempty_batch rest) evss -> concat evss <> [] ->
  exists d', stream_main keep ext lib input [file] d (SExit 0 d') /\ others_kept d d' /\ streamed_file (concat evss) d'.
Proof. exact C84_every_division_l. Qed.
Print Assumptions C84_every_division.

(** C84: if the input can be opened, the program can always come to an end. *)
Theorem C84_some_end : forall keep ext lib input file d m, input file = Some m ->
  exists e, stream_main keep ext lib input [file] d e.
Proof. exact C84_some_end_l. Qed.
Print Assumptions C84_some_end.
Example C84_some_end_instance : exists m, sm_input "a.tpx3" = Some m /\ zlen m = 112 /\
  exists d', stream_main true ex_ones lib_works sm_input ["a.tpx3"] sm_disk (SExit 0 d') /\ others_kept sm_disk d' /\
    exists evs, streamed_file evs d' /\ map n_hits evs = [9].
Proof.
  exists (stream [ex_cloud]). split; [exact sm_a|]. split; [vm_compute; reflexivity|].
  destruct C59_two_results_instance as (_ & _ & evs & R & N).
  assert (NE : evs <> []) by (intros ->; discriminate N).
  destruct (stream_main_saves true ex_ones lib_works sm_input "a.tpx3" sm_disk (stream [ex_cloud]) evs sm_a R
              ltac:(repeat split) NE) as (d' & A & B & C).
  exists d'. split; [exact A|]. split; [exact B|]. exists evs. split; [exact C|exact N].
Qed.

(** Finding: a file with events need not lead to an output file or exit code 0.
    With fewer than 10000 hits the run may be aborted by the exception "No events to
    save", whatever the hits. *)
Theorem C84_events_always_saved_refuted : forall keep ext lib input file d m hits, input file = Some m ->
  rd_run keep m = Ok hits -> zlen hits < 10000 -> stream_main keep ext lib input [file] d (SAbort d).
Proof. exact C84_may_abort_l. Qed.
Print Assumptions C84_events_always_saved_refuted.
Example C84_events_always_saved_instance :
  stream_main true ex_ones lib_works sm_input ["a.tpx3"] sm_disk (SAbort sm_disk).
Proof.
  destruct C59_two_results_instance as (_ & R & _).
  exact (stream_main_run true ex_ones lib_works sm_input "a.tpx3" sm_disk _ _ sm_a R).
Qed.

(** Finding: if the input cannot be opened the program never ends. *)
Theorem C84_always_ends_refuted : forall keep ext lib input file d e, input file = None ->
  ~ stream_main keep ext lib input [file] d e.
Proof. exact C84_waits_l. Qed.
Print Assumptions C84_always_ends_refuted.
Example C84_always_ends_instance : sm_input "b.tpx3" = None.
Proof. reflexivity. Qed.

(** Finding: by the letter of the language all runs on a file of whole packets are
    undefined: the last read leaves its array indeterminate. *)
Theorem C84_whole_packets_defined_refuted : forall ext lib input file d m e, input file = Some m ->
  bytes_ok m -> zlen m mod 8 = 0 -> stream_main false ext lib input [file] d e -> e = SUndefined.
Proof. exact C84_undefined_l. Qed.
Print Assumptions C84_whole_packets_defined_refuted.
Example C84_whole_packets_instance : bytes_ok (stream [ex_cloud]) /\ zlen (stream [ex_cloud]) mod 8 = 0.
Proof.
  destruct C59_two_results_instance as (B & _). split; [exact B|vm_compute; reflexivity].
Qed.
