(** Properties C42, C58 and C59: the streaming program.  Each theorem is
    followed by a concrete instance of its hypotheses. *)
From Coq Require Import Lia.
From Verif Require Import P_StreamRun Properties_Tpx3.
Global Open Scope Z_scope.

(** * Concrete data used by the instances *)

Definition ex_hits6 : list hit :=
  map (fun i => Hit i (2 * i) 9 0 0 (Some i) (1000 + i)) [1; 2; 3; 4; 5; 6].
(** Nine pixels next to each other, one clock tick apart, after a trigger. *)
Definition ex_cloud : dataset := DS 51 0 0
  ([ex_lsb; ex_msb; ex_tdc] ++
   map (fun i => pixel_packet (PF 11 (100 + i) 200 (5000 + i / 4) (50 + i) 5 0)) [0; 1; 2; 3; 4; 5; 6; 7; 8]
   ++ [ex_lsb]).
Definition ex_ones : externals := Ext (fun v => v) (fun _ _ => (f_of_Z 1, f_of_Z 1)).
Lemma ex_cloud_ok : dataset_ok ex_cloud.
Proof.
  split; [unfold is_byte; cbn; lia|]. split; [unfold is_byte; cbn; lia|].
  split; [unfold is_byte; cbn; lia|]. split; [|vm_compute; congruence].
  apply Forall_forall. intros q Hq. cbn [ex_cloud d_payload app map In] in Hq.
  repeat (destruct Hq as [<-|Hq]; [vm_compute; repeat split; congruence|]). destruct Hq.
Qed.

(** * C42: the two threads *)

(** C42: in every schedule that ends, the batches are consecutive pieces of the
    hits, in order: full batches of 10000 hits, then a gap of fewer than 10000
    hits that are in no batch, then the rest of the hits. *)
Theorem C42_batches_are_pieces_of_the_hits : forall (hits : list hit) s,
  sys_steps true (sys_start hits) s -> y_pc s = PEnd ->
  y_todo s = [] /\ y_queue s = [] /\
  exists full lost rest, batched hits full lost rest /\ y_out s = full ++ nonempty_batch rest.
Proof. exact C42_safety_l. Qed.
Print Assumptions C42_batches_are_pieces_of_the_hits.

(** C42: and every such division is the result of some schedule. *)
Theorem C42_every_such_division_occurs : forall (hits : list hit) full lost rest,
  batched hits full lost rest ->
  exists s, sys_steps true (sys_start hits) s /\ y_pc s = PEnd /\
    y_out s = full ++ nonempty_batch rest.
Proof. exact C42_complete_l. Qed.
Print Assumptions C42_every_such_division_occurs.
Example C42_division_instance :
  batched ex_hits6 [] (firstn 2 ex_hits6) (skipn 2 ex_hits6) /\ length ex_hits6 = 6%nat.
Proof.
  split; [|reflexivity]. split; [reflexivity|]. split; [apply Forall_nil|vm_compute; reflexivity].
Qed.
(** A short execution in which the first of three hits is lost. *)
Example C42_execution_instance : exists s, sys_steps true (sys_start [1; 2; 3]) s /\
  y_pc s = PEnd /\ y_out s = [[2; 3]].
Proof.
  eexists. split.
  - eapply ys_more; [apply y_enqueue|]. eapply ys_more; [apply y_goon|].
    eapply ys_more; [apply y_enqueue|]. eapply ys_more; [apply y_take; reflexivity|].
    eapply ys_more; [apply y_enqueue|]. eapply ys_more; [apply y_finish; reflexivity|].
    eapply ys_more; [apply y_stop|]. eapply ys_more; [apply y_drain|].
    eapply ys_more; [apply y_drain|]. eapply ys_more; [apply y_end|]. apply ys_none.
  - split; reflexivity.
Qed.

(** C42, refuted: that no hit is lost.  Any number of hits below the batch size
    can be lost altogether. *)
Theorem C42_all_hits_processed_refuted : forall hits : list hit, zlen hits < 10000 ->
  exists s, sys_steps true (sys_start hits) s /\ y_pc s = PEnd /\ y_out s = [].
Proof. exact C42_all_lost_l. Qed.
Print Assumptions C42_all_hits_processed_refuted.

(** C42: some schedule loses nothing. *)
Theorem C42_nothing_need_be_lost : forall hits : list hit,
  exists s, sys_steps true (sys_start hits) s /\ y_pc s = PEnd /\ concat (y_out s) = hits.
Proof. exact C42_none_lost_l. Qed.
Print Assumptions C42_nothing_need_be_lost.

(** C42: no deadlock: from every state that occurs the end can be reached. *)
Theorem C42_end_always_reachable : forall (hits : list hit) s,
  sys_steps true (sys_start hits) s -> exists s', sys_steps true s s' /\ y_pc s' = PEnd.
Proof. exact C42_can_end_l. Qed.
Print Assumptions C42_end_always_reachable.

(** C42: once the reader has finished, at most as many steps as there are hits
    in the queue, and three, remain. *)
Theorem C42_end_after_reader : forall (hits : list hit) s n s',
  sys_steps true (sys_start hits) s -> y_done s = true -> sys_run true n s s' ->
  n <= zlen (y_queue s) + 3.
Proof. exact C42_ends_l. Qed.
Print Assumptions C42_end_after_reader.
Example C42_end_after_reader_instance :
  sys_steps true (sys_start [1; 2]) (Sys [] [1; 2] true PTry [] []) /\
  (exists s', sys_run true 4 (Sys [] [1; 2] true PTry [] []) s' /\ y_pc s' = PEnd) /\
  exists s', sys_run true 3 (Sys (A := Z) [] [] true PTry [] []) s' /\ y_pc s' = PEnd.
Proof.
  split; [|split].
  - eapply ys_more; [apply y_goon|]. eapply ys_more; [apply y_enqueue|].
    eapply ys_more; [apply y_enqueue|]. eapply ys_more; [apply y_finish; reflexivity|]. apply ys_none.
  - eexists. split.
    + apply (yr_more true 3 _ (Sys [] [2] true PTest ([] ++ [1]) [])); [apply y_take; reflexivity|].
      apply (yr_more true 2 _ (Sys [] [2] true PDrain [] [])); [apply y_stop|].
      apply (yr_more true 1 _ (Sys [] [] true PDrain ([] ++ [2]) [])); [apply y_drain|].
      apply (yr_more true 0 _ (Sys [] [] true PEnd ([] ++ [2]) ([] ++ [[2]]))); [exact (y_end true [] true [2] [])|]. apply yr_none.
    + reflexivity.
  - eexists. split.
    + apply (yr_more true 2 _ (Sys [] [] true PTest [] [])); [apply y_miss|].
      apply (yr_more true 1 _ (Sys [] [] true PDrain [] [])); [apply y_stop|].
      apply (yr_more true 0 _ (Sys [] [] true PEnd [] ([] ++ []))); [exact (y_end true [] true [] [])|]. apply yr_none.
    + reflexivity.
Qed.

(** C42, refuted: that the program ends if the file cannot be opened.  Every
    execution can be continued for ever and none ends. *)
Theorem C42_unopened_file_ends_refuted : forall s : sys hit,
  sys_steps false (sys_start []) s ->
  y_pc s <> PEnd /\ y_out s = [] /\ exists s', sys_step false s s'.
Proof. exact C42_unopened_l. Qed.
Print Assumptions C42_unopened_file_ends_refuted.
Example C42_unopened_instance : sys_steps false (sys_start (A := hit) []) (Sys [] [] false PTry [] []).
Proof. eapply ys_more; [apply y_goon|apply ys_none]. Qed.

(** * C58: the reader *)

(** C58: the reader always comes to an end: with hits or by undefined
    behaviour. *)
Theorem C58_reader_terminates : forall keep m,
  (exists hs, rd_run keep m = Ok hs) \/ (exists u, rd_run keep m = UB u).
Proof. exact rd_run_plain. Qed.
Print Assumptions C58_reader_terminates.

(** C58: arrays indeterminate in every iteration, as the language has it.
    Reading is defined exactly for files that end in one to seven bytes which
    cannot begin a header and whose pixels do not precede their trigger.  Then
    every pixel packet gives one hit, stamped with the current references. *)
Theorem C58_defined_exactly_for_odd_ends : forall m, bytes_ok m ->
  (exists xs hs, framed odd_end m xs /\ timely [] xs /\ stamped [] xs hs /\ rd_run false m = Ok hs) \/
  (~ (exists xs, framed odd_end m xs /\ timely [] xs) /\
   (rd_run false m = UB Uninitialised \/ rd_run false m = UB BadConversion)).
Proof. exact rd_run_strict_l. Qed.
Print Assumptions C58_defined_exactly_for_odd_ends.
Example C58_odd_end_instance :
  bytes_ok (ex_stream ++ [0; 1; 2]) /\
  exists hs, rd_run false (ex_stream ++ [0; 1; 2]) = Ok hs /\ map h_x hs = [360; 360; 252; 155].
Proof.
  split.
  - apply Forall_app. split; [exact ex_stream_ok|].
    repeat (apply Forall_cons; [unfold is_byte; lia|]). apply Forall_nil.
  - eexists. split; [vm_compute; reflexivity|]. vm_compute. reflexivity.
Qed.

(** C58, refuted: that reading a well-formed file is defined.  No file of whole
    packets can be read without using an indeterminate array element. *)
Theorem C58_whole_packet_files_defined_refuted : forall m, bytes_ok m -> zlen m mod 8 = 0 ->
  rd_run false m = UB Uninitialised \/ rd_run false m = UB BadConversion.
Proof. exact C58_whole_l. Qed.
Print Assumptions C58_whole_packet_files_defined_refuted.
Example C58_whole_packets_instance :
  bytes_ok ex_stream /\ zlen ex_stream mod 8 = 0 /\ rd_run false ex_stream = UB Uninitialised.
Proof. split; [exact ex_stream_ok|]. split; vm_compute; reflexivity. Qed.

(** C58: arrays that keep their content.  On a well-formed stream every pixel
    packet gives one hit; but the last dataset header is seen twice, so if the
    last packet is a pixel packet its hit appears once more for every packet of
    the last dataset.  A pixel that precedes its trigger is undefined. *)
Theorem C58_last_hit_repeated : forall ds d ps p,
  Forall dataset_ok ds -> dataset_ok d -> d_payload d = ps ++ [p] ->
  (timely [] (payloads (ds ++ [d])) ->
   exists hs, stamped [] (payloads (ds ++ [d])) hs /\
     (kind_of p <> KPixel -> rd_run true (stream (ds ++ [d])) = Ok hs) /\
     (kind_of p = KPixel -> exists hs0 h, hs = hs0 ++ [h] /\
        rd_run true (stream (ds ++ [d])) = Ok (hs ++ repeat h (length (d_payload d))))) /\
  (~ timely [] (payloads (ds ++ [d])) -> rd_run true (stream (ds ++ [d])) = UB BadConversion).
Proof. exact keep_dup_l. Qed.
Print Assumptions C58_last_hit_repeated.
Example C58_repeated_instance :
  Forall dataset_ok [ex_ds1; ex_ds2] /\ kind_of ex_pix1 = KPixel /\
  d_payload ex_ds2 = [ex_pix2] ++ [ex_pix1] /\
  exists hs, rd_run true ex_stream = Ok hs /\ map h_x hs = [360; 360; 252; 155; 155; 155].
Proof.
  split; [apply Forall_cons; [apply ex_ds1_ok|]; apply Forall_cons; [apply ex_ds2_ok|apply Forall_nil]|].
  split; [vm_compute; reflexivity|]. split; [reflexivity|].
  eexists. split; [vm_compute; reflexivity|]. vm_compute. reflexivity.
Qed.
Example C58_timely_instance : timely [] (payloads [ex_ds1; ex_ds2]).
Proof.
  destruct (rd_fold_spec (payloads [ex_ds1; ex_ds2])) with (seen := @nil packet) (s := ts0) (hits := @nil hit)
    as [[H _]|[_ E]].
  - apply payloads_ok. apply Forall_cons; [apply ex_ds1_ok|]. apply Forall_cons; [apply ex_ds2_ok|apply Forall_nil].
  - apply ref_start.
  - exact H.
  - exfalso. vm_compute in E. discriminate E.
Qed.

(** C58: a dataset that is cut off by the end of the file is filled up with
    copies of its last packet. *)
Theorem C58_cut_off_dataset_filled_up : forall ds q ps p,
  Forall dataset_ok ds -> packet_ok q -> starts_TPX q ->
  Forall packet_ok (ps ++ [p]) -> zlen (ps ++ [p]) < declared_packets q ->
  let m := stream ds ++ packet_bytes q ++ flat_map packet_bytes (ps ++ [p]) in
  let xs := payloads ds ++ map (pair (schar (b4 q))) (ps ++ [p]) ++
      repeat (schar (b4 q), p) (Z.to_nat (declared_packets q - zlen (ps ++ [p]))) in
  (timely [] xs -> exists hs, stamped [] xs hs /\ rd_run true m = Ok hs) /\
  (~ timely [] xs -> rd_run true m = UB BadConversion).
Proof. exact C58_cut_l. Qed.
Print Assumptions C58_cut_off_dataset_filled_up.
Example C58_cut_off_instance :
  let q := Packet 84 80 88 51 2 0 32 0 in
  packet_ok q /\ starts_TPX q /\ declared_packets q = 4 /\
  exists hs, rd_run true (stream [ex_ds1] ++ packet_bytes q ++ flat_map packet_bytes [ex_pix2; ex_pix1]) = Ok hs /\
    map h_x hs = [360; 360; 252; 155; 155; 155].
Proof.
  cbv zeta. split; [vm_compute; repeat split; congruence|]. split; [vm_compute; auto|].
  split; [reflexivity|]. eexists. split; [vm_compute; reflexivity|]. vm_compute. reflexivity.
Qed.

(** * C59: complete runs *)

(** C59: there is always a run, and if reading is defined the rest is: the
    result is an exception if no event was found, and else the events of the
    batches in order, where each has at least 8 hits and no hit counts twice. *)
Theorem C59_some_run_exists : forall keep ext m, exists r, stream_run keep ext m r.
Proof. exact C59_exists_l. Qed.
Print Assumptions C59_some_run_exists.

Theorem C59_results : forall keep ext m hits r,
  bytes_ok m -> rd_run keep m = Ok hits -> stream_run keep ext m r ->
  exists full lost rest evss, batched hits full lost rest /\
    Forall2 (batch_events ext) (full ++ nonempty_batch rest) evss /\
    Forall (fun e => 8 <= n_hits e) (concat evss) /\
    total_hits (concat evss) + zlen lost <= zlen hits /\
    ((concat evss = [] /\ r = Throw RuntimeError) \/
     (concat evss <> [] /\ r = Ok (concat evss))).
Proof. exact C59_results_l. Qed.
Print Assumptions C59_results.

(** C59: every division of the hits leads to a result that occurs. *)
Theorem C59_every_division_has_its_result : forall keep ext m hits full lost rest evss,
  bytes_ok m -> rd_run keep m = Ok hits -> batched hits full lost rest ->
  Forall2 (batch_events ext) (full ++ nonempty_batch rest) evss ->
  stream_run keep ext m (match concat evss with [] => Throw RuntimeError | es => Ok es end).
Proof. exact C59_possible_l. Qed.
Print Assumptions C59_every_division_has_its_result.

(** C59: the events of a batch are determined. *)
Theorem C59_batch_events_determined : forall ext b e e',
  batch_events ext b e -> batch_events ext b e' -> e = e'.
Proof. exact batch_events_unique. Qed.
Print Assumptions C59_batch_events_determined.

(** C59, refuted: that a file with events leads to an output file.  With fewer
    than 10000 hits the run may end with an exception, whatever the hits. *)
Theorem C59_events_always_saved_refuted : forall keep ext m hits,
  rd_run keep m = Ok hits -> zlen hits < 10000 -> stream_run keep ext m (Throw RuntimeError).
Proof. exact C59_throws_l. Qed.
Print Assumptions C59_events_always_saved_refuted.
(** The same file, two results: one event of 9 hits, or the exception. *)
Example C59_two_results_instance : let m := stream [ex_cloud] in
  bytes_ok m /\ stream_run true ex_ones m (Throw RuntimeError) /\
  exists evs, stream_run true ex_ones m (Ok evs) /\ map n_hits evs = [9].
Proof.
  cbv zeta. set (m := stream [ex_cloud]).
  assert (Hm : bytes_ok m).
  { apply stream_bytes. apply Forall_cons; [apply ex_cloud_ok|apply Forall_nil]. }
  split; [exact Hm|].
  assert (E : exists hs, rd_run true m = Ok hs /\ zlen hs = 9 /\
    exists evs, cluster_batch ex_ones hs = Ok evs /\ map n_hits evs = [9]).
  { destruct (rd_run true m) as [hs| | |] eqn:E.
    - exists hs. split; [reflexivity|]. vm_compute in E. injection E as <-.
      split; [vm_compute; reflexivity|].
      match goal with |- context [cluster_batch ex_ones ?h] =>
        assert (K : (let! e := cluster_batch ex_ones h in Ok (map n_hits e)) = Ok [9]) by (vm_compute; reflexivity);
        destruct (cluster_batch ex_ones h) as [evs| | |] end; cbn [obind] in K; try discriminate.
      exists evs. split; [reflexivity|]. injection K as K. exact K.
    - exfalso. vm_compute in E. discriminate E.
    - exfalso. vm_compute in E. discriminate E.
    - exfalso. vm_compute in E. discriminate E. }
  destruct E as (hs & E & L & evs & Ev & En).
  split; [apply (C59_throws_l true ex_ones m hs E); rewrite L; reflexivity|].
  exists evs. split; [|exact En].
  unfold stream_run. rewrite E.
  destruct (C42_complete_l hs [] [] hs) as (s & H1 & H2 & H3);
    [split; [reflexivity|split; [apply Forall_nil|reflexivity]]|].
  exists s. split; [exact H1|]. split; [exact H2|]. rewrite H3.
  destruct hs as [|h hs]; [discriminate L|].
  cbn [app nonempty_batch]. unfold saved_events. cbn [cluster_all]. rewrite Ev. cbn [obind].
  rewrite app_nil_r. destruct evs; [discriminate En|reflexivity].
Qed.

(** C59: with fewer than 8 hits every run ends with the exception. *)
Theorem C59_few_hits_never_saved : forall keep ext m hits r,
  bytes_ok m -> rd_run keep m = Ok hits -> zlen hits < 8 ->
  stream_run keep ext m r -> r = Throw RuntimeError.
Proof. exact C59_few_l. Qed.
Print Assumptions C59_few_hits_never_saved.
Example C59_few_instance : bytes_ok ex_stream /\
  exists hs, rd_run true ex_stream = Ok hs /\ zlen hs = 6.
Proof. split; [exact ex_stream_ok|]. eexists. split; [vm_compute; reflexivity|]. vm_compute. reflexivity. Qed.

(** C59: by the letter of the language every run on a file of whole packets is
    undefined. *)
Theorem C59_whole_packet_runs_undefined : forall ext m r,
  bytes_ok m -> zlen m mod 8 = 0 -> stream_run false ext m r ->
  r = UB Uninitialised \/ r = UB BadConversion.
Proof. exact C59_strict_l. Qed.
Print Assumptions C59_whole_packet_runs_undefined.
Example C59_whole_packet_instance : stream_run false ex_ones ex_stream (UB Uninitialised).
Proof.
  unfold stream_run. destruct (C58_whole_packets_instance) as (_ & _ & E). rewrite E. reflexivity.
Qed.

(** C59: asking for events with another number of hits than were clustered is
    refused. *)
Theorem C59_other_hits : forall ext cfg o hits o' data, Forall hit_ok hits -> lib_fit cfg o hits = Ok o' ->
  length data <> length hits -> lib_get_events ext cfg o' data = Throw RuntimeError.
Proof. exact C59_other_hits_l. Qed.
Print Assumptions C59_other_hits.
Example C59_other_hits_instance : Forall hit_ok ex_hits6 /\
  match lib_fit (AbsCfg (f_of_Z 5) 1 75) abs_new ex_hits6 with
  | Ok o => (o_labels o, match lib_get_events ex_ones (AbsCfg (f_of_Z 5) 1 75) o (tl ex_hits6) with Throw e => Some e | _ => None end)
  | _ => ([], None)
  end = ([0; 0; 0; 0; 1; 1], Some RuntimeError).
Proof. split; [repeat constructor; unfold hit_ok; cbn; lia|]. vm_compute. reflexivity. Qed.
