(** Properties C85 and C86: the programs benchmark_raw2hits and
    benchmark_raw2events, and the saving functions of the command line program.
    Each theorem is followed by a concrete instance of its hypotheses. *)
From Coq Require Import Reals String Permutation Lia.
From Verif Require Import P_Bench Properties_Tpx3 Properties_Cli Properties_Hdf5.
Local Open Scope string_scope.
Local Open Scope list_scope.
Global Open Scope Z_scope.

(** * Concrete data used by the instances *)

Definition bex_input (name : string) : option (list Z) :=
  if String.eqb name "a.tpx3" then Some ex_stream
  else if String.eqb name "empty.tpx3" then Some [] else None.
Definition bex_disk : h5disk := fun _ => None.
(** An older file. *)
Definition bex_old : h5disk := fun n =>
  if String.eqb n verify_file then Some [("hits", put empty_group "spidertime_ns" [f_of_Z 7; f_of_Z 12; f_of_Z 9])] else None.
Definition backwards (n : nat) : list nat := rev (seq 0 n).
Lemma backwards_once : every_once backwards.
Proof. intros n. apply Permutation_sym, Permutation_rev. Qed.
(** Hits, bad hits, largest arrival time and the one from the file. *)
Definition shown (o : outcome rresult) : outcome (option (Z * Z * option Z) * option Z) :=
  let! r := o in
  Ok (option_map (fun p => (rr_hits p, rr_bad p, f_to_u64 (rr_max p))) (rs_report r), end_int (rs_end r)).
Definition bex_events (d : h5disk) (args : list string) : outcome rresult :=
  raw2events cex_ext 12 bex_input args d.

(** * C85 *)

(** benchmark_raw2hits on a file of datasets: both numbers are the number of hits
    of the datasets, each read without the times of the earlier ones, however
    the iterations are scheduled. *)
Theorem C85_hits : forall order input inp rest ds hss, Forall dataset_ok ds -> Forall no_false_header ds ->
  input inp = Some (stream ds) -> every_once order -> hits_alone ds hss ->
  raw2hits order input (inp :: rest) = Ok (0, Some (zlen (concat hss), zlen (concat hss))).
Proof. exact C85_hits_l. Qed.
Print Assumptions C85_hits.
Example C85_hits_instance : raw2hits backwards bex_input ["a.tpx3"; "more"] = Ok (0, Some (1, 1)).
Proof. vm_compute. reflexivity. Qed.

(** For any file: if the program ends, the single thread and the parallel loop
    report the same number, and another schedule reports the same. *)
Theorem C85_threads : forall order order' input args r, every_once order -> every_once order' ->
  raw2hits order input args = Ok r -> raw2hits order' input args = Ok r /\
  (forall a b, snd r = Some (a, b) -> a = b).
Proof. exact C85_threads_l. Qed.
Print Assumptions C85_threads.
Example C85_threads_instance : every_once backwards /\ every_once (seq 0) /\
  raw2hits (seq 0) bex_input ["a.tpx3"] = raw2hits backwards bex_input ["a.tpx3"].
Proof. split; [exact backwards_once|]. split; [intros n; apply Permutation_refl|]. vm_compute. reflexivity. Qed.

(** Without the times of the earlier datasets there are at most as many hits as
    with them (unless the clock is about to overflow); the two benchmarks do not
    always agree. *)
Theorem C85_fewer : forall ds hss hss', Forall dataset_ok ds -> Forall clock_fits ds ->
  hits_alone ds hss -> hits_running ds hss' -> zlen (concat hss) <= zlen (concat hss').
Proof. exact C85_fewer_l. Qed.
Print Assumptions C85_fewer.
Example C85_fewer_instance : Forall clock_fits [ex_ds1; ex_ds2].
Proof. repeat constructor; vm_compute; intros; discriminate || reflexivity. Qed.
Theorem C85_same_hits_refuted : exists ext micros order input args d r r' rep n, every_once order /\
  raw2hits order input args = Ok r /\ snd r = Some (n, n) /\
  raw2events ext micros input args d = Ok r' /\ rs_report r' = Some rep /\ rr_hits rep <> n.
Proof.
  exists cex_ext, 12%nat, backwards, bex_input, ["a.tpx3"], bex_disk.
  destruct (differ_l cex_ext 12 backwards bex_input ["a.tpx3"] bex_disk backwards_once) as (r & r' & rep & n & H).
  - vm_compute. reflexivity.
  - exists r, r', rep, n. exact (conj backwards_once H).
Qed.
Print Assumptions C85_same_hits_refuted.

(** benchmark_raw2events on a file of datasets ends.  It reports the number of hits,
    how many of them are later than 16.67 ms, and the latest arrival in ns; the
    hits are saved in one file. *)
Theorem C85_events : forall ext micros input inp rest d ds hss, Forall dataset_ok ds -> Forall no_false_header ds ->
  input inp = Some (stream ds) -> hits_running ds hss -> Forall (fun h => h_spider h < 2 ^ 48) (concat hss) ->
  (micros < Z.to_nat (10 ^ 6))%nat ->
  exists r rep, raw2events ext micros input (inp :: rest) d = Ok r /\ rs_report r = Some rep /\
    rr_hits rep = zlen (concat hss) /\ counted late (concat hss) (rr_bad rep) /\
    (exists v, largest (map h_spider (concat hss)) v /\ double_is (rr_max rep) (25 * v)) /\
    exists final, goes_to d micros final /\ saved_hits d (rs_disk r) (concat hss) final.
Proof. exact C85_events_l. Qed.
Print Assumptions C85_events.
Example C85_events_instance :
  shown (bex_events bex_disk ["a.tpx3"]) = Ok (Some (3, 0, Some (25 * 4294986025)), Some (25 * 4294986025)).
Proof. vm_compute. reflexivity. Qed.

(** If there is no file verify_spidertime.h5: the value read back is the value
    reported; without hits nothing is written and the program ends by an
    exception. *)
Theorem C85_verified : forall ext micros input inp rest d ds hss r rep, Forall dataset_ok ds -> Forall no_false_header ds ->
  input inp = Some (stream ds) -> hits_running ds hss -> Forall (fun h => h_spider h < 2 ^ 48) (concat hss) ->
  (micros < Z.to_nat (10 ^ 6))%nat -> d verify_file = None ->
  raw2events ext micros input (inp :: rest) d = Ok r -> rs_report r = Some rep ->
  (concat hss <> [] -> rs_end r = RDone (rr_max rep)) /\ (concat hss = [] -> rs_end r = RAborted).
Proof. exact C85_verified_l. Qed.
Print Assumptions C85_verified.
Example C85_verified_instance :
  (let! r := bex_events bex_disk ["empty.tpx3"] in
   Ok (match rs_end r with RAborted => true | _ => false end)) = Ok true.
Proof. vm_compute. reflexivity. Qed.

(** Finding: if there is such a file, the hits go to another one and the old file is
    read: the value "from file" is the largest of the old file (an exception if it
    has none), whatever the hits are. *)
Theorem C85_old_file : forall ext micros input inp rest d ds hss r f, Forall dataset_ok ds -> Forall no_false_header ds ->
  input inp = Some (stream ds) -> hits_running ds hss -> Forall (fun h => h_spider h < 2 ^ 48) (concat hss) ->
  (micros < Z.to_nat (10 ^ 6))%nat -> d verify_file = Some f ->
  raw2events ext micros input (inp :: rest) d = Ok r ->
  (forall c, file_times f c -> exists v, rs_end r = RDone v /\
     (forall ks, Forall2 double_is c ks -> exists k, largest ks k /\ double_is v k)) /\
  ((forall c, ~ file_times f c) -> rs_end r = RAborted).
Proof. exact C85_old_l. Qed.
Print Assumptions C85_old_file.
Example C85_old_file_instance :
  (let! s := shown (bex_events bex_old ["a.tpx3"]) in
   let! r := bex_events bex_old ["a.tpx3"] in
   Ok (snd s, match rs_disk r "verify_spidertime_000012.h5" with Some f => int_col f "hits" "x" | None => [] end)) =
  Ok (Some 12, [Some 360; Some 252; Some 155]).
Proof. vm_compute. reflexivity. Qed.
Theorem C85_read_back_refuted : exists ext micros input args d r rep v,
  raw2events ext micros input args d = Ok r /\ rs_report r = Some rep /\ rs_end r = RDone v /\ v <> rr_max rep.
Proof.
  exists cex_ext, 12%nat, bex_input, ["a.tpx3"], bex_old.
  apply (unequal_l cex_ext 12 bex_input ["a.tpx3"] bex_old (25 * 4294986025) 12); [discriminate|].
  vm_compute. reflexivity.
Qed.
Print Assumptions C85_read_back_refuted.

(** run_multi_thread, which main does not call: however the loop is split and
    scheduled, it can be run to its end, and then reports the same number of hits and
    of late hits as the single thread. *)
Theorem C85_multi : forall ext ranges sched ds hss, Forall dataset_ok ds -> Forall no_false_header ds ->
  hits_running ds hss -> Forall (fun h => h_spider h < 2 ^ 48) (concat hss) ->
  Permutation (concat ranges) (seq 0 (length ds)) ->
  exists bad, counted late (concat hss) bad /\
    (events_multi ext ranges sched (stream ds) = Ok None \/
     events_multi ext ranges sched (stream ds) = Ok (Some (zlen (concat hss), bad))) /\
    exists more, events_multi ext ranges (sched ++ more) (stream ds) = Ok (Some (zlen (concat hss), bad)).
Proof. exact C85_multi_l. Qed.
Print Assumptions C85_multi.
Example C85_multi_instance :
  events_multi cex_ext [[1%nat]; []; [0%nat]] [0%nat; 2%nat; 2%nat] ex_stream = Ok None /\
  events_multi cex_ext [[1%nat]; []; [0%nat]] (flat_map (fun _ => [2%nat; 0%nat]) (seq 0 20)) ex_stream = Ok (Some (3, 0)).
Proof. split; vm_compute; reflexivity. Qed.

(** Both programs refuse (exit status 1, nothing written) exactly when there is no
    argument or the file cannot be opened. *)
Theorem C85_refused : forall ext micros order input args d,
  (no_input input args -> raw2hits order input args = Ok (1, None) /\
                          raw2events ext micros input args d = Ok (RResult None RRefused d)) /\
  (~ no_input input args -> (forall r, raw2hits order input args = Ok r -> fst r = 0 /\ snd r <> None) /\
     (forall r, raw2events ext micros input args d = Ok r -> rs_end r <> RRefused /\ rs_report r <> None)).
Proof. exact C85_refused_l. Qed.
Print Assumptions C85_refused.
Example C85_refused_instance : no_input bex_input ["b.tpx3"] /\ ~ no_input bex_input ["a.tpx3"].
Proof. split; [reflexivity|]. discriminate. Qed.

(** * C86 *)

(** timedSaveHitsToHDF5 and timedSaveEventsToHDF5: the file has one group, whose
    columns are the values of the hits (neutrons) of all batches in order. *)
Theorem C86_hits : forall d p micros bs d', flat_map t_hits bs <> [] -> timed_save_hits d p micros bs = Ok d' ->
  exists final f g, d' final = Some f /\ find_group f "hits" = Some g /\
    (forall grp, grp <> "hits" -> find_group f grp = None) /\
    (d (render p) = None -> final = render p) /\
    (forall other, other <> final -> d' other = d other) /\
    (forall n fld, hit_field n fld -> exists c, g n = Some c /\ map Some c = map fld (flat_map t_hits bs)).
Proof. exact timed_hits_l. Qed.
Print Assumptions C86_hits.
Example C86_hits_instance :
  (let! d := timed_save_hits bex_disk (Path "" "o" ".h5") 1
     [Batch 0 0 0 [hex_a] [] ts0; Batch 0 0 0 [] [] ts0; Batch 0 0 0 [hex_b; hex_c] [] ts0] in
   Ok (match d "o.h5" with Some f => int_col f "hits" "x" | None => [] end)) = Ok [Some 3; Some 5; Some 7].
Proof. vm_compute. reflexivity. Qed.
Theorem C86_events : forall d p micros bs d', flat_map t_neutrons bs <> [] -> timed_save_events d p micros bs = Ok d' ->
  exists final f g, d' final = Some f /\ find_group f "neutrons" = Some g /\
    (forall grp, grp <> "neutrons" -> find_group f grp = None) /\
    (d (render p) = None -> final = render p) /\
    (forall other, other <> final -> d' other = d other) /\
    (forall n fld, neutron_field n fld -> g n = Some (map fld (flat_map t_neutrons bs))).
Proof. exact timed_events_l. Qed.
Print Assumptions C86_events.
Example C86_events_instance :
  (let! d := timed_save_events bex_disk (Path "" "o" ".h5") 1
     [Batch 0 0 0 [hex_a] [hex_n] ts0; Batch 0 0 0 [] [] ts0; Batch 0 0 0 [] [hex_n; hex_n] ts0] in
   Ok (match d "o.h5" with Some f => int_col f "neutrons" "nHits" | None => [] end)) = Ok [Some 5; Some 5; Some 5].
Proof. vm_compute. reflexivity. Qed.
(** Without hits (neutrons) nothing is written. *)
Theorem C86_nothing : forall d p micros bs,
  (flat_map t_hits bs = [] -> timed_save_hits d p micros bs = Ok d) /\
  (flat_map t_neutrons bs = [] -> timed_save_events d p micros bs = Ok d).
Proof. exact timed_nothing_l. Qed.
Print Assumptions C86_nothing.
Example C86_nothing_instance : flat_map t_hits [Batch 0 0 0 [] [hex_n] ts0; Batch 0 0 0 [] [] ts0] = [].
Proof. reflexivity. Qed.
