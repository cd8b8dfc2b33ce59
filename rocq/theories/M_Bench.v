(** Models of the programs benchmark_raw2hits.cpp and benchmark_raw2events.cpp in
    sophiread/FastSophiread/benchmarks, and of the two saving functions in
    sophiread/SophireadCLI/src/sophiread_core.cpp.  Timing and logging are
    omitted; the counters are unbounded (fewer than 2^31 hits); reading an opened
    file is assumed to succeed. *)
From Verif Require Export M_Core M_Mmap M_Hdf5 M_Parallel.
Local Open Scope string_scope.
Local Open Scope Z_scope.
Local Open Scope list_scope.

(** benchmark_raw2hits.cpp:32-36, benchmark_raw2events.cpp:148-152,
    sophiread_core.cpp:188-192: the hits of all batches. *)
Definition batch_hits (bs : list batch) : list hit := concat (map t_hits bs).

(** * sophiread_core.cpp *)

(** sophiread_core.cpp:184-200: timedSaveHitsToHDF5. *)
Definition timed_save_hits (d : h5disk) (p : path) (micros : nat) (bs : list batch) : outcome h5disk :=
  save_hits d p micros (batch_hits bs).
(** sophiread_core.cpp:208-224: timedSaveEventsToHDF5. *)
Definition timed_save_events (d : h5disk) (p : path) (micros : nat) (bs : list batch) : outcome h5disk :=
  save_neutrons d p micros (concat (map t_neutrons bs)).

(** * benchmark_raw2hits.cpp *)

(** benchmark_raw2hits.cpp:54-57: one iteration of the parallel loop.  It reads
    and writes no other batch. *)
Definition extract_at (m : list Z) (bs : list batch) (i : nat) : outcome (list batch) :=
  match nth_error bs i with
  | None => UB OutOfBounds
  | Some b =>
      let! b' := extract_hits GDC_mode b m (zlen m) in
      match set_nth bs i b' with Some bs' => Ok bs' | None => UB OutOfBounds end
  end.

(** benchmark_raw2hits.cpp:22-44: the number of hits reported. *)
Definition hits_single (m : list Z) : outcome Z :=
  let! bs := extract_all GDC_mode (find_headers m) m (zlen m) in Ok (zlen (batch_hits bs)).
(** benchmark_raw2hits.cpp:46-73; [order] is the order in which the scheduler
    finishes the iterations. *)
Definition hits_multi (order : nat -> list nat) (m : list Z) : outcome Z :=
  let bs := find_headers m in
  let! bs' := ofold (extract_at m) (order (length bs)) bs in Ok (zlen (batch_hits bs')).

(** benchmark_raw2hits.cpp:75-98, disk_io.cpp:24-49: exit status and the two
    numbers.  [input] gives the content of the files that can be opened. *)
Definition raw2hits (order : nat -> list nat) (input : string -> option (list Z)) (args : list string)
  : outcome (Z * option (Z * Z)) :=
  match args with
  | [] => Ok (1, None)
  | inp :: _ =>
      match input inp with
      | None => Ok (1, None)
      | Some m =>
          let! a := hits_single m in
          let! b := hits_multi order m in
          Ok (0, Some (a, b))
      end
  end.

(** * benchmark_raw2events.cpp *)

(** benchmark_raw2events.cpp:27-45: check_bad_tof, the number of bad hits. *)
Fixpoint bad_tof (hits : list hit) : outcome Z :=
  match hits with
  | [] => Ok 0
  | h :: r =>
      match tof_ns h with
      | None => UB Uninitialised
      | Some t =>
          let! n := bad_tof r in
          Ok (if fgt (fmul t (f_lit 1 1000000)) (f_lit 1667 100) then n + 1 else n)
      end
  end.

(** benchmark_raw2events.cpp:133-141, 164-169: the largest value, at least 0. *)
Definition max_value (l : list f64) : f64 :=
  fold_left (fun m v => if fgt v m then v else m) l (f_of_Z 0).

(** benchmark_raw2events.cpp:146: a relative name. *)
Definition verify_path : path := Path "" "verify_spidertime" ".h5".

(** benchmark_raw2events.cpp:156-169; [None] is an exception of the library. *)
Definition max_from_file (d : h5disk) : option f64 :=
  match d (render verify_path) with
  | None => None
  | Some f =>
      match find_group f "hits" with
      | None => None
      | Some g => match g "spidertime_ns" with None => None | Some c => Some (max_value c) end
      end
  end.

(** What is reported before the file is read: n_hits, n_bad_hits,
    max_spidertime_ns. *)
Record rreport := RReport { rr_hits : Z; rr_bad : Z; rr_max : f64 }.
(** How the program ends: refused (exit status 1), at the end (status 0) with
    max_spidertime_ns_from_file, or by an exception nobody catches. *)
Inductive rend := RRefused | RDone (from_file : f64) | RAborted.
Record rresult := RResult { rs_report : option rreport; rs_end : rend; rs_disk : h5disk }.

(** benchmark_raw2events.cpp:53-172 with [check_tof]. *)
Definition events_single (ext : externals) (micros : nat) (m : list Z) (d : h5disk) : outcome rresult :=
  let bs := find_headers m in
  let! (bs1, _) := locate GDC_mode bs m (zlen m) ts0 in
  let! (bs2, _) := range_events ext m (zlen m) abs_new bs1 in
  let hits := batch_hits bs2 in
  let! bad := bad_tof hits in
  let rep := RReport (zlen hits) bad (max_value (map spider_ns hits)) in
  let! d' := save_hits d verify_path micros hits in
  Ok (RResult (Some rep) (match max_from_file d' with Some v => RDone v | None => RAborted end) d').

(** benchmark_raw2events.cpp:174-219 with [check_tof]: run_multi_thread, which main
    does not call; the parallel loop is that of [M_Parallel] (the clustering object
    is new, so its method is "centroid"; the events are dropped here and kept
    there).  [ranges] and [sched]: how the scheduler splits and runs the loop.
    Result: n_hits and n_bad_hits, if all tasks have finished. *)
Definition events_multi (ext : externals) (ranges : list (list nat)) (sched : list nat) (m : list Z)
  : outcome (option (Z * Z)) :=
  let! (bs1, _) := locate GDC_mode (find_headers m) m (zlen m) ts0 in
  let! s := prun ext mmap_cfg GDC_mode m (pstart bs1 ranges) sched in
  if forallb (fun t => match k_todo t with [] => true | _ => false end) (p_tasks s)
  then let! bad := bad_tof (batch_hits (p_batches s)) in
       Ok (Some (zlen (batch_hits (p_batches s)), bad))
  else Ok None.

(** benchmark_raw2events.cpp:221-247. *)
Definition raw2events (ext : externals) (micros : nat) (input : string -> option (list Z))
    (args : list string) (d : h5disk) : outcome rresult :=
  match args with
  | [] => Ok (RResult None RRefused d)
  | inp :: _ =>
      match input inp with
      | None => Ok (RResult None RRefused d)
      | Some m => events_single ext micros m d
      end
  end.
