(** Models of the programs with generated hits:
    sophiread/FastSophiread/benchmarks/benchmark_hits2events.cpp,
    sophiread/SophireadLib/benchmarks/benchmark_abs.cpp and
    benchmark_abs_thread.cpp.  The random numbers are parameters; timing and
    printing are omitted. *)
From Verif Require Export M_Abs M_StreamCli.
Local Open Scope Z_scope.

(** The numbers drawn for a hit and for a cluster. *)
Record hit_draw := HitDraw { w_tot : f64; w_toa : f64; w_ftoa : f64; w_tof : f64 }.
Record draw := Draw { w_x : f64; w_y : f64; w_time : f64; w_hits : list hit_draw }.

(** Conversion of a double to an integer type. *)
Definition conv (z : option Z) : outcome Z :=
  match z with Some v => Ok v | None => UB BadConversion end.

(** A loop that appends one result per element. *)
Fixpoint ocollect {A B} (f : A -> outcome B) (l : list A) : outcome (list B) :=
  match l with
  | [] => Ok []
  | a :: r => let! b := f a in let! bs := ocollect f r in Ok (b :: bs)
  end.

(** benchmark_hits2events.cpp:45, benchmark_abs.cpp:46, benchmark_abs_thread.cpp:51-52
    with the constructor hit.h:39-47 (tpx3.h:39-47): the doubles become int and
    unsigned int, the int [stime] becomes unsigned long long. *)
Definition fake_hit (x y stime : Z) (d : hit_draw) : outcome hit :=
  let! tot := conv (f_to_i32 (w_tot d)) in
  let! toa := conv (f_to_i32 (w_toa d)) in
  let! ftoa := conv (f_to_i32 (w_ftoa d)) in
  let! tof := conv (f_to_int 0 (2 ^ 32 - 1) (w_tof d)) in
  Ok (Hit x y tot toa ftoa (Some tof) (u64 stime)).

(** benchmark_hits2events.cpp:39-46, benchmark_abs.cpp:41-47,
    benchmark_abs_thread.cpp:46-53: cluster [i]. *)
Definition fake_cluster (i : Z) (d : draw) : outcome (list hit) :=
  let! x := conv (f_to_i32 (fadd (f_of_Z (10 * i)) (w_x d))) in
  let! y := conv (f_to_i32 (fadd (f_of_Z (10 * i)) (w_y d))) in
  let! stime := conv (f_to_i32 (fadd (f_of_Z (10 * i)) (w_time d))) in
  ocollect (fake_hit x y stime) (w_hits d).

(** benchmark_hits2events.cpp:22-49, benchmark_abs.cpp:36-50,
    benchmark_abs_thread.cpp:37-56: fake_hits, from cluster [i] on. *)
Fixpoint fake_hits (i : Z) (ds : list draw) : outcome (list hit) :=
  match ds with
  | [] => Ok []
  | d :: r => let! c := fake_cluster i d in let! hs := fake_hits (i + 1) r in Ok (c ++ hs)
  end.

(** ABS(5.0, 1, 75). *)
Definition fake_cfg : abs_cfg := AbsCfg (f_of_Z 5) 1 75.

(** benchmark_hits2events.cpp:51-68: the number of events printed; abs.h:49 the
    method is "centroid", abs.h:53 eight slots. *)
Definition hits2events (ext : externals) (ds : list draw) : outcome Z :=
  let! hits := fake_hits 0 ds in
  let! o := abs_fit 8 fake_cfg abs_new hits in
  let! evs := abs_get_events ext fake_cfg o hits in
  Ok (zlen evs).

(** benchmark_abs.cpp:52-82: run_single_test, the events computed. *)
Definition lib_test (ext : externals) (hits : list hit) : outcome (list neutron) :=
  let! o := lib_fit fake_cfg abs_new hits in
  lib_get_events ext fake_cfg (abs_set_method o MCentroid) hits.

(** benchmark_abs.cpp:84-96: main, the numbers of events of [tests] tests. *)
Definition bench_abs (ext : externals) (tests : nat) (ds : list draw) : outcome (list Z) :=
  let! hits := fake_hits 0 ds in
  ocollect (fun _ => let! evs := lib_test ext hits in Ok (zlen evs)) (seq 0 tests).

(** benchmark_abs_thread.cpp:62-69: thread_data::run on its hits; SophireadLib
    abs.h:36 the method is "centroid".  The events are dropped. *)
Definition thread_run (ext : externals) (hits : list hit) : outcome (list neutron) :=
  let! o := lib_fit fake_cfg abs_new hits in
  lib_get_events ext fake_cfg o hits.

(** benchmark_abs_thread.cpp:77, 83-87: the hits of thread [i] of [n]; [n] is
    positive. *)
Definition chunk {A} (n : nat) (hits : list A) (i : nat) : list A :=
  let size := Nat.div (length hits) n in
  let rest := skipn (i * size) hits in
  if Nat.eqb i (n - 1) then rest else firstn size rest.

(** benchmark_abs_thread.cpp:72-94: single_test.  The threads share only the
    hits, which they read. *)
Definition thread_test (ext : externals) (n : nat) (hits : list hit) : outcome (list (list neutron)) :=
  ocollect (fun i => thread_run ext (chunk n hits i)) (seq 0 n).
