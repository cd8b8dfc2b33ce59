(** Model of the batch level drivers: sophiread/SophireadCLI/src/
    sophiread_core.cpp (timedLocateTimeStamp, extraction part of
    timedProcessing) and the bounded-search loop of
    sophiread/FastSophiread/benchmarks/benchmark_mmap.cpp. *)
From Verif Require Export M_Tpx3.

(** sophiread_core.cpp:74-89 (with GDC) and 101-112 (TDC only): the running
    timestamps are carried from batch to batch.  The same loop appears in
    benchmark_mmap.cpp:295-301 and test_tpx3.cpp:266-269 with [fin = consumed]. *)
Fixpoint locate (md : mode_t) (bs : list batch) (m : list Z) (fin : Z) (s : ts)
  : outcome (list batch * ts) :=
  match bs with
  | [] => Ok ([], s)
  | b :: rest =>
      let! (b', s') := update_timestamp md b m fin s in
      let! (rest', s'') := locate md rest m fin s' in
      Ok (b' :: rest', s'')
  end.

(** Sequential execution of the extraction part of the loop bodies in
    sophiread_core.cpp:136-145, 158-167, benchmark_mmap.cpp:353-359,
    test_tpx3.cpp:272-274. *)
Fixpoint extract_all (md : mode_t) (bs : list batch) (m : list Z) (fin : Z)
  : outcome (list batch) :=
  match bs with
  | [] => Ok []
  | b :: rest =>
      let! b' := extract_hits md b m fin in
      let! rest' := extract_all md rest m fin in
      Ok (b' :: rest')
  end.

(** benchmark_mmap.cpp:278-394 and test_tpx3.cpp:256-293: bounded search on the
    unconsumed rest of the mapped file, processing of the consumed part, until
    everything is consumed.  [len] is the value of _get_max_batch_len.
    Statistics, clustering and timing are omitted.  The pointer arithmetic
    [map + raw_data_consumed] is [skipn]. *)
Fixpoint resume_loop (fuel : nat) (len : Z) (m : list Z) (raw : Z) (s : ts)
    (acc : list batch) : outcome (list batch * ts) :=
  if raw <? zlen m then
    match fuel with
    | O => OutOfFuel
    | S f =>
        let w := skipn (Z.to_nat raw) m in
        let (bs, consumed) := find_headers_limited len w in
        let! (bs1, s1) := locate GDC_mode bs w consumed s in
        let! bs2 := extract_all GDC_mode bs1 w consumed in
        resume_loop f len m (raw + consumed) s1 (acc ++ bs2)
    end
  else Ok (acc, s).

(** Whole-buffer processing: unbounded search, then timestamps, then hits
    (sophiread.cpp:262-278 on one chunk; useGDC selects [md]). *)
Definition whole (md : mode_t) (m : list Z) (s : ts) : outcome (list batch * ts) :=
  let bs := find_headers m in
  let! (bs1, s1) := locate md bs m (zlen m) s in
  let! bs2 := extract_all md bs1 m (zlen m) in
  Ok (bs2, s1).
