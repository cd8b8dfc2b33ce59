(** Model of sophiread/SophireadStreamCLI/src/sophiread_stream.cpp: a reader
    thread that decodes a file into a queue and a processor thread that
    clusters the hits of the queue in batches. *)
From Verif Require Export M_Lib M_Abs.

(** * The reader *)

(** std::ifstream: the bytes not yet read and eofbit (with failbit, which read
    sets at the same time). *)
Record fstate := FS { f_rest : list Z; f_eof : bool }.

(** An array of 8 [unsigned char]; [None] is an indeterminate element. *)
Definition arr8 := list (option Z).
Definition blank8 : arr8 := repeat None 8.

(** sophiread_stream.cpp:72, 86: the array is declared in the loop body, so it
    is indeterminate in every iteration ([keep = false]).  [keep = true] is what
    compilers usually make of it: the array stays in place and has the content
    of the previous iteration. *)
Definition declare (keep : bool) (a : arr8) : arr8 := if keep then a else blank8.

(** istream::read of 8 bytes: stores what there is, sets eofbit and failbit if
    there are fewer; does nothing on a stream that has failed. *)
Definition read8 (f : fstate) (a : arr8) : fstate * arr8 :=
  if f_eof f then (f, a)
  else
    let got := firstn 8 (f_rest f) in
    (FS (skipn 8 (f_rest f)) (zlen got <? 8), map Some got ++ skipn (length got) a).

(** Use of an element. *)
Definition elem (a : arr8) (i : nat) : outcome Z :=
  match nth_error a i with
  | Some (Some b) => Ok b
  | Some None => UB Uninitialised
  | None => UB OutOfBounds
  end.

(** Use of all 8 bytes. *)
Definition packet_of (a : arr8) : outcome packet :=
  let! a0 := elem a 0 in let! a1 := elem a 1 in let! a2 := elem a 2 in let! a3 := elem a 3 in
  let! a4 := elem a 4 in let! a5 := elem a 5 in let! a6 := elem a 6 in let! a7 := elem a 7 in
  Ok (Packet a0 a1 a2 a3 a4 a5 a6 a7).

(** sophiread_stream.cpp:76: short-circuit evaluation. *)
Definition header_test (a : arr8) : outcome bool :=
  let! a0 := elem a 0 in
  if a0 =? 0x54 then
    let! a1 := elem a 1 in
    if a1 =? 0x50 then let! a2 := elem a 2 in Ok (a2 =? 0x58)
    else Ok false
  else Ok false.

(** The variables of the reader: file, buffer, char_array, timestamps; and the
    hits enqueued so far. *)
Record rd_st := Rd
  { rd_file : fstate; rd_buf : arr8; rd_arr : arr8; rd_ts : ts; rd_hits : list hit }.

(** sophiread_stream.cpp:89-128: one data packet. *)
Definition rd_packet (chip : Z) (a : arr8) (s : ts) (hits : list hit)
  : outcome (ts * list hit) :=
  let! a7 := elem a 7 in
  if a7 =? 0x6F then
    let! p := packet_of a in
    Ok (TS (lib_tdc p (ts_gdc s)) (ts_gdc s) (ts_timer s), hits)
  else if Z.land a7 0xF0 =? 0x40 then
    let! p := packet_of a in
    let (timer, gdc) := lib_gdc 0xFFFFFFFFFFF p (ts_timer s) (ts_gdc s) in
    Ok (TS (ts_tdc s) gdc timer, hits)
  else if Z.land a7 0xF0 =? 0xb0 then
    let! p := packet_of a in
    let! h := packet_to_hit p (ts_tdc s) (ts_gdc s) chip in
    Ok (s, hits ++ [h])
  else Ok (s, hits).

(** sophiread_stream.cpp:84-130: the data section. *)
Fixpoint rd_section (keep : bool) (n : nat) (chip : Z) (st : rd_st) : outcome rd_st :=
  match n with
  | O => Ok st
  | S n' =>
      let (f, a) := read8 (rd_file st) (declare keep (rd_arr st)) in
      let! (s, hits) := rd_packet chip a (rd_ts st) (rd_hits st) in
      rd_section keep n' chip (Rd f (rd_buf st) a s hits)
  end.

(** sophiread_stream.cpp:71-133: the loop over the file.  The chip is an
    [unsigned char] here. *)
Fixpoint rd_loop (keep : bool) (fuel : nat) (st : rd_st) : outcome (list hit) :=
  if f_eof (rd_file st) then Ok (rd_hits st)
  else
    match fuel with
    | O => OutOfFuel
    | S fu =>
        let (f, b) := read8 (rd_file st) (declare keep (rd_buf st)) in
        let st := Rd f b (rd_arr st) (rd_ts st) (rd_hits st) in
        let! hd := header_test b in
        if hd then
          let! chip := elem b 4 in
          let! b7 := elem b 7 in
          let! b6 := elem b 6 in
          let size := Z.lor (Z.shiftl (Z.land 0xff b7) 8) (Z.land 0xff b6) in
          let! st := rd_section keep (Z.to_nat (Z.shiftr size 3)) chip st in
          rd_loop keep fu st
        else rd_loop keep fu st
    end.

(** sophiread_stream.cpp:42-135 with a file that opens: the hits enqueued, in
    order, until [done] is set. *)
Definition rd_run (keep : bool) (m : list Z) : outcome (list hit) :=
  rd_loop keep (S (length m)) (Rd (FS m false) blank8 blank8 ts0 []).

(** * The two threads *)

(** The processor: sophiread_stream.cpp:143 (test of [done]), 145 (attempt to
    dequeue), 156-161 (draining), and the end. *)
Inductive proc_pc := PTest | PTry | PDrain | PEnd.

(** What the threads share, where they are, and the batches handed to
    process_batch so far.  [y_todo] are the hits the reader will still enqueue.
    Elements are of an arbitrary type. *)
Record sys (A : Type) := Sys
  { y_todo : list A; y_queue : list A; y_done : bool;
    y_pc : proc_pc; y_batch : list A; y_out : list (list A) }.
Arguments Sys {A}.
Arguments y_todo {A}. Arguments y_queue {A}. Arguments y_done {A}.
Arguments y_pc {A}. Arguments y_batch {A}. Arguments y_out {A}.

(** sophiread_stream.cpp:147. *)
Definition batch_full {A} (b : list A) : bool := zlen b >=? 10000.

(** One step of either thread.  [opened] tells whether the reader could open
    the file; if not it returns without setting [done] (lines 64-67).  Memory
    is sequentially consistent; [done] is not atomic in the source. *)
Inductive sys_step {A} (opened : bool) : sys A -> sys A -> Prop :=
| y_enqueue h t q d pc b o :                                         (* 127 *)
    sys_step opened (Sys (h :: t) q d pc b o) (Sys t (q ++ [h]) d pc b o)
| y_finish q pc b o : opened = true ->                               (* 134 *)
    sys_step opened (Sys [] q false pc b o) (Sys [] q true pc b o)
| y_goon t q b o :                                                   (* 143 *)
    sys_step opened (Sys t q false PTest b o) (Sys t q false PTry b o)
| y_stop t q b o :                                                   (* 143, 156 *)
    sys_step opened (Sys t q true PTest b o) (Sys t q true PDrain [] o)
| y_miss t d b o :                                                   (* 145 *)
    sys_step opened (Sys t [] d PTry b o) (Sys t [] d PTest b o)
| y_take t h q d b o : batch_full (b ++ [h]) = false ->              (* 145-147 *)
    sys_step opened (Sys t (h :: q) d PTry b o) (Sys t q d PTest (b ++ [h]) o)
| y_flush t h q d b o : batch_full (b ++ [h]) = true ->              (* 145-151 *)
    sys_step opened (Sys t (h :: q) d PTry b o) (Sys t q d PTest [] (o ++ [b ++ [h]]))
| y_drain t h q d b o :                                              (* 157-161 *)
    sys_step opened (Sys t (h :: q) d PDrain b o) (Sys t q d PDrain (b ++ [h]) o)
| y_end t d b o :                                                    (* 157, 162-164 *)
    sys_step opened (Sys t [] d PDrain b o)
      (Sys t [] d PEnd b (o ++ match b with [] => [] | _ => [b] end)).

(** sophiread_stream.cpp:16-19, 142: the start. *)
Definition sys_start {A} (hits : list A) : sys A := Sys hits [] false PTest [] [].

(** Any number of steps. *)
Inductive sys_steps {A} (opened : bool) : sys A -> sys A -> Prop :=
| ys_none s : sys_steps opened s s
| ys_more s s' s'' : sys_step opened s s' -> sys_steps opened s' s'' ->
    sys_steps opened s s''.

(** * Events *)

(** SophireadLib/src/abs.cpp:118-169 on labelled data.  As in FastSophiread,
    but without data the past-the-end iterator is dereferenced. *)
Definition lib_get_events (ext : externals) (cfg : abs_cfg) (o : abs_obj) (data : list hit)
  : outcome (list neutron) :=
  if negb (zlen (o_labels o) =? zlen data) then Throw RuntimeError
  else
    match o_labels o with
    | [] => UB NullDeref
    | _ => abs_get_events ext cfg o data
    end.

(** SophireadLib/src/abs.cpp:15-110 with abs.h:40: four slots. *)
Definition lib_fit : abs_cfg -> abs_obj -> list hit -> outcome abs_obj := abs_fit 4.

(** sophiread_stream.cpp:26-35: process_batch. *)
Definition cluster_batch (ext : externals) (batch : list hit) : outcome (list neutron) :=
  let cfg := AbsCfg (f_of_Z 5) 1 75 in
  let! o := lib_fit cfg (abs_set_method abs_new MFastGaussian) batch in
  lib_get_events ext cfg o batch.

(** The batches one after the other: neutron_events. *)
Fixpoint cluster_all (ext : externals) (bs : list (list hit)) : outcome (list neutron) :=
  match bs with
  | [] => Ok []
  | b :: r =>
      let! e := cluster_batch ext b in
      let! es := cluster_all ext r in
      Ok (e ++ es)
  end.

(** sophiread_stream.cpp:188 with SophireadLib tpx3.cpp:716-719: the events
    handed to the HDF5 library; nothing to save is an exception. *)
Definition saved_events (ext : externals) (bs : list (list hit)) : outcome (list neutron) :=
  let! es := cluster_all ext bs in
  match es with
  | [] => Throw RuntimeError
  | _ => Ok es
  end.

(** sophiread_stream.cpp:167-191: one complete run that reaches line 188. *)
Definition stream_run (keep : bool) (ext : externals) (m : list Z) (r : outcome (list neutron))
  : Prop :=
  match rd_run keep m with
  | Ok hits => exists s, sys_steps true (sys_start hits) s /\ y_pc s = PEnd /\
                 r = saved_events ext (y_out s)
  | Throw e => r = Throw e
  | UB u => r = UB u
  | OutOfFuel => False
  end.
