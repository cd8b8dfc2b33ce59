(** Model of sophiread/FastSophiread/src/tpx3_fast.cpp and
    include/tpx3_fast.h. *)
From Verif Require Export M_Hit M_Neutron.

(** The three running timestamps that are passed around by reference
    (tpx3_fast.h:32-35): unsigned long, unsigned long long, unsigned long. *)
Record ts := TS { ts_tdc : Z; ts_gdc : Z; ts_timer : Z }.
Definition ts0 : ts := TS 0 0 0.

(** tpx3_fast.h:24-55: struct TPX3. *)
Record batch := Batch
  { t_index : Z;               (* std::size_t index *)
    t_num : Z;                 (* const int num_packets *)
    t_chip : Z;                (* const int chip_layout_type *)
    t_hits : list hit;
    t_neutrons : list neutron;
    t_ts : ts }.               (* tdc_timestamp, gdc_timestamp, timer_lsb32 *)

(** tpx3_fast.h:37-45: the constructor (hits.reserve is not modelled). *)
Definition new_batch (index num chip : Z) : batch :=
  Batch index num chip [] [] ts0.

(** * Locating the chip datasets *)

(** tpx3_fast.cpp:61, 111: the bytes compare equal to 'T', 'P', 'X'. *)
Definition is_header (p : packet) : bool :=
  (b0 p =? 0x54) && (b1 p =? 0x50) && (b2 p =? 0x58).

(** tpx3_fast.cpp:62-67, 112-117. *)
Definition header_size (p : packet) : Z :=
  Z.lor (Z.shiftl (Z.land 0xff (schar (b7 p))) 8) (Z.land 0xff (schar (b6 p))).
Definition header_batch (off : Z) (p : packet) : batch :=
  new_batch off (Z.shiftr (header_size p) 3) (schar (b4 p)).

(** tpx3_fast.cpp:44-72: the loop over the buffer in steps of 8 while at least
    8 bytes remain; [off] is the distance from the beginning. *)
Fixpoint find_from (m : list Z) (off : Z) : list batch :=
  match m with
  | a0 :: a1 :: a2 :: a3 :: a4 :: a5 :: a6 :: a7 :: rest =>
      let p := Packet a0 a1 a2 a3 a4 a5 a6 a7 in
      if is_header p then header_batch off p :: find_from rest (off + 8)
      else find_from rest (off + 8)
  | _ => []
  end.

(** tpx3_fast.cpp:134-147: findTPX3H on a vector or a pointer and size. *)
Definition find_headers (m : list Z) : list batch := find_from m 0.

(** tpx3_fast.cpp:25-32.  [env] is the result of strtoul on the environment
    variable MAX_BATCH_LEN, [None] if it is not set. *)
Definition max_batch_len (env : option Z) : Z :=
  match env with
  | Some v => if v =? 0 then 100000 else v
  | None => 100000
  end.

(** tpx3_fast.cpp:85-126: as [find_from] with [batch_number] counted and a
    break as soon as it reaches [len]; the second component is [consumed],
    which is not advanced when the loop is left by the break.
    (batches.reserve(len) is not modelled.) *)
Fixpoint find_lim_from (m : list Z) (off batch_number len : Z)
  : list batch * Z :=
  match m with
  | a0 :: a1 :: a2 :: a3 :: a4 :: a5 :: a6 :: a7 :: rest =>
      let p := Packet a0 a1 a2 a3 a4 a5 a6 a7 in
      if is_header p then
        if batch_number + 1 >=? len then ([header_batch off p], off)
        else
          let (bs, consumed) := find_lim_from rest (off + 8) (batch_number + 1) len in
          (header_batch off p :: bs, consumed)
      else find_lim_from rest (off + 8) batch_number len
  | _ => ([], off)
  end.

Definition find_headers_limited (len : Z) (m : list Z) : list batch * Z :=
  find_lim_from m 0 0 len.

(** * Timestamps *)

(** tpx3_fast.cpp:343-363: TDC packet with GDC reference. *)
Definition update_tdc_gdc (p : packet) (gdc : Z) : Z :=
  let mytdc := Z.land (Z.shiftr (le64 p) 12) 0xFFFFFFFF in
  let lsb32 := Z.land gdc 0xFFFFFFFF in
  let msb16 := Z.land (Z.shiftr gdc 32) 0xFFFF in
  let msb16 := if mytdc <? lsb32 then u64 (msb16 + 1) else msb16 in
  let t := Z.land (u64 (Z.shiftl msb16 32)) 0xFFFF00000000 in
  Z.lor t mytdc.

(** tpx3_fast.cpp:371-393: TDC packet without GDC reference. *)
Definition update_tdc_only (p : packet) (tdc : Z) : Z :=
  let mytdc := Z.land (Z.shiftr (le64 p) 12) 0xFFFFFFFF in
  let high := Z.land tdc 0xFFFF00000000 in
  let low := Z.land tdc 0xFFFFFFFF in
  let high :=
    if (mytdc <? low) && (u64 (low - mytdc) >? 0x80000000)
    then u64 (high + 0x100000000) else high in
  Z.lor high mytdc.

(** tpx3_fast.cpp:402-430: GDC packet; returns (timer_lsb32, gdc_timestamp). *)
Definition update_gdc (p : packet) (timer gdc : Z) : Z * Z :=
  let mygdc := Z.land (Z.shiftr (le64 p) 16) 0xFFFFFFFFFFFF in
  let kind := Z.land (Z.shiftr mygdc 40) 0xF in
  if kind =? 4 then (Z.land mygdc 0xFFFFFFFF, gdc)
  else if kind =? 5 then
    let t := Z.land mygdc 0xFFFF in
    let t := Z.land (u64 (Z.shiftl t 32)) 0xFFFF00000000 in
    let t := Z.lor t timer in
    (timer, if negb (t =? 0) then t else gdc)
  else (timer, gdc).

(** * Packets of one batch *)

(** The packet type tests of tpx3_fast.cpp:464-471 and 512-515 on
    [char_array[7]]. *)
Definition is_tdc (p : packet) : bool := schar (b7 p) =? 0x6F.
Definition is_gdc (p : packet) : bool := Z.land (schar (b7 p)) 0xF0 =? 0x40.
Definition is_pixel (p : packet) : bool := Z.land (schar (b7 p)) 0xF0 =? 0xb0.

(** tpx3_fast.cpp:463-478: one packet, GDC mode. *)
Definition step_gdc (extract : bool) (chip : Z) (p : packet)
    (s : ts) (hits : list hit) : outcome (ts * list hit) :=
  if is_tdc p then
    Ok (TS (update_tdc_gdc p (ts_gdc s)) (ts_gdc s) (ts_timer s), hits)
  else if is_gdc p then
    let (timer, gdc) := update_gdc p (ts_timer s) (ts_gdc s) in
    Ok (TS (ts_tdc s) gdc timer, hits)
  else if is_pixel p then
    if extract then
      if negb (ts_tdc s =? 0) && negb (ts_gdc s =? 0) then
        let! h := hit_gdc p (ts_tdc s) (ts_gdc s) chip in
        Ok (s, hits ++ [h])
      else Ok (s, hits)
    else Ok (s, hits)
  else Ok (s, hits).

(** tpx3_fast.cpp:511-525: one packet, TDC mode (GDC packets are skipped). *)
Definition step_tdc (extract : bool) (chip : Z) (p : packet)
    (s : ts) (hits : list hit) : outcome (ts * list hit) :=
  if is_tdc p then
    Ok (TS (update_tdc_only p (ts_tdc s)) (ts_gdc s) (ts_timer s), hits)
  else if is_pixel p then
    if extract then
      if negb (ts_tdc s =? 0) then
        Ok (s, hits ++ [hit_tdc p (ts_tdc s) chip])
      else Ok (s, hits)
    else Ok (s, hits)
  else Ok (s, hits).

(** Processing mode: which of the two overloads of process_tpx3_packets is
    used. *)
Inductive mode_t := GDC_mode | TDC_mode.

Definition step (md : mode_t) :=
  match md with GDC_mode => step_gdc | TDC_mode => step_tdc end.

(** tpx3_fast.cpp:454-479 and 502-526: the packet loop.  [m] is the memory the
    iterator points into, [fin] the position of [bytes_end] (for the vector
    overloads [fin = zlen m]), [iter] the current position.  A packet that
    starts at or after [fin] is skipped without moving; otherwise 8 bytes are
    read, which is undefined behaviour if they are not all inside [m]. *)
Fixpoint process_loop (md : mode_t) (extract : bool) (chip : Z)
    (m : list Z) (fin : Z) (n : nat) (iter : Z) (s : ts) (hits : list hit)
  : outcome (ts * list hit) :=
  match n with
  | O => Ok (s, hits)
  | S n' =>
      if iter + 8 >=? fin then
        process_loop md extract chip m fin n' iter s hits
      else
        match read_packet m (iter + 8) with
        | None => UB OutOfBounds
        | Some p =>
            let! (s', hits') := step md extract chip p s hits in
            process_loop md extract chip m fin n' (iter + 8) s' hits'
        end
  end.

(** tpx3_fast.cpp:445-480, 494-527: process_tpx3_packets. *)
Definition process_packets (md : mode_t) (extract : bool) (b : batch)
    (m : list Z) (fin : Z) (s : ts) : outcome (ts * list hit) :=
  process_loop md extract (t_chip b) m fin (Z.to_nat (t_num b)) (t_index b)
               s (t_hits b).

(** tpx3_fast.cpp:186-198, 248-257: updateTimestamp.  Returns the batch with
    its starting timestamps recorded and the evolved timestamps of the caller.
    In TDC mode only the TDC timestamp of the batch is written. *)
Definition update_timestamp (md : mode_t) (b : batch) (m : list Z) (fin : Z)
    (s : ts) : outcome (batch * ts) :=
  let start := match md with
               | GDC_mode => s
               | TDC_mode => TS (ts_tdc s) (ts_gdc (t_ts b)) (ts_timer (t_ts b))
               end in
  let b' := Batch (t_index b) (t_num b) (t_chip b) (t_hits b) (t_neutrons b) start in
  let! (s', hits') := process_packets md false b' m fin s in
  Ok (Batch (t_index b) (t_num b) (t_chip b) hits' (t_neutrons b) start, s').

(** tpx3_fast.cpp:280-284 (extractHits) and 299-302 (extractHitsTDC): the
    batch's own timestamps are passed by reference and evolve; hits are
    appended to the batch. *)
Definition extract_hits (md : mode_t) (b : batch) (m : list Z) (fin : Z)
  : outcome batch :=
  let! (s', hits') := process_packets md true b m fin (t_ts b) in
  Ok (Batch (t_index b) (t_num b) (t_chip b) hits' (t_neutrons b) s').
