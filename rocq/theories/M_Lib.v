(** Model of sophiread/SophireadLib/src/tpx3.cpp (decoding part) and
    include/tpx3.h: the older library used by the streaming program, the GUI
    and the display.  The bit fields of a packet are extracted by the same
    expressions as in hit.cpp, so [get_tot], [get_toa], [get_ftoa],
    [spidertime30], [local_x], [local_y] and [layout] of M_Hit are reused
    (tpx3.cpp:58-64, 93-110, 138-144, 179-199, 223-229, 257-277). *)
From Verif Require Export M_Tpx3.

(** Conversion of a double to [unsigned int]. *)
Definition f_to_u32 : f64 -> option Z := f_to_int 0 (2 ^ 32 - 1).

(** tpx3.cpp:75-81, 240-246: global timestamp of the 30-bit time [s]; no
    correction for hits older than the GDC. *)
Definition lib_time (s gdc : Z) : Z :=
  let lsb30 := Z.land gdc 0x3FFFFFFF in
  let msb18 := Z.land (Z.shiftr gdc 30) 0x3FFFF in
  let msb18 := if s <? lsb30 then u64 (msb18 + 1) else msb18 in
  let t := Z.land (u64 (Z.shiftl msb18 30)) 0xFFFFC0000000 in
  Z.lor t s.

(** tpx3.cpp:49-111: the constructor from raw bytes.  The sum of lines 86-87 is
    64 bits wide, m_tof 32. *)
Definition lib_hit (p : packet) (tdc gdc chip : Z) : hit :=
  let t := lib_time (spidertime30 p) gdc in
  let tof := if t <? tdc then u32 (u64 (u64 (t - tdc) + 16666667))
             else u32 (u64 (t - tdc)) in
  let a := pixaddr p in
  let (x, y) := layout chip (local_x a) (local_y a) in
  Hit x y (get_tot p) (get_toa p) (get_ftoa p) (Some tof) t.

(** tpx3.cpp:213-281: packetToHit.  Line 251 adds in double and converts the
    sum to [unsigned int]. *)
Definition packet_to_hit (p : packet) (tdc gdc chip : Z) : outcome hit :=
  let t := lib_time (spidertime30 p) gdc in
  let! tof :=
    if t <? tdc then
      match f_to_u32 (fadd (f_of_Z (u64 (t - tdc)))
                           (fdiv (f_of_Z 1000000000) (f_of_Z 60))) with
      | Some v => Ok v
      | None => UB BadConversion
      end
    else Ok (u32 (u64 (t - tdc))) in
  let a := pixaddr p in
  let (x, y) := layout chip (local_x a) (local_y a) in
  Ok (Hit x y (get_tot p) (get_toa p) (get_ftoa p) (Some tof) t).

(** tpx3.cpp:311-312 state of the alternative timing: [*rollover_counter] and
    [*previous_time]. *)
Record alt_ts := Alt { alt_roll : Z; alt_prev : Z }.

(** tpx3.cpp:154-167: the rollover counter. *)
Definition alt_rollover (s : Z) (a : alt_ts) : Z :=
  let time_range := Z.shiftl 1 30 in
  if s <? alt_prev a then
    if u64 (alt_prev a - s) >? time_range / 2 then u64 (alt_roll a + 1) else alt_roll a
  else
    if u64 (s - alt_prev a) >? time_range / 2 then
      if alt_roll a >? 0 then u64 (alt_roll a - 1) else alt_roll a
    else alt_roll a.

(** tpx3.cpp:126-203: packetToHitAlt. *)
Definition packet_to_hit_alt (p : packet) (a : alt_ts) (chip : Z) : hit * alt_ts :=
  let s := spidertime30 p in
  let r := alt_rollover s a in
  let t := u64 (s + u64 (r * Z.shiftl 1 30)) in
  let tof := u32 (t mod 666667) in
  let ad := pixaddr p in
  let (x, y) := layout chip (local_x ad) (local_y ad) in
  (Hit x y (get_tot p) (get_toa p) (get_ftoa p) (Some tof) t, Alt r s).

(** * Time packets *)

(** tpx3.cpp:358-369, 506-517, 593-604: as tpx3_fast.cpp:343-363. *)
Definition lib_tdc (p : packet) (gdc : Z) : Z := update_tdc_gdc p gdc.

(** tpx3.cpp:372-385 with [mask] 0xFFFFFFFFFFFF, 518-529 and 605-616 with
    0xFFFFFFFFFFF: a zero timestamp is stored too. *)
Definition lib_gdc (mask : Z) (p : packet) (timer gdc : Z) : Z * Z :=
  let mygdc := Z.land (Z.shiftr (le64 p) 16) mask in
  let kind := Z.land (Z.shiftr mygdc 40) 0xF in
  if kind =? 4 then (Z.land mygdc 0xFFFFFFFF, gdc)
  else if kind =? 5 then
    let t := Z.land mygdc 0xFFFF in
    let t := Z.land (u64 (Z.shiftl t 32)) 0xFFFF00000000 in
    (timer, Z.lor t timer)
  else (timer, gdc).

(** * parseRawBytesToHits *)

(** tpx3.cpp:592-621: one payload packet.  A hit is made whatever the
    timestamps are. *)
Definition lib_step (chip : Z) (p : packet) (s : ts) (hits : list hit) : ts * list hit :=
  if is_tdc p then (TS (lib_tdc p (ts_gdc s)) (ts_gdc s) (ts_timer s), hits)
  else if is_gdc p then
    let (timer, gdc) := lib_gdc 0xFFFFFFFFFFF p (ts_timer s) (ts_gdc s) in
    (TS (ts_tdc s) gdc timer, hits)
  else if is_pixel p then (s, hits ++ [lib_hit p (ts_tdc s) (ts_gdc s) chip])
  else (s, hits).

(** tpx3.cpp:584-622: the loop over the packets of a dataset.  [m] are the
    bytes from the iterator [i] to the end.  The guard of line 585 is
    [i + 8 > end]; what is read is the packet at [i + 8]. *)
Fixpoint parse_payload (n : nat) (chip : Z) (m : list Z) (s : ts) (hits : list hit)
  : outcome (list Z * ts * list hit) :=
  match n with
  | O => Ok (m, s, hits)
  | S n' =>
      if zlen m <? 8 then parse_payload n' chip m s hits
      else
        let m' := skipn 8 m in
        match read_packet m' 0 with
        | None => UB OutOfBounds
        | Some p =>
            let (s', hits') := lib_step chip p s hits in
            parse_payload n' chip m' s' hits'
        end
  end.

(** tpx3.cpp:570-624: the main loop, while [i + 8 < end].  Every iteration
    moves [i] by at least 8. *)
Fixpoint parse_loop (fuel : nat) (m : list Z) (s : ts) (hits : list hit)
  : outcome (list hit) :=
  if 8 <? zlen m then
    match fuel with
    | O => OutOfFuel
    | S f =>
        match read_packet m 0 with
        | None => UB OutOfBounds
        | Some p =>
            if is_header p then
              let! (m', s', hits') :=
                parse_payload (Z.to_nat (Z.shiftr (header_size p) 3)) (schar (b4 p)) m s hits in
              parse_loop f (skipn 8 m') s' hits'
            else parse_loop f (skipn 8 m) s hits
        end
    end
  else Ok hits.

(** tpx3.cpp:546-627. *)
Definition parse_raw (m : list Z) : outcome (list hit) :=
  parse_loop (length m) m ts0 [].

(** * readTimepix3RawData *)

(** tpx3.cpp:307-326: the loop variables: time packets are decoded (375 uses a
    48-bit mask) but only [alt_ts] influences the hits. *)
Record raw_st := RawSt { r_ts : ts; r_alt : alt_ts; r_hits : list hit }.

(** tpx3.cpp:357-401: one payload packet. *)
Definition raw_step (chip : Z) (p : packet) (st : raw_st) : raw_st :=
  let s := r_ts st in
  if is_tdc p then
    RawSt (TS (lib_tdc p (ts_gdc s)) (ts_gdc s) (ts_timer s)) (r_alt st) (r_hits st)
  else if is_gdc p then
    let (timer, gdc) := lib_gdc 0xFFFFFFFFFFFF p (ts_timer s) (ts_gdc s) in
    RawSt (TS (ts_tdc s) gdc timer) (r_alt st) (r_hits st)
  else if is_pixel p then
    let (h, a) := packet_to_hit_alt p (r_alt st) chip in
    RawSt s a (r_hits st ++ [h])
  else st.

(** tpx3.cpp:349-402: [i] advances before each packet; [m] are the bytes from
    [i + 8] on.  Copying 8 bytes of which some lie outside the buffer is
    undefined (the size test of line 353 is always false). *)
Fixpoint raw_payload (n : nat) (chip : Z) (m : list Z) (st : raw_st)
  : outcome (list Z * raw_st) :=
  match n with
  | O => Ok (m, st)
  | S n' =>
      match read_packet m 0 with
      | None => UB OutOfBounds
      | Some p => raw_payload n' chip (skipn 8 m) (raw_step chip p st)
      end
  end.

(** tpx3.cpp:328-404: the main loop, while [i != end]. *)
Fixpoint raw_loop (fuel : nat) (m : list Z) (st : raw_st) : outcome raw_st :=
  match m with
  | [] => Ok st
  | _ =>
      match fuel with
      | O => OutOfFuel
      | S f =>
          match read_packet m 0 with
          | None => UB OutOfBounds
          | Some p =>
              if is_header p then
                let! (m', st') :=
                  raw_payload (Z.to_nat (Z.shiftr (header_size p) 3)) (schar (b4 p))
                              (skipn 8 m) st in
                raw_loop f m' st'
              else raw_loop f (skipn 8 m) st
          end
      end
  end.

(** tpx3.cpp:289-408; [None] is a file that cannot be opened. *)
Definition read_raw (file : option (list Z)) : outcome (list hit) :=
  match file with
  | None => Throw RuntimeError
  | Some m =>
      let! st := raw_loop (length m) m (RawSt ts0 (Alt 0 0) []) in
      Ok (r_hits st)
  end.

(** * fastParseTPX3Raw and processBatch *)

(** tpx3.cpp:430-442: as [find_from], but a header in the last 8 bytes is not
    looked at. *)
Fixpoint lib_find (m : list Z) (off : Z) : list batch :=
  match m with
  | a0 :: a1 :: a2 :: a3 :: a4 :: a5 :: a6 :: a7 :: rest =>
      match rest with
      | [] => []
      | _ =>
          let p := Packet a0 a1 a2 a3 a4 a5 a6 a7 in
          if is_header p then header_batch off p :: lib_find rest (off + 8)
          else lib_find rest (off + 8)
      end
  | _ => []
  end.

(** tpx3.h:20-28: the default hit. *)
Definition hit0 : hit := Hit 0 0 0 0 0 (Some 0) 0.

(** tpx3.cpp:445-449: std::accumulate into an [int]. *)
Fixpoint lib_total (bs : list batch) (sum : Z) : outcome Z :=
  match bs with
  | [] => Ok sum
  | b :: rest =>
      if sum + t_num b >? 2 ^ 31 - 1 then UB SignedOverflow
      else lib_total rest (sum + t_num b)
  end.

(** tpx3.cpp:418-475: the batches are counted but never processed (the loops
    that would do so are commented out).  Allocation failure is not
    modelled. *)
Definition fast_parse (m : list Z) : outcome (list hit) :=
  let! n := lib_total (lib_find m 0) 0 in
  Ok (repeat hit0 (Z.to_nat n)).

(** tpx3.cpp:496-535: the packet loop of processBatch. *)
Fixpoint batch_loop (n : nat) (chip : Z) (m : list Z) (iter : Z) (s : ts)
    (hits : list hit) : outcome (list hit) :=
  match n with
  | O => Ok hits
  | S n' =>
      if iter + 8 >=? zlen m then batch_loop n' chip m iter s hits
      else
        match read_packet m (iter + 8) with
        | None => UB OutOfBounds
        | Some p =>
            let (s', hits') := lib_step chip p s hits in
            batch_loop n' chip m (iter + 8) s' hits'
        end
  end.

(** tpx3.cpp:477-538: processBatch; the timestamps start at 0. *)
Definition process_batch (b : batch) (m : list Z) : outcome (list hit) :=
  batch_loop (Z.to_nat (t_num b)) (t_chip b) m (t_index b) ts0 [].
