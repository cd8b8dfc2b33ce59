(** Model of sophiread/FastSophiread/src/hit.cpp and include/hit.h. *)
From Verif Require Export Base F64.

(** hit.h:98-106, the data members.  [m_tof] is [None] when the constructor
    leaves it uninitialised (possible in hit.cpp:130-133 only). *)
Record hit := Hit
  { h_x : Z;            (* int m_x *)
    h_y : Z;            (* int m_y *)
    h_tot : Z;          (* int m_tot *)
    h_toa : Z;          (* int m_toa *)
    h_ftoa : Z;         (* int m_ftoa *)
    h_tof : option Z;   (* unsigned int m_tof *)
    h_spider : Z }.     (* unsigned long long m_spidertime *)

(** hit.cpp:35, 108: [*spider_time], bytes 0-1. *)
Definition raw_spider (p : packet) : Z := le16 (b0 p) (b1 p).
(** hit.cpp:36, 109: [*nTOT], bytes 2-3. *)
Definition raw_nTOT (p : packet) : Z := le16 (b2 p) (b3 p).
(** hit.cpp:37, 110: [*nTOA], bytes 3-6 (unaligned load). *)
Definition raw_nTOA (p : packet) : Z := le32 (b3 p) (b4 p) (b5 p) (b6 p).
(** hit.cpp:69, 136: [*npixaddr], bytes 4-7. *)
Definition raw_npix (p : packet) : Z := le32 (b4 p) (b5 p) (b6 p) (b7 p).

(** hit.cpp:38, 111 *)
Definition get_ftoa (p : packet) : Z := Z.land (raw_nTOT p) 0xF.
(** hit.cpp:39, 112 *)
Definition get_tot (p : packet) : Z := Z.land (Z.shiftr (raw_nTOT p) 4) 0x3FF.
(** hit.cpp:40, 113 *)
Definition get_toa (p : packet) : Z := Z.land (Z.shiftr (raw_nTOA p) 6) 0x3FFF.

(** hit.cpp:70, 137; the result is stored in an unsigned short. *)
Definition pixaddr (p : packet) : Z :=
  u16 (Z.land (Z.shiftr (raw_npix p) 12) 0xFFFF).
(** hit.cpp:71-73, 138-140 *)
Definition dcol (a : Z) : Z := Z.shiftr (Z.land a 0xFE00) 8.
Definition spix (a : Z) : Z := Z.shiftr (Z.land a 0x1F8) 1.
Definition pix (a : Z) : Z := Z.land a 0x7.
(** hit.cpp:74-75, 141-142: chip-local coordinates. *)
Definition local_x (a : Z) : Z := dcol a + Z.shiftr (pix a) 2.
Definition local_y (a : Z) : Z := spix a + Z.land (pix a) 0x3.

(** hit.cpp:77-86, 148-157: adjustment for the chip layout. *)
Definition layout (chip x y : Z) : Z * Z :=
  if chip =? 0 then (x + 260, y)
  else if chip =? 1 then (255 - x + 260, 255 - y + 260)
  else if chip =? 2 then (255 - x, 255 - y + 260)
  else (x, y).

(** hit.cpp:41: [spidertime = 16384 * ( *spider_time ) + m_toa], an unsigned
    int (the int product and sum are below 2^30). *)
Definition spidertime30 (p : packet) : Z :=
  u32 (16384 * raw_spider p + get_toa p).

(** The double constants of hit.cpp:58 and hit.cpp:64. *)
Definition c_4e7 : f64 := f_of_Z 40000000.
Definition c_25em6 : f64 := f_lit 25 1000000.
Definition c_16_67 : f64 := f_lit 1667 100.

(** hit.cpp:44-60: conversion of the chip time to a global timestamp. *)
Definition global_time (s gdc : Z) : Z :=
  let lsb30 := Z.land gdc 0x3FFFFFFF in
  let msb18 := Z.land (Z.shiftr gdc 30) 0x3FFFF in
  let msb18 := if s <? lsb30 then u64 (msb18 + 1) else msb18 in
  let t := Z.land (u64 (Z.shiftl msb18 30)) 0xFFFFC0000000 in
  let t := Z.lor t s in
  if fge (f_of_Z (u64 (t - gdc))) c_4e7 then u64 (t - 1073741824) else t.

(** hit.cpp:64: the loop condition [m_tof * 25E-6 > 16.67]. *)
Definition tof_too_long (t : Z) : bool := fgt (fmul (f_of_Z t) c_25em6) c_16_67.

(** hit.cpp:64-66: the loop, with explicit fuel. *)
Fixpoint tof_loop (fuel : nat) (t : Z) : outcome Z :=
  if tof_too_long t then
    match fuel with
    | O => OutOfFuel
    | S f => tof_loop f (u32 (t - 666667))
    end
  else Ok t.

(** Fuel that is always sufficient (theorem C04): every iteration before the
    last removes 666667 ticks. *)
Definition tof_fuel (t : Z) : nat := Z.to_nat (t / 666667 + 1).

(** hit.cpp:63-66; [m_tof] is 32 bits wide, the subtraction 64 bits. *)
Definition tof_gdc (spider tdc : Z) : outcome Z :=
  let d := u32 (u64 (spider - tdc)) in
  tof_loop (tof_fuel d) d.

(** hit.cpp:24-87: constructor with GDC. *)
Definition hit_gdc (p : packet) (tdc gdc chip : Z) : outcome hit :=
  let t := global_time (spidertime30 p) gdc in
  let! tof := tof_gdc t tdc in
  let a := pixaddr p in
  let (x, y) := layout chip (local_x a) (local_y a) in
  Ok (Hit x y (get_tot p) (get_toa p) (get_ftoa p) (Some tof) t).

(** hit.cpp:117-126: [(( *spider_time ) << 14) | m_toa], extended by bit 30
    when the TDC is more than 0x400000 ahead. *)
Definition time_tdc (p : packet) (tdc : Z) : Z :=
  let ts := Z.lor (Z.shiftl (raw_spider p) 14) (get_toa p) in
  if tdc >? u64 (ts + 0x400000) then Z.lor ts 0x40000000 else ts.

(** hit.cpp:97-158: constructor without GDC; m_tof is assigned only if the
    timestamp has reached the TDC. *)
Definition hit_tdc (p : packet) (tdc chip : Z) : hit :=
  let ts := time_tdc p tdc in
  let tof := if ts >=? tdc then Some (u32 (u64 (ts - tdc))) else None in
  let a := pixaddr p in
  let (x, y) := layout chip (local_x a) (local_y a) in
  Hit x y (get_tot p) (get_toa p) (get_ftoa p) tof ts.

(** hit.h:77-83: conversions to ns.  [getTOF_ns] of an uninitialised m_tof is
    undefined. *)
Definition c_25 : f64 := f_of_Z 25.
Definition c_25_16 : f64 := fdiv (f_of_Z 25) (f_of_Z 16).
Definition tof_ns (h : hit) : option f64 :=
  match h_tof h with Some t => Some (fmul (f_of_Z t) c_25) | None => None end.
Definition toa_ns (h : hit) : f64 := fmul (f_of_Z (h_toa h)) c_25.
Definition tot_ns (h : hit) : f64 := fmul (f_of_Z (h_tot h)) c_25.
Definition spider_ns (h : hit) : f64 := fmul (f_of_Z (h_spider h)) c_25.
Definition ftoa_ns (h : hit) : f64 := fmul (f_of_Z (h_ftoa h)) c_25_16.
