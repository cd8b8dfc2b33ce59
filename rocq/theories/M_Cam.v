(** Model of sophiread/resources/manufacture/tpx3cam.cpp, the example of the
    manufacturer that converts a raw file to text, and of the packing functions
    of SophireadLib/tests/generate_fake_tpx3_data.cpp. *)
From Verif Require Export M_Hit.
Global Open Scope list_scope.

(** * tpx3cam.cpp *)

(** A line of converted.txt: tpx3cam.cpp:105, 158-161, 185-188.  The numbers
    are kept as doubles (formatting with 15 digits is not modelled). *)
Inductive line :=
| LTdc (t : f64)
| LPixel (x y : Z) (t tot : f64)
| LGlobal (t : f64).

(** Variables that live across packets: spidrTime (an unsigned short, not
    initialised, tpx3cam.cpp:33), Timer_LSB32, Timer_MSB16, numofTDC. *)
Record cam := Cam
  { k_spidr : option Z; k_lsb : Z; k_msb : Z; k_ntdc : Z; k_lines : list line }.
Definition cam0 : cam := Cam None 0 0 0 [].

(** Constants 25E-9, 1E-9, 25./4096, 25.0/16, 1E9. *)
Definition c_25em9 : f64 := f_lit 25 1000000000.
Definition c_1em9 : f64 := f_lit 1 1000000000.
Definition c_25_4096 : f64 := fdiv (f_of_Z 25) (f_of_Z 4096).
Definition c_25_over_16 : f64 := fdiv (f_of_Z 25) (f_of_Z 16).
Definition c_1e9 : f64 := f_of_Z 1000000000.

(** tpx3cam.cpp:95-103: the time of a TDC packet; tmpfine is an unsigned
    long. *)
Definition cam_fine (w : Z) : Z :=
  let tmpfine := Z.land (Z.shiftr w 5) 0xF in
  let tmpfine := u64 (Z.shiftl (u64 (tmpfine - 1)) 9) / 12 in
  Z.lor (Z.land w 0xE00) (Z.land tmpfine 0x1FF).
Definition cam_tdc (w : Z) : f64 :=
  let coarse := f_of_Z (Z.land (Z.shiftr w 12) 0xFFFFFFFF) in
  fadd (fmul coarse c_25em9) (fmul (fmul (f_of_Z (cam_fine w)) c_25_4096) c_1em9).

(** tpx3cam.cpp:114-118: chip-local coordinates. *)
Definition cam_x (w : Z) : Z :=
  Z.shiftr (Z.land w 0x0FE0000000000000) 52 + Z.quot (Z.shiftr (Z.land w 0x0000700000000000) 44) 4.
Definition cam_y (w : Z) : Z :=
  Z.shiftr (Z.land w 0x001F800000000000) 45 + Z.land (Z.shiftr (Z.land w 0x0000700000000000) 44) 0x3.

(** tpx3cam.cpp:133-155: the switch for quad chips. *)
Definition cam_place (chip x y : Z) : Z * Z :=
  match chip with
  | 0 => (x + 260, y)
  | 1 => (255 - x + 260, 255 - y + 260)
  | 2 => (255 - x, 255 - y + 260)
  | 3 => (x, y)
  | _ => (x, y)
  end.

(** tpx3cam.cpp:113-126: FTOA is a char below 16, so ~FTOA & 0xf is that of an
    int. *)
Definition cam_time (w : Z) : f64 :=
  let spidr := Z.land w 0xffff in
  let toa := Z.land (Z.shiftr w 30) 0x3fff in
  let ftoa := Z.land (Z.shiftr w 16) 0xf in
  let ctoa := Z.lor (Z.shiftl toa 4) (Z.land (Z.lnot ftoa) 0xf) in
  fadd (fmul (fmul (f_of_Z spidr) (f_of_Z 25)) (f_of_Z 16384)) (fmul (f_of_Z ctoa) c_25_over_16).
Definition cam_tot (w : Z) : f64 := fmul (f_of_Z (Z.land (Z.shiftr w 20) 0x3ff)) (f_of_Z 25).

(** tpx3cam.cpp:65-195: one packet of a dataset of chip [chip]. *)
Definition cam_step (chip : Z) (p : packet) (s : cam) : outcome cam :=
  let w := le64 p in
  let kind := Z.shiftr w 60 in
  if kind =? 6 then
    Ok (Cam (k_spidr s) (k_lsb s) (k_msb s) (u64 (k_ntdc s + 1)) (k_lines s ++ [LTdc (cam_tdc w)]))
  else if kind =? 11 then
    let (x, y) := cam_place chip (cam_x w) (cam_y w) in
    Ok (Cam (Some (Z.land w 0xffff)) (k_lsb s) (k_msb s) (k_ntdc s)
            (k_lines s ++ [LPixel x y (fdiv (cam_time w) c_1e9) (cam_tot w)]))
  else if kind =? 4 then
    let sub := Z.land (Z.shiftr w 56) 0xF in
    if sub =? 4 then
      Ok (Cam (k_spidr s) (Z.land (Z.shiftr w 16) 0xFFFFFFFF) (k_msb s) (k_ntdc s) (k_lines s))
    else if sub =? 5 then
      let msb := Z.land (Z.shiftr w 16) 0xFFFF in
      let master := Z.lor (Z.land (u64 (Z.shiftl msb 32)) 0xFFFF00000000) (k_lsb s) in
      match k_spidr s with
      | None => UB Uninitialised
      | Some sp =>
          let quarter := Z.land (Z.shiftr (k_lsb s) 28) 0x3 in
          let diff := Z.shiftr sp 14 - quarter in
          let msb := if Z.shiftr sp 14 =? quarter then msb else u64 (msb - diff) in
          Ok (Cam (k_spidr s) (k_lsb s) msb (k_ntdc s)
                  (k_lines s ++ [LGlobal (fmul (f_of_Z master) c_25em9)]))
      end
    else Ok s
  else Ok s.

(** tpx3cam.cpp:58-62: the bytes of a header. *)
Definition cam_header (p : packet) : bool :=
  (schar (b0 p) =? 0x54) && (schar (b1 p) =? 0x50) && (schar (b2 p) =? 0x58).
Definition cam_size (p : packet) : Z :=
  Z.lor (Z.shiftl (Z.land 0xff (schar (b7 p))) 8) (Z.land 0xff (schar (b6 p))).

(** tpx3cam.cpp:57-200: the loop over the packets as one pass; [k] packets of
    the current dataset are left.  Beyond the end of the buffer the inner loop
    reads outside. *)
Fixpoint cam_scan (k : nat) (chip : Z) (ps : list packet) (s : cam) : outcome cam :=
  match ps with
  | [] => match k with O => Ok s | S _ => UB OutOfBounds end
  | p :: rest =>
      match k with
      | O =>
          if cam_header p then cam_scan (Z.to_nat (Z.quot (cam_size p) 8)) (schar (b4 p)) rest s
          else cam_scan 0 chip rest s
      | S k' => let! s' := cam_step chip p s in cam_scan k' chip rest s'
      end
  end.

(** The buffer as 64-bit words. *)
Fixpoint words (m : list Z) : list packet :=
  match m with
  | a0 :: a1 :: a2 :: a3 :: a4 :: a5 :: a6 :: a7 :: rest => Packet a0 a1 a2 a3 a4 a5 a6 a7 :: words rest
  | _ => []
  end.

(** tpx3cam.cpp:20-210: the program with a file argument; [None]: the file
    cannot be opened.  The result are the lines of converted.txt and the number
    of TDC packets.  The buffer has fileLength / 8 words and is filled with
    fileLength bytes. *)
Definition cam_convert (file : option (list Z)) : outcome (list line * Z) :=
  match file with
  | None => Ok ([], 0)
  | Some m =>
      if negb (zlen m mod 8 =? 0) then UB OutOfBounds
      else let! s := cam_scan 0 0 (words m) cam0 in Ok (k_lines s, k_ntdc s)
  end.

(** * generate_fake_tpx3_data.cpp *)

(** generate_fake_tpx3_data.cpp:6-38, packDataHeader. *)
Definition pack_header (t p x three chip mode num : Z) : Z :=
  Z.lor (Z.lor (Z.lor (Z.lor (Z.lor (Z.lor
    (u64 (Z.shiftl (Z.land num 0xFFFF) 48)) (u64 (Z.shiftl (Z.land mode 0xFF) 40)))
    (u64 (Z.shiftl (Z.land chip 0xFF) 32))) (u64 (Z.shiftl (Z.land three 0xFF) 24)))
    (u64 (Z.shiftl (Z.land x 0xFF) 16))) (u64 (Z.shiftl (Z.land p 0xFF) 8))) (Z.land t 0xFF).

(** generate_fake_tpx3_data.cpp:40-72, packPixelHit. *)
Definition pack_pixel (spidr ftoa tot toa addr : Z) : Z :=
  Z.lor (Z.lor (Z.lor (Z.lor (Z.lor
    (u64 (Z.shiftl (Z.land 0xb 0xFF) 60)) (u64 (Z.shiftl (Z.land addr 0xFFFF) 44)))
    (u64 (Z.shiftl (Z.land toa 0x3FFF) 30))) (u64 (Z.shiftl (Z.land tot 0x3FF) 20)))
    (u64 (Z.shiftl (Z.land ftoa 0xFF) 16))) (Z.land spidr 0xFFFF).

(** generate_fake_tpx3_data.cpp:84-214: the words written to
    rollover_test_data.tpx3; all pixels have the same fToA, ToT, ToA and
    address. *)
Definition fake_spidr : list Z :=
  [0xF000; 0xFF00; 0xFFFF; 0x000F; 0x00FF; 0x0FFF; 0x2FFF;
   0x000F; 0x3FFF; 0x00FF; 0x0FFF; 0x1FFF; 0x2FFF;
   0x000F; 0x00FF; 0x0FFF; 0x2FFF; 0xF000; 0xFF00; 0xFFFF;
   0x000F; 0x00FF; 0x0FFF; 0x1FFF; 0x2FFF; 0x3FFF].
Definition fake_words : list Z :=
  pack_header 84 80 88 51 0 0 208 ::
  map (fun s => pack_pixel s 0xFF 0x3FF 0x3FFF 0x9876) fake_spidr.

(** generate_fake_tpx3_data.cpp:228-265: the time printed for a word that is
    read back; the shift is of an int. *)
Definition fake_time (w : Z) : Z :=
  u32 (Z.lor (Z.shiftl (u16 w) 14) (Z.land (u16 (Z.shiftr w 30)) 0x3FFF)).
