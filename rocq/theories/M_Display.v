(** Model of sophiread_display: mainwindow.cpp (filetohits), hit_worker.cpp and
    mainwindow.h.  Progress information is left out. *)
From Verif Require Export M_StreamCli.

(** * Reading a file *)

(** mainwindow.h:34-42: struct newRawPacket. *)
Record raw := Raw
  { w_ftoa : Z; w_tot : Z; w_toa : Z; w_x : Z; w_y : Z; w_spdr : Z; w_tof : Z }.

(** mainwindow.cpp:99-115: the fields of a pixel packet; [tof] is the unsigned
    long difference stored in an unsigned int. *)
Definition decode_raw (p : packet) (tdc : Z) : raw :=
  let nTOT := le16 (b2 p) (b3 p) in
  let nTOA := le32 (b3 p) (b4 p) (b5 p) (b6 p) in
  let toa := Z.land (Z.shiftr nTOA 6) 0x3FFF in
  let npixaddr := le32 (b4 p) (b5 p) (b6 p) (b7 p) in
  let pixaddr := u16 (Z.land (Z.shiftr npixaddr 12) 0xFFFF) in
  let dcol := Z.shiftr (Z.land pixaddr 0xFE00) 8 in
  let spix := Z.shiftr (Z.land pixaddr 0x1F8) 1 in
  let pix := Z.land pixaddr 0x7 in
  let spdrtime := 16384 * le16 (b0 p) (b1 p) + toa in
  Raw (Z.land nTOT 0xF) (Z.land (Z.shiftr nTOT 4) 0x3FF) toa
      (dcol + Z.shiftr pix 2) (spix + Z.land pix 0x3) spdrtime (u32 (u64 (spdrtime - tdc))).

(** mainwindow.cpp:126-139: the chip is a plain char. *)
Definition place_raw (chip : Z) (r : raw) : raw :=
  let set x y := Raw (w_ftoa r) (w_tot r) (w_toa r) x y (w_spdr r) (w_tof r) in
  if chip =? 0 then set (w_x r + 256) (w_y r)
  else if chip =? 1 then set (511 - w_x r) (511 - w_y r)
  else if chip =? 2 then set (255 - w_x r) (511 - w_y r)
  else r.

(** mainwindow.cpp:117-123: the entry of mytofhisto (170000 entries) that is
    incremented, if any; before the hit is placed. *)
Definition tof_entry (r : raw) : outcome (list Z) :=
  match f_to_i32 (fmul (f_of_Z (w_tof r)) (f_lit 1 4)) with
  | None => UB BadConversion
  | Some itof =>
      if (itof <? 170000) && (w_x r >? 250) && (w_x r <? 425) && (w_y r >? 125) && (w_y r <? 325)
      then if itof <? 0 then UB OutOfBounds else Ok [itof]
      else Ok []
  end.

(** mainwindow.cpp:29-30, 39, 46, 49: the rest of the file, the arrays (of which
    8 bytes are used), mytdc; the entries of the histogram incremented and the
    hits handed to the ring so far. *)
Record dsp := Dsp
  { v_rest : list Z; v_in : arr8; v_data : arr8; v_tdc : Z; v_tofs : list Z; v_hits : list raw }.

(** fread of 8 bytes: the number of bytes read, the rest of the file, the
    array. *)
Definition fread8 (rest : list Z) (a : arr8) : Z * list Z * arr8 :=
  let got := firstn 8 rest in
  (zlen got, skipn 8 rest, map Some got ++ skipn (length got) a).

(** mainwindow.cpp:83-166: one data packet. *)
Definition dsp_packet (st : dsp) : outcome dsp :=
  let a := v_data st in
  let! a7 := elem a 7 in
  if Z.land (schar a7) 0xF0 =? 0xb0 then
    let! p := packet_of a in
    let r := decode_raw p (v_tdc st) in
    let! e := tof_entry r in
    let! chip := elem (v_in st) 4 in
    Ok (Dsp (v_rest st) (v_in st) a (v_tdc st) (v_tofs st ++ e)
            (v_hits st ++ [place_raw (schar chip) r]))
  else if schar a7 =? 0x6F then
    let! p := packet_of a in
    Ok (Dsp (v_rest st) (v_in st) a (Z.land (Z.shiftr (le64 p) 12) 0x3fffffff) (v_tofs st) (v_hits st))
  else Ok st.

(** mainwindow.cpp:78-167: the data words of one dataset. *)
Fixpoint dsp_section (n : nat) (st : dsp) : outcome dsp :=
  match n with
  | O => Ok st
  | S n' =>
      let '(_, rest, a) := fread8 (v_rest st) (v_data st) in
      let! st := dsp_packet (Dsp rest (v_in st) a (v_tdc st) (v_tofs st) (v_hits st)) in
      dsp_section n' st
  end.

(** mainwindow.cpp:58-170: the loop over the file; the bytes of the size field
    are plain chars. *)
Fixpoint dsp_loop (fuel : nat) (st : dsp) : outcome dsp :=
  match fuel with
  | O => OutOfFuel
  | S fu =>
      let '(i, rest, b) := fread8 (v_rest st) (v_in st) in
      if i =? 0 then Ok st
      else
        let st := Dsp rest b (v_data st) (v_tdc st) (v_tofs st) (v_hits st) in
        let! hd := header_test b in
        if hd then
          let! b7 := elem b 7 in
          let! b6 := elem b 6 in
          let dwords := Z.shiftr (256 * schar b7 + schar b6) 3 in
          let! st := dsp_section (Z.to_nat dwords) st in
          dsp_loop fu st
        else dsp_loop fu st
  end.

(** mainwindow.cpp:27-174: the hits in the order in which they are handed over,
    and the entries of the histogram.  A file that cannot be opened is a null
    pointer passed to fileno. *)
Definition filetohits (file : option (list Z)) : outcome (list raw * list Z) :=
  match file with
  | None => UB NullDeref
  | Some m =>
      let! st := dsp_loop (S (length m)) (Dsp m blank8 blank8 0 [] []) in
      Ok (v_hits st, v_tofs st)
  end.

(** * Clusters *)

(** mainwindow.h:18-32: struct cluster; [tof], [firstkk] and [lastkk] are never
    read. *)
Record clus := Clus
  { k_use : bool; k_first : Z; k_minx : Z; k_maxx : Z; k_miny : Z; k_maxy : Z;
    k_tot : Z; k_rx : Z; k_ry : Z; k_n : Z }.
Definition clus_zero : clus := Clus false 0 0 0 0 0 0 0 0 0.

(** Arithmetic on int. *)
Definition int_ck (z : Z) : outcome Z :=
  if (- 2 ^ 31 <=? z) && (z <? 2 ^ 31) then Ok z else UB SignedOverflow.

(** hit_worker.cpp:81-98. *)
Definition clus_fits (c : clus) (h : raw) : bool :=
  k_use c && (Z.abs (k_first c - w_spdr h) <? 3) &&
  (w_x h <=? k_maxx c + 5) && (w_x h >=? k_minx c - 5) &&
  (w_y h <=? k_maxy c + 5) && (w_y h >=? k_miny c - 5).

(** hit_worker.cpp:102-123. *)
Definition clus_grow (c : clus) (h : raw) : outcome clus :=
  let! n := int_ck (k_n c + 1) in
  let! rx := int_ck (k_rx c + w_tot h * w_x h) in
  let! ry := int_ck (k_ry c + w_tot h * w_y h) in
  let! tot := int_ck (k_tot c + w_tot h) in
  let minx := if w_x h <? k_minx c then w_x h else k_minx c in
  let maxx := if w_x h <? k_minx c then k_maxx c
              else if w_x h >? k_maxx c then w_x h else k_maxx c in
  let miny := if w_y h <? k_miny c then w_y h else k_miny c in
  let maxy := if w_y h <? k_miny c then k_maxy c
              else if w_y h >? k_maxy c then w_y h else k_maxy c in
  Ok (Clus (k_use c) (k_first c) minx maxx miny maxy tot rx ry n).

(** hit_worker.cpp:167-177, 185-195: a slot taken by the hit. *)
Definition clus_new (h : raw) : outcome clus :=
  let! rx := int_ck (w_x h * w_tot h) in
  let! ry := int_ck (w_y h * w_tot h) in
  Ok (Clus true (w_spdr h) (w_x h) (w_x h) (w_y h) (w_y h) (w_tot h) rx ry 1).

(** hit_worker.cpp:79-129: the first slot that fits. *)
Fixpoint find_slot (slots : list clus) (h : raw) (i : nat) : option nat :=
  match slots with
  | [] => None
  | c :: r => if clus_fits c h then Some i else find_slot r h (S i)
  end.

(** hit_worker.cpp:20-21: cos and sin of the mounting angle. *)
Record rotation := Rot { rot_cos : f64; rot_sin : f64 }.

(** hit_worker.cpp:141-149 (ROTANGLE is -1.0, DSCALE 8.0, isize 4096): the pixel
    incremented, if it is in the image. *)
Definition clus_pixel (rot : rotation) (c : clus) : outcome (list (Z * Z)) :=
  let xmean := fdiv (fmul (f_of_Z 8) (f_of_Z (k_rx c))) (f_of_Z (k_tot c)) in
  let ymean := fdiv (fmul (f_of_Z 8) (f_of_Z (k_ry c))) (f_of_Z (k_tot c)) in
  match f_to_i32 (fsub (fmul xmean (rot_cos rot)) (fmul ymean (rot_sin rot))),
        f_to_i32 (fadd (fmul xmean (rot_sin rot)) (fmul ymean (rot_cos rot))) with
  | Some ix, Some iy =>
      Ok (if (ix >=? 0) && (ix <? 4096) && (iy >=? 0) && (iy <? 4096) then [(ix, iy)] else [])
  | _, _ => UB BadConversion
  end.

(** hit_worker.cpp:48-57: slots, pindex, cindex, the counters, and the pixels of
    the image that were incremented. *)
Record wk := Wk
  { wk_slots : list clus; wk_p : nat; wk_c : nat; wk_total : Z; wk_acc : Z; wk_img : list (Z * Z) }.
Definition num_clusters : nat := 128.
Definition wk_start : wk := Wk (repeat clus_zero num_clusters) 0 0 0 0 [].

(** hit_worker.cpp:134-166, 179: the cluster at cindex is counted and its slot
    freed. *)
Definition wk_pop (rot : rotation) (w : wk) : outcome wk :=
  match nth_error (wk_slots w) (wk_c w) with
  | None => UB OutOfBounds
  | Some c =>
      let! px := if k_n c >? 10 then clus_pixel rot c else Ok [] in
      match set_nth (wk_slots w) (wk_c w)
              (Clus false (k_first c) (k_minx c) (k_maxx c) (k_miny c) (k_maxy c)
                    (k_tot c) (k_rx c) (k_ry c) (k_n c)) with
      | None => UB OutOfBounds
      | Some slots =>
          Ok (Wk slots (wk_p w) (Nat.modulo (wk_c w + 1) num_clusters) (wk_total w + 1)
                 (wk_acc w + if k_n c >? 10 then 1 else 0) (wk_img w ++ px))
      end
  end.

(** hit_worker.cpp:74-198: one hit. *)
Definition wk_hit (rot : rotation) (w : wk) (h : raw) : outcome wk :=
  match find_slot (wk_slots w) h 0 with
  | Some i =>
      match nth_error (wk_slots w) i with
      | None => UB OutOfBounds
      | Some c =>
          let! c' := clus_grow c h in
          match set_nth (wk_slots w) i c' with
          | None => UB OutOfBounds
          | Some slots => Ok (Wk slots (wk_p w) (wk_c w) (wk_total w) (wk_acc w) (wk_img w))
          end
      end
  | None =>
      let full := Nat.eqb (Nat.modulo (wk_p w + 1) num_clusters) (wk_c w) in
      let! w := if full then wk_pop rot w else Ok w in
      let! c := clus_new h in
      match set_nth (wk_slots w) (wk_p w) c with
      | None => UB OutOfBounds
      | Some slots =>
          Ok (Wk slots (Nat.modulo (wk_p w + 1) num_clusters) (wk_c w) (wk_total w) (wk_acc w) (wk_img w))
      end
  end.

(** hit_worker.cpp:71-202 on the hits taken from the ring, in order. *)
Fixpoint wk_run (rot : rotation) (w : wk) (hits : list raw) : outcome wk :=
  match hits with
  | [] => Ok w
  | h :: r => let! w' := wk_hit rot w h in wk_run rot w' r
  end.

(** * The two threads *)

(** Producer: mainwindow.cpp:145 (wait for a free slot), 150 (second test), 152
    (copy), 153 (assignment of pi), 172 (after the file).  Consumer:
    hit_worker.cpp:55 (before the assignment of killthread), 68 (test of
    killthread), 71 (test of the ring), 200 (assignment of ci), 206. *)
Inductive prod_pc := PrWait | PrTest | PrCopy | PrPublish | PrDone.
Inductive cons_pc := CoStart | CoKill | CoTest | CoNext | CoEnd.

(** [g_todo]: hits the reader has still to hand over; [g_out]: hits used by the
    worker.  The slots of the ring are indeterminate at first. *)
Record rsys (A : Type) := RSys
  { g_todo : list A; g_ring : list (option A); g_pi : nat; g_ci : nat;
    g_pp : prod_pc; g_cp : cons_pc; g_kill : bool; g_out : list A }.
Arguments RSys {A}.
Arguments g_todo {A}. Arguments g_ring {A}. Arguments g_pi {A}. Arguments g_ci {A}.
Arguments g_pp {A}. Arguments g_cp {A}. Arguments g_kill {A}. Arguments g_out {A}.

(** mainwindow.cpp:143, hit_worker.cpp:200: [(i + 1) & HSIZEM1]. *)
Definition next_slot (i : nat) : nat := Nat.land (i + 1) 4095.

(** One step of the reader, the worker or the timer; [None] is the use of an
    indeterminate hit. *)
Inductive rstep {A} : rsys A -> option (rsys A) -> Prop :=
| r_free h t ring pi ci cp k out :                             (* mainwindow.cpp:145 *)
    next_slot pi <> ci ->
    rstep (RSys (h :: t) ring pi ci PrWait cp k out)
      (Some (RSys (h :: t) ring pi ci PrTest cp k out))
| r_again h t ring pi ci cp k out :                            (* mainwindow.cpp:150 *)
    next_slot pi <> ci ->
    rstep (RSys (h :: t) ring pi ci PrTest cp k out)
      (Some (RSys (h :: t) ring pi ci PrCopy cp k out))
| r_drop h t ring pi ci cp k out :                             (* mainwindow.cpp:150 *)
    next_slot pi = ci ->
    rstep (RSys (h :: t) ring pi ci PrTest cp k out)
      (Some (RSys t ring pi ci PrWait cp k out))
| r_copy h t ring pi ci cp k out ring' :                       (* mainwindow.cpp:152 *)
    set_nth ring pi (Some h) = Some ring' ->
    rstep (RSys (h :: t) ring pi ci PrCopy cp k out)
      (Some (RSys (h :: t) ring' pi ci PrPublish cp k out))
| r_publish h t ring pi ci cp k out :                          (* mainwindow.cpp:153 *)
    rstep (RSys (h :: t) ring pi ci PrPublish cp k out)
      (Some (RSys t ring (next_slot pi) ci PrWait cp k out))
| r_done ring pi ci cp k out :                                 (* mainwindow.cpp:172 *)
    rstep (RSys [] ring pi ci PrWait cp k out)
      (Some (RSys [] ring pi ci PrDone cp k out))
| r_kill t ring pi ci cp k out :                               (* mainwindow.cpp:266-268 *)
    rstep (RSys t ring pi ci PrDone cp k out)
      (Some (RSys t ring pi ci PrDone cp true out))
| r_start t ring pi ci pp k out :                              (* hit_worker.cpp:55 *)
    rstep (RSys t ring pi ci pp CoStart k out)
      (Some (RSys t ring pi ci pp CoKill false out))
| r_enter t ring pi ci pp out :                                (* hit_worker.cpp:68 *)
    rstep (RSys t ring pi ci pp CoKill false out)
      (Some (RSys t ring pi ci pp CoTest false out))
| r_leave t ring pi ci pp out :                                (* hit_worker.cpp:68 *)
    rstep (RSys t ring pi ci pp CoKill true out)
      (Some (RSys t ring pi ci pp CoEnd true out))
| r_empty t ring pi ci pp k out :                              (* hit_worker.cpp:71 *)
    ci = pi ->
    rstep (RSys t ring pi ci pp CoTest k out) (Some (RSys t ring pi ci pp CoKill k out))
| r_use t ring pi ci pp k out h :                              (* hit_worker.cpp:71-198 *)
    ci <> pi -> nth_error ring ci = Some (Some h) ->
    rstep (RSys t ring pi ci pp CoTest k out)
      (Some (RSys t ring pi ci pp CoNext k (out ++ [h])))
| r_use_ub t ring pi ci pp k out :
    ci <> pi -> (forall h, nth_error ring ci <> Some (Some h)) ->
    rstep (RSys t ring pi ci pp CoTest k out) None
| r_next t ring pi ci pp k out :                               (* hit_worker.cpp:200 *)
    rstep (RSys t ring pi ci pp CoNext k out)
      (Some (RSys t ring pi (next_slot ci) pp CoTest k out)).

(** mainwindow.cpp:181, 294-295: the state when both threads are started. *)
Definition rstart {A} (hits : list A) : rsys A :=
  RSys hits (repeat None 4096) 0 0 PrWait CoStart false [].

(** Any number of steps. *)
Inductive rsteps {A} : rsys A -> option (rsys A) -> Prop :=
| rs_none s : rsteps s (Some s)
| rs_more s s' r : rstep s (Some s') -> rsteps s' r -> rsteps s r
| rs_ub s : rstep s None -> rsteps s None.
