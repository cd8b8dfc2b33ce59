(** C77: what the converter of the manufacturer writes.  C78: the packing
    functions that generate test data. *)
From Coq Require Import Reals.
From Verif Require Import S_Cam P_Cam.
From Coq Require Import Lia.
Global Open Scope Z_scope.

Definition ex_ds : dataset :=
  DS 51 1 0 [pixel_packet (PF 11 100 200 1234 77 5 43);
             word_packet (0x6f * 2 ^ 56 + 40000000 * 2 ^ 12 + 3 * 2 ^ 9 + 7 * 2 ^ 5);
             word_packet (0x44 * 2 ^ 56 + 70000000 * 2 ^ 16);
             word_packet (0x45 * 2 ^ 56 + 2 * 2 ^ 16);
             word_packet (0x21 * 2 ^ 56)].
Example ex_ds_ok : dataset_ok ex_ds.
Proof.
  unfold dataset_ok, is_byte, ex_ds. cbn [d_b3 d_chip d_b5 d_payload].
  split; [lia|]. split; [lia|]. split; [lia|]. split; [|vm_compute; discriminate].
  repeat (apply Forall_cons; [unfold packet_ok, is_byte; vm_compute; repeat split; discriminate|]). apply Forall_nil.
Qed.

Definition to_ints (l : line) : option Z * list Z :=
  match l with
  | LTdc t => (f_to_u64 (fmul t (f_of_Z (10 ^ 13))), [])
  | LPixel x y t tot => (f_to_u64 (fmul t (f_of_Z (10 ^ 13))), [x; y; match f_to_i32 tot with Some v => v | None => 0 end])
  | LGlobal t => (f_to_u64 (fmul t (f_of_Z (10 ^ 13))), [1])
  end.

(** C77: the lines and the number of trigger packets. *)
Theorem C77_lines : forall ds, Forall dataset_ok ds -> ~ global_first (tagged ds) ->
  exists ls, cam_convert (Some (stream ds)) =
      Ok (ls, zlen (filter (fun q => trigger_kind (snd q)) (tagged ds)) mod 2 ^ 64) /\
    written 0 (tagged ds) ls.
Proof. exact C77_lines_l. Qed.
Print Assumptions C77_lines.
(** pixel at 17643665.625 ns; trigger at 1 s and 10.9375 ns; global time
    of 2 * 2^32 + 70000000 ticks *)
Example C77_lines_instance :
  (let! r := cam_convert (Some (stream [ex_ds])) in Ok (map to_ints (fst r), snd r)) =
  Ok ([(Some 176436656250, [415; 315; 1925]); (Some 10000000109375, []); (Some 2164983648000000, [1])], 1).
Proof. vm_compute. reflexivity. Qed.

(** C77: a global time before the first pixel uses a variable that is not
    set. *)
Theorem C77_global_time_first : forall ds, Forall dataset_ok ds -> global_first (tagged ds) ->
  cam_convert (Some (stream ds)) = UB Uninitialised.
Proof. exact C77_unset_l. Qed.
Print Assumptions C77_global_time_first.
Example C77_global_time_first_instance :
  cam_convert (Some (stream [DS 51 0 0 [word_packet (0x45 * 2 ^ 56)]])) = UB Uninitialised.
Proof. vm_compute. reflexivity. Qed.

(** C77: words between datasets that do not begin with TPX are skipped. *)
Theorem C77_other_words : forall l, Forall piece_ok l ->
  cam_convert (Some (flat_map piece_bytes l)) = cam_convert (Some (stream (datasets_of l))).
Proof. exact C77_other_words_l. Qed.
Print Assumptions C77_other_words.
Example C77_other_words_instance :
  let l := [PWord (Packet 84 80 87 51 0 0 255 0); PDataset ex_ds; PWord (pixel_packet (PF 11 100 200 1234 77 5 43))] in
  forallb (fun x => match x with PWord p => negb ((b0 p =? 84) && (b1 p =? 80) && (b2 p =? 88)) | _ => true end) l = true /\
  (let! r := cam_convert (Some (flat_map piece_bytes l)) in Ok (length (fst r), snd r)) = Ok (3%nat, 1).
Proof. split; vm_compute; reflexivity. Qed.

(** C77: a file that is not a sequence of 8-byte words does not fit into the
    buffer. *)
Theorem C77_ragged_file : forall m, zlen m mod 8 <> 0 -> cam_convert (Some m) = UB OutOfBounds.
Proof. exact C77_ragged_l. Qed.
Print Assumptions C77_ragged_file.
Example C77_ragged_file_instance : cam_convert (Some (stream [ex_ds] ++ [0])) = UB OutOfBounds.
Proof. vm_compute. reflexivity. Qed.

(** C77: a file that ends inside a dataset is read beyond its end. *)
Theorem C77_cut_file : forall ds d got lost, Forall dataset_ok ds -> dataset_ok d ->
  d_payload d = got ++ lost -> lost <> [] -> ~ global_first (tagged (ds ++ [d])) ->
  cam_convert (Some (stream ds ++ flat_map packet_bytes (ds_header d :: got))) = UB OutOfBounds.
Proof. exact C77_cut_l. Qed.
Print Assumptions C77_cut_file.
Example C77_cut_file_instance :
  cam_convert (Some (firstn 40 (stream [ex_ds]))) = UB OutOfBounds.
Proof. vm_compute. reflexivity. Qed.

(** C77: a file that cannot be opened gives an empty result. *)
Theorem C77_missing_file : cam_convert None = Ok ([], 0).
Proof. reflexivity. Qed.
Print Assumptions C77_missing_file.

(** C77: the pixel lines show, in order, the hits that the library makes of the
    same packets. *)
Theorem C77_same_hits : forall ds ls n, Forall dataset_ok ds -> cam_convert (Some (stream ds)) = Ok (ls, n) ->
  Forall2 (fun cp l => forall tdc gdc h, hit_gdc (snd cp) tdc gdc (fst cp) = Ok h \/
    (0 <= tdc < 2 ^ 64 /\ h = hit_tdc (snd cp) tdc (fst cp)) -> shows l h)
    (filter (fun q => pixel_kind (snd q)) (tagged ds)) (filter pixel_line ls).
Proof. exact C77_same_l. Qed.
Print Assumptions C77_same_hits.
Example C77_same_hits_instance :
  (h_x (hit_tdc (pixel_packet (PF 11 100 200 1234 77 5 43)) 1 1),
   h_y (hit_tdc (pixel_packet (PF 11 100 200 1234 77 5 43)) 1 1)) = (415, 315).
Proof. vm_compute. reflexivity. Qed.

(** C78: packPixelHit for arbitrary arguments; the upper half of the fine time
    goes into the ToT. *)
Theorem C78_pack_pixel : forall spidr ftoa tot toa addr,
  exists f, fields_ok f /\ pack_pixel spidr ftoa tot toa addr = pixel_word f /\
    f_type f = 11 /\ pixel_address (f_x f) (f_y f) = addr mod 2 ^ 16 /\
    f_toa f = toa mod 2 ^ 14 /\ f_tot f = Z.lor (tot mod 2 ^ 10) (ftoa mod 2 ^ 8 / 16) /\
    f_ftoa f = ftoa mod 16 /\ f_spidr f = spidr mod 2 ^ 16.
Proof. exact C78_pixel_l. Qed.
Print Assumptions C78_pack_pixel.
Example C78_pack_pixel_instance : pack_pixel 43 5 77 1234 (pixel_address 100 200) = pixel_word (PF 11 100 200 1234 77 5 43).
Proof. vm_compute. reflexivity. Qed.

(** C78: what is packed with 8 bits of fine time need not come back. *)
Theorem C78_fine_time_changes_tot_refuted : exists spidr ftoa tot toa addr h,
  0 <= ftoa < 2 ^ 8 /\ 0 <= tot < 2 ^ 10 /\
  hit_gdc (word_packet (pack_pixel spidr ftoa tot toa addr)) 1 1 0 = Ok h /\ h_tot h <> tot.
Proof.
  exists 0, 31, 0, 0, 0. eexists. split; [split; [discriminate|reflexivity]|].
  split; [split; [discriminate|reflexivity]|]. split; [vm_compute; reflexivity|discriminate].
Qed.
Print Assumptions C78_fine_time_changes_tot_refuted.

(** C78: a file written with the two packing functions is the stream of one
    dataset of the detector. *)
Theorem C78_packed_file : forall d fs, dataset_ok d -> Forall (fun f => fields_ok f /\ f_type f = 11) fs ->
  d_payload d = map pixel_packet fs ->
  flat_map packet_bytes (map word_packet
    (pack_header 84 80 88 (d_b3 d) (d_chip d) (d_b5 d) (8 * zlen (d_payload d)) ::
     map (fun f => pack_pixel (f_spidr f) (f_ftoa f) (f_tot f) (f_toa f) (pixel_address (f_x f) (f_y f))) fs)) =
  stream [d].
Proof. exact C78_file_l. Qed.
Print Assumptions C78_packed_file.
(** C78: the file of the generator is one dataset of chip 0 with 26 pixels at
    (153, 58) of the chip. *)
Theorem C78_generator_file :
  flat_map packet_bytes (map word_packet fake_words) =
  stream [DS 51 0 0 (map (fun s => pixel_packet (PF 11 153 58 16383 1023 15 s)) fake_spidr)].
Proof. vm_compute. reflexivity. Qed.
Print Assumptions C78_generator_file.

(** C78: the check that reads the file back prints the arrival time. *)
Theorem C78_printed_time : forall f, fields_ok f -> fake_time (pixel_word f) = time30 f.
Proof. exact C78_time_l. Qed.
Print Assumptions C78_printed_time.
Example C78_printed_time_instance : fake_time (pixel_word (PF 11 153 58 16383 1023 15 0xFF00)) = 1069563903.
Proof. vm_compute. reflexivity. Qed.
