(** Model of the time-of-flight images in sophiread/SophireadCLI/src/
    sophiread_core.cpp: initializeTOFImages, updateTOFImages,
    timedCreateTOFImages, calculateSpectralCounts, writeSpectralFile.
    Logging and the event counters that are only logged are omitted. *)
From Verif Require Export M_Abs M_Tpx3.

(** One image is a vector of rows (index y) of counts (index x). *)
Definition image := list (list Z).

(** iposition_tof.h: what the histogram sees of a hit or neutron.  [en_tof] is
    iGetTOF_ns, [None] if it would read an uninitialised m_tof. *)
Record entry := Entry { en_x : f64; en_y : f64; en_tof : option f64 }.

(** hit.h:94-96, neutron.h:40-42. *)
Definition entry_of_hit (h : hit) : entry :=
  Entry (f_of_Z (h_x h)) (f_of_Z (h_y h)) (tof_ns h).
Definition entry_of_neutron (n : neutron) : entry :=
  Entry (n_x n) (n_y n) (Some (n_tof_ns n)).

(** sophiread_core.cpp:251-267, 388-402; [hit_mode] is [mode == "hit"]. *)
Definition entries (hit_mode : bool) (b : batch) : list entry :=
  if hit_mode then map entry_of_hit (t_hits b) else map entry_of_neutron (t_neutrons b).

(** sophiread_core.cpp:228, 248, 369: static_cast<int>(517 * super_resolution). *)
Definition dim (sr : f64) : outcome Z :=
  match f_to_i32 (fmul (f_of_Z 517) sr) with Some d => Ok d | None => UB BadConversion end.

(** sophiread_core.cpp:232-234, 380-382: [n] images of [d] x [d] zeros;
    a negative [d] becomes a huge unsigned length. *)
Definition blank (n : nat) (d : Z) : outcome (list image) :=
  if (d <? 0) && negb (Nat.eqb n 0) then Throw LengthError
  else Ok (repeat (repeat (repeat 0 (Z.to_nat d)) (Z.to_nat d)) n).

(** sophiread_core.cpp:226-236; [tof_bin_edges.size() - 1] is unsigned. *)
Definition init_images (sr : f64) (edges : list f64) : outcome (list image) :=
  let! d := dim sr in
  match edges with
  | [] => Throw LengthError
  | _ :: _ => blank (length edges - 1) d
  end.

(** std::lower_bound as in libstdc++: [len] elements from position [first];
    [fuel] bounds the halvings. *)
Fixpoint lower_bound_loop (fuel : nat) (l : list f64) (v : f64) (first len : nat) : nat :=
  match fuel with
  | O => first
  | S f =>
      if Nat.eqb len 0 then first
      else
        let half := Nat.div len 2 in
        let middle := (first + half)%nat in
        match nth_error l middle with
        | Some e =>
            if flt e v then lower_bound_loop f l v (S middle) (len - half - 1)
            else lower_bound_loop f l v first half
        | None => first
        end
  end.
Definition lower_bound (l : list f64) (v : f64) : nat :=
  lower_bound_loop (S (length l)) l v 0 (length l).

Definition c_1e9 : f64 := f_of_Z 1000000000.

(** sophiread_core.cpp:276-301, 418-448: the bin for a time in ns, [None] if
    the entry is skipped. *)
Definition bin_of (edges : list f64) (nimages : nat) (tof : f64) : option nat :=
  if flt tof (f_of_Z 0) || f_isnan tof || f_isinf tof then None
  else
    let tof_s := fdiv tof c_1e9 in
    match edges with
    | [] => None
    | front :: _ =>
        if flt tof_s front || fge tof_s (last edges front) then None
        else
          match lower_bound edges tof_s with
          | O => None
          | S bin => if Nat.leb nimages bin then None else Some bin
          end
    end.

(** sophiread_core.cpp:304-316, 451-464: the pixel (x, y), [None] if the entry
    is skipped. *)
Definition pixel_of (sr : f64) (d : Z) (ex ey : f64) : outcome (option (Z * Z)) :=
  if f_isnan ex || f_isnan ey || f_isinf ex || f_isinf ey then Ok None
  else
    match f_to_i32 (fround (fmul ex sr)), f_to_i32 (fround (fmul ey sr)) with
    | Some x, Some y =>
        if (x >=? 0) && (x <? d) && (y >=? 0) && (y <? d) then Ok (Some (x, y)) else Ok None
    | _, _ => UB BadConversion
    end.

(** tof_images[bin][y][x]++ on unsigned int. *)
Definition bump_row (row : list Z) (x : nat) : option (list Z) :=
  match nth_error row x with Some v => set_nth row x (u32 (v + 1)) | None => None end.
Definition bump_image (im : image) (x y : nat) : option image :=
  match nth_error im y with
  | Some row => match bump_row row x with Some row' => set_nth im y row' | None => None end
  | None => None
  end.
Definition bump (ims : list image) (bin x y : nat) : option (list image) :=
  match nth_error ims bin with
  | Some im => match bump_image im x y with Some im' => set_nth ims bin im' | None => None end
  | None => None
  end.

(** One entry: sophiread_core.cpp:269-323, 410-473. *)
Definition add_entry (sr : f64) (edges : list f64) (d : Z) (ims : list image) (e : entry)
  : outcome (list image) :=
  match en_tof e with
  | None => UB Uninitialised
  | Some tof =>
      match bin_of edges (length ims) tof with
      | None => Ok ims
      | Some bin =>
          let! px := pixel_of sr d (en_x e) (en_y e) in
          match px with
          | None => Ok ims
          | Some (x, y) =>
              match bump ims bin (Z.to_nat x) (Z.to_nat y) with
              | Some ims' => Ok ims'
              | None => UB OutOfBounds
              end
          end
      end
  end.

(** sophiread_core.cpp:238-324: updateTOFImages. *)
Definition update_images (sr : f64) (edges : list f64) (hit_mode : bool)
    (ims : list image) (b : batch) : outcome (list image) :=
  match ims with
  | [] => Ok ims
  | _ :: _ =>
      if Nat.ltb (length edges) 2 then Ok ims
      else
        let! d := dim sr in
        ofold (add_entry sr edges d) (entries hit_mode b) ims
  end.

(** The updates of a chunk, sophiread.cpp:284, 298-303. *)
Definition update_all (sr : f64) (edges : list f64) (hit_mode : bool)
    (ims : list image) (bs : list batch) : outcome (list image) :=
  ofold (update_images sr edges hit_mode) bs ims.

(** sophiread_core.cpp:346-485: timedCreateTOFImages. *)
Definition create_images (sr : f64) (edges : list f64) (hit_mode : bool) (bs : list batch)
  : outcome (list image) :=
  match edges with
  | [] => Throw LengthError
  | _ :: _ =>
      if Nat.ltb (length edges) 2 then Ok []
      else
        match bs with
        | [] => Ok (repeat [] (length edges - 1))
        | _ :: _ =>
            let! d := dim sr in
            let! ims := blank (length edges - 1) d in
            ofold (fun ims b => ofold (add_entry sr edges d) (entries hit_mode b) ims) bs ims
        end
  end.

(** sophiread_core.cpp:596-609: calculateSpectralCounts; the inner sums are
    unsigned long long, the outer ones uint64_t. *)
Definition sum_u64 (l : list Z) : Z := fold_left (fun s v => u64 (s + v)) l 0.
Definition spectral_count (im : image) : Z :=
  fold_left (fun s row => u64 (s + sum_u64 row)) im 0.
Definition spectral_counts (ims : list image) : list Z := map spectral_count ims.

(** sophiread_core.cpp:617-620: rows of the spectral file; the loop bound
    [size() - 1] is unsigned, and both vectors are read without checks.  How a
    double is printed: [M_Text]. *)
Fixpoint spectral_rows (edges : list f64) (counts : list Z) : outcome (list (f64 * Z)) :=
  match edges with
  | [] => Ok []
  | e :: edges' =>
      match counts with
      | [] => UB OutOfBounds
      | c :: counts' => let! rows := spectral_rows edges' counts' in Ok ((e, c) :: rows)
      end
  end.
Definition write_spectral (edges : list f64) (counts : list Z) : outcome (list (f64 * Z)) :=
  match edges with
  | [] => UB OutOfBounds
  | _ :: edges' => spectral_rows edges' counts
  end.
