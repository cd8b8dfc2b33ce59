(** Model of timedSaveTOFImagingToTIFF and writeSpectralFile in
    sophiread/SophireadCLI/src/sophiread_core.cpp (495-626) over an abstract
    file system.

    A file is a TIFF image, described by its two dimension tags and the bytes
    that TIFFReadScanline delivers for each row, or the text of a spectrum, or
    anything else (TIFFOpen for reading fails).  TIFFWriteScanline of a row of
    32-bit samples followed by TIFFReadScanline gives the bytes back.  Bins are
    written atomically: the tasks of the parallel loop use different files. *)
From Coq Require Export String Decimal DecimalString.
From Coq Require Import DecimalNat.
From Verif Require Export M_Tof.
Local Open Scope Z_scope.
Local Open Scope list_scope.

Inductive file :=
| Tiff (width height : Z) (rows : list (list Z))
| Spectrum (rows : list (f64 * Z))
| OtherFile.

Definition files := string -> option file.
Definition write_file (fs : files) (p : string) (c : file) : files :=
  fun q => if String.eqb q p then Some c else fs q.

(** fmt {:04d}: decimal digits, padded with zeros to four. *)
Definition pad4 (d : Decimal.uint) : Decimal.uint :=
  match Decimal.nb_digits d with
  | 1%nat => D0 (D0 (D0 d))
  | 2%nat => D0 (D0 d)
  | 3%nat => D0 d
  | _ => d
  end.
Definition digits4 (n : nat) : string := NilZero.string_of_uint (pad4 (Nat.to_uint n)).

(** sophiread_core.cpp:514-516, 585-586. *)
Definition tiff_name (dir base : string) (bin : nat) : string :=
  (dir ++ "/" ++ base ++ "_bin_" ++ digits4 (bin + 1) ++ ".tiff")%string.
Definition spectra_name (dir base : string) : string :=
  (dir ++ "/" ++ base ++ "_Spectra.txt")%string.

(** A little endian uint32_t in memory. *)
Definition word_bytes (v : Z) : list Z :=
  [v mod 256; v / 256 mod 256; v / 65536 mod 256; v / 16777216 mod 256].
Definition row_bytes (row : list Z) : list Z := flat_map word_bytes row.

(** [n] words from memory; what lies behind the given bytes is zero. *)
Fixpoint words (n : nat) (bytes : list Z) : list Z :=
  match n with
  | O => []
  | S n' =>
      match bytes with
      | a :: b :: c :: d :: rest => le32 a b c d :: words n' rest
      | a :: b :: c :: _ => le32 a b c 0 :: words n' []
      | a :: b :: _ => le32 a b 0 0 :: words n' []
      | a :: _ => le32 a 0 0 0 :: words n' []
      | [] => 0 :: words n' []
      end
  end.

(** sophiread_core.cpp:535-536: a zeroed buffer of [width] words, overwritten
    from the start by the bytes of the scan line. *)
Definition read_scanline (width : Z) (bytes : list Z) : outcome (list Z) :=
  if zlen bytes >? 4 * width then UB OutOfBounds
  else Ok (words (Z.to_nat width) bytes).

(** sophiread_core.cpp:537-539: [width] columns of one row. *)
Fixpoint add_cols (n : nat) (row scan : list Z) : outcome (list Z) :=
  match n with
  | O => Ok row
  | S n' =>
      match row, scan with
      | v :: row', s :: scan' =>
          let! r := add_cols n' row' scan' in Ok (u32 (v + s) :: r)
      | _, _ => UB OutOfBounds
      end
  end.

(** sophiread_core.cpp:534-540: all rows of the image. *)
Fixpoint accumulate (width : Z) (im : image) (old : list (list Z)) : outcome image :=
  match im with
  | [] => Ok []
  | row :: im' =>
      let! scan := read_scanline width (hd [] old) in
      let! row' := add_cols (Z.to_nat width) row scan in
      let! rest := accumulate width im' (tl old) in
      Ok (row' :: rest)
  end.

(** sophiread_core.cpp:570-572: TIFFWriteScanline reads [width] words of every
    row. *)
Fixpoint write_rows (width : Z) (im : image) : outcome (list (list Z)) :=
  match im with
  | [] => Ok []
  | row :: im' =>
      if zlen row <? width then UB OutOfBounds
      else
        let! rest := write_rows width im' in
        Ok (row_bytes (firstn (Z.to_nat width) row) :: rest)
  end.

(** sophiread_core.cpp:513-578: one bin.  [writable] says whether a file can be
    opened for writing. *)
Definition save_bin (writable : string -> bool) (dir base : string)
    (fs : files) (bin : nat) (im : image) : outcome files :=
  let name := tiff_name dir base bin in
  match im with
  | [] => UB OutOfBounds
  | row0 :: _ =>
      let width := zlen row0 in
      let height := zlen im in
      let! acc :=
        match fs name with
        | Some (Tiff w h old) =>
            if (w =? width) && (h =? height) then accumulate width im old else Ok im
        | _ => Ok im
        end in
      if writable name then
        let! rows := write_rows width acc in
        Ok (write_file fs name (Tiff width height rows))
      else Ok fs
  end.

(** sophiread_core.cpp:509-580: the parallel loop, in some order of the bins. *)
Definition save_bins (writable : string -> bool) (dir base : string)
    (ims : list image) (order : list nat) (fs : files) : outcome files :=
  ofold (fun fs bin =>
    match nth_error ims bin with
    | Some im => save_bin writable dir base fs bin im
    | None => UB OutOfBounds
    end) order fs.

(** sophiread_core.cpp:495-594.  [mkdir] is false if the directory has to be
    created and create_directories fails. *)
Definition save_tiff (mkdir : bool) (writable : string -> bool) (dir base : string)
    (ims : list image) (edges : list f64) (order : list nat) (fs : files) : outcome files :=
  if negb mkdir then Throw ExternalError
  else
    let! fs1 := save_bins writable dir base ims order fs in
    if writable (spectra_name dir base) then
      let! rows := write_spectral edges (spectral_counts ims) in
      Ok (write_file fs1 (spectra_name dir base) (Spectrum rows))
    else Ok fs1.
