(** Model of the reading in chunks (sophiread/FastSophiread/src/disk_io.cpp
    437-497) and of the command line program sophiread/SophireadCLI/src/
    sophiread.cpp (87-375).  Logging, timing and progress are omitted; the HDF5
    library does not fail (see [create_or_extend] for what happens if it does). *)
From Verif Require Export M_Parallel M_Tiff M_Hdf5.
Local Open Scope Z_scope.
Local Open Scope list_scope.

(** * Reading in chunks *)

(** disk_io.h:101-105: the mapped file and the position. *)
Record reader := Reader { r_map : list Z; r_pos : Z }.

(** disk_io.cpp:437-462; [None]: the file cannot be opened.  mmap fails for
    length 0. *)
Definition open_reader (content : option (list Z)) : outcome reader :=
  match content with
  | None => Throw RuntimeError
  | Some [] => Throw RuntimeError
  | Some m => Ok (Reader m 0)
  end.

(** disk_io.h:97. *)
Definition is_eof (r : reader) : bool := r_pos r >=? zlen (r_map r).

(** disk_io.cpp:481-497. *)
Definition read_chunk (size : Z) (r : reader) : list Z * reader :=
  if r_pos r >=? zlen (r_map r) then ([], r)
  else
    let n := Z.min size (zlen (r_map r) - r_pos r) in
    (firstn (Z.to_nat n) (skipn (Z.to_nat (r_pos r)) (r_map r)),
     Reader (r_map r) (r_pos r + n)).

(** * Command line *)

(** sophiread.cpp:32-45. *)
Record options := Options
  { o_input : string; o_hits : string; o_events : string; o_config : string;
    o_tiff : string; o_base : string; o_mode : string; o_spectra : string;
    o_timing : string; o_chunk : Z; o_debug : bool; o_verbose : bool }.
Definition default_options : options :=
  Options "" "" "" "" "" "tof_image" "neutron" "Spectra" "tdc"
          (5 * 1024 * 1024 * 1024) false false.

(** What getopt returns: an option with its argument, or '?'. *)
Inductive arg :=
| Ai (s : string) | AH (s : string) | AE (s : string) | Au (s : string)
| AT (s : string) | Af (s : string) | Am (s : string) | At (s : string)
| As (s : string) | Ac (s : string) | Ad | Av | Abad.

(** sophiread.cpp:93-133: one option.  [stoull] is std::stoull, [None] if it
    throws. *)
Definition parse_arg (stoull : string -> option Z) (o : options) (a : arg) : outcome options :=
  match a with
  | Ai s => Ok (Options s (o_hits o) (o_events o) (o_config o) (o_tiff o) (o_base o) (o_mode o) (o_spectra o) (o_timing o) (o_chunk o) (o_debug o) (o_verbose o))
  | AH s => Ok (Options (o_input o) s (o_events o) (o_config o) (o_tiff o) (o_base o) (o_mode o) (o_spectra o) (o_timing o) (o_chunk o) (o_debug o) (o_verbose o))
  | AE s => Ok (Options (o_input o) (o_hits o) s (o_config o) (o_tiff o) (o_base o) (o_mode o) (o_spectra o) (o_timing o) (o_chunk o) (o_debug o) (o_verbose o))
  | Au s => Ok (Options (o_input o) (o_hits o) (o_events o) s (o_tiff o) (o_base o) (o_mode o) (o_spectra o) (o_timing o) (o_chunk o) (o_debug o) (o_verbose o))
  | AT s => Ok (Options (o_input o) (o_hits o) (o_events o) (o_config o) s (o_base o) (o_mode o) (o_spectra o) (o_timing o) (o_chunk o) (o_debug o) (o_verbose o))
  | Af s => Ok (Options (o_input o) (o_hits o) (o_events o) (o_config o) (o_tiff o) s (o_mode o) (o_spectra o) (o_timing o) (o_chunk o) (o_debug o) (o_verbose o))
  | Am s => Ok (Options (o_input o) (o_hits o) (o_events o) (o_config o) (o_tiff o) (o_base o) s (o_spectra o) (o_timing o) (o_chunk o) (o_debug o) (o_verbose o))
  | As s => Ok (Options (o_input o) (o_hits o) (o_events o) (o_config o) (o_tiff o) (o_base o) (o_mode o) s (o_timing o) (o_chunk o) (o_debug o) (o_verbose o))
  | At s => Ok (Options (o_input o) (o_hits o) (o_events o) (o_config o) (o_tiff o) (o_base o) (o_mode o) (o_spectra o) s (o_chunk o) (o_debug o) (o_verbose o))
  | Ac s =>
      match stoull s with
      | Some n => Ok (Options (o_input o) (o_hits o) (o_events o) (o_config o) (o_tiff o) (o_base o) (o_mode o) (o_spectra o) (o_timing o) (u64 (u64 (n * 1024) * 1024)) (o_debug o) (o_verbose o))
      | None => Throw ExternalError
      end
  | Ad => Ok (Options (o_input o) (o_hits o) (o_events o) (o_config o) (o_tiff o) (o_base o) (o_mode o) (o_spectra o) (o_timing o) (o_chunk o) true (o_verbose o))
  | Av => Ok (Options (o_input o) (o_hits o) (o_events o) (o_config o) (o_tiff o) (o_base o) (o_mode o) (o_spectra o) (o_timing o) (o_chunk o) (o_debug o) true)
  | Abad => Throw RuntimeError
  end.

(** sophiread.cpp:87-154. *)
Definition parse_arguments (stoull : string -> option Z) (args : list arg) : outcome options :=
  let! o := ofold (parse_arg stoull) args default_options in
  if String.eqb (o_input o) "" then Throw RuntimeError
  else if negb (String.eqb (o_mode o) "hit") && negb (String.eqb (o_mode o) "neutron") then Throw RuntimeError
  else if negb (String.eqb (o_timing o) "gdc") && negb (String.eqb (o_timing o) "tdc") then Throw RuntimeError
  else Ok o.

(** * The main program *)

(** iconfig.h: the part of the configuration that is used here. *)
Record config := Config { g_abs : abs_cfg; g_sr : f64; g_edges : list f64 }.

(** The variables of main that live across chunks; a file or image stack that is
    not asked for is [None]. *)
Record cli := Cli
  { c_ts : ts; c_hits : option h5file; c_events : option h5file;
    c_images : option (list image); c_nhits : Z; c_nneutrons : Z }.

Definition set_ts (st : cli) (s : ts) : cli :=
  Cli s (c_hits st) (c_events st) (c_images st) (c_nhits st) (c_nneutrons st).

(** sophiread.cpp:284-314: the statements for one batch. *)
Definition put_hits (b : batch) (st : cli) : outcome cli :=
  match c_hits st with
  | None => Ok st
  | Some f =>
      let! f' := append_hits no_fault f (t_hits b) in
      Ok (Cli (c_ts st) (Some f') (c_events st) (c_images st) (c_nhits st) (c_nneutrons st))
  end.
Definition put_events (b : batch) (st : cli) : outcome cli :=
  match c_events st with
  | None => Ok st
  | Some f =>
      let (r, f') := append_neutrons no_fault f (t_neutrons b) in
      let! _ := r in
      Ok (Cli (c_ts st) (c_hits st) (Some f') (c_images st) (c_nhits st) (c_nneutrons st))
  end.
Definition put_images (cfg : config) (hit_mode : bool) (b : batch) (st : cli) : outcome cli :=
  match c_images st with
  | None => Ok st
  | Some ims =>
      let! ims' := update_images (g_sr cfg) (g_edges cfg) hit_mode ims b in
      Ok (Cli (c_ts st) (c_hits st) (c_events st) (Some ims') (c_nhits st) (c_nneutrons st))
  end.
Definition put_counts (b : batch) (st : cli) : outcome cli :=
  Ok (Cli (c_ts st) (c_hits st) (c_events st) (c_images st)
          (u64 (c_nhits st + zlen (t_hits b))) (u64 (c_nneutrons st + zlen (t_neutrons b)))).
Definition statements (cfg : config) (hit_mode : bool) (b : batch) : list (cli -> outcome cli) :=
  [put_hits b; put_events b; put_images cfg hit_mode b; put_counts b].

(** A sequence of statements in a try block: an exception ends it and leaves
    what was done before. *)
Fixpoint try_all (acts : list (cli -> outcome cli)) (st : cli) : outcome (cli * option exn_kind) :=
  match acts with
  | [] => Ok (st, None)
  | a :: rest =>
      match a st with
      | Ok st' => try_all rest st'
      | Throw e => Ok (st, Some e)
      | UB u => UB u
      | OutOfFuel => OutOfFuel
      end
  end.

(** sophiread.cpp:253-331: one chunk; the exception that was caught, if any.
    The parallel processing is run in sequence (C17). *)
Definition run_chunk (ext : externals) (cfg : config) (md : mode_t) (hit_mode : bool)
    (st : cli) (chunk : list Z) : outcome (cli * option exn_kind) :=
  match locate md (find_headers chunk) chunk (zlen chunk) (c_ts st) with
  | Ok (bs, s) =>
      let st1 := set_ts st s in
      match process_all ext (g_abs cfg) md chunk bs with
      | Ok bs' => try_all (flat_map (statements cfg hit_mode) bs') st1
      | Throw e => Ok (st1, Some e)
      | UB u => UB u
      | OutOfFuel => OutOfFuel
      end
  | Throw e => Ok (st, Some e)
  | UB u => UB u
  | OutOfFuel => OutOfFuel
  end.

(** sophiread.cpp:252-332: the loop over the chunks. *)
Fixpoint chunk_loop (fuel : nat) (ext : externals) (cfg : config) (md : mode_t) (hit_mode : bool)
    (size : Z) (r : reader) (st : cli) : outcome cli :=
  if is_eof r then Ok st
  else
    match fuel with
    | O => OutOfFuel
    | S fuel' =>
        match read_chunk size r with
        | ([], _) => Ok st
        | (chunk, r') =>
            let! (st', _) := run_chunk ext cfg md hit_mode st chunk in
            chunk_loop fuel' ext cfg md hit_mode size r' st'
        end
    end.

(** sophiread.cpp:219-239: outputs before the first chunk. *)
Definition init_cli (cfg : config) (o : options) : outcome cli :=
  let! ims :=
    if negb (String.eqb (o_tiff o) "") || negb (String.eqb (o_spectra o) "") then
      let! l := init_images (g_sr cfg) (g_edges cfg) in Ok (Some l)
    else Ok None in
  Ok (Cli ts0 (if String.eqb (o_hits o) "" then None else Some [])
              (if String.eqb (o_events o) "" then None else Some []) ims 0 0).

(** sophiread.cpp:215-375: main after the configuration has been loaded.  The
    result is the final state and the files written at the end.  An exception
    that leaves this is logged and the program returns 1. *)
Definition run_main (fuel : nat) (ext : externals) (cfg : config) (o : options)
    (content : option (list Z)) (mkdir : bool) (writable : string -> bool) (order : list nat)
    (fs : files) : outcome (cli * files) :=
  let! r := open_reader content in
  let! st0 := init_cli cfg o in
  let md := if String.eqb (o_timing o) "gdc" then GDC_mode else TDC_mode in
  let hm := String.eqb (o_mode o) "hit" in
  let! st := chunk_loop fuel ext cfg md hm (o_chunk o) r st0 in
  let ims := match c_images st with Some l => l | None => [] end in
  let! fs1 :=
    if String.eqb (o_tiff o) "" then Ok fs
    else save_tiff mkdir writable (o_tiff o) (o_base o) ims (g_edges cfg) order fs in
  let! fs2 :=
    if String.eqb (o_spectra o) "" then Ok fs1
    else if writable (o_spectra o ++ ".txt")%string then
      let! rows := write_spectral (g_edges cfg) (spectral_counts ims) in
      Ok (write_file fs1 (o_spectra o ++ ".txt")%string (Spectrum rows))
    else Ok fs1 in
  Ok (st, fs2).
