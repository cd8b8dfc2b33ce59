(** Model of the whole command line program: sophiread/SophireadCLI/src/
    sophiread.cpp:163-383 (main), from the arguments to the exit code and the files
    on disk.  HDF5 files and other files have different names; the input is not an
    output. *)
From Verif Require Export M_Config.
Local Open Scope string_scope.
Local Open Scope Z_scope.
Local Open Scope list_scope.

(** What main asks of its surroundings. *)
Record outside := Outside
  { env_stoull : string -> option Z;               (* std::stoull *)
    env_double : string -> f64;                    (* [ss >> value] for a double *)
    env_json : string -> option json;              (* nlohmann::json::parse *)
    env_config : string -> source;                 (* configuration files *)
    env_input : string -> option (list Z);         (* event files *)
    env_creates : list string -> string -> bool;   (* H5Fcreate while other files are open *)
    env_mkdir : string -> bool;                    (* the directory exists or can be made *)
    env_writable : string -> bool }.               (* a file can be opened for writing *)

Record store := Store { d_h5 : h5disk; d_files : files }.

(** return of main, or std::terminate: an H5::Exception is not a std::exception
    and passes the handlers of sophiread.cpp:329, 378. *)
Inductive exit_status := Exit (code : Z) | Terminate.

(** sophiread.cpp:378-381. *)
Definition catch {A} (o : outcome A) (d : store) (k : A -> outcome (exit_status * store)) : outcome (exit_status * store) :=
  match o with
  | Ok a => k a
  | Throw _ => Ok (Exit 1, d)
  | UB u => UB u
  | OutOfFuel => OutOfFuel
  end.

(** * The configuration, before the bin edges are computed *)

Record prefs := Prefs { e_abs : abs_cfg; e_sr : f64; e_bins : binning }.
(** json_config_parser.cpp:58-118 as called by the constructor and by toString. *)
Definition json_prefs (j : json) : outcome prefs :=
  let! b := json_binning j in
  let! radius := json_value ["abs"; "radius"] get_double (f_of_Z 5) j in
  let! size := json_value ["abs"; "min_cluster_size"] get_ulong 1 j in
  let! range := json_value ["abs"; "spider_time_range"] get_ulong 75 j in
  let! sr := json_value ["tof_imaging"; "super_resolution"] get_double (f_of_Z 1) j in
  Ok (Prefs (AbsCfg radius size range) sr b).
(** user_config.cpp:78-139; [None]: exit(1). *)
Definition text_prefs (read_double : string -> f64) (f : source) : outcome (option prefs) :=
  match f with
  | NoFile => Ok None
  | Unreadable => Ok (Some (Prefs default_abs (f_of_Z 1) default_binning))
  | Text s =>
      let! a := parse_lines read_double (lines_of s) in Ok (Some (Prefs a (f_of_Z 1) default_binning))
  end.
(** sophiread.cpp:191-215. *)
Definition load_prefs (w : outside) (name : string) : outcome (option prefs) :=
  if String.eqb name "" then let! e := json_prefs default_json in Ok (Some e)
  else if String.eqb (path_extension name) ".json" then
    match env_config w name with
    | Text s =>
        match env_json w s with
        | Some j => let! e := json_prefs j in Ok (Some e)
        | None => Throw RuntimeError
        end
    | _ => Throw RuntimeError
    end
  else text_prefs (env_double w) (env_config w name).

(** * The outputs *)

(** sophiread.cpp:223-228: one HDF5 file, if asked for; [None]: an H5::Exception. *)
Definition create (w : outside) (opened : list string) (name : string) (d : store) : option store :=
  if String.eqb name "" then Some d
  else if env_creates w opened name then Some (Store (put_file (d_h5 d) name []) (d_files d))
  else None.
(** sophiread.cpp:231-238: the bin edges and the empty images. *)
Definition needs_images (o : options) : bool :=
  negb (String.eqb (o_tiff o) "") || negb (String.eqb (o_spectra o) "").
Definition set_up (e : prefs) (o : options) : outcome (list f64 * option (list image)) :=
  if needs_images o then
    let! edges := get_bin_edges (e_bins e) in
    let! ims := init_images (e_sr e) edges in
    Ok (edges, Some ims)
  else Ok ([], None).
(** sophiread.cpp:334-340: what the HDF5 files contain when they are closed. *)
Definition close_file (name : string) (f : option h5file) (d : h5disk) : h5disk :=
  match f with Some c => put_file d name c | None => d end.
Definition close_files (o : options) (st : cli) (d : store) : store :=
  Store (close_file (o_events o) (c_events st) (close_file (o_hits o) (c_hits st) (d_h5 d))) (d_files d).

(** sophiread.cpp:219-376, when both HDF5 files have been created. *)
Definition run_rest (fuel : nat) (ext : externals) (w : outside) (order : list nat) (e : prefs) (o : options)
    (r : reader) (d : store) : outcome (exit_status * store) :=
  catch (set_up e o) d (fun '(edges, ims) =>
  let cfg := Config (e_abs e) (e_sr e) edges in
  let st0 := Cli ts0 (if String.eqb (o_hits o) "" then None else Some [])
                     (if String.eqb (o_events o) "" then None else Some []) ims 0 0 in
  let md := if String.eqb (o_timing o) "gdc" then GDC_mode else TDC_mode in
  catch (chunk_loop fuel ext cfg md (String.eqb (o_mode o) "hit") (o_chunk o) r st0) d (fun st =>
  let d1 := close_files o st d in
  let l := match c_images st with Some l => l | None => [] end in
  catch (if String.eqb (o_tiff o) "" then Ok (d_files d1)
         else save_tiff (env_mkdir w (o_tiff o)) (env_writable w) (o_tiff o) (o_base o) l edges order (d_files d1))
        d1 (fun fs1 =>
  let name := (o_spectra o ++ ".txt")%string in
  catch (if String.eqb (o_spectra o) "" then Ok fs1
         else if env_writable w name then
           let! rows := write_spectral edges (spectral_counts l) in Ok (write_file fs1 name (Spectrum rows))
         else Ok fs1)
        (Store (d_h5 d1) fs1) (fun fs2 => Ok (Exit 0, Store (d_h5 d1) fs2))))).

(** sophiread.cpp:163-383.  [order] is the order in which the bins are saved. *)
Definition program (fuel : nat) (ext : externals) (w : outside) (order : list nat) (args : list arg) (d : store)
  : outcome (exit_status * store) :=
  catch (parse_arguments (env_stoull w) args) d (fun o =>
  catch (load_prefs w (o_config o)) d (fun s =>
  match s with
  | None => Ok (Exit 1, d)
  | Some e =>
      catch (open_reader (env_input w (o_input o))) d (fun r =>
      match create w [] (o_hits o) d with
      | None => Ok (Terminate, d)
      | Some d1 =>
          match create w (if String.eqb (o_hits o) "" then [] else [o_hits o]) (o_events o) d1 with
          | None => Ok (Terminate, d1)
          | Some d2 => run_rest fuel ext w order e o r d2
          end
      end)
  end)).
