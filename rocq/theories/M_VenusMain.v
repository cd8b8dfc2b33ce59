(** Model of the program of the auto reducer: sophiread/SophireadCLI/src/
    venus_auto_reducer.cpp:228-274 (main), from the arguments and what the directory
    shows to the exit code and the files on disk. *)
From Verif Require Export M_Venus M_Program.
Local Open Scope string_scope.
Local Open Scope Z_scope.
Local Open Scope list_scope.

(** venus_auto_reducer.cpp:248-260: always JSON; toString reads all settings but the
    bin edges. *)
Definition venus_prefs (parse : string -> option json) (name : string) (f : source) : outcome prefs :=
  if String.eqb name "" then json_prefs default_json
  else
    match f with
    | Text s => match parse s with Some j => json_prefs j | None => Throw RuntimeError end
    | _ => Throw RuntimeError
    end.

(** What does not change while the program runs. *)
Record job := Job { j_ext : externals; j_prefs : prefs; j_hit : bool; j_dir : string; j_base : string }.
Definition job_setup (j : job) (edges : list f64) : setup :=
  Setup (j_ext j) (Config (e_abs (j_prefs j)) (e_sr (j_prefs j)) edges) (j_hit j) (j_dir j) (j_base j).

(** venus_auto_reducer.cpp:147-181: the bin edges are computed for every file, after
    the hits have been clustered (line 167). *)
Definition reduce_job (j : job) (e : dir_entry) (s : ts) (fs : files) : outcome (ending * ts * files) :=
  match get_bin_edges (e_bins (j_prefs j)) with
  | Ok edges => reduce_file (job_setup j edges) e s fs
  | bad =>
      match d_content e with
      | None => Ok (EndExit, s, fs)
      | Some m =>
          match locate GDC_mode (find_headers m) m (zlen m) s with
          | Ok (bs, s1) =>
              match (let! _ := process_all (j_ext j) (e_abs (j_prefs j)) GDC_mode m bs in bad) with
              | Ok _ | Throw _ => Ok (EndFailed, s1, fs)
              | UB u => UB u
              | OutOfFuel => OutOfFuel
              end
          | Throw _ => Ok (EndFailed, s, fs)
          | UB u => UB u
          | OutOfFuel => OutOfFuel
          end
      end
  end.

(** venus_auto_reducer.cpp:136-183 as in M_Venus, with that. *)
Fixpoint scan_job (j : job) (es : list dir_entry) (s : ts) (st : venus) : outcome (bool * venus) :=
  match es with
  | [] => Ok (false, st)
  | e :: es' =>
      if is_raw e && negb (seen st e) then
        let! (r, s', fs') := reduce_job j e s (v_files st) in
        match r with
        | EndExit => Ok (true, st)
        | EndFailed =>
            scan_job j es' s' (Venus (v_processed st) fs' (v_log st ++ [Failed (d_name e)]))
        | EndSaved ims =>
            scan_job j es' s'
              (Venus (stem (d_name e) :: v_processed st) fs' (v_log st ++ [Saved (d_name e) ims]))
        end
      else scan_job j es' s st
  end.

(** A round in which the directory may fail to be listed, at once or after some
    entries (lines 136, 211: fs::filesystem_error). *)
Record visit := Visit
  { vs_check : list (string * bool); vs_check_ok : bool; vs_scan : list dir_entry; vs_scan_ok : bool }.

(** venus_auto_reducer.cpp:209-225; the exit code, or [None] if the program still
    runs after the given rounds. *)
Fixpoint monitor_job (j : job) (vs : list visit) (st : venus) : outcome (option Z * venus) :=
  match vs with
  | [] => Ok (None, st)
  | v :: vs' =>
      if existsb is_stop (vs_check v) then Ok (Some 0, st)
      else if negb (vs_check_ok v) then Ok (Some 1, st)
      else
        let! (quit, st') := scan_job j (vs_scan v) ts0 st in
        if quit : bool then Ok (Some 1, st')
        else if negb (vs_scan_ok v) then Ok (Some 1, st')
        else monitor_job j vs' st'
  end.

(** venus_auto_reducer.cpp:228-274. *)
Definition venus_main (ext : externals) (stoi : string -> option Z) (parse : string -> option json)
    (conf : string -> source) (args : list varg) (vs : list visit) (fs : files) : outcome (option Z * venus) :=
  match parse_venus stoi args with
  | Ok o =>
      match venus_prefs parse (vo_config o) (conf (vo_config o)) with
      | Ok e => monitor_job (Job ext e (String.eqb (vo_mode o) "hit") (vo_out o) (vo_base o)) vs (venus_start fs)
      | Throw _ => Ok (Some 1, venus_start fs)
      | UB u => UB u
      | OutOfFuel => OutOfFuel
      end
  | Throw _ => Ok (Some 1, venus_start fs)
  | UB u => UB u
  | OutOfFuel => OutOfFuel
  end.
