(** Model of the auto reducer: sophiread/SophireadCLI/src/venus_auto_reducer.cpp
    (58-110, 122-226), readTPX3RawToCharVec in
    sophiread/FastSophiread/src/disk_io.cpp (24-49).  Logging and waiting are
    omitted. *)
From Coq Require Import Ascii.
From Verif Require Export M_Cli.
Local Open Scope Z_scope.
Local Open Scope list_scope.

(** * File names *)

(** The part before the last dot and the part from it on; [None] without dot. *)
Fixpoint split_last_dot (s : string) : option (string * string) :=
  match s with
  | EmptyString => None
  | String c r =>
      match split_last_dot r with
      | Some (a, b) => Some (String c a, b)
      | None => if Ascii.eqb c "."%char then Some (EmptyString, s) else None
      end
  end.
(** std::filesystem::path::stem and extension of a file name other than "." and
    "..": a dot at the front does not start an extension. *)
Definition stem_ext (s : string) : string * string :=
  match split_last_dot s with
  | Some (EmptyString, _) => (s, EmptyString)
  | Some (a, b) => (a, b)
  | None => (s, EmptyString)
  end.
Definition stem (s : string) : string := fst (stem_ext s).
Definition extension (s : string) : string := snd (stem_ext s).

(** * One file *)

(** What the outside world does while a file is processed: whether the output
    directory exists or can be created, which files can be opened for writing,
    the order in which the parallel loop saves the bins, and whether an exception
    (such as bad_alloc) leaves that loop after the bins [w_fault]. *)
Record world := World
  { w_mkdir : bool; w_writable : string -> bool; w_order : list nat; w_fault : option (list nat) }.

(** A directory entry at the time it is visited; [None]: the file cannot be
    opened. *)
Record dir_entry := DirEntry
  { d_name : string; d_regular : bool; d_content : option (list Z); d_world : world }.

(** The settings that do not change. *)
Record setup := Setup
  { su_ext : externals; su_cfg : config; su_hit : bool; su_dir : string; su_base : string }.

(** How the processing of a file ends: saved, stopped by an exception that is
    caught, or by exit(). *)
Inductive ending := EndSaved (ims : list image) | EndFailed | EndExit.

Definition save_in_world (su : setup) (w : world) (ims : list image) (fs : files)
  : outcome (ending * files) :=
  match w_fault w with
  | Some done =>
      if w_mkdir w then
        let! fs' := save_bins (w_writable w) (su_dir su) (su_base su) ims done fs in Ok (EndFailed, fs')
      else Ok (EndFailed, fs)
  | None =>
      match save_tiff (w_mkdir w) (w_writable w) (su_dir su) (su_base su) ims (g_edges (su_cfg su))
              (w_order w) fs with
      | Ok fs' => Ok (EndSaved ims, fs')
      | Throw _ => Ok (EndFailed, fs)
      | UB u => UB u
      | OutOfFuel => OutOfFuel
      end
  end.

(** venus_auto_reducer.cpp:147-181: the try block for one file. *)
Definition reduce_file (su : setup) (e : dir_entry) (s : ts) (fs : files)
  : outcome (ending * ts * files) :=
  match d_content e with
  | None => Ok (EndExit, s, fs)
  | Some m =>
      match locate GDC_mode (find_headers m) m (zlen m) s with
      | Ok (bs, s1) =>
          let result :=
            let! bs' := process_all (su_ext su) (g_abs (su_cfg su)) GDC_mode m bs in
            create_images (g_sr (su_cfg su)) (g_edges (su_cfg su)) (su_hit su) bs' in
          match result with
          | Ok ims =>
              let! (r, fs') := save_in_world su (d_world e) ims fs in Ok (r, s1, fs')
          | Throw _ => Ok (EndFailed, s1, fs)
          | UB u => UB u
          | OutOfFuel => OutOfFuel
          end
      | Throw _ => Ok (EndFailed, s, fs)
      | UB u => UB u
      | OutOfFuel => OutOfFuel
      end
  end.

(** * A scan of the directory *)

(** The set of processed stems and the file system.  [v_log] lists what happened
    to the files (for the statements only). *)
Inductive event := Saved (name : string) (ims : list image) | Failed (name : string).
Record venus := Venus { v_processed : list string; v_files : files; v_log : list event }.

Definition is_raw (e : dir_entry) : bool :=
  d_regular e && String.eqb (extension (d_name e)) ".tpx3".
Definition seen (st : venus) (e : dir_entry) : bool :=
  existsb (String.eqb (stem (d_name e))) (v_processed st).

(** venus_auto_reducer.cpp:136-183.  The result says whether the program ended. *)
Fixpoint scan_entries (su : setup) (es : list dir_entry) (s : ts) (st : venus)
  : outcome (bool * venus) :=
  match es with
  | [] => Ok (false, st)
  | e :: es' =>
      if is_raw e && negb (seen st e) then
        let! (r, s', fs') := reduce_file su e s (v_files st) in
        match r with
        | EndExit => Ok (true, st)
        | EndFailed =>
            scan_entries su es' s' (Venus (v_processed st) fs' (v_log st ++ [Failed (d_name e)]))
        | EndSaved ims =>
            scan_entries su es' s'
              (Venus (stem (d_name e) :: v_processed st) fs' (v_log st ++ [Saved (d_name e) ims]))
        end
      else scan_entries su es' s st
  end.
(** venus_auto_reducer.cpp:122-198: the timestamps start at zero in every scan. *)
Definition scan_dir (su : setup) (es : list dir_entry) (st : venus) : outcome (bool * venus) :=
  scan_entries su es ts0 st.

(** * Monitoring *)

(** venus_auto_reducer.cpp:212-213. *)
Definition is_stop (x : string * bool) : bool :=
  snd x && String.eqb (extension (fst x)) ".h5" && String.eqb (extension (stem (fst x))) ".nxs".

(** One round: the names seen by the check (and whether they are regular files),
    then the entries seen by the scan. *)
Record round := Round { rd_check : list (string * bool); rd_scan : list dir_entry }.
Inductive status := Running | Stopped | Exited.

(** venus_auto_reducer.cpp:209-225, as far as the given rounds go. *)
Fixpoint monitor (su : setup) (rs : list round) (st : venus) : outcome (status * venus) :=
  match rs with
  | [] => Ok (Running, st)
  | r :: rs' =>
      if existsb is_stop (rd_check r) then Ok (Stopped, st)
      else
        let! (quit, st') := scan_dir su (rd_scan r) st in
        if quit : bool then Ok (Exited, st') else monitor su rs' st'
  end.
(** venus_auto_reducer.cpp:262-264. *)
Definition venus_start (fs : files) : venus := Venus [] fs [].

(** * Command line *)

(** venus_auto_reducer.cpp:28-37. *)
Record venus_options := VOpt
  { vo_in : string; vo_out : string; vo_config : string; vo_base : string; vo_mode : string;
    vo_interval : Z; vo_verbose : bool; vo_debug : bool }.
Definition default_venus_options : venus_options := VOpt "" "" "" "tof_image" "neutron" 5 false false.
Inductive varg :=
| Vi (s : string) | Vo (s : string) | Vu (s : string) | Vf (s : string) | Vm (s : string)
| Vc (s : string) | Vd | Vv | Vbad.
(** venus_auto_reducer.cpp:62-91; [stoi] is std::stoi, [None] if it throws. *)
Definition parse_varg (stoi : string -> option Z) (o : venus_options) (a : varg) : outcome venus_options :=
  match a with
  | Vi s => Ok (VOpt s (vo_out o) (vo_config o) (vo_base o) (vo_mode o) (vo_interval o) (vo_verbose o) (vo_debug o))
  | Vo s => Ok (VOpt (vo_in o) s (vo_config o) (vo_base o) (vo_mode o) (vo_interval o) (vo_verbose o) (vo_debug o))
  | Vu s => Ok (VOpt (vo_in o) (vo_out o) s (vo_base o) (vo_mode o) (vo_interval o) (vo_verbose o) (vo_debug o))
  | Vf s => Ok (VOpt (vo_in o) (vo_out o) (vo_config o) s (vo_mode o) (vo_interval o) (vo_verbose o) (vo_debug o))
  | Vm s => Ok (VOpt (vo_in o) (vo_out o) (vo_config o) (vo_base o) s (vo_interval o) (vo_verbose o) (vo_debug o))
  | Vc s =>
      match stoi s with
      | Some n => Ok (VOpt (vo_in o) (vo_out o) (vo_config o) (vo_base o) (vo_mode o) n (vo_verbose o) (vo_debug o))
      | None => Throw ExternalError
      end
  | Vd => Ok (VOpt (vo_in o) (vo_out o) (vo_config o) (vo_base o) (vo_mode o) (vo_interval o) (vo_verbose o) true)
  | Vv => Ok (VOpt (vo_in o) (vo_out o) (vo_config o) (vo_base o) (vo_mode o) (vo_interval o) true (vo_debug o))
  | Vbad => Throw RuntimeError
  end.
(** venus_auto_reducer.cpp:57-110. *)
Definition parse_venus (stoi : string -> option Z) (args : list varg) : outcome venus_options :=
  let! o := ofold (parse_varg stoi) args default_venus_options in
  if String.eqb (vo_in o) "" || String.eqb (vo_out o) "" then Throw RuntimeError
  else if negb (String.eqb (vo_mode o) "hit") && negb (String.eqb (vo_mode o) "neutron") then Throw RuntimeError
  else if vo_interval o <=? 0 then Throw RuntimeError
  else Ok o.
