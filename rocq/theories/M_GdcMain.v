(** Model of the program of the GDC extractor, from its arguments to the exit code
    and the files on disk: sophiread/SophireadCLI/src/main_gdc_extractor.cpp:86-110
    with the effects of gdc_extractor.cpp:23-141 on the output file.

    The disk maps file names to bytes; two names are two files, directories are
    not part of it.  [room] is the number of bytes of the output that reach the
    disk, [None] if all do.  A stream does not throw on a failed write, so
    gdc_extractor.cpp:76-80 and 86-96 always return true.  The output is far shorter
    than the buffer of the stream when the input is opened: the header line is
    not on disk then. *)
From Coq Require Import Ascii DecimalString.
From Verif Require Export M_Gdc.
Local Open Scope Z_scope.
Local Open Scope list_scope.

Definition gdisk := string -> option (list Z).
Definition gput (d : gdisk) (name : string) (bytes : list Z) : gdisk :=
  fun n => if String.eqb n name then Some bytes else d n.

(** std::ofstream(name, std::ios::app) and closing it. *)
Definition gtouch (d : gdisk) (name : string) : gdisk :=
  match d name with Some _ => d | None => gput d name [] end.

(** * The text *)

Definition codes (s : string) : list Z := map (fun a => Z.of_N (N_of_ascii a)) (list_ascii_of_string s).

(** std::ostream << for integers. *)
Definition in_decimal (z : Z) : list Z := codes (NilZero.string_of_int (Z.to_int z)).

(** gdc_extractor.cpp:76. *)
Definition csv_header : list Z := codes "chip_id,gdc_value,file_offset,timestamp_ns" ++ [10].

(** gdc_extractor.cpp:88-90. *)
Definition row_text (r : row) : list Z :=
  in_decimal (row_chip r) ++ codes "," ++ in_decimal (row_value r) ++ codes "," ++ in_decimal (row_offset r) ++ codes "," ++
  in_decimal (row_ns r) ++ [10].
Definition csv_text (rows : list row) : list Z := csv_header ++ flat_map row_text rows.

(** The part of a text that reaches the disk. *)
Definition stored (room : option nat) (text : list Z) : list Z :=
  match room with None => text | Some n => firstn n text end.

(** * The program *)

(** gdc_extractor.cpp:23-69, with the output file made by line 53. *)
Definition gdc_validate_on (e : gdc_env) (o : gdc_options) (d : gdisk) : bool * gdisk :=
  if negb (ge_exists e (go_input o)) then (false, d)
  else if negb (ge_readable e (go_input o)) then (false, d)
  else if negb (ge_dir_ok e (go_output o)) then (false, d)
  else if negb (ge_writable e (go_output o)) then (false, d)
  else
    let d1 := gtouch d (go_output o) in
    if (go_chunk o <? 1 * 1024 * 1024) || (go_chunk o >? 20 * 1024 * 1024 * 1024) then (false, d1)
    else (true, d1).

(** gdc_extractor.cpp:99-141 and main_gdc_extractor.cpp:99-109: the output is
    emptied before the input is opened; closing the stream writes what was put
    into it, also if the function is left by an exception. *)
Definition gdc_process_on (fuel : nat) (room : option nat) (e : gdc_env) (o : gdc_options) (d : gdisk)
  : outcome (Z * gdisk) :=
  let emptied := gput d (go_output o) [] in
  match gdc_process fuel (ge_writable e (go_output o)) (emptied (go_input o)) (go_chunk o) with
  | Ok None => Ok (1, d)
  | Ok (Some rows) => Ok (0, gput d (go_output o) (stored room (csv_text rows)))
  | Throw _ => Ok (1, gput d (go_output o) (stored room (csv_text [])))
  | UB u => UB u
  | OutOfFuel => OutOfFuel
  end.

(** main_gdc_extractor.cpp:28-110. *)
Definition gdc_main (fuel : nat) (stoull : string -> option Z) (room : option nat) (e : gdc_env)
  (args : list gdc_arg) (d : gdisk) : outcome (Z * gdisk) :=
  match ofold (parse_gdc_arg stoull) args default_gdc_options with
  | Ok o =>
      if String.eqb (go_input o) "" then Ok (1, d)
      else if String.eqb (go_output o) "" then Ok (1, d)
      else
        let (valid, d1) := gdc_validate_on e o d in
        if negb valid then Ok (1, d1) else gdc_process_on fuel room e o d1
  | Throw _ => Ok (1, d)
  | UB u => UB u
  | OutOfFuel => OutOfFuel
  end.
