(** Model of the GDC extractor: sophiread/FastSophiread/src/gdc_processor.cpp,
    sophiread/SophireadCLI/src/gdc_extractor.cpp and main_gdc_extractor.cpp. *)
From Verif Require Export M_Tpx3 M_Cli.
Local Open Scope Z_scope.
Local Open Scope list_scope.

(** gdc_processor.h:18-25. *)
Record gdc_record := GRec { gr_chip : Z; gr_value : Z; gr_offset : Z }.

(** gdc_processor.cpp:38-39: four bytes here, three in tpx3_fast.cpp. *)
Definition is_tpx3 (p : packet) : bool :=
  (b0 p =? 84) && (b1 p =? 80) && (b2 p =? 88) && (b3 p =? 51).

(** gdc_processor.cpp:54-55. *)
Definition msb_packet (p : packet) : bool :=
  Z.land (Z.shiftr (Z.land (Z.shiftr (le64 p) 16) 0xFFFFFFFFFFFF) 40) 0xF =? 0x5.

(** gdc_processor.cpp:27-76: the loop over the chunk from the byte [offset] on;
    the object's [timer] and [gdc] persist. *)
Fixpoint gdc_loop (data : list Z) (base offset chip timer gdc : Z) (records : list gdc_record)
  : list gdc_record * (Z * Z) :=
  match data with
  | a0 :: a1 :: a2 :: a3 :: a4 :: a5 :: a6 :: a7 :: rest =>
      let p := Packet a0 a1 a2 a3 a4 a5 a6 a7 in
      if is_tpx3 p then gdc_loop rest base (offset + 8) (schar (b4 p)) timer gdc records
      else if is_gdc p then
        let (timer', gdc') := update_gdc p timer gdc in
        let records' :=
          if msb_packet p && negb (gdc' =? 0) && (chip >=? 0)
          then records ++ [GRec chip gdc' (u64 (base + offset))] else records in
        gdc_loop rest base (offset + 8) chip timer' gdc' records'
      else gdc_loop rest base (offset + 8) chip timer gdc records
  | _ => (records, (timer, gdc))
  end.

(** gdc_processor.cpp:17-80. *)
Definition process_gdc_chunk (data : list Z) (base : Z) (s : Z * Z) : list gdc_record * (Z * Z) :=
  gdc_loop data base 0 (-1) (fst s) (snd s) [].

(** gdc_extractor.cpp:87-91: a line of the CSV file. *)
Record row := Row { row_chip : Z; row_value : Z; row_offset : Z; row_ns : Z }.
Definition row_of (r : gdc_record) : row :=
  Row (gr_chip r) (gr_value r) (gr_offset r) (u64 (gr_value r * 25)).

(** gdc_extractor.cpp:120-137: the chunks; writing to the open file does not
    fail.  The result is the lines written and the final state. *)
Fixpoint gdc_chunks (fuel : nat) (size : Z) (r : reader) (processed : Z) (s : Z * Z) (rows : list row)
  : outcome (list row * (Z * Z)) :=
  if is_eof r then Ok (rows, s)
  else
    match fuel with
    | O => OutOfFuel
    | S fuel' =>
        match read_chunk size r with
        | ([], _) => Ok (rows, s)
        | (chunk, r') =>
            let (records, s') := process_gdc_chunk chunk processed s in
            gdc_chunks fuel' size r' (u64 (processed + zlen chunk)) s' (rows ++ map row_of records)
        end
    end.

(** gdc_extractor.cpp:99-141: [None] is the result false (the output cannot be
    opened); [Some] the lines after the header line. *)
Definition gdc_process (fuel : nat) (out_ok : bool) (content : option (list Z)) (size : Z)
  : outcome (option (list row)) :=
  if negb out_ok then Ok None
  else
    let! r := open_reader content in
    let! (rows, _) := gdc_chunks fuel size r 0 (0, 0) [] in
    Ok (Some rows).

(** * Command line *)

(** gdc_extractor.h:20-25. *)
Record gdc_options := GOpt { go_input : string; go_output : string; go_chunk : Z; go_debug : bool; go_verbose : bool }.
Definition default_gdc_options : gdc_options := GOpt "" "" (5 * 1024 * 1024 * 1024) false false.
Inductive gdc_arg := Gi (s : string) | Go (s : string) | Gc (s : string) | Gd | Gv | Gbad.

(** main_gdc_extractor.cpp:33-62. *)
Definition parse_gdc_arg (stoull : string -> option Z) (o : gdc_options) (a : gdc_arg) : outcome gdc_options :=
  match a with
  | Gi s => Ok (GOpt s (go_output o) (go_chunk o) (go_debug o) (go_verbose o))
  | Go s => Ok (GOpt (go_input o) s (go_chunk o) (go_debug o) (go_verbose o))
  | Gc s =>
      match stoull s with
      | Some n => Ok (GOpt (go_input o) (go_output o) (u64 (u64 (n * 1024) * 1024)) (go_debug o) (go_verbose o))
      | None => Throw RuntimeError
      end
  | Gd => Ok (GOpt (go_input o) (go_output o) (go_chunk o) true (go_verbose o))
  | Gv => Ok (GOpt (go_input o) (go_output o) (go_chunk o) (go_debug o) true)
  | Gbad => Throw RuntimeError
  end.

(** What the file system answers to gdc_extractor.cpp:25-57. *)
Record gdc_env := GEnv
  { ge_exists : string -> bool; ge_readable : string -> bool;
    ge_dir_ok : string -> bool;    (* parent empty, existing or created *)
    ge_writable : string -> bool }.

(** gdc_extractor.cpp:23-69. *)
Definition gdc_validate (e : gdc_env) (o : gdc_options) : bool :=
  ge_exists e (go_input o) && ge_readable e (go_input o) && ge_dir_ok e (go_output o) &&
  ge_writable e (go_output o) &&
  negb ((go_chunk o <? 1 * 1024 * 1024) || (go_chunk o >? 20 * 1024 * 1024 * 1024)).

(** main_gdc_extractor.cpp:28-84. *)
Definition parse_gdc_arguments (stoull : string -> option Z) (e : gdc_env) (args : list gdc_arg)
  : outcome gdc_options :=
  let! o := ofold (parse_gdc_arg stoull) args default_gdc_options in
  if String.eqb (go_input o) "" then Throw RuntimeError
  else if String.eqb (go_output o) "" then Throw RuntimeError
  else if negb (gdc_validate e o) then Throw RuntimeError
  else Ok o.
