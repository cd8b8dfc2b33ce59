(** Model of the configuration: sophiread/SophireadCLI/src/user_config.cpp,
    src/json_config_parser.cpp, include/tof_binning.h, include/user_config.h,
    include/json_config_parser.h and sophiread.cpp:191-213. *)
From Coq Require Import Ascii.
From Verif Require Export M_Venus.
Local Open Scope string_scope.
Local Open Scope Z_scope.
Local Open Scope list_scope.

(** * Time-of-flight bins *)

(** tof_binning.h:16-19. *)
Record binning := Binning { tb_bins : option Z; tb_max : option f64; tb_custom : list f64 }.
(** tof_binning.h:22. *)
Definition default_binning : binning := Binning (Some 1500) (Some (f_lit 1 60)) [].

(** tof_binning.h:39: [max * i / bins]. *)
Definition uniform_edge (max : f64) (bins i : Z) : f64 := fdiv (fmul max (f_of_Z i)) (f_of_Z bins).
(** tof_binning.h:30-43; [bins + 1] is an int that becomes a vector length. *)
Definition get_bin_edges (b : binning) : outcome (list f64) :=
  match tb_custom b with
  | _ :: _ => Ok (tb_custom b)
  | [] =>
      let bins := match tb_bins b with Some n => n | None => 1500 end in
      let max := match tb_max b with Some x => x | None => f_lit 1 60 end in
      if bins =? int_max then UB SignedOverflow
      else if bins + 1 <? 0 then Throw LengthError
      else Ok (map (fun i => uniform_edge max bins (Z.of_nat i)) (seq 0 (Z.to_nat (bins + 1))))
  end.

(** * Text configuration *)

(** isspace in the C locale. *)
Definition is_space (c : ascii) : bool :=
  let n := nat_of_ascii c in ((9 <=? n) && (n <=? 13))%nat || (n =? 32)%nat.
Fixpoint skip_ws (s : string) : string :=
  match s with
  | EmptyString => EmptyString
  | String c r => if is_space c then skip_ws r else s
  end.
(** [ss >> name] after white space has been skipped: the word and the rest. *)
Fixpoint take_word (s : string) : string * string :=
  match s with
  | EmptyString => (EmptyString, EmptyString)
  | String c r => if is_space c then (EmptyString, s) else let (w, t) := take_word r in (String c w, t)
  end.
(** std::getline until it fails; [cur] is the line read so far. *)
Definition newline : ascii := ascii_of_nat 10.
Fixpoint lines_from (cur s : string) : list string :=
  match s with
  | EmptyString => if String.eqb cur "" then [] else [cur]
  | String c r =>
      if Ascii.eqb c newline then cur :: lines_from "" r else lines_from (cur ++ String c "")%string r
  end.
Definition lines_of (s : string) : list string := lines_from "" s.

(** [ss >> value] for an int, at a character that is not white space: sign and
    decimal digits; 0 without digits, the nearest int on overflow. *)
Definition digit (c : ascii) : option Z :=
  let n := Z.of_nat (nat_of_ascii c) in if (48 <=? n) && (n <=? 57) then Some (n - 48) else None.
Fixpoint digits (acc : Z) (s : string) : Z :=
  match s with
  | EmptyString => acc
  | String c r => match digit c with Some d => digits (10 * acc + d) r | None => acc end
  end.
Definition read_int (s : string) : Z :=
  let z := match s with
           | String c r =>
               if Ascii.eqb c "-"%char then - digits 0 r
               else if Ascii.eqb c "+"%char then digits 0 r else digits 0 s
           | EmptyString => 0
           end in
  Z.max int_min (Z.min int_max z).

(** A value that is missing leaves the variable uninitialised. *)
Definition with_value {A} (rest : string) (k : string -> A) : outcome A :=
  match skip_ws rest with EmptyString => UB Uninitialised | v => Ok (k v) end.

(** user_config.cpp:98-130: one line.  [read_double] is [ss >> value] for a double
    at a character that is not white space. *)
Definition config_line (read_double : string -> f64) (c : abs_cfg) (line : string) : outcome abs_cfg :=
  let (name, rest) := take_word (skip_ws line) in
  if match name with String ch _ => Ascii.eqb ch "#"%char | EmptyString => false end then Ok c
  else if String.eqb name "abs_radius" then
    with_value rest (fun v => AbsCfg (read_double v) (a_min c) (a_range c))
  else if String.eqb name "abs_min_cluster_size" then
    with_value rest (fun v => AbsCfg (a_radius c) (u64 (read_int v)) (a_range c))
  else if String.eqb name "spider_time_range" then
    with_value rest (fun v => AbsCfg (a_radius c) (a_min c) (u64 (read_int v)))
  else Ok c.
(** user_config.cpp:23-28. *)
Definition default_abs : abs_cfg := AbsCfg (f_of_Z 5) 1 75.
Definition parse_lines (read_double : string -> f64) (ls : list string) : outcome abs_cfg :=
  ofold (config_line read_double) ls default_abs.

(** A file named on the command line. *)
Inductive source := NoFile | Unreadable | Text (s : string).

(** user_config.h:25-53: what the getters return. *)
Definition user_config (a : abs_cfg) : outcome config :=
  let! edges := get_bin_edges default_binning in Ok (Config a (f_of_Z 1) edges).
(** user_config.cpp:78-139; [None]: exit(1). *)
Definition text_config (read_double : string -> f64) (f : source) : outcome (option config) :=
  match f with
  | NoFile => Ok None
  | Unreadable => let! c := user_config default_abs in Ok (Some c)
  | Text s => let! a := parse_lines read_double (lines_of s) in let! c := user_config a in Ok (Some c)
  end.

(** * JSON configuration *)

(** nlohmann::json; integers of either signedness, objects as lists. *)

Inductive json :=
| JNull | JBool (b : bool) | JInt (z : Z) | JFloat (f : f64) | JString (s : string)
| JArray (l : list json) | JObject (l : list (string * json)).

Fixpoint field (k : string) (l : list (string * json)) : option json :=
  match l with
  | [] => None
  | (k', v) :: r => if String.eqb k' k then Some v else field k r
  end.
(** json_pointer::get_checked: [None] for out_of_range; a name used as an array
    index is a parse_error. *)
Fixpoint resolve (path : list string) (j : json) : outcome (option json) :=
  match path with
  | [] => Ok (Some j)
  | k :: p =>
      match j with
      | JObject l => match field k l with Some v => resolve p v | None => Ok None end
      | JArray _ => Throw ExternalError
      | _ => Ok None
      end
  end.
(** basic_json::contains(json_pointer). *)
Definition contains (path : list string) (j : json) : option json :=
  match resolve path j with Ok r => r | _ => None end.
(** basic_json::value(json_pointer, default), value(key, default). *)
Definition json_value {A} (path : list string) (get : json -> outcome A) (dflt : A) (j : json) : outcome A :=
  match j with
  | JObject _ =>
      let! r := resolve path j in
      match r with Some v => get v | None => Ok dflt end
  | _ => Throw ExternalError
  end.
(** get<double>, get<unsigned long>, get<int>, get<vector<double>>. *)
Definition get_double (j : json) : outcome f64 :=
  match j with JInt z => Ok (f_of_Z z) | JFloat f => Ok f | _ => Throw ExternalError end.
Definition get_ulong (j : json) : outcome Z :=
  match j with
  | JInt z => Ok (u64 z)
  | JFloat f => match f_to_u64 f with Some z => Ok z | None => UB BadConversion end
  | _ => Throw ExternalError
  end.
Definition i32 (z : Z) : Z := (z + 2 ^ 31) mod 2 ^ 32 - 2 ^ 31.
Definition get_int (j : json) : outcome Z :=
  match j with
  | JInt z => Ok (i32 z)
  | JFloat f => match f_to_i32 f with Some z => Ok z | None => UB BadConversion end
  | JBool b => Ok (if b then 1 else 0)
  | _ => Throw ExternalError
  end.
Fixpoint get_doubles (l : list json) : outcome (list f64) :=
  match l with
  | [] => Ok []
  | j :: r => let! x := get_double j in let! xs := get_doubles r in Ok (x :: xs)
  end.
Definition get_vector (j : json) : outcome (list f64) :=
  match j with JArray l => get_doubles l | _ => Throw ExternalError end.

(** json_config_parser.h:42-47; 16.7e-3. *)
Definition default_max : f64 := f_lit 167 10000.
(** json_config_parser.cpp:105-118; the members start as [default_binning]. *)
Definition json_binning (j : json) : outcome binning :=
  match contains ["tof_imaging"; "bin_edges"] j with
  | Some v =>
      let! e := get_vector v in Ok (Binning (tb_bins default_binning) (tb_max default_binning) e)
  | None =>
      match contains ["tof_imaging"; "uniform_bins"] j with
      | Some u =>
          let! n := json_value ["num_bins"] get_int 1500 u in
          let! x := json_value ["end"] get_double default_max u in
          Ok (Binning (Some n) (Some x) [])
      | None => Ok (Binning (Some 1500) (Some default_max) [])
      end
  end.
(** json_config_parser.cpp:58-100: the constructor, then all getters (main calls
    them through toString; the bin edges when the images are set up). *)
Definition json_config (j : json) : outcome config :=
  let! b := json_binning j in
  let! radius := json_value ["abs"; "radius"] get_double (f_of_Z 5) j in
  let! size := json_value ["abs"; "min_cluster_size"] get_ulong 1 j in
  let! range := json_value ["abs"; "spider_time_range"] get_ulong 75 j in
  let! sr := json_value ["tof_imaging"; "super_resolution"] get_double (f_of_Z 1) j in
  let! edges := get_bin_edges b in
  Ok (Config (AbsCfg radius size range) sr edges).

(** json_config_parser.cpp:18-30. *)
Definition default_json : json :=
  JObject
    [("abs", JObject [("radius", JFloat (f_of_Z 5)); ("min_cluster_size", JInt 1);
                      ("spider_time_range", JInt 75)]);
     ("tof_imaging",
       JObject [("uniform_bins", JObject [("num_bins", JInt 1500); ("end", JFloat default_max)]);
                ("super_resolution", JFloat (f_of_Z 1))])].
(** json_config_parser.cpp:37-52; [parse] is the JSON parser, [None] if it
    throws. *)
Definition json_file (parse : string -> option json) (f : source) : outcome config :=
  match f with
  | Text s => match parse s with Some j => json_config j | None => Throw RuntimeError end
  | _ => Throw RuntimeError
  end.

(** * Choice of the format *)

(** std::filesystem::path::filename. *)
Fixpoint after_slash (s : string) : option string :=
  match s with
  | EmptyString => None
  | String c r =>
      match after_slash r with
      | Some t => Some t
      | None => if Ascii.eqb c "/"%char then Some r else None
      end
  end.
Definition path_extension (p : string) : string :=
  let f := match after_slash p with Some t => t | None => p end in
  if String.eqb f "." || String.eqb f ".." then "" else extension f.
(** sophiread.cpp:191-213; [None]: exit(1). *)
Definition load_config (read_double : string -> f64) (parse : string -> option json)
    (name : string) (f : source) : outcome (option config) :=
  if String.eqb name "" then let! c := json_config default_json in Ok (Some c)
  else if String.eqb (path_extension name) ".json" then
    let! c := json_file parse f in Ok (Some c)
  else text_config read_double f.
(** venus_auto_reducer.cpp:248-258: always JSON. *)
Definition load_venus_config (parse : string -> option json) (name : string) (f : source) : outcome config :=
  if String.eqb name "" then json_config default_json else json_file parse f.
