(** Model of sophiread/FastSophiread/benchmarks/benchmark.sh: the program of M_Mmap
    is run on one file with several options, and the files it writes are compared.
    The report of speeds (line 97 on), messages and the .info and .result files are
    omitted; mkdir is assumed to succeed; the arguments are words without special
    characters. *)
From Coq Require Import Ascii.
From Verif Require Export M_Mmap.
Local Open Scope string_scope.
Local Open Scope Z_scope.
Local Open Scope list_scope.

(** benchmark.sh:18: $LST is one file; lines 30-33: y is its name without .tpx3. *)
Definition data_name : string :=
  "HV2700_1500_500_THLrel_274_sophy_chopper_60Hz_4.1mm_aperture_siemen_star_120s_000000".
Definition data_file : string := "data/" ++ data_name ++ ".tpx3".
Definition result_dir : string := "result/" ++ data_name.

(** benchmark.sh:16, 19: default values (also for empty arguments). *)
Definition bench_ext (a : option string) : string :=
  match a with None | Some "" => "h5" | Some e => e end.
Definition bench_itr (a : option nat) : nat := match a with None => 3%nat | Some n => n end.

(** The runs of the program: the baseline (line 49), and try [i] with or without
    mapping and threads (lines 52-65). *)
Inductive label := Base | Try (mmap tbb : bool) (i : nat).
Definition cfg_word (mmap tbb : bool) : string :=
  (if mmap then "mmap" else "stream") ++ "+" ++ (if tbb then "tbb" else "verify") ++ "+tgdc".
Definition label_word (k : label) : string :=
  match k with Base => "verify" | Try m c i => cfg_word m c ++ "." ++ dec (Z.of_nat i) end.
Definition label_opts (k : label) : string :=
  match k with Base => "verify+tgdc" | Try m c i => cfg_word m c end.
Definition out_name (ext : string) (k : label) : string :=
  result_dir ++ "/" ++ data_name ++ "." ++ label_word k ++ "." ++ ext.
Definition labels (n : nat) : list label :=
  Base :: flat_map (fun m => flat_map (fun c => map (Try m c) (seq 1 n)) [true; false]) [false; true].

(** One run: the script goes on after any exit code. *)
Definition bench_run (app : label -> list string -> mdisk -> outcome mresult) (ext : string) (k : label)
    (d : mdisk) : outcome mdisk :=
  match app k [data_file; out_name ext k; label_opts k] d with
  | Ok r => Ok (mr_disk r)
  | Throw _ => Ok d
  | UB u => UB u
  | OutOfFuel => OutOfFuel
  end.
Fixpoint bench_runs (app : label -> list string -> mdisk -> outcome mresult) (ext : string) (ks : list label)
    (d : mdisk) : outcome mdisk :=
  match ks with
  | [] => Ok d
  | k :: r => let! d1 := bench_run app ext k d in bench_runs app ext r d1
  end.

(** dirname and basename of a path with a slash: before and after the last one. *)
Fixpoint split_path (s : string) : option (string * string) :=
  match s with
  | "" => None
  | String c r =>
      match split_path r with
      | Some (a, b) => Some (String c a, b)
      | None => if Ascii.eqb c "/"%char then Some ("", r) else None
      end
  end.
Definition dirname (s : string) : string := match split_path s with Some (a, _) => a | None => "." end.
Definition basename (s : string) : string := match split_path s with Some (_, b) => b | None => s end.

(** benchmark.sh:71-87; [same] says of two files whether the compare program exits
    with 0. *)
Fixpoint compare_all (same : mfile -> mfile -> bool) (ext : string) (d : mdisk) (l : list string)
    (differences total : Z) : Z * Z :=
  match l with
  | [] => (differences, total)
  | f :: r =>
      let dir := dirname f in
      match d (dir ++ "/" ++ basename dir ++ ".verify." ++ ext)%string with
      | None => compare_all same ext d r differences total
      | Some g =>
          let ok := match d f with Some h => same g h | None => false end in
          compare_all same ext d r (if ok then differences else differences + 1) (total + 1)
      end
  end.

(** benchmark.sh:88-94. *)
Inductive verdict := NoFiles | AllMatched (total : Z) | Mismatched (differences total : Z).
Definition verdict_of (p : Z * Z) : verdict :=
  let (differences, total) := p in
  if total =? 0 then NoFiles
  else if differences =? 0 then AllMatched total
  else Mismatched differences total.

(** benchmark.sh:16-94; [find d e] is the output of find (line 73). *)
Definition bench_sh (app : label -> list string -> mdisk -> outcome mresult)
    (find : mdisk -> string -> list string) (same : mfile -> mfile -> bool)
    (a1 : option string) (a2 : option nat) (d : mdisk) : outcome (verdict * mdisk) :=
  let ext := bench_ext a1 in
  let! d1 := bench_runs app ext (labels (bench_itr a2)) d in
  Ok (verdict_of (compare_all same ext d1 (find d1 ext) 0 0), d1).

(** The program that is run: benchmark_mmap.  [p k]: how run [k] shares out the
    batches. *)
Definition bench_app (fuel : nat) (ext : externals) (show : f64 -> string) (opens : string -> bool)
    (env : option Z) (p : label -> nat -> nat -> plan) (input : string -> option (list Z * bool))
    (k : label) (args : list string) (d : mdisk) : outcome mresult :=
  mmap_main fuel ext show opens env (p k) input args d.
