(** Specification of the script benchmark.sh. *)
From Verif Require Export S_Mmap M_BenchSh.
Local Open Scope string_scope.
Global Open Scope Z_scope.
Global Open Scope list_scope.

(** The only data file, and the result file of each run: the baseline, and the tries
    with the options in words and their number. *)
Definition star_file : string :=
  "data/HV2700_1500_500_THLrel_274_sophy_chopper_60Hz_4.1mm_aperture_siemen_star_120s_000000.tpx3".
Definition run_words (k : label) : string :=
  match k with
  | Base => "verify"
  | Try mapped threads i =>
      (((if mapped then "mmap" else "stream") ++ "+" ++ (if threads then "tbb" else "verify") ++ "+tgdc")
         ++ "." ++ dec (Z.of_nat i))%string
  end.
Definition result_of (e : string) (k : label) : string :=
  ("result/HV2700_1500_500_THLrel_274_sophy_chopper_60Hz_4.1mm_aperture_siemen_star_120s_000000/"
   ++ "HV2700_1500_500_THLrel_274_sophy_chopper_60Hz_4.1mm_aperture_siemen_star_120s_000000."
   ++ run_words k ++ "." ++ e)%string.

(** The extensions for which the program writes files. *)
Definition known_ext (e : string) : Prop := e = "csv" \/ e = "bin" \/ e = "h5".
(** What find looks for: files below the directory result with the extension. *)
Definition result_file (e n : string) : Prop := exists a, n = ("result/" ++ a ++ "." ++ e)%string.
Definition lists (e : string) (d : mdisk) (l : list string) : Prop :=
  NoDup l /\ forall n, In n l <-> result_file e n /\ d n <> None.
Definition no_results (e : string) (d : mdisk) : Prop := forall n, result_file e n -> d n = None.

(** The runs that get to the end: those that map the file need write access. *)
Definition made (rw : bool) (n : nat) (k : label) : Prop :=
  match k with Base => True | Try m c i => (1 <= i <= n)%nat /\ (m = true -> rw = true) end.
(** The number of configurations that are tried. *)
Definition configs (rw : bool) : Z := if rw then 4 else 2.

(** The compare program (diff) tells two text files apart exactly if they differ. *)
Definition tells_texts (same : mfile -> mfile -> bool) : Prop :=
  forall s t, same (MFile None s) (MFile None t) = true <-> s = t.
