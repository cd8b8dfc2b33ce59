(** Model of the program sophiread/FastSophiread/benchmarks/benchmark_mmap.cpp:
    it processes a raw file window by window, counts, and writes the events to a
    .csv, .bin or .h5 file.  Timing and logging are omitted; [n_bad_hits] is
    unbounded (fewer than 2^31 hits). *)
From Coq Require Import Ascii.
From Verif Require Export M_Core M_Abs M_LibIO.
Local Open Scope string_scope.
Local Open Scope Z_scope.
Local Open Scope list_scope.

(** * Options *)

(** strstr(s, w) != NULL. *)
Fixpoint strstr (s w : string) : bool :=
  String.prefix w s || match s with EmptyString => false | String _ r => strstr r w end.

Record mopts := MOpts { mo_tbb : bool; mo_mmap : bool; mo_tgdc : bool; mo_rate : Z }.

(** benchmark_mmap.cpp:194-213; [None] is a run without a third argument.  The
    float [pulse_rate] only has whole values. *)
Definition mmap_options (a : option string) : mopts :=
  match a with
  | None => MOpts false false false 0
  | Some s =>
      let rate := 0 in
      let rate := if strstr s "1hz" then 1 else rate in
      let rate := if strstr s "10hz" then 10 else rate in
      let rate := if strstr s "15hz" then 15 else rate in
      let rate := if strstr s "30hz" then 30 else rate in
      let rate := if strstr s "45hz" then 45 else rate in
      let rate := if strstr s "60hz" then 60 else rate in
      MOpts (strstr s "tbb") (strstr s "mmap") (strstr s "tgdc") rate
  end.

(** * One window *)

(** benchmark_mmap.cpp:327, 353: ABS(5.0, 1, 75). *)
Definition mmap_cfg : abs_cfg := AbsCfg (f_of_Z 5) 1 75.

(** benchmark_mmap.cpp:328-334, 354-359: a range of batches with one clustering
    object.  Results: the batches with their hits, and the events of each. *)
Fixpoint range_events (ext : externals) (w : list Z) (fin : Z) (o : abs_obj) (bs : list batch)
  : outcome (list batch * list (list neutron)) :=
  match bs with
  | [] => Ok ([], [])
  | b :: rest =>
      let! b1 := extract_hits GDC_mode b w fin in
      let! o1 := abs_fit 8 mmap_cfg (abs_reset o) (t_hits b1) in
      let! evs := abs_get_events ext mmap_cfg o1 (t_hits b1) in
      let! (bs', es) := range_events ext w fin o1 rest in
      Ok (b1 :: bs', evs :: es)
  end.

(** How tbb::parallel_reduce runs over a range: operator() on the next [n]
    batches, one body used for two adjacent parts, or a part given to a new body
    (splitting constructor) that is joined. *)
Inductive plan := Leaf (n : nat) | Then (l r : plan) | Join (l r : plan).
Fixpoint plan_size (p : plan) : nat :=
  match p with Leaf n => n | Then l r | Join l r => plan_size l + plan_size r end.

(** benchmark_mmap.cpp:307-347: [out] is the output of the body that runs [p] on
    the first batches of [bs]. *)
Fixpoint reduce (ext : externals) (w : list Z) (fin : Z) (p : plan) (bs : list batch)
    (out : list (list neutron)) : outcome (list batch * list (list neutron)) :=
  match p with
  | Leaf n =>
      let! (bs', es) := range_events ext w fin abs_new (firstn n bs) in
      Ok (bs', out ++ es)
  | Then l r =>
      let! (bl, ol) := reduce ext w fin l (firstn (plan_size l) bs) out in
      let! (br, or) := reduce ext w fin r (skipn (plan_size l) bs) ol in
      Ok (bl ++ br, or)
  | Join l r =>
      let! (bl, ol) := reduce ext w fin l (firstn (plan_size l) bs) out in
      let! (br, or) := reduce ext w fin r (skipn (plan_size l) bs) [] in
      Ok (bl ++ br, ol ++ or)
  end.

(** benchmark_mmap.cpp:369-381: the hits of one batch that count as bad. *)
Fixpoint bad_hits (rate : Z) (hits : list hit) : outcome Z :=
  match hits with
  | [] => Ok 0
  | h :: r =>
      match tof_ns h with
      | None => UB Uninitialised
      | Some t =>
          let! n := bad_hits rate r in
          Ok (if fgt (fmul t (f_lit 1 1000000)) (fadd (fdiv (f_of_Z 1) (f_of_Z rate)) (f_lit 1 1000000))
              then n + 1 else n)
      end
  end.

Record mstate := MState
  { ms_ts : ts; ms_events : list (list neutron); ms_hits : Z; ms_bad : Z; ms_nevents : Z }.
Definition ms_new : mstate := MState ts0 [] 0 0 0.

Definition sizes {A} (l : list (list A)) : Z := zlen (concat l).

(** benchmark_mmap.cpp:290-386; [len] is the value of _get_max_batch_len, [p]
    how the batches are shared out if tbb is used.  Result: new state and
    [consumed]. *)
Definition window_step (ext : externals) (o : mopts) (len : Z) (p : nat -> plan) (w : list Z)
    (st : mstate) : outcome (mstate * Z) :=
  let (bs, consumed) := find_headers_limited len w in
  let! (bs1, s1) := (if mo_tgdc o then locate GDC_mode bs w consumed (ms_ts st) else Ok (bs, ms_ts st)) in
  let! (bs2, es) := (if mo_tbb o then reduce ext w consumed (p (length bs1)) bs1 []
                     else range_events ext w consumed abs_new bs1) in
  let! bad := (if mo_rate o >? 0 then bad_hits (mo_rate o) (concat (map t_hits bs2)) else Ok 0) in
  let evs := ms_events st ++ es in
  Ok (MState s1 evs (ms_hits st + sizes (map t_hits bs2)) (ms_bad st + bad)
        (ms_nevents st + sizes evs), consumed).

(** benchmark_mmap.cpp:278-394: [k] counts the windows. *)
Fixpoint mmap_loop (fuel : nat) (ext : externals) (o : mopts) (len : Z) (p : nat -> nat -> plan)
    (m : list Z) (k : nat) (raw : Z) (st : mstate) : outcome mstate :=
  if raw <? zlen m then
    match fuel with
    | O => OutOfFuel
    | S f =>
        let! (st', consumed) := window_step ext o len (p k) (skipn (Z.to_nat raw) m) st in
        mmap_loop f ext o len p m (S k) (raw + consumed) st'
    end
  else Ok st.

(** * Output *)

(** A file: the image of an HDF5 file, if it starts with one, and text after it. *)
Record mfile := MFile { mf_h5 : option lfile; mf_text : string }.
Definition mdisk := string -> option mfile.
Definition mput (d : mdisk) (name : string) (f : mfile) : mdisk :=
  fun n => if String.eqb n name then Some f else d n.

Definition dec (z : Z) : string := NilZero.string_of_int (Z.to_int z).
Definition joined (l : list string) : string := fold_right String.append "" l.
Definition newline : string := String "010"%char "".

(** benchmark_mmap.cpp:119-124: the header and one line.  [show] is
    operator<< for double. *)
Definition csv_header : string := "X,Y,TOF (ns),Nhits, TOT" ++ newline.
Definition csv_line (show : f64 -> string) (n : neutron) : string :=
  show (n_x n) ++ "," ++ show (n_y n) ++ "," ++ show (n_tof_ns n) ++ "," ++ dec (n_hits n) ++ "," ++
  show (n_tot n) ++ newline.

(** benchmark_mmap.cpp:103-128; the boolean says whether the program goes on (no
    exit(EXIT_FAILURE)).  [opens]: which files can be opened for writing. *)
Definition save_csv (show : f64 -> string) (opens : string -> bool) (d : mdisk) (name : string)
    (evs : list neutron) : bool * mdisk :=
  match evs with
  | [] => (true, d)
  | _ =>
      if opens name then
        let old := match d name with Some f => f | None => MFile None "" end in
        (true, mput d name (MFile (mf_h5 old) (mf_text old ++ csv_header ++ joined (map (csv_line show) evs))))
      else (false, d)
  end.

Definition f_to_u16 : f64 -> option Z := f_to_int 0 (2 ^ 16 - 1).

(** benchmark_mmap.cpp:154-164: one event; the stream inserter prints decimal
    numbers. *)
Definition bin_event (n : neutron) : outcome string :=
  match f_to_u16 (fdiv (fmul (n_x n) (f_of_Z 65535)) (f_of_Z 512)),
        f_to_u16 (fdiv (fmul (n_y n) (f_of_Z 65535)) (f_of_Z 512)),
        f_to_u64 (n_tof_ns n), f_to_u16 (n_tot n) with
  | Some x, Some y, Some t, Some tot =>
      Ok (dec x ++ dec y ++ dec t ++ dec (u16 (n_hits n)) ++ dec tot)%string
  | _, _, _, _ => UB BadConversion
  end.
Fixpoint bin_text (evs : list neutron) : outcome string :=
  match evs with
  | [] => Ok ""
  | e :: r => let! s := bin_event e in let! t := bin_text r in Ok (s ++ t)%string
  end.
(** benchmark_mmap.cpp:138-169. *)
Definition save_bin (opens : string -> bool) (d : mdisk) (name : string) (evs : list neutron)
  : outcome (bool * mdisk) :=
  match evs with
  | [] => Ok (true, d)
  | _ =>
      if opens name then let! t := bin_text evs in Ok (true, mput d name (MFile None t))
      else Ok (false, d)
  end.

(** benchmark_mmap.cpp:46-93; if the file cannot be made, the library throws and
    nothing catches it. *)
Definition mmap_columns (evs : list neutron) : lgroup :=
  [("x", Doubles (map n_x evs)); ("y", Doubles (map n_y evs)); ("tof", Doubles (map n_tof_ns evs));
   ("nHits", Ints (map n_hits evs)); ("tot", Doubles (map n_tot evs))].
Definition save_h5 (opens : string -> bool) (d : mdisk) (name : string) (evs : list neutron)
  : outcome mdisk :=
  match evs with
  | [] => Ok d
  | _ =>
      if opens name then Ok (mput d name (MFile (Some [("neutrons", mmap_columns evs)]) ""))
      else Throw ExternalError
  end.

(** benchmark_mmap.cpp:172-179. *)
Definition endsWith (s e : string) : bool :=
  if (String.length e <=? String.length s)%nat
  then String.eqb (String.substring (String.length s - String.length e) (String.length e) s) e
  else false.

(** benchmark_mmap.cpp:429-436: the copy of an event. *)
Definition gathered (e : neutron) : neutron := Neutron (n_x e) (n_y e) (n_tof_ns e) (n_tot e) (n_hits e).

(** * The program *)

(** What is reported: n_hits, n_bad_hits, n_events. *)
Record mreport := MReport { mr_hits : Z; mr_bad : Z; mr_events : Z }.
(** Exit status, report (if the end of the loop is reached) and files. *)
Record mresult := MResult { mr_status : Z; mr_report : option mreport; mr_disk : mdisk }.

(** benchmark_mmap.cpp:421-454. *)
Definition mmap_output (show : f64 -> string) (opens : string -> bool) (d : mdisk) (out : string)
    (evs : list (list neutron)) : outcome (bool * mdisk) :=
  let v := map gathered (concat evs) in
  if endsWith out ".csv" then Ok (save_csv show opens d out v)
  else if endsWith out ".bin" then save_bin opens d out v
  else if endsWith out ".h5" then let! d' := save_h5 opens d out v in Ok (true, d')
  else Ok (true, d).

(** benchmark_mmap.cpp:181-471.  [args] are the arguments after the name of the
    program; [input] says of each file whether it can be opened, its bytes, and
    whether it can be opened for writing too (disk_io.cpp:57-121: mapping needs
    O_RDWR).  Reading is assumed to succeed, and malloc(0) not to give NULL. *)
Definition mmap_main (fuel : nat) (ext : externals) (show : f64 -> string) (opens : string -> bool)
    (env : option Z) (p : nat -> nat -> plan) (input : string -> option (list Z * bool))
    (args : list string) (d : mdisk) : outcome mresult :=
  match args with
  | [] => Ok (MResult 1 None d)
  | inp :: rest =>
      let o := mmap_options (nth_error rest 1) in
      match input inp with
      | None => Ok (MResult 1 None d)
      | Some (m, rw) =>
          if mo_mmap o && negb rw then Ok (MResult 1 None d)
          else
            let! st := mmap_loop fuel ext o (max_batch_len env) p m 0 0 ms_new in
            let rep := Some (MReport (ms_hits st) (ms_bad st) (ms_nevents st)) in
            match rest with
            | out :: _ =>
                if ms_nevents st >? 0 then
                  let! (go_on, d') := mmap_output show opens d out (ms_events st) in
                  Ok (MResult (if go_on then 0 else 1) rep d')
                else Ok (MResult 0 rep d)
            | [] => Ok (MResult 0 rep d)
            end
      end
  end.
