(** Model of the file output and the parameter file of SophireadLib:
    sophiread/SophireadLib/src/tpx3.cpp:629-801 and include/tpx3.h.  Values in ns
    are computed by the same expressions as in FastSophiread ([tot_ns] etc. of
    M_Hit, [n_tof_ns] of M_Neutron). *)
From Coq Require Import Ascii.
From Verif Require Export M_Hdf5 M_Config M_StreamCli.
Local Open Scope string_scope.
Local Open Scope Z_scope.
Local Open Scope list_scope.

(** * HDF5 files *)

(** A dataset of NATIVE_INT or NATIVE_DOUBLE. *)
Inductive dset := Ints (l : list Z) | Doubles (l : list f64).

(** A file: groups with their datasets, in order of creation. *)
Definition lgroup := list (string * dset).
Definition lfile := list (string * lgroup).
Definition ldisk := string -> option lfile.
Definition put_lfile (d : ldisk) (name : string) (f : lfile) : ldisk :=
  fun n => if String.eqb n name then Some f else d n.

(** What the library does: opening (truncating) the file succeeds or throws;
    making and writing the k-th dataset succeeds, throws before the dataset
    exists, or throws when the dataset exists but has not been written (fill
    value 0). *)
Inductive wr := WrOk | WrThrow | WrUnwritten.
Record h5lib := H5Lib { lib_opens : bool; lib_group : bool; lib_writes : nat -> wr }.
Definition lib_works : h5lib := H5Lib true true (fun _ => WrOk).

Definition unwritten (d : dset) : dset :=
  match d with Ints l => Ints (map (fun _ => 0) l) | Doubles l => Doubles (map (fun _ => f_of_Z 0) l) end.

(** tpx3.cpp:653-704, 732-760: createDataSet and write, one after the other; the
    boolean says whether an exception is thrown. *)
Fixpoint write_all (w : nat -> wr) (k : nat) (g : lgroup) (cols : lgroup) : lgroup * bool :=
  match cols with
  | [] => (g, false)
  | (name, d) :: r =>
      match w k with
      | WrOk => write_all w (S k) (g ++ [(name, d)]) r
      | WrThrow => (g, true)
      | WrUnwritten => (g ++ [(name, unwritten d)], true)
      end
  end.

(** tpx3.cpp:644-706, 722-762: H5F_ACC_TRUNC, one group, its datasets.  The
    objects are closed whether or not an exception is thrown. *)
Definition save_group (lib : h5lib) (d : ldisk) (name grp : string) (cols : lgroup)
  : outcome unit * ldisk :=
  if lib_opens lib then
    if lib_group lib then
      let (g, thrown) := write_all (lib_writes lib) 0 [] cols in
      (if thrown then Throw ExternalError else Ok tt, put_lfile d name [(grp, g)])
    else (Throw ExternalError, put_lfile d name [])
  else (Throw ExternalError, d).

(** tpx3.cpp:652-704; hits made by this library always have a time of flight. *)
Definition lib_hit_columns (hits : list hit) (labels : list Z) : outcome lgroup :=
  let! tofs := tof_values hits in
  Ok [("x", Ints (map h_x hits)); ("y", Ints (map h_y hits));
      ("tot_ns", Doubles (map tot_ns hits)); ("toa_ns", Doubles (map toa_ns hits));
      ("ftoa_ns", Doubles (map ftoa_ns hits)); ("tof_ns", Doubles tofs);
      ("spidertime_ns", Doubles (map spider_ns hits)); ("labels", Ints labels)].
(** tpx3.cpp:636-706: saveHitsToHDF5. *)
Definition lib_save_hits (lib : h5lib) (d : ldisk) (name : string) (hits : list hit) (labels : list Z)
  : outcome unit * ldisk :=
  if negb (zlen hits =? zlen labels) then (Throw RuntimeError, d)
  else
    match lib_hit_columns hits labels with
    | Ok cols => save_group lib d name "hits" cols
    | Throw e => (Throw e, d)
    | UB u => (UB u, d)
    | OutOfFuel => (OutOfFuel, d)
    end.

(** tpx3.cpp:731-760. *)
Definition lib_event_columns (evs : list neutron) : lgroup :=
  [("x", Doubles (map n_x evs)); ("y", Doubles (map n_y evs));
   ("tof_ns", Doubles (map n_tof_ns evs)); ("NHits", Ints (map n_hits evs));
   ("tot", Doubles (map n_tot evs))].
(** tpx3.cpp:714-763: saveEventsToHDF5. *)
Definition lib_save_events (lib : h5lib) (d : ldisk) (name : string) (evs : list neutron)
  : outcome unit * ldisk :=
  match evs with
  | [] => (Throw RuntimeError, d)
  | _ => save_group lib d name "events" (lib_event_columns evs)
  end.

(** * The parameter file *)

(** [ss >> value] for an unsigned long, at a character that is not white space:
    as for an int, but a negative number wraps, and the largest value is stored
    on overflow whatever the sign. *)
Definition read_ulong (s : string) : Z :=
  let (neg, z) := match s with
                  | String c r =>
                      if Ascii.eqb c "-"%char then (true, digits 0 r)
                      else if Ascii.eqb c "+"%char then (false, digits 0 r) else (false, digits 0 s)
                  | EmptyString => (false, 0)
                  end in
  if z <? 2 ^ 64 then u64 (if neg then - z else z) else 2 ^ 64 - 1.

(** tpx3.cpp:782-791: one line; extraction at the end of the line leaves the
    variable as it is. *)
Definition param_line (read_double : string -> f64) (c : abs_cfg) (line : string) : abs_cfg :=
  let (name, rest) := take_word (skip_ws line) in
  match skip_ws rest with
  | EmptyString => c
  | v =>
      if String.eqb name "abs_radius" then AbsCfg (read_double v) (a_min c) (a_range c)
      else if String.eqb name "abs_min_cluster_size" then AbsCfg (a_radius c) (read_ulong v) (a_range c)
      else if String.eqb name "spider_time_range" then AbsCfg (a_radius c) (a_min c) (read_ulong v)
      else c
  end.
(** tpx3.cpp:772-801; [None] is a file that cannot be opened, which is not
    looked at. *)
Definition parse_params (read_double : string -> f64) (file : option string) : abs_cfg :=
  fold_left (param_line read_double)
    (match file with Some s => lines_of s | None => [] end) (AbsCfg (f_of_Z 5) 1 75).
