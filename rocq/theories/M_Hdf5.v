(** Model of the HDF5 output in sophiread/FastSophiread/src/disk_io.cpp over an
    abstract store: a file is a list of named groups, a group maps dataset
    names to columns of doubles.  Chunk sizes, property lists and logging are
    omitted. *)
From Coq Require Export String Decimal DecimalString.
From Verif Require Export M_Hit M_Neutron M_Centroid.
Local Open Scope Z_scope.
Local Open Scope list_scope.

Definition column := list f64.
Definition group := string -> option column.
Definition empty_group : group := fun _ => None.
Definition put (g : group) (name : string) (c : column) : group :=
  fun n => if String.eqb n name then Some c else g n.

(** The links of a file in order of creation; names are unique. *)
Definition h5file := list (string * group).
Fixpoint find_group (f : h5file) (name : string) : option group :=
  match f with
  | [] => None
  | (n, g) :: r => if String.eqb n name then Some g else find_group r name
  end.
Fixpoint set_group (f : h5file) (name : string) (g : group) : h5file :=
  match f with
  | [] => [(name, g)]
  | (n, g') :: r => if String.eqb n name then (n, g) :: r else (n, g') :: set_group r name g
  end.

(** * The extendible output of the command line program *)

(** What the library does with one dataset operation: success; an exception
    without effect; an exception after the dataset was extended (the new
    elements have the fill value 0). *)
Inductive io := IoOk | IoThrow | IoThrowExtended.
Definition no_fault : nat -> io := fun _ => IoOk.

(** disk_io.cpp:506-567: createOrExtendDataset.  The boolean says whether an
    H5::Exception is thrown. *)
Definition create_or_extend (i : io) (g : group) (name : string) (data : column)
  : group * bool :=
  match data with
  | [] => (g, false)
  | _ :: _ =>
      let old := match g name with Some c => c | None => [] end in
      match i with
      | IoOk => (put g name (old ++ data), false)
      | IoThrow => (g, true)
      | IoThrowExtended => (put g name (old ++ repeat (f_of_Z 0) (length data)), true)
      end
  end.

(** A sequence of such calls, stopped by an exception. *)
Fixpoint extend_all (is : nat -> io) (k : nat) (g : group) (cols : list (string * column))
  : group * bool :=
  match cols with
  | [] => (g, false)
  | (name, data) :: rest =>
      let (g', thrown) := create_or_extend (is k) g name data in
      if thrown then (g', true) else extend_all is (S k) g' rest
  end.

(** The values of all hits, or an uninitialised time of flight. *)
Fixpoint tof_values (hits : list hit) : outcome column :=
  match hits with
  | [] => Ok []
  | h :: r =>
      match tof_ns h with
      | None => UB Uninitialised
      | Some t => let! ts := tof_values r in Ok (t :: ts)
      end
  end.

(** disk_io.cpp:591-618: the seven columns. *)
Definition hit_columns (hits : list hit) : outcome (list (string * column)) :=
  let! tofs := tof_values hits in
  Ok [("x", map (fun h => f_of_Z (h_x h)) hits);
      ("y", map (fun h => f_of_Z (h_y h)) hits);
      ("tot_ns", map tot_ns hits);
      ("toa_ns", map toa_ns hits);
      ("ftoa_ns", map ftoa_ns hits);
      ("tof_ns", tofs);
      ("spidertime_ns", map spider_ns hits)]%string.

(** disk_io.cpp:582-587, 639-644: openGroup, or createGroup if that fails. *)
Definition open_or_create (f : h5file) (name : string) : group :=
  match find_group f name with Some g => g | None => empty_group end.

(** disk_io.cpp:575-624: appendHitsToHDF5Extendible; exceptions of the dataset
    operations are caught. *)
Definition append_hits (is : nat -> io) (f : h5file) (hits : list hit) : outcome h5file :=
  match hits with
  | [] => Ok f
  | _ :: _ =>
      let g := open_or_create f "hits" in
      let! cols := hit_columns hits in
      let (g', _) := extend_all is 0 g cols in
      Ok (set_group f "hits" g')
  end.

(** disk_io.cpp:632-668: appendNeutronsToHDF5Extendible; exceptions are not
    caught (the file keeps what was written: second component). *)
Definition neutron_columns (ns : list neutron) : list (string * column) :=
  [("x", map n_x ns); ("y", map n_y ns); ("tof_ns", map n_tof_ns ns);
   ("tot_ns", map n_tot_ns ns); ("nHits", map (fun n => f_of_Z (n_hits n)) ns)]%string.
Definition append_neutrons (is : nat -> io) (f : h5file) (ns : list neutron)
  : outcome unit * h5file :=
  match ns with
  | [] => (Ok tt, f)
  | _ :: _ =>
      let g := open_or_create f "neutrons" in
      let (g', thrown) := extend_all is 0 g (neutron_columns ns) in
      (if thrown then Throw ExternalError else Ok tt, set_group f "neutrons" g')
  end.

(** * Saving and appending groups *)

(** std::to_string of a non-negative int. *)
Definition to_string (n : nat) : string := NilZero.string_of_uint (Nat.to_uint n).

(** disk_io.cpp:191-199: generateGroupName.  H5Lexists never reports an error
    (which the code would take for existence). *)
Fixpoint group_name_loop (fuel : nat) (f : h5file) (base name : string) (counter : nat)
  : outcome string :=
  match find_group f name with
  | None => Ok name
  | Some _ =>
      match fuel with
      | O => OutOfFuel
      | S fuel' => group_name_loop fuel' f base (base ++ "_" ++ to_string counter)%string (S counter)
      end
  end.
Definition generate_group_name (f : h5file) (base : string) : outcome string :=
  group_name_loop (S (length f)) f base base 1.

(** Files by name. *)
Definition h5disk := string -> option h5file.
Definition put_file (d : h5disk) (name : string) (f : h5file) : h5disk :=
  fun n => if String.eqb n name then Some f else d n.

(** disk_io.cpp:170-182, 237-248: one group with one dataset per attribute. *)
Definition group_of (cols : list (string * column)) : group :=
  fold_left (fun g c => put g (fst c) (snd c)) cols empty_group.

(** disk_io.cpp:213-252: saveOrAppendToHDF5 for [n] records and their columns.
    Without [append] the file is truncated. *)
Definition save_or_append (d : h5disk) (name : string) (n : nat)
    (cols : outcome (list (string * column))) (base : string) (append : bool) : outcome h5disk :=
  if Nat.eqb n 0 then Ok d
  else
    let f := match d name with
             | Some f => if append then f else []
             | None => []
             end in
    let! gname := if append then generate_group_name f base else Ok base in
    let! cs := cols in
    Ok (put_file d name (set_group f gname (group_of cs))).

(** std::filesystem::path as its parts; how a string is split into parts is not
    modelled. *)
Record path := Path { p_parent : string; p_stem : string; p_ext : string }.
Definition render (p : path) : string :=
  ((if String.eqb (p_parent p) "" then "" else p_parent p ++ "/") ++ p_stem p ++ p_ext p)%string.

(** std::setfill('0') << std::setw(6). *)
Definition pad6 (d : Decimal.uint) : Decimal.uint :=
  Nat.iter (6 - Decimal.nb_digits d) D0 d.
Definition digits6 (n : nat) : string := NilZero.string_of_uint (pad6 (Nat.to_uint n)).

(** disk_io.cpp:129-155: generateFileNameWithMicroTimestamp; [micros] is the
    fraction of the current second in microseconds. *)
Definition with_micros (p : path) (micros : nat) : path :=
  Path (p_parent p) (p_stem p ++ "_" ++ digits6 micros)%string
       (if String.eqb (p_ext p) "" then ".h5" else p_ext p)%string.

(** disk_io.cpp:293-315, 380-403: saveHitsToHDF5, saveNeutronToHDF5. *)
Definition save_new (d : h5disk) (p : path) (micros : nat) (n : nat)
    (cols : outcome (list (string * column))) (base : string) : outcome h5disk :=
  let final := match d (render p) with
               | Some _ => render (with_micros p micros)
               | None => render p
               end in
  save_or_append d final n cols base false.
Definition save_hits (d : h5disk) (p : path) (micros : nat) (hits : list hit) : outcome h5disk :=
  save_new d p micros (length hits) (hit_columns hits) "hits".
Definition save_neutrons (d : h5disk) (p : path) (micros : nat) (ns : list neutron) : outcome h5disk :=
  save_new d p micros (length ns) (Ok (neutron_columns ns)) "neutrons".

(** disk_io.cpp:326-341, 414-430: appendHitsToHDF5, appendNeutronToHDF5. *)
Definition append_hits_group (d : h5disk) (name : string) (hits : list hit) : outcome h5disk :=
  save_or_append d name (length hits) (hit_columns hits) "hits" true.
Definition append_neutrons_group (d : h5disk) (name : string) (ns : list neutron) : outcome h5disk :=
  save_or_append d name (length ns) (Ok (neutron_columns ns)) "neutrons" true.
