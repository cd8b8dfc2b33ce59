(** Specification of the program SophireadStream. *)
From Verif Require Export S_StreamCli S_LibIO M_StreamMain.
Local Open Scope string_scope.

(** The file written holds exactly the values of these events. *)
Definition streamed_file (evs : list neutron) (d : ldisk) : Prop :=
  exists f g, d "events_streamed.h5" = Some f /\
    only_group f "events" ["x"; "y"; "tof_ns"; "NHits"; "tot"] g /\
    In ("NHits", Ints (map n_hits evs)) g /\
    (forall nm fld, event_doubles nm fld -> In (nm, Doubles (map fld evs)) g).

(** Only the file of the program may differ. *)
Definition others_kept (d d' : ldisk) : Prop := forall n, n <> "events_streamed.h5" -> d' n = d n.

(** The HDF5 library does all it is asked for. *)
Definition hdf5_works (lib : h5lib) : Prop :=
  lib_opens lib = true /\ lib_group lib = true /\ forall k, lib_writes lib k = WrOk.
