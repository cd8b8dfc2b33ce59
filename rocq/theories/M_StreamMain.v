(** Model of the program SophireadStream
    (sophiread/SophireadStreamCLI/src/sophiread_stream.cpp:167-191) from its
    arguments to the exit code and the file it writes. *)
From Verif Require Export M_StreamCli M_LibIO.
Local Open Scope string_scope.

(** How the program ends: main returns; an exception that nothing catches
    (std::terminate); or behaviour is undefined. *)
Inductive stream_end := SExit (code : Z) (d : ldisk) | SAbort (d : ldisk) | SUndefined.

(** sophiread_stream.cpp:185-190; [r] are the events or the way they were missed. *)
Definition stream_save (lib : h5lib) (d : ldisk) (r : outcome (list neutron)) : stream_end :=
  match r with
  | Ok evs =>
      match lib_save_events lib d "events_streamed.h5" evs with
      | (Ok _, d') => SExit 0 d'
      | (_, d') => SAbort d'
      end
  | Throw _ => SAbort d
  | UB _ | OutOfFuel => SUndefined
  end.

(** sophiread_stream.cpp:167-191: the ways in which a run may end; none if it goes
    on forever.  [args] are the arguments after the name of the program; [input]
    gives the bytes of the files that can be opened for reading.  If the input
    cannot be opened, the reader returns without setting [done] (lines 64-67). *)
Definition stream_main (keep : bool) (ext : externals) (lib : h5lib) (input : string -> option (list Z))
    (args : list string) (d : ldisk) (e : stream_end) : Prop :=
  match args with
  | [file] =>
      match input file with
      | Some m => exists r, stream_run keep ext m r /\ e = stream_save lib d r
      | None => exists s : sys hit, sys_steps false (sys_start []) s /\ y_pc s = PEnd /\
                  e = stream_save lib d (saved_events ext (y_out s))
      end
  | _ => e = SExit 1 d
  end.
