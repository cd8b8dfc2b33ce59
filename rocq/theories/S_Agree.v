(** Runs of the command line program, one for each raw file of a run, that all add to
    the same images. *)
From Coq Require Import String.
From Verif Require Export S_Reduce S_Motion.
Global Open Scope Z_scope.
Global Open Scope list_scope.

(** One run after the other over files with these names, in this order, with the images in the directory [dir]:
    every input carries the hits that [truth] tells of the name, in GDC timing. *)
Inductive cli_runs (ext : externals) (cfg : config) (dir base mode : string) (truth : string -> list (list hit))
  : list string -> store -> store -> Prop :=
| cr_none d : cli_runs ext cfg dir base mode truth [] d d
| cr_run nm names o ds k d d1 d' :
    o_tiff o = dir -> o_base o = base -> o_mode o = mode -> timing_of o = GDC_mode ->
    recording around true nothing_known ds (truth nm) k ->
    completed ext o cfg ds 517 d d1 ->
    cli_runs ext cfg dir base mode truth names d1 d' ->
    cli_runs ext cfg dir base mode truth (nm :: names) d d'.
