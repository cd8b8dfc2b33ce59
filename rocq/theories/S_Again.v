(** The same run several times. *)
From Coq Require Import String.
From Verif Require Export S_Damage S_Same.
Global Open Scope Z_scope.

(** [n] runs (at least one) of the program over the same recording, into the same files. *)
Inductive again (ext : externals) (o : options) (cfg : config) (ds : list dataset) (s : Z) (d : store) : Z -> store -> Prop :=
| ag_first d1 : completed ext o cfg ds s d d1 -> again ext o cfg ds s d 1 d1
| ag_next n d1 d2 : again ext o cfg ds s d n d1 -> completed ext o cfg ds s d1 d2 -> again ext o cfg ds s d (n + 1) d2.
