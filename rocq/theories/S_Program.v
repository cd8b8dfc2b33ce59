(** What the command line program leaves behind. *)
From Coq Require Import Reals String.
From Verif Require Export M_Program S_Main S_Config.
Global Open Scope Z_scope.
Global Open Scope list_scope.

(** The command line is accepted, and means [o]. *)
Definition understood (w : outside) (args : list arg) (o : options) : Prop :=
  acceptable (env_stoull w) args /\ read_options (env_stoull w) args o /\ valid_options o.
(** The configuration named by the command line is [cfg]. *)
Definition configured (w : outside) (o : options) (cfg : config) : Prop :=
  load_config (env_double w) (env_json w) (o_config o) (env_config w (o_config o)) = Ok (Some cfg).
(** The input can be mapped. *)
Definition readable (w : outside) (o : options) : Prop :=
  exists b m, env_input w (o_input o) = Some (b :: m).
(** The HDF5 files asked for can be created one after the other. *)
Definition hits_created (w : outside) (o : options) : Prop :=
  o_hits o <> ""%string -> env_creates w [] (o_hits o) = true.
Definition events_created (w : outside) (o : options) : Prop :=
  o_events o <> ""%string ->
  (o_hits o = ""%string -> env_creates w [] (o_events o) = true) /\
  (o_hits o <> ""%string -> env_creates w [o_hits o] (o_events o) = true).
(** A file cannot be created while it is open. *)
Definition exclusive (w : outside) : Prop := forall l n, In n l -> env_creates w l n = false.
(** A configuration file that is named but is no JSON text. *)
Definition broken_json (w : outside) (o : options) : Prop :=
  json_name (o_config o) /\ forall s, env_config w (o_config o) = Text s -> env_json w s = None.
