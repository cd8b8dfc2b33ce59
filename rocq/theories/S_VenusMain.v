(** What the program of the auto reducer should do. *)
From Verif Require Export M_VenusMain S_Venus.
Global Open Scope Z_scope.
Global Open Scope list_scope.

(** The command line is accepted and means [o]. *)
Definition understood_venus (stoi : string -> option Z) (args : list varg) (o : venus_options) : Prop :=
  acceptable_venus stoi args /\ read_venus_options stoi args o /\ valid_venus_options o.
(** The configuration named by it is [cfg] (C52). *)
Definition configured_venus (parse : string -> option json) (conf : string -> source) (o : venus_options) (cfg : config) : Prop :=
  load_venus_config parse (vo_config o) (conf (vo_config o)) = Ok cfg.
(** A file is named that is missing, cannot be opened or is no JSON text. *)
Definition no_json (parse : string -> option json) (conf : string -> source) (o : venus_options) : Prop :=
  vo_config o <> ""%string /\ forall s, conf (vo_config o) = Text s -> parse s = None.

(** The setting of C38 that belongs to the options. *)
Definition setup_of (ext : externals) (o : venus_options) (cfg : config) : setup :=
  Setup ext cfg (String.eqb (vo_mode o) "hit") (vo_out o) (vo_base o).

(** The directory could be listed, or a *.nxs.h5 file was seen in it. *)
Definition sound (v : visit) : Prop := vs_check_ok v = true /\ vs_scan_ok v = true.
Definition round_of (v : visit) : round := Round (vs_check v) (vs_scan v).
Definition visit_stops (v : visit) : Prop := exists n, In (n, true) (vs_check v) /\ stop_name n.

Definition code_of (q : status) : option Z :=
  match q with Running => None | Stopped => Some 0 | Exited => Some 1 end.
