(** What the GDC extractor should report. *)
From Coq Require Export Sorted.
From Verif Require Export M_Gdc S_Tpx3 S_Cli.
Global Open Scope Z_scope.
Global Open Scope list_scope.

(** Packets with the four header bytes "TPX3". *)
Definition tpx3_header (p : packet) : Prop := b0 p = 84 /\ b1 p = 80 /\ b2 p = 88 /\ b3 p = 51.

(** GDC packets that are not headers, and those with the upper bits. *)
Definition gdc_packet (p : packet) : Prop := ~ tpx3_header p /\ b7 p / 16 = 4.
Definition msb (p : packet) : Prop := ~ tpx3_header p /\ b7 p = 69.

(** The sublist of the elements with a property. *)
Inductive sublist {A} (P : A -> Prop) : list A -> list A -> Prop :=
| sub_nil : sublist P [] []
| sub_keep a l r : P a -> sublist P l r -> sublist P (a :: l) (a :: r)
| sub_drop a l r : ~ P a -> sublist P l r -> sublist P (a :: l) r.

(** The timestamp assembled from the GDC packets among [ps]. *)
Definition timestamp_after (ps : list packet) (v : Z) : Prop :=
  exists gs, sublist gdc_packet ps gs /\ current_gdc gs v.

(** Packet number [k] belongs to the chip of the last header before it, which must
    be in the same chunk of [c] packets. *)
Definition attributed (c : nat) (ps : list packet) (k : nat) (chip : Z) : Prop :=
  exists j h, (k / c * c <= j < k)%nat /\ nth_error ps j = Some h /\ tpx3_header h /\
    (forall i q, (j < i < k)%nat -> nth_error ps i = Some q -> ~ tpx3_header q) /\
    declares_chip h chip.

(** The lines that are due. *)
Definition due (c : nat) (ps : list packet) (r : row) : Prop :=
  exists k p, nth_error ps k = Some p /\ msb p /\
    row_offset r = 8 * Z.of_nat k /\
    timestamp_after (firstn (S k) ps) (row_value r) /\ row_value r <> 0 /\
    attributed c ps k (row_chip r) /\ 0 <= row_chip r /\
    row_ns r = 25 * row_value r.

(** * The command line *)

Definition gsel_i a := match a with Gi s => Some s | _ => None end.
Definition gsel_o a := match a with Go s => Some s | _ => None end.
(** -c counts mebibytes, modulo 2^64 bytes. *)
Definition gsel_c (stoull : string -> option Z) a :=
  match a with
  | Gc s => match stoull s with Some n => Some ((n * 2 ^ 20) mod 2 ^ 64) | None => None end
  | _ => None
  end.
Definition gsel_d a := match a with Gd => Some true | _ => None end.
Definition gsel_v a := match a with Gv => Some true | _ => None end.

Definition read_gdc_options (stoull : string -> option Z) (args : list gdc_arg) (o : gdc_options) : Prop :=
  chosen gsel_i ""%string args (go_input o) /\ chosen gsel_o ""%string args (go_output o) /\
  chosen (gsel_c stoull) (5 * 2 ^ 30) args (go_chunk o) /\
  chosen gsel_d false args (go_debug o) /\ chosen gsel_v false args (go_verbose o).

Definition acceptable_gdc (stoull : string -> option Z) (args : list gdc_arg) : Prop :=
  ~ In Gbad args /\ forall s, In (Gc s) args -> stoull s <> None.

(** Input and output are named and usable, the chunk size is between one
    mebibyte and twenty gibibytes. *)
Definition valid_gdc_options (e : gdc_env) (o : gdc_options) : Prop :=
  go_input o <> ""%string /\ go_output o <> ""%string /\
  ge_exists e (go_input o) = true /\ ge_readable e (go_input o) = true /\
  ge_dir_ok e (go_output o) = true /\ ge_writable e (go_output o) = true /\
  2 ^ 20 <= go_chunk o <= 20 * 2 ^ 30.
