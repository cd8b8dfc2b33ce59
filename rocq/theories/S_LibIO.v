(** Specification of the file output and the parameter file of SophireadLib. *)
From Coq Require Import Ascii.
From Verif Require Export S_Config S_Hdf5 M_LibIO.
Global Open Scope string_scope.
Global Open Scope Z_scope.
Global Open Scope list_scope.

(** * HDF5 files *)

(** What each dataset records of one hit, one label or one event. *)
Inductive hit_ints : string -> (hit -> Z) -> Prop :=
| HI_x : hit_ints "x" h_x
| HI_y : hit_ints "y" h_y.
Inductive hit_doubles : string -> (hit -> option f64) -> Prop :=
| HD_tot : hit_doubles "tot_ns" (fun h => Some (tot_ns h))
| HD_toa : hit_doubles "toa_ns" (fun h => Some (toa_ns h))
| HD_ftoa : hit_doubles "ftoa_ns" (fun h => Some (ftoa_ns h))
| HD_tof : hit_doubles "tof_ns" tof_ns
| HD_spider : hit_doubles "spidertime_ns" (fun h => Some (spider_ns h)).
Inductive event_doubles : string -> (neutron -> f64) -> Prop :=
| ED_x : event_doubles "x" n_x
| ED_y : event_doubles "y" n_y
| ED_tof : event_doubles "tof_ns" n_tof_ns
| ED_tot : event_doubles "tot" n_tot.

(** The file has one group of this name, with these datasets and no others. *)
Definition only_group (f : lfile) (grp : string) (names : list string) (g : lgroup) : Prop :=
  f = [(grp, g)] /\ map fst g = names /\ NoDup names.

(** A dataset of the same size and type with zeros. *)
Inductive zeros_of : dset -> dset -> Prop :=
| ZI l : zeros_of (Ints l) (Ints (repeat 0 (length l)))
| ZD l : zeros_of (Doubles l) (Doubles (repeat (f_of_Z 0) (length l))).
(** What a failure leaves: every dataset but the last holds its values. *)
Definition partly (full g : lgroup) : Prop :=
  exists done last, g = done ++ last /\ (exists rest, full = done ++ rest) /\
    (last = [] \/ exists n dt z, last = [(n, z)] /\ zeros_of dt z /\ In (n, dt) full).

(** * The parameter file *)

(** As [setting], but a line without a value does not count. *)
Definition given {A} (key : string) (R : string -> A -> Prop) (dflt : A) (ls : list string) (v : A) : Prop :=
  (exists l x r s, ls = l ++ x :: r /\ says x key s /\ s <> "" /\ R s v /\
     Forall (fun y => forall w, says y key w -> w = "") r) \/
  (v = dflt /\ Forall (fun y => forall w, says y key w -> w = "") ls).

(** An unsigned 64-bit number at the beginning of [s]: negative numbers wrap,
    and what has more than 64 bits becomes the largest number. *)
Definition reads_ulong (s : string) (n : Z) : Prop :=
  exists sign ds tail z, s = (sign ++ ds ++ tail)%string /\ numeral ds z /\ no_digit_first tail /\
    (2 ^ 64 <= z -> n = 2 ^ 64 - 1) /\
    (z < 2 ^ 64 -> 0 <= n < 2 ^ 64 /\
       ((sign = "-" /\ (n + z) mod 2 ^ 64 = 0) \/ (sign <> "-" /\ n = z))) /\
    (sign = "-" \/ sign = "+" \/
     (sign = "" /\ (ds = "" -> forall c r, tail = String c r -> c <> "-"%char /\ c <> "+"%char))).
(** A number that is the same for an int and for 64 bits. *)
Definition short_number (s : string) : Prop :=
  exists sign ds tail z, s = (sign ++ ds ++ tail)%string /\ numeral ds z /\ no_digit_first tail /\
    (z < 2 ^ 31 \/ (sign = "-" /\ z = 2 ^ 31)) /\
    (sign = "-" \/ sign = "+" \/
     (sign = "" /\ (ds = "" -> forall c r, tail = String c r -> c <> "-"%char /\ c <> "+"%char))).
(** All sizes and times in the lines are such numbers. *)
Definition short_numbers (ls : list string) : Prop :=
  Forall (fun l => forall k s, In k ["abs_min_cluster_size"; "spider_time_range"] -> says l k s -> short_number s) ls.
