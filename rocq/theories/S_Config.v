(** What a configuration means. *)
From Coq Require Import Ascii Reals Sorted.
From Flocq Require Import Core.Raux.
From Verif Require Export M_Config S_Tof S_Cli.
Global Open Scope string_scope.
Global Open Scope Z_scope.
Global Open Scope list_scope.

(** * Time-of-flight bins *)

(** [edges] divide 0..max into [n] bins, up to a relative error of 2^-51. *)
Definition divides_evenly (max : f64) (n : Z) (edges : list f64) : Prop :=
  length edges = Z.to_nat (n + 1) /\
  forall i e, nth_error edges i = Some e ->
    is_finite e = true /\
    (Rabs (B2R e - B2R max * INR i / IZR n) <= / 2 ^ 51 * (B2R max * INR i / IZR n))%R.

(** * Text configuration *)

Definition white (c : ascii) : Prop := In c [" "; "009"; "010"; "011"; "012"; "013"]%char.
Inductive all_chars (P : ascii -> Prop) : string -> Prop :=
| ac_nil : all_chars P EmptyString
| ac_cons c s : P c -> all_chars P s -> all_chars P (String c s).
Definition starts_dark (s : string) : Prop := exists c r, s = String c r /\ ~ white c.

(** A line names a parameter, and gives it a value unless [value] is empty. *)
Definition says (line key value : string) : Prop :=
  exists pre gap, line = (pre ++ key ++ gap ++ value)%string /\
    all_chars white pre /\ all_chars (fun c => ~ white c) key /\ key <> "" /\ all_chars white gap /\
    ((value = "") \/ (gap <> "" /\ starts_dark value)).

Definition shows_digit (c : ascii) (d : Z) : Prop := 0 <= d <= 9 /\ c = ascii_of_nat (Z.to_nat (48 + d)).
(** The digits [ds] have the value [n]. *)
Inductive numeral : string -> Z -> Prop :=
| num_nil : numeral "" 0
| num_snoc ds n c d : numeral ds n -> shows_digit c d -> numeral (ds ++ String c "") (10 * n + d).
Definition no_digit_first (s : string) : Prop := forall c r d, s = String c r -> ~ shows_digit c d.
(** An int at the beginning of [s]: the longest numeral, limited to 32 bits. *)
Definition reads_int (s : string) (n : Z) : Prop :=
  exists sign ds tail z, s = (sign ++ ds ++ tail)%string /\ numeral ds z /\ no_digit_first tail /\
    ((sign = "-" /\ n = Z.max (- 2 ^ 31) (- z)) \/
     (sign = "+" /\ n = Z.min (2 ^ 31 - 1) z) \/
     (sign = "" /\ n = Z.min (2 ^ 31 - 1) z /\ (ds = "" -> forall c r, tail = String c r -> c <> "-"%char /\ c <> "+"%char))).

(** The value of [key] is that of the last line about it, or the default. *)
Definition setting {A} (key : string) (R : string -> A -> Prop) (dflt : A) (ls : list string) (v : A) : Prop :=
  (exists l x r s, ls = l ++ x :: r /\ says x key s /\ R s v /\ Forall (fun y => forall w, ~ says y key w) r) \/
  (v = dflt /\ Forall (fun y => forall w, ~ says y key w) ls).
Definition int_setting (s : string) (v : Z) : Prop := exists n, reads_int s n /\ v = n mod 2 ^ 64.
Definition the_keys : list string := ["abs_radius"; "abs_min_cluster_size"; "spider_time_range"].
(** No line leaves out a value that is needed. *)
Definition complete (ls : list string) : Prop :=
  Forall (fun l => forall k, In k the_keys -> ~ says l k "") ls.

(** A text made of lines. *)
Fixpoint text_of (ls : list string) : string :=
  match ls with [] => "" | l :: r => (l ++ String (ascii_of_nat 10) (text_of r))%string end.
Definition one_line (l : string) : Prop := all_chars (fun c => c <> ascii_of_nat 10) l.

(** * JSON configuration *)

Inductive at_path : json -> list string -> json -> Prop :=
| at_here j : at_path j [] j
| at_field l1 k v l2 p x : ~ In k (map fst l1) -> at_path v p x ->
    at_path (JObject (l1 ++ (k, v) :: l2)) (k :: p) x.
(** The path leads nowhere: an object lacks the key, or a scalar is met. *)
Inductive nowhere : json -> list string -> Prop :=
| no_key l k p : ~ In k (map fst l) -> nowhere (JObject l) (k :: p)
| no_scalar j k p : (forall l, j <> JObject l) -> (forall l, j <> JArray l) -> nowhere j (k :: p)
| no_below l1 k v l2 p : ~ In k (map fst l1) -> nowhere v p -> nowhere (JObject (l1 ++ (k, v) :: l2)) (k :: p).
(** The value at the path, or the default. *)
Definition taken {A} (j : json) (path : list string) (R : json -> A -> Prop) (dflt v : A) : Prop :=
  (exists l, j = JObject l) /\
  ((exists x, at_path j path x /\ R x v) \/ (nowhere j path /\ v = dflt)).
Inductive is_double : json -> f64 -> Prop :=
| id_int z : is_double (JInt z) (f_of_Z z)
| id_float f : is_double (JFloat f) f.
(** Truncation towards zero. *)
Definition truncated (f : f64) (z : Z) : Prop := is_finite f = true /\ z = Ztrunc (B2R f).
Inductive is_ulong : json -> Z -> Prop :=
| iu_int z : is_ulong (JInt z) (z mod 2 ^ 64)
| iu_float f z : truncated f z -> 0 <= z < 2 ^ 64 -> is_ulong (JFloat f) z.
Inductive is_int32 : json -> Z -> Prop :=
| ii_int z n : - 2 ^ 31 <= n < 2 ^ 31 -> (n - z) mod 2 ^ 32 = 0 -> is_int32 (JInt z) n
| ii_float f z : truncated f z -> - 2 ^ 31 <= z < 2 ^ 31 -> is_int32 (JFloat f) z
| ii_bool b : is_int32 (JBool b) (if b then 1 else 0).
Definition not_given (j : json) (path : list string) : Prop := forall x, ~ at_path j path x.
Inductive binning_of (j : json) : binning -> Prop :=
| bo_custom l e : at_path j ["tof_imaging"; "bin_edges"] (JArray l) -> Forall2 is_double l e ->
    binning_of j (Binning (Some 1500) (Some (f_lit 1 60)) e)
| bo_uniform u n x : not_given j ["tof_imaging"; "bin_edges"] ->
    at_path j ["tof_imaging"; "uniform_bins"] u ->
    taken u ["num_bins"] is_int32 1500 n -> taken u ["end"] is_double (f_lit 167 10000) x ->
    binning_of j (Binning (Some n) (Some x) [])
| bo_default : not_given j ["tof_imaging"; "bin_edges"] -> not_given j ["tof_imaging"; "uniform_bins"] ->
    binning_of j (Binning (Some 1500) (Some (f_lit 167 10000)) []).

(** Doubles without an integer part in the range of the type. *)
Definition no_u64 (f : f64) : Prop := forall z, truncated f z -> ~ (0 <= z < 2 ^ 64).
Definition no_i32 (f : f64) : Prop := forall z, truncated f z -> ~ (- 2 ^ 31 <= z < 2 ^ 31).

(** * Choice of the format *)

(** The file name proper (after the last slash) ends in .json and has something
    before that. *)
Definition json_name (name : string) : Prop :=
  exists dir base, name = (dir ++ base ++ ".json")%string /\ base <> "" /\
    all_chars (fun c => c <> "/"%char) base /\ (dir = "" \/ exists d, dir = (d ++ "/")%string).
(** The bins used when nothing else is said. *)
Definition default_edges (max : f64) (edges : list f64) : Prop :=
  get_bin_edges (Binning (Some 1500) (Some max) []) = Ok edges.
