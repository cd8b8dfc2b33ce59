(** Specification of the programs benchmark_raw2hits and benchmark_raw2events. *)
From Coq Require Import Reals String Permutation.
From Flocq Require Import Core.
From Verif Require Export S_Mmap S_Hdf5 M_Bench.
Global Open Scope Z_scope.
Global Open Scope list_scope.

(** The scheduler finishes every iteration once, in any order. *)
Definition every_once (order : nat -> list nat) : Prop := forall n, Permutation (order n) (seq 0 n).

(** No argument, or a file that cannot be opened. *)
Definition no_input (input : string -> option (list Z)) (args : list string) : Prop :=
  match args with [] => True | inp :: _ => input inp = None end.

(** The hits of the datasets when every dataset starts without times, and when
    the times run through the file. *)
Definition hits_alone (ds : list dataset) (hss : list (list hit)) : Prop :=
  Forall2 (fun d hs => exists chip, declares_chip (ds_header d) chip /\
                         yields GDC_mode chip ts0 (d_payload d) hs) ds hss.
Definition hits_running (ds : list dataset) (hss : list (list hit)) : Prop :=
  exists s, processed GDC_mode ts0 ds hss s.

(** More than 16.67 ms after the pulse (times of flight count 25 ns). *)
Definition late (h : hit) : Prop := exists t, h_tof h = Some t /\ 25 * t > 16670000.

(** The largest of 0 and the numbers. *)
Definition largest (l : list Z) (v : Z) : Prop := In v (0 :: l) /\ Forall (fun k => k <= v) (0 :: l).

(** The double is the integer. *)
Definition double_is (v : f64) (k : Z) : Prop := is_finite v = true /\ B2R v = IZR k.

Definition verify_file : string := "verify_spidertime.h5".

(** The file the hits go to: the name asked for if it is free, otherwise that name
    with six digits for the microseconds. *)
Definition goes_to (d : h5disk) (micros : nat) (final : string) : Prop :=
  (d verify_file = None /\ final = verify_file) \/
  (d verify_file <> None /\ exists s, decimal_numeral micros s /\ String.length s = 6%nat /\
     final = ("verify_spidertime_" ++ s ++ ".h5")%string).

(** The hits were saved: nothing if there are none, otherwise in one file, and
    only that file changed. *)
Definition saved_hits (d d' : h5disk) (hits : list hit) (final : string) : Prop :=
  (hits = [] -> d' = d) /\
  (hits <> [] -> exists f g, d' final = Some f /\ find_group f "hits" = Some g /\
     (forall grp, grp <> "hits"%string -> find_group f grp = None) /\
     (forall n fld, hit_field n fld -> exists c, g n = Some c /\ map Some c = map fld hits)) /\
  (forall other, other <> final -> d' other = d other).

(** The arrival times in a file. *)
Definition file_times (f : h5file) (c : list f64) : Prop :=
  exists g, find_group f "hits" = Some g /\ g "spidertime_ns"%string = Some c.

(** A clock that is not about to overflow: no coarse time of its last period of
    2^32 units. *)
Definition clock_fits (d : dataset) : Prop :=
  Forall (fun p => kind_of p = KGdc -> gdc_subtype p = 5 -> msb_value p < 2 ^ 16 - 1) (d_payload d).
