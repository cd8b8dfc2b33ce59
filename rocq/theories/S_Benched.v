(** What the benchmark programs should tell about a recording of true events. *)
From Coq Require Import Reals List ZArith.
From Verif Require Export S_Bench S_Measure S_Events.
Global Open Scope Z_scope.
Global Open Scope list_scope.

(** Times written for event [ev]: 25 times a time of flight in ns within the [w] ns
    of the event. *)
Definition late_by_25 (w : Z) (ev : event) (e : neutron) : Prop :=
  let s := e_at ev in
  is_finite (tof_written e) = true /\
  (IZR (25 * Z.max 0 (at_t s - 25 * e_pulse ev)) <= B2R (tof_written e) <= IZR (25 * (at_t s + w - 25 * e_pulse ev)))%R.

(** All events and hits of the datasets. *)
Definition true_events (xs : list exposure) : list event := concat (map x_events xs).
Definition true_hits (xs : list exposure) : list hit := concat (map x_hits xs).

(** At least 16.675 microseconds (667 ticks of 25 ns) after the pulse. *)
Definition after_17us (h : hit) : Prop := exists t, h_tof h = Some t /\ 667 <= t.
