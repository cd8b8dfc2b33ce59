(** True neutron events and what a detected neutron should tell about them. *)
From Coq Require Import Reals.
From Flocq Require Import Core.
From Verif Require Export S_Recover S_Centroid.
Global Open Scope Z_scope.

(** A true event: place on the sensor, start in ns, and the time of the pulse (in
    ticks of 25 ns) that set the neutron off. *)
Record event := Event { e_at : source; e_pulse : Z }.
Definition no_event : event := Event (Source 0 0 0) 0.
Definition nth_event (evs : list event) (l : nat) : event := nth l evs no_event.

(** The hits [hs] are those of the events [evs], hit [i] of event [own i]: within
    [a] pixels and [w] ns of it, flying since its pulse, events apart. *)
Definition observed (n : nat) (a w r range : Z) (evs : list event) (hs : list hit) (own : list nat) : Prop :=
  isolated n a w r range (fun l => e_at (nth_event evs l)) hs own /\
  (forall l, In l own <-> (l < length evs)%nat) /\
  (forall i l h, nth_error own i = Some l -> nth_error hs i = Some h ->
     0 < h_tot h /\ h_tof h = Some (h_spider h - e_pulse (nth_event evs l))).

(** Columns and rows go from 0 to 515. *)
Definition on_sensor (v : R) : Prop := (0 <= v <= 515 + bpow radix2 (-41))%R.

(** The neutron [e] tells of event [ev] with the hits [c]: position within [a]
    pixels (up to rounding), time of flight in ns within the [w] ns of the event,
    number of hits and summed time over threshold exactly. *)
Definition tells (a w : Z) (ev : event) (c : list hit) (e : neutron) : Prop :=
  let s := e_at ev in
  is_finite (n_x e) = true /\ is_finite (n_y e) = true /\ is_finite (n_tof_ns e) = true /\
  is_finite (n_tot_ns e) = true /\
  (Rabs (B2R (n_x e) - IZR (at_x s)) <= IZR a + bpow radix2 (-41))%R /\
  (Rabs (B2R (n_y e) - IZR (at_y s)) <= IZR a + bpow radix2 (-41))%R /\
  on_sensor (B2R (n_x e)) /\ on_sensor (B2R (n_y e)) /\
  (IZR (Z.max 0 (at_t s - 25 * e_pulse ev)) <= B2R (n_tof_ns e) <= IZR (at_t s + w - 25 * e_pulse ev))%R /\
  n_hits e = zlen c /\ B2R (n_tot_ns e) = IZR (25 * hsum h_tot c).

(** One neutron for each event, in the same order. *)
Definition accounts (a w : Z) (evs : list event) (hs : list hit) (own : list nat) (ns : list neutron) : Prop :=
  length ns = length evs /\
  forall l e, nth_error ns l = Some e -> tells a w (nth_event evs l) (members l own hs) e.

(** What one dataset is exposed to. *)
Record exposure := Exposure { x_events : list event; x_hits : list hit; x_own : list nat }.
Definition exposed (n : nat) (a w r range : Z) (x : exposure) : Prop :=
  observed n a w r range (x_events x) (x_hits x) (x_own x).
Definition accounted (a w : Z) (x : exposure) (ns : list neutron) : Prop :=
  accounts a w (x_events x) (x_hits x) (x_own x) ns.
