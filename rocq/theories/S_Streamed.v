(** What the streaming program should tell of the true hits and events (C96). *)
From Verif Require Export S_StreamMain S_Measure S_Gauss S_Events.
From Coq Require Import Reals.
Global Open Scope Z_scope.
Global Open Scope list_scope.

(** The file of a recording, as far as the program can read it: by the letter of
    the language, if it ends in a few stray bytes; if local arrays keep their content
    ([keep]), if it ends in a packet that is not a pixel packet. *)
Inductive readable : bool -> list dataset -> list Z -> Prop :=
| rb_odd ds tail : bytes_ok tail -> odd_end tail -> readable false ds (stream ds ++ tail)
| rb_keep ds d ps p : d_payload d = ps ++ [p] -> kind_of p <> KPixel -> readable true (ds ++ [d]) (stream (ds ++ [d])).

(** A batch: hits with the number of the event each stems from. *)
Definition share (l : nat) (b : list (hit * nat)) : list hit := members l (map snd b) (map fst b).

(** The fit puts the event on the sensor's side of the axes. *)
Definition placed_by_fit (ext : externals) (c : list hit) (e : neutron) : Prop :=
  gauss_fit ext (f_of_Z 1) c = Ok e /\ fge (n_x e) (f_of_Z 0) = true /\ fge (n_y e) (f_of_Z 0) = true.

(** What is reported of event [ev] with the hits [c] of a batch: the number of
    hits; and, if any hit is higher than the median, a time of flight within the
    [w] ns of the event. *)
Definition reported (ext : externals) (w : Z) (ev : event) (c : list hit) (e : neutron) : Prop :=
  placed_by_fit ext c e /\ n_hits e = zlen c /\
  (forall m, twice_median (map h_tot c) m -> above m c <> [] ->
     is_finite (n_tof_ns e) = true /\
     (IZR (at_t (e_at ev) - 25 * e_pulse ev) <= B2R (n_tof_ns e) <= IZR (at_t (e_at ev) + w - 25 * e_pulse ev))%R).

(** The events [es] reported of a batch: those of the true events with at least 8
    hits in the batch that the fit puts there, each once. *)
Definition reports (ext : externals) (w : Z) (evs : list event) (b : list (hit * nat)) (es : list neutron) : Prop :=
  exists who, NoDup who /\
    (forall l, In l who <-> 8 <= zlen (share l b) /\ exists e, placed_by_fit ext (share l b) e) /\
    Forall2 (fun l e => reported ext w (nth_event evs l) (share l b) e) who es.
