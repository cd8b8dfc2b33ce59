(** Specification of the GUI. *)
From Coq Require Import Reals.
From Flocq Require Import Core.
From Verif Require Export S_Display S_Centroid M_Gui.
Global Open Scope Z_scope.
Global Open Scope list_scope.

(** The hits of a file. *)
Definition file_hits (m : list Z) (hs : list hit) : Prop :=
  exists xs, framed at_end m xs /\ hs = alt_hits (Alt 0 0) (pixels xs).
(** Arrival times of less than 81 days. *)
Definition early (hs : list hit) : Prop := Forall (fun h => h_spider h < 2 ^ 48) hs.

(** The events of the hits: four slots, radius 5 pixels, 75 ns; weighted centroid
    of every cluster. *)
Definition hits_events (hs : list hit) (evs : list neutron) : Prop :=
  exists ls op closed,
    clusters 4 (fits_box (5 * 2 ^ 20) 75) hs ls op closed /\
    events (centroid_fit true (f_of_Z 1)) 1 (clusters_of (length op + length closed) ls hs) evs.
Definition file_events (m : list Z) (evs : list neutron) : Prop :=
  exists hs, file_hits m hs /\ hits_events hs evs.

(** The double [v] lies in the unit interval that begins at [i]. *)
Definition in_unit (v : f64) (i : Z) : Prop :=
  is_finite v = true /\ (IZR i <= B2R v < IZR (i + 1))%R.
(** The pixel in which an event falls after rotation, if it is in the image. *)
Definition falls_in (rot : rotation) (e : neutron) (c : option (Z * Z)) : Prop :=
  let v := rotated rot (n_x e) (n_y e) in
  match c with
  | Some (i, j) => in_unit (fst v) i /\ in_unit (snd v) j /\ 0 <= i < 512 /\ 0 <= j < 512
  | None => forall i j, 0 <= i < 512 -> 0 <= j < 512 -> ~ (in_unit (fst v) i /\ in_unit (snd v) j)
  end.
(** How many of the events fall in pixel [(i, j)]. *)
Definition tally (rot : rotation) (es : list neutron) (i j n : Z) : Prop :=
  exists cs, Forall2 (falls_in rot) es cs /\
    n = zlen (filter (fun c => match c with Some (a, b) => (a =? i) && (b =? j) | None => false end) cs).

(** The files chosen. *)
Definition picked (l : list action) : list (option (list Z)) :=
  flat_map (fun a => match a with ARead (Chosen f) => [f] | _ => [] end) l.
(** A file of bytes whose hits, if it can be read, are early. *)
Definition usual_file (f : option (list Z)) : Prop :=
  match f with Some m => bytes_ok m /\ forall hs, file_hits m hs -> early hs | None => True end.
