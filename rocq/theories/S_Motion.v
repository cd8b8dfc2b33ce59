(** Hits moved in place and time: shifts, reflections and exchange of the axes. *)
From Coq Require Import Reals String Permutation.
From Flocq Require Import Core.
From Verif Require Export S_Abs S_Centroid S_Program S_Measure.
Global Open Scope Z_scope.

(** Exchange of the axes, then reflection, then a shift; a shift of the arrival
    (in ticks of 25 ns). *)
Record motion := Motion
  { m_swap : bool; m_flip_x : bool; m_flip_y : bool; m_dx : Z; m_dy : Z; m_dt : Z }.
Definition along (flip : bool) (d v : Z) : Z := if flip then d - v else d + v.
Definition along_R (flip : bool) (d : Z) (v : R) : R := if flip then (IZR d - v)%R else (IZR d + v)%R.

(** Hit [h'] is [h] moved.  It may have any chip time. *)
Definition moves (m : motion) (h h' : hit) : Prop :=
  h_x h' = along (m_flip_x m) (m_dx m) (if m_swap m then h_y h else h_x h) /\
  h_y h' = along (m_flip_y m) (m_dy m) (if m_swap m then h_x h else h_y h) /\
  h_spider h' = h_spider h + m_dt m /\ h_tot h' = h_tot h /\ h_tof h' = h_tof h.

(** A coordinate of a neutron is moved: up to 2^-40 pixels, and exactly if it is
    neither shifted nor reflected. *)
Definition coordinate_moves (flip : bool) (d : Z) (v v' : f64) : Prop :=
  is_finite v = true /\ is_finite v' = true /\
  (Rabs (B2R v' - along_R flip d (B2R v)) <= bpow radix2 (-40))%R /\
  (flip = false -> d = 0 -> v' = v).

(** Neutron [e'] is [e] moved; time of flight, time over threshold and number of hits
    are the same. *)
Definition neutron_moves (m : motion) (e e' : neutron) : Prop :=
  coordinate_moves (m_flip_x m) (m_dx m) (if m_swap m then n_y e else n_x e) (n_x e') /\
  coordinate_moves (m_flip_y m) (m_dy m) (if m_swap m then n_x e else n_y e) (n_y e') /\
  n_tof e' = n_tof e /\ n_tot e' = n_tot e /\ n_hits e' = n_hits e.

(** The same hits, [dt] ticks later. *)
Definition later (dt : Z) : hit -> hit -> Prop := moves (Motion false false false 0 0 dt).

(** The program has processed a file of the datasets [ds] with the options [o] and
    the configuration [cfg], starting from the files [d], returned 0 and left the files [d']. *)
Definition completed (ext : externals) (o : options) (cfg : config) (ds : list dataset) (s : Z) (d d' : store) : Prop :=
  exists fuel w order args,
    exclusive w /\ (forall p, env_writable w p = true) /\ understood w args o /\ configured w o cfg /\
    env_input w (o_input o) = Some (stream ds) /\ Forall dataset_ok ds /\ Forall no_false_header ds /\
    0 < o_chunk o /\ cuts_at_datasets (o_chunk o) ds /\ (length (stream ds) <= fuel)%nat /\
    edges_ok (g_edges cfg) /\ side (g_sr cfg) s /\ 0 < s /\
    Permutation order (seq 0 (length (g_edges cfg) - 1)) /\
    (forall i, (i < length (g_edges cfg) - 1)%nat ->
       saved (d_files d) (tiff_name (o_tiff o) (o_base o) i) s s \/ unrelated (d_files d) (tiff_name (o_tiff o) (o_base o) i) s s) /\
    program fuel ext w order args d = Ok (Exit 0, d').

(** Files with the same columns for all neutrons. *)
Definition same_neutrons (d : store) (name : string) (d' : store) (name' : string) : Prop :=
  exists f f', d_h5 d name = Some f /\ d_h5 d' name' = Some f' /\
    forall n fld, neutron_field n fld -> col f' "neutrons" n = col f "neutrons" n.

(** The same history, [dt] ticks later. *)
Definition delay_act (dt : Z) (a : act) : act :=
  match a with
  | Ref G => Ref (G + dt)
  | Pulse T => Pulse (T + dt)
  | Fire x y tot ftoa H => Fire x y tot ftoa (H + dt)
  end.
Definition delayed (dt : Z) (ys : list (Z * Z * Z * list act)) : list (Z * Z * Z * list act) :=
  map (fun x => match x with (b3, chip, b5, l) => (b3, chip, b5, map (delay_act dt) l) end) ys.
(** All its references stay below the end of the 48-bit clock. *)
Definition clock_lasts (dt : Z) (ys : list (Z * Z * Z * list act)) : Prop :=
  forall x G, In x ys -> In (Ref G) (snd x) -> G + dt < 2 ^ 48 - 2 ^ 32.
