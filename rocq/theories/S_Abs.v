(** Specification of the adaptive box search clustering, independent of the
    slot records and loops of the model. *)
From Coq Require Import Reals.
From Flocq Require Import Core.
From Verif Require Export Base F64 M_Hit M_Neutron.
Global Open Scope Z_scope.

(** Arrival time in ns. *)
Definition arrival (h : hit) : Z := 25 * h_spider h.

(** A cluster: its number and its hits in order of arrival in the stream. *)
Record cl := Cl { cl_id : nat; cl_hits : list hit }.

(** The cluster's clock is the arrival time of its first hit. *)
Definition opened_at (c : cl) (t : Z) : Prop :=
  exists f rest, cl_hits c = f :: rest /\ t = arrival f.

(** A hit fits into a cluster: it arrives within [range] of the first hit, and
    its pixel lies in the bounding box of the hits collected so far, extended
    by the radius.  The radius is [rho / 2^20] pixels. *)
Definition fits_box (rho range : Z) (c : cl) (h : hit) : Prop :=
  (exists t, opened_at c t /\ Z.abs (arrival h - t) <= range) /\
  (exists a, In a (cl_hits c) /\ 2 ^ 20 * h_x a - rho <= 2 ^ 20 * h_x h) /\
  (exists a, In a (cl_hits c) /\ 2 ^ 20 * h_x h <= 2 ^ 20 * h_x a + rho) /\
  (exists a, In a (cl_hits c) /\ 2 ^ 20 * h_y a - rho <= 2 ^ 20 * h_y h) /\
  (exists a, In a (cl_hits c) /\ 2 ^ 20 * h_y h <= 2 ^ 20 * h_y a + rho).

(** [clusters n fits hs ls op cl]: after the hits [hs] the labels given so far
    are [ls], the open clusters are [op] (at most [n], in slot order) and the
    closed ones [cl] (in order of closing). *)
Inductive clusters (n : nat) (fits : cl -> hit -> Prop)
  : list hit -> list nat -> list cl -> list cl -> Prop :=
| cs_start : clusters n fits [] [] [] []
| cs_join hs ls pre c post closed h :
    clusters n fits hs ls (pre ++ c :: post) closed ->
    fits c h -> (forall c', In c' pre -> ~ fits c' h) ->
    clusters n fits (hs ++ [h]) (ls ++ [cl_id c])
      (pre ++ Cl (cl_id c) (cl_hits c ++ [h]) :: post) closed
| cs_open hs ls op closed h :
    clusters n fits hs ls op closed ->
    (forall c', In c' op -> ~ fits c' h) -> (length op < n)%nat ->
    clusters n fits (hs ++ [h]) (ls ++ [length op]) (op ++ [Cl (length op) [h]]) closed
| cs_evict hs ls pre c post closed h t :
    clusters n fits hs ls (pre ++ c :: post) closed ->
    (forall c', In c' (pre ++ c :: post) -> ~ fits c' h) ->
    length (pre ++ c :: post) = n ->
    opened_at c t ->
    (forall c' t', In c' pre -> opened_at c' t' -> t < t') ->
    (forall c' t', In c' post -> opened_at c' t' -> t <= t') ->
    clusters n fits (hs ++ [h]) (ls ++ [n + length closed]%nat)
      (pre ++ Cl (n + length closed) [h] :: post) (closed ++ [c]).

(** The hits of [hs] whose label in [ls] is [l], in order. *)
Definition members (l : nat) (ls : list nat) (hs : list hit) : list hit :=
  map snd (filter (fun p => Nat.eqb (fst p) l) (combine ls hs)).

(** The positions of [l] in [ls], in increasing order. *)
Definition positions (l : nat) (ls : list nat) : list nat :=
  filter (fun i => match nth_error ls i with Some l' => Nat.eqb l' l | None => false end)
         (seq 0 (length ls)).

(** A hit as it comes from the decoder: [int] coordinates and an arrival time
    below 2^48 ticks. *)
Definition hit_ok (h : hit) : Prop :=
  - 2 ^ 31 <= h_x h < 2 ^ 31 /\ - 2 ^ 31 <= h_y h < 2 ^ 31 /\ 0 <= h_spider h < 2 ^ 48.

(** The same with an arbitrary real radius and a tolerance. *)
Definition fits_real (eps r : R) (range : Z) (c : cl) (h : hit) : Prop :=
  (exists t, opened_at c t /\ Z.abs (arrival h - t) <= range) /\
  (exists a, In a (cl_hits c) /\ (IZR (h_x a) - r - eps <= IZR (h_x h))%R) /\
  (exists a, In a (cl_hits c) /\ (IZR (h_x h) <= IZR (h_x a) + r + eps)%R) /\
  (exists a, In a (cl_hits c) /\ (IZR (h_y a) - r - eps <= IZR (h_y h))%R) /\
  (exists a, In a (cl_hits c) /\ (IZR (h_y h) <= IZR (h_y a) + r + eps)%R).

Definition tiny : R := bpow radix2 (-32).
Definition tame (z : Z) : Prop := Z.abs z <= 2 ^ 20.
Definition tame_hit (h : hit) : Prop := tame (h_x h) /\ tame (h_y h) /\ hit_ok h.

(** The double [r] is the radius [rho / 2^20]. *)
Definition radius_is (r : f64) (rho : Z) : Prop :=
  is_finite r = true /\ B2R r = (IZR rho / IZR (2 ^ 20))%R /\ Z.abs rho <= 2 ^ 51.

(** * Events *)

(** The clusters of a labelling with [k] labels. *)
Definition clusters_of (k : nat) (ls : list nat) (data : list hit) : list (list hit) :=
  map (fun l => members l ls data) (seq 0 k).

(** [events fit min cs evs]: going through the clusters [cs] in order, those
    with fewer than [min] hits are skipped, the others are fitted, and the
    fits with non-negative coordinates are kept. *)
Inductive events (fit : list hit -> outcome neutron) (min : Z)
  : list (list hit) -> list neutron -> Prop :=
| ev_end : events fit min [] []
| ev_small c cs evs : zlen c < min -> events fit min cs evs -> events fit min (c :: cs) evs
| ev_keep c cs e evs : min <= zlen c -> fit c = Ok e ->
    fge (n_x e) (f_of_Z 0) && fge (n_y e) (f_of_Z 0) = true ->
    events fit min cs evs -> events fit min (c :: cs) (e :: evs)
| ev_bad c cs e evs : min <= zlen c -> fit c = Ok e ->
    fge (n_x e) (f_of_Z 0) && fge (n_y e) (f_of_Z 0) = false ->
    events fit min cs evs -> events fit min (c :: cs) evs.

(** Sum of the hit counts of events. *)
Definition total_hits (evs : list neutron) : Z := fold_right (fun e s => n_hits e + s) 0 evs.
