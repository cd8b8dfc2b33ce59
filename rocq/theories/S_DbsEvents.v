(** True events seen by the DBSCAN clustering of SophireadLib: hits that stem
    from known events, and what the clustering should tell about them.  [own]
    gives, for every hit, the number of the event it stems from. *)
From Coq Require Export Relations.Relation_Operators Reals.
From Verif Require Export S_Dbscan.
Local Open Scope Z_scope.
Local Open Scope list_scope.

(** * Hits in the plane *)

(** A pixel of a decoded hit. *)
Definition pixel_ok (h : hit) : Prop := 0 <= h_x h < 2 ^ 16 /\ 0 <= h_y h < 2 ^ 16.

(** The distance of two pixels, correctly rounded, is at most [eps]. *)
Definition beside (eps : f64) (h h' : hit) : Prop :=
  fle (Bsqrt mode_NE (f_of_Z ((h_x h - h_x h') ^ 2 + (h_y h - h_y h') ^ 2))) eps = true.
(** So are the hits number [i] and [j]. *)
Definition side (eps : f64) (hs : list hit) (i j : nat) : Prop :=
  exists a b, nth_error hs i = Some a /\ nth_error hs j = Some b /\ beside eps a b.

(** At least [minp] of the hits [who], other than hit [i], are beside it. *)
Definition core (eps : f64) (minp : Z) (hs : list hit) (who : nat -> Prop) (i : nat) : Prop :=
  exists l, NoDup l /\ minp <= zlen l /\ Forall (fun j => who j /\ j <> i /\ side eps hs i j) l.

Definition total (f : hit -> Z) (hs : list hit) : Z := fold_right Z.add 0 (map f hs).
(** The mean of [f], correctly rounded. *)
Definition mean (f : hit -> Z) (hs : list hit) : f64 := fdiv (f_of_Z (total f hs)) (f_of_Z (zlen hs)).

(** mlpack in the plane: the hits [s] joined to the hit [i] by steps between
    neighbours, each with at least [minp] other neighbours, form a cluster, whose
    centroid is the mean of their pixels. *)
Definition fit2_finds (ext : dbs_ext) : Prop :=
  forall eps minp hs i s, Forall pixel_ok hs -> zlen hs < 2 ^ 31 -> (i < length hs)%nat ->
    NoDup s -> (forall j, In j s <-> clos_refl_trans nat (side eps hs) i j) ->
    Forall (core eps minp hs (fun _ => True)) s ->
    let q := e_fit2 ext eps minp (map (fun h => (f_of_Z (h_x h), f_of_Z (h_y h))) hs) in
    exists k ms, map (nth_error hs) s = map Some ms /\
      nth_error (q_cents q) k = Some (mean h_x ms, mean h_y ms) /\
      forall j, nth_error (q_labels q) j = Some (Z.of_nat k) <-> In j s.

(** * True events *)

(** The hits of event [l]. *)
Fixpoint hits_of (l : nat) (own : list nat) (hs : list hit) : list hit :=
  match own, hs with
  | o :: own', h :: hs' => if Nat.eqb o l then h :: hits_of l own' hs' else hits_of l own' hs'
  | _, _ => []
  end.

(** The hits are those of [n] events that the configuration can tell apart. *)
Record distinct (cfg : dbs_cfg) (hits : list hit) (own : list nat) (n : nat) : Prop := {
  ds_length : length own = length hits;
  ds_numbers : forall l, In l own <-> (l < n)%nat;
  (** every event has enough hits, linked in time; *)
  ds_many : forall l, (l < n)%nat -> d_min_time cfg <= zlen (hits_of l own hits);
  ds_time : forall i j l, nth_error own i = Some l -> nth_error own j = Some l ->
    same_time (d_eps_time cfg) hits i j;
  (** its hits are joined by steps between neighbours, and each has enough of them; *)
  ds_joined : forall i j l, nth_error own i = Some l -> nth_error own j = Some l ->
    clos_refl_trans nat (fun p q => side (d_eps_xy cfg) hits p q /\ nth_error own q = Some l) i j;
  ds_core : forall i l, nth_error own i = Some l ->
    core (d_eps_xy cfg) (d_min_xy cfg) hits (fun j => nth_error own j = Some l) i;
  (** hits of different events are not linked in time or not neighbours. *)
  ds_apart : forall i j l l', nth_error own i = Some l -> nth_error own j = Some l' -> l <> l' ->
    same_time (d_eps_time cfg) hits i j -> ~ side (d_eps_xy cfg) hits i j
}.

(** No hit of another event is linked in time to a hit of event [l]. *)
Definition alone (cfg : dbs_cfg) (hits : list hit) (own : list nat) (l : nat) : Prop :=
  forall i j, nth_error own i = Some l -> same_time (d_eps_time cfg) hits i j ->
    nth_error own j = Some l.

(** What is found: one event for each true event, numbered by [num]; every hit
    has the label of its event; the event counts its hits and is at the mean of
    their pixels; its time is the mean time of arrival of the hits linked to them
    in time, so of its own hits when no others are; its time over threshold is
    zero. *)
Definition tells_all (cfg : dbs_cfg) (hits : list hit) (own : list nat) (n : nat) (o : dbs_obj) : Prop :=
  length (b_events o) = n /\
  exists num : nat -> nat,
    (forall l l', (l < n)%nat -> (l' < n)%nat -> num l = num l' -> l = l') /\
    b_labels o = map (fun l => Z.of_nat (num l)) own /\
    forall l, (l < n)%nat -> exists e, nth_error (b_events o) (num l) = Some e /\
      n_hits e = zlen (hits_of l own hits) /\
      n_x e = mean h_x (hits_of l own hits) /\ n_y e = mean h_y (hits_of l own hits) /\
      (exists i c, nth_error own i = Some l /\ class_of (d_eps_time cfg) hits i c /\
         mean_toa hits c (n_tof e)) /\
      (alone cfg hits own l -> n_tof e = mean (fun h => 25 * h_toa h) (hits_of l own hits)) /\
      n_tot e = f_of_Z 0.

(** The mean of values within [lo] and [hi] is a number within these bounds. *)
Definition lies_in (lo hi : Z) (x : f64) : Prop :=
  is_finite x = true /\ (IZR lo <= B2R x <= IZR hi)%R.
