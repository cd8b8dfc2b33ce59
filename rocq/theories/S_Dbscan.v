(** Specification of the DBSCAN clustering of SophireadLib. *)
From Coq Require Export Permutation Sorting.Sorted.
From Verif Require Export M_Dbscan.
Local Open Scope Z_scope.
Local Open Scope list_scope.

(** * The library functions *)

(** Two times are at most [eps] apart. *)
Definition near (eps a b : f64) : Prop := fle (fabs (fsub a b)) eps = true.

(** The times number [i] and [j] are joined by a chain of times each at most
    [eps] from the one before. *)
Inductive linked (eps : f64) (ts : list f64) : nat -> nat -> Prop :=
| link_refl i : (i < length ts)%nat -> linked eps ts i i
| link_step i j k a b :
    linked eps ts i j -> nth_error ts j = Some a -> nth_error ts k = Some b ->
    near eps a b -> linked eps ts i k.

(** A clustering of [k] points: every point has a label, either SIZE_MAX or the
    number of a cluster; no cluster is empty; every cluster has a centroid. *)
Definition clustering {C} (k : nat) (q : dbs_out C) : Prop :=
  length (q_labels q) = k /\
  Forall (fun l => l = 2 ^ 64 - 1 \/ 0 <= l < q_n q) (q_labels q) /\
  (forall l, 0 <= l < q_n q -> In l (q_labels q)) /\
  zlen (q_cents q) = q_n q.

(** mlpack on times: points of one cluster are linked. *)
Definition fit1_sound (ext : dbs_ext) : Prop :=
  forall eps minp ts, ts <> [] ->
    let q := e_fit1 ext eps minp ts in
    clustering (length ts) q /\
    forall i j l, nth_error (q_labels q) i = Some l -> nth_error (q_labels q) j = Some l ->
      l <> 2 ^ 64 - 1 -> linked eps ts i j.
(** mlpack in the plane. *)
Definition fit2_sound (ext : dbs_ext) : Prop :=
  forall eps minp ps, ps <> [] -> clustering (length ps) (e_fit2 ext eps minp ps).
(** std::sort by the smallest time. *)
Definition sort_sound (ext : dbs_ext) : Prop :=
  forall l, Forall (fun c => is_finite (i_min c) = true) l ->
    Permutation l (e_sort ext l) /\
    StronglySorted (fun a b => fle (i_min a) (i_min b) = true) (e_sort ext l).
Definition ext_sound (ext : dbs_ext) : Prop :=
  fit1_sound ext /\ fit2_sound ext /\ sort_sound ext.

(** * Merging *)

(** A time of moderate size. *)
Definition moderate (x : f64) : Prop := fle (fabs x) (f_of_Z (2 ^ 60)) = true.

(** The distance from the end of [a] to the begin of [b] is at most [eps]. *)
Definition reaches (eps : f64) (a b : info) : Prop :=
  fgt (i_max a) (i_min b) = true \/ fle (fsub (i_min b) (i_max a)) eps = true.
(** It is larger. *)
Definition apart (eps : f64) (a b : info) : Prop := flt eps (fsub (i_min b) (i_max a)) = true.

(** [c] is the union of the clusters [g]. *)
Definition union_of (g : list info) (c : info) : Prop :=
  i_idx c = concat (map i_idx g) /\
  Forall (fun a => fle (i_min c) (i_min a) = true /\ fle (i_max a) (i_max c) = true) g /\
  In (i_min c) (map i_min g) /\ In (i_max c) (map i_max g) /\
  match g with
  | [] => False
  | a :: r => i_sum c = fold_left fadd (map i_sum r) (i_sum a)
  end /\
  i_mean c = fdiv (i_sum c) (f_of_Z (zlen (i_idx c))).

(** Every cluster of the group but the first is reached by an earlier one. *)
Definition chained (eps : f64) (g : list info) : Prop :=
  forall g1 b g2, g = g1 ++ b :: g2 -> g1 <> [] -> exists a, In a g1 /\ reaches eps a b.

Definition large (minp : Z) (g : list info) : bool :=
  minp <=? zlen (concat (map i_idx g)).

(** * Time clusters of hits *)

(** hit.h: the 14-bit time of arrival of a decoded hit. *)
Definition toa_ok (h : hit) : Prop := 0 <= h_toa h < 2 ^ 14.

(** A finite radius, not negative. *)
Definition eps_ok (eps : f64) : Prop := is_finite eps = true /\ fle (f_of_Z 0) eps = true.

(** The hits [i] and [j] are linked in time. *)
Definition same_time (eps : f64) (hits : list hit) : nat -> nat -> Prop :=
  linked eps (map toa_ns hits).

(** At least [minp] hits are linked to [i]. *)
Definition crowded (eps : f64) (minp : Z) (hits : list hit) (i : nat) : Prop :=
  exists l, NoDup l /\ minp <= zlen l /\ Forall (same_time eps hits i) l.

(** [cs] are exactly the classes of at least [minp] hits linked in time. *)
Definition time_classes (eps : f64) (minp : Z) (hits : list hit) (cs : list (list nat)) : Prop :=
  NoDup (concat cs) /\
  (forall c i, In c cs -> In i c -> forall j, In j c <-> same_time eps hits i j) /\
  (forall i, (i < length hits)%nat -> (exists c, In c cs /\ In i c) <-> crowded eps minp hits i).

(** * Labels and events *)

Definition count_of (l : Z) (labels : list Z) : Z := zlen (filter (Z.eqb l) labels).

(** The mean time of arrival of the hits [c], as computed: the exact sum of the
    times in ns, converted and divided by the number of hits. *)
Definition mean_toa (hits : list hit) (c : list nat) (x : f64) : Prop :=
  exists hs, map (nth_error hits) c = map Some hs /\
    x = fdiv (f_of_Z (fold_right Z.add 0 (map (fun h => 25 * h_toa h) hs))) (f_of_Z (zlen c)).

(** The pixels of the hits [c]. *)
Definition pixels (hits : list hit) (c : list nat) (ps : list (f64 * f64)) : Prop :=
  exists hs, map (nth_error hits) c = map Some hs /\
    ps = map (fun h => (f_of_Z (h_x h), f_of_Z (h_y h))) hs.

(** [c] is the time class of the hit [i]. *)
Definition class_of (eps : f64) (hits : list hit) (i : nat) (c : list nat) : Prop :=
  NoDup c /\ forall j, In j c <-> same_time eps hits i j.

(** Labels and events after a fit: the labels are -1 and the numbers of the
    events; event [l] counts the hits with label [l], at least one; they all
    belong to one time class of the required size, and are one of the clusters
    found among the pixels of that class; the position of the event is the
    centroid of this cluster, its time the mean time of arrival of the class
    and its time over threshold zero.  The other hits have no event: they lie in
    smaller time classes, or in no cluster of the plane. *)
Definition labelled (ext : dbs_ext) (cfg : dbs_cfg) (hits : list hit) (o : dbs_obj) : Prop :=
  length (b_labels o) = length hits /\
  Forall (fun l => -1 <= l < zlen (b_events o)) (b_labels o) /\
  (forall l e, nth_error (b_events o) l = Some e ->
    n_hits e = count_of (Z.of_nat l) (b_labels o) /\ 1 <= n_hits e /\ n_tot e = f_of_Z 0 /\
    exists i c ps k x y, nth_error (b_labels o) i = Some (Z.of_nat l) /\
      crowded (d_eps_time cfg) (d_min_time cfg) hits i /\
      class_of (d_eps_time cfg) hits i c /\ mean_toa hits c (n_tof e) /\ pixels hits c ps /\
      let q := e_fit2 ext (d_eps_xy cfg) (d_min_xy cfg) ps in
      nth_error (q_cents q) k = Some (x, y) /\
      n_x e = fmul x (f_of_Z 1) /\ n_y e = fmul y (f_of_Z 1) /\
      forall j, nth_error (b_labels o) j = Some (Z.of_nat l) <->
        exists p, nth_error c p = Some j /\ nth_error (q_labels q) p = Some (Z.of_nat k)) /\
  (forall i, nth_error (b_labels o) i = Some (-1) ->
    crowded (d_eps_time cfg) (d_min_time cfg) hits i ->
    exists c ps p, class_of (d_eps_time cfg) hits i c /\ pixels hits c ps /\
      nth_error c p = Some i /\
      nth_error (q_labels (e_fit2 ext (d_eps_xy cfg) (d_min_xy cfg) ps)) p = Some (2 ^ 64 - 1)).
