(** Properties C21-C26: clustering and fitting.  Each theorem is followed by a
    concrete instance of its hypotheses. *)
From Coq Require Import Reals Sorted Permutation.
From Flocq Require Import Core.
From Verif Require Import P_Centroid.
From Coq Require Import Lia.
Global Open Scope Z_scope.

(** * Concrete data used by the instances *)

(** Radius 5.0, minimum size 1, time range 75 ns: the defaults. *)
Definition ex_cfg : abs_cfg := AbsCfg (f_of_Z 5) 1 75.
Definition ex_hit (x y tot t : Z) : hit := Hit x y tot 0 0 (Some t) (1000 + t).
Definition ex_hits : list hit :=
  [ex_hit 10 10 20 0; ex_hit 100 100 30 1; ex_hit 13 12 40 2; ex_hit 200 300 5 3;
   ex_hit 104 95 10 3; ex_hit 10 10 7 100].
Definition ex_ext : externals := Ext (fun v => v) (fun _ _ => (f_of_Z 1, f_of_Z 1)).
(** Nine hits far apart: one more than the slots. *)
Definition ex_nine : list hit :=
  map (fun i => ex_hit (20 * i) (20 * i) 9 (9 - i)) [1; 2; 3; 4; 5; 6; 7; 8; 9].
Definition labels_of (r : outcome abs_obj) : outcome (list Z) := let! o := r in Ok (o_labels o).

Lemma ex_hits_ok : Forall hit_ok ex_hits.
Proof. repeat (apply Forall_cons; [unfold hit_ok; cbn; lia|]). apply Forall_nil. Qed.
Lemma ex_hits_tame : Forall tame_hit ex_hits.
Proof. repeat (apply Forall_cons; [unfold tame_hit, tame, hit_ok; cbn; lia|]). apply Forall_nil. Qed.
Lemma ex_hits_sensor : Forall (fun h => sensor_hit h /\ 0 < h_tot h) ex_hits.
Proof.
  repeat (apply Forall_cons; [split; [repeat apply conj; try (cbn; lia);
    eexists; split; [reflexivity|lia]|cbn; lia]|]). apply Forall_nil.
Qed.
Lemma ex_radius : radius_is (a_radius ex_cfg) (5 * 2 ^ 20).
Proof.
  destruct (is_int_of_Z 5 ltac:(lia)) as [A B]. split; [exact A|]. split; [|lia].
  cbn [a_radius ex_cfg]. rewrite B. rewrite mult_IZR. unfold Rdiv.
  rewrite Rmult_assoc, Rinv_r, Rmult_1_r; [reflexivity|]. apply IZR_neq. lia.
Qed.
Lemma ex_radius_finite : is_finite (a_radius ex_cfg) = true /\
  (Rabs (B2R (a_radius ex_cfg)) <= bpow radix2 20)%R.
Proof.
  destruct (is_int_of_Z 5 ltac:(lia)) as [A B]. split; [exact A|].
  cbn [a_radius ex_cfg]. rewrite B. rewrite <- abs_IZR. change (bpow radix2 20) with (IZR (2 ^ 20)).
  apply IZR_le. cbn. lia.
Qed.
Lemma ex_range : 0 <= a_range ex_cfg < 2 ^ 64.
Proof. cbn. lia. Qed.

(** * C21 *)

(** Labels and index lists partition the hits. *)
Theorem C21_labels_partition_the_hits : forall n cfg o data,
  (0 < n)%nat -> Forall hit_ok data ->
  exists o' ls k, abs_fit n cfg o data = Ok o' /\ o_labels o' = map Z.of_nat ls /\
    length ls = length data /\
    (forall l, In l ls <-> (l < k)%nat) /\
    (forall i l, nth_error ls i = Some l -> forall l', (l' < l)%nat -> In l' (firstn i ls)) /\
    o_indices o' = map (fun l => positions l ls) (seq 0 (length (o_indices o'))) /\
    (k <= length (o_indices o'))%nat /\
    (forall l v, nth_error (o_indices o') l = Some v -> StronglySorted lt v) /\
    Permutation (concat (o_indices o')) (seq 0 (length data)).
Proof. exact C21_l. Qed.
Print Assumptions C21_labels_partition_the_hits.
Example C21_instance :
  labels_of (abs_fit 8 ex_cfg abs_new ex_hits) = Ok [0; 1; 0; 2; 1; 3] /\
  (let! o := abs_fit 8 ex_cfg abs_new ex_hits in Ok (firstn 4 (o_indices o))) =
    Ok [[0%nat; 2%nat]; [1%nat; 4%nat]; [3%nat]; [5%nat]].
Proof. split; vm_compute; reflexivity. Qed.

(** * C22 *)

(** A hit joins a cluster only if it fits. *)
Theorem C22_membership_is_sound : forall n cfg rho o data o',
  (0 < n)%nat -> Forall hit_ok data ->
  radius_is (a_radius cfg) rho -> 0 <= a_range cfg < 2 ^ 64 ->
  abs_fit n cfg o data = Ok o' ->
  exists ls, o_labels o' = map Z.of_nat ls /\
  forall i l h, nth_error ls i = Some l -> nth_error data i = Some h ->
    members l (firstn i ls) (firstn i data) <> [] ->
    fits_box rho (a_range cfg) (Cl l (members l (firstn i ls) (firstn i data))) h.
Proof. exact C22_l. Qed.
Print Assumptions C22_membership_is_sound.

(** The same for any finite radius up to 2^20, which need not be a multiple of
    2^-20: the rounding of the box edges is below 2^-32 of a pixel. *)
Theorem C22_membership_is_sound_for_any_radius : forall n cfg o data o',
  (0 < n)%nat -> Forall tame_hit data -> is_finite (a_radius cfg) = true ->
  (Rabs (B2R (a_radius cfg)) <= bpow radix2 20)%R -> 0 <= a_range cfg < 2 ^ 64 ->
  abs_fit n cfg o data = Ok o' ->
  exists ls, o_labels o' = map Z.of_nat ls /\
  forall i l h, nth_error ls i = Some l -> nth_error data i = Some h ->
    members l (firstn i ls) (firstn i data) <> [] ->
    fits_real tiny (B2R (a_radius cfg)) (a_range cfg)
      (Cl l (members l (firstn i ls) (firstn i data))) h.
Proof. exact C22_any_l. Qed.
Print Assumptions C22_membership_is_sound_for_any_radius.

(** Two hits of one cluster arrived within twice the time range. *)
Theorem C22_cluster_duration : forall n cfg rho o data o',
  (0 < n)%nat -> Forall hit_ok data ->
  radius_is (a_radius cfg) rho -> 0 <= a_range cfg < 2 ^ 64 ->
  abs_fit n cfg o data = Ok o' ->
  forall i j h h', nth_error data i = Some h -> nth_error data j = Some h' ->
  nth_error (o_labels o') i = nth_error (o_labels o') j ->
  Z.abs (arrival h - arrival h') <= 2 * a_range cfg.
Proof. exact C22_pair_l. Qed.
Print Assumptions C22_cluster_duration.

(** Two hits of a cluster of k hits are at most k - 1 radii apart in x and in y. *)
Theorem C22_cluster_extent : forall n cfg rho o data o',
  (0 < n)%nat -> Forall hit_ok data ->
  radius_is (a_radius cfg) rho -> 0 <= rho -> 0 <= a_range cfg < 2 ^ 64 ->
  abs_fit n cfg o data = Ok o' ->
  forall i j h h' l, nth_error data i = Some h -> nth_error data j = Some h' ->
  nth_error (o_labels o') i = Some l -> nth_error (o_labels o') j = Some l ->
  2 ^ 20 * Z.abs (h_x h - h_x h') <= rho * (zlen (filter (Z.eqb l) (o_labels o')) - 1) /\
  2 ^ 20 * Z.abs (h_y h - h_y h') <= rho * (zlen (filter (Z.eqb l) (o_labels o')) - 1).
Proof. exact C22_extent_l. Qed.
Print Assumptions C22_cluster_extent.
Example C22_instance :
  Forall hit_ok ex_hits /\ Forall tame_hit ex_hits /\
  radius_is (a_radius ex_cfg) (5 * 2 ^ 20) /\ 0 <= a_range ex_cfg < 2 ^ 64 /\
  exists o', abs_fit 8 ex_cfg abs_new ex_hits = Ok o'.
Proof.
  split; [exact ex_hits_ok|]. split; [exact ex_hits_tame|]. split; [exact ex_radius|].
  split; [exact ex_range|]. eexists. vm_compute. reflexivity.
Qed.
(** The extent is reached: four hits in a row, 5 pixels apart. *)
Example C22_extent_is_reached :
  labels_of (abs_fit 8 ex_cfg abs_new [ex_hit 1 1 5 0; ex_hit 6 1 5 0; ex_hit 11 1 5 0; ex_hit 16 1 5 0]) =
  Ok [0; 0; 0; 0].
Proof. vm_compute. reflexivity. Qed.
(** The time bound is reached: three hits 75 ns apart, the middle one first. *)
Example C22_duration_is_reached :
  labels_of (abs_fit 8 ex_cfg abs_new [ex_hit 1 1 5 3; ex_hit 1 1 5 0; ex_hit 1 1 5 6]) =
  Ok [0; 0; 0].
Proof. vm_compute. reflexivity. Qed.

(** * C23 *)

(** The run of the clustering is the only one allowed by the specification
    [clusters], in which at most [n] clusters are open and the oldest is
    closed when a new one is needed. *)
Theorem C23_clustering_follows_the_specification : forall n cfg rho o data,
  (0 < n)%nat -> Forall hit_ok data ->
  radius_is (a_radius cfg) rho -> 0 <= a_range cfg < 2 ^ 64 ->
  exists o' ls op closed, abs_fit n cfg o data = Ok o' /\ o_labels o' = map Z.of_nat ls /\
    clusters n (fits_box rho (a_range cfg)) data ls op closed /\
    forall ls' op' closed', clusters n (fits_box rho (a_range cfg)) data ls' op' closed' ->
      ls' = ls /\ op' = op /\ closed' = closed.
Proof. exact C23_l. Qed.
Print Assumptions C23_clustering_follows_the_specification.
Example C23_instance : labels_of (abs_fit 8 ex_cfg abs_new ex_nine) = Ok [0; 1; 2; 3; 4; 5; 6; 7; 8].
Proof. vm_compute. reflexivity. Qed.
(** The ninth cluster replaced the eighth (the oldest), so a hit beside the
    eighth no longer finds it but one beside the first does. *)
Example C23_instance_evicts_oldest :
  labels_of (abs_fit 8 ex_cfg abs_new (ex_nine ++ [ex_hit 20 20 9 9; ex_hit 160 160 9 9])) =
  Ok [0; 1; 2; 3; 4; 5; 6; 7; 8; 0; 9].
Proof. vm_compute. reflexivity. Qed.

(** Never more than [n] open clusters. *)
Theorem C23_at_most_n_open : forall n fits hs ls op closed,
  clusters n fits hs ls op closed -> (length op <= n)%nat.
Proof. exact C23_open_l. Qed.
Print Assumptions C23_at_most_n_open.

(** A closed cluster gets no further hit. *)
Theorem C23_closed_stays_closed : forall n fits hs ls op closed,
  clusters n fits hs ls op closed ->
  forall k op' closed', clusters n fits (firstn k hs) (firstn k ls) op' closed' ->
  forall c i, In c closed' -> (k <= i)%nat -> nth_error ls i <> Some (cl_id c).
Proof. exact clusters_closed. Qed.
Print Assumptions C23_closed_stays_closed.
Example C23_runs_exist : exists ls op closed,
  clusters 8 (fits_box (5 * 2 ^ 20) 75) ex_nine ls op closed.
Proof.
  destruct (C23_l 8 ex_cfg (5 * 2 ^ 20) abs_new ex_nine) as (_ & ls & op & cls & _ & _ & C & _);
    [lia| |exact ex_radius|exact ex_range|exists ls, op, cls; exact C].
  repeat (apply Forall_cons; [unfold hit_ok; cbn; lia|]). apply Forall_nil.
Qed.

(** * C24 *)

(** The events are those of the clusters in label order. *)
Theorem C24_events_of_clusters : forall n ext cfg o data o' m fit,
  (0 < n)%nat -> Forall hit_ok data ->
  abs_fit n cfg o data = Ok o' -> fit_of ext m = Some fit ->
  exists ls k, o_labels o' = map Z.of_nat ls /\ length ls = length data /\
    (forall l, In l ls <-> (l < k)%nat) /\
    forall evs, abs_get_events ext cfg (abs_set_method o' m) data = Ok evs <->
                events fit (a_min cfg) (clusters_of k ls data) evs.
Proof. exact C24_l. Qed.
Print Assumptions C24_events_of_clusters.

(** Inputs that are refused. *)
Theorem C24_rejections : forall ext cfg o data,
  (length (o_labels o) <> length data -> abs_get_events ext cfg o data = Throw RuntimeError) /\
  (length (o_labels o) = length data -> data <> [] -> o_method o = MOther ->
     abs_get_events ext cfg o data = Throw RuntimeError) /\
  (o_labels o = [] -> data = [] -> abs_get_events ext cfg o data = Ok []).
Proof. exact C24_reject_l. Qed.
Print Assumptions C24_rejections.
Example C24_rejections_instance :
  abs_get_events ex_ext ex_cfg abs_new ex_hits = Throw RuntimeError.
Proof. vm_compute. reflexivity. Qed.

(** Hit counts of the events: at least the minimum, in total at most the
    number of hits. *)
Theorem C24_hit_counts : forall n ext cfg o data o' m evs,
  (0 < n)%nat -> Forall hit_ok data ->
  abs_fit n cfg o data = Ok o' ->
  abs_get_events ext cfg (abs_set_method o' m) data = Ok evs ->
  total_hits evs <= zlen data /\ Forall (fun e => a_min cfg <= n_hits e) evs.
Proof. exact C24_counts_l. Qed.
Print Assumptions C24_hit_counts.

(** With minimum size 1 no hit is lost if every fit is valid, whatever the method. *)
Theorem C24_all_counted : forall n ext cfg o data o' m evs fit,
  (0 < n)%nat -> Forall hit_ok data ->
  abs_fit n cfg o data = Ok o' -> fit_of ext m = Some fit -> a_min cfg <= 1 ->
  (forall c e, c <> [] -> incl c data -> zlen c <= zlen data -> fit c = Ok e ->
     fge (n_x e) (f_of_Z 0) && fge (n_y e) (f_of_Z 0) = true) ->
  abs_get_events ext cfg (abs_set_method o' m) data = Ok evs ->
  total_hits evs = zlen data.
Proof. exact C24_all_l. Qed.
Print Assumptions C24_all_counted.

(** For decoded hits the centroid method always succeeds ... *)
Theorem C24_centroid_events_exist : forall n ext cfg o data o',
  (0 < n)%nat -> Forall hit_ok data -> Forall sensor_hit data -> zlen data <= 2 ^ 21 ->
  abs_fit n cfg o data = Ok o' ->
  exists evs, abs_get_events ext cfg (abs_set_method o' MCentroid) data = Ok evs.
Proof. exact C24_succeeds_l. Qed.
Print Assumptions C24_centroid_events_exist.

(** ... and with minimum size 1 and positive ToT no hit is lost. *)
Theorem C24_no_hit_is_lost : forall n ext cfg o data o' evs,
  (0 < n)%nat -> Forall hit_ok data ->
  Forall (fun h => sensor_hit h /\ 0 < h_tot h) data -> zlen data <= 2 ^ 21 -> a_min cfg <= 1 ->
  abs_fit n cfg o data = Ok o' ->
  abs_get_events ext cfg (abs_set_method o' MCentroid) data = Ok evs ->
  total_hits evs = zlen data.
Proof. exact C24_centroid_l. Qed.
Print Assumptions C24_no_hit_is_lost.
Example C24_instance :
  Forall hit_ok ex_hits /\ Forall (fun h => sensor_hit h /\ 0 < h_tot h) ex_hits /\
  (let! o := abs_fit 8 ex_cfg abs_new ex_hits in
   let! evs := abs_get_events ex_ext ex_cfg (abs_set_method o MCentroid) ex_hits in
   Ok (map n_hits evs)) = Ok [2; 2; 1; 1].
Proof.
  split; [exact ex_hits_ok|]. split; [exact ex_hits_sensor|]. vm_compute. reflexivity.
Qed.
(** With minimum size 2 the single hits are dropped. *)
Example C24_instance_min_two :
  (let! o := abs_fit 8 (AbsCfg (f_of_Z 5) 2 75) abs_new ex_hits in
   let! evs := abs_get_events ex_ext (AbsCfg (f_of_Z 5) 2 75) o ex_hits in
   Ok (map n_hits evs)) = Ok [2; 2].
Proof. vm_compute. reflexivity. Qed.
(** Without the condition on ToT hits can be lost: a hit with ToT 0 makes a
    cluster whose centroid is not a number, and no event. *)
Theorem C24_zero_tot_refuted : exists data evs,
  Forall hit_ok data /\ Forall sensor_hit data /\
  (let! o := abs_fit 8 ex_cfg abs_new data in
   abs_get_events ex_ext ex_cfg (abs_set_method o MCentroid) data) = Ok evs /\
  total_hits evs <> zlen data.
Proof.
  exists [ex_hit 3 4 0 5], []. repeat apply conj.
  - apply Forall_cons; [unfold hit_ok; cbn; lia|apply Forall_nil].
  - apply Forall_cons; [|apply Forall_nil]. repeat apply conj; try (cbn; lia).
    eexists; split; [reflexivity|lia].
  - vm_compute. reflexivity.
  - vm_compute. discriminate.
Qed.
Print Assumptions C24_zero_tot_refuted.

(** * C25 *)

(** Labels and indices do not depend on the earlier content of the object. *)
Theorem C25_fit_ignores_history : forall n cfg o d,
  abs_fit n cfg o d =
  let! o1 := abs_fit n cfg abs_new d in Ok (AbsObj (o_method o) (o_labels o1) (o_indices o1)).
Proof. exact C25_fit_l. Qed.
Print Assumptions C25_fit_ignores_history.

(** Nor do the events. *)
Theorem C25_events_ignore_history : forall n ext cfg o d m,
  (let! o1 := abs_fit n cfg (abs_set_method o m) d in abs_get_events ext cfg o1 d) =
  (let! o1 := abs_fit n cfg (abs_set_method abs_new m) d in abs_get_events ext cfg o1 d).
Proof. exact C25_events_l. Qed.
Print Assumptions C25_events_ignore_history.
Example C25_instance :
  (let! o := abs_fit 8 ex_cfg abs_new ex_nine in
   let! o1 := abs_fit 8 ex_cfg o ex_hits in Ok (o_labels o1)) = Ok [0; 1; 0; 2; 1; 3].
Proof. vm_compute. reflexivity. Qed.

(** * C26 *)

(** The weighted centroid. *)
Theorem C26_weighted_centroid : forall c,
  c <> [] -> Forall sensor_hit c -> zlen c <= 2 ^ 21 ->
  exists e, centroid_fit true (f_of_Z 1) c = Ok e /\ n_hits e = zlen c /\
    is_finite (n_tot e) = true /\ B2R (n_tot e) = IZR (hsum h_tot c) /\
    rounded (n_tof e) (Rdiv (IZR (hsum tof_value c)) (IZR (zlen c))) /\
    (0 < hsum h_tot c ->
       close (n_x e) (Rdiv (IZR (hsum (fun h => h_x h * h_tot h) c)) (IZR (hsum h_tot c))) /\
       close (n_y e) (Rdiv (IZR (hsum (fun h => h_y h * h_tot h) c)) (IZR (hsum h_tot c))) /\
       (0 <= B2R (n_x e))%R /\ (0 <= B2R (n_y e))%R) /\
    (hsum h_tot c = 0 -> is_nan (n_x e) = true /\ is_nan (n_y e) = true).
Proof. exact C26_l. Qed.
Print Assumptions C26_weighted_centroid.

(** The unweighted centroid. *)
Theorem C26_plain_centroid : forall c,
  c <> [] -> Forall sensor_hit c -> zlen c <= 2 ^ 21 ->
  exists e, centroid_fit false (f_of_Z 1) c = Ok e /\ n_hits e = zlen c /\
    is_finite (n_tot e) = true /\ B2R (n_tot e) = IZR (hsum h_tot c) /\
    rounded (n_tof e) (Rdiv (IZR (hsum tof_value c)) (IZR (zlen c))) /\
    close (n_x e) (Rdiv (IZR (hsum h_x c)) (IZR (zlen c))) /\
    close (n_y e) (Rdiv (IZR (hsum h_y c)) (IZR (zlen c))) /\
    (0 <= B2R (n_x e))%R /\ (0 <= B2R (n_y e))%R.
Proof. exact C26_plain_l. Qed.
Print Assumptions C26_plain_centroid.

(** C26: no hits give the event (0, 0, 0, 0, no hits). *)
Theorem C26_no_hits : forall weighted srf,
  centroid_fit weighted srf [] = Ok (Neutron (f_of_Z 0) (f_of_Z 0) (f_of_Z 0) (f_of_Z 0) 0).
Proof. reflexivity. Qed.
Print Assumptions C26_no_hits.

(** Centroids stay on the sensor, up to rounding. *)
Theorem C26_centroid_on_sensor : forall c e,
  Forall sensor_hit c -> zlen c <= 2 ^ 21 ->
  0 < hsum h_tot c -> centroid_fit true (f_of_Z 1) c = Ok e ->
  (0 <= B2R (n_x e) <= 515 * (1 + bpow radix2 (-51)))%R /\
  (0 <= B2R (n_y e) <= 515 * (1 + bpow radix2 (-51)))%R.
Proof. exact C26_sensor_l. Qed.
Print Assumptions C26_centroid_on_sensor.
Example C26_instance :
  hsum h_tot ex_hits = 112 /\
  (let! e := centroid_fit true (f_of_Z 1) ex_hits in
   Ok (fle (n_tot e) (f_of_Z 112), n_hits e,
       fle (f_of_Z 52) (n_x e), fle (n_x e) (f_of_Z 53))) = Ok (true, 6, true, true).
Proof. split; vm_compute; reflexivity. Qed.
