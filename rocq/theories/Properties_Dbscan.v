(** Properties C44 and C60 to C63: the DBSCAN clustering of SophireadLib.  Each
    theorem is followed by a concrete instance of its hypotheses. *)
From Coq Require Import Lia.
From Verif Require Import P_DbsInst.
Global Open Scope Z_scope.

(** Hits of the examples: two groups close in time, and a hit between them. *)
Definition ex_dh (x y toa : Z) : hit := Hit x y 30 toa 0 None toa.
Definition ex_dhits : list hit :=
  [ex_dh 10 20 100; ex_dh 7 7 500; ex_dh 10 21 102; ex_dh 99 20 101; ex_dh 5 5 9000; ex_dh 5 6 9001].
Definition ex_i (x : f64) : Z := match f_to_i32 x with Some z => z | None => -1 end.
Definition ex_dcfg : dbs_cfg := DbsCfg (f_of_Z 25) 2 (f_of_Z 2) 1.
Definition ex_infos : list info :=
  [Info (f_of_Z 0) (f_of_Z 90) (f_of_Z 40) (f_of_Z 50) [4; 1]%nat;
   Info (f_of_Z 0) (f_of_Z 20) (f_of_Z 20) (f_of_Z 20) [7]%nat;
   Info (f_of_Z 0) (f_of_Z 60) (f_of_Z 60) (f_of_Z 60) [0]%nat;
   Info (f_of_Z 0) (f_of_Z 800) (f_of_Z 400) (f_of_Z 400) [2; 3]%nat].

(** * C44: merging of time clusters *)

(** C44: the clusters, ordered by their smallest time, are cut into groups;
    every group is joined by gaps of at most epsilon, and different groups are
    further apart; the result is the list of the unions of the groups of at
    least the minimal number of hits. *)
Theorem C44_merging : forall ext cfg infos, sort_sound ext -> is_finite (d_eps_time cfg) = true ->
  infos <> [] -> Forall (fun c => moderate (i_min c) /\ moderate (i_max c)) infos ->
  exists groups out,
    merge_infos ext cfg infos = Ok out /\
    Permutation (concat groups) infos /\
    StronglySorted (fun a b => fle (i_min a) (i_min b) = true) (concat groups) /\
    Forall (fun g => g <> []) groups /\
    Forall2 union_of (filter (large (d_min_time cfg)) groups) out /\
    Forall (chained (d_eps_time cfg)) groups /\
    ForallOrdPairs (fun g1 g2 => forall a b, In a g1 -> In b g2 -> apart (d_eps_time cfg) a b) groups.
Proof. exact C44_l. Qed.
Print Assumptions C44_merging.
Example C44_instance :
  sort_sound ex_dbs /\
  Forall (fun c => moderate (i_min c) /\ moderate (i_max c)) ex_infos /\
  (let! out := merge_infos ex_dbs ex_dcfg ex_infos in
   Ok (map (fun c => (i_idx c, ex_i (i_min c), ex_i (i_max c), ex_i (i_sum c), ex_i (i_mean c))) out))
  = Ok [([7; 4; 1; 0]%nat, 20, 60, 170, 42); ([2; 3]%nat, 400, 400, 800, 400)].
Proof.
  split; [exact ex_sort_sound|]. split; [|vm_compute; reflexivity].
  repeat constructor; vm_compute; reflexivity.
Qed.

(** * C60: time clusters *)

(** C60: the hits are clustered in time into exactly the classes of at least the
    minimal number of hits linked by steps of at most epsilon. *)
Theorem C60_time_classes : forall cfg ext hits size, eps_ok (d_eps_time cfg) -> Forall toa_ok hits ->
  zlen hits < 2 ^ 31 -> ext_sound ext -> 1 <= size -> hits <> [] ->
  exists infos, time_clusters size ext cfg hits = Ok infos /\
    time_classes (d_eps_time cfg) (d_min_time cfg) hits (map i_idx infos).
Proof. exact C60_l. Qed.
Print Assumptions C60_time_classes.
Example C60_instance :
  ext_sound ex_dbs /\ eps_ok (d_eps_time ex_dcfg) /\ Forall toa_ok ex_dhits /\
  (let! infos := time_clusters 2 ex_dbs ex_dcfg ex_dhits in Ok (map i_idx infos))
  = Ok [[0; 2; 3]%nat; [4; 5]%nat].
Proof.
  split; [exact ex_dbs_sound|]. split; [split; vm_compute; reflexivity|].
  split; [repeat constructor; cbn; lia|]. vm_compute. reflexivity.
Qed.

(** C60: the time clusters depend neither on the size of the chunks nor on the
    clusters the library finds in each chunk. *)
Theorem C60_any_chunks : forall cfg ext ext' hits size size' infos infos',
  eps_ok (d_eps_time cfg) -> Forall toa_ok hits -> zlen hits < 2 ^ 31 ->
  ext_sound ext -> ext_sound ext' -> 1 <= size -> 1 <= size' -> hits <> [] ->
  time_clusters size ext cfg hits = Ok infos -> time_clusters size' ext' cfg hits = Ok infos' ->
  forall c, In c infos -> exists c', In c' infos' /\ Permutation (i_idx c) (i_idx c').
Proof. exact C60_any_l. Qed.
Print Assumptions C60_any_chunks.
Example C60_any_chunks_instance :
  (let! infos := time_clusters chunk_hits ex_dbs ex_dcfg ex_dhits in Ok (map i_idx infos))
  = Ok [[0; 3; 2]%nat; [4; 5]%nat] /\
  (let! infos := time_clusters 4 ex_dbs ex_dcfg ex_dhits in Ok (map i_idx infos))
  = Ok [[0; 3; 2]%nat; [4; 5]%nat].
Proof. split; vm_compute; reflexivity. Qed.

(** C60: the fit neither fails nor leaves the bounds of a vector. *)
Theorem C60_fit_is_defined : forall cfg ext hits size o, eps_ok (d_eps_time cfg) ->
  Forall toa_ok hits -> zlen hits < 2 ^ 31 -> ext_sound ext -> 1 <= size ->
  exists o', dbs_fit_with size ext cfg o hits = Ok o'.
Proof. exact fit_total_l. Qed.
Print Assumptions C60_fit_is_defined.
Example C60_fit_is_defined_instance :
  (let! o := dbs_fit ex_dbs ex_dcfg dbs_new [] in Ok (length (b_events o), b_labels o)) = Ok (0%nat, []).
Proof. vm_compute. reflexivity. Qed.

(** * C61: labels and events *)

(** C61: labels and events of a new object correspond. *)
Theorem C61_labels_and_events : forall cfg ext hits size o o', eps_ok (d_eps_time cfg) ->
  Forall toa_ok hits -> zlen hits < 2 ^ 31 -> ext_sound ext -> 1 <= size -> b_labels o = [] ->
  dbs_fit_with size ext cfg o hits = Ok o' -> labelled ext cfg hits o'.
Proof. exact C61_l. Qed.
Print Assumptions C61_labels_and_events.
Example C61_instance :
  (let! o := dbs_fit ex_dbs ex_dcfg dbs_new ex_dhits in
   Ok (b_labels o, map (fun e => (ex_i (n_x e), ex_i (n_y e), ex_i (n_tof e), n_hits e)) (b_events o)))
  = Ok ([0; -1; 0; -1; 1; 1], [(10, 20, 2525, 2); (5, 5, 225012, 2)]).
Proof. vm_compute. reflexivity. Qed.

(** * C62: repeated use of one object *)

(** C62: the events of a fit do not depend on earlier fits; neither do the
    labels of the hits in sufficiently large time classes; the labels of the
    other hits are those left by earlier fits. *)
Theorem C62_history : forall cfg ext hits size o1 o2 r1 r2, eps_ok (d_eps_time cfg) ->
  Forall toa_ok hits -> zlen hits < 2 ^ 31 -> ext_sound ext -> 1 <= size ->
  dbs_fit_with size ext cfg o1 hits = Ok r1 -> dbs_fit_with size ext cfg o2 hits = Ok r2 ->
  b_events r1 = b_events r2 /\
  (forall i, crowded (d_eps_time cfg) (d_min_time cfg) hits i ->
     nth_error (b_labels r1) i = nth_error (b_labels r2) i) /\
  (forall i, ~ crowded (d_eps_time cfg) (d_min_time cfg) hits i -> (i < length hits)%nat ->
     nth_error (b_labels r1) i =
     Some (match nth_error (b_labels o1) i with Some l => l | None => -1 end)).
Proof. exact C62_events_l. Qed.
Print Assumptions C62_history.

(** C62: with a minimal number of at most one hit, nothing depends on earlier
    fits. *)
Theorem C62_no_history : forall cfg ext hits size o1 o2 r1 r2, eps_ok (d_eps_time cfg) ->
  Forall toa_ok hits -> zlen hits < 2 ^ 31 -> ext_sound ext -> 1 <= size -> d_min_time cfg <= 1 ->
  dbs_fit_with size ext cfg o1 hits = Ok r1 -> dbs_fit_with size ext cfg o2 hits = Ok r2 -> r1 = r2.
Proof. exact C62_labels_l. Qed.
Print Assumptions C62_no_history.
Example C62_no_history_instance :
  (let! o := dbs_fit ex_dbs (DbsCfg (f_of_Z 25) 1 (f_of_Z 2) 1) (DbsObj [] [8; 8; 8]) ex_dhits in
   Ok (b_labels o)) = Ok [0; 1; 0; -1; 2; 2].
Proof. vm_compute. reflexivity. Qed.

(** C62: in general the labels are stale: a second fit of two hits far apart
    keeps the labels of the first fit, though there is no event. *)
Theorem C62_fresh_labels_refuted : exists ext cfg hits1 hits2 o1 o2,
  ext_sound ext /\ eps_ok (d_eps_time cfg) /\ Forall toa_ok hits1 /\ Forall toa_ok hits2 /\
  dbs_fit ext cfg dbs_new hits1 = Ok o1 /\ dbs_fit ext cfg o1 hits2 = Ok o2 /\
  b_events o2 = [] /\ b_labels o2 = [0; 0].
Proof.
  exists ex_dbs, ex_dcfg, [ex_dh 1 1 100; ex_dh 1 2 100], [ex_dh 1 1 100; ex_dh 1 2 500].
  destruct (two_fits (dbs_fit ex_dbs ex_dcfg dbs_new [ex_dh 1 1 100; ex_dh 1 2 100])
    (fun o => dbs_fit ex_dbs ex_dcfg o [ex_dh 1 1 100; ex_dh 1 2 500]) [0; 0]) as (o1 & o2 & W);
    [vm_compute; reflexivity|].
  exists o1, o2. split; [exact ex_dbs_sound|]. split; [split; vm_compute; reflexivity|].
  split; [repeat constructor; cbn; lia|]. split; [repeat constructor; cbn; lia|]. exact W.
Qed.
Print Assumptions C62_fresh_labels_refuted.

(** C62: once there are events, [get_events] returns them whatever the hits. *)
Theorem C62_events_are_kept : forall ext cfg o hits, b_events o <> [] ->
  dbs_get_events ext cfg o hits = Ok (o, b_events o).
Proof. intros ext cfg [es ls] hits H. destruct es; [contradiction H; reflexivity|reflexivity]. Qed.
Print Assumptions C62_events_are_kept.
Example C62_events_are_kept_instance :
  (let! o := dbs_fit ex_dbs ex_dcfg dbs_new ex_dhits in
   let! (o', es) := dbs_get_events ex_dbs ex_dcfg o [] in
   let! (o'', es') := dbs_get_events ex_dbs ex_dcfg (dbs_reset o) [] in
   Ok (length es, length es')) = Ok (2%nat, 0%nat).
Proof. vm_compute. reflexivity. Qed.

(** * C63: the time used *)

(** C63: only the pixel and the 14-bit time of arrival of the hits matter; the
    arrival time, the time of flight and the time over threshold do not. *)
Theorem C63_only_toa : forall size ext cfg o hits hits',
  Forall2 (fun h h' => h_x h = h_x h' /\ h_y h = h_y h' /\ h_toa h = h_toa h') hits hits' ->
  dbs_fit_with size ext cfg o hits = dbs_fit_with size ext cfg o hits'.
Proof. exact C63_l. Qed.
Print Assumptions C63_only_toa.

(** C63: hits with the same 14-bit time of arrival are in the same time class,
    whatever their arrival times. *)
Theorem C63_periods_are_confused : forall eps hits i j a b, eps_ok eps -> Forall toa_ok hits ->
  nth_error hits i = Some a -> nth_error hits j = Some b -> h_toa a = h_toa b ->
  same_time eps hits i j.
Proof. exact C63_class_l. Qed.
Print Assumptions C63_periods_are_confused.
(** Hits ten periods, about 4 ms, apart form one event. *)
Example C63_instance :
  (let! o := dbs_fit ex_dbs ex_dcfg dbs_new
      [Hit 1 1 30 100 0 (Some 100) 100; Hit 1 1 30 100 0 (Some 163940) 163940] in
   Ok (b_labels o, map n_hits (b_events o))) = Ok ([0; 0], [2]).
Proof. vm_compute. reflexivity. Qed.
