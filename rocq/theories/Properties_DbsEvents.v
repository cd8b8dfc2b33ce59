(** Property C98: DBSCAN and true events.  Each theorem is followed by a concrete
    instance of its hypotheses. *)
From Coq Require Import Lia.
From Verif Require Import P_DbsComps.
Global Open Scope Z_scope.

(** Hits of the examples: two events at the same time on different places, and
    later one at the place of the first; their hits come mixed. *)
Definition ex_at (x y toa : Z) : hit := Hit x y 30 toa 0 None toa.
Definition ex_true : list hit :=
  [ex_at 10 20 100; ex_at 50 60 103; ex_at 11 20 101; ex_at 10 21 101; ex_at 52 60 101; ex_at 11 21 9001;
   ex_at 10 20 9000; ex_at 11 21 9002].
Definition ex_own : list nat := [0; 1; 0; 0; 1; 2; 2; 2]%nat.
Definition ex_find : dbs_cfg := DbsCfg (f_of_Z 75) 2 (f_of_Z 2) 1.
Definition ex_round (x : f64) : Z := match f_to_i32 x with Some z => z | None => -1 end.

(** C98: one event for each true event, with its hits, their number, the mean of
    their pixels and their time, whatever was fitted before and whatever the
    size of the chunks. *)
Theorem C98_true_events : forall cfg ext hits own n size o, eps_ok (d_eps_time cfg) ->
  Forall toa_ok hits -> Forall pixel_ok hits -> zlen hits < 2 ^ 31 -> ext_sound ext ->
  fit2_finds ext -> 1 <= size -> distinct cfg hits own n ->
  exists o', dbs_fit_with size ext cfg o hits = Ok o' /\ tells_all cfg hits own n o'.
Proof.
  intros cfg ext hits own n size o He Ht Hp Hf Hx H2 Hs HD.
  exact (C98_l cfg ext hits own n size Hx H2 Hp Hf HD He Ht o Hs).
Qed.
Print Assumptions C98_true_events.
Example C98_true_events_instance :
  ext_sound ex_lib /\ fit2_finds ex_lib /\ eps_ok (d_eps_time ex_find) /\ Forall toa_ok ex_true /\
  Forall pixel_ok ex_true /\ distinct ex_find ex_true ex_own 3 /\
  (let! o := dbs_fit_with 3 ex_lib ex_find (DbsObj [] [8; 8]) ex_true in
   Ok (b_labels o, map (fun e => (ex_round (fmul (n_x e) (f_of_Z 3)), ex_round (fmul (n_y e) (f_of_Z 3)),
                                  ex_round (n_tof e), n_hits e)) (b_events o)))
  = Ok ([0; 1; 0; 0; 1; 2; 2; 2], [(31, 61, 2530, 3); (153, 180, 2530, 2); (32, 62, 225025, 3)]).
Proof.
  split; [exact ex_lib_sound|]. split; [exact ex_plane_finds|]. split; [split; vm_compute; reflexivity|].
  split; [repeat constructor; cbn; lia|]. split; [repeat constructor; cbn; lia|]. split.
  - apply (distinct_by ex_find 103 9000); [split; vm_compute; reflexivity|repeat constructor; cbn; lia|].
    vm_compute. reflexivity.
  - vm_compute. reflexivity.
Qed.

(** C98: means lie between the values: if the hits of an event are within some
    columns, rows and ticks, so is the event found (in time, if it is alone). *)
Theorem C98_accuracy : forall cfg hits own n o l x0 x1 y0 y1 t0 t1,
  Forall toa_ok hits -> Forall pixel_ok hits -> zlen hits < 2 ^ 31 -> distinct cfg hits own n ->
  tells_all cfg hits own n o -> (l < n)%nat ->
  Forall (fun h => x0 <= h_x h <= x1 /\ y0 <= h_y h <= y1 /\ t0 <= h_toa h <= t1) (hits_of l own hits) ->
  exists k e, nth_error (b_events o) k = Some e /\
    (forall i, nth_error own i = Some l <-> nth_error (b_labels o) i = Some (Z.of_nat k)) /\
    lies_in x0 x1 (n_x e) /\ lies_in y0 y1 (n_y e) /\
    (alone cfg hits own l -> lies_in (25 * t0) (25 * t1) (n_tof e)).
Proof. exact C98_accuracy_l. Qed.
Print Assumptions C98_accuracy.
Example C98_accuracy_instance :
  Forall (fun h => 10 <= h_x h <= 11 /\ 20 <= h_y h <= 21 /\ 9000 <= h_toa h <= 9002) (hits_of 2 ex_own ex_true) /\
  hits_of 2 ex_own ex_true = [ex_at 11 21 9001; ex_at 10 20 9000; ex_at 11 21 9002].
Proof. split; [repeat constructor; cbn; lia|reflexivity]. Qed.

(** C98: an event that is not alone in time can have a time later than all its
    hits. *)
Theorem C98_time_refuted : exists ext cfg hits own o e,
  ext_sound ext /\ fit2_finds ext /\ eps_ok (d_eps_time cfg) /\ Forall toa_ok hits /\
  Forall pixel_ok hits /\ distinct cfg hits own 2 /\ dbs_fit ext cfg dbs_new hits = Ok o /\
  nth_error (b_events o) 0 = Some e /\
  forall i h, nth_error (b_labels o) i = Some 0 -> nth_error hits i = Some h ->
    flt (toa_ns h) (n_tof e) = true.
Proof.
  set (hits := [ex_at 10 20 100; ex_at 11 20 100; ex_at 50 60 103; ex_at 50 61 103]).
  destruct (late_event (dbs_fit ex_lib ex_find dbs_new hits) hits) as [o [e W]]; [vm_compute; reflexivity|].
  exists ex_lib, ex_find, hits, [0; 0; 1; 1]%nat, o, e.
  split; [exact ex_lib_sound|]. split; [exact ex_plane_finds|]. split; [split; vm_compute; reflexivity|].
  split; [repeat constructor; cbn; lia|]. split; [repeat constructor; cbn; lia|]. split; [|exact W].
  apply (distinct_by ex_find 200 9000); [split; vm_compute; reflexivity|repeat constructor; cbn; lia|].
  vm_compute. reflexivity.
Qed.
Print Assumptions C98_time_refuted.
