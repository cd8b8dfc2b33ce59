(** Property C76: the fast Gaussian fit; and additions to C25 and C45.  Each
    theorem is followed by a concrete instance of its hypotheses. *)
From Coq Require Import Reals Sorted Permutation.
From Flocq Require Import Core.
From Verif Require Import S_Gauss P_Centroid P_Gauss Properties_Abs.
From Coq Require Import Lia.
Global Open Scope Z_scope.

(** C76: the fit of a cluster of at least eight hits uses the hits above the
    median ToT only. The event has the number of all hits, the exact sum of the
    heights over the median and the rounded mean time of flight of the hits
    used, and half of the least squares solution of an exact system.  If no hit
    is above the median the time of flight is NaN. *)
Theorem C76_fit : forall ext data m,
  8 <= zlen data <= 2 ^ 20 -> Forall sensor_hit data -> twice_median (map h_tot data) m ->
  exists e A b sx sy, gauss_fit ext (f_of_Z 1) data = Ok e /\
    Forall2 (is_row (ext_log ext) m) (above m data) A /\ Forall2 is_rhs (above m data) b /\
    ext_qr ext A b = (sx, sy) /\ n_x e = fdiv sx (f_of_Z 2) /\ n_y e = fdiv sy (f_of_Z 2) /\
    n_hits e = zlen data /\
    is_half (n_tot e) (hsum (fun h => 2 * h_tot h - m) (above m data)) /\
    (above m data <> [] -> rounded (n_tof e) (Rdiv (IZR (hsum tof_value (above m data))) (IZR (zlen (above m data))))) /\
    (above m data = [] -> is_nan (n_tof e) = true).
Proof. exact C76_fit_l. Qed.
Print Assumptions C76_fit.
Definition gex_data : list hit := map (fun i => ex_hit i (2 * i) (10 + 3 * i) i) [4; 1; 7; 2; 8; 3; 6; 5].
Example C76_instance :
  8 <= zlen gex_data <= 2 ^ 20 /\ Forall sensor_hit gex_data /\ twice_median (map h_tot gex_data) 47 /\
  map h_x (above 47 gex_data) = [7; 8; 6; 5] /\
  (let! e := gauss_fit ex_ext (f_of_Z 1) gex_data in
   Ok (n_hits e, f_to_i32 (fmul (f_of_Z 2) (n_tot e)), f_to_i32 (fmul (f_of_Z 10) (n_tof e)))) = Ok (8, Some 48, Some 65).
Proof.
  split; [vm_compute; split; discriminate|]. split.
  { repeat (apply Forall_cons; [repeat apply conj; try (cbn; lia); eexists; split; [reflexivity|lia]|]). apply Forall_nil. }
  split.
  { exists (map (fun i => 10 + 3 * i) [1; 2; 3; 4; 5; 6; 7; 8]), 3%nat. split.
    - change (map h_tot gex_data) with (map (fun i => 10 + 3 * i) [4; 1; 7; 2; 8; 3; 6; 5]). apply Permutation_map.
      apply NoDup_Permutation.
      + repeat constructor; cbn; lia.
      + repeat constructor; cbn; lia.
      + intros x. cbn. lia.
    - split.
      + repeat constructor; lia.
      + right. split; [reflexivity|]. exists 22, 25. repeat split; reflexivity. }
  split; vm_compute; reflexivity.
Qed.

(** C76: the median exists and is unique, and at most half of the hits are
    above. *)
Theorem C76_median_exists : forall l, l <> [] -> exists m, twice_median l m.
Proof. exact twice_median_exists_l. Qed.
Print Assumptions C76_median_exists.
Theorem C76_median_unique : forall l m m', twice_median l m -> twice_median l m' -> m = m'.
Proof. exact twice_median_unique_l. Qed.
Print Assumptions C76_median_unique.
Theorem C76_at_most_half_used : forall data m, twice_median (map h_tot data) m ->
  2 * zlen (above m data) <= zlen data.
Proof. exact above_half_l. Qed.
Print Assumptions C76_at_most_half_used.

(** C76: fewer than eight hits give the invalid event. *)
Theorem C76_few_hits : forall ext srf data, zlen data < 8 ->
  exists e, gauss_fit ext srf data = Ok e /\ is_whole (n_x e) (-1) /\ is_whole (n_y e) (-1) /\
    is_whole (n_tof e) 0 /\ is_whole (n_tot e) 0 /\ n_hits e = 0.
Proof. exact C76_few_l. Qed.
Print Assumptions C76_few_hits.
Example C76_few_instance : zlen (firstn 7 gex_data) < 8.
Proof. vm_compute. reflexivity. Qed.

(** C76: in a cluster of hits with equal ToT no hit is above the median (so the
    time of flight is NaN). *)
Theorem C76_equal_heights : forall data t, data <> [] -> Forall (fun h => h_tot h = t) data ->
  twice_median (map h_tot data) (2 * t) /\ above (2 * t) data = [].
Proof. exact C76_flat_l. Qed.
Print Assumptions C76_equal_heights.
Theorem C76_time_always_finite_refuted : exists data,
  8 <= zlen data /\ Forall sensor_hit data /\
  (let! e := gauss_fit ex_ext (f_of_Z 1) data in Ok (is_nan (n_tof e))) = Ok true.
Proof.
  exists (map (fun i => ex_hit i i 20 i) [1; 2; 3; 4; 5; 6; 7; 8]). split; [vm_compute; discriminate|]. split.
  - repeat (apply Forall_cons; [repeat apply conj; try (cbn; lia); eexists; split; [reflexivity|lia]|]). apply Forall_nil.
  - vm_compute. reflexivity.
Qed.
Print Assumptions C76_time_always_finite_refuted.

(** C76: a hit without time of flight makes the fit undefined. *)
Theorem C76_unset_time : forall ext srf data, 8 <= zlen data -> Exists (fun h => h_tof h = None) data ->
  gauss_fit ext srf data = UB Uninitialised.
Proof. exact C76_unset_l. Qed.
Print Assumptions C76_unset_time.

(** C25: after a reset there are no events to be had before the next fit. *)
Theorem C25_reset : forall ext cfg o d,
  abs_get_events ext cfg (abs_reset o) d = if zlen d =? 0 then Ok [] else Throw RuntimeError.
Proof. exact C25_reset_l. Qed.
Print Assumptions C25_reset.
Example C25_reset_instance :
  (let! o := abs_fit 8 ex_cfg abs_new ex_hits in
   let! evs := abs_get_events ex_ext ex_cfg o ex_hits in Ok (zlen evs)) = Ok 4 /\
  (let! o := abs_fit 8 ex_cfg abs_new ex_hits in
   let! evs := abs_get_events ex_ext ex_cfg (abs_reset o) ex_hits in Ok (zlen evs)) = Throw RuntimeError.
Proof. vm_compute. split; reflexivity. Qed.

(** C45: the times of an event in ns are the correctly rounded 25-fold ones. *)
Theorem C45_event_times : forall n,
  is_finite (n_tof n) = true -> (Rabs (B2R (n_tof n)) <= bpow radix2 1000)%R ->
  is_finite (n_tot n) = true -> (Rabs (B2R (n_tot n)) <= bpow radix2 1000)%R ->
  rounded (n_tof_ns n) (25 * B2R (n_tof n))%R /\ rounded (n_tot_ns n) (25 * B2R (n_tot n))%R.
Proof. exact C45_event_l. Qed.
Print Assumptions C45_event_times.
