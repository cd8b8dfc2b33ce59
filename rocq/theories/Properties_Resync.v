(** Property C116: the program recovers from damaged time packets.  Every theorem is followed
    by a concrete instance. *)
From Coq Require Import Reals String Lia.
From Verif Require Import P_Resync S_Resync P_Damage P_Append P_Program P_Tof.
From Verif Require Import Properties_Tpx3 Properties_Abs Properties_Cli Properties_Program Properties_Measure Properties_Events Properties_Motion Properties_Append Properties_Resplit.
Local Open Scope string_scope.
Local Open Scope Z_scope.
Local Open Scope list_scope.

(** Two recordings that differ in some consecutive datasets, in whatever way, GDC timing:
    from the datasets on that contain the next reference and pulse, the files have the same
    hits and neutrons, and every number in images and spectra differs at most by the pixels
    before. *)
Theorem C116_recovers : forall ext o o' cfg pre mid mid' sync post s d d1 d' d1',
  tells_time (packets_of sync) -> timing_of o = GDC_mode -> timing_of o' = GDC_mode ->
  completed ext o cfg (pre ++ (mid ++ sync) ++ post) s d d1 -> completed ext o' cfg (pre ++ (mid' ++ sync) ++ post) s d' d1' ->
  (o_hits o <> "" -> o_hits o' <> "" -> exists f f' a b b' c,
     d_h5 d1 (o_hits o) = Some f /\ d_h5 d1' (o_hits o') = Some f' /\ zlen b <= fires (mid ++ sync) /\ zlen b' <= fires (mid' ++ sync) /\
     forall n fld, hit_field n fld ->
       map Some (col f "hits" n) = map fld (a ++ b ++ c) /\ map Some (col f' "hits" n) = map fld (a ++ b' ++ c)) /\
  (o_events o <> "" -> o_events o' <> "" -> 1 <= a_min (g_abs cfg) -> exists f f' a b b' c,
     d_h5 d1 (o_events o) = Some f /\ d_h5 d1' (o_events o') = Some f' /\ zlen b <= fires (mid ++ sync) /\ zlen b' <= fires (mid' ++ sync) /\
     forall n fld, neutron_field n fld ->
       col f "neutrons" n = map fld (a ++ b ++ c) /\ col f' "neutrons" n = map fld (a ++ b' ++ c)) /\
  ((o_mode o' = "hit" <-> o_mode o = "hit") -> 1 <= a_min (g_abs cfg) ->
   (o_tiff o <> "" -> o_tiff o' <> "" -> forall i x y u, (i < length (g_edges cfg) - 1)%nat -> 0 <= x < s -> 0 <= y < s ->
      prior (d_files d) (tiff_name (o_tiff o) (o_base o) i) s s x y u ->
      prior (d_files d') (tiff_name (o_tiff o') (o_base o') i) s s x y u ->
      exists v v', disk (d_files d1) (tiff_name (o_tiff o) (o_base o) i) x y = Some ((u + v) mod 2 ^ 32) /\
        disk (d_files d1') (tiff_name (o_tiff o') (o_base o') i) x y = Some ((u + v') mod 2 ^ 32) /\
        share (fires (mid ++ sync)) (fires (mid' ++ sync)) v v') /\
   (zlen (packets_of (pre ++ (mid ++ sync) ++ post)) < 2 ^ 32 -> zlen (packets_of (pre ++ (mid' ++ sync) ++ post)) < 2 ^ 32 ->
      o_spectra o <> "" -> o_spectra o' <> "" ->
      exists rows rows', d_files d1 (o_spectra o ++ ".txt")%string = Some (Spectrum rows) /\
        d_files d1' (o_spectra o' ++ ".txt")%string = Some (Spectrum rows') /\
        Forall2 (fun r r' => fst r' = fst r /\ share (fires (mid ++ sync)) (fires (mid' ++ sync)) (snd r) (snd r')) rows rows')).
Proof. exact C116_l. Qed.
Print Assumptions C116_recovers.

(** A dataset with one hit, its time packets right or wrong (2^40 ticks later); a dataset
    with new time packets; a dataset of another chip. *)
Definition ry_good : Z * Z * Z * list act := (51, 0, 0, [Ref 1000; Pulse 2000; Fire 100 200 77 5 5234]).
Definition ry_bad : Z * Z * Z * list act := (51, 0, 0, [Ref (2 ^ 40); Pulse (2 ^ 40 + 1000); Fire 100 200 77 5 (2 ^ 40 + 5234)]).
Definition ry_sync : Z * Z * Z * list act := (51, 2, 0, [Ref 660000; Pulse 668667]).
Definition ry_post : Z * Z * Z * list act := (51, 1, 0, [Fire 3 4 88 6 700000]).
Lemma ry_tells : tells_time (packets_of [dataset_of ry_sync]).
Proof.
  exists [], (word_packet (68 * 2 ^ 56 + 660000 mod 2 ^ 32 * 2 ^ 16)), [], (word_packet (69 * 2 ^ 56 + 660000 / 2 ^ 32 * 2 ^ 16)), [],
    (word_packet (111 * 2 ^ 56 + 668667 mod 2 ^ 32 * 2 ^ 12)), []. split; [reflexivity|]. split; [reflexivity|]. split; [reflexivity|].
  split; [reflexivity|]. split; [constructor|]. reflexivity.
Qed.
Example C116_recovers_instance : exists cfg d1 d1',
  completed cex_ext mo_o cfg (map dataset_of [ry_good; ry_sync; ry_post]) 517 pex_d d1 /\
  completed cex_ext mo_o cfg (map dataset_of [ry_bad; ry_sync; ry_post]) 517 pex_d d1' /\
  (exists f f' a b b' c, d_h5 d1 "h" = Some f /\ d_h5 d1' "h" = Some f' /\ zlen b <= 1 /\ zlen b' <= 1 /\
     map Some (col f "hits" "x") = map (fun h => Some (f_of_Z (h_x h))) (a ++ b ++ c) /\
     map Some (col f' "hits" "x") = map (fun h => Some (f_of_Z (h_x h))) (a ++ b' ++ c)) /\
  forall x y, 0 <= x < 517 -> 0 <= y < 517 -> exists v v',
    disk (d_files d1) (tiff_name "out" "tof_image" 0) x y = Some (v mod 2 ^ 32) /\
    disk (d_files d1') (tiff_name "out" "tof_image" 0) x y = Some (v' mod 2 ^ 32) /\ share 1 1 v v'.
Proof.
  assert (Hr : forall g T, exists hs, histories after g T [ry_sync; ry_post] hs).
  { intros g T. eexists. eapply (hs_cons _ _ _ _ _ _ _ _ (Some 660000) (Some 668667)); try (unfold is_byte; lia); [vm_compute; discriminate| |].
    - eapply hy_ref; [lia|]. eapply hy_pulse; [unfold after; lia|]. eapply hy_nil.
    - eapply (hs_cons _ _ _ _ _ _ _ _ (Some 660000) (Some 668667)); try (unfold is_byte; lia); [vm_compute; discriminate| |eapply hs_nil].
      eapply (hy_fire _ 1 660000 668667 3 4); try lia; [unfold after; lia|]. eapply hy_nil. }
  assert (H1 : exists hss, histories after None None [ry_good; ry_sync; ry_post] hss).
  { destruct (Hr (Some 1000) (Some 2000)) as (hr & H). eexists. eapply (hs_cons _ _ _ _ _ _ _ _ (Some 1000) (Some 2000)); try (unfold is_byte; lia); [vm_compute; discriminate| |exact H].
    eapply hy_ref; [lia|]. eapply hy_pulse; [unfold after; lia|]. eapply (hy_fire _ 0 1000 2000 100 200); try lia; [unfold after; lia|]. eapply hy_nil. }
  assert (H2 : exists hss, histories after None None [ry_bad; ry_sync; ry_post] hss).
  { destruct (Hr (Some (2 ^ 40)) (Some (2 ^ 40 + 1000))) as (hr & H). eexists.
    eapply (hs_cons _ _ _ _ _ _ _ _ (Some (2 ^ 40)) (Some (2 ^ 40 + 1000))); try (unfold is_byte; lia); [vm_compute; discriminate| |exact H].
    eapply hy_ref; [lia|]. eapply hy_pulse; [unfold after; lia|]. eapply (hy_fire _ 0 (2 ^ 40) (2 ^ 40 + 1000) 100 200); try lia; [unfold after; lia|]. eapply hy_nil. }
  destruct H1 as (h1 & H1). destruct H2 as (h2 & H2).
  destruct (rs_default (map dataset_of [ry_good; ry_sync; ry_post])) as (edges & C & E).
  destruct (rs_run _ _ edges H1) as (d1 & s1 & P1 & _); [discriminate| |reflexivity|exact C|exact E|].
  { repeat constructor; vm_compute; intuition discriminate. }
  destruct (rs_run _ _ edges H2) as (d1' & s2 & P2 & _); [discriminate| |reflexivity|exact C|exact E|].
  { repeat constructor; vm_compute; intuition discriminate. }
  exists (Config (AbsCfg (f_of_Z 5) 1 75) (f_of_Z 1) edges), d1, d1'. split; [exact P1|]. split; [exact P2|].
  destruct (C116_recovers cex_ext mo_o mo_o (Config (AbsCfg (f_of_Z 5) 1 75) (f_of_Z 1) edges) [] [dataset_of ry_good] [dataset_of ry_bad] [dataset_of ry_sync]
    [dataset_of ry_post] 517 pex_d d1 pex_d d1' ry_tells eq_refl eq_refl P1 P2) as (Hh & _ & Hi).
  assert (F1 : fires ([dataset_of ry_good] ++ [dataset_of ry_sync]) = 1) by (vm_compute; reflexivity).
  assert (F2 : fires ([dataset_of ry_bad] ++ [dataset_of ry_sync]) = 1) by (vm_compute; reflexivity).
  rewrite F1, F2 in *. split.
  - destruct (Hh ltac:(discriminate) ltac:(discriminate)) as (f & f' & a & b & b' & c & F & F' & L & L' & G).
    exists f, f', a, b, b', c. split; [exact F|]. split; [exact F'|]. split; [exact L|]. split; [exact L'|]. exact (G _ _ HF_x).
  - intros x y Hx Hy. destruct (Hi (iff_refl _) ltac:(cbn [g_abs a_min]; lia)) as [J _].
    destruct (J ltac:(discriminate) ltac:(discriminate) 0%nat x y 0) as (v & v' & D & D' & Sh);
      [destruct E as [E _]; cbn [g_edges]; lia|exact Hx|exact Hy|apply prior_none; intros w h r; discriminate|apply prior_none; intros w h r; discriminate|].
    exists v, v'. split; [exact D|]. split; [exact D'|exact Sh].
Qed.

(** With TDC timing the program does not recover: after one damaged pulse the hits of the
    later datasets, with their own reference and pulses, have no time of flight. *)
Theorem C116_tdc_refuted : exists mid sync post hss s1 hss' s1',
  tells_time (packets_of sync) /\
  processed TDC_mode ts0 (sync ++ post) hss s1 /\ processed TDC_mode ts0 (mid ++ sync ++ post) hss' s1' /\
  map (map h_tof) hss = [[]; [Some 31333]] /\ map (map h_tof) hss' = [[]; []; [None]].
Proof.
  exists [dataset_of (51, 0, 0, [Pulse (2 ^ 32 - 1)])], [dataset_of ry_sync], [dataset_of ry_post]. do 4 eexists. split; [exact ry_tells|].
  split; [|split].
  - eapply (pr_cons _ _ _ _ 2); [split; [|reflexivity]; cbn; lia| |].
    + apply y_time; [discriminate|]. apply y_time; [discriminate|]. apply y_time; [discriminate|]. apply y_nil.
    + eapply (pr_cons _ _ _ _ 1); [split; [|reflexivity]; cbn; lia| |apply pr_nil].
      apply y_hit; [reflexivity|vm_compute; discriminate|reflexivity|apply y_nil].
  - eapply (pr_cons _ _ _ _ 0); [split; [|reflexivity]; cbn; lia| |].
    + apply y_time; [discriminate|]. apply y_nil.
    + eapply (pr_cons _ _ _ _ 2); [split; [|reflexivity]; cbn; lia| |].
      * apply y_time; [discriminate|]. apply y_time; [discriminate|]. apply y_time; [discriminate|]. apply y_nil.
      * eapply (pr_cons _ _ _ _ 1); [split; [|reflexivity]; cbn; lia| |apply pr_nil].
        apply y_hit; [reflexivity|vm_compute; discriminate|reflexivity|apply y_nil].
  - split; vm_compute; reflexivity.
Qed.
Print Assumptions C116_tdc_refuted.
