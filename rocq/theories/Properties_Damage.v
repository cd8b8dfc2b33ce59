(** Property C112: damage to the data of some datasets stays where it is.  The theorem is
    followed by a concrete instance. *)
From Coq Require Import Reals String Lia.
From Verif Require Import P_Damage S_Damage P_Append P_Program P_Tof.
From Verif Require Import Properties_Tpx3 Properties_Abs Properties_Cli Properties_Program Properties_Measure Properties_Events Properties_Motion Properties_Append.
Local Open Scope string_scope.
Local Open Scope Z_scope.
Local Open Scope list_scope.

(** Two recordings that differ in some consecutive datasets, but not in their time
    packets: the files have the same hits and neutrons before and after those of the
    datasets, and every number in images and spectra differs at most by the pixels in the
    datasets. *)
Theorem C112_contained : forall ext o o' cfg pre mid mid' post s d d1 d' d1',
  same_times mid mid' -> timing_of o' = timing_of o ->
  completed ext o cfg (pre ++ mid ++ post) s d d1 -> completed ext o' cfg (pre ++ mid' ++ post) s d' d1' ->
  (o_hits o <> "" -> o_hits o' <> "" -> exists f f' a b b' c,
     d_h5 d1 (o_hits o) = Some f /\ d_h5 d1' (o_hits o') = Some f' /\ zlen b <= fires mid /\ zlen b' <= fires mid' /\
     forall n fld, hit_field n fld ->
       map Some (col f "hits" n) = map fld (a ++ b ++ c) /\ map Some (col f' "hits" n) = map fld (a ++ b' ++ c)) /\
  (o_events o <> "" -> o_events o' <> "" -> 1 <= a_min (g_abs cfg) -> exists f f' a b b' c,
     d_h5 d1 (o_events o) = Some f /\ d_h5 d1' (o_events o') = Some f' /\ zlen b <= fires mid /\ zlen b' <= fires mid' /\
     forall n fld, neutron_field n fld ->
       col f "neutrons" n = map fld (a ++ b ++ c) /\ col f' "neutrons" n = map fld (a ++ b' ++ c)) /\
  ((o_mode o' = "hit" <-> o_mode o = "hit") -> 1 <= a_min (g_abs cfg) ->
   (o_tiff o <> "" -> o_tiff o' <> "" -> forall i x y u, (i < length (g_edges cfg) - 1)%nat -> 0 <= x < s -> 0 <= y < s ->
      prior (d_files d) (tiff_name (o_tiff o) (o_base o) i) s s x y u ->
      prior (d_files d') (tiff_name (o_tiff o') (o_base o') i) s s x y u ->
      exists v v', disk (d_files d1) (tiff_name (o_tiff o) (o_base o) i) x y = Some ((u + v) mod 2 ^ 32) /\
        disk (d_files d1') (tiff_name (o_tiff o') (o_base o') i) x y = Some ((u + v') mod 2 ^ 32) /\
        share (fires mid) (fires mid') v v') /\
   (zlen (packets_of (pre ++ mid ++ post)) < 2 ^ 32 -> zlen (packets_of (pre ++ mid' ++ post)) < 2 ^ 32 ->
      o_spectra o <> "" -> o_spectra o' <> "" ->
      exists rows rows', d_files d1 (o_spectra o ++ ".txt")%string = Some (Spectrum rows) /\
        d_files d1' (o_spectra o' ++ ".txt")%string = Some (Spectrum rows') /\
        Forall2 (fun r r' => fst r' = fst r /\ share (fires mid) (fires mid') (snd r) (snd r')) rows rows')).
Proof. exact C112_l. Qed.
Print Assumptions C112_contained.

(** The history of Properties_Measure, and the same with another chip and one other pixel
    in the first dataset. *)
Definition dm_first : Z * Z * Z * list act := (51, 3, 0, [Ref 1000; Pulse 2000; Fire 7 8 1 0 6000]).
Example C112_contained_instance : exists cfg d1 d1',
  completed cex_ext mo_o cfg (map dataset_of hex) 517 pex_d d1 /\
  completed cex_ext mo_o cfg (map dataset_of (dm_first :: skipn 1 hex)) 517 pex_d d1' /\
  (exists f f' a b b' c, d_h5 d1 (o_hits mo_o) = Some f /\ d_h5 d1' (o_hits mo_o) = Some f' /\ zlen b <= 3 /\ zlen b' <= 1 /\
     map Some (col f "hits" "x") = map (fun h => Some (f_of_Z (h_x h))) (a ++ b ++ c) /\
     map Some (col f' "hits" "x") = map (fun h => Some (f_of_Z (h_x h))) (a ++ b' ++ c)) /\
  forall x y, 0 <= x < 517 -> 0 <= y < 517 -> exists v v',
    disk (d_files d1) (tiff_name "out" "tof_image" 0) x y = Some (v mod 2 ^ 32) /\
    disk (d_files d1') (tiff_name "out" "tof_image" 0) x y = Some (v' mod 2 ^ 32) /\ share 3 1 v v'.
Proof.
  assert (H : histories after None None hex hex_hits).
  { apply hex_histories. intros t I. unfold after. repeat (destruct I as [<-|I]; [lia|]). destruct I. }
  assert (H' : exists hss, histories after None None (dm_first :: skipn 1 hex) hss).
  { eexists. unfold dm_first, hex. cbn [skipn].
    eapply (hs_cons _ _ _ _ _ _ _ _ (Some 1000) (Some 2000)); try (unfold is_byte; lia); [vm_compute; discriminate| |].
    - eapply hy_ref; [lia|]. eapply hy_pulse; [unfold after; lia|].
      eapply (hy_fire _ 3 1000 2000 7 8); try lia; [unfold after; lia|]. eapply hy_nil.
    - eapply (hs_cons _ _ _ _ _ _ _ _ (Some 1000) (Some 668667)); try (unfold is_byte; lia); [vm_compute; discriminate| |eapply hs_nil].
      eapply hy_pulse; [unfold after; lia|].
      eapply (hy_fire _ 1 1000 668667 3 4); try lia; [unfold after; lia|]. eapply hy_nil. }
  destruct H' as (hss' & H').
  destruct (P_MeasureHist.histories_recording _ _ _ _ _ H) as [Oj (kj & Rj)].
  destruct (P_MeasureHist.histories_recording _ _ _ _ _ H') as [Ok' (kk & Rk)].
  assert (A : forall g t, after g t -> around g t) by (unfold after, around; intros; lia).
  apply (P_Measure.recording_mono after around false true _ _ _ _ A ltac:(discriminate)) in Rj.
  apply (P_Measure.recording_mono after around false true _ _ _ _ A ltac:(discriminate)) in Rk.
  destruct (P_Program.C81_default_l (mo_w (map dataset_of hex)) mo_o eq_refl) as (edges & C & E & _).
  assert (Un : forall i, (i < length edges - 1)%nat ->
    saved (d_files pex_d) (tiff_name (o_tiff mo_o) (o_base mo_o) i) 517 517 \/ unrelated (d_files pex_d) (tiff_name (o_tiff mo_o) (o_base mo_o) i) 517 517).
  { intros i _. right. intros w h r. discriminate. }
  destruct (ap_completed (map dataset_of hex) hex_hits kj edges pex_d C E ltac:(discriminate) Oj) as (d1 & P1); [|reflexivity|exact Rj|exact Un|].
  { repeat constructor; vm_compute; intuition discriminate. }
  destruct (ap_completed (map dataset_of (dm_first :: skipn 1 hex)) hss' kk edges pex_d C E ltac:(discriminate) Ok') as (d1' & P2); [|reflexivity|exact Rk|exact Un|].
  { repeat constructor; vm_compute; intuition discriminate. }
  exists (Config (AbsCfg (f_of_Z 5) 1 75) (f_of_Z 1) edges), d1, d1'. split; [exact P1|]. split; [exact P2|].
  destruct (C112_contained cex_ext mo_o mo_o (Config (AbsCfg (f_of_Z 5) 1 75) (f_of_Z 1) edges) [] (map dataset_of (firstn 1 hex)) [dataset_of dm_first]
    (map dataset_of (skipn 1 hex)) 517 pex_d d1 pex_d d1' ltac:(vm_compute; reflexivity) eq_refl P1 P2) as (Hh & _ & Hi).
  split.
  - destruct (Hh ltac:(discriminate) ltac:(discriminate)) as (f & f' & a & b & b' & c & F & F' & L & L' & G).
    exists f, f', a, b, b', c. split; [exact F|]. split; [exact F'|]. split; [exact L|]. split; [exact L'|]. exact (G _ _ HF_x).
  - intros x y Hx Hy. destruct (Hi (iff_refl _) ltac:(reflexivity || (cbn [g_abs a_min]; lia))) as [J _].
    destruct (J ltac:(discriminate) ltac:(discriminate) 0%nat x y 0) as (v & v' & D & D' & Sh);
      [destruct E as [E _]; cbn [g_edges]; lia|exact Hx|exact Hy|apply prior_none; intros w h r; discriminate|apply prior_none; intros w h r; discriminate|].
    exists v, v'. split; [exact D|]. split; [exact D'|exact Sh].
Qed.
