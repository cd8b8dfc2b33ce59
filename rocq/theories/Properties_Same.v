(** Property C110: what the outputs of the program do not depend on.  The theorem is
    followed by a concrete instance. *)
From Coq Require Import Reals String Lia Permutation.
From Verif Require Import P_Same S_Same P_Program P_Tof.
From Verif Require Import Properties_Tpx3 Properties_Abs Properties_Cli Properties_Program Properties_Measure Properties_Events Properties_Motion.
Local Open Scope string_scope.
Local Open Scope Z_scope.
Local Open Scope list_scope.

(** Two completed runs on the same recording with the same configuration: chunk sizes,
    file names, threads, messages and what else the options say change nothing of the
    hits, the neutrons and the spectra, nor of the images if the earlier ones were the
    same.  Nor does the timing mode in the first 53 s of a run, if each pulse and hit
    comes soon after a time packet.  (Later it does: C90_tdc_late_refuted.) *)
Theorem C110_same : forall ext o o' cfg cfg' ds s d d1 d' d1',
  completed ext o cfg ds s d d1 -> completed ext o' cfg' ds s d' d1' -> cfg' = cfg ->
  timing_of o' = timing_of o \/ (exists hss k, recording both_near false nothing_known ds hss k) ->
  (o_hits o <> "" -> o_hits o' <> "" -> same_hits d1 (o_hits o) d1' (o_hits o')) /\
  (o_events o <> "" -> o_events o' <> "" -> same_neutrons d1 (o_events o) d1' (o_events o')) /\
  ((o_mode o' = "hit" <-> o_mode o = "hit") ->
   (o_tiff o <> "" -> o_tiff o' <> "" -> forall i x y u, (i < length (g_edges cfg) - 1)%nat -> 0 <= x < s -> 0 <= y < s ->
      prior (d_files d) (tiff_name (o_tiff o) (o_base o) i) s s x y u ->
      prior (d_files d') (tiff_name (o_tiff o') (o_base o') i) s s x y u ->
      exists v, disk (d_files d1) (tiff_name (o_tiff o) (o_base o) i) x y = Some v /\
        disk (d_files d1') (tiff_name (o_tiff o') (o_base o') i) x y = Some v) /\
   (forall hss nss s', processed (timing_of o) ts0 ds hss s' -> Forall2 (neutrons_of ext (g_abs cfg)) hss nss ->
      zlen (binned o hss nss) < 2 ^ 32 ->
      o_spectra o <> "" -> o_spectra o' <> "" ->
      exists rows, d_files d1 (o_spectra o ++ ".txt")%string = Some (Spectrum rows) /\
        d_files d1' (o_spectra o' ++ ".txt")%string = Some (Spectrum rows))).
Proof. exact C110_l. Qed.
Print Assumptions C110_same.

(** A run with GDC timing, and one with TDC timing, chunks of 5 GB and other names. *)
Definition sm_o : options := Options "in" "h2" "e2" "" "out2" "run" "hit" "Sp" "tdc" 5368709120 false true.
Definition sm_args : list arg := [Ai "in"; AH "h2"; AE "e2"; AT "out2"; Af "run"; As "Sp"; Am "hit"; At "tdc"; Av].
Example C110_same_instance : exists cfg d1 d1' f f',
  completed cex_ext mo_o cfg (map dataset_of hex) 517 pex_d d1 /\
  completed cex_ext sm_o cfg (map dataset_of hex) 517 pex_d d1' /\
  d_h5 d1 "h" = Some f /\ d_h5 d1' "h2" = Some f' /\ col f' "hits" "tof_ns" = col f "hits" "tof_ns" /\
  forall x y, 0 <= x < 517 -> 0 <= y < 517 -> exists v,
    disk (d_files d1) (tiff_name "out" "tof_image" 0) x y = Some v /\
    disk (d_files d1') (tiff_name "out2" "run" 0) x y = Some v.
Proof.
  set (ds := map dataset_of hex).
  destruct (P_MeasureHist.histories_recording both_near None None hex hex_hits) as [O (k & R)].
  { apply hex_histories. intros t I. unfold both_near, around, early_run. repeat (destruct I as [<-|I]; [lia|]). destruct I. }
  pose proof (P_Measure.recording_mono both_near around false true _ _ _ _ ltac:(unfold both_near; tauto) ltac:(discriminate) R) as Rg.
  pose proof (P_Measure.recording_mono both_near early_run false false _ _ _ _ ltac:(unfold both_near; tauto) ltac:(discriminate) R) as Rt.
  destruct (P_Program.C81_default_l (mo_w ds) mo_o eq_refl) as (edges & C & E & V).
  assert (N : Forall no_false_header ds) by (repeat constructor; vm_compute; intuition discriminate).
  destruct (mo_completed ds hex_hits k edges C E ltac:(discriminate) O N ltac:(reflexivity) Rg) as (d1 & P1).
  assert (U : understood (mo_w ds) sm_args sm_o) by (apply P_Program.understood_parse; reflexivity).
  assert (Cu : cuts_at_datasets (o_chunk sm_o) ds).
  { intros i H. change (zlen (stream ds)) with 80 in H. cbn [o_chunk sm_o] in H. lia. }
  assert (Lf : (length (stream ds) <= 300)%nat) by (apply Nat.leb_le; vm_compute; reflexivity).
  assert (Un : forall i, (i < length edges - 1)%nat ->
    saved (d_files pex_d) (tiff_name (o_tiff sm_o) (o_base sm_o) i) 517 517 \/ unrelated (d_files pex_d) (tiff_name (o_tiff sm_o) (o_base sm_o) i) 517 517).
  { intros i _. right. intros w h r. discriminate. }
  destruct (P_Program.C81_succeeds_l 300 cex_ext (mo_w ds) (seq 0 (length edges - 1)) sm_args pex_d sm_o _ ds (fun _ => eq_refl) U C eq_refl)
    as (d1' & P2); try assumption.
  - intros _. reflexivity.
  - intros _. split; [discriminate|reflexivity].
  - intros _. reflexivity.
  - discriminate.
  - reflexivity.
  - reflexivity.
  - apply Permutation_refl.
  - intros hss' s' Q. change (timing_of sm_o) with TDC_mode in *.
    destruct (P_Measure.C90_tdc_l ds hex_hits k Rt) as (s2 & Q2). destruct (P_CliRun.processed_unique _ _ _ _ _ _ _ Q2 Q) as [<- _].
    assert (B : Forall (fun h => h_tof h <> None) (concat hex_hits)) by (repeat constructor; discriminate).
    eapply Forall_impl; [|exact B]. intros h Hh. split; [discriminate|intros _; exact Hh].
  - assert (P2' : completed cex_ext sm_o (Config (AbsCfg (f_of_Z 5) 1 75) (f_of_Z 1) edges) ds 517 pex_d d1').
    { exists 300%nat, (mo_w ds), (seq 0 (length edges - 1)), sm_args. split; [exact pex_exclusive|]. split; [intros p; reflexivity|].
      split; [exact U|]. split; [exact C|]. split; [reflexivity|]. split; [exact O|]. split; [exact N|]. split; [reflexivity|].
      split; [exact Cu|]. split; [exact Lf|]. split; [exact E|]. split; [apply P_Tof.side_one|]. split; [reflexivity|].
      split; [apply Permutation_refl|]. split; [exact Un|exact P2]. }
    destruct (C110_same cex_ext mo_o sm_o _ _ ds 517 pex_d d1 pex_d d1' P1 P2' eq_refl (or_intror (ex_intro _ hex_hits (ex_intro _ k R)))) as (Sh & _ & Im).
    destruct (Sh ltac:(discriminate) ltac:(discriminate)) as (f & f' & F & F' & K).
    exists (Config (AbsCfg (f_of_Z 5) 1 75) (f_of_Z 1) edges), d1, d1', f, f'. split; [exact P1|]. split; [exact P2'|]. split; [exact F|]. split; [exact F'|].
    split; [eapply K; constructor|].
    intros x y Hx Hy. destruct (Im (iff_refl _)) as [I _].
    apply (I ltac:(discriminate) ltac:(discriminate) 0%nat x y 0); [| | |apply prior_none; intros w h r; discriminate|apply prior_none; intros w h r; discriminate].
    + destruct E as [E _]. cbn [g_edges]. lia.
    + exact Hx.
    + exact Hy.
Qed.
