(** Property C104: a recording may be cut into two runs.  The theorem is followed by
    a concrete instance. *)
From Coq Require Import String Lia Permutation.
From Verif Require Import P_Append S_Motion P_Program.
From Verif Require Import Properties_Tpx3 Properties_Abs Properties_Cli Properties_Program Properties_Measure Properties_Motion.
Local Open Scope string_scope.
Local Open Scope Z_scope.
Local Open Scope list_scope.

(** Two histories, each starting with a new reference: processed one after the
    other, or as one file.  The times must be near enough to the reference for
    the chosen timing mode (C90). *)
Theorem C104_runs : forall ext o cfg ys ys' hss hss' near s d d1 d2 dj,
  histories near None None ys hss -> histories near None None ys' hss' ->
  (timing_of o = GDC_mode -> forall g t, near g t -> around g t) ->
  (timing_of o = TDC_mode -> forall g t, near g t -> early_run g t) ->
  completed ext o cfg (map dataset_of ys) s d d1 -> completed ext o cfg (map dataset_of ys') s d1 d2 ->
  completed ext o cfg (map dataset_of (ys ++ ys')) s d dj ->
  (o_hits o <> ""%string -> exists f1 f2 fj,
     d_h5 d1 (o_hits o) = Some f1 /\ d_h5 d2 (o_hits o) = Some f2 /\ d_h5 dj (o_hits o) = Some fj /\
     forall n fld, hit_field n fld -> col fj "hits" n = col f1 "hits" n ++ col f2 "hits" n) /\
  (o_events o <> ""%string -> exists f1 f2 fj,
     d_h5 d1 (o_events o) = Some f1 /\ d_h5 d2 (o_events o) = Some f2 /\ d_h5 dj (o_events o) = Some fj /\
     forall n fld, neutron_field n fld -> col fj "neutrons" n = col f1 "neutrons" n ++ col f2 "neutrons" n) /\
  (o_tiff o <> ""%string -> forall i x y, (i < length (g_edges cfg) - 1)%nat -> 0 <= x < s -> 0 <= y < s ->
     exists v, disk (d_files d2) (tiff_name (o_tiff o) (o_base o) i) x y = Some v /\
       disk (d_files dj) (tiff_name (o_tiff o) (o_base o) i) x y = Some v).
Proof. exact C104_program_l. Qed.
Print Assumptions C104_runs.

(** The history of Properties_Measure, and again 2^40 ticks later. *)
Lemma ap_completed ds hss k edges d : configured (mo_w ds) mo_o (Config (AbsCfg (f_of_Z 5) 1 75) (f_of_Z 1) edges) ->
  edges_ok edges -> ds <> [] -> Forall dataset_ok ds -> Forall no_false_header ds -> zlen (stream ds) < 300 ->
  recording around true nothing_known ds hss k ->
  (forall i, (i < length edges - 1)%nat ->
    saved (d_files d) (tiff_name (o_tiff mo_o) (o_base mo_o) i) 517 517 \/ unrelated (d_files d) (tiff_name (o_tiff mo_o) (o_base mo_o) i) 517 517) ->
  exists d', completed cex_ext mo_o (Config (AbsCfg (f_of_Z 5) 1 75) (f_of_Z 1) edges) ds 517 d d'.
Proof.
  intros C E Nd O N L R Un. set (args := [Ai "in"; AH "h"; AE "e"; AT "out"; Am "hit"; At "gdc"; Ac "1"]%string).
  assert (U : understood (mo_w ds) args mo_o) by (apply P_Program.understood_parse; reflexivity).
  assert (Cu : cuts_at_datasets (o_chunk mo_o) ds) by (intros j H; cbn [o_chunk mo_o] in H; lia).
  assert (Lf : (length (stream ds) <= 300)%nat) by (unfold zlen in L; lia).
  destruct (P_Program.C81_succeeds_l 300 cex_ext (mo_w ds) (seq 0 (length edges - 1)) args d mo_o _ ds (fun _ => eq_refl) U C eq_refl)
    as (d' & P); try assumption.
  - intros _. reflexivity.
  - intros _. split; [discriminate|reflexivity].
  - intros _. reflexivity.
  - reflexivity.
  - reflexivity.
  - apply Permutation_refl.
  - intros hss' s' Q. change (timing_of mo_o) with GDC_mode in *.
    destruct (P_Measure.C90_gdc_l ds hss k O R) as (s2 & Q2). destruct (P_CliRun.processed_unique _ _ _ _ _ _ _ Q2 Q) as [<- _].
    eapply Forall_impl; [|apply (P_EventsProgram.recording_bounds _ _ _ _ R); discriminate].
    intros h Hh. split; [intros _; exact Hh|discriminate].
  - exists d', 300%nat, (mo_w ds), (seq 0 (length edges - 1)), args. split; [exact pex_exclusive|]. split; [intros p; reflexivity|].
    split; [exact U|]. split; [exact C|]. split; [reflexivity|]. split; [exact O|]. split; [exact N|]. split; [reflexivity|].
    split; [exact Cu|]. split; [exact Lf|]. split; [exact E|]. split; [apply P_Tof.side_one|]. split; [reflexivity|].
    split; [apply Permutation_refl|]. split; [exact Un|exact P].
Qed.
Example C104_runs_instance : exists cfg d1 d2 dj f1 f2 fj,
  completed cex_ext mo_o cfg (map dataset_of hex) 517 pex_d d1 /\
  completed cex_ext mo_o cfg (map dataset_of (delayed (2 ^ 40) hex)) 517 d1 d2 /\
  completed cex_ext mo_o cfg (map dataset_of (hex ++ delayed (2 ^ 40) hex)) 517 pex_d dj /\
  d_h5 d1 "e" = Some f1 /\ d_h5 d2 "e" = Some f2 /\ d_h5 dj "e" = Some fj /\
  col fj "neutrons" "tof_ns" = col f1 "neutrons" "tof_ns" ++ col f2 "neutrons" "tof_ns".
Proof.
  assert (H : histories after None None hex hex_hits).
  { apply hex_histories. intros t I. unfold after. repeat (destruct I as [<-|I]; [lia|]). destruct I. }
  assert (Cl : clock_lasts (2 ^ 40) hex).
  { intros x G I. destruct I as [<-|[<-|[]]]; cbn [snd]; intros I; repeat (destruct I as [I|I]; [try discriminate I; injection I as <-; lia|]); destruct I. }
  destruct (P_Motion.delay_histories (2 ^ 40) ltac:(lia) hex None None hex_hits H Cl) as (hss' & H' & _).
  pose proof (histories_app after None None _ _ _ _ H H') as Hj.
  destruct (P_MeasureHist.histories_recording _ _ _ _ _ H) as [O (k & R)].
  destruct (P_MeasureHist.histories_recording _ _ _ _ _ H') as [O' (k' & R')].
  destruct (P_MeasureHist.histories_recording _ _ _ _ _ Hj) as [Oj (kj & Rj)].
  assert (A : forall g t, after g t -> around g t) by (unfold after, around; intros; lia).
  apply (P_Measure.recording_mono after around false true _ _ _ _ A ltac:(discriminate)) in R.
  apply (P_Measure.recording_mono after around false true _ _ _ _ A ltac:(discriminate)) in R'.
  apply (P_Measure.recording_mono after around false true _ _ _ _ A ltac:(discriminate)) in Rj.
  destruct (P_Program.C81_default_l (mo_w (map dataset_of hex)) mo_o eq_refl) as (edges & C & E & _).
  assert (Un : forall i, (i < length edges - 1)%nat ->
    saved (d_files pex_d) (tiff_name (o_tiff mo_o) (o_base mo_o) i) 517 517 \/ unrelated (d_files pex_d) (tiff_name (o_tiff mo_o) (o_base mo_o) i) 517 517).
  { intros i _. right. intros w h r. discriminate. }
  destruct (ap_completed (map dataset_of hex) hex_hits k edges pex_d C E ltac:(discriminate) O) as (d1 & P1); [|reflexivity|exact R|exact Un|].
  { repeat constructor; vm_compute; intuition discriminate. }
  destruct (ap_completed (map dataset_of (delayed (2 ^ 40) hex)) hss' k' edges d1 C E ltac:(discriminate) O') as (d2 & P2); [|reflexivity|exact R'| |].
  { repeat constructor; vm_compute; intuition discriminate. }
  { intros i Hi. left. exact (completed_saved _ _ _ _ _ _ _ P1 ltac:(discriminate) i Hi). }
  destruct (ap_completed (map dataset_of (hex ++ delayed (2 ^ 40) hex)) (hex_hits ++ hss') kj edges pex_d C E ltac:(discriminate) Oj) as (dj & P3); [|reflexivity|exact Rj|exact Un|].
  { repeat constructor; vm_compute; intuition discriminate. }
  destruct (C104_runs cex_ext mo_o _ hex (delayed (2 ^ 40) hex) hex_hits hss' after 517 pex_d d1 d2 dj H H' (fun _ => A) ltac:(discriminate) P1 P2 P3)
    as (_ & Ev & _).
  destruct (Ev ltac:(discriminate)) as (f1 & f2 & fj & F1 & F2 & Fj & K).
  exists (Config (AbsCfg (f_of_Z 5) 1 75) (f_of_Z 1) edges), d1, d2, dj, f1, f2, fj. split; [exact P1|]. split; [exact P2|]. split; [exact P3|].
  split; [exact F1|]. split; [exact F2|]. split; [exact Fj|]. apply (K _ n_tof_ns), NF_tof.
Qed.
