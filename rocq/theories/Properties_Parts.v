(** Property C111: the parts of a recording may come in any order.  The theorem is
    followed by a concrete instance. *)
From Coq Require Import Reals String Lia Permutation.
From Verif Require Import P_Parts S_Same P_Append P_Program P_Tof.
From Verif Require Import Properties_Tpx3 Properties_Abs Properties_Cli Properties_Program Properties_Measure Properties_Events Properties_Motion Properties_Append.
Local Open Scope string_scope.
Local Open Scope Z_scope.
Local Open Scope list_scope.

(** Histories that each start with a reference of their own, joined in two orders: the
    files have the same hits and neutrons in another order, the spectra are the same, and
    so are the images if the earlier ones were. *)
Theorem C111_parts : forall ext o o' cfg parts parts' near s d d1 d' d1',
  Forall (fun ys => exists hss, histories near None None ys hss) parts -> Permutation parts parts' ->
  (timing_of o = GDC_mode -> forall g t, near g t -> around g t) ->
  (timing_of o = TDC_mode -> forall g t, near g t -> early_run g t) ->
  timing_of o' = timing_of o ->
  completed ext o cfg (map dataset_of (concat parts)) s d d1 -> completed ext o' cfg (map dataset_of (concat parts')) s d' d1' ->
  (o_hits o <> "" -> o_hits o' <> "" -> exists f f' hs hs',
     d_h5 d1 (o_hits o) = Some f /\ d_h5 d1' (o_hits o') = Some f' /\ Permutation hs hs' /\
     forall n fld, hit_field n fld -> map Some (col f "hits" n) = map fld hs /\ map Some (col f' "hits" n) = map fld hs') /\
  (o_events o <> "" -> o_events o' <> "" -> exists f f' ns ns',
     d_h5 d1 (o_events o) = Some f /\ d_h5 d1' (o_events o') = Some f' /\ Permutation ns ns' /\
     forall n fld, neutron_field n fld -> col f "neutrons" n = map fld ns /\ col f' "neutrons" n = map fld ns') /\
  ((o_mode o' = "hit" <-> o_mode o = "hit") ->
   (o_tiff o <> "" -> o_tiff o' <> "" -> forall i x y u, (i < length (g_edges cfg) - 1)%nat -> 0 <= x < s -> 0 <= y < s ->
      prior (d_files d) (tiff_name (o_tiff o) (o_base o) i) s s x y u ->
      prior (d_files d') (tiff_name (o_tiff o') (o_base o') i) s s x y u ->
      exists v, disk (d_files d1) (tiff_name (o_tiff o) (o_base o) i) x y = Some v /\
        disk (d_files d1') (tiff_name (o_tiff o') (o_base o') i) x y = Some v) /\
   (forall hss nss s', processed (timing_of o) ts0 (map dataset_of (concat parts)) hss s' -> Forall2 (neutrons_of ext (g_abs cfg)) hss nss ->
      zlen (binned o hss nss) < 2 ^ 32 ->
      o_spectra o <> "" -> o_spectra o' <> "" ->
      exists rows, d_files d1 (o_spectra o ++ ".txt")%string = Some (Spectrum rows) /\
        d_files d1' (o_spectra o' ++ ".txt")%string = Some (Spectrum rows))).
Proof. exact C111_l. Qed.
Print Assumptions C111_parts.

(** The history of Properties_Measure, before and after the same 2^40 ticks later. *)
Example C111_parts_instance : exists cfg d1 d1',
  completed cex_ext mo_o cfg (map dataset_of (hex ++ delayed (2 ^ 40) hex)) 517 pex_d d1 /\
  completed cex_ext mo_o cfg (map dataset_of (delayed (2 ^ 40) hex ++ hex)) 517 pex_d d1' /\
  forall x y, 0 <= x < 517 -> 0 <= y < 517 -> exists v,
    disk (d_files d1) (tiff_name "out" "tof_image" 0) x y = Some v /\
    disk (d_files d1') (tiff_name "out" "tof_image" 0) x y = Some v.
Proof.
  assert (H : histories after None None hex hex_hits).
  { apply hex_histories. intros t I. unfold after. repeat (destruct I as [<-|I]; [lia|]). destruct I. }
  assert (Cl : clock_lasts (2 ^ 40) hex).
  { intros x G I. destruct I as [<-|[<-|[]]]; cbn [snd]; intros I; repeat (destruct I as [I|I]; [try discriminate I; injection I as <-; lia|]); destruct I. }
  destruct (P_Motion.delay_histories (2 ^ 40) ltac:(lia) hex None None hex_hits H Cl) as (hss' & H' & _).
  pose proof (histories_app after None None _ _ _ _ H H') as Hj. pose proof (histories_app after None None _ _ _ _ H' H) as Hk.
  destruct (P_MeasureHist.histories_recording _ _ _ _ _ Hj) as [Oj (kj & Rj)].
  destruct (P_MeasureHist.histories_recording _ _ _ _ _ Hk) as [Ok' (kk & Rk)].
  assert (A : forall g t, after g t -> around g t) by (unfold after, around; intros; lia).
  apply (P_Measure.recording_mono after around false true _ _ _ _ A ltac:(discriminate)) in Rj.
  apply (P_Measure.recording_mono after around false true _ _ _ _ A ltac:(discriminate)) in Rk.
  destruct (P_Program.C81_default_l (mo_w (map dataset_of hex)) mo_o eq_refl) as (edges & C & E & _).
  assert (Un : forall i, (i < length edges - 1)%nat ->
    saved (d_files pex_d) (tiff_name (o_tiff mo_o) (o_base mo_o) i) 517 517 \/ unrelated (d_files pex_d) (tiff_name (o_tiff mo_o) (o_base mo_o) i) 517 517).
  { intros i _. right. intros w h r. discriminate. }
  destruct (ap_completed (map dataset_of (hex ++ delayed (2 ^ 40) hex)) (hex_hits ++ hss') kj edges pex_d C E ltac:(discriminate) Oj) as (d1 & P1); [|reflexivity|exact Rj|exact Un|].
  { repeat constructor; vm_compute; intuition discriminate. }
  destruct (ap_completed (map dataset_of (delayed (2 ^ 40) hex ++ hex)) (hss' ++ hex_hits) kk edges pex_d C E ltac:(discriminate) Ok') as (d1' & P2); [|reflexivity|exact Rk|exact Un|].
  { repeat constructor; vm_compute; intuition discriminate. }
  exists (Config (AbsCfg (f_of_Z 5) 1 75) (f_of_Z 1) edges), d1, d1'. split; [exact P1|]. split; [exact P2|]. intros x y Hx Hy.
  destruct (C111_parts cex_ext mo_o mo_o (Config (AbsCfg (f_of_Z 5) 1 75) (f_of_Z 1) edges) [hex; delayed (2 ^ 40) hex] [delayed (2 ^ 40) hex; hex] after 517 pex_d d1 pex_d d1') as (_ & _ & I).
  - constructor; [exists hex_hits; exact H|]. constructor; [exists hss'; exact H'|constructor].
  - apply perm_swap.
  - intros _. exact A.
  - discriminate.
  - reflexivity.
  - cbn [concat]. rewrite app_nil_r. exact P1.
  - cbn [concat]. rewrite app_nil_r. exact P2.
  - destruct (I (iff_refl _)) as [J _].
    apply (J ltac:(discriminate) ltac:(discriminate) 0%nat x y 0); [| | |apply prior_none; intros w h r; discriminate|apply prior_none; intros w h r; discriminate].
    + destruct E as [E _]. cbn [g_edges]. lia.
    + exact Hx.
    + exact Hy.
Qed.
