(** Property C117: the same run several times.  The theorem is followed by a concrete
    instance. *)
From Coq Require Import Reals String Lia.
From Verif Require Import P_Again S_Again P_Append P_Program P_Tof.
From Verif Require Import Properties_Tpx3 Properties_Abs Properties_Cli Properties_Program Properties_Measure Properties_Events Properties_Motion Properties_Append Properties_Resplit.
Local Open Scope string_scope.
Local Open Scope Z_scope.
Local Open Scope list_scope.

(** After [n] runs instead of one, the hits, neutrons and spectra are the same; the images
    have [n] times the counts (on top of what was there before). *)
Theorem C117_again : forall ext o cfg ds s d d1 n dn, completed ext o cfg ds s d d1 -> again ext o cfg ds s d n dn ->
  (o_hits o <> "" -> same_hits d1 (o_hits o) dn (o_hits o)) /\
  (o_events o <> "" -> same_neutrons d1 (o_events o) dn (o_events o)) /\
  (o_tiff o <> "" -> forall i x y u, (i < length (g_edges cfg) - 1)%nat -> 0 <= x < s -> 0 <= y < s ->
     prior (d_files d) (tiff_name (o_tiff o) (o_base o) i) s s x y u ->
     exists v, 0 <= v /\ disk (d_files d1) (tiff_name (o_tiff o) (o_base o) i) x y = Some ((u + v) mod 2 ^ 32) /\
       disk (d_files dn) (tiff_name (o_tiff o) (o_base o) i) x y = Some ((u + n * v) mod 2 ^ 32)) /\
  (1 <= a_min (g_abs cfg) -> zlen (packets_of ds) < 2 ^ 32 -> o_spectra o <> "" ->
     exists rows, d_files d1 (o_spectra o ++ ".txt")%string = Some (Spectrum rows) /\
       d_files dn (o_spectra o ++ ".txt")%string = Some (Spectrum rows)).
Proof. exact C117_l. Qed.
Print Assumptions C117_again.

Example C117_again_instance : exists cfg d1 d2, completed cex_ext mo_o cfg (map dataset_of hex) 517 pex_d d1 /\
  again cex_ext mo_o cfg (map dataset_of hex) 517 pex_d 2 d2 /\ same_neutrons d1 "e" d2 "e" /\
  forall x y, 0 <= x < 517 -> 0 <= y < 517 -> exists v, 0 <= v /\
    disk (d_files d1) (tiff_name "out" "tof_image" 0) x y = Some (v mod 2 ^ 32) /\
    disk (d_files d2) (tiff_name "out" "tof_image" 0) x y = Some ((2 * v) mod 2 ^ 32).
Proof.
  assert (H : histories after None None hex hex_hits).
  { apply hex_histories. intros t I. unfold after. repeat (destruct I as [<-|I]; [lia|]). destruct I. }
  destruct (P_MeasureHist.histories_recording _ _ _ _ _ H) as [O (k & R)].
  assert (A : forall g t, after g t -> around g t) by (unfold after, around; intros; lia).
  apply (P_Measure.recording_mono after around false true _ _ _ _ A ltac:(discriminate)) in R.
  assert (N : Forall no_false_header (map dataset_of hex)) by (repeat constructor; vm_compute; intuition discriminate).
  destruct (rs_default (map dataset_of hex)) as (edges & C & E).
  destruct (ap_completed (map dataset_of hex) hex_hits k edges pex_d C E ltac:(discriminate) O N eq_refl R) as (d1 & P1).
  { intros i _. right. intros w h r. discriminate. }
  destruct (ap_completed (map dataset_of hex) hex_hits k edges d1 C E ltac:(discriminate) O N eq_refl R) as (d2 & P2).
  { intros i Hi. left. exact (P_Append.completed_saved _ _ _ _ _ _ _ P1 ltac:(discriminate) i Hi). }
  assert (Ag : again cex_ext mo_o (Config (AbsCfg (f_of_Z 5) 1 75) (f_of_Z 1) edges) (map dataset_of hex) 517 pex_d 2 d2).
  { change 2 with (1 + 1). eapply ag_next; [apply ag_first; exact P1|exact P2]. }
  exists (Config (AbsCfg (f_of_Z 5) 1 75) (f_of_Z 1) edges), d1, d2. split; [exact P1|]. split; [exact Ag|].
  destruct (C117_again _ _ _ _ _ _ _ _ _ P1 Ag) as (_ & He & Hi & _). split; [apply He; discriminate|]. intros x y Hx Hy.
  apply (Hi ltac:(discriminate) 0%nat x y 0); [destruct E as [E _]; cbn [g_edges]; lia|exact Hx|exact Hy|apply prior_none; intros w h r; discriminate].
Qed.
