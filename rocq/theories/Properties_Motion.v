(** Property C103: no place and no time is special to the clustering.  Each theorem is
    followed by a concrete instance. *)
From Coq Require Import Reals String Permutation Lia.
From Flocq Require Import Core.
From Verif Require Import S_Motion P_Motion P_Program.
From Verif Require Import Properties_Tpx3 Properties_Abs Properties_Cli Properties_Program Properties_Measure Properties_Events.
Local Open Scope Z_scope.
Local Open Scope list_scope.

(** Axes exchanged, one of them reflected, hits shifted by 300 and 7 pixels and one
    second. *)
Definition mo_ex : motion := Motion true false true 7 515 40000000.
Definition mo_hit (h : hit) : hit :=
  Hit (7 + h_y h) (515 - h_x h) (h_tot h) 0 0 (h_tof h) (h_spider h + 40000000).
Lemma mo_moves : Forall2 (moves mo_ex) ex_hits (map mo_hit ex_hits).
Proof. repeat (apply Forall2_cons; [repeat split|]); apply Forall2_nil. Qed.
Lemma mo_ok : Forall hit_ok (map mo_hit ex_hits) /\ Forall sensor_hit (map mo_hit ex_hits).
Proof.
  split; repeat (apply Forall_cons; [|]); try apply Forall_nil; try (unfold hit_ok; cbn; lia);
    repeat apply conj; try (cbn; lia); eexists; (split; [reflexivity|lia]).
Qed.
Lemma mo_sensor : Forall sensor_hit ex_hits.
Proof. eapply Forall_impl; [|exact ex_hits_sensor]. intros h [H _]. exact H. Qed.

(** The labels of moved hits are the labels of the hits. *)
Theorem C103_labels : forall n cfg rho m o o' data data', (0 < n)%nat -> Forall hit_ok data -> Forall hit_ok data' ->
  radius_is (a_radius cfg) rho -> 0 <= a_range cfg < 2 ^ 64 -> Forall2 (moves m) data data' ->
  exists q q', abs_fit n cfg o data = Ok q /\ abs_fit n cfg o' data' = Ok q' /\ o_labels q' = o_labels q.
Proof. exact C103_labels_l. Qed.
Print Assumptions C103_labels.
Example C103_labels_instance : Forall2 (moves mo_ex) ex_hits (map mo_hit ex_hits) /\
  Forall hit_ok ex_hits /\ Forall hit_ok (map mo_hit ex_hits) /\
  labels_of (abs_fit 8 ex_cfg abs_new ex_hits) = Ok [0; 1; 0; 2; 1; 3] /\
  labels_of (abs_fit 8 ex_cfg abs_new (map mo_hit ex_hits)) = Ok [0; 1; 0; 2; 1; 3].
Proof.
  split; [exact mo_moves|]. split; [exact ex_hits_ok|]. split; [exact (proj1 mo_ok)|]. split; vm_compute; reflexivity.
Qed.

(** The events of moved hits are the moved events, one for one and in the same order:
    times of flight, times over threshold and numbers of hits are the same doubles. *)
Theorem C103_events : forall n cfg rho ext m o o' data data', (0 < n)%nat -> Forall hit_ok data -> Forall hit_ok data' ->
  Forall sensor_hit data -> Forall sensor_hit data' -> zlen data <= 2 ^ 21 ->
  radius_is (a_radius cfg) rho -> 0 <= a_range cfg < 2 ^ 64 -> Forall2 (moves m) data data' ->
  exists q q' evs evs', abs_fit n cfg o data = Ok q /\ abs_get_events ext cfg (abs_set_method q MCentroid) data = Ok evs /\
    abs_fit n cfg o' data' = Ok q' /\ abs_get_events ext cfg (abs_set_method q' MCentroid) data' = Ok evs' /\
    Forall2 (neutron_moves m) evs evs'.
Proof. exact C103_events_l. Qed.
Print Assumptions C103_events.
Definition mo_ints (data : list hit) : outcome (list (option Z * option Z * option Z * Z)) :=
  let! o := abs_fit 8 ex_cfg abs_new data in
  let! evs := abs_get_events ex_ext ex_cfg (abs_set_method o MCentroid) data in
  Ok (map (fun e => (f_to_i32 (n_x e), f_to_i32 (n_y e), f_to_i32 (n_tot e), n_hits e)) evs).
Example C103_events_instance :
  (exists q q' evs evs', abs_fit 8 ex_cfg abs_new ex_hits = Ok q /\ abs_get_events ex_ext ex_cfg (abs_set_method q MCentroid) ex_hits = Ok evs /\
     abs_fit 8 ex_cfg abs_new (map mo_hit ex_hits) = Ok q' /\
     abs_get_events ex_ext ex_cfg (abs_set_method q' MCentroid) (map mo_hit ex_hits) = Ok evs' /\
     Forall2 (neutron_moves mo_ex) evs evs') /\
  mo_ints ex_hits = Ok [(Some 12, Some 11, Some 60, 2); (Some 101, Some 98, Some 40, 2); (Some 200, Some 300, Some 5, 1); (Some 10, Some 10, Some 7, 1)] /\
  mo_ints (map mo_hit ex_hits) = Ok [(Some 18, Some 503, Some 60, 2); (Some 105, Some 414, Some 40, 2); (Some 307, Some 315, Some 5, 1); (Some 17, Some 505, Some 7, 1)].
Proof.
  split.
  - apply (C103_events 8 ex_cfg _ ex_ext mo_ex abs_new abs_new _ _ ltac:(lia) ex_hits_ok (proj1 mo_ok) mo_sensor (proj2 mo_ok)
      ltac:(vm_compute; discriminate) ex_radius ex_range mo_moves).
  - split; vm_compute; reflexivity.
Qed.

(** Two runs of the program whose true hits differ by a delay of every dataset write the
    same neutrons, and the same images if the earlier images were the same. *)
Theorem C103_program : forall ext o o' cfg cfg' ds ds' s d d1 d' d1' rho hss hss' k k',
  completed ext o cfg ds s d d1 -> completed ext o' cfg' ds' s d' d1' -> g_abs cfg' = g_abs cfg ->
  timing_of o = GDC_mode -> timing_of o' = GDC_mode ->
  radius_is (a_radius (g_abs cfg)) rho -> 0 <= a_range (g_abs cfg) < 2 ^ 64 ->
  recording around true nothing_known ds hss k -> recording around true nothing_known ds' hss' k' ->
  Forall2 (fun hs hs' => exists dt, Forall2 (later dt) hs hs') hss hss' ->
  (o_events o <> ""%string -> o_events o' <> ""%string -> same_neutrons d1 (o_events o) d1' (o_events o')) /\
  (o_tiff o <> ""%string -> o_tiff o' <> ""%string -> o_mode o' = o_mode o -> g_edges cfg' = g_edges cfg -> g_sr cfg' = g_sr cfg ->
   forall i x y u, (i < length (g_edges cfg) - 1)%nat -> 0 <= x < s -> 0 <= y < s ->
     prior (d_files d) (tiff_name (o_tiff o) (o_base o) i) s s x y u ->
     prior (d_files d') (tiff_name (o_tiff o') (o_base o') i) s s x y u ->
     exists v, disk (d_files d1) (tiff_name (o_tiff o) (o_base o) i) x y = Some v /\
       disk (d_files d1') (tiff_name (o_tiff o') (o_base o') i) x y = Some v).
Proof. exact C103_program_l. Qed.
Print Assumptions C103_program.

(** A history told again later: the same neutrons in the file. *)
Theorem C103_delayed : forall ext o o' cfg cfg' ys dt s d d1 d' d1' rho hss,
  histories after None None ys hss -> 0 <= dt -> clock_lasts dt ys ->
  completed ext o cfg (map dataset_of ys) s d d1 -> completed ext o' cfg' (map dataset_of (delayed dt ys)) s d' d1' ->
  g_abs cfg' = g_abs cfg -> timing_of o = GDC_mode -> timing_of o' = GDC_mode ->
  radius_is (a_radius (g_abs cfg)) rho -> 0 <= a_range (g_abs cfg) < 2 ^ 64 ->
  o_events o <> ""%string -> o_events o' <> ""%string -> same_neutrons d1 (o_events o) d1' (o_events o').
Proof. exact C103_delayed_l. Qed.
Print Assumptions C103_delayed.
(** The history of Properties_Measure, and again 7.6 hours (2^40 ticks) later. *)
Definition mo_w (ds : list dataset) : outside :=
  Outside (env_stoull pex_w) (env_double pex_w) (env_json pex_w) (env_config pex_w)
    (fun n => if String.eqb n "in" then Some (stream ds) else None)
    (env_creates pex_w) (env_mkdir pex_w) (env_writable pex_w).
Definition mo_o : options := Options "in" "h" "e" "" "out" "tof_image" "hit" "Spectra" "gdc" 1048576 false false.
Lemma mo_completed ds hss k edges : configured (mo_w ds) mo_o (Config (AbsCfg (f_of_Z 5) 1 75) (f_of_Z 1) edges) ->
  edges_ok edges -> ds <> [] -> Forall dataset_ok ds -> Forall no_false_header ds -> zlen (stream ds) < 300 ->
  recording around true nothing_known ds hss k ->
  exists d', completed cex_ext mo_o (Config (AbsCfg (f_of_Z 5) 1 75) (f_of_Z 1) edges) ds 517 pex_d d'.
Proof.
  intros C E Nd O N L R. set (args := [Ai "in"; AH "h"; AE "e"; AT "out"; Am "hit"; At "gdc"; Ac "1"]%string).
  assert (U : understood (mo_w ds) args mo_o) by (apply understood_parse; reflexivity).
  assert (Cu : cuts_at_datasets (o_chunk mo_o) ds) by (intros j H; cbn [o_chunk mo_o] in H; lia).
  assert (Lf : (length (stream ds) <= 300)%nat) by (unfold zlen in L; lia).
  assert (Un : forall i, (i < length edges - 1)%nat ->
    saved (d_files pex_d) (tiff_name (o_tiff mo_o) (o_base mo_o) i) 517 517 \/ unrelated (d_files pex_d) (tiff_name (o_tiff mo_o) (o_base mo_o) i) 517 517).
  { intros i _. right. intros w h r. discriminate. }
  destruct (C81_succeeds_l 300 cex_ext (mo_w ds) (seq 0 (length edges - 1)) args pex_d mo_o _ ds (fun _ => eq_refl) U C eq_refl)
    as (d' & P); try assumption.
  - intros _. reflexivity.
  - intros _. split; [discriminate|reflexivity].
  - intros _. reflexivity.
  - reflexivity.
  - reflexivity.
  - apply Permutation_refl.
  - intros hss' s' Q. change (timing_of mo_o) with GDC_mode in *.
    destruct (P_Measure.C90_gdc_l ds hss k O R) as (s2 & Q2). destruct (P_CliRun.processed_unique _ _ _ _ _ _ _ Q2 Q) as [<- _].
    eapply Forall_impl; [|apply (P_EventsProgram.recording_bounds _ _ _ _ R); discriminate].
    intros h Hh. split; [intros _; exact Hh|discriminate].
  - exists d', 300%nat, (mo_w ds), (seq 0 (length edges - 1)), args. split; [exact pex_exclusive|]. split; [intros p; reflexivity|].
    split; [exact U|]. split; [exact C|]. split; [reflexivity|]. split; [exact O|]. split; [exact N|]. split; [reflexivity|].
    split; [exact Cu|]. split; [exact Lf|]. split; [exact E|]. split; [apply P_Tof.side_one|]. split; [reflexivity|].
    split; [apply Permutation_refl|]. split; [exact Un|exact P].
Qed.
Example C103_delayed_instance : exists cfg d1 d1',
  completed cex_ext mo_o cfg (map dataset_of hex) 517 pex_d d1 /\
  completed cex_ext mo_o cfg (map dataset_of (delayed (2 ^ 40) hex)) 517 pex_d d1' /\
  same_neutrons d1 "e" d1' "e".
Proof.
  assert (H : histories after None None hex hex_hits).
  { apply hex_histories. intros t I. unfold after. repeat (destruct I as [<-|I]; [lia|]). destruct I. }
  assert (Cl : clock_lasts (2 ^ 40) hex).
  { intros x G I. destruct I as [<-|[<-|[]]]; cbn [snd]; intros I; repeat (destruct I as [I|I]; [try discriminate I; injection I as <-; lia|]); destruct I. }
  destruct (delay_histories (2 ^ 40) ltac:(lia) hex None None hex_hits H Cl) as (hss' & H' & _).
  destruct (P_MeasureHist.histories_recording _ _ _ _ _ H) as [O (k & R)].
  destruct (P_MeasureHist.histories_recording _ _ _ _ _ H') as [O' (k' & R')].
  assert (A : forall g t, after g t -> around g t) by (unfold after, around; intros; lia).
  apply (P_Measure.recording_mono after around false true _ _ _ _ A ltac:(discriminate)) in R.
  apply (P_Measure.recording_mono after around false true _ _ _ _ A ltac:(discriminate)) in R'.
  destruct (C81_default_l (mo_w (map dataset_of hex)) mo_o eq_refl) as (edges & C & E & _).
  destruct (mo_completed (map dataset_of hex) hex_hits k edges C E ltac:(discriminate) O) as (d1 & P1); [|reflexivity|exact R|].
  { repeat constructor; vm_compute; intuition discriminate. }
  destruct (mo_completed (map dataset_of (delayed (2 ^ 40) hex)) hss' k' edges C E ltac:(discriminate) O') as (d1' & P2); [|reflexivity|exact R'|].
  { repeat constructor; vm_compute; intuition discriminate. }
  exists (Config (AbsCfg (f_of_Z 5) 1 75) (f_of_Z 1) edges), d1, d1'. split; [exact P1|]. split; [exact P2|].
  exact (C103_delayed cex_ext mo_o mo_o _ _ hex (2 ^ 40) 517 pex_d d1 pex_d d1' (5 * 2 ^ 20) hex_hits H ltac:(lia) Cl P1 P2 eq_refl eq_refl eq_refl
    ex_radius ltac:(cbn; lia) ltac:(discriminate) ltac:(discriminate)).
Qed.
