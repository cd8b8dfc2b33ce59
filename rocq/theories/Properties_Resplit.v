(** Properties C114 and C115: where the datasets of a recording end, and their order.  Every
    theorem is followed by a concrete instance. *)
From Coq Require Import Reals String Lia Permutation.
From Verif Require Import P_Resplit S_Resplit P_Append P_Program P_Tof.
From Verif Require Import Properties_Tpx3 Properties_Abs Properties_Cli Properties_Program Properties_Measure Properties_Events Properties_Motion Properties_Append.
Local Open Scope string_scope.
Local Open Scope Z_scope.
Local Open Scope list_scope.

(** C114: two recordings of the same packets of the same chips in the same order have the
    same hits, images and spectra of hits, wherever their datasets end, whatever else their
    headers say, and whatever the clustering is told to do. *)
Theorem C114_hits : forall ext ext' o o' cfg cfg' ds ds' s d d1 d' d1',
  tagged ds' = tagged ds -> timing_of o' = timing_of o -> g_edges cfg' = g_edges cfg -> g_sr cfg' = g_sr cfg ->
  completed ext o cfg ds s d d1 -> completed ext' o' cfg' ds' s d' d1' ->
  (o_hits o <> "" -> o_hits o' <> "" -> same_hits d1 (o_hits o) d1' (o_hits o')) /\
  (o_mode o = "hit" -> o_mode o' = "hit" ->
   (o_tiff o <> "" -> o_tiff o' <> "" -> forall i x y u, (i < length (g_edges cfg) - 1)%nat -> 0 <= x < s -> 0 <= y < s ->
      prior (d_files d) (tiff_name (o_tiff o) (o_base o) i) s s x y u ->
      prior (d_files d') (tiff_name (o_tiff o') (o_base o') i) s s x y u ->
      exists v, disk (d_files d1) (tiff_name (o_tiff o) (o_base o) i) x y = Some v /\
        disk (d_files d1') (tiff_name (o_tiff o') (o_base o') i) x y = Some v) /\
   (zlen (packets_of ds) < 2 ^ 32 -> o_spectra o <> "" -> o_spectra o' <> "" ->
      exists rows, d_files d1 (o_spectra o ++ ".txt")%string = Some (Spectrum rows) /\
        d_files d1' (o_spectra o' ++ ".txt")%string = Some (Spectrum rows))).
Proof. exact C114_l. Qed.
Print Assumptions C114_hits.

(** Two neighbouring pixels at nearly the same time, in one dataset or in two. *)
Definition rs_one : list (Z * Z * Z * list act) := [(51, 0, 0, [Ref 1000; Pulse 2000; Fire 100 200 77 5 5234; Fire 101 201 50 3 5235])].
Definition rs_two : list (Z * Z * Z * list act) := [(51, 0, 0, [Ref 1000; Pulse 2000; Fire 100 200 77 5 5234]); (51, 0, 7, [Fire 101 201 50 3 5235])].
Definition rs_a : hit := Hit 360 200 77 5234 5 (Some 3234) 5234.
Definition rs_b : hit := Hit 361 201 50 5235 3 (Some 3235) 5235.
Lemma rs_histories_one : histories after None None rs_one [[rs_a; rs_b]].
Proof.
  unfold rs_one. apply (hs_cons _ _ _ _ _ _ _ _ (Some 1000) (Some 2000)); try (unfold is_byte; lia); [vm_compute; discriminate| |apply hs_nil].
  apply hy_ref; [lia|]. apply hy_pulse; [unfold after; lia|].
  apply (hy_fire after 0 1000 2000 100 200 77 5 5234); try lia; [unfold after; lia|].
  apply (hy_fire after 0 1000 2000 101 201 50 3 5235); try lia; [unfold after; lia|]. apply hy_nil.
Qed.
Lemma rs_histories_two : histories after None None rs_two [[rs_a]; [rs_b]].
Proof.
  unfold rs_two. apply (hs_cons _ _ _ _ _ _ _ _ (Some 1000) (Some 2000)); try (unfold is_byte; lia); [vm_compute; discriminate| |].
  - apply hy_ref; [lia|]. apply hy_pulse; [unfold after; lia|].
    apply (hy_fire after 0 1000 2000 100 200 77 5 5234); try lia; [unfold after; lia|]. apply hy_nil.
  - apply (hs_cons _ _ _ _ _ _ _ _ (Some 1000) (Some 2000)); try (unfold is_byte; lia); [vm_compute; discriminate| |apply hs_nil].
    apply (hy_fire after 0 1000 2000 101 201 50 3 5235); try lia; [unfold after; lia|]. apply hy_nil.
Qed.

(** A run of the program over a history. *)
Lemma rs_run ys hss edges : histories after None None ys hss -> ys <> [] -> Forall no_false_header (map dataset_of ys) ->
  zlen (stream (map dataset_of ys)) < 300 ->
  configured (mo_w (map dataset_of ys)) mo_o (Config (AbsCfg (f_of_Z 5) 1 75) (f_of_Z 1) edges) -> edges_ok edges ->
  exists d1 s', completed cex_ext mo_o (Config (AbsCfg (f_of_Z 5) 1 75) (f_of_Z 1) edges) (map dataset_of ys) 517 pex_d d1 /\
    processed (timing_of mo_o) ts0 (map dataset_of ys) hss s'.
Proof.
  intros H Ne N L C E. destruct (P_MeasureHist.histories_recording _ _ _ _ _ H) as [O (k & R)].
  assert (A : forall g t, after g t -> around g t) by (unfold after, around; intros; lia).
  apply (P_Measure.recording_mono after around false true _ _ _ _ A ltac:(discriminate)) in R.
  destruct (ap_completed (map dataset_of ys) hss k edges pex_d C E) as (d1 & P1); try assumption.
  - destruct ys; [congruence|discriminate].
  - intros i _. right. intros w h r. discriminate.
  - destruct (P_Measure.C90_gdc_l (map dataset_of ys) hss k O R) as (s2 & Q). exists d1, s2. split; [exact P1|exact Q].
Qed.
Lemma rs_default ds : exists edges, configured (mo_w ds) mo_o (Config (AbsCfg (f_of_Z 5) 1 75) (f_of_Z 1) edges) /\ edges_ok edges.
Proof. destruct (P_Program.C81_default_l (mo_w ds) mo_o eq_refl) as (edges & C & E & _). exists edges. auto. Qed.

Example C114_hits_instance : exists cfg d1 d1',
  completed cex_ext mo_o cfg (map dataset_of rs_one) 517 pex_d d1 /\
  completed cex_ext mo_o cfg (map dataset_of rs_two) 517 pex_d d1' /\
  same_hits d1 "h" d1' "h" /\
  forall x y, 0 <= x < 517 -> 0 <= y < 517 -> exists v,
    disk (d_files d1) (tiff_name "out" "tof_image" 0) x y = Some v /\ disk (d_files d1') (tiff_name "out" "tof_image" 0) x y = Some v.
Proof.
  destruct (rs_default (map dataset_of rs_one)) as (edges & C & E).
  destruct (rs_run rs_one _ edges rs_histories_one) as (d1 & s1 & P1 & _); [discriminate| |reflexivity|exact C|exact E|].
  { repeat constructor; vm_compute; intuition discriminate. }
  destruct (rs_run rs_two _ edges rs_histories_two) as (d1' & s2 & P2 & _); [discriminate| |reflexivity|exact C|exact E|].
  { repeat constructor; vm_compute; intuition discriminate. }
  exists (Config (AbsCfg (f_of_Z 5) 1 75) (f_of_Z 1) edges), d1, d1'. split; [exact P1|]. split; [exact P2|].
  assert (Tg : tagged (map dataset_of rs_two) = tagged (map dataset_of rs_one)) by (vm_compute; reflexivity).
  destruct (C114_hits cex_ext cex_ext mo_o mo_o _ _ _ _ 517 pex_d d1 pex_d d1' Tg eq_refl eq_refl eq_refl P1 P2) as (Hh & Hi).
  split; [apply Hh; discriminate|]. intros x y Hx Hy. destruct (Hi eq_refl eq_refl) as [J _].
  apply (J ltac:(discriminate) ltac:(discriminate) 0%nat x y 0); [destruct E as [E _]; cbn [g_edges]; lia|exact Hx|exact Hy| |];
    apply prior_none; intros w h r; discriminate.
Qed.

(** C114: the same is not true of the neutrons: an event of which one hit is in one dataset
    and one in the next gives two neutrons. *)
Theorem C114_events_refuted : exists cfg ds ds' d1 d1' f f', tagged ds' = tagged ds /\
  completed cex_ext mo_o cfg ds 517 pex_d d1 /\ completed cex_ext mo_o cfg ds' 517 pex_d d1' /\
  d_h5 d1 "e" = Some f /\ d_h5 d1' "e" = Some f' /\
  zlen (col f "neutrons" "x") = 1 /\ zlen (col f' "neutrons" "x") = 2.
Proof.
  destruct (rs_default (map dataset_of rs_one)) as (edges & C & E).
  destruct (rs_run rs_one _ edges rs_histories_one) as (d1 & s1 & P1 & Q1); [discriminate| |reflexivity|exact C|exact E|].
  { repeat constructor; vm_compute; intuition discriminate. }
  destruct (rs_run rs_two _ edges rs_histories_two) as (d1' & s2 & P2 & Q2); [discriminate| |reflexivity|exact C|exact E|].
  { repeat constructor; vm_compute; intuition discriminate. }
  destruct (P_Resplit.completed_number _ _ _ _ _ _ _ _ _ [1] P1 ltac:(discriminate) Q1) as (f & F & L).
  { constructor; [vm_compute; reflexivity|constructor]. }
  destruct (P_Resplit.completed_number _ _ _ _ _ _ _ _ _ [1; 1] P2 ltac:(discriminate) Q2) as (f' & F' & L').
  { constructor; [vm_compute; reflexivity|]. constructor; [vm_compute; reflexivity|constructor]. }
  exists (Config (AbsCfg (f_of_Z 5) 1 75) (f_of_Z 1) edges), (map dataset_of rs_one), (map dataset_of rs_two), d1, d1', f, f'.
  split; [vm_compute; reflexivity|]. split; [exact P1|]. split; [exact P2|]. split; [exact F|]. split; [exact F'|]. split; [exact L|exact L'].
Qed.
Print Assumptions C114_events_refuted.

(** C115: datasets without time packets may come in another order between the time packets
    (as those of different chips do): the same hits and neutrons in another order, the same
    images and spectra. *)
Theorem C115_order : forall ext o o' cfg ds ds' s d d1 d' d1', shuffled ds ds' -> timing_of o' = timing_of o ->
  completed ext o cfg ds s d d1 -> completed ext o' cfg ds' s d' d1' ->
  (o_hits o <> "" -> o_hits o' <> "" -> exists f f' hs hs',
     d_h5 d1 (o_hits o) = Some f /\ d_h5 d1' (o_hits o') = Some f' /\ Permutation hs hs' /\
     forall n fld, hit_field n fld -> map Some (col f "hits" n) = map fld hs /\ map Some (col f' "hits" n) = map fld hs') /\
  (o_events o <> "" -> o_events o' <> "" -> exists f f' ns ns',
     d_h5 d1 (o_events o) = Some f /\ d_h5 d1' (o_events o') = Some f' /\ Permutation ns ns' /\
     forall n fld, neutron_field n fld -> col f "neutrons" n = map fld ns /\ col f' "neutrons" n = map fld ns') /\
  ((o_mode o' = "hit" <-> o_mode o = "hit") ->
   (o_tiff o <> "" -> o_tiff o' <> "" -> forall i x y u, (i < length (g_edges cfg) - 1)%nat -> 0 <= x < s -> 0 <= y < s ->
      prior (d_files d) (tiff_name (o_tiff o) (o_base o) i) s s x y u ->
      prior (d_files d') (tiff_name (o_tiff o') (o_base o') i) s s x y u ->
      exists v, disk (d_files d1) (tiff_name (o_tiff o) (o_base o) i) x y = Some v /\
        disk (d_files d1') (tiff_name (o_tiff o') (o_base o') i) x y = Some v) /\
   (1 <= a_min (g_abs cfg) -> zlen (packets_of ds) < 2 ^ 32 -> o_spectra o <> "" -> o_spectra o' <> "" ->
      exists rows, d_files d1 (o_spectra o ++ ".txt")%string = Some (Spectrum rows) /\
        d_files d1' (o_spectra o' ++ ".txt")%string = Some (Spectrum rows))).
Proof. exact C115_l. Qed.
Print Assumptions C115_order.

(** Two chips in either order. *)
Definition rs_pre : Z * Z * Z * list act := (51, 2, 0, [Ref 1000; Pulse 2000]).
Definition rs_x : Z * Z * Z * list act := (51, 0, 0, [Fire 100 200 77 5 5234]).
Definition rs_y : Z * Z * Z * list act := (51, 1, 0, [Fire 3 4 88 6 7000]).
Example C115_order_instance : exists cfg d1 d1',
  completed cex_ext mo_o cfg (map dataset_of [rs_pre; rs_x; rs_y]) 517 pex_d d1 /\
  completed cex_ext mo_o cfg (map dataset_of [rs_pre; rs_y; rs_x]) 517 pex_d d1' /\
  (exists f f' ns ns', d_h5 d1 "e" = Some f /\ d_h5 d1' "e" = Some f' /\ Permutation ns ns' /\
     col f "neutrons" "x" = map n_x ns /\ col f' "neutrons" "x" = map n_x ns') /\
  forall x y, 0 <= x < 517 -> 0 <= y < 517 -> exists v,
    disk (d_files d1) (tiff_name "out" "tof_image" 0) x y = Some v /\ disk (d_files d1') (tiff_name "out" "tof_image" 0) x y = Some v.
Proof.
  assert (Hp : exists hs, S_Measure.history after 2 None None [Ref 1000; Pulse 2000] hs (Some 1000) (Some 2000)).
  { eexists. eapply hy_ref; [lia|]. eapply hy_pulse; [unfold after; lia|]. eapply hy_nil. }
  assert (Hx : exists hs, S_Measure.history after 0 (Some 1000) (Some 2000) [Fire 100 200 77 5 5234] hs (Some 1000) (Some 2000)).
  { eexists. eapply (hy_fire _ 0 1000 2000 100 200); try lia; [unfold after; lia|]. eapply hy_nil. }
  assert (Hy : exists hs, S_Measure.history after 1 (Some 1000) (Some 2000) [Fire 3 4 88 6 7000] hs (Some 1000) (Some 2000)).
  { eexists. eapply (hy_fire _ 1 1000 2000 3 4); try lia; [unfold after; lia|]. eapply hy_nil. }
  destruct Hp as (hp & Hp). destruct Hx as (hx & Hx). destruct Hy as (hy & Hy).
  assert (H1 : histories after None None [rs_pre; rs_x; rs_y] [hp; hx; hy]).
  { repeat (eapply hs_cons; [unfold is_byte; lia|lia|unfold is_byte; lia|vm_compute; discriminate|eassumption|]). apply hs_nil. }
  assert (H2 : histories after None None [rs_pre; rs_y; rs_x] [hp; hy; hx]).
  { repeat (eapply hs_cons; [unfold is_byte; lia|lia|unfold is_byte; lia|vm_compute; discriminate|eassumption|]). apply hs_nil. }
  destruct (rs_default (map dataset_of [rs_pre; rs_x; rs_y])) as (edges & C & E).
  destruct (rs_run _ _ edges H1) as (d1 & s1 & P1 & _); [discriminate| |reflexivity|exact C|exact E|].
  { repeat constructor; vm_compute; intuition discriminate. }
  destruct (rs_run _ _ edges H2) as (d1' & s2 & P2 & _); [discriminate| |reflexivity|exact C|exact E|].
  { repeat constructor; vm_compute; intuition discriminate. }
  exists (Config (AbsCfg (f_of_Z 5) 1 75) (f_of_Z 1) edges), d1, d1'. split; [exact P1|]. split; [exact P2|].
  assert (Sh : shuffled (map dataset_of [rs_pre; rs_x; rs_y]) (map dataset_of [rs_pre; rs_y; rs_x])).
  { apply (sh_swap [dataset_of rs_pre] (dataset_of rs_x) (dataset_of rs_y) []); [repeat constructor|repeat constructor|apply sh_same]. }
  destruct (C115_order cex_ext mo_o mo_o _ _ _ 517 pex_d d1 pex_d d1' Sh eq_refl P1 P2) as (_ & He & Hi). split.
  - destruct (He ltac:(discriminate) ltac:(discriminate)) as (f & f' & ns & ns' & F & F' & Pm & G). exists f, f', ns, ns'.
    split; [exact F|]. split; [exact F'|]. split; [exact Pm|]. exact (G _ _ NF_x).
  - intros x y Hx' Hy'. destruct (Hi (iff_refl _)) as [J _].
    apply (J ltac:(discriminate) ltac:(discriminate) 0%nat x y 0); [destruct E as [E _]; cbn [g_edges]; lia|exact Hx'|exact Hy'| |];
      apply prior_none; intros w h r; discriminate.
Qed.
