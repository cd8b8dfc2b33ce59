(** Property C113: a recording that was cut short.  Every theorem is followed by a concrete
    instance. *)
From Coq Require Import Reals String Lia Permutation.
From Verif Require Import P_Cut S_Cut P_Damage S_Damage P_Append P_Program P_Tof.
From Verif Require Import Properties_Tpx3 Properties_Abs Properties_Cli Properties_Program Properties_Measure Properties_Events Properties_Motion Properties_Append.
Local Open Scope string_scope.
Local Open Scope Z_scope.
Local Open Scope list_scope.

(** A run over a recording and a run over its first [n] bytes: the second has the first
    hits of the first one and no others; the neutrons and the images differ, apart from
    what is missing, at most by the neutrons of one dataset. *)
Theorem C113_cut : forall ext o o' cfg ds n s d d1 d' d1', (8 <= n)%nat ->
  completed ext o cfg ds s d d1 -> finished ext o' cfg ds n s d' d1' -> timing_of o' = timing_of o ->
  (o_hits o <> "" -> o_hits o' <> "" -> exists f f' hs rest,
     d_h5 d1 (o_hits o) = Some f /\ d_h5 d1' (o_hits o') = Some f' /\
     forall k fld, hit_field k fld -> map Some (col f "hits" k) = map fld (hs ++ rest) /\ map Some (col f' "hits" k) = map fld hs) /\
  (o_events o <> "" -> o_events o' <> "" -> 1 <= a_min (g_abs cfg) -> exists f f' ns rest last,
     d_h5 d1 (o_events o) = Some f /\ d_h5 d1' (o_events o') = Some f' /\ zlen last <= 8191 /\
     forall k fld, neutron_field k fld -> col f "neutrons" k = map fld (ns ++ rest) /\ col f' "neutrons" k = map fld (ns ++ last)) /\
  ((o_mode o' = "hit" <-> o_mode o = "hit") -> 1 <= a_min (g_abs cfg) ->
   (o_tiff o <> "" -> o_tiff o' <> "" -> forall i x y u, (i < length (g_edges cfg) - 1)%nat -> 0 <= x < s -> 0 <= y < s ->
      prior (d_files d) (tiff_name (o_tiff o) (o_base o) i) s s x y u ->
      prior (d_files d') (tiff_name (o_tiff o') (o_base o') i) s s x y u ->
      exists v v', disk (d_files d1) (tiff_name (o_tiff o) (o_base o) i) x y = Some ((u + v) mod 2 ^ 32) /\
        disk (d_files d1') (tiff_name (o_tiff o') (o_base o') i) x y = Some ((u + v') mod 2 ^ 32) /\
        0 <= v' <= v + 8191 /\ (o_mode o = "hit" -> v' <= v)) /\
   (zlen (packets_of ds) < 2 ^ 32 -> o_spectra o <> "" -> o_spectra o' <> "" ->
      exists rows rows', d_files d1 (o_spectra o ++ ".txt")%string = Some (Spectrum rows) /\
        d_files d1' (o_spectra o' ++ ".txt")%string = Some (Spectrum rows') /\
        Forall2 (fun r r' => fst r' = fst r /\ 0 <= snd r' <= snd r + 8191 /\ (o_mode o = "hit" -> snd r' <= snd r)) rows rows')).
Proof. exact C113_l. Qed.
Print Assumptions C113_cut.

(** The run over the first [n] bytes does end normally, if the whole recording could be
    read and the file does not end inside a packet of a payload. *)
Theorem C113_ends : forall fuel ext w order args d o cfg ds n s hss s', (8 <= n)%nat -> ~ ends_in_packet ds n ->
  (forall p, env_writable w p = true) -> understood w args o -> configured w o cfg ->
  env_input w (o_input o) = Some (firstn n (stream ds)) -> hits_created w o -> events_created w o ->
  (o_tiff o <> "" -> env_mkdir w (o_tiff o) = true) ->
  ds <> [] -> Forall dataset_ok ds -> Forall no_false_header ds ->
  0 < o_chunk o -> cuts_at_datasets (o_chunk o) ds -> (length (stream ds) <= fuel)%nat ->
  edges_ok (g_edges cfg) -> side (g_sr cfg) s -> 0 < s < 2 ^ 30 ->
  Permutation order (seq 0 (length (g_edges cfg) - 1)) ->
  (forall i, (i < length (g_edges cfg) - 1)%nat ->
     saved (d_files d) (tiff_name (o_tiff o) (o_base o) i) s s \/ unrelated (d_files d) (tiff_name (o_tiff o) (o_base o) i) s s) ->
  processed (timing_of o) ts0 ds hss s' ->
  Forall (fun h => (timing_of o = GDC_mode -> h_spider h < 2 ^ 48) /\ (timing_of o = TDC_mode -> h_tof h <> None)) (concat hss) ->
  exists d', program fuel ext w order args d = Ok (Exit 0, d').
Proof. exact C113_ends_l. Qed.
Print Assumptions C113_ends.

(** If the file ends inside a packet of a payload, the program never returns 0 ... *)
Theorem C113_broken : forall fuel ext w order args o cfg ds n d d', (8 <= n)%nat ->
  exclusive w -> understood w args o -> configured w o cfg ->
  env_input w (o_input o) = Some (firstn n (stream ds)) -> Forall dataset_ok ds -> Forall no_false_header ds ->
  0 < o_chunk o -> cuts_at_datasets (o_chunk o) ds -> (length (stream ds) <= fuel)%nat ->
  ends_in_packet ds n -> program fuel ext w order args d <> Ok (Exit 0, d').
Proof. exact C113_broken_l. Qed.
Print Assumptions C113_broken.

(** ... and, if it reads the file at once, it reads beyond its end. *)
Theorem C113_undefined : forall fuel ext w order args o cfg ds n s d, (8 <= n)%nat ->
  understood w args o -> configured w o cfg -> hits_created w o -> events_created w o ->
  env_input w (o_input o) = Some (firstn n (stream ds)) -> Forall dataset_ok ds -> Forall no_false_header ds ->
  zlen (firstn n (stream ds)) <= o_chunk o -> edges_ok (g_edges cfg) -> side (g_sr cfg) s -> 0 < s -> (0 < fuel)%nat ->
  ends_in_packet ds n -> program fuel ext w order args d = UB OutOfBounds.
Proof. exact C113_ub_l. Qed.
Print Assumptions C113_undefined.

(** The history of Properties_Measure without its last two packets of the first dataset and
    the second dataset. *)
Definition cu_ds : list dataset := map dataset_of hex.
Definition cu_w (n : nat) : outside :=
  Outside (env_stoull pex_w) (env_double pex_w) (env_json pex_w) (env_config pex_w)
    (fun m => if String.eqb m "in" then Some (firstn n (stream cu_ds)) else None)
    (env_creates pex_w) (env_mkdir pex_w) (env_writable pex_w).
Definition cu_args : list arg := [Ai "in"; AH "h"; AE "e"; AT "out"; Am "hit"; At "gdc"; Ac "1"].
Lemma cu_ok : Forall dataset_ok cu_ds /\ Forall no_false_header cu_ds /\ exists k, recording around true nothing_known cu_ds hex_hits k.
Proof.
  assert (H : histories after None None hex hex_hits).
  { apply hex_histories. intros t I. unfold after. repeat (destruct I as [<-|I]; [lia|]). destruct I. }
  destruct (P_MeasureHist.histories_recording _ _ _ _ _ H) as [Oj (kj & Rj)]. split; [exact Oj|]. split.
  - unfold cu_ds. repeat constructor; vm_compute; intuition discriminate.
  - exists kj. apply (P_Measure.recording_mono after around false true _ _ _ _) in Rj; [exact Rj|unfold after, around; intros; lia|discriminate].
Qed.
Lemma cu_len : length (stream cu_ds) = 80%nat.
Proof. vm_compute. reflexivity. Qed.
Lemma cu_cuts : cuts_at_datasets (o_chunk mo_o) cu_ds.
Proof. intros j H. unfold zlen in H. rewrite cu_len in H. cbn [o_chunk mo_o] in H. lia. Qed.
Lemma cu_understood n : understood (cu_w n) cu_args mo_o.
Proof. apply P_Program.understood_parse. reflexivity. Qed.
Lemma cu_unrelated (edges : list f64) : forall i, (i < length edges - 1)%nat ->
  saved (d_files pex_d) (tiff_name (o_tiff mo_o) (o_base mo_o) i) 517 517 \/ unrelated (d_files pex_d) (tiff_name (o_tiff mo_o) (o_base mo_o) i) 517 517.
Proof. intros i _. right. intros w h r. discriminate. Qed.
Lemma cu_whole : ~ ends_in_packet cu_ds 48.
Proof.
  intros (a & d & b & j & E & En & Hj & Hm). unfold cu_ds, hex in E. cbn [map] in E. destruct a as [|x [|y [|z a]]]; cbn [app] in E.
  - change (length (stream [])) with 0%nat in En. apply Hm. replace j with 40%nat by lia. reflexivity.
  - injection E as <- <- <-. rewrite <- (Nat.add_assoc _ 8 j) in En. revert En.
    match goal with |- (_ = ?l + _)%nat -> _ => replace l with 56%nat by (vm_compute; reflexivity) end. lia.
  - discriminate E.
  - discriminate E.
Qed.
Lemma cu_ended d : forall edges, configured (cu_w 48) mo_o (Config (AbsCfg (f_of_Z 5) 1 75) (f_of_Z 1) edges) -> edges_ok edges -> d = pex_d ->
  exists d', program 300 cex_ext (cu_w 48) (seq 0 (length edges - 1)) cu_args d = Ok (Exit 0, d').
Proof.
  intros edges C E ->. destruct cu_ok as (O & N & k & R). destruct (P_Measure.C90_gdc_l cu_ds hex_hits k O R) as (s2 & Q).
  apply (C113_ends 300 cex_ext (cu_w 48) (seq 0 (length edges - 1)) cu_args pex_d mo_o _ cu_ds 48 517 hex_hits s2 ltac:(lia) cu_whole (fun _ => eq_refl) (cu_understood 48) C eq_refl);
    try assumption.
  - intros _. reflexivity.
  - intros _. split; [discriminate|reflexivity].
  - intros _. reflexivity.
  - discriminate.
  - reflexivity.
  - exact cu_cuts.
  - rewrite cu_len. lia.
  - apply P_Tof.side_one.
  - lia.
  - apply Permutation_refl.
  - apply cu_unrelated.
  - change (timing_of mo_o) with GDC_mode. eapply Forall_impl; [|apply (P_EventsProgram.recording_bounds _ _ _ _ R); discriminate].
    intros h Hh. split; [intros _; exact Hh|discriminate].
Qed.
Example C113_ends_instance : exists n d', program 300 cex_ext (cu_w 48) (seq 0 n) cu_args pex_d = Ok (Exit 0, d').
Proof.
  destruct (P_Program.C81_default_l (cu_w 48) mo_o eq_refl) as (edges & C & E & _). exists (length edges - 1)%nat. exact (cu_ended pex_d edges C E eq_refl).
Qed.

Example C113_cut_instance : exists cfg d1 d1',
  completed cex_ext mo_o cfg cu_ds 517 pex_d d1 /\ finished cex_ext mo_o cfg cu_ds 48 517 pex_d d1' /\
  (exists f f' hs rest, d_h5 d1 "h" = Some f /\ d_h5 d1' "h" = Some f' /\
     map Some (col f "hits" "x") = map (fun h => Some (f_of_Z (h_x h))) (hs ++ rest) /\
     map Some (col f' "hits" "x") = map (fun h => Some (f_of_Z (h_x h))) hs) /\
  forall x y, 0 <= x < 517 -> 0 <= y < 517 -> exists v v',
    disk (d_files d1) (tiff_name "out" "tof_image" 0) x y = Some (v mod 2 ^ 32) /\
    disk (d_files d1') (tiff_name "out" "tof_image" 0) x y = Some (v' mod 2 ^ 32) /\ 0 <= v' <= v.
Proof.
  destruct (P_Program.C81_default_l (cu_w 48) mo_o eq_refl) as (edges & C & E & _).
  destruct (cu_ended pex_d edges C E eq_refl) as (d1' & P2). destruct cu_ok as (O & N & k & R).
  destruct (ap_completed cu_ds hex_hits k edges pex_d C E ltac:(discriminate) O N ltac:(unfold zlen; rewrite cu_len; lia) R (cu_unrelated edges)) as (d1 & P1).
  assert (Fi : finished cex_ext mo_o (Config (AbsCfg (f_of_Z 5) 1 75) (f_of_Z 1) edges) cu_ds 48 517 pex_d d1').
  { exists 300%nat, (cu_w 48), (seq 0 (length edges - 1)), cu_args. split; [exact pex_exclusive|]. split; [intros p; reflexivity|].
    split; [exact (cu_understood 48)|]. split; [exact C|]. split; [reflexivity|]. split; [exact O|]. split; [exact N|]. split; [reflexivity|].
    split; [exact cu_cuts|]. split; [rewrite cu_len; lia|]. split; [exact E|]. split; [apply P_Tof.side_one|]. split; [reflexivity|].
    split; [apply Permutation_refl|]. split; [apply cu_unrelated|exact P2]. }
  exists (Config (AbsCfg (f_of_Z 5) 1 75) (f_of_Z 1) edges), d1, d1'. split; [exact P1|]. split; [exact Fi|].
  destruct (C113_cut cex_ext mo_o mo_o _ cu_ds 48 517 pex_d d1 pex_d d1' ltac:(lia) P1 Fi eq_refl) as (Hh & _ & Hi). split.
  - destruct (Hh ltac:(discriminate) ltac:(discriminate)) as (f & f' & hs & rest & F & F' & G). exists f, f', hs, rest.
    split; [exact F|]. split; [exact F'|]. exact (G _ _ HF_x).
  - intros x y Hx Hy. destruct (Hi (iff_refl _) ltac:(cbn [g_abs a_min]; lia)) as [J _].
    destruct (J ltac:(discriminate) ltac:(discriminate) 0%nat x y 0) as (v & v' & D & D' & B & M);
      [destruct E as [E _]; cbn [g_edges]; lia|exact Hx|exact Hy|apply prior_none; intros w h r; discriminate|apply prior_none; intros w h r; discriminate|].
    exists v, v'. split; [exact D|]. split; [exact D'|]. specialize (M eq_refl). lia.
Qed.

(** One byte less. *)
Lemma cu_inside : ends_in_packet cu_ds 47.
Proof.
  exists [], (dataset_of (51, 0, 0, snd (hd (0, 0, 0, []) hex))), (map dataset_of (tl hex)), 39%nat. split; [reflexivity|]. split; [reflexivity|]. split; [|discriminate].
  replace (zlen (d_payload (dataset_of (51, 0, 0, snd (hd (0, 0, 0, []) hex))))) with 6 by (vm_compute; reflexivity). lia.
Qed.
Example C113_broken_instance : forall order d', program 300 cex_ext (cu_w 47) order cu_args pex_d <> Ok (Exit 0, d').
Proof.
  intros order d'. destruct (P_Program.C81_default_l (cu_w 47) mo_o eq_refl) as (edges & C & E & _). destruct cu_ok as (O & N & _).
  apply (C113_broken 300 cex_ext (cu_w 47) order cu_args mo_o _ cu_ds 47 pex_d d' ltac:(lia) pex_exclusive (cu_understood 47) C eq_refl O N);
    [reflexivity|exact cu_cuts|rewrite cu_len; lia|exact cu_inside].
Qed.
Example C113_undefined_instance : forall order, program 300 cex_ext (cu_w 47) order cu_args pex_d = UB OutOfBounds.
Proof.
  intros order. destruct (P_Program.C81_default_l (cu_w 47) mo_o eq_refl) as (edges & C & E & _). destruct cu_ok as (O & N & _).
  apply (C113_undefined 300 cex_ext (cu_w 47) order cu_args mo_o _ cu_ds 47 517 pex_d ltac:(lia) (cu_understood 47) C); try assumption; try reflexivity.
  - intros _. reflexivity.
  - intros _. split; [discriminate|reflexivity].
  - unfold zlen. rewrite firstn_length, cu_len. cbn [o_chunk mo_o]. lia.
  - apply P_Tof.side_one.
  - lia.
  - exact cu_inside.
Qed.
