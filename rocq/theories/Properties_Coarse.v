(** Property C107: with fewer bins, images and spectra add up.  Each theorem is
    followed by a concrete instance. *)
From Coq Require Import Reals String Lia Permutation Sorted.
From Verif Require Import P_Coarse S_Coarse S_Motion S_Events P_Program P_Tof.
From Verif Require Import Properties_Tpx3 Properties_Abs Properties_Cli Properties_Program Properties_Measure Properties_Events Properties_Motion.
Local Open Scope string_scope.
Local Open Scope Z_scope.
Local Open Scope list_scope.

(** * Concrete data used by the instances *)

(** Three bins, of which the first two are joined. *)
Definition co_fine : list f64 := [f_of_Z 0; f_lit 1 1000; f_lit 1 100; f_lit 168 10000].
Definition co_few : list f64 := [f_of_Z 0; f_lit 1 100; f_lit 168 10000].
Definition co_pos : list nat := [0; 2; 3]%nat.
Lemma co_thinned : thinned co_pos co_fine co_few.
Proof.
  split; [reflexivity|]. split; [repeat constructor|]. exists [0; 2]%nat. reflexivity.
Qed.
Lemma co_fine_ok : edges_ok co_fine.
Proof. apply P_Tof.edges_ok_check. vm_compute. reflexivity. Qed.
Lemma co_few_ok : edges_ok co_few.
Proof. apply P_Tof.edges_ok_check. vm_compute. reflexivity. Qed.
Definition co_json (edges : list json) : json := JObject [("tof_imaging", JObject [("bin_edges", JArray edges)])].
Definition co_w (j : json) : outside :=
  Outside (env_stoull pex_w) (env_double pex_w) (fun _ => Some j) (env_config pex_w)
    (env_input eex_w) (env_creates pex_w) (env_mkdir pex_w) (env_writable pex_w).
Definition co_o : options := Options "in" "h" "e" "c.json" "out" "tof_image" "hit" "Spectra" "gdc" 1048576 false false.
Definition co_args : list arg := [Ai "in"; AH "h"; AE "e"; Au "c.json"; AT "out"; Am "hit"; At "gdc"; Ac "1"].
Lemma co_configured e es vs v : get_doubles (e :: es) = Ok (v :: vs) ->
  configured (co_w (co_json (e :: es))) co_o (Config (AbsCfg (f_of_Z 5) 1 75) (f_of_Z 1) (v :: vs)).
Proof.
  intros H. unfold configured. set (j := co_json (e :: es)).
  destruct (P_Load.C52_l (env_double (co_w j)) (env_json (co_w j)) (o_config co_o) (env_config (co_w j) (o_config co_o))) as (_ & _ & J & _ & K).
  apply J.
  { exists "", "c". split; [reflexivity|]. split; [discriminate|]. split; [repeat constructor; discriminate|left; reflexivity]. }
  apply K. exists "good", j. split; [reflexivity|]. split; [reflexivity|]. unfold json_config.
  change (json_binning j) with (let! x := get_doubles (e :: es) in Ok (Binning (tb_bins default_binning) (tb_max default_binning) x)).
  rewrite H. cbn [obind].
  change (json_value ["abs"; "radius"] get_double (f_of_Z 5) j) with (Ok (f_of_Z 5)).
  change (json_value ["abs"; "min_cluster_size"] get_ulong 1 j) with (Ok 1).
  change (json_value ["abs"; "spider_time_range"] get_ulong 75 j) with (Ok 75).
  change (json_value ["tof_imaging"; "super_resolution"] get_double (f_of_Z 1) j) with (Ok (f_of_Z 1)).
  reflexivity.
Qed.
Lemma co_completed j edges : configured (co_w j) co_o (Config (AbsCfg (f_of_Z 5) 1 75) (f_of_Z 1) edges) -> edges_ok edges ->
  exists d', completed cex_ext co_o (Config (AbsCfg (f_of_Z 5) 1 75) (f_of_Z 1) edges) (map dataset_of hex) 517 pex_d d'.
Proof.
  intros C E. set (ds := map dataset_of hex). destruct eex_recording as (k & O & R).
  assert (U : understood (co_w j) co_args co_o) by (apply P_Program.understood_parse; reflexivity).
  assert (Cu : cuts_at_datasets (o_chunk co_o) ds).
  { intros i H. change (zlen (stream ds)) with 80 in H. cbn [o_chunk co_o] in H. lia. }
  assert (Lf : (length (stream ds) <= 300)%nat) by (apply Nat.leb_le; vm_compute; reflexivity).
  assert (N : Forall no_false_header ds) by (repeat constructor; vm_compute; intuition discriminate).
  assert (Un : forall i, (i < length edges - 1)%nat ->
    saved (d_files pex_d) (tiff_name (o_tiff co_o) (o_base co_o) i) 517 517 \/ unrelated (d_files pex_d) (tiff_name (o_tiff co_o) (o_base co_o) i) 517 517).
  { intros i _. right. intros w h r. discriminate. }
  destruct (P_Program.C81_succeeds_l 300 cex_ext (co_w j) (seq 0 (length edges - 1)) co_args pex_d co_o _ ds (fun _ => eq_refl) U C eq_refl)
    as (d' & P); try assumption.
  - intros _. reflexivity.
  - intros _. split; [discriminate|reflexivity].
  - intros _. reflexivity.
  - discriminate.
  - reflexivity.
  - reflexivity.
  - apply Permutation_refl.
  - intros hss' s' Q. change (timing_of co_o) with GDC_mode in *.
    destruct (P_Measure.C90_gdc_l ds _ k O R) as (s2 & Q2). destruct (P_CliRun.processed_unique _ _ _ _ _ _ _ Q2 Q) as [<- _].
    eapply Forall_impl; [|apply (P_EventsProgram.recording_bounds _ _ _ _ R); discriminate].
    intros h Hh. split; [intros _; exact Hh|discriminate].
  - exists d', 300%nat, (co_w j), (seq 0 (length edges - 1)), co_args. split; [exact pex_exclusive|]. split; [intros p; reflexivity|].
    split; [exact U|]. split; [exact C|]. split; [reflexivity|]. split; [exact O|]. split; [exact N|]. split; [reflexivity|].
    split; [exact Cu|]. split; [exact Lf|]. split; [exact E|]. split; [apply P_Tof.side_one|]. split; [reflexivity|].
    split; [apply Permutation_refl|]. split; [exact Un|exact P].
Qed.

(** * C107 *)

(** An entry lands in a joined bin exactly if it lands in one of the bins that were
    joined; the edge between them does not matter. *)
Theorem C107_lands : forall sr pos edges edges' e j p p' x y, edges_ok edges -> thinned pos edges edges' ->
  nth_error pos j = Some p -> nth_error pos (S j) = Some p' ->
  (lands sr edges' e j x y <-> exists i, (p <= i < p')%nat /\ lands sr edges e i x y).
Proof. exact C107_lands_l. Qed.
Print Assumptions C107_lands.

(** A hit 50 microseconds after the pulse. *)
Example C107_lands_instance : edges_ok co_fine /\ thinned co_pos co_fine co_few /\
  bin_of co_fine 3 (f_of_Z 50000) = Some 0%nat /\ bin_of co_few 2 (f_of_Z 50000) = Some 0%nat /\
  bin_of co_fine 3 (f_of_Z 5000000) = Some 1%nat /\ bin_of co_few 2 (f_of_Z 5000000) = Some 0%nat /\
  bin_of co_fine 3 (f_of_Z 16716675) = Some 2%nat /\ bin_of co_few 2 (f_of_Z 16716675) = Some 1%nat.
Proof. split; [exact co_fine_ok|]. split; [exact co_thinned|]. vm_compute. intuition reflexivity. Qed.

(** Two completed runs on the same recording, the second with some of the bin edges of
    the first: each pixel of its images is the sum (in 32 bits) of those of the bins
    that were joined, if this holds for the images before; and so is each count of
    its spectrum, labelled by the upper edge of the last of these bins. *)
Theorem C107_program : forall ext o o' cfg cfg' ds s d d1 d' d1' pos,
  completed ext o cfg ds s d d1 -> completed ext o' cfg' ds s d' d1' ->
  timing_of o' = timing_of o -> (o_mode o' = "hit" <-> o_mode o = "hit") ->
  g_abs cfg' = g_abs cfg -> g_sr cfg' = g_sr cfg -> thinned pos (g_edges cfg) (g_edges cfg') ->
  (o_tiff o <> "" -> o_tiff o' <> "" ->
   forall j p p' x y us u', nth_error pos j = Some p -> nth_error pos (S j) = Some p' -> 0 <= x < s -> 0 <= y < s ->
     Forall2 (fun i u => prior (d_files d) (tiff_name (o_tiff o) (o_base o) i) s s x y u) (seq p (p' - p)) us ->
     prior (d_files d') (tiff_name (o_tiff o') (o_base o') j) s s x y u' -> u' mod 2 ^ 32 = zsum us mod 2 ^ 32 ->
     exists vs, Forall2 (fun i v => disk (d_files d1) (tiff_name (o_tiff o) (o_base o) i) x y = Some v) (seq p (p' - p)) vs /\
       disk (d_files d1') (tiff_name (o_tiff o') (o_base o') j) x y = Some (zsum vs mod 2 ^ 32)) /\
  (forall hss nss s', processed (timing_of o) ts0 ds hss s' -> Forall2 (neutrons_of ext (g_abs cfg)) hss nss ->
    zlen (binned o hss nss) < 2 ^ 32 -> o_spectra o <> "" -> o_spectra o' <> "" ->
    exists rows rows', d_files d1 (o_spectra o ++ ".txt")%string = Some (Spectrum rows) /\
      d_files d1' (o_spectra o' ++ ".txt")%string = Some (Spectrum rows') /\
      spectrum_of (g_sr cfg) (g_edges cfg) s (binned o hss nss) rows /\
      forall j p p' t' c', nth_error pos j = Some p -> nth_error pos (S j) = Some p' -> nth_error rows' j = Some (t', c') ->
        c' = zsum (map snd (firstn (p' - p) (skipn p rows))) /\
        exists c, nth_error rows (p' - 1) = Some (t', c)).
Proof. exact C107_program_l. Qed.
Print Assumptions C107_program.

Example C107_program_instance : exists d1 d1',
  completed cex_ext co_o (Config (AbsCfg (f_of_Z 5) 1 75) (f_of_Z 1) co_fine) (map dataset_of hex) 517 pex_d d1 /\
  completed cex_ext co_o (Config (AbsCfg (f_of_Z 5) 1 75) (f_of_Z 1) co_few) (map dataset_of hex) 517 pex_d d1' /\
  forall x y, 0 <= x < 517 -> 0 <= y < 517 -> exists v w,
    disk (d_files d1) (tiff_name "out" "tof_image" 0) x y = Some v /\ disk (d_files d1) (tiff_name "out" "tof_image" 1) x y = Some w /\
    disk (d_files d1') (tiff_name "out" "tof_image" 0) x y = Some ((v + w) mod 2 ^ 32).
Proof.
  assert (G : get_doubles [JInt 0; JFloat (f_lit 1 1000); JFloat (f_lit 1 100); JFloat (f_lit 168 10000)] = Ok co_fine) by reflexivity.
  assert (G' : get_doubles [JInt 0; JFloat (f_lit 1 100); JFloat (f_lit 168 10000)] = Ok co_few) by reflexivity.
  destruct (co_completed _ co_fine (co_configured _ _ _ _ G) co_fine_ok) as (d1 & P1).
  destruct (co_completed _ co_few (co_configured _ _ _ _ G') co_few_ok) as (d1' & P2).
  exists d1, d1'. split; [exact P1|]. split; [exact P2|]. intros x y Hx Hy.
  destruct (C107_program cex_ext co_o co_o _ _ _ 517 pex_d d1 pex_d d1' co_pos P1 P2 eq_refl (iff_refl _) eq_refl eq_refl co_thinned) as [I _].
  assert (Pr : forall i, prior (d_files pex_d) (tiff_name "out" "tof_image" i) 517 517 x y 0) by (intros i; apply prior_none; intros w h r; discriminate).
  destruct (I ltac:(discriminate) ltac:(discriminate) 0%nat 0%nat 2%nat x y [0; 0] 0 eq_refl eq_refl Hx Hy) as (vs & V & D).
  { constructor; [apply Pr|]. constructor; [apply Pr|constructor]. }
  { apply Pr. }
  { reflexivity. }
  inversion V as [|? v ? vs1 V1 V']; subst. inversion V' as [|? w ? vs2 V2 V'']; subst. inversion V''; subst.
  exists v, w. split; [exact V1|]. split; [exact V2|]. replace (v + w) with (zsum [v; w]) by (cbn; lia). exact D.
Qed.
