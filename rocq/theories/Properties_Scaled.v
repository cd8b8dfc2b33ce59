(** Property C109: super resolution spreads the hits over the images without changing
    the numbers.  Each theorem is followed by a concrete instance. *)
From Coq Require Import Reals String Lia Permutation.
From Verif Require Import P_Scaled S_Motion P_Program P_Tof.
From Verif Require Import Properties_Tpx3 Properties_Abs Properties_Cli Properties_Program Properties_Measure Properties_Events Properties_Motion Properties_Coarse.
Local Open Scope string_scope.
Local Open Scope Z_scope.
Local Open Scope list_scope.

(** * Concrete data used by the instances: super resolution 2 *)
Definition sc_json (edges : list json) : json :=
  JObject [("tof_imaging", JObject [("super_resolution", JInt 2); ("bin_edges", JArray edges)])].
Lemma sc_configured e es vs v : get_doubles (e :: es) = Ok (v :: vs) ->
  configured (co_w (sc_json (e :: es))) co_o (Config (AbsCfg (f_of_Z 5) 1 75) (f_of_Z 2) (v :: vs)).
Proof.
  intros H. unfold configured. set (j := sc_json (e :: es)).
  destruct (P_Load.C52_l (env_double (co_w j)) (env_json (co_w j)) (o_config co_o) (env_config (co_w j) (o_config co_o))) as (_ & _ & J & _ & K).
  apply J.
  { exists "", "c". split; [reflexivity|]. split; [discriminate|]. split; [repeat constructor; discriminate|left; reflexivity]. }
  apply K. exists "good", j. split; [reflexivity|]. split; [reflexivity|]. unfold json_config.
  change (json_binning j) with (let! x := get_doubles (e :: es) in Ok (Binning (tb_bins default_binning) (tb_max default_binning) x)).
  rewrite H. cbn [obind].
  change (json_value ["abs"; "radius"] get_double (f_of_Z 5) j) with (Ok (f_of_Z 5)).
  change (json_value ["abs"; "min_cluster_size"] get_ulong 1 j) with (Ok 1).
  change (json_value ["abs"; "spider_time_range"] get_ulong 75 j) with (Ok 75).
  change (json_value ["tof_imaging"; "super_resolution"] get_double (f_of_Z 1) j) with (Ok (f_of_Z 2)).
  reflexivity.
Qed.
Lemma sc_completed j edges : configured (co_w j) co_o (Config (AbsCfg (f_of_Z 5) 1 75) (f_of_Z 2) edges) -> edges_ok edges ->
  exists d', completed cex_ext co_o (Config (AbsCfg (f_of_Z 5) 1 75) (f_of_Z 2) edges) (map dataset_of hex) (517 * 2) pex_d d'.
Proof.
  intros C E. set (ds := map dataset_of hex). destruct eex_recording as (k & O & R).
  assert (U : understood (co_w j) co_args co_o) by (apply P_Program.understood_parse; reflexivity).
  assert (Cu : cuts_at_datasets (o_chunk co_o) ds).
  { intros i H. change (zlen (stream ds)) with 80 in H. cbn [o_chunk co_o] in H. lia. }
  assert (Lf : (length (stream ds) <= 300)%nat) by (apply Nat.leb_le; vm_compute; reflexivity).
  assert (N : Forall no_false_header ds) by (repeat constructor; vm_compute; intuition discriminate).
  assert (Un : forall i, (i < length edges - 1)%nat ->
    saved (d_files pex_d) (tiff_name (o_tiff co_o) (o_base co_o) i) (517 * 2) (517 * 2) \/
    unrelated (d_files pex_d) (tiff_name (o_tiff co_o) (o_base co_o) i) (517 * 2) (517 * 2)).
  { intros i _. right. intros w h r. discriminate. }
  assert (Sd : side (f_of_Z 2) (517 * 2)) by (apply side_int; lia).
  destruct (P_Program.C81_any_l 300 cex_ext (co_w j) (seq 0 (length edges - 1)) co_args pex_d co_o _ ds (517 * 2) (fun _ => eq_refl) U C eq_refl)
    as (d' & P); try assumption.
  - intros _. reflexivity.
  - intros _. split; [discriminate|reflexivity].
  - intros _. reflexivity.
  - discriminate.
  - reflexivity.
  - lia.
  - apply Permutation_refl.
  - intros hss' s' Q. change (timing_of co_o) with GDC_mode in *.
    destruct (P_Measure.C90_gdc_l ds _ k O R) as (s2 & Q2). destruct (P_CliRun.processed_unique _ _ _ _ _ _ _ Q2 Q) as [<- _].
    eapply Forall_impl; [|apply (P_EventsProgram.recording_bounds _ _ _ _ R); discriminate].
    intros h Hh. split; [intros _; exact Hh|discriminate].
  - exists d', 300%nat, (co_w j), (seq 0 (length edges - 1)), co_args. split; [exact pex_exclusive|]. split; [intros p; reflexivity|].
    split; [exact U|]. split; [exact C|]. split; [reflexivity|]. split; [exact O|]. split; [exact N|]. split; [reflexivity|].
    split; [exact Cu|]. split; [exact Lf|]. split; [exact E|]. split; [exact Sd|]. split; [reflexivity|].
    split; [apply Permutation_refl|]. split; [exact Un|exact P].
Qed.

(** * C109 *)

(** With the super resolution [k] a hit lands at [k] times the place where it lands
    without. *)
Theorem C109_lands : forall k edges h i X Y, 1 <= k -> 517 * k < 2 ^ 31 -> 0 <= h_x h < 517 -> 0 <= h_y h < 517 ->
  (lands (f_of_Z k) edges (entry_of_hit h) i X Y <->
   exists x y, X = k * x /\ Y = k * y /\ lands (f_of_Z 1) edges (entry_of_hit h) i x y).
Proof. exact C109_lands_l. Qed.
Print Assumptions C109_lands.

Example C109_lands_instance :
  map (fun k => f_to_i32 (fround (fmul (f_of_Z 360) (f_of_Z k)))) [1; 2; 3; 4153789] = [Some 360; Some 720; Some 1080; Some 1495364040].
Proof. vm_compute. reflexivity. Qed.

(** Two completed runs in hit mode on the same recording, the first without super
    resolution and the second with [k]: each pixel (x, y) of the first images grows by
    as much as (k x, k y) in the second; all other pixels of the second images stay as they
    were; the spectra are the same. *)
Theorem C109_program : forall ext o o' cfg cfg' ds k d d1 d' d1',
  completed ext o cfg ds 517 d d1 -> completed ext o' cfg' ds (517 * k) d' d1' -> 1 <= k ->
  timing_of o' = timing_of o -> o_mode o = "hit" -> o_mode o' = "hit" ->
  g_sr cfg = f_of_Z 1 -> g_sr cfg' = f_of_Z k -> g_edges cfg' = g_edges cfg ->
  (o_tiff o <> "" -> o_tiff o' <> "" -> forall i x y u u', (i < length (g_edges cfg) - 1)%nat -> 0 <= x < 517 -> 0 <= y < 517 ->
     prior (d_files d) (tiff_name (o_tiff o) (o_base o) i) 517 517 x y u ->
     prior (d_files d') (tiff_name (o_tiff o') (o_base o') i) (517 * k) (517 * k) (k * x) (k * y) u' ->
     exists c, disk (d_files d1) (tiff_name (o_tiff o) (o_base o) i) x y = Some ((u + c) mod 2 ^ 32) /\
       disk (d_files d1') (tiff_name (o_tiff o') (o_base o') i) (k * x) (k * y) = Some ((u' + c) mod 2 ^ 32)) /\
  (o_tiff o' <> "" -> forall i x y u', (i < length (g_edges cfg) - 1)%nat -> 0 <= x < 517 * k -> 0 <= y < 517 * k ->
     ~ (k | x) \/ ~ (k | y) ->
     prior (d_files d') (tiff_name (o_tiff o') (o_base o') i) (517 * k) (517 * k) x y u' ->
     disk (d_files d1') (tiff_name (o_tiff o') (o_base o') i) x y = Some (u' mod 2 ^ 32)) /\
  (forall hss s', processed (timing_of o) ts0 ds hss s' -> zlen (concat hss) < 2 ^ 32 ->
     o_spectra o <> "" -> o_spectra o' <> "" ->
     exists rows, d_files d1 (o_spectra o ++ ".txt")%string = Some (Spectrum rows) /\
       d_files d1' (o_spectra o' ++ ".txt")%string = Some (Spectrum rows)).
Proof. exact C109_program_l. Qed.
Print Assumptions C109_program.

Example C109_program_instance : exists d1 d1',
  completed cex_ext co_o (Config (AbsCfg (f_of_Z 5) 1 75) (f_of_Z 1) co_fine) (map dataset_of hex) 517 pex_d d1 /\
  completed cex_ext co_o (Config (AbsCfg (f_of_Z 5) 1 75) (f_of_Z 2) co_fine) (map dataset_of hex) (517 * 2) pex_d d1' /\
  (forall x y, 0 <= x < 517 -> 0 <= y < 517 -> exists v,
    disk (d_files d1) (tiff_name "out" "tof_image" 0) x y = Some v /\
    disk (d_files d1') (tiff_name "out" "tof_image" 0) (2 * x) (2 * y) = Some v) /\
  (forall x y, 0 <= x < 517 -> 0 <= y < 1034 -> disk (d_files d1') (tiff_name "out" "tof_image" 0) (2 * x + 1) y = Some 0).
Proof.
  assert (G : get_doubles [JInt 0; JFloat (f_lit 1 1000); JFloat (f_lit 1 100); JFloat (f_lit 168 10000)] = Ok co_fine) by reflexivity.
  destruct (co_completed _ co_fine (co_configured _ _ _ _ G) co_fine_ok) as (d1 & P1).
  destruct (sc_completed _ co_fine (sc_configured _ _ _ _ G) co_fine_ok) as (d1' & P2).
  exists d1, d1'. split; [exact P1|]. split; [exact P2|].
  destruct (C109_program cex_ext co_o co_o _ _ _ 2 pex_d d1 pex_d d1' P1 P2 ltac:(lia) eq_refl eq_refl eq_refl eq_refl eq_refl eq_refl) as (I & Z & _).
  assert (Pr : forall i s x y, prior (d_files pex_d) (tiff_name "out" "tof_image" i) s s x y 0) by (intros i s x y; apply prior_none; intros w h r; discriminate).
  assert (Le : (0 < length co_fine - 1)%nat) by (apply Nat.ltb_lt; reflexivity).
  split.
  - intros x y Hx Hy.
    destruct (I ltac:(discriminate) ltac:(discriminate) 0%nat x y 0 0 Le Hx Hy (Pr _ _ _ _) (Pr _ _ _ _)) as (c & E & E').
    eexists. split; [exact E|exact E'].
  - intros x y Hx Hy.
    apply (Z ltac:(discriminate) 0%nat (2 * x + 1) y 0 Le); [lia|lia| |apply Pr].
    left. intros (q & Q). lia.
Qed.
