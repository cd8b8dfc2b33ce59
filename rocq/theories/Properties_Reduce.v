(** Property C95: the auto reducer counts the true events and hits of every raw file
    of a run once, however the files are spread over the scans.  Each theorem is
    followed by a concrete instance of its hypotheses. *)
From Coq Require Import Reals String Permutation.
From Verif Require Import P_Program P_Measure P_EventsProgram P_Images P_Reduce.
From Verif Require Import Properties_Tpx3 Properties_Abs Properties_Cli Properties_Venus Properties_Measure Properties_Events.
From Coq Require Import Lia.
Global Open Scope Z_scope.
Local Open Scope list_scope.

(** * Concrete data: two files, seen in two scans; default settings *)
Definition rex_world (n : nat) : world := World true (fun _ => true) (seq 0 n) None.
Definition rex_file (n : nat) (nm : string) : dir_entry :=
  DirEntry nm true (Some (stream (map dataset_of hex))) (rex_world n).
Definition rex_a (n : nat) := rex_file n "a.tpx3".
Definition rex_b (n : nat) := rex_file n "b.tpx3".
Definition rex_junk (n : nat) := DirEntry "b.tpx3.part" true None (World false (fun _ => false) [] None).
Definition rex_vs (n : nat) : list visit := [Visit [] true [rex_a n] true; Visit [("x", true)]%string true [rex_junk n; rex_a n; rex_b n] true].
Definition rex_vs' (n : nat) : list visit := [Visit [] true [rex_b n; rex_a n; rex_a n] true].
Definition rex_stop : visit := Visit [("r.nxs.h5", true)]%string true [] true.
Definition rex_opts (mode : string) : venus_options := VOpt "in" "out" "" "tof_image" mode 5 false false.
Definition rex_args (mode : string) : list varg := [Vi "in"; Vo "out"; Vm mode]%string.
Definition rex_parse : string -> option json := fun _ => None.
Definition rex_conf : string -> M_Config.source := fun _ => NoFile.
Lemma rex_understood mode : mode = "neutron"%string \/ mode = "hit"%string ->
  understood_venus (fun _ => None) (rex_args mode) (rex_opts mode).
Proof. intros [->| ->]; apply C50_options; reflexivity. Qed.
Lemma rex_configured mode : exists edges,
  configured_venus rex_parse rex_conf (rex_opts mode) (Config (AbsCfg (f_of_Z 5) 1 75) (f_of_Z 1) edges) /\ edges_ok edges.
Proof. exact (venus_default_l rex_parse rex_conf (rex_opts mode) eq_refl). Qed.
Lemma rex_raw n nm : raw_name nm -> good_world n (d_world (rex_file n nm)) /\ raw_of (map x_hits eex) (rex_file n nm).
Proof.
  intros _. split.
  - split; [reflexivity|]. split; [reflexivity|]. split; [apply Permutation_refl|reflexivity].
  - destruct (P_MeasureHist.histories_recording after None None hex hex_hits) as [O (k & R)].
    { apply hex_histories. intros t H. unfold after. repeat (destruct H as [<-|H]; [lia|]). destruct H. }
    exists (map dataset_of hex), k. split; [reflexivity|]. split; [discriminate|]. split; [exact O|].
    split; [repeat constructor; vm_compute; intuition discriminate|].
    revert R. apply P_Measure.recording_mono; [|discriminate]. unfold after, around. intros. lia.
Qed.
Lemma rex_not_raw n : ~ raw_file (rex_junk n).
Proof. intros H. apply P_Venus.raw_spec in H. discriminate H. Qed.
Lemma rex_faithful n : faithful n (fun _ => map x_hits eex) (rex_vs n).
Proof.
  intros v e [<-|[<-|[]]] He R; cbn [vs_scan] in He.
  - destruct He as [<-|[]]. apply rex_raw, R.
  - destruct He as [<-|[<-|[<-|[]]]]; [elim (rex_not_raw n); exact R|apply rex_raw, R|apply rex_raw, R].
Qed.
Lemma rex_faithful' n : faithful n (fun _ => map x_hits eex) (rex_vs' n).
Proof.
  intros v e [<-|[]] He R; cbn [vs_scan] in He. destruct He as [<-|[<-|[<-|[]]]]; apply rex_raw, R.
Qed.
Lemma rex_offered n nm : offered (rex_vs n) nm <-> nm = "a.tpx3"%string \/ nm = "b.tpx3"%string.
Proof.
  assert (Ra : raw_file (rex_a n)) by (split; [reflexivity|exists "a"%string; split; [discriminate|reflexivity]]).
  assert (Rb : raw_file (rex_b n)) by (split; [reflexivity|exists "b"%string; split; [discriminate|reflexivity]]).
  split.
  - intros (v & e & [<-|[<-|[]]] & He & R & <-); cbn [vs_scan] in He.
    + destruct He as [<-|[]]. auto.
    + destruct He as [<-|[<-|[<-|[]]]]; [elim (rex_not_raw n); exact R|auto|auto].
  - intros [->| ->].
    + exists (Visit [] true [rex_a n] true), (rex_a n). cbn. auto.
    + eexists _, (rex_b n). split; [right; left; reflexivity|]. cbn. auto.
Qed.
Lemma rex_offered' n nm : offered (rex_vs' n) nm <-> nm = "a.tpx3"%string \/ nm = "b.tpx3"%string.
Proof.
  assert (Ra : raw_file (rex_a n)) by (split; [reflexivity|exists "a"%string; split; [discriminate|reflexivity]]).
  assert (Rb : raw_file (rex_b n)) by (split; [reflexivity|exists "b"%string; split; [discriminate|reflexivity]]).
  split.
  - intros (v & e & [<-|[]] & He & R & <-); cbn [vs_scan] in He. destruct He as [<-|[<-|[<-|[]]]]; auto.
  - intros [->| ->]; [exists (Visit [] true [rex_b n; rex_a n; rex_a n] true), (rex_a n)
                     |exists (Visit [] true [rex_b n; rex_a n; rex_a n] true), (rex_b n)]; cbn; auto.
Qed.
Lemma rex_quiet n : Forall (fun v => ~ visit_stops v) (rex_vs n) /\ Forall (fun v => ~ visit_stops v) (rex_vs' n).
Proof.
  assert (H : forall v, existsb is_stop (vs_check v) = false -> ~ visit_stops v).
  { intros v E S. apply (P_Venus.stops_spec (round_of v)) in S. cbn [rd_check round_of] in S. congruence. }
  split; repeat constructor; apply H; reflexivity.
Qed.
Lemma rex_stops : visit_stops rex_stop.
Proof. exists "r.nxs.h5"%string. split; [left; reflexivity|]. exists "r"%string. split; [discriminate|reflexivity]. Qed.
Lemma rex_fit n : images_fit vex_none "out" "tof_image" n 517.
Proof. intros i _. right. intros w h r. discriminate. Qed.
Lemma rex_names n names : NoDup names -> (forall nm, In nm names <-> offered (rex_vs n) nm) ->
  Permutation names ["a.tpx3"; "b.tpx3"]%string.
Proof.
  intros ND H. apply NoDup_Permutation; [exact ND| |].
  - constructor; [intros [X|[]]; discriminate X|]. constructor; [intros []|constructor].
  - intros nm. rewrite H, rex_offered. cbn [In]. intuition congruence.
Qed.

(** * C95 *)

(** Neutrons: one cell for each true event of each file that was in the directory at
    some scan, near the event and in a bin that its time belongs to; in the end every
    pixel on disk has grown by the number of events with that cell. *)
Theorem C95_neutrons : forall ext stoi parse conf args o cfg (truth : string -> list exposure) a wd r vs v rest fs0,
  understood_venus stoi args o -> configured_venus parse conf o cfg -> vo_mode o = "neutron"%string ->
  edges_ok (g_edges cfg) -> g_sr cfg = f_of_Z 1 ->
  images_fit fs0 (vo_out o) (vo_base o) (length (g_edges cfg) - 1) 517 ->
  Forall sound vs -> Forall (fun v => ~ visit_stops v) vs -> visit_stops v ->
  faithful (length (g_edges cfg) - 1) (fun nm => map x_hits (truth nm)) vs ->
  radius_is (a_radius (g_abs cfg)) (r * 2 ^ 20) -> a_range (g_abs cfg) < 2 ^ 64 -> a_min (g_abs cfg) <= 1 ->
  0 <= a -> 2 * a <= r -> 0 <= wd <= a_range (g_abs cfg) ->
  (forall nm, offered vs nm -> Forall (exposed 8 a wd r (a_range (g_abs cfg))) (truth nm)) ->
  exists st names cells, venus_main ext stoi parse conf args (vs ++ v :: rest) fs0 = Ok (Some 0, st) /\
    NoDup names /\ (forall nm, In nm names <-> offered vs nm) /\
    Forall2 (placed a wd (g_edges cfg)) (concat (map x_events (flat_map truth names))) cells /\
    (names <> [] -> forall i x y u, (i < length (g_edges cfg) - 1)%nat -> 0 <= x < 517 -> 0 <= y < 517 ->
       prior fs0 (tiff_name (vo_out o) (vo_base o) i) 517 517 x y u ->
       disk (v_files st) (tiff_name (vo_out o) (vo_base o) i) x y = Some ((u + number (is_cell i x y) cells) mod 2 ^ 32)).
Proof. exact C95_neutrons_l. Qed.
Print Assumptions C95_neutrons.

Example C95_neutrons_instance : exists edges st cells,
  venus_main cex_ext (fun _ => None) rex_parse rex_conf (rex_args "neutron")
    (rex_vs (length edges - 1) ++ [rex_stop]) vex_none = Ok (Some 0, st) /\
  edges_ok edges /\ length cells = 6%nat /\
  forall i x y, (i < length edges - 1)%nat -> 0 <= x < 517 -> 0 <= y < 517 ->
    disk (v_files st) (tiff_name "out" "tof_image" i) x y = Some (number (is_cell i x y) cells mod 2 ^ 32).
Proof.
  destruct (rex_configured "neutron") as (edges & C & E). set (n := (length edges - 1)%nat).
  destruct (C95_neutrons cex_ext (fun _ => None) rex_parse rex_conf (rex_args "neutron") (rex_opts "neutron")
    (Config (AbsCfg (f_of_Z 5) 1 75) (f_of_Z 1) edges) (fun _ => eex) 1 25 5 (rex_vs n) rex_stop [] vex_none)
    as (st & names & cells & M & ND & N & P & D).
  - apply rex_understood. auto.
  - exact C.
  - reflexivity.
  - exact E.
  - reflexivity.
  - apply rex_fit.
  - repeat constructor.
  - apply rex_quiet.
  - exact rex_stops.
  - apply rex_faithful.
  - exact ex_radius.
  - cbn. lia.
  - cbn. lia.
  - lia.
  - lia.
  - cbn. lia.
  - intros _ _. exact eex_exposed.
  - exists edges, st, cells. pose proof (rex_names n names ND N) as Pm. split; [exact M|]. split; [exact E|]. split.
    + assert (L : length cells = length (concat (map x_events (flat_map (fun _ : string => eex) names)))).
      { clear - P. induction P; cbn [length]; congruence. }
      rewrite L. apply Permutation_length in Pm. destruct names as [|p [|q [|]]]; try discriminate Pm. reflexivity.
    + intros i x y Hi Hx Hy. apply (D ltac:(intros ->; apply Permutation_nil in Pm; discriminate Pm) i x y 0 Hi Hx Hy).
      apply prior_none. intros w h r. discriminate.
Qed.

(** Hits: every pixel grows by the number of true hits there whose time of flight is
    in the bin. *)
Theorem C95_hits : forall ext stoi parse conf args o cfg (truth : string -> list (list hit)) vs v rest fs0,
  understood_venus stoi args o -> configured_venus parse conf o cfg -> vo_mode o = "hit"%string ->
  edges_ok (g_edges cfg) -> g_sr cfg = f_of_Z 1 ->
  images_fit fs0 (vo_out o) (vo_base o) (length (g_edges cfg) - 1) 517 ->
  Forall sound vs -> Forall (fun v => ~ visit_stops v) vs -> visit_stops v ->
  faithful (length (g_edges cfg) - 1) truth vs ->
  exists st names, venus_main ext stoi parse conf args (vs ++ v :: rest) fs0 = Ok (Some 0, st) /\
    NoDup names /\ (forall nm, In nm names <-> offered vs nm) /\
    (names <> [] -> forall i x y u, (i < length (g_edges cfg) - 1)%nat -> 0 <= x < 517 -> 0 <= y < 517 ->
       prior fs0 (tiff_name (vo_out o) (vo_base o) i) 517 517 x y u ->
       exists c, counted (hit_counted (g_edges cfg) i x y) (concat (flat_map truth names)) c /\
         disk (v_files st) (tiff_name (vo_out o) (vo_base o) i) x y = Some ((u + c) mod 2 ^ 32)).
Proof. exact C95_hits_l. Qed.
Print Assumptions C95_hits.

Example C95_hits_instance : exists edges st,
  venus_main cex_ext (fun _ => None) rex_parse rex_conf (rex_args "hit")
    (rex_vs (length edges - 1) ++ [rex_stop]) vex_none = Ok (Some 0, st) /\
  forall i x y, (i < length edges - 1)%nat -> 0 <= x < 517 -> 0 <= y < 517 ->
    exists c, counted (hit_counted edges i x y) (concat hex_hits ++ concat hex_hits) c /\
      disk (v_files st) (tiff_name "out" "tof_image" i) x y = Some (c mod 2 ^ 32).
Proof.
  destruct (rex_configured "hit") as (edges & C & E). set (n := (length edges - 1)%nat).
  destruct (C95_hits cex_ext (fun _ => None) rex_parse rex_conf (rex_args "hit") (rex_opts "hit")
    (Config (AbsCfg (f_of_Z 5) 1 75) (f_of_Z 1) edges) (fun _ => hex_hits) (rex_vs n) rex_stop [] vex_none)
    as (st & names & M & ND & N & D).
  - apply rex_understood. auto.
  - exact C.
  - reflexivity.
  - exact E.
  - reflexivity.
  - apply rex_fit.
  - repeat constructor.
  - apply rex_quiet.
  - exact rex_stops.
  - apply rex_faithful.
  - exists edges, st. pose proof (rex_names n names ND N) as Pm. split; [exact M|].
    apply Permutation_length in Pm. destruct names as [|p [|q [|]]]; try discriminate Pm.
    intros i x y Hi Hx Hy. apply (D ltac:(discriminate) i x y 0 Hi Hx Hy).
    apply prior_none. intros w h r. discriminate.
Qed.

(** How the files are spread over the scans does not matter: two courses of the same
    run end with the same images.  (Not so for files that need the time packets of
    another one: C38_independent_of_scans_refuted.) *)
Theorem C95_any_scans : forall ext stoi parse conf args o cfg truth vs v rest vs' v' rest' fs0,
  understood_venus stoi args o -> configured_venus parse conf o cfg ->
  edges_ok (g_edges cfg) -> g_sr cfg = f_of_Z 1 ->
  images_fit fs0 (vo_out o) (vo_base o) (length (g_edges cfg) - 1) 517 ->
  Forall sound vs -> Forall (fun v => ~ visit_stops v) vs -> visit_stops v ->
  Forall sound vs' -> Forall (fun v => ~ visit_stops v) vs' -> visit_stops v' ->
  faithful (length (g_edges cfg) - 1) truth vs -> faithful (length (g_edges cfg) - 1) truth vs' ->
  (forall nm, offered vs nm <-> offered vs' nm) ->
  exists st st', venus_main ext stoi parse conf args (vs ++ v :: rest) fs0 = Ok (Some 0, st) /\
    venus_main ext stoi parse conf args (vs' ++ v' :: rest') fs0 = Ok (Some 0, st') /\
    forall i x y, (i < length (g_edges cfg) - 1)%nat -> 0 <= x < 517 -> 0 <= y < 517 ->
      disk (v_files st) (tiff_name (vo_out o) (vo_base o) i) x y =
      disk (v_files st') (tiff_name (vo_out o) (vo_base o) i) x y.
Proof. exact C95_any_scans_l. Qed.
Print Assumptions C95_any_scans.

Example C95_any_scans_instance : exists (edges : list f64) st st',
  venus_main cex_ext (fun _ => None) rex_parse rex_conf (rex_args "neutron")
    (rex_vs (length edges - 1) ++ [rex_stop]) vex_none = Ok (Some 0, st) /\
  venus_main cex_ext (fun _ => None) rex_parse rex_conf (rex_args "neutron")
    (rex_vs' (length edges - 1) ++ [rex_stop]) vex_none = Ok (Some 0, st') /\
  forall i x y, (i < length edges - 1)%nat -> 0 <= x < 517 -> 0 <= y < 517 ->
    disk (v_files st) (tiff_name "out" "tof_image" i) x y = disk (v_files st') (tiff_name "out" "tof_image" i) x y.
Proof.
  destruct (rex_configured "neutron") as (edges & C & E). exists edges. set (n := (length edges - 1)%nat).
  apply (C95_any_scans cex_ext (fun _ => None) rex_parse rex_conf (rex_args "neutron") (rex_opts "neutron")
    (Config (AbsCfg (f_of_Z 5) 1 75) (f_of_Z 1) edges) (fun _ => map x_hits eex)
    (rex_vs n) rex_stop [] (rex_vs' n) rex_stop [] vex_none).
  - apply rex_understood. auto.
  - exact C.
  - exact E.
  - reflexivity.
  - apply rex_fit.
  - repeat constructor.
  - apply rex_quiet.
  - exact rex_stops.
  - repeat constructor.
  - apply rex_quiet.
  - exact rex_stops.
  - apply rex_faithful.
  - apply rex_faithful'.
  - intros nm. rewrite rex_offered, rex_offered'. tauto.
Qed.
