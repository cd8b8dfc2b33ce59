(** C83: the program of the auto reducer. *)
From Coq Require Import Permutation.
From Verif Require Import P_VenusMain Properties_Tpx3 Properties_Cli Properties_Tof Properties_Venus.
Local Open Scope Z_scope.
Local Open Scope string_scope.
Local Open Scope list_scope.

(** The settings of the examples of C38, as a configuration file and a command line. *)
Definition mex_json : json :=
  JObject [("tof_imaging", JObject [("bin_edges", JArray (map JFloat tex_edges)); ("super_resolution", JFloat tex_sr)])].
Definition mex_broken : json := JObject [("tof_imaging", JObject [("uniform_bins", JObject [("num_bins", JInt (-5))])])].
Definition mex_parse (s : string) : option json :=
  if String.eqb s "good" then Some mex_json else if String.eqb s "broken" then Some mex_broken else None.
Definition mex_conf (n : string) : source :=
  if String.eqb n "c.json" then Text "good" else if String.eqb n "b.json" then Text "broken" else NoFile.
Definition mex_args : list varg := [Vi "in"; Vo "out"; Vf "run"; Vm "hit"; Vu "c.json"].
Definition mex_opts : venus_options := VOpt "in" "out" "c.json" "run" "hit" 5 false false.
Definition mex_show (args : list varg) (vs : list visit) (x y : Z) :=
  let! (c, st) := venus_main cex_ext (fun _ => None) mex_parse mex_conf args vs vex_none in
  Ok (c, vex_events (v_log st), map (fun i => disk (v_files st) (tiff_name "out" "run" i) x y) [0%nat; 1%nat]).
Lemma mex_understood : understood_venus (fun _ => None) mex_args mex_opts.
Proof. apply C50_options. reflexivity. Qed.

(** C83: with options that are understood, a configuration that can be loaded and a
    directory that can be listed, the program is the monitoring of C38 and C39; it
    returns 0 if that stops and 1 if a file that cannot be opened ends it. *)
Theorem C83_runs : forall ext stoi parse conf args o cfg vs fs,
  understood_venus stoi args o -> configured_venus parse conf o cfg -> Forall sound vs ->
  venus_main ext stoi parse conf args vs fs =
    (let! (q, st) := monitor (setup_of ext o cfg) (map round_of vs) (venus_start fs) in Ok (code_of q, st)).
Proof. exact C83_runs_l. Qed.
Print Assumptions C83_runs.
Example C83_runs_instance :
  understood_venus (fun _ => None) mex_args mex_opts /\
  mex_show mex_args [Visit [] true [vex_a] true; Visit [] true [vex_a; vex_b] true;
                     Visit [("x.nxs.h5", true)] true [] true] 4 2 =
  Ok (Some 0, [("a.tpx3", Some 1); ("b.tpx3", Some 0)], [Some 1; Some 0]).
Proof. split; [exact mex_understood|]. vm_compute. reflexivity. Qed.

(** C83: while it runs, and however it ends, the images on disk are the sums of the
    images of the files saved so far, added to what was there before; other files
    are untouched. *)
Theorem C83_images : forall ext stoi parse conf args o cfg n d vs fs0 c st,
  understood_venus stoi args o -> configured_venus parse conf o cfg ->
  length (g_edges cfg) = S n -> (0 < n)%nat -> side (g_sr cfg) d -> 0 < d ->
  (forall i, (i < n)%nat -> saved fs0 (tiff_name (vo_out o) (vo_base o) i) d d \/
                            unrelated fs0 (tiff_name (vo_out o) (vo_base o) i) d d) ->
  (forall v e, In v vs -> In e (vs_scan v) -> good_world n (d_world e)) ->
  venus_main ext stoi parse conf args vs fs0 = Ok (c, st) ->
  (saved_images (v_log st) = [] -> v_files st = fs0) /\
  (saved_images (v_log st) <> [] -> forall i, (i < n)%nat ->
     saved (v_files st) (tiff_name (vo_out o) (vo_base o) i) d d /\
     forall x y u, 0 <= x < d -> 0 <= y < d -> prior fs0 (tiff_name (vo_out o) (vo_base o) i) d d x y u ->
       disk (v_files st) (tiff_name (vo_out o) (vo_base o) i) x y =
         Some ((u + stack_sum i x y (saved_images (v_log st))) mod 2 ^ 32)) /\
  (forall p, p <> spectra_name (vo_out o) (vo_base o) ->
     (forall i, (i < n)%nat -> p <> tiff_name (vo_out o) (vo_base o) i) -> v_files st p = fs0 p).
Proof. exact C83_images_l. Qed.
Print Assumptions C83_images.
Example C83_images_instance :
  mex_show mex_args [Visit [] true [vex_a; vex_b; vex_file "c.tpx3" (stream [ex_ds1]) vex_world] false] 4 2 =
  Ok (Some 1, [("a.tpx3", Some 1); ("b.tpx3", Some 1); ("c.tpx3", Some 2)], [Some 3; Some 0]).
Proof. vm_compute. reflexivity. Qed.

(** C83: the program returns 0 exactly if a check sees a *.nxs.h5 file; nothing is
    worked on after that. *)
Theorem C83_exit_zero : forall ext stoi parse conf args vs fs st,
  venus_main ext stoi parse conf args vs fs = Ok (Some 0, st) ->
  (exists o, understood_venus stoi args o) /\
  exists vs1 v vs2, vs = vs1 ++ v :: vs2 /\ visit_stops v /\
    (forall v', In v' vs1 -> ~ visit_stops v' /\ sound v') /\
    venus_main ext stoi parse conf args vs1 fs = Ok (None, st).
Proof. exact C83_zero_l. Qed.
Print Assumptions C83_exit_zero.
Theorem C83_stops : forall ext stoi parse conf args vs1 v vs2 fs st,
  venus_main ext stoi parse conf args vs1 fs = Ok (None, st) -> visit_stops v ->
  venus_main ext stoi parse conf args (vs1 ++ v :: vs2) fs = Ok (Some 0, st).
Proof. exact C83_stops_l. Qed.
Print Assumptions C83_stops.
(** Also if the directory cannot be listed to its end. *)
Example C83_stops_instance :
  mex_show mex_args [Visit [] true [vex_a] true; Visit [("a.tpx3", true); ("x.nxs.h5", true)] false [vex_b] true] 4 2 =
  Ok (Some 0, [("a.tpx3", Some 1)], [Some 1; Some 0]).
Proof. vm_compute. reflexivity. Qed.

(** C83: the program returns 0 or 1 or goes on; it returns 1 for a command line that
    is not understood, a configuration that cannot be loaded, a directory that cannot
    be listed, and a raw file that cannot be opened, and for nothing else. *)
Theorem C83_codes : forall ext stoi parse conf args vs fs c st,
  venus_main ext stoi parse conf args vs fs = Ok (c, st) ->
  c = None \/ c = Some 0 \/
  (c = Some 1 /\
    ((forall o, ~ understood_venus stoi args o) \/
     (exists o t, understood_venus stoi args o /\ load_venus_config parse (vo_config o) (conf (vo_config o)) = Throw t) \/
     (exists v, In v vs /\ ~ sound v) \/
     (exists v e, In v vs /\ In e (vs_scan v) /\ raw_file e /\ d_content e = None))).
Proof. exact C83_codes_l. Qed.
Print Assumptions C83_codes.

(** C83: no exception leaves the program. *)
Theorem C83_catches : forall ext stoi parse conf args vs fs t, venus_main ext stoi parse conf args vs fs <> Throw t.
Proof. exact C83_catches_l. Qed.
Print Assumptions C83_catches.

(** C83: a command line that is not understood, or a configuration file that is
    missing, cannot be opened or is no JSON, gives 1 before anything is done. *)
Theorem C83_refused : forall ext stoi parse conf args vs fs,
  (forall o, ~ understood_venus stoi args o) \/
  (exists o, understood_venus stoi args o /\ no_json parse conf o) ->
  venus_main ext stoi parse conf args vs fs = Ok (Some 1, venus_start fs).
Proof. exact C83_refused_l. Qed.
Print Assumptions C83_refused.
Example C83_refused_instance :
  mex_show [Vi "in"; Vo "out"; Vm "x"] [Visit [] true [vex_a] true] 0 0 = Ok (Some 1, [], [None; None]) /\
  mex_show [Vi "in"; Vo "out"; Vu "c.ini"] [Visit [] true [vex_a] true] 0 0 = Ok (Some 1, [], [None; None]).
Proof. split; vm_compute; reflexivity. Qed.

(** C83, finding: a directory that cannot be listed once (such as a network drive
    that is away for a moment) ends the program with code 1; files that were handled
    before that in the same round are on disk. *)
Theorem C83_lost_directory : forall ext stoi parse conf args vs1 v vs2 fs st,
  venus_main ext stoi parse conf args vs1 fs = Ok (None, st) -> ~ visit_stops v ->
  (vs_check_ok v = false -> venus_main ext stoi parse conf args (vs1 ++ v :: vs2) fs = Ok (Some 1, st)) /\
  (vs_check_ok v = true -> vs_scan_ok v = false -> forall st',
     venus_main ext stoi parse conf args (vs1 ++ [Visit (vs_check v) true (vs_scan v) true]) fs = Ok (None, st') ->
     venus_main ext stoi parse conf args (vs1 ++ v :: vs2) fs = Ok (Some 1, st')).
Proof. exact C83_lost_directory_l. Qed.
Print Assumptions C83_lost_directory.
Example C83_lost_directory_instance :
  mex_show mex_args [Visit [] true [vex_a] true; Visit [] false [vex_b] true; Visit [] true [vex_b] true] 4 2 =
  Ok (Some 1, [("a.tpx3", Some 1)], [Some 1; Some 0]).
Proof. vm_compute. reflexivity. Qed.

(** C83, finding: if the bin edges of an accepted configuration cannot be made,
    nothing is ever saved and the program goes on as if all were well. *)
Theorem C83_no_edges : forall ext stoi parse conf args o e t vs fs c st,
  understood_venus stoi args o -> venus_prefs parse (vo_config o) (conf (vo_config o)) = Ok e ->
  get_bin_edges (e_bins e) = Throw t -> venus_main ext stoi parse conf args vs fs = Ok (c, st) ->
  v_files st = fs /\ saved_images (v_log st) = [].
Proof. exact C83_no_edges_l. Qed.
Print Assumptions C83_no_edges.
Example C83_no_edges_instance :
  mex_show [Vi "in"; Vo "out"; Vf "run"; Vu "b.json"]
    [Visit [] true [vex_a] true; Visit [] true [vex_a; vex_b] true] 4 2 =
  Ok (None, [("a.tpx3", None); ("a.tpx3", None); ("b.tpx3", None)], [None; None]).
Proof. vm_compute. reflexivity. Qed.
