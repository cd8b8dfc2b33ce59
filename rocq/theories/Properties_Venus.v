(** Properties C38, C39 and C50: the auto reducer.  Each theorem is followed by a
    concrete instance of its hypotheses. *)
From Coq Require Import Permutation.
From Verif Require Import P_VenusImages Properties_Tpx3 Properties_Cli Properties_Tof.
Global Open Scope Z_scope.
Local Open Scope string_scope.
Local Open Scope list_scope.

(** * Concrete data: two files, hit mode, three bins of 5 x 5 pixels *)
Definition vex_su : setup :=
  Setup cex_ext (Config (AbsCfg (f_of_Z 5) 1 75) tex_sr tex_edges) true "out" "run".
Definition vex_world : world := World true (fun _ => true) [0%nat; 2%nat; 1%nat] None.
Definition vex_fault : world := World true (fun _ => true) [] (Some [2%nat; 0%nat]).
Definition vex_file (n : string) (m : list Z) (w : world) : dir_entry := DirEntry n true (Some m) w.
Definition vex_a := vex_file "a.tpx3" (stream [ex_ds1]) vex_world.
Definition vex_a' := vex_file "a.tpx3" (stream [ex_ds1]) vex_fault.
Definition vex_b := vex_file "b.tpx3" (stream [ex_ds2]) vex_world.
Definition vex_none : files := fun _ => None.
Definition vex_events (log : list event) : list (string * option Z) :=
  map (fun ev => match ev with Saved n ims => (n, Some (total ims)) | Failed n => (n, None) end) log.
(** Status, events with the number of counts, and one pixel of bins 0 and 1. *)
Definition vex_show (rs : list round) (x y : Z) :=
  let! (q, st) := monitor vex_su rs (venus_start vex_none) in
  Ok (q, vex_events (v_log st),
      map (fun i => disk (v_files st) (tiff_name "out" "run" i) x y) [0%nat; 1%nat]).
Lemma vex_good : good_world 3 vex_world.
Proof.
  split; [reflexivity|]. split; [reflexivity|]. split; [|reflexivity]. cbn [w_order vex_world seq].
  apply perm_skip. apply perm_swap.
Qed.
Lemma vex_raw n m w : raw_name n -> raw_file (vex_file n m w).
Proof. intros H. split; [reflexivity|exact H]. Qed.
Lemma vex_raw_a : raw_name "a.tpx3". Proof. exists "a". split; [discriminate|reflexivity]. Qed.

(** * C38: files and images *)

(** C38: a file that was saved is not worked on again. *)
Theorem C38_at_most_once : forall su rs fs q st, monitor su rs (venus_start fs) = Ok (q, st) ->
  forall l1 n ims l2, v_log st = l1 ++ Saved n ims :: l2 -> ~ In n (map ev_name l2).
Proof. exact C38_once_l. Qed.
Print Assumptions C38_at_most_once.
Example C38_at_most_once_instance :
  vex_show [Round [] [vex_a]; Round [] [vex_a; vex_b]; Round [] [vex_b; vex_a]] 4 2 =
  Ok (Running, [("a.tpx3", Some 1); ("b.tpx3", Some 0)], [Some 1; Some 0]).
Proof. vm_compute. reflexivity. Qed.
(** A file that was still growing when it was read is not completed later. *)
Example C38_growing_file_instance :
  vex_show [Round [] [vex_file "a.tpx3" (firstn 16 (stream [ex_ds1])) vex_world]; Round [] [vex_a]] 4 2 =
  Ok (Running, [("a.tpx3", Some 0)], [Some 0; Some 0]).
Proof. vm_compute. reflexivity. Qed.

(** C38: a scan that completes works on exactly the regular files named *.tpx3
    that were not saved before, in the order of the directory, each once; the
    timestamps run from file to file, starting at zero. *)
Theorem C38_every_file : forall su rs r fs st', NoDup (map d_name (rd_scan r)) ->
  monitor su (rs ++ [r]) (venus_start fs) = Ok (Running, st') ->
  exists st due new, monitor su rs (venus_start fs) = Ok (Running, st) /\
    sublist (fun e => raw_file e /\ ~ was_saved (v_log st) (d_name e)) (rd_scan r) due /\
    v_log st' = v_log st ++ new /\ map ev_name new = map d_name due /\ worked_on su ts0 due new.
Proof. exact C38_offered_l. Qed.
Print Assumptions C38_every_file.
Example C38_every_file_instance :
  vex_show [Round [] [vex_a'; DirEntry "c.tpx3" false None vex_world; vex_file "tpx3" [] vex_world;
                      vex_file ".tpx3" [] vex_world]; Round [] [vex_a; vex_b]] 4 2 =
  Ok (Running, [("a.tpx3", None); ("a.tpx3", Some 1); ("b.tpx3", Some 1)], [Some 2; Some 0]).
Proof. vm_compute. reflexivity. Qed.

(** C38: when nothing interferes with saving, the images on disk are at all times
    the sums of the images of the files saved so far, modulo 2^32, added to what
    was there at the beginning; other files are untouched. *)
Theorem C38_images : forall su n d fs0 rs q st,
  length (g_edges (su_cfg su)) = S n -> (0 < n)%nat -> side (g_sr (su_cfg su)) d -> 0 < d ->
  (forall i, (i < n)%nat -> saved fs0 (tiff_name (su_dir su) (su_base su) i) d d \/
                            unrelated fs0 (tiff_name (su_dir su) (su_base su) i) d d) ->
  (forall r e, In r rs -> In e (rd_scan r) -> good_world n (d_world e)) ->
  monitor su rs (venus_start fs0) = Ok (q, st) ->
  (saved_images (v_log st) = [] -> v_files st = fs0) /\
  (saved_images (v_log st) <> [] -> forall i, (i < n)%nat ->
     saved (v_files st) (tiff_name (su_dir su) (su_base su) i) d d /\
     forall x y u, 0 <= x < d -> 0 <= y < d -> prior fs0 (tiff_name (su_dir su) (su_base su) i) d d x y u ->
       disk (v_files st) (tiff_name (su_dir su) (su_base su) i) x y =
         Some ((u + stack_sum i x y (saved_images (v_log st))) mod 2 ^ 32)) /\
  (forall p, p <> spectra_name (su_dir su) (su_base su) ->
     (forall i, (i < n)%nat -> p <> tiff_name (su_dir su) (su_base su) i) -> v_files st p = fs0 p).
Proof. exact C38_images_l. Qed.
Print Assumptions C38_images.
Example C38_images_instance :
  length (g_edges (su_cfg vex_su)) = 4%nat /\ side (g_sr (su_cfg vex_su)) 5 /\ good_world 3 vex_world /\
  vex_show [Round [] [vex_a; vex_b; vex_file "c.tpx3" (stream [ex_ds1]) vex_world]] 4 2 =
  Ok (Running, [("a.tpx3", Some 1); ("b.tpx3", Some 1); ("c.tpx3", Some 2)], [Some 3; Some 0]).
Proof.
  split; [reflexivity|]. split; [exact tex_side|]. split; [exact vex_good|]. vm_compute. reflexivity.
Qed.

(** C38, finding: when an exception interrupts saving, the file is worked on again
    in the next scan and the bins that were written the first time count it
    twice. *)
Theorem C38_retry_counts_twice : forall su n d fs0 e1 e2 m ims s' done st,
  length (g_edges (su_cfg su)) = S n -> (0 < n)%nat -> side (g_sr (su_cfg su)) d -> 0 < d ->
  (forall i, (i < n)%nat -> saved fs0 (tiff_name (su_dir su) (su_base su) i) d d \/
                            unrelated fs0 (tiff_name (su_dir su) (su_base su) i) d d) ->
  d_name e1 = d_name e2 -> raw_file e1 -> raw_file e2 -> d_content e1 = Some m -> d_content e2 = Some m ->
  file_images su m ts0 ims s' -> shape n d ims ->
  w_mkdir (d_world e1) = true -> (forall p, w_writable (d_world e1) p = true) ->
  w_fault (d_world e1) = Some done -> NoDup done -> (forall i, In i done -> (i < n)%nat) ->
  good_world n (d_world e2) ->
  monitor su [Round [] [e1]; Round [] [e2]] (venus_start fs0) = Ok (Running, st) ->
  v_log st = [Failed (d_name e1); Saved (d_name e1) ims] /\
  forall i x y u v, (i < n)%nat -> pixel ims i x y = Some v ->
    prior fs0 (tiff_name (su_dir su) (su_base su) i) d d x y u ->
    (In i done -> disk (v_files st) (tiff_name (su_dir su) (su_base su) i) x y = Some ((u + 2 * v) mod 2 ^ 32)) /\
    (~ In i done -> disk (v_files st) (tiff_name (su_dir su) (su_base su) i) x y = Some ((u + v) mod 2 ^ 32)).
Proof. exact C38_retry_l. Qed.
Print Assumptions C38_retry_counts_twice.
Example C38_retry_instance :
  vex_show [Round [] [vex_a']; Round [] [vex_a]] 4 2 =
  Ok (Running, [("a.tpx3", None); ("a.tpx3", Some 1)], [Some 2; Some 0]).
Proof. vm_compute. reflexivity. Qed.

(** C38, finding: the images depend on how the files are spread over the scans,
    because the timestamps of a file reach the next file of the same scan only. *)
Theorem C38_independent_of_scans_refuted : exists su n d e1 e2 fs p x y v1 v2,
  length (g_edges (su_cfg su)) = S n /\ side (g_sr (su_cfg su)) d /\ fs = (fun _ => None) /\
  raw_file e1 /\ raw_file e2 /\ d_name e1 <> d_name e2 /\
  good_world n (d_world e1) /\ good_world n (d_world e2) /\
  (let! (q, st) := monitor su [Round [] [e1; e2]] (venus_start fs) in Ok (q, disk (v_files st) p x y)) =
    Ok (Running, Some v1) /\
  (let! (q, st) := monitor su [Round [] [e1]; Round [] [e1; e2]] (venus_start fs) in
   Ok (q, disk (v_files st) p x y)) = Ok (Running, Some v2) /\ v1 <> v2.
Proof.
  exists vex_su, 3%nat, 5, vex_a, vex_b, vex_none, "out/run_bin_0001.tiff", 2, 3, 1, 0.
  split; [reflexivity|]. split; [exact tex_side|]. split; [reflexivity|].
  split; [apply vex_raw; exact vex_raw_a|].
  split; [apply vex_raw; exists "b"; split; [discriminate|reflexivity]|]. split; [discriminate|].
  split; [exact vex_good|]. split; [exact vex_good|].
  split; [vm_compute; reflexivity|]. split; [vm_compute; reflexivity|discriminate].
Qed.
Print Assumptions C38_independent_of_scans_refuted.

(** C38, finding: a raw file without any dataset header (such as an empty file that
    the data acquisition just created) makes saving read before the first image
    (undefined behaviour). *)
Theorem C38_no_header_undefined : forall su rs r fs st e es m,
  monitor su rs (venus_start fs) = Ok (Running, st) -> ~ stops r ->
  rd_scan r = e :: es -> raw_file e -> ~ was_saved (v_log st) (d_name e) ->
  d_content e = Some m -> bytes_ok m -> (forall off p, ~ header_at m off p) ->
  (2 <= length (g_edges (su_cfg su)))%nat -> good_world (length (g_edges (su_cfg su)) - 1) (d_world e) ->
  monitor su (rs ++ [r]) (venus_start fs) = UB OutOfBounds.
Proof. exact C38_no_header_l. Qed.
Print Assumptions C38_no_header_undefined.
Example C38_no_header_instance :
  vex_show [Round [] [vex_a]; Round [("a.tpx3", true)] [vex_file "new.tpx3" [] vex_world; vex_a]] 0 0 =
  UB OutOfBounds.
Proof. vm_compute. reflexivity. Qed.

(** C38, finding: a raw file that cannot be opened ends the whole program; files
    after it are not looked at. *)
Theorem C38_unreadable_exits : forall su rs r rs' fs st e es,
  monitor su rs (venus_start fs) = Ok (Running, st) -> ~ stops r ->
  rd_scan r = e :: es -> raw_file e -> ~ was_saved (v_log st) (d_name e) -> d_content e = None ->
  monitor su (rs ++ r :: rs') (venus_start fs) = Ok (Exited, st).
Proof. exact C38_exit_l. Qed.
Print Assumptions C38_unreadable_exits.
Example C38_unreadable_instance :
  vex_show [Round [] [vex_a]; Round [] [DirEntry "b.tpx3" true None vex_world; vex_b]; Round [] [vex_b]] 4 2 =
  Ok (Exited, [("a.tpx3", Some 1)], [Some 1; Some 0]).
Proof. vm_compute. reflexivity. Qed.

(** C38, finding: when no image file can be written, the file still counts as
    done: nothing is on disk and it is never worked on again. *)
Theorem C38_unwritable_forgotten_refuted : exists su e,
  raw_file e /\ w_mkdir (d_world e) = true /\ w_fault (d_world e) = None /\
  (let! (q, st) := monitor su [Round [] [e]; Round [] [vex_a]] (venus_start (fun _ => None)) in
   Ok (q, map ev_name (v_log st),
       map (fun i => v_files st (tiff_name (su_dir su) (su_base su) i)) (seq 0 3))) =
  Ok (Running, [d_name e], [None; None; None]) /\ d_name e = d_name vex_a.
Proof.
  exists vex_su, (vex_file "a.tpx3" (stream [ex_ds1]) (World true (fun _ => false) [0%nat; 1%nat; 2%nat] None)).
  split; [apply vex_raw; exact vex_raw_a|]. split; [reflexivity|]. split; [reflexivity|].
  split; [vm_compute; reflexivity|reflexivity].
Qed.
Print Assumptions C38_unwritable_forgotten_refuted.

(** * C39: end of the run *)

(** C39: as soon as a check sees a regular file named *.nxs.h5 the reducer stops,
    without working on anything that appeared since the last scan. *)
Theorem C39_stops : forall su rs r rs' fs st, monitor su rs (venus_start fs) = Ok (Running, st) -> stops r ->
  monitor su (rs ++ r :: rs') (venus_start fs) = Ok (Stopped, st).
Proof. exact C39_l. Qed.
Print Assumptions C39_stops.
Example C39_stops_instance :
  vex_show [Round [] [vex_a]; Round [("a.tpx3", true); ("run.nxs.h5", true)] [vex_b]; Round [] [vex_b]] 4 2 =
  Ok (Stopped, [("a.tpx3", Some 1)], [Some 1; Some 0]).
Proof. vm_compute. reflexivity. Qed.

(** C39: it stops for no other reason. *)
Theorem C39_only : forall su rs fs st, monitor su rs (venus_start fs) = Ok (Stopped, st) ->
  exists rs1 r rs2, rs = rs1 ++ r :: rs2 /\ stops r /\ (forall r', In r' rs1 -> ~ stops r') /\
    monitor su rs1 (venus_start fs) = Ok (Running, st).
Proof. exact C39_only_l. Qed.
Print Assumptions C39_only.
Example C39_only_instance :
  vex_show [Round [(".nxs.h5", true); ("x.nxs.h5", false); ("x.h5", true); ("x.nxs.h5.part", true)] [vex_a]] 4 2 =
  Ok (Running, [("a.tpx3", Some 1)], [Some 1; Some 0]).
Proof. vm_compute. reflexivity. Qed.

(** * C50: the command line *)

(** C50: the command line is accepted exactly if every option is known, every -c
    argument is a number, the last -i and -o arguments are non-empty, the last -m
    argument is hit or neutron and the last -c argument is positive; the options
    are then the last arguments given, or the defaults. *)
Theorem C50_options : forall stoi args o, parse_venus stoi args = Ok o <->
  acceptable_venus stoi args /\ read_venus_options stoi args o /\ valid_venus_options o.
Proof. exact C50_l. Qed.
Print Assumptions C50_options.
(** C50: all other command lines are refused by an exception. *)
Theorem C50_refused : forall stoi args,
  (exists o, parse_venus stoi args = Ok o) \/ exists e, parse_venus stoi args = Throw e.
Proof. exact C50_refused_l. Qed.
Print Assumptions C50_refused.
Example C50_instance :
  parse_venus (fun s => if String.eqb s "7" then Some 7 else None)
    [Vi "a"; Vo "out"; Vm "x"; Vc "7"; Vi "b"; Vm "hit"; Vd] =
    Ok (VOpt "b" "out" "" "tof_image" "hit" 7 false true) /\
  parse_venus (fun s => Some 0) [Vi "a"; Vo "out"; Vc "0"] = Throw RuntimeError /\
  parse_venus (fun s => None) [Vi "a"; Vo "out"; Vc "x"; Vbad] = Throw ExternalError.
Proof. repeat split; vm_compute; reflexivity. Qed.
