(** Properties C70, C71 and C74: the program SophireadGUI.  Each theorem is
    followed by a concrete instance of its hypotheses. *)
From Coq Require Import Lia.
From Verif Require Import P_Gui.
Global Open Scope Z_scope.

(** The file with one pixel packet has one hit. *)
Lemma ex_one_pixel_hit : exists h, file_hits (one_pixel 100 200) [h] /\ h_spider h = 5234 /\ h_x h = 360 /\ h_y h = 200 /\ h_tot h = 77.
Proof.
  destruct (read_raw (Some (one_pixel 100 200))) as [hs| | |] eqn:E.
  2-4: exfalso; assert (B : (match read_raw (Some (one_pixel 100 200)) with Ok _ => true | _ => false end) = true) by (vm_compute; reflexivity);
    rewrite E in B; discriminate B.
  assert (P : (let! l := read_raw (Some (one_pixel 100 200)) in Ok (map (fun h => (h_spider h, h_x h, h_y h, h_tot h)) l)) = Ok [(5234, 360, 200, 77)])
    by (vm_compute; reflexivity).
  rewrite E in P. cbn [obind] in P. apply Ok_inj in P. destruct hs as [|h [|h' hs]]; try discriminate P.
  exists h. split; [apply file_hits_read; [apply one_pixel_ok|exact E]|]. injection P as P1 P2 P3 P4. auto.
Qed.
Lemma ex_session : exists g d, gui_run no_ext turn_back (gui_new, no_disk) [ARead (Chosen (Some (one_pixel 100 200)))] = Ok (g, d) /\
  zlen (u_events g) = 1 /\ u_image g = [512 * 363 + 193] /\ u_busy g = false.
Proof.
  destruct (run_project (gui_run no_ext turn_back (gui_new, no_disk) [ARead (Chosen (Some (one_pixel 100 200)))])
    (fun g => (zlen (u_events g), u_image g, u_busy g)) (1, [512 * 363 + 193], false)) as (g & d & E & P); [vm_compute; reflexivity|].
  exists g, d. split; [exact E|]. injection P as P1 P2 P3. auto.
Qed.
Lemma ex_usual : Forall usual_file (picked [ARead (Chosen (Some (one_pixel 100 200)))]).
Proof.
  constructor; [|constructor]. split; [apply one_pixel_ok|]. intros hs H. destruct ex_one_pixel_hit as (h & H' & S & _).
  apply file_hits_read in H; [|apply one_pixel_ok]. apply file_hits_read in H'; [|apply one_pixel_ok].
  rewrite H in H'. apply Ok_inj in H'. subst hs. constructor; [rewrite S; reflexivity|constructor].
Qed.

(** * C70: reading files and the image *)

(** C70: a file with hits gives exactly its events, and each event increments the
    pixel in which it falls; nothing else changes in the image. *)
Theorem C70_read : forall ext rot g m hs,
  u_busy g = false /\ o_method (u_abs g) = MCentroid -> bytes_ok m -> file_hits m hs -> hs <> [] -> early hs ->
  exists g' evs cs, gui_read ext rot g (Chosen (Some m)) = Ok g' /\
    (u_busy g' = false /\ o_method (u_abs g') = MCentroid) /\ hits_events hs evs /\
    u_events g' = evs /\ u_hits g' = i32 (zlen hs) /\ u_count g' = Some (i32 (zlen evs)) /\
    Forall2 (falls_in rot) evs cs /\
    u_image g' = u_image g ++ flat_map (fun c => match c with Some (i, j) => [512 * i + j] | None => [] end) cs.
Proof. exact C70_read_l. Qed.
Print Assumptions C70_read.
Example C70_read_instance : (u_busy gui_new = false /\ o_method (u_abs gui_new) = MCentroid) /\
  bytes_ok (one_pixel 100 200) /\ exists h, file_hits (one_pixel 100 200) [h] /\ [h] <> [] /\ early [h].
Proof.
  split; [split; reflexivity|]. split; [apply one_pixel_ok|]. destruct ex_one_pixel_hit as (h & H & S & _). exists h.
  split; [exact H|]. split; [discriminate|]. constructor; [rewrite S; reflexivity|constructor].
Qed.

(** C70: the events of a file are determined by its bytes. *)
Theorem C70_events_unique : forall m e e', bytes_ok m -> file_events m e -> file_events m e' -> e = e'.
Proof. exact file_events_unique. Qed.
Print Assumptions C70_events_unique.

(** C70: files of less than 2^18 hits are early enough. *)
Theorem C70_early : forall m hs, bytes_ok m -> file_hits m hs -> zlen hs < 2 ^ 18 -> early hs.
Proof. exact early_few_l. Qed.
Print Assumptions C70_early.

(** C70: no hit is lost: the events contain all the hits, if no hit has zero time
    over threshold. *)
Theorem C70_complete : forall m hs evs, bytes_ok m -> file_hits m hs -> hs <> [] -> early hs -> hits_events hs evs ->
  Forall (fun h => 0 < h_tot h) hs -> zlen hs <= 2 ^ 21 -> total_hits evs = zlen hs.
Proof. exact C70_complete_l. Qed.
Print Assumptions C70_complete.
Example C70_complete_instance : exists h, file_hits (one_pixel 100 200) [h] /\ early [h] /\ Forall (fun h => 0 < h_tot h) [h] /\ zlen [h] <= 2 ^ 21.
Proof.
  destruct ex_one_pixel_hit as (h & H & S & _ & _ & T). exists h. split; [exact H|].
  split; [constructor; [rewrite S; reflexivity|constructor]|]. split; [constructor; [rewrite T; reflexivity|constructor]|].
  unfold zlen. cbn. lia.
Qed.

(** C70: the files that are not read: without hits, cut in a packet, or not
    opened. *)
Theorem C70_no_hits : forall ext rot g m, u_busy g = false /\ o_method (u_abs g) = MCentroid -> bytes_ok m -> file_hits m [] ->
  gui_read ext rot g (Chosen (Some m)) = UB NullDeref.
Proof. exact C70_no_hits_l. Qed.
Print Assumptions C70_no_hits.
Theorem C70_cut : forall ext rot g m, u_busy g = false /\ o_method (u_abs g) = MCentroid -> bytes_ok m -> (forall hs, ~ file_hits m hs) ->
  gui_read ext rot g (Chosen (Some m)) = UB OutOfBounds.
Proof. exact C70_cut_l. Qed.
Print Assumptions C70_cut.
Theorem C70_unopened : forall ext rot g, u_busy g = false /\ o_method (u_abs g) = MCentroid ->
  gui_read ext rot g (Chosen None) = Throw RuntimeError.
Proof. exact C70_unopened_l. Qed.
Print Assumptions C70_unopened.
Example C70_not_read_instance :
  file_hits [] [] /\ gui_read no_ext turn_back gui_new (Chosen (Some [])) = UB NullDeref /\
  gui_read no_ext turn_back gui_new (Chosen (Some (firstn 12 (one_pixel 1 2)))) = UB OutOfBounds.
Proof.
  split; [apply file_hits_read; [constructor|vm_compute; reflexivity]|].
  split; [apply C70_no_hits_l; [split; reflexivity|constructor|apply file_hits_read; [constructor|vm_compute; reflexivity]]|].
  vm_compute. reflexivity.
Qed.

(** C70: after any sequence of actions the events are those of the last file and
    every pixel counts the events of all files that fall in it. *)
Theorem C70_session : forall ext rot d acts g' d', ~ In (ARead Cancelled) acts -> Forall usual_file (picked acts) ->
  gui_run ext rot (gui_new, d) acts = Ok (g', d') ->
  exists ms evss, picked acts = map Some ms /\ Forall2 file_events ms evss /\ u_events g' = last evss [] /\ u_busy g' = false /\
    forall i j, 0 <= i < 512 -> 0 <= j < 512 -> tally rot (concat evss) i j (times (512 * i + j) (u_image g')).
Proof. exact C70_session_l. Qed.
Print Assumptions C70_session.
Theorem C70_inside : forall ext rot d acts g' d', ~ In (ARead Cancelled) acts -> Forall usual_file (picked acts) ->
  gui_run ext rot (gui_new, d) acts = Ok (g', d') ->
  Forall (fun k => 0 <= k < 512 * 512) (u_image g') /\
  exists ms evss, picked acts = map Some ms /\ Forall2 file_events ms evss /\ zlen (u_image g') <= zlen (concat evss).
Proof. exact C70_inside_l. Qed.
Print Assumptions C70_inside.
Theorem C70_tally_unique : forall rot es i j n n', tally rot es i j n -> tally rot es i j n' -> n = n'.
Proof. exact tally_unique. Qed.
Print Assumptions C70_tally_unique.
Example C70_session_instance : ~ In (ARead Cancelled) [ARead (Chosen (Some (one_pixel 100 200)))] /\
  Forall usual_file (picked [ARead (Chosen (Some (one_pixel 100 200)))]) /\
  exists g d, gui_run no_ext turn_back (gui_new, no_disk) [ARead (Chosen (Some (one_pixel 100 200)))] = Ok (g, d) /\
    u_image g = [512 * 363 + 193].
Proof.
  split; [intros [H|[]]; discriminate H|]. split; [exact ex_usual|]. destruct ex_session as (g & d & E & _ & I & _). exists g, d. auto.
Qed.

(** C70 (refuted): the image shows the events of the last file.  Reading a file
    again doubles the counts. *)
Theorem C70_last_only_refuted : exists m acts g d, bytes_ok m /\ acts = [ARead (Chosen (Some m)); ARead (Chosen (Some m))] /\
  gui_run no_ext turn_back (gui_new, no_disk) acts = Ok (g, d) /\ zlen (u_events g) = 1 /\ times (512 * 363 + 193) (u_image g) = 2.
Proof. exact C70_last_only_refuted_l. Qed.
Print Assumptions C70_last_only_refuted.

(** C70 (refuted): every event is shown.  A hit of pixel (255, 0) of chip 0 is
    turned out of the image. *)
Theorem C70_all_visible_refuted : exists m g d, bytes_ok m /\
  gui_run no_ext turn_back (gui_new, no_disk) [ARead (Chosen (Some m))] = Ok (g, d) /\ zlen (u_events g) = 1 /\ u_image g = [].
Proof. exact C70_all_visible_refuted_l. Qed.
Print Assumptions C70_all_visible_refuted.

(** * C71: a cancelled dialog *)

(** C71 (finding): once a dialog for reading has been cancelled, no action changes
    anything any more. *)
Theorem C71_stuck : forall ext rot g d acts, u_busy g = true ->
  (gui_run ext rot (g, d) acts = Ok (g, d) /\ (u_count g <> None \/ ~ In ATick acts)) \/
  (gui_run ext rot (g, d) acts = UB Uninitialised /\ u_count g = None /\ In ATick acts).
Proof. exact C71_stuck_l. Qed.
Print Assumptions C71_stuck.
Theorem C71_when : forall ext rot acts g d g' d', u_busy g = false -> gui_run ext rot (g, d) acts = Ok (g', d') ->
  (u_busy g' = true <-> In (ARead Cancelled) acts).
Proof. exact C71_when_l. Qed.
Print Assumptions C71_when.

(** C71 (finding): if that is the first thing that happens, the timer shows a
    number that has never been set. *)
Theorem C71_uninitialised : forall ext rot d acts,
  gui_run ext rot (gui_new, d) (ARead Cancelled :: acts ++ [ATick]) = UB Uninitialised.
Proof. exact C71_first_l. Qed.
Print Assumptions C71_uninitialised.
Example C71_instance : exists g d, gui_run no_ext turn_back (gui_new, no_disk)
    [ARead (Chosen (Some (one_pixel 100 200))); ARead Cancelled; ATick; ARead (Chosen (Some (one_pixel 1 1)))] = Ok (g, d) /\
  u_busy g = true /\ u_image g = [512 * 363 + 193].
Proof.
  destruct (run_project (gui_run no_ext turn_back (gui_new, no_disk)
    [ARead (Chosen (Some (one_pixel 100 200))); ARead Cancelled; ATick; ARead (Chosen (Some (one_pixel 1 1)))])
    (fun g => (u_image g, u_busy g)) ([512 * 363 + 193], true)) as (g & d & E & P); [vm_compute; reflexivity|].
  exists g, d. injection P as P1 P2. auto.
Qed.

(** * C74: saving *)

(** C74: the image file has 512 rows of 512 doubles; column [i] of row [j] is the
    count of pixel [(i, j)]. *)
Theorem C74_image : forall g d name r d' h lib, u_busy g = false /\ o_method (u_abs g) = MCentroid ->
  gui_save g d (Saving (Some (name, true)) h lib) = (r, d') ->
  exists f, k_images d' name = Some f /\
    (forall i j, 0 <= i < 512 -> 0 <= j < 512 -> f (512 * j + i) = Some (times (512 * i + j) (u_image g))) /\
    (forall k, k < 0 \/ 512 * 512 <= k -> f k = None) /\
    (forall n, n <> name -> k_images d' n = k_images d n) /\
    (h = None -> r = Ok tt /\ k_h5 d' = k_h5 d).
Proof. exact C71_image_l. Qed.
Print Assumptions C74_image.

(** C74: the events are saved in the form of C72; without events an exception is
    thrown and the files stay as they are. *)
Theorem C74_events : forall g d name img, u_busy g = false /\ o_method (u_abs g) = MCentroid -> u_events g <> [] ->
  (forall n, img <> Some (n, false)) ->
  exists d' f gr, gui_save g d (Saving img (Some name) lib_works) = (Ok tt, d') /\ k_h5 d' name = Some f /\
    only_group f "events" ["x"; "y"; "tof_ns"; "NHits"; "tot"]%string gr /\
    In ("NHits"%string, Ints (map n_hits (u_events g))) gr /\
    (forall nm fld, event_doubles nm fld -> In (nm, Doubles (map fld (u_events g))) gr).
Proof. exact C71_events_l. Qed.
Print Assumptions C74_events.
Theorem C74_no_events : forall g d name img lib, u_busy g = false /\ o_method (u_abs g) = MCentroid -> u_events g = [] ->
  (forall n, img <> Some (n, false)) ->
  exists d', gui_save g d (Saving img (Some name) lib) = (Throw RuntimeError, d') /\ k_h5 d' = k_h5 d.
Proof. exact C71_no_events_l. Qed.
Print Assumptions C74_no_events.

(** C74 (finding): an image file that cannot be opened is written to. *)
Theorem C74_unopened : forall g d name h lib, u_busy g = false /\ o_method (u_abs g) = MCentroid ->
  gui_save g d (Saving (Some (name, false)) h lib) = (UB NullDeref, d).
Proof. exact C71_no_image_l. Qed.
Print Assumptions C74_unopened.
Example C74_instance : exists g d, gui_run no_ext turn_back (gui_new, no_disk) [ARead (Chosen (Some (one_pixel 100 200)))] = Ok (g, d) /\
  (u_busy g = false /\ o_method (u_abs g) = MCentroid) /\ u_events g <> [] /\
  exists f, k_images (snd (gui_save g d (Saving (Some ("a"%string, true)) None lib_works))) "a"%string = Some f /\
    f (512 * 193 + 363) = Some 1 /\ f 0 = Some 0.
Proof.
  destruct (run_project (gui_run no_ext turn_back (gui_new, no_disk) [ARead (Chosen (Some (one_pixel 100 200)))])
    (fun g => (zlen (u_events g), u_image g, u_busy g, o_method (u_abs g))) (1, [512 * 363 + 193], false, MCentroid)) as (g & d & E & P);
    [vm_compute; reflexivity|].
  exists g, d. split; [exact E|]. injection P as P1 P2 P3 P4. split; [auto|]. split; [intros Z; rewrite Z in P1; discriminate P1|].
  destruct (C71_image_l g d "a" _ _ None lib_works (conj P3 P4) (surjective_pairing _)) as (f & F & K & _). exists f. split; [exact F|].
  split; [rewrite (K 363 193) by lia; rewrite P2; reflexivity|]. change 0 with (512 * 0 + 0) at 1. rewrite (K 0 0) by lia. rewrite P2. reflexivity.
Qed.
