(** Property C101: the converter of the manufacturer and the GDC extractor tell
    the true times.  Each theorem is followed by a concrete instance. *)
From Coq Require Import Reals Lia.
From Verif Require Import S_Told P_Told P_MeasureHist.
From Verif Require Import Properties_Tpx3 Properties_Cli Properties_Measure Properties_Cam.
Local Open Scope Z_scope.
Local Open Scope list_scope.

Lemma tex_not_first : ~ global_first (tagged cex_ds).
Proof.
  intros (pre & c & p & post & E & K & N).
  destruct pre as [|q pre]; cbn in E.
  - injection E as _ E _. subst p. vm_compute in K. discriminate.
  - injection E as E _. subst q. inversion N as [|? ? X _]; subst. vm_compute in X. discriminate.
Qed.

(** The converter: of any recording (also one in which pixels fire before the
    first reference) there is one line for every pixel packet, and the lines after
    those of the early pixels are the true hits. *)
Theorem C101_cam : forall near early ds hss k, Forall dataset_ok ds ->
  recording near early nothing_known ds hss k -> ~ global_first (tagged ds) ->
  exists ls n before told, cam_convert (Some (stream ds)) = Ok (ls, n) /\
    filter pixel_line ls = before ++ told /\ Forall2 tells (concat hss) told /\
    length (before ++ told) = length (filter (fun q => pixel_kind (snd q)) (tagged ds)).
Proof. exact C101_cam_l. Qed.
Print Assumptions C101_cam.
Example C101_cam_instance :
  (exists ls n before told, cam_convert (Some (stream cex_ds)) = Ok (ls, n) /\
     filter pixel_line ls = before ++ told /\ Forall2 tells (concat mex_hits) told /\ length (before ++ told) = 4%nat) /\
  (let! r := cam_convert (Some (stream cex_ds)) in Ok (map to_ints (filter pixel_line (fst r)))) =
  Ok [(Some 1308656250, [360; 200; 1925]); (Some 1308656250, [360; 200; 1925]);
      (Some 4682390625, [252; 511; 2200]); (Some 1308656250, [155; 315; 1925])].
Proof. split; [exact (C101_cam _ _ _ _ _ (proj1 cex_ok) mex_recording tex_not_first)|]. vm_compute. reflexivity. Qed.

(** Finding: any other recording - one that starts with a reference, as the times
    of pulses and hits are only known after it - makes it use a variable that
    is not set. *)
Theorem C101_cam_undefined : forall near ds hss k, Forall dataset_ok ds ->
  recording near false nothing_known ds hss k -> concat hss <> [] ->
  cam_convert (Some (stream ds)) = UB Uninitialised.
Proof. exact C101_cam_undefined_l. Qed.
Print Assumptions C101_cam_undefined.
Example C101_cam_undefined_instance : cam_convert (Some (stream (map dataset_of hex))) = UB Uninitialised.
Proof.
  destruct (histories_recording early_run None None hex hex_hits) as [O (k & R)].
  - apply hex_histories. intros t H. unfold early_run. repeat (destruct H as [<-|H]; [lia|]). destruct H.
  - exact (C101_cam_undefined _ _ _ k O R ltac:(discriminate)).
Qed.

(** The extractor, the file in one chunk: its table has a line for each time packet
    of the file, in this order, with the chip, the true time and the time in ns. *)
Theorem C101_gdc : forall ds cgs a rest c fuel, Forall dataset_ok ds -> Forall no_false_header ds -> Forall plain_header ds ->
  ds <> [] -> references None ds cgs a -> (length rest < 8)%nat -> zlen (stream ds ++ rest) < 2 ^ 64 ->
  (length (words_of ds) <= c)%nat -> (length (stream ds ++ rest) <= fuel)%nat ->
  exists rows, gdc_process fuel true (Some (stream ds ++ rest)) (8 * Z.of_nat c) = Ok (Some rows) /\
    map (fun r => (row_chip r, row_value r)) rows = cgs /\ Forall (fun r => row_ns r = 25 * row_value r) rows.
Proof. exact C101_table_l. Qed.
Print Assumptions C101_gdc.

(** In smaller chunks every line is one of these. *)
Theorem C101_gdc_chunks : forall ds cgs a rest c fuel rows, Forall dataset_ok ds -> Forall no_false_header ds ->
  Forall plain_header ds -> ds <> [] -> references None ds cgs a -> (length rest < 8)%nat -> zlen (stream ds ++ rest) < 2 ^ 64 ->
  (0 < c)%nat -> (length (stream ds ++ rest) <= fuel)%nat ->
  gdc_process fuel true (Some (stream ds ++ rest)) (8 * Z.of_nat c) = Ok (Some rows) ->
  Forall (fun r => In (row_chip r, row_value r) cgs /\ row_ns r = 25 * row_value r) rows.
Proof. exact C101_chunks_l. Qed.
Print Assumptions C101_gdc_chunks.

(** The time packets of every recording can be read so. *)
Theorem C101_recording : forall near early k ds hss k', recording near early k ds hss k' ->
  exists cgs, references (k_announced k) ds cgs (k_announced k').
Proof. exact C101_recorded_l. Qed.
Print Assumptions C101_recording.
Example C101_gdc_instance :
  Forall plain_header cex_ds /\ references None cex_ds [(0, 2 ^ 32 + 1000)] None /\
  (exists rows, gdc_process 100 true (Some (stream cex_ds)) 72 = Ok (Some rows) /\
     map (fun r => (row_chip r, row_value r)) rows = [(0, 2 ^ 32 + 1000)] /\ Forall (fun r => row_ns r = 25 * row_value r) rows) /\
  gdc_process 100 true (Some (stream cex_ds)) 24 = Ok (Some []).
Proof.
  assert (P : Forall plain_header cex_ds) by (repeat constructor).
  assert (R : references None cex_ds [(0, 2 ^ 32 + 1000)] None).
  { apply (rs_cons None ex_ds1 [ex_ds2] [2 ^ 32 + 1000] None).
    - unfold ex_ds1. cbn [d_payload]. apply rf_other; [vm_compute; discriminate|vm_compute; discriminate|].
      apply (rf_low _ (2 ^ 32 + 1000)); [vm_compute; reflexivity|lia|vm_compute; reflexivity|].
      apply rf_high; [vm_compute; reflexivity|vm_compute; reflexivity|].
      repeat (apply rf_other; [vm_compute; discriminate|vm_compute; discriminate|]). apply rf_nil.
    - apply (rs_cons None ex_ds2 [] [] None); [|apply rs_nil]. unfold ex_ds2. cbn [d_payload].
      repeat (apply rf_other; [vm_compute; discriminate|vm_compute; discriminate|]). apply rf_nil. }
  split; [exact P|]. split; [exact R|]. split; [|vm_compute; reflexivity].
  assert (X := C101_gdc cex_ds _ None [] 9 100 (proj1 cex_ok) (proj2 cex_ok) P ltac:(discriminate) R). rewrite app_nil_r in X.
  apply X; vm_compute; try reflexivity; repeat constructor.
Qed.

(** A history told in packets: the table has the reference times of the history. *)
Theorem C101_gdc_history : forall near g T xs hss c fuel, histories near g T xs hss ->
  Forall no_false_header (map dataset_of xs) -> Forall (fun x => fst (fst (fst x)) = 51) xs -> xs <> [] ->
  zlen (stream (map dataset_of xs)) < 2 ^ 64 ->
  (length (words_of (map dataset_of xs)) <= c)%nat -> (length (stream (map dataset_of xs)) <= fuel)%nat ->
  exists rows, gdc_process fuel true (Some (stream (map dataset_of xs))) (8 * Z.of_nat c) = Ok (Some rows) /\
    map (fun r => (row_chip r, row_value r)) rows = flat_map acts_refs xs /\ Forall (fun r => row_ns r = 25 * row_value r) rows.
Proof. exact C101_gdc_history_l. Qed.
Print Assumptions C101_gdc_history.
Example C101_gdc_history_instance :
  exists rows, gdc_process 100 true (Some (stream (map dataset_of hex))) (8 * Z.of_nat 12) = Ok (Some rows) /\
    map (fun r => (row_chip r, row_value r)) rows = [(0, 1000)] /\ Forall (fun r => row_ns r = 25 * row_value r) rows.
Proof.
  assert (H : histories early_run None None hex hex_hits).
  { apply hex_histories. intros t H. unfold early_run. repeat (destruct H as [<-|H]; [lia|]). destruct H. }
  apply (C101_gdc_history _ _ _ _ _ 12 100 H).
  - repeat constructor; vm_compute; intuition discriminate.
  - repeat constructor.
  - discriminate.
  - vm_compute; reflexivity.
  - vm_compute; repeat constructor.
  - vm_compute; repeat constructor.
Qed.
