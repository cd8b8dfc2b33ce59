(** Property C79: sessions of sophiread_display.  Each theorem is followed by a
    concrete instance of its hypotheses. *)
From Coq Require Import Lia.
From Verif Require Import P_DisplayWin Properties_Display.
Global Open Scope Z_scope.

(** * Concrete data used by the instances *)

(** A file with eleven hits in one place and 127 hits at other times. *)
Definition ex_show : list Z :=
  stream (DS 51 3 0 (repeat (pixel_packet (PF 11 20 30 100 9 3 0)) 11) ::
          map (fun n => DS 51 3 0 [pixel_packet (PF 11 253 200 (1000 + 10 * Z.of_nat n) 9 3 0)]) (seq 1 127)).
Lemma ex_show_ok : bytes_ok ex_show.
Proof.
  assert (H : forallb (fun b => (0 <=? b) && (b <? 256)) ex_show = true) by (vm_compute; reflexivity).
  rewrite forallb_forall in H. apply Forall_forall. intros b Hb. specialize (H b Hb). unfold is_byte. lia.
Qed.
Definition ex_disk : wdisk := fun _ => None.

(** * C79: sessions *)

(** C79: whatever has happened before, data that are saved while nothing is read
    are those of the last file of which reading was started: the image shows the
    clusters of all its hits but at most the last 4095, the spectrum all of its
    histogram entries; before any file has been read the image is empty and the
    spectrum indeterminate.  Other files are not changed. *)
Theorem C79_saved : forall rot l w d d0 img tof w' d', rotation_ok rot -> real_files l ->
  wsteps rot (win_new, d0) l (Ok (w, d)) -> d_busy w = false ->
  wstep rot (w, d) (LSave img tof) (Ok (w', d')) ->
  exists pixels entries label, outcome_of rot (last_read l) pixels entries label /\
    w' = w /\ d_label w = label /\
    (forall n b, tof = Some (n, b) -> exists f, d' n = Some f /\ shows_spectrum entries f) /\
    (forall n b, img = Some (n, b) -> option_map fst tof <> Some n ->
       exists f, d' n = Some f /\ shows_image pixels f) /\
    (forall n, option_map fst img <> Some n -> option_map fst tof <> Some n -> d' n = d n).
Proof. exact saved_l. Qed.
Print Assumptions C79_saved.
Example C79_saved_instance : exists hits es wk1 l w d',
  filetohits (Some ex_show) = Ok (hits, es) /\ wk_run ex_turn wk_start hits = Ok wk1 /\
  real_files (LRead (Some ex_show) :: l) /\
  wsteps ex_turn (win_new, ex_disk) (LRead (Some ex_show) :: l) (Ok (w, ex_disk)) /\ d_busy w = false /\
  wstep ex_turn (w, ex_disk) (LSave (Some ("image"%string, true)) (Some ("tof"%string, true))) (Ok (w, d')) /\
  d' "image"%string <> None /\ d' "tof"%string <> None.
Proof.
  destruct (filetohits (Some ex_show)) as [[hits es]|u|e|] eqn:EF;
    try (exfalso; assert (Q : exists v, filetohits (Some ex_show) = Ok v) by (eexists; vm_compute; reflexivity);
         destruct Q as [v Q]; rewrite EF in Q; discriminate Q).
  destruct (wk_run ex_turn wk_start hits) as [wk1|u|e|] eqn:EW;
    try (exfalso; assert (Q : (let! r := filetohits (Some ex_show) in let! w := wk_run ex_turn wk_start (fst r) in Ok (wk_total w)) = Ok 1)
           by (vm_compute; reflexivity);
         rewrite EF in Q; cbn [obind fst] in Q; rewrite EW in Q; discriminate Q).
  destruct (reads_all_l ex_turn ex_show hits es ex_disk hits [] ex_turn_ok ex_show_ok EF) with (wk1 := wk1)
    as (l & w & F & S1 & B & _); [symmetry; apply app_nil_r|cbn; lia|exact EW|].
  exists hits, es, wk1, l, w. eexists. split; [reflexivity|]. split; [exact EW|]. split.
  { intros m [E|Hm]; [injection E as <-; exact ex_show_ok|]. rewrite Forall_forall in F. specialize (F _ Hm). discriminate F. }
  split; [exact S1|]. split; [exact B|]. split.
  - pose proof (w_save ex_turn w ex_disk (Some ("image"%string, true)) (Some ("tof"%string, true))) as R.
    unfold win_save in R. rewrite B in R. exact R.
  - split; discriminate.
Qed.

(** C79: while a file is read nothing can be saved and no other file be read. *)
Theorem C79_busy : forall rot w d a r, d_busy w = true -> wstep rot (w, d) a r ->
  (forall img tof, a = LSave img tof -> r = Ok (w, d)) /\ (forall file, a <> LRead file).
Proof. exact busy_l. Qed.
Print Assumptions C79_busy.
Example C79_busy_instance : exists w, d_busy w = true /\
  wsteps ex_turn (win_new, ex_disk) [LRead (Some ex_show)] (Ok (w, ex_disk)) /\
  wstep ex_turn (w, ex_disk) (LSave (Some ("image"%string, true)) None) (Ok (w, ex_disk)).
Proof.
  destruct (filetohits (Some ex_show)) as [[hits es]|u|e|] eqn:EF;
    try (exfalso; assert (Q : exists v, filetohits (Some ex_show) = Ok v) by (eexists; vm_compute; reflexivity);
         destruct Q as [v Q]; rewrite EF in Q; discriminate Q).
  exact (busy_after_l ex_turn ex_show hits es ex_disk (Some ("image"%string, true)) None EF).
Qed.

(** C79: from every state the program can come to rest by itself, unless it
    becomes undefined; nothing on disk changes meanwhile. *)
Theorem C79_can_finish : forall rot l w d d0, rotation_ok rot -> real_files l ->
  wsteps rot (win_new, d0) l (Ok (w, d)) ->
  exists l' r, Forall (eq LTau) l' /\ wsteps rot (w, d) l' r /\
    ((exists w', r = Ok (w', d) /\ d_busy w' = false) \/ exists u, r = UB u).
Proof. exact can_finish_l. Qed.
Print Assumptions C79_can_finish.

(** C79: a session is defined, except that it ends with the first file that
    cannot be opened or cannot be read, or when a cluster of the file that is
    being read has sums beyond an int or no ToT. *)
Theorem C79_undefined : forall rot l r d0, rotation_ok rot -> real_files l -> wsteps rot (win_new, d0) l r ->
  (exists w d, r = Ok (w, d)) \/
  (exists u l' a, r = UB u /\ l = l' ++ [a] /\ reason rot (last_read l') a u).
Proof. exact undefined_l. Qed.
Print Assumptions C79_undefined.
Theorem C79_next : forall rot l w d d0 a r, rotation_ok rot -> real_files (l ++ [a]) ->
  wsteps rot (win_new, d0) l (Ok (w, d)) -> wstep rot (w, d) a r ->
  (exists s, r = Ok s) \/ (exists u, r = UB u /\ reason rot (last_read l) a u).
Proof. exact step_total_l. Qed.
Print Assumptions C79_next.
(** Every file that cannot be opened does so. *)
Theorem C79_not_opened : forall rot w d n t, d_busy w = false ->
  wstep rot (w, d) (LRead None) (UB NullDeref) /\
  wstep rot (w, d) (LSave (Some (n, false)) t) (UB NullDeref) /\
  wstep rot (w, d) (LSave None (Some (n, false))) (UB NullDeref).
Proof. exact not_opened_l. Qed.
Print Assumptions C79_not_opened.

(** C79: data saved before any file is read are not determined: the image is
    empty, no number of the spectrum is known. *)
Theorem C79_spectrum_known_refuted : forall rot d n, exists d' g,
  wsteps rot (win_new, d) [LSave None (Some (n, true))] (Ok (win_new, d')) /\ d' n = Some (WTof g) /\
  forall k, 0 <= k < 170000 -> g k = Some None.
Proof. exact spectrum_unknown_l. Qed.
Print Assumptions C79_spectrum_known_refuted.

(** C79: and what is saved after a file was read is not determined by the file. *)
Theorem C79_image_by_file_refuted : exists m l1 l2 d1 d2 w1 w2 g1 g2 n, bytes_ok m /\
  Forall (eq LTau) l1 /\ Forall (eq LTau) l2 /\
  wsteps ex_turn (win_new, ex_disk) (LRead (Some m) :: l1 ++ [LSave (Some (n, true)) None]) (Ok (w1, d1)) /\
  wsteps ex_turn (win_new, ex_disk) (LRead (Some m) :: l2 ++ [LSave (Some (n, true)) None]) (Ok (w2, d2)) /\
  d1 n = Some (WImage g1) /\ d2 n = Some (WImage g2) /\
  g1 (4096 * 160 + 240) = Some 1 /\ g2 (4096 * 160 + 240) = Some 0.
Proof.
  destruct (filetohits (Some ex_show)) as [[hits es]|u|e|] eqn:EF;
    try (exfalso; assert (Q : exists v, filetohits (Some ex_show) = Ok v) by (eexists; vm_compute; reflexivity);
         destruct Q as [v Q]; rewrite EF in Q; discriminate Q).
  assert (Q : (let! r := filetohits (Some ex_show) in let! w := wk_run ex_turn wk_start (fst r) in
               Ok (wk_img w, Nat.leb (length (fst r)) 4095)) = Ok ([(160, 240)], true)) by (vm_compute; reflexivity).
  rewrite EF in Q. cbn [obind fst] in Q.
  destruct (wk_run ex_turn wk_start hits) as [wk1|u|e|] eqn:EW; cbn [obind] in Q; try discriminate Q.
  apply Ok_inj in Q. injection Q as QI QL. apply Nat.leb_le in QL.
  destruct (image_by_file_l ex_turn ex_show hits es ex_disk "image"%string wk1 wk_start hits [] [] hits)
    as (l1 & l2 & d1 & d2 & w1 & w2 & F1 & F2 & S1 & S2 & E1 & E2);
    [exact ex_turn_ok|exact ex_show_ok|exact EF|symmetry; apply app_nil_r|reflexivity|cbn; lia| |exact EW|reflexivity|].
  - apply (Nat2Z.inj_le _ 4095) in QL. exact QL.
  - rewrite QI in E1. eexists ex_show, l1, l2, d1, d2, w1, w2, _, _, "image"%string.
    split; [exact ex_show_ok|]. split; [exact F1|]. split; [exact F2|]. split; [exact S1|]. split; [exact S2|].
    split; [exact E1|]. split; [exact E2|]. split; reflexivity.
Qed.
Print Assumptions C79_image_by_file_refuted.
