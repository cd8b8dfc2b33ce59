(** Property C106: clustering conserves the charge and its centre.  Each theorem is
    followed by a concrete instance. *)
From Coq Require Import Reals String Lia.
From Verif Require Import P_Conserve S_Conserve S_Motion S_Events P_Program.
From Verif Require Import Properties_Tpx3 Properties_Abs Properties_Cli Properties_Program Properties_Measure Properties_Events Properties_Motion.
Local Open Scope string_scope.
Local Open Scope Z_scope.
Local Open Scope list_scope.

(** However the hits are grouped: the charge (time over threshold) of the events is
    at most that of the hits.  If no cluster is too small it is exactly that of the
    hits, the centre of charge is kept to a relative error of 2^-51, and only hits
    without charge may be missing in the events. *)
Theorem C106_abs : forall n ext cfg o data q evs,
  (0 < n)%nat -> Forall hit_ok data -> Forall sensor_hit data -> zlen data <= 2 ^ 21 ->
  abs_fit n cfg o data = Ok q -> abs_get_events ext cfg (abs_set_method q MCentroid) data = Ok evs ->
  Forall (fun e => is_finite (n_x e) && is_finite (n_y e) && is_finite (n_tot e) = true) evs /\
  (rsum (map n_tot evs) <= IZR (hsum h_tot data))%R /\ total_hits evs <= zlen data /\
  (a_min cfg <= 1 ->
     rsum (map n_tot evs) = IZR (hsum h_tot data) /\
     nearly (moment (map n_x evs) (map n_tot evs)) (IZR (hsum (fun h => h_x h * h_tot h) data)) /\
     nearly (moment (map n_y evs) (map n_tot evs)) (IZR (hsum (fun h => h_y h * h_tot h) data)) /\
     zlen data <= total_hits evs + uncharged data).
Proof. exact C106_abs_l. Qed.
Print Assumptions C106_abs.

(** Six hits, four events, charge 112. *)
Example C106_abs_instance : exists q evs, abs_fit 8 ex_cfg abs_new ex_hits = Ok q /\
  abs_get_events ex_ext ex_cfg (abs_set_method q MCentroid) ex_hits = Ok evs /\ length evs = 4%nat /\
  rsum (map n_tot evs) = 112%R.
Proof.
  assert (V : (let! q := abs_fit 8 ex_cfg abs_new ex_hits in
               let! evs := abs_get_events ex_ext ex_cfg (abs_set_method q MCentroid) ex_hits in Ok (length evs)) = Ok 4%nat)
    by (vm_compute; reflexivity).
  destruct (abs_fit 8 ex_cfg abs_new ex_hits) as [q| | |] eqn:F; try discriminate V. cbn [obind] in V.
  destruct (abs_get_events ex_ext ex_cfg (abs_set_method q MCentroid) ex_hits) as [evs| | |] eqn:G; try discriminate V. cbn [obind] in V.
  apply P_AbsProps.Ok_inj in V. exists q, evs. split; [reflexivity|]. split; [exact G|]. split; [exact V|].
  destruct (C106_abs 8 ex_ext ex_cfg abs_new ex_hits q evs ltac:(lia) ex_hits_ok) as (_ & _ & _ & K);
    [eapply Forall_impl; [|exact ex_hits_sensor]; intros h H; apply H|vm_compute; discriminate|exact F|exact G|].
  destruct (K ltac:(cbn; lia)) as (-> & _). reflexivity.
Qed.

(** The same for the two files of any completed run. *)
Theorem C106_program : forall ext o cfg ds s d d',
  completed ext o cfg ds s d d' -> o_hits o <> "" -> o_events o <> "" ->
  (timing_of o = GDC_mode -> forall hss s', processed GDC_mode ts0 ds hss s' -> Forall (fun h => h_spider h < 2 ^ 48) (concat hss)) ->
  exists fh fe, d_h5 d' (o_hits o) = Some fh /\ d_h5 d' (o_events o) = Some fe /\
    let h := col fh "hits" in let e := col fe "neutrons" in
    Forall (fun v => is_finite v = true) (e "x" ++ e "y" ++ e "tot_ns") /\
    (rsum (e "tot_ns") <= rsum (h "tot_ns"))%R /\ (rsum (e "nHits") <= IZR (zlen (h "x")))%R /\
    (a_min (g_abs cfg) <= 1 ->
       rsum (e "tot_ns") = rsum (h "tot_ns") /\
       nearly (moment (e "x") (e "tot_ns")) (moment (h "x") (h "tot_ns")) /\
       nearly (moment (e "y") (e "tot_ns")) (moment (h "y") (h "tot_ns")) /\
       (IZR (zlen (h "x")) <= rsum (e "nHits") + IZR (zeros (h "tot_ns")))%R).
Proof. exact C106_program_l. Qed.
Print Assumptions C106_program.

Example C106_program_instance : exists edges d' fh fe,
  completed cex_ext mo_o (Config (AbsCfg (f_of_Z 5) 1 75) (f_of_Z 1) edges) (map dataset_of hex) 517 pex_d d' /\
  d_h5 d' "h" = Some fh /\ d_h5 d' "e" = Some fe /\
  rsum (col fe "neutrons" "tot_ns") = rsum (col fh "hits" "tot_ns").
Proof.
  destruct (P_Program.C81_default_l (mo_w (map dataset_of hex)) mo_o eq_refl) as (edges & C & E & _).
  destruct eex_recording as (k & O & R).
  destruct (mo_completed (map dataset_of hex) (map x_hits eex) k edges C E ltac:(discriminate) O) as (d1 & P1); [|reflexivity|exact R|].
  { repeat constructor; vm_compute; intuition discriminate. }
  destruct (C106_program cex_ext mo_o _ _ 517 pex_d d1 P1 ltac:(discriminate) ltac:(discriminate)) as (fh & fe & F1 & F2 & _ & _ & _ & K).
  { intros _ hss s' Q. destruct (P_Measure.C90_gdc_l _ _ k O R) as (s2 & Q2). destruct (P_CliRun.processed_unique _ _ _ _ _ _ _ Q2 Q) as [<- _].
    apply (P_EventsProgram.recording_bounds _ _ _ _ R); discriminate. }
  exists edges, d1, fh, fe. split; [exact P1|]. split; [exact F1|]. split; [exact F2|]. apply K. cbn. lia.
Qed.
