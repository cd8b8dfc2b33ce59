(** Lemmas behind Properties_Append.v. *)
From Coq Require Import String Lia Permutation.
From Verif Require Import P_CliRun P_Measure P_MeasureHist P_Program P_Motion P_Reduce P_Main P_Tiff P_Tof P_Cli.
From Verif Require Export S_Motion.
Local Open Scope Z_scope.

(** A history that starts from nothing may follow any other one. *)
Lemma history_any near chip g T l hs g' T' : S_Measure.history near chip g T l hs g' T' ->
  forall g2 T2, (g = None \/ g = g2) -> (T = None \/ T = T2) ->
  exists g2' T2', S_Measure.history near chip g2 T2 l hs g2' T2' /\ (g' = None \/ g' = g2') /\ (T' = None \/ T' = T2').
Proof.
  induction 1 as [g T|g G T l hs g' T' HG H IH|g T0 T l hs g' T' N H IH|g T x y tot ftoa H l hs g' T' X Y To Ft H0 N HT R IH];
    intros g2 T2 [Eg|Eg] [ET|ET]; try discriminate Eg; try discriminate ET; subst.
  all: try (exists g2, T2; split; [apply hy_nil|split; solve [left; reflexivity|right; reflexivity]]).
  all: try (destruct (IH (Some G) T2) as (a & b & Q & E1 & E2); [right; reflexivity|solve [left; reflexivity|right; reflexivity]|];
            exists a, b; split; [apply hy_ref; assumption|split; assumption]).
  all: try (destruct (IH (Some g) (Some T)) as (a & b & Q & E1 & E2); [right; reflexivity|right; reflexivity|];
            exists a, b; split; [first [apply hy_pulse; assumption|apply (hy_fire near chip g T); assumption]|split; assumption]).
Qed.

Lemma histories_any near g T ys hss : histories near g T ys hss -> forall g2 T2, (g = None \/ g = g2) -> (T = None \/ T = T2) ->
  histories near g2 T2 ys hss.
Proof.
  induction 1 as [g T|g T b3 chip b5 l hs g' T' xs hss B3 Hc B5 Hl H _ IH]; intros g2 T2 Eg ET; [constructor|].
  destruct (history_any _ _ _ _ _ _ _ _ H g2 T2 Eg ET) as (a & b & Q & E1 & E2).
  apply (hs_cons _ _ _ _ _ _ _ _ a b); try assumption. apply IH; assumption.
Qed.
Lemma histories_app near g T ys hss ys' hss' : histories near g T ys hss -> histories near None None ys' hss' ->
  histories near g T (ys ++ ys') (hss ++ hss').
Proof.
  induction 1 as [g T|g T b3 chip b5 l hs g' T' xs hss B3 Hc B5 Hl H _ IH]; intros H'; cbn [app].
  - apply (histories_any _ _ _ _ _ H'); left; reflexivity.
  - apply (hs_cons _ _ _ _ _ _ _ _ g' T'); try assumption. apply IH, H'.
Qed.

(** How far times may be from the reference, in either mode. *)
Lemma mode_hits o near ys hss h s : histories near None None ys hss ->
  (timing_of o = GDC_mode -> forall g t, near g t -> around g t) ->
  (timing_of o = TDC_mode -> forall g t, near g t -> early_run g t) ->
  processed (timing_of o) ts0 (map dataset_of ys) h s -> h = hss.
Proof.
  intros H G T P. destruct (histories_recording _ _ _ _ _ H) as [O (k & R)].
  destruct (timing_of o) eqn:E.
  - assert (R' : recording around true nothing_known (map dataset_of ys) hss k).
    { revert R. apply recording_mono; [apply G; reflexivity|discriminate]. }
    destruct (C90_gdc_l _ _ _ O R') as (s2 & Q). apply (processed_unique _ _ _ _ _ _ _ P Q).
  - assert (R' : recording early_run false nothing_known (map dataset_of ys) hss k).
    { revert R. apply recording_mono; [apply T; reflexivity|tauto]. }
    destruct (C90_tdc_l _ _ _ R') as (s2 & Q). apply (processed_unique _ _ _ _ _ _ _ P Q).
Qed.

Lemma neutrons_app ext cfg : forall hss nss, Forall2 (neutrons_of ext cfg) hss nss ->
  forall nss', Forall2 (neutrons_of ext cfg) hss nss' -> nss' = nss.
Proof.
  induction 1 as [|hs ns hss nss N _ IH]; intros nss' F; inversion F as [|? ns' ? l N' F']; subst; [reflexivity|].
  f_equal; [exact (neutrons_unique ext cfg hs ns' ns N' N)|apply IH, F'].
Qed.

Lemma map_some_inj {A} (l l' : list A) : map Some l = map Some l' -> l = l'.
Proof. revert l'. induction l as [|a l IH]; intros [|b l'] E; try discriminate E; [reflexivity|]. cbn in E. injection E as -> E. f_equal. apply IH, E. Qed.

(** A run leaves a proper image for every bin. *)
Lemma main_saved fuel ext cfg o ds writable order fs st fs' d :
  Forall dataset_ok ds -> Forall no_false_header ds ->
  0 < o_chunk o -> cuts_at_datasets (o_chunk o) ds -> (length (stream ds) <= fuel)%nat ->
  edges_ok (g_edges cfg) -> side (g_sr cfg) d -> 0 < d ->
  Permutation order (seq 0 (length (g_edges cfg) - 1)) -> (forall p, writable p = true) ->
  (forall i, (i < length (g_edges cfg) - 1)%nat ->
     saved fs (tiff_name (o_tiff o) (o_base o) i) d d \/ unrelated fs (tiff_name (o_tiff o) (o_base o) i) d d) ->
  run_main fuel ext cfg o (Some (stream ds)) true writable order fs = Ok (st, fs') -> o_tiff o <> ""%string ->
  forall i, (i < length (g_edges cfg) - 1)%nat -> saved fs' (tiff_name (o_tiff o) (o_base o) i) d d.
Proof.
  intros Ho Hn Hs Hc Hf Eo Sd Dp Po Hw Hp E W0. unfold run_main in E.
  destruct (open_reader (Some (stream ds))) as [r| | |] eqn:Er; cbn [obind] in E; try discriminate E.
  assert (r = Reader (stream ds) 0).
  { unfold open_reader in Er. destruct (stream ds); [discriminate Er|]. apply Ok_inj in Er. auto. }
  subst r. clear Er. fold (timing_of o) in E.
  destruct (init_cli cfg o) as [st0| | |] eqn:Ei; cbn [obind] in E; try discriminate E.
  destruct (chunk_loop _ _ _ _ _ _ _ st0) as [st1| | |] eqn:El; cbn [obind] in E; try discriminate E.
  destruct (C47_result_l _ _ _ _ _ _ _ _ _ Ho Hn Hs Hc Hf El) as (hss & nss & PR & NE & H1 & H2 & H3 & H4 & H5 & H6 & H7 & H8).
  assert (Le := proj1 Eo). assert (Sd' := Sd). apply dim_side in Sd'.
  destruct (blank_shape (length (g_edges cfg) - 1) d ltac:(lia)) as (bl & Eb & Sb & Zb).
  assert (S0 : st0 = Cli ts0 (if String.eqb (o_hits o) "" then None else Some []) (if String.eqb (o_events o) "" then None else Some [])
                 (if negb (String.eqb (o_tiff o) "") || negb (String.eqb (o_spectra o) "") then Some bl else None) 0 0).
  { unfold init_cli, init_images in Ei. rewrite Sd' in Ei. cbn [obind] in Ei.
    destruct (g_edges cfg) as [|e0 er] eqn:Ee; [cbn in Le; lia|]. rewrite Eb in Ei.
    destruct (negb _ || negb _); cbn [obind] in Ei; apply Ok_inj in Ei; auto. }
  clear Ei. rewrite S0 in *. cbn [c_ts c_hits c_events c_images c_nhits c_nneutrons] in *. clear S0 st0.
  set (ims := match c_images st1 with Some l => l | None => [] end) in *.
  set (es := binned o hss nss).
  (* the images *)
  assert (IM : (o_tiff o <> ""%string \/ o_spectra o <> ""%string) ->
    shape (length (g_edges cfg) - 1) d ims /\
    forall i x y v, pixel ims i x y = Some v ->
      exists k, counted (fun e => lands (g_sr cfg) (g_edges cfg) e i x y) es k /\ v = k mod 2 ^ 32).
  { intros W. assert (B : negb (String.eqb (o_tiff o) "") || negb (String.eqb (o_spectra o) "") = true).
    { destruct (String.eqb_spec (o_tiff o) ""); destruct (String.eqb_spec (o_spectra o) ""); try reflexivity. tauto. }
    rewrite B in H6. destruct (H6 bl d eq_refl Eo Sd Sb) as (ims' & Ec & Sh & PX). unfold ims. rewrite Ec. split; [exact Sh|].
    intros i x y v Ev. destruct (pixel bl i x y) as [v0|] eqn:E0.
    - destruct (PX i x y v0 E0) as (k & Ck & Pk). exists k. split; [exact Ck|]. rewrite Ev in Pk. injection Pk as ->.
      rewrite (Zb _ _ _ _ E0). reflexivity.
    - exfalso. assert (D : forall l, shape (length (g_edges cfg) - 1) d l -> pixel l i x y <> None <->
          (i < length (g_edges cfg) - 1)%nat /\ 0 <= x < d /\ 0 <= y < d) by (intros l Sl; apply pixel_domain; exact Sl).
      apply (proj2 (D bl Sb)); [|exact E0]. apply (D ims' Sh). rewrite Ev. discriminate. }
  destruct (IM (or_introl W0)) as [Sh _].
  destruct (if String.eqb (o_tiff o) "" then Ok fs else save_tiff true writable (o_tiff o) (o_base o) ims (g_edges cfg) order fs)
    as [fs1| | |] eqn:E1; cbn [obind] in E; try discriminate E.
  destruct (if String.eqb (o_spectra o) "" then Ok fs1 else _) as [fs2| | |] eqn:E2; cbn [obind] in E; try discriminate E.
  apply Ok_inj in E. injection E as -> ->. apply String.eqb_neq in W0. rewrite W0 in E1.
  destruct (C31_save_l writable (o_tiff o) (o_base o) (length (g_edges cfg) - 1) d d ims (g_edges cfg) order fs
      Dp ltac:(lia) Sh ltac:(lia) Po Hw Hp) as (fs3 & E3 & Sv & _).
  rewrite E1 in E3. apply Ok_inj in E3. subst fs3. intros i Hi. specialize (Sv i Hi).
  destruct (String.eqb (o_spectra o) "").
  - apply Ok_inj in E2. subst fs'. exact Sv.
  - rewrite Hw in E2. destruct (write_spectral _ _) as [rows| | |]; cbn [obind] in E2; try discriminate E2. apply Ok_inj in E2. subst fs'.
    eapply saved_ext; [|exact Sv]. symmetry. apply write_other. intros X. symmetry in X. revert X. apply txt_not_tiff.
Qed.
Lemma completed_saved ext o cfg ds s d d1 : completed ext o cfg ds s d d1 -> o_tiff o <> ""%string ->
  forall i, (i < length (g_edges cfg) - 1)%nat -> saved (d_files d1) (tiff_name (o_tiff o) (o_base o) i) s s.
Proof.
  intros (fu & w & ord & args & A1 & A2 & A3 & A4 & A5 & A6 & A7 & A8 & A9 & A10 & A11 & A12 & A13 & A14 & A15 & A16).
  destruct (exit_zero_main fu ext w ord args d d1 o cfg A1 A3 A4 A16) as (st & M & _). rewrite A5 in M.
  exact (main_saved fu ext cfg o ds (env_writable w) ord (d_files d) st (d_files d1) s A6 A7 A8 A9 A10 A11 A12 A13 A14 A2 A15 M).
Qed.

Lemma C104_program_l ext o cfg ys ys' hss hss' near s d d1 d2 dj :
  histories near None None ys hss -> histories near None None ys' hss' ->
  (timing_of o = GDC_mode -> forall g t, near g t -> around g t) ->
  (timing_of o = TDC_mode -> forall g t, near g t -> early_run g t) ->
  completed ext o cfg (map dataset_of ys) s d d1 -> completed ext o cfg (map dataset_of ys') s d1 d2 ->
  completed ext o cfg (map dataset_of (ys ++ ys')) s d dj ->
  (o_hits o <> ""%string -> exists f1 f2 fj,
     d_h5 d1 (o_hits o) = Some f1 /\ d_h5 d2 (o_hits o) = Some f2 /\ d_h5 dj (o_hits o) = Some fj /\
     forall n fld, hit_field n fld -> col fj "hits" n = col f1 "hits" n ++ col f2 "hits" n) /\
  (o_events o <> ""%string -> exists f1 f2 fj,
     d_h5 d1 (o_events o) = Some f1 /\ d_h5 d2 (o_events o) = Some f2 /\ d_h5 dj (o_events o) = Some fj /\
     forall n fld, neutron_field n fld -> col fj "neutrons" n = col f1 "neutrons" n ++ col f2 "neutrons" n) /\
  (o_tiff o <> ""%string -> forall i x y, (i < length (g_edges cfg) - 1)%nat -> 0 <= x < s -> 0 <= y < s ->
     exists v, disk (d_files d2) (tiff_name (o_tiff o) (o_base o) i) x y = Some v /\
       disk (d_files dj) (tiff_name (o_tiff o) (o_base o) i) x y = Some v).
Proof.
  intros H H' G T K1. pose proof (completed_saved _ _ _ _ _ _ _ K1) as Sv'. revert K1. intros
    (fu & w & ord & args & A1 & A2 & A3 & A4 & A5 & A6 & A7 & A8 & A9 & A10 & A11 & A12 & A13 & A14 & A15 & A16)
    (fu' & w' & ord' & args' & B1 & B2 & B3 & B4 & B5 & B6 & B7 & B8 & B9 & B10 & B11 & B12 & B13 & B14 & B15 & B16)
    (fuj & wj & ordj & argsj & J1 & J2 & J3 & J4 & J5 & J6 & J7 & J8 & J9 & J10 & J11 & J12 & J13 & J14 & J15 & J16).
  destruct (C81_program_l fu ext w ord args d d1 o cfg (map dataset_of ys) s) as (h1 & n1 & s1 & P & N & Fh & Fe & _ & Ti & _); try assumption.
  destruct (C81_program_l fu' ext w' ord' args' d1 d2 o cfg (map dataset_of ys') s) as (h2 & n2 & s2 & P' & N' & Fh' & Fe' & _ & Ti' & _); try assumption.
  destruct (C81_program_l fuj ext wj ordj argsj d dj o cfg (map dataset_of (ys ++ ys')) s) as (hj & nj & sj & Pj & Nj & Fhj & Fej & _ & Tij & _); try assumption.
  apply (mode_hits o near ys hss h1 s1 H G T) in P. apply (mode_hits o near ys' hss' h2 s2 H' G T) in P'.
  apply (mode_hits o near _ _ hj sj (histories_app near None None ys hss ys' hss' H H') G T) in Pj. subst h1 h2 hj.
  assert (En : nj = n1 ++ n2).
  { apply (neutrons_app ext (g_abs cfg) (hss ++ hss')); [apply Forall2_app; assumption|exact Nj]. }
  subst nj. rewrite !concat_app in *. split; [|split].
  - intros E. destruct (Fh E) as (f1 & X1 & Y1). destruct (Fh' E) as (f2 & X2 & Y2). destruct (Fhj E) as (fj & Xj & Yj).
    exists f1, f2, fj. split; [exact X1|]. split; [exact X2|]. split; [exact Xj|]. intros n fld Hf.
    apply map_some_inj. rewrite map_app, (Y1 n fld Hf), (Y2 n fld Hf), (Yj n fld Hf), map_app. reflexivity.
  - intros E. destruct (Fe E) as (f1 & X1 & Y1). destruct (Fe' E) as (f2 & X2 & Y2). destruct (Fej E) as (fj & Xj & Yj).
    exists f1, f2, fj. split; [exact X1|]. split; [exact X2|]. split; [exact Xj|]. intros n fld Hf.
    rewrite (Y1 n fld Hf), (Y2 n fld Hf), (Yj n fld Hf), map_app. reflexivity.
  - intros E i x y Hi Hx Hy. destruct (prior_exists _ _ _ _ x y (A15 i Hi) Hx Hy) as (u & Pr). pose proof (Sv' E i Hi) as Sv.
    destruct (Ti E i x y u Hi Hx Hy Pr) as (c & C & D).
    destruct (Ti' E i x y _ Hi Hx Hy (prior_saved _ _ _ _ _ _ _ Sv D)) as (c' & C' & D').
    destruct (Tij E i x y u Hi Hx Hy Pr) as (cj & Cj & Dj).
    assert (Eb : binned o (hss ++ hss') (n1 ++ n2) = binned o hss n1 ++ binned o hss' n2).
    { unfold binned. rewrite !concat_app, !map_app. destruct (String.eqb (o_mode o) "hit"); reflexivity. }
    rewrite Eb in Cj. rewrite (P_Tof.counted_unique _ _ _ Cj _ (counted_app _ _ _ _ _ C C')) in Dj.
    eexists. split; [exact D'|]. rewrite Dj. f_equal. rewrite Zplus_mod_idemp_l. f_equal. ring.
Qed.
