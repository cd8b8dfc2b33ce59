(** The result of a whole run (C47) and the command line (C48). *)
From Coq Require Import Reals.
From Verif Require Export P_Cli P_Centroid P_HitProps.
From Flocq Require Import Core.
From Coq Require Import Lia ZifyBool Lra.
Local Open Scope Z_scope.

(** * Reading a well-formed stream in chunks *)

Lemma header_of_stream d ds : header_at (stream (d :: ds)) 0 (ds_header d).
Proof.
  split; [reflexivity|]. split.
  - change 0 with (8 * Z.of_nat 0). apply packet_at_nth. rewrite packets_stream. reflexivity.
  - repeat split.
Qed.
Lemma cuts_clean size ds : Forall dataset_ok ds -> Forall no_false_header ds ->
  0 < size -> cuts_at_datasets size ds -> boundaries_clean size (stream ds).
Proof.
  intros Ho Hn Hs Hc off p k H B.
  assert (O : 0 <= off) by (destruct H as (_ & (pre & post & _ & <-) & _); apply zlen_nonneg).
  destruct (Hc k ltac:(lia)) as (j & Ej).
  assert (E : stream ds = stream (firstn j ds) ++ stream (skipn j ds)).
  { unfold stream. rewrite <- flat_map_app, firstn_skipn. reflexivity. }
  destruct (skipn j ds) as [|d l] eqn:S.
  - exfalso. rewrite E in B. cbn [stream flat_map] in B. rewrite List.app_nil_r in B. lia.
  - pose proof (header_at_app_r (stream (firstn j ds)) (stream (d :: l)) 0 _ (stream_aligned _) (header_of_stream d l)) as H'.
    rewrite <- E, Z.add_0_r in H'. rewrite Ej.
    apply (stream_disjoint ds Ho Hn off p _ _ H H'). lia.
Qed.

Lemma loop_run ext cfg md hm size ds fuel st st' : Forall dataset_ok ds -> Forall no_false_header ds ->
  0 < size -> cuts_at_datasets size ds -> (length (stream ds) <= fuel)%nat ->
  (chunk_loop fuel ext cfg md hm size (Reader (stream ds) 0) st = Ok st' <->
   run_chunk ext cfg md hm st (stream ds) = Ok (st', None)).
Proof.
  intros Ho Hn Hs Hc Hf.
  assert (Hb : bytes_ok (stream ds)) by (apply stream_ok; exact Ho).
  destruct (Z_lt_le_dec size (zlen (stream ds))) as [L|L].
  - assert (A : size mod 8 = 0).
    { destruct (Hc 1 ltac:(lia)) as (j & E). rewrite Z.mul_1_l in E. rewrite E. apply stream_aligned. }
    apply (chunk_loop_clean ext cfg md hm size (stream ds) Hs A Hb fuel 0); [lia|exact Hf|].
    apply (cuts_clean size ds Ho Hn Hs Hc).
  - destruct ds as [|d ds].
    { cbn [stream flat_map]. assert (E : chunk_loop fuel ext cfg md hm size (Reader [] 0) st = Ok st) by (destruct fuel; reflexivity).
      rewrite E, run_nil. split; intros X; injection X as ->; reflexivity. }
    set (m := stream (d :: ds)) in *.
    assert (N : m <> []) by discriminate.
    assert (Z0 : 0 < zlen m) by (unfold zlen; destruct m; [congruence|cbn [length]; lia]).
    destruct fuel as [|fuel]; [unfold zlen in Z0; lia|]. cbn [chunk_loop].
    unfold is_eof. cbn [r_pos r_map]. destruct (Z.geb_spec 0 (zlen m)); [lia|].
    unfold read_chunk. cbn [r_pos r_map]. destruct (Z.geb_spec 0 (zlen m)); [lia|].
    rewrite Z.min_r by lia. rewrite Z.sub_0_r. cbn [skipn Z.to_nat].
    change (skipn (Z.to_nat 0) m) with m.
    replace (firstn (Z.to_nat (zlen m)) m) with m
      by (symmetry; unfold zlen; rewrite Nat2Z.id; apply firstn_all).
    destruct m as [|b m']; [congruence|]. set (m := b :: m') in *.
    destruct (run_chunk ext cfg md hm st m) as [[st1 e]| | |] eqn:R; cbn [obind];
      try (split; discriminate).
    assert (e = None) as -> by (apply run_chunk_items in R; [tauto|exact Hb]).
    assert (E : chunk_loop fuel ext cfg md hm size (Reader m (0 + zlen m)) st1 = Ok st1).
    { destruct fuel; cbn [chunk_loop]; unfold is_eof; cbn [r_pos r_map];
        (destruct (Z.geb_spec (0 + zlen m) (zlen m)); [reflexivity|lia]). }
    rewrite E. split; intros X; [apply Ok_inj in X|injection X as X]; subst; reflexivity.
Qed.

Lemma all_events_spec ext acfg hss : forall l, all_events ext acfg hss = Ok l <->
  map fst l = hss /\ Forall (fun p => events_of ext acfg (fst p) = Ok (snd p)) l.
Proof.
  induction hss as [|hs hss IH]; intros l; cbn [all_events].
  - split.
    + intros E. apply Ok_inj in E. subst l. split; [reflexivity|constructor].
    + intros [E _]. destruct l; [reflexivity|discriminate E].
  - split.
    + intros E. destruct (events_of ext acfg hs) as [es| | |] eqn:V; cbn [obind] in E; try discriminate E.
      destruct (all_events ext acfg hss) as [r| | |]; cbn [obind] in E; try discriminate E.
      apply Ok_inj in E. subst l. destruct (proj1 (IH r) eq_refl) as [A B].
      cbn [map fst]. rewrite A. split; [reflexivity|]. constructor; [exact V|exact B].
    + intros [E F]. destruct l as [|[h es] l]; [discriminate E|]. cbn [map fst] in E. inversion E; subst.
      inversion F as [|? ? F1 F2]; subst. cbn [fst snd] in F1. rewrite F1. cbn [obind].
      destruct (IH l) as [_ IH2]. rewrite IH2 by auto. reflexivity.
Qed.

Lemma events_of_spec ext acfg hits ns : events_of ext acfg hits = Ok ns <-> neutrons_of ext acfg hits ns.
Proof.
  unfold events_of, neutrons_of. split.
  - intros E. destruct (abs_fit 8 acfg abs_new hits) as [o| | |] eqn:F; cbn [obind] in E; try discriminate E.
    exists o. split; [reflexivity|]. destruct (fit_shape _ _ _ _ _ F) as [_ M].
    replace (abs_set_method o MCentroid) with o; [exact E|]. destruct o. cbn in M. unfold abs_set_method. cbn. congruence.
  - intros (o & F & E). rewrite F. cbn [obind]. destruct (fit_shape _ _ _ _ _ F) as [_ M].
    replace (abs_set_method o MCentroid) with o in E; [exact E|]. destruct o. cbn in M. unfold abs_set_method. cbn. congruence.
Qed.

Lemma pass_processed md ds : Forall dataset_ok ds -> forall s,
  processed md s ds (fst (pass md (map ds_item ds) s)) (snd (pass md (map ds_item ds) s)).
Proof.
  induction ds as [|d ds IH]; intros H s; [constructor|].
  inversion H as [|? ? Hd Hds]; subst. cbn [map pass]. unfold ds_item at 1 3.
  specialize (IH Hds (ts_after md s (d_payload d))).
  destruct (pass md (map ds_item ds) (ts_after md s (d_payload d))) as [hs s']. cbn [fst snd] in *.
  apply (pr_cons md s d ds (chip_of (ds_header d))).
  - apply schar_declares. apply ds_header_ok. exact Hd.
  - apply emits_yields.
  - exact IH.
Qed.
Lemma processed_unique md ds : forall s hss s' hss' s'',
  processed md s ds hss s' -> processed md s ds hss' s'' -> hss = hss' /\ s' = s''.
Proof.
  induction ds as [|d ds IH]; intros s hss s' hss' s'' H H'.
  - inversion H; inversion H'; subst. auto.
  - inversion H as [|? ? ? c1 h1 hs1 ? A1 B1 D1]; inversion H' as [|? ? ? c2 h2 hs2 ? A2 B2 D2]; subst.
    destruct (IH _ _ _ _ _ D1 D2) as [-> ->]. split; [|reflexivity]. f_equal.
    assert (c1 = c2) as <- by (eapply declares_chip_unique; eassumption).
    eapply yields_functional; eassumption.
Qed.

(** * The effect of a sequence of batches *)

Section Run.
Variables (cfg : config) (hm : bool).
Notation consume := (consume cfg hm).

Lemma consume_parts st p st' : consume st p = Ok st' ->
  (match c_hits st with
   | None => c_hits st' = None
   | Some f => exists f', append_hits no_fault f (fst p) = Ok f' /\ c_hits st' = Some f' end) /\
  (match c_events st with
   | None => c_events st' = None
   | Some f => exists f', append_neutrons no_fault f (snd p) = (Ok tt, f') /\ c_events st' = Some f' end) /\
  (match c_images st with
   | None => c_images st' = None
   | Some i => exists i', update_images (g_sr cfg) (g_edges cfg) hm i (mk p) = Ok i' /\ c_images st' = Some i' end) /\
  c_nhits st' = u64 (c_nhits st + zlen (fst p)) /\
  c_nneutrons st' = u64 (c_nneutrons st + zlen (snd p)).
Proof.
  unfold P_Cli.consume, statements. cbn [ofold]. intros E.
  unfold put_hits at 1 in E. cbn [mk t_hits] in E.
  destruct (c_hits st) as [f|] eqn:CH.
  - destruct (append_hits no_fault f (fst p)) as [f'| | |]; cbn [obind] in E; try discriminate E.
    unfold put_events at 1 in E. cbn [c_events mk t_neutrons] in E.
    destruct (c_events st) as [g|] eqn:CE.
    + destruct (append_neutrons no_fault g (snd p)) as [[[]| | |] g']; cbn [obind] in E; try discriminate E.
      unfold put_images at 1 in E. cbn [c_images] in E. destruct (c_images st) as [i|] eqn:CI.
      * destruct (update_images _ _ _ _ _) as [i'| | |]; cbn [obind] in E; try discriminate E.
        apply Ok_inj in E. subst st'. cbn. repeat split; eauto.
      * cbn [obind] in E. apply Ok_inj in E. subst st'. cbn. repeat split; eauto.
    + cbn [obind] in E. unfold put_images at 1 in E. cbn [c_images] in E. destruct (c_images st) as [i|] eqn:CI.
      * destruct (update_images _ _ _ _ _) as [i'| | |]; cbn [obind] in E; try discriminate E.
        apply Ok_inj in E. subst st'. cbn. repeat split; eauto.
      * cbn [obind] in E. apply Ok_inj in E. subst st'. cbn. repeat split; eauto.
  - cbn [obind] in E. unfold put_events at 1 in E. cbn [c_events mk t_neutrons] in E.
    destruct (c_events st) as [g|] eqn:CE.
    + destruct (append_neutrons no_fault g (snd p)) as [[[]| | |] g']; cbn [obind] in E; try discriminate E.
      unfold put_images at 1 in E. cbn [c_images] in E. destruct (c_images st) as [i|] eqn:CI.
      * destruct (update_images _ _ _ _ _) as [i'| | |]; cbn [obind] in E; try discriminate E.
        apply Ok_inj in E. subst st'. cbn. rewrite CH. repeat split; eauto.
      * cbn [obind] in E. apply Ok_inj in E. subst st'. cbn. rewrite CH. repeat split; eauto.
    + cbn [obind] in E. unfold put_images at 1 in E. cbn [c_images] in E. destruct (c_images st) as [i|] eqn:CI.
      * destruct (update_images _ _ _ _ _) as [i'| | |]; cbn [obind] in E; try discriminate E.
        apply Ok_inj in E. subst st'. cbn. rewrite CH, CE. repeat split; eauto.
      * cbn [obind] in E. apply Ok_inj in E. subst st'. cbn. rewrite CH, CE. repeat split; eauto.
Qed.

Lemma consume_all l : forall st st', ofold consume l st = Ok st' ->
  (match c_hits st with
   | None => c_hits st' = None
   | Some f => exists f', ofold do_append (map (fun p => AHits (fst p)) l) f = Ok f' /\ c_hits st' = Some f' end) /\
  (match c_events st with
   | None => c_events st' = None
   | Some f => exists f', ofold do_append (map (fun p => ANeutrons (snd p)) l) f = Ok f' /\ c_events st' = Some f' end) /\
  (match c_images st with
   | None => c_images st' = None
   | Some i => exists i', update_all (g_sr cfg) (g_edges cfg) hm i (map mk l) = Ok i' /\ c_images st' = Some i' end) /\
  (0 <= c_nhits st < 2 ^ 64 -> c_nhits st' = (c_nhits st + zlen (concat (map fst l))) mod 2 ^ 64) /\
  (0 <= c_nneutrons st < 2 ^ 64 -> c_nneutrons st' = (c_nneutrons st + zlen (concat (map snd l))) mod 2 ^ 64).
Proof.
  induction l as [|p l IH]; intros st st' E.
  - cbn in E. apply Ok_inj in E. subst st'. cbn [map ofold update_all concat].
    split; [destruct (c_hits st); eauto|]. split; [destruct (c_events st); eauto|].
    split; [destruct (c_images st); unfold update_all; cbn; eauto|]. unfold zlen. cbn [length].
    split; intros; lia.
  - cbn [ofold] in E. destruct (consume st p) as [st1| | |] eqn:C; cbn [obind] in E; try discriminate E.
    destruct (consume_parts _ _ _ C) as (P1 & P2 & P3 & P4 & P5).
    destruct (IH _ _ E) as (Q1 & Q2 & Q3 & Q4 & Q5). cbn [map ofold concat].
    split; [|split; [|split; [|split]]].
    + destruct (c_hits st) as [f|].
      * destruct P1 as (f1 & A & B). rewrite B in Q1. destruct Q1 as (f' & D & F). exists f'.
        split; [|exact F]. cbn [do_append]. rewrite A. exact D.
      * rewrite P1 in Q1. exact Q1.
    + destruct (c_events st) as [f|].
      * destruct P2 as (f1 & A & B). rewrite B in Q2. destruct Q2 as (f' & D & F). exists f'.
        split; [|exact F]. cbn [do_append]. rewrite A. exact D.
      * rewrite P2 in Q2. exact Q2.
    + destruct (c_images st) as [f|].
      * destruct P3 as (f1 & A & B). rewrite B in Q3. destruct Q3 as (f' & D & F). exists f'.
        split; [|exact F]. unfold update_all in *. cbn [ofold]. rewrite A. exact D.
      * rewrite P3 in Q3. exact Q3.
    + intros _. rewrite Q4 by (rewrite P4; apply u64_range). rewrite P4. unfold u64. rewrite zlen_app.
      rewrite Zplus_mod_idemp_l. f_equal. lia.
    + intros _. rewrite Q5 by (rewrite P5; apply u64_range). rewrite P5. unfold u64. rewrite zlen_app.
      rewrite Zplus_mod_idemp_l. f_equal. lia.
Qed.
End Run.

Lemma all_hits_map l : all_hits (map (fun p : list hit * list neutron => AHits (fst p)) l) = concat (map fst l).
Proof. induction l as [|p l IH]; [reflexivity|]. cbn [map all_hits flat_map concat]. f_equal. exact IH. Qed.
Lemma all_neutrons_map l : all_neutrons (map (fun p : list hit * list neutron => ANeutrons (snd p)) l) = concat (map snd l).
Proof. induction l as [|p l IH]; [reflexivity|]. cbn [map all_neutrons flat_map concat]. f_equal. exact IH. Qed.
Lemma entries_map hm l : flat_map (entries hm) (map mk l) =
  if hm then map entry_of_hit (concat (map fst l)) else map entry_of_neutron (concat (map snd l)).
Proof.
  induction l as [|p l IH]; [destruct hm; reflexivity|]. cbn [map flat_map concat]. rewrite IH.
  unfold entries. cbn [mk t_hits t_neutrons]. destruct hm; rewrite map_app; reflexivity.
Qed.

Lemma C47_result_l ext cfg md hm size fuel ds st0 st :
  Forall dataset_ok ds -> Forall no_false_header ds ->
  0 < size -> cuts_at_datasets size ds -> (length (stream ds) <= fuel)%nat ->
  chunk_loop fuel ext cfg md hm size (Reader (stream ds) 0) st0 = Ok st ->
  exists hss nss,
    processed md (c_ts st0) ds hss (c_ts st) /\
    Forall2 (neutrons_of ext (g_abs cfg)) hss nss /\
    (c_hits st0 = None -> c_hits st = None) /\
    (forall f, c_hits st0 = Some f -> exists f', c_hits st = Some f' /\
       forall n fld, hit_field n fld ->
         map Some (col f' "hits" n) = map Some (col f "hits" n) ++ map fld (concat hss)) /\
    (c_events st0 = None -> c_events st = None) /\
    (forall f, c_events st0 = Some f -> exists f', c_events st = Some f' /\
       forall n fld, neutron_field n fld ->
         col f' "neutrons" n = col f "neutrons" n ++ map fld (concat nss)) /\
    (c_images st0 = None -> c_images st = None) /\
    (forall ims d, c_images st0 = Some ims -> edges_ok (g_edges cfg) -> side (g_sr cfg) d ->
       shape (length (g_edges cfg) - 1) d ims ->
       exists ims', c_images st = Some ims' /\ shape (length (g_edges cfg) - 1) d ims' /\
       forall i x y v, pixel ims i x y = Some v ->
       exists k, counted (fun e => lands (g_sr cfg) (g_edges cfg) e i x y)
                   (if hm then map entry_of_hit (concat hss) else map entry_of_neutron (concat nss)) k /\
                 pixel ims' i x y = Some ((v + k) mod 2 ^ 32)) /\
    (0 <= c_nhits st0 < 2 ^ 64 -> c_nhits st = (c_nhits st0 + zlen (concat hss)) mod 2 ^ 64) /\
    (0 <= c_nneutrons st0 < 2 ^ 64 ->
       c_nneutrons st = (c_nneutrons st0 + zlen (concat nss)) mod 2 ^ 64).
Proof.
  intros Ho Hn Hs Hc Hf E.
  assert (Hb : bytes_ok (stream ds)) by (apply stream_ok; exact Ho).
  apply loop_run in E; try assumption.
  apply run_chunk_items in E; [|exact Hb]. destruct E as (_ & it & I & l & EV & FO).
  rewrite stream_items in I by assumption. injection I as <-.
  pose proof (pass_processed md ds Ho (c_ts st0)) as PR.
  apply all_events_spec in EV. destruct EV as [M F].
  exists (map fst l), (map snd l). rewrite M.
  assert (T : c_ts st = snd (pass md (map ds_item ds) (c_ts st0))).
  { apply consume_keeps in FO. exact FO. }
  rewrite T. split; [exact PR|]. split.
  { rewrite <- M. clear - F. induction F as [|p l F1 F2 IH]; cbn [map]; constructor; [|exact IH].
    apply events_of_spec. exact F1. }
  rewrite <- M. destruct (consume_all _ _ _ _ _ FO) as (Q1 & Q2 & Q3 & Q4 & Q5).
  cbn [set_ts c_hits c_events c_images c_nhits c_nneutrons] in *.
  split; [intros X; rewrite X in Q1; exact Q1|]. split.
  { intros f X. rewrite X in Q1. destruct Q1 as (f' & D & G). exists f'. split; [exact G|].
    intros n fld HF. destruct (C32_columns_l _ _ _ D) as (K & _). rewrite <- all_hits_map. apply K. exact HF. }
  split; [intros X; rewrite X in Q2; exact Q2|]. split.
  { intros f X. rewrite X in Q2. destruct Q2 as (f' & D & G). exists f'. split; [exact G|].
    intros n fld HF. destruct (C32_columns_l _ _ _ D) as (_ & K & _). rewrite <- all_neutrons_map. apply K. exact HF. }
  split; [intros X; rewrite X in Q3; exact Q3|]. split.
  { intros ims d X Oe Hsd Sh. rewrite X in Q3. destruct Q3 as (ims' & D & G). exists ims'. split; [exact G|].
    destruct (C28_pixels_l _ _ _ _ _ _ _ Oe Hsd Sh D) as (S1 & S2). split; [exact S1|].
    intros i x y v P. destruct (S2 i x y v P) as (k & K1 & K2). exists k. split; [|exact K2].
    rewrite entries_map in K1. exact K1. }
  split; [exact Q4|exact Q5].
Qed.

(** * Success *)

Lemma time_tdc_range p tdc : packet_ok p -> 0 <= time_tdc p tdc < 2 ^ 31.
Proof.
  intros Hp. unfold time_tdc. destruct (spidertime30_eq p Hp) as [Hs Hr].
  assert (G : 0 <= get_toa p < 2 ^ 14).
  { unfold get_toa. rewrite (land_low _ _ 14) by (reflexivity || lia). apply Z.mod_pos_bound. reflexivity. }
  assert (E : Z.lor (Z.shiftl (raw_spider p) 14) (get_toa p) = spidertime30 p).
  { rewrite Z.shiftl_mul_pow2 by lia. rewrite lor_add by lia. lia. }
  rewrite E. destruct (_ >? _); [|lia].
  rewrite Z.lor_comm. change 0x40000000 with (1 * 2 ^ 30). rewrite lor_add by lia. lia.
Qed.

Lemma makes_hit_facts md chip p s h : packet_ok p -> makes_hit md chip p s h ->
  0 <= h_x h <= 515 /\ 0 <= h_y h <= 515 /\ 0 <= h_tot h <= 1023 /\ 0 <= h_spider h /\
  (forall t, h_tof h = Some t -> 0 <= t < 2 ^ 32) /\
  match md with GDC_mode => h_tof h <> None | TDC_mode => h_spider h < 2 ^ 48 end.
Proof.
  intros Hp M.
  assert (Q : in_quadrant chip (h_x h, h_y h)).
  { destruct md; cbn in M; apply (C02_quadrant_l p (ts_tdc s) (ts_gdc s) chip h Hp); auto. }
  assert (XY : 0 <= h_x h <= 515 /\ 0 <= h_y h <= 515).
  { unfold in_quadrant, in_square in Q. destruct chip as [|[c|[c|c|]|]|c]; cbn [fst snd] in Q; lia. }
  assert (T : 0 <= get_tot p <= 1023).
  { unfold get_tot. rewrite (land_low _ _ 10) by (reflexivity || lia).
    pose proof (Z.mod_pos_bound (Z.shiftr (raw_nTOT p) 4) (2 ^ 10)). lia. }
  destruct XY as [X Y]. split; [exact X|]. split; [exact Y|]. destruct md; cbn in M.
  - destruct (C04_tof_l p (ts_tdc s) (ts_gdc s) chip) as (h' & t & A & B & C).
    rewrite M in A. apply Ok_inj in A. subst h'. cbv zeta in C.
    rewrite hit_gdc_eq in M. cbv zeta in M. apply Ok_inj in M. subst h. cbn [h_tot h_spider h_tof] in *.
    split; [exact T|]. split.
    { apply global_time_range. apply spidertime30_eq. exact Hp. }
    split; [intros t' E; rewrite B in E; injection E as <-; lia|congruence].
  - subst h. rewrite hit_tdc_eq. cbv zeta. cbn [h_tot h_spider h_tof]. split; [exact T|].
    destruct (time_tdc_range p (ts_tdc s) Hp) as [A B]. split; [exact A|]. split.
    + intros t. destruct (_ >=? _); [|discriminate]. intros E. injection E as <-.
      apply Z.mod_pos_bound. reflexivity.
    + lia.
Qed.

Lemma yields_facts md chip s ps hs : yields md chip s ps hs -> Forall packet_ok ps ->
  zlen hs <= zlen ps /\ Forall (fun h => 0 <= h_x h <= 515 /\ 0 <= h_y h <= 515 /\ 0 <= h_tot h <= 1023 /\ 0 <= h_spider h /\
    (forall t, h_tof h = Some t -> 0 <= t < 2 ^ 32) /\
    match md with GDC_mode => h_tof h <> None | TDC_mode => h_spider h < 2 ^ 48 end) hs.
Proof.
  induction 1 as [s|s p ps h hs K R M Y IH|s p ps hs K R Y IH|s p ps hs K Y IH]; intros F.
  - split; [reflexivity|constructor].
  - inversion F as [|? ? F1 F2]; subst. destruct (IH F2) as [A B]. rewrite !zlen_cons. split; [lia|].
    constructor; [|exact B]. eapply makes_hit_facts; eassumption.
  - inversion F as [|? ? F1 F2]; subst. destruct (IH F2) as [A B]. rewrite !zlen_cons. split; [lia|exact B].
  - inversion F as [|? ? F1 F2]; subst. destruct (IH F2) as [A B]. rewrite !zlen_cons. split; [lia|exact B].
Qed.

(** A hit that every later stage can handle. *)
Definition fine (h : hit) : Prop := hit_ok h /\ sensor_hit h.

Lemma processed_facts md ds : Forall dataset_ok ds -> forall s hss s', processed md s ds hss s' ->
  Forall (fun h => (md = GDC_mode -> h_spider h < 2 ^ 48) /\ (md = TDC_mode -> h_tof h <> None)) (concat hss) ->
  Forall (fun hs => zlen hs <= 2 ^ 21 /\ Forall fine hs) hss.
Proof.
  induction ds as [|d ds IH]; intros H s hss s' P F; inversion P as [|? ? ? c1 h1 hs1 ? A1 B1 D1]; subst; [constructor|].
  inversion H as [|? ? Hd Hds]; subst. cbn [concat] in F. apply Forall_app in F. destruct F as [F1 F2].
  constructor; [|eapply IH; eassumption].
  destruct Hd as (_ & _ & _ & Hp & Hl). destruct (yields_facts _ _ _ _ _ B1 Hp) as [L Y]. split; [lia|].
  rewrite Forall_forall in *. intros h I. destruct (Y h I) as (X1 & X2 & X3 & X4 & X5 & X6).
  destruct (F1 h I) as [G1 G2]. unfold fine, hit_ok, sensor_hit.
  destruct md; (split; [split; [lia|split; [lia|]]|split; [lia|split; [lia|split; [lia|]]]]).
  - split; [lia|apply G1; reflexivity].
  - destruct (h_tof h) as [t|]; [|congruence]. exists t. auto.
  - split; lia.
  - specialize (G2 eq_refl). destruct (h_tof h) as [t|]; [|congruence]. exists t. auto.
Qed.

Lemma events_In fit min cs evs e : events fit min cs evs -> In e evs ->
  exists c, In c cs /\ fit c = Ok e /\ fge (n_x e) (f_of_Z 0) && fge (n_y e) (f_of_Z 0) = true.
Proof.
  induction 1 as [|c cs evs L E IH|c cs e' evs L Hf G E IH|c cs e' evs L Hf G E IH]; intros I.
  - destruct I.
  - destruct (IH I) as (c' & A & B). exists c'. split; [right; exact A|exact B].
  - destruct I as [<-|I].
    + exists c. split; [left; reflexivity|auto].
    + destruct (IH I) as (c' & A & B). exists c'. split; [right; exact A|exact B].
  - destruct (IH I) as (c' & A & B). exists c'. split; [right; exact A|exact B].
Qed.

Lemma hsum_tot_nonneg c : Forall sensor_hit c -> 0 <= hsum h_tot c.
Proof.
  induction 1 as [|h c H _ IH]; cbn; [lia|]. destruct H as (_ & _ & H & _). unfold hsum in IH. lia.
Qed.

(** The neutrons of fine hits exist and stay on the sensor. *)
Lemma neutrons_exist ext cfg hits : zlen hits <= 2 ^ 21 -> Forall fine hits ->
  exists ns, neutrons_of ext cfg hits ns /\
    Forall (fun e => (0 <= B2R (n_x e) <= 516)%R /\ (0 <= B2R (n_y e) <= 516)%R) ns.
Proof.
  intros L F.
  assert (Hd : Forall hit_ok hits) by (eapply Forall_impl; [|exact F]; intros h [A _]; exact A).
  assert (Hs : Forall sensor_hit hits) by (eapply Forall_impl; [|exact F]; intros h [_ A]; exact A).
  destruct (C21_l 8 cfg abs_new hits ltac:(lia) Hd) as (o & ls0 & k0 & E & _).
  destruct (C24_succeeds_l 8 ext cfg abs_new hits o ltac:(lia) Hd Hs L E) as (evs & G).
  exists evs. split; [exists o; auto|].
  destruct (C24_l 8 ext cfg abs_new hits o MCentroid _ ltac:(lia) Hd E eq_refl) as (ls & k & El & Len & Hk & Ev).
  apply Ev in G. apply Forall_forall. intros e I. destruct (events_In _ _ _ _ _ G I) as (c & Ic & Fc & Ge).
  unfold clusters_of in Ic. apply in_map_iff in Ic. destruct Ic as (l & <- & Il). apply in_seq in Il.
  assert (Sub : incl (members l ls hits) hits /\ zlen (members l ls hits) <= zlen hits).
  { split.
    - intros a Ia. unfold members in Ia. apply in_map_iff in Ia. destruct Ia as ((x & y) & <- & Ia).
      apply filter_In in Ia. destruct Ia as [Ia _]. apply in_combine_r in Ia. exact Ia.
    - unfold zlen, members. rewrite map_length.
      assert (FL : forall (p : nat * hit -> bool) q, (length (filter p q) <= length q)%nat).
      { intros p q. induction q as [|x q IH]; cbn; [lia|]. destruct (p x); cbn; lia. }
      pose proof (FL (fun p => Nat.eqb (fst p) l) (combine ls hits)) as B'.
      rewrite combine_length in B'. lia. }
  destruct Sub as [S1 S2].
  assert (Sm : Forall sensor_hit (members l ls hits)).
  { apply Forall_forall. intros a Ia. rewrite Forall_forall in Hs. apply Hs, S1, Ia. }
  assert (Nn : members l ls hits <> []).
  { intros N. pose proof (members_nonempty l ls hits Len ltac:(apply Hk; lia)) as B. rewrite N in B. unfold zlen in B. cbn [length] in B. lia. }
  destruct (C26_l _ Nn Sm ltac:(lia)) as (e' & Ee & _ & _ & _ & _ & _ & Z0).
  cbn [fit_of] in Fc. rewrite Fc in Ee. apply Ok_inj in Ee. subst e'.
  pose proof (hsum_tot_nonneg _ Sm) as Hn.
  destruct (Z.eq_dec (hsum h_tot (members l ls hits)) 0) as [Hz|Hz].
  - destruct (Z0 Hz) as [N1 _]. exfalso. destruct (n_x e); try discriminate N1. discriminate Ge.
  - destruct (C26_sensor_l _ _ Sm ltac:(lia) ltac:(lia) Fc) as [A B].
    assert (P : (bpow radix2 (-51) <= bpow radix2 (-10))%R) by (apply bpow_le; lia).
    change (bpow radix2 (-10)) with (/ 1024)%R in P. split; lra.
Qed.

Lemma fmul_finite x y : is_finite (fmul x y) = true -> is_finite x = true /\ is_finite y = true /\ B2R (fmul x y) = rnd (B2R x * B2R y).
Proof.
  unfold fmul. pose proof (Bmult_correct 53 1024 prec53 emax1024 mode_NE x y) as H. cbn [round_mode] in H. revert H.
  destruct (Rlt_bool _ _); intros H F.
  - destruct H as (H1 & H2 & _). rewrite F in H2. symmetry in H2. apply andb_true_iff in H2. tauto.
  - rewrite <- is_finite_SF_B2SF, H in F. discriminate F.
Qed.

Lemma scale_any sr s v : side sr s -> 0 < s < 2 ^ 30 -> is_finite v = true -> (0 <= B2R v <= 516)%R ->
  is_finite (fmul v sr) = true /\ (Rabs (B2R (fmul v sr)) <= IZR (2 ^ 30))%R.
Proof.
  intros (Fs & Ts & _) Hs Fv Bv. destruct (fmul_finite _ _ Fs) as (_ & Fr & Er).
  destruct (is_int_of_Z 517 ltac:(lia)) as [_ E5]. rewrite E5 in Er.
  set (r := B2R (fmul (f_of_Z 517) sr)) in *. set (q := B2R sr) in *.
  assert (Lr : (r < IZR (2 ^ 30))%R).
  { apply Rnot_le_lt. intros C. assert (2 ^ 30 <= s); [|lia]. rewrite <- Ts. rewrite <- (Ztrunc_IZR (2 ^ 30)). apply Ztrunc_le. exact C. }
  assert (Gr : (1 <= r)%R).
  { apply Rnot_lt_le. intros C. assert (s <= 0); [|lia]. rewrite <- Ts. destruct (Rlt_or_le r 0) as [N|N].
    - rewrite Ztrunc_ceil by lra. apply Zceil_glb. lra.
    - rewrite Ztrunc_floor by lra. apply Zlt_succ_le. change (Z.succ 0) with 1. apply Zfloor_lub_lt || (apply lt_IZR; eapply Rle_lt_trans; [apply Zfloor_lb|lra]). }
  assert (Q0 : (0 < q)%R).
  { apply Rnot_le_lt. intros C. assert (r <= 0)%R; [|lra]. rewrite Er. rewrite <- (rnd_IZR 0) by lia. apply rnd_le. lra. }
  assert (Q1 : (517 * q <= IZR (2 ^ 30))%R).
  { apply Rnot_lt_le. intros C. assert (IZR (2 ^ 30) <= r)%R; [|lra]. rewrite Er.
    replace (IZR (2 ^ 30)) with (rnd (IZR (2 ^ 30))); [apply rnd_le; lra|]. apply rnd_IZR. lia. }
  assert (B : (0 <= B2R v * q <= 517 * q)%R) by nra.
  destruct (fmul_correct v sr 30) as [C D]; try assumption; try lia.
  - fold q. change (bpow radix2 30) with (IZR (2 ^ 30)). rewrite Rabs_pos_eq by lra. lra.
  - split; [exact D|]. rewrite C. fold q. 
    assert (0 <= rnd (B2R v * q))%R by (rewrite <- (rnd_IZR 0) by lia; apply rnd_le; lra).
    rewrite Rabs_pos_eq by assumption. apply Rle_trans with r; [rewrite Er; apply rnd_le; lra|lra].
Qed.

Lemma scale_ok v : is_finite v = true -> (0 <= B2R v <= 516)%R ->
  is_finite (fmul v (f_of_Z 1)) = true /\ (Rabs (B2R (fmul v (f_of_Z 1))) <= IZR (2 ^ 30))%R.
Proof. intros F B. apply (scale_any _ 517); [exact side_one|lia|exact F|exact B]. Qed.

Lemma consume_runs cfg hm l : forall st,
  Forall (fun p => Forall fine (fst p)) l ->
  (forall ims, c_images st = Some ims -> exists ims', update_all (g_sr cfg) (g_edges cfg) hm ims (map mk l) = Ok ims') ->
  exists st', ofold (consume cfg hm) l st = Ok st'.
Proof.
  induction l as [|p l IH]; intros st F Hi; [eexists; reflexivity|].
  inversion F as [|? ? F1 F3]; subst. cbn [ofold].
  assert (A1 : forall f, exists f', append_hits no_fault f (fst p) = Ok f').
  { intros f. apply append_hits_total. eapply Forall_impl; [|exact F1]. intros h [_ (_ & _ & _ & t & Et & _)]. congruence. }
  assert (A2 : forall f, exists f', append_neutrons no_fault f (snd p) = (Ok tt, f')).
  { intros f. destruct (append_neutrons_ok f (snd p)) as (f' & E & _). eauto. }
  enough (S : exists st1, consume cfg hm st p = Ok st1 /\
     forall ims, c_images st1 = Some ims -> exists ims', update_all (g_sr cfg) (g_edges cfg) hm ims (map mk l) = Ok ims').
  { destruct S as (st1 & E & I). rewrite E. cbn [obind]. apply IH; assumption. }
  unfold consume, statements. cbn [ofold]. unfold put_hits at 1. cbn [mk t_hits].
  assert (B1 : exists st1, (match c_hits st with
     | None => Ok st
     | Some f => let! f' := append_hits no_fault f (fst p) in
        Ok (Cli (c_ts st) (Some f') (c_events st) (c_images st) (c_nhits st) (c_nneutrons st)) end) = Ok st1 /\
     c_images st1 = c_images st).
  { destruct (c_hits st) as [f|]; [|eauto]. destruct (A1 f) as (f' & ->). cbn [obind]. eauto. }
  destruct B1 as (st1 & -> & I1). cbn [obind]. unfold put_events at 1. cbn [mk t_neutrons].
  assert (B2 : exists st2, (match c_events st1 with
     | None => Ok st1
     | Some f => let (r, f') := append_neutrons no_fault f (snd p) in
        let! _ := r in
        Ok (Cli (c_ts st1) (c_hits st1) (Some f') (c_images st1) (c_nhits st1) (c_nneutrons st1)) end) = Ok st2 /\
     c_images st2 = c_images st).
  { destruct (c_events st1) as [f|]; [|eauto]. destruct (A2 f) as (f' & ->). cbn [obind]. eauto. }
  destruct B2 as (st2 & -> & I2). cbn [obind]. unfold put_images at 1. rewrite I2.
  destruct (c_images st) as [ims|].
  - destruct (Hi ims eq_refl) as (ims' & U). unfold update_all in U. cbn [map ofold] in U.
    fold (mk p). destruct (update_images _ _ _ _ _) as [i1| | |]; cbn [obind] in U |- *; try discriminate U.
    eexists. split; [reflexivity|]. cbn [c_images put_counts]. intros i E. injection E as <-. exists ims'. exact U.
  - cbn [obind]. eexists. split; [reflexivity|]. cbn [c_images]. rewrite I2. discriminate.
Qed.

Lemma events_all ext acfg hss : Forall (fun hs => zlen hs <= 2 ^ 21 /\ Forall fine hs) hss ->
  exists l, all_events ext acfg hss = Ok l /\ Forall (fun p => Forall fine (fst p)) l /\
   Forall (fun e => (0 <= B2R (n_x e) <= 516)%R /\ (0 <= B2R (n_y e) <= 516)%R) (concat (map snd l)).
Proof.
  induction 1 as [|hs hss [H1 H2] _ (l & E & F & G)]; cbn [all_events].
  - exists []. repeat split; constructor.
  - destruct (neutrons_exist ext acfg hs H1 H2) as (ns & N & B). apply events_of_spec in N.
    rewrite N, E. cbn [obind]. eexists. split; [reflexivity|]. split; [constructor; assumption|].
    cbn [map concat snd]. apply Forall_app. auto.
Qed.

Lemma C47_succeeds_l ext cfg md hm size fuel ds st0 s :
  Forall dataset_ok ds -> Forall no_false_header ds ->
  0 < size -> cuts_at_datasets size ds -> (length (stream ds) <= fuel)%nat ->
  side (g_sr cfg) s -> 0 < s < 2 ^ 30 -> (2 <= length (g_edges cfg))%nat ->
  (forall ims, c_images st0 = Some ims -> exists n, shape n s ims) ->
  (forall hss s', processed md (c_ts st0) ds hss s' ->
     Forall (fun h => (md = GDC_mode -> h_spider h < 2 ^ 48) /\ (md = TDC_mode -> h_tof h <> None)) (concat hss)) ->
  exists st, chunk_loop fuel ext cfg md hm size (Reader (stream ds) 0) st0 = Ok st.
Proof.
  intros Ho Hn Hs Hc Hf Hsr Hsz He Hi Hh.
  assert (Hb : bytes_ok (stream ds)) by (apply stream_ok; exact Ho).
  pose proof (pass_processed md ds Ho (c_ts st0)) as PR.
  pose proof (processed_facts _ _ Ho _ _ _ PR (Hh _ _ PR)) as FA.
  destruct (events_all ext (g_abs cfg) _ FA) as (l & EV & F & G).
  assert (R : exists st', ofold (consume cfg hm) l (set_ts st0 (snd (pass md (map ds_item ds) (c_ts st0)))) = Ok st').
  { apply consume_runs; [exact F|]. cbn [set_ts c_images]. intros ims E. destruct (Hi ims E) as (n & Sh).
    destruct hm.
    - eapply update_succeeds_l; [exact Hsr|exact He|exact Sh|].
      assert (Fm : flat_map (entries true) (map mk l) = map entry_of_hit (concat (map fst l))).
      { clear. induction l as [|p l IH]; [reflexivity|]. cbn [map flat_map concat entries mk t_hits]. rewrite IH, map_app. reflexivity. }
      rewrite Fm. apply Forall_map, Forall_concat, Forall_map.
      eapply Forall_impl; [|exact F]. intros p Fp. eapply Forall_impl; [|exact Fp].
      intros h [_ (X & Y & _ & t & Et & _)]. split; [unfold entry_of_hit, tof_ns; cbn [en_tof]; rewrite Et; eauto|].
      intros v Hv Fv. apply (scale_any _ s); [exact Hsr|exact Hsz|exact Fv|].
      assert (I : exists z, 0 <= z <= 515 /\ is_int v z).
      { destruct Hv as [->| ->]; [exists (h_x h)|exists (h_y h)]; (split; [lia|apply is_int_of_Z; lia]). }
      destruct I as (z & Hz & _ & E'). rewrite E'. split; apply IZR_le; lia.
    - eapply C28_events_l; [exact Hsr|exact He|exact Sh|].
      assert (Fm : flat_map t_neutrons (map mk l) = concat (map snd l)).
      { clear. induction l as [|p l IH]; [reflexivity|]. cbn [map flat_map concat mk t_neutrons]. rewrite IH. reflexivity. }
      rewrite Fm. eapply Forall_impl; [|exact G]. intros e [X Y] v [->| ->] Fv; apply (scale_any _ s); assumption. }
  destruct R as (st & R). exists st. apply loop_run; try assumption.
  apply run_chunk_items; [exact Hb|]. split; [reflexivity|]. exists (map ds_item ds).
  split; [apply stream_items; assumption|]. exists l. split; [exact EV|exact R].
Qed.

(** * The command line *)

Lemma chosen_snoc {X A} (sel : X -> option A) dflt args a v w : chosen sel dflt args v ->
  w = match sel a with Some x => x | None => v end -> chosen sel dflt (args ++ [a]) w.
Proof.
  intros H ->. destruct (sel a) as [x|] eqn:E.
  - left. exists args, a, []. repeat split; [exact E|constructor].
  - destruct H as [(l & y & r & -> & S & F)|[-> F]].
    + left. exists l, y, (r ++ [a]). rewrite <- List.app_assoc. split; [reflexivity|]. split; [exact S|].
      apply Forall_app. split; [exact F|constructor; [exact E|constructor]].
    + right. split; [reflexivity|]. apply Forall_app. split; [exact F|constructor; [exact E|constructor]].
Qed.
Lemma chosen_unique {X A} (sel : X -> option A) dflt args : forall v w,
  chosen sel dflt args v -> chosen sel dflt args w -> v = w.
Proof.
  induction args as [|a args IH] using rev_ind; intros v w H H'.
  - destruct H as [(l & x & r & E & _)|[-> _]]; [destruct l; discriminate E|].
    destruct H' as [(l & x & r & E & _)|[-> _]]; [destruct l; discriminate E|]. reflexivity.
  - assert (St : forall u, chosen sel dflt (args ++ [a]) u -> match sel a with Some x => u = x | None => chosen sel dflt args u end).
    { clear. intros u [(l & x & r & E & S & F)|[-> F]].
      - destruct r as [|y r] using rev_ind.
        + apply app_inj_tail in E. destruct E as [-> ->]. rewrite S. reflexivity.
        + change (l ++ x :: r ++ [y]) with (l ++ (x :: r) ++ [y]) in E. rewrite List.app_assoc in E.
          apply app_inj_tail in E. destruct E as [-> ->]. apply Forall_app in F. destruct F as [F1 F2].
          rewrite (Forall_inv F2). left. exists l, x, r. auto.
      - apply Forall_app in F. destruct F as [F1 F2]. rewrite (Forall_inv F2). right. auto. }
    apply St in H. apply St in H'. destruct (sel a); [congruence|]. eapply IH; eassumption.
Qed.

Lemma mega n : u64 (u64 (n * 1024) * 1024) = (n * 2 ^ 20) mod 2 ^ 64.
Proof. unfold u64. rewrite Zmult_mod_idemp_l. f_equal. lia. Qed.

Lemma default_read stoull : read_options stoull [] default_options.
Proof. repeat split; right; (split; [reflexivity|constructor]). Qed.

Lemma parse_snoc stoull args o a o' : read_options stoull args o -> parse_arg stoull o a = Ok o' ->
  read_options stoull (args ++ [a]) o'.
Proof.
  intros (H1 & H2 & H3 & H4 & H5 & H6 & H7 & H8 & H9 & H10 & H11 & H12) E.
  destruct a as [s|s|s|s|s|s|s|s|s|s| | |]; cbn [parse_arg] in E;
    try (destruct (stoull s) as [n|] eqn:Es); try discriminate E; apply Ok_inj in E; subst o';
    (repeat apply conj; cbn [o_input o_hits o_events o_config o_tiff o_base o_mode o_spectra o_timing o_chunk o_debug o_verbose];
     (eapply chosen_snoc; [eassumption|cbn [sel_i sel_H sel_E sel_u sel_T sel_f sel_m sel_s sel_t sel_c sel_d sel_v]; try reflexivity])).
  rewrite Es. apply mega.
Qed.

Lemma fold_read stoull args o : ofold (parse_arg stoull) args default_options = Ok o ->
  read_options stoull args o /\ acceptable stoull args.
Proof.
  revert o. induction args as [|a args IH] using rev_ind; intros o E.
  - cbn in E. apply Ok_inj in E. subst o. split; [apply default_read|]. split; [intros []|intros s []].
  - rewrite ofold_app in E. destruct (ofold _ args _) as [o1| | |]; cbn [obind ofold] in E; try discriminate E.
    destruct (IH o1 eq_refl) as [A [B1 B2]].
    destruct (parse_arg stoull o1 a) as [o2| | |] eqn:P; cbn [obind] in E; try discriminate E.
    apply Ok_inj in E. subst o2. split; [eapply parse_snoc; eassumption|]. split.
    + intros I. apply in_app_or in I. destruct I as [I|[->|[]]]; [auto|discriminate P].
    + intros s I. apply in_app_or in I. destruct I as [I|[->|[]]]; [auto|]. cbn in P. intros N. rewrite N in P. discriminate P.
Qed.
Lemma fold_accepts stoull args : forall o, acceptable stoull args -> exists o', ofold (parse_arg stoull) args o = Ok o'.
Proof.
  induction args as [|a args IH]; intros o [A B]; [eexists; reflexivity|]. cbn [ofold].
  assert (S : acceptable stoull args).
  { split; [intros I; apply A; right; exact I|intros s I; apply B; right; exact I]. }
  assert (P : exists o1, parse_arg stoull o a = Ok o1).
  { destruct a; cbn [parse_arg]; eauto.
    - destruct (stoull s) eqn:E; [eauto|]. exfalso. apply (B s); [left; reflexivity|exact E].
    - exfalso. apply A. left. reflexivity. }
  destruct P as (o1 & ->). cbn [obind]. apply IH. exact S.
Qed.
Lemma read_unique stoull args o o' : read_options stoull args o -> read_options stoull args o' -> o = o'.
Proof.
  intros (H1 & H2 & H3 & H4 & H5 & H6 & H7 & H8 & H9 & H10 & H11 & H12)
         (K1 & K2 & K3 & K4 & K5 & K6 & K7 & K8 & K9 & K10 & K11 & K12).
  destruct o, o'; cbn in *. f_equal; eapply chosen_unique; eassumption.
Qed.

Lemma C48_l stoull args o : parse_arguments stoull args = Ok o <->
  acceptable stoull args /\ read_options stoull args o /\ valid_options o.
Proof.
  unfold parse_arguments, valid_options. split.
  - intros E. destruct (ofold (parse_arg stoull) args default_options) as [o1| | |] eqn:F; cbn [obind] in E; try discriminate E.
    apply fold_read in F. destruct F as [A B].
    destruct (String.eqb_spec (o_input o1) "") as [|N]; [discriminate E|].
    destruct (String.eqb_spec (o_mode o1) "hit") as [M|M]; cbn [negb andb] in E;
    [|destruct (String.eqb_spec (o_mode o1) "neutron") as [M'|M']; cbn [negb andb] in E; [|discriminate E]];
    (destruct (String.eqb_spec (o_timing o1) "gdc") as [T|T]; cbn [negb andb] in E;
     [|destruct (String.eqb_spec (o_timing o1) "tdc") as [T'|T']; cbn [negb andb] in E; [|discriminate E]]);
    apply Ok_inj in E; subst o; auto 8.
  - intros (A & R & N & M & T). destruct (fold_accepts stoull args default_options A) as (o1 & F).
    rewrite F. cbn [obind]. destruct (fold_read _ _ _ F) as [R1 _].
    rewrite (read_unique _ _ _ _ R1 R).
    destruct (String.eqb_spec (o_input o) ""); [contradiction|].
    destruct M as [-> | ->]; destruct T as [-> | ->]; reflexivity.
Qed.
Lemma C48_rejects_l stoull args : (forall o, parse_arguments stoull args <> Ok o) ->
  exists e, parse_arguments stoull args = Throw e.
Proof.
  intros H. unfold parse_arguments in *.
  assert (P : forall l o, (exists o', ofold (parse_arg stoull) l o = Ok o') \/ (exists e, ofold (parse_arg stoull) l o = Throw e)).
  { induction l as [|a l IH]; intros o; [left; eexists; reflexivity|]. cbn [ofold].
    assert (Q : (exists o', parse_arg stoull o a = Ok o') \/ exists e, parse_arg stoull o a = Throw e).
    { destruct a; cbn [parse_arg]; eauto. destruct (stoull s); eauto. }
    destruct Q as [(o' & ->)|(e & ->)]; cbn [obind]; [apply IH|right; eauto]. }
  destruct (P args default_options) as [(o' & E)|(e & E)]; rewrite E in *; cbn [obind] in *; [|eauto].
  destruct (String.eqb _ _); [eauto|]. destruct (_ && _); [eauto|]. destruct (_ && _); [eauto|].
  exfalso. apply (H o'). reflexivity.
Qed.

(** * Remaining statements *)

Lemma C34_count_l m size : m <> [] -> 0 < size ->
  exists r0, open_reader (Some m) = Ok r0 /\
  forall n, is_eof (snd (reads n size r0)) = true <-> (zlen m + size - 1) / size <= Z.of_nat n.
Proof.
  intros Hm Hs. destruct (C34_l m size Hm Hs) as (r0 & E & H). exists r0. split; [exact E|].
  intros n. destruct (H n) as (cs & r & -> & _ & _ & I). cbn [snd]. rewrite I.
  pose proof (Z.div_mod (zlen m + size - 1) size ltac:(lia)) as D.
  pose proof (Z.mod_pos_bound (zlen m + size - 1) size Hs) as B. split; intros X; nia.
Qed.

Lemma C35_two_l ext cfg md hm ds size size' fuel st st' :
  Forall dataset_ok ds -> Forall no_false_header ds -> (length (stream ds) <= fuel)%nat ->
  0 < size -> cuts_at_datasets size ds -> 0 < size' -> cuts_at_datasets size' ds ->
  (chunk_loop fuel ext cfg md hm size (Reader (stream ds) 0) st = Ok st' <->
   chunk_loop fuel ext cfg md hm size' (Reader (stream ds) 0) st = Ok st').
Proof. intros. rewrite !loop_run by assumption. reflexivity. Qed.

Lemma C35_any_bytes_l ext cfg md hm size m fuel st st' :
  bytes_ok m -> 0 < size -> size mod 8 = 0 -> boundaries_clean size m -> (length m <= fuel)%nat ->
  (chunk_loop fuel ext cfg md hm size (Reader m 0) st = Ok st' <->
   run_chunk ext cfg md hm st m = Ok (st', None)).
Proof.
  intros Hb Hs Ha Hc Hf.
  exact (chunk_loop_clean ext cfg md hm size m Hs Ha Hb fuel 0 st st' (Z.le_refl 0) Hf Hc).
Qed.

Lemma C35_never_caught_l ext cfg md hm st m st' e : bytes_ok m ->
  run_chunk ext cfg md hm st m = Ok (st', e) -> e = None.
Proof. intros Hb E. apply run_chunk_items in E; [tauto|exact Hb]. Qed.

Lemma C34_zero_mega_l stoull args s n : stoull s = Some n -> (n * 2 ^ 20) mod 2 ^ 64 = 0 ->
  forall o, parse_arguments stoull (args ++ [Ac s]) = Ok o ->
  o_chunk o = 0 /\ forall fuel ext cfg md hm r st,
    chunk_loop (S fuel) ext cfg md hm (o_chunk o) r st = Ok st.
Proof.
  intros Hs Hn o E. apply C48_l in E. destruct E as (_ & R & _).
  assert (C : chosen (sel_c stoull) (5 * 2 ^ 30) (args ++ [Ac s]) 0).
  { left. exists args, (Ac s), []. split; [reflexivity|]. split; [|constructor].
    cbn [sel_c]. rewrite Hs, Hn. reflexivity. }
  destruct R as (_ & _ & _ & _ & _ & _ & _ & _ & _ & R & _).
  rewrite (chosen_unique _ _ _ _ _ R C). split; [reflexivity|]. intros. apply C34_zero_l.
Qed.
