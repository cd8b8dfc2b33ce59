(** Proofs about the GUI and true events (C93). *)
From Coq Require Import Reals.
From Verif Require Import P_Hit P_Measure P_HitProps P_Stream P_MeasureHist P_Lib P_LibHit P_Recover P_Events P_Gui.
From Verif Require Export S_Watch.
From Coq Require Import Lia ZifyBool Zify.
Local Open Scope Z_scope.
Ltac Zify.zify_post_hook ::= Z.to_euclidean_division_equations.

Lemma pixels_app a b : S_Lib.pixels (a ++ b) = S_Lib.pixels a ++ S_Lib.pixels b.
Proof. apply filter_app. Qed.

Lemma early_track t H : 0 <= t <= H -> H < 2 ^ 30 -> alt_rollover (H mod 2 ^ 30) (alt_at t) = H / 2 ^ 30.
Proof.
  intros Ht HH. unfold alt_rollover, alt_at. cbn [alt_roll alt_prev].
  rewrite (Z.mod_small H), (Z.mod_small t), (Z.div_small H), (Z.div_small t) by lia. destruct (Z.ltb_spec H t); [lia|].
  destruct (u64 (H - t) >? _); reflexivity.
Qed.
Lemma follows_says c f T T' : fields_ok f -> 0 <= T < 2 ^ 64 -> 0 <= T' < 2 ^ 64 ->
  follows T T' -> T' mod 2 ^ 30 = time30 f ->
  says c f T' (fst (packet_to_hit_alt (pixel_packet f) (alt_at T) c)) /\
  snd (packet_to_hit_alt (pixel_packet f) (alt_at T) c) = alt_at T'.
Proof.
  intros Hf HT HT' [Hd|Hd] Hm; [apply alt_says; assumption|].
  rewrite alt_eq. cbv zeta. cbn [fst snd]. rewrite spidertime30_fields by exact Hf. rewrite <- Hm.
  rewrite early_track by lia. split; [|reflexivity].
  assert (Et : u64 (T' mod 2 ^ 30 + u64 (T' / 2 ^ 30 * 2 ^ 30)) = T').
  { rewrite Z.mod_small, Z.div_small by lia. unfold u64. rewrite Z.mul_0_l, Z.mod_0_l, Z.add_0_r by lia. apply Z.mod_small. lia. }
  rewrite Et. unfold says. cbn [h_x h_y h_tot h_toa h_ftoa h_spider h_tof].
  destruct (pixel_packet_decode f Hf) as (H1 & H2 & H3 & H4 & H5 & H6 & _).
  rewrite H1, H2, H3, H5, H6, layout_place, <- surjective_pairing.
  repeat (split; [reflexivity|]). f_equal. unfold u32. lia.
Qed.

Lemma watched_hits chip t l hs t' : watched follows chip t l hs t' -> 0 <= t < 2 ^ 48 -> forall rest,
  alt_hits (alt_at t) (S_Lib.pixels (map (pair chip) (flat_map report l)) ++ rest) = hs ++ alt_hits (alt_at t') rest /\
  0 <= t' < 2 ^ 48.
Proof.
  intros W. induction W as [t|t G l hs t' HG W IH|t T l hs t' W IH|t x y tot ftoa H l hs t' Hx Hy Ht Hf H0 Hd W IH];
    intros B rest; cbn [flat_map report app map].
  - split; [reflexivity|exact B].
  - set (lo := G mod 2 ^ 32). set (hi := G / 2 ^ 32).
    assert (0 <= lo < 2 ^ 32) by (unfold lo; lia). assert (0 <= hi < 2 ^ 16) by (unfold hi; lia).
    unfold S_Lib.pixels. cbn [filter snd].
    rewrite kind_low by (unfold word_packet; cbn [b7]; clearbody lo; lia).
    rewrite kind_high by (unfold word_packet; cbn [b7]; clearbody hi; lia).
    apply IH, B.
  - set (lo := T mod 2 ^ 32). assert (0 <= lo < 2 ^ 32) by (unfold lo; lia).
    unfold S_Lib.pixels. cbn [filter snd].
    rewrite kind_pulse by (unfold word_packet; cbn [b7]; clearbody lo; lia).
    apply IH, B.
  - set (f := PF 11 x y (H mod 2 ^ 14) tot ftoa (H / 2 ^ 14 mod 2 ^ 16)).
    assert (Ff : fields_ok f) by (unfold fields_ok, f; cbn [f_type f_x f_y f_toa f_tot f_ftoa f_spidr]; lia).
    unfold S_Lib.pixels. cbn [filter snd]. rewrite (kind_pixel f Ff eq_refl). fold (S_Lib.pixels (map (pair chip) (flat_map report l))).
    cbn [app alt_hits].
    destruct (follows_says chip f t H Ff) as [Hs Ha]; [lia|lia|exact Hd| |].
    { unfold time30, f. cbn [f_toa f_spidr]. lia. }
    destruct (packet_to_hit_alt (pixel_packet f) (alt_at t) chip) as [h a']. cbn [fst snd] in *. subst a'.
    destruct (IH H0 rest) as [E B']. rewrite E. split; [|exact B'].
    destruct Hs as (S1 & S2 & S3 & S4 & S5 & S6). unfold f in *. cbn [f_x f_y f_tot f_toa f_ftoa] in *.
    destruct h as [hx hy htot htoa hftoa htof hsp]. cbn [h_x h_y h_tot h_toa h_ftoa h_spider h_tof] in *. subst.
    rewrite <- S1. reflexivity.
Qed.

Lemma watched_run_hits t xs hs : watched_run follows t xs hs -> 0 <= t < 2 ^ 48 ->
  Forall dataset_ok (map dataset_of xs) /\
  alt_hits (alt_at t) (S_Lib.pixels (payloads (map dataset_of xs))) = hs.
Proof.
  intros W. induction W as [t|t b3 chip b5 l hs t' xs hs' B3 C B5 L W1 W IH]; intros B; [split; [constructor|reflexivity]|].
  unfold payloads. cbn [map dataset_of flat_map d_chip d_payload]. fold (payloads (map dataset_of xs)).
  rewrite pixels_app. replace (schar chip) with chip by (unfold schar; destruct (chip <? 128) eqn:Ec; lia).
  destruct (watched_hits _ _ _ _ _ W1 B (S_Lib.pixels (payloads (map dataset_of xs)))) as [E B']. rewrite E.
  destruct (IH B') as [O IH']. rewrite IH'. split; [|reflexivity].
  constructor; [|exact O]. repeat apply conj; cbn [d_b3 d_chip d_b5 d_payload]; try assumption;
    try apply report_ok; unfold is_byte in *; lia.
Qed.

Lemma watched_bounds can chip t l hs t' : watched can chip t l hs t' -> Forall (fun h => h_spider h < 2 ^ 48) hs.
Proof. intros W. induction W; try assumption; constructor; [cbn; lia|assumption]. Qed.
Lemma watched_run_bounds t xs hs : watched_run follows t xs hs -> Forall (fun h => h_spider h < 2 ^ 48) hs.
Proof. intros W. induction W; [constructor|]. apply Forall_app. split; [eapply watched_bounds; eassumption|assumption]. Qed.

Lemma watched_file xs hs : watched_run follows 0 xs hs -> 
  bytes_ok (stream (map dataset_of xs)) /\ file_hits (stream (map dataset_of xs)) hs /\ early hs.
Proof.
  intros W. destruct (watched_run_hits _ _ _ W ltac:(lia)) as [O E].
  split; [apply P_Core.stream_ok; exact O|]. split; [|exact (watched_run_bounds _ _ _ W)].
  exists (payloads (map dataset_of xs)). split; [apply stream_framed; [reflexivity|exact O]|]. symmetry. exact E.
Qed.
Lemma C93_hits_l xs hs : watched_run follows 0 xs hs -> read_raw (Some (stream (map dataset_of xs))) = Ok hs.
Proof. intros W. destruct (watched_file xs hs W) as (B & F & _). apply file_hits_read; assumption. Qed.

(** The events of isolated sources. *)
Lemma hits_events_observed a w evs hs own ns : Forall sound_hit hs -> Forall (fun h => sensor_hit h) hs ->
  zlen hs <= 2 ^ 21 -> 0 <= a <= 2 -> 0 <= w <= 75 -> observed 4 a w 5 75 evs hs own ->
  hits_events hs ns -> accounts a w evs hs own ns.
Proof.
  intros Fs F L Ha Hw (I & K & O) HE.
  assert (Fk : Forall hit_ok hs) by (eapply Forall_impl; [|exact Fs]; intros h Hh; apply Hh).
  assert (Len : length own = length hs) by (apply (iso_length _ _ _ _ _ _ _ _ I)).
  assert (Q : forall h, In h hs -> exists i l, nth_error own i = Some l /\ nth_error hs i = Some h).
  { intros h Hh. apply In_nth_error in Hh. destruct Hh as (i & Hi).
    assert (Hl : (i < length own)%nat) by (rewrite Len; apply nth_error_Some; congruence).
    apply nth_error_Some in Hl. destruct (nth_error own i) as [l|] eqn:El; [|contradiction]. eauto. }
  assert (Fp : Forall (fun h => sensor_hit h /\ 0 < h_tot h) hs).
  { apply Forall_forall. intros h Hh. split; [apply (proj1 (Forall_forall _ _) F h Hh)|].
    destruct (Q h Hh) as (i & l & E1 & E2). apply (O i l h E1 E2). }
  assert (Sp : separable 4 (fits_box (5 * 2 ^ 20) 75) hs own).
  { exact (isolated_separable 4 a w 5 75 _ hs own ltac:(lia) ltac:(lia) ltac:(lia) I). }
  destruct (separable_run 4 _ _ _ (Nat.lt_0_succ 3) Sp) as (op & closed & C).
  destruct HE as (ls & op' & closed' & C' & HE).
  destruct (clusters_unique _ _ _ _ _ _ C _ _ _ C') as (<- & <- & <-).
  assert (Ek : (length op + length closed)%nat = length evs).
  { pose proof (clusters_label_bound _ _ _ _ _ _ C) as LB. rewrite Forall_forall in LB.
    pose proof (clusters_all_used _ _ _ _ _ _ C) as AU.
    destruct (Nat.lt_trichotomy (length evs) (length op + length closed)) as [X|[X|X]]; [|symmetry; exact X|].
    - pose proof (AU _ X) as Y. apply K in Y. lia.
    - apply K in X. apply LB in X. lia. }
  rewrite Ek in HE.
  destruct (C87_one_each_l 4 gui_cfg (5 * 2 ^ 20) no_ext abs_new hs own (length evs) (Nat.lt_0_succ 3) Fk Fp L five_is ltac:(cbn; lia) ltac:(cbn; lia) Sp K)
    as (o' & ns' & E1 & E2 & E3 & E4).
  destruct (C87_events_l 4 gui_cfg (5 * 2 ^ 20) no_ext abs_new hs own MCentroid _ (length evs) (Nat.lt_0_succ 3) Fk five_is ltac:(cbn; lia) Sp K eq_refl)
    as (o2 & G1 & G2).
  rewrite E1 in G1. apply Ok_inj in G1. subst o2. apply G2 in E2.
  pose proof (P_Gui.events_unique _ _ _ _ E2 _ HE) as <-.
  split; [exact E3|]. intros l e El. destruct (E4 l e El) as [N C0].
  assert (In l own) by (apply K; rewrite <- E3; apply nth_error_Some; congruence).
  apply tells_l; try assumption; try lia.
  - pose proof (members_nonempty l own hs Len H) as Z1. intros Z2. rewrite Z2 in Z1. apply Z1; reflexivity.
  - pose proof (zlen_members l own hs). lia.
  - apply Forall_forall. intros h Hh. destruct (members_in l own hs h Hh) as (i & Ei & Eh).
    assert (Hin : In h hs) by (eapply nth_error_In; exact Eh).
    destruct (O i l h Ei Eh) as [O1 O2].
    split; [apply (proj1 (Forall_forall _ _) F h Hin)|]. split; [exact O1|]. split; [|exact O2].
    exact (iso_stems _ _ _ _ _ _ _ _ I i l h Ei Eh).
Qed.

Lemma C93_events_l ext rot g a w evs xs hs own : u_busy g = false /\ o_method (u_abs g) = MCentroid ->
  watched_run follows 0 xs hs -> hs <> [] -> zlen hs <= 2 ^ 21 -> 0 <= a <= 2 -> 0 <= w <= 75 ->
  observed 4 a w 5 75 evs hs own ->
  exists g', gui_read ext rot g (Chosen (Some (stream (map dataset_of xs)))) = Ok g' /\
    (u_busy g' = false /\ o_method (u_abs g') = MCentroid) /\
    accounts a w evs hs own (u_events g') /\ u_hits g' = zlen hs /\ u_count g' = Some (zlen evs).
Proof.
  intros R W N L Ha Hw Ob. destruct (watched_file xs hs W) as (B & F & E).
  destruct (C70_read_l ext rot g _ hs R B F N E) as (g' & ns & cs & E1 & E2 & E3 & <- & E5 & E6 & _).
  pose proof (file_hits_sound _ _ B F E) as Fs. pose proof (file_hits_sensor _ _ B F) as Fh.
  assert (A : accounts a w evs hs own (u_events g')).
  { apply hits_events_observed; try assumption. eapply Forall_impl; [|exact Fh]. intros h Hh. apply Hh. }
  exists g'. split; [exact E1|]. split; [exact E2|]. split; [exact A|].
  assert (Le : zlen evs <= zlen hs).
  { destruct Ob as (I & K & _). unfold zlen. rewrite <- (iso_length _ _ _ _ _ _ _ _ I).
    rewrite <- (seq_length (length evs) 0). apply inj_le, NoDup_incl_length; [apply seq_NoDup|].
    intros l Hl. apply in_seq in Hl. apply K. lia. }
  pose proof (zlen_nonneg evs) as Z. destruct A as [A _]. rewrite E5, E6. unfold zlen in *. rewrite A in *.
  split; [|f_equal]; unfold i32; lia.
Qed.

Lemma C93_session_l ext rot d name a w evs xs hs own :
  watched_run follows 0 xs hs -> hs <> [] -> zlen hs <= 2 ^ 21 -> 0 <= a <= 2 -> 0 <= w <= 75 ->
  observed 4 a w 5 75 evs hs own ->
  exists g d' f gr ns,
    gui_run ext rot (gui_new, d) [ARead (Chosen (Some (stream (map dataset_of xs)))); ASave (Saving None (Some name) lib_works)] = Ok (g, d') /\
    k_h5 d' name = Some f /\ only_group f "events" ["x"; "y"; "tof_ns"; "NHits"; "tot"]%string gr /\
    In ("NHits"%string, Ints (map n_hits ns)) gr /\
    (forall nm fld, event_doubles nm fld -> In (nm, Doubles (map fld ns)) gr) /\
    accounts a w evs hs own ns.
Proof.
  intros W N L Ha Hw Ob.
  destruct (C93_events_l ext rot gui_new a w evs xs hs own (conj eq_refl eq_refl) W N L Ha Hw Ob) as (g & E & R & A & _).
  assert (Nz : u_events g <> []).
  { intros Z. destruct A as [A _]. rewrite Z in A. destruct Ob as (I & K & _).
    destruct hs as [|h hs]; [congruence|]. pose proof (iso_length _ _ _ _ _ _ _ _ I) as Ln.
    destruct own as [|l own]; [discriminate|]. assert (In l (l :: own)) by (left; reflexivity). apply K in H. cbn in A. lia. }
  destruct (C71_events_l g d name None R Nz ltac:(discriminate)) as (d' & f & gr & S1 & S2 & S3 & S4 & S5).
  exists g, d', f, gr, (u_events g). split; [|auto].
  unfold gui_run. cbn [ofold gui_step]. rewrite E. cbn [obind]. cbn [gui_step]. rewrite S1. reflexivity.
Qed.

(** * Limits *)
Definition late_run : list (Z * Z * Z * list act) := [(51, 0, 0, [Fire 100 200 77 5 (2 ^ 30)])].
Definition gap_run : list (Z * Z * Z * list act) := [(51, 0, 0, [Fire 100 200 77 5 (2 ^ 29); Fire 100 200 77 5 (2 ^ 30)])].
Lemma C93_late_l : exists xs hs, watched_run (fun t H => t <= H <= 2 ^ 30) 0 xs hs /\
  read_raw (Some (stream (map dataset_of xs))) <> Ok hs.
Proof.
  exists late_run. eexists. split.
  - eapply (wr_cons _ 0 _ _ _ _ _ (2 ^ 30)); try (unfold is_byte; lia); [vm_compute; discriminate| |apply wr_nil].
    eapply wd_fire; try lia. apply wd_nil.
  - intros E. assert (D : forall hs, read_raw (Some (stream (map dataset_of late_run))) = Ok hs -> map h_spider hs = [0]).
    { intros hs Eh. assert (P : (let! l := read_raw (Some (stream (map dataset_of late_run))) in Ok (map h_spider l)) = Ok [0])
        by (vm_compute; reflexivity). rewrite Eh in P. injection P as P. exact P. }
    apply D in E. discriminate E.
Qed.
Lemma C93_gap_l : exists xs hs, watched_run (fun t H => Z.abs (H - t) <= 2 ^ 29) 0 xs hs /\
  read_raw (Some (stream (map dataset_of xs))) <> Ok hs.
Proof.
  exists gap_run. eexists. split.
  - eapply (wr_cons _ 0 _ _ _ _ _ (2 ^ 30)); try (unfold is_byte; lia); [vm_compute; discriminate| |apply wr_nil].
    eapply wd_fire; try lia. eapply wd_fire; try lia. apply wd_nil.
  - intros E. assert (D : forall hs, read_raw (Some (stream (map dataset_of gap_run))) = Ok hs -> map h_spider hs = [2 ^ 29; 0]).
    { intros hs Eh. assert (P : (let! l := read_raw (Some (stream (map dataset_of gap_run))) in Ok (map h_spider l)) = Ok [2 ^ 29; 0])
        by (vm_compute; reflexivity). rewrite Eh in P. injection P as P. exact P. }
    apply D in E. discriminate E.
Qed.
