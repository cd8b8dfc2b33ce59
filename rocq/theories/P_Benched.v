(** Lemmas behind Properties_Benched.v. *)
From Coq Require Import Reals String Lra Lia Permutation.
From Flocq Require Import Core.
From Verif Require Import P_Measure P_Events P_EventsProgram P_CliRun P_Mmap P_Bench P_BenchSh F64Facts P_StreamRun.
From Verif Require Export S_Benched.
Local Open Scope Z_scope.

(** * The hits of a recording *)

(** Time of flight within a frame. *)
Definition in_frame (h : hit) : Prop := exists t, h_tof h = Some t /\ 0 <= t <= 666800.

Lemma recorded_frame near early chip k ps hs k' : recorded near early chip k ps hs k' -> Forall in_frame hs.
Proof.
  intros R. induction R as [k|g a P G p ps hs k E HG El R IH|g G P p ps hs k E Em R IH
    |g a P T p ps hs k E Ec A R IH|a P T p ps hs k C E Ec N R IH
    |g a T H f p ps hs k Hf Ht -> Es H0 A HT R IH|g a P p ps hs k C N K R IH|k p ps hs k' K R IH]; try assumption.
  - constructor.
  - constructor; [|exact IH]. unfold true_hit. destruct (place chip (f_x f) (f_y f)). exists (H - T). cbn [h_tof]. split; [reflexivity|lia].
Qed.
Lemma recording_frame near early k ds hss k' : recording near early k ds hss k' -> Forall in_frame (concat hss).
Proof.
  intros R. induction R as [k|k d ds chip hs hss k1 k2 C P R IH]; cbn [concat]; [constructor|].
  apply Forall_app. split; [|exact IH]. exact (recorded_frame _ _ _ _ _ _ _ P).
Qed.
Lemma counted_none {A} (P : A -> Prop) l n : counted P l n -> Forall (fun a => ~ P a) l -> n = 0.
Proof. induction 1 as [|a l n H C IH|a l n H C IH]; intros F; [reflexivity|inversion F; contradiction|]. inversion F. auto. Qed.
Lemma counted_all {A} (P : A -> Prop) l n : counted P l n -> Forall P l -> n = zlen l.
Proof. induction 1 as [|a l n H C IH|a l n H C IH]; intros F; [reflexivity| |inversion F; contradiction]. inversion F. rewrite zlen_cons, <- IH by assumption. lia. Qed.
Lemma counted_iff {A} (P Q : A -> Prop) l n : (forall a, P a <-> Q a) -> counted P l n -> counted Q l n.
Proof. intros E. induction 1 as [|a l n H C IH|a l n H C IH]; constructor; try assumption; firstorder. Qed.

(** * benchmark_raw2events *)

Lemma C102_raw2events_l ext micros input inp rest d ds hss k : Forall dataset_ok ds -> Forall no_false_header ds ->
  input inp = Some (stream ds) -> recording around true nothing_known ds hss k -> (micros < Z.to_nat (10 ^ 6))%nat ->
  exists r rep, raw2events ext micros input (inp :: rest) d = Ok r /\ rs_report r = Some rep /\
    rr_hits rep = zlen (concat hss) /\ rr_bad rep = 0 /\
    (exists v, largest (map h_spider (concat hss)) v /\ double_is (rr_max rep) (25 * v)) /\
    (exists final, goes_to d micros final /\ saved_hits d (rs_disk r) (concat hss) final) /\
    (d verify_file = None -> concat hss <> [] -> rs_end r = RDone (rr_max rep)).
Proof.
  intros O N I R M. destruct (C90_gdc_l ds hss k O R) as (s & P).
  assert (Hr : hits_running ds hss) by (exists s; exact P).
  assert (B : Forall (fun h => h_spider h < 2 ^ 48) (concat hss)) by (apply (recording_bounds _ _ _ _ R); discriminate).
  destruct (C85_events_l ext micros input inp rest d ds hss O N I Hr B M) as (r & rep & E & Er & Eh & C & V & F).
  exists r, rep. split; [exact E|]. split; [exact Er|]. split; [exact Eh|]. split; [|split; [exact V|split; [exact F|]]].
  - apply (counted_none _ _ _ C). eapply Forall_impl; [|exact (recording_frame _ _ _ _ _ _ R)].
    intros h (t & Et & Ht) (t' & Et' & L). rewrite Et in Et'. injection Et' as <-. lia.
  - intros Hd Hn. apply (C85_verified_l ext micros input inp rest d ds hss r rep O N I Hr B M Hd E Er). exact Hn.
Qed.

(** * benchmark_mmap *)

Lemma zlen_concat_events a w : forall xs nss, Forall2 (accounted a w) xs nss -> zlen (concat nss) = zlen (true_events xs).
Proof.
  induction 1 as [|x ns xs nss [L _] _ IH]; [reflexivity|]. unfold true_events in *. cbn [map concat].
  rewrite !zlen_app. unfold zlen in *. rewrite L. lia.
Qed.
Lemma five_ok : radius_is (f_of_Z 5) (5 * 2 ^ 20).
Proof. exact five_is. Qed.

Lemma over_60 h : over_limit 60 h <-> after_17us h.
Proof.
  split; intros (t & E & L); exists t; (split; [exact E|]).
  - apply Z.lt_succ_r. apply lt_IZR. rewrite succ_IZR. rewrite mult_IZR in L. lra.
  - apply IZR_le in L. rewrite mult_IZR. lra.
Qed.

Lemma rate_60 s r : asks s "60hz" -> asked_rate s r -> r = 60.
Proof.
  intros A [(l & w & l' & E & _ & F)|[_ F]].
  - destruct l' as [|q l'].
    + apply (f_equal (@rev _)) in E. rewrite rev_app_distr in E. cbn in E. injection E as <- _ _. reflexivity.
    + exfalso. assert (I : In (60, "60hz"%string) (q :: l')).
      { assert (L : last rates (0, ""%string) = last (l ++ (r, w) :: q :: l') (0, ""%string)) by (rewrite E; reflexivity).
        assert (L2 : forall (u : list (Z * string)) x z, z <> [] -> last (u ++ x :: z) (0, ""%string) = last z (0, ""%string)).
        { induction u as [|y u IH]; intros x z Hz; [destruct z; [contradiction|reflexivity]|]. cbn [app].
          rewrite <- (IH x z Hz). destruct u; reflexivity. }
        rewrite L2 in L by discriminate. cbn [rates last] in L. rewrite L. clear.
        revert q. induction l' as [|y l' IH]; intros q; [left; reflexivity|]. right. apply IH. }
      rewrite Forall_forall in F. apply (F _ I). exact A.
  - exfalso. unfold rates in F. do 5 (apply Forall_inv_tail in F). apply Forall_inv in F. apply F. exact A.
Qed.

Lemma C102_mmap_l fuel ext show opens env p input inp out s more d rw ds a w xs k :
  Forall dataset_ok ds -> Forall no_false_header ds -> input inp = Some (stream ds, rw) ->
  (asks s "mmap" -> rw = true) -> asks s "tgdc" -> 2 <= max_batch_len env -> (forall v, env = Some v -> 0 <= v) -> covers p ->
  (length (stream ds) < fuel)%nat -> opens out = true -> ends out ".csv" \/ ends out ".h5" ->
  recording around true nothing_known ds (map x_hits xs) k ->
  0 <= a -> 2 * a <= 5 -> 0 <= w <= 75 -> Forall (exposed 8 a w 5 75) xs ->
  exists r rep nss, mmap_main fuel ext show opens env p input (inp :: out :: s :: more) d = Ok r /\
    mr_status r = 0 /\ mr_report r = Some rep /\ mr_hits rep = zlen (true_hits xs) /\
    zlen (true_events xs) <= mr_events rep /\ (zlen ds < max_batch_len env -> mr_events rep = zlen (true_events xs)) /\
    (asks s "60hz" -> counted after_17us (true_hits xs) (mr_bad rep)) /\
    Forall2 (accounted a w) xs nss /\ written show opens d out (concat nss) 0 (mr_disk r).
Proof.
  intros O N I Rw Tg L2 Env Cov Fu Op En R Ha Ha5 Hw X.
  destruct (C90_gdc_l ds _ k O R) as (s0 & P).
  assert (B : Forall (fun h => h_spider h < 2 ^ 48) (concat (map x_hits xs))) by (apply (recording_bounds _ _ _ _ R); discriminate).
  assert (U : forall o hss, asked_options (Some s) o -> mmap_hits (mo_tgdc o) ds hss -> hss = map x_hits xs).
  { intros o hss (_ & _ & Ot & _) H. replace (mo_tgdc o) with true in H by (symmetry; apply Ot, Tg).
    destruct H as (s1 & H). apply (processed_unique _ _ _ _ _ _ _ H P). }
  assert (Xb : endsWith out ".bin" = false).
  { destruct En as [En|En]; apply (ends_only _ _ _ _ _ En); discriminate. }
  destruct (C91_neutrons_l ext mmap_cfg a w 5 ds xs k O R five_ok ltac:(reflexivity) ltac:(discriminate) Ha Ha5 Hw X) as (nss & N1 & N2 & N3).
  destruct (C80_ends_l fuel ext show opens env p input inp (out :: s :: more) d rw ds O N I L2 Cov Fu) as (r & E).
  { intros o hss Ao H. rewrite (U o hss Ao H). exact B. }
  { intros out0 E0. injection E0 as <-. split; [intros _; exact Op|]. intros Q. apply endsWith_spec in Q. congruence. }
  destruct (C80_refused_l _ _ _ _ _ _ _ _ _ _ E) as [Rf _].
  destruct (mr_report r) as [rep|] eqn:Er.
  2: { exfalso. destruct Rf as [Rf _]. specialize (Rf eq_refl). cbn [refused] in Rf. rewrite I in Rf. destruct rw; [exact Rf|].
       destruct Rf as (s' & Es & As). cbn in Es. injection Es as <-. discriminate (Rw As). }
  destruct (C80_run_l fuel ext show opens env p input inp (out :: s :: more) d rw ds r rep O N I Env Cov E Er)
    as (o & hss & nss' & Ao & Hm & Ne & H1 & H2 & H3 & H4 & H5 & H6 & W).
  cbn [nth_error] in Ao. rewrite (U o hss Ao Hm) in *. rewrite (N3 nss' Ne) in *.
  assert (St : mr_status r = 0).
  { clear - W Op En. inversion W; subst; try reflexivity. congruence. }
  rewrite St in W. exists r, rep, nss. rewrite (zlen_concat_events a w xs nss N2) in *.
  split; [exact E|]. split; [exact St|]. split; [exact Er|]. split; [exact H1|]. split; [exact H4|]. split; [exact H6|].
  split; [|split; [exact N2|exact W]].
  intros A60. assert (mo_rate o = 60) as Eo.
  { destruct Ao as (_ & _ & _ & Ao). exact (rate_60 _ _ A60 Ao). }
  rewrite Eo in H2. apply (counted_iff _ _ _ _ over_60). apply H2. discriminate.
Qed.

(** The written times. *)
Lemma late_time w ev e : is_finite (n_tof_ns e) = true -> at_t (e_at ev) + w - 25 * e_pulse ev <= 2 ^ 40 -> 0 <= w ->
  (IZR (Z.max 0 (at_t (e_at ev) - 25 * e_pulse ev)) <= B2R (n_tof_ns e) <= IZR (at_t (e_at ev) + w - 25 * e_pulse ev))%R ->
  late_by_25 w ev e.
Proof.
  intros F Hi W [A B]. unfold late_by_25, tof_written. change (fmul (n_tof e) (f_of_Z 25)) with (n_tof_ns e).
  set (lo := Z.max 0 (at_t (e_at ev) - 25 * e_pulse ev)) in *. set (hi := at_t (e_at ev) + w - 25 * e_pulse ev) in *.
  assert (L0 : 0 <= lo) by (subst lo; lia).
  assert (LH : lo <= hi) by (apply le_IZR; apply (Rle_trans _ _ _ A B)).
  destruct (is_int_of_Z 25 ltac:(lia)) as [F25 E25].
  assert (P0 : (0 <= B2R (n_tof_ns e))%R) by (apply Rle_trans with (2 := A); apply IZR_le; exact L0).
  assert (Bd : (IZR (25 * lo) <= B2R (n_tof_ns e) * B2R (f_of_Z 25) <= IZR (25 * hi))%R).
  { rewrite E25, !mult_IZR. lra. }
  destruct (fmul_correct (n_tof_ns e) (f_of_Z 25) 53) as [E1 E2]; try assumption; [lia| |].
  { rewrite Rabs_pos_eq by (rewrite E25; lra). apply Rle_trans with (1 := proj2 Bd).
    change (bpow radix2 53) with (IZR (2 ^ 53)). apply IZR_le. lia. }
  cbv zeta. split; [exact E2|]. rewrite E1. split.
  - rewrite <- (rnd_IZR (25 * lo)) by lia. apply rnd_le, Bd.
  - rewrite <- (rnd_IZR (25 * hi)) by lia. apply rnd_le, Bd.
Qed.

Lemma C102_time_l k0 ds k a w n r range xs nss : recording around true k0 ds (map x_hits xs) k ->
  0 <= w <= 2 ^ 39 -> Forall (exposed n a w r range) xs -> Forall2 (accounted a w) xs nss ->
  Forall2 (fun x ns => forall l e, nth_error ns l = Some e -> late_by_25 w (nth_event (x_events x) l) e) xs nss.
Proof.
  intros R W X A. pose proof (recording_frame _ _ _ _ _ _ R) as F. clear R.
  induction A as [|x ns xs nss [Ln T] A IH]; [constructor|].
  cbn [map concat] in F. apply Forall_app in F. destruct F as [F1 F2]. apply Forall_cons_iff in X. destruct X as [X1 X].
  constructor; [|apply IH; assumption]. intros l e El.
  destruct X1 as (I & Own & Fly). specialize (T l e El).
  destruct T as (_ & _ & T1 & _ & _ & _ & _ & _ & T2 & _). apply late_time; [exact T1| |lia|exact T2].
  assert (Il : In l (x_own x)).
  { apply Own. rewrite <- Ln. apply nth_error_Some. congruence. }
  apply In_nth_error in Il. destruct Il as (i & Ei).
  destruct (nth_error (x_hits x) i) as [h|] eqn:Eh.
  2: { exfalso. apply nth_error_None in Eh. assert (i < length (x_own x))%nat by (apply nth_error_Some; congruence).
       pose proof (iso_length _ _ _ _ _ _ _ _ I). lia. }
  destruct (Fly i l h Ei Eh) as [_ Ft]. destruct (iso_stems _ _ _ _ _ _ _ _ I i l h Ei Eh) as (_ & _ & St).
  cbn beta in St. rewrite Forall_forall in F1. destruct (F1 h (nth_error_In _ _ Eh)) as (t & Et & Ht).
  rewrite Ft in Et. injection Et as <-. unfold arrival in St. lia.
Qed.
