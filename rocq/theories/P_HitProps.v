(** Lemmas behind Properties_Hit.v. *)
From Verif Require Export P_HitTime.
Global Open Scope Z_scope.

Lemma pixel_packet_ok f : packet_ok (pixel_packet f).
Proof. apply word_packet_ok. Qed.

Lemma pixel_packet_decode f : fields_ok f ->
  let p := pixel_packet f in
  get_tot p = f_tot f /\ get_toa p = f_toa f /\ get_ftoa p = f_ftoa f /\
  raw_spider p = f_spidr f /\ local_x (pixaddr p) = f_x f /\ local_y (pixaddr p) = f_y f /\
  b7 p / 16 = f_type f.
Proof.
  intros Hf. cbv zeta.
  destruct (pixel_word_fields f Hf) as [Hr Hw].
  pose proof (pixel_packet_ok f) as Hp.
  rewrite get_tot_W, get_toa_W, get_ftoa_W, raw_spider_W, pixaddr_W by exact Hp.
  unfold pixel_packet. rewrite le64_word by exact Hr.
  assert (Hw' := Hw). unfold word_fields in Hw'. rewrite <- Hw' at 2 4 6 8 10 12 14.
  cbn [f_type f_x f_y f_toa f_tot f_ftoa f_spidr].
  repeat (split; [reflexivity|]).
  unfold word_packet; cbn [b7].
  rewrite (Z.mod_small (pixel_word f / 2 ^ 56)).
  - change 16 with (2 ^ 4). apply (div_div_pow (pixel_word f) 56 4); lia.
  - split; [apply Z.div_pos; lia|apply Z.div_lt_upper_bound; lia].
Qed.

Lemma spidertime30_fields f : fields_ok f -> spidertime30 (pixel_packet f) = time30 f.
Proof.
  intros Hf. destruct (pixel_packet_decode f Hf) as (H1 & H2 & H3 & H4 & _).
  destruct (spidertime30_eq (pixel_packet f) (pixel_packet_ok f)) as [E _].
  rewrite E, H2, H4. reflexivity.
Qed.

Lemma time30_range f : fields_ok f -> 0 <= time30 f < 2 ^ 30.
Proof. unfold fields_ok, time30. lia. Qed.

(** What a hit must report about the fields [f] of its packet. *)
Lemma C01_gdc_l f tdc gdc chip : fields_ok f ->
  exists h, hit_gdc (pixel_packet f) tdc gdc chip = Ok h /\
    h_tot h = f_tot f /\ h_toa h = f_toa f /\ h_ftoa h = f_ftoa f /\
    (h_x h, h_y h) = place chip (f_x f) (f_y f) /\
    h_spider h mod 2 ^ 30 = time30 f.
Proof.
  intros Hf. rewrite hit_gdc_eq. cbv zeta.
  destruct (pixel_packet_decode f Hf) as (H1 & H2 & H3 & H4 & H5 & H6 & _).
  eexists; split; [reflexivity|]. cbn [h_tot h_toa h_ftoa h_x h_y h_spider].
  rewrite H1, H2, H3, H5, H6, layout_place, <- surjective_pairing.
  repeat (split; [reflexivity|]).
  rewrite spidertime30_fields by exact Hf. apply global_time_low. apply time30_range, Hf.
Qed.

Lemma C01_tdc_l f tdc chip : fields_ok f -> 0 <= tdc < 2 ^ 64 ->
  let h := hit_tdc (pixel_packet f) tdc chip in
    h_tot h = f_tot f /\ h_toa h = f_toa f /\ h_ftoa h = f_ftoa f /\
    (h_x h, h_y h) = place chip (f_x f) (f_y f) /\
    h_spider h mod 2 ^ 30 = time30 f.
Proof.
  intros Hf Ht. cbv zeta. rewrite hit_tdc_eq. cbv zeta.
  destruct (pixel_packet_decode f Hf) as (H1 & H2 & H3 & H4 & H5 & H6 & _).
  cbn [h_tot h_toa h_ftoa h_x h_y h_spider].
  rewrite H1, H2, H3, H5, H6, layout_place, <- surjective_pairing.
  repeat (split; [reflexivity|]).
  rewrite time_tdc_spec by (apply pixel_packet_ok || lia). cbv zeta. rewrite H2, H4.
  pose proof (time30_range f Hf) as Hr. fold (time30 f).
  destruct (Z.ltb_spec (time30 f + 4194304) tdc) as [Hlt|Hge].
  - replace (time30 f + 2 ^ 30) with (time30 f + 1 * 2 ^ 30) by lia.
    rewrite Z_mod_plus_full. apply Z.mod_small. exact Hr.
  - apply Z.mod_small. exact Hr.
Qed.

Lemma C01_bijection_l p : packet_ok p ->
  exists f, (fields_ok f /\ pixel_packet f = p) /\
    forall f', fields_ok f' /\ pixel_packet f' = p -> f' = f.
Proof.
  intros Hp. pose proof (le64_range p Hp) as Hr.
  exists (word_fields (le64 p)). split.
  - split; [apply word_fields_ok; exact Hr|].
    unfold pixel_packet. rewrite word_fields_pixel by exact Hr. apply word_le64. exact Hp.
  - intros f' [Hf' E]. destruct (pixel_word_fields f' Hf') as [Hr' Hw].
    rewrite <- E. unfold pixel_packet. rewrite le64_word by exact Hr'. symmetry. exact Hw.
Qed.

Lemma place_inj_same chip x y x' y' : place chip x y = place chip x' y' -> x = x' /\ y = y'.
Proof.
  rewrite <- !layout_place. unfold layout.
  destruct (chip =? 0); [intros E; injection E; lia|].
  destruct (chip =? 1); [intros E; injection E; lia|].
  destruct (chip =? 2); intros E; injection E; lia.
Qed.

Lemma time30_split f f' : fields_ok f -> fields_ok f' -> time30 f = time30 f' ->
  f_spidr f = f_spidr f' /\ f_toa f = f_toa f'.
Proof. unfold fields_ok, time30. lia. Qed.

Lemma fields_eq f f' : f_type f = f_type f' -> f_x f = f_x f' -> f_y f = f_y f' ->
  f_toa f = f_toa f' -> f_tot f = f_tot f' -> f_ftoa f = f_ftoa f' ->
  f_spidr f = f_spidr f' -> f = f'.
Proof. destruct f, f'; cbn. intros. subst. reflexivity. Qed.

Lemma C01_no_bit_lost_l p p' tdc gdc chip h :
  packet_ok p -> packet_ok p' -> b7 p / 16 = b7 p' / 16 -> 0 <= tdc < 2 ^ 64 ->
  (hit_gdc p tdc gdc chip = Ok h /\ hit_gdc p' tdc gdc chip = Ok h) \/
  (hit_tdc p tdc chip = h /\ hit_tdc p' tdc chip = h) ->
  p = p'.
Proof.
  intros Hp Hp' Hty Ht Hh.
  destruct (C01_bijection_l p Hp) as (f & (Hf & Ef) & _).
  destruct (C01_bijection_l p' Hp') as (f' & (Hf' & Ef') & _).
  destruct (pixel_packet_decode f Hf) as (_ & _ & _ & _ & _ & _ & Ty).
  destruct (pixel_packet_decode f' Hf') as (_ & _ & _ & _ & _ & _ & Ty').
  rewrite Ef in Ty. rewrite Ef' in Ty'.
  rewrite <- Ef, <- Ef'. f_equal. subst p p'.
  assert (Hobs : (f_tot f = f_tot f' /\ f_ftoa f = f_ftoa f') /\
     place chip (f_x f) (f_y f) = place chip (f_x f') (f_y f') /\ time30 f = time30 f').
  { destruct Hh as [[H1 H2]|[H1 H2]].
    - destruct (C01_gdc_l f tdc gdc chip Hf) as (g & G & A1 & A2 & A3 & A4 & A5).
      destruct (C01_gdc_l f' tdc gdc chip Hf') as (g' & G' & B1 & B2 & B3 & B4 & B5).
      rewrite G in H1. rewrite G' in H2. injection H1 as ->. injection H2 as ->.
      split; [split; congruence|split; congruence].
    - destruct (C01_tdc_l f tdc chip Hf Ht) as (A1 & A2 & A3 & A4 & A5).
      destruct (C01_tdc_l f' tdc chip Hf' Ht) as (B1 & B2 & B3 & B4 & B5).
      rewrite H1 in *. rewrite H2 in *.
      split; [split; congruence|split; congruence]. }
  destruct Hobs as ((O1 & O2) & O3 & O4).
  destruct (place_inj_same _ _ _ _ _ O3) as [O5 O6].
  destruct (time30_split _ _ Hf Hf' O4) as [O7 O8].
  apply fields_eq; congruence.
Qed.

(** ** Geometry *)

Lemma hit_xy_local p tdc gdc chip h : packet_ok p ->
  hit_gdc p tdc gdc chip = Ok h \/ hit_tdc p tdc chip = h ->
  exists x y, 0 <= x < 256 /\ 0 <= y < 256 /\ (h_x h, h_y h) = place chip x y.
Proof.
  intros Hp Hh. exists (local_x (pixaddr p)), (local_y (pixaddr p)).
  assert (Ha : 0 <= pixaddr p < 2 ^ 16) by (rewrite pixaddr_W by exact Hp; apply Z.mod_pos_bound; reflexivity).
  split; [apply local_x_range; exact Ha|]. split; [apply local_y_range; exact Ha|].
  destruct Hh as [Hh|Hh].
  - rewrite hit_gdc_eq in Hh. injection Hh as <-. cbn [h_x h_y].
    rewrite layout_place, <- surjective_pairing. reflexivity.
  - rewrite hit_tdc_eq in Hh. rewrite <- Hh. cbn [h_x h_y].
    rewrite layout_place, <- surjective_pairing. reflexivity.
Qed.

Lemma place_quadrant chip x y : 0 <= x < 256 -> 0 <= y < 256 ->
  in_quadrant chip (place chip x y) /\ ~ in_gap (place chip x y).
Proof.
  intros Hx Hy. unfold in_quadrant, in_gap, in_square, place.
  destruct chip as [|[c|[c|c|]|]|c]; cbn [fst snd]; lia.
Qed.

Lemma C02_quadrant_l p tdc gdc chip h : packet_ok p ->
  hit_gdc p tdc gdc chip = Ok h \/ hit_tdc p tdc chip = h ->
  in_quadrant chip (h_x h, h_y h) /\ ~ in_gap (h_x h, h_y h).
Proof.
  intros Hp Hh. destruct (hit_xy_local _ _ _ _ _ Hp Hh) as (x & y & Hx & Hy & E).
  rewrite E. apply place_quadrant; assumption.
Qed.

Lemma place_inj_chips chip chip' x y x' y' :
  0 <= chip <= 3 -> 0 <= chip' <= 3 ->
  0 <= x < 256 -> 0 <= y < 256 -> 0 <= x' < 256 -> 0 <= y' < 256 ->
  place chip x y = place chip' x' y' -> chip = chip' /\ x = x' /\ y = y'.
Proof.
  intros Hc Hc' Hx Hy Hx' Hy' E.
  assert (C : chip = 0 \/ chip = 1 \/ chip = 2 \/ chip = 3) by lia.
  assert (C' : chip' = 0 \/ chip' = 1 \/ chip' = 2 \/ chip' = 3) by lia.
  unfold place in E.
  destruct C as [->|[->|[->| ->]]]; destruct C' as [->|[->|[->| ->]]];
    injection E as E1 E2; lia.
Qed.

Lemma C02_injective_l f f' tdc gdc chip tdc' gdc' chip' h h' :
  fields_ok f -> fields_ok f' -> 0 <= chip <= 3 -> 0 <= chip' <= 3 ->
  0 <= tdc < 2 ^ 64 -> 0 <= tdc' < 2 ^ 64 ->
  hit_gdc (pixel_packet f) tdc gdc chip = Ok h \/ hit_tdc (pixel_packet f) tdc chip = h ->
  hit_gdc (pixel_packet f') tdc' gdc' chip' = Ok h' \/ hit_tdc (pixel_packet f') tdc' chip' = h' ->
  h_x h = h_x h' -> h_y h = h_y h' ->
  chip = chip' /\ f_x f = f_x f' /\ f_y f = f_y f'.
Proof.
  intros Hf Hf' Hc Hc' Ht Ht' Hh Hh' Ex Ey.
  assert (P : (h_x h, h_y h) = place chip (f_x f) (f_y f)).
  { destruct Hh as [Hh|Hh].
    - destruct (C01_gdc_l f tdc gdc chip Hf) as (g & G & _ & _ & _ & A & _).
      rewrite G in Hh. injection Hh as <-. exact A.
    - destruct (C01_tdc_l f tdc chip Hf Ht) as (_ & _ & _ & A & _). rewrite Hh in A. exact A. }
  assert (P' : (h_x h', h_y h') = place chip' (f_x f') (f_y f')).
  { destruct Hh' as [Hh'|Hh'].
    - destruct (C01_gdc_l f' tdc' gdc' chip' Hf') as (g & G & _ & _ & _ & A & _).
      rewrite G in Hh'. injection Hh' as <-. exact A.
    - destruct (C01_tdc_l f' tdc' chip' Hf' Ht') as (_ & _ & _ & A & _). rewrite Hh' in A. exact A. }
  rewrite Ex, Ey, P' in P.
  unfold fields_ok in Hf, Hf'.
  symmetry in P. apply place_inj_chips in P; try tauto; try lia.
Qed.

Lemma C02_surjective_l chip X Y : in_quadrant chip (X, Y) ->
  exists x y, 0 <= x < 256 /\ 0 <= y < 256 /\ place chip x y = (X, Y).
Proof.
  unfold in_quadrant, in_square, place. intros H.
  destruct chip as [|[c|[c|c|]|]|c]; cbn [fst snd] in H;
  [exists (X - 260), Y | exists X, Y | exists X, Y | exists X, Y
  |exists (255 - X), (515 - Y) | exists (515 - X), (515 - Y) | exists X, Y ];
  (split; [lia|split; [lia|f_equal; lia]]).
Qed.

Lemma C02_alias_l p tdc gdc chip : ~ (0 <= chip <= 2) ->
  hit_gdc p tdc gdc chip = hit_gdc p tdc gdc 3 /\ hit_tdc p tdc chip = hit_tdc p tdc 3.
Proof.
  intros Hc. rewrite !hit_gdc_eq, !hit_tdc_eq. cbv zeta.
  assert (E : layout chip (local_x (pixaddr p)) (local_y (pixaddr p)) =
              layout 3 (local_x (pixaddr p)) (local_y (pixaddr p))).
  { unfold layout.
    destruct (Z.eqb_spec chip 0); [lia|]. destruct (Z.eqb_spec chip 1); [lia|].
    destruct (Z.eqb_spec chip 2); [lia|]. reflexivity. }
  rewrite E. split; reflexivity.
Qed.

(** ** Times *)

Lemma hit_gdc_spider f tdc gdc chip h : fields_ok f ->
  hit_gdc (pixel_packet f) tdc gdc chip = Ok h -> h_spider h = global_time (time30 f) gdc.
Proof.
  intros Hf. rewrite hit_gdc_eq. cbv zeta. intros E. injection E as <-. cbn [h_spider].
  rewrite spidertime30_fields by exact Hf. reflexivity.
Qed.

Lemma C03_arrival_l f tdc gdc chip h T :
  fields_ok f -> 0 <= gdc < 2 ^ 48 ->
  gdc < 2 ^ 48 - 2 ^ 30 \/ gdc mod 2 ^ 30 <= time30 f ->
  hit_gdc (pixel_packet f) tdc gdc chip = Ok h ->
  extends (time30 f) gdc T ->
  (0 <= T -> h_spider h = T) /\ (T < 0 -> h_spider h = T + 2 ^ 64).
Proof.
  intros Hf Hg Hroll Hh HT.
  rewrite (hit_gdc_spider _ _ _ _ _ Hf Hh).
  rewrite global_time_spec by (apply time30_range; exact Hf) || exact Hg.
  replace ((gdc / 2 ^ 30 =? 2 ^ 18 - 1) && (time30 f <? gdc mod 2 ^ 30)) with false.
  - cbv zeta. rewrite <- (extends_unique _ _ _ HT).
    destruct (Z.ltb_spec T 0); lia.
  - symmetry. apply andb_false_iff. destruct Hroll as [Hr|Hr].
    + left. apply Z.eqb_neq. intros E.
      pose proof (Z.mul_div_le gdc (2 ^ 30)). lia.
    + right. apply Z.ltb_ge. exact Hr.
Qed.

Lemma C03_unique_l s g : 0 <= s < 2 ^ 30 ->
  exists T, extends s g T /\ forall T', extends s g T' -> T' = T.
Proof.
  intros Hs. eexists. split; [apply extends_exists; exact Hs|].
  intros T' H. apply extends_unique. exact H.
Qed.

Lemma C03_rollover_l f tdc gdc chip h :
  fields_ok f -> 2 ^ 48 - 2 ^ 30 <= gdc < 2 ^ 48 -> time30 f < gdc mod 2 ^ 30 ->
  hit_gdc (pixel_packet f) tdc gdc chip = Ok h ->
  h_spider h = 2 ^ 64 - 2 ^ 30 + time30 f.
Proof.
  intros Hf Hg Hlt Hh. rewrite (hit_gdc_spider _ _ _ _ _ Hf Hh).
  rewrite global_time_spec by (apply time30_range; exact Hf) || lia.
  replace (gdc / 2 ^ 30 =? 2 ^ 18 - 1) with true.
  - replace (time30 f <? gdc mod 2 ^ 30) with true by (symmetry; apply Z.ltb_lt; exact Hlt).
    cbn [andb]. lia.
  - symmetry. apply Z.eqb_eq. symmetry. apply Z.div_unique with (gdc - (2 ^ 18 - 1) * 2 ^ 30); lia.
Qed.

Lemma C03_wrap_l f tdc gdc chip h :
  fields_ok f -> 0 <= gdc < 2 ^ 30 -> gdc + 40000000 <= time30 f ->
  hit_gdc (pixel_packet f) tdc gdc chip = Ok h ->
  h_spider h = time30 f - 2 ^ 30 + 2 ^ 64 /\ 2 ^ 63 < h_spider h.
Proof.
  intros Hf Hg Hlead Hh. pose proof (time30_range f Hf) as Hr.
  rewrite (hit_gdc_spider _ _ _ _ _ Hf Hh).
  rewrite global_time_spec by (exact Hr || lia).
  replace (gdc / 2 ^ 30) with 0 by (symmetry; apply Z.div_small; exact Hg).
  change (0 =? 2 ^ 18 - 1) with false. cbn [andb]. cbv zeta.
  rewrite (Z.mod_small (time30 f - gdc - 40000000)) by lia.
  destruct (Z.ltb_spec (gdc + 40000000 - 2 ^ 30 + (time30 f - gdc - 40000000)) 0); lia.
Qed.

Lemma C04_tof_l p tdc gdc chip :
  exists h t, hit_gdc p tdc gdc chip = Ok h /\ h_tof h = Some t /\
    let d := (h_spider h - tdc) mod 2 ^ 32 in
    0 <= t <= 666800 /\ (t - d) mod 666667 = 0 /\
    (d <= 666800 -> t = d) /\ (666800 < d -> 134 <= t).
Proof.
  rewrite hit_gdc_eq. cbv zeta. eexists; eexists. split; [reflexivity|].
  cbn [h_tof h_spider]. split; [reflexivity|].
  apply frame_phase_spec. apply Z.mod_pos_bound. reflexivity.
Qed.

Lemma C05_phase_l p tdc gdc chip h t :
  hit_gdc p tdc gdc chip = Ok h -> h_tof h = Some t ->
  tdc <= h_spider h < tdc + 2 ^ 32 ->
  (t - (h_spider h - tdc)) mod 666667 = 0.
Proof.
  intros Hh Ht Hr. destruct (C04_tof_l p tdc gdc chip) as (h' & t' & H1 & H2 & H3).
  rewrite Hh in H1. injection H1 as <-. rewrite Ht in H2. injection H2 as <-.
  cbv zeta in H3. destruct H3 as (_ & H & _).
  rewrite (Z.mod_small (h_spider h - tdc)) in H by lia. exact H.
Qed.

Lemma C05_early_l p tdc gdc chip h t :
  hit_gdc p tdc gdc chip = Ok h -> h_tof h = Some t ->
  h_spider h < tdc <= h_spider h + 2 ^ 32 ->
  (t - (h_spider h - tdc)) mod 666667 = 298482.
Proof.
  intros Hh Ht Hr. destruct (C04_tof_l p tdc gdc chip) as (h' & t' & H1 & H2 & H3).
  rewrite Hh in H1. injection H1 as <-. rewrite Ht in H2. injection H2 as <-.
  cbv zeta in H3. destruct H3 as (_ & H & _).
  assert (E : (h_spider h - tdc) mod 2 ^ 32 = h_spider h - tdc + 2 ^ 32).
  { symmetry. apply Z.mod_unique with (-1); lia. }
  rewrite E in H. clear E.
  replace (t - (h_spider h - tdc)) with ((t - (h_spider h - tdc + 2 ^ 32)) + 2 ^ 32) by lia.
  rewrite Z.add_mod by lia. rewrite H. reflexivity.
Qed.

Lemma C06_tdc_l f tdc chip : fields_ok f -> 0 <= tdc < 2 ^ 64 ->
  let h := hit_tdc (pixel_packet f) tdc chip in
  let s := time30 f in
  let s' := if s + 2 ^ 22 <? tdc then s + 2 ^ 30 else s in
  h_spider h = s' /\
  (tdc <= s' -> h_tof h = Some (s' - tdc)) /\ (s' < tdc -> h_tof h = None).
Proof.
  intros Hf Ht. cbv zeta. rewrite hit_tdc_eq. cbv zeta. cbn [h_spider h_tof].
  pose proof (time30_range f Hf) as Hr.
  assert (E : time_tdc (pixel_packet f) tdc =
    if time30 f + 2 ^ 22 <? tdc then time30 f + 2 ^ 30 else time30 f).
  { rewrite time_tdc_spec by (apply pixel_packet_ok || lia). cbv zeta.
    destruct (pixel_packet_decode f Hf) as (_ & H2 & _ & H4 & _). rewrite H2, H4.
    reflexivity. }
  rewrite E. set (s' := if _ <? _ then _ else _).
  assert (Hs' : 0 <= s' < 2 ^ 31) by (unfold s'; destruct (Z.ltb_spec (time30 f + 2 ^ 22) tdc); lia).
  split; [reflexivity|]. rewrite Z.geb_leb. split; intros H.
  - rewrite (proj2 (Z.leb_le tdc s')) by exact H. rewrite u64_id by lia. rewrite u32_id by lia. reflexivity.
  - rewrite (proj2 (Z.leb_gt tdc s')) by exact H. reflexivity.
Qed.

Lemma C06_iff_l f tdc chip : fields_ok f -> 0 <= tdc < 2 ^ 64 ->
  (h_tof (hit_tdc (pixel_packet f) tdc chip) = None <->
   (time30 f < tdc <= time30 f + 2 ^ 22 \/ time30 f + 2 ^ 30 < tdc)).
Proof.
  intros Hf Ht. destruct (C06_tdc_l f tdc chip Hf Ht) as (_ & H1 & H2).
  pose proof (time30_range f Hf) as Hr.
  destruct (Z.ltb_spec (time30 f + 2 ^ 22) tdc) as [Hlt|Hge].
  - split; intros H.
    + right. destruct (Z.le_gt_cases tdc (time30 f + 2 ^ 30)) as [Hle|Hgt]; [|lia].
      rewrite (H1 Hle) in H. discriminate.
    + apply H2. lia.
  - split; intros H.
    + left. destruct (Z.le_gt_cases tdc (time30 f)) as [Hle|Hgt]; [|lia].
      rewrite (H1 Hle) in H. discriminate.
    + apply H2. lia.
Qed.

Lemma C06_late_l f tdc chip : fields_ok f -> 2 ^ 31 <= tdc < 2 ^ 64 ->
  h_tof (hit_tdc (pixel_packet f) tdc chip) = None.
Proof.
  intros Hf Ht. apply C06_iff_l; [exact Hf|lia|]. right.
  pose proof (time30_range f Hf). lia.
Qed.

(** ** Refutations and exact conversions *)

Definition wit_fields : pixel_fields := PF 11 100 200 1234 77 5 4321.
Lemma wit_fields_ok : fields_ok wit_fields.
Proof. unfold fields_ok, wit_fields; cbn. repeat split; reflexivity || discriminate. Qed.

Lemma C02_refuted_l : exists f chip chip' tdc,
  fields_ok f /\ chip <> chip' /\
  hit_tdc (pixel_packet f) tdc chip = hit_tdc (pixel_packet f) tdc chip'.
Proof.
  exists wit_fields, 3, (-1), 70000000. split; [exact wit_fields_ok|].
  split; [discriminate|]. vm_compute. reflexivity.
Qed.

Lemma C03_refuted_l : exists f tdc gdc chip h T,
  fields_ok f /\ 0 < gdc < 2 ^ 48 /\ 0 < tdc < 2 ^ 48 /\
  hit_gdc (pixel_packet f) tdc gdc chip = Ok h /\ extends (time30 f) gdc T /\ h_spider h <> T.
Proof.
  exists wit_fields, 1, 1, 0.
  eexists; eexists. split; [exact wit_fields_ok|]. split; [lia|]. split; [lia|].
  split; [vm_compute; reflexivity|]. split; [apply extends_exists; vm_compute; split; discriminate || reflexivity|].
  vm_compute. discriminate.
Qed.

Lemma C05_refuted_l : exists f tdc gdc chip h t,
  fields_ok f /\ 0 < gdc < 2 ^ 48 /\ 0 < tdc < 2 ^ 48 /\
  hit_gdc (pixel_packet f) tdc gdc chip = Ok h /\ h_tof h = Some t /\
  (t - (h_spider h - tdc)) mod 666667 <> 0.
Proof.
  exists wit_fields, 70796499, 70000000, 0.
  eexists; eexists. split; [exact wit_fields_ok|]. split; [lia|]. split; [lia|].
  split; [vm_compute; reflexivity|]. split; [reflexivity|].
  vm_compute. discriminate.
Qed.

(** ** Conversions to nanoseconds *)
From Coq Require Import Reals Lra.
From Flocq Require Import Core.
Local Open Scope R_scope.

Lemma times25 z : (0 <= z < 2 ^ 48)%Z -> is_int (fmul (f_of_Z z) c_25) (25 * z).
Proof.
  intros H. rewrite Z.mul_comm. unfold c_25.
  apply is_int_mul; [apply is_int_of_Z; lia|apply is_int_of_Z; lia|lia].
Qed.

Lemma ns_exact_l h t :
  (0 <= h_toa h < 2 ^ 14)%Z -> (0 <= h_tot h < 2 ^ 10)%Z -> (0 <= h_spider h < 2 ^ 48)%Z ->
  h_tof h = Some t -> (0 <= t < 2 ^ 32)%Z ->
  is_int (toa_ns h) (25 * h_toa h) /\ is_int (tot_ns h) (25 * h_tot h) /\
  is_int (spider_ns h) (25 * h_spider h) /\
  exists v, tof_ns h = Some v /\ is_int v (25 * t).
Proof.
  intros Ha Ht Hs Ef Hf.
  split; [apply times25; lia|]. split; [apply times25; lia|]. split; [apply times25; lia|].
  unfold tof_ns. rewrite Ef. eexists; split; [reflexivity|]. apply times25; lia.
Qed.

(** fine time: 16 possible values, each exact *)
Lemma ftoa_ns_exact_l h : (0 <= h_ftoa h < 16)%Z ->
  is_finite (ftoa_ns h) = true /\ B2R (ftoa_ns h) = IZR (25 * h_ftoa h) / 16.
Proof.
  intros H. unfold ftoa_ns, c_25_16.
  assert (D : B2R (fdiv (f_of_Z 25) (f_of_Z 16)) = 25 / 16 /\ is_finite (fdiv (f_of_Z 25) (f_of_Z 16)) = true).
  { split; [|reflexivity]. vm_compute. lra. }
  destruct D as [D1 D2].
  assert (P : B2R (f_of_Z (h_ftoa h)) * B2R (fdiv (f_of_Z 25) (f_of_Z 16)) = IZR (25 * h_ftoa h) / 16).
  { rewrite D1, of_Z_exact by lia. rewrite mult_IZR. lra. }
  destruct (fmul_correct (f_of_Z (h_ftoa h)) (fdiv (f_of_Z 25) (f_of_Z 16)) 10) as [R F].
  - lia.
  - apply of_Z_fin53. lia.
  - exact D2.
  - rewrite P. rewrite Rabs_pos_eq.
    + apply Rle_trans with (IZR (2 ^ 10)).
      * assert (IZR (25 * h_ftoa h) <= IZR 375) by (apply IZR_le; lia). change (IZR (2 ^ 10)) with 1024. lra.
      * rewrite <- IZR_Zpower by lia. apply Rle_refl.
    + assert (IZR 0 <= IZR (25 * h_ftoa h)) by (apply IZR_le; lia). lra.
  - split; [exact F|]. rewrite R, P.
    apply round_generic; [apply valid_rnd_N|].
    apply generic_format_F2R' with (f := Float radix2 (25 * h_ftoa h) (-4)).
    + unfold F2R. cbn [Fnum Fexp]. change (bpow radix2 (-4)) with (/ 16). lra.
    + intros Hnz. unfold cexp. cbn [Fexp]. rewrite fexp_FLT. unfold FLT_exp.
      assert (Hm : (mag radix2 (IZR (25 * h_ftoa h) / 16) <= 10)%Z).
      { apply mag_le_bpow; [exact Hnz|]. rewrite Rabs_pos_eq.
        - apply Rle_lt_trans with (375 / 16).
          + assert (IZR (25 * h_ftoa h) <= IZR 375) by (apply IZR_le; lia). lra.
          + rewrite <- IZR_Zpower by lia. change (radix2 ^ 10)%Z with 1024%Z. lra.
        - assert (IZR 0 <= IZR (25 * h_ftoa h)) by (apply IZR_le; lia). lra. }
      lia.
Qed.
