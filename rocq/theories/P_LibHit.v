(** Lemmas behind Properties_Lib.v: times of a hit. *)
From Coq Require Import Reals Lra Lia.
From Flocq Require Import Core BinarySingleNaN.
From Verif Require Export P_Lib.
From Coq Require Import ZifyBool Zify.
Ltac Zify.zify_post_hook ::= Z.to_euclidean_division_equations.
Global Open Scope Z_scope.

Lemma lib_time_eq s g : 0 <= s < 2 ^ 30 -> 0 <= g < 2 ^ 48 ->
  lib_time s g = (g + (s - g) mod 2 ^ 30) mod 2 ^ 48.
Proof.
  intros Hs Hg. unfold lib_time.
  rewrite (land_low g _ 30) by (lia || reflexivity).
  rewrite (land_low (Z.shiftr g 30) _ 18) by (lia || reflexivity).
  rewrite shiftr_div by lia.
  rewrite (Z.mod_small (g / 2 ^ 30)) by lia.
  destruct (Z.ltb_spec s (g mod 2 ^ 30)) as [H|H].
  - rewrite (u64_id (g / 2 ^ 30 + 1)) by lia.
    rewrite shiftl_mul by lia. rewrite u64_id by lia.
    rewrite (land_mid _ _ 30 18) by (reflexivity || lia).
    rewrite lor_add by lia. rewrite Z.div_mul by lia.
    assert (E : (s - g) mod 2 ^ 30 = s - g mod 2 ^ 30 + 2 ^ 30) by lia.
    rewrite E. lia.
  - rewrite shiftl_mul by lia. rewrite u64_id by lia.
    rewrite (land_mid _ _ 30 18) by (reflexivity || lia).
    rewrite lor_add by lia. rewrite Z.div_mul by lia.
    assert (E : (s - g) mod 2 ^ 30 = s - g mod 2 ^ 30) by lia.
    rewrite E. lia.
Qed.

Lemma lib_time_first s g : 0 <= s < 2 ^ 30 -> 0 <= g < 2 ^ 48 - 2 ^ 30 ->
  first_from g s (lib_time s g).
Proof.
  intros Hs Hg. rewrite lib_time_eq by lia.
  rewrite (Z.mod_small _ (2 ^ 48)) by lia. unfold first_from.
  split; [lia|]. split; [lia|]. intros T' H1 H2. lia.
Qed.

Lemma lib_time_range s g : 0 <= s < 2 ^ 30 -> 0 <= g < 2 ^ 48 -> 0 <= lib_time s g < 2 ^ 48.
Proof. intros Hs Hg. rewrite lib_time_eq by lia. apply Z.mod_pos_bound. lia. Qed.

Lemma lib_hit_eq p tdc gdc chip :
  lib_hit p tdc gdc chip =
  let t := lib_time (spidertime30 p) gdc in
  let xy := layout chip (local_x (pixaddr p)) (local_y (pixaddr p)) in
  Hit (fst xy) (snd xy) (get_tot p) (get_toa p) (get_ftoa p)
    (Some (if t <? tdc then u32 (u64 (u64 (t - tdc) + 16666667)) else u32 (u64 (t - tdc)))) t.
Proof.
  unfold lib_hit. cbv zeta.
  destruct (layout chip (local_x (pixaddr p)) (local_y (pixaddr p))). reflexivity.
Qed.

(** C53: decoding and time stamp. *)
Lemma C53_decode_l f tdc gdc chip : fields_ok f -> 0 <= gdc < 2 ^ 48 - 2 ^ 30 ->
  let h := lib_hit (pixel_packet f) tdc gdc chip in
  (h_x h, h_y h) = place chip (f_x f) (f_y f) /\ h_tot h = f_tot f /\
  h_toa h = f_toa f /\ h_ftoa h = f_ftoa f /\ first_from gdc (time30 f) (h_spider h).
Proof.
  intros Hf Hg. cbv zeta. rewrite lib_hit_eq. cbv zeta.
  destruct (pixel_packet_decode f Hf) as (H1 & H2 & H3 & H4 & H5 & H6 & _).
  cbn [h_x h_y h_tot h_toa h_ftoa h_spider].
  rewrite H1, H2, H3, H5, H6, layout_place, <- surjective_pairing, spidertime30_fields by exact Hf.
  repeat (split; [reflexivity|]). apply lib_time_first; [apply time30_range, Hf|exact Hg].
Qed.

Lemma same_coords p tdc gdc chip h : hit_gdc p tdc gdc chip = Ok h ->
  let l := lib_hit p tdc gdc chip in
  h_x h = h_x l /\ h_y h = h_y l /\ h_tot h = h_tot l /\ h_toa h = h_toa l /\ h_ftoa h = h_ftoa l.
Proof.
  rewrite hit_gdc_eq, lib_hit_eq. cbv zeta. intros H. injection H as <-. cbn. auto.
Qed.

Lemma global_time_lib s g : 0 <= s < 2 ^ 30 -> 0 <= g < 2 ^ 48 ->
  global_time s g =
  if 40000000 <=? (lib_time s g - g) mod 2 ^ 64 then (lib_time s g - 2 ^ 30) mod 2 ^ 64
  else lib_time s g.
Proof.
  intros Hs Hg. unfold global_time. fold (lib_time s g). cbv zeta.
  change (let msb18 := if s <? Z.land g 1073741823 then u64 (Z.land (Z.shiftr g 30) 262143 + 1)
                       else Z.land (Z.shiftr g 30) 262143 in
          Z.lor (Z.land (u64 (Z.shiftl msb18 30)) 281473902968832) s) with (lib_time s g).
  pose proof (lib_time_range s g Hs Hg).
  rewrite fge_4e7 by (apply Z.mod_pos_bound; reflexivity).
  unfold u64. reflexivity.
Qed.

(** C53: the two libraries. *)
Lemma C53_agree_l p tdc gdc chip h : packet_ok p -> 0 <= gdc < 2 ^ 48 - 2 ^ 30 ->
  hit_gdc p tdc gdc chip = Ok h ->
  let l := lib_hit p tdc gdc chip in
  h_x h = h_x l /\ h_y h = h_y l /\ h_tot h = h_tot l /\ h_toa h = h_toa l /\
  h_ftoa h = h_ftoa l /\
  (h_spider l < gdc + 40000000 -> h_spider h = h_spider l) /\
  (gdc + 40000000 <= h_spider l -> h_spider h = (h_spider l - 2 ^ 30) mod 2 ^ 64) /\
  (h_spider l < gdc + 40000000 -> tdc <= h_spider l <= tdc + 666800 -> h = l).
Proof.
  intros Hp Hg Hh. cbv zeta.
  destruct (same_coords _ _ _ _ _ Hh) as (E1 & E2 & E3 & E4 & E5).
  do 5 (split; [assumption|]).
  rewrite hit_gdc_eq in Hh. cbv zeta in Hh. injection Hh as <-.
  rewrite lib_hit_eq in *. cbv zeta in *. cbn [h_x h_y h_tot h_toa h_ftoa h_spider] in *.
  destruct (spidertime30_eq p Hp) as [_ Hs]. set (s := spidertime30 p) in *. clearbody s.
  pose proof (lib_time_range s gdc Hs) as Hr.
  destruct (lib_time_first s gdc Hs Hg) as (Hge & _ & _).
  assert (E : global_time s gdc =
    if 40000000 <=? lib_time s gdc - gdc then (lib_time s gdc - 2 ^ 30) mod 2 ^ 64
    else lib_time s gdc).
  { rewrite global_time_lib by lia. rewrite (Z.mod_small (lib_time s gdc - gdc)) by lia. reflexivity. }
  set (t := lib_time s gdc) in *. clearbody t.
  rewrite E. clear E.
  destruct (Z.leb_spec 40000000 (t - gdc)) as [C|C].
  - split; [lia|]. split; [reflexivity|]. lia.
  - split; [reflexivity|]. split; [lia|]. intros _ Ht. f_equal. f_equal.
    destruct (Z.ltb_spec t tdc) as [D|D]; [lia|].
    rewrite (Z.mod_small (t - tdc)) by lia.
    destruct (frame_phase_spec (t - tdc)) as (_ & _ & F & _); [lia|].
    rewrite F by lia. unfold u32, u64. lia.
Qed.

(** C54: time of flight. *)
Lemma C54_tof_l p tdc gdc chip : packet_ok p -> 0 <= gdc < 2 ^ 48 -> 0 <= tdc < 2 ^ 48 ->
  let h := lib_hit p tdc gdc chip in
  exists t, h_tof h = Some t /\
    (tdc <= h_spider h -> t = (h_spider h - tdc) mod 2 ^ 32) /\
    (h_spider h < tdc -> t = (h_spider h - tdc + 16666667) mod 2 ^ 32) /\
    (h_spider h < tdc <= h_spider h + 16000000 -> 666667 <= t).
Proof.
  intros Hp Hg Ht. cbv zeta. rewrite lib_hit_eq. cbv zeta. cbn [h_tof h_spider].
  eexists. split; [reflexivity|].
  destruct (spidertime30_eq p Hp) as [_ Hs]. set (s := spidertime30 p) in *. clearbody s.
  pose proof (lib_time_range s gdc Hs Hg) as Hr. set (T := lib_time s gdc) in *. clearbody T.
  unfold u32, u64.
  destruct (Z.ltb_spec T tdc) as [D|D].
  - assert (E : ((((T - tdc) mod 2 ^ 64 + 16666667) mod 2 ^ 64) mod 2 ^ 32) =
                (T - tdc + 16666667) mod 2 ^ 32) by lia.
    rewrite E. split; [lia|]. split; [reflexivity|]. lia.
  - assert (E : ((T - tdc) mod 2 ^ 64) mod 2 ^ 32 = (T - tdc) mod 2 ^ 32) by lia.
    rewrite E. split; [reflexivity|]. split; lia.
Qed.

(** Doubles at least 2^63 do not fit into [unsigned int]. *)
Lemma huge_not_u32 z : 2 ^ 63 <= z < 2 ^ 64 ->
  f_to_u32 (fadd (f_of_Z z) (fdiv (f_of_Z 1000000000) (f_of_Z 60))) = None.
Proof.
  intros Hz.
  assert (Hz1000 : Z.abs z <= 2 ^ 1000) by (pose proof pow_64_1000; lia).
  destruct (of_Z_correct z Hz1000) as [Ez Fz].
  assert (E1 : B2R (f_of_Z 1000000000) = 1000000000%R) by (apply (of_Z_exact 1000000000); lia).
  assert (F1 : is_finite (f_of_Z 1000000000) = true) by (apply of_Z_fin53; lia).
  assert (E2 : B2R (f_of_Z 60) = 60%R) by (apply (of_Z_exact 60); lia).
  assert (B30 : bpow radix2 30 = IZR (2 ^ 30)) by (rewrite <- IZR_Zpower by lia; reflexivity).
  destruct (fdiv_correct (f_of_Z 1000000000) (f_of_Z 60) 30) as [Ed Fd];
    [lia|exact F1|rewrite E2; lra| |].
  { rewrite E1, E2, B30. rewrite Rabs_pos_eq by lra. apply Rle_trans with 20000000%R; [lra|].
    apply IZR_le. lia. }
  rewrite E1, E2 in Ed.
  assert (Dpos : (0 <= B2R (fdiv (f_of_Z 1000000000) (f_of_Z 60)) <= bpow radix2 30)%R).
  { rewrite Ed. split.
    - replace 0%R with (rnd 0) by apply (rnd_IZR 0 ltac:(lia)). apply rnd_le. lra.
    - rewrite <- (rnd_bpow 30) by lia. apply rnd_le. rewrite B30.
      apply Rle_trans with 20000000%R; [lra|]. apply IZR_le. lia. }
  assert (Zb : (bpow radix2 63 <= B2R (f_of_Z z) <= bpow radix2 64)%R).
  { rewrite Ez. split.
    - rewrite <- (rnd_bpow 63) by lia. apply rnd_le. rewrite <- IZR_Zpower by lia.
      apply IZR_le. change (radix2 ^ 63) with (2 ^ 63). lia.
    - rewrite <- (rnd_bpow 64) by lia. apply rnd_le. rewrite <- IZR_Zpower by lia.
      apply IZR_le. change (radix2 ^ 64) with (2 ^ 64). lia. }
  assert (B64 : (bpow radix2 64 + bpow radix2 30 <= bpow radix2 65)%R).
  { rewrite <- !IZR_Zpower by lia. rewrite <- plus_IZR. apply IZR_le.
    change (radix2 ^ 64) with (2 ^ 64). change (radix2 ^ 30) with (2 ^ 30).
    change (radix2 ^ 65) with (2 ^ 65). lia. }
  assert (P63 : (0 < bpow radix2 63)%R) by apply bpow_gt_0.
  destruct (fadd_correct (f_of_Z z) (fdiv (f_of_Z 1000000000) (f_of_Z 60)) 65) as [Ea Fa];
    [lia|exact Fz|exact Fd| |].
  { rewrite Rabs_pos_eq by lra. lra. }
  assert (L : (bpow radix2 63 <= B2R (fadd (f_of_Z z) (fdiv (f_of_Z 1000000000) (f_of_Z 60))))%R).
  { rewrite Ea. rewrite <- (rnd_bpow 63) at 1 by lia. apply rnd_le. lra. }
  unfold f_to_u32, f_to_int.
  set (x := fadd (f_of_Z z) (fdiv (f_of_Z 1000000000) (f_of_Z 60))) in *. clearbody x.
  rewrite Fa. cbv zeta.
  assert (T : Btrunc x = Ztrunc (B2R x)).
  { pose proof (Btrunc_correct 53 1024 emax1024 x) as H. apply eq_IZR. rewrite H.
    rewrite round_FIX_IZR. reflexivity. }
  rewrite T.
  assert (2 ^ 63 <= Ztrunc (B2R x)).
  { rewrite Ztrunc_floor by lra. apply Zfloor_lub.
    replace (IZR (2 ^ 63)) with (bpow radix2 63); [exact L|].
    rewrite <- IZR_Zpower by lia. reflexivity. }
  destruct (_ && _) eqn:E; [lia|reflexivity].
Qed.

Lemma C54_convert_l p tdc gdc chip : packet_ok p -> 0 <= gdc < 2 ^ 48 -> 0 <= tdc < 2 ^ 48 ->
  let h := lib_hit p tdc gdc chip in
  (tdc <= h_spider h -> packet_to_hit p tdc gdc chip = Ok h) /\
  (h_spider h < tdc -> packet_to_hit p tdc gdc chip = UB BadConversion).
Proof.
  intros Hp Hg Ht. cbv zeta. rewrite lib_hit_eq. cbv zeta. cbn [h_spider].
  unfold packet_to_hit. cbv zeta.
  destruct (spidertime30_eq p Hp) as [_ Hs]. set (s := spidertime30 p) in *. clearbody s.
  pose proof (lib_time_range s gdc Hs Hg) as Hr. set (T := lib_time s gdc) in *. clearbody T.
  destruct (Z.ltb_spec T tdc) as [D|D].
  - split; [lia|]. intros _. rewrite huge_not_u32; [reflexivity|unfold u64; lia].
  - split; [|lia]. intros _. cbn [obind].
    destruct (layout chip (local_x (pixaddr p)) (local_y (pixaddr p))). reflexivity.
Qed.

(** * Alternative timing *)

Lemma alt_eq p a chip :
  packet_to_hit_alt p a chip =
  let s := spidertime30 p in
  let r := alt_rollover s a in
  let t := u64 (s + u64 (r * 2 ^ 30)) in
  let xy := layout chip (local_x (pixaddr p)) (local_y (pixaddr p)) in
  (Hit (fst xy) (snd xy) (get_tot p) (get_toa p) (get_ftoa p) (Some (u32 (t mod 666667))) t,
   Alt r s).
Proof.
  unfold packet_to_hit_alt. cbv zeta. change (Z.shiftl 1 30) with (2 ^ 30).
  destruct (layout chip (local_x (pixaddr p)) (local_y (pixaddr p))). reflexivity.
Qed.

Lemma C43_range_l p a chip : packet_ok p ->
  let h := fst (packet_to_hit_alt p a chip) in
  exists t, h_tof h = Some t /\ 0 <= t < 666667 /\ t = h_spider h mod 666667 /\
    h_spider h mod 2 ^ 30 = spidertime30 p.
Proof.
  intros Hp. cbv zeta. rewrite alt_eq. cbv zeta. cbn [fst h_tof h_spider].
  eexists. split; [reflexivity|].
  destruct (spidertime30_eq p Hp) as [_ Hs]. set (s := spidertime30 p) in *. clearbody s.
  set (r := alt_rollover s a). clearbody r. unfold u32, u64.
  assert (E : (s + (r * 2 ^ 30) mod 2 ^ 64) mod 2 ^ 64 mod 2 ^ 30 = s) by lia.
  rewrite E. set (t := (s + (r * 2 ^ 30) mod 2 ^ 64) mod 2 ^ 64) in *. clearbody t.
  assert (B : 0 <= t mod 666667 < 666667) by (apply Z.mod_pos_bound; lia).
  rewrite (Z.mod_small (t mod 666667)) by lia. split; [exact B|]. split; reflexivity.
Qed.


Lemma alt_track T T' : 0 <= T < 2 ^ 64 -> 0 <= T' < 2 ^ 64 -> Z.abs (T' - T) < 2 ^ 29 ->
  alt_rollover (T' mod 2 ^ 30) (alt_at T) = T' / 2 ^ 30.
Proof.
  intros HT HT' Hd. unfold alt_rollover, alt_at. cbn [alt_roll alt_prev].
  change (Z.shiftl 1 30 / 2) with (2 ^ 29).
  pose proof (Z.div_mod T (2 ^ 30) ltac:(lia)) as E. pose proof (Z.mod_pos_bound T (2 ^ 30) ltac:(lia)) as B.
  pose proof (Z.div_mod T' (2 ^ 30) ltac:(lia)) as E'. pose proof (Z.mod_pos_bound T' (2 ^ 30) ltac:(lia)) as B'.
  assert (Q : 0 <= T / 2 ^ 30 < 2 ^ 34) by (split; [apply Z.div_pos; lia|apply Z.div_lt_upper_bound; lia]).
  assert (Q' : 0 <= T' / 2 ^ 30 < 2 ^ 34) by (split; [apply Z.div_pos; lia|apply Z.div_lt_upper_bound; lia]).
  set (q := T / 2 ^ 30) in *. set (m := T mod 2 ^ 30) in *.
  set (q' := T' / 2 ^ 30) in *. set (m' := T' mod 2 ^ 30) in *. clearbody q m q' m'.
  destruct (Z.ltb_spec m' m) as [C|C].
  - rewrite (u64_id (m - m')) by lia. destruct (Z.gtb_spec (m - m') (2 ^ 29)) as [D|D].
    + rewrite u64_id by lia. lia.
    + lia.
  - rewrite (u64_id (m' - m)) by lia. destruct (Z.gtb_spec (m' - m) (2 ^ 29)) as [D|D].
    + destruct (Z.gtb_spec q 0) as [F|F]; [rewrite u64_id by lia; lia|lia].
    + lia.
Qed.

Lemma alt_says c f T T' : fields_ok f -> 0 <= T < 2 ^ 64 -> 0 <= T' < 2 ^ 64 ->
  Z.abs (T' - T) < 2 ^ 29 -> T' mod 2 ^ 30 = time30 f ->
  says c f T' (fst (packet_to_hit_alt (pixel_packet f) (alt_at T) c)) /\
  snd (packet_to_hit_alt (pixel_packet f) (alt_at T) c) = alt_at T'.
Proof.
  intros Hf HT HT' Hd Hm. rewrite alt_eq. cbv zeta. cbn [fst snd].
  rewrite spidertime30_fields by exact Hf. rewrite <- Hm.
  rewrite alt_track by assumption. split; [|reflexivity].
  assert (Et : u64 (T' mod 2 ^ 30 + u64 (T' / 2 ^ 30 * 2 ^ 30)) = T').
  { rewrite (u64_id (T' / 2 ^ 30 * 2 ^ 30)) by lia. rewrite u64_id by lia. lia. }
  rewrite Et. unfold says. cbn [h_x h_y h_tot h_toa h_ftoa h_spider h_tof].
  destruct (pixel_packet_decode f Hf) as (H1 & H2 & H3 & H4 & H5 & H6 & _).
  rewrite H1, H2, H3, H5, H6, layout_place, <- surjective_pairing.
  repeat (split; [reflexivity|]). f_equal. unfold u32. lia.
Qed.

Lemma C43_track_l cs fs Ts T0 : Forall fields_ok fs -> 0 <= T0 < 2 ^ 64 -> trackable T0 Ts ->
  Forall2 (fun f T => T mod 2 ^ 30 = time30 f) fs Ts -> length cs = length fs ->
  let hs := alt_hits (alt_at T0) (combine cs (map pixel_packet fs)) in
  length hs = length fs /\
  forall i c f T h, nth_error cs i = Some c -> nth_error fs i = Some f ->
    nth_error Ts i = Some T -> nth_error hs i = Some h -> says c f T h.
Proof.
  intros Hf HT0 Htr H2. cbv zeta. revert cs T0 HT0 Htr Hf.
  induction H2 as [|f T fs Ts Hm H2 IH]; intros cs T0 HT0 Htr Hf Hl.
  - destruct cs; [|discriminate Hl]. split; [reflexivity|]. intros [|i] c f T h Hc; discriminate Hc.
  - destruct cs as [|c cs]; [discriminate Hl|]. injection Hl as Hl.
    apply Forall_cons_iff in Hf. destruct Hf as [Hf Hfs].
    inversion Htr as [|? ? ? HT Hd Htr']; subst.
    cbn [map combine alt_hits].
    destruct (alt_says c f T0 T Hf HT0 HT Hd Hm) as [Hs Ha].
    destruct (packet_to_hit_alt (pixel_packet f) (alt_at T0) c) as [h0 a']. cbn [fst snd] in *.
    subst a'. destruct (IH cs T HT Htr' Hfs Hl) as [IH1 IH2].
    split; [cbn [length]; rewrite IH1; reflexivity|].
    intros [|i] c1 f1 T1 h1 Hc1 Hf1 HT1 Hh1; cbn [nth_error] in *.
    + injection Hc1 as <-. injection Hf1 as <-. injection HT1 as <-. injection Hh1 as <-. exact Hs.
    + eapply IH2; eauto.
Qed.

Lemma alt_hits_range a xs : Forall (fun x => packet_ok (snd x)) xs ->
  Forall (fun h => exists t, h_tof h = Some t /\ 0 <= t < 666667) (alt_hits a xs).
Proof.
  revert a. induction xs as [|[c p] xs IH]; intros a H; [constructor|].
  apply Forall_cons_iff in H. destruct H as [Hp H]. cbn [snd] in Hp. cbn [alt_hits].
  destruct (C43_range_l p a c Hp) as (t & H1 & H2 & _).
  destruct (packet_to_hit_alt p a c) as [h a']. cbn [fst] in *.
  constructor; [exists t; auto|apply IH; exact H].
Qed.

Lemma pixels_ok xs : Forall (fun x => packet_ok (snd x)) xs ->
  Forall (fun x : Z * packet => packet_ok (snd x)) (pixels xs).
Proof.
  intros H. unfold pixels. apply Forall_forall. intros x Hx. apply filter_In in Hx.
  rewrite Forall_forall in H. apply H, Hx.
Qed.

Lemma C43_file_l m hs : bytes_ok m -> read_raw (Some m) = Ok hs ->
  Forall (fun h => exists t, h_tof h = Some t /\ 0 <= t < 666667) hs.
Proof.
  intros Hb H.
  destruct (raw_loop_defined (length m) m (RawSt ts0 (Alt 0 0) []) Hb) as [[xs Hx]|Hx]; [lia| |].
  - rewrite (read_raw_framed m xs Hb Hx) in H. injection H as <-.
    apply alt_hits_range, pixels_ok. eapply framed_ok; eauto.
  - unfold read_raw in H. rewrite Hx in H. discriminate H.
Qed.

(** * Unprocessed batches *)

Lemma lib_find_spec m off : forall b, In b (lib_find m off) -> 0 <= off -> bytes_ok m ->
  0 <= t_num b.
Proof.
  remember (length m) as n eqn:En. revert m off En.
  induction n as [n IH] using lt_wf_ind. intros m off En b Hb Ho Hm.
  destruct m as [|a0 [|a1 [|a2 [|a3 [|a4 [|a5 [|a6 [|a7 rest]]]]]]]]; try contradiction.
  cbn [lib_find] in Hb. destruct rest as [|z rest]; [contradiction|].
  set (r := z :: rest) in *.
  assert (Hr : bytes_ok r /\ is_byte a6 /\ is_byte a7).
  { unfold bytes_ok in *. repeat match goal with H : Forall _ (_ :: _) |- _ =>
      apply Forall_cons_iff in H; destruct H end. auto. }
  destruct Hr as (Hr & H6 & H7).
  assert (Hrec : In b (lib_find r (off + 8)) -> 0 <= t_num b).
  { intros Hin. apply (IH (length r)) with (m := r) (off := off + 8); auto; [|lia].
    rewrite En. cbn [length]. lia. }
  destruct (is_header _); [|exact (Hrec Hb)].
  destruct Hb as [<-|Hb]; [|exact (Hrec Hb)].
  rewrite header_batch_num by assumption. unfold declared_packets, is_byte in *. cbn [b6 b7]. lia.
Qed.

Lemma lib_total_spec bs sum n : lib_total bs sum = Ok n ->
  n = fold_left (fun s b => s + t_num b) bs sum.
Proof.
  revert sum. induction bs as [|b bs IH]; intros sum H; cbn [lib_total fold_left] in *.
  - injection H as <-. reflexivity.
  - destruct (_ >? _); [discriminate H|]. apply IH. exact H.
Qed.

Lemma C56_blank_l m hs : fast_parse m = Ok hs ->
  Forall (fun h => h = Hit 0 0 0 0 0 (Some 0) 0) hs.
Proof.
  unfold fast_parse. destruct (lib_total _ _); cbn [obind]; try discriminate.
  intros H. injection H as <-. apply Forall_forall. intros h Hh. apply repeat_spec in Hh. exact Hh.
Qed.
