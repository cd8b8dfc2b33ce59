(** Proofs about arrival time and time of flight of a hit. *)
From Coq Require Import Reals Lra.
From Flocq Require Import Core.
From Verif Require Export P_Hit.
Global Open Scope Z_scope.

Lemma spidertime30_eq p : packet_ok p ->
  spidertime30 p = 16384 * raw_spider p + get_toa p /\ 0 <= spidertime30 p < 2 ^ 30.
Proof.
  intros H. unfold spidertime30.
  assert (Ht : 0 <= get_toa p < 2 ^ 14)
    by (rewrite get_toa_W by exact H; apply Z.mod_pos_bound; reflexivity).
  assert (Hs : 0 <= raw_spider p < 2 ^ 16)
    by (rewrite raw_spider_W by exact H; apply Z.mod_pos_bound; reflexivity).
  rewrite u32_id by lia. split; [reflexivity|lia].
Qed.

(** ** Arrival time with GDC *)

Lemma fge_4e7 z : 0 <= z < 2 ^ 64 -> fge (f_of_Z z) c_4e7 = (40000000 <=? z).
Proof.
  intros H. unfold c_4e7. pose proof pow_64_1000. apply fge_of_Z; lia.
Qed.

Lemma global_time_spec s g : 0 <= s < 2 ^ 30 -> 0 <= g < 2 ^ 48 ->
  global_time s g =
    if (g / 2 ^ 30 =? 2 ^ 18 - 1) && (s <? g mod 2 ^ 30) then s + 2 ^ 64 - 2 ^ 30
    else let T := g + 40000000 - 2 ^ 30 + (s - g - 40000000) mod 2 ^ 30 in
         if T <? 0 then T + 2 ^ 64 else T.
Proof.
  intros Hs Hg. unfold global_time.
  rewrite (land_low g _ 30) by (reflexivity || lia).
  rewrite (land_low (Z.shiftr g 30) _ 18) by (reflexivity || lia).
  rewrite shiftr_div by lia.
  assert (Hgr : 0 <= g mod 2 ^ 30 < 2 ^ 30) by (apply Z.mod_pos_bound; reflexivity).
  assert (Hgq : 0 <= g / 2 ^ 30 < 2 ^ 18).
  { split; [apply Z.div_pos; lia|apply Z.div_lt_upper_bound; lia]. }
  assert (Hge : g = 2 ^ 30 * (g / 2 ^ 30) + g mod 2 ^ 30) by (apply Z.div_mod; lia).
  rewrite (Z.mod_small (g / 2 ^ 30)) by exact Hgq.
  remember (g / 2 ^ 30) as q eqn:Eq. remember (g mod 2 ^ 30) as r eqn:Er.
  clear Eq Er.
  rewrite shiftl_mul by lia.
  rewrite (land_mid _ _ 30 18) by (reflexivity || lia).
  destruct (Z.ltb_spec s r) as [Hlt|Hge'].
  - rewrite (u64_id (q + 1)) by lia. rewrite (u64_id ((q + 1) * 2 ^ 30)) by lia.
    rewrite Z.div_mul by lia.
    destruct (Z.eqb_spec q (2 ^ 18 - 1)) as [Hq|Hq]; cbn [andb].
    + rewrite Hq. replace (2 ^ 18 - 1 + 1) with (2 ^ 18) by lia.
      rewrite Z_mod_same_full. rewrite lor_add by lia.
      replace (0 * 2 ^ 30 + s) with s by lia.
      assert (Hd : u64 (s - g) = s - g + 2 ^ 64).
      { unfold u64. symmetry. apply Z.mod_unique with (-1); lia. }
      rewrite Hd. rewrite fge_4e7 by lia.
      replace (40000000 <=? s - g + 2 ^ 64) with true by (symmetry; apply Z.leb_le; lia).
      unfold u64. symmetry. apply Z.mod_unique with (-1); lia.
    + rewrite (Z.mod_small (q + 1)) by lia. rewrite lor_add by lia.
      rewrite (u64_id (_ - g)) by lia. rewrite fge_4e7 by lia.
      cbv zeta.
      destruct (Z.leb_spec 40000000 ((q + 1) * 2 ^ 30 + s - g)) as [Hbig|Hsmall].
      * assert (HT : (s - g - 40000000) mod 2 ^ 30 = s - r - 40000000 + 2 ^ 30).
        { symmetry. apply Z.mod_unique with (- q - 1); lia. }
        rewrite HT.
        replace (g + 40000000 - 2 ^ 30 + (s - r - 40000000 + 2 ^ 30)) with (q * 2 ^ 30 + s) by lia.
        replace (q * 2 ^ 30 + s <? 0) with false by (symmetry; apply Z.ltb_ge; lia).
        rewrite u64_id by lia. lia.
      * assert (HT : (s - g - 40000000) mod 2 ^ 30 = s - r - 40000000 + 2 ^ 31).
        { symmetry. apply Z.mod_unique with (- q - 2); lia. }
        rewrite HT.
        replace (g + 40000000 - 2 ^ 30 + (s - r - 40000000 + 2 ^ 31)) with ((q + 1) * 2 ^ 30 + s) by lia.
        replace ((q + 1) * 2 ^ 30 + s <? 0) with false by (symmetry; apply Z.ltb_ge; lia).
        reflexivity.
  - rewrite (u64_id (q * 2 ^ 30)) by lia.
    rewrite Z.div_mul by lia. rewrite (Z.mod_small q) by lia. rewrite lor_add by lia.
    rewrite (u64_id (_ - g)) by lia. rewrite fge_4e7 by lia.
    rewrite andb_false_r. cbv zeta.
    destruct (Z.leb_spec 40000000 (q * 2 ^ 30 + s - g)) as [Hbig|Hsmall].
    + assert (HT : (s - g - 40000000) mod 2 ^ 30 = s - r - 40000000).
      { symmetry. apply Z.mod_unique with (- q); lia. }
      rewrite HT.
      replace (g + 40000000 - 2 ^ 30 + (s - r - 40000000)) with ((q - 1) * 2 ^ 30 + s) by lia.
      destruct (Z.ltb_spec ((q - 1) * 2 ^ 30 + s) 0) as [Hneg|Hpos].
      * unfold u64. symmetry. apply Z.mod_unique with (-1); lia.
      * rewrite u64_id by lia. lia.
    + assert (HT : (s - g - 40000000) mod 2 ^ 30 = s - r - 40000000 + 2 ^ 30).
      { symmetry. apply Z.mod_unique with (- q - 1); lia. }
      rewrite HT.
      replace (g + 40000000 - 2 ^ 30 + (s - r - 40000000 + 2 ^ 30)) with (q * 2 ^ 30 + s) by lia.
      replace (q * 2 ^ 30 + s <? 0) with false by (symmetry; apply Z.ltb_ge; lia).
      reflexivity.
Qed.

Lemma extends_unique s g T : extends s g T ->
  T = g + 40000000 - 2 ^ 30 + (s - g - 40000000) mod 2 ^ 30.
Proof.
  unfold extends. intros [Hm Hr].
  assert (E : (s - g - 40000000) mod 2 ^ 30 = T - g - 40000000 + 2 ^ 30).
  { symmetry. apply Z.mod_unique with (- (T / 2 ^ 30) - 1); [lia|].
    pose proof (Z.div_mod T (2 ^ 30)). lia. }
  lia.
Qed.

Lemma extends_exists s g : 0 <= s < 2 ^ 30 ->
  extends s g (g + 40000000 - 2 ^ 30 + (s - g - 40000000) mod 2 ^ 30).
Proof.
  intros Hs. unfold extends.
  pose proof (Z.mod_pos_bound (s - g - 40000000) (2 ^ 30) ltac:(reflexivity)) as Hb.
  split; [|lia].
  pose proof (Z.div_mod (s - g - 40000000) (2 ^ 30) ltac:(discriminate)) as E.
  symmetry. apply Z.mod_unique with (-1 - (s - g - 40000000) / 2 ^ 30); lia.
Qed.

Lemma global_time_range s g : 0 <= s < 2 ^ 30 -> 0 <= global_time s g < 2 ^ 64.
Proof.
  intros Hs. unfold global_time.
  match goal with |- context [if ?c then u64 ?a else ?b] => destruct c; [apply u64_range|] end.
  rewrite (land_mid _ _ 30 18) by (reflexivity || lia).
  rewrite lor_add by lia.
  pose proof (Z.mod_pos_bound (u64 (Z.shiftl (if s <? Z.land g 1073741823 then
    u64 (Z.land (Z.shiftr g 30) 262143 + 1) else Z.land (Z.shiftr g 30) 262143) 30) / 2 ^ 30) (2 ^ 18) ltac:(reflexivity)) as Hb.
  change 0x3FFFFFFF with 1073741823. change 0x3FFFF with 262143. lia.
Qed.

(** Low 30 bits are always those of the packet, even after a wrap. *)
Lemma global_time_low s g : 0 <= s < 2 ^ 30 -> global_time s g mod 2 ^ 30 = s.
Proof.
  intros Hs. unfold global_time.
  rewrite (land_mid _ _ 30 18) by (reflexivity || lia).
  rewrite lor_add by lia.
  match goal with |- context [?a * 2 ^ 30 + s] => remember a as A eqn:EA; clear EA end.
  destruct (fge _ _).
  - unfold u64. change (2 ^ 64) with (2 ^ 30 * 2 ^ 34). rewrite Z.rem_mul_r by lia.
    rewrite (Z.mul_comm (2 ^ 30) (_ mod _)), Z_mod_plus_full, Z.mod_mod by lia.
    change 1073741824 with (1 * 2 ^ 30).
    replace (A * 2 ^ 30 + s - 1 * 2 ^ 30) with (s + (A - 1) * 2 ^ 30) by lia.
    rewrite Z_mod_plus_full. apply Z.mod_small. exact Hs.
  - rewrite Z.add_comm, Z_mod_plus_full. apply Z.mod_small. exact Hs.
Qed.

(** ** Time of flight with GDC *)

Lemma c25em6_fin : is_finite c_25em6 = true.
Proof. reflexivity. Qed.
Lemma c1667_fin : is_finite c_16_67 = true.
Proof. reflexivity. Qed.

Lemma c25em6_pos : (0 <= B2R c_25em6 <= 1)%R.
Proof.
  assert (H1 : fle (f_of_Z 0) c_25em6 = true) by (vm_compute; reflexivity).
  assert (H2 : fle c_25em6 (f_of_Z 1) = true) by (vm_compute; reflexivity).
  rewrite fle_R in H1 by (reflexivity || exact c25em6_fin).
  rewrite fle_R in H2 by (reflexivity || exact c25em6_fin).
  rewrite of_Z_exact in H1 by lia. rewrite of_Z_exact in H2 by lia.
  split.
  - destruct (Rle_bool_spec 0 (B2R c_25em6)) as [H|H]; [exact H|discriminate].
  - destruct (Rle_bool_spec (B2R c_25em6) 1) as [H|H]; [exact H|discriminate].
Qed.

Lemma tof_product t : 0 <= t < 2 ^ 32 ->
  B2R (fmul (f_of_Z t) c_25em6) = rnd (IZR t * B2R c_25em6) /\
  is_finite (fmul (f_of_Z t) c_25em6) = true.
Proof.
  intros Ht. rewrite <- (of_Z_exact t) by lia.
  apply (fmul_correct _ _ 32); [lia|apply of_Z_fin53; lia|exact c25em6_fin|].
  rewrite of_Z_exact by lia. rewrite Rabs_mult.
  pose proof c25em6_pos as Hc.
  rewrite (Rabs_pos_eq (B2R c_25em6)) by lra.
  pose proof (IZR_abs_bpow t 32 ltac:(lia) ltac:(lia)) as Hb.
  assert (0 <= Rabs (IZR t))%R by apply Rabs_pos. nra.
Qed.

Lemma tof_too_long_mono t1 t2 : 0 <= t1 -> t1 <= t2 -> t2 < 2 ^ 32 ->
  tof_too_long t1 = true -> tof_too_long t2 = true.
Proof.
  intros H1 H12 H2. unfold tof_too_long, fgt.
  change (Bltb c_16_67 ?x) with (flt c_16_67 x).
  destruct (tof_product t1) as [R1 F1]; [lia|].
  destruct (tof_product t2) as [R2 F2]; [lia|].
  fold (flt c_16_67 (fmul (f_of_Z t1) c_25em6)).
  fold (flt c_16_67 (fmul (f_of_Z t2) c_25em6)).
  rewrite (flt_R _ _ c1667_fin F1), (flt_R _ _ c1667_fin F2), R1, R2.
  intros H. destruct (Rlt_bool_spec (B2R c_16_67) (rnd (IZR t1 * B2R c_25em6))) as [Hlt|Hge]; [|discriminate].
  apply Rlt_bool_true. apply Rlt_le_trans with (1 := Hlt). apply rnd_le.
  pose proof c25em6_pos as Hc. apply Rmult_le_compat_r; [lra|]. apply IZR_le. exact H12.
Qed.

(** The double comparison is a sharp integer threshold. *)
Lemma tof_too_long_spec t : 0 <= t < 2 ^ 32 -> tof_too_long t = (666800 <? t).
Proof.
  intros Ht. destruct (Z.ltb_spec 666800 t) as [H|H].
  - apply (tof_too_long_mono 666801 t); try lia. vm_compute. reflexivity.
  - destruct (tof_too_long t) eqn:E; [|reflexivity].
    assert (Hc : tof_too_long 666800 = true) by (apply (tof_too_long_mono t 666800); lia || exact E).
    vm_compute in Hc. discriminate.
Qed.

(** The time of flight as a closed formula. *)
Definition frame_phase (d : Z) : Z :=
  if 666800 <? d then 134 + (d - 134) mod 666667 else d.

Lemma tof_loop_spec fuel t : 0 <= t < 2 ^ 32 -> t / 666667 <= Z.of_nat fuel ->
  tof_loop fuel t = Ok (frame_phase t).
Proof.
  revert t. induction fuel as [|fuel IH]; intros t Ht Hf.
  - cbn [tof_loop]. rewrite tof_too_long_spec by exact Ht. unfold frame_phase.
    destruct (Z.ltb_spec 666800 t) as [H|H]; [lia|reflexivity].
  - cbn [tof_loop]. rewrite tof_too_long_spec by exact Ht. unfold frame_phase.
    destruct (Z.ltb_spec 666800 t) as [H|H]; [|reflexivity].
    rewrite (u32_id (t - 666667)) by lia.
    rewrite IH by lia. f_equal. unfold frame_phase.
    destruct (Z.ltb_spec 666800 (t - 666667)) as [H'|H']; lia.
Qed.

Lemma tof_gdc_spec spider tdc :
  tof_gdc spider tdc = Ok (frame_phase ((spider - tdc) mod 2 ^ 32)).
Proof.
  unfold tof_gdc. rewrite u32_u64.
  pose proof (u32_range (spider - tdc)) as Hr.
  rewrite tof_loop_spec; [reflexivity|exact Hr|].
  unfold tof_fuel. remember (u32 (spider - tdc)) as d. clear Heqd. lia.
Qed.

Lemma frame_phase_spec d : 0 <= d < 2 ^ 32 ->
  0 <= frame_phase d <= 666800 /\ (frame_phase d - d) mod 666667 = 0 /\
  (d <= 666800 -> frame_phase d = d) /\ (666800 < d -> 134 <= frame_phase d).
Proof.
  intros Hd. unfold frame_phase.
  destruct (Z.ltb_spec 666800 d) as [H|H]; lia.
Qed.

(** [hit_gdc] as a value. *)
Lemma hit_gdc_eq p tdc gdc chip :
  hit_gdc p tdc gdc chip =
  let t := global_time (spidertime30 p) gdc in
  let xy := layout chip (local_x (pixaddr p)) (local_y (pixaddr p)) in
  Ok (Hit (fst xy) (snd xy) (get_tot p) (get_toa p) (get_ftoa p)
          (Some (frame_phase ((t - tdc) mod 2 ^ 32))) t).
Proof.
  unfold hit_gdc. cbv zeta. rewrite tof_gdc_spec. cbn [obind].
  destruct (layout chip (local_x (pixaddr p)) (local_y (pixaddr p))). reflexivity.
Qed.

Lemma hit_tdc_eq p tdc chip :
  hit_tdc p tdc chip =
  let ts := time_tdc p tdc in
  let xy := layout chip (local_x (pixaddr p)) (local_y (pixaddr p)) in
  Hit (fst xy) (snd xy) (get_tot p) (get_toa p) (get_ftoa p)
      (if ts >=? tdc then Some (u32 (u64 (ts - tdc))) else None) ts.
Proof.
  unfold hit_tdc. cbv zeta.
  destruct (layout chip (local_x (pixaddr p)) (local_y (pixaddr p))). reflexivity.
Qed.

Lemma time_tdc_spec p tdc : packet_ok p -> 0 <= tdc ->
  time_tdc p tdc =
  let s := 16384 * raw_spider p + get_toa p in
  if s + 4194304 <? tdc then s + 2 ^ 30 else s.
Proof.
  intros Hp Ht. unfold time_tdc.
  destruct (spidertime30_eq p Hp) as [Hs Hr].
  rewrite Hs in Hr.
  assert (Ht14 : 0 <= get_toa p < 2 ^ 14)
    by (rewrite get_toa_W by exact Hp; apply Z.mod_pos_bound; reflexivity).
  rewrite shiftl_mul by lia. rewrite lor_add by lia.
  cbv zeta. change (2 ^ 14) with 16384.
  rewrite (Z.mul_comm (raw_spider p) 16384).
  rewrite u64_id by lia.
  change 0x400000 with 4194304.
  destruct (Z.ltb_spec (16384 * raw_spider p + get_toa p + 4194304) tdc) as [H|H].
  - replace (tdc >? _) with true by (symmetry; apply Z.gtb_lt; lia).
    rewrite Z.lor_comm. change 0x40000000 with (1 * 2 ^ 30).
    rewrite lor_add by lia. lia.
  - replace (tdc >? _) with false; [reflexivity|].
    symmetry. rewrite Z.gtb_ltb. apply Z.ltb_ge. exact H.
Qed.

Lemma layout_place chip x y : layout chip x y = place chip x y.
Proof.
  unfold layout, place.
  destruct (Z.eqb_spec chip 0) as [->|H0]; [f_equal; lia|].
  destruct (Z.eqb_spec chip 1) as [->|H1]; [f_equal; lia|].
  destruct (Z.eqb_spec chip 2) as [->|H2]; [f_equal; lia|].
  destruct chip as [|c|c]; try lia; try reflexivity.
  destruct c as [c|c|]; try lia; try reflexivity.
  destruct c as [c|c|]; try lia; try reflexivity.
Qed.
