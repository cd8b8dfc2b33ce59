(** Accuracy of the centroid. *)
From Verif Require Export M_Centroid S_Centroid F64Facts P_AbsProps.
From Coq Require Import Lia ZifyBool Reals Lra.
From Flocq Require Import Core Relative.
Global Open Scope Z_scope.

Lemma hsum_app g a b : hsum g (a ++ b) = hsum g a + hsum g b.
Proof. unfold hsum. induction a as [|h a IH]; cbn in *; [reflexivity|]. rewrite IH. ring. Qed.

Lemma hsum_bounds g c lo hi : Forall (fun h => lo <= g h <= hi) c ->
  lo * zlen c <= hsum g c <= hi * zlen c.
Proof.
  induction 1 as [|h c H F IH]; [rewrite zlen_nil; cbn; lia|]. cbn [hsum fold_right]. fold (hsum g c).
  rewrite zlen_cons. lia.
Qed.

Definition sums_are (s : sums) (x y t w : Z) : Prop :=
  is_int (s_x s) x /\ is_int (s_y s) y /\ is_int (s_tof s) t /\ is_int (s_tot s) w.

Lemma sensor_bounds c : Forall sensor_hit c ->
  0 <= hsum (fun h => h_x h * h_tot h) c <= 515 * 1023 * zlen c /\
  0 <= hsum (fun h => h_y h * h_tot h) c <= 515 * 1023 * zlen c /\
  0 <= hsum h_x c <= 515 * zlen c /\ 0 <= hsum h_y c <= 515 * zlen c /\
  0 <= hsum tof_value c <= (2 ^ 32 - 1) * zlen c /\
  0 <= hsum h_tot c <= 1023 * zlen c.
Proof.
  intros F.
  assert (X : forall g hi, (forall h, sensor_hit h -> 0 <= g h <= hi) ->
     0 <= hsum g c <= hi * zlen c).
  { intros g hi Hg. destruct (hsum_bounds g c 0 hi); [|lia].
    eapply Forall_impl; [|exact F]. exact Hg. }
  repeat (split; [apply X; intros h (A & B & C & t & E & D); try nia|]).
  2:{ apply X. intros h (_ & _ & C & _). exact C. }
  unfold tof_value. rewrite E. lia.
Qed.

Lemma one_int : is_int (f_of_Z 1) 1.
Proof. apply is_int_of_Z. lia. Qed.
Lemma zero_int : is_int (f_of_Z 0) 0.
Proof. apply is_int_of_Z. lia. Qed.

Lemma scaled_one z : Z.abs z <= 2 ^ 53 -> is_int (fmul (f_of_Z 1) (f_of_Z z)) z.
Proof.
  intros H. replace z with (1 * z) at 2 by ring.
  apply is_int_mul; [exact one_int|apply is_int_of_Z; exact H|lia].
Qed.

Lemma weighted_loop c : forall pre s, Forall sensor_hit (pre ++ c) -> zlen (pre ++ c) <= 2 ^ 21 ->
  sums_are s (hsum (fun h => h_x h * h_tot h) pre) (hsum (fun h => h_y h * h_tot h) pre)
             (hsum tof_value pre) (hsum h_tot pre) ->
  exists s', ofold (add_weighted (f_of_Z 1)) c s = Ok s' /\
    sums_are s' (hsum (fun h => h_x h * h_tot h) (pre ++ c)) (hsum (fun h => h_y h * h_tot h) (pre ++ c))
             (hsum tof_value (pre ++ c)) (hsum h_tot (pre ++ c)).
Proof.
  induction c as [|h c IH]; intros pre s F L S.
  - exists s. rewrite app_nil_r. auto.
  - replace (pre ++ h :: c) with ((pre ++ [h]) ++ c) in * by (rewrite <- app_assoc; reflexivity).
    assert (Fh : sensor_hit h).
    { rewrite Forall_forall in F. apply F. apply in_or_app. left. apply in_or_app. right. left. reflexivity. }
    assert (Fp : Forall sensor_hit (pre ++ [h])) by (apply Forall_app in F; tauto).
    assert (Lp : zlen (pre ++ [h]) <= 2 ^ 21) by (rewrite zlen_app in L; pose proof (zlen_nonneg c); lia).
    destruct (sensor_bounds _ Fp) as (B1 & B2 & _ & _ & B5 & B6).
    rewrite !hsum_app in B1, B2, B5, B6. cbn [hsum fold_right] in B1, B2, B5, B6.
    rewrite !Z.add_0_r in *.
    destruct Fh as (Hx & Hy & Hw & t & Et & Ht).
    cbn [ofold]. unfold add_weighted at 1. unfold get_tof. rewrite Et. cbn [obind].
    destruct S as (S1 & S2 & S3 & S4).
    apply IH; [exact F|exact L|].
    rewrite !hsum_app. cbn [hsum fold_right]. rewrite !Z.add_0_r.
    unfold sums_are. cbn [s_x s_y s_tof s_tot].
    assert (T : tof_value h = t) by (unfold tof_value; rewrite Et; reflexivity).
    rewrite T in *.
    pose proof (zlen_nonneg (pre ++ [h])).
    split; [|split; [|split]];
      apply is_int_add; try assumption; try lia;
      try (apply is_int_of_Z; lia);
      (apply is_int_mul; [apply scaled_one; lia|apply is_int_of_Z; lia|nia]).
Qed.

Lemma plain_loop c : forall pre s, Forall sensor_hit (pre ++ c) -> zlen (pre ++ c) <= 2 ^ 21 ->
  sums_are s (hsum h_x pre) (hsum h_y pre) (hsum tof_value pre) (hsum h_tot pre) ->
  exists s', ofold (add_plain (f_of_Z 1)) c s = Ok s' /\
    sums_are s' (hsum h_x (pre ++ c)) (hsum h_y (pre ++ c)) (hsum tof_value (pre ++ c)) (hsum h_tot (pre ++ c)).
Proof.
  induction c as [|h c IH]; intros pre s F L S.
  - exists s. rewrite app_nil_r. auto.
  - replace (pre ++ h :: c) with ((pre ++ [h]) ++ c) in * by (rewrite <- app_assoc; reflexivity).
    assert (Fh : sensor_hit h).
    { rewrite Forall_forall in F. apply F. apply in_or_app. left. apply in_or_app. right. left. reflexivity. }
    assert (Fp : Forall sensor_hit (pre ++ [h])) by (apply Forall_app in F; tauto).
    assert (Lp : zlen (pre ++ [h]) <= 2 ^ 21) by (rewrite zlen_app in L; pose proof (zlen_nonneg c); lia).
    destruct (sensor_bounds _ Fp) as (_ & _ & B3 & B4 & B5 & B6).
    rewrite !hsum_app in B3, B4, B5, B6. cbn [hsum fold_right] in B3, B4, B5, B6.
    rewrite !Z.add_0_r in *.
    destruct Fh as (Hx & Hy & Hw & t & Et & Ht).
    cbn [ofold]. unfold add_plain at 1. unfold get_tof. rewrite Et. cbn [obind].
    destruct S as (S1 & S2 & S3 & S4).
    apply IH; [exact F|exact L|].
    rewrite !hsum_app. cbn [hsum fold_right]. rewrite !Z.add_0_r.
    unfold sums_are. cbn [s_x s_y s_tof s_tot].
    assert (T : tof_value h = t) by (unfold tof_value; rewrite Et; reflexivity).
    rewrite T in *.
    pose proof (zlen_nonneg (pre ++ [h])).
    split; [|split; [|split]];
      apply is_int_add; try assumption; try lia;
      try (apply is_int_of_Z; lia); apply scaled_one; lia.
Qed.

(** * Two roundings *)

Lemma rel_err v : (bpow radix2 (-1000) <= Rabs v)%R ->
  (Rabs (rnd v - v) <= bpow radix2 (-53) * Rabs v)%R.
Proof.
  intros H. rewrite rnd_FLT.
  replace (bpow radix2 (-53)) with (/ 2 * bpow radix2 (- (53) + 1))%R.
  - apply relative_error_N_FLT; [reflexivity|].
    apply Rle_trans with (2 := H). apply bpow_le. lia.
  - change (/ 2)%R with (bpow radix2 (-1)). rewrite <- bpow_plus. reflexivity.
Qed.

Lemma inv_of_int w d : 1 <= d <= 2 ^ 53 -> is_int w d ->
  is_finite (fdiv (f_of_Z 1) w) = true /\
  (Rabs (B2R (fdiv (f_of_Z 1) w) - / IZR d) <= bpow radix2 (-53) * / IZR d)%R /\
  (0 < B2R (fdiv (f_of_Z 1) w) <= 2 * / IZR d)%R.
Proof.
  intros Hd [Fw Ew].
  assert (D0 : (0 < IZR d)%R) by (apply IZR_lt; lia).
  assert (D1 : (1 <= IZR d)%R) by (apply IZR_le; lia).
  assert (Di : (0 < / IZR d)%R) by (apply Rinv_0_lt_compat; exact D0).
  assert (Dle : (/ IZR d <= 1)%R) by (rewrite <- Rinv_1; apply Rinv_le; lra).
  assert (Ev : (B2R (f_of_Z 1) / B2R w = / IZR d)%R).
  { destruct one_int as [_ E1]. rewrite E1, Ew. unfold Rdiv. rewrite Rmult_1_l. reflexivity. }
  destruct (fdiv_correct (f_of_Z 1) w 0) as [A B]; [lia|apply one_int|rewrite Ew; lra| |].
  { rewrite Ev, Rabs_pos_eq by lra. exact Dle. }
  rewrite Ev in A.
  assert (R : (Rabs (rnd (/ IZR d) - / IZR d) <= bpow radix2 (-53) * Rabs (/ IZR d))%R).
  { apply rel_err. rewrite Rabs_pos_eq by lra.
    apply Rle_trans with (/ bpow radix2 53)%R.
    - rewrite <- bpow_opp. apply bpow_le. lia.
    - apply Rinv_le; [exact D0|]. change (bpow radix2 53) with (IZR (2 ^ 53)). apply IZR_le. lia. }
  rewrite (Rabs_pos_eq (/ IZR d)) in R by lra.
  rewrite A. split; [exact B|]. split; [exact R|].
  assert (U : (bpow radix2 (-53) <= / 2)%R) by (change (/ 2)%R with (bpow radix2 (-1)); apply bpow_le; lia).
  apply Rabs_le_inv in R.
  assert (P : (bpow radix2 (-53) * / IZR d <= / 2 * / IZR d)%R) by (apply Rmult_le_compat_r; lra).
  lra.
Qed.

Lemma mean_close s w a d : 0 <= a <= 2 ^ 52 -> 1 <= d <= 2 ^ 52 -> is_int s a -> is_int w d ->
  close (fmul s (fdiv (f_of_Z 1) w)) (IZR a / IZR d) /\
  (0 <= B2R (fmul s (fdiv (f_of_Z 1) w)))%R.
Proof.
  intros Ha Hd [Fs Es] Hw.
  destruct (inv_of_int w d ltac:(lia) Hw) as (Fi & Ei & Pi & Qi).
  set (v := fdiv (f_of_Z 1) w) in *.
  assert (D0 : (1 <= IZR d)%R) by (apply IZR_le; lia).
  assert (Di : (0 < / IZR d)%R) by (apply Rinv_0_lt_compat; lra).
  assert (Dle : (/ IZR d <= 1)%R) by (rewrite <- Rinv_1; apply Rinv_le; lra).
  assert (A0 : (0 <= IZR a)%R) by (apply IZR_le; lia).
  assert (A1 : (IZR a <= bpow radix2 52)%R).
  { change (bpow radix2 52) with (IZR (2 ^ 52)). apply IZR_le. lia. }
  assert (P0 : (0 <= IZR a * B2R v)%R) by (apply Rmult_le_pos; lra).
  assert (P1 : (IZR a * B2R v <= bpow radix2 54)%R).
  { apply Rle_trans with (bpow radix2 52 * 2)%R; [apply Rmult_le_compat; lra|].
    change 2%R with (bpow radix2 1). rewrite <- bpow_plus. apply bpow_le. lia. }
  destruct (fmul_correct s v 54) as [M1 M2]; [lia|exact Fs|exact Fi| |].
  { rewrite Es, Rabs_pos_eq by exact P0. exact P1. }
  rewrite Es in M1.
  split.
  2:{ rewrite M1. replace 0%R with (rnd 0); [apply rnd_le; exact P0|apply round_0; apply valid_rnd_N]. }
  split; [exact M2|]. rewrite M1.
  destruct (Z.eq_dec a 0) as [->|Na].
  - rewrite Rmult_0_l. unfold Rdiv. rewrite Rmult_0_l. rewrite round_0 by apply valid_rnd_N.
    rewrite Rminus_0_r, Rabs_R0. lra.
  - assert (A2 : (1 <= IZR a)%R) by (apply IZR_le; lia).
    assert (Vlo : (bpow radix2 (-60) <= B2R v)%R).
    { apply Rabs_le_inv in Ei.
      assert (U : (bpow radix2 (-53) <= / 2)%R) by (change (/ 2)%R with (bpow radix2 (-1)); apply bpow_le; lia).
      assert (P : (bpow radix2 (-53) * / IZR d <= / 2 * / IZR d)%R) by (apply Rmult_le_compat_r; lra).
      apply Rle_trans with (/ 2 * / IZR d)%R; [|lra].
      apply Rle_trans with (/ 2 * / bpow radix2 52)%R.
      - rewrite <- bpow_opp. change (/ 2)%R with (bpow radix2 (-1)). rewrite <- bpow_plus. apply bpow_le. lia.
      - apply Rmult_le_compat_l; [lra|]. apply Rinv_le; [lra|].
        change (bpow radix2 52) with (IZR (2 ^ 52)). apply IZR_le. lia. }
    assert (E2 : (Rabs (rnd (IZR a * B2R v) - IZR a * B2R v) <= bpow radix2 (-53) * Rabs (IZR a * B2R v))%R).
    { apply rel_err. rewrite Rabs_pos_eq by exact P0.
      apply Rle_trans with (1 * bpow radix2 (-60))%R.
      - rewrite Rmult_1_l. apply bpow_le. lia.
      - apply Rmult_le_compat; try lra. apply bpow_ge_0. }
    rewrite (Rabs_pos_eq (IZR a * B2R v)) in E2 by exact P0.
    assert (Q0 : (0 <= IZR a / IZR d)%R) by (apply Rmult_le_pos; lra).
    rewrite (Rabs_pos_eq (IZR a / IZR d)) by exact Q0.
    assert (E1 : (Rabs (IZR a * B2R v - IZR a / IZR d) <= bpow radix2 (-53) * (IZR a / IZR d))%R).
    { unfold Rdiv. rewrite <- Rmult_minus_distr_l, Rabs_mult, (Rabs_pos_eq (IZR a)) by exact A0.
      replace (bpow radix2 (-53) * (IZR a * / IZR d))%R
        with (IZR a * (bpow radix2 (-53) * / IZR d))%R by ring.
      apply Rmult_le_compat_l; [exact A0|exact Ei]. }
    set (q := (IZR a / IZR d)%R) in *. set (p := (IZR a * B2R v)%R) in *.
    assert (U : (bpow radix2 (-53) <= / 2)%R) by (change (/ 2)%R with (bpow radix2 (-1)); apply bpow_le; lia).
    assert (U0 : (0 < bpow radix2 (-53))%R) by apply bpow_gt_0.
    set (u := bpow radix2 (-53)) in *.
    assert (U4 : (bpow radix2 (-51) = 4 * u)%R).
    { unfold u. change 4%R with (bpow radix2 2). rewrite <- bpow_plus. reflexivity. }
    rewrite U4. apply Rabs_le. apply Rabs_le_inv in E1. apply Rabs_le_inv in E2.
    assert (Pq : (p <= 2 * q)%R) by nra.
    assert (Up : (u * p <= u * (2 * q))%R) by (apply Rmult_le_compat_l; lra).
    split; lra.
Qed.

Lemma mean_rounded s a n : 0 <= a <= 2 ^ 53 -> 1 <= n <= 2 ^ 53 -> is_int s a ->
  rounded (fdiv s (f_of_Z n)) (IZR a / IZR n).
Proof.
  intros Ha Hn [Fs Es]. destruct (is_int_of_Z n ltac:(lia)) as [Fn En].
  assert (N1 : (1 <= IZR n)%R) by (apply IZR_le; lia).
  assert (Ni : (0 < / IZR n)%R) by (apply Rinv_0_lt_compat; lra).
  assert (Nle : (/ IZR n <= 1)%R) by (rewrite <- Rinv_1; apply Rinv_le; lra).
  assert (A0 : (0 <= IZR a)%R) by (apply IZR_le; lia).
  assert (A1 : (IZR a <= bpow radix2 53)%R).
  { change (bpow radix2 53) with (IZR (2 ^ 53)). apply IZR_le. lia. }
  destruct (fdiv_correct s (f_of_Z n) 53) as [A B]; [lia|exact Fs|rewrite En; lra| |].
  { rewrite Es, En. unfold Rdiv. rewrite Rabs_pos_eq by (apply Rmult_le_pos; lra).
    rewrite <- (Rmult_1_r (bpow radix2 53)). apply Rmult_le_compat; lra. }
  split; [exact B|]. rewrite A, Es, En, rnd_FLT. reflexivity.
Qed.

(** * C26 *)

Lemma sums0_are : sums_are sums0 0 0 0 0.
Proof. repeat split; apply zero_int. Qed.

Lemma len_pos {A} (c : list A) : c <> [] -> 1 <= zlen c.
Proof. destruct c; [congruence|]. intros _. rewrite zlen_cons. pose proof (zlen_nonneg c). lia. Qed.

Lemma C26_l c : c <> [] -> Forall sensor_hit c -> zlen c <= 2 ^ 21 ->
  exists e, centroid_fit true (f_of_Z 1) c = Ok e /\ n_hits e = zlen c /\
    is_finite (n_tot e) = true /\ B2R (n_tot e) = IZR (hsum h_tot c) /\
    rounded (n_tof e) (IZR (hsum tof_value c) / IZR (zlen c)) /\
    (0 < hsum h_tot c ->
       close (n_x e) (IZR (hsum (fun h => h_x h * h_tot h) c) / IZR (hsum h_tot c)) /\
       close (n_y e) (IZR (hsum (fun h => h_y h * h_tot h) c) / IZR (hsum h_tot c)) /\
       (0 <= B2R (n_x e))%R /\ (0 <= B2R (n_y e))%R) /\
    (hsum h_tot c = 0 -> is_nan (n_x e) = true /\ is_nan (n_y e) = true).
Proof.
  intros Nc F L. pose proof (len_pos c Nc) as Lp.
  destruct (weighted_loop c [] sums0 F L sums0_are) as (s & Es & S1 & S2 & S3 & S4).
  cbn [app] in *. destruct (sensor_bounds c F) as (B1 & B2 & _ & _ & B5 & B6).
  unfold centroid_fit. destruct c as [|h0 c0] eqn:Ec; [congruence|]. rewrite <- Ec in *.
  rewrite Es. cbn [obind]. eexists. split; [reflexivity|]. cbn [n_hits n_tot n_tof n_x n_y].
  split; [reflexivity|]. split; [apply S4|]. split; [apply S4|].
  split; [apply mean_rounded; [lia|lia|exact S3]|]. split.
  - intros Hp.
    destruct (mean_close (s_x s) (s_tot s) (hsum (fun h => h_x h * h_tot h) c) (hsum h_tot c)) as [X1 X2];
      [lia|lia|exact S1|exact S4|].
    destruct (mean_close (s_y s) (s_tot s) (hsum (fun h => h_y h * h_tot h) c) (hsum h_tot c)) as [Y1 Y2];
      [lia|lia|exact S2|exact S4|]. auto.
  - intros Hz. rewrite Hz in S4.
    assert (Zx : hsum (fun h => h_x h * h_tot h) c = 0 /\ hsum (fun h => h_y h * h_tot h) c = 0).
    { clear - F Hz. induction F as [|h c Hh F IH]; [split; reflexivity|].
      cbn [hsum fold_right] in *. fold (hsum h_tot c) in Hz.
      fold (hsum (fun h => h_x h * h_tot h) c). fold (hsum (fun h => h_y h * h_tot h) c).
      destruct (sensor_bounds c F) as (_ & _ & _ & _ & _ & B6). destruct Hh as (_ & _ & Hw & _).
      assert (h_tot h = 0) by lia. destruct IH as [-> ->]; [lia|]. rewrite H. split; ring. }
    destruct Zx as [Zx Zy]. rewrite Zx in S1. rewrite Zy in S2.
    assert (ZI : forall v, is_int v 0 -> exists b, v = B754_zero b).
    { intros v [Fv Ev]. destruct v as [b|b| |b m e p]; try discriminate; [exists b; reflexivity|].
      exfalso. cbn in Ev. apply eq_0_F2R in Ev. destruct b; discriminate. }
    destruct (ZI _ S1) as [bx ->]. destruct (ZI _ S2) as [by' ->]. destruct (ZI _ S4) as [bw ->].
    split; reflexivity.
Qed.

Lemma C26_plain_l c : c <> [] -> Forall sensor_hit c -> zlen c <= 2 ^ 21 ->
  exists e, centroid_fit false (f_of_Z 1) c = Ok e /\ n_hits e = zlen c /\
    is_finite (n_tot e) = true /\ B2R (n_tot e) = IZR (hsum h_tot c) /\
    rounded (n_tof e) (IZR (hsum tof_value c) / IZR (zlen c)) /\
    close (n_x e) (IZR (hsum h_x c) / IZR (zlen c)) /\
    close (n_y e) (IZR (hsum h_y c) / IZR (zlen c)) /\
    (0 <= B2R (n_x e))%R /\ (0 <= B2R (n_y e))%R.
Proof.
  intros Nc F L. pose proof (len_pos c Nc) as Lp.
  destruct (plain_loop c [] sums0 F L sums0_are) as (s & Es & S1 & S2 & S3 & S4).
  cbn [app] in *. destruct (sensor_bounds c F) as (_ & _ & B3 & B4 & B5 & B6).
  unfold centroid_fit. destruct c as [|h0 c0] eqn:Ec; [congruence|]. rewrite <- Ec in *.
  rewrite Es. cbn [obind]. eexists. split; [reflexivity|]. cbn [n_hits n_tot n_tof n_x n_y].
  split; [reflexivity|]. split; [apply S4|]. split; [apply S4|].
  split; [apply mean_rounded; [lia|lia|exact S3]|].
  destruct (mean_close (s_x s) (f_of_Z (zlen c)) (hsum h_x c) (zlen c)) as [X1 X2];
    [lia|lia|exact S1|apply is_int_of_Z; lia|].
  destruct (mean_close (s_y s) (f_of_Z (zlen c)) (hsum h_y c) (zlen c)) as [Y1 Y2];
    [lia|lia|exact S2|apply is_int_of_Z; lia|].
  auto.
Qed.

(** The weighted mean of coordinates in 0..515 is in 0..515, so the centroid is
    at most 515 (1 + 2^-51). *)
Lemma C26_sensor_l c e : Forall sensor_hit c -> zlen c <= 2 ^ 21 ->
  0 < hsum h_tot c -> centroid_fit true (f_of_Z 1) c = Ok e ->
  (0 <= B2R (n_x e) <= 515 * (1 + bpow radix2 (-51)))%R /\
  (0 <= B2R (n_y e) <= 515 * (1 + bpow radix2 (-51)))%R.
Proof.
  intros F L Hp E.
  assert (Nc : c <> []) by (intros ->; cbn in Hp; lia).
  destruct (C26_l c Nc F L) as (e' & E' & _ & _ & _ & _ & X & _).
  rewrite E in E'. apply Ok_inj in E'. subst e'.
  destruct (X Hp) as ([_ Cx] & [_ Cy] & Px & Py).
  assert (W0 : (0 < IZR (hsum h_tot c))%R) by (apply IZR_lt; exact Hp).
  assert (Q : forall g, (forall h, sensor_hit h -> 0 <= g h <= 515) ->
     (0 <= IZR (hsum (fun h => (g h * h_tot h)%Z) c) / IZR (hsum h_tot c) <= 515)%R).
  { intros g Hg.
    assert (Hs : 0 <= hsum (fun h => g h * h_tot h) c <= 515 * hsum h_tot c).
    { clear - F Hg. induction F as [|h c Hh F IH]; [cbn; lia|].
      cbn [hsum fold_right]. fold (hsum h_tot c). fold (hsum (fun h => g h * h_tot h) c).
      pose proof (Hg h Hh). destruct Hh as (_ & _ & Hw & _). nia. }
    destruct Hs as [H1 H2]. apply IZR_le in H1. apply IZR_le in H2. rewrite mult_IZR in H2.
    assert (Wi : (0 < / IZR (hsum h_tot c))%R) by (apply Rinv_0_lt_compat; exact W0).
    split.
    - apply Rmult_le_pos; lra.
    - apply Rmult_le_reg_r with (IZR (hsum h_tot c)); [exact W0|].
      unfold Rdiv. rewrite Rmult_assoc, Rinv_l by lra. lra. }
  assert (U : (0 < bpow radix2 (-51))%R) by apply bpow_gt_0.
  assert (G : forall v q, (Rabs (v - q) <= bpow radix2 (-51) * Rabs q)%R -> (0 <= q <= 515)%R ->
     (v <= 515 * (1 + bpow radix2 (-51)))%R).
  { intros v q H [Q1 Q2]. rewrite (Rabs_pos_eq q) in H by exact Q1. apply Rabs_le_inv in H. nra. }
  split; split; try assumption.
  - eapply G; [exact Cx|]. apply Q. intros h (A & _). exact A.
  - eapply G; [exact Cy|]. apply Q. intros h (_ & A & _). exact A.
Qed.

(** ** Events of the centroid method *)

Lemma fge_nonneg v : is_finite v = true -> (0 <= B2R v)%R -> fge v (f_of_Z 0) = true.
Proof.
  intros F P. unfold fge. fold (fle (f_of_Z 0) v). destruct zero_int as [Fz Ez].
  rewrite fle_R by assumption. rewrite Ez. apply Rle_bool_true. exact P.
Qed.

Lemma hsum_tot_pos c : c <> [] -> Forall (fun h => sensor_hit h /\ 0 < h_tot h) c -> 0 < hsum h_tot c.
Proof.
  intros N F. destruct c as [|h c]; [congruence|]. inversion F as [|? ? [Hh Hp] F']; subst.
  cbn [hsum fold_right]. fold (hsum h_tot c).
  assert (0 <= hsum h_tot c).
  { apply (sensor_bounds c). eapply Forall_impl; [|exact F']. intros a [A _]. exact A. }
  lia.
Qed.

Lemma C24_centroid_l n ext cfg o data o' evs : (0 < n)%nat -> Forall hit_ok data ->
  Forall (fun h => sensor_hit h /\ 0 < h_tot h) data -> zlen data <= 2 ^ 21 -> a_min cfg <= 1 ->
  abs_fit n cfg o data = Ok o' ->
  abs_get_events ext cfg (abs_set_method o' MCentroid) data = Ok evs ->
  total_hits evs = zlen data.
Proof.
  intros Hn Hd Hs Hl Hm E G.
  eapply (C24_all_l n ext cfg o data o' MCentroid); try eassumption; [reflexivity|].
  intros c e Nc Inc Lc Ef.
  assert (F : Forall (fun h => sensor_hit h /\ 0 < h_tot h) c).
  { apply Forall_forall. intros a Ia. rewrite Forall_forall in Hs. apply Hs, Inc, Ia. }
  assert (F' : Forall sensor_hit c) by (eapply Forall_impl; [|exact F]; intros a [A _]; exact A).
  destruct (C26_l c Nc F' ltac:(lia)) as (e' & E' & _ & _ & _ & _ & X & _).
  rewrite Ef in E'. apply Ok_inj in E'. subst e'.
  destruct (X (hsum_tot_pos c Nc F)) as ([Fx _] & [Fy _] & Px & Py).
  rewrite !fge_nonneg by assumption. reflexivity.
Qed.

(** Nothing goes wrong for decoded hits. *)
Lemma event_loop_ok fit min data idx ls : length ls = length data ->
  (forall l, (l < length idx)%nat -> nth_error idx l = Some (positions l ls)) ->
  (forall l, zlen (members l ls data) >= min -> exists e, fit (members l ls data) = Ok e) ->
  forall n label, (label + n <= length idx)%nat ->
  exists evs, event_loop fit min data idx label n = Ok evs.
Proof.
  intros Len Hi Hf n. induction n as [|n IH]; intros label Hle; cbn [event_loop].
  - eexists. reflexivity.
  - rewrite Hi by lia.
    assert (G : gather data (positions label ls) = Ok (members label ls data)).
    { rewrite <- (gather_members ls data 0 data Len (fun i => eq_refl)). f_equal.
      unfold positions_from. cbn. rewrite map_id. reflexivity. }
    rewrite G. cbn [obind]. destruct (IH (S label) ltac:(lia)) as (evs & Ee).
    destruct (Z.ltb_spec (zlen (members label ls data)) min); [eauto|].
    destruct (Hf label ltac:(lia)) as (e & Ef). rewrite Ef, Ee. cbn [obind].
    destruct (_ && _); eauto.
Qed.

Lemma C24_succeeds_l n ext cfg o data o' : (0 < n)%nat -> Forall hit_ok data ->
  Forall sensor_hit data -> zlen data <= 2 ^ 21 ->
  abs_fit n cfg o data = Ok o' ->
  exists evs, abs_get_events ext cfg (abs_set_method o' MCentroid) data = Ok evs.
Proof.
  intros Hn Hd Hs Hl E. destruct (fit_refines n cfg o data Hn Hd)
    as (ls & op & closed & o2 & E2 & C & Em & El & Li & Ni).
  rewrite E in E2. injection E2 as <-.
  pose proof (clusters_length _ _ _ _ _ _ C) as Len.
  pose proof (clusters_label_bound _ _ _ _ _ _ C) as LB. rewrite Forall_forall in LB.
  pose proof (clusters_width _ _ _ _ _ _ C) as [W _].
  unfold abs_get_events. cbn [abs_set_method o_labels o_method o_indices]. rewrite El.
  assert (Ez : (zlen (map Z.of_nat ls) =? zlen data) = true)
    by (unfold zlen; rewrite map_length; lia).
  rewrite Ez. cbn [negb fit_of]. destruct ls as [|l ls]; cbn [map]; [eauto|].
  rewrite fold_max_label. destruct (fold_max_nat ls l) as [A B].
  replace (Z.to_nat (Z.of_nat (fold_left Nat.max ls l) + 1)) with (S (fold_left Nat.max ls l)) by lia.
  apply (event_loop_ok _ _ _ _ (l :: ls) Len Ni); [|apply LB in B; lia].
  intros l' _. destruct (members l' (l :: ls) data) as [|h c] eqn:Em'.
  - eexists. reflexivity.
  - rewrite <- Em'.
    assert (Sub : incl (members l' (l :: ls) data) data /\ zlen (members l' (l :: ls) data) <= zlen data).
    { split.
      - intros a Ia. unfold members in Ia. apply in_map_iff in Ia. destruct Ia as ((x & y) & <- & Ia).
        apply filter_In in Ia. destruct Ia as [Ia _]. apply in_combine_r in Ia. exact Ia.
      - unfold zlen, members. rewrite map_length.
        assert (F : forall (p : nat * hit -> bool) q, (length (filter p q) <= length q)%nat).
        { intros p q. induction q as [|x q IH]; cbn; [lia|]. destruct (p x); cbn; lia. }
        pose proof (F (fun p => Nat.eqb (fst p) l') (combine (l :: ls) data)) as B'.
        rewrite combine_length in B'. lia. }
    destruct Sub as [S1 S2].
    destruct (C26_l (members l' (l :: ls) data)) as (e & Ee & _); [rewrite Em'; discriminate| |lia|eauto].
    apply Forall_forall. intros a Ia. rewrite Forall_forall in Hs. apply Hs, S1, Ia.
Qed.
