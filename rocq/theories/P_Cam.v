(** Proofs for the converter of the manufacturer (C77) and the packing
    functions (C78). *)
From Coq Require Import Reals Lra.
From Flocq Require Import Core.
From Verif Require Import S_Cam P_Centroid P_HitProps P_Core P_TimePackets P_Lib.
From Coq Require Import Lia ZifyBool Zify.
Ltac Zify.zify_post_hook ::= Z.to_euclidean_division_equations.
Global Open Scope Z_scope.

(** * Doubles *)

(** ** Dyadic numbers are exact *)

Definition is_dy (x : f64) (m k : Z) : Prop := is_finite x = true /\ B2R x = (IZR m * bpow radix2 (- k))%R.

Lemma rnd_dy m k : Z.abs m <= 2 ^ 52 -> 0 <= k <= 100 -> rnd (IZR m * bpow radix2 (- k)) = (IZR m * bpow radix2 (- k))%R.
Proof.
  intros H Hk. apply round_generic; [apply valid_rnd_N|].
  destruct (Z.eq_dec m 0) as [->|Hz].
  { rewrite Rmult_0_l. apply generic_format_0. }
  apply generic_format_F2R' with (f := Float radix2 m (- k)).
  - reflexivity.
  - intros Hnz. unfold cexp. cbn [Fexp]. rewrite fexp_FLT. unfold FLT_exp.
    assert (Hm : (mag radix2 (IZR m * bpow radix2 (- k)) <= 53 - k)%Z).
    { apply mag_le_bpow; [exact Hnz|]. rewrite Rabs_mult, (Rabs_pos_eq (bpow _ _)) by apply bpow_ge_0.
      unfold Z.sub. rewrite bpow_plus. apply Rmult_lt_compat_r; [apply bpow_gt_0|].
      apply Rle_lt_trans with (bpow radix2 52); [apply IZR_abs_bpow; lia|apply bpow_lt; lia]. }
    lia.
Qed.

Lemma dy_bound m k : Z.abs m <= 2 ^ 52 -> 0 <= k -> (Rabs (IZR m * bpow radix2 (- k)) <= bpow radix2 52)%R.
Proof.
  intros H Hk. rewrite Rabs_mult, (Rabs_pos_eq (bpow _ _)) by apply bpow_ge_0.
  replace (bpow radix2 52) with (bpow radix2 52 * 1)%R by ring.
  apply Rmult_le_compat; [apply Rabs_pos|apply bpow_ge_0|apply IZR_abs_bpow; lia|].
  change 1%R with (bpow radix2 0). apply bpow_le. lia.
Qed.

Lemma is_dy_int x m : is_int x m -> is_dy x m 0.
Proof. intros [F E]. split; [exact F|]. rewrite E. cbn [Z.opp bpow]. ring. Qed.
Lemma is_dy_scale x m j k : 0 <= j -> is_dy x m k -> is_dy x (2 ^ j * m) (k + j).
Proof.
  intros Hj [F E]. split; [exact F|]. rewrite E, mult_IZR.
  change (2 ^ j) with (radix2 ^ j). rewrite IZR_Zpower by lia.
  replace (- (k + j)) with (- k + - j) by ring. rewrite bpow_plus.
  rewrite (bpow_opp radix2 j). field. apply Rgt_not_eq, bpow_gt_0.
Qed.

Lemma is_dy_div x a k : is_int x a -> Z.abs a <= 2 ^ 52 -> 0 <= k <= 50 -> is_dy (fdiv x (f_of_Z (2 ^ k))) a k.
Proof.
  intros [F E] H Hk. assert (K : 2 ^ k <= 2 ^ 50) by (apply Z.pow_le_mono_r; lia).
  assert (K0 : 0 < 2 ^ k) by (apply Z.pow_pos_nonneg; lia).
  destruct (is_int_of_Z (2 ^ k) ltac:(lia)) as [F2 E2].
  assert (Q : (B2R x / B2R (f_of_Z (2 ^ k)) = IZR a * bpow radix2 (- k))%R).
  { rewrite E, E2. change (2 ^ k) with (radix2 ^ k). rewrite IZR_Zpower by lia. rewrite bpow_opp. reflexivity. }
  destruct (fdiv_correct x (f_of_Z (2 ^ k)) 52) as [R1 R2].
  - lia.
  - exact F.
  - rewrite E2. apply not_0_IZR. lia.
  - rewrite Q. apply dy_bound; lia.
  - split; [exact R2|]. rewrite R1, Q. apply rnd_dy; lia.
Qed.

Lemma is_dy_mul x y a b k : is_int x a -> is_dy y b k -> Z.abs (a * b) <= 2 ^ 52 -> 0 <= k <= 100 ->
  is_dy (fmul x y) (a * b) k.
Proof.
  intros [F E] [F2 E2] H Hk.
  assert (Q : (B2R x * B2R y = IZR (a * b) * bpow radix2 (- k))%R) by (rewrite E, E2, mult_IZR; ring).
  destruct (fmul_correct x y 52) as [R1 R2]; try assumption; try lia.
  - rewrite Q. apply dy_bound; lia.
  - split; [exact R2|]. rewrite R1, Q. apply rnd_dy; lia.
Qed.

Lemma is_dy_add x y a b k : is_dy x a k -> is_dy y b k -> Z.abs (a + b) <= 2 ^ 52 -> 0 <= k <= 100 ->
  is_dy (fadd x y) (a + b) k.
Proof.
  intros [F E] [F2 E2] H Hk.
  assert (Q : (B2R x + B2R y = IZR (a + b) * bpow radix2 (- k))%R) by (rewrite E, E2, plus_IZR; ring).
  destruct (fadd_correct x y 52) as [R1 R2]; try assumption; try lia.
  - rewrite Q. apply dy_bound; lia.
  - split; [exact R2|]. rewrite R1, Q. apply rnd_dy; lia.
Qed.

(** ** Relative errors of non-negative numbers *)

Definition ulp1 : R := bpow radix2 (-53).
Lemma ulp1_pos : (0 < ulp1 <= / 1024)%R.
Proof.
  unfold ulp1. split; [apply bpow_gt_0|].
  change (/ 1024)%R with (bpow radix2 (-10)). apply bpow_le. lia.
Qed.

Definition appr (e : R) (x : f64) (v : R) : Prop :=
  is_finite x = true /\ (Rabs (B2R x - v) <= e * v)%R.

(** zero, or in a range without underflow and overflow *)
Definition tame (v : R) : Prop := v = 0%R \/ (bpow radix2 (-900) <= v <= bpow radix2 900)%R.

Lemma tame_pos v : tame v -> (0 <= v)%R.
Proof. intros [->|[H _]]; [lra|]. pose proof (bpow_gt_0 radix2 (-900)). lra. Qed.

Lemma tame_bounds v w : tame v -> (v / 2 <= w <= 2 * v)%R ->
  (Rabs (rnd w - w) <= ulp1 * Rabs w)%R /\ (Rabs w <= bpow radix2 1000)%R.
Proof.
  intros [->|[H1 H2]] [A B].
  - assert (w = 0)%R by lra. subst w. rewrite (rnd_IZR 0) by lia.
    rewrite Rminus_0_r, Rabs_R0, Rmult_0_r. split; [lra|apply bpow_ge_0].
  - pose proof (bpow_gt_0 radix2 (-900)) as P.
    rewrite (Rabs_pos_eq w) by lra. split.
    + rewrite <- (Rabs_pos_eq w) at 3 by lra. apply rel_err. rewrite Rabs_pos_eq by lra.
      apply Rle_trans with (2 := A). apply Rle_trans with (bpow radix2 (-901)); [apply bpow_le; lia|].
      change (-901) with (-900 + -1). rewrite bpow_plus. change (bpow radix2 (-1)) with (/ 2)%R. lra.
    + apply Rle_trans with (1 := B). apply Rle_trans with (bpow radix2 901); [|apply bpow_le; lia].
      change 901 with (900 + 1). rewrite bpow_plus. change (bpow radix2 1) with 2%R. lra.
Qed.

Lemma appr_bounds e x v : (0 <= v)%R -> appr e x v -> ((1 - e) * v <= B2R x <= (1 + e) * v)%R.
Proof.
  intros Hv [_ H]. apply Rabs_le_inv in H. lra.
Qed.

Lemma appr_final e v w r : tame v -> (0 <= e <= / 4)%R -> ((1 - e) * v <= w <= (1 + e) * v)%R -> r = rnd w ->
  (Rabs (r - v) <= (e + ulp1 * (1 + e)) * v)%R.
Proof.
  intros T He B ->. pose proof (tame_pos _ T) as P. pose proof ulp1_pos as U.
  destruct (tame_bounds v w T) as [R _]; [nra|].
  rewrite (Rabs_pos_eq w) in R by nra.
  replace (rnd w - v)%R with ((rnd w - w) + (w - v))%R by ring.
  apply Rle_trans with (1 := Rabs_triang _ _).
  assert (Rabs (w - v) <= e * v)%R by (apply Rabs_le; lra).
  assert (ulp1 * w <= ulp1 * ((1 + e) * v))%R by (apply Rmult_le_compat_l; lra). lra.
Qed.

Lemma appr_mul e d x y v w : appr e x v -> appr d y w -> tame v -> tame w -> tame (v * w) ->
  (0 <= e <= / 16)%R -> (0 <= d <= / 16)%R ->
  appr (e + d + e * d + ulp1 * (1 + (e + d + e * d))) (fmul x y) (v * w)%R.
Proof.
  intros X Y Tv Tw T He Hd. pose proof (tame_pos _ Tv) as Pv. pose proof (tame_pos _ Tw) as Pw.
  pose proof (appr_bounds _ _ _ Pv X) as Bx. pose proof (appr_bounds _ _ _ Pw Y) as By.
  destruct X as [Fx _], Y as [Fy _].
  assert (Hed : (0 <= e * d <= / 256)%R) by nra.
  assert (Pvw : (0 <= v * w)%R) by nra.
  assert (B : ((1 - (e + d + e * d)) * (v * w) <= B2R x * B2R y <= (1 + (e + d + e * d)) * (v * w))%R).
  { assert (0 <= (1 - e) * v)%R by nra. assert (0 <= (1 - d) * w)%R by nra.
    split.
    - apply Rle_trans with (((1 - e) * v) * ((1 - d) * w))%R; [|apply Rmult_le_compat; lra].
      replace ((1 - e) * v * ((1 - d) * w))%R with ((1 - e - d + e * d) * (v * w))%R by ring.
      apply Rmult_le_compat_r; lra.
    - apply Rle_trans with (((1 + e) * v) * ((1 + d) * w))%R; [apply Rmult_le_compat; lra|].
      apply Req_le. ring. }
  destruct (tame_bounds (v * w) (B2R x * B2R y) T) as [_ O]; [nra|].
  destruct (fmul_correct x y 1000) as [R1 R2]; try assumption; try lia.
  split; [exact R2|]. apply appr_final with (B2R x * B2R y)%R; [exact T|nra|exact B|exact R1].
Qed.

Lemma appr_add e x y v w : appr e x v -> appr e y w -> tame v -> tame w -> tame (v + w) ->
  (0 <= e <= / 16)%R -> appr (e + ulp1 * (1 + e)) (fadd x y) (v + w)%R.
Proof.
  intros X Y Tv Tw T He. pose proof (tame_pos _ Tv) as Pv. pose proof (tame_pos _ Tw) as Pw.
  pose proof (appr_bounds _ _ _ Pv X) as Bx. pose proof (appr_bounds _ _ _ Pw Y) as By.
  destruct X as [Fx _], Y as [Fy _].
  destruct (tame_bounds (v + w) (B2R x + B2R y) T) as [_ O]; [nra|].
  destruct (fadd_correct x y 1000) as [R1 R2]; try assumption; try lia.
  split; [exact R2|]. apply appr_final with (B2R x + B2R y)%R; [exact T|lra|lra|exact R1].
Qed.

Lemma appr_exact x v : is_finite x = true -> B2R x = v -> appr 0 x v.
Proof. intros F E. split; [exact F|]. rewrite E, Rminus_diag_eq by reflexivity. rewrite Rabs_R0. lra. Qed.

Lemma appr_lit n d : 0 < n < 2 ^ 53 -> 0 < d < 2 ^ 53 -> appr ulp1 (f_lit n d) (IZR n / IZR d).
Proof.
  intros Hn Hd. unfold f_lit.
  destruct (is_int_of_Z n ltac:(lia)) as [F1 E1]. destruct (is_int_of_Z d ltac:(lia)) as [F2 E2].
  assert (Pn : (1 <= IZR n <= IZR (2 ^ 53))%R) by (split; apply IZR_le; lia).
  assert (Pd : (1 <= IZR d <= IZR (2 ^ 53))%R) by (split; apply IZR_le; lia).
  change (IZR (2 ^ 53)) with (IZR (radix2 ^ 53)) in *. rewrite (IZR_Zpower radix2 53) in * by lia.
  assert (Q : (bpow radix2 (-53) <= IZR n / IZR d <= bpow radix2 53)%R).
  { split.
    - apply Rle_trans with (/ IZR d)%R.
      + change (-53) with (- (53)). rewrite (bpow_opp radix2 53). apply Rinv_le; lra.
      + assert (0 < / IZR d)%R by (apply Rinv_0_lt_compat; lra). unfold Rdiv. nra.
    - apply Rle_trans with (IZR n); [|lra].
      apply Rmult_le_reg_r with (IZR d); [lra|]. unfold Rdiv. rewrite Rmult_assoc, Rinv_l by lra. nra. }
  pose proof (bpow_gt_0 radix2 (-53)) as P.
  destruct (fdiv_correct (f_of_Z n) (f_of_Z d) 53) as [R1 R2].
  - lia.
  - exact F1.
  - rewrite E2. lra.
  - rewrite E1, E2. rewrite Rabs_pos_eq; lra.
  - rewrite E1, E2 in R1. split; [exact R2|]. rewrite R1.
    rewrite <- (Rabs_pos_eq (IZR n / IZR d)) at 3 by lra. apply rel_err.
    rewrite Rabs_pos_eq by lra. apply Rle_trans with (2 := proj1 Q). apply bpow_le. lia.
Qed.

Lemma bpow_lo z : 0 < z -> z < 2 ^ 900 -> (bpow radix2 (-900) <= IZR z <= bpow radix2 900)%R.
Proof.
  intros H1 H2. split.
  - apply Rle_trans with 1%R; [|apply IZR_le; lia]. change 1%R with (bpow radix2 0). apply bpow_le. lia.
  - rewrite <- (IZR_Zpower radix2 900) by lia. apply IZR_le. change (radix2 ^ 900) with (2 ^ 900). lia.
Qed.

Lemma tame_ratio n d : 0 <= n < 2 ^ 100 -> 0 < d < 2 ^ 100 -> tame (IZR n / IZR d).
Proof.
  intros Hn Hd. destruct (Z.eq_dec n 0) as [->|Hz]; [left; unfold Rdiv; ring|right].
  assert (Pn : (1 <= IZR n <= IZR (2 ^ 100))%R) by (split; apply IZR_le; lia).
  assert (Pd : (1 <= IZR d <= IZR (2 ^ 100))%R) by (split; apply IZR_le; lia).
  change (IZR (2 ^ 100)) with (IZR (radix2 ^ 100)) in *. rewrite (IZR_Zpower radix2 100) in * by lia.
  split.
  - apply Rle_trans with (bpow radix2 (-100)); [apply bpow_le; lia|].
    apply Rle_trans with (/ IZR d)%R.
    + change (-100) with (- (100)). rewrite (bpow_opp radix2 100). apply Rinv_le; lra.
    + assert (0 < / IZR d)%R by (apply Rinv_0_lt_compat; lra). unfold Rdiv. nra.
  - apply Rle_trans with (bpow radix2 100); [|apply bpow_le; lia].
    apply Rle_trans with (IZR n); [|lra].
    apply Rmult_le_reg_r with (IZR d); [lra|]. unfold Rdiv. rewrite Rmult_assoc, Rinv_l by lra. nra.
Qed.

Lemma appr_close e x v : appr e x v -> (0 <= v)%R -> (e <= 4 * ulp1)%R -> close x v.
Proof.
  intros [F H] P He. split; [exact F|]. rewrite (Rabs_pos_eq v) by exact P.
  apply Rle_trans with (1 := H). apply Rmult_le_compat_r; [exact P|].
  replace (bpow radix2 (-51)) with (4 * ulp1)%R; [exact He|].
  unfold ulp1. change (-51) with (2 + -53). rewrite bpow_plus. reflexivity.
Qed.

(** ** The times *)

Lemma ulp_small : (3 * ulp1 + 3 * (ulp1 * ulp1) + ulp1 * ulp1 * ulp1 <= 4 * ulp1)%R.
Proof. pose proof ulp1_pos. assert (ulp1 * ulp1 <= / 1024 * ulp1)%R by nra. assert (0 <= ulp1 * ulp1)%R by nra. nra. Qed.

Lemma e9 : (10 ^ 9 = IZR 1000000000)%R.
Proof. lra. Qed.

Lemma fine_eq w : 1 <= (w / 2 ^ 5) mod 16 <= 12 ->
  cam_fine w = 512 * ((w / 2 ^ 9) mod 8) + 512 * ((w / 2 ^ 5) mod 16 - 1) / 12.
Proof.
  intros H. unfold cam_fine. cbv zeta.
  rewrite (land_mid w 0xE00 9 3) by (lia || reflexivity).
  rewrite (land_low _ 0xF 4), (land_low _ 0x1FF 9) by (lia || reflexivity).
  rewrite !shiftr_div, shiftl_mul by lia. change (2 ^ 4) with 16. change (2 ^ 3) with 8.
  remember ((w / 2 ^ 5) mod 16) as k. remember ((w / 2 ^ 9) mod 8) as ph. clear Heqk Heqph.
  rewrite (u64_id (k - 1)) by lia. change (2 ^ 9) with 512. rewrite u64_id by lia.
  replace ((k - 1) * 512) with (512 * (k - 1)) by ring.
  assert (B : 0 <= 512 * (k - 1) / 12 < 512) by lia.
  remember (512 * (k - 1) / 12) as q. clear Heqq.
  rewrite (Z.mod_small q) by lia. change 512 with (2 ^ 9) at 1. rewrite lor_add by lia. lia.
Qed.

Lemma trigger_time p : 1 <= trigger_step p <= 12 ->
  close (cam_tdc (le64 p)) (IZR (25 * trigger_units p) / 4096 / 10 ^ 9).
Proof.
  intros H. unfold cam_tdc. cbv zeta. rewrite mytdc_eq. unfold trigger_step in H.
  rewrite fine_eq by exact H. unfold trigger_units, trigger_step, trigger_phase.
  remember ((le64 p / 2 ^ 5) mod 16) as k. pose proof (Z.mod_pos_bound (le64 p / 2 ^ 9) 8 ltac:(lia)) as Hp.
  remember ((le64 p / 2 ^ 9) mod 8) as ph. clear Heqph Heqk.
  remember (512 * ph + 512 * (k - 1) / 12) as fn.
  assert (Bf : 0 <= fn < 4096) by lia.
  replace (4096 * tdc_counter p + 512 * ph + 512 * (k - 1) / 12) with (4096 * tdc_counter p + fn) by lia.
  clear Heqfn. pose proof (tdc_counter_range p) as Bc. remember (tdc_counter p) as c. clear Heqc.
  pose proof ulp1_pos as U.
  destruct (is_int_of_Z c ltac:(lia)) as [Fc Ec].
  assert (X : appr (0 + ulp1 + 0 * ulp1 + ulp1 * (1 + (0 + ulp1 + 0 * ulp1))) (fmul (f_of_Z c) c_25em9) (IZR c * (IZR 25 / IZR 1000000000))).
  { apply appr_mul; try lra; [apply appr_exact; assumption|apply appr_lit; lia| | |].
    - replace (IZR c) with (IZR c / IZR 1)%R by lra. apply tame_ratio; lia.
    - apply tame_ratio; lia.
    - replace (IZR c * (25 / 1000000000))%R with (IZR (c * 25) / IZR 1000000000)%R by (rewrite mult_IZR; lra).
      apply tame_ratio; lia. }
  assert (D : is_dy (fmul (f_of_Z fn) c_25_4096) (fn * 25) 12).
  { apply is_dy_mul; [apply is_int_of_Z; lia| |lia|lia].
    apply (is_dy_div (f_of_Z 25) 25 12); [apply is_int_of_Z; lia|lia|lia]. }
  destruct D as [Fd Ed]. change (bpow radix2 (- (12))) with (/ 4096)%R in Ed.
  assert (Y : appr (0 + ulp1 + 0 * ulp1 + ulp1 * (1 + (0 + ulp1 + 0 * ulp1))) (fmul (fmul (f_of_Z fn) c_25_4096) c_1em9)
     (IZR (fn * 25) * / 4096 * (IZR 1 / IZR 1000000000))).
  { apply appr_mul; try lra; [apply appr_exact; assumption|apply appr_lit; lia| | |].
    - apply tame_ratio; lia.
    - apply tame_ratio; lia.
    - replace (IZR (fn * 25) * / 4096 * (1 / 1000000000))%R with (IZR (fn * 25) / IZR (4096 * 1000000000))%R by (rewrite (mult_IZR 4096); lra).
      apply tame_ratio; lia. }
  replace (IZR (25 * (4096 * c + fn)) / 4096 / 10 ^ 9)%R
    with (IZR c * (IZR 25 / IZR 1000000000) + IZR (fn * 25) * / 4096 * (IZR 1 / IZR 1000000000))%R
    by (rewrite e9, !mult_IZR, plus_IZR, mult_IZR; lra).
  eapply appr_close.
  - apply appr_add; [exact X|exact Y| | | |].
    + replace (IZR c * (25 / 1000000000))%R with (IZR (c * 25) / IZR 1000000000)%R by (rewrite mult_IZR; lra).
      apply tame_ratio; lia.
    + replace (IZR (fn * 25) * / 4096 * (1 / 1000000000))%R with (IZR (fn * 25) / IZR (4096 * 1000000000))%R by (rewrite (mult_IZR 4096); lra).
      apply tame_ratio; lia.
    + replace (IZR c * (25 / 1000000000) + IZR (fn * 25) * / 4096 * (1 / 1000000000))%R
        with (IZR (25 * (4096 * c + fn)) / IZR (4096 * 1000000000))%R
        by (rewrite (mult_IZR 4096), !mult_IZR, plus_IZR, mult_IZR; lra).
      apply tame_ratio; lia.
    + nra.
  - assert (0 <= IZR c)%R by (apply IZR_le; lia). assert (0 <= IZR (fn * 25))%R by (apply IZR_le; lia). lra.
  - pose proof ulp_small. nra.
Qed.

Lemma global_time v : 0 <= v < 2 ^ 48 -> close (fmul (f_of_Z v) c_25em9) (IZR (25 * v) / 10 ^ 9).
Proof.
  intros Hv. pose proof ulp1_pos as U. destruct (is_int_of_Z v ltac:(lia)) as [Fc Ec].
  replace (IZR (25 * v) / 10 ^ 9)%R with (IZR v * (IZR 25 / IZR 1000000000))%R by (rewrite mult_IZR; lra).
  eapply appr_close.
  - apply appr_mul; [apply appr_exact; eassumption|apply appr_lit; lia| | | | |]; try lra.
    + replace (IZR v) with (IZR v / IZR 1)%R by lra. apply tame_ratio; lia.
    + apply tame_ratio; lia.
    + replace (IZR v * (25 / 1000000000))%R with (IZR (v * 25) / IZR 1000000000)%R by (rewrite mult_IZR; lra).
      apply tame_ratio; lia.
  - assert (0 <= IZR v)%R by (apply IZR_le; lia). lra.
  - nra.
Qed.

(** ** Pixel packets *)

Lemma cam_x_W w : cam_x w = local_x ((w / 2 ^ 44) mod 2 ^ 16).
Proof.
  rewrite local_x_W by (apply Z.mod_pos_bound; lia). unfold cam_x.
  rewrite (land_mid w 0x0FE0000000000000 53 7), (land_mid w 0x0000700000000000 44 3) by (lia || reflexivity).
  rewrite !shiftr_div by lia.
  assert (E : w / 2 ^ 53 = w / 2 ^ 44 / 512) by (change 512 with (2 ^ 9); rewrite div_div_pow by lia; reflexivity).
  rewrite E. set (a := w / 2 ^ 44). clearbody a. clear E.
  rewrite Z.div_mul by lia. change (2 ^ 53) with (2 * 2 ^ 52). rewrite Z.mul_assoc, Z.div_mul by lia.
  change (2 ^ 7) with 128. change (2 ^ 3) with 8. change (2 ^ 16) with 65536. lia.
Qed.

Lemma cam_y_W w : cam_y w = local_y ((w / 2 ^ 44) mod 2 ^ 16).
Proof.
  rewrite local_y_W by (apply Z.mod_pos_bound; lia). unfold cam_y.
  rewrite (land_mid w 0x001F800000000000 47 6), (land_mid w 0x0000700000000000 44 3) by (lia || reflexivity).
  rewrite (land_low _ 3 2) by (lia || reflexivity).
  rewrite !shiftr_div by lia.
  assert (E : w / 2 ^ 47 = w / 2 ^ 44 / 8) by (change 8 with (2 ^ 3); rewrite div_div_pow by lia; reflexivity).
  rewrite E. set (a := w / 2 ^ 44). clearbody a. clear E.
  rewrite Z.div_mul by lia. change (2 ^ 47) with (4 * 2 ^ 45). rewrite Z.mul_assoc, Z.div_mul by lia.
  change (2 ^ 6) with 64. change (2 ^ 3) with 8. change (2 ^ 16) with 65536. change (2 ^ 2) with 4. lia.
Qed.

Lemma not_low f : 0 <= f < 16 -> Z.land (Z.lnot f) 0xf = 15 - f.
Proof.
  intros H. rewrite (land_low _ 0xf 4) by (lia || reflexivity). change (2 ^ 4) with 16.
  unfold Z.lnot. lia.
Qed.

Lemma cam_place_eq c x y : cam_place c x y = place c x y.
Proof.
  unfold cam_place, place. destruct c as [|[[c|c|]|[c|c|]|]|c]; f_equal; ring.
Qed.

Lemma pixel_parts f : fields_ok f -> f_type f = 11 ->
  cam_x (pixel_word f) = f_x f /\ cam_y (pixel_word f) = f_y f /\
  rounded (fdiv (cam_time (pixel_word f)) c_1e9) (IZR (400 * time30 f + 25 * (15 - f_ftoa f)) / 16 / 10 ^ 9) /\
  is_int (cam_tot (pixel_word f)) (25 * f_tot f).
Proof.
  intros Hf Ht. destruct (pixel_word_fields f Hf) as [Hr E].
  rewrite cam_x_W, cam_y_W. unfold cam_time, cam_tot. cbv zeta.
  rewrite !(land_low _ 0xffff 16), !(land_low _ 0x3fff 14), !(land_low _ 0x3ff 10), !(land_low _ 0xf 4) by (lia || reflexivity).
  rewrite <- (land_low (Z.lnot _) 0xf 4) by (lia || reflexivity).
  rewrite !shiftr_div by lia. unfold word_fields in E. destruct f as [ty x y toa tot ftoa sp].
  cbn [f_type f_x f_y f_toa f_tot f_ftoa f_spidr] in *. unfold fields_ok, time30 in *.
  cbn [f_type f_x f_y f_toa f_tot f_ftoa f_spidr] in *.
  set (W := pixel_word _) in *. clearbody W. injection E as E1 E2 E3 E4 E5 E6 E7.
  rewrite E2, E3, E4, E5, E6, E7. split; [reflexivity|]. split; [reflexivity|].
  rewrite not_low by lia. rewrite shiftl_mul by lia. rewrite lor_add by lia.
  split.
  - assert (A : is_int (fmul (fmul (f_of_Z sp) (f_of_Z 25)) (f_of_Z 16384)) (sp * 25 * 16384)).
    { apply is_int_mul; [apply is_int_mul|apply is_int_of_Z; lia|lia]; try (apply is_int_of_Z); lia. }
    assert (B : is_dy (fmul (f_of_Z (toa * 2 ^ 4 + (15 - ftoa))) c_25_over_16) ((toa * 2 ^ 4 + (15 - ftoa)) * 25) 4).
    { apply is_dy_mul; [apply is_int_of_Z; lia| |lia|lia].
      apply (is_dy_div (f_of_Z 25) 25 4); [apply is_int_of_Z; lia|lia|lia]. }
    pose proof (is_dy_scale _ _ 4 0 ltac:(lia) (is_dy_int _ _ A)) as A'.
    pose proof (is_dy_add _ _ _ _ 4 A' B ltac:(lia) ltac:(lia)) as [S1 S2].
    replace (2 ^ 4 * (sp * 25 * 16384) + (toa * 2 ^ 4 + (15 - ftoa)) * 25)
      with (400 * (16384 * sp + toa) + 25 * (15 - ftoa)) in S2 by lia.
    change (bpow radix2 (- (4))) with (/ 16)%R in S2.
    set (m := 400 * (16384 * sp + toa) + 25 * (15 - ftoa)) in *.
    assert (Hm : 0 <= m < 2 ^ 40) by (unfold m; lia). clearbody m.
    destruct (is_int_of_Z 1000000000 ltac:(lia)) as [F2 E2'].
    assert (Q : forall x : f64, B2R x = (IZR m * / 16)%R -> (B2R x / B2R c_1e9 = IZR m / 16 / 10 ^ 9)%R).
    { intros v Ev. unfold c_1e9. rewrite Ev, E2'. lra. }
    specialize (Q _ S2).
    destruct (fdiv_correct (fadd (fmul (fmul (f_of_Z sp) (f_of_Z 25)) (f_of_Z 16384))
       (fmul (f_of_Z (toa * 2 ^ 4 + (15 - ftoa))) c_25_over_16)) c_1e9 40) as [R1 R2].
    + lia.
    + exact S1.
    + unfold c_1e9. rewrite E2'. lra.
    + rewrite Q. rewrite Rabs_pos_eq.
      * pose proof (IZR_abs_bpow m 40 ltac:(lia) ltac:(lia)) as B'. rewrite Rabs_pos_eq in B' by (apply IZR_le; lia).
        assert (0 <= IZR m)%R by (apply IZR_le; lia). lra.
      * assert (0 <= IZR m)%R by (apply IZR_le; lia). lra.
    + split; [exact R2|]. rewrite R1, Q. apply rnd_FLT.
  - replace (25 * tot) with (tot * 25) by ring. apply is_int_mul; try (apply is_int_of_Z); lia.
Qed.

(** * One packet *)

Lemma kind_W p : packet_ok p -> Z.shiftr (le64 p) 60 = b7 p / 16.
Proof.
  intros H. rewrite shiftr_div by lia. rewrite le64_expand. unfold packet_ok, is_byte in H.
  symmetry. apply Z.div_unique with
    (b0 p + 2^8 * b1 p + 2^16 * b2 p + 2^24 * b3 p + 2^32 * b4 p + 2^40 * b5 p + 2^48 * b6 p + 2^56 * (b7 p mod 16)); lia.
Qed.

Lemma pixel_of p : packet_ok p -> pixel_kind p = true ->
  exists f, fields_ok f /\ f_type f = 11 /\ p = pixel_packet f /\ le64 p = pixel_word f.
Proof.
  intros Hp Hk. pose proof (le64_range p Hp) as Hr. exists (word_fields (le64 p)).
  split; [apply word_fields_ok; exact Hr|]. split.
  - unfold word_fields. cbn [f_type]. rewrite <- shiftr_div by lia. rewrite kind_W by exact Hp. unfold pixel_kind in Hk. lia.
  - unfold pixel_packet. rewrite word_fields_pixel by exact Hr. split; [symmetry; apply word_le64; exact Hp|reflexivity].
Qed.

Lemma lsb_range p : 0 <= lsb_value p < 2 ^ 32.
Proof. unfold lsb_value. apply Z.mod_pos_bound. lia. Qed.

Lemma step_pixel c p s : packet_ok p -> pixel_kind p = true ->
  exists f sp t tot, fields_ok f /\ f_type f = 11 /\ p = pixel_packet f /\
    rounded t (IZR (400 * time30 f + 25 * (15 - f_ftoa f)) / 16 / 10 ^ 9) /\
    is_int tot (25 * f_tot f) /\
    cam_step c p s = Ok (Cam (Some sp) (k_lsb s) (k_msb s) (k_ntdc s)
      (k_lines s ++ [LPixel (fst (place c (f_x f) (f_y f))) (snd (place c (f_x f) (f_y f))) t tot])).
Proof.
  intros Hp Hk. destruct (pixel_of p Hp Hk) as (f & Hf & Ht & E & W).
  destruct (pixel_parts f Hf Ht) as (Ex & Ey & Et & Eo).
  exists f, (Z.land (le64 p) 0xffff), (fdiv (cam_time (le64 p)) c_1e9), (cam_tot (le64 p)).
  split; [exact Hf|]. split; [exact Ht|]. split; [exact E|].
  split; [rewrite W; exact Et|]. split; [rewrite W; exact Eo|].
  unfold cam_step. cbv zeta. rewrite kind_W by exact Hp. unfold pixel_kind in Hk.
  replace (b7 p / 16 =? 6) with false by lia. rewrite Hk.
  rewrite cam_place_eq. replace (cam_x (le64 p)) with (f_x f) by (rewrite W; congruence).
  replace (cam_y (le64 p)) with (f_y f) by (rewrite W; congruence).
  destruct (place c (f_x f) (f_y f)) as [x y]. reflexivity.
Qed.

Lemma step_trigger c p s : packet_ok p -> trigger_kind p = true ->
  cam_step c p s = Ok (Cam (k_spidr s) (k_lsb s) (k_msb s) (u64 (k_ntdc s + 1)) (k_lines s ++ [LTdc (cam_tdc (le64 p))])).
Proof.
  intros Hp Hk. unfold cam_step. cbv zeta. rewrite kind_W by exact Hp. unfold trigger_kind in Hk. rewrite Hk. reflexivity.
Qed.

Lemma sub_W p : Z.land (Z.shiftr (le64 p) 56) 0xF = gdc_subtype p.
Proof. rewrite (land_low _ 0xF 4) by (lia || reflexivity). rewrite shiftr_div by lia. reflexivity. Qed.

Lemma step_low c p s : packet_ok p -> global_kind 4 p = true ->
  cam_step c p s = Ok (Cam (k_spidr s) (lsb_value p) (k_msb s) (k_ntdc s) (k_lines s)).
Proof.
  intros Hp Hk. unfold global_kind in Hk. apply andb_prop in Hk. destruct Hk as [K1 K2].
  unfold cam_step. cbv zeta. rewrite kind_W by exact Hp. rewrite sub_W, K1, K2.
  replace (b7 p / 16 =? 6) with false by lia. replace (b7 p / 16 =? 11) with false by lia.
  rewrite (land_low _ 0xFFFFFFFF 32) by (lia || reflexivity). rewrite shiftr_div by lia. reflexivity.
Qed.

Lemma step_global c p s : packet_ok p -> global_kind 5 p = true -> 0 <= k_lsb s < 2 ^ 32 ->
  match k_spidr s with
  | None => cam_step c p s = UB Uninitialised
  | Some sp => exists m t, close t (IZR (25 * (msb_value p * 2 ^ 32 + k_lsb s)) / 10 ^ 9) /\
      cam_step c p s = Ok (Cam (Some sp) (k_lsb s) m (k_ntdc s) (k_lines s ++ [LGlobal t]))
  end.
Proof.
  intros Hp Hk Hl. unfold global_kind in Hk. apply andb_prop in Hk. destruct Hk as [K1 K2].
  unfold cam_step. cbv zeta. rewrite kind_W by exact Hp. rewrite sub_W, K1, K2.
  replace (b7 p / 16 =? 6) with false by lia. replace (b7 p / 16 =? 11) with false by lia.
  replace (gdc_subtype p =? 4) with false by lia.
  rewrite (land_low _ 0xFFFF 16) by (lia || reflexivity). rewrite (shiftr_div (le64 p) 16) by lia.
  change ((le64 p / 2 ^ 16) mod 2 ^ 16) with (msb_value p).
  destruct (k_spidr s) as [sp|]; [|reflexivity].
  eexists _, _. split; [|reflexivity].
  assert (M : 0 <= msb_value p < 2 ^ 16) by (unfold msb_value; apply Z.mod_pos_bound; lia).
  set (v := msb_value p) in *. clearbody v.
  rewrite shiftl_mul by lia. rewrite u64_id by lia.
  rewrite (land_mid _ 0xFFFF00000000 32 16) by (lia || reflexivity).
  rewrite Z.div_mul by lia. rewrite (Z.mod_small v) by lia. rewrite lor_add by lia.
  apply global_time. lia.
Qed.

Lemma step_other c p s : packet_ok p -> pixel_kind p = false -> trigger_kind p = false ->
  global_kind 4 p = false -> global_kind 5 p = false -> cam_step c p s = Ok s.
Proof.
  intros Hp K1 K2 K3 K4. unfold cam_step. cbv zeta. rewrite kind_W by exact Hp. rewrite sub_W.
  unfold pixel_kind, trigger_kind, global_kind in *. rewrite K2, K1.
  destruct (b7 p / 16 =? 4); [|reflexivity]. cbn [andb] in *. rewrite K3, K4. reflexivity.
Qed.

(** * The packets of a file *)

Fixpoint run_items (l : list (Z * packet)) (s : cam) : outcome cam :=
  match l with
  | [] => Ok s
  | (c, p) :: l => let! s' := cam_step c p s in run_items l s'
  end.

Lemma gf_pixel c p l : pixel_kind p = true -> ~ global_first ((c, p) :: l).
Proof.
  intros K (pre & c' & q & post & E & G & F). destruct pre as [|x pre].
  - cbn in E. injection E as -> -> ->. unfold pixel_kind, global_kind in *. lia.
  - cbn in E. injection E as <- _. inversion F as [|? ? Hx _]. cbn [snd] in Hx. congruence.
Qed.
Lemma gf_other c p l : pixel_kind p = false -> global_kind 5 p = false -> (global_first ((c, p) :: l) <-> global_first l).
Proof.
  intros K G5. split.
  - intros (pre & c' & q & post & E & G & F). destruct pre as [|x pre].
    + cbn in E. injection E as -> -> ->. congruence.
    + cbn in E. injection E as <- ->. inversion F. exists pre, c', q, post. auto.
  - intros (pre & c' & q & post & -> & G & F). exists ((c, p) :: pre), c', q, post.
    split; [reflexivity|]. split; [exact G|]. constructor; assumption.
Qed.
Lemma gf_head c p l : global_kind 5 p = true -> global_first ((c, p) :: l).
Proof. intros G. exists [], c, p, l. split; [reflexivity|]. split; [exact G|constructor]. Qed.

Lemma run_spec l : forall s, Forall (fun q => packet_ok (snd q)) l -> 0 <= k_lsb s < 2 ^ 32 -> 0 <= k_ntdc s < 2 ^ 64 ->
  (k_spidr s = None -> global_first l -> run_items l s = UB Uninitialised) /\
  (k_spidr s <> None \/ ~ global_first l ->
   exists s' ls, run_items l s = Ok s' /\ k_lines s' = k_lines s ++ ls /\ written (k_lsb s) l ls /\
     k_ntdc s' = (k_ntdc s + zlen (filter (fun q => trigger_kind (snd q)) l)) mod 2 ^ 64).
Proof.
  induction l as [|[c p] l IH]; intros s F Hl Hn.
  { split.
    - intros _ (pre & c' & q & post & E & _). destruct pre; discriminate.
    - intros _. exists s, []. rewrite app_nil_r. cbn [filter]. rewrite zlen_nil, Z.add_0_r, Z.mod_small by lia.
      split; [reflexivity|]. split; [reflexivity|]. split; [constructor|reflexivity]. }
  inversion F as [|? ? Hp F']; subst. cbn [snd] in Hp.
  cbn [run_items filter snd].
  destruct (pixel_kind p) eqn:K1.
  { assert (NT : trigger_kind p = false) by (unfold trigger_kind, pixel_kind in *; lia). rewrite NT.
    destruct (step_pixel c p s Hp K1) as (f & sp & t & tot & Hf & Ht & Ep & Et & [To1 To2] & ->). cbn [obind].
    destruct (IH (Cam (Some sp) (k_lsb s) (k_msb s) (k_ntdc s)
      (k_lines s ++ [LPixel (fst (place c (f_x f) (f_y f))) (snd (place c (f_x f) (f_y f))) t tot])) F' Hl Hn) as [_ IH2].
    split; [intros _ G; destruct (gf_pixel c p l K1 G)|]. intros _.
    destruct IH2 as (s' & ls & R & L & W & N); [left; discriminate|].
    exists s', (LPixel (fst (place c (f_x f) (f_y f))) (snd (place c (f_x f) (f_y f))) t tot :: ls).
    split; [exact R|]. split; [rewrite L; cbn [k_lines]; rewrite <- app_assoc; reflexivity|].
    split; [|exact N]. eapply w_pixel; eassumption. }
  destruct (trigger_kind p) eqn:K2.
  { assert (N5 : global_kind 5 p = false) by (unfold trigger_kind, global_kind in *; lia).
    rewrite (step_trigger c p s Hp K2). cbn [obind].
    assert (Hn' : 0 <= u64 (k_ntdc s + 1) < 2 ^ 64) by (unfold u64; apply Z.mod_pos_bound; lia).
    destruct (IH (Cam (k_spidr s) (k_lsb s) (k_msb s) (u64 (k_ntdc s + 1)) (k_lines s ++ [LTdc (cam_tdc (le64 p))])) F' Hl Hn') as [IH1 IH2].
    rewrite (gf_other c p l K1 N5). cbn [k_spidr] in *.
    split; [exact IH1|]. intros G. destruct (IH2 G) as (s' & ls & R & L & W & N).
    exists s', (LTdc (cam_tdc (le64 p)) :: ls). split; [exact R|].
    split; [rewrite L; cbn [k_lines]; rewrite <- app_assoc; reflexivity|].
    split; [apply w_trigger; [exact K2|apply trigger_time|exact W]|].
    rewrite N. cbn [k_ntdc]. rewrite zlen_cons. unfold u64. rewrite Z.add_mod_idemp_l by lia. f_equal. ring. }
  destruct (global_kind 4 p) eqn:K3.
  { assert (N5 : global_kind 5 p = false) by (unfold global_kind in *; lia).
    rewrite (step_low c p s Hp K3). cbn [obind].
    destruct (IH (Cam (k_spidr s) (lsb_value p) (k_msb s) (k_ntdc s) (k_lines s)) F' (lsb_range p) Hn) as [IH1 IH2].
    rewrite (gf_other c p l K1 N5). cbn [k_spidr] in *.
    split; [exact IH1|]. intros G. destruct (IH2 G) as (s' & ls & R & L & W & N).
    exists s', ls. split; [exact R|]. split; [exact L|]. split; [apply w_low; [exact K3|exact W]|exact N]. }
  destruct (global_kind 5 p) eqn:K4.
  { pose proof (step_global c p s Hp K4 Hl) as St. destruct (k_spidr s) as [sp|] eqn:Es.
    - split; [discriminate|]. intros _. destruct St as (m & t & Ct & ->). cbn [obind].
      destruct (IH (Cam (Some sp) (k_lsb s) m (k_ntdc s) (k_lines s ++ [LGlobal t])) F' Hl Hn) as [_ IH2].
      destruct IH2 as (s' & ls & R & L & W & N); [left; discriminate|].
      exists s', (LGlobal t :: ls). split; [exact R|].
      split; [rewrite L; cbn [k_lines]; rewrite <- app_assoc; reflexivity|].
      split; [apply w_global; [exact K4|exact Ct|exact W]|exact N].
    - rewrite St. cbn [obind]. split; [reflexivity|]. intros [H|H]; [congruence|].
      destruct H. apply gf_head. exact K4. }
  rewrite (step_other c p s Hp K1 K2 K3 K4). cbn [obind].
  destruct (IH s F' Hl Hn) as [IH1 IH2]. rewrite (gf_other c p l K1 K4).
  split; [exact IH1|]. intros G. destruct (IH2 G) as (s' & ls & R & L & W & N).
  exists s', ls. split; [exact R|]. split; [exact L|]. split; [apply w_other; assumption|exact N].
Qed.

(** * Framing *)

Lemma words_bytes ps : words (flat_map packet_bytes ps) = ps.
Proof.
  induction ps as [|[a0 a1 a2 a3 a4 a5 a6 a7] ps IH]; [reflexivity|].
  cbn [flat_map packet_bytes app words b0 b1 b2 b3 b4 b5 b6 b7]. rewrite IH. reflexivity.
Qed.

Lemma run_app a b : forall s, run_items (a ++ b) s = let! s' := run_items a s in run_items b s'.
Proof.
  induction a as [|[c p] a IH]; intros s; [reflexivity|]. cbn [app run_items].
  destruct (cam_step c p s); cbn [obind]; auto.
Qed.

Lemma scan_payload c ps : forall k rest s,
  cam_scan (length ps + k) c (ps ++ rest) s =
  let! s' := run_items (map (fun p => (c, p)) ps) s in cam_scan k c rest s'.
Proof.
  induction ps as [|p ps IH]; intros k rest s; [reflexivity|].
  cbn [length app map run_items Nat.add cam_scan].
  destruct (cam_step c p s); cbn [obind]; try reflexivity. apply IH.
Qed.

Lemma header_facts d : dataset_ok d ->
  cam_header (ds_header d) = true /\ Z.to_nat (Z.quot (cam_size (ds_header d)) 8) = length (d_payload d) /\
  schar (b4 (ds_header d)) = signed_chip (d_chip d).
Proof.
  intros (H1 & H2 & H3 & H4 & H5). pose proof (zlen_nonneg (d_payload d)) as N. split; [reflexivity|].
  unfold cam_size, ds_header, signed_chip, schar in *. cbn [b0 b1 b2 b4 b6 b7]. unfold is_byte in *.
  split.
  - rewrite !(Z.land_comm 0xff). rewrite !(land_low _ 0xff 8) by (lia || reflexivity).
    rewrite shiftl_mul by lia. rewrite lor_add by (apply Z.mod_pos_bound || lia; lia).
    unfold zlen in *. change (2 ^ 8) with 256.
    remember (Z.of_nat (length (d_payload d))) as n.
    assert (E : forall v, 0 <= v < 256 -> (if v <? 128 then v else v - 256) mod 256 = v) by (intros v Hv; destruct (Z.ltb_spec v 128); lia).
    rewrite !E by lia. lia.
  - reflexivity.
Qed.

Lemma scan_stream ds : forall c s, Forall dataset_ok ds -> cam_scan 0 c (flat_map ds_packets ds) s = run_items (tagged ds) s.
Proof.
  induction ds as [|d ds IH]; intros c s F; [reflexivity|].
  inversion F as [|? ? Hd F']; subst. destruct (header_facts d Hd) as (E1 & E2 & E3).
  cbn [flat_map ds_packets app cam_scan]. rewrite E1, E2, E3.
  replace (length (d_payload d)) with (length (d_payload d) + 0)%nat by lia. rewrite scan_payload.
  unfold tagged. cbn [flat_map]. fold (tagged ds). rewrite run_app.
  destruct (run_items (map _ _) s); cbn [obind]; try reflexivity. apply IH. exact F'.
Qed.

(** * The program *)

Lemma tagged_ok ds : Forall dataset_ok ds -> Forall (fun q => packet_ok (snd q)) (tagged ds).
Proof.
  induction 1 as [|d ds Hd F IH]; [constructor|]. unfold tagged. cbn [flat_map]. apply Forall_app. split; [|exact IH].
  destruct Hd as (_ & _ & _ & H & _). induction H; cbn [map]; constructor; assumption.
Qed.

Lemma cam0_ok : 0 <= k_lsb cam0 < 2 ^ 32 /\ 0 <= k_ntdc cam0 < 2 ^ 64.
Proof. cbn. lia. Qed.

Lemma convert_stream ds : Forall dataset_ok ds ->
  cam_convert (Some (stream ds)) = let! s := run_items (tagged ds) cam0 in Ok (k_lines s, k_ntdc s).
Proof.
  intros F. unfold cam_convert. rewrite stream_len.
  replace ((8 * zlen (flat_map ds_packets ds)) mod 8 =? 0) with true by lia. cbn [negb].
  rewrite stream_eq, words_bytes, scan_stream by exact F. reflexivity.
Qed.

Lemma C77_lines_l ds : Forall dataset_ok ds -> ~ global_first (tagged ds) ->
  exists ls, cam_convert (Some (stream ds)) =
      Ok (ls, zlen (filter (fun q => trigger_kind (snd q)) (tagged ds)) mod 2 ^ 64) /\
    written 0 (tagged ds) ls.
Proof.
  intros F G. rewrite convert_stream by exact F.
  destruct (run_spec (tagged ds) cam0 (tagged_ok ds F)) as [_ R]; [cbn; lia|cbn; lia|].
  destruct R as (s' & ls & E & L & W & N); [right; exact G|].
  exists ls. rewrite E. cbn [obind]. rewrite L, N. split; [reflexivity|exact W].
Qed.

Lemma C77_unset_l ds : Forall dataset_ok ds -> global_first (tagged ds) ->
  cam_convert (Some (stream ds)) = UB Uninitialised.
Proof.
  intros F G. rewrite convert_stream by exact F.
  destruct (run_spec (tagged ds) cam0 (tagged_ok ds F)) as [R _]; [cbn; lia|cbn; lia|].
  rewrite R by (reflexivity || exact G). reflexivity.
Qed.

Lemma C77_ragged_l m : zlen m mod 8 <> 0 -> cam_convert (Some m) = UB OutOfBounds.
Proof. intros H. unfold cam_convert. replace (zlen m mod 8 =? 0) with false by lia. reflexivity. Qed.

Lemma scan_short c ps : forall k s, (length ps < k)%nat ->
  cam_scan k c ps s = let! _ := run_items (map (fun p => (c, p)) ps) s in UB OutOfBounds.
Proof.
  induction ps as [|p ps IH]; intros k s H; (destruct k as [|k]; [cbn in H; lia|]); [reflexivity|].
  cbn [cam_scan map run_items]. cbn [length] in H. destruct (cam_step c p s); cbn [obind]; try reflexivity.
  apply IH. lia.
Qed.

Lemma C77_cut_l ds d got lost : Forall dataset_ok ds -> dataset_ok d -> d_payload d = got ++ lost -> lost <> [] ->
  ~ global_first (tagged (ds ++ [d])) ->
  cam_convert (Some (stream ds ++ flat_map packet_bytes (ds_header d :: got))) = UB OutOfBounds.
Proof.
  intros F Hd E Hl G. rewrite stream_eq, <- flat_map_app. unfold cam_convert. rewrite flat_bytes_len.
  set (ps := flat_map ds_packets ds ++ ds_header d :: got).
  replace ((8 * zlen ps) mod 8 =? 0) with true by lia. cbn [negb]. rewrite words_bytes.
  assert (S1 : forall ds0 c s, Forall dataset_ok ds0 ->
    cam_scan 0 c (flat_map ds_packets ds0 ++ ds_header d :: got) s =
    let! s' := run_items (tagged ds0 ++ map (fun p => (signed_chip (d_chip d), p)) got) s in UB OutOfBounds).
  { clear F G ps. induction ds0 as [|d0 ds0 IH]; intros c s F.
    - cbn [flat_map app cam_scan tagged]. destruct (header_facts d Hd) as (E1 & E2 & E3). rewrite E1, E2, E3.
      apply scan_short. rewrite E, app_length. destruct lost; [congruence|cbn [length]; lia].
    - inversion F as [|? ? Hd0 F']; subst. destruct (header_facts d0 Hd0) as (E1 & E2 & E3).
      cbn [flat_map ds_packets app cam_scan]. rewrite E1, E2, E3.
      replace (length (d_payload d0)) with (length (d_payload d0) + 0)%nat by lia.
      rewrite <- app_assoc, scan_payload. unfold tagged at 1. cbn [flat_map]. fold (tagged ds0). rewrite <- app_assoc, run_app.
      destruct (run_items (map (fun p => (signed_chip (d_chip d0), p)) (d_payload d0)) s); cbn [obind]; try reflexivity.
      apply IH. exact F'. }
  unfold ps. rewrite S1 by exact F.
  set (l := tagged ds ++ map (fun p => (signed_chip (d_chip d), p)) got).
  destruct (run_spec l cam0) as [_ R]; [|cbn; lia|cbn; lia|].
  - apply Forall_app. split; [apply tagged_ok; exact F|]. destruct Hd as (_ & _ & _ & H & _). rewrite E in H.
    apply Forall_app in H. destruct H as [H _]. apply Forall_map. exact H.
  - destruct R as (s' & ls & R & _).
    + right. intros (pre & c' & q & post & El & Gq & Fp). apply G.
      exists pre, c', q, (post ++ map (fun p => (signed_chip (d_chip d), p)) lost).
      split; [|split; assumption]. unfold tagged. rewrite flat_map_app. cbn [flat_map].
      rewrite app_nil_r, E, map_app, app_assoc. fold (tagged ds). unfold l in El. rewrite El, <- app_assoc. reflexivity.
    + rewrite R. reflexivity.
Qed.

(** ** The same hits as the library *)

Lemma shows_l f c t tot tdc gdc h : fields_ok f ->
  rounded t (IZR (400 * time30 f + 25 * (15 - f_ftoa f)) / 16 / 10 ^ 9) ->
  is_finite tot = true -> B2R tot = IZR (25 * f_tot f) ->
  hit_gdc (pixel_packet f) tdc gdc c = Ok h \/ (0 <= tdc < 2 ^ 64 /\ h = hit_tdc (pixel_packet f) tdc c) ->
  shows (LPixel (fst (place c (f_x f) (f_y f))) (snd (place c (f_x f) (f_y f))) t tot) h.
Proof.
  intros Hf Ht Ft Et Hh.
  assert (A : h_tot h = f_tot f /\ h_toa h = f_toa f /\ h_ftoa h = f_ftoa f /\
    (h_x h, h_y h) = place c (f_x f) (f_y f) /\ h_spider h mod 2 ^ 30 = time30 f).
  { destruct Hh as [Hh|[R ->]].
    - destruct (C01_gdc_l f tdc gdc c Hf) as (h' & E & H). rewrite E in Hh. apply Ok_inj in Hh. subst h'. exact H.
    - exact (C01_tdc_l f tdc c Hf R). }
  destruct A as (A1 & A2 & A3 & A4 & A5). exists t, tot. rewrite <- A4. cbn [fst snd].
  split; [reflexivity|]. split; [exact Ft|]. unfold fields_ok in Hf. split.
  - rewrite Et. unfold tot_ns, c_25. rewrite A1.
    destruct (is_int_mul (f_of_Z (f_tot f)) (f_of_Z 25) (f_tot f) 25) as [_ E]; try (apply is_int_of_Z); try lia.
    rewrite E. f_equal. ring.
  - destruct (ftoa_ns_exact_l h ltac:(lia)) as [_ E]. rewrite E, A3, A5.
    replace ((IZR (25 * time30 f) + 25 * 15 / 16 - IZR (25 * f_ftoa f) / 16) / 10 ^ 9)%R
      with (IZR (400 * time30 f + 25 * (15 - f_ftoa f)) / 16 / 10 ^ 9)%R; [exact Ht|].
    rewrite plus_IZR, !mult_IZR, minus_IZR. lra.
Qed.

Definition same_hit (cp : Z * packet) (l : line) : Prop :=
  forall tdc gdc h, hit_gdc (snd cp) tdc gdc (fst cp) = Ok h \/
    (0 <= tdc < 2 ^ 64 /\ h = hit_tdc (snd cp) tdc (fst cp)) -> shows l h.

Lemma written_hits lsb l ls : written lsb l ls ->
  Forall2 same_hit (filter (fun q => pixel_kind (snd q)) l) (filter pixel_line ls).
Proof.
  assert (X : forall f : pixel_fields, fields_ok f -> f_type f = 11 -> pixel_kind (pixel_packet f) = true).
  { intros f Hf Ht. unfold pixel_kind. rewrite <- kind_W by apply pixel_packet_ok. unfold pixel_packet.
    destruct (pixel_word_fields f Hf) as [R E]. rewrite le64_word by exact R. rewrite shiftr_div by lia.
    assert (E' : f_type (word_fields (pixel_word f)) = 11) by (rewrite E; exact Ht). cbn [word_fields f_type] in E'.
    unfold word_fields in E'. cbn [f_type] in E'. lia. }
  induction 1; cbn [filter snd pixel_line].
  - constructor.
  - subst p. rewrite X by assumption. constructor; [|assumption].
    intros tdc gdc h Hh. eapply shows_l; eassumption.
  - replace (pixel_kind p) with false by (unfold trigger_kind, pixel_kind in *; lia). assumption.
  - replace (pixel_kind p) with false by (unfold global_kind, pixel_kind in *; lia). assumption.
  - replace (pixel_kind p) with false by (unfold global_kind, pixel_kind in *; lia). assumption.
  - rewrite H. assumption.
Qed.

Lemma C77_same_l ds ls n : Forall dataset_ok ds -> cam_convert (Some (stream ds)) = Ok (ls, n) ->
  Forall2 (fun cp l => forall tdc gdc h, hit_gdc (snd cp) tdc gdc (fst cp) = Ok h \/
    (0 <= tdc < 2 ^ 64 /\ h = hit_tdc (snd cp) tdc (fst cp)) -> shows l h)
    (filter (fun q => pixel_kind (snd q)) (tagged ds)) (filter pixel_line ls).
Proof.
  intros F E. destruct (C77_lines_l ds F) as (ls' & E' & W).
  - intros G. rewrite (C77_unset_l ds F G) in E. discriminate.
  - rewrite E' in E. apply Ok_inj in E. injection E as <- <-. exact (written_hits _ _ _ W).
Qed.

(** * Packing *)

Lemma lor_low T F n : 0 <= n -> 0 <= T < 2 ^ n -> 0 <= F < 2 ^ n -> 0 <= Z.lor T F < 2 ^ n.
Proof.
  intros Hn HT HF. assert (E : Z.lor T F = Z.lor T F mod 2 ^ n).
  { rewrite <- Z.land_ones by lia. rewrite Z.land_lor_distr_l, !Z.land_ones by lia.
    rewrite !Z.mod_small by lia. reflexivity. }
  rewrite E. apply Z.mod_pos_bound. apply Z.pow_pos_nonneg; lia.
Qed.

Lemma lor_overlap H T F S : 0 <= T < 2 ^ 10 -> 0 <= F < 2 ^ 8 -> 0 <= S < 2 ^ 16 ->
  Z.lor (Z.lor (Z.lor (H * 2 ^ 30) (T * 2 ^ 20)) (F * 2 ^ 16)) S =
  H * 2 ^ 30 + Z.lor T (F / 16) * 2 ^ 20 + F mod 16 * 2 ^ 16 + S.
Proof.
  intros HT HF HS.
  replace (F * 2 ^ 16) with (Z.lor (F / 16 * 2 ^ 20) (F mod 16 * 2 ^ 16)) by (rewrite lor_add by lia; lia).
  rewrite Z.lor_assoc. rewrite <- (Z.lor_assoc (H * 2 ^ 30)).
  replace (Z.lor (T * 2 ^ 20) (F / 16 * 2 ^ 20)) with (Z.lor T (F / 16) * 2 ^ 20)
    by (rewrite <- !shiftl_mul by lia; apply Z.shiftl_lor).
  pose proof (lor_low T (F / 16) 10 ltac:(lia) HT ltac:(lia)) as B.
  set (v := Z.lor T (F / 16)) in *. clearbody v.
  rewrite (lor_add H (v * 2 ^ 20) 30) by lia.
  replace (H * 2 ^ 30 + v * 2 ^ 20) with ((H * 2 ^ 10 + v) * 2 ^ 20) by lia.
  rewrite (lor_add _ _ 20) by lia.
  replace ((H * 2 ^ 10 + v) * 2 ^ 20 + F mod 16 * 2 ^ 16) with (((H * 2 ^ 10 + v) * 2 ^ 4 + F mod 16) * 2 ^ 16) by lia.
  rewrite (lor_add _ _ 16) by lia. lia.
Qed.

Lemma C78_pixel_l spidr ftoa tot toa addr :
  exists f, fields_ok f /\ pack_pixel spidr ftoa tot toa addr = pixel_word f /\
    f_type f = 11 /\ pixel_address (f_x f) (f_y f) = addr mod 2 ^ 16 /\
    f_toa f = toa mod 2 ^ 14 /\ f_tot f = Z.lor (tot mod 2 ^ 10) (ftoa mod 2 ^ 8 / 16) /\
    f_ftoa f = ftoa mod 16 /\ f_spidr f = spidr mod 2 ^ 16.
Proof.
  pose proof (Z.mod_pos_bound addr (2 ^ 16) ltac:(lia)) as Ba.
  pose proof (Z.mod_pos_bound toa (2 ^ 14) ltac:(lia)) as Bo.
  pose proof (Z.mod_pos_bound tot (2 ^ 10) ltac:(lia)) as Bt.
  pose proof (Z.mod_pos_bound ftoa (2 ^ 8) ltac:(lia)) as Bf.
  pose proof (Z.mod_pos_bound spidr (2 ^ 16) ltac:(lia)) as Bs.
  exists (PF 11 (local_x (addr mod 2 ^ 16)) (local_y (addr mod 2 ^ 16)) (toa mod 2 ^ 14)
    (Z.lor (tot mod 2 ^ 10) (ftoa mod 2 ^ 8 / 16)) (ftoa mod 16) (spidr mod 2 ^ 16)).
  unfold fields_ok, pixel_word. cbn [f_type f_x f_y f_toa f_tot f_ftoa f_spidr].
  rewrite address_encode by exact Ba.
  pose proof (local_x_range _ Ba). pose proof (local_y_range _ Ba).
  pose proof (lor_low (tot mod 2 ^ 10) (ftoa mod 2 ^ 8 / 16) 10 ltac:(lia) Bt ltac:(lia)) as Bl.
  split; [lia|]. split; [|repeat split].
  unfold pack_pixel. rewrite !(land_low _ 0xFFFF 16), (land_low _ 0x3FFF 14), (land_low _ 0x3FF 10), (land_low ftoa 0xFF 8) by (lia || reflexivity).
  change (Z.land 11 255) with 11. rewrite !shiftl_mul by lia. rewrite !u64_id by lia.
  rewrite (Znumtheory.Zmod_div_mod 16 (2 ^ 8) ftoa) by (lia || (exists 16; reflexivity)).
  set (a := addr mod 2 ^ 16) in *. set (o := toa mod 2 ^ 14) in *. set (g := tot mod 2 ^ 10) in *.
  set (k := ftoa mod 2 ^ 8) in *. set (s := spidr mod 2 ^ 16) in *.
  rewrite (lor_add 11 (a * 2 ^ 44) 60) by lia.
  replace (11 * 2 ^ 60 + a * 2 ^ 44) with ((11 * 2 ^ 16 + a) * 2 ^ 44) by lia.
  rewrite (lor_add _ (o * 2 ^ 30) 44) by lia.
  replace ((11 * 2 ^ 16 + a) * 2 ^ 44 + o * 2 ^ 30) with (((11 * 2 ^ 16 + a) * 2 ^ 14 + o) * 2 ^ 30) by lia.
  rewrite lor_overlap by assumption.
  set (v := Z.lor g (k / 16)) in *. clearbody v. lia.
Qed.

Lemma C78_exact_l f : fields_ok f -> f_type f = 11 ->
  pack_pixel (f_spidr f) (f_ftoa f) (f_tot f) (f_toa f) (pixel_address (f_x f) (f_y f)) = pixel_word f.
Proof.
  intros Hf Ht. destruct f as [ty x y toa tot ftoa sp]. unfold fields_ok in Hf.
  cbn [f_type f_x f_y f_toa f_tot f_ftoa f_spidr] in *. subst ty.
  destruct (C78_pixel_l sp ftoa tot toa (pixel_address x y)) as (f & Hf' & E & T & A & O & G & K & S).
  rewrite E. unfold pixel_word. rewrite T, A, O, G, K, S. cbn [f_type f_x f_y f_toa f_tot f_ftoa f_spidr].
  assert (0 <= pixel_address x y < 2 ^ 16) by (unfold pixel_address; lia).
  rewrite (Z.mod_small (pixel_address x y)), (Z.mod_small toa), (Z.mod_small tot), (Z.mod_small sp), (Z.mod_small ftoa (2 ^ 8)), (Z.mod_small ftoa 16) by lia.
  replace (ftoa / 16) with 0 by lia. rewrite Z.lor_0_r. reflexivity.
Qed.

Lemma C78_header_l d : dataset_ok d ->
  word_packet (pack_header 84 80 88 (d_b3 d) (d_chip d) (d_b5 d) (8 * zlen (d_payload d))) = ds_header d.
Proof.
  intros (H1 & H2 & H3 & H4 & H5). pose proof (zlen_nonneg (d_payload d)) as N. unfold ds_header, pack_header, is_byte in *.
  set (n := 8 * zlen (d_payload d)) in *. assert (Hn : 0 <= n < 65536) by lia. clearbody n.
  set (c3 := d_b3 d) in *. set (c4 := d_chip d) in *. set (c5 := d_b5 d) in *. clearbody c3 c4 c5. clear H4 H5 N.
  rewrite (land_low n 0xFFFF 16) by (lia || reflexivity). rewrite !(land_low _ 0xFF 8) by (lia || reflexivity).
  change (84 mod 2 ^ 8) with 84. change (80 mod 2 ^ 8) with 80. change (88 mod 2 ^ 8) with 88.
  rewrite !(Z.mod_small _ (2 ^ 8)), (Z.mod_small n) by lia. rewrite !shiftl_mul by lia. rewrite !u64_id by lia.
  rewrite (lor_add n _ 48) by lia.
  replace (n * 2 ^ 48 + c5 * 2 ^ 40) with ((n * 2 ^ 8 + c5) * 2 ^ 40) by lia. rewrite (lor_add _ _ 40) by lia.
  replace ((n * 2 ^ 8 + c5) * 2 ^ 40 + c4 * 2 ^ 32) with (((n * 2 ^ 8 + c5) * 2 ^ 8 + c4) * 2 ^ 32) by lia. rewrite (lor_add _ _ 32) by lia.
  set (w1 := (n * 2 ^ 8 + c5) * 2 ^ 8 + c4).
  replace (w1 * 2 ^ 32 + c3 * 2 ^ 24) with ((w1 * 2 ^ 8 + c3) * 2 ^ 24) by lia. rewrite (lor_add _ _ 24) by lia.
  replace ((w1 * 2 ^ 8 + c3) * 2 ^ 24 + 88 * 2 ^ 16) with (((w1 * 2 ^ 8 + c3) * 2 ^ 8 + 88) * 2 ^ 16) by lia. rewrite (lor_add _ _ 16) by lia.
  replace (((w1 * 2 ^ 8 + c3) * 2 ^ 8 + 88) * 2 ^ 16 + 80 * 2 ^ 8) with ((((w1 * 2 ^ 8 + c3) * 2 ^ 8 + 88) * 2 ^ 8 + 80) * 2 ^ 8) by lia. rewrite (lor_add _ 84 8) by lia.
  set (W := (((w1 * 2 ^ 8 + c3) * 2 ^ 8 + 88) * 2 ^ 8 + 80) * 2 ^ 8 + 84).
  assert (P : packet_ok (Packet 84 80 88 c3 c4 c5 (n mod 256) (n / 256))) by (unfold packet_ok, is_byte; cbn [b0 b1 b2 b3 b4 b5 b6 b7]; lia).
  rewrite <- (word_le64 _ P). f_equal. rewrite le64_expand. cbn [b0 b1 b2 b3 b4 b5 b6 b7]. unfold W, w1. lia.
Qed.

Lemma C78_file_l d fs : dataset_ok d -> Forall (fun f => fields_ok f /\ f_type f = 11) fs ->
  d_payload d = map pixel_packet fs ->
  flat_map packet_bytes (map word_packet
    (pack_header 84 80 88 (d_b3 d) (d_chip d) (d_b5 d) (8 * zlen (d_payload d)) ::
     map (fun f => pack_pixel (f_spidr f) (f_ftoa f) (f_tot f) (f_toa f) (pixel_address (f_x f) (f_y f))) fs)) =
  stream [d].
Proof.
  intros Hd F E. rewrite stream_eq. cbn [map flat_map]. rewrite C78_header_l by exact Hd. rewrite app_nil_r.
  cbn [ds_packets flat_map]. f_equal. rewrite E. f_equal. clear E. rewrite map_map.
  induction F as [|f fs [Hf Ht] F IH]; [reflexivity|]. cbn [map]. rewrite IH, C78_exact_l by assumption. reflexivity.
Qed.

Lemma C78_time_l f : fields_ok f -> fake_time (pixel_word f) = time30 f.
Proof.
  intros Hf. destruct (pixel_word_fields f Hf) as [R E]. unfold fake_time. set (W := pixel_word f) in *.
  rewrite <- E. unfold time30, word_fields. cbn [f_spidr f_toa].
  rewrite (land_low _ 0x3FFF 14) by (lia || reflexivity). rewrite shiftr_div, shiftl_mul by lia. clearbody W.
  unfold u16, u32. assert (A : ((W / 2 ^ 30) mod 2 ^ 16) mod 2 ^ 14 = (W / 2 ^ 30) mod 2 ^ 14).
  { symmetry. apply Znumtheory.Zmod_div_mod; [lia|lia|]. exists 4. reflexivity. }
  rewrite A. pose proof (Z.mod_pos_bound (W / 2 ^ 30) (2 ^ 14) ltac:(lia)). rewrite lor_add by lia.
  pose proof (Z.mod_pos_bound W (2 ^ 16) ltac:(lia)). rewrite Z.mod_small by lia. lia.
Qed.

(** * Other words *)

Definition piece_packets (x : piece) : list packet := match x with PDataset d => ds_packets d | PWord p => [p] end.
Lemma pieces_eq l : flat_map piece_bytes l = flat_map packet_bytes (flat_map piece_packets l).
Proof.
  induction l as [|[d|p] l IH]; [reflexivity| |]; cbn [flat_map piece_bytes piece_packets]; rewrite flat_map_app, IH; f_equal.
  rewrite stream_eq. cbn [flat_map]. rewrite List.app_nil_r. reflexivity.
Qed.
Lemma word_skipped p : packet_ok p -> ~ (b0 p = 84 /\ b1 p = 80 /\ b2 p = 88) -> cam_header p = false.
Proof.
  intros P N. destruct (cam_header p) eqn:E; [|reflexivity]. elim N. unfold cam_header, schar in E.
  apply andb_true_iff in E. destruct E as [E E2]. apply andb_true_iff in E. destruct E as [E0 E1].
  apply Z.eqb_eq in E0, E1, E2. unfold packet_ok, is_byte in P.
  destruct (Z.ltb_spec (b0 p) 128), (Z.ltb_spec (b1 p) 128), (Z.ltb_spec (b2 p) 128); lia.
Qed.
Lemma scan_pieces l : forall c s, Forall piece_ok l ->
  cam_scan 0 c (flat_map piece_packets l) s = run_items (tagged (datasets_of l)) s.
Proof.
  induction l as [|[d|p] l IH]; intros c s F; [reflexivity| |]; inversion F as [|? ? H F']; subst.
  - cbn [piece_ok] in H. destruct (header_facts d H) as (E1 & E2 & E3).
    cbn [flat_map piece_packets ds_packets app cam_scan]. rewrite E1, E2, E3.
    replace (length (d_payload d)) with (length (d_payload d) + 0)%nat by lia. rewrite scan_payload.
    unfold tagged, datasets_of. cbn [flat_map app]. fold (datasets_of l). fold (tagged (datasets_of l)). rewrite run_app.
    destruct (run_items (map _ _) s); cbn [obind]; try reflexivity. apply IH. exact F'.
  - destruct H as [H N]. cbn [flat_map piece_packets app cam_scan]. rewrite (word_skipped p H N). apply IH. exact F'.
Qed.
Lemma C77_other_words_l l : Forall piece_ok l ->
  cam_convert (Some (flat_map piece_bytes l)) = cam_convert (Some (stream (datasets_of l))).
Proof.
  intros F. rewrite convert_stream.
  - unfold cam_convert. rewrite pieces_eq. replace (zlen (flat_map packet_bytes (flat_map piece_packets l))) with (8 * zlen (flat_map piece_packets l)).
    + replace ((8 * zlen (flat_map piece_packets l)) mod 8 =? 0) with true by lia. cbn [negb].
      rewrite words_bytes, scan_pieces by exact F. reflexivity.
    + unfold zlen. induction (flat_map piece_packets l) as [|p ps IH]; [reflexivity|]. cbn [flat_map]. rewrite app_length.
      change (length (packet_bytes p)) with 8%nat. cbn [length]. lia.
  - induction F as [|[d|p] l H F IH]; unfold datasets_of; cbn [flat_map app]; [constructor|constructor; assumption|exact IH].
Qed.
