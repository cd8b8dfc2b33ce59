(** Doubles in the DBSCAN model: non-negative integers, DBL_MIN, minima and
    maxima. *)
From Coq Require Import Reals Lra Lia.
From Flocq Require Import Core.
From Verif Require Export S_Dbscan F64Facts.
Local Open Scope Z_scope.

(** * Non-negative integers *)

Definition nat_fl (x : f64) (z : Z) : Prop := is_int x z /\ Bsign x = false /\ 0 <= z.

Lemma of_Z_sign z : 0 <= z <= 2 ^ 53 -> Bsign (f_of_Z z) = false.
Proof.
  intros Hz. unfold f_of_Z.
  pose proof (binary_normalize_correct 53 1024 prec53 emax1024 mode_NE z 0 false) as H.
  cbn [round_mode] in H.
  rewrite F2R_Z0 in H.
  rewrite (rnd_no_overflow (IZR z) 53) in H; [|lia|apply IZR_abs_bpow; lia].
  destruct H as [_ [_ H]]. rewrite H.
  destruct (Z.eq_dec z 0) as [->|Hn].
  - rewrite Rcompare_Eq; reflexivity.
  - rewrite Rcompare_Gt; [reflexivity|]. apply IZR_lt. lia.
Qed.

Lemma nat_fl_of_Z z : 0 <= z <= 2 ^ 53 -> nat_fl (f_of_Z z) z.
Proof.
  intros H. split; [|split].
  - apply is_int_of_Z. lia.
  - apply of_Z_sign. exact H.
  - lia.
Qed.

Lemma nat_fl_eq x z : nat_fl x z -> z <= 2 ^ 53 -> x = f_of_Z z.
Proof.
  intros [[Hf Hr] [Hs Hz]] Hb.
  apply B2R_Bsign_inj.
  - exact Hf.
  - apply of_Z_fin53. lia.
  - rewrite Hr. symmetry. apply of_Z_exact. lia.
  - rewrite Hs. symmetry. apply of_Z_sign. lia.
Qed.

Lemma nat_fl_add x y a b : nat_fl x a -> nat_fl y b -> a + b <= 2 ^ 53 -> nat_fl (fadd x y) (a + b).
Proof.
  intros [Hx [Sx Ha]] [Hy [Sy Hb]] Hab.
  split; [apply is_int_add; try assumption; lia|split; [|lia]].
  unfold fadd. destruct Hx as [Fx Rx]. destruct Hy as [Fy Ry].
  pose proof (Bplus_correct 53 1024 prec53 emax1024 mode_NE x y Fx Fy) as H.
  cbn [round_mode] in H.
  assert (E : (B2R x + B2R y)%R = IZR (a + b)) by (rewrite Rx, Ry, plus_IZR; reflexivity).
  rewrite E in H.
  rewrite (rnd_no_overflow _ 53) in H; [|lia|apply IZR_abs_bpow; lia].
  destruct H as [_ [_ H]]. rewrite H.
  destruct (Z.eq_dec (a + b) 0) as [->|Hn].
  - rewrite Rcompare_Eq by reflexivity. rewrite Sx, Sy. reflexivity.
  - rewrite Rcompare_Gt; [reflexivity|]. apply IZR_lt. lia.
Qed.

Lemma nat_fl_mul x y a b : nat_fl x a -> nat_fl y b -> a * b <= 2 ^ 53 -> nat_fl (fmul x y) (a * b).
Proof.
  intros [Hx [Sx Ha]] [Hy [Sy Hb]] Hab.
  split; [apply is_int_mul; try assumption; nia|split; [|nia]].
  unfold fmul. destruct Hx as [Fx Rx]. destruct Hy as [Fy Ry].
  pose proof (Bmult_correct 53 1024 prec53 emax1024 mode_NE x y) as H.
  cbn [round_mode] in H.
  assert (E : (B2R x * B2R y)%R = IZR (a * b)) by (rewrite Rx, Ry, mult_IZR; reflexivity).
  rewrite E in H.
  rewrite (rnd_no_overflow _ 53) in H; [|lia|apply IZR_abs_bpow; nia].
  destruct H as [_ [H1 H2]]. rewrite H2.
  - rewrite Sx, Sy. reflexivity.
  - unfold fmul. rewrite Fx, Fy in H1. cbn in H1.
    destruct (Bmult mode_NE x y); cbn in *; congruence.
Qed.

Lemma toa_nat_fl h : toa_ok h -> nat_fl (toa_ns h) (25 * h_toa h).
Proof.
  intros H. unfold toa_ns, c_25. rewrite Z.mul_comm. unfold toa_ok in H.
  apply nat_fl_mul; [apply nat_fl_of_Z|apply nat_fl_of_Z|]; lia.
Qed.

(** * DBL_MIN and DBL_MAX *)

Lemma dbl_min_R : B2R dbl_min = bpow radix2 (-1022).
Proof.
  unfold dbl_min, B2R, F2R. cbn [Fnum Fexp cond_Zopp].
  change (Z.pos 4503599627370496) with (2 ^ 52).
  change (2 ^ 52) with (radix2 ^ 52). rewrite IZR_Zpower by lia.
  rewrite <- bpow_plus. reflexivity.
Qed.

Lemma dbl_max_R : B2R dbl_max = (IZR (2 ^ 53 - 1) * bpow radix2 971)%R.
Proof. reflexivity. Qed.

Lemma dbl_min_pos : (0 < B2R dbl_min)%R.
Proof. rewrite dbl_min_R. apply bpow_gt_0. Qed.

Lemma dbl_min_lt_1 : (B2R dbl_min < 1)%R.
Proof. rewrite dbl_min_R. change 1%R with (bpow radix2 0). apply bpow_lt. lia. Qed.

Lemma int_lt_dbl_max x z : is_int x z -> Z.abs z <= 2 ^ 53 -> flt x dbl_max = true.
Proof.
  intros [Hf Hr] Hz. rewrite flt_R by (try exact Hf; reflexivity).
  apply Rlt_bool_true. rewrite Hr, dbl_max_R.
  apply Rle_lt_trans with (IZR (2 ^ 53)); [apply IZR_le; lia|].
  apply Rlt_le_trans with (IZR (2 ^ 53 - 1) * 2)%R.
  - rewrite <- mult_IZR. apply IZR_lt. lia.
  - apply Rmult_le_compat_l; [apply IZR_le; lia|].
    change 2%R with (bpow radix2 1). apply bpow_le. lia.
Qed.

(** Subtracting DBL_MIN from a positive integer does nothing. *)
Lemma rnd_sub_min z : 1 <= z <= 2 ^ 53 -> rnd (IZR z - bpow radix2 (-1022)) = IZR z.
Proof.
  intros Hz.
  assert (Hfmt : fmt (IZR z)) by (apply fmt_IZR; lia).
  apply Rle_antisym.
  - rewrite <- (rnd_IZR z) at 2 by lia. apply rnd_le.
    pose proof (bpow_gt_0 radix2 (-1022)). lra.
  - apply round_N_ge_midp; [exact vexp|exact Hfmt|].
    set (p := pred radix2 (SpecFloat.fexp 53 1024) (IZR z)).
    assert (Hhalf : fmt (bpow radix2 (-1))).
    { apply generic_format_bpow. vm_compute. discriminate. }
    assert (Hp1 : (bpow radix2 (-1) <= p)%R).
    { apply (pred_ge_gt radix2 (SpecFloat.fexp 53 1024) _ _ Hhalf Hfmt).
      apply Rlt_le_trans with 1%R; [|apply IZR_le; lia].
      change 1%R with (bpow radix2 0). apply bpow_lt. lia. }
    assert (Hu : (p + ulp radix2 (SpecFloat.fexp 53 1024) p)%R = IZR z).
    { apply (pred_plus_ulp radix2 (SpecFloat.fexp 53 1024)); [apply IZR_lt; lia|exact Hfmt]. }
    assert (Hul : (ulp radix2 (SpecFloat.fexp 53 1024) (bpow radix2 (-1))
                   <= ulp radix2 (SpecFloat.fexp 53 1024) p)%R).
    { apply ulp_le_pos; [exact vexp|apply fexp_monotone|apply bpow_ge_0|exact Hp1]. }
    rewrite ulp_bpow in Hul.
    assert (Hb : (bpow radix2 (-1021) < bpow radix2 (SpecFloat.fexp 53 1024 (-1 + 1)))%R).
    { apply bpow_lt. vm_compute. reflexivity. }
    assert (H2 : bpow radix2 (-1021) = (2 * bpow radix2 (-1022))%R).
    { change (-1021) with (1 + -1022). rewrite bpow_plus. reflexivity. }
    lra.
Qed.

(** * The largest time of a cluster *)

(** As the code computes it: starting from DBL_MIN, a cluster of times zero has
    DBL_MIN as its largest time. *)
Definition max_fl (x : f64) (z : Z) : Prop := is_int x z \/ (z = 0 /\ x = dbl_min).

Lemma fmax_max x y a b : max_fl x a -> max_fl y b -> 0 <= a -> 0 <= b ->
  max_fl (fmax x y) (Z.max a b).
Proof.
  intros Hx Hy Ha Hb. unfold fmax.
  destruct Hx as [Hx|[-> ->]]; destruct Hy as [Hy|[-> ->]].
  - rewrite (is_int_flt _ _ _ _ Hx Hy).
    destruct (Z.ltb_spec a b); left; [rewrite Z.max_r by lia|rewrite Z.max_l by lia]; assumption.
  - pose proof Hx as [Fx Rx]. rewrite flt_R by (try exact Fx; reflexivity).
    pose proof dbl_min_pos. pose proof dbl_min_lt_1.
    destruct (Z.eq_dec a 0) as [->|Hn].
    + rewrite Rlt_bool_true by (rewrite Rx; assumption). right. split; reflexivity.
    + rewrite Rlt_bool_false; [left; rewrite Z.max_l by lia; assumption|].
      rewrite Rx. assert (1 <= IZR a)%R by (apply IZR_le; lia). lra.
  - pose proof Hy as [Fy Ry]. rewrite flt_R by (try exact Fy; reflexivity).
    pose proof dbl_min_pos. pose proof dbl_min_lt_1.
    destruct (Z.eq_dec b 0) as [->|Hn].
    + rewrite Rlt_bool_false by (rewrite Ry; lra). right. split; reflexivity.
    + rewrite Rlt_bool_true; [left; rewrite Z.max_r by lia; assumption|].
      rewrite Ry. assert (1 <= IZR b)%R by (apply IZR_le; lia). lra.
  - right. split; [reflexivity|]. destruct (flt dbl_min dbl_min); reflexivity.
Qed.

Lemma fmax_init x a : is_int x a -> 0 <= a -> max_fl (fmax dbl_min x) a.
Proof.
  intros Hx Ha.
  pose proof (fmax_max dbl_min x 0 a (or_intror (conj eq_refl eq_refl)) (or_introl Hx)) as H.
  rewrite Z.max_r in H by lia. apply H; lia.
Qed.

Lemma fmin_min x y a b : is_int x a -> is_int y b -> is_int (fmin x y) (Z.min a b).
Proof.
  intros Hx Hy. unfold fmin. rewrite (is_int_flt _ _ _ _ Hy Hx).
  destruct (Z.ltb_spec b a); [rewrite Z.min_r by lia|rewrite Z.min_l by lia]; assumption.
Qed.

Lemma fmin_init x a : is_int x a -> Z.abs a <= 2 ^ 53 -> fmin dbl_max x = x.
Proof. intros Hx Ha. unfold fmin. rewrite (int_lt_dbl_max x a) by assumption. reflexivity. Qed.

(** * Distances *)

(** The distance [d] is at most [eps]. *)
Definition within (eps : f64) (d : Z) : Prop := (IZR d <= B2R eps)%R.

Lemma within_le eps d d' : within eps d -> d' <= d -> within eps d'.
Proof. unfold within. intros H Hd. apply IZR_le in Hd. lra. Qed.


Lemma eps_nonneg eps : eps_ok eps -> (0 <= B2R eps)%R.
Proof.
  intros [Hf Hle]. rewrite fle_R in Hle by (try exact Hf; apply of_Z_fin53; lia).
  rewrite of_Z_exact in Hle by lia.
  destruct (Rle_bool_spec 0 (B2R eps)); [assumption|discriminate].
Qed.

Lemma fle_within x d eps : is_int x d -> is_finite eps = true -> fle x eps = true <-> within eps d.
Proof.
  intros [Fx Rx] He. rewrite fle_R by assumption. rewrite Rx. unfold within.
  destruct (Rle_bool_spec (IZR d) (B2R eps)); split; intros; try reflexivity; try assumption.
  - discriminate.
  - lra.
Qed.

Lemma near_within eps x y a b : is_finite eps = true -> is_int x a -> is_int y b ->
  Z.abs (a - b) <= 2 ^ 53 -> near eps x y <-> within eps (Z.abs (a - b)).
Proof.
  intros He Hx Hy Hab. unfold near. apply fle_within; [|exact He].
  apply is_int_abs, is_int_sub; assumption.
Qed.

(** The test of the merge loop. *)
Lemma close_within eps cur next a b : eps_ok eps -> max_fl (i_max cur) a -> is_int (i_min next) b ->
  0 <= a <= 2 ^ 52 -> 0 <= b <= 2 ^ 52 ->
  info_close eps cur next = true <-> within eps (b - a).
Proof.
  intros He Ha Hb Hra Hrb. pose proof (eps_nonneg eps He) as Hpos.
  destruct He as [Hf _]. unfold info_close, fgt.
  change (Bltb (i_min next) (i_max cur)) with (flt (i_min next) (i_max cur)).
  destruct Ha as [Ha|[-> Ha]].
  - rewrite (is_int_flt _ _ _ _ Hb Ha).
    rewrite orb_true_iff, (fle_within _ (b - a)); [|apply is_int_sub; try assumption; lia|exact Hf].
    split; [intros [H|H]|intros H; right; exact H]; [|exact H].
    apply Z.ltb_lt in H. unfold within. apply Rle_trans with 0%R; [apply IZR_le; lia|exact Hpos].
  - rewrite Ha. pose proof Hb as [Fb Rb].
    pose proof dbl_min_pos. pose proof dbl_min_lt_1.
    rewrite flt_R by (try exact Fb; reflexivity).
    destruct (Z.eq_dec b 0) as [->|Hn].
    + rewrite Rlt_bool_true by (rewrite Rb; assumption).
      split; [intros _; unfold within; cbn; exact Hpos|reflexivity].
    + rewrite Rlt_bool_false.
      2:{ rewrite Rb. assert (1 <= IZR b)%R by (apply IZR_le; lia). lra. }
      rewrite Z.sub_0_r. cbn [orb]. apply fle_within; [|exact Hf].
      destruct (fsub_correct (i_min next) dbl_min 53) as [H1 H2]; try assumption; try reflexivity; try lia.
      * rewrite Rb. assert (1 <= IZR b)%R by (apply IZR_le; lia).
        rewrite Rabs_pos_eq by lra.
        apply Rle_trans with (IZR b); [lra|].
        rewrite <- (Rabs_pos_eq (IZR b)) by lra. apply IZR_abs_bpow; lia.
      * split; [exact H2|]. rewrite H1, Rb, dbl_min_R. apply rnd_sub_min. lia.
Qed.
