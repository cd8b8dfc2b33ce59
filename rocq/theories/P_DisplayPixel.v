(** Lemmas about the pixel of a cluster. *)
From Coq Require Import Lia Reals Lra.
From Flocq Require Import Core Relative.
From Verif Require Export S_DisplayPixel P_DisplayWork.
From Coq Require Import ZifyBool Zify.
Ltac Zify.zify_post_hook ::= Z.to_euclidean_division_equations.
Global Open Scope Z_scope.

Lemma rnd_err x : (Rabs x <= IZR (2 ^ 13))%R -> (Rabs (rnd x - x) <= / IZR (2 ^ 39))%R.
Proof.
  intros Hx. rewrite rnd_FLT.
  destruct (error_N_FLT radix2 (-1074) 53 eq_refl (fun z => negb (Z.even z)) x) as (eps & eta & H1 & H2 & H3 & E).
  match goal with |- (Rabs (?r - x) <= _)%R => change r with (round radix2 (FLT_exp (-1074) 53) ZnearestE x) end. rewrite E.
  assert (B1 : (Rabs eps <= / IZR (2 ^ 53))%R).
  { eapply Rle_trans; [exact H1|]. change (- (53) + 1)%Z with (-52)%Z. change (bpow radix2 (-52)) with (/ IZR (2 ^ 52))%R.
    change (IZR (2 ^ 52)) with 4503599627370496%R. change (IZR (2 ^ 53)) with 9007199254740992%R. lra. }
  assert (B2 : (Rabs eta <= / IZR (2 ^ 60))%R).
  { eapply Rle_trans; [exact H2|]. apply Rle_trans with (/ 2 * bpow radix2 (-60))%R.
    - apply Rmult_le_compat_l; [lra|]. apply bpow_le. lia.
    - change (bpow radix2 (-60)) with (/ IZR (2 ^ 60))%R.
      assert (0 < / IZR (2 ^ 60))%R by (apply Rinv_0_lt_compat, IZR_lt; lia). lra. }
  replace (x * (1 + eps) + eta - x)%R with (x * eps + eta)%R by ring.
  eapply Rle_trans; [apply Rabs_triang|]. rewrite Rabs_mult.
  assert (M : (Rabs x * Rabs eps <= IZR (2 ^ 13) * / IZR (2 ^ 53))%R).
  { apply Rmult_le_compat; try assumption; apply Rabs_pos. }
  change (IZR (2 ^ 13)) with 8192%R in *. change (IZR (2 ^ 53)) with 9007199254740992%R in *.
  change (IZR (2 ^ 60)) with 1152921504606846976%R in *. change (IZR (2 ^ 39)) with 549755813888%R.
  lra.
Qed.

Lemma rnd_bound x n : (0 <= n <= 2 ^ 53)%Z -> (Rabs x <= IZR n)%R -> (Rabs (rnd x) <= IZR n)%R.
Proof.
  intros Hn H. apply Rabs_le. apply Rabs_le_inv in H. destruct H as [H1 H2]. rewrite <- opp_IZR in *. split.
  - rewrite <- (rnd_IZR (- n)) by lia. apply rnd_le. exact H1.
  - rewrite <- (rnd_IZR n) by lia. apply rnd_le. exact H2.
Qed.

(** ** The mean *)

Lemma mean_range s t : 0 <= s <= 511 * t -> 0 < t -> (0 <= exact_mean s t <= 4088)%R.
Proof.
  intros Hs Ht. unfold exact_mean. assert (0 < IZR t)%R by (apply IZR_lt; lia).
  assert (0 <= IZR s)%R by (apply IZR_le; lia).
  assert (IZR s <= 511 * IZR t)%R by (rewrite <- mult_IZR; apply IZR_le; lia). split.
  - apply Rmult_le_pos; [lra|]. left. apply Rinv_0_lt_compat. assumption.
  - apply (Rmult_le_reg_r (IZR t)); [assumption|]. unfold Rdiv. rewrite Rmult_assoc, Rinv_l by lra. lra.
Qed.

Lemma mean_spec s t : 0 <= s <= 511 * t -> 0 < t < 2 ^ 31 -> s < 2 ^ 31 ->
  is_finite (mean8 s t) = true /\ (Rabs (B2R (mean8 s t)) <= 4088)%R /\
  (Rabs (B2R (mean8 s t) - exact_mean s t) <= / IZR (2 ^ 39))%R.
Proof.
  intros Hs Ht Hb. pose proof (mean_range s t Hs (proj1 Ht)) as R.
  destruct (is_int_mul (f_of_Z 8) (f_of_Z s) 8 s) as [F1 V1]; [apply is_int_of_Z; lia|apply is_int_of_Z; lia|lia|].
  unfold mean8.
  assert (E : (B2R (fmul (f_of_Z 8) (f_of_Z s)) / B2R (f_of_Z t) = exact_mean s t)%R).
  { rewrite V1, of_Z_exact, mult_IZR by lia. reflexivity. }
  destruct (fdiv_correct (fmul (f_of_Z 8) (f_of_Z s)) (f_of_Z t) 12) as [V F].
  - lia.
  - exact F1.
  - rewrite of_Z_exact by lia. apply IZR_neq. lia.
  - rewrite E. change (bpow radix2 12) with 4096%R. rewrite Rabs_pos_eq; lra.
  - rewrite E in V. split; [exact F|]. rewrite V. split.
    + apply (rnd_bound _ 4088); [lia|]. rewrite Rabs_pos_eq; lra.
    + apply rnd_err. change (IZR (2 ^ 13)) with 8192%R. rewrite Rabs_pos_eq; lra.
Qed.

(** ** The rotation *)

Lemma fabs_le1 x : is_finite x = true -> fle (fabs x) (f_of_Z 1) = true -> (Rabs (B2R x) <= 1)%R.
Proof.
  intros F H. rewrite fle_R in H.
  - unfold fabs in H. rewrite B2R_Babs, of_Z_exact in H by lia.
    destruct (Rle_bool_spec (Rabs (B2R x)) 1) as [L|L]; [exact L|discriminate H].
  - unfold fabs. rewrite is_finite_Babs. exact F.
  - apply of_Z_fin53. lia.
Qed.

Lemma prod_spec x c : is_finite x = true -> is_finite c = true -> (Rabs (B2R x) <= 4088)%R -> (Rabs (B2R c) <= 1)%R ->
  is_finite (fmul x c) = true /\ (Rabs (B2R (fmul x c)) <= 4088)%R /\
  (Rabs (B2R (fmul x c) - B2R x * B2R c) <= / IZR (2 ^ 39))%R.
Proof.
  intros Fx Fc Bx Bc.
  assert (B : (Rabs (B2R x * B2R c) <= 4088)%R).
  { rewrite Rabs_mult. replace 4088%R with (4088 * 1)%R by ring. apply Rmult_le_compat; try assumption; apply Rabs_pos. }
  destruct (fmul_correct x c 12) as [V F]; try assumption.
  - lia.
  - change (bpow radix2 12) with 4096%R. lra.
  - split; [exact F|]. rewrite V. split; [apply (rnd_bound _ 4088); [lia|exact B]|].
    apply rnd_err. change (IZR (2 ^ 13)) with 8192%R. lra.
Qed.

Lemma conv_spec v : is_finite v = true -> (Rabs (B2R v) <= 8192)%R -> f_to_i32 v = Some (Ztrunc (B2R v)).
Proof.
  intros F B. unfold f_to_i32, f_to_int. rewrite F.
  assert (T : Btrunc v = Ztrunc (B2R v)).
  { apply eq_IZR. rewrite Btrunc_correct; [|exact emax1024]. rewrite round_FIX_IZR. reflexivity. }
  rewrite T. apply Rabs_le_inv in B. destruct B as [B1 B2].
  rewrite <- opp_IZR in B1. apply Ztrunc_le in B1, B2.
  rewrite Ztrunc_IZR in B1, B2. unfold int_min, int_max.
  replace ((- 2 ^ 31 <=? Ztrunc (B2R v)) && (Ztrunc (B2R v) <=? 2 ^ 31 - 1)) with true by lia. reflexivity.
Qed.

Lemma sum_err a b c d e : (Rabs a <= / IZR (2 ^ 39))%R -> (Rabs b <= / IZR (2 ^ 39))%R -> (Rabs c <= / IZR (2 ^ 39))%R ->
  (Rabs d <= / IZR (2 ^ 39))%R -> (Rabs e <= / IZR (2 ^ 39))%R -> (Rabs (a + b + c + d + e) < / IZR (2 ^ 36))%R.
Proof.
  change (IZR (2 ^ 39)) with 549755813888%R. change (IZR (2 ^ 36)) with 68719476736%R. intros.
  repeat match goal with H : (Rabs _ <= _)%R |- _ => apply Rabs_le_inv in H end. apply Rabs_lt. lra.
Qed.
Lemma scaled_err a c : (Rabs a <= / IZR (2 ^ 39))%R -> (Rabs c <= 1)%R -> (Rabs (a * c) <= / IZR (2 ^ 39))%R.
Proof.
  intros Ha Hc. rewrite Rabs_mult. replace (/ IZR (2 ^ 39))%R with (/ IZR (2 ^ 39) * 1)%R by ring.
  apply Rmult_le_compat; try assumption; apply Rabs_pos.
Qed.

Lemma falls_spec rot c : rotation_ok rot -> Forall raw_ok c -> small c -> 0 < sum_tot c ->
  exists ix iy px, falls_on rot c px /\ near_part (exact_x rot c) ix /\ near_part (exact_y rot c) iy /\
    ((0 <= ix < 4096 /\ 0 <= iy < 4096 /\ px = [(ix, iy)]) \/
     (~ (0 <= ix < 4096 /\ 0 <= iy < 4096) /\ px = [])).
Proof.
  intros (FC & FS & LC & LS) Hc (_ & Ht & Hx & Hy) Hp.
  destruct (sums_nonneg c Hc) as (_ & Nx & Ny). destruct (sums_bound c Hc) as (Bx & By).
  pose proof (fabs_le1 _ FC LC) as C1. pose proof (fabs_le1 _ FS LS) as S1.
  destruct (mean_spec (sum_x c) (sum_tot c)) as (FX & BX & EX); try lia.
  destruct (mean_spec (sum_y c) (sum_tot c)) as (FY & BY & EY); try lia.
  unfold falls_on, rotated, exact_x, exact_y. cbn [fst snd].
  set (X := mean8 (sum_x c) (sum_tot c)) in *. set (Y := mean8 (sum_y c) (sum_tot c)) in *.
  set (mx := exact_mean (sum_x c) (sum_tot c)) in *. set (my := exact_mean (sum_y c) (sum_tot c)) in *.
  destruct (prod_spec X (rot_cos rot) FX FC BX C1) as (F1 & B1 & E1).
  destruct (prod_spec Y (rot_sin rot) FY FS BY S1) as (F2 & B2 & E2).
  destruct (prod_spec X (rot_sin rot) FX FS BX S1) as (F3 & B3 & E3).
  destruct (prod_spec Y (rot_cos rot) FY FC BY C1) as (F4 & B4 & E4).
  assert (M1 : (Rabs (B2R (fmul X (rot_cos rot)) - B2R (fmul Y (rot_sin rot))) <= 8176)%R).
  { apply Rabs_le_inv in B1, B2. apply Rabs_le. lra. }
  assert (M2 : (Rabs (B2R (fmul X (rot_sin rot)) + B2R (fmul Y (rot_cos rot))) <= 8176)%R).
  { apply Rabs_le_inv in B3, B4. apply Rabs_le. lra. }
  destruct (fsub_correct (fmul X (rot_cos rot)) (fmul Y (rot_sin rot)) 13) as [V5 F5]; try assumption;
    [lia|change (bpow radix2 13) with 8192%R; lra|].
  destruct (fadd_correct (fmul X (rot_sin rot)) (fmul Y (rot_cos rot)) 13) as [V6 F6]; try assumption;
    [lia|change (bpow radix2 13) with 8192%R; lra|].
  assert (K1 : (Rabs (B2R (fsub (fmul X (rot_cos rot)) (fmul Y (rot_sin rot)))) <= 8192)%R).
  { rewrite V5. apply (rnd_bound _ 8192); [lia|lra]. }
  assert (K2 : (Rabs (B2R (fadd (fmul X (rot_sin rot)) (fmul Y (rot_cos rot)))) <= 8192)%R).
  { rewrite V6. apply (rnd_bound _ 8192); [lia|lra]. }
  assert (E5 := rnd_err _ (Rle_trans _ _ (IZR (2 ^ 13)) M1 (IZR_le 8176 (2 ^ 13) ltac:(lia)))). rewrite <- V5 in E5.
  assert (E6 := rnd_err _ (Rle_trans _ _ (IZR (2 ^ 13)) M2 (IZR_le 8176 (2 ^ 13) ltac:(lia)))). rewrite <- V6 in E6.
  pose proof (conv_spec _ F5 K1) as D1. pose proof (conv_spec _ F6 K2) as D2.
  set (ix := Ztrunc (B2R (fsub (fmul X (rot_cos rot)) (fmul Y (rot_sin rot))))) in *.
  set (iy := Ztrunc (B2R (fadd (fmul X (rot_sin rot)) (fmul Y (rot_cos rot))))) in *.
  exists ix, iy.
  assert (G1 : near_part (mx * B2R (rot_cos rot) - my * B2R (rot_sin rot))%R ix).
  { eexists. split; [|reflexivity].
    replace (B2R (fsub (fmul X (rot_cos rot)) (fmul Y (rot_sin rot))) - (mx * B2R (rot_cos rot) - my * B2R (rot_sin rot)))%R
      with ((B2R (fsub (fmul X (rot_cos rot)) (fmul Y (rot_sin rot))) - (B2R (fmul X (rot_cos rot)) - B2R (fmul Y (rot_sin rot))))
            + (B2R (fmul X (rot_cos rot)) - B2R X * B2R (rot_cos rot)) + - (B2R (fmul Y (rot_sin rot)) - B2R Y * B2R (rot_sin rot))
            + (B2R X - mx) * B2R (rot_cos rot) + - ((B2R Y - my) * B2R (rot_sin rot)))%R by ring.
    apply sum_err; try assumption; try (rewrite Rabs_Ropp); try assumption; apply scaled_err; assumption. }
  assert (G2 : near_part (mx * B2R (rot_sin rot) + my * B2R (rot_cos rot))%R iy).
  { eexists. split; [|reflexivity].
    replace (B2R (fadd (fmul X (rot_sin rot)) (fmul Y (rot_cos rot))) - (mx * B2R (rot_sin rot) + my * B2R (rot_cos rot)))%R
      with ((B2R (fadd (fmul X (rot_sin rot)) (fmul Y (rot_cos rot))) - (B2R (fmul X (rot_sin rot)) + B2R (fmul Y (rot_cos rot))))
            + (B2R (fmul X (rot_sin rot)) - B2R X * B2R (rot_sin rot)) + (B2R (fmul Y (rot_cos rot)) - B2R Y * B2R (rot_cos rot))
            + (B2R X - mx) * B2R (rot_sin rot) + (B2R Y - my) * B2R (rot_cos rot))%R by ring.
    apply sum_err; try assumption; apply scaled_err; assumption. }
  destruct (Z_le_dec 0 ix), (Z_lt_dec ix 4096), (Z_le_dec 0 iy), (Z_lt_dec iy 4096);
    try (exists []; split; [exists ix, iy; split; [exact D1|]; split; [exact D2|]; right; split; [lia|reflexivity]|];
         split; [exact G1|]; split; [exact G2|]; right; split; [lia|reflexivity]).
  exists [(ix, iy)]. split; [exists ix, iy; split; [exact D1|]; split; [exact D2|]; left; repeat split; lia|].
  split; [exact G1|]. split; [exact G2|]. left. repeat split; lia.
Qed.

(** Without any time over threshold the mean is not a number. *)
Lemma nan_mul x : fmul (B754_nan : f64) x = B754_nan.
Proof. destruct x; reflexivity. Qed.
Lemma nan_sub x : fsub (B754_nan : f64) x = B754_nan.
Proof. destruct x; reflexivity. Qed.
Lemma falls_zero rot c px : Forall raw_ok c -> sum_tot c = 0 -> ~ falls_on rot c px.
Proof.
  intros Hc Ht. destruct (sums_nonneg c Hc) as (_ & Nx & Ny). destruct (sums_bound c Hc) as (Bx & By).
  assert (Ex : sum_x c = 0) by lia. intros (ix & iy & H & _).
  rewrite Ht, Ex in H. unfold rotated in H. cbn [fst] in H.
  assert (N : mean8 0 0 = B754_nan) by (vm_compute; reflexivity). rewrite N, nan_mul, nan_sub in H. discriminate H.
Qed.

Lemma bad_iff rot c : rotation_ok rot -> Forall raw_ok c -> small c ->
  (bad_cluster rot c <-> big c = true /\ sum_tot c = 0).
Proof.
  intros Hr Hc Hs. destruct (sums_nonneg c Hc) as (Nt & _). unfold bad_cluster. split.
  - intros [B N]. split; [exact B|]. destruct (Z.eq_dec (sum_tot c) 0) as [E|E]; [exact E|]. exfalso.
    destruct (falls_spec rot c Hr Hc Hs) as (ix & iy & px & F & _); [lia|]. exact (N px F).
  - intros [B E]. split; [exact B|]. intros px. apply falls_zero; assumption.
Qed.
