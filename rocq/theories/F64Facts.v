(** Facts about binary64: exactness on integers, monotonicity of rounding. *)
From Coq Require Import Reals Lra Lia.
From Flocq Require Import Core.
From Verif Require Export F64 BaseFacts.

Global Open Scope Z_scope.

Notation rnd := (round radix2 (SpecFloat.fexp 53 1024) ZnearestE).
Notation fmt := (generic_format radix2 (SpecFloat.fexp 53 1024)).

Global Instance vexp : Valid_exp (SpecFloat.fexp 53 1024).
Proof. apply (fexp_correct 53 1024). exact prec53. Defined.

Lemma fexp_FLT : forall e, SpecFloat.fexp 53 1024 e = FLT_exp (-1074) 53 e.
Proof. intros e. unfold SpecFloat.fexp, SpecFloat.emin, FLT_exp. lia. Qed.

Lemma rnd_FLT x : rnd x = round radix2 (FLT_exp (-1074) 53) ZnearestE x.
Proof.
  unfold round, scaled_mantissa, cexp. rewrite fexp_FLT. reflexivity.
Qed.

Lemma rnd_le x y : (x <= y)%R -> (rnd x <= rnd y)%R.
Proof. intros H. apply round_le; [exact vexp|apply valid_rnd_N|exact H]. Qed.

Lemma fmt_IZR z : Z.abs z <= 2 ^ 53 -> fmt (IZR z).
Proof.
  intros Hz.
  destruct (Z.eq_dec (Z.abs z) (2 ^ 53)) as [He|Hne].
  - assert (Hb : generic_format radix2 (SpecFloat.fexp 53 1024) (bpow radix2 53)).
    { apply generic_format_bpow. vm_compute. discriminate. }
    assert (H53 : bpow radix2 53 = IZR (2 ^ 53)) by (rewrite <- IZR_Zpower by lia; reflexivity).
    rewrite H53 in Hb.
    assert (Hcase : z = 2 ^ 53 \/ z = - 2 ^ 53) by lia.
    destruct Hcase as [H|H]; rewrite H; [exact Hb|].
    rewrite opp_IZR. apply generic_format_opp. exact Hb.
  - apply generic_format_F2R' with (f := Float radix2 z 0).
    + unfold F2R. cbn [Fnum Fexp]. change (bpow radix2 0) with 1%R. rewrite Rmult_1_r. reflexivity.
    + intros Hnz. unfold cexp. cbn [Fexp].
      rewrite fexp_FLT. unfold FLT_exp.
      assert (Hm : (mag radix2 (IZR z) <= 53)%Z).
      { apply mag_le_Zpower.
        - intros ->. apply Hnz. reflexivity.
        - change (radix2 ^ 53) with (2 ^ 53). lia. }
      lia.
Qed.

Lemma rnd_IZR z : Z.abs z <= 2 ^ 53 -> rnd (IZR z) = IZR z.
Proof. intros H. apply round_generic; [apply valid_rnd_N|apply fmt_IZR; exact H]. Qed.

Lemma rnd_bpow e : (-1074 <= e)%Z -> rnd (bpow radix2 e) = bpow radix2 e.
Proof.
  intros He. apply round_generic; [apply valid_rnd_N|].
  apply generic_format_bpow. rewrite fexp_FLT. unfold FLT_exp. lia.
Qed.

Lemma rnd_abs_le x e : (-1074 <= e)%Z -> (Rabs x <= bpow radix2 e)%R ->
  (Rabs (rnd x) <= bpow radix2 e)%R.
Proof.
  intros He Hx. apply abs_round_le_generic; [exact vexp|apply valid_rnd_N| |exact Hx].
  apply generic_format_bpow. rewrite fexp_FLT. unfold FLT_exp. lia.
Qed.

Lemma rnd_no_overflow x e : (-1074 <= e < 1024)%Z -> (Rabs x <= bpow radix2 e)%R ->
  Rlt_bool (Rabs (rnd x)) (bpow radix2 1024) = true.
Proof.
  intros He Hx. apply Rlt_bool_true.
  apply Rle_lt_trans with (bpow radix2 e).
  - apply rnd_abs_le; [lia|exact Hx].
  - apply bpow_lt. lia.
Qed.

(** ** Conversion of integers *)

Lemma F2R_Z0 z : F2R (Float radix2 z 0) = IZR z.
Proof. unfold F2R. cbn [Fnum Fexp]. change (bpow radix2 0) with 1%R. apply Rmult_1_r. Qed.

Lemma IZR_abs_bpow z e : (0 <= e)%Z -> Z.abs z <= 2 ^ e -> (Rabs (IZR z) <= bpow radix2 e)%R.
Proof.
  intros He Hz. rewrite <- abs_IZR. rewrite <- IZR_Zpower by exact He.
  apply IZR_le. exact Hz.
Qed.

Lemma of_Z_correct z : Z.abs z <= 2 ^ 1000 ->
  B2R (f_of_Z z) = rnd (IZR z) /\ is_finite (f_of_Z z) = true.
Proof.
  intros Hz.
  pose proof (binary_normalize_correct 53 1024 prec53 emax1024 mode_NE z 0 false) as H.
  cbv zeta in H. cbn [round_mode] in H. rewrite F2R_Z0 in H.
  rewrite (rnd_no_overflow _ 1000) in H; [|lia|apply IZR_abs_bpow; [lia|exact Hz]].
  destruct H as [H1 [H2 _]]. split; [exact H1|exact H2].
Qed.

Lemma of_Z_fin z : Z.abs z <= 2 ^ 1000 -> is_finite (f_of_Z z) = true.
Proof. intros H. apply of_Z_correct. exact H. Qed.
Lemma of_Z_R z : Z.abs z <= 2 ^ 1000 -> B2R (f_of_Z z) = rnd (IZR z).
Proof. intros H. apply of_Z_correct. exact H. Qed.

Lemma pow_53_1000 : 2 ^ 53 <= 2 ^ 1000.
Proof. apply Z.pow_le_mono_r; lia. Qed.
Lemma pow_64_1000 : 2 ^ 64 <= 2 ^ 1000.
Proof. apply Z.pow_le_mono_r; lia. Qed.

Lemma of_Z_exact z : Z.abs z <= 2 ^ 53 -> B2R (f_of_Z z) = IZR z.
Proof.
  intros H. pose proof pow_53_1000. rewrite of_Z_R by lia. apply rnd_IZR. exact H.
Qed.
Lemma of_Z_fin53 z : Z.abs z <= 2 ^ 53 -> is_finite (f_of_Z z) = true.
Proof. intros H. pose proof pow_53_1000. apply of_Z_fin. lia. Qed.

(** ** Comparisons *)

Lemma fle_R x y : is_finite x = true -> is_finite y = true ->
  fle x y = Rle_bool (B2R x) (B2R y).
Proof. intros Hx Hy. apply Bleb_correct; assumption. Qed.
Lemma flt_R x y : is_finite x = true -> is_finite y = true ->
  flt x y = Rlt_bool (B2R x) (B2R y).
Proof. intros Hx Hy. apply Bltb_correct; assumption. Qed.

Lemma Rle_bool_IZR a b : Rle_bool (IZR a) (IZR b) = (a <=? b).
Proof.
  destruct (Z.leb_spec a b) as [H|H].
  - apply Rle_bool_true. apply IZR_le. exact H.
  - apply Rle_bool_false. apply IZR_lt. exact H.
Qed.
Lemma Rlt_bool_IZR a b : Rlt_bool (IZR a) (IZR b) = (a <? b).
Proof.
  destruct (Z.ltb_spec a b) as [H|H].
  - apply Rlt_bool_true. apply IZR_lt. exact H.
  - apply Rlt_bool_false. apply IZR_le. exact H.
Qed.

(** Comparing a converted integer with an exactly representable one is
    integer comparison, whatever the rounding of the first. *)
Lemma fge_of_Z z c : Z.abs z <= 2 ^ 1000 -> Z.abs c <= 2 ^ 52 ->
  fge (f_of_Z z) (f_of_Z c) = (c <=? z).
Proof.
  intros Hz Hc. pose proof pow_53_1000 as Hp.
  unfold fge. change (Bleb (f_of_Z c) (f_of_Z z)) with (fle (f_of_Z c) (f_of_Z z)).
  rewrite fle_R by (apply of_Z_fin; lia).
  rewrite of_Z_exact by lia. rewrite of_Z_R by exact Hz.
  destruct (Z.leb_spec c z) as [H|H].
  - apply Rle_bool_true. rewrite <- (rnd_IZR c) by lia. apply rnd_le, IZR_le. exact H.
  - apply Rle_bool_false.
    apply Rle_lt_trans with (IZR (c - 1)).
    + rewrite <- (rnd_IZR (c - 1)) by lia. apply rnd_le, IZR_le. lia.
    + apply IZR_lt. lia.
Qed.

(** ** Multiplication *)

Lemma fmul_correct x y e : (-1074 <= e < 1024)%Z ->
  is_finite x = true -> is_finite y = true ->
  (Rabs (B2R x * B2R y) <= bpow radix2 e)%R ->
  B2R (fmul x y) = rnd (B2R x * B2R y) /\ is_finite (fmul x y) = true.
Proof.
  intros He Hx Hy Hb. unfold fmul.
  pose proof (Bmult_correct 53 1024 prec53 emax1024 mode_NE x y) as H.
  cbn [round_mode] in H. rewrite (rnd_no_overflow _ e He Hb) in H.
  destruct H as [H1 [H2 _]]. rewrite Hx, Hy in H2. split; assumption.
Qed.

Lemma fadd_correct x y e : (-1074 <= e < 1024)%Z ->
  is_finite x = true -> is_finite y = true ->
  (Rabs (B2R x + B2R y) <= bpow radix2 e)%R ->
  B2R (fadd x y) = rnd (B2R x + B2R y) /\ is_finite (fadd x y) = true.
Proof.
  intros He Hx Hy Hb. unfold fadd.
  pose proof (Bplus_correct 53 1024 prec53 emax1024 mode_NE x y Hx Hy) as H.
  cbn [round_mode] in H. rewrite (rnd_no_overflow _ e He Hb) in H.
  destruct H as [H1 [H2 _]]. split; assumption.
Qed.

Lemma fsub_correct x y e : (-1074 <= e < 1024)%Z ->
  is_finite x = true -> is_finite y = true ->
  (Rabs (B2R x - B2R y) <= bpow radix2 e)%R ->
  B2R (fsub x y) = rnd (B2R x - B2R y) /\ is_finite (fsub x y) = true.
Proof.
  intros He Hx Hy Hb. unfold fsub.
  pose proof (Bminus_correct 53 1024 prec53 emax1024 mode_NE x y Hx Hy) as H.
  cbn [round_mode] in H. rewrite (rnd_no_overflow _ e He Hb) in H.
  destruct H as [H1 [H2 _]]. split; assumption.
Qed.

Lemma fdiv_correct x y e : (-1074 <= e < 1024)%Z ->
  is_finite x = true -> B2R y <> 0%R ->
  (Rabs (B2R x / B2R y) <= bpow radix2 e)%R ->
  B2R (fdiv x y) = rnd (B2R x / B2R y) /\ is_finite (fdiv x y) = true.
Proof.
  intros He Hx Hy Hb. unfold fdiv.
  pose proof (Bdiv_correct 53 1024 prec53 emax1024 mode_NE x y Hy) as H.
  cbn [round_mode] in H. rewrite (rnd_no_overflow _ e He Hb) in H.
  destruct H as [H1 [H2 _]]. rewrite Hx in H2. split; assumption.
Qed.

(** ** Exactness on integers *)

Definition is_int (x : f64) (z : Z) : Prop := is_finite x = true /\ B2R x = IZR z.

Lemma is_int_of_Z z : Z.abs z <= 2 ^ 53 -> is_int (f_of_Z z) z.
Proof. intros H. split; [apply of_Z_fin53; exact H|apply of_Z_exact; exact H]. Qed.

Lemma is_int_mul x y a b : is_int x a -> is_int y b -> Z.abs (a * b) <= 2 ^ 53 ->
  is_int (fmul x y) (a * b).
Proof.
  intros [Hx Ha] [Hy Hb] Hab.
  assert (Hm : (B2R x * B2R y)%R = IZR (a * b)) by (rewrite Ha, Hb, mult_IZR; reflexivity).
  destruct (fmul_correct x y 53) as [H1 H2]; try assumption; try lia.
  - rewrite Hm. apply IZR_abs_bpow; [lia|exact Hab].
  - split; [exact H2|]. rewrite H1, Hm. apply rnd_IZR. exact Hab.
Qed.

Lemma is_int_add x y a b : is_int x a -> is_int y b -> Z.abs (a + b) <= 2 ^ 53 ->
  is_int (fadd x y) (a + b).
Proof.
  intros [Hx Ha] [Hy Hb] Hab.
  assert (Hm : (B2R x + B2R y)%R = IZR (a + b)) by (rewrite Ha, Hb, plus_IZR; reflexivity).
  destruct (fadd_correct x y 53) as [H1 H2]; try assumption; try lia.
  - rewrite Hm. apply IZR_abs_bpow; [lia|exact Hab].
  - split; [exact H2|]. rewrite H1, Hm. apply rnd_IZR. exact Hab.
Qed.

Lemma is_int_sub x y a b : is_int x a -> is_int y b -> Z.abs (a - b) <= 2 ^ 53 ->
  is_int (fsub x y) (a - b).
Proof.
  intros [Hx Ha] [Hy Hb] Hab.
  assert (Hm : (B2R x - B2R y)%R = IZR (a - b)) by (rewrite Ha, Hb, minus_IZR; reflexivity).
  destruct (fsub_correct x y 53) as [H1 H2]; try assumption; try lia.
  - rewrite Hm. apply IZR_abs_bpow; [lia|exact Hab].
  - split; [exact H2|]. rewrite H1, Hm. apply rnd_IZR. exact Hab.
Qed.

Lemma is_int_fle x y a b : is_int x a -> is_int y b -> fle x y = (a <=? b).
Proof. intros [Hx Ha] [Hy Hb]. rewrite fle_R by assumption. rewrite Ha, Hb. apply Rle_bool_IZR. Qed.
Lemma is_int_flt x y a b : is_int x a -> is_int y b -> flt x y = (a <? b).
Proof. intros [Hx Ha] [Hy Hb]. rewrite flt_R by assumption. rewrite Ha, Hb. apply Rlt_bool_IZR. Qed.

Lemma is_int_abs x a : is_int x a -> is_int (fabs x) (Z.abs a).
Proof.
  intros [Hx Ha]. unfold fabs. split.
  - rewrite is_finite_Babs. exact Hx.
  - rewrite B2R_Babs, Ha, abs_IZR. reflexivity.
Qed.
