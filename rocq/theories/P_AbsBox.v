(** The double tests of the box search in terms of integers and reals. *)
From Verif Require Export P_Abs.
From Coq Require Import Lia ZifyBool Reals Lra.
From Flocq Require Import Core.
Global Open Scope Z_scope.

(** * Time test *)

Lemma fle_int_of_Z x a z : is_int x a -> Z.abs a <= 2 ^ 53 -> 0 <= z < 2 ^ 64 ->
  fle x (f_of_Z z) = (a <=? z).
Proof.
  intros [F E] Ha Hz. rewrite fle_R; [|exact F|apply of_Z_fin; lia]. rewrite E, of_Z_R by lia.
  destruct (Z.leb_spec a z) as [H|H].
  - apply Rle_bool_true. rewrite <- (rnd_IZR a) by exact Ha. apply rnd_le, IZR_le. exact H.
  - apply Rle_bool_false. rewrite rnd_IZR by lia. apply IZR_lt. exact H.
Qed.

Lemma time_ok_iff cfg h c : hit_ok h -> live c -> Forall hit_ok (cl_hits c) ->
  0 <= a_range cfg < 2 ^ 64 ->
  (time_ok cfg h (slot_of c) = true <->
   exists t, opened_at c t /\ Z.abs (arrival h - t) <= a_range cfg).
Proof.
  intros Hh L Hc Hr.
  assert (O : opened_at c (ctime c)) by (apply opened_ctime; auto).
  assert (T : 0 <= ctime c <= 25 * (2 ^ 48 - 1)).
  { destruct O as (f & rest & E & ->). rewrite E in Hc. inversion Hc as [|? ? Hf _]; subst.
    destruct Hf as (_ & _ & Hf). unfold arrival. lia. }
  assert (A : 0 <= arrival h <= 25 * (2 ^ 48 - 1))
    by (destruct Hh as (_ & _ & Hf); unfold arrival; lia).
  unfold time_ok. fold (ctime c).
  rewrite (fle_int_of_Z _ (Z.abs (arrival h - ctime c))); [| |lia|exact Hr].
  - split.
    + intros H. exists (ctime c). split; [exact O|lia].
    + intros (t & Ot & H). apply opened_ctime in Ot. destruct Ot as [_ ->]. lia.
  - apply is_int_abs. apply is_int_sub; [apply spider_is_int; exact Hh|apply is_int_of_Z; lia|lia].
Qed.

(** * Minimum and maximum of the members *)

Lemma fold_min_spec l : forall x, (fold_left Z.min l x = x \/ In (fold_left Z.min l x) l) /\
  fold_left Z.min l x <= x /\ forall y, In y l -> fold_left Z.min l x <= y.
Proof.
  induction l as [|a l IH]; intros x; cbn [fold_left].
  - split; [left; reflexivity|]. split; [lia|intros y []].
  - destruct (IH (Z.min x a)) as (A & B & C). split; [|split].
    + destruct A as [A|A]; [|right; right; exact A].
      destruct (Z.min_spec x a) as [[_ E]|[_ E]]; rewrite E in A.
      * left. rewrite E. exact A.
      * right. left. rewrite E. symmetry. exact A.
    + lia.
    + intros y [->|I]; [lia|apply C; exact I].
Qed.

Lemma fold_max_spec l : forall x, (fold_left Z.max l x = x \/ In (fold_left Z.max l x) l) /\
  x <= fold_left Z.max l x /\ forall y, In y l -> y <= fold_left Z.max l x.
Proof.
  induction l as [|a l IH]; intros x; cbn [fold_left].
  - split; [left; reflexivity|]. split; [lia|intros y []].
  - destruct (IH (Z.max x a)) as (A & B & C). split; [|split].
    + destruct A as [A|A]; [|right; right; exact A].
      destruct (Z.max_spec x a) as [[_ E]|[_ E]]; rewrite E in A.
      * right. left. rewrite E. symmetry. exact A.
      * left. rewrite E. exact A.
    + lia.
    + intros y [->|I]; [lia|apply C; exact I].
Qed.

Lemma min_exists (g : hit -> Z) f rest (P : Z -> Prop) :
  (forall u v, u <= v -> P v -> P u) ->
  (P (fold_left Z.min (map g rest) (g f)) <-> exists a, In a (f :: rest) /\ P (g a)).
Proof.
  intros Mono. destruct (fold_min_spec (map g rest) (g f)) as (A & B & C). split.
  - intros H. destruct A as [A|A].
    + exists f. split; [left; reflexivity|]. rewrite <- A. exact H.
    + apply in_map_iff in A. destruct A as (a & Ea & Ia). exists a. split; [right; exact Ia|].
      rewrite Ea. exact H.
  - intros (a & [<-|Ia] & H); eapply Mono; try exact H; [exact B|]. apply C. apply in_map. exact Ia.
Qed.

Lemma max_exists (g : hit -> Z) f rest (P : Z -> Prop) :
  (forall u v, u <= v -> P u -> P v) ->
  (P (fold_left Z.max (map g rest) (g f)) <-> exists a, In a (f :: rest) /\ P (g a)).
Proof.
  intros Mono. destruct (fold_max_spec (map g rest) (g f)) as (A & B & C). split.
  - intros H. destruct A as [A|A].
    + exists f. split; [left; reflexivity|]. rewrite <- A. exact H.
    + apply in_map_iff in A. destruct A as (a & Ea & Ia). exists a. split; [right; exact Ia|].
      rewrite Ea. exact H.
  - intros (a & [<-|Ia] & H); eapply Mono; try exact H; [exact B|]. apply C. apply in_map. exact Ia.
Qed.

(** * Box test, radius a multiple of 2^-20 *)

Lemma fmt_dy k : Z.abs k < 2 ^ 53 -> fmt (IZR k * bpow radix2 (-20)).
Proof.
  intros Hk.
  assert (G : generic_format radix2 (FLT_exp (-1074) 53) (IZR k * bpow radix2 (-20))).
  { apply generic_format_FLT. exists (Float radix2 k (-20)); cbn [Fnum Fexp].
    - reflexivity.
    - exact Hk.
    - lia. }
  unfold generic_format, scaled_mantissa, cexp in *. rewrite fexp_FLT. exact G.
Qed.

Lemma rnd_dy k : Z.abs k < 2 ^ 53 -> rnd (IZR k * bpow radix2 (-20)) = (IZR k * bpow radix2 (-20))%R.
Proof. intros H. apply round_generic; [apply valid_rnd_N|apply fmt_dy; exact H]. Qed.

Lemma b20 : (bpow radix2 (-20) * IZR (2 ^ 20) = 1)%R.
Proof. replace (IZR (2 ^ 20)) with (bpow radix2 20) by reflexivity. rewrite <- bpow_plus. reflexivity. Qed.

Lemma dy_abs k : Z.abs k < 2 ^ 53 -> (Rabs (IZR k * bpow radix2 (-20)) <= bpow radix2 53)%R.
Proof.
  intros H. rewrite Rabs_mult, (Rabs_pos_eq (bpow radix2 (-20))) by apply bpow_ge_0.
  apply Rle_trans with (Rabs (IZR k) * 1)%R.
  - apply Rmult_le_compat_l; [apply Rabs_pos|]. change 1%R with (bpow radix2 0). apply bpow_le. lia.
  - rewrite Rmult_1_r. apply IZR_abs_bpow; lia.
Qed.

Lemma IZR_dy z : IZR z = (IZR (2 ^ 20 * z) * bpow radix2 (-20))%R.
Proof. rewrite mult_IZR, Rmult_comm, <- Rmult_assoc, b20. ring. Qed.

Lemma radius_dy r rho : radius_is r rho -> B2R r = (IZR rho * bpow radix2 (-20))%R.
Proof.
  intros (_ & E & _). rewrite E. reflexivity.
Qed.

Lemma Rle_dy a b : Rle_bool (IZR a * bpow radix2 (-20)) (IZR b * bpow radix2 (-20)) = (a <=? b).
Proof.
  destruct (Z.leb_spec a b) as [H|H].
  - apply Rle_bool_true. apply Rmult_le_compat_r; [apply bpow_ge_0|]. apply IZR_le. exact H.
  - apply Rle_bool_false. apply Rmult_lt_compat_r; [apply bpow_gt_0|]. apply IZR_lt. exact H.
Qed.

Definition small (z : Z) : Prop := - 2 ^ 31 <= z < 2 ^ 31.

Lemma low_test r rho x m : radius_is r rho -> small x -> small m ->
  fge (f_of_Z x) (fsub (f_of_Z m) r) = (2 ^ 20 * m - rho <=? 2 ^ 20 * x).
Proof.
  intros Hr Hx Hm. unfold small in *. pose proof (radius_dy r rho Hr) as Er. destruct Hr as (F & _ & B).
  assert (S : (B2R (f_of_Z m) - B2R r = IZR (2 ^ 20 * m - rho) * bpow radix2 (-20))%R).
  { rewrite Er, of_Z_exact by lia. rewrite (IZR_dy m), minus_IZR. ring. }
  destruct (fsub_correct (f_of_Z m) r 53) as [E1 E2]; [lia|apply of_Z_fin53; lia|exact F| |].
  { rewrite S. apply dy_abs. lia. }
  unfold fge. fold (fle (fsub (f_of_Z m) r) (f_of_Z x)).
  rewrite fle_R; [|exact E2|apply of_Z_fin53; lia].
  rewrite E1, S, rnd_dy by lia. rewrite of_Z_exact by lia. rewrite (IZR_dy x). apply Rle_dy.
Qed.

Lemma high_test r rho x m : radius_is r rho -> small x -> small m ->
  fle (f_of_Z x) (fadd (f_of_Z m) r) = (2 ^ 20 * x <=? 2 ^ 20 * m + rho).
Proof.
  intros Hr Hx Hm. unfold small in *. pose proof (radius_dy r rho Hr) as Er. destruct Hr as (F & _ & B).
  assert (S : (B2R (f_of_Z m) + B2R r = IZR (2 ^ 20 * m + rho) * bpow radix2 (-20))%R).
  { rewrite Er, of_Z_exact by lia. rewrite (IZR_dy m), plus_IZR. ring. }
  destruct (fadd_correct (f_of_Z m) r 53) as [E1 E2]; [lia|apply of_Z_fin53; lia|exact F| |].
  { rewrite S. apply dy_abs. lia. }
  rewrite fle_R; [|apply of_Z_fin53; lia|exact E2].
  rewrite E1, S, rnd_dy by lia. rewrite of_Z_exact by lia. rewrite (IZR_dy x). apply Rle_dy.
Qed.

Lemma min_small (g : hit -> Z) f rest : Forall (fun h => small (g h)) (f :: rest) ->
  small (fold_left Z.min (map g rest) (g f)).
Proof.
  intros H. destruct (fold_min_spec (map g rest) (g f)) as (A & _ & _).
  rewrite Forall_forall in H. destruct A as [->|A]; [apply H; left; reflexivity|].
  apply in_map_iff in A. destruct A as (a & <- & Ia). apply H. right. exact Ia.
Qed.
Lemma max_small (g : hit -> Z) f rest : Forall (fun h => small (g h)) (f :: rest) ->
  small (fold_left Z.max (map g rest) (g f)).
Proof.
  intros H. destruct (fold_max_spec (map g rest) (g f)) as (A & _ & _).
  rewrite Forall_forall in H. destruct A as [->|A]; [apply H; left; reflexivity|].
  apply in_map_iff in A. destruct A as (a & <- & Ia). apply H. right. exact Ia.
Qed.

Lemma hit_ok_small l : Forall hit_ok l ->
  Forall (fun h => small (h_x h)) l /\ Forall (fun h => small (h_y h)) l.
Proof. intros H. split; (eapply Forall_impl; [|exact H]); intros h (A & B & _); assumption. Qed.

Lemma fits_code_box cfg rho c h : radius_is (a_radius cfg) rho -> 0 <= a_range cfg < 2 ^ 64 ->
  hit_ok h -> live c -> Forall hit_ok (cl_hits c) ->
  (fits_code cfg c h <-> fits_box rho (a_range cfg) c h).
Proof.
  intros Hr Ht Hh L Hc. unfold fits_code, fits_box. rewrite andb_true_iff.
  rewrite time_ok_iff by assumption. apply and_iff_compat_l.
  unfold slot_of, live in *. destruct (cl_hits c) as [|f rest] eqn:Ec; [congruence|].
  destruct (hit_ok_small _ Hc) as [Sx Sy]. destruct Hh as (Hx & Hy & _). fold (small (h_x h)) in Hx.
  fold (small (h_y h)) in Hy.
  unfold box_ok, box_slot. cbn [c_xmin c_ymin c_xmax c_ymax].
  rewrite (low_test _ _ (h_x h) _ Hr Hx (min_small _ _ _ Sx)).
  rewrite (low_test _ _ (h_y h) _ Hr Hy (min_small _ _ _ Sy)).
  rewrite (high_test _ _ (h_x h) _ Hr Hx (max_small _ _ _ Sx)).
  rewrite (high_test _ _ (h_y h) _ Hr Hy (max_small _ _ _ Sy)).
  rewrite <- (min_exists h_x f rest (fun v => 2 ^ 20 * v - rho <= 2 ^ 20 * h_x h)) by (intros; lia).
  rewrite <- (min_exists h_y f rest (fun v => 2 ^ 20 * v - rho <= 2 ^ 20 * h_y h)) by (intros; lia).
  rewrite <- (max_exists h_x f rest (fun v => 2 ^ 20 * h_x h <= 2 ^ 20 * v + rho)) by (intros; lia).
  rewrite <- (max_exists h_y f rest (fun v => 2 ^ 20 * h_y h <= 2 ^ 20 * v + rho)) by (intros; lia).
  rewrite !andb_true_iff, !Z.leb_le. tauto.
Qed.

(** * Box test, any radius up to 2^20 *)

Lemma rnd_near v : (Rabs v <= bpow radix2 21)%R -> (v - tiny <= rnd v <= v + tiny)%R.
Proof.
  intros H.
  assert (E : (Rabs (rnd v - v) <= / 2 * ulp radix2 (SpecFloat.fexp 53 1024) v)%R)
    by (apply error_le_half_ulp; exact vexp).
  assert (U : (ulp radix2 (SpecFloat.fexp 53 1024) v <= bpow radix2 (-31))%R).
  { assert (U1 : (ulp radix2 (SpecFloat.fexp 53 1024) v <=
                  ulp radix2 (SpecFloat.fexp 53 1024) (bpow radix2 21))%R).
    { apply ulp_le; [exact vexp| |].
      - intros a b Hab. unfold SpecFloat.fexp. lia.
      - rewrite (Rabs_pos_eq (bpow radix2 21)) by apply bpow_ge_0. exact H. }
    apply Rle_trans with (1 := U1). rewrite ulp_bpow. apply bpow_le. vm_compute. discriminate. }
  assert (B : (Rabs (rnd v - v) <= tiny)%R).
  { apply Rle_trans with (1 := E). unfold tiny.
    replace (bpow radix2 (-32)) with (/ 2 * bpow radix2 (-31))%R.
    - apply Rmult_le_compat_l; [lra|exact U].
    - change (/ 2)%R with (bpow radix2 (-1)). rewrite <- bpow_plus. reflexivity. }
  apply Rabs_le_inv in B. lra.
Qed.

Section AnyRadius.
Variable r : f64.
Hypothesis Fr : is_finite r = true.
Hypothesis Br : (Rabs (B2R r) <= bpow radix2 20)%R.

Lemma tame_R z : tame z -> (Rabs (IZR z) <= bpow radix2 20)%R.
Proof. intros H. apply IZR_abs_bpow; [lia|exact H]. Qed.

Lemma bpow21 : bpow radix2 21 = (bpow radix2 20 + bpow radix2 20)%R.
Proof. change (bpow radix2 21) with (IZR 2097152). change (bpow radix2 20) with (IZR 1048576). rewrite <- plus_IZR. reflexivity. Qed.

Lemma low_near x m : tame x -> tame m ->
  let t := fge (f_of_Z x) (fsub (f_of_Z m) r) in
  (t = true -> (IZR m - B2R r - tiny <= IZR x)%R) /\ ((IZR m - B2R r <= IZR x)%R -> t = true).
Proof.
  intros Hx Hm. pose proof (tame_R m Hm) as Bm.
  assert (B : (Rabs (IZR m - B2R r) <= bpow radix2 21)%R).
  { rewrite bpow21. unfold Rminus. apply Rle_trans with (1 := Rabs_triang _ _). rewrite Rabs_Ropp. lra. }
  unfold tame in *.
  destruct (fsub_correct (f_of_Z m) r 21) as [E1 E2]; [lia|apply of_Z_fin53; lia|exact Fr| |].
  { rewrite of_Z_exact by lia. exact B. }
  rewrite of_Z_exact in E1 by lia.
  cbv zeta. unfold fge. fold (fle (fsub (f_of_Z m) r) (f_of_Z x)).
  rewrite fle_R; [|exact E2|apply of_Z_fin53; lia]. rewrite E1, of_Z_exact by lia.
  pose proof (rnd_near _ B) as N. split.
  - intros T. destruct (Rle_bool_spec (rnd (IZR m - B2R r)) (IZR x)); [lra|discriminate].
  - intros T. apply Rle_bool_true. rewrite <- (rnd_IZR x) by lia. apply rnd_le. exact T.
Qed.

Lemma high_near x m : tame x -> tame m ->
  let t := fle (f_of_Z x) (fadd (f_of_Z m) r) in
  (t = true -> (IZR x <= IZR m + B2R r + tiny)%R) /\ ((IZR x <= IZR m + B2R r)%R -> t = true).
Proof.
  intros Hx Hm. pose proof (tame_R m Hm) as Bm.
  assert (B : (Rabs (IZR m + B2R r) <= bpow radix2 21)%R).
  { rewrite bpow21. apply Rle_trans with (1 := Rabs_triang _ _). lra. }
  unfold tame in *.
  destruct (fadd_correct (f_of_Z m) r 21) as [E1 E2]; [lia|apply of_Z_fin53; lia|exact Fr| |].
  { rewrite of_Z_exact by lia. exact B. }
  rewrite of_Z_exact in E1 by lia.
  cbv zeta. rewrite fle_R; [|apply of_Z_fin53; lia|exact E2]. rewrite E1, of_Z_exact by lia.
  pose proof (rnd_near _ B) as N. split.
  - intros T. destruct (Rle_bool_spec (IZR x) (rnd (IZR m + B2R r))); [lra|discriminate].
  - intros T. apply Rle_bool_true. rewrite <- (rnd_IZR x) by lia. apply rnd_le. exact T.
Qed.
End AnyRadius.

Lemma min_tame (g : hit -> Z) f rest : Forall (fun h => tame (g h)) (f :: rest) ->
  tame (fold_left Z.min (map g rest) (g f)).
Proof.
  intros H. destruct (fold_min_spec (map g rest) (g f)) as (A & _ & _).
  rewrite Forall_forall in H. destruct A as [->|A]; [apply H; left; reflexivity|].
  apply in_map_iff in A. destruct A as (a & <- & Ia). apply H. right. exact Ia.
Qed.
Lemma max_tame (g : hit -> Z) f rest : Forall (fun h => tame (g h)) (f :: rest) ->
  tame (fold_left Z.max (map g rest) (g f)).
Proof.
  intros H. destruct (fold_max_spec (map g rest) (g f)) as (A & _ & _).
  rewrite Forall_forall in H. destruct A as [->|A]; [apply H; left; reflexivity|].
  apply in_map_iff in A. destruct A as (a & <- & Ia). apply H. right. exact Ia.
Qed.

Lemma tame_hits l : Forall tame_hit l ->
  Forall (fun h => tame (h_x h)) l /\ Forall (fun h => tame (h_y h)) l /\ Forall hit_ok l.
Proof.
  intros H. repeat split; (eapply Forall_impl; [|exact H]); intros h (A & B & C); assumption.
Qed.

Lemma fits_code_real cfg c h : is_finite (a_radius cfg) = true ->
  (Rabs (B2R (a_radius cfg)) <= bpow radix2 20)%R -> 0 <= a_range cfg < 2 ^ 64 ->
  tame_hit h -> live c -> Forall tame_hit (cl_hits c) ->
  (fits_code cfg c h -> fits_real tiny (B2R (a_radius cfg)) (a_range cfg) c h) /\
  (fits_real 0 (B2R (a_radius cfg)) (a_range cfg) c h -> fits_code cfg c h).
Proof.
  intros Fr Br Ht (Hx & Hy & Hh) L Hc. destruct (tame_hits _ Hc) as (Sx & Sy & Ho).
  unfold fits_code, fits_real. rewrite andb_true_iff.
  rewrite time_ok_iff by assumption.
  unfold slot_of, live in *. destruct (cl_hits c) as [|f rest] eqn:Ec; [congruence|].
  unfold box_ok, box_slot. cbn [c_xmin c_ymin c_xmax c_ymax]. rewrite !andb_true_iff.
  destruct (low_near _ Fr Br _ _ Hx (min_tame _ _ _ Sx)) as [A1 A2].
  destruct (low_near _ Fr Br _ _ Hy (min_tame _ _ _ Sy)) as [B1 B2].
  destruct (high_near _ Fr Br _ _ Hx (max_tame _ _ _ Sx)) as [C1 C2].
  destruct (high_near _ Fr Br _ _ Hy (max_tame _ _ _ Sy)) as [D1 D2].
  set (R := B2R (a_radius cfg)) in *.
  split.
  - intros (T & ((X1 & X2) & Y1) & Y2). split; [exact T|].
    apply A1 in X1. apply B1 in Y1. apply C1 in X2. apply D1 in Y2.
    split; [|split; [|split]].
    + apply (min_exists h_x f rest (fun v => (IZR v - R - tiny <= IZR (h_x h))%R)); [|exact X1].
      intros u v Huv. apply IZR_le in Huv. lra.
    + apply (max_exists h_x f rest (fun v => (IZR (h_x h) <= IZR v + R + tiny)%R)); [|exact X2].
      intros u v Huv. apply IZR_le in Huv. lra.
    + apply (min_exists h_y f rest (fun v => (IZR v - R - tiny <= IZR (h_y h))%R)); [|exact Y1].
      intros u v Huv. apply IZR_le in Huv. lra.
    + apply (max_exists h_y f rest (fun v => (IZR (h_y h) <= IZR v + R + tiny)%R)); [|exact Y2].
      intros u v Huv. apply IZR_le in Huv. lra.
  - intros (T & X1 & X2 & Y1 & Y2). split; [exact T|].
    apply (min_exists h_x f rest (fun v => (IZR v - R - 0 <= IZR (h_x h))%R)) in X1;
      [|intros u v Huv; apply IZR_le in Huv; lra].
    apply (max_exists h_x f rest (fun v => (IZR (h_x h) <= IZR v + R + 0)%R)) in X2;
      [|intros u v Huv; apply IZR_le in Huv; lra].
    apply (min_exists h_y f rest (fun v => (IZR v - R - 0 <= IZR (h_y h))%R)) in Y1;
      [|intros u v Huv; apply IZR_le in Huv; lra].
    apply (max_exists h_y f rest (fun v => (IZR (h_y h) <= IZR v + R + 0)%R)) in Y2;
      [|intros u v Huv; apply IZR_le in Huv; lra].
    repeat split; [apply A2|apply C2|apply B2|apply D2]; lra.
Qed.
