(** Proofs about the time-of-flight bin edges. *)
From Coq Require Import Lia ZifyBool Reals Lra Sorted.
From Flocq Require Import Core Relative.
From Verif Require Export S_Config F64Facts P_AbsProps.
Local Open Scope Z_scope.

Definition ulp1 : R := bpow radix2 (-53).
Lemma ulp1_val : ulp1 = (/ 9007199254740992)%R.
Proof. reflexivity. Qed.

Lemma rnd_relative x : (bpow radix2 (-1000) <= Rabs x)%R -> (Rabs (rnd x - x) <= ulp1 * Rabs x)%R.
Proof.
  intros H. rewrite rnd_FLT.
  assert (E : (ulp1 = / 2 * bpow radix2 (- (53) + 1))%R).
  { unfold ulp1. change (-53)%Z with (-1 + (-53 + 1))%Z. rewrite bpow_plus. reflexivity. }
  rewrite E. apply relative_error_N_FLT; [reflexivity|]. eapply Rle_trans; [|exact H]. apply bpow_le. lia.
Qed.

Section Edges.
  Variables (max : f64) (n : Z).
  Hypothesis Hf : is_finite max = true.
  Hypothesis Hm : (bpow radix2 (-900) <= B2R max <= bpow radix2 900)%R.
  Hypothesis Hn : 1 <= n < 2 ^ 31.
  Local Notation M := (B2R max).

  Lemma M_pos : (0 < M)%R.
  Proof. eapply Rlt_le_trans; [|apply Hm]. apply bpow_gt_0. Qed.
  Lemma n_pos : (0 < IZR n)%R.
  Proof. apply IZR_lt. lia. Qed.
  Lemma n_bound : (IZR n <= bpow radix2 31)%R.
  Proof. change (bpow radix2 31) with (IZR (2 ^ 31)). apply IZR_le. lia. Qed.

  Lemma edge_bounds i : 0 <= i <= n ->
    is_finite (uniform_edge max n i) = true /\
    ((1 - ulp1) * (1 - ulp1) * (M * IZR i / IZR n) <= B2R (uniform_edge max n i)
       <= (1 + ulp1) * (1 + ulp1) * (M * IZR i / IZR n))%R.
  Proof.
    intros Hi. pose proof M_pos as Mp. pose proof n_pos as Np. pose proof n_bound as Nb.
    assert (Ei : B2R (f_of_Z i) = IZR i) by (apply of_Z_exact; lia).
    assert (En : B2R (f_of_Z n) = IZR n) by (apply of_Z_exact; lia).
    assert (I0 : (0 <= IZR i)%R) by (apply IZR_le; lia).
    assert (I1 : (IZR i <= IZR n)%R) by (apply IZR_le; lia).
    assert (Up : (M * IZR i <= bpow radix2 931)%R).
    { change 931%Z with (900 + 31)%Z. rewrite bpow_plus. apply Rmult_le_compat; lra. }
    destruct (fmul_correct max (f_of_Z i) 931) as [Ea Fa]; [lia|exact Hf|apply of_Z_fin53; lia| |].
    { rewrite Ei, Rabs_pos_eq; [exact Up|]. apply Rmult_le_pos; [lra|exact I0]. }
    rewrite Ei in Ea.
    assert (Ab : ((1 - ulp1) * (M * IZR i) <= rnd (M * IZR i) <= (1 + ulp1) * (M * IZR i))%R).
    { destruct (Z.eq_dec i 0) as [->|Ni].
      - rewrite Rmult_0_r. replace (rnd 0) with 0%R by (rewrite (rnd_IZR 0); [reflexivity|lia]). lra.
      - assert (I2 : (1 <= IZR i)%R) by (apply IZR_le; lia).
        pose proof (rnd_relative (M * IZR i)) as RR. rewrite Rabs_pos_eq in RR by nra.
        assert (L : (bpow radix2 (-1000) <= M * IZR i)%R).
        { apply Rle_trans with M; [|nra]. eapply Rle_trans; [|apply Hm]. apply bpow_le. lia. }
        specialize (RR L). apply Rabs_le_inv in RR. lra. }
    assert (U : (0 < ulp1 < / 1000)%R) by (rewrite ulp1_val; lra).
    assert (Dl : forall a, (0 <= a / IZR n <= a \/ a < 0)%R).
    { intros a. destruct (Rlt_le_dec a 0); [right; assumption|]. left.
      assert (1 <= IZR n)%R by (apply IZR_le; lia). split.
      - apply Rle_mult_inv_pos; assumption.
      - apply Rmult_le_reg_r with (IZR n); [assumption|]. unfold Rdiv. rewrite Rmult_assoc, Rinv_l by lra. nra. }
    destruct (fdiv_correct (fmul max (f_of_Z i)) (f_of_Z n) 932) as [Ed Fd]; [lia|exact Fa|rewrite En; lra| |].
    { rewrite Ea, En. destruct (Dl (rnd (M * IZR i))) as [D|D]; [|nra]. rewrite Rabs_pos_eq by lra.
      apply Rle_trans with (1 := proj2 D). apply Rle_trans with (1 := proj2 Ab).
      change 932%Z with (1 + 931)%Z. rewrite bpow_plus. apply Rmult_le_compat; [lra|nra| |exact Up].
      change (bpow radix2 1) with 2%R. lra. }
    split; [exact Fd|]. unfold uniform_edge. rewrite Ed, Ea, En. clear Ed Fd.
    assert (Q : ((1 - ulp1) * (M * IZR i / IZR n) <= rnd (M * IZR i) / IZR n <= (1 + ulp1) * (M * IZR i / IZR n))%R).
    { unfold Rdiv. split; rewrite <- Rmult_assoc; (apply Rmult_le_compat_r; [left; apply Rinv_0_lt_compat; exact Np|lra]). }
    destruct (Z.eq_dec i 0) as [->|Ni].
    - rewrite Rmult_0_r. replace (rnd 0) with 0%R by (rewrite (rnd_IZR 0); [reflexivity|lia]).
      unfold Rdiv. rewrite Rmult_0_l. replace (rnd 0) with 0%R by (rewrite (rnd_IZR 0); [reflexivity|lia]). lra.
    - assert (I2 : (1 <= IZR i)%R) by (apply IZR_le; lia).
      assert (X : (bpow radix2 (-950) <= M * IZR i / IZR n)%R).
      { apply Rmult_le_reg_r with (IZR n); [exact Np|]. unfold Rdiv. rewrite Rmult_assoc, Rinv_l, Rmult_1_r by lra.
        apply Rle_trans with (bpow radix2 (-950) * bpow radix2 31)%R.
        - apply Rmult_le_compat_l; [apply bpow_ge_0|exact Nb].
        - rewrite <- bpow_plus. apply Rle_trans with M; [|nra]. eapply Rle_trans; [|apply Hm]. apply bpow_le. lia. }
      pose proof (bpow_gt_0 radix2 (-950)) as Bp.
      pose proof (rnd_relative (rnd (M * IZR i) / IZR n)) as RR.
      assert (P : (0 < rnd (M * IZR i) / IZR n)%R) by nra.
      rewrite Rabs_pos_eq in RR by lra.
      assert (L : (bpow radix2 (-1000) <= rnd (M * IZR i) / IZR n)%R).
      { apply Rle_trans with (/ 2 * (M * IZR i / IZR n))%R; [|nra].
        apply Rle_trans with (/ 2 * bpow radix2 (-950))%R; [|lra].
        change (/ 2)%R with (bpow radix2 (-1)). rewrite <- bpow_plus. apply bpow_le. lia. }
      specialize (RR L). apply Rabs_le_inv in RR. nra.
  Qed.

  Lemma edge_lt i j : 0 <= i -> i < j -> j <= n -> (B2R (uniform_edge max n i) < B2R (uniform_edge max n j))%R.
  Proof.
    intros Hi Hij Hj. pose proof M_pos as Mp. pose proof n_pos as Np. pose proof n_bound as Nb.
    destruct (edge_bounds i ltac:(lia)) as (_ & _ & U). destruct (edge_bounds j ltac:(lia)) as (_ & L & _).
    eapply Rle_lt_trans; [exact U|]. eapply Rlt_le_trans; [|exact L].
    assert (Y : (0 < M / IZR n)%R) by (apply Rdiv_lt_0_compat; assumption).
    replace (M * IZR i / IZR n)%R with (IZR i * (M / IZR n))%R by (unfold Rdiv; ring).
    replace (M * IZR j / IZR n)%R with (IZR j * (M / IZR n))%R by (unfold Rdiv; ring).
    rewrite <- !Rmult_assoc. apply Rmult_lt_compat_r; [exact Y|].
    assert (J : (IZR i + 1 <= IZR j)%R) by (rewrite <- plus_IZR; apply IZR_le; lia).
    assert (I0 : (0 <= IZR i)%R) by (apply IZR_le; lia).
    assert (I1 : (IZR i <= 2147483648)%R) by (apply IZR_le; lia).
    rewrite ulp1_val. nra.
  Qed.

  Lemma edge_error i : 0 <= i <= n ->
    (Rabs (B2R (uniform_edge max n i) - M * IZR i / IZR n) <= / 2 ^ 51 * (M * IZR i / IZR n))%R.
  Proof.
    intros Hi. destruct (edge_bounds i Hi) as (_ & L & U). pose proof M_pos as Mp. pose proof n_pos as Np.
    assert (I0 : (0 <= IZR i)%R) by (apply IZR_le; lia).
    assert (X : (0 <= M * IZR i / IZR n)%R).
    { apply Rle_mult_inv_pos; [|exact Np]. apply Rmult_le_pos; lra. }
    replace (/ 2 ^ 51)%R with (/ 2251799813685248)%R by (f_equal; ring).
    rewrite ulp1_val in *. apply Rabs_le. nra.
  Qed.

  Definition edges_uniform := map (fun i => uniform_edge max n (Z.of_nat i)) (seq 0 (Z.to_nat (n + 1))).

  Lemma edges_nth i e : nth_error edges_uniform i = Some e -> Z.of_nat i <= n /\ e = uniform_edge max n (Z.of_nat i).
  Proof.
    unfold edges_uniform. intros H. rewrite nth_error_map in H.
    destruct (nth_error (seq 0 (Z.to_nat (n + 1))) i) as [k|] eqn:E; [|discriminate H]. injection H as <-.
    assert (L : (i < Z.to_nat (n + 1))%nat).
    { rewrite <- (seq_length (Z.to_nat (n + 1)) 0). apply nth_error_Some. congruence. }
    pose proof (nth_error_nth _ _ 0%nat E) as N. rewrite seq_nth in N by exact L. cbn in N. subst k. split; [lia|reflexivity].
  Qed.
  Lemma sorted_seq k a : Z.of_nat (a + k) <= n + 1 ->
    StronglySorted (fun x y => (B2R x < B2R y)%R) (map (fun i => uniform_edge max n (Z.of_nat i)) (seq a k)).
  Proof.
    revert a. induction k as [|k IH]; intros a H; cbn [seq map]; [constructor|]. constructor; [apply IH; lia|].
    apply Forall_forall. intros x I. apply in_map_iff in I. destruct I as (j & <- & I). apply in_seq in I.
    apply edge_lt; lia.
  Qed.
  Lemma uniform_ok : edges_ok edges_uniform /\ divides_evenly max n edges_uniform /\
    nth_error edges_uniform 0 = Some (uniform_edge max n 0) /\ B2R (uniform_edge max n 0) = 0%R.
  Proof.
    assert (Len : length edges_uniform = Z.to_nat (n + 1)) by (unfold edges_uniform; rewrite map_length, seq_length; reflexivity).
    split; [split; [rewrite Len; lia|split]|].
    - apply Forall_forall. intros x I. apply In_nth_error in I. destruct I as (i & E). apply edges_nth in E.
      destruct E as [H ->]. apply edge_bounds. lia.
    - apply sorted_seq. lia.
    - split; [split; [exact Len|]|split].
      + intros i e E. apply edges_nth in E. destruct E as [H ->]. split; [apply edge_bounds; lia|].
        rewrite INR_IZR_INZ. apply edge_error. lia.
      + unfold edges_uniform. replace (Z.to_nat (n + 1)) with (S (Z.to_nat n)) by lia. reflexivity.
      + destruct (edge_bounds 0 ltac:(lia)) as (_ & L & U).
        replace (M * 0 / IZR n)%R with 0%R in * by (unfold Rdiv; ring). lra.
  Qed.
End Edges.

Lemma C41_uniform_l n max : 1 <= n < 2 ^ 31 - 1 -> is_finite max = true ->
  (bpow radix2 (-900) <= B2R max <= bpow radix2 900)%R ->
  exists edges e0, get_bin_edges (Binning (Some n) (Some max) []) = Ok edges /\ edges_ok edges /\
    divides_evenly max n edges /\ nth_error edges 0 = Some e0 /\ B2R e0 = 0%R.
Proof.
  intros Hn Hf Hm. exists (edges_uniform max n), (uniform_edge max n 0). split.
  - unfold get_bin_edges. cbn [tb_custom tb_bins tb_max]. change int_max with (2 ^ 31 - 1).
    destruct (Z.eqb_spec n (2 ^ 31 - 1)); [lia|]. destruct (Z.ltb_spec (n + 1) 0); [lia|]. reflexivity.
  - apply uniform_ok; [exact Hf|exact Hm|lia].
Qed.
Lemma C41_custom_l b : tb_custom b <> [] -> get_bin_edges b = Ok (tb_custom b).
Proof. unfold get_bin_edges. destruct (tb_custom b); [congruence|reflexivity]. Qed.
Lemma C41_degenerate_l max : is_finite max = true ->
  (exists e, get_bin_edges (Binning (Some 0) (Some max) []) = Ok [e] /\ is_nan e = true) /\
  get_bin_edges (Binning (Some (-1)) (Some max) []) = Ok [] /\
  (forall n, - 2 ^ 31 <= n < -1 -> get_bin_edges (Binning (Some n) (Some max) []) = Throw LengthError) /\
  get_bin_edges (Binning (Some (2 ^ 31 - 1)) (Some max) []) = UB SignedOverflow.
Proof.
  intros Hf. split; [|split; [reflexivity|split; [|reflexivity]]].
  - exists (uniform_edge max 0 0). split; [reflexivity|]. unfold uniform_edge.
    change (f_of_Z 0) with (B754_zero false : f64). destruct max; try discriminate Hf; reflexivity.
  - intros n Hn. unfold get_bin_edges. cbn [tb_custom tb_bins tb_max]. change int_max with (2 ^ 31 - 1).
    destruct (Z.eqb_spec n (2 ^ 31 - 1)); [lia|]. destruct (Z.ltb_spec (n + 1) 0); [reflexivity|lia].
Qed.
