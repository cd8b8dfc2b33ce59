(** Proofs about detected neutrons and true events (C91). *)
From Coq Require Import Reals Lra.
From Flocq Require Import Core.
From Verif Require Import P_Recover P_Gauss F64Facts.
From Verif Require Export S_Events S_Cli.
From Coq Require Import Lia ZifyBool Zify.
Local Open Scope Z_scope.
Ltac Zify.zify_post_hook ::= Z.to_euclidean_division_equations.

Lemma hsum_weighted g lo hi c : Forall (fun h => 0 < h_tot h /\ lo <= g h <= hi) c ->
  lo * hsum h_tot c <= hsum (fun h => g h * h_tot h) c <= hi * hsum h_tot c /\ 0 <= hsum h_tot c /\ zlen c <= hsum h_tot c.
Proof.
  induction 1 as [|h c [Hw Hg] F IH]; [unfold hsum, zlen; cbn [fold_right length]; lia|].
  unfold zlen in *. cbn [length]. rewrite Nat2Z.inj_succ.
  cbn [hsum fold_right]. fold (hsum h_tot c). fold (hsum (fun h => g h * h_tot h) c). nia.
Qed.
Lemma hsum_plain g lo hi c : Forall (fun h => lo <= g h <= hi) c ->
  lo * zlen c <= hsum g c <= hi * zlen c.
Proof.
  induction 1 as [|h c Hg F IH]; [unfold hsum, zlen; cbn [fold_right length]; lia|].
  unfold zlen in *. cbn [length]. rewrite Nat2Z.inj_succ. cbn [hsum fold_right]. fold (hsum g c). nia.
Qed.

Lemma mean_in lo hi s n : 0 < n -> lo * n <= s <= hi * n -> (IZR lo <= IZR s / IZR n <= IZR hi)%R.
Proof.
  intros Hn [H1 H2]. apply IZR_le in H1. apply IZR_le in H2. rewrite mult_IZR in H1, H2.
  assert (N : (0 < IZR n)%R) by (apply IZR_lt; exact Hn).
  split; apply Rmult_le_reg_r with (IZR n); try exact N; unfold Rdiv; rewrite Rmult_assoc, Rinv_l by lra; lra.
Qed.

Lemma near_place v q X a : close v q -> (IZR (X - a) <= q <= IZR (X + a))%R -> (0 <= q <= 515)%R ->
  is_finite v = true /\ (Rabs (B2R v - IZR X) <= IZR a + bpow radix2 (-41))%R /\ on_sensor (B2R v).
Proof.
  intros [F C] [L U] [Q1 Q2]. split; [exact F|]. rewrite (Rabs_pos_eq q) in C by exact Q1.
  rewrite minus_IZR in L. rewrite plus_IZR in U.
  assert (B : (bpow radix2 (-51) * q <= bpow radix2 (-41))%R).
  { replace (-41)%Z with (-51 + 10)%Z by lia. rewrite bpow_plus.
    apply Rmult_le_compat_l; [apply bpow_ge_0|]. change (bpow radix2 10) with 1024%R. lra. }
  assert (B' : (bpow radix2 (-51) * q <= 1 * q)%R).
  { apply Rmult_le_compat_r; [exact Q1|]. change 1%R with (bpow radix2 0). apply bpow_le. lia. }
  apply Rabs_le_inv in C. unfold on_sensor. split; [apply Rabs_le|]; lra.
Qed.

Lemma rounded_between v x lo hi : rounded v x -> (IZR lo <= x <= IZR hi)%R -> Z.abs lo <= 2 ^ 53 -> Z.abs hi <= 2 ^ 53 ->
  (IZR lo <= B2R v <= IZR hi)%R.
Proof.
  intros [_ E] [L U] Al Ah. rewrite E, <- rnd_FLT. pose proof (rnd_le _ _ L) as L'. pose proof (rnd_le _ _ U) as U'.
  rewrite (rnd_IZR lo Al) in L'. rewrite (rnd_IZR hi Ah) in U'. split; assumption.
Qed.

Lemma tells_l a w ev c e : 0 <= a -> c <> [] -> zlen c <= 2 ^ 21 ->
  Forall (fun h => sensor_hit h /\ 0 < h_tot h /\ stems a w (e_at ev) h /\ h_tof h = Some (h_spider h - e_pulse ev)) c ->
  n_hits e = zlen c -> centroid_fit true (f_of_Z 1) c = Ok e -> tells a w ev c e.
Proof.
  intros Ha Nc Lc F Nh E.
  assert (Fs : Forall sensor_hit c) by (eapply Forall_impl; [|exact F]; intros h Hh; apply Hh).
  destruct (C26_l c Nc Fs Lc) as (e' & E' & _ & Ft & Et & Rt & X & _).
  rewrite E in E'. apply Ok_inj in E'. subst e'.
  assert (Zc : 0 < zlen c).
  { destruct c; [contradiction|]. unfold zlen. cbn [length]. rewrite Nat2Z.inj_succ. lia. }
  destruct ev as [[X0 Y0 t0] P]. unfold stems in F. cbn [e_at e_pulse at_x at_y at_t] in *.
  destruct (hsum_weighted h_x (X0 - a) (X0 + a) c) as (Hx & W0 & W1).
  { eapply Forall_impl; [|exact F]. cbn. intros h Hh. lia. }
  destruct (hsum_weighted h_y (Y0 - a) (Y0 + a) c) as (Hy & _).
  { eapply Forall_impl; [|exact F]. cbn. intros h Hh. lia. }
  destruct (hsum_weighted h_x 0 515 c) as (Hx' & _).
  { eapply Forall_impl; [|exact F]. cbn. intros h Hh. destruct Hh as ((S1 & S2 & _) & S3 & _). lia. }
  destruct (hsum_weighted h_y 0 515 c) as (Hy' & _).
  { eapply Forall_impl; [|exact F]. cbn. intros h Hh. destruct Hh as ((S1 & S2 & _) & S3 & _). lia. }
  destruct (X ltac:(lia)) as (Cx & Cy & _).
  destruct (near_place _ _ X0 a Cx) as (Fx & Bx & Nx); [apply mean_in; lia|apply mean_in; lia|].
  destruct (near_place _ _ Y0 a Cy) as (Fy & By & Ny); [apply mean_in; lia|apply mean_in; lia|].
  (* time of flight *)
  set (lo := Z.max 0 ((t0 - 25 * P + 24) / 25)). set (hi := Z.min (2 ^ 32) ((t0 + w - 25 * P) / 25)).
  assert (T : lo * zlen c <= hsum tof_value c <= hi * zlen c).
  { apply hsum_plain. eapply Forall_impl; [|exact F]. cbn. intros h Hh.
    destruct Hh as ((_ & _ & _ & t & E1 & E2) & _ & (_ & _ & E3) & E4). unfold tof_value, arrival in *.
    rewrite E4 in *. injection E1 as E1. unfold lo, hi. clear - E1 E2 E3. lia. }
  assert (LH : 0 <= lo <= hi /\ hi <= 2 ^ 32).
  { assert (lo * zlen c <= hi * zlen c) by lia. apply Z.mul_le_mono_pos_r in H; [|exact Zc]. unfold lo, hi in *. lia. }
  pose proof (mean_in lo hi _ _ Zc T) as M.
  pose proof (rounded_between _ _ lo hi Rt M ltac:(lia) ltac:(lia)) as M2.
  assert (Big : forall z, Z.abs z <= 2 ^ 53 -> (Rabs (IZR z) <= bpow radix2 1000)%R).
  { intros z Hz. apply IZR_abs_bpow; [lia|]. pose proof pow_53_1000. lia. }
  destruct (C45_event_l e (proj1 Rt)) as [Rn Rm].
  { apply Rabs_le. destruct M2 as [M3 M4]. pose proof (Big hi ltac:(lia)) as B. apply Rabs_le_inv in B.
    assert (IZR 0 <= IZR lo)%R by (apply IZR_le; lia). lra. }
  { exact Ft. }
  { rewrite Et. apply Big. 
    assert (hsum h_tot c <= 1023 * zlen c).
    { pose proof (hsum_plain h_tot 0 1023 c) as Q. assert (0 * zlen c <= hsum h_tot c <= 1023 * zlen c); [|lia].
      apply Q. eapply Forall_impl; [|exact F]. cbn. intros h Hh. destruct Hh as ((_ & _ & S3 & _) & _). lia. }
    lia. }
  assert (M5 : (IZR (25 * lo) <= B2R (n_tof_ns e) <= IZR (25 * hi))%R).
  { apply (rounded_between _ _ _ _ Rn); [|lia|lia]. rewrite !mult_IZR. lra. }
  assert (L1 : (IZR (Z.max 0 (t0 - 25 * P)) <= IZR (25 * lo))%R) by (apply IZR_le; unfold lo; lia).
  assert (L2 : (IZR (25 * hi) <= IZR (t0 + w - 25 * P))%R) by (apply IZR_le; unfold hi; lia).
  unfold tells. cbn [e_at e_pulse at_x at_y at_t].
  split; [exact Fx|]. split; [exact Fy|]. split; [exact (proj1 Rn)|]. split; [exact (proj1 Rm)|].
  split; [exact Bx|]. split; [exact By|]. split; [exact Nx|]. split; [exact Ny|]. split; [lra|]. split; [exact Nh|].
  destruct Rm as [_ Em]. rewrite Em, Et, <- mult_IZR, <- rnd_FLT. apply rnd_IZR.
  assert (0 * zlen c <= hsum h_tot c <= 1023 * zlen c); [|lia].
  apply hsum_plain. eapply Forall_impl; [|exact F]. cbn. intros h Hh. destruct Hh as ((_ & _ & S3 & _) & _). lia.
Qed.

Lemma zlen_members l ls : forall hs, zlen (members l ls hs) <= zlen hs.
Proof.
  unfold zlen, members. induction ls as [|x ls IH]; intros [|h hs]; cbn [combine filter map length]; try lia.
  specialize (IH hs). cbn [fst]. destruct (Nat.eqb x l); cbn [map length]; lia.
Qed.

Lemma C91_one_l ext cfg a w r x : Forall (fun h => hit_ok h /\ sensor_hit h) (x_hits x) -> zlen (x_hits x) <= 2 ^ 21 ->
  radius_is (a_radius cfg) (r * 2 ^ 20) -> a_range cfg < 2 ^ 64 -> a_min cfg <= 1 ->
  0 <= a -> 2 * a <= r -> 0 <= w <= a_range cfg -> exposed 8 a w r (a_range cfg) x ->
  exists ns, neutrons_of ext cfg (x_hits x) ns /\ accounted a w x ns /\
    forall ns', neutrons_of ext cfg (x_hits x) ns' -> ns' = ns.
Proof.
  destruct x as [evs hs own]. unfold exposed, accounted. cbn [x_events x_hits x_own].
  intros F L R T M Ha Hr Hw (I & K & O).
  assert (Fk : Forall hit_ok hs) by (eapply Forall_impl; [|exact F]; intros h Hh; apply Hh).
  assert (Len : length own = length hs) by (apply (iso_length _ _ _ _ _ _ _ _ I)).
  assert (Q : forall h, In h hs -> exists i l, nth_error own i = Some l /\ nth_error hs i = Some h).
  { intros h Hh. apply In_nth_error in Hh. destruct Hh as (i & Hi).
    assert (Hl : (i < length own)%nat) by (rewrite Len; apply nth_error_Some; congruence).
    apply nth_error_Some in Hl. destruct (nth_error own i) as [l|] eqn:El; [|contradiction]. eauto. }
  assert (Fp : Forall (fun h => sensor_hit h /\ 0 < h_tot h) hs).
  { apply Forall_forall. intros h Hh. split; [apply (proj1 (Forall_forall _ _) F h Hh)|].
    destruct (Q h Hh) as (i & l & E1 & E2). apply (O i l h E1 E2). }
  assert (Sp : separable 8 (fits_box (r * 2 ^ 20) (a_range cfg)) hs own).
  { exact (isolated_separable 8 a w r (a_range cfg) _ hs own Ha Hr Hw I). }
  destruct (C87_one_each_l 8 cfg (r * 2 ^ 20) ext abs_new hs own (length evs) (Nat.lt_0_succ 7) Fk Fp L R ltac:(lia) M Sp K)
    as (o' & ns & E1 & E2 & E3 & E4).
  exists ns. split; [exists o'; auto|]. split.
  - split; [exact E3|]. intros l e El. destruct (E4 l e El) as [N C].
    assert (In l own) by (apply K; rewrite <- E3; apply nth_error_Some; congruence).
    apply tells_l; try assumption.
    + pose proof (members_nonempty l own hs Len H) as Z1. intros Z2. rewrite Z2 in Z1. apply Z1; reflexivity.
    + pose proof (zlen_members l own hs). lia.
    + apply Forall_forall. intros h Hh. destruct (members_in l own hs h Hh) as (i & Ei & Eh).
      assert (Hin : In h hs) by (eapply nth_error_In; exact Eh).
      destruct (O i l h Ei Eh) as [O1 O2].
      split; [apply (proj1 (Forall_forall _ _) F h Hin)|]. split; [exact O1|]. split; [|exact O2].
      exact (iso_stems _ _ _ _ _ _ _ _ I i l h Ei Eh).
  - intros ns' (o2 & G1 & G2). rewrite E1 in G1. apply Ok_inj in G1. subst o2. rewrite E2 in G2. apply Ok_inj in G2. congruence.
Qed.
