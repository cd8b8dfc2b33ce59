(** Proofs about the text of doubles. *)
From Coq Require Import Reals Ascii String Sorted Lia Lra ZifyBool Zify.
From Flocq Require Import Core.
From Verif Require Export S_Text.
From Verif Require Import F64Facts.
From Verif Require P_GdcMain.
Ltac Zify.zify_post_hook ::= Z.to_euclidean_division_equations.
Local Open Scope Z_scope.
Local Open Scope list_scope.

(** * Powers of ten *)

Definition w (k : Z) : R := powerRZ 10 k.
Lemma ten_nz : (10 <> 0)%R. Proof. lra. Qed.
Lemma w_pos k : (0 < w k)%R. Proof. apply powerRZ_lt. lra. Qed.
Lemma w_add a b : w (a + b) = (w a * w b)%R. Proof. apply powerRZ_add. exact ten_nz. Qed.
Lemma w_Z k : 0 <= k -> w k = IZR (10 ^ k).
Proof.
  intros H. unfold w. rewrite <- (Z2Nat.id k) at 1 by exact H. rewrite <- pow_powerRZ.
  rewrite <- (Z2Nat.id k) at 2 by exact H. rewrite <- pow_IZR. reflexivity.
Qed.
Lemma w_inv k : (w k * w (- k) = 1)%R.
Proof. rewrite <- w_add. replace (k + - k) with 0 by lia. reflexivity. Qed.
Lemma w_lt a b : a < b -> (w a < w b)%R.
Proof.
  intros H. replace b with (a + (b - a)) by lia. rewrite w_add. pose proof (w_pos a).
  rewrite (w_Z (b - a)) by lia. rewrite <- (Rmult_1_r (w a)) at 1. apply Rmult_lt_compat_l; [assumption|].
  apply IZR_lt. apply Z.pow_gt_1; lia.
Qed.
Lemma w_le a b : a <= b -> (w a <= w b)%R.
Proof. intros H. destruct (Z.eq_dec a b) as [->|]; [lra|]. left. apply w_lt. lia. Qed.

(** * Rounding to six digits *)

Lemma scaled_spec n d k : 0 < n -> 0 < d ->
  let '(a, b) := scaled n d k in 0 < a /\ 0 < b /\ (IZR a / IZR b = IZR n / IZR d * w (- k))%R.
Proof.
  intros N D. unfold scaled. destruct (Z.leb_spec 0 k) as [K|K].
  - assert (P : 0 < 10 ^ k) by (apply Z.pow_pos_nonneg; lia). split; [exact N|]. split; [nia|].
    rewrite mult_IZR, <- w_Z by exact K. pose proof (w_inv k) as I. pose proof (w_pos k).
    assert (E : (w (- k) = / w k)%R) by (apply Rmult_eq_reg_l with (w k); [rewrite I; field; lra|lra]).
    rewrite E. field. split; [lra|]. apply not_0_IZR. lia.
  - assert (P : 0 < 10 ^ (- k)) by (apply Z.pow_pos_nonneg; lia). split; [nia|]. split; [exact D|].
    rewrite mult_IZR, <- w_Z by lia. field. apply not_0_IZR. lia.
Qed.

Lemma to_nearest_spec n d : 0 < n -> 0 < d -> let c := to_nearest (n, d) in
  2 * Z.abs (c * d - n) <= d /\ (2 * Z.abs (c * d - n) = d -> Z.even c = true).
Proof.
  intros N D. cbv zeta. unfold to_nearest. pose proof (Z.div_mod n d ltac:(lia)) as E.
  pose proof (Z.mod_pos_bound n d D) as B. set (q := n / d) in *. set (r := n mod d) in *. clearbody q r.
  destruct (Z.compare_spec (2 * r) d) as [C|C|C].
  - destruct (Z.even q) eqn:V.
    + replace (q * d - n) with (- r) by lia. split; [lia|]. intros _. exact V.
    + replace ((q + 1) * d - n) with (d - r) by lia. split; [lia|]. intros _. rewrite Z.add_1_r, Z.even_succ.
      rewrite <- Z.negb_even, V. reflexivity.
  - replace (q * d - n) with (- r) by lia. split; lia.
  - replace ((q + 1) * d - n) with (d - r) by lia. split; lia.
Qed.
Lemma nearest_R n d : 0 < n -> 0 < d -> let c := to_nearest (n, d) in
  (Rabs (IZR n / IZR d - IZR c) <= / 2)%R /\ ((Rabs (IZR n / IZR d - IZR c) = / 2)%R -> Z.even c = true).
Proof.
  intros N D. cbv zeta. destruct (to_nearest_spec n d N D) as [A B]. set (c := to_nearest (n, d)) in *. clearbody c.
  assert (P : (0 < IZR d)%R) by (apply IZR_lt; exact D).
  assert (E : (Rabs (IZR n / IZR d - IZR c) = IZR (Z.abs (c * d - n)) / IZR d)%R).
  { rewrite abs_IZR, minus_IZR, mult_IZR. rewrite Rabs_minus_sym.
    replace (IZR c * IZR d - IZR n)%R with ((IZR c - IZR n / IZR d) * IZR d)%R by (field; lra).
    rewrite Rabs_mult, (Rabs_pos_eq (IZR d)) by lra. field. lra. }
  rewrite E. split.
  - apply Rmult_le_reg_r with (IZR d); [exact P|]. unfold Rdiv. rewrite Rmult_assoc, Rinv_l, Rmult_1_r by lra.
    apply IZR_le in A. rewrite mult_IZR in A. lra.
  - intros H. apply B. apply eq_IZR. rewrite mult_IZR. apply Rmult_eq_compat_r with (r := IZR d) in H.
    unfold Rdiv in H. rewrite Rmult_assoc, Rinv_l, Rmult_1_r in H by lra. lra.
Qed.

Lemma exponent_from_spec n d : 0 < n -> 0 < d -> forall fuel k,
  (IZR n / IZR d < w (k + 1))%R -> (w (k - Z.of_nat fuel + 1) <= IZR n / IZR d)%R ->
  (w (exponent_from fuel k n d) <= IZR n / IZR d < w (exponent_from fuel k n d + 1))%R /\
  k - Z.of_nat fuel <= exponent_from fuel k n d <= k.
Proof.
  intros N D. induction fuel as [|f IH]; intros k U L.
  - exfalso. replace (k - Z.of_nat 0 + 1) with (k + 1) in L by lia. exact (Rle_not_lt _ _ L U).
  - cbn [exponent_from]. pose proof (scaled_spec n d k N D) as S. destruct (scaled n d k) as [a b].
    destruct S as (A & B & E). assert (PB : (0 < IZR b)%R) by (apply IZR_lt; exact B).
    pose proof (w_pos k) as P. pose proof (w_inv k) as I.
    assert (X : (IZR n / IZR d = IZR a / IZR b * w k)%R) by (rewrite E, Rmult_assoc, (Rmult_comm (w (- k))), I; ring).
    destruct (Z.leb_spec b a) as [C|C].
    + apply IZR_le in C. assert (Q : (1 <= IZR a / IZR b)%R).
      { apply Rmult_le_reg_r with (IZR b); [exact PB|]. unfold Rdiv. rewrite Rmult_assoc, Rinv_l by lra. lra. }
      split; [|lia]. split; [rewrite X; nra|exact U].
    + apply IZR_lt in C. assert (Q : (IZR a / IZR b < 1)%R).
      { apply Rmult_lt_reg_r with (IZR b); [exact PB|]. unfold Rdiv. rewrite Rmult_assoc, Rinv_l by lra. lra. }
      destruct (IH (k - 1)) as [R1 R2].
      * replace (k - 1 + 1) with k by lia. rewrite X. nra.
      * replace (k - 1 - Z.of_nat f + 1) with (k - Z.of_nat (S f) + 1) by lia. exact L.
      * split; [exact R1|lia].
Qed.

(** What the six digits are: [c * 10^(x-5)]. *)
Lemma six_digits_spec n d : 0 < n -> 0 < d -> (w (-324) <= IZR n / IZR d < w 309)%R ->
  let '(c, x) := six_digits n d in
  10 ^ 5 <= c < 10 ^ 6 /\ -400 <= x <= 400 /\
  (Rabs (IZR n / IZR d - IZR c * w (x - 5)) <= 5 / 10 ^ 6 * (IZR n / IZR d))%R /\
  (forall m k, Z.abs m < 10 ^ 6 -> (Rabs (IZR n / IZR d - IZR c * w (x - 5)) <= Rabs (IZR n / IZR d - IZR m * w k))%R) /\
  (forall e k, 10 ^ 5 <= e < 10 ^ 6 -> (IZR n / IZR d = (IZR e + / 2) * w k)%R ->
     (IZR c * w (x - 5) = IZR (if Z.even e then e else e + 1) * w k)%R).
Proof.
  intros N D [L U]. unfold six_digits.
  assert (SE : (w (exponent n d) <= IZR n / IZR d < w (exponent n d + 1))%R /\ -331 <= exponent n d <= 309).
  { unfold exponent. destruct (exponent_from_spec n d N D 640 309) as [A B].
    - eapply Rlt_trans; [exact U|]. apply w_lt. lia.
    - eapply Rle_trans; [|exact L]. apply w_le. vm_compute. discriminate.
    - split; [exact A|]. replace (Z.of_nat 640) with 640 in B by (vm_compute; reflexivity). lia. }
  set (x0 := exponent n d) in *. clearbody x0. destruct SE as [[L0 U0] B0]. clear L U.
  pose proof (scaled_spec n d (x0 - 5) N D) as S. destruct (scaled n d (x0 - 5)) as [a b]. destruct S as (A & B & E).
  destruct (nearest_R a b A B) as [R1 R2]. set (c0 := to_nearest (a, b)) in *. clearbody c0. rewrite E in R1, R2.
  set (y := (IZR n / IZR d * w (- (x0 - 5)))%R) in *.
  set (X := (IZR n / IZR d)%R) in *. set (u := w (x0 - 5)). assert (Pu : (0 < u)%R) by apply w_pos.
  assert (Ex : (X = y * u)%R).
  { unfold y, u. rewrite Rmult_assoc, (Rmult_comm (w (- (x0 - 5)))), w_inv. ring. }
  assert (W0 : (w x0 = 10 ^ 5 * u)%R).
  { unfold u. replace x0 with (5 + (x0 - 5)) at 1 by lia. rewrite w_add. f_equal. }
  assert (W1 : (w (x0 + 1) = 10 ^ 6 * u)%R).
  { unfold u. replace (x0 + 1) with (6 + (x0 - 5)) at 1 by lia. rewrite w_add. f_equal. }
  clearbody y u X. clear E A B a b. rewrite W0, Ex in L0. rewrite W1, Ex in U0.
  assert (Ly : (10 ^ 5 <= y)%R) by nra. assert (Uy : (y < 10 ^ 6)%R) by nra.
  assert (C0 : 10 ^ 5 <= c0 <= 10 ^ 6).
  { apply Rabs_le_inv in R1. split.
    - assert (IZR (10 ^ 5) - 1 < IZR c0)%R by (change (IZR (10 ^ 5)) with 100000%R; lra).
      rewrite <- minus_IZR in H. apply lt_IZR in H. lia.
    - assert (IZR c0 < IZR (10 ^ 6) + 1)%R by (change (IZR (10 ^ 6)) with 1000000%R; lra).
      rewrite <- plus_IZR in H. apply lt_IZR in H. lia. }
  assert (Min : forall j : Z, (Rabs (y - IZR c0) <= Rabs (y - IZR j))%R).
  { intros j. destruct (Z.eq_dec j c0) as [->|Hj]; [lra|].
    assert (1 <= Rabs (IZR c0 - IZR j))%R.
    { rewrite <- minus_IZR, <- abs_IZR. apply IZR_le. lia. }
    replace (IZR c0 - IZR j)%R with ((y - IZR j) - (y - IZR c0))%R in H by ring.
    pose proof (Rabs_triang (y - IZR j) (- (y - IZR c0))). rewrite Rabs_Ropp in H0. unfold Rminus in *. lra. }
  assert (Dist : forall v, Rabs (X - v * u) = (Rabs (y - v) * u)%R).
  { intros v. rewrite Ex. replace (y * u - v * u)%R with ((y - v) * u)%R by ring. rewrite Rabs_mult, (Rabs_pos_eq u) by lra. reflexivity. }
  assert (Val : let '(c, x) := if c0 =? 10 ^ 6 then (10 ^ 5, x0 + 1) else (c0, x0) in
                (IZR c * w (x - 5) = IZR c0 * u)%R /\ 10 ^ 5 <= c < 10 ^ 6 /\ -400 <= x <= 400).
  { destruct (Z.eqb_spec c0 (10 ^ 6)) as [->|Hc].
    - split; [|lia]. replace (x0 + 1 - 5) with (1 + (x0 - 5)) by lia. rewrite w_add.
      assert (W5 : w (x0 - 5) = u).
      { replace (x0 - 5) with (- 5 + x0) by lia. rewrite w_add, W0. change (w (-5)) with (/ (10 * (10 * (10 * (10 * (10 * 1))))))%R. field. }
      rewrite W5. change (w 1) with (10 * 1)%R. change (IZR (10 ^ 5)) with 100000%R. change (IZR (10 ^ 6)) with 1000000%R. ring.
    - split; [|lia]. f_equal.
      replace (x0 - 5) with (- 5 + x0) by lia. rewrite w_add, W0. change (w (-5)) with (/ (10 * (10 * (10 * (10 * (10 * 1))))))%R. field. }
  assert (W5 : w (x0 - 5) = u).
  { replace (x0 - 5) with (- 5 + x0) by lia. rewrite w_add, W0. change (w (-5)) with (/ (10 * (10 * (10 * (10 * (10 * 1))))))%R. field. }
  destruct (if c0 =? 10 ^ 6 then (10 ^ 5, x0 + 1) else (c0, x0)) as [c x]. destruct Val as (V & Hc & Hx).
  rewrite V. split; [exact Hc|]. split; [exact Hx|]. split; [|split].
  - rewrite Dist, Ex. assert (Rabs (y - IZR c0) * u <= / 2 * u)%R by (apply Rmult_le_compat_r; lra). nra.
  - intros m k Hm. rewrite Dist. destruct (Z_le_gt_dec (x0 - 5) k) as [K|K].
    + replace (IZR m * w k)%R with (IZR (m * 10 ^ (k - (x0 - 5))) * u)%R.
      * rewrite Dist. apply Rmult_le_compat_r; [lra|]. apply Min.
      * rewrite mult_IZR, <- w_Z by lia. rewrite <- W5, Rmult_assoc, <- w_add. do 2 f_equal. lia.
    + assert (Q : (IZR m * w k <= 10 ^ 5 * u)%R).
      { assert (Wk : (w k <= w (x0 - 6))%R) by (apply w_le; lia). pose proof (w_pos k) as Pk.
        assert (W6 : (w (x0 - 6) = u / 10)%R).
        { replace (x0 - 6) with (- 1 + (x0 - 5)) by lia. rewrite w_add, W5. change (w (-1)) with (/ (10 * 1))%R. field. }
        assert (Mm : (IZR m <= 10 ^ 6)%R) by (replace (10 ^ 6)%R with (IZR (10 ^ 6)) by (change (IZR (10 ^ 6)) with 1000000%R; ring); apply IZR_le; lia).
        rewrite W6 in Wk. destruct (Rle_dec (IZR m) 0) as [Z0|Z0]; nra. }
      assert (Rabs (y - IZR c0) <= y - 10 ^ 5)%R.
      { eapply Rle_trans; [apply (Min (10 ^ 5))|]. change (IZR (10 ^ 5)) with 100000%R. rewrite Rabs_pos_eq; lra. }
      rewrite Ex. rewrite (Rabs_pos_eq (y * u - _)) by nra. nra.
  - intros e k He Hk. rewrite Ex in Hk.
    assert (Pk := w_pos k).
    assert (K : k = x0 - 5).
    { assert (IZR (10 ^ 5) <= IZR e)%R by (apply IZR_le; lia). assert (IZR e <= IZR (10 ^ 6 - 1))%R by (apply IZR_le; lia).
      change (IZR (10 ^ 5)) with 100000%R in H. change (IZR (10 ^ 6 - 1)) with 999999%R in H0.
      destruct (Z_lt_le_dec k (x0 - 5)) as [Q|Q].
      - exfalso. assert (Wk : (w k <= w (x0 - 6))%R) by (apply w_le; lia).
        assert (W6 : (w (x0 - 6) = u / 10)%R).
        { replace (x0 - 6) with (- 1 + (x0 - 5)) by lia. rewrite w_add, W5. change (w (-1)) with (/ (10 * 1))%R. field. }
        rewrite W6 in Wk. assert (100000 * u <= y * u)%R by nra. rewrite Hk in H1. nra.
      - destruct (Z.eq_dec k (x0 - 5)) as [->|Q']; [reflexivity|]. exfalso.
        assert (Wk : (w (x0 - 4) <= w k)%R) by (apply w_le; lia).
        assert (W4 : (w (x0 - 4) = 10 * u)%R).
        { replace (x0 - 4) with (1 + (x0 - 5)) by lia. rewrite w_add, W5. change (w 1) with (10 * 1)%R. ring. }
        rewrite W4 in Wk. assert (y * u < 1000000 * u)%R by nra. rewrite Hk in H1. nra. }
    subst k. rewrite W5 in Hk |- *. f_equal. f_equal. clear W5 Pk.
    assert (Y : (y = IZR e + / 2)%R) by (apply Rmult_eq_reg_r with u; lra).
    assert (Hh : c0 = e \/ c0 = e + 1).
    { apply Rabs_le_inv in R1. rewrite Y in R1. assert (IZR e - 1 < IZR c0)%R by lra. assert (IZR c0 < IZR e + 2)%R by lra.
      rewrite <- minus_IZR in H. rewrite <- plus_IZR in H0. apply lt_IZR in H, H0. lia. }
    assert (Ev : Z.even c0 = true).
    { apply R2. rewrite Y. destruct Hh as [->| ->].
      - replace (IZR e + / 2 - IZR e)%R with (/ 2)%R by ring. apply Rabs_pos_eq. lra.
      - rewrite plus_IZR. replace (IZR e + / 2 - (IZR e + 1))%R with (- / 2)%R by lra. rewrite Rabs_Ropp. apply Rabs_pos_eq. lra. }
    destruct Hh as [->| ->].
    + rewrite Ev. reflexivity.
    + rewrite Z.add_1_r, Z.even_succ, <- Z.negb_even in Ev. destruct (Z.even e); [discriminate Ev|reflexivity].
Qed.

(** * Digits *)

Definition dig (d : Z) : Prop := 0 <= d <= 9.
Fixpoint dval (v : Z) (l : list Z) : Z := match l with [] => v | d :: r => dval (10 * v + d) r end.
Definition up (l : list Z) : list Z := map (fun d => 48 + d) l.

Lemma dval_app v a b : dval v (a ++ b) = dval (dval v a) b.
Proof. revert v. induction a as [|d a IH]; intros v; [reflexivity|]. cbn. apply IH. Qed.
Lemma dval_zeros n v : dval v (repeat 0 n) = v * 10 ^ Z.of_nat n.
Proof.
  revert v. induction n as [|n IH]; intros v; [cbn; lia|]. cbn [repeat dval]. rewrite IH.
  rewrite Nat2Z.inj_succ, Z.pow_succ_r by lia. ring.
Qed.
Lemma digits_of_length n z : length (digits_of n z) = n.
Proof. revert z. induction n as [|n IH]; intros z; [reflexivity|]. cbn. rewrite app_length, IH. cbn. lia. Qed.
Lemma digits_of_dig n z : Forall dig (digits_of n z).
Proof.
  revert z. induction n as [|n IH]; intros z; [constructor|]. cbn [digits_of]. apply Forall_app. split; [apply IH|].
  constructor; [unfold dig; lia|constructor].
Qed.
Lemma digits_of_val n z v : 0 <= z < 10 ^ Z.of_nat n -> dval v (digits_of n z) = v * 10 ^ Z.of_nat n + z.
Proof.
  revert z. induction n as [|n IH]; intros z H.
  - cbn in *. lia.
  - cbn [digits_of]. rewrite dval_app. rewrite Nat2Z.inj_succ, Z.pow_succ_r in * by lia.
    rewrite IH by (split; [|apply Z.div_lt_upper_bound]; lia). cbn [dval]. pose proof (Z.div_mod z 10 ltac:(lia)). lia.
Qed.
Lemma digits_of_head n z : 10 ^ Z.of_nat n <= z < 10 ^ Z.of_nat (S n) -> exists d r, digits_of (S n) z = d :: r /\ d <> 0.
Proof.
  revert z. induction n as [|n IH]; intros z H.
  - cbn in H |- *. exists (z mod 10), []. split; [reflexivity|]. lia.
  - change (digits_of (S (S n)) z) with (digits_of (S n) (z / 10) ++ [z mod 10]).
    destruct (IH (z / 10)) as (d & r & E & Hd).
    + assert (E1 : 10 ^ Z.of_nat (S n) = 10 * 10 ^ Z.of_nat n) by (rewrite Nat2Z.inj_succ, Z.pow_succ_r by lia; reflexivity).
      assert (E2 : 10 ^ Z.of_nat (S (S n)) = 10 * 10 ^ Z.of_nat (S n)) by (rewrite (Nat2Z.inj_succ (S n)), Z.pow_succ_r by lia; reflexivity).
      rewrite E2, E1 in H. rewrite E1. set (p := 10 ^ Z.of_nat n) in *. clearbody p. clear -H. lia.
    + rewrite E. exists d, (r ++ [z mod 10]). split; [reflexivity|exact Hd].
Qed.

Lemma bytes_app a b : bytes (a ++ b) = bytes a ++ bytes b.
Proof. unfold bytes. induction a as [|c a IH]; [reflexivity|]. cbn. f_equal. exact IH. Qed.
Lemma bytes_digits l : Forall dig l -> bytes (digits l) = up l.
Proof.
  intros H. unfold bytes, digits. rewrite list_ascii_of_string_of_list_ascii, map_map. unfold up.
  apply map_ext_in. intros d I. rewrite Forall_forall in H. specialize (H d I). unfold dig in H. unfold digit_char.
  rewrite N_ascii_embedding by lia. lia.
Qed.
Lemma up_digit l : Forall dig l -> forallb is_digit (up l) = true.
Proof.
  intros H. apply forallb_forall. intros c I. apply in_map_iff in I. destruct I as (d & <- & I).
  rewrite Forall_forall in H. specialize (H d I). unfold dig in H. unfold is_digit. lia.
Qed.

Lemma strip_spec l : exists j, l = strip l ++ repeat 0 j /\ last (strip l) 1 <> 0.
Proof.
  induction l as [|d r (j & E & L)]; [exists 0%nat; split; [reflexivity|cbn; lia]|]. cbn [strip].
  destruct (strip r) as [|e s] eqn:Q.
  - destruct (Z.eqb_spec d 0) as [->|D].
    + exists (S j). split; [cbn; f_equal; exact E|exact L].
    + exists j. split; [cbn; f_equal; exact E|exact D].
  - exists j. split; [cbn; f_equal; exact E|]. cbn [last]. cbn in L. destruct s; exact L.
Qed.
Lemma strip_dig l : Forall dig l -> Forall dig (strip l).
Proof. intros H. destruct (strip_spec l) as (j & E & _). rewrite E in H. apply Forall_app in H. apply H. Qed.

(** * The reader *)

Definition stops (r : list Z) : Prop := match r with [] => True | c :: _ => is_digit c = false end.
Lemma number_up l v n r : Forall dig l -> stops r ->
  number v n (up l ++ r) = (dval v l, n + Z.of_nat (length l), r).
Proof.
  intros H S. revert v n. induction l as [|d l IH]; intros v n.
  - cbn [up map app dval length]. replace (n + Z.of_nat 0) with n by lia. destruct r as [|c r]; [reflexivity|]. cbn [number]. cbn in S. rewrite S. reflexivity.
  - inversion H as [|? ? D H']; subst. change (up (d :: l) ++ r) with ((48 + d) :: (up l ++ r)). cbn [number].
    replace (is_digit (48 + d)) with true by (unfold is_digit; unfold dig in D; lia).
    rewrite (IH H'). cbn [dval length]. replace (10 * v + (48 + d - 48)) with (10 * v + d) by lia. f_equal. f_equal. lia.
Qed.
Lemma natural_up l : Forall dig l -> l <> [] -> natural (up l) = Some (dval 0 l).
Proof.
  intros H N. unfold natural. rewrite <- (app_nil_r (up l)), number_up by (exact H || exact I).
  destruct l as [|d l]; [contradiction|]. cbn [length]. replace (0 <? 0 + Z.of_nat (S (length l))) with true by lia. reflexivity.
Qed.

(** A text with digits [a], the decimals [b] and the power of ten [t]. *)
Definition frac_bytes (b : list Z) : list Z := match strip b with [] => [] | b' => 46 :: up b' end.
Lemma bytes_fraction b : Forall dig b -> bytes (fraction b) = frac_bytes b.
Proof.
  intros H. unfold fraction, frac_bytes. pose proof (strip_dig b H) as S. destruct (strip b) as [|c s]; [reflexivity|].
  rewrite bytes_app, bytes_digits by exact S. reflexivity.
Qed.
Lemma unsigned_reads a b t p : Forall dig a -> a <> [] -> Forall dig b -> power t = Some p ->
  stops t -> match t with [] => True | c :: _ => c <> 46 end ->
  exists m k j, unsigned (up a ++ frac_bytes b ++ t) = Some (m, k) /\ 0 <= j /\
    dval 0 (a ++ b) = m * 10 ^ j /\ k = p - Z.of_nat (length b) + j.
Proof.
  intros Ha Na Hb Hp Ht Hq. destruct (strip_spec b) as (j & E & _). pose proof (strip_dig b Hb) as Hs.
  assert (N0 : (0 + Z.of_nat (length a) =? 0) = false) by (destruct a; [contradiction|cbn [length]; lia]).
  assert (EV : dval 0 (a ++ b) = dval 0 (a ++ strip b) * 10 ^ Z.of_nat j).
  { rewrite E at 1. rewrite app_assoc, dval_app, dval_zeros. reflexivity. }
  assert (EL : Z.of_nat (length b) = Z.of_nat (length (strip b)) + Z.of_nat j).
  { rewrite E at 1. rewrite app_length, repeat_length. lia. }
  unfold frac_bytes. destruct (strip b) as [|c s].
  - exists (dval 0 a), p, (Z.of_nat j). cbn [app]. unfold unsigned. rewrite number_up by assumption. rewrite N0.
    split; [|split; [lia|split; [rewrite EV, app_nil_r; reflexivity|cbn [length] in EL; lia]]].
    destruct t as [|c t]; [cbn in Hp; congruence|]. replace (c =? 46) with false by lia. rewrite Hp. reflexivity.
  - exists (dval 0 (a ++ c :: s)), (p - Z.of_nat (length (c :: s))), (Z.of_nat j).
    split; [|split; [lia|split; [exact EV|lia]]].
    unfold unsigned. rewrite number_up; [|exact Ha|reflexivity]. rewrite N0.
    change ((46 :: up (c :: s)) ++ t) with (46 :: (up (c :: s) ++ t)). cbn iota beta. rewrite Z.eqb_refl.
    rewrite number_up by assumption. replace (0 + Z.of_nat (length (c :: s)) =? 0) with false by (cbn [length]; lia).
    rewrite Hp, dval_app. reflexivity.
Qed.

(** * The text of a magnitude *)

Lemma exponent_reads x : -400 <= x <= 400 -> power (bytes (exponent_text x)) = Some x.
Proof.
  intros H. unfold exponent_text. rewrite !bytes_app.
  set (n := if Z.abs x <? 100 then 2%nat else 3%nat).
  assert (B : 0 <= Z.abs x < 10 ^ Z.of_nat n) by (unfold n; destruct (Z.ltb_spec (Z.abs x) 100); cbn; lia).
  assert (Nn : digits_of n (Z.abs x) <> []).
  { intros C. apply (f_equal (@length Z)) in C. rewrite digits_of_length in C. unfold n in C. destruct (Z.abs x <? 100); discriminate C. }
  rewrite bytes_digits by apply digits_of_dig.
  assert (V : natural (up (digits_of n (Z.abs x))) = Some (Z.abs x)).
  { rewrite natural_up; [|apply digits_of_dig|exact Nn]. rewrite digits_of_val by exact B. reflexivity. }
  destruct (Z.ltb_spec x 0) as [C|C]; unfold power; cbn [bytes list_ascii_of_string map app];
    change (Z.of_N (N_of_ascii "e")) with 101; change (Z.of_N (N_of_ascii "-")) with 45; change (Z.of_N (N_of_ascii "+")) with 43;
    cbn -[natural up]; rewrite V; f_equal; lia.
Qed.

Definition style (c x : Z) : list Z * list Z * list Z :=
  let ds := digits_of 6 c in
  if (-4 <=? x) && (x <? 6) then
    if x <? 0 then ([0], repeat 0 (Z.to_nat (- x - 1)) ++ ds, [])
    else (firstn (Z.to_nat (x + 1)) ds, skipn (Z.to_nat (x + 1)) ds, [])
  else (firstn 1 ds, skipn 1 ds, bytes (exponent_text x)).

Lemma Forall_firstn {A} (P : A -> Prop) n l : Forall P l -> Forall P (firstn n l).
Proof. intros H. rewrite <- (firstn_skipn n l) in H. apply Forall_app in H. apply H. Qed.
Lemma Forall_skipn {A} (P : A -> Prop) n l : Forall P l -> Forall P (skipn n l).
Proof. intros H. rewrite <- (firstn_skipn n l) in H. apply Forall_app in H. apply H. Qed.

Lemma style_spec c x : 10 ^ 5 <= c < 10 ^ 6 -> -400 <= x <= 400 -> let '(a, b, t) := style c x in
  bytes (magnitude_text (c, x)) = up a ++ frac_bytes b ++ t /\ Forall dig a /\ a <> [] /\ Forall dig b /\
  (exists p, power t = Some p /\ p - Z.of_nat (length b) = x - 5) /\ stops t /\
  match t with [] => True | e :: _ => e <> 46 end /\ dval 0 (a ++ b) = c.
Proof.
  intros Hc Hx. pose proof (digits_of_dig 6 c) as HD. pose proof (digits_of_length 6 c) as HL.
  pose proof (digits_of_val 6 c 0 ltac:(cbn; lia)) as HV.
  unfold style, magnitude_text. set (ds := digits_of 6 c) in *. clearbody ds.
  destruct ((-4 <=? x) && (x <? 6)) eqn:P.
  - destruct (Z.ltb_spec x 0) as [N|N].
    + assert (Hb : Forall dig (repeat 0 (Z.to_nat (- x - 1)) ++ ds)).
      { apply Forall_app. split; [|exact HD]. apply Forall_forall. intros d I. apply repeat_spec in I. subst d. unfold dig. lia. }
      split; [rewrite bytes_app, bytes_fraction by exact Hb; rewrite app_nil_r; reflexivity|].
      split; [constructor; [unfold dig; lia|constructor]|]. split; [discriminate|]. split; [exact Hb|].
      split; [exists 0; split; [reflexivity|]; rewrite app_length, repeat_length, HL; lia|].
      split; [exact I|]. split; [exact I|]. cbn [app dval]. rewrite dval_app, dval_zeros. rewrite HV || (replace (10 * 0 + 0) with 0 by lia; rewrite Z.mul_0_l, HV). lia.
    + split; [rewrite bytes_app, bytes_fraction, bytes_digits by (apply Forall_skipn || apply Forall_firstn; exact HD); rewrite app_nil_r; reflexivity|].
      split; [apply Forall_firstn; exact HD|].
      split; [intros C; apply (f_equal (@length Z)) in C; rewrite firstn_length, HL in C; cbn [length] in C; lia|].
      split; [apply Forall_skipn; exact HD|].
      split; [exists 0; split; [reflexivity|]; rewrite skipn_length, HL; lia|].
      split; [exact I|]. split; [exact I|]. rewrite firstn_skipn, HV. lia.
  - split; [rewrite !bytes_app, bytes_fraction, bytes_digits by (apply Forall_skipn || apply Forall_firstn; exact HD); reflexivity|].
    split; [apply Forall_firstn; exact HD|].
    split; [intros C; apply (f_equal (@length Z)) in C; rewrite firstn_length, HL in C; cbn [length] in C; lia|].
    split; [apply Forall_skipn; exact HD|].
    split; [exists x; split; [apply exponent_reads; exact Hx|]; rewrite skipn_length, HL; lia|].
    split; [reflexivity|]. split; [discriminate|]. rewrite firstn_skipn, HV. lia.
Qed.

Lemma magnitude_reads c x : 10 ^ 5 <= c < 10 ^ 6 -> -400 <= x <= 400 ->
  exists m k, unsigned (bytes (magnitude_text (c, x))) = Some (m, k) /\ 0 < m < 10 ^ 6 /\
    worth (m, k) = (IZR c * w (x - 5))%R.
Proof.
  intros Hc Hx. pose proof (style_spec c x Hc Hx) as S. destruct (style c x) as [[a b] t].
  destruct S as (E & Ha & Na & Hb & (p & Hp & Ep) & Ht & Hq & V).
  destruct (unsigned_reads a b t p Ha Na Hb Hp Ht Hq) as (m & k & j & R & Hj & D & K).
  rewrite E. exists m, k. split; [exact R|]. assert (P : 0 < 10 ^ j) by (apply Z.pow_pos_nonneg; lia).
  rewrite V in D. split; [nia|]. unfold worth. cbn [fst snd]. fold (w k). subst k.
  rewrite Ep, D, mult_IZR, <- w_Z by exact Hj. rewrite w_add. ring.
Qed.

(** * Doubles *)

Lemma double_bounds (v : f64) : is_finite_strict v = true -> (w (-324) <= Rabs (B2R v) < w 309)%R.
Proof.
  intros F. split.
  - eapply Rle_trans; [|apply (abs_B2R_ge_emin 53 1024 v F)].
    unfold SpecFloat.emin. change (3 - 1024 - 53) with (- (1074)). rewrite bpow_opp.
    rewrite <- IZR_Zpower by lia. change (w (-324)) with (powerRZ 10 (- (324))). rewrite powerRZ_neg'.
    fold (w 324). rewrite w_Z by lia. apply Rinv_le.
    + apply IZR_lt. vm_compute. reflexivity.
    + apply IZR_le. vm_compute. discriminate.
  - eapply Rlt_trans; [apply abs_B2R_lt_emax|]. rewrite <- IZR_Zpower by lia. rewrite w_Z by lia. apply IZR_lt. vm_compute. reflexivity.
Qed.

Lemma double_form (v : f64) : is_finite_strict v = true -> exists s n d, 0 < n /\ 0 < d /\
  show6 v = (sign_text s ++ magnitude_text (six_digits n d))%string /\
  B2R v = (if s then - (IZR n / IZR d) else IZR n / IZR d)%R /\ (w (-324) <= IZR n / IZR d < w 309)%R.
Proof.
  intros F. pose proof (double_bounds v F) as B. destruct v as [s|s| |s m e He]; try discriminate F. clear F.
  assert (G : exists n d, 0 < n /\ 0 < d /\
    (if 0 <=? e then six_digits (Z.pos m * 2 ^ e) 1 else six_digits (Z.pos m) (2 ^ (- e))) = six_digits n d /\
    (IZR (Z.pos m) * bpow radix2 e = IZR n / IZR d)%R).
  { destruct (Z.leb_spec 0 e) as [E|E].
    - exists (Z.pos m * 2 ^ e), 1. split; [pose proof (Z.pow_pos_nonneg 2 e); nia|]. split; [lia|]. split; [reflexivity|].
      rewrite mult_IZR. rewrite <- IZR_Zpower by exact E. cbn [radix_val radix2]. field.
    - exists (Z.pos m), (2 ^ (- e)). split; [lia|]. split; [apply Z.pow_pos_nonneg; lia|]. split; [reflexivity|].
      replace e with (- (- e)) at 1 by lia. rewrite bpow_opp, <- IZR_Zpower by lia. reflexivity. }
  destruct G as (n & d & N & D & E & X). exists s, n, d. split; [exact N|]. split; [exact D|].
  assert (P : (0 < IZR n / IZR d)%R) by (apply Rdiv_lt_0_compat; apply IZR_lt; assumption).
  assert (V : B2R (B754_finite s m e He : f64) = (if s then - (IZR n / IZR d) else IZR n / IZR d)%R).
  { unfold B2R, F2R. cbn [Fnum Fexp]. rewrite <- X. destruct s; cbn [cond_Zopp].
    - change (Z.neg m) with (- Z.pos m). rewrite opp_IZR. ring.
    - reflexivity. }
  split; [cbn [show6]; rewrite E; reflexivity|]. split; [exact V|]. rewrite V in B.
  destruct s; [rewrite Rabs_Ropp in B|]; rewrite Rabs_pos_eq in B by lra; exact B.
Qed.

Lemma unsigned_head l q : unsigned l = Some q -> exists c r, l = c :: r /\ is_digit c = true.
Proof.
  unfold unsigned. destruct l as [|c r]; [discriminate|]. cbn [number]. destruct (is_digit c) eqn:D.
  - intros _. exists c, r. split; [reflexivity|exact D].
  - discriminate.
Qed.
Lemma decimal_signed s l m k : unsigned l = Some (m, k) ->
  decimal (bytes (sign_text s) ++ l) = Some (if s then - m else m, k).
Proof.
  intros H. destruct s; cbn [sign_text bytes list_ascii_of_string map app].
  - change (Z.of_N (N_of_ascii "-")) with 45. cbn [decimal]. rewrite Z.eqb_refl, H. reflexivity.
  - destruct (unsigned_head l _ H) as (c & r & -> & D). unfold decimal. replace (c =? 45) with false by (unfold is_digit in D; lia).
    exact H.
Qed.

Definition known (x : R) (q : Z * Z) : Prop :=
  (Rabs (x - worth q) <= 5 / 10 ^ 6 * Rabs x)%R /\ nearest6 x q /\
  (forall e k (s : bool), 10 ^ 5 <= e < 10 ^ 6 -> x = ((if s then -1 else 1) * (IZR e + / 2) * powerRZ 10 k)%R ->
     worth q = ((if s then -1 else 1) * IZR (if Z.even e then e else e + 1) * powerRZ 10 k)%R).

Lemma worth_opp m k : worth (- m, k) = (- worth (m, k))%R.
Proof. unfold worth. cbn [fst snd]. rewrite opp_IZR. ring. Qed.
Lemma half_pos e k : 10 ^ 5 <= e -> (0 < (IZR e + / 2) * powerRZ 10 k)%R.
Proof.
  intros H. apply Rmult_lt_0_compat; [|apply w_pos]. assert (0 <= IZR e)%R by (apply IZR_le; lia). lra.
Qed.

Lemma show_known (v : f64) : is_finite v = true -> exists q, decimal (bytes (show6 v)) = Some q /\ known (B2R v) q.
Proof.
  intros F. destruct (is_finite_strict v) eqn:FS.
  - destruct (double_form v FS) as (s & n & d & N & D & E & X & B). clear F FS.
    pose proof (six_digits_spec n d N D B) as S. destruct (six_digits n d) as [c x]. destruct S as (Hc & Hx & Rel & Near & Tie).
    destruct (magnitude_reads c x Hc Hx) as (m & k & R & Hm & W).
    exists (if s then - m else m, k)%Z. rewrite E, bytes_app, (decimal_signed s _ m k R). split; [reflexivity|].
    rewrite <- W in Rel, Near, Tie. rewrite X. assert (P : (0 < IZR n / IZR d)%R) by (apply Rdiv_lt_0_compat; apply IZR_lt; assumption).
    clear E W R B X Hc Hx c x. set (y := (IZR n / IZR d)%R) in *. clearbody y.
    assert (A : Rabs y = y) by (apply Rabs_pos_eq; lra).
    destruct s.
    + assert (Sw : forall z, Rabs (- y - - z) = Rabs (y - z)).
      { intros z. replace (- y - - z)%R with (- (y - z))%R by ring. apply Rabs_Ropp. }
      unfold known. rewrite worth_opp, Sw, Rabs_Ropp, A. split; [exact Rel|]. split.
      * split; [cbn [fst]; lia|]. intros m' k' Hm'. rewrite worth_opp, Sw.
        replace (worth (m', k')) with (- worth ((- m')%Z, k'))%R by (rewrite worth_opp; ring). rewrite Sw. apply (Near (- m') k'). rewrite Z.abs_opp. exact Hm'.
      * intros e k' s He Hv. pose proof (half_pos e k' (proj1 He)) as Q. destruct s; [|exfalso; lra].
        rewrite (Tie e k' He); [unfold w; ring|]. unfold w. lra.
    + unfold known. rewrite A. split; [exact Rel|]. split.
      * split; [cbn [fst]; lia|]. intros m' k' Hm'. apply (Near m' k'). exact Hm'.
      * intros e k' s He Hv. pose proof (half_pos e k' (proj1 He)) as Q. destruct s; [exfalso; lra|].
        rewrite (Tie e k' He); [unfold w; ring|]. unfold w. lra.
  - destruct v as [s|s| |s m e He]; try discriminate. exists (0, 0).
    assert (Z0 : worth (0, 0) = 0%R) by (unfold worth; cbn [fst snd]; ring).
    split; [destruct s; reflexivity|]. unfold known, nearest6. cbn [B2R]. rewrite Z0, Rminus_0_r, Rabs_R0.
    split; [lra|]. split.
    + split; [cbn; lia|]. intros m k _. apply Rabs_pos.
    + intros e k s' He Hv. exfalso. pose proof (half_pos e k (proj1 He)) as Q. destruct s'; lra.
Qed.

(** * No separators *)

Definition clean (l : list Z) : Prop := Forall (fun c => c <> 10 /\ c <> 44) l.
Lemma clean_up l : Forall dig l -> clean (up l).
Proof.
  intros H. apply Forall_forall. intros c I. apply in_map_iff in I. destruct I as (d & <- & I).
  rewrite Forall_forall in H. specialize (H d I). unfold dig in H. lia.
Qed.
Lemma clean_app a b : clean a -> clean b -> clean (a ++ b).
Proof. intros A B. apply Forall_app. split; assumption. Qed.
Ltac lits := repeat (constructor; [vm_compute; split; discriminate|]); try constructor.
Lemma clean_frac b : Forall dig b -> clean (frac_bytes b).
Proof.
  intros H. unfold frac_bytes. pose proof (clean_up _ (strip_dig b H)) as S. destruct (strip b); [constructor|].
  constructor; [lia|exact S].
Qed.
Lemma clean_digits l : Forall dig l -> clean (bytes (digits l)).
Proof. intros H. rewrite bytes_digits by exact H. apply clean_up. exact H. Qed.
Lemma clean_magnitude c x : 10 ^ 5 <= c < 10 ^ 6 -> -400 <= x <= 400 -> clean (bytes (magnitude_text (c, x))).
Proof.
  intros Hc Hx. pose proof (style_spec c x Hc Hx) as S. unfold style in S.
  destruct ((-4 <=? x) && (x <? 6)); [destruct (x <? 0)|]; destruct S as (E & Ha & _ & Hb & _); rewrite E;
    (apply clean_app; [apply clean_up; exact Ha|]; apply clean_app; [apply clean_frac; exact Hb|]); [constructor|constructor|].
  unfold exponent_text. rewrite !bytes_app. apply clean_app; [lits|]. apply clean_app; [destruct (x <? 0); lits|].
  apply clean_digits. apply digits_of_dig.
Qed.
Lemma clean_show (v : f64) : clean (bytes (show6 v)).
Proof.
  destruct (is_finite_strict v) eqn:F.
  - destruct (double_form v F) as (s & n & d & N & D & E & _ & B).
    pose proof (six_digits_spec n d N D B) as S. rewrite E, bytes_app. destruct (six_digits n d) as [c x]. destruct S as (Hc & Hx & _).
    apply clean_app; [destruct s; lits|]. apply clean_magnitude; assumption.
  - destruct v as [s|s| |s m e He]; try discriminate F; try destruct s; lits.
Qed.
Lemma dec_codes z : bytes (dec z) = M_GdcMain.in_decimal z. Proof. reflexivity. Qed.
Lemma digits_value_dval l v : S_GdcMain.digits_value v (up l) = dval v l.
Proof.
  revert v. induction l as [|d l IH]; intros v; [reflexivity|]. cbn [up map S_GdcMain.digits_value dval].
  replace (10 * v + (48 + d - 48)) with (10 * v + d) by lia. apply IH.
Qed.

(** * Whole numbers *)

Lemma dec_spec z : 0 <= z -> exists l, bytes (dec z) = up l /\ Forall dig l /\ l <> [] /\ dval 0 l = z.
Proof.
  intros H. destruct (P_GdcMain.in_decimal_field z H) as (N & D & V). rewrite <- dec_codes in *.
  exists (map (fun c => c - 48) (bytes (dec z))).
  assert (U : bytes (dec z) = up (map (fun c => c - 48) (bytes (dec z)))).
  { unfold up. rewrite map_map. rewrite <- (map_id (bytes (dec z))) at 1. apply map_ext. intros c. lia. }
  split; [exact U|]. split.
  - apply Forall_forall. intros d I. apply in_map_iff in I. destruct I as (c & <- & I). rewrite Forall_forall in D.
    specialize (D c I). unfold dig. lia.
  - split; [intros C; apply map_eq_nil in C; contradiction|]. rewrite <- digits_value_dval, <- U. exact V.
Qed.
Lemma dec_natural z : 0 <= z -> natural (bytes (dec z)) = Some z.
Proof. intros H. destruct (dec_spec z H) as (l & -> & D & N & V). rewrite natural_up, V by assumption. reflexivity. Qed.
Lemma clean_dec z : 0 <= z -> clean (bytes (dec z)).
Proof. intros H. destruct (dec_spec z H) as (l & -> & D & _). apply clean_up. exact D. Qed.

(** * Lines *)

Lemma pieces_at sep l r : Forall (fun c => c <> sep) l -> pieces sep (l ++ sep :: r) = l :: pieces sep r.
Proof.
  intros H. induction l as [|c l IH]; cbn [app pieces].
  - rewrite Z.eqb_refl. reflexivity.
  - inversion H as [|? ? C H']; subst. rewrite (IH H'). replace (c =? sep) with false by lia. reflexivity.
Qed.
Lemma pieces_none sep l : Forall (fun c => c <> sep) l -> pieces sep l = [l].
Proof.
  intros H. induction l as [|c l IH]; cbn [pieces]; [reflexivity|].
  inversion H as [|? ? C H']; subst. rewrite (IH H'). replace (c =? sep) with false by lia. reflexivity.
Qed.
Lemma text_lines_of ls : Forall (Forall (fun c => c <> 10)) ls -> text_lines (flat_map (fun l => l ++ [10]) ls) = Some ls.
Proof.
  intros H. assert (P : pieces 10 (flat_map (fun l => l ++ [10]) ls) = ls ++ [[]]).
  { induction ls as [|l ls IH]; [reflexivity|]. inversion H as [|? ? L H']; subst. cbn [flat_map]. rewrite <- app_assoc.
    change ([10] ++ flat_map (fun l => l ++ [10]) ls) with (10 :: flat_map (fun l => l ++ [10]) ls).
    rewrite pieces_at by exact L. rewrite (IH H'). reflexivity. }
  unfold text_lines. rewrite P, rev_app_distr. cbn [rev app]. rewrite rev_involutive. reflexivity.
Qed.
Lemma clean_10 l : clean l -> Forall (fun c => c <> 10) l.
Proof. intros H. eapply Forall_impl; [|exact H]. intros c [A _]. exact A. Qed.
Lemma clean_44 l : clean l -> Forall (fun c => c <> 44) l.
Proof. intros H. eapply Forall_impl; [|exact H]. intros c [_ A]. exact A. Qed.
Lemma no10_app a b : Forall (fun c => c <> 10) a -> Forall (fun c => c <> 10) b -> Forall (fun c => c <> 10) (a ++ b).
Proof. intros A B. apply Forall_app. split; assumption. Qed.
Lemma bytes_joined {A} (f : A -> string) (g : A -> list Z) l : (forall a, In a l -> bytes (f a) = g a ++ [10]) ->
  bytes (joined (map f l)) = flat_map (fun p => p ++ [10]) (map g l).
Proof.
  intros H. induction l as [|a l IH]; [reflexivity|]. cbn [map joined fold_right flat_map].
  change (fold_right String.append "" (map f l))%string with (joined (map f l)). rewrite bytes_app, IH by (intros; apply H; right; assumption).
  rewrite (H a (or_introl eq_refl)). reflexivity.
Qed.
Lemma bytes_cons (c : ascii) s : bytes (String c s) = Z.of_N (N_of_ascii c) :: bytes s. Proof. reflexivity. Qed.

Definition row_bytes (r : f64 * Z) : list Z := bytes (show6 (fst r)) ++ 44 :: bytes (dec (snd r)).
Lemma spectrum_lines rows : Forall (fun r => 0 <= snd r) rows ->
  text_lines (bytes (spectrum_text rows)) = Some (bytes "shutter_time,counts" :: map row_bytes rows).
Proof.
  intros H. unfold spectrum_text. rewrite bytes_app.
  rewrite (bytes_joined spectrum_line row_bytes).
  - change (bytes spectrum_header) with (bytes "shutter_time,counts" ++ [10]).
    change ((bytes "shutter_time,counts" ++ [10]) ++ flat_map (fun p => p ++ [10]) (map row_bytes rows)) with
      (flat_map (fun p => p ++ [10]) (bytes "shutter_time,counts" :: map row_bytes rows)).
    apply text_lines_of. constructor; [vm_compute; repeat (constructor; [discriminate|]); constructor|].
    apply Forall_forall. intros l I. apply in_map_iff in I. destruct I as (r & <- & I). rewrite Forall_forall in H.
    unfold row_bytes. apply no10_app; [apply clean_10, clean_show|]. constructor; [discriminate|]. apply clean_10, clean_dec, (H r I).
  - intros r _. unfold spectrum_line, row_bytes. rewrite !bytes_app. rewrite <- !app_assoc. reflexivity.
Qed.
Lemma row_columns r : 0 <= snd r -> columns (row_bytes r) = [bytes (show6 (fst r)); bytes (dec (snd r))].
Proof.
  intros H. unfold columns, row_bytes. rewrite pieces_at by apply clean_44, clean_show.
  rewrite pieces_none by (apply clean_44, clean_dec, H). reflexivity.
Qed.

Lemma show_tells v : is_finite v = true -> tells (B2R v) (bytes (show6 v)).
Proof. intros H. destruct (show_known v H) as (q & E & _ & N & _). exists q. split; assumption. Qed.

Lemma C89_file rows : Forall (fun r => is_finite (fst r) = true /\ 0 <= snd r) rows ->
  spectrum_file rows (bytes (spectrum_text rows)).
Proof.
  intros H. exists (bytes "shutter_time,counts"), (map row_bytes rows).
  split; [apply spectrum_lines; eapply Forall_impl; [|exact H]; intros r [_ A]; exact A|]. split; [reflexivity|].
  induction H as [|r rows [F P] H IH]; [constructor|]. cbn [map]. constructor; [|exact IH].
  exists (bytes (show6 (fst r))), (bytes (dec (snd r))). split; [apply row_columns; exact P|].
  split; [apply show_tells; exact F|apply dec_natural; exact P].
Qed.

Lemma spectral_count_range im : 0 <= spectral_count im.
Proof.
  unfold spectral_count. assert (G : forall l s, 0 <= s -> 0 <= fold_left (fun s row => u64 (s + sum_u64 row)) l s).
  { induction l as [|r l IH]; intros s Hs; [exact Hs|]. cbn [fold_left]. apply IH. unfold u64. apply Z.mod_pos_bound. reflexivity. }
  apply G. lia.
Qed.
Lemma spectral_rows_in edges : forall counts rows, spectral_rows edges counts = Ok rows ->
  forall r, In r rows -> In (fst r) edges /\ In (snd r) counts.
Proof.
  induction edges as [|e edges IH]; intros counts rows H r I; cbn [spectral_rows] in H.
  - injection H as <-. contradiction.
  - destruct counts as [|c counts]; [discriminate|]. destruct (spectral_rows edges counts) as [rs| | |] eqn:E; try discriminate.
    cbn in H. injection H as <-. destruct I as [<-|I]; [split; left; reflexivity|].
    destruct (IH _ _ E r I). split; right; assumption.
Qed.
Lemma C89_spectrum_l edges ims rows : write_spectral edges (spectral_counts ims) = Ok rows ->
  Forall (fun e => is_finite e = true) edges -> spectrum_file rows (bytes (spectrum_text rows)).
Proof.
  intros H F. apply C89_file. apply Forall_forall. intros r I. destruct edges as [|e edges]; [discriminate|].
  cbn [write_spectral] in H. inversion F as [|? ? _ F']; subst. rewrite Forall_forall in F'.
  destruct (spectral_rows_in _ _ _ H r I) as [A B]. split; [apply F'; exact A|].
  apply in_map_iff in B. destruct B as (im & E & _). pose proof (spectral_count_range im) as Q. rewrite E in Q. exact Q.
Qed.

(** * The events *)

Definition event_bytes (n : neutron) : list Z :=
  bytes (show6 (n_x n)) ++ 44 :: bytes (show6 (n_y n)) ++ 44 :: bytes (show6 (n_tof_ns n)) ++ 44 ::
  bytes (dec (n_hits n)) ++ 44 :: bytes (show6 (n_tot n)).
Lemma event_columns n : 0 <= n_hits n -> columns (event_bytes n) =
  [bytes (show6 (n_x n)); bytes (show6 (n_y n)); bytes (show6 (n_tof_ns n)); bytes (dec (n_hits n)); bytes (show6 (n_tot n))].
Proof.
  intros H. unfold columns, event_bytes. rewrite !pieces_at by (apply clean_44; (apply clean_show || apply clean_dec, H)).
  rewrite pieces_none by apply clean_44, clean_show. reflexivity.
Qed.
Lemma event_no10 n : 0 <= n_hits n -> Forall (fun c => c <> 10) (event_bytes n).
Proof.
  intros H. unfold event_bytes.
  repeat (apply no10_app; [apply clean_10; (apply clean_show || apply clean_dec, H)|constructor; [discriminate|]]).
  apply clean_10, clean_show.
Qed.
Lemma C89_events_l evs :
  Forall (fun n => is_finite (n_x n) = true /\ is_finite (n_y n) = true /\ is_finite (n_tof_ns n) = true /\
                   is_finite (n_tot n) = true /\ 0 <= n_hits n) evs ->
  events_file evs (bytes (events_text evs)).
Proof.
  intros H. exists (bytes "X,Y,TOF (ns),Nhits, TOT"), (map event_bytes evs). split; [|split; [reflexivity|]].
  - unfold events_text. rewrite bytes_app. rewrite (bytes_joined (csv_line show6) event_bytes).
    + change (bytes csv_header) with (bytes "X,Y,TOF (ns),Nhits, TOT" ++ [10]).
      change ((bytes "X,Y,TOF (ns),Nhits, TOT" ++ [10]) ++ flat_map (fun p => p ++ [10]) (map event_bytes evs)) with
        (flat_map (fun p => p ++ [10]) (bytes "X,Y,TOF (ns),Nhits, TOT" :: map event_bytes evs)).
      apply text_lines_of. constructor; [vm_compute; repeat (constructor; [discriminate|]); constructor|].
      apply Forall_forall. intros l I. apply in_map_iff in I. destruct I as (n & <- & I). rewrite Forall_forall in H.
      apply event_no10. apply (H n I).
    + intros n _. unfold csv_line, event_bytes. rewrite !bytes_app. repeat (rewrite <- !app_assoc || rewrite <- !app_comm_cons || cbn [app]). reflexivity.
  - induction H as [|n evs (Fx & Fy & Ft & Fs & P) H IH]; [constructor|]. cbn [map]. constructor; [|exact IH].
    exists (bytes (show6 (n_x n))), (bytes (show6 (n_y n))), (bytes (show6 (n_tof_ns n))), (bytes (dec (n_hits n))), (bytes (show6 (n_tot n))).
    split; [apply event_columns; exact P|]. split; [apply show_tells; exact Fx|]. split; [apply show_tells; exact Fy|].
    split; [apply show_tells; exact Ft|]. split; [apply dec_natural; exact P|apply show_tells; exact Fs].
Qed.

(** * Different numbers *)

Lemma known_lt a b qa qb : (0 <= a)%R -> (a < b * (1 - / 10 ^ 5))%R -> known a qa -> known b qb -> (worth qa < worth qb)%R.
Proof.
  intros A H (Ka & _) (Kb & _). apply Rabs_le_inv in Ka, Kb. rewrite Rabs_pos_eq in Ka by lra.
  assert (0 <= b)%R by nra. rewrite Rabs_pos_eq in Kb by lra. lra.
Qed.

Definition time_of (r : f64 * Z) : list Z := bytes (show6 (fst r)).
Lemma row_time r : 0 <= snd r -> read_time (row_bytes r) = decimal (bytes (show6 (fst r))).
Proof. intros H. unfold read_time. rewrite row_columns by exact H. reflexivity. Qed.

Lemma spectral_rows_nth edges : forall counts rows, spectral_rows edges counts = Ok rows -> map fst rows = edges.
Proof.
  induction edges as [|e edges IH]; intros counts rows H; cbn [spectral_rows] in H.
  - injection H as <-. reflexivity.
  - destruct counts as [|c counts]; [discriminate|]. destruct (spectral_rows edges counts) as [rs| | |] eqn:E; try discriminate.
    cbn in H. injection H as <-. cbn [map fst]. f_equal. apply (IH _ _ E).
Qed.

(** Times that are far enough apart are read as increasing times. *)
Definition apart (a b : f64) : Prop := (0 <= B2R a)%R /\ (B2R a < B2R b * (1 - / 10 ^ 5))%R.
Lemma times_sorted rows : Forall (fun r => is_finite (fst r) = true /\ 0 <= snd r) rows ->
  StronglySorted apart (map fst rows) ->
  exists times, map read_time (map row_bytes rows) = map Some times /\
    Forall2 (fun r q => known (B2R (fst r)) q) rows times /\
    StronglySorted (fun a b => (worth a < worth b)%R) times.
Proof.
  intros H. induction H as [|r rows [F P] H IH]; intros S.
  - exists []. split; [reflexivity|]. split; constructor.
  - cbn [map] in S. inversion S as [|? ? S' A]; subst. destruct (IH S') as (ts & E & K & T).
    destruct (show_known (fst r) F) as (q & Eq & Kq). exists (q :: ts). split; [|split].
    + cbn [map]. f_equal; [|exact E]. etransitivity; [apply row_time; exact P|exact Eq].
    + constructor; assumption.
    + constructor; [exact T|]. clear -K A Kq. induction K as [|r' q' rows ts K1 K IH]; [constructor|].
      cbn [map] in A. inversion A as [|? ? [A1 A2] A']; subst. constructor; [|apply IH; exact A'].
      exact (known_lt _ _ _ _ A1 A2 Kq K1).
Qed.

(** * The layout *)

Lemma last_up l : last l 1 <> 0 -> last (up l) 49 <> 48.
Proof.
  induction l as [|d l IH]; intros H; [discriminate|]. destruct l as [|e l]; [cbn in H |- *; lia|].
  apply IH. exact H.
Qed.
Lemma frac_shape b : Forall dig b -> exists b', frac_bytes b = match b' with [] => [] | _ => 46 :: b' end /\
  forallb is_digit b' = true /\ last b' 49 <> 48.
Proof.
  intros H. exists (up (strip b)). destruct (strip_spec b) as (j & _ & L). pose proof (strip_dig b H) as D.
  split; [unfold frac_bytes; destruct (strip b); reflexivity|]. split; [apply up_digit; exact D|apply last_up; exact L].
Qed.
Lemma worth_exponent c x : 10 ^ 5 <= c < 10 ^ 6 -> (w x <= IZR c * w (x - 5) < w (x + 1))%R.
Proof.
  intros [L U]. pose proof (w_pos (x - 5)) as P.
  replace (w x) with (100000 * w (x - 5))%R.
  - replace (w (x + 1)) with (1000000 * w (x - 5))%R.
    + assert (100000 <= IZR c)%R by (change 100000%R with (IZR (10 ^ 5)); apply IZR_le; exact L).
      assert (IZR c < 1000000)%R by (change 1000000%R with (IZR (10 ^ 6)); apply IZR_lt; exact U). split; nra.
    + change 1000000%R with (IZR (10 ^ 6)). rewrite <- w_Z by lia. rewrite <- w_add. f_equal. lia.
  - change 100000%R with (IZR (10 ^ 5)). rewrite <- w_Z by lia. rewrite <- w_add. f_equal. lia.
Qed.
Lemma up_app a b : up (a ++ b) = up a ++ up b. Proof. apply map_app. Qed.

Lemma magnitude_layout c x : 10 ^ 5 <= c < 10 ^ 6 -> -400 <= x <= 400 ->
  if (-4 <=? x) && (x <? 6) then plain_layout (bytes (magnitude_text (c, x)))
  else power_layout (bytes (magnitude_text (c, x))).
Proof.
  intros Hc Hx. pose proof (style_spec c x Hc Hx) as S. unfold style in S.
  destruct (digits_of_head 5 c ltac:(cbn; lia)) as (h & r & HD & Hh).
  pose proof (digits_of_dig 6 c) as DD. pose proof (digits_of_length 6 c) as LL. rewrite HD in DD, LL, S.
  destruct ((-4 <=? x) && (x <? 6)) eqn:P.
  - destruct (x <? 0) eqn:N; destruct S as (E & Ha & _ & Hb & _); rewrite E, app_nil_r;
      destruct (frac_shape _ Hb) as (b' & Eb & Db & Lb); rewrite Eb.
    + exists [48], b'. split; [reflexivity|]. split; [cbn [app forallb]; rewrite Db; reflexivity|]. split; [left; reflexivity|exact Lb].
    + eexists (up _), b'. split; [reflexivity|]. split; [rewrite forallb_app, Db, up_digit by exact Ha; reflexivity|].
      split; [|exact Lb]. right. replace (Z.to_nat (x + 1)) with (S (Z.to_nat x)) by lia. cbn [firstn up map].
      eexists _, _. split; [reflexivity|]. lia.
  - destruct S as (E & Ha & _ & Hb & _). rewrite E. cbn [firstn skipn] in *. destruct (frac_shape _ Hb) as (b' & Eb & Db & Lb). rewrite Eb.
    unfold exponent_text. rewrite !bytes_app, bytes_digits by apply digits_of_dig.
    set (n := if Z.abs x <? 100 then 2%nat else 3%nat) in *.
    exists (48 + h), b', (if x <? 0 then 45 else 43), (up (digits_of n (Z.abs x))).
    split; [destruct (x <? 0); reflexivity|]. split; [|split; [lia|split; [exact Lb|split; [destruct (x <? 0); [right|left]; reflexivity|]]]].
    + change (forallb is_digit ((48 + h) :: b' ++ up (digits_of n (Z.abs x)))) with
        (is_digit (48 + h) && forallb is_digit (b' ++ up (digits_of n (Z.abs x)))).
      rewrite forallb_app, Db, up_digit by apply digits_of_dig. inversion Ha as [|? ? D _]; subst. unfold dig in D. unfold is_digit. lia.
    + unfold up. rewrite map_length, digits_of_length. unfold n. destruct (Z.ltb_spec (Z.abs x) 100) as [Q|Q]; [left; reflexivity|right].
      split; [reflexivity|]. destruct (digits_of_head 2 (Z.abs x) ltac:(cbn; lia)) as (d & r' & E' & D'). rewrite E'.
      eexists _, _. split; [reflexivity|]. lia.
Qed.

Lemma show_layout (v : f64) : is_finite v = true -> laid_out (bytes (show6 v)).
Proof.
  intros F. destruct (is_finite_strict v) eqn:FS.
  - destruct (double_form v FS) as (s & n & d & N & D & E & X & B). clear F FS.
    pose proof (six_digits_spec n d N D B) as S. destruct (six_digits n d) as [c x]. destruct S as (Hc & Hx & _).
    destruct (magnitude_reads c x Hc Hx) as (m & k & R & Hm & W).
    exists (bytes (sign_text s)), (bytes (magnitude_text (c, x))), (m, k).
    rewrite E, bytes_app. split; [reflexivity|]. split; [destruct s; [right|left]; reflexivity|]. split; [exact R|].
    pose proof (magnitude_layout c x Hc Hx) as L. pose proof (worth_exponent c x Hc) as Wx. rewrite <- W in Wx.
    assert (T4 : (/ 10 ^ 4 = w (-4))%R) by (change (w (-4)) with (/ (10 * (10 * (10 * (10 * 1)))))%R; field).
    assert (T6 : (10 ^ 6 = w 6)%R) by (change (w 6) with (10 ^ 6)%R; reflexivity).
    rewrite T4, T6. pose proof (w_pos x).
    destruct ((-4 <=? x) && (x <? 6)) eqn:P.
    + split; [intros _; exact L|]. intros C. exfalso. apply C. right. split.
      * eapply Rle_trans; [|apply Wx]. apply w_le. lia.
      * eapply Rlt_le_trans; [apply Wx|]. apply w_le. lia.
    + split; [|intros _; exact L]. intros C. exfalso. destruct C as [C|[C1 C2]]; [lra|].
      destruct (Z_lt_le_dec x (-4)) as [Q|Q].
      * assert (w (x + 1) <= w (-4))%R by (apply w_le; lia). lra.
      * assert (w 6 <= w x)%R by (apply w_le; lia). lra.
  - destruct v as [s|s| |s m e He]; try discriminate. exists (bytes (sign_text s)), [48], (0, 0).
    split; [destruct s; reflexivity|]. split; [destruct s; [right|left]; reflexivity|]. split; [reflexivity|].
    assert (Z0 : worth (0, 0) = 0%R) by (unfold worth; cbn [fst snd]; ring). rewrite Z0. split.
    + intros _. exists [48], []. split; [reflexivity|]. split; [reflexivity|]. split; [left; reflexivity|discriminate].
    + intros C. exfalso. apply C. left. reflexivity.
Qed.
