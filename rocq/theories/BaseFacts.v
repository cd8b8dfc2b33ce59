(** Facts about bytes, bit fields and machine integers. *)
From Coq Require Export Lia ZifyBool ZifyNat.
From Verif Require Export Base.

Ltac Zify.zify_post_hook ::= Z.div_mod_to_equations.

Global Arguments Z.mul : simpl never.
Global Arguments Z.add : simpl never.
Global Arguments Z.sub : simpl never.
Global Arguments Z.pow : simpl never.
Global Arguments Z.land : simpl never.
Global Arguments Z.lor : simpl never.
Global Arguments Z.shiftl : simpl never.
Global Arguments Z.shiftr : simpl never.
Global Arguments Z.div : simpl never.
Global Arguments Z.modulo : simpl never.
Global Arguments Z.of_nat : simpl never.
Global Arguments Z.to_nat : simpl never.

(** ** Shifts and masks as arithmetic *)

Lemma shiftr_div (x n : Z) : 0 <= n -> Z.shiftr x n = x / 2 ^ n.
Proof. intros Hn. apply Z.shiftr_div_pow2; exact Hn. Qed.

Lemma shiftl_mul (x n : Z) : 0 <= n -> Z.shiftl x n = x * 2 ^ n.
Proof. intros Hn. apply Z.shiftl_mul_pow2; exact Hn. Qed.

(** Mask of the low [n] bits. *)
Lemma land_low (x k n : Z) : 0 <= n -> k = 2 ^ n - 1 -> Z.land x k = x mod 2 ^ n.
Proof.
  intros Hn Hk. rewrite <- Z.land_ones by exact Hn.
  f_equal. rewrite Z.ones_equiv, Hk. lia.
Qed.

(** Mask of [k] bits starting at bit [n]. *)
Lemma land_mid (x c n k : Z) : 0 <= n -> 0 <= k -> c = (2 ^ k - 1) * 2 ^ n ->
  Z.land x c = ((x / 2 ^ n) mod 2 ^ k) * 2 ^ n.
Proof.
  intros Hn Hk Hc.
  rewrite <- shiftl_mul by exact Hn.
  rewrite <- Z.land_ones by exact Hk.
  rewrite <- shiftr_div by exact Hn.
  rewrite Z.shiftl_land.
  rewrite Hc, <- shiftl_mul by exact Hn.
  replace (2 ^ k - 1) with (Z.ones k) by (rewrite Z.ones_equiv; lia).
  apply Z.bits_inj'; intros i Hi.
  rewrite !Z.land_spec, !Z.shiftl_spec by exact Hi.
  destruct (Z.ltb_spec i n) as [Hlt|Hge].
  - rewrite (Z.testbit_neg_r (Z.ones k)) by lia. rewrite !andb_false_r. reflexivity.
  - rewrite Z.shiftr_spec by lia. replace (i - n + n) with i by lia. reflexivity.
Qed.

(** Disjoint [lor] is addition. *)
Lemma lor_add (a b n : Z) : 0 <= n -> 0 <= b < 2 ^ n ->
  Z.lor (a * 2 ^ n) b = a * 2 ^ n + b.
Proof.
  intros Hn Hb.
  rewrite Z.add_nocarry_lxor.
  - apply Z.bits_inj'; intros i Hi.
    rewrite Z.lor_spec, Z.lxor_spec.
    destruct (Z.ltb_spec i n) as [Hlt|Hge].
    + rewrite <- shiftl_mul by exact Hn. rewrite Z.shiftl_spec_low by lia.
      destruct (Z.testbit b i); reflexivity.
    + assert (Hbi : Z.testbit b i = false).
      { destruct (Z.eq_dec b 0) as [Hb0|Hb0]; [subst b; apply Z.testbit_0_l|].
        apply Z.bits_above_log2; [lia|].
        apply Z.lt_le_trans with n; [|exact Hge].
        apply Z.log2_lt_pow2; lia. }
      rewrite Hbi. destruct (Z.testbit (a * 2 ^ n) i); reflexivity.
  - apply Z.bits_inj'; intros i Hi.
    rewrite Z.land_spec, Z.bits_0.
    destruct (Z.ltb_spec i n) as [Hlt|Hge].
    + rewrite <- shiftl_mul by exact Hn. rewrite Z.shiftl_spec_low by lia. reflexivity.
    + assert (Hbi : Z.testbit b i = false).
      { destruct (Z.eq_dec b 0) as [Hb0|Hb0]; [subst b; apply Z.testbit_0_l|].
        apply Z.bits_above_log2; [lia|].
        apply Z.lt_le_trans with n; [|exact Hge].
        apply Z.log2_lt_pow2; lia. }
      rewrite Hbi. apply andb_false_r.
Qed.

Lemma u16_id z : 0 <= z < 2 ^ 16 -> u16 z = z.
Proof. intros H. unfold u16. apply Z.mod_small. exact H. Qed.
Lemma u32_id z : 0 <= z < 2 ^ 32 -> u32 z = z.
Proof. intros H. unfold u32. apply Z.mod_small. exact H. Qed.
Lemma u64_id z : 0 <= z < 2 ^ 64 -> u64 z = z.
Proof. intros H. unfold u64. apply Z.mod_small. exact H. Qed.
Lemma u32_range z : 0 <= u32 z < 2 ^ 32.
Proof. unfold u32. apply Z.mod_pos_bound. reflexivity. Qed.
Lemma u64_range z : 0 <= u64 z < 2 ^ 64.
Proof. unfold u64. apply Z.mod_pos_bound. reflexivity. Qed.
Lemma u32_u64 z : u32 (u64 z) = u32 z.
Proof.
  unfold u32, u64. change (2 ^ 64) with (2 ^ 32 * 2 ^ 32).
  rewrite Z.rem_mul_r by lia.
  rewrite Z.mul_comm, Z_mod_plus_full. apply Z.mod_mod. lia.
Qed.

(** ** Signed characters *)

Lemma schar_range b : is_byte b -> -128 <= schar b <= 127.
Proof. unfold is_byte, schar. intros H. destruct (Z.ltb_spec b 128); lia. Qed.

Lemma schar_byte b : is_byte b -> Z.land 0xff (schar b) = b.
Proof.
  intros H. rewrite Z.land_comm, (land_low _ _ 8) by (reflexivity || lia).
  unfold is_byte, schar in *. change (2 ^ 8) with 256.
  destruct (Z.ltb_spec b 128) as [Hlt|Hge].
  - apply Z.mod_small; lia.
  - replace (b - 256) with (b + (-1) * 256) by lia.
    rewrite Z_mod_plus_full. apply Z.mod_small; lia.
Qed.

(** High nibble of a promoted [char]. *)
Lemma schar_nibble b : is_byte b -> Z.land (schar b) 0xF0 = 16 * (b / 16).
Proof.
  intros H. rewrite (land_mid _ _ 4 4) by (reflexivity || lia).
  unfold is_byte, schar in *. change (2 ^ 4) with 16.
  destruct (Z.ltb_spec b 128); lia.
Qed.

Lemma schar_eq b c : is_byte b -> 0 <= c < 128 -> (schar b =? c) = (b =? c).
Proof. unfold is_byte, schar. intros H Hc. destruct (Z.ltb_spec b 128); lia. Qed.

(** ** Words *)

Lemma le64_expand p : le64 p =
  b0 p + 2^8 * b1 p + 2^16 * b2 p + 2^24 * b3 p +
  2^32 * b4 p + 2^40 * b5 p + 2^48 * b6 p + 2^56 * b7 p.
Proof. unfold le64, le32. lia. Qed.

Lemma le64_range p : packet_ok p -> 0 <= le64 p < 2 ^ 64.
Proof.
  unfold packet_ok, is_byte. intros H. rewrite le64_expand. lia.
Qed.

(** ** Lists *)

Lemma zlen_nonneg {A} (l : list A) : 0 <= zlen l.
Proof. unfold zlen. lia. Qed.
Lemma zlen_app {A} (l r : list A) : zlen (l ++ r) = zlen l + zlen r.
Proof. unfold zlen. rewrite app_length. lia. Qed.
Lemma zlen_cons {A} (a : A) (l : list A) : zlen (a :: l) = 1 + zlen l.
Proof. unfold zlen. cbn [length]. lia. Qed.
Lemma zlen_nil {A} : zlen (@nil A) = 0.
Proof. reflexivity. Qed.
