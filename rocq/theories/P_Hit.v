(** Proofs about the hit constructors. *)
From Coq Require Import Reals Lra.
From Flocq Require Import Core.
From Verif Require Export BaseFacts F64Facts M_Hit S_Hit.
Global Open Scope Z_scope.

(** ** Bit fields of a packet in terms of its 64-bit word *)

Lemma raw_spider_W p : packet_ok p -> raw_spider p = le64 p mod 2 ^ 16.
Proof.
  intros H. rewrite le64_expand. unfold packet_ok, is_byte in H.
  unfold raw_spider, le16.
  replace (b0 p + 2^8 * b1 p + 2^16 * b2 p + 2^24 * b3 p +
    2^32 * b4 p + 2^40 * b5 p + 2^48 * b6 p + 2^56 * b7 p) with
    (b0 p + 256 * b1 p + (b2 p + 2^8 * b3 p + 2^16 * b4 p + 2^24 * b5 p + 2^32 * b6 p + 2^40 * b7 p) * 2 ^ 16) by lia.
  rewrite Z_mod_plus_full. rewrite Z.mod_small; lia.
Qed.

Lemma div_split k a b : 0 < k -> 0 <= a < k -> (a + b * k) / k = b.
Proof. intros Hk Ha. rewrite Z_div_plus_full by lia. rewrite Z.div_small; lia. Qed.

Lemma raw_nTOT_W p : packet_ok p -> raw_nTOT p = (le64 p / 2 ^ 16) mod 2 ^ 16.
Proof.
  intros H. rewrite le64_expand. unfold packet_ok, is_byte in H.
  unfold raw_nTOT, le16.
  replace (b0 p + 2^8 * b1 p + 2^16 * b2 p + 2^24 * b3 p +
    2^32 * b4 p + 2^40 * b5 p + 2^48 * b6 p + 2^56 * b7 p) with
    (b0 p + 256 * b1 p + (b2 p + 2^8 * b3 p + (b4 p + 2^8 * b5 p + 2^16 * b6 p + 2^24 * b7 p) * 2 ^ 16) * 2 ^ 16) by lia.
  rewrite div_split by lia.
  rewrite Z_mod_plus_full. rewrite Z.mod_small; lia.
Qed.

Lemma raw_nTOA_W p : packet_ok p -> raw_nTOA p = (le64 p / 2 ^ 24) mod 2 ^ 32.
Proof.
  intros H. rewrite le64_expand. unfold packet_ok, is_byte in H.
  unfold raw_nTOA, le32.
  replace (b0 p + 2^8 * b1 p + 2^16 * b2 p + 2^24 * b3 p +
    2^32 * b4 p + 2^40 * b5 p + 2^48 * b6 p + 2^56 * b7 p) with
    (b0 p + 256 * b1 p + 2 ^ 16 * b2 p + (b3 p + 2^8 * b4 p + 2^16 * b5 p + 2^24 * b6 p + b7 p * 2 ^ 32) * 2 ^ 24) by lia.
  rewrite div_split by lia.
  rewrite Z_mod_plus_full. rewrite Z.mod_small; lia.
Qed.

Lemma raw_npix_W p : packet_ok p -> raw_npix p = le64 p / 2 ^ 32.
Proof.
  intros H. rewrite le64_expand. unfold packet_ok, is_byte in H.
  unfold raw_npix, le32.
  replace (b0 p + 2^8 * b1 p + 2^16 * b2 p + 2^24 * b3 p +
    2^32 * b4 p + 2^40 * b5 p + 2^48 * b6 p + 2^56 * b7 p) with
    (b0 p + 256 * b1 p + 2 ^ 16 * b2 p + 2 ^ 24 * b3 p + (b4 p + 2^8 * b5 p + 2^16 * b6 p + 2^24 * b7 p) * 2 ^ 32) by lia.
  rewrite div_split by lia. lia.
Qed.

Lemma mod_div_mod w a b c : 0 <= a -> 0 <= b -> 0 <= c -> c <= b -> 0 <= a ->
  ((w mod 2 ^ (a + b)) / 2 ^ a) mod 2 ^ c = (w / 2 ^ a) mod 2 ^ c.
Proof.
  intros Ha Hb Hc Hcb _.
  rewrite <- !Z.land_ones by lia. rewrite <- !Z.shiftr_div_pow2 by lia.
  apply Z.bits_inj'; intros i Hi. rewrite !Z.land_spec, !Z.shiftr_spec, Z.land_spec by lia.
  destruct (Z.ltb_spec i c) as [Hlt|Hge].
  - rewrite (Z.ones_spec_low (a + b)) by lia. rewrite andb_true_r. reflexivity.
  - rewrite (Z.ones_spec_high c) by lia. rewrite !andb_false_r. reflexivity.
Qed.

Lemma div_div_pow w a b : 0 <= a -> 0 <= b -> w / 2 ^ a / 2 ^ b = w / 2 ^ (a + b).
Proof.
  intros Ha Hb. rewrite Z.pow_add_r by lia. apply Z.div_div; [lia|].
  apply Z.pow_pos_nonneg; lia.
Qed.

Lemma get_ftoa_W p : packet_ok p -> get_ftoa p = (le64 p / 2 ^ 16) mod 2 ^ 4.
Proof.
  intros H. unfold get_ftoa. rewrite raw_nTOT_W by exact H.
  rewrite (land_low _ _ 4) by (reflexivity || lia).
  pose proof (mod_div_mod (le64 p / 2 ^ 16) 0 16 4) as E.
  change (2 ^ 0) with 1 in E. rewrite !Z.div_1_r in E. apply E; lia.
Qed.

Lemma get_tot_W p : packet_ok p -> get_tot p = (le64 p / 2 ^ 20) mod 2 ^ 10.
Proof.
  intros H. unfold get_tot. rewrite raw_nTOT_W by exact H.
  rewrite (land_low _ _ 10) by (reflexivity || lia). rewrite shiftr_div by lia.
  change 16 with (4 + 12) at 2. rewrite mod_div_mod by lia.
  rewrite div_div_pow by lia. reflexivity.
Qed.

Lemma get_toa_W p : packet_ok p -> get_toa p = (le64 p / 2 ^ 30) mod 2 ^ 14.
Proof.
  intros H. unfold get_toa. rewrite raw_nTOA_W by exact H.
  rewrite (land_low _ _ 14) by (reflexivity || lia). rewrite shiftr_div by lia.
  change 32 with (6 + 26). rewrite mod_div_mod by lia.
  rewrite div_div_pow by lia. reflexivity.
Qed.

Lemma pixaddr_W p : packet_ok p -> pixaddr p = (le64 p / 2 ^ 44) mod 2 ^ 16.
Proof.
  intros H. unfold pixaddr. rewrite raw_npix_W by exact H.
  rewrite (land_low _ _ 16) by (reflexivity || lia). rewrite shiftr_div by lia.
  rewrite div_div_pow by lia. apply u16_id. apply Z.mod_pos_bound. reflexivity.
Qed.

Lemma local_x_W a : 0 <= a < 2 ^ 16 -> local_x a = 2 * (a / 512) + (a mod 8) / 4.
Proof.
  intros H. unfold local_x, dcol, pix.
  rewrite (land_mid _ _ 9 7) by (reflexivity || lia).
  rewrite (land_low _ _ 3) by (reflexivity || lia).
  rewrite !shiftr_div by lia. change (2 ^ 9) with 512. change (2 ^ 7) with 128.
  change (2 ^ 8) with 256. change (2 ^ 3) with 8. change (2 ^ 2) with 4.
  rewrite (Z.mod_small (a / 512)) by lia. lia.
Qed.

Lemma local_y_W a : 0 <= a < 2 ^ 16 -> local_y a = 4 * ((a / 8) mod 64) + a mod 4.
Proof.
  intros H. unfold local_y, spix, pix.
  rewrite (land_mid a _ 3 6) by (reflexivity || lia).
  rewrite (land_low a 7 3) by (reflexivity || lia).
  rewrite (land_low _ 3 2) by (reflexivity || lia).
  rewrite !shiftr_div by lia. change (2 ^ 3) with 8. change (2 ^ 2) with 4.
  change (2 ^ 6) with 64. change (2 ^ 1) with 2. lia.
Qed.

Lemma local_x_range a : 0 <= a < 2 ^ 16 -> 0 <= local_x a < 256.
Proof. intros H. rewrite local_x_W by exact H. lia. Qed.
Lemma local_y_range a : 0 <= a < 2 ^ 16 -> 0 <= local_y a < 256.
Proof. intros H. rewrite local_y_W by exact H. lia. Qed.

Lemma address_decode x y : 0 <= x < 256 -> 0 <= y < 256 ->
  local_x (pixel_address x y) = x /\ local_y (pixel_address x y) = y /\
  0 <= pixel_address x y < 2 ^ 16.
Proof.
  intros Hx Hy. assert (Ha : 0 <= pixel_address x y < 2 ^ 16) by (unfold pixel_address; lia).
  rewrite local_x_W, local_y_W by exact Ha. unfold pixel_address in *. lia.
Qed.

Lemma address_encode a : 0 <= a < 2 ^ 16 -> pixel_address (local_x a) (local_y a) = a.
Proof. intros H. rewrite local_x_W, local_y_W by exact H. unfold pixel_address. lia. Qed.

(** ** Words and packets *)

Lemma word_packet_ok w : packet_ok (word_packet w).
Proof. unfold packet_ok, is_byte, word_packet; cbn [b0 b1 b2 b3 b4 b5 b6 b7]. lia. Qed.

Lemma le64_word w : 0 <= w < 2 ^ 64 -> le64 (word_packet w) = w.
Proof.
  intros H. rewrite le64_expand. unfold word_packet; cbn [b0 b1 b2 b3 b4 b5 b6 b7].
  change 256 with (2 ^ 8).
  pose proof (Z.div_mod w (2^8)) as E0.
  pose proof (Z.div_mod (w / 2^8) (2^8)) as E1.
  pose proof (Z.div_mod (w / 2^16) (2^8)) as E2.
  pose proof (Z.div_mod (w / 2^24) (2^8)) as E3.
  pose proof (Z.div_mod (w / 2^32) (2^8)) as E4.
  pose proof (Z.div_mod (w / 2^40) (2^8)) as E5.
  pose proof (Z.div_mod (w / 2^48) (2^8)) as E6.
  rewrite !div_div_pow in * by (clear; lia).
  assert (H56 : 0 <= w / 2 ^ 56 < 2 ^ 8).
  { clear - H. split; [apply Z.div_pos; lia|apply Z.div_lt_upper_bound; lia]. }
  rewrite (Z.mod_small (w / 2 ^ 56)) by exact H56.
  change (8 + 8) with 16 in *. change (16 + 8) with 24 in *. change (24 + 8) with 32 in *.
  change (32 + 8) with 40 in *. change (40 + 8) with 48 in *. change (48 + 8) with 56 in *.
  remember (w / 2^8) as q1. remember (w / 2^16) as q2. remember (w / 2^24) as q3.
  remember (w / 2^32) as q4. remember (w / 2^40) as q5. remember (w / 2^48) as q6.
  remember (w / 2^56) as q7.
  remember (w mod 2 ^ 8) as r0. remember (q1 mod 2 ^ 8) as r1. remember (q2 mod 2 ^ 8) as r2.
  remember (q3 mod 2 ^ 8) as r3. remember (q4 mod 2 ^ 8) as r4. remember (q5 mod 2 ^ 8) as r5.
  remember (q6 mod 2 ^ 8) as r6.
  clear - E0 E1 E2 E3 E4 E5 E6. lia.
Qed.

Lemma packet_eta p : p = Packet (b0 p) (b1 p) (b2 p) (b3 p) (b4 p) (b5 p) (b6 p) (b7 p).
Proof. destruct p; reflexivity. Qed.

Lemma word_le64 p : packet_ok p -> word_packet (le64 p) = p.
Proof.
  intros H. rewrite (packet_eta p) at 2. unfold word_packet.
  rewrite le64_expand. unfold packet_ok, is_byte in H.
  destruct p as [x0 x1 x2 x3 x4 x5 x6 x7]; cbn [b0 b1 b2 b3 b4 b5 b6 b7] in *.
  set (w := x0 + 2^8 * x1 + 2^16 * x2 + 2^24 * x3 + 2^32 * x4 + 2^40 * x5 + 2^48 * x6 + 2^56 * x7).
  assert (D1 : w / 2^8 = x1 + 2^8 * x2 + 2^16 * x3 + 2^24 * x4 + 2^32 * x5 + 2^40 * x6 + 2^48 * x7).
  { symmetry. apply Z.div_unique with x0; unfold w; lia. }
  assert (D2 : w / 2^16 = x2 + 2^8 * x3 + 2^16 * x4 + 2^24 * x5 + 2^32 * x6 + 2^40 * x7).
  { symmetry. apply Z.div_unique with (x0 + 2^8 * x1); unfold w; lia. }
  assert (D3 : w / 2^24 = x3 + 2^8 * x4 + 2^16 * x5 + 2^24 * x6 + 2^32 * x7).
  { symmetry. apply Z.div_unique with (x0 + 2^8 * x1 + 2^16 * x2); unfold w; lia. }
  assert (D4 : w / 2^32 = x4 + 2^8 * x5 + 2^16 * x6 + 2^24 * x7).
  { symmetry. apply Z.div_unique with (x0 + 2^8 * x1 + 2^16 * x2 + 2^24 * x3); unfold w; lia. }
  assert (D5 : w / 2^40 = x5 + 2^8 * x6 + 2^16 * x7).
  { symmetry. apply Z.div_unique with (x0 + 2^8 * x1 + 2^16 * x2 + 2^24 * x3 + 2^32 * x4); unfold w; lia. }
  assert (D6 : w / 2^48 = x6 + 2^8 * x7).
  { symmetry. apply Z.div_unique with (x0 + 2^8 * x1 + 2^16 * x2 + 2^24 * x3 + 2^32 * x4 + 2^40 * x5); unfold w; lia. }
  assert (D7 : w / 2^56 = x7).
  { symmetry. apply Z.div_unique with (x0 + 2^8 * x1 + 2^16 * x2 + 2^24 * x3 + 2^32 * x4 + 2^40 * x5 + 2^48 * x6); unfold w; lia. }
  rewrite D1, D2, D3, D4, D5, D6, D7. unfold w.
  f_equal; symmetry; [apply Z.mod_unique with (x1 + 2^8 * x2 + 2^16 * x3 + 2^24 * x4 + 2^32 * x5 + 2^40 * x6 + 2^48 * x7); lia
  |apply Z.mod_unique with (x2 + 2^8 * x3 + 2^16 * x4 + 2^24 * x5 + 2^32 * x6 + 2^40 * x7); lia
  |apply Z.mod_unique with (x3 + 2^8 * x4 + 2^16 * x5 + 2^24 * x6 + 2^32 * x7); lia
  |apply Z.mod_unique with (x4 + 2^8 * x5 + 2^16 * x6 + 2^24 * x7); lia
  |apply Z.mod_unique with (x5 + 2^8 * x6 + 2^16 * x7); lia
  |apply Z.mod_unique with (x6 + 2^8 * x7); lia
  |apply Z.mod_unique with x7; lia
  |apply Z.mod_unique with 0; lia].
Qed.

(** Fields read back from a 64-bit word. *)
Definition word_fields (w : Z) : pixel_fields :=
  let a := (w / 2 ^ 44) mod 2 ^ 16 in
  PF (w / 2 ^ 60) (local_x a) (local_y a) ((w / 2 ^ 30) mod 2 ^ 14)
     ((w / 2 ^ 20) mod 2 ^ 10) ((w / 2 ^ 16) mod 2 ^ 4) (w mod 2 ^ 16).

Lemma word_fields_ok w : 0 <= w < 2 ^ 64 -> fields_ok (word_fields w).
Proof.
  intros H. unfold fields_ok, word_fields; cbn [f_type f_x f_y f_toa f_tot f_ftoa f_spidr].
  assert (Ha : 0 <= (w / 2 ^ 44) mod 2 ^ 16 < 2 ^ 16) by (apply Z.mod_pos_bound; reflexivity).
  pose proof (local_x_range _ Ha). pose proof (local_y_range _ Ha).
  assert (0 <= w / 2 ^ 60 < 16).
  { split; [apply Z.div_pos; lia|apply Z.div_lt_upper_bound; lia]. }
  repeat split; try lia; try (apply Z.mod_pos_bound; reflexivity).
Qed.

Lemma word_fields_pixel w : 0 <= w < 2 ^ 64 -> pixel_word (word_fields w) = w.
Proof.
  intros H. unfold pixel_word, word_fields; cbn [f_type f_x f_y f_toa f_tot f_ftoa f_spidr].
  rewrite address_encode by (apply Z.mod_pos_bound; reflexivity).
  pose proof (Z.div_mod w (2^16)) as E0.
  pose proof (Z.div_mod (w / 2^16) (2^4)) as E1.
  pose proof (Z.div_mod (w / 2^20) (2^10)) as E2.
  pose proof (Z.div_mod (w / 2^30) (2^14)) as E3.
  pose proof (Z.div_mod (w / 2^44) (2^16)) as E4.
  rewrite !div_div_pow in * by (clear; lia).
  change (16 + 4) with 20 in *. change (20 + 10) with 30 in *. change (30 + 14) with 44 in *.
  change (44 + 16) with 60 in *.
  remember (w / 2^16) as q1. remember (w / 2^20) as q2. remember (w / 2^30) as q3.
  remember (w / 2^44) as q4. remember (w / 2^60) as q5.
  remember (w mod 2 ^ 16) as r0. remember (q1 mod 2 ^ 4) as r1. remember (q2 mod 2 ^ 10) as r2.
  remember (q3 mod 2 ^ 14) as r3. remember (q4 mod 2 ^ 16) as r4.
  clear - E0 E1 E2 E3 E4. lia.
Qed.

Lemma pixel_word_fields f : fields_ok f ->
  0 <= pixel_word f < 2 ^ 64 /\ word_fields (pixel_word f) = f.
Proof.
  intros H. destruct f as [ty x y toa tot ftoa sp].
  unfold fields_ok in H; cbn [f_type f_x f_y f_toa f_tot f_ftoa f_spidr] in H.
  destruct (address_decode x y) as [Hx [Hy Ha]]; try lia.
  unfold pixel_word; cbn [f_type f_x f_y f_toa f_tot f_ftoa f_spidr].
  remember (pixel_address x y) as a.
  split; [lia|].
  set (w := ty * 2^60 + a * 2^44 + toa * 2^30 + tot * 2^20 + ftoa * 2^16 + sp).
  unfold word_fields.
  assert (D1 : w / 2^16 = ty * 2^44 + a * 2^28 + toa * 2^14 + tot * 2^4 + ftoa).
  { symmetry. apply Z.div_unique with sp; unfold w; lia. }
  assert (D2 : w / 2^20 = ty * 2^40 + a * 2^24 + toa * 2^10 + tot).
  { symmetry. apply Z.div_unique with (ftoa * 2^16 + sp); unfold w; lia. }
  assert (D3 : w / 2^30 = ty * 2^30 + a * 2^14 + toa).
  { symmetry. apply Z.div_unique with (tot * 2^20 + ftoa * 2^16 + sp); unfold w; lia. }
  assert (D4 : w / 2^44 = ty * 2^16 + a).
  { symmetry. apply Z.div_unique with (toa * 2^30 + tot * 2^20 + ftoa * 2^16 + sp); unfold w; lia. }
  assert (D5 : w / 2^60 = ty).
  { symmetry. apply Z.div_unique with (a * 2^44 + toa * 2^30 + tot * 2^20 + ftoa * 2^16 + sp); unfold w; lia. }
  rewrite D1, D2, D3, D4, D5.
  assert (M0 : w mod 2^16 = sp).
  { symmetry. apply Z.mod_unique with (ty * 2^44 + a * 2^28 + toa * 2^14 + tot * 2^4 + ftoa); unfold w; lia. }
  assert (M4 : (ty * 2^16 + a) mod 2^16 = a).
  { symmetry. apply Z.mod_unique with ty; lia. }
  rewrite M0, M4, Hx, Hy.
  f_equal; symmetry;
  [apply Z.mod_unique with (ty * 2^16 + a); lia
  |apply Z.mod_unique with (ty * 2^30 + a * 2^14 + toa); lia
  |apply Z.mod_unique with (ty * 2^40 + a * 2^24 + toa * 2^10 + tot); lia].
Qed.
