(** Lemmas about single packets in sophiread_display. *)
From Coq Require Import Lia Reals Lra.
From Flocq Require Import Core.
From Verif Require Export S_Display P_StreamRead P_HitProps F64Facts.
From Coq Require Import ZifyBool Zify.
Ltac Zify.zify_post_hook ::= Z.to_euclidean_division_equations.
Global Open Scope Z_scope.

Lemma decode_raw_eq p tdc : decode_raw p tdc =
  Raw (get_ftoa p) (get_tot p) (get_toa p) (local_x (pixaddr p)) (local_y (pixaddr p))
      (16384 * raw_spider p + get_toa p) (u32 (u64 (16384 * raw_spider p + get_toa p - tdc))).
Proof. reflexivity. Qed.

Lemma packet_fields p : packet_ok p -> exists f, fields_ok f /\ p = pixel_packet f /\ f_type f = b7 p / 16.
Proof.
  intros Hp. pose proof (le64_range p Hp) as Hr. exists (word_fields (le64 p)).
  pose proof (word_fields_ok _ Hr) as Hf. split; [exact Hf|].
  assert (E : p = pixel_packet (word_fields (le64 p))).
  { unfold pixel_packet. rewrite word_fields_pixel by exact Hr. symmetry. apply word_le64. exact Hp. }
  split; [exact E|]. destruct (pixel_packet_decode _ Hf) as (_ & _ & _ & _ & _ & _ & H).
  rewrite <- E in H. symmetry. exact H.
Qed.

Lemma decode_fields f tdc : fields_ok f ->
  decode_raw (pixel_packet f) tdc =
  Raw (f_ftoa f) (f_tot f) (f_toa f) (f_x f) (f_y f) (time30 f) (tof32 f tdc).
Proof.
  intros Hf. rewrite decode_raw_eq. destruct (pixel_packet_decode f Hf) as (-> & -> & -> & -> & -> & -> & _).
  rewrite u32_u64. reflexivity.
Qed.

(** * A quarter of an unsigned int *)

Lemma quarter_R : is_finite (f_lit 1 4) = true /\ B2R (f_lit 1 4) = (1 / 4)%R.
Proof.
  unfold f_lit.
  destruct (fdiv_correct (f_of_Z 1) (f_of_Z 4) 0) as (E & F); try lia.
  - apply of_Z_fin53. lia.
  - rewrite of_Z_exact by lia. lra.
  - rewrite !of_Z_exact by lia. change (bpow radix2 0) with 1%R. rewrite Rabs_pos_eq; lra.
  - split; [exact F|]. rewrite E, !of_Z_exact by lia.
    replace (1 / 4)%R with (bpow radix2 (-2)) by (change (bpow radix2 (-2)) with (/ 4)%R; lra). apply rnd_bpow. lia.
Qed.

Lemma quarter_trunc t : 0 <= t < 2 ^ 32 -> f_to_i32 (fmul (f_of_Z t) (f_lit 1 4)) = Some (t / 4).
Proof.
  intros Ht. destruct quarter_R as [QF QR].
  assert (R0 : (0 <= IZR t <= IZR (2 ^ 32))%R) by (split; apply IZR_le; lia).
  assert (Ev : (IZR t * (1 / 4) = F2R (Float radix2 t (-2)))%R).
  { unfold F2R. cbn [Fnum Fexp]. change (bpow radix2 (-2)) with (/ 4)%R. lra. }
  assert (Fm : (rnd (IZR t * (1 / 4)) = IZR t * (1 / 4))%R).
  { rewrite rnd_FLT. apply round_generic; [auto with typeclass_instances|]. rewrite Ev. apply generic_format_FLT.
    exists (Float radix2 t (-2)); [reflexivity| |]; cbn [Fnum Fexp]; [|lia].
    change (radix2 ^ 53) with (2 ^ 53). lia. }
  destruct (fmul_correct (f_of_Z t) (f_lit 1 4) 32) as (E & F).
  - lia.
  - apply of_Z_fin53. lia.
  - exact QF.
  - rewrite of_Z_exact, QR by lia. change (bpow radix2 32) with (IZR (2 ^ 32)). rewrite Rabs_pos_eq; lra.
  - unfold f_to_i32, f_to_int. rewrite F.
    assert (V : B2R (fmul (f_of_Z t) (f_lit 1 4)) = (IZR t * (1 / 4))%R).
    { rewrite E, of_Z_exact, QR by lia. exact Fm. }
    assert (T : Btrunc (fmul (f_of_Z t) (f_lit 1 4)) = t / 4).
    { apply eq_IZR. rewrite Btrunc_correct; [|exact emax1024]. rewrite V, round_FIX_IZR.
      f_equal. rewrite Ztrunc_floor by lra. replace (IZR t * (1 / 4))%R with (IZR t / IZR 4)%R by lra.
      apply Zfloor_div. lia. }
    rewrite T. unfold int_min, int_max.
    replace ((- 2 ^ 31 <=? t / 4) && (t / 4 <=? 2 ^ 31 - 1)) with true by lia. reflexivity.
Qed.

(** * One packet *)

Definition dsp_bins (c : Z) (p : packet) (T : Z) : Z * list Z * list raw :=
  if b7 p / 16 =? 11 then
    let r := decode_raw p T in
    (T, if (w_tof r / 4 <? 170000) && (w_x r >? 250) && (w_x r <? 425) && (w_y r >? 125) && (w_y r <? 325)
        then [w_tof r / 4] else [], [place_raw c r])
  else if b7 p =? 111 then (trigger30 p, [], [])
  else (T, [], []).

Lemma tof_entry_ok p T : packet_ok p ->
  tof_entry (decode_raw p T) =
  Ok (let r := decode_raw p T in
      if (w_tof r / 4 <? 170000) && (w_x r >? 250) && (w_x r <? 425) && (w_y r >? 125) && (w_y r <? 325)
      then [w_tof r / 4] else []).
Proof.
  intros Hp. unfold tof_entry.
  assert (Hr : 0 <= w_tof (decode_raw p T) < 2 ^ 32) by apply u32_range.
  rewrite quarter_trunc by exact Hr. cbv zeta.
  destruct (_ && _); [|reflexivity].
  replace (w_tof (decode_raw p T) / 4 <? 0) with false by lia. reflexivity.
Qed.

Lemma dsp_packet_step rest h p T es hs c : packet_ok p -> elem h 4 = Ok c ->
  dsp_packet (Dsp rest h (arr_of p) T es hs) =
  let '(T', e, r) := dsp_bins (schar c) p T in Ok (Dsp rest h (arr_of p) T' (es ++ e) (hs ++ r)).
Proof.
  intros Hp Hh. assert (H7 : is_byte (b7 p)) by apply Hp. unfold dsp_packet, dsp_bins.
  cbn [v_data v_in v_tdc v_rest v_tofs v_hits].
  replace (elem (arr_of p) 7) with (Ok (b7 p)) by (destruct p; reflexivity).
  cbn [obind]. rewrite schar_nibble by exact H7. rewrite schar_eq by (exact H7 || lia).
  replace (16 * (b7 p / 16) =? 0xb0) with (b7 p / 16 =? 11) by lia. rewrite packet_of_arr.
  destruct (b7 p / 16 =? 11).
  - cbn [obind]. rewrite tof_entry_ok by exact Hp. cbn [obind]. rewrite Hh. reflexivity.
  - destruct (b7 p =? 111) eqn:E.
    + replace (b7 p =? 0x6F) with true. cbn [obind]. rewrite !List.app_nil_r. unfold trigger30.
      rewrite shiftr_div, (land_low _ _ 30) by lia. reflexivity.
    + replace (b7 p =? 0x6F) with false. rewrite !List.app_nil_r. reflexivity.
Qed.

Fixpoint dsp_fold (xs : list (Z * packet)) (T : Z) (es : list Z) (hs : list raw) : Z * list Z * list raw :=
  match xs with
  | [] => (T, es, hs)
  | (c, p) :: r => let '(T', e, h) := dsp_bins c p T in dsp_fold r T' (es ++ e) (hs ++ h)
  end.

Lemma dsp_fold_app xs ys T es hs : dsp_fold (xs ++ ys) T es hs =
  let '(T', e, h) := dsp_fold xs T es hs in dsp_fold ys T' e h.
Proof.
  revert T es hs. induction xs as [|[c p] xs IH]; intros T es hs; [reflexivity|].
  cbn [app dsp_fold]. destruct (dsp_bins c p T) as [[T' e] h]. apply IH.
Qed.

(** * The specification of one packet *)

Lemma place_says c f T : fields_ok f -> display_says c f T (place_raw c (decode_raw (pixel_packet f) T)).
Proof.
  intros Hf. rewrite decode_fields by exact Hf. unfold display_says, place_raw, display_place.
  cbn [w_ftoa w_tot w_toa w_x w_y w_spdr w_tof].
  destruct (Z.eqb_spec c 0) as [->|N0]; [cbn [w_ftoa w_tot w_toa w_x w_y w_spdr w_tof]; repeat split; f_equal; lia|].
  destruct (Z.eqb_spec c 1) as [->|N1]; [cbn [w_ftoa w_tot w_toa w_x w_y w_spdr w_tof]; repeat split; f_equal; lia|].
  destruct (Z.eqb_spec c 2) as [->|N2]; [cbn [w_ftoa w_tot w_toa w_x w_y w_spdr w_tof]; repeat split; f_equal; lia|].
  cbn [w_ftoa w_tot w_toa w_x w_y w_spdr w_tof]. repeat split.
  destruct c as [|[q|[q|q|]|]|]; try reflexivity; lia.
Qed.

Lemma says_unique c f T r r' : display_says c f T r -> display_says c f T r' -> r = r'.
Proof.
  destruct r as [a1 a2 a3 a4 a5 a6 a7], r' as [c1 c2 c3 c4 c5 c6 c7]. unfold display_says. cbn [w_ftoa w_tot w_toa w_x w_y w_spdr w_tof].
  intros (-> & -> & -> & E & -> & ->) (-> & -> & -> & E' & -> & ->). rewrite <- E in E'.
  injection E' as -> ->. reflexivity.
Qed.

Lemma bins_eq f T : fields_ok f ->
  (let r := decode_raw (pixel_packet f) T in
   if (w_tof r / 4 <? 170000) && (w_x r >? 250) && (w_x r <? 425) && (w_y r >? 125) && (w_y r <? 325)
   then [w_tof r / 4] else []) = tof_bins f T.
Proof.
  intros Hf. rewrite decode_fields by exact Hf. cbn [w_tof w_x w_y]. unfold tof_bins.
  unfold fields_ok in Hf.
  replace ((tof32 f T / 4 <? 170000) && (f_x f >? 250) && (f_x f <? 425) && (f_y f >? 125) && (f_y f <? 325))
    with ((251 <=? f_x f) && (126 <=? f_y f) && (tof32 f T / 4 <? 170000)); [reflexivity|].
  generalize (tof32 f T / 4). intros z. lia.
Qed.

Lemma pixel_type f : fields_ok f -> b7 (pixel_packet f) / 16 = f_type f.
Proof. intros Hf. apply (pixel_packet_decode f Hf). Qed.

Lemma dsp_fold_displays xs : Forall (fun x => packet_ok (snd x)) xs -> forall T es hs,
  exists e h T', dsp_fold xs T es hs = (T', es ++ e, hs ++ h) /\ displays T xs h e.
Proof.
  induction 1 as [|[c p] xs Hp Hxs IH]; intros T es hs.
  - exists [], [], T. rewrite !List.app_nil_r. split; [reflexivity|constructor].
  - cbn [snd] in Hp. cbn [dsp_fold]. unfold dsp_bins. destruct (Z.eqb_spec (b7 p / 16) 11) as [K|K].
    + destruct (packet_fields p Hp) as (f & Hf & Ep & Ety). cbv zeta.
      pose proof (bins_eq f T Hf) as B. cbv zeta in B. rewrite <- Ep in B. rewrite B.
      destruct (IH T (es ++ tof_bins f T) (hs ++ [place_raw c (decode_raw p T)])) as (e & h & T' & E & D).
      exists (tof_bins f T ++ e), (place_raw c (decode_raw p T) :: h), T'. split.
      * rewrite E, <- !List.app_assoc. reflexivity.
      * apply (di_pixel T c p f); try assumption; [congruence|]. rewrite Ep. apply place_says. exact Hf.
    + destruct (Z.eqb_spec (b7 p) 111) as [N|N].
      * destruct (IH (trigger30 p) (es ++ []) (hs ++ [])) as (e & h & T' & E & D).
        exists e, h, T'. split; [rewrite E, !List.app_nil_r; reflexivity|]. apply di_tdc; assumption.
      * destruct (IH T (es ++ []) (hs ++ [])) as (e & h & T' & E & D).
        exists e, h, T'. split; [rewrite E, !List.app_nil_r; reflexivity|]. apply di_other; assumption.
Qed.

Lemma displays_unique T xs h e : displays T xs h e -> forall h' e', displays T xs h' e' -> h = h' /\ e = e'.
Proof.
  induction 1 as [T|T c p f r xs rs es Ep Hf Ht Hs Hd IH|T c p xs rs es H7 Hd IH|T c p xs rs es K N Hd IH];
    intros h' e' H'.
  - inversion H'. split; reflexivity.
  - inversion H' as [|T0 c0 p0 f0 r0 xs0 rs0 es0 Ep0 Hf0 Ht0 Hs0 Hd0|T0 c0 p0 xs0 rs0 es0 H70 Hd0|T0 c0 p0 xs0 rs0 es0 K0 N0 Hd0]; subst.
    + assert (f = f0).
      { destruct (pixel_word_fields f Hf) as [R1 W1]. destruct (pixel_word_fields f0 Hf0) as [R2 W2].
        rewrite <- W1, <- W2. f_equal. rewrite <- (le64_word _ R1), <- (le64_word _ R2).
        unfold pixel_packet in Ep0. congruence. }
      subst f0. destruct (IH _ _ Hd0) as [-> ->]. rewrite (says_unique _ _ _ _ _ Hs Hs0). split; reflexivity.
    + exfalso. pose proof (pixel_type f Hf) as E. rewrite H70, Ht in E. discriminate E.
    + exfalso. apply K0. rewrite pixel_type; assumption.
  - inversion H' as [|T0 c0 p0 f0 r0 xs0 rs0 es0 Ep0 Hf0 Ht0 Hs0 Hd0|T0 c0 p0 xs0 rs0 es0 H70 Hd0|T0 c0 p0 xs0 rs0 es0 K0 N0 Hd0]; subst.
    + exfalso. pose proof (pixel_type f0 Hf0) as E. rewrite H7, Ht0 in E. discriminate E.
    + apply IH. assumption.
    + contradiction.
  - inversion H' as [|T0 c0 p0 f0 r0 xs0 rs0 es0 Ep0 Hf0 Ht0 Hs0 Hd0|T0 c0 p0 xs0 rs0 es0 H70 Hd0|T0 c0 p0 xs0 rs0 es0 K0 N0 Hd0]; subst.
    + exfalso. apply K. rewrite pixel_type; assumption.
    + contradiction.
    + apply IH. assumption.
Qed.
