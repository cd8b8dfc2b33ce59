(** Lemmas about the reader of the streaming program. *)
From Coq Require Import Lia.
From Verif Require Export S_StreamCli P_LibMore.
From Coq Require Import ZifyBool Zify.
Ltac Zify.zify_post_hook ::= Z.to_euclidean_division_equations.
Global Open Scope Z_scope.

Definition arr_of (p : packet) : arr8 := map Some (packet_bytes p).

Lemma packet_of_arr p : packet_of (arr_of p) = Ok p.
Proof. destruct p. reflexivity. Qed.

Lemma read8_packet p m a : length a = 8%nat ->
  read8 (FS (packet_bytes p ++ m) false) a = (FS m false, arr_of p).
Proof.
  intros Ha. destruct p as [c0 c1 c2 c3 c4 c5 c6 c7]. unfold read8. cbn [f_eof f_rest packet_bytes app b0 b1 b2 b3 b4 b5 b6 b7 firstn skipn].
  f_equal. unfold arr_of. cbn [packet_bytes b0 b1 b2 b3 b4 b5 b6 b7 map length].
  rewrite <- Ha, skipn_all. reflexivity.
Qed.

Lemma declare_length keep a : length a = 8%nat -> length (declare keep a) = 8%nat.
Proof. destruct keep; [auto|reflexivity]. Qed.

(** * One packet *)

Definition rd_step (c : Z) (p : packet) (s : ts) (hits : list hit) : outcome (ts * list hit) :=
  if is_pixel p then
    let! h := packet_to_hit p (ts_tdc s) (ts_gdc s) c in Ok (s, hits ++ [h])
  else Ok (lib_step c p s hits).

Lemma schar_tests p : packet_ok p ->
  is_tdc p = (b7 p =? 0x6F) /\ is_gdc p = (Z.land (b7 p) 0xF0 =? 0x40) /\
  is_pixel p = (Z.land (b7 p) 0xF0 =? 0xb0).
Proof.
  intros Hp. assert (H : is_byte (b7 p)) by apply Hp. unfold is_tdc, is_gdc, is_pixel, schar.
  unfold is_byte in H. destruct (Z.ltb_spec (b7 p) 128) as [C|C]; [auto|].
  assert (E : Z.land (b7 p - 256) 0xF0 = Z.land (b7 p) 0xF0).
  { replace (b7 p - 256) with (b7 p + (-1) * 2 ^ 8) by lia.
    replace 0xF0 with (Z.land (Z.ones 8) 0xF0) by reflexivity.
    rewrite !Z.land_assoc, !Z.land_ones by lia. f_equal. lia. }
  rewrite E. repeat split; try reflexivity. lia.
Qed.

Lemma rd_packet_step c p s hits : packet_ok p ->
  rd_packet c (arr_of p) s hits = rd_step c p s hits.
Proof.
  intros Hp. destruct (schar_tests p Hp) as (T1 & T2 & T3).
  destruct (kind_of_spec p) as (K1 & K2 & K3); [apply Hp|].
  unfold rd_packet, rd_step, lib_step. rewrite packet_of_arr.
  replace (elem (arr_of p) 7) with (Ok (b7 p)) by (destruct p; reflexivity).
  cbn [obind]. rewrite <- T1, <- T2, <- T3.
  destruct (kind_of p) eqn:K; rewrite K1 in *;
    try rewrite K2 by reflexivity; try rewrite K3 by reflexivity; try reflexivity.
  - assert (P : is_pixel p = false).
    { rewrite T3. symmetry in T1. apply Z.eqb_eq in T1. rewrite T1. reflexivity. }
    rewrite P. reflexivity.
  - destruct (lib_gdc _ _ _ _). reflexivity.
Qed.

(** The chip as unsigned or signed number. *)
Lemma layout_schar c x y : 0 <= c < 256 -> layout (schar c) x y = layout c x y.
Proof.
  intros Hc. unfold layout, schar. destruct (Z.ltb_spec c 128) as [H|H]; [reflexivity|].
  destruct (Z.eqb_spec (c - 256) 0); [lia|]. destruct (Z.eqb_spec c 0); [lia|].
  destruct (Z.eqb_spec (c - 256) 1); [lia|]. destruct (Z.eqb_spec c 1); [lia|].
  destruct (Z.eqb_spec (c - 256) 2); [lia|]. destruct (Z.eqb_spec c 2); [lia|]. reflexivity.
Qed.

Lemma rd_step_schar c p s hits : 0 <= c < 256 -> rd_step (schar c) p s hits = rd_step c p s hits.
Proof.
  intros Hc. unfold rd_step, lib_step, packet_to_hit, lib_hit. cbv zeta.
  rewrite layout_schar by exact Hc. reflexivity.
Qed.

(** * Sequences of packets *)

Fixpoint rd_fold (xs : list (Z * packet)) (s : ts) (hits : list hit) : outcome (ts * list hit) :=
  match xs with
  | [] => Ok (s, hits)
  | (c, p) :: r => let! (s', hits') := rd_step c p s hits in rd_fold r s' hits'
  end.

Lemma rd_fold_app xs ys s hits : rd_fold (xs ++ ys) s hits =
  let! (s', hits') := rd_fold xs s hits in rd_fold ys s' hits'.
Proof.
  revert s hits. induction xs as [|[c p] xs IH]; intros s hits; [reflexivity|].
  cbn [app rd_fold]. destruct (rd_step c p s hits) as [[s' hits']|e|u|]; cbn [obind]; auto.
Qed.

Lemma rd_step_cases c p s hits :
  (exists s' hits', rd_step c p s hits = Ok (s', hits')) \/ rd_step c p s hits = UB BadConversion.
Proof.
  unfold rd_step. destruct (is_pixel p).
  - unfold packet_to_hit. cbv zeta.
    destruct (lib_time _ _ <? _).
    + destruct (f_to_u32 _); cbn [obind]; [|auto].
      destruct (layout _ _ _). cbn [obind]. eauto.
    + cbn [obind]. destruct (layout _ _ _). cbn [obind]. eauto.
  - destruct (lib_step c p s hits). eauto.
Qed.

Lemma rd_fold_cases xs s hits :
  (exists s' hits', rd_fold xs s hits = Ok (s', hits')) \/ rd_fold xs s hits = UB BadConversion.
Proof.
  revert s hits. induction xs as [|[c p] xs IH]; intros s hits; cbn [rd_fold]; [eauto|].
  destruct (rd_step_cases c p s hits) as [(s' & hits' & ->)| ->]; cbn [obind]; auto.
Qed.

Lemma tdc_range ps T : tdc_is ps T -> 0 <= T < 2 ^ 48.
Proof.
  intros [[_ ->]|(pre & p & g & t & _ & _ & _ & ->)]; [lia|]. apply Z.mod_pos_bound. lia.
Qed.

Lemma rd_fold_spec xs : Forall (fun x => packet_ok (snd x)) xs ->
  forall seen s hits, ref_ok seen s ->
  (timely seen xs /\ exists s' hs, rd_fold xs s hits = Ok (s', hits ++ hs) /\ stamped seen xs hs) \/
  (~ timely seen xs /\ rd_fold xs s hits = UB BadConversion).
Proof.
  induction xs as [|[c p] xs IH]; intros Hx seen s hits Hs.
  - left. split; [constructor|]. exists s, []. rewrite app_nil_r. split; [reflexivity|constructor].
  - apply Forall_cons_iff in Hx. destruct Hx as [Hp Hx]. cbn [snd] in Hp.
    destruct (ref_step seen s c p hits Hp Hs) as [Hs' Eh].
    destruct (kind_of_spec p) as (K1 & K2 & K3); [apply Hp|].
    cbn [rd_fold]. unfold rd_step.
    destruct (is_pixel p) eqn:EP.
    + assert (K : kind_of p = KPixel).
      { destruct (kind_of p) eqn:K; try reflexivity; try (rewrite K1 in K3; specialize (K3 eq_refl); congruence).
        destruct (schar_tests p Hp) as (T1 & _ & T3). rewrite K1 in T1. rewrite EP in T3.
        symmetry in T1, T3. apply Z.eqb_eq in T1. rewrite T1 in T3. discriminate T3. }
      rewrite K in Eh, K1, K2, K3.
      destruct Hs as (Ht & Hg & Hl & Hr & Hq).
      pose proof (tdc_range _ _ Ht) as HT.
      destruct (C54_convert_l p (ts_tdc s) (ts_gdc s) c Hp Hq HT) as [Cok Cub].
      assert (Es : fst (lib_step c p s hits) = s).
      { unfold lib_step. rewrite K1, K2, EP by exact K1. reflexivity. }
      rewrite Es in Hs'.
      destruct (Z_le_gt_dec (ts_tdc s) (h_spider (lib_hit p (ts_tdc s) (ts_gdc s) c))) as [C|C].
      * rewrite Cok by exact C. cbn [obind].
        destruct (IH Hx (seen ++ [p]) s (hits ++ [lib_hit p (ts_tdc s) (ts_gdc s) c]) Hs')
          as [[Hti (s' & hs & E & Hst)]|[Hti E]].
        -- left. split; [eapply ti_pixel; eauto|].
           exists s'. exists (lib_hit p (ts_tdc s) (ts_gdc s) c :: hs).
           rewrite E, <- app_assoc. split; [reflexivity|]. apply st_pixel; assumption.
        -- right. split; [|exact E]. intros Hc. apply Hti.
           inversion Hc; subst; [assumption|congruence].
      * rewrite Cub by lia. cbn [obind]. right. split; [|reflexivity].
        intros Hc. inversion Hc as [|? ? ? ? T g K' HT' Hg' Hle Hrest|]; subst; [|congruence].
        rewrite (tdc_unique _ _ _ HT' Ht), (gdc_unique _ _ _ Hg' Hg) in Hle. lia.
    + assert (K : kind_of p <> KPixel).
      { intros K. rewrite K in K1, K3. specialize (K3 K1). congruence. }
      cbn [obind]. destruct (lib_step c p s hits) as [s1 hits1] eqn:EL. cbn [fst snd] in *.
      assert (E1 : hits1 = hits).
      { rewrite Eh. destruct (kind_of p); try (rewrite app_nil_r; reflexivity). tauto. }
      subst hits1. rewrite E1.
      destruct (IH Hx (seen ++ [p]) s1 hits Hs') as [[Hti (s' & hs & E & Hst)]|[Hti E]].
      * left. split; [apply ti_other; assumption|]. exists s', hs. split; [exact E|].
        apply st_other; assumption.
      * right. split; [|exact E]. intros Hc. inversion Hc; subst; [congruence|tauto].
Qed.

(** * The data section *)

Definition last_arr (a : arr8) (ps : list packet) : arr8 := fold_left (fun _ p => arr_of p) ps a.

Lemma arr_of_length p : length (arr_of p) = 8%nat.
Proof. reflexivity. Qed.
Lemma last_arr_length a ps : length a = 8%nat -> length (last_arr a ps) = 8%nat.
Proof.
  revert a. induction ps as [|p ps IH]; intros a Ha; [exact Ha|]. cbn. apply IH. reflexivity.
Qed.

Lemma rd_section_app keep n k chip st :
  rd_section keep (n + k) chip st = let! st' := rd_section keep n chip st in rd_section keep k chip st'.
Proof.
  revert st. induction n as [|n IH]; intros st; [reflexivity|]. cbn [Nat.add rd_section].
  destruct (read8 _ _) as [f a]. destruct (rd_packet _ _ _ _) as [[s h]|e|u|]; cbn [obind]; auto.
Qed.

Lemma rd_section_ok keep chip ps m b a s hits : Forall packet_ok ps -> length a = 8%nat ->
  rd_section keep (length ps) chip (Rd (FS (flat_map packet_bytes ps ++ m) false) b a s hits) =
  let! (s', hits') := rd_fold (map (pair chip) ps) s hits in
  Ok (Rd (FS m false) b (last_arr a ps) s' hits').
Proof.
  intros Hps. revert a s hits. induction Hps as [|p ps Hp Hps IH]; intros a s hits Ha; [reflexivity|].
  cbn [length rd_section flat_map map rd_fold rd_file rd_arr rd_ts rd_hits rd_buf].
  rewrite <- app_assoc, read8_packet by (apply declare_length; exact Ha).
  rewrite rd_packet_step by exact Hp.
  destruct (rd_step chip p s hits) as [[s' hits']|e|u|]; cbn [obind]; try reflexivity.
  rewrite IH by apply arr_of_length. reflexivity.
Qed.

(** At the end of the file, arrays kept. *)
Lemma rd_section_repeat chip p n m b s hits : packet_ok p ->
  rd_section true n chip (Rd (FS m true) b (arr_of p) s hits) =
  let! (s', hits') := rd_fold (repeat (chip, p) n) s hits in
  Ok (Rd (FS m true) b (arr_of p) s' hits').
Proof.
  intros Hp. revert s hits. induction n as [|n IH]; intros s hits; [reflexivity|].
  cbn [rd_section rd_file rd_arr rd_ts rd_hits rd_buf repeat rd_fold declare].
  unfold read8. cbn [f_eof]. rewrite rd_packet_step by exact Hp.
  destruct (rd_step chip p s hits) as [[s' hits']|e|u|]; cbn [obind]; try reflexivity.
  apply IH.
Qed.

(** A read that gets fewer than 8 bytes. *)
Lemma read8_short m a : zlen m < 8 ->
  read8 (FS m false) a = (FS [] true, map Some m ++ skipn (length m) a).
Proof.
  intros H. unfold read8. cbn [f_eof f_rest]. unfold zlen in *.
  rewrite firstn_all2, skipn_all2 by lia.
  destruct (Z.ltb_spec (Z.of_nat (length m)) 8); [reflexivity|lia].
Qed.

Lemma short_elem7 m : zlen m < 8 -> elem (map Some m ++ skipn (length m) blank8) 7 = UB Uninitialised.
Proof.
  unfold zlen. intros H.
  destruct m as [|a0 [|a1 [|a2 [|a3 [|a4 [|a5 [|a6 [|a7 rest]]]]]]]];
    try reflexivity. cbn [length] in H. lia.
Qed.

Definition bad_read {A} (o : outcome A) : Prop := o = UB Uninitialised \/ o = UB BadConversion.

Lemma rd_section_short chip n m b a s hits : bytes_ok m -> length a = 8%nat ->
  zlen m < 8 * Z.of_nat n ->
  bad_read (rd_section false n chip (Rd (FS m false) b a s hits)).
Proof.
  intros Hb Ha H.
  destruct (split_front (Z.to_nat (zlen m / 8)) m) as (ps & t & Hl & ->); [unfold zlen; lia|].
  rewrite zlen_app, zlen_flat in H. rewrite zlen_app, zlen_flat in Hl.
  apply bytes_flat in Hb. destruct Hb as [Hps _].
  assert (Ht : zlen t < 8) by (unfold zlen in *; lia).
  replace n with (length ps + S (n - length ps - 1))%nat by (unfold zlen in *; lia).
  rewrite rd_section_app, rd_section_ok by assumption.
  destruct (rd_fold_cases (map (pair chip) ps) s hits) as [(s' & hits' & ->)| ->]; cbn [obind].
  - cbn [rd_section rd_file rd_arr rd_ts rd_hits rd_buf declare].
    rewrite read8_short by exact Ht. unfold rd_packet. rewrite short_elem7 by exact Ht.
    left. reflexivity.
  - right. reflexivity.
Qed.
