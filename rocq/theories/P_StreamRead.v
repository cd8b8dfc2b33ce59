(** The reader of the streaming program on whole files. *)
From Coq Require Import Lia.
From Verif Require Export P_StreamCli.
From Coq Require Import ZifyBool Zify.
Ltac Zify.zify_post_hook ::= Z.to_euclidean_division_equations.
Global Open Scope Z_scope.

Lemma header_test_arr p : header_test (arr_of p) = Ok (is_header p).
Proof.
  destruct p as [c0 c1 c2 c3 c4 c5 c6 c7]. unfold header_test, is_header, arr_of, elem.
  cbn [packet_bytes b0 b1 b2 b3 b4 b5 b6 b7 map nth_error obind].
  destruct (c0 =? 0x54); [|reflexivity]. destruct (c1 =? 0x50); reflexivity.
Qed.

Lemma elem_arr p : elem (arr_of p) 4 = Ok (b4 p) /\ elem (arr_of p) 7 = Ok (b7 p) /\
  elem (arr_of p) 6 = Ok (b6 p).
Proof. destruct p. repeat split. Qed.

Lemma rd_size p : packet_ok p ->
  Z.to_nat (Z.shiftr (Z.lor (Z.shiftl (Z.land 0xff (b7 p)) 8) (Z.land 0xff (b6 p))) 3) =
  Z.to_nat (declared_packets p).
Proof.
  intros Hp. destruct (header_count p Hp) as [<- _]. unfold header_size.
  assert (E : forall b, is_byte b -> Z.land 0xff (schar b) = Z.land 0xff b).
  { intros b Hb. rewrite schar_byte by exact Hb. symmetry.
    rewrite Z.land_comm. rewrite (land_low b 0xff 8) by (lia || reflexivity).
    unfold is_byte in Hb. lia. }
  rewrite !E by apply Hp. reflexivity.
Qed.

(** One round of the loop on a whole packet. *)
Lemma rd_loop_packet keep f p m b a s hits : packet_ok p -> length b = 8%nat ->
  rd_loop keep (S f) (Rd (FS (packet_bytes p ++ m) false) b a s hits) =
  if is_header p then
    let! st := rd_section keep (Z.to_nat (declared_packets p)) (b4 p)
                 (Rd (FS m false) (arr_of p) a s hits) in
    rd_loop keep f st
  else rd_loop keep f (Rd (FS m false) (arr_of p) a s hits).
Proof.
  intros Hp Hb. cbn [rd_loop rd_file f_eof rd_buf rd_arr rd_ts rd_hits].
  rewrite read8_packet by (apply declare_length; exact Hb).
  rewrite header_test_arr. destruct (elem_arr p) as (E4 & E7 & E6). rewrite E4, E7, E6.
  cbn [obind]. rewrite rd_size by exact Hp. reflexivity.
Qed.

Lemma rd_loop_eof keep f m b a s hits : rd_loop keep f (Rd (FS m true) b a s hits) = Ok hits.
Proof. destruct f; reflexivity. Qed.

(** The last round, fewer than 8 bytes left. *)
Lemma rd_loop_short f m b a s hits : zlen m < 8 ->
  (odd_end m /\ rd_loop false (S f) (Rd (FS m false) b a s hits) = Ok hits) \/
  (~ odd_end m /\ rd_loop false (S f) (Rd (FS m false) b a s hits) = UB Uninitialised).
Proof.
  intros H. cbn [rd_loop rd_file f_eof rd_buf rd_arr rd_ts rd_hits declare].
  rewrite read8_short by exact H. pose proof (short_elem7 m H) as E7.
  assert (NO : (forall i b c, nth_error m i = Some b -> nth_error [84; 80; 88] i = Some c -> b = c) -> ~ odd_end m).
  { intros C [_ (i & b' & c' & H1 & H2 & H3)]. apply H3. eapply C; eauto. }
  destruct m as [|a0 m1]; [right; split; [apply NO; intros [|] ? ? D; discriminate D|reflexivity]|].
  unfold header_test. cbn [map app elem nth_error obind].
  destruct (Z.eqb_spec a0 0x54) as [E0|E0].
  2:{ left. split; [|cbn [obind]; apply rd_loop_eof]. split; [exact H|]. exists 0%nat, a0, 84. auto. }
  destruct m1 as [|a1 m2].
  { right. split; [|reflexivity]. apply NO. intros [|[|]] ? ? D D'; try discriminate D.
    cbn in D, D'. congruence. }
  cbn [length skipn map app elem nth_error obind].
  destruct (Z.eqb_spec a1 0x50) as [E1|E1].
  2:{ left. split; [|cbn [obind]; apply rd_loop_eof]. split; [exact H|]. exists 1%nat, a1, 80. auto. }
  destruct m2 as [|a2 m3].
  { right. split; [|reflexivity]. apply NO. intros [|[|[|]]] ? ? D D'; try discriminate D;
    cbn in D, D'; congruence. }
  cbn [length skipn map app elem nth_error obind].
  destruct (Z.eqb_spec a2 0x58) as [E2|E2].
  2:{ left. split; [|cbn [obind]; apply rd_loop_eof]. split; [exact H|]. exists 2%nat, a2, 88. auto. }
  right. split.
  { apply NO. intros [|[|[|i]]] ? ? D D'; cbn in D, D'; try congruence.
    destruct i; discriminate D'. }
  unfold zlen in H.
  destruct m3 as [|a3 [|a4 [|a5 [|a6 [|a7 rest]]]]];
    try reflexivity. cbn [length] in H. lia.
Qed.

Lemma framed_short m xs : framed odd_end m xs -> zlen m < 8 -> odd_end m.
Proof.
  intros H Hs. destruct H as [m Hm|p m xs Hp H|p c ps m xs Hp Hc Hn H]; [exact Hm| |];
    rewrite zlen_packet in Hs; unfold zlen in Hs; lia.
Qed.

Lemma odd_end_long p m : ~ odd_end (packet_bytes p ++ m).
Proof. intros [H _]. rewrite zlen_packet in H. unfold zlen in H. lia. Qed.

Lemma rd_fold_map_schar c ps s hits : 0 <= c < 256 ->
  rd_fold (map (pair (schar c)) ps) s hits = rd_fold (map (pair c) ps) s hits.
Proof.
  intros Hc. revert s hits. induction ps as [|p ps IH]; intros s hits; [reflexivity|].
  cbn [map rd_fold]. rewrite rd_step_schar by exact Hc.
  destruct (rd_step c p s hits) as [[s' hits']|e|u|]; cbn [obind]; auto.
Qed.

Lemma framed_stray_inv fin p m xs : framed fin (packet_bytes p ++ m) xs -> ~ starts_TPX p ->
  ~ fin (packet_bytes p ++ m) -> framed fin m xs.
Proof.
  intros H Hp Hn. remember (packet_bytes p ++ m) as M eqn:E.
  destruct H as [m0 Hm|q m0 ys Hq H'|q c ps m0 ys Hq Hc Hl H'].
  - tauto.
  - apply packet_bytes_inj in E. destruct E as [-> ->]. exact H'.
  - apply packet_bytes_inj in E. destruct E as [-> _]. tauto.
Qed.

Lemma rd_strict fuel : forall m b a s hits, bytes_ok m -> length b = 8%nat -> length a = 8%nat ->
  (length m < fuel)%nat ->
  let r := rd_loop false fuel (Rd (FS m false) b a s hits) in
  (exists xs, framed odd_end m xs /\ r = let! (_, h) := rd_fold xs s hits in Ok h) \/
  ((forall xs, ~ framed odd_end m xs) /\ bad_read r).
Proof.
  induction fuel as [|f IH]; intros m b a s hits Hm Hb Ha Hf; [lia|]. cbv zeta.
  destruct (Z_lt_le_dec (zlen m) 8) as [Hs|Hl].
  - destruct (rd_loop_short f m b a s hits Hs) as [[Ho E]|[Ho E]]; rewrite E.
    + left. exists []. split; [constructor; exact Ho|reflexivity].
    + right. split; [|left; reflexivity]. intros xs H. apply Ho. eapply framed_short; eauto.
  - destruct (front m Hl) as (p & rest & ->). clear Hl.
    apply bytes_packet in Hm. destruct Hm as [Hp Hm].
    rewrite app_length, packet_bytes_length in Hf.
    rewrite rd_loop_packet by assumption.
    destruct (is_header p) eqn:E.
    + apply is_header_spec in E. destruct (header_count p Hp) as [_ Hd].
      destruct (Z_lt_le_dec (zlen rest) (8 * declared_packets p)) as [Ho|Ho].
      * right. split.
        -- intros xs H. apply framed_data_inv in H; [|exact E|apply odd_end_long].
           destruct H as (ps & m' & ys & -> & Hlen & _).
           rewrite zlen_app, zlen_flat in Ho. unfold zlen in *. lia.
        -- destruct (rd_section_short (b4 p) (Z.to_nat (declared_packets p)) rest (arr_of p) a s hits Hm Ha)
             as [-> | ->]; [lia|left; reflexivity|right; reflexivity].
      * destruct (split_front (Z.to_nat (declared_packets p)) rest) as (ps & m' & Hlen & ->); [lia|].
        apply bytes_flat in Hm. destruct Hm as [Hps Hm].
        rewrite <- Hlen, rd_section_ok by assumption.
        rewrite app_length in Hf.
        assert (Hc : 0 <= b4 p < 256) by apply Hp.
        destruct (rd_fold_cases (map (pair (b4 p)) ps) s hits) as [(s' & hits' & E1)|E1];
          rewrite E1; cbn [obind].
        -- destruct (IH m' (arr_of p) (last_arr a ps) s' hits' Hm) as [(xs & Hx & Er)|[Hx Er]];
             [reflexivity|apply last_arr_length; exact Ha|lia| |].
           ++ left. exists (map (pair (schar (b4 p))) ps ++ xs). split.
              ** apply fr_data; [exact E|apply schar_declares; apply Hp|unfold zlen; lia|exact Hx].
              ** rewrite Er, rd_fold_app, rd_fold_map_schar, E1 by exact Hc. reflexivity.
           ++ right. split; [|exact Er]. intros xs H.
              remember (packet_bytes p ++ flat_map packet_bytes ps ++ m') as M eqn:EM.
              destruct H as [m0 Hm0|q m0 ys Hq H'|q c qs m0 ys Hq Hc' Hl' H'].
              ** subst m0. apply (odd_end_long p _ Hm0).
              ** apply packet_bytes_inj in EM. destruct EM as [-> _]. tauto.
              ** apply packet_bytes_inj in EM. destruct EM as [-> EM].
                 apply flat_inj in EM; [|unfold zlen in Hl'; lia]. destruct EM as [-> ->].
                 exact (Hx _ H').
        -- destruct (IH m' (arr_of p) (last_arr a ps) s hits Hm) as [(xs & Hx & _)|[Hx _]];
             [reflexivity|apply last_arr_length; exact Ha|lia| |].
           ++ left. exists (map (pair (schar (b4 p))) ps ++ xs). split.
              ** apply fr_data; [exact E|apply schar_declares; apply Hp|unfold zlen; lia|exact Hx].
              ** rewrite rd_fold_app, rd_fold_map_schar, E1 by exact Hc. reflexivity.
           ++ right. split; [|right; reflexivity]. intros xs H.
              remember (packet_bytes p ++ flat_map packet_bytes ps ++ m') as M eqn:EM.
              destruct H as [m0 Hm0|q m0 ys Hq H'|q c qs m0 ys Hq Hc' Hl' H'].
              ** subst m0. apply (odd_end_long p _ Hm0).
              ** apply packet_bytes_inj in EM. destruct EM as [-> _]. tauto.
              ** apply packet_bytes_inj in EM. destruct EM as [-> EM].
                 apply flat_inj in EM; [|unfold zlen in Hl'; lia]. destruct EM as [-> ->].
                 exact (Hx _ H').
    + assert (Hn : ~ starts_TPX p) by (intros Hh; apply is_header_spec in Hh; congruence).
      destruct (IH rest (arr_of p) a s hits Hm) as [(xs & Hx & Er)|[Hx Er]];
        [reflexivity|exact Ha|lia| |].
      * left. exists xs. split; [apply fr_stray; assumption|exact Er].
      * right. split; [|exact Er]. intros xs H.
        exact (Hx xs (framed_stray_inv _ _ _ _ H Hn (odd_end_long p rest))).
Qed.

Lemma framed_unique fin m xs ys : framed fin m xs ->
  (forall p n, ~ fin (packet_bytes p ++ n)) -> bytes_ok m -> framed fin m ys -> xs = ys.
Proof.
  intros H Hfin. revert ys. induction H as [m Hm|p m xs Hp H IH|p c ps m xs Hp Hc Hn H IH]; intros ys Hb H2.
  - destruct H2 as [m Hm2|q m ys Hq H2|q d qs m ys Hq Hd Hl H2]; [reflexivity| |]; destruct (Hfin _ _ Hm).
  - apply bytes_packet in Hb. destruct Hb as [_ Hb].
    apply IH; [exact Hb|]. eapply framed_stray_inv; eauto.
  - apply bytes_packet in Hb. destruct Hb as [Hpo Hb]. apply bytes_flat in Hb. destruct Hb as [_ Hb].
    remember (packet_bytes p ++ flat_map packet_bytes ps ++ m) as M eqn:EM.
    destruct H2 as [m0 Hm2|q m0 ys Hq H2|q d qs m0 ys Hq Hd Hl H2].
    + subst m0. destruct (Hfin _ _ Hm2).
    + apply packet_bytes_inj in EM. destruct EM as [-> _]. tauto.
    + apply packet_bytes_inj in EM. destruct EM as [-> EM].
      apply flat_inj in EM; [|unfold zlen in *; lia]. destruct EM as [-> ->].
      rewrite (declares_chip_unique p d c Hd Hc). f_equal. apply IH; assumption.
Qed.

Lemma rd_run_strict_l m : bytes_ok m ->
  (exists xs hs, framed odd_end m xs /\ timely [] xs /\ stamped [] xs hs /\ rd_run false m = Ok hs) \/
  (~ (exists xs, framed odd_end m xs /\ timely [] xs) /\
   (rd_run false m = UB Uninitialised \/ rd_run false m = UB BadConversion)).
Proof.
  intros Hm. unfold rd_run.
  destruct (rd_strict (S (length m)) m blank8 blank8 ts0 [] Hm) as [(xs & Hx & ->)|[Hx Hr]];
    try reflexivity; [lia| |].
  - destruct (rd_fold_spec xs (framed_ok _ _ _ Hx Hm) [] ts0 [] ref_start) as [[Ht (s' & hs & -> & Hs)]|[Ht ->]].
    + left. exists xs, hs. auto.
    + right. split; [|right; reflexivity]. intros (ys & Hy & Hty).
      rewrite (framed_unique _ _ _ _ Hx odd_end_long Hm Hy) in Ht. tauto.
  - right. split; [|exact Hr]. intros (xs & H & _). exact (Hx xs H).
Qed.

Lemma framed_odd_length m xs : framed odd_end m xs -> zlen m mod 8 <> 0.
Proof.
  induction 1 as [m [H (i & b & c & Hi & _)]|p m xs Hp H IH|p c ps m xs Hp Hc Hn H IH].
  - destruct m; [destruct i; discriminate Hi|]. unfold zlen in *. cbn [length] in *. lia.
  - rewrite zlen_packet. lia.
  - rewrite zlen_packet, zlen_app, zlen_flat. lia.
Qed.
