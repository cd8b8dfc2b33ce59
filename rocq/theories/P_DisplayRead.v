(** Lemmas about reading a file in sophiread_display. *)
From Verif Require Export P_DisplayHit.
From Coq Require Import Lia ZifyBool Zify.
Ltac Zify.zify_post_hook ::= Z.to_euclidean_division_equations.
Global Open Scope Z_scope.

Definition arr_opt (l : option packet) : arr8 :=
  match l with Some q => arr_of q | None => blank8 end.
Lemma arr_opt_length l : length (arr_opt l) = 8%nat.
Proof. destruct l; reflexivity. Qed.
Definition opt_ok (l : option packet) : Prop := forall q, l = Some q -> packet_ok q.

Lemma fread8_packet p m a : length a = 8%nat -> fread8 (packet_bytes p ++ m) a = (8, m, arr_of p).
Proof.
  intros Ha. destruct p as [c0 c1 c2 c3 c4 c5 c6 c7]. unfold fread8.
  cbn [packet_bytes app b0 b1 b2 b3 b4 b5 b6 b7 firstn skipn].
  unfold arr_of. cbn [packet_bytes b0 b1 b2 b3 b4 b5 b6 b7 map length].
  rewrite <- Ha, skipn_all. reflexivity.
Qed.
Lemma fread8_nil a : fread8 [] a = (0, [], a).
Proof. reflexivity. Qed.
Lemma fread8_short t a : zlen t < 8 -> fread8 t a = (zlen t, [], map Some t ++ skipn (length t) a).
Proof.
  intros H. unfold fread8, zlen in *. rewrite firstn_all2, skipn_all2 by lia. reflexivity.
Qed.

Lemma overlay_arr t q : zlen t < 8 -> map Some t ++ skipn (length t) (arr_of q) = arr_of (overlay t q).
Proof.
  intros H. unfold zlen in H. destruct q as [c0 c1 c2 c3 c4 c5 c6 c7].
  destruct t as [|a0 [|a1 [|a2 [|a3 [|a4 [|a5 [|a6 [|a7 r]]]]]]]]; try reflexivity. cbn [length] in H. lia.
Qed.
Lemma overlay_ok t q : zlen t < 8 -> bytes_ok t -> packet_ok q -> packet_ok (overlay t q).
Proof.
  intros H Ht Hq. unfold zlen in H. destruct q as [c0 c1 c2 c3 c4 c5 c6 c7]. unfold packet_ok in *.
  cbn [b0 b1 b2 b3 b4 b5 b6 b7] in Hq.
  destruct t as [|a0 [|a1 [|a2 [|a3 [|a4 [|a5 [|a6 [|a7 r]]]]]]]];
    repeat match goal with K : bytes_ok (_ :: _) |- _ => inversion_clear K end;
    repeat match goal with K : Forall _ (_ :: _) |- _ => inversion_clear K end;
    try (cbn [overlay length packet_bytes b0 b1 b2 b3 b4 b5 b6 b7 skipn app]; tauto).
  cbn [length] in H. lia.
Qed.
Lemma overlay_nil q : overlay [] q = q.
Proof. destruct q. reflexivity. Qed.

(** * The data section *)

Lemma dsp_section_app n k st :
  dsp_section (n + k) st = let! st' := dsp_section n st in dsp_section k st'.
Proof.
  revert st. induction n as [|n IH]; intros st; [reflexivity|]. cbn [Nat.add dsp_section].
  destruct (fread8 _ _) as [[i rest] a]. destruct (dsp_packet _) as [st'|e|u|]; cbn [obind]; auto.
Qed.

Lemma dsp_section_ok ps m b l T es hs c : Forall packet_ok ps -> elem b 4 = Ok c ->
  dsp_section (length ps) (Dsp (flat_map packet_bytes ps ++ m) b (arr_opt l) T es hs) =
  let '(T', e, h) := dsp_fold (map (pair (schar c)) ps) T es hs in
  Ok (Dsp m b (arr_opt (newest l ps)) T' e h).
Proof.
  intros Hps Hb. revert l T es hs. induction Hps as [|p ps Hp Hps IH]; intros l T es hs; [reflexivity|].
  cbn [length dsp_section flat_map map dsp_fold v_rest v_data v_in v_tdc v_tofs v_hits].
  rewrite <- List.app_assoc, fread8_packet by apply arr_opt_length.
  rewrite (dsp_packet_step _ _ _ _ _ _ c) by assumption.
  destruct (dsp_bins (schar c) p T) as [[T' e] h]. cbn [obind].
  change (arr_of p) with (arr_opt (Some p)). rewrite IH. reflexivity.
Qed.

Lemma dsp_section_repeat n b d T es hs c : packet_ok d -> elem b 4 = Ok c ->
  dsp_section n (Dsp [] b (arr_of d) T es hs) =
  let '(T', e, h) := dsp_fold (repeat (schar c, d) n) T es hs in Ok (Dsp [] b (arr_of d) T' e h).
Proof.
  intros Hd Hb. revert T es hs. induction n as [|n IH]; intros T es hs; [reflexivity|].
  cbn [dsp_section repeat dsp_fold v_rest v_data v_in v_tdc v_tofs v_hits]. rewrite fread8_nil.
  rewrite (dsp_packet_step _ _ _ _ _ _ c) by assumption.
  destruct (dsp_bins (schar c) d T) as [[T' e] h]. cbn [obind]. apply IH.
Qed.

(** A section that begins with fewer than 8 bytes left. *)
Lemma dsp_section_short n t b l T es hs c : zlen t < 8 -> bytes_ok t -> opt_ok l -> elem b 4 = Ok c ->
  (0 < n)%nat ->
  dsp_section n (Dsp t b (arr_opt l) T es hs) =
  match left_over t l with
  | Some d => let '(T', e, h) := dsp_fold (repeat (schar c, d) n) T es hs in Ok (Dsp [] b (arr_of d) T' e h)
  | None => UB Uninitialised
  end.
Proof.
  intros Ht Hb Hl Hc Hn. destruct n as [|n]; [lia|].
  cbn [dsp_section v_rest v_data v_in v_tdc v_tofs v_hits]. rewrite fread8_short by exact Ht.
  destruct l as [q|]; cbn [left_over arr_opt].
  - assert (Ho : packet_ok (overlay t q)) by (apply overlay_ok; [exact Ht|exact Hb|apply Hl; reflexivity]).
    rewrite overlay_arr by exact Ht. rewrite (dsp_packet_step _ _ _ _ _ _ c) by assumption.
    cbn [repeat dsp_fold]. destruct (dsp_bins (schar c) (overlay t q) T) as [[T' e] h]. cbn [obind].
    rewrite (dsp_section_repeat n b _ T' _ _ c) by assumption. reflexivity.
  - unfold dsp_packet. cbn [v_data]. rewrite short_elem7 by exact Ht. reflexivity.
Qed.

(** * The size field *)

Lemma taken_range p : packet_ok p -> 0 <= taken p.
Proof.
  intros Hp. assert (H6 : is_byte (b6 p)) by apply Hp. assert (H7 : is_byte (b7 p)) by apply Hp.
  unfold is_byte in *. unfold taken.
  destruct (128 <=? b7 p); [lia|]. destruct (128 <=? b6 p); lia.
Qed.
Lemma dwords_taken p : packet_ok p ->
  Z.to_nat (Z.shiftr (256 * schar (b7 p) + schar (b6 p)) 3) = Z.to_nat (taken p).
Proof.
  intros Hp. assert (H6 : is_byte (b6 p)) by apply Hp. assert (H7 : is_byte (b7 p)) by apply Hp.
  unfold is_byte in *. rewrite shiftr_div by lia. change (2 ^ 3) with 8. unfold schar, taken.
  destruct (Z.ltb_spec (b7 p) 128), (Z.ltb_spec (b6 p) 128), (Z.leb_spec 128 (b7 p)), (Z.leb_spec 128 (b6 p)); lia.
Qed.

(** * The end of a file *)

Lemma header_short t : zlen t < 8 -> t <> [] ->
  (odd_end t /\ header_test (map Some t ++ skipn (length t) blank8) = Ok false) \/
  (~ odd_end t /\ (header_test (map Some t ++ skipn (length t) blank8) = UB Uninitialised \/
    header_test (map Some t ++ skipn (length t) blank8) = Ok true)).
Proof.
  intros Ht Hn. unfold odd_end.
  destruct t as [|a0 t]; [congruence|].
  destruct (Z.eqb_spec a0 84) as [E0|E0].
  2: { left. split.
       - split; [exact Ht|]. exists 0%nat, a0, 84. repeat split. exact E0.
       - unfold header_test. cbn [map app elem nth_error obind].
         replace (a0 =? 0x54) with false by lia. reflexivity. }
  subst a0. destruct t as [|a1 t].
  { right. split; [|left; reflexivity]. intros (_ & i & b & c & H1 & H2 & H3).
    destruct i as [|[|i]]; cbn in H1, H2; congruence. }
  destruct (Z.eqb_spec a1 80) as [E1|E1].
  2: { left. split.
       - split; [exact Ht|]. exists 1%nat, a1, 80. repeat split. exact E1.
       - unfold header_test. cbn [map app elem nth_error obind].
         replace (a1 =? 0x50) with false by lia. reflexivity. }
  subst a1. destruct t as [|a2 t].
  { right. split; [|left; reflexivity]. intros (_ & i & b & c & H1 & H2 & H3).
    destruct i as [|[|[|i]]]; cbn in H1, H2; congruence. }
  destruct (Z.eqb_spec a2 88) as [E2|E2].
  2: { left. split.
       - split; [exact Ht|]. exists 2%nat, a2, 88. repeat split. exact E2.
       - unfold header_test. cbn [map app elem nth_error obind].
         replace (a2 =? 0x58) with false by lia. reflexivity. }
  subst a2. right. split; [|right; reflexivity]. intros (_ & i & b & c & H1 & H2 & H3).
  destruct i as [|[|[|[|i]]]]; cbn in H1, H2; congruence.
Qed.

Lemma newest_ok l ps : opt_ok l -> Forall packet_ok ps -> opt_ok (newest l ps).
Proof.
  intros Hl Hps. revert l Hl. induction Hps as [|p ps Hp Hps IH]; intros l Hl; [exact Hl|].
  cbn. apply IH. intros q H. injection H as <-. exact Hp.
Qed.

Definition pairs_ok (xs : list (Z * packet)) : Prop := Forall (fun x => packet_ok (snd x)) xs.
Lemma map_pair_ok c ps : Forall packet_ok ps -> pairs_ok (map (pair c) ps).
Proof. intros H. apply Forall_forall. intros x Hx. apply in_map_iff in Hx. destruct Hx as (p & <- & Hp).
  cbn. rewrite Forall_forall in H. auto. Qed.
Lemma repeat_ok c d n : packet_ok d -> pairs_ok (repeat (c, d) n).
Proof. intros H. apply Forall_forall. intros x Hx. apply repeat_spec in Hx. subst x. exact H. Qed.

Lemma split_at {A} n (l : list A) : 0 <= n <= zlen l -> exists u v, l = u ++ v /\ zlen u = n.
Proof.
  intros H. exists (firstn (Z.to_nat n) l), (skipn (Z.to_nat n) l).
  split; [symmetry; apply firstn_skipn|]. unfold zlen in *. rewrite firstn_length_le; lia.
Qed.

Lemma dsp_loop_nil fuel b a T es hs : (0 < fuel)%nat ->
  dsp_loop fuel (Dsp [] b a T es hs) = Ok (Dsp [] b a T es hs).
Proof. destruct fuel; [lia|]. reflexivity. Qed.

Definition read_result (o : outcome dsp) (x : Z * list Z * list raw) : Prop :=
  exists rest b a, o = Ok (Dsp rest b a (fst (fst x)) (snd (fst x)) (snd x)).

Lemma declares_schar p c : packet_ok p -> declares_chip p c -> c = schar (b4 p).
Proof.
  intros Hp H. apply (declares_chip_unique p); [exact H|]. apply schar_declares. apply Hp.
Qed.

Lemma dsp_loop_spec fuel : forall ps t h l T es hs,
  Forall packet_ok ps -> bytes_ok t -> zlen t < 8 -> opt_ok h -> opt_ok l ->
  (length (flat_map packet_bytes ps ++ t) < fuel)%nat ->
  (exists xs, reads t h l ps xs /\ pairs_ok xs /\
     read_result (dsp_loop fuel (Dsp (flat_map packet_bytes ps ++ t) (arr_opt h) (arr_opt l) T es hs))
       (dsp_fold xs T es hs)) \/
  ((forall xs, ~ reads t h l ps xs) /\
   dsp_loop fuel (Dsp (flat_map packet_bytes ps ++ t) (arr_opt h) (arr_opt l) T es hs) = UB Uninitialised).
Proof.
  induction fuel as [|fu IH]; intros ps t h l T es hs Hps Hbt Ht Hh Hl Hf; [lia|].
  destruct ps as [|p ps].
  - cbn [flat_map app] in *. cbn [dsp_loop v_rest v_in v_data v_tdc v_tofs v_hits].
    rewrite fread8_short by exact Ht.
    destruct t as [|a0 t0].
    { left. exists []. split; [apply rd_end; reflexivity|]. split; [constructor|].
      eexists _, _, _. reflexivity. }
    assert (Hne : a0 :: t0 <> []) by congruence. remember (a0 :: t0) as t eqn:Et.
    assert (Hz : (zlen t =? 0) = false) by (subst t; unfold zlen; cbn [length]; lia). rewrite Hz.
    assert (Hfu : (0 < fu)%nat) by (subst t; cbn [length] in Hf; lia).
    destruct h as [q|]; cbn [arr_opt].
    + rewrite overlay_arr by exact Ht.
      assert (Ho : packet_ok (overlay t q)) by (apply overlay_ok; [exact Ht|exact Hbt|apply Hh; reflexivity]).
      rewrite header_test_arr. cbn [obind].
      destruct (is_header (overlay t q)) eqn:Hd.
      * apply is_header_spec in Hd. destruct (elem_arr (overlay t q)) as (E4 & E7 & E6).
        rewrite E7. cbn [obind]. rewrite E6. cbn [obind]. rewrite dwords_taken by exact Ho.
        pose proof (taken_range _ Ho) as Hk.
        destruct (Z.eq_dec (taken (overlay t q)) 0) as [Z0|Z0].
        { left. exists []. split; [apply rd_tail_none; assumption|]. split; [constructor|].
          rewrite Z0. cbn [dsp_section obind]. change (Z.to_nat 0) with 0%nat. cbn [dsp_section obind].
          rewrite dsp_loop_nil by exact Hfu. eexists _, _, _. reflexivity. }
        rewrite (dsp_section_short _ [] _ _ _ _ _ (b4 (overlay t q))) by (assumption || constructor || lia).
        destruct l as [d|]; cbn [left_over].
        { left. exists (repeat (schar (b4 (overlay t q)), d) (Z.to_nat (taken (overlay t q)))).
          split; [apply rd_tail_again; try assumption; apply schar_declares; apply Ho|].
          split; [apply repeat_ok, Hl; reflexivity|]. rewrite overlay_nil.
          destruct (dsp_fold _ T es hs) as [[T' e] h']. cbn [obind]. rewrite dsp_loop_nil by exact Hfu.
          eexists _, _, _. reflexivity. }
        right. split; [|reflexivity]. intros xs HR. inversion HR; subst; congruence.
      * left. exists []. split.
        { apply rd_tail; [exact Hne|]. intros K. apply is_header_spec in K. congruence. }
        split; [constructor|]. rewrite dsp_loop_nil by exact Hfu. eexists _, _, _. reflexivity.
    + destruct (header_short t Ht Hne) as [[Ho E]|[Ho [E|E]]]; rewrite E; cbn [obind].
      * left. exists []. split; [apply rd_odd; exact Ho|]. split; [constructor|].
        rewrite dsp_loop_nil by exact Hfu. eexists _, _, _. reflexivity.
      * right. split; [|reflexivity]. intros xs HR. inversion HR; subst; congruence.
      * right. split; [intros xs HR; inversion HR; subst; congruence|].
        rewrite short_elem7 by exact Ht. reflexivity.
  - inversion Hps as [|p0 ps0 Hp Hps']; subst p0 ps0.
    cbn [flat_map] in *. rewrite <- List.app_assoc in *.
    cbn [dsp_loop v_rest v_in v_data v_tdc v_tofs v_hits]. rewrite fread8_packet by apply arr_opt_length.
    change (8 =? 0) with false. cbn iota. rewrite header_test_arr. cbn [obind].
    rewrite app_length, packet_bytes_length in Hf.
    assert (Hsp : opt_ok (Some p)) by (intros q Hq; injection Hq as <-; exact Hp).
    destruct (is_header p) eqn:Hd.
    + apply is_header_spec in Hd. destruct (elem_arr p) as (E4 & E7 & E6).
      rewrite E7. cbn [obind]. rewrite E6. cbn [obind]. rewrite dwords_taken by exact Hp.
      pose proof (taken_range _ Hp) as Hk.
      destruct (Z_lt_ge_dec (zlen ps) (taken p)) as [C|C].
      * replace (Z.to_nat (taken p)) with (length ps + Z.to_nat (taken p - zlen ps))%nat by (unfold zlen in *; lia).
        rewrite dsp_section_app, (dsp_section_ok ps t _ l T es hs (b4 p)) by assumption.
        destruct (dsp_fold (map (pair (schar (b4 p))) ps) T es hs) as [[T1 e1] h1] eqn:F1. cbn [obind].
        rewrite (dsp_section_short _ t _ _ _ _ _ (b4 p));
          [|exact Ht|exact Hbt|apply newest_ok; assumption|exact E4|lia].
        destruct (left_over t (newest l ps)) as [d|] eqn:Ld.
        { left. exists (map (pair (schar (b4 p))) ps ++ repeat (schar (b4 p), d) (Z.to_nat (taken p - zlen ps))).
          split; [apply rd_cut; try assumption; apply schar_declares; apply Hp|].
          assert (Hdo : packet_ok d).
          { destruct (newest l ps) as [q|] eqn:Nq; [|discriminate Ld]. cbn in Ld. injection Ld as <-.
            apply overlay_ok; [exact Ht|exact Hbt|]. apply (newest_ok l ps Hl Hps'). exact Nq. }
          split; [apply Forall_app; split; [apply map_pair_ok; exact Hps'|apply repeat_ok; exact Hdo]|].
          rewrite dsp_fold_app, F1.
          destruct (dsp_fold (repeat _ _) T1 e1 h1) as [[T2 e2] h2]. cbn [obind].
          rewrite dsp_loop_nil by lia. eexists _, _, _. reflexivity. }
        right. split; [|reflexivity]. intros xs HR. inversion HR as [| | | | |h0 l0 p0 ps0 xs0 N0 R0|h0 l0 p0 c0 ps0 qs0 xs0 S0 D0 L0 R0|h0 l0 p0 c0 ps0 d0 S0 D0 L0 O0]; subst; try contradiction; try congruence.
        rewrite zlen_app in C. pose proof (zlen_nonneg qs0). lia.
      * destruct (split_at (taken p) ps) as (u & v & -> & Hu); [lia|].
        apply Forall_app in Hps'. destruct Hps' as [Hpu Hpv].
        rewrite flat_map_app, <- List.app_assoc in *.
        replace (Z.to_nat (taken p)) with (length u) by (unfold zlen in *; lia).
        rewrite (dsp_section_ok u _ _ l T es hs (b4 p)) by assumption.
        destruct (dsp_fold (map (pair (schar (b4 p))) u) T es hs) as [[T1 e1] h1] eqn:F1. cbn [obind].
        change (arr_of p) with (arr_opt (Some p)).
        destruct (IH v t (Some p) (newest l u) T1 e1 h1) as [(xs & HR & Hx & HD)|[HN HD]]; try assumption.
        { apply newest_ok; assumption. }
        { rewrite app_length in Hf. lia. }
        { left. exists (map (pair (schar (b4 p))) u ++ xs). split; [|split].
          - apply rd_data; try assumption. apply schar_declares. apply Hp.
          - apply Forall_app. split; [apply map_pair_ok; exact Hpu|exact Hx].
          - rewrite dsp_fold_app, F1. exact HD. }
        right. split; [|exact HD]. intros xs HR.
        inversion HR as [| | | | |h0 l0 p0 ps0 xs0 N0 R0|h0 l0 p0 c0 ps0 qs0 xs0 S0 D0 L0 R0 P0|h0 l0 p0 c0 ps0 d0 S0 D0 L0 O0]; subst; try contradiction.
        { assert (Euv : ps0 = u /\ qs0 = v).
           { assert (Hlen : length ps0 = length u) by (unfold zlen in *; lia).
             match goal with K : ps0 ++ qs0 = u ++ v |- _ => revert K end. revert Hlen. clear.
             revert u. induction ps0 as [|a ps0 IH]; intros [|b u] Hlen K; try discriminate Hlen; [auto|].
             cbn in K. injection K as -> K. destruct (IH u) as [-> ->]; [cbn in Hlen; lia|exact K|]. auto. }
           destruct Euv as [-> ->]. apply (HN _ R0). }
    + change (arr_of p) with (arr_opt (Some p)).
      assert (Hn : ~ starts_TPX p) by (intros K; apply is_header_spec in K; congruence).
      destruct (IH ps t (Some p) l T es hs) as [(xs & HR & Hx & HD)|[HN HD]]; try assumption; [lia| |].
      * left. exists xs. split; [apply rd_stray; assumption|]. split; assumption.
      * right. split; [|exact HD]. intros xs HR. inversion HR; subst; try contradiction. apply (HN xs). assumption.
Qed.
