(** Lemmas behind Properties_Lib.v: framing, parsing loops, running time
    reference. *)
From Coq Require Import Lia.
From Verif Require Export P_Stream P_TimePackets P_HitProps S_Lib.
From Coq Require Import ZifyBool Zify.
Ltac Zify.zify_post_hook ::= Z.to_euclidean_division_equations.
Global Open Scope Z_scope.

(** * Reading packets off the front *)

Lemma read_packet_app p m : read_packet (packet_bytes p ++ m) 0 = Some p.
Proof. destruct p; reflexivity. Qed.

Lemma skipn_packet p m : skipn 8 (packet_bytes p ++ m) = m.
Proof. destruct p; reflexivity. Qed.

Lemma read_packet_short m : zlen m < 8 -> read_packet m 0 = None.
Proof.
  unfold zlen. intros H.
  destruct m as [|a0 [|a1 [|a2 [|a3 [|a4 [|a5 [|a6 [|a7 rest]]]]]]]];
    try reflexivity. cbn [length] in H. lia.
Qed.

Lemma front m : 8 <= zlen m -> exists p rest, m = packet_bytes p ++ rest.
Proof.
  unfold zlen. intros H.
  destruct m as [|a0 [|a1 [|a2 [|a3 [|a4 [|a5 [|a6 [|a7 rest]]]]]]]];
    try (cbn [length] in H; lia).
  exists (Packet a0 a1 a2 a3 a4 a5 a6 a7), rest. reflexivity.
Qed.

Lemma zlen_packet p m : zlen (packet_bytes p ++ m) = 8 + zlen m.
Proof. unfold zlen. rewrite app_length, packet_bytes_length. lia. Qed.

Lemma zlen_flat ps : zlen (flat_map packet_bytes ps) = 8 * zlen ps.
Proof.
  induction ps as [|p ps IH]; [reflexivity|]. cbn [flat_map]. rewrite zlen_packet, IH.
  unfold zlen. cbn [length]. lia.
Qed.

Lemma zlen_app {A} (a b : list A) : zlen (a ++ b) = zlen a + zlen b.
Proof. unfold zlen. rewrite app_length. lia. Qed.

Lemma split_front n m : 8 * Z.of_nat n <= zlen m ->
  exists ps rest, length ps = n /\ m = flat_map packet_bytes ps ++ rest.
Proof.
  revert m. induction n as [|n IH]; intros m H.
  - exists [], m. split; reflexivity.
  - destruct (front m) as (p & rest & ->); [lia|]. rewrite zlen_packet in H.
    destruct (IH rest) as (ps & rest' & Hl & ->); [lia|].
    exists (p :: ps), rest'. split; [cbn [length]; lia|].
    cbn [flat_map]. rewrite <- app_assoc. reflexivity.
Qed.

Lemma bytes_packet p m : bytes_ok (packet_bytes p ++ m) -> packet_ok p /\ bytes_ok m.
Proof.
  unfold bytes_ok. intros H. apply Forall_app in H. destruct H as [H Hm]. split; [|exact Hm].
  unfold packet_bytes in H.
  repeat match goal with H : Forall _ (_ :: _) |- _ => apply Forall_cons_iff in H; destruct H end.
  unfold packet_ok. auto 10.
Qed.

Lemma bytes_flat ps m : bytes_ok (flat_map packet_bytes ps ++ m) ->
  Forall packet_ok ps /\ bytes_ok m.
Proof.
  induction ps as [|p ps IH]; intros H; [split; [constructor|exact H]|].
  cbn [flat_map] in H. rewrite <- app_assoc in H. apply bytes_packet in H.
  destruct H as [Hp H]. apply IH in H. destruct H. split; [constructor; assumption|assumption].
Qed.

Lemma not_header p : ~ starts_TPX p -> is_header p = false.
Proof. intros H. destruct (is_header p) eqn:E; [|reflexivity]. apply is_header_spec in E. tauto. Qed.

Lemma header_count p : packet_ok p ->
  Z.to_nat (Z.shiftr (header_size p) 3) = Z.to_nat (declared_packets p) /\
  0 <= declared_packets p.
Proof.
  intros (_ & _ & _ & _ & _ & _ & H6 & H7). rewrite header_size_eq by assumption.
  rewrite shiftr_div by lia. unfold declared_packets, is_byte in *. split; [reflexivity|lia].
Qed.

Lemma chip_of p c : packet_ok p -> declares_chip p c -> schar (b4 p) = c.
Proof.
  intros Hp Hc. apply (declares_chip_unique p); [|exact Hc]. apply schar_declares. apply Hp.
Qed.

(** * readTimepix3RawData *)

Definition raw_fold (xs : list (Z * packet)) (st : raw_st) : raw_st :=
  fold_left (fun st x => raw_step (fst x) (snd x) st) xs st.

Lemma raw_payload_ok chip ps rest st :
  raw_payload (length ps) chip (flat_map packet_bytes ps ++ rest) st =
  Ok (rest, raw_fold (map (pair chip) ps) st).
Proof.
  revert st. induction ps as [|p ps IH]; intros st; [reflexivity|].
  cbn [flat_map length raw_payload]. rewrite <- app_assoc, read_packet_app, skipn_packet.
  rewrite IH. reflexivity.
Qed.

Lemma raw_payload_short n chip m st : zlen m < 8 * Z.of_nat n ->
  raw_payload n chip m st = UB OutOfBounds.
Proof.
  revert m st. induction n as [|n IH]; intros m st H; [unfold zlen in H; lia|].
  cbn [raw_payload]. destruct (Z_lt_le_dec (zlen m) 8) as [Hs|Hl].
  - rewrite read_packet_short by exact Hs. reflexivity.
  - destruct (front m Hl) as (p & rest & ->). rewrite zlen_packet in H.
    rewrite read_packet_app, skipn_packet. apply IH. lia.
Qed.

Lemma raw_fold_app xs ys st : raw_fold (xs ++ ys) st = raw_fold ys (raw_fold xs st).
Proof. unfold raw_fold. apply fold_left_app. Qed.

Lemma raw_loop_framed m xs : framed at_end m xs -> bytes_ok m ->
  forall fuel st, (length m <= fuel)%nat -> raw_loop fuel m st = Ok (raw_fold xs st).
Proof.
  induction 1 as [m Hm|p m xs Hp H IH|p c ps m xs Hp Hc Hn H IH]; intros Hb fuel st Hf.
  - rewrite Hm. destruct fuel; reflexivity.
  - apply bytes_packet in Hb. destruct Hb as [Hpo Hb].
    rewrite app_length, packet_bytes_length in Hf.
    destruct fuel as [|f]; [lia|]. cbn [raw_loop].
    rewrite read_packet_app, skipn_packet, not_header by exact Hp.
    destruct p. cbn [packet_bytes app]. apply IH; [exact Hb|lia].
  - apply bytes_packet in Hb. destruct Hb as [Hpo Hb].
    rewrite app_length, packet_bytes_length, app_length in Hf.
    destruct fuel as [|f]; [lia|]. cbn [raw_loop].
    rewrite read_packet_app, skipn_packet.
    destruct (is_header p) eqn:E; [|apply is_header_spec in Hp; congruence].
    destruct (header_count p Hpo) as [-> Hd].
    rewrite (chip_of p c Hpo Hc).
    replace (Z.to_nat (declared_packets p)) with (length ps) by (unfold zlen in Hn; lia).
    rewrite raw_payload_ok. cbn [obind].
    apply bytes_flat in Hb. destruct Hb as [_ Hb].
    rewrite raw_fold_app. destruct p. cbn [packet_bytes app].
    apply IH; [exact Hb|lia].
Qed.

Lemma raw_loop_defined fuel m st : bytes_ok m -> (length m <= fuel)%nat ->
  (exists xs, framed at_end m xs) \/ raw_loop fuel m st = UB OutOfBounds.
Proof.
  revert m st. induction fuel as [|f IH]; intros m st Hb Hf.
  - left. destruct m; [|cbn [length] in Hf; lia]. exists []. constructor. reflexivity.
  - destruct m as [|z m0] eqn:Em; [left; exists []; constructor; reflexivity|].
    rewrite <- Em in *. assert (Hne : m <> []) by (rewrite Em; discriminate). clear Em z m0.
    destruct (Z_lt_le_dec (zlen m) 8) as [Hs|Hl].
    + right. cbn [raw_loop]. rewrite read_packet_short by exact Hs. destruct m; [tauto|reflexivity].
    + destruct (front m Hl) as (p & rest & ->). clear Hne.
      apply bytes_packet in Hb. destruct Hb as [Hpo Hb].
      rewrite app_length, packet_bytes_length in Hf.
      assert (EL : raw_loop (S f) (packet_bytes p ++ rest) st =
              (if is_header p then
                let! (m', st') :=
                  raw_payload (Z.to_nat (Z.shiftr (header_size p) 3)) (schar (b4 p)) rest st in
                raw_loop f m' st'
              else raw_loop f rest st)).
      { cbn [raw_loop]. rewrite read_packet_app, skipn_packet. destruct p. reflexivity. }
      rewrite EL. clear EL.
      destruct (is_header p) eqn:E.
      * apply is_header_spec in E. destruct (header_count p Hpo) as [-> Hd].
        destruct (Z_lt_le_dec (zlen rest) (8 * declared_packets p)) as [Ho|Ho].
        { right. rewrite raw_payload_short by lia. reflexivity. }
        destruct (split_front (Z.to_nat (declared_packets p)) rest) as (ps & rest' & Hlen & ->); [lia|].
        rewrite <- Hlen, raw_payload_ok. cbn [obind].
        rewrite app_length in Hf. apply bytes_flat in Hb. destruct Hb as [_ Hb].
        destruct (IH rest' (raw_fold (map (pair (schar (b4 p))) ps) st) Hb) as [[xs Hx]|Hx]; [lia| |].
        { left. eexists. apply fr_data with (c := schar (b4 p)); [exact E| | |exact Hx].
          - apply schar_declares. apply Hpo.
          - unfold zlen. lia. }
        right. exact Hx.
      * assert (~ starts_TPX p) by (intros Hh; apply is_header_spec in Hh; congruence).
        destruct (IH rest st Hb) as [[xs Hx]|Hx]; [lia| |].
        { left. exists xs. apply fr_stray; assumption. }
        right. exact Hx.
Qed.

(** The time packets do not matter for the hits. *)
Lemma raw_fold_hits xs st : Forall (fun x => packet_ok (snd x)) xs ->
  r_hits (raw_fold xs st) = r_hits st ++ alt_hits (r_alt st) (pixels xs).
Proof.
  revert st. induction xs as [|[c p] xs IH]; intros st Hx.
  - cbn. rewrite app_nil_r. reflexivity.
  - apply Forall_cons_iff in Hx. destruct Hx as [Hp Hx]. cbn [snd] in Hp.
    unfold raw_fold. cbn [fold_left fst snd]. fold (raw_fold xs (raw_step c p st)).
    rewrite IH by exact Hx. clear IH. unfold pixels at 2. cbn [filter snd].
    fold (pixels xs).
    destruct (kind_of_spec p) as (K1 & K2 & K3); [apply Hp|].
    unfold raw_step. rewrite K1.
    destruct (kind_of p) eqn:K; rewrite K1 in K2, K3;
      try (rewrite K2 by reflexivity); try (rewrite K3 by reflexivity).
    + reflexivity.
    + destruct (lib_gdc _ _ _ _). reflexivity.
    + cbn [alt_hits]. destruct (packet_to_hit_alt p (r_alt st) c) as [h a].
      cbn [r_hits r_alt]. rewrite <- app_assoc. reflexivity.
    + reflexivity.
Qed.

Lemma framed_ok fin m xs : framed fin m xs -> bytes_ok m -> Forall (fun x => packet_ok (snd x)) xs.
Proof.
  induction 1 as [m Hm|p m xs Hp H IH|p c ps m xs Hp Hc Hn H IH]; intros Hb.
  - constructor.
  - apply bytes_packet in Hb. tauto.
  - apply bytes_packet in Hb. destruct Hb as [_ Hb]. apply bytes_flat in Hb.
    destruct Hb as [Hps Hb]. apply Forall_app. split; [|auto].
    apply Forall_map. cbn [snd]. exact Hps.
Qed.

Lemma read_raw_framed m xs : bytes_ok m -> framed at_end m xs ->
  read_raw (Some m) = Ok (alt_hits (Alt 0 0) (pixels xs)).
Proof.
  intros Hb H. unfold read_raw. rewrite (raw_loop_framed m xs H Hb) by lia. cbn [obind].
  rewrite raw_fold_hits by (eapply framed_ok; eauto). reflexivity.
Qed.

Lemma read_raw_unframed m : bytes_ok m -> (forall xs, ~ framed at_end m xs) ->
  read_raw (Some m) = UB OutOfBounds.
Proof.
  intros Hb H. unfold read_raw.
  destruct (raw_loop_defined (length m) m (RawSt ts0 (Alt 0 0) []) Hb) as [[xs Hx]|Hx]; [lia| |].
  - destruct (H xs Hx).
  - rewrite Hx. reflexivity.
Qed.

(** * parseRawBytesToHits *)

Definition lib_fold (xs : list (Z * packet)) (sh : ts * list hit) : ts * list hit :=
  fold_left (fun sh x => lib_step (fst x) (snd x) (fst sh) (snd sh)) xs sh.

Lemma parse_payload_ok chip p ps rest s hits :
  exists q, parse_payload (length ps) chip (packet_bytes p ++ flat_map packet_bytes ps ++ rest) s hits =
  (let '(s', hits') := lib_fold (map (pair chip) ps) (s, hits) in
   Ok (packet_bytes q ++ rest, s', hits')).
Proof.
  revert p s hits. induction ps as [|p' ps IH]; intros p s hits.
  - exists p. reflexivity.
  - cbn [flat_map length parse_payload map]. rewrite <- app_assoc.
    destruct (IH p' (fst (lib_step chip p' s hits)) (snd (lib_step chip p' s hits))) as [q E].
    exists q. rewrite zlen_packet.
    destruct (Z.ltb_spec (8 + zlen (packet_bytes p' ++ flat_map packet_bytes ps ++ rest)) 8) as [C|C];
      [unfold zlen in C; lia|].
    rewrite skipn_packet, read_packet_app.
    unfold lib_fold. cbn [fold_left fst snd]. destruct (lib_step chip p' s hits) as [s' hits'].
    cbn [fst snd] in *. exact E.
Qed.

Lemma parse_payload_short n chip m s hits : 8 <= zlen m -> zlen m < 8 + 8 * Z.of_nat n ->
  parse_payload n chip m s hits = UB OutOfBounds.
Proof.
  revert m s hits. induction n as [|n IH]; intros m s hits H1 H2; [lia|].
  cbn [parse_payload]. destruct (Z.ltb_spec (zlen m) 8) as [C|_]; [lia|].
  destruct (front m H1) as (p & rest & ->). rewrite skipn_packet. rewrite zlen_packet in *.
  destruct (Z_lt_le_dec (zlen rest) 8) as [Hs|Hl].
  - rewrite read_packet_short by exact Hs. reflexivity.
  - destruct (front rest Hl) as (p' & rest' & ->). rewrite read_packet_app.
    destruct (lib_step chip p' s hits). apply IH; [exact Hl|lia].
Qed.

Lemma lib_fold_app xs ys sh : lib_fold (xs ++ ys) sh = lib_fold ys (lib_fold xs sh).
Proof. unfold lib_fold. apply fold_left_app. Qed.

Lemma framed_tiny m xs : framed near_end m xs -> zlen m <= 8 -> xs = [].
Proof.
  induction 1 as [m Hm|p m xs Hp H IH|p c ps m xs Hp Hc Hn H IH]; intros Hs.
  - reflexivity.
  - apply IH. rewrite zlen_packet in Hs. unfold zlen in *. lia.
  - rewrite zlen_packet, zlen_app, zlen_flat in Hs.
    assert (Z0 : zlen ps = 0) by (unfold zlen in *; lia).
    destruct ps; [|unfold zlen in Z0; cbn [length] in Z0; lia]. apply IH. unfold zlen in *; lia.
Qed.

Lemma parse_loop_framed m xs : framed near_end m xs -> bytes_ok m ->
  forall fuel s hits, (length m <= fuel)%nat ->
  parse_loop fuel m s hits = Ok (snd (lib_fold xs (s, hits))).
Proof.
  intros H0. pose proof H0 as H0'. revert H0'.
  induction H0 as [m Hm|p m xs Hp H IH|p c ps m xs Hp Hc Hn H IH]; intros H0' Hb fuel s hits Hf.
  - unfold near_end in Hm.
    destruct fuel as [|f]; cbn [parse_loop]; (destruct (Z.ltb_spec 8 (zlen m)); [lia|reflexivity]).
  - apply bytes_packet in Hb. destruct Hb as [Hpo Hb].
    destruct (Z_le_gt_dec (zlen (packet_bytes p ++ m)) 8) as [Hs|Hl].
    { rewrite (framed_tiny _ _ H0' Hs).
      destruct fuel; cbn [parse_loop];
      (destruct (Z.ltb_spec 8 (zlen (packet_bytes p ++ m))); [lia|reflexivity]). }
    rewrite app_length, packet_bytes_length in Hf.
    destruct fuel as [|f]; [lia|]. cbn [parse_loop].
    destruct (Z.ltb_spec 8 (zlen (packet_bytes p ++ m))) as [_|C]; [|lia].
    rewrite read_packet_app, skipn_packet, not_header by exact Hp.
    apply IH; [exact H|exact Hb|lia].
  - destruct (Z_le_gt_dec (zlen (packet_bytes p ++ flat_map packet_bytes ps ++ m)) 8) as [Hs|Hl].
    { rewrite (framed_tiny _ _ H0' Hs).
      destruct fuel; cbn [parse_loop];
      (destruct (Z.ltb_spec 8 (zlen (packet_bytes p ++ flat_map packet_bytes ps ++ m))); [lia|reflexivity]). }
    apply bytes_packet in Hb. destruct Hb as [Hpo Hb].
    rewrite app_length, packet_bytes_length, app_length in Hf.
    destruct fuel as [|f]; [lia|]. cbn [parse_loop].
    destruct (Z.ltb_spec 8 (zlen (packet_bytes p ++ flat_map packet_bytes ps ++ m))) as [_|C]; [|lia].
    rewrite read_packet_app.
    destruct (is_header p) eqn:E; [|apply is_header_spec in Hp; congruence].
    destruct (header_count p Hpo) as [-> Hd]. rewrite (chip_of p c Hpo Hc).
    replace (Z.to_nat (declared_packets p)) with (length ps) by (unfold zlen in Hn; lia).
    destruct (parse_payload_ok c p ps m s hits) as [q Eq]. rewrite Eq. clear Eq.
    rewrite lib_fold_app.
    destruct (lib_fold (map (pair c) ps) (s, hits)) as [s' hits']. cbn [obind].
    rewrite skipn_packet. apply bytes_flat in Hb. destruct Hb as [_ Hb].
    apply IH; [exact H|exact Hb|lia].
Qed.

Lemma parse_loop_defined fuel m s hits : bytes_ok m -> (length m <= fuel)%nat ->
  (exists xs, framed near_end m xs) \/ parse_loop fuel m s hits = UB OutOfBounds.
Proof.
  revert m s hits. induction fuel as [|f IH]; intros m s hits Hb Hf.
  - left. destruct m; [|cbn [length] in Hf; lia]. exists []. constructor. discriminate.
  - destruct (Z_le_gt_dec (zlen m) 8) as [Hs|Hl]; [left; exists []; constructor; exact Hs|].
    destruct (front m) as (p & rest & ->); [lia|].
    apply bytes_packet in Hb. destruct Hb as [Hpo Hb].
    rewrite app_length, packet_bytes_length in Hf.
    assert (EL : parse_loop (S f) (packet_bytes p ++ rest) s hits =
            (if is_header p then
              let! (m', s', hits') :=
                parse_payload (Z.to_nat (Z.shiftr (header_size p) 3)) (schar (b4 p))
                  (packet_bytes p ++ rest) s hits in
              parse_loop f (skipn 8 m') s' hits'
            else parse_loop f rest s hits)).
    { cbn [parse_loop]. destruct (Z.ltb_spec 8 (zlen (packet_bytes p ++ rest))) as [_|C]; [|lia].
      rewrite read_packet_app, skipn_packet. reflexivity. }
    rewrite EL. clear EL.
    destruct (is_header p) eqn:E.
    + apply is_header_spec in E. destruct (header_count p Hpo) as [-> Hd].
      destruct (Z_lt_le_dec (zlen rest) (8 * declared_packets p)) as [Ho|Ho].
      { right. rewrite parse_payload_short; [reflexivity|lia|rewrite zlen_packet; lia]. }
      destruct (split_front (Z.to_nat (declared_packets p)) rest) as (ps & rest' & Hlen & ->); [lia|].
      rewrite <- Hlen. destruct (parse_payload_ok (schar (b4 p)) p ps rest' s hits) as [q Eq].
      rewrite Eq. clear Eq. destruct (lib_fold _ _) as [s' hits']. cbn [obind]. rewrite skipn_packet.
      rewrite app_length in Hf. apply bytes_flat in Hb. destruct Hb as [_ Hb].
      destruct (IH rest' s' hits' Hb) as [[xs Hx]|Hx]; [lia| |].
      { left. eexists. apply fr_data with (c := schar (b4 p)); [exact E| | |exact Hx].
        - apply schar_declares. apply Hpo.
        - unfold zlen. lia. }
      right. exact Hx.
    + assert (~ starts_TPX p) by (intros Hh; apply is_header_spec in Hh; congruence).
      destruct (IH rest s hits Hb) as [[xs Hx]|Hx]; [lia| |].
      { left. exists xs. apply fr_stray; assumption. }
      right. exact Hx.
Qed.

Lemma parse_raw_framed m xs : bytes_ok m -> framed near_end m xs ->
  parse_raw m = Ok (snd (lib_fold xs (ts0, []))).
Proof. intros Hb H. unfold parse_raw. apply parse_loop_framed; auto. Qed.

Lemma parse_raw_unframed m : bytes_ok m -> (forall xs, ~ framed near_end m xs) ->
  parse_raw m = UB OutOfBounds.
Proof.
  intros Hb H. unfold parse_raw.
  destruct (parse_loop_defined (length m) m ts0 [] Hb) as [[xs Hx]|Hx]; [lia| |exact Hx].
  destruct (H xs Hx).
Qed.

(** * The running time reference *)

Lemma b7_le64 p : packet_ok p -> gdc_subtype p = b7 p mod 16.
Proof.
  intros H. unfold gdc_subtype. rewrite le64_expand. unfold packet_ok, is_byte in H.
  f_equal. symmetry. apply Z.div_unique with
    (b0 p + 2^8 * b1 p + 2^16 * b2 p + 2^24 * b3 p + 2^32 * b4 p + 2^40 * b5 p + 2^48 * b6 p); lia.
Qed.

Lemma kind_gdc p : packet_ok p ->
  (kind_of p = KGdc /\ gdc_subtype p = 4 <-> lsb_packet p) /\
  (kind_of p = KGdc /\ gdc_subtype p = 5 <-> msb_packet p) /\
  (kind_of p = KTdc <-> tdc_packet p).
Proof.
  intros Hp. rewrite b7_le64 by exact Hp.
  destruct Hp as (_ & _ & _ & _ & _ & _ & _ & H7). unfold is_byte in H7.
  unfold kind_of, lsb_packet, msb_packet, tdc_packet.
  destruct (Z.eqb_spec (b7 p) 111) as [E|E].
  - rewrite E. repeat split; intros; try lia; destruct H as [H _]; discriminate.
  - assert (D : b7 p = 16 * (b7 p / 16) + b7 p mod 16) by lia.
    assert (R : 0 <= b7 p mod 16 < 16) by lia.
    assert (Q : 0 <= b7 p / 16 < 16) by lia.
    set (q := b7 p / 16) in *. set (r := b7 p mod 16) in *. clearbody q r.
    assert (C : In q [0;1;2;3;4;5;6;7;8;9;10;11;12;13;14;15]) by (cbn; lia). clear Q.
    cbn [In] in C.
    repeat (destruct C as [<-|C];
      [repeat split; intros; try lia; try discriminate; try (destruct H as [H _]; discriminate)|]).
    contradiction.
Qed.

Lemma lib_gdc_eq mask p timer g : packet_ok p -> 0 <= timer < 2 ^ 32 ->
  mask = 0xFFFFFFFFFFF \/ mask = 0xFFFFFFFFFFFF ->
  lib_gdc mask p timer g =
  if gdc_subtype p =? 4 then (lsb_value p, g)
  else if gdc_subtype p =? 5 then (timer, msb_value p * 2 ^ 32 + timer)
  else (timer, g).
Proof.
  intros Hp Ht Hm. unfold lib_gdc.
  pose proof (le64_range p Hp) as HW.
  assert (F : Z.land (Z.shiftr (Z.land (Z.shiftr (le64 p) 16) mask) 40) 0xF = gdc_subtype p /\
    Z.land (Z.land (Z.shiftr (le64 p) 16) mask) 0xFFFFFFFF = lsb_value p /\
    Z.land (Z.land (Z.shiftr (le64 p) 16) mask) 0xFFFF = msb_value p).
  { destruct Hm as [-> | ->]; [|exact (gdc_fields p Hp)].
    unfold gdc_subtype, lsb_value, msb_value.
    rewrite (land_low (Z.shiftr (le64 p) 16) _ 44) by (lia || reflexivity).
    rewrite (shiftr_div (le64 p)) by lia. set (W := le64 p) in *. clearbody W.
    rewrite shiftr_div by lia.
    rewrite (land_low _ 0xF 4) by (lia || reflexivity).
    rewrite (land_low _ 0xFFFFFFFF 32) by (lia || reflexivity).
    rewrite (land_low _ 0xFFFF 16) by (lia || reflexivity).
    split; [|split]; lia. }
  destruct F as (F1 & F2 & F3). cbv zeta. rewrite F1, F2, F3.
  destruct (gdc_subtype p =? 4); [reflexivity|].
  destruct (gdc_subtype p =? 5); [|reflexivity].
  pose proof (msb_range p) as Hv. set (v := msb_value p) in *. clearbody v.
  rewrite shiftl_mul by lia. rewrite u64_id by lia.
  rewrite (land_mid _ 0xFFFF00000000 32 16) by (lia || reflexivity).
  rewrite Z.div_mul by lia. rewrite (Z.mod_small v) by lia.
  rewrite (lor_add _ timer 32) by lia. reflexivity.
Qed.

Lemma last_of_here (P : packet -> Prop) ps p : P p -> last_of P (ps ++ [p]) ps p.
Proof. intros H. exists []. auto. Qed.
Lemma last_of_snoc (P : packet -> Prop) ps pre p q : last_of P ps pre p -> ~ P q -> last_of P (ps ++ [q]) pre p.
Proof.
  intros (post & -> & Hp & Hn) Hq. exists (post ++ [q]). rewrite <- app_assoc.
  split; [reflexivity|]. split; [exact Hp|]. apply Forall_app. auto.
Qed.

Lemma lsb_snoc_other ps q t : ~ lsb_packet q -> lsb_is ps t -> lsb_is (ps ++ [q]) t.
Proof.
  intros Hq [[H ->]|(pre & p & H & ->)].
  - left. split; [apply Forall_app; auto|reflexivity].
  - right. exists pre, p. split; [apply last_of_snoc; assumption|reflexivity].
Qed.
Lemma lsb_snoc ps q : lsb_packet q -> lsb_is (ps ++ [q]) (lsb_value q).
Proof. intros H. right. exists ps, q. split; [apply last_of_here; exact H|reflexivity]. Qed.
Lemma gdc_snoc_other ps q g : ~ msb_packet q -> gdc_is ps g -> gdc_is (ps ++ [q]) g.
Proof.
  intros Hq [[H ->]|(pre & p & t & H & Ht & ->)].
  - left. split; [apply Forall_app; auto|reflexivity].
  - right. exists pre, p, t. split; [apply last_of_snoc; assumption|auto].
Qed.
Lemma gdc_snoc ps q t : msb_packet q -> lsb_is ps t ->
  gdc_is (ps ++ [q]) (msb_value q * 2 ^ 32 + t).
Proof.
  intros H Ht. right. exists ps, q, t. split; [apply last_of_here; exact H|auto].
Qed.
Lemma tdc_snoc_other ps q T : ~ tdc_packet q -> tdc_is ps T -> tdc_is (ps ++ [q]) T.
Proof.
  intros Hq [[H ->]|(pre & p & g & t & H & R)].
  - left. split; [apply Forall_app; auto|reflexivity].
  - right. exists pre, p, g, t. split; [apply last_of_snoc; assumption|exact R].
Qed.
Lemma tdc_snoc ps q g : tdc_packet q -> gdc_is ps g -> 0 <= g < 2 ^ 48 ->
  tdc_is (ps ++ [q]) (lib_tdc q g).
Proof.
  intros H Hg Hr. unfold lib_tdc. destruct (C07_l q g) as (t & Hf & E); [lia|].
  rewrite (Z.mod_small g) in Hf by lia. right. exists ps, q, g, t.
  split; [apply last_of_here; exact H|]. auto.
Qed.

(** The state between packets. *)
Definition ref_ok (seen : list packet) (s : ts) : Prop :=
  tdc_is seen (ts_tdc s) /\ gdc_is seen (ts_gdc s) /\ lsb_is seen (ts_timer s) /\
  0 <= ts_timer s < 2 ^ 32 /\ 0 <= ts_gdc s < 2 ^ 48.

Lemma ref_start : ref_ok [] ts0.
Proof.
  unfold ref_ok, ts0. cbn [ts_tdc ts_gdc ts_timer].
  repeat split; try lia; left; split; constructor.
Qed.

Lemma ref_step seen s c p hits : packet_ok p -> ref_ok seen s ->
  ref_ok (seen ++ [p]) (fst (lib_step c p s hits)) /\
  snd (lib_step c p s hits) =
    hits ++ match kind_of p with
            | KPixel => [lib_hit p (ts_tdc s) (ts_gdc s) c] | _ => [] end.
Proof.
  intros Hp (Ht & Hg & Hl & Hr & Hq).
  destruct (kind_of_spec p) as (K1 & K2 & K3); [apply Hp|].
  destruct (kind_gdc p Hp) as (G4 & G5 & GT).
  unfold lib_step. rewrite K1.
  destruct (kind_of p) eqn:K; rewrite K1 in K2, K3;
    try (rewrite K2 by reflexivity); try (rewrite K3 by reflexivity).
  - assert (T : tdc_packet p) by (apply GT; reflexivity).
    cbn [fst snd]. split; [|rewrite app_nil_r; reflexivity].
    assert (~ lsb_packet p) by (unfold lsb_packet, tdc_packet in *; lia).
    assert (~ msb_packet p) by (unfold msb_packet, tdc_packet in *; lia).
    unfold ref_ok. cbn [ts_tdc ts_gdc ts_timer].
    split; [apply tdc_snoc; assumption|]. split; [apply gdc_snoc_other; assumption|].
    split; [apply lsb_snoc_other; assumption|]. auto.
  - assert (NT : ~ tdc_packet p) by (intros C; apply GT in C; discriminate).
    rewrite lib_gdc_eq by (auto; lia).
    pose proof (lsb_range p). pose proof (msb_range p).
    destruct (Z.eqb_spec (gdc_subtype p) 4) as [E4|E4].
    + assert (lsb_packet p) by (apply G4; auto).
      assert (~ msb_packet p) by (unfold msb_packet, lsb_packet in *; lia).
      cbn [fst snd]. split; [|rewrite app_nil_r; reflexivity].
      unfold ref_ok. cbn [ts_tdc ts_gdc ts_timer].
      split; [apply tdc_snoc_other; assumption|]. split; [apply gdc_snoc_other; assumption|].
      split; [apply lsb_snoc; assumption|]. lia.
    + assert (~ lsb_packet p) by (intros C; apply G4 in C; lia).
      destruct (Z.eqb_spec (gdc_subtype p) 5) as [E5|E5].
      * assert (msb_packet p) by (apply G5; auto).
        cbn [fst snd]. split; [|rewrite app_nil_r; reflexivity].
        unfold ref_ok. cbn [ts_tdc ts_gdc ts_timer].
        split; [apply tdc_snoc_other; assumption|]. split; [apply gdc_snoc; assumption|].
        split; [apply lsb_snoc_other; assumption|]. lia.
      * assert (~ msb_packet p) by (intros C; apply G5 in C; lia).
        cbn [fst snd]. split; [|rewrite app_nil_r; reflexivity].
        unfold ref_ok. cbn [ts_tdc ts_gdc ts_timer].
        split; [apply tdc_snoc_other; assumption|]. split; [apply gdc_snoc_other; assumption|].
        split; [apply lsb_snoc_other; assumption|]. lia.
  - cbn [fst snd].
    assert (~ tdc_packet p) by (intros C; apply GT in C; discriminate).
    assert (~ lsb_packet p) by (intros C; apply G4 in C; destruct C; discriminate).
    assert (~ msb_packet p) by (intros C; apply G5 in C; destruct C; discriminate).
    split; [|reflexivity]. unfold ref_ok.
    split; [apply tdc_snoc_other; assumption|]. split; [apply gdc_snoc_other; assumption|].
    split; [apply lsb_snoc_other; assumption|]. lia.
  - cbn [fst snd].
    assert (~ tdc_packet p) by (intros C; apply GT in C; discriminate).
    assert (~ lsb_packet p) by (intros C; apply G4 in C; destruct C; discriminate).
    assert (~ msb_packet p) by (intros C; apply G5 in C; destruct C; discriminate).
    split; [|rewrite app_nil_r; reflexivity]. unfold ref_ok.
    split; [apply tdc_snoc_other; assumption|]. split; [apply gdc_snoc_other; assumption|].
    split; [apply lsb_snoc_other; assumption|]. lia.
Qed.

Lemma lib_fold_stamped xs : Forall (fun x => packet_ok (snd x)) xs ->
  forall seen s hits, ref_ok seen s ->
  exists hs, snd (lib_fold xs (s, hits)) = hits ++ hs /\ stamped seen xs hs.
Proof.
  induction xs as [|[c p] xs IH]; intros Hx seen s hits Hs.
  - exists []. rewrite app_nil_r. split; [reflexivity|constructor].
  - apply Forall_cons_iff in Hx. destruct Hx as [Hp Hx]. cbn [snd] in Hp.
    destruct (ref_step seen s c p hits Hp Hs) as [Hs' Eh].
    unfold lib_fold. cbn [fold_left fst snd].
    destruct (lib_step c p s hits) as [s' hits'] eqn:E. cbn [fst snd] in *.
    destruct (IH Hx (seen ++ [p]) s' hits' Hs') as (hs & E2 & Hst).
    unfold lib_fold in E2. rewrite E2, Eh, <- app_assoc. eexists. split; [reflexivity|].
    destruct (kind_of p) eqn:K; cbn [app].
    + apply st_other; [congruence|exact Hst].
    + apply st_other; [congruence|exact Hst].
    + destruct Hs as (Ht & Hg & _). apply st_pixel; assumption.
    + apply st_other; [congruence|exact Hst].
Qed.

Lemma parse_raw_stamped m xs : bytes_ok m -> framed near_end m xs ->
  exists hs, parse_raw m = Ok hs /\ stamped [] xs hs.
Proof.
  intros Hb H. rewrite (parse_raw_framed m xs Hb H).
  destruct (lib_fold_stamped xs (framed_ok _ _ _ H Hb) [] ts0 [] ref_start) as (hs & E & Hs).
  exists hs. rewrite E. split; [reflexivity|exact Hs].
Qed.

(** * Streams of complete datasets *)

Lemma stream_framed (fin : list Z -> Prop) ds : fin [] -> Forall dataset_ok ds ->
  framed fin (stream ds) (payloads ds).
Proof.
  intros Hfin. induction 1 as [|d ds Hd H IH]; [constructor; exact Hfin|].
  unfold stream, payloads. cbn [flat_map]. fold (stream ds) (payloads ds).
  destruct Hd as (H3 & H4 & H5 & Hp & Hn).
  unfold dataset_bytes. cbv zeta.
  set (n := 8 * zlen (d_payload d)).
  assert (Hr : 0 <= n <= 65528) by (subst n; unfold zlen in *; lia).
  replace (([84; 80; 88; d_b3 d; d_chip d; d_b5 d; n mod 256; n / 256] ++
            flat_map packet_bytes (d_payload d)) ++ stream ds)
    with (packet_bytes (Packet 84 80 88 (d_b3 d) (d_chip d) (d_b5 d) (n mod 256) (n / 256)) ++
          flat_map packet_bytes (d_payload d) ++ stream ds) by (rewrite <- app_assoc; reflexivity).
  apply fr_data.
  - unfold starts_TPX. cbn. auto.
  - unfold declares_chip, schar. cbn [b4]. unfold is_byte in H4.
    destruct (Z.ltb_spec (d_chip d) 128); lia.
  - unfold declared_packets. cbn [b6 b7]. subst n. lia.
  - exact IH.
Qed.
