(** Buffers as lists of packets; header search and packet iteration in these
    terms. *)
From Verif Require Export P_TimePackets P_HitTime.
From Coq Require Import Lia ZifyBool Sorted.

Lemma skipn_skipn' {A} a b (l : list A) : skipn a (skipn b l) = skipn (b + a) l.
Proof.
  revert l. induction b as [|b IH]; intros l; [reflexivity|].
  destruct l as [|x l]; [rewrite !skipn_nil; reflexivity|]. cbn [skipn plus]. apply IH.
Qed.

(** * Cutting a buffer into packets *)

Fixpoint packets (m : list Z) : list packet :=
  match m with
  | a0 :: a1 :: a2 :: a3 :: a4 :: a5 :: a6 :: a7 :: rest =>
      Packet a0 a1 a2 a3 a4 a5 a6 a7 :: packets rest
  | _ => []
  end.

Lemma list8_ind (P : list Z -> Prop) :
  (forall m, (length m < 8)%nat -> P m) ->
  (forall p rest, P rest -> P (packet_bytes p ++ rest)) ->
  forall m, P m.
Proof.
  intros H0 H1 m. remember (length m) as n eqn:E.
  assert (Hn : (length m <= n)%nat) by lia. clear E. revert m Hn.
  induction n as [|n IH]; intros m Hn.
  - apply H0. lia.
  - destruct m as [|a0 [|a1 [|a2 [|a3 [|a4 [|a5 [|a6 [|a7 rest]]]]]]]];
      try (apply H0; cbn; lia).
    change (P (packet_bytes (Packet a0 a1 a2 a3 a4 a5 a6 a7) ++ rest)).
    apply H1. apply IH. cbn in Hn. lia.
Qed.

Lemma packets_short m : (length m < 8)%nat -> packets m = [].
Proof.
  intros H. destruct m as [|a0 [|a1 [|a2 [|a3 [|a4 [|a5 [|a6 [|a7 rest]]]]]]]];
    try reflexivity. cbn in H. lia.
Qed.

Lemma packets_bytes p rest : packets (packet_bytes p ++ rest) = p :: packets rest.
Proof. destruct p. reflexivity. Qed.

Lemma packet_bytes_length p : length (packet_bytes p) = 8%nat.
Proof. reflexivity. Qed.

Lemma packets_zlen m : zlen (packets m) = zlen m / 8.
Proof.
  unfold zlen. induction m as [m Hm|p rest IH] using list8_ind.
  - rewrite packets_short by assumption. cbn [length]. lia.
  - rewrite packets_bytes, app_length, packet_bytes_length. cbn [length]. lia.
Qed.

Lemma packets_concat ps rest : packets (flat_map packet_bytes ps ++ rest) = ps ++ packets rest.
Proof.
  induction ps as [|p ps IH]; [reflexivity|].
  cbn [flat_map]. rewrite <- !app_assoc, packets_bytes, IH. reflexivity.
Qed.

Lemma packets_app m rest : zlen m mod 8 = 0 -> packets (m ++ rest) = packets m ++ packets rest.
Proof.
  unfold zlen. induction m as [m Hm|p m IH] using list8_ind; intros H.
  - destruct m; [reflexivity|]. cbn [length] in *. lia.
  - rewrite <- app_assoc, !packets_bytes, IH; [reflexivity|].
    rewrite app_length, packet_bytes_length in H. lia.
Qed.

Lemma packets_ok m : bytes_ok m -> Forall packet_ok (packets m).
Proof.
  induction m as [m Hm|p rest IH] using list8_ind; intros H.
  - rewrite packets_short by assumption. constructor.
  - rewrite packets_bytes. unfold bytes_ok in H. apply Forall_app in H. destruct H as [H1 H2].
    constructor; [|auto]. unfold packet_bytes in H1.
    repeat match goal with H : Forall _ (_ :: _) |- _ => inversion H; clear H; subst end.
    unfold packet_ok. auto 10.
Qed.

Lemma skipn_packets k m : packets (skipn (8 * k) m) = skipn k (packets m).
Proof.
  revert k. induction m as [m Hm|p rest IH] using list8_ind; intros k.
  - rewrite (packets_short m) by assumption. rewrite skipn_nil.
    apply packets_short. rewrite skipn_length. lia.
  - destruct k as [|k]; [reflexivity|].
    rewrite packets_bytes. replace (8 * S k)%nat with (length (packet_bytes p) + 8 * k)%nat
      by (rewrite packet_bytes_length; lia).
    rewrite skipn_app, (skipn_all2 (packet_bytes p)) by lia.
    replace (length (packet_bytes p) + 8 * k - length (packet_bytes p))%nat with (8 * k)%nat by lia.
    cbn [skipn]. apply IH.
Qed.

Lemma read_packet_nth m k : read_packet m (8 * Z.of_nat k) = nth_error (packets m) k.
Proof.
  unfold read_packet. destruct (Z.ltb_spec (8 * Z.of_nat k) 0); [lia|].
  replace (Z.to_nat (8 * Z.of_nat k)) with (8 * k)%nat by lia.
  pose proof (skipn_packets k m) as E.
  replace (nth_error (packets m) k) with (hd_error (skipn k (packets m))).
  2:{ clear. generalize (packets m). induction k; intros [|x l]; try reflexivity. apply IHk. }
  rewrite <- E. set (l := skipn (8 * k) m). clearbody l.
  destruct l as [|a0 [|a1 [|a2 [|a3 [|a4 [|a5 [|a6 [|a7 rest]]]]]]]]; reflexivity.
Qed.

Lemma packet_at_nth m k p :
  packet_at m (8 * Z.of_nat k) p <-> nth_error (packets m) k = Some p.
Proof.
  split.
  - intros (pre & post & -> & Hl). rewrite packets_app by lia. rewrite packets_bytes.
    pose proof (packets_zlen pre) as L. rewrite Hl in L. unfold zlen in *.
    rewrite nth_error_app2 by lia. replace (k - length (packets pre))%nat with 0%nat by lia.
    reflexivity.
  - intros H.
    assert (Hk : (8 * k + 8 <= length m)%nat).
    { assert (k < length (packets m))%nat by (apply nth_error_Some; congruence).
      pose proof (packets_zlen m) as L. unfold zlen in L. lia. }
    exists (firstn (8 * k) m), (skipn (8 * k + 8) m).
    split; [|unfold zlen; rewrite firstn_length; lia].
    rewrite <- (firstn_skipn (8 * k) m) at 1. f_equal.
    pose proof (skipn_packets k m) as E.
    assert (E2 : skipn (8 * k + 8) m = skipn 8 (skipn (8 * k) m)).
    { rewrite skipn_skipn'. reflexivity. }
    rewrite E2.
    assert (Hh : hd_error (packets (skipn (8 * k) m)) = Some p).
    { rewrite E, <- H. clear. generalize (packets m).
      induction k; intros [|x l]; try reflexivity. apply IHk. }
    set (l := skipn (8 * k) m) in *. clearbody l.
    destruct l as [|a0 [|a1 [|a2 [|a3 [|a4 [|a5 [|a6 [|a7 rest]]]]]]]]; try discriminate Hh.
    cbn in Hh. inversion Hh. reflexivity.
Qed.

(** * Header search over packets *)

Fixpoint find_p (ps : list packet) (off : Z) : list batch :=
  match ps with
  | [] => []
  | p :: rest =>
      if is_header p then header_batch off p :: find_p rest (off + 8)
      else find_p rest (off + 8)
  end.

Lemma find_from_p m off : find_from m off = find_p (packets m) off.
Proof.
  revert off. induction m as [m Hm|p rest IH] using list8_ind; intros off.
  - rewrite packets_short by assumption.
    destruct m as [|a0 [|a1 [|a2 [|a3 [|a4 [|a5 [|a6 [|a7 rest]]]]]]]];
      try reflexivity. cbn in Hm. lia.
  - rewrite packets_bytes. destruct p as [c0 c1 c2 c3 c4 c5 c6 c7]. cbn [find_p packet_bytes app find_from b0 b1 b2 b3 b4 b5 b6 b7].
    rewrite IH. reflexivity.
Qed.

Fixpoint find_lim_p (ps : list packet) (off cnt len : Z) : list batch * Z :=
  match ps with
  | [] => ([], off)
  | p :: rest =>
      if is_header p then
        if cnt + 1 >=? len then ([header_batch off p], off)
        else let (bs, c) := find_lim_p rest (off + 8) (cnt + 1) len in
             (header_batch off p :: bs, c)
      else find_lim_p rest (off + 8) cnt len
  end.

Lemma find_lim_from_p m off cnt len :
  find_lim_from m off cnt len = find_lim_p (packets m) off cnt len.
Proof.
  revert off cnt. induction m as [m Hm|p rest IH] using list8_ind; intros off cnt.
  - rewrite packets_short by assumption.
    destruct m as [|a0 [|a1 [|a2 [|a3 [|a4 [|a5 [|a6 [|a7 rest]]]]]]]];
      try reflexivity. cbn in Hm. lia.
  - rewrite packets_bytes. destruct p as [c0 c1 c2 c3 c4 c5 c6 c7].
    cbn [find_lim_p packet_bytes app find_lim_from b0 b1 b2 b3 b4 b5 b6 b7].
    rewrite !IH. reflexivity.
Qed.

Lemma is_header_spec p : is_header p = true <-> starts_TPX p.
Proof. unfold is_header, starts_TPX. rewrite !andb_true_iff, !Z.eqb_eq. tauto. Qed.

Lemma header_size_eq p : is_byte (b6 p) -> is_byte (b7 p) ->
  header_size p = b6 p + 256 * b7 p.
Proof.
  intros H6 H7. unfold header_size. rewrite !schar_byte by assumption.
  unfold is_byte in *. rewrite shiftl_mul by lia. rewrite (lor_add _ _ 8) by lia. lia.
Qed.

Lemma header_batch_num off p : is_byte (b6 p) -> is_byte (b7 p) ->
  t_num (header_batch off p) = declared_packets p.
Proof.
  intros H6 H7. unfold header_batch, new_batch. cbn [t_num].
  rewrite header_size_eq by assumption. rewrite shiftr_div by lia. reflexivity.
Qed.

Lemma schar_declares p : is_byte (b4 p) -> declares_chip p (schar (b4 p)).
Proof.
  unfold declares_chip, schar, is_byte. intros H. destruct (Z.ltb_spec (b4 p) 128); lia.
Qed.

Lemma declares_chip_unique p c c' : declares_chip p c -> declares_chip p c' -> c = c'.
Proof. unfold declares_chip. lia. Qed.

Lemma find_p_In ps off b : In b (find_p ps off) <->
  exists k p, nth_error ps k = Some p /\ is_header p = true /\
              b = header_batch (off + 8 * Z.of_nat k) p.
Proof.
  revert off. induction ps as [|q ps IH]; intros off.
  - cbn. split; [tauto|]. intros (k & p & H & _). destruct k; discriminate.
  - cbn [find_p].
    assert (R : In b (find_p ps (off + 8)) <-> exists k p, nth_error (q :: ps) (S k) = Some p /\
      is_header p = true /\ b = header_batch (off + 8 * Z.of_nat (S k)) p).
    { rewrite IH. split; intros (k & p & H1 & H2 & H3); exists k, p; (split; [exact H1|]);
      (split; [exact H2|]); rewrite H3; f_equal; lia. }
    destruct (is_header q) eqn:Hq.
    + cbn [In]. rewrite R. split.
      * intros [<-|(k & p & H)]; [exists 0%nat, q|exists (S k), p; exact H].
        split; [reflexivity|]. split; [exact Hq|]. f_equal. lia.
      * intros (k & p & H1 & H2 & H3). destruct k as [|k].
        -- cbn in H1. inversion H1. subst. left. f_equal. lia.
        -- right. exists k, p. auto.
    + rewrite R. split.
      * intros (k & p & H). exists (S k), p. exact H.
      * intros (k & p & H1 & H2 & H3). destruct k as [|k].
        -- cbn in H1. inversion H1. congruence.
        -- exists k, p. auto.
Qed.

Lemma find_p_sorted ps off :
  StronglySorted (fun a b => t_index a < t_index b) (find_p ps off).
Proof.
  revert off. induction ps as [|q ps IH]; intros off; cbn [find_p]; [constructor|].
  destruct (is_header q); [|apply IH]. constructor; [apply IH|].
  apply Forall_forall. intros b Hb. apply find_p_In in Hb.
  destruct Hb as (k & p & _ & _ & ->). cbn. lia.
Qed.

Lemma find_p_app ps qs off :
  find_p (ps ++ qs) off = find_p ps off ++ find_p qs (off + 8 * zlen ps).
Proof.
  revert off. induction ps as [|p ps IH]; intros off.
  - cbn [app find_p]. unfold zlen. cbn [length]. f_equal. lia.
  - cbn [app find_p]. rewrite IH, zlen_cons.
    replace (off + 8 + 8 * zlen ps) with (off + 8 * (1 + zlen ps)) by lia.
    destruct (is_header p); reflexivity.
Qed.

Lemma find_p_none ps off : Forall (fun p => is_header p = false) ps -> find_p ps off = [].
Proof.
  revert off. induction ps as [|p ps IH]; intros off H; [reflexivity|].
  inversion H; subst. cbn [find_p]. rewrite H2. auto.
Qed.

(** * Bounded search *)

Lemma find_lim_p_spec ps : forall off cnt len, cnt < len ->
  let all := find_p ps off in
  let n := Z.to_nat (len - cnt) in
  find_lim_p ps off cnt len =
  (firstn n all,
   match nth_error all (n - 1) with
   | Some b => t_index b
   | None => off + 8 * zlen ps
   end).
Proof.
  induction ps as [|p ps IH]; intros off cnt len H; cbv zeta.
  - cbn [find_p find_lim_p]. rewrite firstn_nil.
    unfold zlen. destruct (Z.to_nat (len - cnt) - 1)%nat; cbn; f_equal; lia.
  - cbn [find_p find_lim_p]. destruct (is_header p).
    + destruct (Z.geb_spec (cnt + 1) len).
      * replace (Z.to_nat (len - cnt)) with 1%nat by lia. reflexivity.
      * rewrite IH by lia. cbv zeta.
        replace (Z.to_nat (len - cnt)) with (S (Z.to_nat (len - (cnt + 1)))) by lia.
        cbn [firstn]. f_equal.
        replace (S (Z.to_nat (len - (cnt + 1))) - 1)%nat
          with (S (Z.to_nat (len - (cnt + 1)) - 1))%nat by lia.
        cbn [nth_error]. destruct (nth_error _ _); [reflexivity|]. rewrite zlen_cons. lia.
    + rewrite IH by lia. cbv zeta. f_equal. rewrite zlen_cons.
      destruct (nth_error _ _); [reflexivity|]. lia.
Qed.

(** * One packet *)

Definition emit (md : mode_t) (extract : bool) (chip : Z) (p : packet) (s : ts) : list hit :=
  if extract then
    match kind_of p with
    | KPixel =>
        match md with
        | GDC_mode =>
            if negb (ts_tdc s =? 0) && negb (ts_gdc s =? 0) then
              match hit_gdc p (ts_tdc s) (ts_gdc s) chip with Ok h => [h] | _ => [] end
            else []
        | TDC_mode => if negb (ts_tdc s =? 0) then [hit_tdc p (ts_tdc s) chip] else []
        end
    | _ => []
    end
  else [].

Lemma kind_of_spec p : is_byte (b7 p) ->
  is_tdc p = (match kind_of p with KTdc => true | _ => false end) /\
  (is_tdc p = false -> is_gdc p = match kind_of p with KGdc => true | _ => false end) /\
  (is_tdc p = false -> is_pixel p = match kind_of p with KPixel => true | _ => false end).
Proof.
  intros H. unfold is_tdc, is_gdc, is_pixel, kind_of.
  rewrite schar_eq by (unfold is_byte in *; lia || assumption).
  rewrite !schar_nibble by assumption.
  destruct (Z.eqb_spec (b7 p) 111) as [E|E].
  - repeat split; discriminate.
  - unfold is_byte in H.
    assert (D : 0 <= b7 p / 16 < 16) by lia.
    set (d := b7 p / 16) in *. clearbody d. clear - D.
    assert (C : In d [0;1;2;3;4;5;6;7;8;9;10;11;12;13;14;15]) by (cbn; lia). clear D.
    cbn [In] in C. repeat (destruct C as [<-|C]; [repeat split; reflexivity|]). contradiction.
Qed.

Lemma hit_gdc_ok p tdc gdc chip : exists h, hit_gdc p tdc gdc chip = Ok h.
Proof. eexists. apply hit_gdc_eq. Qed.

Lemma step_eq md ex chip p s hits : is_byte (b7 p) ->
  step md ex chip p s hits = Ok (next_ts md p s, hits ++ emit md ex chip p s).
Proof.
  intros Hb. destruct (kind_of_spec p Hb) as (H1 & H2 & H3).
  unfold step, step_gdc, step_tdc, next_ts, emit.
  destruct md; rewrite H1; destruct (kind_of p) eqn:K;
    rewrite ?H2, ?H3 by (rewrite H1; reflexivity);
    try (destruct ex; rewrite ?app_nil_r; reflexivity).
  - destruct (update_gdc p (ts_timer s) (ts_gdc s)). destruct ex; rewrite app_nil_r; reflexivity.
  - destruct ex; [|rewrite app_nil_r; reflexivity].
    destruct (negb (ts_tdc s =? 0) && negb (ts_gdc s =? 0)); [|rewrite app_nil_r; reflexivity].
    destruct (hit_gdc_ok p (ts_tdc s) (ts_gdc s) chip) as [h ->]. reflexivity.
  - destruct ex; [|rewrite app_nil_r; reflexivity].
    destruct (negb (ts_tdc s =? 0)); [reflexivity|rewrite app_nil_r; reflexivity].
Qed.

(** * A sequence of packets *)

Definition ts_after (md : mode_t) (s : ts) (ps : list packet) : ts :=
  fold_left (fun s p => next_ts md p s) ps s.

Fixpoint emits (md : mode_t) (ex : bool) (chip : Z) (s : ts) (ps : list packet) : list hit :=
  match ps with
  | [] => []
  | p :: rest => emit md ex chip p s ++ emits md ex chip (next_ts md p s) rest
  end.

Lemma run_eq md ex chip ps s hits : Forall (fun p => is_byte (b7 p)) ps ->
  run md ex chip ps s hits = Ok (ts_after md s ps, hits ++ emits md ex chip s ps).
Proof.
  intros H. revert s hits. induction H as [|p ps Hp H IH]; intros s hits.
  - cbn. rewrite app_nil_r. reflexivity.
  - cbn [run emits]. rewrite step_eq by assumption. cbn [obind].
    rewrite IH, app_assoc. reflexivity.
Qed.

Lemma emits_false md chip s ps : emits md false chip s ps = [].
Proof. revert s. induction ps; intros s; [reflexivity|]. cbn. apply IHps. Qed.

Lemma emits_app md ex chip s ps qs :
  emits md ex chip s (ps ++ qs) = emits md ex chip s ps ++ emits md ex chip (ts_after md s ps) qs.
Proof.
  revert s. induction ps as [|p ps IH]; intros s; [reflexivity|].
  cbn [app emits]. rewrite IH, app_assoc. reflexivity.
Qed.

Lemma ts_after_app md s ps qs : ts_after md s (ps ++ qs) = ts_after md (ts_after md s ps) qs.
Proof. unfold ts_after. apply fold_left_app. Qed.

Lemma emit_length md ex chip p s : (length (emit md ex chip p s) <= 1)%nat.
Proof.
  unfold emit. destruct ex; [|cbn; lia]. destruct (kind_of p); try (cbn; lia).
  destruct md.
  - destruct (_ && _); [|cbn; lia]. destruct (hit_gdc _ _ _ _); cbn; lia.
  - destruct (negb _); cbn; lia.
Qed.

Lemma emits_length md ex chip s ps : (length (emits md ex chip s ps) <= length ps)%nat.
Proof.
  revert s. induction ps as [|p ps IH]; intros s; [cbn; lia|].
  cbn [emits length]. rewrite app_length. specialize (IH (next_ts md p s)).
  pose proof (emit_length md ex chip p s). lia.
Qed.

Lemma emits_yields md chip s ps : yields md chip s ps (emits md true chip s ps).
Proof.
  revert s. induction ps as [|p ps IH]; intros s; [constructor|].
  cbn [emits]. unfold emit. destruct (kind_of p) eqn:K.
  1,2,4: cbn [app]; apply y_time; [congruence|apply IH].
  assert (N : next_ts md p s = s) by (unfold next_ts; rewrite K; destruct md; reflexivity).
  rewrite N. destruct md.
  - destruct (Z.eqb_spec (ts_tdc s) 0) as [E1|E1]; cbn [negb andb].
    + cbn [app]. apply y_unready; [assumption| |apply IH]. cbn. tauto.
    + destruct (Z.eqb_spec (ts_gdc s) 0) as [E2|E2]; cbn [negb andb].
      * cbn [app]. apply y_unready; [assumption| |apply IH]. cbn. tauto.
      * destruct (hit_gdc_ok p (ts_tdc s) (ts_gdc s) chip) as [h Hh]. rewrite Hh. cbn [app].
        apply y_hit; [assumption|cbn; tauto|cbn; assumption|apply IH].
  - destruct (Z.eqb_spec (ts_tdc s) 0) as [E1|E1]; cbn [negb app].
    + apply y_unready; [assumption| |apply IH]. cbn. tauto.
    + apply y_hit; [assumption|cbn; tauto|reflexivity|apply IH].
Qed.

Lemma yields_unique md chip s ps hs : yields md chip s ps hs ->
  hs = emits md true chip s ps.
Proof.
  induction 1 as [s|s p ps h hs K R M Y IH|s p ps hs K R Y IH|s p ps hs K Y IH].
  - reflexivity.
  - cbn [emits]. unfold emit at 1. rewrite K.
    assert (N : next_ts md p s = s) by (unfold next_ts; rewrite K; destruct md; reflexivity).
    rewrite N, <- IH. destruct md; cbn in R, M.
    + destruct R as [R1 R2]. destruct (Z.eqb_spec (ts_tdc s) 0); [contradiction|].
      destruct (Z.eqb_spec (ts_gdc s) 0); [contradiction|]. cbn [negb andb]. rewrite M. reflexivity.
    + destruct (Z.eqb_spec (ts_tdc s) 0); [contradiction|]. cbn [negb]. rewrite M. reflexivity.
  - cbn [emits]. unfold emit at 1. rewrite K.
    assert (N : next_ts md p s = s) by (unfold next_ts; rewrite K; destruct md; reflexivity).
    rewrite N, <- IH. destruct md; cbn in R.
    + destruct (Z.eqb_spec (ts_tdc s) 0); [reflexivity|].
      destruct (Z.eqb_spec (ts_gdc s) 0); [reflexivity|]. tauto.
    + destruct (Z.eqb_spec (ts_tdc s) 0); [reflexivity|]. tauto.
  - cbn [emits]. unfold emit at 1. rewrite <- IH. destruct (kind_of p); try reflexivity.
    contradiction.
Qed.

(** * The packet loop on a buffer *)

Lemma skipn_nth {A} k (l : list A) x : nth_error l k = Some x ->
  skipn k l = x :: skipn (S k) l.
Proof.
  revert l. induction k as [|k IH]; intros [|y l] H; try discriminate.
  - cbn in H. inversion H. reflexivity.
  - cbn in H. cbn [skipn]. rewrite (IH l H). reflexivity.
Qed.

(** Iteration with an 8-byte aligned end inside the buffer. *)
Lemma process_loop_run md ex chip m F n : forall K s hits,
  (F <= length (packets m))%nat ->
  process_loop md ex chip m (8 * Z.of_nat F) n (8 * Z.of_nat K) s hits =
  run md ex chip (firstn n (firstn (F - S K) (skipn (S K) (packets m)))) s hits.
Proof.
  induction n as [|n IH]; intros K s hits HF; [reflexivity|].
  cbn [process_loop].
  destruct (Z.geb_spec (8 * Z.of_nat K + 8) (8 * Z.of_nat F)) as [G|G].
  - rewrite IH by assumption. replace (F - S K)%nat with 0%nat by lia.
    cbn [firstn]. rewrite !firstn_nil. reflexivity.
  - replace (8 * Z.of_nat K + 8) with (8 * Z.of_nat (S K)) by lia.
    rewrite read_packet_nth.
    destruct (nth_error (packets m) (S K)) as [p|] eqn:E.
    2:{ apply nth_error_None in E. lia. }
    rewrite (skipn_nth _ _ _ E).
    replace (F - S K)%nat with (S (F - S (S K))) by lia. cbn [firstn run].
    destruct (step md ex chip p s hits) as [[s' hits']| | |]; [|reflexivity..].
    cbn [obind]. apply IH. assumption.
Qed.

(** Iteration up to a buffer end that is not a multiple of 8. *)
Lemma process_loop_unaligned md ex chip m n : forall K s hits,
  bytes_ok m -> zlen m mod 8 <> 0 -> 8 * Z.of_nat K + 8 <= zlen m ->
  process_loop md ex chip m (zlen m) n (8 * Z.of_nat K) s hits =
  if zlen m <? 8 * Z.of_nat (K + n + 1) then UB OutOfBounds
  else run md ex chip (firstn n (skipn (S K) (packets m))) s hits.
Proof.
  induction n as [|n IH]; intros K s hits Hb Hm HK.
  - cbn [process_loop firstn run]. destruct (Z.ltb_spec (zlen m) (8 * Z.of_nat (K + 0 + 1))); [lia|reflexivity].
  - cbn [process_loop].
    pose proof (packets_zlen m) as L. unfold zlen in L. fold (zlen m) in L.
    destruct (Z.geb_spec (8 * Z.of_nat K + 8) (zlen m)) as [G|G]; [exfalso; lia|].
    replace (8 * Z.of_nat K + 8) with (8 * Z.of_nat (S K)) by lia.
    rewrite read_packet_nth.
    destruct (nth_error (packets m) (S K)) as [p|] eqn:E.
    + assert (Hlt : (S K < length (packets m))%nat) by (apply nth_error_Some; congruence).
      assert (Hp : is_byte (b7 p)).
      { pose proof (packets_ok m Hb) as HF. rewrite Forall_forall in HF.
        apply nth_error_In in E. apply HF in E. apply E. }
      rewrite step_eq by assumption. cbn [obind].
      rewrite IH by (assumption || lia).
      replace (S K + n + 1)%nat with (K + S n + 1)%nat by lia.
      rewrite (skipn_nth _ _ _ E). cbn [firstn run].
      rewrite step_eq by assumption. reflexivity.
    + apply nth_error_None in E.
      destruct (Z.ltb_spec (zlen m) (8 * Z.of_nat (K + S n + 1))); [reflexivity|lia].
Qed.
