(** The packets of a batch; processing in terms of them (C10-C13, C15,
    C18-C20). *)
From Verif Require Export P_Stream S_Core.
From Coq Require Import Lia ZifyBool Sorted.

(** * Payload of a batch *)

Fixpoint payload (m : list Z) (fin : Z) (n : nat) (iter : Z) : option (list packet) :=
  match n with
  | O => Some []
  | S n' =>
      if iter + 8 >=? fin then payload m fin n' iter
      else match read_packet m (iter + 8) with
           | None => None
           | Some p => option_map (cons p) (payload m fin n' (iter + 8))
           end
  end.

Lemma read_packet_at m off p : 0 <= off ->
  (read_packet m off = Some p <-> packet_at m off p).
Proof.
  intros Ho. unfold read_packet. destruct (Z.ltb_spec off 0); [lia|]. split.
  - intros E. exists (firstn (Z.to_nat off) m), (skipn 8 (skipn (Z.to_nat off) m)).
    assert (HL : (Z.to_nat off <= length m)%nat).
    { destruct (Nat.le_gt_cases (Z.to_nat off) (length m)) as [L|L]; [exact L|].
      rewrite skipn_all2 in E by lia. discriminate. }
    split; [|unfold zlen; rewrite firstn_length; lia].
    rewrite <- (firstn_skipn (Z.to_nat off) m) at 1. f_equal.
    set (l := skipn (Z.to_nat off) m) in *. clearbody l.
    destruct l as [|a0 [|a1 [|a2 [|a3 [|a4 [|a5 [|a6 [|a7 rest]]]]]]]]; try discriminate E.
    inversion E. reflexivity.
  - intros (pre & post & -> & Hl). unfold zlen in Hl.
    rewrite skipn_app, skipn_all2 by lia. replace (Z.to_nat off - length pre)%nat with 0%nat by lia.
    destruct p. reflexivity.
Qed.

Lemma read_packet_ok m off p : bytes_ok m -> read_packet m off = Some p -> packet_ok p.
Proof.
  unfold bytes_ok. intros Hb H. assert (H0 : 0 <= off).
  { unfold read_packet in H. destruct (Z.ltb_spec off 0); [discriminate|lia]. }
  apply read_packet_at in H; [|exact H0]. destruct H as (pre & post & -> & _).
  apply Forall_app in Hb. destruct Hb as [_ Hb]. apply Forall_app in Hb. destruct Hb as [Hb _].
  unfold packet_bytes in Hb.
  repeat match goal with H : Forall _ (_ :: _) |- _ => inversion H; clear H; subst end.
  unfold packet_ok. auto 10.
Qed.

Lemma payload_ok m fin n : forall iter ps, bytes_ok m ->
  payload m fin n iter = Some ps -> Forall packet_ok ps.
Proof.
  induction n as [|n IH]; intros iter ps Hb H; cbn in H.
  - inversion H. constructor.
  - destruct (iter + 8 >=? fin); [eauto|].
    destruct (read_packet m (iter + 8)) as [p|] eqn:E; [|discriminate].
    destruct (payload m fin n (iter + 8)) as [qs|] eqn:Q; [|discriminate].
    inversion H. constructor; [|eauto]. eapply read_packet_ok; eauto.
Qed.

Lemma payload_length m fin n : forall iter ps,
  payload m fin n iter = Some ps -> (length ps <= n)%nat.
Proof.
  induction n as [|n IH]; intros iter ps H; cbn in H.
  - inversion H. cbn. lia.
  - destruct (iter + 8 >=? fin); [apply IH in H; lia|].
    destruct (read_packet m (iter + 8)) as [p|]; [|discriminate].
    destruct (payload m fin n (iter + 8)) as [qs|] eqn:Q; [|discriminate].
    inversion H. apply IH in Q. cbn. lia.
Qed.

Lemma packet_ok_b7 ps : Forall packet_ok ps -> Forall (fun p => is_byte (b7 p)) ps.
Proof. apply Forall_impl. intros p H. apply H. Qed.

Lemma process_loop_payload md ex chip m fin n : forall iter s hits, bytes_ok m ->
  process_loop md ex chip m fin n iter s hits =
  match payload m fin n iter with
  | Some ps => Ok (ts_after md s ps, hits ++ emits md ex chip s ps)
  | None => UB OutOfBounds
  end.
Proof.
  induction n as [|n IH]; intros iter s hits Hb; cbn [process_loop payload].
  - cbn. rewrite app_nil_r. reflexivity.
  - destruct (iter + 8 >=? fin); [apply IH; assumption|].
    destruct (read_packet m (iter + 8)) as [p|] eqn:E; [|reflexivity].
    rewrite step_eq by (apply (read_packet_ok _ _ _ Hb E)). cbn [obind].
    rewrite IH by assumption. destruct (payload m fin n (iter + 8)); [|reflexivity].
    cbn [option_map emits]. rewrite app_assoc. reflexivity.
Qed.

Definition batch_payload (b : batch) (m : list Z) (fin : Z) : option (list packet) :=
  payload m fin (Z.to_nat (t_num b)) (t_index b).

Lemma process_packets_payload md ex b m fin s : bytes_ok m ->
  process_packets md ex b m fin s =
  match batch_payload b m fin with
  | Some ps => Ok (ts_after md s ps, t_hits b ++ emits md ex (t_chip b) s ps)
  | None => UB OutOfBounds
  end.
Proof. intros Hb. apply process_loop_payload. exact Hb. Qed.

(** The declarative payload. *)
Lemma payload_is_payload m fin n : forall iter ps, 0 <= iter ->
  payload m fin n iter = Some ps -> is_payload m fin iter (Z.of_nat n) ps.
Proof.
  induction n as [|n IH]; intros iter ps Hi H; cbn in H.
  - inversion H. intros j p. split; [destruct j; discriminate|]. lia.
  - destruct (Z.geb_spec (iter + 8) fin) as [G|G].
    + apply IH in H; [|assumption]. intros j p. rewrite (H j p). lia.
    + destruct (read_packet m (iter + 8)) as [q|] eqn:E; [|discriminate].
      destruct (payload m fin n (iter + 8)) as [qs|] eqn:Q; [|discriminate].
      inversion H; subst. apply IH in Q; [|lia]. intros j p. destruct j as [|j].
      * cbn [nth_error]. rewrite <- read_packet_at by lia.
        replace (iter + 8 * (Z.of_nat 0 + 1)) with (iter + 8) by lia. rewrite E.
        split; [intros X; inversion X; subst; repeat split; lia|].
        intros (_ & _ & X). exact X.
      * cbn [nth_error]. rewrite (Q j p).
        replace (iter + 8 + 8 * (Z.of_nat j + 1)) with (iter + 8 * (Z.of_nat (S j) + 1)) by lia.
        split; intros (A & B & C); repeat split; try assumption; lia.
Qed.

Lemma is_payload_unique m fin iter num ps qs :
  is_payload m fin iter num ps -> is_payload m fin iter num qs -> ps = qs.
Proof.
  intros H1 H2.
  assert (E : forall j, nth_error ps j = nth_error qs j).
  { intros j. destruct (nth_error ps j) as [p|] eqn:A.
    - apply H1 in A. apply H2 in A. congruence.
    - destruct (nth_error qs j) as [q|] eqn:B; [|reflexivity].
      apply H2 in B. apply H1 in B. congruence. }
  clear H1 H2. revert qs E. induction ps as [|p ps IH]; intros qs E.
  - destruct qs; [reflexivity|]. specialize (E 0%nat). discriminate.
  - destruct qs as [|q qs]; [specialize (E 0%nat); discriminate|].
    pose proof (E 0%nat) as E0. cbn in E0. inversion E0; subst. f_equal.
    apply IH. intros j. exact (E (S j)).
Qed.

(** Aligned buffers. *)
Lemma payload_aligned m F n : forall K, (F <= length (packets m))%nat ->
  payload m (8 * Z.of_nat F) n (8 * Z.of_nat K) =
  Some (firstn n (firstn (F - S K) (skipn (S K) (packets m)))).
Proof.
  induction n as [|n IH]; intros K HF; [reflexivity|]. cbn [payload].
  destruct (Z.geb_spec (8 * Z.of_nat K + 8) (8 * Z.of_nat F)) as [G|G].
  - rewrite IH by assumption. replace (F - S K)%nat with 0%nat by lia.
    cbn [firstn]. rewrite !firstn_nil. reflexivity.
  - replace (8 * Z.of_nat K + 8) with (8 * Z.of_nat (S K)) by lia.
    rewrite read_packet_nth.
    destruct (nth_error (packets m) (S K)) as [p|] eqn:E.
    2:{ apply nth_error_None in E. lia. }
    rewrite (skipn_nth _ _ _ E).
    replace (F - S K)%nat with (S (F - S (S K))) by lia. cbn [firstn].
    rewrite IH by assumption. reflexivity.
Qed.

Lemma aligned_end m : zlen m mod 8 = 0 -> zlen m = 8 * Z.of_nat (length (packets m)).
Proof. intros H. pose proof (packets_zlen m) as L. unfold zlen in *. lia. Qed.

Lemma payload_aligned_all m n K : zlen m mod 8 = 0 ->
  payload m (zlen m) n (8 * Z.of_nat K) = Some (firstn n (skipn (S K) (packets m))).
Proof.
  intros H. rewrite (aligned_end m H), payload_aligned by lia. f_equal. f_equal.
  apply firstn_all2. rewrite skipn_length. lia.
Qed.

Lemma payload_unaligned m n : forall K,
  zlen m mod 8 <> 0 -> 8 * Z.of_nat K + 8 <= zlen m ->
  payload m (zlen m) n (8 * Z.of_nat K) =
  if zlen m <? 8 * Z.of_nat (K + n + 1) then None
  else Some (firstn n (skipn (S K) (packets m))).
Proof.
  induction n as [|n IH]; intros K Hm HK.
  - cbn [payload firstn]. destruct (Z.ltb_spec (zlen m) (8 * Z.of_nat (K + 0 + 1))); [lia|reflexivity].
  - cbn [payload].
    pose proof (packets_zlen m) as L. unfold zlen in L. fold (zlen m) in L.
    destruct (Z.geb_spec (8 * Z.of_nat K + 8) (zlen m)) as [G|G]; [exfalso; lia|].
    replace (8 * Z.of_nat K + 8) with (8 * Z.of_nat (S K)) by lia.
    rewrite read_packet_nth.
    destruct (nth_error (packets m) (S K)) as [p|] eqn:E.
    + assert (Hlt : (S K < length (packets m))%nat) by (apply nth_error_Some; congruence).
      rewrite IH by (assumption || lia).
      replace (S K + n + 1)%nat with (K + S n + 1)%nat by lia.
      rewrite (skipn_nth _ _ _ E). cbn [firstn].
      destruct (zlen m <? 8 * Z.of_nat (K + S n + 1)); reflexivity.
    + apply nth_error_None in E.
      destruct (Z.ltb_spec (zlen m) (8 * Z.of_nat (K + S n + 1))); [reflexivity|lia].
Qed.

(** * C10, C11 *)

Lemma find_headers_In m b : In b (find_headers m) <->
  exists k p, nth_error (packets m) k = Some p /\ is_header p = true /\
              b = header_batch (8 * Z.of_nat k) p.
Proof.
  unfold find_headers. rewrite find_from_p, find_p_In.
  split; intros (k & p & H1 & H2 & H3); exists k, p; repeat split; try assumption;
    rewrite H3; f_equal; lia.
Qed.

Lemma packet_at_bounds m off p : packet_at m off p -> 0 <= off /\ off + 8 <= zlen m.
Proof.
  intros (pre & post & -> & <-). rewrite !zlen_app. unfold packet_bytes, zlen. cbn [length]. lia.
Qed.

Lemma packet_at_ok m off p : bytes_ok m -> packet_at m off p -> packet_ok p.
Proof.
  intros Hb H. pose proof (packet_at_bounds _ _ _ H) as [B _].
  apply read_packet_at in H; [|exact B]. eapply read_packet_ok; eauto.
Qed.

Lemma C10_l m b : bytes_ok m ->
  (In b (find_headers m) <->
   exists p, header_at m (t_index b) p /\ t_num b = declared_packets p /\
     declares_chip p (t_chip b) /\ t_hits b = [] /\ t_neutrons b = [] /\ t_ts b = TS 0 0 0).
Proof.
  intros Hb. rewrite find_headers_In. split.
  - intros (k & p & H1 & H2 & ->). exists p.
    apply packet_at_nth in H1. pose proof (packet_at_ok _ _ _ Hb H1) as Hp.
    apply is_header_spec in H2. cbn [header_batch new_batch t_index t_hits t_neutrons t_ts t_chip].
    split; [split; [lia|split; assumption]|].
    split; [apply header_batch_num; apply Hp|]. split; [apply schar_declares; apply Hp|]. auto.
  - intros (p & (A1 & A2 & A3) & Hn & Hc & Hh & Hne & Hts).
    pose proof (packet_at_ok _ _ _ Hb A2) as Hp.
    destruct (packet_at_bounds _ _ _ A2) as [B1 B2].
    exists (Z.to_nat (t_index b / 8)), p.
    assert (E : t_index b = 8 * Z.of_nat (Z.to_nat (t_index b / 8))) by lia.
    split; [apply packet_at_nth; rewrite <- E; exact A2|].
    split; [apply is_header_spec; exact A3|]. rewrite <- E.
    destruct b as [i n c h ne t]. cbn [t_index t_num t_chip t_hits t_neutrons t_ts] in *. subst.
    pose proof (header_batch_num i p ltac:(apply Hp) ltac:(apply Hp)) as N.
    unfold header_batch, new_batch in *. cbn [t_num] in N. rewrite N.
    f_equal. eapply declares_chip_unique; [exact Hc|]. apply schar_declares, Hp.
Qed.

Lemma C10_sorted_l m : StronglySorted (fun a b => t_index a < t_index b) (find_headers m).
Proof. unfold find_headers. rewrite find_from_p. apply find_p_sorted. Qed.

Lemma C11_l m b : bytes_ok m -> In b (find_headers m) ->
  0 <= t_num b <= 8191 /\ -128 <= t_chip b <= 127 /\
  0 <= t_index b /\ t_index b + 8 <= zlen m /\ t_index b mod 8 = 0.
Proof.
  intros Hb H. apply C10_l in H; [|assumption].
  destruct H as (p & (A1 & A2 & A3) & Hn & Hc & _).
  pose proof (packet_at_ok _ _ _ Hb A2) as Hp.
  destruct (packet_at_bounds _ _ _ A2) as [B1 B2].
  destruct Hp as (_ & _ & _ & _ & _ & _ & H6 & H7). unfold is_byte in *.
  unfold declared_packets in Hn. unfold declares_chip in Hc. lia.
Qed.

(** * C13 *)

Lemma C13_l len m : 1 <= len ->
  find_headers_limited len m =
  (firstn (Z.to_nat len) (find_headers m),
   match nth_error (find_headers m) (Z.to_nat len - 1) with
   | Some b => t_index b
   | None => 8 * (zlen m / 8)
   end).
Proof.
  intros Hl. unfold find_headers_limited, find_headers.
  rewrite find_lim_from_p, find_lim_p_spec by lia. cbv zeta.
  rewrite find_from_p, packets_zlen. replace (len - 0) with len by lia.
  f_equal.
Qed.

Lemma max_batch_len_pos env : (forall v, env = Some v -> 0 <= v) -> 1 <= max_batch_len env.
Proof.
  intros H. unfold max_batch_len. destruct env as [v|]; [|lia].
  specialize (H v eq_refl). destruct (Z.eqb_spec v 0); lia.
Qed.

(** * C15 *)

Lemma C15_aligned_l md ex m b s : bytes_ok m -> zlen m mod 8 = 0 -> In b (find_headers m) ->
  exists r, process_packets md ex b m (zlen m) s = Ok r.
Proof.
  intros Hb Hm H. rewrite process_packets_payload by assumption. unfold batch_payload.
  apply find_headers_In in H. destruct H as (k & p & _ & _ & ->). cbn [header_batch new_batch t_index].
  rewrite payload_aligned_all by assumption. eexists. reflexivity.
Qed.

Lemma C15_unaligned_l md ex m b s : bytes_ok m -> zlen m mod 8 <> 0 -> In b (find_headers m) ->
  (zlen m < t_index b + 8 + 8 * t_num b -> process_packets md ex b m (zlen m) s = UB OutOfBounds) /\
  (t_index b + 8 + 8 * t_num b <= zlen m -> exists r, process_packets md ex b m (zlen m) s = Ok r).
Proof.
  intros Hb Hm H. rewrite process_packets_payload by assumption.
  pose proof (C11_l m b Hb H) as (N & _ & I0 & I1 & _).
  apply find_headers_In in H. destruct H as (k & p & _ & _ & ->).
  unfold batch_payload. cbn [header_batch new_batch t_index] in *.
  rewrite payload_unaligned by (assumption || lia).
  set (n := t_num _) in *. clearbody n.
  destruct (Z.ltb_spec (zlen m) (8 * Z.of_nat (k + Z.to_nat n + 1))).
  - split; [reflexivity|]. lia.
  - split; [lia|]. intros _. eexists. reflexivity.
Qed.

(** * C18, C19, C20 *)

Lemma C18_l md b m fin b' ps : bytes_ok m -> 0 <= t_index b -> 0 <= t_num b ->
  is_payload m fin (t_index b) (t_num b) ps ->
  extract_hits md b m fin = Ok b' ->
  exists hs, t_hits b' = t_hits b ++ hs /\ yields md (t_chip b) (t_ts b) ps hs /\
    zlen hs <= t_num b /\
    t_ts b' = fold_left (fun s p => next_ts md p s) ps (t_ts b) /\
    (t_index b', t_num b', t_chip b', t_neutrons b') = (t_index b, t_num b, t_chip b, t_neutrons b).
Proof.
  intros Hb Hi Hn Hp H. unfold extract_hits in H.
  rewrite process_packets_payload in H by assumption.
  unfold batch_payload in H.
  destruct (payload m fin (Z.to_nat (t_num b)) (t_index b)) as [qs|] eqn:Q; [|discriminate].
  cbn [obind] in H. inversion H; subst; clear H.
  pose proof (payload_length _ _ _ _ _ Q) as L.
  apply payload_is_payload in Q; [|assumption]. rewrite Z2Nat.id in Q by assumption.
  rewrite (is_payload_unique _ _ _ _ _ _ Hp Q) in *. clear Hp.
  cbn [t_hits t_ts t_index t_num t_chip t_neutrons].
  eexists. split; [reflexivity|]. split; [apply emits_yields|]. split; [|split; reflexivity].
  pose proof (emits_length md true (t_chip b) (t_ts b) qs). unfold zlen. lia.
Qed.

Lemma C18_exists_l m fin b b' md : bytes_ok m -> 0 <= t_index b -> 0 <= t_num b ->
  extract_hits md b m fin = Ok b' -> exists ps, is_payload m fin (t_index b) (t_num b) ps.
Proof.
  intros Hb Hi Hn H. unfold extract_hits in H.
  rewrite process_packets_payload in H by assumption. unfold batch_payload in H.
  destruct (payload m fin (Z.to_nat (t_num b)) (t_index b)) as [qs|] eqn:Q; [|discriminate].
  apply payload_is_payload in Q; [|assumption]. rewrite Z2Nat.id in Q by assumption. eauto.
Qed.

Lemma C19_l md b m fin b1 b2 ps : bytes_ok m -> 0 <= t_index b -> 0 <= t_num b ->
  is_payload m fin (t_index b) (t_num b) ps ->
  extract_hits md b m fin = Ok b1 -> extract_hits md b1 m fin = Ok b2 ->
  exists hs1 hs2, t_hits b1 = t_hits b ++ hs1 /\ t_hits b2 = t_hits b ++ hs1 ++ hs2 /\
    yields md (t_chip b) (t_ts b) ps hs1 /\
    yields md (t_chip b) (fold_left (fun s p => next_ts md p s) ps (t_ts b)) ps hs2.
Proof.
  intros Hb Hi Hn Hp H1 H2.
  destruct (C18_l _ _ _ _ _ _ Hb Hi Hn Hp H1) as (hs1 & E1 & Y1 & _ & T1 & F1).
  assert (F1i : t_index b1 = t_index b) by congruence.
  assert (F1n : t_num b1 = t_num b) by congruence.
  assert (F1c : t_chip b1 = t_chip b) by congruence.
  rewrite <- F1i, <- F1n in Hp.
  rewrite <- F1i in Hi. rewrite <- F1n in Hn.
  destruct (C18_l _ _ _ _ _ _ Hb Hi Hn Hp H2) as (hs2 & E2 & Y2 & _).
  exists hs1, hs2. rewrite F1c, T1 in Y2. rewrite E1, <- app_assoc in E2.
  repeat split; assumption.
Qed.

Lemma read_packet_ext m m' off : 0 <= off ->
  (forall i, off <= Z.of_nat i < off + 8 -> nth_error m i = nth_error m' i) ->
  read_packet m off = read_packet m' off.
Proof.
  intros Ho H. unfold read_packet. destruct (Z.ltb_spec off 0); [lia|].
  assert (G : forall i, (i < 8)%nat ->
    nth_error (skipn (Z.to_nat off) m) i = nth_error (skipn (Z.to_nat off) m') i).
  { intros i Hi.
    assert (N : forall (l : list Z) k, nth_error (skipn k l) i = nth_error l (k + i)).
    { clear. intros l k. revert l. induction k; intros [|x l]; try reflexivity.
      - destruct i; reflexivity.
      - cbn [skipn plus nth_error]. apply IHk. }
    rewrite !N. apply H. lia. }
  set (l := skipn _ m) in *. set (l' := skipn _ m') in *. clearbody l l'. clear H.
  pose proof (G 0%nat ltac:(lia)) as G0. pose proof (G 1%nat ltac:(lia)) as G1.
  pose proof (G 2%nat ltac:(lia)) as G2. pose proof (G 3%nat ltac:(lia)) as G3.
  pose proof (G 4%nat ltac:(lia)) as G4. pose proof (G 5%nat ltac:(lia)) as G5.
  pose proof (G 6%nat ltac:(lia)) as G6. pose proof (G 7%nat ltac:(lia)) as G7.
  clear G.
  destruct l as [|a0 [|a1 [|a2 [|a3 [|a4 [|a5 [|a6 [|a7 rest]]]]]]]];
  destruct l' as [|c0 [|c1 [|c2 [|c3 [|c4 [|c5 [|c6 [|c7 rest']]]]]]]];
  try reflexivity; cbn in *; try discriminate. congruence.
Qed.

Lemma C20_loop md ex chip m m' fin n : forall iter s hits, 0 <= iter ->
  (forall i, iter + 8 <= Z.of_nat i < iter + 8 + 8 * Z.of_nat n -> nth_error m i = nth_error m' i) ->
  process_loop md ex chip m fin n iter s hits = process_loop md ex chip m' fin n iter s hits.
Proof.
  induction n as [|n IH]; intros iter s hits Hi H; [reflexivity|]. cbn [process_loop].
  destruct (iter + 8 >=? fin).
  - apply IH; [assumption|]. intros i Hr. apply H. lia.
  - rewrite (read_packet_ext m m') by (lia || (intros i Hr; apply H; lia)).
    destruct (read_packet m' (iter + 8)) as [p|]; [|reflexivity].
    destruct (step md ex chip p s hits) as [[s' hits']| | |]; [|reflexivity..].
    cbn [obind]. apply IH; [lia|]. intros i Hr. apply H. lia.
Qed.

Lemma C20_l md ex b m m' fin s : 0 <= t_index b -> 0 <= t_num b ->
  (forall i, t_index b + 8 <= Z.of_nat i < t_index b + 8 + 8 * t_num b ->
     nth_error m i = nth_error m' i) ->
  process_packets md ex b m fin s = process_packets md ex b m' fin s.
Proof.
  intros Hi Hn H. apply C20_loop; [assumption|]. intros i Hr. apply H. lia.
Qed.
