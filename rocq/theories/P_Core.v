(** Batch level proofs: framing (C12), two phases (C16), resumed search
    (C14). *)
From Verif Require Export P_Payload.
From Coq Require Import Lia ZifyBool Sorted.

(** * C12: framing *)

Definition ds_packets (d : dataset) : list packet := ds_header d :: d_payload d.

Lemma dataset_bytes_eq d : dataset_bytes d = flat_map packet_bytes (ds_packets d).
Proof. reflexivity. Qed.

Lemma stream_eq ds : stream ds = flat_map packet_bytes (flat_map ds_packets ds).
Proof.
  unfold stream. induction ds as [|d ds IH]; [reflexivity|].
  cbn [flat_map]. rewrite IH, dataset_bytes_eq, flat_map_app. reflexivity.
Qed.

Lemma packets_stream ds : packets (stream ds) = flat_map ds_packets ds.
Proof.
  rewrite stream_eq. rewrite <- (app_nil_r (flat_map packet_bytes _)), packets_concat.
  apply app_nil_r.
Qed.

Lemma flat_bytes_len ps : zlen (flat_map packet_bytes ps) = 8 * zlen ps.
Proof.
  unfold zlen. induction ps as [|p ps IH]; [reflexivity|].
  cbn [flat_map]. rewrite app_length, packet_bytes_length. cbn [length]. lia.
Qed.

Lemma stream_len ds : zlen (stream ds) = 8 * zlen (flat_map ds_packets ds).
Proof. rewrite stream_eq. apply flat_bytes_len. Qed.

Lemma ds_header_ok d : dataset_ok d -> packet_ok (ds_header d).
Proof.
  intros (H1 & H2 & H3 & H4 & H5). pose proof (zlen_nonneg (d_payload d)) as N.
  unfold packet_ok, ds_header. cbn [b0 b1 b2 b3 b4 b5 b6 b7]. unfold is_byte in *. lia.
Qed.

Lemma ds_header_decl d : dataset_ok d -> declared_packets (ds_header d) = zlen (d_payload d).
Proof.
  intros (H1 & H2 & H3 & H4 & H5). pose proof (zlen_nonneg (d_payload d)) as N.
  unfold declared_packets, ds_header. cbn [b6 b7]. lia.
Qed.

Lemma bytes_ok_packets ps : Forall packet_ok ps -> bytes_ok (flat_map packet_bytes ps).
Proof.
  induction 1 as [|p ps Hp H IH]; [constructor|]. unfold bytes_ok in *. cbn [flat_map].
  apply Forall_app. split; [|exact IH].
  unfold packet_bytes. destruct Hp as (?&?&?&?&?&?&?&?). repeat (apply Forall_cons; [assumption|]). apply Forall_nil.
Qed.

Lemma stream_ok ds : Forall dataset_ok ds -> bytes_ok (stream ds).
Proof.
  intros H. rewrite stream_eq. apply bytes_ok_packets.
  induction H as [|d ds Hd H IH]; [constructor|]. cbn [flat_map]. apply Forall_app.
  split; [|exact IH]. constructor; [apply ds_header_ok; exact Hd|apply Hd].
Qed.

Fixpoint expected (off : Z) (ds : list dataset) : list batch :=
  match ds with
  | [] => []
  | d :: rest => header_batch off (ds_header d)
                 :: expected (off + 8 * zlen (ds_packets d)) rest
  end.

Lemma find_expected ds : forall off, Forall no_false_header ds ->
  find_p (flat_map ds_packets ds) off = expected off ds.
Proof.
  induction ds as [|d ds IH]; intros off H; [reflexivity|]. inversion H as [|? ? Hd Hds]; subst.
  cbn [flat_map expected]. rewrite find_p_app, IH by assumption.
  unfold ds_packets at 1. cbn [find_p]. replace (is_header (ds_header d)) with true by reflexivity.
  rewrite find_p_none.
  - reflexivity.
  - eapply Forall_impl; [|exact Hd]. intros p Hp. cbn in Hp.
    destruct (is_header p) eqn:E; [|reflexivity]. apply is_header_spec in E. contradiction.
Qed.

Lemma expected_nth ds : forall off i d, nth_error ds i = Some d ->
  nth_error (expected off ds) i =
  Some (header_batch (off + zlen (stream (firstn i ds))) (ds_header d)).
Proof.
  induction ds as [|d0 ds IH]; intros off i d H; [destruct i; discriminate|].
  destruct i as [|i].
  - cbn in H. inversion H; subst. cbn [expected nth_error firstn]. f_equal. f_equal.
    unfold stream, zlen. cbn. lia.
  - cbn [nth_error expected firstn] in *. rewrite (IH _ _ _ H). f_equal. f_equal.
    rewrite !stream_len. cbn [flat_map]. rewrite zlen_app. lia.
Qed.

Lemma expected_length ds : forall off, length (expected off ds) = length ds.
Proof. induction ds as [|d ds IH]; intros off; [reflexivity|]. cbn. rewrite IH. reflexivity. Qed.

Lemma firstn_app_exact {A} (l r : list A) : firstn (length l) (l ++ r) = l.
Proof. rewrite firstn_app, Nat.sub_diag, firstn_all. cbn. apply app_nil_r. Qed.

Lemma C12_l ds : Forall dataset_ok ds -> Forall no_false_header ds ->
  let bs := find_headers (stream ds) in
  length bs = length ds /\
  forall i d, nth_error ds i = Some d ->
  exists b, nth_error bs i = Some b /\
    t_index b = zlen (stream (firstn i ds)) /\ t_num b = zlen (d_payload d) /\
    declares_chip (ds_header d) (t_chip b) /\
    forall md ex s, process_packets md ex b (stream ds) (zlen (stream ds)) s =
                    run md ex (t_chip b) (d_payload d) s [].
Proof.
  intros Hok Hnf. cbv zeta.
  assert (E : find_headers (stream ds) = expected 0 ds).
  { unfold find_headers. rewrite find_from_p, packets_stream. apply find_expected. exact Hnf. }
  rewrite E. split; [apply expected_length|]. intros i d Hd.
  exists (header_batch (0 + zlen (stream (firstn i ds))) (ds_header d)).
  split; [apply expected_nth; exact Hd|].
  assert (Hdo : dataset_ok d).
  { rewrite Forall_forall in Hok. apply Hok. eapply nth_error_In; eauto. }
  pose proof (ds_header_ok d Hdo) as Hp.
  split; [cbn; lia|].
  assert (Hn : t_num (header_batch (0 + zlen (stream (firstn i ds))) (ds_header d)) = zlen (d_payload d)).
  { rewrite header_batch_num by apply Hp. apply ds_header_decl. exact Hdo. }
  split; [exact Hn|]. split; [apply schar_declares; apply Hp|].
  intros md ex s. rewrite process_packets_payload by (apply stream_ok; exact Hok).
  unfold batch_payload. rewrite Hn. cbn [header_batch new_batch t_index t_chip t_hits].
  replace (0 + zlen (stream (firstn i ds)))
    with (8 * Z.of_nat (length (flat_map ds_packets (firstn i ds))))
    by (rewrite stream_len; unfold zlen; lia).
  rewrite payload_aligned_all by (rewrite stream_len; lia).
  rewrite packets_stream. rewrite run_eq by (apply packet_ok_b7; apply Hdo).
  assert (S : skipn (S (length (flat_map ds_packets (firstn i ds)))) (flat_map ds_packets ds) =
              d_payload d ++ flat_map ds_packets (skipn (S i) ds)).
  { assert (D : flat_map ds_packets ds = flat_map ds_packets (firstn i ds) ++
                ds_packets d ++ flat_map ds_packets (skipn (S i) ds)).
    { rewrite <- (firstn_skipn i ds) at 1. rewrite flat_map_app. f_equal.
      rewrite (skipn_nth _ _ _ Hd). reflexivity. }
    rewrite D. clear. induction (flat_map ds_packets (firstn i ds)) as [|x l IH]; [reflexivity|].
    cbn [app length]. exact IH. }
  rewrite S. unfold zlen. rewrite Nat2Z.id, firstn_app_exact. reflexivity.
Qed.

(** * C16: two phases *)

(** Chip and payload of the batches. *)
Fixpoint items_of (bs : list batch) (m : list Z) (fin : Z) : option (list (Z * list packet)) :=
  match bs with
  | [] => Some []
  | b :: rest =>
      match batch_payload b m fin, items_of rest m fin with
      | Some ps, Some it => Some ((t_chip b, ps) :: it)
      | _, _ => None
      end
  end.

Fixpoint pass (md : mode_t) (it : list (Z * list packet)) (s : ts) : list (list hit) * ts :=
  match it with
  | [] => ([], s)
  | (chip, ps) :: rest =>
      let (hs, s') := pass md rest (ts_after md s ps) in
      (emits md true chip s ps :: hs, s')
  end.

Definition fresh (b : batch) : Prop := t_hits b = [].

Lemma emits_tdc_only chip ps : forall s s', ts_tdc s = ts_tdc s' ->
  emits TDC_mode true chip s ps = emits TDC_mode true chip s' ps /\
  ts_tdc (ts_after TDC_mode s ps) = ts_tdc (ts_after TDC_mode s' ps).
Proof.
  induction ps as [|p ps IH]; intros s s' H; [split; [reflexivity|exact H]|].
  assert (N : ts_tdc (next_ts TDC_mode p s) = ts_tdc (next_ts TDC_mode p s')).
  { unfold next_ts. destruct (kind_of p); cbn [ts_tdc]; congruence. }
  destruct (IH _ _ N) as [E1 E2]. split; [|exact E2].
  cbn [emits]. rewrite E1. f_equal. unfold emit. rewrite H. reflexivity.
Qed.

Definition bare (b : batch) (st : ts) : batch :=
  Batch (t_index b) (t_num b) (t_chip b) (t_hits b) (t_neutrons b) st.

Definition start_ts (md : mode_t) (b : batch) (s : ts) : ts :=
  match md with
  | GDC_mode => s
  | TDC_mode => TS (ts_tdc s) (ts_gdc (t_ts b)) (ts_timer (t_ts b))
  end.

Lemma update_timestamp_eq md b m fin s : bytes_ok m ->
  update_timestamp md b m fin s =
  match batch_payload b m fin with
  | Some ps => Ok (bare b (start_ts md b s), ts_after md s ps)
  | None => UB OutOfBounds
  end.
Proof.
  intros Hb. unfold update_timestamp. fold (start_ts md b s).
  rewrite process_packets_payload by assumption.
  unfold batch_payload. cbn [t_num t_index t_hits t_chip].
  destruct (payload m fin (Z.to_nat (t_num b)) (t_index b)); [|reflexivity].
  cbn [obind]. rewrite emits_false, app_nil_r. reflexivity.
Qed.

Lemma locate_extract md bs m fin : forall s, bytes_ok m -> Forall fresh bs ->
  (let! (bs1, s1) := locate md bs m fin s in
   let! bs2 := extract_all md bs1 m fin in Ok (map t_hits bs2, s1)) =
  match items_of bs m fin with
  | Some it => Ok (pass md it s)
  | None => UB OutOfBounds
  end.
Proof.
  induction bs as [|b bs IH]; intros s Hb HF; [reflexivity|].
  inversion HF as [|? ? Hf HF']; subst.
  cbn [locate items_of]. rewrite update_timestamp_eq by assumption.
  destruct (batch_payload b m fin) as [ps|] eqn:P; [|reflexivity]. cbn [obind].
  specialize (IH (ts_after md s ps) Hb HF').
  destruct (locate md bs m fin (ts_after md s ps)) as [[bs1 s1]|e|u|] eqn:L; cbn [obind] in *.
  - cbn [extract_all]. unfold extract_hits at 1.
    rewrite process_packets_payload by assumption.
    change (batch_payload (bare b (start_ts md b s)) m fin) with (batch_payload b m fin).
    rewrite P. cbn [obind bare t_index t_num t_chip t_hits t_neutrons t_ts].
    assert (E : emits md true (t_chip b) (start_ts md b s) ps = emits md true (t_chip b) s ps).
    { destruct md; [reflexivity|]. apply emits_tdc_only. reflexivity. }
    rewrite E, Hf. cbn [app].
    destruct (extract_all md bs1 m fin) as [bs2|e|u|]; cbn [obind map t_hits] in *.
    + destruct (items_of bs m fin) as [it|]; [|discriminate]. cbn [pass].
      inversion IH as [IH']. destruct (pass md it (ts_after md s ps)) as [hs s2].
      inversion IH'. reflexivity.
    + destruct (items_of bs m fin); [discriminate|exact IH].
    + destruct (items_of bs m fin); [discriminate|exact IH].
    + destruct (items_of bs m fin); [discriminate|exact IH].
  - destruct (items_of bs m fin); [discriminate|exact IH].
  - destruct (items_of bs m fin); [discriminate|exact IH].
  - destruct (items_of bs m fin); [discriminate|exact IH].
Qed.

Lemma one_pass_eq md bs m fin : forall s, bytes_ok m -> Forall fresh bs ->
  one_pass md bs m fin s =
  match items_of bs m fin with
  | Some it => Ok (pass md it s)
  | None => UB OutOfBounds
  end.
Proof.
  induction bs as [|b bs IH]; intros s Hb HF; [reflexivity|].
  inversion HF as [|? ? Hf HF']; subst.
  cbn [one_pass items_of]. rewrite process_packets_payload by assumption.
  destruct (batch_payload b m fin) as [ps|]; [|reflexivity]. cbn [obind].
  rewrite IH by assumption. destruct (items_of bs m fin) as [it|]; [|reflexivity].
  cbn [obind pass]. rewrite Hf. destruct (pass md it (ts_after md s ps)). reflexivity.
Qed.

Lemma C16_l md bs m fin s : bytes_ok m -> Forall fresh bs ->
  (let! (bs1, s1) := locate md bs m fin s in
   let! bs2 := extract_all md bs1 m fin in Ok (map t_hits bs2, s1)) =
  one_pass md bs m fin s.
Proof.
  intros Hb HF. rewrite locate_extract, one_pass_eq by assumption. reflexivity.
Qed.

Lemma find_headers_fresh m : Forall fresh (find_headers m).
Proof.
  apply Forall_forall. intros b H. apply find_headers_In in H.
  destruct H as (k & p & _ & _ & ->). reflexivity.
Qed.

Lemma C16_whole_l md m s : bytes_ok m ->
  (let! (bs, s1) := whole md m s in Ok (map t_hits bs, s1)) =
  one_pass md (find_headers m) m (zlen m) s.
Proof.
  intros Hb. rewrite <- C16_l by (try apply find_headers_fresh; assumption).
  unfold whole. destruct (locate _ _ _ _ _) as [[bs1 s1]| | |]; [|reflexivity..].
  cbn [obind]. destruct (extract_all _ _ _ _); reflexivity.
Qed.

(** * C14: resumed search *)

Definition chip_of (p : packet) : Z := schar (b4 p).
Definition num_of (p : packet) : nat := Z.to_nat (Z.shiftr (header_size p) 3).

(** Items of a packet list cut at packet number [C]. *)
Fixpoint items_cut (C : nat) (ps : list packet) : list (Z * list packet) :=
  match C, ps with
  | S C', p :: rest =>
      if is_header p then (chip_of p, firstn (num_of p) (firstn C' rest)) :: items_cut C' rest
      else items_cut C' rest
  | _, _ => []
  end.

Definition items (ps : list packet) := items_cut (length ps) ps.

Lemma items_of_find m C : forall pre qs, packets m = pre ++ qs -> (C <= length qs)%nat ->
  items_of (find_p (firstn C qs) (8 * zlen pre)) m (8 * Z.of_nat (length pre + C)) =
  Some (items_cut C qs).
Proof.
  induction C as [|C IH]; intros pre qs E L; [destruct qs; reflexivity|].
  destruct qs as [|p qs]; [reflexivity|]. cbn [length] in L. cbn [firstn find_p items_cut].
  assert (E' : packets m = (pre ++ [p]) ++ qs) by (rewrite <- app_assoc; exact E).
  specialize (IH (pre ++ [p]) qs E' ltac:(lia)).
  rewrite zlen_app, app_length in IH. cbn [length] in IH.
  replace (8 * (zlen pre + zlen [p])) with (8 * zlen pre + 8) in IH by (unfold zlen; cbn [length]; lia).
  replace (length pre + 1 + C)%nat with (length pre + S C)%nat in IH by lia.
  destruct (is_header p); [|exact IH]. cbn [items_of]. rewrite IH.
  unfold batch_payload, header_batch, new_batch. cbn [t_num t_index t_chip].
  unfold zlen at 1. rewrite payload_aligned by (rewrite E, app_length; cbn [length]; lia).
  rewrite E. replace (length pre + S C - S (length pre))%nat with C by lia.
  assert (S : skipn (S (length pre)) (pre ++ p :: qs) = qs).
  { clear. induction pre; [reflexivity|exact IHpre]. }
  rewrite S. reflexivity.
Qed.

(** Specification of one bounded search in packet terms. *)
Lemma find_lim_cut ps len : 1 <= len -> exists C tl,
  (C <= length ps)%nat /\
  find_lim_p ps 0 0 len = (find_p (firstn C ps) 0 ++ tl, 8 * Z.of_nat C) /\
  ((tl = [] /\ C = length ps) \/
   (exists p, nth_error ps C = Some p /\ is_header p = true /\
      tl = [header_batch (8 * Z.of_nat C) p])) /\
  (2 <= len -> ps <> [] -> (1 <= C)%nat).
Proof.
  intros Hl.
  assert (G : forall ps off cnt, cnt < len -> exists C tl,
    (C <= length ps)%nat /\
    find_lim_p ps off cnt len = (find_p (firstn C ps) off ++ tl, off + 8 * Z.of_nat C) /\
    ((tl = [] /\ C = length ps) \/
     (exists p, nth_error ps C = Some p /\ is_header p = true /\
        tl = [header_batch (off + 8 * Z.of_nat C) p])) /\
    (cnt + 1 < len -> ps <> [] -> (1 <= C)%nat)).
  { clear ps. induction ps as [|p ps IH]; intros off cnt H.
    - exists 0%nat, []. cbn. repeat split; try lia.
      + f_equal. lia.
      + left. auto.
      + congruence.
    - cbn [find_lim_p]. destruct (is_header p) eqn:Hp.
      + destruct (Z.geb_spec (cnt + 1) len) as [G|G].
        * exists 0%nat, [header_batch off p]. cbn [firstn find_p app length].
          split; [lia|]. split; [f_equal; lia|]. split.
          -- right. exists p. cbn [nth_error]. repeat split; try assumption. f_equal. f_equal. lia.
          -- intros. lia.
        * destruct (IH (off + 8) (cnt + 1) ltac:(lia)) as (C & tl & L & E & D & _).
          exists (S C), tl. rewrite E. cbn [firstn find_p]. rewrite Hp. cbn [length].
          split; [lia|]. split; [cbn [app]; f_equal; lia|]. split; [|intros; lia].
          destruct D as [[-> ->]|(q & Q1 & Q2 & ->)]; [left; auto|right].
          exists q. cbn [nth_error]. repeat split; try assumption. f_equal. f_equal. lia.
      + destruct (IH (off + 8) cnt H) as (C & tl & L & E & D & _).
        exists (S C), tl. rewrite E. cbn [firstn find_p]. rewrite Hp. cbn [length].
        split; [lia|]. split; [f_equal; lia|]. split; [|intros; lia].
        destruct D as [[-> ->]|(q & Q1 & Q2 & ->)]; [left; auto|right].
        exists q. cbn [nth_error]. repeat split; try assumption. f_equal. f_equal. lia. }
  destruct (G ps 0 0 ltac:(lia)) as (C & tl & L & E & D & P).
  exists C, tl. rewrite E. repeat split; try assumption. intros H. apply P. lia.
Qed.

Lemma items_of_app bs bs' m fin it it' :
  items_of bs m fin = Some it -> items_of bs' m fin = Some it' ->
  items_of (bs ++ bs') m fin = Some (it ++ it').
Proof.
  revert it. induction bs as [|b bs IH]; intros it H H'.
  - cbn in H. inversion H. exact H'.
  - cbn [items_of app] in *. destruct (batch_payload b m fin); [|discriminate].
    destruct (items_of bs m fin) as [i|]; [|discriminate]. inversion H; subst.
    rewrite (IH i eq_refl H'). reflexivity.
Qed.

Lemma pass_app md it it' s :
  pass md (it ++ it') s =
  (fst (pass md it s) ++ fst (pass md it' (snd (pass md it s))),
   snd (pass md it' (snd (pass md it s)))).
Proof.
  revert s. induction it as [|[c ps] it IH]; intros s.
  - cbn. destruct (pass md it' s). reflexivity.
  - cbn [app pass]. rewrite IH. destruct (pass md it (ts_after md s ps)) as [hs s'].
    cbn [fst snd]. reflexivity.
Qed.

Lemma pass_nil_item md c s : pass md [(c, [])] s = ([[]], s).
Proof. reflexivity. Qed.

(** One window: always succeeds; hits are those of the cut items. *)
Lemma window m s len : bytes_ok m -> 1 <= len ->
  exists C bs2 bs bs1, (C <= length (packets m))%nat /\
   find_headers_limited len m = (bs, 8 * Z.of_nat C) /\
   locate GDC_mode bs m (8 * Z.of_nat C) s = Ok (bs1, snd (pass GDC_mode (items_cut C (packets m)) s)) /\
   extract_all GDC_mode bs1 m (8 * Z.of_nat C) = Ok bs2 /\
   concat (map t_hits bs2) = concat (fst (pass GDC_mode (items_cut C (packets m)) s)) /\
   (C = length (packets m) \/
    exists p, nth_error (packets m) C = Some p /\ is_header p = true) /\
   (2 <= len -> packets m <> [] -> (1 <= C)%nat).
Proof.
  intros Hb Hl. destruct (find_lim_cut (packets m) len Hl) as (C & tl & L & E & D & P).
  exists C.
  set (bs := find_p (firstn C (packets m)) 0 ++ tl).
  assert (Hfr : Forall fresh bs).
  { apply Forall_app. split.
    - apply Forall_forall. intros b Hin. apply find_p_In in Hin.
      destruct Hin as (k & p & _ & _ & ->). reflexivity.
    - destruct D as [[-> _]|(p & _ & _ & ->)]; repeat constructor. }
  pose proof (locate_extract GDC_mode bs m (8 * Z.of_nat C) s Hb Hfr) as LE.
  assert (I1 : items_of (find_p (firstn C (packets m)) 0) m (8 * Z.of_nat C)
               = Some (items_cut C (packets m))).
  { apply (items_of_find m C [] (packets m) eq_refl). exact L. }
  assert (I2 : exists it', items_of tl m (8 * Z.of_nat C) = Some it' /\
     (it' = [] \/ exists c, it' = [(c, [])])).
  { destruct D as [[-> _]|(p & N1 & _ & ->)].
    - exists []. split; [reflexivity|auto].
    - cbn [items_of]. unfold batch_payload, header_batch, new_batch. cbn [t_num t_index t_chip].
      rewrite payload_aligned by assumption. replace (C - S C)%nat with 0%nat by lia.
      cbn [firstn]. rewrite firstn_nil. eexists. split; [reflexivity|]. right. eexists. reflexivity. }
  destruct I2 as (it' & I2 & T).
  pose proof (items_of_app _ _ _ _ _ _ I1 I2) as I3. fold bs in I3. rewrite I3 in LE.
  rewrite pass_app in LE.
  assert (PT : snd (pass GDC_mode it' (snd (pass GDC_mode (items_cut C (packets m)) s)))
               = snd (pass GDC_mode (items_cut C (packets m)) s) /\
               concat (fst (pass GDC_mode it' (snd (pass GDC_mode (items_cut C (packets m)) s)))) = []).
  { destruct T as [->|[c ->]]; cbn; auto. }
  destruct PT as [PT1 PT2]. rewrite PT1 in LE.
  destruct (locate GDC_mode bs m (8 * Z.of_nat C) s) as [[bs1 s1]| | |] eqn:LO; try discriminate.
  cbn [obind] in LE.
  destruct (extract_all GDC_mode bs1 m (8 * Z.of_nat C)) as [bs2| | |] eqn:EX; try discriminate.
  cbn [obind] in LE. inversion LE as [[LE1 LE2]].
  exists bs2, bs, bs1. split; [exact L|].
  split; [unfold find_headers_limited; rewrite find_lim_from_p; exact E|].
  split; [rewrite LE2 in LO; exact LO|]. split; [exact EX|].
  split; [rewrite LE1, concat_app, PT2, app_nil_r; reflexivity|].
  split; [|exact P].
  destruct D as [[_ D]|(p & N1 & N2 & _)]; [left; exact D|right; exists p; auto].
Qed.

(** Disjointness on packets. *)
Definition disjoint_p (ps : list packet) : Prop :=
  forall k p k' p', nth_error ps k = Some p -> is_header p = true ->
    nth_error ps k' = Some p' -> is_header p' = true -> (k < k')%nat ->
    (k + num_of p < k')%nat.

Lemma disjoint_tail p ps : disjoint_p (p :: ps) -> disjoint_p ps.
Proof.
  intros H k q k' q' N1 H1 N2 H2 L. specialize (H (S k) q (S k') q' N1 H1 N2 H2). lia.
Qed.

Lemma items_split C : forall ps, (C <= length ps)%nat -> disjoint_p ps ->
  (C = length ps \/ exists p, nth_error ps C = Some p /\ is_header p = true) ->
  items ps = items_cut C ps ++ items (skipn C ps).
Proof.
  induction C as [|C IH]; intros ps L HD HC; [destruct ps; reflexivity|].
  destruct ps as [|p ps]; [cbn in L; lia|].
  cbn [length] in L. unfold items. cbn [length items_cut skipn].
  assert (HC' : C = length ps \/ exists q, nth_error ps C = Some q /\ is_header q = true).
  { destruct HC as [HC|(q & N & Hq)]; [left; cbn in HC; lia|right; exists q; auto]. }
  specialize (IH ps ltac:(lia) (disjoint_tail _ _ HD) HC'). unfold items in IH.
  destruct (is_header p) eqn:Hp; [|exact IH]. rewrite IH. cbn [app]. f_equal. f_equal.
  rewrite firstn_all.
  destruct HC' as [HC'|(q & N & Hq)].
  - rewrite HC', firstn_all. reflexivity.
  - pose proof (HD 0%nat p (S C) q eq_refl Hp N Hq ltac:(lia)) as G. cbn in G.
    rewrite firstn_firstn. f_equal. lia.
Qed.

Lemma disjoint_skip C : forall ps, disjoint_p ps -> disjoint_p (skipn C ps).
Proof.
  induction C as [|C IH]; intros ps H; [exact H|]. destruct ps as [|p ps]; [exact H|].
  cbn. apply IH. eapply disjoint_tail; eauto.
Qed.

Lemma disjoint_spec m : bytes_ok m -> payloads_disjoint m -> disjoint_p (packets m).
Proof.
  intros Hb H k p k' p' N1 H1 N2 H2 L.
  pose proof (packets_ok m Hb) as HF. rewrite Forall_forall in HF.
  pose proof (HF p (nth_error_In _ _ N1)) as Hp.
  specialize (H (8 * Z.of_nat k) p (8 * Z.of_nat k') p').
  assert (A : header_at m (8 * Z.of_nat k) p).
  { split; [lia|]. split; [apply packet_at_nth; exact N1|apply is_header_spec; exact H1]. }
  assert (B : header_at m (8 * Z.of_nat k') p').
  { split; [lia|]. split; [apply packet_at_nth; exact N2|apply is_header_spec; exact H2]. }
  specialize (H A B ltac:(lia)). unfold num_of.
  rewrite header_size_eq by apply Hp. rewrite shiftr_div by lia.
  unfold declared_packets in H. change (2 ^ 3) with 8 in *.
  destruct Hp as (_ & _ & _ & _ & _ & _ & B6 & B7). unfold is_byte in *. lia.
Qed.

(** Tail windows of the file. *)
Lemma skipn_bytes_ok k m : bytes_ok m -> bytes_ok (skipn k m).
Proof.
  unfold bytes_ok. intros H. rewrite <- (firstn_skipn k m) in H. apply Forall_app in H. apply H.
Qed.

Lemma resume_run fuel : forall len m R s acc,
  bytes_ok m -> zlen m mod 8 = 0 -> 2 <= len -> (R <= length (packets m))%nat ->
  (length (packets m) - R < fuel)%nat -> disjoint_p (packets m) ->
  exists bs, resume_loop fuel len m (8 * Z.of_nat R) s acc =
    Ok (acc ++ bs, snd (pass GDC_mode (items (skipn R (packets m))) s)) /\
    concat (map t_hits bs) = concat (fst (pass GDC_mode (items (skipn R (packets m))) s)).
Proof.
  induction fuel as [|f IH]; intros len m R s acc Hb Hm Hl HR HF HD; [lia|].
  cbn [resume_loop]. pose proof (aligned_end m Hm) as AE.
  destruct (Z.ltb_spec (8 * Z.of_nat R) (zlen m)) as [G|G].
  - replace (Z.to_nat (8 * Z.of_nat R)) with (8 * R)%nat by lia.
    pose proof (window (skipn (8 * R) m) s len (skipn_bytes_ok _ _ Hb) ltac:(lia)) as W.
    rewrite skipn_packets in W.
    destruct W as (C & bs2 & bs & bs1 & W1 & W2 & W3 & W4 & W5 & W6 & W7).
    rewrite W2, W3. cbn [obind]. rewrite W4. cbn [obind].
    rewrite skipn_length in W1.
    assert (P : (1 <= C)%nat).
    { apply W7; [lia|]. intros Z0. apply (f_equal (@length _)) in Z0. rewrite skipn_length in Z0.
      cbn in Z0. lia. }
    replace (8 * Z.of_nat R + 8 * Z.of_nat C) with (8 * Z.of_nat (R + C)) by lia.
    destruct (IH len m (R + C)%nat (snd (pass GDC_mode (items_cut C (skipn R (packets m))) s))
                (acc ++ bs2) Hb Hm Hl ltac:(lia) ltac:(lia) HD) as (bs3 & E1 & E2).
    exists (bs2 ++ bs3). rewrite E1, app_assoc.
    assert (SP : items (skipn R (packets m)) =
       items_cut C (skipn R (packets m)) ++ items (skipn (R + C) (packets m))).
    { rewrite <- skipn_skipn'. apply items_split.
      - rewrite skipn_length. lia.
      - apply disjoint_skip. exact HD.
      - exact W6. }
    rewrite SP, pass_app. cbn [fst snd]. split; [reflexivity|].
    rewrite map_app, !concat_app, W5, E2. reflexivity.
  - exists []. rewrite app_nil_r. replace (skipn R (packets m)) with (@nil packet).
    + cbn. auto.
    + symmetry. apply skipn_all2. lia.
Qed.

Lemma whole_items md m s : bytes_ok m -> zlen m mod 8 = 0 -> exists bs,
  whole md m s = Ok (bs, snd (pass md (items (packets m)) s)) /\
  map t_hits bs = fst (pass md (items (packets m)) s).
Proof.
  intros Hb Hm.
  pose proof (locate_extract md (find_headers m) m (zlen m) s Hb (find_headers_fresh m)) as LE.
  assert (I : items_of (find_headers m) m (zlen m) = Some (items (packets m))).
  { unfold find_headers. rewrite find_from_p, (aligned_end m Hm).
    pose proof (items_of_find m (length (packets m)) [] (packets m) eq_refl (le_n _)) as I.
    rewrite firstn_all in I. exact I. }
  rewrite I in LE. unfold whole.
  destruct (locate md (find_headers m) m (zlen m) s) as [[bs1 s1]| | |]; try discriminate.
  cbn [obind] in *. destruct (extract_all md bs1 m (zlen m)) as [bs2| | |]; try discriminate.
  cbn [obind] in *. injection LE as LE. rewrite <- LE. exists bs2. auto.
Qed.

Lemma C14_l m len s fuel : bytes_ok m -> zlen m mod 8 = 0 -> 2 <= len ->
  payloads_disjoint m -> (Z.to_nat (zlen m / 8) < fuel)%nat ->
  exists bs bs' s', resume_loop fuel len m 0 s [] = Ok (bs, s') /\
    whole GDC_mode m s = Ok (bs', s') /\
    concat (map t_hits bs) = concat (map t_hits bs').
Proof.
  intros Hb Hm Hl HD HF.
  pose proof (packets_zlen m) as L. unfold zlen in L at 1.
  destruct (resume_run fuel len m 0 s [] Hb Hm Hl ltac:(lia) ltac:(lia) (disjoint_spec m Hb HD))
    as (bs & E1 & E2).
  destruct (whole_items GDC_mode m s Hb Hm) as (bs' & E3 & E4).
  cbn [skipn] in *. change (8 * Z.of_nat 0) with 0 in E1.
  exists bs, bs', (snd (pass GDC_mode (items (packets m)) s)).
  rewrite E1, E3, E4. auto.
Qed.

(** Without disjoint payloads the loop still terminates. *)
Lemma resume_terminates fuel : forall len m R s acc,
  bytes_ok m -> zlen m mod 8 = 0 -> 2 <= len -> (R <= length (packets m))%nat ->
  (length (packets m) - R < fuel)%nat ->
  exists r, resume_loop fuel len m (8 * Z.of_nat R) s acc = Ok r.
Proof.
  induction fuel as [|f IH]; intros len m R s acc Hb Hm Hl HR HF; [lia|].
  cbn [resume_loop]. pose proof (aligned_end m Hm) as AE.
  destruct (Z.ltb_spec (8 * Z.of_nat R) (zlen m)) as [G|G].
  - replace (Z.to_nat (8 * Z.of_nat R)) with (8 * R)%nat by lia.
    pose proof (window (skipn (8 * R) m) s len (skipn_bytes_ok _ _ Hb) ltac:(lia)) as W.
    rewrite skipn_packets in W.
    destruct W as (C & bs2 & bs & bs1 & W1 & W2 & W3 & W4 & W5 & W6 & W7).
    rewrite W2, W3. cbn [obind]. rewrite W4. cbn [obind].
    rewrite skipn_length in W1.
    assert (P : (1 <= C)%nat).
    { apply W7; [lia|]. intros Z0. apply (f_equal (@length _)) in Z0. rewrite skipn_length in Z0.
      cbn in Z0. lia. }
    replace (8 * Z.of_nat R + 8 * Z.of_nat C) with (8 * Z.of_nat (R + C)) by lia.
    apply IH; try assumption; lia.
  - eexists. reflexivity.
Qed.

Lemma C14_terminates_l m len s fuel : bytes_ok m -> zlen m mod 8 = 0 -> 2 <= len ->
  (Z.to_nat (zlen m / 8) < fuel)%nat -> exists r, resume_loop fuel len m 0 s [] = Ok r.
Proof.
  intros Hb Hm Hl HF. pose proof (packets_zlen m) as L. unfold zlen in L at 1.
  apply (resume_terminates fuel len m 0 s []); try assumption; lia.
Qed.

(** Trailing bytes: no progress at the end. *)
Lemma resume_trailing fuel : forall len m R s acc,
  bytes_ok m -> zlen m mod 8 <> 0 -> 1 <= len -> (R <= length (packets m))%nat ->
  resume_loop fuel len m (8 * Z.of_nat R) s acc = OutOfFuel.
Proof.
  induction fuel as [|f IH]; intros len m R s acc Hb Hm Hl HR; cbn [resume_loop].
  - pose proof (packets_zlen m) as L. unfold zlen in L at 1.
    destruct (Z.ltb_spec (8 * Z.of_nat R) (zlen m)); [reflexivity|lia].
  - pose proof (packets_zlen m) as L. unfold zlen in L at 1.
    destruct (Z.ltb_spec (8 * Z.of_nat R) (zlen m)); [|lia].
    replace (Z.to_nat (8 * Z.of_nat R)) with (8 * R)%nat by lia.
    pose proof (window (skipn (8 * R) m) s len (skipn_bytes_ok _ _ Hb) ltac:(lia)) as W.
    rewrite skipn_packets in W.
    destruct W as (C & bs2 & bs & bs1 & W1 & W2 & W3 & W4 & _).
    rewrite W2, W3. cbn [obind]. rewrite W4. cbn [obind]. rewrite skipn_length in W1.
    replace (8 * Z.of_nat R + 8 * Z.of_nat C) with (8 * Z.of_nat (R + C)) by lia.
    apply IH; try assumption. lia.
Qed.

Lemma C14_trailing_l m len s fuel : bytes_ok m -> zlen m mod 8 <> 0 -> 1 <= len ->
  resume_loop fuel len m 0 s [] = OutOfFuel.
Proof. intros Hb Hm Hl. apply (resume_trailing fuel len m 0); try assumption. lia. Qed.

(** Limit 1: no progress beyond the first header. *)
Lemma resume_limit1 fuel : forall m R s acc p,
  bytes_ok m -> nth_error (packets m) R = Some p -> is_header p = true ->
  resume_loop fuel 1 m (8 * Z.of_nat R) s acc = OutOfFuel.
Proof.
  induction fuel as [|f IH]; intros m R s acc p Hb HR Hp; cbn [resume_loop];
  (assert (HL : (R < length (packets m))%nat) by (apply nth_error_Some; congruence));
  pose proof (packets_zlen m) as L; unfold zlen in L at 1;
  (destruct (Z.ltb_spec (8 * Z.of_nat R) (zlen m)); [|lia]); [reflexivity|].
  replace (Z.to_nat (8 * Z.of_nat R)) with (8 * R)%nat by lia.
  pose proof (window (skipn (8 * R) m) s 1 (skipn_bytes_ok _ _ Hb) ltac:(lia)) as W.
  rewrite skipn_packets in W.
  destruct W as (C & bs2 & bs & bs1 & W1 & W2 & W3 & W4 & _).
  rewrite W2, W3. cbn [obind]. rewrite W4. cbn [obind].
  assert (C0 : C = 0%nat).
  { unfold find_headers_limited in W2. rewrite find_lim_from_p, skipn_packets, (skipn_nth _ _ _ HR) in W2.
    cbn [find_lim_p] in W2. rewrite Hp in W2. cbn in W2. inversion W2. lia. }
  subst C. replace (8 * Z.of_nat R + 8 * Z.of_nat 0) with (8 * Z.of_nat R) by lia.
  eapply IH; eassumption.
Qed.

Lemma resume_limit1_any fuel : forall m R s acc k p,
  bytes_ok m -> nth_error (packets m) k = Some p -> is_header p = true -> (R <= k)%nat ->
  (forall j q, (R <= j)%nat -> (j < k)%nat -> nth_error (packets m) j = Some q -> is_header q = false) ->
  resume_loop fuel 1 m (8 * Z.of_nat R) s acc = OutOfFuel.
Proof.
  intros m R s acc k p Hb Hk Hp HRk Hfirst.
  assert (HL : (k < length (packets m))%nat) by (apply nth_error_Some; congruence).
  pose proof (packets_zlen m) as L; unfold zlen in L at 1.
  destruct fuel as [|f]; cbn [resume_loop];
    (destruct (Z.ltb_spec (8 * Z.of_nat R) (zlen m)); [|lia]); [reflexivity|].
  replace (Z.to_nat (8 * Z.of_nat R)) with (8 * R)%nat by lia.
  pose proof (window (skipn (8 * R) m) s 1 (skipn_bytes_ok _ _ Hb) ltac:(lia)) as W.
  rewrite skipn_packets in W.
  destruct W as (C & bs2 & bs & bs1 & W1 & W2 & W3 & W4 & _).
  rewrite W2, W3. cbn [obind]. rewrite W4. cbn [obind].
  assert (C0 : C = (k - R)%nat).
  { unfold find_headers_limited in W2. rewrite find_lim_from_p, skipn_packets in W2.
    assert (G : forall n ps off, nth_error ps n = Some p ->
       (forall j q, (j < n)%nat -> nth_error ps j = Some q -> is_header q = false) ->
       snd (find_lim_p ps off 0 1) = off + 8 * Z.of_nat n).
    { clear - Hp. induction n as [|n IH]; intros ps off N F.
      - destruct ps as [|q ps]; [discriminate|]. cbn in N. inversion N; subst.
        cbn [find_lim_p]. rewrite Hp. change (0 + 1 >=? 1) with true. cbn [snd]. lia.
      - destruct ps as [|q ps]; [discriminate|]. cbn [find_lim_p].
        rewrite (F 0%nat q ltac:(lia) eq_refl). rewrite IH.
        + lia.
        + exact N.
        + intros j q' Hj Nj. apply (F (S j) q'); [lia|exact Nj]. }
    assert (NS : forall (l : list packet) a j, nth_error (skipn a l) j = nth_error l (a + j)).
    { clear. intros l a. revert l. induction a; intros [|x l] j; try reflexivity.
      - cbn. destruct j; reflexivity.
      - cbn [skipn plus nth_error]. apply IHa. }
    specialize (G (k - R)%nat (skipn R (packets m)) 0).
    rewrite W2 in G. cbn [snd] in G.
    assert (X : 8 * Z.of_nat C = 0 + 8 * Z.of_nat (k - R)); [apply G|clear - X; lia].
    - rewrite NS. replace (R + (k - R))%nat with k by lia. exact Hk.
    - intros j q Hj Nj. rewrite NS in Nj. apply (Hfirst (R + j)%nat q); [lia|lia|exact Nj]. }
  subst C. replace (8 * Z.of_nat R + 8 * Z.of_nat (k - R)) with (8 * Z.of_nat k) by lia.
  eapply resume_limit1; eassumption.
Qed.

Lemma first_header ps k p : nth_error ps k = Some p -> is_header p = true ->
  exists k' p', nth_error ps k' = Some p' /\ is_header p' = true /\
    forall j q, (j < k')%nat -> nth_error ps j = Some q -> is_header q = false.
Proof.
  revert k. induction ps as [|q ps IH]; intros k N H; [destruct k; discriminate|].
  destruct (is_header q) eqn:Hq.
  - exists 0%nat, q. repeat split; try assumption. intros; lia.
  - destruct k as [|k]; [cbn in N; congruence|]. destruct (IH k N H) as (k' & p' & A & B & C).
    exists (S k'), p'. repeat split; try assumption. intros [|j] r Hj Nr.
    + cbn in Nr. congruence.
    + apply (C j r); [lia|exact Nr].
Qed.

Lemma C14_limit1_l m s fuel off p : bytes_ok m -> header_at m off p ->
  resume_loop fuel 1 m 0 s [] = OutOfFuel.
Proof.
  intros Hb (A1 & A2 & A3). destruct (packet_at_bounds _ _ _ A2) as [B1 B2].
  assert (E : off = 8 * Z.of_nat (Z.to_nat (off / 8))) by lia.
  rewrite E in A2. apply packet_at_nth in A2. apply is_header_spec in A3.
  destruct (first_header _ _ _ A2 A3) as (k & q & Q1 & Q2 & Q3).
  apply (resume_limit1_any fuel m 0 s [] k q); try assumption; [lia|].
  intros j r _ Hj. apply Q3. exact Hj.
Qed.

(** * Further lemmas used by the property file *)

Lemma max_batch_len_spec env : (forall v, env = Some v -> 0 <= v) ->
  1 <= max_batch_len env /\
  (forall v, env = Some v -> v <> 0 -> max_batch_len env = v) /\
  ((env = None \/ env = Some 0) -> max_batch_len env = 100000).
Proof.
  intros H. split; [apply max_batch_len_pos; exact H|]. split.
  - intros v -> Hv. cbn. destruct (Z.eqb_spec v 0); [contradiction|reflexivity].
  - intros [->| ->]; reflexivity.
Qed.

Lemma yields_functional md chip s ps hs hs' :
  yields md chip s ps hs -> yields md chip s ps hs' -> hs = hs'.
Proof. intros H H'. apply yields_unique in H. apply yields_unique in H'. congruence. Qed.

Lemma nth_error_prefix {A} (l : list A) n i : (i < n)%nat ->
  nth_error l i = nth_error (firstn n l) i.
Proof.
  revert l i. induction n as [|n IH]; intros l i H; [lia|].
  destruct l as [|x l]; [destruct i; reflexivity|]. destruct i; [reflexivity|].
  cbn. apply IH. lia.
Qed.

(** Well-formed streams have disjoint payloads. *)
Lemma stream_disjoint ds : Forall dataset_ok ds -> Forall no_false_header ds ->
  payloads_disjoint (stream ds).
Proof.
  intros Hok Hnf off p off' p' (A1 & A2 & A3) (B1 & B2 & B3) L.
  assert (G : forall k q k' q', nth_error (packets (stream ds)) k = Some q -> starts_TPX q ->
     nth_error (packets (stream ds)) k' = Some q' -> starts_TPX q' -> (k < k')%nat ->
     Z.of_nat k + declared_packets q < Z.of_nat k').
  { rewrite packets_stream. clear - Hok Hnf.
    induction ds as [|d ds IH]; intros k q k' q' N1 H1 N2 H2 Hlt; [destruct k; discriminate|].
    inversion Hok as [|? ? Hd Hds]; subst. inversion Hnf as [|? ? Hn Hns]; subst.
    specialize (IH Hds Hns). cbn [flat_map] in N1, N2.
    assert (LEN : length (ds_packets d) = S (length (d_payload d))) by reflexivity.
    assert (IN0 : forall j r, (j < length (ds_packets d))%nat ->
       nth_error (ds_packets d ++ flat_map ds_packets ds) j = Some r -> starts_TPX r ->
       j = 0%nat /\ r = ds_header d).
    { intros j r Hj Nr Hr. rewrite nth_error_app1 in Nr by assumption.
      destruct j as [|j]; [cbn in Nr; inversion Nr; auto|]. cbn in Nr. apply nth_error_In in Nr.
      unfold no_false_header in Hn. rewrite Forall_forall in Hn. elim (Hn _ Nr Hr). }
    destruct (Nat.lt_ge_cases k (length (ds_packets d))) as [Lk|Lk].
    - destruct (IN0 k q Lk N1 H1) as [-> ->]. rewrite ds_header_decl by assumption.
      destruct (Nat.lt_ge_cases k' (length (ds_packets d))) as [Lk'|Lk'].
      + destruct (IN0 k' q' Lk' N2 H2) as [-> ->]. lia.
      + unfold zlen. lia.
    - rewrite nth_error_app2 in N1, N2 by lia.
      specialize (IH _ _ _ _ N1 H1 N2 H2 ltac:(lia)). lia. }
  destruct (packet_at_bounds _ _ _ A2) as [C1 _]. destruct (packet_at_bounds _ _ _ B2) as [D1 _].
  assert (E : off = 8 * Z.of_nat (Z.to_nat (off / 8))) by lia.
  assert (E' : off' = 8 * Z.of_nat (Z.to_nat (off' / 8))) by lia.
  rewrite E in A2. rewrite E' in B2. apply packet_at_nth in A2. apply packet_at_nth in B2.
  specialize (G _ _ _ _ A2 A3 B2 B3 ltac:(lia)). lia.
Qed.

(** A successful run whose result passes a Boolean check. *)
Definition ok_check {A} (o : outcome A) (f : A -> bool) : bool :=
  match o with Ok a => f a | _ => false end.

Lemma ok_check_spec {A} (o : outcome A) f : ok_check o f = true ->
  exists a, o = Ok a /\ f a = true.
Proof. destruct o; cbn; intros H; try discriminate. eauto. Qed.
