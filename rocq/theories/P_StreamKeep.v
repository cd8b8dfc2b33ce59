(** The reader of the streaming program when the arrays keep their content. *)
From Coq Require Import Lia.
From Verif Require Export P_StreamRead.
From Coq Require Import ZifyBool Zify.
Ltac Zify.zify_post_hook ::= Z.to_euclidean_division_equations.
Global Open Scope Z_scope.

Lemma ds_header_packet_ok d : dataset_ok d -> packet_ok (ds_header d).
Proof.
  intros (H3 & H4 & H5 & _ & Hn). unfold packet_ok, ds_header, is_byte in *.
  cbn [b0 b1 b2 b3 b4 b5 b6 b7]. unfold zlen in *. lia.
Qed.

Lemma last_arr_snoc a ps p : last_arr a (ps ++ [p]) = arr_of p.
Proof. unfold last_arr. rewrite fold_left_app. reflexivity. Qed.

(** One complete dataset. *)
Lemma rd_loop_dataset keep f d m b a s hits : dataset_ok d -> length b = 8%nat -> length a = 8%nat ->
  rd_loop keep (S f) (Rd (FS (dataset_bytes d ++ m) false) b a s hits) =
  let! (s', hits') := rd_fold (map (pair (schar (d_chip d))) (d_payload d)) s hits in
  rd_loop keep f (Rd (FS m false) (arr_of (ds_header d)) (last_arr a (d_payload d)) s' hits').
Proof.
  intros Hd Hb Ha. rewrite dataset_split.
  pose proof (ds_header_packet_ok d Hd) as Hp. destruct (ds_header_ok d Hd) as [Hs Hc].
  rewrite rd_loop_packet by assumption.
  destruct (is_header (ds_header d)) eqn:E; [|apply is_header_spec in Hs; congruence].
  rewrite Hc. unfold zlen. rewrite Nat2Z.id.
  assert (Hps : Forall packet_ok (d_payload d)) by apply Hd.
  rewrite rd_section_ok by assumption.
  replace (b4 (ds_header d)) with (d_chip d) by reflexivity.
  rewrite rd_fold_map_schar by apply Hd.
  destruct (rd_fold _ s hits) as [[s' hits']|e|u|]; reflexivity.
Qed.

Lemma rd_loop_stream keep ds : Forall dataset_ok ds -> forall f m b a s hits,
  length b = 8%nat -> length a = 8%nat ->
  exists b' a', length b' = 8%nat /\ length a' = 8%nat /\
  rd_loop keep (length ds + f) (Rd (FS (stream ds ++ m) false) b a s hits) =
  let! (s', hits') := rd_fold (payloads ds) s hits in
  rd_loop keep f (Rd (FS m false) b' a' s' hits').
Proof.
  induction 1 as [|d ds Hd H IH]; intros f m b a s hits Hb Ha.
  - exists b, a. auto.
  - unfold stream, payloads. cbn [flat_map length Nat.add]. fold (stream ds) (payloads ds).
    rewrite <- app_assoc, rd_loop_dataset by assumption. rewrite rd_fold_app.
    destruct (rd_fold (map _ _) s hits) as [[s' hits']|e|u|] eqn:E; cbn [obind];
      [|exists b, a; auto|exists b, a; auto|exists b, a; auto].
    destruct (IH f m (arr_of (ds_header d)) (last_arr a (d_payload d)) s' hits') as (b' & a' & H1 & H2 & H3);
      [reflexivity|apply last_arr_length; exact Ha|].
    exists b', a'. split; [exact H1|]. split; [exact H2|]. exact H3.
Qed.

Lemma stream_app ds es : stream (ds ++ es) = stream ds ++ stream es.
Proof. apply flat_map_app. Qed.
Lemma payloads_app ds es : payloads (ds ++ es) = payloads ds ++ payloads es.
Proof. apply flat_map_app. Qed.

Lemma stream_fuel ds : Forall dataset_ok ds -> (8 * length ds <= length (stream ds))%nat.
Proof.
  induction 1 as [|d ds Hd H IH]; [cbn; lia|]. unfold stream. cbn [flat_map length].
  fold (stream ds). rewrite app_length.
  assert (8 <= length (dataset_bytes d))%nat.
  { unfold dataset_bytes. cbv zeta. rewrite app_length. cbn [length]. lia. }
  lia.
Qed.

(** The last dataset comes again. *)
Lemma rd_run_keep ds d q : Forall dataset_ok ds -> dataset_ok d ->
  rd_run true (stream (ds ++ [d])) =
  let! (_, h) := rd_fold (payloads (ds ++ [d]) ++
      repeat (schar (d_chip d), last (d_payload d) q) (length (d_payload d))) ts0 [] in Ok h.
Proof.
  intros Hds Hd. unfold rd_run.
  assert (HF : Forall dataset_ok (ds ++ [d])) by (apply Forall_app; auto).
  pose proof (stream_fuel _ HF) as L. rewrite app_length in L. cbn [length] in L.
  remember (S (length (stream (ds ++ [d]))) - length ds - 1)%nat as f eqn:Ef.
  replace (S (length (stream (ds ++ [d])))) with (length ds + S f)%nat by lia.
  rewrite stream_app. replace (stream [d]) with (dataset_bytes d ++ [])
    by (unfold stream; cbn [flat_map]; reflexivity).
  destruct (rd_loop_stream true ds Hds (S f) (dataset_bytes d ++ []) blank8 blank8 ts0 [])
    as (b' & a' & Hb & Ha & E); [reflexivity|reflexivity|].
  rewrite E. rewrite payloads_app, <- app_assoc, rd_fold_app.
  destruct (rd_fold (payloads ds) ts0 []) as [[s1 h1]|e|u|]; cbn [obind]; try reflexivity.
  rewrite rd_loop_dataset by assumption.
  replace (payloads [d]) with (map (pair (schar (d_chip d))) (d_payload d) ++ [])
    by (unfold payloads; cbn [flat_map]; reflexivity).
  rewrite app_nil_r, rd_fold_app.
  destruct (rd_fold (map _ _) s1 h1) as [[s2 h2]|e|u|]; cbn [obind]; try reflexivity.
  destruct f as [|f]; [lia|].
  cbn [rd_loop rd_file f_eof rd_buf rd_arr rd_ts rd_hits declare].
  rewrite read8_short by reflexivity. cbn [map app length skipn].
  rewrite header_test_arr. destruct (elem_arr (ds_header d)) as (E4 & E7 & E6). rewrite E4, E7, E6.
  destruct (ds_header_ok d Hd) as [Hs Hc].
  destruct (is_header (ds_header d)) eqn:Eh; [|apply is_header_spec in Hs; congruence].
  cbn [obind]. rewrite rd_size, Hc by (apply ds_header_packet_ok; exact Hd).
  unfold zlen. rewrite Nat2Z.id.
  destruct (d_payload d) as [|p0 ps0] eqn:Epl.
  - cbn [length repeat rd_section rd_fold obind]. apply rd_loop_eof.
  - assert (Ene : p0 :: ps0 <> []) by discriminate.
    assert (EL : last_arr a' (p0 :: ps0) = arr_of (last (p0 :: ps0) q)).
    { rewrite (app_removelast_last q Ene) at 1. apply last_arr_snoc. }
    rewrite EL. clear EL.
    set (p := last (p0 :: ps0) q).
    assert (Hp : packet_ok p).
    { assert (Hps : Forall packet_ok (d_payload d)) by apply Hd. rewrite Epl in Hps.
      rewrite (app_removelast_last q Ene) in Hps. apply Forall_app in Hps.
      destruct Hps as [_ Hps]. apply Forall_cons_iff in Hps. apply Hps. }
    clearbody p. rewrite rd_section_repeat by exact Hp.
    replace (b4 (ds_header d)) with (d_chip d) by reflexivity.
    assert (ER : forall n s h, rd_fold (repeat (schar (d_chip d), p) n) s h =
                              rd_fold (repeat (d_chip d, p) n) s h).
    { intros n. induction n as [|n IHn]; intros s h; [reflexivity|]. cbn [repeat rd_fold].
      rewrite rd_step_schar by apply Hd.
      destruct (rd_step _ _ _ _) as [[s' h']|e|u|]; cbn [obind]; auto. }
    rewrite ER. destruct (rd_fold (repeat _ _) s2 h2) as [[s3 h3]|e|u|]; cbn [obind]; try reflexivity.
    apply rd_loop_eof.
Qed.

(** Repetition of one packet. *)
Lemma rd_fold_repeat_pixel c p n s hits h : is_pixel p = true ->
  packet_to_hit p (ts_tdc s) (ts_gdc s) c = Ok h ->
  rd_fold (repeat (c, p) n) s hits = Ok (s, hits ++ repeat h n).
Proof.
  intros Hp Hh. revert hits. induction n as [|n IH]; intros hits.
  - cbn. rewrite app_nil_r. reflexivity.
  - cbn [repeat rd_fold]. unfold rd_step. rewrite Hp, Hh. cbn [obind]. rewrite IH, <- app_assoc. reflexivity.
Qed.
Lemma rd_fold_repeat_other c p n s hits : packet_ok p -> is_pixel p = false ->
  exists s', rd_fold (repeat (c, p) n) s hits = Ok (s', hits).
Proof.
  intros Hok Hp. revert s. induction n as [|n IH]; intros s; [eexists; reflexivity|].
  cbn [repeat rd_fold]. unfold rd_step. rewrite Hp. cbn [obind].
  unfold lib_step. rewrite Hp.
  destruct (is_tdc p); [apply IH|]. destruct (is_gdc p); [|apply IH].
  destruct (lib_gdc _ _ _ _). apply IH.
Qed.

Lemma pixel_kind p : packet_ok p -> is_pixel p = match kind_of p with KPixel => true | _ => false end.
Proof.
  intros Hp. destruct (kind_of_spec p) as (K1 & K2 & K3); [apply Hp|].
  destruct (kind_of p) eqn:K; try (rewrite K1 in K3; exact (K3 eq_refl)).
  destruct (schar_tests p Hp) as (T1 & _ & T3). rewrite K1 in T1. rewrite T3.
  symmetry in T1. apply Z.eqb_eq in T1. rewrite T1. reflexivity.
Qed.

Lemma stamped_last_pixel xs c p seen hs : kind_of p = KPixel -> stamped seen (xs ++ [(c, p)]) hs ->
  exists hs0 h, hs = hs0 ++ [h].
Proof.
  intros K. revert seen hs. induction xs as [|[c' p'] xs IH]; intros seen hs H; cbn [app] in H.
  - inversion H as [|? ? ? ? T g hs' K' _ _ H'|? ? ? ? ? K' _]; subst; [|congruence].
    inversion H'; subst. exists []. eexists. reflexivity.
  - inversion H as [|? ? ? ? T g hs' K' _ _ H'|? ? ? ? ? K' H']; subst.
    + destruct (IH _ _ H') as (hs0 & h & ->). exists (lib_hit p' T g c' :: hs0), h. reflexivity.
    + exact (IH _ _ H').
Qed.

Lemma payloads_ok ds : Forall dataset_ok ds -> Forall (fun x => packet_ok (snd x)) (payloads ds).
Proof.
  induction 1 as [|d ds Hd H IH]; [constructor|]. unfold payloads. cbn [flat_map].
  apply Forall_app. split; [|exact IH]. apply Forall_map. cbn [snd]. apply Hd.
Qed.

Lemma rd_fold_snoc xs c p s hits s' h' : rd_fold (xs ++ [(c, p)]) s hits = Ok (s', h') ->
  exists s1 h1, rd_fold xs s hits = Ok (s1, h1) /\ rd_step c p s1 h1 = Ok (s', h').
Proof.
  rewrite rd_fold_app. destruct (rd_fold xs s hits) as [[s1 h1]|e|u|]; cbn [obind]; try discriminate.
  cbn [rd_fold]. destruct (rd_step c p s1 h1) as [[s2 h2]|e|u|] eqn:E; cbn [obind]; try discriminate.
  intros H. injection H as -> ->. eauto.
Qed.

Lemma keep_dup_l ds d ps p : Forall dataset_ok ds -> dataset_ok d -> d_payload d = ps ++ [p] ->
  (timely [] (payloads (ds ++ [d])) ->
   exists hs, stamped [] (payloads (ds ++ [d])) hs /\
     (kind_of p <> KPixel -> rd_run true (stream (ds ++ [d])) = Ok hs) /\
     (kind_of p = KPixel -> exists hs0 h, hs = hs0 ++ [h] /\
        rd_run true (stream (ds ++ [d])) = Ok (hs ++ repeat h (length (d_payload d))))) /\
  (~ timely [] (payloads (ds ++ [d])) -> rd_run true (stream (ds ++ [d])) = UB BadConversion).
Proof.
  intros Hds Hd Epl.
  assert (HF : Forall dataset_ok (ds ++ [d])) by (apply Forall_app; auto).
  rewrite (rd_run_keep ds d p Hds Hd). rewrite rd_fold_app.
  assert (El : last (d_payload d) p = p) by (rewrite Epl; apply last_last). rewrite El.
  assert (Hp : packet_ok p).
  { assert (Hps : Forall packet_ok (d_payload d)) by apply Hd. rewrite Epl in Hps.
    apply Forall_app in Hps. destruct Hps as [_ Hps]. apply Forall_cons_iff in Hps. apply Hps. }
  assert (Ex : exists xs, payloads (ds ++ [d]) = xs ++ [(schar (d_chip d), p)]).
  { rewrite payloads_app. unfold payloads at 2. cbn [flat_map]. rewrite app_nil_r, Epl, map_app.
    cbn [map]. rewrite app_assoc. eexists. reflexivity. }
  destruct (rd_fold_spec _ (payloads_ok _ HF) [] ts0 [] ref_start) as [[Ht (s' & hs & E & Hs)]|[Ht E]];
    rewrite E; cbn [obind app].
  - split; [|tauto]. intros _. exists hs. split; [exact Hs|].
    pose proof (pixel_kind p Hp) as EP. split; intros K.
    + assert (EP' : is_pixel p = false) by (rewrite EP; destruct (kind_of p); try reflexivity; tauto).
      destruct (rd_fold_repeat_other (schar (d_chip d)) p (length (d_payload d)) s' hs Hp EP') as [s2 ->].
      reflexivity.
    + rewrite K in EP. destruct Ex as [xs Ex]. rewrite Ex in Hs.
      destruct (stamped_last_pixel _ _ _ _ _ K Hs) as (hs0 & h & Eh).
      exists hs0, h. split; [exact Eh|].
      rewrite Ex in E. apply rd_fold_snoc in E. destruct E as (s1 & h1 & _ & E).
      unfold rd_step in E. rewrite EP in E.
      destruct (packet_to_hit p (ts_tdc s1) (ts_gdc s1) (schar (d_chip d))) as [h2|e|u|] eqn:E2;
        cbn [obind] in E; try discriminate E.
      cbn [app] in E.
      assert (E3 : s1 = s' /\ h1 ++ [h2] = hs) by (split; congruence).
      destruct E3 as [-> E3]. rewrite Eh in E3. apply app_inj_tail in E3. destruct E3 as [_ ->].
      rewrite (rd_fold_repeat_pixel _ _ _ _ _ h EP E2). reflexivity.
  - split; [tauto|]. intros _. reflexivity.
Qed.

(** A dataset cut off after at least one packet is filled up. *)
Lemma keep_cut_l ds q ps p : Forall dataset_ok ds -> packet_ok q -> starts_TPX q ->
  Forall packet_ok (ps ++ [p]) -> zlen (ps ++ [p]) < declared_packets q ->
  rd_run true (stream ds ++ packet_bytes q ++ flat_map packet_bytes (ps ++ [p])) =
  let! (_, h) := rd_fold (payloads ds ++ map (pair (schar (b4 q))) (ps ++ [p]) ++
      repeat (schar (b4 q), p) (Z.to_nat (declared_packets q - zlen (ps ++ [p])))) ts0 [] in Ok h.
Proof.
  intros Hds Hq Hs Hps Hlt. unfold rd_run.
  pose proof (stream_fuel _ Hds) as L.
  set (M := stream ds ++ packet_bytes q ++ flat_map packet_bytes (ps ++ [p])).
  assert (LM : (length (stream ds) + 8 <= length M)%nat).
  { unfold M. rewrite !app_length, packet_bytes_length. lia. }
  remember (S (length M) - length ds - 1)%nat as f eqn:Ef.
  replace (S (length M)) with (length ds + S f)%nat by lia. unfold M.
  destruct (rd_loop_stream true ds Hds (S f) (packet_bytes q ++ flat_map packet_bytes (ps ++ [p])) blank8 blank8 ts0 [])
    as (b' & a' & Hb & Ha & E); [reflexivity|reflexivity|].
  rewrite E, rd_fold_app.
  destruct (rd_fold (payloads ds) ts0 []) as [[s1 h1]|e|u|]; cbn [obind]; try reflexivity.
  rewrite rd_loop_packet by assumption.
  destruct (is_header q) eqn:Eh; [|apply is_header_spec in Hs; congruence].
  remember (Z.to_nat (declared_packets q - zlen (ps ++ [p]))) as k eqn:Ek.
  assert (Hp : packet_ok p).
  { apply Forall_app in Hps. destruct Hps as [_ Hps]. apply Forall_cons_iff in Hps. apply Hps. }
  assert (Hc : 0 <= b4 q < 256) by apply Hq.
  replace (Z.to_nat (declared_packets q)) with (length (ps ++ [p]) + k)%nat by (unfold zlen in *; lia).
  rewrite rd_section_app.
  replace (flat_map packet_bytes (ps ++ [p])) with (flat_map packet_bytes (ps ++ [p]) ++ [])
    by apply app_nil_r.
  rewrite rd_section_ok by assumption. rewrite rd_fold_app, rd_fold_map_schar by exact Hc.
  destruct (rd_fold (map _ _) s1 h1) as [[s2 h2]|e|u|]; cbn [obind]; try reflexivity.
  rewrite last_arr_snoc.
  destruct k as [|k]; [unfold zlen in *; lia|].
  assert (ER : forall n s h, rd_fold (repeat (schar (b4 q), p) n) s h = rd_fold (repeat (b4 q, p) n) s h).
  { intros n. induction n as [|n IHn]; intros s h; [reflexivity|]. cbn [repeat rd_fold].
    rewrite rd_step_schar by exact Hc.
    destruct (rd_step _ _ _ _) as [[s' h']|e|u|]; cbn [obind]; auto. }
  rewrite ER.
  cbn [rd_section rd_file rd_arr rd_ts rd_hits rd_buf declare repeat rd_fold].
  rewrite read8_short by reflexivity. cbn [map app length skipn].
  rewrite rd_packet_step by exact Hp.
  destruct (rd_step (b4 q) p s2 h2) as [[s3 h3]|e|u|]; cbn [obind]; try reflexivity.
  rewrite rd_section_repeat by exact Hp.
  destruct (rd_fold (repeat _ _) s3 h3) as [[s4 h4]|e|u|]; cbn [obind]; try reflexivity.
  apply rd_loop_eof.
Qed.
