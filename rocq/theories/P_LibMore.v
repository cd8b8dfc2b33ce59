(** Lemmas behind Properties_Lib.v: truncated input, unprocessed batches. *)
From Coq Require Import Lia.
From Verif Require Export P_LibHit.
From Coq Require Import ZifyBool Zify.
Ltac Zify.zify_post_hook ::= Z.to_euclidean_division_equations.
Global Open Scope Z_scope.

Lemma framed_length m xs : framed at_end m xs -> zlen m mod 8 = 0.
Proof.
  induction 1 as [m Hm|p m xs Hp H IH|p c ps m xs Hp Hc Hn H IH].
  - rewrite Hm. reflexivity.
  - rewrite zlen_packet. lia.
  - rewrite zlen_packet, zlen_app, zlen_flat. lia.
Qed.

Lemma packet_bytes_inj p q m n : packet_bytes p ++ m = packet_bytes q ++ n -> p = q /\ m = n.
Proof. destruct p, q. cbn. intros H. injection H. intros; subst. auto. Qed.

Lemma framed_data_inv fin p m xs : framed fin (packet_bytes p ++ m) xs -> starts_TPX p ->
  ~ fin (packet_bytes p ++ m) ->
  exists ps m' ys, m = flat_map packet_bytes ps ++ m' /\ zlen ps = declared_packets p /\
    framed fin m' ys.
Proof.
  intros H Hp Hn. remember (packet_bytes p ++ m) as M eqn:E.
  destruct H as [m0 Hm|q m0 ys Hq H'|q c ps m0 ys Hq Hc Hl H'].
  - tauto.
  - apply packet_bytes_inj in E. destruct E as [-> ->]. tauto.
  - apply packet_bytes_inj in E. destruct E as [-> <-]. exists ps, m0, ys. auto.
Qed.

Lemma flat_inj ps qs m n : length ps = length qs ->
  flat_map packet_bytes ps ++ m = flat_map packet_bytes qs ++ n -> ps = qs /\ m = n.
Proof.
  revert qs. induction ps as [|p ps IH]; intros [|q qs] Hl E; try discriminate Hl.
  - auto.
  - cbn [flat_map] in E. rewrite <- !app_assoc in E. apply packet_bytes_inj in E.
    destruct E as [-> E]. injection Hl as Hl. destruct (IH qs Hl E) as [-> ->]. auto.
Qed.

Lemma ds_header_ok d : dataset_ok d -> starts_TPX (ds_header d) /\
  declared_packets (ds_header d) = zlen (d_payload d).
Proof.
  intros (_ & _ & _ & _ & Hn). unfold ds_header, starts_TPX, declared_packets. cbn [b0 b1 b2 b6 b7].
  split; [auto|]. unfold zlen in *. lia.
Qed.

Lemma dataset_split d m : dataset_bytes d ++ m =
  packet_bytes (ds_header d) ++ flat_map packet_bytes (d_payload d) ++ m.
Proof. unfold dataset_bytes, ds_header. cbv zeta. rewrite <- app_assoc. reflexivity. Qed.

Lemma framed_after (fin : list Z -> Prop) ds m xs : Forall dataset_ok ds ->
  (forall p n, fin (packet_bytes p ++ n) -> n = [] /\ fin []) -> 
  framed fin (stream ds ++ m) xs -> exists ys, framed fin m ys.
Proof.
  intros Hds Hfin. revert xs. induction Hds as [|d ds Hd Hds IH]; intros xs H.
  - exists xs. exact H.
  - unfold stream in H. cbn [flat_map] in H. fold (stream ds) in H.
    rewrite <- app_assoc, dataset_split in H.
    destruct (ds_header_ok d Hd) as [Hs Hc].
    remember (packet_bytes (ds_header d) ++ flat_map packet_bytes (d_payload d) ++ stream ds ++ m) as M eqn:E.
    destruct H as [m0 Hm|q m0 ys Hq H'|q c ps m0 ys Hq Hc' Hl H'].
    + subst m0. apply Hfin in Hm. destruct Hm as [Hm1 Hm2].
      apply app_eq_nil in Hm1. destruct Hm1 as [_ Hm1]. apply app_eq_nil in Hm1.
      destruct Hm1 as [_ ->]. exists []. constructor. exact Hm2.
    + apply packet_bytes_inj in E. destruct E as [-> _]. tauto.
    + apply packet_bytes_inj in E. destruct E as [-> E].
      apply flat_inj in E; [|unfold zlen in *; lia]. destruct E as [-> ->].
      eapply IH. exact H'.
Qed.

Lemma at_end_packet p n : at_end (packet_bytes p ++ n) -> n = [] /\ at_end [].
Proof. destruct p. discriminate. Qed.
Lemma near_end_packet p n : near_end (packet_bytes p ++ n) -> n = [] /\ near_end [].
Proof.
  unfold near_end. rewrite zlen_packet. intros H. split.
  - destruct n; [reflexivity|]. unfold zlen in H. cbn [length] in H. lia.
  - discriminate.
Qed.

Lemma packet_ok_bytes p : packet_ok p -> Forall is_byte (packet_bytes p).
Proof.
  intros (H0 & H1 & H2 & H3 & H4 & H5 & H6 & H7). unfold packet_bytes.
  repeat (apply Forall_cons; [assumption|]). apply Forall_nil.
Qed.

Lemma stream_bytes ds : Forall dataset_ok ds -> bytes_ok (stream ds).
Proof.
  intros Hds. unfold bytes_ok. induction Hds as [|d ds Hd Hds IH]; [apply Forall_nil|].
  unfold stream. cbn [flat_map]. apply Forall_app. split; [|exact IH].
  destruct Hd as (H3 & H4 & H5 & Hpl & Hn). unfold dataset_bytes. cbv zeta.
  apply Forall_app. split.
  - repeat (apply Forall_cons; [unfold is_byte, zlen in *; lia|]). apply Forall_nil.
  - clear - Hpl. induction Hpl as [|q ps Hq Hps IH]; [apply Forall_nil|]. cbn [flat_map].
    apply Forall_app. split; [apply packet_ok_bytes; exact Hq|exact IH].
Qed.

(** A dataset that is cut off. *)
Lemma C55_truncated_l ds p rest : Forall dataset_ok ds -> packet_ok p -> starts_TPX p ->
  bytes_ok rest -> zlen rest < 8 * declared_packets p ->
  read_raw (Some (stream ds ++ packet_bytes p ++ rest)) = UB OutOfBounds /\
  (rest <> [] -> parse_raw (stream ds ++ packet_bytes p ++ rest) = UB OutOfBounds).
Proof.
  intros Hds Hp Hs Hr Hlt.
  assert (Hb : bytes_ok (stream ds ++ packet_bytes p ++ rest)).
  { unfold bytes_ok. apply Forall_app. split; [apply stream_bytes; exact Hds|].
    apply Forall_app. split; [apply packet_ok_bytes; exact Hp|exact Hr]. }
  split.
  - apply read_raw_unframed; [exact Hb|]. intros xs H.
    apply (framed_after at_end) in H; [|exact Hds|exact at_end_packet]. destruct H as [ys H].
    apply framed_data_inv in H; [|exact Hs|destruct p; discriminate].
    destruct H as (ps & m' & zs & -> & Hl & _).
    rewrite zlen_app, zlen_flat in Hlt. unfold zlen in *. lia.
  - intros Hne. apply parse_raw_unframed; [exact Hb|]. intros xs H.
    apply (framed_after near_end) in H; [|exact Hds|exact near_end_packet]. destruct H as [ys H].
    apply framed_data_inv in H; [|exact Hs|].
    + destruct H as (ps & m' & zs & -> & Hl & _).
      rewrite zlen_app, zlen_flat in Hlt. unfold zlen in *. lia.
    + intros C. apply near_end_packet in C. tauto.
Qed.

Lemma C55_read_iff_l m : bytes_ok m ->
  ((exists hs, read_raw (Some m) = Ok hs) <-> exists xs, framed at_end m xs) /\
  ((exists hs, read_raw (Some m) = Ok hs) \/ read_raw (Some m) = UB OutOfBounds).
Proof.
  intros Hb.
  destruct (raw_loop_defined (length m) m (RawSt ts0 (Alt 0 0) []) Hb) as [[xs Hx]|Hx]; [lia| |].
  - rewrite (read_raw_framed m xs Hb Hx). split; [split; intros; eauto|eauto].
  - assert (E : read_raw (Some m) = UB OutOfBounds) by (unfold read_raw; rewrite Hx; reflexivity).
    split; [|auto]. rewrite E. split; [intros [hs H]; discriminate H|].
    intros [xs H]. rewrite (read_raw_framed m xs Hb H) in E. discriminate E.
Qed.

Lemma C55_parse_iff_l m : bytes_ok m ->
  ((exists hs, parse_raw m = Ok hs) <-> exists xs, framed near_end m xs) /\
  ((exists hs, parse_raw m = Ok hs) \/ parse_raw m = UB OutOfBounds).
Proof.
  intros Hb.
  destruct (parse_loop_defined (length m) m ts0 [] Hb) as [[xs Hx]|Hx]; [lia| |].
  - rewrite (parse_raw_framed m xs Hb Hx). split; [split; intros; eauto|eauto].
  - assert (E : parse_raw m = UB OutOfBounds) by exact Hx.
    split; [|auto]. rewrite E. split; [intros [hs H]; discriminate H|].
    intros [xs H]. rewrite (parse_raw_framed m xs Hb H) in E. discriminate E.
Qed.

Lemma C55_odd_l m : bytes_ok m -> zlen m mod 8 <> 0 -> read_raw (Some m) = UB OutOfBounds.
Proof.
  intros Hb Hn. apply read_raw_unframed; [exact Hb|]. intros xs H.
  apply framed_length in H. tauto.
Qed.

(** * Blank hits *)

(** Declared packets of the headers among [ps]. *)
Fixpoint sum_declared (ps : list packet) : Z :=
  match ps with
  | [] => 0
  | p :: r => (if is_header p then t_num (header_batch 0 p) else 0) + sum_declared r
  end.

Lemma lib_find_sum ps off :
  let bs := lib_find (flat_map packet_bytes ps) off in
  fold_right (fun b s => t_num b + s) 0 bs = sum_declared (removelast ps).
Proof.
  cbv zeta. revert off. induction ps as [|p ps IH]; intros off; [reflexivity|].
  cbn [flat_map]. destruct ps as [|q ps].
  - cbn [flat_map removelast]. rewrite app_nil_r. destruct p. reflexivity.
  - change (removelast (p :: q :: ps)) with (p :: removelast (q :: ps)).
    cbn [sum_declared]. rewrite <- (IH (off + 8)).
    set (M := flat_map packet_bytes (q :: ps)).
    assert (HM : M <> []) by (subst M; cbn [flat_map]; destruct q; discriminate).
    clearbody M. destruct p as [c0 c1 c2 c3 c4 c5 c6 c7].
    cbn [packet_bytes app b0 b1 b2 b3 b4 b5 b6 b7 lib_find].
    destruct M as [|z M]; [tauto|].
    destruct (is_header (Packet c0 c1 c2 c3 c4 c5 c6 c7)); reflexivity.
Qed.

Lemma lib_total_ok bs sum : Forall (fun b => 0 <= t_num b) bs ->
  sum + fold_right (fun b s => t_num b + s) 0 bs <= 2 ^ 31 - 1 ->
  lib_total bs sum = Ok (sum + fold_right (fun b s => t_num b + s) 0 bs).
Proof.
  intros H. revert sum. induction H as [|b bs Hb H IH]; intros sum Hle; cbn [lib_total fold_right] in *.
  - f_equal. lia.
  - assert (0 <= fold_right (fun b s => t_num b + s) 0 bs).
    { clear - H. induction H; cbn [fold_right]; lia. }
    destruct (Z.gtb_spec (sum + t_num b) (2 ^ 31 - 1)) as [C|C]; [lia|].
    rewrite IH by lia. f_equal. lia.
Qed.

Definition stream_packets (ds : list dataset) : list packet :=
  flat_map (fun d => ds_header d :: d_payload d) ds.

Lemma stream_as_packets ds : stream ds = flat_map packet_bytes (stream_packets ds).
Proof.
  induction ds as [|d ds IH]; [reflexivity|].
  unfold stream, stream_packets. cbn [flat_map]. fold (stream ds) (stream_packets ds).
  rewrite IH. cbn [app flat_map]. rewrite flat_map_app. unfold dataset_bytes, ds_header.
  cbv zeta. rewrite <- app_assoc. reflexivity.
Qed.

Lemma sum_declared_app a b : sum_declared (a ++ b) = sum_declared a + sum_declared b.
Proof. induction a as [|p a IH]; [reflexivity|]. cbn [app sum_declared]. rewrite IH. lia. Qed.

Lemma sum_declared_none ps : Forall (fun p => ~ starts_TPX p) ps -> sum_declared ps = 0.
Proof.
  induction 1 as [|p ps Hp H IH]; [reflexivity|]. cbn [sum_declared].
  rewrite not_header by exact Hp. lia.
Qed.

Lemma sum_declared_stream ds : Forall dataset_ok ds -> Forall no_false_header ds ->
  sum_declared (stream_packets ds) = zlen (flat_map d_payload ds).
Proof.
  intros H. induction H as [|d ds Hd H IH]; intros Hn; [reflexivity|].
  apply Forall_cons_iff in Hn. destruct Hn as [Hnd Hn].
  unfold stream_packets. cbn [flat_map]. fold (stream_packets ds).
  rewrite sum_declared_app, IH by exact Hn. cbn [sum_declared].
  destruct (ds_header_ok d Hd) as [Hs Hc].
  destruct (is_header (ds_header d)) eqn:E; [|apply is_header_spec in Hs; congruence].
  rewrite header_batch_num, Hc.
  - rewrite (sum_declared_none (d_payload d) Hnd). rewrite zlen_app. lia.
  - destruct Hd as (_ & _ & _ & _ & Hl). unfold ds_header, is_byte. cbn [b6]. unfold zlen in *. lia.
  - destruct Hd as (_ & _ & _ & _ & Hl). unfold ds_header, is_byte. cbn [b7]. unfold zlen in *. lia.
Qed.

Lemma sum_declared_removelast ds : Forall dataset_ok ds -> Forall no_false_header ds ->
  sum_declared (removelast (stream_packets ds)) = sum_declared (stream_packets ds).
Proof.
  intros H Hn. induction ds as [|d ds IHds] using rev_ind; [reflexivity|]. clear IHds.
  apply Forall_app in H. destruct H as [_ H]. apply Forall_cons_iff in H. destruct H as [Hd _].
  apply Forall_app in Hn. destruct Hn as [_ Hn]. apply Forall_cons_iff in Hn. destruct Hn as [Hnd _].
  unfold stream_packets. rewrite flat_map_app. cbn [flat_map]. rewrite app_nil_r.
  rewrite removelast_app by discriminate. rewrite !sum_declared_app. f_equal.
  destruct (ds_header_ok d Hd) as [Hs Hc].
  destruct (d_payload d) as [|q ps] eqn:E.
  - cbn [removelast sum_declared].
    destruct (is_header (ds_header d)) eqn:Eh; [|reflexivity].
    rewrite header_batch_num, Hc.
    + reflexivity.
    + unfold ds_header. rewrite E. vm_compute. split; congruence.
    + unfold ds_header. rewrite E. vm_compute. split; congruence.
  - change (removelast (ds_header d :: q :: ps)) with (ds_header d :: removelast (q :: ps)).
    assert (S1 : forall l, sum_declared (ds_header d :: l) =
      (if is_header (ds_header d) then t_num (header_batch 0 (ds_header d)) else 0) + sum_declared l)
      by reflexivity.
    rewrite !S1. f_equal. unfold no_false_header in Hnd. rewrite E in Hnd.
    rewrite (sum_declared_none (q :: ps)) by exact Hnd.
    rewrite sum_declared_none; [reflexivity|].
    apply Forall_forall. intros x Hx. rewrite Forall_forall in Hnd. apply Hnd.
    rewrite (app_removelast_last q) by discriminate. apply in_or_app. left. exact Hx.
Qed.

Lemma C56_count_l ds : Forall dataset_ok ds -> Forall no_false_header ds ->
  zlen (flat_map d_payload ds) < 2 ^ 31 ->
  exists hs, fast_parse (stream ds) = Ok hs /\ zlen hs = zlen (flat_map d_payload ds) /\
    Forall (fun h => h = Hit 0 0 0 0 0 (Some 0) 0) hs.
Proof.
  intros Hds Hn Hlt. unfold fast_parse.
  pose proof (lib_find_sum (stream_packets ds) 0) as E. cbv zeta in E.
  rewrite <- stream_as_packets in E.
  rewrite sum_declared_removelast, sum_declared_stream in E by assumption.
  rewrite lib_total_ok.
  - cbn [obind]. rewrite E. eexists. split; [reflexivity|]. split.
    + unfold zlen. rewrite repeat_length. unfold zlen. lia.
    + apply Forall_forall. intros h Hh. apply repeat_spec in Hh. exact Hh.
  - apply Forall_forall. intros b Hb. eapply lib_find_spec; [exact Hb|lia|]. apply stream_bytes, Hds.
  - rewrite E. lia.
Qed.

Lemma lib_total_over bs sum : Forall (fun b => 0 <= t_num b) bs -> sum <= 2 ^ 31 - 1 ->
  2 ^ 31 - 1 < sum + fold_right (fun b s => t_num b + s) 0 bs -> lib_total bs sum = UB SignedOverflow.
Proof.
  intros H. revert sum. induction H as [|b bs Hb H IH]; intros sum Hs Hlt; cbn [lib_total fold_right] in *; [lia|].
  destruct (Z.gtb_spec (sum + t_num b) (2 ^ 31 - 1)) as [C|C]; [reflexivity|]. apply IH; lia.
Qed.

Lemma C56_overflow_l ds : Forall dataset_ok ds -> Forall no_false_header ds ->
  2 ^ 31 <= zlen (flat_map d_payload ds) -> fast_parse (stream ds) = UB SignedOverflow.
Proof.
  intros Hds Hn Hlt. unfold fast_parse.
  pose proof (lib_find_sum (stream_packets ds) 0) as E. cbv zeta in E.
  rewrite <- stream_as_packets in E.
  rewrite sum_declared_removelast, sum_declared_stream in E by assumption.
  rewrite lib_total_over; [reflexivity| |lia|].
  - apply Forall_forall. intros b Hb. eapply lib_find_spec; [exact Hb|lia|]. apply stream_bytes, Hds.
  - rewrite E. lia.
Qed.

(** * processBatch *)

Lemma batch_loop_ok chip pre q ps post s hits :
  batch_loop (length ps) chip (pre ++ packet_bytes q ++ flat_map packet_bytes ps ++ post) (zlen pre) s hits =
  Ok (snd (lib_fold (map (pair chip) ps) (s, hits))).
Proof.
  revert pre q s hits. induction ps as [|p ps IH]; intros pre q s hits; [reflexivity|].
  cbn [length batch_loop flat_map].
  rewrite <- (app_assoc (packet_bytes p)).
  replace (pre ++ packet_bytes q ++ packet_bytes p ++ flat_map packet_bytes ps ++ post)
    with ((pre ++ packet_bytes q) ++ packet_bytes p ++ flat_map packet_bytes ps ++ post)
    by (rewrite <- app_assoc; reflexivity).
  assert (L : zlen pre + 8 = zlen (pre ++ packet_bytes q)).
  { rewrite zlen_app. reflexivity. }
  rewrite L. set (pre' := pre ++ packet_bytes q). clearbody pre'. clear L.
  assert (C : (zlen pre' >=? zlen (pre' ++ packet_bytes p ++ flat_map packet_bytes ps ++ post)) = false).
  { rewrite zlen_app, zlen_packet, zlen_app. unfold zlen. lia. }
  rewrite C.
  assert (R : read_packet (pre' ++ packet_bytes p ++ flat_map packet_bytes ps ++ post) (zlen pre') = Some p).
  { unfold read_packet. destruct (Z.ltb_spec (zlen pre') 0) as [D|D]; [unfold zlen in D; lia|].
    unfold zlen. rewrite Nat2Z.id, skipn_app, skipn_all2, Nat.sub_diag by lia.
    destruct p; reflexivity. }
  rewrite R. unfold lib_fold. cbn [map fold_left fst snd].
  destruct (lib_step chip p s hits) as [s' hits'] eqn:Es.
  rewrite (IH pre' p). unfold lib_fold. cbn [fst snd]. reflexivity.
Qed.

Lemma C56_restart_l pre d post : dataset_ok d ->
  let b := new_batch (zlen pre) (zlen (d_payload d)) (schar (d_chip d)) in
  exists hs, process_batch b (pre ++ dataset_bytes d ++ post) = Ok hs /\
    stamped [] (map (pair (schar (d_chip d))) (d_payload d)) hs.
Proof.
  intros Hd. cbv zeta. unfold process_batch, new_batch. cbn [t_num t_chip t_index].
  unfold zlen at 1. rewrite Nat2Z.id. rewrite dataset_split, batch_loop_ok.
  destruct (lib_fold_stamped (map (pair (schar (d_chip d))) (d_payload d))) with
    (seen := @nil packet) (s := ts0) (hits := @nil hit) as (hs & E & Hs).
  - apply Forall_map. cbn [snd]. apply Hd.
  - apply ref_start.
  - exists hs. rewrite E. auto.
Qed.

Lemma C55_streams_l ds : Forall dataset_ok ds ->
  framed at_end (stream ds) (payloads ds) /\ framed near_end (stream ds) (payloads ds).
Proof.
  intros H. split; apply stream_framed; try exact H; [reflexivity|discriminate].
Qed.

Lemma C57_count_l seen xs hs : stamped seen xs hs -> length hs = length (pixels xs).
Proof.
  induction 1 as [|seen c p xs T g hs K _ _ _ IH|seen c p xs hs K _ IH]; [reflexivity| |];
    unfold pixels in *; cbn [filter snd length].
  - rewrite K. cbn [length]. congruence.
  - destruct (kind_of p); try exact IH. congruence.
Qed.

(** The reference is determined by the packets. *)
Lemma last_of_unique (P : packet -> Prop) ps pre p pre' p' :
  last_of P ps pre p -> last_of P ps pre' p' -> pre = pre' /\ p = p'.
Proof.
  revert pre pre'. induction ps as [|q ps IH]; intros pre pre' (post & E & Hp & Hn) (post' & E' & Hp' & Hn').
  - destruct pre; discriminate E.
  - destruct pre as [|a pre], pre' as [|a' pre']; cbn [app] in E, E'.
    + injection E as -> _. injection E' as -> _. auto.
    + injection E as -> ->. injection E' as -> E'. subst post.
      apply Forall_app in Hn. destruct Hn as [_ Hn]. apply Forall_cons_iff in Hn. tauto.
    + injection E' as -> ->. injection E as -> E. subst post'.
      apply Forall_app in Hn'. destruct Hn' as [_ Hn']. apply Forall_cons_iff in Hn'. tauto.
    + injection E as -> E. injection E' as -> E'.
      destruct (IH pre pre') as [-> ->]; [exists post; auto|exists post'; auto|auto].
Qed.
Lemma last_of_none (P : packet -> Prop) ps pre p :
  last_of P ps pre p -> Forall (fun q => ~ P q) ps -> False.
Proof.
  intros (post & -> & Hp & _) H. apply Forall_app in H. destruct H as [_ H].
  apply Forall_cons_iff in H. tauto.
Qed.
Lemma lsb_unique ps t t' : lsb_is ps t -> lsb_is ps t' -> t = t'.
Proof.
  intros [[H ->]|(pre & p & H & ->)] [[H' ->]|(pre' & p' & H' & ->)].
  - reflexivity.
  - exfalso. eapply last_of_none; eauto.
  - exfalso. eapply last_of_none; eauto.
  - destruct (last_of_unique _ _ _ _ _ _ H H') as [_ ->]. reflexivity.
Qed.
Lemma gdc_unique ps g g' : gdc_is ps g -> gdc_is ps g' -> g = g'.
Proof.
  intros [[H ->]|(pre & p & t & H & Ht & ->)] [[H' ->]|(pre' & p' & t' & H' & Ht' & ->)].
  - reflexivity.
  - exfalso. eapply last_of_none; eauto.
  - exfalso. eapply last_of_none; eauto.
  - destruct (last_of_unique _ _ _ _ _ _ H H') as [-> ->]. f_equal. eapply lsb_unique; eauto.
Qed.
Lemma tdc_unique ps T T' : tdc_is ps T -> tdc_is ps T' -> T = T'.
Proof.
  intros [[H ->]|(pre & p & g & t & H & Hg & Hf & ->)] [[H' ->]|(pre' & p' & g' & t' & H' & Hg' & Hf' & ->)].
  - reflexivity.
  - exfalso. eapply last_of_none; eauto.
  - exfalso. eapply last_of_none; eauto.
  - destruct (last_of_unique _ _ _ _ _ _ H H') as [-> ->].
    rewrite (gdc_unique _ _ _ Hg Hg') in Hf.
    destruct Hf as (F1 & F2 & F3), Hf' as (F1' & F2' & F3').
    specialize (F3 t' F1' F2'). specialize (F3' t F1 F2). f_equal. lia.
Qed.

Lemma C57_unique_l seen xs hs hs' : stamped seen xs hs -> stamped seen xs hs' -> hs = hs'.
Proof.
  intros H. revert hs'. induction H as [|seen c p xs T g hs K HT Hg H IH|seen c p xs hs K H IH];
    intros hs' H'; inversion H' as [|? ? ? ? T' g' hs'' K' HT' Hg' H''|? ? ? ? ? K' H'']; subst.
  - reflexivity.
  - rewrite (tdc_unique _ _ _ HT HT'), (gdc_unique _ _ _ Hg Hg'). f_equal. apply IH. exact H''.
  - congruence.
  - congruence.
  - apply IH. exact H''.
Qed.
