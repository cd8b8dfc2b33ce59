(** Lemmas about whole files in sophiread_display. *)
From Verif Require Export P_DisplayRead P_StreamKeep.
From Coq Require Import Lia ZifyBool Zify.
Ltac Zify.zify_post_hook ::= Z.to_euclidean_division_equations.
Global Open Scope Z_scope.

Lemma file_l ps t : Forall packet_ok ps -> bytes_ok t -> zlen t < 8 ->
  (exists xs rs es, reads t None None ps xs /\ displays 0 xs rs es /\
     filetohits (Some (flat_map packet_bytes ps ++ t)) = Ok (rs, es)) \/
  ((forall xs, ~ reads t None None ps xs) /\
   filetohits (Some (flat_map packet_bytes ps ++ t)) = UB Uninitialised).
Proof.
  intros Hps Hb Ht. unfold filetohits.
  assert (Hn : opt_ok None) by (intros q H; discriminate H).
  destruct (dsp_loop_spec (S (length (flat_map packet_bytes ps ++ t))) ps t None None 0 [] [])
    as [(xs & HR & Hx & rest & b & a & HD)|[HN HD]]; try assumption; [lia| |];
    change (arr_opt None) with blank8 in HD; rewrite HD; cbn [obind].
  - left. destruct (dsp_fold_displays xs Hx 0 [] []) as (e & r & T' & E & D). rewrite E. cbn [app fst snd v_hits v_tofs].
    exists xs, r, e. repeat split; assumption.
  - right. split; [exact HN|reflexivity].
Qed.

Lemma app_split_eq {A} (u : list A) : forall v u' v', length u = length u' -> u ++ v = u' ++ v' -> u = u' /\ v = v'.
Proof.
  induction u as [|a u IH]; intros v [|b u'] v' Hl K; try discriminate Hl; [auto|].
  cbn in K. injection K as -> K. destruct (IH v u' v') as [-> ->]; [cbn in Hl; lia|exact K|]. auto.
Qed.

Lemma reads_unique t h l ps xs : reads t h l ps xs -> forall ys, reads t h l ps ys -> xs = ys.
Proof.
  intros H. induction H as [h l Et|l O|q l N S|q l N S K|q d c N S D|h l p ps xs N R IH|h l p c ps qs xs S D L R IH|h l p c ps d S D L O];
    intros ys HY.
  - inversion HY; subst; try reflexivity; congruence.
  - inversion HY; subst; reflexivity.
  - inversion HY; subst; try reflexivity; contradiction.
  - inversion HY; subst; try reflexivity. rewrite K. reflexivity.
  - inversion HY as [| | |q0 l0 N0 S0 K0|q0 d0 c0 N0 S0 D0| | |]; subst; try contradiction; try congruence.
    + rewrite K0. reflexivity.
    + rewrite (declares_chip_unique _ _ _ D D0). reflexivity.
  - inversion HY; subst; try contradiction. apply IH. assumption.
  - inversion HY as [| | | | |h0 l0 p0 ps0 xs0 N0 R0|h0 l0 p0 c0 ps0 qs0 xs0 S0 D0 L0 R0 P0|h0 l0 p0 c0 ps0 d0 S0 D0 L0 O0]; subst; try contradiction.
    + destruct (app_split_eq ps0 qs0 ps qs) as [-> ->]; [unfold zlen in *; lia|assumption|].
      rewrite (declares_chip_unique _ _ _ D D0). f_equal. apply IH. assumption.
    + rewrite zlen_app in L0. pose proof (zlen_nonneg qs). lia.
  - inversion HY as [| | | | |h0 l0 p0 ps0 xs0 N0 R0|h0 l0 p0 c0 ps0 qs0 xs0 S0 D0 L0 R0 P0|h0 l0 p0 c0 ps0 d0 S0 D0 L0 O0]; subst; try contradiction.
    + rewrite zlen_app in L. pose proof (zlen_nonneg qs0). lia.
    + rewrite (declares_chip_unique _ _ _ D D0). congruence.
Qed.

(** * Streams of datasets *)

Definition ds_packets (ds : list dataset) : list packet := flat_map (fun d => ds_header d :: d_payload d) ds.
Lemma stream_packets ds : stream ds = flat_map packet_bytes (ds_packets ds).
Proof.
  induction ds as [|d ds IH]; [reflexivity|]. unfold stream, ds_packets in *. cbn [flat_map].
  rewrite IH, flat_map_app. reflexivity.
Qed.
Lemma ds_packets_ok ds : Forall dataset_ok ds -> Forall packet_ok (ds_packets ds).
Proof.
  induction 1 as [|d ds Hd Hds IH]; [constructor|]. cbn. constructor; [apply ds_header_packet_ok; exact Hd|].
  apply Forall_app. split; [apply Hd|exact IH].
Qed.

Lemma taken_header d : dataset_ok d -> taken (ds_header d) = taken_of (zlen (d_payload d)).
Proof.
  intros (_ & _ & _ & _ & H). pose proof (zlen_nonneg (d_payload d)) as H0.
  unfold taken, taken_of, ds_header. cbn [b6 b7]. remember (zlen (d_payload d)) as n. clear Heqn.
  destruct (Z.leb_spec 128 (8 * n / 256)), (Z.leb_spec 4096 n), (Z.leb_spec 128 (8 * n mod 256)),
    (Z.ltb_spec (n mod 32) 16); lia.
Qed.
Lemma taken_of_range n : 0 <= n -> 0 <= taken_of n <= n.
Proof. intros H. unfold taken_of. destruct (4096 <=? n); [lia|]. destruct (n mod 32 <? 16); lia. Qed.

Lemma reads_stray t ps : Forall (fun p => ~ starts_TPX p) ps -> forall h l qs xs,
  (forall h', reads t h' l qs xs) -> reads t h l (ps ++ qs) xs.
Proof.
  induction 1 as [|p ps Hp Hps IH]; intros h l qs xs HR; [apply HR|]. cbn. apply rd_stray; [exact Hp|]. apply IH, HR.
Qed.

Lemma reads_stream ds : Forall dataset_ok ds ->
  Forall (fun d => Forall (fun p => ~ starts_TPX p)
    (skipn (Z.to_nat (taken_of (zlen (d_payload d)))) (d_payload d))) ds ->
  forall h l, reads [] h l (ds_packets ds) (shown ds).
Proof.
  intros Hds. induction Hds as [|d ds Hd Hds IH]; intros Hn h l; [apply rd_end; reflexivity|].
  inversion Hn as [|d0 ds0 Hn1 Hn2]; subst d0 ds0.
  unfold ds_packets, shown. cbn [flat_map]. fold (ds_packets ds) (shown ds).
  set (k := Z.to_nat (taken_of (zlen (d_payload d)))) in *.
  rewrite <- (firstn_skipn k (d_payload d)) at 1. cbn [app]. rewrite <- List.app_assoc.
  pose proof (taken_of_range (zlen (d_payload d)) (zlen_nonneg _)) as Hk.
  apply rd_data.
  - repeat split.
  - apply (schar_declares (ds_header d)). apply (ds_header_packet_ok d Hd).
  - rewrite taken_header by exact Hd. unfold zlen in *. rewrite firstn_length_le; unfold k; lia.
  - apply reads_stray; [exact Hn1|]. intros h'. apply IH. exact Hn2.
Qed.

Lemma stream_l ds : Forall dataset_ok ds ->
  Forall (fun d => Forall (fun p => ~ starts_TPX p)
    (skipn (Z.to_nat (taken_of (zlen (d_payload d)))) (d_payload d))) ds ->
  exists rs es, displays 0 (shown ds) rs es /\ filetohits (Some (stream ds)) = Ok (rs, es).
Proof.
  intros Hds Hn. rewrite stream_packets.
  destruct (file_l (ds_packets ds) [] (ds_packets_ok ds Hds)) as [(xs & rs & es & HR & HD & HF)|[HN _]];
    [constructor|unfold zlen; cbn; lia| |].
  - rewrite List.app_nil_r in HF. exists rs, es. split; [|exact HF].
    rewrite (reads_unique _ _ _ _ _ (reads_stream ds Hds Hn None None) _ HR). exact HD.
  - exfalso. apply (HN (shown ds)). apply reads_stream; assumption.
Qed.

Lemma shown_all ds : Forall (fun d => zlen (d_payload d) < 4096 /\ zlen (d_payload d) mod 32 < 16) ds ->
  shown ds = payloads ds.
Proof.
  induction 1 as [|d ds [H1 H2] Hds IH]; [reflexivity|]. unfold shown, payloads. cbn [flat_map].
  fold (shown ds) (payloads ds). rewrite IH. f_equal. f_equal.
  replace (taken_of (zlen (d_payload d))) with (zlen (d_payload d)); [unfold zlen; rewrite Nat2Z.id; apply firstn_all|].
  unfold taken_of. destruct (Z.leb_spec 4096 (zlen (d_payload d))); [lia|].
  destruct (Z.ltb_spec (zlen (d_payload d) mod 32) 16); [reflexivity|lia].
Qed.

Lemma all_shown_l ds : Forall dataset_ok ds ->
  Forall (fun d => zlen (d_payload d) < 4096 /\ zlen (d_payload d) mod 32 < 16) ds ->
  exists rs es, displays 0 (payloads ds) rs es /\ filetohits (Some (stream ds)) = Ok (rs, es).
Proof.
  intros Hds Hs. rewrite <- shown_all by exact Hs. apply stream_l; [exact Hds|].
  apply Forall_forall. intros d Hd. rewrite Forall_forall in Hs. destruct (Hs d Hd) as [H1 H2].
  replace (taken_of (zlen (d_payload d))) with (zlen (d_payload d)).
  - unfold zlen. rewrite Nat2Z.id, skipn_all. constructor.
  - unfold taken_of. destruct (Z.leb_spec 4096 (zlen (d_payload d))); [lia|].
    destruct (Z.ltb_spec (zlen (d_payload d) mod 32) 16); [reflexivity|lia].
Qed.

(** Datasets of which nothing is read. *)
Lemma none_shown_l ds : Forall dataset_ok ds -> Forall no_false_header ds ->
  Forall (fun d => 16 <= zlen (d_payload d) < 32 \/ 4096 <= zlen (d_payload d)) ds ->
  filetohits (Some (stream ds)) = Ok ([], []).
Proof.
  intros Hds Hn Hs.
  assert (Z0 : forall d, In d ds -> taken_of (zlen (d_payload d)) = 0).
  { intros d Hd. rewrite Forall_forall in Hs. specialize (Hs d Hd). unfold taken_of.
    destruct (Z.leb_spec 4096 (zlen (d_payload d))); [lia|].
    destruct (Z.ltb_spec (zlen (d_payload d) mod 32) 16); lia. }
  assert (E : shown ds = []).
  { clear Hds Hn Hs. induction ds as [|d ds IH]; [reflexivity|]. unfold shown. cbn [flat_map]. fold (shown ds).
    rewrite IH by (intros d' Hd'; apply Z0; right; exact Hd'). rewrite Z0 by (left; reflexivity). reflexivity. }
  destruct (stream_l ds Hds) as (rs & es & HD & HF).
  - apply Forall_forall. intros d Hd. rewrite Z0 by exact Hd. change (Z.to_nat 0) with 0%nat. cbn [skipn].
    rewrite Forall_forall in Hn. exact (Hn d Hd).
  - rewrite E in HD. inversion HD; subst. exact HF.
Qed.

(** * Hits *)

Lemma place_distinct c c' x y x' y' : 0 <= c < 4 -> 0 <= c' < 4 ->
  0 <= x < 256 -> 0 <= y < 256 -> 0 <= x' < 256 -> 0 <= y' < 256 ->
  display_place c x y = display_place c' x' y' -> c = c' /\ x = x' /\ y = y'.
Proof.
  intros Hc Hc' Hx Hy Hx' Hy'.
  assert (C : c = 0 \/ c = 1 \/ c = 2 \/ c = 3) by lia.
  assert (C' : c' = 0 \/ c' = 1 \/ c' = 2 \/ c' = 3) by lia.
  destruct C as [-> |[-> |[-> | ->]]], C' as [-> |[-> |[-> | ->]]]; cbn; intros H; injection H; lia.
Qed.
Lemma place_onto X Y : 0 <= X < 512 -> 0 <= Y < 512 ->
  exists c x y, 0 <= c < 4 /\ 0 <= x < 256 /\ 0 <= y < 256 /\ display_place c x y = (X, Y).
Proof.
  intros HX HY. destruct (Z_lt_ge_dec X 256), (Z_lt_ge_dec Y 256).
  - exists 3, X, Y. cbn. repeat split; lia.
  - exists 2, (255 - X), (511 - Y). cbn. repeat split; try lia. f_equal; lia.
  - exists 0, (X - 256), Y. cbn. repeat split; try lia. f_equal; lia.
  - exists 1, (511 - X), (511 - Y). cbn. repeat split; try lia. f_equal; lia.
Qed.

Lemma display_place_range c x y : 0 <= x < 256 -> 0 <= y < 256 ->
  0 <= fst (display_place c x y) < 512 /\ 0 <= snd (display_place c x y) < 512.
Proof.
  intros Hx Hy. unfold display_place. destruct c as [|[q|[q|q|]|]|]; cbn; lia.
Qed.

Lemma says_ok c f T r : fields_ok f -> display_says c f T r -> raw_ok r.
Proof.
  intros Hf (_ & Et & _ & E & Es & _). pose proof (time30_range f Hf). unfold fields_ok in Hf.
  destruct (display_place_range c (f_x f) (f_y f)) as [R1 R2]; [lia|lia|]. rewrite <- E in R1, R2. cbn in R1, R2.
  unfold raw_ok. rewrite Et, Es. repeat split; lia.
Qed.

Lemma displays_ok T xs rs es : displays T xs rs es ->
  Forall raw_ok rs /\ Forall (fun e => 0 <= e < 170000) es /\ (length es <= length rs)%nat /\
  zlen rs = zlen (filter (fun x => b7 (snd x) / 16 =? 11) xs).
Proof.
  induction 1 as [T|T c p f r xs rs es Ep Hf Ht Hs Hd (I1 & I2 & I3 & I4)|T c p xs rs es H7 Hd (I1 & I2 & I3 & I4)|T c p xs rs es K N Hd (I1 & I2 & I3 & I4)].
  - repeat split; try constructor.
  - split; [constructor; [exact (says_ok c f T r Hf Hs)|exact I1]|]. split; [|split].
    + apply Forall_app. split; [|exact I2]. unfold tof_bins. destruct (_ && _) eqn:E; [|constructor].
      constructor; [|constructor]. assert (0 <= tof32 f T) by (apply Z.mod_pos_bound; lia).
      generalize dependent (tof32 f T). intros z E Hz. lia.
    + rewrite app_length. cbn [length]. unfold tof_bins. destruct (_ && _); cbn [length]; lia.
    + cbn [filter snd]. rewrite Ep, pixel_type, Ht by exact Hf. change (11 =? 11) with true. cbn iota.
      unfold zlen in *. cbn [length]. lia.
  - repeat split; try assumption. cbn [filter snd]. rewrite H7. exact I4.
  - repeat split; try assumption. cbn [filter snd]. destruct (Z.eqb_spec (b7 p / 16) 11); [contradiction|exact I4].
Qed.

Lemma file_all m : bytes_ok m -> exists ps t, m = flat_map packet_bytes ps ++ t /\
  Forall packet_ok ps /\ bytes_ok t /\ zlen t < 8.
Proof.
  intros Hm. destruct (split_front (Z.to_nat (zlen m / 8)) m) as (ps & t & Hl & E).
  { pose proof (zlen_nonneg m). lia. }
  exists ps, t. split; [exact E|]. rewrite E in Hm. apply bytes_flat in Hm. destruct Hm as [H1 H2].
  split; [exact H1|]. split; [exact H2|]. pose proof (zlen_nonneg m).
  assert (Z : zlen m = 8 * zlen ps + zlen t) by (rewrite E, zlen_app, zlen_flat; reflexivity).
  unfold zlen at 2 in Z. rewrite Hl in Z. lia.
Qed.

Lemma file_ok_l m : bytes_ok m ->
  (exists rs es, filetohits (Some m) = Ok (rs, es) /\ Forall raw_ok rs /\ Forall (fun e => 0 <= e < 170000) es) \/
  filetohits (Some m) = UB Uninitialised.
Proof.
  intros Hm. destruct (file_all m Hm) as (ps & t & -> & H1 & H2 & H3).
  destruct (file_l ps t H1 H2 H3) as [(xs & rs & es & _ & HD & HF)|[_ HF]]; [left|right; exact HF].
  destruct (displays_ok _ _ _ _ HD) as (I1 & I2 & _). exists rs, es. auto.
Qed.
