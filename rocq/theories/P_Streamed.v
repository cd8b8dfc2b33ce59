(** Proofs about the streaming program and the true hits and events (C96). *)
From Coq Require Import Reals Lra Permutation.
From Flocq Require Import Core.
From Verif Require Import P_StreamMain P_StreamRun P_StreamRead P_StreamKeep P_StreamCli P_LibMore.
From Verif Require Import P_Gauss P_Hit P_HitProps P_Lib P_LibHit P_Measure P_Recover P_Events.
From Verif Require Export S_Streamed.
From Coq Require Import Lia ZifyBool Zify.
Local Open Scope Z_scope.
Ltac Zify.zify_post_hook ::= Z.to_euclidean_division_equations.

(** * The reader *)

Lemma recorded_timely chip k ps hs k' : recorded soon false chip k ps hs k' ->
  Forall packet_ok ps -> forall seen s rest, knows_all k s -> ref_ok seen s ->
  (forall seen' s', knows_all k' s' -> ref_ok seen' s' -> timely seen' rest) ->
  timely seen (map (pair chip) ps ++ rest).
Proof.
  intros R. induction R as [k|g a P G p ps hs k E HG El R IH|g G P p ps hs k E Em R IH
    |g a P T p ps hs k E Ec A R IH|a P T p ps hs k C E Ec N R IH
    |g a T H f p ps hs k Hf Ht -> Es H0 A HT R IH|g a P p ps hs k C N K R IH|k p ps hs k' K R IH];
    try discriminate; intros O seen s rest I Q Hr;
    [cbn; exact (Hr _ _ I Q)|..];
    apply Forall_cons_iff in O; destruct O as [Op O]; cbn [map app];
    pose proof (proj1 (ref_step seen s chip _ [] Op Q)) as Q';
    pose proof I as I0; destruct I as (Ir & Ib & Ia & Ip); cbn [k_ref k_announced k_pulse] in *.
  - rewrite lstep_low in Q' by assumption. cbn [fst] in Q'.
    apply ti_other; [rewrite (kind_low p E); discriminate|]. eapply (IH O); [|exact Q'|exact Hr].
    unfold knows_all. cbn [k_ref k_announced k_pulse ts_tdc ts_gdc ts_timer].
    pose proof (lsb_range p). repeat split; try assumption; try lia; tauto.
  - rewrite lstep_high in Q' by assumption. cbn [fst] in Q'.
    apply ti_other; [rewrite (kind_high p E); discriminate|]. eapply (IH O); [|exact Q'|exact Hr]. destruct Ia as [Ea Ga].
    unfold knows_all. cbn [k_ref k_announced k_pulse ts_tdc ts_gdc ts_timer].
    repeat split; try assumption; lia.
  - rewrite lstep_pulse in Q' by assumption. cbn [fst] in Q'.
    apply ti_other; [rewrite (kind_pulse p E); discriminate|]. eapply (IH O); [|exact Q'|exact Hr]. destruct Ir as [Er Gr].
    destruct (next_pulse_gdc p s E ltac:(lia)) as (_ & _ & _ & X).
    unfold knows_all. cbn [k_ref k_announced k_pulse ts_tdc ts_gdc ts_timer].
    rewrite (X T Ec) by (unfold soon in A; lia). tauto.
  - assert (K : kind_of (pixel_packet f) = KPixel) by (apply kind_pixel; assumption).
    rewrite lstep_pixel in Q' by assumption. cbn [fst] in Q'. destruct Ir as [Er Gr].
    apply (ti_pixel _ _ _ _ (ts_tdc s) (ts_gdc s)); [exact K|apply Q|apply Q| |eapply (IH O); [exact I0|exact Q'|exact Hr]].
    rewrite Er, Ip, (lib_true f g T H chip) by assumption.
    unfold true_hit. destruct (place chip (f_x f) (f_y f)). cbn [h_spider]. lia.
  - rewrite lstep_other in Q' by assumption. cbn [fst] in Q'.
    apply ti_other; [destruct K as [K|[K _]]; rewrite K; discriminate|].
    eapply (IH O); [exact I0|exact Q'|exact Hr].
Qed.

Lemma recording_timely k ds hss k' : recording soon false k ds hss k' -> Forall dataset_ok ds ->
  forall seen s, knows_all k s -> ref_ok seen s -> timely seen (payloads ds).
Proof.
  intros R. induction R as [k|k d ds chip hs hss k1 k2 C P R IH]; intros O seen s I Q; [constructor|].
  apply Forall_cons_iff in O. destruct O as [Od O].
  unfold payloads. cbn [flat_map]. fold (payloads ds).
  assert (Ech : schar (d_chip d) = chip).
  { change (d_chip d) with (b4 (ds_header d)). apply P_Lib.chip_of; [|exact C]. apply P_Core.ds_header_ok. exact Od. }
  rewrite Ech.
  apply (recorded_timely _ _ _ _ _ P (proj1 (proj2 (proj2 (proj2 Od)))) seen s _ I Q).
  intros seen' s' I' Q'. exact (IH O _ _ I' Q').
Qed.

Lemma recording_stamped ds hss k : Forall dataset_ok ds -> recording soon false nothing_known ds hss k ->
  timely [] (payloads ds) /\ stamped [] (payloads ds) (concat hss).
Proof.
  intros O R.
  assert (K0 : knows_all nothing_known ts0) by (unfold knows_all; cbn; repeat split; lia).
  split; [exact (recording_timely _ _ _ _ R O _ _ K0 ref_start)|].
  destruct (parse_raw_stamped (stream ds) (payloads ds)) as (hs & E & S0).
  - apply stream_bytes. exact O.
  - apply C55_streams_l. exact O.
  - rewrite (C90_lib_l ds hss k O R) in E. injection E as ->. exact S0.
Qed.

Lemma stream_tail_framed (fin : list Z -> Prop) tail ds : fin tail -> Forall dataset_ok ds ->
  framed fin (stream ds ++ tail) (payloads ds).
Proof.
  intros Hf O. induction O as [|d ds Hd O IH]; [constructor; exact Hf|].
  unfold stream, payloads. cbn [flat_map]. fold (stream ds) (payloads ds).
  destruct Hd as (H3 & H4 & H5 & Hp & Hn).
  unfold dataset_bytes. cbv zeta.
  set (n := 8 * zlen (d_payload d)).
  assert (Hr : 0 <= n <= 65528) by (subst n; unfold zlen in *; lia).
  replace ((([84; 80; 88; d_b3 d; d_chip d; d_b5 d; n mod 256; n / 256] ++
            flat_map packet_bytes (d_payload d)) ++ stream ds) ++ tail)
    with (packet_bytes (Packet 84 80 88 (d_b3 d) (d_chip d) (d_b5 d) (n mod 256) (n / 256)) ++
          flat_map packet_bytes (d_payload d) ++ stream ds ++ tail) by (rewrite <- !app_assoc; reflexivity).
  apply fr_data.
  - unfold starts_TPX. cbn. auto.
  - unfold declares_chip, schar. cbn [b4]. unfold is_byte in H4.
    destruct (Z.ltb_spec (d_chip d) 128); lia.
  - unfold declared_packets. cbn [b6 b7]. subst n. lia.
  - exact IH.
Qed.

Lemma C96_hits_l keep ds m hss k : Forall dataset_ok ds -> readable keep ds m ->
  recording soon false nothing_known ds hss k -> rd_run keep m = Ok (concat hss).
Proof.
  intros O Rd R. destruct (recording_stamped ds hss k O R) as [Ti St].
  destruct Rd as [ds tail Bt Ot|ds d ps p Ep Kp].
  - assert (B : bytes_ok (stream ds ++ tail)).
    { apply Forall_app. split; [apply P_Core.stream_ok; exact O|exact Bt]. }
    pose proof (stream_tail_framed odd_end tail ds Ot O) as F.
    destruct (rd_run_strict_l _ B) as [(xs & hs & Fx & Tx & Sx & ->)|[N _]].
    + rewrite <- (framed_unique _ _ _ _ F odd_end_long B Fx) in Sx.
      f_equal. exact (C57_unique_l _ _ _ _ Sx St).
    + exfalso. apply N. exists (payloads ds). split; assumption.
  - apply Forall_app in O. destruct O as [O Od]. apply Forall_cons_iff in Od. destruct Od as [Od _].
    destruct (keep_dup_l ds d ps p O Od Ep) as [X _]. destruct (X Ti) as (hs & Sx & E & _).
    rewrite (E Kp). f_equal. exact (C57_unique_l _ _ _ _ Sx St).
Qed.

Lemma C96_copies_l ds d ps p hss k : Forall dataset_ok (ds ++ [d]) -> d_payload d = ps ++ [p] -> kind_of p = KPixel ->
  recording soon false nothing_known (ds ++ [d]) hss k ->
  exists hs h, concat hss = hs ++ [h] /\
    rd_run true (stream (ds ++ [d])) = Ok (concat hss ++ repeat h (length (d_payload d))).
Proof.
  intros O Ep Kp R. destruct (recording_stamped _ hss k O R) as [Ti St].
  apply Forall_app in O. destruct O as [O Od]. apply Forall_cons_iff in Od. destruct Od as [Od _].
  destruct (keep_dup_l ds d ps p O Od Ep) as [X _]. destruct (X Ti) as (hs & Sx & _ & E).
  destruct (E Kp) as (hs0 & h & E1 & E2). pose proof (C57_unique_l _ _ _ _ Sx St) as <-.
  exists hs0, h. split; assumption.
Qed.

(** * Pieces of an observation *)

Lemma renumber (ob : list nat) : exists F own, NoDup F /\ ob = map (fun l => nth l F O) own /\
  by_first_hit own /\ forall l, In l own <-> (l < length F)%nat.
Proof.
  induction ob as [|x ob (F & own & N & E & B & U)] using rev_ind.
  - exists [], []. split; [constructor|]. split; [reflexivity|]. split.
    + intros i l H. destruct i; discriminate.
    + intros l. cbn. split; [tauto|lia].
  - assert (Bs : forall l, (l <= length F)%nat -> by_first_hit (own ++ [l])).
    { intros l Hl i m Hi l' Hl'. destruct (Nat.lt_ge_cases i (length own)) as [D|D].
      - rewrite nth_error_app1 in Hi by exact D. pose proof (B i m Hi l' Hl') as I.
        rewrite firstn_app. apply in_or_app. left. exact I.
      - rewrite nth_error_app2 in Hi by exact D. destruct (i - length own)%nat as [|j] eqn:Ej; [|destruct j; discriminate].
        cbn in Hi. injection Hi as <-. rewrite firstn_app. apply in_or_app. left.
        rewrite firstn_all2 by lia. apply U. lia. }
    destruct (in_dec Nat.eq_dec x F) as [I|I].
    + apply In_nth with (d := O) in I. destruct I as (l & Hl & El).
      exists F, (own ++ [l]). split; [exact N|]. split; [rewrite map_app, <- E; cbn; rewrite El; reflexivity|].
      split; [apply Bs; lia|]. intros m. rewrite in_app_iff. cbn [In]. rewrite U. split; [intros [H|[<-|[]]]; assumption|auto].
    + exists (F ++ [x]), (own ++ [length F]). split.
      { apply (Permutation_NoDup (l := x :: F)); [apply Permutation_cons_append|constructor; assumption]. }
      split.
      { rewrite map_app. cbn [map]. rewrite app_nth2, Nat.sub_diag by lia. cbn [nth]. f_equal.
        rewrite E. apply map_ext_in. intros l Hl. apply U in Hl. rewrite app_nth1 by exact Hl. reflexivity. }
      split; [apply Bs; lia|]. intros m. rewrite in_app_iff, app_length. cbn [In length]. rewrite U. lia.
Qed.

Lemma members_map g l ls : forall hs, (forall m, In m ls -> g m = g l -> m = l) ->
  members (g l) (map g ls) hs = members l ls hs.
Proof.
  unfold members. induction ls as [|x ls IH]; intros [|h hs] Hg; try reflexivity.
  cbn [map combine filter fst].
  assert (IH' : map snd (filter (fun p : nat * hit => fst p =? g l)%nat (combine (map g ls) hs)) =
                map snd (filter (fun p => fst p =? l)%nat (combine ls hs))).
  { apply IH. intros m Hm. apply Hg. right. exact Hm. }
  destruct (Nat.eqb_spec x l) as [->|D].
  - rewrite Nat.eqb_refl. cbn [map]. f_equal. exact IH'.
  - destruct (Nat.eqb_spec (g x) (g l)) as [D'|D']; [|exact IH'].
    exfalso. apply D, Hg; [left; reflexivity|exact D'].
Qed.

(** A piece of the hits of isolated events, renumbered. *)
Lemma piece_isolated n a w r range src pre b post opre ob opost F own :
  isolated n a w r range src (pre ++ b ++ post) (opre ++ ob ++ opost) ->
  length opre = length pre -> length ob = length b ->
  NoDup F -> ob = map (fun l => nth l F O) own -> by_first_hit own -> (forall l, In l own <-> (l < length F)%nat) ->
  isolated n a w r range (fun l => src (nth l F O)) b own.
Proof.
  intros I Lp Lb N E B U.
  assert (Inb : forall l, In l own -> In (nth l F O) (opre ++ ob ++ opost)).
  { intros l Hl. apply in_or_app. right. apply in_or_app. left. rewrite E. apply (in_map (fun l => nth l F O)). exact Hl. }
  assert (Inj : forall l l', In l own -> In l' own -> nth l F O = nth l' F O -> l = l').
  { intros l l' Hl Hl' Q. apply U in Hl. apply U in Hl'. exact (proj1 (NoDup_nth F O) N l l' Hl Hl' Q). }
  assert (Sh : forall i h, nth_error b i = Some h -> nth_error (pre ++ b ++ post) (length pre + i) = Some h).
  { intros i h Hi. rewrite nth_error_app2 by lia. replace (length pre + i - length pre)%nat with i by lia.
    rewrite nth_error_app1; [exact Hi|]. apply nth_error_Some. congruence. }
  constructor.
  - rewrite <- Lb, E, map_length. reflexivity.
  - exact B.
  - intros i l h Hl Hh. apply (iso_stems _ _ _ _ _ _ _ _ I (length pre + i)); [|apply Sh; exact Hh].
    rewrite nth_error_app2 by lia. replace (length pre + i - length opre)%nat with i by lia.
    assert (X : nth_error ob i = Some (nth l F O)) by (rewrite E; exact (map_nth_error (fun l => nth l F O) _ _ Hl)).
    rewrite nth_error_app1; [exact X|]. apply nth_error_Some. congruence.
  - intros l l' Hl Hl' D. apply (iso_apart _ _ _ _ _ _ _ _ I); [apply Inb; exact Hl|apply Inb; exact Hl'|].
    intros Q. apply D. exact (Inj l l' Hl Hl' Q).
  - intros i j h h' Hij Hh Hh'. apply (iso_time _ _ _ _ _ _ _ _ I (length pre + i) (length pre + j)); [lia|apply Sh; exact Hh|apply Sh; exact Hh'].
  - intros l ms Hl Nm Hm. rewrite <- (map_length (fun l => nth l F O) ms).
    apply (iso_few _ _ _ _ _ _ _ _ I (nth l F O)); [apply Inb; exact Hl| |].
    + clear Hl. induction Nm as [|m ms Hn Nm IH]; [constructor|]. cbn [map]. constructor.
      * intros Hin. apply in_map_iff in Hin. destruct Hin as (m' & Q & Hm'). apply Hn.
        rewrite <- (Inj m' m); [exact Hm'| | |exact Q]; apply Hm; [right; exact Hm'|left; reflexivity].
      * apply IH. intros m' Hm'. apply Hm. right. exact Hm'.
    + intros m Hin. apply in_map_iff in Hin. destruct Hin as (m' & <- & Hm'). destruct (Hm m' Hm') as [H1 H2].
      split; [apply Inb; exact H1|exact H2].
Qed.

(** * The events of a batch *)

Lemma Forall2_impl_aux {A B} (P Q : A -> B -> Prop) l l' : (forall x y, P x y -> Q x y) -> Forall2 P l l' -> Forall2 Q l l'.
Proof. intros H F. induction F; constructor; auto. Qed.

(** Which clusters lead to events. *)
Lemma events_who fit (f : nat -> list hit) (es : list neutron) :
  forall F, NoDup F -> events fit 1 (map f F) es -> (forall l, In l F -> 1 <= zlen (f l)) ->
  exists who : list nat, NoDup who /\
    (forall l, In l who <-> In l F /\ exists e, fit (f l) = Ok e /\ fge (n_x e) (f_of_Z 0) = true /\ fge (n_y e) (f_of_Z 0) = true) /\
    Forall2 (fun l e => In l F /\ fit (f l) = Ok e /\ fge (n_x e) (f_of_Z 0) = true /\ fge (n_y e) (f_of_Z 0) = true) who es.
Proof.
  intros F. revert es. induction F as [|x F IH]; intros es N H L; cbn [map] in H.
  - inversion H; subst. exists []. split; [constructor|]. split; [|constructor]. intros l. cbn. tauto.
  - inversion N as [|? ? Nx N']; subst.
    inversion H as [|c cs evs A H1|c cs e evs A B D H1|c cs e evs A B D H1]; subst.
    + exfalso. pose proof (L x (or_introl eq_refl)). lia.
    + destruct (IH evs N' H1) as (who & W1 & W2 & W3); [intros l Hl; apply L; right; exact Hl|].
      apply andb_true_iff in D. destruct D as [Dx Dy].
      exists (x :: who). split; [constructor; [intros Hx; apply W2 in Hx; tauto|exact W1]|]. split.
      * intros l. cbn [In]. rewrite W2. split.
        -- intros [<-|[Hl X]]; [|tauto]. split; [tauto|]. exists e. auto.
        -- intros [[->|Hl] X]; [tauto|]. right. auto.
      * constructor; [cbn; auto|]. eapply Forall2_impl_aux; [|exact W3]. cbn. tauto.
    + destruct (IH es N' H1) as (who & W1 & W2 & W3); [intros l Hl; apply L; right; exact Hl|].
      exists who. split; [exact W1|]. split.
      * intros l. rewrite W2. cbn [In]. split; [tauto|]. intros [[<-|Hl] X]; [|tauto].
        exfalso. destruct X as (e' & Q & Q1 & Q2). rewrite B in Q. injection Q as <-. rewrite Q1, Q2 in D. discriminate.
      * eapply Forall2_impl_aux; [|exact W3]. cbn. tauto.
Qed.

Lemma map_nth_seq {A} (g : nat -> A) F : map (fun l => g (nth l F O)) (seq 0 (length F)) = map g F.
Proof.
  induction F as [|x F IH]; [reflexivity|]. cbn [length seq map nth]. f_equal.
  rewrite <- seq_shift, map_map. exact IH.
Qed.
Lemma clusters_of_renumbered F own b : map snd b = map (fun l => nth l F O) own -> NoDup F ->
  (forall l, In l own <-> (l < length F)%nat) ->
  clusters_of (length F) own (map fst b) = map (fun l => share l b) F.
Proof.
  intros E N U. rewrite <- map_nth_seq. unfold clusters_of. apply map_ext_in. intros l Hl. apply in_seq in Hl.
  unfold share. rewrite E. symmetry. apply (members_map (fun l => nth l F O)).
  intros m Hm Q. apply U in Hm. exact (proj1 (NoDup_nth F O) N m l Hm ltac:(lia) Q).
Qed.

Lemma share_in l b h : In h (share l b) -> In (h, l) b.
Proof.
  unfold share, members. induction b as [|[x m] b IH]; [intros []|]. cbn [map combine filter fst snd].
  destruct (Nat.eqb_spec m l) as [->|D]; cbn [map In snd]; [intros [->|H]; [left; reflexivity|right; auto]|intros H; right; auto].
Qed.
Lemma share_owner l b : share l b <> [] <-> In l (map snd b).
Proof.
  unfold share, members. induction b as [|[x m] b IH]; [cbn; tauto|]. cbn [map combine filter fst snd In].
  destruct (Nat.eqb_spec m l) as [->|D]; cbn [map].
  - split; [auto|discriminate].
  - rewrite IH. split; [auto|intros [C|H]; [contradiction|exact H]].
Qed.
Lemma share_len l b : zlen (share l b) <= zlen b.
Proof. unfold share. pose proof (P_Events.zlen_members l (map snd b) (map fst b)) as H. unfold zlen in *. rewrite map_length in H. exact H. Qed.

Lemma few_not_placed ext c e : placed_by_fit ext c e -> 8 <= zlen c.
Proof.
  intros (E & X & _). destruct (Z.lt_ge_cases (zlen c) 8) as [L|L]; [|exact L]. exfalso.
  unfold gauss_fit in E. replace (zlen c <? 8) with true in E by (symmetry; apply Z.ltb_lt; lia).
  apply Ok_inj in E. rewrite <- E in X. cbn [n_x] in X. rewrite fge_of_Z in X by lia. discriminate.
Qed.

Lemma reported_l ext a w ev c e : 8 <= zlen c <= 2 ^ 20 ->
  Forall (fun h => sensor_hit h /\ stems a w (e_at ev) h /\ h_tof h = Some (h_spider h - e_pulse ev)) c ->
  placed_by_fit ext c e -> reported ext w ev c e.
Proof.
  intros L F P. split; [exact P|]. destruct P as (E & _).
  assert (Fs : Forall sensor_hit c) by (eapply Forall_impl; [|exact F]; intros h Hh; apply Hh).
  destruct (twice_median_exists_l (map h_tot c)) as (m & Hm).
  { destruct c; [unfold zlen in L; cbn in L; lia|discriminate]. }
  destruct (C76_fit_l ext c m L Fs Hm) as (e' & A & b & sx & sy & E' & _ & _ & _ & _ & _ & Nh & Ht & T & _).
  rewrite E in E'. apply Ok_inj in E'. subst e'. split; [exact Nh|].
  intros m' Hm' Na. rewrite (twice_median_unique_l _ _ _ Hm' Hm) in Na. specialize (T Na).
  set (u := above m c) in *.
  assert (Fu : Forall (fun h => sensor_hit h /\ stems a w (e_at ev) h /\ h_tof h = Some (h_spider h - e_pulse ev)) u).
  { rewrite Forall_forall in *. intros h Hh. apply F. apply filter_In in Hh. apply Hh. }
  assert (Zu : 0 < zlen u).
  { destruct u; [contradiction|]. unfold zlen. cbn [length]. rewrite Nat2Z.inj_succ. lia. }
  destruct ev as [[X0 Y0 t0] P0]. unfold stems in *. cbn [e_at e_pulse at_x at_y at_t] in *.
  set (lo := Z.max 0 ((t0 - 25 * P0 + 24) / 25)). set (hi := Z.min (2 ^ 32) ((t0 + w - 25 * P0) / 25)).
  assert (Q : lo * zlen u <= hsum tof_value u <= hi * zlen u).
  { apply hsum_plain. eapply Forall_impl; [|exact Fu]. cbn. intros h Hh.
    destruct Hh as ((_ & _ & _ & t & E1 & E2) & (_ & _ & E3) & E4). unfold tof_value, arrival in *.
    rewrite E4 in *. injection E1 as E1. unfold lo, hi. clear - E1 E2 E3. lia. }
  assert (LH : 0 <= lo <= hi /\ hi <= 2 ^ 32).
  { assert (lo * zlen u <= hi * zlen u) by lia. apply Z.mul_le_mono_pos_r in H; [|exact Zu]. unfold lo, hi in *. lia. }
  pose proof (mean_in lo hi _ _ Zu Q) as M.
  pose proof (rounded_between _ _ lo hi T M ltac:(lia) ltac:(lia)) as M2.
  assert (Big : (Rabs (IZR hi) <= bpow radix2 1000)%R).
  { apply IZR_abs_bpow; [lia|]. pose proof pow_53_1000. lia. }
  assert (Rn : rounded (n_tof_ns e) (25 * B2R (n_tof e))%R).
  { apply ns_rounded; [exact (proj1 T)|]. apply Rabs_le. apply Rabs_le_inv in Big.
    assert (IZR 0 <= IZR lo)%R by (apply IZR_le; lia). lra. }
  split; [exact (proj1 Rn)|].
  assert (M5 : (IZR (25 * lo) <= B2R (n_tof_ns e) <= IZR (25 * hi))%R).
  { apply (rounded_between _ _ _ _ Rn); [|lia|lia]. rewrite !mult_IZR. lra. }
  assert (L1 : (IZR (t0 - 25 * P0) <= IZR (25 * lo))%R) by (apply IZR_le; unfold lo; lia).
  assert (L2 : (IZR (25 * hi) <= IZR (t0 + w - 25 * P0))%R) by (apply IZR_le; unfold hi; lia).
  lra.
Qed.

Lemma combine_fst {A B} (l : list A) : forall l' : list B, length l' = length l -> map fst (combine l l') = l.
Proof. induction l as [|x l IH]; intros [|y l'] H; try discriminate; [reflexivity|]. cbn in *. f_equal. apply IH. lia. Qed.
Lemma combine_snd {A B} (l : list A) : forall l' : list B, length l' = length l -> map snd (combine l l') = l'.
Proof. induction l as [|x l IH]; intros [|y l'] H; try discriminate; [reflexivity|]. cbn in *. f_equal. apply IH. lia. Qed.
Lemma combine_at {A B} (l : list A) : forall (l' : list B) x y, In (x, y) (combine l l') ->
  exists i, nth_error l i = Some x /\ nth_error l' i = Some y.
Proof.
  induction l as [|u l IH]; intros [|v l'] x y H; try (destruct H; fail).
  destruct H as [H|H]; [injection H as -> ->; exists O; split; reflexivity|].
  destruct (IH l' x y H) as (i & H1 & H2). exists (S i). split; assumption.
Qed.

Lemma batch_reports ext a w evs hs own pre b post es : Forall (fun h => sensor_hit h) hs ->
  zlen hs <= 2 ^ 20 -> 0 <= a <= 2 -> 0 <= w <= 75 -> observed 4 a w 5 75 evs hs own ->
  combine hs own = pre ++ b ++ post -> batch_events ext (map fst b) es -> reports ext w evs b es.
Proof.
  intros Fs L Ha Hw (I & K & Ob) E (ls & op & closed & C & HE).
  pose proof (iso_length _ _ _ _ _ _ _ _ I) as Ln.
  assert (Eh : hs = map fst pre ++ map fst b ++ map fst post) by (rewrite <- (combine_fst hs own Ln), E, !map_app; reflexivity).
  assert (Eo : own = map snd pre ++ map snd b ++ map snd post) by (rewrite <- (combine_snd hs own Ln), E, !map_app; reflexivity).
  destruct (renumber (map snd b)) as (F & own' & NF & EF & BF & UF).
  assert (I' : isolated 4 a w 5 75 (fun l => e_at (nth_event evs (nth l F O))) (map fst b) own').
  { rewrite Eh, Eo in I.
    exact (piece_isolated 4 a w 5 75 _ _ _ _ _ _ _ F own' I ltac:(rewrite !map_length; reflexivity) ltac:(rewrite !map_length; reflexivity) NF EF BF UF). }
  assert (Sp : separable 4 (fits_box (5 * 2 ^ 20) 75) (map fst b) own').
  { exact (isolated_separable 4 a w 5 75 _ _ own' ltac:(lia) ltac:(lia) ltac:(lia) I'). }
  destruct (separable_run 4 _ _ _ (Nat.lt_0_succ 3) Sp) as (op' & closed' & C').
  destruct (clusters_unique _ _ _ _ _ _ C' _ _ _ C) as (<- & <- & <-).
  assert (Ek : (length op' + length closed')%nat = length F).
  { pose proof (clusters_label_bound _ _ _ _ _ _ C') as LB. rewrite Forall_forall in LB.
    pose proof (clusters_all_used _ _ _ _ _ _ C') as AU.
    destruct (Nat.lt_trichotomy (length F) (length op' + length closed')) as [X|[X|X]]; [|symmetry; exact X|].
    - pose proof (AU _ X) as Y. apply UF in Y. lia.
    - apply UF in X. apply LB in X. lia. }
  rewrite Ek, (clusters_of_renumbered F own' b EF NF UF) in HE.
  assert (InF : forall l, In l F <-> In l (map snd b)).
  { intros l. rewrite EF. split.
    - intros H. apply In_nth with (d := O) in H. destruct H as (i & Hi & <-).
      apply (in_map (fun l => nth l F O)). apply UF. exact Hi.
    - intros H. apply in_map_iff in H. destruct H as (i & <- & Hi). apply nth_In. apply UF. exact Hi. }
  destruct (events_who _ (fun l => share l b) es F NF HE) as (who & W1 & W2 & W3).
  { intros l Hl. apply InF, share_owner in Hl. destruct (share l b); [contradiction|].
    unfold zlen. cbn [length]. rewrite Nat2Z.inj_succ. lia. }
  exists who. split; [exact W1|]. split.
  - intros l. rewrite W2. split.
    + intros [Hl (e & Q)]. split; [exact (few_not_placed ext _ e Q)|]. exists e. exact Q.
    + intros [Hl (e & Q)]. split; [|exists e; exact Q]. apply InF, share_owner. intros Z. rewrite Z in Hl. unfold zlen in Hl. cbn in Hl. lia.
  - eapply Forall2_impl_aux; [|exact W3]. cbn. intros l e (Hl & Q).
    apply (reported_l ext a w); [|apply Forall_forall|exact Q].
    + split; [exact (few_not_placed ext _ e Q)|]. pose proof (share_len l b) as Z1.
      assert (zlen b <= zlen hs); [|lia]. rewrite Eh. unfold zlen. rewrite !app_length, !map_length. lia.
    + intros h Hh. apply share_in in Hh.
      assert (Hc : In (h, l) (combine hs own)) by (rewrite E; apply in_or_app; right; apply in_or_app; left; exact Hh).
      destruct (combine_at _ _ _ _ Hc) as (i & Hi & Hi').
      split; [apply (proj1 (Forall_forall _ _) Fs), (nth_error_In _ _ Hi)|].
      split; [exact (iso_stems _ _ _ _ _ _ _ _ I i l h Hi' Hi)|apply (Ob i l h Hi' Hi)].
Qed.

Lemma map_split {A B} (f : A -> B) l : forall x y, map f l = x ++ y -> exists l1 l2, l = l1 ++ l2 /\ map f l1 = x /\ map f l2 = y.
Proof. intros x y H. apply map_eq_app in H. destruct H as (l1 & l2 & -> & <- & <-). eauto. Qed.
Lemma map_concat {A B} (f : A -> B) : forall ls l, map f l = concat ls -> exists l', l = concat l' /\ map (map f) l' = ls.
Proof.
  induction ls as [|x ls IH]; intros l H.
  - apply map_eq_nil in H. subst. exists []. split; reflexivity.
  - apply map_split in H. destruct H as (l1 & l2 & -> & <- & H). destruct (IH l2 H) as (l' & -> & <-).
    exists (l1 :: l'). split; reflexivity.
Qed.
Lemma batched_pairs (hs : list hit) (own : list nat) full lost rest : length own = length hs -> batched hs full lost rest ->
  exists full' lost' rest', batched (combine hs own) full' lost' rest' /\
    map (map fst) (full' ++ nonempty_batch rest') = full ++ nonempty_batch rest.
Proof.
  intros Ln (E & F & L).
  assert (M : map fst (combine hs own) = concat full ++ lost ++ rest) by (rewrite combine_fst by exact Ln; exact E).
  apply map_split in M. destruct M as (l1 & l2 & E1 & M1 & M2). apply map_split in M2.
  destruct M2 as (lost' & rest' & -> & <- & <-). apply map_concat in M1. destruct M1 as (full' & -> & <-).
  exists full', lost', rest'. split.
  - split; [exact E1|]. split.
    + apply Forall_map in F. eapply Forall_impl; [|exact F]. intros b Hb. unfold zlen in *. rewrite map_length in Hb. exact Hb.
    + unfold zlen in *. rewrite map_length in L. exact L.
  - rewrite map_app. f_equal. destruct rest'; reflexivity.
Qed.

(** Every batch is a piece of the hits. *)
Lemma batch_piece {A} (l : list A) full lost rest b : batched l full lost rest -> In b (full ++ nonempty_batch rest) ->
  exists pre post, l = pre ++ b ++ post.
Proof.
  intros (-> & _) H. apply in_app_or in H. destruct H as [H|H].
  - apply in_split in H. destruct H as (f1 & f2 & ->). rewrite concat_app. cbn [concat].
    exists (concat f1), (concat f2 ++ lost ++ rest). rewrite <- !app_assoc. reflexivity.
  - destruct rest as [|x rest]; [destruct H|]. destruct H as [<-|[]].
    exists (concat full ++ lost), []. rewrite app_nil_r, <- app_assoc. reflexivity.
Qed.

Lemma recorded_sensor near early chip k ps hs k' : recorded near early chip k ps hs k' -> Forall (fun h => sensor_hit h) hs.
Proof.
  intros R. induction R as [k|g a P G p ps hs k E HG El R IH|g G P p ps hs k E Em R IH
    |g a P T p ps hs k E Ec A R IH|a P T p ps hs k C E Ec N R IH
    |g a T H f p ps hs k Hf Ht -> Es H0 A HT R IH|g a P p ps hs k C N K R IH|k p ps hs k' K R IH]; try assumption; [constructor|].
  constructor; [|exact IH]. unfold true_hit, sensor_hit.
  destruct (place_range chip (f_x f) (f_y f)) as [Px Py]; [apply Hf|apply Hf|].
  destruct (place chip (f_x f) (f_y f)) as [x y]. cbn [fst snd h_x h_y h_tot h_tof] in *.
  destruct Hf as (_ & _ & _ & _ & Ht' & _). split; [lia|]. split; [lia|]. split; [lia|].
  exists (H - T). split; [reflexivity|lia].
Qed.
Lemma recording_sensor near early k ds hss k' : recording near early k ds hss k' -> Forall (fun h => sensor_hit h) (concat hss).
Proof.
  intros R. induction R as [k|k d ds chip hs hss k1 k2 C P R IH]; [constructor|].
  cbn [concat]. apply Forall_app. split; [exact (recorded_sensor _ _ _ _ _ _ _ P)|exact IH].
Qed.

Lemma readable_bytes keep ds m : Forall dataset_ok ds -> readable keep ds m -> bytes_ok m.
Proof.
  intros O Rd. destruct Rd as [ds tail Bt Ot|ds d ps p Ep Kp]; [|apply P_Core.stream_ok; exact O].
  apply Forall_app. split; [apply P_Core.stream_ok; exact O|exact Bt].
Qed.

Lemma batches_report ext a w evs hs own full lost rest ess : Forall (fun h => sensor_hit h) hs ->
  zlen hs <= 2 ^ 20 -> 0 <= a <= 2 -> 0 <= w <= 75 -> observed 4 a w 5 75 evs hs own ->
  batched (combine hs own) full lost rest ->
  Forall2 (batch_events ext) (map (map fst) (full ++ nonempty_batch rest)) ess ->
  Forall2 (reports ext w evs) (full ++ nonempty_batch rest) ess.
Proof.
  intros Fs L Ha Hw Ob B H.
  assert (P : forall b, In b (full ++ nonempty_batch rest) -> exists pre post, combine hs own = pre ++ b ++ post).
  { intros b Hb. exact (batch_piece _ _ _ _ _ B Hb). }
  revert P H. generalize (full ++ nonempty_batch rest). intros bs P H.
  remember (map (map fst) bs) as ms eqn:Ems. revert bs Ems P.
  induction H as [|c es cs ess Hc H IH]; intros [|b bs] Ems P; try discriminate; [constructor|].
  injection Ems as -> ->. constructor.
  - destruct (P b (or_introl eq_refl)) as (pre & post & Eq).
    exact (batch_reports ext a w evs hs own pre b post es Fs L Ha Hw Ob Eq Hc).
  - apply IH; [reflexivity|]. intros b' Hb'. apply P. right. exact Hb'.
Qed.

Lemma C96_events_l keep ext lib input file d e ds m hss k a w evs own :
  Forall dataset_ok ds -> readable keep ds m -> recording soon false nothing_known ds hss k ->
  zlen (concat hss) <= 2 ^ 20 -> 0 <= a <= 2 -> 0 <= w <= 75 -> observed 4 a w 5 75 evs (concat hss) own ->
  input file = Some m -> stream_main keep ext lib input [file] d e ->
  exists full lost rest ess, batched (combine (concat hss) own) full lost rest /\
    Forall2 (reports ext w evs) (full ++ nonempty_batch rest) ess /\
    ((exists d', e = SExit 0 d' /\ concat ess <> [] /\ others_kept d d' /\ streamed_file (concat ess) d') \/
     (concat ess = [] /\ e = SAbort d) \/
     (~ hdf5_works lib /\ exists d', e = SAbort d' /\ others_kept d d')).
Proof.
  intros O Rd R L Ha Hw Ob I Sm.
  pose proof (C96_hits_l keep ds m hss k O Rd R) as E.
  destruct (C84_results_l keep ext lib input file d e m (concat hss) I (readable_bytes keep ds m O Rd) E Sm)
    as (full & lost & rest & ess & B & H & X).
  pose proof (iso_length _ _ _ _ _ _ _ _ (proj1 Ob)) as Ln.
  destruct (batched_pairs (concat hss) own full lost rest Ln B) as (full' & lost' & rest' & B' & Em).
  exists full', lost', rest', ess. split; [exact B'|]. split; [|exact X].
  rewrite <- Em in H. exact (batches_report ext a w evs _ own full' lost' rest' ess (recording_sensor _ _ _ _ _ _ R) L Ha Hw Ob B' H).
Qed.

Lemma pairs_batched (hs : list hit) (own : list nat) full lost rest : length own = length hs ->
  batched (combine hs own) full lost rest ->
  batched hs (map (map fst) full) (map fst lost) (map fst rest) /\
  map (map fst) (full ++ nonempty_batch rest) = map (map fst) full ++ nonempty_batch (map fst rest).
Proof.
  intros Ln (E & F & L). split.
  - split; [|split].
    + rewrite <- concat_map, <- !map_app, <- E, combine_fst by exact Ln. reflexivity.
    + apply Forall_map. eapply Forall_impl; [|exact F]. intros b Hb. unfold zlen in *. rewrite map_length. exact Hb.
    + unfold zlen in *. rewrite map_length. exact L.
  - rewrite map_app. f_equal. destruct rest; reflexivity.
Qed.

Lemma C96_possible_l keep ext lib input file d ds m hss k a w evs own full lost rest :
  Forall dataset_ok ds -> readable keep ds m -> recording soon false nothing_known ds hss k ->
  zlen (concat hss) <= 2 ^ 20 -> 0 <= a <= 2 -> 0 <= w <= 75 -> observed 4 a w 5 75 evs (concat hss) own ->
  input file = Some m -> hdf5_works lib -> batched (combine (concat hss) own) full lost rest ->
  exists ess, Forall2 (reports ext w evs) (full ++ nonempty_batch rest) ess /\
    (concat ess <> [] -> exists d', stream_main keep ext lib input [file] d (SExit 0 d') /\ others_kept d d' /\
       streamed_file (concat ess) d').
Proof.
  intros O Rd R L Ha Hw Ob I Lw B.
  pose proof (C96_hits_l keep ds m hss k O Rd R) as E.
  pose proof (iso_length _ _ _ _ _ _ _ _ (proj1 Ob)) as Ln.
  destruct (pairs_batched (concat hss) own full lost rest Ln B) as [B1 E1].
  assert (Fs : Forall sound_hit (concat hss)).
  { destruct (recording_stamped ds hss k O R) as [_ St]. apply (stamped_sound _ _ _ St), payloads_ok. exact O. }
  assert (Nb : Forall (fun b => b <> []) (map (map fst) full ++ nonempty_batch (map fst rest))).
  { destruct B1 as (_ & F & _). apply Forall_app. split.
    - eapply Forall_impl; [|exact F]. intros b Hb ->. unfold zlen in Hb. cbn in Hb. discriminate.
    - destruct (map fst rest); constructor; [discriminate|constructor]. }
  assert (Fb : Forall sound_hit (concat (map (map fst) full ++ nonempty_batch (map fst rest)))).
  { apply Forall_forall. intros h Hh. apply in_concat in Hh. destruct Hh as (b & Hb & Hh).
    destruct (batch_piece _ _ _ _ _ B1 Hb) as (pre & post & Eq). rewrite Forall_forall in Fs. apply Fs.
    rewrite Eq. apply in_or_app. right. apply in_or_app. left. exact Hh. }
  destruct (cluster_all_l ext _ Nb Fb) as (ess & H & _).
  exists ess. split.
  - apply (batches_report ext a w evs (concat hss) own full lost rest ess (recording_sensor _ _ _ _ _ _ R) L Ha Hw Ob B).
    rewrite E1. exact H.
  - intros N. exact (C84_every_division_l keep ext lib input file d m (concat hss) _ _ _ ess I (readable_bytes keep ds m O Rd) E Lw B1 H N).
Qed.
