(** Histories are recordings (C90). *)
From Coq Require Import Lia ZifyBool Zify.
From Verif Require Import P_Hit P_Measure P_HitProps P_Stream.
Local Open Scope Z_scope.
Ltac Zify.zify_post_hook ::= Z.to_euclidean_division_equations.

Lemma history_recorded near chip g T l hs g' T' : history near chip g T l hs g' T' ->
  recorded near false chip (Clock g None T) (flat_map report l) hs (Clock g' None T').
Proof.
  intros R. induction R as [g T|g G T l hs g' T' HG R IH|g T0 T l hs g' T' N R IH
    |g T x y tot ftoa H l hs g' T' Hx Hy Ht Hf H0 N HT R IH]; cbn [flat_map report app].
  - apply rc_nil.
  - set (lo := G mod 2 ^ 32). set (hi := G / 2 ^ 32).
    assert (0 <= lo < 2 ^ 32) by (unfold lo; lia). assert (0 <= hi < 2 ^ 16) by (unfold hi; lia).
    apply (rc_low _ _ _ _ _ _ G); [..|apply (rc_high _ _ _ _ G); [..|exact IH]].
    + unfold word_packet. cbn [b7]. clearbody lo. lia.
    + exact HG.
    + unfold lsb_value. rewrite le64_word by lia. fold lo. clearbody lo. lia.
    + unfold word_packet. cbn [b7]. clearbody hi. lia.
    + unfold msb_value. rewrite le64_word by lia. fold hi. clearbody hi. lia.
  - set (lo := T mod 2 ^ 32). assert (0 <= lo < 2 ^ 32) by (unfold lo; lia).
    apply (rc_pulse _ _ _ _ _ _ T); [..|exact IH].
    + unfold word_packet. cbn [b7]. clearbody lo. lia.
    + unfold tdc_counter. rewrite le64_word by lia. fold lo. clearbody lo. lia.
    + exact N.
  - pose (f := PF 11 x y (H mod 2 ^ 14) tot ftoa (H / 2 ^ 14 mod 2 ^ 16)).
    assert (E : Hit (fst (place chip x y)) (snd (place chip x y)) tot (H mod 2 ^ 14) ftoa (Some (H - T)) H =
      true_hit chip f T H).
    { unfold true_hit, f. cbn [f_x f_y f_tot f_toa f_ftoa]. destruct (place chip x y). reflexivity. }
    rewrite E. apply (rc_hit _ _ _ g None T H f); try assumption; try reflexivity.
    + unfold fields_ok, f. cbn [f_type f_x f_y f_toa f_tot f_ftoa f_spidr]. lia.
    + unfold time30, f. cbn [f_toa f_spidr]. lia.
Qed.

Lemma report_ok l : Forall packet_ok (flat_map report l).
Proof.
  induction l as [|a l IH]; [constructor|]. cbn [flat_map]. apply Forall_app. split; [|exact IH].
  destruct a; repeat constructor; apply word_packet_ok.
Qed.

Lemma histories_recording near g T xs hss : histories near g T xs hss ->
  Forall dataset_ok (map dataset_of xs) /\
  exists k, recording near false (Clock g None T) (map dataset_of xs) hss k.
Proof.
  intros R. induction R as [g T|g T b3 chip b5 l hs g' T' xs hss B3 C B5 L R1 R IH].
  - split; [constructor|]. eexists. constructor.
  - destruct IH as [O (k & IH)]. cbn [map dataset_of]. split.
    + constructor; [|exact O]. repeat apply conj; cbn [d_b3 d_chip d_b5 d_payload]; try assumption;
        try apply report_ok; unfold is_byte in *; lia.
    + exists k. apply (rg_cons _ _ _ _ _ chip _ _ (Clock g' None T')); [|apply history_recorded; exact R1|exact IH].
      unfold declares_chip, ds_header. cbn [b4 d_chip]. split; [lia|]. rewrite Z.sub_diag. reflexivity.
Qed.

Lemma C90_round_trip_l xs hss : histories (fun g t => after g t /\ 0 < t < 2 ^ 31) None None xs hss ->
  Forall dataset_ok (map dataset_of xs) /\
  (exists s, processed GDC_mode ts0 (map dataset_of xs) hss s) /\
  (exists s, processed TDC_mode ts0 (map dataset_of xs) hss s) /\
  parse_raw (stream (map dataset_of xs)) = Ok (concat hss).
Proof.
  intros R. destruct (histories_recording _ _ _ _ _ R) as [O (k & Q)]. split; [exact O|].
  exact (C90_agree_l _ _ k O Q).
Qed.
Lemma C90_unique_l ds hss k hss' k' : Forall dataset_ok ds ->
  recording around true nothing_known ds hss k -> recording around true nothing_known ds hss' k' -> hss = hss'.
Proof.
  intros O R R'. destruct (C90_gdc_l _ _ _ O R) as (s & P). destruct (C90_gdc_l _ _ _ O R') as (s' & P').
  apply (P_CliRun.processed_unique _ _ _ _ _ _ _ P P').
Qed.
Lemma C90_long_run_l xs hss : histories after None None xs hss ->
  Forall dataset_ok (map dataset_of xs) /\
  (exists s, processed GDC_mode ts0 (map dataset_of xs) hss s) /\
  parse_raw (stream (map dataset_of xs)) = Ok (concat hss).
Proof.
  intros R. destruct (histories_recording _ _ _ _ _ R) as [O (k & Q)]. split; [exact O|].
  split; [|apply (C90_lib_l _ _ k O); revert Q; apply recording_mono; [unfold after, soon; lia|auto]].
  apply (C90_gdc_l _ _ k O). revert Q. apply recording_mono; [|discriminate].
  unfold after, around. intros. lia.
Qed.

(** * The limits are sharp *)
Definition late_hit (T H : Z) : list hit := [Hit 360 200 77 (H mod 16384) 5 (Some (H - T)) H].
Definition one_hit (G T H : Z) : list (Z * Z * Z * list act) := [(51, 0, 0, [Ref G; Pulse T; Fire 100 200 77 5 H])].
Lemma one_history (near : Z -> Z -> Prop) G T H : 0 < G < 2 ^ 48 - 2 ^ 32 -> near G T -> near G H -> 0 < T <= H -> H <= T + 666667 ->
  0 <= H -> histories near None None (one_hit G T H) [late_hit T H].
Proof.
  intros HG NT NH O L P. unfold one_hit, late_hit.
  apply (hs_cons _ _ _ _ _ _ _ _ (Some G) (Some T)); try (unfold is_byte; lia); [vm_compute; discriminate| |apply hs_nil].
  apply hy_ref; [lia|]. apply hy_pulse; [exact NT|].
  apply (hy_fire _ 0 G T 100 200); try lia; [exact NH|]. apply hy_nil.
Qed.
Lemma not_processed md xs hss : Forall dataset_ok (map dataset_of xs) ->
  map (map (fun h => (h_tof h, h_spider h))) (fst (P_Core.pass md (map P_Cli.ds_item (map dataset_of xs)) ts0)) <>
    map (map (fun h => (h_tof h, h_spider h))) hss ->
  forall s, ~ processed md ts0 (map dataset_of xs) hss s.
Proof.
  intros O N s P. apply N.
  destruct (P_CliRun.processed_unique _ _ _ _ _ _ _ P (P_CliRun.pass_processed md _ O ts0)) as [-> _]. reflexivity.
Qed.
Lemma C90_gdc_late_l : exists xs hss, histories (fun g t => g <= t <= g + 40000000) None None xs hss /\
  forall s, ~ processed GDC_mode ts0 (map dataset_of xs) hss s.
Proof.
  exists (one_hit 1000 40000000 40001000), [late_hit 40000000 40001000].
  assert (R : histories (fun g t => g <= t <= g + 40000000) None None (one_hit 1000 40000000 40001000) [late_hit 40000000 40001000])
    by (apply one_history; lia).
  split; [exact R|]. destruct (histories_recording _ _ _ _ _ R) as [O _].
  apply (not_processed GDC_mode _ _ O). vm_compute. discriminate.
Qed.
Lemma C90_tdc_late_l : exists xs hss, histories (fun g t => after g t /\ t <= 2 ^ 31) None None xs hss /\
  forall s, ~ processed TDC_mode ts0 (map dataset_of xs) hss s.
Proof.
  set (G := 2 ^ 31 - 2000). set (T := 2 ^ 31 - 1000). exists (one_hit G T (2 ^ 31)), [late_hit T (2 ^ 31)].
  assert (R : histories (fun g t => after g t /\ t <= 2 ^ 31) None None (one_hit G T (2 ^ 31)) [late_hit T (2 ^ 31)])
    by (apply one_history; unfold after, G, T; lia).
  split; [exact R|]. destruct (histories_recording _ _ _ _ _ R) as [O _].
  apply (not_processed TDC_mode _ _ O). vm_compute. discriminate.
Qed.
Lemma C90_lib_before_l : exists xs hss, histories around None None xs hss /\
  parse_raw (stream (map dataset_of xs)) <> Ok (concat hss).
Proof.
  exists (one_hit 5000 4000 4500), [late_hit 4000 4500].
  split; [apply one_history; unfold around; lia|]. vm_compute. discriminate.
Qed.
Lemma C90_gdc_early_l : exists xs hss, histories (fun g t => g + 40000000 - 2 ^ 30 - 1 <= t < g + 40000000) None None xs hss /\
  forall s, ~ processed GDC_mode ts0 (map dataset_of xs) hss s.
Proof.
  set (T := 40000000 - 1). exists (one_hit (2 ^ 30) T T), [late_hit T T].
  assert (R : histories (fun g t => g + 40000000 - 2 ^ 30 - 1 <= t < g + 40000000) None None (one_hit (2 ^ 30) T T) [late_hit T T])
    by (apply one_history; unfold T; lia).
  split; [exact R|]. destruct (histories_recording _ _ _ _ _ R) as [O _].
  apply (not_processed GDC_mode _ _ O). vm_compute. discriminate.
Qed.
Lemma C90_lib_late_l : exists xs hss, histories (fun g t => g <= t <= g + 2 ^ 30) None None xs hss /\
  parse_raw (stream (map dataset_of xs)) <> Ok (concat hss).
Proof.
  exists (one_hit 1000 (2 ^ 30 + 1000) (2 ^ 30 + 1000)), [late_hit (2 ^ 30 + 1000) (2 ^ 30 + 1000)].
  split; [apply one_history; lia|]. vm_compute. discriminate.
Qed.
Lemma C90_frame_l : exists G T, 0 < G <= T /\ T + 666801 < G + 40000000 /\
  forall s, ~ processed GDC_mode ts0 [dataset_of (51, 0, 0, [Ref G; Pulse T; Fire 100 200 77 5 (T + 666801)])]
    [[Hit 360 200 77 ((T + 666801) mod 2 ^ 14) 5 (Some 666801) (T + 666801)]] s.
Proof.
  exists 1000, 2000. split; [lia|]. split; [lia|].
  apply (not_processed GDC_mode (one_hit 1000 2000 (2000 + 666801))).
  - unfold one_hit. cbn [map dataset_of]. constructor; [|constructor].
    repeat apply conj; cbn [d_b3 d_chip d_b5 d_payload]; try apply report_ok; unfold is_byte; try lia.
    vm_compute. discriminate.
  - vm_compute; discriminate.
Qed.
