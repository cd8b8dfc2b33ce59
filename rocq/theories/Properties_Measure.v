(** Property C90: the decoders recover what the detector saw.  Each theorem is
    followed by a concrete instance of its hypotheses. *)
From Coq Require Import Reals String Permutation.
From Verif Require Import P_Program P_Measure P_MeasureHist P_MeasureShow P_EventsProgram.
From Verif Require Import Properties_Tpx3 Properties_Cli Properties_Tof Properties_Main Properties_Program.
From Coq Require Import Lia.
Global Open Scope Z_scope.

(** * Concrete data used by the instances *)

(** The two datasets of the other instances, times as they really were. *)
Definition mex_hits : list (list hit) :=
  [[Hit 360 200 77 5234 5 (Some 3234) 4294972530];
   [Hit 252 511 88 2345 6 (Some 16729) 4294986025; Hit 155 315 77 5234 5 (Some 3234) 4294972530]].
Lemma mex_recording : recording around true nothing_known cex_ds mex_hits
  (Clock (Some (2 ^ 32 + 1000)) None (Some (2 ^ 32 + 2000))).
Proof.
  apply (rg_cons _ _ _ _ _ 0 _ _ (Clock (Some (2 ^ 32 + 1000)) None (Some (2 ^ 32 + 2000)))).
  - vm_compute. intuition discriminate.
  - unfold ex_ds1. cbn [d_payload].
    apply rc_hit_early; [reflexivity|left; reflexivity|vm_compute; reflexivity|].
    apply (rc_low _ _ _ _ _ _ (2 ^ 32 + 1000)); [vm_compute; reflexivity|lia|vm_compute; reflexivity|].
    apply rc_high; [vm_compute; reflexivity|vm_compute; reflexivity|].
    apply (rc_pulse _ _ _ _ _ _ (2 ^ 32 + 2000)); [vm_compute; reflexivity|vm_compute; reflexivity|unfold around; lia|].
    change (Hit 360 200 77 5234 5 (Some 3234) 4294972530)
      with (true_hit 0 (PF 11 100 200 5234 77 5 0) (2 ^ 32 + 2000) (2 ^ 32 + 5234)).
    apply (rc_hit _ _ _ _ _ (2 ^ 32 + 2000) (2 ^ 32 + 5234) (PF 11 100 200 5234 77 5 0));
      [vm_compute; intuition discriminate|reflexivity|reflexivity|vm_compute; reflexivity|lia|unfold around; lia|lia|].
    apply rc_nil.
  - apply (rg_cons _ _ _ _ _ 2 _ _ (Clock (Some (2 ^ 32 + 1000)) None (Some (2 ^ 32 + 2000)))); [vm_compute; intuition discriminate| |apply rg_nil].
    unfold ex_ds2. cbn [d_payload].
    change (Hit 252 511 88 2345 6 (Some 16729) 4294986025)
      with (true_hit 2 (PF 11 3 4 2345 88 6 1) (2 ^ 32 + 2000) (2 ^ 32 + 18729)).
    change (Hit 155 315 77 5234 5 (Some 3234) 4294972530)
      with (true_hit 2 (PF 11 100 200 5234 77 5 0) (2 ^ 32 + 2000) (2 ^ 32 + 5234)).
    apply (rc_hit _ _ _ _ _ (2 ^ 32 + 2000) (2 ^ 32 + 18729) (PF 11 3 4 2345 88 6 1));
      [vm_compute; intuition discriminate|reflexivity|reflexivity|vm_compute; reflexivity|lia|unfold around; lia|lia|].
    apply (rc_hit _ _ _ _ _ (2 ^ 32 + 2000) (2 ^ 32 + 5234) (PF 11 100 200 5234 77 5 0));
      [vm_compute; intuition discriminate|reflexivity|reflexivity|vm_compute; reflexivity|lia|unfold around; lia|lia|].
    apply rc_nil.
Qed.

(** A history of two pulses and four hits on two chips. *)
Definition hex : list (Z * Z * Z * list act) :=
  [(51, 0, 0, [Ref 1000; Pulse 2000; Fire 100 200 77 5 5234; Fire 101 201 50 3 5235; Fire 20 30 9 1 5236]);
   (51, 1, 0, [Pulse 668667; Fire 3 4 88 6 700000])].
Definition hex_hits : list (list hit) :=
  [[Hit 360 200 77 5234 5 (Some 3234) 5234; Hit 361 201 50 5235 3 (Some 3235) 5235;
    Hit 280 30 9 5236 1 (Some 3236) 5236]; [Hit 512 511 88 11872 6 (Some 31333) 700000]].
Lemma hex_histories (near : Z -> Z -> Prop) :
  (forall t, In t [2000; 5234; 5235; 5236; 668667; 700000] -> near 1000 t) ->
  histories near None None hex hex_hits.
Proof.
  intros N. unfold hex, hex_hits.
  apply (hs_cons _ _ _ _ _ _ _ _ (Some 1000) (Some 2000)); try (unfold is_byte; lia); [vm_compute; discriminate| |].
  - apply hy_ref; [lia|]. apply hy_pulse; [apply N; cbn; tauto|].
    apply (hy_fire _ 0 1000 2000 100 200); try lia; [apply N; cbn; tauto|].
    apply (hy_fire _ 0 1000 2000 101 201); try lia; [apply N; cbn; tauto|].
    apply (hy_fire _ 0 1000 2000 20 30); try lia; [apply N; cbn; tauto|]. apply hy_nil.
  - apply (hs_cons _ _ _ _ _ _ _ _ (Some 1000) (Some 668667)); try (unfold is_byte; lia); [vm_compute; discriminate| |apply hs_nil].
    apply hy_pulse; [apply N; cbn; tauto|].
    apply (hy_fire _ 1 1000 668667 3 4); try lia; [apply N; cbn; tauto|]. apply hy_nil.
Qed.

(** * C90 *)

(** GDC mode: if every pulse and hit is placed within 25.8 s before and 1 s after the
    last time packet and every hit within a frame after its pulse, the hits are the
    true ones; those before the first time packet or pulse are left out. *)
Theorem C90_gdc : forall ds hss k, Forall dataset_ok ds -> recording around true nothing_known ds hss k ->
  exists s, processed GDC_mode ts0 ds hss s.
Proof. exact C90_gdc_l. Qed.
Print Assumptions C90_gdc.
Example C90_gdc_instance : exists s, processed GDC_mode ts0 cex_ds mex_hits s.
Proof. exact (C90_gdc cex_ds mex_hits _ (proj1 cex_ok) mex_recording). Qed.

(** TDC mode, for times below 2^31 ticks (53 s). *)
Theorem C90_tdc : forall ds hss k, recording early_run false nothing_known ds hss k ->
  exists s, processed TDC_mode ts0 ds hss s.
Proof. exact C90_tdc_l. Qed.
Print Assumptions C90_tdc.
Example C90_tdc_instance : exists s, processed TDC_mode ts0 (map dataset_of hex) hex_hits s.
Proof.
  destruct (histories_recording early_run None None hex hex_hits) as [_ (k & R)].
  - apply hex_histories. intros t H. unfold early_run. repeat (destruct H as [<-|H]; [lia|]). destruct H.
  - exact (C90_tdc _ _ k R).
Qed.

(** The library, if pulses and hits come within a period of the 30-bit clock (26.8 s) after the last
    time packet. *)
Theorem C90_lib : forall ds hss k, Forall dataset_ok ds -> recording soon false nothing_known ds hss k ->
  parse_raw (stream ds) = Ok (concat hss).
Proof. exact C90_lib_l. Qed.
Print Assumptions C90_lib.
Example C90_lib_instance : parse_raw (stream (map dataset_of hex)) = Ok (concat hex_hits).
Proof.
  destruct (histories_recording soon None None hex hex_hits) as [O (k & R)].
  - apply hex_histories. intros t H. unfold soon. repeat (destruct H as [<-|H]; [lia|]). destruct H.
  - exact (C90_lib _ _ k O R).
Qed.

(** sophiread_display, for times within one period of the 30-bit clock and datasets
    of a size that it reads (C65). *)
Theorem C90_display : forall c ds hss k, Forall dataset_ok ds ->
  Forall (fun d => zlen (d_payload d) < 4096 /\ zlen (d_payload d) mod 32 < 16) ds ->
  recording (fun _ t => t / 2 ^ 30 = c) false nothing_known ds hss k ->
  exists rs es, filetohits (Some (stream ds)) = Ok (rs, es) /\ Forall2 shown_as (concat hss) rs.
Proof. exact C90_display_l. Qed.
Print Assumptions C90_display.
Example C90_display_instance : exists rs es, filetohits (Some (stream (map dataset_of hex))) = Ok (rs, es) /\
  Forall2 shown_as (concat hex_hits) rs /\ map w_x rs = [356; 357; 276; 508].
Proof.
  destruct (histories_recording (fun _ t => t / 2 ^ 30 = 0) None None hex hex_hits) as [O (k & R)].
  - apply hex_histories. intros t H. repeat (destruct H as [<-|H]; [reflexivity|]). destruct H.
  - destruct (C90_display 0 _ hex_hits k O) as (rs & es & E & F); [|exact R|].
    + repeat constructor; vm_compute; reflexivity.
    + exists rs, es. split; [exact E|]. split; [exact F|].
      repeat (match goal with F : Forall2 _ _ _ |- _ => inversion F; clear F; subst end).
      unfold shown_as in *. cbn [map h_x h_y] in *. repeat match goal with X : _ /\ _ |- _ => destruct X end. 
      repeat match goal with X : w_x _ = _ |- _ => rewrite X; clear X end. reflexivity.
Qed.

(** All decoders agree, on every history that can be told in packets: what the
    detector reports of true times is decoded to these times. *)
Theorem C90_round_trip : forall xs hss, histories (fun g t => after g t /\ 0 < t < 2 ^ 31) None None xs hss ->
  Forall dataset_ok (map dataset_of xs) /\
  (exists s, processed GDC_mode ts0 (map dataset_of xs) hss s) /\
  (exists s, processed TDC_mode ts0 (map dataset_of xs) hss s) /\
  parse_raw (stream (map dataset_of xs)) = Ok (concat hss).
Proof. exact C90_round_trip_l. Qed.
Print Assumptions C90_round_trip.
Theorem C90_long_run : forall xs hss, histories after None None xs hss ->
  Forall dataset_ok (map dataset_of xs) /\
  (exists s, processed GDC_mode ts0 (map dataset_of xs) hss s) /\
  parse_raw (stream (map dataset_of xs)) = Ok (concat hss).
Proof. exact C90_long_run_l. Qed.
Print Assumptions C90_long_run.
Example C90_round_trip_instance : histories (fun g t => after g t /\ 0 < t < 2 ^ 31) None None hex hex_hits.
Proof. apply hex_histories. intros t H. unfold after. repeat (destruct H as [<-|H]; [lia|]). destruct H. Qed.

(** The limits are sharp.  One tick more than 1 s after the time packet: *)
Theorem C90_gdc_late_refuted : exists xs hss, histories (fun g t => g <= t <= g + 40000000) None None xs hss /\
  forall s, ~ processed GDC_mode ts0 (map dataset_of xs) hss s.
Proof. exact C90_gdc_late_l. Qed.
Print Assumptions C90_gdc_late_refuted.
(** more than 25.8 s before it: *)
Theorem C90_gdc_early_refuted : exists xs hss,
  histories (fun g t => g + 40000000 - 2 ^ 30 - 1 <= t < g + 40000000) None None xs hss /\
  forall s, ~ processed GDC_mode ts0 (map dataset_of xs) hss s.
Proof. exact C90_gdc_early_l. Qed.
Print Assumptions C90_gdc_early_refuted.
(** more than a frame after the pulse: *)
Theorem C90_frame_refuted : exists G T, 0 < G <= T /\ T + 666801 < G + 40000000 /\
  forall s, ~ processed GDC_mode ts0 [dataset_of (51, 0, 0, [Ref G; Pulse T; Fire 100 200 77 5 (T + 666801)])]
    [[Hit 360 200 77 ((T + 666801) mod 2 ^ 14) 5 (Some 666801) (T + 666801)]] s.
Proof. exact C90_frame_l. Qed.
Print Assumptions C90_frame_refuted.
(** after 53 s in TDC mode: *)
Theorem C90_tdc_late_refuted : exists xs hss, histories (fun g t => after g t /\ t <= 2 ^ 31) None None xs hss /\
  forall s, ~ processed TDC_mode ts0 (map dataset_of xs) hss s.
Proof. exact C90_tdc_late_l. Qed.
Print Assumptions C90_tdc_late_refuted.
(** before the time packet, with the library: *)
Theorem C90_lib_before_refuted : exists xs hss, histories around None None xs hss /\
  parse_raw (stream (map dataset_of xs)) <> Ok (concat hss).
Proof. exact C90_lib_before_l. Qed.
Print Assumptions C90_lib_before_refuted.
(** or 26.8 s after it: *)
Theorem C90_lib_late_refuted : exists xs hss, histories (fun g t => g <= t <= g + 2 ^ 30) None None xs hss /\
  parse_raw (stream (map dataset_of xs)) <> Ok (concat hss).
Proof. exact C90_lib_late_l. Qed.
Print Assumptions C90_lib_late_refuted.
(** over the end of a period of the 30-bit clock, with sophiread_display: *)
Theorem C90_display_period_refuted : exists xs hss, histories (fun _ t => 2 ^ 30 - 1 <= t <= 2 ^ 30) None None xs hss /\
  forall rs es, filetohits (Some (stream (map dataset_of xs))) = Ok (rs, es) -> ~ Forall2 shown_as (concat hss) rs.
Proof. exact C90_display_period_l. Qed.
Print Assumptions C90_display_period_refuted.

(** The bytes leave no choice of the true hits. *)
Theorem C90_unique : forall ds hss k hss' k', Forall dataset_ok ds ->
  recording around true nothing_known ds hss k -> recording around true nothing_known ds hss' k' -> hss = hss'.
Proof. exact C90_unique_l. Qed.
Print Assumptions C90_unique.

(** The hits file that the program leaves holds the true hits. *)
Theorem C90_hits_file : forall fuel ext w order args d d' o cfg ds hss k s,
  exclusive w -> (forall p, env_writable w p = true) -> understood w args o -> configured w o cfg ->
  env_input w (o_input o) = Some (stream ds) ->
  Forall dataset_ok ds -> Forall no_false_header ds ->
  0 < o_chunk o -> cuts_at_datasets (o_chunk o) ds -> (length (stream ds) <= fuel)%nat ->
  edges_ok (g_edges cfg) -> side (g_sr cfg) s -> 0 < s ->
  Permutation order (seq 0 (length (g_edges cfg) - 1)) ->
  (forall i, (i < length (g_edges cfg) - 1)%nat ->
     saved (d_files d) (tiff_name (o_tiff o) (o_base o) i) s s \/ unrelated (d_files d) (tiff_name (o_tiff o) (o_base o) i) s s) ->
  program fuel ext w order args d = Ok (Exit 0, d') ->
  (timing_of o = GDC_mode /\ recording around true nothing_known ds hss k) \/
  (timing_of o = TDC_mode /\ recording early_run false nothing_known ds hss k) ->
  o_hits o <> ""%string ->
  exists f, d_h5 d' (o_hits o) = Some f /\
    forall n fld, hit_field n fld -> map Some (col f "hits" n) = map fld (concat hss).
Proof. exact C90_hits_file_l. Qed.
Print Assumptions C90_hits_file.
