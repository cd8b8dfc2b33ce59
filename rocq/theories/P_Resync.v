(** Proofs for C116: the program recovers from damaged time packets. *)
From Coq Require Import Reals String Permutation.
From Verif Require Import P_TimePackets P_Measure P_CliRun P_Damage P_Core P_Lib.
From Verif Require Export S_Resync.
From Coq Require Import Lia.
Local Open Scope Z_scope.
Local Open Scope list_scope.

Lemma low_half p s : packet_ok p -> b7 p = 68 -> next_ts GDC_mode p s = TS (ts_tdc s) (ts_gdc s) (lsb_value p).
Proof.
  intros Hp E. unfold next_ts. rewrite (kind_low p E). unfold update_gdc. pose proof (gdc_fields p Hp) as F. cbv zeta in *. destruct F as (F1 & F2 & _).
  rewrite F1, F2. replace (gdc_subtype p) with 4 by (rewrite P_Lib.b7_le64, E by assumption; reflexivity). reflexivity.
Qed.

(** The timer and the reference after a packet depend on the timer and the reference. *)
Lemma timer_next p s s' : ts_timer s' = ts_timer s -> ts_timer (next_ts GDC_mode p s') = ts_timer (next_ts GDC_mode p s).
Proof.
  intros E. unfold next_ts. destruct (kind_of p); cbn [ts_timer]; try exact E. unfold update_gdc. rewrite E.
  destruct (_ =? 4); [reflexivity|]. destruct (_ =? 5); reflexivity.
Qed.
Lemma ref_next p s s' : ts_timer s' = ts_timer s -> ts_gdc s' = ts_gdc s -> ts_gdc (next_ts GDC_mode p s') = ts_gdc (next_ts GDC_mode p s).
Proof. intros E G. unfold next_ts. destruct (kind_of p); cbn [ts_gdc]; try exact G. rewrite E, G. reflexivity. Qed.
Lemma timer_after ps : forall s s', ts_timer s' = ts_timer s -> ts_timer (clock_after GDC_mode s' ps) = ts_timer (clock_after GDC_mode s ps).
Proof. unfold clock_after. induction ps as [|p ps IH]; intros s s' E; cbn [fold_left]; [exact E|]. apply IH, timer_next, E. Qed.
Lemma ref_after ps : forall s s', ts_timer s' = ts_timer s -> ts_gdc s' = ts_gdc s -> ts_gdc (clock_after GDC_mode s' ps) = ts_gdc (clock_after GDC_mode s ps).
Proof.
  unfold clock_after. induction ps as [|p ps IH]; intros s s' E G; cbn [fold_left]; [exact G|].
  apply IH; [apply timer_next, E|apply ref_next; assumption].
Qed.
Lemma timer_stays ps : Forall packet_ok ps -> Forall (fun q => b7 q <> 68) ps -> forall s, ts_timer (clock_after GDC_mode s ps) = ts_timer s.
Proof.
  unfold clock_after. induction ps as [|p ps IH]; intros O F s; cbn [fold_left]; [reflexivity|]. inversion O; inversion F; subst. rewrite IH by assumption.
  unfold next_ts. destruct (kind_of p) eqn:K; try reflexivity. cbn [ts_timer]. unfold update_gdc.
  pose proof (gdc_fields p ltac:(assumption)) as G. cbv zeta in *. destruct G as (G1 & _). rewrite G1.
  destruct (Z.eqb_spec (gdc_subtype p) 4) as [E|E]; [apply (proj1 (subtype_b7 p ltac:(assumption) K)) in E; contradiction|].
  destruct (_ =? 5); reflexivity.
Qed.

Lemma clock_app md s a b : clock_after md s (a ++ b) = clock_after md (clock_after md s a) b.
Proof. unfold clock_after. apply fold_left_app. Qed.

Lemma recovers ps : Forall packet_ok ps -> tells_time ps -> forall s s', clock_after GDC_mode s' ps = clock_after GDC_mode s ps.
Proof.
  intros O (a & l & b & m & c & t & e & -> & El & Em & Et & Fb & Nz) s s'.
  apply Forall_app in O. destruct O as [_ O]. inversion O as [|? ? Ol O1]; subst. apply Forall_app in O1. destruct O1 as [Ob O1].
  inversion O1 as [|? ? Om O2]; subst. clear O O1 O2.
  rewrite !clock_app. set (s1 := clock_after GDC_mode s a). set (s1' := clock_after GDC_mode s' a).
  change (clock_after GDC_mode ?x (l :: ?y)) with (clock_after GDC_mode (next_ts GDC_mode l x) y). rewrite !low_half by assumption.
  rewrite !clock_app. set (s2 := clock_after GDC_mode (TS (ts_tdc s1) _ _) b). set (s2' := clock_after GDC_mode (TS (ts_tdc s1') _ _) b).
  assert (T2 : ts_timer s2 = lsb_value l) by (unfold s2; rewrite timer_stays by assumption; reflexivity).
  assert (T2' : ts_timer s2' = lsb_value l) by (unfold s2'; rewrite timer_stays by assumption; reflexivity).
  assert (Lr : 0 <= lsb_value l < 2 ^ 32) by (unfold lsb_value; apply Z.mod_pos_bound; lia).
  change (clock_after GDC_mode ?x (m :: ?y)) with (clock_after GDC_mode (next_ts GDC_mode m x) y).
  rewrite (next_high GDC_mode m s2), (next_high GDC_mode m s2'); try assumption; try (rewrite T2; lia); try (rewrite T2'; lia).
  rewrite T2, T2', !clock_app. set (s3 := clock_after GDC_mode (TS (ts_tdc s2) _ _) c). set (s3' := clock_after GDC_mode (TS (ts_tdc s2') _ _) c).
  assert (T3 : ts_timer s3' = ts_timer s3) by (apply timer_after; reflexivity).
  assert (G3 : ts_gdc s3' = ts_gdc s3) by (apply ref_after; reflexivity).
  change (clock_after GDC_mode ?x (t :: ?y)) with (clock_after GDC_mode (next_ts GDC_mode t x) y). f_equal.
  unfold next_ts. replace (kind_of t) with KTdc by (unfold kind_of; rewrite Et; reflexivity). rewrite T3, G3. reflexivity.
Qed.

Lemma C116_l ext o o' cfg pre mid mid' sync post s d d1 d' d1' :
  tells_time (packets_of sync) -> timing_of o = GDC_mode -> timing_of o' = GDC_mode ->
  completed ext o cfg (pre ++ (mid ++ sync) ++ post) s d d1 -> completed ext o' cfg (pre ++ (mid' ++ sync) ++ post) s d' d1' ->
  (o_hits o <> ""%string -> o_hits o' <> ""%string -> exists f f' a b b' c,
     d_h5 d1 (o_hits o) = Some f /\ d_h5 d1' (o_hits o') = Some f' /\ zlen b <= fires (mid ++ sync) /\ zlen b' <= fires (mid' ++ sync) /\
     forall n fld, hit_field n fld ->
       map Some (col f "hits" n) = map fld (a ++ b ++ c) /\ map Some (col f' "hits" n) = map fld (a ++ b' ++ c)) /\
  (o_events o <> ""%string -> o_events o' <> ""%string -> 1 <= a_min (g_abs cfg) -> exists f f' a b b' c,
     d_h5 d1 (o_events o) = Some f /\ d_h5 d1' (o_events o') = Some f' /\ zlen b <= fires (mid ++ sync) /\ zlen b' <= fires (mid' ++ sync) /\
     forall n fld, neutron_field n fld ->
       col f "neutrons" n = map fld (a ++ b ++ c) /\ col f' "neutrons" n = map fld (a ++ b' ++ c)) /\
  ((o_mode o' = "hit" <-> o_mode o = "hit")%string -> 1 <= a_min (g_abs cfg) ->
   (o_tiff o <> ""%string -> o_tiff o' <> ""%string -> forall i x y u, (i < length (g_edges cfg) - 1)%nat -> 0 <= x < s -> 0 <= y < s ->
      prior (d_files d) (tiff_name (o_tiff o) (o_base o) i) s s x y u ->
      prior (d_files d') (tiff_name (o_tiff o') (o_base o') i) s s x y u ->
      exists v v', disk (d_files d1) (tiff_name (o_tiff o) (o_base o) i) x y = Some ((u + v) mod 2 ^ 32) /\
        disk (d_files d1') (tiff_name (o_tiff o') (o_base o') i) x y = Some ((u + v') mod 2 ^ 32) /\
        share (fires (mid ++ sync)) (fires (mid' ++ sync)) v v') /\
   (zlen (packets_of (pre ++ (mid ++ sync) ++ post)) < 2 ^ 32 -> zlen (packets_of (pre ++ (mid' ++ sync) ++ post)) < 2 ^ 32 ->
      o_spectra o <> ""%string -> o_spectra o' <> ""%string ->
      exists rows rows', d_files d1 (o_spectra o ++ ".txt")%string = Some (Spectrum rows) /\
        d_files d1' (o_spectra o' ++ ".txt")%string = Some (Spectrum rows') /\
        Forall2 (fun r r' => fst r' = fst r /\ share (fires (mid ++ sync)) (fires (mid' ++ sync)) (snd r) (snd r')) rows rows')).
Proof.
  intros Tt T T' C. assert (O : Forall packet_ok (packets_of sync)).
  { destruct C as (fu & w & ord & args & _ & _ & _ & _ & _ & O & _). apply Forall_app in O. destruct O as [_ O]. apply Forall_app in O. destruct O as [O _].
    apply Forall_app in O. destruct O as [_ O]. clear - O. unfold packets_of. induction O as [|x l H O IH]; cbn [flat_map]; [constructor|].
    apply Forall_app. split; [apply H|exact IH]. }
  apply contained_l; [|congruence|exact C]. intros s0. rewrite T. unfold packets_of. rewrite !flat_map_app. fold (packets_of mid). fold (packets_of mid'). fold (packets_of sync).
  rewrite !clock_app. apply recovers; assumption.
Qed.
