(** Proofs for C112: damage stays where it is. *)
From Coq Require Import Reals String Permutation.
From Verif Require Import P_Tof P_Main P_Program P_CliRun P_Append P_Reduce P_Same P_AbsProps P_Core P_Motion.
From Verif Require Export S_Damage.
From Coq Require Import Lia.
Local Open Scope Z_scope.
Local Open Scope list_scope.

(** * The timestamps depend on the time packets only *)

Definition clock_after (md : mode_t) (s : ts) (ps : list packet) : ts := fold_left (fun s p => next_ts md p s) ps s.

Lemma next_other md p s : time_packet p = false -> next_ts md p s = s.
Proof. unfold time_packet, next_ts. destruct (kind_of p), md; intros E; try discriminate; reflexivity. Qed.
Lemma clock_filter md ps : forall s, clock_after md s (filter time_packet ps) = clock_after md s ps.
Proof.
  unfold clock_after. induction ps as [|p ps IH]; intros s; [reflexivity|]. cbn [filter fold_left].
  destruct (time_packet p) eqn:E; cbn [fold_left]; [apply IH|]. rewrite (next_other md p s E). apply IH.
Qed.
Lemma processed_end md ds : forall s hss s', processed md s ds hss s' -> s' = clock_after md s (packets_of ds).
Proof.
  unfold clock_after. induction ds as [|d ds IH]; intros s hss s' P; inversion P as [|? ? ? c1 h1 hs1 ? A1 B1 D1]; subst; [reflexivity|].
  unfold packets_of. cbn [flat_map]. rewrite fold_left_app. exact (IH _ _ _ D1).
Qed.
Lemma processed_app md a b : forall s hss s', processed md s (a ++ b) hss s' ->
  exists ha hb s1, hss = ha ++ hb /\ processed md s a ha s1 /\ processed md s1 b hb s' /\ length ha = length a.
Proof.
  induction a as [|d a IH]; intros s hss s' P; cbn [app] in P.
  - exists [], hss, s. repeat split; [constructor|exact P].
  - inversion P as [|? ? ? c1 h1 hs1 ? A1 B1 D1]; subst. destruct (IH _ _ _ D1) as (ha & hb & s1 & -> & Pa & Pb & L).
    exists (h1 :: ha), hb, s1. split; [reflexivity|]. split; [econstructor; eassumption|]. split; [exact Pb|cbn; lia].
Qed.

(** * Numbers of hits and neutrons *)

Lemma yields_number md chip s ps hs : yields md chip s ps hs -> zlen hs <= zlen (filter of_pixel ps).
Proof.
  induction 1 as [s|s p ps h hs K R M Y IH|s p ps hs K R Y IH|s p ps hs K Y IH]; cbn [filter].
  - reflexivity.
  - replace (of_pixel p) with true by (unfold of_pixel; rewrite K; reflexivity). rewrite !zlen_cons. lia.
  - replace (of_pixel p) with true by (unfold of_pixel; rewrite K; reflexivity). rewrite zlen_cons. lia.
  - replace (of_pixel p) with false by (unfold of_pixel; destruct (kind_of p); try contradiction; reflexivity). exact IH.
Qed.
Lemma processed_number md ds : forall s hss s', processed md s ds hss s' -> zlen (concat hss) <= fires ds.
Proof.
  unfold fires, packets_of. induction ds as [|d ds IH]; intros s hss s' P; inversion P as [|? ? ? c1 h1 hs1 ? A1 B1 D1]; subst; [reflexivity|].
  cbn [flat_map concat]. rewrite filter_app, !zlen_app. pose proof (yields_number _ _ _ _ _ B1). pose proof (IH _ _ _ D1). lia.
Qed.

Definition cells (idx : list (list nat)) : Z := fold_right (fun l n => zlen l + n) 0 idx.
Lemma cells_set idx : forall k v idx' i, nth_error idx k = Some v -> set_nth idx k (v ++ [i]) = Some idx' -> cells idx' = cells idx + 1.
Proof.
  induction idx as [|l idx IH]; intros [|k] v idx' i N E; cbn in N, E; try discriminate.
  - injection N as ->. injection E as <-. cbn. rewrite zlen_app, zlen_cons. cbn. unfold zlen. cbn. lia.
  - destruct (set_nth idx k (v ++ [i])) as [r|] eqn:S; [|discriminate]. injection E as <-. cbn. unfold cells in IH. rewrite (IH _ _ _ _ N S). lia.
Qed.
Lemma index_cells labels : forall i idx idx', index_loop labels i idx = Ok idx' -> cells idx' = cells idx + zlen labels.
Proof.
  induction labels as [|l labels IH]; intros i idx idx' E; cbn [index_loop] in E.
  - apply Ok_inj in E. subst. unfold zlen. cbn. lia.
  - destruct (at_index idx l) as [v|] eqn:A; [|discriminate]. destruct (set_nth _ _ _) as [r|] eqn:S; [|discriminate].
    unfold at_index in A. destruct (l <? 0); [discriminate|]. rewrite (IH _ _ _ E), (cells_set _ _ _ _ _ A S), zlen_cons. lia.
Qed.
Lemma gather_len data ix : forall c, gather data ix = Ok c -> zlen c = zlen ix.
Proof.
  induction ix as [|i ix IH]; intros c E; cbn [gather] in E; [apply Ok_inj in E; subst; reflexivity|].
  destruct (nth_error data i) as [h|]; [|discriminate]. destruct (gather data ix) as [hs| | |]; try discriminate. cbn in E.
  apply Ok_inj in E. subst. rewrite !zlen_cons, (IH hs eq_refl). reflexivity.
Qed.
Lemma skipn_nth {A} (l : list A) : forall k x, nth_error l k = Some x -> skipn k l = x :: skipn (S k) l.
Proof. induction l as [|a l IH]; intros [|k] x E; cbn in E; try discriminate; [injection E as ->; reflexivity|]. cbn [skipn]. rewrite (IH _ _ E). reflexivity. Qed.
Lemma cells_nonneg idx : 0 <= cells idx.
Proof. induction idx as [|l idx IH]; cbn; [lia|]. pose proof (zlen_nonneg l). unfold cells in IH. lia. Qed.
Lemma events_number fit min data idx n : 1 <= min -> forall label evs,
  event_loop fit min data idx label n = Ok evs -> zlen evs <= cells (skipn label idx).
Proof.
  intros Hm. induction n as [|n IH]; intros label evs E; cbn [event_loop] in E.
  - apply Ok_inj in E. subst. apply cells_nonneg.
  - destruct (nth_error idx label) as [ix|] eqn:N; [|discriminate]. rewrite (skipn_nth _ _ _ N). cbn [cells fold_right]. fold (cells (skipn (S label) idx)).
    destruct (gather data ix) as [c| | |] eqn:G; try discriminate. cbn [obind] in E. pose proof (gather_len _ _ _ G) as L. pose proof (zlen_nonneg ix) as Nn.
    destruct (Z.ltb_spec (zlen c) min); [specialize (IH _ _ E); lia|].
    destruct (fit c) as [e| | |]; try discriminate. cbn [obind] in E.
    destruct (event_loop fit min data idx (S label) n) as [rest| | |] eqn:R; try discriminate. cbn [obind] in E. specialize (IH _ _ R).
    destruct (fge _ _ && fge _ _); apply Ok_inj in E; subst evs; rewrite ?zlen_cons; lia.
Qed.
Lemma label_loop_len cfg data : forall i st labels l m, label_loop cfg data i st labels = Ok (l, m) -> length l = length labels.
Proof.
  induction data as [|h data IH]; intros i st labels l m E; cbn [label_loop] in E.
  - apply Ok_inj in E. injection E as <- _. reflexivity.
  - destruct (abs_step cfg st h) as [[[cs k] x]| | |]; try discriminate. cbn [obind] in E.
    destruct (set_nth labels i x) as [ls|] eqn:S; [|discriminate]. rewrite (IH _ _ _ _ _ E). eapply P_Abs.set_nth_length. exact S.
Qed.
Lemma cells_empty n : cells (repeat [] n) = 0.
Proof. induction n as [|n IH]; [reflexivity|]. cbn [repeat cells fold_right]. fold (cells (repeat [] n)). rewrite IH. reflexivity. Qed.
Lemma neutrons_number ext cfg hits ns : 1 <= a_min cfg -> neutrons_of ext cfg hits ns -> zlen ns <= zlen hits.
Proof.
  intros Hm (o & F & G). unfold abs_fit in F. cbn [abs_new o_labels o_indices firstn] in F.
  destruct (label_loop cfg hits 0 _ _) as [[ls m]| | |] eqn:L; try discriminate. cbn [obind] in F.
  destruct (index_loop ls 0 _) as [idx| | |] eqn:I; try discriminate. cbn [obind] in F. apply Ok_inj in F. subst o.
  apply index_cells in I. unfold vresize in I. rewrite firstn_nil in I. cbn [app] in I. rewrite cells_empty in I.
  unfold abs_get_events in G. cbn [abs_set_method o_labels o_indices o_method] in G.
  destruct (Z.eqb_spec (zlen ls) (zlen hits)) as [E|E]; [|discriminate]. cbn [negb] in G.
  destruct ls as [|l ls].
  - apply Ok_inj in G. subst. unfold zlen. cbn. lia.
  - cbn [fit_of] in G. apply events_number in G; [|exact Hm]. cbn [skipn] in G. lia.
Qed.
Lemma all_number ext cfg hss nss : 1 <= a_min cfg -> Forall2 (neutrons_of ext cfg) hss nss -> zlen (concat nss) <= zlen (concat hss).
Proof.
  intros Hm. induction 1 as [|hs ns hss nss N _ IH]; [reflexivity|]. cbn [concat]. rewrite !zlen_app. pose proof (neutrons_number _ _ _ _ Hm N). lia.
Qed.

(** * Two recordings *)

Lemma counted_split {A} (P : A -> Prop) a b : forall k, counted P (a ++ b) k -> exists ka kb, counted P a ka /\ counted P b kb /\ k = ka + kb.
Proof.
  induction a as [|x a IH]; intros k C; cbn [app] in C.
  - exists 0, k. split; [constructor|]. split; [exact C|lia].
  - inversion C as [|? ? n Px C1|? ? n Px C1]; subst; destruct (IH _ C1) as (ka & kb & Ca & Cb & E).
    + exists (ka + 1), kb. split; [constructor; assumption|]. split; [exact Cb|lia].
    + exists ka, kb. split; [apply counted_no; assumption|]. split; [exact Cb|lia].
Qed.
Lemma counted_share {A} (P : A -> Prop) a b b' c k k' n n' : counted P (a ++ b ++ c) k -> counted P (a ++ b' ++ c) k' ->
  zlen b <= n -> zlen b' <= n' -> share n n' k k'.
Proof.
  intros C C' L L'. destruct (counted_split _ _ _ _ C) as (ka & kr & Ca & Cr & E). destruct (counted_split _ _ _ _ Cr) as (kb & kc & Cb & Cc & E1).
  destruct (counted_split _ _ _ _ C') as (ka' & kr' & Ca' & Cr' & E'). destruct (counted_split _ _ _ _ Cr') as (kb' & kc' & Cb' & Cc' & E1').
  rewrite <- (counted_unique _ _ _ Ca _ Ca') in E'. rewrite <- (counted_unique _ _ _ Cc _ Cc') in E1'.
  pose proof (P_Main.counted_bounds _ _ _ Ca). pose proof (P_Main.counted_bounds _ _ _ Cc). pose proof (P_Main.counted_bounds _ _ _ Cb). pose proof (P_Main.counted_bounds _ _ _ Cb').
  exists (ka + kc), kb, kb'. lia.
Qed.

Lemma fires_le ds : fires ds <= zlen (packets_of ds).
Proof.
  unfold fires. induction (packets_of ds) as [|p l IH]; [reflexivity|]. cbn [filter]. destruct (of_pixel p); rewrite ?zlen_cons; lia.
Qed.
Lemma nth_forall2 {A B} (R : A -> B -> Prop) l m : length l = length m ->
  (forall i a b, nth_error l i = Some a -> nth_error m i = Some b -> R a b) -> Forall2 R l m.
Proof.
  revert m. induction l as [|a l IH]; intros [|b m] L H; try discriminate; [constructor|]. constructor.
  - apply (H 0%nat); reflexivity.
  - apply IH; [cbn in L; lia|]. intros i. exact (H (S i)).
Qed.

Lemma contained_l ext o o' cfg pre mid mid' post s d d1 d' d1' :
  (forall s0, clock_after (timing_of o) s0 (packets_of mid') = clock_after (timing_of o) s0 (packets_of mid)) -> timing_of o' = timing_of o ->
  completed ext o cfg (pre ++ mid ++ post) s d d1 -> completed ext o' cfg (pre ++ mid' ++ post) s d' d1' ->
  (o_hits o <> ""%string -> o_hits o' <> ""%string -> exists f f' a b b' c,
     d_h5 d1 (o_hits o) = Some f /\ d_h5 d1' (o_hits o') = Some f' /\ zlen b <= fires mid /\ zlen b' <= fires mid' /\
     forall n fld, hit_field n fld ->
       map Some (col f "hits" n) = map fld (a ++ b ++ c) /\ map Some (col f' "hits" n) = map fld (a ++ b' ++ c)) /\
  (o_events o <> ""%string -> o_events o' <> ""%string -> 1 <= a_min (g_abs cfg) -> exists f f' a b b' c,
     d_h5 d1 (o_events o) = Some f /\ d_h5 d1' (o_events o') = Some f' /\ zlen b <= fires mid /\ zlen b' <= fires mid' /\
     forall n fld, neutron_field n fld ->
       col f "neutrons" n = map fld (a ++ b ++ c) /\ col f' "neutrons" n = map fld (a ++ b' ++ c)) /\
  ((o_mode o' = "hit" <-> o_mode o = "hit")%string -> 1 <= a_min (g_abs cfg) ->
   (o_tiff o <> ""%string -> o_tiff o' <> ""%string -> forall i x y u, (i < length (g_edges cfg) - 1)%nat -> 0 <= x < s -> 0 <= y < s ->
      prior (d_files d) (tiff_name (o_tiff o) (o_base o) i) s s x y u ->
      prior (d_files d') (tiff_name (o_tiff o') (o_base o') i) s s x y u ->
      exists v v', disk (d_files d1) (tiff_name (o_tiff o) (o_base o) i) x y = Some ((u + v) mod 2 ^ 32) /\
        disk (d_files d1') (tiff_name (o_tiff o') (o_base o') i) x y = Some ((u + v') mod 2 ^ 32) /\
        share (fires mid) (fires mid') v v') /\
   (zlen (packets_of (pre ++ mid ++ post)) < 2 ^ 32 -> zlen (packets_of (pre ++ mid' ++ post)) < 2 ^ 32 ->
      o_spectra o <> ""%string -> o_spectra o' <> ""%string ->
      exists rows rows', d_files d1 (o_spectra o ++ ".txt")%string = Some (Spectrum rows) /\
        d_files d1' (o_spectra o' ++ ".txt")%string = Some (Spectrum rows') /\
        Forall2 (fun r r' => fst r' = fst r /\ share (fires mid) (fires mid') (snd r) (snd r')) rows rows')).
Proof.
  intros St T
    (fu & w & ord & args & A1 & A2 & A3 & A4 & A5 & A6 & A7 & A8 & A9 & A10 & A11 & A12 & A13 & A14 & A15 & A16)
    (fu' & w' & ord' & args' & B1 & B2 & B3 & B4 & B5 & B6 & B7 & B8 & B9 & B10 & B11 & B12 & B13 & B14 & B15 & B16).
  destruct (C81_program_l fu ext w ord args d d1 o cfg (pre ++ mid ++ post) s) as (h1 & n1 & s1 & P & N & Fh & Fe & _ & Ti & Sp & _); try assumption.
  destruct (C81_program_l fu' ext w' ord' args' d' d1' o' cfg (pre ++ mid' ++ post) s) as (h2 & n2 & s2 & P' & N' & Fh' & Fe' & _ & Ti' & Sp' & _); try assumption.
  rewrite T in P'. pose proof (processed_number _ _ _ _ _ P) as Q. pose proof (processed_number _ _ _ _ _ P') as Q'.
  destruct (processed_app _ _ _ _ _ _ P) as (ha & hr & sa & -> & Pa & Pr & _). destruct (processed_app _ _ _ _ _ _ Pr) as (hb & hc & sb & -> & Pb & Pc & _).
  destruct (processed_app _ _ _ _ _ _ P') as (ha' & hr' & sa' & -> & Pa' & Pr' & _). destruct (processed_app _ _ _ _ _ _ Pr') as (hb' & hc' & sb' & -> & Pb' & Pc' & _).
  destruct (processed_unique _ _ _ _ _ _ _ Pa Pa') as [<- <-].
  assert (Es : sb' = sb).
  { rewrite (processed_end _ _ _ _ _ Pb), (processed_end _ _ _ _ _ Pb'). apply St. }
  subst sb'. destruct (processed_unique _ _ _ _ _ _ _ Pc Pc') as [<- _].
  apply Forall2_app_inv_l in N. destruct N as (na & nr & Na & N & ->). apply Forall2_app_inv_l in N. destruct N as (nb & nc & Nb & Nc & ->).
  apply Forall2_app_inv_l in N'. destruct N' as (na' & nr' & Na' & N' & ->). apply Forall2_app_inv_l in N'. destruct N' as (nb' & nc' & Nb' & Nc' & ->).
  rewrite (neutrons_app _ _ _ _ Na _ Na') in *. rewrite (neutrons_app _ _ _ _ Nc _ Nc') in *. clear Na' Nc' na' nc'.
  pose proof (processed_number _ _ _ _ _ Pb) as Lb. pose proof (processed_number _ _ _ _ _ Pb') as Lb'.
  rewrite !concat_app in *.
  split; [|split].
  - intros E E'. destruct (Fh E) as (f & X & G). destruct (Fh' E') as (f' & X' & G'). exists f, f', (concat ha), (concat hb), (concat hb'), (concat hc).
    split; [exact X|]. split; [exact X'|]. split; [exact Lb|]. split; [exact Lb'|]. intros n fld Hf. split; [apply G|apply G']; exact Hf.
  - intros E E' Hm. destruct (Fe E) as (f & X & G). destruct (Fe' E') as (f' & X' & G'). exists f, f', (concat na), (concat nb), (concat nb'), (concat nc).
    pose proof (all_number _ _ _ _ Hm Nb). pose proof (all_number _ _ _ _ Hm Nb').
    split; [exact X|]. split; [exact X'|]. split; [lia|]. split; [lia|]. intros n fld Hf. split; [apply G|apply G']; exact Hf.
  - intros Mo Hm. pose proof (all_number _ _ _ _ Hm Na) as Ka. pose proof (all_number _ _ _ _ Hm Nb) as Kb. pose proof (all_number _ _ _ _ Hm Nb') as Kb'. pose proof (all_number _ _ _ _ Hm Nc) as Kc.
    assert (Bi : exists a b b' c, binned o (ha ++ hb ++ hc) (na ++ nb ++ nc) = a ++ b ++ c /\ binned o' (ha ++ hb' ++ hc) (na ++ nb' ++ nc) = a ++ b' ++ c /\
      zlen b <= fires mid /\ zlen b' <= fires mid' /\ zlen (a ++ b ++ c) <= fires (pre ++ mid ++ post) /\ zlen (a ++ b' ++ c) <= fires (pre ++ mid' ++ post)).
    { unfold binned. rewrite !concat_app, !map_app. rewrite !zlen_app in *.
      assert (Zm : forall X (g : X -> entry) l, zlen (map g l) = zlen l) by (intros; unfold zlen; rewrite map_length; reflexivity).
      destruct (String.eqb_spec (o_mode o) "hit"), (String.eqb_spec (o_mode o') "hit"); try tauto;
        do 4 eexists; (split; [reflexivity|split; [reflexivity|]]); rewrite !zlen_app, !Zm; lia. }
    destruct Bi as (a & b & b' & c & E1 & E2 & Zb & Zb' & Zt & Zt'). rewrite E1, E2 in *.
    split.
    + intros O1 O2 i x y u Hi Hx Hy Pu Pu'. destruct (Ti O1 i x y u Hi Hx Hy Pu) as (v & C & D).
      destruct (Ti' O2 i x y u Hi Hx Hy Pu') as (v' & C' & D'). exists v, v'. split; [exact D|]. split; [exact D'|].
      eapply counted_share; eassumption.
    + intros Le Le' O1 O2. pose proof (fires_le (pre ++ mid ++ post)). pose proof (fires_le (pre ++ mid' ++ post)).
      destruct (proj2 (Sp ltac:(lia)) O1) as (rows & R1 & L1 & R2). destruct (proj2 (Sp' ltac:(lia)) O2) as (rows' & R1' & L1' & R2').
      exists rows, rows'. split; [exact R1|]. split; [exact R1'|]. apply nth_forall2; [congruence|].
      intros i [t k] [t' k'] H1 H2. destruct (R2 i t k H1) as [X Y]. destruct (R2' i t' k' H2) as [X' Y']. cbn [fst snd]. split; [congruence|].
      eapply counted_share; eassumption.
Qed.

Lemma C112_l ext o o' cfg pre mid mid' post s d d1 d' d1' :
  same_times mid mid' -> timing_of o' = timing_of o ->
  completed ext o cfg (pre ++ mid ++ post) s d d1 -> completed ext o' cfg (pre ++ mid' ++ post) s d' d1' ->
  (o_hits o <> ""%string -> o_hits o' <> ""%string -> exists f f' a b b' c,
     d_h5 d1 (o_hits o) = Some f /\ d_h5 d1' (o_hits o') = Some f' /\ zlen b <= fires mid /\ zlen b' <= fires mid' /\
     forall n fld, hit_field n fld ->
       map Some (col f "hits" n) = map fld (a ++ b ++ c) /\ map Some (col f' "hits" n) = map fld (a ++ b' ++ c)) /\
  (o_events o <> ""%string -> o_events o' <> ""%string -> 1 <= a_min (g_abs cfg) -> exists f f' a b b' c,
     d_h5 d1 (o_events o) = Some f /\ d_h5 d1' (o_events o') = Some f' /\ zlen b <= fires mid /\ zlen b' <= fires mid' /\
     forall n fld, neutron_field n fld ->
       col f "neutrons" n = map fld (a ++ b ++ c) /\ col f' "neutrons" n = map fld (a ++ b' ++ c)) /\
  ((o_mode o' = "hit" <-> o_mode o = "hit")%string -> 1 <= a_min (g_abs cfg) ->
   (o_tiff o <> ""%string -> o_tiff o' <> ""%string -> forall i x y u, (i < length (g_edges cfg) - 1)%nat -> 0 <= x < s -> 0 <= y < s ->
      prior (d_files d) (tiff_name (o_tiff o) (o_base o) i) s s x y u ->
      prior (d_files d') (tiff_name (o_tiff o') (o_base o') i) s s x y u ->
      exists v v', disk (d_files d1) (tiff_name (o_tiff o) (o_base o) i) x y = Some ((u + v) mod 2 ^ 32) /\
        disk (d_files d1') (tiff_name (o_tiff o') (o_base o') i) x y = Some ((u + v') mod 2 ^ 32) /\
        share (fires mid) (fires mid') v v') /\
   (zlen (packets_of (pre ++ mid ++ post)) < 2 ^ 32 -> zlen (packets_of (pre ++ mid' ++ post)) < 2 ^ 32 ->
      o_spectra o <> ""%string -> o_spectra o' <> ""%string ->
      exists rows rows', d_files d1 (o_spectra o ++ ".txt")%string = Some (Spectrum rows) /\
        d_files d1' (o_spectra o' ++ ".txt")%string = Some (Spectrum rows') /\
        Forall2 (fun r r' => fst r' = fst r /\ share (fires mid) (fires mid') (snd r) (snd r')) rows rows')).
Proof.
  intros St. apply contained_l. intros s0. rewrite <- (clock_filter _ (packets_of mid)), <- (clock_filter _ (packets_of mid')), St. reflexivity.
Qed.
