(** Proofs for C114 and C115: where datasets end, and their order. *)
From Coq Require Import Reals String Permutation.
From Verif Require Import P_Tof P_Main P_Program P_CliRun P_Measure P_Append P_Reduce P_Same P_Parts P_Damage P_Scaled P_Conserve.
From Verif Require Export S_Resplit.
From Coq Require Import Lia.
Local Open Scope Z_scope.
Local Open Scope list_scope.

(** * Where datasets end *)

(** The hits of packets with their chips. *)
Inductive emits (md : mode_t) : ts -> list (Z * packet) -> list hit -> Prop :=
| em_nil s : emits md s [] []
| em_hit s c p ps h hs : kind_of p = KPixel -> ready md s -> makes_hit md c p s h -> emits md s ps hs -> emits md s ((c, p) :: ps) (h :: hs)
| em_unready s c p ps hs : kind_of p = KPixel -> ~ ready md s -> emits md s ps hs -> emits md s ((c, p) :: ps) hs
| em_time s c p ps hs : kind_of p <> KPixel -> emits md (next_ts md p s) ps hs -> emits md s ((c, p) :: ps) hs.

Lemma emits_unique md s ps hs : emits md s ps hs -> forall hs', emits md s ps hs' -> hs' = hs.
Proof.
  induction 1 as [s|s c p ps h hs K R M E IH|s c p ps hs K R E IH|s c p ps hs K E IH]; intros hs' E';
    inversion E' as [|? ? ? ? h' hs2 K' R' M' E2|? ? ? ? ? K' R' E2|? ? ? ? ? K' E2]; subst; try contradiction.
  - reflexivity.
  - rewrite (IH _ E2). f_equal. destruct md; cbn in M, M'; [|congruence]. rewrite M in M'. apply Ok_inj in M'. congruence.
  - apply IH. exact E2.
  - apply IH. exact E2.
Qed.

Lemma next_pixel md p s : kind_of p = KPixel -> next_ts md p s = s.
Proof. intros K. unfold next_ts. rewrite K. destruct md; reflexivity. Qed.

Lemma yields_emits md c s ps hs : yields md c s ps hs -> forall qs gs,
  emits md (fold_left (fun s p => next_ts md p s) ps s) qs gs -> emits md s (map (fun p => (c, p)) ps ++ qs) (hs ++ gs).
Proof.
  induction 1 as [s|s p ps h hs K R M Y IH|s p ps hs K R Y IH|s p ps hs K Y IH]; intros qs gs E; cbn [fold_left map app] in *.
  - exact E.
  - rewrite next_pixel in E by exact K. apply em_hit; auto.
  - rewrite next_pixel in E by exact K. apply em_unready; auto.
  - apply em_time; auto.
Qed.

Definition signed (c : Z) : Z := (c + 128) mod 256 - 128.
Lemma chip_declared d c : declares_chip (ds_header d) c -> c = signed (d_chip d).
Proof.
  intros [B M]. unfold signed. cbn in M. apply Z.mod_divide in M; [|lia]. destruct M as (k & E).
  replace (d_chip d + 128) with (c + 128 + (- k) * 256) by lia. rewrite Z.mod_add by lia. rewrite Z.mod_small by lia. lia.
Qed.

Definition sign (x : Z * packet) : Z * packet := (signed (fst x), snd x).
Lemma processed_emits md s ds hss s' : processed md s ds hss s' -> emits md s (map sign (tagged ds)) (concat hss).
Proof.
  induction 1 as [s|s d ds chip hs hss s' C Y P IH]; [constructor|]. unfold tagged. cbn [flat_map concat]. fold (tagged ds).
  rewrite map_app, map_map. unfold sign at 1. cbn [fst snd]. rewrite <- (chip_declared _ _ C). apply yields_emits; assumption.
Qed.

Lemma C114_l ext ext' o o' cfg cfg' ds ds' s d d1 d' d1' :
  tagged ds' = tagged ds -> timing_of o' = timing_of o -> g_edges cfg' = g_edges cfg -> g_sr cfg' = g_sr cfg ->
  completed ext o cfg ds s d d1 -> completed ext' o' cfg' ds' s d' d1' ->
  (o_hits o <> ""%string -> o_hits o' <> ""%string -> same_hits d1 (o_hits o) d1' (o_hits o')) /\
  (o_mode o = "hit"%string -> o_mode o' = "hit"%string ->
   (o_tiff o <> ""%string -> o_tiff o' <> ""%string -> forall i x y u, (i < length (g_edges cfg) - 1)%nat -> 0 <= x < s -> 0 <= y < s ->
      prior (d_files d) (tiff_name (o_tiff o) (o_base o) i) s s x y u ->
      prior (d_files d') (tiff_name (o_tiff o') (o_base o') i) s s x y u ->
      exists v, disk (d_files d1) (tiff_name (o_tiff o) (o_base o) i) x y = Some v /\
        disk (d_files d1') (tiff_name (o_tiff o') (o_base o') i) x y = Some v) /\
   (zlen (packets_of ds) < 2 ^ 32 -> o_spectra o <> ""%string -> o_spectra o' <> ""%string ->
      exists rows, d_files d1 (o_spectra o ++ ".txt")%string = Some (Spectrum rows) /\
        d_files d1' (o_spectra o' ++ ".txt")%string = Some (Spectrum rows))).
Proof.
  intros Tg T Ge Gs
    (fu & w & ord & args & A1 & A2 & A3 & A4 & A5 & A6 & A7 & A8 & A9 & A10 & A11 & A12 & A13 & A14 & A15 & A16)
    (fu' & w' & ord' & args' & B1 & B2 & B3 & B4 & B5 & B6 & B7 & B8 & B9 & B10 & B11 & B12 & B13 & B14 & B15 & B16).
  destruct (C81_program_l fu ext w ord args d d1 o cfg ds s) as (h1 & n1 & s1 & P & N & Fh & Fe & _ & Ti & Sp & _); try assumption.
  destruct (C81_program_l fu' ext' w' ord' args' d' d1' o' cfg' ds' s) as (h2 & n2 & s2 & P' & N' & Fh' & Fe' & _ & Ti' & Sp' & _); try assumption.
  pose proof (processed_number _ _ _ _ _ P) as Q. pose proof (fires_le ds) as Lf.
  rewrite T in P'. apply processed_emits in P, P'. rewrite Tg in P'. pose proof (emits_unique _ _ _ _ P _ P') as E. rewrite Ge, Gs in *.
  split.
  - intros Z1 Z2. destruct (Fh Z1) as (f & F & G). destruct (Fh' Z2) as (f' & F' & G'). exists f, f'. split; [exact F|]. split; [exact F'|].
    intros n fld Hf. apply map_some_inj. rewrite (G n fld Hf), (G' n fld Hf), E. reflexivity.
  - intros M M'. assert (Eb : binned o' h2 n2 = binned o h1 n1) by (unfold binned; rewrite M, M', E; reflexivity).
    assert (Lb : zlen (binned o h1 n1) = zlen (concat h1)) by (unfold binned; rewrite M, String.eqb_refl; unfold zlen; rewrite map_length; reflexivity).
    rewrite Eb in *. split.
    + intros O1 O2 i x y u Hi Hx Hy Pu Pu'. destruct (Ti O1 i x y u Hi Hx Hy Pu) as (c & C & D).
      destruct (Ti' O2 i x y u Hi Hx Hy Pu') as (c' & C' & D'). exists ((u + c) mod 2 ^ 32). split; [exact D|].
      rewrite D', (counted_unique _ _ _ C' _ C). reflexivity.
    + intros Le O1 O2. destruct (proj2 (Sp ltac:(lia)) O1) as (rows & R1 & R2). destruct (proj2 (Sp' ltac:(lia)) O2) as (rows' & R1' & R2').
      exists rows. split; [exact R1|]. rewrite R1', (spectrum_unique _ _ _ _ _ _ R2 R2'). reflexivity.
Qed.

(** * The order of datasets *)

Lemma timeless_clock md d s : timeless d -> fold_left (fun s p => next_ts md p s) (d_payload d) s = s.
Proof.
  intros F. fold (clock_after md s (d_payload d)). rewrite <- clock_filter.
  replace (filter time_packet (d_payload d)) with (@nil packet); [reflexivity|]. unfold timeless in F.
  induction F as [|p l H F IH]; [reflexivity|]. cbn [filter]. rewrite H. exact IH.
Qed.

Lemma processed_join md a b s ha s1 hb s' : processed md s a ha s1 -> processed md s1 b hb s' -> processed md s (a ++ b) (ha ++ hb) s'.
Proof. induction 1 as [s|s d ds c hs hss s2 C Y P IH]; intros Q; cbn [app]; [exact Q|]. econstructor; eauto. Qed.

Lemma shuffled_processed md ds ds' : shuffled ds ds' -> forall s hss s', processed md s ds hss s' ->
  exists hss', processed md s ds' hss' s' /\ Permutation hss hss'.
Proof.
  induction 1 as [ds|a x y b ds Tx Ty S IH]; intros s hss s' P; [eauto|].
  destruct (processed_app _ _ _ _ _ _ P) as (ha & hb & s1 & -> & Pa & Pb & _).
  inversion Pb as [|? ? ? c1 h1 hs1 ? C1 Y1 D1]; subst. rewrite timeless_clock in D1 by exact Tx.
  inversion D1 as [|? ? ? c2 h2 hs2 ? C2 Y2 D2]; subst. rewrite timeless_clock in D2 by exact Ty.
  destruct (IH s (ha ++ h2 :: h1 :: hs2) s') as (hss' & P' & Pm).
  { eapply processed_join; [exact Pa|]. econstructor; [exact C2|exact Y2|]. rewrite timeless_clock by exact Ty.
    econstructor; [exact C1|exact Y1|]. rewrite timeless_clock by exact Tx. exact D2. }
  exists hss'. split; [exact P'|]. eapply Permutation_trans; [|exact Pm]. apply Permutation_app_head, perm_swap.
Qed.

Lemma C115_l ext o o' cfg ds ds' s d d1 d' d1' : shuffled ds ds' -> timing_of o' = timing_of o ->
  completed ext o cfg ds s d d1 -> completed ext o' cfg ds' s d' d1' ->
  (o_hits o <> ""%string -> o_hits o' <> ""%string -> exists f f' hs hs',
     d_h5 d1 (o_hits o) = Some f /\ d_h5 d1' (o_hits o') = Some f' /\ Permutation hs hs' /\
     forall n fld, hit_field n fld -> map Some (col f "hits" n) = map fld hs /\ map Some (col f' "hits" n) = map fld hs') /\
  (o_events o <> ""%string -> o_events o' <> ""%string -> exists f f' ns ns',
     d_h5 d1 (o_events o) = Some f /\ d_h5 d1' (o_events o') = Some f' /\ Permutation ns ns' /\
     forall n fld, neutron_field n fld -> col f "neutrons" n = map fld ns /\ col f' "neutrons" n = map fld ns') /\
  ((o_mode o' = "hit" <-> o_mode o = "hit")%string ->
   (o_tiff o <> ""%string -> o_tiff o' <> ""%string -> forall i x y u, (i < length (g_edges cfg) - 1)%nat -> 0 <= x < s -> 0 <= y < s ->
      prior (d_files d) (tiff_name (o_tiff o) (o_base o) i) s s x y u ->
      prior (d_files d') (tiff_name (o_tiff o') (o_base o') i) s s x y u ->
      exists v, disk (d_files d1) (tiff_name (o_tiff o) (o_base o) i) x y = Some v /\
        disk (d_files d1') (tiff_name (o_tiff o') (o_base o') i) x y = Some v) /\
   (1 <= a_min (g_abs cfg) -> zlen (packets_of ds) < 2 ^ 32 -> o_spectra o <> ""%string -> o_spectra o' <> ""%string ->
      exists rows, d_files d1 (o_spectra o ++ ".txt")%string = Some (Spectrum rows) /\
        d_files d1' (o_spectra o' ++ ".txt")%string = Some (Spectrum rows))).
Proof.
  intros Sh T
    (fu & w & ord & args & A1 & A2 & A3 & A4 & A5 & A6 & A7 & A8 & A9 & A10 & A11 & A12 & A13 & A14 & A15 & A16)
    (fu' & w' & ord' & args' & B1 & B2 & B3 & B4 & B5 & B6 & B7 & B8 & B9 & B10 & B11 & B12 & B13 & B14 & B15 & B16).
  destruct (C81_program_l fu ext w ord args d d1 o cfg ds s) as (h1 & n1 & s1 & P & N & Fh & Fe & _ & Ti & Sp & _); try assumption.
  destruct (C81_program_l fu' ext w' ord' args' d' d1' o' cfg ds' s) as (h2 & n2 & s2 & P' & N' & Fh' & Fe' & _ & Ti' & Sp' & _); try assumption.
  pose proof (processed_number _ _ _ _ _ P) as Q. pose proof (fires_le ds) as Lf.
  destruct (shuffled_processed _ _ _ Sh _ _ _ P) as (h2' & P2 & Ph). rewrite T in P'. destruct (processed_unique _ _ _ _ _ _ _ P2 P') as [-> _]. clear P2.
  destruct (forall2_perm _ _ _ Ph _ N) as (n2' & N2 & Pn). rewrite (neutrons_app _ _ _ _ N' _ N2) in Pn. clear N2 n2'.
  assert (Pch : Permutation (concat h1) (concat h2)) by (apply concat_perm, Ph).
  assert (Pcn : Permutation (concat n1) (concat n2)) by (apply concat_perm, Pn).
  split; [|split].
  - intros E E'. destruct (Fh E) as (f & X & G). destruct (Fh' E') as (f' & X' & G'). exists f, f', (concat h1), (concat h2).
    split; [exact X|]. split; [exact X'|]. split; [exact Pch|]. intros n fld Hf. split; [apply G|apply G']; exact Hf.
  - intros E E'. destruct (Fe E) as (f & X & G). destruct (Fe' E') as (f' & X' & G'). exists f, f', (concat n1), (concat n2).
    split; [exact X|]. split; [exact X'|]. split; [exact Pcn|]. intros n fld Hf. split; [apply G|apply G']; exact Hf.
  - intros Mo. assert (Pb : Permutation (binned o h1 n1) (binned o' h2 n2)).
    { unfold binned. destruct (String.eqb_spec (o_mode o) "hit"), (String.eqb_spec (o_mode o') "hit"); try tauto;
        apply Permutation_map; assumption. }
    split.
    + intros O1 O2 i x y u Hi Hx Hy Pu Pu'. destruct (Ti O1 i x y u Hi Hx Hy Pu) as (c & C & D).
      destruct (Ti' O2 i x y u Hi Hx Hy Pu') as (c' & C' & D'). exists ((u + c) mod 2 ^ 32). split; [exact D|].
      rewrite D', (counted_unique _ _ _ C' _ (counted_perm _ _ _ Pb _ C)). reflexivity.
    + intros Hm Le O1 O2. pose proof (all_number _ _ _ _ Hm N) as Kn.
      assert (Lb : zlen (binned o h1 n1) < 2 ^ 32) by (unfold binned; destruct (String.eqb _ _); unfold zlen in *; rewrite map_length; lia).
      assert (Lb' : zlen (binned o' h2 n2) < 2 ^ 32) by (unfold zlen in *; rewrite <- (Permutation_length Pb); exact Lb).
      destruct (proj2 (Sp Lb) O1) as (rows & R1 & R2). destruct (proj2 (Sp' Lb') O2) as (rows' & R1' & R2').
      exists rows. split; [exact R1|]. rewrite R1'.
      rewrite (spectrum_unique _ _ _ _ _ _ (spectrum_perm _ _ _ _ _ _ Pb R2) R2'). reflexivity.
Qed.

(** * The number of neutrons in the events file *)
Definition neutron_count (ext : externals) (cfg : abs_cfg) (hits : list hit) : outcome Z :=
  let! o := abs_fit 8 cfg abs_new hits in
  let! ns := abs_get_events ext cfg (abs_set_method o MCentroid) hits in
  Ok (zlen ns).
Lemma neutron_count_l ext cfg hits ns n : neutrons_of ext cfg hits ns -> neutron_count ext cfg hits = Ok n -> zlen ns = n.
Proof. intros (o & F & G) E. unfold neutron_count in E. rewrite F in E. cbn [obind] in E. rewrite G in E. cbn [obind] in E. congruence. Qed.

Lemma completed_number ext o cfg ds s d d1 hss s' ks : completed ext o cfg ds s d d1 -> o_events o <> ""%string ->
  processed (timing_of o) ts0 ds hss s' -> Forall2 (fun h k => neutron_count ext (g_abs cfg) h = Ok k) hss ks ->
  exists f, d_h5 d1 (o_events o) = Some f /\ zlen (col f "neutrons" "x") = fold_right Z.add 0 ks.
Proof.
  intros (fu & w & ord & args & A1 & A2 & A3 & A4 & A5 & A6 & A7 & A8 & A9 & A10 & A11 & A12 & A13 & A14 & A15 & A16) E P0 K.
  destruct (C81_program_l fu ext w ord args d d1 o cfg ds s) as (h1 & n1 & s1 & P & N & Fh & Fe & _); try assumption.
  destruct (processed_unique _ _ _ _ _ _ _ P P0) as [-> _]. destruct (Fe E) as (f & F & G). exists f. split; [exact F|].
  rewrite (G _ _ NF_x). unfold zlen. rewrite map_length. fold (zlen (concat n1)). clear - N K. revert ks K.
  induction N as [|h ns hss nss H N IH]; intros ks K; inversion K; subst; [reflexivity|]. cbn [concat fold_right]. rewrite zlen_app, (IH _ H4).
  rewrite (neutron_count_l _ _ _ _ _ H H2). reflexivity.
Qed.
