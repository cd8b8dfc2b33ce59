(** Proofs for C110: what the outputs of the program do not depend on. *)
From Coq Require Import Reals String Permutation.
From Verif Require Import P_Tof P_Main P_Program P_CliRun P_Measure P_Append P_Scaled P_Conserve.
From Verif Require Export S_Same.
From Coq Require Import Lia.
Local Open Scope Z_scope.
Local Open Scope list_scope.

Lemma spectrum_unique sr edges s es rows rows' :
  spectrum_of sr edges s es rows -> spectrum_of sr edges s es rows' -> rows' = rows.
Proof.
  intros [L R] [L' R'].
  assert (X : forall n, nth_error rows' n = nth_error rows n).
  { intros n. destruct (nth_error rows n) as [[t c]|] eqn:E.
    - assert (Ln : (n < length rows')%nat) by (rewrite L', <- L; apply nth_error_Some; congruence).
      destruct (nth_error rows' n) as [[t' c']|] eqn:E'; [|apply nth_error_None in E'; lia].
      destruct (R n t c E) as [Et Ec]. destruct (R' n t' c' E') as [Et' Ec']. rewrite Et in Et'. injection Et' as <-.
      do 2 f_equal. eapply counted_unique; eassumption.
    - apply nth_error_None. rewrite L', <- L. apply nth_error_None. exact E. }
  clear - X. revert rows X. induction rows' as [|r l IH]; intros [|q m] X; try reflexivity; try (specialize (X 0%nat); discriminate X).
  f_equal; [specialize (X 0%nat); cbn in X; congruence|]. apply IH. intros n. exact (X (S n)).
Qed.

Lemma told_hits o ds hss k h s : recording both_near false nothing_known ds hss k -> Forall dataset_ok ds ->
  processed (timing_of o) ts0 ds h s -> h = hss.
Proof.
  intros R O P. destruct (timing_of o).
  - apply (recording_mono both_near around false true) in R; [|unfold both_near; tauto|discriminate].
    destruct (C90_gdc_l ds hss k O R) as (s2 & Q). apply (processed_unique _ _ _ _ _ _ _ P Q).
  - apply (recording_mono both_near early_run false false) in R; [|unfold both_near; tauto|discriminate].
    destruct (C90_tdc_l ds hss k R) as (s2 & Q). apply (processed_unique _ _ _ _ _ _ _ P Q).
Qed.

Lemma C110_l ext o o' cfg cfg' ds s d d1 d' d1' :
  completed ext o cfg ds s d d1 -> completed ext o' cfg' ds s d' d1' -> cfg' = cfg ->
  timing_of o' = timing_of o \/ (exists hss k, recording both_near false nothing_known ds hss k) ->
  (o_hits o <> ""%string -> o_hits o' <> ""%string -> same_hits d1 (o_hits o) d1' (o_hits o')) /\
  (o_events o <> ""%string -> o_events o' <> ""%string -> same_neutrons d1 (o_events o) d1' (o_events o')) /\
  ((o_mode o' = "hit" <-> o_mode o = "hit")%string ->
   (o_tiff o <> ""%string -> o_tiff o' <> ""%string -> forall i x y u, (i < length (g_edges cfg) - 1)%nat -> 0 <= x < s -> 0 <= y < s ->
      prior (d_files d) (tiff_name (o_tiff o) (o_base o) i) s s x y u ->
      prior (d_files d') (tiff_name (o_tiff o') (o_base o') i) s s x y u ->
      exists v, disk (d_files d1) (tiff_name (o_tiff o) (o_base o) i) x y = Some v /\
        disk (d_files d1') (tiff_name (o_tiff o') (o_base o') i) x y = Some v) /\
   (forall hss nss s', processed (timing_of o) ts0 ds hss s' -> Forall2 (neutrons_of ext (g_abs cfg)) hss nss ->
      zlen (binned o hss nss) < 2 ^ 32 ->
      o_spectra o <> ""%string -> o_spectra o' <> ""%string ->
      exists rows, d_files d1 (o_spectra o ++ ".txt")%string = Some (Spectrum rows) /\
        d_files d1' (o_spectra o' ++ ".txt")%string = Some (Spectrum rows))).
Proof.
  intros (fu & w & ord & args & A1 & A2 & A3 & A4 & A5 & A6 & A7 & A8 & A9 & A10 & A11 & A12 & A13 & A14 & A15 & A16)
    (fu' & w' & ord' & args' & B1 & B2 & B3 & B4 & B5 & B6 & B7 & B8 & B9 & B10 & B11 & B12 & B13 & B14 & B15 & B16) -> T.
  destruct (C81_program_l fu ext w ord args d d1 o cfg ds s) as (h1 & n1 & s1 & P & N & Fh & Fe & _ & Ti & Sp & _); try assumption.
  destruct (C81_program_l fu' ext w' ord' args' d' d1' o' cfg ds s) as (h2 & n2 & s2 & P' & N' & Fh' & Fe' & _ & Ti' & Sp' & _); try assumption.
  assert (Eh : h2 = h1).
  { destruct T as [T|(hss & k & R)].
    - rewrite T in P'. symmetry. apply (processed_unique _ _ _ _ _ _ _ P P').
    - rewrite (told_hits o ds hss k h1 s1 R A6 P). apply (told_hits o' ds hss k h2 s2 R A6 P'). }
  subst h2. assert (En : n2 = n1) by exact (neutrons_app ext (g_abs cfg) h1 n1 N n2 N'). subst n2.
  split; [|split].
  - intros E E'. destruct (Fh E) as (f & F & G). destruct (Fh' E') as (f' & F' & G'). exists f, f'. split; [exact F|]. split; [exact F'|].
    intros n fld Hf. apply map_some_inj. rewrite (G n fld Hf), (G' n fld Hf). reflexivity.
  - intros E E'. destruct (Fe E) as (f & F & G). destruct (Fe' E') as (f' & F' & G'). exists f, f'. split; [exact F|]. split; [exact F'|].
    intros n fld Hf. rewrite (G n fld Hf), (G' n fld Hf). reflexivity.
  - intros Mo. assert (Eb : binned o' h1 n1 = binned o h1 n1).
    { unfold binned. destruct (String.eqb_spec (o_mode o) "hit"), (String.eqb_spec (o_mode o') "hit"); tauto || reflexivity. }
    rewrite Eb in *. split.
    + intros O1 O2 i x y u Hi Hx Hy Pu Pu'. destruct (Ti O1 i x y u Hi Hx Hy Pu) as (c & C & D).
      destruct (Ti' O2 i x y u Hi Hx Hy Pu') as (c' & C' & D'). exists ((u + c) mod 2 ^ 32). split; [exact D|].
      rewrite D', (counted_unique _ _ _ C' _ C). reflexivity.
    + intros h3 n3 s3 P3 N3. destruct (processed_unique _ _ _ _ _ _ _ P P3) as [<- _].
      rewrite (neutrons_app ext (g_abs cfg) h1 n1 N n3 N3). intros Le O1 O2.
      destruct (proj2 (Sp Le) O1) as (rows & R1 & R2). destruct (proj2 (Sp' Le) O2) as (rows' & R1' & R2').
      exists rows. split; [exact R1|]. rewrite R1', (spectrum_unique _ _ _ _ _ _ R2 R2'). reflexivity.
Qed.
