(** Proofs for C111: the parts of a recording in any order. *)
From Coq Require Import Reals String Permutation.
From Verif Require Import P_Tof P_Main P_Program P_CliRun P_Measure P_Append P_Reduce P_Same.
From Verif Require Export S_Same.
From Coq Require Import Lia.
Local Open Scope Z_scope.
Local Open Scope list_scope.

Lemma parts_histories near parts : Forall (fun ys => exists hss, histories near None None ys hss) parts ->
  exists hsss, Forall2 (histories near None None) parts hsss.
Proof.
  induction 1 as [|ys parts (hss & H) _ (hsss & F)]; [exists []; constructor|]. exists (hss :: hsss). constructor; assumption.
Qed.
Lemma histories_concat near parts hsss : Forall2 (histories near None None) parts hsss ->
  histories near None None (concat parts) (concat hsss).
Proof. induction 1 as [|ys hss parts hsss H _ IH]; cbn [concat]; [constructor|]. apply histories_app; assumption. Qed.

(** Lists of related elements can be permuted alike. *)
Lemma forall2_perm {A B} (R : A -> B -> Prop) l l' : Permutation l l' -> forall m, Forall2 R l m ->
  exists m', Forall2 R l' m' /\ Permutation m m'.
Proof.
  induction 1 as [|a l l' P IH|a b l|l1 l2 l3 P1 IH1 P2 IH2]; intros m F.
  - inversion F; subst. exists []. split; constructor.
  - inversion F as [|? b ? m0 H F']; subst. destruct (IH _ F') as (m' & G & Q). exists (b :: m'). split; constructor; assumption.
  - inversion F as [|? x ? m0 H F']; subst. inversion F' as [|? y ? m1 H' F'']; subst. exists (y :: x :: m1).
    split; [repeat (constructor; try assumption)|apply perm_swap].
  - destruct (IH1 _ F) as (m' & G & Q). destruct (IH2 _ G) as (m2 & G2 & Q2). exists m2. split; [exact G2|]. eapply Permutation_trans; eassumption.
Qed.

Lemma spectrum_perm sr edges s es es' rows : Permutation es es' -> spectrum_of sr edges s es rows -> spectrum_of sr edges s es' rows.
Proof.
  intros P [L R]. split; [exact L|]. intros i t c E. destruct (R i t c E) as [A B]. split; [exact A|]. exact (counted_perm _ _ _ P _ B).
Qed.

Lemma C111_l ext o o' cfg parts parts' near s d d1 d' d1' :
  Forall (fun ys => exists hss, histories near None None ys hss) parts -> Permutation parts parts' ->
  (timing_of o = GDC_mode -> forall g t, near g t -> around g t) ->
  (timing_of o = TDC_mode -> forall g t, near g t -> early_run g t) ->
  timing_of o' = timing_of o ->
  completed ext o cfg (map dataset_of (concat parts)) s d d1 -> completed ext o' cfg (map dataset_of (concat parts')) s d' d1' ->
  (o_hits o <> ""%string -> o_hits o' <> ""%string -> exists f f' hs hs',
     d_h5 d1 (o_hits o) = Some f /\ d_h5 d1' (o_hits o') = Some f' /\ Permutation hs hs' /\
     forall n fld, hit_field n fld -> map Some (col f "hits" n) = map fld hs /\ map Some (col f' "hits" n) = map fld hs') /\
  (o_events o <> ""%string -> o_events o' <> ""%string -> exists f f' ns ns',
     d_h5 d1 (o_events o) = Some f /\ d_h5 d1' (o_events o') = Some f' /\ Permutation ns ns' /\
     forall n fld, neutron_field n fld -> col f "neutrons" n = map fld ns /\ col f' "neutrons" n = map fld ns') /\
  ((o_mode o' = "hit" <-> o_mode o = "hit")%string ->
   (o_tiff o <> ""%string -> o_tiff o' <> ""%string -> forall i x y u, (i < length (g_edges cfg) - 1)%nat -> 0 <= x < s -> 0 <= y < s ->
      prior (d_files d) (tiff_name (o_tiff o) (o_base o) i) s s x y u ->
      prior (d_files d') (tiff_name (o_tiff o') (o_base o') i) s s x y u ->
      exists v, disk (d_files d1) (tiff_name (o_tiff o) (o_base o) i) x y = Some v /\
        disk (d_files d1') (tiff_name (o_tiff o') (o_base o') i) x y = Some v) /\
   (forall hss nss s', processed (timing_of o) ts0 (map dataset_of (concat parts)) hss s' -> Forall2 (neutrons_of ext (g_abs cfg)) hss nss ->
      zlen (binned o hss nss) < 2 ^ 32 ->
      o_spectra o <> ""%string -> o_spectra o' <> ""%string ->
      exists rows, d_files d1 (o_spectra o ++ ".txt")%string = Some (Spectrum rows) /\
        d_files d1' (o_spectra o' ++ ".txt")%string = Some (Spectrum rows))).
Proof.
  intros H Pm Gn Tn T
    (fu & w & ord & args & A1 & A2 & A3 & A4 & A5 & A6 & A7 & A8 & A9 & A10 & A11 & A12 & A13 & A14 & A15 & A16)
    (fu' & w' & ord' & args' & B1 & B2 & B3 & B4 & B5 & B6 & B7 & B8 & B9 & B10 & B11 & B12 & B13 & B14 & B15 & B16).
  destruct (C81_program_l fu ext w ord args d d1 o cfg (map dataset_of (concat parts)) s) as (h1 & n1 & s1 & P & N & Fh & Fe & _ & Ti & Sp & _); try assumption.
  destruct (C81_program_l fu' ext w' ord' args' d' d1' o' cfg (map dataset_of (concat parts')) s) as (h2 & n2 & s2 & P' & N' & Fh' & Fe' & _ & Ti' & Sp' & _); try assumption.
  destruct (parts_histories _ _ H) as (hsss & F). destruct (forall2_perm _ _ _ Pm _ F) as (hsss' & F' & Pq).
  pose proof (mode_hits o near _ _ h1 s1 (histories_concat _ _ _ F) Gn Tn P) as E1.
  rewrite <- T in Gn, Tn. pose proof (mode_hits o' near _ _ h2 s2 (histories_concat _ _ _ F') Gn Tn P') as E2.
  assert (Ph : Permutation h1 h2) by (subst h1 h2; apply concat_perm, Pq).
  destruct (forall2_perm _ _ _ Ph _ N) as (n2' & N2 & Pn). rewrite (neutrons_app _ _ _ _ N' _ N2) in Pn. clear N2 n2'.
  assert (Pch : Permutation (concat h1) (concat h2)) by (apply concat_perm, Ph).
  assert (Pcn : Permutation (concat n1) (concat n2)) by (apply concat_perm, Pn).
  split; [|split].
  - intros E E'. destruct (Fh E) as (f & X & G). destruct (Fh' E') as (f' & X' & G'). exists f, f', (concat h1), (concat h2).
    split; [exact X|]. split; [exact X'|]. split; [exact Pch|]. intros n fld Hf. split; [apply G|apply G']; exact Hf.
  - intros E E'. destruct (Fe E) as (f & X & G). destruct (Fe' E') as (f' & X' & G'). exists f, f', (concat n1), (concat n2).
    split; [exact X|]. split; [exact X'|]. split; [exact Pcn|]. intros n fld Hf. split; [apply G|apply G']; exact Hf.
  - intros Mo. assert (Pb : Permutation (binned o h1 n1) (binned o' h2 n2)).
    { unfold binned. destruct (String.eqb_spec (o_mode o) "hit"), (String.eqb_spec (o_mode o') "hit"); try tauto;
        apply Permutation_map; assumption. }
    split.
    + intros O1 O2 i x y u Hi Hx Hy Pu Pu'. destruct (Ti O1 i x y u Hi Hx Hy Pu) as (c & C & D).
      destruct (Ti' O2 i x y u Hi Hx Hy Pu') as (c' & C' & D'). exists ((u + c) mod 2 ^ 32). split; [exact D|].
      rewrite D', (counted_unique _ _ _ C' _ (counted_perm _ _ _ Pb _ C)). reflexivity.
    + intros h3 n3 s3 P3 N3. destruct (processed_unique _ _ _ _ _ _ _ P P3) as [<- _].
      rewrite (neutrons_app ext (g_abs cfg) h1 n1 N n3 N3). intros Le O1 O2.
      assert (Le' : zlen (binned o' h2 n2) < 2 ^ 32) by (unfold zlen in *; rewrite <- (Permutation_length Pb); exact Le).
      destruct (proj2 (Sp Le) O1) as (rows & R1 & R2). destruct (proj2 (Sp' Le') O2) as (rows' & R1' & R2').
      exists rows. split; [exact R1|]. rewrite R1'.
      rewrite (spectrum_unique _ _ _ _ _ _ (spectrum_perm _ _ _ _ _ _ Pb R2) R2'). reflexivity.
Qed.
