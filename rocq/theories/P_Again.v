(** Proofs for C117: the same run several times. *)
From Coq Require Import Reals String Permutation.
From Verif Require Import P_Tof P_Main P_Program P_CliRun P_Append P_Same P_Damage P_Scaled P_Conserve P_Motion P_Reduce.
From Verif Require Export S_Again.
From Coq Require Import Lia.
Local Open Scope Z_scope.
Local Open Scope list_scope.

Lemma again_first ext o cfg ds s d n dn : again ext o cfg ds s d n dn -> exists d0, completed ext o cfg ds s d0 dn.
Proof. intros [d1 C|m d1 d2 A C]; eauto. Qed.

Lemma again_image ext o cfg ds s d n dn : again ext o cfg ds s d n dn -> forall d1, completed ext o cfg ds s d d1 -> o_tiff o <> ""%string ->
  forall i x y u, (i < length (g_edges cfg) - 1)%nat -> 0 <= x < s -> 0 <= y < s ->
    prior (d_files d) (tiff_name (o_tiff o) (o_base o) i) s s x y u ->
    exists v, disk (d_files d1) (tiff_name (o_tiff o) (o_base o) i) x y = Some ((u + v) mod 2 ^ 32) /\
      disk (d_files dn) (tiff_name (o_tiff o) (o_base o) i) x y = Some ((u + n * v) mod 2 ^ 32) /\
      exists hss nss s', processed (timing_of o) ts0 ds hss s' /\ Forall2 (neutrons_of ext (g_abs cfg)) hss nss /\
        counted (fun e => lands (g_sr cfg) (g_edges cfg) e i x y) (binned o hss nss) v.
Proof.
  induction 1 as [d2 C2|n d2 d3 A IH C3]; intros d1 C1 E i x y u Hi Hx Hy Pu.
  - destruct C1 as (fu & w & ord & args & A1 & A2 & A3 & A4 & A5 & A6 & A7 & A8 & A9 & A10 & A11 & A12 & A13 & A14 & A15 & A16).
    destruct C2 as (fu' & w' & ord' & args' & B1 & B2 & B3 & B4 & B5 & B6 & B7 & B8 & B9 & B10 & B11 & B12 & B13 & B14 & B15 & B16).
    destruct (C81_program_l fu ext w ord args d d1 o cfg ds s) as (h1 & n1 & s1 & P & N & _ & _ & _ & Ti & _); try assumption.
    destruct (C81_program_l fu' ext w' ord' args' d d2 o cfg ds s) as (h2 & n2 & s2 & P' & N' & _ & _ & _ & Ti' & _); try assumption.
    destruct (processed_unique _ _ _ _ _ _ _ P P') as [<- _]. rewrite (neutrons_app _ _ _ _ N _ N') in *.
    destruct (Ti E i x y u Hi Hx Hy Pu) as (v & C & D). destruct (Ti' E i x y u Hi Hx Hy Pu) as (v' & C' & D').
    rewrite (counted_unique _ _ _ C' _ C) in D'. exists v. split; [exact D|]. split; [rewrite Z.mul_1_l; exact D'|]. exists h1, n1, s1. auto.
  - destruct (IH d1 C1 E i x y u Hi Hx Hy Pu) as (v & D1 & D2 & h & ns & s' & P & N & C). exists v. split; [exact D1|]. split; [|exists h, ns, s'; auto].
    destruct (again_first _ _ _ _ _ _ _ _ A) as (d0 & C2). pose proof (completed_saved _ _ _ _ _ _ _ C2 E i Hi) as Sv. clear C1 C2 d0.
    destruct C3 as (fu & w & ord & args & A1 & A2 & A3 & A4 & A5 & A6 & A7 & A8 & A9 & A10 & A11 & A12 & A13 & A14 & A15 & A16).
    destruct (C81_program_l fu ext w ord args d2 d3 o cfg ds s) as (h1 & n1 & s1 & P' & N' & _ & _ & _ & Ti & _); try assumption.
    destruct (processed_unique _ _ _ _ _ _ _ P P') as [<- _]. rewrite (neutrons_app _ _ _ _ N _ N') in *.
    destruct (Ti E i x y _ Hi Hx Hy (prior_saved _ _ _ _ _ _ _ Sv D2)) as (v' & C' & D'). rewrite (counted_unique _ _ _ C' _ C) in D'.
    rewrite D'. f_equal. rewrite Zplus_mod_idemp_l. f_equal. ring.
Qed.

Lemma C117_l ext o cfg ds s d d1 n dn : completed ext o cfg ds s d d1 -> again ext o cfg ds s d n dn ->
  (o_hits o <> ""%string -> same_hits d1 (o_hits o) dn (o_hits o)) /\
  (o_events o <> ""%string -> same_neutrons d1 (o_events o) dn (o_events o)) /\
  (o_tiff o <> ""%string -> forall i x y u, (i < length (g_edges cfg) - 1)%nat -> 0 <= x < s -> 0 <= y < s ->
     prior (d_files d) (tiff_name (o_tiff o) (o_base o) i) s s x y u ->
     exists v, 0 <= v /\ disk (d_files d1) (tiff_name (o_tiff o) (o_base o) i) x y = Some ((u + v) mod 2 ^ 32) /\
       disk (d_files dn) (tiff_name (o_tiff o) (o_base o) i) x y = Some ((u + n * v) mod 2 ^ 32)) /\
  (1 <= a_min (g_abs cfg) -> zlen (packets_of ds) < 2 ^ 32 -> o_spectra o <> ""%string ->
     exists rows, d_files d1 (o_spectra o ++ ".txt")%string = Some (Spectrum rows) /\
       d_files dn (o_spectra o ++ ".txt")%string = Some (Spectrum rows)).
Proof.
  intros C A. destruct (again_first _ _ _ _ _ _ _ _ A) as (d0 & Cn).
  destruct (C110_l ext o o cfg cfg ds s d d1 d0 dn C Cn eq_refl (or_introl eq_refl)) as (Hh & He & Hi).
  split; [auto|]. split; [auto|]. split.
  - intros E i x y u Li Hx Hy Pu. destruct (again_image _ _ _ _ _ _ _ _ A d1 C E i x y u Li Hx Hy Pu) as (v & D & D' & h & ns & s' & _ & _ & Cv).
    exists v. split; [|auto]. pose proof (P_Main.counted_bounds _ _ _ Cv). lia.
  - intros Hm Lp E. destruct (Hi (iff_refl _)) as [_ Sp]. clear Hi Hh He A.
    pose proof C as (fu & w & ord & args & A1 & A2 & A3 & A4 & A5 & A6 & A7 & A8 & A9 & A10 & A11 & A12 & A13 & A14 & A15 & A16).
    destruct (C81_program_l fu ext w ord args d d1 o cfg ds s) as (h1 & n1 & s1 & P & N & _); try assumption.
    apply (Sp h1 n1 s1 P N); try assumption. pose proof (processed_number _ _ _ _ _ P). pose proof (fires_le ds). pose proof (all_number _ _ _ _ Hm N).
    unfold binned. destruct (String.eqb _ _); unfold zlen in *; rewrite map_length; lia.
Qed.
