(** Proofs about the spectrum file that the program leaves, as text. *)
From Coq Require Import Reals String Permutation Lia.
From Verif Require Import F64Facts P_Program.
From Verif Require Export S_TextProgram P_Text.
Local Open Scope Z_scope.
Local Open Scope list_scope.

Lemma counted_nonneg {A} (P : A -> Prop) l n : counted P l n -> 0 <= n.
Proof. induction 1; lia. Qed.

Lemma spectrum_tells sr edges d es rows : edges_ok edges -> spectrum_of sr edges d es rows ->
  spectrum_told sr edges d es (bytes (spectrum_text rows)).
Proof.
  intros (_ & Fin & _) (Len & Nth).
  assert (OK : Forall (fun r => is_finite (fst r) = true /\ 0 <= snd r) rows).
  { apply Forall_forall. intros [t c] I. apply In_nth_error in I. destruct I as (i & I). destruct (Nth i t c I) as [E C].
    split; [|apply (counted_nonneg _ _ _ C)]. rewrite Forall_forall in Fin. apply Fin. apply (nth_error_In _ _ E). }
  destruct (C89_file rows OK) as (h & ls & L & H & F2). exists h, ls. split; [exact L|]. split; [exact H|].
  assert (LL : length ls = length rows) by (clear -F2; induction F2; cbn [length]; congruence).
  split; [congruence|]. intros i l I.
  assert (R : exists r, nth_error rows i = Some r /\ spectrum_row r l).
  { clear -F2 I. revert i I. induction F2 as [|r l' rows ls R F2 IH]; intros i I; [destruct i; discriminate|].
    destruct i as [|i]; [exists r; injection I as <-; split; [reflexivity|exact R]|]. apply (IH i I). }
  destruct R as ([t c] & Er & a & b & E1 & E2 & E3). destruct (Nth i t c Er) as [Et Ec].
  exists t, a, b, c. split; [exact Et|]. split; [exact E1|]. split; [exact E2|]. split; [exact E3|exact Ec].
Qed.

Lemma C89_program_l fuel ext w order args d d' o cfg ds s :
  exclusive w -> (forall p, env_writable w p = true) -> understood w args o -> configured w o cfg ->
  env_input w (o_input o) = Some (stream ds) ->
  Forall dataset_ok ds -> Forall no_false_header ds ->
  0 < o_chunk o -> cuts_at_datasets (o_chunk o) ds -> (length (stream ds) <= fuel)%nat ->
  edges_ok (g_edges cfg) -> side (g_sr cfg) s -> 0 < s ->
  Permutation order (seq 0 (length (g_edges cfg) - 1)) ->
  (forall i, (i < length (g_edges cfg) - 1)%nat ->
     saved (d_files d) (tiff_name (o_tiff o) (o_base o) i) s s \/ unrelated (d_files d) (tiff_name (o_tiff o) (o_base o) i) s s) ->
  program fuel ext w order args d = Ok (Exit 0, d') ->
  exists hss nss s',
    processed (timing_of o) ts0 ds hss s' /\ Forall2 (neutrons_of ext (g_abs cfg)) hss nss /\
    (zlen (binned o hss nss) < 2 ^ 32 -> forall name,
       (o_tiff o <> ""%string /\ name = spectra_name (o_tiff o) (o_base o)) \/
       (o_spectra o <> ""%string /\ name = (o_spectra o ++ ".txt")%string) ->
       exists rows, d_files d' name = Some (Spectrum rows) /\
         spectrum_told (g_sr cfg) (g_edges cfg) s (binned o hss nss) (bytes (spectrum_text rows))).
Proof.
  intros X W U C I D NF Ch Cu Fu Ed Si Sp P Sv R.
  destruct (C81_program_l fuel ext w order args d d' o cfg ds s X W U C I D NF Ch Cu Fu Ed Si Sp P Sv R)
    as (hss & nss & s' & Pr & Ne & _ & _ & _ & _ & Q & _).
  exists hss, nss, s'. split; [exact Pr|]. split; [exact Ne|]. intros Z0. destruct (Q Z0) as [Q1 Q2].
  intros name [[N ->]|[N ->]].
  - destruct (Q1 N) as (rows & F & Sq). exists rows. split; [exact F|]. apply spectrum_tells; assumption.
  - destruct (Q2 N) as (rows & F & Sq). exists rows. split; [exact F|]. apply spectrum_tells; assumption.
Qed.
