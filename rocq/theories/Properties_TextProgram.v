(** C89: the spectrum file that a run of the program leaves, as its reader
    understands it. *)
From Coq Require Import Reals String Permutation.
From Verif Require Import P_Program Properties_Cli Properties_Tof Properties_Main Properties_Program.
From Verif Require Import P_TextProgram.
From Coq Require Import Lia.
Global Open Scope Z_scope.

(** C89: if the program returns 0 on a well-formed file, the text of each spectrum
    file tells for every bin its end to six digits and, exactly, how many of the
    neutrons (hits) of the file lie in it. *)
Theorem C89_program : forall fuel ext w order args d d' o cfg ds s,
  exclusive w -> (forall p, env_writable w p = true) -> understood w args o -> configured w o cfg ->
  env_input w (o_input o) = Some (stream ds) ->
  Forall dataset_ok ds -> Forall no_false_header ds ->
  0 < o_chunk o -> cuts_at_datasets (o_chunk o) ds -> (length (stream ds) <= fuel)%nat ->
  edges_ok (g_edges cfg) -> side (g_sr cfg) s -> 0 < s ->
  Permutation order (seq 0 (length (g_edges cfg) - 1)) ->
  (forall i, (i < length (g_edges cfg) - 1)%nat ->
     saved (d_files d) (tiff_name (o_tiff o) (o_base o) i) s s \/ unrelated (d_files d) (tiff_name (o_tiff o) (o_base o) i) s s) ->
  program fuel ext w order args d = Ok (Exit 0, d') ->
  exists hss nss s',
    processed (timing_of o) ts0 ds hss s' /\ Forall2 (neutrons_of ext (g_abs cfg)) hss nss /\
    (zlen (binned o hss nss) < 2 ^ 32 -> forall name,
       (o_tiff o <> ""%string /\ name = spectra_name (o_tiff o) (o_base o)) \/
       (o_spectra o <> ""%string /\ name = (o_spectra o ++ ".txt")%string) ->
       exists rows, d_files d' name = Some (Spectrum rows) /\
         spectrum_told (g_sr cfg) (g_edges cfg) s (binned o hss nss) (bytes (spectrum_text rows))).
Proof. exact C89_program_l. Qed.
Print Assumptions C89_program.
Example C89_program_instance : exclusive pex_w /\
  match program 100 cex_ext pex_w [1%nat; 0%nat] pex_args pex_d with
  | Ok (Exit 0, d') =>
      match d_files d' "Spectra.txt"%string with
      | Some (Spectrum rows) => text_lines (bytes (spectrum_text rows))
      | _ => None
      end
  | _ => None
  end = Some [bytes "shutter_time,counts"; bytes "0.005,2"; bytes "0.0167,0"].
Proof. split; [exact pex_exclusive|]. vm_compute. reflexivity. Qed.
