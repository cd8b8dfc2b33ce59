(** Property C75: a whole run of the command line program.  Each theorem is
    followed by a concrete instance of its hypotheses. *)
From Coq Require Import Reals String Permutation.
From Verif Require Import P_Main Properties_Cli Properties_Tof.
From Coq Require Import Lia.
Global Open Scope Z_scope.

(** C75: a run that ends normally has written, for a well-formed file, exactly the
    hits and neutrons of its datasets, and image files and spectra that count
    them; nothing else has changed. *)
Theorem C75_program : forall fuel ext cfg o ds writable order fs st fs' d,
  Forall dataset_ok ds -> Forall no_false_header ds ->
  0 < o_chunk o -> cuts_at_datasets (o_chunk o) ds -> (length (stream ds) <= fuel)%nat ->
  edges_ok (g_edges cfg) -> side (g_sr cfg) d -> 0 < d ->
  Permutation order (seq 0 (length (g_edges cfg) - 1)) -> (forall p, writable p = true) ->
  (forall i, (i < length (g_edges cfg) - 1)%nat ->
     saved fs (tiff_name (o_tiff o) (o_base o) i) d d \/ unrelated fs (tiff_name (o_tiff o) (o_base o) i) d d) ->
  run_main fuel ext cfg o (Some (stream ds)) true writable order fs = Ok (st, fs') ->
  exists hss nss,
    processed (timing_of o) ts0 ds hss (c_ts st) /\ Forall2 (neutrons_of ext (g_abs cfg)) hss nss /\
    (o_hits o = ""%string -> c_hits st = None) /\
    (o_hits o <> ""%string -> exists f, c_hits st = Some f /\
       forall n fld, hit_field n fld -> map Some (col f "hits" n) = map fld (concat hss)) /\
    (o_events o = ""%string -> c_events st = None) /\
    (o_events o <> ""%string -> exists f, c_events st = Some f /\
       forall n fld, neutron_field n fld -> col f "neutrons" n = map fld (concat nss)) /\
    c_nhits st = zlen (concat hss) mod 2 ^ 64 /\ c_nneutrons st = zlen (concat nss) mod 2 ^ 64 /\
    (o_tiff o <> ""%string -> forall i x y u, (i < length (g_edges cfg) - 1)%nat -> 0 <= x < d -> 0 <= y < d ->
       prior fs (tiff_name (o_tiff o) (o_base o) i) d d x y u ->
       exists k, counted (fun e => lands (g_sr cfg) (g_edges cfg) e i x y) (binned o hss nss) k /\
         disk fs' (tiff_name (o_tiff o) (o_base o) i) x y = Some ((u + k) mod 2 ^ 32)) /\
    (zlen (binned o hss nss) < 2 ^ 32 ->
       (o_tiff o <> ""%string -> exists rows, fs' (spectra_name (o_tiff o) (o_base o)) = Some (Spectrum rows) /\
          spectrum_of (g_sr cfg) (g_edges cfg) d (binned o hss nss) rows) /\
       (o_spectra o <> ""%string -> exists rows, fs' (o_spectra o ++ ".txt")%string = Some (Spectrum rows) /\
          spectrum_of (g_sr cfg) (g_edges cfg) d (binned o hss nss) rows)) /\
    (forall q, (o_tiff o <> ""%string -> q <> spectra_name (o_tiff o) (o_base o) /\
                  forall i, (i < length (g_edges cfg) - 1)%nat -> q <> tiff_name (o_tiff o) (o_base o) i) ->
               (o_spectra o <> ""%string -> q <> (o_spectra o ++ ".txt")%string) -> fs' q = fs q).
Proof. exact C75_program_l. Qed.
Print Assumptions C75_program.
Definition mex_cfg : config := Config (AbsCfg (f_of_Z 5) 1 75) tex_sr [f_of_Z 0; f_lit 5 1000; f_lit 167 10000].
Definition mex_opt : options := Options "in" "h" "" "" "out" "run" "hit" "sp" "gdc" 48 false false.
Lemma mex_edges : edges_ok (g_edges mex_cfg).
Proof. apply edges_ok_check. vm_compute. reflexivity. Qed.
Example C75_instance :
  Forall dataset_ok cex_ds /\ Forall no_false_header cex_ds /\ cuts_at_datasets (o_chunk mex_opt) cex_ds /\
  edges_ok (g_edges mex_cfg) /\ side (g_sr mex_cfg) 5 /\
  (let! (st, fs) := run_main 100 cex_ext mex_cfg mex_opt (Some (stream cex_ds)) true (fun _ => true) [1%nat; 0%nat] (fun _ => None) in
   Ok (c_nhits st, c_nneutrons st,
       match fs "sp.txt"%string with Some (Spectrum rows) => map snd rows | _ => [] end,
       match fs "out/run_Spectra.txt"%string with Some (Spectrum rows) => map snd rows | _ => [] end,
       match fs "other"%string with None => true | _ => false end)) = Ok (3, 3, [2; 0], [2; 0], true).
Proof.
  destruct cex_ok as [A B]. split; [exact A|]. split; [exact B|]. split; [exact cex_cuts|]. split; [exact mex_edges|].
  split; [exact tex_side|]. vm_compute. reflexivity.
Qed.

(** C75: with images of fewer than 2^30 columns, early times and (with TDC timing) no hit
    before its TDC the run ends normally. *)
Theorem C75_succeeds : forall fuel ext cfg o ds writable order fs s,
  ds <> [] -> Forall dataset_ok ds -> Forall no_false_header ds ->
  0 < o_chunk o -> cuts_at_datasets (o_chunk o) ds -> (length (stream ds) <= fuel)%nat ->
  edges_ok (g_edges cfg) -> side (g_sr cfg) s -> 0 < s < 2 ^ 30 ->
  Permutation order (seq 0 (length (g_edges cfg) - 1)) -> (forall p, writable p = true) ->
  (forall i, (i < length (g_edges cfg) - 1)%nat ->
     saved fs (tiff_name (o_tiff o) (o_base o) i) s s \/ unrelated fs (tiff_name (o_tiff o) (o_base o) i) s s) ->
  (forall hss s', processed (timing_of o) ts0 ds hss s' ->
     Forall (fun h => (timing_of o = GDC_mode -> h_spider h < 2 ^ 48) /\ (timing_of o = TDC_mode -> h_tof h <> None)) (concat hss)) ->
  exists st fs', run_main fuel ext cfg o (Some (stream ds)) true writable order fs = Ok (st, fs').
Proof. exact C75_succeeds_l. Qed.
Print Assumptions C75_succeeds.

(** C75: no input file, or an empty one. *)
Theorem C75_no_input : forall fuel ext cfg o content mkdir writable order fs, content = None \/ content = Some [] ->
  run_main fuel ext cfg o content mkdir writable order fs = Throw RuntimeError.
Proof. exact C75_no_input_l. Qed.
Print Assumptions C75_no_input.

(** C75: if the output directory cannot be made, the run ends by an exception. *)
Theorem C75_no_directory : forall fuel ext cfg o content writable order fs, o_tiff o <> ""%string ->
  forall r, run_main fuel ext cfg o content false writable order fs <> Ok r.
Proof. exact C75_no_directory_l. Qed.
Print Assumptions C75_no_directory.
Theorem C75_directory_fails : forall fuel ext cfg o content mkdir writable order fs r, o_tiff o <> ""%string ->
  run_main fuel ext cfg o content true writable order fs = Ok r ->
  run_main fuel ext cfg o content mkdir writable order fs = if mkdir then Ok r else Throw ExternalError.
Proof. exact C75_directory_fails_l. Qed.
Print Assumptions C75_directory_fails.
