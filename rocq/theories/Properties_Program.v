(** Property C81: the command line program, from its arguments to the exit code
    and the files on disk.  Each theorem is followed by a concrete instance of its
    hypotheses. *)
From Coq Require Import Reals String Permutation.
From Verif Require Import P_Program Properties_Cli Properties_Tof Properties_Main.
From Coq Require Import Lia.
Global Open Scope Z_scope.

(** A place to run: one event file, one configuration, everything else possible. *)
Definition pex_json : json :=
  JObject [("tof_imaging", JObject [("super_resolution", JFloat tex_sr);
             ("bin_edges", JArray [JInt 0; JFloat (f_lit 5 1000); JFloat (f_lit 167 10000)])])]%string.
Definition pex_w : outside :=
  Outside (fun s => if String.eqb s "0" then Some 0 else Some 1) (fun _ => f_of_Z 0)
    (fun s => if String.eqb s "good" then Some pex_json else None)
    (fun n => if String.eqb n "c.json" then Text "good" else if String.eqb n "b.json" then Text "bad" else NoFile)
    (fun n => if String.eqb n "in" then Some (stream cex_ds) else None)
    (fun l n => negb (existsb (String.eqb n) l) && negb (String.eqb n "locked"))
    (fun _ => true) (fun _ => true).
Definition pex_d : store := Store (fun n => if String.eqb n "h" then Some [("old"%string, empty_group)] else None) (fun _ => None).
Definition pex_args : list arg := [Ai "in"; AH "h"; AE "e"; Au "c.json"; AT "out"; Am "hit"; At "gdc"]%string.
Lemma pex_exclusive : exclusive pex_w.
Proof.
  intros l n I. cbn [env_creates pex_w]. apply andb_false_iff. left. apply negb_false_iff. apply existsb_exists.
  exists n. split; [exact I|apply String.eqb_refl].
Qed.
(** Exit status, numbers of hits and neutrons in the HDF5 files, counts of the
    spectra; the last column: the old group is gone. *)
Definition pex_show (r : outcome (exit_status * store)) :=
  let! (x, d) := r in
  Ok (x, match d_h5 d "h"%string with Some f => Some (length (col f "hits" "x")) | None => None end,
      match d_h5 d "e"%string with Some f => Some (length (col f "neutrons" "x")) | None => None end,
      match d_files d "Spectra.txt"%string with Some (Spectrum rows) => map snd rows | _ => [] end,
      match d_files d "out/tof_image_Spectra.txt"%string with Some (Spectrum rows) => map snd rows | _ => [] end,
      match d_h5 d "h"%string with Some f => existsb (fun g => String.eqb (fst g) "old") f | None => false end).

(** C81: a run that returns 0 has left, for a well-formed file, the HDF5 files with
    exactly the hits and neutrons of its datasets, and image files and spectra
    that count them; nothing else has changed. *)
Theorem C81_program : forall fuel ext w order args d d' o cfg ds s,
  exclusive w -> (forall p, env_writable w p = true) -> understood w args o -> configured w o cfg ->
  env_input w (o_input o) = Some (stream ds) ->
  Forall dataset_ok ds -> Forall no_false_header ds ->
  0 < o_chunk o -> cuts_at_datasets (o_chunk o) ds -> (length (stream ds) <= fuel)%nat ->
  edges_ok (g_edges cfg) -> side (g_sr cfg) s -> 0 < s ->
  Permutation order (seq 0 (length (g_edges cfg) - 1)) ->
  (forall i, (i < length (g_edges cfg) - 1)%nat ->
     saved (d_files d) (tiff_name (o_tiff o) (o_base o) i) s s \/ unrelated (d_files d) (tiff_name (o_tiff o) (o_base o) i) s s) ->
  program fuel ext w order args d = Ok (Exit 0, d') ->
  exists hss nss s',
    processed (timing_of o) ts0 ds hss s' /\ Forall2 (neutrons_of ext (g_abs cfg)) hss nss /\
    (o_hits o <> ""%string -> exists f, d_h5 d' (o_hits o) = Some f /\
       forall n fld, hit_field n fld -> map Some (col f "hits" n) = map fld (concat hss)) /\
    (o_events o <> ""%string -> exists f, d_h5 d' (o_events o) = Some f /\
       forall n fld, neutron_field n fld -> col f "neutrons" n = map fld (concat nss)) /\
    (forall q, (o_hits o <> ""%string -> q <> o_hits o) -> (o_events o <> ""%string -> q <> o_events o) -> d_h5 d' q = d_h5 d q) /\
    (o_tiff o <> ""%string -> forall i x y u, (i < length (g_edges cfg) - 1)%nat -> 0 <= x < s -> 0 <= y < s ->
       prior (d_files d) (tiff_name (o_tiff o) (o_base o) i) s s x y u ->
       exists k, counted (fun e => lands (g_sr cfg) (g_edges cfg) e i x y) (binned o hss nss) k /\
         disk (d_files d') (tiff_name (o_tiff o) (o_base o) i) x y = Some ((u + k) mod 2 ^ 32)) /\
    (zlen (binned o hss nss) < 2 ^ 32 ->
       (o_tiff o <> ""%string -> exists rows, d_files d' (spectra_name (o_tiff o) (o_base o)) = Some (Spectrum rows) /\
          spectrum_of (g_sr cfg) (g_edges cfg) s (binned o hss nss) rows) /\
       (o_spectra o <> ""%string -> exists rows, d_files d' (o_spectra o ++ ".txt")%string = Some (Spectrum rows) /\
          spectrum_of (g_sr cfg) (g_edges cfg) s (binned o hss nss) rows)) /\
    (forall q, (o_tiff o <> ""%string -> q <> spectra_name (o_tiff o) (o_base o) /\
                  forall i, (i < length (g_edges cfg) - 1)%nat -> q <> tiff_name (o_tiff o) (o_base o) i) ->
               (o_spectra o <> ""%string -> q <> (o_spectra o ++ ".txt")%string) -> d_files d' q = d_files d q).
Proof. exact C81_program_l. Qed.
Print Assumptions C81_program.
Example C81_program_instance : exclusive pex_w /\
  pex_show (program 100 cex_ext pex_w [1%nat; 0%nat] pex_args pex_d) =
  Ok (Exit 0, Some 3%nat, Some 3%nat, [2; 0], [2; 0], false).
Proof. split; [exact pex_exclusive|]. vm_compute. reflexivity. Qed.

(** C81: if the outputs can be created, the images have fewer than 2^30 columns and the
    times are early enough, the program returns 0. *)
Theorem C81_succeeds : forall fuel ext w order args d o cfg ds s,
  (forall p, env_writable w p = true) -> understood w args o -> configured w o cfg ->
  env_input w (o_input o) = Some (stream ds) -> hits_created w o -> events_created w o ->
  (o_tiff o <> ""%string -> env_mkdir w (o_tiff o) = true) ->
  ds <> [] -> Forall dataset_ok ds -> Forall no_false_header ds ->
  0 < o_chunk o -> cuts_at_datasets (o_chunk o) ds -> (length (stream ds) <= fuel)%nat ->
  edges_ok (g_edges cfg) -> side (g_sr cfg) s -> 0 < s < 2 ^ 30 ->
  Permutation order (seq 0 (length (g_edges cfg) - 1)) ->
  (forall i, (i < length (g_edges cfg) - 1)%nat ->
     saved (d_files d) (tiff_name (o_tiff o) (o_base o) i) s s \/ unrelated (d_files d) (tiff_name (o_tiff o) (o_base o) i) s s) ->
  (forall hss s', processed (timing_of o) ts0 ds hss s' ->
     Forall (fun h => (timing_of o = GDC_mode -> h_spider h < 2 ^ 48) /\ (timing_of o = TDC_mode -> h_tof h <> None)) (concat hss)) ->
  exists d', program fuel ext w order args d = Ok (Exit 0, d').
Proof. exact C81_any_l. Qed.
Print Assumptions C81_succeeds.

(** C81: without -u the configuration is the default one, with 1500 equal bins. *)
Theorem C81_default : forall w o,
  o_config o = ""%string -> exists edges,
  configured w o (Config (AbsCfg (f_of_Z 5) 1 75) (f_of_Z 1) edges) /\ edges_ok edges /\
  divides_evenly (f_lit 167 10000) 1500 edges.
Proof. exact C81_default_l. Qed.
Print Assumptions C81_default.
(** The default configuration, images and all, on the two datasets. *)
Example C81_succeeds_instance : exists n d',
  program 100 cex_ext pex_w (seq 0 n) [Ai "in"; AH "h"; AE "e"; AT "out"; Am "hit"; At "gdc"; Ac "1"]%string pex_d = Ok (Exit 0, d').
Proof.
  set (args := [Ai "in"; AH "h"; AE "e"; AT "out"; Am "hit"; At "gdc"; Ac "1"]%string).
  set (o := Options "in" "h" "e" "" "out" "tof_image" "hit" "Spectra" "gdc" 1048576 false false).
  destruct (C81_default_l pex_w o eq_refl) as (edges & C & E & _). exists (length edges - 1)%nat.
  apply (C81_succeeds_l 100 cex_ext pex_w (seq 0 (length edges - 1)) args pex_d o _ cex_ds (fun _ => eq_refl)
    (proj2 (understood_parse pex_w args o) eq_refl) C eq_refl).
  - intros _. reflexivity.
  - intros _. split; [discriminate|reflexivity].
  - intros _. reflexivity.
  - discriminate.
  - exact (proj1 cex_ok).
  - exact (proj2 cex_ok).
  - reflexivity.
  - intros k H. change (zlen (stream cex_ds)) with 72 in H. cbn [o_chunk o] in H. lia.
  - apply Nat.leb_le. reflexivity.
  - exact E.
  - reflexivity.
  - apply Permutation_refl.
  - intros i _. right. intros w h r. discriminate.
  - intros hss s' H. change (timing_of o) with GDC_mode in *.
    destruct (processed_unique _ _ _ _ _ _ _ H (pass_processed GDC_mode cex_ds (proj1 cex_ok) ts0)) as [-> _].
    apply Forall_forall. intros h I. split; [|discriminate]. intros _. apply Z.ltb_lt.
    revert h I. apply forallb_forall. vm_compute. reflexivity.
Qed.

(** C81: a command line that is not understood: 1, nothing touched. *)
Theorem C81_refused : forall fuel ext w order args d,
  (forall o, ~ understood w args o) ->
  program fuel ext w order args d = Ok (Exit 1, d).
Proof. exact C81_refused_l. Qed.
Print Assumptions C81_refused.
Example C81_refused_instance :
  pex_show (program 100 cex_ext pex_w [] [AH "h"; Ai "in"; Am "neutrons"]%string pex_d) = Ok (Exit 1, Some 0%nat, None, [], [], true).
Proof. vm_compute. reflexivity. Qed.

(** C81: a configuration that cannot be read: 1, nothing touched. *)
Theorem C81_no_config : forall fuel ext w order args d o,
  understood w args o ->
  broken_json w o \/ (o_config o <> ""%string /\ ~ json_name (o_config o) /\ env_config w (o_config o) = NoFile) ->
  program fuel ext w order args d = Ok (Exit 1, d).
Proof. exact C81_no_config_l. Qed.
Print Assumptions C81_no_config.
Example C81_no_config_instance :
  pex_show (program 100 cex_ext pex_w [] [AH "h"; Ai "in"; Au "b.json"]%string pex_d) = Ok (Exit 1, Some 0%nat, None, [], [], true) /\
  pex_show (program 100 cex_ext pex_w [] [AH "h"; Ai "in"; Au "b.txt"]%string pex_d) = Ok (Exit 1, Some 0%nat, None, [], [], true).
Proof. split; vm_compute; reflexivity. Qed.

(** C81: no input or an empty one: 1, nothing touched; an HDF5 file of an earlier
    run is not truncated. *)
Theorem C81_no_input : forall fuel ext w order args d o cfg,
  understood w args o -> configured w o cfg -> ~ readable w o ->
  program fuel ext w order args d = Ok (Exit 1, d).
Proof. exact C81_no_input_l. Qed.
Print Assumptions C81_no_input.
Example C81_no_input_instance :
  pex_show (program 100 cex_ext pex_w [] [AH "h"; Ai "inn"]%string pex_d) = Ok (Exit 1, Some 0%nat, None, [], [], true).
Proof. vm_compute. reflexivity. Qed.

(** C81, finding: an HDF5 output that cannot be created does not end the program by
    return 1 but by std::terminate; nothing else does. *)
Theorem C81_terminates : forall fuel ext w order args d o cfg,
  understood w args o -> configured w o cfg -> readable w o ->
  ((exists d', program fuel ext w order args d = Ok (Terminate, d')) <-> ~ (hits_created w o /\ events_created w o)).
Proof. exact C81_terminates_l. Qed.
Print Assumptions C81_terminates.
Example C81_terminates_instance :
  pex_show (program 100 cex_ext pex_w [] [Ai "in"; Au "c.json"; AH "locked"]%string pex_d) = Ok (Terminate, Some 0%nat, None, [], [], true).
Proof. vm_compute. reflexivity. Qed.

(** C81, finding: the same name for -H and -E terminates the program after an
    older file of that name has been truncated. *)
Theorem C81_same_output : forall fuel ext w order args d o cfg,
  exclusive w -> understood w args o -> configured w o cfg -> readable w o ->
  hits_created w o -> o_events o = o_hits o -> o_hits o <> ""%string ->
  exists d', program fuel ext w order args d = Ok (Terminate, d') /\ d_h5 d' (o_hits o) = Some [].
Proof. exact C81_same_output_l. Qed.
Print Assumptions C81_same_output.
Example C81_same_output_instance :
  pex_show (program 100 cex_ext pex_w [] [Ai "in"; Au "c.json"; AH "h"; AE "h"]%string pex_d) = Ok (Terminate, Some 0%nat, None, [], [], false).
Proof. vm_compute. reflexivity. Qed.

(** C81: there are three endings; only return 0 may have written images or spectra;
    HDF5 files not named on the command line are never touched. *)
Theorem C81_endings : forall fuel ext w order args d x d',
  program fuel ext w order args d = Ok (x, d') ->
  (x = Exit 0 \/ x = Exit 1 \/ x = Terminate) /\
  (x <> Exit 0 -> d_files d' = d_files d) /\
  forall o, understood w args o -> forall q, q <> o_hits o -> q <> o_events o -> d_h5 d' q = d_h5 d q.
Proof. exact C81_endings_l. Qed.
Print Assumptions C81_endings.
Example C81_endings_instance :
  pex_show (program 100 cex_ext (Outside (env_stoull pex_w) (env_double pex_w) (env_json pex_w) (env_config pex_w)
    (env_input pex_w) (env_creates pex_w) (fun _ => false) (env_writable pex_w)) [1%nat; 0%nat] pex_args pex_d) =
  Ok (Exit 1, Some 3%nat, Some 3%nat, [], [], false).
Proof. vm_compute. reflexivity. Qed.

(** C81: the program ends for every input, and no exception leaves main but the one
    above. *)
Theorem C81_ends : forall fuel ext w order args d,
  (forall n m, env_input w n = Some m -> (length m <= fuel)%nat) ->
  program fuel ext w order args d <> OutOfFuel /\ forall k, program fuel ext w order args d <> Throw k.
Proof. exact C81_ends_l. Qed.
Print Assumptions C81_ends.

(** C81, finding: with -c 0 (or 2^44 mebibytes) the program returns 0 with empty
    HDF5 files. *)
Theorem C81_zero_chunk : forall fuel ext w order args s n d d' o cfg,
  exclusive w ->
  env_stoull w s = Some n -> (n * 2 ^ 20) mod 2 ^ 64 = 0 ->
  understood w (args ++ [Ac s]) o -> configured w o cfg ->
  program fuel ext w order (args ++ [Ac s]) d = Ok (Exit 0, d') ->
  (o_hits o <> ""%string -> d_h5 d' (o_hits o) = Some []) /\ (o_events o <> ""%string -> d_h5 d' (o_events o) = Some []).
Proof. exact C81_zero_chunk_l. Qed.
Print Assumptions C81_zero_chunk.

(** C81, finding: return 0 does not mean that the input has been processed. *)
Theorem C81_exit_zero_is_complete_refuted : exists fuel ext w order args d o cfg d' hss s',
  exclusive w /\ understood w args o /\ configured w o cfg /\ env_input w (o_input o) = Some (stream cex_ds) /\
  program fuel ext w order args d = Ok (Exit 0, d') /\ d_h5 d' (o_hits o) = Some [] /\
  processed (timing_of o) ts0 cex_ds hss s' /\ concat hss <> [].
Proof.
  set (args := [Ai "in"; AH "h"; As ""]%string ++ [Ac "0"%string]).
  set (o := Options "in" "h" "" "" "" "tof_image" "neutron" "" "tdc" 0 false false).
  assert (U : understood pex_w args o) by (apply understood_parse; reflexivity).
  destruct (C81_default_l pex_w o eq_refl) as (edges & C & _).
  assert (P : exists d', program 100 cex_ext pex_w [] args pex_d = Ok (Exit 0, d')).
  { assert (E : (let! (x, _) := program 100 cex_ext pex_w [] args pex_d in Ok x) = Ok (Exit 0)) by (vm_compute; reflexivity).
    destruct (program 100 cex_ext pex_w [] args pex_d) as [[x d']|k|u|]; try discriminate E. exists d'. apply Ok_inj in E.
    rewrite <- E. reflexivity. }
  destruct P as (d' & P). exists 100%nat, cex_ext, pex_w, [], args, pex_d, o, (Config (AbsCfg (f_of_Z 5) 1 75) (f_of_Z 1) edges), d'.
  exists (fst (pass TDC_mode (map ds_item cex_ds) ts0)), (snd (pass TDC_mode (map ds_item cex_ds) ts0)).
  split; [exact pex_exclusive|]. split; [exact U|]. split; [exact C|]. split; [reflexivity|]. split; [exact P|].
  split; [|split; [apply pass_processed; exact (proj1 cex_ok)|]].
  - apply (C81_zero_chunk_l 100 cex_ext pex_w [] [Ai "in"; AH "h"; As ""]%string "0" 0 pex_d d' o _ pex_exclusive eq_refl eq_refl U C P).
    discriminate.
  - assert (L : length (concat (fst (pass TDC_mode (map ds_item cex_ds) ts0))) = 3%nat) by (vm_compute; reflexivity).
    intros Z. rewrite Z in L. discriminate L.
Qed.
Print Assumptions C81_exit_zero_is_complete_refuted.

(** C81: without -s a spectrum is written to Spectra.txt in the current directory. *)
Theorem C81_spectra : forall fuel ext w order args d d' o cfg,
  exclusive w -> understood w args o -> configured w o cfg ->
  (forall s, ~ In (As s) args) -> env_writable w "Spectra.txt" = true ->
  program fuel ext w order args d = Ok (Exit 0, d') -> exists rows, d_files d' "Spectra.txt"%string = Some (Spectrum rows).
Proof. exact C81_spectra_l. Qed.
Print Assumptions C81_spectra.

