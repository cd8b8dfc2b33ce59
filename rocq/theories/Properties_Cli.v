(** Properties C34, C35, C47 and C48: the command line program.  Each theorem is
    followed by a concrete instance of its hypotheses. *)
From Coq Require Import Reals.
From Verif Require Import P_CliRun Properties_Tpx3.
Global Open Scope Z_scope.

(** * Concrete data used by the instances *)

Definition cex_ext : externals := Ext (fun v => v) (fun _ _ => (f_of_Z 0, f_of_Z 0)).
Definition cex_cfg : config :=
  Config (AbsCfg (f_of_Z 5) 1 75) (f_of_Z 1) [f_of_Z 0; f_lit 5 1000; f_lit 167 10000].
Definition cex_st : cli := Cli ts0 (Some []) (Some []) None 0 0.
Definition cex_ds : list dataset := [ex_ds1; ex_ds2].
Definition counts (o : outcome cli) : outcome (Z * Z) :=
  let! st := o in Ok (c_nhits st, c_nneutrons st).

Lemma cex_ok : Forall dataset_ok cex_ds /\ Forall no_false_header cex_ds.
Proof.
  destruct ex_ds1_ok, ex_ds2_ok. split; (apply Forall_cons; [|apply Forall_cons; [|apply Forall_nil]]); assumption.
Qed.
Lemma cex_cuts : cuts_at_datasets 48 cex_ds.
Proof.
  intros k H. change (zlen (stream cex_ds)) with 72 in H. exists 1%nat.
  assert (k = 1) as -> by lia. reflexivity.
Qed.

(** * C34: reading in chunks *)

(** C34: the i-th read returns the i-th piece, so the reads deliver the file from
    the start without gaps, and end of file is reported when all is delivered. *)
Theorem C34_reads : forall m size, m <> [] -> 0 < size ->
  exists r0, open_reader (Some m) = Ok r0 /\
  forall n, exists cs r, reads n size r0 = (cs, r) /\
    cs = map (slice m size) (seq 0 n) /\
    concat cs = firstn (Z.to_nat (Z.of_nat n * size)) m /\
    (is_eof r = true <-> zlen m <= Z.of_nat n * size).
Proof. exact C34_l. Qed.
Print Assumptions C34_reads.
Example C34_reads_instance :
  fst (reads 4 3 (Reader [1; 2; 3; 4; 5; 6; 7] 0)) = [[1; 2; 3]; [4; 5; 6]; [7]; []].
Proof. vm_compute. reflexivity. Qed.

(** C34: reading until end of file gives the whole file, in non-empty chunks that
    have the full size except for the last. *)
Theorem C34_whole_file : forall m size, m <> [] -> 0 < size ->
  exists r0 n cs r, open_reader (Some m) = Ok r0 /\ reads n size r0 = (cs, r) /\
    concat cs = m /\ is_eof r = true /\ Forall (fun c => c <> []) cs /\
    (forall i c, nth_error cs i = Some c -> (S i < n)%nat -> zlen c = size) /\
    (forall k, (k < n)%nat -> is_eof (snd (reads k size r0)) = false).
Proof. exact C34_whole_l. Qed.
Print Assumptions C34_whole_file.
Example C34_whole_file_instance : exists r,
  reads 3 3 (Reader [1; 2; 3; 4; 5; 6; 7] 0) = ([[1; 2; 3]; [4; 5; 6]; [7]], r) /\ is_eof r = true.
Proof. eexists. split; [vm_compute; reflexivity|]. vm_compute. reflexivity. Qed.

(** C34: the number of reads is the size divided by the chunk size, rounded up. *)
Theorem C34_number_of_reads : forall m size, m <> [] -> 0 < size ->
  exists r0, open_reader (Some m) = Ok r0 /\
  forall n, is_eof (snd (reads n size r0)) = true <-> (zlen m + size - 1) / size <= Z.of_nat n.
Proof. exact C34_count_l. Qed.
Print Assumptions C34_number_of_reads.
Example C34_number_of_reads_instance :
  map (fun n => is_eof (snd (reads n 3 (Reader [1; 2; 3; 4; 5; 6] 0)))) [0; 1; 2; 3]%nat =
  [false; false; true; true].
Proof. vm_compute. reflexivity. Qed.

(** C34: a file that is empty or cannot be opened is refused. *)
Theorem C34_no_data : open_reader (Some []) = Throw RuntimeError /\ open_reader None = Throw RuntimeError.
Proof. exact C34_empty_l. Qed.
Print Assumptions C34_no_data.

(** Finding: a size given with -c that is zero modulo 2^64 bytes (such as 0 or
    2^44 mebibytes) is accepted and nothing of the file is processed. *)
Theorem C34_zero_chunk_size : forall stoull args s n,
  stoull s = Some n -> (n * 2 ^ 20) mod 2 ^ 64 = 0 ->
  forall o, parse_arguments stoull (args ++ [Ac s]) = Ok o ->
  o_chunk o = 0 /\ forall fuel ext cfg md hm r st,
    chunk_loop (S fuel) ext cfg md hm (o_chunk o) r st = Ok st.
Proof. exact C34_zero_mega_l. Qed.
Print Assumptions C34_zero_chunk_size.
Example C34_zero_chunk_size_instance :
  (2 ^ 44 * 2 ^ 20) mod 2 ^ 64 = 0 /\
  exists o, parse_arguments (fun _ => Some (2 ^ 44)) ([Ai "a.tpx3"] ++ [Ac "17592186044416"]) = Ok o /\
    counts (chunk_loop 100 cex_ext cex_cfg GDC_mode true (o_chunk o) (Reader ex_stream 0) cex_st) = Ok (0, 0).
Proof. split; [reflexivity|]. eexists. split; [vm_compute; reflexivity|]. vm_compute. reflexivity. Qed.

(** * C35: processing in chunks *)

(** C35: if every chunk boundary is the start of a dataset, processing in chunks
    is processing the whole file at once. *)
Theorem C35_cut_at_datasets : forall ext cfg md hm size ds fuel st st',
  Forall dataset_ok ds -> Forall no_false_header ds ->
  0 < size -> cuts_at_datasets size ds -> (length (stream ds) <= fuel)%nat ->
  (chunk_loop fuel ext cfg md hm size (Reader (stream ds) 0) st = Ok st' <->
   run_chunk ext cfg md hm st (stream ds) = Ok (st', None)).
Proof. exact loop_run. Qed.
Print Assumptions C35_cut_at_datasets.
Example C35_cut_at_datasets_instance :
  Forall dataset_ok cex_ds /\ Forall no_false_header cex_ds /\ cuts_at_datasets 48 cex_ds /\
  counts (chunk_loop 100 cex_ext cex_cfg GDC_mode true 48 (Reader (stream cex_ds) 0) cex_st) = Ok (3, 3) /\
  counts (let! (st, _) := run_chunk cex_ext cex_cfg GDC_mode true cex_st (stream cex_ds) in Ok st) = Ok (3, 3).
Proof.
  destruct cex_ok. split; [assumption|]. split; [assumption|]. split; [exact cex_cuts|].
  split; vm_compute; reflexivity.
Qed.

(** C35: so two such chunk sizes give the same result. *)
Theorem C35_any_two_sizes : forall ext cfg md hm ds size size' fuel st st',
  Forall dataset_ok ds -> Forall no_false_header ds -> (length (stream ds) <= fuel)%nat ->
  0 < size -> cuts_at_datasets size ds -> 0 < size' -> cuts_at_datasets size' ds ->
  (chunk_loop fuel ext cfg md hm size (Reader (stream ds) 0) st = Ok st' <->
   chunk_loop fuel ext cfg md hm size' (Reader (stream ds) 0) st = Ok st').
Proof. exact C35_two_l. Qed.
Print Assumptions C35_any_two_sizes.
Example C35_any_two_sizes_instance : cuts_at_datasets 48 cex_ds /\ cuts_at_datasets 1000 cex_ds /\
  counts (chunk_loop 100 cex_ext cex_cfg GDC_mode true 1000 (Reader (stream cex_ds) 0) cex_st) = Ok (3, 3).
Proof.
  split; [exact cex_cuts|]. split; [|vm_compute; reflexivity].
  intros k H. change (zlen (stream cex_ds)) with 72 in H. lia.
Qed.

(** C35: the same for arbitrary bytes, if no declared payload crosses a boundary. *)
Theorem C35_any_bytes : forall ext cfg md hm size m fuel st st',
  bytes_ok m -> 0 < size -> size mod 8 = 0 -> boundaries_clean size m -> (length m <= fuel)%nat ->
  (chunk_loop fuel ext cfg md hm size (Reader m 0) st = Ok st' <->
   run_chunk ext cfg md hm st m = Ok (st', None)).
Proof. exact C35_any_bytes_l. Qed.
Print Assumptions C35_any_bytes.
Example C35_any_bytes_instance : bytes_ok ex_stream /\ boundaries_clean 48 ex_stream /\ 48 mod 8 = 0.
Proof.
  split; [exact ex_stream_ok|]. split; [|reflexivity].
  destruct cex_ok. apply (cuts_clean 48 cex_ds); [assumption|assumption|lia|exact cex_cuts].
Qed.

(** C35: otherwise the packets of the cut dataset behind the boundary are lost: the
    result is that of a stream in which this dataset has only its first [k]
    packets. *)
Theorem C35_cut_inside_dataset : forall ext cfg md hm ds1 d ds2 k fuel st st',
  let m := stream (ds1 ++ d :: ds2) in
  let size := zlen (stream ds1) + 8 + 8 * Z.of_nat k in
  Forall dataset_ok (ds1 ++ d :: ds2) -> Forall no_false_header (ds1 ++ d :: ds2) ->
  (k <= length (d_payload d))%nat -> (length m <= fuel)%nat ->
  boundaries_clean size (skipn (Z.to_nat size) m) ->
  (chunk_loop fuel ext cfg md hm size (Reader m 0) st = Ok st' <->
   run_chunk ext cfg md hm st (stream (ds1 ++ shorten k d :: ds2)) = Ok (st', None)).
Proof. exact C35_cut_l. Qed.
Print Assumptions C35_cut_inside_dataset.
(** The second dataset loses one of its two hits. *)
Example C35_cut_inside_dataset_instance :
  boundaries_clean 64 (skipn (Z.to_nat 64) (stream ([ex_ds1] ++ ex_ds2 :: []))) /\
  64 = zlen (stream [ex_ds1]) + 8 + 8 * Z.of_nat 1 /\
  counts (chunk_loop 100 cex_ext cex_cfg GDC_mode true 64 (Reader (stream ([ex_ds1] ++ ex_ds2 :: [])) 0) cex_st) = Ok (2, 2).
Proof.
  split; [|split; vm_compute; reflexivity].
  intros off p k (_ & (pre & post & _ & L) & _) B.
  change (zlen (skipn (Z.to_nat 64) (stream ([ex_ds1] ++ ex_ds2 :: [])))) with 8 in B.
  unfold zlen in L. lia.
Qed.

(** C35: no exception is caught while a chunk is processed. *)
Theorem C35_nothing_caught : forall ext cfg md hm st m st' e, bytes_ok m ->
  run_chunk ext cfg md hm st m = Ok (st', e) -> e = None.
Proof. exact C35_never_caught_l. Qed.
Print Assumptions C35_nothing_caught.
Example C35_nothing_caught_instance : bytes_ok ex_stream /\
  (let! (st, e) := run_chunk cex_ext cex_cfg TDC_mode true cex_st ex_stream in
   Ok (c_nhits st, e)) = Ok (3, None).
Proof. split; [exact ex_stream_ok|]. vm_compute. reflexivity. Qed.

(** * C47: the result of a run *)

(** C47: the hits are the decoded pixel packets of all datasets in order; the
    neutrons are those of each dataset clustered on its own; files get exactly
    these appended, images count exactly these, and so do the counters. *)
Theorem C47_result : forall ext cfg md hm size fuel ds st0 st,
  Forall dataset_ok ds -> Forall no_false_header ds ->
  0 < size -> cuts_at_datasets size ds -> (length (stream ds) <= fuel)%nat ->
  chunk_loop fuel ext cfg md hm size (Reader (stream ds) 0) st0 = Ok st ->
  exists hss nss,
    processed md (c_ts st0) ds hss (c_ts st) /\
    Forall2 (neutrons_of ext (g_abs cfg)) hss nss /\
    (c_hits st0 = None -> c_hits st = None) /\
    (forall f, c_hits st0 = Some f -> exists f', c_hits st = Some f' /\
       forall n fld, hit_field n fld ->
         map Some (col f' "hits" n) = map Some (col f "hits" n) ++ map fld (concat hss)) /\
    (c_events st0 = None -> c_events st = None) /\
    (forall f, c_events st0 = Some f -> exists f', c_events st = Some f' /\
       forall n fld, neutron_field n fld ->
         col f' "neutrons" n = col f "neutrons" n ++ map fld (concat nss)) /\
    (c_images st0 = None -> c_images st = None) /\
    (forall ims d, c_images st0 = Some ims -> edges_ok (g_edges cfg) -> side (g_sr cfg) d ->
       shape (length (g_edges cfg) - 1) d ims ->
       exists ims', c_images st = Some ims' /\ shape (length (g_edges cfg) - 1) d ims' /\
       forall i x y v, pixel ims i x y = Some v ->
       exists k, counted (fun e => lands (g_sr cfg) (g_edges cfg) e i x y)
                   (if hm then map entry_of_hit (concat hss) else map entry_of_neutron (concat nss)) k /\
                 pixel ims' i x y = Some ((v + k) mod 2 ^ 32)) /\
    (0 <= c_nhits st0 < 2 ^ 64 -> c_nhits st = (c_nhits st0 + zlen (concat hss)) mod 2 ^ 64) /\
    (0 <= c_nneutrons st0 < 2 ^ 64 ->
       c_nneutrons st = (c_nneutrons st0 + zlen (concat nss)) mod 2 ^ 64).
Proof. exact C47_result_l. Qed.
Print Assumptions C47_result.

(** C47: the result is determined: the hits are unique. *)
Theorem C47_hits_unique : forall md ds s hss s' hss' s'',
  processed md s ds hss s' -> processed md s ds hss' s'' -> hss = hss' /\ s' = s''.
Proof. exact processed_unique. Qed.
Print Assumptions C47_hits_unique.

(** C47: with images of fewer than 2^30 columns the run succeeds if, in GDC mode, no time is
    beyond 48 bits and, in TDC mode, no hit is before its TDC. *)
Theorem C47_succeeds : forall ext cfg md hm size fuel ds st0 s,
  Forall dataset_ok ds -> Forall no_false_header ds ->
  0 < size -> cuts_at_datasets size ds -> (length (stream ds) <= fuel)%nat ->
  side (g_sr cfg) s -> 0 < s < 2 ^ 30 -> (2 <= length (g_edges cfg))%nat ->
  (forall ims, c_images st0 = Some ims -> exists n, shape n s ims) ->
  (forall hss s', processed md (c_ts st0) ds hss s' ->
     Forall (fun h => (md = GDC_mode -> h_spider h < 2 ^ 48) /\ (md = TDC_mode -> h_tof h <> None)) (concat hss)) ->
  exists st, chunk_loop fuel ext cfg md hm size (Reader (stream ds) 0) st0 = Ok st.
Proof. exact C47_succeeds_l. Qed.
Print Assumptions C47_succeeds.
Example C47_instance :
  (let! st := chunk_loop 100 cex_ext cex_cfg GDC_mode true 48 (Reader (stream cex_ds) 0) cex_st in
   Ok (match c_hits st with Some f => map f_to_i32 (col f "hits" "x") | None => [] end,
       match c_events st with Some f => map f_to_i32 (col f "neutrons" "y") | None => [] end,
       c_nhits st, c_nneutrons st)) =
  Ok ([Some 360; Some 252; Some 155], [Some 200; Some 511; Some 315], 3, 3).
Proof. vm_compute. reflexivity. Qed.
Example C47_succeeds_instance :
  g_sr cex_cfg = f_of_Z 1 /\ length (g_edges cex_cfg) = 3%nat /\
  forall hss s', processed GDC_mode (c_ts cex_st) cex_ds hss s' ->
     Forall (fun h => (GDC_mode = GDC_mode -> h_spider h < 2 ^ 48) /\
                      (GDC_mode = TDC_mode -> h_tof h <> None)) (concat hss).
Proof.
  split; [reflexivity|]. split; [reflexivity|]. intros hss s' H.
  destruct (processed_unique _ _ _ _ _ _ _ H (pass_processed GDC_mode cex_ds (proj1 cex_ok) (c_ts cex_st))) as [-> _].
  apply Forall_forall. intros h I. split; [|discriminate]. intros _. apply Z.ltb_lt.
  revert h I. apply forallb_forall. vm_compute. reflexivity.
Qed.

(** Finding: in GDC mode a hit more than a second ahead of a global time below
    2^30 gets a time near 2^64 (C03), and clustering then converts a double that
    does not fit to an integer, which is undefined. *)
Theorem C47_early_run_undefined : exists d, dataset_ok d /\ no_false_header d /\
  run_chunk cex_ext cex_cfg GDC_mode true cex_st (stream [d]) = UB BadConversion.
Proof.
  exists (DS 51 0 0 [ex_lsb; word_packet (0x45 * 2 ^ 56); ex_tdc; pixel_packet (PF 11 100 200 5234 77 5 6000)]).
  split; [|split; [|vm_compute; reflexivity]].
  - repeat (apply conj); try (vm_compute; intuition discriminate).
    repeat constructor; vm_compute; intuition discriminate.
  - repeat constructor; vm_compute; intuition discriminate.
Qed.
Print Assumptions C47_early_run_undefined.

(** Finding: in TDC mode a pixel packet just before its TDC leaves the time of
    flight uninitialised, and it is read. *)
Theorem C47_hit_before_tdc_undefined : exists d, dataset_ok d /\ no_false_header d /\
  run_chunk cex_ext cex_cfg TDC_mode true cex_st (stream [d]) = UB Uninitialised.
Proof.
  exists (DS 51 0 0 [ex_tdc; pixel_packet (PF 11 100 200 100 77 5 0)]).
  split; [|split; [|vm_compute; reflexivity]].
  - repeat (apply conj); try (vm_compute; intuition discriminate).
    repeat constructor; vm_compute; intuition discriminate.
  - repeat constructor; vm_compute; intuition discriminate.
Qed.
Print Assumptions C47_hit_before_tdc_undefined.

(** * C48: the command line *)

(** C48: every option has the last value given for it, or its default; the
    command line is accepted exactly if it has no bad option, every chunk size
    is a number, there is an input, and mode and timing are known. *)
Theorem C48_options : forall stoull args o, parse_arguments stoull args = Ok o <->
  acceptable stoull args /\ read_options stoull args o /\ valid_options o.
Proof. exact C48_l. Qed.
Print Assumptions C48_options.
Example C48_options_instance :
  (let! o := parse_arguments (fun _ => Some 64) [Ai "a"; Am "hit"; Ai "b"; Ac "64"; At "gdc"; Am "neutron"] in
   Ok (o_input o, o_mode o, o_timing o, o_chunk o, o_spectra o)) =
  Ok ("b", "neutron", "gdc", 67108864, "Spectra")%string.
Proof. vm_compute. reflexivity. Qed.

(** C48: anything else ends in an exception. *)
Theorem C48_rejected : forall stoull args, (forall o, parse_arguments stoull args <> Ok o) ->
  exists e, parse_arguments stoull args = Throw e.
Proof. exact C48_rejects_l. Qed.
Print Assumptions C48_rejected.
Example C48_rejected_instance :
  parse_arguments (fun _ => None) [Ai "a"; Am "Hit"] = Throw RuntimeError /\
  parse_arguments (fun _ => None) [Ai "a"; Ac "x"] = Throw ExternalError.
Proof. split; reflexivity. Qed.
