(** Property C105: the minimum cluster size only leaves out small events.  Each
    theorem is followed by a concrete instance of its hypotheses. *)
From Coq Require Import Reals String Permutation.
From Verif Require Import P_Program S_Measure S_MinSize P_MinSize.
From Verif Require Import Properties_Tpx3 Properties_Abs Properties_Cli Properties_Program Properties_Measure Properties_Events
  Properties_Motion Properties_Append.
From Coq Require Import Lia.
Local Open Scope string_scope.
Local Open Scope Z_scope.
Local Open Scope list_scope.

(** * Concrete data used by the instances *)

(** A configuration file that sets the minimum size, two, and nothing else. *)
Definition sz_json : json := JObject [("abs", JObject [("min_cluster_size", JInt 2)])].
Definition sz_w : outside :=
  Outside (env_stoull pex_w) (env_double pex_w) (fun _ => Some sz_json) (env_config pex_w)
    (env_input eex_w) (env_creates pex_w) (env_mkdir pex_w) (env_writable pex_w).
Definition sz_o : options := Options "in" "h" "e" "c.json" "out" "tof_image" "hit" "Spectra" "gdc" 1048576 false false.
Definition sz_args : list arg := [Ai "in"; AH "h"; AE "e"; Au "c.json"; AT "out"; Am "hit"; At "gdc"; Ac "1"].
Lemma sz_configured edges : default_edges (f_lit 167 10000) edges ->
  configured sz_w sz_o (Config (AbsCfg (f_of_Z 5) 2 75) (f_of_Z 1) edges).
Proof.
  intros H. unfold configured.
  destruct (P_Load.C52_l (env_double sz_w) (env_json sz_w) (o_config sz_o) (env_config sz_w (o_config sz_o))) as (_ & _ & J & _ & K).
  apply J.
  { exists "", "c". split; [reflexivity|]. split; [discriminate|]. split; [repeat constructor; discriminate|left; reflexivity]. }
  apply K. exists "good", sz_json. split; [reflexivity|]. split; [reflexivity|]. unfold json_config.
  change (json_binning sz_json) with (Ok (Binning (Some 1500) (Some default_max) [])).
  change (json_value ["abs"; "radius"] get_double (f_of_Z 5) sz_json) with (Ok (f_of_Z 5)).
  change (json_value ["abs"; "min_cluster_size"] get_ulong 1 sz_json) with (Ok 2).
  change (json_value ["abs"; "spider_time_range"] get_ulong 75 sz_json) with (Ok 75).
  change (json_value ["tof_imaging"; "super_resolution"] get_double (f_of_Z 1) sz_json) with (Ok (f_of_Z 1)).
  cbn [obind]. change default_max with (f_lit 167 10000). unfold default_edges in H. rewrite H. reflexivity.
Qed.
(** The edges are those of a run without a configuration file. *)
Lemma sz_edges ds edges : configured (mo_w ds) mo_o (Config (AbsCfg (f_of_Z 5) 1 75) (f_of_Z 1) edges) ->
  default_edges (f_lit 167 10000) edges.
Proof.
  intros C. destruct (P_Load.C52_l (env_double (mo_w ds)) (env_json (mo_w ds)) "" (env_config (mo_w ds) "")) as (A & _).
  destruct (A eq_refl) as (edges' & D & E & _). unfold configured in C. change (o_config mo_o) with "" in C. rewrite E in C.
  apply P_AbsProps.Ok_inj in C. assert (Q : edges' = edges) by congruence. subst edges'. exact D.
Qed.

(** * C105 *)

(** ABS: a larger minimum size leaves the labels alone and drops exactly the
    neutrons of fewer hits, whatever the method of the fit. *)
Theorem C105_filter : forall n ext cfg cfg' mt o data q evs, but_for_size cfg cfg' -> a_min cfg <= a_min cfg' ->
  abs_fit n cfg o data = Ok q -> abs_get_events ext cfg (abs_set_method q mt) data = Ok evs ->
  abs_fit n cfg' o data = Ok q /\ abs_get_events ext cfg' (abs_set_method q mt) data = Ok (at_least (a_min cfg') evs).
Proof. exact C105_filter_l. Qed.
Print Assumptions C105_filter.

(** Clusters of 2, 2, 1 and 1 hits; two of them remain. *)
Example C105_filter_instance : exists q evs,
  abs_fit 8 ex_cfg abs_new ex_hits = Ok q /\ abs_get_events ex_ext ex_cfg (abs_set_method q MCentroid) ex_hits = Ok evs /\
  map n_hits evs = [2; 2; 1; 1] /\
  abs_get_events ex_ext (AbsCfg (f_of_Z 5) 2 75) (abs_set_method q MCentroid) ex_hits = Ok (at_least 2 evs) /\
  map n_hits (at_least 2 evs) = [2; 2].
Proof.
  assert (V : (let! q := abs_fit 8 ex_cfg abs_new ex_hits in
               let! evs := abs_get_events ex_ext ex_cfg (abs_set_method q MCentroid) ex_hits in Ok (map n_hits evs)) = Ok [2; 2; 1; 1])
    by (vm_compute; reflexivity).
  destruct (abs_fit 8 ex_cfg abs_new ex_hits) as [q| | |] eqn:F; try discriminate V. cbn [obind] in V.
  destruct (abs_get_events ex_ext ex_cfg (abs_set_method q MCentroid) ex_hits) as [evs| | |] eqn:G; try discriminate V. cbn [obind] in V.
  apply P_AbsProps.Ok_inj in V. exists q, evs. split; [reflexivity|]. split; [exact G|]. split; [exact V|].
  destruct (C105_filter 8 ex_ext ex_cfg (AbsCfg (f_of_Z 5) 2 75) MCentroid abs_new ex_hits q evs
    (conj eq_refl eq_refl) ltac:(cbn; lia) F G) as [_ G'].
  split; [exact G'|]. destruct evs as [|e1 [|e2 [|e3 [|e4 [|]]]]]; try discriminate V. cbn [map] in V.
  injection V as V1 V2 V3 V4. unfold at_least. cbn [filter]. rewrite V1, V2, V3, V4. cbn [Z.leb Z.compare Pos.compare Pos.compare_cont map].
  rewrite V1, V2. reflexivity.
Qed.

(** Two completed runs of the program on the same recording whose settings differ in
    the minimum size: the same hits; the events are those of the first run that are
    large enough; and images of neutrons count those. *)
Theorem C105_program : forall ext o o' cfg cfg' ds s d d1 d' d1',
  completed ext o cfg ds s d d1 -> completed ext o' cfg' ds s d' d1' -> timing_of o' = timing_of o ->
  but_for_size (g_abs cfg) (g_abs cfg') -> a_min (g_abs cfg) <= a_min (g_abs cfg') ->
  (o_hits o <> "" -> o_hits o' <> "" -> exists f f', d_h5 d1 (o_hits o) = Some f /\ d_h5 d1' (o_hits o') = Some f' /\
     forall n fld, hit_field n fld -> col f' "hits" n = col f "hits" n) /\
  exists ns,
    (o_events o <> "" -> exists f, d_h5 d1 (o_events o) = Some f /\
       forall n fld, neutron_field n fld -> col f "neutrons" n = map fld ns) /\
    (o_events o' <> "" -> exists f, d_h5 d1' (o_events o') = Some f /\
       forall n fld, neutron_field n fld -> col f "neutrons" n = map fld (at_least (a_min (g_abs cfg')) ns)) /\
    (o_tiff o' <> "" -> o_mode o' <> "hit" -> forall i x y u, (i < length (g_edges cfg') - 1)%nat ->
       0 <= x < s -> 0 <= y < s -> prior (d_files d') (tiff_name (o_tiff o') (o_base o') i) s s x y u ->
       exists k, counted (fun e => lands (g_sr cfg') (g_edges cfg') e i x y) (map entry_of_neutron (at_least (a_min (g_abs cfg')) ns)) k /\
         disk (d_files d1') (tiff_name (o_tiff o') (o_base o') i) x y = Some ((u + k) mod 2 ^ 32)).
Proof. exact C105_program_l. Qed.
Print Assumptions C105_program.

(** A run with the default of one and images of hits; a run with a minimum size of
    two and images of neutrons. *)
Definition sz_on : options := Options "in" "h" "e" "c.json" "out" "tof_image" "neutron" "Spectra" "gdc" 1048576 false false.
Definition sz_nargs : list arg := [Ai "in"; AH "h"; AE "e"; Au "c.json"; AT "out"; Am "neutron"; At "gdc"; Ac "1"].
Lemma sz_completed edges : default_edges (f_lit 167 10000) edges -> edges_ok edges ->
  exists d', completed cex_ext sz_on (Config (AbsCfg (f_of_Z 5) 2 75) (f_of_Z 1) edges) (map dataset_of hex) 517 pex_d d'.
Proof.
  intros D E. pose proof (sz_configured edges D) as C. set (ds := map dataset_of hex). destruct eex_recording as (k & O & R).
  assert (U : understood sz_w sz_nargs sz_on) by (apply P_Program.understood_parse; reflexivity).
  assert (Cu : cuts_at_datasets (o_chunk sz_on) ds).
  { intros j H. change (zlen (stream ds)) with 80 in H. cbn [o_chunk sz_on] in H. lia. }
  assert (Lf : (length (stream ds) <= 300)%nat) by (apply Nat.leb_le; vm_compute; reflexivity).
  assert (N : Forall no_false_header ds) by (repeat constructor; vm_compute; intuition discriminate).
  assert (Un : forall i, (i < length edges - 1)%nat ->
    saved (d_files pex_d) (tiff_name (o_tiff sz_on) (o_base sz_on) i) 517 517 \/ unrelated (d_files pex_d) (tiff_name (o_tiff sz_on) (o_base sz_on) i) 517 517).
  { intros i _. right. intros w h r. discriminate. }
  destruct (P_Program.C81_succeeds_l 300 cex_ext sz_w (seq 0 (length edges - 1)) sz_nargs pex_d sz_on _ ds (fun _ => eq_refl) U C eq_refl)
    as (d' & P); try assumption.
  - intros _. reflexivity.
  - intros _. split; [discriminate|reflexivity].
  - intros _. reflexivity.
  - discriminate.
  - reflexivity.
  - reflexivity.
  - apply Permutation_refl.
  - intros hss' s' Q. change (timing_of sz_on) with GDC_mode in *.
    destruct (P_Measure.C90_gdc_l ds _ k O R) as (s2 & Q2). destruct (P_CliRun.processed_unique _ _ _ _ _ _ _ Q2 Q) as [<- _].
    eapply Forall_impl; [|apply (P_EventsProgram.recording_bounds _ _ _ _ R); discriminate].
    intros h Hh. split; [intros _; exact Hh|discriminate].
  - exists d', 300%nat, sz_w, (seq 0 (length edges - 1)), sz_nargs. split; [exact pex_exclusive|]. split; [intros p; reflexivity|].
    split; [exact U|]. split; [exact C|]. split; [reflexivity|]. split; [exact O|]. split; [exact N|]. split; [reflexivity|].
    split; [exact Cu|]. split; [exact Lf|]. split; [exact E|]. split; [apply P_Tof.side_one|]. split; [reflexivity|].
    split; [apply Permutation_refl|]. split; [exact Un|exact P].
Qed.
Example C105_program_instance : exists edges d1 d1' ns f f',
  completed cex_ext mo_o (Config (AbsCfg (f_of_Z 5) 1 75) (f_of_Z 1) edges) (map dataset_of hex) 517 pex_d d1 /\
  completed cex_ext sz_on (Config (AbsCfg (f_of_Z 5) 2 75) (f_of_Z 1) edges) (map dataset_of hex) 517 pex_d d1' /\
  d_h5 d1 "e" = Some f /\ d_h5 d1' "e" = Some f' /\
  col f "neutrons" "x" = map n_x ns /\ col f' "neutrons" "x" = map n_x (at_least 2 ns) /\
  forall i x y, (i < length edges - 1)%nat -> 0 <= x < 517 -> 0 <= y < 517 ->
    exists n, counted (fun e => lands (f_of_Z 1) edges e i x y) (map entry_of_neutron (at_least 2 ns)) n /\
      disk (d_files d1') (tiff_name "out" "tof_image" i) x y = Some ((0 + n) mod 2 ^ 32).
Proof.
  destruct (P_Program.C81_default_l (mo_w (map dataset_of hex)) mo_o eq_refl) as (edges & C & E & _).
  destruct eex_recording as (k & O & R).
  destruct (mo_completed (map dataset_of hex) (map x_hits eex) k edges C E ltac:(discriminate) O) as (d1 & P1); [|reflexivity|exact R|].
  { repeat constructor; vm_compute; intuition discriminate. }
  destruct (sz_completed edges (sz_edges _ edges C) E) as (d1' & P2).
  destruct (C105_program cex_ext mo_o sz_on _ _ _ 517 pex_d d1 pex_d d1' P1 P2 eq_refl (conj eq_refl eq_refl) ltac:(cbn; lia))
    as (_ & ns & A & B & I).
  destruct (A ltac:(discriminate)) as (f & F & K). destruct (B ltac:(discriminate)) as (f' & F' & K').
  exists edges, d1, d1', ns, f, f'. split; [exact P1|]. split; [exact P2|]. split; [exact F|]. split; [exact F'|].
  split; [exact (K _ _ NF_x)|]. split; [exact (K' _ _ NF_x)|].
  intros i x y Hi Hx Hy. apply (I ltac:(discriminate) ltac:(discriminate) i x y 0 Hi Hx Hy).
  apply prior_none. intros w h r. discriminate.
Qed.

(** The hits of isolated events, whatever the minimum size: one neutron for each
    event with enough hits, close to it in place and time of flight. *)
Theorem C105_neutrons : forall ext cfg a w r ds xs k, Forall dataset_ok ds ->
  recording around true nothing_known ds (map x_hits xs) k ->
  radius_is (a_radius cfg) (r * 2 ^ 20) -> a_range cfg < 2 ^ 64 ->
  0 <= a -> 2 * a <= r -> 0 <= w <= a_range cfg -> Forall (exposed 8 a w r (a_range cfg)) xs ->
  exists nss, Forall2 (neutrons_of ext cfg) (map x_hits xs) nss /\ Forall2 (accounted_big (a_min cfg) a w) xs nss /\
    forall nss', Forall2 (neutrons_of ext cfg) (map x_hits xs) nss' -> nss' = nss.
Proof. exact C105_neutrons_l. Qed.
Print Assumptions C105_neutrons.

(** Of the three events one has two hits. *)
Lemma sz_counts nss : Forall2 (accounted_big 2 1 25) eex nss -> map (map n_hits) nss = [[2]; []].
Proof.
  intros A. inversion A as [|? n1 ? ns1 A1 B]; subst. inversion B as [|? n2 ? ns2 A2 B']; subst. inversion B'; subst. clear A B B'.
  inversion A1 as [|? ? ? L Q|? ? e ? L T Q]; subst; [vm_compute in L; discriminate L|]. clear A1.
  inversion Q as [|? ? ? L2 Q2|? ? ? ? L2 _ _]; subst; [|vm_compute in L2; exfalso; apply L2; reflexivity]. inversion Q2; subst.
  inversion A2 as [|? ? ? L3 Q3|? ? ? ? L3 _ _]; subst; [|vm_compute in L3; exfalso; apply L3; reflexivity]. inversion Q3; subst.
  cbn [map]. unfold tells in T. replace (n_hits e) with 2 by (symmetry; apply T). reflexivity.
Qed.
Example C105_neutrons_instance : exists nss, Forall2 (neutrons_of ex_ext (AbsCfg (f_of_Z 5) 2 75)) (map x_hits eex) nss /\
  map (map n_hits) nss = [[2]; []].
Proof.
  destruct eex_recording as (k & O & R).
  destruct (C105_neutrons ex_ext (AbsCfg (f_of_Z 5) 2 75) 1 25 5 _ eex k O R ex_radius ltac:(cbn; lia) ltac:(lia) ltac:(lia)
    ltac:(cbn; lia) eex_exposed) as (nss & N & A & _).
  exists nss. split; [exact N|]. exact (sz_counts nss A).
Qed.

(** The program on such a recording. *)
Theorem C105_true : forall fuel ext w order args d o cfg ds a wd r xs k,
  exclusive w -> (forall p, env_writable w p = true) -> understood w args o -> configured w o cfg ->
  env_input w (o_input o) = Some (stream ds) -> hits_created w o -> events_created w o ->
  (o_tiff o <> "" -> env_mkdir w (o_tiff o) = true) ->
  ds <> [] -> Forall dataset_ok ds -> Forall no_false_header ds ->
  0 < o_chunk o -> cuts_at_datasets (o_chunk o) ds -> (length (stream ds) <= fuel)%nat ->
  edges_ok (g_edges cfg) -> g_sr cfg = f_of_Z 1 ->
  Permutation order (seq 0 (length (g_edges cfg) - 1)) ->
  (forall i, (i < length (g_edges cfg) - 1)%nat ->
     saved (d_files d) (tiff_name (o_tiff o) (o_base o) i) 517 517 \/ unrelated (d_files d) (tiff_name (o_tiff o) (o_base o) i) 517 517) ->
  timing_of o = GDC_mode -> recording around true nothing_known ds (map x_hits xs) k ->
  radius_is (a_radius (g_abs cfg)) (r * 2 ^ 20) -> a_range (g_abs cfg) < 2 ^ 64 ->
  0 <= a -> 2 * a <= r -> 0 <= wd <= a_range (g_abs cfg) -> Forall (exposed 8 a wd r (a_range (g_abs cfg))) xs ->
  exists d', program fuel ext w order args d = Ok (Exit 0, d') /\
    (o_events o <> "" -> exists f nss, d_h5 d' (o_events o) = Some f /\
       (forall n fld, neutron_field n fld -> col f "neutrons" n = map fld (concat nss)) /\
       Forall2 (accounted_big (a_min (g_abs cfg)) a wd) xs nss).
Proof. exact C105_true_l. Qed.
Print Assumptions C105_true.

(** A run with a minimum size of two, and a run with the default of one. *)
Example C105_true_instance : exists n d' f e,
  program 300 cex_ext sz_w (seq 0 n) sz_args pex_d = Ok (Exit 0, d') /\ d_h5 d' "e" = Some f /\
  col f "neutrons" "nHits" = map (fun n => f_of_Z (n_hits n)) [e] /\ n_hits e = 2.
Proof.
  destruct (P_Program.C81_default_l (mo_w []) mo_o eq_refl) as (edges & C & E & _). exists (length edges - 1)%nat.
  destruct eex_recording as (k & O & R).
  destruct (C105_true 300 cex_ext sz_w (seq 0 (length edges - 1)) sz_args pex_d sz_o
    (Config (AbsCfg (f_of_Z 5) 2 75) (f_of_Z 1) edges) (map dataset_of hex) 1 25 5 eex k) as (d' & P & F).
  - exact pex_exclusive.
  - intros p. reflexivity.
  - apply P_Program.understood_parse. reflexivity.
  - exact (sz_configured edges (sz_edges [] edges C)).
  - reflexivity.
  - intros _. reflexivity.
  - intros _. split; [discriminate|reflexivity].
  - intros _. reflexivity.
  - discriminate.
  - exact O.
  - repeat constructor; vm_compute; intuition discriminate.
  - reflexivity.
  - intros j H. change (zlen (stream (map dataset_of hex))) with 80 in H. cbn [o_chunk sz_o] in H. lia.
  - apply Nat.leb_le. vm_compute. reflexivity.
  - exact E.
  - reflexivity.
  - apply Permutation_refl.
  - intros i _. right. intros w h r. discriminate.
  - reflexivity.
  - exact R.
  - exact ex_radius.
  - cbn. lia.
  - lia.
  - lia.
  - cbn. lia.
  - exact eex_exposed.
  - destruct (F ltac:(discriminate)) as (f & nss & F1 & F2 & F3). pose proof (sz_counts nss F3) as K.
    destruct nss as [|[|e [|? ?]] [|[|? ?] [|? ?]]]; try discriminate K. injection K as K.
    exists d', f, e. split; [exact P|]. split; [exact F1|]. split; [|exact K].
    exact (F2 "nHits" _ NF_n).
Qed.
