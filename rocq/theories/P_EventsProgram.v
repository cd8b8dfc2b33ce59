(** True hits and events in the files of the program (C90, C91). *)
From Coq Require Import Reals String Permutation.
From Verif Require Import P_Measure P_MeasureHist P_Events P_CliRun P_Program.
From Coq Require Import Lia.
Local Open Scope Z_scope.

Lemma recorded_bounds chip k ps hs k' : recorded around true chip k ps hs k' ->
  (forall g, k_ref k = Some g -> g < 2 ^ 48 - 2 ^ 32) -> (forall g, k_announced k = Some g -> g < 2 ^ 48 - 2 ^ 32) ->
  Forall (fun h => h_spider h < 2 ^ 48) hs /\
  (forall g, k_ref k' = Some g -> g < 2 ^ 48 - 2 ^ 32) /\ (forall g, k_announced k' = Some g -> g < 2 ^ 48 - 2 ^ 32).
Proof.
  intros R. induction R as [k|g a P G p ps hs k E HG El R IH|g G P p ps hs k E Em R IH
    |g a P T p ps hs k E Ec A R IH|a P T p ps hs k C E Ec N R IH
    |g a T H f p ps hs k Hf Ht -> Es H0 A HT R IH|g a P p ps hs k C N K R IH|k p ps hs k' K R IH];
    intros B1 B2; cbn [k_ref k_announced] in *; auto.
  - apply IH; [exact B1|]. intros g0 E0. injection E0 as <-. lia.
  - apply IH; [|discriminate]. intros g0 E0. injection E0 as <-. apply B2. reflexivity.
  - destruct (IH B1 B2) as [F G]. split; [|exact G]. constructor; [|exact F].
    unfold true_hit. destruct (place chip (f_x f) (f_y f)). cbn [h_spider].
    specialize (B1 g eq_refl). unfold around in A. lia.
Qed.
Lemma recording_bounds k ds hss k' : recording around true k ds hss k' ->
  (forall g, k_ref k = Some g -> g < 2 ^ 48 - 2 ^ 32) -> (forall g, k_announced k = Some g -> g < 2 ^ 48 - 2 ^ 32) ->
  Forall (fun h => h_spider h < 2 ^ 48) (concat hss).
Proof.
  intros R. induction R as [k|k d ds chip hs hss k1 k2 C P R IH]; intros B1 B2; cbn [concat]; [constructor|].
  destruct (recorded_bounds _ _ _ _ _ P B1 B2) as (F & C1 & C2). apply Forall_app. auto.
Qed.

Lemma C90_hits_file_l fuel ext w order args d d' o cfg ds hss k s :
  exclusive w -> (forall p, env_writable w p = true) -> understood w args o -> configured w o cfg ->
  env_input w (o_input o) = Some (stream ds) ->
  Forall dataset_ok ds -> Forall no_false_header ds ->
  0 < o_chunk o -> cuts_at_datasets (o_chunk o) ds -> (length (stream ds) <= fuel)%nat ->
  edges_ok (g_edges cfg) -> side (g_sr cfg) s -> 0 < s ->
  Permutation order (seq 0 (length (g_edges cfg) - 1)) ->
  (forall i, (i < length (g_edges cfg) - 1)%nat ->
     saved (d_files d) (tiff_name (o_tiff o) (o_base o) i) s s \/ unrelated (d_files d) (tiff_name (o_tiff o) (o_base o) i) s s) ->
  program fuel ext w order args d = Ok (Exit 0, d') ->
  (timing_of o = GDC_mode /\ recording around true nothing_known ds hss k) \/
  (timing_of o = TDC_mode /\ recording early_run false nothing_known ds hss k) ->
  o_hits o <> ""%string ->
  exists f, d_h5 d' (o_hits o) = Some f /\
    forall n fld, hit_field n fld -> map Some (col f "hits" n) = map fld (concat hss).
Proof.
  intros. destruct (C81_program_l fuel ext w order args d d' o cfg ds s) as (hss' & nss & s' & P & _ & Fh & _); try assumption.
  assert (hss = hss') as <-.
  { match goal with X : _ \/ _ |- _ => destruct X as [[Em R]|[Em R]] end; rewrite Em in P.
    - destruct (C90_gdc_l ds hss k) as (s2 & Q); try assumption. apply (processed_unique _ _ _ _ _ _ _ Q P).
    - destruct (C90_tdc_l ds hss k R) as (s2 & Q). apply (processed_unique _ _ _ _ _ _ _ Q P). }
  auto.
Qed.

Lemma C91_all_l ext cfg a w r xs :
  Forall (fun x => Forall (fun h => hit_ok h /\ sensor_hit h) (x_hits x) /\ zlen (x_hits x) <= 2 ^ 21) xs ->
  radius_is (a_radius cfg) (r * 2 ^ 20) -> a_range cfg < 2 ^ 64 -> a_min cfg <= 1 ->
  0 <= a -> 2 * a <= r -> 0 <= w <= a_range cfg -> Forall (exposed 8 a w r (a_range cfg)) xs ->
  exists nss, Forall2 (neutrons_of ext cfg) (map x_hits xs) nss /\ Forall2 (accounted a w) xs nss /\
    forall nss', Forall2 (neutrons_of ext cfg) (map x_hits xs) nss' -> nss' = nss.
Proof.
  intros F R T M Ha Hr Hw X. induction xs as [|x xs IH].
  - exists []. split; [constructor|]. split; [constructor|]. intros nss' Q. inversion Q. reflexivity.
  - apply Forall_cons_iff in F. destruct F as [[F1 F2] F]. apply Forall_cons_iff in X. destruct X as [X1 X].
    destruct (IH F X) as (nss & N1 & N2 & N3).
    destruct (C91_one_l ext cfg a w r x F1 F2 R T M Ha Hr Hw X1) as (ns & O1 & O2 & O3).
    exists (ns :: nss). cbn [map]. split; [constructor; assumption|]. split; [constructor; assumption|].
    intros nss' Q. inversion Q as [|? y ? ys Q1 Q2]; subst. rewrite (O3 y Q1), (N3 ys Q2). reflexivity.
Qed.

Lemma recording_fine ds hss k : Forall dataset_ok ds -> recording around true nothing_known ds hss k ->
  Forall (fun hs => zlen hs <= 2 ^ 21 /\ Forall fine hs) hss.
Proof.
  intros O R. destruct (C90_gdc_l ds hss k O R) as (s & P).
  apply (processed_facts GDC_mode ds O _ _ _ P).
  assert (B : Forall (fun h => h_spider h < 2 ^ 48) (concat hss)) by (apply (recording_bounds _ _ _ _ R); discriminate).
  eapply Forall_impl; [|exact B]. intros h Hh. split; [intros _; exact Hh|discriminate].
Qed.

Lemma C91_neutrons_l ext cfg a w r ds xs k : Forall dataset_ok ds ->
  recording around true nothing_known ds (map x_hits xs) k ->
  radius_is (a_radius cfg) (r * 2 ^ 20) -> a_range cfg < 2 ^ 64 -> a_min cfg <= 1 ->
  0 <= a -> 2 * a <= r -> 0 <= w <= a_range cfg -> Forall (exposed 8 a w r (a_range cfg)) xs ->
  exists nss, Forall2 (neutrons_of ext cfg) (map x_hits xs) nss /\ Forall2 (accounted a w) xs nss /\
    forall nss', Forall2 (neutrons_of ext cfg) (map x_hits xs) nss' -> nss' = nss.
Proof.
  intros O R. intros. apply (C91_all_l ext cfg a w r xs); try assumption.
  pose proof (recording_fine ds _ k O R) as F. apply Forall_map in F.
  eapply Forall_impl; [|exact F]. cbn beta. intros x [Hl Hf]. split; [|exact Hl]. exact Hf.
Qed.

Lemma C91_program_l fuel ext w order args d o cfg ds a wd r xs k :
  exclusive w -> (forall p, env_writable w p = true) -> understood w args o -> configured w o cfg ->
  env_input w (o_input o) = Some (stream ds) -> hits_created w o -> events_created w o ->
  (o_tiff o <> ""%string -> env_mkdir w (o_tiff o) = true) ->
  ds <> [] -> Forall dataset_ok ds -> Forall no_false_header ds ->
  0 < o_chunk o -> cuts_at_datasets (o_chunk o) ds -> (length (stream ds) <= fuel)%nat ->
  edges_ok (g_edges cfg) -> g_sr cfg = f_of_Z 1 ->
  Permutation order (seq 0 (length (g_edges cfg) - 1)) ->
  (forall i, (i < length (g_edges cfg) - 1)%nat ->
     saved (d_files d) (tiff_name (o_tiff o) (o_base o) i) 517 517 \/ unrelated (d_files d) (tiff_name (o_tiff o) (o_base o) i) 517 517) ->
  timing_of o = GDC_mode -> recording around true nothing_known ds (map x_hits xs) k ->
  radius_is (a_radius (g_abs cfg)) (r * 2 ^ 20) -> a_range (g_abs cfg) < 2 ^ 64 -> a_min (g_abs cfg) <= 1 ->
  0 <= a -> 2 * a <= r -> 0 <= wd <= a_range (g_abs cfg) -> Forall (exposed 8 a wd r (a_range (g_abs cfg))) xs ->
  exists d', program fuel ext w order args d = Ok (Exit 0, d') /\
    (o_events o <> ""%string -> exists f nss, d_h5 d' (o_events o) = Some f /\
       (forall n fld, neutron_field n fld -> col f "neutrons" n = map fld (concat nss)) /\
       Forall2 (accounted a wd) xs nss).
Proof.
  intros. destruct (C90_gdc_l ds (map x_hits xs) k) as (s2 & Q); try assumption.
  assert (B : Forall (fun h => h_spider h < 2 ^ 48) (concat (map x_hits xs))).
  { eapply recording_bounds; [eassumption|discriminate|discriminate]. }
  destruct (C81_succeeds_l fuel ext w order args d o cfg ds) as (d' & E); try assumption.
  { intros hss s' P. match goal with X : timing_of o = _ |- _ => rewrite X in * end.
    destruct (processed_unique _ _ _ _ _ _ _ Q P) as [<- _].
    eapply Forall_impl; [|exact B]. intros h Hh. split; [intros _; exact Hh|discriminate]. }
  exists d'. split; [exact E|]. intros Ne.
  destruct (C81_program_l fuel ext w order args d d' o cfg ds 517) as (hss' & nss & s' & P & N & _ & Fe & _); try assumption; try lia.
  { match goal with X : g_sr cfg = _ |- _ => rewrite X end. apply P_Tof.side_one. }
  match goal with X : timing_of o = _ |- _ => rewrite X in P end.
  destruct (processed_unique _ _ _ _ _ _ _ Q P) as [<- _].
  destruct (Fe Ne) as (f & F1 & F2).
  destruct (C91_neutrons_l ext (g_abs cfg) a wd r ds xs k) as (nss' & N1 & N2 & N3); try assumption.
  rewrite (N3 nss N) in *. exists f, nss'. auto.
Qed.

Lemma C91_forward_l fuel ext w order args d o cfg ys a wd r xs :
  let ds := map dataset_of ys in
  histories after None None ys (map x_hits xs) -> ys <> [] ->
  exclusive w -> (forall p, env_writable w p = true) -> understood w args o -> configured w o cfg ->
  env_input w (o_input o) = Some (stream ds) -> hits_created w o -> events_created w o ->
  (o_tiff o <> ""%string -> env_mkdir w (o_tiff o) = true) ->
  Forall no_false_header ds ->
  0 < o_chunk o -> cuts_at_datasets (o_chunk o) ds -> (length (stream ds) <= fuel)%nat ->
  edges_ok (g_edges cfg) -> g_sr cfg = f_of_Z 1 ->
  Permutation order (seq 0 (length (g_edges cfg) - 1)) ->
  (forall i, (i < length (g_edges cfg) - 1)%nat ->
     saved (d_files d) (tiff_name (o_tiff o) (o_base o) i) 517 517 \/ unrelated (d_files d) (tiff_name (o_tiff o) (o_base o) i) 517 517) ->
  timing_of o = GDC_mode ->
  radius_is (a_radius (g_abs cfg)) (r * 2 ^ 20) -> a_range (g_abs cfg) < 2 ^ 64 -> a_min (g_abs cfg) <= 1 ->
  0 <= a -> 2 * a <= r -> 0 <= wd <= a_range (g_abs cfg) -> Forall (exposed 8 a wd r (a_range (g_abs cfg))) xs ->
  exists d', program fuel ext w order args d = Ok (Exit 0, d') /\
    (o_events o <> ""%string -> exists f nss, d_h5 d' (o_events o) = Some f /\
       (forall n fld, neutron_field n fld -> col f "neutrons" n = map fld (concat nss)) /\
       Forall2 (accounted a wd) xs nss).
Proof.
  intros ds Hy Ny. intros. destruct (histories_recording _ _ _ _ _ Hy) as [O (k & R)].
  eapply (C91_program_l fuel ext w order args d o cfg ds a wd r xs k); try assumption.
  - unfold ds. destruct ys; [congruence|discriminate].
  - revert R. apply recording_mono; [|discriminate]. unfold after, around. intros. lia.
Qed.
