(** Property C92: the time-of-flight images and spectra count the true events and
    hits.  Each theorem is followed by a concrete instance of its hypotheses. *)
From Coq Require Import Reals String Permutation.
From Flocq Require Import Core.
From Verif Require Import P_Program P_Measure P_EventsProgram P_Images.
From Verif Require Import Properties_Tpx3 Properties_Abs Properties_Cli Properties_Program Properties_Measure Properties_Events.
From Coq Require Import Lia.
Global Open Scope Z_scope.

(** Neutrons: one cell for each true event, within [a] pixels of it and in a bin
    that its time belongs to; every pixel of the images on disk grows by the number
    of events with that cell, every row of the spectra is the number of events with
    that bin. *)
Theorem C92_neutrons : forall fuel ext w order args d o cfg ds a wd r xs k,
  exclusive w -> (forall p, env_writable w p = true) -> understood w args o -> configured w o cfg ->
  env_input w (o_input o) = Some (stream ds) -> hits_created w o -> events_created w o ->
  (o_tiff o <> ""%string -> env_mkdir w (o_tiff o) = true) ->
  ds <> [] -> Forall dataset_ok ds -> Forall no_false_header ds ->
  0 < o_chunk o -> cuts_at_datasets (o_chunk o) ds -> (length (stream ds) <= fuel)%nat ->
  edges_ok (g_edges cfg) -> g_sr cfg = f_of_Z 1 ->
  Permutation order (seq 0 (length (g_edges cfg) - 1)) ->
  (forall i, (i < length (g_edges cfg) - 1)%nat ->
     saved (d_files d) (tiff_name (o_tiff o) (o_base o) i) 517 517 \/ unrelated (d_files d) (tiff_name (o_tiff o) (o_base o) i) 517 517) ->
  timing_of o = GDC_mode -> recording around true nothing_known ds (map x_hits xs) k ->
  radius_is (a_radius (g_abs cfg)) (r * 2 ^ 20) -> a_range (g_abs cfg) < 2 ^ 64 -> a_min (g_abs cfg) <= 1 ->
  0 <= a -> 2 * a <= r -> 0 <= wd <= a_range (g_abs cfg) -> Forall (exposed 8 a wd r (a_range (g_abs cfg))) xs ->
  o_mode o <> "hit"%string ->
  exists d' cells, program fuel ext w order args d = Ok (Exit 0, d') /\
    Forall2 (placed a wd (g_edges cfg)) (concat (map x_events xs)) cells /\
    (o_tiff o <> ""%string -> forall i x y u, (i < length (g_edges cfg) - 1)%nat -> 0 <= x < 517 -> 0 <= y < 517 ->
       prior (d_files d) (tiff_name (o_tiff o) (o_base o) i) 517 517 x y u ->
       disk (d_files d') (tiff_name (o_tiff o) (o_base o) i) x y = Some ((u + number (is_cell i x y) cells) mod 2 ^ 32)) /\
    (zlen (concat (map x_events xs)) < 2 ^ 32 ->
       forall name, (o_tiff o <> ""%string /\ name = spectra_name (o_tiff o) (o_base o)) \/
                    (o_spectra o <> ""%string /\ name = (o_spectra o ++ ".txt")%string) ->
       exists rows, d_files d' name = Some (Spectrum rows) /\ length rows = (length (g_edges cfg) - 1)%nat /\
         forall i t c, nth_error rows i = Some (t, c) ->
           nth_error (g_edges cfg) (S i) = Some t /\ c = number (in_image i) cells).
Proof. exact C92_program_l. Qed.
Print Assumptions C92_neutrons.

Example C92_neutrons_instance : exists edges d' cells,
  program 300 cex_ext eex_w (seq 0 (length edges - 1))
    [Ai "in"; AH "h"; AE "e"; AT "out"; Am "neutron"; At "gdc"; Ac "1"]%string pex_d = Ok (Exit 0, d') /\
  edges_ok edges /\ Forall2 (placed 1 25 edges) (concat (map x_events eex)) cells /\ length cells = 3%nat /\
  forall i x y, (i < length edges - 1)%nat -> 0 <= x < 517 -> 0 <= y < 517 ->
    disk (d_files d') (tiff_name "out" "tof_image" i) x y = Some (number (is_cell i x y) cells mod 2 ^ 32).
Proof.
  set (args := [Ai "in"; AH "h"; AE "e"; AT "out"; Am "neutron"; At "gdc"; Ac "1"]%string).
  set (o := Options "in" "h" "e" "" "out" "tof_image" "neutron" "Spectra" "gdc" 1048576 false false).
  destruct (C81_default_l eex_w o eq_refl) as (edges & C & E & _). exists edges.
  destruct eex_recording as (k & O & R).
  destruct (C92_neutrons 300 cex_ext eex_w (seq 0 (length edges - 1)) args pex_d o
    (Config (AbsCfg (f_of_Z 5) 1 75) (f_of_Z 1) edges) (map dataset_of hex) 1 25 5 eex k) as (d' & cells & P & Q & D & _);
    [..|exists d', cells; split; [exact P|]; split; [exact E|]; split; [exact Q|]].
  - exact pex_exclusive.
  - intros p. reflexivity.
  - apply understood_parse. reflexivity.
  - exact C.
  - reflexivity.
  - intros _. reflexivity.
  - intros _. split; [discriminate|reflexivity].
  - intros _. reflexivity.
  - discriminate.
  - exact O.
  - repeat constructor; vm_compute; intuition discriminate.
  - reflexivity.
  - intros c H. change (zlen (stream (map dataset_of hex))) with 80 in H. cbn [o_chunk o] in H. lia.
  - apply Nat.leb_le. vm_compute. reflexivity.
  - exact E.
  - reflexivity.
  - apply Permutation_refl.
  - intros i _. right. intros w h r. discriminate.
  - reflexivity.
  - exact R.
  - exact ex_radius.
  - cbn. lia.
  - cbn. lia.
  - lia.
  - lia.
  - cbn. lia.
  - exact eex_exposed.
  - discriminate.
  - split.
    + cbn [map concat eex x_events app] in Q.
      repeat (match goal with F : Forall2 _ _ _ |- _ => inversion F; clear F; subst end). reflexivity.
    + intros i x y Hi Hx Hy.
      apply (D ltac:(discriminate) i x y 0 Hi Hx Hy). apply prior_none. intros w h r. discriminate.
Qed.

(** Hits: every pixel grows by the number of true hits there whose time of flight
    is in the bin. *)
Theorem C92_hits : forall fuel ext w order args d o cfg ds hss k,
  exclusive w -> (forall p, env_writable w p = true) -> understood w args o -> configured w o cfg ->
  env_input w (o_input o) = Some (stream ds) -> hits_created w o -> events_created w o ->
  (o_tiff o <> ""%string -> env_mkdir w (o_tiff o) = true) ->
  ds <> [] -> Forall dataset_ok ds -> Forall no_false_header ds ->
  0 < o_chunk o -> cuts_at_datasets (o_chunk o) ds -> (length (stream ds) <= fuel)%nat ->
  edges_ok (g_edges cfg) -> g_sr cfg = f_of_Z 1 ->
  Permutation order (seq 0 (length (g_edges cfg) - 1)) ->
  (forall i, (i < length (g_edges cfg) - 1)%nat ->
     saved (d_files d) (tiff_name (o_tiff o) (o_base o) i) 517 517 \/ unrelated (d_files d) (tiff_name (o_tiff o) (o_base o) i) 517 517) ->
  (timing_of o = GDC_mode /\ recording around true nothing_known ds hss k) \/
  (timing_of o = TDC_mode /\ recording early_run false nothing_known ds hss k) ->
  o_mode o = "hit"%string ->
  exists d', program fuel ext w order args d = Ok (Exit 0, d') /\
    (o_tiff o <> ""%string -> forall i x y u, (i < length (g_edges cfg) - 1)%nat -> 0 <= x < 517 -> 0 <= y < 517 ->
       prior (d_files d) (tiff_name (o_tiff o) (o_base o) i) 517 517 x y u ->
       exists c, counted (hit_counted (g_edges cfg) i x y) (concat hss) c /\
         disk (d_files d') (tiff_name (o_tiff o) (o_base o) i) x y = Some ((u + c) mod 2 ^ 32)).
Proof. exact C92_hits_l. Qed.
Print Assumptions C92_hits.

Example C92_hits_instance : exists edges d',
  program 300 cex_ext eex_w (seq 0 (length edges - 1))
    [Ai "in"; AH "h"; AE "e"; AT "out"; Am "hit"; At "tdc"; Ac "1"]%string pex_d = Ok (Exit 0, d') /\
  forall i x y, (i < length edges - 1)%nat -> 0 <= x < 517 -> 0 <= y < 517 ->
    exists c, counted (hit_counted edges i x y) (concat hex_hits) c /\
      disk (d_files d') (tiff_name "out" "tof_image" i) x y = Some (c mod 2 ^ 32).
Proof.
  set (args := [Ai "in"; AH "h"; AE "e"; AT "out"; Am "hit"; At "tdc"; Ac "1"]%string).
  set (o := Options "in" "h" "e" "" "out" "tof_image" "hit" "Spectra" "tdc" 1048576 false false).
  destruct (C81_default_l eex_w o eq_refl) as (edges & C & E & _). exists edges.
  destruct (P_MeasureHist.histories_recording early_run None None hex hex_hits) as [O (k & R)].
  { apply hex_histories. intros t H. unfold early_run. repeat (destruct H as [<-|H]; [lia|]). destruct H. }
  destruct (C92_hits 300 cex_ext eex_w (seq 0 (length edges - 1)) args pex_d o
    (Config (AbsCfg (f_of_Z 5) 1 75) (f_of_Z 1) edges) (map dataset_of hex) hex_hits k) as (d' & P & D);
    [..|exists d'; split; [exact P|]].
  - exact pex_exclusive.
  - intros p. reflexivity.
  - apply understood_parse. reflexivity.
  - exact C.
  - reflexivity.
  - intros _. reflexivity.
  - intros _. split; [discriminate|reflexivity].
  - intros _. reflexivity.
  - discriminate.
  - exact O.
  - repeat constructor; vm_compute; intuition discriminate.
  - reflexivity.
  - intros c H. change (zlen (stream (map dataset_of hex))) with 80 in H. cbn [o_chunk o] in H. lia.
  - apply Nat.leb_le. vm_compute. reflexivity.
  - exact E.
  - reflexivity.
  - apply Permutation_refl.
  - intros i _. right. intros w h r. discriminate.
  - right. split; [reflexivity|exact R].
  - reflexivity.
  - intros i x y Hi Hx Hy. destruct (D ltac:(discriminate) i x y 0 Hi Hx Hy) as (c & K & L).
    { apply prior_none. intros w h r. discriminate. }
    exists c. auto.
Qed.
