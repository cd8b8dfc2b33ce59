(** Lemmas behind Properties_MinSize.v. *)
From Coq Require Import Reals String Permutation.
From Verif Require Import P_AbsProps P_Measure P_MeasureHist P_Events P_EventsProgram P_CliRun P_Program P_Motion P_Reduce P_Append.
From Verif Require Export S_MinSize.
From Coq Require Import Lia ZifyBool.
Local Open Scope Z_scope.

Lemma loop_filtered ext mt fit m m' data idx : fit_of ext mt = Some fit -> m <= m' -> forall n label evs,
  event_loop fit m data idx label n = Ok evs -> event_loop fit m' data idx label n = Ok (at_least m' evs).
Proof.
  intros F L. induction n as [|n IH]; intros label evs; cbn [event_loop]; [intros E; apply Ok_inj in E; subst; reflexivity|].
  destruct (nth_error idx label) as [ix|]; cbn [obind]; try discriminate.
  destruct (gather data ix) as [c| | |]; cbn [obind]; try discriminate.
  destruct (Z.ltb_spec (zlen c) m) as [H|H]; [intros E; destruct (Z.ltb_spec (zlen c) m'); [apply IH, E|lia]|].
  destruct (fit c) as [e| | |] eqn:Ef; cbn [obind]; try discriminate.
  destruct (event_loop fit m data idx (S label) n) as [rest| | |] eqn:El; cbn [obind]; try discriminate.
  apply IH in El.
  destruct (fge (n_x e) (f_of_Z 0) && fge (n_y e) (f_of_Z 0)) eqn:G; intros E; apply Ok_inj in E; subst evs.
  - pose proof (fit_nhits ext mt fit c e F Ef G) as N. unfold at_least. cbn [filter]. rewrite N.
    destruct (Z.ltb_spec (zlen c) m') as [H'|H'].
    + replace (m' <=? zlen c) with false by lia. exact El.
    + replace (m' <=? zlen c) with true by lia. rewrite El. reflexivity.
  - destruct (Z.ltb_spec (zlen c) m'); [exact El|]. rewrite El. reflexivity.
Qed.
Lemma get_filtered ext cfg cfg' o data evs : a_min cfg <= a_min cfg' -> abs_get_events ext cfg o data = Ok evs ->
  abs_get_events ext cfg' o data = Ok (at_least (a_min cfg') evs).
Proof.
  intros L. unfold abs_get_events. destruct (negb _); [discriminate|].
  destruct (o_labels o) as [|l ls]; [intros E; apply Ok_inj in E; subst; reflexivity|].
  destruct (fit_of ext (o_method o)) as [fit|] eqn:F; [|discriminate]. apply (loop_filtered ext (o_method o)); assumption.
Qed.
Lemma scan_same cfg cfg' h : but_for_size cfg cfg' -> forall cs, scan cfg' h cs = scan cfg h cs.
Proof.
  intros [R T]. induction cs as [|c cs IH]; cbn [scan]; [reflexivity|]. rewrite IH.
  unfold time_ok, box_ok. rewrite R, T. reflexivity.
Qed.
Lemma loop_same cfg cfg' : but_for_size cfg cfg' -> forall data i st labels, label_loop cfg' data i st labels = label_loop cfg data i st labels.
Proof.
  intros B. induction data as [|h data IH]; intros i [cs ml] labels; cbn [label_loop]; [reflexivity|].
  unfold abs_step. rewrite (scan_same cfg cfg' h B).
  match goal with |- obind ?a _ = _ => destruct a as [[[cs' m'] l']| | |] end; cbn [obind]; try reflexivity.
  destruct (set_nth labels i l'); [apply IH|reflexivity].
Qed.
Lemma fit_same n cfg cfg' o data : but_for_size cfg cfg' -> abs_fit n cfg' o data = abs_fit n cfg o data.
Proof. intros B. unfold abs_fit. rewrite (loop_same cfg cfg' B). reflexivity. Qed.

Lemma C105_filter_l n ext cfg cfg' mt o data q evs : but_for_size cfg cfg' -> a_min cfg <= a_min cfg' ->
  abs_fit n cfg o data = Ok q -> abs_get_events ext cfg (abs_set_method q mt) data = Ok evs ->
  abs_fit n cfg' o data = Ok q /\ abs_get_events ext cfg' (abs_set_method q mt) data = Ok (at_least (a_min cfg') evs).
Proof. intros B L F G. rewrite (fit_same n cfg cfg' o data B). split; [exact F|]. exact (get_filtered ext cfg cfg' _ data evs L G). Qed.

Lemma neutrons_filtered ext cfg cfg' hs ns : but_for_size cfg cfg' -> a_min cfg <= a_min cfg' -> neutrons_of ext cfg hs ns ->
  neutrons_of ext cfg' hs (at_least (a_min cfg') ns).
Proof. intros B L (q & F & G). destruct (C105_filter_l 8 ext cfg cfg' MCentroid abs_new hs q ns B L F G). exists q. auto. Qed.
Lemma all_filtered ext cfg cfg' hss nss : but_for_size cfg cfg' -> a_min cfg <= a_min cfg' -> Forall2 (neutrons_of ext cfg) hss nss ->
  Forall2 (neutrons_of ext cfg') hss (map (at_least (a_min cfg')) nss).
Proof. intros B L. induction 1; cbn [map]; constructor; [apply (neutrons_filtered ext cfg); assumption|assumption]. Qed.
Lemma at_least_app m a b : at_least m (a ++ b) = at_least m a ++ at_least m b.
Proof. apply filter_app. Qed.
Lemma at_least_concat m nss : concat (map (at_least m) nss) = at_least m (concat nss).
Proof. induction nss as [|ns nss IH]; cbn [map concat]; [reflexivity|]. rewrite IH, at_least_app. reflexivity. Qed.

Lemma C105_program_l ext o o' cfg cfg' ds s d d1 d' d1' :
  completed ext o cfg ds s d d1 -> completed ext o' cfg' ds s d' d1' -> timing_of o' = timing_of o ->
  but_for_size (g_abs cfg) (g_abs cfg') -> a_min (g_abs cfg) <= a_min (g_abs cfg') ->
  (o_hits o <> ""%string -> o_hits o' <> ""%string -> exists f f', d_h5 d1 (o_hits o) = Some f /\ d_h5 d1' (o_hits o') = Some f' /\
     forall n fld, hit_field n fld -> col f' "hits" n = col f "hits" n) /\
  exists ns,
    (o_events o <> ""%string -> exists f, d_h5 d1 (o_events o) = Some f /\
       forall n fld, neutron_field n fld -> col f "neutrons" n = map fld ns) /\
    (o_events o' <> ""%string -> exists f, d_h5 d1' (o_events o') = Some f /\
       forall n fld, neutron_field n fld -> col f "neutrons" n = map fld (at_least (a_min (g_abs cfg')) ns)) /\
    (o_tiff o' <> ""%string -> o_mode o' <> "hit"%string -> forall i x y u, (i < length (g_edges cfg') - 1)%nat ->
       0 <= x < s -> 0 <= y < s -> prior (d_files d') (tiff_name (o_tiff o') (o_base o') i) s s x y u ->
       exists k, counted (fun e => lands (g_sr cfg') (g_edges cfg') e i x y) (map entry_of_neutron (at_least (a_min (g_abs cfg')) ns)) k /\
         disk (d_files d1') (tiff_name (o_tiff o') (o_base o') i) x y = Some ((u + k) mod 2 ^ 32)).
Proof.
  intros (fu & w & ord & args & A1 & A2 & A3 & A4 & A5 & A6 & A7 & A8 & A9 & A10 & A11 & A12 & A13 & A14 & A15 & A16)
    (fu' & w' & ord' & args' & B1 & B2 & B3 & B4 & B5 & B6 & B7 & B8 & B9 & B10 & B11 & B12 & B13 & B14 & B15 & B16) T B L.
  destruct (C81_program_l fu ext w ord args d d1 o cfg ds s) as (h1 & n1 & s1 & P & N & Fh & Fe & _ & Ti & _); try assumption.
  destruct (C81_program_l fu' ext w' ord' args' d' d1' o' cfg' ds s) as (h2 & n2 & s2 & P' & N' & Fh' & Fe' & _ & Ti' & _); try assumption.
  rewrite T in P'. destruct (processed_unique _ _ _ _ _ _ _ P P') as [<- _].
  apply (all_filtered ext (g_abs cfg) (g_abs cfg') h1 n1 B L) in N.
  rewrite (neutrons_app ext (g_abs cfg') h1 _ N n2 N') in *. clear N N'.
  split.
  - intros E E'. destruct (Fh E) as (f & X & Y). destruct (Fh' E') as (f' & X' & Y'). exists f, f'. split; [exact X|]. split; [exact X'|].
    intros n fld Hf. apply map_some_inj. rewrite (Y n fld Hf), (Y' n fld Hf). reflexivity.
  - exists (concat n1). split; [exact Fe|]. rewrite <- at_least_concat. split; [exact Fe'|].
    intros E M i x y u Hi Hx Hy Pr. destruct (Ti' E i x y u Hi Hx Hy Pr) as (k & C & D). exists k. split; [|exact D].
    unfold binned in C. apply String.eqb_neq in M. rewrite M in C. exact C.
Qed.

(** * True events *)

Lemma accounted_filtered m a w x : forall ns l, 
  (forall i e, nth_error ns i = Some e -> tells a w (nth_event (x_events x) (l + i)) (members (l + i) (x_own x) (x_hits x)) e) ->
  big_ones m a w x (seq l (length ns)) (at_least m ns).
Proof.
  induction ns as [|e ns IH]; intros l H; cbn [length seq at_least filter]; [constructor|].
  pose proof (H 0%nat e eq_refl) as T. rewrite Nat.add_0_r in T.
  assert (R : big_ones m a w x (seq (S l) (length ns)) (at_least m ns)).
  { apply IH. intros i e' Hi. replace (S l + i)%nat with (l + S i)%nat by lia. apply H. exact Hi. }
  assert (N : n_hits e = zlen (members l (x_own x) (x_hits x))) by apply T.
  destruct (Z.leb_spec m (n_hits e)) as [G|G].
  - apply bg_big; [lia|exact T|exact R].
  - apply bg_small; [lia|exact R].
Qed.
Lemma accounted_big_l m a w x ns : accounted a w x ns -> accounted_big m a w x (at_least m ns).
Proof. intros [L H]. unfold accounted_big. rewrite <- L. apply accounted_filtered. exact H. Qed.

Lemma C105_neutrons_l ext cfg a w r ds xs k : Forall dataset_ok ds ->
  recording around true nothing_known ds (map x_hits xs) k ->
  radius_is (a_radius cfg) (r * 2 ^ 20) -> a_range cfg < 2 ^ 64 ->
  0 <= a -> 2 * a <= r -> 0 <= w <= a_range cfg -> Forall (exposed 8 a w r (a_range cfg)) xs ->
  exists nss, Forall2 (neutrons_of ext cfg) (map x_hits xs) nss /\ Forall2 (accounted_big (a_min cfg) a w) xs nss /\
    forall nss', Forall2 (neutrons_of ext cfg) (map x_hits xs) nss' -> nss' = nss.
Proof.
  intros O R Rd Rg Ha Hr Hw X. set (cfg1 := AbsCfg (a_radius cfg) (Z.min 1 (a_min cfg)) (a_range cfg)).
  destruct (C91_neutrons_l ext cfg1 a w r ds xs k) as (nss & N & A & _); try assumption; [cbn; lia|].
  exists (map (at_least (a_min cfg)) nss).
  assert (N' : Forall2 (neutrons_of ext cfg) (map x_hits xs) (map (at_least (a_min cfg)) nss)).
  { apply (all_filtered ext cfg1 cfg); [split; reflexivity|cbn; lia|exact N]. }
  split; [exact N'|]. split.
  - clear - A. induction A; cbn [map]; constructor; [apply accounted_big_l; assumption|assumption].
  - intros nss' Q. exact (neutrons_app ext cfg _ _ N' nss' Q).
Qed.

Lemma C105_true_l fuel ext w order args d o cfg ds a wd r xs k :
  exclusive w -> (forall p, env_writable w p = true) -> understood w args o -> configured w o cfg ->
  env_input w (o_input o) = Some (stream ds) -> hits_created w o -> events_created w o ->
  (o_tiff o <> ""%string -> env_mkdir w (o_tiff o) = true) ->
  ds <> [] -> Forall dataset_ok ds -> Forall no_false_header ds ->
  0 < o_chunk o -> cuts_at_datasets (o_chunk o) ds -> (length (stream ds) <= fuel)%nat ->
  edges_ok (g_edges cfg) -> g_sr cfg = f_of_Z 1 ->
  Permutation order (seq 0 (length (g_edges cfg) - 1)) ->
  (forall i, (i < length (g_edges cfg) - 1)%nat ->
     saved (d_files d) (tiff_name (o_tiff o) (o_base o) i) 517 517 \/ unrelated (d_files d) (tiff_name (o_tiff o) (o_base o) i) 517 517) ->
  timing_of o = GDC_mode -> recording around true nothing_known ds (map x_hits xs) k ->
  radius_is (a_radius (g_abs cfg)) (r * 2 ^ 20) -> a_range (g_abs cfg) < 2 ^ 64 ->
  0 <= a -> 2 * a <= r -> 0 <= wd <= a_range (g_abs cfg) -> Forall (exposed 8 a wd r (a_range (g_abs cfg))) xs ->
  exists d', program fuel ext w order args d = Ok (Exit 0, d') /\
    (o_events o <> ""%string -> exists f nss, d_h5 d' (o_events o) = Some f /\
       (forall n fld, neutron_field n fld -> col f "neutrons" n = map fld (concat nss)) /\
       Forall2 (accounted_big (a_min (g_abs cfg)) a wd) xs nss).
Proof.
  intros. destruct (C90_gdc_l ds (map x_hits xs) k) as (s2 & Q); try assumption.
  assert (B : Forall (fun h => h_spider h < 2 ^ 48) (concat (map x_hits xs))).
  { eapply recording_bounds; [eassumption|discriminate|discriminate]. }
  destruct (C81_succeeds_l fuel ext w order args d o cfg ds) as (d' & E); try assumption.
  { intros hss s' P. match goal with X : timing_of o = _ |- _ => rewrite X in * end.
    destruct (processed_unique _ _ _ _ _ _ _ Q P) as [<- _].
    eapply Forall_impl; [|exact B]. intros h Hh. split; [intros _; exact Hh|discriminate]. }
  exists d'. split; [exact E|]. intros Ne.
  destruct (C81_program_l fuel ext w order args d d' o cfg ds 517) as (hss' & nss & s' & P & N & _ & Fe & _); try assumption; try lia.
  { match goal with X : g_sr cfg = _ |- _ => rewrite X end. apply P_Tof.side_one. }
  match goal with X : timing_of o = _ |- _ => rewrite X in P end.
  destruct (processed_unique _ _ _ _ _ _ _ Q P) as [<- _].
  destruct (Fe Ne) as (f & F1 & F2).
  destruct (C105_neutrons_l ext (g_abs cfg) a wd r ds xs k) as (nss' & N1 & N2 & N3); try assumption.
  rewrite (N3 nss N) in *. exists f, nss'. auto.
Qed.
