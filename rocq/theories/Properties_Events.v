(** Property C91: the neutrons in the events file tell of the true events.  Each
    theorem is followed by a concrete instance of its hypotheses. *)
From Coq Require Import Reals String Permutation.
From Verif Require Import P_Program S_Measure P_Events P_EventsProgram.
From Verif Require Import Properties_Tpx3 Properties_Abs Properties_Cli Properties_Program Properties_Measure.
From Coq Require Import Lia.
Global Open Scope Z_scope.

(** * Concrete data used by the instances *)

(** The history of Properties_Measure: two events during the first dataset, the
    first with two hits, and one event during the second. *)
Definition eex : list exposure :=
  [Exposure [Event (Source 360 200 130850) 2000; Event (Source 280 30 130900) 2000] (nth 0 hex_hits []) [0; 0; 1]%nat;
   Exposure [Event (Source 512 511 17500000) 668667] (nth 1 hex_hits []) [0]%nat].
Lemma eex_exposed : Forall (exposed 8 1 25 5 75) eex.
Proof.
  apply Forall_cons; [|apply Forall_cons; [|apply Forall_nil]]; (split; [split|split]).
  - reflexivity.
  - intros [|[|[|i]]] l H; try (destruct i; discriminate); injection H as <-; intros l' L;
      destruct l' as [|l']; try lia; cbn; tauto.
  - intros [|[|[|i]]] l h H H'; try (destruct i; discriminate);
      injection H as <-; injection H' as <-; unfold stems; vm_compute; intuition discriminate.
  - intros l l' H H'.
    repeat (destruct H as [<-|H]); [..|destruct H];
      repeat (destruct H' as [<-|H']); try destruct H'; intros N; try congruence; unfold apart; cbn; lia.
  - intros i j h h' L H H'.
    destruct i as [|[|[|i]]]; try (destruct i; discriminate); injection H as <-;
      (destruct j as [|[|[|j]]]; try lia; try (destruct j; discriminate));
      injection H' as <-; vm_compute; discriminate.
  - intros l ms _ N F.
    assert (length ms <= length [0; 1]%nat)%nat; [|cbn in *; lia].
    apply NoDup_incl_length; [exact N|]. intros m Hm. destruct (F m Hm) as [I _].
    repeat (destruct I as [<-|I]; [cbn; tauto|]). destruct I.
  - intros l. cbn. split; [intros H; repeat (destruct H as [<-|H]; [lia|]); destruct H|].
    intros H. destruct l as [|[|l]]; try lia; tauto.
  - intros [|[|[|i]]] l h H H'; try (destruct i; discriminate);
      injection H as <-; injection H' as <-; split; vm_compute; reflexivity.
  - reflexivity.
  - intros [|i] l H; try (destruct i; discriminate); injection H as <-; intros l' L; lia.
  - intros [|i] l h H H'; try (destruct i; discriminate);
      injection H as <-; injection H' as <-; unfold stems; vm_compute; intuition discriminate.
  - intros l l' [<-|[]] [<-|[]] N. congruence.
  - intros i j h h' L H H'. destruct i as [|i]; try (destruct i; discriminate).
    destruct j as [|[|j]]; [lia|discriminate|discriminate].
  - intros l ms _ N F. assert (length ms <= length [0]%nat)%nat; [|cbn in *; lia].
    apply NoDup_incl_length; [exact N|]. intros m Hm. destruct (F m Hm) as [[<-|[]] _]. cbn. tauto.
  - intros l. cbn. split; [intros [<-|[]]; lia|]. intros H. destruct l; [tauto|lia].
  - intros [|i] l h H H'; try (destruct i; discriminate);
      injection H as <-; injection H' as <-; split; vm_compute; reflexivity.
Qed.
(** A place to run, with the file of this history. *)
Definition eex_w : outside :=
  Outside (env_stoull pex_w) (env_double pex_w) (env_json pex_w) (env_config pex_w)
    (fun n => if String.eqb n "in" then Some (stream (map dataset_of hex)) else None)
    (env_creates pex_w) (env_mkdir pex_w) (env_writable pex_w).
Lemma eex_recording : exists k, Forall dataset_ok (map dataset_of hex) /\
  recording around true nothing_known (map dataset_of hex) (map x_hits eex) k.
Proof.
  destruct (P_MeasureHist.histories_recording after None None hex hex_hits) as [O (k & R)].
  - apply hex_histories. intros t H. unfold after. repeat (destruct H as [<-|H]; [lia|]). destruct H.
  - exists k. split; [exact O|]. revert R. apply P_Measure.recording_mono; [|discriminate].
    unfold after, around. intros. lia.
Qed.

(** * C91 *)

(** Whatever the fit for the other algorithms: hits that stem from isolated events
    give one neutron per event, close to it in place and time of flight. *)
Theorem C91_neutrons : forall ext cfg a w r ds xs k, Forall dataset_ok ds ->
  recording around true nothing_known ds (map x_hits xs) k ->
  radius_is (a_radius cfg) (r * 2 ^ 20) -> a_range cfg < 2 ^ 64 -> a_min cfg <= 1 ->
  0 <= a -> 2 * a <= r -> 0 <= w <= a_range cfg -> Forall (exposed 8 a w r (a_range cfg)) xs ->
  exists nss, Forall2 (neutrons_of ext cfg) (map x_hits xs) nss /\ Forall2 (accounted a w) xs nss /\
    forall nss', Forall2 (neutrons_of ext cfg) (map x_hits xs) nss' -> nss' = nss.
Proof. exact C91_neutrons_l. Qed.
Print Assumptions C91_neutrons.

Example C91_neutrons_instance : exists nss, Forall2 (neutrons_of ex_ext ex_cfg) (map x_hits eex) nss /\
  map (map n_hits) nss = [[2; 1]; [1]].
Proof.
  destruct eex_recording as (k & O & R).
  destruct (C91_neutrons ex_ext ex_cfg 1 25 5 _ eex k O R ex_radius ltac:(cbn; lia) ltac:(cbn; lia) ltac:(lia) ltac:(lia)
    ltac:(cbn; lia) eex_exposed) as (nss & N & A & _).
  exists nss. split; [exact N|].
  inversion A as [|? n1 ? ns1 A1 B]; subst. inversion B as [|? n2 ? ns2 A2 B']; subst. inversion B'; subst. clear A B B' N.
  destruct A1 as [L1 T1]. destruct A2 as [L2 T2].
  destruct n1 as [|e1 [|e2 [|? ?]]]; try discriminate L1. destruct n2 as [|e3 [|? ?]]; try discriminate L2.
  specialize (T2 0%nat e3 eq_refl).
  pose proof (T1 0%nat e1 eq_refl) as T0. specialize (T1 1%nat e2 eq_refl).
  unfold tells in *. cbn [map].
  replace (n_hits e1) with 2 by (symmetry; apply T0). replace (n_hits e2) with 1 by (symmetry; apply T1).
  replace (n_hits e3) with 1 by (symmetry; apply T2). reflexivity.
Qed.

(** The program, on a file that records the hits of isolated events, returns 0 and
    leaves an events file with one neutron per true event, in order. *)
Theorem C91_program : forall fuel ext w order args d o cfg ds a wd r xs k,
  exclusive w -> (forall p, env_writable w p = true) -> understood w args o -> configured w o cfg ->
  env_input w (o_input o) = Some (stream ds) -> hits_created w o -> events_created w o ->
  (o_tiff o <> ""%string -> env_mkdir w (o_tiff o) = true) ->
  ds <> [] -> Forall dataset_ok ds -> Forall no_false_header ds ->
  0 < o_chunk o -> cuts_at_datasets (o_chunk o) ds -> (length (stream ds) <= fuel)%nat ->
  edges_ok (g_edges cfg) -> g_sr cfg = f_of_Z 1 ->
  Permutation order (seq 0 (length (g_edges cfg) - 1)) ->
  (forall i, (i < length (g_edges cfg) - 1)%nat ->
     saved (d_files d) (tiff_name (o_tiff o) (o_base o) i) 517 517 \/ unrelated (d_files d) (tiff_name (o_tiff o) (o_base o) i) 517 517) ->
  timing_of o = GDC_mode -> recording around true nothing_known ds (map x_hits xs) k ->
  radius_is (a_radius (g_abs cfg)) (r * 2 ^ 20) -> a_range (g_abs cfg) < 2 ^ 64 -> a_min (g_abs cfg) <= 1 ->
  0 <= a -> 2 * a <= r -> 0 <= wd <= a_range (g_abs cfg) -> Forall (exposed 8 a wd r (a_range (g_abs cfg))) xs ->
  exists d', program fuel ext w order args d = Ok (Exit 0, d') /\
    (o_events o <> ""%string -> exists f nss, d_h5 d' (o_events o) = Some f /\
       (forall n fld, neutron_field n fld -> col f "neutrons" n = map fld (concat nss)) /\
       Forall2 (accounted a wd) xs nss).
Proof. exact C91_program_l. Qed.
Print Assumptions C91_program.

(** The same for every history: from what really happened to the events file. *)
Theorem C91_forward : forall fuel ext w order args d o cfg ys a wd r xs,
  let ds := map dataset_of ys in
  histories after None None ys (map x_hits xs) -> ys <> [] ->
  exclusive w -> (forall p, env_writable w p = true) -> understood w args o -> configured w o cfg ->
  env_input w (o_input o) = Some (stream ds) -> hits_created w o -> events_created w o ->
  (o_tiff o <> ""%string -> env_mkdir w (o_tiff o) = true) ->
  Forall no_false_header ds ->
  0 < o_chunk o -> cuts_at_datasets (o_chunk o) ds -> (length (stream ds) <= fuel)%nat ->
  edges_ok (g_edges cfg) -> g_sr cfg = f_of_Z 1 ->
  Permutation order (seq 0 (length (g_edges cfg) - 1)) ->
  (forall i, (i < length (g_edges cfg) - 1)%nat ->
     saved (d_files d) (tiff_name (o_tiff o) (o_base o) i) 517 517 \/ unrelated (d_files d) (tiff_name (o_tiff o) (o_base o) i) 517 517) ->
  timing_of o = GDC_mode ->
  radius_is (a_radius (g_abs cfg)) (r * 2 ^ 20) -> a_range (g_abs cfg) < 2 ^ 64 -> a_min (g_abs cfg) <= 1 ->
  0 <= a -> 2 * a <= r -> 0 <= wd <= a_range (g_abs cfg) -> Forall (exposed 8 a wd r (a_range (g_abs cfg))) xs ->
  exists d', program fuel ext w order args d = Ok (Exit 0, d') /\
    (o_events o <> ""%string -> exists f nss, d_h5 d' (o_events o) = Some f /\
       (forall n fld, neutron_field n fld -> col f "neutrons" n = map fld (concat nss)) /\
       Forall2 (accounted a wd) xs nss).
Proof. exact C91_forward_l. Qed.
Print Assumptions C91_forward.

Example C91_forward_instance : exists n d' f nss,
  program 300 cex_ext eex_w (seq 0 n) [Ai "in"; AH "h"; AE "e"; AT "out"; Am "hit"; At "gdc"; Ac "1"]%string pex_d = Ok (Exit 0, d') /\
  d_h5 d' "e"%string = Some f /\
  (forall n fld, neutron_field n fld -> col f "neutrons" n = map fld (concat nss)) /\ Forall2 (accounted 1 25) eex nss.
Proof.
  set (args := [Ai "in"; AH "h"; AE "e"; AT "out"; Am "hit"; At "gdc"; Ac "1"]%string).
  set (o := Options "in" "h" "e" "" "out" "tof_image" "hit" "Spectra" "gdc" 1048576 false false).
  destruct (C81_default_l eex_w o eq_refl) as (edges & C & E & _). exists (length edges - 1)%nat.
  destruct (C91_forward 300 cex_ext eex_w (seq 0 (length edges - 1)) args pex_d o
    (Config (AbsCfg (f_of_Z 5) 1 75) (f_of_Z 1) edges) hex 1 25 5 eex) as (d' & P & F);
    [..|destruct (F ltac:(discriminate)) as (f & nss & F1 & F2 & F3); exists d', f, nss; auto].
  - apply hex_histories. intros t H. unfold after. repeat (destruct H as [<-|H]; [lia|]). destruct H.
  - discriminate.
  - exact pex_exclusive.
  - intros p. reflexivity.
  - apply understood_parse. reflexivity.
  - exact C.
  - reflexivity.
  - intros _. reflexivity.
  - intros _. split; [discriminate|reflexivity].
  - intros _. reflexivity.
  - repeat constructor; vm_compute; intuition discriminate.
  - reflexivity.
  - intros k H. change (zlen (stream (map dataset_of hex))) with 80 in H. cbn [o_chunk o] in H. lia.
  - apply Nat.leb_le. vm_compute. reflexivity.
  - exact E.
  - reflexivity.
  - apply Permutation_refl.
  - intros i _. right. intros w h r. discriminate.
  - reflexivity.
  - exact ex_radius.
  - cbn. lia.
  - cbn. lia.
  - lia.
  - lia.
  - cbn. lia.
  - exact eex_exposed.
Qed.
