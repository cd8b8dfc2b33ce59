(** Property C100: events and the order of the hits.  Each theorem is followed
    by a concrete instance of its hypotheses. *)
From Coq Require Import Lia Permutation Reals.
From Verif Require Import S_Order S_DbsEvents P_Order P_OrderDbs P_DbsComps Properties_Abs Properties_Recover Properties_DbsEvents.
Global Open Scope Z_scope.

Lemma rc_sensors : Forall sensor_hit rc_hits.
Proof. eapply Forall_impl; [|exact rc_sensor]. intros h [H _]. exact H. Qed.
(** The hits of [rc_hits] in another order: each tick backwards. *)
Definition rc_hits' : list hit :=
  [ex_hit 100 100 30 0; ex_hit 10 10 20 0; ex_hit 12 11 40 1; ex_hit 11 12 7 2; ex_hit 101 99 5 2;
   ex_hit 12 12 8 50; ex_hit 13 10 9 51].
Definition rc_own' : list nat := [0; 1; 1; 1; 0; 2; 2]%nat.
Definition rc_src' (l : nat) : source :=
  match l with
  | O => Source 100 100 25000
  | S O => Source 11 11 25000
  | _ => Source 12 11 26250
  end.
Lemma rc_isolated' : isolated 8 2 50 5 75 rc_src' rc_hits' rc_own'.
Proof.
  split.
  - reflexivity.
  - intros [|[|[|[|[|[|[|i]]]]]]] l H; try (destruct i; discriminate);
      injection H as <-; intros l' L; destruct l' as [|[|l']]; try lia; cbn; tauto.
  - intros [|[|[|[|[|[|[|i]]]]]]] l h H H'; try (destruct i; discriminate);
      injection H as <-; injection H' as <-; unfold stems; vm_compute; intuition discriminate.
  - intros l l' H H'.
    repeat (destruct H as [<-|H]); [..|destruct H];
      repeat (destruct H' as [<-|H']); try destruct H'; intros N; try congruence; unfold S_Recover.apart; cbn; lia.
  - intros i j h h' L H H'.
    destruct i as [|[|[|[|[|[|[|i]]]]]]]; try (destruct i; discriminate); injection H as <-;
      (destruct j as [|[|[|[|[|[|[|j]]]]]]]; try lia; try (destruct j; discriminate));
      injection H' as <-; vm_compute; discriminate.
  - intros l ms _ N F.
    assert (length ms <= length [0; 1; 2]%nat)%nat; [|cbn in *; lia].
    apply NoDup_incl_length; [exact N|]. intros m Hm. destruct (F m Hm) as [I _].
    repeat (destruct I as [<-|I]; [cbn; tauto|]). destruct I.
Qed.
Lemma rc_separable' : separable 8 (fits_box (5 * 2 ^ 20) 75) rc_hits' rc_own'.
Proof. apply (P_Recover.isolated_separable 8 2 50 5 75 rc_src'); try lia. exact rc_isolated'. Qed.
Lemma rc_reordered : reordered rc_own rc_hits rc_own' rc_hits'.
Proof.
  exists (fun l => match l with O => 1 | S O => 0 | _ => l end)%nat. split.
  - intros l l' H H'. repeat (destruct H as [<-|H]); [..|destruct H]; repeat (destruct H' as [<-|H']); try destruct H'; cbn; lia.
  - cbn. apply perm_trans with (1 := perm_swap _ _ _). do 3 apply perm_skip. apply perm_swap.
Qed.

(** C100: the event of a cluster does not depend on the order of its hits. *)
Theorem C100_hits : forall weighted c c', Permutation c c' -> Forall sensor_hit c -> zlen c <= 2 ^ 21 ->
  centroid_fit weighted (f_of_Z 1) c = centroid_fit weighted (f_of_Z 1) c'.
Proof. exact C100_hits_l. Qed.
Print Assumptions C100_hits.
Example C100_hits_instance : Permutation rc_hits (rev rc_hits) /\ Forall sensor_hit rc_hits /\ zlen rc_hits <= 2 ^ 21 /\
  (let! e := centroid_fit true (f_of_Z 1) (rev rc_hits) in Ok (n_hits e, f_to_i32 (n_tot e), f_to_i32 (n_x e))) =
  Ok (7, Some 119, Some 37).
Proof.
  split; [apply Permutation_rev|]. split; [exact rc_sensors|]. split; [vm_compute; discriminate|]. vm_compute. reflexivity.
Qed.

(** C100: nor on how a compiler orders and brackets each of the four sums. *)
Theorem C100_sums : forall c tx ty tt tw, Forall sensor_hit c -> zlen c <= 2 ^ 21 -> c <> [] ->
  adds_up tx c -> adds_up ty c -> adds_up tt c -> adds_up tw c ->
  centroid_fit true (f_of_Z 1) c =
  Ok (Neutron (fmul (computed (fun h => h_x h * h_tot h) tx) (fdiv (f_of_Z 1) (computed h_tot tw)))
              (fmul (computed (fun h => h_y h * h_tot h) ty) (fdiv (f_of_Z 1) (computed h_tot tw)))
              (fdiv (computed tof_value tt) (f_of_Z (zlen c))) (computed h_tot tw) (zlen c)).
Proof. exact C100_sums_l. Qed.
Print Assumptions C100_sums.
(** Four hits added in pairs. *)
Definition rc_four : list hit := firstn 4 rc_hits.
Definition rc_pairs : adding :=
  Plus (Plus (Term (ex_hit 12 11 40 1)) (Term (ex_hit 10 10 20 0))) (Plus (Term (ex_hit 100 100 30 0)) (Term (ex_hit 101 99 5 2))).
Lemma rc_adds : adds_up rc_pairs rc_four.
Proof.
  unfold adds_up, rc_four. cbn. apply perm_trans with (1 := perm_swap _ _ _). apply perm_skip. apply perm_swap.
Qed.
Example C100_sums_instance : adds_up rc_pairs rc_four /\ Forall sensor_hit rc_four /\
  (let! e := centroid_fit true (f_of_Z 1) rc_four in Ok (f_to_i32 (n_tot e))) = Ok (f_to_i32 (computed h_tot rc_pairs)) /\
  f_to_i32 (computed h_tot rc_pairs) = Some 95.
Proof.
  split; [exact rc_adds|]. split; [|split; vm_compute; reflexivity].
  apply Forall_forall. intros h H. apply (proj1 (Forall_forall _ _) rc_sensors).
  repeat (destruct H as [<-|H]; [cbn; tauto|]). destruct H.
Qed.

(** C100: and the position stays close to the weighted mean when quotients are
    computed by the reciprocal or not. *)
Theorem C100_quotients : forall c g t tw v, Forall sensor_hit c -> zlen c <= 2 ^ 21 -> 1 <= hsum h_tot c ->
  g = (fun h => h_x h * h_tot h) \/ g = (fun h => h_y h * h_tot h) ->
  adds_up t c -> adds_up tw c -> quotient v (computed g t) (computed h_tot tw) ->
  close v (IZR (hsum g c) / IZR (hsum h_tot c)).
Proof. exact C100_quotients_l. Qed.
Print Assumptions C100_quotients.
Example C100_quotients_instance : adds_up rc_pairs rc_four /\ 1 <= hsum h_tot rc_four /\
  quotient (fdiv (computed (fun h => h_x h * h_tot h) rc_pairs) (computed h_tot rc_pairs))
           (computed (fun h => h_x h * h_tot h) rc_pairs) (computed h_tot rc_pairs) /\
  f_to_i32 (fdiv (computed (fun h => h_x h * h_tot h) rc_pairs) (computed h_tot rc_pairs)) = Some 44.
Proof. split; [exact rc_adds|]. split; [vm_compute; discriminate|]. split; [left; reflexivity|]. vm_compute. reflexivity. Qed.

(** C100: true events told apart by the box search in two orders of the hits give
    the same events, in some order. *)
Theorem C100_stream : forall n n' cfg rho ext o o' data own data' own', (0 < n)%nat -> (0 < n')%nat -> Forall hit_ok data ->
  Forall sensor_hit data -> zlen data <= 2 ^ 21 ->
  radius_is (a_radius cfg) rho -> 0 <= a_range cfg < 2 ^ 64 ->
  separable n (fits_box rho (a_range cfg)) data own -> separable n' (fits_box rho (a_range cfg)) data' own' ->
  reordered own data own' data' ->
  exists q q' evs evs', abs_fit n cfg o data = Ok q /\ abs_get_events ext cfg (abs_set_method q MCentroid) data = Ok evs /\
    abs_fit n' cfg o' data' = Ok q' /\ abs_get_events ext cfg (abs_set_method q' MCentroid) data' = Ok evs' /\
    Permutation evs evs'.
Proof. exact C100_stream_l. Qed.
Print Assumptions C100_stream.
Example C100_stream_instance :
  separable 8 (fits_box (5 * 2 ^ 20) 75) rc_hits rc_own /\ separable 8 (fits_box (5 * 2 ^ 20) 75) rc_hits' rc_own' /\
  reordered rc_own rc_hits rc_own' rc_hits' /\
  (let! o := abs_fit 8 ex_cfg abs_new rc_hits in
   let! evs := abs_get_events ex_ext ex_cfg (abs_set_method o MCentroid) rc_hits in Ok (map n_hits evs)) = Ok [3; 2; 2] /\
  (let! o := abs_fit 8 ex_cfg abs_new rc_hits' in
   let! evs := abs_get_events ex_ext ex_cfg (abs_set_method o MCentroid) rc_hits' in Ok (map n_hits evs)) = Ok [2; 3; 2].
Proof.
  split; [exact rc_separable|]. split; [exact rc_separable'|]. split; [exact rc_reordered|]. split; vm_compute; reflexivity.
Qed.

(** C100: in general the order matters, even among hits of the same time. *)
Theorem C100_stream_refuted : exists data data' o o',
  Permutation data data' /\ Forall hit_ok data /\ (forall h h', In h data -> In h' data -> arrival h = arrival h') /\
  abs_fit 8 ex_cfg abs_new data = Ok o /\ abs_fit 8 ex_cfg abs_new data' = Ok o' /\
  o_labels o = [0; 0; 0] /\ o_labels o' = [0; 1; 0].
Proof.
  set (data := [ex_hit 10 10 9 0; ex_hit 14 10 9 0; ex_hit 18 10 9 0]).
  set (data' := [ex_hit 10 10 9 0; ex_hit 18 10 9 0; ex_hit 14 10 9 0]).
  assert (E : labels_of (abs_fit 8 ex_cfg abs_new data) = Ok [0; 0; 0]) by (vm_compute; reflexivity).
  assert (E' : labels_of (abs_fit 8 ex_cfg abs_new data') = Ok [0; 1; 0]) by (vm_compute; reflexivity).
  destruct (abs_fit 8 ex_cfg abs_new data) as [o| | |] eqn:F; try discriminate E.
  destruct (abs_fit 8 ex_cfg abs_new data') as [o'| | |] eqn:F'; try discriminate E'.
  cbn [labels_of obind] in E, E'. injection E as E. injection E' as E'.
  exists data, data', o, o'. split; [apply perm_skip, perm_swap|]. split.
  { repeat (apply Forall_cons; [unfold hit_ok; cbn; lia|]). apply Forall_nil. }
  split; [|auto]. assert (A : forall h, In h data -> arrival h = 25000).
  { intros h H. repeat (destruct H as [<-|H]; [reflexivity|]). destruct H. }
  intros h h' H H'. rewrite (A h H), (A h' H'). reflexivity.
Qed.
Print Assumptions C100_stream_refuted.

(** C100: with DBSCAN the events do not depend on the order of the hits, nor on
    the size of the chunks, nor on what was fitted before. *)
Theorem C100_dbscan : forall cfg ext hits hits' own n size size' o p, eps_ok (d_eps_time cfg) ->
  Forall toa_ok hits -> Forall pixel_ok hits -> zlen hits < 2 ^ 31 -> ext_sound ext ->
  fit2_finds ext -> 1 <= size -> 1 <= size' -> distinct cfg hits own n -> Permutation hits hits' ->
  exists o' p', dbs_fit_with size ext cfg o hits = Ok o' /\ dbs_fit_with size' ext cfg p hits' = Ok p' /\
    Permutation (b_events o') (b_events p').
Proof. exact C100_dbscan_l. Qed.
Print Assumptions C100_dbscan.
Example C100_dbscan_instance :
  distinct ex_find ex_true ex_own 3 /\ Permutation ex_true (rev ex_true) /\
  (let! o := dbs_fit_with 5 ex_lib ex_find (DbsObj [] [8; 8]) (rev ex_true) in
   Ok (b_labels o, map (fun e => (ex_round (fmul (n_x e) (f_of_Z 3)), ex_round (fmul (n_y e) (f_of_Z 3)),
                                  ex_round (n_tof e), n_hits e)) (b_events o)))
  = Ok ([2; 2; 2; 1; 0; 0; 1; 0], [(31, 61, 2530, 3); (153, 180, 2530, 2); (32, 62, 225025, 3)]).
Proof.
  split; [exact (proj1 (proj2 (proj2 (proj2 (proj2 (proj2 C98_true_events_instance))))))|].
  split; [apply Permutation_rev|]. vm_compute. reflexivity.
Qed.
