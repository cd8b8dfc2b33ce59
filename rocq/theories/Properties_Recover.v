(** Property C87: the box search recovers well separated events.  Each theorem
    is followed by a concrete instance of its hypotheses. *)
From Coq Require Import Lia.
From Verif Require Import P_Recover P_Centroid Properties_Abs.
Global Open Scope Z_scope.

(** * Concrete data used by the instances *)

Definition rc_hits : list hit :=
  [ex_hit 10 10 20 0; ex_hit 100 100 30 0; ex_hit 12 11 40 1; ex_hit 101 99 5 2;
   ex_hit 11 12 7 2; ex_hit 12 12 8 50; ex_hit 13 10 9 51].
Definition rc_own : list nat := [0; 1; 0; 1; 0; 2; 2]%nat.
Definition rc_src (l : nat) : source :=
  match l with
  | O => Source 11 11 25000
  | S O => Source 100 100 25000
  | _ => Source 12 11 26250
  end.

Lemma rc_ok : Forall hit_ok rc_hits.
Proof. repeat (apply Forall_cons; [unfold hit_ok; cbn; lia|]). apply Forall_nil. Qed.
Lemma rc_sensor : Forall (fun h => sensor_hit h /\ 0 < h_tot h) rc_hits.
Proof.
  repeat (apply Forall_cons; [split; [repeat apply conj; try (cbn; lia);
    eexists; split; [reflexivity|lia]|cbn; lia]|]). apply Forall_nil.
Qed.
Lemma rc_isolated : isolated 8 2 50 5 75 rc_src rc_hits rc_own.
Proof.
  split.
  - reflexivity.
  - intros [|[|[|[|[|[|[|i]]]]]]] l H; try (destruct i; discriminate);
      injection H as <-; intros l' L; destruct l' as [|[|l']]; try lia; cbn; tauto.
  - intros [|[|[|[|[|[|[|i]]]]]]] l h H H'; try (destruct i; discriminate);
      injection H as <-; injection H' as <-; unfold stems; vm_compute; intuition discriminate.
  - intros l l' H H'.
    repeat (destruct H as [<-|H]); [..|destruct H];
      repeat (destruct H' as [<-|H']); try destruct H'; intros N; try congruence; unfold apart; cbn; lia.
  - intros i j h h' L H H'.
    destruct i as [|[|[|[|[|[|[|i]]]]]]]; try (destruct i; discriminate); injection H as <-;
      (destruct j as [|[|[|[|[|[|[|j]]]]]]]; try lia; try (destruct j; discriminate));
      injection H' as <-; vm_compute; discriminate.
  - intros l ms _ N F.
    assert (length ms <= length [0; 1; 2]%nat)%nat; [|cbn in *; lia].
    apply NoDup_incl_length; [exact N|]. intros m Hm. destruct (F m Hm) as [I _].
    repeat (destruct I as [<-|I]; [cbn; tauto|]). destruct I.
Qed.
Lemma rc_separable : separable 8 (fits_box (5 * 2 ^ 20) 75) rc_hits rc_own.
Proof. apply (isolated_separable 8 2 50 5 75 rc_src); try lia. exact rc_isolated. Qed.
Lemma rc_events : forall l, In l rc_own <-> (l < 3)%nat.
Proof.
  intros l. split.
  - intros H. repeat (destruct H as [<-|H]; [lia|]). destruct H.
  - intros H. destruct l as [|[|[|l]]]; try lia; cbn; tauto.
Qed.

(** * C87 *)

(** The labels are exactly the numbers of the true events. *)
Theorem C87_recovers : forall n cfg rho o data own,
  (0 < n)%nat -> Forall hit_ok data ->
  radius_is (a_radius cfg) rho -> 0 <= a_range cfg < 2 ^ 64 ->
  separable n (fits_box rho (a_range cfg)) data own ->
  exists o', abs_fit n cfg o data = Ok o' /\ o_labels o' = map Z.of_nat own.
Proof. exact C87_l. Qed.
Print Assumptions C87_recovers.

Example C87_recovers_instance : labels_of (abs_fit 8 ex_cfg abs_new rc_hits) = Ok [0; 1; 0; 1; 0; 2; 2].
Proof.
  destruct (C87_recovers 8 ex_cfg (5 * 2 ^ 20) abs_new rc_hits rc_own ltac:(lia) rc_ok ex_radius ex_range
    rc_separable) as (o' & E & L).
  rewrite E. unfold labels_of. cbn [obind]. rewrite L. reflexivity.
Qed.

(** The same from the places and times of the true events alone. *)
Theorem C87_isolated : forall n cfg o data own a w r src,
  (0 < n)%nat -> Forall hit_ok data ->
  radius_is (a_radius cfg) (r * 2 ^ 20) -> a_range cfg < 2 ^ 64 ->
  0 <= a -> 2 * a <= r -> 0 <= w <= a_range cfg ->
  isolated n a w r (a_range cfg) src data own ->
  exists o', abs_fit n cfg o data = Ok o' /\ o_labels o' = map Z.of_nat own.
Proof. exact C87_isolated_l. Qed.
Print Assumptions C87_isolated.

Example C87_isolated_instance : exists o', abs_fit 8 ex_cfg abs_new rc_hits = Ok o' /\
  o_labels o' = map Z.of_nat rc_own.
Proof.
  apply (C87_isolated 8 ex_cfg abs_new rc_hits rc_own 2 50 5 rc_src); try lia;
    [exact rc_ok|exact ex_radius|cbn; lia|cbn; lia|exact rc_isolated].
Qed.

(** The events computed are those of the true groups of hits, whatever the fit. *)
Theorem C87_events : forall n cfg rho ext o data own m fit k,
  (0 < n)%nat -> Forall hit_ok data ->
  radius_is (a_radius cfg) rho -> 0 <= a_range cfg < 2 ^ 64 ->
  separable n (fits_box rho (a_range cfg)) data own ->
  (forall l, In l own <-> (l < k)%nat) -> fit_of ext m = Some fit ->
  exists o', abs_fit n cfg o data = Ok o' /\
    forall evs, abs_get_events ext cfg (abs_set_method o' m) data = Ok evs <->
                events fit (a_min cfg) (clusters_of k own data) evs.
Proof. exact C87_events_l. Qed.
Print Assumptions C87_events.

(** One event per true event, in the order of the first hits, with all its hits. *)
Theorem C87_one_each : forall n cfg rho ext o data own k,
  (0 < n)%nat -> Forall hit_ok data ->
  Forall (fun h => sensor_hit h /\ 0 < h_tot h) data -> zlen data <= 2 ^ 21 ->
  radius_is (a_radius cfg) rho -> 0 <= a_range cfg < 2 ^ 64 -> a_min cfg <= 1 ->
  separable n (fits_box rho (a_range cfg)) data own ->
  (forall l, In l own <-> (l < k)%nat) ->
  exists o' evs, abs_fit n cfg o data = Ok o' /\
    abs_get_events ext cfg (abs_set_method o' MCentroid) data = Ok evs /\
    length evs = k /\
    forall l e, nth_error evs l = Some e ->
      n_hits e = zlen (members l own data) /\
      centroid_fit true (f_of_Z 1) (members l own data) = Ok e.
Proof. exact C87_one_each_l. Qed.
Print Assumptions C87_one_each.

Example C87_one_each_instance : exists evs,
  (let! o := abs_fit 8 ex_cfg abs_new rc_hits in
   abs_get_events ex_ext ex_cfg (abs_set_method o MCentroid) rc_hits) = Ok evs /\
  map n_hits evs = [3; 2; 2].
Proof.
  destruct (C87_one_each 8 ex_cfg (5 * 2 ^ 20) ex_ext abs_new rc_hits rc_own 3 ltac:(lia) rc_ok
    rc_sensor ltac:(vm_compute; discriminate) ex_radius ex_range ltac:(cbn; lia) rc_separable rc_events)
    as (o' & evs & E & G & L & X).
  exists evs. rewrite E. cbn [obind]. split; [exact G|].
  destruct evs as [|a [|b [|c [|d evs]]]]; try discriminate. cbn [map].
  rewrite (proj1 (X 0%nat a eq_refl)), (proj1 (X 1%nat b eq_refl)), (proj1 (X 2%nat c eq_refl)).
  reflexivity.
Qed.

(** With one simultaneous event more than open clusters an event is split. *)
Definition rc_ten : list hit :=
  map (fun i => ex_hit (20 * i) (20 * i) 9 0) [1; 2; 3; 4; 5; 6; 7; 8; 9; 1].
Definition rc_ten_own : list nat := [0; 1; 2; 3; 4; 5; 6; 7; 8; 0]%nat.
Definition rc_ten_src (l : nat) : source := Source (20 * Z.of_nat (S l)) (20 * Z.of_nat (S l)) 25000.

Lemma rc_ten_isolated : isolated 9 0 0 5 75 rc_ten_src rc_ten rc_ten_own.
Proof.
  split.
  - reflexivity.
  - intros [|[|[|[|[|[|[|[|[|[|i]]]]]]]]]] l H; try (destruct i; discriminate);
      injection H as <-; intros l' L; destruct l' as [|[|[|[|[|[|[|[|l']]]]]]]]; try lia; cbn; tauto.
  - intros [|[|[|[|[|[|[|[|[|[|i]]]]]]]]]] l h H H'; try (destruct i; discriminate);
      injection H as <-; injection H' as <-; unfold stems; vm_compute; intuition discriminate.
  - intros l l' _ _ N. left. unfold rc_ten_src. cbn [at_x]. lia.
  - intros i j h h' L H H'.
    assert (A : forall i h, nth_error rc_ten i = Some h -> arrival h = 25000).
    { intros [|[|[|[|[|[|[|[|[|[|k]]]]]]]]]] g E; try (destruct k; discriminate);
        injection E as <-; reflexivity. }
    rewrite (A _ _ H), (A _ _ H'). lia.
  - intros l ms _ N F.
    assert (length ms <= length [0; 1; 2; 3; 4; 5; 6; 7; 8]%nat)%nat; [|cbn in *; lia].
    apply NoDup_incl_length; [exact N|]. intros m Hm. destruct (F m Hm) as [I _].
    repeat (destruct I as [<-|I]; [cbn; tauto|]). destruct I.
Qed.

Theorem C87_nine_refuted : exists data own src,
  Forall hit_ok data /\ isolated 9 0 0 5 75 src data own /\
  forall o', abs_fit 8 ex_cfg abs_new data = Ok o' -> o_labels o' <> map Z.of_nat own.
Proof.
  exists rc_ten, rc_ten_own, rc_ten_src. split; [|split].
  - repeat (apply Forall_cons; [unfold hit_ok; cbn; lia|]). apply Forall_nil.
  - exact rc_ten_isolated.
  - assert (L : labels_of (abs_fit 8 ex_cfg abs_new rc_ten) = Ok [0; 1; 2; 3; 4; 5; 6; 7; 8; 9])
      by (vm_compute; reflexivity).
    intros o' E. rewrite E in L. cbn [labels_of obind] in L. injection L as L. rewrite L.
    vm_compute. discriminate.
Qed.
Print Assumptions C87_nine_refuted.
