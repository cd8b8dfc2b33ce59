(** Property C93: the GUI finds the true events of a run.  Each theorem is followed
    by a concrete instance of its hypotheses. *)
From Coq Require Import Reals String.
From Verif Require Import P_Gui P_Watch Properties_Measure.
From Coq Require Import Lia.
Global Open Scope Z_scope.

(** * Concrete data used by the instances *)

(** The history of Properties_Measure: three events, the first with two hits.  The
    frames of the GUI begin at 0 and 666667, not at the pulses 2000 and 668667. *)
Definition wex_hits : list hit :=
  [Hit 360 200 77 5234 5 (Some 5234) 5234; Hit 361 201 50 5235 3 (Some 5235) 5235;
   Hit 280 30 9 5236 1 (Some 5236) 5236; Hit 512 511 88 11872 6 (Some 33333) 700000].
Definition wex_events : list S_Events.event :=
  [Event (Source 360 200 130850) 0; Event (Source 280 30 130900) 0; Event (Source 512 511 17500000) 666667].
Definition wex_own : list nat := [0; 0; 1; 2]%nat.
Lemma wex_watched : watched_run follows 0 hex wex_hits.
Proof.
  change wex_hits with (firstn 3 wex_hits ++ skipn 3 wex_hits).
  apply (wr_cons _ 0 51 0 0 _ _ 5236); try (unfold is_byte; lia); [vm_compute; discriminate| |].
  - apply wd_ref; [lia|]. apply wd_pulse.
    apply (wd_fire _ 0 0 100 200 77 5 5234); try lia; [left; lia|].
    apply (wd_fire _ 0 5234 101 201 50 3 5235); try lia; [left; lia|].
    apply (wd_fire _ 0 5235 20 30 9 1 5236); try lia; [left; lia|]. apply wd_nil.
  - change (skipn 3 wex_hits) with (skipn 3 wex_hits ++ []).
    apply (wr_cons _ 5236 51 1 0 _ _ 700000); try (unfold is_byte; lia); [vm_compute; discriminate| |apply wr_nil].
    apply wd_pulse. apply (wd_fire _ 1 5236 3 4 88 6 700000); try lia; [left; lia|]. apply wd_nil.
Qed.
Lemma wex_observed : observed 4 1 25 5 75 wex_events wex_hits wex_own.
Proof.
  split; [split|split].
  - reflexivity.
  - intros [|[|[|[|i]]]] l H; try (destruct i; discriminate); injection H as <-; intros l' L;
      destruct l' as [|[|l']]; try lia; cbn; tauto.
  - intros [|[|[|[|i]]]] l h H H'; try (destruct i; discriminate);
      injection H as <-; injection H' as <-; unfold stems; vm_compute; intuition discriminate.
  - intros l l' H H'.
    repeat (destruct H as [<-|H]); [..|destruct H];
      repeat (destruct H' as [<-|H']); try destruct H'; intros N; try congruence; unfold apart; cbn; lia.
  - intros i j h h' L H H'.
    destruct i as [|[|[|[|i]]]]; try (destruct i; discriminate); injection H as <-;
      (destruct j as [|[|[|[|j]]]]; try lia; try (destruct j; discriminate));
      injection H' as <-; vm_compute; discriminate.
  - intros l ms _ N F.
    assert (length ms <= length [0; 1; 2]%nat)%nat; [|cbn in *; lia].
    apply NoDup_incl_length; [exact N|]. intros m Hm. destruct (F m Hm) as [I _].
    repeat (destruct I as [<-|I]; [cbn; tauto|]). destruct I.
  - intros l. cbn. split; [intros H; repeat (destruct H as [<-|H]; [lia|]); destruct H|].
    intros H. destruct l as [|[|[|l]]]; try lia; tauto.
  - intros [|[|[|[|i]]]] l h H H'; try (destruct i; discriminate);
      injection H as <-; injection H' as <-; split; vm_compute; reflexivity.
Qed.

(** * C93 *)

(** The hits read from the file of a run are the true hits, whatever time packets
    and pulses there are. *)
Theorem C93_hits : forall xs hs, watched_run follows 0 xs hs -> read_raw (Some (stream (map dataset_of xs))) = Ok hs.
Proof. exact C93_hits_l. Qed.
Print Assumptions C93_hits.

(** Reading the file of a run whose events are isolated (at most four at a time)
    shows one neutron per true event and the true numbers. *)
Theorem C93_events : forall ext rot g a w evs xs hs own, u_busy g = false /\ o_method (u_abs g) = MCentroid ->
  watched_run follows 0 xs hs -> hs <> [] -> zlen hs <= 2 ^ 21 -> 0 <= a <= 2 -> 0 <= w <= 75 ->
  observed 4 a w 5 75 evs hs own ->
  exists g', gui_read ext rot g (Chosen (Some (stream (map dataset_of xs)))) = Ok g' /\
    (u_busy g' = false /\ o_method (u_abs g') = MCentroid) /\
    accounts a w evs hs own (u_events g') /\ u_hits g' = zlen hs /\ u_count g' = Some (zlen evs).
Proof. exact C93_events_l. Qed.
Print Assumptions C93_events.

(** Reading and saving: the file of events has one row per true event, in order. *)
Theorem C93_session : forall ext rot d name a w evs xs hs own,
  watched_run follows 0 xs hs -> hs <> [] -> zlen hs <= 2 ^ 21 -> 0 <= a <= 2 -> 0 <= w <= 75 ->
  observed 4 a w 5 75 evs hs own ->
  exists g d' f gr ns,
    gui_run ext rot (gui_new, d) [ARead (Chosen (Some (stream (map dataset_of xs)))); ASave (Saving None (Some name) lib_works)] = Ok (g, d') /\
    k_h5 d' name = Some f /\ only_group f "events" ["x"; "y"; "tof_ns"; "NHits"; "tot"]%string gr /\
    In ("NHits"%string, Ints (map n_hits ns)) gr /\
    (forall nm fld, event_doubles nm fld -> In (nm, Doubles (map fld ns)) gr) /\
    accounts a w evs hs own ns.
Proof. exact C93_session_l. Qed.
Print Assumptions C93_session.

Example C93_instance : exists g d' f gr,
  gui_run no_ext turn_back (gui_new, no_disk) [ARead (Chosen (Some (stream (map dataset_of hex)))); ASave (Saving None (Some "a"%string) lib_works)] = Ok (g, d') /\
  k_h5 d' "a"%string = Some f /\ only_group f "events" ["x"; "y"; "tof_ns"; "NHits"; "tot"]%string gr /\
  In ("NHits"%string, Ints [2; 1; 1]) gr.
Proof.
  destruct (C93_session no_ext turn_back no_disk "a"%string 1 25 wex_events hex wex_hits wex_own wex_watched
    ltac:(discriminate) ltac:(vm_compute; discriminate) ltac:(lia) ltac:(lia) wex_observed)
    as (g & d' & f & gr & ns & E & F & G & N & _ & A & T).
  exists g, d', f, gr. split; [exact E|]. split; [exact F|]. split; [exact G|].
  destruct ns as [|e1 [|e2 [|e3 [|? ?]]]]; try discriminate A.
  pose proof (T 0%nat e1 eq_refl) as T1. pose proof (T 1%nat e2 eq_refl) as T2. pose proof (T 2%nat e3 eq_refl) as T3.
  unfold tells in *. cbn [map] in N. 
  replace (n_hits e1) with 2 in N by (symmetry; apply T1). replace (n_hits e2) with 1 in N by (symmetry; apply T2).
  replace (n_hits e3) with 1 in N by (symmetry; apply T3). exact N.
Qed.

(** The limits are sharp (refuted without them): a file whose first hit comes 26.8 s
    after the reset of the clock, and two hits 13.4 s apart, are misdated. *)
Theorem C93_late_start_refuted : exists xs hs, watched_run (fun t H => t <= H <= 2 ^ 30) 0 xs hs /\
  read_raw (Some (stream (map dataset_of xs))) <> Ok hs.
Proof. exact C93_late_l. Qed.
Print Assumptions C93_late_start_refuted.
Theorem C93_gap_refuted : exists xs hs, watched_run (fun t H => Z.abs (H - t) <= 2 ^ 29) 0 xs hs /\
  read_raw (Some (stream (map dataset_of xs))) <> Ok hs.
Proof. exact C93_gap_l. Qed.
Print Assumptions C93_gap_refuted.
