(** Lemmas behind Properties_StreamMain.v. *)
From Verif Require Export S_StreamMain P_StreamRun P_LibIO.
Local Open Scope string_scope.

Lemma save_events_Ok lib d name evs d' : lib_save_events lib d name evs = (Ok tt, d') ->
  lib_save_events lib_works d name evs = (Ok tt, d') /\ evs <> [].
Proof.
  intros E. destruct evs as [|v vs]; [discriminate E|]. split; [|discriminate].
  unfold lib_save_events in *. unfold save_group in *. unfold lib_works. cbn [lib_opens lib_group lib_writes].
  destruct (lib_opens lib); [|discriminate E]. destruct (lib_group lib); [|discriminate E].
  rewrite write_all_ok by reflexivity. cbn [app].
  destruct (write_all (lib_writes lib) 0 [] (lib_event_columns (v :: vs))) as [g t] eqn:W. destruct t; [discriminate E|].
  destruct (write_all_cases (lib_event_columns (v :: vs)) (lib_writes lib) 0 []) as [(H & W')|(i & Hi & Hj & [(_ & W')|(n & dt & _ & _ & W')])];
    rewrite W' in W; inversion W; subst. exact E.
Qed.

Lemma streamed lib d evs d' : lib_save_events lib d "events_streamed.h5" evs = (Ok tt, d') ->
  evs <> [] /\ others_kept d d' /\ streamed_file evs d'.
Proof.
  intros E. apply save_events_Ok in E. destruct E as [E N]. split; [exact N|].
  destruct (C72_events_l d "events_streamed.h5" evs N) as (d1 & f & g & E1 & O & A & B & C & D).
  rewrite E in E1. injection E1 as <-. split; [exact O|]. exists f, g. auto.
Qed.

Lemma works_saves lib d evs : hdf5_works lib -> evs <> [] ->
  exists d', lib_save_events lib d "events_streamed.h5" evs = (Ok tt, d').
Proof.
  intros (A & B & C) N. unfold lib_save_events. destruct evs as [|v vs]; [contradiction|]. unfold save_group. rewrite A, B.
  rewrite write_all_ok by (intros i _; apply C). eexists. reflexivity.
Qed.

Lemma C84_exit_one_l keep ext lib input args d e : stream_main keep ext lib input args d e ->
  (forall d', e = SExit 1 d' -> d' = d) /\ ((exists d', e = SExit 1 d') <-> length args <> 1%nat).
Proof.
  assert (N : forall r d', stream_save lib d r <> SExit 1 d').
  { intros r d'. unfold stream_save. destruct r as [evs| | |]; try discriminate.
    destruct (lib_save_events _ _ _ _) as [[| | |] ?]; discriminate. }
  unfold stream_main. destruct args as [|a [|b args]].
  - intros ->. split; [intros d' E; injection E as <-; reflexivity|]. split; [discriminate|eauto].
  - destruct (input a) as [m|].
    + intros (r & _ & ->). split; [intros d' E; destruct (N _ _ E)|]. split; [intros [d' E]; destruct (N _ _ E)|intros X; contradiction X; reflexivity].
    + intros (s & _ & _ & ->). split; [intros d' E; destruct (N _ _ E)|]. split; [intros [d' E]; destruct (N _ _ E)|intros X; contradiction X; reflexivity].
  - intros ->. split; [intros d' E; injection E as <-; reflexivity|]. split; [discriminate|eauto].
Qed.

Lemma C84_waits_l keep ext lib input file d e : input file = None -> ~ stream_main keep ext lib input [file] d e.
Proof.
  intros I. unfold stream_main. rewrite I. intros (s & S1 & S2 & _). destruct (C42_unopened_l s S1) as [X _]. contradiction.
Qed.

Lemma C84_results_l keep ext lib input file d e m hits :
  input file = Some m -> bytes_ok m -> rd_run keep m = Ok hits ->
  stream_main keep ext lib input [file] d e ->
  exists full lost rest evss, batched hits full lost rest /\
    Forall2 (batch_events ext) (full ++ nonempty_batch rest) evss /\
    ((exists d', e = SExit 0 d' /\ concat evss <> [] /\ others_kept d d' /\ streamed_file (concat evss) d') \/
     (concat evss = [] /\ e = SAbort d) \/
     (~ hdf5_works lib /\ exists d', e = SAbort d' /\ others_kept d d')).
Proof.
  intros I B R. unfold stream_main. rewrite I. intros (r & S & ->).
  destruct (C59_results_l keep ext m hits r B R S) as (full & lost & rest & evss & H1 & H2 & _ & _ & H3).
  exists full, lost, rest, evss. split; [exact H1|]. split; [exact H2|].
  destruct H3 as [[E ->]|[E ->]]; [right; left; auto|]. cbn [stream_save].
  destruct (lib_save_events lib d "events_streamed.h5" (concat evss)) as [q d'] eqn:Sv.
  destruct (C72_events_fail_l _ _ _ _ _ _ E Sv) as (O & g & _ & [(-> & _)|(-> & _)]).
  - left. exists d'. apply streamed in Sv. tauto.
  - right. right. split; [|eauto]. intros W. destruct (works_saves lib d _ W E) as [d2 E2]. rewrite Sv in E2. discriminate E2.
Qed.

Lemma C84_exit_zero_l keep ext lib input args d d' :
  stream_main keep ext lib input args d (SExit 0 d') ->
  exists file m r evs, args = [file] /\ input file = Some m /\ stream_run keep ext m r /\ r = Ok evs /\
    evs <> [] /\ others_kept d d' /\ streamed_file evs d'.
Proof.
  intros H. unfold stream_main in H. destruct args as [|a [|b args]]; try discriminate H.
  destruct (input a) as [m|] eqn:I.
  - destruct H as (r & R & E). exists a, m, r. destruct r as [evs| | |]; try discriminate E. exists evs. cbn [stream_save] in E.
    destruct (lib_save_events lib d "events_streamed.h5" evs) as [[[]| | |] d2] eqn:Sv; try discriminate E. injection E as <-.
    apply streamed in Sv. repeat (split; [auto; fail|]). tauto.
  - destruct H as (s & S1 & S2 & _). destruct (C42_unopened_l s S1) as [X _]. contradiction.
Qed.

Lemma C84_some_end_l keep ext lib input file d m : input file = Some m ->
  exists e, stream_main keep ext lib input [file] d e.
Proof.
  intros I. destruct (C59_exists_l keep ext m) as [r R]. exists (stream_save lib d r). unfold stream_main. rewrite I. eauto.
Qed.

Lemma C84_may_abort_l keep ext lib input file d m hits : input file = Some m -> rd_run keep m = Ok hits -> zlen hits < 10000 ->
  stream_main keep ext lib input [file] d (SAbort d).
Proof.
  intros I R L. unfold stream_main. rewrite I. exists (Throw RuntimeError). split; [|reflexivity]. exact (C59_throws_l keep ext m hits R L).
Qed.

Lemma C84_every_division_l keep ext lib input file d m hits full lost rest evss : input file = Some m -> bytes_ok m ->
  rd_run keep m = Ok hits -> hdf5_works lib -> batched hits full lost rest ->
  Forall2 (batch_events ext) (full ++ nonempty_batch rest) evss -> concat evss <> [] ->
  exists d', stream_main keep ext lib input [file] d (SExit 0 d') /\ others_kept d d' /\ streamed_file (concat evss) d'.
Proof.
  intros I B R W D E N. destruct (works_saves lib d _ W N) as [d' Sv]. exists d'. split; [|apply streamed in Sv; tauto].
  unfold stream_main. rewrite I. exists (Ok (concat evss)). split; [|cbn [stream_save]; rewrite Sv; reflexivity].
  pose proof (C59_possible_l keep ext m hits full lost rest evss B R D E) as P. destruct (concat evss); [contradiction|exact P].
Qed.

Lemma C84_undefined_l ext lib input file d m e : input file = Some m -> bytes_ok m -> zlen m mod 8 = 0 ->
  stream_main false ext lib input [file] d e -> e = SUndefined.
Proof.
  intros I B M. unfold stream_main. rewrite I. intros (r & R & ->).
  destruct (C59_strict_l ext m r B M R) as [-> | ->]; reflexivity.
Qed.

Lemma stream_main_run keep ext lib input file d m r : input file = Some m -> stream_run keep ext m r ->
  stream_main keep ext lib input [file] d (stream_save lib d r).
Proof. intros I R. unfold stream_main. rewrite I. eauto. Qed.
Lemma stream_main_saves keep ext lib input file d m evs : input file = Some m -> stream_run keep ext m (Ok evs) ->
  hdf5_works lib -> evs <> [] ->
  exists d', stream_main keep ext lib input [file] d (SExit 0 d') /\ others_kept d d' /\ streamed_file evs d'.
Proof.
  intros I R W N. destruct (works_saves lib d evs W N) as [d' Sv]. exists d'. split; [|apply streamed in Sv; tauto].
  pose proof (stream_main_run keep ext lib input file d m _ I R) as X. cbn [stream_save] in X. rewrite Sv in X. exact X.
Qed.
