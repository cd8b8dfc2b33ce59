(** Property C96: the streaming program tells the true hits and events.  Each
    theorem is followed by a concrete instance of its hypotheses. *)
From Coq Require Import Lia Reals String.
From Verif Require Import P_Streamed P_MeasureHist Properties_StreamCli Properties_StreamMain Properties_Measure.
From Verif Require Import S_Streamed.
Global Open Scope Z_scope.

(** * Concrete data used by the instances *)

(** One event with nine hits, then a second pulse. *)
Definition shex : list (Z * Z * Z * list act) :=
  [(51, 0, 0, [Ref 1000; Pulse 2000; Fire 100 200 50 0 5234; Fire 101 200 51 0 5234; Fire 102 200 52 0 5234;
     Fire 100 201 53 0 5234; Fire 101 201 54 0 5234; Fire 102 201 55 0 5234; Fire 100 202 56 0 5234;
     Fire 101 202 57 0 5234; Fire 102 202 58 0 5234; Pulse 668667])].
Definition shex_hits : list (list hit) :=
  [[Hit 360 200 50 5234 0 (Some 3234) 5234; Hit 361 200 51 5234 0 (Some 3234) 5234; Hit 362 200 52 5234 0 (Some 3234) 5234;
    Hit 360 201 53 5234 0 (Some 3234) 5234; Hit 361 201 54 5234 0 (Some 3234) 5234; Hit 362 201 55 5234 0 (Some 3234) 5234;
    Hit 360 202 56 5234 0 (Some 3234) 5234; Hit 361 202 57 5234 0 (Some 3234) 5234; Hit 362 202 58 5234 0 (Some 3234) 5234]].
Definition sevs : list event := [Event (Source 361 201 130850) 2000].
Definition sown : list nat := [0; 0; 0; 0; 0; 0; 0; 0; 0]%nat.
Definition sfile : list Z := stream (map dataset_of shex).
Lemma shex_histories : histories soon None None shex shex_hits.
Proof.
  unfold shex, shex_hits.
  apply (hs_cons _ _ _ _ _ _ _ _ (Some 1000) (Some 668667)); try (unfold is_byte; lia); [vm_compute; discriminate| |apply hs_nil].
  apply hy_ref; [lia|]. apply hy_pulse; [unfold soon; lia|].
  repeat match goal with |- history _ _ _ _ (Fire ?x ?y _ _ _ :: _) _ _ _ =>
    apply (hy_fire _ 0 1000 2000 x y); try lia; [unfold soon; lia|] end.
  apply hy_pulse; [unfold soon; lia|]. apply hy_nil.
Qed.
Lemma shex_recording : exists k, Forall dataset_ok (map dataset_of shex) /\
  recording soon false nothing_known (map dataset_of shex) shex_hits k.
Proof. destruct (histories_recording soon None None _ _ shex_histories) as [O (k & R)]. exists k. split; assumption. Qed.
Lemma shex_readable : readable true (map dataset_of shex) sfile.
Proof.
  unfold sfile.
  apply (rb_keep [] (dataset_of (nth 0 shex (0, 0, 0, []))) (removelast (d_payload (dataset_of (nth 0 shex (0, 0, 0, [])))))
    (word_packet (111 * 2 ^ 56 + 668667 mod 2 ^ 32 * 2 ^ 12))); [reflexivity|vm_compute; discriminate].
Qed.
Lemma sown_zero i l : nth_error sown i = Some l -> l = 0%nat.
Proof. intros H. apply nth_error_In in H. repeat (destruct H as [<-|H]; [reflexivity|]). destruct H. Qed.
Lemma shex_hit i h : nth_error (concat shex_hits) i = Some h ->
  arrival h = 130850 /\ stems 1 25 (Source 361 201 130850) h /\ 0 < h_tot h /\ h_tof h = Some (h_spider h - 2000).
Proof.
  intros H. apply nth_error_In in H. cbn [concat shex_hits app] in H.
  repeat (destruct H as [<-|H]; [vm_compute; intuition discriminate|]). destruct H.
Qed.
Lemma shex_observed : observed 4 1 25 5 75 sevs (concat shex_hits) sown.
Proof.
  split; [split|split].
  - reflexivity.
  - intros i l H l' L. apply sown_zero in H. subst l. lia.
  - intros i l h H H'. apply sown_zero in H. subst l. apply (shex_hit i h H').
  - intros l l' H H' N. apply In_nth_error in H, H'. destruct H as [i H], H' as [j H'].
    apply sown_zero in H, H'. congruence.
  - intros i j h h' L H H'. destruct (shex_hit i h H) as [-> _]. destruct (shex_hit j h' H') as [-> _]. lia.
  - intros l ms _ N F. assert (length ms <= length [0]%nat)%nat; [|cbn in *; lia].
    apply NoDup_incl_length; [exact N|]. intros m Hm. destruct (F m Hm) as [I _].
    apply In_nth_error in I. destruct I as [i I]. apply sown_zero in I. subst m. cbn. tauto.
  - intros l. split.
    + intros H. apply In_nth_error in H. destruct H as [i H]. apply sown_zero in H. subst l. cbn. lia.
    + intros H. cbn in H. destruct l; [cbn; tauto|lia].
  - intros i l h H H'. apply sown_zero in H. subst l. apply (shex_hit i h H').
Qed.
Definition s_input (name : string) : option (list Z) := if String.eqb name "a.tpx3" then Some sfile else None.
(** The whole file as one batch. *)
Definition s_batch : list (hit * nat) := combine (concat shex_hits) sown.
Lemma s_batched : batched (combine (concat shex_hits) sown) [] [] s_batch.
Proof. split; [reflexivity|]. split; [constructor|]. vm_compute. reflexivity. Qed.
Lemma s_placed : exists e, placed_by_fit ex_ones (share 0 s_batch) e.
Proof.
  assert (K : (let! e := gauss_fit ex_ones (f_of_Z 1) (share 0 s_batch) in
               Ok (fge (n_x e) (f_of_Z 0), fge (n_y e) (f_of_Z 0))) = Ok (true, true)) by (vm_compute; reflexivity).
  unfold placed_by_fit. destruct (gauss_fit ex_ones (f_of_Z 1) (share 0 s_batch)) as [e| | |]; cbn [obind] in K; try discriminate.
  exists e. injection K as K1 K2. auto.
Qed.

(** * C96 *)

(** The program finds exactly the true hits of a recording, in order, if every pulse
    and hit comes within 26.8 s after the last time packet. *)
Theorem C96_hits : forall keep ds m hss k, Forall dataset_ok ds -> readable keep ds m ->
  recording soon false nothing_known ds hss k -> rd_run keep m = Ok (concat hss).
Proof. exact C96_hits_l. Qed.
Print Assumptions C96_hits.
Example C96_hits_instance : rd_run true sfile = Ok (concat shex_hits) /\
  rd_run false (stream (map dataset_of hex) ++ [1; 2; 3]) = Ok (concat hex_hits).
Proof.
  split.
  - destruct shex_recording as (k & O & R). exact (C96_hits true _ _ _ k O shex_readable R).
  - destruct (histories_recording soon None None hex hex_hits) as [O (k & R)].
    + apply hex_histories. intros t H. unfold soon. repeat (destruct H as [<-|H]; [lia|]). destruct H.
    + refine (C96_hits false _ _ _ k O (rb_odd _ _ _ _) R).
      * repeat constructor; unfold is_byte; lia.
      * split; [vm_compute; reflexivity|]. exists 0%nat, 1, 84. repeat split. discriminate.
Qed.

(** Finding: if the file ends in a pixel packet, that hit is found again and again,
    once for each packet of the last dataset. *)
Theorem C96_every_hit_once_refuted : forall ds d ps p hss k, Forall dataset_ok (ds ++ [d]) ->
  d_payload d = ps ++ [p] -> kind_of p = KPixel -> recording soon false nothing_known (ds ++ [d]) hss k ->
  exists hs h, concat hss = hs ++ [h] /\
    rd_run true (stream (ds ++ [d])) = Ok (concat hss ++ repeat h (length (d_payload d))).
Proof. exact C96_copies_l. Qed.
Print Assumptions C96_every_hit_once_refuted.
Example C96_every_hit_once_instance : exists h,
  rd_run true (stream (map dataset_of hex)) = Ok (concat hex_hits ++ [h; h]) /\ h_x h = 512.
Proof.
  destruct (histories_recording soon None None hex hex_hits) as [O (k & R)].
  - apply hex_histories. intros t H. unfold soon. repeat (destruct H as [<-|H]; [lia|]). destruct H.
  - destruct (C96_every_hit_once_refuted [dataset_of (nth 0 hex (0, 0, 0, []))] (dataset_of (nth 1 hex (0, 0, 0, [])))
      (removelast (d_payload (dataset_of (nth 1 hex (0, 0, 0, [])))))
      (pixel_packet (PF 11 3 4 (700000 mod 2 ^ 14) 88 6 (700000 / 2 ^ 14 mod 2 ^ 16))) hex_hits k O eq_refl eq_refl R)
      as (hs & h & E & Rn).
    exists h. split; [exact Rn|].
    change (concat hex_hits) with (removelast (concat hex_hits) ++ [Hit 512 511 88 11872 6 (Some 31333) 700000]) in E.
    apply app_inj_tail in E. destruct E as [_ <-]. reflexivity.
Qed.

(** Every run on the recording of isolated events: the hits are divided into
    batches, some are lost, and of each batch one event is reported for each true
    event with at least 8 hits in it that the fit puts on the positive side. *)
Theorem C96_events : forall keep ext lib input file d e ds m hss k a w evs own,
  Forall dataset_ok ds -> readable keep ds m -> recording soon false nothing_known ds hss k ->
  zlen (concat hss) <= 2 ^ 20 -> 0 <= a <= 2 -> 0 <= w <= 75 -> observed 4 a w 5 75 evs (concat hss) own ->
  input file = Some m -> stream_main keep ext lib input [file] d e ->
  exists full lost rest ess, batched (combine (concat hss) own) full lost rest /\
    Forall2 (reports ext w evs) (full ++ nonempty_batch rest) ess /\
    ((exists d', e = SExit 0 d' /\ concat ess <> [] /\ others_kept d d' /\ streamed_file (concat ess) d') \/
     (concat ess = [] /\ e = SAbort d) \/
     (~ hdf5_works lib /\ exists d', e = SAbort d' /\ others_kept d d')).
Proof. exact C96_events_l. Qed.
Print Assumptions C96_events.

(** And every division of the true hits is that of some run. *)
Theorem C96_every_division : forall keep ext lib input file d ds m hss k a w evs own full lost rest,
  Forall dataset_ok ds -> readable keep ds m -> recording soon false nothing_known ds hss k ->
  zlen (concat hss) <= 2 ^ 20 -> 0 <= a <= 2 -> 0 <= w <= 75 -> observed 4 a w 5 75 evs (concat hss) own ->
  input file = Some m -> hdf5_works lib -> batched (combine (concat hss) own) full lost rest ->
  exists ess, Forall2 (reports ext w evs) (full ++ nonempty_batch rest) ess /\
    (concat ess <> [] -> exists d', stream_main keep ext lib input [file] d (SExit 0 d') /\ others_kept d d' /\
       streamed_file (concat ess) d').
Proof. exact C96_possible_l. Qed.
Print Assumptions C96_every_division.
(** The true event is reported once, with its nine hits. *)
Example C96_every_division_instance : exists e d', stream_main true ex_ones lib_works s_input ["a.tpx3"%string] sm_disk (SExit 0 d') /\
  streamed_file [e] d' /\ n_hits e = 9.
Proof.
  destruct shex_recording as (k & O & R).
  destruct (C96_every_division true ex_ones lib_works s_input "a.tpx3" sm_disk _ sfile shex_hits k 1 25 sevs sown [] [] s_batch
    O shex_readable R ltac:(vm_compute; discriminate) ltac:(lia) ltac:(lia) shex_observed eq_refl ltac:(repeat split) s_batched)
    as (ess & F & X).
  inversion F as [|b es bs ess' F1 F2]; subst. inversion F2; subst. clear F F2.
  destruct F1 as (who & N & W & P).
  assert (Ew : who = [0%nat]).
  { assert (I0 : In 0%nat who) by (apply W; split; [vm_compute; discriminate|exact s_placed]).
    assert (Al : forall l, In l who -> l = 0%nat).
    { intros l Hl. apply W in Hl. destruct Hl as [Hl _]. destruct l as [|l]; [reflexivity|exfalso].
      revert Hl. vm_compute. intros Hl. apply Hl. reflexivity. }
    destruct who as [|x [|y who]]; [destruct I0|rewrite (Al x) by (cbn; tauto); reflexivity|].
    inversion N as [|? ? N1 _]; subst. exfalso. apply N1.
    rewrite (Al x), (Al y) by (cbn; tauto). left. reflexivity. }
  subst who. inversion P as [|? e ? es' P1 P2]; subst. inversion P2; subst.
  destruct (X ltac:(discriminate)) as (d' & M & _ & S').
  exists e, d'. split; [exact M|]. split; [exact S'|]. destruct P1 as (_ & -> & _). reflexivity.
Qed.
(** So the hypotheses of [C96_events] hold of an actual run. *)
Example C96_events_instance : exists e d' full lost rest ess, e = SExit 0 d' /\
  stream_main true ex_ones lib_works s_input ["a.tpx3"%string] sm_disk e /\
  batched (combine (concat shex_hits) sown) full lost rest /\
  Forall2 (reports ex_ones 25 sevs) (full ++ nonempty_batch rest) ess /\ concat ess <> [].
Proof.
  destruct C96_every_division_instance as (n & d' & M & _). destruct shex_recording as (k & O & R).
  destruct (C96_events true ex_ones lib_works s_input "a.tpx3" sm_disk _ _ sfile shex_hits k 1 25 sevs sown
    O shex_readable R ltac:(vm_compute; discriminate) ltac:(lia) ltac:(lia) shex_observed eq_refl M)
    as (full & lost & rest & ess & B & F & X).
  exists (SExit 0 d'), d', full, lost, rest, ess. split; [reflexivity|]. split; [exact M|]. split; [exact B|]. split; [exact F|].
  destruct X as [(d2 & _ & X & _)|[(_ & X)|(_ & d2 & X & _)]]; [exact X|discriminate X|discriminate X].
Qed.
