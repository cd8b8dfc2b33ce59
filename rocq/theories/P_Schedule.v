(** Proofs for C17: how schedules fail. *)
From Verif Require Import P_Parallel P_Cli.
From Coq Require Import Lia Permutation.
Local Open Scope Z_scope.
Local Open Scope list_scope.

(** The part of an outcome that is not a value. *)
Definition fails {A B} (r : outcome A) (r' : outcome B) : Prop :=
  (forall e, r = Throw e -> r' = Throw e) /\ (forall u, r = UB u -> r' = UB u).

Lemma move_fails ext cfg md m pc o b : fails (move ext cfg md m pc o b) (resume ext cfg md m pc o b).
Proof.
  destruct pc as [|[|n] iter| | |]; cbn [move resume]; try (split; intros ? E; discriminate E).
  - cbn [process_loop]. destruct (iter + 8 >=? zlen m); [split; intros ? E; discriminate E|].
    destruct (read_packet m (iter + 8)) as [p|]; [|split; intros ? E; [discriminate E|injection E as <-; reflexivity]].
    destruct (step md true (t_chip b) p (t_ts b) (t_hits b)) as [[s' hits']| | |]; cbn [obind]; split; intros ? E; try discriminate E;
      injection E as <-; reflexivity.
  - destruct (abs_fit 8 cfg o (t_hits b)) as [o2| | |]; cbn [obind]; split; intros ? E; try discriminate E; injection E as <-; reflexivity.
  - unfold after_fit. destruct (abs_get_events ext cfg o (t_hits b)) as [o2| | |]; cbn [obind]; split; intros ? E; try discriminate E;
      injection E as <-; reflexivity.
Qed.

Lemma pstep_fails ext cfg md m init s k : inv ext cfg md m init s -> exists b0, (In b0 init /\ fails (pstep ext cfg md m s k) (body_batch ext cfg md m abs_new b0)) \/
  exists s', pstep ext cfg md m s k = Ok s'.
Proof.
  intros (Len & ND & TO & FI). unfold pstep.
  destruct (nth_error (p_tasks s) k) as [t|] eqn:Et; [|exists (Batch 0 0 0 [] [] ts0); right; eauto].
  pose proof (TO t (nth_error_In _ _ Et)) as Tk. unfold task_ok in Tk.
  destruct (k_todo t) as [|i rest] eqn:Ek; [exists (Batch 0 0 0 [] [] ts0); right; eauto|].
  destruct Tk as [(b & b0 & Eb & E0 & R) _]. rewrite Eb. exists b0.
  pose proof (move_fails ext cfg md m (k_pc t) (k_abs t) b) as [F1 F2]. rewrite R in F1, F2.
  destruct (move ext cfg md m (k_pc t) (k_abs t) b) as [[[[pc' o'] b'] fin]| | |] eqn:Em; cbn [obind].
  - right. destruct (set_nth_ok (p_batches s) i b') as [bs' ->]; [apply nth_error_Some; congruence|].
    destruct (set_nth_ok (p_tasks s) k (Task (if fin then rest else i :: rest) pc' o')) as [ts' ->]; [apply nth_error_Some; congruence|]. eauto.
  - left. split; [eapply nth_error_In; eassumption|]. split; intros ? X; [injection X as <-; apply F1; reflexivity|discriminate X].
  - left. split; [eapply nth_error_In; eassumption|]. split; intros ? X; [discriminate X|injection X as <-; apply F2; reflexivity].
  - left. split; [eapply nth_error_In; eassumption|]. split; intros ? E; discriminate E.
Qed.

Lemma prun_fails ext cfg md m init sched : forall s, inv ext cfg md m init s ->
  (exists s', prun ext cfg md m s sched = Ok s') \/
  exists b0, In b0 init /\ fails (prun ext cfg md m s sched) (body_batch ext cfg md m abs_new b0).
Proof.
  induction sched as [|k sched IH]; intros s I; cbn [prun]; [eauto|].
  destruct (pstep_fails ext cfg md m init s k I) as (b0 & [[I0 [F1 F2]]|(s' & E)]).
  - destruct (pstep ext cfg md m s k) as [s'| | |] eqn:E; cbn [obind].
    + apply IH. eapply pstep_inv; eassumption.
    + right. exists b0. split; [exact I0|]. split; intros ? X; [injection X as <-; apply F1; reflexivity|discriminate X].
    + right. exists b0. split; [exact I0|]. split; intros ? X; [discriminate X|injection X as <-; apply F2; reflexivity].
    + right. exists b0. split; [exact I0|]. split; intros ? X; discriminate X.
  - rewrite E. cbn [obind]. apply IH. eapply pstep_inv; eassumption.
Qed.

Lemma nt_tof n : forall t, nt (tof_loop n t).
Proof.
  induction n as [|n IH]; intros t; cbn [tof_loop]; destruct (tof_too_long t); try apply nt_ok; [intros e E; discriminate E|apply IH].
Qed.
Lemma nt_hit p tdc gdc chip : nt (hit_gdc p tdc gdc chip).
Proof. unfold hit_gdc. apply nt_bind; [apply nt_tof|]. intros t _. destruct (layout _ _ _). apply nt_ok. Qed.
Lemma nt_loop md m chip n : forall iter s hits, nt (process_loop md true chip m (zlen m) n iter s hits).
Proof.
  induction n as [|n IH]; intros iter s hits; cbn [process_loop]; [apply nt_ok|].
  destruct (iter + 8 >=? zlen m); [apply IH|]. destruct (read_packet m (iter + 8)) as [p|]; [|apply nt_ub].
  apply nt_bind; [|intros [s' h'] _; apply IH]. destruct md; unfold step, step_gdc, step_tdc.
  - destruct (is_tdc p); [apply nt_ok|]. destruct (is_gdc p); [destruct (update_gdc _ _ _); apply nt_ok|].
    destruct (is_pixel p); [|apply nt_ok]. destruct (_ && _)%bool; [|apply nt_ok].
    apply nt_bind; [apply nt_hit|intros; apply nt_ok].
  - destruct (is_tdc p); [apply nt_ok|]. destruct (is_pixel p); [|apply nt_ok]. destruct (negb _); apply nt_ok.
Qed.

Lemma nt_body ext cfg md m b : nt (body_batch ext cfg md m abs_new b).
Proof.
  rewrite body_resume. cbn [resume]. apply nt_bind; [apply nt_loop|]. intros [s' h'] _.
  unfold after_packets. apply nt_bind; [apply nt_fit|]. intros o E. destruct (fit_shape _ _ _ _ _ E) as [L M].
  unfold after_fit. apply nt_bind; [|intros; apply nt_ok]. cbn [t_hits] in *.
  unfold abs_get_events. unfold zlen. rewrite L, Z.eqb_refl. cbn [negb].
  destruct (o_labels o) as [|l ls]; [apply nt_ok|]. rewrite M. cbn [abs_set_method abs_reset abs_new o_method fit_of].
  apply nt_event_loop. apply nt_centroid.
Qed.

Lemma C17_undefined_l ext cfg md m bs ranges sched : Permutation (concat ranges) (seq 0 (length bs)) ->
  (forall e, prun ext cfg md m (pstart bs ranges) sched <> Throw e) /\
  (forall u, prun ext cfg md m (pstart bs ranges) sched = UB u -> exists b, In b bs /\ process_all ext cfg md m [b] = UB u).
Proof.
  intros P. destruct (prun_fails ext cfg md m bs sched _ (start_inv ext cfg md m bs ranges P)) as [(s & ->)|(b & I & F1 & F2)].
  - split; intros ? E; discriminate E.
  - split.
    + intros e E. exact (nt_body ext cfg md m b e (F1 e E)).
    + intros u E. exists b. split; [exact I|]. specialize (F2 u E). unfold process_all. cbn [process_from].
      unfold body_batch in F2. destruct (body ext cfg md m abs_new b) as [[o' b']| | |]; cbn [obind] in *; congruence.
Qed.
