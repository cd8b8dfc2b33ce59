(** Proofs about the auto reducer. *)
From Verif Require Export P_Gdc S_Venus.
From Coq Require Import Lia ZifyBool Permutation Ascii.
Local Open Scope Z_scope.

(** * File names *)

Lemma split_none s : split_last_dot s = None -> forall c, split_last_dot (String c s) = if Ascii.eqb c "." then Some (""%string, String c s) else None.
Proof. intros H c. cbn. rewrite H. reflexivity. Qed.
Lemma split_app s a b : split_last_dot s = Some (a, b) -> s = (a ++ b)%string.
Proof.
  revert a b. induction s as [|c s IH]; intros a b H; [discriminate H|]. cbn in H.
  destruct (split_last_dot s) as [[a' b']|].
  - injection H as <- <-. cbn. rewrite <- (IH a' b' eq_refl). reflexivity.
  - destruct (Ascii.eqb_spec c "."); [|discriminate H]. injection H as <- <-. reflexivity.
Qed.
Lemma split_suffix p s a b : split_last_dot s = Some (a, b) -> split_last_dot (p ++ s) = Some ((p ++ a)%string, b).
Proof. intros H. induction p as [|c p IH]; [exact H|]. cbn. rewrite IH. reflexivity. Qed.
Lemma stem_ext_app n : (stem n ++ extension n)%string = n.
Proof.
  unfold stem, extension, stem_ext. destruct (split_last_dot n) as [[[|c a] b]|] eqn:E; cbn [fst snd].
  - clear. induction n; cbn; congruence.
  - symmetry. apply (split_app _ _ _ E).
  - clear. induction n; cbn; congruence.
Qed.
Lemma stem_nonempty n : extension n <> ""%string -> stem n <> ""%string.
Proof.
  unfold stem, extension, stem_ext. destruct (split_last_dot n) as [[[|c a] b]|]; cbn [fst snd]; try congruence.
Qed.
Lemma ext_suffix p e : p <> ""%string -> split_last_dot e = Some (""%string, e) ->
  stem (p ++ e) = p /\ extension (p ++ e) = e.
Proof.
  intros Np H. unfold stem, extension, stem_ext. rewrite (split_suffix p e _ _ H).
  destruct p as [|c p]; [contradiction|]. cbn [append fst snd].
  split; [|reflexivity]. f_equal. clear. induction p; cbn; congruence.
Qed.
Lemma extension_spec n e : e <> ""%string -> split_last_dot e = Some (""%string, e) ->
  (extension n = e <-> exists p, p <> ""%string /\ n = (p ++ e)%string).
Proof.
  intros Ne H. split.
  - intros E. exists (stem n). split; [apply stem_nonempty; congruence|]. rewrite <- E. symmetry. apply stem_ext_app.
  - intros (p & Np & ->). apply (ext_suffix p e Np H).
Qed.
Lemma raw_spec e : is_raw e = true <-> raw_file e.
Proof.
  unfold is_raw, raw_file, raw_name. rewrite andb_true_iff, String.eqb_eq.
  rewrite (extension_spec _ ".tpx3"); [tauto|discriminate|reflexivity].
Qed.
Lemma stop_spec n b : is_stop (n, b) = true <-> b = true /\ stop_name n.
Proof.
  unfold is_stop, stop_name. cbn [fst snd]. rewrite !andb_true_iff, !String.eqb_eq, and_assoc.
  apply and_iff_compat_l. split.
  - intros [A B]. rewrite (extension_spec _ ".h5") in A; [|discriminate|reflexivity].
    destruct A as (p & Np & ->). destruct (ext_suffix p ".h5" Np eq_refl) as [S _]. rewrite S in B.
    rewrite (extension_spec _ ".nxs") in B; [|discriminate|reflexivity].
    destruct B as (q & Nq & ->). exists q. split; [exact Nq|]. rewrite app_assoc_s. reflexivity.
  - intros (p & Np & ->). change (".nxs.h5"%string) with (".nxs" ++ ".h5")%string. rewrite <- app_assoc_s.
    assert (Q : (p ++ ".nxs")%string <> ""%string) by (destruct p; discriminate).
    destruct (ext_suffix _ ".h5" Q eq_refl) as [S E]. rewrite S, E.
    split; [reflexivity|]. apply (ext_suffix p ".nxs" Np eq_refl).
Qed.
Lemma stops_spec r : existsb is_stop (rd_check r) = true <-> stops r.
Proof.
  rewrite existsb_exists. unfold stops. split.
  - intros ([n b] & I & S). apply stop_spec in S. destruct S as [-> S]. eauto.
  - intros (n & I & S). exists (n, true). split; [exact I|]. apply stop_spec. auto.
Qed.
Lemma raw_stem_inj n n' : raw_name n -> raw_name n' -> stem n = stem n' -> n = n'.
Proof.
  intros (p & Np & ->) (p' & Np' & ->) E.
  destruct (ext_suffix p ".tpx3" Np eq_refl) as [S _], (ext_suffix p' ".tpx3" Np' eq_refl) as [S' _]. congruence.
Qed.

(** * Invariants of the log *)

(** The processed stems are those of the saved names, all of raw files. *)
Definition consistent (st : venus) : Prop :=
  (forall x, In x (v_processed st) <-> exists n, was_saved (v_log st) n /\ stem n = x) /\
  Forall (fun ev => raw_name (ev_name ev)) (v_log st) /\
  (forall l1 n ims l2, v_log st = l1 ++ Saved n ims :: l2 -> ~ In n (map ev_name l2)).

Lemma start_consistent fs : consistent (venus_start fs).
Proof.
  split; [|split].
  - intros x. split; [intros []|intros (n & (ims & []) & _)].
  - constructor.
  - intros [|? l1] n ims l2 E; discriminate E.
Qed.
Lemma seen_spec st e : seen st e = true <-> In (stem (d_name e)) (v_processed st).
Proof.
  unfold seen. rewrite existsb_exists. split.
  - intros (x & I & E). apply String.eqb_eq in E. rewrite E. exact I.
  - intros I. eexists. split; [exact I|apply String.eqb_refl].
Qed.
Lemma seen_saved st e : consistent st -> raw_name (d_name e) -> (seen st e = true <-> was_saved (v_log st) (d_name e)).
Proof.
  intros (C1 & C2 & _) R. rewrite seen_spec, C1. split.
  - intros (n & S & E). assert (Rn : raw_name n).
    { destruct S as (ims & I). eapply Forall_forall in C2; [|exact I]. exact C2. }
    rewrite <- (raw_stem_inj _ _ Rn R E). exact S.
  - intros S. exists (d_name e). auto.
Qed.
Lemma saved_app l ev n : was_saved (l ++ [ev]) n <-> was_saved l n \/ (exists ims, ev = Saved n ims).
Proof.
  unfold was_saved. split.
  - intros (ims & I). apply in_app_or in I. destruct I as [I|[->|[]]]; eauto.
  - intros [(ims & I)|(ims & ->)]; exists ims; apply in_or_app; [auto|right; left; reflexivity].
Qed.
Lemma log_snoc (l : list event) ev : (forall n ims, In (Saved n ims) l -> ev_name ev <> n) ->
  (forall l1 n ims l2, l = l1 ++ Saved n ims :: l2 -> ~ In n (map ev_name l2)) ->
  (forall l1 n ims l2, l ++ [ev] = l1 ++ Saved n ims :: l2 -> ~ In n (map ev_name l2)).
Proof.
  intros N H l1 n ims l2 E. destruct l2 as [|z l2] using rev_ind; [intros []|].
  clear IHl2. change (l1 ++ Saved n ims :: l2 ++ [z]) with (l1 ++ (Saved n ims :: l2) ++ [z]) in E.
  rewrite List.app_assoc in E. apply app_inj_tail in E. destruct E as [-> <-].
  rewrite map_app. intros I. apply in_app_or in I. destruct I as [I|[I|[]]].
  - eapply H; [reflexivity|exact I].
  - eapply N; [|exact I]. apply in_or_app. right. left. reflexivity.
Qed.
Lemma consistent_failed st e fs : consistent st -> raw_file e -> seen st e = false ->
  consistent (Venus (v_processed st) fs (v_log st ++ [Failed (d_name e)])).
Proof.
  intros C [_ R] S. pose proof (seen_saved st e C R) as SS. destruct C as (C1 & C2 & C3).
  split; [|split]; cbn [v_processed v_log].
  - intros x. rewrite C1. split; intros (n & A & B); exists n; (split; [|exact B]).
    + apply saved_app. auto.
    + apply saved_app in A. destruct A as [A|(ims & A)]; [exact A|discriminate A].
  - apply Forall_app. split; [exact C2|]. constructor; [exact R|constructor].
  - apply log_snoc; [|exact C3]. cbn [ev_name]. intros n ims I E. subst n.
    rewrite (proj2 SS) in S; [discriminate S|]. eexists. exact I.
Qed.
Lemma consistent_saved st e fs ims : consistent st -> raw_file e -> seen st e = false ->
  consistent (Venus (stem (d_name e) :: v_processed st) fs (v_log st ++ [Saved (d_name e) ims])).
Proof.
  intros C [_ R] S. pose proof (seen_saved st e C R) as SS. destruct C as (C1 & C2 & C3).
  split; [|split]; cbn [v_processed v_log].
  - intros x. cbn [In]. rewrite C1. split.
    + intros [<-|(n & A & B)].
      * exists (d_name e). split; [|reflexivity]. apply saved_app. right. eauto.
      * exists n. split; [apply saved_app; auto|exact B].
    + intros (n & A & B). apply saved_app in A. destruct A as [A|(im' & A)]; [right; eauto|].
      injection A as -> _. left. exact B.
  - apply Forall_app. split; [exact C2|]. constructor; [exact R|constructor].
  - apply log_snoc; [|exact C3]. cbn [ev_name]. intros n im' I E. subst n.
    rewrite (proj2 SS) in S; [discriminate S|]. eexists. exact I.
Qed.

(** * One file *)

Lemma reduce_cases su e s fs r s' fs' : reduce_file su e s fs = Ok (r, s', fs') ->
  match r with
  | EndExit => d_content e = None
  | EndFailed => exists m, d_content e = Some m /\ s' = ts_after m s /\
      (fs' = fs \/ exists ims done, file_images su m s ims s' /\ w_fault (d_world e) = Some done /\ w_mkdir (d_world e) = true /\
         save_bins (w_writable (d_world e)) (su_dir su) (su_base su) ims done fs = Ok fs')
  | EndSaved ims => exists m, d_content e = Some m /\ s' = ts_after m s /\ file_images su m s ims s' /\
      w_fault (d_world e) = None /\
      save_tiff (w_mkdir (d_world e)) (w_writable (d_world e)) (su_dir su) (su_base su) ims
        (g_edges (su_cfg su)) (w_order (d_world e)) fs = Ok fs'
  end.
Proof.
  unfold reduce_file, ts_after. destruct (d_content e) as [m|] eqn:Ec.
  2:{ intros H. apply Ok_inj in H. injection H as <- <- <-. reflexivity. }
  destruct (locate GDC_mode (find_headers m) m (zlen m) s) as [[bs s1]| | |] eqn:El; try discriminate.
  2:{ intros H. apply Ok_inj in H. injection H as <- <- <-. exists m. rewrite El. auto. }
  cbv zeta. destruct (process_all _ _ GDC_mode m bs) as [bs'| | |] eqn:Ep; cbn [obind]; try discriminate.
  2:{ intros H. apply Ok_inj in H. injection H as <- <- <-. exists m. rewrite El. auto. }
  destruct (create_images _ _ _ bs') as [ims| | |] eqn:Ei; try discriminate.
  2:{ intros H. apply Ok_inj in H. injection H as <- <- <-. exists m. rewrite El. auto. }
  assert (FI : file_images su m s ims s1) by (exists bs, bs'; auto).
  unfold save_in_world. destruct (w_fault (d_world e)) as [done|] eqn:Ef.
  - destruct (w_mkdir (d_world e)) eqn:Em.
    + destruct (save_bins _ _ _ ims done fs) as [fs1| | |] eqn:Es; cbn [obind]; try discriminate.
      intros H. apply Ok_inj in H. injection H as <- <- <-. exists m. rewrite El. split; [reflexivity|].
      split; [reflexivity|]. right. exists ims, done. auto.
    + cbn [obind]. intros H. apply Ok_inj in H. injection H as <- <- <-. exists m. rewrite El. auto.
  - destruct (save_tiff _ _ _ _ ims _ _ fs) as [fs1| | |] eqn:Es; cbn [obind]; try discriminate.
    + intros H. apply Ok_inj in H. injection H as <- <- <-. exists m. rewrite El. auto.
    + intros H. apply Ok_inj in H. injection H as <- <- <-. exists m. rewrite El. auto.
Qed.

(** * One scan *)

Definition wanted (log : list event) (e : dir_entry) : Prop := raw_file e /\ ~ was_saved log (d_name e).

Lemma sublist_ext {A} (P Q : A -> Prop) l r : (forall a, In a l -> (P a <-> Q a)) -> sublist P l r -> sublist Q l r.
Proof.
  intros H S. revert H. induction S as [|a l r Pa S IH|a l r Pa S IH]; intros H; [constructor| |].
  - apply sub_keep; [apply H; [left; reflexivity|exact Pa]|apply IH; intros; apply H; right; assumption].
  - apply sub_drop; [intros C; apply Pa, H; [left; reflexivity|exact C]|apply IH; intros; apply H; right; assumption].
Qed.

Lemma scan_events su es : forall s st st', consistent st -> NoDup (map d_name es) ->
  scan_entries su es s st = Ok (false, st') ->
  consistent st' /\ exists due new, sublist (wanted (v_log st)) es due /\ v_log st' = v_log st ++ new /\
    map ev_name new = map d_name due /\ worked_on su s due new.
Proof.
  induction es as [|e es IH]; intros s st st' C ND H; cbn [scan_entries] in H.
  - apply Ok_inj in H. injection H as <-. split; [exact C|]. exists [], []. rewrite List.app_nil_r.
    split; [constructor|]. split; [reflexivity|]. split; [reflexivity|constructor].
  - cbn [map] in ND. inversion ND as [|? ? N1 ND']; subst.
    destruct (is_raw e) eqn:R; cbn [andb] in H.
    2:{ destruct (IH s st st' C ND' H) as (C' & due & new & S & X). split; [exact C'|]. exists due, new.
        split; [|exact X]. apply sub_drop; [|exact S]. intros [RF _]. apply raw_spec in RF. congruence. }
    apply raw_spec in R. pose proof (seen_saved st e C (proj2 R)) as SS. destruct (seen st e) eqn:Se; cbn [negb] in H.
    { destruct (IH s st st' C ND' H) as (C' & due & new & S & X). split; [exact C'|]. exists due, new.
      split; [|exact X]. apply sub_drop; [|exact S]. intros [_ NS]. apply NS, SS. reflexivity. }
    assert (W : wanted (v_log st) e) by (split; [exact R|intros Q; apply SS in Q; discriminate Q]).
    destruct (reduce_file su e s (v_files st)) as [[[r s'] fs']| | |] eqn:E; cbn [obind] in H; try discriminate H.
    pose proof (reduce_cases _ _ _ _ _ _ _ E) as Cs.
    assert (Tail : forall ev st1, ev_name ev = d_name e -> v_log st1 = v_log st ++ [ev] -> consistent st1 ->
       scan_entries su es s' st1 = Ok (false, st') ->
       consistent st' /\ exists due new, sublist (wanted (v_log st)) es due /\ v_log st' = v_log st ++ ev :: new /\
         map ev_name new = map d_name due /\ worked_on su s' due new).
    { intros ev st1 En L C1 H1. destruct (IH s' st1 st' C1 ND' H1) as (C' & due & new & S & L' & X). split; [exact C'|].
      exists due, new. split.
      - eapply sublist_ext; [|exact S]. intros a Ia. unfold wanted. rewrite L. split.
        + intros [A B]. split; [exact A|]. intros Q. apply B. apply saved_app. auto.
        + intros [A B]. split; [exact A|]. intros Q. apply saved_app in Q. destruct Q as [Q|(ims & ->)]; [auto|].
          cbn in En. apply N1. rewrite <- En. apply in_map. exact Ia.
      - split; [|exact X]. rewrite L', L, <- List.app_assoc. reflexivity. }
    destruct r as [ims| |].
    + destruct Cs as (m & Em & Es & FI & _).
      destruct (Tail (Saved (d_name e) ims) (Venus (stem (d_name e) :: v_processed st) fs' (v_log st ++ [Saved (d_name e) ims])) eq_refl eq_refl (consistent_saved st e fs' ims C R Se) H)
        as (C' & due & new & S & L & M & W').
      split; [exact C'|]. exists (e :: due), (Saved (d_name e) ims :: new).
      split; [apply sub_keep; assumption|]. split; [exact L|]. split; [cbn; rewrite M; reflexivity|].
      subst s'. eapply wo_saved; eassumption.
    + destruct Cs as (m & Em & Es & _).
      destruct (Tail (Failed (d_name e)) (Venus (v_processed st) fs' (v_log st ++ [Failed (d_name e)])) eq_refl eq_refl (consistent_failed st e fs' C R Se) H)
        as (C' & due & new & S & L & M & W').
      split; [exact C'|]. exists (e :: due), (Failed (d_name e) :: new).
      split; [apply sub_keep; assumption|]. split; [exact L|]. split; [cbn; rewrite M; reflexivity|].
      subst s'. eapply wo_failed; eassumption.
    + discriminate H.
Qed.

(** The same without assuming distinct names, and for scans that end early. *)
Lemma scan_consistent su es : forall s st q st', consistent st -> scan_entries su es s st = Ok (q, st') -> consistent st'.
Proof.
  induction es as [|e es IH]; intros s st q st' C H; cbn [scan_entries] in H.
  - apply Ok_inj in H. injection H as <- <-. exact C.
  - destruct (is_raw e) eqn:R; cbn [andb] in H; [|eapply IH; eassumption].
    apply raw_spec in R. destruct (seen st e) eqn:Se; cbn [negb] in H; [eapply IH; eassumption|].
    destruct (reduce_file su e s (v_files st)) as [[[r s'] fs']| | |] eqn:E; cbn [obind] in H; try discriminate H.
    destruct r as [ims| |].
    + eapply IH; [|exact H]. apply consistent_saved; assumption.
    + eapply IH; [|exact H]. apply consistent_failed; assumption.
    + apply Ok_inj in H. injection H as <- <-. exact C.
Qed.
Lemma monitor_consistent su rs : forall st q st', consistent st -> monitor su rs st = Ok (q, st') -> consistent st'.
Proof.
  induction rs as [|r rs IH]; intros st q st' C H; cbn [monitor] in H.
  - apply Ok_inj in H. injection H as <- <-. exact C.
  - destruct (existsb is_stop (rd_check r)).
    + apply Ok_inj in H. injection H as <- <-. exact C.
    + destruct (scan_dir su (rd_scan r) st) as [[quit st1]| | |] eqn:E; cbn [obind] in H; try discriminate H.
      pose proof (scan_consistent _ _ _ _ _ _ C E) as C1.
      destruct quit; [|eapply IH; eassumption]. apply Ok_inj in H. injection H as <- <-. exact C1.
Qed.

Lemma C38_once_l su rs fs q st : monitor su rs (venus_start fs) = Ok (q, st) ->
  forall l1 n ims l2, v_log st = l1 ++ Saved n ims :: l2 -> ~ In n (map ev_name l2).
Proof. intros H. apply monitor_consistent in H; [apply H|apply start_consistent]. Qed.

Lemma monitor_app su rs rs' st q st' : monitor su (rs ++ rs') st = Ok (q, st') ->
  (exists st1, monitor su rs st = Ok (Running, st1) /\ monitor su rs' st1 = Ok (q, st')) \/
  (q <> Running /\ monitor su rs st = Ok (q, st')).
Proof.
  revert st. induction rs as [|r rs IH]; intros st H; cbn [app monitor] in *.
  - left. exists st. auto.
  - destruct (existsb is_stop (rd_check r)).
    + right. apply Ok_inj in H. injection H as <- <-. split; [discriminate|reflexivity].
    + destruct (scan_dir su (rd_scan r) st) as [[quit st1]| | |]; cbn [obind] in *; try discriminate H.
      destruct quit; [|apply IH; exact H]. right. apply Ok_inj in H. injection H as <- <-. split; [discriminate|reflexivity].
Qed.
Lemma monitor_app_ok su rs rs' st st1 : monitor su rs st = Ok (Running, st1) ->
  monitor su (rs ++ rs') st = monitor su rs' st1.
Proof.
  revert st. induction rs as [|r rs IH]; intros st H; cbn [app monitor] in *.
  - apply Ok_inj in H. injection H as <-. reflexivity.
  - destruct (existsb is_stop (rd_check r)); [discriminate H|].
    destruct (scan_dir su (rd_scan r) st) as [[quit st2]| | |]; cbn [obind] in *; try discriminate H.
    destruct quit; [discriminate H|]. apply IH. exact H.
Qed.

Lemma C38_offered_l su rs r fs st' : NoDup (map d_name (rd_scan r)) ->
  monitor su (rs ++ [r]) (venus_start fs) = Ok (Running, st') ->
  exists st due new, monitor su rs (venus_start fs) = Ok (Running, st) /\
    sublist (fun e => raw_file e /\ ~ was_saved (v_log st) (d_name e)) (rd_scan r) due /\
    v_log st' = v_log st ++ new /\ map ev_name new = map d_name due /\ worked_on su ts0 due new.
Proof.
  intros ND H. apply monitor_app in H. destruct H as [(st & H1 & H2)|[N _]]; [|congruence].
  cbn [monitor] in H2. destruct (existsb is_stop (rd_check r)); [discriminate H2|].
  destruct (scan_dir su (rd_scan r) st) as [[quit st2]| | |] eqn:E; cbn [obind] in *; try discriminate H2.
  destruct quit; [discriminate H2|]. apply Ok_inj in H2. injection H2 as <-.
  pose proof (monitor_consistent _ _ _ _ _ (start_consistent fs) H1) as C.
  destruct (scan_events su _ _ _ _ C ND E) as (_ & due & new & X). exists st, due, new. split; [exact H1|exact X].
Qed.

Lemma C39_l su rs r rs' fs st : monitor su rs (venus_start fs) = Ok (Running, st) -> stops r ->
  monitor su (rs ++ r :: rs') (venus_start fs) = Ok (Stopped, st).
Proof.
  intros H S. rewrite (monitor_app_ok _ _ _ _ _ H). cbn [monitor]. rewrite (proj2 (stops_spec r) S). reflexivity.
Qed.
Lemma C39_only_l su rs fs st : monitor su rs (venus_start fs) = Ok (Stopped, st) ->
  exists rs1 r rs2, rs = rs1 ++ r :: rs2 /\ stops r /\ (forall r', In r' rs1 -> ~ stops r') /\
    monitor su rs1 (venus_start fs) = Ok (Running, st).
Proof.
  generalize (venus_start fs). induction rs as [|r rs IH]; intros v H; cbn [monitor] in H; [discriminate H|].
  pose proof (stops_spec r) as SP. destruct (existsb is_stop (rd_check r)) eqn:Es.
  - apply Ok_inj in H. injection H as <-. exists [], r, rs. split; [reflexivity|]. split; [apply SP; reflexivity|].
    split; [intros r' []|reflexivity].
  - destruct (scan_dir su (rd_scan r) v) as [[quit v1]| | |] eqn:E; cbn [obind] in H; try discriminate H.
    destruct quit; [discriminate H|]. destruct (IH v1 H) as (rs1 & r1 & rs2 & -> & S & N & M).
    exists (r :: rs1), r1, rs2. split; [reflexivity|]. split; [exact S|]. split.
    + intros r' [<-|I]; [|auto]. intros Q. apply SP in Q. discriminate Q.
    + cbn [monitor]. rewrite Es, E. cbn [obind]. exact M.
Qed.
