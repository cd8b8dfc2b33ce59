(** Proofs that the auto reducer and the command line program make the same images (C108). *)
From Coq Require Import Reals String Permutation.
From Verif Require Import P_Measure P_EventsProgram P_CliRun P_Tof P_Main P_Program P_Reduce P_Append.
From Verif Require Export S_Agree.
From Coq Require Import Lia ZifyBool.
Local Open Scope Z_scope.

Lemma entered_binned ext (vo : venus_options) cfg o hss nss : Forall2 (neutrons_of ext (g_abs cfg)) hss nss ->
  o_mode o = vo_mode vo -> entered (setup_of ext vo cfg) hss (binned o hss nss).
Proof.
  intros N M. exists (combine hss nss). cbn [su_ext su_cfg su_hit setup_of]. unfold binned. rewrite M.
  assert (F : map fst (combine hss nss) = hss) by (clear M; induction N; cbn [combine map fst]; congruence).
  assert (S : map snd (combine hss nss) = nss) by (clear M F; induction N; cbn [combine map snd]; congruence).
  split.
  - apply all_events_spec. split; [exact F|]. clear M F S. induction N; constructor; [apply events_of_spec; assumption|assumption].
  - rewrite F, S. reflexivity.
Qed.

Lemma cli_tallied ext vo cfg truth names d d' : vo_out vo <> ""%string ->
  images_fit (d_files d) (vo_out vo) (vo_base vo) (length (g_edges cfg) - 1) 517 ->
  cli_runs ext cfg (vo_out vo) (vo_base vo) (vo_mode vo) truth names d d' ->
  exists ens, tallied (setup_of ext vo cfg) truth names ens /\
    forall i x y u, (i < length (g_edges cfg) - 1)%nat -> 0 <= x < 517 -> 0 <= y < 517 ->
      prior (d_files d) (tiff_name (vo_out vo) (vo_base vo) i) 517 517 x y u ->
      names <> [] ->
      exists c, counted (fun e => lands (g_sr cfg) (g_edges cfg) e i x y) (concat ens) c /\
        disk (d_files d') (tiff_name (vo_out vo) (vo_base vo) i) x y = Some ((u + c) mod 2 ^ 32).
Proof.
  intros Ne Hf R. induction R as [d|nm names o ds k d d1 d' Eo Eb Em Tm R K Rs IH].
  - exists []. split; [constructor|]. intros i x y u _ _ _ _ X. elim X. reflexivity.
  - assert (Sv : forall i, (i < length (g_edges cfg) - 1)%nat -> saved (d_files d1) (tiff_name (vo_out vo) (vo_base vo) i) 517 517).
    { rewrite <- Eo, <- Eb. apply (completed_saved _ _ _ _ _ _ _ K). rewrite Eo. exact Ne. }
    destruct IH as (ens & T & D). { intros i Hi. left. apply Sv, Hi. }
    destruct K as (fu & w & ord & args & A1 & A2 & A3 & A4 & A5 & A6 & A7 & A8 & A9 & A10 & A11 & A12 & A13 & A14 & A15 & A16).
    destruct (C81_program_l fu ext w ord args d d1 o cfg ds 517) as (h1 & n1 & s1 & P & N & _ & _ & _ & Ti & _); try assumption.
    destruct (C90_gdc_l ds (truth nm) k A6 R) as (s2 & P2). rewrite Tm in P.
    destruct (processed_unique _ _ _ _ _ _ _ P2 P) as [<- _].
    exists (binned o (truth nm) n1 :: ens). split; [constructor; [apply entered_binned; assumption|exact T]|].
    intros i x y u Hi Hx Hy Pr _. rewrite Eo, Eb in Ti. destruct (Ti Ne i x y u Hi Hx Hy Pr) as (c & C & Dk).
    cbn [concat]. destruct names as [|nm' names].
    + assert (E : d' = d1) by (inversion Rs; reflexivity). subst d'. inversion T; subst. exists c. cbn [concat]. rewrite app_nil_r.
      split; [exact C|exact Dk].
    + destruct (D i x y _ Hi Hx Hy (prior_saved _ _ _ _ _ _ _ (Sv i Hi) Dk) ltac:(discriminate)) as (c' & C' & D').
      exists (c + c'). split; [apply counted_app; assumption|]. rewrite D'. f_equal. rewrite Zplus_mod_idemp_l. f_equal. ring.
Qed.

Lemma C108_l ext stoi parse conf args o cfg truth vs v rest d names d' :
  understood_venus stoi args o -> configured_venus parse conf o cfg -> vo_out o <> ""%string ->
  edges_ok (g_edges cfg) -> g_sr cfg = f_of_Z 1 ->
  images_fit (d_files d) (vo_out o) (vo_base o) (length (g_edges cfg) - 1) 517 ->
  Forall sound vs -> Forall (fun v => ~ visit_stops v) vs -> visit_stops v ->
  faithful (length (g_edges cfg) - 1) truth vs ->
  names <> [] -> NoDup names -> (forall nm, In nm names <-> offered vs nm) ->
  cli_runs ext cfg (vo_out o) (vo_base o) (vo_mode o) truth names d d' ->
  exists st, venus_main ext stoi parse conf args (vs ++ v :: rest) (d_files d) = Ok (Some 0, st) /\
    forall i x y, (i < length (g_edges cfg) - 1)%nat -> 0 <= x < 517 -> 0 <= y < 517 ->
      exists z, disk (v_files st) (tiff_name (vo_out o) (vo_base o) i) x y = Some z /\
        disk (d_files d') (tiff_name (vo_out o) (vo_base o) i) x y = Some z.
Proof.
  intros U C Ne Oe Hsr Hf So Ns Sv Fa Nn ND' Of R.
  set (su := setup_of ext o cfg).
  destruct (monitor_so_far su truth (d_files d) Oe Hsr Hf vs (venus_start (d_files d)) []
    (so_far_start su _ (d_files d)) Ns Fa) as (st & names1 & M & (_ & ND & _ & ens & T & D) & N).
  destruct (cli_tallied ext o cfg truth names d d' Ne Hf R) as (ens' & T' & D').
  exists st. split; [eapply main_run; eassumption|].
  assert (P : Permutation names1 names).
  { apply NoDup_Permutation; [exact ND|exact ND'|]. intros nm. rewrite N, Of. cbn [In]. tauto. }
  destruct (tallied_perm su truth names1 names P ens T) as (ens2 & T2 & P2).
  rewrite (tallied_unique _ _ _ _ _ T2 T') in P2. apply concat_perm in P2.
  intros i x y Hi Hx Hy. destruct D as [_ D1].
  assert (Ne1 : names1 <> []) by (intros ->; apply Permutation_nil in P; congruence).
  destruct (D1 Ne1 i Hi) as [_ Da].
  destruct (prior_exists _ _ _ _ x y (Hf i Hi) Hx Hy) as (u & Pr).
  destruct (Da x y u Hx Hy Pr) as (c & Cc & Ea). destruct (D' i x y u Hi Hx Hy Pr Nn) as (c' & Cc' & Eb).
  rewrite Hsr in Cc'. exists ((u + c) mod 2 ^ 32). split; [exact Ea|].
  rewrite (counted_unique _ _ _ (counted_perm _ _ _ P2 _ Cc) _ Cc'). exact Eb.
Qed.
