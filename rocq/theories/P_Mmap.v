(** Lemmas behind Properties_Mmap.v. *)
From Coq Require Import Ascii Reals String Lra Lia ZifyBool Zify.
From Flocq Require Import Core.
From Verif Require Export P_CliRun S_Mmap.
Ltac Zify.zify_post_hook ::= Z.to_euclidean_division_equations.
Global Open Scope Z_scope.
Global Open Scope list_scope.

(** * Windows *)

(** The hits of the items of a window. *)
Definition hits_of (tg : bool) (it : list (Z * list packet)) (s : ts) : list (list hit) :=
  if tg then fst (pass GDC_mode it s)
  else map (fun q => emits GDC_mode true (fst q) ts0 (snd q)) it.
Definition ts_of (tg : bool) (it : list (Z * list packet)) (s : ts) : ts :=
  if tg then snd (pass GDC_mode it s) else s.

Lemma hits_of_app tg it it' s :
  hits_of tg (it ++ it') s = hits_of tg it s ++ hits_of tg it' (ts_of tg it s).
Proof. destruct tg; cbn [hits_of ts_of]; [rewrite pass_app; reflexivity|apply map_app]. Qed.
Lemma ts_of_app tg it it' s : ts_of tg (it ++ it') s = ts_of tg it' (ts_of tg it s).
Proof. destruct tg; cbn [ts_of]; [rewrite pass_app; reflexivity|reflexivity]. Qed.

Lemma window_items m len : bytes_ok m -> 1 <= len ->
  exists C bs it', (C <= length (packets m))%nat /\
   find_headers_limited len m = (bs, 8 * Z.of_nat C) /\
   Forall fresh bs /\ Forall (fun b => t_ts b = ts0) bs /\
   items_of bs m (8 * Z.of_nat C) = Some (items_cut C (packets m) ++ it') /\
   (it' = [] \/ exists c, it' = [(c, [])]) /\
   (C = length (packets m) \/
    exists p, nth_error (packets m) C = Some p /\ is_header p = true) /\
   (2 <= len -> packets m <> [] -> (1 <= C)%nat).
Proof.
  intros Hb Hl. destruct (find_lim_cut (packets m) len Hl) as (C & tl & L & E & D & P).
  set (bs := find_p (firstn C (packets m)) 0 ++ tl).
  assert (I1 : items_of (find_p (firstn C (packets m)) 0) m (8 * Z.of_nat C)
               = Some (items_cut C (packets m))).
  { apply (items_of_find m C [] (packets m) eq_refl). exact L. }
  assert (I2 : exists it', items_of tl m (8 * Z.of_nat C) = Some it' /\
     (it' = [] \/ exists c, it' = [(c, [])])).
  { destruct D as [[-> _]|(p & N1 & _ & ->)].
    - exists []. split; [reflexivity|auto].
    - cbn [items_of]. unfold batch_payload, header_batch, new_batch. cbn [t_num t_index t_chip].
      rewrite payload_aligned by assumption. replace (C - S C)%nat with 0%nat by lia.
      cbn [firstn]. rewrite firstn_nil. eexists. split; [reflexivity|]. right. eexists. reflexivity. }
  destruct I2 as (it' & I2 & T).
  exists C, bs, it'. split; [exact L|].
  split; [unfold find_headers_limited; rewrite find_lim_from_p; exact E|].
  split; [|split; [|split; [exact (items_of_app _ _ _ _ _ _ I1 I2)|split; [exact T|split; [|exact P]]]]].
  - apply Forall_app. split.
    + apply Forall_forall. intros b Hin. apply find_p_In in Hin.
      destruct Hin as (k & p & _ & _ & ->). reflexivity.
    + destruct D as [[-> _]|(p & _ & _ & ->)]; repeat constructor.
  - apply Forall_app. split.
    + apply Forall_forall. intros b Hin. apply find_p_In in Hin.
      destruct Hin as (k & p & _ & _ & ->). reflexivity.
    + destruct D as [[-> _]|(p & _ & _ & ->)]; repeat constructor.
  - destruct D as [[_ D]|(p & N1 & N2 & _)]; [left; exact D|right; exists p; auto].
Qed.

Lemma extract_plain bs w fin it : bytes_ok w -> Forall fresh bs -> Forall (fun b => t_ts b = ts0) bs ->
  items_of bs w fin = Some it ->
  exists bs2, extract_all GDC_mode bs w fin = Ok bs2 /\ map t_hits bs2 = hits_of false it ts0.
Proof.
  intros Hb. revert it. induction bs as [|b bs IH]; intros it F T I.
  - cbn in I. inversion I. exists []. auto.
  - inversion F as [|? ? F1 F2]; inversion T as [|? ? T1 T2]; subst. cbn [items_of] in I.
    destruct (batch_payload b w fin) as [ps|] eqn:P; [|discriminate].
    destruct (items_of bs w fin) as [it0|]; [|discriminate]. inversion I; subst.
    destruct (IH _ F2 T2 eq_refl) as (bs2 & E & M). cbn [extract_all].
    unfold extract_hits. rewrite process_packets_payload by exact Hb. rewrite P. cbn [obind].
    rewrite E. cbn [obind]. eexists. split; [reflexivity|]. cbn [map t_hits hits_of fst snd].
    rewrite F1, T1. cbn [app]. f_equal. exact M.
Qed.

Lemma window_extracts (tg : bool) w len s : bytes_ok w -> 1 <= len ->
  exists (C : nat) (bs bs1 bs2 : list batch) (it' : list (list hit)), (C <= length (packets w))%nat /\
   find_headers_limited len w = (bs, 8 * Z.of_nat C) /\
   (if tg return outcome (list batch * ts) then locate GDC_mode bs w (8 * Z.of_nat C) s else Ok (bs, s)) =
     Ok (bs1, ts_of tg (items_cut C (packets w)) s) /\
   extract_all GDC_mode bs1 w (8 * Z.of_nat C) = Ok bs2 /\
   map t_hits bs2 = hits_of tg (items_cut C (packets w)) s ++ it' /\
   (it' = [] \/ it' = [[]]) /\
   (C = length (packets w) \/
    exists p, nth_error (packets w) C = Some p /\ is_header p = true) /\
   (2 <= len -> packets w <> [] -> (1 <= C)%nat).
Proof.
  intros Hb Hl. destruct (window_items w len Hb Hl) as (C & bs & it' & W1 & W2 & W3 & W4 & W5 & W6 & W7 & W8).
  assert (T : exists bs1 bs2,
     (if tg then locate GDC_mode bs w (8 * Z.of_nat C) s else Ok (bs, s)) =
       Ok (bs1, ts_of tg (items_cut C (packets w) ++ it') s) /\
     extract_all GDC_mode bs1 w (8 * Z.of_nat C) = Ok bs2 /\
     map t_hits bs2 = hits_of tg (items_cut C (packets w) ++ it') s).
  { destruct tg.
    - pose proof (locate_extract GDC_mode bs w (8 * Z.of_nat C) s Hb W3) as LE. rewrite W5 in LE.
      destruct (locate GDC_mode bs w (8 * Z.of_nat C) s) as [[bs1 s1]| | |]; try discriminate LE.
      cbn [obind] in LE. destruct (extract_all GDC_mode bs1 w (8 * Z.of_nat C)) as [bs2| | |] eqn:E; try discriminate LE.
      cbn [obind] in LE. apply Ok_inj in LE. exists bs1, bs2. cbn [ts_of hits_of].
      rewrite <- LE. cbn [fst snd]. auto.
    - destruct (extract_plain bs w _ _ Hb W3 W4 W5) as (bs2 & E & M). exists bs, bs2. auto. }
  destruct T as (bs1 & bs2 & T1 & T2 & T3).
  exists C, bs, bs1, bs2, (hits_of tg it' (ts_of tg (items_cut C (packets w)) s)).
  rewrite ts_of_app in T1. rewrite hits_of_app in T3.
  split; [exact W1|]. split; [exact W2|]. split; [|split; [exact T2|split; [exact T3|split; [|split; [exact W7|exact W8]]]]].
  - rewrite T1. f_equal. f_equal. destruct W6 as [->|[c ->]]; destruct tg; reflexivity.
  - destruct W6 as [->|[c ->]]; destruct tg; auto.
Qed.

(** * Events of a range *)

Definition centroid_obj (o : abs_obj) : Prop := o_method o = MCentroid.

Lemma fit_any o hits : centroid_obj o -> abs_fit 8 mmap_cfg (abs_reset o) hits = abs_fit 8 mmap_cfg abs_new hits.
Proof. intros H. unfold abs_fit, abs_reset. cbn [o_method o_labels o_indices abs_new firstn]. rewrite H. reflexivity. Qed.

Lemma range_extracted ext w fin : forall bs bs2 o, centroid_obj o ->
  extract_all GDC_mode bs w fin = Ok bs2 ->
  range_events ext w fin o bs =
  (let! l := all_events ext mmap_cfg (map t_hits bs2) in Ok (bs2, map snd l)).
Proof.
  induction bs as [|b bs IH]; intros bs2 o Ho E; cbn [extract_all range_events] in *.
  - apply Ok_inj in E. subst. reflexivity.
  - destruct (extract_hits GDC_mode b w fin) as [b1| | |]; try discriminate E. cbn [obind] in *.
    destruct (extract_all GDC_mode bs w fin) as [bs'| | |] eqn:X; try discriminate E. cbn [obind] in *.
    apply Ok_inj in E. subst bs2. cbn [map all_events]. unfold events_of.
    rewrite fit_any by exact Ho.
    destruct (abs_fit 8 mmap_cfg abs_new (t_hits b1)) as [o1| | |] eqn:F; cbn [obind]; try reflexivity.
    destruct (abs_get_events ext mmap_cfg o1 (t_hits b1)) as [evs| | |]; cbn [obind]; try reflexivity.
    rewrite (IH bs' o1); [|destruct (fit_shape _ _ _ _ _ F) as [_ M]; unfold centroid_obj; rewrite M; reflexivity|reflexivity].
    destruct (all_events ext mmap_cfg (map t_hits bs')) as [l| | |]; reflexivity.
Qed.

Lemma range_any ext w fin bs : forall o, centroid_obj o ->
  range_events ext w fin o bs = range_events ext w fin abs_new bs.
Proof.
  intros o Ho. destruct bs as [|b bs]; [reflexivity|]. cbn [range_events].
  destruct (extract_hits GDC_mode b w fin) as [b1| | |]; try reflexivity. cbn [obind].
  rewrite (fit_any o _ Ho). reflexivity.
Qed.

Lemma range_app ext w fin bs bs' : forall o, centroid_obj o ->
  range_events ext w fin o (bs ++ bs') =
  (let! (b1, e1) := range_events ext w fin o bs in
   let! (b2, e2) := range_events ext w fin abs_new bs' in Ok (b1 ++ b2, e1 ++ e2)).
Proof.
  induction bs as [|b bs IH]; intros o Ho; cbn [app range_events].
  - cbn [obind]. rewrite range_any by exact Ho.
    destruct (range_events ext w fin abs_new bs') as [[b2 e2]| | |]; reflexivity.
  - destruct (extract_hits GDC_mode b w fin) as [b1| | |]; try reflexivity. cbn [obind].
    destruct (abs_fit 8 mmap_cfg (abs_reset o) (t_hits b1)) as [o1| | |] eqn:F; cbn [obind]; try reflexivity.
    destruct (abs_get_events ext mmap_cfg o1 (t_hits b1)) as [evs| | |]; cbn [obind]; try reflexivity.
    rewrite IH by (destruct (fit_shape _ _ _ _ _ F) as [_ M]; unfold centroid_obj; rewrite M; exact Ho).
    destruct (range_events ext w fin o1 bs) as [[c1 f1]| | |]; cbn [obind]; try reflexivity.
    destruct (range_events ext w fin abs_new bs') as [[b2 e2]| | |]; reflexivity.
Qed.

Lemma reduce_eq ext w fin p : forall bs out, plan_size p = length bs ->
  reduce ext w fin p bs out =
  (let! (b, e) := range_events ext w fin abs_new bs in Ok (b, out ++ e)).
Proof.
  induction p as [n|l IHl r IHr|l IHl r IHr]; intros bs out H; cbn [reduce plan_size] in *.
  - rewrite H, firstn_all. reflexivity.
  - replace (range_events ext w fin abs_new bs) with (range_events ext w fin abs_new (firstn (plan_size l) bs ++ skipn (plan_size l) bs)) by (rewrite firstn_skipn; reflexivity).
    rewrite range_app by reflexivity.
    rewrite IHl by (rewrite firstn_length; lia).
    destruct (range_events ext w fin abs_new (firstn (plan_size l) bs)) as [[b1 e1]| | |]; cbn [obind]; try reflexivity.
    rewrite IHr by (rewrite skipn_length; lia).
    destruct (range_events ext w fin abs_new (skipn (plan_size l) bs)) as [[b2 e2]| | |]; cbn [obind]; try reflexivity.
    rewrite app_assoc. reflexivity.
  - replace (range_events ext w fin abs_new bs) with (range_events ext w fin abs_new (firstn (plan_size l) bs ++ skipn (plan_size l) bs)) by (rewrite firstn_skipn; reflexivity).
    rewrite range_app by reflexivity.
    rewrite IHl by (rewrite firstn_length; lia).
    destruct (range_events ext w fin abs_new (firstn (plan_size l) bs)) as [[b1 e1]| | |]; cbn [obind]; try reflexivity.
    rewrite IHr by (rewrite skipn_length; lia).
    destruct (range_events ext w fin abs_new (skipn (plan_size l) bs)) as [[b2 e2]| | |]; cbn [obind]; try reflexivity.
    rewrite <- app_assoc. reflexivity.
Qed.

(** * Bad hits *)

Definition tof_ms (t : Z) : f64 := fmul (fmul (f_of_Z t) c_25) (f_lit 1 1000000).
Definition limit (rate : Z) : f64 := fadd (fdiv (f_of_Z 1) (f_of_Z rate)) (f_lit 1 1000000).
Definition threshold (rate : Z) : Z := (10 ^ 6 + rate) / (25 * rate).

Lemma micro_pos : is_finite (f_lit 1 1000000) = true /\ (0 < B2R (f_lit 1 1000000) <= 1)%R.
Proof.
  assert (F : is_finite (f_lit 1 1000000) = true) by (vm_compute; reflexivity).
  split; [exact F|]. pose proof (is_int_of_Z 0 ltac:(lia)) as [F0 E0]. pose proof (is_int_of_Z 1 ltac:(lia)) as [F1 E1].
  assert (A : flt (f_of_Z 0) (f_lit 1 1000000) = true) by (vm_compute; reflexivity).
  assert (B : fle (f_lit 1 1000000) (f_of_Z 1) = true) by (vm_compute; reflexivity).
  rewrite flt_R in A by assumption. rewrite fle_R in B by assumption. rewrite E0 in A. rewrite E1 in B.
  split.
  - destruct (Rlt_bool_spec (IZR 0) (B2R (f_lit 1 1000000))); [assumption|discriminate].
  - destruct (Rle_bool_spec (B2R (f_lit 1 1000000)) (IZR 1)); [assumption|discriminate].
Qed.

Lemma tof_ms_R t : 0 <= t < 2 ^ 32 -> is_finite (tof_ms t) = true /\
  B2R (tof_ms t) = rnd (IZR (25 * t) * B2R (f_lit 1 1000000)).
Proof.
  intros H. destruct micro_pos as [FM [P1 P2]].
  pose proof (is_int_of_Z t ltac:(lia)) as It. pose proof (is_int_of_Z 25 ltac:(lia)) as I25.
  pose proof (is_int_mul _ _ _ _ It I25 ltac:(lia)) as [F E]. fold c_25 in F, E.
  destruct (fmul_correct (fmul (f_of_Z t) c_25) (f_lit 1 1000000) 60) as [C D]; try assumption; try lia.
  - rewrite E. rewrite Rabs_mult. rewrite (Rabs_pos_eq (B2R (f_lit 1 1000000))) by lra.
    apply Rle_trans with (Rabs (IZR (t * 25)) * 1)%R.
    + apply Rmult_le_compat_l; [apply Rabs_pos|exact P2].
    + rewrite Rmult_1_r. apply IZR_abs_bpow; lia.
  - split; [exact D|]. unfold tof_ms. rewrite C, E. rewrite (Z.mul_comm t 25). reflexivity.
Qed.

Lemma tof_ms_mono t t' : 0 <= t <= t' -> t' < 2 ^ 32 -> (B2R (tof_ms t) <= B2R (tof_ms t'))%R.
Proof.
  intros H H'. destruct micro_pos as [_ [P1 _]].
  rewrite (proj2 (tof_ms_R t ltac:(lia))), (proj2 (tof_ms_R t' ltac:(lia))). apply rnd_le.
  apply Rmult_le_compat_r; [lra|]. apply IZR_le. lia.
Qed.

Definition known (rate : Z) : Prop := In rate (map fst rates).
Lemma known_cases (P : Z -> Prop) : P 1 -> P 10 -> P 15 -> P 30 -> P 45 -> P 60 -> forall r, known r -> P r.
Proof. intros A B C D E F r K. cbn in K. intuition (subst; assumption). Qed.

Lemma limit_check rate : known rate ->
  is_finite (limit rate) && fle (tof_ms (threshold rate)) (limit rate) && flt (limit rate) (tof_ms (threshold rate + 1)) &&
  (0 <=? threshold rate) && (threshold rate <? 100000) = true.
Proof. revert rate. apply known_cases; vm_compute; reflexivity. Qed.

Lemma over_limit_b rate t : known rate -> 0 <= t < 2 ^ 32 ->
  fgt (tof_ms t) (limit rate) = (threshold rate <? t).
Proof.
  intros K Ht. pose proof (limit_check rate K) as L.
  apply andb_prop in L as [L L5]. apply andb_prop in L as [L L4]. apply andb_prop in L as [L L3].
  apply andb_prop in L as [L1 L2].
  assert (T0 : 0 <= threshold rate) by lia. assert (T1 : threshold rate < 100000) by lia.
  unfold fgt. change (Bltb (limit rate) (tof_ms t)) with (flt (limit rate) (tof_ms t)).
  rewrite flt_R; [|exact L1|apply tof_ms_R; lia].
  rewrite fle_R in L2; [|apply tof_ms_R; lia|exact L1].
  rewrite flt_R in L3; [|exact L1|apply tof_ms_R; lia].
  destruct (Rle_bool_spec (B2R (tof_ms (threshold rate))) (B2R (limit rate))) as [A|A]; [|discriminate L2].
  destruct (Rlt_bool_spec (B2R (limit rate)) (B2R (tof_ms (threshold rate + 1)))) as [B|B]; [|discriminate L3].
  destruct (Z.ltb_spec (threshold rate) t) as [G|G].
  - pose proof (tof_ms_mono (threshold rate + 1) t ltac:(lia) ltac:(lia)).
    destruct (Rlt_bool_spec (B2R (limit rate)) (B2R (tof_ms t))); [reflexivity|lra].
  - pose proof (tof_ms_mono t (threshold rate) ltac:(lia) ltac:(lia)).
    destruct (Rlt_bool_spec (B2R (limit rate)) (B2R (tof_ms t))); [lra|reflexivity].
Qed.

Lemma over_limit_int rate t : known rate ->
  (threshold rate < t <-> (IZR (25 * t) / 10 ^ 6 > 1 / IZR rate + 1 / 10 ^ 6)%R).
Proof.
  intros K.
  assert (R0 : 0 < rate) by (revert rate K; apply known_cases; lia).
  assert (E : threshold rate < t <-> 10 ^ 6 + rate < 25 * t * rate).
  { unfold threshold. split; intros H; nia. }
  rewrite E. assert (RP : (0 < IZR rate)%R) by (apply IZR_lt; exact R0).
  assert (X : (1 / IZR rate + 1 / 10 ^ 6 = IZR (10 ^ 6 + rate) / (10 ^ 6 * IZR rate))%R).
  { rewrite plus_IZR. change (IZR (10 ^ 6)) with 1000000%R. field. lra. }
  assert (Y : (IZR (25 * t) / 10 ^ 6 = IZR (25 * t * rate) / (10 ^ 6 * IZR rate))%R).
  { rewrite (mult_IZR (25 * t) rate). field. lra. }
  rewrite X, Y. assert (D : (0 < / (10 ^ 6 * IZR rate))%R) by (apply Rinv_0_lt_compat; nra).
  unfold Rdiv. split; intros H.
  - apply Rmult_lt_compat_r; [exact D|]. apply IZR_lt. exact H.
  - apply lt_IZR. apply (Rmult_lt_reg_r _ _ _ D). exact H.
Qed.

Definition timed (h : hit) : Prop := exists t, h_tof h = Some t /\ 0 <= t < 2 ^ 32.

Lemma bad_hits_counts rate hits : known rate -> Forall timed hits ->
  exists n, bad_hits rate hits = Ok n /\ counted (over_limit rate) hits n.
Proof.
  intros K. induction 1 as [|h hits (t & E & Ht) _ (n & IH & C)]; cbn [bad_hits].
  - exists 0. split; [reflexivity|constructor].
  - unfold tof_ns. rewrite E, IH. cbn [obind]. eexists. split; [reflexivity|].
    fold (tof_ms t). fold (limit rate). rewrite (over_limit_b rate t K Ht).
    destruct (Z.ltb_spec (threshold rate) t) as [G|G].
    + apply counted_yes; [|exact C]. exists t. split; [exact E|]. apply over_limit_int; [exact K|lia].
    + apply counted_no; [|exact C]. intros (t' & E' & L). rewrite E in E'. inversion E'; subst.
      apply over_limit_int in L; [lia|exact K].
Qed.

(** * The loop *)

Lemma find_lim_all ps : forall off cnt len, cnt + zlen (find_p ps off) < len ->
  find_lim_p ps off cnt len = (find_p ps off, off + 8 * zlen ps).
Proof.
  induction ps as [|p ps IH]; intros off cnt len H; cbn [find_lim_p find_p] in *.
  - f_equal. unfold zlen. cbn. lia.
  - rewrite zlen_cons. destruct (is_header p).
    + rewrite zlen_cons in H. pose proof (zlen_nonneg (find_p ps (off + 8))).
      destruct (Z.geb_spec (cnt + 1) len); [lia|]. rewrite IH by lia. f_equal. lia.
    + rewrite IH by exact H. f_equal. lia.
Qed.

Lemma all_events_app ext cfg a b : all_events ext cfg (a ++ b) =
  (let! l := all_events ext cfg a in let! l' := all_events ext cfg b in Ok (l ++ l')).
Proof.
  induction a as [|h a IH]; cbn [app all_events].
  - cbn [obind]. destruct (all_events ext cfg b); reflexivity.
  - destruct (events_of ext cfg h); cbn [obind]; try reflexivity. rewrite IH.
    destruct (all_events ext cfg a); cbn [obind]; try reflexivity.
    destruct (all_events ext cfg b); reflexivity.
Qed.
Lemma events_of_nil ext cfg : events_of ext cfg [] = Ok [].
Proof. reflexivity. Qed.

Section Loop.
Variables (ext : externals) (o : mopts) (len : Z).
Notation tg := (mo_tgdc o).
Notation rate := (mo_rate o).

Definition bad_of (hits : list hit) : outcome Z := if rate >? 0 then bad_hits rate hits else Ok 0.
Definition after_window (st : mstate) (s : ts) (hss : list (list hit)) (es : list (list neutron)) (bad : Z) : mstate :=
  MState s (ms_events st ++ es) (ms_hits st + zlen (concat hss)) (ms_bad st + bad)
    (ms_nevents st + zlen (concat (ms_events st ++ es))).

Lemma step_eq p w st : bytes_ok w -> 1 <= len -> (forall n, plan_size (p n) = n) ->
  exists C it', (C <= length (packets w))%nat /\ (it' = [] \/ it' = [[]]) /\
   (C = length (packets w) \/ exists q, nth_error (packets w) C = Some q /\ is_header q = true) /\
   (2 <= len -> packets w <> [] -> (1 <= C)%nat) /\
   (zlen (find_p (packets w) 0) < len -> C = length (packets w)) /\
   window_step ext o len p w st =
   (let hss := hits_of tg (items_cut C (packets w)) (ms_ts st) ++ it' in
    let! l := all_events ext mmap_cfg hss in
    let! bad := bad_of (concat hss) in
    Ok (after_window st (ts_of tg (items_cut C (packets w)) (ms_ts st)) hss (map snd l) bad, 8 * Z.of_nat C)).
Proof.
  intros Hb Hl Hp.
  destruct (window_extracts tg w len (ms_ts st) Hb Hl) as (C & bs & bs1 & bs2 & it' & W1 & W2 & W3 & W4 & W5 & W6 & W7 & W8).
  exists C, it'. split; [exact W1|]. split; [exact W6|]. split; [exact W7|]. split; [exact W8|]. split.
  { intros H. unfold find_headers_limited in W2. rewrite find_lim_from_p, find_lim_all in W2 by lia.
    inversion W2. unfold zlen in *. lia. }
  unfold window_step. rewrite W2, W3. cbn [obind]. cbv zeta. rewrite <- W5.
  assert (R : (if mo_tbb o then reduce ext w (8 * Z.of_nat C) (p (length bs1)) bs1 []
               else range_events ext w (8 * Z.of_nat C) abs_new bs1) =
              (let! l := all_events ext mmap_cfg (map t_hits bs2) in Ok (bs2, map snd l))).
  { rewrite <- (range_extracted ext w _ bs1 bs2 abs_new eq_refl W4).
    destruct (mo_tbb o); [|reflexivity]. rewrite reduce_eq by apply Hp.
    destruct (range_events ext w (8 * Z.of_nat C) abs_new bs1) as [[b e]| | |]; reflexivity. }
  rewrite R. destruct (all_events ext mmap_cfg (map t_hits bs2)) as [l| | |]; cbn [obind]; try reflexivity.
Qed.

Lemma tail_nothing (it' : list (list hit)) : it' = [] \/ it' = [[]] -> concat it' = [].
Proof. intros [->| ->]; reflexivity. Qed.

Lemma all_events_tail hss it' : it' = [] \/ it' = [[]] ->
  (forall l, all_events ext mmap_cfg (hss ++ it') = Ok l -> exists l0,
     all_events ext mmap_cfg hss = Ok l0 /\ concat (map snd l) = concat (map snd l0)) /\
  (forall l0, all_events ext mmap_cfg hss = Ok l0 -> exists l, all_events ext mmap_cfg (hss ++ it') = Ok l).
Proof.
  intros H. rewrite all_events_app.
  destruct (all_events ext mmap_cfg hss) as [l0| | |]; cbn [obind].
  - destruct H as [->| ->]; cbn [all_events]; rewrite ?events_of_nil; cbn [obind].
    + split; [|intros; eexists; reflexivity]. intros l E. apply Ok_inj in E. subst. exists l0.
      rewrite app_nil_r. auto.
    + split; [|intros; eexists; reflexivity]. intros l E. apply Ok_inj in E. subst. exists l0.
      rewrite map_app, concat_app. cbn. rewrite app_nil_r. auto.
  - split; discriminate.
  - split; discriminate.
  - split; discriminate.
Qed.

(** The payloads of items are packets of the file. *)
Lemma firstn_In {A} n (l : list A) a : In a (firstn n l) -> In a l.
Proof. intros I. rewrite <- (firstn_skipn n l). apply in_or_app. left. exact I. Qed.
Lemma items_cut_ok C : forall ps, Forall packet_ok ps -> Forall (fun q => Forall packet_ok (snd q)) (items_cut C ps).
Proof.
  induction C as [|C IH]; intros ps H; [constructor|]. destruct ps as [|p ps]; [constructor|].
  inversion H as [|? ? H1 H2]; subst. cbn [items_cut]. destruct (is_header p); [|apply IH; exact H2].
  constructor; [|apply IH; exact H2]. cbn [snd]. apply Forall_forall. intros q I.
  rewrite Forall_forall in H2. apply H2. apply firstn_In in I. apply firstn_In in I. exact I.
Qed.

Lemma emits_timed chip s ps : Forall packet_ok ps -> Forall timed (emits GDC_mode true chip s ps).
Proof.
  intros H. destruct (yields_facts _ _ _ _ _ (emits_yields GDC_mode chip s ps) H) as [_ F].
  eapply Forall_impl; [|exact F]. intros h (_ & _ & _ & _ & A & B).
  destruct (h_tof h) as [t|] eqn:E; [|congruence]. exists t. split; [exact E|apply A; reflexivity].
Qed.

Lemma hits_timed b it s : Forall (fun q => Forall packet_ok (snd q)) it -> Forall timed (concat (hits_of b it s)).
Proof.
  intros H. revert s. induction H as [|[c ps] it H _ IH]; intros s; [destruct b; constructor|].
  destruct b; cbn [hits_of map pass fst snd].
  - specialize (IH (ts_after GDC_mode s ps)). cbn [hits_of] in IH.
    destruct (pass GDC_mode it (ts_after GDC_mode s ps)) as [hs s']. cbn [fst concat] in *.
    apply Forall_app. split; [apply emits_timed; exact H|exact IH].
  - cbn [concat]. apply Forall_app. split; [apply emits_timed; exact H|]. apply (IH s).
Qed.

Definition bad_count (hits : list hit) (n : Z) : Prop :=
  if rate >? 0 then counted (over_limit rate) hits n else n = 0.
Hypothesis rate_known : rate >? 0 = true -> known rate.

Lemma bad_of_counts hits : Forall timed hits -> exists n, bad_of hits = Ok n /\ bad_count hits n.
Proof.
  intros H. unfold bad_of, bad_count. destruct (rate >? 0) eqn:R.
  - apply bad_hits_counts; [apply rate_known; reflexivity|exact H].
  - eauto.
Qed.
Lemma bad_count_app a b m n : bad_count a m -> bad_count b n -> bad_count (a ++ b) (m + n).
Proof.
  unfold bad_count. destruct (rate >? 0); [|lia]. intros H Hb. induction H as [|x l k P H IH|x l k P H IH].
  - exact Hb.
  - cbn [app]. replace (k + 1 + n) with (k + n + 1) by lia. apply counted_yes; assumption.
  - cbn [app]. apply counted_no; assumption.
Qed.

Variable p : nat -> nat -> plan.
Hypothesis p_covers : covers p.
Variable m : list Z.
Hypothesis m_ok : bytes_ok m.

Lemma one_step k R st : (R <= length (packets m))%nat -> 1 <= len ->
  exists C it', (R + C <= length (packets m))%nat /\ (it' = [] \/ it' = [[]]) /\
   (R + C = length (packets m) \/ exists q, nth_error (packets m) (R + C) = Some q /\ is_header q = true)%nat /\
   (2 <= len -> (R < length (packets m))%nat -> (1 <= C)%nat) /\
   (zlen (find_p (skipn R (packets m)) 0) < len -> (R + C = length (packets m))%nat) /\
   window_step ext o len (p k) (skipn (Z.to_nat (8 * Z.of_nat R)) m) st =
   (let it := items_cut C (skipn R (packets m)) in
    let hss := hits_of tg it (ms_ts st) ++ it' in
    let! l := all_events ext mmap_cfg hss in
    let! bad := bad_of (concat hss) in
    Ok (after_window st (ts_of tg it (ms_ts st)) hss (map snd l) bad, 8 * Z.of_nat C)).
Proof.
  intros HR Hl. replace (Z.to_nat (8 * Z.of_nat R)) with (8 * R)%nat by lia.
  pose proof (step_eq (p k) (skipn (8 * R) m) st (skipn_bytes_ok _ _ m_ok) Hl (p_covers k)) as S.
  rewrite skipn_packets in S. destruct S as (C & it' & S1 & S2 & S3 & S4 & S5 & S6).
  rewrite skipn_length in *. exists C, it'. split; [lia|]. split; [exact S2|].
  split; [|split; [|split; [|exact S6]]].
  - destruct S3 as [S3|(q & N & Hq)]; [left; lia|right]. exists q. split; [|exact Hq].
    rewrite <- N. clear. generalize (packets m). induction R as [|R IH]; intros l; [reflexivity|].
    destruct l as [|x l]; [cbn; destruct C; reflexivity|]. cbn [skipn plus nth_error]. apply IH.
  - intros A B. apply S4; [exact A|]. intros N. apply (f_equal (@length _)) in N.
    rewrite skipn_length in N. cbn in N. lia.
  - intros A. specialize (S5 A). lia.
Qed.

Lemma all_timed C R s it' : it' = [] \/ it' = [[]] ->
  Forall timed (concat (hits_of tg (items_cut C (skipn R (packets m))) s ++ it')).
Proof.
  intros T. rewrite concat_app, (tail_nothing it' T), app_nil_r. apply hits_timed, items_cut_ok.
  apply Forall_forall. intros q I. pose proof (packets_ok m m_ok) as F. rewrite Forall_forall in F.
  apply F. rewrite <- (firstn_skipn R (packets m)). apply in_or_app. right. exact I.
Qed.

Lemma loop_post fuel : forall k R st st', zlen m mod 8 = 0 -> 1 <= len -> disjoint_p (packets m) ->
  (R <= length (packets m))%nat ->
  mmap_loop fuel ext o len p m k (8 * Z.of_nat R) st = Ok st' ->
  let hss := hits_of tg (items (skipn R (packets m))) (ms_ts st) in
  exists l bad, all_events ext mmap_cfg hss = Ok l /\ bad_count (concat hss) bad /\
    concat (ms_events st') = concat (ms_events st) ++ concat (map snd l) /\
    ms_hits st' = ms_hits st + zlen (concat hss) /\ ms_bad st' = ms_bad st + bad.
Proof.
  induction fuel as [|f IH]; intros k R st st' Hm Hl HD HR E; cbn [mmap_loop] in E;
    pose proof (aligned_end m Hm) as AE;
    (destruct (Z.ltb_spec (8 * Z.of_nat R) (zlen m)) as [G|G];
     [|cbv zeta; apply Ok_inj in E; subst st';
       replace R with (length (packets m)) by lia; rewrite skipn_all;
       exists [], 0; replace (hits_of tg (items []) (ms_ts st)) with (@nil (list hit)) by (destruct tg; reflexivity);
       cbn; split; [reflexivity|]; split; [unfold bad_count; destruct (rate >? 0); [constructor|reflexivity]|];
       rewrite app_nil_r; unfold zlen; cbn; repeat split; lia]); [discriminate E|].
  destruct (one_step k R st HR Hl) as (C & it' & S1 & S2 & S3 & S4 & S5 & S6). rewrite S6 in E. cbv zeta in E.
  set (it := items_cut C (skipn R (packets m))) in *.
  destruct (all_events ext mmap_cfg (hits_of tg it (ms_ts st) ++ it')) as [l| | |] eqn:A; try discriminate E.
  cbn [obind] in E.
  destruct (bad_of_counts _ (all_timed C R (ms_ts st) it' S2)) as (bad & B1 & B2). fold it in B1, B2.
  rewrite B1 in E. cbn [obind] in E.
  replace (8 * Z.of_nat R + 8 * Z.of_nat C) with (8 * Z.of_nat (R + C)) in E by lia.
  destruct (IH (S k) (R + C)%nat _ _ Hm Hl HD ltac:(lia) E) as (l2 & bad2 & Q1 & Q2 & Q3 & Q4 & Q5).
  cbn [after_window ms_ts ms_events ms_hits ms_bad] in *.
  assert (SP : items (skipn R (packets m)) = it ++ items (skipn (R + C) (packets m))).
  { rewrite <- skipn_skipn'. apply items_split.
    - rewrite skipn_length. lia.
    - apply disjoint_skip. exact HD.
    - destruct S3 as [S3|(q & N & Hq)]; [left; rewrite skipn_length; lia|right]. exists q. split; [|exact Hq].
      rewrite <- N. clear. generalize (packets m). induction R as [|R IH]; intros l; [reflexivity|].
      destruct l as [|x l]; [cbn; destruct C; reflexivity|]. cbn [skipn plus nth_error]. apply IH. }
  cbv zeta. rewrite SP, hits_of_app.
  destruct (proj1 (all_events_tail _ it' S2) l A) as (l0 & A0 & A1).
  exists (l0 ++ l2), (bad + bad2). rewrite all_events_app, A0. cbn [obind]. rewrite Q1. cbn [obind].
  rewrite concat_app, (tail_nothing it' S2), app_nil_r in B2, Q4.
  split; [reflexivity|]. rewrite concat_app. split; [apply bad_count_app; assumption|].
  rewrite map_app, !concat_app, zlen_app in *. rewrite Q3, <- A1, app_assoc.
  split; [reflexivity|]. split; [lia|]. lia.
Qed.

(** The count of events. *)
Definition counts_events (st : mstate) : Prop :=
  zlen (concat (ms_events st)) <= ms_nevents st /\ (concat (ms_events st) = [] -> ms_nevents st = 0).

Lemma counts_new : counts_events ms_new.
Proof. split; [reflexivity|reflexivity]. Qed.
Lemma counts_window st s hss es bad : counts_events st -> counts_events (after_window st s hss es bad).
Proof.
  intros [A B]. unfold counts_events, after_window. cbn [ms_events ms_nevents].
  pose proof (zlen_nonneg (concat (ms_events st))). split; [lia|].
  intros E. rewrite E. rewrite concat_app in E. apply app_eq_nil in E. rewrite (B (proj1 E)). reflexivity.
Qed.
Lemma loop_counts fuel : forall k R st st', 1 <= len -> (R <= length (packets m))%nat ->
  counts_events st -> mmap_loop fuel ext o len p m k (8 * Z.of_nat R) st = Ok st' -> counts_events st'.
Proof.
  induction fuel as [|f IH]; intros k R st st' Hl HR I E; cbn [mmap_loop] in E;
    (destruct (Z.ltb_spec (8 * Z.of_nat R) (zlen m)) as [G|G]; [|apply Ok_inj in E; subst; exact I]); [discriminate E|].
  destruct (one_step k R st HR Hl) as (C & it' & S1 & S2 & S3 & S4 & S5 & S6). rewrite S6 in E. cbv zeta in E.
  match type of E with context [all_events ext mmap_cfg ?h] => destruct (all_events ext mmap_cfg h) as [l| | |] end; try discriminate E.
  cbn [obind] in E. match type of E with context [bad_of ?h] => destruct (bad_of h) as [bad| | |] end; try discriminate E.
  cbn [obind] in E. replace (8 * Z.of_nat R + 8 * Z.of_nat C) with (8 * Z.of_nat (R + C)) in E by lia.
  eapply IH; [exact Hl| |apply counts_window; exact I|exact E]. lia.
Qed.

(** One window for the whole file. *)
Lemma loop_single fuel st' : zlen m mod 8 = 0 -> 1 <= len -> zlen (find_p (packets m) 0) < len ->
  mmap_loop fuel ext o len p m 0 0 ms_new = Ok st' -> ms_nevents st' = zlen (concat (ms_events st')).
Proof.
  intros Hm Hl H E. pose proof (aligned_end m Hm) as AE.
  destruct fuel as [|f]; cbn [mmap_loop] in E;
    (destruct (Z.ltb_spec 0 (zlen m)) as [G|G]; [|apply Ok_inj in E; subst; reflexivity]); [discriminate E|].
  destruct (one_step 0 0 ms_new ltac:(lia) Hl) as (C & it' & S1 & S2 & S3 & S4 & S5 & S6).
  change (8 * Z.of_nat 0) with 0 in S6. rewrite S6 in E. cbv zeta in E. cbn [skipn] in S5. specialize (S5 H).
  match type of E with context [all_events ext mmap_cfg ?h] => destruct (all_events ext mmap_cfg h) as [l| | |] end; try discriminate E.
  cbn [obind] in E. match type of E with context [bad_of ?h] => destruct (bad_of h) as [bad| | |] end; try discriminate E.
  cbn [obind] in E.
  assert (X : forall g q (a b : mstate), mmap_loop g ext o len p m q (0 + 8 * Z.of_nat C) a = Ok b -> a = b).
  { intros g q a b X. destruct g; cbn [mmap_loop] in X;
      (destruct (Z.ltb_spec (0 + 8 * Z.of_nat C) (zlen m)); [lia|]); apply Ok_inj in X; exact X. }
  apply X in E. subst st'. reflexivity.
Qed.

(** Termination and its failure. *)
Lemma loop_ends fuel : forall k R st, zlen m mod 8 = 0 -> 2 <= len -> disjoint_p (packets m) ->
  (R <= length (packets m))%nat -> (length (packets m) - R < fuel)%nat ->
  (exists l, all_events ext mmap_cfg (hits_of tg (items (skipn R (packets m))) (ms_ts st)) = Ok l) ->
  exists st', mmap_loop fuel ext o len p m k (8 * Z.of_nat R) st = Ok st'.
Proof.
  induction fuel as [|f IH]; intros k R st Hm Hl HD HR HF (l & A); [lia|]. cbn [mmap_loop].
  pose proof (aligned_end m Hm) as AE.
  destruct (Z.ltb_spec (8 * Z.of_nat R) (zlen m)) as [G|G]; [|eexists; reflexivity].
  destruct (one_step k R st HR ltac:(lia)) as (C & it' & S1 & S2 & S3 & S4 & S5 & S6). rewrite S6. cbv zeta.
  set (it := items_cut C (skipn R (packets m))) in *.
  assert (SP : items (skipn R (packets m)) = it ++ items (skipn (R + C) (packets m))).
  { rewrite <- skipn_skipn'. apply items_split.
    - rewrite skipn_length. lia.
    - apply disjoint_skip. exact HD.
    - destruct S3 as [S3|(q & N & Hq)]; [left; rewrite skipn_length; lia|right]. exists q. split; [|exact Hq].
      rewrite <- N. clear. generalize (packets m). induction R as [|R IH]; intros l; [reflexivity|].
      destruct l as [|x l]; [cbn; destruct C; reflexivity|]. cbn [skipn plus nth_error]. apply IH. }
  rewrite SP, hits_of_app, all_events_app in A.
  destruct (all_events ext mmap_cfg (hits_of tg it (ms_ts st))) as [l0| | |] eqn:A0; try discriminate A.
  cbn [obind] in A. destruct (all_events ext mmap_cfg (hits_of tg (items (skipn (R + C) (packets m))) (ts_of tg it (ms_ts st)))) as [l1| | |] eqn:A1; try discriminate A.
  destruct (proj2 (all_events_tail _ it' S2) l0 A0) as (l2 & A2). rewrite A2. cbn [obind].
  destruct (bad_of_counts _ (all_timed C R (ms_ts st) it' S2)) as (bad & B1 & B2). fold it in B1. rewrite B1. cbn [obind].
  replace (8 * Z.of_nat R + 8 * Z.of_nat C) with (8 * Z.of_nat (R + C)) by lia.
  specialize (S4 Hl ltac:(lia)). apply IH; try assumption; try lia. exists l1. exact A1.
Qed.

Lemma loop_stuck fuel : forall k R st st', zlen m mod 8 <> 0 -> 1 <= len -> (R <= length (packets m))%nat ->
  mmap_loop fuel ext o len p m k (8 * Z.of_nat R) st <> Ok st'.
Proof.
  induction fuel as [|f IH]; intros k R st st' Hm Hl HR E; cbn [mmap_loop] in E;
    pose proof (packets_zlen m) as L; unfold zlen in L at 1;
    (destruct (Z.ltb_spec (8 * Z.of_nat R) (zlen m)); [|lia]); [discriminate E|].
  destruct (one_step k R st HR Hl) as (C & it' & S1 & S2 & S3 & S4 & S5 & S6). rewrite S6 in E. cbv zeta in E.
  match type of E with context [all_events ext mmap_cfg ?h] => destruct (all_events ext mmap_cfg h) as [l| | |] end; try discriminate E.
  cbn [obind] in E. match type of E with context [bad_of ?h] => destruct (bad_of h) as [bad| | |] end; try discriminate E.
  cbn [obind] in E. replace (8 * Z.of_nat R + 8 * Z.of_nat C) with (8 * Z.of_nat (R + C)) in E by lia.
  apply IH in E; [exact E|exact Hm|exact Hl|lia].
Qed.

End Loop.

(** * Strings *)

Lemma sapp_assoc (a b c : string) : ((a ++ b) ++ c = a ++ (b ++ c))%string.
Proof. induction a as [|x a IH]; [reflexivity|]. cbn. rewrite IH. reflexivity. Qed.
Lemma sapp_nil (a : string) : (a ++ "" = a)%string.
Proof. induction a as [|x a IH]; [reflexivity|]. cbn. rewrite IH. reflexivity. Qed.
Lemma joined_concat l : joined l = String.concat "" l.
Proof.
  induction l as [|s l IH]; [reflexivity|]. cbn [joined fold_right]. fold (joined l). rewrite IH.
  destruct l as [|t l]; [apply sapp_nil|reflexivity].
Qed.

Lemma concat_scons a l : (String.concat "" (a :: l) = a ++ String.concat "" l)%string.
Proof. rewrite <- !joined_concat. reflexivity. Qed.

Lemma prefix_cons c w x s :
  String.prefix (String c w) (String x s) = if Ascii.ascii_dec c x then String.prefix w s else false.
Proof. reflexivity. Qed.
Lemma prefix_spec w s : String.prefix w s = true <-> exists b, s = (w ++ b)%string.
Proof.
  revert s. induction w as [|c w IH]; intros s.
  - destruct s; (split; [intros _; eexists; reflexivity|reflexivity]).
  - destruct s as [|x s]; [split; [discriminate|intros [b E]; discriminate]|].
    rewrite prefix_cons. destruct (Ascii.ascii_dec c x) as [->|N].
    + rewrite IH. split; intros [b E]; exists b; [cbn; rewrite E; reflexivity|cbn in E; inversion E; reflexivity].
    + split; [discriminate|]. intros [b E]. cbn in E. inversion E. congruence.
Qed.
Lemma strstr_spec s w : strstr s w = true <-> asks s w.
Proof.
  induction s as [|c s IH]; cbn [strstr].
  - rewrite orb_false_r, prefix_spec. split.
    + intros [b E]. exists ""%string, b. exact E.
    + intros (a & b & E). destruct a; [|discriminate]. exists b. exact E.
  - rewrite orb_true_iff, prefix_spec, IH. split.
    + intros [[b E]|(a & b & E)]; [exists ""%string, b; exact E|exists (String c a), b; rewrite E; reflexivity].
    + intros (a & b & E). destruct a as [|x a]; [left; exists b; exact E|right].
      cbn in E. inversion E. exists a, b. reflexivity.
Qed.

Lemma substring_whole s : String.substring 0 (String.length s) s = s.
Proof. induction s as [|c s IH]; [reflexivity|]. cbn. rewrite IH. reflexivity. Qed.
Lemma substring_tail a e : String.substring (String.length a) (String.length e) (a ++ e) = e.
Proof. induction a as [|c a IH]; [apply substring_whole|exact IH]. Qed.
Lemma substring_split s : forall n, (n <= String.length s)%nat ->
  exists a, s = (a ++ String.substring n (String.length s - n) s)%string.
Proof.
  induction s as [|c s IH]; intros n H.
  - exists ""%string. destruct n; reflexivity.
  - destruct n as [|n].
    + exists ""%string. rewrite Nat.sub_0_r, substring_whole. reflexivity.
    + destruct (IH n ltac:(cbn in H; lia)) as [a E]. exists (String c a). cbn. rewrite <- E. reflexivity.
Qed.
Lemma length_app (a b : string) : String.length (a ++ b) = (String.length a + String.length b)%nat.
Proof. induction a as [|c a IH]; [reflexivity|]. cbn. rewrite IH. reflexivity. Qed.
Lemma endsWith_spec s e : endsWith s e = true <-> ends s e.
Proof.
  unfold endsWith, ends. destruct (Nat.leb_spec (String.length e) (String.length s)) as [L|L].
  - rewrite String.eqb_eq. split.
    + intros E. destruct (substring_split s (String.length s - String.length e) ltac:(lia)) as [a H].
      replace (String.length s - (String.length s - String.length e))%nat with (String.length e) in H by lia.
      rewrite E in H. exists a. exact H.
    + intros [a ->]. rewrite length_app. replace (String.length a + String.length e - String.length e)%nat with (String.length a) by lia.
      apply substring_tail.
  - split; [discriminate|]. intros [a ->]. rewrite length_app in L. lia.
Qed.
Lemma endsWith_false s e : endsWith s e = false -> ~ ends s e.
Proof. intros E H. apply endsWith_spec in H. congruence. Qed.

(** * Options *)

Lemma asked_none s (r : Z) w : strstr s w = false -> ~ asks s (snd (r, w)).
Proof. intros E H. apply strstr_spec in H. cbn in H. congruence. Qed.

Lemma options_rate s : asked_rate s (mo_rate (mmap_options (Some s))).
Proof.
  cbn [mmap_options mo_rate]. unfold asked_rate, rates.
  destruct (strstr s "60hz") eqn:E6; [left; exists [(1, "1hz"); (10, "10hz"); (15, "15hz"); (30, "30hz"); (45, "45hz")]%string, "60hz"%string, []; repeat split; [apply strstr_spec; exact E6|repeat (apply Forall_cons; [apply asked_none; assumption|]); apply Forall_nil]|].
  destruct (strstr s "45hz") eqn:E5; [left; exists [(1, "1hz"); (10, "10hz"); (15, "15hz"); (30, "30hz")]%string, "45hz"%string, [(60, "60hz"%string)]; repeat split; [apply strstr_spec; exact E5|repeat (apply Forall_cons; [apply asked_none; assumption|]); apply Forall_nil]|].
  destruct (strstr s "30hz") eqn:E4; [left; exists [(1, "1hz"); (10, "10hz"); (15, "15hz")]%string, "30hz"%string, [(45, "45hz"%string); (60, "60hz"%string)]; repeat split; [apply strstr_spec; exact E4|repeat (apply Forall_cons; [apply asked_none; assumption|]); apply Forall_nil]|].
  destruct (strstr s "15hz") eqn:E3; [left; exists [(1, "1hz"); (10, "10hz")]%string, "15hz"%string, [(30, "30hz"%string); (45, "45hz"%string); (60, "60hz"%string)]; repeat split; [apply strstr_spec; exact E3|repeat (apply Forall_cons; [apply asked_none; assumption|]); apply Forall_nil]|].
  destruct (strstr s "10hz") eqn:E2; [left; exists [(1, "1hz"%string)], "10hz"%string, [(15, "15hz"%string); (30, "30hz"%string); (45, "45hz"%string); (60, "60hz"%string)]; repeat split; [apply strstr_spec; exact E2|repeat (apply Forall_cons; [apply asked_none; assumption|]); apply Forall_nil]|].
  destruct (strstr s "1hz") eqn:E1; [left; exists [], "1hz"%string, [(10, "10hz"%string); (15, "15hz"%string); (30, "30hz"%string); (45, "45hz"%string); (60, "60hz"%string)]; repeat split; [apply strstr_spec; exact E1|repeat (apply Forall_cons; [apply asked_none; assumption|]); apply Forall_nil]|].
  right. split; [reflexivity|]. repeat (apply Forall_cons; [apply asked_none; assumption|]). apply Forall_nil.
Qed.
Lemma options_asked a : asked_options a (mmap_options a).
Proof.
  destruct a as [s|]; [|cbn; auto]. unfold asked_options.
  split; [apply strstr_spec|]. split; [apply strstr_spec|]. split; [apply strstr_spec|]. apply options_rate.
Qed.
Lemma options_known a : mo_rate (mmap_options a) >? 0 = true -> known (mo_rate (mmap_options a)).
Proof.
  destruct a as [s|]; [|discriminate]. intros H. destruct (options_rate s) as [(l & w & l' & E & _)|[Z0 _]].
  - unfold known. rewrite E, map_app. apply in_or_app. right. left. reflexivity.
  - rewrite Z0 in H. discriminate.
Qed.
Lemma options_zero a : mo_rate (mmap_options a) >? 0 = false <-> mo_rate (mmap_options a) = 0.
Proof.
  split; [|intros ->; reflexivity]. intros H. destruct a as [s|]; [|reflexivity].
  destruct (options_rate s) as [(l & w & l' & E & _)|[Z0 _]]; [|exact Z0].
  assert (K : known (mo_rate (mmap_options (Some s)))).
  { unfold known. rewrite E, map_app. apply in_or_app. right. left. reflexivity. }
  revert H. revert K. generalize (mo_rate (mmap_options (Some s))). apply (known_cases (fun r => (r >? 0) = false -> r = 0)); discriminate.
Qed.

(** * Output *)

Lemma int_part_spec hi v k : f_to_int 0 hi v = Some k <-> int_part hi v k.
Proof.
  unfold f_to_int, int_part.
  assert (T : Btrunc v = Ztrunc (B2R v)).
  { apply eq_IZR. rewrite Btrunc_correct; [|exact emax1024]. rewrite round_FIX_IZR. reflexivity. }
  destruct (is_finite v); [|split; [discriminate|intros [X _]; discriminate]]. rewrite T.
  destruct ((0 <=? Ztrunc (B2R v)) && (Ztrunc (B2R v) <=? hi)) eqn:B.
  - split; [intros E; inversion E; subst; split; [reflexivity|split; [reflexivity|lia]]|intros (_ & -> & _); reflexivity].
  - split; [discriminate|]. intros (_ & E & X). lia.
Qed.

Lemma bin_event_spec e s : bin_event (gathered e) = Ok s <->
  exists l, bin_numbers e l /\ s = String.concat "" (map dec l).
Proof.
  unfold bin_event, bin_numbers. cbn [gathered n_x n_y n_tot n_hits].
  change (n_tof_ns (gathered e)) with (tof_written e).
  fold (scaled (n_x e)). fold (scaled (n_y e)). unfold f_to_u16, f_to_u64.
  split.
  - intros E.
    destruct (f_to_int 0 (2 ^ 16 - 1) (scaled (n_x e))) as [x|] eqn:X; [|discriminate E].
    destruct (f_to_int 0 (2 ^ 16 - 1) (scaled (n_y e))) as [y|] eqn:Y; [|discriminate E].
    destruct (f_to_int 0 (2 ^ 64 - 1) (tof_written e)) as [t|] eqn:T; [|discriminate E].
    destruct (f_to_int 0 (2 ^ 16 - 1) (n_tot e)) as [tt|] eqn:V; [|discriminate E].
    apply Ok_inj in E. subst s. apply int_part_spec in X, Y, T, V.
    exists [x; y; t; n_hits e mod 2 ^ 16; tt]. split; [exists x, y, t, tt; auto|].
    cbn [map String.concat]. reflexivity.
  - intros (l & (x & y & t & tt & -> & X & Y & T & V) & ->).
    apply int_part_spec in X, Y, T, V. change (2 ^ 16 - 1) with 65535.
    rewrite X, Y, T, V. reflexivity.
Qed.

Lemma bin_text_spec es s : bin_text (map gathered es) = Ok s <->
  exists ls, Forall2 bin_numbers es ls /\
    s = String.concat "" (map (fun l => String.concat "" (map dec l)) ls).
Proof.
  revert s. induction es as [|e es IH]; intros s; cbn [map bin_text].
  - split; [intros E; apply Ok_inj in E; subst; exists []; split; [constructor|reflexivity]|].
    intros (ls & F & ->). inversion F. reflexivity.
  - split.
    + intros E. destruct (bin_event (gathered e)) as [a| | |] eqn:A; try discriminate E. cbn [obind] in E.
      destruct (bin_text (map gathered es)) as [b| | |]; try discriminate E. cbn [obind] in E. apply Ok_inj in E. subst s.
      destruct (proj1 (IH b) eq_refl) as (ls & F & ->). apply bin_event_spec in A. destruct A as (l & B & ->).
      exists (l :: ls). split; [constructor; assumption|]. cbn [map]. rewrite concat_scons. reflexivity.
    + intros (ls & F & ->). inversion F as [|? l ? ls' B F']; subst.
      rewrite (proj2 (bin_event_spec e (String.concat "" (map dec l)))) by eauto. cbn [obind].
      rewrite (proj2 (IH (String.concat "" (map (fun l => String.concat "" (map dec l)) ls')))) by eauto. cbn [obind].
      cbn [map]. rewrite concat_scons. reflexivity.
Qed.

Lemma csv_line_row show e : csv_line show (gathered e) = csv_row show e.
Proof.
  unfold csv_line, csv_row. cbn [gathered n_x n_y n_tot n_hits String.concat].
  change (n_tof_ns (gathered e)) with (tof_written e). rewrite !sapp_assoc. reflexivity.
Qed.

Lemma output_written show opens d out evs b d' :
  mmap_output show opens d out evs = Ok (b, d') ->
  written show opens d out (concat evs) (if b then 0 else 1) d'.
Proof.
  unfold mmap_output. set (es := concat evs).
  destruct (endsWith out ".csv") eqn:Ec.
  { apply endsWith_spec in Ec. intros E. apply Ok_inj in E. unfold save_csv in E.
    destruct es as [|e es]; [inversion E; subst; apply wr_nothing; reflexivity|]. cbn [map] in E.
    destruct (opens out) eqn:O; [|inversion E; subst; apply wr_refused; [discriminate|left; exact Ec|exact O]].
    injection E as <- <-. eapply wr_csv; [discriminate|exact Ec|exact O|unfold mput; rewrite String.eqb_refl; reflexivity| | |].
    - intros n N. unfold mput. destruct (String.eqb_spec n out); [contradiction|reflexivity].
    - cbn [mf_h5]. unfold image_of. destruct (d out); reflexivity.
    - cbn [mf_text]. unfold text_of.
      assert (J : (joined (csv_line show (gathered e) :: map (csv_line show) (map gathered es)) =
                  String.concat "" (map (csv_row show) (e :: es)))%string).
      { rewrite joined_concat. f_equal. cbn [map]. rewrite csv_line_row. f_equal. rewrite map_map. apply map_ext.
        intros a. apply csv_line_row. }
      cbn [map] in J |- *. rewrite <- J. destruct (d out); reflexivity. }
  destruct (endsWith out ".bin") eqn:Eb.
  { apply endsWith_spec in Eb. unfold save_bin.
    destruct es as [|e l]; [intros E; apply Ok_inj in E; inversion E; subst; apply wr_nothing; reflexivity|].
    cbn [map].
    destruct (opens out) eqn:O; intros E; [|apply Ok_inj in E; inversion E; subst; apply wr_refused; [discriminate|right; exact Eb|exact O]].
    change (gathered e :: map gathered l) with (map gathered (e :: l)) in E.
    destruct (bin_text (map gathered (e :: l))) as [t| | |] eqn:T; try discriminate E. cbn [obind] in E. injection E as <- <-.
    apply bin_text_spec in T. destruct T as (ls & F & ->).
    eapply wr_bin; [discriminate|exact Eb|exact O|unfold mput; rewrite String.eqb_refl; reflexivity| |reflexivity|exact F|reflexivity].
    intros n N. unfold mput. destruct (String.eqb_spec n out); [contradiction|reflexivity]. }
  destruct (endsWith out ".h5") eqn:Eh.
  { apply endsWith_spec in Eh. unfold save_h5.
    destruct es as [|e es]; [intros E; apply Ok_inj in E; inversion E; subst; apply wr_nothing; reflexivity|]. cbn [map].
    destruct (opens out) eqn:O; [|discriminate]. cbn [obind]. intros E. injection E as <- <-.
    eapply wr_h5; [discriminate|exact Eh|exact O|unfold mput; rewrite String.eqb_refl; reflexivity| |reflexivity|].
    - intros n N. unfold mput. destruct (String.eqb_spec n out); [contradiction|reflexivity].
    - cbn [mf_h5]. unfold mmap_columns. cbn [map]. rewrite !map_map. reflexivity. }
  intros E. apply Ok_inj in E. inversion E; subst. apply wr_unknown; apply endsWith_false; assumption.
Qed.

(** * The program *)

Lemma hits_of_ds tg ds : Forall dataset_ok ds -> mmap_hits tg ds (hits_of tg (map ds_item ds) ts0).
Proof.
  intros H. destruct tg; cbn [mmap_hits hits_of].
  - eexists. apply pass_processed. exact H.
  - induction H as [|d ds H _ IH]; [constructor|]. cbn [map]. constructor; [|exact IH].
    exists (chip_of (ds_header d)). split; [apply schar_declares, ds_header_ok; exact H|]. apply emits_yields.
Qed.

Lemma yields_unique_chip d chip chip' hs hs' : declares_chip (ds_header d) chip -> declares_chip (ds_header d) chip' ->
  yields GDC_mode chip ts0 (d_payload d) hs -> yields GDC_mode chip' ts0 (d_payload d) hs' -> hs = hs'.
Proof.
  intros A B Y Y'. assert (chip = chip') as <- by (eapply declares_chip_unique; eassumption).
  eapply yields_functional; eassumption.
Qed.

Lemma stream_facts ds : Forall dataset_ok ds -> Forall no_false_header ds ->
  bytes_ok (stream ds) /\ zlen (stream ds) mod 8 = 0 /\ disjoint_p (packets (stream ds)) /\
  items (packets (stream ds)) = map ds_item ds /\ zlen (find_p (packets (stream ds)) 0) = zlen ds.
Proof.
  intros A B. pose proof (stream_ok ds A) as Hb. split; [exact Hb|]. split; [apply stream_aligned|].
  split; [apply disjoint_spec; [exact Hb|apply stream_disjoint; assumption]|].
  rewrite packets_stream. split; [apply items_ds0; assumption|]. rewrite find_expected by exact B.
  generalize 0. clear. induction ds as [|d ds IH]; intros off; [reflexivity|]. cbn [expected]. rewrite !zlen_cons, IH. reflexivity.
Qed.

Lemma all_events_neutrons ext cfg hss l : all_events ext cfg hss = Ok l ->
  Forall2 (neutrons_of ext cfg) hss (map snd l).
Proof.
  intros E. apply all_events_spec in E. destruct E as [<- F]. induction F as [|[h e] l H _ IH]; [constructor|].
  cbn [map fst snd] in *. constructor; [apply events_of_spec; exact H|exact IH].
Qed.

Lemma max_batch_pos env : (forall v, env = Some v -> 0 <= v) -> 1 <= max_batch_len env.
Proof. intros H. unfold max_batch_len. destruct env as [v|]; [|lia]. specialize (H v eq_refl). destruct (Z.eqb_spec v 0); lia. Qed.

Lemma C80_run_l fuel ext show opens env p input inp rest d rw ds r rep :
  Forall dataset_ok ds -> Forall no_false_header ds -> input inp = Some (stream ds, rw) ->
  (forall v, env = Some v -> 0 <= v) -> covers p ->
  mmap_main fuel ext show opens env p input (inp :: rest) d = Ok r -> mr_report r = Some rep ->
  exists o hss nss, asked_options (nth_error rest 1) o /\ mmap_hits (mo_tgdc o) ds hss /\
    Forall2 (neutrons_of ext mmap_cfg) hss nss /\
    mr_hits rep = zlen (concat hss) /\
    (mo_rate o <> 0 -> counted (over_limit (mo_rate o)) (concat hss) (mr_bad rep)) /\
    (mo_rate o = 0 -> mr_bad rep = 0) /\
    zlen (concat nss) <= mr_events rep /\ (concat nss = [] -> mr_events rep = 0) /\
    (zlen ds < max_batch_len env -> mr_events rep = zlen (concat nss)) /\
    match rest with
    | [] => mr_status r = 0 /\ mr_disk r = d
    | out :: _ => written show opens d out (concat nss) (mr_status r) (mr_disk r)
    end.
Proof.
  intros Ho Hn Hi He Hp E Er. destruct (stream_facts ds Ho Hn) as (F1 & F2 & F3 & F4 & F5).
  pose proof (max_batch_pos env He) as HL.
  unfold mmap_main in E. rewrite Hi in E. set (o := mmap_options (nth_error rest 1)) in *.
  destruct (mo_mmap o && negb rw); [apply Ok_inj in E; subst r; discriminate Er|].
  destruct (mmap_loop fuel ext o (max_batch_len env) p (stream ds) 0 0 ms_new) as [st| | |] eqn:L; try discriminate E.
  cbn [obind] in E.
  destruct (loop_post ext o (max_batch_len env) (options_known _) p Hp (stream ds) F1 fuel 0 0 ms_new st F2 HL F3 (Nat.le_0_l _) L)
    as (l & bad & P1 & P2 & P3 & P4 & P5).
  cbn [ms_new ms_ts ms_events ms_hits ms_bad concat skipn app] in *. rewrite F4 in *. rewrite Z.add_0_l in P4, P5.
  pose proof (loop_counts ext o (max_batch_len env) p Hp (stream ds) F1 fuel 0 0 ms_new st HL (Nat.le_0_l _) counts_new L) as [N1 N2].
  pose proof (fun X => loop_single ext o (max_batch_len env) p Hp (stream ds) F1 fuel st F2 HL X L) as N3.
  rewrite F5 in N3. rewrite P3 in N1, N2, N3.
  exists o, (hits_of (mo_tgdc o) (map ds_item ds) ts0), (map snd l).
  split; [apply options_asked|]. split; [apply hits_of_ds; exact Ho|]. split; [apply all_events_neutrons; exact P1|].
  assert (Rep : rep = MReport (ms_hits st) (ms_bad st) (ms_nevents st)).
  { destruct rest as [|out rest']; [apply Ok_inj in E; subst r; inversion Er; reflexivity|].
    destruct (ms_nevents st >? 0); [|apply Ok_inj in E; subst r; inversion Er; reflexivity].
    destruct (mmap_output show opens d out (ms_events st)) as [[b d']| | |]; try discriminate E.
    apply Ok_inj in E. subst r. inversion Er. reflexivity. }
  subst rep. cbn [mr_hits mr_bad mr_events]. split; [exact P4|]. unfold bad_count in P2.
  split. { intros Z0. rewrite P5. destruct (mo_rate o >? 0) eqn:R; [exact P2|]. apply options_zero in R. contradiction. }
  split. { intros Z0. rewrite P5. destruct (mo_rate o >? 0) eqn:R; [|exact P2]. rewrite Z0 in R. discriminate R. }
  split; [exact N1|]. split; [exact N2|]. split; [exact N3|].
  destruct rest as [|out rest']; [apply Ok_inj in E; subst r; auto|].
  destruct (Z.gtb_spec (ms_nevents st) 0) as [G|G].
  - destruct (mmap_output show opens d out (ms_events st)) as [[b d']| | |] eqn:O; try discriminate E.
    apply Ok_inj in E. subst r. cbn [mr_status mr_disk]. rewrite <- P3. apply output_written. exact O.
  - apply Ok_inj in E. subst r. cbn [mr_status mr_disk]. apply wr_nothing.
    destruct (concat (map snd l)) as [|e es]; [reflexivity|]. rewrite zlen_cons in N1. pose proof (zlen_nonneg es). lia.
Qed.

Lemma mmap_hits_unique tg ds : forall hss hss', mmap_hits tg ds hss -> mmap_hits tg ds hss' -> hss = hss'.
Proof.
  destruct tg; cbn [mmap_hits].
  - intros hss hss' [s A] [s' B]. eapply processed_unique; eassumption.
  - induction ds as [|d ds IH]; intros hss hss' A B; inversion A as [|? hs ? hs1 (c & D & Y) A']; inversion B as [|? hs' ? hs1' (c' & D' & Y') B']; subst; [reflexivity|].
    f_equal; [eapply (yields_unique_chip d c c'); eassumption|apply IH; assumption].
Qed.

Lemma mmap_hits_fine tg ds hss : Forall dataset_ok ds -> mmap_hits tg ds hss ->
  Forall (fun h => h_spider h < 2 ^ 48) (concat hss) -> Forall (fun hs => zlen hs <= 2 ^ 21 /\ Forall fine hs) hss.
Proof.
  intros H. destruct tg; cbn [mmap_hits].
  - intros [s P] F. eapply processed_facts; [exact H|exact P|]. eapply Forall_impl; [|exact F].
    intros h X. split; [auto|discriminate].
  - intros P. induction P as [|d hs ds hss (c & D & Y) P IH]; intros F; [constructor|].
    inversion H as [|? ? H1 H2]; subst. cbn [concat] in F. apply Forall_app in F. destruct F as [G1 G2].
    constructor; [|apply IH; assumption].
    destruct H1 as (_ & _ & _ & Hp & Hl). destruct (yields_facts _ _ _ _ _ Y Hp) as [L Q]. split; [lia|].
    rewrite Forall_forall in *. intros h I. destruct (Q h I) as (X1 & X2 & X3 & X4 & X5 & X6). specialize (G1 h I).
    unfold fine, hit_ok, sensor_hit. destruct (h_tof h) as [t|] eqn:T; [|congruence].
    split; [split; [lia|split; [lia|split; [lia|lia]]]|split; [lia|split; [lia|split; [lia|exists t; auto]]]].
Qed.

Lemma fine_events ext hss : Forall (fun hs => zlen hs <= 2 ^ 21 /\ Forall fine hs) hss ->
  exists l, all_events ext mmap_cfg hss = Ok l.
Proof.
  induction 1 as [|hs hss [L F] _ (l & IH)]; [eexists; reflexivity|]. cbn [all_events].
  destruct (neutrons_exist ext mmap_cfg hs L F) as (ns & N & _). apply events_of_spec in N. rewrite N. cbn [obind].
  rewrite IH. eexists. reflexivity.
Qed.

Lemma C80_ends_l fuel ext show opens env p input inp rest d rw ds :
  Forall dataset_ok ds -> Forall no_false_header ds -> input inp = Some (stream ds, rw) ->
  2 <= max_batch_len env -> covers p -> (length (stream ds) < fuel)%nat ->
  (forall o hss, asked_options (nth_error rest 1) o -> mmap_hits (mo_tgdc o) ds hss ->
     Forall (fun h => h_spider h < 2 ^ 48) (concat hss)) ->
  (forall out, nth_error rest 0 = Some out ->
     (ends out ".h5" -> opens out = true) /\
     (ends out ".bin" -> opens out = true -> forall o hss nss, asked_options (nth_error rest 1) o ->
        mmap_hits (mo_tgdc o) ds hss -> Forall2 (neutrons_of ext mmap_cfg) hss nss ->
        exists ls, Forall2 bin_numbers (concat nss) ls)) ->
  exists r, mmap_main fuel ext show opens env p input (inp :: rest) d = Ok r.
Proof.
  intros Ho Hn Hi HL Hp HF Hs Hout. destruct (stream_facts ds Ho Hn) as (F1 & F2 & F3 & F4 & F5).
  unfold mmap_main. rewrite Hi. set (o := mmap_options (nth_error rest 1)) in *.
  destruct (mo_mmap o && negb rw); [eexists; reflexivity|].
  assert (H0 := hits_of_ds (mo_tgdc o) ds Ho).
  assert (Fi := mmap_hits_fine _ _ _ Ho H0 (Hs o _ (options_asked _) H0)).
  destruct (fine_events ext _ Fi) as (l & A).
  assert (Le : (length (packets (stream ds)) <= length (stream ds))%nat).
  { pose proof (packets_zlen (stream ds)) as Z0. unfold zlen in Z0. lia. }
  destruct (loop_ends ext o (max_batch_len env) (options_known _) p Hp (stream ds) F1 fuel 0 0 ms_new F2 HL F3 (Nat.le_0_l _))
    as (st & L).
  { lia. }
  { cbn [skipn]. rewrite F4. exists l. exact A. }
  change (8 * Z.of_nat 0) with 0 in L. rewrite L. cbn [obind].
  destruct rest as [|out rest']; [eexists; reflexivity|].
  destruct (ms_nevents st >? 0); [|eexists; reflexivity].
  destruct (Hout out eq_refl) as [Q1 Q2]. unfold mmap_output.
  destruct (endsWith out ".csv") eqn:Ec; [destruct (save_csv _ _ _ _ _); eexists; reflexivity|].
  destruct (endsWith out ".bin") eqn:Eb.
  { apply endsWith_spec in Eb. unfold save_bin. destruct (opens out) eqn:O.
    - destruct (loop_post ext o (max_batch_len env) (options_known _) p Hp (stream ds) F1 fuel 0 0 ms_new st F2 ltac:(lia) F3 (Nat.le_0_l _) L)
        as (l' & bad & P1 & _ & P3 & _). cbn [ms_new ms_ts ms_events concat skipn app] in *. rewrite F4 in P1.
      destruct (Q2 Eb eq_refl o _ _ (options_asked _) H0 (all_events_neutrons _ _ _ _ P1)) as (ls & B).
      rewrite <- P3 in B.
      pose proof (proj2 (bin_text_spec (concat (ms_events st)) _) (ex_intro _ ls (conj B eq_refl))) as T.
      destruct (map gathered (concat (ms_events st))) as [|e es]; [eexists; reflexivity|]. rewrite T. eexists. reflexivity.
    - destruct (map gathered (concat (ms_events st))); eexists; reflexivity. }
  destruct (endsWith out ".h5") eqn:Eh.
  { apply endsWith_spec in Eh. unfold save_h5. rewrite (Q1 Eh).
    destruct (map gathered (concat (ms_events st))); eexists; reflexivity. }
  eexists. reflexivity.
Qed.

Lemma C80_refused_l fuel ext show opens env p input args d r :
  mmap_main fuel ext show opens env p input args d = Ok r ->
  (mr_report r = None <-> refused input args) /\ (mr_report r = None -> mr_status r = 1 /\ mr_disk r = d).
Proof.
  intros E. unfold mmap_main in E. unfold refused. destruct args as [|inp rest]; [apply Ok_inj in E; subst; cbn; tauto|].
  destruct (input inp) as [[m rw]|]; [|apply Ok_inj in E; subst; cbn; tauto].
  set (o := mmap_options (nth_error rest 1)) in *.
  assert (MM : mo_mmap o = true <-> exists s, nth_error rest 1 = Some s /\ asks s "mmap").
  { subst o. destruct (nth_error rest 1) as [s|].
    - cbn [mmap_options mo_mmap]. rewrite strstr_spec. split; [intros A; exists s; auto|intros (s' & X & A); inversion X; subst; exact A].
    - cbn. split; [discriminate|intros (s & X & _); discriminate]. }
  destruct (mo_mmap o && negb rw) eqn:B.
  - apply Ok_inj in E. subst r. cbn [mr_report mr_status mr_disk]. destruct rw; [rewrite andb_false_r in B; discriminate B|].
    rewrite andb_true_r in B. split; [|auto]. split; [intros _; apply MM; exact B|reflexivity].
  - assert (N : mr_report r <> None).
    { destruct (mmap_loop fuel ext o (max_batch_len env) p m 0 0 ms_new) as [st| | |]; try discriminate E. cbn [obind] in E.
      destruct rest as [|out rest']; [apply Ok_inj in E; subst r; discriminate|].
      destruct (ms_nevents st >? 0); [|apply Ok_inj in E; subst r; discriminate].
      destruct (mmap_output show opens d out (ms_events st)) as [[b d']| | |]; try discriminate E.
      apply Ok_inj in E. subst r. discriminate. }
    split; [|contradiction]. split; [contradiction|]. destruct rw; [contradiction|].
    intros X. apply MM in X. rewrite X in B. discriminate B.
Qed.

Lemma C80_trailing_l fuel ext show opens env p input inp rest d m rw r :
  input inp = Some (m, rw) -> bytes_ok m -> zlen m mod 8 <> 0 -> (forall v, env = Some v -> 0 <= v) -> covers p ->
  ~ refused input (inp :: rest) ->
  mmap_main fuel ext show opens env p input (inp :: rest) d <> Ok r.
Proof.
  intros Hi Hb Hm He Hp Hr E. destruct (C80_refused_l _ _ _ _ _ _ _ _ _ _ E) as [R _].
  unfold mmap_main in E. rewrite Hi in E.
  destruct (mo_mmap (mmap_options (nth_error rest 1)) && negb rw).
  { apply Ok_inj in E. subst r. apply Hr, R. reflexivity. }
  pose proof (loop_stuck ext (mmap_options (nth_error rest 1)) (max_batch_len env) p Hp m Hb fuel 0 0 ms_new) as S.
  change (8 * Z.of_nat 0) with 0 in S.
  destruct (mmap_loop fuel ext _ (max_batch_len env) p m 0 0 ms_new) as [st| | |]; try discriminate E.
  apply (S st Hm (max_batch_pos env He) (Nat.le_0_l _)). reflexivity.
Qed.

(** Threads do not matter. *)
Lemma step_threads ext o o' len p p' w st : mo_tgdc o = mo_tgdc o' -> mo_rate o = mo_rate o' ->
  (forall n, plan_size (p n) = n) -> (forall n, plan_size (p' n) = n) ->
  window_step ext o len p w st = window_step ext o' len p' w st.
Proof.
  intros E1 E2 H H'. unfold window_step. destruct (find_headers_limited len w) as [bs c]. rewrite E1, E2.
  destruct (if mo_tgdc o' then locate GDC_mode bs w c (ms_ts st) else Ok (bs, ms_ts st)) as [[bs1 s1]| | |]; try reflexivity.
  cbn [obind].
  assert (R : forall (b : bool) (q : nat -> plan), (forall n, plan_size (q n) = n) ->
     (if b then reduce ext w c (q (length bs1)) bs1 [] else range_events ext w c abs_new bs1) = range_events ext w c abs_new bs1).
  { intros b q Q. destruct b; [|reflexivity]. rewrite reduce_eq by apply Q.
    destruct (range_events ext w c abs_new bs1) as [[x y]| | |]; reflexivity. }
  rewrite !R by assumption. reflexivity.
Qed.
Lemma loop_threads ext o o' len p p' m : mo_tgdc o = mo_tgdc o' -> mo_rate o = mo_rate o' -> covers p -> covers p' ->
  forall fuel k raw st, mmap_loop fuel ext o len p m k raw st = mmap_loop fuel ext o' len p' m k raw st.
Proof.
  intros E1 E2 H H'. induction fuel as [|f IH]; intros k raw st; cbn [mmap_loop]; [reflexivity|].
  destruct (raw <? zlen m); [|reflexivity]. rewrite (step_threads ext o o' len (p k) (p' k)) by (assumption || apply H || apply H').
  destruct (window_step ext o' len (p' k) (skipn (Z.to_nat raw) m) st) as [[st' c]| | |]; try reflexivity. apply IH.
Qed.
Lemma strstr_same s s' w : (asks s w <-> asks s' w) -> strstr s w = strstr s' w.
Proof.
  intros H. destruct (strstr s w) eqn:A; destruct (strstr s' w) eqn:B; try reflexivity.
  - apply strstr_spec, H, strstr_spec in A. congruence.
  - apply strstr_spec, H, strstr_spec in B. congruence.
Qed.
Lemma C80_threads_l fuel ext show opens env p p' input inp out s s' more d :
  covers p -> covers p' ->
  (forall w, In w ["mmap"; "tgdc"; "1hz"; "10hz"; "15hz"; "30hz"; "45hz"; "60hz"]%string -> (asks s w <-> asks s' w)) ->
  mmap_main fuel ext show opens env p input (inp :: out :: s :: more) d =
  mmap_main fuel ext show opens env p' input (inp :: out :: s' :: more) d.
Proof.
  intros H H' W. unfold mmap_main. cbn [nth_error].
  assert (X : forall w, In w ["mmap"; "tgdc"; "1hz"; "10hz"; "15hz"; "30hz"; "45hz"; "60hz"]%string -> strstr s w = strstr s' w).
  { intros w I. apply strstr_same, W, I. }
  assert (E1 : mo_mmap (mmap_options (Some s)) = mo_mmap (mmap_options (Some s'))) by (apply X; cbn; tauto).
  assert (E2 : mo_tgdc (mmap_options (Some s)) = mo_tgdc (mmap_options (Some s'))) by (apply X; cbn; tauto).
  assert (E3 : mo_rate (mmap_options (Some s)) = mo_rate (mmap_options (Some s'))).
  { cbn [mmap_options mo_rate]. rewrite !X by (cbn; tauto). reflexivity. }
  rewrite E1. destruct (input inp) as [[m rw]|]; [|reflexivity]. destruct (_ && _); [reflexivity|].
  rewrite (loop_threads ext _ (mmap_options (Some s')) _ p p' m E2 E3 H H'). reflexivity.
Qed.

(** * Units *)

Lemma C80_late_l rate h : 0 < rate <= 60 -> after_period rate h -> over_limit rate h.
Proof.
  intros [R1 R2] (t & T & L). exists t. split; [exact T|]. apply IZR_lt in R1. apply IZR_le in R2.
  set (q := IZR rate) in *. set (v := IZR (25 * t)) in *.
  assert (I : (1 / q >= 1 / 60)%R).
  { unfold Rdiv. rewrite !Rmult_1_l. apply Rle_ge, Rinv_le_contravar; lra. }
  assert (L' : (v > 10 ^ 9 * (1 / q))%R) by (unfold Rdiv in *; rewrite Rmult_1_l; exact L).
  set (i := (1 / q)%R) in *. lra.
Qed.

Lemma C80_tof_l e t : is_int (n_tof e) t -> Z.abs t <= 2 ^ 40 -> is_int (tof_written e) (625 * t).
Proof.
  intros H B. unfold tof_written.
  assert (A : is_int (fmul (n_tof e) (f_of_Z 25)) (t * 25)).
  { apply is_int_mul; [exact H|apply is_int_of_Z; lia|lia]. }
  replace (625 * t) with (t * 25 * 25) by lia. apply is_int_mul; [exact A|apply is_int_of_Z; lia|lia].
Qed.
Lemma C80_tof_value_l e t : is_finite (n_tof e) = true -> B2R (n_tof e) = IZR t -> Z.abs t <= 2 ^ 40 ->
  B2R (tof_written e) = IZR (625 * t).
Proof. intros A B C. exact (proj2 (C80_tof_l e t (conj A B) C)). Qed.

(** * Several windows *)
Lemma C80_count_l fuel ext show opens p input inp rest d rw ds s more r r2 rep rep2 :
  Forall dataset_ok ds -> Forall no_false_header ds -> input inp = Some (stream ds, rw) -> covers p ->
  rest = [EmptyString; s] ++ more -> asks s "tgdc" -> zlen ds < 5000 ->
  mmap_main fuel ext show opens None p input (inp :: rest) d = Ok r -> mr_report r = Some rep ->
  mmap_main fuel ext show opens (Some 2) p input (inp :: rest) d = Ok r2 -> mr_report r2 = Some rep2 ->
  mr_events rep < mr_events rep2 ->
  exists hss nss, mmap_hits true ds hss /\ Forall2 (neutrons_of ext mmap_cfg) hss nss /\
    zlen (concat nss) < mr_events rep2.
Proof.
  intros Ho Hn Hi Hp -> Ha Hl E Er _ _ Lt.
  destruct (C80_run_l fuel ext show opens None p input inp _ d rw ds r rep Ho Hn Hi ltac:(discriminate) Hp E Er)
    as (o & hss & nss & A & B & C & _ & _ & _ & _ & _ & X & _).
  exists hss, nss. cbn in A. destruct A as (_ & _ & T & _). rewrite (proj2 T Ha) in B.
  split; [exact B|]. split; [exact C|]. rewrite <- X by (change (max_batch_len None) with 100000; lia). exact Lt.
Qed.

Definition bin_is (o : outcome string) (s : string) : bool :=
  match o with Ok t => String.eqb t s | _ => false end.
Lemma C80_bin_same_l e e' s : bin_is (bin_text (map gathered [e])) s = true -> bin_is (bin_text (map gathered [e'])) s = true ->
  (n_hits e =? n_hits e') = false ->
  exists es es' ls ls', Forall2 bin_numbers es ls /\ Forall2 bin_numbers es' ls' /\
    bin_content ls = bin_content ls' /\ map n_hits es <> map n_hits es'.
Proof.
  intros A B N. unfold bin_is in *. destruct (bin_text (map gathered [e])) as [t| | |] eqn:T; try discriminate A.
  destruct (bin_text (map gathered [e'])) as [t'| | |] eqn:T'; try discriminate B.
  apply String.eqb_eq in A, B. subst t t'. apply bin_text_spec in T, T'.
  destruct T as (ls & F & G), T' as (ls' & F' & G'). exists [e], [e'], ls, ls'.
  split; [exact F|]. split; [exact F'|]. split; [unfold bin_content; congruence|].
  intros Q. cbn in Q. inversion Q. lia.
Qed.

Fixpoint final_char (d : ascii) (s : string) : ascii := match s with EmptyString => d | String c r => final_char c r end.
Lemma final_char_app a c r : forall d, final_char d (a ++ String c r) = final_char c r.
Proof. induction a as [|x a IH]; intros d; [reflexivity|apply IH]. Qed.

Lemma C80_no_hdf5_l fuel ext show opens opens' env p input inp out more d r :
  ends out ".h5" -> opens' out = false ->
  mmap_main fuel ext show opens env p input (inp :: out :: more) d = Ok r -> mr_disk r out <> d out ->
  mmap_main fuel ext show opens' env p input (inp :: out :: more) d = Throw ExternalError.
Proof.
  intros En O' H N. unfold mmap_main in *.
  destruct (input inp) as [[m rw]|]; [|apply Ok_inj in H; subst r; contradiction].
  destruct (_ && _); [apply Ok_inj in H; subst r; contradiction|].
  destruct (mmap_loop _ _ _ _ _ _ _ _ _) as [st| | |]; try discriminate H. cbn [obind] in *.
  destruct (ms_nevents st >? 0); [|apply Ok_inj in H; subst r; contradiction].
  unfold mmap_output in *.
  assert (E1 : endsWith out ".csv" = false /\ endsWith out ".bin" = false /\ endsWith out ".h5" = true).
  { assert (X : forall c q, final_char c q <> "5"%char -> endsWith out (String c q) = false).
    { intros c q L. destruct (endsWith out (String c q)) eqn:E; [|reflexivity]. apply endsWith_spec in E.
      destruct E as [a ->]. destruct En as [b Eb]. exfalso. apply L.
      apply (f_equal (final_char "x"%char)) in Eb. rewrite !final_char_app in Eb. exact Eb. }
    split; [apply X; discriminate|]. split; [apply X; discriminate|]. apply endsWith_spec. exact En. }
  destruct E1 as (E1 & E2 & E3). rewrite E1, E2, E3 in *. unfold save_h5 in *.
  destruct (map gathered (concat (ms_events st))) as [|e es].
  { cbn [obind] in H. apply Ok_inj in H. subst r. contradiction. }
  rewrite O'. reflexivity.
Qed.
