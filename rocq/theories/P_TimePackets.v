(** Proofs about TDC and GDC packets (C07-C09). *)
From Verif Require Export BaseFacts S_Tpx3.
From Coq Require Import Lia ZifyBool.

Lemma mytdc_eq p : Z.land (Z.shiftr (le64 p) 12) 0xFFFFFFFF = tdc_counter p.
Proof.
  unfold tdc_counter. rewrite (land_low _ 0xFFFFFFFF 32) by (lia || reflexivity).
  rewrite shiftr_div by lia. reflexivity.
Qed.

Lemma tdc_counter_range p : 0 <= tdc_counter p < 2 ^ 32.
Proof. unfold tdc_counter. apply Z.mod_pos_bound. lia. Qed.

(** Closed form of the GDC referenced update. *)
Lemma update_tdc_gdc_eq p g : 0 <= g ->
  update_tdc_gdc p g =
  2 ^ 32 * ((g / 2 ^ 32 + (if tdc_counter p <? g mod 2 ^ 32 then 1 else 0)) mod 2 ^ 16)
  + tdc_counter p.
Proof.
  intros Hg. unfold update_tdc_gdc. rewrite mytdc_eq.
  pose proof (tdc_counter_range p) as Hc. set (c := tdc_counter p) in *.
  rewrite (land_low g 0xFFFFFFFF 32) by (lia || reflexivity).
  rewrite (land_low (Z.shiftr g 32) 0xFFFF 16) by (lia || reflexivity).
  rewrite shiftr_div by lia. cbv zeta.
  set (k := if c <? g mod 2 ^ 32 then u64 ((g / 2 ^ 32) mod 2 ^ 16 + 1)
            else (g / 2 ^ 32) mod 2 ^ 16).
  assert (Hk : 0 <= k <= 2 ^ 16 /\ k mod 2 ^ 16 =
    (g / 2 ^ 32 + (if c <? g mod 2 ^ 32 then 1 else 0)) mod 2 ^ 16).
  { pose proof (Z.mod_pos_bound (g / 2 ^ 32) (2 ^ 16) ltac:(lia)) as B.
    unfold k. destruct (c <? g mod 2 ^ 32).
    - rewrite u64_id by lia. split; [lia|]. rewrite Zplus_mod_idemp_l. reflexivity.
    - split; [lia|]. rewrite Z.mod_mod by lia. f_equal. lia. }
  destruct Hk as [Hk1 Hk2]. rewrite <- Hk2.
  rewrite shiftl_mul by lia. rewrite u64_id by lia.
  rewrite (land_mid _ 0xFFFF00000000 32 16) by (lia || reflexivity).
  rewrite Z.div_mul by lia.
  rewrite (lor_add _ c 32); lia.
Qed.

Lemma C07_l p g : 0 <= g < 2 ^ 64 ->
  exists t, first_at_or_after (g mod 2 ^ 48) (tdc_counter p) t /\
            update_tdc_gdc p g = t mod 2 ^ 48.
Proof.
  intros Hg. rewrite update_tdc_gdc_eq by lia.
  pose proof (tdc_counter_range p) as Hc. set (c := tdc_counter p) in *.
  set (G := g mod 2 ^ 48).
  assert (HG : G mod 2 ^ 32 = g mod 2 ^ 32 /\ G / 2 ^ 32 = (g / 2 ^ 32) mod 2 ^ 16).
  { unfold G. lia. }
  destruct HG as [H1 H2].
  set (e := if c <? g mod 2 ^ 32 then 1 else 0).
  assert (He : 0 <= e <= 1 /\ (c < G mod 2 ^ 32 <-> e = 1)).
  { unfold e. rewrite H1. destruct (Z.ltb_spec c (g mod 2 ^ 32)); lia. }
  exists (2 ^ 32 * (G / 2 ^ 32 + e) + c). split.
  - clearbody G e c. clear H1 H2. unfold first_at_or_after. split; [lia|]. split; [lia|].
    intros t' Ht' Hm. lia.
  - rewrite H2. clearbody e c. clear - Hc He.
    set (q := g / 2 ^ 32). clearbody q. lia.
Qed.

(** Closed form of the TDC-only update. *)
Lemma update_tdc_only_eq p T : 0 <= T < 2 ^ 48 ->
  update_tdc_only p T =
  2 ^ 32 * (T / 2 ^ 32 +
     (if T mod 2 ^ 32 - tdc_counter p >? 2 ^ 31 then 1 else 0)) + tdc_counter p.
Proof.
  intros HT. unfold update_tdc_only. rewrite mytdc_eq.
  pose proof (tdc_counter_range p) as Hc. set (c := tdc_counter p) in *.
  rewrite (land_low T 0xFFFFFFFF 32) by (lia || reflexivity).
  rewrite (land_mid T 0xFFFF00000000 32 16) by (lia || reflexivity). cbv zeta.
  pose proof (Z.mod_pos_bound T (2 ^ 32) ltac:(lia)) as B.
  assert (Hq : 0 <= T / 2 ^ 32 < 2 ^ 16) by lia.
  rewrite (Z.mod_small (T / 2 ^ 32)) by lia.
  set (low := T mod 2 ^ 32) in *. set (q := T / 2 ^ 32) in *. clearbody low q.
  assert (E : ((c <? low) && (u64 (low - c) >? 0x80000000)) = (low - c >? 2 ^ 31)).
  { destruct (Z.ltb_spec c low); cbn [andb].
    - rewrite u64_id by lia. reflexivity.
    - symmetry. lia. }
  rewrite E. destruct (low - c >? 2 ^ 31).
  - rewrite u64_id by lia. replace (q * 2 ^ 32 + 0x100000000) with ((q + 1) * 2 ^ 32) by lia.
    rewrite (lor_add _ c 32); lia.
  - rewrite (lor_add _ c 32); lia.
Qed.

Lemma C08_step_l p T T' : 0 <= T < 2 ^ 48 -> 0 <= T' < 2 ^ 48 ->
  tdc_counter p = T' mod 2 ^ 32 ->
  (update_tdc_only p T = T' <-> pulse_step T T').
Proof.
  intros HT HT' Hc. rewrite update_tdc_only_eq by lia. rewrite Hc. unfold pulse_step.
  destruct (Z.gtb_spec (T mod 2 ^ 32 - T' mod 2 ^ 32) (2 ^ 31)); lia.
Qed.

Lemma C08_seq_l T ps Ts : 0 <= T < 2 ^ 48 -> pulses T Ts ->
  Forall2 (fun p T' => tdc_counter p = T' mod 2 ^ 32) ps Ts ->
  fold_left (fun t p => update_tdc_only p t) ps T = last Ts T.
Proof.
  intros HT HP. revert ps.
  induction HP as [T|T T' Ts HT' Hs HP IH]; intros ps HF.
  - inversion HF. reflexivity.
  - inversion HF as [|p T1 ps' Ts1 Hp HF' E1 E2]. subst. cbn [fold_left].
    apply C08_step_l with (p := p) in Hs; [|lia|lia|assumption].
    rewrite Hs, IH by assumption.
    destruct Ts as [|T2 Ts]; [reflexivity|].
    clear. cbn [last]. revert T2. induction Ts; intros; [reflexivity|]. cbn [last]. apply IHTs.
Qed.

Lemma pulses_of_slow Ts T : 0 <= T < 2 ^ 48 ->
  Forall (fun x => x < 2 ^ 48) Ts ->
  (forall i a b, nth_error (T :: Ts) i = Some a -> nth_error (T :: Ts) (S i) = Some b ->
     a <= b < a + 2 ^ 31) -> pulses T Ts.
Proof.
  revert T. induction Ts as [|T' Ts IH]; intros T HT HF H; [constructor|].
  pose proof (H 0%nat T T' eq_refl eq_refl) as H0. inversion HF; subst.
  constructor; [lia| |].
  - unfold pulse_step. lia.
  - apply IH; [lia|assumption|]. intros i a b Ha Hb. exact (H (S i) a b Ha Hb).
Qed.

Lemma C08_slow_l ps T0 Ts : 0 <= T0 < 2 ^ 32 -> Forall (fun x => x < 2 ^ 48) Ts ->
  (forall i a b, nth_error (T0 :: Ts) i = Some a -> nth_error (T0 :: Ts) (S i) = Some b ->
     a <= b < a + 2 ^ 31) ->
  Forall2 (fun p T' => tdc_counter p = T' mod 2 ^ 32) ps (T0 :: Ts) ->
  fold_left (fun t p => update_tdc_only p t) ps 0 = last (T0 :: Ts) 0.
Proof.
  intros HT HF H HP. apply C08_seq_l; [lia| |assumption].
  constructor; [lia| |].
  - left. lia.
  - apply pulses_of_slow; [lia|assumption|assumption].
Qed.

Lemma C08_late_l p T T' : 0 <= T < 2 ^ 48 -> 0 <= T' ->
  T' / 2 ^ 32 = T / 2 ^ 32 - 1 -> T - T' <= 2 ^ 31 -> tdc_counter p = T' mod 2 ^ 32 ->
  update_tdc_only p T = T' + 2 ^ 32.
Proof.
  intros HT HT' He Hd Hc. rewrite update_tdc_only_eq by lia. rewrite Hc.
  destruct (Z.gtb_spec (T mod 2 ^ 32 - T' mod 2 ^ 32) (2 ^ 31)); lia.
Qed.

(** * GDC *)

Lemma gdc_fields p : packet_ok p ->
  let mygdc := Z.land (Z.shiftr (le64 p) 16) 0xFFFFFFFFFFFF in
  Z.land (Z.shiftr mygdc 40) 0xF = gdc_subtype p /\
  Z.land mygdc 0xFFFFFFFF = lsb_value p /\ Z.land mygdc 0xFFFF = msb_value p.
Proof.
  intros Hp. pose proof (le64_range p Hp) as HW. cbv zeta.
  unfold gdc_subtype, lsb_value, msb_value.
  rewrite (land_low (Z.shiftr (le64 p) 16) 0xFFFFFFFFFFFF 48) by (lia || reflexivity).
  rewrite (shiftr_div (le64 p)) by lia. set (W := le64 p) in *. clearbody W.
  rewrite (Z.mod_small (W / 2 ^ 16)) by lia.
  rewrite shiftr_div by lia.
  rewrite (land_low _ 0xF 4) by (lia || reflexivity).
  rewrite (land_low _ 0xFFFFFFFF 32) by (lia || reflexivity).
  rewrite (land_low _ 0xFFFF 16) by (lia || reflexivity).
  split; [|split]; [|reflexivity|reflexivity].
  rewrite Z.div_div by lia. reflexivity.
Qed.

(** One GDC packet in plain arithmetic. *)
Lemma update_gdc_eq p timer g : packet_ok p -> 0 <= timer < 2 ^ 32 ->
  update_gdc p timer g =
  if gdc_subtype p =? 4 then (lsb_value p, g)
  else if gdc_subtype p =? 5 then
    (timer, if msb_value p * 2 ^ 32 + timer =? 0 then g else msb_value p * 2 ^ 32 + timer)
  else (timer, g).
Proof.
  intros Hp Ht. unfold update_gdc. pose proof (gdc_fields p Hp) as F. cbv zeta in *.
  destruct F as (F1 & F2 & F3). rewrite F1, F2, F3.
  destruct (gdc_subtype p =? 4); [reflexivity|].
  destruct (gdc_subtype p =? 5); [|reflexivity].
  assert (Hm : 0 <= msb_value p < 2 ^ 16) by (unfold msb_value; apply Z.mod_pos_bound; lia).
  set (v := msb_value p) in *. clearbody v.
  rewrite shiftl_mul by lia. rewrite u64_id by lia.
  rewrite (land_mid _ 0xFFFF00000000 32 16) by (lia || reflexivity).
  rewrite Z.div_mul by lia. rewrite (Z.mod_small v) by lia.
  rewrite (lor_add _ timer 32) by lia.
  destruct (v * 2 ^ 32 + timer =? 0); reflexivity.
Qed.

Definition gdc_run (ps : list packet) : Z * Z :=
  fold_left (fun s p => update_gdc p (fst s) (snd s)) ps (0, 0).

Lemma lsb_range p : 0 <= lsb_value p < 2 ^ 32.
Proof. unfold lsb_value. apply Z.mod_pos_bound. lia. Qed.
Lemma msb_range p : 0 <= msb_value p < 2 ^ 16.
Proof. unfold msb_value. apply Z.mod_pos_bound. lia. Qed.

Lemma app_cons_last_inv {A} (l : list A) (x : A) pre p post :
  l ++ [x] = pre ++ p :: post ->
  (post = [] /\ p = x /\ pre = l) \/ (exists post', post = post' ++ [x] /\ l = pre ++ p :: post').
Proof.
  intros H. destruct post as [|q post] using rev_ind.
  - left. apply app_inj_tail in H. intuition.
  - right. clear IHpost. exists post. rewrite app_comm_cons, app_assoc in H.
    apply app_inj_tail in H. intuition. subst. reflexivity.
Qed.

Lemma current_lsb_snoc ps p t t' : current_lsb ps t ->
  (if gdc_subtype p =? 4 then lsb_value p else t) = t' -> current_lsb (ps ++ [p]) t'.
Proof.
  intros H E. destruct (Z.eqb_spec (gdc_subtype p) 4) as [H4|H4].
  - right. exists ps, p, []. subst. auto.
  - subst t'. destruct H as [[-> HF]|(pre & q & post & -> & Hq & HF & ->)].
    + left. split; [reflexivity|]. apply Forall_app. auto.
    + right. exists pre, q, (post ++ [p]).
      rewrite <- app_assoc. repeat split; auto. apply Forall_app. auto.
Qed.

Lemma current_lsb_fun ps t t' : current_lsb ps t -> current_lsb ps t' -> t = t'.
Proof.
  revert t t'. induction ps as [|x ps IH] using rev_ind; intros t t' H H'.
  - destruct H as [[-> _]|(pre & q & post & E & _)]; [|destruct pre; discriminate].
    destruct H' as [[-> _]|(pre & q & post & E & _)]; [reflexivity|destruct pre; discriminate].
  - assert (D : forall u, current_lsb (ps ++ [x]) u ->
       (gdc_subtype x = 4 /\ u = lsb_value x) \/ (gdc_subtype x <> 4 /\ current_lsb ps u)).
    { intros u [[-> HF]|(pre & q & post & E & Hq & HF & ->)].
      - apply Forall_app in HF. destruct HF as [HF1 HF2]. inversion HF2; subst.
        right. split; [assumption|]. left. auto.
      - apply app_cons_last_inv in E. destruct E as [(-> & -> & ->)|(post' & -> & ->)].
        + left. auto.
        + apply Forall_app in HF. destruct HF as [HF1 HF2]. inversion HF2; subst.
          right. split; [assumption|]. right. exists pre, q, post'. auto. }
    apply D in H. apply D in H'. destruct H as [[A B]|[A B]], H' as [[A' B']|[A' B']];
      try contradiction; try congruence. eauto.
Qed.

Lemma C09_l ps : Forall packet_ok ps ->
  let s := gdc_run ps in
  current_lsb ps (fst s) /\ current_gdc ps (snd s) /\
  0 <= fst s < 2 ^ 32 /\ 0 <= snd s < 2 ^ 48.
Proof.
  intros HF. cbv zeta. induction ps as [|p ps IH] using rev_ind.
  - cbn. repeat split; try lia.
    + left. split; [reflexivity|constructor].
    + left. split; [reflexivity|]. intros pre q post v E. destruct pre; discriminate.
  - apply Forall_app in HF. destruct HF as [HF Hp]. inversion Hp as [|? ? Hpo _]; subst.
    specialize (IH HF). destruct IH as (Hl & Hg & Hr1 & Hr2).
    unfold gdc_run in *. rewrite fold_left_app. cbn [fold_left].
    set (s := fold_left _ ps _) in *. destruct s as [t g]. cbn [fst snd] in *.
    rewrite update_gdc_eq by assumption.
    pose proof (lsb_range p). pose proof (msb_range p).
    destruct (Z.eqb_spec (gdc_subtype p) 4) as [H4|H4].
    + cbn [fst snd]. split; [|split; [|split; assumption]].
      * eapply current_lsb_snoc; [eassumption|]. rewrite H4. reflexivity.
      * assert (NC : forall pre v, ~ completes pre p v)
          by (intros pre v [C _]; rewrite H4 in C; discriminate).
        destruct Hg as [[-> Hn]|(pre & q & post & -> & Hc & Hz & Hn)].
        -- left. split; [reflexivity|]. intros pre q post v E C.
           apply app_cons_last_inv in E. destruct E as [(-> & -> & ->)|(post' & -> & ->)].
           ++ elim (NC _ _ C).
           ++ eapply Hn; [reflexivity|eassumption].
        -- right. exists pre, q, (post ++ [p]). rewrite <- app_assoc.
           repeat split; try apply Hc; try assumption.
           intros pre' q' post' v E C.
           apply app_cons_last_inv in E. destruct E as [(-> & -> & ->)|(post2 & -> & ->)].
           ++ elim (NC _ _ C).
           ++ eapply Hn; [reflexivity|eassumption].
    + assert (Hl' : current_lsb (ps ++ [p]) t).
      { eapply current_lsb_snoc; [eassumption|].
        destruct (Z.eqb_spec (gdc_subtype p) 4); [contradiction|reflexivity]. }
      assert (KEEP : (forall pre v, completes pre p v -> pre = ps -> v = 0) ->
                     current_gdc (ps ++ [p]) g).
      { intros NC. destruct Hg as [[-> Hn]|(pre & q & post & Eps & Hc & Hz & Hn)].
        -- left. split; [reflexivity|]. intros pre q post v E C.
           apply app_cons_last_inv in E. destruct E as [(-> & -> & ->)|(post' & -> & ->)].
           ++ eapply NC; eauto.
           ++ eapply Hn; [reflexivity|eassumption].
        -- right. exists pre, q, (post ++ [p]). rewrite Eps, <- app_assoc.
           repeat split; try apply Hc; try assumption.
           intros pre' q' post' v E C.
           apply app_cons_last_inv in E. destruct E as [(-> & -> & ->)|(post2 & -> & ->)].
           ++ eapply NC; [eassumption|]. symmetry. exact Eps.
           ++ eapply Hn; [reflexivity|eassumption]. }
      destruct (Z.eqb_spec (gdc_subtype p) 5) as [H5|H5].
      * destruct (Z.eqb_spec (msb_value p * 2 ^ 32 + t) 0) as [Hz|Hz]; cbn [fst snd].
        -- split; [assumption|]. split; [|split; lia]. apply KEEP.
           intros pre v [_ (t2 & Ht2 & ->)] ->. rewrite (current_lsb_fun _ _ _ Ht2 Hl). exact Hz.
        -- split; [assumption|]. split; [|split; lia].
           right. exists ps, p, []. split; [reflexivity|]. split.
           ++ split; [assumption|]. exists t. auto.
           ++ split; [assumption|]. intros pre' q' post' v E. destruct pre'; discriminate.
      * cbn [fst snd]. split; [assumption|]. split; [|split; lia]. apply KEEP.
        intros pre v [C _]. contradiction.
Qed.

(** Once non-zero, the timestamp stays non-zero; LSB and other packets leave
    it alone. *)
Lemma C09_step_l p timer g : packet_ok p -> 0 <= timer < 2 ^ 32 -> 0 <= g < 2 ^ 48 ->
  let s := update_gdc p timer g in
  (g <> 0 -> snd s <> 0) /\ (gdc_subtype p <> 5 -> snd s = g) /\
  (gdc_subtype p <> 4 -> fst s = timer) /\ 0 <= snd s < 2 ^ 48.
Proof.
  intros Hp Ht Hg. cbv zeta. rewrite update_gdc_eq by assumption.
  pose proof (lsb_range p). pose proof (msb_range p).
  destruct (Z.eqb_spec (gdc_subtype p) 4); cbn [fst snd]; [repeat split; lia|].
  destruct (Z.eqb_spec (gdc_subtype p) 5); cbn [fst snd]; [|repeat split; lia].
  destruct (Z.eqb_spec (msb_value p * 2 ^ 32 + timer) 0); repeat split; lia.
Qed.
