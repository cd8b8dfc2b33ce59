(** Complete runs of the streaming program. *)
From Coq Require Import Reals Lia ZifyBool Zify.
From Flocq Require Import Core.
From Verif Require Export P_StreamKeep P_StreamRead P_StreamSys P_AbsProps.
Ltac Zify.zify_post_hook ::= Z.to_euclidean_division_equations.
Global Open Scope Z_scope.

(** * The hits *)

Definition sound_hit (h : hit) : Prop := hit_ok h /\ exists t, h_tof h = Some t.

Lemma lsb_range ps t : lsb_is ps t -> 0 <= t < 2 ^ 32.
Proof.
  intros [[_ ->]|(pre & p & _ & ->)]; [lia|]. unfold lsb_value. apply Z.mod_pos_bound. lia.
Qed.
Lemma gdc_range ps g : gdc_is ps g -> 0 <= g < 2 ^ 48.
Proof.
  intros [[_ ->]|(pre & p & t & _ & H & ->)]; [lia|]. apply lsb_range in H.
  unfold msb_value. pose proof (Z.mod_pos_bound (le64 p / 2 ^ 16) (2 ^ 16) ltac:(lia)).
  change (2 ^ 48) with (2 ^ 16 * 2 ^ 32). nia.
Qed.

Lemma place_range chip x y : 0 <= x < 256 -> 0 <= y < 256 ->
  0 <= fst (place chip x y) < 516 /\ 0 <= snd (place chip x y) < 516.
Proof.
  intros Hx Hy. rewrite <- layout_place. unfold layout.
  destruct (chip =? 0); [cbn; lia|]. destruct (chip =? 1); [cbn; lia|].
  destruct (chip =? 2); cbn; lia.
Qed.

Lemma lib_hit_sound p T g c : packet_ok p -> 0 <= g < 2 ^ 48 -> sound_hit (lib_hit p T g c).
Proof.
  intros Hp Hg. destruct (C01_bijection_l p Hp) as (f & (Hf & <-) & _).
  destruct (pixel_packet_decode f Hf) as (H1 & H2 & H3 & H4 & H5 & H6 & _).
  rewrite lib_hit_eq. cbv zeta. split; [|eexists; reflexivity].
  unfold hit_ok. cbn [h_x h_y h_spider].
  rewrite H5, H6, layout_place.
  destruct (place_range c (f_x f) (f_y f)) as [Px Py]; [apply Hf|apply Hf|].
  split; [lia|]. split; [lia|].
  apply lib_time_range; [|exact Hg]. apply (spidertime30_eq _ Hp).
Qed.

Lemma stamped_sound seen xs hs : stamped seen xs hs -> Forall (fun x => packet_ok (snd x)) xs ->
  Forall sound_hit hs.
Proof.
  induction 1 as [seen|seen c p xs T g hs K Ht Hg H IH|seen c p xs hs K H IH]; intros F.
  - constructor.
  - apply Forall_cons_iff in F. destruct F as [Hp F]. constructor; [|auto].
    apply lib_hit_sound; [exact Hp|]. eapply gdc_range. exact Hg.
  - apply Forall_cons_iff in F. destruct F as [Hp F]. auto.
Qed.

(** * Fitting *)

Lemma finsert_length x l : length (finsert x l) = S (length l).
Proof. induction l as [|y l IH]; [reflexivity|]. cbn [finsert]. destruct (fle x y); cbn [length]; lia. Qed.
Lemma fsort_length l : length (fsort l) = length l.
Proof. induction l as [|x l IH]; [reflexivity|]. cbn [fsort fold_right]. rewrite finsert_length. fold (fsort l). cbn [length]. lia. Qed.

Lemma median_total l : l <> [] -> exists v, get_median l = Ok v.
Proof.
  intros H. unfold get_median. rewrite fsort_length.
  assert (L : (0 < length l)%nat) by (destruct l; [congruence|cbn; lia]).
  remember (length l) as n eqn:En. rewrite <- (fsort_length l) in En.
  assert (D : (Nat.div n 2 < n)%nat) by (apply Nat.div_lt; lia).
  destruct (nth_error (fsort l) (Nat.div n 2)) as [b|] eqn:Eb;
    [|apply nth_error_None in Eb; lia].
  destruct (Nat.even n); [|rewrite ?Eb; eexists; reflexivity].
  destruct (nth_error (fsort l) (Nat.div n 2 - 1)) as [a|] eqn:Ea;
    [|apply nth_error_None in Ea; lia].
  destruct n; [lia|]. rewrite Ea, Eb. eexists; reflexivity.
Qed.

Lemma gauss_rows_total srf c : Forall sound_hit c -> exists rs, gauss_rows srf c = Ok rs.
Proof.
  induction c as [|h c IH]; intros F; [eexists; reflexivity|].
  apply Forall_cons_iff in F. destruct F as [[_ (t & Et)] F]. destruct (IH F) as [rs Er].
  cbn [gauss_rows]. unfold get_tof. rewrite Et. cbn [obind]. rewrite Er. eexists; reflexivity.
Qed.

Lemma gauss_total ext srf c : Forall sound_hit c -> exists e, gauss_fit ext srf c = Ok e.
Proof.
  intros F. unfold gauss_fit. destruct (Z.ltb_spec (zlen c) 8) as [L|L]; [eexists; reflexivity|].
  destruct (gauss_rows_total srf c F) as [rs Er]. rewrite Er. cbn [obind].
  destruct (median_total (map g_tot rs)) as [v Ev].
  { pose proof (gauss_rows_len _ _ _ Er) as E. destruct rs; [|discriminate].
    unfold zlen in *. cbn [length] in E. lia. }
  rewrite Ev. cbn [obind]. destruct (ext_qr _ _ _). eexists; reflexivity.
Qed.

Lemma events_total_fit fit min cs : Forall (fun c => exists e, fit c = Ok e) cs ->
  exists evs, events fit min cs evs.
Proof.
  induction cs as [|c cs IH]; intros F; [exists []; constructor|].
  apply Forall_cons_iff in F. destruct F as [[e Ee] F]. destruct (IH F) as [evs H].
  destruct (Z.lt_ge_cases (zlen c) min) as [L|L]; [exists evs; constructor; assumption|].
  destruct (fge (n_x e) (f_of_Z 0) && fge (n_y e) (f_of_Z 0)) eqn:K.
  - exists (e :: evs). constructor; assumption.
  - exists evs. econstructor; eassumption.
Qed.

Lemma events_gauss ext srf min cs evs : events (gauss_fit ext srf) min cs evs ->
  Forall (fun e => 8 <= n_hits e) evs.
Proof.
  induction 1 as [|c cs evs A H IH|c cs e evs A B D H IH|c cs e evs A B D H IH]; try assumption; constructor.
  - destruct (gauss_nhits _ _ _ _ B D). lia.
  - exact IH.
Qed.

Lemma members_sub l ls data : incl (members l ls data) data.
Proof.
  intros a Ia. unfold members in Ia. apply in_map_iff in Ia. destruct Ia as ((x & y) & <- & Ia).
  apply filter_In in Ia. destruct Ia as [Ia _]. apply in_combine_r in Ia. exact Ia.
Qed.

(** * One batch *)

Lemma five_is : radius_is (f_of_Z 5) (5 * 2 ^ 20).
Proof.
  destruct (is_int_of_Z 5 ltac:(lia)) as [A B]. split; [exact A|]. split; [|lia].
  rewrite B. rewrite mult_IZR. unfold Rdiv.
  rewrite Rmult_assoc, Rinv_r, Rmult_1_r; [reflexivity|]. apply IZR_neq. lia.
Qed.

Lemma fit_method n cfg o data o' : abs_fit n cfg o data = Ok o' -> o_method o' = o_method o.
Proof.
  unfold abs_fit. destruct (label_loop _ _ _ _ _) as [[ls m]| | |]; cbn [obind]; try discriminate.
  destruct (index_loop _ _ _) as [idx| | |]; cbn [obind]; try discriminate.
  intros H. injection H as <-. reflexivity.
Qed.

Lemma clusters_same_labels n fits data ls op closed o' :
  clusters n fits data ls op closed -> forall ls2, o_labels o' = map Z.of_nat ls ->
  o_labels o' = map Z.of_nat ls2 -> ls2 = ls.
Proof.
  intros _ ls2 E1 E2. rewrite E1 in E2. clear E1. revert ls2 E2.
  induction ls as [|l ls IH]; intros [|l2 ls2] E; cbn in E; try discriminate; [reflexivity|].
  injection E as E0 E. f_equal; [lia|auto].
Qed.

Lemma cluster_batch_l ext b : b <> [] -> Forall sound_hit b ->
  exists evs, cluster_batch ext b = Ok evs /\ batch_events ext b evs.
Proof.
  intros Hne F. unfold cluster_batch. cbv zeta. set (cfg := AbsCfg (f_of_Z 5) 1 75).
  set (o := abs_set_method abs_new MFastGaussian).
  assert (Hok : Forall hit_ok b) by (eapply Forall_impl; [|exact F]; intros h H; apply H).
  destruct (C23_l 4 cfg (5 * 2 ^ 20) o b ltac:(lia) Hok five_is ltac:(cbn; lia))
    as (o' & ls & op & closed & E & El & C & _).
  unfold lib_fit. rewrite E. cbn [obind].
  destruct (C24_l 4 ext cfg o b o' MFastGaussian (gauss_fit ext (f_of_Z 1)) ltac:(lia) Hok E eq_refl)
    as (ls2 & k & El2 & Len & Hk & Ev).
  pose proof (clusters_same_labels _ _ _ _ _ _ _ C _ El El2) as ->.
  assert (Em : abs_set_method o' MFastGaussian = o').
  { pose proof (fit_method _ _ _ _ _ E) as M. cbn in M. destruct o' as [m1 l1 i1]. cbn in *. subst. reflexivity. }
  rewrite Em in Ev.
  assert (Ek : k = (length op + length closed)%nat).
  { pose proof (clusters_label_bound _ _ _ _ _ _ C) as LB. rewrite Forall_forall in LB.
    pose proof (clusters_all_used _ _ _ _ _ _ C) as AU.
    destruct (Nat.lt_trichotomy k (length op + length closed)) as [L|[L|L]]; [|exact L|].
    - pose proof (AU k L) as I. apply Hk in I. lia.
    - assert (I : In (length op + length closed)%nat ls) by (apply Hk; exact L). apply LB in I. lia. }
  destruct (events_total_fit (gauss_fit ext (f_of_Z 1)) 1 (clusters_of k ls b)) as [evs He].
  { apply Forall_forall. intros c I. unfold clusters_of in I. apply in_map_iff in I.
    destruct I as (l & <- & _). apply gauss_total. apply Forall_forall. intros h Ih.
    rewrite Forall_forall in F. apply F. eapply members_sub. exact Ih. }
  exists evs. split.
  - unfold lib_get_events. rewrite El.
    replace (zlen (map Z.of_nat ls) =? zlen b) with true by (unfold zlen; rewrite map_length; lia).
    cbn [negb]. destruct ls as [|l ls]; [destruct b; [congruence|discriminate]|].
    cbn [map]. apply Ev. exact He.
  - exists ls, op, closed. split; [exact C|]. rewrite <- Ek. exact He.
Qed.

Lemma batch_counts ext b evs : batch_events ext b evs ->
  Forall (fun e => 8 <= n_hits e) evs /\ total_hits evs <= zlen b.
Proof.
  intros (ls & op & closed & C & H). split; [eapply events_gauss; exact H|].
  destruct (events_total ext MFastGaussian _ _ _ _ eq_refl H) as (A & _).
  rewrite total_len_members in A; [exact A|eapply clusters_length; exact C|].
  eapply clusters_label_bound. exact C.
Qed.

Lemma total_hits_app a b : total_hits (a ++ b) = total_hits a + total_hits b.
Proof. induction a as [|e a IH]; [reflexivity|]. cbn [app total_hits fold_right]. fold (total_hits (a ++ b)). fold (total_hits a). lia. Qed.

Lemma cluster_all_l ext bs : Forall (fun b => b <> []) bs -> Forall sound_hit (concat bs) ->
  exists evss, Forall2 (batch_events ext) bs evss /\ cluster_all ext bs = Ok (concat evss).
Proof.
  induction bs as [|b bs IH]; intros N F; [exists []; split; [constructor|reflexivity]|].
  apply Forall_cons_iff in N. destruct N as [Nb N]. cbn [concat] in F. apply Forall_app in F.
  destruct F as [Fb F]. destruct (cluster_batch_l ext b Nb Fb) as (e & E & B).
  destruct (IH N F) as (es & H & E2). exists (e :: es). split; [constructor; assumption|].
  cbn [cluster_all]. rewrite E. cbn [obind]. rewrite E2. reflexivity.
Qed.

Lemma concat_counts ext bs evss : Forall2 (batch_events ext) bs evss ->
  Forall (fun e => 8 <= n_hits e) (concat evss) /\ total_hits (concat evss) <= zlen (concat bs).
Proof.
  induction 1 as [|b e bs es B H IH]; [cbn [concat]; split; [apply Forall_nil|cbn [total_hits fold_right]; unfold zlen; cbn [length]; lia]|].
  destruct (batch_counts _ _ _ B) as [A1 A2]. destruct IH as [I1 I2]. cbn [concat]. split.
  - apply Forall_app. auto.
  - rewrite total_hits_app, zlen_cat. lia.
Qed.

Lemma batches_nonempty full (rest : list hit) : Forall (fun b => zlen b = 10000) full ->
  Forall (fun b => b <> []) (full ++ nonempty_batch rest).
Proof.
  intros H. apply Forall_app. split.
  - eapply Forall_impl; [|exact H]. intros b E ->. discriminate E.
  - unfold nonempty_batch. destruct rest; [constructor|]. constructor; [discriminate|constructor].
Qed.
Lemma concat_nonempty_batch {A} (rest : list A) : concat (nonempty_batch rest) = rest.
Proof. destruct rest; [reflexivity|]. cbn. rewrite app_nil_r. reflexivity. Qed.

(** * Termination of the reader *)

Lemma read8_progress f a f' a' : read8 f a = (f', a') -> f_eof f = false ->
  (length (f_rest f') <= length (f_rest f))%nat /\
  (f_eof f' = true \/ (length (f_rest f') + 8 <= length (f_rest f))%nat).
Proof.
  intros H E. assert (f' = fst (read8 f a)) as -> by (rewrite H; reflexivity).
  unfold read8. rewrite E. cbn [fst f_rest f_eof]. rewrite skipn_length. unfold zlen. rewrite firstn_length.
  destruct (Z.ltb_spec (Z.of_nat (Nat.min 8 (length (f_rest f)))) 8); lia.
Qed.
Lemma read8_le f a f' a' : read8 f a = (f', a') ->
  (length (f_rest f') <= length (f_rest f))%nat /\ (f_eof f = true -> f_eof f' = true).
Proof.
  destruct (f_eof f) eqn:E.
  - unfold read8. rewrite E. intros H. injection H as <- _. split; [lia|auto].
  - intros H. destruct (read8_progress _ _ _ _ H E). split; [lia|discriminate].
Qed.

(** Results that a decoder can have: hits or undefined behaviour. *)
Definition plain {A} (r : outcome A) : Prop := match r with Ok _ | UB _ => True | _ => False end.

Lemma plain_bind {A B} (r : outcome A) (k : A -> outcome B) : plain r ->
  (forall a, r = Ok a -> plain (k a)) -> plain (obind r k).
Proof. destruct r; cbn; auto. Qed.

Lemma elem_plain a i : plain (elem a i).
Proof. unfold elem. destruct (nth_error a i) as [[b|]|]; exact I. Qed.
Lemma packet_of_plain a : plain (packet_of a).
Proof. unfold packet_of. repeat (apply plain_bind; [apply elem_plain|intros ? _]). exact I. Qed.
Lemma header_test_plain a : plain (header_test a).
Proof.
  unfold header_test. apply plain_bind; [apply elem_plain|intros a0 _].
  destruct (a0 =? 84); [|exact I]. apply plain_bind; [apply elem_plain|intros a1 _].
  destruct (a1 =? 80); [|exact I]. apply plain_bind; [apply elem_plain|intros a2 _]. exact I.
Qed.
Lemma packet_to_hit_plain p t g c : plain (packet_to_hit p t g c).
Proof.
  unfold packet_to_hit. cbv zeta. apply plain_bind.
  - destruct (_ <? t); [|exact I]. destruct (f_to_u32 _); exact I.
  - intros a _. destruct (layout c _ _). exact I.
Qed.
Lemma rd_packet_plain c a s h : plain (rd_packet c a s h).
Proof.
  unfold rd_packet. apply plain_bind; [apply elem_plain|intros a7 _].
  destruct (a7 =? 111).
  { apply plain_bind; [apply packet_of_plain|intros p _]. exact I. }
  destruct (Z.land a7 240 =? 64).
  { apply plain_bind; [apply packet_of_plain|intros p _]. destruct (lib_gdc _ _ _ _). exact I. }
  destruct (Z.land a7 240 =? 176); [|exact I].
  apply plain_bind; [apply packet_of_plain|intros p _].
  apply plain_bind; [apply packet_to_hit_plain|intros x _]. exact I.
Qed.
Lemma rd_section_plain keep n : forall c st, plain (rd_section keep n c st) /\
  forall st', rd_section keep n c st = Ok st' ->
    (length (f_rest (rd_file st')) <= length (f_rest (rd_file st)))%nat /\
    (f_eof (rd_file st) = true -> f_eof (rd_file st') = true).
Proof.
  induction n as [|n IH]; intros c st; cbn [rd_section].
  - split; [exact I|]. intros st' H. injection H as <-. split; [lia|auto].
  - destruct (read8 (rd_file st) (declare keep (rd_arr st))) as [f a] eqn:R.
    apply read8_le in R. destruct R as [R1 R2].
    pose proof (rd_packet_plain c a (rd_ts st) (rd_hits st)) as P.
    destruct (rd_packet c a (rd_ts st) (rd_hits st)) as [[s h]| | |]; cbn [obind]; try destruct P.
    + destruct (IH c (Rd f (rd_buf st) a s h)) as [I1 I2]. split; [exact I1|].
      intros st' H. apply I2 in H. cbn [rd_file] in H. destruct H as [H1 H2]. split; [lia|auto].
    + split; [exact I|discriminate].
Qed.
Lemma rd_loop_plain keep fuel : forall st, (length (f_rest (rd_file st)) < fuel)%nat ->
  plain (rd_loop keep fuel st).
Proof.
  induction fuel as [|fuel IH]; intros st H; [lia|]. cbn [rd_loop].
  destruct (f_eof (rd_file st)) eqn:E; [exact I|].
  destruct (read8 (rd_file st) (declare keep (rd_buf st))) as [f b] eqn:R.
  destruct (read8_progress _ _ _ _ R E) as [R1 R2].
  assert (K : forall st', (length (f_rest (rd_file st')) <= length (f_rest f))%nat ->
    (f_eof f = true -> f_eof (rd_file st') = true) -> plain (rd_loop keep fuel st')).
  { intros st' L Hd. destruct R2 as [R2|R2]; [|apply IH; lia].
    destruct fuel; cbn [rd_loop]; rewrite (Hd R2); exact I. }
  apply plain_bind; [apply header_test_plain|intros hd _]. destruct hd.
  - apply plain_bind; [apply elem_plain|intros ch _].
    apply plain_bind; [apply elem_plain|intros b7 _].
    apply plain_bind; [apply elem_plain|intros b6 _]. cbv zeta.
    match goal with |- context [rd_section keep ?n ?c ?s] =>
      destruct (rd_section_plain keep n c s) as [P1 P2] end.
    apply plain_bind; [exact P1|]. intros st' Hs. apply P2 in Hs. cbn [rd_file] in Hs.
    apply K; apply Hs.
  - apply K; cbn [rd_file]; [lia|auto].
Qed.
Lemma rd_run_plain keep m : (exists hs, rd_run keep m = Ok hs) \/ (exists u, rd_run keep m = UB u).
Proof.
  pose proof (rd_loop_plain keep (S (length m)) (Rd (FS m false) blank8 blank8 ts0 [])
    ltac:(cbn [rd_file f_rest]; lia)) as P.
  fold (rd_run keep m) in P. destruct (rd_run keep m) as [hs| |u|]; cbn in P; try destruct P; eauto.
Qed.

(** * The hits of the reader are sound *)

Definition arr_ok (a : arr8) : Prop := Forall (fun o => match o with Some b => is_byte b | None => True end) a.
Definition ts_ok (s : ts) : Prop := 0 <= ts_timer s < 2 ^ 32 /\ 0 <= ts_gdc s < 2 ^ 48.

Lemma blank8_ok : arr_ok blank8.
Proof. unfold arr_ok, blank8. apply Forall_forall. intros o I. apply repeat_spec in I. subst. exact Logic.I. Qed.
Lemma declare_ok keep a : arr_ok a -> arr_ok (declare keep a).
Proof. intros H. destruct keep; [exact H|apply blank8_ok]. Qed.
Lemma forall_firstn {A} (P : A -> Prop) n l : Forall P l -> Forall P (firstn n l).
Proof. intros H. rewrite <- (firstn_skipn n l) in H. apply Forall_app in H. apply H. Qed.
Lemma forall_skipn {A} (P : A -> Prop) n l : Forall P l -> Forall P (skipn n l).
Proof. intros H. rewrite <- (firstn_skipn n l) in H. apply Forall_app in H. apply H. Qed.
Lemma read8_ok f a f' a' : read8 f a = (f', a') -> bytes_ok (f_rest f) -> arr_ok a ->
  bytes_ok (f_rest f') /\ arr_ok a'.
Proof.
  intros H Hb Ha.
  assert (f' = fst (read8 f a)) as -> by (rewrite H; reflexivity).
  assert (a' = snd (read8 f a)) as -> by (rewrite H; reflexivity).
  unfold read8. destruct (f_eof f); [auto|]. cbn [fst snd f_rest]. split.
  - apply forall_skipn. exact Hb.
  - unfold arr_ok. apply Forall_app. split; [|apply forall_skipn; exact Ha].
    apply Forall_map. apply forall_firstn. exact Hb.
Qed.
Lemma elem_ok a i b : arr_ok a -> elem a i = Ok b -> is_byte b.
Proof.
  unfold elem. destruct (nth_error a i) as [[c|]|] eqn:E; try discriminate.
  intros Ha H. injection H as <-. apply nth_error_In in E. unfold arr_ok in Ha.
  rewrite Forall_forall in Ha. exact (Ha _ E).
Qed.
Lemma packet_of_ok a p : arr_ok a -> packet_of a = Ok p -> packet_ok p.
Proof.
  intros Ha. unfold packet_of.
  repeat (match goal with |- obind (elem a ?i) _ = _ -> _ =>
    let E := fresh "E" in destruct (elem a i) as [?| | |] eqn:E; cbn [obind]; try discriminate;
    apply (elem_ok _ _ _ Ha) in E end).
  intros H. injection H as <-. unfold packet_ok. cbn [b0 b1 b2 b3 b4 b5 b6 b7]. tauto.
Qed.
Lemma packet_to_hit_sound p T g c h : packet_ok p -> 0 <= g < 2 ^ 48 ->
  packet_to_hit p T g c = Ok h -> sound_hit h.
Proof.
  intros Hp Hg H.
  destruct (lib_hit_sound p T g c Hp Hg) as [(H1 & H2 & H3) _].
  rewrite lib_hit_eq in H1, H2, H3. cbv zeta in H1, H2, H3. cbn [h_x h_y h_spider] in H1, H2, H3.
  unfold packet_to_hit in H. cbv zeta in H.
  destruct (if lib_time (spidertime30 p) g <? T then _ else _) as [t| | |]; cbn [obind] in H; try discriminate.
  destruct (layout c _ _) as [x y]. injection H as <-.
  split; [|eexists; reflexivity]. unfold hit_ok. cbn [h_x h_y h_spider fst snd] in *. auto.
Qed.
Lemma rd_packet_sound c a s h s' h' : arr_ok a -> ts_ok s -> Forall sound_hit h ->
  rd_packet c a s h = Ok (s', h') -> ts_ok s' /\ Forall sound_hit h'.
Proof.
  intros Ha Hs Hh. unfold rd_packet. destruct (elem a 7) as [a7| | |]; cbn [obind]; try discriminate.
  destruct (a7 =? 111).
  { destruct (packet_of a) as [p| | |] eqn:Ep; cbn [obind]; try discriminate.
    intros H. injection H as <- <-. split; [exact Hs|exact Hh]. }
  destruct (Z.land a7 240 =? 64).
  { destruct (packet_of a) as [p| | |] eqn:Ep; cbn [obind]; try discriminate.
    apply (packet_of_ok _ _ Ha) in Ep. destruct Hs as [H1 H2].
    rewrite lib_gdc_eq by (auto; lia).
    assert (0 <= lsb_value p < 2 ^ 32) by (unfold lsb_value; apply Z.mod_pos_bound; lia).
    assert (0 <= msb_value p < 2 ^ 16) by (unfold msb_value; apply Z.mod_pos_bound; lia).
    destruct (gdc_subtype p =? 4); [|destruct (gdc_subtype p =? 5)];
      intros K; injection K as <- <-; (split; [|exact Hh]); unfold ts_ok; cbn [ts_timer ts_gdc]; lia. }
  destruct (Z.land a7 240 =? 176).
  - destruct (packet_of a) as [p| | |] eqn:Ep; cbn [obind]; try discriminate.
    apply (packet_of_ok _ _ Ha) in Ep.
    destruct (packet_to_hit p _ _ c) as [x| | |] eqn:Ex; cbn [obind]; try discriminate.
    intros K. injection K as <- <-. split; [exact Hs|]. apply Forall_app. split; [exact Hh|].
    apply Forall_cons; [|apply Forall_nil]. eapply packet_to_hit_sound; [exact Ep| |exact Ex]. apply Hs.
  - intros K. injection K as <- <-. auto.
Qed.
Definition rd_ok (st : rd_st) : Prop :=
  bytes_ok (f_rest (rd_file st)) /\ arr_ok (rd_buf st) /\ arr_ok (rd_arr st) /\
  ts_ok (rd_ts st) /\ Forall sound_hit (rd_hits st).
Lemma rd_section_sound keep n : forall c st st', rd_ok st -> rd_section keep n c st = Ok st' -> rd_ok st'.
Proof.
  induction n as [|n IH]; intros c st st' H; cbn [rd_section].
  - intros K. injection K as <-. exact H.
  - destruct H as (H1 & H2 & H3 & H4 & H5).
    destruct (read8 (rd_file st) (declare keep (rd_arr st))) as [f a] eqn:R.
    apply read8_ok in R; [|exact H1|apply declare_ok; exact H3]. destruct R as [R1 R2].
    destruct (rd_packet c a (rd_ts st) (rd_hits st)) as [[s h]| | |] eqn:P; cbn [obind]; try discriminate.
    apply rd_packet_sound in P; auto. apply IH. unfold rd_ok. cbn [rd_file rd_buf rd_arr rd_ts rd_hits].
    tauto.
Qed.
Lemma rd_loop_sound keep fuel : forall st hs, rd_ok st -> rd_loop keep fuel st = Ok hs -> Forall sound_hit hs.
Proof.
  induction fuel as [|fuel IH]; intros st hs H; cbn [rd_loop].
  - destruct (f_eof (rd_file st)); [|discriminate]. intros K. injection K as <-. apply H.
  - destruct (f_eof (rd_file st)); [intros K; injection K as <-; apply H|].
    destruct H as (H1 & H2 & H3 & H4 & H5).
    destruct (read8 (rd_file st) (declare keep (rd_buf st))) as [f b] eqn:R.
    apply read8_ok in R; [|exact H1|apply declare_ok; exact H2]. destruct R as [R1 R2].
    assert (K : rd_ok (Rd f b (rd_arr st) (rd_ts st) (rd_hits st)))
      by (unfold rd_ok; cbn [rd_file rd_buf rd_arr rd_ts rd_hits]; tauto).
    destruct (header_test b) as [[|]| | |]; cbn [obind]; try discriminate.
    + destruct (elem b 4) as [c4| | |]; cbn [obind]; try discriminate.
      destruct (elem b 7) as [c7| | |]; cbn [obind]; try discriminate.
      destruct (elem b 6) as [c6| | |]; cbn [obind]; try discriminate. cbv zeta.
      match goal with |- context [rd_section keep ?n ?c ?s] =>
        destruct (rd_section keep n c s) as [st'| | |] eqn:E end; cbn [obind]; try discriminate.
      apply rd_section_sound in E; [|exact K]. apply IH. exact E.
    + apply IH. exact K.
Qed.
Lemma read_sound keep m hs : bytes_ok m -> rd_run keep m = Ok hs -> Forall sound_hit hs.
Proof.
  intros Hm. unfold rd_run. apply rd_loop_sound. unfold rd_ok.
  cbn [rd_file rd_buf rd_arr rd_ts rd_hits f_rest].
  split; [exact Hm|]. split; [apply blank8_ok|]. split; [apply blank8_ok|].
  split; [unfold ts_ok, ts0; cbn; lia|apply Forall_nil].
Qed.

(** * Complete runs *)

Lemma C59_results_l keep ext m hits r : bytes_ok m -> rd_run keep m = Ok hits ->
  stream_run keep ext m r ->
  exists full lost rest evss, batched hits full lost rest /\
    Forall2 (batch_events ext) (full ++ nonempty_batch rest) evss /\
    Forall (fun e => 8 <= n_hits e) (concat evss) /\
    total_hits (concat evss) + zlen lost <= zlen hits /\
    ((concat evss = [] /\ r = Throw RuntimeError) \/
     (concat evss <> [] /\ r = Ok (concat evss))).
Proof.
  intros Hm E. pose proof (read_sound _ _ _ Hm E) as F.
  unfold stream_run. rewrite E. intros (s & Hs & Hpc & ->).
  destruct (C42_safety_l _ _ Hs Hpc) as (_ & _ & full & lost & rest & B & Eo).
  assert (Ec : concat (y_out s) = concat full ++ rest).
  { rewrite Eo, concat_app, concat_nonempty_batch. reflexivity. }
  pose proof B as (Eh & Hf & Hl).
  destruct (cluster_all_l ext (y_out s)) as (evss & H2 & Ea).
  - rewrite Eo. apply batches_nonempty. exact Hf.
  - rewrite Ec. rewrite Eh in F. apply Forall_app in F. destruct F as [F1 F].
    apply Forall_app in F. apply Forall_app. tauto.
  - exists full, lost, rest, evss. split; [exact B|]. rewrite <- Eo. split; [exact H2|].
    destruct (concat_counts _ _ _ H2) as [K1 K2]. split; [exact K1|]. split.
    + rewrite Ec in K2. rewrite Eh. rewrite !zlen_cat in *. lia.
    + unfold saved_events. rewrite Ea. cbn [obind]. destruct (concat evss); [left|right]; split; auto; discriminate.
Qed.

Lemma batch_events_unique ext b e e' : batch_events ext b e -> batch_events ext b e' -> e = e'.
Proof.
  intros (ls & op & cls & C & H) (ls' & op' & cls' & C' & H').
  destruct (clusters_unique _ _ _ _ _ _ C _ _ _ C') as (-> & -> & ->).
  clear - H H'. revert e' H'.
  induction H as [|c cs evs A H IH|c cs e evs A B D H IH|c cs e evs A B D H IH]; intros e' H'.
  - inversion H'. reflexivity.
  - inversion H'; subst; try (exfalso; lia). apply IH. assumption.
  - inversion H'; subst; try (exfalso; lia);
      match goal with K : gauss_fit _ _ c = Ok ?e2, B : gauss_fit _ _ c = Ok ?e1 |- _ =>
        tryif constr_eq e1 e2 then fail else
        (assert (e1 = e2) by (apply Ok_inj; rewrite <- B; exact K); subst) end.
    + f_equal. apply IH. assumption.
    + congruence.
  - inversion H'; subst; try (exfalso; lia);
      match goal with K : gauss_fit _ _ c = Ok ?e2, B : gauss_fit _ _ c = Ok ?e1 |- _ =>
        tryif constr_eq e1 e2 then fail else
        (assert (e1 = e2) by (apply Ok_inj; rewrite <- B; exact K); subst) end.
    + congruence.
    + apply IH. assumption.
Qed.

Lemma C59_possible_l keep ext m hits full lost rest evss :
  bytes_ok m -> rd_run keep m = Ok hits -> batched hits full lost rest ->
  Forall2 (batch_events ext) (full ++ nonempty_batch rest) evss ->
  stream_run keep ext m
    (match concat evss with [] => Throw RuntimeError | es => Ok es end).
Proof.
  intros Hm E B H. pose proof (read_sound _ _ _ Hm E) as F. unfold stream_run. rewrite E.
  destruct (C42_complete_l hits full lost rest B) as (s & Hs & Hpc & Eo).
  exists s. split; [exact Hs|]. split; [exact Hpc|]. rewrite Eo. destruct B as (Eh & Hf & Hl).
  destruct (cluster_all_l ext (full ++ nonempty_batch rest)) as (evss' & H2 & Ea).
  - apply batches_nonempty. exact Hf.
  - rewrite concat_app, concat_nonempty_batch. rewrite Eh in F. apply Forall_app in F.
    destruct F as [F1 F]. apply Forall_app in F. apply Forall_app. tauto.
  - assert (evss' = evss) as ->.
    { clear - H H2. revert evss H. induction H2 as [|b e bs es B H2 IH]; intros evss H;
        inversion H; subst; [reflexivity|]. f_equal; [eapply batch_events_unique; eassumption|auto]. }
    unfold saved_events. rewrite Ea. cbn [obind]. destruct (concat evss); reflexivity.
Qed.

Lemma C59_throws_l keep ext m hits : rd_run keep m = Ok hits -> zlen hits < 10000 ->
  stream_run keep ext m (Throw RuntimeError).
Proof.
  intros E L. unfold stream_run. rewrite E.
  destruct (C42_all_lost_l hits L) as (s & Hs & Hpc & Eo). exists s.
  split; [exact Hs|]. split; [exact Hpc|]. rewrite Eo. reflexivity.
Qed.

Lemma C59_few_l keep ext m hits r : bytes_ok m -> rd_run keep m = Ok hits ->
  zlen hits < 8 -> stream_run keep ext m r -> r = Throw RuntimeError.
Proof.
  intros Hm E L R. destruct (C59_results_l _ _ _ _ _ Hm E R)
    as (full & lost & rest & evss & B & H2 & G & T & [[_ K]|[K _]]); [exact K|].
  exfalso. destruct (concat evss) as [|e es]; [congruence|].
  apply Forall_cons_iff in G. destruct G as [G1 G2]. cbn [total_hits fold_right] in T.
  fold (total_hits es) in T.
  assert (0 <= total_hits es).
  { clear - G2. induction G2 as [|x l H G IH]; cbn [total_hits fold_right]; [lia|].
    fold (total_hits l). lia. }
  pose proof (zlen_nonneg lost). lia.
Qed.

Lemma C59_exists_l keep ext m : exists r, stream_run keep ext m r.
Proof.
  unfold stream_run. destruct (rd_run_plain keep m) as [(hs & ->)|(u & ->)]; [|eexists; reflexivity].
  destruct (C42_none_lost_l hs) as (s & H1 & H2 & _). eexists. exists s. eauto.
Qed.

Lemma C59_strict_l ext m r : bytes_ok m -> zlen m mod 8 = 0 -> stream_run false ext m r ->
  r = UB Uninitialised \/ r = UB BadConversion.
Proof.
  intros Hm L. unfold stream_run.
  destruct (rd_run_strict_l m Hm) as [(xs & hs & Hx & _)|[_ [E|E]]].
  - apply framed_odd_length in Hx. lia.
  - rewrite E. auto.
  - rewrite E. auto.
Qed.

(** * Cut-off files *)

Lemma C58_cut_l ds q ps p : Forall dataset_ok ds -> packet_ok q -> starts_TPX q ->
  Forall packet_ok (ps ++ [p]) -> zlen (ps ++ [p]) < declared_packets q ->
  let m := stream ds ++ packet_bytes q ++ flat_map packet_bytes (ps ++ [p]) in
  let xs := payloads ds ++ map (pair (schar (b4 q))) (ps ++ [p]) ++
      repeat (schar (b4 q), p) (Z.to_nat (declared_packets q - zlen (ps ++ [p]))) in
  (timely [] xs -> exists hs, stamped [] xs hs /\ rd_run true m = Ok hs) /\
  (~ timely [] xs -> rd_run true m = UB BadConversion).
Proof.
  intros Hds Hq Hs Hps Hlt. cbv zeta. rewrite keep_cut_l by assumption.
  match goal with |- context [rd_fold ?l ts0 []] => set (xs := l) end.
  assert (F : Forall (fun x => packet_ok (snd x)) xs).
  { unfold xs. apply Forall_app. split; [apply payloads_ok; exact Hds|]. apply Forall_app. split.
    - apply Forall_map. cbn [snd]. exact Hps.
    - apply Forall_forall. intros x I. apply repeat_spec in I. subst x. cbn [snd].
      apply Forall_app in Hps. destruct Hps as [_ Hps]. apply Forall_cons_iff in Hps. apply Hps. }
  destruct (rd_fold_spec xs F [] ts0 [] ref_start) as [[Ht (s' & hs & E & Hst)]|[Ht E]]; rewrite E; cbn [obind app].
  - split; [|tauto]. intros _. exists hs. auto.
  - split; [tauto|]. reflexivity.
Qed.

Lemma C58_whole_l m : bytes_ok m -> zlen m mod 8 = 0 ->
  rd_run false m = UB Uninitialised \/ rd_run false m = UB BadConversion.
Proof.
  intros Hm L. destruct (rd_run_strict_l m Hm) as [(xs & hs & Hx & _)|[_ E]]; [|exact E].
  apply framed_odd_length in Hx. lia.
Qed.

Lemma C58_timely_unique seen xs hs hs' : stamped seen xs hs -> stamped seen xs hs' -> hs = hs'.
Proof. apply C57_unique_l. Qed.

(** Events are only made of the hits that were clustered. *)
Lemma C59_other_hits_l ext cfg o hits o' data : Forall hit_ok hits -> lib_fit cfg o hits = Ok o' ->
  length data <> length hits -> lib_get_events ext cfg o' data = Throw RuntimeError.
Proof.
  intros Hok E N.
  destruct (C24_l 4 ext cfg o hits o' MFastGaussian (gauss_fit ext (f_of_Z 1)) ltac:(lia) Hok E eq_refl)
    as (ls & k & El & Len & _).
  unfold lib_get_events. rewrite El.
  replace (zlen (map Z.of_nat ls) =? zlen data) with false by (unfold zlen; rewrite map_length; lia). reflexivity.
Qed.
