(** Lemmas behind Properties_Bench.v. *)
From Coq Require Import Ascii Reals String Lra Lia ZifyBool Zify Permutation.
From Flocq Require Import Core.
From Verif Require Export P_Mmap P_Hdf5 P_Parallel P_TimePackets S_Bench.
Ltac Zify.zify_post_hook ::= Z.to_euclidean_division_equations.
Global Open Scope Z_scope.
Global Open Scope list_scope.

(** * Extraction in any order *)

Lemma extract_all_nth m : forall bs bs' i b, extract_all GDC_mode bs m (zlen m) = Ok bs' ->
  nth_error bs i = Some b -> exists b', extract_hits GDC_mode b m (zlen m) = Ok b' /\ nth_error bs' i = Some b'.
Proof.
  induction bs as [|b0 bs IH]; intros bs' i b E N; [destruct i; discriminate N|]. cbn [extract_all] in E.
  destruct (extract_hits GDC_mode b0 m (zlen m)) as [b1| | |] eqn:X; try discriminate E. cbn [obind] in E.
  destruct (extract_all GDC_mode bs m (zlen m)) as [bs1| | |] eqn:Y; try discriminate E. cbn [obind] in E.
  apply Ok_inj in E. subst bs'. destruct i as [|i]; cbn [nth_error] in *.
  - inversion N; subst. exists b1. auto.
  - apply (IH bs1 i b eq_refl N).
Qed.
Lemma extract_all_length m : forall bs bs', extract_all GDC_mode bs m (zlen m) = Ok bs' -> length bs' = length bs.
Proof.
  induction bs as [|b0 bs IH]; intros bs' E; cbn [extract_all] in E.
  - apply Ok_inj in E. subst. reflexivity.
  - destruct (extract_hits GDC_mode b0 m (zlen m)) as [b1| | |] eqn:X; try discriminate E. cbn [obind] in E.
    destruct (extract_all GDC_mode bs m (zlen m)) as [bs1| | |] eqn:Y; try discriminate E. cbn [obind] in E.
    apply Ok_inj in E. subst bs'. cbn [length]. f_equal. apply IH. reflexivity.
Qed.

Lemma nth_error_eq {A} : forall l l' : list A, (forall i, nth_error l i = nth_error l' i) -> l = l'.
Proof.
  induction l as [|a l IH]; intros [|a' l'] H; [reflexivity|discriminate (H O)|discriminate (H O)|].
  f_equal; [injection (H O); auto|]. apply IH. intros i. exact (H (S i)).
Qed.

Lemma any_order m bs bs' : extract_all GDC_mode bs m (zlen m) = Ok bs' ->
  forall todo cur, NoDup todo -> Forall (fun i => (i < length bs)%nat) todo ->
  (forall i, nth_error cur i = if in_dec Nat.eq_dec i todo then nth_error bs i else nth_error bs' i) ->
  ofold (extract_at m) todo cur = Ok bs'.
Proof.
  intros E. induction todo as [|j todo IH]; intros cur ND F I; cbn [ofold].
  - f_equal. apply nth_error_eq. intros i. exact (I i).
  - inversion ND as [|? ? N1 N2]; inversion F as [|? ? F1 F2]; subst.
    destruct (nth_error bs j) as [b|] eqn:Nb; [|apply nth_error_None in Nb; lia].
    destruct (extract_all_nth m bs bs' j b E Nb) as (b' & X & Nb').
    assert (Cj : nth_error cur j = Some b).
    { rewrite I. destruct (in_dec Nat.eq_dec j (j :: todo)) as [_|Q]; [exact Nb|exfalso; apply Q; left; reflexivity]. }
    unfold extract_at at 1. rewrite Cj, X. cbn [obind].
    destruct (set_nth_ok cur j b') as (cur' & S1). { apply nth_error_Some. congruence. }
    rewrite S1. cbn [obind]. apply IH; [exact N2|exact F2|]. intros i.
    destruct (set_nth_spec _ _ _ _ S1) as (_ & _ & S2). rewrite S2.
    destruct (Nat.eqb_spec i j) as [->|D].
    + destruct (in_dec Nat.eq_dec j todo) as [Q|_]; [contradiction|symmetry; exact Nb'].
    + rewrite I. destruct (in_dec Nat.eq_dec i (j :: todo)) as [[Q|Q]|Q]; [congruence| |].
      * destruct (in_dec Nat.eq_dec i todo) as [_|Q']; [reflexivity|contradiction].
      * destruct (in_dec Nat.eq_dec i todo) as [Q'|_]; [exfalso; apply Q; right; exact Q'|reflexivity].
Qed.

Lemma multi_is_single order m n : every_once order -> hits_single m = Ok n -> hits_multi order m = Ok n.
Proof.
  intros H E. unfold hits_single in E. unfold hits_multi.
  destruct (extract_all GDC_mode (find_headers m) m (zlen m)) as [bs'| | |] eqn:X; try discriminate E.
  cbn [obind] in E. rewrite (any_order m (find_headers m) bs' X).
  - cbn [obind]. exact E.
  - eapply Permutation_NoDup; [apply Permutation_sym, H|apply seq_NoDup].
  - apply Forall_forall. intros i I. apply (Permutation_in i (H _)) in I. apply in_seq in I. lia.
  - intros i. destruct (in_dec Nat.eq_dec i _) as [I|I]; [reflexivity|].
    assert (L : (length (find_headers m) <= i)%nat).
    { destruct (Nat.le_gt_cases (length (find_headers m)) i) as [L|L]; [exact L|]. exfalso. apply I.
      apply (Permutation_in i (Permutation_sym (H _))). apply in_seq. lia. }
    rewrite (proj2 (nth_error_None _ _) L). symmetry. apply nth_error_None.
    rewrite (extract_all_length _ _ _ X). exact L.
Qed.

(** * Hits without the times of earlier datasets *)

(** [a] is a state that knows less than [b]. *)
Definition poorer (a b : ts) : Prop :=
  (ts_gdc a <> 0 -> ts_gdc b <> 0) /\ (ts_tdc a <> 0 -> ts_tdc b <> 0) /\
  (ts_timer a = 0 \/ ts_timer a = ts_timer b) /\
  0 <= ts_timer b < 2 ^ 32 /\ 0 <= ts_gdc a < 2 ^ 48 - 2 ^ 32 /\ 0 <= ts_gdc b < 2 ^ 48 - 2 ^ 32.

Lemma poorer_next a b p : packet_ok p -> (kind_of p = KGdc -> gdc_subtype p = 5 -> msb_value p < 2 ^ 16 - 1) ->
  poorer a b -> poorer (next_ts GDC_mode p a) (next_ts GDC_mode p b).
Proof.
  intros Hp Hm (P1 & P2 & P3 & P4 & P5 & P6). unfold next_ts. destruct (kind_of p) eqn:K; try (unfold poorer; auto 10; fail).
  - unfold poorer. cbn [ts_gdc ts_tdc ts_timer]. split; [exact P1|]. split; [|auto].
    rewrite !update_tdc_gdc_eq by lia. pose proof (tdc_counter_range p) as C. set (c := tdc_counter p) in *.
    intros N. destruct (Z.eq_dec c 0) as [E|E].
    + rewrite E in *. destruct (Z.ltb_spec 0 (ts_gdc a mod 2 ^ 32)); destruct (Z.ltb_spec 0 (ts_gdc b mod 2 ^ 32)); lia.
    + destruct (c <? ts_gdc b mod 2 ^ 32); lia.
  - unfold poorer. cbn [ts_gdc ts_tdc ts_timer]. rewrite !update_gdc_eq by (assumption || lia).
    specialize (Hm eq_refl).
    assert (M : 0 <= msb_value p) by (unfold msb_value; apply Z.mod_pos_bound; lia).
    assert (L : 0 <= lsb_value p < 2 ^ 32) by (unfold lsb_value; apply Z.mod_pos_bound; lia).
    destruct (Z.eqb_spec (gdc_subtype p) 4) as [E4|E4]; cbn [fst snd]; [auto 10|].
    destruct (Z.eqb_spec (gdc_subtype p) 5) as [E5|E5]; cbn [fst snd]; [|auto 10]. specialize (Hm E5).
    destruct (Z.eqb_spec (msb_value p * 2 ^ 32 + ts_timer a) 0); destruct (Z.eqb_spec (msb_value p * 2 ^ 32 + ts_timer b) 0);
      (split; [lia|split; [exact P2|split; [exact P3|split; [exact P4|split; lia]]]]).
Qed.

Lemma poorer_emits chip chip' : forall ps a b, Forall packet_ok ps ->
  Forall (fun p => kind_of p = KGdc -> gdc_subtype p = 5 -> msb_value p < 2 ^ 16 - 1) ps -> poorer a b ->
  zlen (emits GDC_mode true chip a ps) <= zlen (emits GDC_mode true chip' b ps) /\
  poorer (ts_after GDC_mode a ps) (ts_after GDC_mode b ps).
Proof.
  induction ps as [|p ps IH]; intros a b Hp Hm P; [split; [reflexivity|exact P]|].
  inversion Hp as [|? ? Hp1 Hp2]; inversion Hm as [|? ? Hm1 Hm2]; subst. cbn [emits]. unfold ts_after. cbn [fold_left].
  destruct (IH _ _ Hp2 Hm2 (poorer_next a b p Hp1 Hm1 P)) as [A B]. split; [|exact B].
  rewrite !zlen_app. unfold emit. destruct (kind_of p); try (cbn [zlen length]; lia).
  destruct P as (P1 & P2 & _). destruct (hit_gdc_ok p (ts_tdc a) (ts_gdc a) chip) as (h & ->).
  destruct (hit_gdc_ok p (ts_tdc b) (ts_gdc b) chip') as (h' & ->).
  destruct (Z.eqb_spec (ts_tdc a) 0); destruct (Z.eqb_spec (ts_gdc a) 0);
    destruct (Z.eqb_spec (ts_tdc b) 0); destruct (Z.eqb_spec (ts_gdc b) 0); cbn [negb andb]; try tauto;
    unfold zlen in *; cbn [length]; lia.
Qed.

Definition plain_ts (s : ts) : Prop := 0 <= ts_timer s < 2 ^ 32 /\ 0 <= ts_gdc s < 2 ^ 48 - 2 ^ 32.
Lemma poorer_ts0 s : plain_ts s -> poorer ts0 s.
Proof. intros [A B]. unfold poorer, ts0. cbn [ts_gdc ts_tdc ts_timer]. intuition lia. Qed.

Lemma fewer_pass : forall ds s, Forall dataset_ok ds -> Forall clock_fits ds -> plain_ts s ->
  zlen (concat (hits_of false (map ds_item ds) s)) <= zlen (concat (hits_of true (map ds_item ds) s)).
Proof.
  induction ds as [|d ds IH]; intros s Ho Hc P; [reflexivity|].
  inversion Ho as [|? ? O1 O2]; inversion Hc as [|? ? C1 C2]; subst.
  destruct (poorer_emits (chip_of (ds_header d)) (chip_of (ds_header d)) (d_payload d) ts0 s) as [A B];
    [apply O1|exact C1|apply poorer_ts0; exact P|].
  assert (P' : plain_ts (ts_after GDC_mode s (d_payload d))) by (destruct B as (_ & _ & _ & B1 & _ & B2); split; assumption).
  specialize (IH _ O2 C2 P'). unfold hits_of in *. cbn [map ds_item pass fst snd concat] in *.
  destruct (pass GDC_mode (map ds_item ds) (ts_after GDC_mode s (d_payload d))) as [hs s'] eqn:X.
  cbn [fst concat] in *. rewrite !zlen_app. lia.
Qed.

Lemma alone_is ds hss : Forall dataset_ok ds -> hits_alone ds hss -> hss = hits_of false (map ds_item ds) ts0.
Proof. intros Ho H. exact (mmap_hits_unique false ds _ _ H (hits_of_ds false ds Ho)). Qed.
Lemma running_is ds hss : Forall dataset_ok ds -> hits_running ds hss -> hss = hits_of true (map ds_item ds) ts0.
Proof. intros Ho H. exact (mmap_hits_unique true ds _ _ H (hits_of_ds true ds Ho)). Qed.

Lemma C85_fewer_l ds hss hss' : Forall dataset_ok ds -> Forall clock_fits ds ->
  hits_alone ds hss -> hits_running ds hss' -> zlen (concat hss) <= zlen (concat hss').
Proof.
  intros Ho Hc A B. rewrite (alone_is _ _ Ho A), (running_is _ _ Ho B). apply fewer_pass; [exact Ho|exact Hc|].
  split; cbn; lia.
Qed.

(** * benchmark_raw2hits *)

Lemma stream_items ds : Forall dataset_ok ds -> Forall no_false_header ds ->
  items_of (find_headers (stream ds)) (stream ds) (zlen (stream ds)) = Some (map ds_item ds).
Proof.
  intros Ho Hn. destruct (stream_facts ds Ho Hn) as (F1 & F2 & _ & F4 & _). rewrite <- F4.
  unfold find_headers. rewrite find_from_p. rewrite (aligned_end _ F2).
  pose proof (items_of_find (stream ds) (length (packets (stream ds))) [] (packets (stream ds)) eq_refl (le_n _)) as I.
  rewrite firstn_all in I. exact I.
Qed.

Lemma single_stream ds hss : Forall dataset_ok ds -> Forall no_false_header ds -> hits_alone ds hss ->
  hits_single (stream ds) = Ok (zlen (concat hss)).
Proof.
  intros Ho Hn H. unfold hits_single.
  assert (T : Forall (fun b => t_ts b = ts0) (find_headers (stream ds))).
  { apply Forall_forall. intros b I. unfold find_headers in I. rewrite find_from_p in I. apply find_p_In in I.
    destruct I as (k & p & _ & _ & ->). reflexivity. }
  destruct (extract_plain _ (stream ds) (zlen (stream ds)) _ (stream_ok ds Ho) (find_headers_fresh _) T (stream_items ds Ho Hn))
    as (bs2 & E & M).
  rewrite E. cbn [obind]. unfold batch_hits. rewrite M, (alone_is ds hss Ho H). reflexivity.
Qed.

Lemma C85_hits_l order input inp rest ds hss : Forall dataset_ok ds -> Forall no_false_header ds ->
  input inp = Some (stream ds) -> every_once order -> hits_alone ds hss ->
  raw2hits order input (inp :: rest) = Ok (0, Some (zlen (concat hss), zlen (concat hss))).
Proof.
  intros Ho Hn Hi Hp H. unfold raw2hits. rewrite Hi.
  pose proof (single_stream ds hss Ho Hn H) as E. rewrite E. cbn [obind].
  rewrite (multi_is_single order _ _ Hp E). reflexivity.
Qed.

Lemma C85_threads_l order order' input args r : every_once order -> every_once order' ->
  raw2hits order input args = Ok r -> raw2hits order' input args = Ok r /\
  (forall a b, snd r = Some (a, b) -> a = b).
Proof.
  intros P P'. unfold raw2hits. destruct args as [|inp rest]; [intros E; apply Ok_inj in E; subst r; split; [reflexivity|discriminate]|].
  destruct (input inp) as [m|]; [|intros E; apply Ok_inj in E; subst r; split; [reflexivity|discriminate]].
  destruct (hits_single m) as [n| | |] eqn:E; try discriminate. cbn [obind].
  rewrite (multi_is_single order m n P E), (multi_is_single order' m n P' E). cbn [obind].
  intros X. split; [exact X|]. apply Ok_inj in X. subst r. cbn [snd]. intros a b Y. congruence.
Qed.

(** * benchmark_raw2events *)

Lemma late_check : is_finite (f_lit 1667 100) && fle (tof_ms 666800) (f_lit 1667 100) &&
  flt (f_lit 1667 100) (tof_ms 666801) = true.
Proof. vm_compute. reflexivity. Qed.

Lemma late_b t : 0 <= t < 2 ^ 32 -> fgt (tof_ms t) (f_lit 1667 100) = (666800 <? t).
Proof.
  intros Ht. pose proof late_check as L. apply andb_prop in L as [L L3]. apply andb_prop in L as [L1 L2].
  unfold fgt. change (Bltb (f_lit 1667 100) (tof_ms t)) with (flt (f_lit 1667 100) (tof_ms t)).
  rewrite flt_R; [|exact L1|apply tof_ms_R; lia].
  rewrite fle_R in L2; [|apply tof_ms_R; lia|exact L1].
  rewrite flt_R in L3; [|exact L1|apply tof_ms_R; lia].
  destruct (Rle_bool_spec (B2R (tof_ms 666800)) (B2R (f_lit 1667 100))) as [A|A]; [|discriminate L2].
  destruct (Rlt_bool_spec (B2R (f_lit 1667 100)) (B2R (tof_ms 666801))) as [B|B]; [|discriminate L3].
  destruct (Z.ltb_spec 666800 t) as [G|G].
  - pose proof (tof_ms_mono 666801 t ltac:(lia) ltac:(lia)).
    destruct (Rlt_bool_spec (B2R (f_lit 1667 100)) (B2R (tof_ms t))); [reflexivity|lra].
  - pose proof (tof_ms_mono t 666800 ltac:(lia) ltac:(lia)).
    destruct (Rlt_bool_spec (B2R (f_lit 1667 100)) (B2R (tof_ms t))); [lra|reflexivity].
Qed.

Lemma bad_tof_counts hits : Forall timed hits -> exists n, bad_tof hits = Ok n /\ counted late hits n.
Proof.
  induction 1 as [|h hits (t & E & Ht) _ (n & IH & C)]; cbn [bad_tof].
  - exists 0. split; [reflexivity|constructor].
  - unfold tof_ns. rewrite E, IH. cbn [obind]. eexists. split; [reflexivity|].
    fold (tof_ms t). rewrite (late_b t Ht).
    destruct (Z.ltb_spec 666800 t) as [G|G].
    + apply counted_yes; [|exact C]. exists t. split; [exact E|lia].
    + apply counted_no; [|exact C]. intros (t' & E' & L). rewrite E in E'. inversion E'; subst. lia.
Qed.

Lemma max_fold : forall l ks m k, Forall2 double_is l ks -> double_is m k -> 0 <= k ->
  double_is (fold_left (fun m v => if fgt v m then v else m) l m) (fold_left Z.max ks k).
Proof.
  induction l as [|v l IH]; intros ks m k F D P; inversion F as [|? j ? ks' F1 F2]; subst; cbn [fold_left]; [exact D|].
  unfold fgt. change (Bltb m v) with (flt m v). rewrite (is_int_flt m v k j D F1).
  destruct (Z.ltb_spec k j) as [G|G]; apply IH; try assumption; try lia.
  - rewrite Z.max_r by lia. exact F1.
  - rewrite Z.max_l by lia. exact D.
Qed.
Lemma max_largest : forall ks k, In (fold_left Z.max ks k) (k :: ks) /\ Forall (fun j => j <= fold_left Z.max ks k) (k :: ks).
Proof.
  induction ks as [|j ks IH]; intros k; cbn [fold_left].
  - split; [left; reflexivity|repeat constructor; lia].
  - destruct (IH (Z.max k j)) as [A B]. inversion B as [|? ? B1 B2]; subst. split.
    + destruct A as [A|A]; [|right; right; exact A]. destruct (Z.max_spec k j) as [[_ M]|[_ M]].
      * right. left. lia.
      * left. lia.
    + constructor; [lia|]. constructor; [lia|exact B2].
Qed.
Lemma max_value_is l ks : Forall2 double_is l ks -> exists k, largest ks k /\ double_is (max_value l) k.
Proof.
  intros F. exists (fold_left Z.max ks 0). split; [exact (max_largest ks 0)|].
  apply max_fold; [exact F|apply (is_int_of_Z 0); lia|lia].
Qed.

Lemma spider_doubles hits : Forall (fun h => 0 <= h_spider h < 2 ^ 48) hits ->
  Forall2 double_is (map spider_ns hits) (map (fun h => 25 * h_spider h) hits).
Proof.
  induction 1 as [|h hits H _ IH]; cbn [map]; constructor; [|exact IH].
  unfold spider_ns, c_25. rewrite Z.mul_comm. apply is_int_mul; try (apply is_int_of_Z); lia.
Qed.

Lemma render_verify : render verify_path = verify_file.
Proof. reflexivity. Qed.
Lemma render_with_micros micros : render (with_micros verify_path micros) = ("verify_spidertime_" ++ digits6 micros ++ ".h5")%string.
Proof. unfold with_micros, render. cbn [p_parent p_stem p_ext verify_path String.eqb]. cbn. reflexivity. Qed.

Lemma saved_l d micros hits : (micros < Z.to_nat (10 ^ 6))%nat -> Forall (fun h => h_tof h <> None) hits ->
  exists d' final, save_hits d verify_path micros hits = Ok d' /\ goes_to d micros final /\ saved_hits d d' hits final.
Proof.
  intros Hm Ht.
  assert (G : goes_to d micros (match d verify_file with Some _ => render (with_micros verify_path micros) | None => verify_file end)).
  { unfold goes_to. destruct (d verify_file) as [f|]; [right|left; auto]. split; [discriminate|].
    destruct (digits6_l micros Hm) as [A B]. exists (digits6 micros). split; [exact A|split; [exact B|apply render_with_micros]]. }
  destruct hits as [|h hits].
  - exists d. eexists. split; [reflexivity|]. split; [exact G|]. split; [reflexivity|]. split; [contradiction|reflexivity].
  - destruct (tof_values_total _ Ht) as (l & T).
    assert (C : exists cs, hit_columns (h :: hits) = Ok cs) by (unfold hit_columns; rewrite T; eexists; reflexivity).
    destruct C as (cs & C).
    assert (S : exists d', save_hits d verify_path micros (h :: hits) = Ok d').
    { unfold save_hits, save_new, save_or_append. rewrite C. cbn [length Nat.eqb obind]. eexists. reflexivity. }
    destruct S as (d' & S). exists d'. eexists. split; [exact S|]. split; [exact G|].
    unfold save_hits in S. rewrite C in S.
    assert (ND : NoDup (map fst cs)).
    { destruct (hit_columns_spec _ _ _ C) as (N & _). exact (eq_ind_r (@NoDup string) hit_names_nodup N). }
    destruct (C46_save_l d verify_path micros _ cs "hits" d' (hits_nonempty (h :: hits) ltac:(discriminate)) ND S)
      as (final & f & g & A & B & Gi & D & N1 & N2 & O).
    rewrite render_verify in N1, N2.
    assert (FE : final = match d verify_file with Some _ => render (with_micros verify_path micros) | None => verify_file end).
    { destruct (d verify_file); [apply N2; discriminate|apply N1; reflexivity]. }
    rewrite <- FE. split; [discriminate|]. split; [|exact O]. intros _. exists f, g.
    split; [exact A|]. split; [exact B|]. split; [exact D|]. exact (group_is_hits g (h :: hits) cs ltac:(discriminate) C Gi).
Qed.

Lemma goes_elsewhere d micros final : d verify_file <> None -> goes_to d micros final -> final <> verify_file.
Proof.
  intros N [[A _]|(_ & s & _ & L & ->)] E; [contradiction|]. apply (f_equal String.length) in E.
  rewrite !length_app, L in E. vm_compute in E. discriminate E.
Qed.

Lemma spider_nonneg ds hss : Forall dataset_ok ds -> hits_running ds hss ->
  Forall (fun h => h_spider h < 2 ^ 48) (concat hss) -> Forall (fun h => 0 <= h_spider h < 2 ^ 48) (concat hss).
Proof.
  intros Ho H F. pose proof (mmap_hits_fine true ds hss Ho H F) as G.
  rewrite Forall_forall in *. intros h I. split; [|exact (F h I)]. apply in_concat in I. destruct I as (hs & I1 & I2).
  destruct (G hs I1) as [_ G2]. rewrite Forall_forall in G2. destruct (G2 h I2) as [Q _]. unfold hit_ok in Q. lia.
Qed.

Definition end_of (d : h5disk) : rend := match max_from_file d with Some v => RDone v | None => RAborted end.

Lemma events_l ext micros ds d hss : Forall dataset_ok ds -> Forall no_false_header ds ->
  hits_running ds hss -> Forall (fun h => h_spider h < 2 ^ 48) (concat hss) -> (micros < Z.to_nat (10 ^ 6))%nat ->
  exists bad d' final, events_single ext micros (stream ds) d =
      Ok (RResult (Some (RReport (zlen (concat hss)) bad (max_value (map spider_ns (concat hss))))) (end_of d') d') /\
    counted late (concat hss) bad /\ goes_to d micros final /\ saved_hits d d' (concat hss) final.
Proof.
  intros Ho Hn H Hs Hm.
  pose proof (locate_extract GDC_mode (find_headers (stream ds)) (stream ds) (zlen (stream ds)) ts0 (stream_ok ds Ho) (find_headers_fresh _)) as LE.
  rewrite (stream_items ds Ho Hn) in LE. unfold events_single.
  destruct (locate GDC_mode (find_headers (stream ds)) (stream ds) (zlen (stream ds)) ts0) as [[bs1 s1]| | |]; try discriminate LE.
  cbn [obind] in *. destruct (extract_all GDC_mode bs1 (stream ds) (zlen (stream ds))) as [bs2| | |] eqn:E; try discriminate LE.
  cbn [obind] in *. apply Ok_inj in LE.
  assert (HE : map t_hits bs2 = hss).
  { rewrite (running_is ds hss Ho H). unfold hits_of. rewrite <- LE. reflexivity. }
  rewrite (range_extracted ext _ _ bs1 bs2 abs_new eq_refl E).
  destruct (fine_events ext hss (mmap_hits_fine true ds hss Ho H Hs)) as (l & A). rewrite HE, A. cbn [obind].
  unfold batch_hits. rewrite HE.
  assert (T : Forall timed (concat hss)).
  { rewrite (running_is ds hss Ho H). apply hits_timed. apply Forall_forall. intros q I. apply in_map_iff in I.
    destruct I as (x & <- & I). rewrite Forall_forall in Ho. apply (Ho x I). }
  destruct (bad_tof_counts _ T) as (bad & B & C). rewrite B. cbn [obind].
  destruct (saved_l d micros (concat hss) Hm) as (d' & final & S & G & V).
  { eapply Forall_impl; [|exact T]. intros h (t & X & _). congruence. }
  rewrite S. cbn [obind]. exists bad, d', final. auto.
Qed.

Lemma C85_events_l ext micros input inp rest d ds hss : Forall dataset_ok ds -> Forall no_false_header ds ->
  input inp = Some (stream ds) -> hits_running ds hss -> Forall (fun h => h_spider h < 2 ^ 48) (concat hss) ->
  (micros < Z.to_nat (10 ^ 6))%nat ->
  exists r rep, raw2events ext micros input (inp :: rest) d = Ok r /\ rs_report r = Some rep /\
    rr_hits rep = zlen (concat hss) /\ counted late (concat hss) (rr_bad rep) /\
    (exists v, largest (map h_spider (concat hss)) v /\ double_is (rr_max rep) (25 * v)) /\
    exists final, goes_to d micros final /\ saved_hits d (rs_disk r) (concat hss) final.
Proof.
  intros Ho Hn Hi H Hs Hm. unfold raw2events. rewrite Hi.
  destruct (events_l ext micros ds d hss Ho Hn H Hs Hm) as (bad & d' & final & E & C & G & V).
  rewrite E. do 2 eexists. split; [reflexivity|]. split; [reflexivity|]. cbn [rr_hits rr_bad rr_max rs_disk].
  split; [reflexivity|]. split; [exact C|]. split; [|exists final; auto].
  destruct (max_value_is _ _ (spider_doubles _ (spider_nonneg ds hss Ho H Hs))) as (k & [L1 L2] & D).
  assert (K : exists v, k = 25 * v).
  { destruct L1 as [L1|L1]; [exists 0; lia|]. apply in_map_iff in L1. destruct L1 as (h & <- & _). eexists. reflexivity. }
  destruct K as (v & ->). exists v. split; [|exact D]. split.
  - destruct L1 as [L1|L1]; [left; lia|right]. apply in_map_iff in L1. destruct L1 as (h & X & I). apply in_map_iff. exists h. split; [lia|exact I].
  - inversion L2 as [|? ? L3 L4]; subst. constructor; [lia|]. rewrite Forall_map in *. eapply Forall_impl; [|exact L4]. cbv beta. intros; lia.
Qed.

Lemma map_some_inj {A} : forall l l' : list A, map Some l = map Some l' -> l = l'.
Proof. induction l as [|a l IH]; intros [|a' l'] E; try discriminate E; [reflexivity|]. inversion E. f_equal. apply IH. assumption. Qed.

Lemma C85_verified_l ext micros input inp rest d ds hss r rep : Forall dataset_ok ds -> Forall no_false_header ds ->
  input inp = Some (stream ds) -> hits_running ds hss -> Forall (fun h => h_spider h < 2 ^ 48) (concat hss) ->
  (micros < Z.to_nat (10 ^ 6))%nat -> d verify_file = None ->
  raw2events ext micros input (inp :: rest) d = Ok r -> rs_report r = Some rep ->
  (concat hss <> [] -> rs_end r = RDone (rr_max rep)) /\ (concat hss = [] -> rs_end r = RAborted).
Proof.
  intros Ho Hn Hi H Hs Hm Hd E R. unfold raw2events in E. rewrite Hi in E.
  destruct (events_l ext micros ds d hss Ho Hn H Hs Hm) as (bad & d' & final & E' & _ & G & V1 & V2 & V3).
  rewrite E in E'. apply Ok_inj in E'. subst r. cbn [rs_report rs_end] in *. inversion R; subst rep. cbn [rr_max].
  destruct G as [[_ ->]|[G _]]; [|contradiction]. unfold end_of, max_from_file. rewrite render_verify. split; intros N.
  - destruct (V2 N) as (f & g & A & B & _ & C). rewrite A, B. destruct (C _ _ HF_spider) as (c & X & Y). rewrite X.
    rewrite <- (map_map spider_ns Some) in Y. apply map_some_inj in Y. subst c. reflexivity.
  - rewrite (V1 N), Hd. reflexivity.
Qed.

Lemma C85_old_l ext micros input inp rest d ds hss r f : Forall dataset_ok ds -> Forall no_false_header ds ->
  input inp = Some (stream ds) -> hits_running ds hss -> Forall (fun h => h_spider h < 2 ^ 48) (concat hss) ->
  (micros < Z.to_nat (10 ^ 6))%nat -> d verify_file = Some f ->
  raw2events ext micros input (inp :: rest) d = Ok r ->
  (forall c, file_times f c -> exists v, rs_end r = RDone v /\
     (forall ks, Forall2 double_is c ks -> exists k, largest ks k /\ double_is v k)) /\
  ((forall c, ~ file_times f c) -> rs_end r = RAborted).
Proof.
  intros Ho Hn Hi H Hs Hm Hd E. unfold raw2events in E. rewrite Hi in E.
  destruct (events_l ext micros ds d hss Ho Hn H Hs Hm) as (bad & d' & final & E' & _ & G & V1 & V2 & V3).
  rewrite E in E'. apply Ok_inj in E'. subst r. cbn [rs_end].
  assert (K : d' verify_file = Some f).
  { rewrite V3; [exact Hd|]. intros X. apply (goes_elsewhere d micros final); [congruence|exact G|auto]. }
  unfold end_of, max_from_file. rewrite render_verify, K. split.
  - intros c (g & A & B). rewrite A, B. eexists. split; [reflexivity|]. intros ks F. apply max_value_is. exact F.
  - intros N. destruct (find_group f "hits") as [g|] eqn:A; [|reflexivity].
    destruct (g "spidertime_ns"%string) as [c|] eqn:B; [|reflexivity]. exfalso. apply (N c). exists g. auto.
Qed.

Lemma C85_refused_l ext micros order input args d :
  (no_input input args -> raw2hits order input args = Ok (1, None) /\
                          raw2events ext micros input args d = Ok (RResult None RRefused d)) /\
  (~ no_input input args -> (forall r, raw2hits order input args = Ok r -> fst r = 0 /\ snd r <> None) /\
     (forall r, raw2events ext micros input args d = Ok r -> rs_end r <> RRefused /\ rs_report r <> None)).
Proof.
  unfold no_input, raw2hits, raw2events. destruct args as [|inp rest]; [split; [auto|intros X; contradiction X; exact I]|].
  destruct (input inp) as [m|]; [|split; [auto|intros X; contradiction X; reflexivity]].
  split; [discriminate|]. intros _. split; intros r E.
  - destruct (hits_single m); try discriminate E. cbn [obind] in E. destruct (hits_multi order m); try discriminate E.
    apply Ok_inj in E. subst r. split; [reflexivity|discriminate].
  - unfold events_single in E. destruct (locate GDC_mode (find_headers m) m (zlen m) ts0) as [[bs1 s1]| | |]; try discriminate E.
    cbn [obind] in E. destruct (range_events ext m (zlen m) abs_new bs1) as [[bs2 es]| | |]; try discriminate E.
    cbn [obind] in E. destruct (bad_tof (batch_hits bs2)); try discriminate E. cbn [obind] in E.
    destruct (save_hits d verify_path micros (batch_hits bs2)) as [d'| | |]; try discriminate E. cbn [obind] in E.
    apply Ok_inj in E. subst r. cbn [rs_end rs_report]. split; [|discriminate]. destruct (max_from_file d'); discriminate.
Qed.

(** * timedSave* *)

Lemma timed_hits_l d p micros bs d' : flat_map t_hits bs <> [] -> timed_save_hits d p micros bs = Ok d' ->
  exists final f g, d' final = Some f /\ find_group f "hits" = Some g /\
    (forall grp, grp <> "hits"%string -> find_group f grp = None) /\
    (d (render p) = None -> final = render p) /\
    (forall other, other <> final -> d' other = d other) /\
    (forall n fld, hit_field n fld -> exists c, g n = Some c /\ map Some c = map fld (flat_map t_hits bs)).
Proof. rewrite flat_map_concat_map. intros NE H. exact (C46_hits_l d p micros _ d' NE H). Qed.
Lemma timed_events_l d p micros bs d' : flat_map t_neutrons bs <> [] -> timed_save_events d p micros bs = Ok d' ->
  exists final f g, d' final = Some f /\ find_group f "neutrons" = Some g /\
    (forall grp, grp <> "neutrons"%string -> find_group f grp = None) /\
    (d (render p) = None -> final = render p) /\
    (forall other, other <> final -> d' other = d other) /\
    (forall n fld, neutron_field n fld -> g n = Some (map fld (flat_map t_neutrons bs))).
Proof. rewrite flat_map_concat_map. intros NE H. exact (C46_neutrons_l d p micros _ d' NE H). Qed.
Lemma timed_nothing_l d p micros bs :
  (flat_map t_hits bs = [] -> timed_save_hits d p micros bs = Ok d) /\
  (flat_map t_neutrons bs = [] -> timed_save_events d p micros bs = Ok d).
Proof.
  rewrite !flat_map_concat_map. unfold timed_save_hits, timed_save_events, batch_hits. split; intros ->; reflexivity.
Qed.

(** * Witnesses *)

Lemma differ_l ext micros order input args d : every_once order ->
  (let! a := raw2hits order input args in
   let! r := raw2events ext micros input args d in
   Ok (snd a, option_map rr_hits (rs_report r))) = Ok (Some (1, 1), Some 3) ->
  exists r r' rep n, raw2hits order input args = Ok r /\ snd r = Some (n, n) /\
    raw2events ext micros input args d = Ok r' /\ rs_report r' = Some rep /\ rr_hits rep <> n.
Proof.
  intros P E. destruct (raw2hits order input args) as [r| | |]; try discriminate E. cbn [obind] in E.
  destruct (raw2events ext micros input args d) as [r'| | |]; try discriminate E. cbn [obind] in E.
  apply Ok_inj in E. destruct (rs_report r') as [rep|] eqn:R; [|discriminate E]. cbn [option_map] in E.
  assert (E1 : snd r = Some (1, 1)) by congruence. assert (E2 : rr_hits rep = 3) by congruence.
  exists r, r', rep, 1. split; [reflexivity|]. split; [exact E1|]. split; [reflexivity|]. split; [exact R|]. rewrite E2. discriminate.
Qed.

Definition end_int (e : rend) : option Z := match e with RDone v => f_to_u64 v | _ => None end.
Lemma unequal_l ext micros input args d k j : k <> j ->
  (let! r := raw2events ext micros input args d in
   Ok (match rs_report r with Some rep => f_to_u64 (rr_max rep) | None => None end, end_int (rs_end r))) = Ok (Some k, Some j) ->
  exists r rep v, raw2events ext micros input args d = Ok r /\ rs_report r = Some rep /\ rs_end r = RDone v /\ v <> rr_max rep.
Proof.
  intros N E. destruct (raw2events ext micros input args d) as [r| | |]; try discriminate E. cbn [obind] in E.
  apply Ok_inj in E. inversion E as [[E1 E2]]. destruct (rs_report r) as [rep|] eqn:R; [|discriminate E1].
  unfold end_int in E2. destruct (rs_end r) as [|v|] eqn:X; try discriminate E2.
  exists r, rep, v. split; [reflexivity|]. split; [exact R|]. split; [exact X|]. intros ->. congruence.
Qed.

(** * run_multi_thread *)

Lemma extract_length m fin : forall bs bs', extract_all GDC_mode bs m fin = Ok bs' -> length bs' = length bs.
Proof.
  induction bs as [|b bs IH]; intros bs' E; cbn [extract_all] in E; [apply Ok_inj in E; subst; reflexivity|].
  destruct (extract_hits GDC_mode b m fin); try discriminate E. cbn [obind] in E.
  destruct (extract_all GDC_mode bs m fin) as [bs1| | |]; try discriminate E. cbn [obind] in E.
  apply Ok_inj in E. subst bs'. cbn [length]. rewrite (IH bs1 eq_refl). reflexivity.
Qed.

Lemma process_extracted ext m : forall bs bs2 l o, centroid_obj o ->
  extract_all GDC_mode bs m (zlen m) = Ok bs2 -> all_events ext mmap_cfg (map t_hits bs2) = Ok l ->
  exists r, process_from ext mmap_cfg GDC_mode m o bs = Ok r /\ map t_hits r = map t_hits bs2.
Proof.
  induction bs as [|b bs IH]; intros bs2 l o Ho E A; cbn [extract_all process_from] in *.
  - apply Ok_inj in E. subst. exists []. auto.
  - unfold body. destruct (extract_hits GDC_mode b m (zlen m)) as [b1| | |]; try discriminate E. cbn [obind] in *.
    destruct (extract_all GDC_mode bs m (zlen m)) as [bs'| | |] eqn:X; try discriminate E. cbn [obind] in *.
    apply Ok_inj in E. subst bs2. cbn [map all_events] in A. unfold events_of in A.
    change (abs_fit 8 mmap_cfg (abs_set_method (abs_reset o) MCentroid) (t_hits b1)) with (abs_fit 8 mmap_cfg abs_new (t_hits b1)).
    destruct (abs_fit 8 mmap_cfg abs_new (t_hits b1)) as [o1| | |] eqn:F; cbn [obind] in *; try discriminate A.
    destruct (abs_get_events ext mmap_cfg o1 (t_hits b1)) as [evs| | |]; cbn [obind] in *; try discriminate A.
    destruct (all_events ext mmap_cfg (map t_hits bs')) as [l'| | |] eqn:A'; cbn [obind] in *; try discriminate A.
    destruct (IH bs' l' o1) as (r & R & M); [destruct (fit_shape _ _ _ _ _ F) as [_ Q]; unfold centroid_obj; rewrite Q; reflexivity|reflexivity|exact A'|].
    rewrite R. cbn [obind]. eexists. split; [reflexivity|]. cbn [map t_hits]. rewrite M. reflexivity.
Qed.

Lemma todo_done ts : forallb (fun t => match k_todo t with [] => true | _ => false end) ts = true <->
  Forall (fun t => k_todo t = []) ts.
Proof.
  rewrite forallb_forall, Forall_forall. split; intros H t I; specialize (H t I); destruct (k_todo t); congruence.
Qed.

(** What the parallel loop starts from, and what it leaves. *)
Lemma multi_start ext ds hss : Forall dataset_ok ds -> Forall no_false_header ds ->
  hits_running ds hss -> Forall (fun h => h_spider h < 2 ^ 48) (concat hss) ->
  exists bs1 s1 r bad, locate GDC_mode (find_headers (stream ds)) (stream ds) (zlen (stream ds)) ts0 = Ok (bs1, s1) /\
    length bs1 = length ds /\ process_all ext mmap_cfg GDC_mode (stream ds) bs1 = Ok r /\ batch_hits r = concat hss /\
    bad_tof (concat hss) = Ok bad /\ counted late (concat hss) bad.
Proof.
  intros Ho Hn H Hs.
  pose proof (locate_extract GDC_mode (find_headers (stream ds)) (stream ds) (zlen (stream ds)) ts0 (stream_ok ds Ho) (find_headers_fresh _)) as LE.
  rewrite (stream_items ds Ho Hn) in LE.
  destruct (locate GDC_mode (find_headers (stream ds)) (stream ds) (zlen (stream ds)) ts0) as [[bs1 s1]| | |]; try discriminate LE.
  cbn [obind] in *. destruct (extract_all GDC_mode bs1 (stream ds) (zlen (stream ds))) as [bs2| | |] eqn:E; try discriminate LE.
  cbn [obind] in *. apply Ok_inj in LE.
  assert (HE : map t_hits bs2 = hss).
  { rewrite (running_is ds hss Ho H). unfold hits_of. rewrite <- LE. reflexivity. }
  destruct (fine_events ext hss (mmap_hits_fine true ds hss Ho H Hs)) as (l & A).
  assert (A' : all_events ext mmap_cfg (map t_hits bs2) = Ok l) by (rewrite HE; exact A).
  destruct (process_extracted ext (stream ds) bs1 bs2 l abs_new eq_refl E A') as (r & R & M).
  assert (T : Forall timed (concat hss)).
  { rewrite (running_is ds hss Ho H). apply hits_timed. apply Forall_forall. intros q I. apply in_map_iff in I.
    destruct I as (x & <- & I). rewrite Forall_forall in Ho. apply (Ho x I). }
  destruct (bad_tof_counts _ T) as (bad & B & C).
  exists bs1, s1, r, bad. split; [reflexivity|]. split; [|split; [exact R|split; [unfold batch_hits; rewrite M, HE; reflexivity|auto]]].
  rewrite <- (extract_length _ _ _ _ E). rewrite <- (map_length t_hits), HE.
  destruct H as (s & H). clear - H. induction H; [reflexivity|]. cbn [length]. congruence.
Qed.

Lemma C85_multi_l ext ranges sched ds hss : Forall dataset_ok ds -> Forall no_false_header ds ->
  hits_running ds hss -> Forall (fun h => h_spider h < 2 ^ 48) (concat hss) ->
  Permutation (concat ranges) (seq 0 (length ds)) ->
  exists bad, counted late (concat hss) bad /\
    (events_multi ext ranges sched (stream ds) = Ok None \/
     events_multi ext ranges sched (stream ds) = Ok (Some (zlen (concat hss), bad))) /\
    exists more, events_multi ext ranges (sched ++ more) (stream ds) = Ok (Some (zlen (concat hss), bad)).
Proof.
  intros Ho Hn H Hs P.
  destruct (multi_start ext ds hss Ho Hn H Hs) as (bs1 & s1 & r & bad & E & L & R & B & Bd & C).
  exists bad. split; [exact C|]. unfold events_multi. rewrite E. cbn [obind]. rewrite <- L in P. split.
  - destruct (C17_total_l ext mmap_cfg GDC_mode (stream ds) bs1 ranges r P R sched) as (s & Es). rewrite Es. cbn [obind].
    destruct (forallb _ (p_tasks s)) eqn:D; [right|left; reflexivity].
    apply todo_done in D. pose proof (C17_result_l ext mmap_cfg GDC_mode (stream ds) bs1 ranges sched s P Es D) as X.
    rewrite R in X. apply Ok_inj in X. rewrite <- X, B, Bd. reflexivity.
  - destruct (C17_completes_l ext mmap_cfg GDC_mode (stream ds) bs1 ranges sched r P R) as (more & s & Es & D & Eb).
    exists more. rewrite Es. cbn [obind]. unfold pdone in D. apply todo_done in D. rewrite D, Eb, B, Bd. reflexivity.
Qed.
