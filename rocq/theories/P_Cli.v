(** Reading and processing in chunks (C34, C35, C47, C48). *)
From Verif Require Export S_Cli P_Core P_Parallel P_Hdf5 P_Tof.
From Coq Require Import Lia ZifyBool Permutation.

(** * C34: reading *)

Lemma zlen_skipn {A} (l : list A) n : zlen (skipn n l) = Z.max 0 (zlen l - Z.of_nat n).
Proof. unfold zlen. rewrite skipn_length. lia. Qed.
Lemma zlen_firstn {A} (l : list A) n : zlen (firstn n l) = Z.min (Z.of_nat n) (zlen l).
Proof. unfold zlen. rewrite firstn_length. lia. Qed.

Lemma read_chunk_eq size m pos : 0 < size -> 0 <= pos ->
  read_chunk size (Reader m pos) =
  (firstn (Z.to_nat size) (skipn (Z.to_nat pos) m), Reader m (Z.max pos (Z.min (pos + size) (zlen m)))).
Proof.
  intros Hs Hp. unfold read_chunk. cbn [r_pos r_map].
  destruct (Z.geb_spec pos (zlen m)) as [G|G].
  - rewrite skipn_all2 by (unfold zlen in G; lia). rewrite firstn_nil. f_equal. f_equal. lia.
  - f_equal; [|f_equal; lia].
    destruct (Z.min_spec size (zlen m - pos)) as [[? ->]|[? ->]]; [reflexivity|].
    rewrite !firstn_all2; [reflexivity|rewrite skipn_length; unfold zlen in *; lia..].
Qed.

Lemma reads_eq size m : 0 < size -> forall n i,
  let pos k := Z.min (Z.of_nat k * size) (zlen m) in
  reads n size (Reader m (pos i)) = (map (slice m size) (seq i n), Reader m (pos (i + n)%nat)).
Proof.
  intros Hs. induction n as [|n IH]; intros i; cbv zeta in *.
  - cbn. rewrite Nat.add_0_r. reflexivity.
  - cbn [reads seq map]. rewrite read_chunk_eq by (try unfold zlen; lia).
    replace (Z.max (Z.min (Z.of_nat i * size) (zlen m)) (Z.min (Z.min (Z.of_nat i * size) (zlen m) + size) (zlen m)))
      with (Z.min (Z.of_nat (S i) * size) (zlen m)) by lia.
    rewrite IH. replace (S i + n)%nat with (i + S n)%nat by lia. f_equal. f_equal.
    unfold slice. destruct (Z.min_spec (Z.of_nat i * size) (zlen m)) as [[? ->]|[? ->]]; [reflexivity|].
    rewrite !skipn_all2; [reflexivity|unfold zlen in *; lia..].
Qed.

Lemma concat_slices m size n : 0 < size ->
  concat (map (slice m size) (seq 0 n)) = firstn (Z.to_nat (Z.of_nat n * size)) m.
Proof.
  intros Hs. induction n as [|n IH]; [reflexivity|].
  rewrite seq_S, map_app, concat_app, IH. cbn [map concat]. rewrite app_nil_r. unfold slice.
  cbn [plus]. replace (Z.to_nat (Z.of_nat (S n) * size)) with (Z.to_nat (Z.of_nat n * size) + Z.to_nat size)%nat by lia.
  generalize (Z.to_nat (Z.of_nat n * size)) (Z.to_nat size). clear. intros a b. revert m.
  induction a as [|a IH]; intros [|x m]; cbn; try rewrite ?firstn_nil; try reflexivity.
  f_equal. apply IH.
Qed.

Lemma C34_l m size : m <> [] -> 0 < size ->
  exists r0, open_reader (Some m) = Ok r0 /\
  forall n, exists cs r, reads n size r0 = (cs, r) /\
    cs = map (slice m size) (seq 0 n) /\
    concat cs = firstn (Z.to_nat (Z.of_nat n * size)) m /\
    (is_eof r = true <-> zlen m <= Z.of_nat n * size).
Proof.
  intros Hm Hs. exists (Reader m 0). split; [destruct m; [congruence|reflexivity]|]. intros n.
  pose proof (reads_eq size m Hs n 0) as E. cbv zeta in E. cbn [plus] in E.
  replace (Z.min (Z.of_nat 0 * size) (zlen m)) with 0 in E by (unfold zlen; lia).
  rewrite E. eexists _, _. split; [reflexivity|]. split; [reflexivity|].
  split; [apply concat_slices; exact Hs|]. unfold is_eof. cbn [r_pos r_map]. lia.
Qed.

Lemma slice_length m size i : 0 < size ->
  zlen (slice m size i) = Z.max 0 (Z.min size (zlen m - Z.of_nat i * size)).
Proof. intros Hs. unfold slice. rewrite zlen_firstn, zlen_skipn. lia. Qed.

Lemma C34_whole_l m size : m <> [] -> 0 < size ->
  exists r0 n cs r, open_reader (Some m) = Ok r0 /\ reads n size r0 = (cs, r) /\
    concat cs = m /\ is_eof r = true /\ Forall (fun c => c <> []) cs /\
    (forall i c, nth_error cs i = Some c -> (S i < n)%nat -> zlen c = size) /\
    (forall k, (k < n)%nat -> is_eof (snd (reads k size r0)) = false).
Proof.
  intros Hm Hs. destruct (C34_l m size Hm Hs) as (r0 & O & R).
  assert (Lm : 0 < zlen m) by (destruct m; [congruence|unfold zlen; cbn [length]; lia]).
  set (n := Z.to_nat ((zlen m - 1) / size + 1)).
  pose proof (Z.div_mod (zlen m - 1) size ltac:(lia)) as DM.
  pose proof (Z.mod_pos_bound (zlen m - 1) size Hs) as MB.
  pose proof (Z.div_pos (zlen m - 1) size ltac:(lia) Hs) as DP.
  assert (N1 : zlen m <= Z.of_nat n * size) by (unfold n; rewrite Z2Nat.id by lia; nia).
  assert (N2 : (Z.of_nat n - 1) * size < zlen m) by (unfold n; rewrite Z2Nat.id by lia; nia).
  destruct (R n) as (cs & r & E & Ec & Ecc & Ee).
  exists r0, n, cs, r. split; [exact O|]. split; [exact E|].
  split; [rewrite Ecc; apply firstn_all2; unfold zlen in *; lia|]. split; [apply Ee; exact N1|].
  assert (SL : forall i c, nth_error cs i = Some c -> c = slice m size i /\ (i < n)%nat).
  { intros i c Hc. assert (I : (i < n)%nat).
    { assert (X : (i < length cs)%nat) by (apply nth_error_Some; congruence).
      rewrite Ec, map_length, seq_length in X. exact X. }
    split; [|exact I]. rewrite Ec in Hc. rewrite nth_error_map in Hc.
    rewrite (nth_error_nth' _ 0%nat) in Hc by (rewrite seq_length; exact I).
    rewrite seq_nth in Hc by exact I. cbn in Hc. congruence. }
  split.
  { apply Forall_forall. intros c Hc. apply In_nth_error in Hc. destruct Hc as (i & Hi).
    destruct (SL i c Hi) as (-> & I). intros F. apply (f_equal (@zlen _)) in F.
    rewrite slice_length in F by exact Hs. unfold zlen in F at 2. cbn [length] in F. nia. }
  split.
  { intros i c Hi I. destruct (SL i c Hi) as (-> & _). rewrite slice_length by exact Hs. nia. }
  intros k Hk. destruct (R k) as (cs' & r' & E' & _ & _ & Ee'). rewrite E'. cbn [snd].
  destruct (is_eof r') eqn:F; [|reflexivity]. pose proof (proj1 Ee' eq_refl). nia.
Qed.

Lemma C34_empty_l : open_reader (Some []) = Throw RuntimeError /\ open_reader None = Throw RuntimeError.
Proof. split; reflexivity. Qed.

Lemma read_zero r : fst (read_chunk 0 r) = [].
Proof.
  unfold read_chunk. destruct (r_pos r >=? zlen (r_map r)) eqn:G; [reflexivity|]. cbn [fst].
  replace (Z.to_nat (Z.min 0 _)) with 0%nat by lia. reflexivity.
Qed.

Lemma C34_zero_l fuel ext cfg md hm r st :
  chunk_loop (S fuel) ext cfg md hm 0 r st = Ok st.
Proof.
  cbn [chunk_loop]. destruct (is_eof r); [reflexivity|].
  pose proof (read_zero r) as R. destruct (read_chunk 0 r) as [c r']. cbn in R. subst c. reflexivity.
Qed.

(** * What a chunk does *)

(** No exception is thrown. *)
Definition nt {A} (o : outcome A) : Prop := forall e, o <> Throw e.
Lemma nt_ok {A} (a : A) : nt (Ok a). Proof. intros e. discriminate. Qed.
Lemma nt_ub {A} u : nt (@UB A u). Proof. intros e. discriminate. Qed.
Lemma nt_bind {A B} (o : outcome A) (f : A -> outcome B) :
  nt o -> (forall a, o = Ok a -> nt (f a)) -> nt (obind o f).
Proof.
  intros H1 H2. destruct o; cbn [obind]; [apply H2; reflexivity|exfalso; eapply H1; reflexivity|..];
    intros ? E; discriminate E.
Qed.
Lemma nt_ofold {A S} (f : S -> A -> outcome S) l : (forall s a, nt (f s a)) -> forall s, nt (ofold f l s).
Proof.
  intros H. induction l as [|a l IH]; intros s; cbn [ofold]; [apply nt_ok|].
  apply nt_bind; [apply H|intros; apply IH].
Qed.
#[local] Hint Resolve nt_ok nt_ub nt_bind : nt.

Lemma nt_scan cfg h cs : nt (scan cfg h cs).
Proof.
  induction cs as [|c cs IH]; cbn [scan]; [apply nt_ok|].
  assert (N : nt (let! r := scan cfg h cs in Ok match r with Some (l, rest) => Some (l, c :: rest) | None => None end)).
  { apply nt_bind; [exact IH|intros; apply nt_ok]. }
  repeat match goal with |- nt (if ?b then _ else _) => destruct b end; try exact N; try apply nt_ok.
  apply nt_bind; [|intros; apply nt_ok]. unfold start_slot.
  apply nt_bind; [|intros; apply nt_ok]. unfold hit_time.
  destruct (f_to_u64 _); [apply nt_ok|apply nt_ub].
Qed.
Lemma nt_label_loop cfg data : forall i st labels, nt (label_loop cfg data i st labels).
Proof.
  induction data as [|h data IH]; intros i [cs ml] labels; cbn [label_loop]; [apply nt_ok|].
  apply nt_bind.
  - unfold abs_step. apply nt_bind; [apply nt_scan|]. intros [[l cs']|] _; [apply nt_ok|].
    apply nt_bind; [destruct cs; [apply nt_ub|apply nt_ok]|]. intros k _.
    apply nt_bind; [|intros c' _; destruct (set_nth cs k c'); [apply nt_ok|apply nt_ub]].
    unfold start_slot. apply nt_bind; [|intros; apply nt_ok]. unfold hit_time.
    destruct (f_to_u64 _); [apply nt_ok|apply nt_ub].
  - intros [[cs' m] l] _. destruct (set_nth labels i l); [apply IH|apply nt_ub].
Qed.
Lemma nt_index_loop ls : forall i idx, nt (index_loop ls i idx).
Proof.
  induction ls as [|l ls IH]; intros i idx; cbn [index_loop]; [apply nt_ok|].
  destruct (at_index idx l); [|apply nt_ub]. destruct (set_nth _ _ _); [apply IH|apply nt_ub].
Qed.
Lemma nt_fit n cfg o data : nt (abs_fit n cfg o data).
Proof.
  unfold abs_fit. apply nt_bind; [apply nt_label_loop|]. intros [ls ml] _.
  apply nt_bind; [apply nt_index_loop|]. intros; apply nt_ok.
Qed.
Lemma label_loop_length cfg data : forall i st labels r,
  label_loop cfg data i st labels = Ok r -> length (fst r) = length labels.
Proof.
  induction data as [|h data IH]; intros i st labels r E; cbn [label_loop] in E.
  - apply Ok_inj in E. subst r. reflexivity.
  - destruct (abs_step cfg st h) as [[[cs m] l]| | |]; cbn [obind] in E; try discriminate E.
    destruct (set_nth labels i l) as [ls'|] eqn:S; [|discriminate E].
    apply IH in E. rewrite E. eapply P_Abs.set_nth_length. exact S.
Qed.
Lemma fit_shape n cfg o data o' : abs_fit n cfg o data = Ok o' ->
  length (o_labels o') = length data /\ o_method o' = o_method o.
Proof.
  unfold abs_fit. intros E.
  destruct (label_loop _ _ _ _ _) as [[ls ml]| | |] eqn:L; cbn [obind] in E; try discriminate E.
  destruct (index_loop _ _ _) as [idx| | |]; cbn [obind] in E; try discriminate E.
  apply Ok_inj in E. subst o'. cbn [o_labels o_method]. split; [|reflexivity].
  apply label_loop_length in L. cbn [fst] in L. rewrite L. cbn [firstn]. rewrite vresize_nil, repeat_length. reflexivity.
Qed.
Lemma nt_gather data ix : nt (gather data ix).
Proof.
  induction ix as [|i ix IH]; cbn [gather]; [apply nt_ok|].
  destruct (nth_error data i); [|apply nt_ub]. apply nt_bind; [exact IH|intros; apply nt_ok].
Qed.
Lemma nt_event_loop fit min data idx : (forall c, nt (fit c)) -> forall n label,
  nt (event_loop fit min data idx label n).
Proof.
  intros F. induction n as [|n IH]; intros label; cbn [event_loop]; [apply nt_ok|].
  destruct (nth_error idx label); [|apply nt_ub]. apply nt_bind; [apply nt_gather|]. intros c _.
  destruct (zlen c <? min); [apply IH|]. apply nt_bind; [apply F|]. intros e _.
  apply nt_bind; [apply IH|]. intros r _. destruct (_ && _); apply nt_ok.
Qed.
Lemma nt_centroid w srf c : nt (centroid_fit w srf c).
Proof.
  unfold centroid_fit. destruct c as [|h c]; [apply nt_ok|]. apply nt_bind; [|intros; apply nt_ok].
  apply nt_ofold. intros s a. destruct w; unfold add_weighted, add_plain, get_tof; destruct (h_tof a);
    try apply nt_ok; apply nt_ub.
Qed.

(** Clustering of the hits of one batch by a new object. *)
Definition events_of (ext : externals) (cfg : abs_cfg) (hits : list hit) : outcome (list neutron) :=
  let! o := abs_fit 8 cfg abs_new hits in abs_get_events ext cfg o hits.

Lemma nt_events ext cfg hits : nt (events_of ext cfg hits).
Proof.
  unfold events_of. apply nt_bind; [apply nt_fit|]. intros o E. destruct (fit_shape _ _ _ _ _ E) as [L M].
  unfold abs_get_events. unfold zlen. rewrite L, Z.eqb_refl. cbn [negb].
  destruct (o_labels o) as [|l ls]; [apply nt_ok|]. rewrite M. cbn [abs_new o_method fit_of].
  apply nt_event_loop. apply nt_centroid.
Qed.

Fixpoint all_events (ext : externals) (cfg : abs_cfg) (hss : list (list hit))
  : outcome (list (list hit * list neutron)) :=
  match hss with
  | [] => Ok []
  | hs :: rest =>
      let! es := events_of ext cfg hs in
      let! r := all_events ext cfg rest in
      Ok ((hs, es) :: r)
  end.

Definition pair_of (b : batch) : list hit * list neutron := (t_hits b, t_neutrons b).

Section Chunk.
Variables (ext : externals) (cfg : config) (md : mode_t) (hm : bool).
Notation acfg := (g_abs cfg).

Lemma process_from_any m o bs : process_from ext acfg md m o bs = process_from ext acfg md m abs_new bs.
Proof.
  revert o. induction bs as [|b bs IH]; intros o; [reflexivity|]. cbn [process_from].
  pose proof (body_hist ext acfg md m o b) as H. unfold body_batch in H.
  destruct (body ext acfg md m o b) as [[o1 b1]| | |] eqn:E1;
  destruct (body ext acfg md m abs_new b) as [[o2 b2]| | |] eqn:E2; cbn [obind] in *; try discriminate H;
    try exact H; try (inversion H; reflexivity); try reflexivity.
  rewrite (IH o1), (IH o2). apply Ok_inj in H. subst b2. reflexivity.
Qed.

Lemma body_located m b s ps : bytes_ok m -> fresh b -> batch_payload b m (zlen m) = Some ps ->
  (let! (_, b') := body ext acfg md m abs_new (bare b (start_ts md b s)) in Ok (pair_of b')) =
  (let! es := events_of ext acfg (emits md true (t_chip b) s ps) in
   Ok (emits md true (t_chip b) s ps, es)).
Proof.
  intros Hb Hf P. unfold body, extract_hits. rewrite process_packets_payload by exact Hb.
  change (batch_payload (bare b (start_ts md b s)) m (zlen m)) with (batch_payload b m (zlen m)).
  rewrite P. cbn [obind bare t_index t_num t_chip t_hits t_neutrons t_ts].
  assert (E : emits md true (t_chip b) (start_ts md b s) ps = emits md true (t_chip b) s ps).
  { destruct md; [reflexivity|]. apply emits_tdc_only. reflexivity. }
  rewrite E, Hf. cbn [app]. unfold events_of.
  change (abs_set_method (abs_reset abs_new) MCentroid) with abs_new.
  destruct (abs_fit 8 acfg abs_new _) as [o| | |]; cbn [obind]; try reflexivity.
  destruct (abs_get_events _ _ _ _); cbn [obind]; reflexivity.
Qed.

Lemma located_all m bs : bytes_ok m -> Forall fresh bs -> forall s,
  match items_of bs m (zlen m) with
  | None => locate md bs m (zlen m) s = UB OutOfBounds
  | Some it => exists bs1, locate md bs m (zlen m) s = Ok (bs1, snd (pass md it s)) /\
      (let! r := process_all ext acfg md m bs1 in Ok (map pair_of r)) =
      all_events ext acfg (fst (pass md it s))
  end.
Proof.
  intros Hb. induction bs as [|b bs IH]; intros HF s.
  - exists []. split; reflexivity.
  - inversion HF as [|? ? Hf HF']; subst. cbn [items_of locate].
    rewrite update_timestamp_eq by exact Hb.
    destruct (batch_payload b m (zlen m)) as [ps|] eqn:P; [|reflexivity]. cbn [obind].
    specialize (IH HF' (ts_after md s ps)).
    destruct (items_of bs m (zlen m)) as [it|]; [|rewrite IH; reflexivity].
    destruct IH as (bs1 & L & E). rewrite L. cbn [obind]. eexists. split.
    + cbn [pass]. destruct (pass md it (ts_after md s ps)) as [hs s2]. reflexivity.
    + cbn [pass]. destruct (pass md it (ts_after md s ps)) as [hs s2]. cbn [fst] in *.
      unfold process_all in *. cbn [process_from all_events].
      pose proof (body_located m b s ps Hb Hf P) as BL.
      destruct (body ext acfg md m abs_new (bare b (start_ts md b s))) as [[o1 b1]| | |];
        cbn [obind] in *;
      destruct (events_of ext acfg (emits md true (t_chip b) s ps)) as [es| | |]; cbn [obind] in *;
        try discriminate BL; try (inversion BL; reflexivity); try reflexivity.
      rewrite process_from_any. rewrite <- E.
      apply Ok_inj in BL.
      destruct (process_from ext acfg md m abs_new bs1) as [r| | |]; cbn [obind map]; try reflexivity.
      rewrite BL. reflexivity.
Qed.

(** The statements for one batch in sequence. *)
Definition mk (p : list hit * list neutron) : batch := Batch 0 0 0 (fst p) (snd p) ts0.
Definition consume (st : cli) (p : list hit * list neutron) : outcome cli :=
  ofold (fun st a => a st) (statements cfg hm (mk p)) st.

Lemma nt_tof_values hits : nt (tof_values hits).
Proof.
  induction hits as [|h hits IH]; cbn [tof_values]; [apply nt_ok|].
  destruct (tof_ns h); [|apply nt_ub]. apply nt_bind; [exact IH|intros; apply nt_ok].
Qed.
Lemma nt_statement b a st : In a (statements cfg hm b) -> nt (a st).
Proof.
  intros [<-|[<-|[<-|[<-|[]]]]].
  - unfold put_hits. destruct (c_hits st); [|apply nt_ok]. apply nt_bind; [|intros; apply nt_ok].
    unfold append_hits. destruct (t_hits b) eqn:T; [apply nt_ok|]. rewrite <- T.
    apply nt_bind; [unfold hit_columns; apply nt_bind; [apply nt_tof_values|intros; apply nt_ok]|].
    intros cols _. destruct (extend_all _ _ _ _). apply nt_ok.
  - unfold put_events. destruct (c_events st); [|apply nt_ok].
    destruct (append_neutrons no_fault h (t_neutrons b)) as [r f'] eqn:E.
    assert (R : r = Ok tt).
    { revert E. unfold append_neutrons. destruct (t_neutrons b) as [|n0 ns]; [intros E; inversion E; reflexivity|].
      match goal with |- context [extend_all ?i ?k ?g ?c] =>
        assert (T : snd (extend_all i k g c) = false) end.
      { generalize 0%nat. generalize (open_or_create h "neutrons"). generalize (neutron_columns (n0 :: ns)).
        intros cols. induction cols as [|[n c] cols IH]; intros g k; [reflexivity|]. cbn [extend_all].
        assert (X : create_or_extend (no_fault k) g n c = (fst (create_or_extend (no_fault k) g n c), false)).
        { destruct c; reflexivity. }
        rewrite X. apply IH. }
      destruct (extend_all _ _ _ _) as [g' t]. cbn in T. subst t. intros E; inversion E; reflexivity. }
    subst r. cbn [obind]. apply nt_ok.
  - unfold put_images. destruct (c_images st); [|apply nt_ok]. apply nt_bind; [|intros; apply nt_ok].
    unfold update_images. destruct l; [apply nt_ok|]. destruct (Nat.ltb _ _); [apply nt_ok|].
    apply nt_bind; [unfold dim; destruct (f_to_i32 _); [apply nt_ok|apply nt_ub]|]. intros d _.
    apply nt_ofold. intros ims e. unfold add_entry. destruct (en_tof e); [|apply nt_ub].
    destruct (bin_of _ _ _); [|apply nt_ok]. apply nt_bind.
    + unfold pixel_of. destruct (_ || _); [apply nt_ok|]. destruct (f_to_i32 _); [|apply nt_ub].
      destruct (f_to_i32 _); [|apply nt_ub]. destruct (_ && _); apply nt_ok.
    + intros [[x y]|] _; [|apply nt_ok]. destruct (bump _ _ _ _); [apply nt_ok|apply nt_ub].
  - apply nt_ok.
Qed.

Lemma try_all_eq acts : (forall a st, In a acts -> nt (a st)) -> forall st,
  try_all acts st = let! st' := ofold (fun st a => a st) acts st in Ok (st', None).
Proof.
  induction acts as [|a acts IH]; intros H st; [reflexivity|]. cbn [try_all ofold].
  destruct (a st) as [st1|e|u|] eqn:E; cbn [obind]; try reflexivity.
  - apply IH. intros a' st' I. apply H. right. exact I.
  - exfalso. apply (H a st (or_introl eq_refl) e). exact E.
Qed.

Lemma acts_consume bs : forall st,
  ofold (fun st a => a st) (flat_map (statements cfg hm) bs) st = ofold consume (map pair_of bs) st.
Proof.
  induction bs as [|b bs IH]; intros st; [reflexivity|]. cbn [flat_map map].
  rewrite ofold_app. cbn [ofold]. 
  change (ofold (fun st a => a st) (statements cfg hm b) st) with (consume st (pair_of b)).
  destruct (consume st (pair_of b)); cbn [obind]; try reflexivity. apply IH.
Qed.

Definition chunk_items (m : list Z) := items_of (find_headers m) m (zlen m).

Lemma run_chunk_eq st m : bytes_ok m ->
  run_chunk ext cfg md hm st m =
  match chunk_items m with
  | None => UB OutOfBounds
  | Some it =>
      let! l := all_events ext acfg (fst (pass md it (c_ts st))) in
      let! st' := ofold consume l (set_ts st (snd (pass md it (c_ts st)))) in
      Ok (st', None)
  end.
Proof.
  intros Hb. unfold run_chunk, chunk_items.
  pose proof (located_all m (find_headers m) Hb (find_headers_fresh m) (c_ts st)) as L.
  destruct (items_of (find_headers m) m (zlen m)) as [it|].
  - destruct L as (bs1 & -> & E). rewrite <- E. cbv zeta.
    destruct (process_all ext acfg md m bs1) as [r|e|u|] eqn:PA; cbn [obind] in *; try reflexivity.
    + rewrite try_all_eq.
      * rewrite acts_consume. reflexivity.
      * intros a s I. apply in_flat_map in I. destruct I as (b & _ & I). eapply nt_statement. exact I.
    + exfalso. symmetry in E. revert E.
      generalize (fst (pass md it (c_ts st))). intros hss.
      enough (N : nt (all_events ext acfg hss)) by (apply N).
      induction hss as [|hs hss IH]; cbn [all_events]; [apply nt_ok|].
      apply nt_bind; [apply nt_events|]. intros es _. apply nt_bind; [exact IH|]. intros; apply nt_ok.
  - rewrite L. reflexivity.
Qed.

(** Only [set_ts] changes the timestamps. *)
Lemma statement_ts b a st s : In a (statements cfg hm b) ->
  a (set_ts st s) = let! st' := a st in Ok (set_ts st' s).
Proof.
  intros [<-|[<-|[<-|[<-|[]]]]]; destruct st as [t [f|] [e|] [i|] n1 n2];
    cbn [put_hits put_events put_images put_counts set_ts c_hits c_events c_images c_ts c_nhits c_nneutrons];
    try reflexivity;
    try (destruct (append_hits no_fault f (t_hits b)); reflexivity);
    try (destruct (append_neutrons no_fault e (t_neutrons b)) as [[r| | |] f']; reflexivity);
    try (destruct (update_images (g_sr cfg) (g_edges cfg) hm i b); reflexivity).
Qed.
Lemma statement_keeps b a st st' : In a (statements cfg hm b) -> a st = Ok st' -> c_ts st' = c_ts st.
Proof.
  intros I E. pose proof (statement_ts b a st (c_ts st) I) as H. rewrite E in H. cbn [obind] in H.
  replace (set_ts st (c_ts st)) with st in H by (destruct st; reflexivity).
  rewrite E in H. apply Ok_inj in H. rewrite H. reflexivity.
Qed.
Lemma acts_ts acts s : (forall a, In a acts -> exists b, In a (statements cfg hm b)) -> forall st,
  ofold (fun st a => a st) acts (set_ts st s) =
  let! st' := ofold (fun st a => a st) acts st in Ok (set_ts st' s).
Proof.
  induction acts as [|a acts IH]; intros H st; [reflexivity|]. cbn [ofold].
  destruct (H a (or_introl eq_refl)) as (b & I). rewrite (statement_ts b a st s I).
  destruct (a st); cbn [obind]; try reflexivity. apply IH. intros a' I'. apply H. right. exact I'.
Qed.
Lemma consume_ts l s : forall st,
  ofold consume l (set_ts st s) = let! st' := ofold consume l st in Ok (set_ts st' s).
Proof.
  induction l as [|p l IH]; intros st; [reflexivity|]. cbn [ofold]. unfold consume at 1 3.
  rewrite acts_ts by (intros a I; eexists; exact I).
  destruct (ofold _ (statements cfg hm (mk p)) st); cbn [obind]; try reflexivity. apply IH.
Qed.
Lemma consume_keeps l st st' : ofold consume l st = Ok st' -> c_ts st' = c_ts st.
Proof.
  intros E. pose proof (consume_ts l (c_ts st) st) as H. rewrite E in H. cbn [obind] in H.
  replace (set_ts st (c_ts st)) with st in H by (destruct st; reflexivity).
  rewrite E in H. apply Ok_inj in H. rewrite H. reflexivity.
Qed.

Lemma all_events_app a b :
  all_events ext acfg (a ++ b) =
  let! x := all_events ext acfg a in let! y := all_events ext acfg b in Ok (x ++ y).
Proof.
  induction a as [|h a IH]; cbn [app all_events].
  - cbn [obind]. destruct (all_events ext acfg b); reflexivity.
  - rewrite IH. destruct (events_of ext acfg h); cbn [obind]; try reflexivity.
    destruct (all_events ext acfg a); cbn [obind]; try reflexivity.
    destruct (all_events ext acfg b); cbn [obind]; reflexivity.
Qed.

(** A run on given items. *)
Definition run_items (st : cli) (it : list (Z * list packet)) (st' : cli) : Prop :=
  exists l, all_events ext acfg (fst (pass md it (c_ts st))) = Ok l /\
    ofold consume l (set_ts st (snd (pass md it (c_ts st)))) = Ok st'.

Lemma run_chunk_items st m st' e : bytes_ok m ->
  (run_chunk ext cfg md hm st m = Ok (st', e) <->
   e = None /\ exists it, chunk_items m = Some it /\ run_items st it st').
Proof.
  intros Hb. rewrite run_chunk_eq by exact Hb. unfold run_items. split.
  - intros E. destruct (chunk_items m) as [it|]; [|discriminate E].
    destruct (all_events _ _ _) as [l| | |] eqn:L; cbn [obind] in E; try discriminate E.
    destruct (ofold _ _ _) as [s| | |] eqn:F; cbn [obind] in E; try discriminate E.
    apply Ok_inj in E. injection E as <- <-. split; [reflexivity|]. exists it. split; [reflexivity|].
    exists l. split; [exact L|exact F].
  - intros (-> & it & -> & l & E & F). rewrite E. cbn [obind]. rewrite F. reflexivity.
Qed.

Lemma run_items_app st it1 it2 st' :
  run_items st (it1 ++ it2) st' <-> exists st1, run_items st it1 st1 /\ run_items st1 it2 st'.
Proof.
  unfold run_items. rewrite pass_app. cbn [fst snd]. split.
  - intros (l & E & F). rewrite all_events_app in E.
    destruct (all_events ext acfg (fst (pass md it1 (c_ts st)))) as [l1| | |] eqn:E1; cbn [obind] in E; try discriminate E.
    destruct (all_events ext acfg (fst (pass md it2 _))) as [l2| | |] eqn:E2; cbn [obind] in E; try discriminate E.
    apply Ok_inj in E. subst l. rewrite ofold_app in F.
    set (s1 := snd (pass md it1 (c_ts st))) in *.
    assert (C : set_ts st (snd (pass md it2 s1)) = set_ts (set_ts st s1) (snd (pass md it2 s1))) by reflexivity.
    rewrite C, consume_ts in F.
    destruct (ofold consume l1 (set_ts st s1)) as [st1| | |] eqn:F1; cbn [obind] in F; try discriminate F.
    assert (T : c_ts st1 = s1) by (apply consume_keeps in F1; exact F1).
    exists st1. split; [exists l1; split; [reflexivity|exact F1]|].
    exists l2. rewrite T. split; [exact E2|exact F].
  - intros (st1 & (l1 & E1 & F1) & (l2 & E2 & F2)).
    set (s1 := snd (pass md it1 (c_ts st))) in *.
    assert (T : c_ts st1 = s1) by (apply consume_keeps in F1; exact F1). rewrite T in *.
    exists (l1 ++ l2). split; [rewrite all_events_app, E1, E2; reflexivity|].
    rewrite ofold_app.
    assert (C : set_ts st (snd (pass md it2 s1)) = set_ts (set_ts st s1) (snd (pass md it2 s1))) by reflexivity.
    rewrite C, consume_ts, F1. cbn [obind]. exact F2.
Qed.
End Chunk.

(** * Items of a buffer in two parts *)

Lemma read_packet_shift m1 m2 off : 0 <= off ->
  read_packet (m1 ++ m2) (zlen m1 + off) = read_packet m2 off.
Proof.
  intros H. unfold read_packet. destruct (Z.ltb_spec (zlen m1 + off) 0); [unfold zlen in *; lia|].
  destruct (Z.ltb_spec off 0); [lia|].
  rewrite skipn_app, skipn_all2 by (unfold zlen in *; lia). cbn [app].
  replace (Z.to_nat (zlen m1 + off) - length m1)%nat with (Z.to_nat off) by (unfold zlen; lia). reflexivity.
Qed.
Lemma payload_shift m1 m2 n : forall iter, 0 <= iter ->
  payload (m1 ++ m2) (zlen (m1 ++ m2)) n (zlen m1 + iter) = payload m2 (zlen m2) n iter.
Proof.
  induction n as [|n IH]; intros iter H; [reflexivity|]. cbn [payload]. rewrite zlen_app.
  replace (zlen m1 + iter + 8 >=? zlen m1 + zlen m2) with (iter + 8 >=? zlen m2) by lia.
  rewrite zlen_app in IH. rewrite IH by exact H. replace (zlen m1 + iter + 8) with (zlen m1 + (iter + 8)) by lia.
  rewrite read_packet_shift, IH by lia. reflexivity.
Qed.
Lemma items_shift m1 m2 ps : forall off, 0 <= off ->
  items_of (find_p ps (zlen m1 + off)) (m1 ++ m2) (zlen (m1 ++ m2)) =
  items_of (find_p ps off) m2 (zlen m2).
Proof.
  induction ps as [|p ps IH]; intros off H; [reflexivity|]. cbn [find_p].
  replace (zlen m1 + off + 8) with (zlen m1 + (off + 8)) by lia.
  destruct (is_header p); [|apply IH; lia]. cbn [items_of]. rewrite IH by lia.
  unfold batch_payload, header_batch, new_batch. cbn [t_num t_index t_chip].
  rewrite payload_shift by exact H. reflexivity.
Qed.
Lemma payload_within m1 m2 n : forall iter, 0 <= iter -> iter + 8 + 8 * Z.of_nat n <= zlen m1 ->
  payload (m1 ++ m2) (zlen (m1 ++ m2)) n iter = payload m1 (zlen m1) n iter.
Proof.
  induction n as [|n IH]; intros iter H L; [reflexivity|]. cbn [payload]. rewrite zlen_app.
  destruct (Z.geb_spec (iter + 8) (zlen m1)); [lia|].
  destruct (Z.geb_spec (iter + 8) (zlen m1 + zlen m2)); [unfold zlen in *; lia|].
  rewrite zlen_app in IH. rewrite IH by lia.
  assert (R : read_packet (m1 ++ m2) (iter + 8) = read_packet m1 (iter + 8)).
  { unfold read_packet. destruct (Z.ltb_spec (iter + 8) 0); [reflexivity|].
    rewrite skipn_app. replace (Z.to_nat (iter + 8) - length m1)%nat with 0%nat by (unfold zlen in *; lia).
    cbn [skipn]. assert (LS : (8 <= length (skipn (Z.to_nat (iter + 8)) m1))%nat)
      by (rewrite skipn_length; unfold zlen in *; lia).
    destruct (skipn (Z.to_nat (iter + 8)) m1) as [|a0 [|a1 [|a2 [|a3 [|a4 [|a5 [|a6 [|a7 rest]]]]]]]];
      cbn [length] in LS; try lia. reflexivity. }
  rewrite R. reflexivity.
Qed.

Definition contained (m : list Z) : Prop :=
  forall off p, header_at m off p -> off + 8 + 8 * declared_packets p <= zlen m.

Lemma items_of_ext bs m fin m' fin' :
  (forall b, In b bs -> batch_payload b m fin = batch_payload b m' fin') ->
  items_of bs m fin = items_of bs m' fin'.
Proof.
  induction bs as [|b bs IH]; intros H; [reflexivity|]. cbn [items_of].
  rewrite (H b (or_introl eq_refl)), IH; [reflexivity|]. intros b' I. apply H. right. exact I.
Qed.

Lemma chunk_items_aligned m : zlen m mod 8 = 0 -> chunk_items m = Some (items (packets m)).
Proof.
  intros Hm. unfold chunk_items, find_headers. rewrite find_from_p, (aligned_end m Hm).
  pose proof (items_of_find m (length (packets m)) [] (packets m) eq_refl (le_n _)) as I.
  rewrite firstn_all in I. exact I.
Qed.

Lemma items_of_app_gen bs bs' m fin it :
  items_of bs m fin = Some it ->
  items_of (bs ++ bs') m fin = option_map (app it) (items_of bs' m fin).
Proof.
  revert it. induction bs as [|b bs IH]; intros it E.
  - cbn in E. inversion E. cbn [app]. destruct (items_of bs' m fin); reflexivity.
  - cbn [items_of app] in *. destruct (batch_payload b m fin); [|discriminate].
    destruct (items_of bs m fin) as [i|]; [|discriminate]. inversion E; subst.
    rewrite (IH i eq_refl). destruct (items_of bs' m fin); reflexivity.
Qed.

Lemma chunk_items_app m1 m2 : bytes_ok m1 -> zlen m1 mod 8 = 0 -> contained m1 ->
  chunk_items (m1 ++ m2) = option_map (app (items (packets m1))) (chunk_items m2).
Proof.
  intros Hb Ha Hc. unfold chunk_items at 1, find_headers.
  rewrite find_from_p, packets_app, find_p_app by exact Ha.
  pose proof (packets_zlen m1) as PL. replace (0 + 8 * zlen (packets m1)) with (zlen m1 + 0) by lia.
  assert (E1 : items_of (find_p (packets m1) 0) (m1 ++ m2) (zlen (m1 ++ m2)) = Some (items (packets m1))).
  { rewrite <- (chunk_items_aligned m1 Ha). unfold chunk_items, find_headers. rewrite find_from_p.
    apply items_of_ext. intros b I. apply find_p_In in I. destruct I as (k & p & N & Hp & ->).
    assert (Pok : packet_ok p).
    { pose proof (packets_ok m1 Hb) as PO. rewrite Forall_forall in PO. apply PO. eapply nth_error_In. exact N. }
    unfold batch_payload. rewrite header_batch_num by apply Pok. cbn [header_batch new_batch t_index].
    assert (HA : header_at m1 (8 * Z.of_nat k) p).
    { split; [lia|]. split; [apply packet_at_nth; exact N|apply is_header_spec; exact Hp]. }
    apply Hc in HA. assert (D : 0 <= declared_packets p).
    { unfold declared_packets. destruct Pok as (_ & _ & _ & _ & _ & _ & B6 & B7). unfold is_byte in *.
      apply Z.div_pos; lia. }
    apply payload_within; lia. }
  rewrite (items_of_app_gen _ _ _ _ _ E1). f_equal.
  rewrite items_shift by lia. unfold chunk_items, find_headers. rewrite find_from_p. reflexivity.
Qed.

Lemma header_at_app_l m1 m2 off p : header_at m1 off p -> header_at (m1 ++ m2) off p.
Proof.
  intros (A & (pre & post & -> & L) & S). split; [exact A|]. split; [|exact S].
  exists pre, (post ++ m2). rewrite <- !app_assoc. auto.
Qed.
Lemma header_at_app_r m1 m2 off p : zlen m1 mod 8 = 0 ->
  header_at m2 off p -> header_at (m1 ++ m2) (zlen m1 + off) p.
Proof.
  intros Al (A & (pre & post & -> & L) & S). split; [lia|]. split; [|exact S].
  exists (m1 ++ pre), post. rewrite <- !app_assoc. split; [reflexivity|]. rewrite zlen_app. lia.
Qed.

Lemma Forall_firstn' {A} (P : A -> Prop) n l : Forall P l -> Forall P (firstn n l).
Proof. intros H. rewrite <- (firstn_skipn n l) in H. apply Forall_app in H. apply H. Qed.
Lemma Forall_skipn' {A} (P : A -> Prop) n l : Forall P l -> Forall P (skipn n l).
Proof. intros H. rewrite <- (firstn_skipn n l) in H. apply Forall_app in H. apply H. Qed.

Lemma clean_split size m : 0 < size -> size mod 8 = 0 -> size < zlen m -> boundaries_clean size m ->
  contained (firstn (Z.to_nat size) m) /\ boundaries_clean size (skipn (Z.to_nat size) m).
Proof.
  intros Hs Ha Hl Hc. set (m1 := firstn (Z.to_nat size) m). set (m2 := skipn (Z.to_nat size) m).
  assert (E : m = m1 ++ m2) by (symmetry; apply firstn_skipn).
  assert (L1 : zlen m1 = size) by (unfold m1; rewrite zlen_firstn; lia).
  split.
  - intros off p H. pose proof (header_at_app_l m1 m2 off p H) as H'. rewrite <- E in H'.
    assert (B : off < 1 * size).
    { destruct H as (_ & P & _). apply packet_at_bounds in P. lia. }
    specialize (Hc off p 1 H' ltac:(lia)). lia.
  - intros off p k H B. pose proof (header_at_app_r m1 m2 off p ltac:(lia) H) as H'. rewrite <- E in H'.
    assert (L2 : zlen m = size + zlen m2) by (rewrite E, zlen_app; lia).
    specialize (Hc (zlen m1 + off) p (k + 1) H' ltac:(lia)). lia.
Qed.

Lemma run_nil ext cfg md hm st : run_chunk ext cfg md hm st [] = Ok (st, None).
Proof. destruct st. reflexivity. Qed.

Lemma chunk_loop_clean ext cfg md hm size m : 0 < size -> size mod 8 = 0 -> bytes_ok m ->
  forall fuel pos st st', 0 <= pos -> (length (skipn (Z.to_nat pos) m) <= fuel)%nat ->
  boundaries_clean size (skipn (Z.to_nat pos) m) ->
  (chunk_loop fuel ext cfg md hm size (Reader m pos) st = Ok st' <->
   run_chunk ext cfg md hm st (skipn (Z.to_nat pos) m) = Ok (st', None)).
Proof.
  intros Hs Ha Hb. induction fuel as [|fuel IH]; intros pos st st' Hp HF HC.
  - assert (E : skipn (Z.to_nat pos) m = []) by (destruct (skipn (Z.to_nat pos) m); [reflexivity|cbn in HF; lia]).
    rewrite E, run_nil. cbn [chunk_loop]. unfold is_eof. cbn [r_pos r_map].
    apply (f_equal (@zlen _)) in E. rewrite zlen_skipn in E. unfold zlen in E at 2. cbn in E.
    destruct (Z.geb_spec pos (zlen m)); [|lia]. split; intros X; apply Ok_inj in X; congruence.
  - cbn [chunk_loop]. unfold is_eof. cbn [r_pos r_map].
    destruct (Z.geb_spec pos (zlen m)) as [G|G].
    + rewrite skipn_all2 by (unfold zlen in *; lia). rewrite run_nil.
      split; intros X; apply Ok_inj in X; congruence.
    + rewrite read_chunk_eq by lia. set (rest := skipn (Z.to_nat pos) m) in *.
      assert (Lr : zlen rest = zlen m - pos) by (unfold rest; rewrite zlen_skipn; lia).
      assert (Hbr : bytes_ok rest) by (apply Forall_skipn'; exact Hb).
      destruct (firstn (Z.to_nat size) rest) as [|c0 cr] eqn:EC.
      { apply (f_equal (@zlen _)) in EC. rewrite zlen_firstn in EC. unfold zlen in EC at 2. cbn [length] in EC. lia. }
      rewrite <- EC. clear c0 cr EC.
      destruct (Z.le_gt_cases (zlen rest) size) as [LE|GT].
      * rewrite firstn_all2 by (unfold zlen in LE; lia).
        assert (EOF : forall f s, chunk_loop f ext cfg md hm size
            (Reader m (Z.max pos (Z.min (pos + size) (zlen m)))) s = Ok s).
        { intros f s. assert (X : is_eof (Reader m (Z.max pos (Z.min (pos + size) (zlen m)))) = true).
          { unfold is_eof. cbn [r_pos r_map]. lia. }
          destruct f; cbn [chunk_loop]; rewrite X; reflexivity. }
        split.
        -- intros E. destruct (run_chunk ext cfg md hm st rest) as [[s1 e1]| | |] eqn:R; cbn [obind] in E; try discriminate E.
           rewrite EOF in E. apply Ok_inj in E. subst s1. apply run_chunk_items in R; [|exact Hbr].
           destruct R as [-> _]. reflexivity.
        -- intros ->. cbn [obind]. apply EOF.
      * destruct (clean_split size rest Hs Ha GT HC) as [C1 C2].
        replace (Z.max pos (Z.min (pos + size) (zlen m))) with (pos + size) by lia.
        assert (SK : skipn (Z.to_nat size) rest = skipn (Z.to_nat (pos + size)) m).
        { unfold rest. rewrite skipn_skipn'. f_equal. lia. }
        set (m1 := firstn (Z.to_nat size) rest) in *.
        assert (E : rest = m1 ++ skipn (Z.to_nat size) rest) by (symmetry; apply firstn_skipn).
        assert (L1 : zlen m1 = size) by (unfold m1; rewrite zlen_firstn; lia).
        assert (Hb1 : bytes_ok m1) by (apply Forall_firstn'; exact Hbr).
        assert (Hb2 : bytes_ok (skipn (Z.to_nat size) rest)) by (apply Forall_skipn'; exact Hbr).
        assert (IH' : forall s1, chunk_loop fuel ext cfg md hm size (Reader m (pos + size)) s1 = Ok st' <->
           run_chunk ext cfg md hm s1 (skipn (Z.to_nat size) rest) = Ok (st', None)).
        { intros s1. rewrite SK. apply IH; [lia| |rewrite <- SK; exact C2].
          rewrite <- SK, skipn_length. unfold zlen in *. lia. }
        pose proof (chunk_items_app m1 (skipn (Z.to_nat size) rest) Hb1 ltac:(lia) C1) as IT.
        rewrite <- E in IT.
        rewrite run_chunk_items by exact Hbr. split.
        -- intros X. destruct (run_chunk ext cfg md hm st m1) as [[s1 e1]| | |] eqn:R; cbn [obind] in X; try discriminate X.
           apply IH' in X. apply run_chunk_items in X; [|exact Hb2]. destruct X as (_ & it2 & I2 & R2).
           apply run_chunk_items in R; [|exact Hb1]. destruct R as (_ & it1 & I1 & R1).
           rewrite chunk_items_aligned in I1 by lia. inversion I1; subst it1.
           split; [reflexivity|]. exists (items (packets m1) ++ it2). rewrite IT, I2.
           split; [reflexivity|]. apply run_items_app. exists s1. auto.
        -- intros (_ & it & I & R). rewrite IT in I.
           destruct (chunk_items (skipn (Z.to_nat size) rest)) as [it2|] eqn:I2; [|discriminate I].
           cbn [option_map] in I. inversion I; subst it. apply run_items_app in R.
           destruct R as (s1 & R1 & R2).
           assert (X : run_chunk ext cfg md hm st m1 = Ok (s1, None)).
           { apply run_chunk_items; [exact Hb1|]. split; [reflexivity|]. exists (items (packets m1)).
             rewrite chunk_items_aligned by lia. auto. }
           rewrite X. cbn [obind]. apply IH'. apply run_chunk_items; [exact Hb2|]. split; [reflexivity|]. eauto.
Qed.

(** * Streams *)

Lemma items_cons p ps :
  items (p :: ps) = if is_header p then (chip_of p, firstn (num_of p) ps) :: items ps else items ps.
Proof. unfold items. cbn [length items_cut]. rewrite firstn_all. reflexivity. Qed.
Lemma items_plain ps rest : Forall (fun p => ~ starts_TPX p) ps -> items (ps ++ rest) = items rest.
Proof.
  induction ps as [|p ps IH]; intros H; [reflexivity|]. inversion H; subst. cbn [app].
  rewrite items_cons, IH by assumption.
  destruct (is_header p) eqn:E; [apply is_header_spec in E; contradiction|reflexivity].
Qed.

Definition ds_item (d : dataset) : Z * list packet := (chip_of (ds_header d), d_payload d).

Lemma ds_num d : dataset_ok d -> num_of (ds_header d) = length (d_payload d).
Proof.
  intros H. pose proof (ds_header_ok d H) as Hp.
  pose proof (header_batch_num 0 (ds_header d) ltac:(apply Hp) ltac:(apply Hp)) as N.
  rewrite ds_header_decl in N by exact H. unfold num_of. cbn [header_batch new_batch t_num] in N.
  rewrite N. unfold zlen. lia.
Qed.
Lemma header_is d : is_header (ds_header d) = true.
Proof. reflexivity. Qed.
Lemma items_ds ds rest : Forall dataset_ok ds -> Forall no_false_header ds ->
  items (flat_map ds_packets ds ++ rest) = map ds_item ds ++ items rest.
Proof.
  induction ds as [|d ds IH]; intros H1 H2; [reflexivity|].
  inversion H1 as [|? ? D1 D2]; subst. inversion H2 as [|? ? N1 N2]; subst.
  cbn [flat_map map app]. unfold ds_packets at 1. cbn [app]. rewrite items_cons, header_is, ds_num by exact D1.
  rewrite <- !app_assoc. rewrite firstn_app, Nat.sub_diag, firstn_all. cbn [firstn]. rewrite app_nil_r.
  rewrite items_plain by exact N1. rewrite IH by assumption. reflexivity.
Qed.
Lemma items_ds0 ds : Forall dataset_ok ds -> Forall no_false_header ds ->
  items (flat_map ds_packets ds) = map ds_item ds.
Proof.
  intros H1 H2. rewrite <- (app_nil_r (flat_map ds_packets ds)), items_ds by assumption. apply app_nil_r.
Qed.
Lemma stream_aligned ds : zlen (stream ds) mod 8 = 0.
Proof. rewrite stream_len. unfold zlen. lia. Qed.
Lemma stream_items ds : Forall dataset_ok ds -> Forall no_false_header ds ->
  chunk_items (stream ds) = Some (map ds_item ds).
Proof.
  intros H1 H2. rewrite chunk_items_aligned by apply stream_aligned. rewrite packets_stream.
  rewrite items_ds0 by assumption. reflexivity.
Qed.

Lemma shorten_ok k d : dataset_ok d -> dataset_ok (shorten k d).
Proof.
  intros (A & B & C & D & E). repeat split; try apply A; try apply B; try apply C.
  - apply Forall_firstn'. exact D.
  - cbn [shorten d_payload]. rewrite zlen_firstn. lia.
Qed.
Lemma shorten_plain k d : no_false_header d -> no_false_header (shorten k d).
Proof. apply Forall_firstn'. Qed.

Lemma ds_bytes_packets ds : stream ds = flat_map packet_bytes (flat_map ds_packets ds).
Proof.
  induction ds as [|d ds IH]; [reflexivity|]. cbn [stream flat_map]. rewrite flat_map_app. f_equal. exact IH.
Qed.
Lemma firstn_bytes k ps : firstn (8 * k) (flat_map packet_bytes ps) = flat_map packet_bytes (firstn k ps).
Proof.
  revert ps. induction k as [|k IH]; intros ps; [reflexivity|]. destruct ps as [|p ps]; [rewrite firstn_nil; reflexivity|].
  cbn [flat_map firstn]. rewrite firstn_app. rewrite firstn_all2 by (rewrite packet_bytes_length; lia).
  rewrite packet_bytes_length. replace (8 * S k - 8)%nat with (8 * k)%nat by lia. rewrite IH. reflexivity.
Qed.
Lemma skipn_bytes k ps : skipn (8 * k) (flat_map packet_bytes ps) = flat_map packet_bytes (skipn k ps).
Proof.
  revert ps. induction k as [|k IH]; intros ps; [reflexivity|]. destruct ps as [|p ps]; [rewrite skipn_nil; reflexivity|].
  cbn [flat_map skipn]. rewrite skipn_app. rewrite skipn_all2 by (rewrite packet_bytes_length; lia).
  rewrite packet_bytes_length. replace (8 * S k - 8)%nat with (8 * k)%nat by lia. rewrite IH. reflexivity.
Qed.
Lemma packets_flat ps : packets (flat_map packet_bytes ps) = ps.
Proof. pose proof (packets_concat ps []) as E. rewrite !app_nil_r in E. exact E. Qed.
Lemma flat_aligned ps : zlen (flat_map packet_bytes ps) = 8 * zlen ps.
Proof.
  induction ps as [|p ps IH]; [reflexivity|]. cbn [flat_map]. rewrite zlen_app, IH, zlen_cons.
  unfold zlen at 1. rewrite packet_bytes_length. lia.
Qed.

Lemma C35_cut_l ext cfg md hm ds1 d ds2 k fuel st st' :
  let m := stream (ds1 ++ d :: ds2) in
  let size := zlen (stream ds1) + 8 + 8 * Z.of_nat k in
  Forall dataset_ok (ds1 ++ d :: ds2) -> Forall no_false_header (ds1 ++ d :: ds2) ->
  (k <= length (d_payload d))%nat -> (length m <= fuel)%nat ->
  boundaries_clean size (skipn (Z.to_nat size) m) ->
  (chunk_loop fuel ext cfg md hm size (Reader m 0) st = Ok st' <->
   run_chunk ext cfg md hm st (stream (ds1 ++ shorten k d :: ds2)) = Ok (st', None)).
Proof.
  intros m size Ho Hn Hk Hf Hc.
  pose proof Ho as Ho'. apply Forall_app in Ho'. destruct Ho' as [O1 O2]. inversion O2 as [|? ? Od O3]; subst.
  pose proof Hn as Hn'. apply Forall_app in Hn'. destruct Hn' as [N1 N2]. inversion N2 as [|? ? Nd N3]; subst.
  assert (Hb : bytes_ok m) by (apply stream_ok; exact Ho).
  assert (HbS : bytes_ok (stream (ds1 ++ shorten k d :: ds2))).
  { apply stream_ok. apply Forall_app. split; [exact O1|]. constructor; [apply shorten_ok; exact Od|exact O3]. }
  set (K := (length (flat_map ds_packets ds1) + S k)%nat).
  assert (Sz : size = 8 * Z.of_nat K).
  { unfold size, K. rewrite stream_len. unfold zlen. lia. }
  assert (Em : m = flat_map packet_bytes (flat_map ds_packets (ds1 ++ d :: ds2))) by apply ds_bytes_packets.
  assert (PS : flat_map ds_packets (ds1 ++ d :: ds2) =
               (flat_map ds_packets ds1 ++ ds_header d :: firstn k (d_payload d)) ++
               (skipn k (d_payload d) ++ flat_map ds_packets ds2)).
  { rewrite flat_map_app. cbn [flat_map]. unfold ds_packets at 2. rewrite <- !app_assoc. cbn [app].
    do 2 f_equal. rewrite app_assoc, firstn_skipn. reflexivity. }
  assert (LK : length (flat_map ds_packets ds1 ++ ds_header d :: firstn k (d_payload d)) = K).
  { rewrite app_length. cbn [length]. rewrite firstn_length. unfold K. lia. }
  assert (C1 : firstn (Z.to_nat size) m = flat_map packet_bytes (flat_map ds_packets ds1 ++ ds_header d :: firstn k (d_payload d))).
  { rewrite Sz, Em. replace (Z.to_nat (8 * Z.of_nat K)) with (8 * K)%nat by lia. rewrite firstn_bytes, PS.
    rewrite firstn_app, LK, Nat.sub_diag. cbn [firstn]. rewrite app_nil_r. f_equal. apply firstn_all2. lia. }
  assert (C2 : skipn (Z.to_nat size) m = flat_map packet_bytes (skipn k (d_payload d) ++ flat_map ds_packets ds2)).
  { rewrite Sz, Em. replace (Z.to_nat (8 * Z.of_nat K)) with (8 * K)%nat by lia. rewrite skipn_bytes, PS.
    rewrite skipn_app, LK, Nat.sub_diag. cbn [skipn]. rewrite skipn_all2 by lia. reflexivity. }
  assert (I1 : chunk_items (firstn (Z.to_nat size) m) = Some (map ds_item (ds1 ++ [shorten k d]))).
  { rewrite C1, chunk_items_aligned by (rewrite flat_aligned; lia). rewrite packets_flat. f_equal.
    rewrite items_ds by assumption. rewrite map_app. f_equal. cbn [map]. rewrite items_cons, header_is, ds_num by exact Od.
    rewrite <- (app_nil_r (firstn k (d_payload d))) at 2.
    rewrite items_plain by (apply shorten_plain; exact Nd). cbn. f_equal. unfold ds_item. f_equal.
    cbn [shorten d_payload]. apply firstn_all2. rewrite firstn_length. lia. }
  assert (I2 : chunk_items (skipn (Z.to_nat size) m) = Some (map ds_item ds2)).
  { rewrite C2, chunk_items_aligned by (rewrite flat_aligned; lia). rewrite packets_flat. f_equal.
    rewrite items_plain by (apply Forall_skipn'; exact Nd).
    apply items_ds0; assumption. }
  assert (IS : chunk_items (stream (ds1 ++ shorten k d :: ds2)) = Some (map ds_item (ds1 ++ [shorten k d]) ++ map ds_item ds2)).
  { rewrite stream_items.
    - rewrite <- map_app, <- app_assoc. reflexivity.
    - apply Forall_app. split; [exact O1|]. constructor; [apply shorten_ok; exact Od|exact O3].
    - apply Forall_app. split; [exact N1|]. constructor; [apply shorten_plain; exact Nd|exact N3]. }
  assert (Lm : size <= zlen m).
  { rewrite Em, PS, flat_aligned, zlen_app. unfold zlen at 1. rewrite LK. pose proof (zlen_nonneg (skipn k (d_payload d) ++ flat_map ds_packets ds2)). lia. }
  assert (Pos : 0 < size) by (unfold size; pose proof (zlen_nonneg (stream ds1)); lia).
  destruct fuel as [|fuel].
  { unfold zlen in Lm. lia. }
  cbn [chunk_loop]. unfold is_eof. cbn [r_pos r_map].
  destruct (Z.geb_spec 0 (zlen m)); [lia|]. rewrite read_chunk_eq by lia. change (skipn (Z.to_nat 0) m) with m.
  destruct (firstn (Z.to_nat size) m) as [|c0 cr] eqn:EC.
  { apply (f_equal (@zlen _)) in EC. rewrite zlen_firstn in EC. unfold zlen in EC at 2. cbn [length] in EC. lia. }
  rewrite <- EC in *. clear c0 cr EC.
  replace (Z.max 0 (Z.min (0 + size) (zlen m))) with size by lia.
  assert (HL : forall s1, chunk_loop fuel ext cfg md hm size (Reader m size) s1 = Ok st' <->
     run_chunk ext cfg md hm s1 (skipn (Z.to_nat size) m) = Ok (st', None)).
  { intros s1. apply chunk_loop_clean; try assumption; try lia. rewrite skipn_length. unfold zlen in *. lia. }
  assert (Hb1 : bytes_ok (firstn (Z.to_nat size) m)) by (apply Forall_firstn'; exact Hb).
  assert (Hb2 : bytes_ok (skipn (Z.to_nat size) m)) by (apply Forall_skipn'; exact Hb).
  rewrite (run_chunk_items _ _ _ _ _ _ _ _ HbS). split.
  - intros E. destruct (run_chunk ext cfg md hm st (firstn (Z.to_nat size) m)) as [[s1 e1]| | |] eqn:R; cbn [obind] in E; try discriminate E.
    apply HL in E. apply run_chunk_items in E; [|exact Hb2]. destruct E as (_ & it2 & J2 & R2).
    apply run_chunk_items in R; [|exact Hb1]. destruct R as (_ & it1 & J1 & R1).
    rewrite I1 in J1. inversion J1; subst it1. rewrite I2 in J2. inversion J2; subst it2.
    split; [reflexivity|]. eexists. split; [exact IS|]. apply run_items_app. eauto.
  - intros (_ & it & J & R). rewrite IS in J. inversion J; subst it. apply run_items_app in R.
    destruct R as (s1 & R1 & R2).
    assert (X : run_chunk ext cfg md hm st (firstn (Z.to_nat size) m) = Ok (s1, None)).
    { apply run_chunk_items; [exact Hb1|]. split; [reflexivity|]. eauto. }
    rewrite X. cbn [obind]. apply HL. apply run_chunk_items; [exact Hb2|]. split; [reflexivity|]. eauto.
Qed.
