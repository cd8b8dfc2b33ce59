(** Proofs about the GUI. *)
From Coq Require Import Reals Lra Lia ZifyBool Zify.
From Flocq Require Import Core.
From Verif Require Export S_Gui P_LibIO P_StreamRun P_LibMore P_Centroid P_DisplayPixel.
Ltac Zify.zify_post_hook ::= Z.to_euclidean_division_equations.
Global Open Scope Z_scope.

(** * Pixels *)

Lemma in_unit_unique v i j : in_unit v i -> in_unit v j -> i = j.
Proof.
  intros [_ [A B]] [_ [C D]]. assert (H1 : (IZR i < IZR (j + 1))%R) by lra. assert (H2 : (IZR j < IZR (i + 1))%R) by lra.
  apply lt_IZR in H1, H2. lia.
Qed.
Lemma int512 : is_int (f_of_Z 512) 512.
Proof. apply is_int_of_Z. lia. Qed.

Lemma range_spec v : fge v (f_of_Z 0) && flt v (f_of_Z 512) = true <-> exists i, in_unit v i /\ 0 <= i < 512.
Proof.
  destruct zero_int as [Fz Ez], int512 as [Fw Ew]. split.
  - intros H. apply andb_true_iff in H. destruct H as [H1 H2].
    assert (F : is_finite v = true) by (destruct v as [s|[]| |s m e b]; try reflexivity; vm_compute in H1; vm_compute in H2; congruence).
    unfold fge in H1. fold (fle (f_of_Z 0) v) in H1. rewrite fle_R in H1 by assumption. rewrite flt_R in H2 by assumption.
    rewrite Ez in H1. rewrite Ew in H2. apply Rle_bool_true_inv in H1 || (revert H1; case Rle_bool_spec; [intros H1 _|discriminate]).
    revert H2; case Rlt_bool_spec; [intros H2 _|discriminate].
    exists (Zfloor (B2R v)). pose proof (Zfloor_lb (B2R v)) as L. pose proof (Zfloor_ub (B2R v)) as U.
    split; [split; [exact F|]; rewrite plus_IZR; lra|].
    split; [apply Zfloor_lub; exact H1|]. apply lt_IZR. lra.
  - intros (i & [F [A B]] & R). apply andb_true_iff. split.
    + apply fge_nonneg; [exact F|]. apply Rle_trans with (2 := A). apply IZR_le. lia.
    + rewrite flt_R by assumption. rewrite Ew. apply Rlt_bool_true. apply Rlt_le_trans with (1 := B). apply IZR_le. lia.
Qed.
Lemma in_unit_conv v i : in_unit v i -> 0 <= i < 512 -> f_to_i32 v = Some i.
Proof.
  intros [F [A B]] R.
  assert (P : (0 <= B2R v)%R) by (apply Rle_trans with (2 := A); apply IZR_le; lia).
  assert (Q : (B2R v < 512)%R) by (apply Rlt_le_trans with (1 := B); apply IZR_le; lia).
  rewrite conv_spec; [|exact F|apply Rabs_le; lra]. rewrite Ztrunc_floor by exact P. f_equal. apply Zfloor_imp. split; assumption.
Qed.

Definition cell (c : option (Z * Z)) : list Z := match c with Some (i, j) => [512 * i + j] | None => [] end.

Lemma entry_spec rot e : exists c, falls_in rot e c /\ gui_entry rot e = Ok (cell c).
Proof.
  unfold gui_entry, falls_in, rotated. cbv zeta. cbn [fst snd].
  set (x := fsub _ _). set (y := fadd _ _).
  rewrite <- andb_assoc. rewrite <- andb_assoc. rewrite andb_assoc.
  destruct (fge x (f_of_Z 0) && flt x (f_of_Z 512)) eqn:Ex.
  - apply range_spec in Ex. destruct Ex as (i & Wi & Ri).
    destruct (fge y (f_of_Z 0) && flt y (f_of_Z 512)) eqn:Ey.
    + apply range_spec in Ey. destruct Ey as (j & Wj & Rj). exists (Some (i, j)). split; [auto|].
      cbn [andb]. rewrite (in_unit_conv x i Wi Ri), (in_unit_conv y j Wj Rj). reflexivity.
    + exists None. split; [|reflexivity]. intros a b Ra Rb [_ Wb].
      assert (T : exists j, in_unit y j /\ 0 <= j < 512) by eauto. apply range_spec in T. congruence.
  - exists None. split; [|reflexivity]. intros a b Ra Rb [Wa _].
    assert (T : exists j, in_unit x j /\ 0 <= j < 512) by eauto. apply range_spec in T. congruence.
Qed.
Lemma falls_unique rot e c c' : falls_in rot e c -> falls_in rot e c' -> c = c'.
Proof.
  unfold falls_in. destruct c as [[i j]|], c' as [[i' j']|]; intros H H'.
  - destruct H as (A & B & _), H' as (A' & B' & _). rewrite (in_unit_unique _ _ _ A A'), (in_unit_unique _ _ _ B B'). reflexivity.
  - destruct H as (A & B & C & D). elim (H' i j C D). auto.
  - destruct H' as (A & B & C & D). elim (H i' j' C D). auto.
  - reflexivity.
Qed.
Lemma entries_spec rot es : exists cs, Forall2 (falls_in rot) es cs /\ gui_entries rot es = Ok (flat_map cell cs).
Proof.
  induction es as [|e es (cs & F & E)]; [exists []; split; [constructor|reflexivity]|].
  destruct (entry_spec rot e) as (c & Fc & Ec). exists (c :: cs). split; [constructor; assumption|].
  cbn [gui_entries]. rewrite Ec. cbn [obind]. rewrite E. reflexivity.
Qed.

Definition is_cell (i j : Z) (c : option (Z * Z)) : bool :=
  match c with Some (a, b) => (a =? i) && (b =? j) | None => false end.
Lemma times_app k a b : times k (a ++ b) = times k a + times k b.
Proof. unfold times. rewrite filter_app, zlen_cat. reflexivity. Qed.
Lemma times_cells rot es cs i j : Forall2 (falls_in rot) es cs -> 0 <= i < 512 -> 0 <= j < 512 ->
  times (512 * i + j) (flat_map cell cs) = zlen (filter (is_cell i j) cs).
Proof.
  intros F Hi Hj. induction F as [|e c es cs Fc F IH]; [reflexivity|]. cbn [flat_map]. rewrite times_app, IH.
  change (c :: cs) with ([c] ++ cs). rewrite filter_app, zlen_cat. f_equal.
  destruct c as [[a b]|]; [|reflexivity]. unfold falls_in in Fc. destruct Fc as (_ & _ & Ra & Rb).
  unfold times. cbn [cell filter is_cell].
  destruct ((a =? i) && (b =? j)) eqn:E; destruct (Z.eqb_spec (512 * i + j) (512 * a + b)) as [Q|Q]; try reflexivity; lia.
Qed.

(** * Hits *)

Lemma roll_range s a : 0 <= s < 2 ^ 30 -> 0 <= alt_prev a < 2 ^ 30 -> 0 <= alt_roll a < 2 ^ 63 ->
  0 <= alt_rollover s a <= alt_roll a + 1.
Proof.
  intros Hs Hp Hr. unfold alt_rollover, u64. destruct (s <? alt_prev a).
  - destruct (_ >? _); lia.
  - destruct (_ >? _); [destruct (alt_roll a >? 0) eqn:E; lia|lia].
Qed.
Lemma alt_sensor p a c : packet_ok p ->
  let h := fst (packet_to_hit_alt p a c) in
  sensor_hit h /\ 0 <= h_spider h /\
  (0 <= alt_prev a < 2 ^ 30 -> 0 <= alt_roll a < 2 ^ 32 ->
     h_spider h < 2 ^ 30 * (alt_roll a + 2) /\
     0 <= alt_prev (snd (packet_to_hit_alt p a c)) < 2 ^ 30 /\
     0 <= alt_roll (snd (packet_to_hit_alt p a c)) <= alt_roll a + 1).
Proof.
  intros Hp. cbv zeta. destruct (C43_range_l p a c Hp) as (t & Et & Rt & _).
  destruct (C01_bijection_l p Hp) as (f & (Hf & Ef) & _).
  destruct (pixel_packet_decode f Hf) as (H1 & H2 & H3 & H4 & H5 & H6 & _). rewrite Ef in *.
  destruct (place_range c (f_x f) (f_y f)) as [Px Py]; [apply Hf|apply Hf|]. destruct (spidertime30_eq p Hp) as [_ Hs].
  rewrite alt_eq in *. cbv zeta in *. cbn [fst snd h_x h_y h_tot h_tof h_spider alt_prev alt_roll] in *.
  rewrite H5, H6, layout_place. split; [|split].
  - unfold sensor_hit. cbn [h_x h_y h_tot h_tof]. split; [lia|]. split; [lia|]. split; [rewrite H1; unfold fields_ok in Hf; lia|].
    exists t. split; [exact Et|lia].
  - unfold u64. apply Z.mod_pos_bound. lia.
  - intros Hv Hr. pose proof (roll_range (spidertime30 p) a Hs Hv ltac:(lia)) as R.
    set (r := alt_rollover _ _) in *. clearbody r. split; [|split; [exact Hs|exact R]]. unfold u64. change (Z.shiftl 1 30) with (2 ^ 30). lia.
Qed.
Lemma alt_hits_sensor xs : forall a, Forall (fun x : Z * packet => packet_ok (snd x)) xs ->
  Forall (fun h => sensor_hit h /\ 0 <= h_spider h) (alt_hits a xs).
Proof.
  induction xs as [|[c p] xs IH]; intros a F; [constructor|]. apply Forall_cons_iff in F. destruct F as [Hp F]. cbn [snd] in Hp.
  cbn [alt_hits]. destruct (alt_sensor p a c Hp) as (A & B & _). destruct (packet_to_hit_alt p a c) as [h a'].
  constructor; [auto|apply IH; exact F].
Qed.
Lemma alt_hits_early xs : forall a, Forall (fun x : Z * packet => packet_ok (snd x)) xs ->
  0 <= alt_prev a < 2 ^ 30 -> 0 <= alt_roll a -> alt_roll a + zlen xs < 2 ^ 18 ->
  Forall (fun h => h_spider h < 2 ^ 48) (alt_hits a xs).
Proof.
  induction xs as [|[c p] xs IH]; intros a F Hv Hr L; [constructor|]. apply Forall_cons_iff in F. destruct F as [Hp F]. cbn [snd] in Hp.
  rewrite zlen_cons in L. pose proof (zlen_nonneg xs) as P.
  cbn [alt_hits]. destruct (alt_sensor p a c Hp) as (_ & _ & C). destruct (C Hv ltac:(lia)) as (C1 & C2 & C3).
  destruct (packet_to_hit_alt p a c) as [h a']. cbn [fst snd] in *.
  constructor; [lia|apply IH; try assumption; lia].
Qed.
Lemma alt_hits_len xs : forall a, zlen (alt_hits a xs) = zlen xs.
Proof.
  induction xs as [|[c p] xs IH]; intros a; [reflexivity|]. cbn [alt_hits]. destruct (packet_to_hit_alt p a c). rewrite !zlen_cons, IH. reflexivity.
Qed.
Lemma file_hits_sensor m hs : bytes_ok m -> file_hits m hs -> Forall (fun h => sensor_hit h /\ 0 <= h_spider h) hs.
Proof. intros Hb (xs & F & ->). apply alt_hits_sensor, pixels_ok. eapply framed_ok; eauto. Qed.
Lemma early_few_l m hs : bytes_ok m -> file_hits m hs -> zlen hs < 2 ^ 18 -> early hs.
Proof.
  intros Hb (xs & F & ->) L. rewrite alt_hits_len in L. apply alt_hits_early; cbn [alt_prev alt_roll]; try lia.
  apply pixels_ok. eapply framed_ok; eauto.
Qed.
Lemma file_hits_sound m hs : bytes_ok m -> file_hits m hs -> early hs -> Forall sound_hit hs.
Proof.
  intros Hb H E. pose proof (file_hits_sensor m hs Hb H) as F. unfold early in E. rewrite Forall_forall in *. intros h I.
  destruct (F h I) as ((X & Y & _ & t & T & _) & P). specialize (E h I). cbv beta in E.
  split; [|exists t; exact T]. unfold hit_ok. lia.
Qed.

(** * Events *)

Lemma weighted_total srf c : Forall sound_hit c -> forall s, exists s', ofold (add_weighted srf) c s = Ok s'.
Proof.
  induction 1 as [|h c (_ & t & T) F IH]; intros s; [eexists; reflexivity|]. cbn [ofold]. unfold add_weighted at 1, get_tof.
  rewrite T. cbn [obind]. apply IH.
Qed.
Lemma centroid_total srf c : Forall sound_hit c -> exists e, centroid_fit true srf c = Ok e.
Proof.
  intros F. unfold centroid_fit. destruct c as [|h c]; [eexists; reflexivity|].
  destruct (weighted_total srf (h :: c) F sums0) as [s E]. rewrite E. eexists; reflexivity.
Qed.

Lemma hits_events_total ext o b : b <> [] -> Forall sound_hit b -> o_method o = MCentroid ->
  exists o' evs, lib_fit gui_cfg o b = Ok o' /\ o_method o' = MCentroid /\
    lib_get_events ext gui_cfg o' b = Ok evs /\ hits_events b evs.
Proof.
  intros Hne F M. assert (Hok : Forall hit_ok b) by (eapply Forall_impl; [|exact F]; intros h H; apply H).
  destruct (C23_l 4 gui_cfg (5 * 2 ^ 20) o b ltac:(lia) Hok five_is ltac:(cbn; lia))
    as (o' & ls & op & closed & E & El & C & _).
  pose proof (fit_method _ _ _ _ _ E) as M'. rewrite M in M'.
  destruct (C24_l 4 ext gui_cfg o b o' MCentroid (centroid_fit true (f_of_Z 1)) ltac:(lia) Hok E eq_refl)
    as (ls2 & k & El2 & Len & Hk & Ev).
  pose proof (clusters_same_labels _ _ _ _ _ _ _ C _ El El2) as ->.
  assert (Em : abs_set_method o' MCentroid = o').
  { clear - M'. destruct o' as [m1 l1 i1]. cbn in *. subst. reflexivity. }
  rewrite Em in Ev.
  assert (Ek : k = (length op + length closed)%nat).
  { pose proof (clusters_label_bound _ _ _ _ _ _ C) as LB. rewrite Forall_forall in LB.
    pose proof (clusters_all_used _ _ _ _ _ _ C) as AU.
    destruct (Nat.lt_trichotomy k (length op + length closed)) as [L|[L|L]]; [|exact L|].
    - pose proof (AU k L) as I. apply Hk in I. lia.
    - assert (I : In (length op + length closed)%nat ls) by (apply Hk; exact L). apply LB in I. lia. }
  destruct (events_total_fit (centroid_fit true (f_of_Z 1)) 1 (clusters_of k ls b)) as [evs He].
  { apply Forall_forall. intros c I. unfold clusters_of in I. apply in_map_iff in I.
    destruct I as (l & <- & _). apply centroid_total. apply Forall_forall. intros h Ih.
    rewrite Forall_forall in F. apply F. eapply members_sub. exact Ih. }
  exists o', evs. split; [exact E|]. split; [exact M'|]. split.
  - unfold lib_get_events. rewrite El.
    replace (zlen (map Z.of_nat ls) =? zlen b) with true by (unfold zlen; rewrite map_length; lia).
    cbn [negb]. destruct ls as [|l ls]; [destruct b; [congruence|discriminate]|].
    cbn [map]. apply Ev. exact He.
  - exists ls, op, closed. split; [exact C|]. rewrite <- Ek. exact He.
Qed.

Lemma events_unique (fit : list hit -> outcome neutron) min cs e : events fit min cs e -> forall e', events fit min cs e' -> e = e'.
Proof.
  intros H. induction H as [|c cs evs A H IH|c cs e evs A B D H IH|c cs e evs A B D H IH]; intros e' H'.
  - inversion H'. reflexivity.
  - inversion H'; subst; try (exfalso; lia). apply IH. assumption.
  - inversion H'; subst; try (exfalso; lia);
      match goal with K : fit c = Ok ?e2, B : fit c = Ok ?e1 |- _ =>
        tryif constr_eq e1 e2 then fail else
        (assert (e1 = e2) by (apply Ok_inj; rewrite <- B; exact K); subst) end.
    + f_equal. apply IH. assumption.
    + congruence.
  - inversion H'; subst; try (exfalso; lia);
      match goal with K : fit c = Ok ?e2, B : fit c = Ok ?e1 |- _ =>
        tryif constr_eq e1 e2 then fail else
        (assert (e1 = e2) by (apply Ok_inj; rewrite <- B; exact K); subst) end.
    + congruence.
    + apply IH. assumption.
Qed.
Lemma hits_events_unique b e e' : hits_events b e -> hits_events b e' -> e = e'.
Proof.
  intros (ls & op & cls & C & H) (ls' & op' & cls' & C' & H').
  destruct (clusters_unique _ _ _ _ _ _ C _ _ _ C') as (-> & -> & ->). eapply events_unique; eassumption.
Qed.
Lemma file_hits_read m hs : bytes_ok m -> file_hits m hs <-> read_raw (Some m) = Ok hs.
Proof.
  intros Hb. split.
  - intros (xs & F & ->). apply read_raw_framed; assumption.
  - intros E. destruct (raw_loop_defined (length m) m (RawSt ts0 (Alt 0 0) []) Hb) as [[xs Hx]|Hx]; [lia| |].
    + exists xs. split; [exact Hx|]. rewrite (read_raw_framed m xs Hb Hx) in E. apply Ok_inj in E. auto.
    + unfold read_raw in E. rewrite Hx in E. discriminate E.
Qed.
Lemma file_events_unique m e e' : bytes_ok m -> file_events m e -> file_events m e' -> e = e'.
Proof.
  intros Hb (hs & H & E) (hs' & H' & E'). apply (file_hits_read m hs Hb) in H. apply (file_hits_read m hs' Hb) in H'.
  rewrite H in H'. apply Ok_inj in H'. subst hs'. eapply hits_events_unique; eassumption.
Qed.

(** * Reading *)

Definition ready (g : gui) : Prop := u_busy g = false /\ o_method (u_abs g) = MCentroid.

Lemma C70_read_l ext rot g m hs : ready g -> bytes_ok m -> file_hits m hs -> hs <> [] -> early hs ->
  exists g' evs cs, gui_read ext rot g (Chosen (Some m)) = Ok g' /\ ready g' /\ hits_events hs evs /\
    u_events g' = evs /\ u_hits g' = i32 (zlen hs) /\ u_count g' = Some (i32 (zlen evs)) /\
    Forall2 (falls_in rot) evs cs /\ u_image g' = u_image g ++ flat_map cell cs.
Proof.
  intros (B & M) Hb H N E. pose proof (file_hits_sound m hs Hb H E) as S. apply (file_hits_read m hs Hb) in H.
  destruct (hits_events_total ext (u_abs g) hs N S M) as (o' & evs & E1 & M' & E2 & HE).
  destruct (entries_spec rot evs) as (cs & F & E3).
  unfold gui_read. rewrite B, H. cbn [obind]. rewrite E1. cbn [obind]. rewrite E2. cbn [obind]. rewrite E3. cbn [obind].
  eexists _, evs, cs. split; [reflexivity|]. split; [split; [reflexivity|exact M']|]. split; [exact HE|].
  split; [reflexivity|]. split; [reflexivity|]. split; [reflexivity|]. split; [exact F|reflexivity].
Qed.
Lemma C70_no_hits_l ext rot g m : ready g -> bytes_ok m -> file_hits m [] ->
  gui_read ext rot g (Chosen (Some m)) = UB NullDeref.
Proof.
  intros (B & M) Hb H. apply (file_hits_read m [] Hb) in H. unfold gui_read. rewrite B, H. cbn [obind].
  destruct (lib_fit gui_cfg (u_abs g) []) as [o'| | |] eqn:E; try (vm_compute in E; discriminate E).
  cbn [obind]. unfold lib_get_events. assert (L : o_labels o' = []).
  { assert (F : Forall hit_ok []) by constructor.
    destruct (C23_l 4 gui_cfg (5 * 2 ^ 20) (u_abs g) [] ltac:(lia) F five_is ltac:(cbn; lia))
      as (o2 & ls & op & closed & E2 & El & C & _).
    unfold lib_fit in E. rewrite E in E2. apply Ok_inj in E2. subst o2. apply clusters_length in C.
    destruct ls; [exact El|discriminate C]. }
  rewrite L. reflexivity.
Qed.
Lemma C70_cut_l ext rot g m : ready g -> bytes_ok m -> (forall hs, ~ file_hits m hs) ->
  gui_read ext rot g (Chosen (Some m)) = UB OutOfBounds.
Proof.
  intros (B & M) Hb H. unfold gui_read. rewrite B. rewrite (read_raw_unframed m Hb); [reflexivity|].
  intros xs F. refine (H (alt_hits (Alt 0 0) (S_Lib.pixels xs)) _). exists xs. split; [exact F|reflexivity].
Qed.
Lemma C70_unopened_l ext rot g : ready g -> gui_read ext rot g (Chosen None) = Throw RuntimeError.
Proof. intros (B & M). unfold gui_read. rewrite B. reflexivity. Qed.

(** * Sessions *)

Definition showing (rot : rotation) (g : gui) (ms : list (list Z)) (evss : list (list neutron)) : Prop :=
  ready g /\ Forall2 file_events ms evss /\ u_events g = last evss [] /\
  exists cs, Forall2 (falls_in rot) (concat evss) cs /\ u_image g = flat_map cell cs.

Lemma last_snoc {A} (l : list A) x d : last (l ++ [x]) d = x.
Proof. induction l as [|y l IH]; [reflexivity|]. cbn [app last]. destruct (l ++ [x]) eqn:E; [destruct l; discriminate E|exact IH]. Qed.
Lemma concat_snoc {A} (l : list (list A)) x : concat (l ++ [x]) = concat l ++ x.
Proof. rewrite concat_app. cbn. rewrite app_nil_r. reflexivity. Qed.

Lemma showing_step ext rot g d a g' d' ms evss : showing rot g ms evss ->
  a <> ARead Cancelled -> Forall usual_file (picked [a]) -> gui_step ext rot (g, d) a = Ok (g', d') ->
  exists ms' evss', picked [a] = map Some ms' /\ showing rot g' (ms ++ ms') (evss ++ evss').
Proof.
  intros (R & F & L & cs & FC & EI) NC U E. destruct a as [c|s| |]; cbn [gui_step] in E.
  - destruct c as [|f]; [congruence|]. destruct f as [m|].
    2:{ rewrite C70_unopened_l in E by exact R. discriminate E. }
    cbn [picked flat_map app] in U. apply Forall_cons_iff in U. destruct U as [[Hb He] _].
    destruct (raw_loop_defined (length m) m (RawSt ts0 (Alt 0 0) []) Hb) as [[xs Hx]|Hx]; [lia| |].
    2:{ exfalso. rewrite (C70_cut_l ext rot g m R Hb) in E; [discriminate E|]. intros hs H.
        apply (file_hits_read m hs Hb) in H. unfold read_raw in H. rewrite Hx in H. discriminate H. }
    set (hs := alt_hits (Alt 0 0) (S_Lib.pixels xs)). assert (H : file_hits m hs) by (exists xs; auto).
    destruct (list_eq_dec Z.eq_dec (map (fun _ => 0) hs) []) as [Z|N].
    { assert (Z' : hs = []) by (clearbody hs; destruct hs; [reflexivity|discriminate Z]). exfalso.
      rewrite Z' in H. rewrite (C70_no_hits_l ext rot g m R Hb H) in E. discriminate E. }
    assert (N' : hs <> []) by (clearbody hs; destruct hs; [cbn in N; congruence|discriminate]).
    destruct (C70_read_l ext rot g m hs R Hb H N' (He hs H)) as (g1 & evs & cs1 & E1 & R1 & HE & Ev & _ & _ & FC1 & EI1).
    rewrite E1 in E. cbn [obind] in E. apply Ok_inj in E. injection E as -> <-.
    exists [m], [evs]. split; [reflexivity|]. split; [exact R1|]. split.
    + apply Forall2_app; [exact F|]. constructor; [|constructor]. exists hs. auto.
    + split; [rewrite last_snoc; exact Ev|]. exists (cs ++ cs1). rewrite concat_snoc. split; [apply Forall2_app; assumption|].
      rewrite flat_map_app, <- EI. exact EI1.
  - exists [], []. rewrite !app_nil_r. split; [reflexivity|].
    destruct (gui_save g d s) as [r d1]. destruct r; cbn [obind] in E; try discriminate E. apply Ok_inj in E.
    injection E as -> <-. split; [exact R|]. split; [exact F|]. split; [exact L|]. exists cs. auto.
  - exists [], []. rewrite !app_nil_r. split; [reflexivity|]. apply Ok_inj in E. injection E as -> <-.
    split; [exact R|]. split; [exact F|]. split; [exact L|]. exists cs. auto.
  - exists [], []. rewrite !app_nil_r. split; [reflexivity|]. unfold gui_tick in E. destruct R as [R1 R2]. rewrite R1 in E.
    cbn [obind] in E. apply Ok_inj in E. injection E as -> <-. split; [split; assumption|]. split; [exact F|]. split; [exact L|].
    exists cs. auto.
Qed.

Lemma showing_run ext rot acts : forall g d g' d' ms evss, showing rot g ms evss ->
  ~ In (ARead Cancelled) acts -> Forall usual_file (picked acts) -> gui_run ext rot (g, d) acts = Ok (g', d') ->
  exists ms' evss', picked acts = map Some ms' /\ showing rot g' (ms ++ ms') (evss ++ evss').
Proof.
  unfold gui_run. induction acts as [|a acts IH]; intros g d g' d' ms evss S NC U E.
  - cbn [ofold] in E. apply Ok_inj in E. injection E as -> <-. exists [], []. rewrite !app_nil_r. auto.
  - cbn [ofold] in E. destruct (gui_step ext rot (g, d) a) as [[g1 d1]| | |] eqn:E1; cbn [obind] in E; try discriminate E.
    change (a :: acts) with ([a] ++ acts) in *. unfold picked in *. rewrite flat_map_app in *. apply Forall_app in U. destruct U as [U1 U2].
    destruct (showing_step ext rot g d a g1 d1 ms evss S) as (m1 & e1 & C1 & S1);
      [intros ->; apply NC; left; reflexivity|exact U1|exact E1|].
    destruct (IH g1 d1 g' d' _ _ S1) as (m2 & e2 & C2 & S2); [intros I; apply NC; right; exact I|exact U2|exact E|].
    exists (m1 ++ m2), (e1 ++ e2). unfold picked in C1, C2. rewrite C1, C2, map_app. split; [reflexivity|].
    rewrite !app_assoc. exact S2.
Qed.
Lemma showing_new rot : showing rot gui_new [] [].
Proof.
  split; [split; reflexivity|]. split; [constructor|]. split; [reflexivity|]. exists []. split; [constructor|reflexivity].
Qed.

Lemma C70_session_l ext rot d acts g' d' : ~ In (ARead Cancelled) acts -> Forall usual_file (picked acts) ->
  gui_run ext rot (gui_new, d) acts = Ok (g', d') ->
  exists ms evss, picked acts = map Some ms /\ Forall2 file_events ms evss /\ u_events g' = last evss [] /\ u_busy g' = false /\
    forall i j, 0 <= i < 512 -> 0 <= j < 512 -> tally rot (concat evss) i j (times (512 * i + j) (u_image g')).
Proof.
  intros NC U E. destruct (showing_run ext rot acts _ _ _ _ _ _ (showing_new rot) NC U E) as (ms & evss & C & S). cbn [app] in S.
  destruct S as ((B & _) & F & L & cs & FC & EI). exists ms, evss. split; [exact C|]. split; [exact F|]. split; [exact L|]. split; [exact B|].
  intros i j Hi Hj. exists cs. split; [exact FC|]. rewrite EI. apply (times_cells rot (concat evss)); assumption.
Qed.
Lemma tally_unique rot es i j n n' : tally rot es i j n -> tally rot es i j n' -> n = n'.
Proof.
  intros (cs & F & ->) (cs' & F' & ->). f_equal. f_equal. revert cs' F'. induction F as [|e c es cs H F IH]; intros cs' F'.
  - inversion F'. reflexivity.
  - inversion F' as [|? c' ? cs2 H2 F2]; subst. rewrite (falls_unique _ _ _ _ H H2). f_equal. apply IH. exact F2.
Qed.

(** Every pixel incremented belongs to the image, so the image is the tallies. *)
Lemma cells_range rot es cs : Forall2 (falls_in rot) es cs -> Forall (fun k => 0 <= k < 512 * 512) (flat_map cell cs).
Proof.
  induction 1 as [|e c es cs H F IH]; [constructor|]. cbn [flat_map]. apply Forall_app. split; [|exact IH].
  destruct c as [[i j]|]; [|constructor]. destruct H as (_ & _ & Ri & Rj). constructor; [lia|constructor].
Qed.
Lemma cells_total rot es cs : Forall2 (falls_in rot) es cs -> zlen (flat_map cell cs) <= zlen es.
Proof.
  induction 1 as [|e c es cs H F IH]; [reflexivity|]. cbn [flat_map]. rewrite zlen_cat, zlen_cons.
  assert (zlen (cell c) <= 1) by (destruct c as [[i j]|]; unfold zlen; cbn; lia). lia.
Qed.
Lemma C70_inside_l ext rot d acts g' d' : ~ In (ARead Cancelled) acts -> Forall usual_file (picked acts) ->
  gui_run ext rot (gui_new, d) acts = Ok (g', d') ->
  Forall (fun k => 0 <= k < 512 * 512) (u_image g') /\
  exists ms evss, picked acts = map Some ms /\ Forall2 file_events ms evss /\ zlen (u_image g') <= zlen (concat evss).
Proof.
  intros NC U E. destruct (showing_run ext rot acts _ _ _ _ _ _ (showing_new rot) NC U E) as (ms & evss & C & S). cbn [app] in S.
  destruct S as (_ & F & _ & cs & FC & EI). rewrite EI. split; [eapply cells_range; exact FC|].
  exists ms, evss. split; [exact C|]. split; [exact F|]. eapply cells_total. exact FC.
Qed.

(** No hit is lost. *)
Lemma C70_complete_l m hs evs : bytes_ok m -> file_hits m hs -> hs <> [] -> early hs -> hits_events hs evs ->
  Forall (fun h => 0 < h_tot h) hs -> zlen hs <= 2 ^ 21 -> total_hits evs = zlen hs.
Proof.
  intros Hb H N E HE T L. pose proof (file_hits_sound m hs Hb H E) as S. pose proof (file_hits_sensor m hs Hb H) as Q.
  set (ext := Ext (fun x => x) (fun _ _ => (f_of_Z 0, f_of_Z 0))).
  destruct (hits_events_total ext abs_new hs N S eq_refl) as (o' & evs' & E1 & M' & E2 & HE').
  rewrite (hits_events_unique _ _ _ HE HE'). clear evs HE. unfold lib_get_events in E2.
  destruct (negb _); [discriminate E2|]. destruct (o_labels o') eqn:El; [discriminate E2|].
  eapply (C24_centroid_l 4 ext gui_cfg abs_new hs o'); [lia| | |exact L|cbn; lia|exact E1|].
  - eapply Forall_impl; [|exact S]. intros h Hh. apply Hh.
  - rewrite Forall_forall in *. intros h I. split; [apply (Q h I)|apply T; exact I].
  - rewrite <- E2. f_equal. destruct o' as [m1 l1 i1]. cbn in *. subst. reflexivity.
Qed.

(** * A cancelled dialog *)

Lemma busy_step ext rot g d a : u_busy g = true ->
  gui_step ext rot (g, d) a = Ok (g, d) \/ (a = ATick /\ u_count g = None /\ gui_step ext rot (g, d) a = UB Uninitialised).
Proof.
  intros B. destruct a as [c|s| |]; cbn [gui_step].
  - left. unfold gui_read. rewrite B. reflexivity.
  - left. unfold gui_save. rewrite B. reflexivity.
  - left. reflexivity.
  - unfold gui_tick. rewrite B. destruct (u_count g); [left; reflexivity|right; auto].
Qed.
Lemma C71_stuck_l ext rot g d acts : u_busy g = true ->
  (gui_run ext rot (g, d) acts = Ok (g, d) /\ (u_count g <> None \/ ~ In ATick acts)) \/
  (gui_run ext rot (g, d) acts = UB Uninitialised /\ u_count g = None /\ In ATick acts).
Proof.
  intros B. unfold gui_run. induction acts as [|a acts IH]; [left; split; [reflexivity|right; intros []]|]. cbn [ofold].
  destruct (busy_step ext rot g d a B) as [E|(-> & N & E)]; rewrite E; cbn [obind].
  - destruct IH as [(E1 & H)|(E1 & H1 & H2)].
    + left. split; [exact E1|]. destruct H as [H|H]; [left; exact H|].
      destruct a as [c|s| |].
      * right. intros [I|I]; [discriminate I|auto].
      * right. intros [I|I]; [discriminate I|auto].
      * right. intros [I|I]; [discriminate I|auto].
      * left. intros N. cbn [gui_step] in E. unfold gui_tick in E. rewrite B, N in E. discriminate E.
    + right. split; [exact E1|]. split; [exact H1|]. right. exact H2.
  - right. split; [reflexivity|]. split; [exact N|]. left. reflexivity.
Qed.
Lemma run_app ext rot s a b : gui_run ext rot s (a ++ b) = let! s1 := gui_run ext rot s a in gui_run ext rot s1 b.
Proof. unfold gui_run. apply ofold_app. Qed.
Lemma step_busy ext rot g d a g' d' : u_busy g = false -> gui_step ext rot (g, d) a = Ok (g', d') ->
  (u_busy g' = true <-> a = ARead Cancelled).
Proof.
  intros B E. destruct a as [c|s| |]; cbn [gui_step] in E.
  - unfold gui_read in E. rewrite B in E. destruct c as [|f].
    + cbn [obind] in E. apply Ok_inj in E. injection E as <- <-. cbn. split; reflexivity.
    + destruct (read_raw f); cbn [obind] in E; try discriminate E.
      destruct (lib_fit _ _ _); cbn [obind] in E; try discriminate E.
      destruct (lib_get_events _ _ _ _); cbn [obind] in E; try discriminate E.
      destruct (gui_entries _ _); cbn [obind] in E; try discriminate E.
      apply Ok_inj in E. injection E as <- <-. cbn. split; discriminate.
  - destruct (gui_save g d s) as [r d1]. destruct r; cbn [obind] in E; try discriminate E. apply Ok_inj in E.
    injection E as <- <-. rewrite B. split; discriminate.
  - apply Ok_inj in E. injection E as <- <-. rewrite B. split; discriminate.
  - unfold gui_tick in E. rewrite B in E. cbn [obind] in E. apply Ok_inj in E. injection E as <- <-. rewrite B. split; discriminate.
Qed.
Lemma C71_when_l ext rot acts : forall g d g' d', u_busy g = false -> gui_run ext rot (g, d) acts = Ok (g', d') ->
  (u_busy g' = true <-> In (ARead Cancelled) acts).
Proof.
  induction acts as [|a acts IH]; intros g d g' d' B E.
  - cbn in E. apply Ok_inj in E. injection E as <- <-. rewrite B. split; [discriminate|intros []].
  - change (a :: acts) with ([a] ++ acts) in *. rewrite run_app in E.
    destruct (gui_run ext rot (g, d) [a]) as [[g1 d1]| | |] eqn:E1; cbn [obind] in E; try discriminate E.
    unfold gui_run in E1. cbn [ofold] in E1. destruct (gui_step ext rot (g, d) a) as [[g2 d2]| | |] eqn:E2; cbn [obind] in E1; try discriminate E1.
    apply Ok_inj in E1. injection E1 as -> ->. pose proof (step_busy _ _ _ _ _ _ _ B E2) as W.
    destruct (u_busy g1) eqn:B1.
    + destruct (C71_stuck_l ext rot g1 d1 acts B1) as [(E3 & _)|(E3 & _)]; rewrite E3 in E; [|discriminate E].
      apply Ok_inj in E. injection E as <- <-. rewrite B1. split; [intros _; left; apply W; reflexivity|reflexivity].
    + rewrite (IH _ _ _ _ B1 E). split; [intros I; right; exact I|]. intros [I|I]; [|exact I].
      subst a. destruct W as [_ W]. specialize (W eq_refl). discriminate W.
Qed.
Lemma C71_first_l ext rot d acts : gui_run ext rot (gui_new, d) (ARead Cancelled :: acts ++ [ATick]) = UB Uninitialised.
Proof.
  change (ARead Cancelled :: acts ++ [ATick]) with ([ARead Cancelled] ++ (acts ++ [ATick])). rewrite run_app.
  assert (E : gui_run ext rot (gui_new, d) [ARead Cancelled] = Ok (Gui true [] 0 None [] (u_abs gui_new), d)) by reflexivity.
  rewrite E. cbn [obind]. set (g := Gui true [] 0 None [] (u_abs gui_new)).
  destruct (C71_stuck_l ext rot g d (acts ++ [ATick]) eq_refl) as [(E1 & [H|H])|(E1 & _)]; [|exfalso|exact E1].
  - exfalso. apply H. reflexivity.
  - apply H. apply in_or_app. right. left. reflexivity.
Qed.

(** * Saving *)

Lemma C71_image_l g d name r d' h lib : ready g -> gui_save g d (Saving (Some (name, true)) h lib) = (r, d') ->
  exists f, k_images d' name = Some f /\
    (forall i j, 0 <= i < 512 -> 0 <= j < 512 -> f (512 * j + i) = Some (times (512 * i + j) (u_image g))) /\
    (forall k, k < 0 \/ 512 * 512 <= k -> f k = None) /\
    (forall n, n <> name -> k_images d' n = k_images d n) /\
    (h = None -> r = Ok tt /\ k_h5 d' = k_h5 d).
Proof.
  intros (B & _). unfold gui_save. rewrite B. cbn [v_image v_h5 v_lib].
  set (dd := GDisk (fun n => if String.eqb n name then Some (gui_image g) else k_images d n) (k_h5 d)).
  intros E. assert (K : k_images d' = k_images dd /\ (h = None -> r = Ok tt /\ k_h5 d' = k_h5 d)).
  { destruct h as [nm|].
    - destruct (lib_save_events lib (k_h5 dd) nm (u_events g)) as [r1 h1]. injection E as <- <-. split; [reflexivity|discriminate].
    - injection E as <- <-. auto. }
  destruct K as [K KH]. exists (gui_image g). rewrite K. cbn [dd k_images]. rewrite String.eqb_refl. split; [reflexivity|]. split; [|split; [|split]].
  - intros i j Hi Hj. unfold gui_image. replace ((0 <=? 512 * j + i) && (512 * j + i <? 512 * 512)) with true by lia.
    f_equal. f_equal. rewrite <- (Z.div_unique (512 * j + i) 512 j i), <- (Z.mod_unique (512 * j + i) 512 j i) by lia. reflexivity.
  - intros k Hk. unfold gui_image. replace ((0 <=? k) && (k <? 512 * 512)) with false by lia. reflexivity.
  - intros n Hn. apply String.eqb_neq in Hn. rewrite Hn. reflexivity.
  - exact KH.
Qed.
Lemma C71_events_l g d name img : ready g -> u_events g <> [] -> (forall n, img <> Some (n, false)) ->
  exists d' f gr, gui_save g d (Saving img (Some name) lib_works) = (Ok tt, d') /\ k_h5 d' name = Some f /\
    only_group f "events" ["x"; "y"; "tof_ns"; "NHits"; "tot"]%string gr /\
    In ("NHits"%string, Ints (map n_hits (u_events g))) gr /\
    (forall nm fld, event_doubles nm fld -> In (nm, Doubles (map fld (u_events g))) gr).
Proof.
  intros (B & _) N I. unfold gui_save. rewrite B. cbn [v_image v_h5 v_lib].
  assert (X : exists dd, match img with
              | Some (name0, true) => (Ok tt, GDisk (fun n => if String.eqb n name0 then Some (gui_image g) else k_images d n) (k_h5 d))
              | Some (name0, false) => (UB NullDeref, d) | None => (Ok tt, d) end = (Ok tt, dd) /\ k_h5 dd = k_h5 d).
  { destruct img as [[n []]|]; [eexists; split; reflexivity|elim (I n); reflexivity|eexists; split; reflexivity]. }
  destruct X as (dd & -> & K). destruct (C72_events_l (k_h5 dd) name (u_events g) N) as (h' & f & gr & E & _ & Hf & G & A1 & A2).
  rewrite E. exists (GDisk (k_images dd) h'), f, gr. split; [reflexivity|]. split; [exact Hf|]. auto.
Qed.
Lemma C71_no_events_l g d name img lib : ready g -> u_events g = [] -> (forall n, img <> Some (n, false)) ->
  exists d', gui_save g d (Saving img (Some name) lib) = (Throw RuntimeError, d') /\ k_h5 d' = k_h5 d.
Proof.
  intros (B & _) N I. unfold gui_save. rewrite B. cbn [v_image v_h5 v_lib]. rewrite N.
  destruct img as [[n []]|]; [eexists; split; reflexivity|elim (I n); reflexivity|eexists; split; reflexivity].
Qed.
Lemma C71_no_image_l g d name h lib : ready g -> gui_save g d (Saving (Some (name, false)) h lib) = (UB NullDeref, d).
Proof. intros (B & _). unfold gui_save. rewrite B. reflexivity. Qed.

(** * Witnesses *)

(** The doubles nearest to the cosine and sine of -1 degree. *)
Definition turn_back : rotation := Rot (f_lit 0x1ffec097f5af8a (2 ^ 53)) (f_lit (-0x11df0b2b89dd1e) (2 ^ 58)).
Definition one_pixel (x y : Z) : list Z := stream [DS 51 0 0 [pixel_packet (PF 11 x y 5234 77 5 0)]].

Lemma one_pixel_ok x y : bytes_ok (one_pixel x y).
Proof.
  apply stream_ok. constructor; [|constructor]. split; [unfold is_byte; cbn; lia|]. split; [unfold is_byte; cbn; lia|].
  split; [unfold is_byte; cbn; lia|]. split; [|vm_compute; congruence]. constructor; [apply pixel_packet_ok|constructor].
Qed.
Definition no_disk : gdisk := GDisk (fun _ => None) (fun _ => None).
Definition no_ext : externals := Ext (fun v => v) (fun _ _ => (f_of_Z 0, f_of_Z 0)).

Lemma run_project {A} (r : outcome (gui * gdisk)) (p : gui -> A) (a : A) :
  (let! s := r in Ok (p (fst s))) = Ok a -> exists g d, r = Ok (g, d) /\ p g = a.
Proof.
  destruct r as [[g d]| | |]; cbn [obind]; intros E; try discriminate E. exists g, d. split; [reflexivity|].
  apply Ok_inj in E. exact E.
Qed.

(** Reading the same file twice shows every event twice. *)
Lemma C70_last_only_refuted_l : exists m acts g d, bytes_ok m /\ acts = [ARead (Chosen (Some m)); ARead (Chosen (Some m))] /\
  gui_run no_ext turn_back (gui_new, no_disk) acts = Ok (g, d) /\ zlen (u_events g) = 1 /\ times (512 * 363 + 193) (u_image g) = 2.
Proof.
  exists (one_pixel 100 200), [ARead (Chosen (Some (one_pixel 100 200))); ARead (Chosen (Some (one_pixel 100 200)))].
  destruct (run_project (gui_run no_ext turn_back (gui_new, no_disk)
    [ARead (Chosen (Some (one_pixel 100 200))); ARead (Chosen (Some (one_pixel 100 200)))])
    (fun g => (zlen (u_events g), times (512 * 363 + 193) (u_image g))) (1, 2)) as (g & d & E & P).
  { vm_compute. reflexivity. }
  injection P as P1 P2. exists g, d. split; [apply one_pixel_ok|]. split; [reflexivity|]. auto.
Qed.

(** An event of the detector that is not shown. *)
Lemma C70_all_visible_refuted_l : exists m g d, bytes_ok m /\
  gui_run no_ext turn_back (gui_new, no_disk) [ARead (Chosen (Some m))] = Ok (g, d) /\ zlen (u_events g) = 1 /\ u_image g = [].
Proof.
  exists (one_pixel 255 0).
  destruct (run_project (gui_run no_ext turn_back (gui_new, no_disk) [ARead (Chosen (Some (one_pixel 255 0)))])
    (fun g => (zlen (u_events g), u_image g)) (1, [])) as (g & d & E & P).
  { vm_compute. reflexivity. }
  injection P as P1 P2. exists g, d. split; [apply one_pixel_ok|]. auto.
Qed.
