(** Proofs about the true events and hits in the images of the auto reducer (C95). *)
From Coq Require Import Reals String Permutation.
From Flocq Require Import Core.
From Verif Require Import P_Measure P_Events P_EventsProgram P_CliRun P_Tof P_Main P_Images P_VenusMain P_Bins P_Load P_Program.
From Verif Require Export S_Reduce.
From Coq Require Import Lia ZifyBool.
Local Open Scope Z_scope.

(** * Hits that do not depend on what was before the file *)
Definition sane (s : ts) : Prop := 0 <= ts_timer s < 2 ^ 32.
Definition learnt (k : clock) (s : ts) : Prop :=
  sane s /\
  match k_ref k with None => True | Some g => ts_gdc s = g /\ 0 < g < 2 ^ 48 - 2 ^ 32 end /\
  match k_announced k with None => True | Some G => ts_timer s = G mod 2 ^ 32 /\ 0 < G < 2 ^ 48 - 2 ^ 32 end /\
  match k_pulse k with None => True | Some T => ts_tdc s <> 0 /\ (ts_tdc s - T) mod 2 ^ 32 = 0 end.

Lemma fresh_yields chip k ps hs k' : recorded around false chip k ps hs k' ->
  Forall packet_ok ps -> forall s, learnt k s ->
  yields GDC_mode chip s ps hs /\ learnt k' (fold_left (fun s p => next_ts GDC_mode p s) ps s).
Proof.
  intros R. induction R as [k|g a P G p ps hs k E HG El R IH|g G P p ps hs k E Em R IH
    |g a P T p ps hs k E Ec A R IH|a P T p ps hs k C E Ec N R IH
    |g a T H f p ps hs k Hf Ht -> Es H0 A HT R IH|g a P p ps hs k C N K R IH|k p ps hs k' K R IH];
    intros O s (Ib & Ir & Ia & Ip); cbn [k_ref k_announced k_pulse] in *; try discriminate C;
    [split; [constructor|exact (conj Ib (conj Ir (conj Ia Ip)))]|..];
    apply Forall_cons_iff in O; destruct O as [Op O]; cbn [fold_left]; unfold sane in Ib.
  - pose proof (next_low GDC_mode p s Op E Ib) as En. cbn iota in En.
    destruct (IH O (next_ts GDC_mode p s)) as [Y F].
    { rewrite En. unfold learnt, sane. cbn [k_ref k_announced k_pulse ts_tdc ts_gdc ts_timer].
      pose proof (lsb_range p). repeat split; try assumption; try lia; tauto. }
    split; [|exact F]. apply y_time; [rewrite (kind_low p E); discriminate|exact Y].
  - destruct Ia as [Ea Ga].
    assert (X : msb_value p * 2 ^ 32 + ts_timer s = G).
    { rewrite Em, Ea. pose proof (Z.div_mod G (2 ^ 32) ltac:(lia)). lia. }
    pose proof (next_high GDC_mode p s Op E Ib ltac:(lia)) as En. cbn iota in En. rewrite X in En.
    destruct (IH O (next_ts GDC_mode p s)) as [Y F].
    { rewrite En. unfold learnt, sane. cbn [k_ref k_announced k_pulse ts_tdc ts_gdc ts_timer].
      repeat split; try assumption; try lia; tauto. }
    split; [|exact F]. apply y_time; [rewrite (kind_high p E); discriminate|exact Y].
  - destruct Ir as [Er Gr].
    destruct (next_pulse_gdc p s E ltac:(lia)) as (En & M & N & _).
    destruct (IH O (next_ts GDC_mode p s)) as [Y F].
    { rewrite En. unfold learnt, sane. cbn [k_ref k_announced k_pulse ts_tdc ts_gdc ts_timer].
      assert (update_tdc_gdc p (ts_gdc s) <> 0) by (apply N; left; lia).
      assert ((update_tdc_gdc p (ts_gdc s) - T) mod 2 ^ 32 = 0).
      { rewrite Ec in M. clear - M. rewrite Zminus_mod_idemp_r in M. exact M. }
      tauto. }
    split; [|exact F]. apply y_time; [rewrite (kind_pulse p E); discriminate|exact Y].
  - assert (K : kind_of (pixel_packet f) = KPixel) by (apply kind_pixel; assumption).
    rewrite (pixel_next _ _ _ K).
    destruct (IH O s) as [Y F]; [exact (conj Ib (conj Ir (conj Ia Ip)))|].
    destruct Ir as [Er Gr]. destruct Ip as [Np Ep].
    split; [|exact F]. apply y_hit; [exact K|split; [exact Np|lia]| |exact Y].
    unfold makes_hit. rewrite Er. apply gdc_true; assumption.
  - pose proof (next_other GDC_mode p s Op Ib K) as En. rewrite En.
    destruct (IH O s) as [Y F]; [exact (conj Ib (conj Ir (conj Ia Ip)))|].
    split; [|exact F]. apply y_time; [destruct K as [->|(-> & _)]; discriminate|]. rewrite En. exact Y.
Qed.
Lemma fresh_processed k ds hss k' : recording around false k ds hss k' -> Forall dataset_ok ds ->
  forall s, learnt k s -> exists s', processed GDC_mode s ds hss s' /\ sane s'.
Proof.
  intros R. induction R as [k|k d ds chip hs hss k1 k2 C P R IH]; intros O s I.
  - exists s. split; [constructor|apply I].
  - apply Forall_cons_iff in O. destruct O as [Od O].
    destruct (fresh_yields _ _ _ _ _ P (proj1 (proj2 (proj2 (proj2 Od)))) s I) as [Y F].
    destruct (IH O _ F) as (s' & Q & I'). exists s'. split; [econstructor; eassumption|exact I'].
Qed.
Lemma learnt_nothing s : sane s -> learnt nothing_known s.
Proof. intros H. split; [exact H|]. cbn. auto. Qed.

(** * One file *)
(** The entries that the file is to be counted with. *)
Definition entered (su : setup) (hss : list (list hit)) (en : list entry) : Prop :=
  exists l, all_events (su_ext su) (g_abs (su_cfg su)) hss = Ok l /\
    en = if su_hit su then map entry_of_hit (concat (map fst l)) else map entry_of_neutron (concat (map snd l)).

Lemma entries_pairs hm r : flat_map (entries hm) r = flat_map (entries hm) (map mk (map pair_of r)).
Proof. induction r as [|b r IH]; [reflexivity|]. cbn [map flat_map]. rewrite IH. destruct hm; reflexivity. Qed.
Lemma hits_pairs r : flat_map t_hits r = concat (map fst (map pair_of r)).
Proof. induction r as [|b r IH]; [reflexivity|]. cbn [map flat_map concat]. rewrite IH. reflexivity. Qed.
Lemma neutrons_pairs r : flat_map t_neutrons r = concat (map snd (map pair_of r)).
Proof. induction r as [|b r IH]; [reflexivity|]. cbn [map flat_map concat]. rewrite IH. reflexivity. Qed.

Lemma fresh_fine ds hss k : Forall dataset_ok ds -> recording around false nothing_known ds hss k ->
  Forall (fun hs => zlen hs <= 2 ^ 21 /\ Forall fine hs) hss.
Proof.
  intros O R. apply (recording_fine ds hss k O). eapply recording_mono; [| |exact R]; [auto|discriminate].
Qed.

Lemma raw_images su e hss : raw_of hss e ->
  edges_ok (g_edges (su_cfg su)) -> g_sr (su_cfg su) = f_of_Z 1 -> forall s, sane s ->
  exists m ims s' en, d_content e = Some m /\ file_images su m s ims s' /\ sane s' /\
    shape (length (g_edges (su_cfg su)) - 1) 517 ims /\ entered su hss en /\
    forall i x y v, pixel ims i x y = Some v -> exists c,
      counted (fun e => lands (f_of_Z 1) (g_edges (su_cfg su)) e i x y) en c /\ v = c mod 2 ^ 32.
Proof.
  intros (ds & k & Ec & Nd & Ho & Hn & R) Oe Hsr s Hs.
  pose proof Oe as (He & _).
  assert (Hb : bytes_ok (stream ds)) by (apply stream_ok; exact Ho).
  destruct (fresh_processed _ _ _ _ R Ho s (learnt_nothing s Hs)) as (s' & Q & S').
  pose proof (pass_processed GDC_mode ds Ho s) as P0.
  destruct (processed_unique _ _ _ _ _ _ _ Q P0) as [E1 E2].
  pose proof (located_all (su_ext su) (su_cfg su) GDC_mode (stream ds) (find_headers (stream ds)) Hb (find_headers_fresh _) s) as L.
  pose proof (stream_items ds Ho Hn) as It. unfold chunk_items in It. rewrite It in L.
  destruct L as (bs & L & PA). rewrite <- E2 in L. rewrite <- E1 in PA.
  destruct (events_all (su_ext su) (g_abs (su_cfg su)) hss (fresh_fine ds hss k Ho R)) as (l & EV & F & G).
  rewrite EV in PA.
  destruct (process_all (su_ext su) (g_abs (su_cfg su)) GDC_mode (stream ds) bs) as [r| | |] eqn:PR; cbn [obind] in PA; try discriminate PA.
  apply Ok_inj in PA.
  assert (Nr : r <> []).
  { intros ->. cbn in PA. subst l. apply all_events_spec in EV. destruct EV as [X _]. cbn [map] in X.
    destruct ds as [|d ds]; [congruence|]. inversion R; subst. congruence. }
  pose proof side_one as Sd.
  destruct (blank_shape (length (g_edges (su_cfg su)) - 1) 517 ltac:(lia)) as (b & Eb & Sb & Zb).
  assert (U : exists ims, update_all (f_of_Z 1) (g_edges (su_cfg su)) (su_hit su) b r = Ok ims).
  { destruct (su_hit su).
    - eapply C28_hits_l; [exact He|exact Sb|]. rewrite hits_pairs, PA. apply Forall_concat. apply Forall_map.
      eapply Forall_impl; [|exact F]. intros p Fp. eapply Forall_impl; [|exact Fp].
      intros h [_ (X & Y & _ & t & Et & _)]. split; [lia|]. split; [lia|]. unfold tof_ns. rewrite Et. discriminate.
    - eapply C28_events_l; [exact Sd|exact He|exact Sb|]. rewrite neutrons_pairs, PA.
      eapply Forall_impl; [|exact G]. intros e' [X Y] v [->| ->] Fv; apply scale_ok; assumption. }
  destruct U as (ims & U).
  destruct (C28_pixels_l (f_of_Z 1) 517 (g_edges (su_cfg su)) (su_hit su) r b ims Oe Sd Sb U) as [Sh Px].
  assert (C : create_images (f_of_Z 1) (g_edges (su_cfg su)) (su_hit su) r = Ok ims).
  { rewrite C29_create_l by assumption. unfold init_images. apply dim_side in Sd. rewrite Sd. cbn [obind].
    destruct (g_edges (su_cfg su)) as [|e0 er] eqn:Ee; [cbn in He; lia|]. rewrite <- Ee in *. rewrite Eb. exact U. }
  exists (stream ds), ims, s', (flat_map (entries (su_hit su)) r). split; [exact Ec|]. split.
  { exists bs, r. rewrite Hsr. auto. }
  split; [exact S'|]. split; [exact Sh|]. split.
  - exists l. split; [exact EV|]. rewrite entries_pairs, PA, entries_map. reflexivity.
  - intros i x y v Ev. 
    assert (W : exists w, pixel b i x y = Some w).
    { destruct (pixel b i x y) as [w|] eqn:Ew; [eauto|]. exfalso.
      assert (D : pixel ims i x y <> None) by congruence. apply (pixel_domain _ _ _ _ _ _ Sh) in D.
      apply (pixel_domain _ _ _ _ _ _ Sb) in D. contradiction. }
    destruct W as (w & Ew). destruct (Px i x y w Ew) as (c & C1 & C2). rewrite (Zb i x y w Ew) in C2.
    exists c. split; [exact C1|]. rewrite Ev in C2. injection C2 as ->. reflexivity.
Qed.

(** * The whole run *)
Lemma counted_app {A} (P : A -> Prop) l1 l2 c1 c2 : counted P l1 c1 -> counted P l2 c2 -> counted P (l1 ++ l2) (c1 + c2).
Proof.
  induction 1 as [|a l c Pa C IH|a l c Pa C IH]; intros H; cbn [app].
  - exact H.
  - replace (c + 1 + c2) with (c + c2 + 1) by lia. constructor; auto.
  - apply counted_no; auto.
Qed.

Lemma nodup_snoc {A} (l : list A) a : NoDup l -> ~ In a l -> NoDup (l ++ [a]).
Proof.
  intros H N. apply NoDup_rev in H. rewrite <- (rev_involutive (l ++ [a])). apply NoDup_rev. rewrite rev_app_distr.
  constructor; [|exact H]. rewrite <- in_rev. exact N.
Qed.
Lemma prior_exists fs p w h x y : saved fs p w h \/ unrelated fs p w h -> 0 <= x < w -> 0 <= y < h ->
  exists u, prior fs p w h x y u.
Proof.
  intros [H|H] Hx Hy; [|exists 0; apply prior_none; exact H].
  pose proof H as (rows & E & L & F). 
  destruct (nth_error rows (Z.to_nat y)) as [b|] eqn:Eb; [|apply nth_error_None in Eb; unfold zlen in L; lia].
  assert (Ib : In b rows) by (eapply nth_error_In; exact Eb). rewrite Forall_forall in F. destruct (F b Ib) as [Lb _].
  assert (Sm : exists u, sample b x = Some u).
  { unfold sample. pose proof (skipn_length (Z.to_nat (4 * x)) b) as Ls. unfold zlen in Lb.
    destruct (skipn (Z.to_nat (4 * x)) b) as [|c1 [|c2 [|c3 [|c4 l]]]]; cbn [length] in Ls; try lia. eauto. }
  destruct Sm as (u & Su). exists u. apply prior_saved; [exact H|]. unfold disk. rewrite E, Eb. exact Su.
Qed.

Section Run.
  Variables (su : setup) (truth : string -> list (list hit)) (fs0 : files).
  Local Notation edges := (g_edges (su_cfg su)).
  Local Notation n := (length edges - 1)%nat.
  Local Notation name := (tiff_name (su_dir su) (su_base su)).
  Hypothesis Oe : edges_ok edges.
  Hypothesis Hsr : g_sr (su_cfg su) = f_of_Z 1.
  Hypothesis Hf : images_fit fs0 (su_dir su) (su_base su) n 517.

  Definition tallied (names : list string) (ens : list (list entry)) : Prop :=
    Forall2 (fun nm en => entered su (truth nm) en) names ens.
  Definition shown (names : list string) (en : list entry) (fs : files) : Prop :=
    (names = [] -> en = [] /\ fs = fs0) /\
    (names <> [] -> forall i, (i < n)%nat -> saved fs (name i) 517 517 /\
      forall x y u, 0 <= x < 517 -> 0 <= y < 517 -> prior fs0 (name i) 517 517 x y u ->
        exists c, counted (fun e => lands (f_of_Z 1) edges e i x y) en c /\
          disk fs (name i) x y = Some ((u + c) mod 2 ^ 32)).
  Definition so_far (st : venus) (names : list string) : Prop :=
    consistent st /\ NoDup names /\ (forall nm, In nm names <-> was_saved (v_log st) nm) /\
    exists ens, tallied names ens /\ shown names (concat ens) (v_files st).

  Lemma so_far_start : so_far (venus_start fs0) [].
  Proof.
    split; [apply start_consistent|]. split; [constructor|]. split.
    - intros nm. split; [intros []|intros (ims & [])].
    - exists []. split; [constructor|]. split; [auto|congruence].
  Qed.

  Lemma shown_save names en fs ims en1 w : shown names en fs -> shape n 517 ims -> good_world n w ->
    (forall i x y v, pixel ims i x y = Some v -> exists c,
      counted (fun e => lands (f_of_Z 1) edges e i x y) en1 c /\ v = c mod 2 ^ 32) ->
    exists fs', save_tiff (w_mkdir w) (w_writable w) (su_dir su) (su_base su) ims edges (w_order w) fs = Ok fs' /\
      forall nm, shown (names ++ [nm]) (en ++ en1) fs'.
  Proof.
    intros [H1 H2] Sh (Wm & Ww & Wo & _) Px. rewrite Wm.
    assert (Pf : forall i, (i < n)%nat -> saved fs (name i) 517 517 \/ unrelated fs (name i) 517 517).
    { intros i Hi. destruct names as [|z names]; [rewrite (proj2 (H1 eq_refl)); auto|].
      left. apply H2; [discriminate|exact Hi]. }
    pose proof Oe as (He & _).
    destruct (C31_save_l (w_writable w) (su_dir su) (su_base su) n 517 517 ims edges (w_order w) fs
                ltac:(lia) ltac:(lia) Sh ltac:(lia) Wo Ww Pf) as (fs2 & E2 & S2 & D2 & _ & _).
    exists fs2. split; [exact E2|]. intros nm. split; [intros X; destruct names; discriminate X|].
    intros _ i Hi. split; [apply S2; exact Hi|]. intros x y u Hx Hy P.
    destruct (stack_pixel n 517 517 ims i x y Sh Hi Hx Hy) as (v & Ev).
    destruct (Px i x y v Ev) as (c2 & C2 & ->).
    destruct names as [|z names].
    - destruct (H1 eq_refl) as [-> ->]. exists c2. split; [exact C2|]. rewrite (D2 i x y _ u Ev P).
      rewrite Zplus_mod_idemp_r. reflexivity.
    - destruct (H2 ltac:(discriminate) i Hi) as [Sv Dv]. destruct (Dv x y u Hx Hy P) as (c1 & C1 & D1).
      exists (c1 + c2). split; [apply counted_app; assumption|].
      rewrite (D2 i x y _ _ Ev (prior_saved _ _ _ _ _ _ _ Sv D1)).
      rewrite <- Zplus_mod, Z.add_assoc. reflexivity.
  Qed.

  Lemma scan_so_far es : forall s st names, sane s -> so_far st names ->
    (forall e, In e es -> raw_file e -> good_world n (d_world e) /\ raw_of (truth (d_name e)) e) ->
    exists st' names', scan_entries su es s st = Ok (false, st') /\ so_far st' names' /\
      forall nm, In nm names' <-> In nm names \/ exists e, In e es /\ raw_file e /\ d_name e = nm.
  Proof.
    induction es as [|e es IH]; intros s st names Hs I F.
    { exists st, names. split; [reflexivity|]. split; [exact I|]. intros nm. split; [auto|].
      intros [X|(e & [] & _)]; exact X. }
    assert (F' : forall e, In e es -> raw_file e -> good_world n (d_world e) /\ raw_of (truth (d_name e)) e)
      by (intros; apply F; [right|]; assumption).
    cbn [scan_entries].
    destruct (is_raw e) eqn:R; cbn [andb].
    2:{ destruct (IH s st names Hs I F') as (st' & names' & E & I' & N). exists st', names'.
        split; [exact E|]. split; [exact I'|]. intros nm. rewrite N. split.
        - intros [X|(e' & A & B)]; [auto|]. right. exists e'. split; [right; exact A|exact B].
        - intros [X|(e' & [<-|A] & B & C)]; [auto| |right; eauto]. apply raw_spec in B. congruence. }
    apply raw_spec in R. pose proof I as (C & ND & Sv & ens & T & D).
    pose proof (seen_saved st e C (proj2 R)) as SS. destruct (seen st e) eqn:Se; cbn [negb].
    { destruct (IH s st names Hs I F') as (st' & names' & E & I' & N). exists st', names'.
      split; [exact E|]. split; [exact I'|]. intros nm. rewrite N. split.
      - intros [X|(e' & A & B)]; [auto|]. right. exists e'. split; [right; exact A|exact B].
      - intros [X|(e' & [<-|A] & B & <-)]; [auto| |right; eauto]. left. apply Sv, SS. reflexivity. }
    destruct (F e (or_introl eq_refl) R) as [W Ro].
    destruct (raw_images su e (truth (d_name e)) Ro Oe Hsr s Hs) as (m & ims & s' & en & Ec & FI & Hs' & Sh & En & Px).
    destruct (shown_save names (concat ens) (v_files st) ims en (d_world e) D Sh W Px) as (fs' & Es & D').
    assert (Rf : reduce_file su e s (v_files st) = Ok (EndSaved ims, s', fs')).
    { destruct FI as (bs & bs' & L & P & Ci). unfold reduce_file. rewrite Ec, L. cbv zeta. rewrite P. cbn [obind].
      rewrite Ci. unfold save_in_world. destruct W as (_ & _ & _ & Wf). rewrite Wf, Es. reflexivity. }
    rewrite Rf. cbn [obind].
    set (st1 := Venus (stem (d_name e) :: v_processed st) fs' (v_log st ++ [Saved (d_name e) ims])).
    destruct (IH s' st1 (names ++ [d_name e]) Hs') as (st' & names' & E & I' & N).
    { split; [apply consistent_saved; assumption|]. split.
      { apply nodup_snoc; [exact ND|]. intros X. apply Sv in X. apply SS in X. congruence. }
      split.
      { intros nm. cbn [v_log st1]. rewrite saved_app, <- Sv, in_app_iff. cbn [In]. split.
        - intros [X|[<-|[]]]; [auto|]. right. eauto.
        - intros [X|(i & X)]; [auto|]. injection X as <- _. auto. }
      exists (ens ++ [en]). split; [apply Forall2_app; [exact T|constructor; [exact En|constructor]]|].
      rewrite concat_app. cbn [concat v_files st1]. rewrite List.app_nil_r. apply D'. }
    { exact F'. }
    exists st', names'. split; [exact E|]. split; [exact I'|]. intros nm. rewrite N, in_app_iff. cbn [In]. split.
    - intros [[X|[<-|[]]]|(e' & A & B)]; [auto| |].
      + right. exists e. auto.
      + right. exists e'. auto.
    - intros [X|(e' & [<-|A] & B & <-)]; [auto|auto|]. right. eauto.
  Qed.

  Lemma monitor_so_far vs : forall st names, so_far st names ->
    Forall (fun v => ~ visit_stops v) vs -> faithful n truth vs ->
    exists st' names', monitor su (map round_of vs) st = Ok (Running, st') /\ so_far st' names' /\
      forall nm, In nm names' <-> In nm names \/ offered vs nm.
  Proof.
    induction vs as [|v vs IH]; intros st names I Ns F.
    { exists st, names. split; [reflexivity|]. split; [exact I|]. intros nm. split; [auto|].
      intros [X|(v & e & [] & _)]; exact X. }
    apply Forall_cons_iff in Ns. destruct Ns as [N1 Ns]. cbn [map monitor].
    destruct (existsb is_stop (rd_check (round_of v))) eqn:X; [elim N1; apply (stops_spec (round_of v)); exact X|].
    destruct (scan_so_far (vs_scan v) ts0 st names) as (st1 & names1 & E1 & I1 & M1).
    { unfold sane. cbn. lia. }
    { exact I. }
    { intros e A B. apply (F v); [left; reflexivity|exact A|exact B]. }
    unfold scan_dir. cbn [rd_scan round_of]. rewrite E1. cbn [obind].
    destruct (IH st1 names1 I1 Ns) as (st' & names' & E & I' & M).
    { intros v' e A. apply F. right. exact A. }
    exists st', names'. split; [exact E|]. split; [exact I'|]. intros nm. rewrite M, M1. unfold offered. split.
    - intros [[Y|(e & A & B & C)]|(v' & e & A & B)]; [auto| |].
      + right. exists v, e. cbn [In]. auto.
      + right. exists v', e. cbn [In]. tauto.
    - intros [Y|(v' & e & [<-|A] & B & C)]; [auto| |].
      + left. right. exists e. auto.
      + right. exists v', e. auto.
  Qed.
End Run.

Lemma main_run ext stoi parse conf args o cfg vs v rest fs0 st :
  understood_venus stoi args o -> configured_venus parse conf o cfg -> Forall sound vs -> visit_stops v ->
  monitor (setup_of ext o cfg) (map round_of vs) (venus_start fs0) = Ok (Running, st) ->
  venus_main ext stoi parse conf args (vs ++ v :: rest) fs0 = Ok (Some 0, st).
Proof.
  intros U C F S M. apply C83_stops_l; [|exact S].
  rewrite (C83_runs_l ext stoi parse conf args o cfg vs fs0 U C F), M. reflexivity.
Qed.

Lemma told_flat ext acfg a wd r (truth : string -> list exposure) names ens su :
  su_ext su = ext -> g_abs (su_cfg su) = acfg -> su_hit su = false ->
  radius_is (a_radius acfg) (r * 2 ^ 20) -> a_range acfg < 2 ^ 64 -> a_min acfg <= 1 ->
  0 <= a -> 2 * a <= r -> 0 <= wd <= a_range acfg ->
  (forall nm, In nm names -> Forall (exposed 8 a wd r (a_range acfg)) (truth nm) /\
     Forall (fun hs => zlen hs <= 2 ^ 21 /\ Forall fine hs) (map x_hits (truth nm))) ->
  Forall2 (fun nm en => entered su (map x_hits (truth nm)) en) names ens ->
  exists ns, concat ens = map entry_of_neutron ns /\
    Forall2 (told a wd) (concat (map x_events (flat_map truth names))) ns.
Proof.
  intros E1 E2 E3 X1 X2 X3 X4 X5 X6 H F. induction F as [|nm en names ens En F IH].
  { exists []. split; [reflexivity|constructor]. }
  destruct IH as (ns & I1 & I2); [intros; apply H; right; assumption|].
  destruct (H nm (or_introl eq_refl)) as [Hx Hf].
  destruct (C91_all_l ext acfg a wd r (truth nm)) as (nss & N1 & N2 & N3); try assumption.
  { apply Forall_map in Hf. eapply Forall_impl; [|exact Hf]. cbn beta. intros x [Hl Hh]. split; [exact Hh|exact Hl]. }
  destruct En as (l & El & ->). rewrite E1, E2 in El. rewrite E3.
  apply all_events_spec in El. destruct El as [L1 L2].
  assert (map snd l = nss) as Es.
  { apply N3. rewrite <- L1. clear - L2. induction L2 as [|p l Hp L2 IH]; [constructor|]. cbn [map].
    constructor; [apply events_of_spec; exact Hp|exact IH]. }
  exists (concat nss ++ ns). cbn [concat flat_map map]. rewrite Es, I1, map_app. split; [reflexivity|].
  rewrite map_app, concat_app. apply Forall2_app; [apply accounted_told; exact N2|exact I2].
Qed.

Lemma C95_neutrons_l ext stoi parse conf args o cfg (truth : string -> list exposure) a wd r vs v rest fs0 :
  understood_venus stoi args o -> configured_venus parse conf o cfg -> vo_mode o = "neutron"%string ->
  edges_ok (g_edges cfg) -> g_sr cfg = f_of_Z 1 ->
  images_fit fs0 (vo_out o) (vo_base o) (length (g_edges cfg) - 1) 517 ->
  Forall sound vs -> Forall (fun v => ~ visit_stops v) vs -> visit_stops v ->
  faithful (length (g_edges cfg) - 1) (fun nm => map x_hits (truth nm)) vs ->
  radius_is (a_radius (g_abs cfg)) (r * 2 ^ 20) -> a_range (g_abs cfg) < 2 ^ 64 -> a_min (g_abs cfg) <= 1 ->
  0 <= a -> 2 * a <= r -> 0 <= wd <= a_range (g_abs cfg) ->
  (forall nm, offered vs nm -> Forall (exposed 8 a wd r (a_range (g_abs cfg))) (truth nm)) ->
  exists st names cells, venus_main ext stoi parse conf args (vs ++ v :: rest) fs0 = Ok (Some 0, st) /\
    NoDup names /\ (forall nm, In nm names <-> offered vs nm) /\
    Forall2 (placed a wd (g_edges cfg)) (concat (map x_events (flat_map truth names))) cells /\
    (names <> [] -> forall i x y u, (i < length (g_edges cfg) - 1)%nat -> 0 <= x < 517 -> 0 <= y < 517 ->
       prior fs0 (tiff_name (vo_out o) (vo_base o) i) 517 517 x y u ->
       disk (v_files st) (tiff_name (vo_out o) (vo_base o) i) x y = Some ((u + number (is_cell i x y) cells) mod 2 ^ 32)).
Proof.
  intros U C Em Oe Hsr Hf So Ns Sv Fa X1 X2 X3 X4 X5 X6 X7.
  set (su := setup_of ext o cfg).
  destruct (monitor_so_far su (fun nm => map x_hits (truth nm)) fs0 Oe Hsr Hf vs (venus_start fs0) []
    (so_far_start su _ fs0) Ns Fa) as (st & names & M & (_ & ND & _ & ens & T & D) & N).
  assert (N' : forall nm, In nm names <-> offered vs nm) by (intros nm; rewrite N; cbn [In]; tauto).
  assert (Hh : su_hit su = false) by (cbn; rewrite Em; reflexivity).
  destruct (told_flat ext (g_abs cfg) a wd r truth names ens su) as (ns & E & F); try assumption; try reflexivity.
  { intros nm I. apply N' in I. split; [apply X7; exact I|]. destruct I as (v' & e & A & B & R & <-).
    destruct (Fa v' e A B R) as [_ (ds & k & _ & _ & Ho & _ & Rc)]. apply (fresh_fine ds _ k Ho Rc). }
  exists st, names, (map (cell_of (g_edges cfg)) ns). split; [eapply main_run; eassumption|].
  split; [exact ND|]. split; [exact N'|]. split; [apply told_cells; assumption|].
  intros Ne i x y u Hi Hx Hy P. destruct D as [_ D]. destruct (D Ne i Hi) as [_ Dd].
  destruct (Dd x y u Hx Hy P) as (c & Cc & Ed). rewrite E in Cc.
  rewrite (told_lands a wd _ _ _ i x y c Oe F Cc) in Ed. exact Ed.
Qed.

Lemma hits_flat su (truth : string -> list (list hit)) names ens : su_hit su = true ->
  Forall2 (fun nm en => entered su (truth nm) en) names ens ->
  concat ens = map entry_of_hit (concat (flat_map truth names)).
Proof.
  intros Hh F. induction F as [|nm en names ens (l & El & ->) F IH]; [reflexivity|].
  cbn [concat flat_map]. rewrite IH, Hh, concat_app, map_app. apply all_events_spec in El. destruct El as [-> _]. reflexivity.
Qed.

Lemma C95_hits_l ext stoi parse conf args o cfg (truth : string -> list (list hit)) vs v rest fs0 :
  understood_venus stoi args o -> configured_venus parse conf o cfg -> vo_mode o = "hit"%string ->
  edges_ok (g_edges cfg) -> g_sr cfg = f_of_Z 1 ->
  images_fit fs0 (vo_out o) (vo_base o) (length (g_edges cfg) - 1) 517 ->
  Forall sound vs -> Forall (fun v => ~ visit_stops v) vs -> visit_stops v ->
  faithful (length (g_edges cfg) - 1) truth vs ->
  exists st names, venus_main ext stoi parse conf args (vs ++ v :: rest) fs0 = Ok (Some 0, st) /\
    NoDup names /\ (forall nm, In nm names <-> offered vs nm) /\
    (names <> [] -> forall i x y u, (i < length (g_edges cfg) - 1)%nat -> 0 <= x < 517 -> 0 <= y < 517 ->
       prior fs0 (tiff_name (vo_out o) (vo_base o) i) 517 517 x y u ->
       exists c, counted (hit_counted (g_edges cfg) i x y) (concat (flat_map truth names)) c /\
         disk (v_files st) (tiff_name (vo_out o) (vo_base o) i) x y = Some ((u + c) mod 2 ^ 32)).
Proof.
  intros U C Em Oe Hsr Hf So Ns Sv Fa.
  set (su := setup_of ext o cfg).
  destruct (monitor_so_far su truth fs0 Oe Hsr Hf vs (venus_start fs0) []
    (so_far_start su _ fs0) Ns Fa) as (st & names & M & (_ & ND & _ & ens & T & D) & N).
  assert (N' : forall nm, In nm names <-> offered vs nm) by (intros nm; rewrite N; cbn [In]; tauto).
  assert (Hh : su_hit su = true) by (cbn; rewrite Em; reflexivity).
  exists st, names. split; [eapply main_run; eassumption|].
  split; [exact ND|]. split; [exact N'|].
  intros Ne i x y u Hi Hx Hy P. destruct D as [_ D]. destruct (D Ne i Hi) as [_ Dd].
  destruct (Dd x y u Hx Hy P) as (c & Cc & Ed). exists c. split; [|exact Ed].
  rewrite (hits_flat su truth names ens Hh T) in Cc. revert Cc. apply counted_map.
  apply Forall_concat. apply Forall_forall. intros hs I. apply in_flat_map in I. destruct I as (nm & I & J).
  apply N' in I. destruct I as (v' & e & A & B & R & <-).
  destruct (Fa v' e A B R) as [_ (ds & k & _ & _ & Ho & _ & Rc)].
  pose proof (fresh_fine ds _ k Ho Rc) as Fi. rewrite Forall_forall in Fi. destruct (Fi hs J) as [_ Fh].
  eapply Forall_impl; [|exact Fh]. intros h [_ H]. apply hit_counted_lands. exact H.
Qed.

Lemma tallied_perm su truth names names' : Permutation names names' -> forall ens,
  tallied su truth names ens -> exists ens', tallied su truth names' ens' /\ Permutation ens ens'.
Proof.
  unfold tallied. intros P. induction P as [|a l l' P IH|a b l|l1 l2 l3 P1 IH1 P2 IH2]; intros ens T.
  - inversion T; subst. exists []. split; constructor.
  - inversion T as [|? e ? es T1 T2]; subst. destruct (IH es T2) as (es' & A & B). exists (e :: es').
    split; [constructor; assumption|apply perm_skip; exact B].
  - inversion T as [|? e ? es T1 T2]; subst. inversion T2 as [|? f ? fs T3 T4]; subst.
    exists (f :: e :: fs). split; [constructor; [exact T3|constructor; assumption]|apply perm_swap].
  - destruct (IH1 ens T) as (e2 & A & B). destruct (IH2 e2 A) as (e3 & A' & B'). exists e3.
    split; [exact A'|]. eapply Permutation_trans; eassumption.
Qed.
Lemma tallied_unique su truth names : forall ens ens', tallied su truth names ens -> tallied su truth names ens' -> ens = ens'.
Proof.
  induction names as [|nm names IH]; intros ens ens' T T'; inversion T as [|? e ? es T1 T2]; inversion T' as [|? e' ? es' T1' T2']; subst; [reflexivity|].
  f_equal; [|apply IH; assumption]. destruct T1 as (l & A & ->). destruct T1' as (l' & A' & ->).
  rewrite A in A'. apply Ok_inj in A'. subst l'. reflexivity.
Qed.
Lemma concat_perm {A} (l l' : list (list A)) : Permutation l l' -> Permutation (concat l) (concat l').
Proof.
  induction 1 as [|a l l' P IH|a b l|l1 l2 l3 P1 IH1 P2 IH2]; cbn [concat].
  - constructor.
  - apply Permutation_app_head. exact IH.
  - rewrite !List.app_assoc. apply Permutation_app_tail, Permutation_app_comm.
  - eapply Permutation_trans; eassumption.
Qed.

Lemma C95_any_scans_l ext stoi parse conf args o cfg truth vs v rest vs' v' rest' fs0 :
  understood_venus stoi args o -> configured_venus parse conf o cfg ->
  edges_ok (g_edges cfg) -> g_sr cfg = f_of_Z 1 ->
  images_fit fs0 (vo_out o) (vo_base o) (length (g_edges cfg) - 1) 517 ->
  Forall sound vs -> Forall (fun v => ~ visit_stops v) vs -> visit_stops v ->
  Forall sound vs' -> Forall (fun v => ~ visit_stops v) vs' -> visit_stops v' ->
  faithful (length (g_edges cfg) - 1) truth vs -> faithful (length (g_edges cfg) - 1) truth vs' ->
  (forall nm, offered vs nm <-> offered vs' nm) ->
  exists st st', venus_main ext stoi parse conf args (vs ++ v :: rest) fs0 = Ok (Some 0, st) /\
    venus_main ext stoi parse conf args (vs' ++ v' :: rest') fs0 = Ok (Some 0, st') /\
    forall i x y, (i < length (g_edges cfg) - 1)%nat -> 0 <= x < 517 -> 0 <= y < 517 ->
      disk (v_files st) (tiff_name (vo_out o) (vo_base o) i) x y =
      disk (v_files st') (tiff_name (vo_out o) (vo_base o) i) x y.
Proof.
  intros U C Oe Hsr Hf So Ns Sv So' Ns' Sv' Fa Fa' Of.
  set (su := setup_of ext o cfg).
  destruct (monitor_so_far su truth fs0 Oe Hsr Hf vs (venus_start fs0) []
    (so_far_start su _ fs0) Ns Fa) as (st & names & M & (_ & ND & _ & ens & T & D) & N).
  destruct (monitor_so_far su truth fs0 Oe Hsr Hf vs' (venus_start fs0) []
    (so_far_start su _ fs0) Ns' Fa') as (st' & names' & M' & (_ & ND' & _ & ens' & T' & D') & N').
  exists st, st'. split; [eapply main_run; eassumption|]. split; [eapply main_run; eassumption|].
  assert (P : Permutation names names').
  { apply NoDup_Permutation; [exact ND|exact ND'|]. intros nm. rewrite N, N'. cbn [In]. rewrite Of. tauto. }
  destruct (tallied_perm su truth names names' P ens T) as (ens2 & T2 & P2).
  rewrite (tallied_unique _ _ _ _ _ T2 T') in P2. apply concat_perm in P2.
  intros i x y Hi Hx Hy. destruct D as [D0 D1], D' as [D0' D1'].
  destruct names as [|nm names].
  { apply Permutation_nil in P. rewrite (proj2 (D0 eq_refl)), (proj2 (D0' P)). reflexivity. }
  assert (Ne' : names' <> []) by (intros ->; apply Permutation_sym, Permutation_nil in P; discriminate P).
  destruct (D1 ltac:(discriminate) i Hi) as [_ Da]. destruct (D1' Ne' i Hi) as [_ Db].
  assert (Pr : exists u, prior fs0 (tiff_name (vo_out o) (vo_base o) i) 517 517 x y u).
  { apply prior_exists; [exact (Hf i Hi)|exact Hx|exact Hy]. }
  destruct Pr as (u & Pr). destruct (Da x y u Hx Hy Pr) as (c & Cc & Ea). destruct (Db x y u Hx Hy Pr) as (c' & Cc' & Eb).
  etransitivity; [exact Ea|]. etransitivity; [|symmetry; exact Eb].
  rewrite (counted_unique _ _ _ (counted_perm _ _ _ P2 _ Cc) _ Cc'). reflexivity.
Qed.

Lemma venus_default_l parse conf o : vo_config o = ""%string -> exists edges,
  configured_venus parse conf o (Config (AbsCfg (f_of_Z 5) 1 75) (f_of_Z 1) edges) /\ edges_ok edges.
Proof.
  intros Z. unfold configured_venus. rewrite Z.
  destruct P_Program.default_max_ok as [F B].
  destruct (P_Bins.C41_uniform_l 1500 (f_lit 167 10000) ltac:(lia) F B) as (edges & e0 & G & O & _). exists edges.
  split; [|exact O].
  destruct (P_Load.C52_l (fun _ => f_of_Z 0) parse "" (conf ""%string)) as (A & _).
  destruct (A eq_refl) as (edges' & D & _ & E). assert (Q : Ok edges' = Ok edges) by (rewrite <- G; symmetry; exact D).
  apply Ok_inj in Q. subst edges'. exact E.
Qed.
