(** Lemmas behind Properties_Motion.v. *)
From Coq Require Import Reals String Lra Lia Permutation.
From Flocq Require Import Core.
From Verif Require Import F64Facts P_AbsProps P_Centroid P_Recover P_Order P_CliRun P_Events P_Measure P_MeasureHist P_EventsProgram P_Program.
From Verif Require Export S_Motion.
Local Open Scope Z_scope.

(** * Lists *)

Lemma forall2_in {A B} (R : A -> B -> Prop) l l' : Forall2 R l l' ->
  (forall a, In a l -> exists b, In b l' /\ R a b) /\ (forall b, In b l' -> exists a, In a l /\ R a b).
Proof.
  induction 1 as [|a b l l' H F [I1 I2]]; [split; intros ? []|]. split.
  - intros x [<-|I]; [exists b; split; [left; reflexivity|exact H]|]. destruct (I1 x I) as (y & Iy & Ry). exists y. split; [right; exact Iy|exact Ry].
  - intros x [<-|I]; [exists a; split; [left; reflexivity|exact H]|]. destruct (I2 x I) as (y & Iy & Ry). exists y. split; [right; exact Iy|exact Ry].
Qed.
Lemma forall2_len {A B} (R : A -> B -> Prop) l l' : Forall2 R l l' -> length l = length l'.
Proof. induction 1; cbn; congruence. Qed.
Lemma forall2_mid {A B} (R : A -> B -> Prop) pre c post l' : Forall2 R (pre ++ c :: post) l' ->
  exists pre' c' post', l' = pre' ++ c' :: post' /\ Forall2 R pre pre' /\ R c c' /\ Forall2 R post post'.
Proof.
  intros F. apply Forall2_app_inv_l in F. destruct F as (pre' & r & F1 & F2 & ->).
  inversion F2 as [|? c' ? post' Hc Fp]; subst. exists pre', c', post'. auto.
Qed.

(** * Clusters *)

Section Clusters.
Variables (R : hit -> hit -> Prop) (dt : Z) (n : nat) (fits : cl -> hit -> Prop).
Definition moved_cl (c c' : cl) : Prop := cl_id c' = cl_id c /\ Forall2 R (cl_hits c) (cl_hits c').
Hypothesis fits_moved : forall c c' h h', moved_cl c c' -> R h h' -> (fits c h <-> fits c' h').
Hypothesis time_moved : forall h h', R h h' -> arrival h' = arrival h + dt.

Lemma opened_moved c c' t : moved_cl c c' -> (opened_at c t <-> opened_at c' (t + dt)).
Proof.
  clear fits_moved fits. intros [_ F]. unfold opened_at. destruct F as [|f f' l l' Hf F].
  - split; intros (f & r & E & _); discriminate E.
  - pose proof (time_moved _ _ Hf). split; intros (g & r & E & T); injection E as <- <-.
    + exists f', l'. split; [reflexivity|lia].
    + exists f, l. split; [reflexivity|lia].
Qed.

Lemma clusters_moved hs ls op closed : clusters n fits hs ls op closed ->
  forall hs', Forall2 R hs hs' -> exists op' closed', clusters n fits hs' ls op' closed' /\
    Forall2 moved_cl op op' /\ Forall2 moved_cl closed closed'.
Proof.
  induction 1 as [|hs ls pre c post closed h C IH Fi Nf|hs ls op closed h C IH Nf Lo|hs ls pre c post closed h t C IH Nf Ln Op Tp Tq];
    intros hs' F.
  - inversion F; subst. exists [], []. split; [constructor|]. split; constructor.
  - apply Forall2_app_inv_l in F. destruct F as (h1 & h2 & F1 & F2 & ->). inversion F2 as [|? h' ? ? Hh F3]; subst. inversion F3; subst.
    destruct (IH h1 F1) as (op' & cl' & C' & Fo & Fc). apply forall2_mid in Fo. destruct Fo as (pre' & c' & post' & -> & Fp & Hc & Fq).
    exists (pre' ++ Cl (cl_id c') (cl_hits c' ++ [h']) :: post'), cl'. split; [|split; [|exact Fc]].
    + destruct Hc as [Ei Hc]. rewrite <- Ei. apply cs_join; [exact C'| |].
      * apply (fits_moved c c' h h'); [split; assumption|exact Hh|exact Fi].
      * intros d' I. destruct (forall2_in _ _ _ Fp) as [_ I2]. destruct (I2 d' I) as (d & Id & Rd).
        rewrite <- (fits_moved d d' h h' Rd Hh). apply Nf, Id.
    + apply Forall2_app; [exact Fp|]. constructor; [|exact Fq]. destruct Hc as [Ei Hc]. split; [exact Ei|]. cbn [cl_hits].
      apply Forall2_app; [exact Hc|]. constructor; [exact Hh|constructor].
  - apply Forall2_app_inv_l in F. destruct F as (h1 & h2 & F1 & F2 & ->). inversion F2 as [|? h' ? ? Hh F3]; subst. inversion F3; subst.
    destruct (IH h1 F1) as (op' & cl' & C' & Fo & Fc). pose proof (forall2_len _ _ _ Fo) as Lf.
    exists (op' ++ [Cl (length op') [h']]), cl'. split; [|split; [|exact Fc]].
    + rewrite Lf. apply cs_open; [exact C'| |lia]. intros d' I. destruct (forall2_in _ _ _ Fo) as [_ I2]. destruct (I2 d' I) as (d & Id & Rd).
      rewrite <- (fits_moved d d' h h' Rd Hh). apply Nf, Id.
    + apply Forall2_app; [exact Fo|]. constructor; [|constructor]. split; [cbn; lia|]. constructor; [exact Hh|constructor].
  - apply Forall2_app_inv_l in F. destruct F as (h1 & h2 & F1 & F2 & ->). inversion F2 as [|? h' ? ? Hh F3]; subst. inversion F3; subst.
    destruct (IH h1 F1) as (op' & cl' & C' & Fo & Fc). pose proof (forall2_len _ _ _ Fo) as Lf. pose proof (forall2_len _ _ _ Fc) as Lc.
    assert (Nf' : forall d', In d' op' -> ~ fits d' h').
    { intros d' I. destruct (forall2_in _ _ _ Fo) as [_ I2]. destruct (I2 d' I) as (d & Id & Rd).
      rewrite <- (fits_moved d d' h h' Rd Hh). apply Nf, Id. }
    apply forall2_mid in Fo. destruct Fo as (pre' & c' & post' & -> & Fp & Hc & Fq).
    exists (pre' ++ Cl (length (pre ++ c :: post) + length closed) [h'] :: post'), (cl' ++ [c']). split; [|split].
    + rewrite Lc. rewrite Lf in *. apply cs_evict with (t := t + dt); [exact C'|exact Nf'|reflexivity| | |].
      * apply (opened_moved c c' t Hc), Op.
      * intros d' t' I O. destruct (forall2_in _ _ _ Fp) as [_ I2]. destruct (I2 d' I) as (d & Id & Rd).
        replace t' with ((t' - dt) + dt) in O by lia. apply (opened_moved d d' _ Rd) in O. specialize (Tp d _ Id O). lia.
      * intros d' t' I O. destruct (forall2_in _ _ _ Fq) as [_ I2]. destruct (I2 d' I) as (d & Id & Rd).
        replace t' with ((t' - dt) + dt) in O by lia. apply (opened_moved d d' _ Rd) in O. specialize (Tq d _ Id O). lia.
    + apply Forall2_app; [exact Fp|]. constructor; [|exact Fq]. split; [reflexivity|]. constructor; [exact Hh|constructor].
    + apply Forall2_app; [exact Fc|]. constructor; [exact Hc|constructor].
Qed.
End Clusters.

Lemma box_moved m rho range c c' h h' : moved_cl (moves m) c c' -> moves m h h' ->
  (fits_box rho range c h <-> fits_box rho range c' h').
Proof.
  intros Hc Hh. pose proof (opened_moved (moves m) (25 * m_dt m)) as O.
  assert (Tm : forall a b, moves m a b -> arrival b = arrival a + 25 * m_dt m).
  { intros a b (_ & _ & T & _). unfold arrival. lia. }
  specialize (O Tm). pose proof (Tm _ _ Hh) as Th.
  destruct (forall2_in _ _ _ (proj2 Hc)) as [I1 I2].
  destruct Hh as (Hx & Hy & _). unfold fits_box.
  assert (T : (exists t, opened_at c t /\ Z.abs (arrival h - t) <= range) <-> (exists t, opened_at c' t /\ Z.abs (arrival h' - t) <= range)).
  { split; intros (t & Ot & B).
    - exists (t + 25 * m_dt m). split; [apply (O c c' t Hc), Ot|lia].
    - exists (t - 25 * m_dt m). split; [|lia]. apply (O c c' _ Hc). replace (t - 25 * m_dt m + 25 * m_dt m) with t by lia. exact Ot. }
  rewrite T. clear T O Tm Th. apply and_iff_compat_l.
  destruct m as [sw fx fy dx dy dt]. cbn [m_swap m_flip_x m_flip_y m_dx m_dy] in *. unfold along in *.
  assert (E : forall (P : hit -> Prop) (Q : hit -> Prop), (forall a b, moves (Motion sw fx fy dx dy dt) a b -> (P a <-> Q b)) ->
     ((exists a, In a (cl_hits c) /\ P a) <-> (exists b, In b (cl_hits c') /\ Q b))).
  { intros P Q PQ. split.
    - intros (a & I & X). destruct (I1 a I) as (b & Ib & M). exists b. split; [exact Ib|]. apply (PQ a b M), X.
    - intros (b & I & X). destruct (I2 b I) as (a & Ia & M). exists a. split; [exact Ia|]. apply (PQ a b M), X. }
  clear I1 I2 Hc.
  rewrite (E (fun a => 2 ^ 20 * h_x a - rho <= 2 ^ 20 * h_x h)
             (fun b => if sw then if fy then 2 ^ 20 * h_y h' <= 2 ^ 20 * h_y b + rho else 2 ^ 20 * h_y b - rho <= 2 ^ 20 * h_y h'
                       else if fx then 2 ^ 20 * h_x h' <= 2 ^ 20 * h_x b + rho else 2 ^ 20 * h_x b - rho <= 2 ^ 20 * h_x h')).
  2: { intros a b (Ax & Ay & _). cbn in Ax, Ay. unfold along in *. destruct sw, fx, fy; lia. }
  rewrite (E (fun a => 2 ^ 20 * h_x h <= 2 ^ 20 * h_x a + rho)
             (fun b => if sw then if fy then 2 ^ 20 * h_y b - rho <= 2 ^ 20 * h_y h' else 2 ^ 20 * h_y h' <= 2 ^ 20 * h_y b + rho
                       else if fx then 2 ^ 20 * h_x b - rho <= 2 ^ 20 * h_x h' else 2 ^ 20 * h_x h' <= 2 ^ 20 * h_x b + rho)).
  2: { intros a b (Ax & Ay & _). cbn in Ax, Ay. unfold along in *. destruct sw, fx, fy; lia. }
  rewrite (E (fun a => 2 ^ 20 * h_y a - rho <= 2 ^ 20 * h_y h)
             (fun b => if sw then if fx then 2 ^ 20 * h_x h' <= 2 ^ 20 * h_x b + rho else 2 ^ 20 * h_x b - rho <= 2 ^ 20 * h_x h'
                       else if fy then 2 ^ 20 * h_y h' <= 2 ^ 20 * h_y b + rho else 2 ^ 20 * h_y b - rho <= 2 ^ 20 * h_y h')).
  2: { intros a b (Ax & Ay & _). cbn in Ax, Ay. unfold along in *. destruct sw, fx, fy; lia. }
  rewrite (E (fun a => 2 ^ 20 * h_y h <= 2 ^ 20 * h_y a + rho)
             (fun b => if sw then if fx then 2 ^ 20 * h_x b - rho <= 2 ^ 20 * h_x h' else 2 ^ 20 * h_x h' <= 2 ^ 20 * h_x b + rho
                       else if fy then 2 ^ 20 * h_y b - rho <= 2 ^ 20 * h_y h' else 2 ^ 20 * h_y h' <= 2 ^ 20 * h_y b + rho)).
  2: { intros a b (Ax & Ay & _). cbn in Ax, Ay. unfold along in *. destruct sw, fx, fy; lia. }
  clear E. destruct sw, fx, fy; tauto.
Qed.

Lemma C103_labels_l n cfg rho m o o' data data' : (0 < n)%nat -> Forall hit_ok data -> Forall hit_ok data' ->
  radius_is (a_radius cfg) rho -> 0 <= a_range cfg < 2 ^ 64 -> Forall2 (moves m) data data' ->
  exists q q', abs_fit n cfg o data = Ok q /\ abs_fit n cfg o' data' = Ok q' /\ o_labels q' = o_labels q.
Proof.
  intros Hn Hd Hd' Hr Ht F.
  destruct (C23_l n cfg rho o data Hn Hd Hr Ht) as (q & ls & op & cls & E & El & C & _).
  destruct (C23_l n cfg rho o' data' Hn Hd' Hr Ht) as (q' & ls' & op' & cls' & E' & El' & _ & U).
  destruct (clusters_moved (moves m) (25 * m_dt m) n (fits_box rho (a_range cfg))) with (hs := data) (ls := ls) (op := op) (closed := cls) (hs' := data')
    as (op2 & cls2 & C2 & _); try assumption.
  { intros. apply (box_moved m); assumption. }
  { intros a b (_ & _ & T & _). unfold arrival. lia. }
  destruct (U _ _ _ C2) as (<- & _). exists q, q'. split; [exact E|]. split; [exact E'|]. congruence.
Qed.

(** * Events *)

Lemma hsum_moved m c c' : Forall2 (moves m) c c' ->
  zlen c' = zlen c /\ hsum h_tot c' = hsum h_tot c /\ hsum tof_value c' = hsum tof_value c /\
  hsum wx c' = (if m_flip_x m then m_dx m * hsum h_tot c - hsum (if m_swap m then wy else wx) c
                else m_dx m * hsum h_tot c + hsum (if m_swap m then wy else wx) c) /\
  hsum wy c' = (if m_flip_y m then m_dy m * hsum h_tot c - hsum (if m_swap m then wx else wy) c
                else m_dy m * hsum h_tot c + hsum (if m_swap m then wx else wy) c).
Proof.
  induction 1 as [|h h' c c' (X & Y & _ & T & F) _ (IL & IT & IF & IX & IY)].
  - destruct m as [[] [] [] dx dy dt]; cbn; repeat split; lia.
  - unfold hsum in *. cbn [fold_right]. rewrite !zlen_cons, IL, IT, IF, IX, IY, T.
    assert (tof_value h' = tof_value h) as -> by (unfold tof_value; rewrite F; reflexivity).
    assert (wx h' = along (m_flip_x m) (m_dx m) (if m_swap m then h_y h else h_x h) * h_tot h) as -> by (unfold wx; rewrite X, T; reflexivity).
    assert (wy h' = along (m_flip_y m) (m_dy m) (if m_swap m then h_x h else h_y h) * h_tot h) as -> by (unfold wy; rewrite Y, T; reflexivity).
    unfold along, wx, wy. destruct m as [[] [] [] dx dy dt]; cbn [m_swap m_flip_x m_flip_y m_dx m_dy]; repeat split; ring.
Qed.

(** Two means of whole numbers between 0 and 515. *)
Lemma mean_moves v v' a a' t flip d : close v (IZR a / IZR t) -> close v' (IZR a' / IZR t) -> 0 < t ->
  0 <= a <= 515 * t -> 0 <= a' <= 515 * t -> a' = (if flip : bool then d * t - a else d * t + a) ->
  is_finite v = true /\ is_finite v' = true /\ (Rabs (B2R v' - along_R flip d (B2R v)) <= bpow radix2 (-40))%R.
Proof.
  intros [Fv Cv] [Fv' Cv'] T A A' E. split; [exact Fv|]. split; [exact Fv'|].
  assert (T0 : (0 < IZR t)%R) by (apply IZR_lt; exact T).
  assert (B : forall z, 0 <= z <= 515 * t -> (0 <= IZR z / IZR t <= 515)%R).
  { intros z [Z1 Z2]. apply IZR_le in Z1. apply IZR_le in Z2. rewrite mult_IZR in Z2.
    assert (0 < / IZR t)%R by (apply Rinv_0_lt_compat; exact T0). split.
    - apply Rmult_le_pos; lra.
    - apply Rmult_le_reg_r with (IZR t); [exact T0|]. unfold Rdiv. rewrite Rmult_assoc, Rinv_l by lra. lra. }
  pose proof (B a A) as Ba. pose proof (B a' A') as Ba'. clear B.
  assert (Q : (IZR a' / IZR t = if flip then IZR d - IZR a / IZR t else IZR d + IZR a / IZR t)%R).
  { subst a'. destruct flip; [rewrite minus_IZR|rewrite plus_IZR]; rewrite mult_IZR; field; lra. }
  set (x := (IZR a / IZR t)%R) in *. set (x' := (IZR a' / IZR t)%R) in *. clearbody x x'.
  rewrite (Rabs_pos_eq x) in Cv by lra. rewrite (Rabs_pos_eq x') in Cv' by lra.
  assert (P : (bpow radix2 (-40) = 2048 * bpow radix2 (-51))%R).
  { change 2048%R with (bpow radix2 11). rewrite <- bpow_plus. reflexivity. }
  assert (P0 : (0 < bpow radix2 (-51))%R) by apply bpow_gt_0. rewrite P.
  apply Rabs_le_inv in Cv. apply Rabs_le_inv in Cv'. unfold along_R.
  set (u := bpow radix2 (-51)) in *. clearbody u.
  assert (U : (0 <= u * x <= 515 * u)%R) by nra. assert (U' : (0 <= u * x' <= 515 * u)%R) by nra.
  apply Rabs_le. destruct flip; lra.
Qed.

Lemma weighted_limits c : Forall sensor_hit c -> 0 <= hsum wx c <= 515 * hsum h_tot c /\ 0 <= hsum wy c <= 515 * hsum h_tot c.
Proof.
  induction 1 as [|h c Hh F IH]; [cbn; lia|]. unfold hsum in *. cbn [fold_right].
  destruct Hh as (X & Y & T & _). unfold wx at 1 3, wy at 1 3.
  assert (0 <= h_x h * h_tot h <= 515 * h_tot h) by nia. assert (0 <= h_y h * h_tot h <= 515 * h_tot h) by nia. lia.
Qed.

Lemma fit_moves m c c' : c <> [] -> Forall2 (moves m) c c' -> Forall sensor_hit c -> Forall sensor_hit c' -> zlen c <= 2 ^ 21 ->
  exists e e', centroid_fit true (f_of_Z 1) c = Ok e /\ centroid_fit true (f_of_Z 1) c' = Ok e' /\
    (0 < hsum h_tot c -> neutron_moves m e e' /\ fge (n_x e) (f_of_Z 0) && fge (n_y e) (f_of_Z 0) = true /\
       fge (n_x e') (f_of_Z 0) && fge (n_y e') (f_of_Z 0) = true) /\
    (hsum h_tot c = 0 -> fge (n_x e) (f_of_Z 0) && fge (n_y e) (f_of_Z 0) = false /\
       fge (n_x e') (f_of_Z 0) && fge (n_y e') (f_of_Z 0) = false).
Proof.
  intros N M F F' L. destruct (hsum_moved m c c' M) as (HL & HT & HF & HX & HY).
  assert (N' : c' <> []) by (intros ->; inversion M; subst; contradiction).
  assert (L' : zlen c' <= 2 ^ 21) by lia.
  destruct (C26_l c N F L) as (e & E & _ & _ & _ & _ & P & Z0).
  destruct (C26_l c' N' F' L') as (e' & E' & _ & _ & _ & _ & P' & Z0').
  exists e, e'. split; [exact E|]. split; [exact E'|]. split.
  - intros Hp. destruct (P Hp) as (Cx & Cy & Px & Py). destruct (P' ltac:(lia)) as (Cx' & Cy' & Px' & Py').
    rewrite HT in Cx', Cy'. fold wx in Cx, Cx'. fold wy in Cy, Cy'.
    destruct (weighted_limits c F) as [Bx By]. destruct (weighted_limits c' F') as [Bx' By']. rewrite HT in Bx', By'.
    split; [|rewrite !fge_nonneg by (apply Cx || apply Cy || apply Cx' || apply Cy' || assumption); split; reflexivity].
    rewrite fit_exact in E by assumption. rewrite fit_exact in E' by assumption. apply Ok_inj in E. apply Ok_inj in E'.
    assert (Ee : n_tof e' = n_tof e /\ n_tot e' = n_tot e /\ n_hits e' = n_hits e).
    { rewrite <- E, <- E'. unfold exact_fit. cbn [n_tof n_tot n_hits]. rewrite HL, HT, HF. auto. }
    assert (Xe : m_flip_x m = false -> m_dx m = 0 -> n_x e' = if m_swap m then n_y e else n_x e).
    { intros Q1 Q2. rewrite <- E, <- E'. unfold exact_fit. cbn [n_x n_y]. rewrite HX, HT, Q1, Q2.
      destruct (m_swap m); rewrite Z.mul_0_l, Z.add_0_l; reflexivity. }
    assert (Ye : m_flip_y m = false -> m_dy m = 0 -> n_y e' = if m_swap m then n_x e else n_y e).
    { intros Q1 Q2. rewrite <- E, <- E'. unfold exact_fit. cbn [n_x n_y]. rewrite HY, HT, Q1, Q2.
      destruct (m_swap m); rewrite Z.mul_0_l, Z.add_0_l; reflexivity. }
    clear E E'. destruct Ee as (E1 & E2 & E3).
    assert (Mx : is_finite (if m_swap m then n_y e else n_x e) = true /\ is_finite (n_x e') = true /\
      (Rabs (B2R (n_x e') - along_R (m_flip_x m) (m_dx m) (B2R (if m_swap m then n_y e else n_x e))) <= bpow radix2 (-40))%R).
    { destruct (m_swap m).
      - exact (mean_moves _ _ _ _ _ _ _ Cy Cx' Hp By Bx' HX).
      - exact (mean_moves _ _ _ _ _ _ _ Cx Cx' Hp Bx Bx' HX). }
    assert (My : is_finite (if m_swap m then n_x e else n_y e) = true /\ is_finite (n_y e') = true /\
      (Rabs (B2R (n_y e') - along_R (m_flip_y m) (m_dy m) (B2R (if m_swap m then n_x e else n_y e))) <= bpow radix2 (-40))%R).
    { destruct (m_swap m).
      - exact (mean_moves _ _ _ _ _ _ _ Cx Cy' Hp Bx By' HY).
      - exact (mean_moves _ _ _ _ _ _ _ Cy Cy' Hp By By' HY). }
    destruct Mx as (A1 & A2 & A3). destruct My as (B1 & B2 & B3).
    split; [exact (conj A1 (conj A2 (conj A3 Xe)))|]. split; [exact (conj B1 (conj B2 (conj B3 Ye)))|]. auto.
  - intros Hz. destruct (Z0 Hz) as [Nx _]. destruct (Z0' ltac:(lia)) as [Nx' _].
    assert (G : forall v, is_nan v = true -> fge v (f_of_Z 0) = false).
    { intros v Hv. destruct v; try discriminate Hv. reflexivity. }
    rewrite (G _ Nx), (G _ Nx'). split; reflexivity.
Qed.

Lemma members_moved m l ls : forall data data', Forall2 (moves m) data data' -> Forall2 (moves m) (members l ls data) (members l ls data').
Proof.
  induction ls as [|x ls IH]; intros data data' F; [constructor|]. destruct F as [|h h' data data' Hh F]; [constructor|].
  unfold members in *. cbn [combine filter fst]. destruct (Nat.eqb x l); [|apply IH, F]. cbn [map snd]. constructor; [exact Hh|apply IH, F].
Qed.
Lemma clusters_of_moved m k ls data data' : Forall2 (moves m) data data' ->
  Forall2 (Forall2 (moves m)) (clusters_of k ls data) (clusters_of k ls data').
Proof.
  intros F. unfold clusters_of. induction (seq 0 k) as [|l s IH]; [constructor|]. cbn [map]. constructor; [apply members_moved, F|exact IH].
Qed.

Lemma events_moved m min cs cs' : Forall2 (Forall2 (moves m)) cs cs' ->
  Forall (fun c => 1 <= zlen c <= 2 ^ 21 /\ Forall sensor_hit c) cs -> Forall (Forall sensor_hit) cs' ->
  forall evs, events (centroid_fit true (f_of_Z 1)) min cs evs ->
  exists evs', events (centroid_fit true (f_of_Z 1)) min cs' evs' /\ Forall2 (neutron_moves m) evs evs'.
Proof.
  induction 1 as [|c c' cs cs' M _ IH]; intros B S evs E.
  - inversion E; subst. exists []. split; constructor.
  - apply Forall_cons_iff in B. destruct B as [[[L1 L2] B1] B]. apply Forall_cons_iff in S. destruct S as [S1 S].
    assert (N : c <> []) by (intros Q; rewrite Q in L1; revert L1; clear; cbv; tauto).
    destruct (fit_moves m c c' N M B1 S1 L2) as (e & e' & Fe & Fe' & P & Z0).
    destruct (hsum_moved m c c' M) as (HL & _). pose proof (proj1 (weighted_limits c B1)) as Hw.
    assert (T0 : 0 <= hsum h_tot c) by lia.
    inversion E as [|? ? ? Sm E'|? ? e0 ? Sm Fe0 G E'|? ? e0 ? Sm Fe0 G E']; subst.
    + destruct (IH B S _ E') as (evs' & V & W). exists evs'. split; [|exact W]. apply ev_small; [lia|exact V].
    + rewrite Fe in Fe0. apply Ok_inj in Fe0. subst e0.
      destruct (IH B S _ E') as (evs' & V & W). destruct (Z.eq_dec (hsum h_tot c) 0) as [Z1|Z1].
      * destruct (Z0 Z1) as [X _]. congruence.
      * destruct (P ltac:(lia)) as (Mv & _ & G'). exists (e' :: evs'). split; [|constructor; assumption].
        apply ev_keep; [lia|exact Fe'|exact G'|exact V].
    + rewrite Fe in Fe0. apply Ok_inj in Fe0. subst e0.
      destruct (IH B S _ E') as (evs' & V & W). destruct (Z.eq_dec (hsum h_tot c) 0) as [Z1|Z1].
      * destruct (Z0 Z1) as [_ X]. exists evs'. split; [|exact W]. apply ev_bad with e'; [lia|exact Fe'|exact X|exact V].
      * destruct (P ltac:(lia)) as (_ & G' & _). congruence.
Qed.

Lemma C103_events_l n cfg rho ext m o o' data data' : (0 < n)%nat -> Forall hit_ok data -> Forall hit_ok data' ->
  Forall sensor_hit data -> Forall sensor_hit data' -> zlen data <= 2 ^ 21 ->
  radius_is (a_radius cfg) rho -> 0 <= a_range cfg < 2 ^ 64 -> Forall2 (moves m) data data' ->
  exists q q' evs evs', abs_fit n cfg o data = Ok q /\ abs_get_events ext cfg (abs_set_method q MCentroid) data = Ok evs /\
    abs_fit n cfg o' data' = Ok q' /\ abs_get_events ext cfg (abs_set_method q' MCentroid) data' = Ok evs' /\
    Forall2 (neutron_moves m) evs evs'.
Proof.
  intros Hn Hd Hd' Hs Hs' Hl Hr Ht M.
  destruct (C103_labels_l n cfg rho m o o' data data' Hn Hd Hd' Hr Ht M) as (q & q' & E & E' & El).
  destruct (C24_l n ext cfg o data q MCentroid _ Hn Hd E eq_refl) as (ls & k & Q & Len & K & Ev).
  destruct (C24_l n ext cfg o' data' q' MCentroid _ Hn Hd' E' eq_refl) as (ls' & k' & Q' & Len' & K' & Ev').
  rewrite El, Q in Q'. apply map_of_nat_inj in Q'. subst ls'.
  assert (k' = k) as ->.
  { destruct (Nat.lt_trichotomy k k') as [X|[X|X]]; [|congruence|].
    - exfalso. apply K' in X. apply K in X. lia.
    - exfalso. apply K in X. apply K' in X. lia. }
  destruct (C24_succeeds_l n ext cfg o data q Hn Hd Hs Hl E) as (evs & Ee).
  assert (V := proj1 (Ev evs) Ee).
  destruct (events_moved m (a_min cfg) (clusters_of k ls data) (clusters_of k ls data')) with (evs := evs) as (evs' & V' & W); try assumption.
  - apply clusters_of_moved, M.
  - apply Forall_forall. intros c I. destruct (clusters_of_facts k ls data Len K c I) as (L1 & In & L2). split; [lia|].
    rewrite Forall_forall in *. intros x Ix. apply Hs, In, Ix.
  - apply Forall_forall. intros c I. destruct (clusters_of_facts k ls data' Len' K c I) as (L1 & In & L2).
    rewrite Forall_forall in *. intros x Ix. apply Hs', In, Ix.
  - exists q, q', evs, evs'. split; [exact E|]. split; [exact Ee|]. split; [exact E'|]. split; [apply Ev', V'|exact W].
Qed.

(** * Later *)

Lemma later_neutrons dt evs evs' : Forall2 (neutron_moves (Motion false false false 0 0 dt)) evs evs' -> evs' = evs.
Proof.
  induction 1 as [|e e' evs evs' ((_ & _ & _ & X) & (_ & _ & _ & Y) & T & W & H) _ IH]; [reflexivity|].
  rewrite IH. f_equal. cbn in X, Y. specialize (X eq_refl eq_refl). specialize (Y eq_refl eq_refl).
  destruct e, e'. cbn in *. congruence.
Qed.

Lemma C103_later_l ext cfg rho dt hs hs' ns : Forall hit_ok hs -> Forall hit_ok hs' -> Forall sensor_hit hs -> Forall sensor_hit hs' ->
  zlen hs <= 2 ^ 21 -> radius_is (a_radius cfg) rho -> 0 <= a_range cfg < 2 ^ 64 -> Forall2 (later dt) hs hs' ->
  neutrons_of ext cfg hs ns -> neutrons_of ext cfg hs' ns.
Proof.
  intros O O' S S' L R T M (q0 & E0 & V0).
  destruct (C103_events_l 8 cfg rho ext _ abs_new abs_new hs hs' ltac:(lia) O O' S S' L R T M) as (q & q' & evs & evs' & E & V & E' & V' & W).
  rewrite E0 in E. apply Ok_inj in E. subst q. rewrite V0 in V. apply Ok_inj in V. subst evs.
  apply later_neutrons in W. subst evs'. exists q'. split; assumption.
Qed.

Lemma neutrons_unique ext cfg hs ns ns' : neutrons_of ext cfg hs ns -> neutrons_of ext cfg hs ns' -> ns = ns'.
Proof. intros (q & E & V) (q' & E' & V'). rewrite E in E'. apply Ok_inj in E'. subst q'. rewrite V in V'. apply Ok_inj in V'. exact V'. Qed.

Lemma later_all ext cfg rho hss hss' nss nss' : radius_is (a_radius cfg) rho -> 0 <= a_range cfg < 2 ^ 64 ->
  Forall (fun hs => zlen hs <= 2 ^ 21 /\ Forall fine hs) hss -> Forall (fun hs => zlen hs <= 2 ^ 21 /\ Forall fine hs) hss' ->
  Forall2 (fun hs hs' => exists dt, Forall2 (later dt) hs hs') hss hss' ->
  Forall2 (neutrons_of ext cfg) hss nss -> Forall2 (neutrons_of ext cfg) hss' nss' -> nss' = nss.
Proof.
  intros R T F F' M. revert nss nss' F F'. induction M as [|hs hs' hss hss' (dt & M) _ IH]; intros nss nss' F F' N N'.
  - inversion N; inversion N'; subst; reflexivity.
  - inversion N as [|? ns ? ? N1 N2]; inversion N' as [|? ns' ? ? N1' N2']; subst.
    apply Forall_cons_iff in F. destruct F as [[L1 F1] F]. apply Forall_cons_iff in F'. destruct F' as [[L1' F1'] F'].
    f_equal; [|apply IH; assumption].
    apply (neutrons_unique ext cfg hs'); [exact N1'|].
    apply (C103_later_l ext cfg rho dt hs hs' ns); try assumption;
      (eapply Forall_impl; [|first [exact F1|exact F1']]; intros h [A B]; assumption).
Qed.

Lemma later_entries hss hss' : Forall2 (fun hs hs' => exists dt, Forall2 (later dt) hs hs') hss hss' ->
  map entry_of_hit (concat hss') = map entry_of_hit (concat hss).
Proof.
  induction 1 as [|hs hs' hss hss' (dt & M) _ IH]; [reflexivity|]. cbn [concat]. rewrite !map_app, IH. f_equal.
  clear IH. induction M as [|h h' hs hs' (X & Y & _ & _ & F) _ IH]; [reflexivity|]. cbn [map]. rewrite IH. f_equal.
  unfold entry_of_hit, tof_ns. rewrite F. cbn in X, Y. rewrite X, Y. reflexivity.
Qed.

Lemma C103_program_l ext o o' cfg cfg' ds ds' s d d1 d' d1' rho hss hss' k k' :
  completed ext o cfg ds s d d1 -> completed ext o' cfg' ds' s d' d1' -> g_abs cfg' = g_abs cfg ->
  timing_of o = GDC_mode -> timing_of o' = GDC_mode ->
  radius_is (a_radius (g_abs cfg)) rho -> 0 <= a_range (g_abs cfg) < 2 ^ 64 ->
  recording around true nothing_known ds hss k -> recording around true nothing_known ds' hss' k' ->
  Forall2 (fun hs hs' => exists dt, Forall2 (later dt) hs hs') hss hss' ->
  (o_events o <> ""%string -> o_events o' <> ""%string -> same_neutrons d1 (o_events o) d1' (o_events o')) /\
  (o_tiff o <> ""%string -> o_tiff o' <> ""%string -> o_mode o' = o_mode o -> g_edges cfg' = g_edges cfg -> g_sr cfg' = g_sr cfg ->
   forall i x y u, (i < length (g_edges cfg) - 1)%nat -> 0 <= x < s -> 0 <= y < s ->
     prior (d_files d) (tiff_name (o_tiff o) (o_base o) i) s s x y u ->
     prior (d_files d') (tiff_name (o_tiff o') (o_base o') i) s s x y u ->
     exists v, disk (d_files d1) (tiff_name (o_tiff o) (o_base o) i) x y = Some v /\
       disk (d_files d1') (tiff_name (o_tiff o') (o_base o') i) x y = Some v).
Proof.
  intros (fu & w & ord & args & A1 & A2 & A3 & A4 & A5 & A6 & A7 & A8 & A9 & A10 & A11 & A12 & A13 & A14 & A15 & A16)
    (fu' & w' & ord' & args' & B1 & B2 & B3 & B4 & B5 & B6 & B7 & B8 & B9 & B10 & B11 & B12 & B13 & B14 & B15 & B16)
    Eg Tm Tm' Rd Rg R R' M.
  destruct (C81_program_l fu ext w ord args d d1 o cfg ds s) as (h1 & nss & s1 & P & N & _ & Fe & _ & Ti & _); try assumption.
  destruct (C81_program_l fu' ext w' ord' args' d' d1' o' cfg' ds' s) as (h2 & nss' & s2 & P' & N' & _ & Fe' & _ & Ti' & _); try assumption.
  rewrite Tm in P. rewrite Tm' in P'.
  destruct (C90_gdc_l ds hss k A6 R) as (s3 & Q). destruct (C90_gdc_l ds' hss' k' B6 R') as (s3' & Q').
  destruct (processed_unique _ _ _ _ _ _ _ Q P) as [<- _]. destruct (processed_unique _ _ _ _ _ _ _ Q' P') as [<- _].
  rewrite Eg in N'.
  assert (En : nss' = nss).
  { apply (later_all ext (g_abs cfg) rho hss hss' nss nss' Rd Rg); try assumption.
    - exact (recording_fine ds hss k A6 R).
    - exact (recording_fine ds' hss' k' B6 R'). }
  subst nss'. split.
  - intros E1 E2. destruct (Fe E1) as (f & F1 & F2). destruct (Fe' E2) as (f' & F1' & F2').
    exists f, f'. split; [exact F1|]. split; [exact F1'|]. intros n fld Hn. rewrite (F2 n fld Hn), (F2' n fld Hn). reflexivity.
  - intros E1 E2 Em Ee Es i x y u Hi Hx Hy Pr Pr'.
    destruct (Ti E1 i x y u Hi Hx Hy Pr) as (c & C & D). rewrite Ee, Es in Ti'.
    destruct (Ti' E2 i x y u Hi Hx Hy Pr') as (c' & C' & D').
    assert (Eb : binned o' hss' nss = binned o hss nss).
    { unfold binned. rewrite Em, (later_entries hss hss' M). reflexivity. }
    rewrite Eb in C'. rewrite (P_Tof.counted_unique _ _ _ C' _ C) in D'. eexists. split; [exact D|exact D'].
Qed.

(** * Delayed histories *)

Definition later_time (dt : Z) (g : option Z) : option Z := option_map (fun t => t + dt) g.

Lemma report_len l : forall dt, zlen (flat_map report (map (delay_act dt) l)) = zlen (flat_map report l).
Proof. intros dt. induction l as [|a l IH]; [reflexivity|]. cbn [map flat_map]. rewrite !zlen_app, IH. destruct a; reflexivity. Qed.

Lemma delay_history dt chip g T l hs g' T' : 0 <= dt -> S_Measure.history after chip g T l hs g' T' ->
  (forall G, In (Ref G) l -> G + dt < 2 ^ 48 - 2 ^ 32) ->
  exists hs', S_Measure.history after chip (later_time dt g) (later_time dt T) (map (delay_act dt) l) hs' (later_time dt g') (later_time dt T') /\
    Forall2 (later dt) hs hs'.
Proof.
  intros D. induction 1 as [g T|g G T l hs g' T' HG H IH|g T0 T l hs g' T' N H IH|g T x y tot ftoa H l hs g' T' X Y To Ft H0 N HT R IH]; intros B.
  - exists []. split; constructor.
  - destruct IH as (hs' & R & F); [intros G' I; apply B; right; exact I|]. exists hs'. split; [|exact F]. cbn [map delay_act].
    apply hy_ref; [|exact R]. specialize (B G (or_introl eq_refl)). lia.
  - destruct IH as (hs' & R & F); [intros G' I; apply B; right; exact I|]. exists hs'. split; [|exact F]. cbn [map delay_act].
    apply hy_pulse; [unfold after in *; lia|exact R].
  - destruct IH as (hs' & R' & F); [intros G' I; apply B; right; exact I|]. eexists. split.
    + cbn [map delay_act]. apply (hy_fire after chip (g + dt) (T + dt) x y tot ftoa (H + dt)); try lia; [unfold after in *; lia|exact R'].
    + constructor; [|exact F]. repeat split; cbn; try lia; f_equal; lia.
Qed.

Lemma delay_histories dt : 0 <= dt -> forall ys g T hss, histories after g T ys hss -> clock_lasts dt ys ->
  exists hss', histories after (later_time dt g) (later_time dt T) (delayed dt ys) hss' /\ Forall2 (Forall2 (later dt)) hss hss'.
Proof.
  intros D ys g T hss H. induction H as [g T|g T b3 chip b5 l hs g' T' xs hss B3 Hc B5 Hl H _ IH]; intros C.
  - exists []. split; constructor.
  - destruct IH as (hss' & R & F); [intros x G I; apply C; right; exact I|].
    destruct (delay_history dt chip g T l hs g' T' D H) as (hs' & R1 & F1); [intros G I; apply (C _ G (or_introl eq_refl)); exact I|].
    exists (hs' :: hss'). split; [|constructor; assumption]. cbn [delayed map].
    apply (hs_cons _ _ _ _ _ _ _ _ (later_time dt g') (later_time dt T')); try assumption. rewrite report_len. exact Hl.
Qed.

Lemma C103_delayed_l ext o o' cfg cfg' ys dt s d d1 d' d1' rho hss :
  histories after None None ys hss -> 0 <= dt -> clock_lasts dt ys ->
  completed ext o cfg (map dataset_of ys) s d d1 -> completed ext o' cfg' (map dataset_of (delayed dt ys)) s d' d1' ->
  g_abs cfg' = g_abs cfg -> timing_of o = GDC_mode -> timing_of o' = GDC_mode ->
  radius_is (a_radius (g_abs cfg)) rho -> 0 <= a_range (g_abs cfg) < 2 ^ 64 ->
  o_events o <> ""%string -> o_events o' <> ""%string -> same_neutrons d1 (o_events o) d1' (o_events o').
Proof.
  intros H D C R R' Eg Tm Tm' Rd Rg E E'.
  destruct (delay_histories dt D ys None None hss H C) as (hss' & H' & F).
  destruct (histories_recording _ _ _ _ _ H) as [O (k & Q)]. destruct (histories_recording _ _ _ _ _ H') as [O' (k' & Q')].
  eapply (proj1 (C103_program_l ext o o' cfg cfg' (map dataset_of ys) (map dataset_of (delayed dt ys)) s d d1 d' d1' rho hss hss' k k' R R' Eg Tm Tm' Rd Rg _ _ _)); assumption.
  Unshelve.
  - revert Q. apply recording_mono; [unfold after, around; intros; lia|discriminate].
  - revert Q'. apply recording_mono; [unfold after, around; intros; lia|discriminate].
  - clear - F. induction F as [|a b l l' H _ IH]; constructor; [exists dt; exact H|exact IH].
Qed.
