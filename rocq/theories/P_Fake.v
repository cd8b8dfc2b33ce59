(** Lemmas for the programs with generated hits. *)
From Coq Require Import Lia ZifyBool Reals Lra.
From Flocq Require Import Core Relative.
From Verif Require Export M_Fake S_Fake P_Recover P_StreamRun.
Global Open Scope Z_scope.

(** * The numbers drawn *)

Lemma trunc_B (v : f64) : Btrunc v = Ztrunc (B2R v).
Proof. apply eq_IZR. rewrite Btrunc_correct; [|exact emax1024]. rewrite round_FIX_IZR. reflexivity. Qed.

Lemma trunc_between r a b : (IZR a <= r <= IZR b)%R -> a <= Ztrunc r <= b.
Proof.
  intros [A B]. split; [rewrite <- (Ztrunc_IZR a)|rewrite <- (Ztrunc_IZR b)]; apply Ztrunc_le; assumption.
Qed.

Lemma to_int_between lo hi (v : f64) a b : is_finite v = true -> (IZR a <= B2R v <= IZR b)%R ->
  lo <= a -> b <= hi ->
  exists z, f_to_int lo hi v = Some z /\ z = Ztrunc (B2R v) /\ a <= z <= b.
Proof.
  intros F B La Lb. pose proof (trunc_between _ _ _ B). unfold f_to_int. rewrite F, trunc_B.
  replace ((lo <=? Ztrunc (B2R v)) && (Ztrunc (B2R v) <=? hi)) with true by lia.
  eexists. split; [reflexivity|]. auto.
Qed.

Lemma add_between z (d : f64) a b : Z.abs z <= 2 ^ 30 -> Z.abs a <= 2 ^ 10 -> Z.abs b <= 2 ^ 10 ->
  is_finite d = true -> (IZR a <= B2R d <= IZR b)%R ->
  is_finite (fadd (f_of_Z z) d) = true /\
  (IZR (z + a) <= B2R (fadd (f_of_Z z) d) <= IZR (z + b))%R.
Proof.
  intros Hz Ha Hb F [A B]. destruct (is_int_of_Z z ltac:(lia)) as [Fz Ez].
  assert (L : (IZR (z + a) <= B2R (f_of_Z z) + B2R d <= IZR (z + b))%R)
    by (rewrite Ez, !plus_IZR; lra).
  destruct (fadd_correct (f_of_Z z) d 53) as [E Ff]; try assumption; try lia.
  - apply Rabs_le. change (bpow radix2 53) with (IZR (2 ^ 53)). rewrite <- opp_IZR.
    assert (IZR (- 2 ^ 53) <= IZR (z + a))%R by (apply IZR_le; lia).
    assert (IZR (z + b) <= IZR (2 ^ 53))%R by (apply IZR_le; lia). lra.
  - split; [exact Ff|]. rewrite E. destruct L as [L1 L2]. split.
    + rewrite <- (rnd_IZR (z + a)) by lia. apply rnd_le. exact L1.
    + rewrite <- (rnd_IZR (z + b)) by lia. apply rnd_le. exact L2.
Qed.

(** 0 + d is d. *)
Lemma add_zero (d : f64) : is_finite d = true -> (IZR (-1) < B2R d < IZR 1)%R ->
  Btrunc (fadd (f_of_Z 0) d) = 0.
Proof.
  intros F [A B]. destruct zero_int as [Fz Ez].
  destruct (fadd_correct (f_of_Z 0) d 53) as [E Ff]; try assumption; try lia.
  - rewrite Ez, Rplus_0_l. apply Rabs_le. change (bpow radix2 53) with (IZR (2 ^ 53)).
    rewrite <- opp_IZR. assert (IZR (- 2 ^ 53) <= IZR (-1))%R by (apply IZR_le; lia).
    assert (IZR 1 <= IZR (2 ^ 53))%R by (apply IZR_le; lia). lra.
  - rewrite trunc_B, E, Ez, Rplus_0_l. rewrite (round_generic radix2 _ _ (B2R d)) by (apply generic_format_B2R).
    unfold Ztrunc. destruct (Rlt_bool_spec (B2R d) 0).
    + apply Zceil_imp. cbn. change (IZR (0 - 1)) with (IZR (-1)). lra.
    + apply Zfloor_imp. change (IZR (0 + 1)) with (IZR 1). lra.
Qed.

(** * Clusters of equal hits *)

Definition wide_hit (h : hit) : Prop :=
  0 <= h_x h <= 2 ^ 27 /\ 0 <= h_y h <= 2 ^ 27 /\ 0 <= h_tot h <= 1023 /\
  exists t, h_tof h = Some t /\ 0 <= t < 2 ^ 32.

Definition blob (i : Z) (c : list hit) : Prop :=
  c <> [] /\ zlen c <= 10 /\
  exists x y s, 10 * i <= x <= 10 * i + 2 /\ 10 * i <= y <= 10 * i + 2 /\
    0 <= s /\ 10 * i - 1 <= s <= 10 * i + 1 /\
    Forall (fun h => h_x h = x /\ h_y h = y /\ h_spider h = s /\ 0 <= h_tot h <= 1023 /\
                     exists t, h_tof h = Some t /\ 0 <= t < 2 ^ 32) c.
Fixpoint blobs (i : Z) (cs : list (list hit)) : Prop :=
  match cs with [] => True | c :: r => blob i c /\ blobs (i + 1) r end.

Lemma blobs_nth cs : forall i k c, blobs i cs -> nth_error cs k = Some c -> blob (i + Z.of_nat k) c.
Proof.
  induction cs as [|d cs IH]; intros i k c H E; [destruct k; discriminate|].
  destruct H as [A B]. destruct k as [|k].
  - injection E as <-. replace (i + Z.of_nat 0) with i by lia. exact A.
  - replace (i + Z.of_nat (S k)) with (i + 1 + Z.of_nat k) by lia. eapply IH; eassumption.
Qed.

Fixpoint tags (k : nat) (cs : list (list hit)) : list nat :=
  match cs with [] => [] | c :: r => repeat k (length c) ++ tags (S k) r end.

Lemma tags_length cs : forall k, length (tags k cs) = length (concat cs).
Proof.
  induction cs as [|c cs IH]; intros k; cbn; [reflexivity|].
  rewrite !app_length, repeat_length, IH. reflexivity.
Qed.

Lemma tags_in cs : forall k l, In l (tags k cs) -> (k <= l < k + length cs)%nat.
Proof.
  induction cs as [|c cs IH]; intros k l H; cbn in *; [destruct H|].
  apply in_app_or in H. destruct H as [H|H]; [apply repeat_spec in H; lia|].
  apply IH in H. lia.
Qed.

Lemma in_tags cs : forall k l, Forall (fun c => c <> []) cs -> (k <= l < k + length cs)%nat -> In l (tags k cs).
Proof.
  induction cs as [|c cs IH]; intros k l F H; cbn in *; [lia|]. inversion F; subst.
  apply in_or_app. destruct (Nat.eq_dec k l) as [->|N].
  - left. destruct c; [congruence|]. left. reflexivity.
  - right. apply IH; [assumption|lia].
Qed.

Lemma tags_nth cs : forall k j l h, nth_error (tags k cs) j = Some l -> nth_error (concat cs) j = Some h ->
  exists m c, l = (k + m)%nat /\ nth_error cs m = Some c /\ In h c.
Proof.
  induction cs as [|c cs IH]; intros k j l h A B; cbn in *; [destruct j; discriminate|].
  destruct (Nat.lt_ge_cases j (length c)) as [L|L].
  - rewrite nth_error_app1 in A by (rewrite repeat_length; exact L).
    rewrite nth_error_app1 in B by exact L. apply nth_error_In in A. apply repeat_spec in A.
    exists 0%nat, c. split; [lia|]. split; [reflexivity|]. eapply nth_error_In; exact B.
  - rewrite nth_error_app2 in A by (rewrite repeat_length; exact L). rewrite repeat_length in A.
    rewrite nth_error_app2 in B by exact L.
    destruct (IH _ _ _ _ A B) as (m & d & -> & E & I). exists (S m), d. split; [lia|]. auto.
Qed.

Lemma tags_mono cs : forall k i j l l', (i <= j)%nat -> nth_error (tags k cs) i = Some l ->
  nth_error (tags k cs) j = Some l' -> (l <= l')%nat.
Proof.
  induction cs as [|c cs IH]; intros k i j l l' L A B; cbn in *; [destruct i; discriminate|].
  destruct (Nat.lt_ge_cases i (length c)) as [Li|Li].
  - rewrite nth_error_app1 in A by (rewrite repeat_length; exact Li).
    apply nth_error_In in A. apply repeat_spec in A. subst l. apply nth_error_In in B.
    apply in_app_or in B. destruct B as [B|B]; [apply repeat_spec in B; lia|apply tags_in in B; lia].
  - rewrite nth_error_app2 in A by (rewrite repeat_length; exact Li).
    rewrite nth_error_app2 in B by (rewrite repeat_length; lia). rewrite repeat_length in *.
    eapply (IH (S k) (i - length c)%nat (j - length c)%nat); [lia|eassumption..].
Qed.

Lemma members_repeat l k c : members l (repeat k (length c)) c = if Nat.eqb k l then c else [].
Proof.
  unfold members. destruct (Nat.eqb k l) eqn:E.
  - induction c as [|h c IH]; cbn; [reflexivity|]. rewrite E. cbn. rewrite IH. reflexivity.
  - induction c as [|h c IH]; cbn; [reflexivity|]. rewrite E. exact IH.
Qed.

Lemma members_absent l ls : forall hs, ~ In l ls -> members l ls hs = [].
Proof.
  intros hs H. destruct (members l ls hs) as [|h r] eqn:E; [reflexivity|].
  destruct (members_in l ls hs h) as (j & A & _); [rewrite E; left; reflexivity|].
  elim H. eapply nth_error_In; exact A.
Qed.

Lemma clusters_of_tags cs : forall k,
  map (fun l => members l (tags k cs) (concat cs)) (seq k (length cs)) = cs.
Proof.
  induction cs as [|c cs IH]; intros k; cbn [length seq map tags concat]; [reflexivity|].
  f_equal.
  - rewrite members_app by (rewrite repeat_length; reflexivity).
    rewrite members_repeat, Nat.eqb_refl, members_absent, app_nil_r; [reflexivity|].
    intros I. apply tags_in in I. lia.
  - rewrite <- (IH (S k)) at 2. apply map_ext_in. intros l Il. apply in_seq in Il.
    rewrite members_app by (rewrite repeat_length; reflexivity). rewrite members_repeat.
    destruct (Nat.eqb_spec k l); [lia|]. reflexivity.
Qed.

Definition blob_src (cs : list (list hit)) (l : nat) : source :=
  match nth_error cs l with
  | Some (h :: _) => Source (h_x h) (h_y h) (arrival h)
  | _ => Source 0 0 0
  end.

(** The place and time of a cluster. *)
Lemma blob_place i cs k c h : blobs i cs -> nth_error cs k = Some c -> In h c ->
  exists x y s, blob_src cs k = Source x y (25 * s) /\ h_x h = x /\ h_y h = y /\ h_spider h = s /\
    10 * (i + Z.of_nat k) <= x <= 10 * (i + Z.of_nat k) + 2 /\
    10 * (i + Z.of_nat k) <= y <= 10 * (i + Z.of_nat k) + 2 /\
    0 <= s /\ 10 * (i + Z.of_nat k) - 1 <= s <= 10 * (i + Z.of_nat k) + 1.
Proof.
  intros B E I. destruct (blobs_nth _ _ _ _ B E) as (N & _ & x & y & s & X & Y & S0 & S1 & F).
  exists x, y, s. rewrite Forall_forall in F. destruct (F h I) as (Hx & Hy & Hs & _).
  split; [|auto 10]. unfold blob_src. rewrite E. destruct c as [|h0 c]; [congruence|].
  destruct (F h0 (or_introl eq_refl)) as (-> & -> & Hs' & _). unfold arrival. rewrite Hs'. reflexivity.
Qed.

Lemma nodup_same {A} (a : A) ms : NoDup ms -> (forall m, In m ms -> m = a) -> (length ms <= 1)%nat.
Proof.
  intros N F. destruct ms as [|x [|y ms]]; cbn; [lia|lia|]. exfalso.
  pose proof (F x (or_introl eq_refl)). pose proof (F y (or_intror (or_introl eq_refl))). subst.
  inversion N; subst. apply H1. left. reflexivity.
Qed.

Lemma blobs_nonempty cs : forall i, blobs i cs -> Forall (fun c => c <> []) cs.
Proof. induction cs as [|c cs IH]; intros i B; [constructor|]. destruct B as [(N & _) B]. constructor; eauto. Qed.

Lemma blobs_isolated n i cs : (0 < n)%nat -> blobs i cs ->
  isolated n 0 0 5 75 (blob_src cs) (concat cs) (tags 0 cs).
Proof.
  intros Hn B. pose proof (blobs_nonempty _ _ B) as NE.
  assert (Get : forall l, In l (tags 0 cs) -> exists x y s, blob_src cs l = Source x y (25 * s) /\
    10 * (i + Z.of_nat l) <= x <= 10 * (i + Z.of_nat l) + 2 /\
    10 * (i + Z.of_nat l) - 1 <= s <= 10 * (i + Z.of_nat l) + 1).
  { intros l I. apply tags_in in I. destruct (nth_error cs l) as [c|] eqn:E;
      [|apply nth_error_None in E; lia].
    rewrite Forall_forall in NE. pose proof (NE c (nth_error_In _ _ E)).
    destruct c as [|h c]; [congruence|].
    destruct (blob_place i cs l _ h B E (or_introl eq_refl)) as (x & y & s & P). exists x, y, s. tauto. }
  split.
  - apply tags_length.
  - intros j l E l' L.
    assert (Il : In l' (tags 0 cs)).
    { apply in_tags; [exact NE|]. apply nth_error_In in E. apply tags_in in E. lia. }
    apply In_nth_error in Il. destruct Il as (p & Ep).
    assert (p < j)%nat.
    { destruct (Nat.lt_ge_cases p j) as [H|H]; [exact H|].
      pose proof (tags_mono cs 0 j p _ _ H E Ep). lia. }
    apply nth_error_In with p. rewrite <- Ep.
    clear - H. revert j p H. generalize (tags 0 cs). intros l. induction l as [|x l IH]; intros j p L.
    + rewrite firstn_nil. reflexivity.
    + destruct j; [lia|]. destruct p; [reflexivity|]. cbn. apply IH. lia.
  - intros j l h A A'. destruct (tags_nth _ _ _ _ _ A A') as (m & c & -> & E & I). cbn [Nat.add].
    destruct (blob_place i cs m c h B E I) as (x & y & s & P & <- & <- & <- & _).
    rewrite P. unfold stems, arrival. cbn [at_x at_y at_t]. lia.
  - intros l l' I I' N. destruct (Get l I) as (x & y & s & -> & X & _).
    destruct (Get l' I') as (x' & y' & s' & -> & X' & _). left. cbn [at_x]. lia.
  - intros j j' h h' L E E'.
    assert (T : exists l, nth_error (tags 0 cs) j = Some l).
    { destruct (nth_error (tags 0 cs) j) eqn:X; [eauto|]. apply nth_error_None in X.
      rewrite tags_length in X. apply nth_error_None in X. congruence. }
    assert (T' : exists l, nth_error (tags 0 cs) j' = Some l).
    { destruct (nth_error (tags 0 cs) j') eqn:X; [eauto|]. apply nth_error_None in X.
      rewrite tags_length in X. apply nth_error_None in X. congruence. }
    destruct T as (l & T). destruct T' as (l' & T').
    pose proof (tags_mono cs 0 j j' l l' ltac:(lia) T T') as M.
    destruct (tags_nth _ _ _ _ _ T E) as (m & c & -> & Ec & I).
    destruct (tags_nth _ _ _ _ _ T' E') as (m' & c' & -> & Ec' & I').
    destruct (blob_place i cs m c h B Ec I) as (x & y & s & P & _ & _ & <- & _ & _ & _ & S1).
    destruct (blob_place i cs m' c' h' B Ec' I') as (x' & y' & s' & P' & _ & _ & <- & _ & _ & _ & S1').
    unfold arrival. destruct (Nat.eq_dec m m') as [->|N]; [|lia].
    rewrite P in P'. injection P' as _ _ P'. lia.
  - intros l ms I ND F. pose proof (nodup_same l ms ND) as H. assert (length ms <= 1)%nat; [|lia].
    apply H. intros m Im. destruct (F m Im) as [J T].
    destruct (Get l I) as (x & y & s & El & X & S1). destruct (Get m J) as (x' & y' & s' & Em & X' & S1').
    rewrite El, Em in T. cbn [at_t] in T. lia.
Qed.

(** * Centroids of wide hits *)

Lemma wide_bounds c : Forall wide_hit c ->
  0 <= hsum (fun h => h_x h * h_tot h) c <= 2 ^ 27 * 1023 * zlen c /\
  0 <= hsum (fun h => h_y h * h_tot h) c <= 2 ^ 27 * 1023 * zlen c /\
  0 <= hsum tof_value c <= (2 ^ 32 - 1) * zlen c /\
  0 <= hsum h_tot c <= 1023 * zlen c.
Proof.
  intros F.
  assert (X : forall g hi, (forall h, wide_hit h -> 0 <= g h <= hi) ->
     0 <= hsum g c <= hi * zlen c).
  { intros g hi Hg. destruct (hsum_bounds g c 0 hi); [|lia].
    eapply Forall_impl; [|exact F]. exact Hg. }
  repeat (split; [apply X; intros h (A & B & C & t & E & D); try nia|]).
  2:{ apply X. intros h (_ & _ & C & _). exact C. }
  unfold tof_value. rewrite E. lia.
Qed.

Lemma wide_loop c : forall pre s, Forall wide_hit (pre ++ c) -> zlen (pre ++ c) <= 2 ^ 10 ->
  sums_are s (hsum (fun h => h_x h * h_tot h) pre) (hsum (fun h => h_y h * h_tot h) pre)
             (hsum tof_value pre) (hsum h_tot pre) ->
  exists s', ofold (add_weighted (f_of_Z 1)) c s = Ok s' /\
    sums_are s' (hsum (fun h => h_x h * h_tot h) (pre ++ c)) (hsum (fun h => h_y h * h_tot h) (pre ++ c))
             (hsum tof_value (pre ++ c)) (hsum h_tot (pre ++ c)).
Proof.
  induction c as [|h c IH]; intros pre s F L S.
  - exists s. rewrite app_nil_r. auto.
  - replace (pre ++ h :: c) with ((pre ++ [h]) ++ c) in * by (rewrite <- app_assoc; reflexivity).
    assert (Fh : wide_hit h).
    { rewrite Forall_forall in F. apply F. apply in_or_app. left. apply in_or_app. right. left. reflexivity. }
    assert (Fp : Forall wide_hit (pre ++ [h])) by (apply Forall_app in F; tauto).
    assert (Lp : zlen (pre ++ [h]) <= 2 ^ 10) by (rewrite zlen_app in L; pose proof (zlen_nonneg c); lia).
    destruct (wide_bounds _ Fp) as (B1 & B2 & B5 & B6).
    rewrite !hsum_app in B1, B2, B5, B6. cbn [hsum fold_right] in B1, B2, B5, B6.
    rewrite !Z.add_0_r in *.
    destruct Fh as (Hx & Hy & Hw & t & Et & Ht).
    cbn [ofold]. unfold add_weighted at 1. unfold get_tof. rewrite Et. cbn [obind].
    destruct S as (S1 & S2 & S3 & S4).
    apply IH; [exact F|exact L|].
    rewrite !hsum_app. cbn [hsum fold_right]. rewrite !Z.add_0_r.
    unfold sums_are. cbn [s_x s_y s_tof s_tot].
    assert (T : tof_value h = t) by (unfold tof_value; rewrite Et; reflexivity).
    rewrite T in *.
    pose proof (zlen_nonneg (pre ++ [h])).
    split; [|split; [|split]];
      apply is_int_add; try assumption; try lia;
      try (apply is_int_of_Z; lia);
      (apply is_int_mul; [apply scaled_one; lia|apply is_int_of_Z; lia|nia]).
Qed.

Definition lit (c : list hit) : bool := 0 <? hsum h_tot c.

Lemma wide_centroid c : c <> [] -> Forall wide_hit c -> zlen c <= 2 ^ 10 ->
  exists e, centroid_fit true (f_of_Z 1) c = Ok e /\
    fge (n_x e) (f_of_Z 0) && fge (n_y e) (f_of_Z 0) = lit c.
Proof.
  intros Nc F L. pose proof (len_pos c Nc) as Lp.
  destruct (wide_loop c [] sums0 F L sums0_are) as (s & Es & S1 & S2 & S3 & S4).
  cbn [app] in *. destruct (wide_bounds c F) as (B1 & B2 & B5 & B6).
  unfold centroid_fit. destruct c as [|h0 c0] eqn:Ec; [congruence|]. rewrite <- Ec in *.
  rewrite Es. cbn [obind]. eexists. split; [reflexivity|]. cbn [n_x n_y].
  unfold lit. destruct (Z.ltb_spec 0 (hsum h_tot c)) as [Hp|Hz].
  - destruct (mean_close (s_x s) (s_tot s) (hsum (fun h => h_x h * h_tot h) c) (hsum h_tot c)) as [[X1 _] X2];
      [lia|lia|exact S1|exact S4|].
    destruct (mean_close (s_y s) (s_tot s) (hsum (fun h => h_y h * h_tot h) c) (hsum h_tot c)) as [[Y1 _] Y2];
      [lia|lia|exact S2|exact S4|].
    rewrite !fge_nonneg by assumption. reflexivity.
  - assert (Z0 : hsum h_tot c = 0) by lia. rewrite Z0 in S4.
    assert (Zx : hsum (fun h => h_x h * h_tot h) c = 0 /\ hsum (fun h => h_y h * h_tot h) c = 0).
    { clear - F Z0. induction F as [|h c Hh F IH]; [split; reflexivity|].
      cbn [hsum fold_right] in *. fold (hsum h_tot c) in Z0.
      fold (hsum (fun h => h_x h * h_tot h) c). fold (hsum (fun h => h_y h * h_tot h) c).
      destruct (wide_bounds c F) as (_ & _ & _ & B6). destruct Hh as (_ & _ & Hw & _).
      assert (h_tot h = 0) by lia. destruct IH as [-> ->]; [lia|]. rewrite H. split; ring. }
    destruct Zx as [Zx Zy]. rewrite Zx in S1. rewrite Zy in S2.
    assert (ZI : forall v, is_int v 0 -> exists b, v = B754_zero b).
    { intros v [Fv Ev]. destruct v as [b|b| |b m e p]; try discriminate; [exists b; reflexivity|].
      exfalso. cbn in Ev. apply eq_0_F2R in Ev. destruct b; discriminate. }
    destruct (ZI _ S1) as [bx ->]. destruct (ZI _ S2) as [by' ->]. destruct (ZI _ S4) as [bw ->].
    reflexivity.
Qed.

Lemma events_lit cs : (forall c, In c cs -> c <> [] /\ Forall wide_hit c /\ zlen c <= 10) ->
  exists evs, events (centroid_fit true (f_of_Z 1)) 1 cs evs /\ length evs = length (filter lit cs).
Proof.
  induction cs as [|c cs IH]; intros F.
  - exists []. split; [constructor|reflexivity].
  - destruct (IH (fun d I => F d (or_intror I))) as (evs & E & L).
    destruct (F c (or_introl eq_refl)) as (N & W & Ln).
    destruct (wide_centroid c N W ltac:(lia)) as (e & Ee & G). cbn [filter].
    pose proof (len_pos c N). destruct (lit c).
    + exists (e :: evs). split; [apply ev_keep; assumption|cbn; congruence].
    + exists evs. split; [eapply ev_bad; eassumption|exact L].
Qed.

Lemma blob_wide i k c h : blob (i + Z.of_nat k) c -> 0 <= i -> i + Z.of_nat k < 12000000 -> In h c ->
  wide_hit h /\ hit_ok h.
Proof.
  intros (_ & _ & x & y & s & X & Y & S0 & S1 & F) Hi Hk I. rewrite Forall_forall in F.
  destruct (F h I) as (Ex & Ey & Es & T). unfold wide_hit, hit_ok. rewrite Ex, Ey, Es.
  repeat split; try tauto; lia.
Qed.

(** The box search on clusters of equal hits. *)
Lemma blobs_run n ext o i cs : (0 < n)%nat -> 0 <= i -> i + zlen cs <= 12000000 -> blobs i cs ->
  exists o' evs, abs_fit n fake_cfg o (concat cs) = Ok o' /\
    abs_get_events ext fake_cfg (abs_set_method o' MCentroid) (concat cs) = Ok evs /\
    length evs = length (filter lit cs) /\ o_method o' = o_method o /\ length (o_labels o') = length (concat cs).
Proof.
  intros Hn Hi Hl B.
  assert (Each : forall c, In c cs -> exists k, nth_error cs k = Some c /\ blob (i + Z.of_nat k) c /\
            i + Z.of_nat k < 12000000).
  { intros c I. apply In_nth_error in I. destruct I as (k & E). exists k.
    split; [exact E|]. split; [eapply blobs_nth; eassumption|].
    assert (k < length cs)%nat by (apply nth_error_Some; congruence). unfold zlen in Hl. lia. }
  assert (Ok' : Forall hit_ok (concat cs)).
  { apply Forall_forall. intros h I. apply in_concat in I. destruct I as (c & Ic & I).
    destruct (Each c Ic) as (k & _ & Bc & L). eapply blob_wide; eassumption. }
  assert (S : separable n (fits_box (5 * 2 ^ 20) (a_range fake_cfg)) (concat cs) (tags 0 cs)).
  { apply (isolated_separable n 0 0 5 75 (blob_src cs)); try lia. apply (blobs_isolated n i); assumption. }
  assert (Hr : 0 <= a_range fake_cfg < 2 ^ 64) by (cbn; lia).
  destruct (C87_events_l n fake_cfg (5 * 2 ^ 20) ext o (concat cs) (tags 0 cs) MCentroid
    (centroid_fit true (f_of_Z 1)) (length cs) Hn Ok' five_is Hr S) as (o' & E & Ev).
  - intros l. split; [intros I; apply tags_in in I; lia|].
    intros L. apply in_tags; [eapply blobs_nonempty; exact B|lia].
  - reflexivity.
  - destruct (events_lit cs) as (evs & Ee & Le).
    { intros c I. destruct (Each c I) as (k & _ & Bc & L). split; [apply Bc|]. split; [|apply Bc].
      apply Forall_forall. intros h Ih. eapply blob_wide; eassumption. }
    destruct (fit_refines n fake_cfg o (concat cs) Hn Ok') as (ls & op & closed & o2 & E2 & C & Em & El & _).
    rewrite E in E2. apply Ok_inj in E2. subst o2.
    exists o', evs. split; [exact E|]. split; [|split; [exact Le|]].
    + apply Ev. unfold clusters_of. rewrite clusters_of_tags. exact Ee.
    + split; [exact Em|]. rewrite El, map_length. eapply clusters_length; exact C.
Qed.

(** * From the numbers drawn to the clusters *)

Lemma weak lo hi d : drawn lo hi d -> (IZR lo <= B2R d <= IZR hi)%R.
Proof. intros [_ H]. lra. Qed.

Lemma drawn_int lo hi d a b : drawn a b d -> lo <= a -> b <= hi -> 0 <= a -> a < b ->
  exists z, conv (f_to_int lo hi d) = Ok z /\ z = Ztrunc (B2R d) /\ a <= z < b.
Proof.
  intros D L H Ha Hab. destruct (to_int_between lo hi d a b (proj1 D) (weak _ _ _ D) L H) as (z & E & T & B).
  exists z. rewrite E. split; [reflexivity|]. split; [exact T|].
  destruct D as [_ [D1 D2]]. assert (z < b); [|lia].
  rewrite T. assert (P : (0 <= B2R d)%R) by (apply Rle_trans with (IZR a); [apply IZR_le; exact Ha|exact D1]).
  rewrite Ztrunc_floor by exact P. apply lt_IZR.
  apply Rle_lt_trans with (B2R d); [apply Zfloor_lb|exact D2].
Qed.

Lemma trunc_one d : drawn 0 100 d -> (0 <? Ztrunc (B2R d)) = fge d (f_of_Z 1).
Proof.
  intros [F [A B]]. unfold fge. fold (fle (f_of_Z 1) d). destruct one_int as [F1 E1].
  rewrite fle_R by assumption. rewrite E1. rewrite Ztrunc_floor by exact A.
  destruct (Rle_bool_spec 1 (B2R d)) as [L|L].
  - apply Z.ltb_lt. assert (1 <= Zfloor (B2R d)) by (apply Zfloor_lub; exact L). lia.
  - apply Z.ltb_ge. assert (Zfloor (B2R d) < 1); [|lia]. apply lt_IZR.
    apply Rle_lt_trans with (B2R d); [apply Zfloor_lb|exact L].
Qed.

Lemma fake_hit_ok x y t d : fair_hit d -> exists h, fake_hit x y t d = Ok h /\
  h_x h = x /\ h_y h = y /\ h_spider h = u64 t /\ 0 <= h_tot h <= 99 /\
  (exists v, h_tof h = Some v /\ 0 <= v < 2 ^ 32) /\ (0 <? h_tot h) = fge (w_tot d) (f_of_Z 1).
Proof.
  intros (A & B & C & D). unfold fake_hit, f_to_i32.
  destruct (drawn_int int_min int_max _ _ _ A) as (tot & -> & T & Bt); try (unfold int_min, int_max; lia).
  destruct (drawn_int int_min int_max _ _ _ B) as (toa & -> & _ & _); try (unfold int_min, int_max; lia).
  destruct (drawn_int int_min int_max _ _ _ C) as (fto & -> & _ & _); try (unfold int_min, int_max; lia).
  destruct (drawn_int 0 (2 ^ 32 - 1) _ _ _ D) as (tof & -> & _ & Bf); try lia.
  cbn [obind]. eexists. split; [reflexivity|]. cbn.
  repeat (split; [reflexivity|]). split; [lia|]. split; [exists tof; split; [reflexivity|lia]|].
  rewrite T. apply trunc_one. exact A.
Qed.

Lemma fake_hits_of x y t ds : Forall fair_hit ds -> exists c, ocollect (fake_hit x y t) ds = Ok c /\
  length c = length ds /\
  Forall (fun h => h_x h = x /\ h_y h = y /\ h_spider h = u64 t /\ 0 <= h_tot h <= 1023 /\
                   exists v, h_tof h = Some v /\ 0 <= v < 2 ^ 32) c /\
  0 <= hsum h_tot c /\
  lit c = existsb (fun h => fge (w_tot h) (f_of_Z 1)) ds.
Proof.
  induction 1 as [|d ds F Fs (c & E & L & A & P & S)].
  - exists []. repeat split; try constructor; cbn; lia.
  - destruct (fake_hit_ok x y t d F) as (h & Eh & X & Y & T & W & V & O).
    exists (h :: c). cbn [ocollect]. rewrite Eh, E. cbn [obind]. split; [reflexivity|].
    split; [cbn; congruence|]. split; [constructor; [|exact A]; repeat (split; [assumption || lia|]); exact V|].
    cbn [hsum fold_right existsb]. fold (hsum h_tot c). split; [lia|].
    unfold lit in *. cbn [hsum fold_right]. fold (hsum h_tot c). rewrite <- S, <- O. lia.
Qed.

Lemma cluster_blob i d : possible d -> 0 <= i < 12000000 -> (i = 0 -> (-1 < B2R (w_time d))%R) ->
  exists c, fake_cluster i d = Ok c /\ blob i c /\ length c = 10%nat /\ lit c = seen d.
Proof.
  intros (X & Y & T & L & F) Hi Z. unfold fake_cluster, f_to_i32.
  destruct (add_between (10 * i) (w_x d) 0 2) as [Fx Bx]; try lia; [apply X|apply weak; exact X|].
  destruct (add_between (10 * i) (w_y d) 0 2) as [Fy By]; try lia; [apply Y|apply weak; exact Y|].
  destruct (add_between (10 * i) (w_time d) (-1) 1) as [Ft Bt]; try lia; [apply T|apply weak; exact T|].
  destruct (to_int_between int_min int_max _ _ _ Fx Bx) as (x & -> & _ & Cx); try (unfold int_min, int_max; lia).
  destruct (to_int_between int_min int_max _ _ _ Fy By) as (y & -> & _ & Cy); try (unfold int_min, int_max; lia).
  destruct (to_int_between int_min int_max _ _ _ Ft Bt) as (t & -> & Et & Ct); try (unfold int_min, int_max; lia).
  assert (Pt : 0 <= t).
  { destruct (Z.eq_dec i 0) as [->|N]; [|lia]. specialize (Z eq_refl).
    assert (t = 0); [|lia]. rewrite Et, <- trunc_B. apply (add_zero (w_time d)); [apply T|].
    split; [exact Z|]. apply T. }
  cbn [conv obind]. destruct (fake_hits_of x y t (w_hits d) F) as (c & -> & Lc & A & _ & S).
  exists c. split; [reflexivity|]. split; [|split; [congruence|exact S]].
  assert (Ut : u64 t = t) by (apply Z.mod_small; lia). rewrite Ut in A.
  split; [intros ->; cbn in Lc; lia|]. split; [unfold zlen; lia|].
  exists x, y, t. split; [lia|]. split; [lia|]. split; [exact Pt|]. split; [lia|]. exact A.
Qed.

Lemma hits_blobs ds : forall i, Forall possible ds -> 0 <= i -> i + zlen ds <= 12000000 ->
  (i = 0 -> starts_late ds) ->
  exists cs, fake_hits i ds = Ok (concat cs) /\ blobs i cs /\ length cs = length ds /\
    Forall (fun c => length c = 10%nat) cs /\ length (filter lit cs) = length (filter seen ds).
Proof.
  induction ds as [|d ds IH]; intros i F Hi L Z.
  - exists []. repeat split; constructor.
  - inversion F as [|? ? P Fs]; subst. rewrite zlen_cons in L. pose proof (zlen_nonneg ds).
    destruct (cluster_blob i d P ltac:(lia) Z) as (c & Ec & Bc & Lc & Sc).
    destruct (IH (i + 1) Fs ltac:(lia) ltac:(lia) ltac:(lia)) as (cs & E & B & Ln & F10 & S).
    exists (c :: cs). cbn [fake_hits]. rewrite Ec, E. cbn [obind concat]. split; [reflexivity|].
    split; [split; assumption|]. split; [cbn; congruence|]. split; [constructor; assumption|].
    cbn [filter]. rewrite Sc. destruct (seen d); cbn; congruence.
Qed.

(** * The programs *)

Lemma method_same o : o_method o = MCentroid -> abs_set_method o MCentroid = o.
Proof. destruct o as [m l i]. cbn. intros ->. reflexivity. Qed.

Lemma C88_events_l ext ds : Forall possible ds -> starts_late ds -> zlen ds <= 12000000 ->
  hits2events ext ds = Ok (number_seen ds).
Proof.
  intros F Z L. destruct (hits_blobs ds 0 F ltac:(lia) ltac:(lia) (fun _ => Z)) as (cs & E & B & Ln & _ & S).
  destruct (blobs_run 8 ext abs_new 0 cs ltac:(lia) ltac:(lia) ltac:(unfold zlen in *; lia) B)
    as (o' & evs & Ef & Ee & Le & Em & _).
  unfold hits2events. rewrite E. cbn [obind]. rewrite Ef. cbn [obind].
  rewrite (method_same o' Em) in Ee. rewrite Ee. cbn [obind]. unfold number_seen, zlen. congruence.
Qed.

Lemma lib_run ext cs i : 0 <= i -> i + zlen cs <= 12000000 -> blobs i cs -> cs <> [] ->
  exists evs, thread_run ext (concat cs) = Ok evs /\ lib_test ext (concat cs) = Ok evs /\
    length evs = length (filter lit cs).
Proof.
  intros Hi L B N.
  destruct (blobs_run 4 ext abs_new i cs ltac:(lia) Hi L B) as (o' & evs & Ef & Ee & Le & Em & Ln).
  exists evs. unfold thread_run, lib_test, lib_fit. rewrite Ef. cbn [obind].
  rewrite (method_same o' Em) in *.
  assert (X : lib_get_events ext fake_cfg o' (concat cs) = Ok evs).
  { unfold lib_get_events. replace (zlen (o_labels o') =? zlen (concat cs)) with true
      by (unfold zlen; rewrite Ln; lia). cbn [negb].
    destruct (o_labels o') as [|l ls] eqn:El; [|exact Ee]. exfalso.
    destruct cs as [|c cs]; [congruence|]. destruct B as [(Nc & _) _]. destruct c; [congruence|].
    discriminate. }
  rewrite X. auto.
Qed.

Lemma collect_const {A B} (f : A -> outcome B) b l : (forall a, f a = Ok b) ->
  ocollect f l = Ok (repeat b (length l)).
Proof. intros H. induction l as [|a l IH]; cbn; [reflexivity|]. rewrite H, IH. reflexivity. Qed.

Lemma C88_abs_l ext tests ds : ds <> [] -> Forall possible ds -> starts_late ds -> zlen ds <= 12000000 ->
  bench_abs ext tests ds = Ok (repeat (number_seen ds) tests).
Proof.
  intros N F Z L. destruct (hits_blobs ds 0 F ltac:(lia) ltac:(lia) (fun _ => Z)) as (cs & E & B & Ln & _ & S).
  destruct (lib_run ext cs 0 ltac:(lia) ltac:(unfold zlen in *; lia) B) as (evs & _ & Et & Le).
  { intros ->. destruct ds; [congruence|discriminate]. }
  unfold bench_abs. rewrite E. cbn [obind].
  rewrite (collect_const _ (number_seen ds)); [rewrite seq_length; reflexivity|].
  intros _. rewrite Et. cbn [obind]. unfold number_seen, zlen. congruence.
Qed.

(** * Chunks *)

Lemma pieces {A} (l : list A) sz : forall j,
  concat (map (fun i => firstn sz (skipn (i * sz) l)) (seq 0 j)) = firstn (j * sz) l.
Proof.
  induction j as [|j IH]; [reflexivity|].
  rewrite seq_S, map_app, concat_app, IH. cbn [map concat Nat.add]. rewrite app_nil_r.
  replace (S j * sz)%nat with (j * sz + sz)%nat by lia.
  clear IH. generalize (j * sz)%nat as a. intros a. revert a. induction l as [|x l IH]; intros a.
  - rewrite skipn_nil, !firstn_nil. reflexivity.
  - destruct a; [reflexivity|]. cbn. f_equal. apply IH.
Qed.

Lemma C88_chunks_l {A} n (hits : list A) : (0 < n)%nat ->
  concat (map (chunk n hits) (seq 0 n)) = hits.
Proof.
  intros Hn. set (sz := Nat.div (length hits) n). destruct n as [|n]; [lia|].
  rewrite seq_S, map_app, concat_app. cbn [map concat Nat.add]. rewrite app_nil_r.
  rewrite (map_ext_in _ (fun i => firstn sz (skipn (i * sz) hits))).
  - rewrite pieces. unfold chunk. replace (S n - 1)%nat with n by lia. rewrite Nat.eqb_refl.
    apply firstn_skipn.
  - intros i I. apply in_seq in I. unfold chunk. replace (S n - 1)%nat with n by lia.
    destruct (Nat.eqb_spec i n); [lia|]. reflexivity.
Qed.

Lemma concat_ten_skip {A} (cs : list (list A)) : Forall (fun c => length c = 10%nat) cs ->
  forall m, skipn (10 * m) (concat cs) = concat (skipn m cs) /\
            firstn (10 * m) (concat cs) = concat (firstn m cs).
Proof.
  induction 1 as [|c cs L F IH]; intros m.
  - rewrite skipn_nil, firstn_nil. cbn [concat]. rewrite skipn_nil, firstn_nil. split; reflexivity.
  - destruct m as [|m]; [split; reflexivity|]. cbn [concat skipn firstn]. destruct (IH m) as [A1 A2].
    replace (10 * S m)%nat with (length c + 10 * m)%nat by lia. split.
    + rewrite skipn_app. rewrite skipn_all2 by lia. cbn [app].
      replace (length c + 10 * m - length c)%nat with (10 * m)%nat by lia. exact A1.
    + rewrite firstn_app_2. rewrite A2. reflexivity.
Qed.

Lemma ten_length {A} (cs : list (list A)) : Forall (fun c => length c = 10%nat) cs ->
  length (concat cs) = (10 * length cs)%nat.
Proof. induction 1 as [|c cs L F IH]; cbn [concat length]; [reflexivity|]. rewrite app_length. lia. Qed.

Lemma chunk_concat {A} n (cs : list (list A)) q i : (0 < n)%nat -> Forall (fun c => length c = 10%nat) cs ->
  Nat.div (length (concat cs)) n = (10 * q)%nat -> chunk n (concat cs) i = concat (chunk n cs i).
Proof.
  intros Hn F Hq. rewrite (ten_length cs F) in Hq.
  assert (Q : Nat.div (length cs) n = q).
  { symmetry. apply (Nat.div_unique _ _ _ (length cs - n * q)).
    - pose proof (Nat.div_mod (10 * length cs) n ltac:(lia)).
      pose proof (Nat.mod_upper_bound (10 * length cs) n ltac:(lia)). nia.
    - pose proof (Nat.mul_div_le (10 * length cs) n ltac:(lia)). nia. }
  unfold chunk. rewrite (ten_length cs F), Hq, Q.
  replace (i * (10 * q))%nat with (10 * (i * q))%nat by lia.
  rewrite (proj1 (concat_ten_skip cs F (i * q))).
  destruct (Nat.eqb i (n - 1)); [reflexivity|].
  apply concat_ten_skip. apply Forall_forall. intros c I. rewrite Forall_forall in F. apply F.
  rewrite <- (firstn_skipn (i * q) cs). apply in_or_app. right. exact I.
Qed.

Lemma blobs_skip cs : forall m i, blobs i cs -> blobs (i + Z.of_nat m) (skipn m cs).
Proof.
  induction cs as [|c cs IH]; intros m i B; [rewrite skipn_nil; exact I|].
  destruct m as [|m]; [replace (i + Z.of_nat 0) with i by lia; exact B|].
  cbn [skipn]. replace (i + Z.of_nat (S m)) with (i + 1 + Z.of_nat m) by lia. apply IH, B.
Qed.
Lemma blobs_first cs : forall m i, blobs i cs -> blobs i (firstn m cs).
Proof.
  induction cs as [|c cs IH]; intros m i B; [rewrite firstn_nil; exact I|].
  destruct m as [|m]; [exact I|]. cbn [firstn]. destruct B as [B1 B2]. split; [exact B1|apply IH; exact B2].
Qed.

Lemma chunk_blobs n cs j : (j < n)%nat -> blobs 0 cs -> zlen cs <= 12000000 -> (n <= length cs)%nat ->
  exists i, 0 <= i /\ i + zlen (chunk n cs j) <= 12000000 /\ blobs i (chunk n cs j) /\ chunk n cs j <> [].
Proof.
  intros Hj B L Hn. set (q := Nat.div (length cs) n).
  assert (Q : (0 < q)%nat) by (apply Nat.div_str_pos; lia).
  assert (Qn : (n * q <= length cs)%nat) by (apply Nat.mul_div_le; lia).
  assert (J : (j * q + q <= length cs)%nat) by nia.
  exists (Z.of_nat (j * q)). split; [lia|]. unfold chunk. fold q.
  assert (B' := blobs_skip cs (j * q) 0 B). rewrite Z.add_0_l in B'.
  assert (Ls : length (skipn (j * q) cs) = (length cs - j * q)%nat) by apply skipn_length.
  unfold zlen in *. destruct (Nat.eqb j (n - 1)).
  - split; [lia|]. split; [exact B'|]. intros E. rewrite E in Ls. cbn in Ls. lia.
  - split; [rewrite firstn_length; lia|]. split; [apply blobs_first; exact B'|].
    intros E. pose proof (firstn_length q (skipn (j * q) cs)) as Lf. rewrite E in Lf. cbn in Lf. lia.
Qed.

Lemma collect_runs ext n cs l : blobs 0 cs -> zlen cs <= 12000000 -> (n <= length cs)%nat ->
  (forall j, In j l -> (j < n)%nat) ->
  exists evss, ocollect (fun j => thread_run ext (concat (chunk n cs j))) l = Ok evss /\
    length (concat evss) = length (filter lit (concat (map (chunk n cs) l))).
Proof.
  intros B L Hn. induction l as [|j l IH]; intros F.
  - exists []. split; reflexivity.
  - destruct (IH (fun k I => F k (or_intror I))) as (evss & E & Le).
    destruct (chunk_blobs n cs j (F j (or_introl eq_refl)) B L Hn) as (i & Hi & Li & Bi & Ni).
    destruct (lib_run ext _ i Hi Li Bi Ni) as (evs & Et & _ & Lv).
    exists (evs :: evss). cbn [ocollect]. rewrite Et, E. split; [reflexivity|].
    cbn [map concat]. rewrite filter_app, !app_length. congruence.
Qed.

Lemma collect_ext {A B} (f g : A -> outcome B) l : (forall a, f a = g a) -> ocollect f l = ocollect g l.
Proof. intros H. induction l as [|a l IH]; cbn; [reflexivity|]. rewrite H, IH. reflexivity. Qed.

Lemma C88_threads_l ext n q ds : (0 < n)%nat -> (0 < q)%nat -> Forall possible ds -> starts_late ds ->
  zlen ds <= 12000000 -> Nat.div (10 * length ds) n = (10 * q)%nat ->
  exists hits evss, fake_hits 0 ds = Ok hits /\ thread_test ext n hits = Ok evss /\
    length evss = n /\ zlen (concat evss) = number_seen ds.
Proof.
  intros Hn Hq F Z L Hd.
  destruct (hits_blobs ds 0 F ltac:(lia) ltac:(lia) (fun _ => Z)) as (cs & E & B & Ln & F10 & S).
  exists (concat cs).
  assert (Nn : (n <= length cs)%nat).
  { rewrite Ln. pose proof (Nat.mul_div_le (10 * length ds) n ltac:(lia)). nia. }
  assert (Hc : forall j, chunk n (concat cs) j = concat (chunk n cs j)).
  { intros j. apply (chunk_concat n cs q j Hn F10). rewrite (ten_length cs F10), Ln. exact Hd. }
  destruct (collect_runs ext n cs (seq 0 n) B ltac:(unfold zlen in *; lia) Nn) as (evss & Ee & Le).
  { intros j I. apply in_seq in I. lia. }
  exists evss. split; [exact E|].
  assert (T : thread_test ext n (concat cs) = Ok evss).
  { unfold thread_test. rewrite <- Ee. apply collect_ext. intros j. rewrite Hc. reflexivity. }
  split; [exact T|]. split.
  - clear - Ee. assert (X : forall l es, ocollect (fun j => thread_run ext (concat (chunk n cs j))) l = Ok es ->
      length es = length l).
    { induction l as [|j l IH]; intros es H; cbn in H; [injection H as <-; reflexivity|].
      destruct (thread_run _ _); try discriminate. cbn [obind] in H.
      destruct (ocollect _ l) eqn:El; try discriminate. cbn [obind] in H. injection H as <-.
      cbn. f_equal. apply IH. reflexivity. }
    rewrite (X _ _ Ee). apply seq_length.
  - unfold zlen, number_seen. rewrite Le, C88_chunks_l by exact Hn. unfold zlen. congruence.
Qed.

Lemma C88_idle_l ext n hits : (length hits < n)%nat -> thread_test ext n hits = UB NullDeref.
Proof.
  intros L. destruct n as [|n]; [lia|]. unfold thread_test. cbn [seq ocollect].
  assert (C : chunk (S n) hits 0 = []).
  { unfold chunk. rewrite Nat.div_small by exact L. cbn [Nat.mul skipn firstn].
    destruct (Nat.eqb_spec 0 (S n - 1)); [|reflexivity]. destruct hits; [reflexivity|cbn in L; lia]. }
  rewrite C. reflexivity.
Qed.

(** The benchmark's sizes: 12000000 clusters for 64 threads. *)
Lemma C88_main_l ext ds : zlen ds = 12000000 -> Forall possible ds -> starts_late ds ->
  exists hits evss, fake_hits 0 ds = Ok hits /\ thread_test ext 64 hits = Ok evss /\
    length evss = 64%nat /\ zlen (concat evss) = number_seen ds.
Proof.
  intros L F Z. apply (C88_threads_l ext 64 (Z.to_nat 187500)); try assumption; try lia.
  apply Nat2Z.inj. rewrite Nat2Z.inj_div, !Nat2Z.inj_mul, Z2Nat.id by lia.
  unfold zlen in L. rewrite L. reflexivity.
Qed.

Lemma drawn_of_Z z lo hi : Z.abs z <= 2 ^ 53 -> lo <= z < hi -> drawn lo hi (f_of_Z z).
Proof.
  intros H B. destruct (is_int_of_Z z H) as [F E]. split; [exact F|]. rewrite E.
  split; [apply IZR_le|apply IZR_lt]; lia.
Qed.
