From Coq Require Import Reals Lia Lra Permutation.
From Flocq Require Import Core BinarySingleNaN.
From Verif Require Import F64Facts S_Order P_Centroid P_Recover.
Local Open Scope Z_scope.

(** * Exact sums *)

Lemma of_Z_zero : f_of_Z 0 = B754_zero false.
Proof. reflexivity. Qed.

(** A double that is a whole number; zero has the positive sign. *)
Definition whole (v : f64) (z : Z) : Prop := is_int v z /\ (z = 0 -> v = B754_zero false).
Lemma whole_of_Z z : Z.abs z <= 2 ^ 53 -> whole (f_of_Z z) z.
Proof. intros H. split; [apply is_int_of_Z; exact H|]. intros ->. exact of_Z_zero. Qed.
Lemma strict v z : is_int v z -> z <> 0 -> is_finite_strict v = true.
Proof.
  intros [F E] N. destruct v as [s|s| |s m e B]; try discriminate F; [|reflexivity]. cbn in E. apply eq_IZR in E. lia.
Qed.
Lemma whole_unique v z : Z.abs z <= 2 ^ 53 -> whole v z -> v = f_of_Z z.
Proof.
  intros H [I Z0]. destruct (Z.eq_dec z 0) as [->|N]; [rewrite (Z0 eq_refl); reflexivity|].
  assert (J := is_int_of_Z z H). apply B2R_inj; [exact (strict v z I N)|exact (strict _ z J N)|].
  rewrite (proj2 I), (proj2 J). reflexivity.
Qed.
Lemma add_Z a b : 0 <= a -> 0 <= b -> a + b <= 2 ^ 53 -> fadd (f_of_Z a) (f_of_Z b) = f_of_Z (a + b).
Proof.
  intros A B H. apply whole_unique; [lia|]. split.
  - apply is_int_add; [apply is_int_of_Z; lia|apply is_int_of_Z; lia|lia].
  - intros Z0. assert (a = 0) by lia. assert (b = 0) by lia. subst. reflexivity.
Qed.
Lemma sign_pos v z : is_int v z -> 0 < z -> Bsign v = false.
Proof.
  intros [F E] P. apply IZR_lt in P. rewrite <- E in P. destruct v as [s|s| |s m e B]; try discriminate F.
  - cbn in P. lra.
  - cbn in P |- *. destruct s; [|reflexivity]. exfalso.
    assert (X : (@F2R radix2 {| Fnum := Z.neg m; Fexp := e |} < 0)%R) by (apply F2R_lt_0; reflexivity). change (0 < @F2R radix2 {| Fnum := Z.neg m; Fexp := e |})%R in P. lra.
Qed.
Lemma mul_zero v z : is_int v z -> 0 < z -> fmul (B754_zero false) v = B754_zero false /\ fmul v (B754_zero false) = B754_zero false.
Proof.
  intros I P. assert (S := sign_pos v z I P). assert (T := strict v z I ltac:(lia)).
  destruct v as [s|s| |s m e B]; try discriminate T. cbn in S. subst s. split; reflexivity.
Qed.
Lemma mul_Z a b : 0 <= a <= 2 ^ 53 -> 0 <= b <= 2 ^ 53 -> a * b <= 2 ^ 53 -> fmul (f_of_Z a) (f_of_Z b) = f_of_Z (a * b).
Proof.
  intros A B H. apply whole_unique; [nia|]. split.
  - apply is_int_mul; [apply is_int_of_Z; lia|apply is_int_of_Z; lia|nia].
  - intros Z0. destruct (Z.eq_dec a 0) as [->|Na].
    + rewrite of_Z_zero. destruct (Z.eq_dec b 0) as [->|Nb]; [reflexivity|].
      apply (mul_zero _ b); [apply is_int_of_Z; lia|lia].
    + assert (b = 0) by nia. subst b. rewrite of_Z_zero. apply (mul_zero _ a); [apply is_int_of_Z; lia|lia].
Qed.

Lemma hsum_nonneg g c : Forall (fun h => 0 <= g h) c -> 0 <= hsum g c.
Proof. induction 1 as [|h c H _ IH]; [reflexivity|]. cbn [hsum fold_right]. fold (hsum g c). lia. Qed.
Lemma hsum_perm g c c' : Permutation c c' -> hsum g c = hsum g c'.
Proof. intros P. induction P; unfold hsum in *; cbn [fold_right]; lia. Qed.
Lemma total_hsum g t : Forall (fun h => 0 <= g h) (terms t) -> hsum g (terms t) <= 2 ^ 53 ->
  computed g t = f_of_Z (hsum g (terms t)).
Proof.
  induction t as [h|a IHa b IHb]; cbn [terms computed]; intros F L.
  - f_equal. cbn. ring.
  - apply Forall_app in F. destruct F as [Fa Fb]. rewrite hsum_app in L |- *.
    pose proof (hsum_nonneg g _ Fa). pose proof (hsum_nonneg g _ Fb).
    rewrite IHa by (assumption || lia). rewrite IHb by (assumption || lia). apply add_Z; assumption.
Qed.

(** The sums of the centroid, as doubles. *)
Definition exact_sums (wx wy : hit -> Z) (c : list hit) : sums :=
  Sums (f_of_Z (hsum wx c)) (f_of_Z (hsum wy c)) (f_of_Z (hsum tof_value c)) (f_of_Z (hsum h_tot c)).
Definition wx (h : hit) : Z := h_x h * h_tot h.
Definition wy (h : hit) : Z := h_y h * h_tot h.

Lemma sensor_small h : sensor_hit h -> 0 <= wx h <= 515 * 1023 /\ 0 <= wy h <= 515 * 1023 /\ 0 <= h_x h <= 515 /\ 0 <= h_y h <= 515 /\
  0 <= tof_value h < 2 ^ 32 /\ 0 <= h_tot h <= 1023.
Proof. intros (X & Y & T & t & E & B). unfold wx, wy, tof_value. rewrite E. repeat split; nia. Qed.
Lemma snoc_len {A} (c : list A) h : zlen (c ++ [h]) = zlen c + 1.
Proof. unfold zlen. rewrite app_length. cbn [length]. lia. Qed.
Lemma hsum_snoc g c h : hsum g (c ++ [h]) = hsum g c + g h.
Proof. rewrite hsum_app. cbn. ring. Qed.

Lemma sums_limits c : Forall sensor_hit c -> zlen c <= 2 ^ 21 ->
  (0 <= hsum wx c <= 2 ^ 52 /\ 0 <= hsum wy c <= 2 ^ 52 /\ 0 <= hsum h_x c <= 2 ^ 52 /\ 0 <= hsum h_y c <= 2 ^ 52 /\
   0 <= hsum tof_value c <= 2 ^ 53 /\ 0 <= hsum h_tot c <= 2 ^ 52).
Proof.
  intros F L. destruct (sensor_bounds c F) as (A & B & C & D & E & G). fold wx in A. fold wy in B.
  pose proof (zlen_nonneg c). repeat split; try lia.
Qed.

Lemma step_exact (weighted : bool) c h : Forall sensor_hit (c ++ [h]) -> zlen (c ++ [h]) <= 2 ^ 21 ->
  (if weighted then add_weighted (f_of_Z 1) (exact_sums wx wy c) h else add_plain (f_of_Z 1) (exact_sums h_x h_y c) h) =
  Ok (if weighted then exact_sums wx wy (c ++ [h]) else exact_sums h_x h_y (c ++ [h])).
Proof.
  intros F L. assert (S := sums_limits _ F L). rewrite !hsum_snoc in S.
  apply Forall_app in F. destruct F as [Fc Fh]. inversion Fh as [|? ? Hh _]; subst.
  rewrite snoc_len in L. assert (S' := sums_limits _ Fc ltac:(lia)). clear L.
  destruct (sensor_small h Hh) as (B1 & B2 & B3 & B4 & B5 & B6).
  destruct Hh as (_ & _ & _ & t & Et & Bt). assert (Tv : tof_value h = t) by (unfold tof_value; rewrite Et; reflexivity).
  unfold exact_sums. rewrite !hsum_snoc.
  destruct weighted; unfold add_weighted, add_plain, get_tof; rewrite Et; cbn [obind s_x s_y s_tof s_tot]; f_equal;
    rewrite !(mul_Z 1) by lia; rewrite ?Z.mul_1_l.
  - rewrite (mul_Z (h_x h) (h_tot h)) by (unfold wx in *; lia). rewrite (mul_Z (h_y h) (h_tot h)) by (unfold wy in *; lia).
    fold (wx h) (wy h). rewrite <- Tv. f_equal; apply add_Z; lia.
  - rewrite <- Tv. f_equal; apply add_Z; lia.
Qed.
Lemma loop_exact (weighted : bool) c : forall pre, Forall sensor_hit (pre ++ c) -> zlen (pre ++ c) <= 2 ^ 21 ->
  ofold (if weighted then add_weighted (f_of_Z 1) else add_plain (f_of_Z 1)) c
    (if weighted then exact_sums wx wy pre else exact_sums h_x h_y pre) =
  Ok (if weighted then exact_sums wx wy (pre ++ c) else exact_sums h_x h_y (pre ++ c)).
Proof.
  induction c as [|h c IH]; intros pre F L.
  - rewrite app_nil_r. reflexivity.
  - cbn [ofold]. replace (pre ++ h :: c) with ((pre ++ [h]) ++ c) in * by (rewrite <- app_assoc; reflexivity).
    assert (F1 := proj1 (proj1 (Forall_app _ _ _) F)).
    assert (L1 : zlen (pre ++ [h]) <= 2 ^ 21).
    { unfold zlen in *. rewrite app_length in L. lia. }
    assert (S := step_exact weighted pre h F1 L1). specialize (IH (pre ++ [h]) F L).
    destruct weighted; rewrite S; cbn [obind]; exact IH.
Qed.

Definition exact_fit (weighted : bool) (c : list hit) : neutron :=
  let inv := fdiv (f_of_Z 1) (f_of_Z (if weighted then hsum h_tot c else zlen c)) in
  Neutron (fmul (f_of_Z (hsum (if weighted then wx else h_x) c)) inv)
          (fmul (f_of_Z (hsum (if weighted then wy else h_y) c)) inv)
          (fdiv (f_of_Z (hsum tof_value c)) (f_of_Z (zlen c))) (f_of_Z (hsum h_tot c)) (zlen c).
Lemma fit_exact weighted c : c <> [] -> Forall sensor_hit c -> zlen c <= 2 ^ 21 ->
  centroid_fit weighted (f_of_Z 1) c = Ok (exact_fit weighted c).
Proof.
  intros N F L. assert (E := loop_exact weighted c [] F L).
  unfold centroid_fit. destruct c as [|h c]; [contradiction|].
  replace (if weighted then exact_sums wx wy [] else exact_sums h_x h_y []) with sums0 in E by (destruct weighted; reflexivity).
  rewrite E. cbn [obind app]. unfold exact_fit. destruct weighted; reflexivity.
Qed.

Lemma exact_fit_perm weighted c c' : Permutation c c' -> exact_fit weighted c = exact_fit weighted c'.
Proof.
  intros P. unfold exact_fit.
  assert (L : zlen c = zlen c') by (unfold zlen; rewrite (Permutation_length P); reflexivity).
  rewrite L. destruct weighted; rewrite !(hsum_perm _ _ _ P); reflexivity.
Qed.

Lemma C100_hits_l weighted c c' : Permutation c c' -> Forall sensor_hit c -> zlen c <= 2 ^ 21 ->
  centroid_fit weighted (f_of_Z 1) c = centroid_fit weighted (f_of_Z 1) c'.
Proof.
  intros P F L. destruct c as [|h c].
  - apply Permutation_nil in P. subst c'. reflexivity.
  - assert (L' : zlen c' <= 2 ^ 21) by (unfold zlen in *; rewrite <- (Permutation_length P); exact L).
    assert (F' : Forall sensor_hit c').
    { rewrite Forall_forall in *. intros x I. apply F. exact (Permutation_in _ (Permutation_sym P) I). }
    assert (N' : c' <> []) by (intros ->; apply Permutation_sym, Permutation_nil in P; discriminate P).
    rewrite !fit_exact by (assumption || discriminate). f_equal. apply exact_fit_perm, P.
Qed.

Lemma total_adds g c t lim : adds_up t c -> Forall (fun h => 0 <= g h) c -> hsum g c <= lim -> lim <= 2 ^ 53 -> computed g t = f_of_Z (hsum g c).
Proof.
  intros A F L M. unfold adds_up in A. rewrite <- (hsum_perm g _ _ A) in *. apply total_hsum; [|lia].
  rewrite Forall_forall in *. intros x I. apply F. exact (Permutation_in _ A I).
Qed.
Lemma C100_sums_l c tx ty tt tw : Forall sensor_hit c -> zlen c <= 2 ^ 21 -> c <> [] ->
  adds_up tx c -> adds_up ty c -> adds_up tt c -> adds_up tw c ->
  centroid_fit true (f_of_Z 1) c =
  Ok (Neutron (fmul (computed (fun h => h_x h * h_tot h) tx) (fdiv (f_of_Z 1) (computed h_tot tw)))
              (fmul (computed (fun h => h_y h * h_tot h) ty) (fdiv (f_of_Z 1) (computed h_tot tw)))
              (fdiv (computed tof_value tt) (f_of_Z (zlen c))) (computed h_tot tw) (zlen c)).
Proof.
  intros F L N A B C D. rewrite fit_exact by assumption. unfold exact_fit. cbn iota.
  destruct (sums_limits c F L) as (S1 & S2 & _ & _ & S5 & S6).
  assert (P : Forall (fun h => 0 <= wx h /\ 0 <= wy h /\ 0 <= tof_value h /\ 0 <= h_tot h) c).
  { eapply Forall_impl; [|exact F]. intros h H. destruct (sensor_small h H) as (B1 & B2 & B3 & B4 & B5 & B6). lia. }
  assert (X : forall g, (forall h, 0 <= wx h /\ 0 <= wy h /\ 0 <= tof_value h /\ 0 <= h_tot h -> 0 <= g h) -> Forall (fun h => 0 <= g h) c).
  { intros g G. eapply Forall_impl; [|exact P]. exact G. }
  fold wx wy. rewrite (total_adds wx c tx (2 ^ 53) A), (total_adds wy c ty (2 ^ 53) B), (total_adds tof_value c tt (2 ^ 53) C),
    (total_adds h_tot c tw (2 ^ 53) D); try lia; try (apply X; intros h (? & ? & ? & ?); assumption).
  reflexivity.
Qed.

(** Quotients in either form. *)
Lemma rounded_close v r : (bpow radix2 (-1000) <= Rabs r \/ r = 0)%R -> rounded v r -> close v r.
Proof.
  intros H [F E]. split; [exact F|]. destruct H as [H|H].
  - rewrite E. change (round radix2 (FLT_exp (-1074) 53) ZnearestE r) with (rnd r).
    eapply Rle_trans; [exact (rel_err r H)|]. apply Rmult_le_compat_r; [apply Rabs_pos|]. apply bpow_le. lia.
  - rewrite E, H. rewrite round_0 by apply valid_rnd_N. rewrite Rminus_0_r, Rabs_R0. lra.
Qed.
Lemma ratio_range a d : 0 <= a <= 2 ^ 53 -> 1 <= d <= 2 ^ 53 -> (bpow radix2 (-1000) <= Rabs (IZR a / IZR d) \/ IZR a / IZR d = 0)%R.
Proof.
  intros A D. destruct (Z.eq_dec a 0) as [->|N]; [right; unfold Rdiv; apply Rmult_0_l|left].
  assert (A1 : (1 <= IZR a)%R) by (apply IZR_le; lia). assert (D1 : (1 <= IZR d)%R) by (apply IZR_le; lia).
  assert (D2 : (IZR d <= bpow radix2 53)%R) by (change (bpow radix2 53) with (IZR (2 ^ 53)); apply IZR_le; lia).
  assert (I : (bpow radix2 (-53) <= / IZR d)%R).
  { change (-53) with (Z.opp 53). rewrite bpow_opp. apply Rinv_le; lra. }
  rewrite Rabs_pos_eq.
  - apply Rle_trans with (bpow radix2 (-53)); [apply bpow_le; lia|].
    unfold Rdiv. apply Rle_trans with (1 * / IZR d)%R; [lra|]. apply Rmult_le_compat_r; [|exact A1].
    left. apply Rinv_0_lt_compat. lra.
  - unfold Rdiv. apply Rmult_le_pos; [lra|]. left. apply Rinv_0_lt_compat. lra.
Qed.
Lemma quotient_close v a d : 0 <= a <= 2 ^ 52 -> 1 <= d <= 2 ^ 52 -> quotient v (f_of_Z a) (f_of_Z d) -> close v (IZR a / IZR d).
Proof.
  intros A D [-> | ->].
  - apply rounded_close; [apply ratio_range; lia|]. apply mean_rounded; [lia|lia|apply is_int_of_Z; lia].
  - apply mean_close; [lia|lia|apply is_int_of_Z; lia|apply is_int_of_Z; lia].
Qed.
Lemma C100_quotients_l c g t tw v : Forall sensor_hit c -> zlen c <= 2 ^ 21 -> 1 <= hsum h_tot c ->
  g = (fun h => h_x h * h_tot h) \/ g = (fun h => h_y h * h_tot h) ->
  adds_up t c -> adds_up tw c -> quotient v (computed g t) (computed h_tot tw) ->
  close v (IZR (hsum g c) / IZR (hsum h_tot c)).
Proof.
  intros F L W G A B Q. destruct (sums_limits c F L) as (S1 & S2 & _ & _ & S5 & S6).
  assert (P : Forall (fun h => 0 <= wx h /\ 0 <= wy h /\ 0 <= tof_value h /\ 0 <= h_tot h) c).
  { eapply Forall_impl; [|exact F]. intros h H. destruct (sensor_small h H) as (B1 & B2 & B3 & B4 & B5 & B6). lia. }
  assert (X : forall f, (forall h, 0 <= wx h /\ 0 <= wy h /\ 0 <= tof_value h /\ 0 <= h_tot h -> 0 <= f h) -> Forall (fun h => 0 <= f h) c).
  { intros f Y. eapply Forall_impl; [|exact P]. exact Y. }
  rewrite (total_adds h_tot c tw (2 ^ 53) B) in Q; try lia; try (apply X; intros h (? & ? & ? & ?); assumption).
  destruct G as [-> | ->]; [fold wx in *|fold wy in *].
  - rewrite (total_adds wx c t (2 ^ 53) A) in Q; try lia; try (apply X; intros h (? & ? & ? & ?); assumption).
    apply quotient_close; [lia|lia|exact Q].
  - rewrite (total_adds wy c t (2 ^ 53) A) in Q; try lia; try (apply X; intros h (? & ? & ? & ?); assumption).
    apply quotient_close; [lia|lia|exact Q].
Qed.

(** * The stream in another order *)

Lemma events_perm fit min cs cs2 : Permutation cs cs2 -> forall evs, events fit min cs evs ->
  exists evs2, events fit min cs2 evs2 /\ Permutation evs evs2.
Proof.
  induction 1 as [|c cs cs2 P IH|a b cs|cs1 cs2 cs3 P IH P2 IH2]; intros evs E.
  - exists evs. split; [exact E|reflexivity].
  - inversion E as [|? ? ? S E'|? ? e ? S Fe G E'|? ? e ? S Fe G E']; subst; destruct (IH _ E') as (v & Ev & Pv).
    + exists v. split; [apply ev_small; assumption|exact Pv].
    + exists (e :: v). split; [apply ev_keep; assumption|constructor; exact Pv].
    + exists v. split; [eapply ev_bad; eassumption|exact Pv].
  - inversion E as [|? ? ? S E'|? ? e ? S Fe G E'|? ? e ? S Fe G E']; subst;
      inversion E' as [|? ? ? S' E2|? ? e' ? S' Fe' G' E2|? ? e' ? S' Fe' G' E2]; subst; eexists;
      (split; [first [apply ev_small; [eassumption|]|eapply ev_keep; [eassumption|eassumption|eassumption|]|eapply ev_bad; [eassumption|eassumption|eassumption|]];
        first [apply ev_small; eassumption|eapply ev_keep; eassumption|eapply ev_bad; eassumption]|]); try reflexivity.
    apply perm_swap.
  - destruct (IH _ E) as (v & Ev & Pv). destruct (IH2 _ Ev) as (w & Ew & Pw). exists w. split; [exact Ew|]. exact (Permutation_trans Pv Pw).
Qed.
Lemma events_same fit min cs cs2 : Forall2 (fun c c2 => fit c = fit c2 /\ zlen c = zlen c2) cs cs2 ->
  forall evs, events fit min cs evs -> events fit min cs2 evs.
Proof.
  induction 1 as [|c c2 cs cs2 [Q L] _ IH]; intros evs E; [exact E|].
  inversion E as [|? ? ? S E'|? ? e ? S Fe G E'|? ? e ? S Fe G E']; subst; rewrite ?Q, ?L in *.
  - apply ev_small; [exact S|apply IH, E'].
  - apply ev_keep; [exact S|exact Fe|exact G|apply IH, E'].
  - eapply ev_bad; [exact S|exact Fe|exact G|apply IH, E'].
Qed.

Lemma filter_permutation {A} (f : A -> bool) l l' : Permutation l l' -> Permutation (filter f l) (filter f l').
Proof.
  induction 1 as [|x l l' P IH|x y l|l1 l2 l3 P IH P2 IH2]; cbn [filter].
  - reflexivity.
  - destruct (f x); [constructor; exact IH|exact IH].
  - destruct (f x), (f y); try reflexivity. apply perm_swap.
  - exact (Permutation_trans IH IH2).
Qed.
Lemma map_fst_combine {A B} (a : list A) : forall b : list B, length a = length b -> map fst (combine a b) = a.
Proof. induction a as [|x a IH]; intros [|y b] L; try discriminate L; [reflexivity|]. cbn. f_equal. apply IH. cbn in L. lia. Qed.
Lemma members_rename r l own : forall hs, In l own -> (forall a b, In a own -> In b own -> r a = r b -> a = b) ->
  members (r l) (map r own) hs = members l own hs.
Proof.
  intros hs Il I. assert (X : forall m, In m own -> r m = r l -> m = l) by (intros m Im Q; exact (I m l Im Il Q)).
  clear I Il. revert hs X. unfold members. induction own as [|x own IH]; intros [|h hs] X; try reflexivity.
  cbn [map combine filter fst]. specialize (IH hs (fun m Im => X m (or_intror Im))).
  destruct (Nat.eqb_spec x l) as [->|D].
  - rewrite Nat.eqb_refl. cbn [map]. f_equal. exact IH.
  - destruct (Nat.eqb_spec (r x) (r l)) as [Q|_]; [|exact IH]. destruct (D (X x (or_introl eq_refl) Q)).
Qed.

Lemma nodup_map {A B} (f : A -> B) l : (forall a b, In a l -> In b l -> f a = f b -> a = b) -> NoDup l -> NoDup (map f l).
Proof.
  intros I N. induction N as [|x l Nx _ IH]; cbn [map]; constructor.
  - intros J. apply in_map_iff in J. destruct J as (y & Q & J).
    apply Nx. rewrite <- (I y x (or_intror J) (or_introl eq_refl) Q). exact J.
  - apply IH. intros a b Ia Ib. apply I; right; assumption.
Qed.
Lemma map_related {A B} (R : B -> B -> Prop) (f g : A -> B) l : (forall x, In x l -> R (f x) (g x)) -> Forall2 R (map f l) (map g l).
Proof.
  induction l as [|x l IH]; intros H; cbn [map]; constructor; [apply H; left; reflexivity|].
  apply IH. intros y Y. apply H. right. exact Y.
Qed.

Lemma reordered_clusters own data own' data' k k' :
  length own = length data -> length own' = length data' ->
  (forall l, In l own <-> (l < k)%nat) -> (forall l, In l own' <-> (l < k')%nat) ->
  reordered own data own' data' ->
  exists cs, Permutation cs (clusters_of k' own' data') /\ Forall2 (@Permutation hit) (clusters_of k own data) cs.
Proof.
  intros L L' K K' (r & I & P).
  assert (Pm : forall l, Permutation (members l (map r own) data) (members l own' data')).
  { intros l. apply Permutation_map, filter_permutation, P. }
  assert (Po : Permutation (map r own) own').
  { apply (Permutation_map fst) in P. rewrite !map_fst_combine in P; [exact P|exact L'|rewrite map_length; exact L]. }
  assert (Ps : Permutation (map r (seq 0 k)) (seq 0 k')).
  { apply NoDup_Permutation.
    - apply nodup_map; [|apply seq_NoDup]. intros a b A B. apply I; apply K; [apply in_seq in A|apply in_seq in B]; lia.
    - apply seq_NoDup.
    - intros x. rewrite in_seq. split.
      + intros J. apply in_map_iff in J. destruct J as (l & <- & J). apply in_seq in J.
        assert (Y : In (r l) own') by (apply (Permutation_in _ Po), in_map, K; lia). apply K' in Y. lia.
      + intros J. assert (Y : In x own') by (apply K'; lia). apply (Permutation_in _ (Permutation_sym Po)) in Y.
        apply in_map_iff in Y. destruct Y as (l & <- & Y). apply in_map, in_seq. apply K in Y. lia. }
  exists (map (fun l => members (r l) own' data') (seq 0 k)). split.
  - unfold clusters_of. rewrite <- (map_map r (fun l => members l own' data')). apply Permutation_map, Ps.
  - apply map_related. intros l J. assert (Il : In l own) by (apply K; apply in_seq in J; lia).
    rewrite <- (members_rename r l own data Il I). apply Pm.
Qed.

Lemma C100_stream_l n n' cfg rho ext o o' data own data' own' : (0 < n)%nat -> (0 < n')%nat -> Forall hit_ok data ->
  Forall sensor_hit data -> zlen data <= 2 ^ 21 ->
  radius_is (a_radius cfg) rho -> 0 <= a_range cfg < 2 ^ 64 ->
  separable n (fits_box rho (a_range cfg)) data own -> separable n' (fits_box rho (a_range cfg)) data' own' ->
  reordered own data own' data' ->
  exists q q' evs evs', abs_fit n cfg o data = Ok q /\ abs_get_events ext cfg (abs_set_method q MCentroid) data = Ok evs /\
    abs_fit n' cfg o' data' = Ok q' /\ abs_get_events ext cfg (abs_set_method q' MCentroid) data' = Ok evs' /\
    Permutation evs evs'.
Proof.
  intros Hn Hn' Hd Hs Hl Hr Ht S S' R.
  assert (L := sep_length _ _ _ _ S). assert (L' := sep_length _ _ _ _ S').
  assert (Pd : Permutation data data').
  { destruct R as (r & _ & P). apply (Permutation_map snd) in P.
    assert (X : forall (a : list nat) (b : list hit), length a = length b -> map snd (combine a b) = b).
    { clear. induction a as [|x a IH]; intros [|y b] Q; try discriminate Q; [reflexivity|]. cbn. f_equal. apply IH. cbn in Q. lia. }
    rewrite !X in P; [exact P|exact L'|rewrite map_length; exact L]. }
  assert (Hd' : Forall hit_ok data').
  { rewrite Forall_forall in *. intros x I. apply Hd. exact (Permutation_in _ (Permutation_sym Pd) I). }
  destruct (C87_l n cfg rho o data own Hn Hd Hr Ht S) as (q & E & El).
  destruct (C87_l n' cfg rho o' data' own' Hn' Hd' Hr Ht S') as (q' & E' & El').
  destruct (C24_l n ext cfg o data q MCentroid _ Hn Hd E eq_refl) as (ls & k & Q & _ & K & Ev).
  destruct (C24_l n' ext cfg o' data' q' MCentroid _ Hn' Hd' E' eq_refl) as (ls' & k' & Q' & _ & K' & Ev').
  rewrite El in Q. apply map_of_nat_inj in Q. subst ls. rewrite El' in Q'. apply map_of_nat_inj in Q'. subst ls'.
  destruct (C24_succeeds_l n ext cfg o data q Hn Hd Hs Hl E) as (evs & Ee).
  assert (V := proj1 (Ev evs) Ee).
  destruct (reordered_clusters own data own' data' k k' L L' K K' R) as (cs & Pc & F).
  assert (V2 : events (centroid_fit true (f_of_Z 1)) (a_min cfg) cs evs).
  { refine (events_same _ _ _ _ _ _ V). assert (Fa := clusters_of_facts k own data L K).
    clear - F Fa Hs Hl. induction F as [|c c2 a b Pp _ IH]; constructor.
    - destruct (Fa c (or_introl eq_refl)) as (_ & In & Lc). split; [|unfold zlen; rewrite (Permutation_length Pp); reflexivity].
      apply C100_hits_l; [exact Pp| |lia]. rewrite Forall_forall in *. intros x Ix. apply Hs, In, Ix.
    - apply IH. intros x Ix. apply Fa. right. exact Ix. }
  destruct (events_perm _ _ _ _ Pc _ V2) as (evs' & V' & Pe).
  exists q, q', evs, evs'. repeat split; [exact E|exact Ee|exact E'|apply Ev', V'|exact Pe].
Qed.
