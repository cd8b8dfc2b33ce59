(** Proofs about true events seen by DBSCAN. *)
From Coq Require Import Reals Lra Lia Relations.Operators_Properties.
From Flocq Require Import Core.
From Verif Require Export S_DbsEvents P_DbsPlane.
Local Open Scope Z_scope.
Local Open Scope list_scope.

(** * Lists of numbers and hits *)

Lemma hits_of_ix l : forall own hits, length own = length hits ->
  exists ix, NoDup ix /\ (forall i, In i ix <-> nth_error own i = Some l) /\
    map (nth_error hits) ix = map Some (hits_of l own hits).
Proof.
  induction own as [|o own IH]; intros [|h hits] E; try discriminate.
  - exists []. split; [constructor|]. split; [|reflexivity]. intros i. split; [intros []|].
    destruct i; discriminate.
  - injection E as E. destruct (IH hits E) as [ix [N [I M]]].
    assert (NS : NoDup (map S ix)) by (apply FinFun.Injective_map_NoDup; [intros x y; congruence|exact N]).
    assert (MS : map (nth_error (h :: hits)) (map S ix) = map Some (hits_of l own hits))
      by (rewrite map_map; exact M).
    cbn [hits_of]. destruct (Nat.eqb o l) eqn:B.
    + apply Nat.eqb_eq in B. subst o. exists (O :: map S ix). split.
      { constructor; [|exact NS]. intros H. apply in_map_iff in H. destruct H as [x [H _]]. discriminate. }
      split.
      * intros [|i]; cbn; [split; auto|]. rewrite <- I. split.
        -- intros [H|H]; [discriminate|]. apply in_map_iff in H. destruct H as [x [H1 H2]].
           injection H1 as ->. exact H2.
        -- intros H. right. apply in_map. exact H.
      * cbn [map nth_error]. rewrite MS. reflexivity.
    + apply Nat.eqb_neq in B. exists (map S ix). split; [exact NS|]. split; [|exact MS].
      intros [|i]; cbn.
      * split; [|congruence]. intros H. apply in_map_iff in H. destruct H as [x [H _]]. discriminate.
      * rewrite <- I. split.
        -- intros H. apply in_map_iff in H. destruct H as [x [H1 H2]]. injection H1 as ->. exact H2.
        -- intros H. apply in_map. exact H.
Qed.

Lemma total_some f (a b : list hit) : Permutation (map Some a) (map Some b) ->
  total f a = total f b /\ zlen a = zlen b.
Proof.
  intros P. split.
  - unfold total.
    pose proof (Permutation_map (fun o : option hit => match o with Some h => f h | None => 0 end) P) as Q.
    rewrite !map_map in Q. cbn beta iota in Q.
    assert (G : forall la lb : list Z, Permutation la lb -> fold_right Z.add 0 la = fold_right Z.add 0 lb)
      by (clear; intros la lb Q; induction Q; cbn; lia).
    apply G, Q.
  - apply Permutation_length in P. rewrite !map_length in P. unfold zlen. lia.
Qed.

Lemma mean_some f a b : Permutation (map Some a) (map Some b) -> mean f a = mean f b.
Proof. intros P. destruct (total_some f a b P) as [T Z]. unfold mean. rewrite T, Z. reflexivity. Qed.

Lemma positions_of (c : list nat) : forall l, Forall (fun j => In j c) l ->
  exists ps, map (nth_error c) ps = map Some l.
Proof.
  induction l as [|j l IH]; intros F; [exists []; reflexivity|].
  apply Forall_cons_iff in F. destruct F as [Hj F]. destruct (IH F) as [ps E].
  apply In_nth_error in Hj. destruct Hj as [p Hp]. exists (p :: ps). cbn. rewrite Hp, E. reflexivity.
Qed.

Lemma nodup_some {A} (l : list A) : NoDup l -> NoDup (map Some l).
Proof. intros N. apply FinFun.Injective_map_NoDup; [intros x y; congruence|exact N]. Qed.

Lemma same_elements {A} (a : list A) : forall b, (forall i, nth_error a i = nth_error b i) -> a = b.
Proof.
  induction a as [|x a IH]; intros [|y b] H; [reflexivity|specialize (H O); discriminate|specialize (H O); discriminate|].
  pose proof (H O) as H0. cbn in H0. injection H0 as ->. f_equal. apply IH. intros i. apply (H (S i)).
Qed.

(** * One time class *)

Section Class.
Variables (cfg : dbs_cfg) (ext : dbs_ext) (hits : list hit) (own : list nat) (n : nat).
Hypothesis ext_good : ext_sound ext.
Hypothesis finds : fit2_finds ext.
Hypothesis px : Forall pixel_ok hits.
Hypothesis few : zlen hits < 2 ^ 31.
Hypothesis D : distinct cfg hits own n.
Hypothesis eps_good : eps_ok (d_eps_time cfg).
Hypothesis toas : Forall toa_ok hits.

Local Notation eps := (d_eps_xy cfg).

Lemma own_hit i l : nth_error own i = Some l -> exists h, nth_error hits i = Some h.
Proof.
  intros H. destruct (nth_error hits i) eqn:E; [eauto|]. apply nth_error_None in E.
  rewrite <- (ds_length _ _ _ _ D) in E. apply nth_error_None in E. congruence.
Qed.
Lemma hit_own i h : nth_error hits i = Some h -> exists l, nth_error own i = Some l.
Proof.
  intros H. destruct (nth_error own i) eqn:E; [eauto|]. apply nth_error_None in E.
  rewrite (ds_length _ _ _ _ D) in E. apply nth_error_None in E. congruence.
Qed.

Lemma side_own i j : side eps hits i j -> exists l l', nth_error own i = Some l /\ nth_error own j = Some l'.
Proof.
  intros [a [b [Ha [Hb _]]]]. destruct (hit_own _ _ Ha) as [l Hl]. destruct (hit_own _ _ Hb) as [l' Hl'].
  exists l, l'. split; assumption.
Qed.

(** The plane clusters of the class [c] of a hit of event [l]. *)
Lemma event_in_class i l c ps : nth_error own i = Some l ->
  class_of (d_eps_time cfg) hits i c -> pixels hits c ps ->
  exists k,
    nth_error (q_cents (e_fit2 ext eps (d_min_xy cfg) ps)) k =
      Some (mean h_x (hits_of l own hits), mean h_y (hits_of l own hits)) /\
    forall p, nth_error (q_labels (e_fit2 ext eps (d_min_xy cfg) ps)) p = Some (Z.of_nat k) <->
      exists j, nth_error c p = Some j /\ nth_error own j = Some l.
Proof.
  intros Hi [Nc Hc] [hs [Eh ->]].
  assert (Lc : length c = length hs) by (rewrite <- (map_length (nth_error hits) c), Eh, map_length; reflexivity).
  assert (At : forall p j, nth_error c p = Some j -> nth_error hs p = nth_error hits j).
  { intros p j H. pose proof (f_equal (fun l => nth_error l p) Eh) as Q. cbn beta in Q.
    rewrite !nth_error_map, H in Q. cbn in Q.
    destruct (nth_error hs p); cbn in Q; congruence. }
  assert (Pos : forall p, (p < length hs)%nat -> exists j, nth_error c p = Some j).
  { intros p Hp. destruct (nth_error c p) eqn:E; [eauto|]. apply nth_error_None in E. lia. }
  assert (SideC : forall p q j k, nth_error c p = Some j -> nth_error c q = Some k ->
            (side eps hs p q <-> side eps hits j k)).
  { intros p q j k Hp Hq. unfold side. rewrite (At _ _ Hp), (At _ _ Hq). reflexivity. }
  assert (SideP : forall p q, side eps hs p q -> exists j k, nth_error c p = Some j /\ nth_error c q = Some k).
  { intros p q [a [b [Ha [Hb _]]]].
    destruct (Pos p) as [j Hj]; [apply nth_error_Some; congruence|].
    destruct (Pos q) as [k Hk]; [apply nth_error_Some; congruence|]. exists j, k. split; assumption. }
  assert (InC : forall j, nth_error own j = Some l -> In j c).
  { intros j Hj. apply Hc. apply (ds_time _ _ _ _ D i j l Hi Hj). }
  assert (Same : forall j k, In j c -> In k c -> same_time (d_eps_time cfg) hits j k).
  { intros j k Hj Hk. apply Hc in Hj. apply Hc in Hk.
    apply (linked_trans (d_eps_time cfg) hits j i k); [|exact Hk].
    apply (linked_sym (d_eps_time cfg) hits eps_good toas). exact Hj. }
  destruct (In_nth_error _ _ (InC i Hi)) as [p0 Hp0].
  set (mine := fun p => match nth_error c p with
                        | Some j => match nth_error own j with Some l' => Nat.eqb l' l | None => false end
                        | None => false end).
  assert (Mine : forall p, mine p = true <-> exists j, nth_error c p = Some j /\ nth_error own j = Some l).
  { intros p. unfold mine. destruct (nth_error c p) as [j|]; [|split; [discriminate|intros [j [H _]]; discriminate]].
    destruct (nth_error own j) as [l'|] eqn:E.
    - rewrite Nat.eqb_eq. split; [intros ->; exists j; auto|]. intros [j' [H1 H2]]. congruence.
    - split; [discriminate|]. intros [j' [H1 H2]]. congruence. }
  set (s := filter mine (seq 0 (length hs))).
  assert (InS : forall p, In p s <-> exists j, nth_error c p = Some j /\ nth_error own j = Some l).
  { intros p. unfold s. rewrite filter_In, Mine, in_seq. split; [tauto|]. intros H. split; [|exact H].
    destruct H as [j [H _]]. assert (p < length c)%nat by (apply nth_error_Some; congruence). lia. }
  assert (Ns : NoDup s) by (apply NoDup_filter, seq_NoDup).
  assert (P0 : In p0 s) by (apply InS; exists i; auto).
  assert (Hjoin : forall p, In p s <-> clos_refl_trans nat (side eps hs) p0 p).
  { intros p. split.
    - intros H. apply InS in H. destruct H as [j [Hj Oj]].
      pose proof (ds_joined _ _ _ _ D i j l Hi Oj) as J. clear - J Hp0 Hj Hi InC SideC Nc.
      apply clos_rt_rtn1 in J. revert p Hj.
      induction J as [|j k [S1 O1] J IH]; intros p Hp.
      + assert (p = p0) as ->.
        { apply (proj1 (NoDup_nth_error c) Nc); [apply nth_error_Some; congruence|congruence]. }
        apply rt_refl.
      + assert (Oj : nth_error own j = Some l).
        { destruct J as [|j' j0 [_ O] _]; [exact Hi|exact O]. }
        destruct (In_nth_error _ _ (InC j Oj)) as [p' Hp'].
        eapply rt_trans; [apply (IH p' Hp')|]. apply rt_step. apply (SideC p' p j k); assumption.
    - intros H. apply clos_rt_rtn1 in H. induction H as [|p q Hs H IH]; [exact P0|].
      apply InS in IH. destruct IH as [j [Hj Oj]].
      destruct (SideP _ _ Hs) as [j' [k [Hj' Hk]]]. assert (j' = j) by congruence. subst j'.
      apply InS. exists k. split; [exact Hk|].
      apply (SideC p q j k Hj Hk) in Hs. destruct (side_own _ _ Hs) as [l1 [l2 [O1 O2]]].
      assert (l1 = l) by congruence. subst l1.
      destruct (Nat.eq_dec l l2) as [->|Hne]; [exact O2|].
      exfalso. apply (ds_apart _ _ _ _ D j k l l2 Oj O2 Hne); [|exact Hs].
      apply Same; eapply nth_error_In; eassumption. }
  assert (Hcore : Forall (core eps (d_min_xy cfg) hs (fun _ => True)) s).
  { apply Forall_forall. intros p Hp. apply InS in Hp. destruct Hp as [j [Hj Oj]].
    destruct (ds_core _ _ _ _ D j l Oj) as [js [N1 [N2 F]]].
    destruct (positions_of c js) as [qs Eq].
    { eapply Forall_impl; [|exact F]. cbn. intros k [Ok _]. apply InC, Ok. }
    exists qs. split.
    { apply (NoDup_map_inv (nth_error c)). rewrite Eq. apply nodup_some, N1. }
    split.
    { unfold zlen in *. rewrite <- (map_length (nth_error c) qs), Eq, map_length. exact N2. }
    apply Forall_forall. intros q Hq. split; [exact I|].
    assert (Hk : In (nth_error c q) (map Some js)) by (rewrite <- Eq; apply in_map, Hq).
    apply in_map_iff in Hk. destruct Hk as [k [Ek Hk]]. symmetry in Ek.
    rewrite Forall_forall in F. destruct (F k Hk) as [_ [Hne Hs]].
    split; [intros ->; congruence|]. apply (SideC p q j k Hj Ek). exact Hs. }
  assert (Hpx : Forall pixel_ok hs).
  { apply Forall_forall. intros h Hh. apply In_nth_error in Hh. destruct Hh as [p Hp].
    destruct (Pos p) as [j Hj]; [apply nth_error_Some; congruence|].
    rewrite (At _ _ Hj) in Hp. apply nth_error_In in Hp. rewrite Forall_forall in px. auto. }
  assert (Hfew : zlen hs < 2 ^ 31).
  { assert (length c <= length (seq 0 (length hits)))%nat.
    { apply NoDup_incl_length; [exact Nc|]. intros j Hj. apply in_seq.
      apply In_nth_error in Hj. destruct Hj as [p Hp].
      assert (nth_error hs p <> None) by (apply nth_error_Some; rewrite <- Lc; apply nth_error_Some; congruence).
      rewrite (At _ _ Hp) in H. apply nth_error_Some in H. lia. }
    rewrite seq_length in H. unfold zlen in *. lia. }
  assert (Hlt : (p0 < length hs)%nat) by (rewrite <- Lc; apply nth_error_Some; congruence).
  destruct (finds eps (d_min_xy cfg) hs p0 s Hpx Hfew Hlt Ns Hjoin Hcore) as [k [ms [Em [Ek Hk]]]].
  exists k. split.
  - rewrite Ek.
    assert (Pm : Permutation (map Some ms) (map Some (hits_of l own hits))).
    { rewrite <- Em. destruct (hits_of_ix l own hits (ds_length _ _ _ _ D)) as [ix [N1 [I1 M1]]]. rewrite <- M1.
      assert (js : exists js, map (nth_error c) s = map Some js).
      { clear - InS. assert (F : Forall (fun p => exists j, nth_error c p = Some j) s).
        { apply Forall_forall. intros p Hp. apply InS in Hp. destruct Hp as [j [Hj _]]. eauto. }
        clear InS. induction F as [|p r [j Hj] F [js IH]]; [exists []; reflexivity|].
        exists (j :: js). cbn. rewrite Hj, IH. reflexivity. }
      destruct js as [js Ej].
      assert (map (nth_error hs) s = map (nth_error hits) js) as ->.
      { clear - Ej At. revert js Ej. induction s as [|p r IH]; intros [|j js] E; try discriminate; [reflexivity|].
        cbn in E. injection E as E1 E2. cbn. rewrite (At _ _ E1), (IH _ E2). reflexivity. }
      apply Permutation_map. apply NoDup_Permutation; [|exact N1|].
      - apply (NoDup_map_inv Some). rewrite <- Ej.
        clear - Ns InS Nc. 
        assert (F : forall p, In p s -> (p < length c)%nat).
        { intros p Hp. apply InS in Hp. destruct Hp as [j [Hj _]]. apply nth_error_Some. congruence. }
        clear InS. induction s as [|p r IH]; [constructor|]. cbn.
        apply NoDup_cons_iff in Ns. destruct Ns as [Np Ns]. constructor.
        + intros H. apply in_map_iff in H. destruct H as [q [H Hq]].
          apply Np. replace p with q; [exact Hq|]. apply (proj1 (NoDup_nth_error c) Nc); [apply F; right; exact Hq|exact H].
        + apply IH; [exact Ns|]. intros q Hq. apply F. right. exact Hq.
      - intros j. rewrite I1. split.
        + intros Hj. assert (Q : In (Some j) (map Some js)) by (apply in_map, Hj). rewrite <- Ej in Q.
          apply in_map_iff in Q. destruct Q as [p [Q1 Q2]]. apply InS in Q2. destruct Q2 as [j' [Q2 Q3]]. congruence.
        + intros Hj. destruct (In_nth_error _ _ (InC j Hj)) as [p Hp].
          assert (Q : In p s) by (apply InS; exists j; auto).
          apply (in_map (nth_error c)) in Q. rewrite Ej, Hp in Q. apply in_map_iff in Q.
          destruct Q as [j' [Q1 Q2]]. congruence. }
    rewrite (mean_some h_x _ _ Pm), (mean_some h_y _ _ Pm). reflexivity.
  - intros p. rewrite Hk. apply InS.
Qed.
End Class.

(** * Means *)

Lemma fin_not_nan (x : f64) : is_finite x = true -> is_nan x = false.
Proof. destruct x; cbn; congruence. Qed.

Lemma fmul_1 x : is_finite x = true -> fmul x (f_of_Z 1) = x.
Proof.
  intros F. pose proof (is_int_of_Z 1) as [F1 R1]; [lia|].
  pose proof (Bmult_correct 53 1024 prec53 emax1024 mode_NE x (f_of_Z 1)) as H.
  cbn [round_mode] in H. rewrite R1, Rmult_1_r in H.
  assert (G : generic_format radix2 (SpecFloat.fexp 53 1024) (B2R x)) by apply generic_format_B2R.
  rewrite (round_generic radix2 (SpecFloat.fexp 53 1024) ZnearestE (B2R x) G) in H.
  rewrite Rlt_bool_true in H by apply abs_B2R_lt_emax.
  destruct H as [H1 [H2 H3]]. fold (fmul x (f_of_Z 1)) in *.
  rewrite F, F1 in H2. cbn in H2.
  apply B2R_Bsign_inj; [exact H2|exact F|exact H1|].
  rewrite H3; [|apply fin_not_nan; exact H2].
  rewrite (of_Z_sign 1) by lia. destruct (Bsign x); reflexivity.
Qed.

Lemma total_bounds f lo hi hs : Forall (fun h => lo <= f h <= hi) hs ->
  zlen hs * lo <= total f hs <= zlen hs * hi.
Proof.
  induction 1 as [|h r Hh _ IH]; [unfold total, zlen; cbn [map fold_right length]; lia|]. cbn beta in Hh. unfold total in *. cbn [map fold_right].
  replace (zlen (h :: r)) with (1 + zlen r) by (unfold zlen; cbn [length]; lia). lia.
Qed.

Lemma mean_between f lo hi hs : hs <> [] -> zlen hs < 2 ^ 31 -> Z.abs lo <= 2 ^ 22 -> Z.abs hi <= 2 ^ 22 ->
  Forall (fun h => lo <= f h <= hi) hs -> lies_in lo hi (mean f hs).
Proof.
  intros Hne Hf Hlo Hhi HF. pose proof (total_bounds f lo hi hs HF) as B.
  assert (Hz : 1 <= zlen hs) by (unfold zlen; destruct hs; [contradiction|cbn [length]; lia]).
  assert (Ht : Z.abs (total f hs) <= 2 ^ 53) by nia.
  pose proof (is_int_of_Z (total f hs) Ht) as [F1 R1].
  destruct (is_int_of_Z (zlen hs)) as [F2 R2]; [lia|].
  assert (Q : (IZR lo <= IZR (total f hs) / IZR (zlen hs) <= IZR hi)%R).
  { assert (0 < IZR (zlen hs))%R by (apply IZR_lt; lia).
    destruct B as [B1 B2]. apply IZR_le in B1. apply IZR_le in B2. rewrite mult_IZR in B1, B2.
    split; apply (Rmult_le_reg_l (IZR (zlen hs))); try assumption.
    - replace (IZR (zlen hs) * (IZR (total f hs) / IZR (zlen hs)))%R with (IZR (total f hs)) by (field; lra). exact B1.
    - replace (IZR (zlen hs) * (IZR (total f hs) / IZR (zlen hs)))%R with (IZR (total f hs)) by (field; lra). exact B2. }
  unfold mean.
  destruct (fdiv_correct (f_of_Z (total f hs)) (f_of_Z (zlen hs)) 22) as [A C]; [lia|exact F1| | |].
  - rewrite R2. apply IZR_neq. lia.
  - rewrite R1, R2.
    assert (L1 : (Rabs (IZR lo) <= bpow radix2 22)%R) by (apply IZR_abs_bpow; lia).
    assert (L2 : (Rabs (IZR hi) <= bpow radix2 22)%R) by (apply IZR_abs_bpow; lia).
    apply Rabs_le. apply Rabs_le_inv in L1. apply Rabs_le_inv in L2. lra.
  - split; [exact C|]. rewrite A, R1, R2.
    rewrite <- (rnd_IZR lo), <- (rnd_IZR hi) by lia. split; apply rnd_le; lra.
Qed.

(** * All events *)

Section All.
Variables (cfg : dbs_cfg) (ext : dbs_ext) (hits : list hit) (own : list nat) (n : nat) (size : Z).
Hypothesis ext_good : ext_sound ext.
Hypothesis finds : fit2_finds ext.
Hypothesis px : Forall pixel_ok hits.
Hypothesis few : zlen hits < 2 ^ 31.
Hypothesis D : distinct cfg hits own n.
Hypothesis eps_good : eps_ok (d_eps_time cfg).
Hypothesis toas : Forall toa_ok hits.

Lemma own_crowded i l : nth_error own i = Some l ->
  crowded (d_eps_time cfg) (d_min_time cfg) hits i.
Proof.
  intros Hi. destruct (hits_of_ix l own hits (ds_length _ _ _ _ D)) as [ix [N [I M]]].
  exists ix. split; [exact N|]. split.
  - assert (H : (l < n)%nat) by (apply (ds_numbers _ _ _ _ D); eapply nth_error_In; eassumption).
    pose proof (ds_many _ _ _ _ D l H) as Q. unfold zlen in *.
    rewrite <- (map_length (nth_error hits) ix), M, map_length. exact Q.
  - apply Forall_forall. intros j Hj. apply I in Hj. apply (ds_time _ _ _ _ D i j l); assumption.
Qed.

Lemma hits_of_in l h : In h (hits_of l own hits) -> In h hits.
Proof.
  intros H. destruct (hits_of_ix l own hits (ds_length _ _ _ _ D)) as [ix [N [I M]]].
  apply (in_map Some) in H. rewrite <- M in H. apply in_map_iff in H.
  destruct H as [i [H _]]. eapply nth_error_In; eassumption.
Qed.

Lemma hits_of_few l : zlen (hits_of l own hits) < 2 ^ 31.
Proof.
  enough (length (hits_of l own hits) <= length hits)%nat by (unfold zlen in *; lia).
  clear. revert own. induction hits as [|h r IH]; intros [|o own]; cbn; try lia.
  destruct (Nat.eqb o l); cbn; specialize (IH own); lia.
Qed.

Lemma hits_of_some l : (l < n)%nat -> exists i, nth_error own i = Some l.
Proof. intros H. apply (ds_numbers _ _ _ _ D) in H. apply In_nth_error in H. exact H. Qed.

Lemma hits_of_ne l : (l < n)%nat -> hits_of l own hits <> [].
Proof.
  intros H E. destruct (hits_of_some l H) as [i Hi].
  destruct (hits_of_ix l own hits (ds_length _ _ _ _ D)) as [ix [N [I M]]].
  rewrite E in M. apply I in Hi. destruct ix; [destruct Hi|discriminate].
Qed.

Lemma mean_finite f l : (l < n)%nat -> (forall h, In h hits -> 0 <= f h < 2 ^ 22) ->
  is_finite (mean f (hits_of l own hits)) = true.
Proof.
  intros Hl F. apply (mean_between f 0 (2 ^ 22)); [apply hits_of_ne, Hl|apply hits_of_few|lia|lia|].
  apply Forall_forall. intros h Hh. specialize (F h (hits_of_in l h Hh)). lia.
Qed.

(** The label of a hit names an event that tells of its true event. *)
Lemma event_of o i l : labelled ext cfg hits o -> nth_error own i = Some l ->
  exists k e, nth_error (b_labels o) i = Some (Z.of_nat k) /\ nth_error (b_events o) k = Some e /\
    (forall j, nth_error (b_labels o) j = Some (Z.of_nat k) <-> nth_error own j = Some l) /\
    n_x e = mean h_x (hits_of l own hits) /\ n_y e = mean h_y (hits_of l own hits) /\
    exists i' c, nth_error own i' = Some l /\ class_of (d_eps_time cfg) hits i' c /\ mean_toa hits c (n_tof e).
Proof.
  intros [L1 [L2 [L3 L4]]] Hi.
  assert (Hl : (l < n)%nat) by (apply (ds_numbers _ _ _ _ D); eapply nth_error_In; eassumption).
  assert (Hlen : (i < length (b_labels o))%nat).
  { rewrite L1, <- (ds_length _ _ _ _ D). apply nth_error_Some. congruence. }
  destruct (nth_error (b_labels o) i) as [z|] eqn:Ez; [|apply nth_error_None in Ez; lia].
  assert (Hz : -1 <= z < zlen (b_events o)).
  { rewrite Forall_forall in L2. apply L2. eapply nth_error_In; eassumption. }
  destruct (Z.eq_dec z (-1)) as [->|Hz1].
  - exfalso. destruct (L4 i Ez (own_crowded i l Hi)) as [c [ps [p [C1 [C2 [C3 C4]]]]]].
    destruct (event_in_class cfg ext hits own n finds px few D eps_good toas i l c ps Hi C1 C2)
      as [k [K1 K2]].
    assert (Q : nth_error (q_labels (e_fit2 ext (d_eps_xy cfg) (d_min_xy cfg) ps)) p = Some (Z.of_nat k))
      by (apply K2; exists i; auto).
    assert (Hc : clustering (length ps) (e_fit2 ext (d_eps_xy cfg) (d_min_xy cfg) ps)).
    { destruct ext_good as [_ [Hf _]]. apply Hf. destruct C2 as [hs [E ->]]. intros E2.
      destruct hs; [|discriminate]. destruct c; [|discriminate]. destruct p; discriminate. }
    pose proof (clustering_count _ _ Hc) as [_ Hn]. destruct Hc as [_ [_ [_ Hc]]].
    assert (Hk : (k < length (q_cents (e_fit2 ext (d_eps_xy cfg) (d_min_xy cfg) ps)))%nat)
      by (apply nth_error_Some; congruence).
    assert (Hps : (length ps <= length hits)%nat).
    { destruct C2 as [hs [E ->]]. rewrite map_length.
      rewrite <- (map_length Some hs), <- E, map_length.
      rewrite <- (seq_length (length hits) 0). apply NoDup_incl_length; [apply C1|].
      intros j Hj. apply in_seq.
      assert (Q2 : In (nth_error hits j) (map Some hs)) by (rewrite <- E; apply in_map, Hj).
      apply in_map_iff in Q2. destruct Q2 as [h [Q2 _]].
      assert (j < length hits)%nat by (apply nth_error_Some; congruence). lia. }
    rewrite C4 in Q. injection Q as Q. unfold zlen in *. lia.
  - set (k := Z.to_nat z). assert (Ek : Z.of_nat k = z) by (unfold k; lia).
    destruct (nth_error (b_events o) k) as [e|] eqn:Ee.
    2:{ apply nth_error_None in Ee. unfold zlen in Hz. lia. }
    destruct (L3 k e Ee) as [_ [_ [_ [i' [c [ps [k' [x [y [E1 [E2 [E3 [E4 [E5 [E6 [E7 [E8 E9]]]]]]]]]]]]]]]]].
    cbn zeta in *. exists k, e. split; [rewrite Ek; reflexivity|]. split; [exact Ee|].
    rewrite Ek in E9.
    destruct (proj1 (E9 i) Ez) as [p [P1 P2]].
    assert (Ci : class_of (d_eps_time cfg) hits i c).
    { destruct E3 as [N3 E3]. split; [exact N3|]. intros j. rewrite E3.
      assert (S1 : same_time (d_eps_time cfg) hits i' i) by (apply E3; eapply nth_error_In; eassumption).
      split; intros H.
      - apply (linked_trans (d_eps_time cfg) hits i i' j); [|exact H].
        apply (linked_sym (d_eps_time cfg) hits eps_good toas). exact S1.
      - apply (linked_trans (d_eps_time cfg) hits i' i j); [exact S1|exact H]. }
    destruct (event_in_class cfg ext hits own n finds px few D eps_good toas i l c ps Hi Ci E5)
      as [k2 [K1 K2]].
    assert (K3 : nth_error (q_labels (e_fit2 ext (d_eps_xy cfg) (d_min_xy cfg) ps)) p = Some (Z.of_nat k2))
      by (apply K2; exists i; auto).
    rewrite P2 in K3. injection K3 as K3. apply Nat2Z.inj in K3. subst k2.
    rewrite K1 in E6. injection E6 as <- <-.
    split.
    { intros j. rewrite Ek, E9. split.
      - intros [p' [H1 H2]]. apply K2 in H2. destruct H2 as [j' [H2 H3]]. congruence.
      - intros H. assert (Hj : In j c) by (apply Ci; apply (ds_time _ _ _ _ D i j l); assumption).
        apply In_nth_error in Hj. destruct Hj as [p' Hp']. exists p'. split; [exact Hp'|].
        apply K2. exists j. auto. }
    rewrite Forall_forall in px.
    rewrite E7, E8, !fmul_1.
    + split; [reflexivity|]. split; [reflexivity|]. exists i, c. auto.
    + apply mean_finite; [exact Hl|]. intros h Hh. destruct (px h Hh). lia.
    + apply mean_finite; [exact Hl|]. intros h Hh. destruct (px h Hh). lia.
Qed.

Lemma alone_time l c i x : alone cfg hits own l -> nth_error own i = Some l ->
  class_of (d_eps_time cfg) hits i c -> mean_toa hits c x ->
  x = mean (fun h => 25 * h_toa h) (hits_of l own hits).
Proof.
  intros A Hi [Nc Hc] [hs [E ->]].
  destruct (hits_of_ix l own hits (ds_length _ _ _ _ D)) as [ix [N [I M]]].
  assert (P : Permutation (map Some hs) (map Some (hits_of l own hits))).
  { rewrite <- E, <- M. apply Permutation_map. apply NoDup_Permutation; [exact Nc|exact N|].
    intros j. rewrite Hc, I. split.
    - intros H. apply (A i j Hi H).
    - intros H. apply (ds_time _ _ _ _ D i j l Hi H). }
  rewrite <- (mean_some _ _ _ P). unfold mean, total.
  assert (zlen c = zlen hs) as ->; [|reflexivity].
  unfold zlen. rewrite <- (map_length (nth_error hits) c), E, map_length. reflexivity.
Qed.

Lemma count_own o l k : length (b_labels o) = length hits ->
  (forall j, nth_error (b_labels o) j = Some (Z.of_nat k) <-> nth_error own j = Some l) ->
  count_of (Z.of_nat k) (b_labels o) = zlen (hits_of l own hits).
Proof.
  intros E. pose proof (ds_length _ _ _ _ D) as E2. revert E E2. clear.
  generalize (b_labels o). intros L. revert own L.
  induction hits as [|h r IH]; intros [|o' own] [|z L] E E2 H; try discriminate; [reflexivity|].
  cbn [hits_of]. rewrite count_of_cons. injection E as E. injection E2 as E2.
  assert (IH' := IH own L E E2 (fun j => H (S j))). rewrite IH'.
  specialize (H O). cbn in H. destruct (Nat.eqb o' l) eqn:B.
  - apply Nat.eqb_eq in B. subst o'. pose proof (proj2 H eq_refl) as Q. injection Q as ->. rewrite Z.eqb_refl.
    unfold zlen. cbn [length]. lia.
  - apply Nat.eqb_neq in B. destruct (Z.eqb_spec (Z.of_nat k) z) as [Q|Q]; [|reflexivity].
    exfalso. apply B. destruct H as [H _]. rewrite Q in H. specialize (H eq_refl). congruence.
Qed.

Lemma tells_labelled o : labelled ext cfg hits o -> tells_all cfg hits own n o.
Proof.
  intros HL. assert (H0 := HL). destruct H0 as [L1 [L2 [L3 L4]]].
  assert (Lo : length (b_labels o) = length own) by (rewrite L1; symmetry; apply (ds_length _ _ _ _ D)).
  set (first := fun l => find (fun i => match nth_error own i with Some l' => Nat.eqb l' l | None => false end)
                              (seq 0 (length own))).
  assert (First : forall l, (l < n)%nat -> exists i, first l = Some i /\ nth_error own i = Some l).
  { intros l Hl. unfold first. destruct (find _ _) as [i|] eqn:E.
    - exists i. split; [reflexivity|]. apply find_some in E. destruct E as [_ E].
      destruct (nth_error own i) as [l'|]; [|discriminate]. apply Nat.eqb_eq in E. congruence.
    - exfalso. destruct (hits_of_some l Hl) as [i Hi].
      assert (Q : In i (seq 0 (length own))).
      { apply in_seq. assert (i < length own)%nat by (apply nth_error_Some; congruence). lia. }
      apply (find_none _ _ E) in Q. cbn beta in Q. rewrite Hi, Nat.eqb_refl in Q. discriminate. }
  set (num := fun l => match first l with
                       | Some i => match nth_error (b_labels o) i with Some z => Z.to_nat z | None => O end
                       | None => O end).
  assert (Num : forall l, (l < n)%nat -> exists e,
    nth_error (b_events o) (num l) = Some e /\
    (forall j, nth_error (b_labels o) j = Some (Z.of_nat (num l)) <-> nth_error own j = Some l) /\
    n_x e = mean h_x (hits_of l own hits) /\ n_y e = mean h_y (hits_of l own hits) /\
    exists i' c, nth_error own i' = Some l /\ class_of (d_eps_time cfg) hits i' c /\ mean_toa hits c (n_tof e)).
  { intros l Hl. destruct (First l Hl) as [i [E Hi]].
    destruct (event_of o i l HL Hi) as [k [e [K1 [K2 K3]]]].
    assert (num l = k) as -> by (unfold num; rewrite E, K1, Nat2Z.id; reflexivity).
    exists e. split; [exact K2|exact K3]. }
  assert (Inj : forall l l', (l < n)%nat -> (l' < n)%nat -> num l = num l' -> l = l').
  { intros l l' Hl Hl' E. destruct (Num l Hl) as [e [_ [N1 _]]]. destruct (Num l' Hl') as [e' [_ [N2 _]]].
    destruct (hits_of_some l Hl) as [i Hi]. assert (Q := Hi). apply N1 in Q. rewrite E in Q. apply N2 in Q. congruence. }
  split.
  - assert (A : (n <= length (b_events o))%nat).
    { rewrite <- (seq_length n 0), <- (map_length num (seq 0 n)), <- (seq_length (length (b_events o)) 0).
      apply NoDup_incl_length.
      - assert (G : forall s, incl s (seq 0 n) -> NoDup s -> NoDup (map num s)).
        { clear - Inj. induction s as [|a r IH]; intros Hs N; [constructor|]. cbn.
          apply NoDup_cons_iff in N. destruct N as [Na N]. constructor.
          - intros H. apply in_map_iff in H. destruct H as [b [Hb1 Hb2]]. apply Na.
            replace a with b; [exact Hb2|].
            pose proof (Hs a (or_introl eq_refl)) as Q1. pose proof (Hs b (or_intror Hb2)) as Q2.
            apply in_seq in Q1. apply in_seq in Q2. apply Inj; [lia|lia|exact Hb1].
          - apply IH; [|exact N]. intros x Hx. apply Hs. right. exact Hx. }
        apply G; [apply incl_refl|apply seq_NoDup].
      - intros k Hk. apply in_map_iff in Hk. destruct Hk as [l [<- Hl]]. apply in_seq in Hl.
        destruct (Num l) as [e [E _]]; [lia|]. apply in_seq.
        assert (num l < length (b_events o))%nat by (apply nth_error_Some; congruence). lia. }
    assert (B : (length (b_events o) <= n)%nat).
    { rewrite <- (seq_length (length (b_events o)) 0), <- (seq_length n 0), <- (map_length num (seq 0 n)).
      apply NoDup_incl_length; [apply seq_NoDup|].
      intros k Hk. apply in_seq in Hk.
      destruct (nth_error (b_events o) k) as [e|] eqn:E; [|apply nth_error_None in E; lia].
      destruct (L3 k e E) as [_ [_ [_ [i [_ [_ [_ [_ [_ [Ei _]]]]]]]]]].
      destruct (nth_error own i) as [l|] eqn:El.
      2:{ apply nth_error_None in El. rewrite <- Lo in El. apply nth_error_None in El. congruence. }
      assert (Hl : (l < n)%nat) by (apply (ds_numbers _ _ _ _ D); eapply nth_error_In; eassumption).
      destruct (Num l Hl) as [_ [_ [N _]]]. apply N in El. rewrite Ei in El. injection El as El.
      apply in_map_iff. exists l. split; [lia|]. apply in_seq. lia. }
    lia.
  - exists num. split; [exact Inj|]. split.
    + apply same_elements. intros i. rewrite nth_error_map.
      destruct (nth_error own i) as [l|] eqn:E; cbn.
      * assert (Hl : (l < n)%nat) by (apply (ds_numbers _ _ _ _ D); eapply nth_error_In; eassumption).
        destruct (Num l Hl) as [_ [_ [N _]]]. apply N. exact E.
      * apply nth_error_None. apply nth_error_None in E. lia.
    + intros l Hl. destruct (Num l Hl) as [e [E [N [X [Y [i [c [Hi [Hc Hm]]]]]]]]].
      exists e. split; [exact E|]. split.
      { destruct (L3 _ _ E) as [Q _]. rewrite Q. apply count_own; [exact L1|exact N]. }
      split; [exact X|]. split; [exact Y|]. split; [exists i, c; auto|].
      split; [intros A; apply (alone_time l c i); assumption|].
      destruct (L3 _ _ E) as [_ [_ [Q _]]]. exact Q.
Qed.

Lemma C98_l o : 1 <= size -> exists o', dbs_fit_with size ext cfg o hits = Ok o' /\
  tells_all cfg hits own n o'.
Proof.
  intros Hs.
  destruct (fit_ok cfg ext hits size eps_good toas few ext_good Hs) as [infos [_ [_ [_ [_ HA]]]]].
  destruct (HA o) as [o1 [E1 [_ [N1 _]]]]. destruct (HA dbs_new) as [o2 [E2 [_ [N2 _]]]].
  assert (T : tells_all cfg hits own n o2).
  { apply tells_labelled. apply (C61_l cfg ext hits size dbs_new o2); try assumption. reflexivity. }
  exists o1. split; [exact E1|].
  destruct (C62_events_l cfg ext hits size o dbs_new o1 o2) as [Ee [El _]]; try assumption.
  assert (o1 = o2) as ->; [|exact T].
  destruct o1 as [ev1 lb1], o2 as [ev2 lb2]. cbn in *. subst ev2. f_equal.
  apply same_elements. intros i. destruct (nth_error own i) as [l|] eqn:E.
  - apply El. apply (own_crowded i l E).
  - apply nth_error_None in E. rewrite (ds_length _ _ _ _ D) in E.
    rewrite (proj2 (nth_error_None lb1 i)), (proj2 (nth_error_None lb2 i)) by lia. reflexivity.
Qed.
End All.

(** * Accuracy *)

Lemma mean_lies f lo hi hs : hs <> [] -> zlen hs < 2 ^ 31 -> Forall (fun h => 0 <= f h < 2 ^ 22) hs ->
  Forall (fun h => lo <= f h <= hi) hs -> lies_in lo hi (mean f hs).
Proof.
  intros Hne Hf H1 H2.
  assert (B : lies_in (Z.max 0 lo) (Z.min (2 ^ 22) hi) (mean f hs)).
  { assert (Q : exists h, In h hs) by (destruct hs as [|h r]; [contradiction|exists h; left; reflexivity]).
    destruct Q as [h Hh]. rewrite Forall_forall in H1, H2.
    pose proof (H1 h Hh). pose proof (H2 h Hh).
    apply mean_between; [exact Hne|exact Hf|lia|lia|]. apply Forall_forall. intros g Hg.
    specialize (H1 g Hg). specialize (H2 g Hg). lia. }
  destruct B as [F [B1 B2]]. split; [exact F|]. split.
  - apply Rle_trans with (2 := B1). apply IZR_le. lia.
  - apply (Rle_trans _ _ _ B2). apply IZR_le. lia.
Qed.

Lemma C98_accuracy_l cfg hits own n o l x0 x1 y0 y1 t0 t1 :
  Forall toa_ok hits -> Forall pixel_ok hits -> zlen hits < 2 ^ 31 -> distinct cfg hits own n ->
  tells_all cfg hits own n o -> (l < n)%nat ->
  Forall (fun h => x0 <= h_x h <= x1 /\ y0 <= h_y h <= y1 /\ t0 <= h_toa h <= t1) (hits_of l own hits) ->
  exists k e, nth_error (b_events o) k = Some e /\
    (forall i, nth_error own i = Some l <-> nth_error (b_labels o) i = Some (Z.of_nat k)) /\
    lies_in x0 x1 (n_x e) /\ lies_in y0 y1 (n_y e) /\
    (alone cfg hits own l -> lies_in (25 * t0) (25 * t1) (n_tof e)).
Proof.
  intros Ht Hp Hf D [_ [num [Inj [Lab T]]]] Hl F.
  destruct (T l Hl) as [e [E [_ [X [Y [_ [A _]]]]]]]. exists (num l), e. split; [exact E|]. split.
  { intros i. rewrite Lab, nth_error_map. split; [intros ->; reflexivity|].
    destruct (nth_error own i) as [l'|] eqn:Ei; [|discriminate]. cbn. intros H. injection H as H.
    apply Nat2Z.inj in H. f_equal. apply Inj; [|exact Hl|exact H].
    apply (ds_numbers _ _ _ _ D). eapply nth_error_In; eassumption. }
  assert (Hne := hits_of_ne cfg hits own n D l Hl).
  assert (Hfew := hits_of_few hits own Hf l).
  assert (Hin := hits_of_in cfg hits own n D l).
  rewrite Forall_forall in Ht, Hp, F.
  split; [|split].
  - rewrite X. apply mean_lies; [exact Hne|exact Hfew| |]; apply Forall_forall; intros h Hh.
    + destruct (Hp h (Hin h Hh)). lia.
    + apply (F h Hh).
  - rewrite Y. apply mean_lies; [exact Hne|exact Hfew| |]; apply Forall_forall; intros h Hh.
    + destruct (Hp h (Hin h Hh)). lia.
    + apply (F h Hh).
  - intros Al. rewrite (A Al). apply mean_lies; [exact Hne|exact Hfew| |]; apply Forall_forall; intros h Hh.
    + specialize (Ht h (Hin h Hh)). unfold toa_ok in Ht. lia.
    + destruct (F h Hh) as [_ [_ Q]]. lia.
Qed.
