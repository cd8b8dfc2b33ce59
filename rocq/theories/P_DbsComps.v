(** A library that satisfies the assumptions on clusters in the plane, for the
    examples: the clusters are the classes of pixels joined by steps of at most
    epsilon, of at least the minimal size. *)
From Coq Require Import Reals Lra Lia ZifyBool Relations.Operators_Properties.
From Flocq Require Import Core.
From Verif Require Export P_DbsEvents P_DbsInst.
Local Open Scope Z_scope.
Local Open Scope list_scope.

Section Comps.
Context {A : Type} (near : A -> A -> bool).
Hypothesis sym : forall a b, near a b = near b a.

Definition step (ps : list A) (i j : nat) : Prop :=
  exists a b, nth_error ps i = Some a /\ nth_error ps j = Some b /\ near a b = true.
Definition reach (p : A) (ps : list A) (c : list nat) : bool :=
  existsb (fun j => match nth_error ps j with Some q => near p q | None => false end) c.
Fixpoint comps (ps : list A) : list (list nat) :=
  match ps with
  | [] => []
  | p :: r =>
      let (t, u) := partition (reach p r) (comps r) in
      (O :: map S (concat t)) :: map (map S) u
  end.

Lemma reach_iff p ps c : reach p ps c = true <-> exists j q, In j c /\ nth_error ps j = Some q /\ near p q = true.
Proof.
  unfold reach. rewrite existsb_exists. split.
  - intros [j [Hj H]]. destruct (nth_error ps j) as [q|] eqn:E; [|discriminate]. exists j, q. auto.
  - intros [j [q [Hj [E H]]]]. exists j. rewrite E. auto.
Qed.

Lemma partition_perm (f : list nat -> bool) l : forall t u, partition f l = (t, u) ->
  Permutation (concat l) (concat t ++ concat u) /\
  (forall c, In c t <-> In c l /\ f c = true) /\ (forall c, In c u <-> In c l /\ f c = false).
Proof.
  induction l as [|c l IH]; intros t u E; cbn in E.
  - injection E as <- <-. split; [constructor|]. split; intros c; cbn; tauto.
  - destruct (partition f l) as [t' u']. destruct (IH t' u' eq_refl) as [P [H1 H2]].
    destruct (f c) eqn:F; injection E as <- <-.
    + split; [cbn; rewrite <- app_assoc; apply Permutation_app_head, P|]. split; intros d; cbn.
      * rewrite H1. split; [intros [<-|[]]; auto|]. intros [[<-|H] Q]; auto.
      * rewrite H2. split; [tauto|]. intros [[<-|H] Q]; [congruence|auto].
    + split; [cbn; rewrite P, !app_assoc; apply Permutation_app_tail, Permutation_app_comm|]. split; intros d; cbn.
      * rewrite H1. split; [tauto|]. intros [[<-|H] Q]; [congruence|auto].
      * rewrite H2. split; [intros [<-|[]]; auto|]. intros [[<-|H] Q]; auto.
Qed.

Lemma step_S p r i j : step (p :: r) (S i) (S j) <-> step r i j.
Proof. reflexivity. Qed.
Lemma step_sym ps i j : step ps i j -> step ps j i.
Proof. intros [a [b [H1 [H2 H3]]]]. exists b, a. rewrite sym. auto. Qed.

Lemma joined_S p r i j : clos_refl_trans nat (step r) i j -> clos_refl_trans nat (step (p :: r)) (S i) (S j).
Proof.
  induction 1; [apply rt_step, H|apply rt_refl|eapply rt_trans; eassumption].
Qed.
Lemma joined_sym ps i j : clos_refl_trans nat (step ps) i j -> clos_refl_trans nat (step ps) j i.
Proof.
  induction 1; [apply rt_step, step_sym, H|apply rt_refl|eapply rt_trans; eassumption].
Qed.

Lemma comps_ok ps :
  NoDup (concat (comps ps)) /\ (forall i, In i (concat (comps ps)) <-> (i < length ps)%nat) /\
  (forall c, In c (comps ps) -> c <> []) /\
  (forall c i j, In c (comps ps) -> In i c -> In j c -> clos_refl_trans nat (step ps) i j) /\
  (forall c i j, In c (comps ps) -> In i c -> step ps i j -> In j c).
Proof.
  induction ps as [|p r [N [I [E [J C]]]]].
  - cbn. split; [constructor|]. split; [intros i; split; [intros []|lia]|].
    split; [intros c []|]. split; intros c i j [].
  - cbn [comps]. destruct (partition (reach p r) (comps r)) as [t u] eqn:P.
    destruct (partition_perm _ _ _ _ P) as [Q [T U]]. clear P.
    assert (EC : concat ((O :: map S (concat t)) :: map (map S) u) = O :: map S (concat t ++ concat u)).
    { cbn. rewrite map_app, !concat_map. reflexivity. }
    rewrite EC. split.
    { constructor.
      - intros H. apply in_map_iff in H. destruct H as [x [H _]]. discriminate.
      - apply FinFun.Injective_map_NoDup; [intros x y; congruence|]. apply (Permutation_NoDup Q). exact N. }
    split.
    { intros [|i]; cbn; [split; [lia|auto]|]. split.
      - intros [H|H]; [discriminate|]. apply in_map_iff in H. destruct H as [x [H1 H2]]. injection H1 as ->.
        apply (Permutation_in _ (Permutation_sym Q)) in H2. apply I in H2. lia.
      - intros H. right. apply in_map. apply (Permutation_in _ Q). apply I. lia. }
    split.
    { intros c [<-|H]; [discriminate|]. apply in_map_iff in H. destruct H as [d [<- H]].
      apply U in H. destruct H as [H _]. apply E in H. destruct d; [contradiction|discriminate]. }
    assert (Z0 : forall i, In i (concat t) -> clos_refl_trans nat (step (p :: r)) O (S i)).
    { intros i Hi. apply in_concat in Hi. destruct Hi as [c [Hc Hi]]. apply T in Hc. destruct Hc as [Hc Hr].
      apply reach_iff in Hr. destruct Hr as [j [q [Hj [Eq Hn]]]].
      apply rt_trans with (S j).
      - apply rt_step. exists p, q. cbn. auto.
      - apply joined_S, (J c); assumption. }
    split.
    { assert (Z1 : forall i, In i (O :: map S (concat t)) -> clos_refl_trans nat (step (p :: r)) O i).
      { intros i [<-|H]; [apply rt_refl|]. apply in_map_iff in H. destruct H as [x [<- H]]. apply Z0, H. }
      intros c i j [<-|H] Hi Hj.
      - apply rt_trans with O; [apply joined_sym, Z1, Hi|apply Z1, Hj].
      - apply in_map_iff in H. destruct H as [d [<- H]]. apply U in H. destruct H as [H _].
        apply in_map_iff in Hi. destruct Hi as [i' [<- Hi]]. apply in_map_iff in Hj. destruct Hj as [j' [<- Hj]].
        apply joined_S, (J d); assumption. }
    assert (Z2 : forall i j d, In d (comps r) -> In i d -> step r i j -> In j d) by (intros; eapply C; eassumption).
    intros c i j [<-|H] Hi Hs.
    + destruct j as [|j]; [left; reflexivity|]. right. apply in_map.
      destruct Hi as [<-|Hi].
      * destruct Hs as [a [b [H1 [H2 H3]]]]. cbn in H1, H2. injection H1 as <-.
        assert (Hj : In j (concat (comps r))) by (apply I; apply nth_error_Some; congruence).
        apply in_concat in Hj. destruct Hj as [d [Hd Hj]]. apply in_concat. exists d. split; [|exact Hj].
        apply T. split; [exact Hd|]. apply reach_iff. exists j, b. auto.
      * apply in_map_iff in Hi. destruct Hi as [i' [<- Hi]]. apply in_concat in Hi. destruct Hi as [d [Hd Hi]].
        apply in_concat. exists d. split; [exact Hd|]. apply T in Hd. apply (Z2 i'); [apply Hd|exact Hi|exact Hs].
    + apply in_map_iff in H. destruct H as [d [<- H]]. apply U in H. destruct H as [H Hr].
      apply in_map_iff in Hi. destruct Hi as [i' [<- Hi]].
      destruct j as [|j].
      * exfalso. destruct Hs as [a [b [H1 [H2 H3]]]]. cbn in H1, H2. injection H2 as <-.
        enough (reach p r d = true) by congruence. apply reach_iff. exists i', a. rewrite sym. auto.
      * apply in_map. apply (Z2 i'); [exact H|exact Hi|exact Hs].
Qed.

Lemma comp_of ps i : (i < length ps)%nat -> exists c, In c (comps ps) /\ NoDup c /\
  forall j, In j c <-> clos_refl_trans nat (step ps) i j.
Proof.
  intros Hi. destruct (comps_ok ps) as [N [I [E [J C]]]].
  apply I in Hi. apply in_concat in Hi. destruct Hi as [c [Hc Hi]]. exists c. split; [exact Hc|]. split.
  - apply in_split in Hc. destruct Hc as [l1 [l2 Hc]]. rewrite Hc, concat_app in N. cbn in N.
    apply nodup_app_r in N. apply nodup_app_l in N. exact N.
  - intros j. split; [intros Hj; apply (J c); assumption|].
    intros H. apply clos_rt_rtn1 in H. induction H as [|x y H _ IH]; [exact Hi|].
    apply (C c x); assumption.
Qed.
End Comps.

(** * The library *)

Definition ex_z (x : f64) : Z := match f_to_i32 x with Some z => z | None => 0 end.
Definition ex_zz (p : f64 * f64) : Z * Z := (ex_z (fst p), ex_z (snd p)).
Definition zz_near (eps : f64) (a b : Z * Z) : bool :=
  fle (Bsqrt mode_NE (f_of_Z ((fst a - fst b) ^ 2 + (snd a - snd b) ^ 2))) eps.

Fixpoint place (j : nat) (cs : list (list nat)) : option nat :=
  match cs with
  | [] => None
  | c :: r => if existsb (Nat.eqb j) c then Some O else option_map S (place j r)
  end.
Definition zmean (f : Z * Z -> Z) (zs : list (Z * Z)) (c : list nat) : f64 :=
  fdiv (f_of_Z (fold_right Z.add 0 (map (fun j => match nth_error zs j with Some z => f z | None => 0 end) c)))
    (f_of_Z (zlen c)).
Definition ex_plane (eps : f64) (minp : Z) (ps : list (f64 * f64)) : dbs_out (f64 * f64) :=
  let zs := map ex_zz ps in
  let cs := filter (fun c => minp <=? zlen c) (comps (zz_near eps) zs) in
  DbsOut (zlen cs)
    (map (fun j => match place j cs with Some k => Z.of_nat k | None => 2 ^ 64 - 1 end) (seq 0 (length ps)))
    (map (fun c => (zmean fst zs c, zmean snd zs c)) cs).
Definition ex_lib : dbs_ext := DbsExt ex_sort ex_fit1 ex_plane.

Lemma zz_near_sym eps a b : zz_near eps a b = zz_near eps b a.
Proof.
  unfold zz_near. replace (fst b - fst a) with (- (fst a - fst b)) by lia.
  replace (snd b - snd a) with (- (snd a - snd b)) by lia. rewrite !Z.pow_2_r, !Z.mul_opp_opp. reflexivity.
Qed.

Lemma place_iff cs : forall j k, NoDup (concat cs) ->
  place j cs = Some k <-> exists c, nth_error cs k = Some c /\ In j c.
Proof.
  induction cs as [|c r IH]; intros j k N; cbn.
  - split; [discriminate|]. intros [c [H _]]. destruct k; discriminate.
  - cbn in N. destruct (existsb (Nat.eqb j) c) eqn:E.
    + assert (Hj : In j c).
      { apply existsb_exists in E. destruct E as [x [Hx E]]. apply Nat.eqb_eq in E. congruence. }
      split.
      * intros H. injection H as <-. exists c. auto.
      * intros [d [H1 H2]]. destruct k as [|k]; [reflexivity|]. exfalso. cbn in H1.
        clear - N Hj H1 H2. apply in_split in Hj. destruct Hj as [a [b ->]].
        rewrite <- app_assoc in N. cbn in N. apply NoDup_remove_2 in N. apply N.
        apply in_or_app. right. apply in_or_app. right. apply in_concat. exists d. split; [|exact H2].
        eapply nth_error_In; eassumption.
    + assert (Hj : ~ In j c).
      { intros H. assert (existsb (Nat.eqb j) c = true); [|congruence].
        apply existsb_exists. exists j. rewrite Nat.eqb_refl. auto. }
      apply nodup_app_r in N. destruct k as [|k].
      * split; [destruct (place j r); discriminate|]. intros [d [H1 H2]]. injection H1 as <-. contradiction.
      * cbn. rewrite <- (IH j k N). destruct (place j r); cbn; split; congruence.
Qed.

Lemma nodup_kept (f : list nat -> bool) cs : NoDup (concat cs) -> NoDup (concat (filter f cs)).
Proof.
  intros N. pose proof (nodup_filter (fun c : list nat => c) f cs) as H. rewrite !map_id in H. apply H, N.
Qed.

Lemma ex_plane_sound : fit2_sound ex_lib.
Proof.
  intros eps minp ps Hne. cbn [e_fit2 ex_lib]. unfold ex_plane.
  set (zs := map ex_zz ps). destruct (comps_ok (zz_near eps) (zz_near_sym eps) zs) as [N [I [E _]]].
  set (cs := filter _ _). assert (Ncs : NoDup (concat cs)) by (apply nodup_kept, N).
  split; [cbn; rewrite map_length, seq_length; reflexivity|]. split.
  - cbn. apply Forall_map. apply Forall_forall. intros j _.
    destruct (place j cs) as [k|] eqn:P; [right|left; reflexivity].
    apply (place_iff cs j k Ncs) in P. destruct P as [c [P _]].
    assert (k < length cs)%nat by (apply nth_error_Some; congruence). unfold zlen. lia.
  - split; [|cbn; unfold zlen; rewrite map_length; reflexivity].
    intros l Hl. cbn in *. destruct (nth_error cs (Z.to_nat l)) as [c|] eqn:Ec.
    2:{ apply nth_error_None in Ec. unfold zlen in Hl. lia. }
    assert (Hc : In c (comps (zz_near eps) zs)).
    { apply nth_error_In in Ec. apply filter_In in Ec. apply Ec. }
    pose proof (E c Hc) as Hn. destruct c as [|j c]; [contradiction|].
    apply in_map_iff. exists j. split.
    + rewrite (proj2 (place_iff cs j (Z.to_nat l) Ncs)); [lia|]. exists (j :: c). split; [exact Ec|left; reflexivity].
    + apply in_seq. assert (Q : In j (concat (comps (zz_near eps) zs))).
      { apply in_concat. exists (j :: c). split; [exact Hc|left; reflexivity]. }
      apply I in Q. unfold zs in Q. rewrite map_length in Q. lia.
Qed.

Lemma ex_z_int z : 0 <= z < 2 ^ 16 -> ex_z (f_of_Z z) = z.
Proof.
  intros Hz. destruct (is_int_of_Z z) as [F R]; [lia|]. unfold ex_z, f_to_i32, f_to_int. rewrite F.
  assert (T : Btrunc (f_of_Z z) = z).
  { apply eq_IZR. rewrite Btrunc_correct; [|exact emax1024]. rewrite round_FIX_IZR, R, Ztrunc_IZR. reflexivity. }
  rewrite T. unfold int_min, int_max. replace ((- 2 ^ 31 <=? z) && (z <=? 2 ^ 31 - 1)) with true by lia. reflexivity.
Qed.

Lemma ex_zz_px hs : Forall pixel_ok hs ->
  map ex_zz (map (fun h => (f_of_Z (h_x h), f_of_Z (h_y h))) hs) = map (fun h => (h_x h, h_y h)) hs.
Proof.
  induction 1 as [|h r [Hx Hy] _ IH]; [reflexivity|]. cbn [map]. rewrite IH. unfold ex_zz at 1. cbn [fst snd].
  rewrite !ex_z_int by assumption. reflexivity.
Qed.

Lemma ex_plane_finds : fit2_finds ex_lib.
Proof.
  intros eps minp hs i s Hpx Hfew Hi Ns Hs Hcore.
  assert (Hne : map (fun h => (f_of_Z (h_x h), f_of_Z (h_y h))) hs <> []).
  { destruct hs; [cbn in Hi; lia|discriminate]. }
  pose proof (clustering_count _ _ (ex_plane_sound eps minp _ Hne)) as [_ Hcount].
  revert Hcount. cbn [e_fit2 ex_lib]. unfold ex_plane.
  rewrite ex_zz_px by assumption.
  set (zs := map (fun h => (h_x h, h_y h)) hs).
  set (cs := filter _ _). intros Hcount. cbn [q_n] in Hcount. rewrite map_length in Hcount.
  assert (Step : forall a b, side eps hs a b <-> step (zz_near eps) zs a b).
  { intros a b. unfold side, step, zs. rewrite !nth_error_map. split.
    - intros [h [h' [H1 [H2 H3]]]]. exists (h_x h, h_y h), (h_x h', h_y h').
      rewrite H1, H2. auto.
    - intros [z [z' [H1 [H2 H3]]]].
      destruct (nth_error hs a) as [h|]; [|discriminate]. destruct (nth_error hs b) as [h'|]; [|discriminate].
      cbn in H1, H2. injection H1 as <-. injection H2 as <-. exists h, h'. auto. }
  assert (Clos : forall a b, clos_refl_trans nat (side eps hs) a b <-> clos_refl_trans nat (step (zz_near eps) zs) a b).
  { intros a b. split; induction 1; try apply rt_refl; try (eapply rt_trans; eassumption).
    - apply rt_step, Step, H.
    - apply rt_step, Step, H. }
  destruct (comp_of (zz_near eps) (zz_near_sym eps) zs i) as [c [Hc [Nc Hin]]].
  { unfold zs. rewrite map_length. exact Hi. }
  destruct (comps_ok (zz_near eps) (zz_near_sym eps) zs) as [N _].
  assert (P : Permutation c s).
  { apply NoDup_Permutation; [exact Nc|exact Ns|]. intros j. rewrite Hin, Hs. symmetry. apply Clos. }
  assert (Ncs : NoDup (concat cs)) by (apply nodup_kept, N).
  assert (Hkept : In c cs).
  { apply filter_In. split; [exact Hc|]. apply Z.leb_le.
    assert (Is : In i s) by (apply Hs, rt_refl).
    rewrite Forall_forall in Hcore. destruct (Hcore i Is) as [l [N1 [N2 F]]].
    enough (length l <= length c)%nat by (unfold zlen in *; lia).
    apply NoDup_incl_length; [exact N1|]. intros j Hj. rewrite Forall_forall in F.
    destruct (F j Hj) as [_ [_ H]]. apply Hin, Clos, rt_step, H. }
  apply In_nth_error in Hkept. destruct Hkept as [k Hk].
  assert (Hms : exists ms, map (nth_error hs) s = map Some ms).
  { assert (F : Forall (fun j => exists h, nth_error hs j = Some h) s).
    { apply Forall_forall. intros j Hj. apply Hs, Clos in Hj. apply Hin in Hj.
      destruct (comps_ok (zz_near eps) (zz_near_sym eps) zs) as [_ [I _]].
      assert (Q : In j (concat (comps (zz_near eps) zs))) by (apply in_concat; exists c; auto).
      apply I in Q. unfold zs in Q. rewrite map_length in Q.
      destruct (nth_error hs j) as [h|] eqn:E; [eauto|]. apply nth_error_None in E. lia. }
    clear - F. induction F as [|j r [h Hh] _ [ms IH]]; [exists []; reflexivity|].
    exists (h :: ms). cbn. rewrite Hh, IH. reflexivity. }
  destruct Hms as [ms Em]. exists k, ms. split; [exact Em|]. split.
  - cbn. rewrite nth_error_map, Hk. cbn [option_map].
    assert (M : forall (f : Z * Z -> Z) g, (forall h, f (h_x h, h_y h) = g h) -> zmean f zs c = mean g ms).
    { intros f g Hfg. unfold zmean, mean, total.
      assert (zlen c = zlen ms) as ->.
      { unfold zlen. rewrite (Permutation_length P), <- (map_length (nth_error hs) s), Em, map_length. reflexivity. }
      do 2 f_equal.
      assert (G : forall la lb : list Z, Permutation la lb -> fold_right Z.add 0 la = fold_right Z.add 0 lb)
        by (clear; intros la lb Q; induction Q; cbn; lia).
      apply G. apply (Permutation_trans (Permutation_map _ P)).
      replace (map g ms) with (map (fun j => match nth_error zs j with Some z => f z | None => 0 end) s); [reflexivity|].
      clear - Em Hfg. revert ms Em. induction s as [|j r IH]; intros [|h ms] Em; try discriminate; [reflexivity|].
      cbn in Em. injection Em as E1 E2. cbn [map]. unfold zs at 1. rewrite nth_error_map, E1. cbn [option_map].
      rewrite Hfg, (IH _ E2). reflexivity. }
    rewrite (M fst h_x), (M snd h_y) by reflexivity. reflexivity.
  - intros j. cbn. rewrite nth_error_map, map_length.
    assert (Hj : In j s <-> In j c).
    { split; apply Permutation_in; [apply Permutation_sym|]; exact P. }
    rewrite Hj. split.
    + intros H. destruct (nth_error (seq 0 (length hs)) j) as [j'|] eqn:E; [|discriminate].
      assert (j' = j).
      { assert (j < length hs)%nat by (rewrite <- (seq_length (length hs) 0); apply nth_error_Some; congruence).
        pose proof (@seq_nth (length hs) 0 j 0 H0) as Q.
        rewrite (nth_error_nth _ _ 0%nat E) in Q. lia. }
      subst j'. cbn in H. injection H as H. destruct (place j cs) as [k'|] eqn:Ep.
      * assert (k' = k) by lia. subst k'. apply (place_iff cs j k Ncs) in Ep.
        destruct Ep as [d [E1 E2]]. congruence.
      * exfalso. assert (k < length cs)%nat by (apply nth_error_Some; congruence).
        unfold zlen in *. lia.
    + intros H. assert (Hlt : (j < length hs)%nat).
      { destruct (comps_ok (zz_near eps) (zz_near_sym eps) zs) as [_ [I _]].
        assert (Q : In j (concat (comps (zz_near eps) zs))) by (apply in_concat; exists c; auto).
        apply I in Q. unfold zs in Q. rewrite map_length in Q. exact Q. }
      destruct (nth_error (seq 0 (length hs)) j) as [j'|] eqn:E.
      2:{ apply nth_error_None in E. rewrite seq_length in E. lia. }
      pose proof (@seq_nth (length hs) 0 j 0 Hlt) as Q. rewrite (nth_error_nth _ _ 0%nat E) in Q. cbn in Q. subst j'.
      cbn. rewrite (proj2 (place_iff cs j k Ncs)); [reflexivity|]. exists c. auto.
Qed.

Lemma ex_lib_sound : ext_sound ex_lib.
Proof. split; [exact ex_fit1_sound|]. split; [exact ex_plane_sound|exact ex_sort_sound]. Qed.

(** * A check for events that can be told apart *)

(** No hit between the ticks [lo] and [hi]. *)
Definition cut_b (eps : f64) (lo hi : Z) (hits : list hit) : bool :=
  negb (fle (f_of_Z (25 * (hi - lo))) eps) && (0 <=? lo) && (lo <=? hi) && (hi <=? 2 ^ 14) &&
  forallb (fun h => (h_toa h <=? lo) || (hi <=? h_toa h)) hits.

Definition pair_b (cfg : dbs_cfg) (lo hi : Z) (a b : nat * hit) : bool :=
  let (l, h) := a in let (l', h') := b in
  if Nat.eqb l l' then fle (fabs (fsub (toa_ns h) (toa_ns h'))) (d_eps_time cfg) && zz_near (d_eps_xy cfg) (h_x h, h_y h) (h_x h', h_y h')
  else negb (zz_near (d_eps_xy cfg) (h_x h, h_y h) (h_x h', h_y h')) ||
       ((h_toa h <=? lo) && (hi <=? h_toa h')) || ((h_toa h' <=? lo) && (hi <=? h_toa h)).

Definition distinct_b (cfg : dbs_cfg) (lo hi : Z) (hits : list hit) (own : list nat) (n : nat) : bool :=
  Nat.eqb (length own) (length hits) && forallb (fun l => Nat.ltb l n) own &&
  forallb (fun l => (d_min_time cfg <=? zlen (hits_of l own hits)) && (d_min_xy cfg <? zlen (hits_of l own hits)) &&
                    existsb (Nat.eqb l) own) (seq 0 n) &&
  cut_b (d_eps_time cfg) lo hi hits &&
  forallb (fun a => forallb (pair_b cfg lo hi a) (combine own hits)) (combine own hits).

Lemma cut_linked eps lo hi hits i j : eps_ok eps -> Forall toa_ok hits -> cut_b eps lo hi hits = true ->
  same_time eps hits i j -> forall a b, nth_error hits i = Some a -> nth_error hits j = Some b ->
  h_toa a <= lo <-> h_toa b <= lo.
Proof.
  intros He Ht HC. unfold cut_b in HC. rewrite !andb_true_iff in HC. destruct HC as [[[[C1 C2] C3] C4] C5].
  apply Z.leb_le in C2, C3, C4. apply negb_true_iff in C1. rewrite forallb_forall in C5.
  assert (Side : forall k h, nth_error hits k = Some h -> h_toa h <= lo \/ hi <= h_toa h).
  { intros k h Hk. apply nth_error_In in Hk. specialize (C5 h Hk). cbn beta in C5. lia. }
  assert (Gap : lo < hi).
  { destruct (Z.eq_dec lo hi) as [->|]; [|lia]. exfalso. rewrite Z.sub_diag in C1.
    destruct He as [_ He]. change (25 * 0) with 0 in C1. congruence. }
  assert (Far : forall d, 25 * (hi - lo) <= d -> ~ within eps d).
  { intros d Hd W. assert (W2 : within eps (25 * (hi - lo))) by (apply (within_le eps d); assumption).
    apply (fle_within (f_of_Z (25 * (hi - lo))) (25 * (hi - lo)) eps) in W2; [congruence| |apply He].
    apply is_int_of_Z. lia. }
  intros H. unfold same_time in H.
  assert (G : forall a b, nth_error hits i = Some a -> nth_error hits j = Some b -> (h_toa a <= lo <-> h_toa b <= lo)); [|exact G].
  remember (map toa_ns hits) as ts eqn:Ets.
  induction H as [i Hi|i j k x y H IH Hj Hk Nr]; intros a b Ha Hb.
  - assert (a = b) by congruence. subst b. reflexivity.
  - subst ts. rewrite nth_error_map in Hj, Hk.
    destruct (nth_error hits j) as [c|] eqn:Ej; [|discriminate]. cbn in Hj. injection Hj as <-.
    rewrite Hb in Hk. cbn in Hk. injection Hk as <-.
    rewrite (IH a c Ha eq_refl). clear IH.
    assert (W : within eps (Z.abs (T hits j - T hits k))).
    { apply (near_T eps hits He Ht j k (toa_ns c) (toa_ns b));
        [rewrite nth_error_map, Ej; reflexivity|rewrite nth_error_map, Hb; reflexivity|exact Nr]. }
    unfold T in W. rewrite Ej, Hb in W.
    pose proof (Side j c Ej). pose proof (Side k b Hb).
    split; intros Hlo.
    + destruct (Z_le_gt_dec (h_toa b) lo); [assumption|]. exfalso. apply (Far _) in W; [exact W|lia].
    + destruct (Z_le_gt_dec (h_toa c) lo); [assumption|]. exfalso. apply (Far _) in W; [exact W|lia].
Qed.

Lemma combine_nth_some (own : list nat) : forall (hits : list hit) i l h,
  nth_error own i = Some l -> nth_error hits i = Some h -> In (l, h) (combine own hits).
Proof.
  induction own as [|o own IH]; intros [|g hits] [|i] l h H1 H2; try discriminate.
  - injection H1 as ->. injection H2 as ->. left. reflexivity.
  - right. apply (IH hits i); assumption.
Qed.

Lemma distinct_by cfg lo hi hits own n : eps_ok (d_eps_time cfg) -> Forall toa_ok hits ->
  distinct_b cfg lo hi hits own n = true -> distinct cfg hits own n.
Proof.
  intros He Ht H. unfold distinct_b in H. rewrite !andb_true_iff in H. destruct H as [[[[H1 H2] H3] H4] H5].
  apply Nat.eqb_eq in H1. rewrite forallb_forall in H2, H3, H5.
  assert (Hit : forall i l, nth_error own i = Some l -> exists h, nth_error hits i = Some h).
  { intros i l Hi. destruct (nth_error hits i) eqn:E; [eauto|]. apply nth_error_None in E.
    rewrite <- H1 in E. apply nth_error_None in E. congruence. }
  assert (Pair : forall i j l l' h h', nth_error own i = Some l -> nth_error own j = Some l' ->
    nth_error hits i = Some h -> nth_error hits j = Some h' -> pair_b cfg lo hi (l, h) (l', h') = true).
  { intros i j l l' h h' A B C E. specialize (H5 (l, h) (combine_nth_some _ _ _ _ _ A C)).
    rewrite forallb_forall in H5. apply H5. apply (combine_nth_some _ _ j); assumption. }
  assert (Same : forall i j l, nth_error own i = Some l -> nth_error own j = Some l ->
    exists h h', nth_error hits i = Some h /\ nth_error hits j = Some h' /\
      near (d_eps_time cfg) (toa_ns h) (toa_ns h') /\ beside (d_eps_xy cfg) h h').
  { intros i j l A B. destruct (Hit i l A) as [h C]. destruct (Hit j l B) as [h' E].
    pose proof (Pair i j l l h h' A B C E) as P. unfold pair_b in P. rewrite Nat.eqb_refl in P.
    apply andb_true_iff in P. exists h, h'. tauto. }
  assert (Num : forall i l, nth_error own i = Some l -> In l (seq 0 n)).
  { intros i l Hi. apply nth_error_In in Hi. apply H2 in Hi. apply Nat.ltb_lt in Hi. apply in_seq. lia. }
  constructor.
  - exact H1.
  - intros l. split; [intros Hl; apply H2 in Hl; apply Nat.ltb_lt in Hl; exact Hl|].
    intros Hl. assert (Q : In l (seq 0 n)) by (apply in_seq; lia). apply H3 in Q.
    rewrite !andb_true_iff in Q. destruct Q as [_ Q]. apply existsb_exists in Q. destruct Q as [x [Q1 Q2]].
    apply Nat.eqb_eq in Q2. congruence.
  - intros l Hl. assert (Q : In l (seq 0 n)) by (apply in_seq; lia). apply H3 in Q.
    rewrite !andb_true_iff in Q. lia.
  - intros i j l A B. destruct (Same i j l A B) as [h [h' [C [E [N _]]]]].
    apply (link_step _ _ i i j (toa_ns h) (toa_ns h')); [|rewrite nth_error_map, C; reflexivity|rewrite nth_error_map, E; reflexivity|exact N].
    apply link_refl. rewrite map_length. apply nth_error_Some. congruence.
  - intros i j l A B. destruct (Same i j l A B) as [h [h' [C [E [_ N]]]]].
    apply rt_step. split; [exists h, h'; auto|exact B].
  - intros i l A. destruct (hits_of_ix l own hits H1) as [ix [N [I M]]].
    assert (Hi : In i ix) by (apply I, A). apply in_split in Hi. destruct Hi as [l1 [l2 ->]].
    exists (l1 ++ l2). split; [apply NoDup_remove_1 in N; exact N|]. split.
    + pose proof (H3 l (Num i l A)) as Q. rewrite !andb_true_iff in Q. destruct Q as [[_ Q] _].
      apply (f_equal (@length _)) in M. rewrite !map_length, app_length in M. cbn [length] in M.
      unfold zlen in *. rewrite app_length. lia.
    + apply Forall_forall. intros j Hj.
      assert (Oj : nth_error own j = Some l).
      { apply I. apply in_app_or in Hj. apply in_or_app. destruct Hj; [auto|right; right; assumption]. }
      split; [exact Oj|]. split; [intros ->; apply NoDup_remove_2 in N; contradiction|].
      destruct (Same i j l A Oj) as [h [h' [C [E [_ B]]]]]. exists h, h'. auto.
  - intros i j l l' A B Hne HT [h [h' [C [E S]]]].
    pose proof (Pair i j l l' h h' A B C E) as P. unfold pair_b in P.
    destruct (Nat.eqb l l') eqn:El; [apply Nat.eqb_eq in El; contradiction|].
    rewrite <- orb_assoc in P. apply orb_true_iff in P. destruct P as [P|P].
    + apply negb_true_iff in P. unfold beside in S. unfold zz_near in P. cbn [fst snd] in P. congruence.
    + pose proof (cut_linked _ lo hi hits i j He Ht H4 HT h h' C E) as W.
      unfold cut_b in H4. rewrite !andb_true_iff in H4.
      destruct H4 as [[[[G1 G2] G3] G4] _]. apply negb_true_iff in G1.
      assert (lo <> hi).
      { intros ->. rewrite Z.sub_diag in G1. change (25 * 0) with 0 in G1. destruct He as [_ He]. congruence. }
      lia.
Qed.

(** The first event is later than all its hits. *)
Definition late_b (hits : list hit) (o : dbs_obj) : bool :=
  match b_events o with
  | e :: _ => forallb (fun p => negb (fst p =? 0) || flt (toa_ns (snd p)) (n_tof e)) (combine (b_labels o) hits)
  | [] => false
  end.
Lemma late_event (r : outcome dbs_obj) hits : (let! o := r in Ok (late_b hits o)) = Ok true ->
  exists o e, r = Ok o /\ nth_error (b_events o) 0 = Some e /\
    forall i h, nth_error (b_labels o) i = Some 0 -> nth_error hits i = Some h ->
      flt (toa_ns h) (n_tof e) = true.
Proof.
  destruct r as [o| | |]; cbn [obind]; try discriminate. intros H. apply ok_inj in H. unfold late_b in H.
  destruct (b_events o) as [|e es] eqn:E; [discriminate|]. exists o, e. split; [reflexivity|].
  split; [rewrite E; reflexivity|]. rewrite forallb_forall in H. intros i h H1 H2.
  assert (Q : In (0, h) (combine (b_labels o) hits)).
  { clear - H1 H2. generalize dependent hits. generalize dependent i. induction (b_labels o) as [|z r IH]; intros [|i] H1 [|g hits] H2; try discriminate.
    - injection H1 as ->. injection H2 as ->. left. reflexivity.
    - right. apply (IH i); assumption. }
  apply H in Q. cbn in Q. exact Q.
Qed.
