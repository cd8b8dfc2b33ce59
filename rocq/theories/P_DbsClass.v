(** The time clusters are the classes of hits linked in time. *)
From Coq Require Import Reals Lra Lia.
From Flocq Require Import Core.
From Verif Require Export P_DbsTime.
Local Open Scope Z_scope.
Local Open Scope list_scope.

Section Class.
Variable cfg : dbs_cfg.
Variable ext : dbs_ext.
Variable hits : list hit.
Local Notation eps := (d_eps_time cfg).
Hypothesis eps_good : eps_ok eps.
Hypothesis hits_ok : Forall toa_ok hits.
Hypothesis hits_few : zlen hits < 2 ^ 31.
Hypothesis ext_good : ext_sound ext.

Local Notation TS := (map toa_ns hits).
Local Notation N := (length hits).
Local Notation linked := (linked eps TS).
Local Notation T := (T hits).
Local Notation good := (good hits).

(** A good cluster whose hits are linked. *)
Definition joined (c : info) : Prop :=
  good c /\ forall i j, In i (i_idx c) -> In j (i_idx c) -> linked i j.

(** * Chunks *)

Lemma linked_shift chunk off : 
  (forall p t, nth_error chunk p = Some t -> nth_error TS (off + p) = Some t) ->
  forall i j, S_Dbscan.linked eps chunk i j -> linked (off + i) (off + j).
Proof.
  intros Hc i j H. induction H as [i H|i j k a b H IH Ha Hb Hn].
  - apply link_refl.
    destruct (nth_error chunk i) as [t|] eqn:E; [|apply nth_error_None in E; lia].
    apply nth_error_Some. rewrite (Hc _ _ E). discriminate.
  - apply (link_step eps TS _ (off + j) _ a b); auto.
Qed.

Lemma chunk_infos_ok chunk off : chunk <> [] -> zlen chunk < 2 ^ 31 ->
  (forall p t, nth_error chunk p = Some t -> nth_error TS (off + p) = Some t) ->
  exists infos, chunk_infos ext cfg chunk off = Ok infos /\ Forall joined infos /\
    Permutation (concat (map i_idx infos)) (seq off (length chunk)).
Proof.
  intros Hne Hfew Hc. destruct ext_good as [Hf1 _].
  destruct (Hf1 eps (d_min_time cfg) chunk Hne) as [Hq Hlink].
  unfold chunk_infos. set (q := e_fit1 ext eps (d_min_time cfg) chunk) in *.
  pose proof (clustering_count _ q Hq) as Hcount.
  destruct Hq as [Q1 [Q2 [Q3 Q4]]].
  assert (Hlen : Z.to_nat (q_n q) = length (q_cents q)).
  { rewrite <- Q4. unfold zlen. lia. }
  rewrite Hlen, new_infos_ok. cbn [obind].
  destruct (assign_ok eps hits hits_ok (q_n q)) with (ls := q_labels q) (ts := chunk) (i := off)
      (infos := map info_new (q_cents q)) (singles := @nil info)
    as [infos [singles [A1 [A2 [A3 [A4 [A5 A6]]]]]]].
  - unfold zlen in *. lia.
  - rewrite map_length. lia.
  - lia.
  - exact Q2.
  - exact Hc.
  - apply Forall_forall. intros c Hi. apply in_map_iff in Hi. destruct Hi as [x [<- _]].
    left. repeat split.
  - constructor.
  - exists (infos ++ singles). split; [exact A1|]. split.
    + apply Forall_app. split.
      * apply Forall_forall. intros c Hi. apply In_nth_error in Hi. destruct Hi as [l El].
        destruct (A6 l c El) as [c0 [E0 Hidx]].
        assert (Hl : (l < length infos)%nat) by (apply nth_error_Some; congruence).
        rewrite A2, map_length in Hl.
        assert (E0' : i_idx c0 = []).
        { rewrite nth_error_map in E0. destruct (nth_error (q_cents q) l); [|discriminate].
          cbn in E0. injection E0 as <-. reflexivity. }
        rewrite E0' in Hidx.
        split.
        -- rewrite Forall_forall in A3. destruct (A3 c (nth_error_In _ _ El)) as [Hfr|Hg]; [|exact Hg].
           exfalso. destruct Hfr as [Hfr _].
           destruct (In_nth_error _ _ (Q3 (Z.of_nat l) ltac:(lia))) as [p Hp].
           assert (HI : In (off + p)%nat (i_idx c)) by (apply Hidx; right; exists p; auto).
           rewrite Hfr in HI. exact HI.
        -- intros i j Hi Hj. apply Hidx in Hi, Hj.
           destruct Hi as [[]|[p [-> Hp]]]. destruct Hj as [[]|[p' [-> Hp']]].
           apply (linked_shift chunk off Hc). apply (Hlink p p' (Z.of_nat l)); try assumption.
           unfold zlen in *. lia.
      * eapply Forall_impl; [|exact A4]. intros c [Hg [j Ej]]. split; [exact Hg|].
        rewrite Ej. intros a b [<-|[]] [<-|[]]. apply linked_here.
        destruct Hg as [Hg _]. rewrite Ej in Hg. apply Forall_cons_iff in Hg. tauto.
    + rewrite A5, Q1. cbn [app].
      replace (concat (map i_idx (map info_new (q_cents q) ++ []))) with (@nil nat).
      * rewrite List.app_nil_r. reflexivity.
      * rewrite List.app_nil_r. clear. induction (q_cents q) as [|x r IH]; [reflexivity|exact IH].
Qed.

Lemma firstn_skipn_nth {A} (l : list A) a b : (b < length l)%nat \/ True ->
  nth_error (skipn a l) b = nth_error l (a + b).
Proof.
  intros _. revert l. induction a as [|a IH]; intros l; [reflexivity|].
  destruct l as [|x l]; cbn; [destruct b; reflexivity|apply IH].
Qed.

Lemma nth_firstn {A} (l : list A) k p t : nth_error (firstn k l) p = Some t -> nth_error l p = Some t.
Proof.
  revert k p. induction l as [|x l IH]; intros k p H; [destruct k, p; discriminate|].
  destruct k as [|k]; [destruct p; discriminate|].
  destruct p as [|p]; [exact H|]. apply (IH k p H).
Qed.

Lemma skipn_more {A} (l : list A) a b : skipn b (skipn a l) = skipn (a + b) l.
Proof.
  revert l. induction a as [|a IH]; intros l; [reflexivity|].
  destruct l as [|x l]; cbn; [destruct b; reflexivity|apply IH].
Qed.

Lemma chunks_ok size : 1 <= size -> forall fuel off all,
  (off < N)%nat -> (N - off <= fuel)%nat -> Forall joined all ->
  Permutation (concat (map i_idx all)) (seq 0 off) ->
  exists infos, chunks_loop fuel size ext cfg (skipn off TS) off all = Ok infos /\
    Forall joined infos /\ Permutation (concat (map i_idx infos)) (seq 0 N).
Proof.
  intros Hsize. induction fuel as [|fuel IH]; intros off all Hoff Hfuel Hall Hp; [lia|].
  cbn [chunks_loop].
  set (rest := skipn off TS).
  assert (Lrest : length rest = (N - off)%nat) by (unfold rest; rewrite skipn_length, map_length; reflexivity).
  assert (HzN : Z.of_nat N < 2 ^ 31) by exact hits_few.
  set (k := Z.to_nat (Z.min size (zlen rest))).
  assert (Hk : (1 <= k <= N - off)%nat) by (unfold k, zlen; rewrite Lrest; lia).
  destruct (chunk_infos_ok (firstn k rest) off) as [infos [E1 [E2 E3]]].
  - intros E. apply (f_equal (@length f64)) in E. rewrite firstn_length in E. cbn in E. lia.
  - unfold zlen. rewrite firstn_length. lia.
  - intros p t H. apply nth_firstn in H. unfold rest in H.
    rewrite (firstn_skipn_nth TS off p) in H by tauto. exact H.
  - rewrite E1. cbn [obind].
    assert (Ep : Permutation (concat (map i_idx (all ++ infos))) (seq 0 (off + k))).
    { rewrite map_app, concat_app, Hp, E3, firstn_length, Lrest.
      rewrite seq_app, Nat.min_l by lia. reflexivity. }
    assert (Ej : Forall joined (all ++ infos)) by (apply Forall_app; split; assumption).
    destruct (skipn k rest) as [|x r] eqn:Es.
    + exists (all ++ infos). split; [reflexivity|]. split; [exact Ej|].
      apply (f_equal (@length f64)) in Es. rewrite skipn_length, Lrest in Es. cbn in Es.
      replace N with (off + k)%nat by lia. exact Ep.
    + rewrite <- Es.
      replace (skipn k rest) with (skipn (off + k) TS) by (unfold rest; rewrite skipn_more; reflexivity).
      apply IH; try assumption; try lia.
      apply (f_equal (@length f64)) in Es. rewrite skipn_length, Lrest in Es. cbn [length] in Es. lia.
Qed.

(** * Merging *)

Lemma small_moderate x z : is_int x z -> Z.abs z <= 2 ^ 53 -> moderate x.
Proof.
  intros Hx Hz. unfold moderate.
  destruct (is_int_abs x z Hx) as [F R].
  apply fle_true; [exact F|apply of_Z_fin; vm_compute; discriminate|].
  rewrite R. rewrite of_Z_R by (vm_compute; discriminate).
  change (2 ^ 60) with (radix2 ^ 60). rewrite IZR_Zpower by lia. rewrite rnd_bpow by lia.
  rewrite <- IZR_Zpower by lia. apply IZR_le. change (radix2 ^ 60) with (2 ^ 60). lia.
Qed.

Lemma max_moderate x z : max_fl x z -> Z.abs z <= 2 ^ 53 -> moderate x.
Proof.
  intros [Hx|[_ ->]] Hz; [apply (small_moderate x z); assumption|].
  vm_compute. reflexivity.
Qed.

Lemma good_moderate c : good c -> moderate (i_min c) /\ moderate (i_max c).
Proof.
  intros [_ [[i [_ [Hi _]]] [[j [_ [Hj _]]] _]]].
  pose proof (T_range hits hits_ok i). pose proof (T_range hits hits_ok j).
  split; [apply (small_moderate _ (T i))|apply (max_moderate _ (T j))]; try assumption; lia.
Qed.

(** A cluster that reaches a later one is linked to it. *)
Lemma reaches_linked a b : joined a -> joined b -> fle (i_min a) (i_min b) = true ->
  reaches eps a b -> exists i j, In i (i_idx a) /\ In j (i_idx b) /\ linked i j.
Proof.
  intros [Ga La] [Gb Lb] Hle Hr.
  destruct Ga as [Ia [[i1 [Hi1 [Mi1 Fi1]]] [[i2 [Hi2 [Mi2 Fi2]]] _]]].
  destruct Gb as [Ib [[j1 [Hj1 [Mj1 Fj1]]] _]].
  pose proof (T_range hits hits_ok i1). pose proof (T_range hits hits_ok i2).
  pose proof (T_range hits hits_ok j1).
  rewrite (is_int_fle _ _ _ _ Mi1 Mj1) in Hle. apply Z.leb_le in Hle.
  assert (Hcl : info_close eps a b = true) by (apply orb_true_iff; exact Hr).
  apply (close_within eps a b (T i2) (T j1)) in Hcl; try assumption; try lia.
  rewrite Forall_forall in Ia, Ib.
  destruct (Z_le_gt_dec (T i2) (T j1)) as [Hc|Hc].
  - exists i2, j1. split; [exact Hi2|]. split; [exact Hj1|].
    apply link_one; try assumption; auto.
    replace (Z.abs (T i2 - T j1)) with (T j1 - T i2) by lia. exact Hcl.
  - destruct (linked_between eps hits eps_good hits_ok i1 i2 (T j1)) as [k [Lk [Hk Hw]]].
    + apply La; assumption.
    + lia.
    + exists i1, j1. split; [exact Hi1|]. split; [exact Hj1|].
      apply (link_T eps hits eps_good hits_ok i1 k j1); auto.
      replace (Z.abs (T k - T j1)) with (T j1 - T k) by lia. exact Hw.
Qed.

(** Clusters that are apart have no near hits. *)
Lemma apart_not_near a b i j : joined a -> joined b -> apart eps a b ->
  In i (i_idx a) -> In j (i_idx b) -> ~ within eps (Z.abs (T i - T j)).
Proof.
  intros [Ga _] [Gb _] Hap Hi Hj Hw.
  pose proof (good_moderate a Ga) as [_ Ma]. pose proof (good_moderate b Gb) as [Mb _].
  destruct Ga as [_ [_ [[i2 [Hi2 [Mi2 Fi2]]] _]]].
  destruct Gb as [_ [[j1 [Hj1 [Mj1 Fj1]]] _]].
  pose proof (T_range hits hits_ok i2). pose proof (T_range hits hits_ok j1).
  rewrite Forall_forall in Fi2, Fj1. specialize (Fi2 i Hi). specialize (Fj1 j Hj).
  assert (Hw' : within eps (T j1 - T i2)) by (apply (within_le eps _ _ Hw); lia).
  apply (close_within eps a b (T i2) (T j1)) in Hw'; try assumption; try lia.
  destruct (fsub_moderate (i_min b) (i_max a) Mb Ma) as [R F].
  pose proof (eps_nonneg eps eps_good) as Hpos. pose proof (proj1 eps_good) as Fe.
  unfold apart in Hap. apply flt_true in Hap; try assumption.
  unfold info_close in Hw'. apply orb_true_iff in Hw'. destruct Hw' as [Hg|Hl].
  - apply moderate_R in Ma, Mb. apply flt_true in Hg; try tauto.
    rewrite R in Hap.
    assert (Hz : (rnd (B2R (i_min b) - B2R (i_max a)) <= rnd (IZR 0))%R) by (apply rnd_le; cbn; lra).
    rewrite rnd_IZR in Hz by lia. cbn in Hz. lra.
  - apply fle_true in Hl; try assumption. lra.
Qed.

Lemma sorted_app_inv (l1 l2 : list info) (R : info -> info -> Prop) :
  StronglySorted R (l1 ++ l2) -> StronglySorted R l1 /\ StronglySorted R l2 /\
  forall a b, In a l1 -> In b l2 -> R a b.
Proof.
  induction l1 as [|x l1 IH]; cbn; intros H.
  - split; [constructor|]. split; [exact H|]. intros a b [].
  - apply StronglySorted_inv in H. destruct H as [H Hx].
    destruct (IH H) as [H1 [H2 H3]]. rewrite Forall_app in Hx. destruct Hx as [Hx1 Hx2].
    split; [constructor; assumption|]. split; [exact H2|].
    intros a b [<-|Ia] Ib; [rewrite Forall_forall in Hx2; auto|auto].
Qed.

(** All hits of a chained group are linked. *)
Lemma chained_linked g : Forall joined g -> chained eps g ->
  StronglySorted (fun a b => fle (i_min a) (i_min b) = true) g ->
  forall i j, In i (concat (map i_idx g)) -> In j (concat (map i_idx g)) -> linked i j.
Proof.
  induction g as [|b g IH] using rev_ind; intros Hj Hc Hs; [intros i j []|].
  apply Forall_app in Hj. destruct Hj as [Hg Hb]. apply Forall_cons_iff in Hb. destruct Hb as [Hb _].
  apply sorted_app_inv in Hs. destruct Hs as [Hs1 [_ Hs2]].
  assert (Hc' : chained eps g).
  { intros g1 x g2 E Hn. apply (Hc g1 x (g2 ++ [b])); [|exact Hn].
    rewrite E, <- List.app_assoc. reflexivity. }
  specialize (IH Hg Hc' Hs1).
  rewrite map_app, concat_app. cbn [map concat]. rewrite List.app_nil_r.
  destruct g as [|a0 g0].
  - cbn [map concat app]. apply Hb.
  - destruct (Hc (a0 :: g0) b [] eq_refl ltac:(discriminate)) as [a [Ia Hr]].
    assert (Ha : joined a) by (rewrite Forall_forall in Hg; apply Hg, Ia).
    destruct (reaches_linked a b Ha Hb (Hs2 a b Ia (or_introl eq_refl)) Hr) as [i0 [j0 [Hi0 [Hj0 L0]]]].
    assert (Hi0' : In i0 (concat (map i_idx (a0 :: g0)))).
    { apply in_concat. exists (i_idx a). split; [apply in_map; exact Ia|exact Hi0]. }
    assert (Cross : forall i j, In i (concat (map i_idx (a0 :: g0))) -> In j (i_idx b) -> linked i j).
    { intros i j Hi Hj. apply linked_trans with i0; try assumption; [apply IH; assumption|].
      apply linked_trans with j0; try assumption. apply Hb; assumption. }
    intros i j Hi Hj. apply in_app_iff in Hi, Hj.
    destruct Hi as [Hi|Hi]; destruct Hj as [Hj|Hj].
    + apply IH; assumption.
    + apply Cross; assumption.
    + apply linked_sym; try assumption. apply Cross; assumption.
    + apply Hb; assumption.
Qed.

(** * Classes *)

Local Notation members := (fun g => concat (map i_idx g)).

Lemma concat_members (groups : list (list info)) :
  concat (map members groups) = concat (map i_idx (concat groups)).
Proof.
  induction groups as [|g r IH]; [reflexivity|]. cbn. rewrite IH, map_app, concat_app. reflexivity.
Qed.

Lemma nodup_app_r {A} (a b : list A) : NoDup (a ++ b) -> NoDup b.
Proof.
  induction a as [|x a IH]; cbn; intros H; [exact H|]. apply NoDup_cons_iff in H. apply IH, H.
Qed.
Lemma nodup_app_l {A} (a b : list A) : NoDup (a ++ b) -> NoDup a.
Proof.
  induction a as [|x a IH]; cbn; intros H; [constructor|]. apply NoDup_cons_iff in H.
  destruct H as [H1 H2]. constructor; [intros Hi; apply H1, in_or_app; left; exact Hi|apply IH, H2].
Qed.

Lemma nodup_filter {A} (f : A -> list nat) p (l : list A) :
  NoDup (concat (map f l)) -> NoDup (concat (map f (filter p l))).
Proof.
  induction l as [|x l IH]; cbn; intros H; [exact H|].
  assert (Hsub : forall y, In y (concat (map f (filter p l))) -> In y (concat (map f l))).
  { intros y Hy. apply in_concat in Hy. destruct Hy as [z [Hz Hy]].
    apply in_map_iff in Hz. destruct Hz as [a [<- Ha]]. apply filter_In in Ha.
    apply in_concat. exists (f a). split; [apply in_map; tauto|exact Hy]. }
  assert (Hr : NoDup (concat (map f l))) by (apply nodup_app_r in H; exact H).
  destruct (p x); [|apply IH, Hr].
  cbn. clear - H Hsub Hr IH. specialize (IH Hr).
  induction (f x) as [|y r IHr]; cbn in *; [exact IH|].
  apply NoDup_cons_iff in H. destruct H as [Hn H].
  constructor; [|apply IHr; exact H].
  intros Hi. apply Hn. apply in_app_iff in Hi. apply in_app_iff.
  destruct Hi as [Hi|Hi]; [left; exact Hi|right; apply Hsub, Hi].
Qed.

Lemma nodup_part {A} (f : A -> list nat) (l : list A) a :
  NoDup (concat (map f l)) -> In a l -> NoDup (f a).
Proof.
  intros H Ha. apply in_split in Ha. destruct Ha as [l1 [l2 ->]].
  rewrite map_app, concat_app in H. cbn in H.
  apply nodup_app_r in H. apply nodup_app_l in H. exact H.
Qed.

Lemma sum_group : forall r s0 l0, nat_fl s0 (sumT hits l0) -> Forall joined r ->
  zlen (l0 ++ concat (map i_idx r)) <= 2 ^ 31 ->
  nat_fl (fold_left fadd (map i_sum r) s0) (sumT hits (l0 ++ concat (map i_idx r))).
Proof.
  induction r as [|c r IH]; intros s0 l0 Hs Hr Hlen; cbn [map concat fold_left].
  - rewrite List.app_nil_r. exact Hs.
  - apply Forall_cons_iff in Hr. destruct Hr as [[Hc _] Hr].
    cbn [map concat] in Hlen. rewrite List.app_assoc in *.
    assert (Hl : zlen l0 + zlen (i_idx c) <= 2 ^ 31).
    { rewrite !zlen_app in Hlen. pose proof (zlen_nonneg (concat (map i_idx r))). lia. }
    pose proof (zlen_nonneg l0). pose proof (zlen_nonneg (i_idx c)).
    apply IH; [|exact Hr|exact Hlen].
    rewrite sumT_app. destruct Hc as [_ [_ [_ Hsum]]].
    pose proof (sumT_bound hits hits_ok l0). pose proof (sumT_bound hits hits_ok (i_idx c)).
    apply nat_fl_add; [exact Hs|apply Hsum; lia|lia].
Qed.

Lemma mean_of c l : Forall (fun i => (i < N)%nat) l -> zlen l <= 2 ^ 31 ->
  i_idx c = l -> nat_fl (i_sum c) (sumT hits l) -> i_mean c = fdiv (i_sum c) (f_of_Z (zlen l)) ->
  mean_toa hits l (i_mean c).
Proof.
  intros Hl Hlen _ Hs Hm. rewrite Hm.
  pose proof (sumT_bound hits hits_ok l) as Hb.
  rewrite (nat_fl_eq _ _ Hs) by lia.
  clear - Hl. 
  assert (H : exists hs, map (nth_error hits) l = map Some hs /\
            fold_right Z.add 0 (map (fun h => 25 * h_toa h) hs) = sumT hits l).
  { induction l as [|i l IH]; [exists []; split; reflexivity|].
    apply Forall_cons_iff in Hl. destruct Hl as [Hi Hl]. destruct (IH Hl) as [hs [E1 E2]].
    destruct (nth_error hits i) as [h|] eqn:E; [|apply nth_error_None in E; lia].
    exists (h :: hs). split; [cbn; rewrite E, E1; reflexivity|].
    change (sumT hits (i :: l)) with (P_DbsTime.T hits i + sumT hits l). rewrite <- E2.
    unfold P_DbsTime.T. rewrite E. reflexivity. }
  destruct H as [hs [E1 E2]]. exists hs. split; [exact E1|]. rewrite E2. reflexivity.
Qed.

Lemma Forall2_in_r {A B} (R : A -> B -> Prop) l l' b : Forall2 R l l' -> In b l' ->
  exists a, In a l /\ R a b.
Proof.
  intros H. induction H as [|x y l l' Hxy H IH]; intros Hb; [destruct Hb|].
  destruct Hb as [<-|Hb]; [exists x; split; [left; reflexivity|exact Hxy]|].
  destruct (IH Hb) as [a [Ha Hr]]. exists a. split; [right; exact Ha|exact Hr].
Qed.
Lemma Forall2_in_l {A B} (R : A -> B -> Prop) l l' a : Forall2 R l l' -> In a l ->
  exists b, In b l' /\ R a b.
Proof.
  intros H. induction H as [|x y l l' Hxy H IH]; intros Ha; [destruct Ha|].
  destruct Ha as [<-|Ha]; [exists y; split; [left; reflexivity|exact Hxy]|].
  destruct (IH Ha) as [b [Hb Hr]]. exists b. split; [right; exact Hb|exact Hr].
Qed.

Lemma time_clusters_ok size : 1 <= size -> hits <> [] ->
  exists infos, time_clusters size ext cfg hits = Ok infos /\
    time_classes eps (d_min_time cfg) hits (map i_idx infos) /\
    Forall (fun c => mean_toa hits (i_idx c) (i_mean c) /\ i_idx c <> [] /\
                     Forall (fun i => (i < N)%nat) (i_idx c)) infos.
Proof.
  intros Hsize Hne. unfold time_clusters.
  assert (HN : (0 < N)%nat) by (destruct hits; [contradiction|cbn; lia]).
  destruct (chunks_ok size Hsize N 0%nat []) as [all [E1 [E2 E3]]]; try lia.
  { constructor. }
  { reflexivity. }
  cbn [skipn] in E1. rewrite E1. cbn [obind].
  assert (Hall : all <> []).
  { intros ->. cbn in E3. apply Permutation_nil in E3. destruct N; [lia|discriminate]. }
  destruct (C44_l ext cfg all) as [groups [out [M1 [M2 [M3 [M4 [M5 [M6 M7]]]]]]]].
  - apply ext_good.
  - apply eps_good.
  - exact Hall.
  - eapply Forall_impl; [|exact E2]. intros c [Hc _]. apply good_moderate. exact Hc.
  - exists out. split; [destruct all; [contradiction|exact M1]|].
    (* the groups *)
    assert (Gj : forall g, In g groups -> Forall joined g).
    { intros g Hg. apply Forall_forall. intros a Ha.
      assert (H : Forall joined (concat groups)) by (apply (Permutation_Forall (Permutation_sym M2)); exact E2).
      rewrite Forall_forall in H. apply H. apply in_concat. exists g. split; assumption. }
    assert (Gall : Permutation (concat (map members groups)) (seq 0 N)).
    { rewrite concat_members. rewrite <- E3. clear - M2.
      assert (H : Permutation (map i_idx (concat groups)) (map i_idx all)) by (apply Permutation_map; exact M2).
      induction H; cbn; [reflexivity|apply Permutation_app_head; assumption| |etransitivity; eassumption].
      rewrite !List.app_assoc. apply Permutation_app_tail. apply Permutation_app_comm. }
    assert (Gnd : NoDup (concat (map members groups))).
    { apply (Permutation_NoDup (Permutation_sym Gall)). apply seq_NoDup. }
    assert (Glink : forall g i j, In g groups -> In i (members g) -> In j (members g) -> linked i j).
    { intros g i j Hg. apply chained_linked; [apply Gj, Hg| |].
      - rewrite Forall_forall in M6. apply M6, Hg.
      - clear - M3 Hg. apply in_split in Hg. destruct Hg as [l1 [l2 ->]].
        rewrite concat_app in M3. cbn in M3. apply sorted_app_inv in M3. destruct M3 as [_ [M3 _]].
        apply sorted_app_inv in M3. tauto. }
    assert (Gin : forall i, (i < N)%nat -> exists g, In g groups /\ In i (members g)).
    { intros i Hi. assert (H : In i (concat (map members groups))).
      { apply (Permutation_in i (Permutation_sym Gall)). apply in_seq. lia. }
      apply in_concat in H. destruct H as [z [Hz Hiz]]. apply in_map_iff in Hz.
      destruct Hz as [g [<- Hg]]. exists g. split; assumption. }
    assert (Gnear : forall g g' i j, In g groups -> In g' groups -> In i (members g) -> In j (members g') ->
              within eps (Z.abs (T i - T j)) -> g = g').
    { intros g g' i j Hg Hg' Hi Hj Hw.
      apply in_concat in Hi. destruct Hi as [x [Hx Hi]]. apply in_map_iff in Hx. destruct Hx as [a [<- Ha]].
      apply in_concat in Hj. destruct Hj as [x [Hx Hj]]. apply in_map_iff in Hx. destruct Hx as [b [<- Hb]].
      assert (Ja : joined a) by (pose proof (Gj g Hg) as H; rewrite Forall_forall in H; auto).
      assert (Jb : joined b) by (pose proof (Gj g' Hg') as H; rewrite Forall_forall in H; auto).
      destruct (ForallOrdPairs_In M7 g g' Hg Hg') as [H|[H|H]]; [exact H| |]; exfalso.
      - apply (apart_not_near a b i j Ja Jb (H a b Ha Hb) Hi Hj Hw).
      - apply (apart_not_near b a j i Jb Ja (H b a Hb Ha) Hj Hi).
        replace (T j - T i) with (- (T i - T j)) by lia. rewrite Z.abs_opp. exact Hw. }
    assert (Gclass : forall g i j, In g groups -> In i (members g) -> linked i j -> In j (members g)).
    { intros g i j Hg Hi HL. revert Hi. induction HL as [i H|i j k a b H IH Ha Hb Hn]; intros Hi; [exact Hi|].
      specialize (IH Hi).
      assert (Hk : (k < N)%nat).
      { assert (Hk : (k < length TS)%nat) by (apply nth_error_Some; congruence).
        rewrite map_length in Hk. exact Hk. }
      destruct (Gin k Hk) as [g' [Hg' Hk']].
      apply (near_T eps hits eps_good hits_ok j k a b Ha Hb) in Hn.
      rewrite (Gnear g g' j k Hg Hg' IH Hk' Hn). exact Hk'. }
    assert (Gsize : forall g, In g groups -> zlen (members g) <= 2 ^ 31).
    { intros g Hg. assert (H : (length (members g) <= length (seq 0 N))%nat).
      { apply NoDup_incl_length; [apply (nodup_part members groups g Gnd Hg)|].
        intros i Hi. apply (Permutation_in i Gall). apply in_concat. exists (members g).
        split; [apply (in_map members); exact Hg|exact Hi]. }
      rewrite seq_length in H. unfold zlen in *. lia. }
    assert (Glt : forall g, In g groups -> Forall (fun i => (i < N)%nat) (members g)).
    { intros g Hg. apply Forall_forall. intros i Hi.
      assert (H : In i (seq 0 N)).
      { apply (Permutation_in i Gall). apply in_concat. exists (members g).
        split; [apply (in_map members); exact Hg|exact Hi]. }
      apply in_seq in H. lia. }
    assert (Oidx : map i_idx out = map members (filter (large (d_min_time cfg)) groups)).
    { clear - M5. induction M5 as [|g c gs cs H M5 IH]; [reflexivity|]. cbn. rewrite IH. f_equal. apply H. }
    assert (Oin : forall c, In c out -> exists g, In g groups /\ large (d_min_time cfg) g = true /\
                   union_of g c).
    { intros c Hc. destruct (Forall2_in_r _ _ _ _ M5 Hc) as [g [Hg Hu]].
      apply filter_In in Hg. exists g. tauto. }
    split; [split; [|split]|].
    + rewrite Oidx. apply nodup_filter. exact Gnd.
    + intros c i Hc Hi j. apply in_map_iff in Hc. destruct Hc as [x [<- Hx]].
      destruct (Oin x Hx) as [g [Hg [_ [Hu _]]]]. rewrite Hu in *.
      split; [intros Hj; apply (Glink g); assumption|intros HL; apply (Gclass g i j); assumption].
    + intros i Hi. split.
      * intros [c [Hc Hic]]. apply in_map_iff in Hc. destruct Hc as [x [<- Hx]].
        destruct (Oin x Hx) as [g [Hg [Hlarge [Hu _]]]]. rewrite Hu in *.
        exists (members g). split; [apply (nodup_part members groups g Gnd Hg)|].
        split; [unfold large in Hlarge; apply Z.leb_le in Hlarge; exact Hlarge|].
        apply Forall_forall. intros j Hj. apply (Glink g); assumption.
      * intros [l [Hnd [Hlen Hl]]]. destruct (Gin i Hi) as [g [Hg Hig]].
        assert (Hincl : incl l (members g)).
        { intros j Hj. rewrite Forall_forall in Hl. apply (Gclass g i j Hg Hig (Hl j Hj)). }
        assert (Hlarge : large (d_min_time cfg) g = true).
        { unfold large. apply Z.leb_le. pose proof (NoDup_incl_length Hnd Hincl). unfold zlen in *. lia. }
        destruct (Forall2_in_l _ _ _ g M5) as [c [Hc [Hu _]]].
        { apply filter_In. split; assumption. }
        exists (i_idx c). split; [apply in_map; exact Hc|]. rewrite Hu. exact Hig.
    + apply Forall_forall. intros c Hc. destruct (Oin c Hc) as [g [Hg [_ Hu]]].
      destruct Hu as [U1 [_ [_ [_ [U5 U6]]]]].
      split; [|split].
      * rewrite U1 in *. apply mean_of; try assumption; [apply Glt, Hg|apply Gsize, Hg|].
        pose proof (Gj g Hg) as Hjg. destruct g as [|a r]; [contradiction|].
        rewrite U5. cbn [map concat].
        apply Forall_cons_iff in Hjg. destruct Hjg as [[Ha _] Hr].
        pose proof (Gsize (a :: r) Hg) as Hs. cbn [map concat] in Hs.
        apply sum_group; [|exact Hr|exact Hs].
        destruct Ha as [_ [_ [_ Ha]]]. apply Ha. rewrite zlen_app in Hs.
        pose proof (zlen_nonneg (concat (map i_idx r))). lia.
      * rewrite U1. destruct g as [|a r]; [contradiction|].
        pose proof (Gj (a :: r) Hg) as Hjg. apply Forall_cons_iff in Hjg. destruct Hjg as [[Ha _] _].
        cbn. intros E. apply app_eq_nil in E. apply (good_idx hits a Ha). tauto.
      * rewrite U1. apply Glt, Hg.
Qed.
End Class.
