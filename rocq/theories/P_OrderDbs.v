From Coq Require Import Lia Permutation.
From Verif Require Import S_Order S_DbsEvents P_Order P_DbsTime P_DbsEvents.
Local Open Scope Z_scope.

Lemma combine_split {A B} (l : list (A * B)) : combine (map fst l) (map snd l) = l.
Proof. induction l as [|[a b] l IH]; [reflexivity|]. cbn. f_equal. exact IH. Qed.
Lemma map_snd_combine {A B} (a : list A) : forall b : list B, length a = length b -> map snd (combine a b) = b.
Proof. induction a as [|x a IH]; intros [|y b] L; try discriminate L; [reflexivity|]. cbn. f_equal. apply IH. cbn in L. lia. Qed.
Lemma hits_of_filter l own : forall hs, S_DbsEvents.hits_of l own hs = map snd (filter (fun p => Nat.eqb (fst p) l) (combine own hs)).
Proof.
  induction own as [|o own IH]; intros [|h hs]; try reflexivity. cbn. destruct (Nat.eqb o l); cbn; rewrite IH; reflexivity.
Qed.
Lemma nth_fst {A B} (l : list (A * B)) j : nth_error (map fst l) j = option_map fst (nth_error l j).
Proof. apply nth_error_map. Qed.

(** The positions of a permuted list. *)
Record moved {A} (l l' : list A) (f : nat -> nat) : Prop := {
  mv_length : length l = length l';
  mv_at : forall j, nth_error l' j = nth_error l (f j);
  mv_inj : forall i j, f i = f j -> i = j;
  mv_onto : forall p, (p < length l)%nat -> exists j, (j < length l')%nat /\ f j = p
}.
Lemma perm_moved {A} (l l' : list A) : Permutation l l' -> exists f, moved l l' f.
Proof.
  intros P. apply Permutation_nth_error in P. destruct P as (L & f & I & E). exists f. split; [exact L|exact E|exact I|].
  assert (B : FinFun.bFun (length l) f).
  { intros x Hx. apply nth_error_Some. rewrite <- E. apply nth_error_Some. lia. }
  assert (BI : FinFun.bInjective (length l) f) by (intros x y _ _ Q; exact (I x y Q)).
  apply (FinFun.bInjective_bSurjective B) in BI. intros p Hp. destruct (BI p Hp) as (j & Hj & <-). exists j. split; [lia|reflexivity].
Qed.

Section Perm.
Variables (cfg : dbs_cfg) (own : list nat) (hits : list hit) (l' : list (nat * hit)) (f : nat -> nat) (n : nat).
Hypothesis D : distinct cfg hits own n.
Hypothesis M : moved (combine own hits) l' f.
Hypothesis P : Permutation (combine own hits) l'.
Local Notation own' := (map fst l').
Local Notation hits' := (map snd l').

Lemma len_own : length own = length hits. Proof. exact (ds_length _ _ _ _ D). Qed.
Lemma len_pairs : length (combine own hits) = length hits.
Proof. rewrite combine_length, len_own. apply Nat.min_id. Qed.
Lemma own_at j : nth_error own' j = nth_error own (f j).
Proof.
  rewrite nth_error_map, (mv_at _ _ _ M), <- nth_error_map, map_fst_combine by exact len_own. reflexivity.
Qed.
Lemma hit_at j : nth_error hits' j = nth_error hits (f j).
Proof.
  rewrite nth_error_map, (mv_at _ _ _ M), <- nth_error_map, map_snd_combine by exact len_own. reflexivity.
Qed.
Lemma onto p : (p < length hits)%nat -> exists j, (j < length hits')%nat /\ f j = p.
Proof. intros H. rewrite <- len_pairs in H. destruct (mv_onto _ _ _ M p H) as (j & Hj & E). exists j. rewrite map_length. split; assumption. Qed.
Lemma own_onto p l : nth_error own p = Some l -> exists j, f j = p.
Proof.
  intros H. destruct (onto p) as (j & _ & E); [|exists j; exact E]. rewrite <- len_own. apply nth_error_Some. congruence.
Qed.
Lemma time_at j : nth_error (map toa_ns hits') j = nth_error (map toa_ns hits) (f j).
Proof. rewrite (nth_error_map toa_ns j hits'), (nth_error_map toa_ns (f j) hits), hit_at. reflexivity. Qed.
Lemma time_onto p a : nth_error (map toa_ns hits) p = Some a -> exists j, f j = p.
Proof.
  intros H. destruct (onto p) as (j & _ & E); [|exists j; exact E]. rewrite <- (map_length toa_ns). apply nth_error_Some. congruence.
Qed.
Lemma times_len j : (f j < length (map toa_ns hits))%nat <-> (j < length (map toa_ns hits'))%nat.
Proof. rewrite <- !nth_error_Some, time_at. reflexivity. Qed.

Lemma linked_to eps i j : linked eps (map toa_ns hits') i j -> linked eps (map toa_ns hits) (f i) (f j).
Proof.
  induction 1 as [i H|i j k a b _ IH A B N].
  - apply link_refl. apply times_len. exact H.
  - rewrite time_at in A, B. exact (link_step eps _ _ _ _ a b IH A B N).
Qed.
Lemma linked_from eps p q : linked eps (map toa_ns hits) p q -> forall i j, f i = p -> f j = q -> linked eps (map toa_ns hits') i j.
Proof.
  induction 1 as [p H|p q k a b _ IH A B N]; intros i j Ei Ej.
  - assert (i = j) as -> by (apply (mv_inj _ _ _ M); congruence). apply link_refl. apply times_len. rewrite Ej. exact H.
  - destruct (time_onto q a A) as (m & <-). subst k. rewrite <- time_at in A, B.
    exact (link_step eps _ _ _ _ a b (IH i m Ei eq_refl) A B N).
Qed.
Lemma same_moved eps i j : same_time eps hits' i j <-> same_time eps hits (f i) (f j).
Proof. split; [apply linked_to|]. intros H. exact (linked_from eps _ _ H i j eq_refl eq_refl). Qed.
Lemma side_moved eps i j : side eps hits' i j <-> side eps hits (f i) (f j).
Proof. unfold side. rewrite !hit_at. reflexivity. Qed.

Lemma pull (Q : nat -> Prop) l : NoDup l -> Forall (fun p => Q p /\ (p < length hits)%nat) l ->
  exists l2, NoDup l2 /\ map f l2 = l /\ Forall (fun j => Q (f j)) l2.
Proof.
  intros N F. assert (X : exists l2, map f l2 = l).
  { clear N. induction F as [|p l [_ H] _ IH]; [exists []; reflexivity|].
    destruct IH as (l2 & <-). destruct (onto p H) as (j & _ & <-). exists (j :: l2). reflexivity. }
  destruct X as (l2 & <-). exists l2. split; [exact (NoDup_map_inv f l2 N)|]. split; [reflexivity|].
  rewrite Forall_map in F. eapply Forall_impl; [|exact F]. intros j [H _]. exact H.
Qed.

Lemma hits_of_moved l : Permutation (S_DbsEvents.hits_of l own hits) (S_DbsEvents.hits_of l own' hits').
Proof. rewrite !hits_of_filter, combine_split. apply Permutation_map, filter_permutation, P. Qed.

Lemma distinct_moved : distinct cfg hits' own' n.
Proof.
  assert (Po : Permutation own own').
  { rewrite <- (map_fst_combine own hits len_own). apply Permutation_map, P. }
  split.
  - rewrite !map_length. reflexivity.
  - intros l. rewrite <- (ds_numbers _ _ _ _ D l). split; apply Permutation_in; [apply Permutation_sym|]; exact Po.
  - intros l Hl. unfold zlen. rewrite <- (Permutation_length (hits_of_moved l)). exact (ds_many _ _ _ _ D l Hl).
  - intros i j l A B. rewrite own_at in A, B. apply same_moved. exact (ds_time _ _ _ _ D _ _ l A B).
  - intros i j l A B. rewrite own_at in A, B. assert (C := ds_joined _ _ _ _ D _ _ l A B).
    remember (f i) as p eqn:Ep. remember (f j) as q eqn:Eq.
    assert (G : forall i, f i = p -> forall j, f j = q ->
      clos_refl_trans nat (fun p q => side (d_eps_xy cfg) hits' p q /\ nth_error own' q = Some l) i j).
    { clear Ep Eq i j. apply Operators_Properties.clos_rt_rt1n in C. induction C as [p|p m q [S O] _ IH]; intros i Ei j Ej.
      - assert (i = j) as -> by (apply (mv_inj _ _ _ M); congruence). apply rt_refl.
      - destruct (own_onto m l O) as (m' & Em). apply rt_trans with m'; [|exact (IH O B m' Em j Ej)].
        apply rt_step. subst. rewrite own_at. split; [apply side_moved; exact S|exact O]. }
    exact (G i (eq_sym Ep) j (eq_sym Eq)).
  - intros i l A. rewrite own_at in A. destruct (ds_core _ _ _ _ D _ l A) as (ps & N & L & F).
    destruct (pull (fun p => nth_error own p = Some l /\ p <> f i /\ side (d_eps_xy cfg) hits (f i) p) ps N) as (l2 & N2 & <- & F2).
    { eapply Forall_impl; [|exact F]. intros p H. split; [exact H|]. destruct H as (H & _).
      rewrite <- len_own. apply nth_error_Some. congruence. }
    exists l2. split; [exact N2|]. split; [unfold zlen in *; rewrite map_length in L; exact L|].
    eapply Forall_impl; [|exact F2]. intros j (H & H1 & H2). rewrite own_at. split; [exact H|]. split; [congruence|].
    apply side_moved. exact H2.
  - intros i j l m A B N T S. rewrite own_at in A, B. apply same_moved in T. apply side_moved in S.
    exact (ds_apart _ _ _ _ D _ _ l m A B N T S).
Qed.

Hypothesis eps_good : eps_ok (d_eps_time cfg).
Hypothesis toas : Forall toa_ok hits.

Lemma class_moved l i c x j c' y : nth_error own i = Some l -> class_of (d_eps_time cfg) hits i c -> mean_toa hits c x ->
  nth_error own' j = Some l -> class_of (d_eps_time cfg) hits' j c' -> mean_toa hits' c' y -> x = y.
Proof.
  intros Hi [N C] (hs & E & ->) Hj [N' C'] (hs' & E' & ->). rewrite own_at in Hj.
  assert (T := ds_time _ _ _ _ D _ _ l Hi Hj).
  assert (Pc : Permutation c (map f c')).
  { apply NoDup_Permutation; [exact N|apply FinFun.Injective_map_NoDup; [intros a b Q; exact (mv_inj _ _ _ M a b Q)|exact N']|].
    intros p. split.
    - intros Ip. apply C in Ip.
      assert (S : same_time (d_eps_time cfg) hits (f j) p).
      { apply linked_trans with i; [|exact Ip]. apply linked_sym; assumption. }
      assert (Lp : (p < length hits)%nat) by exact (proj2 (linked_lt _ _ _ _ S)).
      destruct (onto p Lp) as (q & _ & <-). apply in_map, C'. apply same_moved. exact S.
    - intros Ip. apply in_map_iff in Ip. destruct Ip as (q & <- & Iq). apply C. apply C' in Iq. apply same_moved in Iq.
      apply linked_trans with (f j); [exact T|exact Iq]. }
  assert (Ph : Permutation (map Some hs) (map Some hs')).
  { rewrite <- E, <- E'. replace (map (nth_error hits') c') with (map (nth_error hits) (map f c')); [apply Permutation_map, Pc|].
    rewrite map_map. apply map_ext. intros q. symmetry. apply hit_at. }
  assert (Z : zlen c = zlen c') by (unfold zlen; rewrite (Permutation_length Pc), map_length; reflexivity).
  assert (Q := total_some (fun h => 25 * h_toa h) hs hs' Ph). unfold total in Q. rewrite Z. f_equal. f_equal. tauto.
Qed.
End Perm.

Lemma nth_map_seq {A} (d : A) l : map (fun i => nth i l d) (seq 0 (length l)) = l.
Proof.
  induction l as [|x l IH]; [reflexivity|]. cbn [length seq map nth]. f_equal. rewrite <- seq_shift, map_map. exact IH.
Qed.
Lemma numbered_perm {A} (d : A) (evs : list A) n num : length evs = n ->
  (forall l l', (l < n)%nat -> (l' < n)%nat -> num l = num l' -> l = l') ->
  (forall l, (l < n)%nat -> (num l < n)%nat) ->
  Permutation evs (map (fun l => nth (num l) evs d) (seq 0 n)).
Proof.
  intros L I B. rewrite <- (nth_map_seq d evs) at 1. rewrite <- (map_map num (fun i => nth i evs d)), L.
  apply Permutation_map, Permutation_sym. 
  assert (Nd : NoDup (map num (seq 0 n))).
  { apply nodup_map; [|apply seq_NoDup]. intros a b Ia Ib. apply in_seq in Ia, Ib. apply I; lia. }
  apply NoDup_Permutation_bis; [exact Nd|rewrite map_length; reflexivity|].
  intros x J. apply in_map_iff in J. destruct J as (l & <- & J). apply in_seq in J. apply in_seq. specialize (B l). lia.
Qed.

Lemma told_same cfg hits own n o l' f o' : distinct cfg hits own n -> moved (combine own hits) l' f -> Permutation (combine own hits) l' ->
  eps_ok (d_eps_time cfg) -> Forall toa_ok hits ->
  tells_all cfg hits own n o -> tells_all cfg (map snd l') (map fst l') n o' -> Permutation (b_events o) (b_events o').
Proof.
  intros D M P He Ht (L & num & I & _ & T) (L' & num' & I' & _ & T').
  set (d := Neutron (f_of_Z 0) (f_of_Z 0) (f_of_Z 0) (f_of_Z 0) 0).
  assert (B : forall l, (l < n)%nat -> (num l < n)%nat).
  { intros l Hl. destruct (T l Hl) as (e & E & _). rewrite <- L. apply nth_error_Some. congruence. }
  assert (B' : forall l, (l < n)%nat -> (num' l < n)%nat).
  { intros l Hl. destruct (T' l Hl) as (e & E & _). rewrite <- L'. apply nth_error_Some. congruence. }
  eapply Permutation_trans; [exact (numbered_perm d _ n num L I B)|].
  eapply Permutation_trans; [|apply Permutation_sym; exact (numbered_perm d _ n num' L' I' B')].
  assert (Q : map (fun l => nth (num l) (b_events o) d) (seq 0 n) = map (fun l => nth (num' l) (b_events o') d) (seq 0 n)).
  { apply map_ext_in. intros l J. apply in_seq in J. assert (Hl : (l < n)%nat) by lia.
    destruct (T l Hl) as (e & E & H & X & Y & (i & c & Oi & Ci & Mi) & _ & Z).
    destruct (T' l Hl) as (e' & E' & H' & X' & Y' & (i' & c' & Oi' & Ci' & Mi') & _ & Z').
    rewrite (nth_error_nth _ _ d E), (nth_error_nth _ _ d E').
    assert (Ph := hits_of_moved own hits l' P l).
    assert (Pm := Permutation_map Some Ph).
    assert (Tf := class_moved cfg own hits l' f n D M He Ht l i c _ i' c' _ Oi Ci Mi Oi' Ci' Mi').
    rewrite (mean_some h_x _ _ Pm) in X. rewrite (mean_some h_y _ _ Pm) in Y.
    unfold zlen in H. rewrite (Permutation_length Ph) in H. fold (zlen (S_DbsEvents.hits_of l (map fst l') (map snd l'))) in H.
    destruct e as [ex ey et eo eh], e' as [ex' ey' et' eo' eh']. cbn [n_hits n_x n_y n_tof n_tot] in *.
    rewrite X, X', Y, Y', Z, Z', H, H', Tf. reflexivity. }
  rewrite Q. reflexivity.
Qed.

Lemma C100_dbscan_l cfg ext hits hits' own n size size' o p : eps_ok (d_eps_time cfg) ->
  Forall toa_ok hits -> Forall pixel_ok hits -> zlen hits < 2 ^ 31 -> ext_sound ext ->
  fit2_finds ext -> 1 <= size -> 1 <= size' -> distinct cfg hits own n -> Permutation hits hits' ->
  exists o' p', dbs_fit_with size ext cfg o hits = Ok o' /\ dbs_fit_with size' ext cfg p hits' = Ok p' /\
    Permutation (b_events o') (b_events p').
Proof.
  intros He Ht Hp Hf Hx H2 Hs Hs' D P.
  assert (L := ds_length _ _ _ _ D).
  rewrite <- (map_snd_combine own hits L) in P. apply Permutation_sym, Permutation_map_inv in P. destruct P as (l' & -> & P).
  destruct (perm_moved _ _ P) as (f & M).
  assert (D' := distinct_moved cfg own hits l' f n D M P).
  assert (Ph : Permutation hits (map snd l')).
  { rewrite <- (map_snd_combine own hits L). apply Permutation_map, P. }
  assert (Fp : forall Q : hit -> Prop, Forall Q hits -> Forall Q (map snd l')).
  { intros Q F. rewrite Forall_forall in *. intros x I. apply F. exact (Permutation_in _ (Permutation_sym Ph) I). }
  assert (Hf' : zlen (map snd l') < 2 ^ 31) by (unfold zlen in *; rewrite <- (Permutation_length Ph); exact Hf).
  destruct (C98_l cfg ext hits own n size Hx H2 Hp Hf D He Ht o Hs) as (o' & Eo & To).
  destruct (C98_l cfg ext (map snd l') (map fst l') n size' Hx H2 (Fp _ Hp) Hf' D' He (Fp _ Ht) p Hs') as (p' & Ep & Tp).
  exists o', p'. split; [exact Eo|]. split; [exact Ep|]. exact (told_same cfg hits own n o' l' f p' D M P He Ht To Tp).
Qed.
