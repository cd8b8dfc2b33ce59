(** The time clusters are the classes of hits linked in time. *)
From Coq Require Import Reals Lra Lia.
From Flocq Require Import Core.
From Verif Require Export P_DbsMerge.
Local Open Scope Z_scope.
Local Open Scope list_scope.

(** * Lists *)

Lemma set_nth_some {A} (l : list A) i a : (i < length l)%nat -> exists l', set_nth l i a = Some l'.
Proof.
  revert i. induction l as [|x l IH]; intros i H; cbn in H; [lia|].
  destruct i as [|i]; cbn; [eexists; reflexivity|].
  destruct (IH i) as [l' E]; [lia|]. rewrite E. eexists. reflexivity.
Qed.

Lemma set_nth_split {A} (l : list A) i a l' : set_nth l i a = Some l' ->
  exists l1 x l2, l = l1 ++ x :: l2 /\ l' = l1 ++ a :: l2 /\ length l1 = i /\ nth_error l i = Some x.
Proof.
  revert i l'. induction l as [|x l IH]; intros i l' H; cbn in H; [discriminate|].
  destruct i as [|i].
  - injection H as <-. exists [], x, l. repeat split.
  - destruct (set_nth l i a) as [r|] eqn:E; [|discriminate]. injection H as <-.
    destruct (IH _ _ E) as [l1 [y [l2 [-> [-> [<- Hn]]]]]].
    exists (x :: l1), y, l2. repeat split. exact Hn.
Qed.

Lemma set_nth_nth {A} (l : list A) i a l' : set_nth l i a = Some l' -> forall j,
  nth_error l' j = if Nat.eqb j i then Some a else nth_error l j.
Proof.
  intros H. apply set_nth_split in H. destruct H as [l1 [x [l2 [-> [-> [<- _]]]]]].
  intros j. destruct (Nat.eqb_spec j (length l1)) as [->|Hn].
  - rewrite nth_error_app2, Nat.sub_diag by lia. reflexivity.
  - destruct (Nat.lt_ge_cases j (length l1)).
    + rewrite !nth_error_app1 by lia. reflexivity.
    + rewrite !nth_error_app2 by lia. destruct (j - length l1)%nat eqn:E; [lia|reflexivity].
Qed.

Lemma set_nth_length {A} (l : list A) i a l' : set_nth l i a = Some l' -> length l' = length l.
Proof.
  intros H. apply set_nth_split in H. destruct H as [l1 [x [l2 [-> [-> _]]]]].
  rewrite !app_length. reflexivity.
Qed.

Lemma set_nth_Forall {A} (P : A -> Prop) (l : list A) i a l' : set_nth l i a = Some l' ->
  Forall P l -> P a -> Forall P l'.
Proof.
  intros H HF Ha. apply set_nth_split in H. destruct H as [l1 [x [l2 [-> [-> _]]]]].
  apply Forall_app in HF. destruct HF as [H1 H2]. apply Forall_cons_iff in H2.
  apply Forall_app. split; [exact H1|constructor; tauto].
Qed.

(** * The clusterings *)

Lemma clustering_count {C} k (q : dbs_out C) : clustering k q -> 0 <= q_n q <= Z.of_nat k.
Proof.
  intros [H1 [_ [H3 H4]]].
  split; [rewrite <- H4; apply zlen_nonneg|].
  assert (Hn : 0 <= q_n q) by (rewrite <- H4; apply zlen_nonneg).
  assert (H : (length (map Z.of_nat (seq 0 (Z.to_nat (q_n q)))) <= length (q_labels q))%nat).
  { apply NoDup_incl_length.
    - apply FinFun.Injective_map_NoDup; [intros a b; apply Nat2Z.inj|apply seq_NoDup].
    - intros z Hz. apply in_map_iff in Hz. destruct Hz as [i [<- Hi]].
      apply in_seq in Hi. apply H3. lia. }
  rewrite map_length, seq_length, H1 in H. lia.
Qed.

Lemma no_cluster_spec n l : 0 <= n < 2 ^ 63 -> l = 2 ^ 64 - 1 \/ 0 <= l < n ->
  no_cluster n l = (l =? 2 ^ 64 - 1).
Proof.
  intros Hn [->|Hl]; unfold no_cluster, size_max.
  - reflexivity.
  - rewrite u64_id by lia. destruct (Z.eqb_spec l (2 ^ 64 - 1)); [lia|].
    cbn [orb]. rewrite Z.gtb_ltb. apply Z.ltb_ge. lia.
Qed.

Lemma new_infos_ok cents : new_infos (length cents) cents = Ok (map info_new cents).
Proof. induction cents as [|c cs IH]; cbn; [reflexivity|]. rewrite IH. reflexivity. Qed.

Section Time.
Variable eps : f64.
Variable hits : list hit.
Hypothesis eps_good : eps_ok eps.
Hypothesis hits_ok : Forall toa_ok hits.

Local Notation TS := (map toa_ns hits).
Local Notation N := (length hits).

(** The time of a hit in ns. *)
Definition T (i : nat) : Z := match nth_error hits i with Some h => 25 * h_toa h | None => 0 end.
Definition sumT (l : list nat) : Z := fold_right Z.add 0 (map T l).

Lemma T_range i : 0 <= T i < 25 * 2 ^ 14.
Proof.
  unfold T. destruct (nth_error hits i) as [h|] eqn:E; [|lia].
  apply nth_error_In in E. rewrite Forall_forall in hits_ok. specialize (hits_ok h E).
  unfold toa_ok in hits_ok. lia.
Qed.

Lemma TS_nth i x : nth_error TS i = Some x -> nat_fl x (T i).
Proof.
  intros H. rewrite nth_error_map in H. unfold T.
  destruct (nth_error hits i) as [h|] eqn:E; [|discriminate].
  cbn in H. injection H as <-. apply toa_nat_fl.
  apply nth_error_In in E. rewrite Forall_forall in hits_ok. apply hits_ok, E.
Qed.

Lemma TS_some i : (i < N)%nat -> exists x, nth_error TS i = Some x.
Proof.
  intros H. destruct (nth_error TS i) eqn:E; [eexists; reflexivity|].
  apply nth_error_None in E. rewrite map_length in E. lia.
Qed.

Lemma near_T i j a b : nth_error TS i = Some a -> nth_error TS j = Some b ->
  near eps a b <-> within eps (Z.abs (T i - T j)).
Proof.
  intros Ha Hb. apply TS_nth in Ha, Hb. destruct Ha as [Ha _]. destruct Hb as [Hb _].
  pose proof (T_range i). pose proof (T_range j).
  apply near_within; try assumption; [apply eps_good|lia].
Qed.

(** * Linked hits *)

Local Notation linked := (linked eps TS).

Lemma linked_lt i j : linked i j -> (i < N)%nat /\ (j < N)%nat.
Proof.
  intros H. induction H as [i H|i j k a b H IH Ha Hb Hn].
  - rewrite map_length in H. tauto.
  - split; [tauto|].
    assert (Hk : (k < length TS)%nat) by (apply nth_error_Some; congruence).
    rewrite map_length in Hk. exact Hk.
Qed.

Lemma link_T i j k : linked i j -> (k < N)%nat -> within eps (Z.abs (T j - T k)) -> linked i k.
Proof.
  intros H Hk Hw. destruct (linked_lt i j H) as [_ Hj].
  destruct (TS_some j Hj) as [a Ha]. destruct (TS_some k Hk) as [b Hb].
  apply (link_step eps TS i j k a b H Ha Hb). apply (near_T j k a b Ha Hb). exact Hw.
Qed.

Lemma linked_here i : (i < N)%nat -> linked i i.
Proof. intros H. apply link_refl. rewrite map_length. exact H. Qed.

Lemma link_one i k : (i < N)%nat -> (k < N)%nat -> within eps (Z.abs (T i - T k)) -> linked i k.
Proof. intros Hi Hk H. apply (link_T i i k (linked_here i Hi) Hk H). Qed.

Lemma linked_trans i j k : linked i j -> linked j k -> linked i k.
Proof.
  intros H1 H2. revert H1. induction H2 as [j H|j m k a b H IH Ha Hb Hn]; intros H1; [exact H1|].
  apply (link_step eps TS i m k a b); auto.
Qed.

Lemma linked_sym i j : linked i j -> linked j i.
Proof.
  intros H. induction H as [i H|i j k a b H IH Ha Hb Hn]; [apply link_refl; exact H|].
  apply linked_trans with j; [|exact IH].
  assert (Hk : (k < N)%nat).
  { assert (Hk : (k < length TS)%nat) by (apply nth_error_Some; congruence).
    rewrite map_length in Hk. exact Hk. }
  destruct (linked_lt i j H) as [_ Hj].
  apply link_one; try assumption. apply (near_T j k a b Ha Hb) in Hn.
  replace (T k - T j) with (- (T j - T k)) by lia. rewrite Z.abs_opp. exact Hn.
Qed.

(** A chain from below [x] to above [x] comes near [x]. *)
Lemma linked_between i j x : linked i j -> T i <= x <= T j ->
  exists k, linked i k /\ T k <= x /\ within eps (x - T k).
Proof.
  intros H. revert x. induction H as [i H|i j k a b H IH Ha Hb Hn]; intros x Hx.
  - exists i. split; [apply link_refl; exact H|]. split; [lia|].
    unfold within. replace (x - T i) with 0 by lia. cbn. apply eps_nonneg. exact eps_good.
  - destruct (Z_le_gt_dec x (T j)) as [Hle|Hgt].
    + apply IH. lia.
    + exists j. split; [exact H|]. split; [lia|].
      apply (near_T j k a b Ha Hb) in Hn.
      apply (within_le eps _ (x - T j) Hn). lia.
Qed.

(** * Good clusters *)

(** The numbers of a cluster are right; the sum as long as it is exact. *)
Definition good (c : info) : Prop :=
  Forall (fun i => (i < N)%nat) (i_idx c) /\
  (exists i, In i (i_idx c) /\ is_int (i_min c) (T i) /\ Forall (fun j => T i <= T j) (i_idx c)) /\
  (exists i, In i (i_idx c) /\ max_fl (i_max c) (T i) /\ Forall (fun j => T j <= T i) (i_idx c)) /\
  (zlen (i_idx c) <= 2 ^ 31 -> nat_fl (i_sum c) (sumT (i_idx c))).

(** A new cluster. *)
Definition fresh (c : info) : Prop :=
  i_idx c = [] /\ i_sum c = f_of_Z 0 /\ i_min c = dbl_max /\ i_max c = dbl_min.

Lemma sumT_app l l' : sumT (l ++ l') = sumT l + sumT l'.
Proof.
  unfold sumT. rewrite map_app, fold_right_app.
  induction (map T l) as [|x r IH]; cbn; [reflexivity|]. rewrite IH. lia.
Qed.

Lemma sumT_bound l : 0 <= sumT l <= zlen l * (25 * 2 ^ 14).
Proof.
  induction l as [|i l IH]; [change (0 <= 0 <= 0); lia|].
  change (sumT (i :: l)) with (T i + sumT l). rewrite zlen_cons.
  pose proof (T_range i). lia.
Qed.

Lemma single_good t i : (i < N)%nat -> nth_error TS i = Some t -> good (info_single t i).
Proof.
  intros Hi Ht. apply TS_nth in Ht. destruct Ht as [Ht Hrest].
  unfold good, info_single. cbn [i_idx i_min i_max i_sum].
  split; [constructor; [exact Hi|constructor]|]. split; [|split].
  - exists i. split; [left; reflexivity|]. split; [exact Ht|constructor; [lia|constructor]].
  - exists i. split; [left; reflexivity|]. split; [left; exact Ht|constructor; [lia|constructor]].
  - intros _. unfold sumT. cbn. rewrite Z.add_0_r. split; assumption.
Qed.

Lemma add_good c t i : fresh c \/ good c -> (i < N)%nat -> nth_error TS i = Some t ->
  good (info_add c t i).
Proof.
  intros Hc Hi Ht. apply TS_nth in Ht. pose proof (T_range i) as HTi.
  unfold good, info_add. cbn [i_idx i_min i_max i_sum].
  destruct Hc as [[E1 [E2 [E3 E4]]]|[H1 [H2 [H3 H4]]]].
  - rewrite E1, E2, E3, E4. cbn [app].
    split; [constructor; [exact Hi|constructor]|]. split; [|split].
    + exists i. split; [left; reflexivity|].
      rewrite (fmin_init t (T i)); [|apply Ht|lia].
      split; [apply Ht|constructor; [lia|constructor]].
    + exists i. split; [left; reflexivity|].
      split; [apply fmax_init; [apply Ht|lia]|constructor; [lia|constructor]].
    + intros _. unfold sumT. cbn [map fold_right]. rewrite Z.add_comm.
      apply nat_fl_add; [apply nat_fl_of_Z; lia|exact Ht|lia].
  - split; [apply Forall_app; split; [exact H1|constructor; [exact Hi|constructor]]|].
    split; [|split].
    + destruct H2 as [a [Ia [Ma Fa]]].
      pose proof (fmin_min _ _ _ _ Ma (proj1 Ht)) as Hm.
      destruct (Z_le_gt_dec (T a) (T i)) as [Hle|Hgt].
      * exists a. rewrite Z.min_l in Hm by lia.
        split; [apply in_or_app; left; exact Ia|]. split; [exact Hm|].
        apply Forall_app. split; [exact Fa|constructor; [exact Hle|constructor]].
      * exists i. rewrite Z.min_r in Hm by lia.
        split; [apply in_or_app; right; left; reflexivity|]. split; [exact Hm|].
        apply Forall_app. split; [|constructor; [lia|constructor]].
        eapply Forall_impl; [|exact Fa]. cbn. intros j Hj. lia.
    + destruct H3 as [a [Ia [Ma Fa]]]. pose proof (T_range a) as HTa.
      pose proof (fmax_max _ _ _ _ Ma (or_introl (proj1 Ht)) (proj1 HTa) (proj1 HTi)) as Hm.
      destruct (Z_le_gt_dec (T i) (T a)) as [Hle|Hgt].
      * exists a. rewrite Z.max_l in Hm by lia.
        split; [apply in_or_app; left; exact Ia|]. split; [exact Hm|].
        apply Forall_app. split; [exact Fa|constructor; [exact Hle|constructor]].
      * exists i. rewrite Z.max_r in Hm by lia.
        split; [apply in_or_app; right; left; reflexivity|]. split; [exact Hm|].
        apply Forall_app. split; [|constructor; [lia|constructor]].
        eapply Forall_impl; [|exact Fa]. cbn. intros j Hj. lia.
    + rewrite zlen_app, sumT_app. intros Hl.
      change (zlen [i]) with 1 in Hl. replace (sumT [i]) with (T i) by (unfold sumT; cbn; lia).
      pose proof (sumT_bound (i_idx c)).
      apply nat_fl_add; [apply H4; lia|exact Ht|nia].
Qed.

Lemma good_idx c : good c -> i_idx c <> [].
Proof. intros [_ [[i [Hi _]] _]] E. rewrite E in Hi. exact Hi. Qed.

(** * Assignment of the points of a chunk *)

Lemma concat_set (infos : list info) l c c' i infos' : nth_error infos l = Some c ->
  i_idx c' = i_idx c ++ [i] -> set_nth infos l c' = Some infos' ->
  Permutation (concat (map i_idx infos')) (i :: concat (map i_idx infos)).
Proof.
  intros Hn Hc Hs. apply set_nth_split in Hs. destruct Hs as [l1 [x [l2 [-> [-> [<- Hx]]]]]].
  rewrite Hx in Hn. injection Hn as ->.
  rewrite !map_app, !concat_app. cbn [map concat]. rewrite Hc.
  rewrite <- (List.app_assoc (i_idx c)). cbn [app].
  rewrite List.app_assoc. rewrite <- Permutation_middle. rewrite <- List.app_assoc. reflexivity.
Qed.

Lemma assign_ok n : 0 <= n < 2 ^ 63 -> forall ls ts i infos singles,
  length infos = Z.to_nat n -> (length ls <= length ts)%nat ->
  Forall (fun l => l = 2 ^ 64 - 1 \/ 0 <= l < n) ls ->
  (forall p t, nth_error ts p = Some t -> nth_error TS (i + p) = Some t) ->
  Forall (fun c => fresh c \/ good c) infos ->
  Forall (fun c => good c /\ exists j, i_idx c = [j]) singles ->
  exists infos' singles',
    assign n ls ts i infos singles = Ok (infos' ++ singles') /\
    length infos' = length infos /\
    Forall (fun c => fresh c \/ good c) infos' /\
    Forall (fun c => good c /\ exists j, i_idx c = [j]) singles' /\
    Permutation (concat (map i_idx (infos' ++ singles')))
                (seq i (length ls) ++ concat (map i_idx (infos ++ singles))) /\
    (forall l c', nth_error infos' l = Some c' -> exists c, nth_error infos l = Some c /\
       forall j, In j (i_idx c') <->
         In j (i_idx c) \/ exists p, j = (i + p)%nat /\ nth_error ls p = Some (Z.of_nat l)).
Proof.
  intros Hn. induction ls as [|l ls IH]; intros ts i infos singles Hlen Hll Hls Hts Hi Hsg.
  - exists infos, singles. cbn [assign length seq app].
    split; [reflexivity|]. split; [reflexivity|]. split; [exact Hi|]. split; [exact Hsg|].
    split; [reflexivity|]. intros l c' E. exists c'. split; [exact E|].
    intros j. split; [intros H; left; exact H|intros [H|[p [_ H]]]; [exact H|]].
    destruct p; discriminate.
  - destruct ts as [|t ts]; [cbn in Hll; lia|].
    apply Forall_cons_iff in Hls. destruct Hls as [Hl Hls].
    assert (Ht : nth_error TS i = Some t).
    { rewrite <- (Nat.add_0_r i). apply Hts. reflexivity. }
    assert (HiN : (i < N)%nat).
    { assert (H : (i < length TS)%nat) by (apply nth_error_Some; congruence).
      rewrite map_length in H. exact H. }
    assert (Hts' : forall p t0, nth_error ts p = Some t0 -> nth_error TS (S i + p) = Some t0).
    { intros p t0 H. rewrite <- (Hts (S p) t0 H). f_equal. lia. }
    cbn [length] in Hll.
    cbn [assign]. rewrite (no_cluster_spec n l Hn Hl).
    destruct (Z.eqb_spec l (2 ^ 64 - 1)) as [El|El].
    + destruct (IH ts (S i) infos (singles ++ [info_single t i]))
        as [infos' [singles' [A1 [A2 [A3 [A4 [A5 A6]]]]]]]; try assumption; try lia.
      * apply Forall_app. split; [exact Hsg|constructor; [|constructor]].
        split; [apply single_good; assumption|exists i; reflexivity].
      * exists infos', singles'. split; [exact A1|]. split; [exact A2|].
        split; [exact A3|]. split; [exact A4|]. split.
        -- rewrite A5. cbn [length seq app]. rewrite !map_app, !concat_app.
           cbn [map concat i_idx info_single]. rewrite List.app_nil_r.
           rewrite (List.app_assoc (concat (map i_idx infos))).
           rewrite (List.app_assoc (seq (S i) (length ls))).
           rewrite <- Permutation_cons_append. reflexivity.
        -- intros k c' E. destruct (A6 k c' E) as [c [Ec Hc]]. exists c. split; [exact Ec|].
           intros j. rewrite (Hc j). split; (intros [H|[p [-> H]]]; [left; exact H|]).
           ++ right. exists (S p). split; [lia|exact H].
           ++ destruct p as [|p].
              ** cbn in H. injection H as H. subst l.
                 destruct Hl as [Hl|Hl]; [|lia].
                 assert (Hk : (k < length infos')%nat) by (apply nth_error_Some; congruence).
                 rewrite A2, Hlen in Hk. lia.
              ** right. exists p. split; [lia|exact H].
    + destruct Hl as [Hl|Hl]; [contradiction|].
      assert (Hlt : (Z.to_nat l < length infos)%nat) by lia.
      destruct (nth_error infos (Z.to_nat l)) as [c|] eqn:Ec;
        [|apply nth_error_None in Ec; lia].
      destruct (set_nth_some infos (Z.to_nat l) (info_add c t i) Hlt) as [infos1 E1].
      rewrite E1.
      assert (Hc : fresh c \/ good c).
      { rewrite Forall_forall in Hi. apply Hi. apply nth_error_In with (Z.to_nat l). exact Ec. }
      destruct (IH ts (S i) infos1 singles) as [infos' [singles' [A1 [A2 [A3 [A4 [A5 A6]]]]]]];
        try assumption; try lia.
      * rewrite (set_nth_length _ _ _ _ E1). exact Hlen.
      * apply (set_nth_Forall _ _ _ _ _ E1 Hi). right. apply add_good; assumption.
      * exists infos', singles'. split; [exact A1|].
        split; [rewrite A2; apply (set_nth_length _ _ _ _ E1)|].
        split; [exact A3|]. split; [exact A4|]. split.
        -- rewrite A5. cbn [length seq app]. rewrite !map_app, !concat_app.
           rewrite (concat_set infos (Z.to_nat l) c (info_add c t i) i infos1 Ec eq_refl E1).
           cbn [app]. rewrite <- Permutation_middle. reflexivity.
        -- intros k c' E. destruct (A6 k c' E) as [c1 [Ec1 Hc1]].
           rewrite (set_nth_nth _ _ _ _ E1) in Ec1.
           destruct (Nat.eqb_spec k (Z.to_nat l)) as [->|Hk].
           ++ injection Ec1 as <-. exists c. split; [exact Ec|]. intros j. rewrite (Hc1 j).
              unfold info_add. cbn [i_idx]. rewrite in_app_iff. cbn [In]. split.
              ** intros [[H|[<-|[]]]|[p [-> H]]].
                 --- left. exact H.
                 --- right. exists 0%nat. split; [lia|]. cbn. f_equal. lia.
                 --- right. exists (S p). split; [lia|exact H].
              ** intros [H|[[|p] [-> H]]].
                 --- tauto.
                 --- left. right. left. lia.
                 --- right. exists p. split; [lia|exact H].
           ++ exists c1. split; [exact Ec1|]. intros j. rewrite (Hc1 j). split.
              ** intros [H|[p [-> H]]]; [left; exact H|]. right. exists (S p). split; [lia|exact H].
              ** intros [H|[[|p] [-> H]]]; [left; exact H| |].
                 --- cbn in H. injection H as H. lia.
                 --- right. exists p. split; [lia|exact H].
Qed.
End Time.
