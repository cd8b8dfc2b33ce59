(** Labels and events of the DBSCAN clustering. *)
From Coq Require Import Reals Lra Lia.
From Verif Require Export P_DbsClass.
Local Open Scope Z_scope.
Local Open Scope list_scope.

(** * Counting labels *)

Fixpoint look (l : Z) (m : list (Z * Z)) : Z :=
  match m with [] => 0 | (k, c) :: r => if l =? k then c else look l r end.

Local Notation keys := (map (@fst Z Z)).

Lemma count_label_keys l m k : In k (keys (count_label l m)) <-> k = l \/ In k (keys m).
Proof.
  induction m as [|[a c] r IH]; cbn; [split; [intros [<-|[]]; left; reflexivity|intros [->|[]]; left; reflexivity]|].
  destruct (Z.ltb_spec l a); [cbn; split; intros [<-|H']; tauto|].
  destruct (Z.eqb_spec l a) as [->|]; cbn; [split; [tauto|intros [->|H']; tauto]|].
  rewrite IH. tauto.
Qed.

Lemma count_label_sorted l m : StronglySorted Z.lt (keys m) -> StronglySorted Z.lt (keys (count_label l m)).
Proof.
  induction m as [|[a c] r IH]; cbn; intros H; [repeat constructor|].
  apply StronglySorted_inv in H. destruct H as [H1 H2].
  destruct (Z.ltb_spec l a).
  - cbn. constructor; [constructor; assumption|]. constructor; [lia|].
    eapply Forall_impl; [|exact H2]. cbn. intros; lia.
  - destruct (Z.eqb_spec l a) as [->|]; cbn; [constructor; assumption|].
    constructor; [apply IH, H1|]. apply Forall_forall. intros x Hx.
    apply count_label_keys in Hx. destruct Hx as [->|Hx]; [lia|].
    rewrite Forall_forall in H2. apply H2, Hx.
Qed.

Lemma count_label_look l m k : StronglySorted Z.lt (keys m) ->
  look k (count_label l m) = look k m + (if k =? l then 1 else 0).
Proof.
  induction m as [|[a c] r IH]; cbn; intros H.
  - destruct (k =? l); reflexivity.
  - apply StronglySorted_inv in H. destruct H as [H1 H2].
    destruct (Z.ltb_spec l a).
    + cbn. destruct (Z.eqb_spec k l) as [E0|]; [subst k|lia].
      destruct (Z.eqb_spec l a); [lia|].
      assert (E : look l r = 0); [|lia].
      clear - H H2. induction r as [|[b d] r IH]; [reflexivity|]. cbn in *.
      apply Forall_cons_iff in H2. destruct H2 as [Hb H2].
      destruct (Z.eqb_spec l b); [lia|]. apply IH, H2.
    + destruct (Z.eqb_spec l a) as [->|]; cbn.
      * destruct (Z.eqb_spec k a); lia.
      * rewrite (IH H1). destruct (Z.eqb_spec k a); destruct (Z.eqb_spec k l); lia.
Qed.

Lemma count_of_cons l x ls : count_of l (x :: ls) = (if l =? x then 1 else 0) + count_of l ls.
Proof.
  unfold count_of. cbn [filter]. destruct (l =? x); [rewrite zlen_cons; lia|lia].
Qed.

Lemma counts_fold n labels : 0 <= n < 2 ^ 63 -> Forall (fun l => l = 2 ^ 64 - 1 \/ 0 <= l < n) labels ->
  forall m, StronglySorted Z.lt (keys m) ->
  let m' := fold_left (fun m l => if no_cluster n l then m else count_label l m) labels m in
  StronglySorted Z.lt (keys m') /\
  (forall k, In k (keys m') <-> In k (keys m) \/ (In k labels /\ k <> 2 ^ 64 - 1)) /\
  (forall k, k <> 2 ^ 64 - 1 -> look k m' = look k m + count_of k labels).
Proof.
  intros Hn. induction labels as [|l ls IH]; intros HF m Hs; cbn [fold_left].
  - split; [exact Hs|]. split; [intros k; cbn; tauto|]. intros k _. change (count_of k []) with 0. lia.
  - apply Forall_cons_iff in HF. destruct HF as [Hl HF].
    rewrite (no_cluster_spec n l Hn Hl).
    destruct (Z.eqb_spec l (2 ^ 64 - 1)) as [->|Hne].
    + destruct (IH HF m Hs) as [A [B C]]. split; [exact A|]. split.
      * intros k. rewrite B. cbn [In]. split; [intros [H|[H1 H2]]; tauto|].
        intros [H|[[<-|H] H']]; tauto.
      * intros k Hk. rewrite (C k Hk), count_of_cons.
        destruct (Z.eqb_spec k (2 ^ 64 - 1)); [contradiction|lia].
    + destruct (IH HF (count_label l m) (count_label_sorted l m Hs)) as [A [B C]].
      split; [exact A|]. split.
      * intros k. rewrite B, count_label_keys. cbn [In].
        split; [intros [[->|H]|H]; tauto|intros [H|[[<-|H] H']]; tauto].
      * intros k Hk. rewrite (C k Hk), count_label_look by exact Hs. rewrite count_of_cons. lia.
Qed.

Lemma sorted_unique (a b : list Z) : StronglySorted Z.lt a -> StronglySorted Z.lt b ->
  (forall x, In x a <-> In x b) -> a = b.
Proof.
  revert b. induction a as [|x a IH]; intros [|y b] Ha Hb H.
  - reflexivity.
  - exfalso. apply (proj2 (H y)). left. reflexivity.
  - exfalso. apply (proj1 (H x)). left. reflexivity.
  - apply StronglySorted_inv in Ha, Hb. destruct Ha as [Ha Hx]. destruct Hb as [Hb Hy].
    rewrite Forall_forall in Hx, Hy.
    assert (x = y) as ->.
    { destruct (proj1 (H x) (or_introl eq_refl)) as [E|E]; [symmetry; exact E|].
      destruct (proj2 (H y) (or_introl eq_refl)) as [F|F]; [exact F|].
      specialize (Hx _ F). specialize (Hy _ E). lia. }
    f_equal. apply IH; try assumption. intros z. split; intros Hz.
    + destruct (proj1 (H z) (or_intror Hz)) as [<-|E]; [specialize (Hx _ Hz); lia|exact E].
    + destruct (proj2 (H z) (or_intror Hz)) as [<-|E]; [specialize (Hy _ Hz); lia|exact E].
Qed.

Lemma seq_sorted n s : StronglySorted Z.lt (map Z.of_nat (seq s n)).
Proof.
  revert s. induction n as [|n IH]; intros s; cbn; constructor; [apply IH|].
  apply Forall_forall. intros x Hx. apply in_map_iff in Hx. destruct Hx as [i [<- Hi]].
  apply in_seq in Hi. lia.
Qed.

Lemma counts_by_keys m : StronglySorted Z.lt (keys m) -> m = map (fun k => (k, look k m)) (keys m).
Proof.
  induction m as [|[a c] r IH]; intros H; [reflexivity|]. cbn in *.
  apply StronglySorted_inv in H. destruct H as [H1 H2]. rewrite Z.eqb_refl. f_equal.
  rewrite (IH H1) at 1. apply map_ext_in. intros k Hk. rewrite Forall_forall in H2.
  specialize (H2 k Hk). destruct (Z.eqb_spec k a); [lia|reflexivity].
Qed.

Lemma label_counts_ok {C} k (q : dbs_out C) : clustering k q -> Z.of_nat k < 2 ^ 31 ->
  label_counts (q_n q) (q_labels q) =
  map (fun i => (Z.of_nat i, count_of (Z.of_nat i) (q_labels q))) (seq 0 (length (q_cents q))).
Proof.
  intros Hq Hk. pose proof (clustering_count _ q Hq) as Hc.
  destruct Hq as [Q1 [Q2 [Q3 Q4]]]. unfold label_counts.
  destruct (counts_fold (q_n q) (q_labels q) ltac:(lia) Q2 [] ltac:(constructor)) as [A [B D]].
  set (m := fold_left _ _ _) in *.
  assert (E : keys m = map Z.of_nat (seq 0 (length (q_cents q)))).
  { apply sorted_unique; [exact A|apply seq_sorted|]. intros x. rewrite B. split.
    - intros [[]|[H1 H2]]. rewrite Forall_forall in Q2. destruct (Q2 x H1) as [->|Hx]; [contradiction|].
      apply in_map_iff. exists (Z.to_nat x). split; [lia|]. apply in_seq. unfold zlen in Q4. lia.
    - intros Hx. right. apply in_map_iff in Hx. destruct Hx as [i [<- Hi]]. apply in_seq in Hi.
      unfold zlen in Q4. split; [apply Q3; lia|lia]. }
  rewrite (counts_by_keys m A), E, map_map. apply map_ext_in. intros i Hi.
  apply in_seq in Hi. unfold zlen in Q4. rewrite D by lia. reflexivity.
Qed.

(** * Events of one time cluster *)

Definition event_at (mean : f64) (labels : list Z) (k : nat) (xy : f64 * f64) : neutron :=
  Neutron (fmul (fst xy) (f_of_Z 1)) (fmul (snd xy) (f_of_Z 1)) mean (f_of_Z 0)
          (count_of (Z.of_nat k) labels).

Fixpoint events_at (mean : f64) (labels : list Z) (k : nat) (cents : list (f64 * f64)) : list neutron :=
  match cents with
  | [] => []
  | xy :: r => event_at mean labels k xy :: events_at mean labels (S k) r
  end.

Lemma events_at_nth mean labels cents : forall k i,
  nth_error (events_at mean labels k cents) i = option_map (event_at mean labels (k + i)) (nth_error cents i).
Proof.
  induction cents as [|xy r IH]; intros k i; [destruct i; reflexivity|].
  destruct i as [|i]; cbn; [rewrite Nat.add_0_r; reflexivity|].
  rewrite IH. rewrite <- plus_n_Sm. reflexivity.
Qed.
Lemma events_at_length mean labels cents k : length (events_at mean labels k cents) = length cents.
Proof. revert k. induction cents; intros k; cbn; [reflexivity|rewrite IHcents; reflexivity]. Qed.

Lemma count_of_range l labels : 0 <= count_of l labels <= zlen labels.
Proof.
  unfold count_of. split; [apply zlen_nonneg|].
  induction labels as [|x r IH]; cbn; [lia|]. rewrite zlen_cons.
  destruct (l =? x); [rewrite zlen_cons|]; lia.
Qed.
Lemma count_of_pos l labels : In l labels -> 1 <= count_of l labels.
Proof.
  induction labels as [|x r IH]; intros []; rewrite count_of_cons.
  - subst x. rewrite Z.eqb_refl. pose proof (count_of_range l r). lia.
  - specialize (IH H). destruct (l =? x); lia.
Qed.

Lemma to_int_id z : - 2 ^ 31 <= z < 2 ^ 31 -> to_int z = z.
Proof. intros H. unfold to_int. rewrite Z.mod_small by lia. lia. Qed.

Lemma make_events_ok mean labels : zlen labels < 2 ^ 31 -> forall cents pre,
  make_events mean (pre ++ cents)
    (map (fun i => (Z.of_nat i, count_of (Z.of_nat i) labels)) (seq (length pre) (length cents)))
  = Ok (events_at mean labels (length pre) cents).
Proof.
  intros Hl. induction cents as [|[x y] r IH]; intros pre; [reflexivity|].
  cbn [length seq map make_events].
  unfold at_index. destruct (Z.ltb_spec (Z.of_nat (length pre)) 0); [lia|].
  rewrite Nat2Z.id, nth_error_app2, Nat.sub_diag by lia. cbn [nth_error].
  specialize (IH (pre ++ [(x, y)])). rewrite <- List.app_assoc, app_length in IH. cbn [length app] in IH.
  rewrite Nat.add_1_r in IH. rewrite IH. cbn [obind].
  pose proof (count_of_range (Z.of_nat (length pre)) labels).
  rewrite to_int_id by lia. reflexivity.
Qed.

(** * Labels of one time cluster *)

Definition shift (off l : Z) : Z := if l =? 2 ^ 64 - 1 then -1 else off + l.

Lemma put_labels_ok n off : 0 <= n -> 0 <= off -> off + n < 2 ^ 31 -> forall labels ix all,
  Forall (fun l => l = 2 ^ 64 - 1 \/ 0 <= l < n) labels ->
  length labels = length ix -> NoDup ix -> Forall (fun i => (i < length all)%nat) ix ->
  exists all', put_labels n off labels ix all = Ok all' /\ length all' = length all /\
    (forall j, ~ In j ix -> nth_error all' j = nth_error all j) /\
    (forall p i, nth_error ix p = Some i ->
       nth_error all' i = option_map (shift off) (nth_error labels p)).
Proof.
  intros Hn Ho Hs. induction labels as [|l ls IH]; intros ix all HF Hlen Hnd Hin.
  - destruct ix as [|i r]; [|discriminate]. exists all. split; [reflexivity|].
    split; [reflexivity|]. split; [reflexivity|]. intros [|p] i; discriminate.
  - destruct ix as [|i r]; [discriminate|]. cbn in Hlen.
    apply Forall_cons_iff in HF. destruct HF as [Hl HF].
    apply NoDup_cons_iff in Hnd. destruct Hnd as [Hi Hnd].
    apply Forall_cons_iff in Hin. destruct Hin as [Hil Hin].
    cbn [put_labels]. rewrite (no_cluster_spec n l ltac:(lia) Hl).
    assert (E : (if l =? 2 ^ 64 - 1 then -1 else to_int (u64 (l + off))) = shift off l).
    { unfold shift. destruct (Z.eqb_spec l (2 ^ 64 - 1)); [reflexivity|].
      destruct Hl as [Hl|Hl]; [contradiction|].
      rewrite u64_id by lia. rewrite to_int_id by lia. lia. }
    rewrite E.
    destruct (set_nth_some all i (shift off l) Hil) as [all1 E1]. rewrite E1.
    pose proof (set_nth_length _ _ _ _ E1) as L1. pose proof (set_nth_nth _ _ _ _ E1) as N1.
    destruct (IH r all1 HF) as [all' [A [B [C D]]]]; try assumption; [lia|rewrite L1; exact Hin|].
    exists all'. split; [exact A|]. split; [congruence|]. split.
    + intros j Hj. rewrite C by (intros H; apply Hj; right; exact H). rewrite N1.
      destruct (Nat.eqb_spec j i) as [->|]; [exfalso; apply Hj; left; reflexivity|reflexivity].
    + intros [|p] j Hp; cbn in *.
      * injection Hp as <-. rewrite C by exact Hi. rewrite N1, Nat.eqb_refl. reflexivity.
      * apply D. exact Hp.
Qed.

Section Plane.
Variable cfg : dbs_cfg.
Variable ext : dbs_ext.
Variable hits : list hit.
Hypothesis ext_good : ext_sound ext.

Local Notation N := (length hits).

Definition pixel (i : nat) : f64 * f64 :=
  match nth_error hits i with
  | Some h => (f_of_Z (h_x h), f_of_Z (h_y h))
  | None => (f_of_Z 0, f_of_Z 0)
  end.

Definition plane (ix : list nat) : dbs_out (f64 * f64) :=
  e_fit2 ext (d_eps_xy cfg) (d_min_xy cfg) (map pixel ix).

Lemma xy_points_ok ix : Forall (fun i => (i < N)%nat) ix -> xy_points hits ix = Ok (map pixel ix).
Proof.
  induction ix as [|i r IH]; intros H; [reflexivity|].
  apply Forall_cons_iff in H. destruct H as [Hi H]. cbn. unfold pixel at 1.
  destruct (nth_error hits i) eqn:E; [|apply nth_error_None in E; lia].
  rewrite (IH H). reflexivity.
Qed.

Lemma pixels_ok ix : Forall (fun i => (i < N)%nat) ix -> pixels hits ix (map pixel ix).
Proof.
  induction ix as [|i r IH]; intros H; [exists []; split; reflexivity|].
  apply Forall_cons_iff in H. destruct H as [Hi H]. destruct (IH H) as [hs [E1 E2]].
  destruct (nth_error hits i) as [h|] eqn:E; [|apply nth_error_None in E; lia].
  exists (h :: hs). cbn. rewrite E, E1, E2. split; [reflexivity|].
  unfold pixel at 1. rewrite E. reflexivity.
Qed.

(** Events and labels of a list of time clusters. *)
Definition evs (c : info) : list neutron :=
  events_at (i_mean c) (q_labels (plane (i_idx c))) 0 (q_cents (plane (i_idx c))).
Fixpoint tells (off : Z) (infos : list info) (labels : list Z) : Prop :=
  match infos with
  | [] => True
  | c :: r =>
      (forall p i, nth_error (i_idx c) p = Some i ->
         nth_error labels i = option_map (shift off) (nth_error (q_labels (plane (i_idx c))) p)) /\
      tells (off + zlen (evs c)) r labels
  end.

Lemma plane_clustering ix : ix <> [] -> clustering (length ix) (plane ix).
Proof.
  intros H. destruct ext_good as [_ [Hf _]]. unfold plane.
  rewrite <- (map_length pixel ix). apply Hf. destruct ix; [contradiction|discriminate].
Qed.

Lemma zlen_evs c : i_idx c <> [] -> zlen (evs c) = q_n (plane (i_idx c)).
Proof.
  intros H. destruct (plane_clustering _ H) as [_ [_ [_ Q]]]. rewrite <- Q.
  unfold zlen, evs. rewrite events_at_length. reflexivity.
Qed.

Definition fine (c : info) : Prop :=
  i_idx c <> [] /\ Forall (fun i => (i < N)%nat) (i_idx c) /\ zlen (i_idx c) < 2 ^ 31.

Lemma tells_ext infos : forall off l l', 
  (forall j, In j (concat (map i_idx infos)) -> nth_error l j = nth_error l' j) ->
  tells off infos l -> tells off infos l'.
Proof.
  induction infos as [|c r IH]; intros off l l' H HT; [exact HT|]. cbn in *. destruct HT as [H1 H2].
  split.
  - intros p i Hp. rewrite <- H; [apply H1, Hp|]. apply in_or_app. left. apply nth_error_In in Hp. exact Hp.
  - apply (IH _ l l'); [|exact H2]. intros j Hj. apply H. apply in_or_app. right. exact Hj.
Qed.

Lemma plane_loop_ok infos : forall off labels events,
  Forall fine infos -> NoDup (concat (map i_idx infos)) ->
  0 <= off -> off + zlen (concat (map i_idx infos)) < 2 ^ 31 -> length labels = N ->
  exists labels',
    plane_loop ext cfg hits infos off labels events = Ok (labels', events ++ concat (map evs infos)) /\
    length labels' = N /\
    (forall j, ~ In j (concat (map i_idx infos)) -> nth_error labels' j = nth_error labels j) /\
    tells off infos labels'.
Proof.
  induction infos as [|c r IH]; intros off labels events HF Hnd Ho Hs HL.
  - exists labels. cbn. rewrite List.app_nil_r. repeat split. exact HL.
  - apply Forall_cons_iff in HF. destruct HF as [[Hne [Hlt Hfew]] HF].
    cbn [map concat] in *. rewrite zlen_app in Hs.
    pose proof (zlen_nonneg (i_idx c)) as Z1. pose proof (zlen_nonneg (concat (map i_idx r))) as Z2.
    pose proof (plane_clustering _ Hne) as Hq. pose proof (clustering_count _ _ Hq) as Hc.
    pose proof (zlen_evs c Hne) as He.
    cbn [plane_loop]. rewrite (xy_points_ok _ Hlt). cbn [obind]. fold (plane (i_idx c)).
    assert (Hq' := Hq). destruct Hq' as [Q1 [Q2 [Q3 Q4]]].
    fold (zlen (i_idx c)) in Hc.
    destruct (put_labels_ok (q_n (plane (i_idx c))) off) with (labels := q_labels (plane (i_idx c)))
      (ix := i_idx c) (all := labels) as [l1 [P1 [P2 [P3 P4]]]]; try assumption; try lia.
    { apply (nodup_app_l _ _ Hnd). }
    { rewrite HL. exact Hlt. }
    rewrite P1. cbn [obind].
    rewrite (label_counts_ok _ _ Hq) by (fold (zlen (i_idx c)); lia).
    pose proof (make_events_ok (i_mean c) (q_labels (plane (i_idx c)))
                  ltac:(unfold zlen in *; lia) (q_cents (plane (i_idx c))) []) as HM.
    cbn [app length] in HM. rewrite HM. cbn [obind]. fold (evs c).
    rewrite u64_id by lia.
    destruct (IH (off + q_n (plane (i_idx c))) l1 (events ++ evs c) HF) as [l2 [A [B [C D]]]]; try lia.
    { apply (nodup_app_r _ _ Hnd). }
    exists l2. split; [rewrite A, <- List.app_assoc; reflexivity|]. split; [exact B|]. split.
    + intros j Hj. rewrite C by (intros H; apply Hj, in_or_app; right; exact H).
      apply P3. intros H. apply Hj, in_or_app. left. exact H.
    + cbn [tells]. rewrite He. split; [|exact D].
      intros p i Hp. rewrite C; [apply P4, Hp|].
      intros Hi. apply nth_error_In in Hp. clear - Hnd Hp Hi.
      induction (i_idx c) as [|x l IHl]; [destruct Hp|]. cbn in Hnd. apply NoDup_cons_iff in Hnd.
      destruct Hnd as [Hx Hnd]. destruct Hp as [->|Hp]; [apply Hx, in_or_app; right; exact Hi|].
      apply IHl; assumption.
Qed.

Local Notation members := (fun infos => concat (map i_idx infos)).

Lemma tells_in infos : forall off labels c, Forall fine infos -> tells off infos labels -> In c infos ->
  exists off', off <= off' /\ off' + q_n (plane (i_idx c)) <= off + zlen (concat (map evs infos)) /\
    forall p i, nth_error (i_idx c) p = Some i ->
      nth_error labels i = option_map (shift off') (nth_error (q_labels (plane (i_idx c))) p).
Proof.
  induction infos as [|a r IH]; intros off labels c HF HT Hc; [destruct Hc|].
  apply Forall_cons_iff in HF. destruct HF as [[Hne [Hlt Hfew]] HF]. cbn [tells] in HT.
  destruct HT as [H1 H2]. cbn [map concat]. rewrite zlen_app.
  pose proof (zlen_nonneg (evs a)). pose proof (zlen_nonneg (concat (map evs r))).
  destruct Hc as [<-|Hc].
  - exists off. split; [lia|]. split; [|exact H1]. rewrite <- (zlen_evs a Hne). lia.
  - destruct (IH _ _ c HF H2 Hc) as [o [O1 [O2 O3]]]. exists o. split; [lia|]. split; [lia|exact O3].
Qed.

Lemma tells_range infos off labels j : Forall fine infos -> tells off infos labels ->
  In j (members infos) -> exists l, nth_error labels j = Some l /\
    (l = -1 \/ off <= l < off + zlen (concat (map evs infos))).
Proof.
  intros HF HT Hj. apply in_concat in Hj. destruct Hj as [ix [Hix Hj]].
  apply in_map_iff in Hix. destruct Hix as [c [<- Hc]].
  destruct (tells_in infos off labels c HF HT Hc) as [o [O1 [O2 O3]]].
  rewrite Forall_forall in HF. destruct (HF c Hc) as [Hne _].
  destruct (plane_clustering _ Hne) as [Q1 [Q2 _]].
  apply In_nth_error in Hj. destruct Hj as [p Hp].
  rewrite (O3 p j Hp).
  destruct (nth_error (q_labels (plane (i_idx c))) p) as [l|] eqn:E.
  2:{ apply nth_error_None in E. assert ((p < length (i_idx c))%nat) by (apply nth_error_Some; congruence). lia. }
  exists (shift o l). split; [reflexivity|]. rewrite Forall_forall in Q2.
  apply nth_error_In in E. specialize (Q2 l E). unfold shift.
  destruct (Z.eqb_spec l (2 ^ 64 - 1)); [left; reflexivity|right]. lia.
Qed.

Lemma tells_event infos : forall off labels, 0 <= off -> Forall fine infos ->
  tells off infos labels -> forall l e, nth_error (concat (map evs infos)) l = Some e ->
  exists c k xy, In c infos /\ nth_error (q_cents (plane (i_idx c))) k = Some xy /\
    e = event_at (i_mean c) (q_labels (plane (i_idx c))) k xy /\
    forall j, In j (members infos) ->
      nth_error labels j = Some (off + Z.of_nat l) <->
      exists p, nth_error (i_idx c) p = Some j /\
        nth_error (q_labels (plane (i_idx c))) p = Some (Z.of_nat k).
Proof.
  induction infos as [|c r IH]; intros off labels Ho HF HT l e He.
  - destruct l; discriminate.
  - assert (HF0 := HF). apply Forall_cons_iff in HF. destruct HF as [[Hne [Hlt Hfew]] HF].
    destruct (plane_clustering _ Hne) as [Q1 [Q2 [Q3 Q4]]].
    cbn [tells] in HT. destruct HT as [H1 H2]. cbn [map concat] in *.
    assert (Head : forall j p, nth_error (i_idx c) p = Some j -> exists lb,
              nth_error (q_labels (plane (i_idx c))) p = Some lb /\
              nth_error labels j = Some (shift off lb) /\
              (lb = 2 ^ 64 - 1 \/ 0 <= lb < zlen (evs c))).
    { intros j p Hp. destruct (nth_error (q_labels (plane (i_idx c))) p) as [lb|] eqn:E.
      2:{ apply nth_error_None in E. assert ((p < length (i_idx c))%nat) by (apply nth_error_Some; congruence). lia. }
      exists lb. split; [reflexivity|]. split; [rewrite (H1 p j Hp), E; reflexivity|].
      rewrite (zlen_evs c Hne). rewrite Forall_forall in Q2. apply Q2. apply nth_error_In in E. exact E. }
    destruct (Nat.lt_ge_cases l (length (evs c))) as [Hl|Hl].
    + rewrite nth_error_app1 in He by exact Hl. unfold evs in He. rewrite events_at_nth in He. cbn [Nat.add] in He.
      destruct (nth_error (q_cents (plane (i_idx c))) l) as [xy|] eqn:Exy; [|discriminate].
      injection He as <-. exists c, l, xy. split; [left; reflexivity|]. split; [exact Exy|].
      split; [reflexivity|]. intros j Hj. split.
      * intros HL. apply in_app_iff in Hj. destruct Hj as [Hj|Hj].
        -- apply In_nth_error in Hj. destruct Hj as [p Hp]. exists p. split; [exact Hp|].
           destruct (Head j p Hp) as [lb [E1 [E2 E3]]]. rewrite E1. rewrite HL in E2.
           injection E2 as E2. unfold shift in E2.
           destruct (Z.eqb_spec lb (2 ^ 64 - 1)); [lia|]. f_equal. lia.
        -- destruct (tells_range r _ labels j HF H2 Hj) as [l' [E1 E2]].
           rewrite HL in E1. injection E1 as <-. unfold zlen in E2. lia.
      * intros [p [Hp Hq]]. destruct (Head j p Hp) as [lb [E1 [E2 E3]]].
        rewrite E2. rewrite Hq in E1. injection E1 as <-. unfold shift.
        destruct (Z.eqb_spec (Z.of_nat l) (2 ^ 64 - 1)) as [Hbig|]; [|reflexivity].
        exfalso. pose proof (clustering_count _ _ (plane_clustering _ Hne)) as Hc.
        rewrite (zlen_evs c Hne) in *. rewrite <- (zlen_evs c Hne) in Hc.
        unfold zlen in *. lia.
    + rewrite nth_error_app2 in He by exact Hl.
      destruct (IH (off + zlen (evs c)) labels) with (l := (l - length (evs c))%nat) (e := e)
        as [c' [k [xy [I1 [I2 [I3 I4]]]]]]; try assumption.
      { pose proof (zlen_nonneg (evs c)). lia. }
      replace (off + zlen (evs c) + Z.of_nat (l - length (evs c))) with (off + Z.of_nat l) in I4
        by (unfold zlen; lia).
      exists c', k, xy. split; [right; exact I1|]. split; [exact I2|]. split; [exact I3|].
      intros j Hj. split.
      * intros HL. apply I4; [|exact HL]. apply in_app_iff in Hj. destruct Hj as [Hj|Hj]; [|exact Hj].
        exfalso. apply In_nth_error in Hj. destruct Hj as [p Hp].
        destruct (Head j p Hp) as [lb [E1 [E2 E3]]]. rewrite HL in E2. injection E2 as E2.
        unfold shift in E2. destruct (Z.eqb_spec lb (2 ^ 64 - 1)); [lia|]. unfold zlen in E3. lia.
      * intros HP. apply I4; [|exact HP]. destruct HP as [p [Hp _]].
        apply in_concat. exists (i_idx c'). split; [apply in_map; exact I1|]. apply nth_error_In in Hp. exact Hp.
Qed.
End Plane.

(** * Counting *)

Definition is_label (v : Z) (o : option Z) : bool := match o with Some l => v =? l | None => false end.

Lemma positions v L :
  zlen (filter (fun p => is_label v (nth_error L p)) (seq 0 (length L))) = count_of v L.
Proof.
  induction L as [|x L IH] using rev_ind; [reflexivity|].
  rewrite app_length, Nat.add_1_r, seq_S, filter_app. cbn [Nat.add filter].
  rewrite nth_error_app2, Nat.sub_diag by lia. cbn [nth_error is_label].
  rewrite zlen_app. unfold count_of in *. rewrite filter_app, zlen_app. cbn [filter].
  rewrite <- IH. f_equal.
  - f_equal. apply filter_ext_in. intros p Hp. apply in_seq in Hp.
    rewrite nth_error_app1 by lia. reflexivity.
  - destruct (v =? x); reflexivity.
Qed.

Lemma is_label_iff v o : is_label v o = true <-> o = Some v.
Proof.
  destruct o as [l|]; cbn; [|split; discriminate]. rewrite Z.eqb_eq.
  split; [intros ->; reflexivity|congruence].
Qed.

Lemma count_transfer (c : list nat) Q k L l : NoDup c -> length Q = length c ->
  (forall j, nth_error L j = Some l <-> exists p, nth_error c p = Some j /\ nth_error Q p = Some k) ->
  count_of k Q = count_of l L.
Proof.
  intros Hnd HQ H. rewrite <- !positions. unfold zlen. f_equal.
  set (A := filter (fun p => is_label k (nth_error Q p)) (seq 0 (length Q))).
  assert (HA : forall p, In p A <-> nth_error Q p = Some k).
  { intros p. unfold A. rewrite filter_In, is_label_iff, in_seq. split; [tauto|].
    intros E. split; [|exact E]. assert ((p < length Q)%nat) by (apply nth_error_Some; congruence). lia. }
  rewrite <- (map_length (fun p => nth p c 0%nat) A). apply Permutation_length.
  apply NoDup_Permutation.
  - assert (NA : NoDup A) by (apply NoDup_filter, seq_NoDup).
    assert (RA : Forall (fun p => (p < length c)%nat) A).
    { apply Forall_forall. intros p Hp. apply HA in Hp.
      assert ((p < length Q)%nat) by (apply nth_error_Some; congruence). lia. }
    clear - Hnd NA RA. induction A as [|p A IH]; [constructor|]. cbn.
    apply NoDup_cons_iff in NA. destruct NA as [NP NA]. apply Forall_cons_iff in RA. destruct RA as [RP RA].
    constructor; [|apply IH; assumption]. intros Hi. apply in_map_iff in Hi.
    destruct Hi as [p' [E Hp']]. rewrite Forall_forall in RA.
    rewrite (NoDup_nth c 0%nat) in Hnd. apply NP. rewrite <- (Hnd p' p); auto.
  - apply NoDup_filter, seq_NoDup.
  - intros j. rewrite filter_In, is_label_iff, in_seq, in_map_iff. split.
    + intros [p [E Hp]]. apply HA in Hp.
      assert (Hpl : (p < length c)%nat) by (rewrite <- HQ; apply nth_error_Some; congruence).
      assert (HL : nth_error L j = Some l).
      { apply H. exists p. split; [|exact Hp]. rewrite <- E. apply nth_error_nth'. exact Hpl. }
      split; [|exact HL]. assert ((j < length L)%nat) by (apply nth_error_Some; congruence). lia.
    + intros [_ HL]. apply H in HL. destruct HL as [p [Hp Hq]]. exists p. split; [|apply HA, Hq].
      apply nth_error_nth. exact Hp.
Qed.

(** * The whole fit *)

Lemma ok_inj {A} (a b : A) : Ok a = Ok b -> a = b.
Proof. congruence. Qed.
Lemma vresize_empty {A} n (v : A) : vresize [] n v = repeat v n.
Proof. unfold vresize. rewrite firstn_nil. cbn. rewrite Nat.sub_0_r. reflexivity. Qed.

Lemma vresize_length {A} (l : list A) n v : length (vresize l n v) = n.
Proof. unfold vresize. rewrite app_length, firstn_length, repeat_length. lia. Qed.

Lemma members_few (hits : list hit) (cs : list (list nat)) : NoDup (concat cs) ->
  Forall (Forall (fun i => (i < length hits)%nat)) cs -> zlen (concat cs) <= zlen hits.
Proof.
  intros Hnd HF. assert (H : (length (concat cs) <= length (seq 0 (length hits)))%nat).
  { apply NoDup_incl_length; [exact Hnd|]. intros i Hi. apply in_concat in Hi.
    destruct Hi as [c [Hc Hi]]. rewrite Forall_forall in HF. specialize (HF c Hc).
    rewrite Forall_forall in HF. apply in_seq. specialize (HF i Hi). lia. }
  rewrite seq_length in H. unfold zlen. lia.
Qed.

Lemma fit_ok cfg ext hits size : eps_ok (d_eps_time cfg) -> Forall toa_ok hits ->
  zlen hits < 2 ^ 31 -> ext_sound ext -> 1 <= size ->
  exists infos, time_classes (d_eps_time cfg) (d_min_time cfg) hits (map i_idx infos) /\
    Forall (fun c => mean_toa hits (i_idx c) (i_mean c)) infos /\
    Forall (fine hits) infos /\
    (hits <> [] -> time_clusters size ext cfg hits = Ok infos) /\
    forall o, exists o', dbs_fit_with size ext cfg o hits = Ok o' /\
      b_events o' = concat (map (evs cfg ext hits) infos) /\
      length (b_labels o') = length hits /\
      (forall j, ~ In j (concat (map i_idx infos)) ->
         nth_error (b_labels o') j = nth_error (vresize (b_labels o) (length hits) (-1)) j) /\
      tells cfg ext hits 0 infos (b_labels o').
Proof.
  intros He Ht Hfew Hext Hs. assert (D : hits = [] \/ hits <> []) by (destruct hits; [left; reflexivity|right; discriminate]).
  destruct D as [->|Hne].
  - exists []. split.
    { split; [constructor|]. split; [intros c i []|]. intros i Hi. cbn in Hi. lia. }
    split; [constructor|]. split; [constructor|]. split; [intros []; reflexivity|].
    intros o. exists (DbsObj [] (vresize (b_labels o) 0 (-1))). split; [reflexivity|].
    split; [reflexivity|]. split; [apply vresize_length|]. split; [reflexivity|exact I].
  - destruct (time_clusters_ok cfg ext hits He Ht Hfew Hext size Hs Hne) as [infos [E [HC HF]]].
    exists infos. split; [exact HC|]. split; [eapply Forall_impl; [|exact HF]; cbn; tauto|].
    destruct HC as [Hnd _].
    assert (Hall : zlen (concat (map i_idx infos)) <= zlen hits).
    { apply members_few; [exact Hnd|]. apply Forall_map. eapply Forall_impl; [|exact HF]. cbn. tauto. }
    assert (HF' : Forall (fine hits) infos).
    { apply Forall_forall. intros c Hc. rewrite Forall_forall in HF. destruct (HF c Hc) as [_ [H1 H2]].
      split; [exact H1|]. split; [exact H2|].
      enough (zlen (i_idx c) <= zlen (concat (map i_idx infos))) by lia.
      clear - Hc. apply in_split in Hc. destruct Hc as [l1 [l2 ->]].
      rewrite map_app, concat_app. cbn. rewrite !zlen_app.
      pose proof (zlen_nonneg (concat (map i_idx l1))). pose proof (zlen_nonneg (concat (map i_idx l2))). lia. }
    split; [exact HF'|]. split; [intros _; exact E|]. intros o.
    destruct (plane_loop_ok cfg ext hits Hext infos 0 (vresize (b_labels o) (length hits) (-1)) [])
      as [L [P1 [P2 [P3 P4]]]]; try assumption; try lia.
    { apply vresize_length. }
    exists (DbsObj (concat (map (evs cfg ext hits) infos)) L).
    split; [|repeat split; assumption].
    unfold dbs_fit_with. rewrite E. cbn [obind]. rewrite P1. cbn [obind app].
    destruct hits; [contradiction|reflexivity].
Qed.

Lemma C61_l cfg ext hits size o o' : eps_ok (d_eps_time cfg) -> Forall toa_ok hits ->
  zlen hits < 2 ^ 31 -> ext_sound ext -> 1 <= size -> b_labels o = [] ->
  dbs_fit_with size ext cfg o hits = Ok o' -> labelled ext cfg hits o'.
Proof.
  intros He Ht Hfew Hext Hs Ho HR.
  destruct (fit_ok cfg ext hits size He Ht Hfew Hext Hs) as [infos [HC [HM [HF [_ HA]]]]].
  destruct (HA o) as [o1 [E1 [E2 [E3 [E4 E5]]]]]. rewrite HR in E1. apply ok_inj in E1. subst o1.
  rewrite Ho, vresize_empty in E4.
  destruct HC as [Hnd [Hcls Hcr]].
  assert (Hout : forall j l, ~ In j (concat (map i_idx infos)) -> nth_error (b_labels o') j = Some l -> l = -1).
  { intros j l Hj Hl. rewrite E4 in Hl by exact Hj. apply nth_error_In in Hl. apply repeat_spec in Hl. exact Hl. }
  assert (Hmem : forall c i, In c infos -> In i (i_idx c) ->
            class_of (d_eps_time cfg) hits i (i_idx c) /\ crowded (d_eps_time cfg) (d_min_time cfg) hits i).
  { intros c i Hc Hi. rewrite Forall_forall in HF. destruct (HF c Hc) as [_ [Hlt _]].
    rewrite Forall_forall in Hlt. split.
    - split; [apply (nodup_part i_idx infos c Hnd Hc)|]. apply Hcls; [apply in_map; exact Hc|exact Hi].
    - apply Hcr; [apply Hlt, Hi|]. exists (i_idx c). split; [apply in_map; exact Hc|exact Hi]. }
  split; [exact E3|]. split; [|split].
  - apply Forall_forall. intros l Hl. apply In_nth_error in Hl. destruct Hl as [j Hj].
    rewrite E2. pose proof (zlen_nonneg (concat (map (evs cfg ext hits) infos))) as Hz.
    destruct (in_dec Nat.eq_dec j (concat (map i_idx infos))) as [Hin|Hin].
    + destruct (tells_range cfg ext hits Hext infos 0 (b_labels o') j HF E5 Hin) as [l' [H1 H2]].
      rewrite Hj in H1. injection H1 as <-. lia.
    + rewrite (Hout j l Hin Hj). lia.
  - intros l e Hev. rewrite E2 in Hev.
    destruct (tells_event cfg ext hits Hext infos 0 (b_labels o') ltac:(lia) HF E5 l e Hev)
      as [c [k [xy [Hc [Hxy [-> Hiff]]]]]]. rewrite Z.add_0_l in Hiff.
    assert (HFc := HF). rewrite Forall_forall in HFc. destruct (HFc c Hc) as [Hne [Hlt _]].
    destruct (plane_clustering cfg ext hits Hext _ Hne) as [Q1 [Q2 [Q3 Q4]]].
    assert (Hiff' : forall j, nth_error (b_labels o') j = Some (Z.of_nat l) <->
              exists p, nth_error (i_idx c) p = Some j /\
                nth_error (q_labels (plane cfg ext hits (i_idx c))) p = Some (Z.of_nat k)).
    { intros j. destruct (in_dec Nat.eq_dec j (concat (map i_idx infos))) as [Hin|Hin]; [apply Hiff, Hin|].
      split; [intros H; apply (Hout j _ Hin) in H; lia|].
      intros [p [Hp _]]. exfalso. apply Hin. apply in_concat. exists (i_idx c).
      split; [apply in_map; exact Hc|apply nth_error_In in Hp; exact Hp]. }
    assert (Hcnt : count_of (Z.of_nat k) (q_labels (plane cfg ext hits (i_idx c))) =
                   count_of (Z.of_nat l) (b_labels o')).
    { apply (count_transfer (i_idx c)); [apply (nodup_part i_idx infos c Hnd Hc)|exact Q1|exact Hiff']. }
    assert (Hk : In (Z.of_nat k) (q_labels (plane cfg ext hits (i_idx c)))).
    { apply Q3. split; [lia|]. rewrite <- Q4. unfold zlen.
      assert ((k < length (q_cents (plane cfg ext hits (i_idx c))))%nat) by (apply nth_error_Some; congruence). lia. }
    split; [exact Hcnt|]. split; [apply count_of_pos; exact Hk|]. split; [reflexivity|].
    apply In_nth_error in Hk. destruct Hk as [p Hp].
    assert (Hpi : exists i, nth_error (i_idx c) p = Some i).
    { destruct (nth_error (i_idx c) p) as [i|] eqn:E; [exists i; reflexivity|].
      apply nth_error_None in E.
      assert ((p < length (q_labels (plane cfg ext hits (i_idx c))))%nat) by (apply nth_error_Some; congruence). lia. }
    destruct Hpi as [i Hi]. destruct xy as [x y].
    exists i, (i_idx c), (map (pixel hits) (i_idx c)), k, x, y.
    split; [apply Hiff'; exists p; split; assumption|].
    destruct (Hmem c i Hc (nth_error_In _ _ Hi)) as [M1 M2].
    split; [exact M2|]. split; [exact M1|].
    split; [rewrite Forall_forall in HM; apply HM, Hc|]. split; [apply pixels_ok; exact Hlt|].
    cbn zeta. fold (plane cfg ext hits (i_idx c)). split; [exact Hxy|]. split; [reflexivity|].
    split; [reflexivity|exact Hiff'].
  - intros i Hi Hcrow.
    assert (Hil : (i < length hits)%nat) by (rewrite <- E3; apply nth_error_Some; congruence).
    apply (Hcr i Hil) in Hcrow. destruct Hcrow as [ix [Hix Hiin]].
    apply in_map_iff in Hix. destruct Hix as [c [<- Hc]].
    destruct (tells_in cfg ext hits Hext infos 0 (b_labels o') c HF E5 Hc) as [off [O1 [O2 O3]]].
    assert (HFc := HF). rewrite Forall_forall in HFc. destruct (HFc c Hc) as [Hne [Hlt _]].
    destruct (plane_clustering cfg ext hits Hext _ Hne) as [Q1 [Q2 [Q3 Q4]]].
    assert (Hp := Hiin). apply In_nth_error in Hp. destruct Hp as [p Hp].
    exists (i_idx c), (map (pixel hits) (i_idx c)), p.
    split; [apply (Hmem c i Hc Hiin)|]. split; [apply pixels_ok; exact Hlt|]. split; [exact Hp|].
    fold (plane cfg ext hits (i_idx c)). specialize (O3 p i Hp). rewrite Hi in O3.
    destruct (nth_error (q_labels (plane cfg ext hits (i_idx c))) p) as [lb|] eqn:E; [|discriminate].
    cbn in O3. injection O3 as O3. unfold shift in O3.
    destruct (Z.eqb_spec lb (2 ^ 64 - 1)) as [->|]; [reflexivity|].
    apply nth_error_In in E. rewrite Forall_forall in Q2. specialize (Q2 lb E). lia.
Qed.

Lemma C60_l cfg ext hits size : eps_ok (d_eps_time cfg) -> Forall toa_ok hits ->
  zlen hits < 2 ^ 31 -> ext_sound ext -> 1 <= size -> hits <> [] ->
  exists infos, time_clusters size ext cfg hits = Ok infos /\
    time_classes (d_eps_time cfg) (d_min_time cfg) hits (map i_idx infos).
Proof.
  intros He Ht Hfew Hext Hs Hne.
  destruct (fit_ok cfg ext hits size He Ht Hfew Hext Hs) as [infos [HC [_ [_ [HE _]]]]].
  exists infos. split; [apply HE, Hne|exact HC].
Qed.

Lemma C60_same_l eps minp hits cs cs' : Forall (fun c => c <> []) cs ->
  Forall (Forall (fun i => (i < length hits)%nat)) cs ->
  time_classes eps minp hits cs -> time_classes eps minp hits cs' ->
  forall c, In c cs -> exists c', In c' cs' /\ Permutation c c'.
Proof.
  intros Hne Hlt [Hn1 [Hc1 Hr1]] [Hn2 [Hc2 Hr2]] c Hc.
  rewrite Forall_forall in Hne, Hlt. specialize (Hne c Hc). specialize (Hlt c Hc).
  destruct c as [|i r] eqn:E; [contradiction|]. rewrite <- E in *.
  assert (Hi : In i c) by (rewrite E; left; reflexivity).
  assert (Hil : (i < length hits)%nat) by (rewrite Forall_forall in Hlt; apply Hlt, Hi).
  destruct (proj2 (Hr2 i Hil)) as [c' [Hc' Hi']].
  { apply Hr1; [exact Hil|]. exists c. split; assumption. }
  exists c'. split; [exact Hc'|]. apply NoDup_Permutation.
  - apply (nodup_part (fun x => x) cs c); [rewrite map_id; exact Hn1|exact Hc].
  - apply (nodup_part (fun x => x) cs' c'); [rewrite map_id; exact Hn2|exact Hc'].
  - intros j. rewrite (Hc1 c i Hc Hi j), (Hc2 c' i Hc' Hi' j). tauto.
Qed.

Lemma C60_any_l cfg ext ext' hits size size' infos infos' : eps_ok (d_eps_time cfg) ->
  Forall toa_ok hits -> zlen hits < 2 ^ 31 -> ext_sound ext -> ext_sound ext' ->
  1 <= size -> 1 <= size' -> hits <> [] ->
  time_clusters size ext cfg hits = Ok infos -> time_clusters size' ext' cfg hits = Ok infos' ->
  forall c, In c infos -> exists c', In c' infos' /\ Permutation (i_idx c) (i_idx c').
Proof.
  intros He Ht Hfew Hext Hext' Hs Hs' Hne HR HR' c Hc.
  destruct (fit_ok cfg ext hits size He Ht Hfew Hext Hs) as [i1 [HC [_ [HF [HE _]]]]].
  destruct (fit_ok cfg ext' hits size' He Ht Hfew Hext' Hs') as [i2 [HC' [_ [_ [HE' _]]]]].
  specialize (HE Hne). specialize (HE' Hne). rewrite HR in HE. rewrite HR' in HE'.
  apply ok_inj in HE, HE'. subst i1 i2.
  destruct (C60_same_l (d_eps_time cfg) (d_min_time cfg) hits (map i_idx infos) (map i_idx infos')) with (c := i_idx c)
    as [x [Hx HP]]; try assumption.
  - apply Forall_map. eapply Forall_impl; [|exact HF]. intros a H; apply H.
  - apply Forall_map. eapply Forall_impl; [|exact HF]. intros a H; apply H.
  - apply in_map. exact Hc.
  - apply in_map_iff in Hx. destruct Hx as [c' [<- Hc']]. exists c'. split; assumption.
Qed.

Lemma fit_total_l cfg ext hits size o : eps_ok (d_eps_time cfg) -> Forall toa_ok hits ->
  zlen hits < 2 ^ 31 -> ext_sound ext -> 1 <= size ->
  exists o', dbs_fit_with size ext cfg o hits = Ok o'.
Proof.
  intros He Ht Hfew Hext Hs.
  destruct (fit_ok cfg ext hits size He Ht Hfew Hext Hs) as [infos [_ [_ [_ [_ HA]]]]].
  destruct (HA o) as [o' [E _]]. exists o'. exact E.
Qed.

Lemma C62_events_l cfg ext hits size o1 o2 r1 r2 : eps_ok (d_eps_time cfg) -> Forall toa_ok hits ->
  zlen hits < 2 ^ 31 -> ext_sound ext -> 1 <= size ->
  dbs_fit_with size ext cfg o1 hits = Ok r1 -> dbs_fit_with size ext cfg o2 hits = Ok r2 ->
  b_events r1 = b_events r2 /\
  (forall i, crowded (d_eps_time cfg) (d_min_time cfg) hits i ->
     nth_error (b_labels r1) i = nth_error (b_labels r2) i) /\
  (forall i, ~ crowded (d_eps_time cfg) (d_min_time cfg) hits i -> (i < length hits)%nat ->
     nth_error (b_labels r1) i =
     Some (match nth_error (b_labels o1) i with Some l => l | None => -1 end)).
Proof.
  intros He Ht Hfew Hext Hs HR1 HR2.
  destruct (fit_ok cfg ext hits size He Ht Hfew Hext Hs) as [infos [HC [_ [HF [_ HA]]]]].
  destruct (HA o1) as [x [E1 [E2 [E3 [E4 E5]]]]]. rewrite HR1 in E1. apply ok_inj in E1. subst x.
  destruct (HA o2) as [x [F1 [F2 [F3 [F4 F5]]]]]. rewrite HR2 in F1. apply ok_inj in F1. subst x.
  destruct HC as [Hnd [Hcls Hcr]].
  split; [congruence|]. split.
  - intros i Hi.
    assert (Hil : (i < length hits)%nat \/ (length hits <= i)%nat) by lia.
    destruct Hil as [Hil|Hil].
    + apply (Hcr i Hil) in Hi. destruct Hi as [ix [Hix Hi]]. apply in_map_iff in Hix.
      destruct Hix as [c [<- Hc]]. apply In_nth_error in Hi. destruct Hi as [p Hp].
      clear - E5 F5 Hc Hp. revert E5 F5. generalize 0. induction infos as [|a r IH]; [destruct Hc|].
      intros off [A1 A2] [B1 B2]. destruct Hc as [->|Hc]; [|apply (IH Hc _ A2 B2)].
      rewrite (A1 p i Hp), (B1 p i Hp). reflexivity.
    + transitivity (@None Z); [|symmetry]; apply nth_error_None; lia.
  - intros i Hi Hil. rewrite E4.
    + unfold vresize. destruct (Nat.lt_ge_cases i (length (b_labels o1))) as [Hlt|Hge].
      * rewrite nth_error_app1 by (rewrite firstn_length; lia).
        rewrite <- (firstn_skipn (length hits) (b_labels o1)) at 2.
        rewrite nth_error_app1 by (rewrite firstn_length; lia).
        destruct (nth_error (firstn (length hits) (b_labels o1)) i) eqn:E; [reflexivity|].
        apply nth_error_None in E. rewrite firstn_length in E. lia.
      * rewrite nth_error_app2 by (rewrite firstn_length; lia). rewrite firstn_length.
        assert (E : nth_error (b_labels o1) i = None) by (apply nth_error_None; exact Hge). rewrite E.
        apply nth_error_repeat. lia.
    + intros Hin. apply Hi. apply Hcr; [exact Hil|]. apply in_concat in Hin.
      destruct Hin as [ix [Hix Hin]]. exists ix. split; assumption.
Qed.

Lemma C62_labels_l cfg ext hits size o1 o2 r1 r2 : eps_ok (d_eps_time cfg) -> Forall toa_ok hits ->
  zlen hits < 2 ^ 31 -> ext_sound ext -> 1 <= size -> d_min_time cfg <= 1 ->
  dbs_fit_with size ext cfg o1 hits = Ok r1 -> dbs_fit_with size ext cfg o2 hits = Ok r2 -> r1 = r2.
Proof.
  intros He Ht Hfew Hext Hs Hm HR1 HR2.
  destruct (C62_events_l cfg ext hits size o1 o2 r1 r2 He Ht Hfew Hext Hs HR1 HR2) as [A [B _]].
  destruct (fit_ok cfg ext hits size He Ht Hfew Hext Hs) as [infos [_ [_ [_ [_ HA]]]]].
  destruct (HA o1) as [x [E1 [_ [E3 _]]]]. rewrite HR1 in E1. apply ok_inj in E1. subst x.
  destruct (HA o2) as [x [F1 [_ [F3 _]]]]. rewrite HR2 in F1. apply ok_inj in F1. subst x.
  destruct r1 as [e1 l1], r2 as [e2 l2]. cbn in *. subst e2. f_equal.
  assert (H : forall i, nth_error l1 i = nth_error l2 i).
  { intros i. destruct (Nat.lt_ge_cases i (length hits)) as [Hi|Hi].
    - apply B. exists [i]. split; [repeat constructor; intros []|]. split; [cbn; exact Hm|].
      repeat constructor. rewrite map_length. exact Hi.
    - transitivity (@None Z); [|symmetry]; apply nth_error_None; lia. }
  assert (HL : length l1 = length l2) by congruence. clear - H HL.
  revert l2 H HL. induction l1 as [|a l1 IH]; intros [|b l2] H HL; try discriminate; [reflexivity|].
  pose proof (H 0%nat) as H0. cbn in H0. injection H0 as ->. f_equal. apply IH; [|cbn in HL; lia].
  intros i. apply (H (S i)).
Qed.

(** Only the pixel and the 14-bit time of arrival matter. *)
Lemma C63_l size ext cfg o hits hits' :
  Forall2 (fun h h' => h_x h = h_x h' /\ h_y h = h_y h' /\ h_toa h = h_toa h') hits hits' ->
  dbs_fit_with size ext cfg o hits = dbs_fit_with size ext cfg o hits'.
Proof.
  intros H.
  assert (HL : length hits = length hits') by (clear - H; induction H; cbn; congruence).
  assert (HT : map toa_ns hits = map toa_ns hits').
  { induction H as [|h h' l l' [_ [_ E]] H IH]; [reflexivity|]. cbn in *. f_equal; [|apply IH; lia].
    unfold toa_ns. rewrite E. reflexivity. }
  assert (HX : forall ix, xy_points hits ix = xy_points hits' ix).
  { induction ix as [|i r IH]; [reflexivity|]. cbn. rewrite IH. clear - H. generalize (xy_points hits' r) as R. intros R. revert i.
    induction H as [|h h' l l' [E1 [E2 _]] H IH]; intros i; [destruct i; reflexivity|].
    destruct i as [|i]; [cbn; rewrite E1, E2; reflexivity|]. cbn. apply IH. }
  assert (HP : forall infos off labels es,
            plane_loop ext cfg hits infos off labels es = plane_loop ext cfg hits' infos off labels es).
  { induction infos as [|c r IH]; intros; [reflexivity|]. cbn. rewrite HX.
    destruct (xy_points hits' (i_idx c)); cbn; try reflexivity.
    destruct (put_labels _ _ _ _ _); cbn; try reflexivity.
    destruct (make_events _ _ _); cbn; try reflexivity. apply IH. }
  assert (HC : time_clusters size ext cfg hits = time_clusters size ext cfg hits')
    by (unfold time_clusters; rewrite HT, HL; reflexivity).
  unfold dbs_fit_with. rewrite HC, HL.
  destruct (time_clusters size ext cfg hits') as [infos| | |]; cbn [obind];
    [rewrite HP|..]; destruct hits, hits'; try discriminate; reflexivity.
Qed.
