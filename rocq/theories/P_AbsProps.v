(** Lemmas for the properties of the box search. *)
From Verif Require Export P_AbsBox.
From Coq Require Import Lia ZifyBool Reals Lra Permutation Sorted.
From Flocq Require Import Core.
Global Open Scope Z_scope.

(** * Positions *)

Lemma positions_spec l ls i : In i (positions l ls) <-> nth_error ls i = Some l.
Proof.
  unfold positions. rewrite filter_In, in_seq. split.
  - intros [_ H]. destruct (nth_error ls i) as [x|]; [|discriminate].
    apply Nat.eqb_eq in H. congruence.
  - intros H. rewrite H, Nat.eqb_refl. split; [|reflexivity].
    assert (nth_error ls i <> None) by congruence. apply nth_error_Some in H0. lia.
Qed.

Lemma seq_sorted n : forall s, StronglySorted lt (seq s n).
Proof.
  induction n as [|n IH]; intros s; cbn; constructor; [apply IH|].
  apply Forall_forall. intros x Hx. apply in_seq in Hx. lia.
Qed.

Lemma filter_sorted {A} (R : A -> A -> Prop) p l : StronglySorted R l -> StronglySorted R (filter p l).
Proof.
  induction 1 as [|a l H IH F]; cbn; [constructor|]. destruct (p a); [|exact IH].
  constructor; [exact IH|]. apply Forall_forall. intros x Hx. apply filter_In in Hx.
  rewrite Forall_forall in F. apply F. tauto.
Qed.

Lemma positions_sorted l ls : StronglySorted lt (positions l ls).
Proof. apply filter_sorted, seq_sorted. Qed.

Lemma sorted_nodup l : StronglySorted lt l -> NoDup l.
Proof.
  induction 1 as [|a l H IH F]; constructor; [|exact IH]. intros I.
  rewrite Forall_forall in F. specialize (F _ I). lia.
Qed.

Lemma nodup_flat_map {A B} (f : A -> list B) l :
  (forall a, In a l -> NoDup (f a)) -> NoDup l ->
  (forall a b x, In x (f a) -> In x (f b) -> a = b) -> NoDup (flat_map f l).
Proof.
  intros H N D. induction l as [|a l IH]; cbn; [constructor|].
  inversion N as [|? ? Na Nl]; subst.
  assert (X : NoDup (flat_map f l)) by (apply IH; [intros b I; apply H; right; exact I|exact Nl]).
  assert (Y : NoDup (f a)) by (apply H; left; reflexivity).
  assert (Z : forall x, In x (f a) -> ~ In x (flat_map f l)).
  { intros x I J. apply in_flat_map in J. destruct J as (b & Ib & Jb).
    assert (a = b) by (eapply D; eassumption). subst. contradiction. }
  clear - X Y Z. induction (f a) as [|x r IHr]; cbn; [exact X|]. inversion Y; subst. constructor.
  - intros I. apply in_app_or in I. destruct I as [I|I]; [contradiction|].
    apply (Z x); [left; reflexivity|exact I].
  - apply IHr; [assumption|]. intros y I. apply Z. right. exact I.
Qed.

Lemma positions_partition ls k : Forall (fun l => (l < k)%nat) ls ->
  Permutation (flat_map (fun l => positions l ls) (seq 0 k)) (seq 0 (length ls)).
Proof.
  intros F. apply NoDup_Permutation.
  - apply nodup_flat_map; [intros a _; apply sorted_nodup, positions_sorted|apply seq_NoDup|].
    intros a b x Ha Hb. apply positions_spec in Ha. apply positions_spec in Hb. congruence.
  - apply seq_NoDup.
  - intros x. rewrite in_flat_map, in_seq. split.
    + intros (l & _ & H). apply positions_spec in H.
      assert (nth_error ls x <> None) by congruence. apply nth_error_Some in H0. lia.
    + intros H. destruct (nth_error ls x) as [l|] eqn:E;
        [|apply nth_error_None in E; lia].
      exists l. split; [|apply positions_spec; exact E]. apply in_seq.
      rewrite Forall_forall in F. apply nth_error_In in E. specialize (F _ E). lia.
Qed.

Lemma concat_of_nth {A} (idx : list (list A)) (f : nat -> list A) :
  (forall l, (l < length idx)%nat -> nth_error idx l = Some (f l)) ->
  idx = map f (seq 0 (length idx)).
Proof.
  intros H. apply nth_ext with (d := f 0%nat) (d' := f 0%nat).
  - rewrite map_length, seq_length. reflexivity.
  - intros i Hi. specialize (H i Hi). rewrite map_nth. rewrite seq_nth by exact Hi. cbn.
    apply nth_error_nth with (d := f 0%nat) in H. exact H.
Qed.

(** * C21 *)

Lemma C21_l n cfg o data : (0 < n)%nat -> Forall hit_ok data ->
  exists o' ls k, abs_fit n cfg o data = Ok o' /\ o_labels o' = map Z.of_nat ls /\
    length ls = length data /\
    (forall l, In l ls <-> (l < k)%nat) /\
    (forall i l, nth_error ls i = Some l -> forall l', (l' < l)%nat -> In l' (firstn i ls)) /\
    o_indices o' = map (fun l => positions l ls) (seq 0 (length (o_indices o'))) /\
    (k <= length (o_indices o'))%nat /\
    (forall l v, nth_error (o_indices o') l = Some v -> StronglySorted lt v) /\
    Permutation (concat (o_indices o')) (seq 0 (length data)).
Proof.
  intros Hn Hd. destruct (fit_refines n cfg o data Hn Hd)
    as (ls & op & closed & o' & E & C & Em & El & Li & Ni).
  exists o', ls, (length op + length closed)%nat.
  pose proof (clusters_label_bound _ _ _ _ _ _ C) as LB.
  pose proof (clusters_width _ _ _ _ _ _ C) as [W _].
  assert (Ei := concat_of_nth _ _ Ni).
  split; [exact E|]. split; [exact El|]. split; [eapply clusters_length; exact C|].
  split.
  { intros l. split; [|apply (clusters_all_used _ _ _ _ _ _ C)].
    intros I. rewrite Forall_forall in LB. apply LB. exact I. }
  split; [apply (clusters_first_use _ _ _ _ _ _ C)|].
  split; [exact Ei|]. split; [lia|]. split.
  - intros l v H. rewrite Ni in H; [|apply nth_error_Some; congruence].
    injection H as <-. apply positions_sorted.
  - rewrite Ei. rewrite <- flat_map_concat_map.
    replace (length data) with (length ls) by (eapply clusters_length; exact C).
    apply positions_partition. eapply Forall_impl; [|exact LB]. cbn. intros a Ha. lia.
Qed.

(** * C22, C23 *)

Lemma agree_box cfg rho hs : radius_is (a_radius cfg) rho -> 0 <= a_range cfg < 2 ^ 64 ->
  Forall hit_ok hs -> fits_agree (fits_code cfg) (fits_box rho (a_range cfg)) hs.
Proof.
  intros Hr Ht H c h L Ih Sub. rewrite Forall_forall in H.
  apply fits_code_box; auto. apply Forall_forall. intros a Ia. apply H. apply Sub. exact Ia.
Qed.

Lemma C23_l n cfg rho o data : (0 < n)%nat -> Forall hit_ok data ->
  radius_is (a_radius cfg) rho -> 0 <= a_range cfg < 2 ^ 64 ->
  exists o' ls op closed, abs_fit n cfg o data = Ok o' /\ o_labels o' = map Z.of_nat ls /\
    clusters n (fits_box rho (a_range cfg)) data ls op closed /\
    forall ls' op' closed', clusters n (fits_box rho (a_range cfg)) data ls' op' closed' ->
      ls' = ls /\ op' = op /\ closed' = closed.
Proof.
  intros Hn Hd Hr Ht. destruct (fit_refines n cfg o data Hn Hd)
    as (ls & op & closed & o' & E & C & Em & El & Li & Ni).
  exists o', ls, op, closed.
  assert (C' : clusters n (fits_box rho (a_range cfg)) data ls op closed)
    by (eapply clusters_ext; [apply agree_box; eassumption|exact C]).
  repeat (split; [assumption|]). intros ls' op' closed' C2.
  destruct (clusters_unique _ _ _ _ _ _ C2 _ _ _ C') as (A & B & D). auto.
Qed.

Lemma C23_open_l n fits hs ls op closed : clusters n fits hs ls op closed -> (length op <= n)%nat.
Proof. intros H. apply (clusters_width _ _ _ _ _ _ H). Qed.

Lemma C22_l n cfg rho o data o' : (0 < n)%nat -> Forall hit_ok data ->
  radius_is (a_radius cfg) rho -> 0 <= a_range cfg < 2 ^ 64 ->
  abs_fit n cfg o data = Ok o' ->
  exists ls, o_labels o' = map Z.of_nat ls /\
  forall i l h, nth_error ls i = Some l -> nth_error data i = Some h ->
    members l (firstn i ls) (firstn i data) <> [] ->
    fits_box rho (a_range cfg) (Cl l (members l (firstn i ls) (firstn i data))) h.
Proof.
  intros Hn Hd Hr Ht E. destruct (C23_l n cfg rho o data Hn Hd Hr Ht)
    as (o2 & ls & op & closed & E2 & El & C & _).
  rewrite E in E2. injection E2 as <-. exists ls. split; [exact El|].
  apply (clusters_soundness _ _ _ _ _ _ C).
Qed.

(** Any radius, with a tolerance. *)
Lemma C22_any_l n cfg o data o' : (0 < n)%nat ->
  Forall tame_hit data -> is_finite (a_radius cfg) = true ->
  (Rabs (B2R (a_radius cfg)) <= bpow radix2 20)%R -> 0 <= a_range cfg < 2 ^ 64 ->
  abs_fit n cfg o data = Ok o' ->
  exists ls, o_labels o' = map Z.of_nat ls /\
  forall i l h, nth_error ls i = Some l -> nth_error data i = Some h ->
    members l (firstn i ls) (firstn i data) <> [] ->
    fits_real tiny (B2R (a_radius cfg)) (a_range cfg)
      (Cl l (members l (firstn i ls) (firstn i data))) h.
Proof.
  intros Hn Hd Fr Br Ht E. destruct (tame_hits _ Hd) as (_ & _ & Hok).
  destruct (fit_refines n cfg o data Hn Hok)
    as (ls & op & closed & o2 & E2 & C & Em & El & Li & Ni).
  rewrite E in E2. injection E2 as <-. exists ls. split; [exact El|].
  intros i l h Hl Hh M.
  assert (Fc := clusters_soundness _ _ _ _ _ _ C i l h Hl Hh M).
  rewrite Forall_forall in Hd.
  apply (fits_code_real cfg _ h Fr Br Ht).
  - apply Hd. eapply nth_error_In. exact Hh.
  - exact M.
  - apply Forall_forall. intros a Ia. cbn [cl_hits] in Ia. unfold members in Ia.
    apply in_map_iff in Ia. destruct Ia as ((x & y) & <- & Ia). apply filter_In in Ia.
    destruct Ia as [Ia _]. apply in_combine_r in Ia. apply Hd. cbn.
    rewrite <- (firstn_skipn i data). apply in_or_app. left. exact Ia.
  - exact Fc.
Qed.

(** Two hits of one cluster. *)
Lemma members_head n fits hs ls op closed : clusters n fits hs ls op closed ->
  forall i l h, nth_error ls i = Some l -> nth_error hs i = Some h ->
  forall f, hd_error (members l ls hs) = Some f ->
  (members l (firstn i ls) (firstn i hs) = [] /\ f = h) \/
  hd_error (members l (firstn i ls) (firstn i hs)) = Some f.
Proof.
  intros C i l h Hl Hh f Hf. pose proof (clusters_length _ _ _ _ _ _ C) as Len.
  assert (Li : (i < length ls)%nat) by (apply nth_error_Some; congruence).
  rewrite <- (firstn_skipn i ls), <- (firstn_skipn i hs) in Hf.
  rewrite members_app in Hf by (rewrite !firstn_length; lia).
  assert (Sl : skipn i ls = l :: skipn (S i) ls).
  { clear - Hl. revert ls Hl. induction i as [|i IH]; intros [|x ls] Hl; try discriminate;
      cbn in *; [congruence|apply IH; exact Hl]. }
  assert (Sh : skipn i hs = h :: skipn (S i) hs).
  { clear - Hh. revert hs Hh. induction i as [|i IH]; intros [|x hs] Hh; try discriminate;
      cbn in *; [congruence|apply IH; exact Hh]. }
  rewrite Sl, Sh in Hf. unfold members at 2 in Hf. cbn [combine filter fst] in Hf.
  rewrite Nat.eqb_refl in Hf. cbn [map snd] in Hf.
  destruct (members l (firstn i ls) (firstn i hs)) as [|a r].
  - left. cbn in Hf. split; congruence.
  - right. exact Hf.
Qed.

Lemma C22_pair_l n cfg rho o data o' : (0 < n)%nat -> Forall hit_ok data ->
  radius_is (a_radius cfg) rho -> 0 <= a_range cfg < 2 ^ 64 ->
  abs_fit n cfg o data = Ok o' ->
  forall i j h h', nth_error data i = Some h -> nth_error data j = Some h' ->
  nth_error (o_labels o') i = nth_error (o_labels o') j ->
  Z.abs (arrival h - arrival h') <= 2 * a_range cfg.
Proof.
  intros Hn Hd Hr Ht E i j h h' Hi Hj Eq.
  destruct (C23_l n cfg rho o data Hn Hd Hr Ht) as (o2 & ls & op & closed & E2 & El & C & _).
  rewrite E in E2. injection E2 as <-.
  pose proof (clusters_length _ _ _ _ _ _ C) as Len.
  assert (Li : (i < length ls)%nat) by (rewrite Len; apply nth_error_Some; congruence).
  destruct (nth_error ls i) as [l|] eqn:Eli; [|apply nth_error_None in Eli; lia].
  assert (Elj : nth_error ls j = Some l).
  { rewrite El in Eq. rewrite !nth_error_map, Eli in Eq. cbn in Eq.
    destruct (nth_error ls j) as [l'|]; cbn in Eq; [|discriminate].
    injection Eq as Eq. apply Nat2Z.inj in Eq. congruence. }
  assert (X : forall i h, nth_error ls i = Some l -> nth_error data i = Some h ->
            forall f, hd_error (members l ls data) = Some f -> Z.abs (arrival h - arrival f) <= a_range cfg).
  { clear i j h h' Hi Hj Eq Li Eli Elj. intros i h Hl Hh f Hf.
    destruct (members_head _ _ _ _ _ _ C i l h Hl Hh f Hf) as [[_ ->]|H].
    - rewrite Z.sub_diag. cbn. lia.
    - assert (M : members l (firstn i ls) (firstn i data) <> [])
        by (destruct (members l (firstn i ls) (firstn i data)); [discriminate|congruence]).
      destruct (clusters_soundness _ _ _ _ _ _ C i l h Hl Hh M) as ((t & O & Ht') & _).
      destruct O as (f' & r & Ef & ->). cbn [cl_hits] in Ef. rewrite Ef in H. cbn in H.
      injection H as ->. exact Ht'. }
  assert (Hf : exists f, hd_error (members l ls data) = Some f).
  { destruct (members l ls data) as [|f r] eqn:Em; [|exists f; reflexivity].
    exfalso. assert (I : In h (members l ls data)); [|rewrite Em in I; destruct I].
    unfold members. apply in_map_iff. exists (l, h). split; [reflexivity|].
    apply filter_In. split; [|cbn; apply Nat.eqb_refl].
    clear - Eli Hi. revert i data Eli Hi.
    induction ls as [|x ls IH]; intros [|i] [|y data] A B; try discriminate; cbn in *.
    - left. congruence.
    - right. eapply IH; eassumption. }
  destruct Hf as (f & Hf).
  pose proof (X i h Eli Hi f Hf). pose proof (X j h' Elj Hj f Hf). lia.
Qed.

(** The extent of a cluster. *)
Lemma members_split l : forall ls data p h r, members l ls data = p ++ h :: r ->
  exists i, nth_error ls i = Some l /\ nth_error data i = Some h /\ members l (firstn i ls) (firstn i data) = p.
Proof.
  induction ls as [|a ls IH]; intros [|b data] p h r E; try (destruct p; discriminate E).
  unfold members in E. cbn [combine filter fst] in E. destruct (Nat.eqb_spec a l) as [->|Ne].
  - cbn [map snd] in E. destruct p as [|q p].
    + cbn in E. injection E as <- _. exists 0%nat. repeat split.
    + cbn in E. injection E as -> E. fold (members l ls data) in E.
      destruct (IH data p h r E) as (i & A & B & D). exists (S i). cbn [nth_error firstn].
      split; [exact A|]. split; [exact B|]. unfold members. cbn [combine filter fst]. rewrite Nat.eqb_refl. cbn [map snd].
      f_equal. exact D.
  - fold (members l ls data) in E. destruct (IH data p h r E) as (i & A & B & D). exists (S i). cbn [nth_error firstn].
    split; [exact A|]. split; [exact B|]. unfold members. cbn [combine filter fst].
    destruct (Nat.eqb_spec a l); [contradiction|]. exact D.
Qed.

Lemma box_extent rho range l : 0 <= rho -> forall c,
  (forall p h r, c = p ++ h :: r -> p <> [] -> fits_box rho range (Cl l p) h) ->
  forall a b, In a c -> In b c ->
    2 ^ 20 * Z.abs (h_x a - h_x b) <= rho * (zlen c - 1) /\ 2 ^ 20 * Z.abs (h_y a - h_y b) <= rho * (zlen c - 1).
Proof.
  intros Hr c. induction c as [|h p IH] using rev_ind; intros G a b Ia Ib; [destruct Ia|].
  destruct p as [|q p'].
  { destruct Ia as [<-|[]]. destruct Ib as [<-|[]]. change (zlen ([] ++ [h])) with 1. rewrite !Z.sub_diag. change (Z.abs 0) with 0. lia. }
  remember (q :: p') as p. assert (Np : p <> []) by (subst; discriminate).
  assert (G' : forall u v r, p = u ++ v :: r -> u <> [] -> fits_box rho range (Cl l u) v).
  { intros u v r E. apply (G u v (r ++ [h])). rewrite E, <- app_assoc. reflexivity. }
  pose proof (G p h [] eq_refl Np) as (_ & (x1 & X1 & Y1) & (x2 & X2 & Y2) & (x3 & X3 & Y3) & (x4 & X4 & Y4)).
  cbn [cl_hits] in *. specialize (IH G').
  assert (L : zlen (p ++ [h]) - 1 = (zlen p - 1) + 1) by (rewrite zlen_app, zlen_cons, zlen_nil; lia).
  rewrite L, Z.mul_add_distr_l, Z.mul_1_r.
  apply in_app_or in Ia. apply in_app_or in Ib.
  assert (K : forall z, In z p -> 2 ^ 20 * Z.abs (h_x h - h_x z) <= rho * (zlen p - 1) + rho /\
                                   2 ^ 20 * Z.abs (h_y h - h_y z) <= rho * (zlen p - 1) + rho).
  { intros z Iz. pose proof (IH x1 z X1 Iz). pose proof (IH x2 z X2 Iz). pose proof (IH x3 z X3 Iz). pose proof (IH x4 z X4 Iz).
    clear - H H0 H1 H2 Y1 Y2 Y3 Y4. lia. }
  destruct Ia as [Ia|[<-|[]]], Ib as [Ib|[<-|[]]].
  - pose proof (IH a b Ia Ib). lia.
  - pose proof (K a Ia). lia.
  - pose proof (K b Ib). lia.
  - assert (1 <= zlen p) by (subst p; rewrite zlen_cons; pose proof (zlen_nonneg p'); lia). rewrite !Z.sub_diag. cbn. nia.
Qed.

Lemma members_number l : forall ls data, length ls = length data ->
  zlen (members l ls data) = zlen (filter (Z.eqb (Z.of_nat l)) (map Z.of_nat ls)).
Proof.
  induction ls as [|a ls IH]; intros [|b data] Len; try discriminate; [reflexivity|].
  unfold members. cbn [combine filter fst map]. destruct (Nat.eqb_spec a l) as [->|Ne].
  - rewrite Z.eqb_refl. cbn [map snd]. rewrite !zlen_cons. f_equal. apply IH. cbn in Len. lia.
  - destruct (Z.eqb_spec (Z.of_nat l) (Z.of_nat a)); [lia|]. apply IH. cbn in Len. lia.
Qed.

Lemma C22_extent_l n cfg rho o data o' : (0 < n)%nat -> Forall hit_ok data ->
  radius_is (a_radius cfg) rho -> 0 <= rho -> 0 <= a_range cfg < 2 ^ 64 ->
  abs_fit n cfg o data = Ok o' ->
  forall i j h h' l, nth_error data i = Some h -> nth_error data j = Some h' ->
  nth_error (o_labels o') i = Some l -> nth_error (o_labels o') j = Some l ->
  2 ^ 20 * Z.abs (h_x h - h_x h') <= rho * (zlen (filter (Z.eqb l) (o_labels o')) - 1) /\
  2 ^ 20 * Z.abs (h_y h - h_y h') <= rho * (zlen (filter (Z.eqb l) (o_labels o')) - 1).
Proof.
  intros Hn Hd Hr H0 Ht E i j h h' l Hi Hj Li Lj.
  destruct (C23_l n cfg rho o data Hn Hd Hr Ht) as (o2 & ls & op & closed & E2 & El & C & _).
  rewrite E in E2. injection E2 as <-. pose proof (clusters_length _ _ _ _ _ _ C) as Len.
  rewrite El in *. rewrite nth_error_map in Li, Lj.
  destruct (nth_error ls i) as [a|] eqn:Ei; [|discriminate]. destruct (nth_error ls j) as [b|] eqn:Ej; [|discriminate].
  cbn in Li, Lj. injection Li as <-. injection Lj as Lj. apply Nat2Z.inj in Lj. subst b.
  rewrite <- (members_number a ls data Len).
  assert (M : forall i h, nth_error ls i = Some a -> nth_error data i = Some h -> In h (members a ls data)).
  { clear. intros i h. revert ls data. induction i as [|i IH]; intros [|x ls] [|y data] A B; try discriminate;
      cbn [nth_error] in A, B; unfold members; cbn [combine filter fst].
    - injection A as ->. injection B as ->. rewrite Nat.eqb_refl. left. reflexivity.
    - destruct (x =? a)%nat; cbn [map snd]; [right|]; apply IH; assumption. }
  apply (box_extent rho (a_range cfg) a H0); [|exact (M i h Ei Hi)|exact (M j h' Ej Hj)].
  intros p z r Ep Np. destruct (members_split _ _ _ _ _ _ Ep) as (k & A & B & D). subst p.
  exact (clusters_soundness _ _ _ _ _ _ C k a z A B Np).
Qed.

(** * C25 *)

Lemma C25_fit_l n cfg o d :
  abs_fit n cfg o d =
  let! o1 := abs_fit n cfg abs_new d in Ok (AbsObj (o_method o) (o_labels o1) (o_indices o1)).
Proof.
  unfold abs_fit. cbn [firstn o_method].
  destruct (label_loop _ _ _ _ _) as [[labels m]| | |]; cbn [obind]; try reflexivity.
  destruct (index_loop _ _ _); reflexivity.
Qed.

Lemma C25_events_l n ext cfg o d m :
  (let! o1 := abs_fit n cfg (abs_set_method o m) d in abs_get_events ext cfg o1 d) =
  (let! o1 := abs_fit n cfg (abs_set_method abs_new m) d in abs_get_events ext cfg o1 d).
Proof.
  rewrite (C25_fit_l n cfg (abs_set_method o m)), (C25_fit_l n cfg (abs_set_method abs_new m)).
  cbn [o_method abs_set_method]. destruct (abs_fit n cfg abs_new d); reflexivity.
Qed.

(** * C24 *)

Lemma gather_members ls : forall data k base,
  length ls = length data -> (forall i, nth_error base (k + i) = nth_error data i) ->
  forall l, gather base (positions_from k l ls) = Ok (members l ls data).
Proof.
  induction ls as [|l0 ls IH]; intros [|h data] k base Len Hb l; try discriminate; [reflexivity|].
  unfold positions_from. rewrite positions_cons, map_app, map_map.
  assert (Hb' : forall i, nth_error base (S k + i) = nth_error data i).
  { intros i. specialize (Hb (S i)). cbn in Hb. rewrite <- Hb. f_equal. lia. }
  specialize (IH data (S k) base ltac:(cbn in Len; lia) Hb' l).
  assert (Ep : map (fun x => (k + S x)%nat) (positions l ls) = positions_from (S k) l ls).
  { unfold positions_from. apply map_ext. intros a. lia. }
  rewrite Ep. unfold members. cbn [combine filter fst].
  destruct (Nat.eqb l0 l); cbn [map app gather].
  - pose proof (Hb 0%nat) as H0. cbn in H0. rewrite H0. rewrite IH. reflexivity.
  - exact IH.
Qed.

Lemma event_loop_spec fit min data ls idx : length ls = length data ->
  forall n label, (forall l, (l < length idx)%nat -> nth_error idx l = Some (positions l ls)) ->
  (label + n <= length idx)%nat ->
  forall evs, event_loop fit min data idx label n = Ok evs <->
    events fit min (map (fun l => members l ls data) (seq label n)) evs.
Proof.
  intros Len n. induction n as [|n IH]; intros label Hi Hle evs; cbn [event_loop seq map].
  - split; [intros H; injection H as <-; constructor|intros H; inversion H; reflexivity].
  - rewrite Hi by lia.
    assert (G : gather data (positions label ls) = Ok (members label ls data)).
    { rewrite <- (gather_members ls data 0 data Len (fun i => eq_refl)). f_equal.
      unfold positions_from. cbn. rewrite map_id. reflexivity. }
    rewrite G. cbn [obind].
    specialize (IH (S label) Hi ltac:(lia)).
    destruct (Z.ltb_spec (zlen (members label ls data)) min) as [Hlt|Hge].
    + rewrite IH. split; [apply ev_small; exact Hlt|]. intros H; inversion H; subst; try lia. assumption.
    + destruct (fit (members label ls data)) as [e| | |] eqn:Ef; cbn [obind];
        try (split; [discriminate|intros H; inversion H; subst; try lia; congruence]).
      split.
      * intros H. destruct (event_loop fit min data idx (S label) n) as [rest| | |] eqn:Er;
          cbn [obind] in H; try discriminate.
        assert (Hr : events fit min (map (fun l => members l ls data) (seq (S label) n)) rest)
          by (apply IH; reflexivity).
        destruct (fge (n_x e) (f_of_Z 0) && fge (n_y e) (f_of_Z 0)) eqn:Eg; injection H as <-.
        -- eapply ev_keep; eassumption.
        -- eapply ev_bad; eassumption.
      * intros H. inversion H as [|c cs ev A B|c cs e' ev A B D F|c cs e' ev A B D F]; subst; try lia.
        -- assert (e' = e) by congruence. subst e'. apply IH in F. rewrite F. cbn [obind].
           rewrite D. reflexivity.
        -- assert (e' = e) by congruence. subst e'. apply IH in F. rewrite F. cbn [obind].
           rewrite D. reflexivity.
Qed.

Lemma fold_max_label ls : forall l, max_label_of (Z.of_nat l) (map Z.of_nat ls) =
  Z.of_nat (fold_left Nat.max ls l).
Proof.
  unfold max_label_of. induction ls as [|a ls IH]; intros l; cbn; [reflexivity|].
  rewrite <- Nat2Z.inj_max. apply IH.
Qed.

Lemma fold_max_nat ls : forall l, (forall x, In x (l :: ls) -> (x <= fold_left Nat.max ls l)%nat) /\
  In (fold_left Nat.max ls l) (l :: ls).
Proof.
  induction ls as [|a ls IH]; intros l; cbn [fold_left].
  - split; [intros x [->|[]]; lia|left; reflexivity].
  - destruct (IH (Nat.max l a)) as [A B]. split.
    + intros x [->|[->|I]]; [pose proof (A (Nat.max x a) (or_introl eq_refl)); lia
        |pose proof (A (Nat.max l x) (or_introl eq_refl)); lia|apply A; right; exact I].
    + destruct B as [B|B]; [|right; right; exact B].
      rewrite <- B. destruct (Nat.max_spec l a) as [[_ E]|[_ E]]; rewrite E; cbn; auto.
Qed.

Lemma C24_l n ext cfg o data o' m fit : (0 < n)%nat -> Forall hit_ok data ->
  abs_fit n cfg o data = Ok o' -> fit_of ext m = Some fit ->
  exists ls k, o_labels o' = map Z.of_nat ls /\ length ls = length data /\
    (forall l, In l ls <-> (l < k)%nat) /\
    forall evs, abs_get_events ext cfg (abs_set_method o' m) data = Ok evs <->
                events fit (a_min cfg) (clusters_of k ls data) evs.
Proof.
  intros Hn Hd E Hf. destruct (fit_refines n cfg o data Hn Hd)
    as (ls & op & closed & o2 & E2 & C & Em & El & Li & Ni).
  rewrite E in E2. injection E2 as <-.
  pose proof (clusters_length _ _ _ _ _ _ C) as Len.
  pose proof (clusters_label_bound _ _ _ _ _ _ C) as LB. rewrite Forall_forall in LB.
  pose proof (clusters_all_used _ _ _ _ _ _ C) as AU.
  pose proof (clusters_width _ _ _ _ _ _ C) as [W _].
  set (k := (length op + length closed)%nat) in *.
  exists ls, k. split; [exact El|]. split; [exact Len|].
  split; [intros l; split; [apply LB|apply AU]|]. intros evs.
  unfold abs_get_events. cbn [abs_set_method o_labels o_method o_indices]. rewrite El.
  assert (Ez : (zlen (map Z.of_nat ls) =? zlen data) = true)
    by (unfold zlen; rewrite map_length; lia).
  rewrite Ez. cbn [negb]. rewrite Hf.
  destruct ls as [|l ls]; cbn [map].
  - assert (k = 0%nat).
    { destruct k as [|k']; [reflexivity|]. specialize (AU 0%nat ltac:(lia)). destruct AU. }
    rewrite H. cbn. split; [intros X; injection X as <-; constructor|intros X; inversion X; reflexivity].
  - rewrite fold_max_label. destruct (fold_max_nat ls l) as [A B].
    assert (Ek : k = S (fold_left Nat.max ls l)).
    { apply LB in B. destruct k as [|k']; [lia|]. specialize (AU k' ltac:(lia)). apply A in AU. lia. }
    replace (Z.to_nat (Z.of_nat (fold_left Nat.max ls l) + 1)) with k by lia.
    unfold clusters_of. apply event_loop_spec; [exact Len|exact Ni|]. rewrite Li. lia.
Qed.

Lemma C24_reject_l ext cfg o data :
  (length (o_labels o) <> length data -> abs_get_events ext cfg o data = Throw RuntimeError) /\
  (length (o_labels o) = length data -> data <> [] -> o_method o = MOther ->
     abs_get_events ext cfg o data = Throw RuntimeError) /\
  (o_labels o = [] -> data = [] -> abs_get_events ext cfg o data = Ok []).
Proof.
  unfold abs_get_events. split; [|split].
  - intros H. replace (zlen (o_labels o) =? zlen data) with false by (unfold zlen; lia). reflexivity.
  - intros H N M. replace (zlen (o_labels o) =? zlen data) with true by (unfold zlen; lia). cbn.
    destruct (o_labels o) as [|l ls]; [destruct data; [congruence|discriminate]|].
    rewrite M. reflexivity.
  - intros -> ->. reflexivity.
Qed.

(** Hit counts. *)
Lemma centroid_nhits w srf c e : centroid_fit w srf c = Ok e -> n_hits e = zlen c.
Proof.
  unfold centroid_fit. destruct c as [|h c]; [intros H; injection H as <-; reflexivity|].
  destruct (ofold _ _ _) as [s| | |]; cbn [obind]; try discriminate.
  intros H. injection H as <-. reflexivity.
Qed.

Lemma gauss_rows_len srf data rs : gauss_rows srf data = Ok rs -> zlen rs = zlen data.
Proof.
  revert rs. induction data as [|h data IH]; intros rs H; cbn in H.
  - injection H as <-. reflexivity.
  - destruct (get_tof h); cbn in H; try discriminate.
    destruct (gauss_rows srf data) as [rs'| | |]; cbn in H; try discriminate.
    injection H as <-. rewrite !zlen_cons. rewrite (IH rs' eq_refl). reflexivity.
Qed.

(** The Gaussian fit of fewer than 8 hits has x = -1. *)
Lemma Ok_inj {A} (a b : A) : Ok a = Ok b -> a = b.
Proof. intros H. injection H as ->. reflexivity. Qed.

Lemma neg_one : fge (f_of_Z (-1)) (f_of_Z 0) = false.
Proof. vm_compute. reflexivity. Qed.

Lemma gauss_nhits ext srf c e : gauss_fit ext srf c = Ok e ->
  fge (n_x e) (f_of_Z 0) && fge (n_y e) (f_of_Z 0) = true -> n_hits e = zlen c /\ 8 <= zlen c.
Proof.
  unfold gauss_fit. destruct (Z.ltb_spec (zlen c) 8) as [Hlt|Hge].
  - intros H. apply Ok_inj in H. rewrite <- H. cbn [n_x]. rewrite neg_one. discriminate.
  - destruct (gauss_rows srf c) as [rs| | |] eqn:Er; cbn [obind]; try discriminate.
    destruct (get_median _) as [med| | |]; cbn [obind]; try discriminate.
    destruct (ext_qr _ _ _) as [sx sy]. intros H _. injection H as <-. cbn [n_hits].
    split; [eapply gauss_rows_len; exact Er|exact Hge].
Qed.

Lemma fit_nhits ext m fit c e : fit_of ext m = Some fit -> fit c = Ok e ->
  fge (n_x e) (f_of_Z 0) && fge (n_y e) (f_of_Z 0) = true -> n_hits e = zlen c.
Proof.
  destruct m; cbn; intros H; try discriminate; injection H as <-; intros E K.
  - eapply centroid_nhits. exact E.
  - eapply gauss_nhits; eassumption.
Qed.

Definition total_len (cs : list (list hit)) : Z := fold_right (fun c s => zlen c + s) 0 cs.

Lemma total_len_members ls : forall data k, length ls = length data -> Forall (fun l => (l < k)%nat) ls ->
  total_len (clusters_of k ls data) = zlen data.
Proof.
  intros data k Len F. unfold clusters_of.
  assert (X : forall ks, NoDup ks -> (forall l, In l ls -> In l ks) ->
    total_len (map (fun l => members l ls data) ks) = zlen data).
  { intros ks ND Sub. revert data Len. induction ls as [|l0 ls IH]; intros [|h data] Len; try discriminate.
    - clear. unfold total_len. induction ks as [|a ks IHk]; cbn; [reflexivity|]. exact IHk.
    - rewrite zlen_cons.
      assert (Y : forall ks', NoDup ks' -> 
        total_len (map (fun l => members l (l0 :: ls) (h :: data)) ks') =
        (if existsb (Nat.eqb l0) ks' then 1 else 0) +
        total_len (map (fun l => members l ls data) ks')).
      { clear. induction ks' as [|a ks' IHk]; intros ND; [reflexivity|].
        inversion ND as [|? ? Na Nk]; subst. cbn [map total_len fold_right existsb].
        fold (total_len (map (fun l => members l (l0 :: ls) (h :: data)) ks')).
        fold (total_len (map (fun l => members l ls data) ks')). rewrite (IHk Nk).
        unfold members at 1. cbn [combine filter fst].
        destruct (Nat.eqb_spec l0 a) as [->|Ne]; cbn [orb].
        - cbn [map]. rewrite zlen_cons. fold (members a ls data).
          assert (Ex : existsb (Nat.eqb a) ks' = false).
          { apply not_true_is_false. intros Ht. apply existsb_exists in Ht.
            destruct Ht as (x & Ix & Ex). apply Nat.eqb_eq in Ex. subst. contradiction. }
          rewrite Ex. lia.
        - fold (members a ls data). lia. }
      rewrite (Y ks ND). inversion F; subst.
      assert (Ex : existsb (Nat.eqb l0) ks = true).
      { apply existsb_exists. exists l0. split; [apply Sub; left; reflexivity|apply Nat.eqb_refl]. }
      rewrite Ex. f_equal. apply IH; [assumption| |cbn in Len; lia].
      intros l I. apply Sub. right. exact I. }
  apply X; [apply seq_NoDup|]. intros l I. apply in_seq. rewrite Forall_forall in F.
  specialize (F _ I). lia.
Qed.

Lemma events_total ext m fit min cs evs : fit_of ext m = Some fit -> events fit min cs evs ->
  total_hits evs <= total_len cs /\ Forall (fun e => min <= n_hits e) evs /\
  (length evs <= length cs)%nat /\
  ((forall c e, In c cs -> fit c = Ok e ->
      fge (n_x e) (f_of_Z 0) && fge (n_y e) (f_of_Z 0) = true) ->
   Forall (fun c => min <= zlen c) cs -> total_hits evs = total_len cs).
Proof.
  intros Hf H. induction H as [|c cs evs A H IH|c cs e evs A B D H IH|c cs e evs A B D H IH].
  - cbn. repeat split; try lia. constructor.
  - destruct IH as (I1 & I2 & I3 & I4). cbn [total_len fold_right]. fold (total_len cs).
    pose proof (zlen_nonneg c). split; [lia|]. split; [exact I2|]. split; [cbn; lia|].
    intros _ F. inversion F; subst. lia.
  - destruct IH as (I1 & I2 & I3 & I4). cbn [total_len fold_right total_hits].
    fold (total_len cs). fold (total_hits evs). pose proof (fit_nhits _ _ _ _ _ Hf B D) as En.
    split; [lia|]. split; [constructor; [lia|exact I2]|]. split; [cbn; lia|].
    intros V F. inversion F; subst. rewrite I4; [lia| |assumption].
    intros c' e' I. apply V. right. exact I.
  - destruct IH as (I1 & I2 & I3 & I4). cbn [total_len fold_right]. fold (total_len cs).
    pose proof (zlen_nonneg c). split; [lia|]. split; [exact I2|]. split; [cbn; lia|].
    intros V _. specialize (V c e (or_introl eq_refl) B). congruence.
Qed.

Lemma C24_counts_l n ext cfg o data o' m evs : (0 < n)%nat -> Forall hit_ok data ->
  abs_fit n cfg o data = Ok o' ->
  abs_get_events ext cfg (abs_set_method o' m) data = Ok evs ->
  total_hits evs <= zlen data /\ Forall (fun e => a_min cfg <= n_hits e) evs.
Proof.
  intros Hn Hd E G. destruct (fit_of ext m) as [fit|] eqn:Hf.
  - destruct (C24_l n ext cfg o data o' m fit Hn Hd E Hf) as (ls & k & El & Len & Hk & Ev).
    apply Ev in G. destruct (events_total _ _ _ _ _ _ Hf G) as (A & B & _).
    rewrite total_len_members in A; [auto|exact Len|].
    apply Forall_forall. intros l I. apply Hk. exact I.
  - unfold abs_get_events in G. cbn [abs_set_method o_labels o_method] in G. rewrite Hf in G.
    destruct (negb _); [discriminate|]. destruct (o_labels o'); [|discriminate].
    injection G as <-. cbn. split; [apply zlen_nonneg|constructor].
Qed.

Lemma members_nonempty l ls : forall data, length ls = length data -> In l ls -> 1 <= zlen (members l ls data).
Proof.
  induction ls as [|a ls IH]; intros [|h data] Len I; try discriminate; [destruct I|].
  unfold members. cbn [combine filter fst]. destruct (Nat.eqb_spec a l) as [->|Ne].
  - cbn [map]. rewrite zlen_cons. match goal with |- context [zlen ?x] => pose proof (zlen_nonneg x) end. lia.
  - fold (members l ls data). apply IH; [cbn in Len; lia|]. destruct I; [congruence|assumption].
Qed.

Lemma C24_all_l n ext cfg o data o' m evs fit : (0 < n)%nat -> Forall hit_ok data ->
  abs_fit n cfg o data = Ok o' -> fit_of ext m = Some fit -> a_min cfg <= 1 ->
  (forall c e, c <> [] -> incl c data -> zlen c <= zlen data -> fit c = Ok e ->
     fge (n_x e) (f_of_Z 0) && fge (n_y e) (f_of_Z 0) = true) ->
  abs_get_events ext cfg (abs_set_method o' m) data = Ok evs ->
  total_hits evs = zlen data.
Proof.
  intros Hn Hd E Hf Hm Hv G.
  destruct (C24_l n ext cfg o data o' m fit Hn Hd E Hf) as (ls & k & El & Len & Hk & Ev).
  apply Ev in G. destruct (events_total _ _ _ _ _ _ Hf G) as (_ & _ & _ & A).
  assert (NE : forall c, In c (clusters_of k ls data) -> 1 <= zlen c /\ incl c data /\ zlen c <= zlen data).
  { intros c I. unfold clusters_of in I. apply in_map_iff in I.
    destruct I as (l & <- & I). apply in_seq in I.
    split; [apply members_nonempty; [exact Len|apply Hk; lia]|]. split.
    - intros a Ia. unfold members in Ia. apply in_map_iff in Ia. destruct Ia as ((x & y) & <- & Ia).
      apply filter_In in Ia. destruct Ia as [Ia _]. apply in_combine_r in Ia. exact Ia.
    - unfold zlen, members. rewrite map_length.
      assert (F : forall (p : nat * hit -> bool) q, (length (filter p q) <= length q)%nat).
      { intros p q. induction q as [|x q IH]; cbn; [lia|]. destruct (p x); cbn; lia. }
      pose proof (F (fun p => Nat.eqb (fst p) l) (combine ls data)) as B.
      rewrite combine_length in B. lia. }
  rewrite A.
  - apply total_len_members; [exact Len|]. apply Forall_forall. intros l I. apply Hk. exact I.
  - intros c e I. destruct (NE c I) as (B1 & B2 & B3).
    apply Hv; [intros ->; rewrite zlen_nil in B1; lia|exact B2|exact B3].
  - apply Forall_forall. intros c I. destruct (NE c I) as [B _]. lia.
Qed.
