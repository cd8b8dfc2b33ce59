(** Lemmas about the ring of clusters: the program does what is specified. *)
From Coq Require Import Lia Reals Lra Permutation.
From Flocq Require Import Core.
From Verif Require Export P_DisplayRing.
From Coq Require Import ZifyBool Zify.
Ltac Zify.zify_post_hook ::= Z.to_euclidean_division_equations.
Global Open Scope Z_scope.

(** * Sums *)

Lemma zsum_app f a b : zsum f (a ++ b) = zsum f a + zsum f b.
Proof. induction a as [|x a IH]; [reflexivity|]. unfold zsum in *. cbn. rewrite IH. lia. Qed.
Lemma zsum_one f h : zsum f [h] = f h.
Proof. unfold zsum. cbn. lia. Qed.
Lemma zsum_nonneg f c : Forall (fun h => 0 <= f h) c -> 0 <= zsum f c.
Proof. induction 1 as [|h c H Hc IH]; unfold zsum in *; cbn; lia. Qed.
Lemma zsum_le f g c : Forall (fun h => f h <= g h) c -> zsum f c <= zsum g c.
Proof. induction 1 as [|h c H Hc IH]; unfold zsum in *; cbn; lia. Qed.
Lemma zsum_scale k f c : zsum (fun h => k * f h) c = k * zsum f c.
Proof. induction c as [|h c IH]; unfold zsum in *; cbn; lia. Qed.

Lemma sums_nonneg c : Forall raw_ok c -> 0 <= sum_tot c /\ 0 <= sum_x c /\ 0 <= sum_y c.
Proof.
  intros H. unfold sum_tot, sum_x, sum_y. repeat split; apply zsum_nonneg; eapply Forall_impl; try exact H;
    unfold raw_ok; cbn; intros h Hh; nia.
Qed.
Lemma sums_bound c : Forall raw_ok c -> sum_x c <= 511 * sum_tot c /\ sum_y c <= 511 * sum_tot c.
Proof.
  intros H. unfold sum_tot, sum_x, sum_y. rewrite <- zsum_scale. split; apply zsum_le; eapply Forall_impl; try exact H;
    unfold raw_ok; cbn; intros h Hh; nia.
Qed.
Lemma small_prefix c d : Forall raw_ok d -> small (c ++ d) -> small c.
Proof.
  intros Hd. destruct (sums_nonneg d Hd) as (H1 & H2 & H3). unfold small, sum_tot, sum_x, sum_y in *.
  rewrite !zsum_app, zlen_app. pose proof (zlen_nonneg d). lia.
Qed.
Lemma small_dec c : {small c} + {~ small c}.
Proof.
  unfold small. destruct (Z_lt_dec (zlen c) (2 ^ 31)); [|right; tauto]. destruct (Z_lt_dec (sum_tot c) (2 ^ 31)); [|right; tauto].
  destruct (Z_lt_dec (sum_x c) (2 ^ 31)); [|right; tauto]. destruct (Z_lt_dec (sum_y c) (2 ^ 31)); [left; tauto|right; tauto].
Qed.

(** * Slots *)

Definition extreme (f : raw -> Z) (le : Z -> Z -> Prop) (c : rcluster) (v : Z) : Prop :=
  Forall (fun h => le v (f h)) c /\ Exists (fun h => f h = v) c.

(** The slot [k] holds the cluster [c]. *)
Record holds (c : rcluster) (k : clus) : Prop := Holds
  { hd_use : k_use k = true;
    hd_first : exists g r, c = g :: r /\ k_first k = w_spdr g;
    hd_minx : extreme w_x Z.le c (k_minx k); hd_maxx : extreme w_x Z.ge c (k_maxx k);
    hd_miny : extreme w_y Z.le c (k_miny k); hd_maxy : extreme w_y Z.ge c (k_maxy k);
    hd_tot : k_tot k = sum_tot c; hd_rx : k_rx k = sum_x c; hd_ry : k_ry k = sum_y c;
    hd_n : k_n k = zlen c }.

Lemma extreme_le_max f c v a : extreme f Z.ge c v -> (Exists (fun g => a <= f g + 5) c <-> a <= v + 5).
Proof.
  intros [H1 H2]. rewrite Forall_forall in H1. apply Exists_exists in H2. destruct H2 as (g & Hg & <-).
  rewrite Exists_exists. split.
  - intros (k & Hk & L). specialize (H1 k Hk). cbn in H1. lia.
  - intros L. exists g. split; [exact Hg|exact L].
Qed.
Lemma extreme_ge_min f c v a : extreme f Z.le c v -> (Exists (fun g => f g - 5 <= a) c <-> v - 5 <= a).
Proof.
  intros [H1 H2]. rewrite Forall_forall in H1. apply Exists_exists in H2. destruct H2 as (g & Hg & <-).
  rewrite Exists_exists. split.
  - intros (k & Hk & L). specialize (H1 k Hk). cbn in H1. lia.
  - intros L. exists g. split; [exact Hg|exact L].
Qed.

Lemma fits_accepts c k h : holds c k -> (clus_fits k h = true <-> accepts c h).
Proof.
  intros [U (g & r & E & F) X1 X2 Y1 Y2 _ _ _ _]. unfold accepts.
  rewrite (extreme_le_max _ _ _ _ X2), (extreme_ge_min _ _ _ _ X1), (extreme_le_max _ _ _ _ Y2), (extreme_ge_min _ _ _ _ Y1).
  unfold clus_fits. rewrite U, F.
  assert (T : (exists g0 r0, c = g0 :: r0 /\ Z.abs (w_spdr g0 - w_spdr h) < 3) <-> Z.abs (w_spdr g - w_spdr h) < 3).
  { split; [intros (g0 & r0 & E0 & L); rewrite E in E0; injection E0 as <- <-; exact L|]. intros L. exists g, r. auto. }
  rewrite T. clear. lia.
Qed.

Lemma extreme_min_step f c v h : extreme f Z.le c v ->
  extreme f Z.le (c ++ [h]) (if f h <? v then f h else v).
Proof.
  intros [H1 H2]. split.
  - apply Forall_app. split.
    + eapply Forall_impl; [|exact H1]. cbn. intros g L. destruct (Z.ltb_spec (f h) v); lia.
    + constructor; [|constructor]. destruct (Z.ltb_spec (f h) v); lia.
  - apply Exists_app. destruct (Z.ltb_spec (f h) v); [right; constructor; reflexivity|left; exact H2].
Qed.
Lemma extreme_max_step f c v u h : extreme f Z.ge c v -> extreme f Z.le c u ->
  extreme f Z.ge (c ++ [h]) (if f h <? u then v else if f h >? v then f h else v).
Proof.
  intros [H1 H2] [H3 H4].
  assert (L : u <= v).
  { apply Exists_exists in H4. destruct H4 as (g & Hg & <-). rewrite Forall_forall in H1. specialize (H1 g Hg). cbn in H1. lia. }
  destruct (Z.ltb_spec (f h) u) as [C|C].
  - split; [apply Forall_app; split; [exact H1|constructor; [lia|constructor]]|apply Exists_app; left; exact H2].
  - destruct (Z.gtb_spec (f h) v) as [D|D].
    + split; [|apply Exists_app; right; constructor; reflexivity]. apply Forall_app. split.
      * eapply Forall_impl; [|exact H1]. cbn. intros g Hg. lia.
      * constructor; [lia|constructor].
    + split; [apply Forall_app; split; [exact H1|constructor; [lia|constructor]]|apply Exists_app; left; exact H2].
Qed.

Lemma int_ck_nonneg z : 0 <= z -> int_ck z = if z <? 2 ^ 31 then Ok z else UB SignedOverflow.
Proof. intros H. unfold int_ck. replace (- 2 ^ 31 <=? z) with true by lia. reflexivity. Qed.

Lemma grow_spec c k h : holds c k -> Forall raw_ok c -> raw_ok h ->
  (small (c ++ [h]) /\ exists k', clus_grow k h = Ok k' /\ holds (c ++ [h]) k') \/
  (~ small (c ++ [h]) /\ clus_grow k h = UB SignedOverflow).
Proof.
  intros [U (g & r & E & F) X1 X2 Y1 Y2 Kt Kx Ky Kn] Hc Hh.
  assert (Hs : Forall raw_ok (c ++ [h])) by (apply Forall_app; split; [exact Hc|constructor; [exact Hh|constructor]]).
  destruct (sums_nonneg _ Hs) as (N1 & N2 & N3). pose proof (zlen_nonneg (c ++ [h])) as N0.
  unfold clus_grow. rewrite Kt, Kx, Ky, Kn.
  replace (sum_x c + w_tot h * w_x h) with (sum_x (c ++ [h])) by (unfold sum_x; rewrite zsum_app, zsum_one; reflexivity).
  replace (sum_y c + w_tot h * w_y h) with (sum_y (c ++ [h])) by (unfold sum_y; rewrite zsum_app, zsum_one; reflexivity).
  replace (sum_tot c + w_tot h) with (sum_tot (c ++ [h])) by (unfold sum_tot; rewrite zsum_app, zsum_one; reflexivity).
  replace (zlen c + 1) with (zlen (c ++ [h])) by (rewrite zlen_app; reflexivity).
  rewrite !int_ck_nonneg by assumption. unfold small.
  destruct (Z.ltb_spec (zlen (c ++ [h])) (2 ^ 31)); cbn [obind]; [|right; split; [lia|reflexivity]].
  destruct (Z.ltb_spec (sum_x (c ++ [h])) (2 ^ 31)); cbn [obind]; [|right; split; [lia|reflexivity]].
  destruct (Z.ltb_spec (sum_y (c ++ [h])) (2 ^ 31)); cbn [obind]; [|right; split; [lia|reflexivity]].
  destruct (Z.ltb_spec (sum_tot (c ++ [h])) (2 ^ 31)); cbn [obind]; [|right; split; [lia|reflexivity]].
  left. split; [auto|]. eexists. split; [reflexivity|].
  constructor; cbn [k_use k_first k_minx k_maxx k_miny k_maxy k_tot k_rx k_ry k_n]; try reflexivity; try assumption.
  - exists g, (r ++ [h]). rewrite E. auto.
  - apply extreme_min_step. exact X1.
  - apply extreme_max_step; assumption.
  - apply extreme_min_step. exact Y1.
  - apply extreme_max_step; assumption.
Qed.

Lemma small_one h : raw_ok h -> small [h].
Proof.
  unfold raw_ok, small, sum_tot, sum_x, sum_y. rewrite !zsum_one. unfold zlen. cbn [length]. intros H. repeat split; nia.
Qed.
Lemma new_spec h : raw_ok h -> exists k, clus_new h = Ok k /\ holds [h] k.
Proof.
  intros H. pose proof H as (H1 & H2 & H3 & _). unfold clus_new. rewrite !int_ck_nonneg by nia.
  replace (w_x h * w_tot h <? 2 ^ 31) with true by nia. replace (w_y h * w_tot h <? 2 ^ 31) with true by nia. cbn [obind].
  eexists. split; [reflexivity|].
  constructor; cbn [k_use k_first k_minx k_maxx k_miny k_maxy k_tot k_rx k_ry k_n]; try reflexivity.
  - exists h, []. auto.
  - split; constructor; try constructor; lia.
  - split; constructor; try constructor; lia.
  - split; constructor; try constructor; lia.
  - split; constructor; try constructor; lia.
  - unfold sum_tot. rewrite zsum_one. reflexivity.
  - unfold sum_x. rewrite zsum_one. lia.
  - unfold sum_y. rewrite zsum_one. lia.
Qed.

(** * The pixel *)

Lemma pixel_falls rot c k : holds c k ->
  (exists px, clus_pixel rot k = Ok px /\ falls_on rot c px) \/
  (clus_pixel rot k = UB BadConversion /\ forall px, ~ falls_on rot c px).
Proof.
  intros [U _ _ _ _ _ Kt Kx Ky Kn]. unfold clus_pixel, falls_on, rotated, mean8. rewrite Kt, Kx, Ky. cbn [fst snd].
  destruct (f_to_i32 (fsub _ _)) as [ix|].
  - destruct (f_to_i32 (fadd _ _)) as [iy|].
    + left. eexists. split; [reflexivity|]. exists ix, iy. split; [reflexivity|]. split; [reflexivity|].
      destruct (_ && _) eqn:E; [left|right]; (split; [lia|]); try (split; [lia|]); reflexivity.
    + right. split; [reflexivity|]. intros px (ix' & iy' & _ & H & _). discriminate H.
  - right. split; [reflexivity|]. intros px (ix' & iy' & H & _). discriminate H.
Qed.

Lemma falls_unique rot c px px' : falls_on rot c px -> falls_on rot c px' -> px = px'.
Proof.
  intros (ix & iy & E1 & E2 & H) (ix' & iy' & E1' & E2' & H'). rewrite E1 in E1'. rewrite E2 in E2'.
  injection E1' as <-. injection E2' as <-.
  destruct H as [(A & B & ->)|(A & ->)], H' as [(A' & B' & ->)|(A' & ->)]; try reflexivity; tauto.
Qed.

(** * The invariant *)

Definition slot_of (closed : list rcluster) (i : nat) : nat := Nat.modulo (length closed + i) 128.

Record ring_inv (rot : rotation) (closed op : list rcluster) (w : wk) : Prop := RI
  { ri_len : length (wk_slots w) = 128%nat;
    ri_c : wk_c w = slot_of closed 0; ri_p : wk_p w = slot_of closed (length op);
    ri_op : (length op <= 127)%nat;
    ri_in : forall i c, nth_error op i = Some c ->
      exists k, nth_error (wk_slots w) (slot_of closed i) = Some k /\ holds c k;
    ri_out : forall s, (s < 128)%nat -> (forall i, (i < length op)%nat -> s <> slot_of closed i) ->
      exists k, nth_error (wk_slots w) s = Some k /\ k_use k = false;
    ri_total : wk_total w = zlen closed; ri_acc : wk_acc w = zlen (filter big closed);
    ri_img : exists pxs, Forall2 (falls_on rot) (filter big closed) pxs /\ wk_img w = concat pxs }.

Lemma slot_lt closed i : (slot_of closed i < 128)%nat.
Proof. apply Nat.mod_upper_bound. discriminate. Qed.

Lemma find_slot_none slots h : forall i, (forall k, In k slots -> clus_fits k h = false) -> find_slot slots h i = None.
Proof.
  induction slots as [|k slots IH]; intros i H; [reflexivity|]. cbn. rewrite (H k (or_introl eq_refl)).
  apply IH. intros k' Hk. apply H. right. exact Hk.
Qed.
Lemma find_slot_some slots h : forall i j k, nth_error slots j = Some k -> clus_fits k h = true ->
  (forall j' k', (j' < j)%nat -> nth_error slots j' = Some k' -> clus_fits k' h = false) ->
  find_slot slots h i = Some (i + j)%nat.
Proof.
  induction slots as [|k0 slots IH]; intros i j k Hj Hk Hm; [destruct j; discriminate Hj|].
  destruct j as [|j].
  - injection Hj as ->. cbn. rewrite Hk. f_equal. lia.
  - cbn. rewrite (Hm 0%nat k0) by (reflexivity || lia). cbn in Hj.
    rewrite (IH (S i) j k Hj Hk); [f_equal; lia|]. intros j' k' Hlt Hj'. apply (Hm (S j') k'); [lia|exact Hj'].
Qed.

(** Every slot is free or holds an open cluster. *)
Lemma slot_cases rot closed op w s : ring_inv rot closed op w -> (s < 128)%nat ->
  exists k, nth_error (wk_slots w) s = Some k /\
    (k_use k = false \/ exists i c, nth_error op i = Some c /\ s = slot_of closed i /\ holds c k).
Proof.
  intros R Hs. set (i := Nat.modulo (s + 128 - Nat.modulo (length closed) 128) 128).
  assert (Es : slot_of closed i = s) by (unfold slot_of, i; lia).
  destruct (nth_error op i) as [c|] eqn:Hi.
  - destruct (ri_in _ _ _ _ R i c Hi) as (k & Hk & HH). exists k. rewrite Es in Hk. split; [exact Hk|].
    right. exists i, c. auto.
  - destruct (ri_out _ _ _ _ R s Hs) as (k & Hk & HU).
    + intros j Hj E. assert (j = i).
      { unfold slot_of in *. pose proof (ri_op _ _ _ _ R). assert (i < 128)%nat by (apply Nat.mod_upper_bound; discriminate).
        apply (mod_inj (length closed)); [lia|assumption|congruence]. }
      subst j. apply nth_error_Some in Hj. contradiction.
    + exists k. auto.
Qed.

Lemma free_not_fit k h : k_use k = false -> clus_fits k h = false.
Proof. intros H. unfold clus_fits. rewrite H. reflexivity. Qed.

(** * One hit *)

Definition bad_cluster (rot : rotation) (c : rcluster) : Prop := big c = true /\ forall px, ~ falls_on rot c px.

Lemma no_slot rot closed op w h : ring_inv rot closed op w -> Forall (fun c => ~ accepts c h) op ->
  find_slot (wk_slots w) h 0 = None.
Proof.
  intros R N. apply find_slot_none. intros k Hk. apply In_nth_error in Hk. destruct Hk as (s & Hs).
  assert (Hlt : (s < 128)%nat) by (rewrite <- (ri_len _ _ _ _ R); apply nth_error_Some; congruence).
  destruct (slot_cases _ _ _ _ s R Hlt) as (k' & Hk' & C). rewrite Hs in Hk'. injection Hk' as <-.
  destruct C as [C|(i & c & Hi & _ & HH)]; [apply free_not_fit; exact C|].
  destruct (clus_fits k h) eqn:F; [|reflexivity]. exfalso. apply (fits_accepts _ _ _ HH) in F.
  rewrite Forall_forall in N. apply (N c); [eapply nth_error_In; exact Hi|exact F].
Qed.

Lemma slot_inj closed (op : list rcluster) i j : (length op <= 127)%nat -> (i <= length op)%nat -> (j <= length op)%nat ->
  slot_of closed i = slot_of closed j -> i = j.
Proof. intros H Hi Hj. unfold slot_of. apply mod_inj; lia. Qed.

Lemma join_step rot closed op1 c op2 h w : ring_inv rot closed (op1 ++ c :: op2) w ->
  Forall raw_ok c -> raw_ok h -> accepts c h ->
  (forall i c', nth_error (op1 ++ c :: op2) i = Some c' -> accepts c' h ->
     (slot_of closed (length op1) <= slot_of closed i)%nat) ->
  (small (c ++ [h]) /\ exists w', wk_hit rot w h = Ok w' /\ ring_inv rot closed (op1 ++ (c ++ [h]) :: op2) w') \/
  (~ small (c ++ [h]) /\ wk_hit rot w h = UB SignedOverflow).
Proof.
  intros R Hc Hh A M. set (op := op1 ++ c :: op2) in *.
  assert (Hi : nth_error op (length op1) = Some c) by apply nth_app_mid.
  destruct (ri_in _ _ _ _ R _ _ Hi) as (k & Hk & HH).
  assert (F : find_slot (wk_slots w) h 0 = Some (slot_of closed (length op1))).
  { apply (find_slot_some _ _ 0 _ k Hk).
    - apply (fits_accepts _ _ _ HH). exact A.
    - intros s k' Hlt Hs.
      assert (H128 : (s < 128)%nat) by (pose proof (slot_lt closed (length op1)); lia).
      destruct (slot_cases _ _ _ _ s R H128) as (k2 & Hk2 & C). rewrite Hs in Hk2. injection Hk2 as <-.
      destruct C as [C|(i & c' & Hi' & Es & HH')]; [apply free_not_fit; exact C|].
      destruct (clus_fits k' h) eqn:Fk; [|reflexivity]. exfalso. apply (fits_accepts _ _ _ HH') in Fk.
      specialize (M i c' Hi' Fk). lia. }
  unfold wk_hit. rewrite F, Hk.
  destruct (grow_spec c k h HH Hc Hh) as [[Hs (k' & Eg & HH')]|[Hs Eg]]; rewrite Eg; cbn [obind]; [left|right; auto].
  split; [exact Hs|].
  destruct (set_nth_some (wk_slots w) (slot_of closed (length op1)) k') as (sl & Esl).
  { rewrite (ri_len _ _ _ _ R). apply slot_lt. }
  rewrite Esl. eexists. split; [reflexivity|].
  assert (Hlen : length (op1 ++ (c ++ [h]) :: op2) = length op) by (unfold op; rewrite !app_length; reflexivity).
  pose proof (set_nth_nth _ _ _ _ Esl) as Nth.
  destruct R as [R1 R2 R3 R4 R5 R6 R7 R8 R9].
  constructor; cbn [wk_slots wk_p wk_c wk_total wk_acc wk_img]; try assumption.
  - rewrite (set_nth_length _ _ _ _ Esl). exact R1.
  - rewrite Hlen. exact R3.
  - rewrite Hlen. exact R4.
  - intros i c' Hi'. rewrite Nth.
    assert (Li : (i < length op)%nat) by (rewrite <- Hlen; apply nth_error_Some; congruence).
    destruct (Nat.eqb_spec (slot_of closed i) (slot_of closed (length op1))) as [E|E].
    + assert (L1 : (length op1 < length op)%nat) by (unfold op; rewrite app_length; cbn; lia).
      apply (slot_inj closed op) in E; [|exact R4|lia|lia]. subst i. rewrite nth_app_mid in Hi'. injection Hi' as <-.
      exists k'. auto.
    + apply R5. unfold op. destruct (Nat.lt_ge_cases i (length op1)) as [C|C].
      * rewrite nth_error_app1 in * by exact C. exact Hi'.
      * rewrite nth_error_app2 in * by exact C. destruct (i - length op1)%nat as [|d] eqn:D; [|exact Hi'].
        exfalso. apply E. f_equal. lia.
  - rewrite Hlen. intros s Hs128 Hfree. rewrite Nth.
    destruct (Nat.eqb_spec s (slot_of closed (length op1))) as [E|E]; [|apply R6; assumption].
    exfalso. apply (Hfree (length op1)); [unfold op; rewrite app_length; cbn; lia|exact E].
Qed.

(** A new cluster in the first free slot. *)
Lemma put_step rot closed op h w k : ring_inv rot closed op w -> (length op < 127)%nat -> raw_ok h -> holds [h] k ->
  exists sl, set_nth (wk_slots w) (wk_p w) k = Some sl /\
    ring_inv rot closed (op ++ [[h]])
      (Wk sl (Nat.modulo (wk_p w + 1) num_clusters) (wk_c w) (wk_total w) (wk_acc w) (wk_img w)).
Proof.
  intros R L Hh HH.
  destruct (set_nth_some (wk_slots w) (wk_p w) k) as (sl & Esl).
  { rewrite (ri_len _ _ _ _ R), (ri_p _ _ _ _ R). apply slot_lt. }
  exists sl. split; [exact Esl|]. pose proof (set_nth_nth _ _ _ _ Esl) as Nth.
  assert (Hlen : length (op ++ [[h]]) = S (length op)) by (rewrite app_length; cbn; lia).
  destruct R as [R1 R2 R3 R4 R5 R6 R7 R8 R9]. rewrite R3 in Nth.
  constructor; cbn [wk_slots wk_p wk_c wk_total wk_acc wk_img]; try assumption.
  - rewrite (set_nth_length _ _ _ _ Esl). exact R1.
  - rewrite Hlen, R3. unfold slot_of, num_clusters. lia.
  - lia.
  - intros i c' Hi'. rewrite Nth.
    assert (Li : (i < S (length op))%nat) by (rewrite <- Hlen; apply nth_error_Some; congruence).
    destruct (Nat.eqb_spec (slot_of closed i) (slot_of closed (length op))) as [E|E].
    + assert (i = length op) by (unfold slot_of in E; apply (mod_inj (length closed)); [lia|lia|exact E]). subst i.
      rewrite nth_app_mid in Hi'. injection Hi' as <-. exists k. auto.
    + apply R5. rewrite nth_error_app1 in Hi'; [exact Hi'|].
      destruct (Nat.eq_dec i (length op)) as [->|]; [contradiction E; reflexivity|lia].
  - rewrite Hlen. intros s Hs Hf. rewrite Nth.
    destruct (Nat.eqb_spec s (slot_of closed (length op))) as [E|E].
    + exfalso. apply (Hf (length op)); [lia|exact E].
    + apply R6; [exact Hs|]. intros i Hi. apply Hf. lia.
Qed.

(** The oldest cluster is closed. *)
Lemma pop_step rot closed c op w : ring_inv rot closed (c :: op) w ->
  (~ bad_cluster rot c /\ exists w', wk_pop rot w = Ok w' /\ ring_inv rot (closed ++ [c]) op w' /\ wk_p w' = wk_p w) \/
  (bad_cluster rot c /\ wk_pop rot w = UB BadConversion).
Proof.
  intros R. destruct (ri_in _ _ _ _ R 0%nat c eq_refl) as (k & Hk & HH).
  rewrite <- (ri_c _ _ _ _ R) in Hk. unfold wk_pop. rewrite Hk.
  assert (Eb : (k_n k >? 10) = big c) by (rewrite (hd_n _ _ HH); unfold big; lia). rewrite Eb.
  set (kf := Clus false (k_first k) (k_minx k) (k_maxx k) (k_miny k) (k_maxy k) (k_tot k) (k_rx k) (k_ry k) (k_n k)).
  destruct (set_nth_some (wk_slots w) (wk_c w) kf) as (sl & Esl).
  { rewrite (ri_len _ _ _ _ R), (ri_c _ _ _ _ R). apply slot_lt. }
  rewrite Esl. pose proof (set_nth_nth _ _ _ _ Esl) as Nth.
  destruct R as [R1 R2 R3 R4 R5 R6 R7 R8 R9]. rewrite R2 in Nth. cbn [length] in *.
  assert (Sh : forall i, slot_of (closed ++ [c]) i = slot_of closed (S i)).
  { intros i. unfold slot_of. rewrite app_length. cbn [length]. f_equal. lia. }
  assert (X : (exists px, (if big c then clus_pixel rot k else Ok []) = Ok px /\
                 exists pxs, Forall2 (falls_on rot) (filter big [c]) pxs /\ px = concat pxs) /\ ~ bad_cluster rot c \/
              (bad_cluster rot c /\ (if big c then clus_pixel rot k else Ok []) = UB BadConversion)).
  { unfold bad_cluster. cbn [filter]. destruct (big c) eqn:B.
    - destruct (pixel_falls rot c k HH) as [(px & E & Fp)|[E Fp]].
      + left. split; [|intros [_ N]; exact (N px Fp)]. exists px. split; [exact E|]. exists [px].
        split; [constructor; [exact Fp|constructor]|]. cbn. rewrite List.app_nil_r. reflexivity.
      + right. auto.
    - left. split; [|intros [N _]; discriminate N]. exists []. split; [reflexivity|]. exists [].
      split; [constructor|reflexivity]. }
  destruct X as [[(px & Epx & pxs & F2 & Cx) NB]|[B Epx]]; rewrite Epx; cbn [obind]; [left|right; auto].
  split; [exact NB|]. eexists. split; [reflexivity|]. split; [|reflexivity].
  constructor; cbn [wk_slots wk_p wk_c wk_total wk_acc wk_img].
  - rewrite (set_nth_length _ _ _ _ Esl). exact R1.
  - rewrite Sh, R2. unfold slot_of, num_clusters. lia.
  - rewrite Sh. exact R3.
  - lia.
  - intros i c' Hi. rewrite Sh, Nth.
    assert (Li : (i < length op)%nat) by (apply nth_error_Some; congruence).
    destruct (Nat.eqb_spec (slot_of closed (S i)) (slot_of closed 0)) as [E|E].
    + exfalso. unfold slot_of in E. apply (mod_inj (length closed)) in E; lia.
    + apply R5. exact Hi.
  - intros s Hs Hf. rewrite Nth. destruct (Nat.eqb_spec s (slot_of closed 0)) as [E|E].
    + exists kf. split; reflexivity.
    + apply R6; [exact Hs|]. intros [|i] Hi; [exact E|]. rewrite <- Sh. apply Hf. lia.
  - rewrite R7, zlen_app. reflexivity.
  - rewrite R8, filter_app, zlen_app. cbn [filter]. destruct (big c); reflexivity.
  - destruct R9 as (pxs0 & F0 & C0). exists (pxs0 ++ pxs). rewrite filter_app. split; [apply Forall2_app; assumption|].
    rewrite C0, Cx, concat_app. reflexivity.
Qed.

Definition bad_run (rot : rotation) (s : list rcluster * list rcluster) (u : ub_kind) : Prop :=
  (u = SignedOverflow /\ Exists (fun c => ~ small c) (fst s ++ snd s)) \/
  (u = BadConversion /\ Exists (fun c => bad_cluster rot c /\ small c) (fst s)).

Lemma hit_step rot closed op h w s' : ring_inv rot closed op w -> Forall (Forall raw_ok) op -> raw_ok h ->
  Forall small op -> ring_step (closed, op) h s' ->
  (Forall small (snd s') /\ exists w', wk_hit rot w h = Ok w' /\ ring_inv rot (fst s') (snd s') w') \/
  (exists u, wk_hit rot w h = UB u /\ bad_run rot s' u).
Proof.
  intros R Hop Hh Hs H.
  inversion H as [cl op1 c op2 h0 A M E1 E2 E3|cl op0 h0 N L E1 E2 E3|cl c op0 h0 N L E1 E2 E3]; subst; cbn [fst snd].
  - assert (Hc : Forall raw_ok c).
    { apply Forall_app in Hop. destruct Hop as [_ Hop]. inversion Hop; assumption. }
    destruct (join_step rot closed op1 c op2 h w R Hc Hh A M) as [[Sm (w' & Ew & R')]|[Sm Ew]].
    + left. split; [|exists w'; auto]. apply Forall_app in Hs. destruct Hs as [S1 S2]. inversion S2; subst.
      apply Forall_app. split; [exact S1|]. constructor; assumption.
    + right. exists SignedOverflow. split; [exact Ew|]. left. split; [reflexivity|]. cbn [fst snd].
      apply Exists_app. right. apply Exists_app. right. constructor. exact Sm.
  - left. split.
    + apply Forall_app. split; [exact Hs|]. constructor; [apply small_one; exact Hh|constructor].
    + unfold wk_hit. rewrite (no_slot rot closed op w h R N).
      assert (Nf : Nat.eqb (Nat.modulo (wk_p w + 1) num_clusters) (wk_c w) = false).
      { apply Nat.eqb_neq. rewrite (ri_p _ _ _ _ R), (ri_c _ _ _ _ R). unfold slot_of, num_clusters. lia. }
      rewrite Nf. cbn [obind]. destruct (new_spec h Hh) as (k & Ek & HH). rewrite Ek. cbn [obind].
      destruct (put_step rot closed op h w k R L Hh HH) as (sl & Esl & R'). rewrite Esl. eexists. split; [reflexivity|exact R'].
  - assert (Fl : Nat.eqb (Nat.modulo (wk_p w + 1) num_clusters) (wk_c w) = true).
    { apply Nat.eqb_eq. rewrite (ri_p _ _ _ _ R), (ri_c _ _ _ _ R). unfold slot_of, num_clusters. cbn [length]. lia. }
    unfold wk_hit. rewrite (no_slot rot closed (c :: op0) w h R N), Fl.
    destruct (pop_step rot closed c op0 w R) as [[NB (w1 & E1 & R1 & P1)]|[B E1]]; rewrite E1; cbn [obind].
    + left. split.
      * inversion Hs; subst. apply Forall_app. split; [assumption|]. constructor; [apply small_one; exact Hh|constructor].
      * destruct (new_spec h Hh) as (k & Ek & HH). rewrite Ek. cbn [obind].
        destruct (put_step rot (closed ++ [c]) op0 h w1 k R1) as (sl & Esl & R'); [lia|exact Hh|exact HH|].
        rewrite Esl. eexists. split; [reflexivity|exact R'].
    + right. exists BadConversion. split; [reflexivity|]. right. split; [reflexivity|]. cbn [fst].
      apply Exists_app. right. constructor. split; [exact B|]. inversion Hs; assumption.
Qed.

(** What is wrong stays wrong. *)
Lemma bad_step rot s h s' u : ring_step s h s' -> raw_ok h -> bad_run rot s u -> bad_run rot s' u.
Proof.
  intros H Hh [[-> B]|[-> B]].
  - left. split; [reflexivity|].
    inversion H as [cl op1 c op2 h0 A M E1 E2 E3|cl op0 h0 N L E1 E2 E3|cl c op0 h0 N L E1 E2 E3]; subst; cbn [fst snd] in *.
    + rewrite !Exists_app in *. destruct B as [B|[B|B]]; [auto|auto|]. right. right.
      inversion B as [x l Hx|x l Hx]; subst; [|constructor; assumption]. constructor. intros K. apply Hx.
      apply (small_prefix c [h]); [constructor; [exact Hh|constructor]|exact K].
    + rewrite !Exists_app in *. tauto.
    + rewrite !Exists_app in *. destruct B as [B|B]; [auto|]. inversion B; subst; [left; right; constructor; assumption|auto].
  - right. split; [reflexivity|].
    inversion H as [cl op1 c op2 h0 A M E1 E2 E3|cl op0 h0 N L E1 E2 E3|cl c op0 h0 N L E1 E2 E3]; subst; cbn [fst snd] in *; try assumption.
    apply Exists_app. left. exact B.
Qed.
Lemma bad_steps rot s hs s' u : ring_run s hs s' -> Forall raw_ok hs -> bad_run rot s u -> bad_run rot s' u.
Proof.
  induction 1 as [s|s h s' hs s'' S R IH]; intros Hh B; [exact B|]. inversion Hh; subst. apply IH; [assumption|].
  eapply bad_step; eassumption.
Qed.

Lemma step_raw_ok s h s' : ring_step s h s' -> raw_ok h -> Forall (Forall raw_ok) (fst s ++ snd s) ->
  Forall (Forall raw_ok) (fst s' ++ snd s').
Proof.
  intros H Hh. assert (H1 : Forall raw_ok [h]) by (constructor; [exact Hh|constructor]).
  inversion H as [cl op1 c op2 h0 A M E1 E2 E3|cl op0 h0 N L E1 E2 E3|cl c op0 h0 N L E1 E2 E3]; subst; cbn [fst snd] in *;
    rewrite !Forall_app.
  - intros (K1 & K2 & K3). inversion K3; subst. split; [assumption|]. split; [assumption|].
    constructor; [apply Forall_app; split; assumption|assumption].
  - intros (K1 & K2). split; [assumption|]. split; [assumption|]. constructor; [exact H1|constructor].
  - intros (K1 & K2). inversion K2; subst. split; [split; [assumption|constructor; [assumption|constructor]]|].
    split; [assumption|]. constructor; [exact H1|constructor].
Qed.

Lemma run_spec rot hs : forall closed op w s', ring_inv rot closed op w ->
  Forall (Forall raw_ok) (closed ++ op) -> Forall raw_ok hs -> Forall small (closed ++ op) ->
  ring_run (closed, op) hs s' ->
  (exists w', wk_run rot w hs = Ok w' /\ ring_inv rot (fst s') (snd s') w' /\ Forall small (fst s' ++ snd s')) \/
  (exists u, wk_run rot w hs = UB u /\ bad_run rot s' u).
Proof.
  induction hs as [|h hs IH]; intros closed op w s' R Ho Hh Hs H.
  - inversion H; subst. left. exists w. auto.
  - inversion H as [|s0 h0 s1 hs0 s2 S1 R1]; subst. inversion Hh as [|h0 hs0 Hh1 Hh2]; subst.
    pose proof (step_raw_ok _ _ _ S1 Hh1 Ho) as Ho1.
    assert (Hop : Forall (Forall raw_ok) op) by (apply Forall_app in Ho; apply Ho).
    assert (Hsop : Forall small op) by (apply Forall_app in Hs; apply Hs).
    cbn [wk_run]. destruct (hit_step rot closed op h w s1 R Hop Hh1 Hsop S1) as [[Sm (w' & Ew & R')]|(u & Ew & B)]; rewrite Ew; cbn [obind].
    + destruct s1 as [closed1 op1]. cbn [fst snd] in *. apply (IH closed1 op1 w' s' R' Ho1 Hh2); [|exact R1].
      apply Forall_app. split; [|exact Sm]. apply Forall_app in Hs. destruct Hs as [K1 K2].
      inversion S1; subst; try assumption. apply Forall_app. split; [exact K1|]. inversion K2; subst. constructor; [assumption|constructor].
    + right. exists u. split; [reflexivity|]. apply (bad_steps rot s1 hs); assumption.
Qed.

Lemma start_inv rot : ring_inv rot [] [] wk_start.
Proof.
  constructor; cbn [wk_start wk_slots wk_p wk_c wk_total wk_acc wk_img]; try reflexivity.
  - cbn. lia.
  - intros [|i] c H; discriminate H.
  - intros s Hs _. exists clus_zero. split; [|reflexivity]. apply nth_error_repeat. exact Hs.
  - exists []. split; [constructor|reflexivity].
Qed.
