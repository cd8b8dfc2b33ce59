(** Proofs about the JSON configuration. *)
From Coq Require Import Lia ZifyBool Reals.
From Flocq Require Import Core.
From Verif Require Export P_Config P_Bins.
Local Open Scope Z_scope.

Lemma field_some k l v : field k l = Some v <-> exists l1 l2, l = l1 ++ (k, v) :: l2 /\ ~ In k (map fst l1).
Proof.
  split.
  - induction l as [|[k' v'] l IH]; cbn [field]; [discriminate|]. destruct (String.eqb_spec k' k) as [->|N].
    + intros H. injection H as ->. exists [], l. split; [reflexivity|intros []].
    + intros H. destruct (IH H) as (l1 & l2 & -> & I). exists ((k', v') :: l1), l2. split; [reflexivity|].
      cbn. intros [E|E]; [contradiction|auto].
  - intros (l1 & l2 & -> & I). induction l1 as [|[k' v'] l1 IH]; cbn [app field].
    + rewrite String.eqb_refl. reflexivity.
    + destruct (String.eqb_spec k' k) as [->|N]; [elim I; left; reflexivity|]. apply IH. intros J. apply I. right. exact J.
Qed.
Lemma field_none k l : field k l = None <-> ~ In k (map fst l).
Proof.
  split.
  - intros H I. induction l as [|[k' v'] l IH]; [exact I|]. cbn [field] in H. destruct (String.eqb_spec k' k) as [->|N]; [discriminate H|].
    destruct I as [E|I]; [contradiction|auto].
  - induction l as [|[k' v'] l IH]; [reflexivity|]. intros I. cbn [field]. destruct (String.eqb_spec k' k) as [->|N].
    + elim I. left. reflexivity.
    + apply IH. intros J. apply I. right. exact J.
Qed.
Lemma resolve_some p : forall j x, resolve p j = Ok (Some x) <-> at_path j p x.
Proof.
  induction p as [|k p IH]; intros j x; cbn [resolve].
  - split; [intros H; apply Ok_inj in H; injection H as ->; constructor|]. intros H. inversion H; subst. reflexivity.
  - split.
    + intros H. destruct j; try discriminate H. destruct (field k l) as [v|] eqn:E; [|discriminate H].
      apply IH in H. apply field_some in E. destruct E as (l1 & l2 & -> & I). constructor; assumption.
    + intros H. inversion H as [|l1 k' v l2 p' x' I A E1 E2]; subst.
      rewrite (proj2 (field_some k _ v)); [apply IH; exact A|]. eauto.
Qed.
Lemma resolve_none p : forall j, resolve p j = Ok None <-> nowhere j p.
Proof.
  induction p as [|k p IH]; intros j; cbn [resolve].
  - split; [discriminate|]. intros H. inversion H.
  - split.
    + intros H. destruct j as [| | | | |l|l]; try (apply no_scalar; intros ?; discriminate).
      destruct (field k l) as [v|] eqn:E.
        -- apply IH in H. apply field_some in E. destruct E as (l1 & l2 & -> & I). apply no_below; assumption.
        -- apply no_key. apply field_none. exact E.
    + intros H. inversion H as [l k' p' I E|j' k' p' O A E|l1 k' v l2 p' I N E]; subst.
      * rewrite (proj2 (field_none k l) I). reflexivity.
      * destruct j; try reflexivity; [elim (A l); reflexivity|elim (O l); reflexivity].
      * rewrite (proj2 (field_some k _ v)); [apply IH; exact N|]. eauto.
Qed.
Lemma contains_some p j x : contains p j = Some x <-> at_path j p x.
Proof.
  unfold contains. rewrite <- resolve_some. destruct (resolve p j); split; congruence.
Qed.
Lemma contains_none p j : contains p j = None <-> not_given j p.
Proof.
  unfold not_given. split.
  - intros H x A. apply contains_some in A. congruence.
  - intros H. destruct (contains p j) as [x|] eqn:E; [|reflexivity]. apply contains_some in E. elim (H x E).
Qed.
Lemma taken_spec {A} p (get : json -> outcome A) (R : json -> A -> Prop) d j v :
  (forall x a, get x = Ok a <-> R x a) -> json_value p get d j = Ok v <-> taken j p R d v.
Proof.
  intros HR. unfold json_value, taken. split.
  - intros H. destruct j as [| | | | | |l]; try discriminate H. split; [eauto|].
    destruct (resolve p (JObject l)) as [[x|]| | |] eqn:E; cbn [obind] in H; try discriminate H.
    + left. exists x. split; [apply resolve_some; exact E|apply HR; exact H].
    + right. split; [apply resolve_none; exact E|]. apply Ok_inj in H. congruence.
  - intros ((l & ->) & [(x & P & Rx)|(N & ->)]).
    + rewrite (proj2 (resolve_some p _ x) P). cbn [obind]. apply HR. exact Rx.
    + rewrite (proj2 (resolve_none p _) N). reflexivity.
Qed.
Lemma get_double_spec x a : get_double x = Ok a <-> is_double x a.
Proof.
  split.
  - intros H. destruct x; try discriminate H; apply Ok_inj in H; subst a; constructor.
  - intros H. inversion H; reflexivity.
Qed.
Lemma trunc_spec lo hi f z : f_to_int lo hi f = Some z <-> truncated f z /\ lo <= z <= hi.
Proof.
  unfold f_to_int, truncated.
  assert (T : Btrunc f = Ztrunc (B2R f)).
  { pose proof (Btrunc_correct 53 1024 emax1024 f) as H. apply eq_IZR. rewrite H. 
    rewrite round_FIX_IZR. reflexivity. }
  destruct (is_finite f).
  - cbv zeta. rewrite T. destruct (_ && _) eqn:E.
    + split; [intros H; injection H as <-; split; [auto|lia]|]. intros ((_ & ->) & _). reflexivity.
    + split; [discriminate|]. intros ((_ & ->) & H). lia.
  - split; [discriminate|]. intros ((H & _) & _). discriminate H.
Qed.
Lemma get_ulong_spec x a : get_ulong x = Ok a <-> is_ulong x a.
Proof.
  split.
  - intros H. destruct x as [| |z|f| | |]; try discriminate H.
    + apply Ok_inj in H. subst a. constructor.
    + unfold get_ulong in H. destruct (f_to_u64 f) as [z|] eqn:E; [|discriminate H]. apply Ok_inj in H. subst a.
      apply trunc_spec in E. destruct E as [T R]. constructor; [exact T|lia].
  - intros H. inversion H as [z|f z T R]; subst; [reflexivity|]. unfold get_ulong, f_to_u64.
    rewrite (proj2 (trunc_spec 0 (2 ^ 64 - 1) f a)); [reflexivity|]. split; [exact T|lia].
Qed.
Lemma get_int_spec x a : get_int x = Ok a <-> is_int32 x a.
Proof.
  split.
  - intros H. destruct x as [|b|z|f| | |]; try discriminate H.
    + apply Ok_inj in H. subst a. constructor.
    + apply Ok_inj in H. subst a. unfold i32. pose proof (Z.mod_pos_bound (z + 2 ^ 31) (2 ^ 32)) as B. constructor; [lia|].
      rewrite (Z.mod_eq (z + 2 ^ 31)) by lia. replace (z + 2 ^ 31 - 2 ^ 32 * ((z + 2 ^ 31) / 2 ^ 32) - 2 ^ 31 - z)
        with (- ((z + 2 ^ 31) / 2 ^ 32) * 2 ^ 32) by ring. apply Z.mod_mul. lia.
    + unfold get_int in H. destruct (f_to_i32 f) as [z|] eqn:E; [|discriminate H]. apply Ok_inj in H. subst a.
      apply trunc_spec in E. destruct E as [T R]. change int_min with (- 2 ^ 31) in R. change int_max with (2 ^ 31 - 1) in R.
      constructor; [exact T|lia].
  - intros H. inversion H as [z n B E|f z T R|b]; subst; [|unfold get_int, f_to_i32|reflexivity].
    + unfold get_int, i32. f_equal. apply Z.mod_divide in E; [|lia]. destruct E as (q & E).
      assert (z = a + (- q) * 2 ^ 32) as -> by lia. replace (a + - q * 2 ^ 32 + 2 ^ 31) with (a + 2 ^ 31 + (- q) * 2 ^ 32) by ring.
      rewrite Z.mod_add by lia. rewrite Z.mod_small by lia. ring.
    + rewrite (proj2 (trunc_spec int_min int_max f a)); [reflexivity|]. split; [exact T|].
      change int_min with (- 2 ^ 31). change int_max with (2 ^ 31 - 1). lia.
Qed.
Lemma get_vector_spec x e : get_vector x = Ok e <-> exists l, x = JArray l /\ Forall2 is_double l e.
Proof.
  assert (L : forall l e, get_doubles l = Ok e <-> Forall2 is_double l e).
  { induction l as [|y l IH]; intros r; cbn [get_doubles].
    - split; [intros H; apply Ok_inj in H; subst r; constructor|]. intros H. inversion H. reflexivity.
    - split.
      + intros H. destruct (get_double y) as [a| | |] eqn:Ey; cbn [obind] in H; try discriminate H.
        destruct (get_doubles l) as [b| | |] eqn:El; cbn [obind] in H; try discriminate H.
        apply Ok_inj in H. subst r. constructor; [apply get_double_spec; exact Ey|apply IH; reflexivity].
      + intros H. inversion H as [|? a ? b D F]; subst. apply get_double_spec in D. apply IH in F. rewrite D, F. reflexivity. }
  split.
  - intros H. destruct x as [| | | | |l|]; try discriminate H. exists l. split; [reflexivity|]. apply L. exact H.
  - intros (l & -> & F). apply L. exact F.
Qed.
Lemma binning_spec j b : json_binning j = Ok b <-> binning_of j b.
Proof.
  unfold json_binning. split.
  - intros H. destruct (contains ["tof_imaging"; "bin_edges"]%string j) as [v|] eqn:E1.
    + destruct (get_vector v) as [e| | |] eqn:E; cbn [obind] in H; try discriminate H. apply Ok_inj in H. subst b.
      apply get_vector_spec in E. destruct E as (l & -> & F). apply contains_some in E1. exact (bo_custom j l e E1 F).
    + apply contains_none in E1. destruct (contains ["tof_imaging"; "uniform_bins"]%string j) as [u|] eqn:E2.
      * apply contains_some in E2.
        destruct (json_value ["num_bins"]%string get_int 1500 u) as [n| | |] eqn:En; cbn [obind] in H; try discriminate H.
        destruct (json_value ["end"]%string get_double default_max u) as [x| | |] eqn:Ex; cbn [obind] in H; try discriminate H.
        apply Ok_inj in H. subst b. apply (taken_spec _ _ _ _ _ _ get_int_spec) in En.
        apply (taken_spec _ _ _ _ _ _ get_double_spec) in Ex. exact (bo_uniform j u n x E1 E2 En Ex).
      * apply contains_none in E2. apply Ok_inj in H. subst b. exact (bo_default j E1 E2).
  - intros H. inversion H as [l e P F|u n x N P Tn Tx|N1 N2]; subst.
    + apply contains_some in P. rewrite P. rewrite (proj2 (get_vector_spec _ e)); [reflexivity|eauto].
    + apply contains_none in N. rewrite N. apply contains_some in P. rewrite P.
      apply (taken_spec _ _ _ _ _ _ get_int_spec) in Tn. rewrite Tn. cbn [obind].
      apply (taken_spec _ _ _ _ _ _ get_double_spec) in Tx.
      change (f_lit 167 10000) with default_max in Tx. rewrite Tx. reflexivity.
    + apply contains_none in N1. apply contains_none in N2. rewrite N1, N2. reflexivity.
Qed.
Lemma C51_l j c : json_config j = Ok c <->
  (exists b, binning_of j b /\ get_bin_edges b = Ok (g_edges c)) /\
  taken j ["abs"; "radius"]%string is_double (f_of_Z 5) (a_radius (g_abs c)) /\
  taken j ["abs"; "min_cluster_size"]%string is_ulong 1 (a_min (g_abs c)) /\
  taken j ["abs"; "spider_time_range"]%string is_ulong 75 (a_range (g_abs c)) /\
  taken j ["tof_imaging"; "super_resolution"]%string is_double (f_of_Z 1) (g_sr c).
Proof.
  rewrite <- !(taken_spec _ _ _ _ _ _ get_double_spec), <- !(taken_spec _ _ _ _ _ _ get_ulong_spec).
  unfold json_config. split.
  - intros H. destruct (json_binning j) as [b| | |] eqn:Eb; cbn [obind] in H; try discriminate H.
    destruct (json_value ["abs"; "radius"]%string get_double (f_of_Z 5) j) as [r| | |]; cbn [obind] in H; try discriminate H.
    destruct (json_value ["abs"; "min_cluster_size"]%string get_ulong 1 j) as [m| | |]; cbn [obind] in H; try discriminate H.
    destruct (json_value ["abs"; "spider_time_range"]%string get_ulong 75 j) as [t| | |]; cbn [obind] in H; try discriminate H.
    destruct (json_value ["tof_imaging"; "super_resolution"]%string get_double (f_of_Z 1) j) as [s| | |]; cbn [obind] in H; try discriminate H.
    destruct (get_bin_edges b) as [e| | |] eqn:Ee; cbn [obind] in H; try discriminate H.
    apply Ok_inj in H. subst c. cbn [g_edges g_abs g_sr a_radius a_min a_range].
    split; [exists b; split; [apply binning_spec; exact Eb|exact Ee]|]. auto.
  - intros ((b & Eb & Ee) & Er & Em & Et & Es). apply binning_spec in Eb. rewrite Eb. cbn [obind].
    rewrite Er. cbn [obind]. rewrite Em. cbn [obind]. rewrite Et. cbn [obind]. rewrite Es. cbn [obind]. rewrite Ee. cbn [obind].
    destruct c as [[] ]. reflexivity.
Qed.

(** * Where reading a JSON configuration is undefined *)

Lemma value_ub {A} p (get : json -> outcome A) d j u : json_value p get d j = UB u ->
  exists x, at_path j p x /\ get x = UB u.
Proof.
  unfold json_value. destruct j as [| | | | | |l]; try discriminate. destruct (resolve p (JObject l)) as [[x|]|k|v|] eqn:R; cbn [obind]; try discriminate.
  - intros G. exists x. split; [apply resolve_some; exact R|exact G].
  - intros _. exfalso. revert R. generalize (JObject l). induction p as [|k p IH]; intros j; cbn [resolve]; [discriminate|].
    destruct j; try discriminate. destruct (field k l0); [apply IH|discriminate].
Qed.
Lemma double_ub x u : get_double x <> UB u.
Proof. destruct x; discriminate. Qed.
Lemma ulong_ub x u : get_ulong x = UB u -> u = BadConversion /\ exists f, x = JFloat f /\ no_u64 f.
Proof.
  destruct x as [| |z|f| | |]; try discriminate. cbn [get_ulong]. destruct (f_to_u64 f) eqn:E; [discriminate|].
  intros H. injection H as <-. split; [reflexivity|]. exists f. split; [reflexivity|]. intros z T R.
  assert (F : f_to_u64 f = Some z) by (apply trunc_spec; split; [exact T|lia]). congruence.
Qed.
Lemma int_ub x u : get_int x = UB u -> u = BadConversion /\ exists f, x = JFloat f /\ no_i32 f.
Proof.
  destruct x as [|b|z|f| | |]; try discriminate. cbn [get_int]. destruct (f_to_i32 f) eqn:E; [discriminate|].
  intros H. injection H as <-. split; [reflexivity|]. exists f. split; [reflexivity|]. intros z T R.
  assert (F : f_to_i32 f = Some z) by (apply trunc_spec; split; [exact T|unfold int_min, int_max; lia]). congruence.
Qed.
Lemma at_path_app j p x : at_path j p x -> forall q y, at_path x q y -> at_path j (p ++ q) y.
Proof. induction 1; intros q y A; cbn [app]; [exact A|]. constructor; auto. Qed.
Lemma C51_undefined_l j u : json_config j = UB u ->
  (u = BadConversion /\ exists f, no_u64 f /\
     (at_path j ["abs"; "min_cluster_size"]%string (JFloat f) \/ at_path j ["abs"; "spider_time_range"]%string (JFloat f))) \/
  (u = BadConversion /\ exists f, no_i32 f /\ at_path j ["tof_imaging"; "uniform_bins"; "num_bins"]%string (JFloat f)) \/
  (u = SignedOverflow /\ exists v, at_path j ["tof_imaging"; "uniform_bins"; "num_bins"]%string v /\ is_int32 v (2 ^ 31 - 1)).
Proof.
  unfold json_config. intros H. destruct (json_binning j) as [b|k|v|] eqn:B; cbn [obind] in H; try discriminate H.
  - destruct (json_value ["abs"; "radius"]%string get_double (f_of_Z 5) j) as [r|k|v|] eqn:R; cbn [obind] in H; try discriminate H.
    2:{ apply value_ub in R. destruct R as (x & _ & R). elim (double_ub x v R). }
    destruct (json_value ["abs"; "min_cluster_size"]%string get_ulong 1 j) as [m|k|v|] eqn:M; cbn [obind] in H; try discriminate H.
    2:{ injection H as <-. apply value_ub in M. destruct M as (x & A & M). apply ulong_ub in M. destruct M as (-> & f & -> & N).
        left. split; [reflexivity|]. exists f. auto. }
    destruct (json_value ["abs"; "spider_time_range"]%string get_ulong 75 j) as [t|k|v|] eqn:T; cbn [obind] in H; try discriminate H.
    2:{ injection H as <-. apply value_ub in T. destruct T as (x & A & T). apply ulong_ub in T. destruct T as (-> & f & -> & N).
        left. split; [reflexivity|]. exists f. auto. }
    destruct (json_value ["tof_imaging"; "super_resolution"]%string get_double (f_of_Z 1) j) as [s|k|v|] eqn:S; cbn [obind] in H; try discriminate H.
    2:{ apply value_ub in S. destruct S as (x & _ & S). elim (double_ub x v S). }
    destruct (get_bin_edges b) as [e|k|v|] eqn:G; cbn [obind] in H; try discriminate H. injection H as <-. right. right.
    unfold get_bin_edges in G. destruct (tb_custom b) eqn:C; [|discriminate G]. apply binning_spec in B.
    inversion B as [l e A F Eb|w n x N A Tn Tx Eb|N1 N2 Eb]; subst b; cbn [tb_custom tb_bins tb_max] in *.
    + subst e. discriminate G.
    + destruct (Z.eqb_spec n int_max) as [->|]; [|destruct (n + 1 <? 0); discriminate G]. injection G as <-. split; [reflexivity|].
      destruct Tn as [_ [(y & Ay & I)|[_ I]]]; [|discriminate I]. exists y. split; [|exact I].
      apply (at_path_app j ["tof_imaging"; "uniform_bins"]%string w A ["num_bins"]%string y Ay).
    + discriminate G.
  - injection H as <-. unfold json_binning in B. destruct (contains ["tof_imaging"; "bin_edges"]%string j) as [w|].
    + exfalso. destruct (get_vector w) as [l|k|u|] eqn:V; cbn [obind] in B; try discriminate B. injection B as <-.
      destruct w as [| | | | |l|]; try discriminate V. cbn [get_vector] in V. revert u V. induction l as [|y l IH]; intros u V; [discriminate V|].
      cbn [get_doubles] in V. destruct (get_double y) as [a|k|q|] eqn:D; cbn [obind] in V; try discriminate V.
      * destruct (get_doubles l) as [a'|k|q|]; cbn [obind] in V; try discriminate V. apply (IH q eq_refl).
      * elim (double_ub y q D).
    + destruct (contains ["tof_imaging"; "uniform_bins"]%string j) as [w|] eqn:W; [|discriminate B]. apply contains_some in W.
      destruct (json_value ["num_bins"]%string get_int 1500 w) as [n|k|q|] eqn:N; cbn [obind] in B; try discriminate B.
      * destruct (json_value ["end"]%string get_double default_max w) as [x|k|q|] eqn:X; cbn [obind] in B; try discriminate B.
        apply value_ub in X. destruct X as (y & _ & X). elim (double_ub y q X).
      * injection B as <-. apply value_ub in N. destruct N as (y & A & N). apply int_ub in N. destruct N as (-> & f & -> & N).
        right. left. split; [reflexivity|]. exists f. split; [exact N|].
        apply (at_path_app j ["tof_imaging"; "uniform_bins"]%string w W ["num_bins"]%string _ A).
Qed.
