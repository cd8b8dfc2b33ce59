(** Merging of time clusters (C44). *)
From Coq Require Import Reals Lra Lia.
From Flocq Require Import Core.
From Verif Require Export P_DbsFloat.
Local Open Scope Z_scope.
Local Open Scope list_scope.

Lemma moderate_R x : moderate x -> is_finite x = true /\ (Rabs (B2R x) <= bpow radix2 60)%R.
Proof.
  unfold moderate. intros H.
  assert (Hc : is_finite (f_of_Z (2 ^ 60)) = true) by (apply of_Z_fin; vm_compute; discriminate).
  assert (Rc : B2R (f_of_Z (2 ^ 60)) = bpow radix2 60).
  { rewrite of_Z_R by (vm_compute; discriminate).
    change (2 ^ 60) with (radix2 ^ 60). rewrite IZR_Zpower by lia. apply rnd_bpow. lia. }
  assert (Hf : is_finite x = true).
  { destruct x as [s|s| |s m e Hb]; try reflexivity.
    - unfold fabs, Babs, fle in H. vm_compute in H. discriminate.
    - unfold fabs, Babs, fle in H. vm_compute in H. discriminate. }
  split; [exact Hf|].
  rewrite fle_R in H; [|unfold fabs; rewrite is_finite_Babs; exact Hf|exact Hc].
  rewrite Rc in H. unfold fabs in H. rewrite B2R_Babs in H.
  destruct (Rle_bool_spec (Rabs (B2R x)) (bpow radix2 60)); [assumption|discriminate].
Qed.

Lemma fle_true x y : is_finite x = true -> is_finite y = true ->
  fle x y = true <-> (B2R x <= B2R y)%R.
Proof.
  intros Hx Hy. rewrite fle_R by assumption.
  destruct (Rle_bool_spec (B2R x) (B2R y)); split; intros; try reflexivity; try assumption; try discriminate; lra.
Qed.
Lemma flt_true x y : is_finite x = true -> is_finite y = true ->
  flt x y = true <-> (B2R x < B2R y)%R.
Proof.
  intros Hx Hy. rewrite flt_R by assumption.
  destruct (Rlt_bool_spec (B2R x) (B2R y)); split; intros; try reflexivity; try assumption; try discriminate; lra.
Qed.

Lemma fsub_moderate x y : moderate x -> moderate y ->
  B2R (fsub x y) = rnd (B2R x - B2R y) /\ is_finite (fsub x y) = true.
Proof.
  intros Hx Hy. apply moderate_R in Hx, Hy. destruct Hx as [Fx Bx]. destruct Hy as [Fy By].
  apply fsub_correct with (e := 61); try assumption; try lia.
  assert (E : bpow radix2 61 = (2 * bpow radix2 60)%R) by (change 61 with (1 + 60); rewrite bpow_plus; reflexivity).
  rewrite E. pose proof (Rabs_triang (B2R x) (- B2R y)) as H. rewrite Rabs_Ropp in H.
  unfold Rminus. lra.
Qed.

(** Minima and maxima choose. *)
Lemma fmin_spec x y : is_finite x = true -> is_finite y = true ->
  (fmin x y = x \/ fmin x y = y) /\ fle (fmin x y) x = true /\ fle (fmin x y) y = true.
Proof.
  intros Hx Hy. unfold fmin.
  destruct (flt y x) eqn:E.
  - apply flt_true in E; try assumption. split; [right; reflexivity|].
    split; apply fle_true; try assumption; lra.
  - assert (~ (B2R y < B2R x)%R) by (intros H; apply flt_true in H; try assumption; congruence).
    split; [left; reflexivity|]. split; apply fle_true; try assumption; lra.
Qed.
Lemma fmax_spec x y : is_finite x = true -> is_finite y = true ->
  (fmax x y = x \/ fmax x y = y) /\ fle x (fmax x y) = true /\ fle y (fmax x y) = true.
Proof.
  intros Hx Hy. unfold fmax.
  destruct (flt x y) eqn:E.
  - apply flt_true in E; try assumption. split; [right; reflexivity|].
    split; apply fle_true; try assumption; lra.
  - assert (~ (B2R x < B2R y)%R) by (intros H; apply flt_true in H; try assumption; congruence).
    split; [left; reflexivity|]. split; apply fle_true; try assumption; lra.
Qed.

Definition mod_info (c : info) : Prop := moderate (i_min c) /\ moderate (i_max c).

(** [c] accumulates the group [g]. *)
Definition acc (g : list info) (c : info) : Prop :=
  i_idx c = concat (map i_idx g) /\
  Forall (fun a => fle (i_min c) (i_min a) = true /\ fle (i_max a) (i_max c) = true) g /\
  In (i_min c) (map i_min g) /\ In (i_max c) (map i_max g) /\
  match g with
  | [] => False
  | a :: r => i_sum c = fold_left fadd (map i_sum r) (i_sum a)
  end.

Lemma fle_refl x : is_finite x = true -> fle x x = true.
Proof. intros H. apply fle_true; try assumption. lra. Qed.
Lemma fle_trans x y z : is_finite x = true -> is_finite y = true -> is_finite z = true ->
  fle x y = true -> fle y z = true -> fle x z = true.
Proof.
  intros Hx Hy Hz H1 H2. apply fle_true in H1, H2; try assumption. apply fle_true; try assumption. lra.
Qed.

Lemma acc_one c : mod_info c -> acc [c] c.
Proof.
  intros [H1 H2]. apply moderate_R in H1, H2.
  unfold acc. cbn. rewrite List.app_nil_r. repeat split; auto.
  constructor; [|constructor]. split; apply fle_refl; tauto.
Qed.

Lemma acc_mod g c : Forall mod_info g -> acc g c -> mod_info c.
Proof.
  intros Hg [_ [_ [H1 [H2 _]]]].
  apply in_map_iff in H1. destruct H1 as [a [E1 I1]].
  apply in_map_iff in H2. destruct H2 as [b [E2 I2]].
  rewrite Forall_forall in Hg. split; [rewrite <- E1|rewrite <- E2]; apply Hg; assumption.
Qed.

Lemma acc_merge g cur next : Forall mod_info g -> mod_info next -> acc g cur ->
  acc (g ++ [next]) (info_merge cur next).
Proof.
  intros Hg Hn Ha. pose proof (acc_mod g cur Hg Ha) as Hc.
  destruct Ha as [H1 [H2 [H3 [H4 H5]]]].
  destruct Hc as [Hc1 Hc2]. destruct Hn as [Hn1 Hn2].
  apply moderate_R in Hc1, Hc2, Hn1, Hn2.
  destruct (fmin_spec (i_min cur) (i_min next)) as [M1 [M2 M3]]; try tauto.
  destruct (fmax_spec (i_max cur) (i_max next)) as [X1 [X2 X3]]; try tauto.
  unfold acc, info_merge. cbn [i_idx i_min i_max i_sum].
  assert (Fm : is_finite (fmin (i_min cur) (i_min next)) = true)
    by (destruct M1 as [->| ->]; tauto).
  assert (Fx : is_finite (fmax (i_max cur) (i_max next)) = true)
    by (destruct X1 as [->| ->]; tauto).
  split; [|split; [|split; [|split]]].
  - rewrite map_app, concat_app, H1. cbn. rewrite List.app_nil_r. reflexivity.
  - apply Forall_app. split; [|constructor; [split; assumption|constructor]].
    rewrite Forall_forall in *. intros a Ia. specialize (H2 a Ia).
    destruct (Hg a Ia) as [A1 A2]. apply moderate_R in A1, A2.
    split; [apply (fle_trans _ (i_min cur))|apply (fle_trans _ (i_max cur))]; tauto.
  - rewrite map_app. apply in_or_app. cbn. destruct M1 as [->| ->]; tauto.
  - rewrite map_app. apply in_or_app. cbn. destruct X1 as [->| ->]; tauto.
  - destruct g as [|a r]; [contradiction|]. cbn [app].
    rewrite map_app, fold_left_app. cbn. rewrite H5. reflexivity.
Qed.

Lemma acc_keep minp g c : acc g c ->
  Forall2 union_of (if large minp g then [g] else []) (info_keep minp c).
Proof.
  intros [H1 [H2 [H3 [H4 H5]]]]. unfold large, info_keep.
  rewrite <- H1. rewrite Z.geb_leb. destruct (minp <=? zlen (i_idx c)); [|constructor].
  constructor; [|constructor]. unfold union_of. cbn [i_idx i_min i_max i_sum i_mean].
  repeat (split; [assumption|]). reflexivity.
Qed.

Lemma snoc_split {A} (g g1 : list A) n b g2 : g ++ [n] = g1 ++ b :: g2 ->
  (g2 = [] /\ g1 = g /\ b = n) \/ (exists g2', g2 = g2' ++ [n] /\ g = g1 ++ b :: g2').
Proof.
  intros H. destruct (exists_last (l := b :: g2)) as [l' [z E]]; [discriminate|].
  rewrite E in H. rewrite List.app_assoc in H. apply app_inj_tail in H. destruct H as [H ->].
  destruct l' as [|b' l'].
  - cbn in E. injection E as -> ->. rewrite List.app_nil_r in H. left. auto.
  - cbn in E. injection E as -> ->. right. exists l'. split; [reflexivity|exact H].
Qed.

Lemma chained_one eps c : chained eps [c].
Proof.
  intros g1 b g2 H Hn. destruct g1 as [|x g1]; [contradiction|].
  cbn in H. injection H as _ H. destruct g1; discriminate.
Qed.

Lemma chained_snoc eps g cur next : chained eps g -> acc g cur -> info_close eps cur next = true ->
  chained eps (g ++ [next]).
Proof.
  intros Hc Ha Hcl g1 b g2 E Hn.
  apply snoc_split in E. destruct E as [[-> [-> ->]]|[g2' [-> E]]].
  - destruct Ha as [_ [_ [_ [H4 _]]]]. apply in_map_iff in H4. destruct H4 as [a [E I]].
    exists a. split; [exact I|]. unfold reaches. rewrite E.
    unfold info_close in Hcl. apply orb_true_iff in Hcl. exact Hcl.
  - apply (Hc g1 b g2' E Hn).
Qed.

(** Everything in the group is apart from everything that comes later. *)
Lemma far_apart eps g cur next a b : is_finite eps = true ->
  Forall mod_info g -> acc g cur -> mod_info next -> mod_info b ->
  info_close eps cur next = false -> fle (i_min next) (i_min b) = true -> In a g ->
  apart eps a b.
Proof.
  intros He Hg Ha Hn Hb Hcl Hle Ia.
  pose proof (acc_mod g cur Hg Ha) as [_ Hc2].
  destruct Ha as [_ [H2 _]]. rewrite Forall_forall in H2, Hg.
  destruct (H2 a Ia) as [_ Hmax]. destruct (Hg a Ia) as [_ Hma].
  destruct Hn as [Hn1 _]. destruct Hb as [Hb1 _].
  unfold info_close in Hcl. apply orb_false_iff in Hcl. destruct Hcl as [_ Hcl].
  destruct (fsub_moderate (i_min next) (i_max cur) Hn1 Hc2) as [R1 F1].
  destruct (fsub_moderate (i_min b) (i_max a) Hb1 Hma) as [R2 F2].
  unfold apart. apply flt_true; [exact He|exact F2|].
  assert (H : ~ (B2R (fsub (i_min next) (i_max cur)) <= B2R eps)%R).
  { intros H. apply fle_true in H; try assumption. congruence. }
  apply Rlt_le_trans with (B2R (fsub (i_min next) (i_max cur))); [lra|].
  rewrite R1, R2. apply rnd_le.
  apply moderate_R in Hn1, Hb1, Hma, Hc2.
  apply fle_true in Hmax; try tauto. apply fle_true in Hle; try tauto. lra.
Qed.

Lemma merge_loop_groups eps minp : is_finite eps = true -> forall rest g cur,
  Forall mod_info g -> Forall mod_info rest -> acc g cur -> chained eps g ->
  StronglySorted (fun a b => fle (i_min a) (i_min b) = true) rest ->
  exists groups,
    concat groups = g ++ rest /\ Forall (fun g => g <> []) groups /\
    Forall2 union_of (filter (large minp) groups) (merge_loop eps minp cur rest) /\
    Forall (chained eps) groups /\
    ForallOrdPairs (fun g1 g2 => forall a b, In a g1 -> In b g2 -> apart eps a b) groups.
Proof.
  intros He. induction rest as [|next rest IH]; intros g cur Hg Hr Ha Hc Hs.
  - exists [g]. cbn [concat filter merge_loop]. rewrite !List.app_nil_r.
    split; [reflexivity|split; [|split; [|split]]].
    + constructor; [|constructor]. intros ->. destruct Ha as [_ [_ [_ [_ Ha]]]]. exact Ha.
    + apply acc_keep. exact Ha.
    + constructor; [exact Hc|constructor].
    + constructor; constructor.
  - apply Forall_cons_iff in Hr. destruct Hr as [Hn Hr].
    apply StronglySorted_inv in Hs. destruct Hs as [Hs Hall].
    cbn [merge_loop]. destruct (info_close eps cur next) eqn:E.
    + destruct (IH (g ++ [next]) (info_merge cur next)) as [groups H]; try assumption.
      * apply Forall_app. split; [exact Hg|constructor; [exact Hn|constructor]].
      * apply acc_merge; assumption.
      * apply chained_snoc with cur; assumption.
      * exists groups. rewrite <- List.app_assoc in H. exact H.
    + destruct (IH [next] next) as [groups [H1 [H2 [H3 [H4 H5]]]]]; try assumption.
      * constructor; [exact Hn|constructor].
      * apply acc_one. exact Hn.
      * apply chained_one.
      * exists (g :: groups). cbn [concat]. rewrite H1.
        split; [reflexivity|split; [|split; [|split]]].
        -- constructor; [|exact H2]. intros ->. destruct Ha as [_ [_ [_ [_ Ha]]]]. exact Ha.
        -- cbn [filter]. pose proof (acc_keep minp g cur Ha) as HK.
           destruct (large minp g).
           ++ apply (Forall2_app HK H3).
           ++ apply (Forall2_app HK H3).
        -- constructor; assumption.
        -- constructor; [|exact H5].
           apply Forall_forall. intros g2 I2 a b Ia Ib.
           assert (Ib' : In b (next :: rest)).
           { change (In b ([next] ++ rest)). rewrite <- H1. apply in_concat. exists g2. split; assumption. }
           assert (Hb : mod_info b /\ fle (i_min next) (i_min b) = true).
           { destruct Ib' as [<-|Ib'].
             - split; [exact Hn|]. apply fle_refl. destruct Hn as [Hn _]. apply moderate_R in Hn. tauto.
             - rewrite Forall_forall in Hr, Hall. split; [apply Hr|apply Hall]; exact Ib'. }
           apply (far_apart eps g cur next a b); tauto.
Qed.

Lemma C44_l ext cfg infos : sort_sound ext -> is_finite (d_eps_time cfg) = true ->
  infos <> [] -> Forall (fun c => moderate (i_min c) /\ moderate (i_max c)) infos ->
  exists groups out,
    merge_infos ext cfg infos = Ok out /\
    Permutation (concat groups) infos /\
    StronglySorted (fun a b => fle (i_min a) (i_min b) = true) (concat groups) /\
    Forall (fun g => g <> []) groups /\
    Forall2 union_of (filter (large (d_min_time cfg)) groups) out /\
    Forall (chained (d_eps_time cfg)) groups /\
    ForallOrdPairs (fun g1 g2 => forall a b, In a g1 -> In b g2 -> apart (d_eps_time cfg) a b) groups.
Proof.
  intros Hsort He Hne Hm.
  destruct (Hsort infos) as [Hp Hs].
  { eapply Forall_impl; [|exact Hm]. intros c [H _]. apply moderate_R in H. tauto. }
  unfold merge_infos. destruct (e_sort ext infos) as [|c rest] eqn:E.
  { apply Permutation_sym, Permutation_nil in Hp. contradiction. }
  assert (Hm' : Forall mod_info (c :: rest)).
  { apply (Permutation_Forall Hp). exact Hm. }
  apply Forall_cons_iff in Hm'. destruct Hm' as [Hc Hr].
  pose proof Hs as Hs0.
  apply StronglySorted_inv in Hs. destruct Hs as [Hs _].
  destruct (merge_loop_groups (d_eps_time cfg) (d_min_time cfg) He rest [c] c)
    as [groups [H1 H2]]; try assumption.
  - constructor; [exact Hc|constructor].
  - apply acc_one. exact Hc.
  - apply chained_one.
  - exists groups, (merge_loop (d_eps_time cfg) (d_min_time cfg) c rest).
    split; [reflexivity|]. split; [rewrite H1; apply Permutation_sym; exact Hp|].
    split; [rewrite H1; exact Hs0|exact H2].
Qed.
