(** Lemmas about the ring of clusters: the specification on its own. *)
From Coq Require Import Lia Permutation.
From Verif Require Export P_DisplayFile P_DbsTime.
From Coq Require Import ZifyBool Zify.
Ltac Zify.zify_post_hook ::= Z.to_euclidean_division_equations.
Global Open Scope Z_scope.

Lemma exists_dec {A} (P : A -> Prop) (Hd : forall a, {P a} + {~ P a}) l : {Exists P l} + {~ Exists P l}.
Proof. apply Exists_dec. exact Hd. Qed.

Lemma accepts_dec c h : {accepts c h} + {~ accepts c h}.
Proof.
  unfold accepts.
  destruct c as [|g r]; [right; intros ((g & r & E & _) & _); discriminate E|].
  destruct (Z_lt_ge_dec (Z.abs (w_spdr g - w_spdr h)) 3) as [C|C].
  2: { right. intros ((g' & r' & E & H) & _). injection E as -> ->. lia. }
  destruct (exists_dec (fun k => w_x h <= w_x k + 5) (fun k => Z_le_dec _ _) (g :: r)) as [H1|H1]; [|right; tauto].
  destruct (exists_dec (fun k => w_x k - 5 <= w_x h) (fun k => Z_le_dec _ _) (g :: r)) as [H2|H2]; [|right; tauto].
  destruct (exists_dec (fun k => w_y h <= w_y k + 5) (fun k => Z_le_dec _ _) (g :: r)) as [H3|H3]; [|right; tauto].
  destruct (exists_dec (fun k => w_y k - 5 <= w_y h) (fun k => Z_le_dec _ _) (g :: r)) as [H4|H4]; [|right; tauto].
  left. split; [exists g, r; auto|auto].
Qed.

(** * Existence and uniqueness *)

Lemma argmin {A} (f : A -> nat) l : l <> [] -> exists x, In x l /\ forall y, In y l -> (f x <= f y)%nat.
Proof.
  induction l as [|a l IH]; intros H; [congruence|]. destruct l as [|b l].
  - exists a. split; [left; reflexivity|]. intros y [<-|[]]. lia.
  - destruct IH as (x & Hx & Hm); [discriminate|]. destruct (Nat.le_gt_cases (f a) (f x)) as [C|C].
    + exists a. split; [left; reflexivity|]. intros y [<-|Hy]; [lia|]. specialize (Hm y Hy). lia.
    + exists x. split; [right; exact Hx|]. intros y [<-|Hy]; [lia|]. apply Hm. exact Hy.
Qed.

Definition at_most_127 (s : list rcluster * list rcluster) : Prop := (length (snd s) <= 127)%nat.

Definition accepting (op : list rcluster) (h : raw) (i : nat) : bool :=
  match nth_error op i with Some c => if accepts_dec c h then true else false | None => false end.

Lemma accepting_spec op h i : accepting op h i = true <-> exists c, nth_error op i = Some c /\ accepts c h.
Proof.
  unfold accepting. destruct (nth_error op i) as [c|]; [|split; [discriminate|intros (c & H & _); discriminate H]].
  destruct (accepts_dec c h) as [H|H]; split; intros K; try reflexivity; try discriminate K.
  - exists c. auto.
  - destruct K as (c' & E & K). injection E as <-. contradiction.
Qed.

Lemma ring_step_total s h : at_most_127 s -> exists s', ring_step s h s' /\ at_most_127 s'.
Proof.
  destruct s as [closed op]. unfold at_most_127. cbn [snd]. intros Hl.
  destruct (filter (accepting op h) (seq 0 (length op))) as [|i0 is] eqn:F.
  - assert (N : Forall (fun c => ~ accepts c h) op).
    { apply Forall_forall. intros c Hc K. apply In_nth_error in Hc. destruct Hc as (i & Hi).
      assert (In i (filter (accepting op h) (seq 0 (length op)))).
      { apply filter_In. split; [apply in_seq; split; [lia|]; apply nth_error_Some; congruence|].
        apply accepting_spec. exists c. auto. }
      rewrite F in H. destruct H. }
    destruct (Nat.lt_ge_cases (length op) 127) as [C|C].
    + exists (closed, op ++ [[h]]). split; [apply g_new; assumption|]. cbn [snd]. rewrite app_length. cbn. lia.
    + destruct op as [|c op]; [cbn in C; lia|]. exists (closed ++ [c], op ++ [[h]]). cbn [length] in *.
      split; [apply g_push; [exact N|lia]|]. cbn [snd]. rewrite app_length. cbn. lia.
  - destruct (argmin (fun i => Nat.modulo (length closed + i) 128) (filter (accepting op h) (seq 0 (length op))))
      as (i & Hi & Hm); [rewrite F; discriminate|].
    apply filter_In in Hi. destruct Hi as [_ Hi]. apply accepting_spec in Hi. destruct Hi as (c & Hi & Hc).
    apply nth_error_split in Hi. destruct Hi as (op1 & op2 & -> & Hl1).
    exists (closed, op1 ++ (c ++ [h]) :: op2). split.
    + apply g_join; [exact Hc|]. intros j c' Hj Hc'. rewrite Hl1. apply (Hm j).
      apply filter_In. split; [apply in_seq; split; [lia|]; apply nth_error_Some; congruence|].
      apply accepting_spec. exists c'. auto.
    + cbn [snd]. rewrite app_length in *. cbn [length] in *. exact Hl.
Qed.

Lemma nth_app_mid {A} (a : list A) x b : nth_error (a ++ x :: b) (length a) = Some x.
Proof. rewrite nth_error_app2, Nat.sub_diag by lia. reflexivity. Qed.

Lemma mod_inj n i j : (i < 128)%nat -> (j < 128)%nat ->
  Nat.modulo (n + i) 128 = Nat.modulo (n + j) 128 -> i = j.
Proof. lia. Qed.

Lemma ring_step_unique s h s1 s2 : at_most_127 s -> ring_step s h s1 -> ring_step s h s2 -> s1 = s2.
Proof.
  unfold at_most_127. intros Hl H1 H2.
  inversion H1 as [cl op1 c op2 h0 A M E1 E2 E3|cl op h0 N L E1 E2 E3|cl c op h0 N L E1 E2 E3]; subst.
  - inversion H2 as [cl' op1' c' op2' h0 A' M' E1 E2 E3|cl' op' h0 N' L' E1 E2 E3|cl' c' op' h0 N' L' E1 E2 E3]; subst.
    + match goal with K : _ ++ _ :: _ = _ ++ _ :: _ |- _ => rename K into Q end. cbn [snd] in Hl.
      assert (E : length op1' = length op1).
      { rewrite app_length in Hl. cbn [length] in Hl.
        assert (K : (length op1' + S (length op2') = length op1 + S (length op2))%nat).
        { apply (f_equal (@length rcluster)) in Q. rewrite !app_length in Q. exact Q. }
        apply (mod_inj (length cl)); [lia|lia|]. apply Nat.le_antisymm.
        - apply (M' (length op1) c); [rewrite Q; apply nth_app_mid|exact A].
        - apply (M (length op1') c'); [rewrite <- Q; apply nth_app_mid|exact A']. }
      destruct (app_split_eq _ _ _ _ E Q) as [-> K]. injection K as -> ->. reflexivity.
    + exfalso. apply Forall_app in N'. destruct N' as [_ N']. inversion N'; contradiction.
    + exfalso. match goal with K : _ :: _ = _ ++ _ :: _ |- _ => rewrite K in N' end.
      apply Forall_app in N'. destruct N' as [_ N']. inversion N'; contradiction.
  - inversion H2 as [cl' op1' c' op2' h0 A' M' E1 E2 E3|cl' op' h0 N' L' E1 E2 E3|cl' c' op' h0 N' L' E1 E2 E3]; subst.
    + exfalso. apply Forall_app in N. destruct N as [_ N]. inversion N; contradiction.
    + reflexivity.
    + cbn in L. lia.
  - inversion H2 as [cl' op1' c' op2' h0 A' M' E1 E2 E3|cl' op' h0 N' L' E1 E2 E3|cl' c' op' h0 N' L' E1 E2 E3]; subst.
    + exfalso. match goal with K : _ ++ _ :: _ = _ :: _ |- _ => rewrite <- K in N end.
      apply Forall_app in N. destruct N as [_ N]. inversion N; contradiction.
    + cbn in L'. lia.
    + reflexivity.
Qed.

Lemma ring_step_127 s h s' : at_most_127 s -> ring_step s h s' -> at_most_127 s'.
Proof.
  intros Hl H. destruct (ring_step_total s h Hl) as (s2 & H2 & H3).
  rewrite (ring_step_unique _ _ _ _ Hl H H2). exact H3.
Qed.

Lemma ring_run_total hs : forall s, at_most_127 s -> exists s', ring_run s hs s'.
Proof.
  induction hs as [|h hs IH]; intros s Hl; [exists s; constructor|].
  destruct (ring_step_total s h Hl) as (s1 & H1 & Hl1). destruct (IH s1 Hl1) as (s2 & H2).
  exists s2. econstructor; eassumption.
Qed.
Lemma ring_run_unique s hs s1 s2 : at_most_127 s -> ring_run s hs s1 -> ring_run s hs s2 -> s1 = s2.
Proof.
  intros Hl H1. revert s2 Hl. induction H1 as [s|s h s' hs s'' S R IH]; intros s2 Hl H2; inversion H2; subst; [reflexivity|].
  apply IH; [eapply ring_step_127; eassumption|].
  match goal with K : ring_step s h ?x |- _ => rewrite (ring_step_unique s h s' x Hl S K) end. assumption.
Qed.

(** * What the clusters are *)

Lemma ring_step_perm s h s' : ring_step s h s' ->
  Permutation (concat (fst s' ++ snd s')) (concat (fst s ++ snd s) ++ [h]).
Proof.
  intros H. inversion H as [cl op1 c op2 h0 A M E1 E2 E3|cl op h0 N L E1 E2 E3|cl c op h0 N L E1 E2 E3]; subst; cbn [fst snd].
  - rewrite !concat_app. cbn [concat]. rewrite <- !List.app_assoc. do 3 apply Permutation_app_head.
    apply Permutation_app_comm.
  - rewrite List.app_assoc, concat_app. apply Permutation_refl.
  - rewrite !concat_app. cbn [concat]. rewrite !List.app_nil_r, <- !List.app_assoc. apply Permutation_refl.
Qed.
Lemma ring_run_perm s hs s' : ring_run s hs s' ->
  Permutation (concat (fst s' ++ snd s')) (concat (fst s ++ snd s) ++ hs).
Proof.
  induction 1 as [s|s h s' hs s'' S R IH]; [rewrite List.app_nil_r; apply Permutation_refl|].
  eapply Permutation_trans; [exact IH|]. apply ring_step_perm in S.
  change (h :: hs) with ([h] ++ hs). rewrite List.app_assoc. apply Permutation_app_tail. exact S.
Qed.

Definition full_or_none (s : list rcluster * list rcluster) : Prop := fst s = [] \/ length (snd s) = 127%nat.
Lemma ring_step_full s h s' : at_most_127 s -> ring_step s h s' -> full_or_none s -> full_or_none s'.
Proof.
  unfold full_or_none, at_most_127. intros Hl H.
  inversion H as [cl op1 c op2 h0 A M E1 E2 E3|cl op h0 N L E1 E2 E3|cl c op h0 N L E1 E2 E3]; subst; cbn [fst snd] in *.
  - rewrite !app_length. cbn [length]. auto.
  - rewrite !app_length. cbn [length]. intros [K|K]; [auto|lia].
  - rewrite !app_length. cbn [length]. intros _. right. lia.
Qed.
Lemma ring_run_full s hs s' : at_most_127 s -> ring_run s hs s' -> full_or_none s -> full_or_none s' /\ at_most_127 s'.
Proof.
  intros Hl H. induction H as [s|s h s' hs s'' S R IH]; [auto|]. intros Hf.
  apply IH; [eapply ring_step_127; eassumption|eapply ring_step_full; eassumption].
Qed.

Lemma ring_step_grown s h s' : ring_step s h s' -> Forall grown (fst s ++ snd s) -> Forall grown (fst s' ++ snd s').
Proof.
  intros H. inversion H as [cl op1 c op2 h0 A M E1 E2 E3|cl op h0 N L E1 E2 E3|cl c op h0 N L E1 E2 E3]; subst; cbn [fst snd] in *.
  - rewrite !Forall_app, !Forall_cons_iff. intros (H1 & H2 & H3 & H4). repeat split; try assumption. apply gw_more; assumption.
  - rewrite !Forall_app. intros (H1 & H2). repeat split; try assumption. constructor; [apply gw_one|constructor].
  - rewrite !Forall_app, !Forall_cons_iff. intros (H1 & H2 & H3). repeat split; try assumption; constructor; try assumption; try constructor.
Qed.
Lemma ring_run_grown s hs s' : ring_run s hs s' -> Forall grown (fst s ++ snd s) -> Forall grown (fst s' ++ snd s').
Proof. induction 1 as [s|s h s' hs s'' S R IH]; intros H; [exact H|]. apply IH. eapply ring_step_grown; eassumption. Qed.

Lemma grown_cons c : grown c -> exists g r, c = g :: r.
Proof. intros H. destruct H as [h|c h H A]; [eauto|]. destruct c; cbn; eauto. Qed.

Lemma grown_spread c : grown c -> forall g r h, c = g :: r -> In h r -> Z.abs (w_spdr g - w_spdr h) < 3.
Proof.
  induction 1 as [h0|c h0 H IH A]; intros g r h E Hin.
  - injection E as -> <-. destruct Hin.
  - destruct A as ((g' & r' & E' & T) & _). subst c. cbn in E. injection E as -> <-.
    apply in_app_iff in Hin. destruct Hin as [Hin|[<-|[]]]; [eapply IH; [reflexivity|exact Hin]|exact T].
Qed.
