(** A library that satisfies the assumptions, for the examples: insertion sort;
    one cluster of times when each is near the next, else none; one cluster in
    the plane, of the points in the column of the first. *)
From Coq Require Import Reals Lra Lia.
From Flocq Require Import Core.
From Verif Require Export P_DbsPlane.
Local Open Scope Z_scope.
Local Open Scope list_scope.

Fixpoint insert (c : info) (l : list info) : list info :=
  match l with
  | [] => [c]
  | a :: r => if fle (i_min c) (i_min a) then c :: l else a :: insert c r
  end.
Definition ex_sort (l : list info) : list info := fold_right insert [] l.

Definition near_both (eps a b : f64) : bool :=
  fle (fabs (fsub a b)) eps && fle (fabs (fsub b a)) eps.
Fixpoint in_row (eps : f64) (ts : list f64) : bool :=
  match ts with
  | a :: (b :: _) as r => near_both eps a b && in_row eps r
  | _ => true
  end.
Definition ex_fit1 (eps : f64) (minp : Z) (ts : list f64) : dbs_out f64 :=
  match ts with
  | t :: _ =>
      if in_row eps ts then DbsOut 1 (map (fun _ => 0) ts) [t]
      else DbsOut 0 (map (fun _ => size_max) ts) []
  | [] => DbsOut 0 [] []
  end.
Definition ex_fit2 (eps : f64) (minp : Z) (ps : list (f64 * f64)) : dbs_out (f64 * f64) :=
  match ps with
  | [] => DbsOut 0 [] []
  | p :: r => DbsOut 1 (0 :: map (fun p' => if Beqb (fst p') (fst p) then 0 else size_max) r) [p]
  end.
Definition ex_dbs : dbs_ext := DbsExt ex_sort ex_fit1 ex_fit2.

Lemma insert_perm c l : Permutation (c :: l) (insert c l).
Proof.
  induction l as [|a r IH]; cbn; [reflexivity|].
  destruct (fle (i_min c) (i_min a)); [reflexivity|].
  rewrite perm_swap. apply perm_skip. exact IH.
Qed.

Local Notation finite_min := (fun c : info => is_finite (i_min c) = true).
Local Notation by_min := (fun a b : info => fle (i_min a) (i_min b) = true).

Lemma insert_sorted c l : is_finite (i_min c) = true -> Forall finite_min l ->
  StronglySorted by_min l -> StronglySorted by_min (insert c l).
Proof.
  intros Hc. induction l as [|a r IH]; intros HF Hs; cbn; [repeat constructor|].
  apply Forall_cons_iff in HF. destruct HF as [Ha HF].
  destruct (fle (i_min c) (i_min a)) eqn:E.
  - constructor; [exact Hs|]. constructor; [exact E|].
    apply StronglySorted_inv in Hs. destruct Hs as [_ Hs].
    rewrite Forall_forall in *. intros x Hx. apply (fle_trans _ (i_min a)); auto.
  - apply StronglySorted_inv in Hs. destruct Hs as [Hs Hr]. constructor; [apply IH; assumption|].
    apply (Permutation_Forall (insert_perm c r)). constructor; [|exact Hr].
    rewrite fle_R in E |- * by assumption.
    destruct (Rle_bool_spec (B2R (i_min c)) (B2R (i_min a))); [discriminate|].
    apply Rle_bool_true. lra.
Qed.

Lemma ex_sort_perm l : Permutation l (ex_sort l).
Proof.
  induction l as [|c l IH]; cbn; [reflexivity|]. rewrite <- insert_perm. apply perm_skip. exact IH.
Qed.
Lemma ex_sort_sound : sort_sound ex_dbs.
Proof.
  intros l HF. split; [apply ex_sort_perm|]. cbn.
  induction l as [|c l IH]; cbn; [constructor|].
  apply Forall_cons_iff in HF. destruct HF as [Hc HF].
  apply insert_sorted; [exact Hc| |apply IH, HF].
  apply (Permutation_Forall (ex_sort_perm l)). exact HF.
Qed.

Lemma in_row_near eps ts : in_row eps ts = true -> forall i a b,
  nth_error ts i = Some a -> nth_error ts (S i) = Some b -> near eps a b /\ near eps b a.
Proof.
  induction ts as [|x [|y r] IH]; intros H i a b Ha Hb; [destruct i; discriminate|destruct i as [|[|i]]; discriminate|].
  cbn [in_row] in H. apply andb_true_iff in H. destruct H as [H1 H2].
  destruct i as [|i]; [|apply (IH H2 i); assumption].
  cbn in Ha, Hb. injection Ha as <-. injection Hb as <-. unfold near_both in H1.
  apply andb_true_iff in H1. exact H1.
Qed.
Lemma in_row_linked eps ts : in_row eps ts = true -> forall d i j,
  (i < length ts)%nat -> (j < length ts)%nat -> (j = i + d \/ i = j + d)%nat ->
  linked eps ts i j.
Proof.
  intros H. induction d as [|d IH]; intros i j Hi Hj Hd.
  - replace j with i by lia. apply link_refl. exact Hi.
  - destruct Hd as [Hd|Hd].
    + destruct (nth_error ts (i + d)) as [a|] eqn:Ea; [|apply nth_error_None in Ea; lia].
      destruct (nth_error ts (S (i + d))) as [b|] eqn:Eb; [|apply nth_error_None in Eb; lia].
      destruct (in_row_near eps ts H _ _ _ Ea Eb) as [N _].
      apply (link_step eps ts i (i + d) j a b); [apply IH; lia|exact Ea| |exact N].
      replace j with (S (i + d)) by lia. exact Eb.
    + destruct (nth_error ts j) as [b|] eqn:Eb; [|apply nth_error_None in Eb; lia].
      destruct (nth_error ts (S j)) as [a|] eqn:Ea; [|apply nth_error_None in Ea; lia].
      destruct (in_row_near eps ts H _ _ _ Eb Ea) as [_ N].
      apply (link_step eps ts i (S j) j a b); [apply IH; lia|exact Ea|exact Eb|exact N].
Qed.

Lemma ex_fit1_sound : fit1_sound ex_dbs.
Proof.
  intros eps minp ts Hne. cbn. destruct ts as [|t r]; [contradiction|].
  unfold ex_fit1. destruct (in_row eps (t :: r)) eqn:E.
  - split.
    + split; [cbn; rewrite map_length; reflexivity|]. split.
      * apply Forall_map. apply Forall_forall. intros x _. right. cbn. lia.
      * split; [|reflexivity]. intros l Hl. cbn in Hl. left. lia.
    + intros i j l Hi Hj _.
      assert (Hi' : (i < length (t :: r))%nat).
      { rewrite <- (map_length (fun _ => 0) (t :: r)). apply nth_error_Some. cbn in *. congruence. }
      assert (Hj' : (j < length (t :: r))%nat).
      { rewrite <- (map_length (fun _ => 0) (t :: r)). apply nth_error_Some. cbn in *. congruence. }
      destruct (Nat.le_ge_cases i j).
      * apply (in_row_linked eps _ E (j - i)); lia.
      * apply (in_row_linked eps _ E (i - j)); lia.
  - split.
    + split; [cbn; rewrite map_length; reflexivity|]. split.
      * apply Forall_map. apply Forall_forall. intros x _. left. reflexivity.
      * split; [|reflexivity]. intros l Hl. cbn in Hl. lia.
    + intros i j l Hi _ Hl. exfalso. apply Hl. cbn [q_labels] in Hi.
      apply nth_error_In in Hi. apply in_map_iff in Hi. destruct Hi as [x [<- _]]. reflexivity.
Qed.

Lemma ex_fit2_sound : fit2_sound ex_dbs.
Proof.
  intros eps minp ps Hne. destruct ps as [|p r]; [contradiction|]. cbn.
  split; [cbn; rewrite map_length; reflexivity|]. split.
  - cbn. constructor; [right; lia|]. apply Forall_map. apply Forall_forall. intros x _.
    destruct (Beqb (fst x) (fst p)); [right; lia|left; reflexivity].
  - split; [|reflexivity]. intros l Hl. cbn in *. left. lia.
Qed.

Lemma ex_dbs_sound : ext_sound ex_dbs.
Proof. split; [exact ex_fit1_sound|]. split; [exact ex_fit2_sound|exact ex_sort_sound]. Qed.

(** Hits with the same 14-bit time of arrival are in one class. *)
Lemma C63_class_l eps hits i j a b : eps_ok eps -> Forall toa_ok hits ->
  nth_error hits i = Some a -> nth_error hits j = Some b -> h_toa a = h_toa b ->
  same_time eps hits i j.
Proof.
  intros He Ht Ha Hb E. unfold same_time.
  apply (link_step eps (map toa_ns hits) i i j (toa_ns a) (toa_ns b)).
  - apply link_refl. rewrite map_length. apply nth_error_Some. congruence.
  - rewrite nth_error_map, Ha. reflexivity.
  - rewrite nth_error_map, Hb. reflexivity.
  - apply (near_T eps hits He Ht i j); [rewrite nth_error_map, Ha; reflexivity|rewrite nth_error_map, Hb; reflexivity|].
    unfold T. rewrite Ha, Hb, E, Z.sub_diag. unfold within. cbn. apply eps_nonneg. exact He.
Qed.

(** Two fits in a row, from a result that can be computed. *)
Lemma two_fits (r : outcome dbs_obj) (f : dbs_obj -> outcome dbs_obj) ls :
  (let! o := r in let! o' := f o in Ok (length (b_events o'), b_labels o')) = Ok (0%nat, ls) ->
  exists o1 o2, r = Ok o1 /\ f o1 = Ok o2 /\ b_events o2 = [] /\ b_labels o2 = ls.
Proof.
  destruct r as [o1| | |]; cbn [obind]; try discriminate. destruct (f o1) as [o2| | |] eqn:E; cbn [obind]; try discriminate.
  intros H. exists o1, o2. apply ok_inj in H. injection H as H1 H2.
  split; [reflexivity|]. split; [exact E|]. split; [|exact H2]. destruct (b_events o2); [reflexivity|discriminate H1].
Qed.
