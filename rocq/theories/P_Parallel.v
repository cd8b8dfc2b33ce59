(** Schedule independence of the parallel processing. *)
From Verif Require Export M_Parallel P_AbsProps.
From Coq Require Import Lia Permutation.

Section Run.
Variables (ext : externals) (cfg : abs_cfg) (md : mode_t) (m : list Z).

(** What the loop body does to the batch. *)
Definition body_batch (o : abs_obj) (b : batch) : outcome batch :=
  let! (_, b') := body ext cfg md m o b in Ok b'.

(** The rest of the body from inside. *)
Definition after_fit (o : abs_obj) (b : batch) : outcome batch :=
  let! evs := abs_get_events ext cfg o (t_hits b) in
  Ok (Batch (t_index b) (t_num b) (t_chip b) (t_hits b) evs (t_ts b)).
Definition after_packets (o : abs_obj) (b : batch) : outcome batch :=
  let! o2 := abs_fit 8 cfg (abs_set_method (abs_reset o) MCentroid) (t_hits b) in
  after_fit o2 b.
Definition resume (pc : pc_t) (o : abs_obj) (b : batch) : outcome batch :=
  match pc with
  | Begin => body_batch o b
  | Packets n iter =>
      let! (s', hits') := process_loop md true (t_chip b) m (zlen m) n iter (t_ts b) (t_hits b) in
      after_packets o (Batch (t_index b) (t_num b) (t_chip b) hits' (t_neutrons b) s')
  | Clear => after_packets o b
  | Fit => let! o2 := abs_fit 8 cfg o (t_hits b) in after_fit o2 b
  | Events => after_fit o b
  end.

Lemma body_resume o b :
  body_batch o b = resume (Packets (Z.to_nat (t_num b)) (t_index b)) o b.
Proof.
  unfold body_batch, body, resume, extract_hits, process_packets, after_packets, after_fit.
  destruct (process_loop _ _ _ _ _ _ _ _ _) as [[s hits]| | |]; cbn [obind]; try reflexivity.
  cbn [t_hits t_index t_num t_chip t_ts t_neutrons].
  destruct (abs_fit _ _ _ _) as [o2| | |]; cbn [obind]; try reflexivity.
  destruct (abs_get_events _ _ _ _); reflexivity.
Qed.

Lemma after_packets_hist o b : after_packets o b = after_packets abs_new b.
Proof.
  unfold after_packets, after_fit.
  pose proof (C25_events_l 8 ext cfg (abs_reset o) (t_hits b) MCentroid) as A.
  pose proof (C25_events_l 8 ext cfg (abs_reset abs_new) (t_hits b) MCentroid) as B.
  rewrite <- B in A. clear B.
  destruct (abs_fit 8 cfg (abs_set_method (abs_reset o) MCentroid) (t_hits b)) as [o1| | |];
  destruct (abs_fit 8 cfg (abs_set_method (abs_reset abs_new) MCentroid) (t_hits b)) as [o2| | |];
  cbn [obind] in *; try rewrite A; try reflexivity; try (rewrite <- A; reflexivity);
  try discriminate A; try (injection A as ->; reflexivity).
Qed.

Lemma body_hist o b : body_batch o b = body_batch abs_new b.
Proof.
  rewrite !body_resume. unfold resume.
  destruct (process_loop _ _ _ _ _ _ _ _ _) as [[s hits]| | |]; cbn [obind];
    [apply after_packets_hist|reflexivity..].
Qed.

(** A move does not change what the body will give. *)
Lemma move_resume pc o b pc' o' b' fin : move ext cfg md m pc o b = Ok (pc', o', b', fin) ->
  resume pc o b = if fin then Ok b' else resume pc' o' b'.
Proof.
  destruct pc as [|[|n] iter| | |]; cbn [move].
  - intros H. injection H as <- <- <- <-. cbn [resume]. apply body_resume.
  - intros H. injection H as <- <- <- <-. cbn [resume process_loop obind].
    destruct b; reflexivity.
  - cbn [resume process_loop]. destruct (iter + 8 >=? zlen m) eqn:E.
    + intros H. injection H as <- <- <- <-. reflexivity.
    + destruct (read_packet m (iter + 8)) as [p|]; [|discriminate].
      destruct (step md true (t_chip b) p (t_ts b) (t_hits b)) as [[s' hits']| | |]; cbn [obind];
        try discriminate.
      intros H. injection H as <- <- <- <-. reflexivity.
  - intros H. injection H as <- <- <- <-. reflexivity.
  - cbn [resume]. destruct (abs_fit 8 cfg o (t_hits b)) as [o2| | |]; cbn [obind]; try discriminate.
    intros H. injection H as <- <- <- <-. reflexivity.
  - cbn [resume]. unfold after_fit.
    destruct (abs_get_events ext cfg o (t_hits b)) as [evs| | |]; cbn [obind]; try discriminate.
    intros H. injection H as <- <- <- <-. reflexivity.
Qed.

(** If the body will succeed, the next move does. *)
Lemma move_progress pc o b r : resume pc o b = Ok r -> exists x, move ext cfg md m pc o b = Ok x.
Proof.
  destruct pc as [|[|n] iter| | |]; cbn [move resume]; try (intros _; eexists; reflexivity).
  - cbn [process_loop]. destruct (iter + 8 >=? zlen m); [intros _; eexists; reflexivity|].
    destruct (read_packet m (iter + 8)) as [p|]; [|discriminate].
    destruct (step md true (t_chip b) p (t_ts b) (t_hits b)) as [[s' hits']| | |]; cbn [obind];
      try discriminate. intros _. eexists. reflexivity.
  - destruct (abs_fit 8 cfg o (t_hits b)); cbn [obind]; try discriminate. intros _. eexists. reflexivity.
  - unfold after_fit. destruct (abs_get_events ext cfg o (t_hits b)); cbn [obind]; try discriminate.
    intros _. eexists. reflexivity.
Qed.

(** Steps left in the body. *)
Definition left_in (pc : pc_t) (b : batch) : nat :=
  match pc with
  | Begin => 5 + Z.to_nat (t_num b)
  | Packets n _ => 4 + n
  | Clear => 3
  | Fit => 2
  | Events => 1
  end.
Lemma move_num pc o b pc' o' b' fin : move ext cfg md m pc o b = Ok (pc', o', b', fin) ->
  t_num b' = t_num b /\ (if fin then pc' = Begin /\ left_in pc b = 1%nat
                        else (left_in pc b = S (left_in pc' b'))%nat).
Proof.
  destruct pc as [|[|n] iter| | |]; cbn [move].
  - intros H. injection H as <- <- <- <-. split; reflexivity.
  - intros H. injection H as <- <- <- <-. split; reflexivity.
  - destruct (iter + 8 >=? zlen m).
    + intros H. injection H as <- <- <- <-. split; reflexivity.
    + destruct (read_packet m (iter + 8)) as [p|]; [|discriminate].
      destruct (step md true (t_chip b) p (t_ts b) (t_hits b)) as [[s' hits']| | |]; cbn [obind];
        try discriminate. intros H. injection H as <- <- <- <-. split; reflexivity.
  - intros H. injection H as <- <- <- <-. split; reflexivity.
  - destruct (abs_fit 8 cfg o (t_hits b)) as [o2| | |]; cbn [obind]; try discriminate.
    intros H. injection H as <- <- <- <-. split; reflexivity.
  - destruct (abs_get_events ext cfg o (t_hits b)) as [evs| | |]; cbn [obind]; try discriminate.
    intros H. injection H as <- <- <- <-. repeat split; reflexivity.
Qed.

(** * set_nth *)

Lemma set_nth_spec {A} (l : list A) i a l' : set_nth l i a = Some l' ->
  (i < length l)%nat /\ length l' = length l /\
  (forall j, nth_error l' j = if Nat.eqb j i then Some a else nth_error l j).
Proof.
  revert i l'. induction l as [|x l IH]; intros [|i] l' E; cbn in E; try discriminate.
  - injection E as <-. cbn. split; [lia|]. split; [reflexivity|]. intros [|j]; reflexivity.
  - destruct (set_nth l i a) as [r|] eqn:Er; [|discriminate]. injection E as <-.
    destruct (IH _ _ Er) as (A1 & A2 & A3). cbn. split; [lia|]. split; [lia|].
    intros [|j]; cbn; [reflexivity|apply A3].
Qed.

Lemma set_nth_ok {A} (l : list A) i a : (i < length l)%nat -> exists l', set_nth l i a = Some l'.
Proof.
  revert i. induction l as [|x l IH]; intros [|i] H; cbn in *; try lia; [eauto|].
  destruct (IH i) as [r ->]; [lia|eauto].
Qed.

(** * Invariant *)

Variable init : list batch.

Definition todo (s : pstate) : list nat := concat (map k_todo (p_tasks s)).

Definition task_ok (s : pstate) (t : task) : Prop :=
  match k_todo t with
  | [] => True
  | i :: rest =>
      (exists b b0, nth_error (p_batches s) i = Some b /\ nth_error init i = Some b0 /\
         resume (k_pc t) (k_abs t) b = body_batch abs_new b0) /\
      forall j, In j rest -> nth_error (p_batches s) j = nth_error init j /\ (j < length init)%nat
  end.

Definition inv (s : pstate) : Prop :=
  length (p_batches s) = length init /\ NoDup (todo s) /\
  (forall t, In t (p_tasks s) -> task_ok s t) /\
  (forall j b b0, ~ In j (todo s) -> nth_error (p_batches s) j = Some b ->
     nth_error init j = Some b0 -> body_batch abs_new b0 = Ok b).

Lemma in_todo s t i : In t (p_tasks s) -> In i (k_todo t) -> In i (todo s).
Proof.
  intros Ht Hi. unfold todo. apply in_concat. exists (k_todo t). split; [|exact Hi].
  apply in_map. exact Ht.
Qed.

Lemma nth_split_list {A} (l : list A) k a : nth_error l k = Some a ->
  exists p q, l = p ++ a :: q /\ length p = k.
Proof. apply nth_error_split. Qed.

Lemma set_nth_app {A} (p : list A) a q b : set_nth (p ++ a :: q) (length p) b = Some (p ++ b :: q).
Proof. induction p as [|x p IH]; cbn; [reflexivity|]. rewrite IH. reflexivity. Qed.

Lemma pstep_inv s k s' : inv s -> pstep ext cfg md m s k = Ok s' -> inv s'.
Proof.
  intros (Len & ND & TO & FI). unfold pstep.
  destruct (nth_error (p_tasks s) k) as [t|] eqn:Et;
    [|intros H; injection H as <-; repeat (split; [assumption|]); assumption].
  destruct (k_todo t) as [|i rest] eqn:Ek;
    [intros H; injection H as <-; repeat (split; [assumption|]); assumption|].
  destruct (nth_error (p_batches s) i) as [b|] eqn:Eb; [|discriminate].
  destruct (move ext cfg md m (k_pc t) (k_abs t) b) as [[[[pc' o'] b'] fin]| | |] eqn:Em;
    cbn [obind]; try discriminate.
  destruct (set_nth (p_batches s) i b') as [bs'|] eqn:Es; [|discriminate].
  destruct (nth_split_list _ _ _ Et) as (tp & tq & Etl & Elen).
  rewrite Etl, <- Elen, set_nth_app. intros H. injection H as <-.
  destruct (set_nth_spec _ _ _ _ Es) as (Li & Lb & Nb).
  assert (It : In t (p_tasks s)) by (eapply nth_error_In; exact Et).
  pose proof (TO t It) as Tt. unfold task_ok in Tt. rewrite Ek in Tt.
  destruct Tt as ((b1 & b0 & Eb1 & Eb0 & Er) & Tr). rewrite Eb in Eb1. injection Eb1 as <-.
  assert (TD : todo s = concat (map k_todo tp) ++ (i :: rest) ++ concat (map k_todo tq)).
  { unfold todo. rewrite Etl, map_app, concat_app. cbn [map concat]. rewrite Ek. reflexivity. }
  set (t' := Task (if fin then rest else i :: rest) pc' o') in *.
  assert (TD' : concat (map k_todo (tp ++ t' :: tq)) =
                concat (map k_todo tp) ++ (if fin then rest else i :: rest) ++ concat (map k_todo tq)).
  { rewrite map_app, concat_app. reflexivity. }
  rewrite TD in ND.
  assert (Ni : ~ In i (concat (map k_todo tp) ++ rest ++ concat (map k_todo tq))).
  { apply (NoDup_remove_2 (concat (map k_todo tp)) (rest ++ concat (map k_todo tq)) i).
    exact ND. }
  assert (ND' : NoDup (concat (map k_todo tp) ++ rest ++ concat (map k_todo tq))).
  { apply (NoDup_remove_1 (concat (map k_todo tp)) (rest ++ concat (map k_todo tq)) i). exact ND. }
  assert (Other : forall j, j <> i -> nth_error bs' j = nth_error (p_batches s) j).
  { intros j Hj. rewrite Nb. destruct (Nat.eqb_spec j i); [contradiction|reflexivity]. }
  assert (Same : nth_error bs' i = Some b') by (rewrite Nb, Nat.eqb_refl; reflexivity).
  unfold inv. cbn [p_batches p_tasks]. split; [congruence|]. split.
  { unfold todo. cbn [p_tasks]. rewrite TD'. destruct fin; [exact ND'|exact ND]. }
  split.
  - intros u Iu. apply in_app_or in Iu.
    assert (Hu : u = t' \/ In u (tp ++ tq)).
    { destruct Iu as [Iu|[Iu|Iu]]; [right|left|right]; auto; apply in_or_app; auto. }
    clear Iu. destruct Hu as [->|Iu].
    + unfold task_ok, t'. cbn [k_todo k_pc k_abs p_batches].
      pose proof (move_resume _ _ _ _ _ _ _ Em) as MR.
      assert (Tr' : forall j, In j rest -> nth_error bs' j = nth_error init j /\ (j < length init)%nat).
      { intros j Ij. destruct (Tr j Ij) as [Tr1 Tr2]. split; [|exact Tr2].
        rewrite Other; [exact Tr1|]. intros ->. apply Ni.
        apply in_or_app. right. apply in_or_app. left. exact Ij. }
      destruct fin.
      * destruct (move_num _ _ _ _ _ _ _ Em) as (_ & -> & _).
        destruct rest as [|j rest]; [exact I|]. split.
        -- destruct (Tr' j (or_introl eq_refl)) as [A B].
           destruct (nth_error init j) as [bj|] eqn:Ej; [|apply nth_error_None in Ej; lia].
           exists bj, bj. split; [exact A|]. split; [reflexivity|]. cbn [resume]. apply body_hist.
        -- intros j' Ij. apply Tr'. right. exact Ij.
      * split; [|exact Tr']. exists b', b0. split; [exact Same|]. split; [exact Eb0|congruence].
    + assert (Iu' : In u (p_tasks s)).
      { rewrite Etl. apply in_app_or in Iu. apply in_or_app. destruct Iu; [left|right; right]; assumption. }
      assert (Nu : ~ In i (k_todo u)).
      { intros Hi. apply Ni. apply in_app_or in Iu. apply in_or_app.
        destruct Iu as [Iu|Iu]; [left|right; apply in_or_app; right];
          (apply in_concat; exists (k_todo u); split; [apply in_map; exact Iu|exact Hi]). }
      pose proof (TO u Iu') as Tu. unfold task_ok in *. cbn [p_batches].
      destruct (k_todo u) as [|i' rest']; [exact I|].
      destruct Tu as ((c & c0 & C1 & C2 & C3) & Cr). split.
      * exists c, c0. rewrite Other; [auto|]. intros ->. apply Nu. left. reflexivity.
      * intros j Ij. destruct (Cr j Ij) as [A B]. split; [|exact B]. rewrite Other; [exact A|].
        intros ->. apply Nu. right. exact Ij.
  - intros j bj b0j Nj Ebj Eb0j. unfold todo in Nj. cbn [p_tasks] in Nj. rewrite TD' in Nj.
    destruct (Nat.eq_dec j i) as [->|Ne].
    + destruct fin.
      * rewrite Same in Ebj. injection Ebj as <-. rewrite Eb0 in Eb0j. injection Eb0j as <-.
        rewrite <- Er. rewrite (move_resume _ _ _ _ _ _ _ Em). reflexivity.
      * exfalso. apply Nj. apply in_or_app. right. left. reflexivity.
    + apply (FI j); [|rewrite <- Other by exact Ne; exact Ebj|exact Eb0j].
      rewrite TD. intros Hj. apply Nj. apply in_app_or in Hj. apply in_or_app.
      destruct Hj as [Hj|Hj]; [left; exact Hj|right]. apply in_app_or in Hj. apply in_or_app.
      destruct Hj as [Hj|Hj]; [left|right; exact Hj].
      destruct Hj as [Hj|Hj]; [congruence|]. destruct fin; [exact Hj|right; exact Hj].
Qed.

Lemma prun_inv sched : forall s s', inv s -> prun ext cfg md m s sched = Ok s' -> inv s'.
Proof.
  induction sched as [|k sched IH]; intros s s' I; cbn [prun].
  - intros H. injection H as <-. exact I.
  - destruct (pstep ext cfg md m s k) as [s1| | |] eqn:E; cbn [obind]; try discriminate.
    apply IH. eapply pstep_inv; eassumption.
Qed.

Lemma start_inv ranges : Permutation (concat ranges) (seq 0 (length init)) ->
  inv (pstart init ranges).
Proof.
  intros P.
  assert (T : todo (pstart init ranges) = concat ranges).
  { unfold todo, pstart. cbn [p_tasks]. rewrite map_map. cbn. rewrite map_id. reflexivity. }
  unfold inv. split; [reflexivity|]. split.
  { rewrite T. eapply Permutation_NoDup; [apply Permutation_sym; exact P|apply seq_NoDup]. }
  assert (B : forall j, In j (concat ranges) -> (j < length init)%nat).
  { intros j Ij. eapply Permutation_in in Ij; [|exact P]. apply in_seq in Ij. lia. }
  split.
  - intros t It. unfold pstart in It. cbn [p_tasks] in It. apply in_map_iff in It.
    destruct It as (r & <- & Ir). unfold task_ok. cbn [k_todo k_pc k_abs pstart p_batches].
    assert (Br : forall j, In j r -> (j < length init)%nat).
    { intros j Ij. apply B. apply in_concat. exists r. auto. }
    destruct r as [|i rest]; [exact I|]. split.
    + pose proof (Br i (or_introl eq_refl)).
      destruct (nth_error init i) as [b|] eqn:Ei; [|apply nth_error_None in Ei; lia].
      exists b, b. repeat split; reflexivity.
    + intros j Ij. split; [reflexivity|]. apply Br. right. exact Ij.
  - intros j b b0 Nj Eb _. exfalso. apply Nj. rewrite T.
    eapply Permutation_in; [apply Permutation_sym; exact P|]. apply in_seq.
    cbn [pstart p_batches] in Eb. assert (nth_error init j <> None) by congruence.
    apply nth_error_Some in H. lia.
Qed.

(** * Sequential processing *)

Lemma process_from_hist bs : forall o rs, process_from ext cfg md m o bs = Ok rs <->
  Forall2 (fun b r => body_batch abs_new b = Ok r) bs rs.
Proof.
  induction bs as [|b bs IH]; intros o rs; cbn [process_from].
  - split; [intros H; injection H as <-; constructor|intros H; inversion H; reflexivity].
  - pose proof (body_hist o b) as BH. unfold body_batch at 1 in BH.
    destruct (body ext cfg md m o b) as [[o' b']| | |]; cbn [obind] in *.
    + specialize (IH o'). destruct (process_from ext cfg md m o' bs) as [rest'| | |]; cbn [obind].
      * split; [intros H; injection H as <-; constructor; [congruence|apply IH; reflexivity]|].
        intros H. inversion H as [|? r ? rs' H1 H2]; subst.
        apply IH in H2. injection H2 as <-. congruence.
      * split; [discriminate|intros H; inversion H as [|? r ? rs' H1 H2]; subst; apply IH in H2; discriminate].
      * split; [discriminate|intros H; inversion H as [|? r ? rs' H1 H2]; subst; apply IH in H2; discriminate].
      * split; [discriminate|intros H; inversion H as [|? r ? rs' H1 H2]; subst; apply IH in H2; discriminate].
    + split; [discriminate|intros H; inversion H; congruence].
    + split; [discriminate|intros H; inversion H; congruence].
    + split; [discriminate|intros H; inversion H; congruence].
Qed.

Lemma Forall2_nth_error {A B} (R : A -> B -> Prop) l l' : length l = length l' ->
  (forall i a b, nth_error l i = Some a -> nth_error l' i = Some b -> R a b) -> Forall2 R l l'.
Proof.
  revert l'. induction l as [|a l IH]; intros [|b l'] L H; cbn in L; try lia; constructor.
  - apply (H 0%nat); reflexivity.
  - apply IH; [lia|]. intros i x y Hx Hy. apply (H (S i)); assumption.
Qed.
Lemma Forall2_nth {A B} (R : A -> B -> Prop) l l' : Forall2 R l l' ->
  forall i a, nth_error l i = Some a -> exists b, nth_error l' i = Some b /\ R a b.
Proof.
  induction 1 as [|a b l l' H F IH]; intros [|i] x E; try discriminate.
  - injection E as <-. exists b. auto.
  - apply IH. exact E.
Qed.

Lemma done_todo s : pdone s -> todo s = [].
Proof.
  unfold pdone, todo. induction (p_tasks s) as [|t ts IH]; intros F; [reflexivity|].
  inversion F as [|? ? H F']; subst. cbn [map concat]. rewrite H. cbn. apply IH. exact F'.
Qed.

Lemma inv_done s : inv s -> pdone s -> process_all ext cfg md m init = Ok (p_batches s).
Proof.
  intros (Len & _ & _ & FI) D. apply process_from_hist. apply Forall2_nth_error; [auto|].
  intros i b0 b H0 H1. apply (FI i); auto. rewrite (done_todo _ D). intros [].
Qed.

(** Steps still to be done by a task, in all. *)
Fixpoint left_rest (bs : list batch) (l : list nat) : nat :=
  match l with
  | [] => 0
  | j :: rest => match nth_error bs j with Some b => left_in Begin b | None => 0 end + left_rest bs rest
  end.
Definition left_task (bs : list batch) (t : task) : nat :=
  match k_todo t with
  | [] => 0
  | i :: rest => match nth_error bs i with Some b => left_in (k_pc t) b | None => 0 end + left_rest bs rest
  end.
Definition left_all (s : pstate) : nat := list_sum (map (left_task (p_batches s)) (p_tasks s)).

Lemma left_rest_ext bs bs' l :
  (forall j b b', nth_error bs j = Some b -> nth_error bs' j = Some b' -> t_num b' = t_num b) ->
  length bs' = length bs -> left_rest bs' l = left_rest bs l.
Proof.
  intros H L. induction l as [|j l IH]; [reflexivity|]. cbn [left_rest]. rewrite IH. f_equal.
  destruct (nth_error bs j) as [b|] eqn:E; destruct (nth_error bs' j) as [b'|] eqn:E'.
  - cbn. rewrite (H _ _ _ E E'). reflexivity.
  - apply nth_error_None in E'. assert (nth_error bs j <> None) by congruence.
    apply nth_error_Some in H0. lia.
  - apply nth_error_None in E. assert (nth_error bs' j <> None) by congruence.
    apply nth_error_Some in H0. lia.
  - reflexivity.
Qed.

Lemma list_sum_app' a b : list_sum (a ++ b) = (list_sum a + list_sum b)%nat.
Proof. apply list_sum_app. Qed.

(** If sequential processing succeeds, no move fails, and a move of an
    unfinished task is progress. *)
Lemma pstep_progress s k rs : inv s -> process_all ext cfg md m init = Ok rs ->
  exists s', pstep ext cfg md m s k = Ok s' /\
    ((exists t, nth_error (p_tasks s) k = Some t /\ k_todo t <> []) -> (left_all s = S (left_all s'))%nat).
Proof.
  intros (Len & ND & TO & FI) PA. apply process_from_hist in PA. unfold pstep.
  destruct (nth_error (p_tasks s) k) as [t|] eqn:Et;
    [|exists s; split; [reflexivity|intros (t & A & _); discriminate]].
  destruct (k_todo t) as [|i rest] eqn:Ek;
    [exists s; split; [reflexivity|intros (t' & A & B); injection A as <-; congruence]|].
  assert (It : In t (p_tasks s)) by (eapply nth_error_In; exact Et).
  pose proof (TO t It) as Tt. unfold task_ok in Tt. rewrite Ek in Tt.
  destruct Tt as ((b & b0 & Eb & Eb0 & Er) & Tr). rewrite Eb.
  destruct (Forall2_nth _ _ _ PA _ _ Eb0) as (r & _ & Hr). rewrite Hr in Er.
  destruct (move_progress _ _ _ _ Er) as ([[[pc' o'] b'] fin] & Em). rewrite Em. cbn [obind].
  destruct (set_nth_ok (p_batches s) i b') as (bs' & Es).
  { apply nth_error_Some. congruence. }
  rewrite Es. destruct (nth_split_list _ _ _ Et) as (tp & tq & Etl & Elen).
  rewrite Etl, <- Elen, set_nth_app. eexists. split; [reflexivity|]. intros _.
  destruct (move_num _ _ _ _ _ _ _ Em) as (Nu & Lf).
  destruct (set_nth_spec _ _ _ _ Es) as (Li & Lb & Nb).
  assert (Num : forall j c c', nth_error (p_batches s) j = Some c -> nth_error bs' j = Some c' ->
            t_num c' = t_num c).
  { intros j c c' Hc Hc'. rewrite Nb in Hc'. destruct (Nat.eqb_spec j i) as [->|]; [|congruence].
    rewrite Eb in Hc. congruence. }
  assert (Same : nth_error bs' i = Some b') by (rewrite Nb, Nat.eqb_refl; reflexivity).
  assert (TDx : NoDup (concat (map k_todo tp) ++ (i :: rest) ++ concat (map k_todo tq))).
  { unfold todo in ND. rewrite Etl, map_app, concat_app in ND. cbn [map concat] in ND. rewrite Ek in ND. exact ND. }
  assert (Ni : ~ In i (concat (map k_todo tp) ++ rest ++ concat (map k_todo tq))).
  { apply (NoDup_remove_2 (concat (map k_todo tp)) (rest ++ concat (map k_todo tq)) i). exact TDx. }
  assert (Oth : forall u, In u (tp ++ tq) -> left_task bs' u = left_task (p_batches s) u).
  { intros u Iu. unfold left_task. destruct (k_todo u) as [|i' rest'] eqn:Eu; [reflexivity|].
    rewrite (left_rest_ext _ _ rest' Num Lb). f_equal. rewrite Nb.
    destruct (Nat.eqb_spec i' i) as [->|]; [|reflexivity]. exfalso. apply Ni.
    apply in_app_or in Iu. apply in_or_app.
    destruct Iu as [Iu|Iu]; [left|right; apply in_or_app; right];
      (apply in_concat; exists (k_todo u); split; [apply in_map; exact Iu|rewrite Eu; left; reflexivity]). }
  unfold left_all. cbn [p_batches p_tasks]. rewrite Etl.
  rewrite !map_app, !list_sum_app'. cbn [map list_sum fold_right].
  assert (E1 : map (left_task bs') tp = map (left_task (p_batches s)) tp).
  { apply map_ext_in. intros u Iu. apply Oth. apply in_or_app. left. exact Iu. }
  assert (E2 : map (left_task bs') tq = map (left_task (p_batches s)) tq).
  { apply map_ext_in. intros u Iu. apply Oth. apply in_or_app. right. exact Iu. }
  rewrite E1, E2.
  assert (E3 : left_task (p_batches s) t =
               S (left_task bs' (Task (if fin then rest else i :: rest) pc' o'))).
  { unfold left_task at 1. rewrite Ek, Eb. rewrite <- (left_rest_ext _ _ rest Num Lb).
    unfold left_task. cbn [k_todo k_pc]. destruct fin.
    - destruct Lf as [-> ->]. destruct rest as [|j rest]; [reflexivity|]. cbn [left_rest]. reflexivity.
    - rewrite Same, Lf. reflexivity. }
  rewrite E3. unfold list_sum. lia.
Qed.

Lemma prun_app a b s : prun ext cfg md m s (a ++ b) =
  let! s' := prun ext cfg md m s a in prun ext cfg md m s' b.
Proof.
  revert s. induction a as [|k a IH]; intros s; cbn [app prun obind]; [reflexivity|].
  destruct (pstep ext cfg md m s k) as [s1| | |]; cbn [obind]; try reflexivity. apply IH.
Qed.

Lemma prun_progress sched rs : forall s, inv s -> process_all ext cfg md m init = Ok rs ->
  exists s', prun ext cfg md m s sched = Ok s' /\ inv s'.
Proof.
  induction sched as [|k sched IH]; intros s I PA; cbn [prun]; [eauto|].
  destruct (pstep_progress s k rs I PA) as (s1 & E & _). rewrite E. cbn [obind].
  apply IH; [eapply pstep_inv; eassumption|exact PA].
Qed.

Lemma unfinished s : pdone s \/ exists k t, nth_error (p_tasks s) k = Some t /\ k_todo t <> [].
Proof.
  unfold pdone. induction (p_tasks s) as [|t ts IH]; [left; constructor|].
  destruct (k_todo t) as [|i rest] eqn:Ek.
  - destruct IH as [D|(k & u & Hu & Nu)]; [left; constructor; assumption|right].
    exists (S k), u. auto.
  - right. exists 0%nat, t. split; [reflexivity|congruence].
Qed.

Lemma prun_finish rs n : forall s, inv s -> process_all ext cfg md m init = Ok rs ->
  (left_all s <= n)%nat -> exists more s', prun ext cfg md m s more = Ok s' /\ pdone s'.
Proof.
  induction n as [|n IH]; intros s I PA L.
  - destruct (unfinished s) as [D|(k & t & Ek & Hk)]; [exists [], s; auto|].
    destruct (pstep_progress s k rs I PA) as (s1 & E & P). exfalso.
    specialize (P (ex_intro _ t (conj Ek Hk))). lia.
  - destruct (unfinished s) as [D|(k & t & Ek & Hk)]; [exists [], s; auto|].
    destruct (pstep_progress s k rs I PA) as (s1 & E & P).
    specialize (P (ex_intro _ t (conj Ek Hk))).
    destruct (IH s1) as (more & s2 & R & D); [eapply pstep_inv; eassumption|exact PA|lia|].
    exists (k :: more), s2. cbn [prun]. rewrite E. auto.
Qed.

End Run.

(** * C17 *)

Lemma C17_result_l ext cfg md m bs ranges sched s :
  Permutation (concat ranges) (seq 0 (length bs)) ->
  prun ext cfg md m (pstart bs ranges) sched = Ok s -> pdone s ->
  process_all ext cfg md m bs = Ok (p_batches s).
Proof.
  intros P E D. eapply inv_done; [|exact D]. eapply prun_inv; [apply start_inv; exact P|exact E].
Qed.

Lemma C17_completes_l ext cfg md m bs ranges sched rs :
  Permutation (concat ranges) (seq 0 (length bs)) ->
  process_all ext cfg md m bs = Ok rs ->
  exists more s, prun ext cfg md m (pstart bs ranges) (sched ++ more) = Ok s /\
    pdone s /\ p_batches s = rs.
Proof.
  intros P PA.
  destruct (prun_progress ext cfg md m bs sched rs _ (start_inv ext cfg md m bs ranges P) PA) as (s1 & E1 & I1).
  destruct (prun_finish ext cfg md m bs rs _ s1 I1 PA (le_n _)) as (more & s2 & E2 & D2).
  exists more, s2. rewrite prun_app, E1. cbn [obind]. split; [exact E2|]. split; [exact D2|].
  assert (E : prun ext cfg md m (pstart bs ranges) (sched ++ more) = Ok s2)
    by (rewrite prun_app, E1; exact E2).
  pose proof (C17_result_l _ _ _ _ _ _ _ _ P E D2) as R. rewrite PA in R.
  apply Ok_inj in R. congruence.
Qed.

Lemma C17_total_l ext cfg md m bs ranges rs :
  Permutation (concat ranges) (seq 0 (length bs)) ->
  process_all ext cfg md m bs = Ok rs ->
  forall sched, exists s, prun ext cfg md m (pstart bs ranges) sched = Ok s.
Proof.
  intros P PA sched.
  destruct (prun_progress ext cfg md m bs sched rs _ (start_inv ext cfg md m bs ranges P) PA) as (s1 & E1 & _).
  eauto.
Qed.
