(** The two threads of the streaming program. *)
From Coq Require Import Lia.
From Verif Require Export S_StreamCli.
Global Open Scope Z_scope.

Section Threads.
Context {A : Type}.
Implicit Types (hits t q b lost rest : list A) (o full : list (list A)) (s : sys A).

Definition all_full o : Prop := Forall (fun b => zlen b = 10000) o.

(** Invariant of the reachable states. *)
Definition inv (opened : bool) hits s : Prop :=
  (y_done s = true -> y_todo s = [] /\ opened = true) /\
  match y_pc s with
  | PTest | PTry =>
      hits = concat (y_out s) ++ y_batch s ++ y_queue s ++ y_todo s /\
      all_full (y_out s) /\ zlen (y_batch s) < 10000
  | PDrain =>
      y_done s = true /\
      exists lost, batched hits (y_out s) lost (y_batch s ++ y_queue s)
  | PEnd =>
      y_done s = true /\ y_queue s = [] /\
      exists full lost rest, batched hits full lost rest /\
        y_out s = full ++ nonempty_batch rest
  end.

Lemma zlen_cat (a b : list A) : zlen (a ++ b) = zlen a + zlen b.
Proof. unfold zlen. rewrite app_length. lia. Qed.

Lemma inv_start opened hits : inv opened hits (sys_start hits).
Proof.
  unfold inv, sys_start. cbn [y_done y_pc y_out y_batch y_queue y_todo concat app].
  split; [discriminate|]. split; [reflexivity|]. split; [constructor|reflexivity].
Qed.

Lemma inv_step opened hits s s' : inv opened hits s -> sys_step opened s s' -> inv opened hits s'.
Proof.
  intros [Hd Hi] Hst.
  destruct Hst as [h t q d pc b o|q pc b o Hop|t q b o|t q b o|t d b o|t h q d b o Hf|t h q d b o Hf|t h q d b o|t d b o];
    unfold inv in *; cbn [y_done y_pc y_out y_batch y_queue y_todo] in *.
  - split; [intros E; destruct (Hd E) as [C _]; discriminate C|].
    destruct pc.
    + destruct Hi as (E & H1 & H2). split; [|auto]. rewrite E, <- !app_assoc. reflexivity.
    + destruct Hi as (E & H1 & H2). split; [|auto]. rewrite E, <- !app_assoc. reflexivity.
    + destruct Hi as [E _]. destruct (Hd E) as [C _]. discriminate C.
    + destruct Hi as [E _]. destruct (Hd E) as [C _]. discriminate C.
  - split; [auto|]. destruct pc; try exact Hi.
    + destruct Hi as [E _]. discriminate E.
    + destruct Hi as [E _]. discriminate E.
  - split; [discriminate|exact Hi].
  - split; [auto|]. split; [reflexivity|]. destruct Hi as (E & H1 & H2).
    destruct (Hd eq_refl) as [-> _]. rewrite app_nil_r in E.
    exists b. split; [exact E|]. split; assumption.
  - split; [exact Hd|exact Hi].
  - split; [exact Hd|]. destruct Hi as (E & H1 & H2).
    split; [rewrite E, <- !app_assoc; reflexivity|]. split; [exact H1|].
    unfold batch_full in Hf. destruct (Z.geb_spec (zlen (b ++ [h])) 10000); [discriminate|lia].
  - split; [exact Hd|]. destruct Hi as (E & H1 & H2).
    split; [rewrite E, concat_app; cbn [concat app]; rewrite app_nil_r, <- !app_assoc; reflexivity|].
    split; [|reflexivity]. apply Forall_app. split; [exact H1|]. constructor; [|constructor].
    unfold batch_full in Hf. destruct (Z.geb_spec (zlen (b ++ [h])) 10000) as [C|C]; [|discriminate].
    rewrite zlen_cat in *. change (zlen [h]) with 1 in *. lia.
  - split; [exact Hd|]. destruct Hi as (Ed & lost & E & H1 & H2). split; [exact Ed|].
    exists lost. split; [rewrite E, <- !app_assoc; reflexivity|]. auto.
  - split; [exact Hd|]. destruct Hi as (Ed & lost & E & H1 & H2). split; [exact Ed|].
    split; [reflexivity|]. rewrite app_nil_r in E. exists o, lost, b.
    split; [split; auto|]. reflexivity.
Qed.

Lemma inv_steps opened hits s s' : inv opened hits s -> sys_steps opened s s' -> inv opened hits s'.
Proof. intros Hi H. induction H as [s|s s1 s2 H1 H2 IH]; [exact Hi|]. apply IH. eapply inv_step; eauto. Qed.

Lemma C42_safety_l hits s : sys_steps true (sys_start hits) s -> y_pc s = PEnd ->
  y_todo s = [] /\ y_queue s = [] /\
  exists full lost rest, batched hits full lost rest /\ y_out s = full ++ nonempty_batch rest.
Proof.
  intros H Hpc. destruct (inv_steps _ _ _ _ (inv_start true hits) H) as [Hd Hi].
  rewrite Hpc in Hi. destruct Hi as (Ed & Hq & R). destruct (Hd Ed) as [Ht _]. auto.
Qed.

(** * Construction of executions *)

Lemma steps_trans opened s1 s2 s3 : sys_steps opened s1 s2 -> sys_steps opened s2 s3 ->
  sys_steps opened s1 s3.
Proof. intros H H2. induction H as [s|s s' s'' H1 H IH]; [exact H2|]. econstructor; eauto. Qed.
Lemma steps_one opened s1 s2 : sys_step opened s1 s2 -> sys_steps opened s1 s2.
Proof. intros H. econstructor; [exact H|constructor]. Qed.

Lemma feed h t b o : batch_full (b ++ [h]) = false ->
  sys_steps true (Sys (h :: t) [] false PTest b o) (Sys t [] false PTest (b ++ [h]) o).
Proof.
  intros H. econstructor; [apply y_enqueue|]. econstructor; [apply y_goon|].
  econstructor; [apply y_take; exact H|]. constructor.
Qed.
Lemma feed_flush h t b o : batch_full (b ++ [h]) = true ->
  sys_steps true (Sys (h :: t) [] false PTest b o) (Sys t [] false PTest [] (o ++ [b ++ [h]])).
Proof.
  intros H. econstructor; [apply y_enqueue|]. econstructor; [apply y_goon|].
  econstructor; [apply y_flush; exact H|]. constructor.
Qed.

Lemma not_full b : zlen b < 10000 -> batch_full b = false.
Proof. unfold batch_full. intros H. destruct (Z.geb_spec (zlen b) 10000); [lia|reflexivity]. Qed.

Lemma feed_list l : forall t b o, zlen (b ++ l) < 10000 ->
  sys_steps true (Sys (l ++ t) [] false PTest b o) (Sys t [] false PTest (b ++ l) o).
Proof.
  induction l as [|h l IH]; intros t b o H.
  - rewrite app_nil_r. constructor.
  - cbn [app]. eapply steps_trans.
    + apply feed. apply not_full. rewrite zlen_cat in *. unfold zlen in *. cbn [length] in *. lia.
    + replace (b ++ h :: l) with ((b ++ [h]) ++ l) by (rewrite <- app_assoc; reflexivity).
      apply IH. rewrite <- app_assoc. exact H.
Qed.

Lemma feed_batch l t o : zlen l = 10000 ->
  sys_steps true (Sys (l ++ t) [] false PTest [] o) (Sys t [] false PTest [] (o ++ [l])).
Proof.
  intros H. assert (Hne : l <> []) by (intros ->; discriminate H).
  destruct (exists_last Hne) as (l0 & h & ->).
  rewrite zlen_cat in H. change (zlen [h]) with 1 in H.
  rewrite <- app_assoc. cbn [app]. eapply steps_trans.
  - apply (feed_list l0 (h :: t) [] o). cbn [app]. lia.
  - apply (feed_flush h t ([] ++ l0) o). cbn [app]. unfold batch_full.
    rewrite zlen_cat. change (zlen [h]) with 1. destruct (Z.geb_spec (zlen l0 + 1) 10000); [reflexivity|lia].
Qed.

Lemma feed_batches full : forall t o, all_full full ->
  sys_steps true (Sys (concat full ++ t) [] false PTest [] o) (Sys t [] false PTest [] (o ++ full)).
Proof.
  induction full as [|l full IH]; intros t o H.
  - rewrite app_nil_r. constructor.
  - apply Forall_cons_iff in H. destruct H as [Hl H]. cbn [concat]. rewrite <- app_assoc.
    eapply steps_trans; [apply feed_batch; exact Hl|].
    replace (o ++ l :: full) with ((o ++ [l]) ++ full) by (rewrite <- app_assoc; reflexivity).
    apply IH. exact H.
Qed.

Lemma enqueue_all opened t : forall q d pc b o,
  sys_steps opened (Sys t q d pc b o) (Sys [] (q ++ t) d pc b o).
Proof.
  induction t as [|h t IH]; intros q d pc b o.
  - rewrite app_nil_r. constructor.
  - econstructor; [apply y_enqueue|].
    replace (q ++ h :: t) with ((q ++ [h]) ++ t) by (rewrite <- app_assoc; reflexivity).
    apply IH.
Qed.

Lemma drain_all opened q : forall t d b o,
  sys_steps opened (Sys t q d PDrain b o)
    (Sys t [] d PEnd (b ++ q) (o ++ nonempty_batch (b ++ q))).
Proof.
  induction q as [|h q IH]; intros t d b o.
  - rewrite app_nil_r. apply steps_one. apply y_end.
  - econstructor; [apply y_drain|].
    replace (b ++ h :: q) with ((b ++ [h]) ++ q) by (rewrite <- app_assoc; reflexivity).
    apply IH.
Qed.

Lemma C42_complete_l hits full lost rest : batched hits full lost rest ->
  exists s, sys_steps true (sys_start hits) s /\ y_pc s = PEnd /\
    y_out s = full ++ nonempty_batch rest.
Proof.
  intros (E & Hf & Hl).
  exists (Sys [] [] true PEnd rest (full ++ nonempty_batch rest)). split; [|split; reflexivity].
  rewrite E. unfold sys_start.
  eapply steps_trans; [apply feed_batches; exact Hf|]. cbn [app].
  eapply steps_trans; [apply (feed_list lost rest [] full); exact Hl|]. cbn [app].
  eapply steps_trans; [apply enqueue_all|]. cbn [app].
  econstructor; [apply y_finish; reflexivity|].
  econstructor; [apply y_stop|].
  apply (drain_all true rest [] true [] full).
Qed.

(** The program can always be continued to its end. *)
Lemma C42_can_end_l hits s : sys_steps true (sys_start hits) s ->
  exists s', sys_steps true s s' /\ y_pc s' = PEnd.
Proof.
  intros H. pose proof (inv_steps _ _ _ _ (inv_start true hits) H) as [Hd Hi]. clear H.
  destruct s as [t q d pc b o]. cbn [y_done y_todo y_pc] in *.
  assert (K : exists q', sys_steps true (Sys t q d pc b o) (Sys [] q' true pc b o)).
  { destruct d.
    - destruct (Hd eq_refl) as [-> _]. exists q. constructor.
    - exists (q ++ t). eapply steps_trans; [apply enqueue_all|]. apply steps_one. apply y_finish. reflexivity. }
  destruct K as [q' K].
  assert (D : forall q1 b1 o1, exists s', sys_steps true (Sys [] q1 true PTest b1 o1) s' /\ y_pc s' = PEnd).
  { intros q1 b1 o1. eexists. split; [econstructor; [apply y_stop|apply drain_all]|reflexivity]. }
  destruct pc.
  - destruct (D q' b o) as (s' & H1 & H2). exists s'. split; [eapply steps_trans; eauto|exact H2].
  - destruct q' as [|h q'].
    + destruct (D [] b o) as (s' & H1 & H2). exists s'. split; [|exact H2].
      eapply steps_trans; [exact K|]. econstructor; [apply y_miss|exact H1].
    + destruct (batch_full (b ++ [h])) eqn:Ef.
      * destruct (D q' [] (o ++ [b ++ [h]])) as (s' & H1 & H2). exists s'. split; [|exact H2].
        eapply steps_trans; [exact K|]. econstructor; [apply y_flush; exact Ef|exact H1].
      * destruct (D q' (b ++ [h]) o) as (s' & H1 & H2). exists s'. split; [|exact H2].
        eapply steps_trans; [exact K|]. econstructor; [apply y_take; exact Ef|exact H1].
  - eexists. split; [eapply steps_trans; [exact K|apply drain_all]|reflexivity].
  - eexists. split; [exact K|reflexivity].
Qed.

(** After [done] few steps remain. *)
Definition budget s : Z :=
  zlen (y_queue s) + match y_pc s with PTry => 3 | PTest => 2 | PDrain => 1 | PEnd => 0 end.

Lemma budget_step opened s s' : sys_step opened s s' -> y_done s = true -> y_todo s = [] ->
  y_done s' = true /\ y_todo s' = [] /\ budget s' <= budget s - 1.
Proof.
  intros H Hd Ht.
  destruct H; cbn [y_done y_todo] in *; try discriminate; unfold budget; cbn [y_queue y_pc];
    (split; [auto|]); (split; [auto|]); unfold zlen; cbn [length]; lia.
Qed.

Lemma budget_run opened n s s' : sys_run opened n s s' -> y_done s = true -> y_todo s = [] ->
  n <= budget s.
Proof.
  intros H. induction H as [s|n s s1 s2 H1 H IH]; intros Hd Ht.
  - unfold budget, zlen. destruct (y_pc s); lia.
  - destruct (budget_step _ _ _ H1 Hd Ht) as (Hd' & Ht' & Hb). specialize (IH Hd' Ht'). lia.
Qed.

Lemma C42_ends_l hits s n s' : sys_steps true (sys_start hits) s -> y_done s = true ->
  sys_run true n s s' -> n <= zlen (y_queue s) + 3.
Proof.
  intros H Hd Hr. destruct (inv_steps _ _ _ _ (inv_start true hits) H) as [Ht _].
  destruct (Ht Hd) as [Et _]. pose proof (budget_run _ _ _ _ Hr Hd Et) as B.
  unfold budget in B. destruct (y_pc s); lia.
Qed.

(** Without the file the program never ends. *)
Lemma C42_unopened_l s : sys_steps false (sys_start (A := A) []) s ->
  y_pc s <> PEnd /\ y_out s = [] /\ exists s', sys_step false s s'.
Proof.
  assert (G : forall s s', sys_steps (A := A) false s s' ->
    (exists pc, (pc = PTest \/ pc = PTry) /\ s = Sys [] [] false pc [] []) ->
    exists pc, (pc = PTest \/ pc = PTry) /\ s' = Sys [] [] false pc [] []).
  { intros s1 s2 H. induction H as [s1|s1 s2 s3 H1 H IH]; [auto|].
    intros (pc & Hpc & ->). apply IH. inversion H1; subst; try discriminate.
    - exists PTry. auto.
    - exists PTest. auto.
    - destruct Hpc; discriminate. }
  intros H. destruct (G _ _ H) as (pc & Hpc & ->); [exists PTest; auto|].
  cbn [y_pc y_out]. split; [destruct Hpc as [-> | ->]; discriminate|]. split; [reflexivity|].
  destruct Hpc as [-> | ->]; eexists; [apply y_goon|apply y_miss].
Qed.

(** Nothing is lost exactly if no hit is pending when [done] is seen. *)
Lemma C42_all_lost_l hits : zlen hits < 10000 ->
  exists s, sys_steps true (sys_start hits) s /\ y_pc s = PEnd /\ y_out s = [].
Proof.
  intros H. destruct (C42_complete_l hits [] hits []) as (s & H1 & H2 & H3).
  - split; [cbn [concat app]; rewrite app_nil_r; reflexivity|]. split; [constructor|exact H].
  - exists s. auto.
Qed.
Lemma C42_none_lost_l hits :
  exists s, sys_steps true (sys_start hits) s /\ y_pc s = PEnd /\ concat (y_out s) = hits.
Proof.
  destruct (C42_complete_l hits [] [] hits) as (s & H1 & H2 & H3).
  - split; [reflexivity|]. split; [constructor|reflexivity].
  - exists s. split; [exact H1|]. split; [exact H2|]. rewrite H3. destruct hits; [reflexivity|].
    cbn. rewrite app_nil_r. reflexivity.
Qed.
End Threads.
