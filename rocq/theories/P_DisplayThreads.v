(** Lemmas about the two threads of the display program. *)
From Coq Require Import Lia.
From Verif Require Export S_Display M_Display.
From Coq Require Import ZifyBool Zify.
Ltac Zify.zify_post_hook ::= Z.to_euclidean_division_equations.
Global Open Scope Z_scope.

Lemma next_slot_spec i : Z.of_nat (next_slot i) = (Z.of_nat i + 1) mod 4096.
Proof.
  unfold next_slot. change 4095%nat with (Nat.ones 12). rewrite Nat.land_ones, Nat2Z.inj_mod.
  rewrite Nat2Z.inj_add. reflexivity.
Qed.

Lemma set_nth_z {A} (l : list A) i a : Z.of_nat i < Z.of_nat (length l) -> exists l', set_nth l i a = Some l'.
Proof.
  revert i. induction l as [|x l IH]; intros i H; cbn [length] in H; [lia|].
  destruct i as [|i]; cbn [set_nth]; [eexists; reflexivity|].
  destruct (IH i) as [l' E]; [lia|]. rewrite E. eexists. reflexivity.
Qed.
Lemma set_nth_get {A} (l : list A) i a l' : set_nth l i a = Some l' ->
  length l' = length l /\ nth_error l' i = Some a /\ forall j, j <> i -> nth_error l' j = nth_error l j.
Proof.
  revert i l'. induction l as [|x l IH]; intros i l' H; cbn [set_nth] in H; [discriminate|].
  destruct i as [|i].
  - injection H as <-. split; [reflexivity|]. split; [reflexivity|]. intros [|j] N; [contradiction|reflexivity].
  - destruct (set_nth l i a) as [r|] eqn:E; [|discriminate]. injection H as <-.
    destruct (IH _ _ E) as (L & G & O). split; [cbn [length]; lia|]. split; [exact G|].
    intros [|j] N; [reflexivity|]. apply O. lia.
Qed.

Section Threads.
  Context {A : Type}.
  Implicit Types (s : rsys A) (hits done : list A).

  Definition in_slot (ring : list (option A)) (j : nat) (h : A) : Prop :=
    nth_error ring (Z.to_nat (Z.of_nat j mod 4096)) = Some (Some h).

  Definition prod_ok s done (m : nat) : Prop :=
    match g_pp s with
    | PrWait => True
    | PrTest | PrCopy => g_todo s <> [] /\ Z.of_nat (length done) - Z.of_nat m < 4095
    | PrPublish => Z.of_nat (length done) - Z.of_nat m < 4095 /\
                   exists h t, g_todo s = h :: t /\ in_slot (g_ring s) (length done) h
    | PrDone => g_todo s = []
    end.

  Definition used (c : cons_pc) (m : nat) : nat := match c with CoNext => S m | _ => m end.

  Record inv hits s done (m : nat) : Prop := Inv
    { i_hits : hits = done ++ g_todo s;
      i_len : Z.of_nat (length (g_ring s)) = 4096;
      i_pi : Z.of_nat (g_pi s) = Z.of_nat (length done) mod 4096;
      i_ci : Z.of_nat (g_ci s) = Z.of_nat m mod 4096;
      i_lim : Z.of_nat (length done) - Z.of_nat m <= 4095;
      i_used : (used (g_cp s) m <= length done)%nat;
      i_out : g_out s = firstn (used (g_cp s) m) done;
      i_ring : forall j h, (m <= j)%nat -> nth_error done j = Some h -> in_slot (g_ring s) j h;
      i_prod : prod_ok s done m;
      i_kill : g_kill s = true -> g_pp s = PrDone;
      i_end : g_cp s = CoEnd -> g_kill s = true }.

  Lemma inv_start hits : inv hits (rstart hits) [] 0.
  Proof.
    split; cbn [rstart g_todo g_ring g_pi g_ci g_pp g_cp g_kill g_out used length]; try reflexivity; try lia;
      try discriminate.
    intros [|j] h _ H; discriminate H.
  Qed.

  Lemma slot_pi s done : Z.of_nat (g_pi s) = Z.of_nat (length done) mod 4096 ->
    Z.to_nat (Z.of_nat (length done) mod 4096) = g_pi s.
  Proof. lia. Qed.

  Lemma firstn_next (l : list A) n h : nth_error l n = Some h -> firstn (S n) l = firstn n l ++ [h].
  Proof.
    revert n. induction l as [|x l IH]; intros [|n] H; cbn in H; try discriminate.
    - injection H as ->. reflexivity.
    - cbn [firstn app]. f_equal. apply IH. exact H.
  Qed.

  Lemma nth_some (l : list A) n : (n < length l)%nat -> exists h, nth_error l n = Some h.
  Proof. intros H. destruct (nth_error l n) as [h|] eqn:E; [exists h; reflexivity|]. apply nth_error_None in E. lia. Qed.

  Lemma inv_step hits s r done m : inv hits s done m -> rstep s r ->
    exists s' done' m', r = Some s' /\ inv hits s' done' m'.
  Proof.
    intros [Hh Hl Hp Hc Hm Hu Ho Hr Hd Hk He] R.
    destruct R;
      cbn [g_todo g_ring g_pi g_ci g_pp g_cp g_kill g_out used] in *; unfold prod_ok in Hd; cbn [g_pp g_todo g_ring] in Hd.
    - eexists _, done, m. split; [reflexivity|]. split; try assumption; cbn.
      + unfold prod_ok. cbn. split; [discriminate|]. assert (Z.of_nat (next_slot pi) <> Z.of_nat ci) by lia.
        rewrite next_slot_spec in *. lia.
      + intros K. specialize (Hk K). discriminate Hk.
    - eexists _, done, m. split; [reflexivity|]. split; try assumption; cbn.
      intros K. specialize (Hk K). discriminate Hk.
    - exfalso. assert (E : Z.of_nat (next_slot pi) = Z.of_nat ci) by lia. rewrite next_slot_spec in E.
      destruct Hd as [_ Hd]. assert (m <= length done)%nat by (destruct cp; cbn in Hu; lia). lia.
    - destruct (set_nth_get _ _ _ _ H) as (L & G & O). destruct Hd as [_ Hd].
      assert (m <= length done)%nat by (destruct cp; cbn in Hu; lia).
      eexists _, done, m. split; [reflexivity|]. split; try assumption; cbn.
      + lia.
      + intros j h0 Hj Nj. unfold in_slot. rewrite O; [apply Hr; assumption|].
        assert (Lj : (j < length done)%nat) by (apply nth_error_Some; rewrite Nj; discriminate). lia.
      + unfold prod_ok. cbn. split; [exact Hd|]. exists h, t. split; [reflexivity|]. unfold in_slot.
        replace (Z.to_nat (Z.of_nat (length done) mod 4096)) with pi by lia. exact G.
      + intros K. specialize (Hk K). discriminate Hk.
    - destruct Hd as (Hd & h' & t' & E & S'). injection E as <- <-.
      assert (m <= length done)%nat by (destruct cp; cbn in Hu; lia).
      eexists _, (done ++ [h]), m. split; [reflexivity|].
      assert (Ln : length (done ++ [h]) = S (length done)) by (rewrite app_length; cbn [length]; lia).
      split; try assumption; cbn [g_todo g_ring g_pi g_ci g_pp g_cp g_kill g_out]; try rewrite Ln.
      + rewrite <- app_assoc. exact Hh.
      + rewrite next_slot_spec. lia.
      + lia.
      + lia.
      + rewrite Ho, firstn_app. replace (used cp m - length done)%nat with 0%nat by lia. rewrite app_nil_r. reflexivity.
      + intros j h0 Hj Nj. destruct (Nat.eq_dec j (length done)) as [->|Nd].
        * rewrite nth_error_app2, Nat.sub_diag in Nj by lia. injection Nj as <-. exact S'.
        * apply Hr; [exact Hj|]. rewrite nth_error_app1 in Nj; [exact Nj|].
          assert (Lj : (j < length (done ++ [h]))%nat) by (apply nth_error_Some; rewrite Nj; discriminate). lia.
      + exact I.
      + intros K. specialize (Hk K). discriminate Hk.
    - eexists _, done, m. split; [reflexivity|]. split; try assumption; cbn; reflexivity.
    - eexists _, done, m. split; [reflexivity|]. split; try assumption; cbn; reflexivity.
    - eexists _, done, m. split; [reflexivity|]. split; try assumption; cbn; discriminate.
    - eexists _, done, m. split; [reflexivity|]. split; try assumption; cbn; discriminate.
    - eexists _, done, m. split; [reflexivity|]. split; try assumption; cbn; reflexivity.
    - eexists _, done, m. split; [reflexivity|]. split; try assumption; cbn; discriminate.
    - assert (Lm : (m < length done)%nat) by lia.
      destruct (nth_some done m Lm) as [h' N]. pose proof (Hr m h' (le_n m) N) as S'. unfold in_slot in S'.
      replace (Z.to_nat (Z.of_nat m mod 4096)) with ci in S' by lia. rewrite S' in H0. injection H0 as <-.
      eexists _, done, m. split; [reflexivity|]. split; try assumption; cbn [g_todo g_ring g_pi g_ci g_pp g_cp g_kill g_out used].
      + rewrite (firstn_next _ _ _ N), Ho. reflexivity.
      + discriminate.
    - exfalso. assert (Lm : (m < length done)%nat) by lia.
      destruct (nth_some done m Lm) as [h' N]. pose proof (Hr m h' (le_n m) N) as S'. unfold in_slot in S'.
      replace (Z.to_nat (Z.of_nat m mod 4096)) with ci in S' by lia. exact (H0 h' S').
    - eexists _, done, (S m). split; [reflexivity|].
      split; try assumption; cbn [g_todo g_ring g_pi g_ci g_pp g_cp g_kill g_out used].
      + rewrite next_slot_spec. lia.
      + lia.
      + intros j h Hj. apply Hr. lia.
      + unfold prod_ok in *. cbn in *. destruct pp; intuition lia.
      + discriminate.
  Qed.

  Lemma inv_steps hits s r : rsteps s r -> forall done m, inv hits s done m ->
    exists s' done' m', r = Some s' /\ inv hits s' done' m'.
  Proof.
    induction 1 as [s|s s' r R RS IH|s R]; intros done m I.
    - exists s, done, m. auto.
    - destruct (inv_step _ _ _ _ _ I R) as (s1 & d1 & m1 & E & I1). injection E as <-. exact (IH _ _ I1).
    - destruct (inv_step _ _ _ _ _ I R) as (s1 & d1 & m1 & E & I1). discriminate E.
  Qed.

  Lemma steps_trans s s1 r : rsteps s (Some s1) -> rsteps s1 r -> rsteps s r.
  Proof.
    intros H. remember (Some s1) as o eqn:E. revert E. induction H as [s|s s' r' R RS IH|s R]; intros E H1.
    - injection E as ->. exact H1.
    - subst. eapply rs_more; [exact R|]. apply IH; [reflexivity|exact H1].
    - discriminate E.
  Qed.
  Lemma step_one s s1 : rstep s (Some s1) -> rsteps s (Some s1).
  Proof. intros H. eapply rs_more; [exact H|apply rs_none]. Qed.

  (** ** What has been used is a prefix of the hits of the file. *)
  Lemma threads_l hits r : rsteps (rstart hits) r ->
    exists s rest, r = Some s /\ hits = g_out s ++ rest /\
      (g_cp s = CoEnd -> Z.of_nat (length rest) <= 4095).
  Proof.
    intros H. destruct (inv_steps hits _ _ H [] 0%nat (inv_start hits)) as (s & done & m & -> & I).
    destruct I as [Hh Hl Hp Hc Hm Hu Ho Hr Hd Hk He].
    exists s, (skipn (used (g_cp s) m) done ++ g_todo s). split; [reflexivity|]. split.
    - rewrite Ho, app_assoc, firstn_skipn. exact Hh.
    - intros E. specialize (He E). specialize (Hk He). unfold prod_ok in Hd. rewrite Hk in Hd.
      rewrite Hd, app_nil_r, skipn_length. rewrite E in *. cbn [used] in *. lia.
  Qed.

  (** ** Schedules *)

  (** The reader hands over one hit. *)
  Lemma give hits h t ring pi ci cp out done m :
    inv hits (RSys (h :: t) ring pi ci PrWait cp false out) done m ->
    Z.of_nat (length done) - Z.of_nat m < 4095 ->
    exists ring' pi',
      rsteps (RSys (h :: t) ring pi ci PrWait cp false out) (Some (RSys t ring' pi' ci PrWait cp false out)) /\
      inv hits (RSys t ring' pi' ci PrWait cp false out) (done ++ [h]) m.
  Proof.
    intros I Hn. pose proof I as [Hh Hl Hp Hc Hm Hu Ho Hr Hd Hk He].
    cbn [g_todo g_ring g_pi g_ci g_pp g_cp g_kill g_out used] in *.
    assert (m <= length done)%nat by (destruct cp; cbn in Hu; lia).
    assert (N : next_slot pi <> ci) by (intros E; assert (Z.of_nat (next_slot pi) = Z.of_nat ci) by lia;
      rewrite next_slot_spec in *; lia).
    destruct (set_nth_z ring pi (Some h)) as [ring' E]; [lia|]. exists ring', (next_slot pi).
    assert (S1 : rsteps (RSys (h :: t) ring pi ci PrWait cp false out)
                   (Some (RSys t ring' (next_slot pi) ci PrWait cp false out))).
    { eapply rs_more; [apply r_free; exact N|]. eapply rs_more; [apply r_again; exact N|].
      eapply rs_more; [eapply r_copy; exact E|]. eapply rs_more; [apply r_publish|]. apply rs_none. }
    split; [exact S1|]. destruct (set_nth_get _ _ _ _ E) as (L & G & O).
    assert (Ln : length (done ++ [h]) = S (length done)) by (rewrite app_length; cbn [length]; lia).
    split; cbn [g_todo g_ring g_pi g_ci g_pp g_cp g_kill g_out]; try rewrite Ln; try lia; try discriminate; try exact I.
    - rewrite <- app_assoc. exact Hh.
    - rewrite next_slot_spec. lia.
    - rewrite Ho, firstn_app. replace (used cp m - length done)%nat with 0%nat by lia. rewrite app_nil_r. reflexivity.
    - intros j h0 Hj Nj. unfold in_slot. destruct (Nat.eq_dec j (length done)) as [->|Nd].
      + rewrite nth_error_app2, Nat.sub_diag in Nj by lia. injection Nj as <-.
        replace (Z.to_nat (Z.of_nat (length done) mod 4096)) with pi by lia. exact G.
      + assert (Lj : (j < length (done ++ [h]))%nat) by (apply nth_error_Some; rewrite Nj; discriminate).
        rewrite O by lia. apply Hr; [exact Hj|]. rewrite nth_error_app1 in Nj; [exact Nj|lia].
    - exact Logic.I.
  Qed.

  (** The reader hands over as many hits as there is room for. *)
  Lemma give_all hits b t : forall ring pi ci cp out done m,
    inv hits (RSys (b ++ t) ring pi ci PrWait cp false out) done m ->
    Z.of_nat (length done) + Z.of_nat (length b) - Z.of_nat m <= 4095 ->
    exists ring' pi',
      rsteps (RSys (b ++ t) ring pi ci PrWait cp false out) (Some (RSys t ring' pi' ci PrWait cp false out)) /\
      inv hits (RSys t ring' pi' ci PrWait cp false out) (done ++ b) m.
  Proof.
    induction b as [|h b IH]; intros ring pi ci cp out done m I Hn.
    - exists ring, pi. rewrite app_nil_r. split; [apply rs_none|exact I].
    - cbn [length app] in *. destruct (give _ _ _ _ _ _ _ _ _ _ I) as (r1 & p1 & S1 & I1); [lia|].
      destruct (IH _ _ _ _ _ _ _ I1) as (r2 & p2 & S2 & I2); [rewrite app_length; cbn [length]; lia|].
      exists r2, p2. split; [eapply steps_trans; [exact S1|exact S2]|]. rewrite <- app_assoc in I2. exact I2.
  Qed.

  (** The worker uses one hit. *)
  Lemma take hits t ring pi ci pp k out done m :
    inv hits (RSys t ring pi ci pp CoTest k out) done m -> (m < length done)%nat ->
    exists ci' out',
      rsteps (RSys t ring pi ci pp CoTest k out) (Some (RSys t ring pi ci' pp CoTest k out')) /\
      inv hits (RSys t ring pi ci' pp CoTest k out') done (S m).
  Proof.
    intros I Hn. pose proof I as [Hh Hl Hp Hc Hm Hu Ho Hr Hd Hk He].
    cbn [g_todo g_ring g_pi g_ci g_pp g_cp g_kill g_out used] in *.
    destruct (nth_some done m Hn) as [h N]. pose proof (Hr m h (le_n m) N) as S'. unfold in_slot in S'.
    replace (Z.to_nat (Z.of_nat m mod 4096)) with ci in S' by lia.
    exists (next_slot ci), (out ++ [h]). split.
    - eapply rs_more; [apply r_use; [lia|exact S']|]. eapply rs_more; [apply r_next|]. apply rs_none.
    - split; try assumption; cbn [g_todo g_ring g_pi g_ci g_pp g_cp g_kill g_out used].
      + rewrite next_slot_spec. lia.
      + lia.
      + rewrite (firstn_next _ _ _ N), Ho. reflexivity.
      + intros j h0 Hj. apply Hr. lia.
      + unfold prod_ok in *. cbn in *. destruct pp; intuition lia.
  Qed.
  Lemma take_all hits t ring pi pp k done : forall n ci out m,
    inv hits (RSys t ring pi ci pp CoTest k out) done m -> (m + n = length done)%nat ->
    exists ci',
      rsteps (RSys t ring pi ci pp CoTest k out) (Some (RSys t ring pi ci' pp CoTest k done)) /\
      inv hits (RSys t ring pi ci' pp CoTest k done) done (length done).
  Proof.
    induction n as [|n IH]; intros ci out m I Hn.
    - assert (m = length done) by lia. subst m.
      pose proof (i_out _ _ _ _ I) as Ho. cbn in Ho. rewrite firstn_all in Ho. subst out.
      exists ci. split; [apply rs_none|exact I].
    - destruct (take _ _ _ _ _ _ _ _ _ _ I) as (c1 & o1 & S1 & I1); [lia|].
      destruct (IH _ _ _ I1) as (c2 & S2 & I2); [lia|]. exists c2. split; [eapply steps_trans; [exact S1|exact S2]|exact I2].
  Qed.

  (** The worker keeps up with the reader. *)
  Lemma keep_up hits b t : forall ring pi ci done,
    inv hits (RSys (b ++ t) ring pi ci PrWait CoTest false done) done (length done) ->
    exists ring' pi' ci',
      rsteps (RSys (b ++ t) ring pi ci PrWait CoTest false done)
        (Some (RSys t ring' pi' ci' PrWait CoTest false (done ++ b))) /\
      inv hits (RSys t ring' pi' ci' PrWait CoTest false (done ++ b)) (done ++ b) (length (done ++ b)).
  Proof.
    induction b as [|h b IH]; intros ring pi ci done I.
    - exists ring, pi, ci. rewrite app_nil_r. split; [apply rs_none|exact I].
    - cbn [app] in *. destruct (give _ _ _ _ _ _ _ _ _ _ I) as (r1 & p1 & S1 & I1); [lia|].
      destruct (take_all _ _ _ _ _ _ _ 1%nat _ _ _ I1) as (c1 & S2 & I2); [rewrite app_length; cbn [length]; lia|].
      destruct (IH _ _ _ _ I2) as (r3 & p3 & c3 & S3 & I3).
      exists r3, p3, c3. rewrite <- app_assoc in S3, I3.
      split; [eapply steps_trans; [exact S1|]; eapply steps_trans; [exact S2|exact S3]|exact I3].
  Qed.

  (** Every split of the hits with at most 4095 in the second part is possible
      at the end. *)
  Lemma schedule_l a b : Z.of_nat (length b) <= 4095 ->
    exists s, rsteps (rstart (a ++ b)) (Some s) /\ g_cp s = CoEnd /\ g_out s = a.
  Proof.
    intros Hb. pose proof (inv_start (a ++ b)) as I0. unfold rstart in *.
    set (R0 := repeat (@None A) 4096) in *. clearbody R0.
    assert (S0 : rsteps (RSys (a ++ b) R0 0 0 PrWait CoStart false [])
                   (Some (RSys (a ++ b) R0 0 0 PrWait CoTest false []))).
    { eapply rs_more; [apply r_start|]. eapply rs_more; [apply r_enter|]. apply rs_none. }
    assert (I1 : inv (a ++ b) (RSys (a ++ b) R0 0 0 PrWait CoTest false []) [] 0).
    { destruct I0. split; try assumption; try discriminate. }
    destruct (keep_up _ _ _ _ _ _ _ I1) as (r1 & p1 & c1 & S1 & I2). cbn [app] in S1, I2.
    assert (Ec : c1 = p1).
    { pose proof (i_pi _ _ _ _ I2) as P. pose proof (i_ci _ _ _ _ I2) as C. cbn in P, C. lia. }
    assert (S2 : rsteps (RSys b r1 p1 c1 PrWait CoTest false a) (Some (RSys b r1 p1 c1 PrWait CoKill false a))).
    { apply step_one. apply r_empty. exact Ec. }
    assert (I3 : inv (a ++ b) (RSys b r1 p1 c1 PrWait CoKill false a) a (length a)).
    { destruct I2. split; try assumption; try discriminate. }
    rewrite <- (app_nil_r b) in S2, I3 at 2.
    destruct (give_all _ b [] _ _ _ _ _ _ _ I3) as (r2 & p2 & S3 & I4); [lia|].
    rewrite app_nil_r in S2.
    exists (RSys [] r2 p2 c1 PrDone CoEnd true a). split; [|split; reflexivity].
    eapply steps_trans; [exact S0|]. eapply steps_trans; [exact S1|]. eapply steps_trans; [exact S2|].
    rewrite app_nil_r in S3. eapply steps_trans; [exact S3|].
    eapply rs_more; [apply r_done|]. eapply rs_more; [apply r_kill|]. eapply rs_more; [apply r_leave|]. apply rs_none.
  Qed.

  Lemma ends_l (hits out : list A) :
    (exists s, rsteps (rstart hits) (Some s) /\ g_cp s = CoEnd /\ g_out s = out) <->
    (exists lost, hits = out ++ lost /\ Z.of_nat (length lost) <= 4095).
  Proof.
    split.
    - intros (s & R & E & O). destruct (threads_l _ _ R) as (s' & rest & Es & H & L). injection Es as <-.
      exists rest. rewrite <- O. split; [exact H|exact (L E)].
    - intros (lost & -> & L). apply schedule_l. exact L.
  Qed.

  (** ** From every state the program can come to its end. *)

  Lemma finish_up hits ring pi ci k done m out cp :
    inv hits (RSys [] ring pi ci PrDone cp k out) done m -> cp = CoTest ->
    exists s', rsteps (RSys [] ring pi ci PrDone cp k out) (Some s') /\ g_pp s' = PrDone /\ g_cp s' = CoEnd /\ g_out s' = hits.
  Proof.
    intros I ->. pose proof (i_used _ _ _ _ I) as U. cbn in U.
    destruct (take_all _ _ _ _ _ _ _ (length done - m)%nat _ _ _ I) as (c1 & S1 & I1); [lia|].
    pose proof (i_pi _ _ _ _ I1) as P. pose proof (i_ci _ _ _ _ I1) as C. pose proof (i_hits _ _ _ _ I1) as H. cbn in P, C, H.
    rewrite app_nil_r in H. subst done.
    exists (RSys [] ring pi c1 PrDone CoEnd true hits). split; [|repeat split].
    eapply steps_trans; [exact S1|]. eapply rs_more; [apply r_empty; lia|].
    eapply rs_more; [apply r_kill|]. eapply rs_more; [apply r_leave|]. apply rs_none.
  Qed.

  Lemma finish_test hits t ring pi ci pp out done m :
    inv hits (RSys t ring pi ci pp CoTest false out) done m ->
    exists s', rsteps (RSys t ring pi ci pp CoTest false out) (Some s') /\ g_pp s' = PrDone /\ g_cp s' = CoEnd /\ g_out s' = hits.
  Proof.
    assert (W : forall t ring pi ci out done m, inv hits (RSys t ring pi ci PrWait CoTest false out) done m ->
      exists s', rsteps (RSys t ring pi ci PrWait CoTest false out) (Some s') /\ g_pp s' = PrDone /\ g_cp s' = CoEnd /\ g_out s' = hits).
    { clear. intros t ring pi ci out done m I. pose proof (i_used _ _ _ _ I) as U. cbn in U.
      destruct (take_all _ _ _ _ _ _ _ (length done - m)%nat _ _ _ I) as (c1 & S1 & I1); [lia|].
      pose proof I1 as I2. rewrite <- (app_nil_r t) in I2.
      destruct (keep_up _ _ _ _ _ _ _ I2) as (r2 & p2 & c2 & S2 & I3). rewrite app_nil_r in S2.
      destruct (inv_step _ _ _ _ _ I3 (r_done _ _ _ _ _ _)) as (s4 & d4 & m4 & E4 & I4). injection E4 as <-.
      destruct (finish_up _ _ _ _ _ _ _ _ _ I4 eq_refl) as (s5 & S5 & Q).
      exists s5. split; [|exact Q]. eapply steps_trans; [exact S1|]. eapply steps_trans; [exact S2|].
      eapply rs_more; [apply r_done|exact S5]. }
    assert (B : forall t ring pi ci out done m, inv hits (RSys t ring pi ci PrPublish CoTest false out) done m ->
      exists s', rsteps (RSys t ring pi ci PrPublish CoTest false out) (Some s') /\ g_pp s' = PrDone /\ g_cp s' = CoEnd /\ g_out s' = hits).
    { clear - W. intros t ring pi ci out done m I. pose proof (i_prod _ _ _ _ I) as P. unfold prod_ok in P. cbn in P.
      destruct P as (_ & h & t' & -> & _).
      destruct (inv_step _ _ _ _ _ I (r_publish _ _ _ _ _ _ _ _)) as (s4 & d4 & m4 & E4 & I4). injection E4 as <-.
      destruct (W _ _ _ _ _ _ _ I4) as (s5 & S5 & Q). exists s5. split; [|exact Q]. eapply rs_more; [apply r_publish|exact S5]. }
    assert (C : forall t ring pi ci out done m, inv hits (RSys t ring pi ci PrCopy CoTest false out) done m ->
      exists s', rsteps (RSys t ring pi ci PrCopy CoTest false out) (Some s') /\ g_pp s' = PrDone /\ g_cp s' = CoEnd /\ g_out s' = hits).
    { clear - B. intros t ring pi ci out done m I. pose proof (i_prod _ _ _ _ I) as P. unfold prod_ok in P. cbn in P.
      destruct P as (P & _). destruct t as [|h t]; [contradiction|].
      pose proof (i_len _ _ _ _ I) as L. pose proof (i_pi _ _ _ _ I) as Q. cbn in L, Q.
      destruct (set_nth_z ring pi (Some h)) as [ring' E]; [lia|].
      destruct (inv_step _ _ _ _ _ I (r_copy _ _ _ _ _ _ _ _ _ E)) as (s4 & d4 & m4 & E4 & I4). injection E4 as <-.
      destruct (B _ _ _ _ _ _ _ I4) as (s5 & S5 & Q5). exists s5. split; [|exact Q5]. eapply rs_more; [apply r_copy; exact E|exact S5]. }
    assert (D : forall t ring pi ci out done m, inv hits (RSys t ring pi ci PrTest CoTest false out) done m ->
      exists s', rsteps (RSys t ring pi ci PrTest CoTest false out) (Some s') /\ g_pp s' = PrDone /\ g_cp s' = CoEnd /\ g_out s' = hits).
    { clear - C. intros t ring pi ci out done m I. pose proof (i_prod _ _ _ _ I) as P. unfold prod_ok in P. cbn in P.
      destruct P as (P & P2). destruct t as [|h t]; [contradiction|].
      pose proof (i_ci _ _ _ _ I) as L. pose proof (i_pi _ _ _ _ I) as Q. pose proof (i_used _ _ _ _ I) as U. cbn in L, Q, U.
      assert (N : next_slot pi <> ci) by (intros E; assert (Z.of_nat (next_slot pi) = Z.of_nat ci) by lia;
        rewrite next_slot_spec in *; lia).
      destruct (inv_step _ _ _ _ _ I (r_again _ _ _ _ _ _ _ _ N)) as (s4 & d4 & m4 & E4 & I4). injection E4 as <-.
      destruct (C _ _ _ _ _ _ _ I4) as (s5 & S5 & Q5). exists s5. split; [|exact Q5]. eapply rs_more; [apply r_again; exact N|exact S5]. }
    intros I. destruct pp; [eapply W|eapply D|eapply C|eapply B|]; try exact I.
    pose proof (i_prod _ _ _ _ I) as P. unfold prod_ok in P. cbn in P. subst t. eapply finish_up; [exact I|reflexivity].
  Qed.

  Lemma can_end hits s done m : inv hits s done m ->
    exists s', rsteps s (Some s') /\ g_pp s' = PrDone /\ g_cp s' = CoEnd /\ (g_kill s = false -> g_out s' = hits).
  Proof.
    assert (K : forall t ring pi ci pp out done m, inv hits (RSys t ring pi ci pp CoKill false out) done m ->
      exists s', rsteps (RSys t ring pi ci pp CoKill false out) (Some s') /\ g_pp s' = PrDone /\ g_cp s' = CoEnd /\ g_out s' = hits).
    { clear. intros t ring pi ci pp out done m I.
      destruct (inv_step _ _ _ _ _ I (r_enter _ _ _ _ _ _)) as (s4 & d4 & m4 & E4 & I4). injection E4 as <-.
      destruct (finish_test _ _ _ _ _ _ _ _ _ I4) as (s5 & S5 & Q5). exists s5. split; [|exact Q5].
      eapply rs_more; [apply r_enter|exact S5]. }
    assert (T : forall t ring pi ci pp k out done m, inv hits (RSys t ring pi ci pp CoTest k out) done m ->
      exists s', rsteps (RSys t ring pi ci pp CoTest k out) (Some s') /\ g_pp s' = PrDone /\ g_cp s' = CoEnd /\ g_out s' = hits).
    { clear. intros t ring pi ci pp k out done m I. destruct k; [|eapply finish_test; exact I].
      pose proof (i_kill _ _ _ _ I eq_refl) as Kp. cbn in Kp. subst pp.
      pose proof (i_prod _ _ _ _ I) as P. unfold prod_ok in P. cbn in P. subst t. eapply finish_up; [exact I|reflexivity]. }
    intros I. destruct s as [t ring pi ci pp cp k out]. destruct cp.
    - destruct (inv_step _ _ _ _ _ I (r_start _ _ _ _ _ _ _)) as (s4 & d4 & m4 & E4 & I4). injection E4 as <-.
      destruct (K _ _ _ _ _ _ _ _ I4) as (s5 & S5 & Q1 & Q2 & Q3). exists s5. split; [|auto].
      eapply rs_more; [apply r_start|exact S5].
    - destruct k.
      + pose proof (i_kill _ _ _ _ I eq_refl) as Kp. cbn in Kp. subst pp.
        eexists. split; [eapply rs_more; [apply r_leave|apply rs_none]|]. repeat split. discriminate.
      + destruct (K _ _ _ _ _ _ _ _ I) as (s5 & S5 & Q1 & Q2 & Q3). exists s5. auto.
    - destruct (T _ _ _ _ _ _ _ _ _ I) as (s5 & S5 & Q1 & Q2 & Q3). exists s5. auto.
    - destruct (inv_step _ _ _ _ _ I (r_next _ _ _ _ _ _ _)) as (s4 & d4 & m4 & E4 & I4). injection E4 as <-.
      destruct (T _ _ _ _ _ _ _ _ _ I4) as (s5 & S5 & Q1 & Q2 & Q3). exists s5. split; [|auto].
      eapply rs_more; [apply r_next|exact S5].
    - pose proof (i_end _ _ _ _ I eq_refl) as Kt. cbn in Kt. subst k.
      pose proof (i_kill _ _ _ _ I eq_refl) as Kp. cbn in Kp. subst pp.
      eexists. split; [apply rs_none|]. repeat split. discriminate.
  Qed.

  Lemma can_end_l hits s : rsteps (rstart hits) (Some s) ->
    exists s', rsteps s (Some s') /\ g_pp s' = PrDone /\ g_cp s' = CoEnd /\ (g_kill s = false -> g_out s' = hits).
  Proof.
    intros R. destruct (inv_steps hits _ _ R [] 0%nat (inv_start hits)) as (s1 & done & m & E & I). injection E as <-.
    exact (can_end _ _ _ _ I).
  Qed.
End Threads.
