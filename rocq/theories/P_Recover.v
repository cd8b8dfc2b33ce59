(** Lemmas for the recovery of true events by the box search. *)
From Coq Require Import Permutation Lia ZifyBool.
From Verif Require Export P_Centroid S_Recover.
Global Open Scope Z_scope.

Lemma firstn_snoc {A} (l : list A) i x : nth_error l i = Some x -> firstn (S i) l = firstn i l ++ [x].
Proof.
  revert l. induction i as [|i IH]; intros [|y l] H; try discriminate; cbn in *.
  - congruence.
  - f_equal. apply IH. exact H.
Qed.

Lemma members_in l ls : forall hs h, In h (members l ls hs) ->
  exists j, nth_error ls j = Some l /\ nth_error hs j = Some h.
Proof.
  induction ls as [|x ls IH]; intros [|y hs] h H; try destruct H.
  unfold members in H. cbn in H. destruct (Nat.eqb_spec x l) as [->|N].
  - cbn in H. destruct H as [<-|H]; [exists 0%nat; split; reflexivity|].
    destruct (IH hs h H) as (j & A & B). exists (S j). split; assumption.
  - destruct (IH hs h H) as (j & A & B). exists (S j). split; assumption.
Qed.

Lemma begun_live own data i l : cl_hits (so_far own data i l) <> [] ->
  exists t, begun own data i l t.
Proof.
  unfold begun, opened_at. destruct (cl_hits (so_far own data i l)) as [|f r]; [congruence|].
  intros _. exists (arrival f), f, r. split; reflexivity.
Qed.

Lemma begun_in own data i l t : begun own data i l t -> In l (firstn i own).
Proof.
  intros (f & r & E & _). cbn in E.
  destruct (members_in l (firstn i own) (firstn i data) f) as (j & A & _); [rewrite E; left; reflexivity|].
  apply nth_error_In in A. exact A.
Qed.

Lemma in_members l ls : forall hs, length ls = length hs -> In l ls -> members l ls hs <> [].
Proof.
  intros hs Len H E. pose proof (members_nonempty l ls hs Len H). rewrite E, zlen_nil in H0. lia.
Qed.

Lemma begun_snoc own data i l t l' h' : length own = length data ->
  nth_error own i = Some l' -> nth_error data i = Some h' ->
  begun own data i l t -> begun own data (S i) l t.
Proof.
  intros Len A B (f & r & E & ->). exists f. unfold so_far in *. cbn [cl_hits] in *.
  rewrite (firstn_snoc _ _ _ A), (firstn_snoc _ _ _ B), members_app
    by (rewrite !firstn_length; lia).
  rewrite E. exists (r ++ members l [l'] [h']). split; reflexivity.
Qed.

Lemma NoDup_app_l {A} (a b : list A) : NoDup (a ++ b) -> NoDup a.
Proof.
  induction a as [|x a IH]; intros H; [constructor|]. inversion H; subst. constructor.
  - intros I. apply H2. apply in_or_app. left. exact I.
  - apply IH. exact H3.
Qed.

Section Recover.
Variable n : nat.
Variable fits : cl -> hit -> Prop.
Variable data : list hit.
Variable own : list nat.
Hypothesis Hn : (0 < n)%nat.
Hypothesis Sep : separable n fits data own.

Let Len := sep_length _ _ _ _ Sep.

(** A closed cluster is older than [n] others. *)
Definition left_behind (i : nat) (c : cl) : Prop :=
  exists t ms, begun own data i (cl_id c) t /\ NoDup ms /\ (n < length ms)%nat /\
    forall m, In m ms -> exists t', begun own data i m t' /\ t <= t'.

Lemma left_behind_snoc i c l h : nth_error own i = Some l -> nth_error data i = Some h ->
  left_behind i c -> left_behind (S i) c.
Proof.
  intros A B (t & ms & Bt & ND & L & F). exists t, ms.
  split; [eapply begun_snoc; eassumption|]. split; [exact ND|]. split; [exact L|].
  intros m Hm. destruct (F m Hm) as (t' & Bt' & Le). exists t'. split; [|exact Le].
  eapply begun_snoc; eassumption.
Qed.

Lemma run_ids i op closed : clusters n fits (firstn i data) (firstn i own) op closed ->
  forall c, In c (op ++ closed) -> c = so_far own data i (cl_id c) /\
    exists t, begun own data i (cl_id c) t.
Proof.
  intros C c I. pose proof (clusters_members _ _ _ _ _ _ C c I) as M.
  assert (E : c = so_far own data i (cl_id c)).
  { unfold so_far. rewrite <- M. destruct c; reflexivity. }
  split; [exact E|]. apply begun_live. rewrite <- E.
  destruct (clusters_live _ _ _ _ _ _ C) as [L1 L2]. rewrite Forall_forall in L1, L2.
  apply in_app_or in I. destruct I as [I|I]; [apply L1|apply L2]; exact I.
Qed.

Lemma split_at_id l (op : list cl) : In l (map cl_id op) ->
  exists pre c post, op = pre ++ c :: post /\ cl_id c = l.
Proof.
  intros I. apply in_map_iff in I. destruct I as (c & E & I).
  apply in_split in I. destruct I as (pre & post & ->). exists pre, c, post. auto.
Qed.

Lemma recover_run : forall i, (i <= length data)%nat ->
  exists op closed, clusters n fits (firstn i data) (firstn i own) op closed /\
    Forall (left_behind i) closed.
Proof.
  induction i as [|i IH]; intros Hi.
  - exists [], []. split; [constructor|constructor].
  - destruct (IH ltac:(lia)) as (op & closed & C & LB).
    destruct (nth_error data i) as [h|] eqn:Eh; [|apply nth_error_None in Eh; lia].
    destruct (nth_error own i) as [l|] eqn:El; [|apply nth_error_None in El; lia].
    rewrite (firstn_snoc _ _ _ Eh), (firstn_snoc _ _ _ El).
    pose proof (run_ids i op closed C) as Ids.
    pose proof (clusters_ids _ _ _ _ _ _ C) as Perm.
    pose proof (clusters_width _ _ _ _ _ _ C) as [W1 W2].
    pose proof (clusters_nodup _ _ _ _ _ _ C) as ND.
    assert (Lf : length (firstn i own) = length (firstn i data)) by (rewrite !firstn_length; lia).
    (* no cluster of another event fits *)
    assert (Other : forall c, In c op -> cl_id c <> l -> ~ fits c h).
    { intros c I Ne. destruct (Ids c ltac:(apply in_or_app; left; exact I)) as (E & t & Bt).
      rewrite E. eapply (sep_other _ _ _ _ Sep); eauto. }
    assert (LB' : Forall (left_behind (S i)) closed).
    { eapply Forall_impl; [|exact LB]. intros c. eapply left_behind_snoc; eassumption. }
    destruct (in_dec Nat.eq_dec l (firstn i own)) as [Old|New].
    + (* a further hit of a known event *)
      assert (Bl : exists t, begun own data i l t)
        by (apply begun_live; cbn; apply in_members; assumption).
      destruct Bl as (t & Bl).
      assert (Il : In l (map cl_id (op ++ closed))).
      { eapply Permutation_in; [apply Permutation_sym; exact Perm|]. apply in_seq.
        pose proof (clusters_label_bound _ _ _ _ _ _ C) as B. rewrite Forall_forall in B.
        specialize (B l Old). lia. }
      rewrite map_app in Il. apply in_app_or in Il. destruct Il as [Il|Il].
      2:{ exfalso. apply in_map_iff in Il. destruct Il as (c & Ec & Ic).
          rewrite Forall_forall in LB. destruct (LB c Ic) as (t2 & ms & B2 & NDm & Lm & F).
          rewrite Ec in B2. pose proof (sep_few _ _ _ _ Sep i l t2 ms El B2 NDm F). lia. }
      destruct (split_at_id l op Il) as (pre & c & post & -> & Ec).
      assert (Hc : c = so_far own data i l).
      { rewrite <- Ec. apply Ids. rewrite <- app_assoc. apply in_or_app. right. left. reflexivity. }
      exists (pre ++ Cl (cl_id c) (cl_hits c ++ [h]) :: post), closed. split; [|exact LB'].
      rewrite <- Ec. apply cs_join; [exact C| |].
      * rewrite Hc. eapply (sep_own _ _ _ _ Sep); eassumption.
      * intros c' I'. apply Other; [apply in_or_app; left; exact I'|].
        intros E'. rewrite <- app_assoc in ND. cbn [app] in ND. rewrite map_app in ND.
        cbn [map] in ND. apply NoDup_remove_2 in ND. apply ND. apply in_or_app. left.
        rewrite Ec, <- E'. apply in_map. exact I'.
    + (* the first hit of a new event *)
      assert (Hl : l = (length op + length closed)%nat).
      { destruct (Nat.lt_trichotomy l (length op + length closed)) as [Lt|[E|Gt]]; [|exact E|].
        - elim New. apply (clusters_all_used _ _ _ _ _ _ C). exact Lt.
        - pose proof (sep_numbers _ _ _ _ Sep i l El _ Gt) as I.
          pose proof (clusters_label_bound _ _ _ _ _ _ C) as B. rewrite Forall_forall in B.
          specialize (B _ I). lia. }
      assert (NB : forall t, ~ begun own data i l t).
      { intros t B. apply New. eapply begun_in; exact B. }
      assert (None_fits : forall c, In c op -> ~ fits c h).
      { intros c I. apply Other; [exact I|]. intros E.
        destruct (Ids c ltac:(apply in_or_app; left; exact I)) as (_ & t & Bt).
        rewrite E in Bt. exact (NB t Bt). }
      destruct (Nat.eq_dec (length op) n) as [Full|Room].
      * destruct (clusters_live _ _ _ _ _ _ C) as [L1 _].
        destruct (oldest_spec op) as (pre & c & post & -> & _ & A & B);
          [intros ->; cbn in Full; lia|exact L1|].
        assert (Lc : live c).
        { rewrite Forall_forall in L1. apply L1. apply in_or_app. right. left. reflexivity. }
        assert (Oc : opened_at c (ctime c)) by (apply opened_ctime; split; [exact Lc|reflexivity]).
        exists (pre ++ Cl (n + length closed) [h] :: post), (closed ++ [c]).
        rewrite Hl, Full. split.
        -- apply cs_evict with (t := ctime c); try assumption.
           ++ intros c' t' I' O'. apply opened_ctime in O'. destruct O' as [_ ->]. apply A. exact I'.
           ++ intros c' t' I' O'. apply opened_ctime in O'. destruct O' as [_ ->]. apply B. exact I'.
        -- apply Forall_app. split; [exact LB'|]. constructor; [|constructor].
           assert (Ic : In c ((pre ++ c :: post) ++ closed)).
           { rewrite <- app_assoc. apply in_or_app. right. left. reflexivity. }
           assert (Bc : begun own data i (cl_id c) (ctime c)).
           { unfold begun. rewrite <- (proj1 (Ids c Ic)). exact Oc. }
           exists (ctime c), (l :: map cl_id (pre ++ c :: post)).
           split; [eapply begun_snoc; eassumption|].
           assert (Sub : forall m, In m (map cl_id (pre ++ c :: post)) ->
                     exists t', begun own data i m t' /\ ctime c <= t').
           { intros m Im. apply in_map_iff in Im. destruct Im as (d & <- & Id).
             exists (ctime d).
             assert (Ld : live d) by (rewrite Forall_forall in L1; apply L1; exact Id).
             split.
             - unfold begun.
               rewrite <- (proj1 (Ids d ltac:(apply in_or_app; left; exact Id))).
               apply opened_ctime. split; [exact Ld|reflexivity].
             - apply in_app_or in Id. destruct Id as [Id|[<-|Id]];
                 [specialize (A _ Id); lia|lia|specialize (B _ Id); lia]. }
           split; [|split].
           ++ constructor.
              ** intros Im. destruct (Sub l Im) as (t' & Bt' & _). exact (NB t' Bt').
              ** rewrite map_app in ND. eapply NoDup_app_l. exact ND.
           ++ cbn [length]. rewrite map_length. lia.
           ++ intros m [<-|Im].
              ** exists (arrival h). split.
                 --- unfold begun, so_far, opened_at. cbn [cl_hits].
                     rewrite (firstn_snoc _ _ _ Eh), (firstn_snoc _ _ _ El), members_app by exact Lf.
                     rewrite members_one, Nat.eqb_refl.
                     assert (E0 : members l (firstn i own) (firstn i data) = []).
                     { destruct (members l (firstn i own) (firstn i data)) as [|f r] eqn:Em; [reflexivity|].
                       elim (NB (arrival f)). exists f, r. split; [exact Em|reflexivity]. }
                     rewrite E0. exists h, []. split; reflexivity.
                 --- eapply (sep_order _ _ _ _ Sep); eassumption.
              ** destruct (Sub m Im) as (t' & Bt' & Le). exists t'. split; [|exact Le].
                 eapply begun_snoc; eassumption.
      * assert (closed = []).
        { destruct closed; [reflexivity|]. specialize (W2 ltac:(discriminate)). lia. }
        subst closed. cbn [length] in Hl. rewrite Nat.add_0_r in Hl. subst l.
        exists (op ++ [Cl (length op) [h]]), []. split; [|constructor].
        apply cs_open; [exact C|exact None_fits|lia].
Qed.

End Recover.

Lemma separable_run n fits data own : (0 < n)%nat -> separable n fits data own ->
  exists op closed, clusters n fits data own op closed.
Proof.
  intros Hn S. destruct (recover_run n fits data own Hn S (length data) (Nat.le_refl _))
    as (op & closed & C & _).
  rewrite firstn_all in C. rewrite <- (sep_length _ _ _ _ S), firstn_all in C. eauto.
Qed.

Lemma C87_l n cfg rho o data own : (0 < n)%nat -> Forall hit_ok data ->
  radius_is (a_radius cfg) rho -> 0 <= a_range cfg < 2 ^ 64 ->
  separable n (fits_box rho (a_range cfg)) data own ->
  exists o', abs_fit n cfg o data = Ok o' /\ o_labels o' = map Z.of_nat own.
Proof.
  intros Hn Hd Hr Ht S. destruct (separable_run _ _ _ _ Hn S) as (op & closed & C).
  destruct (C23_l n cfg rho o data Hn Hd Hr Ht) as (o' & ls & op' & closed' & E & El & _ & U).
  destruct (U _ _ _ C) as (-> & _ & _). exists o'. split; [exact E|exact El].
Qed.

Lemma map_of_nat_inj a : forall b, map Z.of_nat a = map Z.of_nat b -> a = b.
Proof.
  induction a as [|x a IH]; intros [|y b] H; try discriminate; [reflexivity|].
  cbn in H. injection H as H1 H2. f_equal; [lia|apply IH; exact H2].
Qed.

Lemma C87_events_l n cfg rho ext o data own m fit k : (0 < n)%nat -> Forall hit_ok data ->
  radius_is (a_radius cfg) rho -> 0 <= a_range cfg < 2 ^ 64 ->
  separable n (fits_box rho (a_range cfg)) data own ->
  (forall l, In l own <-> (l < k)%nat) -> fit_of ext m = Some fit ->
  exists o', abs_fit n cfg o data = Ok o' /\
    forall evs, abs_get_events ext cfg (abs_set_method o' m) data = Ok evs <->
                events fit (a_min cfg) (clusters_of k own data) evs.
Proof.
  intros Hn Hd Hr Ht S Hk Hf. destruct (C87_l n cfg rho o data own Hn Hd Hr Ht S) as (o' & E & El).
  exists o'. split; [exact E|].
  destruct (C24_l n ext cfg o data o' m fit Hn Hd E Hf) as (ls & k' & El' & Ln & Hk' & Ev).
  rewrite El in El'. apply map_of_nat_inj in El'. subst ls.
  assert (k' = k).
  { destruct (Nat.lt_trichotomy k' k) as [L|[L|L]]; [|exact L|].
    - apply Hk in L. apply Hk' in L. lia.
    - apply Hk' in L. apply Hk in L. lia. }
  subst k'. exact Ev.
Qed.

(** * Isolated events *)

Lemma members_firstn own data i l a : In a (members l (firstn i own) (firstn i data)) ->
  exists j, (j < i)%nat /\ nth_error own j = Some l /\ nth_error data j = Some a.
Proof.
  intros H. destruct (members_in _ _ _ _ H) as (j & A & B). exists j.
  assert (j < i)%nat.
  { assert (j < length (firstn i own))%nat by (apply nth_error_Some; congruence).
    rewrite firstn_length in H0. lia. }
  split; [assumption|].
  assert (X : forall (T : Type) (l : list T), nth_error (firstn i l) j = nth_error l j).
  { clear - H0. intros T l. revert i j H0. induction l as [|x l IH]; intros i j L.
    - rewrite firstn_nil. reflexivity.
    - destruct i; [lia|]. destruct j; [reflexivity|]. cbn. apply IH. lia. }
  rewrite !X in *. split; assumption.
Qed.

Lemma isolated_separable n a w r range src data own :
  0 <= a -> 2 * a <= r -> 0 <= w <= range ->
  isolated n a w r range src data own ->
  separable n (fits_box (r * 2 ^ 20) range) data own.
Proof.
  intros Ha Hr Hw [Len Num Stem Ap Time Few].
  assert (Bg : forall i l t, begun own data i l t ->
    exists j f, (j < i)%nat /\ nth_error own j = Some l /\ nth_error data j = Some f /\
      t = arrival f /\ In f (cl_hits (so_far own data i l))).
  { intros i l t (f & rest & E & ->). cbn in E.
    assert (I : In f (members l (firstn i own) (firstn i data))) by (rewrite E; left; reflexivity).
    destruct (members_firstn _ _ _ _ _ I) as (j & L & A & B). exists j, f. auto. }
  split; [exact Len|exact Num| | | |].
  - intros i l h t El Eh B. destruct (Bg i l t B) as (j & f & L & Aj & Bj & -> & If).
    pose proof (Stem _ _ _ El Eh) as (X & Y & T). pose proof (Stem _ _ _ Aj Bj) as (X' & Y' & T').
    split; [exists (arrival f); split; [exact B|lia]|].
    repeat split; exists f; (split; [exact If|lia]).
  - intros i l l' h t El Eh Ne B F. destruct F as ((t2 & O2 & F) & (a1 & I1 & F1) & (a2 & I2 & F2) & (a3 & I3 & F3) & a4 & I4 & F4).
    destruct (Bg i l' t2 O2) as (j & f & L & Aj & Bj & -> & If).
    pose proof (Stem _ _ _ El Eh) as (X & Y & T). pose proof (Stem _ _ _ Aj Bj) as (X' & Y' & T').
    pose proof (nth_error_In _ _ El) as J. pose proof (nth_error_In _ _ Aj) as J'.
    cbn in I1, I2, I3, I4.
    apply members_firstn in I1, I2, I3, I4.
    destruct I1 as (j1 & _ & A1 & B1), I2 as (j2 & _ & A2 & B2), I3 as (j3 & _ & A3 & B3), I4 as (j4 & _ & A4 & B4).
    destruct (Stem _ _ _ A1 B1) as (X1 & _ & _). destruct (Stem _ _ _ A2 B2) as (X2 & _ & _).
    destruct (Stem _ _ _ A3 B3) as (_ & Y3 & _). destruct (Stem _ _ _ A4 B4) as (_ & Y4 & _).
    destruct (Ap l l' J J' ltac:(congruence)) as [P|[P|P]].
    + clear - X X1 X2 F1 F2 P. assert (h_x a1 - r <= h_x h <= h_x a2 + r) by lia. lia.
    + clear - Y Y3 Y4 F3 F4 P. assert (h_y a3 - r <= h_y h <= h_y a4 + r) by lia. lia.
    + clear - T T' F P. lia.
  - intros i l h l' t' El Eh _ B. destruct (Bg i l' t' B) as (j & f & L & Aj & Bj & -> & _).
    eapply Time; eassumption.
  - intros i l t ms El B ND F. apply (Few l ms).
    + eapply nth_error_In; exact El.
    + exact ND.
    + intros m Hm. destruct (F m Hm) as (t' & B' & Le).
      destruct (Bg _ _ _ B) as (j & f & L & Aj & Bj & -> & _).
      destruct (Bg _ _ _ B') as (j' & f' & L' & Aj' & Bj' & -> & _).
      split; [eapply nth_error_In; exact Aj'|].
      assert (Li : (i < length data)%nat) by (rewrite <- Len; apply nth_error_Some; congruence).
      destruct (nth_error data i) as [h|] eqn:Eh; [|apply nth_error_None in Eh; lia].
      pose proof (Time _ _ _ _ L' Bj' Eh).
      pose proof (Stem _ _ _ El Eh) as (_ & _ & T). pose proof (Stem _ _ _ Aj Bj) as (_ & _ & T1).
      pose proof (Stem _ _ _ Aj' Bj') as (_ & _ & T2). lia.
Qed.

Lemma C87_isolated_l n cfg o data own a w r src : (0 < n)%nat -> Forall hit_ok data ->
  radius_is (a_radius cfg) (r * 2 ^ 20) -> a_range cfg < 2 ^ 64 ->
  0 <= a -> 2 * a <= r -> 0 <= w <= a_range cfg ->
  isolated n a w r (a_range cfg) src data own ->
  exists o', abs_fit n cfg o data = Ok o' /\ o_labels o' = map Z.of_nat own.
Proof.
  intros Hn Hd Hr Ht Ha Har Hw I. eapply C87_l; try eassumption; [lia|].
  eapply isolated_separable; eassumption.
Qed.

(** Every cluster gives an event. *)
Lemma events_all fit min cs : (forall c, In c cs -> min <= zlen c) ->
  (forall c, In c cs -> exists e, fit c = Ok e /\
     fge (n_x e) (f_of_Z 0) && fge (n_y e) (f_of_Z 0) = true) ->
  exists evs, events fit min cs evs /\ Forall2 (fun c e => fit c = Ok e) cs evs.
Proof.
  induction cs as [|c cs IH]; intros A B.
  - exists []. split; constructor.
  - destruct (IH (fun c I => A c (or_intror I)) (fun c I => B c (or_intror I))) as (evs & E & F).
    destruct (B c (or_introl eq_refl)) as (e & Ee & G). exists (e :: evs). split.
    + apply ev_keep; auto. apply A. left. reflexivity.
    + constructor; assumption.
Qed.

Lemma clusters_of_facts k own data : length own = length data -> (forall l, In l own <-> (l < k)%nat) ->
  forall c, In c (clusters_of k own data) -> 1 <= zlen c /\ incl c data /\ zlen c <= zlen data.
Proof.
  intros Len Hk c I. unfold clusters_of in I. apply in_map_iff in I.
  destruct I as (l & <- & I). apply in_seq in I.
  split; [apply members_nonempty; [exact Len|apply Hk; lia]|]. split.
  - intros h Ih. destruct (members_in _ _ _ _ Ih) as (j & _ & A). eapply nth_error_In; exact A.
  - unfold zlen, members. rewrite map_length.
    assert (F : forall (p : nat * hit -> bool) q, (length (filter p q) <= length q)%nat).
    { intros p q. induction q as [|x q IH]; cbn; [lia|]. destruct (p x); cbn; lia. }
    pose proof (F (fun p => Nat.eqb (fst p) l) (combine own data)) as B.
    rewrite combine_length in B. lia.
Qed.

Lemma one_each n cfg rho ext o data own m fit k : (0 < n)%nat -> Forall hit_ok data ->
  radius_is (a_radius cfg) rho -> 0 <= a_range cfg < 2 ^ 64 -> a_min cfg <= 1 ->
  separable n (fits_box rho (a_range cfg)) data own ->
  (forall l, In l own <-> (l < k)%nat) -> fit_of ext m = Some fit ->
  (forall c, In c (clusters_of k own data) -> exists e, fit c = Ok e /\
     fge (n_x e) (f_of_Z 0) && fge (n_y e) (f_of_Z 0) = true) ->
  exists o' evs, abs_fit n cfg o data = Ok o' /\
    abs_get_events ext cfg (abs_set_method o' m) data = Ok evs /\
    length evs = k /\ Forall2 (fun c e => fit c = Ok e) (clusters_of k own data) evs.
Proof.
  intros Hn Hd Hr Ht Hm S Hk Hf Hg.
  destruct (C87_events_l n cfg rho ext o data own m fit k Hn Hd Hr Ht S Hk Hf) as (o' & E & Ev).
  destruct (events_all fit (a_min cfg) (clusters_of k own data)) as (evs & Ee & F).
  - intros c I. pose proof (clusters_of_facts k own data (sep_length _ _ _ _ S) Hk c I). lia.
  - exact Hg.
  - exists o', evs. split; [exact E|]. split; [apply Ev; exact Ee|]. split; [|exact F].
    assert (L : length (clusters_of k own data) = length evs)
      by (clear - F; induction F; cbn; congruence).
    unfold clusters_of in L. rewrite map_length, seq_length in L.
    congruence.
Qed.

Lemma C87_one_each_l n cfg rho ext o data own k : (0 < n)%nat -> Forall hit_ok data ->
  Forall (fun h => sensor_hit h /\ 0 < h_tot h) data -> zlen data <= 2 ^ 21 ->
  radius_is (a_radius cfg) rho -> 0 <= a_range cfg < 2 ^ 64 -> a_min cfg <= 1 ->
  separable n (fits_box rho (a_range cfg)) data own ->
  (forall l, In l own <-> (l < k)%nat) ->
  exists o' evs, abs_fit n cfg o data = Ok o' /\
    abs_get_events ext cfg (abs_set_method o' MCentroid) data = Ok evs /\
    length evs = k /\
    forall l e, nth_error evs l = Some e ->
      n_hits e = zlen (members l own data) /\
      centroid_fit true (f_of_Z 1) (members l own data) = Ok e.
Proof.
  intros Hn Hd Hs Hl Hr Ht Hm S Hk.
  destruct (one_each n cfg rho ext o data own MCentroid _ k Hn Hd Hr Ht Hm S Hk eq_refl)
    as (o' & evs & E & G & L & F).
  - intros c I. destruct (clusters_of_facts k own data (sep_length _ _ _ _ S) Hk c I) as (A & B & C).
    assert (Nc : c <> []) by (intros ->; rewrite zlen_nil in A; lia).
    assert (Fc : Forall (fun h => sensor_hit h /\ 0 < h_tot h) c).
    { apply Forall_forall. intros h Ih. rewrite Forall_forall in Hs. apply Hs, B, Ih. }
    assert (F' : Forall sensor_hit c) by (eapply Forall_impl; [|exact Fc]; intros h [Z _]; exact Z).
    destruct (C26_l c Nc F' ltac:(lia)) as (e & Ee & _ & _ & _ & _ & X & _).
    exists e. split; [exact Ee|].
    destruct (X (hsum_tot_pos c Nc Fc)) as ([Fx _] & [Fy _] & Px & Py).
    rewrite !fge_nonneg by assumption. reflexivity.
  - exists o', evs. repeat (split; [assumption|]). intros l e He.
    assert (X : exists c, nth_error (clusters_of k own data) l = Some c /\ centroid_fit true (f_of_Z 1) c = Ok e).
    { clear - F He. revert l He. induction F as [|c e' cs es P F IH]; intros [|l] He; try discriminate.
      - injection He as <-. exists c. split; [reflexivity|exact P].
      - apply IH. exact He. }
    destruct X as (c & Nc & Ec). unfold clusters_of in Nc. rewrite nth_error_map in Nc.
    assert (Ll : (l < k)%nat) by (rewrite <- L; apply nth_error_Some; congruence).
    rewrite (nth_error_nth' _ 0%nat) in Nc by (rewrite seq_length; exact Ll).
    rewrite seq_nth in Nc by exact Ll. cbn in Nc. injection Nc as <-.
    split; [|exact Ec]. eapply centroid_nhits. exact Ec.
Qed.
