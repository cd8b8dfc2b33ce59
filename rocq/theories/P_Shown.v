(** Proofs about recordings and what sophiread_display saves (C97). *)
From Coq Require Import Lia ZifyBool Zify Reals Lra.
From Flocq Require Import Core.
From Verif Require Import P_MeasureShow P_DisplayWin P_DisplayPixel P_Recover.
From Verif Require Export S_Shown.
Local Open Scope Z_scope.
Ltac Zify.zify_post_hook ::= Z.to_euclidean_division_equations.

(** * Members of a group *)

Lemma forall2_length {A B} {R : A -> B -> Prop} {xs ys} : Forall2 R xs ys -> length xs = length ys.
Proof. intros F. induction F as [|x y xs ys _ _ IH]; cbn; [reflexivity|rewrite IH; reflexivity]. Qed.

Definition pick {A} (l : nat) (ls : list nat) (xs : list A) : list A :=
  map snd (filter (fun p => Nat.eqb (fst p) l) (combine ls xs)).

Lemma combine_app' {A B} (a : list A) (b : list B) : forall c d, length a = length b ->
  combine (a ++ c) (b ++ d) = combine a b ++ combine c d.
Proof.
  revert b. induction a as [|x a IH]; intros [|y b] c d E; try discriminate E; [reflexivity|].
  cbn [app combine]. f_equal. apply IH. injection E as E. exact E.
Qed.
Lemma pick_app {A} l ls (xs : list A) ls' xs' : length ls = length xs ->
  pick l (ls ++ ls') (xs ++ xs') = pick l ls xs ++ pick l ls' xs'.
Proof. intros E. unfold pick. rewrite combine_app', filter_app, map_app by exact E. reflexivity. Qed.
Lemma pick_none {A} l ls : forall xs : list A, ~ In l ls -> pick l ls xs = [].
Proof.
  induction ls as [|a ls IH]; intros [|x xs] N; try reflexivity. unfold pick. cbn [combine filter fst].
  destruct (Nat.eqb_spec a l) as [->|_]; [exfalso; apply N; left; reflexivity|]. apply IH. intros I. apply N. right. exact I.
Qed.
Lemma pick_some {A} l ls : forall xs : list A, length ls = length xs -> In l ls -> pick l ls xs <> [].
Proof.
  induction ls as [|a ls IH]; intros [|x xs] E I; try discriminate E; [destruct I|]. unfold pick. cbn [combine filter fst].
  destruct (Nat.eqb_spec a l) as [->|N]; [discriminate|]. destruct I as [I|I]; [contradiction|]. apply IH; [injection E as E; exact E|exact I].
Qed.
Lemma pick_in {A} l ls : forall (xs : list A) x, In x (pick l ls xs) ->
  exists j, nth_error ls j = Some l /\ nth_error xs j = Some x.
Proof.
  induction ls as [|a ls IH]; intros [|y xs] x I; try destruct I. unfold pick in I. cbn [combine filter fst] in I.
  destruct (Nat.eqb_spec a l) as [->|N]; [destruct I as [<-|I]; [exists 0%nat; auto|]|];
    destruct (IH _ _ I) as (j & ? & ?); exists (S j); auto.
Qed.
Lemma pick_rel {A B} (R : A -> B -> Prop) l ls : forall xs ys, Forall2 R xs ys -> Forall2 R (pick l ls xs) (pick l ls ys).
Proof.
  induction ls as [|a ls IH]; intros xs ys F; [constructor|]. destruct F as [|x y xs ys H F]; [constructor|].
  unfold pick. cbn [combine filter fst]. destruct (Nat.eqb a l); cbn [map snd]; [constructor; [exact H|]|]; apply IH; exact F.
Qed.

(** * The ring when every hit fits its own group only *)

Lemma ring_run_snoc s hs s' h s'' : ring_run s hs s' -> ring_step s' h s'' -> ring_run s (hs ++ [h]) s''.
Proof.
  intros R. induction R as [s|s h0 s1 hs s2 K R IH]; intros Q; cbn [app]; econstructor; eauto. constructor.
Qed.

Lemma nth_firstn {A} (l : list A) i j : (j < i)%nat -> nth_error (firstn i l) j = nth_error l j.
Proof.
  revert i j. induction l as [|a l IH]; intros [|i] j L; try lia; [destruct j; reflexivity|].
  destruct j as [|j]; [reflexivity|]. cbn. apply IH. lia.
Qed.
Lemma in_firstn_nth {A} (l : list A) i x : In x (firstn i l) -> exists j, (j < i)%nat /\ nth_error l j = Some x.
Proof.
  intros I. apply In_nth_error in I. destruct I as (j & E).
  assert (L : (j < length (firstn i l))%nat) by (apply nth_error_Some; congruence).
  rewrite firstn_length in L. exists j. split; [lia|]. rewrite <- E. symmetry. apply nth_firstn. lia.
Qed.
Lemma nth_in_firstn {A} (l : list A) i j x : (j < i)%nat -> nth_error l j = Some x -> In x (firstn i l).
Proof. intros L E. apply (nth_error_In _ j). rewrite nth_firstn by exact L. exact E. Qed.

(** The groups that have begun before hit [i] are those below [m]. *)
Definition upto (own : list nat) (i m : nat) : Prop := forall l, In l (firstn i own) <-> (l < m)%nat.

Section Ring.
Variables (own : list nat) (rs : list raw).
Hypothesis Len : length own = length rs.
Hypothesis Num : by_first_hit own.
Let cls i l := pick l (firstn i own) (firstn i rs).
Hypothesis Acc : forall i l r, nth_error own i = Some l -> nth_error rs i = Some r -> In l (firstn i own) -> accepts (cls i l) r.
Hypothesis Rej : forall i l l' r, nth_error own i = Some l -> nth_error rs i = Some r -> In l' (firstn i own) -> l' <> l ->
  ~ accepts (cls i l') r.
Hypothesis Few : forall i l m, nth_error own i = Some l -> In l (firstn i own) -> upto own i m -> (m <= l + 127)%nat.

Lemma cls_step i l r l' : nth_error own i = Some l -> nth_error rs i = Some r ->
  cls (S i) l' = cls i l' ++ (if Nat.eqb l l' then [r] else []).
Proof.
  intros El Er. unfold cls. rewrite (firstn_snoc own i l El), (firstn_snoc rs i r Er).
  rewrite pick_app by (rewrite !firstn_length; lia). f_equal. unfold pick. cbn [combine filter fst].
  destruct (Nat.eqb l l'); reflexivity.
Qed.

Lemma ring_of_groups i : (i <= length rs)%nat -> exists m, upto own i m /\
  ring_run begin (firstn i rs) (map (cls i) (seq 0 (m - 127)), map (cls i) (seq (m - 127) (m - (m - 127)))).
Proof.
  induction i as [|i IH]; intros Hi.
  - exists 0%nat. split; [intros l; cbn; lia|]. cbn. apply gr_nil.
  - destruct IH as (m & U & R); [lia|].
    destruct (nth_error own i) as [l|] eqn:El; [|apply nth_error_None in El; lia].
    destruct (nth_error rs i) as [r|] eqn:Er; [|apply nth_error_None in Er; lia].
    rewrite (firstn_snoc rs i r Er).
    assert (Off : forall l', l' <> l -> cls (S i) l' = cls i l').
    { intros l' N. rewrite (cls_step i l r l' El Er). destruct (Nat.eqb_spec l l') as [E|_]; [congruence|apply app_nil_r]. }
    assert (On : cls (S i) l = cls i l ++ [r]).
    { rewrite (cls_step i l r l El Er), Nat.eqb_refl. reflexivity. }
    assert (Ext : forall b n, (l < b \/ b + n <= l)%nat -> map (cls (S i)) (seq b n) = map (cls i) (seq b n)).
    { intros b n C. apply map_ext_in. intros l' I. apply in_seq in I. apply Off. lia. }
    destruct (Nat.lt_ge_cases l m) as [C|C].
    + exists m. split.
      * intros l'. rewrite (firstn_snoc own i l El), in_app_iff. pose proof (U l') as Ul. cbn [In]. clear - Ul C. destruct Ul. split; [intros [?|[?|[]]]; lia || auto|intros ?; destruct (Nat.lt_ge_cases l' m); [left; auto|right; left; lia]].
      * pose proof (Few i l m El (proj2 (U l) C) U) as F. set (a := (m - 127)%nat) in *.
        eapply ring_run_snoc; [exact R|].
        rewrite (Ext 0%nat a) by lia.
        replace (m - a)%nat with ((l - a) + S (m - S l))%nat by lia. rewrite !seq_app, !map_app. cbn [seq map].
        replace (a + (l - a))%nat with l by lia. rewrite On, (Ext a (l - a)%nat), (Ext (S l) (m - S l)%nat) by lia.
        apply g_join; [apply Acc; [exact El|exact Er|apply U; exact C]|].
        intros j c' Ej Aj. rewrite !(map_length (cls i)), !seq_length.
        assert (Q : map (cls i) (seq a (l - a)) ++ cls i l :: map (cls i) (seq (S l) (m - S l)) = map (cls i) (seq a (m - a))).
        { replace (m - a)%nat with ((l - a) + S (m - S l))%nat by lia. rewrite seq_app, map_app. cbn [seq map].
          replace (a + (l - a))%nat with l by lia. reflexivity. }
        assert (Ej' : nth_error (map (cls i) (seq a (m - a))) j = Some c') by (rewrite <- Q; exact Ej). clear Ej. rename Ej' into Ej.
        assert (Lj : (j < m - a)%nat).
        { pose proof (proj1 (nth_error_Some _ _) (ltac:(congruence) : nth_error (map (cls i) (seq a (m - a))) j <> None)) as L.
          rewrite map_length, seq_length in L. exact L. }
        rewrite (map_nth_error (cls i) j _ (d := a + j)%nat) in Ej by (rewrite nth_error_nth' with (d := 0%nat); [rewrite seq_nth by exact Lj; reflexivity|rewrite seq_length; exact Lj]).
        injection Ej as <-. destruct (Nat.eq_dec (a + j) l) as [E|N].
        -- replace (l - a)%nat with j by lia. apply Nat.le_refl.
        -- exfalso. apply (Rej i l (a + j) r El Er); [apply U; lia|exact N|exact Aj].
    + assert (E : l = m).
      { destruct (Nat.eq_dec l m) as [E|N]; [exact E|]. exfalso.
        pose proof (proj1 (U m) (Num i l El m ltac:(lia))). lia. }
      subst l. exists (S m). split.
      * intros l'. rewrite (firstn_snoc own i m El), in_app_iff. pose proof (U l') as Ul. cbn [In]. clear - Ul C. destruct Ul. split; [intros [?|[?|[]]]; lia || auto|intros ?; destruct (Nat.lt_ge_cases l' m); [left; auto|right; left; lia]].
      * eapply ring_run_snoc; [exact R|].
        assert (One : cls (S i) m = [r]).
        { rewrite On. unfold cls. rewrite pick_none; [reflexivity|]. intros I. apply U in I. lia. }
        assert (No : forall b n, (b + n <= m)%nat -> Forall (fun c => ~ accepts c r) (map (cls i) (seq b n))).
        { intros b n L. apply Forall_forall. intros c Ic. apply in_map_iff in Ic. destruct Ic as (l' & <- & Il).
          apply in_seq in Il. apply (Rej i m l' r El Er); [apply U; lia|lia]. }
        destruct (Nat.lt_ge_cases m 127) as [D|D].
        -- replace (m - 127)%nat with 0%nat by lia. replace (S m - 127)%nat with 0%nat by lia. rewrite !Nat.sub_0_r.
           rewrite (seq_S m), map_app. cbn [map Nat.add seq]. rewrite One, (Ext 0%nat m) by lia.
           apply g_new; [apply No; lia|]. rewrite map_length, seq_length. exact D.
        -- set (a := (m - 127)%nat). replace (S m - 127)%nat with (S a) by lia. replace (m - a)%nat with 127%nat by lia.
           replace (S m - S a)%nat with 127%nat by lia.
           rewrite (seq_S a 0), map_app. cbn [map Nat.add]. rewrite (seq_S 126 (S a)), map_app. cbn [map].
           replace (S a + 126)%nat with m by lia. rewrite One, (Ext 0%nat a), (Ext (S a) 126%nat), (Off a) by lia.
           change (seq a 127) with (a :: seq (S a) 126). cbn [map].
           apply g_push; [|rewrite map_length, seq_length; reflexivity].
           change (cls i a :: map (cls i) (seq (S a) 126)) with (map (cls i) (seq a 127)). apply No. lia.
Qed.

(** Groups that have been closed get no further hit. *)
Lemma upto_mono i j m m' : (i <= j)%nat -> upto own i m -> upto own j m' -> (m <= m')%nat.
Proof.
  intros L U U'. destruct (Nat.le_gt_cases m m') as [C|C]; [exact C|]. exfalso.
  assert (I : In m' (firstn i own)) by (apply U; exact C).
  apply in_firstn_nth in I. destruct I as (k & Lk & E).
  pose proof (proj1 (U' m') (nth_in_firstn own j k m' ltac:(lia) E)). lia.
Qed.
Lemma closed_complete i m l : (i <= length rs)%nat -> upto own i m -> (l < m - 127)%nat -> cls i l = pick l own rs.
Proof.
  intros Hi U L. unfold cls. rewrite <- (firstn_skipn i own) at 2. rewrite <- (firstn_skipn i rs) at 2.
  rewrite pick_app by (rewrite !firstn_length; lia). rewrite (pick_none l (skipn i own)); [symmetry; apply app_nil_r|].
  intros I. apply In_nth_error in I. destruct I as (j & E).
  assert (E' : nth_error own (i + j) = Some l).
  { rewrite <- (firstn_skipn i own), nth_error_app2 by (rewrite firstn_length; lia).
    rewrite firstn_length. replace (i + j - Nat.min i (length own))%nat with j by lia. exact E. }
  assert (Lj : (i + j < length rs)%nat) by (rewrite <- Len; apply nth_error_Some; congruence).
  destruct (ring_of_groups (i + j)) as (m' & U' & _); [lia|].
  pose proof (upto_mono i (i + j) m m' ltac:(lia) U U').
  pose proof (Few (i + j) l m' E' (proj2 (U' l) ltac:(lia)) U'). lia.
Qed.
End Ring.

Lemma cls_shorter {A} (own : list nat) (rs : list A) i l : length own = length rs ->
  exists x, pick l own rs = pick l (firstn i own) (firstn i rs) ++ x.
Proof.
  intros Len. exists (pick l (skipn i own) (skipn i rs)).
  rewrite <- pick_app by (rewrite !firstn_length; lia). rewrite !firstn_skipn. reflexivity.
Qed.

(** * The true hits of a recording *)

Definition off_gap (v : Z) : Prop := 0 <= v < 256 \/ 260 <= v < 516.
Definition measured (c : Z) (h : hit) : Prop :=
  off_gap (h_x h) /\ off_gap (h_y h) /\ 0 <= h_tot h < 1024 /\ h_spider h / 2 ^ 30 = c.

Lemma place_off_gap chip x y : 0 <= x < 256 -> 0 <= y < 256 -> off_gap (fst (place chip x y)) /\ off_gap (snd (place chip x y)).
Proof. intros Hx Hy. unfold place, off_gap. destruct chip as [|[p|[p|p|]|]|p]; cbn [fst snd]; lia. Qed.

Lemma recorded_measured c chip k ps hs k' : recorded (fun _ t => t / 2 ^ 30 = c) false chip k ps hs k' -> Forall (measured c) hs.
Proof.
  intros R. induction R as [k|g a P G p ps hs k E HG El R IH|g G P p ps hs k E Em R IH
    |g a P T0 p ps hs k E Ec A R IH|a P T0 p ps hs k C E Ec N R IH
    |g a T0 H f p ps hs k Hf Ht -> Es H0 A HT R IH|g a P p ps hs k C N K R IH|k p ps hs k' K R IH];
    try discriminate; auto.
  constructor; [|exact IH]. destruct Hf as (_ & Hx & Hy & _ & Hto & _).
  destruct (place_off_gap chip _ _ Hx Hy) as [P1 P2]. unfold measured, true_hit.
  destruct (place chip (f_x f) (f_y f)) as [x y]. cbn in *. auto.
Qed.
Lemma recording_measured c k ds hss k' : recording (fun _ t => t / 2 ^ 30 = c) false k ds hss k' -> Forall (measured c) (concat hss).
Proof.
  intros R. induction R as [k|k d ds chip hs hss k1 k2 C P R IH]; [constructor|]. cbn [concat]. apply Forall_app.
  split; [eapply recorded_measured; exact P|exact IH].
Qed.

(** * Isolated events *)

Section Isolated.
Variables (c a w : Z) (src : nat -> source) (hs : list hit) (own : list nat) (rs : list raw).
Hypothesis Ha : 0 <= a <= 2.
Hypothesis Hw : 0 <= w <= 74.
Hypothesis Iso : isolated 127 a w 9 50 src hs own.
Hypothesis Mea : Forall (measured c) hs.
Hypothesis Sho : Forall2 shown_as hs rs.

Lemma sho_nth i r : nth_error rs i = Some r -> exists h, nth_error hs i = Some h /\ shown_as h r /\ measured c h.
Proof.
  intros E. revert i r E. clear - Mea Sho. induction Sho as [|h r hs rs S F IH]; intros i r' E; [destruct i; discriminate E|].
  apply Forall_cons_iff in Mea. destruct Mea as [M1 M2]. destruct i as [|i]; [injection E as <-; exists h; cbn; auto|].
  exact (IH M2 F i r' E).
Qed.
Lemma own_len : length own = length rs.
Proof. rewrite (iso_length _ _ _ _ _ _ _ _ Iso). exact (forall2_length Sho). Qed.

Lemma pick_hit i l r : In r (pick l (firstn i own) (firstn i rs)) ->
  exists j h, (j < i)%nat /\ nth_error own j = Some l /\ nth_error rs j = Some r /\ nth_error hs j = Some h /\
    shown_as h r /\ measured c h /\ stems a w (src l) h.
Proof.
  intros I. destruct (pick_in _ _ _ _ I) as (j & E1 & E2).
  assert (L : (j < i)%nat).
  { assert (L : (j < length (firstn i own))%nat) by (apply nth_error_Some; congruence). rewrite firstn_length in L. lia. }
  rewrite nth_firstn in E1 by exact L. rewrite nth_firstn in E2 by exact L. destruct (sho_nth j r E2) as (h & Eh & S & M). exists j, h.
  repeat (split; [assumption|]). exact (iso_stems _ _ _ _ _ _ _ _ Iso _ _ _ E1 Eh).
Qed.

Lemma iso_acc i l r : nth_error own i = Some l -> nth_error rs i = Some r -> In l (firstn i own) ->
  accepts (pick l (firstn i own) (firstn i rs)) r.
Proof.
  intros El Er I. destruct (sho_nth i r Er) as (h & Eh & S & M).
  pose proof (iso_stems _ _ _ _ _ _ _ _ Iso _ _ _ El Eh) as T.
  destruct (pick l (firstn i own) (firstn i rs)) as [|g q] eqn:E.
  { exfalso. revert E. apply pick_some; [|exact I]. rewrite !firstn_length, own_len. reflexivity. }
  destruct (pick_hit i l g) as (j & h' & _ & _ & _ & _ & S' & M' & T'); [rewrite E; left; reflexivity|].
  unfold shown_as, measured, stems, off_gap, without_gap, arrival in *.
  destruct S as (Sx & Sy & _ & _ & _ & St & _), S' as (Sx' & Sy' & _ & _ & _ & St' & _).
  destruct M as (Mx & My & _ & Mt), M' as (Mx' & My' & _ & Mt').
  destruct T as (Tx & Ty & Tt), T' as (Tx' & Ty' & Tt').
  split; [exists g, q; split; [reflexivity|]; rewrite St, St'; clear - Mt Mt' Tt Tt' Hw; lia|].
  assert (Dx : Z.abs (w_x r - w_x g) <= 4).
  { rewrite Sx, Sx'. clear - Ha Mx Mx' Tx Tx'. destruct (Z.leb_spec 260 (h_x h)), (Z.leb_spec 260 (h_x h')); lia. }
  assert (Dy : Z.abs (w_y r - w_y g) <= 4).
  { rewrite Sy, Sy'. clear - Ha My My' Ty Ty'. destruct (Z.leb_spec 260 (h_y h)), (Z.leb_spec 260 (h_y h')); lia. }
  repeat split; constructor; lia.
Qed.

Lemma far_shown h h' v v' : off_gap h -> off_gap h' -> h + 9 < h' -> v = without_gap h -> v' = without_gap h' -> v + 5 < v'.
Proof. unfold off_gap, without_gap. intros. subst. destruct (Z.leb_spec 260 h), (Z.leb_spec 260 h'); lia. Qed.

Lemma iso_rej i l l' r : nth_error own i = Some l -> nth_error rs i = Some r -> In l' (firstn i own) -> l' <> l ->
  ~ accepts (pick l' (firstn i own) (firstn i rs)) r.
Proof.
  intros El Er I N. destruct (sho_nth i r Er) as (h & Eh & S & M).
  pose proof (iso_stems _ _ _ _ _ _ _ _ Iso _ _ _ El Eh) as T.
  intros ((g & q & Eg & At) & A1 & A2 & A3 & A4).
  assert (Ip : In l' own) by (rewrite <- (firstn_skipn i own); apply in_or_app; left; exact I).
  destruct (iso_apart _ _ _ _ _ _ _ _ Iso l l' (nth_error_In _ _ El) Ip (not_eq_sym N)) as [P|[P|P]].
  - apply Exists_exists in A1, A2. destruct A1 as (g1 & I1 & B1), A2 as (g2 & I2 & B2).
    destruct (pick_hit _ _ _ I1) as (_ & h1 & _ & _ & _ & _ & S1 & M1 & T1).
    destruct (pick_hit _ _ _ I2) as (_ & h2 & _ & _ & _ & _ & S2 & M2 & T2).
    destruct S as (Sx & _), S1 as (Sx1 & _), S2 as (Sx2 & _). destruct M as (Mx & _), M1 as (Mx1 & _), M2 as (Mx2 & _).
    destruct T as (Tx & _), T1 as (Tx1 & _), T2 as (Tx2 & _).
    destruct (Z.lt_trichotomy (at_x (src l)) (at_x (src l'))) as [C|[C|C]]; [|lia|].
    + pose proof (far_shown (h_x h) (h_x h2) _ _ Mx Mx2 ltac:(clear - P C Tx Tx2; lia) Sx Sx2). lia.
    + pose proof (far_shown (h_x h1) (h_x h) _ _ Mx1 Mx ltac:(clear - P C Tx Tx1; lia) Sx1 Sx). lia.
  - apply Exists_exists in A3, A4. destruct A3 as (g1 & I1 & B1), A4 as (g2 & I2 & B2).
    destruct (pick_hit _ _ _ I1) as (_ & h1 & _ & _ & _ & _ & S1 & M1 & T1).
    destruct (pick_hit _ _ _ I2) as (_ & h2 & _ & _ & _ & _ & S2 & M2 & T2).
    destruct S as (_ & Sx & _), S1 as (_ & Sx1 & _), S2 as (_ & Sx2 & _). destruct M as (_ & Mx & _), M1 as (_ & Mx1 & _), M2 as (_ & Mx2 & _).
    destruct T as (_ & Tx & _), T1 as (_ & Tx1 & _), T2 as (_ & Tx2 & _).
    destruct (Z.lt_trichotomy (at_y (src l)) (at_y (src l'))) as [C|[C|C]]; [|lia|].
    + pose proof (far_shown (h_y h) (h_y h2) _ _ Mx Mx2 ltac:(clear - P C Tx Tx2; lia) Sx Sx2). lia.
    + pose proof (far_shown (h_y h1) (h_y h) _ _ Mx1 Mx ltac:(clear - P C Tx Tx1; lia) Sx1 Sx). lia.
  - destruct (pick_hit i l' g) as (j & h' & _ & _ & _ & _ & S' & M' & T'); [rewrite Eg; left; reflexivity|].
    destruct S as (_ & _ & _ & _ & _ & St & _), S' as (_ & _ & _ & _ & _ & St' & _). destruct M as (_ & _ & _ & Mt), M' as (_ & _ & _ & Mt').
    destruct T as (_ & _ & T), T' as (_ & _ & T'). unfold arrival in *. rewrite St, St' in At.
    clear - At Mt Mt' T T' P Hw. lia.
Qed.

Lemma iso_begun i l m : nth_error own i = Some l -> In l (firstn i own) -> upto own i m -> (m <= l + 127)%nat.
Proof.
  intros El I U. destruct (Nat.le_gt_cases m (l + 127)) as [C|C]; [exact C|]. exfalso.
  assert (Li : (i < length hs)%nat) by (rewrite <- (iso_length _ _ _ _ _ _ _ _ Iso); apply nth_error_Some; congruence).
  destruct (nth_error hs i) as [h|] eqn:Eh; [|apply nth_error_None in Eh; lia].
  pose proof (iso_stems _ _ _ _ _ _ _ _ Iso _ _ _ El Eh) as (_ & _ & T).
  assert (F : (length (seq l 128) <= 127)%nat); [|rewrite seq_length in F; lia].
  apply (iso_few _ _ _ _ _ _ _ _ Iso l); [eapply nth_error_In; exact El|apply seq_NoDup|].
  intros l' Il. apply in_seq in Il.
  assert (I' : In l' (firstn i own)) by (apply U; lia). apply in_firstn_nth in I'. destruct I' as (j & Lj & Ej).
  split; [eapply nth_error_In; exact Ej|].
  destruct (Nat.eq_dec l' l) as [->|Nl]; [lia|].
  destruct (nth_error hs j) as [h'|] eqn:Eh'; [|apply nth_error_None in Eh'; lia].
  pose proof (iso_numbers _ _ _ _ _ _ _ _ Iso j l' Ej l ltac:(lia)) as I0. apply in_firstn_nth in I0. destruct I0 as (j0 & L0 & E0).
  destruct (nth_error hs j0) as [h0|] eqn:Eh0; [|apply nth_error_None in Eh0; lia].
  pose proof (iso_time _ _ _ _ _ _ _ _ Iso _ _ _ _ L0 Eh0 Eh'). pose proof (iso_time _ _ _ _ _ _ _ _ Iso _ _ _ _ Lj Eh' Eh).
  pose proof (iso_stems _ _ _ _ _ _ _ _ Iso _ _ _ Ej Eh') as (_ & _ & T'). pose proof (iso_stems _ _ _ _ _ _ _ _ Iso _ _ _ E0 Eh0) as (_ & _ & T0).
  lia.
Qed.

Lemma iso_ring i : (i <= length rs)%nat -> exists m, upto own i m /\
  ring_run begin (firstn i rs) (map (fun l => pick l own rs) (seq 0 (m - 127)),
    map (fun l => pick l (firstn i own) (firstn i rs)) (seq (m - 127) (m - (m - 127)))).
Proof.
  intros Hi.
  destruct (ring_of_groups own rs own_len (iso_numbers _ _ _ _ _ _ _ _ Iso) iso_acc iso_rej iso_begun i Hi) as (m & U & R).
  exists m. split; [exact U|].
  replace (map (fun l => pick l own rs) (seq 0 (m - 127))) with
    (map (fun l => pick l (firstn i own) (firstn i rs)) (seq 0 (m - 127))); [exact R|].
  apply map_ext_in. intros l I. apply in_seq in I.
  apply (closed_complete own rs own_len (iso_numbers _ _ _ _ _ _ _ _ Iso) iso_acc iso_rej iso_begun i m l Hi U). lia.
Qed.
End Isolated.

(** * The place of an event *)

Lemma small_of c : Forall raw_ok c -> zlen c <= 4096 -> small c.
Proof.
  intros F L.
  assert (B : 0 <= sum_tot c <= 1023 * zlen c /\ 0 <= sum_x c <= 522753 * zlen c /\ 0 <= sum_y c <= 522753 * zlen c).
  { clear L. induction F as [|h c (T & X & Y & _) F IH]; [unfold zlen; cbn; lia|].
    unfold zlen in *. cbn [length]. unfold sum_tot, sum_x, sum_y, zsum in *. cbn [fold_right].
    assert (0 <= w_tot h * w_x h <= 1023 * 511) by (split; [apply Z.mul_nonneg_nonneg; lia|apply Z.mul_le_mono_nonneg; lia]).
    assert (0 <= w_tot h * w_y h <= 1023 * 511) by (split; [apply Z.mul_nonneg_nonneg; lia|apply Z.mul_le_mono_nonneg; lia]).
    lia. }
  unfold small. lia.
Qed.

Lemma mean_sum (f : raw -> Z) X a c : Forall (fun h => 0 <= w_tot h /\ Z.abs (f h - X) <= a) c ->
  0 <= sum_tot c /\ Z.abs (zsum (fun h => w_tot h * f h) c - X * sum_tot c) <= a * sum_tot c.
Proof.
  intros F. induction F as [|h c (T & D) F (IH1 & IH2)]; [unfold sum_tot, zsum; cbn; lia|].
  unfold sum_tot, zsum in *. cbn [fold_right].
  set (s := fold_right _ 0 c) in *. set (t := fold_right (fun h a => w_tot h + a) 0 c) in *. clearbody s t.
  split; [lia|]. assert (- (a * w_tot h) <= w_tot h * f h - X * w_tot h <= a * w_tot h) by nia. lia.
Qed.

Lemma mean_real s t X a : 0 < t -> Z.abs (s - X * t) <= a * t ->
  (Rabs (exact_mean s t - IZR (8 * X)) <= IZR (8 * a))%R.
Proof.
  intros Ht B. unfold exact_mean. assert (Hr : (0 < IZR t)%R) by (apply IZR_lt; exact Ht).
  replace (8 * IZR s / IZR t - IZR (8 * X))%R with (8 * (IZR (s - X * t) / IZR t))%R
    by (rewrite minus_IZR, !mult_IZR; field; lra).
  rewrite Rabs_mult, (Rabs_pos_eq 8) by lra. rewrite mult_IZR. apply Rmult_le_compat_l; [lra|].
  unfold Rdiv. rewrite Rabs_mult, (Rabs_pos_eq (/ IZR t)) by (left; apply Rinv_0_lt_compat; exact Hr).
  apply (Rmult_le_reg_r (IZR t)); [exact Hr|]. rewrite Rmult_assoc, Rinv_l, Rmult_1_r by lra.
  rewrite <- abs_IZR, <- mult_IZR. apply IZR_le. exact B.
Qed.

Lemma gap_at h : off_gap h -> without_gap h = display_at h.
Proof. unfold off_gap, without_gap, display_at. destruct (Z.leb_spec 260 h); lia. Qed.
Lemma at_close v v' a : Z.abs (v - v') <= a -> Z.abs (display_at v - display_at v') <= a.
Proof. unfold display_at. lia. Qed.

Lemma trunc_close u : (Rabs (IZR (Ztrunc u) - u) < 1)%R.
Proof.
  destruct (Rle_or_lt 0 u) as [C|C].
  - rewrite Ztrunc_floor by exact C. pose proof (Zfloor_lb u). pose proof (Zfloor_ub u). apply Rabs_def1; lra.
  - rewrite Ztrunc_ceil by lra. pose proof (Zceil_ub u). pose proof (Zceil_lb u). apply Rabs_def1; lra.
Qed.

Lemma near_far v v' i b : near_part v i -> (Rabs (v - v') <= b)%R -> (Rabs (IZR i - v') <= b + 1 + / IZR (2 ^ 36))%R.
Proof.
  intros (u & D & ->) B. pose proof (trunc_close u) as T.
  replace (IZR (Ztrunc u) - v')%R with ((IZR (Ztrunc u) - u) + (u - v) + (v - v'))%R by ring.
  eapply Rle_trans; [apply Rabs_triang|]. eapply Rle_trans; [apply Rplus_le_compat_r, Rabs_triang|]. lra.
Qed.

Lemma turn_far mx my X Y c s b : (Rabs (mx - X) <= b)%R -> (Rabs (my - Y) <= b)%R ->
  (Rabs ((mx * c - my * s) - (X * c - Y * s)) <= b * (Rabs c + Rabs s))%R /\
  (Rabs ((mx * s + my * c) - (X * s + Y * c)) <= b * (Rabs c + Rabs s))%R.
Proof.
  intros A B. split.
  - replace ((mx * c - my * s) - (X * c - Y * s))%R with ((mx - X) * c + - ((my - Y) * s))%R by ring.
    eapply Rle_trans; [apply Rabs_triang|]. rewrite Rabs_Ropp, !Rabs_mult, Rmult_plus_distr_l.
    apply Rplus_le_compat; apply Rmult_le_compat_r; auto using Rabs_pos.
  - replace ((mx * s + my * c) - (X * s + Y * c))%R with ((my - Y) * c + (mx - X) * s)%R by ring.
    eapply Rle_trans; [apply Rabs_triang|]. rewrite !Rabs_mult, Rmult_plus_distr_l.
    apply Rplus_le_compat; apply Rmult_le_compat_r; auto using Rabs_pos.
Qed.

Lemma event_shown rot a s c px : rotation_ok rot -> Forall raw_ok c -> small c -> 0 < sum_tot c ->
  Forall (fun r => Z.abs (w_x r - display_at (at_x s)) <= a /\ Z.abs (w_y r - display_at (at_y s)) <= a) c ->
  falls_on rot c px -> shown_near rot a s px.
Proof.
  intros Hrot Hok Hs Ht Hc Hf. destruct (falls_spec rot c Hrot Hok Hs Ht) as (ix & iy & px' & Hf' & Nx & Ny & P).
  rewrite (falls_unique rot c px px' Hf Hf'). exists ix, iy. cbv zeta.
  destruct (mean_sum w_x (display_at (at_x s)) a c) as (_ & Bx).
  { rewrite Forall_forall in Hok, Hc. apply Forall_forall. intros h I. destruct (Hok h I) as (T & _), (Hc h I). split; [lia|assumption]. }
  destruct (mean_sum w_y (display_at (at_y s)) a c) as (_ & By).
  { rewrite Forall_forall in Hok, Hc. apply Forall_forall. intros h I. destruct (Hok h I) as (T & _), (Hc h I). split; [lia|assumption]. }
  destruct (turn_far _ _ _ _ (B2R (rot_cos rot)) (B2R (rot_sin rot)) _ (mean_real _ _ _ _ Ht Bx) (mean_real _ _ _ _ Ht By)) as (Tx & Ty).
  split; [|split; [|exact P]].
  - apply (near_far _ _ _ _ Nx Tx).
  - apply (near_far _ _ _ _ Ny Ty).
Qed.

(** * The spectrum *)

Lemma chip_place chip x y : 0 <= x < 256 -> 0 <= y < 256 ->
  on_chip (fst (place chip x y)) (snd (place chip x y)) = (x, y).
Proof.
  intros Hx Hy. unfold place, on_chip. destruct chip as [|[p|[p|p|]|]|p]; cbn [fst snd];
    repeat match goal with |- context [260 <=? ?v] => destruct (Z.leb_spec 260 v); try lia end; f_equal; lia.
Qed.

Lemma binned_enters h b k : binned h b -> 
  (enters k h /\ b = [k]) \/ (~ enters k h /\ ~ In k b).
Proof.
  intros (chip & f & T & H & Hf & HT & -> & Et & ->). destruct Hf as (_ & Hx & Hy & _).
  pose proof (chip_place chip _ _ Hx Hy) as P. unfold enters, true_hit, tof_bins. rewrite Et.
  destruct (place chip (f_x f) (f_y f)) as [x y]. cbn [fst snd] in P. cbn [h_x h_y h_tof]. rewrite P. cbn [fst snd].
  destruct (Z.leb_spec 251 (f_x f)); [|right; split; [intros (? & _); lia|intros []]].
  destruct (Z.leb_spec 126 (f_y f)); [|right; split; [intros (_ & ? & _); lia|intros []]].
  destruct (Z.ltb_spec ((H - T) / 4) 170000); [|lia]. cbn [andb].
  destruct (Z.eq_dec ((H - T) / 4) k) as [E|N].
  - left. split; [|congruence]. split; [assumption|]. split; [assumption|]. exists (H - T). auto.
  - right. split; [intros (_ & _ & t & Q & ->); injection Q as <-; apply N; reflexivity|intros [?|[]]; contradiction].
Qed.

Lemma binned_count hs bs k : Forall2 binned hs bs -> counted (enters k) hs (occurs Z.eq_dec (concat bs) k).
Proof.
  intros F. induction F as [|h b hs bs B F IH]; [constructor|]. cbn [concat]. unfold occurs. rewrite count_occ_app, Nat2Z.inj_add.
  fold (occurs Z.eq_dec b k) (occurs Z.eq_dec (concat bs) k).
  destruct (binned_enters h b k B) as [[E ->]|[E N]].
  - unfold occurs at 1. cbn [count_occ]. destruct (Z.eq_dec k k); [|contradiction]. rewrite Z.add_comm. constructor; assumption.
  - unfold occurs at 1. rewrite (proj1 (count_occ_not_In Z.eq_dec b k) N). constructor; assumption.
Qed.

(** * Reading a recording *)

Lemma holds_reads m hits es : bytes_ok m -> holds_hits m hits es -> filetohits (Some m) = Ok (hits, es).
Proof.
  intros Hm (ps & t & xs & -> & Hp & Ht & R & D).
  destruct (file_l ps t Hp (proj2 (proj1 (Forall_app _ _ _) Hm)) Ht) as [(xs' & rs & es' & R' & D' & E)|(N & _)]; [|exfalso; exact (N _ R)].
  rewrite (reads_unique _ _ _ _ _ R' _ R) in D'. destruct (displays_unique _ _ _ _ D _ _ D') as [-> ->]. exact E.
Qed.
Lemma unreadable_reads m : bytes_ok m -> unreadable m -> filetohits (Some m) = UB Uninitialised.
Proof.
  intros Hm (ps & t & -> & Hp & Ht & N).
  destruct (file_l ps t Hp (proj2 (proj1 (Forall_app _ _ _) Hm)) Ht) as [(xs' & rs & es' & R' & _)|(_ & E)]; [exfalso; exact (N _ R')|exact E].
Qed.

Lemma holds_recording c ds hss k hits es : Forall dataset_ok ds -> Forall of_good_size ds ->
  recording (fun _ t => t / 2 ^ 30 = c) false nothing_known ds hss k -> holds_hits (stream ds) hits es ->
  Forall2 shown_as (concat hss) hits /\ Forall (measured c) (concat hss) /\ Forall raw_ok hits /\
  exists bs, es = concat bs /\ Forall2 binned (concat hss) bs.
Proof.
  intros O S R H. pose proof (holds_reads _ _ _ (P_Core.stream_ok ds O) H) as E.
  destruct (all_shown_l ds O S) as (rs & es' & D & E'). rewrite E in E'. injection E' as <- <-.
  destruct (display_recording _ _ _ _ _ R O 0 hits es I D) as (F & B).
  split; [exact F|]. split; [eapply recording_measured; exact R|]. split; [|exact B].
  exact (proj2 (proj2 (C66_bounds_l _ _ _ (P_Core.stream_ok ds O) E))).
Qed.

Lemma spectrum_l c ds hss k rot l w d d0 img tof w' d' : Forall dataset_ok ds -> Forall of_good_size ds ->
  recording (fun _ t => t / 2 ^ 30 = c) false nothing_known ds hss k ->
  rotation_ok rot -> real_files l -> last_read l = Some (stream ds) ->
  wsteps rot (win_new, d0) l (Ok (w, d)) -> d_busy w = false ->
  wstep rot (w, d) (LSave img tof) (Ok (w', d')) ->
  (exists n, d_label w = Some (zlen (concat hss), n)) /\
  (forall n b, tof = Some (n, b) -> exists f, d' n = Some f /\ spectrum_of (concat hss) f).
Proof.
  intros O S R Hrot Hl Er HS B Q.
  destruct (saved_l rot l w d d0 img tof w' d' Hrot Hl HS B Q) as (px & es & lab & Oc & _ & El & Ht & _).
  rewrite Er in Oc. inversion Oc as [|m hits es' px' n HH HC]; subst.
  destruct (holds_recording c ds hss k hits es' O S R HH) as (F & _ & _ & bs & -> & Fb).
  split; [exists n; unfold zlen in *; rewrite (forall2_length F); congruence|].
  intros nm b E. destruct (Ht nm b E) as (f & Ef & g & -> & G1 & G2). exists (WTof g). split; [exact Ef|].
  exists g. split; [reflexivity|]. split; [|exact G2]. intros j Hj. exists (occurs Z.eq_dec (concat bs) j).
  split; [apply binned_count; exact Fb|apply G1; exact Hj].
Qed.

(** * The image *)

Lemma mem_pick l own hits : members l own hits = pick l own hits.
Proof. reflexivity. Qed.

Section Image.
Variables (c a w : Z) (evs : list event) (hs : list hit) (own : list nat) (rs : list raw).
Hypothesis Ha : 0 <= a <= 2.
Hypothesis Hw : 0 <= w <= 74.
Hypothesis Obs : observed 127 a w 9 50 evs hs own.
Hypothesis Few : forall l, zlen (members l own hs) <= 4096.
Hypothesis Mea : Forall (measured c) hs.
Hypothesis Sho : Forall2 shown_as hs rs.
Hypothesis Rok : Forall raw_ok rs.

Lemma pick_len l : zlen (pick l own rs) = zlen (members l own hs).
Proof. unfold zlen. rewrite mem_pick, (forall2_length (pick_rel _ l own _ _ Sho)). reflexivity. Qed.

Lemma pick_raw l ls (xs : list raw) : Forall raw_ok xs -> Forall raw_ok (pick l ls xs).
Proof.
  intros F. apply Forall_forall. intros r I. destruct (pick_in _ _ _ _ I) as (j & _ & E).
  rewrite Forall_forall in F. apply F. eapply nth_error_In. exact E.
Qed.

Lemma all_small i m : (i <= length rs)%nat -> Forall small
  (map (fun l => pick l own rs) (seq 0 (m - 127)) ++
   map (fun l => pick l (firstn i own) (firstn i rs)) (seq (m - 127) (m - (m - 127)))).
Proof.
  intros Hi. destruct Obs as (Iso & _). apply Forall_app. split; apply Forall_forall; intros x I;
    apply in_map_iff in I; destruct I as (l & <- & _).
  - apply small_of; [apply pick_raw; exact Rok|]. rewrite pick_len. apply Few.
  - apply small_of; [apply pick_raw; rewrite <- (firstn_skipn i rs) in Rok; apply Forall_app in Rok; tauto|].
    destruct (cls_shorter own rs i l (own_len a w _ hs own rs Iso Sho)) as (x & E). pose proof (pick_len l) as L. rewrite E in L.
    specialize (Few l). unfold zlen in *. rewrite app_length in L. lia.
Qed.

Lemma pick_tot l : big (pick l own rs) = true -> 0 < sum_tot (pick l own rs).
Proof.
  intros B. destruct Obs as (Iso & _ & T).
  assert (P : Forall (fun r => 0 < w_tot r) (pick l own rs)).
  { apply Forall_forall. intros r I. destruct (pick_in _ _ _ _ I) as (j & E1 & E2).
    destruct (sho_nth c hs rs Mea Sho j r E2) as (h & Eh & (_ & _ & -> & _) & _). apply (T j l h E1 Eh). }
  destruct (pick l own rs) as [|r q]; [discriminate B|]. inversion P as [|? ? P1 P2]; subst.
  unfold sum_tot, zsum. cbn [fold_right].
  assert (N : 0 <= fold_right (fun h b => w_tot h + b) 0 q); [|lia].
  clear - P2. induction P2; cbn; lia.
Qed.

Lemma pick_near l r : In r (pick l own rs) ->
  Z.abs (w_x r - display_at (at_x (e_at (nth_event evs l)))) <= a /\
  Z.abs (w_y r - display_at (at_y (e_at (nth_event evs l)))) <= a.
Proof.
  intros I. destruct Obs as (Iso & _). destruct (pick_in _ _ _ _ I) as (j & E1 & E2).
  destruct (sho_nth c hs rs Mea Sho j r E2) as (h & Eh & (-> & -> & _) & (Mx & My & _)).
  destruct (iso_stems _ _ _ _ _ _ _ _ Iso _ _ _ E1 Eh) as (Tx & Ty & _).
  rewrite !gap_at by assumption. split; apply at_close; assumption.
Qed.

Lemma image_run rot before last closed op pixels : rotation_ok rot -> rs = before ++ last ->
  ring_run begin before (closed, op) -> 
  Forall small (closed ++ op) /\ Forall (fun c => big c = true -> 0 < sum_tot c) closed /\
  (pixels_of rot closed pixels -> image_of rot a evs own hs (length before) pixels (zlen closed)).
Proof.
  intros Hrot E R. destruct Obs as (Iso & _).
  assert (Hi : (length before <= length rs)%nat) by (rewrite E, app_length; lia).
  destruct (iso_ring c a w _ hs own rs Ha Hw Iso Mea Sho (length before) Hi) as (m & U & R').
  assert (Eb : firstn (length before) rs = before) by (rewrite E, firstn_app, Nat.sub_diag, firstn_all; cbn; apply app_nil_r).
  rewrite Eb in R'. pose proof (ring_run_unique _ _ _ _ begin_127 R R') as Q. injection Q as -> ->.
  split; [pose proof (all_small (length before) m Hi) as K; rewrite Eb in K; exact K|].
  split; [apply Forall_forall; intros x I; apply in_map_iff in I; destruct I as (l & <- & _); apply pick_tot|].
  intros (pxs & F & ->). exists m, pxs. split; [exact U|]. split; [|split; [reflexivity|]].
  2: { unfold zlen. rewrite map_length, seq_length. reflexivity. }
  clear R R'. revert pxs F. induction (seq 0 (m - 127)) as [|l ls IH]; intros pxs F; cbn [map filter] in *; [inversion F; constructor|].
  unfold big in F at 1. rewrite pick_len in F.
  destruct (10 <? zlen (members l own hs)) eqn:B; [|apply IH; exact F].
  inversion F as [|x px ? pxs' F1 F2]; subst pxs. constructor; [|apply IH; exact F2].
  apply (event_shown rot a _ (pick l own rs)); [exact Hrot|apply pick_raw; exact Rok| | | |exact F1].
  - apply small_of; [apply pick_raw; exact Rok|]. rewrite pick_len. apply Few.
  - apply pick_tot. unfold big. rewrite pick_len. exact B.
  - apply Forall_forall. intros r. apply pick_near.
Qed.
End Image.

Lemma image_l c a wd evs own ds hss k rot l w d d0 img tof w' d' : Forall dataset_ok ds -> Forall of_good_size ds ->
  recording (fun _ t => t / 2 ^ 30 = c) false nothing_known ds hss k ->
  0 <= a <= 2 -> 0 <= wd <= 74 -> observed 127 a wd 9 50 evs (concat hss) own ->
  (forall e, zlen (members e own (concat hss)) <= 4096) ->
  rotation_ok rot -> real_files l -> last_read l = Some (stream ds) ->
  wsteps rot (win_new, d0) l (Ok (w, d)) -> d_busy w = false ->
  wstep rot (w, d) (LSave img tof) (Ok (w', d')) ->
  exists n pixels clusters, zlen (concat hss) - 4095 <= Z.of_nat n <= zlen (concat hss) /\
    image_of rot a evs own (concat hss) n pixels clusters /\ d_label w = Some (zlen (concat hss), clusters) /\
    (forall nm b, img = Some (nm, b) -> option_map fst tof <> Some nm -> exists f, d' nm = Some f /\ shows_image pixels f).
Proof.
  intros O S R Ha Hw Ob Fw Hrot Hl Er HS B Q.
  destruct (saved_l rot l w d d0 img tof w' d' Hrot Hl HS B Q) as (px & es & lab & Oc & _ & El & _ & Hi & _).
  rewrite Er in Oc. inversion Oc as [|m hits es' px' n HH HC]; subst.
  destruct (holds_recording c ds hss k hits es' O S R HH) as (F & M & Rk & _).
  destruct HC as (before & last & closed & op & E & Ll & Rr & Px & ->).
  destruct (image_run c a wd evs (concat hss) own hits Ha Hw Ob Fw M F Rk rot before last closed op px Hrot E Rr) as (_ & _ & Im).
  assert (Ln : zlen (concat hss) = zlen before + zlen last).
  { unfold zlen. rewrite (forall2_length F), E, app_length. lia. }
  exists (length before), px, (zlen closed). split; [unfold zlen in *; lia|]. split; [apply Im; exact Px|].
  split; [|exact Hi]. clear Ln. unfold zlen in *. rewrite (forall2_length F). congruence.
Qed.

Lemma reads_defined_l c a wd evs own ds hss k rot l r d0 : Forall dataset_ok ds -> Forall of_good_size ds ->
  recording (fun _ t => t / 2 ^ 30 = c) false nothing_known ds hss k ->
  0 <= a <= 2 -> 0 <= wd <= 74 -> observed 127 a wd 9 50 evs (concat hss) own ->
  (forall e, zlen (members e own (concat hss)) <= 4096) ->
  rotation_ok rot -> (forall m, In (LRead (Some m)) l -> m = stream ds) ->
  wsteps rot (win_new, d0) l r ->
  (exists w d, r = Ok (w, d)) \/
  (exists l' b, r = UB NullDeref /\ l = l' ++ [b] /\
     (b = LRead None \/ exists img tof n, b = LSave img tof /\ (img = Some (n, false) \/ tof = Some (n, false)))).
Proof.
  intros O S R Ha Hw Ob Fw Hrot Hl HS.
  assert (Hf : real_files l) by (intros m I; rewrite (Hl m I); apply P_Core.stream_ok; exact O).
  destruct (undefined_l rot l r d0 Hrot Hf HS) as [K|(u & l' & b & -> & -> & Re)]; [left; exact K|]. right.
  assert (Lr : forall m, last_read l' = Some m -> m = stream ds).
  { intros m E. apply Hl. apply in_or_app. left. clear - E. revert E. induction l' as [|x l' IH]; intros E; [discriminate E|].
    destruct x as [[m'|]| | |]; cbn in E; try (right; apply IH; exact E).
    destruct (last_read l') as [m2|]; [right; apply IH; exact E|left; congruence]. }
  inversion Re as [f|f m U|f img tof n C|m hits es before last closed op HH E Rr Ex|m hits es before last closed op HH E Rr Ex]; subst.
  - exists l', (LRead None). auto.
  - exfalso. assert (Em : m = stream ds) by (apply Hl; apply in_or_app; right; left; reflexivity). subst m.
    destruct (all_shown_l ds O S) as (rs & es' & _ & E').
    rewrite (unreadable_reads _ (P_Core.stream_ok ds O) U) in E'. discriminate E'.
  - exists l', (LSave img tof). split; [reflexivity|]. split; [reflexivity|]. right. exists img, tof, n. auto.
  - exfalso. rewrite (Lr m) in HH by congruence.
    destruct (holds_recording c ds hss k _ es O S R HH) as (F & M & Rk & _).
    destruct (image_run c a wd evs (concat hss) own _ Ha Hw Ob Fw M F Rk rot before last closed op [] Hrot eq_refl Rr) as (Sm & _).
    apply Exists_exists in Ex. destruct Ex as (x & I & N). rewrite Forall_forall in Sm. exact (N (Sm x I)).
  - exfalso. rewrite (Lr m) in HH by congruence.
    destruct (holds_recording c ds hss k _ es O S R HH) as (F & M & Rk & _).
    destruct (image_run c a wd evs (concat hss) own _ Ha Hw Ob Fw M F Rk rot before last closed op [] Hrot eq_refl Rr) as (_ & Tt & _).
    apply Exists_exists in Ex. destruct Ex as (x & I & N1 & N2). rewrite Forall_forall in Tt. specialize (Tt x I N1). lia.
Qed.

(** With at most 127 events nothing is shown. *)
Lemma few_events_l rot a evs own hits n pixels clusters : (forall l, In l own -> (l < length evs)%nat) -> (length evs <= 127)%nat ->
  image_of rot a evs own hits n pixels clusters -> pixels = [] /\ clusters = 0.
Proof.
  intros Ho L (m & pxs & U & F & -> & ->).
  assert (E : (m - 127 = 0)%nat).
  { destruct m as [|m]; [reflexivity|]. pose proof (proj2 (U m) ltac:(lia)) as I.
    assert (I' : In m own) by (rewrite <- (firstn_skipn n own); apply in_or_app; left; exact I). specialize (Ho _ I'). lia. }
  rewrite E in *. cbn in F. inversion F. auto.
Qed.

(** A session that reads all hits. *)
Lemma session_l c a wd evs own ds hss k rot d0 ni nt : Forall dataset_ok ds -> Forall of_good_size ds ->
  recording (fun _ t => t / 2 ^ 30 = c) false nothing_known ds hss k ->
  0 <= a <= 2 -> 0 <= wd <= 74 -> observed 127 a wd 9 50 evs (concat hss) own ->
  (forall e, zlen (members e own (concat hss)) <= 4096) -> rotation_ok rot -> ni <> nt ->
  exists l w d' pixels clusters fi ft, Forall (eq LTau) l /\
    wsteps rot (win_new, d0) (LRead (Some (stream ds)) :: l) (Ok (w, d0)) /\ d_busy w = false /\
    wstep rot (w, d0) (LSave (Some (ni, true)) (Some (nt, true))) (Ok (w, d')) /\
    image_of rot a evs own (concat hss) (length (concat hss)) pixels clusters /\
    d' ni = Some fi /\ shows_image pixels fi /\ d' nt = Some ft /\ spectrum_of (concat hss) ft.
Proof.
  intros O S R Ha Hw Ob Fw Hrot Hn. pose proof (P_Core.stream_ok ds O) as Hb.
  destruct (all_shown_l ds O S) as (rs & es & _ & E).
  destruct (holds_recording c ds hss k rs es O S R (read_spec _ _ _ Hb E)) as (F & M & Rk & _).
  destruct (C67_clusters_l rot rs Hrot Rk) as (closed & op & Rr & _ & Cs).
  assert (Er : rs = rs ++ []) by (symmetry; apply app_nil_r).
  pose proof (fun px => image_run c a wd evs (concat hss) own rs Ha Hw Ob Fw M F Rk rot rs [] closed op px Hrot Er Rr) as Im.
  destruct Cs as [(_ & _ & wk & pxs & Ew & _ & _ & F2 & Ei)|[(X & _)|(X & _)]].
  2: { exfalso. destruct (Im []) as (Sm & _). apply Exists_exists in X. destruct X as (x & I & N).
       rewrite Forall_forall in Sm. exact (N (Sm x I)). }
  2: { exfalso. destruct (Im []) as (_ & Tt & _). apply Exists_exists in X. destruct X as (x & I & N1 & N2).
       rewrite Forall_forall in Tt. specialize (Tt x I N1). lia. }
  destruct (reads_all_l rot (stream ds) rs es d0 rs [] Hrot Hb E Er ltac:(cbn; lia) wk Ew) as (l & w & Ft & S1 & B & Wi).
  pose proof (w_save rot w d0 (Some (ni, true)) (Some (nt, true))) as Q. unfold win_save in Q. rewrite B in Q.
  cbn [save_one obind] in Q.
  assert (Rf : real_files (LRead (Some (stream ds)) :: l)).
  { intros m [I|I]; [injection I as <-; exact Hb|]. rewrite Forall_forall in Ft. specialize (Ft _ I). discriminate Ft. }
  assert (Lr : last_read (LRead (Some (stream ds)) :: l) = Some (stream ds)).
  { cbn. replace (last_read l) with (@None (list Z)); [reflexivity|]. clear - Ft. induction Ft as [|x l <- Ft IH]; [reflexivity|exact IH]. }
  destruct (idle_l rot _ w d0 d0 Hrot Rf S1 B) as (_ & In).
  destruct (spectrum_l c ds hss k rot _ w d0 d0 _ _ _ _ O S R Hrot Rf Lr S1 B Q) as (_ & Sp).
  destruct (Sp nt true eq_refl) as (ft & Eft & Sft).
  exists l, w. eexists. exists (win_image w), (zlen closed), (image_file w), ft.
  split; [exact Ft|]. split; [exact S1|]. split; [exact B|]. split; [exact Q|].
  split; [|split; [|split; [apply image_shows; exact In|split; [exact Eft|exact Sft]]]].
  - rewrite (forall2_length F). apply (proj2 (proj2 (Im _))). rewrite Wi, Ei. exists pxs. auto.
  - unfold wput. destruct (String.eqb_spec ni nt) as [X|_]; [contradiction|]. rewrite String.eqb_refl. reflexivity.
Qed.

(** * Deciding whether events are isolated *)

Fixpoint numbered (own : list nat) (k : nat) : option nat :=
  match own with
  | [] => Some k
  | l :: r => if (l <=? k)%nat then numbered r (if (l =? k)%nat then S k else k) else None
  end.
Definition stems_b (a w : Z) (s : source) (h : hit) : bool :=
  (Z.abs (h_x h - at_x s) <=? a) && (Z.abs (h_y h - at_y s) <=? a) && (at_t s <=? arrival h) && (arrival h <=? at_t s + w).
Definition apart_b (a w r range : Z) (s s' : source) : bool :=
  (2 * a + r <? Z.abs (at_x s - at_x s')) || (2 * a + r <? Z.abs (at_y s - at_y s')) || (w + range <? Z.abs (at_t s - at_t s')).
Fixpoint ordered_b (hs : list hit) : bool :=
  match hs with [] => true | h :: r => forallb (fun h' => arrival h <=? arrival h') r && ordered_b r end.
Definition observed_b (n : nat) (a w r range : Z) (evs : list event) (hs : list hit) (own : list nat) : bool :=
  let src l := e_at (nth_event evs l) in
  let all := seq 0 (length evs) in
  (length own =? length hs)%nat &&
  match numbered own 0 with Some k => (k =? length evs)%nat | None => false end &&
  forallb (fun p => stems_b a w (src (fst p)) (snd p) && (0 <? h_tot (snd p)) &&
     match h_tof (snd p) with Some t => t =? h_spider (snd p) - e_pulse (nth_event evs (fst p)) | None => false end) (combine own hs) &&
  forallb (fun l => forallb (fun l' => (l =? l')%nat || apart_b a w r range (src l) (src l')) all) all &&
  ordered_b hs &&
  forallb (fun l => (length (filter (fun m => Z.abs (at_t (src m) - at_t (src l)) <=? w)%Z all) <=? n)%nat) all.

Lemma numbered_spec own : forall k k', numbered own k = Some k' ->
  (forall l, In l own \/ (l < k)%nat <-> (l < k')%nat) /\
  (forall i l, nth_error own i = Some l -> forall l', (l' < l)%nat -> In l' (firstn i own) \/ (l' < k)%nat).
Proof.
  induction own as [|a own IH]; intros k k' E; cbn [numbered] in E.
  - injection E as <-. split; [cbn; intuition lia|]. intros i l El. destruct i; discriminate El.
  - destruct (Nat.leb_spec a k) as [L|]; [|discriminate E]. apply IH in E. destruct E as (E1 & E2). split.
    + intros l. specialize (E1 l). destruct (Nat.eqb_spec a k) as [Q|N]; cbn [In]; split; intros H.
      * apply E1. destruct H as [[H|H]|H]; [right; lia|left; exact H|right; lia].
      * apply E1 in H. destruct H as [H|H]; [left; right; exact H|]. destruct (Nat.eq_dec l k) as [->|]; [left; left; exact Q|right; lia].
      * apply E1. destruct H as [[H|H]|H]; [right; lia|left; exact H|right; lia].
      * apply E1 in H. destruct H as [H|H]; [left; right; exact H|right; exact H].
    + intros [|i] l El l' Ll; [injection El as <-; right; lia|]. cbn [firstn In]. cbn in El.
      destruct (E2 i l El l' Ll) as [H|H]; [left; right; exact H|].
      destruct (Nat.eqb_spec a k) as [Q|N]; [|right; exact H].
      destruct (Nat.eq_dec l' k) as [->|]; [left; left; exact Q|right; lia].
Qed.

Lemma observed_by n a w r range evs hs own : observed_b n a w r range evs hs own = true -> observed n a w r range evs hs own.
Proof.
  intros H. unfold observed_b in H. cbv zeta in H. repeat (apply andb_prop in H; destruct H as [H ?]).
  match goal with K : ordered_b hs = true |- _ => rename K into HO end.
  apply Nat.eqb_eq in H. destruct (numbered own 0) as [k|] eqn:E; [|discriminate].
  destruct (numbered_spec own 0 k E) as (N1 & N2).
  match goal with K : (k =? length evs)%nat = true |- _ => apply Nat.eqb_eq in K; subst k end.
  repeat match goal with K : forallb _ _ = true |- _ => rewrite forallb_forall in K end.
  match goal with K : forall x, In x (combine own hs) -> _ |- _ => rename K into HS end.
  match goal with K : forall x, In x _ -> (length (filter _ _) <=? n)%nat = true |- _ => rename K into HF end.
  match goal with K : forall x, In x _ -> forallb _ _ = true |- _ => rename K into HA end.
  assert (Ev : forall l, In l own <-> (l < length evs)%nat) by (intros l; rewrite <- N1; intuition lia).
  assert (Nth : forall i l h, nth_error own i = Some l -> nth_error hs i = Some h -> In (l, h) (combine own hs)).
  { clear. revert hs. induction own as [|x own IH]; intros [|y hs] i l h A B; destruct i; try discriminate; cbn in *.
    - left. congruence.
    - right. eapply IH; eassumption. }
  split; [|split; [exact Ev|]].
  - split.
    + exact H.
    + intros i l El l' Ll. destruct (N2 i l El l' Ll) as [K|K]; [exact K|lia].
    + intros i l h El Eh. specialize (HS _ (Nth i l h El Eh)). cbn [fst snd] in HS. unfold stems_b in HS. unfold stems. lia.
    + intros l l' I I' Nl. apply Ev in I, I'. specialize (HA l ltac:(apply in_seq; lia)). rewrite forallb_forall in HA.
      specialize (HA l' ltac:(apply in_seq; lia)). destruct (Nat.eqb_spec l l'); [contradiction|]. unfold apart_b in HA. unfold apart. lia.
    + clear - HO. revert HO. induction hs as [|x hs IH]; intros HO i j h h' L Ei Ej; [destruct i; discriminate Ei|].
      cbn in HO. apply andb_prop in HO. destruct HO as [H1 H2]. destruct j as [|j]; [lia|]. cbn in Ej. destruct i as [|i].
      * injection Ei as <-. rewrite forallb_forall in H1. specialize (H1 h' (nth_error_In _ _ Ej)). lia.
      * apply (IH H2 i j h h'); [lia|exact Ei|exact Ej].
    + intros l ms I ND Fm. apply Ev in I. specialize (HF l ltac:(apply in_seq; lia)). apply Nat.leb_le in HF.
      eapply Nat.le_trans; [|exact HF]. apply NoDup_incl_length; [exact ND|]. intros m Im. destruct (Fm m Im) as (A & B).
      apply filter_In. split; [apply in_seq; apply Ev in A; lia|lia].
  - intros i l h El Eh. specialize (HS _ (Nth i l h El Eh)). cbn [fst snd] in HS.
    destruct (h_tof h) as [t|]; [|lia]. split; [lia|]. f_equal. lia.
Qed.

(** * Many pixels in a row *)

Definition fire (q : Z * Z * Z * Z) : act := match q with (x, y, tot, H) => Fire x y tot 0 H end.
Definition fire_hit (chip T : Z) (q : Z * Z * Z * Z) : hit :=
  match q with (x, y, tot, H) =>
    Hit (fst (place chip x y)) (snd (place chip x y)) tot (H mod 2 ^ 14) 0 (Some (H - T)) H
  end.
Definition fire_b (T c : Z) (q : Z * Z * Z * Z) : bool :=
  match q with (x, y, tot, H) =>
    (0 <=? x) && (x <? 256) && (0 <=? y) && (y <? 256) && (0 <=? tot) && (tot <? 1024) && (0 <=? H) && (H / 2 ^ 30 =? c) &&
    (T <=? H) && (H <=? T + 666800)
  end.
Lemma fires_history c chip g T l : forallb (fire_b T c) l = true ->
  history (fun _ t => t / 2 ^ 30 = c) chip (Some g) (Some T) (map fire l) (map (fire_hit chip T) l) (Some g) (Some T).
Proof.
  induction l as [|[[[x y] tot] H] l IH]; intros E; [constructor|]. cbn [forallb] in E. apply andb_prop in E. destruct E as [E E'].
  cbn [map fire fire_hit]. unfold fire_b in E. repeat (apply andb_prop in E; destruct E as [E ?]).
  apply hy_fire; try lia. exact (IH E').
Qed.

Lemma filter_shorter {A} (f : A -> bool) l : (length (filter f l) <= length l)%nat.
Proof. induction l as [|a l IH]; cbn; [lia|]. destruct (f a); cbn; lia. Qed.

(** Counting by computation. *)
Definition enters_b (k : Z) (h : hit) : bool :=
  (251 <=? fst (on_chip (h_x h) (h_y h))) && (126 <=? snd (on_chip (h_x h) (h_y h))) &&
  match h_tof h with Some t => k =? t / 4 | None => false end.
Lemma counted_by k hs n : zlen (filter (enters_b k) hs) = n -> counted (enters k) hs n.
Proof.
  intros <-. induction hs as [|h hs IH]; [constructor|]. cbn [filter]. destruct (enters_b k h) eqn:E; unfold enters_b in E.
  - unfold zlen in *. cbn [length]. rewrite Nat2Z.inj_succ. apply counted_yes; [|exact IH]. unfold enters.
    destruct (h_tof h) as [t|]; [|lia]. split; [lia|]. split; [lia|]. exists t. split; [reflexivity|lia].
  - apply counted_no; [|exact IH]. intros (A & B & t & C & ->). rewrite C in E. lia.
Qed.
