(** Lemmas about sessions of the display program. *)
From Coq Require Import Lia.
From Verif Require Export S_DisplayWin P_DisplayAll P_DisplayThreads.
From Coq Require Import ZifyBool Zify.
Ltac Zify.zify_post_hook ::= Z.to_euclidean_division_equations.
Local Open Scope Z_scope.
Local Open Scope list_scope.

(** * Counting *)

Lemma hits_on_occurs k l : hits_on k l = occurs Z.eq_dec l k.
Proof.
  unfold hits_on, occurs, zlen. f_equal. induction l as [|a l IH]; [reflexivity|].
  cbn [filter count_occ]. destruct (Z.eq_dec a k) as [->|N].
  - rewrite Z.eqb_refl. cbn [length]. rewrite IH. reflexivity.
  - destruct (Z.eqb_spec k a) as [E|_]; [congruence|]. exact IH.
Qed.

Lemma hits_on_pixels x y l : 0 <= x < 4096 -> 0 <= y < 4096 ->
  Forall (fun p => 0 <= fst p < 4096 /\ 0 <= snd p < 4096) l ->
  hits_on (4096 * y + x) (map pos2d l) = occurs pixel_dec l (x, y).
Proof.
  intros Hx Hy H. unfold hits_on, occurs, zlen. f_equal.
  induction H as [|[a b] l [Ha Hb] Hl IH]; [reflexivity|].
  cbn [map filter count_occ]. cbn [fst snd] in *. unfold pos2d at 1. cbn [fst snd].
  destruct (pixel_dec (a, b) (x, y)) as [E|N].
  - injection E as -> ->. rewrite Z.eqb_refl. cbn [length]. rewrite IH. reflexivity.
  - destruct (Z.eqb_spec (4096 * y + x) (4096 * b + a)) as [E|_]; [|exact IH].
    exfalso. apply N. f_equal; lia.
Qed.

Lemma falls_inside rot cs pxs : Forall2 (falls_on rot) cs pxs ->
  Forall (fun p => 0 <= fst p < 4096 /\ 0 <= snd p < 4096) (concat pxs).
Proof.
  induction 1 as [|c px cs pxs (ix & iy & _ & _ & [(H1 & H2 & ->)|(_ & ->)]) HF IH]; cbn [concat app];
    [constructor|constructor; [exact (conj H1 H2)|exact IH]|exact IH].
Qed.

Lemma image_shows w : Forall (fun p => 0 <= fst p < 4096 /\ 0 <= snd p < 4096) (win_image w) ->
  shows_image (win_image w) (image_file w).
Proof.
  intros H. eexists. split; [reflexivity|]. split.
  - intros x y Hx Hy. replace ((0 <=? 4096 * x + y) && (4096 * x + y <? 4096 * 4096)) with true by lia.
    replace ((4096 * x + y) mod 4096) with y by lia. replace ((4096 * x + y) / 4096) with x by lia.
    rewrite hits_on_pixels by assumption. reflexivity.
  - intros k Hk. replace ((0 <=? k) && (k <? 4096 * 4096)) with false by lia. reflexivity.
Qed.
Lemma tof_shows w : shows_spectrum (d_tof w) (tof_file w).
Proof.
  eexists. split; [reflexivity|]. split.
  - intros k Hk. replace ((0 <=? k) && (k <? 170000)) with true by lia.
    destruct (d_tof w) as [es|]; [rewrite hits_on_occurs|]; reflexivity.
  - intros k Hk. replace ((0 <=? k) && (k <? 170000)) with false by lia. reflexivity.
Qed.

(** * The invariant of a session *)

Lemma Ok_inj {A} (a b : A) : Ok a = Ok b -> a = b.
Proof. congruence. Qed.

Record jinv (rot : rotation) (w : dwin) (j : job) (es : list Z) : Prop := JInv
  { ji_bytes : bytes_ok (j_file j);
    ji_read : filetohits (Some (j_file j)) = Ok (j_hits j, es);
    ji_tof : d_tof w = Some es;
    ji_sys : exists done m, inv (j_hits j) (j_sys j) done m;
    ji_wk : wk_run rot wk_start (g_out (j_sys j)) = Ok (j_wk j);
    ji_idle : d_busy w = false -> g_pp (j_sys j) = PrDone /\ g_cp (j_sys j) = CoEnd /\
      d_label w = Some (zlen (j_hits j), wk_total (j_wk j)) }.
Definition winv (rot : rotation) (w : dwin) (f : option (list Z)) : Prop :=
  match d_job w with
  | None => w = win_new /\ f = None
  | Some j => f = Some (j_file j) /\ exists es, jinv rot w j es
  end.

Lemma winv_new rot : winv rot win_new None.
Proof. split; reflexivity. Qed.

Lemma wk_run_app rot a : forall w b, wk_run rot w (a ++ b) = let! w' := wk_run rot w a in wk_run rot w' b.
Proof.
  induction a as [|h a IH]; intros w b; [reflexivity|]. cbn [app wk_run].
  destruct (wk_hit rot w h); cbn [obind]; [apply IH|reflexivity..].
Qed.

Lemma inv_set_kill {A} hits (s : rsys A) done m : inv hits s done m -> g_pp s = PrDone -> inv hits (set_kill s) done m.
Proof. intros [H1 H2 H3 H4 H5 H6 H7 H8 H9 H10 H11] E. split; try assumption; cbn; auto. Qed.

(** The file as the specification sees it. *)
Lemma read_spec m hits es : bytes_ok m -> filetohits (Some m) = Ok (hits, es) -> holds_hits m hits es.
Proof.
  intros Hm HF. destruct (C65_file_l m Hm) as (ps & t & E & Hp & Ht & [(xs & rs & es' & HR & _ & HD & _ & HF')|(_ & HF')]);
    rewrite HF' in HF; [|discriminate HF]. injection HF as -> ->. exists ps, t, xs. auto.
Qed.
Lemma read_cases m : bytes_ok m ->
  (exists hits es, filetohits (Some m) = Ok (hits, es)) \/ (unreadable m /\ filetohits (Some m) = UB Uninitialised).
Proof.
  intros Hm. destruct (C65_file_l m Hm) as (ps & t & E & Hp & Ht & [(xs & rs & es' & HR & _ & HD & _ & HF')|(N & HF')]).
  - left. eauto.
  - right. split; [|exact HF']. exists ps, t. auto.
Qed.

(** What a step of a thread adds to the hits used. *)
Lemma step_out {A} (s s' : rsys A) : rstep s (Some s') -> g_out s' = g_out s \/ exists h, g_out s' = g_out s ++ [h].
Proof. intros R. inversion R; subst; cbn [g_out]; eauto. Qed.

Lemma done_step {A} (s s' : rsys A) : rstep s (Some s') -> g_pp s = PrDone -> g_cp s = CoEnd ->
  g_pp s' = PrDone /\ g_cp s' = CoEnd /\ g_out s' = g_out s.
Proof. intros R E1 E2. inversion R; subst; cbn [g_pp g_cp g_out] in *; try discriminate; auto. Qed.

Definition now_read (f : option (list Z)) (a : wlabel) : option (list Z) :=
  match a with LRead (Some m) => Some m | _ => f end.

Lemma save_ok d t f r : save_one d t f = r ->
  (exists d', r = Ok d') \/ (exists n, t = Some (n, false) /\ r = UB NullDeref).
Proof. intros <-. destruct t as [[n []]|]; cbn [save_one]; eauto. Qed.

Lemma step_inv rot w d f a r : rotation_ok rot -> winv rot w f -> wstep rot (w, d) a r ->
  (forall m, a = LRead (Some m) -> bytes_ok m) ->
  (exists w' d', r = Ok (w', d') /\ winv rot w' (now_read f a)) \/
  (exists u, r = UB u /\ reason rot f a u).
Proof.
  intros Hrot I R Hb. inversion R; subst.
  - destruct file as [m|].
    + specialize (Hb m eq_refl). unfold win_read.
      destruct (read_cases m Hb) as [(hits & es & E)|(U & E)]; rewrite E; cbn [obind fst snd].
      * left. eexists _, _. split; [reflexivity|]. unfold winv. cbn [d_job now_read j_file].
        split; [reflexivity|]. exists es. split; cbn [j_file j_hits j_sys j_wk d_tof d_busy]; auto; try discriminate.
        exists [], 0%nat. apply inv_start.
      * right. eexists. split; [reflexivity|]. apply re_file. exact U.
    + right. eexists. split; [reflexivity|]. apply re_open.
  - left. eexists _, _. split; [reflexivity|]. exact I.
  - unfold win_save. destruct (d_busy w); [left; eexists _, _; split; [reflexivity|exact I]|].
    destruct (save_ok d img (image_file w) _ eq_refl) as [(d1 & E1)|(n & -> & E1)]; rewrite E1; cbn [obind].
    + destruct (save_ok d1 tof (tof_file w) _ eq_refl) as [(d2 & E2)|(n & -> & E2)]; rewrite E2; cbn [obind].
      * left. eexists _, _. split; [reflexivity|exact I].
      * right. eexists. split; [reflexivity|]. eapply re_save. right. reflexivity.
    + right. eexists. split; [reflexivity|]. eapply re_save. left. reflexivity.
  - left. eexists _, _. split; [reflexivity|]. exact I.
  - match goal with K : d_job w = Some _ |- _ => rename K into HJ end.
    left. eexists _, _. split; [reflexivity|]. unfold winv in I. rewrite HJ in I.
    destruct I as (-> & es & [J1 J2 J3 (done & m & J4) J5 J6]). unfold win_tick.
    destruct (g_pp (j_sys j)) eqn:Ep; unfold winv; cbn [d_job now_read]; rewrite ?HJ; cbn [j_file]; (split; [reflexivity|]);
      exists es; split; cbn [j_file j_hits j_sys j_wk d_tof d_busy d_label]; auto; try discriminate; try (exists done, m; assumption).
    + exists done, m. apply inv_set_kill; assumption.
    + intros B. cbn [set_kill g_pp g_cp]. destruct (g_cp (j_sys j)); try discriminate B. rewrite Ep. auto.
  - match goal with K : rstep _ _ |- _ => rename K into HS end.
    match goal with K : g_out _ = _ ++ _ |- _ => rename K into HO end.
    unfold winv in I. cbn [d_job j_file] in I. destruct I as (-> & es & [J1 J2 J3 (done & mm & J4) J5 J6]).
    cbn [j_file j_hits j_sys j_wk d_tof d_busy d_label] in *.
    destruct (inv_step _ _ _ _ _ J4 HS) as (s1 & done' & m' & E1 & I'). injection E1 as <-.
    assert (O : wk_run rot wk_start (g_out s') = let! w' := wk_run rot wkr new in Ok w').
    { rewrite HO, wk_run_app, J5. cbn [obind]. destruct (wk_run rot wkr new); reflexivity. }
    assert (Hpre : exists rest, hits = g_out s' ++ rest).
    { destruct I' as [Hh _ _ _ _ _ Ho _ _ _ _]. exists (skipn (used (g_cp s') m') done' ++ g_todo s').
      rewrite Ho, app_assoc, firstn_skipn. exact Hh. }
    destruct Hpre as (rest & Hpre). destruct (C66_bounds_l m hits es J1 J2) as (_ & _ & Hok).
    assert (Hok' : Forall raw_ok (g_out s')) by (rewrite Hpre in Hok; apply Forall_app in Hok; tauto).
    destruct (C67_clusters_l rot (g_out s') Hrot Hok') as (closed & op & HR & _ & [(_ & _ & w2 & pxs & EW & _)|[(B & EW)|(B & EW)]]).
    + left. assert (EN : wk_run rot wkr new = Ok w2).
      { rewrite O in EW. destruct (wk_run rot wkr new); cbn [obind] in EW; try discriminate EW. exact EW. }
      rewrite EN. cbn [obind]. eexists _, _. split; [reflexivity|]. unfold winv. cbn [d_job j_file].
      split; [reflexivity|]. exists es. split; cbn [j_file j_hits j_sys j_wk d_tof d_busy d_label]; auto.
      * exists done', m'. exact I'.
      * intros B. destruct (J6 B) as (Q1 & Q2 & Q3). destruct (done_step _ _ HS Q1 Q2) as (Q4 & Q5 & Q6).
        split; [exact Q4|]. split; [exact Q5|]. rewrite Q6 in HO. rewrite <- (app_nil_r (g_out s)) in HO at 1.
        apply app_inv_head in HO. subst new. cbn in EN. injection EN as <-. exact Q3.
    + right. assert (EN : wk_run rot wkr new = UB SignedOverflow).
      { rewrite O in EW. destruct (wk_run rot wkr new); cbn [obind] in EW; try discriminate EW. exact EW. }
      rewrite EN. eexists. split; [reflexivity|]. apply (re_sum rot m hits es (g_out s') rest closed op); [apply read_spec; assumption|exact Hpre|exact HR|exact B].
    + right. assert (EN : wk_run rot wkr new = UB BadConversion).
      { rewrite O in EW. destruct (wk_run rot wkr new); cbn [obind] in EW; try discriminate EW. exact EW. }
      rewrite EN. eexists. split; [reflexivity|]. apply (re_tot rot m hits es (g_out s') rest closed op); [apply read_spec; assumption|exact Hpre|exact HR|exact B].
  - match goal with K : rstep _ _ |- _ => rename K into HS end.
    exfalso. unfold winv in I. cbn [d_job j_file] in I. destruct I as (-> & es & [J1 J2 J3 (done & mm & J4) J5 J6]).
    cbn [j_hits j_sys] in J4. destruct (inv_step _ _ _ _ _ J4 HS) as (s1 & done' & m' & E1 & _). discriminate E1.
Qed.

Lemma last_read_cons a l : last_read (a :: l) = match last_read l with Some m => Some m | None => now_read None a end.
Proof. destruct a as [[m|]| | |]; cbn [last_read now_read]; destruct (last_read l); reflexivity. Qed.

Definition then_read (f : option (list Z)) (l : list wlabel) : option (list Z) :=
  match last_read l with Some m => Some m | None => f end.
Lemma then_read_cons f a l : then_read (now_read f a) l = then_read f (a :: l).
Proof.
  unfold then_read. rewrite last_read_cons. destruct (last_read l); [reflexivity|].
  destruct a as [[m|]| | |]; reflexivity.
Qed.

Lemma steps_inv rot s l r : rotation_ok rot -> wsteps rot s l r -> forall f, winv rot (fst s) f -> real_files l ->
  (exists w' d', r = Ok (w', d') /\ winv rot w' (then_read f l)) \/
  (exists u l' a, r = UB u /\ l = l' ++ [a] /\ reason rot (then_read f l') a u).
Proof.
  intros Hrot H. induction H as [[w d]|[w d] a [w1 d1] l r R RS IH|[w d] a u R]; intros f I Hl; cbn [fst] in *.
  - left. exists w, d. auto.
  - assert (Hb : forall m, a = LRead (Some m) -> bytes_ok m) by (intros m ->; apply Hl; left; reflexivity).
    destruct (step_inv rot w d f a _ Hrot I R Hb) as [(w' & d' & E & I')|(u & E & _)]; [|discriminate E].
    apply Ok_inj in E. injection E as <- <-.
    destruct (IH (now_read f a) I') as [(w2 & d2 & E2 & I2)|(u & l' & b & E2 & E3 & Q)].
    + intros m Hm. apply Hl. right. exact Hm.
    + left. exists w2, d2. rewrite <- then_read_cons. auto.
    + right. exists u, (a :: l'), b. rewrite <- then_read_cons. subst l. auto.
  - assert (Hb : forall m, a = LRead (Some m) -> bytes_ok m) by (intros m ->; apply Hl; left; reflexivity).
    destruct (step_inv rot w d f a _ Hrot I R Hb) as [(w' & d' & E & I')|(u' & E & Q)]; [discriminate E|].
    injection E as <-. right. exists u, [], a. auto.
Qed.

Lemma then_read_none l : then_read None l = last_read l.
Proof. unfold then_read. destruct (last_read l); reflexivity. Qed.

(** * What the window holds while nothing is read *)

Lemma idle_l rot l w d d0 : rotation_ok rot -> real_files l ->
  wsteps rot (win_new, d0) l (Ok (w, d)) -> d_busy w = false ->
  outcome_of rot (last_read l) (win_image w) (d_tof w) (d_label w) /\
  Forall (fun p => 0 <= fst p < 4096 /\ 0 <= snd p < 4096) (win_image w).
Proof.
  intros Hrot Hl HS B. destruct (steps_inv rot _ l _ Hrot HS None (winv_new rot) Hl) as [(w' & d' & E & I)|(u & l' & a & E & _)];
    [|discriminate E].
  apply Ok_inj in E. injection E as <- <-. rewrite then_read_none in I. unfold winv in I. unfold win_image.
  destruct (d_job w) as [j|] eqn:Ej.
  - destruct I as (-> & es & [J1 J2 J3 (done & m & J4) J5 J6]). destruct (J6 B) as (Q1 & Q2 & Q3).
    destruct (C66_bounds_l _ _ es J1 J2) as (_ & _ & Hok).
    pose proof J4 as [Hh _ _ _ Hm Hu Ho _ Hd _ _]. unfold prod_ok in Hd. rewrite Q1 in Hd. rewrite Q2 in *. cbn [used] in *.
    assert (Hpre : j_hits j = g_out (j_sys j) ++ skipn m done).
    { rewrite Ho, firstn_skipn. rewrite Hd, app_nil_r in Hh. exact Hh. }
    assert (Hok' : Forall raw_ok (g_out (j_sys j))) by (rewrite Hpre in Hok; apply Forall_app in Hok; tauto).
    destruct (C67_clusters_l rot (g_out (j_sys j)) Hrot Hok') as (closed & op & HR & _ & [(_ & _ & w2 & pxs & EW & E1 & _ & F & E2)|[(_ & EW)|(_ & EW)]]);
      rewrite EW in J5; try discriminate J5. injection J5 as ->.
    split; [|rewrite E2; eapply falls_inside; exact F].
    rewrite J3, Q3. econstructor; [apply read_spec; eassumption|].
    exists (g_out (j_sys j)), (skipn m done), closed, op. split; [exact Hpre|].
    split; [unfold zlen; rewrite skipn_length; lia|]. split; [exact HR|]. split; [|exact E1].
    exists pxs. auto.
  - destruct I as [-> ->]. split; [apply oc_none|constructor].
Qed.

(** * Saving *)

Lemma saved_l rot l w d d0 img tof w' d' : rotation_ok rot -> real_files l ->
  wsteps rot (win_new, d0) l (Ok (w, d)) -> d_busy w = false ->
  wstep rot (w, d) (LSave img tof) (Ok (w', d')) ->
  exists pixels entries label, outcome_of rot (last_read l) pixels entries label /\
    w' = w /\ d_label w = label /\
    (forall n b, tof = Some (n, b) -> exists f, d' n = Some f /\ shows_spectrum entries f) /\
    (forall n b, img = Some (n, b) -> option_map fst tof <> Some n ->
       exists f, d' n = Some f /\ shows_image pixels f) /\
    (forall n, option_map fst img <> Some n -> option_map fst tof <> Some n -> d' n = d n).
Proof.
  intros Hrot Hl HS B R. destruct (idle_l rot l w d d0 Hrot Hl HS B) as (O & F).
  exists (win_image w), (d_tof w), (d_label w). split; [exact O|].
  inversion R as [| | ? ? ? ? E1 E2 E3| | | |]; subst. unfold win_save in E3. rewrite B in E3.
  pose proof (image_shows w F) as SI. pose proof (tof_shows w) as ST.
  set (fi := image_file w) in *. set (ft := tof_file w) in *. clearbody fi ft.
  destruct img as [[n1 [|]]|]; cbn [save_one obind] in E3; [|discriminate E3|];
    (destruct tof as [[n2 [|]]|]; cbn [save_one obind] in E3; [|discriminate E3|]);
    apply Ok_inj in E3; injection E3 as <- <-; (split; [reflexivity|]); (split; [reflexivity|]); unfold wput; cbn [option_map fst];
    (split; [|split]).
  - intros n b E. injection E as <- <-. rewrite String.eqb_refl. eauto.
  - intros n b E N. injection E as <- <-. destruct (String.eqb_spec n1 n2) as [->|_]; [contradiction N; reflexivity|].
    rewrite String.eqb_refl. eauto.
  - intros n N1 N2. destruct (String.eqb_spec n n2) as [->|_]; [contradiction N2; reflexivity|].
    destruct (String.eqb_spec n n1) as [->|_]; [contradiction N1; reflexivity|reflexivity].
  - intros n b E. discriminate E.
  - intros n b E N. injection E as <- <-. rewrite String.eqb_refl. eauto.
  - intros n N1 N2. destruct (String.eqb_spec n n1) as [->|_]; [contradiction N1; reflexivity|reflexivity].
  - intros n b E. injection E as <- <-. rewrite String.eqb_refl. eauto.
  - intros n b E. discriminate E.
  - intros n N1 N2. destruct (String.eqb_spec n n2) as [->|_]; [contradiction N2; reflexivity|reflexivity].
  - intros n b E. discriminate E.
  - intros n b E. discriminate E.
  - intros n N1 N2. reflexivity.
Qed.

Lemma busy_l rot w d a r : d_busy w = true -> wstep rot (w, d) a r ->
  (forall img tof, a = LSave img tof -> r = Ok (w, d)) /\ (forall file, a <> LRead file).
Proof.
  intros B R. split.
  - intros img tof ->. inversion R; subst. unfold win_save. rewrite B. reflexivity.
  - intros file ->. inversion R; subst. match goal with K : d_busy w = false |- _ => rewrite B in K; discriminate K end.
Qed.

Lemma undefined_l rot l r d0 : rotation_ok rot -> real_files l -> wsteps rot (win_new, d0) l r ->
  (exists w d, r = Ok (w, d)) \/
  (exists u l' a, r = UB u /\ l = l' ++ [a] /\ reason rot (last_read l') a u).
Proof.
  intros Hrot Hl HS. destruct (steps_inv rot _ l _ Hrot HS None (winv_new rot) Hl) as [(w' & d' & E & I)|(u & l' & a & E & E2 & Q)].
  - left. eauto.
  - right. exists u, l', a. rewrite <- then_read_none. auto.
Qed.

(** A step is never anything but these two. *)
Lemma step_total_l rot l w d d0 a r : rotation_ok rot -> real_files (l ++ [a]) ->
  wsteps rot (win_new, d0) l (Ok (w, d)) -> wstep rot (w, d) a r ->
  (exists s, r = Ok s) \/ (exists u, r = UB u /\ reason rot (last_read l) a u).
Proof.
  intros Hrot Hl HS R.
  assert (Hl' : real_files l) by (intros m Hm; apply Hl, in_or_app; left; exact Hm).
  destruct (steps_inv rot _ l _ Hrot HS None (winv_new rot) Hl') as [(w' & d' & E & I)|(u & l' & b & E & _)]; [|discriminate E].
  apply Ok_inj in E. injection E as <- <-. rewrite then_read_none in I.
  destruct (step_inv rot w d _ a r Hrot I R) as [(w2 & d2 & -> & _)|(u & -> & Q)].
  - intros m ->. apply Hl, in_or_app. right. left. reflexivity.
  - left. eauto.
  - right. eauto.
Qed.

(** * Schedules of the threads are schedules of the session *)

Lemma wsteps_app rot s l s' l' r : wsteps rot s l (Ok s') -> wsteps rot s' l' r -> wsteps rot s (l ++ l') r.
Proof.
  intros H. remember (Ok s') as o eqn:E. revert E. induction H as [s|s a s1 l r0 R RS IH|s a u R]; intros E H1.
  - apply Ok_inj in E. subst. exact H1.
  - subst. cbn [app]. eapply ws_more; [exact R|]. apply IH; [reflexivity|exact H1].
  - discriminate E.
Qed.

Lemma out_grows {A} (s : rsys A) r : rsteps s r -> forall s', r = Some s' -> exists new, g_out s' = g_out s ++ new.
Proof.
  induction 1 as [s|s s1 r R RS IH|s R]; intros s' E.
  - injection E as <-. exists []. rewrite app_nil_r. reflexivity.
  - destruct (IH s' E) as (n2 & E2). destruct (step_out _ _ R) as [E1|(h & E1)]; rewrite E2, E1.
    + eauto.
    + rewrite <- app_assoc. eauto.
  - discriminate E.
Qed.

Definition outcome_ok {A} (x : outcome A) : Prop := (exists a, x = Ok a) \/ exists u, x = UB u.

Lemma prefix_used {A} hits (s : rsys A) done k : inv hits s done k -> exists rest, hits = g_out s ++ rest.
Proof.
  intros [Hh _ _ _ _ _ Ho _ _ _ _]. exists (skipn (used (g_cp s) k) done ++ g_todo s).
  rewrite Ho, app_assoc, firstn_skipn. exact Hh.
Qed.

Lemma only_kill {A} (s s1 : rsys A) : rstep s (Some s1) -> g_kill s1 = true -> g_kill s = false ->
  g_pp s = PrDone /\ s1 = set_kill s.
Proof. intros R K1 K. inversion R; subst; cbn [g_kill g_pp] in *; try congruence. split; reflexivity. Qed.

Lemma simulate rot m hits tof d s r : (forall a b, hits = a ++ b -> outcome_ok (wk_run rot wk_start a)) ->
  rsteps s r -> forall s', r = Some s' -> forall lab w done k,
  inv hits s done k -> wk_run rot wk_start (g_out s) = Ok w ->
  exists l q, Forall (eq LTau) l /\
    wsteps rot (DWin true lab (Some (Job m hits s w)) tof, d) l q /\
    ((exists lab' w', q = Ok (DWin true lab' (Some (Job m hits s' w')) tof, d) /\
        wk_run rot wk_start (g_out s') = Ok w') \/
     (exists u, q = UB u /\ wk_run rot wk_start (g_out s') = UB u)).
Proof.
  intros Htot H. induction H as [s|s s1 r R RS IH|s R]; intros s' E lab w done k I EW.
  - injection E as <-. exists [], (Ok (DWin true lab (Some (Job m hits s w)) tof, d)).
    split; [constructor|]. split; [constructor|]. left. eauto.
  - destruct (inv_step _ _ _ _ _ I R) as (s2 & done1 & k1 & E1 & I1). injection E1 as <-.
    assert (D : {g_kill s1 = true -> g_kill s = true} + {g_kill s1 = true /\ g_kill s = false}).
    { destruct (g_kill s1), (g_kill s); auto; left; discriminate. }
    destruct D as [D|[D1 D2]].
    + assert (N : exists new, g_out s1 = g_out s ++ new).
      { destruct (step_out _ _ R) as [Q|(h & Q)]; [exists []; rewrite app_nil_r; exact Q|eauto]. }
      destruct N as (new & EN).
      pose proof (w_thread rot true lab m hits s w tof d s1 new R D EN) as ST.
      destruct (prefix_used _ _ _ _ I1) as (rest & EP).
      assert (O : wk_run rot wk_start (g_out s1) = wk_run rot w new) by (rewrite EN, wk_run_app, EW; reflexivity).
      destruct (Htot _ _ EP) as [(w1 & E1)|(u & E1)]; rewrite O in E1.
      * rewrite E1 in ST. cbn [obind] in ST.
        destruct (IH s' E lab w1 done1 k1 I1) as (l & q & F & S1 & C); [rewrite O; exact E1|].
        exists (LTau :: l), q. split; [constructor; [reflexivity|exact F]|]. split; [eapply ws_more; [exact ST|exact S1]|exact C].
      * rewrite E1 in ST. cbn [obind] in ST.
        exists [LTau], (UB u). split; [repeat constructor|]. split; [apply ws_bad; exact ST|].
        right. exists u. split; [reflexivity|]. destruct (out_grows _ _ RS s' E) as (n2 & E2).
        rewrite E2, wk_run_app, O, E1. reflexivity.
    + destruct (only_kill _ _ R D1 D2) as (P & ->).
      assert (NE : g_cp s <> CoEnd) by (intros C; pose proof (i_end _ _ _ _ I C); congruence).
      set (w0 := DWin true lab (Some (Job m hits s w)) tof).
      pose proof (w_tick rot w0 d (Job m hits s w) eq_refl eq_refl) as ST.
      unfold win_tick in ST. cbn [j_sys j_hits j_file j_wk] in ST. rewrite P in ST.
      destruct (IH s' E (Some (zlen hits, wk_total w)) w done1 k1 I1) as (l & q & F & S1 & C); [exact EW|].
      exists (LTau :: l), q. split; [constructor; [reflexivity|exact F]|]. split; [|exact C].
      eapply ws_more; [|exact S1]. unfold w0 in *. cbn [d_tof] in ST.
      destruct (g_cp s); [exact ST..|contradiction].
  - discriminate E.
Qed.

Lemma runs_ok rot m hits es : rotation_ok rot -> bytes_ok m -> filetohits (Some m) = Ok (hits, es) ->
  forall a b, hits = a ++ b -> outcome_ok (wk_run rot wk_start a).
Proof.
  intros Hrot Hm HF a b E. destruct (C66_bounds_l m hits es Hm HF) as (_ & _ & Hok). rewrite E in Hok.
  apply Forall_app in Hok. destruct Hok as [Ha _].
  destruct (C67_clusters_l rot a Hrot Ha) as (closed & op & _ & _ & [(_ & _ & w & pxs & EW & _)|[(_ & EW)|(_ & EW)]]);
    rewrite EW; [left|right|right]; eauto.
Qed.

(** Nothing has to stay busy. *)
Lemma can_finish_l rot l w d d0 : rotation_ok rot -> real_files l ->
  wsteps rot (win_new, d0) l (Ok (w, d)) ->
  exists l' r, Forall (eq LTau) l' /\ wsteps rot (w, d) l' r /\
    ((exists w', r = Ok (w', d) /\ d_busy w' = false) \/ exists u, r = UB u).
Proof.
  intros Hrot Hl HS. destruct (d_busy w) eqn:B; [|exists [], (Ok (w, d)); split; [constructor|]; split; [constructor|left; eauto]].
  destruct (steps_inv rot _ l _ Hrot HS None (winv_new rot) Hl) as [(w' & d' & E & I)|(u & l' & a & E & _)]; [|discriminate E].
  apply Ok_inj in E. injection E as <- <-. unfold winv in I. destruct w as [b lab j tof]. cbn [d_job d_busy] in *. subst b.
  destruct j as [[m hits s wkr]|]; [|destruct I as [I _]; discriminate I].
  destruct I as (_ & es & [J1 J2 J3 (done & k & J4) J5 J6]). cbn [j_file j_hits j_sys j_wk d_tof] in *.
  destruct (can_end _ _ _ _ J4) as (s' & RS & Q1 & Q2 & _).
  destruct (simulate rot m hits tof d s _ (runs_ok rot m hits es Hrot J1 J2) RS s' eq_refl lab wkr done k J4 J5)
    as (l1 & q & F & S1 & [(lab' & w' & -> & EW)|(u & -> & _)]).
  - exists (l1 ++ [LTau]). eexists. split; [apply Forall_app; split; [exact F|repeat constructor]|].
    split.
    + eapply wsteps_app; [exact S1|]. eapply ws_more; [|apply ws_nil]. eapply w_tick; reflexivity.
    + left. eexists. split; [reflexivity|]. unfold win_tick. cbn [j_sys]. rewrite Q1, Q2. reflexivity.
  - exists l1, (UB u). split; [exact F|]. split; [exact S1|]. right. eauto.
Qed.

(** Every split of the hits with at most 4095 in the second part is possible. *)
Lemma reads_all_l rot m hits es d a b : rotation_ok rot -> bytes_ok m -> filetohits (Some m) = Ok (hits, es) ->
  hits = a ++ b -> Z.of_nat (length b) <= 4095 -> forall wk1, wk_run rot wk_start a = Ok wk1 ->
  exists l w, Forall (eq LTau) l /\ wsteps rot (win_new, d) (LRead (Some m) :: l) (Ok (w, d)) /\
    d_busy w = false /\ win_image w = wk_img wk1.
Proof.
  intros Hrot Hm HF E L wk1 EW. destruct (schedule_l a b L) as (s & RS & C & O).
  pose proof (runs_ok rot m hits es Hrot Hm HF) as Ht. rewrite <- E in RS.
  assert (P : g_pp s = PrDone).
  { destruct (inv_steps hits _ _ RS [] 0%nat (inv_start hits)) as (s' & done & k & Es & I). injection Es as <-.
    apply (i_kill _ _ _ _ I), (i_end _ _ _ _ I), C. }
  destruct (simulate rot m hits (Some es) d (rstart hits) _ Ht RS s eq_refl None wk_start [] 0%nat
    (inv_start hits) eq_refl) as (l1 & q & F & S1 & [(lab' & w' & -> & EW')|(u & _ & EW')]);
    rewrite O, EW in EW'; [|discriminate EW']. apply Ok_inj in EW'. subst w'.
  set (w1 := DWin true lab' (Some (Job m hits s wk1)) (Some es)) in *.
  exists (l1 ++ [LTau]), (win_tick w1 (Job m hits s wk1)).
  split; [apply Forall_app; split; [exact F|repeat constructor]|]. split.
  - eapply ws_more.
    + pose proof (w_read rot win_new d (Some m) eq_refl) as R. unfold win_read in R. rewrite HF in R. exact R.
    + cbn [fst snd]. eapply wsteps_app; [exact S1|]. eapply ws_more; [|apply ws_nil]. eapply w_tick; reflexivity.
  - unfold win_tick. cbn [j_sys]. rewrite P, C. split; reflexivity.
Qed.

Definition image_fun (l : list (Z * Z)) (k : Z) : option Z :=
  if (0 <=? k) && (k <? 4096 * 4096) then Some (hits_on (4096 * (k mod 4096) + k / 4096) (map pos2d l)) else None.

Lemma image_by_file_l rot m hits es d n wk1 wk2 a1 b1 a2 b2 : rotation_ok rot -> bytes_ok m ->
  filetohits (Some m) = Ok (hits, es) ->
  hits = a1 ++ b1 -> hits = a2 ++ b2 -> Z.of_nat (length b1) <= 4095 -> Z.of_nat (length b2) <= 4095 ->
  wk_run rot wk_start a1 = Ok wk1 -> wk_run rot wk_start a2 = Ok wk2 ->
  exists l1 l2 d1 d2 w1 w2, Forall (eq LTau) l1 /\ Forall (eq LTau) l2 /\
    wsteps rot (win_new, d) (LRead (Some m) :: l1 ++ [LSave (Some (n, true)) None]) (Ok (w1, d1)) /\
    wsteps rot (win_new, d) (LRead (Some m) :: l2 ++ [LSave (Some (n, true)) None]) (Ok (w2, d2)) /\
    d1 n = Some (WImage (image_fun (wk_img wk1))) /\ d2 n = Some (WImage (image_fun (wk_img wk2))).
Proof.
  intros Hrot Hm HF E1 E2 L1 L2 W1 W2.
  assert (K : forall a b wk1, hits = a ++ b -> Z.of_nat (length b) <= 4095 -> wk_run rot wk_start a = Ok wk1 ->
    exists l d1 w, Forall (eq LTau) l /\
      wsteps rot (win_new, d) (LRead (Some m) :: l ++ [LSave (Some (n, true)) None]) (Ok (w, d1)) /\
      d1 n = Some (WImage (image_fun (wk_img wk1)))).
  { intros a b wkr E L W. destruct (reads_all_l rot m hits es d a b Hrot Hm HF E L wkr W) as (l & w & F & S1 & B & EI).
    exists l, (wput d n (image_file w)), w. split; [exact F|]. split.
    - change (LRead (Some m) :: l ++ [LSave (Some (n, true)) None])
        with ((LRead (Some m) :: l) ++ [LSave (Some (n, true)) None]).
      eapply wsteps_app; [exact S1|]. eapply ws_more; [|apply ws_nil].
      pose proof (w_save rot w d (Some (n, true)) None) as R. unfold win_save in R. rewrite B in R. exact R.
    - unfold wput. rewrite String.eqb_refl. unfold image_file. rewrite EI. reflexivity. }
  destruct (K a1 b1 wk1 E1 L1 W1) as (l1 & d1 & w1 & F1 & S1 & Q1).
  destruct (K a2 b2 wk2 E2 L2 W2) as (l2 & d2 & w2 & F2 & S2 & Q2).
  exists l1, l2, d1, d2, w1, w2. auto 10.
Qed.

Lemma not_opened_l rot w d n t : d_busy w = false ->
  wstep rot (w, d) (LRead None) (UB NullDeref) /\
  wstep rot (w, d) (LSave (Some (n, false)) t) (UB NullDeref) /\
  wstep rot (w, d) (LSave None (Some (n, false))) (UB NullDeref).
Proof.
  intros B. split; [exact (w_read rot w d None B)|].
  pose proof (w_save rot w d (Some (n, false)) t) as R1. pose proof (w_save rot w d None (Some (n, false))) as R2.
  unfold win_save in R1, R2. rewrite B in R1, R2. split; [exact R1|exact R2].
Qed.

Lemma spectrum_unknown_l rot d n : exists d' g,
  wsteps rot (win_new, d) [LSave None (Some (n, true))] (Ok (win_new, d')) /\ d' n = Some (WTof g) /\
  forall k, 0 <= k < 170000 -> g k = Some None.
Proof.
  eexists (wput d n (tof_file win_new)), _. split.
  - eapply ws_more; [|apply ws_nil]. exact (w_save rot win_new d None (Some (n, true))).
  - unfold wput. rewrite String.eqb_refl. split; [reflexivity|]. intros k Hk. cbn [d_tof win_new].
    replace ((0 <=? k) && (k <? 170000)) with true by lia. reflexivity.
Qed.

Lemma busy_after_l rot m hits es d img tof : filetohits (Some m) = Ok (hits, es) ->
  exists w, d_busy w = true /\ wsteps rot (win_new, d) [LRead (Some m)] (Ok (w, d)) /\
    wstep rot (w, d) (LSave img tof) (Ok (w, d)).
Proof.
  intros EF. pose proof (w_read rot win_new d (Some m) eq_refl) as R. unfold win_read in R. rewrite EF in R.
  cbn [obind fst snd] in R. set (w := DWin true _ _ _) in R. exists w.
  split; [reflexivity|]. split; [eapply ws_more; [exact R|apply ws_nil]|].
  assert (B : d_busy w = true) by reflexivity. clearbody w.
  pose proof (w_save rot w d img tof) as R2. unfold win_save in R2. rewrite B in R2. exact R2.
Qed.
