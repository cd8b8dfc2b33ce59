(** Proofs about the file output and the parameter file of SophireadLib. *)
From Coq Require Import Ascii Lia ZifyBool Zify.
From Verif Require Export S_LibIO P_Config P_Hdf5.
Ltac Zify.zify_post_hook ::= Z.to_euclidean_division_equations.
Local Open Scope Z_scope.

(** * HDF5 files *)

Lemma write_all_ok cols : forall w k g, (forall i, (i < length cols)%nat -> w (k + i)%nat = WrOk) ->
  write_all w k g cols = (g ++ cols, false).
Proof.
  induction cols as [|[n d] cols IH]; intros w k g H; cbn [write_all].
  - rewrite app_nil_r. reflexivity.
  - pose proof (H 0%nat) as H0. rewrite Nat.add_0_r in H0. rewrite H0 by (cbn; lia). rewrite IH.
    + rewrite <- List.app_assoc. reflexivity.
    + intros i Hi. specialize (H (S i)). rewrite Nat.add_succ_comm. apply H. cbn. lia.
Qed.
Lemma write_all_cases cols : forall w k g,
  ((forall i, (i < length cols)%nat -> w (k + i)%nat = WrOk) /\ write_all w k g cols = (g ++ cols, false)) \/
  (exists i, (i < length cols)%nat /\ (forall j, (j < i)%nat -> w (k + j)%nat = WrOk) /\
     ((w (k + i)%nat = WrThrow /\ write_all w k g cols = (g ++ firstn i cols, true)) \/
      (exists n d, w (k + i)%nat = WrUnwritten /\ nth_error cols i = Some (n, d) /\
         write_all w k g cols = (g ++ firstn i cols ++ [(n, unwritten d)], true)))).
Proof.
  induction cols as [|[n d] cols IH]; intros w k g.
  - left. split; [intros i Hi; inversion Hi|]. cbn. rewrite app_nil_r. reflexivity.
  - destruct (w k) eqn:E.
    + destruct (IH w (S k) (g ++ [(n, d)])) as [(H & W)|(i & Hi & Hj & H)].
      * left. split.
        -- intros [|i] Hi; [rewrite Nat.add_0_r; exact E|]. rewrite <- Nat.add_succ_comm. apply H. cbn in Hi. lia.
        -- cbn [write_all]. rewrite E, W, <- List.app_assoc. reflexivity.
      * right. exists (S i). split; [cbn; lia|]. split.
        -- intros [|j] Hj'; [rewrite Nat.add_0_r; exact E|]. rewrite <- Nat.add_succ_comm. apply Hj. lia.
        -- rewrite <- Nat.add_succ_comm. destruct H as [(H & W)|(n' & d' & H & N & W)].
           ++ left. split; [exact H|]. cbn [write_all firstn]. rewrite E, W, <- List.app_assoc. reflexivity.
           ++ right. exists n', d'. split; [exact H|]. split; [exact N|]. cbn [write_all firstn].
              rewrite E, W, <- List.app_assoc. reflexivity.
    + right. exists 0%nat. split; [cbn; lia|]. split; [intros j Hj; lia|]. left. rewrite Nat.add_0_r. split; [exact E|].
      cbn [write_all firstn]. rewrite E, app_nil_r. reflexivity.
    + right. exists 0%nat. split; [cbn; lia|]. split; [intros j Hj; lia|]. right. exists n, d. rewrite Nat.add_0_r.
      split; [exact E|]. split; [reflexivity|]. cbn [write_all firstn]. rewrite E. reflexivity.
Qed.

Lemma put_same d name f : put_lfile d name f name = Some f.
Proof. unfold put_lfile. rewrite String.eqb_refl. reflexivity. Qed.
Lemma put_other d name f n : n <> name -> put_lfile d name f n = d n.
Proof. intros H. unfold put_lfile. apply String.eqb_neq in H. rewrite H. reflexivity. Qed.

Lemma C72_hits_l d name hits labels : zlen hits = zlen labels -> Forall (fun h => h_tof h <> None) hits ->
  exists d' f g, lib_save_hits lib_works d name hits labels = (Ok tt, d') /\
    (forall n, n <> name -> d' n = d n) /\ d' name = Some f /\
    only_group f "hits" ["x"; "y"; "tot_ns"; "toa_ns"; "ftoa_ns"; "tof_ns"; "spidertime_ns"; "labels"]%string g /\
    In ("labels"%string, Ints labels) g /\
    (forall nm fld, hit_ints nm fld -> In (nm, Ints (map fld hits)) g) /\
    (forall nm fld, hit_doubles nm fld -> exists l, In (nm, Doubles l) g /\ Forall2 (fun h v => fld h = Some v) hits l).
Proof.
  intros L T. destruct (tof_values_total _ T) as [tofs E]. unfold lib_save_hits, lib_hit_columns. rewrite E. cbn [obind].
  replace (zlen hits =? zlen labels) with true by lia. cbn [negb]. unfold save_group, lib_works. cbn [lib_opens lib_group lib_writes].
  rewrite write_all_ok by reflexivity. cbn [app]. eexists _, _, _. split; [reflexivity|].
  split; [intros n Hn; apply put_other; exact Hn|]. split; [apply put_same|].
  split; [split; [reflexivity|]; split; [reflexivity|]; repeat (constructor; [cbn; intuition discriminate|]); constructor|].
  split; [cbn; auto 10|]. split.
  - intros nm fld []; cbn; auto.
  - assert (M : forall fld : hit -> f64, Forall2 (fun h v => Some (fld h) = Some v) hits (map fld hits)).
    { intros fld. clear. induction hits; cbn; constructor; auto. }
    intros nm fld [].
    + exists (map tot_ns hits). split; [cbn; auto 10|apply M].
    + exists (map toa_ns hits). split; [cbn; auto 10|apply M].
    + exists (map ftoa_ns hits). split; [cbn; auto 10|apply M].
    + exists tofs. split; [cbn; auto 10|]. apply tof_values_spec in E. revert tofs E. clear.
      induction hits as [|h hits IH]; intros [|t tofs] E; try discriminate E; constructor; cbn in E; injection E as E1 E2; auto.
    + exists (map spider_ns hits). split; [cbn; auto 10|apply M].
Qed.

Lemma C72_mismatch_l lib d name hits labels : zlen hits <> zlen labels ->
  lib_save_hits lib d name hits labels = (Throw RuntimeError, d).
Proof. intros H. unfold lib_save_hits. replace (zlen hits =? zlen labels) with false by lia. reflexivity. Qed.

Lemma C72_events_l d name evs : evs <> [] ->
  exists d' f g, lib_save_events lib_works d name evs = (Ok tt, d') /\
    (forall n, n <> name -> d' n = d n) /\ d' name = Some f /\
    only_group f "events" ["x"; "y"; "tof_ns"; "NHits"; "tot"]%string g /\
    In ("NHits"%string, Ints (map n_hits evs)) g /\
    (forall nm fld, event_doubles nm fld -> In (nm, Doubles (map fld evs)) g).
Proof.
  intros N. unfold lib_save_events. destruct evs as [|e evs]; [congruence|]. unfold save_group, lib_works, lib_event_columns.
  cbn [lib_opens lib_group lib_writes]. rewrite write_all_ok by reflexivity. cbn [app]. eexists _, _, _. split; [reflexivity|].
  split; [intros n Hn; apply put_other; exact Hn|]. split; [apply put_same|].
  split; [split; [reflexivity|]; split; [reflexivity|]; repeat (constructor; [cbn; intuition discriminate|]); constructor|].
  split; [cbn; auto 10|]. intros nm fld []; cbn; auto 10.
Qed.
Lemma C72_no_events_l lib d name : lib_save_events lib d name [] = (Throw RuntimeError, d).
Proof. reflexivity. Qed.

Lemma unwritten_zeros dt : zeros_of dt (unwritten dt).
Proof.
  assert (M : forall A B (b : B) (l : list A), map (fun _ => b) l = repeat b (length l))
    by (induction l; cbn; congruence).
  destruct dt; cbn [unwritten]; rewrite M; constructor.
Qed.
(** Failures of the HDF5 library. *)
Lemma save_group_cases lib d name grp cols r d' : save_group lib d name grp cols = (r, d') ->
  (forall n, n <> name -> d' n = d n) /\
  ((lib_opens lib = false /\ r = Throw ExternalError /\ d' name = d name) \/
   (lib_opens lib = true /\ lib_group lib = false /\ r = Throw ExternalError /\ d' name = Some []) \/
   (lib_opens lib = true /\ lib_group lib = true /\ r = Ok tt /\ d' name = Some [(grp, cols)] /\
      forall i, (i < length cols)%nat -> lib_writes lib i = WrOk) \/
   (lib_opens lib = true /\ lib_group lib = true /\ r = Throw ExternalError /\
      exists i, (i < length cols)%nat /\ lib_writes lib i <> WrOk /\ (forall j, (j < i)%nat -> lib_writes lib j = WrOk) /\
        exists last, d' name = Some [(grp, firstn i cols ++ last)] /\
          (last = [] \/ exists n dt, nth_error cols i = Some (n, dt) /\ last = [(n, unwritten dt)]))).
Proof.
  unfold save_group. destruct (lib_opens lib); [destruct (lib_group lib)|].
  - destruct (write_all_cases cols (lib_writes lib) 0 []) as [(H & W)|(i & Hi & Hj & H)].
    + rewrite W. intros E. injection E as <- <-. split; [intros n Hn; apply put_other; exact Hn|].
      right. right. left. split; [reflexivity|]. split; [reflexivity|]. split; [reflexivity|]. split; [apply put_same|exact H].
    + intros E. assert (X : r = Throw ExternalError /\ exists last, d' = put_lfile d name [(grp, firstn i cols ++ last)] /\
        lib_writes lib i <> WrOk /\ (last = [] \/ exists n dt, nth_error cols i = Some (n, dt) /\ last = [(n, unwritten dt)])).
      { destruct H as [(H & W)|(n & dt & H & Nt & W)]; rewrite W in E; injection E as <- <-; (split; [reflexivity|]); cbn [Nat.add] in H.
        - exists []. rewrite app_nil_r. split; [reflexivity|]. split; [congruence|auto].
        - exists [(n, unwritten dt)]. split; [reflexivity|]. split; [congruence|]. right. eauto. }
      destruct X as (-> & last & -> & Hw & HL). split; [intros n Hn; apply put_other; exact Hn|].
      right. right. right. split; [reflexivity|]. split; [reflexivity|]. split; [reflexivity|].
      exists i. split; [exact Hi|]. split; [exact Hw|]. split; [exact Hj|]. exists last. split; [apply put_same|exact HL].
  - intros E. injection E as <- <-. split; [intros n Hn; apply put_other; exact Hn|]. right. left. auto using put_same.
  - intros E. injection E as <- <-. split; [reflexivity|]. left. auto.
Qed.

(** * Numbers *)

Definition signed (s : string) : bool * Z :=
  match s with
  | String c r =>
      if Ascii.eqb c "-"%char then (true, digits 0 r)
      else if Ascii.eqb c "+"%char then (false, digits 0 r) else (false, digits 0 s)
  | EmptyString => (false, 0)
  end.
Definition sign_ok (sign ds tail : string) : Prop :=
  sign = "-"%string \/ sign = "+"%string \/
  (sign = ""%string /\ (ds = ""%string -> forall c r, tail = String c r -> c <> "-"%char /\ c <> "+"%char)).
Lemma signed_app sign ds tail z : numeral ds z -> no_digit_first tail -> sign_ok sign ds tail ->
  signed (sign ++ ds ++ tail)%string = (String.eqb sign "-", z).
Proof.
  intros N T [->|[->|[-> F]]].
  - cbn [append signed]. rewrite Ascii.eqb_refl, (digits_numeral _ _ _ N T). reflexivity.
  - cbn [append signed]. rewrite (proj2 (Ascii.eqb_neq "+" "-")) by discriminate.
    rewrite Ascii.eqb_refl, (digits_numeral _ _ _ N T). reflexivity.
  - cbn [append]. destruct (first_digit _ _ N) as [->|(c & r & d & -> & D)].
    + inversion N as [E0|ds0 n0 c0 d0 N0 D0 E0]; [|destruct ds0; discriminate E0]. subst z. cbn [append].
      destruct tail as [|c r]; [reflexivity|]. destruct (F eq_refl c r eq_refl) as [F1 F2]. cbn [signed].
      apply Ascii.eqb_neq in F1, F2. rewrite F1, F2, (digits_stop _ _ T). reflexivity.
    + destruct (not_sign _ _ D) as [F1 F2]. apply Ascii.eqb_neq in F1, F2. cbn [append signed]. rewrite F1, F2.
      change (String c (r ++ tail)) with (String c r ++ tail)%string. rewrite (digits_numeral _ _ _ N T). reflexivity.
Qed.
Lemma signed_split s : exists sign ds tail z, s = (sign ++ ds ++ tail)%string /\ numeral ds z /\ no_digit_first tail /\
  sign_ok sign ds tail.
Proof.
  destruct s as [|c s].
  - exists ""%string, ""%string, ""%string, 0. split; [reflexivity|]. split; [constructor|].
    split; [intros c r d H; discriminate H|]. right. right. split; [reflexivity|]. intros _ c r H. discriminate H.
  - destruct (Ascii.eqb_spec c "-") as [->|Nm].
    { destruct (numeral_split s) as (ds & tail & z & -> & N & T). exists "-"%string, ds, tail, z. repeat split; auto. left. reflexivity. }
    destruct (Ascii.eqb_spec c "+") as [->|Np].
    { destruct (numeral_split s) as (ds & tail & z & -> & N & T). exists "+"%string, ds, tail, z. repeat split; auto. right. left. reflexivity. }
    destruct (numeral_split (String c s)) as (ds & tail & z & E & N & T). exists ""%string, ds, tail, z.
    split; [exact E|]. split; [exact N|]. split; [exact T|]. right. right. split; [reflexivity|].
    intros -> c' r' ->. cbn in E. injection E as -> ->. auto.
Qed.
Lemma read_ulong_signed s : read_ulong s = let (neg, z) := signed s in
  if z <? 2 ^ 64 then u64 (if neg then - z else z) else 2 ^ 64 - 1.
Proof. reflexivity. Qed.
Lemma read_int_signed s : read_int s = let (neg, z) := signed s in
  Z.max int_min (Z.min int_max (if neg then - z else z)).
Proof.
  unfold read_int, signed. destruct s as [|c s]; [reflexivity|]. destruct (Ascii.eqb c "-"); [reflexivity|].
  destruct (Ascii.eqb c "+"); reflexivity.
Qed.

Lemma read_ulong_spec s n : reads_ulong s n <-> read_ulong s = n.
Proof.
  rewrite read_ulong_signed. split.
  - intros (sign & ds & tail & z & -> & N & T & Hb & Hs & S). rewrite (signed_app _ _ _ _ N T S). pose proof (numeral_nonneg _ _ N) as P.
    destruct (Z.ltb_spec z (2 ^ 64)) as [L|L]; [|symmetry; apply Hb; exact L].
    destruct (Hs L) as (R & [(-> & M)|(Ns & ->)]).
    + rewrite String.eqb_refl. unfold u64. lia.
    + apply String.eqb_neq in Ns. rewrite Ns. unfold u64. lia.
  - intros <-. destruct (signed_split s) as (sign & ds & tail & z & -> & N & T & S). rewrite (signed_app _ _ _ _ N T S).
    pose proof (numeral_nonneg _ _ N) as P. exists sign, ds, tail, z. split; [reflexivity|]. split; [exact N|]. split; [exact T|].
    split; [intros L; replace (z <? 2 ^ 64) with false by lia; reflexivity|]. split; [|exact S].
    intros L. replace (z <? 2 ^ 64) with true by lia. split; [unfold u64; destruct (String.eqb sign "-"); lia|].
    destruct (String.eqb_spec sign "-") as [->|Ns]; [left|right]; (split; [auto|]); unfold u64; lia.
Qed.
Lemma short_same s : short_number s -> read_ulong s = u64 (read_int s).
Proof.
  intros (sign & ds & tail & z & -> & N & T & B & S). rewrite read_ulong_signed, read_int_signed, (signed_app _ _ _ _ N T S).
  pose proof (numeral_nonneg _ _ N) as P. replace (z <? 2 ^ 64) with true by lia. f_equal. unfold int_min, int_max.
  destruct (String.eqb_spec sign "-") as [->|Ns]; [lia|]. destruct B as [B|[-> _]]; [lia|congruence].
Qed.

(** * The parameter file *)

Section Params.
  Variable rd : string -> f64.

  Lemma param_cases c l :
    (exists v, v <> ""%string /\ says l "abs_radius" v /\ param_line rd c l = AbsCfg (rd v) (a_min c) (a_range c)) \/
    (exists v, v <> ""%string /\ says l "abs_min_cluster_size" v /\ param_line rd c l = AbsCfg (a_radius c) (read_ulong v) (a_range c)) \/
    (exists v, v <> ""%string /\ says l "spider_time_range" v /\ param_line rd c l = AbsCfg (a_radius c) (a_min c) (read_ulong v)) \/
    ((forall k v, In k the_keys -> says l k v -> v = ""%string) /\ param_line rd c l = c).
  Proof.
    unfold param_line. destruct (take_word (skip_ws l)) as [name rest] eqn:E.
    assert (R : forall k v, says l k v -> k = name /\ v = skip_ws rest).
    { intros k v S. apply says_read in S. destruct S as (r & E' & <-). rewrite E in E'. injection E' as <- <-. auto. }
    pose proof (read_says _ _ _ E) as RS.
    destruct (skip_ws rest) as [|ch v] eqn:Ev.
    { right. right. right. split; [|reflexivity]. intros k v _ S. apply R in S. apply S. }
    destruct (String.eqb_spec name "abs_radius") as [->|N1].
    { left. exists (String ch v). split; [discriminate|]. split; [apply RS; discriminate|reflexivity]. }
    destruct (String.eqb_spec name "abs_min_cluster_size") as [->|N2].
    { right. left. exists (String ch v). split; [discriminate|]. split; [apply RS; discriminate|reflexivity]. }
    destruct (String.eqb_spec name "spider_time_range") as [->|N3].
    { right. right. left. exists (String ch v). split; [discriminate|]. split; [apply RS; discriminate|reflexivity]. }
    right. right. right. split; [|reflexivity]. intros k w I S. apply R in S. destruct S as [-> _].
    destruct I as [<-|[<-|[<-|[]]]]; contradiction.
  Qed.

  Definition givens (ls : list string) (c : abs_cfg) : Prop :=
    given "abs_radius" (fun s v => v = rd s) (f_of_Z 5) ls (a_radius c) /\
    given "abs_min_cluster_size" reads_ulong 1 ls (a_min c) /\
    given "spider_time_range" reads_ulong 75 ls (a_range c).

  Lemma given_skip {A} key (R : string -> A -> Prop) d ls v l : given key R d ls v ->
    (forall w, says l key w -> w = ""%string) -> given key R d (ls ++ [l]) v.
  Proof.
    intros H N. destruct H as [(a & x & r & s & -> & S & Ns & Rv & F)|(-> & F)].
    - left. exists a, x, (r ++ [l]), s. rewrite <- List.app_assoc. repeat (split; [auto|]).
      apply Forall_app. split; [exact F|]. constructor; [exact N|constructor].
    - right. split; [reflexivity|]. apply Forall_app. split; [exact F|]. constructor; [exact N|constructor].
  Qed.
  Lemma given_set {A} key (R : string -> A -> Prop) d ls v l s : says l key s -> s <> ""%string -> R s v ->
    given key R d (ls ++ [l]) v.
  Proof. intros S Ns Rv. left. exists ls, l, [], s. auto 10. Qed.
  Lemma other_key l k v k' : says l k v -> k <> k' -> forall w, says l k' w -> w = ""%string.
  Proof. intros S N w S'. destruct (says_unique _ _ _ _ _ S S') as [E _]. contradiction. Qed.
  Lemma ulong_read v : reads_ulong v (read_ulong v).
  Proof. apply read_ulong_spec. reflexivity. Qed.

  Lemma givens_snoc ls c l : givens ls c -> givens (ls ++ [l]) (param_line rd c l).
  Proof.
    intros (H1 & H2 & H3). destruct (param_cases c l) as [(v & Nv & S & ->)|[(v & Nv & S & ->)|[(v & Nv & S & ->)|(N & ->)]]];
      unfold givens; cbn [a_radius a_min a_range].
    - split; [exact (given_set _ _ _ _ _ _ _ S Nv eq_refl)|]. split; (eapply given_skip; [eassumption|]); (eapply other_key; [exact S|discriminate]).
    - split; [eapply given_skip; [eassumption|]; eapply other_key; [exact S|discriminate]|].
      split; [exact (given_set _ _ _ _ _ _ _ S Nv (ulong_read v))|]. eapply given_skip; [eassumption|]; eapply other_key; [exact S|discriminate].
    - split; [eapply given_skip; [eassumption|]; eapply other_key; [exact S|discriminate]|].
      split; [|exact (given_set _ _ _ _ _ _ _ S Nv (ulong_read v))]. eapply given_skip; [eassumption|]; eapply other_key; [exact S|discriminate].
    - split; [|split]; (eapply given_skip; [eassumption|]); intros w; apply N; cbn; auto.
  Qed.
  Lemma fold_givens ls : givens ls (fold_left (param_line rd) ls (AbsCfg (f_of_Z 5) 1 75)).
  Proof.
    induction ls as [|l ls IH] using rev_ind.
    - repeat split; right; (split; [reflexivity|constructor]).
    - rewrite fold_left_app. apply givens_snoc. exact IH.
  Qed.
  Lemma given_unique {A} key (R : string -> A -> Prop) d ls v v' :
    (forall s a b, R s a -> R s b -> a = b) -> given key R d ls v -> given key R d ls v' -> v = v'.
  Proof.
    intros D. induction ls as [|l ls IH] using rev_ind; intros H H'.
    - destruct H as [([|] & ? & ? & ? & E & _)|(-> & _)]; try discriminate E.
      destruct H' as [([|] & ? & ? & ? & E & _)|(-> & _)]; try discriminate E. reflexivity.
    - assert (X : forall u, given key R d (ls ++ [l]) u ->
        (exists s, says l key s /\ s <> ""%string /\ R s u) \/ ((forall w, says l key w -> w = ""%string) /\ given key R d ls u)).
      { intros u [(a & x & r & s & E & S & Ns & Ru & F)|(-> & F)].
        - destruct r as [|y r _] using rev_ind.
          + apply app_inj_tail in E. destruct E as [-> ->]. left. eauto.
          + change (x :: r ++ [y]) with ((x :: r) ++ [y]) in E. rewrite List.app_assoc in E. apply app_inj_tail in E.
            destruct E as [-> ->]. apply Forall_app in F. destruct F as [F1 F2]. apply Forall_cons_iff in F2. destruct F2 as [F2 _]. right. split; [exact F2|].
            left. exists a, x, r, s. auto 10.
        - apply Forall_app in F. destruct F as [F1 F2]. apply Forall_cons_iff in F2. destruct F2 as [F2 _]. right. split; [exact F2|]. right. auto. }
      apply X in H, H'. destruct H as [(s & S & Ns & Rv)|(N & H)], H' as [(s' & S' & Ns' & Rv')|(N' & H')].
      + destruct (says_unique _ _ _ _ _ S S') as [_ <-]. eapply D; eassumption.
      + elim Ns. exact (N' _ S).
      + elim Ns'. exact (N _ S').
      + auto.
  Qed.
  Lemma ulong_unique s a b : reads_ulong s a -> reads_ulong s b -> a = b.
  Proof. intros H H'. apply read_ulong_spec in H, H'. congruence. Qed.
  Lemma givens_unique ls c c' : givens ls c -> givens ls c' -> c = c'.
  Proof.
    intros (H1 & H2 & H3) (K1 & K2 & K3). destruct c as [r m t], c' as [r' m' t']. cbn [a_radius a_min a_range] in *.
    f_equal; [|exact (given_unique _ _ _ _ _ _ ulong_unique H2 K2)|exact (given_unique _ _ _ _ _ _ ulong_unique H3 K3)].
    refine (given_unique _ _ _ _ _ _ _ H1 K1). intros s a b -> ->. reflexivity.
  Qed.
  Lemma text_lines ls last : Forall one_line ls -> one_line last -> last <> ""%string ->
    lines_of (text_of ls) = ls /\ lines_of (text_of ls ++ last)%string = ls ++ [last].
  Proof. apply C40_lines_l. Qed.

  Lemma C73_l s c : parse_params rd (Some s) = c <->
    given "abs_radius" (fun s v => v = rd s) (f_of_Z 5) (lines_of s) (a_radius c) /\
    given "abs_min_cluster_size" reads_ulong 1 (lines_of s) (a_min c) /\
    given "spider_time_range" reads_ulong 75 (lines_of s) (a_range c).
  Proof.
    unfold parse_params. split; [intros <-; apply fold_givens|]. intros H. eapply givens_unique; [apply fold_givens|exact H].
  Qed.
  Lemma C73_text_l ls last c : Forall one_line ls -> one_line last ->
    parse_params rd (Some (text_of ls ++ last)%string) = c <->
    given "abs_radius" (fun s v => v = rd s) (f_of_Z 5) (ls ++ [last]) (a_radius c) /\
    given "abs_min_cluster_size" reads_ulong 1 (ls ++ [last]) (a_min c) /\
    given "spider_time_range" reads_ulong 75 (ls ++ [last]) (a_range c).
  Proof.
    intros F O. assert (E : parse_params rd (Some (text_of ls ++ last)%string) =
      fold_left (param_line rd) (ls ++ [last]) (AbsCfg (f_of_Z 5) 1 75)).
    { unfold parse_params. destruct (string_dec last "") as [->|N].
      - rewrite append_nil. rewrite fold_left_app.
        assert (L : lines_of (text_of ls) = ls).
        { apply (C40_lines_l ls "x"); [exact F| |discriminate]. constructor; [discriminate|constructor]. }
        rewrite L. reflexivity.
      - rewrite (proj2 (C40_lines_l ls last F O N)). reflexivity. }
    rewrite E. split; [intros <-; apply fold_givens|]. intros H. eapply givens_unique; [apply fold_givens|exact H].
  Qed.
  Lemma C73_no_file_l : parse_params rd None = AbsCfg (f_of_Z 5) 1 75.
  Proof. reflexivity. Qed.

  (** Agreement with the command line program. *)
  Lemma agree_line c l : (forall k, In k the_keys -> ~ says l k "") ->
    (forall k s, In k ["abs_min_cluster_size"; "spider_time_range"]%string -> says l k s -> short_number s) ->
    config_line rd c l = Ok (param_line rd c l).
  Proof.
    intros H Q. destruct (line_ok rd c l H) as (c' & E). rewrite E. f_equal.
    destruct (line_cases rd c l c' E) as [(v & Nv & S & ->)|[(v & Nv & S & ->)|[(v & Nv & S & ->)|(N & ->)]]];
    destruct (param_cases c l) as [(v' & Nv' & S' & ->)|[(v' & Nv' & S' & ->)|[(v' & Nv' & S' & ->)|(N' & ->)]]];
      try (destruct (says_unique _ _ _ _ _ S S') as [K <-]; try discriminate K; clear K);
      try reflexivity.
    - elim Nv. apply (N' "abs_radius"%string); [cbn; auto|exact S].
    - rewrite (short_same v) by (eapply Q; [|exact S]; cbn; auto). reflexivity.
    - elim Nv. apply (N' "abs_min_cluster_size"%string); [cbn; auto|exact S].
    - rewrite (short_same v) by (eapply Q; [|exact S]; cbn; auto). reflexivity.
    - elim Nv. apply (N' "spider_time_range"%string); [cbn; auto|exact S].
    - elim (N "abs_radius"%string v'); [cbn; auto|exact S'].
    - elim (N "abs_min_cluster_size"%string v'); [cbn; auto|exact S'].
    - elim (N "spider_time_range"%string v'); [cbn; auto|exact S'].
  Qed.
  Lemma agree_lines ls : forall c, complete ls -> short_numbers ls ->
    ofold (config_line rd) ls c = Ok (fold_left (param_line rd) ls c).
  Proof.
    induction ls as [|l ls IH]; intros c C Q; [reflexivity|]. apply Forall_cons_iff in C, Q. destruct C as [C1 C2], Q as [Q1 Q2].
    cbn [ofold fold_left]. rewrite (agree_line c l C1 Q1). cbn [obind]. apply IH; assumption.
  Qed.
  Lemma C73_agree_l s : complete (lines_of s) -> short_numbers (lines_of s) ->
    parse_lines rd (lines_of s) = Ok (parse_params rd (Some s)).
  Proof. intros C Q. apply agree_lines; assumption. Qed.
End Params.

Lemma C73_differ_l : exists rd s c, complete (lines_of s) /\ parse_lines rd (lines_of s) = Ok c /\
  a_range c = 2 ^ 31 - 1 /\ a_range (parse_params rd (Some s)) = 3000000000.
Proof.
  exists (fun _ => f_of_Z 5), "spider_time_range 3000000000"%string, (AbsCfg (f_of_Z 5) 1 (2 ^ 31 - 1)).
  assert (E : parse_lines (fun _ => f_of_Z 5) (lines_of "spider_time_range 3000000000") = Ok (AbsCfg (f_of_Z 5) 1 (2 ^ 31 - 1))) by reflexivity.
  split; [|split; [exact E|split; reflexivity]]. apply (proj1 (C40_l _ _ _)) in E. apply E.
Qed.

Lemma save_group_fails lib d name grp cols r d' : save_group lib d name grp cols = (r, d') ->
  (forall n, n <> name -> d' n = d n) /\
  ((r = Ok tt /\ d' name = Some [(grp, cols)]) \/
   (r = Throw ExternalError /\
      (d' name = d name \/ d' name = Some [] \/ exists g, d' name = Some [(grp, g)] /\ partly cols g))).
Proof.
  intros E. destruct (save_group_cases _ _ _ _ _ _ _ E) as [O H]. split; [exact O|].
  destruct H as [(_ & -> & H)|[(_ & _ & -> & H)|[(_ & _ & -> & H & _)|(_ & _ & -> & i & Hi & _ & _ & last & H & HL)]]].
  - right. auto.
  - right. auto.
  - left. auto.
  - right. split; [reflexivity|]. right. right. exists (firstn i cols ++ last). split; [exact H|]. exists (firstn i cols), last.
    split; [reflexivity|]. split; [exists (skipn i cols); symmetry; apply firstn_skipn|].
    destruct HL as [->|(n & dt & Nt & ->)]; [left; reflexivity|]. right. exists n, dt, (unwritten dt). split; [reflexivity|]. split; [apply unwritten_zeros|]. eapply nth_error_In. exact Nt.
Qed.
Lemma C72_events_fail_l lib d name evs r d' : evs <> [] -> lib_save_events lib d name evs = (r, d') ->
  (forall n, n <> name -> d' n = d n) /\
  exists full, lib_save_events lib_works d name evs = (Ok tt, put_lfile d name [("events"%string, full)]) /\
    ((r = Ok tt /\ d' name = Some [("events"%string, full)]) \/
     (r = Throw ExternalError /\
        (d' name = d name \/ d' name = Some [] \/ exists g, d' name = Some [("events"%string, g)] /\ partly full g))).
Proof.
  intros N E. unfold lib_save_events in *. destruct evs as [|e evs]; [congruence|].
  destruct (save_group_fails _ _ _ _ _ _ _ E) as [O H]. split; [exact O|]. exists (lib_event_columns (e :: evs)). split; [|exact H].
  unfold save_group, lib_works. cbn [lib_opens lib_group lib_writes]. rewrite write_all_ok by reflexivity. reflexivity.
Qed.
Lemma C72_hits_fail_l lib d name hits labels r d' : zlen hits = zlen labels -> Forall (fun h => h_tof h <> None) hits ->
  lib_save_hits lib d name hits labels = (r, d') ->
  (forall n, n <> name -> d' n = d n) /\
  exists full, lib_save_hits lib_works d name hits labels = (Ok tt, put_lfile d name [("hits"%string, full)]) /\
    ((r = Ok tt /\ d' name = Some [("hits"%string, full)]) \/
     (r = Throw ExternalError /\
        (d' name = d name \/ d' name = Some [] \/ exists g, d' name = Some [("hits"%string, g)] /\ partly full g))).
Proof.
  intros L T E. destruct (tof_values_total _ T) as [tofs Et]. unfold lib_save_hits, lib_hit_columns in *. rewrite Et in *. cbn [obind] in *.
  replace (zlen hits =? zlen labels) with true in * by lia. cbn [negb] in *.
  destruct (save_group_fails _ _ _ _ _ _ _ E) as [O H]. split; [exact O|]. eexists. split; [|exact H].
  unfold save_group, lib_works. cbn [lib_opens lib_group lib_writes]. rewrite write_all_ok by reflexivity. reflexivity.
Qed.

(** Without a time of flight nothing is saved. *)
Lemma tof_values_missing hits : Exists (fun h => h_tof h = None) hits -> tof_values hits = UB Uninitialised.
Proof.
  induction hits as [|h r IH]; intros E; [inversion E|]. cbn [tof_values]. unfold tof_ns.
  destruct (h_tof h) as [t|] eqn:T; [|reflexivity].
  inversion E as [? ? H|? ? H]; subst; [congruence|]. rewrite (IH H). reflexivity.
Qed.
Lemma C72_no_tof_l lib d name hits labels : zlen hits = zlen labels -> Exists (fun h => h_tof h = None) hits ->
  lib_save_hits lib d name hits labels = (UB Uninitialised, d).
Proof.
  intros L E. unfold lib_save_hits, lib_hit_columns. rewrite L, Z.eqb_refl. cbn [negb].
  rewrite (tof_values_missing _ E). reflexivity.
Qed.
