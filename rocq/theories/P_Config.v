(** Proofs about the text configuration. *)
From Coq Require Import Ascii Lia ZifyBool.
From Verif Require Export S_Config P_CliRun.
Local Open Scope Z_scope.

(** * Characters *)

Lemma white_spec c : is_space c = true <-> white c.
Proof.
  split.
  - destruct c as [[] [] [] [] [] [] [] []]; vm_compute; intros H; try discriminate H; auto 10.
  - unfold white. intros H. repeat (destruct H as [<-|H]; [reflexivity|]). destruct H.
Qed.
Lemma dark_spec c : is_space c = false <-> ~ white c.
Proof. rewrite <- white_spec. destruct (is_space c); split; congruence. Qed.

Lemma skip_ws_white s : exists pre, s = (pre ++ skip_ws s)%string /\ all_chars white pre /\
  (skip_ws s = ""%string \/ starts_dark (skip_ws s)).
Proof.
  induction s as [|c s (pre & E & W & D)]; cbn [skip_ws].
  - exists ""%string. split; [reflexivity|]. split; [constructor|auto].
  - destruct (is_space c) eqn:Ec.
    + exists (String c pre). split; [cbn; f_equal; exact E|]. split; [|exact D].
      constructor; [apply white_spec; exact Ec|exact W].
    + exists ""%string. split; [reflexivity|]. split; [constructor|]. right. exists c, s. split; [reflexivity|].
      apply dark_spec. exact Ec.
Qed.
Lemma skip_ws_app pre s : all_chars white pre -> skip_ws (pre ++ s)%string = skip_ws s.
Proof. induction 1 as [|c pre Hc W IH]; [reflexivity|]. cbn. apply white_spec in Hc. rewrite Hc. exact IH. Qed.
Lemma skip_ws_dark s : starts_dark s -> skip_ws s = s.
Proof. intros (c & r & -> & D). cbn. apply dark_spec in D. rewrite D. reflexivity. Qed.
Lemma take_word_spec s : exists w t, take_word s = (w, t) /\ s = (w ++ t)%string /\
  all_chars (fun c => ~ white c) w /\ (t = ""%string \/ exists c r, t = String c r /\ white c).
Proof.
  induction s as [|c s (w & t & E & Es & D & T)]; cbn [take_word].
  - exists ""%string, ""%string. repeat split; auto. constructor.
  - destruct (is_space c) eqn:Ec.
    + exists ""%string, (String c s). repeat split; [constructor|]. right. exists c, s. split; [reflexivity|].
      apply white_spec. exact Ec.
    + rewrite E. exists (String c w), t. repeat split; [cbn; f_equal; exact Es| |exact T].
      constructor; [apply dark_spec; exact Ec|exact D].
Qed.
Lemma take_word_app w t : all_chars (fun c => ~ white c) w -> (t = ""%string \/ exists c r, t = String c r /\ white c) ->
  take_word (w ++ t)%string = (w, t).
Proof.
  intros D T. induction D as [|c w Hc D IH].
  - cbn [append]. destruct T as [->|(c & r & -> & Hc)]; [reflexivity|]. cbn. apply white_spec in Hc. rewrite Hc. reflexivity.
  - cbn [append take_word]. apply dark_spec in Hc. rewrite Hc, IH. reflexivity.
Qed.
Lemma append_nil s : (s ++ "")%string = s.
Proof. induction s; cbn; congruence. Qed.
Lemma dark_first w : all_chars (fun c => ~ white c) w -> w <> ""%string -> forall t, starts_dark (w ++ t)%string.
Proof. intros [|c s Hc D] N t; [congruence|]. exists c, (s ++ t)%string. auto. Qed.
Lemma white_then gap v : all_chars white gap -> gap <> ""%string \/ v = ""%string ->
  (gap ++ v)%string = ""%string \/ exists c r, (gap ++ v)%string = String c r /\ white c.
Proof.
  intros [|c s Hc W] H.
  - destruct H as [H | ->]; [congruence|left; reflexivity].
  - right. exists c, (s ++ v)%string. auto.
Qed.

(** A line as the program sees it. *)
Lemma says_read l k v : says l k v ->
  exists rest, take_word (skip_ws l) = (k, rest) /\ skip_ws rest = v.
Proof.
  intros (pre & gap & -> & Wp & Dk & Nk & Wg & V). exists (gap ++ v)%string.
  rewrite skip_ws_app by exact Wp. rewrite skip_ws_dark by (apply dark_first; assumption).
  split; [apply take_word_app; [exact Dk|]|].
  - apply white_then; [exact Wg|]. destruct V as [->|[N _]]; auto.
  - rewrite skip_ws_app by exact Wg. destruct V as [->|[_ D]]; [reflexivity|apply skip_ws_dark; exact D].
Qed.
Lemma read_says l k rest : take_word (skip_ws l) = (k, rest) -> k <> ""%string -> says l k (skip_ws rest).
Proof.
  intros E N. destruct (skip_ws_white l) as (pre & El & Wp & _).
  destruct (take_word_spec (skip_ws l)) as (w & t & E' & Es & D & T). rewrite E in E'. injection E' as <- <-.
  destruct (skip_ws_white rest) as (gap & Er & Wg & V). exists pre, gap.
  split; [rewrite El at 1; rewrite Es, Er at 1; reflexivity|]. repeat (split; [assumption|]).
  destruct V as [V|V]; [left; exact V|]. right. split; [|exact V]. intros ->. cbn in Er.
  destruct T as [->|(c & r & -> & Hc)]; [destruct V as (c & r & V & _); discriminate V|].
  destruct V as (c' & r' & V & D'). rewrite <- Er in V. injection V as <- <-. contradiction.
Qed.
Lemma says_unique l k v k' v' : says l k v -> says l k' v' -> k = k' /\ v = v'.
Proof.
  intros H H'. apply says_read in H, H'. destruct H as (r & E & <-), H' as (r' & E' & <-).
  rewrite E in E'. injection E' as <- <-. auto.
Qed.

(** * Numbers *)

Lemma digit_spec c d : digit c = Some d <-> shows_digit c d.
Proof.
  unfold digit, shows_digit. split.
  - intros H. destruct (_ && _) eqn:B in H; [|discriminate H]. injection H as <-. split; [lia|].
    replace (48 + (Z.of_nat (nat_of_ascii c) - 48)) with (Z.of_nat (nat_of_ascii c)) by lia.
    rewrite Nat2Z.id, ascii_nat_embedding. reflexivity.
  - intros (R & ->). rewrite nat_ascii_embedding by lia. rewrite Z2Nat.id by lia.
    destruct (_ && _) eqn:B; [f_equal; lia|lia].
Qed.
Lemma digit_none c : digit c = None <-> forall d, ~ shows_digit c d.
Proof.
  split.
  - intros H d D. apply digit_spec in D. congruence.
  - intros H. destruct (digit c) as [d|] eqn:E; [|reflexivity]. apply digit_spec in E. elim (H d E).
Qed.
Lemma digits_app ds n tail : numeral ds n -> forall acc,
  digits acc (ds ++ tail)%string = digits (acc * 10 ^ Z.of_nat (String.length ds) + n) tail.
Proof.
  intros H. revert tail. induction H as [|ds n c d H IH Hd]; intros tail acc.
  - cbn [append String.length]. rewrite Z.pow_0_r. f_equal. lia.
  - rewrite app_assoc_s, IH. cbn [append digits]. apply digit_spec in Hd. rewrite Hd. f_equal.
    assert (L : String.length (ds ++ String c "") = S (String.length ds)).
    { clear. induction ds; cbn; congruence. }
    rewrite L, Nat2Z.inj_succ, Z.pow_succ_r by lia. ring.
Qed.
Lemma digits_stop tail acc : no_digit_first tail -> digits acc tail = acc.
Proof.
  destruct tail as [|c r]; [reflexivity|]. intros H. cbn. 
  rewrite (proj2 (digit_none c)); [reflexivity|]. intros d. exact (H c r d eq_refl).
Qed.
Lemma digits_numeral ds n tail : numeral ds n -> no_digit_first tail -> digits 0 (ds ++ tail)%string = n.
Proof. intros H T. rewrite (digits_app _ _ _ H), digits_stop by exact T. reflexivity. Qed.
Lemma numeral_nonneg ds n : numeral ds n -> 0 <= n.
Proof. induction 1 as [|ds n c d H IH [R _]]; lia. Qed.
Lemma numeral_cons ds n : numeral ds n -> forall c d, shows_digit c d ->
  numeral (String c ds) (d * 10 ^ Z.of_nat (String.length ds) + n).
Proof.
  induction 1 as [|ds n c' d' H IH Hd]; intros c d Hc.
  - cbn [String.length]. rewrite Z.pow_0_r. replace (d * 1 + 0) with (10 * 0 + d) by lia.
    exact (num_snoc "" 0 c d num_nil Hc).
  - assert (L : String.length (ds ++ String c' "") = S (String.length ds)).
    { clear. induction ds; cbn; congruence. }
    rewrite L, Nat2Z.inj_succ, Z.pow_succ_r by lia.
    replace (d * (10 * 10 ^ Z.of_nat (String.length ds)) + (10 * n + d')) with
      (10 * (d * 10 ^ Z.of_nat (String.length ds) + n) + d') by ring.
    exact (num_snoc (String c ds) _ c' d' (IH c d Hc) Hd).
Qed.
Lemma numeral_split s : exists ds tail z, s = (ds ++ tail)%string /\ numeral ds z /\ no_digit_first tail.
Proof.
  induction s as [|c s (ds & tail & z & E & N & T)].
  - exists ""%string, ""%string, 0. repeat split; [constructor|]. intros c r d H. discriminate H.
  - destruct (digit c) as [d|] eqn:Ed.
    + exists (String c ds), tail, (d * 10 ^ Z.of_nat (String.length ds) + z). rewrite E.
      split; [reflexivity|]. split; [|exact T]. apply numeral_cons; [exact N|apply digit_spec; exact Ed].
    + exists ""%string, (String c s), 0. repeat split; [constructor|]. intros c' r d H. injection H as <- <-.
      apply digit_none. exact Ed.
Qed.
Lemma not_sign c d : shows_digit c d -> c <> "-"%char /\ c <> "+"%char.
Proof. intros D. apply digit_spec in D. split; intros ->; vm_compute in D; discriminate D. Qed.
Lemma first_digit ds z : numeral ds z -> ds = ""%string \/ exists c r d, ds = String c r /\ shows_digit c d.
Proof.
  induction 1 as [|ds n c d H IH Hd]; [auto|]. right. destruct IH as [->|(c' & r & d' & -> & D)].
  - exists c, ""%string, d. auto.
  - exists c', (r ++ String c "")%string, d'. auto.
Qed.
Lemma read_int_spec s n : reads_int s n <-> read_int s = n.
Proof.
  unfold read_int, int_min, int_max. split.
  - intros (sign & ds & tail & z & -> & N & T & H). pose proof (numeral_nonneg _ _ N) as P.
    destruct H as [(-> & ->)|[(-> & ->)|(-> & -> & F)]]; cbn [append].
    + rewrite (digits_numeral _ _ _ N T), Ascii.eqb_refl. lia.
    + rewrite (digits_numeral _ _ _ N T), Ascii.eqb_refl. rewrite (proj2 (Ascii.eqb_neq "+" "-")) by discriminate. lia.
    + assert (X : match (ds ++ tail)%string with
                  | String c r => if (c =? "-")%char then - digits 0 r else if (c =? "+")%char then digits 0 r else digits 0 (ds ++ tail)%string
                  | ""%string => 0 end = z).
      { destruct (first_digit _ _ N) as [->|(c & r & d & -> & D)]; cbn [append] in *.
        - inversion N as [E0|ds0 n0 c0 d0 N0 D0 E0]; [|destruct ds0; discriminate E0]. subst z.
          destruct tail as [|c r]; [reflexivity|]. destruct (F eq_refl c r eq_refl) as [F1 F2].
          apply Ascii.eqb_neq in F1, F2. rewrite F1, F2. apply digits_stop. exact T.
        - destruct (not_sign _ _ D) as [F1 F2]. apply Ascii.eqb_neq in F1, F2. rewrite F1, F2.
          exact (digits_numeral _ _ _ N T). }
      rewrite X. lia.
  - intros <-. destruct s as [|c s].
    + exists ""%string, ""%string, ""%string, 0. split; [reflexivity|]. split; [constructor|].
      split; [intros c r d H; discriminate H|]. right. right. split; [reflexivity|]. split; [reflexivity|].
      intros _ c r H. discriminate H.
    + destruct (Ascii.eqb_spec c "-") as [->|Nm].
      * destruct (numeral_split s) as (ds & tail & z & -> & N & T). pose proof (numeral_nonneg _ _ N) as P.
        exists "-"%string, ds, tail, z. split; [reflexivity|]. split; [exact N|]. split; [exact T|]. left.
        split; [reflexivity|]. rewrite (digits_numeral _ _ _ N T). lia.
      * destruct (Ascii.eqb_spec c "+") as [->|Np].
        -- destruct (numeral_split s) as (ds & tail & z & -> & N & T). pose proof (numeral_nonneg _ _ N) as P.
           exists "+"%string, ds, tail, z. split; [reflexivity|]. split; [exact N|]. split; [exact T|]. right. left.
           split; [reflexivity|]. rewrite (digits_numeral _ _ _ N T). lia.
        -- destruct (numeral_split (String c s)) as (ds & tail & z & E & N & T). pose proof (numeral_nonneg _ _ N) as P.
           rewrite E. exists ""%string, ds, tail, z. split; [reflexivity|]. split; [exact N|]. split; [exact T|]. right. right.
           split; [reflexivity|]. split.
           ++ rewrite (digits_numeral _ _ _ N T). lia.
           ++ intros -> c' r' ->. cbn in E. injection E as -> ->. auto.
Qed.

(** * Lines *)

Section Lines.
  Variable rd : string -> f64.

  (** What a line does. *)
  Lemma line_cases c l c' : config_line rd c l = Ok c' ->
    (exists v, v <> ""%string /\ says l "abs_radius" v /\ c' = AbsCfg (rd v) (a_min c) (a_range c)) \/
    (exists v, v <> ""%string /\ says l "abs_min_cluster_size" v /\ c' = AbsCfg (a_radius c) (u64 (read_int v)) (a_range c)) \/
    (exists v, v <> ""%string /\ says l "spider_time_range" v /\ c' = AbsCfg (a_radius c) (a_min c) (u64 (read_int v))) \/
    ((forall k v, In k the_keys -> ~ says l k v) /\ c' = c).
  Proof.
    unfold config_line. destruct (take_word (skip_ws l)) as [name rest] eqn:E.
    assert (Q : forall A (k : string -> A) x, with_value rest k = Ok x -> skip_ws rest <> ""%string /\ x = k (skip_ws rest)).
    { intros A k x. unfold with_value. destruct (skip_ws rest); [discriminate|]. intros H. apply Ok_inj in H. auto using eq_sym. 
      split; [discriminate|congruence]. }
    assert (R : forall k v, says l k v -> k = name).
    { intros k v S. apply says_read in S. destruct S as (r & E' & _). rewrite E in E'. congruence. }
    destruct (match name with ""%string => false | String ch _ => (ch =? "#")%char end) eqn:Eh.
    - intros H. apply Ok_inj in H. right. right. right. split; [|congruence]. intros k v I S. apply R in S. subst k.
      destruct I as [<-|[<-|[<-|[]]]]; discriminate Eh.
    - destruct (String.eqb_spec name "abs_radius") as [->|N1].
      { intros H. apply Q in H. destruct H as [Nv ->]. left. exists (skip_ws rest). split; [exact Nv|]. split; [|reflexivity].
        apply read_says with (1 := E). discriminate. }
      destruct (String.eqb_spec name "abs_min_cluster_size") as [->|N2].
      { intros H. apply Q in H. destruct H as [Nv ->]. right. left. exists (skip_ws rest). split; [exact Nv|]. split; [|reflexivity].
        apply read_says with (1 := E). discriminate. }
      destruct (String.eqb_spec name "spider_time_range") as [->|N3].
      { intros H. apply Q in H. destruct H as [Nv ->]. right. right. left. exists (skip_ws rest). split; [exact Nv|]. split; [|reflexivity].
        apply read_says with (1 := E). discriminate. }
      intros H. apply Ok_inj in H. right. right. right. split; [|congruence]. intros k v I S. apply R in S. subst k.
      destruct I as [<-|[<-|[<-|[]]]]; contradiction.
  Qed.
  Lemma line_ok c l : (forall k, In k the_keys -> ~ says l k "") -> exists c', config_line rd c l = Ok c'.
  Proof.
    intros H. unfold config_line. destruct (take_word (skip_ws l)) as [name rest] eqn:E.
    destruct (match name with ""%string => false | String ch _ => (ch =? "#")%char end); [eauto|].
    assert (Q : In name the_keys -> forall A (k : string -> A), exists x, with_value rest k = Ok x).
    { intros I A k. unfold with_value. destruct (skip_ws rest) eqn:Es; [|eauto]. exfalso. apply (H name I). rewrite <- Es.
      apply read_says with (1 := E). intros ->. cbn in I. intuition discriminate. }
    destruct (String.eqb_spec name "abs_radius") as [->|N1]; [apply Q; left; reflexivity|].
    destruct (String.eqb_spec name "abs_min_cluster_size") as [->|N2]; [apply Q; right; left; reflexivity|].
    destruct (String.eqb_spec name "spider_time_range") as [->|N3]; [apply Q; right; right; left; reflexivity|]. eauto.
  Qed.
  Lemma line_bad c l k : In k the_keys -> says l k "" -> config_line rd c l = UB Uninitialised.
  Proof.
    intros I S. apply says_read in S. destruct S as (rest & E & Er). unfold config_line. rewrite E.
    unfold with_value. rewrite Er. destruct I as [<-|[<-|[<-|[]]]]; reflexivity.
  Qed.
  Lemma incomplete_dec l : (forall k, In k the_keys -> ~ says l k "") \/ (exists k, In k the_keys /\ says l k "").
  Proof.
    destruct (take_word (skip_ws l)) as [name rest] eqn:E.
    destruct (in_dec string_dec name the_keys) as [I|N].
    - destruct (string_dec (skip_ws rest) "") as [Z|Z].
      + right. exists name. split; [exact I|]. rewrite <- Z. apply read_says with (1 := E).
        intros ->. cbn in I. intuition discriminate.
      + left. intros k _ S. apply says_read in S. destruct S as (r & E' & Er). rewrite E in E'. injection E' as <- <-. contradiction.
    - left. intros k I S. apply says_read in S. destruct S as (r & E' & Er). rewrite E in E'. injection E' as <- <-. contradiction.
  Qed.

  Definition settings (ls : list string) (c : abs_cfg) : Prop :=
    setting "abs_radius" (fun s v => v = rd s) (f_of_Z 5) ls (a_radius c) /\
    setting "abs_min_cluster_size" int_setting 1 ls (a_min c) /\
    setting "spider_time_range" int_setting 75 ls (a_range c).

  Lemma setting_skip {A} key (R : string -> A -> Prop) d ls v l : setting key R d ls v -> (forall w, ~ says l key w) ->
    setting key R d (ls ++ [l]) v.
  Proof.
    intros H N. destruct H as [(a & x & r & s & -> & S & Rv & F)|(-> & F)].
    - left. exists a, x, (r ++ [l]), s. rewrite <- List.app_assoc. repeat (split; [auto|]).
      apply Forall_app. split; [exact F|]. constructor; [exact N|constructor].
    - right. split; [reflexivity|]. apply Forall_app. split; [exact F|]. constructor; [exact N|constructor].
  Qed.
  Lemma setting_set {A} key (R : string -> A -> Prop) d ls v l s : says l key s -> R s v ->
    setting key R d (ls ++ [l]) v.
  Proof. intros S Rv. left. exists ls, l, [], s. auto. Qed.
  Lemma other l k v k' : says l k v -> k <> k' -> forall w, ~ says l k' w.
  Proof. intros S N w S'. destruct (says_unique _ _ _ _ _ S S') as [E _]. contradiction. Qed.
  Lemma int_setting_read v : int_setting v (u64 (read_int v)).
  Proof. exists (read_int v). split; [apply read_int_spec; reflexivity|reflexivity]. Qed.

  Lemma settings_snoc ls c l c' : settings ls c -> config_line rd c l = Ok c' -> settings (ls ++ [l]) c'.
  Proof.
    intros (H1 & H2 & H3) E. destruct (line_cases _ _ _ E) as [(v & _ & S & ->)|[(v & _ & S & ->)|[(v & _ & S & ->)|(N & ->)]]];
      unfold settings; cbn [a_radius a_min a_range].
    - split; [exact (setting_set _ _ _ _ _ _ _ S eq_refl)|]. split; (eapply setting_skip; [eassumption|]); (eapply other; [exact S|discriminate]).
    - split; [eapply setting_skip; [eassumption|]; eapply other; [exact S|discriminate]|].
      split; [exact (setting_set _ _ _ _ _ _ _ S (int_setting_read v))|]. eapply setting_skip; [eassumption|]; eapply other; [exact S|discriminate].
    - split; [eapply setting_skip; [eassumption|]; eapply other; [exact S|discriminate]|].
      split; [|exact (setting_set _ _ _ _ _ _ _ S (int_setting_read v))]. eapply setting_skip; [eassumption|]; eapply other; [exact S|discriminate].
    - split; [|split]; (eapply setting_skip; [eassumption|]); intros w; apply N; cbn; auto.
  Qed.
  Lemma lines_settings ls : forall c, parse_lines rd ls = Ok c -> settings ls c.
  Proof.
    unfold parse_lines. induction ls as [|l ls IH] using rev_ind; intros c E.
    - cbn in E. apply Ok_inj in E. subst c. repeat split; right; (split; [reflexivity|constructor]).
    - rewrite ofold_app in E. destruct (ofold _ ls _) as [c1| | |] eqn:E1; cbn [obind ofold] in E; try discriminate E.
      destruct (config_line rd c1 l) as [c2| | |] eqn:E2; cbn [obind] in E; try discriminate E. apply Ok_inj in E. subst c2.
      eapply settings_snoc; [apply IH; reflexivity|exact E2].
  Qed.
  Lemma lines_complete ls : forall c, complete ls -> exists c', ofold (config_line rd) ls c = Ok c'.
  Proof.
    induction ls as [|l ls IH]; intros c H; [eexists; reflexivity|]. apply Forall_cons_iff in H. destruct H as [Hl Hr]. cbn [ofold].
    destruct (line_ok c l Hl) as (c1 & ->). cbn [obind]. apply IH. exact Hr.
  Qed.
  Lemma lines_incomplete ls : forall c, ~ complete ls -> ofold (config_line rd) ls c = UB Uninitialised.
  Proof.
    induction ls as [|l ls IH]; intros c H; [elim H; constructor|]. cbn [ofold].
    destruct (incomplete_dec l) as [Hl|(k & I & S)].
    - destruct (line_ok c l Hl) as (c1 & ->). cbn [obind]. apply IH. intros C. apply H. constructor; assumption.
    - rewrite (line_bad c l k I S). reflexivity.
  Qed.
  Lemma complete_dec ls : complete ls \/ ~ complete ls.
  Proof.
    induction ls as [|l ls [IH|IH]]; [left; constructor| |right; intros H; apply Forall_cons_iff in H; apply IH; apply H].
    destruct (incomplete_dec l) as [Hl|(k & I & S)]; [left; constructor; assumption|].
    right. intros H. apply Forall_cons_iff in H. destruct H as [Hl _]. exact (Hl k I S).
  Qed.
  Lemma setting_unique {A} key (R : string -> A -> Prop) d ls v v' :
    (forall s a b, R s a -> R s b -> a = b) -> setting key R d ls v -> setting key R d ls v' -> v = v'.
  Proof.
    intros D. induction ls as [|l ls IH] using rev_ind; intros H H'.
    - destruct H as [([|] & ? & ? & ? & E & _)|(-> & _)]; try discriminate E.
      destruct H' as [([|] & ? & ? & ? & E & _)|(-> & _)]; try discriminate E. reflexivity.
    - assert (X : forall u, setting key R d (ls ++ [l]) u ->
        (exists s, says l key s /\ R s u) \/ ((forall w, ~ says l key w) /\ setting key R d ls u)).
      { intros u [(a & x & r & s & E & S & Ru & F)|(-> & F)].
        - destruct r as [|y r _] using rev_ind.
          + apply app_inj_tail in E. destruct E as [-> ->]. left. eauto.
          + change (x :: r ++ [y]) with ((x :: r) ++ [y]) in E. rewrite List.app_assoc in E. apply app_inj_tail in E.
            destruct E as [-> ->]. apply Forall_app in F. destruct F as [F1 F2]. apply Forall_cons_iff in F2. destruct F2 as [F2 _]. right. split; [exact F2|].
            left. exists a, x, r, s. auto.
        - apply Forall_app in F. destruct F as [F1 F2]. apply Forall_cons_iff in F2. destruct F2 as [F2 _]. right. split; [exact F2|]. right. auto. }
      apply X in H, H'. destruct H as [(s & S & Rv)|(N & H)], H' as [(s' & S' & Rv')|(N' & H')].
      + destruct (says_unique _ _ _ _ _ S S') as [_ <-]. eapply D; eassumption.
      + elim (N' _ S).
      + elim (N _ S').
      + auto.
  Qed.
  Lemma int_setting_unique s a b : int_setting s a -> int_setting s b -> a = b.
  Proof. intros (n & H & ->) (n' & H' & ->). apply read_int_spec in H, H'. congruence. Qed.
  Lemma settings_unique ls c c' : settings ls c -> settings ls c' -> c = c'.
  Proof.
    intros (H1 & H2 & H3) (K1 & K2 & K3). destruct c as [r m t], c' as [r' m' t']. cbn [a_radius a_min a_range] in *.
    f_equal; [|exact (setting_unique _ _ _ _ _ _ int_setting_unique H2 K2)|exact (setting_unique _ _ _ _ _ _ int_setting_unique H3 K3)].
    refine (setting_unique _ _ _ _ _ _ _ H1 K1). intros s a b -> ->. reflexivity.
  Qed.
  Lemma C40_l ls c : parse_lines rd ls = Ok c <-> complete ls /\ settings ls c.
  Proof.
    split.
    - intros E. split; [|apply lines_settings; exact E]. destruct (complete_dec ls) as [C|N]; [exact C|].
      unfold parse_lines in E. rewrite (lines_incomplete ls _ N) in E. discriminate E.
    - intros (C & S). destruct (lines_complete ls default_abs C) as (c' & E). unfold parse_lines. rewrite E.
      f_equal. eapply settings_unique; [apply lines_settings; exact E|exact S].
  Qed.
  Lemma C40_undefined_l ls : parse_lines rd ls = UB Uninitialised <-> ~ complete ls.
  Proof.
    split; [|apply lines_incomplete]. intros E C. destruct (lines_complete ls default_abs C) as (c & E').
    unfold parse_lines in E. congruence.
  Qed.

  (** Lines about other things have no effect; lines about different things
      commute. *)
  Lemma line_other c l : (forall k v, In k the_keys -> ~ says l k v) -> config_line rd c l = Ok c.
  Proof.
    intros H. destruct (line_ok c l) as (c' & E); [intros k I; apply H; exact I|].
    destruct (line_cases _ _ _ E) as [(v & _ & S & _)|[(v & _ & S & _)|[(v & _ & S & _)|(_ & ->)]]]; [| | |exact E];
      exfalso; eapply H; try exact S; cbn; auto.
  Qed.
  Lemma C40_ignored_l l1 l l2 : (forall k v, In k the_keys -> ~ says l k v) ->
    parse_lines rd (l1 ++ l :: l2) = parse_lines rd (l1 ++ l2).
  Proof.
    intros H. unfold parse_lines. rewrite !ofold_app. destruct (ofold _ l1 _); cbn [obind ofold]; try reflexivity.
    rewrite line_other by exact H. reflexivity.
  Qed.
  Lemma commute c a b : (forall k v w, says a k v -> ~ says b k w) ->
    (let! c1 := config_line rd c a in config_line rd c1 b) = (let! c1 := config_line rd c b in config_line rd c1 a).
  Proof.
    intros H. destruct (incomplete_dec a) as [Ha|(k & I & S)].
    2:{ rewrite (line_bad c a k I S). destruct (incomplete_dec b) as [Hb|(k' & I' & S')].
        - destruct (line_ok c b Hb) as (c1 & ->). cbn [obind]. rewrite (line_bad c1 a k I S). reflexivity.
        - rewrite (line_bad c b k' I' S'). reflexivity. }
    destruct (incomplete_dec b) as [Hb|(k' & I' & S')].
    2:{ rewrite (line_bad c b k' I' S'). destruct (line_ok c a Ha) as (c1 & ->). cbn [obind].
        rewrite (line_bad c1 b k' I' S'). reflexivity. }
    destruct (line_ok c a Ha) as (ca & Ea). destruct (line_ok c b Hb) as (cb & Eb). rewrite Ea, Eb. cbn [obind].
    destruct (line_ok ca b Hb) as (cab & Eab). destruct (line_ok cb a Ha) as (cba & Eba). rewrite Eab, Eba. f_equal.
    apply line_cases in Ea, Eb, Eab, Eba.
    assert (U : forall l k v k' v', says l k v -> says l k' v' -> k = k' /\ v = v') by (intros; eapply says_unique; eassumption).
    destruct Ea as [(v1 & _ & S1 & E1)|[(v1 & _ & S1 & E1)|[(v1 & _ & S1 & E1)|(N1 & E1)]]];
    destruct Eba as [(v4 & _ & S4 & E4)|[(v4 & _ & S4 & E4)|[(v4 & _ & S4 & E4)|(N4 & E4)]]];
    try (destruct (U _ _ _ _ _ S1 S4) as [Q ->]; try discriminate Q; clear Q S4);
    try (exfalso; first [eapply N4; [|exact S1]|eapply N1; [|exact S4]]; cbn; solve [auto]);
    destruct Eb as [(v2 & _ & S2 & E2)|[(v2 & _ & S2 & E2)|[(v2 & _ & S2 & E2)|(N2 & E2)]]];
    destruct Eab as [(v3 & _ & S3 & E3)|[(v3 & _ & S3 & E3)|[(v3 & _ & S3 & E3)|(N3 & E3)]]];
    try (destruct (U _ _ _ _ _ S2 S3) as [Q ->]; try discriminate Q; clear Q S3);
    try (exfalso; first [eapply N3; [|exact S2]|eapply N2; [|exact S3]]; cbn; solve [auto]);
    try (elim (H _ _ _ S1 S2));
    subst; cbn [a_radius a_min a_range]; reflexivity.
  Qed.
  Lemma C40_order_l l1 a b l2 : (forall k v w, says a k v -> ~ says b k w) ->
    parse_lines rd (l1 ++ a :: b :: l2) = parse_lines rd (l1 ++ b :: a :: l2).
  Proof.
    intros H. unfold parse_lines. rewrite !ofold_app. destruct (ofold _ l1 _) as [c| | |]; cbn [obind ofold]; try reflexivity.
    assert (Q : forall A B C (o : outcome A) (f : A -> outcome B) (g : B -> outcome C),
      (let! x := o in let! y := f x in g y) = (let! y := (let! x := o in f x) in g y)) by (intros A B C [] f g; reflexivity).
    rewrite !Q, (commute c a b H). reflexivity.
  Qed.
End Lines.

(** * Text *)

Lemma lines_from_app l : one_line l -> forall cur r, lines_from cur (l ++ String (ascii_of_nat 10) r)%string =
  (cur ++ l)%string :: lines_from "" r.
Proof.
  induction 1 as [|c l Hc _ IH]; intros cur r.
  - cbn [append lines_from]. change (Ascii.eqb (ascii_of_nat 10) newline) with true. rewrite append_nil. reflexivity.
  - cbn [append lines_from]. apply Ascii.eqb_neq in Hc. change (ascii_of_nat 10) with newline in Hc. rewrite Hc, IH.
    f_equal. rewrite app_assoc_s. reflexivity.
Qed.
Lemma lines_from_end l : one_line l -> forall cur, (cur ++ l)%string <> ""%string -> lines_from cur l = [(cur ++ l)%string].
Proof.
  induction 1 as [|c l Hc _ IH]; intros cur N; cbn [lines_from].
  - rewrite append_nil in *. destruct (String.eqb_spec cur ""); [contradiction|reflexivity].
  - apply Ascii.eqb_neq in Hc. change (ascii_of_nat 10) with newline in Hc. rewrite Hc, IH.
    + rewrite app_assoc_s. reflexivity.
    + rewrite app_assoc_s. cbn [append]. exact N.
Qed.
Lemma C40_lines_l ls l : Forall one_line ls -> one_line l -> l <> ""%string ->
  lines_of (text_of ls) = ls /\ lines_of (text_of ls ++ l) = ls ++ [l].
Proof.
  intros H Hl N. unfold lines_of. induction H as [|a ls Ha H [IH1 IH2]]; cbn [text_of].
  - split; [reflexivity|]. cbn [append]. rewrite (lines_from_end l Hl ""); [reflexivity|exact N].
  - rewrite lines_from_app by exact Ha. cbn [append]. split; [f_equal; exact IH1|].
    rewrite app_assoc_s. cbn [append]. rewrite lines_from_app by exact Ha. cbn [append app]. f_equal. exact IH2.
Qed.
