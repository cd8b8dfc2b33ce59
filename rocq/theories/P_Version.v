(** Proofs about the script for versions (C94). *)
From Coq Require Import String DecimalString DecimalPos DecimalFacts Lia ZifyBool.
From Verif Require Import P_GdcMain.
From Verif Require Export S_Version.
Local Open Scope Z_scope.
Local Open Scope list_scope.

Lemma same_spec a b : same a b = true <-> a = b.
Proof. unfold same. destruct (list_eq_dec Z.eq_dec a b); split; congruence. Qed.
Lemma same_refl a : same a a = true.
Proof. apply same_spec. reflexivity. Qed.
Lemma after_spec w : forall l r, after w l = Some r <-> l = w ++ r.
Proof.
  induction w as [|c w IH]; intros l r; cbn [after app]; [split; congruence|].
  destruct l as [|d l]; [split; discriminate|]. destruct (Z.eqb_spec c d) as [->|N].
  - rewrite IH. split; [intros ->; reflexivity|congruence].
  - split; congruence.
Qed.
Lemma after_none w l : after w l = None <-> forall r, l <> w ++ r.
Proof.
  destruct (after w l) as [r|] eqn:E.
  - apply after_spec in E. split; [discriminate|]. intros H. elim (H r E).
  - split; [|reflexivity]. intros _ r H. apply after_spec in H. congruence.
Qed.
Lemma span_skip P l : l = span P l ++ skip P l.
Proof. induction l as [|c l IH]; [reflexivity|]. cbn. destruct (P c); [cbn; congruence|reflexivity]. Qed.
Lemma span_all P l : forallb P (span P l) = true.
Proof. induction l as [|c l IH]; [reflexivity|]. cbn. destruct (P c) eqn:E; [cbn; rewrite E; exact IH|reflexivity]. Qed.
(** Greedy matching is exact before a character outside the bracket. *)
Definition stops (P : Z -> bool) (l : text) : Prop := match l with c :: _ => P c = false | [] => True end.
Lemma skip_app P a r : forallb P a = true -> stops P r -> skip P (a ++ r) = r.
Proof.
  induction a as [|c a IH]; cbn; intros H S.
  - destruct r as [|d r]; [reflexivity|]. cbn in *. rewrite S. reflexivity.
  - apply andb_true_iff in H. destruct H as [H1 H2]. rewrite H1. apply IH; assumption.
Qed.
Lemma span_app P a r : forallb P a = true -> stops P r -> span P (a ++ r) = a.
Proof.
  induction a as [|c a IH]; cbn; intros H S.
  - destruct r as [|d r]; [reflexivity|]. cbn in *. rewrite S. reflexivity.
  - apply andb_true_iff in H. destruct H as [H1 H2]. rewrite H1. f_equal. apply IH; assumption.
Qed.

(** The identifiers *)
Lemma id_stops id r : In id names -> stops grep_blank (id ++ r) /\ stops sed_blank (id ++ r).
Proof. intros [<-|[<-|[<-|[]]]]; split; reflexivity. Qed.
Lemma ids_apart id id' r r' : In id names -> In id' names -> id ++ r = id' ++ r' -> id = id'.
Proof. intros [<-|[<-|[<-|[]]]] [<-|[<-|[<-|[]]]] E; try reflexivity; discriminate E. Qed.

Lemma grep_define_spec id l : In id names ->
  grep_define id l = true <-> exists b r, forallb grep_blank b = true /\ l = define ++ b ++ id ++ r.
Proof.
  intros I. unfold grep_define. destruct (after define l) as [q|] eqn:E.
  - apply after_spec in E. subst l. destruct (after id (skip grep_blank q)) as [r|] eqn:E.
    + apply after_spec in E. split; [|reflexivity]. intros _. exists (span grep_blank q), r. split; [apply span_all|].
      rewrite <- E, <- span_skip. reflexivity.
    + split; [discriminate|]. intros (b & r & B & H). apply app_inv_head in H. subst q.
      rewrite skip_app in E by (try exact B; apply id_stops; exact I). apply after_none with (r := r) in E. elim E. reflexivity.
  - split; [discriminate|]. intros (b & r & B & ->). apply after_none with (r := b ++ id ++ r) in E. elim E. reflexivity.
Qed.
Lemma sed_define_no id v l : In id names -> (forall b r, forallb sed_blank b = true -> l <> define ++ b ++ id ++ r) ->
  sed_define id v l = l.
Proof.
  intros I N. unfold sed_define. destruct (after define l) as [q|] eqn:E; [|reflexivity].
  apply after_spec in E. subst l. destruct (after id (skip sed_blank q)) as [r|] eqn:E; [|reflexivity].
  apply after_spec in E. exfalso. apply (N (span sed_blank q) r); [apply span_all|]. rewrite <- E, <- span_skip. reflexivity.
Qed.
Lemma sed_define_yes id v b r : In id names -> forallb sed_blank b = true ->
  sed_define id v (define ++ b ++ id ++ r) = define ++ b ++ id ++ [32] ++ v ++ skip digit (skip sed_blank r).
Proof.
  intros I B. unfold sed_define.
  assert (E : after define (define ++ b ++ id ++ r) = Some (b ++ id ++ r)) by (apply after_spec; reflexivity).
  rewrite E. rewrite skip_app, span_app by (try exact B; apply id_stops; exact I).
  assert (E' : after id (id ++ r) = Some r) by (apply after_spec; reflexivity). rewrite E'. reflexivity.
Qed.
(** Every line is of one of these kinds. *)
Lemma sed_define_cases id v l : In id names ->
  sed_define id v l = l \/ exists b r, forallb sed_blank b = true /\ l = define ++ b ++ id ++ r /\
    sed_define id v l = define ++ b ++ id ++ [32] ++ v ++ skip digit (skip sed_blank r).
Proof.
  intros I. unfold sed_define. destruct (after define l) as [q|] eqn:E; [|left; reflexivity].
  apply after_spec in E. subst l. destruct (after id (skip sed_blank q)) as [r|] eqn:E; [|left; reflexivity].
  apply after_spec in E. right. exists (span sed_blank q), r. split; [apply span_all|]. split; [|reflexivity].
  rewrite <- E, <- span_skip. reflexivity.
Qed.

(** What is after equal blanks. *)
Lemma blank_split (P Q : Z -> bool) b b' x x' : forallb P b = true -> forallb Q b' = true -> stops P x' -> stops Q x ->
  stops Q x' -> stops P x -> b ++ x = b' ++ x' -> x <> [] -> x' <> [] -> b = b' /\ x = x'.
Proof.
  revert b'. induction b as [|c b IH]; intros [|c' b'] B B' S1 S2 S3 S4 E N N'.
  - auto.
  - cbn in E. subst x. cbn in B'. apply andb_true_iff in B'. destruct B' as [B' _]. cbn in S2. congruence.
  - cbn in E. subst x'. cbn in B. apply andb_true_iff in B. destruct B as [B _]. cbn in S1. congruence.
  - cbn in E. injection E as -> E. cbn in B, B'. apply andb_true_iff in B, B'. destruct B as [_ B], B' as [_ B'].
    destruct (IH b' B B' S1 S2 S3 S4 E N N') as [-> ->]. auto.
Qed.
Lemma id_app_nonempty id r : In id names -> id ++ r <> [].
Proof. intros [<-|[<-|[<-|[]]]]; discriminate. Qed.

(** Writing one part does not change what is read of another. *)
Lemma grep_after_sed id id' v l : In id names -> In id' names -> id <> id' ->
  grep_define id' (sed_define id v l) = grep_define id' l.
Proof.
  intros I I' N. destruct (sed_define_cases id v l I) as [->|(b & r & B & El & ->)]; [reflexivity|]. subst l.
  assert (F : forall q, grep_define id' (define ++ b ++ id ++ q) = false).
  { intros q. apply not_true_is_false. intros H. apply (grep_define_spec id' _ I') in H. destruct H as (b' & r' & B' & E).
    apply app_inv_head in E.
    destruct (blank_split sed_blank grep_blank b b' (id ++ q) (id' ++ r') B B') as [_ E2];
      try apply id_stops; try apply id_app_nonempty; try assumption.
    apply ids_apart in E2; try assumption. contradiction. }
  rewrite !F. reflexivity.
Qed.
Lemma part_after_sed id id' v f : In id names -> In id' names -> id <> id' ->
  version_part (map (sed_define id v) f) id' = version_part f id'.
Proof.
  intros I I' N. unfold version_part.
  assert (E : find (grep_define id') (map (sed_define id v) f) = option_map (sed_define id v) (find (grep_define id') f)).
  { induction f as [|l f IH]; [reflexivity|]. cbn [map find]. rewrite grep_after_sed by assumption.
    destruct (grep_define id' l); [reflexivity|exact IH]. }
  rewrite E. destruct (find (grep_define id') f) as [l|] eqn:E2; [|reflexivity]. cbn [option_map].
  apply find_some in E2. destruct E2 as [_ E2].
  assert (Es : sed_define id v l = l).
  { destruct (sed_define_cases id v l I) as [H|(b & r & B & El & _)]; [exact H|]. exfalso.
    apply (grep_define_spec id' l I') in E2. destruct E2 as (b' & r' & B' & El'). rewrite El in El'. apply app_inv_head in El'.
    destruct (blank_split sed_blank grep_blank b b' (id ++ r) (id' ++ r') B B') as [_ E3];
      try apply id_stops; try apply id_app_nonempty; try assumption.
    apply ids_apart in E3; try assumption. contradiction. }
  rewrite Es. reflexivity.
Qed.

Ltac in_names := cbn [names In]; tauto.
Lemma commit_ok f v f' : commit f v = (f', true) -> get_version f' = Some v.
Proof.
  destruct v as [[a b] c]. unfold commit, commit_part. 
  set (f1 := map (sed_define PATCH c) f). 
  destruct (version_part f1 PATCH) as [v1|] eqn:E1; [|discriminate]. destruct (same v1 c) eqn:S1; [|discriminate].
  set (f2 := map (sed_define MINOR b) f1).
  destruct (version_part f2 MINOR) as [v2|] eqn:E2; [|discriminate]. destruct (same v2 b) eqn:S2; [|discriminate].
  set (f3 := map (sed_define MAJOR a) f2).
  intros E. injection E as <- E. destruct (version_part f3 MAJOR) as [v3|] eqn:E3; [|discriminate].
  apply same_spec in S1, S2, E. subst v1 v2 v3.
  unfold get_version. rewrite E3. unfold f3. rewrite part_after_sed by (try in_names; discriminate). rewrite E2.
  rewrite part_after_sed by (try in_names; discriminate). unfold f2. rewrite part_after_sed by (try in_names; discriminate).
  rewrite E1. reflexivity.
Qed.

(** * Numbers *)
Lemma in_decimal_head z : 0 < z -> hd 0 (in_decimal z) <> 48.
Proof.
  destruct z as [|p|p]; try lia. intros _. unfold in_decimal. change (Z.to_int (Z.pos p)) with (Decimal.Pos (Pos.to_uint p)).
  cbn [NilZero.string_of_int].
  assert (U : forall d, Pos.to_uint p <> Decimal.D0 d).
  { intros d E. pose proof (Unsigned.to_of (Pos.to_uint p)) as T. rewrite Unsigned.of_to in T. cbn [N.to_uint] in T.
    rewrite T in E. unfold Decimal.unorm in E. destruct (Decimal.nzhead (Pos.to_uint p)) eqn:H; try discriminate E.
    - pose proof (Unsigned.of_to p) as O. rewrite T in O. unfold Decimal.unorm in O. rewrite H in O. discriminate O.
    - exact (nzhead_nonzero _ _ H). }
  pose proof (Unsigned.to_uint_nonnil p) as N.
  destruct (Pos.to_uint p) eqn:E; try contradiction; [elim (U u eq_refl)|..]; cbn; discriminate.
Qed.
Lemma in_decimal_numeral z : 0 <= z -> numeral z (in_decimal z).
Proof.
  intros H. split; [apply in_decimal_field; exact H|]. destruct (Z.eq_dec z 0) as [->|N]; [left; reflexivity|].
  right. apply in_decimal_head. lia.
Qed.
Lemma in_base_ten l : Forall a_digit l -> forall v, in_base 10 v l = Some (digits_value v l).
Proof.
  induction 1 as [|c l H F IH]; intros v; [reflexivity|]. cbn [in_base digits_value]. unfold a_digit in H.
  destruct (Z.ltb_spec (c - 48) 10); [|lia]. apply IH.
Qed.
Lemma digits_value_lower l : Forall a_digit l -> forall v, 0 <= v -> v * 10 ^ Z.of_nat (length l) <= digits_value v l < (v + 1) * 10 ^ Z.of_nat (length l).
Proof.
  induction 1 as [|c l H F IH]; intros v P; [cbn [length digits_value]; rewrite Z.pow_0_r; lia|].
  cbn [length digits_value]. rewrite Nat2Z.inj_succ, Z.pow_succ_r by lia. unfold a_digit in H.
  specialize (IH (10 * v + (c - 48)) ltac:(lia)). set (w := 10 ^ Z.of_nat (length l)) in *.
  assert (0 < w) by (apply Z.pow_pos_nonneg; lia). nia.
Qed.
Lemma numeral_unique n l : numeral n l -> l = in_decimal n.
Proof.
  intros [F C]. 
  assert (G : forall a b, Forall a_digit a -> Forall a_digit b -> length a = length b -> forall v, digits_value v a = digits_value v b -> 0 <= v -> a = b).
  { induction a as [|x a IH]; intros [|y b] Fa Fb L v E V; try discriminate L; [reflexivity|].
    apply Forall_cons_iff in Fa, Fb. destruct Fa as [X Fa], Fb as [Y Fb]. cbn [digits_value] in E. injection L as L.
    unfold a_digit in X, Y. assert (x = y).
    { pose proof (digits_value_lower a Fa (10 * v + (x - 48)) ltac:(lia)) as A.
      pose proof (digits_value_lower b Fb (10 * v + (y - 48)) ltac:(lia)) as B. rewrite L in A. rewrite E in A.
      set (w := 10 ^ Z.of_nat (length b)) in *. assert (0 < w) by (apply Z.pow_pos_nonneg; lia). nia. }
    subst y. f_equal. eapply IH; try eassumption. lia. }
  destruct F as (Ne & Fd & V).
  assert (P : 0 <= n) by (subst n; pose proof (digits_value_lower l Fd 0 ltac:(lia)); lia).
  destruct (in_decimal_field n P) as (Ne' & Fd' & V').
  assert (L : forall a, a <> [] -> Forall a_digit a -> (a = [48] \/ hd 0 a <> 48) -> digits_value 0 a = n ->
    (n = 0 /\ length a = 1%nat) \/ (10 ^ Z.of_nat (length a - 1) <= n < 10 ^ Z.of_nat (length a))).
  { intros a Na Fa [->|Ha] Va; [left; split; [exact (eq_sym Va)|reflexivity]|]. right.
    destruct a as [|x a]; [congruence|]. cbn [hd] in Ha. apply Forall_cons_iff in Fa. destruct Fa as [X Fa]. unfold a_digit in X.
    cbn [digits_value] in Va. pose proof (digits_value_lower a Fa (10 * 0 + (x - 48)) ltac:(lia)) as A. rewrite Va in A.
    cbn [length]. rewrite Nat.sub_succ, Nat.sub_0_r, Nat2Z.inj_succ, Z.pow_succ_r by lia.
    set (w := 10 ^ Z.of_nat (length a)) in *. assert (0 < w) by (apply Z.pow_pos_nonneg; lia). nia. }
  pose proof (L l Ne Fd C V) as A. pose proof (L _ Ne' Fd' (proj2 (in_decimal_numeral n P)) V') as B.
  assert (E : length l = length (in_decimal n)).
  { assert (W : forall k, 1 <= 10 ^ Z.of_nat k) by (intros k; pose proof (Z.pow_pos_nonneg 10 (Z.of_nat k)); lia).
    destruct A as [[Z1 A]|A], B as [[Z2 B]|B]; try congruence.
    - pose proof (W (length (in_decimal n) - 1)%nat). lia.
    - pose proof (W (length l - 1)%nat). lia.
    - assert (M : forall i j, (0 < i)%nat -> (i < j)%nat -> 10 ^ Z.of_nat i <= 10 ^ Z.of_nat (j - 1)) by (intros; apply Z.pow_le_mono_r; lia).
      assert (0 < length l)%nat by (destruct l; [congruence|cbn; lia]).
      assert (0 < length (in_decimal n))%nat by (destruct (in_decimal n); [congruence|cbn; lia]).
      destruct (Nat.lt_trichotomy (length l) (length (in_decimal n))) as [T|[T|T]]; [|exact T|].
      + pose proof (M _ _ H T). lia.
      + pose proof (M _ _ H0 T). lia. }
  apply (G l (in_decimal n) Fd Fd' E 0); [congruence|lia].
Qed.
Lemma shell_numeral n : 0 <= n -> shell_number (in_decimal n) = Some n.
Proof.
  intros P. destruct (in_decimal_field n P) as (Ne & Fd & V). destruct (Z.eq_dec n 0) as [->|N]; [reflexivity|].
  pose proof (in_decimal_head n ltac:(lia)) as H. rewrite <- V at 2. rewrite <- in_base_ten by exact Fd.
  destruct (in_decimal n) as [|c l]; [congruence|]. cbn [hd] in H. unfold shell_number.
  destruct c as [|c|c]; try reflexivity. do 6 (destruct c as [c|c|]; try reflexivity). congruence.
Qed.

(** * Reading *)
Lemma digit_spec c : digit c = true <-> a_digit c.
Proof. unfold digit, a_digit. lia. Qed.
Lemma filter_none l : Forall (fun c => ~ a_digit c) l -> filter digit l = [].
Proof.
  induction 1 as [|c l H F IH]; [reflexivity|]. cbn. destruct (digit c) eqn:E; [apply digit_spec in E; contradiction|exact IH].
Qed.
Lemma filter_all l : Forall a_digit l -> filter digit l = l.
Proof.
  induction 1 as [|c l H F IH]; [reflexivity|]. cbn. apply digit_spec in H. rewrite H. congruence.
Qed.
Lemma id_no_digit id : In id names -> filter digit id = [].
Proof. intros [<-|[<-|[<-|[]]]]; reflexivity. Qed.
Lemma blank_no_digit b : Forall (fun c => In c [9; 32]) b -> filter digit b = [].
Proof. intros F. apply filter_none. eapply Forall_impl; [|exact F]. intros c [<-|[<-|[]]]; unfold a_digit; lia. Qed.
Lemma space_blank b : Forall (eq 32) b -> Forall (fun c => In c [9; 32]) b.
Proof. apply Forall_impl. intros c <-. cbn. tauto. Qed.
Lemma line_digits id b b' d r : In id names -> Forall (eq 32) b -> Forall (fun c => In c [9; 32]) b' -> Forall a_digit d ->
  Forall (fun c => ~ a_digit c) r -> filter digit (define ++ b ++ id ++ b' ++ d ++ r) = d.
Proof.
  intros I B B' D R. rewrite !filter_app, (blank_no_digit b (space_blank b B)), (id_no_digit id I), (blank_no_digit b' B'),
    (filter_all d D), (filter_none r R). change (filter digit define) with (@nil Z). cbn. apply app_nil_r.
Qed.
Lemma spaces_grep b : Forall (eq 32) b -> forallb grep_blank b = true.
Proof. induction 1 as [|c b <- F IH]; [reflexivity|]. exact IH. Qed.
Lemma blanks_sed b : Forall (fun c => In c [9; 32]) b -> forallb sed_blank b = true.
Proof. induction 1 as [|c b [<-|[<-|[]]] F IH]; [reflexivity|exact IH|exact IH]. Qed.

Lemma not_concerns_grep id l : In id names -> ~ concerns id l -> grep_define id l = false.
Proof.
  intros I N. apply not_true_is_false. intros H. apply (grep_define_spec id l I) in H. destruct H as (b & r & B & ->).
  apply N. exists b, r. split; [|reflexivity]. clear - B. induction b as [|c b IH]; [constructor|].
  cbn in B. apply andb_true_iff in B. destruct B as [B1 B2]. constructor; [|apply IH; exact B2].
  unfold grep_blank in B1. cbn [In]. lia.
Qed.
Lemma not_concerns_sed id v l : In id names -> ~ concerns id l -> sed_define id v l = l.
Proof.
  intros I N. apply sed_define_no; [exact I|]. intros b r B ->. apply N. exists b, r. split; [|reflexivity].
  clear - B. induction b as [|c b IH]; [constructor|]. cbn in B. apply andb_true_iff in B. destruct B as [B1 B2].
  constructor; [|apply IH; exact B2]. unfold sed_blank in B1. cbn [In]. lia.
Qed.
Lemma find_middle {A} (P : A -> bool) pre l post : Forall (fun x => P x = false) pre -> P l = true -> find P (pre ++ l :: post) = Some l.
Proof. induction 1 as [|x pre H F IH]; cbn; intros E; [rewrite E; reflexivity|]. rewrite H. apply IH. exact E. Qed.
Lemma numeral_digits n d : numeral n d -> Forall a_digit d /\ d <> [] /\ 0 <= n.
Proof.
  intros [(N & F & V) _]. split; [exact F|]. split; [exact N|]. pose proof (digits_value_lower d F 0 ltac:(lia)). lia.
Qed.

Lemma shows_part f id n : In id names -> shows f id n -> version_part f id = Some (in_decimal n).
Proof.
  intros I (pre & l & post & d & -> & Nu & D & N). unfold version_part.
  destruct (numeral_digits _ _ Nu) as (Fd & Nd & _). 
  apply Forall_app in N. destruct N as [N1 N2].
  destruct D as (b & b' & r & Nb & B & Nb' & B' & R & ->).
  rewrite find_middle.
  - change (codes "#define") with define. rewrite line_digits by assumption. rewrite <- (numeral_unique n d Nu). destruct d; [congruence|reflexivity].
  - eapply Forall_impl; [|exact N1]. intros x X. apply not_concerns_grep; assumption.
  - apply (grep_define_spec id _ I). exists b, (b' ++ d ++ r). split; [apply spaces_grep; exact B|reflexivity].
Qed.

Lemma skip_digits d r : Forall a_digit d -> Forall (fun c => ~ a_digit c) r -> skip digit (d ++ r) = r.
Proof.
  intros D R. apply skip_app.
  - induction D as [|c d H D IH]; [reflexivity|]. cbn. apply digit_spec in H. rewrite H. exact IH.
  - destruct R as [|c r H R]; [exact Logic.I|]. cbn. apply not_true_is_false. intros E. apply digit_spec in E. contradiction.
Qed.
Lemma skip_blanks b d r : Forall (fun c => In c [9; 32]) b -> Forall a_digit d -> d <> [] -> skip sed_blank (b ++ d ++ r) = d ++ r.
Proof.
  intros B D N. apply skip_app; [apply blanks_sed; exact B|]. destruct D as [|c d H D]; [congruence|].
  cbn. unfold a_digit in H. unfold sed_blank. lia.
Qed.

(** Writing a part of a file that shows it. *)
Definition kept_part (id l l' : text) : Prop := l' = l \/ exists b b' d d' r,
  Forall a_digit d /\ Forall a_digit d' /\ Forall (fun c => In c [9; 32]) b' /\
  l = define ++ b ++ id ++ b' ++ d ++ r /\ l' = define ++ b ++ id ++ 32 :: d' ++ r.

Lemma concerns_line id b r : Forall (eq 32) b -> concerns id (define ++ b ++ id ++ r).
Proof. intros B. exists b, r. split; [|reflexivity]. eapply Forall_impl; [|exact B]. intros c <-. cbn. tauto. Qed.

Lemma write_shows f id n n' : In id names -> shows f id n -> 0 <= n' ->
  shows (map (sed_define id (in_decimal n')) f) id n' /\
  Forall2 (kept_part id) f (map (sed_define id (in_decimal n')) f) /\
  snd (commit_part f id (in_decimal n')) = true.
Proof.
  intros I (pre & l & post & d & -> & Nu & D & N) P.
  destruct (numeral_digits _ _ Nu) as (Fd & Nd & _).
  destruct (in_decimal_numeral n' P) as [Nu' C']. pose proof (conj Nu' C') as Nn.
  destruct (numeral_digits n' _ Nn) as (Fd' & Nd' & _).
  destruct D as (b & b' & r & Nb & B & Nb' & B' & R & ->). change (codes "#define") with define in *.
  assert (Keep : forall ls, Forall (fun x => ~ concerns id x) ls -> map (sed_define id (in_decimal n')) ls = ls).
  { induction 1 as [|x ls X F IH]; [reflexivity|]. cbn. rewrite IH, not_concerns_sed by assumption. reflexivity. }
  pose proof N as Nall. apply Forall_app in N. destruct N as [N1 N2].
  assert (E : sed_define id (in_decimal n') (define ++ b ++ id ++ b' ++ d ++ r) = define ++ b ++ id ++ [32] ++ in_decimal n' ++ r).
  { rewrite sed_define_yes by (try exact I; apply blanks_sed, space_blank; exact B).
    rewrite skip_blanks, skip_digits by assumption. reflexivity. }
  assert (Sh : shows (map (sed_define id (in_decimal n')) (pre ++ (define ++ b ++ id ++ b' ++ d ++ r) :: post)) id n').
  { rewrite map_app. cbn [map]. rewrite !Keep, E by assumption.
    exists pre, (define ++ b ++ id ++ [32] ++ in_decimal n' ++ r), post, (in_decimal n'). split; [reflexivity|]. split; [exact Nn|].
    split; [|exact Nall]. exists b, [32], r. split; [exact Nb|]. split; [exact B|]. split; [discriminate|].
    split; [repeat constructor; cbn; tauto|]. split; [exact R|reflexivity]. }
  split; [exact Sh|]. split.
  - rewrite map_app. cbn [map]. rewrite !Keep, E by assumption. apply Forall2_app.
    + clear. induction pre; constructor; [left; reflexivity|assumption].
    + constructor; [|clear; induction post; constructor; [left; reflexivity|assumption]].
      right. exists b, b', d, (in_decimal n'), r. auto 8.
  - unfold commit_part. cbv zeta. cbn [snd]. pose proof (shows_part _ id n' I Sh) as X. refine (eq_trans (f_equal (fun o => match o with Some v' => same v' (in_decimal n') | None => false end) X) _). apply same_refl.
Qed.

(** Lines of one part do not concern another. *)
Lemma concerns_sed id id' v l : In id names -> In id' names -> id <> id' -> concerns id' (sed_define id v l) <-> concerns id' l.
Proof.
  intros I I' N. destruct (sed_define_cases id v l I) as [->|(b & r & B & El & ->)]; [reflexivity|]. subst l.
  assert (F : forall q, ~ concerns id' (define ++ b ++ id ++ q)).
  { intros q (b' & r' & B' & E). change (codes "#define") with define in E. apply app_inv_head in E.
    pose (P := fun c => sed_blank c || grep_blank c).
    assert (X : forall i, In i names -> forall q, stops P (i ++ q)) by (intros i [<-|[<-|[<-|[]]]] ?; reflexivity).
    assert (Bp : forallb P b = true).
    { clear - B. induction b as [|c b IH]; [reflexivity|]. cbn in *. apply andb_true_iff in B. destruct B as [B1 B2].
      unfold P at 1. rewrite B1. apply IH. exact B2. }
    assert (Bp' : forallb P b' = true).
    { clear - B'. induction B' as [|c b' H F IH]; [reflexivity|]. cbn. rewrite IH, andb_true_r. unfold P, sed_blank, grep_blank.
      cbn in H. lia. }
    destruct (blank_split P P b b' (id ++ q) (id' ++ r') Bp Bp') as [_ E3];
      try (apply X; assumption); try (apply id_app_nonempty; assumption); try assumption.
    apply ids_apart in E3; try assumption. contradiction. }
  split; intros H; elim (F _ H).
Qed.
Lemma defines_sed id id' v d l : In id names -> In id' names -> id <> id' -> defines id' d l -> sed_define id v l = l.
Proof.
  intros I I' N (b' & b'' & r' & _ & B & _ & _ & _ & ->). apply sed_define_no; [exact I|]. intros b r Bb E.
  change (codes "#define") with define in E. apply app_inv_head in E.
  destruct (blank_split grep_blank sed_blank b' b (id' ++ b'' ++ d ++ r') (id ++ r)) as [_ E3];
    try apply id_stops; try apply id_app_nonempty; try assumption; [apply spaces_grep; exact B|].
  apply ids_apart in E3; try assumption. congruence.
Qed.
Lemma shows_other f id id' v n : In id names -> In id' names -> id <> id' -> shows f id' n -> shows (map (sed_define id v) f) id' n.
Proof.
  intros I I' N (pre & l & post & d & -> & Nu & D & C).
  exists (map (sed_define id v) pre), l, (map (sed_define id v) post), d. split.
  - rewrite map_app. cbn [map]. rewrite (defines_sed id id' v d l) by assumption. reflexivity.
  - split; [exact Nu|]. split; [exact D|]. rewrite <- map_app. apply Forall_map. eapply Forall_impl; [|exact C].
    intros x X. rewrite concerns_sed by assumption. exact X.
Qed.


(** * All lines are kept *)
Definition all_digits (l : text) : Prop := Forall a_digit l.
Lemma span_sed r : Forall (fun c => In c [9; 32]) (span sed_blank r).
Proof.
  apply Forall_forall. intros c H. pose proof (span_all sed_blank r) as A. rewrite forallb_forall in A. specialize (A c H).
  unfold sed_blank in A. cbn [In]. lia.
Qed.
Lemma span_digits r : Forall a_digit (span digit r).
Proof.
  apply Forall_forall. intros c H. pose proof (span_all digit r) as A. rewrite forallb_forall in A. apply digit_spec, A, H.
Qed.
Lemma sed_two id id' v v' l : In id names -> In id' names -> id <> id' ->
  sed_define id v l = l \/ sed_define id' v' (sed_define id v l) = sed_define id v l.
Proof.
  intros I I' N. destruct (sed_define_cases id v l I) as [H|(b & r & B & El & Es)]; [left; exact H|right]. rewrite Es.
  apply sed_define_no; [exact I'|]. intros b' r' B' E. apply app_inv_head in E.
  destruct (blank_split sed_blank sed_blank b b' (id ++ [32] ++ v ++ skip digit (skip sed_blank r)) (id' ++ r')) as [_ E3];
    try (apply id_stops; assumption); try (apply id_app_nonempty; assumption); try assumption.
  apply ids_apart in E3; try assumption. contradiction.
Qed.
Lemma kept_one id v l : In id names -> all_digits v -> kept l (sed_define id v l).
Proof.
  intros I V. destruct (sed_define_cases id v l I) as [H|(b & r & B & El & Es)]; [left; exact H|right]. rewrite Es, El.
  exists id, b, (span sed_blank r), (span digit (skip sed_blank r)), v, (skip digit (skip sed_blank r)).
  split; [exact I|]. split; [apply span_digits|]. split; [exact V|]. split; [apply span_sed|]. split; [|reflexivity].
  rewrite <- span_skip, <- span_skip. reflexivity.
Qed.
Lemma kept_refl l : kept l l.
Proof. left. reflexivity. Qed.
Lemma kept_map (g : text -> text) f : (forall l, kept l (g l)) -> Forall2 kept f (map g f).
Proof. intros H. induction f; constructor; [apply H|assumption]. Qed.
Lemma commit_kept f a b c f' ok : all_digits a -> all_digits b -> all_digits c ->
  commit f (a, b, c) = (f', ok) -> Forall2 kept f f'.
Proof.
  intros Da Db Dc. unfold commit, commit_part. cbv zeta.
  assert (Ip : In PATCH names) by in_names. assert (In_ : In MINOR names) by in_names. assert (Ij : In MAJOR names) by in_names.
  assert (K1 : forall l, kept l (sed_define PATCH c l)) by (intros; apply kept_one; assumption).
  assert (K2 : forall l, kept l (sed_define MINOR b (sed_define PATCH c l))).
  { intros l. destruct (sed_two PATCH MINOR c b l Ip In_ ltac:(discriminate)) as [->| ->]; [apply kept_one; assumption|apply K1]. }
  assert (K3 : forall l, kept l (sed_define MAJOR a (sed_define MINOR b (sed_define PATCH c l)))).
  { intros l. destruct (sed_two PATCH MINOR c b l Ip In_ ltac:(discriminate)) as [E|E].
    - rewrite E. destruct (sed_two MINOR MAJOR b a l In_ Ij ltac:(discriminate)) as [->| ->]; apply kept_one; assumption.
    - rewrite E. destruct (sed_two PATCH MAJOR c a l Ip Ij ltac:(discriminate)) as [->| ->]; apply kept_one; assumption. }
  destruct (match version_part (map (sed_define PATCH c) f) PATCH with Some v' => same v' c | None => false end).
  - match goal with |- context [if ?x then _ else _] => destruct x end; intros E; injection E as <- _; rewrite ?map_map; apply kept_map; assumption.
  - intros E. injection E as <- _. apply kept_map. exact K1.
Qed.

Lemma part_digits f id d : version_part f id = Some d -> all_digits d /\ d <> [].
Proof.
  unfold version_part. destruct (find (grep_define id) f) as [l|]; [|discriminate].
  intros E. assert (F : Forall a_digit (filter digit l)).
  { apply Forall_forall. intros c H. apply filter_In in H. apply digit_spec, H. }
  destruct (filter digit l); [discriminate|]. injection E as <-. split; [exact F|discriminate].
Qed.
Lemma get_digits f a b c : get_version f = Some (a, b, c) -> all_digits a /\ all_digits b /\ all_digits c.
Proof.
  unfold get_version. destruct (version_part f MAJOR) eqn:A, (version_part f MINOR) eqn:B, (version_part f PATCH) eqn:C; try discriminate.
  intros E. injection E as -> -> ->. split; [|split]; eapply part_digits; eassumption.
Qed.
Lemma in_base_nonneg base l : Forall a_digit l -> 0 <= base -> forall v n, 0 <= v -> in_base base v l = Some n -> 0 <= n.
Proof.
  intros F B. induction F as [|c l H F IH]; intros v n V E; [injection E as <-; exact V|]. cbn [in_base] in E. unfold a_digit in H.
  destruct (c - 48 <? base); [|discriminate]. apply IH in E; [exact E|nia].
Qed.
Lemma shell_nonneg l n : all_digits l -> shell_number l = Some n -> 0 <= n.
Proof.
  intros F E. unfold shell_number in E. destruct l as [|c l]; [injection E as <-; lia|].
  assert (Fl : Forall a_digit l) by (inversion F; assumption).
  assert (T : in_base 10 0 (c :: l) = Some n -> 0 <= n) by (intros X; exact (in_base_nonneg 10 _ F ltac:(lia) 0 n ltac:(lia) X)).
  assert (O : in_base 8 0 l = Some n -> 0 <= n) by (intros X; exact (in_base_nonneg 8 _ Fl ltac:(lia) 0 n ltac:(lia) X)).
  destruct c as [|c|c]; try exact (T E). do 6 (destruct c as [c|c|]; try exact (T E)). exact (O E).
Qed.
Lemma plus_one_new l k v : all_digits l -> plus_one l k = New v -> exists n, shell_number l = Some n /\ 0 <= n < 2 ^ 63 - 1 /\ v = k (in_decimal (n + 1)).
Proof.
  intros F. unfold plus_one. destruct (shell_number l) as [n|] eqn:E; [|discriminate].
  destruct (Z.ltb_spec n (2 ^ 63 - 1)); [|discriminate]. intros X. injection X as <-. exists n.
  pose proof (shell_nonneg l n F E). split; [reflexivity|]. split; [lia|reflexivity].
Qed.
Lemma decimal_digits n : 0 <= n -> all_digits (in_decimal n).
Proof. intros H. apply (in_decimal_field n H). Qed.

(** Which component is bumped. *)
Definition the_part (part : text) : option S_Version.part :=
  let p := match part with [] => codes "patch" | _ => part end in
  if same p (codes "major") then Some Major else if same p (codes "minor") then Some Minor
  else if same p (codes "patch") then Some Patch else None.
Lemma bump_new a b c part v : all_digits a -> all_digits b -> all_digits c -> new_version (a, b, c) part = New v ->
  exists p n, the_part part = Some p /\ 0 <= n < 2 ^ 63 - 1 /\
    match p with
    | Major => shell_number a = Some n /\ v = (in_decimal (n + 1), codes "0", codes "0")
    | Minor => shell_number b = Some n /\ v = (a, in_decimal (n + 1), codes "0")
    | Patch => shell_number c = Some n /\ v = (a, b, in_decimal (n + 1))
    end.
Proof.
  intros Da Db Dc. unfold new_version, the_part. cbv zeta.
  set (p := match part with [] => codes "patch" | _ => part end).
  replace (match part with [] => codes "patch" | z :: l => z :: l end) with p by (destruct part; reflexivity).
  destruct (same p (codes "major")); [|destruct (same p (codes "minor")); [|destruct (same p (codes "patch")); [|discriminate]]];
    intros E; eapply plus_one_new in E; try assumption; destruct E as (n & E1 & E2 & E3).
  - exists Major, n. auto.
  - exists Minor, n. auto.
  - exists Patch, n. auto.
Qed.
Lemma bump_digits a b c part x y z : all_digits a -> all_digits b -> all_digits c -> new_version (a, b, c) part = New (x, y, z) ->
  all_digits x /\ all_digits y /\ all_digits z.
Proof.
  intros Da Db Dc E. destruct (bump_new _ _ _ _ _ Da Db Dc E) as (p & n & _ & N & H).
  assert (D0 : all_digits (codes "0")) by exact (decimal_digits 0 ltac:(lia)).
  pose proof (decimal_digits (n + 1) ltac:(lia)) as Dn.
  destruct p; destruct H as [_ H]; injection H as -> -> ->; auto.
Qed.

(** The whole script keeps the lines. *)
Lemma bump_version_kept lf dry f v part e f' : get_version f = Some v -> bump_version lf dry f v part = (e, f') ->
  Forall2 kept f f' /\ (dry = true -> f' = f).
Proof.
  intros G. assert (R : Forall2 kept f f) by (clear; induction f; constructor; [apply kept_refl|assumption]).
  destruct v as [[a b] c]. destruct (get_digits _ _ _ _ G) as (Da & Db & Dc). unfold bump_version.
  destruct (new_version (a, b, c) part) as [[[x y] z]| | |] eqn:B; try (intros E; injection E as _ <-; auto).
  destruct (bump_digits _ _ _ _ _ _ _ Da Db Dc B) as (Dx & Dy & Dz).
  destruct dry; [intros E; injection E as _ <-; auto|].
  destruct (commit f (x, y, z)) as [f1 ok] eqn:C. pose proof (commit_kept _ _ _ _ _ _ Dx Dy Dz C) as K.
  destruct ok; intros E; injection E as _ <-; split; try exact K; discriminate.
Qed.
Lemma command_kept fl f g e f' : parse_command fl f g = (e, f') ->
  Forall2 kept f f' /\ (dry_run fl = true \/ (forall r, params fl <> codes "release" :: r) -> f' = f).
Proof.
  assert (R : Forall2 kept f f) by (clear; induction f; constructor; [apply kept_refl|assumption]).
  unfold parse_command. destruct (params fl) as [|act rest]; [intros E; injection E as _ <-; auto|].
  destruct (same act (codes "print")); [destruct (get_version f); intros E; injection E as _ <-; auto|].
  destruct (same act (codes "release")) eqn:A.
  - destruct (get_version f) as [v|] eqn:G; [|intros E; injection E as _ <-; auto]. intros E.
    destruct (bump_version_kept _ _ _ _ _ _ _ G E) as [K D]. split; [exact K|].
    intros [H|H]; [apply D; exact H|]. apply same_spec in A. subst act. elim (H rest eq_refl).
  - destruct (same act (codes "check")); [destruct (get_version f)|]; intros E; injection E as _ <-; auto.
Qed.
Lemma C94_lines_l args fs e fs' : version_sh args fs = (e, fs') ->
  f_changelog fs' = f_changelog fs /\
  (fs' = fs \/ exists f f', f_version fs = Some f /\ f_version fs' = Some f' /\ Forall2 kept f f').
Proof.
  unfold version_sh. destruct args as [|a0 args]; [intros E; injection E as _ <-; auto|].
  destruct (parse (Flags false false []) (a0 :: args)) as [fl|]; [|intros E; injection E as _ <-; auto].
  destruct fs as [[f|] [g|]]; cbn [f_version f_changelog]; try (intros E; injection E as _ <-; auto).
  destruct (parse_command fl f g) as [e1 f'] eqn:P. intros E. injection E as _ <-. split; [reflexivity|].
  right. exists f, f'. split; [reflexivity|]. split; [reflexivity|]. apply (command_kept _ _ _ _ _ P).
Qed.

(** * Arguments *)
Lemma words_sub l : forall cur w, In w (words_from cur l) -> exists x y, cur ++ l = x ++ w ++ y.
Proof.
  induction l as [|c l IH]; intros cur w H; cbn [words_from] in H.
  - destruct cur; [destruct H|]. destruct H as [<-|[]]. exists [], []. cbn. rewrite !app_nil_r. reflexivity.
  - destruct (separator c).
    + assert (T : In w (words_from [] l) -> exists x y, cur ++ c :: l = x ++ w ++ y).
      { intros J. apply IH in J. destruct J as (x & y & E). exists (cur ++ c :: x), y. cbn in E. rewrite E, <- app_assoc. reflexivity. }
      destruct cur as [|k cur]; [exact (T H)|]. destruct H as [<-|H]; [|exact (T H)]. exists [], (c :: l). reflexivity.
    + apply IH in H. destruct H as (x & y & E). exists x, y. rewrite <- E, <- app_assoc. reflexivity.
Qed.
Lemma parse_words args : forall fl fl', parse fl args = Some fl' ->
  forall w, In w (params fl') -> In w (params fl) \/ exists a x y, In a args /\ a = x ++ w ++ y.
Proof.
  induction args as [|a args IH]; intros fl fl' E w W; cbn [parse] in E; [injection E as <-; left; exact W|].
  assert (R : forall fl1, parse fl1 args = Some fl' -> (forall w, In w (params fl1) -> In w (params fl) \/ exists x y, a = x ++ w ++ y) ->
    In w (params fl) \/ exists a0 x y, In a0 (a :: args) /\ a0 = x ++ w ++ y).
  { intros fl1 E1 H. destruct (IH _ _ E1 w W) as [J|(a0 & x & y & J & K)].
    - destruct (H w J) as [L|(x & y & L)]; [left; exact L|]. right. exists a, x, y. split; [left; reflexivity|exact L].
    - right. exists a0, x, y. split; [right; exact J|exact K]. }
  destruct (same a (codes "-s") || same a (codes "--script")); [apply (R _ E); auto|].
  destruct (same a (codes "-d") || same a (codes "--dry-run")); [apply (R _ E); auto|].
  destruct (same a (codes "--")); [injection E as <-; left; exact W|].
  assert (Q : forall w, In w (params fl ++ split_words a) -> In w (params fl) \/ exists x y, a = x ++ w ++ y).
  { intros w0 J. apply in_app_iff in J. destruct J as [J|J]; [left; exact J|right]. apply (words_sub a []) in J. exact J. }
  destruct a as [|c a]; [apply (R _ E); exact Q|].
  assert (P : forall o, match c with 45 => @None flags | _ => o end = Some fl' -> o = Some fl').
  { intros o. destruct c as [|c|c]; try (intros X; exact X). do 6 (destruct c as [c|c|]; try (intros X; exact X)). discriminate. }
  apply P in E. apply (R _ E). exact Q.
Qed.
Lemma parse_dry args : forall fl fl', parse fl args = Some fl' -> ~ In (codes "--") args ->
  dry_run fl = true \/ In (codes "-d") args \/ In (codes "--dry-run") args -> dry_run fl' = true.
Proof.
  induction args as [|a args IH]; intros fl fl' E N H; cbn [parse] in E.
  - injection E as <-. destruct H as [H|[[]|[]]]. exact H.
  - assert (N' : ~ In (codes "--") args) by (intros X; apply N; right; exact X).
    destruct (same a (codes "-s") || same a (codes "--script")) eqn:A1.
    { apply (IH _ _ E N'). cbn [dry_run]. apply orb_true_iff in A1. rewrite !same_spec in A1.
      destruct H as [H|[[H|H]|[H|H]]]; auto; exfalso; destruct A1; subst; discriminate. }
    destruct (same a (codes "-d") || same a (codes "--dry-run")) eqn:A2; [apply (IH _ _ E N'); left; reflexivity|].
    apply orb_false_iff in A2. destruct A2 as [A2 A3].
    assert (G : dry_run fl = true \/ In (codes "-d") args \/ In (codes "--dry-run") args).
    { destruct H as [H|[[H|H]|[H|H]]]; auto; subst a; rewrite same_refl in *; discriminate. }
    destruct (same a (codes "--")) eqn:A4; [apply same_spec in A4; elim N; left; exact A4|].
    destruct a as [|c a]; [apply (IH _ _ E N' G)|].
    assert (P : forall o, match c with 45 => @None flags | _ => o end = Some fl' -> o = Some fl').
    { intros o. destruct c as [|c|c]; try (intros X; exact X). do 6 (destruct c as [c|c|]; try (intros X; exact X)). discriminate. }
    apply P in E. apply (IH _ _ E N' G).
Qed.
Lemma C94_untouched_l args fs e fs' : version_sh args fs = (e, fs') ->
  (~ In (codes "--") args /\ (In (codes "-d") args \/ In (codes "--dry-run") args)) \/
  (forall a x y, In a args -> a <> x ++ codes "release" ++ y) -> fs' = fs.
Proof.
  intros E H. unfold version_sh in E. destruct args as [|a0 args]; [injection E as _ <-; reflexivity|]. set (l := a0 :: args) in *.
  destruct (parse (Flags false false []) l) as [fl|] eqn:P; [|injection E as _ <-; reflexivity].
  destruct fs as [[f|] [g|]]; cbn [f_version f_changelog] in E; try (injection E as _ <-; reflexivity).
  destruct (parse_command fl f g) as [e1 f'] eqn:C. injection E as _ <-. do 2 f_equal.
  apply (command_kept _ _ _ _ _ C). destruct H as [[N D]|N].
  - left. exact (parse_dry _ _ _ P N (or_intror D)).
  - right. intros r R. destruct (parse_words _ _ _ P (codes "release")) as [[]|(a & x & y & I & J)]; [rewrite R; left; reflexivity|].
    exact (N a x y I J).
Qed.

(** Plain words. *)
Lemma words_plain_from a : Forall (fun c => ~ In c [9; 10; 32]) a -> forall cur, cur ++ a <> [] -> words_from cur a = [cur ++ a].
Proof.
  induction 1 as [|c a H F IH]; intros cur N; cbn [words_from].
  - rewrite app_nil_r in *. destruct cur; [congruence|reflexivity].
  - replace (separator c) with false by (unfold separator; cbn [In] in H; lia).
    rewrite IH; rewrite <- app_assoc; [reflexivity|]. cbn. destruct cur; discriminate.
Qed.
Lemma words_blanks b l : Forall (fun c => In c [9; 10; 32]) b -> words_from [] (b ++ l) = words_from [] l.
Proof.
  induction 1 as [|c b H F IH]; [reflexivity|]. cbn [app words_from].
  replace (separator c) with true by (unfold separator; cbn [In] in H; lia). exact IH.
Qed.
Lemma words_first a : Forall (fun c => ~ In c [9; 10; 32]) a -> forall cur b l, cur ++ a <> [] -> b <> [] ->
  Forall (fun c => In c [9; 10; 32]) b -> words_from cur (a ++ b ++ l) = (cur ++ a) :: words_from [] l.
Proof.
  induction 1 as [|c a H F IH]; intros cur b l N Nb B.
  - rewrite app_nil_r in *. destruct b as [|c b]; [congruence|]. inversion B as [|? ? B1 B2]; subst. cbn [app words_from].
    replace (separator c) with true by (unfold separator; cbn [In] in B1; lia).
    destruct cur; [congruence|]. rewrite words_blanks by exact B2. reflexivity.
  - cbn [app words_from]. replace (separator c) with false by (unfold separator; cbn [In] in H; lia).
    rewrite (IH (cur ++ [c]) b l); [rewrite <- app_assoc; reflexivity| |assumption|assumption].
    rewrite <- app_assoc. destruct cur; discriminate.
Qed.
Lemma words_joined ws a : joined ws a -> Forall plain ws -> split_words a = ws.
Proof.
  intros J. induction J as [w|w b ws a Nb B J IH]; intros P; apply Forall_cons_iff in P; destruct P as [(N & _ & F) P]; unfold split_words.
  - rewrite (words_plain_from _ F []) by exact N. reflexivity.
  - rewrite (words_first _ F [] b a) by assumption. cbn [app]. f_equal. apply IH. exact P.
Qed.
Lemma parse_plain ws : Forall plain ws -> forall fl, parse fl ws = Some (Flags (script_mode fl) (dry_run fl) (params fl ++ ws)).
Proof.
  induction 1 as [|a ws (N & H & F) P IH]; intros fl; cbn [parse].
  - rewrite app_nil_r. destruct fl; reflexivity.
  - assert (A : forall s, hd 0 (codes s) = 45 -> same a (codes s) = false).
    { intros s E. apply not_true_is_false. intros X. apply same_spec in X. subst a. contradiction. }
    rewrite !A by reflexivity. cbn [orb]. destruct a as [|c a]; [congruence|]. cbn [hd] in H.
    assert (M : forall o, match c with 45 => @None flags | _ => o end = o).
    { intros o. destruct c as [|c|c]; try reflexivity. do 6 (destruct c as [c|c|]; try reflexivity). congruence. }
    rewrite M, IH. cbn [script_mode dry_run params]. unfold split_words. rewrite (words_plain_from _ F []) by discriminate.
    rewrite <- app_assoc. reflexivity.
Qed.
Lemma parse_app ws rest : Forall plain ws -> forall fl, parse fl (ws ++ rest) = parse (Flags (script_mode fl) (dry_run fl) (params fl ++ ws)) rest.
Proof.
  induction 1 as [|a ws (N & H & F) P IH]; intros fl; cbn [parse app].
  - rewrite app_nil_r. destruct fl; reflexivity.
  - assert (A : forall s, hd 0 (codes s) = 45 -> same a (codes s) = false).
    { intros s E. apply not_true_is_false. intros X. apply same_spec in X. subst a. contradiction. }
    rewrite !A by reflexivity. cbn [orb]. destruct a as [|c a]; [congruence|]. cbn [hd] in H.
    assert (M : forall o, match c with 45 => @None flags | _ => o end = o).
    { intros o. destruct c as [|c|c]; try reflexivity. do 6 (destruct c as [c|c|]; try reflexivity). congruence. }
    rewrite M, IH. cbn [script_mode dry_run params]. unfold split_words. rewrite (words_plain_from _ F []) by discriminate.
    rewrite <- app_assoc. reflexivity.
Qed.
Lemma parse_joined ws a rest fl : Forall plain ws -> joined ws a -> parse fl (a :: rest) = parse fl (ws ++ rest).
Proof.
  intros P J. rewrite parse_app by exact P. cbn [parse]. rewrite (words_joined ws a J P).
  assert (H : a <> [] /\ hd 0 a <> 45).
  { destruct J as [w|w b ws a Nb B J]; apply Forall_cons_iff in P; destruct P as [(N & H & _) _]; [auto|].
    destruct w as [|c w]; [congruence|]. cbn in *. split; [discriminate|exact H]. }
  destruct H as [N H].
  assert (A : forall s, hd 0 (codes s) = 45 -> same a (codes s) = false).
  { intros s E. apply not_true_is_false. intros X. apply same_spec in X. subst a. contradiction. }
  rewrite !A by reflexivity. cbn [orb]. destruct a as [|c a]; [congruence|]. cbn [hd] in H.
  assert (M : forall o, match c with 45 => @None flags | _ => o end = o).
  { intros o. destruct c as [|c|c]; try reflexivity. do 6 (destruct c as [c|c|]; try reflexivity). congruence. }
  apply M.
Qed.
Lemma C94_words_l pre ws a post fs : Forall plain ws -> joined ws a ->
  version_sh (pre ++ a :: post) fs = version_sh (pre ++ ws ++ post) fs.
Proof.
  intros P J.
  assert (E : forall fl, parse fl (pre ++ a :: post) = parse fl (pre ++ ws ++ post)).
  { induction pre as [|x pre IH]; intros fl; [exact (parse_joined ws a post fl P J)|]. cbn [app parse].
    repeat match goal with |- context [if ?b then _ else _] => destruct b; [apply IH || reflexivity|] end.
    destruct x as [|c x]; [apply IH|]. rewrite IH. reflexivity. }
  assert (N : forall (x : text) l, pre ++ x :: l <> []) by (intros; destruct pre; discriminate).
  unfold version_sh. rewrite <- E.
  assert (W : exists x l, pre ++ ws ++ post = x :: l).
  { destruct pre as [|x pre]; [destruct J; cbn; eauto|cbn; eauto]. }
  destruct W as (x & l & ->). destruct (pre ++ a :: post) eqn:Q; [exfalso; exact (N _ _ Q)|reflexivity].
Qed.

Lemma run_command s d ws f g : ws <> [] -> Forall plain ws ->
  version_sh (command s d ws) (VFiles (Some f) (Some g)) =
  let (e, f') := parse_command (Flags s d ws) f g in (e, VFiles (Some f') (Some g)).
Proof.
  intros N P. assert (E : parse (Flags false false []) (command s d ws) = Some (Flags s d ws)).
  { unfold command. destruct s, d; cbn [app]; cbn [parse]; rewrite ?same_refl; cbn [orb];
      repeat (match goal with |- context [same ?a ?b] => let v := eval vm_compute in (same a b) in change (same a b) with v end; cbn [orb]);
      rewrite parse_plain by exact P; reflexivity. }
  unfold version_sh. destruct (command s d ws) as [|a l] eqn:C.
  - exfalso. unfold command in C. destruct s, d, ws; try discriminate C. congruence.
  - rewrite E. cbn [f_version f_changelog]. reflexivity.
Qed.

Lemma plain_print : plain (codes "print"). Proof. split; [discriminate|]. split; [discriminate|]. repeat constructor; cbn; lia. Qed.
Lemma plain_release : plain (codes "release"). Proof. split; [discriminate|]. split; [discriminate|]. repeat constructor; cbn; lia. Qed.
Lemma plain_check : plain (codes "check"). Proof. split; [discriminate|]. split; [discriminate|]. repeat constructor; cbn; lia. Qed.
Lemma plain_part p : plain (part_name p).
Proof. destruct p; (split; [discriminate|]; split; [discriminate|]; repeat constructor; cbn; lia). Qed.

Ltac plain_words := first [discriminate | repeat first [assumption | apply plain_print | apply plain_release | apply plain_check | apply plain_part | apply Forall_cons | apply Forall_nil]].

(** * Files that state a version *)
Lemma states_version f a b c : states f (a, b, c) -> get_version f = Some (in_decimal a, in_decimal b, in_decimal c) /\ 0 <= a /\ 0 <= b /\ 0 <= c.
Proof.
  intros (A & B & C). unfold get_version, MAJOR, MINOR, PATCH.
  rewrite (shows_part f (codes "VERSION_MAJOR") a ltac:(in_names) A), (shows_part f (codes "VERSION_MINOR") b ltac:(in_names) B),
    (shows_part f (codes "VERSION_PATCH") c ltac:(in_names) C).
  split; [reflexivity|].
  destruct A as (? & ? & ? & ? & _ & A & _), B as (? & ? & ? & ? & _ & B & _), C as (? & ? & ? & ? & _ & C & _).
  apply numeral_digits in A, B, C. intuition.
Qed.
Lemma dotted_written a b c : 0 <= a -> 0 <= b -> 0 <= c -> written (a, b, c) (dotted (in_decimal a, in_decimal b, in_decimal c)).
Proof.
  intros A B C. exists (in_decimal a), (in_decimal b), (in_decimal c).
  do 3 (split; [apply in_decimal_numeral; assumption|]). reflexivity.
Qed.
Lemma command_print s d f g v rest : get_version f = Some v ->
  parse_command (Flags s d (codes "print" :: rest)) f g = (print_version (line_end s) v (@hd text [] rest), f).
Proof. intros G. unfold parse_command. cbn [params script_mode]. rewrite same_refl, G. reflexivity. Qed.
Lemma C94_print_l s d f g v : states f v -> exists t, written v t /\
  version_sh (command s d [codes "print"]) (VFiles (Some f) (Some g)) = (Ends Zero (Text (t ++ line_end s)), VFiles (Some f) (Some g)).
Proof.
  destruct v as [[a b] c]. intros St. destruct (states_version f a b c St) as (G & A & B & C).
  exists (dotted (in_decimal a, in_decimal b, in_decimal c)). split; [apply dotted_written; assumption|].
  rewrite run_command by plain_words.
  rewrite (command_print s d f g _ [] G). reflexivity.
Qed.
Lemma C94_part_l s d f g v p : states f v -> exists t, numeral (part_of p v) t /\
  version_sh (command s d [codes "print"; part_name p]) (VFiles (Some f) (Some g)) = (Ends Zero (Text (t ++ line_end s)), VFiles (Some f) (Some g)).
Proof.
  destruct v as [[a b] c]. intros St. destruct (states_version f a b c St) as (G & A & B & C).
  exists (in_decimal (part_of p (a, b, c))). split; [apply in_decimal_numeral; destruct p; assumption|].
  rewrite run_command by plain_words.
  rewrite (command_print s d f g _ [part_name p] G). destruct p; reflexivity.
Qed.

Definition decs (v : Z * Z * Z) : version := let '(a, b, c) := v in (in_decimal a, in_decimal b, in_decimal c).
Lemma commit_states f v v' : states f v -> (let '(a, b, c) := v' in 0 <= a /\ 0 <= b /\ 0 <= c) ->
  exists f', commit f (decs v') = (f', true) /\ states f' v'.
Proof.
  destruct v as [[a b] c], v' as [[a' b'] c']. intros (A & B & C) (Pa & Pb & Pc). cbn [decs]. unfold commit.
  assert (Ip : In PATCH names) by in_names. assert (In_ : In MINOR names) by in_names. assert (Ij : In MAJOR names) by in_names.
  change (codes "VERSION_MAJOR") with MAJOR in A. change (codes "VERSION_MINOR") with MINOR in B. change (codes "VERSION_PATCH") with PATCH in C.
  destruct (write_shows f PATCH c c' Ip C Pc) as (C1 & _ & O1).
  destruct (commit_part f PATCH (in_decimal c')) as [f1 ok1] eqn:E1. cbn [snd] in O1. subst ok1.
  assert (F1 : f1 = map (sed_define PATCH (in_decimal c')) f) by (unfold commit_part in E1; cbv zeta in E1; injection E1 as <- _; reflexivity).
  rewrite <- F1 in C1.
  assert (B1 : shows f1 MINOR b) by (rewrite F1; apply shows_other; try assumption; discriminate).
  assert (A1 : shows f1 MAJOR a) by (rewrite F1; apply shows_other; try assumption; discriminate).
  destruct (write_shows f1 MINOR b b' In_ B1 Pb) as (B2 & _ & O2).
  destruct (commit_part f1 MINOR (in_decimal b')) as [f2 ok2] eqn:E2. cbn [snd] in O2. subst ok2.
  assert (F2 : f2 = map (sed_define MINOR (in_decimal b')) f1) by (unfold commit_part in E2; cbv zeta in E2; injection E2 as <- _; reflexivity).
  rewrite <- F2 in B2.
  assert (C2 : shows f2 PATCH c') by (rewrite F2; apply shows_other; try assumption; discriminate).
  assert (A2 : shows f2 MAJOR a) by (rewrite F2; apply shows_other; try assumption; discriminate).
  destruct (write_shows f2 MAJOR a a' Ij A2 Pa) as (A3 & _ & O3).
  destruct (commit_part f2 MAJOR (in_decimal a')) as [f3 ok3] eqn:E3. cbn [snd] in O3. subst ok3.
  assert (F3 : f3 = map (sed_define MAJOR (in_decimal a')) f2) by (unfold commit_part in E3; cbv zeta in E3; injection E3 as <- _; reflexivity).
  rewrite <- F3 in A3. exists f3. split; [reflexivity|].
  split; [exact A3|]. split; rewrite F3; apply shows_other; try assumption; discriminate.
Qed.
Lemma bump_states f v p part : states f v -> part_of p v < 2 ^ 63 - 1 -> the_part part = Some p ->
  new_version (decs v) part = New (decs (next p v)).
Proof.
  destruct v as [[a b] c]. intros St L T. destruct (states_version f a b c St) as (_ & A & B & C).
  cbn [decs]. unfold new_version. unfold the_part in T. 
  set (q := match part with [] => codes "patch" | _ => part end) in *. cbv zeta in *.
  replace (match part with [] => codes "patch" | z :: l => z :: l end) with q by (destruct part; reflexivity).
  assert (Pl : forall n k, 0 <= n -> n < 2 ^ 63 - 1 -> plus_one (in_decimal n) k = New (k (in_decimal (n + 1)))).
  { intros n k N1 N2. unfold plus_one. rewrite shell_numeral by exact N1. destruct (Z.ltb_spec n (2 ^ 63 - 1)); [reflexivity|lia]. }
  destruct (same q (codes "major")); [injection T as <-; apply Pl; [exact A|exact L]|].
  destruct (same q (codes "minor")); [injection T as <-; apply Pl; [exact B|exact L]|].
  destruct (same q (codes "patch")); [injection T as <-; apply Pl; [exact C|exact L]|discriminate].
Qed.
Lemma next_nonneg f v p : states f v -> let '(a, b, c) := next p v in 0 <= a /\ 0 <= b /\ 0 <= c.
Proof. destruct v as [[a b] c]. intros St. destruct (states_version f a b c St) as (_ & A & B & C). destruct p; cbn; lia. Qed.
Lemma next_later v p : earlier v (next p v).
Proof. destruct v as [[a b] c]. destruct p; cbn; lia. Qed.
Lemma the_part_name p : the_part (part_name p) = Some p. Proof. destruct p; reflexivity. Qed.
Lemma command_release s d f g v rest : get_version f = Some v ->
  parse_command (Flags s d (codes "release" :: rest)) f g = bump_version (line_end s) d f v (@hd text [] rest).
Proof. intros G. unfold parse_command. cbn [params script_mode dry_run]. rewrite same_refl, G. reflexivity. Qed.

Lemma release_l s d f g v rest p : Forall plain rest -> the_part (@hd text [] rest) = Some p ->
  states f v -> part_of p v < 2 ^ 63 - 1 ->
  exists t f', written (next p v) t /\
    version_sh (command s d (codes "release" :: rest)) (VFiles (Some f) (Some g)) =
      (Ends Zero (Text (t ++ line_end s)), VFiles (Some (if d then f else f')) (Some g)) /\
    states f' (next p v) /\ Forall2 kept f f'.
Proof.
  intros Pl T St L. destruct (states_version f (fst (fst v)) (snd (fst v)) (snd v)) as (G & _); [destruct v as [[a b] c]; exact St|].
  assert (Gv : get_version f = Some (decs v)) by (destruct v as [[a b] c]; exact G).
  pose proof (next_nonneg f v p St) as Nn. destruct (commit_states f v (next p v) St Nn) as (f' & C & St').
  pose proof (bump_states f v p _ St L T) as B.
  exists (dotted (decs (next p v))), f'.
  assert (W : written (next p v) (dotted (decs (next p v)))).
  { destruct (next p v) as [[x y] z]. destruct Nn as (X & Y & Z). apply dotted_written; assumption. }
  assert (Pr : forall w, print_version (line_end s) w [] = Ends Zero (Text (dotted w ++ line_end s))) by (intros [[? ?] ?]; reflexivity).
  split; [exact W|]. split; [|split; [exact St'|]].
  - rewrite run_command by plain_words.
    rewrite (command_release s d f g _ rest Gv). unfold bump_version. rewrite B.
    destruct d; [rewrite Pr; reflexivity|]. rewrite C, Pr. reflexivity.
  - destruct (next p v) as [[x y] z]. destruct Nn as (X & Y & Z). cbn [decs] in C.
    eapply commit_kept; [..|exact C]; apply decimal_digits; assumption.
Qed.
Lemma C94_release_l s f g v p : states f v -> part_of p v < 2 ^ 63 - 1 ->
  exists t f', written (next p v) t /\
    version_sh (command s false [codes "release"; part_name p]) (VFiles (Some f) (Some g)) =
      (Ends Zero (Text (t ++ line_end s)), VFiles (Some f') (Some g)) /\
    states f' (next p v) /\ earlier v (next p v) /\ Forall2 kept f f'.
Proof.
  intros St L. destruct (release_l s false f g v [part_name p] p) as (t & f' & W & E & S' & K); try assumption;
    [constructor; [apply plain_part|constructor]|apply the_part_name|].
  exists t, f'. split; [exact W|]. split; [exact E|]. split; [exact S'|]. split; [apply next_later|exact K].
Qed.
Lemma C94_default_l s d f g v : states f v -> part_of Patch v < 2 ^ 63 - 1 ->
  version_sh (command s d [codes "release"]) (VFiles (Some f) (Some g)) =
  version_sh (command s d [codes "release"; part_name Patch]) (VFiles (Some f) (Some g)).
Proof.
  intros St L. rewrite !run_command by plain_words.
  destruct (states_version f (fst (fst v)) (snd (fst v)) (snd v)) as (G & _); [destruct v as [[a b] c]; exact St|].
  rewrite !(command_release s d f g _ _ G). reflexivity.
Qed.
Lemma C94_dry_l s f g v p : states f v -> part_of p v < 2 ^ 63 - 1 -> exists t, written (next p v) t /\
  version_sh (command s true [codes "release"; part_name p]) (VFiles (Some f) (Some g)) =
    (Ends Zero (Text (t ++ line_end s)), VFiles (Some f) (Some g)).
Proof.
  intros St L. destruct (release_l s true f g v [part_name p] p) as (t & f' & W & E & S' & K); try assumption;
    [constructor; [apply plain_part|constructor]|apply the_part_name|].
  exists t. split; [exact W|exact E].
Qed.

(** * Any files *)
Lemma C94_consistent_l s d rest f g t fs' : Forall plain rest ->
  version_sh (command s false (codes "release" :: rest)) (VFiles (Some f) (Some g)) = (Ends Zero (Text t), fs') ->
  version_sh (command s d [codes "print"]) fs' = (Ends Zero (Text t), fs').
Proof.
  intros Pl E. rewrite run_command in E by plain_words.
  unfold parse_command in E. cbn [params script_mode dry_run] in E. rewrite same_refl in E.
  change (same (codes "release") (codes "print")) with false in E. cbn [params script_mode dry_run] in E.
  destruct (get_version f) as [v|]; [|discriminate]. unfold bump_version in E.
  destruct (new_version v _) as [v'| | |]; try discriminate.
  destruct (commit f v') as [f' ok] eqn:C. destruct ok; [|discriminate].
  assert (Pr : forall w, print_version (line_end s) w [] = Ends Zero (Text (dotted w ++ line_end s))) by (intros [[? ?] ?]; reflexivity).
  assert (E2 : (print_version (line_end s) v' [], VFiles (Some f') (Some g)) = (Ends Zero (Text t), fs')) by exact E.
  injection E2 as E2 <-. rewrite run_command by plain_words. rewrite (command_print s d f' g v' [] (commit_ok _ _ _ C)).
  cbn [hd]. rewrite E2. reflexivity.
Qed.

(** * The changelog *)
Lemma logged_find g t : logged g t -> log_version g = t.
Proof.
  intros (pre & l & post & -> & (r & ->) & N & ->). unfold log_version. rewrite find_middle; [reflexivity| |].
  - eapply Forall_impl; [|exact N]. intros x X. destruct (after (codes "sophiread (") x) as [q|] eqn:E; [|reflexivity].
    apply after_spec in E. elim X. exists q. exact E.
  - assert (E : after (codes "sophiread (") (codes "sophiread (" ++ r) = Some r) by (apply after_spec; reflexivity). rewrite E. reflexivity.
Qed.
Lemma not_logged_find g : Forall (fun l => ~ release_line l) g -> log_version g = [].
Proof.
  intros F. unfold log_version. destruct (find _ g) as [l|] eqn:E; [|reflexivity]. apply find_some in E. destruct E as [I E].
  rewrite Forall_forall in F. elim (F l I). destruct (after (codes "sophiread (") l) as [q|] eqn:A; [|discriminate].
  apply after_spec in A. exists q. exact A.
Qed.
Lemma log_cases g : (exists t, logged g t) \/ Forall (fun l => ~ release_line l) g.
Proof.
  induction g as [|l g IH]; [right; constructor|].
  destruct (after (codes "sophiread (") l) as [q|] eqn:A.
  - apply after_spec in A. left. eexists. exists [], l, g. split; [reflexivity|]. split; [exists q; exact A|]. split; [constructor|reflexivity].
  - assert (N : ~ release_line l) by (intros (r & E); apply after_none with (r := r) in A; contradiction).
    destruct IH as [(t & pre & m & post & -> & R & F & T)|F].
    + left. exists t, (l :: pre), m, post. split; [reflexivity|]. split; [exact R|]. split; [constructor; assumption|exact T].
    + right. constructor; assumption.
Qed.
Lemma written_dotted v t : written v t -> t = dotted (decs v).
Proof.
  destruct v as [[a b] c]. intros (x & y & z & X & Y & Z & ->). rewrite (numeral_unique _ _ X), (numeral_unique _ _ Y), (numeral_unique _ _ Z). reflexivity.
Qed.
Lemma command_check s d f g v : get_version f = Some v ->
  parse_command (Flags s d [codes "check"]) f g = (check_version (line_end s) v g, f).
Proof. intros G. unfold parse_command. cbn [params script_mode]. rewrite same_refl, G. reflexivity. Qed.
Lemma C94_check_l s d f g v : states f v ->
  (exists t, written v t /\ logged g t /\ version_sh (command s d [codes "check"]) (VFiles (Some f) (Some g)) =
     (Ends Zero (Text (codes "Changelog version (" ++ t ++ codes ") OK!" ++ line_end s)), VFiles (Some f) (Some g))) \/
  ((forall t, written v t -> ~ logged g t) /\
   version_sh (command s d [codes "check"]) (VFiles (Some f) (Some g)) = (Ends Nonzero Nothing, VFiles (Some f) (Some g))).
Proof.
  intros St. destruct (states_version f (fst (fst v)) (snd (fst v)) (snd v)) as (G & A & B & C); [destruct v as [[a b] c]; exact St|].
  assert (Gv : get_version f = Some (decs v)) by (destruct v as [[a b] c]; exact G).
  assert (W : written v (dotted (decs v))) by (destruct v as [[a b] c]; apply dotted_written; assumption).
  rewrite run_command by plain_words. rewrite (command_check s d f g _ Gv). unfold check_version.
  destruct (same (log_version g) (dotted (decs v))) eqn:E.
  - left. apply same_spec in E. exists (dotted (decs v)). split; [exact W|]. split; [|rewrite E; reflexivity].
    destruct (log_cases g) as [(t & L)|F].
    + rewrite <- E, (logged_find g t L). exact L.
    + exfalso. rewrite (not_logged_find g F) in E. destruct v as [[a b] c]. cbn in E. symmetry in E. apply app_eq_nil in E. destruct E as [_ E]. discriminate E.
  - right. split; [|reflexivity]. intros t Wt L. apply written_dotted in Wt. subst t. rewrite (logged_find g _ L), same_refl in E. discriminate.
Qed.
(** A usual line of a changelog. *)
Lemma written_filter v t : written v t -> filter (fun c => (48 <=? c) && (c <=? 57) || (c =? 46)) t = t.
Proof.
  intros W. assert (F : Forall (fun c => a_digit c \/ c = 46) t).
  { destruct v as [[a b] c]. destruct W as (x & y & z & X & Y & Z & ->). apply numeral_digits in X, Y, Z.
    assert (D : forall l, Forall a_digit l -> Forall (fun c => a_digit c \/ c = 46) l) by (intros l; apply Forall_impl; auto).
    apply Forall_app. split; [apply D, X|]. constructor; [right; reflexivity|]. apply Forall_app. split; [apply D, Y|].
    constructor; [right; reflexivity|]. apply D, Z. }
  clear W. induction F as [|c t H F IH]; [reflexivity|]. cbn [filter]. unfold a_digit in H.
  replace ((48 <=? c) && (c <=? 57) || (c =? 46)) with true by lia. congruence.
Qed.
Lemma C94_log_l v t r g : written v t -> Forall (fun c => ~ a_digit c /\ c <> 46) r ->
  logged ((codes "sophiread (" ++ t ++ r) :: g) t.
Proof.
  intros W R. exists [], (codes "sophiread (" ++ t ++ r), g. split; [reflexivity|]. split; [eexists; reflexivity|].
  split; [constructor|]. rewrite !filter_app, (written_filter v t W).
  replace (filter (fun c => (48 <=? c) && (c <=? 57) || (c =? 46)) r) with (@nil Z).
  - change (filter _ (codes "sophiread (")) with (@nil Z). rewrite app_nil_r. reflexivity.
  - symmetry. induction R as [|c r H F IH]; [reflexivity|]. cbn [filter]. unfold a_digit in H.
    replace ((48 <=? c) && (c <=? 57) || (c =? 46)) with false by lia. exact IH.
Qed.

(** Numbers read back in base 8 never give their own text plus one. *)
Lemma bumped_differs l n : all_digits l -> shell_number l = Some n -> in_decimal (n + 1) <> l.
Proof.
  intros F E C. pose proof (shell_nonneg l n F E) as P. rewrite <- C in E. rewrite shell_numeral in E by lia. injection E as E. lia.
Qed.
Lemma dotted_inj a b c x y z : all_digits a -> all_digits b -> all_digits x -> all_digits y ->
  dotted (a, b, c) = dotted (x, y, z) -> a = x /\ b = y /\ c = z.
Proof.
  assert (H : forall a x p q, all_digits a -> all_digits x -> a ++ 46 :: p = x ++ 46 :: q -> a = x /\ p = q).
  { intros a0 x0 p q A. revert x0. induction A as [|k a0 K A IH]; intros [|k' x0] X E; cbn in E.
    - injection E as E. auto.
    - injection E as E _. inversion X; subst. unfold a_digit in *. lia.
    - injection E as E _. subst. unfold a_digit in *. lia.
    - injection E as -> E. inversion X; subst. destruct (IH x0 ltac:(assumption) E) as [-> ->]. auto. }
  intros A B X Y E. cbn in E. apply H in E; try assumption. destruct E as [-> E]. apply H in E; try assumption. destruct E as [-> ->]. auto.
Qed.
Lemma C94_check_after_l s s' d d' rest f g t t' fs' : Forall plain rest ->
  version_sh (command s d [codes "check"]) (VFiles (Some f) (Some g)) = (Ends Zero t, VFiles (Some f) (Some g)) ->
  version_sh (command s' false (codes "release" :: rest)) (VFiles (Some f) (Some g)) = (Ends Zero t', fs') ->
  version_sh (command s d' [codes "check"]) fs' = (Ends Nonzero Nothing, fs').
Proof.
  intros Pl E1 E2. rewrite run_command in E1 by plain_words. rewrite run_command in E2 by plain_words.
  destruct (get_version f) as [v|] eqn:G.
  2:{ exfalso. unfold parse_command in E2. cbn [params] in E2. change (same (codes "release") (codes "print")) with false in E2.
      rewrite same_refl, G in E2. discriminate E2. }
  rewrite (command_check s d f g v G) in E1. rewrite (command_release s' false f g v rest G) in E2.
  unfold bump_version in E2. destruct (new_version v (@hd text [] rest)) as [v'| | |] eqn:B; try discriminate.
  destruct (commit f v') as [f' ok] eqn:C. destruct ok; [|discriminate].
  assert (fs' = VFiles (Some f') (Some g)) as -> by (injection E2 as _ <-; reflexivity).
  rewrite run_command by plain_words. rewrite (command_check s d' f' g v' (commit_ok _ _ _ C)).
  unfold check_version in E1 |- *. destruct (same (log_version g) (dotted v)) eqn:Sv; [|discriminate]. apply same_spec in Sv. rewrite Sv.
  destruct (same (dotted v) (dotted v')) eqn:Sw; [|reflexivity]. exfalso. apply same_spec in Sw.
  destruct v as [[a b] c], v' as [[x y] z]. destruct (get_digits _ _ _ _ G) as (Da & Db & Dc).
  destruct (bump_digits _ _ _ _ _ _ _ Da Db Dc B) as (Dx & Dy & Dz).
  apply dotted_inj in Sw; try assumption. destruct Sw as (<- & <- & <-).
  destruct (bump_new _ _ _ _ _ Da Db Dc B) as (p & n & _ & N & H).
  destruct p; destruct H as [H1 H2]; injection H2; intros; eapply bumped_differs; try exact H1; try assumption; congruence.
Qed.

(** * VERSION_NUMBER *)
Lemma lor_add a b k : 0 <= k -> 0 <= b < 2 ^ k -> Z.lor (Z.shiftl a k) b = a * 2 ^ k + b.
Proof.
  intros K B. rewrite Z.shiftl_mul_pow2 by exact K. symmetry. rewrite Z.add_nocarry_lxor.
  - apply Z.bits_inj'. intros i I. rewrite Z.lxor_spec, Z.lor_spec.
    destruct (Z.ltb_spec i k).
    + rewrite Z.mul_pow2_bits_low by lia. destruct (Z.testbit b i); reflexivity.
    + assert (Z.testbit b i = false) as -> by (destruct (Z.eq_dec b 0) as [->|]; [apply Z.bits_0|]; apply Z.bits_above_log2; [lia|]; apply Z.log2_lt_pow2; [lia|]; apply Z.lt_le_trans with (2 ^ k); [lia|apply Z.pow_le_mono_r; lia]).
      rewrite orb_false_r, xorb_false_r. reflexivity.
  - apply Z.bits_inj'. intros i I. rewrite Z.land_spec, Z.bits_0.
    destruct (Z.ltb_spec i k); [rewrite Z.mul_pow2_bits_low by lia; reflexivity|].
    apply andb_false_iff. right. destruct (Z.eq_dec b 0) as [->|]; [apply Z.bits_0|]; apply Z.bits_above_log2; [lia|]; apply Z.log2_lt_pow2; [lia|]; apply Z.lt_le_trans with (2 ^ k); [lia|apply Z.pow_le_mono_r; lia].
Qed.
Lemma C94_number_l v v' : (let '(a, b, c) := v in 0 <= a < 2 ^ 15 /\ 0 <= b < 256 /\ 0 <= c < 256) ->
  (let '(a, b, c) := v' in 0 <= a < 2 ^ 15 /\ 0 <= b < 256 /\ 0 <= c < 256) -> 
  exists n n', (let '(a, b, c) := v in version_number a b c) = Some n /\ (let '(a, b, c) := v' in version_number a b c) = Some n' /\
    (n < n' <-> earlier v v').
Proof.
  assert (F : forall a b c, 0 <= a < 2 ^ 15 -> 0 <= b < 256 -> 0 <= c < 256 -> version_number a b c = Some (a * 2 ^ 16 + b * 2 ^ 8 + c)).
  { intros a b c A B C. unfold version_number.
    replace ((0 <=? a) && (a <? 2 ^ 15) && (0 <=? b) && (b <? 2 ^ 23) && (0 <=? c) && (c <? 2 ^ 31)) with true by lia.
    f_equal. rewrite <- Z.lor_assoc. rewrite (lor_add b c 8) by lia. rewrite lor_add by lia. lia. }
  destruct v as [[a b] c], v' as [[a' b'] c']. intros (A & B & C) (A' & B' & C').
  exists (a * 2 ^ 16 + b * 2 ^ 8 + c), (a' * 2 ^ 16 + b' * 2 ^ 8 + c').
  rewrite !F by assumption. split; [reflexivity|]. split; [reflexivity|]. cbn [earlier]. lia.
Qed.

(** * What is refused *)
Lemma same_no a b : a <> b -> same a b = false.
Proof. intros N. destruct (same a b) eqn:E; [apply same_spec in E; contradiction|reflexivity]. Qed.
Lemma C94_action_l s d w rest f g : plain w -> Forall plain rest ->
  w <> codes "print" -> w <> codes "release" -> w <> codes "check" ->
  version_sh (command s d (w :: rest)) (VFiles (Some f) (Some g)) = (Ends Nonzero Nothing, VFiles (Some f) (Some g)).
Proof.
  intros Pw Pl A B C. rewrite run_command; [|discriminate|constructor; assumption].
  unfold parse_command. cbn [params]. rewrite !same_no by assumption. reflexivity.
Qed.
Lemma C94_part_refused_l s d w act rest f g : plain w -> Forall plain rest -> In act [codes "print"; codes "release"] ->
  (forall p, w <> part_name p) ->
  version_sh (command s d (act :: w :: rest)) (VFiles (Some f) (Some g)) = (Ends Nonzero Nothing, VFiles (Some f) (Some g)).
Proof.
  intros Pw Pl I N. assert (Pa : plain act) by (destruct I as [<-|[<-|[]]]; [exact plain_print|exact plain_release]).
  rewrite run_command; [|discriminate|constructor; [assumption|constructor; assumption]].
  pose proof (same_no _ _ (N Major)) as N1. pose proof (same_no _ _ (N Minor)) as N2. pose proof (same_no _ _ (N Patch)) as N3.
  cbn [part_name] in N1, N2, N3. unfold parse_command. cbn [params script_mode dry_run].
  destruct w as [|c w]; [destruct Pw; congruence|].
  destruct I as [<-|[<-|[]]].
  - rewrite same_refl. destruct (get_version f) as [[[a b] c']|]; [|reflexivity]. unfold print_version. rewrite N1, N2, N3. reflexivity.
  - change (same (codes "release") (codes "print")) with false. cbv iota. rewrite same_refl. destruct (get_version f) as [[[a b] c']|]; [|reflexivity].
    unfold bump_version, new_version. rewrite N1, N2, N3. reflexivity.
Qed.
Lemma C94_flag_l pre w post fs : Forall (fun a => a <> codes "--") pre -> hd 0 w = 45 ->
  ~ In w (map codes ["-s"; "--script"; "-d"; "--dry-run"; "--"]%string) ->
  version_sh (pre ++ w :: post) fs = (Ends Nonzero Nothing, fs).
Proof.
  intros F H N. assert (P : forall fl, parse fl (pre ++ w :: post) = None).
  { induction F as [|a pre A F IH]; intros fl.
    - cbn [app parse]. assert (M : forall x, In x (map codes ["-s"; "--script"; "-d"; "--dry-run"; "--"]%string) -> same w x = false).
      { intros x X. apply same_no. intros ->. contradiction. }
      rewrite !M by (cbn; tauto). cbn [orb]. destruct w as [|c w]; [discriminate|]. cbn [hd] in H. subst c. reflexivity.
    - cbn [app parse]. rewrite !IH. rewrite (same_no a (codes "--")) by exact A.
      repeat match goal with |- context [if ?b then _ else _] => destruct b end; try reflexivity.
      destruct a as [|c a]; [reflexivity|]. destruct (Z.eq_dec c 45) as [->|]; [reflexivity|].
      destruct c as [|q|q]; try reflexivity. do 6 (destruct q as [q|q|]; try reflexivity). }
  unfold version_sh. rewrite P. destruct (pre ++ w :: post) eqn:E; [destruct pre; discriminate|]. reflexivity.
Qed.
Lemma C94_files_l args fs : args <> [] -> f_version fs = None \/ f_changelog fs = None ->
  version_sh args fs = (Ends Nonzero Nothing, fs).
Proof.
  intros N H. unfold version_sh. destruct args; [congruence|]. destruct (parse _ _); [|reflexivity].
  destruct H as [H|H]; rewrite H; [|destruct (f_version fs)]; reflexivity.
Qed.

(** * The version file of the repository *)
Definition any_blank (c : Z) : bool := (c =? 9) || (c =? 32) || (c =? 92) || (c =? 116).
Definition no_concern (id l : text) : bool :=
  match after define l with
  | Some r => match after id (skip any_blank r) with Some _ => false | None => true end
  | None => true
  end.
Lemma no_concern_ok id l : In id names -> no_concern id l = true -> ~ concerns id l.
Proof.
  intros I H (b & r & B & ->). unfold no_concern in H.
  assert (E : after define (define ++ b ++ id ++ r) = Some (b ++ id ++ r)) by (apply after_spec; reflexivity).
  change (codes "#define") with define in H. rewrite E in H. rewrite skip_app in H.
  - assert (E' : after id (id ++ r) = Some r) by (apply after_spec; reflexivity). rewrite E' in H. discriminate.
  - apply forallb_forall. intros c C. rewrite Forall_forall in B. specialize (B c C). unfold any_blank. cbn in B. lia.
  - destruct I as [<-|[<-|[<-|[]]]]; reflexivity.
Qed.
Lemma shows_check f id n pre post : In id names -> 0 <= n -> f = pre ++ (define ++ 32 :: id ++ 32 :: in_decimal n) :: post ->
  forallb (no_concern id) (pre ++ post) = true -> shows f id n.
Proof.
  intros I N -> F. exists pre, (define ++ 32 :: id ++ 32 :: in_decimal n), post, (in_decimal n). split; [reflexivity|].
  split; [apply in_decimal_numeral; exact N|]. split.
  - exists [32], [32], []. split; [discriminate|]. split; [repeat constructor|]. split; [discriminate|]. split; [repeat constructor; cbn; tauto|].
    split; [constructor|]. rewrite app_nil_r. reflexivity.
  - apply Forall_forall. intros x X. rewrite forallb_forall in F. apply no_concern_ok; [exact I|]. apply F, X.
Qed.
Lemma version_h_states : states version_h (2, 3, 0).
Proof.
  split; [|split].
  - eapply (shows_check _ _ _ (firstn 13 version_h) (skipn 14 version_h)); [cbn; tauto|lia|vm_compute; reflexivity|vm_compute; reflexivity].
  - eapply (shows_check _ _ _ (firstn 14 version_h) (skipn 15 version_h)); [cbn; tauto|lia|vm_compute; reflexivity|vm_compute; reflexivity].
  - eapply (shows_check _ _ _ (firstn 15 version_h) (skipn 16 version_h)); [cbn; tauto|lia|vm_compute; reflexivity|vm_compute; reflexivity].
Qed.

(** * Refutations *)
Definition with_patch (l : text) : list text := firstn 15 version_h ++ l :: skipn 16 version_h.
Lemma C94_octal_l : exists f f' g,
  version_sh [codes "-s"; codes "print"] (VFiles (Some f) (Some g)) = (Ends Zero (Text (codes "2.3.010")), VFiles (Some f) (Some g)) /\
  version_sh [codes "-s"; codes "release"] (VFiles (Some f) (Some g)) = (Ends Zero (Text (codes "2.3.9")), VFiles (Some f') (Some g)).
Proof.
  exists (with_patch (codes "#define VERSION_PATCH 010")), (with_patch (codes "#define VERSION_PATCH 9")), [].
  split; vm_compute; reflexivity.
Qed.
Lemma C94_comment_l : exists f f' g,
  version_sh [codes "-s"; codes "print"] (VFiles (Some f) (Some g)) = (Ends Zero (Text (codes "2.3.52024")), VFiles (Some f) (Some g)) /\
  version_sh [codes "-s"; codes "release"; codes "minor"] (VFiles (Some f) (Some g)) = (Ends Nonzero Nothing, VFiles (Some f') (Some g)) /\
  f' <> f.
Proof.
  exists (with_patch (codes "#define VERSION_PATCH 5  // 2024")), (with_patch (codes "#define VERSION_PATCH 0  // 2024")), [].
  split; [vm_compute; reflexivity|]. split; [vm_compute; reflexivity|]. vm_compute. discriminate.
Qed.
Lemma C94_tab_l : exists f g,
  In (codes "#define" ++ 9 :: codes "VERSION_PATCH 0") f /\
  version_sh [codes "-s"; codes "print"] (VFiles (Some f) (Some g)) = (Ends Nonzero Nothing, VFiles (Some f) (Some g)).
Proof.
  exists (with_patch (codes "#define" ++ 9 :: codes "VERSION_PATCH 0")), []. split; [|vm_compute; reflexivity].
  unfold with_patch. apply in_or_app. right. left. reflexivity.
Qed.
Lemma C94_dashes_l : exists fs fs' e,
  version_sh [codes "--"; codes "print"] fs = (Ends Nonzero Usage, fs) /\
  version_sh [codes "release"; codes "--"; codes "--dry-run"] fs = (e, fs') /\ fs' <> fs.
Proof.
  exists (VFiles (Some version_h) (Some [])), (VFiles (Some (with_patch (codes "#define VERSION_PATCH 1"))) (Some [])), (Ends Zero (Text (codes "2.3.1" ++ [10]))).
  split; [vm_compute; reflexivity|]. split; [vm_compute; reflexivity|]. vm_compute. discriminate.
Qed.
Lemma C94_number_clash_l : exists n, version_number 2 256 0 = Some n /\ version_number 3 0 0 = Some n.
Proof. eexists. split; vm_compute; reflexivity. Qed.
