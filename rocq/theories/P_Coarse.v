(** Proofs for C107. *)
From Coq Require Import Reals Lra String Permutation Sorted Lia.
From Verif Require Import F64Facts P_Main P_Program P_CliRun P_Append P_Motion S_Coarse.
Local Open Scope Z_scope.
Local Open Scope list_scope.

Lemma sorted_nth {A} (R : A -> A -> Prop) l : StronglySorted R l -> forall i j a b, (i < j)%nat ->
  nth_error l i = Some a -> nth_error l j = Some b -> R a b.
Proof.
  induction 1 as [|x l S IH F]; intros i j a b L A1 B1; [destruct i; discriminate|].
  destruct j as [|j]; [lia|]. cbn in B1. destruct i as [|i].
  - cbn in A1. injection A1 as <-. rewrite Forall_forall in F. apply F. apply nth_error_In in B1. exact B1.
  - cbn in A1. apply (IH i j); [lia|assumption|assumption].
Qed.
Lemma edge_le edges i j a b : edges_ok edges -> (i <= j)%nat -> nth_error edges i = Some a -> nth_error edges j = Some b -> (B2R a <= B2R b)%R.
Proof.
  intros (_ & _ & S) L A B. destruct (Nat.eq_dec i j) as [->|N]; [rewrite A in B; injection B as <-; lra|].
  left. apply (sorted_nth _ _ S i j a b); [lia|assumption|assumption].
Qed.
Lemma thinned_nth pos edges edges' j p : thinned pos edges edges' -> nth_error pos j = Some p ->
  exists a, nth_error edges' j = Some a /\ nth_error edges p = Some a.
Proof.
  intros (M & _) N. assert (E : nth_error (map Some edges') j = Some (nth_error edges p)) by (rewrite M; apply map_nth_error; exact N).
  rewrite nth_error_map in E. destruct (nth_error edges' j) as [a|]; [|discriminate]. exists a. split; [reflexivity|]. cbn in E. congruence.
Qed.
Lemma thinned_length pos edges edges' : thinned pos edges edges' -> length pos = length edges'.
Proof. intros (M & _). apply (f_equal (@length _)) in M. rewrite !map_length in M. lia. Qed.
Lemma thinned_last pos edges edges' t : edges_ok edges -> thinned pos edges edges' -> (before_last edges' t <-> before_last edges t).
Proof.
  intros (L2 & _) T. pose proof (thinned_length _ _ _ T) as L. destruct (T) as (_ & _ & p & E).
  assert (N : nth_error pos (length edges' - 1) = Some (length edges - 1)%nat).
  { rewrite <- L, E, app_length. cbn [length]. rewrite nth_error_app2 by lia. replace (length p + 1 - 1 - length p)%nat with 0%nat by lia. reflexivity. }
  destruct (thinned_nth _ _ _ _ _ T N) as (a & A & B). unfold before_last.
  split; intros (z & Z & H); exists z; (split; [|exact H]); congruence.
Qed.

Lemma find_bin (edges : list f64) t : forall n p a b, nth_error edges p = Some a -> nth_error edges (p + n) = Some b -> (B2R a < t <= B2R b)%R ->
  exists i c e, (p <= i < p + n)%nat /\ nth_error edges i = Some c /\ nth_error edges (S i) = Some e /\ (B2R c < t <= B2R e)%R.
Proof.
  induction n as [|n IH]; intros p a b A B H.
  - rewrite Nat.add_0_r in B. rewrite A in B. injection B as <-. lra.
  - destruct (nth_error_zlen edges (S p)) as (c & C).
    { assert (p + S n < length edges)%nat by (apply nth_error_Some; congruence). lia. }
    destruct (Rle_or_lt t (B2R c)) as [L|G].
    + exists p, a, c. split; [lia|]. split; [exact A|]. split; [exact C|]. lra.
    + destruct (IH (S p) c b C) as (i & c' & e & I & Q); [replace (S p + n)%nat with (p + S n)%nat by lia; exact B|lra|].
      exists i, c', e. split; [lia|exact Q].
Qed.

Lemma coarse_bin pos edges edges' j p p' t : edges_ok edges -> thinned pos edges edges' ->
  nth_error pos j = Some p -> nth_error pos (S j) = Some p' ->
  (in_bin edges' t j <-> exists i, (p <= i < p')%nat /\ in_bin edges t i).
Proof.
  intros Eo T Pj Pj'. destruct (thinned_nth _ _ _ _ _ T Pj) as (a & A1 & A2). destruct (thinned_nth _ _ _ _ _ T Pj') as (b & B1 & B2).
  assert (L : (p < p')%nat) by (destruct T as (_ & So & _); exact (sorted_nth _ _ So j (S j) p p' ltac:(lia) Pj Pj')).
  split.
  - intros (a' & b' & A & B & H). assert (a' = a) by congruence. assert (b' = b) by congruence. subst.
    destruct (find_bin edges (B2R t) (p' - p) p a b A2) as (i & c & e & I & Q1 & Q2 & Q3); [replace (p + (p' - p))%nat with p' by lia; exact B2|exact H|].
    exists i. split; [lia|]. exists c, e. auto.
  - intros (i & I & c & e & C & E & H). exists a, b. split; [exact A1|]. split; [exact B1|].
    pose proof (edge_le edges p i a c Eo ltac:(lia) A2 C). pose proof (edge_le edges (S i) p' e b Eo ltac:(lia) E B2). lra.
Qed.

Lemma C107_lands_l sr pos edges edges' e j p p' x y : edges_ok edges -> thinned pos edges edges' ->
  nth_error pos j = Some p -> nth_error pos (S j) = Some p' ->
  (lands sr edges' e j x y <-> exists i, (p <= i < p')%nat /\ lands sr edges e i x y).
Proof.
  intros Eo T Pj Pj'. unfold lands. split.
  - intros ((tof & E & F & N & B & L) & R). apply (coarse_bin _ _ _ _ _ _ _ Eo T Pj Pj') in B. destruct B as (i & I & B).
    apply (thinned_last _ _ _ _ Eo T) in L. exists i. split; [exact I|]. split; [|exact R]. exists tof. auto.
  - intros (i & I & (tof & E & F & N & B & L) & R). split; [|exact R]. exists tof. split; [exact E|]. split; [exact F|]. split; [exact N|].
    split; [apply (coarse_bin _ _ _ _ _ _ _ Eo T Pj Pj'); eauto|apply (thinned_last _ _ _ _ Eo T); exact L].
Qed.

Lemma forall2_seq {B} (P : nat -> B -> Prop) : forall n p l, Forall2 P (seq p n) l -> forall i v, nth_error l i = Some v -> P (p + i)%nat v.
Proof.
  induction n as [|n IH]; intros p l F i v E; inversion F as [|? w ? l' H F']; subst; [destruct i; discriminate|].
  destruct i as [|i]; cbn in E; [injection E as <-; rewrite Nat.add_0_r; exact H|].
  replace (p + S i)%nat with (S p + i)%nat by lia. apply (IH (S p) l' F' i v E).
Qed.

Lemma coarse_sum sr pos edges edges' es j p p' (In' : Z -> Z -> Prop) ks : edges_ok edges -> thinned pos edges edges' ->
  nth_error pos j = Some p -> nth_error pos (S j) = Some p' ->
  Forall2 (fun i k => counted (fun e => exists x y, In' x y /\ lands sr edges e i x y) es k) (seq p (p' - p)) ks ->
  counted (fun e => exists x y, In' x y /\ lands sr edges' e j x y) es (zsum ks).
Proof.
  intros Eo T Pj Pj' F. assert (Len : length ks = (p' - p)%nat) by (rewrite <- (P_Motion.forall2_len _ _ _ F), seq_length; reflexivity).
  eapply counted_equiv; [|apply (sum_counted es ks (fun i e => exists x y, In' x y /\ lands sr edges e (p + i)%nat x y))].
  - intros e. split.
    + intros (i & I & x & y & X & L). exists x, y. split; [exact X|]. apply (C107_lands_l _ _ _ _ _ _ _ _ _ _ Eo T Pj Pj').
      exists (p + i)%nat. split; [lia|exact L].
    + intros (x & y & X & L). apply (C107_lands_l _ _ _ _ _ _ _ _ _ _ Eo T Pj Pj') in L. destruct L as (i & I & L).
      exists (i - p)%nat. split; [lia|]. exists x, y. split; [exact X|]. replace (p + (i - p))%nat with i by lia. exact L.
  - intros i i' e (x & y & _ & L) (x' & y' & _ & L'). destruct (P_Tof.lands_unique_l _ _ _ _ _ _ _ _ _ Eo L L') as [Q _]. lia.
  - exact (forall2_seq _ _ _ _ F).
Qed.

Lemma gather (P Q : nat -> Z -> Prop) (D : nat -> Z -> Prop) ps us : Forall2 P ps us ->
  (forall i u, In i ps -> P i u -> exists k, Q i k /\ D i ((u + k) mod 2 ^ 32)) ->
  exists ks vs, Forall2 Q ps ks /\ Forall2 D ps vs /\ zsum vs mod 2 ^ 32 = (zsum us + zsum ks) mod 2 ^ 32.
Proof.
  induction 1 as [|i u ps us H F IH]; intros A.
  - exists [], []. split; [constructor|]. split; [constructor|]. reflexivity.
  - destruct IH as (ks & vs & K & V & E); [intros j w I; apply A; right; exact I|].
    destruct (A i u (or_introl eq_refl) H) as (k & Q1 & D1).
    exists (k :: ks), ((u + k) mod 2 ^ 32 :: vs). split; [constructor; assumption|]. split; [constructor; assumption|].
    cbn [zsum fold_right]. fold (zsum ks) (zsum us) (zsum vs). rewrite Zplus_mod_idemp_l, <- Zplus_mod_idemp_r, E, Zplus_mod_idemp_r.
    f_equal. lia.
Qed.

Lemma C107_program_l ext o o' cfg cfg' ds s d d1 d' d1' pos :
  completed ext o cfg ds s d d1 -> completed ext o' cfg' ds s d' d1' ->
  timing_of o' = timing_of o -> (o_mode o' = "hit" <-> o_mode o = "hit")%string ->
  g_abs cfg' = g_abs cfg -> g_sr cfg' = g_sr cfg -> thinned pos (g_edges cfg) (g_edges cfg') ->
  (o_tiff o <> ""%string -> o_tiff o' <> ""%string ->
   forall j p p' x y us u', nth_error pos j = Some p -> nth_error pos (S j) = Some p' -> 0 <= x < s -> 0 <= y < s ->
     Forall2 (fun i u => prior (d_files d) (tiff_name (o_tiff o) (o_base o) i) s s x y u) (seq p (p' - p)) us ->
     prior (d_files d') (tiff_name (o_tiff o') (o_base o') j) s s x y u' -> u' mod 2 ^ 32 = zsum us mod 2 ^ 32 ->
     exists vs, Forall2 (fun i v => disk (d_files d1) (tiff_name (o_tiff o) (o_base o) i) x y = Some v) (seq p (p' - p)) vs /\
       disk (d_files d1') (tiff_name (o_tiff o') (o_base o') j) x y = Some (zsum vs mod 2 ^ 32)) /\
  (forall hss nss s', processed (timing_of o) ts0 ds hss s' -> Forall2 (neutrons_of ext (g_abs cfg)) hss nss ->
    zlen (binned o hss nss) < 2 ^ 32 -> o_spectra o <> ""%string -> o_spectra o' <> ""%string ->
    exists rows rows', d_files d1 (o_spectra o ++ ".txt")%string = Some (Spectrum rows) /\
      d_files d1' (o_spectra o' ++ ".txt")%string = Some (Spectrum rows') /\
      spectrum_of (g_sr cfg) (g_edges cfg) s (binned o hss nss) rows /\
      forall j p p' t' c', nth_error pos j = Some p -> nth_error pos (S j) = Some p' -> nth_error rows' j = Some (t', c') ->
        c' = zsum (map snd (firstn (p' - p) (skipn p rows))) /\
        exists c, nth_error rows (p' - 1) = Some (t', c)).
Proof.
  intros (fu & w & ord & args & A1 & A2 & A3 & A4 & A5 & A6 & A7 & A8 & A9 & A10 & A11 & A12 & A13 & A14 & A15 & A16)
    (fu' & w' & ord' & args' & B1 & B2 & B3 & B4 & B5 & B6 & B7 & B8 & B9 & B10 & B11 & B12 & B13 & B14 & B15 & B16) T Mo Ga Gs Th.
  destruct (C81_program_l fu ext w ord args d d1 o cfg ds s) as (h1 & n1 & s1 & P & N & _ & _ & _ & Ti & Sp & _); try assumption.
  destruct (C81_program_l fu' ext w' ord' args' d' d1' o' cfg' ds s) as (h2 & n2 & s2 & P' & N' & _ & _ & _ & Ti' & Sp' & _); try assumption.
  rewrite T in P'. destruct (processed_unique _ _ _ _ _ _ _ P P') as [<- _].
  rewrite Ga in N'. assert (En : concat n2 = concat n1) by (rewrite (neutrons_app ext (g_abs cfg) h1 _ N n2 N'); reflexivity).
  assert (Eb : binned o' h1 n2 = binned o h1 n1).
  { unfold binned. rewrite En. destruct (String.eqb_spec (o_mode o) "hit"), (String.eqb_spec (o_mode o') "hit"); tauto || reflexivity. }
  rewrite Eb in *. clear Eb En N' P'. set (es := binned o h1 n1) in *. rewrite Gs in *.
  pose proof (thinned_length _ _ _ Th) as Lp.
  assert (Wi : forall j p p', nth_error pos j = Some p -> nth_error pos (S j) = Some p' ->
    (p < p')%nat /\ (p' < length (g_edges cfg))%nat /\ (j < length (g_edges cfg') - 1)%nat).
  { intros j p p' Pj Pj'. destruct (thinned_nth _ _ _ _ _ Th Pj') as (b & Q1 & Q2).
    destruct Th as (_ & So & _). split; [exact (sorted_nth _ _ So j (S j) p p' ltac:(lia) Pj Pj')|].
    assert (p' < length (g_edges cfg))%nat by (apply nth_error_Some; congruence).
    assert (S j < length (g_edges cfg'))%nat by (apply nth_error_Some; congruence). lia. }
  split.
  - intros O1 O2 j p p' x y us u' Pj Pj' Hx Hy Pu Pu' Eu. destruct (Wi j p p' Pj Pj') as (W1 & W2 & W3).
    destruct (gather _ (fun i k => counted (fun e => lands (g_sr cfg) (g_edges cfg) e i x y) es k)
      (fun i v => disk (d_files d1) (tiff_name (o_tiff o) (o_base o) i) x y = Some v) _ _ Pu) as (ks & vs & K & V & E).
    { intros i u I Q. apply in_seq in I. apply (Ti O1 i x y u); [lia|assumption|assumption|exact Q]. }
    exists vs. split; [exact V|]. destruct (Ti' O2 j x y u' W3 Hx Hy Pu') as (k & C & D). rewrite D. f_equal.
    assert (C' : counted (fun e => exists x0 y0, (x0 = x /\ y0 = y) /\ lands (g_sr cfg) (g_edges cfg') e j x0 y0) es (zsum ks)).
    { apply (coarse_sum (g_sr cfg) pos (g_edges cfg) (g_edges cfg') es j p p' (fun x0 y0 => x0 = x /\ y0 = y) ks A11 Th Pj Pj').
      clear - K. induction K as [|i k l ks H K IH]; constructor; [|exact IH]. eapply counted_equiv; [|exact H].
      intros e. split; [intros L; exists x, y; auto|intros (x0 & y0 & [-> ->] & L); exact L]. }
    assert (Ck : k = zsum ks).
    { eapply P_Tof.counted_unique; [exact C|]. eapply counted_equiv; [|exact C'].
      intros e. split; [intros (x0 & y0 & [-> ->] & L); exact L|intros L; exists x, y; auto]. }
    rewrite Ck, E, <- Zplus_mod_idemp_l, Eu, Zplus_mod_idemp_l. reflexivity.
  - intros h3 n3 s3 P3 N3. destruct (processed_unique _ _ _ _ _ _ _ P P3) as [<- _].
    assert (E3 : binned o h1 n3 = es).
    { unfold es, binned. rewrite (neutrons_app ext (g_abs cfg) h1 _ N n3 N3). reflexivity. }
    rewrite E3. clear E3 P3 N3. intros Le O1 O2. destruct (Sp Le) as [_ S1]. destruct (Sp' Le) as [_ S2].
    destruct (S1 O1) as (rows & R1 & R2). destruct (S2 O2) as (rows' & R1' & R2'). exists rows, rows'.
    split; [exact R1|]. split; [exact R1'|]. split; [exact R2|]. intros j p p' t' c' Pj Pj' E. destruct (Wi j p p' Pj Pj') as (W1 & W2 & W3).
    destruct R2 as [L2 R2]. destruct R2' as [L2' R2']. destruct (R2' j t' c' E) as [Et Ec]. split.
    + eapply P_Tof.counted_unique; [exact Ec|].
      assert (C' : counted (fun e => exists x y, (0 <= x < s /\ 0 <= y < s) /\ lands (g_sr cfg) (g_edges cfg') e j x y) es
        (zsum (map snd (firstn (p' - p) (skipn p rows))))).
      { apply (coarse_sum (g_sr cfg) pos (g_edges cfg) (g_edges cfg') es j p p' (fun x y => 0 <= x < s /\ 0 <= y < s) _ A11 Th Pj Pj').
        assert (G : forall n q, (q + n <= length rows)%nat ->
          Forall2 (fun i k => counted (fun e => exists x y, (0 <= x < s /\ 0 <= y < s) /\ lands (g_sr cfg) (g_edges cfg) e i x y) es k)
            (seq q n) (map snd (firstn n (skipn q rows)))).
        { induction n as [|n IH]; intros q Lq; [constructor|]. destruct (nth_error_zlen rows q ltac:(lia)) as ([t c] & Nq).
          assert (Es : skipn q rows = (t, c) :: skipn (S q) rows).
          { clear - Nq. revert q Nq. induction rows as [|r rows IH]; intros [|q] Nq; try discriminate.
            - cbn in Nq. injection Nq as ->. reflexivity.
            - cbn in Nq. apply (IH q Nq). }
          rewrite Es. cbn [firstn map seq snd]. constructor; [|apply IH; lia].
          destruct (R2 q t c Nq) as [_ Q]. eapply counted_equiv; [|exact Q].
          intros e. split; [intros (x & y & X & Y & L); exists x, y; auto|intros (x & y & [X Y] & L); exists x, y; auto]. }
        apply G. lia. }
      eapply counted_equiv; [|exact C'].
      intros e. split; [intros (x & y & [X Y] & L); exists x, y; auto|intros (x & y & X & Y & L); exists x, y; auto].
    + destruct (thinned_nth _ _ _ _ _ Th Pj') as (b & Q1 & Q2). rewrite Et in Q1. injection Q1 as <-.
      destruct (nth_error_zlen rows (p' - 1) ltac:(lia)) as ([t c] & Nq). exists c. rewrite Nq. destruct (R2 _ _ _ Nq) as [Q _].
      replace (S (p' - 1)) with p' in Q by lia. congruence.
Qed.
