(** Proofs for C109: super resolution and images of hits. *)
From Coq Require Import Reals String Permutation.
From Flocq Require Import Core.
From Verif Require Import F64Facts P_Tof P_Main P_Program P_CliRun P_Images P_Benched.
From Verif Require Export S_Motion.
From Coq Require Import Lia.
Local Open Scope Z_scope.
Local Open Scope list_scope.

Lemma side_int k : 1 <= k -> 517 * k < 2 ^ 31 -> side (f_of_Z k) (517 * k).
Proof.
  intros A B. destruct (is_int_mul (f_of_Z 517) (f_of_Z k) 517 k (is_int_of_Z 517 ltac:(lia)) (is_int_of_Z k ltac:(lia)) ltac:(lia)) as [F E].
  split; [exact F|]. rewrite E, Ztrunc_IZR. split; [reflexivity|lia].
Qed.

Lemma C109_lands_l k edges h i X Y : 1 <= k -> 517 * k < 2 ^ 31 -> 0 <= h_x h < 517 -> 0 <= h_y h < 517 ->
  (lands (f_of_Z k) edges (entry_of_hit h) i X Y <->
   exists x y, X = k * x /\ Y = k * y /\ lands (f_of_Z 1) edges (entry_of_hit h) i x y).
Proof.
  intros Hk Bk Hx Hy.
  assert (N : lands (f_of_Z k) edges (entry_of_hit h) i X Y <->
    X = h_x h * k /\ Y = h_y h * k /\ exists tof, tof_ns h = Some tof /\ is_finite tof = true /\ (0 <= B2R tof)%R /\
     in_bin edges (fdiv tof (f_of_Z 1000000000)) i /\ before_last edges (fdiv tof (f_of_Z 1000000000))).
  { unfold lands, entry_of_hit. cbn [en_x en_y en_tof].
    pose proof (is_int_of_Z (h_x h) ltac:(lia)) as Ix. pose proof (is_int_of_Z (h_y h) ltac:(lia)) as Iy.
    pose proof (is_int_of_Z k ltac:(lia)) as Ik.
    pose proof (nearest_int _ _ X (is_int_mul _ _ _ _ Ix Ik ltac:(nia))) as Nx.
    pose proof (nearest_int _ _ Y (is_int_mul _ _ _ _ Iy Ik ltac:(nia))) as Ny.
    rewrite Nx, Ny. destruct Ix as [Fx _]. destruct Iy as [Fy _]. tauto. }
  rewrite N. split.
  - intros (-> & -> & T). exists (h_x h), (h_y h). split; [lia|]. split; [lia|]. apply hit_lands_l; [lia|lia|auto].
  - intros (x & y & -> & -> & L). apply hit_lands_l in L; [|lia|lia]. destruct L as (-> & -> & T). split; [lia|]. split; [lia|exact T].
Qed.

(** Every hit is on the sensor. *)
Lemma processed_places md ds : Forall dataset_ok ds -> forall s hss s', processed md s ds hss s' ->
  Forall (fun h => 0 <= h_x h < 517 /\ 0 <= h_y h < 517) (concat hss).
Proof.
  induction ds as [|d ds IH]; intros H s hss s' P; inversion P as [|? ? ? c1 h1 hs1 ? A1 B1 D1]; subst; [constructor|].
  inversion H as [|? ? Hd Hds]; subst. cbn [concat]. apply Forall_app. split; [|eapply IH; eassumption].
  destruct Hd as (_ & _ & _ & Hp & Hl). destruct (yields_facts _ _ _ _ _ B1 Hp) as [_ Y].
  eapply Forall_impl; [|exact Y]. cbn beta. intros h (X1 & X2 & _). lia.
Qed.

Lemma counted_in {A} (P Q : A -> Prop) l c : Forall (fun a => P a <-> Q a) l -> counted P l c -> counted Q l c.
Proof. intros F. apply counted_ext. rewrite Forall_forall in F. exact F. Qed.

Lemma C109_program_l ext o o' cfg cfg' ds k d d1 d' d1' :
  completed ext o cfg ds 517 d d1 -> completed ext o' cfg' ds (517 * k) d' d1' -> 1 <= k ->
  timing_of o' = timing_of o -> o_mode o = "hit"%string -> o_mode o' = "hit"%string ->
  g_sr cfg = f_of_Z 1 -> g_sr cfg' = f_of_Z k -> g_edges cfg' = g_edges cfg ->
  (o_tiff o <> ""%string -> o_tiff o' <> ""%string -> forall i x y u u', (i < length (g_edges cfg) - 1)%nat -> 0 <= x < 517 -> 0 <= y < 517 ->
     prior (d_files d) (tiff_name (o_tiff o) (o_base o) i) 517 517 x y u ->
     prior (d_files d') (tiff_name (o_tiff o') (o_base o') i) (517 * k) (517 * k) (k * x) (k * y) u' ->
     exists c, disk (d_files d1) (tiff_name (o_tiff o) (o_base o) i) x y = Some ((u + c) mod 2 ^ 32) /\
       disk (d_files d1') (tiff_name (o_tiff o') (o_base o') i) (k * x) (k * y) = Some ((u' + c) mod 2 ^ 32)) /\
  (o_tiff o' <> ""%string -> forall i x y u', (i < length (g_edges cfg) - 1)%nat -> 0 <= x < 517 * k -> 0 <= y < 517 * k ->
     ~ (k | x) \/ ~ (k | y) ->
     prior (d_files d') (tiff_name (o_tiff o') (o_base o') i) (517 * k) (517 * k) x y u' ->
     disk (d_files d1') (tiff_name (o_tiff o') (o_base o') i) x y = Some (u' mod 2 ^ 32)) /\
  (forall hss s', processed (timing_of o) ts0 ds hss s' -> zlen (concat hss) < 2 ^ 32 ->
     o_spectra o <> ""%string -> o_spectra o' <> ""%string ->
     exists rows, d_files d1 (o_spectra o ++ ".txt")%string = Some (Spectrum rows) /\
       d_files d1' (o_spectra o' ++ ".txt")%string = Some (Spectrum rows)).
Proof.
  intros (fu & w & ord & args & A1 & A2 & A3 & A4 & A5 & A6 & A7 & A8 & A9 & A10 & A11 & A12 & A13 & A14 & A15 & A16)
    (fu' & w' & ord' & args' & B1 & B2 & B3 & B4 & B5 & B6 & B7 & B8 & B9 & B10 & B11 & B12 & B13 & B14 & B15 & B16) Hk T Mo Mo' Gs Gs' Ge.
  destruct (C81_program_l fu ext w ord args d d1 o cfg ds 517) as (h1 & n1 & s1 & P & _ & _ & _ & _ & Ti & Sp & _); try assumption.
  destruct (C81_program_l fu' ext w' ord' args' d' d1' o' cfg' ds (517 * k)) as (h2 & n2 & s2 & P' & _ & _ & _ & _ & Ti' & Sp' & _); try assumption.
  rewrite T in P'. destruct (processed_unique _ _ _ _ _ _ _ P P') as [<- _].
  assert (Bk : 517 * k < 2 ^ 31) by (destruct B12 as (_ & _ & B); lia).
  assert (Eb : binned o h1 n1 = map entry_of_hit (concat h1)) by (unfold binned; rewrite Mo; reflexivity).
  assert (Eb' : binned o' h1 n2 = map entry_of_hit (concat h1)) by (unfold binned; rewrite Mo'; reflexivity).
  rewrite Eb, Gs in *. rewrite Eb', Ge, Gs' in *. clear Eb Eb'. pose proof (processed_places _ _ A6 _ _ _ P) as Pl.
  split; [|split].
  - intros O1 O2 i x y u u' Hi Hx Hy Pu Pu'. destruct (Ti O1 i x y u Hi Hx Hy Pu) as (c & C & D).
    destruct (Ti' O2 i (k * x) (k * y) u' Hi ltac:(nia) ltac:(nia) Pu') as (c' & C' & D').
    exists c. split; [exact D|]. rewrite D'. do 3 f_equal. eapply counted_unique; [exact C'|].
    eapply counted_in; [|exact C]. apply Forall_map. eapply Forall_impl; [|exact Pl]. cbn beta. intros h [Hhx Hhy].
    rewrite (C109_lands_l k _ _ _ _ _ Hk Bk Hhx Hhy). split; [intros L; exists x, y; auto|].
    intros (x0 & y0 & Ex & Ey & L). replace x with x0 by nia. replace y with y0 by nia. exact L.
  - intros O2 i x y u' Hi Hx Hy Nd Pu'. destruct (Ti' O2 i x y u' Hi Hx Hy Pu') as (c & C & D). rewrite D. do 2 f_equal.
    assert (E : c = 0); [|lia]. eapply P_Benched.counted_none; [exact C|]. apply Forall_map.
    eapply Forall_impl; [|exact Pl]. cbn beta. intros h [Hhx Hhy].
    rewrite (C109_lands_l k _ _ _ _ _ Hk Bk Hhx Hhy). intros (x0 & y0 & Ex & Ey & _).
    destruct Nd as [N|N]; apply N; [exists x0|exists y0]; lia.
  - intros h3 s3 P3 Lz O1 O2. destruct (processed_unique _ _ _ _ _ _ _ P P3) as [<- _].
    assert (Le : zlen (map entry_of_hit (concat h1)) < 2 ^ 32) by (unfold zlen in *; rewrite map_length; exact Lz).
    destruct (proj2 (Sp Le) O1) as (rows & R1 & L2 & R2). destruct (proj2 (Sp' Le) O2) as (rows' & R1' & L2' & R2').
    exists rows. split; [exact R1|]. rewrite R1'. do 2 f_equal.
    assert (X : forall n, nth_error rows' n = nth_error rows n).
    { intros n. destruct (nth_error rows n) as [[t c]|] eqn:E.
      - assert (Ln : (n < length rows')%nat) by (rewrite L2', <- L2; apply nth_error_Some; congruence).
        destruct (nth_error rows' n) as [[t' c']|] eqn:E'; [|apply nth_error_None in E'; lia].
        destruct (R2 n t c E) as [Et Ec]. destruct (R2' n t' c' E') as [Et' Ec']. rewrite Et in Et'. injection Et' as <-.
        do 2 f_equal. eapply counted_unique; [exact Ec'|]. eapply counted_in; [|exact Ec]. apply Forall_map.
        eapply Forall_impl; [|exact Pl]. cbn beta. intros h [Hhx Hhy]. split.
        + intros (x & y & Hx & Hy & L). exists (k * x), (k * y). split; [nia|]. split; [nia|].
          apply (C109_lands_l k _ _ _ _ _ Hk Bk Hhx Hhy). exists x, y. auto.
        + intros (X & Y & HX & HY & L). apply (C109_lands_l k _ _ _ _ _ Hk Bk Hhx Hhy) in L.
          destruct L as (x & y & -> & -> & L). exists x, y. split; [nia|]. split; [nia|exact L].
      - apply nth_error_None. rewrite L2', <- L2. apply nth_error_None. exact E. }
    clear - X. revert rows X. induction rows' as [|r l IH]; intros [|q m] X; try reflexivity; try (specialize (X 0%nat); discriminate X).
    f_equal; [specialize (X 0%nat); cbn in X; congruence|]. apply IH. intros n. exact (X (S n)).
Qed.
