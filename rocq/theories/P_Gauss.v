(** Proofs for the fast Gaussian fit (C76). *)
From Coq Require Import Reals Lra Sorting.Permutation Sorting.Sorted.
From Flocq Require Import Core.
From Verif Require Import S_Gauss P_Centroid P_StreamRun.
From Coq Require Import Lia.
Global Open Scope Z_scope.

(** ** Halves of integers *)

Lemma rnd_half m : Z.abs m <= 2 ^ 52 -> rnd (IZR m / 2) = (IZR m / 2)%R.
Proof.
  intros H. apply round_generic; [apply valid_rnd_N|].
  destruct (Z.eq_dec m 0) as [->|Hz].
  { replace (0 / 2)%R with 0%R by lra. apply generic_format_0. }
  apply generic_format_F2R' with (f := Float radix2 m (-1)).
  - unfold F2R. cbn [Fnum Fexp]. change (bpow radix2 (-1)) with (/ 2)%R. lra.
  - intros Hnz. unfold cexp. cbn [Fexp]. rewrite fexp_FLT. unfold FLT_exp.
    assert (Hm : (mag radix2 (IZR m / 2) <= 52)%Z).
    { apply mag_le_bpow; [exact Hnz|].
      assert (A : (Rabs (IZR m / 2) = Rabs (IZR m) / 2)%R).
      { unfold Rdiv. rewrite Rabs_mult. f_equal. apply Rabs_pos_eq. lra. }
      rewrite A. pose proof (IZR_abs_bpow m 52 ltac:(lia) H) as B.
      assert (0 < Rabs (IZR m))%R by (apply Rabs_pos_lt; apply not_0_IZR; exact Hz). lra. }
    lia.
Qed.

Lemma half_bound m : Z.abs m <= 2 ^ 52 -> (Rabs (IZR m / 2) <= bpow radix2 53)%R.
Proof.
  intros H. unfold Rdiv. rewrite Rabs_mult. rewrite (Rabs_pos_eq (/ 2)) by lra.
  pose proof (IZR_abs_bpow m 53 ltac:(lia) ltac:(lia)). pose proof (Rabs_pos (IZR m)). lra.
Qed.

Lemma is_half_int x a : is_int x a -> is_half x (2 * a).
Proof. intros [F E]. split; [exact F|]. rewrite E, mult_IZR. lra. Qed.

Lemma is_half_div x a : is_int x a -> Z.abs a <= 2 ^ 52 -> is_half (fdiv x (f_of_Z 2)) a.
Proof.
  intros [F E] H. destruct (is_int_of_Z 2 ltac:(lia)) as [F2 E2].
  destruct (fdiv_correct x (f_of_Z 2) 53) as [R1 R2].
  - lia.
  - exact F.
  - rewrite E2. lra.
  - rewrite E, E2. apply half_bound. exact H.
  - split; [exact R2|]. rewrite R1, E, E2. apply rnd_half. exact H.
Qed.

Lemma is_half_sub x y a b : is_half x a -> is_half y b -> Z.abs (a - b) <= 2 ^ 52 -> is_half (fsub x y) (a - b).
Proof.
  intros [Fx Ex] [Fy Ey] H.
  assert (E : (B2R x - B2R y = IZR (a - b) / 2)%R) by (rewrite Ex, Ey, minus_IZR; lra).
  destruct (fsub_correct x y 53) as [R1 R2]; try assumption; try lia.
  - rewrite E. apply half_bound. exact H.
  - split; [exact R2|]. rewrite R1, E. apply rnd_half. exact H.
Qed.

Lemma is_half_add x y a b : is_half x a -> is_half y b -> Z.abs (a + b) <= 2 ^ 52 -> is_half (fadd x y) (a + b).
Proof.
  intros [Fx Ex] [Fy Ey] H.
  assert (E : (B2R x + B2R y = IZR (a + b) / 2)%R) by (rewrite Ex, Ey, plus_IZR; lra).
  destruct (fadd_correct x y 53) as [R1 R2]; try assumption; try lia.
  - rewrite E. apply half_bound. exact H.
  - split; [exact R2|]. rewrite R1, E. apply rnd_half. exact H.
Qed.

Lemma is_half_pos x a : is_half x a -> fgt x (f_of_Z 0) = (0 <? a).
Proof.
  intros [F E]. destruct (is_int_of_Z 0 ltac:(lia)) as [F0 E0].
  change (fgt x (f_of_Z 0)) with (flt (f_of_Z 0) x).
  rewrite flt_R by assumption. rewrite E, E0. destruct (Z.ltb_spec 0 a) as [L|L].
  - apply Rlt_bool_true. apply IZR_lt in L. lra.
  - apply Rlt_bool_false. apply IZR_le in L. lra.
Qed.

(** ** Sorting and the median *)

Lemma finsert_int x a fs : is_int x a -> forall zs, Forall2 is_int fs zs -> StronglySorted Z.le zs ->
  exists ss, Forall2 is_int (finsert x fs) ss /\ Permutation (a :: zs) ss /\ StronglySorted Z.le ss.
Proof.
  intros Hx. induction fs as [|y fs IH]; intros zs F S.
  - inversion F; subst. exists [a]. split; [constructor; [exact Hx|constructor]|]. split; [apply Permutation_refl|].
    constructor; constructor.
  - inversion F as [|? b ? zs' Hy F' ]; subst. cbn [finsert]. rewrite (is_int_fle _ _ _ _ Hx Hy).
    pose proof (StronglySorted_inv S) as [S' Hall]. destruct (Z.leb_spec a b) as [L|L].
    + exists (a :: b :: zs'). split; [constructor; [exact Hx|exact F]|]. split; [apply Permutation_refl|].
      constructor; [exact S|]. constructor; [exact L|]. eapply Forall_impl; [|exact Hall]. cbn. intros; lia.
    + destruct (IH zs' F' S') as (ss & A & B & C). exists (b :: ss). split; [constructor; [exact Hy|exact A]|].
      split.
      * eapply Permutation_trans; [apply perm_swap|]. constructor. exact B.
      * constructor; [exact C|]. eapply Permutation_Forall; [exact B|]. constructor; [lia|exact Hall].
Qed.

Lemma fsort_int fs : forall zs, Forall2 is_int fs zs ->
  exists ss, Forall2 is_int (fsort fs) ss /\ Permutation zs ss /\ StronglySorted Z.le ss.
Proof.
  induction fs as [|x fs IH]; intros zs F; inversion F as [|? a ? zs' Hx F']; subst.
  - exists []. split; [constructor|]. split; [constructor|constructor].
  - destruct (IH zs' F') as (ss & A & B & C). destruct (finsert_int x a _ Hx _ A C) as (tt & D & E & G).
    exists tt. split; [exact D|]. split; [|exact G]. eapply Permutation_trans; [|exact E]. constructor. exact B.
Qed.

Lemma sorted_unique s : forall t, StronglySorted Z.le s -> StronglySorted Z.le t -> Permutation s t -> s = t.
Proof.
  induction s as [|a s IH]; intros t S T P.
  - apply Permutation_nil in P. congruence.
  - destruct t as [|b t]; [apply Permutation_sym, Permutation_nil in P; discriminate|].
    apply StronglySorted_inv in S. apply StronglySorted_inv in T. destruct S as [S HS], T as [T HT].
    assert (Eab : a = b).
    { assert (A : In a (b :: t)) by (eapply Permutation_in; [exact P|left; reflexivity]).
      assert (B : In b (a :: s)) by (eapply Permutation_in; [apply Permutation_sym; exact P|left; reflexivity]).
      rewrite Forall_forall in HS, HT. destruct A as [A|A]; [congruence|]. destruct B as [B|B]; [congruence|].
      specialize (HS _ B). specialize (HT _ A). lia. }
    subst b. f_equal. apply IH; try assumption. eapply Permutation_cons_inv. exact P.
Qed.

Lemma F2_nth fs : forall zs k z, Forall2 is_int fs zs -> nth_error zs k = Some z ->
  exists x, nth_error fs k = Some x /\ is_int x z.
Proof.
  induction fs as [|f fs IH]; intros zs k z F E; inversion F; subst.
  - destruct k; discriminate.
  - destruct k as [|k]; cbn in *; [injection E as <-; eexists; split; [reflexivity|assumption]|].
    eapply IH; eassumption.
Qed.

Lemma F2_len {A B} (P : A -> B -> Prop) l l' : Forall2 P l l' -> length l = length l'.
Proof. induction 1; cbn; congruence. Qed.

Lemma get_median_half fs zs m : Forall2 is_int fs zs -> Forall (fun z => 0 <= z <= 1023) zs -> twice_median zs m ->
  exists v, get_median fs = Ok v /\ is_half v m.
Proof.
  intros F B (s & k & P & S & Hm). destruct (fsort_int fs zs F) as (ss & A & C & D).
  assert (E : ss = s).
  { apply sorted_unique; try assumption. eapply Permutation_trans; [apply Permutation_sym; exact C|exact P]. }
  subst ss. assert (Bs : Forall (fun z => 0 <= z <= 1023) s) by (eapply Permutation_Forall; eassumption).
  rewrite Forall_forall in Bs. unfold get_median. cbv zeta. rewrite (F2_len _ _ _ A). destruct Hm as [[L (a & Ea & ->)]|[L (a & b & Ea & Eb & ->)]].
  - rewrite L. rewrite Nat.add_comm, Nat.even_add_mul_2. cbn [Nat.even].
    replace (Nat.div (1 + 2 * k) 2) with k.
    2:{ apply Nat.div_unique with 1%nat; lia. }
    destruct (F2_nth _ _ _ _ A Ea) as (x & Ex & Hx). rewrite Ex. exists x. split; [reflexivity|].
    apply is_half_int. exact Hx.
  - destruct (F2_nth _ _ _ _ A Ea) as (x & Ex & Hx). destruct (F2_nth _ _ _ _ A Eb) as (y & Ey & Hy).
    rewrite L. assert (Ev : Nat.even (2 * k + 2) = true).
    { apply Nat.even_spec. exists (Datatypes.S k). lia. }
    assert (Dv : Nat.div (2 * k + 2) 2 = Datatypes.S k) by (symmetry; apply Nat.div_unique with 0%nat; lia).
    rewrite Ev. destruct (2 * k + 2)%nat as [|n0] eqn:En; [lia|]. rewrite Dv.
    replace (Datatypes.S k - 1)%nat with k by lia. rewrite Ex, Ey.
    pose proof (Bs a (nth_error_In _ _ Ea)). pose proof (Bs b (nth_error_In _ _ Eb)).
    eexists. split; [reflexivity|]. apply is_half_div; [|lia]. apply is_int_add; try assumption. lia.
Qed.

Lemma twice_median_exists_l l : l <> [] -> exists m, twice_median l m.
Proof.
  intros H.
  assert (Hs : exists s, Permutation l s /\ StronglySorted Z.le s).
  { clear H. induction l as [|a l IH]; [exists []; split; constructor|]. destruct IH as (s & P & S).
    assert (Hi : exists t, Permutation (a :: s) t /\ StronglySorted Z.le t).
    { clear P l. induction S as [|b s S IH Hall]; [exists [a]; split; [apply Permutation_refl|repeat constructor]|].
      destruct (Z.leb_spec a b) as [L|L].
      - exists (a :: b :: s). split; [apply Permutation_refl|]. constructor; [constructor; assumption|].
        constructor; [exact L|]. eapply Forall_impl; [|exact Hall]. cbn. intros; lia.
      - destruct IH as (t & P & T). exists (b :: t). split.
        + eapply Permutation_trans; [apply perm_swap|]. constructor. exact P.
        + constructor; [exact T|]. eapply Permutation_Forall; [exact P|]. constructor; [lia|exact Hall]. }
    destruct Hi as (t & P' & T). exists t. split; [|exact T]. eapply Permutation_trans; [|exact P']. constructor. exact P. }
  destruct Hs as (s & P & S). pose proof (Permutation_length P) as Len.
  assert (Hpos : (0 < length s)%nat) by (destruct l; [congruence|cbn in Len; lia]).
  destruct (Nat.even (length s)) eqn:Ev.
  - apply Nat.even_spec in Ev. destruct Ev as [j Ej]. destruct j as [|j]; [lia|].
    destruct (nth_error s j) as [a|] eqn:Ea; [|apply nth_error_None in Ea; lia].
    destruct (nth_error s (Datatypes.S j)) as [b|] eqn:Eb; [|apply nth_error_None in Eb; lia].
    exists (a + b), s, j. split; [exact P|]. split; [exact S|]. right. split; [lia|]. exists a, b. auto.
  - assert (Od : Nat.odd (length s) = true) by (unfold Nat.odd; rewrite Ev; reflexivity).
    apply Nat.odd_spec in Od. destruct Od as [j Ej].
    destruct (nth_error s j) as [a|] eqn:Ea; [|apply nth_error_None in Ea; lia].
    exists (2 * a), s, j. split; [exact P|]. split; [exact S|]. left. split; [lia|]. exists a. auto.
Qed.

Lemma twice_median_unique_l l m m' : twice_median l m -> twice_median l m' -> m = m'.
Proof.
  intros (s & k & P & S & H) (s' & k' & P' & S' & H').
  assert (E : s = s') by (apply sorted_unique; try assumption; eapply Permutation_trans; [apply Permutation_sym; exact P|exact P']).
  subst s'. destruct H as [[L (a & Ea & ->)]|[L (a & b & Ea & Eb & ->)]]; destruct H' as [[L' (a' & Ea' & ->)]|[L' (a' & b' & Ea' & Eb' & ->)]]; try lia.
  - assert (k = k') by lia. subst. congruence.
  - assert (k = k') by lia. subst. congruence.
Qed.

(** at most half of the values are above the median *)
Lemma above_half_l data m : twice_median (map h_tot data) m -> 2 * zlen (above m data) <= zlen data.
Proof.
  intros (s & k & P & S & H).
  set (f := fun z => m <? 2 * z).
  assert (L1 : length (above m data) = length (filter f (map h_tot data))).
  { unfold above. clear P. induction data as [|h data IH]; [reflexivity|]. cbn [map filter]. unfold f at 1.
    destruct (m <? 2 * h_tot h); cbn [length]; congruence. }
  assert (L2 : length (filter f (map h_tot data)) = length (filter f s)).
  { clear L1 S H. revert P. generalize (map h_tot data). intros l P. induction P; cbn [filter]; try congruence.
    - destruct (f x); cbn [length]; congruence.
    - destruct (f x), (f y); reflexivity. }
  assert (L3 : forall j a, nth_error s j = Some a -> f a = false -> (length (filter f s) <= length s - Datatypes.S j)%nat).
  { clear H P L1 L2. clear k. induction S as [|b s S IH Hall]; intros j a E Fa; [destruct j; discriminate|].
    destruct j as [|j]; cbn [nth_error] in E.
    - injection E as ->. cbn [filter]. rewrite Fa. cbn [length].
      assert (G : forall l, (length (filter f l) <= length l)%nat).
      { induction l as [|c l IHl]; [cbn; lia|]. cbn [filter]. destruct (f c); cbn [length]; lia. }
      specialize (G s). lia.
    - assert (Fb : f b = false).
      { rewrite Forall_forall in Hall. specialize (Hall a (nth_error_In _ _ E)). unfold f in *.
        apply Z.ltb_ge in Fa. apply Z.ltb_ge. lia. }
      cbn [filter]. rewrite Fb. cbn [length]. specialize (IH j a E Fa). lia. }
  pose proof (Permutation_length P) as Len. rewrite map_length in Len.
  unfold zlen. rewrite L1, L2.
  destruct H as [[L (a & Ea & ->)]|[L (a & b & Ea & Eb & Hm)]].
  - specialize (L3 k a Ea). rewrite L in *. unfold f in L3. specialize (L3 ltac:(apply Z.ltb_ge; lia)).
    fold f in L3. lia.
  - assert (Lab : a <= b).
    { clear - S Ea Eb. revert k Ea Eb. induction S as [|c s S IH Hall]; intros k Ea Eb; [destruct k; discriminate|].
      destruct k as [|k].
      - injection Ea as ->. rewrite Forall_forall in Hall. apply Hall. change (nth_error s 0 = Some b) in Eb. exact (nth_error_In _ _ Eb).
      - apply (IH k); [exact Ea|exact Eb]. }
    specialize (L3 k a Ea). specialize (L3 ltac:(unfold f; apply Z.ltb_ge; lia)). lia.
Qed.

(** ** The rows *)

(** [r] holds the values of [h], its ToT less half of [m]. *)
Definition row_of (m : Z) (h : hit) (r : grow) : Prop :=
  is_int (g_x r) (h_x h) /\ is_int (g_y r) (h_y h) /\ is_int (g_tof r) (tof_value h) /\
  is_half (g_tot r) (2 * h_tot h - m).

Lemma rows_are data : Forall sensor_hit data -> exists rs, gauss_rows (f_of_Z 1) data = Ok rs /\
  Forall2 (row_of 0) data rs /\ Forall2 is_int (map g_tot rs) (map h_tot data).
Proof.
  induction data as [|h data IH]; intros F; [exists []; repeat split; constructor|].
  apply Forall_cons_iff in F. destruct F as [(Hx & Hy & Ht & t & Et & Hf) F]. destruct (IH F) as (rs & E & R & T).
  cbn [gauss_rows]. unfold get_tof. rewrite Et. cbn [obind]. rewrite E. cbn [obind].
  eexists. split; [reflexivity|]. split.
  - constructor; [|exact R]. unfold row_of. cbn [g_x g_y g_tof g_tot].
    split; [apply scaled_one; lia|]. split; [apply scaled_one; lia|]. split.
    + unfold tof_value. rewrite Et. apply is_int_of_Z. lia.
    + rewrite Z.sub_0_r. apply is_half_int. apply is_int_of_Z. lia.
  - cbn [map g_tot]. constructor; [apply is_int_of_Z; lia|exact T].
Qed.

Lemma filter_rows m med data rs : is_half med m -> 0 <= m <= 2046 -> Forall sensor_hit data -> Forall2 (row_of 0) data rs ->
  Forall2 (row_of m) (above m data) (gauss_filter med rs).
Proof.
  intros Hm Bm F R. revert F. induction R as [|h r data rs Hr R IH]; intros F; [constructor|].
  apply Forall_cons_iff in F. destruct F as [(Bx & By & Bt & _) F].
  destruct Hr as (Hx & Hy & Hf & Ht). rewrite Z.sub_0_r in Ht.
  pose proof (is_half_sub _ _ _ _ Ht Hm ltac:(lia)) as Hs.
  unfold gauss_filter, above. cbn [map filter g_tot]. rewrite (is_half_pos _ _ Hs).
  replace (0 <? 2 * h_tot h - m) with (m <? 2 * h_tot h) by (destruct (Z.ltb_spec m (2 * h_tot h)), (Z.ltb_spec 0 (2 * h_tot h - m)); lia).
  destruct (m <? 2 * h_tot h); [|apply IH; exact F].
  constructor; [|apply IH; exact F]. unfold row_of. cbn [g_x g_y g_tof g_tot]. auto.
Qed.

Lemma sum_ints m hs rs : Forall2 (row_of m) hs rs -> Forall sensor_hit hs -> zlen hs <= 2 ^ 20 -> 
  forall x a, is_int x a -> 0 <= a -> a + zlen hs * 2 ^ 32 <= 2 ^ 53 ->
  is_int (fold_left fadd (map g_tof rs) x) (a + hsum tof_value hs).
Proof.
  induction 1 as [|h r hs rs Hr R IH]; intros F L x a Hx Ha B.
  - cbn. rewrite Z.add_0_r. exact Hx.
  - apply Forall_cons_iff in F. destruct F as [(Bx & By & Bt & t & Et & Bf) F]. rewrite zlen_cons in *.
    pose proof (zlen_nonneg hs). destruct Hr as (_ & _ & Hf & _).
    cbn [map fold_left hsum fold_right]. fold (hsum tof_value hs). rewrite Z.add_assoc.
    assert (Tv : tof_value h = t) by (unfold tof_value; rewrite Et; reflexivity). rewrite Tv in *.
    apply IH; try assumption; try lia. apply is_int_add; try assumption. lia.
Qed.

Lemma sum_halves m hs rs : Forall2 (row_of m) hs rs -> Forall sensor_hit hs -> 0 <= m <= 2046 ->
  forall x a, is_half x a -> Z.abs a + zlen hs * 2 ^ 12 <= 2 ^ 52 ->
  is_half (fold_left fadd (map g_tot rs) x) (a + hsum (fun h => 2 * h_tot h - m) hs).
Proof.
  induction 1 as [|h r hs rs Hr R IH]; intros F Bm x a Hx B.
  - cbn. rewrite Z.add_0_r. exact Hx.
  - apply Forall_cons_iff in F. destruct F as [(Bx & By & Bt & _) F]. rewrite zlen_cons in *.
    pose proof (zlen_nonneg hs). destruct Hr as (_ & _ & _ & Ht).
    cbn [map fold_left hsum fold_right]. fold (hsum (fun h => 2 * h_tot h - m) hs). rewrite Z.add_assoc.
    apply IH; try assumption; try lia. apply is_half_add; try assumption. lia.
Qed.

Lemma median_bounds l m : twice_median l m -> Forall (fun z => 0 <= z <= 1023) l -> 0 <= m <= 2046.
Proof.
  intros (s & k & P & _ & H) B. pose proof (Permutation_Forall P B) as Bs. rewrite Forall_forall in Bs.
  destruct H as [[L (a & Ea & ->)]|[L (a & b & Ea & Eb & ->)]].
  - pose proof (Bs a (nth_error_In _ _ Ea)). cbn in *. lia.
  - pose proof (Bs a (nth_error_In _ _ Ea)). pose proof (Bs b (nth_error_In _ _ Eb)). cbn in *. lia.
Qed.

Lemma C76_fit_l ext data m : 8 <= zlen data <= 2 ^ 20 -> Forall sensor_hit data -> twice_median (map h_tot data) m ->
  exists e A b sx sy, gauss_fit ext (f_of_Z 1) data = Ok e /\
    Forall2 (is_row (ext_log ext) m) (above m data) A /\ Forall2 is_rhs (above m data) b /\
    ext_qr ext A b = (sx, sy) /\ n_x e = fdiv sx (f_of_Z 2) /\ n_y e = fdiv sy (f_of_Z 2) /\
    n_hits e = zlen data /\
    is_half (n_tot e) (hsum (fun h => 2 * h_tot h - m) (above m data)) /\
    (above m data <> [] -> rounded (n_tof e) (Rdiv (IZR (hsum tof_value (above m data))) (IZR (zlen (above m data))))) /\
    (above m data = [] -> is_nan (n_tof e) = true).
Proof.
  intros L F Hm. assert (Bt : Forall (fun z => 0 <= z <= 1023) (map h_tot data)).
  { apply Forall_map. eapply Forall_impl; [|exact F]. intros h (_ & _ & H & _). exact H. }
  pose proof (median_bounds _ _ Hm Bt) as Bm.
  destruct (rows_are data F) as (rs & Er & R & T).
  destruct (get_median_half _ _ _ T Bt Hm) as (med & Em & Hmed).
  pose proof (filter_rows m med data rs Hmed Bm F R) as R'.
  assert (Fa : Forall sensor_hit (above m data)).
  { apply Forall_forall. intros h Hh. apply filter_In in Hh. destruct Hh as [Hh _]. rewrite Forall_forall in F. auto. }
  assert (La : zlen (above m data) <= zlen data) by (pose proof (above_half_l _ _ Hm); pose proof (zlen_nonneg (above m data)); lia).
  unfold gauss_fit. replace (zlen data <? 8) with false by (symmetry; apply Z.ltb_ge; lia).
  rewrite Er. cbn [obind]. rewrite Em. cbn [obind]. cbv zeta.
  set (hs := above m data) in *. set (fs := gauss_filter med rs) in *.
  match goal with |- context [ext_qr ext ?A ?b] => set (A0 := A); set (b0 := b) end.
  destruct (ext_qr ext A0 b0) as [sx sy] eqn:Eq.
  eexists. exists A0, b0, sx, sy. split; [reflexivity|]. cbn [n_x n_y n_tof n_tot n_hits].
  split.
  { unfold A0. clear Eq A0 b0. clearbody hs fs. clear - R' Fa. revert Fa. induction R' as [|h r hs fs Hr R IH]; intros Fa; [constructor|].
    apply Forall_cons_iff in Fa. destruct Fa as [(Bx & By & _) Fa].
    cbn [map]. constructor; [|apply IH; exact Fa]. destruct Hr as (Hx & Hy & _ & Ht).
    unfold is_row. cbn [fst snd].
    split. { rewrite <- (Z.mul_1_l (h_x h)). apply is_int_mul; [exact one_int|exact Hx|lia]. }
    split. { rewrite <- (Z.mul_1_l (h_y h)). apply is_int_mul; [exact one_int|exact Hy|lia]. }
    exists (g_tot r). split; [exact Ht|reflexivity]. }
  split.
  { unfold b0. clear Eq A0 b0. clearbody hs fs. clear - R' Fa. revert Fa. induction R' as [|h r hs fs Hr R IH]; intros Fa; [constructor|].
    apply Forall_cons_iff in Fa. destruct Fa as [(Bx & By & _) Fa].
    cbn [map]. constructor; [|apply IH; exact Fa]. destruct Hr as (Hx & Hy & _ & Ht).
    unfold is_rhs. apply is_int_add; [apply is_int_mul; try assumption; nia|apply is_int_mul; try assumption; nia|nia]. }
  split; [exact Eq|]. split; [reflexivity|]. split; [reflexivity|].
  split; [apply (gauss_rows_len _ _ _ Er)|].
  split.
  { change (hsum (fun h => 2 * h_tot h - m) hs) with (0 + hsum (fun h => 2 * h_tot h - m) hs).
    unfold fsum. apply (sum_halves m); try assumption.
    - apply (is_half_int _ 0). exact zero_int.
    - lia. }
  assert (Sf : is_int (fsum (map g_tof fs)) (hsum tof_value hs)).
  { change (hsum tof_value hs) with (0 + hsum tof_value hs). unfold fsum. apply (sum_ints m); try assumption; try lia. exact zero_int. }
  assert (Lfs : zlen fs = zlen hs) by (unfold zlen; rewrite <- (F2_len _ _ _ R'); reflexivity).
  split.
  - intros Hne. rewrite Lfs. pose proof (len_pos hs Hne).
    apply mean_rounded; try lia; [|exact Sf].
    assert (G : 0 <= hsum tof_value hs <= zlen hs * 2 ^ 32).
    { clear - Fa. induction Fa as [|h hs (_ & _ & _ & t & Et & Bt) Fa IH]; [unfold zlen; cbn [length hsum fold_right]; lia|].
      rewrite zlen_cons. cbn [hsum fold_right]. fold (hsum tof_value hs).
      assert (Tv : tof_value h = t) by (unfold tof_value; rewrite Et; reflexivity). rewrite Tv. lia. }
    lia.
  - intros Hn. clearbody fs hs. subst hs. inversion R'; subst. reflexivity.
Qed.

(** fewer than eight hits *)
Lemma C76_few_l ext srf data : zlen data < 8 ->
  exists e, gauss_fit ext srf data = Ok e /\ is_whole (n_x e) (-1) /\ is_whole (n_y e) (-1) /\
    is_whole (n_tof e) 0 /\ is_whole (n_tot e) 0 /\ n_hits e = 0.
Proof.
  intros L. unfold gauss_fit. replace (zlen data <? 8) with true by (symmetry; apply Z.ltb_lt; lia).
  eexists. split; [reflexivity|]. cbn [n_x n_y n_tof n_tot n_hits].
  repeat split; try (apply is_int_of_Z; lia).
Qed.

(** equal heights: nothing is above the median *)
Lemma C76_flat_l data t : data <> [] -> Forall (fun h => h_tot h = t) data ->
  twice_median (map h_tot data) (2 * t) /\ above (2 * t) data = [].
Proof.
  intros Hne F. split.
  - destruct (twice_median_exists_l (map h_tot data)) as (m & Hm); [destruct data; [congruence|discriminate]|].
    assert (E : m = 2 * t); [|rewrite <- E; exact Hm].
    assert (B : Forall (fun z => z = t) (map h_tot data)) by (apply Forall_map; exact F).
    destruct Hm as (s & k & P & _ & H). pose proof (Permutation_Forall P B) as Bs. rewrite Forall_forall in Bs.
    destruct H as [[L (a & Ea & ->)]|[L (a & b & Ea & Eb & ->)]].
    + pose proof (Bs a (nth_error_In _ _ Ea)). cbn in *. lia.
    + pose proof (Bs a (nth_error_In _ _ Ea)). pose proof (Bs b (nth_error_In _ _ Eb)). cbn in *. lia.
  - unfold above. clear Hne. induction F as [|h data E F IH]; [reflexivity|]. cbn [filter].
    replace (2 * t <? 2 * h_tot h) with false by (symmetry; apply Z.ltb_ge; lia). exact IH.
Qed.

(** an unset time of flight *)
Lemma C76_unset_l ext srf data : 8 <= zlen data -> Exists (fun h => h_tof h = None) data ->
  gauss_fit ext srf data = UB Uninitialised.
Proof.
  intros L E. unfold gauss_fit. replace (zlen data <? 8) with false by (symmetry; apply Z.ltb_ge; lia).
  assert (G : gauss_rows srf data = UB Uninitialised); [|rewrite G; reflexivity].
  clear L. induction data as [|h data IH]; [inversion E|]. cbn [gauss_rows]. unfold get_tof.
  destruct (h_tof h) as [t|] eqn:Et; [|reflexivity]. cbn [obind].
  inversion E as [? ? E'|? ? E']; subst; [congruence|]. rewrite (IH E'). reflexivity.
Qed.

(** ** Clearing and units *)

Lemma C25_reset_l ext cfg o d :
  abs_get_events ext cfg (abs_reset o) d = if zlen d =? 0 then Ok [] else Throw RuntimeError.
Proof.
  unfold abs_get_events, abs_reset. cbn [o_labels]. rewrite (Z.eqb_sym (zlen [])). change (zlen (@nil Z)) with 0.
  destruct (zlen d =? 0); reflexivity.
Qed.

Lemma ns_rounded x : is_finite x = true -> (Rabs (B2R x) <= bpow radix2 1000)%R ->
  rounded (fmul x (f_of_Z 25)) (25 * B2R x)%R.
Proof.
  intros F B. destruct (is_int_of_Z 25 ltac:(lia)) as [F2 E2].
  destruct (fmul_correct x (f_of_Z 25) 1005) as [R1 R2]; try assumption; try lia.
  - rewrite E2, Rabs_mult. rewrite (Rabs_pos_eq 25) by lra.
    change 1005 with (5 + 1000). rewrite bpow_plus. change (bpow radix2 5) with 32%R.
    pose proof (Rabs_pos (B2R x)). nra.
  - split; [exact R2|]. rewrite R1, E2, Rmult_comm. apply rnd_FLT.
Qed.

Lemma C45_event_l n : is_finite (n_tof n) = true -> (Rabs (B2R (n_tof n)) <= bpow radix2 1000)%R ->
  is_finite (n_tot n) = true -> (Rabs (B2R (n_tot n)) <= bpow radix2 1000)%R ->
  rounded (n_tof_ns n) (25 * B2R (n_tof n))%R /\ rounded (n_tot_ns n) (25 * B2R (n_tot n))%R.
Proof. intros. split; apply ns_rounded; assumption. Qed.
