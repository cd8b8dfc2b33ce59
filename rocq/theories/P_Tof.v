(** Proofs about the time-of-flight images. *)
From Verif Require Export S_Tof F64Facts P_Parallel.
From Coq Require Import Lia ZifyBool Reals Lra Sorted Permutation.
From Flocq Require Import Core.
Global Open Scope Z_scope.

(** * lower_bound *)

Section LowerBound.
Variables (l : list f64) (v : f64).
Definition less (j : nat) : Prop := exists e, nth_error l j = Some e /\ flt e v = true.
Hypothesis part : forall i j, (i < j)%nat -> less j -> less i.

Lemma lb_loop fuel : forall first len, (len < fuel)%nat -> (first + len <= length l)%nat ->
  (forall j, (j < first)%nat -> less j) ->
  (forall j, (first + len <= j)%nat -> ~ less j) ->
  let k := lower_bound_loop fuel l v first len in
  (k <= length l)%nat /\ (forall j, (j < k)%nat -> less j) /\ (forall j, (k <= j)%nat -> ~ less j).
Proof.
  induction fuel as [|f IH]; intros first len Hf Hl A B; [lia|]. cbn [lower_bound_loop].
  destruct (Nat.eqb_spec len 0) as [->|Hn].
  - cbn. split; [lia|]. split; [exact A|]. intros j Hj. apply B. lia.
  - set (half := Nat.div len 2).
    assert (Hh : (half < len)%nat) by (apply Nat.div_lt; lia).
    destruct (nth_error l (first + half)) as [e|] eqn:E.
    2:{ apply nth_error_None in E. lia. }
    destruct (flt e v) eqn:F.
    + apply IH; [lia|lia| |].
      * intros j Hj. destruct (Nat.eq_dec j (first + half)) as [->|Ne]; [exists e; auto|].
        apply (part j (first + half)); [lia|exists e; auto].
      * intros j Hj. apply B. lia.
    + apply IH; [lia|lia|exact A|].
      intros j Hj Lj. assert (Lm : less (first + half)).
      { destruct (Nat.eq_dec j (first + half)) as [->|Ne]; [exact Lj|].
        apply (part _ j); [lia|exact Lj]. }
      destruct Lm as (e' & E' & F'). congruence.
Qed.

Lemma lower_bound_spec :
  let k := lower_bound l v in
  (k <= length l)%nat /\ (forall j, (j < k)%nat -> less j) /\ (forall j, (k <= j)%nat -> ~ less j).
Proof.
  apply lb_loop; [lia|lia|intros j Hj; lia|].
  intros j Hj (e & E & _). assert (nth_error l j <> None) by congruence.
  apply nth_error_Some in H. lia.
Qed.
End LowerBound.

Lemma sorted_nth {A} (R : A -> A -> Prop) l : StronglySorted R l ->
  forall i j a b, (i < j)%nat -> nth_error l i = Some a -> nth_error l j = Some b -> R a b.
Proof.
  induction 1 as [|x l S IH F]; intros i j a b Hij Ha Hb; [destruct i; discriminate|].
  destruct j as [|j]; [lia|]. destruct i as [|i].
  - cbn in Ha. injection Ha as <-. rewrite Forall_forall in F. apply F.
    cbn in Hb. apply nth_error_In in Hb. exact Hb.
  - apply (IH i j); [lia|exact Ha|exact Hb].
Qed.

Lemma edges_part edges v : edges_ok edges -> is_finite v = true ->
  forall i j, (i < j)%nat -> less edges v j -> less edges v i.
Proof.
  intros (Hl & Hf & Hs) Fv i j Hij (b & Eb & Lb).
  rewrite Forall_forall in Hf.
  assert (Li : (i < length edges)%nat).
  { assert (nth_error edges j <> None) by congruence. apply nth_error_Some in H. lia. }
  destruct (nth_error edges i) as [a|] eqn:Ea; [|apply nth_error_None in Ea; lia].
  exists a. split; [exact Ea|].
  pose proof (Hf a (nth_error_In _ _ Ea)) as Fa. pose proof (Hf b (nth_error_In _ _ Eb)) as Fb.
  rewrite flt_R in * by assumption.
  pose proof (sorted_nth _ _ Hs i j a b Hij Ea Eb) as R. cbn in R.
  destruct (Rlt_bool_spec (B2R b) (B2R v)); [|discriminate]. apply Rlt_bool_true. lra.
Qed.

Lemma nth_error_last {A} (l : list A) a d : nth_error l (length l - 1) = Some a -> last l d = a.
Proof.
  destruct l as [|x l]; [discriminate|]. revert x. induction l as [|y l IH]; intros x E.
  - cbn in *. congruence.
  - cbn [length] in E. replace (S (S (length l)) - 1)%nat with (S (length (y :: l) - 1)) in E by (cbn; lia).
    cbn [nth_error] in E. change (last (x :: y :: l) d) with (last (y :: l) d). apply IH. exact E.
Qed.

Lemma finite_cases (v : f64) : is_finite v = negb (f_isnan v || f_isinf v).
Proof. destruct v; reflexivity. Qed.

Lemma e9_int : is_int c_1e9 1000000000.
Proof. apply is_int_of_Z. lia. Qed.

Lemma seconds tof : is_finite tof = true -> is_finite (fdiv tof c_1e9) = true.
Proof.
  intros F. destruct e9_int as [_ E].
  destruct (fdiv_correct tof c_1e9 995) as [_ A]; [lia|exact F|rewrite E; lra| |exact A].
  rewrite E. unfold Rdiv. rewrite Rabs_mult, Rabs_inv, (Rabs_pos_eq 1000000000) by lra.
  pose proof (abs_B2R_lt_emax _ _ tof) as B.
  apply Rle_trans with (bpow radix2 1024 * / 1000000000)%R.
  - apply Rmult_le_compat_r; [|lra]. apply Rlt_le, Rinv_0_lt_compat. lra.
  - apply Rle_trans with (bpow radix2 1024 * / bpow radix2 29)%R.
    + apply Rmult_le_compat_l; [apply bpow_ge_0|]. apply Rinv_le; [apply bpow_gt_0|].
      change (bpow radix2 29) with (IZR (2 ^ 29)). apply IZR_le. lia.
    + rewrite <- bpow_opp, <- bpow_plus. apply bpow_le. lia.
Qed.

Lemma in_bin_unique edges t i j : edges_ok edges -> in_bin edges t i -> in_bin edges t j -> i = j.
Proof.
  intros (_ & _ & Hs) (a & b & Ea & Eb & Ha & Hb) (a' & b' & Ea' & Eb' & Ha' & Hb').
  destruct (Nat.lt_trichotomy i j) as [H|[H|H]]; [exfalso|exact H|exfalso].
  - destruct (Nat.eq_dec (S i) j) as [<-|Ne]; [rewrite Eb in Ea'; injection Ea' as <-; lra|].
    pose proof (sorted_nth _ _ Hs (S i) j _ _ ltac:(lia) Eb Ea') as R. cbn in R. lra.
  - destruct (Nat.eq_dec (S j) i) as [<-|Ne]; [rewrite Eb' in Ea; injection Ea as <-; lra|].
    pose proof (sorted_nth _ _ Hs (S j) i _ _ ltac:(lia) Eb' Ea) as R. cbn in R. lra.
Qed.

(** * C27 *)

Lemma bin_of_spec edges tof i : edges_ok edges ->
  (bin_of edges (length edges - 1) tof = Some i <->
   is_finite tof = true /\ (0 <= B2R tof)%R /\
   in_bin edges (fdiv tof c_1e9) i /\ before_last edges (fdiv tof c_1e9)).
Proof.
  intros Ok. pose proof Ok as (Hl & Hf & Hs). unfold bin_of.
  rewrite <- orb_assoc. rewrite <- (negb_involutive (f_isnan tof || f_isinf tof)), <- finite_cases.
  destruct (is_finite tof) eqn:Ft.
  2:{ rewrite orb_true_r. split; [discriminate|intros (A & _); discriminate]. }
  cbn [negb]. rewrite orb_false_r. destruct (is_int_of_Z 0 ltac:(lia)) as [F0 E0].
  rewrite flt_R, E0 by assumption. destruct (Rlt_bool_spec (B2R tof) 0) as [Hneg|Hpos].
  { split; [discriminate|intros (_ & A & _); lra]. }
  pose proof (seconds tof Ft) as Fs. set (t := fdiv tof c_1e9) in *.
  destruct edges as [|front rest] eqn:Ee; [cbn in Hl; lia|]. rewrite <- Ee in *.
  assert (Nf : nth_error edges 0 = Some front) by (rewrite Ee; reflexivity).
  destruct (nth_error edges (length edges - 1)) as [z|] eqn:Ez.
  2:{ apply nth_error_None in Ez. lia. }
  rewrite (nth_error_last _ z front Ez). rewrite Forall_forall in Hf.
  pose proof (Hf front (nth_error_In _ _ Nf)) as Ff.
  pose proof (Hf z (nth_error_In _ _ Ez)) as Fz.
  unfold fge. fold (fle z t). rewrite flt_R, fle_R by assumption.
  destruct (Rlt_bool_spec (B2R t) (B2R front)) as [H1|H1].
  { cbn [orb]. split; [discriminate|]. intros (_ & _ & (a & b & Ea & Eb & Ha & Hb) & _).
    assert (B2R front <= B2R a)%R.
    { destruct i as [|i]; [rewrite Nf in Ea; injection Ea as <-; lra|].
      pose proof (sorted_nth _ _ Hs 0 (S i) _ _ ltac:(lia) Nf Ea) as R. cbn in R. lra. }
    lra. }
  destruct (Rle_bool_spec (B2R z) (B2R t)) as [H2|H2].
  { cbn [orb]. split; [discriminate|]. intros (_ & _ & _ & (z' & Ez' & Hz)).
    rewrite Ez in Ez'. injection Ez' as <-. lra. }
  cbn [orb].
  destruct (lower_bound_spec edges t (edges_part edges t Ok Fs)) as (K1 & K2 & K3).
  set (k := lower_bound edges t) in *.
  assert (Lt : forall j e, nth_error edges j = Some e -> (less edges t j <-> (B2R e < B2R t)%R)).
  { intros j e Ej. pose proof (Hf e (nth_error_In _ _ Ej)) as Fe. split.
    - intros (e' & Ee' & L'). rewrite Ej in Ee'. injection Ee' as <-. rewrite flt_R in L' by assumption.
      destruct (Rlt_bool_spec (B2R e) (B2R t)); [assumption|discriminate].
    - intros L'. exists e. split; [exact Ej|]. rewrite flt_R by assumption. apply Rlt_bool_true. exact L'. }
  assert (Kz : (k <= length edges - 1)%nat).
  { destruct (Nat.le_gt_cases k (length edges - 1)) as [A|A]; [exact A|].
    exfalso. pose proof (K2 (length edges - 1)%nat ltac:(lia)) as L'. apply (Lt _ _ Ez) in L'. lra. }
  assert (Lk : (k < length edges)%nat) by lia. apply nth_error_Some in Lk.
  assert (BL : before_last edges t) by (exists z; auto).
  destruct k as [|bin] eqn:Ek.
  - split; [discriminate|]. intros (_ & _ & (a & b & Ea & Eb & Ha & Hb) & _). exfalso.
    apply (K3 i ltac:(lia)). apply (Lt _ _ Ea). exact Ha.
  - destruct (Nat.leb_spec (length edges - 1) bin) as [B|B]; [lia|].
    assert (IB : in_bin edges t bin).
    { destruct (nth_error edges bin) as [a|] eqn:Ea; [|apply nth_error_None in Ea; lia].
      destruct (nth_error edges (S bin)) as [b|] eqn:Eb; [|apply nth_error_None in Eb; lia].
      exists a, b. split; [exact Ea|]. split; [exact Eb|]. split.
      - apply (Lt _ _ Ea). apply K2. lia.
      - destruct (Rle_or_lt (B2R t) (B2R b)) as [C|C]; [exact C|exfalso].
        apply (K3 (S bin) ltac:(lia)). apply (Lt _ _ Eb). exact C. }
    split.
    + intros H. injection H as <-. auto.
    + intros (_ & _ & IB' & _). f_equal. eapply in_bin_unique; eassumption.
Qed.

Lemma in_bin_exists edges t : edges_ok edges ->
  (exists a, nth_error edges 0 = Some a /\ (B2R a < B2R t)%R) -> before_last edges t ->
  exists i, in_bin edges t i.
Proof.
  intros (Hl & _ & _) (a & Ea & Ha) (z & Ez & Hz).
  assert (X : forall n, (n < length edges)%nat -> (forall b, nth_error edges n = Some b -> (B2R t <= B2R b)%R) ->
    exists i, in_bin edges t i).
  { induction n as [|n IH]; intros Hn B.
    - specialize (B a Ea). lra.
    - destruct (nth_error edges n) as [b|] eqn:Eb; [|apply nth_error_None in Eb; lia].
      destruct (Rle_or_lt (B2R t) (B2R b)) as [C|C].
      + apply IH; [lia|]. intros b' Eb'. injection Eb' as <-. exact C.
      + destruct (nth_error edges (S n)) as [c|] eqn:Ec; [|apply nth_error_None in Ec; lia].
        exists n, b, c. auto. }
  apply (X (length edges - 1)%nat); [lia|]. intros b Eb. rewrite Ez in Eb. injection Eb as <-. lra.
Qed.

(** Events on the first edge are dropped, those on an interior edge go to the
    lower bin. *)
Lemma first_edge_lost edges tof a : edges_ok edges -> nth_error edges 0 = Some a ->
  B2R (fdiv tof c_1e9) = B2R a -> bin_of edges (length edges - 1) tof = None.
Proof.
  intros Ok Ea Et. destruct (bin_of edges (length edges - 1) tof) as [i|] eqn:E; [|reflexivity].
  apply bin_of_spec in E; [|exact Ok]. destruct E as (_ & _ & (a' & b' & Ea' & Eb' & Ha & Hb) & _).
  destruct Ok as (_ & _ & Hs). destruct i as [|i]; [rewrite Ea in Ea'; injection Ea' as <-; lra|].
  pose proof (sorted_nth _ _ Hs 0 (S i) _ _ ltac:(lia) Ea Ea') as R. cbn in R. lra.
Qed.

Lemma interior_edge_lower edges tof i b : edges_ok edges -> is_finite tof = true -> (0 <= B2R tof)%R ->
  nth_error edges (S i) = Some b -> (S i < length edges - 1)%nat ->
  B2R (fdiv tof c_1e9) = B2R b -> bin_of edges (length edges - 1) tof = Some i.
Proof.
  intros Ok Ft Hp Eb Hi Et. pose proof Ok as (Hl & _ & Hs). apply bin_of_spec; [exact Ok|].
  split; [exact Ft|]. split; [exact Hp|].
  destruct (nth_error edges i) as [a|] eqn:Ea; [|apply nth_error_None in Ea; lia].
  destruct (nth_error edges (length edges - 1)) as [z|] eqn:Ez; [|apply nth_error_None in Ez; lia].
  pose proof (sorted_nth _ _ Hs i (S i) _ _ ltac:(lia) Ea Eb) as R1.
  pose proof (sorted_nth _ _ Hs (S i) (length edges - 1) _ _ ltac:(lia) Eb Ez) as R2. cbn in R1, R2.
  split.
  - exists a, b. split; [exact Ea|]. split; [exact Eb|]. lra.
  - exists z. split; [exact Ez|]. lra.
Qed.

(** * Pixels *)

Lemma fround_finite v : is_finite (fround v) = is_finite v.
Proof.
  unfold fround. destruct (Bnearbyint_correct 53 1024 emax1024 mode_NA v) as (_ & F & _). exact F.
Qed.

Lemma round_FIX0 rnd' `{Valid_rnd rnd'} x : round radix2 (FIX_exp 0) rnd' x = IZR (rnd' x).
Proof.
  unfold round, scaled_mantissa, cexp, FIX_exp, F2R. cbn. rewrite !Rmult_1_r. reflexivity.
Qed.

Lemma trunc_round v : Btrunc (fround v) = ZnearestA (B2R v).
Proof.
  apply eq_IZR. rewrite Btrunc_correct; [|exact emax1024].
  unfold fround. destruct (Bnearbyint_correct 53 1024 emax1024 mode_NA v) as (E & _).
  rewrite E. cbn [round_mode]. rewrite !round_FIX0 by auto with typeclass_instances.
  rewrite Ztrunc_IZR. reflexivity.
Qed.

Lemma to_i32_round v z : f_to_i32 (fround v) = Some z <-> nearest v z /\ - 2 ^ 31 <= z < 2 ^ 31.
Proof.
  unfold f_to_i32, f_to_int, nearest, int_min, int_max. rewrite fround_finite, trunc_round.
  destruct (is_finite v); [|split; [discriminate|intros [[H _] _]; discriminate]].
  split.
  - destruct (_ && _) eqn:E; [|discriminate]. intros H. injection H as <-.
    apply andb_true_iff in E. split; [split; reflexivity|lia].
  - intros [[_ <-] B].
    replace ((- 2 ^ 31 <=? ZnearestA (B2R v)) && (ZnearestA (B2R v) <=? 2 ^ 31 - 1)) with true by lia.
    reflexivity.
Qed.

Lemma pixel_of_spec sr d ex ey x y : d < 2 ^ 31 ->
  (pixel_of sr d ex ey = Ok (Some (x, y)) <->
   is_finite ex = true /\ is_finite ey = true /\
   nearest (fmul ex sr) x /\ nearest (fmul ey sr) y /\ 0 <= x < d /\ 0 <= y < d) \/
  pixel_of sr d ex ey = UB BadConversion.
Proof.
  intros Hd. unfold pixel_of.
  replace (f_isnan ex || f_isnan ey || f_isinf ex || f_isinf ey)
    with (negb (is_finite ex) || negb (is_finite ey)).
  2:{ rewrite !finite_cases. rewrite !negb_involutive. destruct (f_isnan ex), (f_isnan ey), (f_isinf ex), (f_isinf ey); reflexivity. }
  destruct (is_finite ex) eqn:Fx; cbn [negb orb].
  2:{ left. split; [discriminate|intros (A & _); discriminate]. }
  destruct (is_finite ey) eqn:Fy; cbn [negb orb].
  2:{ left. split; [discriminate|intros (_ & A & _); discriminate]. }
  destruct (f_to_i32 (fround (fmul ex sr))) as [x'|] eqn:Ex; [|right; reflexivity].
  destruct (f_to_i32 (fround (fmul ey sr))) as [y'|] eqn:Ey; [|right; reflexivity].
  left. apply to_i32_round in Ex. apply to_i32_round in Ey. destruct Ex as [Nx Bx]. destruct Ey as [Ny By].
  split.
  - destruct (_ && _) eqn:C; [|discriminate]. intros H. injection H as <- <-.
    rewrite !andb_true_iff in C. repeat (split; [assumption || reflexivity || lia|]). lia.
  - intros (_ & _ & [_ Nx'] & [_ Ny'] & Hx & Hy). destruct Nx as [_ Nx]. destruct Ny as [_ Ny].
    assert (Qx : x' = x) by congruence. assert (Qy : y' = y) by congruence. rewrite Qx, Qy.
    replace ((x >=? 0) && (x <? d) && (y >=? 0) && (y <? d)) with true by lia. reflexivity.
Qed.

(** * Where an entry goes *)

Definition target (sr : f64) (edges : list f64) (d : Z) (n : nat) (e : entry)
  : outcome (option (nat * Z * Z)) :=
  match en_tof e with
  | None => UB Uninitialised
  | Some tof =>
      match bin_of edges n tof with
      | None => Ok None
      | Some bin =>
          let! px := pixel_of sr d (en_x e) (en_y e) in
          Ok (match px with None => None | Some (x, y) => Some (bin, x, y) end)
      end
  end.

Lemma bin_of_lt edges n tof i : bin_of edges n tof = Some i -> (i < n)%nat.
Proof.
  unfold bin_of. destruct (_ || _ || _); [discriminate|]. destruct edges as [|f r]; [discriminate|].
  destruct (_ || _); [discriminate|]. destruct (lower_bound _ _) as [|bin]; [discriminate|].
  destruct (Nat.leb_spec n bin); [discriminate|]. intros E. injection E as <-. assumption.
Qed.

Lemma target_bounds sr edges d n e i x y : target sr edges d n e = Ok (Some (i, x, y)) ->
  (i < n)%nat /\ 0 <= x < d /\ 0 <= y < d.
Proof.
  unfold target. destruct (en_tof e) as [tof|]; [|discriminate].
  destruct (bin_of edges n tof) as [bin|] eqn:E; [|discriminate].
  apply bin_of_lt in E. unfold pixel_of. destruct (_ || _); [discriminate|].
  destruct (f_to_i32 (fround (fmul (en_x e) sr))) as [a|]; [|discriminate].
  destruct (f_to_i32 (fround (fmul (en_y e) sr))) as [b|]; [|discriminate].
  destruct (_ && _) eqn:C; cbn [obind]; [|discriminate]. intros H. injection H as <- <- <-.
  rewrite !andb_true_iff in C. lia.
Qed.

Lemma target_lands sr edges d e t : edges_ok edges -> side sr d ->
  target sr edges d (length edges - 1) e = Ok t ->
  forall i x y, (t = Some (i, x, y) <-> lands sr edges e i x y /\ 0 <= x < d /\ 0 <= y < d).
Proof.
  intros Ok (_ & _ & Hd) E i x y. unfold target in E.
  destruct (en_tof e) as [tof|] eqn:Et; [|discriminate].
  destruct (bin_of edges (length edges - 1) tof) as [bin|] eqn:Eb.
  - apply bin_of_spec in Eb; [|exact Ok]. destruct Eb as (Ft & Hp & IB & BL).
    pose proof (pixel_of_spec sr d (en_x e) (en_y e) x y ltac:(lia)) as PS.
    destruct (pixel_of sr d (en_x e) (en_y e)) as [px| | |] eqn:Ep; cbn [obind] in E; try discriminate.
    destruct PS as [PS|PS]; [|discriminate]. injection E as <-. split.
    + intros H. destruct px as [[x' y']|]; [|discriminate]. injection H as -> -> ->.
      destruct PS as [PS _]. destruct (PS eq_refl) as (A & B & C & D & Hx & Hy).
      split; [|auto]. split; [|auto]. exists tof. rewrite Et. auto.
    + intros (((tof' & Et' & _ & _ & IB' & _) & A & B & C & D) & Hx & Hy).
      rewrite Et in Et'. injection Et' as <-.
      destruct PS as [_ PS]. specialize (PS (conj A (conj B (conj C (conj D (conj Hx Hy)))))).
      injection PS as ->. do 2 f_equal. f_equal. eapply in_bin_unique; eassumption.
  - injection E as <-. split; [discriminate|].
    intros (((tof' & Et' & Ft & Hp & IB & BL) & _) & _). rewrite Et in Et'. injection Et' as <-.
    assert (bin_of edges (length edges - 1) tof = Some i) by (apply bin_of_spec; auto). congruence.
Qed.

(** * Incrementing *)

Definition row_ok (d : Z) (row : list Z) : Prop := zlen row = d /\ Forall (fun v => 0 <= v < 2 ^ 32) row.
Definition im_ok (d : Z) (im : image) : Prop := zlen im = d /\ Forall (row_ok d) im.
Lemma shape_eq n d ims : shape n d ims <-> length ims = n /\ Forall (im_ok d) ims.
Proof. reflexivity. Qed.

Lemma set_nth_Forall {A} (P : A -> Prop) l i a l' : set_nth l i a = Some l' ->
  Forall P l -> P a -> Forall P l'.
Proof.
  revert i l'. induction l as [|x l IH]; intros [|i] l' E F Pa; cbn in E; try discriminate;
    inversion F as [|? ? Fx Fl]; subst.
  - injection E as <-. constructor; assumption.
  - destruct (set_nth l i a) as [r|] eqn:Er; [|discriminate]. injection E as <-.
    constructor; [assumption|]. eapply IH; eauto.
Qed.

Lemma set_nth_len {A} (l : list A) i a l' : set_nth l i a = Some l' -> length l' = length l.
Proof. intros E. apply set_nth_spec in E. tauto. Qed.

Lemma u32_range v : 0 <= u32 v < 2 ^ 32.
Proof. apply Z.mod_pos_bound. lia. Qed.

Lemma bump_row_ok d row x : row_ok d row -> (Z.of_nat x < d) ->
  exists row' v, bump_row row x = Some row' /\ row_ok d row' /\ nth_error row x = Some v /\
    (forall j, nth_error row' j = if Nat.eqb j x then Some (u32 (v + 1)) else nth_error row j).
Proof.
  intros (L & F) Hx. unfold bump_row, zlen in *.
  destruct (nth_error row x) as [v|] eqn:E; [|apply nth_error_None in E; lia].
  destruct (set_nth_ok row x (u32 (v + 1))) as (row' & S); [apply nth_error_Some; congruence|].
  exists row', v. split; [exact S|]. split; [|split; [reflexivity|apply (set_nth_spec _ _ _ _ S)]].
  split; [unfold zlen; rewrite (set_nth_len _ _ _ _ S); exact L|].
  eapply set_nth_Forall; [exact S|exact F|apply u32_range].
Qed.

Lemma bump_image_ok d im x y : im_ok d im -> Z.of_nat x < d -> Z.of_nat y < d ->
  exists im' row row', bump_image im x y = Some im' /\ im_ok d im' /\ nth_error im y = Some row /\
    bump_row row x = Some row' /\
    (forall j, nth_error im' j = if Nat.eqb j y then Some row' else nth_error im j).
Proof.
  intros (L & F) Hx Hy. unfold bump_image. unfold zlen in L.
  destruct (nth_error im y) as [row|] eqn:E; [|apply nth_error_None in E; lia].
  assert (Rr : row_ok d row) by (rewrite Forall_forall in F; apply F; eapply nth_error_In; exact E).
  destruct (bump_row_ok d row x Rr Hx) as (row' & v & Br & Rr' & _).
  rewrite Br. destruct (set_nth_ok im y row') as (im' & S); [apply nth_error_Some; congruence|].
  exists im', row, row'. split; [exact S|]. split; [|split; [reflexivity|split; [exact Br|apply (set_nth_spec _ _ _ _ S)]]].
  split; [unfold zlen; rewrite (set_nth_len _ _ _ _ S); exact L|].
  eapply set_nth_Forall; eassumption.
Qed.

Lemma bump_ok n d ims i x y : shape n d ims -> (i < n)%nat -> 0 <= x < d -> 0 <= y < d ->
  exists ims' v, bump ims i (Z.to_nat x) (Z.to_nat y) = Some ims' /\ shape n d ims' /\
    pixel ims i x y = Some v /\
    forall i' x' y', pixel ims' i' x' y' =
      if (Nat.eqb i' i && (x' =? x) && (y' =? y))%bool then Some (u32 (v + 1)) else pixel ims i' x' y'.
Proof.
  intros (L & F) Hi Hx Hy. unfold bump.
  destruct (nth_error ims i) as [im|] eqn:E; [|apply nth_error_None in E; lia].
  assert (Ri : im_ok d im) by (rewrite Forall_forall in F; apply F; eapply nth_error_In; exact E).
  destruct (bump_image_ok d im (Z.to_nat x) (Z.to_nat y) Ri) as (im' & row & row' & Bi & Ri' & Er & Br & Nim);
    [lia|lia|].
  rewrite Bi. destruct (set_nth_ok ims i im') as (ims' & S); [apply nth_error_Some; congruence|].
  destruct (set_nth_spec _ _ _ _ S) as (_ & _ & Nims).
  assert (Rr : row_ok d row).
  { destruct Ri as [_ Ri]. rewrite Forall_forall in Ri. apply Ri. eapply nth_error_In; exact Er. }
  destruct (bump_row_ok d row (Z.to_nat x) Rr ltac:(lia)) as (row2 & v & Br2 & _ & Ev & Nrow).
  rewrite Br in Br2. injection Br2 as <-.
  exists ims', v. split; [exact S|]. split.
  { split; [rewrite (set_nth_len _ _ _ _ S); exact L|]. eapply set_nth_Forall; eassumption. }
  split.
  { unfold pixel. replace ((x <? 0) || (y <? 0)) with false by lia. rewrite E, Er. exact Ev. }
  intros i' x' y'. unfold pixel. destruct ((x' <? 0) || (y' <? 0)) eqn:Neg.
  { replace (Nat.eqb i' i && (x' =? x) && (y' =? y))%bool with false by lia. reflexivity. }
  rewrite Nims. destruct (Nat.eqb_spec i' i) as [->|Ni]; [|reflexivity].
  rewrite E, Nim. destruct (Nat.eqb_spec (Z.to_nat y') (Z.to_nat y)) as [Ey|Ny].
  - assert (y' = y) by lia. subst y'. rewrite Er, Nrow.
    destruct (Nat.eqb_spec (Z.to_nat x') (Z.to_nat x)) as [Ex|Nx].
    + assert (x' = x) by lia. subst x'. rewrite !Z.eqb_refl. reflexivity.
    + replace (x' =? x) with false by lia. reflexivity.
  - replace (y' =? y) with false by lia. rewrite andb_false_r. reflexivity.
Qed.

Definition step_to (d : Z) (t : option (nat * Z * Z)) (ims : list image) : outcome (list image) :=
  match t with
  | None => Ok ims
  | Some (i, x, y) =>
      match bump ims i (Z.to_nat x) (Z.to_nat y) with Some ims' => Ok ims' | None => UB OutOfBounds end
  end.

Lemma add_entry_target sr edges d ims e :
  add_entry sr edges d ims e =
  let! t := target sr edges d (length ims) e in step_to d t ims.
Proof.
  unfold add_entry, target. destruct (en_tof e); [|reflexivity].
  destruct (bin_of _ _ _); [|reflexivity].
  destruct (pixel_of _ _ _ _) as [[[x y]|]| | |]; reflexivity.
Qed.

(** One entry on images of the right shape. *)
Lemma add_entry_ok sr edges d n ims e t : shape n d ims ->
  target sr edges d n e = Ok t ->
  exists ims', add_entry sr edges d ims e = Ok ims' /\ shape n d ims' /\
    forall i x y v, pixel ims i x y = Some v ->
      (t = Some (i, x, y) -> pixel ims' i x y = Some (u32 (v + 1))) /\
      (t <> Some (i, x, y) -> pixel ims' i x y = Some v).
Proof.
  intros Sh E. rewrite add_entry_target. destruct Sh as [L F]. rewrite L, E. cbn [obind].
  destruct t as [[[i x] y]|]; cbn [step_to].
  - destruct (target_bounds _ _ _ _ _ _ _ _ E) as (Hi & Hx & Hy).
    destruct (bump_ok n d ims i x y (conj L F) Hi Hx Hy) as (ims' & v & B & Sh' & Pv & N).
    rewrite B. exists ims'. split; [reflexivity|]. split; [exact Sh'|].
    intros i' x' y' v' Pv'. split.
    + intros H. injection H as <- <- <-. rewrite N, Nat.eqb_refl, !Z.eqb_refl. cbn. congruence.
    + intros H. rewrite N.
      destruct (Nat.eqb_spec i' i) as [->|]; [|exact Pv'].
      destruct (Z.eqb_spec x' x) as [->|]; [|exact Pv'].
      destruct (Z.eqb_spec y' y) as [->|]; [congruence|exact Pv'].
  - exists ims. split; [reflexivity|]. split; [split; assumption|].
    intros i x y v Pv. split; [discriminate|intros _; exact Pv].
Qed.

Lemma add_entry_inv sr edges d n ims e ims' : shape n d ims -> add_entry sr edges d ims e = Ok ims' ->
  exists t, target sr edges d n e = Ok t.
Proof.
  intros [L _]. rewrite add_entry_target, L. destruct (target sr edges d n e); cbn [obind]; try discriminate.
  eauto.
Qed.

Definition hits_px (sr : f64) (edges : list f64) (d : Z) (n : nat) (i : nat) (x y : Z) (e : entry) : Prop :=
  target sr edges d n e = Ok (Some (i, x, y)).

Lemma u32_add a b : u32 (u32 a + b) = u32 (a + b).
Proof. unfold u32. rewrite Zplus_mod_idemp_l. reflexivity. Qed.

Lemma fold_ok sr edges d n es : forall ims, shape n d ims ->
  Forall (fun e => exists t, target sr edges d n e = Ok t) es ->
  exists ims', ofold (add_entry sr edges d) es ims = Ok ims' /\ shape n d ims' /\
    forall i x y v, pixel ims i x y = Some v ->
      exists k, counted (hits_px sr edges d n i x y) es k /\ pixel ims' i x y = Some (u32 (v + k)).
Proof.
  induction es as [|e es IH]; intros ims Sh F; cbn [ofold].
  - exists ims. split; [reflexivity|]. split; [exact Sh|]. intros i x y v Pv. exists 0.
    split; [constructor|]. rewrite Z.add_0_r.
    assert (R : 0 <= v < 2 ^ 32).
    { unfold pixel in Pv. destruct (_ || _); [discriminate|].
      destruct (nth_error ims i) as [im|] eqn:E1; [|discriminate].
      destruct (nth_error im (Z.to_nat y)) as [row|] eqn:E2; [|discriminate].
      destruct Sh as [_ Sh]. rewrite Forall_forall in Sh.
      destruct (Sh im (nth_error_In _ _ E1)) as [_ Si]. rewrite Forall_forall in Si.
      destruct (Si row (nth_error_In _ _ E2)) as [_ Sr]. rewrite Forall_forall in Sr.
      apply Sr. eapply nth_error_In; exact Pv. }
    unfold u32. rewrite Z.mod_small by exact R. exact Pv.
  - inversion F as [|? ? (t & Et) F']; subst.
    destruct (add_entry_ok sr edges d n ims e t Sh Et) as (ims1 & E1 & Sh1 & P1).
    rewrite E1. cbn [obind]. destruct (IH ims1 Sh1 F') as (ims2 & E2 & Sh2 & P2).
    exists ims2. split; [exact E2|]. split; [exact Sh2|]. intros i x y v Pv.
    destruct (P1 i x y v Pv) as [PA PB].
    destruct t as [[[i0 x0] y0]|].
    + assert (D : Some (i0, x0, y0) = Some (i, x, y) \/ Some (i0, x0, y0) <> Some (i, x, y)).
      { destruct (Nat.eq_dec i0 i) as [->|]; [|right; congruence].
        destruct (Z.eq_dec x0 x) as [->|]; [|right; congruence].
        destruct (Z.eq_dec y0 y) as [->|]; [left; reflexivity|right; congruence]. }
      destruct D as [D|D].
      * destruct (P2 i x y _ (PA D)) as (k & C & Pk). exists (k + 1).
        split; [constructor; [unfold hits_px; congruence|exact C]|].
        rewrite Pk, u32_add. do 2 f_equal. ring.
      * destruct (P2 i x y _ (PB D)) as (k & C & Pk). exists k.
        split; [constructor 3; [unfold hits_px; congruence|exact C]|exact Pk].
    + destruct (P2 i x y _ (PB ltac:(discriminate))) as (k & C & Pk). exists k.
      split; [constructor 3; [unfold hits_px; congruence|exact C]|exact Pk].
Qed.

Lemma fold_targets sr edges d n es : forall ims ims', shape n d ims ->
  ofold (add_entry sr edges d) es ims = Ok ims' ->
  Forall (fun e => exists t, target sr edges d n e = Ok t) es.
Proof.
  induction es as [|e es IH]; intros ims ims' Sh; cbn [ofold]; [constructor|].
  destruct (add_entry sr edges d ims e) as [ims1| | |] eqn:E; cbn [obind]; try discriminate.
  intros R. destruct (add_entry_inv _ _ _ _ _ _ _ Sh E) as (t & Et).
  destruct (add_entry_ok sr edges d n ims e t Sh Et) as (ims2 & E2 & Sh2 & _).
  rewrite E in E2. injection E2 as <-. constructor; [eauto|]. eapply IH; eassumption.
Qed.

(** * Counting *)

Lemma counted_unique {A} (P : A -> Prop) l k : counted P l k -> forall k', counted P l k' -> k = k'.
Proof.
  induction 1 as [|a l n Pa C IH|a l n Pa C IH]; intros k' C'; inversion C'; subst;
    try reflexivity; try contradiction.
  - f_equal. apply IH. assumption.
  - apply IH. assumption.
Qed.

Lemma counted_ext {A} (P Q : A -> Prop) l k : (forall a, In a l -> (P a <-> Q a)) ->
  counted P l k -> counted Q l k.
Proof.
  intros H C. induction C as [|a l n Pa C IH|a l n Pa C IH]; [constructor| |].
  - constructor; [apply H; [left; reflexivity|exact Pa]|apply IH; intros b Ib; apply H; right; exact Ib].
  - constructor 3; [intros Q'; apply Pa; apply H; [left; reflexivity|exact Q']|apply IH; intros b Ib; apply H; right; exact Ib].
Qed.

Lemma counted_perm {A} (P : A -> Prop) l l' : Permutation l l' -> forall k, counted P l k -> counted P l' k.
Proof.
  induction 1 as [|a l l' H IH|a b l|l1 l2 l3 H1 IH1 H2 IH2]; intros k C.
  - exact C.
  - inversion C; subst; [constructor; auto|constructor 3; auto].
  - inversion C as [|? ? n1 P1 C1|? ? n1 P1 C1]; subst;
      inversion C1 as [|? ? n2 P2 C2|? ? n2 P2 C2]; subst.
    + apply counted_yes; [assumption|]. apply counted_yes; assumption.
    + apply counted_no; [assumption|]. apply counted_yes; assumption.
    + apply counted_yes; [assumption|]. apply counted_no; assumption.
    + apply counted_no; [assumption|]. apply counted_no; assumption.
  - auto.
Qed.

(** * Images are determined by their pixels *)

Lemma nth_ext_error {A} (a b : list A) : length a = length b ->
  (forall i, (i < length a)%nat -> nth_error a i = nth_error b i) -> a = b.
Proof.
  revert b. induction a as [|x a IH]; intros [|y b] L H; cbn in L; try lia; [reflexivity|].
  f_equal.
  - specialize (H 0%nat ltac:(cbn; lia)). cbn in H. congruence.
  - apply IH; [lia|]. intros i Hi. apply (H (S i)). cbn. lia.
Qed.

Lemma images_ext n d a b : shape n d a -> shape n d b ->
  (forall i x y, pixel a i x y = pixel b i x y) -> a = b.
Proof.
  intros [La Fa] [Lb Fb] H. rewrite Forall_forall in Fa, Fb.
  apply nth_ext_error; [congruence|]. intros i Hi.
  destruct (nth_error a i) as [ia|] eqn:Ea; [|apply nth_error_None in Ea; lia].
  destruct (nth_error b i) as [ib|] eqn:Eb; [|apply nth_error_None in Eb; lia].
  f_equal. destruct (Fa ia (nth_error_In _ _ Ea)) as [Lia Fia].
  destruct (Fb ib (nth_error_In _ _ Eb)) as [Lib Fib]. unfold zlen in *.
  rewrite Forall_forall in Fia, Fib.
  apply nth_ext_error; [lia|]. intros y Hy.
  destruct (nth_error ia y) as [ra|] eqn:Era; [|apply nth_error_None in Era; lia].
  destruct (nth_error ib y) as [rb|] eqn:Erb; [|apply nth_error_None in Erb; lia].
  f_equal. destruct (Fia ra (nth_error_In _ _ Era)) as [Lra _].
  destruct (Fib rb (nth_error_In _ _ Erb)) as [Lrb _].
  apply nth_ext_error; [lia|]. intros x Hx.
  specialize (H i (Z.of_nat x) (Z.of_nat y)). unfold pixel in H.
  replace ((Z.of_nat x <? 0) || (Z.of_nat y <? 0)) with false in H by lia.
  rewrite Ea, Eb, !Nat2Z.id, Era, Erb in H. exact H.
Qed.

Lemma shape_pixel n d a i x y : shape n d a -> (i < n)%nat -> 0 <= x < d -> 0 <= y < d ->
  exists v, pixel a i x y = Some v.
Proof.
  intros Sh Hi Hx Hy. destruct (bump_ok n d a i x y Sh Hi Hx Hy) as (_ & v & _ & _ & P & _). eauto.
Qed.
Lemma pixel_shape n d a i x y v : shape n d a -> pixel a i x y = Some v ->
  (i < n)%nat /\ 0 <= x < d /\ 0 <= y < d.
Proof.
  intros [La Fa] P. unfold pixel in P. destruct ((x <? 0) || (y <? 0)) eqn:Neg; [discriminate|].
  rewrite Forall_forall in Fa.
  destruct (nth_error a i) as [ia|] eqn:Ea; [|discriminate].
  destruct (nth_error ia (Z.to_nat y)) as [ra|] eqn:Era; [|discriminate].
  destruct (Fa ia (nth_error_In _ _ Ea)) as [Lia Fia]. rewrite Forall_forall in Fia.
  destruct (Fia ra (nth_error_In _ _ Era)) as [Lra _]. unfold zlen in *.
  assert (A1 : nth_error a i <> None) by congruence. apply nth_error_Some in A1.
  assert (A2 : nth_error ia (Z.to_nat y) <> None) by congruence. apply nth_error_Some in A2.
  assert (A3 : nth_error ra (Z.to_nat x) <> None) by congruence. apply nth_error_Some in A3. lia.
Qed.

Lemma pixel_ext n d a b : shape n d a -> shape n d b ->
  (forall i x y v w, pixel a i x y = Some v -> pixel b i x y = Some w -> v = w) -> a = b.
Proof.
  intros Sa Sb H. apply (images_ext n d); [exact Sa|exact Sb|]. intros i x y.
  destruct (pixel a i x y) as [v|] eqn:Ea.
  - destruct (pixel_shape _ _ _ _ _ _ _ Sa Ea) as (A & B & C).
    destruct (shape_pixel _ _ b i x y Sb A B C) as (w & Ew). rewrite Ew. f_equal. eauto.
  - destruct (pixel b i x y) as [w|] eqn:Eb; [|reflexivity].
    destruct (pixel_shape _ _ _ _ _ _ _ Sb Eb) as (A & B & C).
    destruct (shape_pixel _ _ a i x y Sa A B C) as (v & Ev). congruence.
Qed.

(** Order of the entries does not matter. *)
Lemma fold_perm sr edges d n es es' ims ims' : shape n d ims -> Permutation es es' ->
  ofold (add_entry sr edges d) es ims = Ok ims' ->
  ofold (add_entry sr edges d) es' ims = Ok ims'.
Proof.
  intros Sh P E. pose proof (fold_targets _ _ _ _ _ _ _ Sh E) as F.
  destruct (fold_ok sr edges d n es ims Sh F) as (i1 & E1 & Sh1 & P1).
  rewrite E in E1. injection E1 as <-.
  assert (F' : Forall (fun e => exists t, target sr edges d n e = Ok t) es')
    by (eapply Permutation_Forall; eassumption).
  destruct (fold_ok sr edges d n es' ims Sh F') as (i2 & E2 & Sh2 & P2).
  rewrite E2. f_equal. apply (pixel_ext n d); [exact Sh2|exact Sh1|].
  intros i x y v w Hv Hw.
  destruct (pixel_shape _ _ _ _ _ _ _ Sh2 Hv) as (A & B & C).
  destruct (shape_pixel _ _ ims i x y Sh A B C) as (u & Eu).
  destruct (P1 i x y u Eu) as (k1 & C1 & Q1). destruct (P2 i x y u Eu) as (k2 & C2 & Q2).
  apply (counted_perm _ _ _ P) in C1. rewrite (counted_unique _ _ _ C1 _ C2) in Q1. congruence.
Qed.

(** * update_all on all entries *)

Lemma ofold_app {A B} (f : A -> B -> outcome A) l l' a :
  ofold f (l ++ l') a = let! a' := ofold f l a in ofold f l' a'.
Proof.
  revert a. induction l as [|x l IH]; intros a; cbn [app ofold obind]; [reflexivity|].
  destruct (f a x); cbn [obind]; try reflexivity. apply IH.
Qed.

Lemma dim_side sr d : dim sr = Ok d <-> side sr d.
Proof.
  unfold dim, side, f_to_i32, f_to_int, int_min, int_max.
  set (v := fmul (f_of_Z 517) sr).
  destruct (is_finite v) eqn:F; [|split; [discriminate|intros (A & _); discriminate]].
  assert (T : Btrunc v = Ztrunc (B2R v)).
  { apply eq_IZR. rewrite Btrunc_correct by exact emax1024.
    apply round_FIX0. auto with typeclass_instances. }
  rewrite T. split.
  - destruct (_ && _) eqn:C; [|discriminate]. intros H. injection H as <-.
    apply andb_true_iff in C. split; [reflexivity|]. split; [reflexivity|lia].
  - intros (_ & <- & B).
    replace ((- 2 ^ 31 <=? Ztrunc (B2R v)) && (Ztrunc (B2R v) <=? 2 ^ 31 - 1)) with true by lia. reflexivity.
Qed.

Lemma add_entry_len sr edges d ims e ims' : add_entry sr edges d ims e = Ok ims' -> length ims' = length ims.
Proof.
  rewrite add_entry_target. destruct (target _ _ _ _ _) as [[[[i x] y]|]| | |]; cbn [obind step_to]; try discriminate.
  - unfold bump. destruct (nth_error ims i); [|discriminate]. destruct (bump_image _ _ _); [|discriminate].
    destruct (set_nth ims i i1) eqn:E; [|discriminate]. intros H. injection H as <-.
    apply (set_nth_len _ _ _ _ E).
  - intros H. injection H as <-. reflexivity.
Qed.
Lemma fold_len sr edges d es : forall ims ims', ofold (add_entry sr edges d) es ims = Ok ims' ->
  length ims' = length ims.
Proof.
  induction es as [|e es IH]; intros ims ims'; cbn [ofold]; [intros H; injection H as <-; reflexivity|].
  destruct (add_entry sr edges d ims e) as [i1| | |] eqn:E; cbn [obind]; try discriminate.
  intros H. apply add_entry_len in E. apply IH in H. congruence.
Qed.

Lemma update_all_flat sr edges hm d bs : dim sr = Ok d -> (2 <= length edges)%nat ->
  forall ims, ims <> [] ->
  update_all sr edges hm ims bs = ofold (add_entry sr edges d) (flat_map (entries hm) bs) ims.
Proof.
  intros Hd He. unfold update_all. induction bs as [|b bs IH]; intros ims Ne; cbn [ofold flat_map]; [reflexivity|].
  rewrite ofold_app. unfold update_images at 1. destruct ims as [|i0 ims0] eqn:Ei; [congruence|]. rewrite <- Ei in *.
  destruct (Nat.ltb_spec (length edges) 2) as [L|_]; [lia|]. rewrite Hd. cbn [obind].
  destruct (ofold (add_entry sr edges d) (entries hm b) ims) as [i1| | |] eqn:E; cbn [obind]; try reflexivity.
  apply IH. apply fold_len in E. intros ->. rewrite Ei in E. discriminate.
Qed.

(** * C29 *)

Lemma C29_create_l sr edges hm bs : bs <> [] -> (2 <= length edges)%nat ->
  create_images sr edges hm bs =
  let! ims := init_images sr edges in update_all sr edges hm ims bs.
Proof.
  intros Nb He. unfold create_images, init_images.
  destruct edges as [|e0 er] eqn:Ee; [cbn in He; lia|]. rewrite <- Ee in *.
  destruct (Nat.ltb_spec (length edges) 2) as [L|_]; [lia|].
  destruct bs as [|b0 br] eqn:Eb; [congruence|]. rewrite <- Eb in *.
  destruct (dim sr) as [d| | |] eqn:Ed; cbn [obind]; try reflexivity.
  destruct (blank (length edges - 1) d) as [ims| | |] eqn:Ebl; cbn [obind]; try reflexivity.
  assert (Ne : ims <> []).
  { unfold blank in Ebl. destruct (_ && _); [discriminate|]. injection Ebl as <-.
    destruct (length edges - 1)%nat eqn:El; [lia|]. discriminate. }
  rewrite (update_all_flat sr edges hm d bs Ed He ims Ne).
  clear Ebl Ne. revert ims. clear. induction bs as [|b bs IH]; intros ims; cbn [ofold flat_map]; [reflexivity|].
  rewrite ofold_app. destruct (ofold (add_entry sr edges d) (entries hm b) ims); cbn [obind]; try reflexivity.
  apply IH.
Qed.

Lemma C29_order_l sr d edges hm n bs bs' ims ims' : side sr d -> (2 <= length edges)%nat ->
  shape n d ims -> Permutation (flat_map (entries hm) bs) (flat_map (entries hm) bs') ->
  update_all sr edges hm ims bs = Ok ims' ->
  update_all sr edges hm ims bs' = Ok ims'.
Proof.
  intros Hs He Sh P. apply dim_side in Hs.
  destruct ims as [|i0 ir] eqn:Ei.
  - intros E. assert (X : forall l, update_all sr edges hm [] l = Ok []).
    { induction l as [|b l IH]; [reflexivity|]. unfold update_all in *. cbn. exact IH. }
    rewrite X in *. exact E.
  - rewrite <- Ei in *. assert (Ne : ims <> []) by congruence.
    rewrite !(update_all_flat sr edges hm d _ Hs He ims Ne). apply (fold_perm _ _ _ n); assumption.
Qed.

Lemma blank_shape n d : 0 <= d -> exists ims, blank n d = Ok ims /\ shape n d ims /\
  forall i x y v, pixel ims i x y = Some v -> v = 0.
Proof.
  intros Hd. unfold blank. replace (d <? 0) with false by lia. cbn [andb]. eexists. split; [reflexivity|].
  split.
  - split; [apply repeat_length|]. apply Forall_forall. intros im I. apply repeat_spec in I. subst im.
    split; [unfold zlen; rewrite repeat_length; lia|]. apply Forall_forall. intros row I.
    apply repeat_spec in I. subst row. split; [unfold zlen; rewrite repeat_length; lia|].
    apply Forall_forall. intros v I. apply repeat_spec in I. lia.
  - intros i x y v. unfold pixel. destruct (_ || _); [discriminate|].
    destruct (nth_error _ i) as [im|] eqn:E; [|discriminate]. apply nth_error_In, repeat_spec in E. subst im.
    destruct (nth_error _ (Z.to_nat y)) as [row|] eqn:E; [|discriminate]. apply nth_error_In, repeat_spec in E.
    subst row. intros E. apply nth_error_In, repeat_spec in E. exact E.
Qed.

(** * C28 *)

Lemma C28_pixels_l sr d edges hm bs ims ims' : edges_ok edges -> side sr d ->
  shape (length edges - 1) d ims ->
  update_all sr edges hm ims bs = Ok ims' ->
  shape (length edges - 1) d ims' /\
  forall i x y v, pixel ims i x y = Some v ->
    exists k, counted (fun e => lands sr edges e i x y) (flat_map (entries hm) bs) k /\
              pixel ims' i x y = Some ((v + k) mod 2 ^ 32).
Proof.
  intros Oe Hs Sh E. pose proof Oe as (He & _). pose proof Hs as Hd. apply dim_side in Hd.
  assert (Ne : ims <> []).
  { intros ->. destruct Sh as [L _]. cbn in L. lia. }
  rewrite (update_all_flat sr edges hm d _ Hd He ims Ne) in E.
  pose proof (fold_targets _ _ _ _ _ _ _ Sh E) as F.
  destruct (fold_ok sr edges d _ _ ims Sh F) as (i1 & E1 & Sh1 & P1).
  rewrite E in E1. injection E1 as <-. split; [exact Sh1|].
  intros i x y v Pv. destruct (P1 i x y v Pv) as (k & C & Pk). exists k. split; [|exact Pk].
  eapply counted_ext; [|exact C]. intros e Ie. unfold hits_px.
  rewrite Forall_forall in F. destruct (F e Ie) as (t & Et).
  pose proof (target_lands sr edges d e t Oe Hs Et i x y) as TL.
  destruct (pixel_shape _ _ _ _ _ _ _ Sh Pv) as (_ & Hx & Hy). rewrite Et. split.
  - intros H. injection H as ->. apply TL. reflexivity.
  - intros L. f_equal. apply TL. auto.
Qed.

(** ** Totals *)

Definition below (B : Z) (ims : list image) : Prop :=
  Forall (Forall (Forall (fun v => v < B))) ims.
Definition sumZ (l : list Z) : Z := fold_right Z.add 0 l.

Lemma sumZ_set l i a b l' : nth_error l i = Some a -> set_nth l i b = Some l' ->
  sumZ l' = sumZ l - a + b.
Proof.
  revert i l'. induction l as [|x l IH]; intros [|i] l' Ha Hs; cbn in *; try discriminate.
  - injection Ha as <-. injection Hs as <-. cbn. lia.
  - destruct (set_nth l i b) as [r|] eqn:Er; [|discriminate]. injection Hs as <-.
    cbn. specialize (IH _ _ Ha Er). unfold sumZ in *. lia.
Qed.

Lemma map_set_nth {A B} (f : A -> B) l i a l' : set_nth l i a = Some l' ->
  set_nth (map f l) i (f a) = Some (map f l').
Proof.
  revert i l'. induction l as [|x l IH]; intros [|i] l' E; cbn in *; try discriminate.
  - injection E as <-. reflexivity.
  - destruct (set_nth l i a) as [r|] eqn:Er; [|discriminate]. injection E as <-.
    rewrite (IH _ _ Er). reflexivity.
Qed.

Lemma below_weaken B ims : below B ims -> below (B + 1) ims.
Proof.
  unfold below. intros H. eapply Forall_impl; [|exact H]. intros im Him.
  eapply Forall_impl; [|exact Him]. intros row Hr. eapply Forall_impl; [|exact Hr]. cbn. intros; lia.
Qed.

Lemma bump_total n d ims i x y ims' B : shape n d ims -> below B ims -> B < 2 ^ 32 ->
  bump ims i x y = Some ims' -> total ims' = total ims + 1 /\ below (B + 1) ims'.
Proof.
  intros [_ Sh] Bl HB E. unfold bump in E.
  destruct (nth_error ims i) as [im|] eqn:Ei; [|discriminate].
  destruct (bump_image im x y) as [im'|] eqn:Eb; [|discriminate]. unfold bump_image in Eb.
  destruct (nth_error im y) as [row|] eqn:Ey; [|discriminate].
  destruct (bump_row row x) as [row'|] eqn:Er; [|discriminate]. unfold bump_row in Er.
  destruct (nth_error row x) as [v|] eqn:Ex; [|discriminate].
  pose proof Bl as Bl0. unfold below in Bl0. rewrite Forall_forall in Bl0, Sh.
  pose proof (Bl0 im (nth_error_In _ _ Ei)) as Bi. pose proof (Sh im (nth_error_In _ _ Ei)) as [_ Si].
  pose proof Bi as Bi0. rewrite Forall_forall in Bi0, Si.
  pose proof (Bi0 row (nth_error_In _ _ Ey)) as Br. pose proof (Si row (nth_error_In _ _ Ey)) as [_ Sr].
  pose proof Br as Br0. rewrite Forall_forall in Br0, Sr.
  pose proof (Br0 v (nth_error_In _ _ Ex)) as Bv. pose proof (Sr v (nth_error_In _ _ Ex)) as Sv. cbn in Bv, Sv.
  assert (U : u32 (v + 1) = v + 1) by (apply Z.mod_small; lia). rewrite U in Er.
  pose proof (sumZ_set _ _ _ _ _ Ex Er) as S1.
  pose proof (map_set_nth sumZ _ _ _ _ Eb) as M1.
  assert (N1 : nth_error (map sumZ im) y = Some (sumZ row)) by (rewrite nth_error_map, Ey; reflexivity).
  pose proof (sumZ_set _ _ _ _ _ N1 M1) as S2.
  pose proof (map_set_nth (fun im => sumZ (map sumZ im)) _ _ _ _ E) as M2.
  assert (N2 : nth_error (map (fun im => sumZ (map sumZ im)) ims) i = Some (sumZ (map sumZ im)))
    by (exact (map_nth_error (fun im => sumZ (map sumZ im)) i ims Ei)).
  pose proof (sumZ_set _ _ _ _ _ N2 M2) as S3.
  split.
  - change (total ims') with (sumZ (map (fun im => sumZ (map sumZ im)) ims')).
    change (total ims) with (sumZ (map (fun im => sumZ (map sumZ im)) ims)). lia.
  - pose proof (below_weaken _ _ Bl) as W.
    eapply set_nth_Forall; [exact E|exact W|].
    assert (Wi : Forall (Forall (fun v => v < B + 1)) im).
    { eapply Forall_impl; [|exact Bi]. intros r Hr. eapply Forall_impl; [|exact Hr]. cbn. intros; lia. }
    eapply set_nth_Forall; [exact Eb|exact Wi|].
    assert (Wr : Forall (fun v => v < B + 1) row).
    { eapply Forall_impl; [|exact Br]. cbn. intros; lia. }
    eapply set_nth_Forall; [exact Er|exact Wr|]. cbn. lia.
Qed.

Lemma fold_total sr edges d n es : forall ims ims' B, shape n d ims -> below B ims ->
  B + zlen es <= 2 ^ 32 ->
  ofold (add_entry sr edges d) es ims = Ok ims' ->
  exists k, counted (fun e => exists i x y, hits_px sr edges d n i x y e) es k /\
    total ims' = total ims + k.
Proof.
  induction es as [|e es IH]; intros ims ims' B Sh Bl HB; cbn [ofold].
  - intros H. injection H as <-. exists 0. split; [constructor|lia].
  - rewrite zlen_cons in HB. pose proof (zlen_nonneg es) as Zp.
    destruct (add_entry sr edges d ims e) as [i1| | |] eqn:E1; cbn [obind]; try discriminate.
    intros E2. destruct (add_entry_inv _ _ _ _ _ _ _ Sh E1) as (t & Et).
    destruct (add_entry_ok sr edges d n ims e t Sh Et) as (i1' & E1' & Sh1 & _).
    rewrite E1 in E1'. injection E1' as <-.
    rewrite add_entry_target in E1. destruct Sh as [L F]. rewrite L, Et in E1. cbn [obind] in E1.
    destruct t as [[[i x] y]|]; cbn [step_to] in E1.
    + destruct (bump ims i (Z.to_nat x) (Z.to_nat y)) as [i2|] eqn:Eb; [|discriminate]. injection E1 as <-.
      destruct (bump_total n d ims i _ _ i2 B (conj L F) Bl ltac:(lia) Eb) as [T1 B1].
      destruct (IH i2 ims' (B + 1) Sh1 B1 ltac:(lia) E2) as (k & C & T2).
      exists (k + 1). split; [constructor; [exists i, x, y; exact Et|exact C]|lia].
    + injection E1 as <-. destruct (IH ims ims' B Sh1 Bl ltac:(lia) E2) as (k & C & T2).
      exists k. split; [constructor 3; [|exact C]|exact T2].
      intros (i & x & y & H). unfold hits_px in H. congruence.
Qed.

Definition on_image (sr : f64) (edges : list f64) (d : Z) (e : entry) : Prop :=
  exists i x y, lands sr edges e i x y /\ 0 <= x < d /\ 0 <= y < d.

Lemma C28_total_l sr d edges hm bs ims ims' B : edges_ok edges -> side sr d ->
  shape (length edges - 1) d ims ->
  (forall i x y v, pixel ims i x y = Some v -> v < B) ->
  B + zlen (flat_map (entries hm) bs) <= 2 ^ 32 ->
  update_all sr edges hm ims bs = Ok ims' ->
  exists k, counted (on_image sr edges d) (flat_map (entries hm) bs) k /\
            total ims' = total ims + k.
Proof.
  intros Oe Hs Sh HP HB E. pose proof Oe as (He & _). pose proof Hs as Hd. apply dim_side in Hd.
  assert (Ne : ims <> []).
  { intros ->. destruct Sh as [L _]. cbn in L. lia. }
  rewrite (update_all_flat sr edges hm d _ Hd He ims Ne) in E.
  pose proof (fold_targets _ _ _ _ _ _ _ Sh E) as F.
  assert (Bl : below B ims).
  { apply Forall_forall. intros im Im. apply In_nth_error in Im. destruct Im as (i & Ei).
    apply Forall_forall. intros row Ir. apply In_nth_error in Ir. destruct Ir as (y & Ey).
    apply Forall_forall. intros v Iv. apply In_nth_error in Iv. destruct Iv as (x & Ex).
    apply (HP i (Z.of_nat x) (Z.of_nat y)). unfold pixel.
    replace ((Z.of_nat x <? 0) || (Z.of_nat y <? 0)) with false by lia.
    unfold image in *. rewrite Ei, !Nat2Z.id, Ey. exact Ex. }
  destruct (fold_total sr edges d _ _ ims ims' B Sh Bl HB E) as (k & C & T).
  exists k. split; [|exact T]. eapply counted_ext; [|exact C]. intros e Ie.
  rewrite Forall_forall in F. destruct (F e Ie) as (t & Et).
  pose proof (target_lands sr edges d e t Oe Hs Et) as TL. unfold on_image, hits_px. rewrite Et.
  split; intros (i & x & y & H); exists i, x, y.
  - injection H as ->. apply TL. reflexivity.
  - f_equal. apply TL. exact H.
Qed.

(** ** Nothing goes wrong on ordinary data *)

(** An entry with a time and coordinates that stay far from the [int] limits
    after scaling. *)
Definition ordinary (sr : f64) (e : entry) : Prop :=
  (exists t, en_tof e = Some t) /\
  forall v, v = en_x e \/ v = en_y e -> is_finite v = true ->
    is_finite (fmul v sr) = true /\ (Rabs (B2R (fmul v sr)) <= IZR (2 ^ 30))%R.

Lemma nearest_range v : is_finite v = true -> (Rabs (B2R v) <= IZR (2 ^ 30))%R ->
  exists z, f_to_i32 (fround v) = Some z.
Proof.
  intros F H. exists (ZnearestA (B2R v)). apply to_i32_round. split; [split; [exact F|reflexivity]|].
  apply Rabs_le_inv in H.
  assert (A : ZnearestA (IZR (- 2 ^ 30)) <= ZnearestA (B2R v) <= ZnearestA (IZR (2 ^ 30))).
  { split; apply (Zrnd_le ZnearestA); [|tauto]. rewrite opp_IZR. tauto. }
  rewrite !(Zrnd_IZR ZnearestA) in A. lia.
Qed.

Lemma update_succeeds_l sr d edges hm bs n ims : side sr d -> (2 <= length edges)%nat ->
  shape n d ims -> Forall (ordinary sr) (flat_map (entries hm) bs) ->
  exists ims', update_all sr edges hm ims bs = Ok ims'.
Proof.
  intros Hs He Sh Ho. apply dim_side in Hs. destruct ims as [|i0 ir] eqn:Ei.
  { exists []. clear. unfold update_all. induction bs as [|b bs IH]; [reflexivity|exact IH]. }
  rewrite <- Ei in *. rewrite (update_all_flat sr edges hm d _ Hs He ims) by congruence.
  destruct (fold_ok sr edges d n (flat_map (entries hm) bs) ims Sh) as (ims' & E & _); [|eauto].
  eapply Forall_impl; [|exact Ho]. intros e ((t & Et) & Hc). unfold target. rewrite Et.
  destruct (bin_of edges n t); [|eauto]. unfold pixel_of.
  destruct (f_isnan (en_x e) || f_isnan (en_y e) || f_isinf (en_x e) || f_isinf (en_y e)) eqn:N.
  { cbn. eauto. }
  assert (Fx : is_finite (en_x e) = true /\ is_finite (en_y e) = true).
  { rewrite !finite_cases. destruct (f_isnan (en_x e)), (f_isnan (en_y e)), (f_isinf (en_x e)), (f_isinf (en_y e));
      try discriminate; split; reflexivity. }
  destruct Fx as [Fx Fy].
  destruct (Hc _ (or_introl eq_refl) Fx) as [A1 A2]. destruct (Hc _ (or_intror eq_refl) Fy) as [B1 B2].
  destruct (nearest_range _ A1 A2) as (x & ->). destruct (nearest_range _ B1 B2) as (y & ->).
  destruct (_ && _); cbn; eauto.
Qed.

(** * C30 *)

Lemma sum_u64_mod l : forall a, fold_left (fun s v => u64 (s + v)) l (u64 a) = u64 (a + sumZ l).
Proof.
  induction l as [|v l IH]; intros a; cbn [fold_left].
  - cbn. rewrite Z.add_0_r. reflexivity.
  - replace (u64 (u64 a + v)) with (u64 (a + v)).
    + rewrite IH. f_equal. cbn. unfold sumZ. lia.
    + unfold u64. rewrite Zplus_mod_idemp_l. reflexivity.
Qed.

Lemma spectral_count_mod im : spectral_count im = u64 (sumZ (map sumZ im)).
Proof.
  unfold spectral_count.
  assert (X : forall a, fold_left (fun s row => u64 (s + sum_u64 row)) im (u64 a) = u64 (a + sumZ (map sumZ im))).
  { induction im as [|row im IH]; intros a; cbn [fold_left map].
    - cbn. rewrite Z.add_0_r. reflexivity.
    - replace (u64 (u64 a + sum_u64 row)) with (u64 (a + sumZ row)).
      + rewrite IH. f_equal. cbn. unfold sumZ. lia.
      + unfold sum_u64. change 0 with (u64 0) at 1. rewrite sum_u64_mod. cbn [Z.add].
        unfold u64. rewrite Zplus_mod_idemp_l, Zplus_mod_idemp_r. reflexivity. }
  specialize (X 0). exact X.
Qed.

Lemma spectral_rows_ok edges : forall counts, length edges = length counts ->
  spectral_rows edges counts = Ok (combine edges counts).
Proof.
  induction edges as [|e edges IH]; intros [|c counts] L; cbn in L; try lia; [reflexivity|].
  cbn [spectral_rows combine]. rewrite IH by lia. reflexivity.
Qed.

Lemma C30_rows_l edges ims : length edges = S (length ims) ->
  write_spectral edges (spectral_counts ims) =
  Ok (combine (tl edges) (map (fun im => total [im] mod 2 ^ 64) ims)).
Proof.
  intros L. destruct edges as [|e edges]; [discriminate|]. cbn [write_spectral tl].
  unfold spectral_counts. rewrite spectral_rows_ok by (rewrite map_length; cbn in L; lia).
  do 2 f_equal. apply map_ext. intros im. rewrite spectral_count_mod.
  unfold total. cbn [map fold_right]. rewrite Z.add_0_r. reflexivity.
Qed.

Lemma spectral_rows_short edges : forall counts, (length counts < length edges)%nat ->
  spectral_rows edges counts = UB OutOfBounds.
Proof.
  induction edges as [|e edges IH]; intros [|c counts] L; cbn in L; try lia; [reflexivity|].
  cbn [spectral_rows]. rewrite IH by lia. reflexivity.
Qed.

Lemma C30_short_l edges ims : (S (length ims) < length edges)%nat \/ edges = [] ->
  write_spectral edges (spectral_counts ims) = UB OutOfBounds.
Proof.
  intros [L| ->]; [|reflexivity]. destruct edges as [|e edges]; [cbn in L; lia|].
  cbn [write_spectral]. apply spectral_rows_short. unfold spectral_counts. rewrite map_length. cbn in L. lia.
Qed.

Lemma C30_degenerate_l sr hm bs d e : side sr d ->
  init_images sr [] = Throw LengthError /\ create_images sr [] hm bs = Throw LengthError /\
  init_images sr [e] = Ok [] /\ create_images sr [e] hm bs = Ok [].
Proof.
  intros Hs. apply dim_side in Hs. unfold init_images, create_images. rewrite Hs. cbn [obind].
  split; [reflexivity|]. split; [reflexivity|]. split; [|reflexivity].
  unfold blank. cbn. rewrite andb_false_r. reflexivity.
Qed.

Lemma C30_no_batches_l sr hm edges i : (2 <= length edges)%nat -> (i < length edges - 1)%nat ->
  exists ims, create_images sr edges hm [] = Ok ims /\ length ims = (length edges - 1)%nat /\
    nth_error ims i = Some [].
Proof.
  intros He Hi. unfold create_images. destruct edges as [|e0 er] eqn:Ee; [cbn in He; lia|]. rewrite <- Ee in *.
  destruct (Nat.ltb_spec (length edges) 2); [lia|]. eexists. split; [reflexivity|].
  split; [apply repeat_length|]. rewrite nth_error_repeat; [reflexivity|exact Hi].
Qed.

(** * Detected hits without super resolution *)

Lemma scale_one v z : is_int v z -> Z.abs z <= 2 ^ 53 -> is_int (fmul v (f_of_Z 1)) z.
Proof.
  intros H B. replace z with (z * 1) by lia. apply is_int_mul; [exact H|apply is_int_of_Z; lia|lia].
Qed.

Lemma nearest_int v z z' : is_int v z -> (nearest v z' <-> z' = z).
Proof.
  intros [F E]. unfold nearest. rewrite E, (Zrnd_IZR ZnearestA). split; [intros [_ H]; congruence|intros ->; auto].
Qed.

Lemma side_one : side (f_of_Z 1) 517.
Proof.
  destruct (scale_one (f_of_Z 517) 517 (is_int_of_Z 517 ltac:(lia)) ltac:(lia)) as [F E].
  split; [exact F|]. rewrite E, Ztrunc_IZR. split; [reflexivity|lia].
Qed.

Lemma hit_lands_l edges h i x y : 0 <= h_x h < 2 ^ 31 -> 0 <= h_y h < 2 ^ 31 ->
  (lands (f_of_Z 1) edges (entry_of_hit h) i x y <->
   x = h_x h /\ y = h_y h /\
   exists tof, tof_ns h = Some tof /\ is_finite tof = true /\ (0 <= B2R tof)%R /\
     in_bin edges (fdiv tof (f_of_Z 1000000000)) i /\ before_last edges (fdiv tof (f_of_Z 1000000000))).
Proof.
  intros Hx Hy. unfold lands, entry_of_hit. cbn [en_x en_y en_tof].
  pose proof (is_int_of_Z (h_x h) ltac:(lia)) as Ix. pose proof (is_int_of_Z (h_y h) ltac:(lia)) as Iy.
  pose proof (nearest_int _ _ x (scale_one _ _ Ix ltac:(lia))) as Nx.
  pose proof (nearest_int _ _ y (scale_one _ _ Iy ltac:(lia))) as Ny.
  rewrite Nx, Ny. destruct Ix as [Fx _]. destruct Iy as [Fy _]. tauto.
Qed.

Lemma hit_ordinary h : 0 <= h_x h < 2 ^ 30 -> 0 <= h_y h < 2 ^ 30 -> tof_ns h <> None ->
  ordinary (f_of_Z 1) (entry_of_hit h).
Proof.
  intros Hx Hy Ht. split; [cbn; destruct (tof_ns h); [eauto|congruence]|].
  intros v Hv _.
  assert (X : exists z, 0 <= z < 2 ^ 30 /\ is_int v z).
  { destruct Hv as [->| ->]; cbn; [exists (h_x h)|exists (h_y h)]; (split; [lia|apply is_int_of_Z; lia]). }
  destruct X as (z & Hz & I). destruct (scale_one v z I ltac:(lia)) as [F E].
  split; [exact F|]. rewrite E, <- abs_IZR. apply IZR_le. lia.
Qed.

(** Boolean form of [edges_ok] for concrete lists. *)
Fixpoint incb (l : list f64) : bool :=
  match l with
  | [] => true
  | a :: r => forallb (fun b => flt a b) r && incb r
  end.
Lemma edges_ok_check l : (2 <=? zlen l) && forallb is_finite l && incb l = true -> edges_ok l.
Proof.
  intros H. rewrite !andb_true_iff in H. destruct H as [[A B] C]. rewrite forallb_forall in B.
  apply Z.leb_le in A. split; [unfold zlen, f64 in *; lia|]. split; [apply Forall_forall; exact B|].
  clear A. induction l as [|a r IH]; [constructor|]. cbn in C. apply andb_true_iff in C. destruct C as [C D].
  constructor; [apply IH; [intros x I; apply B; right; exact I|exact D]|].
  rewrite forallb_forall in C. apply Forall_forall. intros b I. specialize (C b I).
  rewrite flt_R in C; [|apply B; left; reflexivity|apply B; right; exact I].
  destruct (Rlt_bool_spec (B2R a) (B2R b)); [assumption|discriminate].
Qed.

Lemma lands_unique_l sr edges e i x y i' x' y' : edges_ok edges ->
  lands sr edges e i x y -> lands sr edges e i' x' y' -> i = i' /\ x = x' /\ y = y'.
Proof.
  intros Oe ((t & Et & _ & _ & B & _) & _ & _ & [_ X] & [_ Y]) ((t' & Et' & _ & _ & B' & _) & _ & _ & [_ X'] & [_ Y']).
  rewrite Et in Et'. injection Et' as <-. split; [eapply in_bin_unique; eassumption|]. split; congruence.
Qed.

Lemma C27_total_l edges t : edges_ok edges ->
  (exists a, nth_error edges 0 = Some a /\ (B2R a < B2R t)%R) -> before_last edges t ->
  exists i, in_bin edges t i /\ forall j, in_bin edges t j -> j = i.
Proof.
  intros Oe A B. destruct (in_bin_exists edges t Oe A B) as (i & I). exists i. split; [exact I|].
  intros j J. eapply in_bin_unique; eassumption.
Qed.

Lemma C27_zero_l sr edges hm ims b e z :
  edges_ok edges -> nth_error edges 0 = Some z -> B2R z = 0%R ->
  entries hm b = [e] -> en_tof e = Some (f_of_Z 0) -> length ims = (length edges - 1)%nat ->
  forall d, side sr d -> update_images sr edges hm ims b = Ok ims.
Proof.
  intros Oe Ez Rz Ee Et L d Hs. apply dim_side in Hs. unfold update_images.
  destruct ims as [|i0 ir] eqn:Ei; [reflexivity|]. rewrite <- Ei in *.
  destruct (Nat.ltb_spec (length edges) 2); [reflexivity|]. rewrite Hs, Ee. cbn [obind ofold].
  unfold add_entry. rewrite Et, L. rewrite (first_edge_lost edges (f_of_Z 0) z Oe Ez); [reflexivity|].
  rewrite Rz. destruct (is_int_of_Z 0 ltac:(lia)) as [F0 E0]. destruct e9_int as [_ E9].
  destruct (fdiv_correct (f_of_Z 0) c_1e9 0) as [A _]; [lia|exact F0|rewrite E9; lra| |].
  - rewrite E0, E9. unfold Rdiv. rewrite Rmult_0_l, Rabs_R0. apply bpow_ge_0.
  - rewrite A, E0. unfold Rdiv. rewrite Rmult_0_l. apply (rnd_IZR 0). lia.
Qed.

Lemma C28_hits_l edges bs n ims : (2 <= length edges)%nat ->
  shape n 517 ims ->
  Forall (fun h => 0 <= h_x h < 2 ^ 30 /\ 0 <= h_y h < 2 ^ 30 /\ tof_ns h <> None)
    (flat_map t_hits bs) ->
  exists ims', update_all (f_of_Z 1) edges true ims bs = Ok ims'.
Proof.
  intros He Sh F. apply (update_succeeds_l _ 517 _ _ _ n); [exact side_one|exact He|exact Sh|].
  rewrite Forall_forall in *. intros e Ie. apply in_flat_map in Ie. destruct Ie as (b & Ib & Ie).
  unfold entries in Ie. apply in_map_iff in Ie. destruct Ie as (h & <- & Ih).
  destruct (F h) as (A & B & C); [apply in_flat_map; eauto|]. apply hit_ordinary; assumption.
Qed.

Lemma C28_events_l sr d edges bs n ims : side sr d -> (2 <= length edges)%nat ->
  shape n d ims ->
  Forall (fun e => forall v, v = n_x e \/ v = n_y e -> is_finite v = true ->
            is_finite (fmul v sr) = true /\ (Rabs (B2R (fmul v sr)) <= IZR (2 ^ 30))%R)
    (flat_map t_neutrons bs) ->
  exists ims', update_all sr edges false ims bs = Ok ims'.
Proof.
  intros Hs He Sh F. apply (update_succeeds_l _ d _ _ _ n); [exact Hs|exact He|exact Sh|].
  rewrite Forall_forall in *. intros e Ie. apply in_flat_map in Ie. destruct Ie as (b & Ib & Ie).
  unfold entries in Ie. apply in_map_iff in Ie. destruct Ie as (h & <- & Ih).
  split; [cbn; eauto|]. cbn [en_x en_y entry_of_neutron]. apply F. apply in_flat_map. eauto.
Qed.

Lemma C28_uninit_l sr d edges ims b h rest : side sr d ->
  (2 <= length edges)%nat -> ims <> [] -> t_hits b = h :: rest -> tof_ns h = None ->
  update_images sr edges true ims b = UB Uninitialised.
Proof.
  intros Hs He Ne Eh Et. apply dim_side in Hs. unfold update_images.
  destruct ims as [|i0 ir] eqn:Ei; [congruence|]. rewrite <- Ei in *.
  destruct (Nat.ltb_spec (length edges) 2); [lia|]. rewrite Hs. cbn [obind]. unfold entries. rewrite Eh.
  cbn [map ofold]. unfold add_entry at 1. cbn [entry_of_hit en_tof]. rewrite Et. reflexivity.
Qed.

Lemma C30_resolution_l sr edges hm b bs : (2 <= length edges)%nat ->
  (forall d, side sr d -> d < 0 -> init_images sr edges = Throw LengthError /\ create_images sr edges hm (b :: bs) = Throw LengthError) /\
  ((forall d, ~ side sr d) -> init_images sr edges = UB BadConversion /\ create_images sr edges hm (b :: bs) = UB BadConversion).
Proof.
  intros L. unfold init_images, create_images. destruct edges as [|e0 er] eqn:Ee; [cbn in L; lia|]. rewrite <- Ee in *.
  destruct (Nat.ltb_spec (length edges) 2); [lia|]. split.
  - intros d Hs N. apply dim_side in Hs. rewrite Hs. cbn [obind]. unfold blank. replace (d <? 0) with true by lia.
    replace (Nat.eqb (length edges - 1) 0) with false by (symmetry; apply Nat.eqb_neq; lia). split; reflexivity.
  - intros N. assert (E : dim sr = UB BadConversion).
    { destruct (dim sr) as [d| | |] eqn:D; [elim (N d); apply dim_side; exact D|..]; unfold dim in D; destruct (f_to_i32 _); congruence. }
    rewrite E. split; reflexivity.
Qed.
