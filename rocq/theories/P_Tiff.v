(** Proofs about the saved images. *)
From Verif Require Export S_Tiff P_Tof.
From Coq Require Import Lia ZifyBool Permutation DecimalNat DecimalFacts Ascii.
Global Open Scope Z_scope.
Global Open Scope list_scope.

(** * File names *)

Lemma app_inj_l (a b c : string) : (a ++ b = a ++ c)%string -> b = c.
Proof. induction a as [|ch a IH]; cbn; [auto|]. intros H. injection H as H. auto. Qed.

Lemma app_assoc_s (a b c : string) : ((a ++ b) ++ c = a ++ (b ++ c))%string.
Proof. induction a as [|ch a IH]; cbn; [reflexivity|]. rewrite IH. reflexivity. Qed.

Lemma length_app_s (a b : string) : String.length (a ++ b) = (String.length a + String.length b)%nat.
Proof. induction a; cbn; [reflexivity|]. rewrite IHa. reflexivity. Qed.

Lemma app_inj_r (a b c : string) : (a ++ c = b ++ c)%string -> a = b.
Proof.
  revert b. induction a as [|ch a IH]; intros b H.
  - destruct b as [|ch' b]; [reflexivity|]. apply (f_equal String.length) in H.
    rewrite !length_app_s in H. cbn in H. lia.
  - destruct b as [|ch' b].
    + apply (f_equal String.length) in H. rewrite !length_app_s in H. cbn in H. lia.
    + cbn in H. injection H as -> H. f_equal. auto.
Qed.

Lemma pad4_value d : Nat.of_uint (pad4 d) = Nat.of_uint d.
Proof.
  unfold pad4. destruct (nb_digits d) as [|[|[|[|k]]]]; reflexivity.
Qed.

Lemma to_uint_not_nil n : Nat.to_uint n <> Nil.
Proof.
  intros H. pose proof (Unsigned.of_to n) as E. rewrite H in E. cbn in E. subst n. discriminate.
Qed.

Lemma pad4_not_nil d : d <> Nil -> pad4 d <> Nil.
Proof.
  unfold pad4. destruct (nb_digits d) as [|[|[|[|k]]]]; intros H; try discriminate; exact H.
Qed.

Lemma digits4_inj n m : digits4 n = digits4 m -> n = m.
Proof.
  unfold digits4. intros H. apply (f_equal NilZero.uint_of_string) in H.
  rewrite !NilZero.usu in H by (apply pad4_not_nil, to_uint_not_nil).
  injection H as H. apply (f_equal Nat.of_uint) in H. rewrite !pad4_value, !Unsigned.of_to in H. exact H.
Qed.

Lemma tiff_name_inj dir base i j : tiff_name dir base i = tiff_name dir base j -> i = j.
Proof.
  unfold tiff_name. intros H. repeat apply app_inj_l in H. apply app_inj_r in H.
  apply digits4_inj in H. lia.
Qed.

Lemma tiff_not_spectra dir base i : tiff_name dir base i <> spectra_name dir base.
Proof.
  unfold tiff_name, spectra_name. intros H. repeat apply app_inj_l in H. discriminate.
Qed.

Lemma write_same fs p c : write_file fs p c p = Some c.
Proof. unfold write_file. rewrite String.eqb_refl. reflexivity. Qed.
Lemma write_other fs p c q : q <> p -> write_file fs p c q = fs q.
Proof. intros H. unfold write_file. destruct (String.eqb_spec q p); [contradiction|reflexivity]. Qed.

(** * Scan lines *)

Definition good_row (w : Z) (row : list Z) : Prop := zlen row = w /\ Forall (fun v => 0 <= v < 2 ^ 32) row.

Lemma skip4 {A} (a b c d : A) l x : 0 <= x -> skipn (Z.to_nat (4 * (x + 1))) (a :: b :: c :: d :: l) = skipn (Z.to_nat (4 * x)) l.
Proof. intros H. replace (Z.to_nat (4 * (x + 1))) with (4 + Z.to_nat (4 * x))%nat by lia. reflexivity. Qed.

Lemma sample_0 a b c d l : sample (a :: b :: c :: d :: l) 0 = Some (a + b * 2 ^ 8 + c * 2 ^ 16 + d * 2 ^ 24).
Proof. reflexivity. Qed.
Lemma sample_S a b c d l x : 0 <= x -> sample (a :: b :: c :: d :: l) (x + 1) = sample l x.
Proof. intros H. unfold sample. rewrite skip4 by exact H. reflexivity. Qed.

Lemma word_value v : 0 <= v < 2 ^ 32 ->
  v mod 256 + v / 256 mod 256 * 2 ^ 8 + v / 65536 mod 256 * 2 ^ 16 + v / 16777216 mod 256 * 2 ^ 24 = v.
Proof.
  intros H. pose proof (Z.div_mod v 256 ltac:(lia)) as A.
  pose proof (Z.div_mod (v / 256) 256 ltac:(lia)) as B.
  pose proof (Z.div_mod (v / 65536) 256 ltac:(lia)) as C.
  pose proof (Z.div_mod (v / 16777216) 256 ltac:(lia)) as D.
  rewrite Z.div_div in B by lia. rewrite Z.div_div in C by lia. rewrite Z.div_div in D by lia.
  change (256 * 256) with 65536 in B. change (65536 * 256) with 16777216 in C.
  change (16777216 * 256) with (2 ^ 32) in D. rewrite (Z.div_small v (2 ^ 32)) in D by lia. lia.
Qed.

Lemma sample_row row : Forall (fun v => 0 <= v < 2 ^ 32) row -> forall x,
  sample (row_bytes row) (Z.of_nat x) = nth_error row x.
Proof.
  induction 1 as [|v row Hv F IH]; intros x.
  - unfold sample, row_bytes. cbn [flat_map]. rewrite skipn_nil. destruct x; reflexivity.
  - unfold row_bytes. cbn [flat_map word_bytes app]. destruct x as [|x].
    + rewrite sample_0. rewrite word_value by exact Hv. reflexivity.
    + replace (Z.of_nat (S x)) with (Z.of_nat x + 1) by lia. rewrite sample_S by lia. apply IH.
Qed.

Lemma row_bytes_len row : zlen (row_bytes row) = 4 * zlen row.
Proof.
  unfold zlen. induction row as [|v row IH]; [reflexivity|].
  unfold row_bytes in *. cbn [flat_map word_bytes app length]. lia.
Qed.

Lemma row_bytes_ok row : bytes_ok (row_bytes row).
Proof.
  unfold bytes_ok, row_bytes. induction row as [|v row IH]; [constructor|]. cbn [flat_map word_bytes app].
  repeat (constructor; [unfold is_byte; apply Z.mod_pos_bound; lia|]). exact IH.
Qed.

Lemma words_sample n : forall bytes, zlen bytes = 4 * Z.of_nat n -> bytes_ok bytes ->
  length (words n bytes) = n /\ Forall (fun v => 0 <= v < 2 ^ 32) (words n bytes) /\
  forall x, nth_error (words n bytes) x = sample bytes (Z.of_nat x).
Proof.
  induction n as [|n IH]; intros bytes L B.
  - destruct bytes; [|unfold zlen in L; cbn in L; lia]. split; [reflexivity|]. split; [constructor|].
    intros x. unfold sample. rewrite skipn_nil. destruct x; reflexivity.
  - destruct bytes as [|a [|b [|c [|d r]]]]; try (unfold zlen in L; cbn in L; lia).
    inversion B as [|? ? Ba B1]; subst. inversion B1 as [|? ? Bb B2]; subst.
    inversion B2 as [|? ? Bc B3]; subst. inversion B3 as [|? ? Bd B4]; subst. unfold is_byte in *.
    destruct (IH r) as (I1 & I2 & I3); [unfold zlen in *; cbn [length] in L; lia|exact B4|].
    cbn [words length]. split; [lia|]. split.
    + constructor; [|exact I2]. unfold le32. lia.
    + intros [|x]; cbn [nth_error].
      * change (Z.of_nat 0) with 0. rewrite sample_0. f_equal. unfold le32. lia.
      * replace (Z.of_nat (S x)) with (Z.of_nat x + 1) by lia. rewrite sample_S by lia. apply I3.
Qed.

Lemma add_cols_ok : forall n row scan, length row = n -> length scan = n ->
  exists r, add_cols n row scan = Ok r /\ length r = n /\ Forall (fun v => 0 <= v < 2 ^ 32) r /\
    forall x v s, nth_error row x = Some v -> nth_error scan x = Some s -> nth_error r x = Some (u32 (v + s)).
Proof.
  induction n as [|n IH]; intros row scan Lr Ls.
  - exists row. destruct row; [|discriminate]. split; [reflexivity|]. split; [reflexivity|].
    split; [constructor|]. intros [|x] v s H; discriminate.
  - destruct row as [|v row]; [discriminate|]. destruct scan as [|s scan]; [discriminate|].
    destruct (IH row scan) as (r & E & L & F & N); [cbn in Lr; lia|cbn in Ls; lia|].
    cbn [add_cols]. rewrite E. cbn [obind]. eexists. split; [reflexivity|]. split; [cbn; lia|].
    split; [constructor; [apply u32_range|exact F]|].
    intros [|x] v' s' Hv Hs; cbn in *; [injection Hv as <-; injection Hs as <-; reflexivity|eauto].
Qed.

Lemma accumulate_ok w : 0 <= w -> forall im old, Forall (good_row w) im ->
  length old = length im -> Forall (fun b => zlen b = 4 * w /\ bytes_ok b) old ->
  exists im', accumulate w im old = Ok im' /\ length im' = length im /\ Forall (good_row w) im' /\
    forall x y row bytes v s, nth_error im y = Some row -> nth_error row x = Some v ->
      nth_error old y = Some bytes -> sample bytes (Z.of_nat x) = Some s ->
      exists row', nth_error im' y = Some row' /\ nth_error row' x = Some (u32 (v + s)).
Proof.
  intros Hw. induction im as [|row im IH]; intros old F L O.
  - exists []. split; [reflexivity|]. split; [reflexivity|]. split; [constructor|].
    intros x [|y] row bytes v s H; discriminate.
  - destruct old as [|b old]; [discriminate|]. inversion F as [|? ? [Lr Rr] F']; subst.
    inversion O as [|? ? [Lb Bb] O']; subst.
    destruct (IH old F') as (im' & E & Li & Fi & N); [cbn in L; lia|exact O'|].
    cbn [accumulate hd tl]. unfold read_scanline. replace (zlen b >? 4 * zlen row) with false by lia. cbn [obind].
    destruct (words_sample (Z.to_nat (zlen row)) b) as (W1 & W2 & W3); [lia|exact Bb|].
    destruct (add_cols_ok (Z.to_nat (zlen row)) row (words (Z.to_nat (zlen row)) b)) as (r & Er & Lr & Fr & Nr);
      [unfold zlen; lia|exact W1|].
    rewrite Er, E. cbn [obind]. eexists. split; [reflexivity|]. split; [cbn; lia|].
    split; [constructor; [split; [unfold zlen in *; lia|exact Fr]|exact Fi]|].
    intros x [|y] row2 bytes v s Hr Hv Hb Hs; cbn in *.
    + injection Hr as <-. injection Hb as <-. exists r. split; [reflexivity|]. apply Nr; [exact Hv|].
      rewrite W3. exact Hs.
    + eauto.
Qed.

Lemma write_rows_ok w : forall im, Forall (good_row w) im -> write_rows w im = Ok (map row_bytes im).
Proof.
  induction im as [|row im IH]; intros F; [reflexivity|]. inversion F as [|? ? [L R] F']; subst.
  cbn [write_rows map]. replace (zlen row <? zlen row) with false by lia. rewrite (IH F'). cbn [obind].
  do 3 f_equal. unfold zlen. rewrite Nat2Z.id. apply firstn_all.
Qed.

Lemma proper_rows w im : Forall (good_row w) im -> proper w (zlen im) (map row_bytes im).
Proof.
  intros F. split; [unfold zlen; rewrite map_length; reflexivity|]. apply Forall_forall. intros b I.
  apply in_map_iff in I. destruct I as (row & <- & I). rewrite Forall_forall in F. destruct (F row I) as [L _].
  rewrite row_bytes_len, L. split; [reflexivity|apply row_bytes_ok].
Qed.

(** * One bin *)

Definition px (im : image) (x y : Z) : option Z :=
  if (x <? 0) || (y <? 0) then None else
  match nth_error im (Z.to_nat y) with Some row => nth_error row (Z.to_nat x) | None => None end.

Lemma rows_disk fs p w h im x y v : Forall (good_row w) im -> fs p = Some (Tiff w h (map row_bytes im)) ->
  px im x y = Some v -> disk fs p x y = Some v.
Proof.
  intros F E P. unfold disk, px in *. rewrite E. destruct ((x <? 0) || (y <? 0)) eqn:N; [discriminate|].
  rewrite nth_error_map. destruct (nth_error im (Z.to_nat y)) as [row|] eqn:Ey; [|discriminate]. cbn [option_map].
  rewrite Forall_forall in F. destruct (F row (nth_error_In _ _ Ey)) as [_ R].
  replace x with (Z.of_nat (Z.to_nat x)) by lia. rewrite (sample_row row R). exact P.
Qed.

Lemma save_bin_ok writable dir base fs bin w h (im : image) : 0 < h -> 0 <= w ->
  zlen im = h -> Forall (good_row w) im ->
  (saved fs (tiff_name dir base bin) w h \/ unrelated fs (tiff_name dir base bin) w h) ->
  writable (tiff_name dir base bin) = true ->
  exists fs', save_bin writable dir base fs bin im = Ok fs' /\
    (forall q, q <> tiff_name dir base bin -> fs' q = fs q) /\
    saved fs' (tiff_name dir base bin) w h /\
    forall x y v u, px im x y = Some v -> prior fs (tiff_name dir base bin) w h x y u ->
      disk fs' (tiff_name dir base bin) x y = Some ((u + v) mod 2 ^ 32).
Proof.
  intros Hh Hw Lim F Ex Wr. unfold save_bin. cbv zeta. set (name := tiff_name dir base bin) in *.
  destruct im as [|row0 imr] eqn:Eim; [unfold zlen in Lim; cbn in Lim; lia|]. rewrite <- Eim in *.
  assert (R0 : zlen row0 = w).
  { rewrite Eim in F. apply Forall_inv in F. apply F. }
  rewrite R0, Lim, Wr.
  assert (X : exists acc,
    match fs name with
    | Some (Tiff w' h' old) => if (w' =? w) && (h' =? h) then accumulate w im old else Ok im
    | _ => Ok im
    end = Ok acc /\ length acc = length im /\ Forall (good_row w) acc /\
    forall x y v u, px im x y = Some v -> prior fs name w h x y u ->
      px acc x y = Some ((u + v) mod 2 ^ 32)).
  { destruct Ex as [(rows & Er & Lr & Pr)|U].
    - rewrite Er, !Z.eqb_refl. cbn [andb].
      destruct (accumulate_ok w Hw im rows F ltac:(unfold zlen in *; lia) Pr) as (acc & E & L & Fa & N).
      exists acc. split; [exact E|]. split; [exact L|]. split; [exact Fa|].
      intros x y v u P Pu. unfold px in *. destruct ((x <? 0) || (y <? 0)) eqn:Neg; [discriminate|].
      destruct (nth_error im (Z.to_nat y)) as [row|] eqn:Ey; [|discriminate].
      destruct Pu as [u S D|U].
      + unfold disk in D. rewrite Er in D. destruct (nth_error rows (Z.to_nat y)) as [b|] eqn:Eb; [|discriminate].
        replace x with (Z.of_nat (Z.to_nat x)) in D by lia.
        destruct (N (Z.to_nat x) (Z.to_nat y) row b v u Ey P Eb D) as (row' & Ey' & Ex').
        rewrite Ey', Ex'. unfold u32. do 2 f_equal. lia.
      + destruct (U _ _ _ Er); congruence.
    - exists im. split.
      { destruct (fs name) as [[w' h' old| |]|] eqn:Er; try reflexivity.
        destruct (U _ _ _ Er) as [C|C].
        - replace (w' =? w) with false by lia. reflexivity.
        - replace (h' =? h) with false by lia. rewrite andb_false_r. reflexivity. }
      split; [reflexivity|]. split; [exact F|]. intros x y v u P Pu.
      destruct Pu as [u (rows & Er & _) D|_].
      + destruct (U _ _ _ Er); congruence.
      + rewrite Z.add_0_l. rewrite Z.mod_small; [exact P|].
        unfold px in P. destruct ((x <? 0) || (y <? 0)); [discriminate|].
        destruct (nth_error im (Z.to_nat y)) as [row|] eqn:Ey; [|discriminate].
        rewrite Forall_forall in F. destruct (F row (nth_error_In _ _ Ey)) as [_ R].
        rewrite Forall_forall in R. apply R. eapply nth_error_In; exact P. }
  destruct X as (acc & Ea & La & Fa & Na). rewrite Ea. cbn [obind].
  rewrite (write_rows_ok w acc Fa). cbn [obind]. eexists. split; [reflexivity|].
  split; [intros q Hq; apply write_other; exact Hq|].
  assert (Hn : write_file fs name (Tiff w h (map row_bytes acc)) name = Some (Tiff w h (map row_bytes acc)))
    by apply write_same.
  split.
  - exists (map row_bytes acc). split; [exact Hn|]. replace h with (zlen acc) by (unfold zlen in *; lia).
    apply proper_rows. exact Fa.
  - intros x y v u P Pu. eapply rows_disk; [exact Fa|exact Hn|]. eauto.
Qed.

Lemma pixel_px ims i x y v : pixel ims i x y = Some v -> exists im, nth_error ims i = Some im /\ px im x y = Some v.
Proof.
  unfold pixel, px. destruct (_ || _); [discriminate|]. destruct (nth_error ims i) as [im|]; [|discriminate].
  eauto.
Qed.

(** * All bins, in any order *)

Lemma prior_ext fs fs' p w h x y u : fs p = fs' p -> prior fs p w h x y u -> prior fs' p w h x y u.
Proof.
  intros E [v (rows & Er & Pr) D|U].
  - constructor; [exists rows; rewrite <- E; auto|]. unfold disk in *. rewrite <- E. exact D.
  - apply prior_none. intros w' h' rows Er. rewrite <- E in Er. eauto.
Qed.
Lemma saved_ext fs fs' p w h : fs p = fs' p -> saved fs p w h -> saved fs' p w h.
Proof. intros E (rows & Er & Pr). exists rows. rewrite <- E. auto. Qed.
Lemma unrelated_ext fs fs' p w h : fs p = fs' p -> unrelated fs p w h -> unrelated fs' p w h.
Proof. intros E U w' h' rows Er. rewrite <- E in Er. eauto. Qed.

Lemma save_bins_ok writable dir base n w h ims : 0 < h -> 0 <= w -> stack n w h ims ->
  (forall i, (i < n)%nat -> writable (tiff_name dir base i) = true) ->
  forall order fs, NoDup order -> (forall i, In i order -> (i < n)%nat) ->
  (forall i, (i < n)%nat -> saved fs (tiff_name dir base i) w h \/ unrelated fs (tiff_name dir base i) w h) ->
  exists fs', save_bins writable dir base ims order fs = Ok fs' /\
    (forall q, (forall i, In i order -> q <> tiff_name dir base i) -> fs' q = fs q) /\
    (forall i, In i order -> saved fs' (tiff_name dir base i) w h) /\
    forall i x y v u, In i order -> pixel ims i x y = Some v -> prior fs (tiff_name dir base i) w h x y u ->
      disk fs' (tiff_name dir base i) x y = Some ((u + v) mod 2 ^ 32).
Proof.
  intros Hh Hw [Ln Fs] Wr. unfold save_bins. induction order as [|i order IH]; intros fs ND Hi Hf; cbn [ofold].
  - exists fs. split; [reflexivity|]. split; [reflexivity|]. split; [intros i []|intros i x y v u []].
  - inversion ND as [|? ? Ni ND']; subst.
    pose proof (Hi i (or_introl eq_refl)) as Li.
    destruct (nth_error ims i) as [im|] eqn:Ei; [|apply nth_error_None in Ei; lia].
    rewrite Forall_forall in Fs. destruct (Fs im (nth_error_In _ _ Ei)) as [Lim Fim].
    destruct (save_bin_ok writable dir base fs i w h im Hh Hw Lim Fim (Hf i Li) (Wr i Li))
      as (fs1 & E1 & O1 & S1 & D1).
    rewrite E1. cbn [obind].
    destruct (IH fs1 ND') as (fs2 & E2 & O2 & S2 & D2).
    { intros j Hj. apply Hi. right. exact Hj. }
    { intros j Hj. destruct (Nat.eq_dec j i) as [->|Ne]; [left; exact S1|].
      assert (Q : fs1 (tiff_name dir base j) = fs (tiff_name dir base j)).
      { apply O1. intros C. apply tiff_name_inj in C. congruence. }
      destruct (Hf j Hj) as [A|A]; [left; eapply saved_ext; [symmetry; exact Q|exact A]|
                                    right; eapply unrelated_ext; [symmetry; exact Q|exact A]]. }
    exists fs2. split; [exact E2|].
    assert (Keep : fs2 (tiff_name dir base i) = fs1 (tiff_name dir base i)).
    { apply O2. intros j Hj C. apply tiff_name_inj in C. congruence. }
    split; [|split].
    + intros q Hq. rewrite O2 by (intros j Hj; apply Hq; right; exact Hj).
      apply O1. apply Hq. left. reflexivity.
    + intros j [<-|Hj]; [eapply saved_ext; [symmetry; exact Keep|exact S1]|apply S2; exact Hj].
    + intros j x y v u [<-|Hj] P Pu.
      * unfold disk. rewrite Keep. apply pixel_px in P. destruct P as (im' & Ei' & P).
        rewrite Ei in Ei'. injection Ei' as <-. apply (D1 x y v u P Pu).
      * apply (D2 j x y v u Hj P). eapply prior_ext; [|exact Pu]. symmetry. apply O1.
        intros C. apply tiff_name_inj in C. subst j. contradiction.
Qed.

(** * One save *)

Lemma C31_save_l writable dir base n w h ims edges order fs : 0 < h -> 0 <= w -> stack n w h ims ->
  length edges = S n -> Permutation order (seq 0 n) -> (forall p, writable p = true) ->
  (forall i, (i < n)%nat -> saved fs (tiff_name dir base i) w h \/ unrelated fs (tiff_name dir base i) w h) ->
  exists fs', save_tiff true writable dir base ims edges order fs = Ok fs' /\
    (forall i, (i < n)%nat -> saved fs' (tiff_name dir base i) w h) /\
    (forall i x y v u, pixel ims i x y = Some v -> prior fs (tiff_name dir base i) w h x y u ->
       disk fs' (tiff_name dir base i) x y = Some ((u + v) mod 2 ^ 32)) /\
    fs' (spectra_name dir base) =
      Some (Spectrum (combine (tl edges) (map (fun im => total [im] mod 2 ^ 64) ims))) /\
    (forall q, q <> spectra_name dir base -> (forall i, (i < n)%nat -> q <> tiff_name dir base i) ->
       fs' q = fs q).
Proof.
  intros Hh Hw St Le Po Wr Hf. pose proof St as [Ln _].
  assert (ND : NoDup order) by (eapply Permutation_NoDup; [apply Permutation_sym; exact Po|apply seq_NoDup]).
  assert (In1 : forall i, In i order <-> (i < n)%nat).
  { intros i. split; intros H.
    - apply (Permutation_in _ Po) in H. apply in_seq in H. lia.
    - apply (Permutation_in _ (Permutation_sym Po)). apply in_seq. lia. }
  destruct (save_bins_ok writable dir base n w h ims Hh Hw St (fun i _ => Wr _) order fs ND
              (fun i H => proj1 (In1 i) H) Hf) as (fs1 & E1 & O1 & S1 & D1).
  unfold save_tiff. cbn [negb]. rewrite E1. cbn [obind]. rewrite Wr.
  rewrite (C30_rows_l edges ims) by lia. cbn [obind]. eexists. split; [reflexivity|].
  assert (K : forall i, write_file fs1 (spectra_name dir base)
     (Spectrum (combine (tl edges) (map (fun im => total [im] mod 2 ^ 64) ims))) (tiff_name dir base i) =
     fs1 (tiff_name dir base i)) by (intros i; apply write_other, tiff_not_spectra).
  split; [|split; [|split]].
  - intros i Hi. eapply saved_ext; [symmetry; apply K|]. apply S1, In1, Hi.
  - intros i x y v u P Pu. unfold disk. rewrite K. apply (D1 i x y v u); [|exact P|exact Pu].
    apply In1. apply pixel_px in P. destruct P as (im & Ei & _).
    assert (X : nth_error ims i <> None) by congruence. apply nth_error_Some in X. lia.
  - apply write_same.
  - intros q Hq Ht. rewrite write_other by exact Hq. apply O1. intros i Hi. apply Ht, In1, Hi.
Qed.

(** * A history of saves *)

Lemma stack_pixel n w h ims i x y : stack n w h ims -> (i < n)%nat -> 0 <= x < w -> 0 <= y < h ->
  exists v, pixel ims i x y = Some v.
Proof.
  intros [Ln F] Hi Hx Hy. unfold pixel. replace ((x <? 0) || (y <? 0)) with false by lia.
  destruct (nth_error ims i) as [im|] eqn:Ei; [|apply nth_error_None in Ei; lia].
  rewrite Forall_forall in F. destruct (F im (nth_error_In _ _ Ei)) as [Lim Fim]. unfold zlen in *.
  destruct (nth_error im (Z.to_nat y)) as [row|] eqn:Ey; [|apply nth_error_None in Ey; lia].
  rewrite Forall_forall in Fim. destruct (Fim row (nth_error_In _ _ Ey)) as [Lr _].
  destruct (nth_error row (Z.to_nat x)) as [v|] eqn:Ex; [eauto|apply nth_error_None in Ex; lia].
Qed.

Lemma history writable dir base n w h : 0 < h -> 0 <= w -> (forall p, writable p = true) ->
  forall calls fs, Forall (call_ok n w h) calls ->
  (forall i, (i < n)%nat -> saved fs (tiff_name dir base i) w h \/ unrelated fs (tiff_name dir base i) w h) ->
  exists fs', save_all writable dir base calls fs = Ok fs' /\
    (calls <> [] -> forall i x y u, (i < n)%nat -> 0 <= x < w -> 0 <= y < h ->
       prior fs (tiff_name dir base i) w h x y u ->
       disk fs' (tiff_name dir base i) x y = Some ((u + pixel_sum i x y calls) mod 2 ^ 32)) /\
    (forall c, last calls c = c -> calls <> [] ->
       fs' (spectra_name dir base) =
       Some (Spectrum (combine (tl (sv_edges c))
                         (map (fun im => total [im] mod 2 ^ 64) (sv_images c))))) /\
    (forall q, q <> spectra_name dir base -> (forall i, (i < n)%nat -> q <> tiff_name dir base i) ->
       fs' q = fs q).
Proof.
  intros Hh Hw Wr. unfold save_all. induction calls as [|c calls IH]; intros fs F Hf; cbn [ofold].
  - exists fs. split; [reflexivity|]. split; [intros H; congruence|]. split; [intros c _ H; congruence|auto].
  - inversion F as [|? ? (Sc & Ec & Oc) F']; subst.
    destruct (C31_save_l writable dir base n w h (sv_images c) (sv_edges c) (sv_order c) fs Hh Hw Sc Ec Oc Wr Hf)
      as (fs1 & E1 & S1 & D1 & T1 & O1).
    rewrite E1. cbn [obind]. destruct (IH fs1 F' (fun i Hi => or_introl (S1 i Hi))) as (fs2 & E2 & D2 & T2 & O2).
    exists fs2. split; [exact E2|]. split; [|split].
    + intros _ i x y u Hi Hx Hy Pu.
      destruct (stack_pixel n w h (sv_images c) i x y Sc Hi Hx Hy) as (v & Pv).
      pose proof (D1 i x y v u Pv Pu) as D. unfold pixel_sum in *. cbn [map fold_right]. rewrite Pv.
      destruct calls as [|c2 calls].
      * cbn in E2. injection E2 as <-. cbn [map fold_right]. rewrite Z.add_0_r. exact D.
      * rewrite (D2 ltac:(discriminate) i x y ((u + v) mod 2 ^ 32) Hi Hx Hy).
        -- f_equal. rewrite Zplus_mod_idemp_l. f_equal. lia.
        -- constructor; [apply S1; exact Hi|exact D].
    + intros c' Hl _. destruct calls as [|c2 calls].
      * cbn in Hl. subst c'. cbn in E2. injection E2 as <-. exact T1.
      * apply T2; [exact Hl|discriminate].
    + intros q Hq Ht. rewrite O2 by assumption. apply O1; assumption.
Qed.

(** * What can go wrong *)

Lemma C31_no_rows_l writable dir base fs bin : save_bin writable dir base fs bin [] = UB OutOfBounds.
Proof. reflexivity. Qed.

Lemma C31_wide_l writable dir base fs bin im row0 imr bytes rows :
  im = row0 :: imr ->
  fs (tiff_name dir base bin) = Some (Tiff (zlen row0) (zlen im) (bytes :: rows)) ->
  4 * zlen row0 < zlen bytes ->
  save_bin writable dir base fs bin im = UB OutOfBounds.
Proof.
  intros -> E L. unfold save_bin. rewrite E, !Z.eqb_refl. cbn [andb accumulate hd]. unfold read_scanline.
  replace (zlen bytes >? 4 * zlen row0) with true by lia. reflexivity.
Qed.

Lemma C31_unwritable_l writable dir base fs bin w h (im : image) : 0 < h -> 0 <= w ->
  zlen im = h -> Forall (good_row w) im ->
  (saved fs (tiff_name dir base bin) w h \/ unrelated fs (tiff_name dir base bin) w h) ->
  writable (tiff_name dir base bin) = false ->
  save_bin writable dir base fs bin im = Ok fs.
Proof.
  intros Hh Hw L F Ex Wr.
  destruct (save_bin_ok (fun _ => true) dir base fs bin w h im Hh Hw L F Ex eq_refl) as (fs' & E & _).
  unfold save_bin in *. destruct im as [|row0 imr] eqn:Eim; [discriminate|]. rewrite <- Eim in *.
  rewrite Wr. destruct (match fs (tiff_name dir base bin) with
    | Some (Tiff w0 h0 old) => if (w0 =? zlen row0) && (h0 =? zlen im) then accumulate (zlen row0) im old else Ok im
    | _ => Ok im end); cbn [obind] in *; try discriminate. reflexivity.
Qed.

Lemma C31_history_l writable dir base n w h calls c fs : 0 < h -> 0 <= w -> (forall p, writable p = true) ->
  Forall (call_ok n w h) (calls ++ [c]) ->
  (forall i, (i < n)%nat -> saved fs (tiff_name dir base i) w h \/ unrelated fs (tiff_name dir base i) w h) ->
  exists fs', save_all writable dir base (calls ++ [c]) fs = Ok fs' /\
    (forall i x y u, (i < n)%nat -> 0 <= x < w -> 0 <= y < h ->
       prior fs (tiff_name dir base i) w h x y u ->
       disk fs' (tiff_name dir base i) x y = Some ((u + pixel_sum i x y (calls ++ [c])) mod 2 ^ 32)) /\
    fs' (spectra_name dir base) =
      Some (Spectrum (combine (tl (sv_edges c)) (map (fun im => total [im] mod 2 ^ 64) (sv_images c)))) /\
    (forall q, q <> spectra_name dir base -> (forall i, (i < n)%nat -> q <> tiff_name dir base i) ->
       fs' q = fs q).
Proof.
  intros Hh Hw Wr F Hf. destruct (history writable dir base n w h Hh Hw Wr (calls ++ [c]) fs F Hf)
    as (fs' & E & D & T & O).
  assert (Ne : calls ++ [c] <> []) by (destruct calls; discriminate).
  exists fs'. split; [exact E|]. split; [exact (D Ne)|]. split; [|exact O].
  apply T; [apply last_last|exact Ne].
Qed.

Lemma C31_order_l writable dir base n w h ims edges order order' fs fs1 fs2 : 0 < h -> 0 <= w ->
  stack n w h ims -> length edges = S n -> Permutation order (seq 0 n) -> Permutation order' (seq 0 n) ->
  (forall p, writable p = true) ->
  (forall i, (i < n)%nat -> saved fs (tiff_name dir base i) w h \/ unrelated fs (tiff_name dir base i) w h) ->
  save_tiff true writable dir base ims edges order fs = Ok fs1 ->
  save_tiff true writable dir base ims edges order' fs = Ok fs2 ->
  (forall i x y, (i < n)%nat -> 0 <= x < w -> 0 <= y < h ->
     disk fs1 (tiff_name dir base i) x y = disk fs2 (tiff_name dir base i) x y) /\
  forall q, (forall i, (i < n)%nat -> q <> tiff_name dir base i) -> fs1 q = fs2 q.
Proof.
  intros Hh Hw St Le P1 P2 Wr Hf E1 E2.
  destruct (C31_save_l writable dir base n w h ims edges order fs Hh Hw St Le P1 Wr Hf)
    as (f1 & E1' & S1 & D1 & T1 & O1). rewrite E1 in E1'. injection E1' as <-.
  destruct (C31_save_l writable dir base n w h ims edges order' fs Hh Hw St Le P2 Wr Hf)
    as (f2 & E2' & S2 & D2 & T2 & O2). rewrite E2 in E2'. injection E2' as <-.
  split.
  - intros i x y Hi Hx Hy. destruct (stack_pixel n w h ims i x y St Hi Hx Hy) as (v & Pv).
    assert (U : exists u, prior fs (tiff_name dir base i) w h x y u).
    { destruct (Hf i Hi) as [S|U]; [|exists 0; apply prior_none; exact U].
      pose proof S as (rows & Er & Lr & Fr). unfold zlen in *.
      destruct (nth_error rows (Z.to_nat y)) as [b|] eqn:Ey; [|apply nth_error_None in Ey; lia].
      rewrite Forall_forall in Fr. destruct (Fr b (nth_error_In _ _ Ey)) as [Lb Bb].
      destruct (words_sample (Z.to_nat w) b) as (W1 & _ & W3); [unfold zlen; lia|exact Bb|].
      destruct (nth_error (words (Z.to_nat w) b) (Z.to_nat x)) as [u|] eqn:Eu; [|apply nth_error_None in Eu; lia].
      exists u. constructor; [exact S|]. unfold disk. rewrite Er, Ey. rewrite W3 in Eu.
      replace (Z.of_nat (Z.to_nat x)) with x in Eu by lia. exact Eu. }
    destruct U as (u & U). rewrite (D1 i x y v u Pv U), (D2 i x y v u Pv U). reflexivity.
  - intros q Hq. destruct (String.eqb_spec q (spectra_name dir base)) as [->|Ne].
    + rewrite T1, T2. reflexivity.
    + rewrite O1, O2 by assumption. reflexivity.
Qed.

Lemma C31_names_l dir base i j : tiff_name dir base i <> spectra_name dir base /\
  (tiff_name dir base i = tiff_name dir base j -> i = j).
Proof. split; [apply tiff_not_spectra|apply tiff_name_inj]. Qed.

Lemma C30_saving_no_batches_l sr hm edges dir base writable mkdir order fs : (2 <= length edges)%nat ->
  Permutation order (seq 0 (length edges - 1)) -> mkdir = true ->
  exists ims, create_images sr edges hm [] = Ok ims /\
    save_tiff mkdir writable dir base ims edges order fs = UB OutOfBounds.
Proof.
  intros He Po ->. destruct order as [|i order].
  { apply Permutation_nil in Po. apply (f_equal (@length nat)) in Po. rewrite seq_length in Po. cbn in Po. lia. }
  assert (Hi : (i < length edges - 1)%nat).
  { assert (I : In i (seq 0 (length edges - 1))) by (eapply Permutation_in; [exact Po|left; reflexivity]).
    apply in_seq in I. lia. }
  destruct (C30_no_batches_l sr hm edges i He Hi) as (ims & E & L & N).
  exists ims. split; [exact E|]. unfold save_tiff, save_bins. cbn [negb ofold].
  unfold image in *. rewrite N. reflexivity.
Qed.

Lemma C31_no_directory_l writable dir base ims edges order fs :
  save_tiff false writable dir base ims edges order fs = Throw ExternalError.
Proof. reflexivity. Qed.

(** * Narrower samples *)
Definition padded (w : Z) (b : list Z) : list Z := b ++ repeat 0 (Z.to_nat (4 * w - zlen b)).
Lemma words_zeros n k : words n (repeat 0 k) = repeat 0 n.
Proof.
  revert k. induction n as [|n IH]; intros k; [reflexivity|].
  destruct k as [|[|[|[|k]]]]; cbn [repeat words]; f_equal; try exact (IH 0%nat). apply IH.
Qed.
Lemma words_padded n : forall b k, words n (b ++ repeat 0 k) = words n b.
Proof.
  induction n as [|n IH]; intros b k; [reflexivity|]. pose proof (IH [] 0%nat) as Z0. cbn [app] in Z0.
  assert (N : forall j, words n (repeat 0 j) = words n []) by (intros j; rewrite words_zeros; symmetry; exact (words_zeros n 0)).
  destruct b as [|a [|b [|c [|d r]]]]; cbn [app].
  - destruct k as [|[|[|[|k]]]]; cbn [repeat words]; f_equal; try reflexivity. apply N.
  - destruct k as [|[|[|k]]]; cbn [repeat words]; f_equal; try reflexivity. apply N.
  - destruct k as [|[|k]]; cbn [repeat words]; f_equal; try reflexivity. apply N.
  - destruct k as [|k]; cbn [repeat words]; f_equal; try reflexivity. apply N.
  - cbn [words]. f_equal. apply IH.
Qed.
Lemma padded_len w b : zlen b <= 4 * w -> zlen (padded w b) = 4 * w.
Proof. intros L. unfold padded, zlen in *. rewrite app_length, repeat_length. lia. Qed.
Lemma padded_ok w b : bytes_ok b -> bytes_ok (padded w b).
Proof.
  intros B. apply Forall_app. split; [exact B|]. apply Forall_forall. intros x X. apply repeat_spec in X. subst. unfold is_byte. lia.
Qed.
Lemma accumulate_padded w : 0 <= w -> forall im old, Forall (fun b => zlen b <= 4 * w) old ->
  accumulate w im (map (padded w) old) = accumulate w im old.
Proof.
  intros Hw. induction im as [|row im IH]; intros old F; [reflexivity|]. cbn [accumulate].
  assert (E : read_scanline w (hd [] (map (padded w) old)) = read_scanline w (hd [] old)).
  { destruct F as [|b old L F]; [reflexivity|]. cbn [map hd]. unfold read_scanline. rewrite padded_len by exact L.
    replace (4 * w >? 4 * w) with false by lia. replace (zlen b >? 4 * w) with false by lia. f_equal. apply words_padded. }
  rewrite E. destruct (read_scanline w (hd [] old)) as [scan| | |]; try reflexivity. cbn [obind].
  replace (tl (map (padded w) old)) with (map (padded w) (tl old)) by (destruct old; reflexivity).
  rewrite IH; [reflexivity|]. destruct F; [constructor|assumption].
Qed.
Lemma sample_padded w b x : 0 <= x < w -> zlen b <= 4 * w ->
  sample (padded w b) x = Some (nth (Z.to_nat (4 * x)) b 0 + nth (Z.to_nat (4 * x + 1)) b 0 * 2 ^ 8 +
    nth (Z.to_nat (4 * x + 2)) b 0 * 2 ^ 16 + nth (Z.to_nat (4 * x + 3)) b 0 * 2 ^ 24).
Proof.
  intros X L. pose proof (padded_len w b L) as P. unfold sample.
  assert (N : forall k, nth k b 0 = nth k (padded w b) 0).
  { intros k. unfold padded. destruct (Nat.lt_ge_cases k (length b)); [rewrite app_nth1 by assumption; reflexivity|].
    rewrite app_nth2 by assumption. rewrite nth_overflow by assumption. symmetry.
    destruct (Nat.lt_ge_cases (k - length b) (Z.to_nat (4 * w - zlen b))).
    - apply nth_repeat. 
    - apply nth_overflow. rewrite repeat_length. assumption. }
  rewrite !N. set (l := padded w b) in *. clearbody l.
  rewrite <- (firstn_skipn (Z.to_nat (4 * x)) l) at 2 3 4 5.
  assert (F : length (firstn (Z.to_nat (4 * x)) l) = Z.to_nat (4 * x)) by (apply firstn_length_le; unfold zlen in P; lia).
  assert (Ls : (4 <= length (skipn (Z.to_nat (4 * x)) l))%nat) by (rewrite skipn_length; unfold zlen in P; lia).
  rewrite !app_nth2 by lia. rewrite F.
  replace (Z.to_nat (4 * x) - Z.to_nat (4 * x))%nat with 0%nat by lia.
  replace (Z.to_nat (4 * x + 1) - Z.to_nat (4 * x))%nat with 1%nat by lia.
  replace (Z.to_nat (4 * x + 2) - Z.to_nat (4 * x))%nat with 2%nat by lia.
  replace (Z.to_nat (4 * x + 3) - Z.to_nat (4 * x))%nat with 3%nat by lia.
  destruct (skipn _ l) as [|a [|b' [|c [|d r]]]]; cbn [length] in Ls; try lia. reflexivity.
Qed.
Lemma C31_narrow_l writable dir base fs bin w h (im : image) rows : 0 < h -> 0 <= w ->
  zlen im = h -> Forall (fun row => zlen row = w /\ Forall (fun v => 0 <= v < 2 ^ 32) row) im ->
  fs (tiff_name dir base bin) = Some (Tiff w h rows) -> zlen rows = h -> 
  Forall (fun b => zlen b <= 4 * w /\ bytes_ok b) rows ->
  writable (tiff_name dir base bin) = true ->
  exists fs', save_bin writable dir base fs bin im = Ok fs' /\
    (forall q, q <> tiff_name dir base bin -> fs' q = fs q) /\
    forall x y v b, 0 <= x < w -> 0 <= y < h -> pixel [im] 0 x y = Some v -> nth_error rows (Z.to_nat y) = Some b ->
      disk fs' (tiff_name dir base bin) x y =
        Some ((v + nth (Z.to_nat (4 * x)) b 0 + nth (Z.to_nat (4 * x + 1)) b 0 * 2 ^ 8 +
               nth (Z.to_nat (4 * x + 2)) b 0 * 2 ^ 16 + nth (Z.to_nat (4 * x + 3)) b 0 * 2 ^ 24) mod 2 ^ 32).
Proof.
  intros Hh Hw Lim F E Lr Fr Wr. set (name := tiff_name dir base bin) in *.
  set (fs1 := write_file fs name (Tiff w h (map (padded w) rows))).
  assert (E1 : fs1 name = Some (Tiff w h (map (padded w) rows))) by apply write_same.
  assert (Sv : saved fs1 name w h).
  { exists (map (padded w) rows). split; [exact E1|]. split; [unfold zlen in *; rewrite map_length; exact Lr|].
    apply Forall_map. eapply Forall_impl; [|exact Fr]. intros b [L B]. split; [apply padded_len, L|apply padded_ok, B]. }
  destruct (save_bin_ok writable dir base fs1 bin w h im Hh Hw Lim F (or_introl Sv) Wr) as (fs1' & E1' & O & _ & D).
  assert (Q : exists rows', save_bin writable dir base fs bin im = Ok (write_file fs name (Tiff w h rows')) /\
    save_bin writable dir base fs1 bin im = Ok (write_file fs1 name (Tiff w h rows'))).
  { unfold save_bin in E1' |- *. cbv zeta in *. fold name in E1' |- *. destruct im as [|row0 imr] eqn:Eim; [unfold zlen in Lim; cbn in Lim; lia|].
    rewrite <- Eim in *. assert (R0 : zlen row0 = w) by (rewrite Eim in F; apply Forall_inv in F; apply F).
    rewrite R0, Lim in *. rewrite E1 in E1' |- *. rewrite E. rewrite !Z.eqb_refl in *. cbn [andb] in *. 
    assert (Fs : Forall (fun b => zlen b <= 4 * w) rows) by (eapply Forall_impl; [|exact Fr]; intros b [L _]; exact L).
    rewrite (accumulate_padded w Hw im rows Fs) in E1' |- *.
    destruct (accumulate w im rows) as [acc| | |]; try discriminate E1'. cbn [obind] in *. rewrite Wr in *.
    destruct (write_rows w acc) as [rows'| | |]; try discriminate E1'. exists rows'. split; reflexivity. }
  destruct Q as (rows' & Q & Q1). rewrite Q1 in E1'. injection E1' as <-.
  eexists. split; [exact Q|]. split; [intros q Nq; apply write_other; exact Nq|].
  intros x y v b X Y P Nb. assert (Px : px im x y = Some v) by (destruct (pixel_px _ _ _ _ _ P) as (im' & Ei & Pi); injection Ei as <-; exact Pi).
  assert (Pr : prior fs1 name w h x y (nth (Z.to_nat (4 * x)) b 0 + nth (Z.to_nat (4 * x + 1)) b 0 * 2 ^ 8 +
               nth (Z.to_nat (4 * x + 2)) b 0 * 2 ^ 16 + nth (Z.to_nat (4 * x + 3)) b 0 * 2 ^ 24)).
  { apply prior_saved; [exact Sv|]. unfold disk. rewrite E1, nth_error_map, Nb. cbn [option_map]. apply sample_padded; [exact X|].
    rewrite Forall_forall in Fr. apply (Fr b (nth_error_In _ _ Nb)). }
  specialize (D x y v _ Px Pr). unfold disk in D |- *. rewrite write_same in D |- *. rewrite D. do 2 f_equal. lia.
Qed.
