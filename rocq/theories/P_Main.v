(** A whole run of the command line program. *)
From Coq Require Import Reals String Ascii Permutation.
From Verif Require Export S_Main P_CliRun P_VenusImages.
From Coq Require Import Lia ZifyBool.
Local Open Scope Z_scope.
Local Open Scope list_scope.

(** * Counting in disjoint sets *)

Lemma counted_union {A} (P Q : A -> Prop) l : (forall a, P a -> Q a -> False) -> forall a b,
  counted P l a -> counted Q l b -> counted (fun x => P x \/ Q x) l (a + b).
Proof.
  intros D. induction l as [|x l IH]; intros a b HP HQ.
  - inversion HP. inversion HQ. constructor.
  - inversion HP as [|? ? n Px HP'|? ? n Px HP']; subst; inversion HQ as [|? ? m Qx HQ'|? ? m Qx HQ']; subst.
    + elim (D x Px Qx).
    + replace (n + 1 + b) with (n + b + 1) by lia. apply counted_yes; [left; exact Px|]. apply IH; assumption.
    + replace (a + (m + 1)) with (a + m + 1) by lia. apply counted_yes; [right; exact Qx|]. apply IH; assumption.
    + apply counted_no; [tauto|]. apply IH; assumption.
Qed.
Lemma counted_none {A} (P : A -> Prop) l : (forall a, ~ P a) -> counted P l 0.
Proof. intros H. induction l; [constructor|]. apply counted_no; auto. Qed.
Lemma counted_equiv {A} (P Q : A -> Prop) l k : (forall a, P a <-> Q a) -> counted P l k -> counted Q l k.
Proof. intros H. apply counted_ext. intros a _. apply H. Qed.

Lemma sum_counted {A} (l : list A) vs : forall (P : nat -> A -> Prop),
  (forall i j a, P i a -> P j a -> i = j) ->
  (forall i v, nth_error vs i = Some v -> counted (P i) l v) ->
  counted (fun a => exists i, (i < length vs)%nat /\ P i a) l (fold_right Z.add 0 vs).
Proof.
  induction vs as [|v vs IH]; intros P D H.
  - cbn. apply counted_none. intros a (i & L & _). cbn in L. lia.
  - cbn [fold_right]. eapply counted_equiv; [|apply (counted_union (P 0%nat) (fun a => exists i, (i < length vs)%nat /\ P (S i) a))].
    + intros a. split.
      * intros [P0|(i & L & Pi)]; [exists 0%nat; split; [cbn; lia|exact P0]|exists (S i); split; [cbn; lia|exact Pi]].
      * intros ([|i] & L & Pi); [left; exact Pi|right; exists i; split; [cbn in L; lia|exact Pi]].
    + intros a P0 (i & _ & Pi). discriminate (D _ _ _ P0 Pi).
    + apply H. reflexivity.
    + apply (IH (fun i => P (S i))).
      * intros i j a Pi Pj. pose proof (D _ _ _ Pi Pj). congruence.
      * intros i w E. apply (H (S i)). exact E.
Qed.

(** * Spectra *)

Lemma nth_error_zlen {A} (l : list A) i : (i < length l)%nat -> exists v, nth_error l i = Some v.
Proof. intros H. destruct (nth_error l i) eqn:E; [eauto|]. apply nth_error_None in E. lia. Qed.

Lemma counted_bounds {A} (P : A -> Prop) l k : counted P l k -> 0 <= k <= zlen l.
Proof. induction 1 as [|a l n _ _ IH|a l n _ _ IH]; rewrite ?zlen_cons; unfold zlen in *; cbn [length] in *; lia. Qed.

Lemma image_total sr edges d ims es i im : edges_ok edges -> shape (length edges - 1) d ims -> nth_error ims i = Some im ->
  (forall x y v, pixel ims i x y = Some v -> counted (fun e => lands sr edges e i x y) es v) ->
  counted (fun e => exists x y, 0 <= x < d /\ 0 <= y < d /\ lands sr edges e i x y) es (total [im]).
Proof.
  intros Eo [L F] N H. assert (FI := N). apply nth_error_In in FI. rewrite Forall_forall in F. specialize (F im FI). destruct F as [Ld Fr].
  rewrite Forall_forall in Fr. replace (total [im]) with (fold_right Z.add 0 (map (fold_right Z.add 0) im)) by (unfold total; cbn; lia).
  eapply counted_equiv; [|apply (sum_counted es (map (fold_right Z.add 0) im)
    (fun y e => exists x, 0 <= x < d /\ lands sr edges e i x (Z.of_nat y)))].
  - intros e. split.
    + intros (y & Ly & x & Rx & Le). rewrite map_length in Ly. exists x, (Z.of_nat y). split; [exact Rx|]. split; [unfold zlen in Ld; lia|exact Le].
    + intros (x & y & Rx & Ry & Le). exists (Z.to_nat y). rewrite map_length. split; [unfold zlen in Ld; lia|]. exists x.
      rewrite Z2Nat.id by lia. auto.
  - intros y y' e (x & _ & Le) (x' & _ & Le'). destruct (lands_unique_l sr edges e i x _ i x' _ Eo Le Le') as (_ & _ & E). lia.
  - intros y v E. rewrite nth_error_map in E. destruct (nth_error im y) as [row|] eqn:Er; [|discriminate E]. cbn in E. injection E as <-.
    destruct (Fr row (nth_error_In _ _ Er)) as [Lr _].
    eapply counted_equiv; [|apply (sum_counted es row (fun x e => lands sr edges e i (Z.of_nat x) (Z.of_nat y)))].
    + intros e. split.
      * intros (x & Lx & Le). exists (Z.of_nat x). split; [unfold zlen in Lr; lia|exact Le].
      * intros (x & Rx & Le). exists (Z.to_nat x). split; [unfold zlen in Lr; lia|]. rewrite Z2Nat.id by lia. exact Le.
    + intros x x' e Le Le'. destruct (lands_unique_l sr edges e i _ _ i _ _ Eo Le Le') as (_ & E & _). lia.
    + intros x v Ev. apply H. unfold pixel. replace ((Z.of_nat x <? 0) || (Z.of_nat y <? 0)) with false by lia.
      rewrite N, !Nat2Z.id, Er. exact Ev.
Qed.

Lemma spectrum_l sr edges d ims es : edges_ok edges -> shape (length edges - 1) d ims -> zlen es < 2 ^ 32 ->
  (forall i x y v, pixel ims i x y = Some v -> exists k, counted (fun e => lands sr edges e i x y) es k /\ v = k mod 2 ^ 32) ->
  exists rows, write_spectral edges (spectral_counts ims) = Ok rows /\ spectrum_of sr edges d es rows.
Proof.
  intros Eo Sh Lt H. assert (L := Sh). destruct L as [L _]. assert (Eo' := Eo). destruct Eo' as [Le _].
  eexists. split; [apply C30_rows_l; lia|]. destruct edges as [|e0 edges]; [cbn in Le; lia|]. cbn [tl]. split.
  - rewrite combine_length, map_length. cbn [length] in *. lia.
  - intros i t c E. assert (X : nth_error edges i = Some t /\ nth_error (map (fun im => total [im] mod 2 ^ 64) ims) i = Some c).
    { clear - E. revert E. generalize (map (fun im => total [im] mod 2 ^ 64) ims) as l. revert i.
      induction edges as [|a edges IH]; intros i l E; [destruct i; discriminate E|].
      destruct l as [|b l]; [destruct i; discriminate E|]. destruct i as [|i]; cbn in *; [injection E as -> ->; auto|apply IH; exact E]. }
    destruct X as [X1 X2]. split; [exact X1|]. rewrite nth_error_map in X2. destruct (nth_error ims i) as [im|] eqn:Ei; [|discriminate X2].
    cbn [option_map] in X2. injection X2 as <-.
    assert (C : counted (fun e => exists x y, 0 <= x < d /\ 0 <= y < d /\ lands sr (e0 :: edges) e i x y) es (total [im])).
    { eapply image_total; [exact Eo|exact Sh|exact Ei|]. intros x y v Ev. destruct (H i x y v Ev) as (k & Ck & ->).
      pose proof (counted_bounds _ _ _ Ck). rewrite Z.mod_small by lia. exact Ck. }
    pose proof (counted_bounds _ _ _ C). rewrite Z.mod_small by lia. exact C.
Qed.

(** * Names *)

Fixpoint last_char (s : string) : option ascii :=
  match s with EmptyString => None | String c EmptyString => Some c | String _ r => last_char r end.
Lemma last_char_app a s c : last_char s = Some c -> last_char (a ++ s) = Some c.
Proof.
  intros H. induction a as [|b a IH]; [exact H|]. cbn [append last_char]. destruct (a ++ s)%string eqn:E; [|exact IH].
  destruct a; [|discriminate E]. cbn in E. subst s. discriminate H.
Qed.
Lemma txt_not_tiff a dir base i : (a ++ ".txt")%string <> tiff_name dir base i.
Proof.
  unfold tiff_name. intros E. apply (f_equal last_char) in E. rewrite (last_char_app a ".txt" "t"%char eq_refl) in E.
  rewrite (last_char_app dir _ "f"%char) in E; [discriminate E|]. apply last_char_app, last_char_app, last_char_app, last_char_app. reflexivity.
Qed.

Lemma pixel_domain n d ims i x y : shape n d ims -> pixel ims i x y <> None <-> (i < n)%nat /\ 0 <= x < d /\ 0 <= y < d.
Proof.
  intros [L F]. unfold pixel. split.
  - destruct ((x <? 0) || (y <? 0)) eqn:B; [congruence|]. destruct (nth_error ims i) as [im|] eqn:Ei; [|congruence].
    assert (Hi : (i < n)%nat) by (rewrite <- L; apply nth_error_Some; congruence).
    rewrite Forall_forall in F. destruct (F im (nth_error_In _ _ Ei)) as [L1 F1].
    destruct (nth_error im (Z.to_nat y)) as [row|] eqn:Er; [|congruence].
    assert (Hy : (Z.to_nat y < length im)%nat) by (apply nth_error_Some; congruence).
    rewrite Forall_forall in F1. destruct (F1 row (nth_error_In _ _ Er)) as [L2 _].
    intros Hx. apply nth_error_Some in Hx. unfold zlen in *. lia.
  - intros (Hi & Hx & Hy). replace ((x <? 0) || (y <? 0)) with false by lia.
    destruct (nth_error_zlen ims i ltac:(lia)) as [im Ei]. rewrite Ei.
    rewrite Forall_forall in F. destruct (F im (nth_error_In _ _ Ei)) as [L1 F1]. unfold zlen in L1.
    destruct (nth_error_zlen im (Z.to_nat y) ltac:(lia)) as [row Er]. rewrite Er.
    rewrite Forall_forall in F1. destruct (F1 row (nth_error_In _ _ Er)) as [L2 _]. unfold zlen in L2.
    destruct (nth_error_zlen row (Z.to_nat x) ltac:(lia)) as [v Ev]. rewrite Ev. discriminate.
Qed.

(** * The run *)

Lemma C75_program_l fuel ext cfg o ds writable order fs st fs' d :
  Forall dataset_ok ds -> Forall no_false_header ds ->
  0 < o_chunk o -> cuts_at_datasets (o_chunk o) ds -> (length (stream ds) <= fuel)%nat ->
  edges_ok (g_edges cfg) -> side (g_sr cfg) d -> 0 < d ->
  Permutation order (seq 0 (length (g_edges cfg) - 1)) -> (forall p, writable p = true) ->
  (forall i, (i < length (g_edges cfg) - 1)%nat ->
     saved fs (tiff_name (o_tiff o) (o_base o) i) d d \/ unrelated fs (tiff_name (o_tiff o) (o_base o) i) d d) ->
  run_main fuel ext cfg o (Some (stream ds)) true writable order fs = Ok (st, fs') ->
  exists hss nss,
    processed (timing_of o) ts0 ds hss (c_ts st) /\ Forall2 (neutrons_of ext (g_abs cfg)) hss nss /\
    (o_hits o = ""%string -> c_hits st = None) /\
    (o_hits o <> ""%string -> exists f, c_hits st = Some f /\
       forall n fld, hit_field n fld -> map Some (col f "hits" n) = map fld (concat hss)) /\
    (o_events o = ""%string -> c_events st = None) /\
    (o_events o <> ""%string -> exists f, c_events st = Some f /\
       forall n fld, neutron_field n fld -> col f "neutrons" n = map fld (concat nss)) /\
    c_nhits st = zlen (concat hss) mod 2 ^ 64 /\ c_nneutrons st = zlen (concat nss) mod 2 ^ 64 /\
    (o_tiff o <> ""%string -> forall i x y u, (i < length (g_edges cfg) - 1)%nat -> 0 <= x < d -> 0 <= y < d ->
       prior fs (tiff_name (o_tiff o) (o_base o) i) d d x y u ->
       exists k, counted (fun e => lands (g_sr cfg) (g_edges cfg) e i x y) (binned o hss nss) k /\
         disk fs' (tiff_name (o_tiff o) (o_base o) i) x y = Some ((u + k) mod 2 ^ 32)) /\
    (zlen (binned o hss nss) < 2 ^ 32 ->
       (o_tiff o <> ""%string -> exists rows, fs' (spectra_name (o_tiff o) (o_base o)) = Some (Spectrum rows) /\
          spectrum_of (g_sr cfg) (g_edges cfg) d (binned o hss nss) rows) /\
       (o_spectra o <> ""%string -> exists rows, fs' (o_spectra o ++ ".txt")%string = Some (Spectrum rows) /\
          spectrum_of (g_sr cfg) (g_edges cfg) d (binned o hss nss) rows)) /\
    (forall q, (o_tiff o <> ""%string -> q <> spectra_name (o_tiff o) (o_base o) /\
                  forall i, (i < length (g_edges cfg) - 1)%nat -> q <> tiff_name (o_tiff o) (o_base o) i) ->
               (o_spectra o <> ""%string -> q <> (o_spectra o ++ ".txt")%string) -> fs' q = fs q).
Proof.
  intros Ho Hn Hs Hc Hf Eo Sd Dp Po Hw Hp E. unfold run_main in E.
  destruct (open_reader (Some (stream ds))) as [r| | |] eqn:Er; cbn [obind] in E; try discriminate E.
  assert (r = Reader (stream ds) 0).
  { unfold open_reader in Er. destruct (stream ds); [discriminate Er|]. apply Ok_inj in Er. auto. }
  subst r. clear Er. fold (timing_of o) in E.
  destruct (init_cli cfg o) as [st0| | |] eqn:Ei; cbn [obind] in E; try discriminate E.
  destruct (chunk_loop _ _ _ _ _ _ _ st0) as [st1| | |] eqn:El; cbn [obind] in E; try discriminate E.
  destruct (C47_result_l _ _ _ _ _ _ _ _ _ Ho Hn Hs Hc Hf El) as (hss & nss & PR & NE & H1 & H2 & H3 & H4 & H5 & H6 & H7 & H8).
  assert (Le := proj1 Eo). assert (Sd' := Sd). apply dim_side in Sd'.
  destruct (blank_shape (length (g_edges cfg) - 1) d ltac:(lia)) as (bl & Eb & Sb & Zb).
  assert (S0 : st0 = Cli ts0 (if String.eqb (o_hits o) "" then None else Some []) (if String.eqb (o_events o) "" then None else Some [])
                 (if negb (String.eqb (o_tiff o) "") || negb (String.eqb (o_spectra o) "") then Some bl else None) 0 0).
  { unfold init_cli, init_images in Ei. rewrite Sd' in Ei. cbn [obind] in Ei.
    destruct (g_edges cfg) as [|e0 er] eqn:Ee; [cbn in Le; lia|]. rewrite Eb in Ei.
    destruct (negb _ || negb _); cbn [obind] in Ei; apply Ok_inj in Ei; auto. }
  clear Ei. rewrite S0 in *. cbn [c_ts c_hits c_events c_images c_nhits c_nneutrons] in *. clear S0 st0.
  set (ims := match c_images st1 with Some l => l | None => [] end) in *.
  set (es := binned o hss nss).
  (* the images *)
  assert (IM : (o_tiff o <> ""%string \/ o_spectra o <> ""%string) ->
    shape (length (g_edges cfg) - 1) d ims /\
    forall i x y v, pixel ims i x y = Some v ->
      exists k, counted (fun e => lands (g_sr cfg) (g_edges cfg) e i x y) es k /\ v = k mod 2 ^ 32).
  { intros W. assert (B : negb (String.eqb (o_tiff o) "") || negb (String.eqb (o_spectra o) "") = true).
    { destruct (String.eqb_spec (o_tiff o) ""); destruct (String.eqb_spec (o_spectra o) ""); try reflexivity. tauto. }
    rewrite B in H6. destruct (H6 bl d eq_refl Eo Sd Sb) as (ims' & Ec & Sh & PX). unfold ims. rewrite Ec. split; [exact Sh|].
    intros i x y v Ev. destruct (pixel bl i x y) as [v0|] eqn:E0.
    - destruct (PX i x y v0 E0) as (k & Ck & Pk). exists k. split; [exact Ck|]. rewrite Ev in Pk. injection Pk as ->.
      rewrite (Zb _ _ _ _ E0). reflexivity.
    - exfalso. assert (D : forall l, shape (length (g_edges cfg) - 1) d l -> pixel l i x y <> None <->
          (i < length (g_edges cfg) - 1)%nat /\ 0 <= x < d /\ 0 <= y < d) by (intros l Sl; apply pixel_domain; exact Sl).
      apply (proj2 (D bl Sb)); [|exact E0]. apply (D ims' Sh). rewrite Ev. discriminate. }
  (* writing *)
  destruct (if String.eqb (o_tiff o) "" then Ok fs else save_tiff true writable (o_tiff o) (o_base o) ims (g_edges cfg) order fs)
    as [fs1| | |] eqn:E1; cbn [obind] in E; try discriminate E.
  destruct (if String.eqb (o_spectra o) "" then Ok fs1 else _) as [fs2| | |] eqn:E2; cbn [obind] in E; try discriminate E.
  apply Ok_inj in E. injection E as -> ->.
  assert (T1 : o_tiff o <> ""%string ->
    (forall i x y u, (i < length (g_edges cfg) - 1)%nat -> 0 <= x < d -> 0 <= y < d ->
       prior fs (tiff_name (o_tiff o) (o_base o) i) d d x y u ->
       exists k, counted (fun e => lands (g_sr cfg) (g_edges cfg) e i x y) es k /\
         disk fs1 (tiff_name (o_tiff o) (o_base o) i) x y = Some ((u + k) mod 2 ^ 32)) /\
    (exists rows, write_spectral (g_edges cfg) (spectral_counts ims) = Ok rows /\
       fs1 (spectra_name (o_tiff o) (o_base o)) = Some (Spectrum rows)) /\
    (forall q, q <> spectra_name (o_tiff o) (o_base o) ->
       (forall i, (i < length (g_edges cfg) - 1)%nat -> q <> tiff_name (o_tiff o) (o_base o) i) -> fs1 q = fs q)).
  { intros W. destruct (IM (or_introl W)) as [Sh PX]. apply String.eqb_neq in W. rewrite W in E1.
    destruct (C31_save_l writable (o_tiff o) (o_base o) (length (g_edges cfg) - 1) d d ims (g_edges cfg) order fs
      Dp ltac:(lia) Sh ltac:(lia) Po Hw Hp) as (fs3 & E3 & _ & K1 & K2 & K3).
    rewrite E1 in E3. apply Ok_inj in E3. subst fs3. split; [|split].
    - intros i x y u Hi Hx Hy Pr. destruct (pixel ims i x y) as [v|] eqn:Ev.
      + destruct (PX _ _ _ _ Ev) as (k & Ck & ->). exists k. split; [exact Ck|]. rewrite (K1 _ _ _ _ _ Ev Pr).
        f_equal. rewrite Z.add_mod_idemp_r by lia. reflexivity.
      + exfalso. eapply (proj2 (pixel_domain _ _ _ i x y Sh)); [|exact Ev]. auto.
    - eexists. split; [apply C30_rows_l; destruct Sh as [L _]; lia|exact K2].
    - exact K3. }
  assert (T2 : o_spectra o <> ""%string ->
    exists rows, write_spectral (g_edges cfg) (spectral_counts ims) = Ok rows /\
      fs' = write_file fs1 (o_spectra o ++ ".txt") (Spectrum rows)).
  { intros W. apply String.eqb_neq in W. rewrite W in E2. rewrite Hw in E2.
    destruct (write_spectral _ _) as [rows| | |]; cbn [obind] in E2; try discriminate E2. apply Ok_inj in E2. exists rows. auto. }
  assert (T3 : o_spectra o = ""%string -> fs' = fs1).
  { intros W. rewrite W in E2. cbn in E2. apply Ok_inj in E2. auto. }
  assert (T4 : o_tiff o = ""%string -> fs1 = fs).
  { intros W. rewrite W in E1. cbn in E1. apply Ok_inj in E1. auto. }
  assert (SP : zlen es < 2 ^ 32 -> (o_tiff o <> ""%string \/ o_spectra o <> ""%string) -> forall rows,
    write_spectral (g_edges cfg) (spectral_counts ims) = Ok rows -> spectrum_of (g_sr cfg) (g_edges cfg) d es rows).
  { intros Lt W rows Ew. destruct (IM W) as [Sh PX].
    destruct (spectrum_l (g_sr cfg) (g_edges cfg) d ims es Eo Sh Lt PX) as (rows' & Ew' & SO). rewrite Ew in Ew'. apply Ok_inj in Ew'. subst. exact SO. }
  exists hss, nss. split; [exact PR|]. split; [exact NE|].
  split; [intros W; rewrite W in H1; apply H1; reflexivity|].
  split. { intros W. apply String.eqb_neq in W. rewrite W in H2. destruct (H2 [] eq_refl) as (f & Ef & Hf'). exists f. split; [exact Ef|].
           intros n fld Hfl. rewrite (Hf' n fld Hfl). reflexivity. }
  split; [intros W; rewrite W in H3; apply H3; reflexivity|].
  split. { intros W. apply String.eqb_neq in W. rewrite W in H4. destruct (H4 [] eq_refl) as (f & Ef & Hf'). exists f. split; [exact Ef|].
           intros n fld Hfl. rewrite (Hf' n fld Hfl). reflexivity. }
  split; [apply H7; lia|]. split; [apply H8; lia|].
  destruct (string_dec (o_spectra o) "") as [Ws|Ws].
  - rewrite (T3 Ws). split; [intros W; apply (T1 W)|]. split.
    + intros Lt. split; [|intros N; elim (N Ws)]. intros W. destruct (T1 W) as (_ & (rows & Ew & Ef) & _). exists rows.
      split; [exact Ef|]. apply SP; auto.
    + intros q Q1 Q2. destruct (string_dec (o_tiff o) "") as [W|W]; [rewrite (T4 W); reflexivity|].
      destruct (Q1 W). apply (T1 W); assumption.
  - destruct (T2 Ws) as (rows & Ew & ->). split; [|split].
    + intros W i x y u Hi Hx Hy Pr. destruct (T1 W) as (K & _). destruct (K i x y u Hi Hx Hy Pr) as (k & Ck & Dk). exists k. split; [exact Ck|].
      unfold disk in *. rewrite write_other by (intros X; symmetry in X; revert X; apply txt_not_tiff). exact Dk.
    + intros Lt. split.
      * intros W. destruct (T1 W) as (_ & (rows' & Ew' & Ef) & _). exists rows'. split; [|apply SP; auto].
        destruct (string_dec (spectra_name (o_tiff o) (o_base o)) (o_spectra o ++ ".txt")) as [X|X].
        -- rewrite X, write_same. rewrite Ew in Ew'. apply Ok_inj in Ew'. congruence.
        -- rewrite write_other by exact X. exact Ef.
      * intros _. exists rows. split; [apply write_same|]. apply SP; auto.
    + intros q Q1 Q2. rewrite write_other by auto. destruct (string_dec (o_tiff o) "") as [W|W]; [rewrite (T4 W); reflexivity|].
      destruct (Q1 W). apply (T1 W); assumption.
Qed.

Lemma C75_succeeds_l fuel ext cfg o ds writable order fs s :
  ds <> [] -> Forall dataset_ok ds -> Forall no_false_header ds ->
  0 < o_chunk o -> cuts_at_datasets (o_chunk o) ds -> (length (stream ds) <= fuel)%nat ->
  edges_ok (g_edges cfg) -> side (g_sr cfg) s -> 0 < s < 2 ^ 30 ->
  Permutation order (seq 0 (length (g_edges cfg) - 1)) -> (forall p, writable p = true) ->
  (forall i, (i < length (g_edges cfg) - 1)%nat ->
     saved fs (tiff_name (o_tiff o) (o_base o) i) s s \/ unrelated fs (tiff_name (o_tiff o) (o_base o) i) s s) ->
  (forall hss s', processed (timing_of o) ts0 ds hss s' ->
     Forall (fun h => (timing_of o = GDC_mode -> h_spider h < 2 ^ 48) /\ (timing_of o = TDC_mode -> h_tof h <> None)) (concat hss)) ->
  exists st fs', run_main fuel ext cfg o (Some (stream ds)) true writable order fs = Ok (st, fs').
Proof.
  intros Nd Ho Hn Hs Hc Hf Eo Sd Sz Po Hw Hp Hh.
  assert (Le := proj1 Eo). assert (Sd' := Sd). apply dim_side in Sd'.
  destruct (blank_shape (length (g_edges cfg) - 1) s ltac:(lia)) as (bl & Eb & Sb & Zb).
  unfold run_main. assert (Er : open_reader (Some (stream ds)) = Ok (Reader (stream ds) 0)).
  { unfold open_reader. destruct ds as [|d0 ds]; [congruence|]. destruct (stream (d0 :: ds)) eqn:E; [|reflexivity].
    apply (f_equal (@length Z)) in E. unfold stream in E. cbn [flat_map] in E. rewrite app_length in E. cbn in E. lia. }
  rewrite Er. cbn [obind]. fold (timing_of o).
  set (st0 := Cli ts0 (if String.eqb (o_hits o) "" then None else Some []) (if String.eqb (o_events o) "" then None else Some [])
                 (if negb (String.eqb (o_tiff o) "") || negb (String.eqb (o_spectra o) "") then Some bl else None) 0 0).
  assert (Ei : init_cli cfg o = Ok st0).
  { unfold init_cli, init_images. rewrite Sd'. cbn [obind]. destruct (g_edges cfg) as [|e0 er] eqn:Ee; [cbn in Le; lia|]. rewrite Eb.
    unfold st0. destruct (negb _ || negb _); reflexivity. }
  rewrite Ei. cbn [obind].
  destruct (C47_succeeds_l ext cfg (timing_of o) (String.eqb (o_mode o) "hit") (o_chunk o) fuel ds st0 s Ho Hn Hs Hc Hf Sd Sz Le)
    as (st & El); [|exact Hh|].
  { intros ims E. exists (length (g_edges cfg) - 1)%nat. cbn [st0 c_images] in E. destruct (negb _ || negb _); [|discriminate E].
    injection E as <-. exact Sb. }
  rewrite El. cbn [obind].
  destruct (C47_result_l _ _ _ _ _ _ _ _ _ Ho Hn Hs Hc Hf El) as (hss & nss & _ & _ & _ & _ & _ & _ & _ & H6 & _).
  cbn [st0 c_images] in H6. clear Ei El. clearbody st0.
  set (ims := match c_images st with Some l => l | None => [] end).
  assert (IM : (o_tiff o <> ""%string \/ o_spectra o <> ""%string) -> shape (length (g_edges cfg) - 1) s ims).
  { intros W. assert (B : negb (String.eqb (o_tiff o) "") || negb (String.eqb (o_spectra o) "") = true).
    { destruct (String.eqb_spec (o_tiff o) ""); destruct (String.eqb_spec (o_spectra o) ""); try reflexivity. tauto. }
    rewrite B in H6. destruct (H6 bl s eq_refl Eo Sd Sb) as (ims' & Ec & Sh & PX). unfold ims. rewrite Ec. exact Sh. }
  assert (X : exists fs1, (if String.eqb (o_tiff o) "" then Ok fs else save_tiff true writable (o_tiff o) (o_base o) ims (g_edges cfg) order fs) = Ok fs1).
  { destruct (String.eqb_spec (o_tiff o) "") as [W|W]; [eauto|].
    destruct (C31_save_l writable (o_tiff o) (o_base o) (length (g_edges cfg) - 1) s s ims (g_edges cfg) order fs
      ltac:(lia) ltac:(lia) (IM (or_introl W)) ltac:(lia) Po Hw Hp) as (fs3 & E3 & _). eauto. }
  destruct X as [fs1 ->]. cbn [obind]. destruct (String.eqb_spec (o_spectra o) "") as [W|W]; cbn [obind]; [eauto|].
  rewrite Hw. rewrite C30_rows_l by (destruct (IM (or_intror W)) as [L _]; lia). cbn [obind]. eauto.
Qed.

Lemma C75_no_input_l fuel ext cfg o content mkdir writable order fs : content = None \/ content = Some [] ->
  run_main fuel ext cfg o content mkdir writable order fs = Throw RuntimeError.
Proof. intros [->| ->]; reflexivity. Qed.
Lemma C75_no_directory_l fuel ext cfg o content writable order fs : o_tiff o <> ""%string ->
  forall r, run_main fuel ext cfg o content false writable order fs <> Ok r.
Proof.
  intros W r. unfold run_main. destruct (open_reader content); cbn [obind]; try discriminate.
  destruct (init_cli cfg o); cbn [obind]; try discriminate.
  destruct (chunk_loop _ _ _ _ _ _ _ _); cbn [obind]; try discriminate.
  apply String.eqb_neq in W. rewrite W. discriminate.
Qed.
Lemma C75_directory_fails_l fuel ext cfg o content mkdir writable order fs r : o_tiff o <> ""%string ->
  run_main fuel ext cfg o content true writable order fs = Ok r ->
  run_main fuel ext cfg o content mkdir writable order fs = if mkdir then Ok r else Throw ExternalError.
Proof.
  intros W E. destruct mkdir; [exact E|]. unfold run_main in *. destruct (open_reader content); cbn [obind] in *; try discriminate.
  destruct (init_cli cfg o); cbn [obind] in *; try discriminate.
  destruct (chunk_loop _ _ _ _ _ _ _ _); cbn [obind] in *; try discriminate.
  apply String.eqb_neq in W. rewrite W. reflexivity.
Qed.
