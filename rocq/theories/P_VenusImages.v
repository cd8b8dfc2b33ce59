(** The images that the auto reducer accumulates. *)
From Verif Require Export P_Venus.
From Coq Require Import Lia ZifyBool Permutation.
Local Open Scope Z_scope.

Lemma fold_shape sr edges d n es : forall ims ims', shape n d ims ->
  ofold (add_entry sr edges d) es ims = Ok ims' -> shape n d ims'.
Proof.
  induction es as [|e es IH]; intros ims ims' Sh; cbn [ofold].
  - intros E. apply Ok_inj in E. subst. exact Sh.
  - destruct (add_entry sr edges d ims e) as [ims1| | |] eqn:E; cbn [obind]; try discriminate.
    intros R. destruct (add_entry_inv _ _ _ _ _ _ _ Sh E) as (t & Et).
    destruct (add_entry_ok sr edges d n ims e t Sh Et) as (ims2 & E2 & Sh2 & _).
    rewrite E in E2. apply Ok_inj in E2. subst ims2. eapply IH; eassumption.
Qed.
Lemma create_shape sr edges hm bs d ims : side sr d -> 0 <= d -> (2 <= length edges)%nat -> bs <> [] ->
  create_images sr edges hm bs = Ok ims -> shape (length edges - 1) d ims.
Proof.
  intros Hs Hd He Nb E. rewrite C29_create_l in E by assumption.
  unfold init_images in E. apply dim_side in Hs. rewrite Hs in E. cbn [obind] in E.
  destruct edges as [|e0 er] eqn:Ee; [cbn in He; lia|]. rewrite <- Ee in *.
  destruct (blank_shape (length edges - 1) d Hd) as (b & Eb & Sb & _). rewrite Eb in E. cbn [obind] in E.
  rewrite (update_all_flat sr edges hm d bs Hs He b) in E.
  2:{ intros ->. destruct Sb as [L _]. cbn in L. lia. }
  eapply fold_shape; eassumption.
Qed.

(** A file without batches cannot be saved. *)
Lemma no_batches_save sr hm edges dir base writable order fs ims fs' : (2 <= length edges)%nat ->
  Permutation order (seq 0 (length edges - 1)) -> create_images sr edges hm [] = Ok ims ->
  save_tiff true writable dir base ims edges order fs <> Ok fs'.
Proof.
  intros He Po Ei Es. destruct (C30_saving_no_batches_l sr hm edges dir base writable true order fs He Po eq_refl)
    as (ims2 & E2 & U). rewrite Ei in E2. apply Ok_inj in E2. subst ims2. congruence.
Qed.

Section Images.
  Variables (su : setup) (n : nat) (d : Z) (fs0 : files).
  Local Notation edges := (g_edges (su_cfg su)).
  Local Notation name := (tiff_name (su_dir su) (su_base su)).
  Hypothesis He : length edges = S n.
  Hypothesis Hn : (0 < n)%nat.
  Hypothesis Hs : side (g_sr (su_cfg su)) d.
  Hypothesis Hd : 0 < d.
  Hypothesis Hf : forall i, (i < n)%nat -> saved fs0 (name i) d d \/ unrelated fs0 (name i) d d.

  Definition holds (imgs : list (list image)) (fs : files) : Prop :=
    (imgs = [] -> fs = fs0) /\
    (imgs <> [] -> forall i, (i < n)%nat -> saved fs (name i) d d /\
      forall x y u, 0 <= x < d -> 0 <= y < d -> prior fs0 (name i) d d x y u ->
        disk fs (name i) x y = Some ((u + stack_sum i x y imgs) mod 2 ^ 32)) /\
    (forall q, q <> spectra_name (su_dir su) (su_base su) -> (forall i, (i < n)%nat -> q <> name i) -> fs q = fs0 q).

  Lemma holds_start : holds [] fs0.
  Proof. split; [auto|]. split; [congruence|auto]. Qed.

  Lemma stack_sum_snoc i x y l ims v : pixel ims i x y = Some v ->
    stack_sum i x y (l ++ [ims]) = stack_sum i x y l + v.
  Proof.
    intros E. unfold stack_sum. rewrite map_app. cbn [map]. rewrite E.
    induction (map _ l) as [|a l' IH]; cbn [app fold_right]; lia.
  Qed.

  Lemma holds_save imgs fs ims w fs' : holds imgs fs -> shape n d ims -> good_world n w ->
    save_tiff (w_mkdir w) (w_writable w) (su_dir su) (su_base su) ims edges (w_order w) fs = Ok fs' ->
    holds (imgs ++ [ims]) fs'.
  Proof.
    intros (H1 & H2 & H3) Sh (Wm & Ww & Wo & _) E. rewrite Wm in E.
    assert (Pf : forall i, (i < n)%nat -> saved fs (name i) d d \/ unrelated fs (name i) d d).
    { intros i Hi. destruct imgs as [|z imgs]; [rewrite (H1 eq_refl); auto|].
      left. apply H2; [discriminate|exact Hi]. }
    destruct (C31_save_l (w_writable w) (su_dir su) (su_base su) n d d ims edges (w_order w) fs
                Hd ltac:(lia) Sh He Wo Ww Pf) as (fs2 & E2 & S2 & D2 & _ & O2).
    rewrite E in E2. apply Ok_inj in E2. subst fs2.
    split; [intros X; destruct imgs; discriminate X|]. split.
    - intros _ i Hi. split; [apply S2; exact Hi|]. intros x y u Hx Hy P.
      destruct (stack_pixel n d d ims i x y Sh Hi Hx Hy) as (v & Ev).
      rewrite (stack_sum_snoc i x y imgs ims v Ev).
      destruct imgs as [|z imgs].
      + rewrite (H1 eq_refl) in D2. rewrite (D2 i x y v u Ev P). f_equal.
      + destruct (H2 ltac:(discriminate) i Hi) as [Sv Dv].
        rewrite (D2 i x y v _ Ev (prior_saved _ _ _ _ _ _ _ Sv (Dv x y u Hx Hy P))).
        rewrite Zplus_mod_idemp_l, Z.add_assoc. reflexivity.
    - intros q N1 N2. rewrite (O2 q N1 N2). apply H3; assumption.
  Qed.

  Lemma file_shape m s ims s' w fs fs' : file_images su m s ims s' -> good_world n w ->
    save_tiff (w_mkdir w) (w_writable w) (su_dir su) (su_base su) ims edges (w_order w) fs = Ok fs' -> shape n d ims.
  Proof.
    intros (bs & bs' & _ & _ & C) (Wm & _ & Wo & _) E. rewrite Wm in E.
    replace n with (length edges - 1)%nat by lia.
    destruct bs' as [|b bs'].
    - exfalso. eapply no_batches_save; [| |exact C|exact E]; [lia|]. rewrite He. cbn [Nat.sub]. rewrite Nat.sub_0_r. exact Wo.
    - eapply create_shape; [exact Hs|lia|lia| |exact C]. discriminate.
  Qed.

  Lemma saved_images_app l1 l2 : saved_images (l1 ++ l2) = saved_images l1 ++ saved_images l2.
  Proof. apply flat_map_app. Qed.

  Lemma scan_images es : forall s st q st', (forall e, In e es -> good_world n (d_world e)) ->
    holds (saved_images (v_log st)) (v_files st) -> scan_entries su es s st = Ok (q, st') ->
    holds (saved_images (v_log st')) (v_files st').
  Proof.
    induction es as [|e es IH]; intros s st q st' G H E; cbn [scan_entries] in E.
    - apply Ok_inj in E. injection E as <- <-. exact H.
    - assert (G' : forall e, In e es -> good_world n (d_world e)) by (intros; apply G; right; assumption).
      destruct (is_raw e && negb (seen st e)); [|eapply IH; eassumption].
      destruct (reduce_file su e s (v_files st)) as [[[r s'] fs']| | |] eqn:R; cbn [obind] in E; try discriminate E.
      apply reduce_cases in R. pose proof (G e (or_introl eq_refl)) as We. destruct r as [ims| |].
      + destruct R as (m & _ & _ & FI & _ & Sv). eapply IH; [exact G'| |exact E]. cbn [v_log v_files].
        rewrite saved_images_app. cbn [saved_images flat_map app].
        eapply holds_save; [exact H|eapply file_shape; eassumption|exact We|exact Sv].
      + destruct R as (m & _ & _ & [->|(ims & done & _ & Wf & _)]).
        * eapply IH; [exact G'| |exact E]. cbn [v_log v_files]. rewrite saved_images_app, List.app_nil_r. exact H.
        * destruct We as (_ & _ & _ & We). congruence.
      + apply Ok_inj in E. injection E as <- <-. exact H.
  Qed.
  Lemma monitor_images rs : forall st q st', (forall r e, In r rs -> In e (rd_scan r) -> good_world n (d_world e)) ->
    holds (saved_images (v_log st)) (v_files st) -> monitor su rs st = Ok (q, st') ->
    holds (saved_images (v_log st')) (v_files st').
  Proof.
    induction rs as [|r rs IH]; intros st q st' G H E; cbn [monitor] in E.
    - apply Ok_inj in E. injection E as <- <-. exact H.
    - destruct (existsb is_stop (rd_check r)).
      + apply Ok_inj in E. injection E as <- <-. exact H.
      + destruct (scan_dir su (rd_scan r) st) as [[quit st1]| | |] eqn:Es; cbn [obind] in E; try discriminate E.
        assert (H1 : holds (saved_images (v_log st1)) (v_files st1)).
        { eapply scan_images; [|exact H|exact Es]. intros e I. apply (G r); [left; reflexivity|exact I]. }
        destruct quit.
        * apply Ok_inj in E. injection E as <- <-. exact H1.
        * eapply IH; [|exact H1|exact E]. intros r' e I. apply G. right. exact I.
  Qed.

  (** A file fails after some bins have been saved and is reduced again. *)
  Lemma readded e1 e2 m ims s' done w2 st : d_name e1 = d_name e2 -> raw_file e1 -> raw_file e2 ->
    d_content e1 = Some m -> d_content e2 = Some m ->
    file_images su m ts0 ims s' -> shape n d ims ->
    w_mkdir (d_world e1) = true -> (forall p, w_writable (d_world e1) p = true) ->
    w_fault (d_world e1) = Some done -> NoDup done -> (forall i, In i done -> (i < n)%nat) ->
    d_world e2 = w2 -> good_world n w2 ->
    monitor su [Round [] [e1]; Round [] [e2]] (venus_start fs0) = Ok (Running, st) ->
    v_log st = [Failed (d_name e1); Saved (d_name e1) ims] /\
    forall i x y u v, (i < n)%nat -> pixel ims i x y = Some v -> prior fs0 (name i) d d x y u ->
      (In i done -> disk (v_files st) (name i) x y = Some ((u + 2 * v) mod 2 ^ 32)) /\
      (~ In i done -> disk (v_files st) (name i) x y = Some ((u + v) mod 2 ^ 32)).
  Proof.
    intros En R1 R2 M1 M2 FI Sh Wm Ww Wf ND Hdone <- (Wm2 & Ww2 & Wo2 & Wf2) E.
    cbn [monitor rd_check rd_scan existsb] in E. unfold scan_dir in E. cbn [scan_entries] in E.
    rewrite (proj2 (raw_spec e1) R1), (proj2 (raw_spec e2) R2) in E. cbn [seen v_processed venus_start existsb negb andb] in E.
    destruct FI as (bs & bs' & L & P & C).
    assert (X1 : exists fs1, save_bins (w_writable (d_world e1)) (su_dir su) (su_base su) ims done fs0 = Ok fs1 /\
              (forall q, (forall i, In i done -> q <> name i) -> fs1 q = fs0 q) /\
              (forall i, In i done -> saved fs1 (name i) d d) /\
              forall i x y v u, In i done -> pixel ims i x y = Some v -> prior fs0 (name i) d d x y u ->
                disk fs1 (name i) x y = Some ((u + v) mod 2 ^ 32)).
    { apply (save_bins_ok (w_writable (d_world e1)) (su_dir su) (su_base su) n d d ims Hd ltac:(lia) Sh); auto. }
    destruct X1 as (fs1 & E1 & O1 & S1 & D1).
    assert (Q1 : reduce_file su e1 ts0 fs0 = Ok (EndFailed, s', fs1)).
    { unfold reduce_file. rewrite M1, L. cbv zeta. rewrite P. cbn [obind]. rewrite C. unfold save_in_world.
      rewrite Wf, Wm, E1. reflexivity. }
    unfold v_files, venus_start in E. rewrite Q1 in E. cbn [obind v_processed v_log app] in E.
    unfold seen in E. cbn [v_processed existsb negb] in E.
    assert (Sv : forall i, (i < n)%nat -> saved fs1 (name i) d d \/ unrelated fs1 (name i) d d).
    { intros i Hi. destruct (in_dec Nat.eq_dec i done) as [I|I]; [left; apply S1; exact I|].
      assert (Eq : fs1 (name i) = fs0 (name i)).
      { apply O1. intros j J K. apply tiff_name_inj in K. congruence. }
      destruct (Hf i Hi) as [Z|Z]; [left|right].
      - eapply saved_ext; [symmetry; exact Eq|exact Z].
      - eapply unrelated_ext; [symmetry; exact Eq|exact Z]. }
    destruct (C31_save_l (w_writable (d_world e2)) (su_dir su) (su_base su) n d d ims edges (w_order (d_world e2)) fs1
                Hd ltac:(lia) Sh He Wo2 Ww2 Sv) as (fs2 & E2 & S2 & D2 & _ & O2).
    assert (Q2 : reduce_file su e2 ts0 fs1 = Ok (EndSaved ims, s', fs2)).
    { unfold reduce_file. rewrite M2, L. cbv zeta. rewrite P. cbn [obind]. rewrite C. unfold save_in_world.
      rewrite Wf2, Wm2. rewrite E2. reflexivity. }
    rewrite Q2 in E. cbn [obind v_processed v_log app] in E. apply Ok_inj in E. injection E as <-.
    cbn [v_log v_files]. split; [rewrite En; reflexivity|].
    intros i x y u v Hi Pv Pr. split; intros I.
    - rewrite (D2 i x y v _ Pv (prior_saved _ _ _ _ _ _ _ (S1 i I) (D1 i x y v u I Pv Pr))).
      rewrite Zplus_mod_idemp_l. do 2 f_equal. lia.
    - apply (D2 i x y v u Pv). eapply prior_ext; [|exact Pr].
      symmetry. apply O1. intros j J K. apply tiff_name_inj in K. congruence.
  Qed.
End Images.

(** * Files that end the program *)

Lemma no_header m : bytes_ok m -> (forall off p, ~ header_at m off p) -> find_headers m = [].
Proof.
  intros Hb H. destruct (find_headers m) as [|b l] eqn:E; [reflexivity|]. exfalso.
  assert (I : In b (find_headers m)) by (rewrite E; left; reflexivity).
  apply C10_l in I; [|exact Hb]. destruct I as (p & I & _). eapply H; exact I.
Qed.
Lemma no_header_reduce su e m s fs : d_content e = Some m -> bytes_ok m -> (forall off p, ~ header_at m off p) ->
  (2 <= length (g_edges (su_cfg su)))%nat -> good_world (length (g_edges (su_cfg su)) - 1) (d_world e) ->
  reduce_file su e s fs = UB OutOfBounds.
Proof.
  intros Ec Hb Hh He (Wm & _ & Wo & Wf). unfold reduce_file. rewrite Ec, (no_header m Hb Hh). cbn [locate].
  cbv zeta. change (process_all (su_ext su) (g_abs (su_cfg su)) GDC_mode m []) with (Ok (A:=list batch) []). cbn [obind].
  destruct (C30_saving_no_batches_l (g_sr (su_cfg su)) (su_hit su) (g_edges (su_cfg su)) (su_dir su) (su_base su)
              (w_writable (d_world e)) true (w_order (d_world e)) fs He Wo eq_refl) as (ims & Ei & Es).
  rewrite Ei. unfold save_in_world. rewrite Wf, Wm, Es. reflexivity.
Qed.
Lemma C38_no_header_l su rs r fs st e es m : monitor su rs (venus_start fs) = Ok (Running, st) -> ~ stops r ->
  rd_scan r = e :: es -> raw_file e -> ~ was_saved (v_log st) (d_name e) ->
  d_content e = Some m -> bytes_ok m -> (forall off p, ~ header_at m off p) ->
  (2 <= length (g_edges (su_cfg su)))%nat -> good_world (length (g_edges (su_cfg su)) - 1) (d_world e) ->
  monitor su (rs ++ [r]) (venus_start fs) = UB OutOfBounds.
Proof.
  intros M Ns Er Rf Nw Ec Hb Hh He Gw. rewrite (monitor_app_ok _ _ _ _ _ M). cbn [monitor].
  destruct (existsb is_stop (rd_check r)) eqn:X; [elim Ns; apply stops_spec; exact X|].
  pose proof (monitor_consistent _ _ _ _ _ (start_consistent fs) M) as C.
  unfold scan_dir. rewrite Er. cbn [scan_entries]. rewrite (proj2 (raw_spec e) Rf). cbn [andb].
  pose proof (seen_saved st e C (proj2 Rf)) as SS. destruct (seen st e); [elim Nw; apply SS; reflexivity|].
  cbn [negb]. rewrite (no_header_reduce su e m ts0 (v_files st) Ec Hb Hh He Gw). reflexivity.
Qed.
Lemma C38_exit_l su rs r rs' fs st e es : monitor su rs (venus_start fs) = Ok (Running, st) -> ~ stops r ->
  rd_scan r = e :: es -> raw_file e -> ~ was_saved (v_log st) (d_name e) -> d_content e = None ->
  monitor su (rs ++ r :: rs') (venus_start fs) = Ok (Exited, st).
Proof.
  intros M Ns Er Rf Nw Ec. rewrite (monitor_app_ok _ _ _ _ _ M). cbn [monitor].
  destruct (existsb is_stop (rd_check r)) eqn:X; [elim Ns; apply stops_spec; exact X|].
  pose proof (monitor_consistent _ _ _ _ _ (start_consistent fs) M) as C.
  unfold scan_dir. rewrite Er. cbn [scan_entries]. rewrite (proj2 (raw_spec e) Rf). cbn [andb].
  pose proof (seen_saved st e C (proj2 Rf)) as SS. destruct (seen st e); [elim Nw; apply SS; reflexivity|].
  cbn [negb]. unfold reduce_file. rewrite Ec. reflexivity.
Qed.

(** * The command line *)

Lemma venus_parse_snoc stoi args o a o' : read_venus_options stoi args o -> parse_varg stoi o a = Ok o' ->
  read_venus_options stoi (args ++ [a]) o'.
Proof.
  intros (H1 & H2 & H3 & H4 & H5 & H6 & H7 & H8) E.
  destruct a as [s|s|s|s|s|s| | |]; cbn [parse_varg] in E;
    try (destruct (stoi s) as [n|] eqn:Es); try discriminate E; apply Ok_inj in E; subst o';
    (repeat apply conj; cbn [vo_in vo_out vo_config vo_base vo_mode vo_interval vo_verbose vo_debug];
     (eapply chosen_snoc; [eassumption|cbn [vsel_i vsel_o vsel_u vsel_f vsel_m vsel_c vsel_d vsel_v]; try reflexivity])).
  rewrite Es. reflexivity.
Qed.
Lemma venus_fold_read stoi args o : ofold (parse_varg stoi) args default_venus_options = Ok o ->
  read_venus_options stoi args o /\ acceptable_venus stoi args.
Proof.
  revert o. induction args as [|a args IH] using rev_ind; intros o E.
  - cbn in E. apply Ok_inj in E. subst o. split; [|split; [intros []|intros s []]].
    repeat split; right; (split; [reflexivity|constructor]).
  - rewrite ofold_app in E. destruct (ofold _ args _) as [o1| | |]; cbn [obind ofold] in E; try discriminate E.
    destruct (IH o1 eq_refl) as [A [B1 B2]].
    destruct (parse_varg stoi o1 a) as [o2| | |] eqn:P; cbn [obind] in E; try discriminate E.
    apply Ok_inj in E. subst o2. split; [eapply venus_parse_snoc; eassumption|]. split.
    + intros I. apply in_app_or in I. destruct I as [I|[->|[]]]; [auto|discriminate P].
    + intros s I. apply in_app_or in I. destruct I as [I|[->|[]]]; [auto|]. cbn in P. intros N. rewrite N in P. discriminate P.
Qed.
Lemma venus_fold_accepts stoi args : forall o, acceptable_venus stoi args -> exists o', ofold (parse_varg stoi) args o = Ok o'.
Proof.
  induction args as [|a args IH]; intros o [A B]; [eexists; reflexivity|]. cbn [ofold].
  assert (S : acceptable_venus stoi args).
  { split; [intros I; apply A; right; exact I|intros s I; apply B; right; exact I]. }
  assert (P : exists o1, parse_varg stoi o a = Ok o1).
  { destruct a; cbn [parse_varg]; eauto.
    - destruct (stoi s) eqn:E; [eauto|]. exfalso. apply (B s); [left; reflexivity|exact E].
    - exfalso. apply A. left. reflexivity. }
  destruct P as (o1 & ->). cbn [obind]. apply IH. exact S.
Qed.
Lemma venus_read_unique stoi args o o' : read_venus_options stoi args o -> read_venus_options stoi args o' -> o = o'.
Proof.
  intros (H1 & H2 & H3 & H4 & H5 & H6 & H7 & H8) (K1 & K2 & K3 & K4 & K5 & K6 & K7 & K8).
  destruct o, o'; cbn in *. f_equal; eapply chosen_unique; eassumption.
Qed.
Lemma C50_refused_l stoi args :
  (exists o, parse_venus stoi args = Ok o) \/ exists e, parse_venus stoi args = Throw e.
Proof.
  unfold parse_venus. generalize default_venus_options. induction args as [|a args IH]; intros o.
  - cbn [ofold obind]. repeat match goal with |- context [if ?b then _ else _] => destruct b end;
      (left; eexists; reflexivity) || (right; eexists; reflexivity).
  - cbn [ofold]. destruct (parse_varg stoi o a) as [o'|x|u|] eqn:E.
    + exact (IH o').
    + right. eexists. reflexivity.
    + unfold parse_varg in E. destruct a; try discriminate E. destruct (stoi s); discriminate E.
    + unfold parse_varg in E. destruct a; try discriminate E. destruct (stoi s); discriminate E.
Qed.
Lemma C50_l stoi args o : parse_venus stoi args = Ok o <->
  acceptable_venus stoi args /\ read_venus_options stoi args o /\ valid_venus_options o.
Proof.
  unfold parse_venus, valid_venus_options. split.
  - intros E. destruct (ofold (parse_varg stoi) args default_venus_options) as [o1| | |] eqn:F; cbn [obind] in E; try discriminate E.
    apply venus_fold_read in F. destruct F as [A B].
    destruct (String.eqb_spec (vo_in o1) "") as [|N]; cbn [orb] in E; [discriminate E|].
    destruct (String.eqb_spec (vo_out o1) "") as [|N']; [discriminate E|].
    destruct (String.eqb_spec (vo_mode o1) "hit") as [M|M]; cbn [negb andb] in E;
    [|destruct (String.eqb_spec (vo_mode o1) "neutron") as [M'|M']; cbn [negb andb] in E; [|discriminate E]];
    (destruct (Z.leb_spec (vo_interval o1) 0); [discriminate E|]);
    apply Ok_inj in E; subst o; auto 8.
  - intros (A & R & N & N' & M & T). destruct (venus_fold_accepts stoi args default_venus_options A) as (o1 & F).
    rewrite F. cbn [obind]. destruct (venus_fold_read _ _ _ F) as [R1 _].
    rewrite (venus_read_unique _ _ _ _ R1 R).
    destruct (String.eqb_spec (vo_in o) ""); [contradiction|].
    destruct (String.eqb_spec (vo_out o) ""); [contradiction|]. cbn [orb].
    destruct (Z.leb_spec (vo_interval o) 0); [lia|].
    destruct M as [-> | ->]; reflexivity.
Qed.

Lemma C38_images_l : forall su n d fs0 rs q st,
  length (g_edges (su_cfg su)) = S n -> (0 < n)%nat -> side (g_sr (su_cfg su)) d -> 0 < d ->
  (forall i, (i < n)%nat -> saved fs0 (tiff_name (su_dir su) (su_base su) i) d d \/
                            unrelated fs0 (tiff_name (su_dir su) (su_base su) i) d d) ->
  (forall r e, In r rs -> In e (rd_scan r) -> good_world n (d_world e)) ->
  monitor su rs (venus_start fs0) = Ok (q, st) ->
  (saved_images (v_log st) = [] -> v_files st = fs0) /\
  (saved_images (v_log st) <> [] -> forall i, (i < n)%nat ->
     saved (v_files st) (tiff_name (su_dir su) (su_base su) i) d d /\
     forall x y u, 0 <= x < d -> 0 <= y < d -> prior fs0 (tiff_name (su_dir su) (su_base su) i) d d x y u ->
       disk (v_files st) (tiff_name (su_dir su) (su_base su) i) x y =
         Some ((u + stack_sum i x y (saved_images (v_log st))) mod 2 ^ 32)) /\
  (forall p, p <> spectra_name (su_dir su) (su_base su) ->
     (forall i, (i < n)%nat -> p <> tiff_name (su_dir su) (su_base su) i) -> v_files st p = fs0 p).
Proof.
  intros su n d fs0 rs q st He Hn Hs Hd Hf G E.
  exact (monitor_images su n d fs0 He Hn Hs Hd Hf rs (venus_start fs0) q st G (holds_start su n d fs0) E).
Qed.
Lemma C38_retry_l : forall su n d fs0 e1 e2 m ims s' done st,
  length (g_edges (su_cfg su)) = S n -> (0 < n)%nat -> side (g_sr (su_cfg su)) d -> 0 < d ->
  (forall i, (i < n)%nat -> saved fs0 (tiff_name (su_dir su) (su_base su) i) d d \/
                            unrelated fs0 (tiff_name (su_dir su) (su_base su) i) d d) ->
  d_name e1 = d_name e2 -> raw_file e1 -> raw_file e2 -> d_content e1 = Some m -> d_content e2 = Some m ->
  file_images su m ts0 ims s' -> shape n d ims ->
  w_mkdir (d_world e1) = true -> (forall p, w_writable (d_world e1) p = true) ->
  w_fault (d_world e1) = Some done -> NoDup done -> (forall i, In i done -> (i < n)%nat) ->
  good_world n (d_world e2) ->
  monitor su [Round [] [e1]; Round [] [e2]] (venus_start fs0) = Ok (Running, st) ->
  v_log st = [Failed (d_name e1); Saved (d_name e1) ims] /\
  forall i x y u v, (i < n)%nat -> pixel ims i x y = Some v ->
    prior fs0 (tiff_name (su_dir su) (su_base su) i) d d x y u ->
    (In i done -> disk (v_files st) (tiff_name (su_dir su) (su_base su) i) x y = Some ((u + 2 * v) mod 2 ^ 32)) /\
    (~ In i done -> disk (v_files st) (tiff_name (su_dir su) (su_base su) i) x y = Some ((u + v) mod 2 ^ 32)).
Proof.
  intros su n d fs0 e1 e2 m ims s' done st He Hn Hs Hd Hf En R1 R2 C1 C2 FI Sh Wm Ww Wf ND Hdn G M.
  eapply (readded su n d fs0); try eassumption. reflexivity.
Qed.
