(** Proofs about true events and hits in the images (C92). *)
From Coq Require Import Reals Lra String Permutation.
From Flocq Require Import Core.
From Verif Require Import P_Measure P_Events P_EventsProgram P_CliRun P_Program P_Tof P_Main P_Centroid F64Facts.
From Verif Require Export S_Images.
From Coq Require Import Lia ZifyBool.
Local Open Scope Z_scope.

Lemma nearest_within v X a : (Rabs (v - IZR X) <= IZR a + bpow radix2 (-41))%R -> Z.abs (ZnearestA v - X) <= a.
Proof.
  intros H. apply Rabs_le_inv in H. assert (B : (0 < bpow radix2 (-41) < / 2)%R).
  { split; [apply bpow_gt_0|]. change (/ 2)%R with (bpow radix2 (-1)). apply bpow_lt. lia. }
  assert (U : ZnearestA v <= X + a).
  { rewrite <- (Znearest_imp (fun z => Z.leb 0 z) (IZR (X + a) + bpow radix2 (-41)) (X + a)).
    - apply (@Zrnd_le ZnearestA valid_rnd_NA). rewrite plus_IZR. lra.
    - replace (IZR (X + a) + bpow radix2 (-41) - IZR (X + a))%R with (bpow radix2 (-41)) by lra. rewrite Rabs_pos_eq; lra. }
  assert (L : X - a <= ZnearestA v).
  { rewrite <- (Znearest_imp (fun z => Z.leb 0 z) (IZR (X - a) - bpow radix2 (-41)) (X - a)).
    - apply (@Zrnd_le ZnearestA valid_rnd_NA). rewrite minus_IZR. lra.
    - replace (IZR (X - a) - bpow radix2 (-41) - IZR (X - a))%R with (- bpow radix2 (-41))%R by lra. rewrite Rabs_Ropp, Rabs_pos_eq; lra. }
  lia.
Qed.
Lemma times_one v : is_finite v = true -> (Rabs (B2R v) <= bpow radix2 30)%R ->
  is_finite (fmul v (f_of_Z 1)) = true /\ B2R (fmul v (f_of_Z 1)) = B2R v.
Proof.
  intros F B. destruct (is_int_of_Z 1 ltac:(lia)) as [F1 E1].
  destruct (fmul_correct v (f_of_Z 1) 30) as [C D]; try assumption; [lia|rewrite E1, Rmult_1_r; exact B|].
  split; [exact D|]. rewrite C, E1, Rmult_1_r. apply round_generic; [apply valid_rnd_N|apply generic_format_B2R].
Qed.
Lemma sensor_nearest v : is_finite v = true -> on_sensor (B2R v) -> 0 <= ZnearestA (B2R v) <= 515 /\
  forall z, nearest (fmul v (f_of_Z 1)) z <-> ZnearestA (B2R v) = z.
Proof.
  intros F [L U]. assert (B : (0 < bpow radix2 (-41) < / 2)%R).
  { split; [apply bpow_gt_0|]. change (/ 2)%R with (bpow radix2 (-1)). apply bpow_lt. lia. }
  split.
  - split.
    + eapply Z.le_trans; [|apply (@Zrnd_le ZnearestA valid_rnd_NA 0%R); exact L].
      rewrite (@Zrnd_IZR ZnearestA valid_rnd_NA 0). lia.
    + replace 515 with (ZnearestA (515 + bpow radix2 (-41))%R).
      * apply (@Zrnd_le ZnearestA valid_rnd_NA). exact U.
      * apply Znearest_imp. replace (515 + bpow radix2 (-41) - IZR 515)%R with (bpow radix2 (-41)) by lra. rewrite Rabs_pos_eq; lra.
  - intros z. destruct (times_one v F) as [F' E].
    { rewrite Rabs_pos_eq by exact L. change (bpow radix2 30) with 1073741824%R. lra. }
    unfold nearest. rewrite E, F'. tauto.
Qed.

(** The rounded quotient by 10^9 of a number between two integers. *)
Lemma quotient_eq t : is_finite t = true -> B2R (fdiv t c_1e9) = rnd (B2R t / 10 ^ 9)%R.
Proof.
  intros F. destruct e9_int as [_ E].
  destruct (fdiv_correct t c_1e9 995) as [A _]; [lia|exact F|rewrite E; lra| |].
  - rewrite E. unfold Rdiv. rewrite Rabs_mult, Rabs_inv, (Rabs_pos_eq 1000000000) by lra.
    pose proof (abs_B2R_lt_emax _ _ t) as B.
    apply Rle_trans with (bpow radix2 1024 * / 1000000000)%R.
    + apply Rmult_le_compat_r; [|lra]. apply Rlt_le, Rinv_0_lt_compat. lra.
    + apply Rle_trans with (bpow radix2 1024 * / bpow radix2 29)%R.
      * apply Rmult_le_compat_l; [apply bpow_ge_0|]. apply Rinv_le; [apply bpow_gt_0|].
        change (bpow radix2 29) with (IZR (2 ^ 29)). apply IZR_le. lia.
      * rewrite <- bpow_opp, <- bpow_plus. apply bpow_le. lia.
  - rewrite A, E. f_equal. f_equal. lra.
Qed.
Lemma rnd_integer z : 0 <= z ->
  (IZR z / 10 ^ 9 * (1 - bpow radix2 (-53)) <= rnd (IZR z / 10 ^ 9) <= IZR z / 10 ^ 9 * (1 + bpow radix2 (-53)))%R.
Proof.
  intros H. destruct (Z.eq_dec z 0) as [->|N].
  { replace (0 / 10 ^ 9)%R with 0%R by lra. replace (rnd 0) with 0%R; [lra|]. symmetry. apply round_0. apply valid_rnd_N. }
  assert (P : (1 / 10 ^ 9 <= IZR z / 10 ^ 9)%R).
  { apply Rmult_le_compat_r; [lra|]. apply IZR_le. lia. }
  assert (Q : (bpow radix2 (-1000) <= Rabs (IZR z / 10 ^ 9))%R).
  { rewrite Rabs_pos_eq by lra. eapply Rle_trans; [|exact P].
    apply Rle_trans with (bpow radix2 (-30)); [apply bpow_le; lia|]. change (bpow radix2 (-30)) with (/ 1073741824)%R. lra. }
  pose proof (rel_err _ Q) as B. rewrite (Rabs_pos_eq (IZR z / 10 ^ 9)) in B by lra. apply Rabs_le_inv in B. lra.
Qed.
Lemma quotient_low t z : is_finite t = true -> 0 <= z -> (IZR z <= B2R t)%R ->
  (IZR z / 10 ^ 9 * (1 - bpow radix2 (-53)) <= B2R (fdiv t c_1e9))%R.
Proof.
  intros F H L. rewrite (quotient_eq t F). eapply Rle_trans; [apply (rnd_integer z H)|]. apply rnd_le.
  apply Rmult_le_compat_r; [lra|exact L].
Qed.
Lemma quotient_high t z : is_finite t = true -> 0 <= z -> (B2R t <= IZR z)%R ->
  (B2R (fdiv t c_1e9) <= IZR z / 10 ^ 9 * (1 + bpow radix2 (-53)))%R.
Proof.
  intros F H L. rewrite (quotient_eq t F). eapply Rle_trans; [|apply (rnd_integer z H)]. apply rnd_le.
  apply Rmult_le_compat_r; [lra|exact L].
Qed.

Definition cell_of (edges : list f64) (e : neutron) : cell :=
  match bin_of edges (length edges - 1) (n_tof_ns e) with
  | Some i => Some (i, ZnearestA (B2R (n_x e)), ZnearestA (B2R (n_y e)))
  | None => None
  end.
Lemma cell_lands a w ev c e edges : tells a w ev c e -> edges_ok edges ->
  forall i x y, (lands (f_of_Z 1) edges (entry_of_neutron e) i x y <-> cell_of edges e = Some (i, x, y)).
Proof.
  intros (Fx & Fy & Ft & _ & _ & _ & Sx & Sy & Tt & _) O i x y.
  destruct (sensor_nearest _ Fx Sx) as [_ Nx]. destruct (sensor_nearest _ Fy Sy) as [_ Ny].
  unfold lands, entry_of_neutron, cell_of. cbn [en_tof en_x en_y]. rewrite Nx, Ny.
  pose proof (bin_of_spec edges (n_tof_ns e) i O) as B. split.
  - intros ((tof & E & F & P & I & L) & _ & _ & X & Y). injection E as <-.
    rewrite (proj2 B) by auto. rewrite X, Y. reflexivity.
  - destruct (bin_of edges (length edges - 1) (n_tof_ns e)) as [j|]; [|discriminate].
    intros E. injection E as -> X Y. destruct (proj1 B eq_refl) as (B1 & B2 & B3 & B4). split; [|auto].
    exists (n_tof_ns e). auto.
Qed.
Lemma cell_placed a w ev c e edges : tells a w ev c e -> edges_ok edges -> placed a w edges ev (cell_of edges e).
Proof.
  intros (Fx & Fy & Ft & _ & Ax & Ay & Sx & Sy & [Tl Tu] & _) O.
  destruct (sensor_nearest _ Fx Sx) as [Rx _]. destruct (sensor_nearest _ Fy Sy) as [Ry _].
  assert (P : (0 <= B2R (n_tof_ns e))%R).
  { eapply Rle_trans; [|exact Tl]. apply IZR_le. lia. }
  pose proof (quotient_low _ (Z.max 0 (at_t (e_at ev) - 25 * e_pulse ev)) Ft ltac:(lia) Tl) as Ql.
  pose proof (quotient_high _ (at_t (e_at ev) + w - 25 * e_pulse ev) Ft ltac:(apply le_IZR; lra) Tu) as Qu.
  unfold cell_of. destruct (bin_of edges (length edges - 1) (n_tof_ns e)) as [i|] eqn:E.
  - apply bin_of_spec in E; [|exact O]. destruct E as (_ & _ & (lo & hi & E1 & E2 & E3 & E4) & _).
    apply (placed_in a w edges ev i _ _ lo hi); try assumption.
    + apply nearest_within. exact Ax.
    + apply nearest_within. exact Ay.
    + unfold at_most. lra.
    + unfold at_least. lra.
  - pose proof O as (Hl & _ & _).
    destruct (nth_error edges 0) as [lo|] eqn:E0; [|apply nth_error_None in E0; lia].
    destruct (nth_error edges (length edges - 1)) as [hi|] eqn:E1; [|apply nth_error_None in E1; lia].
    destruct (Rle_lt_dec (B2R (fdiv (n_tof_ns e) c_1e9)) (B2R lo)) as [C|C].
    { apply (placed_early a w edges ev lo E0). unfold at_least. lra. }
    destruct (Rle_lt_dec (B2R hi) (B2R (fdiv (n_tof_ns e) c_1e9))) as [D|D].
    { apply (placed_late a w edges ev hi E1). unfold at_most. lra. }
    exfalso. destruct (in_bin_exists edges (fdiv (n_tof_ns e) c_1e9) O) as (i & I); [eauto|exists hi; auto|].
    assert (bin_of edges (length edges - 1) (n_tof_ns e) = Some i); [|congruence].
    apply bin_of_spec; [exact O|]. split; [exact Ft|]. split; [exact P|]. split; [exact I|]. exists hi. auto.
Qed.

Lemma number_cons {A} p (a : A) l : number p (a :: l) = (if p a then 1 else 0) + number p l.
Proof. unfold number. cbn [filter]. destruct (p a); rewrite ?zlen_cons; lia. Qed.
Lemma counted_number {A B C} (P : B -> Prop) (f : A -> B) (p : C -> bool) (g : A -> C) l :
  Forall (fun a => P (f a) <-> p (g a) = true) l -> forall k, counted P (map f l) k -> k = number p (map g l).
Proof.
  induction 1 as [|a l H F IH]; cbn [map]; intros k C0; inversion C0 as [|? ? ? Pa Ca|? ? ? Pa Ca]; subst; rewrite ?number_cons.
  - reflexivity.
  - rewrite (proj1 H Pa), <- (IH _ Ca). lia.
  - rewrite <- (IH _ Ca). destruct (p (g a)) eqn:E; [exfalso; apply Pa, H; reflexivity|reflexivity].
Qed.
Lemma counted_map {A B} (P : B -> Prop) (Q : A -> Prop) (f : A -> B) l :
  Forall (fun a => P (f a) <-> Q a) l -> forall k, counted P (map f l) k -> counted Q l k.
Proof.
  induction 1 as [|a l H F IH]; cbn [map]; intros k C0; inversion C0 as [|? ? ? Pa Ca|? ? ? Pa Ca]; subst.
  - constructor.
  - constructor; [apply H; exact Pa|auto].
  - apply counted_no; [intros X; apply Pa, H, X|auto].
Qed.

Lemma nth_Forall2 {A B} (R : A -> B -> Prop) (d : A) : forall l l', length l' = length l ->
  (forall i b, nth_error l' i = Some b -> R (nth i l d) b) -> Forall2 R l l'.
Proof.
  induction l as [|a l IH]; intros [|b l'] L H; try discriminate; constructor.
  - apply (H 0%nat b eq_refl).
  - apply IH; [injection L as L; exact L|]. intros i c E. apply (H (S i) c E).
Qed.
Definition told (a w : Z) (ev : event) (e : neutron) : Prop := exists c, tells a w ev c e.
Lemma told_length a w evs ns : Forall2 (told a w) evs ns -> length evs = length ns.
Proof. induction 1; cbn [length]; congruence. Qed.
Lemma accounted_told a w xs nss : Forall2 (accounted a w) xs nss ->
  Forall2 (told a w) (concat (map x_events xs)) (concat nss).
Proof.
  induction 1 as [|x ns xs nss [L T] F IH]; cbn [map concat]; [constructor|]. apply Forall2_app; [|exact IH].
  apply (nth_Forall2 _ no_event); [exact L|]. intros i e E. exists (members i (x_own x) (x_hits x)). apply T. exact E.
Qed.
Lemma told_cells a w edges evs ns : edges_ok edges -> Forall2 (told a w) evs ns ->
  Forall2 (placed a w edges) evs (map (cell_of edges) ns).
Proof.
  intros O. induction 1 as [|ev e evs ns (c & T) F IH]; cbn [map]; constructor; [|exact IH]. eapply cell_placed; eassumption.
Qed.
Lemma told_lands a w edges evs ns i x y k : edges_ok edges -> Forall2 (told a w) evs ns ->
  counted (fun e => lands (f_of_Z 1) edges e i x y) (map entry_of_neutron ns) k ->
  k = number (is_cell i x y) (map (cell_of edges) ns).
Proof.
  intros O F. apply counted_number. induction F as [|ev e evs ns (c & T) F IH]; constructor; [|exact IH].
  rewrite (cell_lands a w ev c e edges T O). unfold is_cell. destruct (cell_of edges e) as [[[j u] v]|].
  - rewrite !andb_true_iff, Nat.eqb_eq, !Z.eqb_eq. split; [intros E; injection E; tauto|intros [[-> ->] ->]; reflexivity].
  - split; discriminate.
Qed.
Lemma told_spectrum a w edges evs ns i k : edges_ok edges -> Forall2 (told a w) evs ns ->
  counted (fun e => exists x y, 0 <= x < 517 /\ 0 <= y < 517 /\ lands (f_of_Z 1) edges e i x y) (map entry_of_neutron ns) k ->
  k = number (in_image i) (map (cell_of edges) ns).
Proof.
  intros O F. apply counted_number. induction F as [|ev e evs ns (c & T) F IH]; constructor; [|exact IH].
  pose proof (cell_placed a w ev c e edges T O) as P. pose proof (cell_lands a w ev c e edges T O) as L.
  unfold in_image. split.
  - intros (x & y & _ & _ & H). apply L in H. rewrite H. apply Nat.eqb_refl.
  - destruct (cell_of edges e) as [[[j u] v]|]; [|discriminate]. intros E. apply Nat.eqb_eq in E. subst j.
    exists u, v. inversion P; subst. split; [lia|]. split; [lia|]. apply L. reflexivity.
Qed.

Lemma C92_program_l fuel ext w order args d o cfg ds a wd r xs k :
  exclusive w -> (forall p, env_writable w p = true) -> understood w args o -> configured w o cfg ->
  env_input w (o_input o) = Some (stream ds) -> hits_created w o -> events_created w o ->
  (o_tiff o <> ""%string -> env_mkdir w (o_tiff o) = true) ->
  ds <> [] -> Forall dataset_ok ds -> Forall no_false_header ds ->
  0 < o_chunk o -> cuts_at_datasets (o_chunk o) ds -> (length (stream ds) <= fuel)%nat ->
  edges_ok (g_edges cfg) -> g_sr cfg = f_of_Z 1 ->
  Permutation order (seq 0 (length (g_edges cfg) - 1)) ->
  (forall i, (i < length (g_edges cfg) - 1)%nat ->
     saved (d_files d) (tiff_name (o_tiff o) (o_base o) i) 517 517 \/ unrelated (d_files d) (tiff_name (o_tiff o) (o_base o) i) 517 517) ->
  timing_of o = GDC_mode -> recording around true nothing_known ds (map x_hits xs) k ->
  radius_is (a_radius (g_abs cfg)) (r * 2 ^ 20) -> a_range (g_abs cfg) < 2 ^ 64 -> a_min (g_abs cfg) <= 1 ->
  0 <= a -> 2 * a <= r -> 0 <= wd <= a_range (g_abs cfg) -> Forall (exposed 8 a wd r (a_range (g_abs cfg))) xs ->
  o_mode o <> "hit"%string ->
  exists d' cells, program fuel ext w order args d = Ok (Exit 0, d') /\
    Forall2 (placed a wd (g_edges cfg)) (concat (map x_events xs)) cells /\
    (o_tiff o <> ""%string -> forall i x y u, (i < length (g_edges cfg) - 1)%nat -> 0 <= x < 517 -> 0 <= y < 517 ->
       prior (d_files d) (tiff_name (o_tiff o) (o_base o) i) 517 517 x y u ->
       disk (d_files d') (tiff_name (o_tiff o) (o_base o) i) x y = Some ((u + number (is_cell i x y) cells) mod 2 ^ 32)) /\
    (zlen (concat (map x_events xs)) < 2 ^ 32 ->
       forall name, (o_tiff o <> ""%string /\ name = spectra_name (o_tiff o) (o_base o)) \/
                    (o_spectra o <> ""%string /\ name = (o_spectra o ++ ".txt")%string) ->
       exists rows, d_files d' name = Some (Spectrum rows) /\ length rows = (length (g_edges cfg) - 1)%nat /\
         forall i t c, nth_error rows i = Some (t, c) ->
           nth_error (g_edges cfg) (S i) = Some t /\ c = number (in_image i) cells).
Proof.
  intros X1 X2 X3 X4 X5 X6 X7 X8 X9 X10 X11 X12 X13 X14 X15 X16 X17 X18 Et X19 X20 X21 X22 X23 X24 X25 X26 Em.
  destruct (C90_gdc_l ds (map x_hits xs) k X10 X19) as (s2 & Q).
  assert (B : Forall (fun h => h_spider h < 2 ^ 48) (concat (map x_hits xs))).
  { eapply recording_bounds; [eassumption|discriminate|discriminate]. }
  destruct (C81_succeeds_l fuel ext w order args d o cfg ds) as (d' & E); try assumption.
  { intros hss s' P. rewrite Et in *.
    destruct (processed_unique _ _ _ _ _ _ _ Q P) as [<- _].
    eapply Forall_impl; [|exact B]. intros h Hh. split; [intros _; exact Hh|discriminate]. }
  destruct (C81_program_l fuel ext w order args d d' o cfg ds 517) as (hss' & nss & s' & P & N & _ & _ & _ & Ti & Sp & _);
    try assumption; try lia.
  { rewrite X16. apply P_Tof.side_one. }
  rewrite Et in P. destruct (processed_unique _ _ _ _ _ _ _ Q P) as [<- _].
  destruct (C91_neutrons_l ext (g_abs cfg) a wd r ds xs k) as (nss' & N1 & N2 & N3); try assumption.
  rewrite (N3 nss N) in *. apply accounted_told in N2.
  assert (Eb : binned o (map x_hits xs) nss' = map entry_of_neutron (concat nss')).
  { unfold binned. destruct (String.eqb_spec (o_mode o) "hit"); [contradiction|reflexivity]. }
  rewrite Eb, X16 in *. exists d', (map (cell_of (g_edges cfg)) (concat nss')).
  split; [exact E|]. split; [apply told_cells; assumption|]. split.
  - intros Nt i x y u Hi Hx Hy Pr. destruct (Ti Nt i x y u Hi Hx Hy Pr) as (c & C & D).
    rewrite (told_lands a wd _ _ _ i x y c X15 N2 C) in D. exact D.
  - intros Hl name Hn.
    assert (Hl' : zlen (map entry_of_neutron (concat nss')) < 2 ^ 32).
    { unfold zlen in *. rewrite map_length, <- (told_length _ _ _ _ N2). exact Hl. }
    destruct (Sp Hl') as [S1 S2].
    assert (R : exists rows, d_files d' name = Some (Spectrum rows) /\
      spectrum_of (f_of_Z 1) (g_edges cfg) 517 (map entry_of_neutron (concat nss')) rows).
    { destruct Hn as [[Hn ->]|[Hn ->]]; auto. }
    destruct R as (rows & R1 & R2 & R3). exists rows. split; [exact R1|]. split; [exact R2|].
    intros i t c Er. destruct (R3 i t c Er) as [R4 R5]. split; [exact R4|].
    apply (told_spectrum a wd _ _ _ i c X15 N2 R5).
Qed.

(** * Hits *)
Lemma recorded_tof near early chip k ps hs k' : recorded near early chip k ps hs k' -> Forall (fun h => h_tof h <> None) hs.
Proof.
  induction 1; try assumption; constructor; [|assumption].
  unfold true_hit. destruct (place chip (f_x f) (f_y f)). discriminate.
Qed.
Lemma recording_tof near early k ds hss k' : recording near early k ds hss k' -> Forall (fun h => h_tof h <> None) (concat hss).
Proof.
  induction 1; cbn [concat]; [constructor|]. apply Forall_app. split; [|assumption]. eapply recorded_tof. eassumption.
Qed.

Lemma hit_counted_lands edges h i x y : sensor_hit h ->
  (lands (f_of_Z 1) edges (entry_of_hit h) i x y <-> hit_counted edges i x y h).
Proof.
  intros (Hx & Hy & _ & t & Et & Ht). rewrite (hit_lands_l edges h i x y) by lia.
  assert (I1 : is_int (fmul (f_of_Z t) c_25) (25 * t)).
  { replace (25 * t) with (t * 25) by lia. apply is_int_mul; [apply is_int_of_Z; lia|apply is_int_of_Z; lia|lia]. }
  assert (I2 : is_int (f_of_Z (25 * t)) (25 * t)) by (apply is_int_of_Z; lia).
  assert (Q : B2R (fdiv (fmul (f_of_Z t) c_25) (f_of_Z 1000000000)) = B2R (fdiv (f_of_Z (25 * t)) (f_of_Z 1000000000))).
  { destruct I1 as [F1 E1]. destruct I2 as [F2 E2].
    change (f_of_Z 1000000000) with c_1e9. rewrite (quotient_eq _ F1), (quotient_eq _ F2), E1, E2. reflexivity. }
  unfold hit_counted, tof_ns, in_bin, before_last. rewrite Et. split.
  - intros (-> & -> & tof & E & _ & _ & B & L). injection E as <-. rewrite Q in B, L. split; [reflexivity|].
    split; [reflexivity|]. exists t. auto.
  - intros (<- & <- & t' & E & B & L). injection E as <-. split; [reflexivity|]. split; [reflexivity|].
    exists (fmul (f_of_Z t) c_25). rewrite Q. split; [reflexivity|]. split; [apply I1|]. split; [|auto].
    destruct I1 as [_ ->]. apply IZR_le. lia.
Qed.

Lemma C92_hits_l fuel ext w order args d o cfg ds hss k :
  exclusive w -> (forall p, env_writable w p = true) -> understood w args o -> configured w o cfg ->
  env_input w (o_input o) = Some (stream ds) -> hits_created w o -> events_created w o ->
  (o_tiff o <> ""%string -> env_mkdir w (o_tiff o) = true) ->
  ds <> [] -> Forall dataset_ok ds -> Forall no_false_header ds ->
  0 < o_chunk o -> cuts_at_datasets (o_chunk o) ds -> (length (stream ds) <= fuel)%nat ->
  edges_ok (g_edges cfg) -> g_sr cfg = f_of_Z 1 ->
  Permutation order (seq 0 (length (g_edges cfg) - 1)) ->
  (forall i, (i < length (g_edges cfg) - 1)%nat ->
     saved (d_files d) (tiff_name (o_tiff o) (o_base o) i) 517 517 \/ unrelated (d_files d) (tiff_name (o_tiff o) (o_base o) i) 517 517) ->
  (timing_of o = GDC_mode /\ recording around true nothing_known ds hss k) \/
  (timing_of o = TDC_mode /\ recording early_run false nothing_known ds hss k) ->
  o_mode o = "hit"%string ->
  exists d', program fuel ext w order args d = Ok (Exit 0, d') /\
    (o_tiff o <> ""%string -> forall i x y u, (i < length (g_edges cfg) - 1)%nat -> 0 <= x < 517 -> 0 <= y < 517 ->
       prior (d_files d) (tiff_name (o_tiff o) (o_base o) i) 517 517 x y u ->
       exists c, counted (hit_counted (g_edges cfg) i x y) (concat hss) c /\
         disk (d_files d') (tiff_name (o_tiff o) (o_base o) i) x y = Some ((u + c) mod 2 ^ 32)).
Proof.
  intros X1 X2 X3 X4 X5 X6 X7 X8 X9 X10 X11 X12 X13 X14 X15 X16 X17 X18 R Em.
  assert (Q : exists s, processed (timing_of o) ts0 ds hss s).
  { destruct R as [[-> R]|[-> R]]; [exact (C90_gdc_l ds hss k X10 R)|exact (C90_tdc_l ds hss k R)]. }
  destruct Q as (s2 & Q).
  assert (B : Forall (fun h => (timing_of o = GDC_mode -> h_spider h < 2 ^ 48) /\ (timing_of o = TDC_mode -> h_tof h <> None)) (concat hss)).
  { destruct R as [[-> R]|[-> R]].
    - assert (B : Forall (fun h => h_spider h < 2 ^ 48) (concat hss)) by (apply (recording_bounds _ _ _ _ R); discriminate).
      eapply Forall_impl; [|exact B]. intros h Hh. split; [intros _; exact Hh|discriminate].
    - eapply Forall_impl; [|exact (recording_tof _ _ _ _ _ _ R)]. intros h Hh. split; [discriminate|intros _; exact Hh]. }
  pose proof (processed_facts (timing_of o) ds X10 _ _ _ Q B) as Fi.
  destruct (C81_succeeds_l fuel ext w order args d o cfg ds) as (d' & E); try assumption.
  { intros hss' s' P. destruct (processed_unique _ _ _ _ _ _ _ Q P) as [<- _]. exact B. }
  destruct (C81_program_l fuel ext w order args d d' o cfg ds 517) as (hss' & nss & s' & P & N & _ & _ & _ & Ti & _);
    try assumption; try lia.
  { rewrite X16. apply P_Tof.side_one. }
  destruct (processed_unique _ _ _ _ _ _ _ Q P) as [<- _]. exists d'. split; [exact E|].
  intros Nt i x y u Hi Hx Hy Pr. destruct (Ti Nt i x y u Hi Hx Hy Pr) as (c & C & D). exists c. split; [|exact D].
  unfold binned in C. rewrite Em, X16 in C. cbn [String.eqb Ascii.eqb Bool.eqb] in C.
  revert C. apply counted_map. apply Forall_concat. eapply Forall_impl; [|exact Fi]. cbn beta. intros hs [_ F].
  eapply Forall_impl; [|exact F]. intros h [_ Hh]. apply hit_counted_lands. exact Hh.
Qed.
