(** Proofs about recordings and sophiread_display (C90). *)
From Coq Require Import Lia ZifyBool Zify.
From Verif Require Import P_Measure P_MeasureHist P_DisplayFile.
From Verif Require Export S_MeasureShow.
Local Open Scope Z_scope.
Ltac Zify.zify_post_hook ::= Z.to_euclidean_division_equations.

Lemma place_without_gap chip x y : 0 <= x < 256 -> 0 <= y < 256 ->
  display_place chip x y = (without_gap (fst (place chip x y)), without_gap (snd (place chip x y))).
Proof.
  intros Hx Hy. unfold display_place, place, without_gap.
  destruct chip as [|[p|[p|p|]|]|p]; cbn [fst snd];
    repeat match goal with |- context [260 <=? ?v] => destruct (Z.leb_spec 260 v) end; f_equal; lia.
Qed.

Lemma shown_true chip f T H r : fields_ok f -> time30 f = H mod 2 ^ 30 -> T / 2 ^ 30 = H / 2 ^ 30 -> T <= H <= T + 666800 ->
  display_says chip f (T mod 2 ^ 30) r -> shown_as (true_hit chip f T H) r.
Proof.
  intros Hf E P HT (D1 & D2 & D3 & D4 & D5 & D6). destruct Hf as (_ & Hx & Hy & _).
  rewrite place_without_gap in D4 by assumption. unfold tof32 in D6.
  unfold shown_as, true_hit. destruct (place chip (f_x f) (f_y f)) as [px py]. cbn [fst snd] in D4.
  injection D4 as D7 D8. cbn [h_x h_y h_tot h_toa h_ftoa h_tof h_spider].
  repeat split; try assumption; try congruence. f_equal. rewrite D6, E.
  clear - P HT. lia.
Qed.

Lemma trigger30_counter p T : tdc_counter p = T mod 2 ^ 32 -> trigger30 p = T mod 2 ^ 30.
Proof. unfold tdc_counter, trigger30. intros E. set (x := le64 p / 2 ^ 12) in *. clearbody x. lia. Qed.

(** What the display counts for a true hit. *)
Definition binned (h : hit) (b : list Z) : Prop :=
  exists chip f T H, fields_ok f /\ 0 <= H - T <= 666800 /\ h = true_hit chip f T H /\ tof32 f (T mod 2 ^ 30) = H - T /\
    b = tof_bins f (T mod 2 ^ 30).

Lemma display_recorded c chip k ps hs k' : recorded (fun _ t => t / 2 ^ 30 = c) false chip k ps hs k' ->
  Forall packet_ok ps ->
  forall T rest rs es, match k_pulse k with None => True | Some P => T = P mod 2 ^ 30 /\ P / 2 ^ 30 = c end ->
  displays T (map (pair chip) ps ++ rest) rs es ->
  exists T' rs1 rs2 bs es2, rs = rs1 ++ rs2 /\ es = concat bs ++ es2 /\ Forall2 shown_as hs rs1 /\ Forall2 binned hs bs /\
    displays T' rest rs2 es2 /\
    match k_pulse k' with None => True | Some P => T' = P mod 2 ^ 30 /\ P / 2 ^ 30 = c end.
Proof.
  intros R. induction R as [k|g a P G p ps hs k E HG El R IH|g G P p ps hs k E Em R IH
    |g a P T0 p ps hs k E Ec A R IH|a P T0 p ps hs k C E Ec N R IH
    |g a T0 H f p ps hs k Hf Ht -> Es H0 A HT R IH|g a P p ps hs k C N K R IH|k p ps hs k' K R IH];
    try discriminate; intros O T rest rs es I D;
    [exists T, [], rs, [], es; cbn; auto 10|..];
    apply Forall_cons_iff in O; destruct O as [Op O]; cbn [k_pulse] in *; cbn [map app] in D.
  - inversion D as [|? ? ? f ? ? ? ? Ep Hf Ht|? ? ? ? ? ? X|? ? ? ? ? ? N1 N2 D1]; subst.
    + exfalso. pose proof (kind_pixel f Hf Ht) as K. rewrite (kind_low _ E) in K. discriminate.
    + lia.
    + exact (IH O _ _ _ _ I D1).
  - inversion D as [|? ? ? f ? ? ? ? Ep Hf Ht|? ? ? ? ? ? X|? ? ? ? ? ? N1 N2 D1]; subst.
    + exfalso. pose proof (kind_pixel f Hf Ht) as K. rewrite (kind_high _ E) in K. discriminate.
    + lia.
    + exact (IH O _ _ _ _ I D1).
  - inversion D as [|? ? ? f ? ? ? ? Ep Hf Ht|? ? ? ? ? ? X D1|? ? ? ? ? ? N1 N2 D1]; subst.
    + exfalso. pose proof (kind_pixel f Hf Ht) as K. rewrite (kind_pulse _ E) in K. discriminate.
    + apply (IH O _ _ _ _ (conj (trigger30_counter _ _ Ec) eq_refl) D1).
    + lia.
  - assert (K : kind_of (pixel_packet f) = KPixel) by (apply kind_pixel; assumption).
    inversion D as [|? ? ? f' r ? rs' es' Ep Hf' Ht' Sy D1|? ? ? ? ? ? X D1|? ? ? ? ? ? N1 N2 D1]; subst.
    + assert (f' = f).
      { destruct (C01_bijection_l _ Op) as (f0 & _ & U). rewrite (U f), (U f'); auto. }
      subst f'. destruct I as [-> I2].
      destruct (IH O _ _ _ _ (conj eq_refl I2) D1) as (T' & rs1 & rs2 & bs & es2 & -> & -> & F & F' & D2 & I').
      assert (W : shown_as (true_hit chip f T0 H) r) by (apply shown_true; assumption).
      exists T', (r :: rs1), rs2, (tof_bins f (T0 mod 2 ^ 30) :: bs), es2. split; [reflexivity|].
      split; [cbn [concat]; apply List.app_assoc|]. split; [constructor; assumption|]. split; [|auto].
      constructor; [|exact F']. exists chip, f, T0, H. split; [exact Hf|]. split; [lia|]. split; [reflexivity|]. split; [|reflexivity].
      destruct Sy as (_ & _ & _ & _ & _ & Ey). rewrite <- Ey. destruct W as (_ & _ & _ & _ & _ & _ & W).
      unfold true_hit in W. destruct (place chip (f_x f) (f_y f)). cbn [h_tof] in W. congruence.
    + exfalso. rewrite (kind_pulse _ X) in K. discriminate.
    + exfalso. unfold kind_of in K.
      destruct (b7 (pixel_packet f) =? 111); [discriminate|].
      destruct (b7 (pixel_packet f) / 16) as [|[[[[|[]|]|[[]|[]|]|]|[]|]|[[]|[]|]|]|]; try discriminate; apply N1; reflexivity.
  - inversion D as [|? ? ? f ? ? ? ? Ep Hf Ht|? ? ? ? ? ? X D1|? ? ? ? ? ? N1 N2 D1]; subst.
    + exfalso. pose proof (kind_pixel f Hf Ht) as K'. destruct K as [K|[K _]]; rewrite K in K'; discriminate.
    + exfalso. pose proof (kind_pulse _ X) as K'. destruct K as [K|[K _]]; rewrite K in K'; discriminate.
    + exact (IH O _ _ _ _ I D1).
Qed.

Lemma display_recording c k ds hss k' : recording (fun _ t => t / 2 ^ 30 = c) false k ds hss k' -> Forall dataset_ok ds ->
  forall T rs es, match k_pulse k with None => True | Some P => T = P mod 2 ^ 30 /\ P / 2 ^ 30 = c end ->
  displays T (payloads ds) rs es ->
  Forall2 shown_as (concat hss) rs /\ exists bs, es = concat bs /\ Forall2 binned (concat hss) bs.
Proof.
  intros R. induction R as [k|k d ds chip hs hss k1 k2 C P R IH]; intros O T rs es I D.
  - cbn in D. inversion D. split; [constructor|]. exists []. split; [reflexivity|constructor].
  - apply Forall_cons_iff in O. destruct O as [Od O]. unfold payloads in D. cbn [flat_map] in D. fold (payloads ds) in D.
    assert (Ech : schar (d_chip d) = chip).
    { change (d_chip d) with (b4 (ds_header d)). apply P_Lib.chip_of; [|exact C]. apply P_Core.ds_header_ok. exact Od. }
    rewrite Ech in D.
    destruct (display_recorded _ _ _ _ _ _ P (proj1 (proj2 (proj2 (proj2 Od)))) _ _ _ _ I D)
      as (T' & rs1 & rs2 & bs & es2 & -> & -> & F & F' & D2 & I').
    destruct (IH O _ _ _ I' D2) as (F2 & bs2 & -> & F2').
    cbn [concat]. split; [apply Forall2_app; assumption|]. exists (bs ++ bs2). split; [symmetry; apply concat_app|].
    apply Forall2_app; assumption.
Qed.

Lemma C90_display_l c ds hss k : Forall dataset_ok ds ->
  Forall (fun d => zlen (d_payload d) < 4096 /\ zlen (d_payload d) mod 32 < 16) ds ->
  recording (fun _ t => t / 2 ^ 30 = c) false nothing_known ds hss k ->
  exists rs es, filetohits (Some (stream ds)) = Ok (rs, es) /\ Forall2 shown_as (concat hss) rs.
Proof.
  intros O S R. destruct (all_shown_l ds O S) as (rs & es & D & E). exists rs, es. split; [exact E|].
  exact (proj1 (display_recording _ _ _ _ _ R O 0 rs es I D)).
Qed.

Lemma C90_display_period_l : exists xs hss, histories (fun _ t => 2 ^ 30 - 1 <= t <= 2 ^ 30) None None xs hss /\
  forall rs es, filetohits (Some (stream (map dataset_of xs))) = Ok (rs, es) -> ~ Forall2 shown_as (concat hss) rs.
Proof.
  exists (one_hit 1000 (2 ^ 30 - 1) (2 ^ 30)), [late_hit (2 ^ 30 - 1) (2 ^ 30)].
  split; [apply one_history; lia|]. intros rs es E F.
  assert (N : match filetohits (Some (stream (map dataset_of (one_hit 1000 (2 ^ 30 - 1) (2 ^ 30))))) with
              | Ok ([r], _) => w_tof r =? 1 | _ => false end = false) by (vm_compute; reflexivity).
  rewrite E in N. clear E. cbn [concat app late_hit] in F.
  inversion F as [|h r hs rs' G F1]; subst. inversion F1; subst.
  destruct G as (_ & _ & _ & _ & _ & _ & T). cbn [h_tof] in T. injection T as T. rewrite <- T in N. discriminate.
Qed.
