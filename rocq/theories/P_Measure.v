(** Proofs about recordings of true times (C90). *)
From Coq Require Import Lia ZifyBool Zify.
From Verif Require Import P_Hit P_TimePackets P_Lib P_LibHit P_LibMore P_CliRun.
From Verif Require Export S_Measure S_Lib S_Cli.
Local Open Scope Z_scope.
Ltac Zify.zify_post_hook ::= Z.to_euclidean_division_equations.

Lemma recorded_mono (near near' : Z -> Z -> Prop) (e e' : bool) chip k ps hs k' :
  (forall g t, near g t -> near' g t) -> (e = true -> e' = true) ->
  recorded near e chip k ps hs k' -> recorded near' e' chip k ps hs k'.
Proof.
  intros N E H. induction H;
    [apply rc_nil|eapply rc_low|eapply rc_high|eapply rc_pulse|eapply rc_pulse_early|eapply rc_hit
    |eapply rc_hit_early|eapply rc_other]; eauto.
Qed.
Lemma recording_mono (near near' : Z -> Z -> Prop) (e e' : bool) k ds hss k' :
  (forall g t, near g t -> near' g t) -> (e = true -> e' = true) ->
  recording near e k ds hss k' -> recording near' e' k ds hss k'.
Proof. intros N E H. induction H; econstructor; eauto. eapply recorded_mono; eauto. Qed.

(** The kinds of the packets. *)
Lemma kind_low p : b7 p = 68 -> kind_of p = KGdc.
Proof. intros E. unfold kind_of. rewrite E. reflexivity. Qed.
Lemma kind_high p : b7 p = 69 -> kind_of p = KGdc.
Proof. intros E. unfold kind_of. rewrite E. reflexivity. Qed.
Lemma kind_pulse p : b7 p = 111 -> kind_of p = KTdc.
Proof. intros E. unfold kind_of. rewrite E. reflexivity. Qed.
Lemma kind_pixel f : fields_ok f -> f_type f = 11 -> kind_of (pixel_packet f) = KPixel.
Proof.
  intros Hf E. unfold kind_of.
  assert (B : b7 (pixel_packet f) / 16 = 11).
  { unfold pixel_packet, word_packet. cbn [b7]. unfold pixel_word, pixel_address. rewrite E.
    destruct Hf as (_ & Hx & Hy & H1 & H2 & H3 & H4). cbn [Z.pow Z.pow_pos Pos.iter Z.mul] in *. lia. }
  destruct (Z.eqb_spec (b7 (pixel_packet f)) 111) as [C|_]; [rewrite C in B; discriminate|].
  rewrite B. reflexivity.
Qed.

(** * Decoding one pixel packet *)
Lemma gdc_true f g T tdc H chip : fields_ok f -> 0 < g < 2 ^ 48 - 2 ^ 32 -> time30 f = H mod 2 ^ 30 ->
  0 <= H -> around g H -> T <= H <= T + 666800 -> (tdc - T) mod 2 ^ 32 = 0 ->
  hit_gdc (pixel_packet f) tdc g chip = Ok (true_hit chip f T H).
Proof.
  intros Hf Hg E H0 A HT Et.
  destruct (C04_tof_l (pixel_packet f) tdc g chip) as (h & t & Eh & Ef & _ & _ & Ed & _).
  destruct (C01_gdc_l f tdc g chip Hf) as (h' & Eh' & E1 & E2 & E3 & E4 & _).
  rewrite Eh in Eh'. injection Eh' as <-.
  assert (Es : h_spider h = H).
  { apply (C03_arrival_l f tdc g chip h H Hf); [lia|left; lia|exact Eh| |exact H0].
    split; [symmetry; exact E|exact A]. }
  assert (D : (h_spider h - tdc) mod 2 ^ 32 = H - T).
  { rewrite Es. apply Z.mod_divide in Et; [|lia]. destruct Et as [q Eq].
    replace (H - tdc) with (H - T + (- q) * 2 ^ 32) by lia. rewrite Z.mod_add by lia. apply Z.mod_small. lia. }
  rewrite D in Ed. rewrite Eh. f_equal. unfold true_hit. rewrite <- E4.
  destruct h as [x y tot toa ftoa tof sp]. cbn [h_x h_y h_tot h_toa h_ftoa h_tof h_spider] in *.
  rewrite Ef, Ed by lia. congruence.
Qed.

Lemma tdc_true f T H chip : fields_ok f -> time30 f = H mod 2 ^ 30 ->
  0 < T -> H < 2 ^ 31 -> T <= H <= T + 666800 ->
  hit_tdc (pixel_packet f) T chip = true_hit chip f T H.
Proof.
  intros Hf E H0 HH HT.
  pose proof (C01_tdc_l f T chip Hf ltac:(lia)) as (E1 & E2 & E3 & E4 & _).
  pose proof (C06_tdc_l f T chip Hf ltac:(lia)) as (E5 & E6 & _).
  set (h := hit_tdc (pixel_packet f) T chip) in *.
  assert (S : (if time30 f + 2 ^ 22 <? T then time30 f + 2 ^ 30 else time30 f) = H).
  { rewrite E. destruct (Z.ltb_spec (H mod 2 ^ 30 + 2 ^ 22) T); lia. }
  rewrite S in E5, E6. unfold true_hit. rewrite <- E4.
  destruct h as [x y tot toa ftoa tof sp]. cbn [h_x h_y h_tot h_toa h_ftoa h_tof h_spider] in *.
  rewrite E6 by lia. congruence.
Qed.

(** * GDC mode *)
Definition knows (k : clock) (s : ts) : Prop :=
  match k_ref k with None => ts_gdc s = 0 | Some g => ts_gdc s = g /\ 0 < g < 2 ^ 48 - 2 ^ 32 end /\
  0 <= ts_timer s < 2 ^ 32 /\
  match k_announced k with None => True | Some G => ts_timer s = G mod 2 ^ 32 /\ 0 < G < 2 ^ 48 - 2 ^ 32 end /\
  match k_pulse k with None => ts_tdc s = 0 | Some T => ts_tdc s <> 0 /\ (ts_tdc s - T) mod 2 ^ 32 = 0 end.

Lemma subtype_b7 p : packet_ok p -> kind_of p = KGdc -> 
  (gdc_subtype p = 4 -> b7 p = 68) /\ (gdc_subtype p = 5 -> b7 p = 69).
Proof.
  intros Hp K. destruct (kind_gdc p Hp) as (G4 & G5 & _). split; intros E; [apply G4|apply G5]; auto.
Qed.
Lemma next_low md p s : packet_ok p -> b7 p = 68 -> 0 <= ts_timer s < 2 ^ 32 ->
  next_ts md p s = match md with GDC_mode => TS (ts_tdc s) (ts_gdc s) (lsb_value p) | TDC_mode => s end.
Proof.
  intros Hp E Ht. unfold next_ts. rewrite (kind_low p E). destruct md; [|reflexivity].
  rewrite update_gdc_eq by assumption.
  replace (gdc_subtype p) with 4; [reflexivity|]. rewrite b7_le64, E by assumption. reflexivity.
Qed.
Lemma next_high md p s : packet_ok p -> b7 p = 69 -> 0 <= ts_timer s < 2 ^ 32 -> msb_value p * 2 ^ 32 + ts_timer s <> 0 ->
  next_ts md p s = match md with GDC_mode => TS (ts_tdc s) (msb_value p * 2 ^ 32 + ts_timer s) (ts_timer s) | TDC_mode => s end.
Proof.
  intros Hp E Ht N. unfold next_ts. rewrite (kind_high p E). destruct md; [|reflexivity].
  rewrite update_gdc_eq by assumption.
  replace (gdc_subtype p) with 5 by (rewrite b7_le64, E by assumption; reflexivity).
  cbn [Z.eqb Pos.eqb fst snd]. destruct (Z.eqb_spec (msb_value p * 2 ^ 32 + ts_timer s) 0); [contradiction|reflexivity].
Qed.
Lemma next_other md p s : packet_ok p -> 0 <= ts_timer s < 2 ^ 32 ->
  kind_of p = KOther \/ (kind_of p = KGdc /\ b7 p <> 68 /\ b7 p <> 69) -> next_ts md p s = s.
Proof.
  intros Hp Ht K. unfold next_ts. destruct K as [->|(K & N4 & N5)]; [destruct md; reflexivity|].
  rewrite K. destruct md; [|reflexivity]. rewrite update_gdc_eq by assumption.
  destruct (subtype_b7 p Hp K) as [S4 S5].
  destruct (Z.eqb_spec (gdc_subtype p) 4); [tauto|]. destruct (Z.eqb_spec (gdc_subtype p) 5); [tauto|].
  destruct s. reflexivity.
Qed.
Lemma next_pulse_gdc p s : b7 p = 111 -> 0 <= ts_gdc s < 2 ^ 48 - 2 ^ 32 ->
  next_ts GDC_mode p s = TS (update_tdc_gdc p (ts_gdc s)) (ts_gdc s) (ts_timer s) /\
  (update_tdc_gdc p (ts_gdc s) - tdc_counter p) mod 2 ^ 32 = 0 /\
  (ts_gdc s <> 0 \/ tdc_counter p <> 0 -> update_tdc_gdc p (ts_gdc s) <> 0) /\
  (forall T, tdc_counter p = T mod 2 ^ 32 -> ts_gdc s <= T < ts_gdc s + 2 ^ 32 -> update_tdc_gdc p (ts_gdc s) = T).
Proof.
  intros E Hg. unfold next_ts. rewrite (kind_pulse p E). split; [reflexivity|].
  rewrite update_tdc_gdc_eq by lia. pose proof (tdc_counter_range p) as Hc. set (c := tdc_counter p) in *.
  destruct (Z.ltb_spec c (ts_gdc s mod 2 ^ 32)) as [L|L].
  - repeat split; intros; lia.
  - repeat split; intros; lia.
Qed.

Lemma pixel_next md p s : kind_of p = KPixel -> next_ts md p s = s.
Proof. intros K. unfold next_ts. rewrite K. destruct md; reflexivity. Qed.

Lemma gdc_yields chip k ps hs k' : recorded around true chip k ps hs k' ->
  Forall packet_ok ps -> forall s, knows k s ->
  yields GDC_mode chip s ps hs /\ knows k' (fold_left (fun s p => next_ts GDC_mode p s) ps s).
Proof.
  intros R. induction R as [k|g a P G p ps hs k E HG El R IH|g G P p ps hs k E Em R IH
    |g a P T p ps hs k E Ec A R IH|a P T p ps hs k _ E Ec N R IH
    |g a T H f p ps hs k Hf Ht -> Es H0 A HT R IH|g a P p ps hs k _ N K R IH|k p ps hs k' K R IH];
    intros O s (Ir & Ib & Ia & Ip); cbn [k_ref k_announced k_pulse] in *;
    [split; [constructor|exact (conj Ir (conj Ib (conj Ia Ip)))]|..];
    apply Forall_cons_iff in O; destruct O as [Op O]; cbn [fold_left].
  - pose proof (next_low GDC_mode p s Op E Ib) as En. cbn iota in En.
    destruct (IH O (next_ts GDC_mode p s)) as [Y F].
    { rewrite En. unfold knows. cbn [k_ref k_announced k_pulse ts_tdc ts_gdc ts_timer].
      pose proof (lsb_range p). repeat split; try assumption; try lia; tauto. }
    split; [|exact F]. apply y_time; [rewrite (kind_low p E); discriminate|exact Y].
  - destruct Ia as [Ea Ga].
    assert (X : msb_value p * 2 ^ 32 + ts_timer s = G) by lia.
    pose proof (next_high GDC_mode p s Op E Ib ltac:(lia)) as En. cbn iota in En. rewrite X in En.
    destruct (IH O (next_ts GDC_mode p s)) as [Y F].
    { rewrite En. unfold knows. cbn [k_ref k_announced k_pulse ts_tdc ts_gdc ts_timer].
      repeat split; try assumption; try lia; tauto. }
    split; [|exact F]. apply y_time; [rewrite (kind_high p E); discriminate|exact Y].
  - destruct Ir as [Er Gr].
    destruct (next_pulse_gdc p s E ltac:(lia)) as (En & M & N & _).
    destruct (IH O (next_ts GDC_mode p s)) as [Y F].
    { rewrite En. unfold knows. cbn [k_ref k_announced k_pulse ts_tdc ts_gdc ts_timer].
      assert (update_tdc_gdc p (ts_gdc s) <> 0) by (apply N; left; lia).
      assert ((update_tdc_gdc p (ts_gdc s) - T) mod 2 ^ 32 = 0).
      { rewrite Ec in M. clear - M. lia. }
      tauto. }
    split; [|exact F]. apply y_time; [rewrite (kind_pulse p E); discriminate|exact Y].
  - destruct (next_pulse_gdc p s E ltac:(lia)) as (En & M & N' & _).
    destruct (IH O (next_ts GDC_mode p s)) as [Y F].
    { rewrite En. unfold knows. cbn [k_ref k_announced k_pulse ts_tdc ts_gdc ts_timer].
      assert (update_tdc_gdc p (ts_gdc s) <> 0) by (apply N'; right; lia).
      assert ((update_tdc_gdc p (ts_gdc s) - T) mod 2 ^ 32 = 0).
      { rewrite Ec in M. clear - M. lia. }
      tauto. }
    split; [|exact F]. apply y_time; [rewrite (kind_pulse p E); discriminate|exact Y].
  - assert (K : kind_of (pixel_packet f) = KPixel) by (apply kind_pixel; assumption).
    rewrite (pixel_next _ _ _ K).
    destruct (IH O s) as [Y F]; [exact (conj Ir (conj Ib (conj Ia Ip)))|].
    destruct Ir as [Er Gr]. destruct Ip as [Np Ep].
    split; [|exact F]. apply y_hit; [exact K|split; [exact Np|lia]| |exact Y].
    unfold makes_hit. rewrite Er. apply gdc_true; assumption.
  - rewrite (pixel_next _ _ _ K).
    destruct (IH O s) as [Y F]; [exact (conj Ir (conj Ib (conj Ia Ip)))|].
    split; [|exact F]. apply y_unready; [exact K| |exact Y].
    intros [C1 C2]. destruct N as [->| ->]; contradiction.
  - pose proof (next_other GDC_mode p s Op Ib K) as En. rewrite En.
    destruct (IH O s) as [Y F]; [exact (conj Ir (conj Ib (conj Ia Ip)))|].
    split; [|exact F]. apply y_time; [destruct K as [->|(-> & _)]; discriminate|]. rewrite En. exact Y.
Qed.

Lemma knows_nothing : knows nothing_known ts0.
Proof. unfold knows. cbn. repeat split; lia. Qed.

Lemma gdc_processed k ds hss k' : recording around true k ds hss k' -> Forall dataset_ok ds ->
  forall s, knows k s -> exists s', processed GDC_mode s ds hss s' /\ knows k' s'.
Proof.
  intros R. induction R as [k|k d ds chip hs hss k1 k2 C P R IH]; intros O s I.
  - exists s. split; [constructor|exact I].
  - apply Forall_cons_iff in O. destruct O as [Od O].
    destruct (gdc_yields _ _ _ _ _ P (proj1 (proj2 (proj2 (proj2 Od)))) s I) as [Y F].
    destruct (IH O _ F) as (s' & Q & I'). exists s'. split; [econstructor; eassumption|exact I'].
Qed.

Lemma C90_gdc_l ds hss k : Forall dataset_ok ds -> recording around true nothing_known ds hss k ->
  exists s, processed GDC_mode ts0 ds hss s.
Proof.
  intros O R. destruct (gdc_processed _ _ _ _ R O ts0 knows_nothing) as (s & P & _). exists s. exact P.
Qed.

(** * TDC mode *)
Definition knows_pulse (k : clock) (s : ts) : Prop :=
  match k_pulse k with None => ts_tdc s = 0 | Some T => ts_tdc s = T /\ 0 < T < 2 ^ 31 end.

Lemma next_pulse_tdc p s T : b7 p = 111 -> 0 <= ts_tdc s < 2 ^ 31 -> tdc_counter p = T mod 2 ^ 32 -> 0 < T < 2 ^ 31 ->
  ts_tdc (next_ts TDC_mode p s) = T.
Proof.
  intros E Ht Ec HT. unfold next_ts. rewrite (kind_pulse p E). cbn [ts_tdc].
  rewrite update_tdc_only_eq by lia. rewrite Ec.
  destruct (Z.gtb_spec (ts_tdc s mod 2 ^ 32 - T mod 2 ^ 32) (2 ^ 31)); lia.
Qed.
Lemma next_tdc_same p s : kind_of p <> KTdc -> next_ts TDC_mode p s = s.
Proof. intros K. unfold next_ts. destruct (kind_of p); [contradiction|reflexivity..]. Qed.

Lemma tdc_yields chip k ps hs k' : recorded early_run false chip k ps hs k' ->
  forall s, knows_pulse k s ->
  yields TDC_mode chip s ps hs /\ knows_pulse k' (fold_left (fun s p => next_ts TDC_mode p s) ps s).
Proof.
  intros R. induction R as [k|g a P G p ps hs k E HG El R IH|g G P p ps hs k E Em R IH
    |g a P T p ps hs k E Ec A R IH|a P T p ps hs k C E Ec N R IH
    |g a T H f p ps hs k Hf Ht -> Es H0 A HT R IH|g a P p ps hs k C N K R IH|k p ps hs k' K R IH];
    try discriminate; intros s I; [split; [constructor|exact I]|..]; cbn [fold_left].
  - assert (K : kind_of p <> KTdc) by (rewrite (kind_low p E); discriminate).
    rewrite (next_tdc_same _ _ K). destruct (IH s I) as [Y F]. split; [|exact F].
    apply y_time; [rewrite (kind_low p E); discriminate|]. rewrite (next_tdc_same _ _ K). exact Y.
  - assert (K : kind_of p <> KTdc) by (rewrite (kind_high p E); discriminate).
    rewrite (next_tdc_same _ _ K). destruct (IH s I) as [Y F]. split; [|exact F].
    apply y_time; [rewrite (kind_high p E); discriminate|]. rewrite (next_tdc_same _ _ K). exact Y.
  - assert (X : 0 <= ts_tdc s < 2 ^ 31).
    { unfold knows_pulse in I. cbn [k_pulse] in I. destruct P as [T0|]; lia. }
    pose proof (next_pulse_tdc p s T E X Ec A) as En.
    destruct (IH (next_ts TDC_mode p s)) as [Y F].
    { unfold knows_pulse. cbn [k_pulse]. split; [exact En|exact A]. }
    split; [|exact F]. apply y_time; [rewrite (kind_pulse p E); discriminate|exact Y].
  - assert (K : kind_of (pixel_packet f) = KPixel) by (apply kind_pixel; assumption).
    rewrite (pixel_next _ _ _ K). destruct (IH s I) as [Y F]. destruct I as [I1 I2].
    split; [|exact F]. apply y_hit; [exact K|unfold ready; lia| |exact Y].
    unfold makes_hit. rewrite I1. symmetry. apply tdc_true; try assumption; [lia|apply A].
  - assert (K' : kind_of p <> KTdc) by (destruct K as [->|(-> & _)]; discriminate).
    rewrite (next_tdc_same _ _ K'). destruct (IH s I) as [Y F]. split; [|exact F].
    apply y_time; [destruct K as [->|(-> & _)]; discriminate|]. rewrite (next_tdc_same _ _ K'). exact Y.
Qed.

Lemma C90_tdc_l ds hss k : recording early_run false nothing_known ds hss k ->
  exists s, processed TDC_mode ts0 ds hss s.
Proof.
  assert (L : forall k ds hss k', recording early_run false k ds hss k' -> forall s, knows_pulse k s ->
    exists s', processed TDC_mode s ds hss s').
  { clear. intros k ds hss k' R. induction R as [k|k d ds chip hs hss k1 k2 C P R IH]; intros s I.
    - exists s. constructor.
    - destruct (tdc_yields _ _ _ _ _ P s I) as [Y F]. destruct (IH _ F) as (s' & Q).
      exists s'. econstructor; eassumption. }
  intros R. apply (L _ _ _ _ R). reflexivity.
Qed.

(** * The library *)
Definition knows_all (k : clock) (s : ts) : Prop :=
  match k_ref k with None => True | Some g => ts_gdc s = g /\ 0 < g < 2 ^ 48 - 2 ^ 32 end /\
  0 <= ts_timer s < 2 ^ 32 /\
  match k_announced k with None => True | Some G => ts_timer s = G mod 2 ^ 32 /\ 0 < G < 2 ^ 48 - 2 ^ 32 end /\
  match k_pulse k with None => True | Some T => ts_tdc s = T end.

Lemma lib_tdc_update p g : lib_tdc p g = update_tdc_gdc p g.
Proof. reflexivity. Qed.

Lemma lib_true f g T H chip : fields_ok f -> 0 < g < 2 ^ 48 - 2 ^ 32 -> time30 f = H mod 2 ^ 30 ->
  soon g H -> T <= H <= T + 666800 ->
  lib_hit (pixel_packet f) T g chip = true_hit chip f T H.
Proof.
  intros Hf Hg E A HT.
  destruct (C53_decode_l f T g chip Hf ltac:(lia)) as (P & F1 & F2 & F3 & F & F' & M).
  assert (S : h_spider (lib_hit (pixel_packet f) T g chip) = H).
  { set (u := h_spider _) in *. clearbody u. unfold soon in A.
    pose proof (M H ltac:(lia) ltac:(lia)). lia. }
  unfold true_hit. rewrite <- P, <- F1, <- F2, <- F3. rewrite lib_hit_eq in *. cbv zeta in *.
  cbn [h_x h_y h_tot h_toa h_ftoa h_spider] in *. rewrite S. f_equal. f_equal.
  destruct (Z.ltb_spec H T); [lia|]. unfold u32, u64. rewrite !Z.mod_small; lia.
Qed.

Lemma lstep_low chip p s hits : packet_ok p -> 0 <= ts_timer s < 2 ^ 32 -> b7 p = 68 ->
  lib_step chip p s hits = (TS (ts_tdc s) (ts_gdc s) (lsb_value p), hits).
Proof.
  intros Op Ib E. destruct (kind_of_spec p) as (K1 & K2 & K3); [apply Op|]. rewrite (kind_low p E) in *.
  unfold lib_step. rewrite K1, K2 by exact K1. rewrite lib_gdc_eq by (auto; lia).
  rewrite b7_le64, E by assumption. reflexivity.
Qed.
Lemma lstep_high chip p s hits : packet_ok p -> 0 <= ts_timer s < 2 ^ 32 -> b7 p = 69 ->
  lib_step chip p s hits = (TS (ts_tdc s) (msb_value p * 2 ^ 32 + ts_timer s) (ts_timer s), hits).
Proof.
  intros Op Ib E. destruct (kind_of_spec p) as (K1 & K2 & K3); [apply Op|]. rewrite (kind_high p E) in *.
  unfold lib_step. rewrite K1, K2 by exact K1. rewrite lib_gdc_eq by (auto; lia).
  rewrite b7_le64, E by assumption. reflexivity.
Qed.
Lemma lstep_pulse chip p s hits : packet_ok p -> b7 p = 111 ->
  lib_step chip p s hits = (TS (update_tdc_gdc p (ts_gdc s)) (ts_gdc s) (ts_timer s), hits).
Proof.
  intros Op E. destruct (kind_of_spec p) as (K1 & K2 & K3); [apply Op|]. rewrite (kind_pulse p E) in *.
  unfold lib_step. rewrite K1. reflexivity.
Qed.
Lemma lstep_pixel chip p s hits : packet_ok p -> kind_of p = KPixel ->
  lib_step chip p s hits = (s, hits ++ [lib_hit p (ts_tdc s) (ts_gdc s) chip]).
Proof.
  intros Op K. destruct (kind_of_spec p) as (K1 & K2 & K3); [apply Op|]. rewrite K in *.
  unfold lib_step. rewrite K1, K2, K3 by exact K1. reflexivity.
Qed.
Lemma lstep_other chip p s hits : packet_ok p -> 0 <= ts_timer s < 2 ^ 32 ->
  kind_of p = KOther \/ (kind_of p = KGdc /\ b7 p <> 68 /\ b7 p <> 69) -> lib_step chip p s hits = (s, hits).
Proof.
  intros Op Ib K. destruct (kind_of_spec p) as (K1 & K2 & K3); [apply Op|].
  unfold lib_step. destruct K as [K|(K & N4 & N5)]; rewrite K in *; rewrite K1, K2 by exact K1.
  - rewrite K3 by exact K1. reflexivity.
  - rewrite lib_gdc_eq by (auto; lia). destruct (subtype_b7 p Op K) as [S4 S5].
    destruct (Z.eqb_spec (gdc_subtype p) 4); [tauto|]. destruct (Z.eqb_spec (gdc_subtype p) 5); [tauto|].
    destruct s. reflexivity.
Qed.
Lemma lib_fold_cons chip p ps sh : lib_fold (map (pair chip) (p :: ps)) sh =
  lib_fold (map (pair chip) ps) (lib_step chip p (fst sh) (snd sh)).
Proof. reflexivity. Qed.

Lemma lib_recorded chip k ps hs k' : recorded soon false chip k ps hs k' ->
  Forall packet_ok ps -> forall s hits, knows_all k s ->
  knows_all k' (fst (lib_fold (map (pair chip) ps) (s, hits))) /\
  snd (lib_fold (map (pair chip) ps) (s, hits)) = hits ++ hs.
Proof.
  intros R. induction R as [k|g a P G p ps hs k E HG El R IH|g G P p ps hs k E Em R IH
    |g a P T p ps hs k E Ec A R IH|a P T p ps hs k C E Ec N R IH
    |g a T H f p ps hs k Hf Ht -> Es H0 A HT R IH|g a P p ps hs k C N K R IH|k p ps hs k' K R IH];
    try discriminate; intros O s hits I;
    [cbn; rewrite app_nil_r; split; [exact I|reflexivity]|..];
    apply Forall_cons_iff in O; destruct O as [Op O]; rewrite lib_fold_cons; cbn [fst snd];
    destruct I as (Ir & Ib & Ia & Ip); cbn [k_ref k_announced k_pulse] in *.
  - rewrite lstep_low by assumption. apply (IH O).
    unfold knows_all. cbn [k_ref k_announced k_pulse ts_tdc ts_gdc ts_timer].
    pose proof (lsb_range p). repeat split; try assumption; try lia; tauto.
  - rewrite lstep_high by assumption. apply (IH O). destruct Ia as [Ea Ga].
    unfold knows_all. cbn [k_ref k_announced k_pulse ts_tdc ts_gdc ts_timer].
    repeat split; try assumption; lia.
  - rewrite lstep_pulse by assumption. apply (IH O). destruct Ir as [Er Gr].
    destruct (next_pulse_gdc p s E ltac:(lia)) as (_ & _ & _ & X).
    unfold knows_all. cbn [k_ref k_announced k_pulse ts_tdc ts_gdc ts_timer].
    rewrite (X T Ec) by (unfold soon in A; lia). tauto.
  - assert (K : kind_of (pixel_packet f) = KPixel) by (apply kind_pixel; assumption).
    rewrite lstep_pixel by assumption. destruct Ir as [Er Gr].
    rewrite Er, Ip, (lib_true f g T H chip) by assumption.
    destruct (IH O s (hits ++ [true_hit chip f T H])) as [F1 F2].
    { unfold knows_all. cbn [k_ref k_announced k_pulse]. tauto. }
    split; [exact F1|]. rewrite F2, <- app_assoc. reflexivity.
  - rewrite lstep_other by assumption. apply (IH O). exact (conj Ir (conj Ib (conj Ia Ip))).
Qed.

Lemma lib_recording k ds hss k' : recording soon false k ds hss k' -> Forall dataset_ok ds ->
  forall s hits, knows_all k s ->
  snd (lib_fold (payloads ds) (s, hits)) = hits ++ concat hss.
Proof.
  intros R. induction R as [k|k d ds chip hs hss k1 k2 C P R IH]; intros O s hits I.
  - cbn. rewrite app_nil_r. reflexivity.
  - apply Forall_cons_iff in O. destruct O as [Od O].
    unfold payloads. cbn [flat_map concat]. fold (payloads ds). rewrite lib_fold_app.
    assert (Ech : schar (d_chip d) = chip).
    { change (d_chip d) with (b4 (ds_header d)). apply P_Lib.chip_of; [|exact C]. apply P_Core.ds_header_ok. exact Od. }
    rewrite Ech.
    destruct (lib_recorded _ _ _ _ _ P (proj1 (proj2 (proj2 (proj2 Od)))) s hits I) as [F1 F2].
    destruct (lib_fold (map (pair chip) (d_payload d)) (s, hits)) as [s' hits']. cbn [fst snd] in *.
    rewrite (IH O _ _ F1), F2, app_assoc. reflexivity.
Qed.

Lemma C90_lib_l ds hss k : Forall dataset_ok ds -> recording soon false nothing_known ds hss k ->
  parse_raw (stream ds) = Ok (concat hss).
Proof.
  intros O R. rewrite (parse_raw_framed _ (payloads ds)).
  - f_equal. apply (lib_recording _ _ _ _ R O ts0 []). unfold knows_all. cbn. repeat split; lia.
  - apply stream_bytes. exact O.
  - apply C55_streams_l. exact O.
Qed.

Lemma C90_agree_l ds hss k : Forall dataset_ok ds ->
  recording (fun g t => after g t /\ 0 < t < 2 ^ 31) false nothing_known ds hss k ->
  (exists s, processed GDC_mode ts0 ds hss s) /\ (exists s, processed TDC_mode ts0 ds hss s) /\
  parse_raw (stream ds) = Ok (concat hss).
Proof.
  intros O R. split; [|split].
  - apply (C90_gdc_l ds hss k O). revert R. apply recording_mono; [|discriminate].
    unfold after, around. intros. lia.
  - apply (C90_tdc_l ds hss k). revert R. apply recording_mono; [|auto]. unfold early_run. tauto.
  - apply (C90_lib_l ds hss k O). revert R. apply recording_mono; [unfold after, soon; lia|auto].
Qed.
