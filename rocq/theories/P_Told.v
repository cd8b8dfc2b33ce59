From Coq Require Import Reals Lia ZifyBool Zify Permutation.
From Verif Require Import S_Told P_Hit P_Cam P_Gdc P_MeasureHist.
Local Open Scope Z_scope.
Ltac Zify.zify_post_hook ::= Z.to_euclidean_division_equations.

(** * The converter *)

Lemma pixel_is_pixel f : fields_ok f -> f_type f = 11 -> pixel_kind (pixel_packet f) = true.
Proof.
  intros Hf Ht. unfold pixel_kind. rewrite <- kind_W by apply pixel_packet_ok. unfold pixel_packet.
  destruct (pixel_word_fields f Hf) as [R E]. rewrite le64_word by exact R. rewrite shiftr_div by lia.
  assert (E' : f_type (word_fields (pixel_word f)) = 11) by (rewrite E; exact Ht). cbn [word_fields f_type] in E'.
  unfold word_fields in E'. cbn [f_type] in E'. lia.
Qed.
Lemma pixel_injective f f' : fields_ok f -> fields_ok f' -> pixel_packet f = pixel_packet f' -> f = f'.
Proof.
  intros F F' E. unfold pixel_packet in E. apply (f_equal le64) in E.
  destruct (pixel_word_fields f F) as [R W]. destruct (pixel_word_fields f' F') as [R' W'].
  rewrite !le64_word in E by assumption. rewrite <- W, <- W', E. reflexivity.
Qed.

Definition pix_line (cp : Z * packet) (l : line) : Prop :=
  forall f, fields_ok f -> f_type f = 11 -> snd cp = pixel_packet f ->
    exists t tot, l = LPixel (fst (place (fst cp) (f_x f) (f_y f))) (snd (place (fst cp) (f_x f) (f_y f))) t tot /\
      rounded t (IZR (400 * time30 f + 25 * (15 - f_ftoa f)) / 16 / 10 ^ 9) /\
      is_finite tot = true /\ B2R tot = IZR (25 * f_tot f).
Lemma written_pix lsb l ls : written lsb l ls ->
  Forall2 pix_line (filter (fun q => pixel_kind (snd q)) l) (filter pixel_line ls).
Proof.
  induction 1; cbn [filter snd pixel_line].
  - constructor.
  - subst p. rewrite pixel_is_pixel by assumption. constructor; [|assumption].
    intros f' F' T' E. cbn [snd fst] in *. apply pixel_injective in E; try assumption. subst f'. exists t, tot. auto.
  - replace (pixel_kind p) with false by (unfold trigger_kind, pixel_kind in *; lia). assumption.
  - replace (pixel_kind p) with false by (unfold global_kind, pixel_kind in *; lia). assumption.
  - replace (pixel_kind p) with false by (unfold global_kind, pixel_kind in *; lia). assumption.
  - rewrite H. assumption.
Qed.

Definition carries (cp : Z * packet) (h : hit) : Prop :=
  exists f T H, fields_ok f /\ f_type f = 11 /\ snd cp = pixel_packet f /\ time30 f = H mod 2 ^ 30 /\ h = true_hit (fst cp) f T H.
Definition full (k : clock) : Prop := k_ref k <> None /\ k_pulse k <> None.
Definition ends_in (k : clock) (qs : list (Z * packet)) (hs : list hit) (k' : clock) : Prop :=
  (full k -> full k') /\ exists e l, qs = e ++ l /\ Forall2 carries l hs /\ (full k -> e = []) /\ (hs <> [] -> full k').

Lemma not_pixel p : b7 p / 16 <> 11 -> pixel_kind p = false.
Proof. unfold pixel_kind. lia. Qed.
Lemma kind_pixel p : kind_of p = KPixel -> pixel_kind p = true.
Proof.
  unfold kind_of, pixel_kind. destruct (b7 p =? 111) eqn:E; [discriminate|]. intros H.
  destruct (b7 p / 16) as [|q|q] eqn:Q; try discriminate.
  repeat (destruct q; try discriminate H). reflexivity.
Qed.
Lemma kind_not_pixel p : kind_of p <> KPixel -> pixel_kind p = false.
Proof.
  unfold kind_of, pixel_kind. intros H. destruct (b7 p =? 111) eqn:E.
  - apply Z.eqb_eq in E. rewrite E. reflexivity.
  - destruct (Z.eqb_spec (b7 p / 16) 11) as [Q|Q]; [|reflexivity]. rewrite Q in H. contradiction.
Qed.

Lemma recorded_pixels near early chip k ps hs k' : recorded near early chip k ps hs k' ->
  ends_in k (filter (fun q => pixel_kind (snd q)) (map (pair chip) ps)) hs k'.
Proof.
  assert (Skip : forall (chip : Z) p qs, pixel_kind p = false ->
    filter (fun q : Z * packet => pixel_kind (snd q)) ((chip, p) :: qs) = filter (fun q => pixel_kind (snd q)) qs).
  { intros c p qs E. cbn [filter snd]. rewrite E. reflexivity. }
  induction 1 as [k|g a P G p ps hs k B _ _ _ IH|g G P p ps hs k B _ _ IH|g a P T p ps hs k B _ _ _ IH|a P T p ps hs k _ B _ _ _ IH
    |g a T H f p ps hs k F Ty Ep Tm _ _ _ _ IH|g a P p ps hs k _ N K _ IH|k p ps hs k' K _ IH]; cbn [map].
  - split; [tauto|]. exists [], []. split; [reflexivity|]. split; [constructor|]. split; [reflexivity|congruence].
  - rewrite Skip by (apply not_pixel; rewrite B; discriminate). destruct IH as (M & e & l & E & C & Z0 & Z1).
    assert (X : full (Clock g a P) -> full (Clock g (Some G) P)) by (unfold full; cbn; tauto).
    split; [tauto|]. exists e, l. split; [exact E|]. split; [exact C|]. split; [intros Y; exact (Z0 (X Y))|exact Z1].
  - rewrite Skip by (apply not_pixel; rewrite B; discriminate). destruct IH as (M & e & l & E & C & Z0 & Z1).
    assert (X : full (Clock g (Some G) P) -> full (Clock (Some G) None P)) by (unfold full; cbn; intros [_ Y]; split; [discriminate|exact Y]).
    split; [tauto|]. exists e, l. split; [exact E|]. split; [exact C|]. split; [intros Y; exact (Z0 (X Y))|exact Z1].
  - rewrite Skip by (apply not_pixel; rewrite B; discriminate). destruct IH as (M & e & l & E & C & Z0 & Z1).
    assert (X : full (Clock (Some g) a P) -> full (Clock (Some g) a (Some T))) by (unfold full; cbn; split; discriminate).
    split; [tauto|]. exists e, l. split; [exact E|]. split; [exact C|]. split; [intros Y; exact (Z0 (X Y))|exact Z1].
  - rewrite Skip by (apply not_pixel; rewrite B; discriminate). destruct IH as (M & e & l & E & C & Z0 & Z1).
    assert (X : full (Clock None a P) -> full (Clock None a (Some T))) by (unfold full; cbn; tauto).
    split; [tauto|]. exists e, l. split; [exact E|]. split; [exact C|]. split; [intros Y; exact (Z0 (X Y))|exact Z1].
  - cbn [filter snd]. rewrite Ep, pixel_is_pixel by assumption. destruct IH as (M & e & l & E & C & Z0 & Z1).
    assert (X : full (Clock (Some g) a (Some T))) by (split; discriminate).
    specialize (Z0 X). subst e. split; [exact M|]. exists [], ((chip, pixel_packet f) :: l).
    split; [cbn [app] in *; rewrite E; reflexivity|]. split; [|split; [reflexivity|intros _; exact (M X)]].
    constructor; [|exact C]. exists f, T, H. auto.
  - cbn [filter snd]. rewrite (kind_pixel p K). destruct IH as (M & e & l & E & C & Z0 & Z1).
    assert (X : ~ full (Clock g a P)) by (unfold full; cbn; intros [A1 A2]; destruct N as [N|N]; contradiction).
    split; [exact M|]. exists ((chip, p) :: e), l. split; [rewrite E; reflexivity|]. split; [exact C|]. split; [tauto|exact Z1].
  - rewrite Skip; [exact IH|]. apply kind_not_pixel. destruct K as [K|[K _]]; congruence.
Qed.

Lemma signed_declared d chip : is_byte (d_chip d) -> declares_chip (ds_header d) chip -> chip = signed_chip (d_chip d).
Proof. unfold is_byte, declares_chip, signed_chip. cbn [ds_header b4]. intros B [R M]. destruct (d_chip d <? 128) eqn:E; lia. Qed.

Lemma recording_pixels near early k ds hss k' : recording near early k ds hss k' -> Forall dataset_ok ds ->
  ends_in k (filter (fun q => pixel_kind (snd q)) (tagged ds)) (concat hss) k'.
Proof.
  induction 1 as [k|k d ds chip hs hss k1 k2 Dc R _ IH]; intros F.
  - split; [tauto|]. exists [], []. split; [reflexivity|]. split; [constructor|]. split; [reflexivity|cbn; congruence].
  - inversion F as [|? ? Hd Fd]; subst. specialize (IH Fd). apply recorded_pixels in R.
    assert (chip = signed_chip (d_chip d)) as -> by (apply signed_declared; [apply Hd|exact Dc]).
    destruct R as (M & e & l & E & C & Z0 & Z1). destruct IH as (M' & e' & l' & E' & C' & Z0' & Z1').
    unfold tagged. cbn [flat_map]. fold (tagged ds). rewrite filter_app. unfold ends_in.
    match goal with |- context [filter _ (map ?u ?v)] => change (filter (fun q => pixel_kind (snd q)) (map u v)) with
      (filter (fun q => pixel_kind (snd q)) (map (pair (signed_chip (d_chip d))) (d_payload d))) end.
    rewrite E, E'. cbn [concat]. split; [tauto|].
    destruct hs as [|h hs].
    + inversion C; subst. exists (e ++ e'), l'. rewrite app_nil_r. split; [rewrite app_assoc; reflexivity|]. split; [exact C'|].
      split; [intros X; rewrite (Z0 X), (Z0' (M X)); reflexivity|exact Z1'].
    + assert (X := Z1 ltac:(discriminate)). specialize (Z0' X). subst e'. exists e, (l ++ l').
      split; [rewrite <- app_assoc; reflexivity|]. split; [apply Forall2_app; assumption|]. split; [exact Z0|intros _; exact (M' X)].
Qed.

Lemma Forall2_len {A B} (R : A -> B -> Prop) l l' : Forall2 R l l' -> length l = length l'.
Proof. induction 1; cbn [length]; congruence. Qed.
Lemma carries_tells cp h l : carries cp h -> pix_line cp l -> tells h l.
Proof.
  intros (f & T & H & F & Ty & Ep & Tm & ->) L. destruct (L f F Ty Ep) as (t & tot & El & Rt & Ft & Et).
  exists t, tot. unfold true_hit. destruct (place (fst cp) (f_x f) (f_y f)) as [x y]. cbn [fst snd] in El.
  cbn [h_x h_y h_spider h_ftoa h_tot]. rewrite <- Tm. auto.
Qed.
Lemma C101_cam_l near early ds hss k : Forall dataset_ok ds -> recording near early nothing_known ds hss k -> ~ global_first (tagged ds) ->
  exists ls n before told, cam_convert (Some (stream ds)) = Ok (ls, n) /\ filter pixel_line ls = before ++ told /\
    Forall2 tells (concat hss) told /\
    length (before ++ told) = length (filter (fun q => pixel_kind (snd q)) (tagged ds)).
Proof.
  intros F R G. destruct (C77_lines_l ds F G) as (ls & E & W). apply written_pix in W.
  destruct (recording_pixels _ _ _ _ _ _ R F) as (_ & e & l & El & C & _ & _). rewrite El in W.
  apply Forall2_app_inv_l in W. destruct W as (b & t & Wb & Wt & Q). exists ls. eexists. exists b, t. split; [exact E|]. split; [exact Q|].
  split; [|rewrite El, !app_length, (Forall2_len _ _ _ Wb), (Forall2_len _ _ _ Wt); reflexivity].
  clear - C Wt. revert t Wt. induction C as [|cp h l hs Hc _ IH]; intros t W; inversion W; subst; constructor.
  - eapply carries_tells; eassumption.
  - apply IH. assumption.
Qed.

(** References before pixels. *)
Definition no_pixel (ps : list packet) : Prop := Forall (fun p => pixel_kind p = false) ps.
Definition found (ps : list packet) : Prop :=
  exists pre p post, ps = pre ++ p :: post /\ global_kind 5 p = true /\ no_pixel pre.
Lemma found_cons p ps : pixel_kind p = false -> found ps -> found (p :: ps).
Proof. intros K (pre & q & post & -> & G & N). exists (p :: pre), q, post. split; [reflexivity|]. split; [exact G|]. constructor; assumption. Qed.
Lemma recorded_first near chip k ps hs k' : recorded near false chip k ps hs k' -> Forall packet_ok ps -> k_ref k = None ->
  (no_pixel ps /\ hs = [] /\ k_ref k' = None) \/ found ps.
Proof.
  induction 1 as [k|g a P G p ps hs k B _ _ _ IH|g G P p ps hs k B _ _ IH|g a P T p ps hs k B _ _ _ IH|a P T p ps hs k X B _ _ _ IH
    |g a T H f p ps hs k F Ty Ep Tm _ _ _ _ IH|g a P p ps hs k X N K _ IH|k p ps hs k' K _ IH]; intros O Nk; try discriminate X; try discriminate Nk.
  - left. split; [constructor|]. split; [reflexivity|exact Nk].
  - assert (Kp : pixel_kind p = false) by (apply not_pixel; rewrite B; discriminate). inversion O; subst.
    destruct (IH ltac:(assumption) Nk) as [(A & C & D)|Fo]; [left|right; apply found_cons; assumption].
    split; [constructor; assumption|]. split; assumption.
  - right. exists [], p, ps. split; [reflexivity|]. split; [|constructor]. inversion O; subst.
    unfold global_kind. rewrite subtype_b7 by assumption. rewrite B. reflexivity.
  - assert (Kp : pixel_kind p = false) by (apply kind_not_pixel; destruct K as [K|[K _]]; congruence). inversion O; subst.
    destruct (IH ltac:(assumption) Nk) as [(A & C & D)|Fo]; [left|right; apply found_cons; assumption].
    split; [constructor; assumption|]. split; assumption.
Qed.
Lemma recording_first near k ds hss k' : recording near false k ds hss k' -> Forall dataset_ok ds -> k_ref k = None ->
  concat hss <> [] -> global_first (tagged ds).
Proof.
  induction 1 as [k|k d ds chip hs hss k1 k2 Dc R _ IH]; intros F Nk Ne; [contradiction|].
  inversion F as [|? ? Hd Fd]; subst. unfold tagged. cbn [flat_map]. fold (tagged ds).
  destruct Hd as (_ & _ & _ & Hp & _).
  destruct (recorded_first _ _ _ _ _ _ R Hp Nk) as [(N & -> & K1)|(pre & p & post & E & G & N)].
  - destruct (IH Fd K1 Ne) as (pre & c & p & post & E & G & N').
    exists (map (fun p => (signed_chip (d_chip d), p)) (d_payload d) ++ pre), c, p, post.
    split; [rewrite E, app_assoc; reflexivity|]. split; [exact G|]. apply Forall_app. split; [|exact N'].
    apply Forall_map. exact N.
  - rewrite E, map_app. cbn [map]. exists (map (fun p => (signed_chip (d_chip d), p)) pre), (signed_chip (d_chip d)), p,
      (map (fun p => (signed_chip (d_chip d), p)) post ++ tagged ds).
    split; [rewrite <- app_assoc; reflexivity|]. split; [exact G|]. apply Forall_map. exact N.
Qed.
Lemma C101_cam_undefined_l near ds hss k : Forall dataset_ok ds -> recording near false nothing_known ds hss k -> concat hss <> [] ->
  cam_convert (Some (stream ds)) = UB Uninitialised.
Proof. intros F R N. apply C77_unset_l; [exact F|]. exact (recording_first _ _ _ _ _ R F eq_refl N). Qed.

(** * The table of the extractor *)

Definition waits (a : option Z) (timer : Z) : Prop :=
  0 <= timer < 2 ^ 32 /\ forall G, a = Some G -> timer = G mod 2 ^ 32 /\ 0 < G < 2 ^ 48.
Definition told_of (r : gdc_record) : Z * Z := (gr_chip r, gr_value r).
Definition small (r : gdc_record) : Prop := 0 <= gr_value r < 2 ^ 48.

Lemma referenced_loop a ps gs a' : referenced a ps gs a' -> Forall packet_ok ps -> Forall (fun p => ~ starts_TPX p) ps ->
  forall rest base off chip timer gdc recs, 0 <= chip -> waits a timer ->
  exists timer' gdc' rs, loop_p (ps ++ rest) base off chip timer gdc recs =
      loop_p rest base (off + 8 * zlen ps) chip timer' gdc' (recs ++ rs) /\
    map told_of rs = map (pair chip) gs /\ Forall small rs /\ waits a' timer'.
Proof.
  induction 1 as [a|a G p ps gs a' B HG Lv _ IH|G p ps gs a' B Mv _ IH|a p ps gs a' N8 N9 _ IH]; intros O S rest base off chip timer gdc recs Hc W.
  - exists timer, gdc, []. cbn [app]. rewrite app_nil_r. change (8 * zlen []) with 0. rewrite Z.add_0_r.
    split; [reflexivity|]. split; [reflexivity|]. split; [constructor|exact W].
  - inversion O as [|? ? Op Os]; subst. inversion S as [|? ? Sp Ss]; subst. cbn [app loop_p].
    assert (T3 : is_tpx3 p = false) by (apply Bool.not_true_is_false; intros X; apply is_tpx3_spec in X; destruct X as (X0 & X1 & X2 & _); apply Sp; repeat split; assumption).
    assert (Gd : is_gdc p = true) by (apply is_gdc_spec; [apply Op|rewrite B; reflexivity]).
    assert (St : gdc_subtype p = 4) by (rewrite P_Gdc.subtype_b7, B by exact Op; reflexivity).
    rewrite T3, Gd, update_gdc_eq by (exact Op || apply W). rewrite St. cbn [Z.eqb Pos.eqb].
    assert (Mp : msb_packet p = false) by (apply Bool.not_true_is_false; intros X; apply msb_packet_spec in X; [congruence|exact Op]).
    rewrite Mp. cbn [andb].
    assert (W' : waits (Some G) (lsb_value p)).
    { rewrite Lv. split; [lia|]. intros G' Q. injection Q as <-. split; [reflexivity|exact HG]. }
    destruct (IH Os Ss rest base (off + 8) chip (lsb_value p) gdc recs Hc W') as (t & g & rs & E & R).
    exists t, g, rs. split; [|exact R]. rewrite E. f_equal. unfold zlen. cbn [length]. lia.
  - inversion O as [|? ? Op Os]; subst. inversion S as [|? ? Sp Ss]; subst. cbn [app loop_p].
    assert (T3 : is_tpx3 p = false) by (apply Bool.not_true_is_false; intros X; apply is_tpx3_spec in X; destruct X as (X0 & X1 & X2 & _); apply Sp; repeat split; assumption).
    assert (Gd : is_gdc p = true) by (apply is_gdc_spec; [apply Op|rewrite B; reflexivity]).
    assert (St : gdc_subtype p = 5) by (rewrite P_Gdc.subtype_b7, B by exact Op; reflexivity).
    rewrite T3, Gd, update_gdc_eq by (exact Op || apply W). rewrite St. cbn [Z.eqb Pos.eqb].
    assert (Mp : msb_packet p = true) by (apply msb_packet_spec; assumption).
    destruct W as [Wt WG]. destruct (WG G eq_refl) as [Et HG].
    assert (V : msb_value p * 2 ^ 32 + timer = G) by (rewrite Mv, Et; lia).
    rewrite V. replace (G =? 0) with false by lia. rewrite Mp. replace (G =? 0) with false by lia. replace (chip >=? 0) with true by lia. cbn [negb andb].
    assert (W' : waits None timer) by (split; [exact Wt|discriminate]).
    destruct (IH Os Ss rest base (off + 8) chip timer G (recs ++ [GRec chip G (u64 (base + off))]) Hc W') as (t & g & rs & E & R1 & R2 & R3).
    exists t, g, (GRec chip G (u64 (base + off)) :: rs). split.
    + rewrite E. rewrite <- app_assoc. cbn [app]. f_equal. unfold zlen. cbn [length]. lia.
    + split; [cbn [map]; rewrite R1; reflexivity|]. split; [constructor; [unfold small; cbn; lia|exact R2]|exact R3].
  - inversion O as [|? ? Op Os]; subst. inversion S as [|? ? Sp Ss]; subst. cbn [app loop_p].
    assert (T3 : is_tpx3 p = false) by (apply Bool.not_true_is_false; intros X; apply is_tpx3_spec in X; destruct X as (X0 & X1 & X2 & _); apply Sp; repeat split; assumption).
    rewrite T3. destruct (is_gdc p) eqn:Gd.
    + apply is_gdc_spec in Gd; [|apply Op].
      assert (N4 : gdc_subtype p <> 4) by (rewrite P_Gdc.subtype_b7 by exact Op; lia).
      assert (N5 : gdc_subtype p <> 5) by (rewrite P_Gdc.subtype_b7 by exact Op; lia).
      rewrite update_gdc_eq by (exact Op || apply W).
      replace (gdc_subtype p =? 4) with false by lia. replace (gdc_subtype p =? 5) with false by lia.
      assert (Mp : msb_packet p = false) by (apply Bool.not_true_is_false; intros X; apply msb_packet_spec in X; [congruence|exact Op]).
      rewrite Mp. cbn [andb].
      destruct (IH Os Ss rest base (off + 8) chip timer gdc recs Hc W) as (t & g & rs & E & R).
      exists t, g, rs. split; [|exact R]. rewrite E. f_equal. unfold zlen. cbn [length]. lia.
    + destruct (IH Os Ss rest base (off + 8) chip timer gdc recs Hc W) as (t & g & rs & E & R).
      exists t, g, rs. split; [|exact R]. rewrite E. f_equal. unfold zlen. cbn [length]. lia.
Qed.

Lemma references_loop a ds cgs a' : references a ds cgs a' -> Forall dataset_ok ds -> Forall no_false_header ds -> Forall plain_header ds ->
  forall base off chip timer gdc recs, waits a timer ->
  exists s rs, loop_p (words_of ds) base off chip timer gdc recs = (recs ++ rs, s) /\ map told_of rs = cgs /\ Forall small rs.
Proof.
  induction 1 as [a|a d ds gs a1 cgs a2 R _ IH]; intros O N P base off chip timer gdc recs W.
  - exists (timer, gdc), []. cbn. rewrite app_nil_r. repeat split. constructor.
  - inversion O as [|? ? Od Os]; subst. inversion N as [|? ? Nd Ns]; subst. inversion P as [|? ? Pd Ps]; subst.
    destruct Od as (_ & Oc & _ & Op & _). destruct Pd as [P3 Pc].
    unfold words_of. cbn [flat_map app loop_p]. fold (words_of ds).
    assert (T3 : is_tpx3 (ds_header d) = true) by (unfold is_tpx3; cbn [ds_header b0 b1 b2 b3]; rewrite P3; reflexivity).
    rewrite T3. cbn [ds_header b4]. assert (Sc : schar (d_chip d) = d_chip d) by (unfold schar; replace (d_chip d <? 128) with true by lia; reflexivity).
    rewrite Sc. unfold is_byte in Oc.
    destruct (referenced_loop _ _ _ _ R Op Nd (words_of ds) base (off + 8) (d_chip d) timer gdc recs ltac:(lia) W) as (t & g & rs & E & R1 & R2 & R3).
    rewrite E. destruct (IH Os Ns Ps base (off + 8 + 8 * zlen (d_payload d)) (d_chip d) t g (recs ++ rs) R3) as (s & rs2 & E2 & Q1 & Q2).
    exists s, (rs ++ rs2). split; [rewrite E2, app_assoc; reflexivity|]. rewrite map_app, R1, Q1. split; [reflexivity|]. apply Forall_app. split; assumption.
Qed.

Lemma words_bytes ds : stream ds = flat_map packet_bytes (words_of ds).
Proof.
  induction ds as [|d ds IH]; [reflexivity|]. unfold stream, words_of in *. cbn [flat_map app]. rewrite flat_map_app, <- IH, app_assoc. reflexivity.
Qed.
Lemma words_ok ds : Forall dataset_ok ds -> Forall packet_ok (words_of ds).
Proof.
  induction 1 as [|d ds (B3 & Bc & B5 & P & L) _ IH]; [constructor|]. unfold words_of. cbn [flat_map]. fold (words_of ds).
  constructor; [|apply Forall_app; split; assumption].
  assert (0 <= zlen (d_payload d)) by (unfold zlen; lia).
  unfold packet_ok, is_byte in *. cbn [ds_header b0 b1 b2 b3 b4 b5 b6 b7]. lia.
Qed.

Lemma C101_table_l ds cgs a rest c fuel : Forall dataset_ok ds -> Forall no_false_header ds -> Forall plain_header ds -> ds <> [] ->
  references None ds cgs a -> (length rest < 8)%nat -> zlen (stream ds ++ rest) < 2 ^ 64 ->
  (length (words_of ds) <= c)%nat -> (length (stream ds ++ rest) <= fuel)%nat ->
  exists rows, gdc_process fuel true (Some (stream ds ++ rest)) (8 * Z.of_nat c) = Ok (Some rows) /\
    map (fun r => (row_chip r, row_value r)) rows = cgs /\ Forall (fun r => row_ns r = 25 * row_value r) rows.
Proof.
  intros O N P Ne R Hr Hz Hc Hf.
  assert (Lw : (0 < length (words_of ds))%nat) by (destruct ds; [contradiction|]; cbn; lia).
  assert (Nm : stream ds ++ rest <> []) by (destruct ds as [|d ds]; [contradiction|]; cbn; discriminate).
  eexists. split; [apply gdc_process_rows; [exact Nm|lia|exact Hz|exact Hf]|].
  rewrite words_bytes, file_packets by exact Hr.
  assert (E := records_rows c (words_of ds) 0 ltac:(lia) (Nat.mod_0_l c ltac:(lia)) (length (words_of ds)) 0 ltac:(lia) ltac:(lia) ltac:(lia)).
  unfold all_rows. rewrite Nat.sub_0_r, <- E. cbn [firstn skipn]. rewrite ?skipn_nil, ?firstn_nil, firstn_all. change (8 * Z.of_nat 0) with 0.
  assert (L := loop_records (words_of ds) [] [] 0 0 []). change (chip_after []) with (-1) in L. change (state_after []) with (0, 0) in L.
  cbn [fst snd app] in L. change (0 + 0) with 0 in L.
  assert (W : waits None 0) by (split; [lia|discriminate]).
  destruct (references_loop _ _ _ _ R O N P 0 0 (-1) 0 0 [] W) as (s & rs & E2 & Q1 & Q2).
  rewrite L in E2. cbn [app] in E2. injection E2 as E2 _. rewrite E2. split.
  - rewrite map_map, <- Q1. reflexivity.
  - apply Forall_map. eapply Forall_impl; [|exact Q2]. intros r H. unfold small in H. cbn [row_of row_ns row_value]. unfold u64. lia.
Qed.

Lemma C101_chunks_l ds cgs a rest c fuel rows : Forall dataset_ok ds -> Forall no_false_header ds -> Forall plain_header ds -> ds <> [] ->
  references None ds cgs a -> (length rest < 8)%nat -> zlen (stream ds ++ rest) < 2 ^ 64 ->
  (0 < c)%nat -> (length (stream ds ++ rest) <= fuel)%nat ->
  gdc_process fuel true (Some (stream ds ++ rest)) (8 * Z.of_nat c) = Ok (Some rows) ->
  Forall (fun r => In (row_chip r, row_value r) cgs /\ row_ns r = 25 * row_value r) rows.
Proof.
  intros O N P Ne R Hr Hz Hc Hf E.
  assert (Lw : (0 < length (words_of ds))%nat) by (destruct ds; [contradiction|]; cbn; lia).
  destruct (C101_table_l ds cgs a rest (length (words_of ds)) fuel O N P Ne R Hr Hz (le_n _) Hf) as (rows' & E' & M & F).
  rewrite words_bytes in *.
  assert (X := C37_lost_l (words_of ds) rest (words_ok ds O) Hr _ eq_refl Hz c (length (words_of ds)) fuel rows rows' Hc Lw (le_n _) Hf E E').
  apply Forall_forall. intros r I. apply X in I. destruct I as [I _]. split.
  - rewrite <- M. apply (in_map (fun r => (row_chip r, row_value r))). exact I.
  - rewrite Forall_forall in F. apply F, I.
Qed.

(** Histories and recordings tell their time packets. *)
Lemma recorded_references near early chip k ps hs k' : recorded near early chip k ps hs k' ->
  exists gs, referenced (k_announced k) ps gs (k_announced k').
Proof.
  assert (X : forall f, fields_ok f -> f_type f = 11 -> b7 (pixel_packet f) / 16 = 11).
  { intros f F T. assert (Y := pixel_is_pixel f F T). unfold pixel_kind in Y. lia. }
  induction 1 as [k|g a P G p ps hs k B HG Lv _ IH|g G P p ps hs k B Mv _ IH|g a P T p ps hs k B _ _ _ IH|a P T p ps hs k _ B _ _ _ IH
    |g a T H f p ps hs k F Ty Ep Tm _ _ _ _ IH|g a P p ps hs k _ N K _ IH|k p ps hs k' K _ IH]; cbn [k_announced] in *;
    try (destruct IH as (gs & IH)).
  - exists []. constructor.
  - exists gs. apply (rf_low _ G); [exact B|lia|exact Lv|exact IH].
  - exists (G :: gs). apply rf_high; assumption.
  - exists gs. apply rf_other; [rewrite B; discriminate|rewrite B; discriminate|exact IH].
  - exists gs. apply rf_other; [rewrite B; discriminate|rewrite B; discriminate|exact IH].
  - exists gs. assert (Y := X f F Ty). rewrite <- Ep in Y. apply rf_other; [intros Q; rewrite Q in Y; discriminate|intros Q; rewrite Q in Y; discriminate|exact IH].
  - exists gs. apply kind_pixel in K. unfold pixel_kind in K. apply rf_other; [intros Q; rewrite Q in K; discriminate|intros Q; rewrite Q in K; discriminate|exact IH].
  - exists gs. destruct K as [K|(_ & K8 & K9)].
    + apply rf_other; [intros Q; unfold kind_of in K; rewrite Q in K; discriminate|intros Q; unfold kind_of in K; rewrite Q in K; discriminate|exact IH].
    + apply rf_other; assumption.
Qed.
Lemma C101_recorded_l near early k ds hss k' : recording near early k ds hss k' ->
  exists cgs, references (k_announced k) ds cgs (k_announced k').
Proof.
  induction 1 as [k|k d ds chip hs hss k1 k2 _ R _ IH]; [exists []; constructor|].
  destruct (recorded_references _ _ _ _ _ _ _ R) as (gs & Q). destruct IH as (cgs & IH). eexists. econstructor; eassumption.
Qed.

Lemma history_referenced near chip g T l hs g' T' : S_Measure.history near chip g T l hs g' T' ->
  exists gs, referenced None (flat_map report l) gs None /\
    map (pair chip) gs = flat_map (fun a => match a with Ref G => [(chip, G)] | _ => [] end) l.
Proof.
  induction 1 as [g T|g G T l hs g' T' HG R IH|g T0 T l hs g' T' N R IH
    |g T x y tot ftoa H l hs g' T' Hx Hy Ht Hf H0 N HT R IH]; cbn [flat_map report app]; try (destruct IH as (gs & IH & M)).
  - exists []. split; [constructor|reflexivity].
  - set (lo := G mod 2 ^ 32). set (hi := G / 2 ^ 32).
    assert (0 <= lo < 2 ^ 32) by (unfold lo; lia). assert (0 <= hi < 2 ^ 16) by (unfold hi; lia).
    exists (G :: gs). split; [|cbn [map]; rewrite M; reflexivity].
    apply (rf_low _ G); [..|apply rf_high; [..|exact IH]].
    + unfold word_packet. cbn [b7]. clearbody lo. lia.
    + lia.
    + unfold lsb_value. rewrite le64_word by lia. fold lo. clearbody lo. lia.
    + unfold word_packet. cbn [b7]. clearbody hi. lia.
    + unfold msb_value. rewrite le64_word by lia. fold hi. clearbody hi. lia.
  - exists gs. split; [|exact M]. assert (X : b7 (word_packet (111 * 2 ^ 56 + T mod 2 ^ 32 * 2 ^ 12)) = 111).
    { set (lo := T mod 2 ^ 32). assert (0 <= lo < 2 ^ 32) by (unfold lo; lia). unfold word_packet. cbn [b7]. clearbody lo. lia. }
    apply rf_other; [rewrite X; discriminate|rewrite X; discriminate|exact IH].
  - exists gs. split; [|exact M]. set (f := PF 11 x y (H mod 2 ^ 14) tot ftoa (H / 2 ^ 14 mod 2 ^ 16)).
    assert (F : fields_ok f) by (unfold fields_ok, f; cbn [f_type f_x f_y f_toa f_tot f_ftoa f_spidr]; lia).
    assert (Y := pixel_is_pixel f F eq_refl). unfold pixel_kind in Y.
    apply rf_other; [intros Q; rewrite Q in Y; discriminate|intros Q; rewrite Q in Y; discriminate|exact IH].
Qed.
Lemma C101_history_l near g T xs hss : S_Measure.histories near g T xs hss -> references None (map dataset_of xs) (flat_map acts_refs xs) None.
Proof.
  induction 1 as [g T|g T b3 chip b5 l hs g' T' xs hss B3 C B5 L R1 R IH]; [constructor|].
  cbn [map flat_map acts_refs]. destruct (history_referenced _ _ _ _ _ _ _ _ R1) as (gs & Q & M).
  rewrite <- M. apply (rs_cons None (dataset_of (b3, chip, b5, l)) (map dataset_of xs) gs None); assumption.
Qed.

Lemma C101_gdc_history_l near g T xs hss c fuel : S_Measure.histories near g T xs hss ->
  Forall no_false_header (map dataset_of xs) -> Forall (fun x => fst (fst (fst x)) = 51) xs -> xs <> [] ->
  zlen (stream (map dataset_of xs)) < 2 ^ 64 ->
  (length (words_of (map dataset_of xs)) <= c)%nat -> (length (stream (map dataset_of xs)) <= fuel)%nat ->
  exists rows, gdc_process fuel true (Some (stream (map dataset_of xs))) (8 * Z.of_nat c) = Ok (Some rows) /\
    map (fun r => (row_chip r, row_value r)) rows = flat_map acts_refs xs /\ Forall (fun r => row_ns r = 25 * row_value r) rows.
Proof.
  intros H N B Ne Hz Hc Hf. assert (R := C101_history_l _ _ _ _ _ H).
  destruct (histories_recording _ _ _ _ _ H) as [O _].
  assert (P : Forall plain_header (map dataset_of xs)).
  { apply Forall_map. clear - H B. induction H as [|g T b3 chip b5 l hs g' T' xs hss H3 Hc H5 L H1 H2 IH]; [constructor|].
    inversion B as [|? ? B1 B2]; subst. constructor; [|apply IH, B2]. cbn in *. unfold plain_header. cbn. lia. }
  assert (Nd : map dataset_of xs <> []) by (destruct xs; [contradiction|discriminate]).
  assert (X := C101_table_l (map dataset_of xs) _ None [] c fuel O N P Nd R). rewrite app_nil_r in X.
  apply X; [cbn; lia|exact Hz|exact Hc|exact Hf].
Qed.
