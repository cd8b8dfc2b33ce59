(** Proofs for C106. *)
From Coq Require Import Reals Lra Lia List Permutation.
From Flocq Require Import Core.
From Verif Require Import F64Facts P_AbsProps P_Centroid P_Program P_CliRun P_HitProps S_Conserve P_Shown.
Global Open Scope Z_scope.
Global Open Scope list_scope.

Lemma members_other l a ls h data : a <> l -> members l (a :: ls) (h :: data) = members l ls data.
Proof. intros N. unfold members. cbn [combine filter fst]. destruct (Nat.eqb_spec a l); [contradiction|reflexivity]. Qed.
Lemma members_same l ls h data : members l (l :: ls) (h :: data) = h :: members l ls data.
Proof. unfold members. cbn [combine filter fst]. rewrite Nat.eqb_refl. reflexivity. Qed.
Lemma members_map_other a ls h data ks : ~ In a ks ->
  map (fun l => members l (a :: ls) (h :: data)) ks = map (fun l => members l ls data) ks.
Proof.
  intros N. apply map_ext_in. intros l I. apply members_other. intros ->. contradiction.
Qed.
Lemma clusters_perm ks : NoDup ks -> forall ls data, length ls = length data -> (forall l, In l ls -> In l ks) ->
  Permutation (concat (map (fun l => members l ls data) ks)) data.
Proof.
  intros ND. induction ls as [|a ls IH]; intros [|h data] Len Sub; try discriminate.
  - assert (E : concat (map (fun l => members l [] []) ks) = []).
    { clear. induction ks as [|k ks IH]; [reflexivity|exact IH]. }
    rewrite E. constructor.
  - destruct (in_split a ks (Sub a (or_introl eq_refl))) as (k1 & k2 & ->).
    assert (N : ~ In a (k1 ++ k2)) by (apply NoDup_remove_2; exact ND).
    specialize (IH data ltac:(cbn in Len; lia) (fun l I => Sub l (or_intror I))).
    rewrite map_app, concat_app in *. cbn [map concat] in *.
    rewrite !members_map_other by (intros I; apply N; apply in_or_app; auto). rewrite members_same.
    cbn [app]. rewrite <- Permutation_middle. constructor. exact IH.
Qed.
Lemma hsum_perm g a b : Permutation a b -> hsum g a = hsum g b.
Proof. unfold hsum. induction 1; cbn [fold_right] in *; lia. Qed.
Lemma hsum_concat g cs : hsum g (concat cs) = fold_right (fun c s => hsum g c + s) 0 cs.
Proof. induction cs as [|c cs IH]; [reflexivity|]. cbn [concat fold_right]. rewrite hsum_app, IH. reflexivity. Qed.

(** One cluster. *)
Definition wx (h : hit) : Z := h_x h * h_tot h.
Definition wy (h : hit) : Z := h_y h * h_tot h.
Lemma hsum_nonneg g c : Forall (fun h => 0 <= g h) c -> 0 <= hsum g c.
Proof. unfold hsum. induction 1; cbn [fold_right]; lia. Qed.

Lemma weighed v m w : 0 < w -> 0 <= m -> close v (IZR m / IZR w) ->
  (Rabs (B2R v * IZR w - IZR m) <= bpow radix2 (-51) * IZR m)%R.
Proof.
  intros Hw Hm [_ C]. apply IZR_lt in Hw. apply IZR_le in Hm.
  replace (B2R v * IZR w - IZR m)%R with ((B2R v - IZR m / IZR w) * IZR w)%R by (field; lra).
  rewrite Rabs_mult, (Rabs_pos_eq (IZR w)) by lra.
  assert (Q : (0 <= IZR m / IZR w)%R) by (apply Rmult_le_pos; [lra|]; left; apply Rinv_0_lt_compat; lra).
  rewrite (Rabs_pos_eq _ Q) in C. apply (Rmult_le_compat_r (IZR w)) in C; [|lra].
  replace (bpow radix2 (-51) * IZR m)%R with (bpow radix2 (-51) * (IZR m / IZR w) * IZR w)%R by (field; lra). exact C.
Qed.

Lemma nan_fge x y : is_nan x = true -> fge x y = false.
Proof. destruct x; try discriminate. intros _. destruct y; reflexivity. Qed.

Record kept (evs : list neutron) (data : list hit) : Prop := Kept
  { kp_tot : rsum (map n_tot evs) = IZR (hsum h_tot data);
    kp_x : (Rabs (moment (map n_x evs) (map n_tot evs) - IZR (hsum wx data)) <= bpow radix2 (-51) * IZR (hsum wx data))%R;
    kp_y : (Rabs (moment (map n_y evs) (map n_tot evs) - IZR (hsum wy data)) <= bpow radix2 (-51) * IZR (hsum wy data))%R;
    kp_n : zlen data <= total_hits evs + uncharged data }.

Lemma rabs_add a b x y e : (Rabs (a - x) <= e * x)%R -> (Rabs (b - y) <= e * y)%R -> (Rabs (a + b - (x + y)) <= e * (x + y))%R.
Proof.
  intros A B. replace (a + b - (x + y))%R with ((a - x) + (b - y))%R by ring.
  eapply Rle_trans; [apply Rabs_triang|]. lra.
Qed.
Lemma uncharged_app a b : uncharged (a ++ b) = uncharged a + uncharged b.
Proof. unfold uncharged. rewrite filter_app, zlen_app. reflexivity. Qed.
Lemma uncharged_perm a b : Permutation a b -> uncharged a = uncharged b.
Proof.
  unfold uncharged. induction 1 as [|x a b P IH|x y a|]; cbn [filter] in *; try congruence; try reflexivity.
  - destruct (h_tot x =? 0); rewrite ?zlen_cons; lia.
  - destruct (h_tot x =? 0), (h_tot y =? 0); rewrite ?zlen_cons; lia.
Qed.
Lemma no_charge c : Forall sensor_hit c -> hsum h_tot c = 0 -> uncharged c = zlen c /\ hsum wx c = 0 /\ hsum wy c = 0.
Proof.
  intros F. unfold uncharged, hsum, wx, wy. induction F as [|h c H F IH]; cbn [fold_right filter]; [auto|].
  intros E. assert (P : 0 <= hsum h_tot c).
  { apply hsum_nonneg. eapply Forall_impl; [|exact F]. intros a (_ & _ & A & _). lia. }
  unfold hsum in P. destruct H as (_ & _ & A & _).
  destruct (Z.eqb_spec (h_tot h) 0) as [Z|N]; [|lia]. rewrite !zlen_cons. destruct IH as (I1 & I2 & I3); [lia|]. rewrite Z in *.
  split; [lia|]. split; lia.
Qed.
Lemma moment_cons x xs w ws : moment (x :: xs) (w :: ws) = (B2R x * B2R w + moment xs ws)%R.
Proof. reflexivity. Qed.

Definition sound (e : neutron) : Prop :=
  is_finite (n_x e) = true /\ is_finite (n_y e) = true /\ 0 <= n_hits e <= 2 ^ 21 /\
  exists w, is_int (n_tot e) w /\ 0 <= w <= 1023 * 2 ^ 21.
Lemma clusters_kept min cs evs : events (centroid_fit true (f_of_Z 1)) min cs evs ->
  Forall (fun c => c <> [] /\ Forall sensor_hit c /\ zlen c <= 2 ^ 21) cs ->
  Forall sound evs /\
  (rsum (map n_tot evs) <= IZR (hsum h_tot (concat cs)))%R /\ total_hits evs <= zlen (concat cs) /\
  (min <= 1 -> kept evs (concat cs)).
Proof.
  induction 1 as [|c cs evs S H IH|c cs e evs S F V H IH|c cs e evs S F V H IH]; intros A.
  - split; [constructor|]. split; [apply Rle_refl|]. split; [reflexivity|]. intros _.
    split; cbn; rewrite ?Rminus_0_r, ?Rabs_R0, ?Rmult_0_r; try apply Rle_refl; try reflexivity; lia.
  - inversion A as [|? ? (A1 & A2 & A3) A4]; subst. destruct (IH A4) as (I1 & I2 & I3 & I4).
    assert (P : 0 <= hsum h_tot c). { apply hsum_nonneg. eapply Forall_impl; [|exact A2]. intros a (_ & _ & B & _). lia. }
    cbn [concat]. rewrite hsum_app, plus_IZR, zlen_app. split; [exact I1|]. apply IZR_le in P. split; [lra|].
    pose proof (zlen_nonneg c). split; [lia|].
    intros M. destruct c; [contradiction|]. rewrite zlen_cons in *. pose proof (zlen_nonneg c). lia.
  - inversion A as [|? ? (A1 & A2 & A3) A4]; subst. destruct (IH A4) as (I1 & I2 & I3 & I4).
    destruct (C26_l c A1 A2 A3) as (e' & E & N & T1 & T2 & _ & B1 & B2). rewrite E in F. apply Ok_inj in F. subst e'.
    assert (P : 0 <= hsum h_tot c). { apply hsum_nonneg. eapply Forall_impl; [|exact A2]. intros a (_ & _ & B & _). lia. }
    assert (Px : 0 <= hsum wx c). { apply hsum_nonneg. eapply Forall_impl; [|exact A2]. intros a (X & _ & B & _). unfold wx. nia. }
    assert (Py : 0 <= hsum wy c). { apply hsum_nonneg. eapply Forall_impl; [|exact A2]. intros a (_ & X & B & _). unfold wy. nia. }
    assert (Pos : 0 < hsum h_tot c).
    { destruct (Z.eq_dec (hsum h_tot c) 0) as [Z|]; [|lia]. destruct (B2 Z) as [Nx _]. rewrite (nan_fge _ _ Nx) in V. discriminate. }
    destruct (B1 Pos) as (Cx & Cy & _ & _).
    cbn [concat map]. rewrite hsum_app, plus_IZR, zlen_app. cbn [rsum fold_right]. fold (rsum (map n_tot evs)).
    split.
    { constructor; [|exact I1]. split; [apply Cx|]. split; [apply Cy|]. split; [pose proof (zlen_nonneg c); lia|]. exists (hsum h_tot c). split; [split; assumption|].
      destruct (hsum_bounds h_tot c 0 1023); [|lia]. eapply Forall_impl; [|exact A2]. intros a (_ & _ & B & _). lia. }
    split; [rewrite T2; lra|]. cbn [total_hits fold_right]. fold (total_hits evs). split; [lia|].
    intros M. destruct (I4 M) as [K1 K2 K3 K4]. split.
    + cbn [rsum fold_right map]. fold (rsum (map n_tot evs)). rewrite T2, K1, hsum_app, plus_IZR. reflexivity.
    + cbn [map]. rewrite moment_cons, T2, hsum_app, plus_IZR. apply rabs_add; [|exact K2]. apply weighed; [exact Pos|exact Px|exact Cx].
    + cbn [map]. rewrite moment_cons, T2, hsum_app, plus_IZR. apply rabs_add; [|exact K3]. apply weighed; [exact Pos|exact Py|exact Cy].
    + rewrite uncharged_app, zlen_app. cbn [total_hits fold_right]. fold (total_hits evs). unfold uncharged at 1.
      match goal with |- context [zlen ?x + uncharged _] => pose proof (zlen_nonneg x) end. lia.
  - inversion A as [|? ? (A1 & A2 & A3) A4]; subst. destruct (IH A4) as (I1 & I2 & I3 & I4).
    destruct (C26_l c A1 A2 A3) as (e' & E & N & T1 & T2 & _ & B1 & B2). rewrite E in F. apply Ok_inj in F. subst e'.
    assert (P : 0 <= hsum h_tot c). { apply hsum_nonneg. eapply Forall_impl; [|exact A2]. intros a (_ & _ & B & _). lia. }
    assert (Z : hsum h_tot c = 0).
    { destruct (Z.eq_dec (hsum h_tot c) 0) as [Z|Nz]; [exact Z|]. exfalso. destruct (B1 ltac:(lia)) as (Cx & Cy & Gx & Gy).
      destruct Cx as [Fx _], Cy as [Fy _].
      assert (G : forall v, is_finite v = true -> (0 <= B2R v)%R -> fge v (f_of_Z 0) = true).
      { intros v Fv Gv. destruct zero_int as [Z1 Z2]. change (fge v (f_of_Z 0)) with (fle (f_of_Z 0) v). rewrite fle_R by assumption. apply Rle_bool_true. rewrite Z2. exact Gv. }
      rewrite (G _ Fx Gx), (G _ Fy Gy) in V. discriminate. }
    destruct (no_charge c A2 Z) as (U & Ux & Uy).
    cbn [concat]. rewrite hsum_app, Z, zlen_app, Z.add_0_l. pose proof (zlen_nonneg c).
    split; [exact I1|]. split; [exact I2|]. split; [lia|].
    intros M. destruct (I4 M) as [K1 K2 K3 K4]. split; rewrite ?hsum_app, ?Z, ?Ux, ?Uy, ?Z.add_0_l; try assumption.
    rewrite uncharged_app, zlen_app. lia.
Qed.

Lemma kept_app e1 d1 e2 d2 : kept e1 d1 -> kept e2 d2 -> kept (e1 ++ e2) (d1 ++ d2).
Proof.
  intros [A1 A2 A3 A4] [B1 B2 B3 B4].
  assert (Rs : forall a b, rsum (a ++ b) = (rsum a + rsum b)%R).
  { intros a b. unfold rsum. induction a as [|x a IH]; cbn [app fold_right]; [ring|]. rewrite IH. ring. }
  assert (Mo : forall (f g : neutron -> f64) a b, moment (map f (a ++ b)) (map g (a ++ b)) = (moment (map f a) (map g a) + moment (map f b) (map g b))%R).
  { intros f g a b. induction a as [|x a IH]; cbn [app map]; [unfold moment; cbn; ring|]. rewrite !moment_cons, IH. ring. }
  split.
  - rewrite map_app, Rs, A1, B1, hsum_app, plus_IZR. reflexivity.
  - rewrite Mo, hsum_app, plus_IZR. apply rabs_add; assumption.
  - rewrite Mo, hsum_app, plus_IZR. apply rabs_add; assumption.
  - assert (T : total_hits (e1 ++ e2) = total_hits e1 + total_hits e2).
    { unfold total_hits. induction e1 as [|x e1 IH]; cbn [app fold_right]; [reflexivity|]. clear - IH. 
      assert (G : forall a b, fold_right (fun e s => n_hits e + s) 0 (a ++ b) = fold_right (fun e s => n_hits e + s) 0 a + fold_right (fun e s => n_hits e + s) 0 b).
      { intros a b. induction a; cbn [app fold_right]; lia. }
      rewrite G. lia. }
    rewrite zlen_app, uncharged_app, T. lia.
Qed.
Lemma kept_perm evs a b : Permutation a b -> kept evs a -> kept evs b.
Proof.
  intros P [A1 A2 A3 A4].
  assert (L : zlen a = zlen b) by (unfold zlen; rewrite (Permutation_length P); reflexivity).
  split; rewrite <- ?(hsum_perm _ _ _ P), <- ?L, <- ?(uncharged_perm _ _ P); assumption.
Qed.

Lemma abs_kept n ext cfg o data q evs : (0 < n)%nat -> Forall hit_ok data -> Forall sensor_hit data -> zlen data <= 2 ^ 21 ->
  abs_fit n cfg o data = Ok q -> abs_get_events ext cfg (abs_set_method q MCentroid) data = Ok evs ->
  Forall sound evs /\ (rsum (map n_tot evs) <= IZR (hsum h_tot data))%R /\ total_hits evs <= zlen data /\
  (a_min cfg <= 1 -> kept evs data).
Proof.
  intros Hn Hd Hs Hl E G.
  destruct (C24_l n ext cfg o data q MCentroid _ Hn Hd E eq_refl) as (ls & k & El & Len & Hk & Ev).
  apply Ev in G.
  assert (P : Permutation (concat (clusters_of k ls data)) data).
  { apply clusters_perm; [apply seq_NoDup|exact Len|]. intros l I. apply in_seq. apply Hk in I. lia. }
  destruct (clusters_kept _ _ _ G) as (A & B & C & D).
  { apply Forall_forall. intros c I.
    assert (In' : incl c data).
    { intros h Ih. apply (Permutation_in h P). apply in_concat. exists c. auto. }
    unfold clusters_of in I. apply in_map_iff in I. destruct I as (l & <- & I). apply in_seq in I.
    pose proof (members_nonempty l ls data Len (proj2 (Hk l) ltac:(lia))) as M.
    split; [intros Z; rewrite Z, zlen_nil in M; lia|]. split.
    - rewrite Forall_forall in *. intros h Ih. apply Hs, In', Ih.
    - unfold zlen, members in *. rewrite map_length. pose proof (filter_shorter (fun p => Nat.eqb (fst p) l) (combine ls data)) as F.
      rewrite combine_length in F. lia. }
  assert (L : zlen (concat (clusters_of k ls data)) = zlen data) by (unfold zlen; rewrite (Permutation_length P); reflexivity).
  split; [exact A|]. split; [rewrite <- (hsum_perm _ _ _ P); exact B|]. split; [lia|]. intros M. apply (kept_perm _ _ _ P), D, M.
Qed.

Lemma C106_abs_l n ext cfg o data q evs : (0 < n)%nat -> Forall hit_ok data -> Forall sensor_hit data -> zlen data <= 2 ^ 21 ->
  abs_fit n cfg o data = Ok q -> abs_get_events ext cfg (abs_set_method q MCentroid) data = Ok evs ->
  Forall (fun e => is_finite (n_x e) && is_finite (n_y e) && is_finite (n_tot e) = true) evs /\
  (rsum (map n_tot evs) <= IZR (hsum h_tot data))%R /\ total_hits evs <= zlen data /\
  (a_min cfg <= 1 ->
     rsum (map n_tot evs) = IZR (hsum h_tot data) /\
     nearly (moment (map n_x evs) (map n_tot evs)) (IZR (hsum (fun h => h_x h * h_tot h) data)) /\
     nearly (moment (map n_y evs) (map n_tot evs)) (IZR (hsum (fun h => h_y h * h_tot h) data)) /\
     zlen data <= total_hits evs + uncharged data).
Proof.
  intros Hn Hd Hs Hl E G. destruct (abs_kept n ext cfg o data q evs Hn Hd Hs Hl E G) as (A & B & C & D).
  split; [|split; [exact B|split; [exact C|]]].
  - eapply Forall_impl; [|exact A]. intros e (F1 & F2 & _ & w & [F3 _] & _). rewrite F1, F2, F3. reflexivity.
  - intros M. destruct (D M) as [K1 K2 K3 K4]. auto.
Qed.

(** The columns. *)
Lemma rsum_int {A} (f : A -> f64) (g : A -> Z) l : Forall (fun a => is_int (f a) (g a)) l ->
  rsum (map f l) = IZR (fold_right (fun a s => g a + s) 0 l).
Proof.
  unfold rsum. induction 1 as [|a l [_ H] F IH]; cbn [map fold_right]; [reflexivity|]. rewrite IH, H, plus_IZR. reflexivity.
Qed.
Lemma hits_rsum hs : Forall sensor_hit hs -> rsum (map tot_ns hs) = (25 * IZR (hsum h_tot hs))%R.
Proof.
  intros F. unfold rsum, hsum. induction F as [|h hs H F IH]; cbn [map fold_right]; [ring|]. rewrite IH, plus_IZR.
  destruct H as (_ & _ & T & _).
  assert (I : is_int (tot_ns h) (h_tot h * 25)).
  { unfold tot_ns. apply is_int_mul; [apply is_int_of_Z; lia|apply is_int_of_Z; lia|lia]. }
  destruct I as [_ ->]. rewrite mult_IZR. ring.
Qed.
Lemma hits_moment (c : hit -> Z) hs : Forall sensor_hit hs -> Forall (fun h => Z.abs (c h) <= 2 ^ 53) hs ->
  moment (map (fun h => f_of_Z (c h)) hs) (map tot_ns hs) = (25 * IZR (hsum (fun h => (c h * h_tot h)%Z) hs))%R.
Proof.
  intros F G. induction F as [|h hs H F IH]; inversion G as [|? ? G1 G2]; subst; cbn [map]; [unfold moment, hsum; cbn; ring|].
  rewrite moment_cons, IH by assumption. cbn [hsum fold_right]. fold (hsum (fun h => c h * h_tot h) hs). rewrite plus_IZR, mult_IZR.
  destruct H as (_ & _ & T & _).
  assert (I : is_int (tot_ns h) (h_tot h * 25)).
  { unfold tot_ns. apply is_int_mul; [apply is_int_of_Z; lia|apply is_int_of_Z; lia|lia]. }
  destruct I as [_ ->]. destruct (is_int_of_Z (c h) G1) as [_ ->]. rewrite mult_IZR. ring.
Qed.
Lemma zeros_uncharged hs : Forall sensor_hit hs -> zeros (map tot_ns hs) = uncharged hs.
Proof.
  unfold zeros, uncharged. induction 1 as [|h hs (_ & _ & T & _) F IH]; cbn [map filter]; [reflexivity|].
  assert (I : is_int (tot_ns h) (h_tot h * 25)).
  { unfold tot_ns. apply is_int_mul; [apply is_int_of_Z; lia|apply is_int_of_Z; lia|lia]. }
  rewrite (is_int_fle _ _ _ _ I zero_int). change (fge (tot_ns h) (f_of_Z 0)) with (fle (f_of_Z 0) (tot_ns h)).
  rewrite (is_int_fle _ _ _ _ zero_int I).
  destruct (Z.eqb_spec (h_tot h) 0) as [->|N]; [change ((0 * 25 <=? 0) && (0 <=? 0 * 25)) with true; cbv iota; rewrite !zlen_cons, IH; reflexivity|].
  destruct (Z.leb_spec (h_tot h * 25) 0) as [L|L]; [lia|]. cbn [andb]. exact IH.
Qed.
Lemma sound_tot e : sound e -> is_finite (n_tot_ns e) = true /\ B2R (n_tot_ns e) = (25 * B2R (n_tot e))%R.
Proof.
  intros (_ & _ & _ & w & [F B] & W). assert (I : is_int (n_tot_ns e) (w * 25)).
  { unfold n_tot_ns. apply is_int_mul; [split; assumption|apply is_int_of_Z; lia|lia]. }
  destruct I as [I1 I2]. split; [exact I1|]. rewrite I2, B, mult_IZR. ring.
Qed.
Lemma events_rsum ns : Forall sound ns -> rsum (map n_tot_ns ns) = (25 * rsum (map n_tot ns))%R.
Proof.
  unfold rsum. induction 1 as [|e ns H F IH]; cbn [map fold_right]; [ring|]. rewrite IH. destruct (sound_tot e H) as [_ ->]. ring.
Qed.
Lemma events_moment (c : neutron -> f64) ns : Forall sound ns ->
  moment (map c ns) (map n_tot_ns ns) = (25 * moment (map c ns) (map n_tot ns))%R.
Proof.
  induction 1 as [|e ns H F IH]; cbn [map]; [unfold moment; cbn; ring|]. rewrite !moment_cons, IH. destruct (sound_tot e H) as [_ ->]. ring.
Qed.
Lemma events_count ns : Forall sound ns -> rsum (map (fun e => f_of_Z (n_hits e)) ns) = IZR (total_hits ns).
Proof.
  intros F. unfold total_hits. apply rsum_int. eapply Forall_impl; [|exact F]. intros e (_ & _ & N & _). apply is_int_of_Z. lia.
Qed.

Lemma all_kept ext cfg hss nss : Forall2 (neutrons_of ext cfg) hss nss -> Forall (fun hs => zlen hs <= 2 ^ 21 /\ Forall fine hs) hss ->
  Forall sound (concat nss) /\ (rsum (map n_tot (concat nss)) <= IZR (hsum h_tot (concat hss)))%R /\
  total_hits (concat nss) <= zlen (concat hss) /\ (a_min cfg <= 1 -> kept (concat nss) (concat hss)).
Proof.
  induction 1 as [|hs ns hss nss (q & F & G) H IH]; intros A.
  - split; [constructor|]. split; [apply Rle_refl|]. split; [reflexivity|]. intros _.
    split; cbn; rewrite ?Rminus_0_r, ?Rabs_R0, ?Rmult_0_r; try apply Rle_refl; try reflexivity; lia.
  - inversion A as [|? ? (L & B) A']; subst. destruct (IH A') as (I1 & I2 & I3 & I4).
    destruct (abs_kept 8 ext cfg abs_new hs q ns ltac:(lia)) as (K1 & K2 & K3 & K4); try assumption.
    { eapply Forall_impl; [|exact B]. intros h Hh. apply Hh. }
    { eapply Forall_impl; [|exact B]. intros h Hh. apply Hh. }
    cbn [concat]. split; [apply Forall_app; auto|].
    assert (Rs : forall a b, rsum (a ++ b) = (rsum a + rsum b)%R).
    { intros a b. unfold rsum. induction a as [|x a IHa]; cbn [app fold_right]; [ring|]. rewrite IHa. ring. }
    split; [rewrite map_app, Rs, hsum_app, plus_IZR; lra|].
    assert (T : total_hits (ns ++ concat nss) = total_hits ns + total_hits (concat nss)).
    { unfold total_hits. generalize (concat nss) as b. intros b. clear. induction ns; cbn [app fold_right]; lia. }
    split; [rewrite T, zlen_app; lia|]. intros M. apply kept_app; auto.
Qed.

Lemma map_some_fields {A B} (f : A -> B) : forall l c, map Some c = map (fun a => Some (f a)) l -> c = map f l.
Proof.
  induction l as [|a l IH]; intros [|x c] E; try discriminate; [reflexivity|]. cbn [map] in *.
  assert (E1 : Some x = Some (f a)) by congruence. assert (E2 : map Some c = map (fun a => Some (f a)) l) by congruence.
  rewrite (IH c E2). congruence.
Qed.

Lemma C106_program_l ext o cfg ds s d d' : completed ext o cfg ds s d d' -> o_hits o <> ""%string -> o_events o <> ""%string ->
  (timing_of o = GDC_mode -> forall hss s', processed GDC_mode ts0 ds hss s' -> Forall (fun h => h_spider h < 2 ^ 48) (concat hss)) ->
  exists fh fe, d_h5 d' (o_hits o) = Some fh /\ d_h5 d' (o_events o) = Some fe /\
    let h := col fh "hits" in let e := col fe "neutrons" in
    Forall (fun v => is_finite v = true) (e "x"%string ++ e "y"%string ++ e "tot_ns"%string) /\
    (rsum (e "tot_ns"%string) <= rsum (h "tot_ns"%string))%R /\ (rsum (e "nHits"%string) <= IZR (zlen (h "x"%string)))%R /\
    (a_min (g_abs cfg) <= 1 ->
       rsum (e "tot_ns"%string) = rsum (h "tot_ns"%string) /\
       nearly (moment (e "x") (e "tot_ns"))%string (moment (h "x") (h "tot_ns"))%string /\
       nearly (moment (e "y") (e "tot_ns"))%string (moment (h "y") (h "tot_ns"))%string /\
       (IZR (zlen (h "x"%string)) <= rsum (e "nHits"%string) + IZR (zeros (h "tot_ns"%string)))%R).
Proof.
  intros (fu & w & ord & args & A1 & A2 & A3 & A4 & A5 & A6 & A7 & A8 & A9 & A10 & A11 & A12 & A13 & A14 & A15 & A16) Hh He Hg.
  destruct (C81_program_l fu ext w ord args d d' o cfg ds s) as (hss & nss & s' & P & N & Fh & Fe & _); try assumption.
  destruct (Fh Hh) as (fh & H1 & H2). destruct (Fe He) as (fe & E1 & E2). exists fh, fe. split; [exact H1|]. split; [exact E1|].
  assert (To : Forall (fun h => h_tof h <> None) (concat hss)).
  { pose proof (H2 _ _ HF_tof) as T. revert T. generalize (col fh "hits" "tof_ns") as c, (concat hss) as l. clear.
    intros c l. revert c. induction l as [|h l IH]; intros [|v c] T; try discriminate; constructor.
    - cbn [map] in T. unfold tof_ns in T. destruct (h_tof h); [discriminate|]. discriminate T.
    - apply (IH c). cbn [map] in T. congruence. }
  assert (Fi : Forall (fun hs => zlen hs <= 2 ^ 21 /\ Forall fine hs) hss).
  { eapply processed_facts; [exact A6|exact P|]. destruct (timing_of o) eqn:T.
    - specialize (Hg eq_refl hss s' P). eapply Forall_impl; [|exact Hg]. intros h B. split; [auto|discriminate].
    - eapply Forall_impl; [|exact To]. intros h B. split; [discriminate|auto]. }
  destruct (all_kept ext (g_abs cfg) hss nss N Fi) as (K1 & K2 & K3 & K4).
  assert (Se : Forall sensor_hit (concat hss)).
  { apply Forall_concat. eapply Forall_impl; [|exact Fi]. intros hs [_ B]. eapply Forall_impl; [|exact B]. intros h Q. apply Q. }
  cbv zeta.
  rewrite (map_some_fields _ _ _ (H2 _ _ HF_tot)), (map_some_fields _ _ _ (H2 _ _ HF_x)), (map_some_fields _ _ _ (H2 _ _ HF_y)).
  rewrite (E2 _ _ NF_x), (E2 _ _ NF_y), (E2 _ _ NF_tot), (E2 _ _ NF_n).
  rewrite (hits_rsum _ Se), (events_rsum _ K1), (events_count _ K1), (zeros_uncharged _ Se), !(events_moment _ _ K1).
  rewrite (hits_moment h_x _ Se), (hits_moment h_y _ Se) by (eapply Forall_impl; [|exact Se]; intros h (X & Y & _); lia).
  assert (Zl : zlen (map (fun h => f_of_Z (h_x h)) (concat hss)) = zlen (concat hss)) by (unfold zlen; rewrite map_length; reflexivity).
  rewrite Zl. split.
  - rewrite !Forall_app, !Forall_map. split; [|split]; (eapply Forall_impl; [|exact K1]); intros e S; [apply S|apply S|]. apply (sound_tot e S).
  - split; [lra|]. split; [apply IZR_le; exact K3|]. intros M. destruct (K4 M) as [Q1 Q2 Q3 Q4].
    assert (Sc : forall a b, (Rabs (a - b) <= bpow radix2 (-51) * b)%R -> nearly (25 * a) (25 * b)).
    { intros a b Q. unfold nearly. replace (25 * a - 25 * b)%R with (25 * (a - b))%R by ring. rewrite Rabs_mult, (Rabs_pos_eq 25) by lra. lra. }
    split; [rewrite Q1; reflexivity|]. split; [apply Sc; exact Q2|]. split; [apply Sc; exact Q3|].
    rewrite <- plus_IZR. apply IZR_le. exact Q4.
Qed.
