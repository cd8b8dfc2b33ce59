(** Proofs about the times in the text of a spectrum. *)
From Coq Require Import Reals Sorted Lia Lra.
From Flocq Require Import Core.
From Verif Require Import F64Facts S_Config P_Bins.
From Verif Require Export P_Text.
Local Open Scope Z_scope.
Local Open Scope list_scope.

Lemma sorted_nth {A} (R : A -> A -> Prop) l :
  (forall i j a b, (i < j)%nat -> nth_error l i = Some a -> nth_error l j = Some b -> R a b) -> StronglySorted R l.
Proof.
  induction l as [|a l IH]; intros H; [constructor|]. constructor.
  - apply IH. intros i j b c L I J. apply (H (S i) (S j) b c); [lia|exact I|exact J].
  - apply Forall_forall. intros b I. apply In_nth_error in I. destruct I as (j & J). apply (H O (S j) a b); [lia|reflexivity|exact J].
Qed.

Lemma evenly_apart max n edges : 1 <= n <= 99999 -> (0 < B2R max)%R -> divides_evenly max n edges ->
  StronglySorted apart edges.
Proof.
  intros Hn Hm (Len & Nth). apply sorted_nth. intros i j a b L I J.
  assert (Bj : (j < length edges)%nat) by (apply nth_error_Some; congruence).
  destruct (Nth i a I) as [_ Ea]. destruct (Nth j b J) as [_ Eb]. rewrite Len in Bj.
  assert (Pn : (1 <= IZR n)%R) by (apply IZR_le; lia).
  set (T := (B2R max / IZR n)%R). assert (PT : (0 < T)%R) by (apply Rdiv_lt_0_compat; lra).
  replace (B2R max * INR i / IZR n)%R with (INR i * T)%R in Ea by (unfold T; field; lra).
  replace (B2R max * INR j / IZR n)%R with (INR j * T)%R in Eb by (unfold T; field; lra).
  assert (Hij : (INR i + 1 <= INR j)%R) by (rewrite <- S_INR; apply le_INR; lia).
  assert (Hj : (INR j <= 99999)%R) by (rewrite INR_IZR_INZ; apply IZR_le; lia).
  assert (H0 : (0 <= INR i)%R) by apply pos_INR.
  set (u := INR i) in *. set (v := INR j) in *. clearbody u v T. apply Rabs_le_inv in Ea, Eb.
  set (dl := (/ 2 ^ 51)%R) in *. assert (D : (0 < dl < / 10 ^ 12)%R) by (unfold dl; split; [apply Rinv_0_lt_compat; lra|]; apply Rinv_lt_contravar; lra).
  clearbody dl. unfold apart. split; [nra|].
  assert (A : (B2R a <= u * T * (1 + dl))%R) by lra. assert (B : (v * T * (1 - dl) <= B2R b)%R) by lra.
  eapply Rle_lt_trans; [exact A|]. eapply Rlt_le_trans with (v * T * (1 - dl) * (1 - / 10 ^ 5))%R; [|apply Rmult_le_compat_r; lra].
  replace (u * T * (1 + dl))%R with (T * (u * (1 + dl)))%R by ring.
  replace (v * T * (1 - dl) * (1 - / 10 ^ 5))%R with (T * (v * ((1 - dl) * (1 - / 10 ^ 5))))%R by ring.
  apply Rmult_lt_compat_l; [exact PT|]. nra.
Qed.

Lemma sorted_tl {A} (R : A -> A -> Prop) l : StronglySorted R l -> StronglySorted R (tl l).
Proof. intros H. destruct H; [constructor|assumption]. Qed.

Lemma C89_times_l n max edges ims rows : 1 <= n <= 99999 -> is_finite max = true ->
  (bpow radix2 (-900) <= B2R max <= bpow radix2 900)%R ->
  get_bin_edges (Binning (Some n) (Some max) []) = Ok edges ->
  write_spectral edges (spectral_counts ims) = Ok rows ->
  exists h ls times, text_lines (bytes (spectrum_text rows)) = Some (h :: ls) /\ length ls = Z.to_nat n /\
    map read_time ls = map Some times /\ StronglySorted (fun a b => (worth a < worth b)%R) times.
Proof.
  intros Hn F B HE HW. destruct (C41_uniform_l n max ltac:(lia) F B) as (edges' & e0 & E & (_ & Fin & _) & Div & _).
  assert (edges' = edges) by congruence. subst edges'.
  assert (Pm : (0 < B2R max)%R) by (pose proof (bpow_gt_0 radix2 (-900)); lra).
  pose proof (evenly_apart max n edges Hn Pm Div) as S.
  destruct edges as [|e edges]; [discriminate|]. cbn [write_spectral] in HW.
  pose proof (spectral_rows_nth _ _ _ HW) as M.
  assert (OK : Forall (fun r => is_finite (fst r) = true /\ 0 <= snd r) rows).
  { apply Forall_forall. intros r I. inversion Fin as [|? ? _ F']; subst. rewrite Forall_forall in F'.
    destruct (spectral_rows_in _ _ _ HW r I) as [A C]. split; [apply F'; exact A|].
    apply in_map_iff in C. destruct C as (im & Ei & _). pose proof (spectral_count_range im) as Q. rewrite Ei in Q. exact Q. }
  apply sorted_tl in S. cbn [tl] in S. rewrite <- M in S. destruct (times_sorted rows OK S) as (ts & T & _ & Q).
  exists (bytes "shutter_time,counts"), (map row_bytes rows), ts.
  split; [apply spectrum_lines; eapply Forall_impl; [|exact OK]; intros r [_ A]; exact A|].
  split; [|split; [exact T|exact Q]]. destruct Div as [Len _]. rewrite map_length. apply (f_equal (@length f64)) in M. rewrite map_length in M.
  cbn [length] in Len. lia.
Qed.

Lemma C89_number_l v : is_finite v = true -> exists q,
  decimal (bytes (show6 v)) = Some q /\ nearest6 (B2R v) q /\
  (Rabs (B2R v - worth q) <= 5 / 10 ^ 6 * Rabs (B2R v))%R.
Proof. intros F. destruct (show_known v F) as (q & E & A & B & _). exists q. repeat split; try assumption; apply B. Qed.

Lemma C89_ties_l v e k (s : bool) : is_finite v = true -> 10 ^ 5 <= e < 10 ^ 6 ->
  B2R v = ((if s then -1 else 1) * (IZR e + / 2) * powerRZ 10 k)%R ->
  exists q, decimal (bytes (show6 v)) = Some q /\
    worth q = ((if s then -1 else 1) * IZR (if Z.even e then e else e + 1) * powerRZ 10 k)%R.
Proof. intros F He Hv. destruct (show_known v F) as (q & E & _ & _ & T). exists q. split; [exact E|]. exact (T e k s He Hv). Qed.

Lemma nth_uniform max n i : 0 <= n < 2 ^ 31 - 1 -> (i <= Z.to_nat n)%nat ->
  exists edges, get_bin_edges (Binning (Some n) (Some max) []) = Ok edges /\
    forall j, (j <= i)%nat -> nth_error edges j = Some (uniform_edge max n (Z.of_nat j)).
Proof.
  intros Hn Hi. exists (map (fun i => uniform_edge max n (Z.of_nat i)) (seq 0 (Z.to_nat (n + 1)))). split.
  - unfold get_bin_edges. cbn [tb_custom tb_bins tb_max]. destruct (Z.eqb_spec n int_max) as [E|_]; [unfold int_max in E; lia|].
    destruct (Z.ltb_spec (n + 1) 0); [lia|reflexivity].
  - intros j Hj. rewrite nth_error_map.
    assert (E : nth_error (seq 0 (Z.to_nat (n + 1))) j = Some j).
    { rewrite nth_error_nth' with (d := O) by (rewrite seq_length; lia). rewrite seq_nth by lia. reflexivity. }
    rewrite E. reflexivity.
Qed.
Lemma C89_times_refuted_l : exists n max edges i a b, is_finite max = true /\
  get_bin_edges (Binning (Some n) (Some max) []) = Ok edges /\
  nth_error edges i = Some a /\ nth_error edges (S i) = Some b /\ flt a b = true /\ show6 a = show6 b.
Proof.
  destruct (nth_uniform (f_of_Z 2) 1000000 (Z.to_nat 500001)) as (edges & E & N); [lia|lia|].
  exists 1000000, (f_of_Z 2), edges, (Z.to_nat 500000), (uniform_edge (f_of_Z 2) 1000000 500000), (uniform_edge (f_of_Z 2) 1000000 500001).
  split; [vm_compute; reflexivity|]. split; [exact E|].
  split; [etransitivity; [apply N; lia|]; rewrite Z2Nat.id by lia; reflexivity|].
  split; [replace (S (Z.to_nat 500000)) with (Z.to_nat 500001) by lia; etransitivity; [apply N; lia|]; rewrite Z2Nat.id by lia; reflexivity|].
  split; vm_compute; reflexivity.
Qed.

Lemma C89_csv_l opens d name evs d' : evs <> [] -> save_csv show6 opens d name evs = (true, d') ->
  Forall (fun n => is_finite (n_x n) = true /\ is_finite (n_y n) = true /\ is_finite (n_tof_ns n) = true /\
                   is_finite (n_tot n) = true /\ 0 <= n_hits n) evs ->
  exists t, events_file evs (bytes t) /\ (forall other, other <> name -> d' other = d other) /\
    d' name = Some (match d name with Some f => MFile (mf_h5 f) (mf_text f ++ t) | None => MFile None t end).
Proof.
  intros N H F. exists (events_text evs). split; [apply C89_events_l; exact F|].
  unfold save_csv in H. destruct evs as [|e evs]; [contradiction|]. destruct (opens name); [|discriminate].
  injection H as <-. unfold mput. split.
  - intros other O. destruct (String.eqb_spec other name); [contradiction|reflexivity].
  - rewrite String.eqb_refl. destruct (d name); reflexivity.
Qed.

Lemma C89_csv_refuted_l : exists a b, n_x a = n_x b /\ n_y a = n_y b /\ flt (n_tof a) (n_tof b) = true /\
  is_finite (n_tof_ns a) = true /\ is_finite (n_tof_ns b) = true /\ csv_line show6 a = csv_line show6 b.
Proof.
  exists (Neutron (f_of_Z 1) (f_of_Z 1) (f_of_Z 666667) (f_of_Z 4) 1), (Neutron (f_of_Z 1) (f_of_Z 1) (f_of_Z 666668) (f_of_Z 4) 1).
  split; [reflexivity|]. split; [reflexivity|]. repeat split; vm_compute; reflexivity.
Qed.

Lemma C89_special_l v : is_finite v = false -> decimal (bytes (show6 v)) = None /\
  (is_nan v = true -> show6 v = "nan"%string) /\
  (is_nan v = false -> show6 v = (if Bsign v then "-inf" else "inf")%string).
Proof. destruct v as [s|[]| |]; try discriminate; intros _; (split; [vm_compute; reflexivity|split; [try discriminate; reflexivity|try discriminate; reflexivity]]). Qed.
