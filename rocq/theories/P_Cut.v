(** Proofs for C113: recordings cut short. *)
From Coq Require Import Reals String Permutation.
From Verif Require Import P_Tof P_Main P_Program P_CliRun P_Append P_Reduce P_Same P_AbsProps P_Core P_Motion P_Damage P_Cli P_Payload P_Stream.
From Verif Require Export S_Cut.
From Coq Require Import Lia ZifyBool Zify.
Ltac Zify.zify_post_hook ::= Z.to_euclidean_division_equations.
Local Open Scope Z_scope.
Local Open Scope list_scope.

(** * Where the cut is *)

Lemma cut_place ds : forall n, (length (stream ds) <= n)%nat \/
  exists ds1 d ds2 r, ds = ds1 ++ d :: ds2 /\ n = (length (stream ds1) + r)%nat /\ (r < length (dataset_bytes d))%nat /\
    firstn n (stream ds) = stream ds1 ++ firstn r (dataset_bytes d).
Proof.
  induction ds as [|d ds IH]; intros n; [left; cbn; lia|]. change (stream (d :: ds)) with (dataset_bytes d ++ stream ds). rewrite app_length.
  destruct (Nat.lt_ge_cases n (length (dataset_bytes d))) as [L|L].
  - right. exists [], d, ds, n. split; [reflexivity|]. split; [reflexivity|]. split; [exact L|]. cbn [stream flat_map app].
    rewrite firstn_app. replace (n - length (dataset_bytes d))%nat with 0%nat by lia. cbn [firstn]. apply app_nil_r.
  - destruct (IH (n - length (dataset_bytes d))%nat) as [G|(ds1 & d' & ds2 & r & -> & E & R & F)]; [left; lia|]. right.
    exists (d :: ds1), d', ds2, r. split; [reflexivity|]. change (stream (d :: ds1)) with (dataset_bytes d ++ stream ds1). rewrite app_length.
    split; [lia|]. split; [exact R|]. rewrite firstn_app, firstn_all2 by lia. rewrite F, <- app_assoc. reflexivity.
Qed.

Lemma bytes_len d : length (dataset_bytes d) = (8 + 8 * length (d_payload d))%nat.
Proof.
  rewrite dataset_bytes_eq. pose proof (flat_aligned (ds_packets d)) as E. unfold zlen, ds_packets in E. cbn [length] in E. unfold ds_packets. lia.
Qed.

(** * The packets of the last piece *)

Lemma payload_none m n : forall iter, zlen m mod 8 <> 0 -> iter mod 8 = 0 -> 0 <= iter -> iter + 8 < zlen m -> zlen m < iter + 8 + 8 * Z.of_nat n ->
  payload m (zlen m) n iter = None.
Proof.
  induction n as [|n IH]; intros iter U A P L G; [lia|]. cbn [payload]. destruct (Z.geb_spec (iter + 8) (zlen m)); [lia|].
  destruct (read_packet m (iter + 8)) as [p|] eqn:R; [|reflexivity]. apply read_packet_at in R; [|lia].
  destruct R as (a & b & E & La). apply (f_equal (@zlen Z)) in E. rewrite !zlen_app in E. unfold zlen at 3 in E. rewrite packet_bytes_length in E.
  pose proof (zlen_nonneg b). rewrite IH; [reflexivity|exact U|lia|lia|lia|lia].
Qed.

Lemma short_items m : (length m < 8)%nat -> chunk_items m = Some [].
Proof. intros L. unfold chunk_items, find_headers. rewrite find_from_p, packets_short by exact L. reflexivity. Qed.

Lemma piece_items d k : dataset_ok d -> no_false_header d -> (k <= length (d_payload d))%nat ->
  chunk_items (firstn (8 + 8 * k) (dataset_bytes d)) = Some (map ds_item [shorten k d]).
Proof.
  intros Od Nd Hk. rewrite dataset_bytes_eq. replace (8 + 8 * k)%nat with (8 * S k)%nat by lia. rewrite firstn_bytes. unfold ds_packets. cbn [firstn].
  rewrite chunk_items_aligned by (rewrite flat_aligned; lia). rewrite packets_flat. f_equal.
  rewrite items_cons, header_is, ds_num by exact Od.
  rewrite <- (app_nil_r (firstn k (d_payload d))) at 2. rewrite items_plain by (apply shorten_plain; exact Nd). cbn. f_equal. unfold ds_item. f_equal.
  cbn [shorten d_payload]. apply firstn_all2. rewrite firstn_length. lia.
Qed.

Lemma broken_items d j : dataset_ok d -> 0 < Z.of_nat j < 8 * zlen (d_payload d) -> Z.of_nat j mod 8 <> 0 ->
  chunk_items (firstn (8 + j) (dataset_bytes d)) = None.
Proof.
  intros Od Hj Hm. set (m := firstn (8 + j) (dataset_bytes d)).
  assert (Lm : zlen m = 8 + Z.of_nat j).
  { unfold m, zlen in *. rewrite firstn_length, bytes_len. lia. }
  assert (Pm : exists rest, packets m = ds_header d :: rest).
  { exists (packets (firstn j (flat_map packet_bytes (d_payload d)))). unfold m. rewrite dataset_bytes_eq. unfold ds_packets. cbn [flat_map].
    rewrite firstn_app, packet_bytes_length, firstn_all2 by (rewrite packet_bytes_length; lia).
    replace (8 + j - 8)%nat with j by lia. apply packets_bytes. }
  destruct Pm as (rest & Pm). unfold chunk_items, find_headers. rewrite find_from_p, Pm. cbn [find_p]. rewrite header_is. cbn [items_of].
  unfold batch_payload. change (Z.to_nat (t_num (header_batch 0 (ds_header d)))) with (num_of (ds_header d)). rewrite ds_num by exact Od.
  change (t_index (header_batch 0 (ds_header d))) with 0.
  rewrite payload_none; [reflexivity|rewrite Lm; lia|reflexivity|lia|lia|]. rewrite Lm. unfold zlen in Hj. lia.
Qed.

Lemma stream_app_ a b : stream (a ++ b) = stream a ++ stream b.
Proof. apply flat_map_app. Qed.
Lemma stream_contained ds : Forall dataset_ok ds -> Forall no_false_header ds -> contained (stream ds).
Proof.
  intros Ho Hn off p H. set (e := DS 0 0 0 []).
  assert (Oe : Forall dataset_ok (ds ++ [e])).
  { apply Forall_app. split; [exact Ho|]. constructor; [|constructor]. unfold dataset_ok, is_byte, zlen. cbn. repeat split; try lia; constructor. }
  assert (Ne : Forall no_false_header (ds ++ [e])) by (apply Forall_app; split; [exact Hn|repeat constructor]).
  pose proof (header_at_app_r (stream ds) (stream [e]) 0 _ (stream_aligned _) (header_of_stream e [])) as H'.
  rewrite <- stream_app_, Z.add_0_r in H'. pose proof (header_at_app_l (stream ds) (stream [e]) off p H) as H1. rewrite <- stream_app_ in H1.
  apply (stream_disjoint _ Oe Ne off p _ _ H1 H'). destruct H as (_ & P & _). apply packet_at_bounds in P. lia.
Qed.

Lemma cut_items ds1 m : Forall dataset_ok ds1 -> Forall no_false_header ds1 ->
  chunk_items (stream ds1 ++ m) = option_map (app (map ds_item ds1)) (chunk_items m).
Proof.
  intros O N. rewrite chunk_items_app; [|apply stream_ok; exact O|apply stream_aligned|apply stream_contained; assumption].
  do 2 f_equal. rewrite packets_stream. apply items_ds0; assumption.
Qed.

(** * The loop over the chunks *)

Lemma loop_single ext cfg md hm size m fuel st st' : bytes_ok m -> zlen m <= size -> (length m <= fuel)%nat ->
  (chunk_loop fuel ext cfg md hm size (Reader m 0) st = Ok st' <-> run_chunk ext cfg md hm st m = Ok (st', None)).
Proof.
  intros Hb L Hf. destruct m as [|b m'] eqn:Em.
  { assert (E : chunk_loop fuel ext cfg md hm size (Reader [] 0) st = Ok st) by (destruct fuel; reflexivity).
    rewrite E, run_nil. split; intros X; injection X as ->; reflexivity. }
  assert (Z0 : 0 < zlen m) by (subst m; rewrite zlen_cons; pose proof (zlen_nonneg m'); lia). rewrite <- Em in *. clear b m' Em.
  destruct fuel as [|fuel]; [unfold zlen in Z0; lia|]. cbn [chunk_loop].
  unfold is_eof. cbn [r_pos r_map]. destruct (Z.geb_spec 0 (zlen m)); [lia|].
  unfold read_chunk. cbn [r_pos r_map]. destruct (Z.geb_spec 0 (zlen m)); [lia|].
  rewrite Z.min_r by lia. rewrite Z.sub_0_r. change (skipn (Z.to_nat 0) m) with m.
  replace (firstn (Z.to_nat (zlen m)) m) with m by (symmetry; unfold zlen; rewrite Nat2Z.id; apply firstn_all).
  destruct m as [|c m1] eqn:E1; [unfold zlen in Z0; cbn in Z0; lia|]. rewrite <- E1 in *. clear E1.
  destruct (run_chunk ext cfg md hm st m) as [[st1 e]| | |] eqn:R; cbn [obind]; try (split; discriminate).
  assert (e = None) as -> by (apply run_chunk_items in R; [tauto|exact Hb]).
  assert (E : chunk_loop fuel ext cfg md hm size (Reader m (0 + zlen m)) st1 = Ok st1).
  { destruct fuel; cbn [chunk_loop]; unfold is_eof; cbn [r_pos r_map];
      (destruct (Z.geb_spec (0 + zlen m) (zlen m)); [reflexivity|lia]). }
  rewrite E. split; intros X; [apply Ok_inj in X|injection X as X]; subst; reflexivity.
Qed.

Lemma loop_cut ext cfg md hm size ds n fuel st st' : Forall dataset_ok ds -> Forall no_false_header ds ->
  0 < size -> cuts_at_datasets size ds -> (length (stream ds) <= fuel)%nat ->
  (chunk_loop fuel ext cfg md hm size (Reader (firstn n (stream ds)) 0) st = Ok st' <->
   run_chunk ext cfg md hm st (firstn n (stream ds)) = Ok (st', None)).
Proof.
  intros Ho Hn Hs Hc Hf.
  assert (Hb : bytes_ok (firstn n (stream ds))) by (apply Forall_firstn', stream_ok; exact Ho).
  assert (Lm : (length (firstn n (stream ds)) <= length (stream ds))%nat) by (rewrite firstn_length; lia).
  destruct (Z_lt_le_dec size (zlen (firstn n (stream ds)))) as [L|L].
  - assert (A : size mod 8 = 0).
    { destruct (Hc 1 ltac:(unfold zlen in *; lia)) as (j & E). rewrite Z.mul_1_l in E. rewrite E. apply stream_aligned. }
    apply (chunk_loop_clean ext cfg md hm size (firstn n (stream ds)) Hs A Hb fuel 0); [lia|change (skipn (Z.to_nat 0) (firstn n (stream ds))) with (firstn n (stream ds)); lia|].
    change (skipn (Z.to_nat 0) (firstn n (stream ds))) with (firstn n (stream ds)). intros off p k H B.
    apply (header_at_app_l _ (skipn n (stream ds))) in H. rewrite firstn_skipn in H.
    apply (cuts_clean size ds Ho Hn Hs Hc off p k H). unfold zlen in *. lia.
  - apply loop_single; [exact Hb|exact L|lia].
Qed.

Lemma left_ok ds ds' : left_of ds ds' -> Forall dataset_ok ds -> Forall no_false_header ds -> Forall dataset_ok ds' /\ Forall no_false_header ds'.
Proof.
  intros [l|ds1 ds2 _|ds1 d ds2 k Hk] O N; [auto| |]; apply Forall_app in O; apply Forall_app in N; [tauto|].
  destruct O as [O1 O2]. destruct N as [N1 N2]. inversion O2; inversion N2; subst. split; apply Forall_app; split; try assumption; apply Forall_cons; try apply Forall_nil.
  - apply shorten_ok. assumption.
  - apply shorten_plain. assumption.
Qed.

Lemma stream_firstn_le ds j : (length (stream (firstn j ds)) <= length (stream ds))%nat.
Proof. rewrite <- (firstn_skipn j ds) at 2. rewrite stream_app_, app_length. lia. Qed.
Lemma shorten_len k d : (k <= length (d_payload d))%nat -> (length (dataset_bytes (shorten k d)) = 8 + 8 * k)%nat.
Proof. intros H. rewrite bytes_len. cbn [shorten d_payload]. rewrite firstn_length. lia. Qed.

Lemma left_cuts size ds ds' : left_of ds ds' -> cuts_at_datasets size ds -> cuts_at_datasets size ds' /\ (length (stream ds') <= length (stream ds))%nat.
Proof.
  intros L C.
  assert (X : forall ds1 ds2, cuts_at_datasets size (ds1 ++ ds2) -> forall k, 0 < k * size -> k * size < zlen (stream ds1) -> exists j, (j <= length ds1)%nat /\ k * size = zlen (stream (firstn j ds1))).
  { intros ds1 ds2 Cc k P B. destruct (Cc k) as (j & E); [rewrite stream_app_, zlen_app; pose proof (zlen_nonneg (stream ds2)); lia|].
    destruct (Nat.le_gt_cases j (length ds1)) as [G|G].
    - exists j. split; [exact G|]. rewrite E, firstn_app. replace (j - length ds1)%nat with 0%nat by lia. cbn [firstn]. rewrite app_nil_r. reflexivity.
    - rewrite firstn_app, firstn_all2, stream_app_, zlen_app in E by lia. pose proof (zlen_nonneg (stream (firstn (j - length ds1) ds2))). lia. }
  destruct L as [l|ds1 ds2 _|ds1 d ds2 k Hk]; [auto| |].
  - split; [|rewrite stream_app_, app_length; lia]. intros k B. destruct (X ds1 ds2 C k) as (j & _ & E); [lia|lia|]. exists j. exact E.
  - assert (Ls : (length (stream (ds1 ++ [shorten k d])) <= length (stream (ds1 ++ [d])))%nat).
    { rewrite !stream_app_, !app_length. cbn [stream flat_map]. rewrite !app_length, shorten_len, bytes_len by exact Hk. cbn. lia. }
    split.
    + intros q B. change (ds1 ++ d :: ds2) with (ds1 ++ [d] ++ ds2) in C. rewrite app_assoc in C.
      destruct (X (ds1 ++ [d]) ds2 C q) as (j & Lj & E); [lia|unfold zlen in *; lia|].
      destruct (Nat.le_gt_cases j (length ds1)) as [G|G].
      * exists j. rewrite E, !firstn_app. replace (j - length ds1)%nat with 0%nat by lia. reflexivity.
      * rewrite app_length in Lj. cbn in Lj. rewrite firstn_all2 in E by (rewrite app_length; cbn; lia). unfold zlen in *. lia.
    + change (ds1 ++ d :: ds2) with (ds1 ++ [d] ++ ds2). rewrite app_assoc, (stream_app_ (ds1 ++ [d])), app_length. lia.
Qed.

(** What a file of at least 8 bytes, cut anywhere, is read as. *)
Lemma cut_read ds n : Forall dataset_ok ds -> Forall no_false_header ds -> (8 <= n)%nat ->
  (ends_in_packet ds n /\ chunk_items (firstn n (stream ds)) = None) \/
  exists ds', left_of ds ds' /\ (ds <> [] -> ds' <> []) /\ chunk_items (firstn n (stream ds)) = chunk_items (stream ds').
Proof.
  intros O N H8. destruct (cut_place ds n) as [G|(ds1 & d & ds2 & r & -> & E & R & F)].
  { right. exists ds. split; [constructor|]. split; [auto|]. rewrite firstn_all2 by exact G. reflexivity. }
  pose proof O as O'. pose proof N as N'. apply Forall_app in O', N'. destruct O' as [O1 O2]. destruct N' as [N1 N2].
  inversion O2 as [|? ? Od _]; inversion N2 as [|? ? Nd _]; subst. rewrite F, cut_items by assumption. rewrite bytes_len in R.
  destruct (Nat.lt_ge_cases r 8) as [Lr|Lr].
  - right. exists ds1. assert (Ne : ds1 <> []) by (intros ->; cbn in H8; lia). split; [constructor; exact Ne|]. split; [auto|].
    rewrite short_items by (rewrite firstn_length; lia). cbn [option_map]. rewrite app_nil_r, stream_items by assumption. reflexivity.
  - destruct (Z.eq_dec (Z.of_nat (r - 8) mod 8) 0) as [M|M].
    + right. set (k := ((r - 8) / 8)%nat). assert (Ek : r = (8 + 8 * k)%nat).
      { unfold k. assert (Q : ((r - 8) mod 8 = 0)%nat) by lia. pose proof (Nat.div_mod (r - 8) 8 ltac:(lia)). lia. }
      exists (ds1 ++ [shorten k d]). split; [constructor; lia|]. split; [intros _; destruct ds1; discriminate|].
      rewrite Ek, piece_items by (assumption || lia). cbn [option_map]. rewrite <- map_app. symmetry. apply stream_items.
      * apply Forall_app. split; [exact O1|]. constructor; [apply shorten_ok; exact Od|constructor].
      * apply Forall_app. split; [exact N1|]. constructor; [apply shorten_plain; exact Nd|constructor].
    + left. split.
      * exists ds1, d, ds2, (r - 8)%nat. split; [reflexivity|]. split; [lia|]. split; [unfold zlen; lia|exact M].
      * replace r with (8 + (r - 8))%nat by lia. rewrite broken_items; [reflexivity|exact Od|unfold zlen; lia|exact M].
Qed.

Lemma run_chunk_ext ext cfg md hm st m m' st' : bytes_ok m -> bytes_ok m' -> chunk_items m = chunk_items m' ->
  (run_chunk ext cfg md hm st m = Ok (st', None) <-> run_chunk ext cfg md hm st m' = Ok (st', None)).
Proof. intros B B' E. rewrite !run_chunk_items, E by assumption. tauto. Qed.

(** * The program *)

Definition set_input (w : outside) (m : list Z) : outside :=
  Outside (env_stoull w) (env_double w) (env_json w) (env_config w) (fun _ => Some m) (env_creates w) (env_mkdir w) (env_writable w).

Lemma run_rest_exit fuel ext w order e o r d d' : run_rest fuel ext w order e o r d = Ok (Exit 0, d') ->
  exists edges ims st, set_up e o = Ok (edges, ims) /\
    chunk_loop fuel ext (Config (e_abs e) (e_sr e) edges) (if String.eqb (o_timing o) "gdc" then GDC_mode else TDC_mode)
      (String.eqb (o_mode o) "hit") (o_chunk o) r
      (Cli ts0 (if String.eqb (o_hits o) "" then None else Some []) (if String.eqb (o_events o) "" then None else Some []) ims 0 0) = Ok st.
Proof.
  unfold run_rest. destruct (set_up e o) as [[edges ims]| | |] eqn:S; cbn [catch]; try discriminate.
  destruct (chunk_loop _ _ _ _ _ _ _ _) as [st| | |] eqn:L; cbn [catch]; try discriminate. intros _. exists edges, ims, st. auto.
Qed.

(** Two inputs on which the loop over the chunks ends alike. *)
Lemma program_input fuel fuel' ext w order args d d' o m m' : understood w args o ->
  env_input w (o_input o) = Some m -> m <> [] -> m' <> [] ->
  (forall cfg md hm st st', chunk_loop fuel ext cfg md hm (o_chunk o) (Reader m 0) st = Ok st' ->
     chunk_loop fuel' ext cfg md hm (o_chunk o) (Reader m' 0) st = Ok st') ->
  program fuel ext w order args d = Ok (Exit 0, d') -> program fuel' ext (set_input w m') order args d = Ok (Exit 0, d').
Proof.
  intros U I Nm Nm' Lp. apply understood_parse in U. unfold program. cbn [set_input env_stoull env_input]. rewrite U. cbn [catch].
  change (load_prefs (set_input w m') (o_config o)) with (load_prefs w (o_config o)).
  destruct (load_prefs w (o_config o)) as [[e|]| | |]; cbn [catch]; try discriminate.
  rewrite I. destruct m as [|b m]; [congruence|]. destruct m' as [|b' m']; [congruence|]. cbn [open_reader catch].
  change (create (set_input w (b' :: m')) [] (o_hits o) d) with (create w [] (o_hits o) d).
  destruct (create w [] (o_hits o) d) as [d1|]; [|discriminate].
  change (create (set_input w (b' :: m')) (if String.eqb (o_hits o) "" then [] else [o_hits o]) (o_events o) d1)
    with (create w (if String.eqb (o_hits o) "" then [] else [o_hits o]) (o_events o) d1).
  destruct (create w _ (o_events o) d1) as [d2|]; [|discriminate].
  intros E. destruct (run_rest_exit _ _ _ _ _ _ _ _ _ E) as (edges & ims & st & S & L).
  revert E. unfold run_rest. rewrite S. cbn [catch]. rewrite L, (Lp _ _ _ _ _ L). cbn [catch]. auto.
Qed.

Lemma stream_ne ds : ds <> [] -> stream ds <> [].
Proof. destruct ds; [congruence|]. discriminate. Qed.

Lemma finished_completed ext o cfg ds n s d d' : (8 <= n)%nat -> finished ext o cfg ds n s d d' ->
  ~ ends_in_packet ds n /\ exists ds', left_of ds ds' /\ completed ext o cfg ds' s d d'.
Proof.
  intros H8 (fu & w & ord & args & A1 & A2 & A3 & A4 & A5 & A6 & A7 & A8 & A9 & A10 & A11 & A12 & A13 & A14 & A15 & A16).
  assert (Hb : bytes_ok (firstn n (stream ds))) by (apply Forall_firstn', stream_ok; exact A6).
  assert (Nm : firstn n (stream ds) <> []).
  { intros E. rewrite E in A5. destruct (exit_zero_main fu ext w ord args d d' o cfg A1 A3 A4 A16) as (st & M & _).
    rewrite A5 in M. rewrite C75_no_input_l in M by (right; reflexivity). discriminate. }
  assert (Nd : ds <> []) by (intros ->; cbn in Nm; rewrite firstn_nil in Nm; congruence).
  assert (Lc : exists cfg' md hm st st', chunk_loop fu ext cfg' md hm (o_chunk o) (Reader (firstn n (stream ds)) 0) st = Ok st').
  { destruct (exit_zero_main fu ext w ord args d d' o cfg A1 A3 A4 A16) as (st & M & _). rewrite A5 in M. revert M. unfold run_main.
    destruct (firstn n (stream ds)) as [|b m]; [congruence|]. cbn [open_reader obind]. destruct (init_cli cfg o) as [st0| | |]; cbn [obind]; try discriminate.
    destruct (chunk_loop _ _ _ _ _ _ _ _) as [st1| | |] eqn:L; cbn [obind]; try discriminate. intros _. do 5 eexists. exact L. }
  destruct Lc as (cfg' & md & hm & st & st' & Lc). apply loop_cut in Lc; try assumption. apply run_chunk_items in Lc; [|exact Hb]. destruct Lc as (_ & it & Ic & _).
  split.
  - intros (ds1 & d0 & ds2 & j & -> & -> & Hj & Hm). apply Forall_app in A6, A7. destruct A6 as [O1 O2]. destruct A7 as [N1 N2]. inversion O2; subst.
    rewrite stream_app_ in Ic. change (stream (d0 :: ds2)) with (dataset_bytes d0 ++ stream ds2) in Ic.
    rewrite <- Nat.add_assoc, firstn_app_2, firstn_app in Ic.
    replace (8 + j - length (dataset_bytes d0))%nat with 0%nat in Ic by (rewrite bytes_len; unfold zlen in Hj; lia). cbn [firstn] in Ic. rewrite app_nil_r in Ic.
    rewrite cut_items in Ic by assumption. rewrite broken_items in Ic by assumption. discriminate.
  - destruct (cut_read ds n A6 A7 H8) as [[_ X]|(ds' & Lf & Ne & X)]; [rewrite X in Ic; discriminate|]. exists ds'. split; [exact Lf|].
    destruct (left_ok _ _ Lf A6 A7) as [O' N']. destruct (left_cuts _ _ _ Lf A9) as [C' L'].
    exists fu, (set_input w (stream ds')), ord, args. repeat (split; [first [assumption|exact A1|exact A2|exact A3|exact A4|reflexivity|lia]|]).
    apply (program_input fu fu ext w ord args d d' o (firstn n (stream ds))); try assumption; [apply stream_ne, Ne, Nd|].
    intros c md' hm' s0 s1 L. apply loop_cut in L; try assumption. apply loop_run; try assumption; [lia|].
    exact (proj1 (run_chunk_ext ext c md' hm' s0 (firstn n (stream ds)) (stream ds') s1 Hb ltac:(apply stream_ok; exact O') X) L).
Qed.

(** * What is left of the hits *)

Lemma yields_firstn md chip s ps hs : yields md chip s ps hs -> forall k hk, yields md chip s (firstn k ps) hk -> exists rest, hs = hk ++ rest.
Proof.
  induction 1 as [s|s p ps h hs K R M Y IH|s p ps hs K R Y IH|s p ps hs K Y IH]; intros [|k] hk Yk; cbn [firstn] in Yk;
    try (inversion Yk; subst; eexists; reflexivity).
  - inversion Yk as [|? ? ? h' hs' K' R' M' Y'|? ? ? ? K' R' Y'|? ? ? ? K' Y']; subst; try contradiction.
    destruct (IH _ _ Y') as (rest & ->). exists rest. cbn [app]. f_equal. destruct md; cbn in M, M'; [|congruence].
    rewrite M in M'. apply Ok_inj in M'. congruence.
  - inversion Yk as [|? ? ? h' hs' K' R' M' Y'|? ? ? ? K' R' Y'|? ? ? ? K' Y']; subst; try contradiction. exact (IH _ _ Y').
  - inversion Yk as [|? ? ? h' hs' K' R' M' Y'|? ? ? ? K' R' Y'|? ? ? ? K' Y']; subst; try contradiction. exact (IH _ _ Y').
Qed.

Lemma left_processed md ds ds' s h s1 h' s2 : left_of ds ds' -> Forall dataset_ok ds ->
  processed md s ds h s1 -> processed md s ds' h' s2 ->
  exists ha hb hc rest, h = ha ++ hb /\ h' = ha ++ hc /\ concat hb = concat hc ++ rest /\ zlen (concat hc) <= 8191.
Proof.
  intros [l|ds1 ds2 _|ds1 d ds2 k Hk] O P P'.
  - destruct (processed_unique _ _ _ _ _ _ _ P P') as [<- _]. exists h, [], [], []. rewrite !app_nil_r. repeat split. unfold zlen; cbn; lia.
  - destruct (processed_app _ _ _ _ _ _ P) as (ha & hb & sa & -> & Pa & Pb & _). destruct (processed_unique _ _ _ _ _ _ _ Pa P') as [<- _].
    exists ha, hb, [], (concat hb). rewrite app_nil_r. repeat split. unfold zlen; cbn; lia.
  - destruct (processed_app _ _ _ _ _ _ P) as (ha & hb & sa & -> & Pa & Pb & _). destruct (processed_app _ _ _ _ _ _ P') as (ha' & hc & sa' & -> & Pa' & Pc & _).
    destruct (processed_unique _ _ _ _ _ _ _ Pa Pa') as [<- <-].
    inversion Pb as [|? ? ? c1 h1 hs1 ? C1 Y1 D1]; subst. inversion Pc as [|? ? ? c2 h2 hs2 ? C2 Y2 D2]; subst. inversion D2; subst.
    assert (c2 = c1) as -> by (eapply declares_chip_unique; [exact C2|exact C1]).
    destruct (yields_firstn _ _ _ _ _ Y1 _ _ Y2) as (rest & ->).
    exists ha, ((h2 ++ rest) :: hs1), [h2], (rest ++ concat hs1). repeat split.
    + cbn [concat]. rewrite app_nil_r, <- app_assoc. reflexivity.
    + cbn [concat]. rewrite app_nil_r. apply Forall_app in O. destruct O as [_ O]. inversion O as [|? ? (_ & _ & _ & Pk & L) _]; subst.
      destruct (yields_facts _ _ _ _ _ Y2) as [B _]; [cbn [shorten d_payload]; apply Forall_firstn'; exact Pk|]. cbn [shorten d_payload] in B.
      rewrite zlen_firstn in B. lia.
Qed.

Lemma count_part {A} (P : A -> Prop) a b c v v' : counted P (a ++ b) v -> counted P (a ++ c) v' -> 0 <= v' <= v + zlen c.
Proof.
  intros C C'. destruct (counted_split _ _ _ _ C) as (ka & kb & Ca & Cb & ->). destruct (counted_split _ _ _ _ C') as (ka' & kc & Ca' & Cc & ->).
  rewrite <- (counted_unique _ _ _ Ca _ Ca'). pose proof (P_Main.counted_bounds _ _ _ Ca). pose proof (P_Main.counted_bounds _ _ _ Cb). pose proof (P_Main.counted_bounds _ _ _ Cc). lia.
Qed.
Lemma count_prefix {A} (P : A -> Prop) a b v v' : counted P (a ++ b) v -> counted P a v' -> v' <= v.
Proof. intros C C'. pose proof (count_part P a b [] v v' C) as X. rewrite app_nil_r in X. specialize (X C'). unfold zlen in X. cbn in X. lia. Qed.

Lemma C113_l ext o o' cfg ds n s d d1 d' d1' : (8 <= n)%nat ->
  completed ext o cfg ds s d d1 -> finished ext o' cfg ds n s d' d1' -> timing_of o' = timing_of o ->
  (o_hits o <> ""%string -> o_hits o' <> ""%string -> exists f f' hs rest,
     d_h5 d1 (o_hits o) = Some f /\ d_h5 d1' (o_hits o') = Some f' /\
     forall k fld, hit_field k fld -> map Some (col f "hits" k) = map fld (hs ++ rest) /\ map Some (col f' "hits" k) = map fld hs) /\
  (o_events o <> ""%string -> o_events o' <> ""%string -> 1 <= a_min (g_abs cfg) -> exists f f' ns rest last,
     d_h5 d1 (o_events o) = Some f /\ d_h5 d1' (o_events o') = Some f' /\ zlen last <= 8191 /\
     forall k fld, neutron_field k fld -> col f "neutrons" k = map fld (ns ++ rest) /\ col f' "neutrons" k = map fld (ns ++ last)) /\
  ((o_mode o' = "hit" <-> o_mode o = "hit")%string -> 1 <= a_min (g_abs cfg) ->
   (o_tiff o <> ""%string -> o_tiff o' <> ""%string -> forall i x y u, (i < length (g_edges cfg) - 1)%nat -> 0 <= x < s -> 0 <= y < s ->
      prior (d_files d) (tiff_name (o_tiff o) (o_base o) i) s s x y u ->
      prior (d_files d') (tiff_name (o_tiff o') (o_base o') i) s s x y u ->
      exists v v', disk (d_files d1) (tiff_name (o_tiff o) (o_base o) i) x y = Some ((u + v) mod 2 ^ 32) /\
        disk (d_files d1') (tiff_name (o_tiff o') (o_base o') i) x y = Some ((u + v') mod 2 ^ 32) /\
        0 <= v' <= v + 8191 /\ (o_mode o = "hit"%string -> v' <= v)) /\
   (zlen (packets_of ds) < 2 ^ 32 -> o_spectra o <> ""%string -> o_spectra o' <> ""%string ->
      exists rows rows', d_files d1 (o_spectra o ++ ".txt")%string = Some (Spectrum rows) /\
        d_files d1' (o_spectra o' ++ ".txt")%string = Some (Spectrum rows') /\
        Forall2 (fun r r' => fst r' = fst r /\ 0 <= snd r' <= snd r + 8191 /\ (o_mode o = "hit"%string -> snd r' <= snd r)) rows rows')).
Proof.
  intros H8 Cm Fi T. destruct (finished_completed _ _ _ _ _ _ _ _ H8 Fi) as (_ & ds' & Lf & Cm').
  destruct Cm as (fu & w & ord & args & A1 & A2 & A3 & A4 & A5 & A6 & A7 & A8 & A9 & A10 & A11 & A12 & A13 & A14 & A15 & A16).
  destruct Cm' as (fu' & w' & ord' & args' & B1 & B2 & B3 & B4 & B5 & B6 & B7 & B8 & B9 & B10 & B11 & B12 & B13 & B14 & B15 & B16).
  destruct (C81_program_l fu ext w ord args d d1 o cfg ds s) as (h1 & n1 & s1 & P & N & Fh & Fe & _ & Ti & Sp & _); try assumption.
  destruct (C81_program_l fu' ext w' ord' args' d' d1' o' cfg ds' s) as (h2 & n2 & s2 & P' & N' & Fh' & Fe' & _ & Ti' & Sp' & _); try assumption.
  rewrite T in P'. pose proof (processed_number _ _ _ _ _ P) as Q.
  destruct (left_processed _ _ _ _ _ _ _ _ Lf A6 P P') as (ha & hb & hc & rest & -> & -> & Er & Lc).
  apply Forall2_app_inv_l in N. destruct N as (na & nb & Na & Nb & ->). apply Forall2_app_inv_l in N'. destruct N' as (na' & nc & Na' & Nc & ->).
  rewrite (neutrons_app _ _ _ _ Na _ Na') in *. clear Na' na'. rewrite !concat_app in *.
  split; [|split].
  - intros E E'. destruct (Fh E) as (f & X & G). destruct (Fh' E') as (f' & X' & G'). exists f, f', (concat ha ++ concat hc), rest.
    split; [exact X|]. split; [exact X'|]. intros k fld Hf. rewrite <- app_assoc, <- Er. split; [apply G|apply G']; exact Hf.
  - intros E E' Hm. destruct (Fe E) as (f & X & G). destruct (Fe' E') as (f' & X' & G'). exists f, f', (concat na), (concat nb), (concat nc).
    pose proof (all_number _ _ _ _ Hm Nc).
    split; [exact X|]. split; [exact X'|]. split; [lia|]. intros k fld Hf. split; [apply G|apply G']; exact Hf.
  - intros Mo Hm. pose proof (all_number _ _ _ _ Hm Na) as Ka. pose proof (all_number _ _ _ _ Hm Nb) as Kb. pose proof (all_number _ _ _ _ Hm Nc) as Kc.
    assert (Zm : forall X (g : X -> entry) l, zlen (map g l) = zlen l) by (intros; unfold zlen; rewrite map_length; reflexivity).
    assert (Bi : exists a b c, binned o (ha ++ hb) (na ++ nb) = a ++ b /\ binned o' (ha ++ hc) (na ++ nc) = a ++ c /\ zlen c <= 8191 /\
      (o_mode o = "hit"%string -> exists r, b = c ++ r) /\ zlen (a ++ b) <= fires ds /\ zlen (a ++ c) <= fires ds).
    { unfold binned. rewrite !concat_app, !map_app. pose proof (f_equal (@zlen hit) Er) as Zr. rewrite !zlen_app in *. pose proof (zlen_nonneg rest).
      destruct (String.eqb_spec (o_mode o) "hit") as [Eo|Eo], (String.eqb_spec (o_mode o') "hit") as [Eo'|Eo']; try tauto;
        do 3 eexists; (split; [reflexivity|split; [reflexivity|]]); rewrite !zlen_app, !Zm.
      - split; [lia|]. split; [|lia]. intros _. rewrite Er, map_app. eexists. reflexivity.
      - split; [lia|]. split; [|lia]. intros X. contradiction. }
    destruct Bi as (a & b & c & E1 & E2 & Zc & Hr & Zt & Zt'). rewrite E1, E2 in *.
    assert (Key : forall (R : entry -> Prop) v v', counted R (a ++ b) v -> counted R (a ++ c) v' ->
      0 <= v' <= v + 8191 /\ (o_mode o = "hit"%string -> v' <= v)).
    { intros R v v' C C'. pose proof (count_part R a b c v v' C C'). split; [lia|]. intros M. destruct (Hr M) as (r & ->).
      rewrite app_assoc in C. exact (count_prefix R (a ++ c) r v v' C C'). }
    split.
    + intros O1 O2 i x y u Hi Hx Hy Pu Pu'. destruct (Ti O1 i x y u Hi Hx Hy Pu) as (v & C & D).
      destruct (Ti' O2 i x y u Hi Hx Hy Pu') as (v' & C' & D'). exists v, v'. split; [exact D|]. split; [exact D'|]. exact (Key _ _ _ C C').
    + intros Le O1 O2. pose proof (fires_le ds).
      destruct (proj2 (Sp ltac:(lia)) O1) as (rows & R1 & L1 & R2). destruct (proj2 (Sp' ltac:(lia)) O2) as (rows' & R1' & L1' & R2').
      exists rows, rows'. split; [exact R1|]. split; [exact R1'|]. apply nth_forall2; [congruence|].
      intros i [t k] [t' k'] H1 H2. destruct (R2 i t k H1) as [X Y]. destruct (R2' i t' k' H2) as [X' Y']. cbn [fst snd]. split; [congruence|].
      exact (Key _ _ _ Y Y').
Qed.

(** A file that ends inside a packet. *)
Lemma C113_broken_l fuel ext w order args o cfg ds n d d' : (8 <= n)%nat ->
  exclusive w -> understood w args o -> configured w o cfg ->
  env_input w (o_input o) = Some (firstn n (stream ds)) -> Forall dataset_ok ds -> Forall no_false_header ds ->
  0 < o_chunk o -> cuts_at_datasets (o_chunk o) ds -> (length (stream ds) <= fuel)%nat ->
  ends_in_packet ds n -> program fuel ext w order args d <> Ok (Exit 0, d').
Proof.
  intros H8 X U C I O N Hs Hc Hf (ds1 & d0 & ds2 & j & E & En & Hj & Hm) P.
  destruct (exit_zero_main fuel ext w order args d d' o cfg X U C P) as (st & M & _). rewrite I in M. revert M. unfold run_main.
  destruct (open_reader (Some (firstn n (stream ds)))) as [r| | |] eqn:R; cbn [obind]; try discriminate.
  assert (r = Reader (firstn n (stream ds)) 0) as -> by (unfold open_reader in R; destruct (firstn n (stream ds)); [discriminate|apply Ok_inj in R; congruence]).
  destruct (init_cli cfg o) as [st0| | |]; cbn [obind]; try discriminate.
  destruct (chunk_loop _ _ _ _ _ _ _ _) as [st1| | |] eqn:L; cbn [obind]; try discriminate. intros _.
  apply loop_cut in L; try assumption. apply run_chunk_items in L; [|apply Forall_firstn', stream_ok; exact O]. destruct L as (_ & it & Ic & _).
  subst. apply Forall_app in O, N. destruct O as [O1 O2]. destruct N as [N1 N2]. inversion O2; subst.
  rewrite stream_app_ in Ic. change (stream (d0 :: ds2)) with (dataset_bytes d0 ++ stream ds2) in Ic.
  rewrite <- Nat.add_assoc, firstn_app_2, firstn_app in Ic.
  replace (8 + j - length (dataset_bytes d0))%nat with 0%nat in Ic by (rewrite bytes_len; unfold zlen in Hj; lia). cbn [firstn] in Ic. rewrite app_nil_r in Ic.
  rewrite cut_items in Ic by assumption. rewrite broken_items in Ic by assumption. discriminate.
Qed.

Lemma init_ok cfg o s : edges_ok (g_edges cfg) -> side (g_sr cfg) s -> 0 < s -> exists st0, init_cli cfg o = Ok st0.
Proof.
  intros Eo Sd Sz. assert (Le := proj1 Eo). apply dim_side in Sd.
  destruct (blank_shape (length (g_edges cfg) - 1) s ltac:(lia)) as (bl & Eb & Sb & Zb).
  unfold init_cli, init_images. rewrite Sd. cbn [obind]. destruct (g_edges cfg) as [|e0 er] eqn:Ee; [cbn in Le; lia|]. rewrite Eb.
  destruct (negb _ || negb _); eexists; reflexivity.
Qed.

(** If the file is read at once, that is undefined behaviour. *)
Lemma C113_ub_l fuel ext w order args o cfg ds n s d : (8 <= n)%nat ->
  understood w args o -> configured w o cfg -> hits_created w o -> events_created w o ->
  env_input w (o_input o) = Some (firstn n (stream ds)) -> Forall dataset_ok ds -> Forall no_false_header ds ->
  zlen (firstn n (stream ds)) <= o_chunk o -> edges_ok (g_edges cfg) -> side (g_sr cfg) s -> 0 < s -> (0 < fuel)%nat ->
  ends_in_packet ds n -> program fuel ext w order args d = UB OutOfBounds.
Proof.
  intros H8 U C Hh He I O N Hs Eo Sd Sz Hf (ds1 & d0 & ds2 & j & E & En & Hj & Hm).
  destruct (init_ok cfg o s Eo Sd Sz) as (st0 & In0).
  assert (Hb : bytes_ok (firstn n (stream ds))) by (apply Forall_firstn', stream_ok; exact O).
  assert (Cn : chunk_items (firstn n (stream ds)) = None).
  { clear - O N E En Hj Hm. subst. apply Forall_app in O, N. destruct O as [O1 O2]. destruct N as [N1 N2]. inversion O2; subst.
    rewrite stream_app_. change (stream (d0 :: ds2)) with (dataset_bytes d0 ++ stream ds2).
    rewrite <- Nat.add_assoc, firstn_app_2, firstn_app.
    replace (8 + j - length (dataset_bytes d0))%nat with 0%nat by (rewrite bytes_len; unfold zlen in Hj; lia). cbn [firstn]. rewrite app_nil_r.
    rewrite cut_items by assumption. rewrite broken_items by assumption. reflexivity. }
  assert (Ne : exists b m, firstn n (stream ds) = b :: m).
  { destruct (firstn n (stream ds)) as [|b m]; [|eauto]. rewrite short_items in Cn by (cbn; lia). discriminate. }
  destruct Ne as (b & m & Em).
  assert (M : run_main fuel ext cfg o (env_input w (o_input o)) (env_mkdir w (o_tiff o)) (env_writable w) order (d_files d) = UB OutOfBounds).
  { rewrite I. unfold run_main, open_reader. rewrite Em. cbn [obind]. rewrite In0. cbn [obind]. rewrite <- Em.
    set (q := firstn n (stream ds)) in *. assert (Zq : 0 < zlen q) by (rewrite Em, zlen_cons; pose proof (zlen_nonneg m); lia).
    destruct fuel as [|fuel]; [lia|]. cbn [chunk_loop]. unfold is_eof. cbn [r_pos r_map]. destruct (Z.geb_spec 0 (zlen q)); [lia|].
    unfold read_chunk. cbn [r_pos r_map]. destruct (Z.geb_spec 0 (zlen q)); [lia|].
    rewrite Z.min_r by lia. rewrite Z.sub_0_r. change (skipn (Z.to_nat 0) q) with q.
    replace (firstn (Z.to_nat (zlen q)) q) with q by (symmetry; unfold zlen; rewrite Nat2Z.id; apply firstn_all).
    rewrite Em. rewrite <- Em. rewrite run_chunk_eq by exact Hb. rewrite Cn. reflexivity. }
  apply configured_prefs in C. destruct C as (e & L & G & A & B).
  assert (R : open_reader (env_input w (o_input o)) = Ok (Reader (firstn n (stream ds)) 0)) by (rewrite I; unfold open_reader; rewrite Em; reflexivity).
  rewrite (program_eq fuel ext w order args d o e _ U L R).
  apply (hits_created_spec w o d) in Hh. destruct (create w [] (o_hits o) d) as [d1|] eqn:D; [|elim Hh; reflexivity].
  apply (events_created_spec w o d1) in He. destruct (create w (second_open o) (o_events o) d1) as [d2|] eqn:D2; [|elim He; reflexivity].
  apply create_some in D, D2. destruct D as (Df & _). destruct D2 as (Ef & _).
  pose proof (run_rest_main fuel ext w order e o (Reader (firstn n (stream ds)) 0) (env_input w (o_input o)) d2 (g_edges cfg) G R) as Q.
  assert (Cc : Config (e_abs e) (e_sr e) (g_edges cfg) = cfg) by (destruct cfg; cbn in *; subst; reflexivity). rewrite Cc in Q.
  rewrite Ef, Df, M in Q. exact Q.
Qed.

(** A file that ends elsewhere. *)
Lemma program_same_input fuel ext w order args d o m : understood w args o -> env_input w (o_input o) = Some m ->
  program fuel ext (set_input w m) order args d = program fuel ext w order args d.
Proof.
  intros U I. apply understood_parse in U. unfold program. cbn [set_input env_stoull env_input]. rewrite U. cbn [catch]. rewrite I. reflexivity.
Qed.

Lemma C113_ends_l fuel ext w order args d o cfg ds n s hss s' : (8 <= n)%nat -> ~ ends_in_packet ds n ->
  (forall p, env_writable w p = true) -> understood w args o -> configured w o cfg ->
  env_input w (o_input o) = Some (firstn n (stream ds)) -> hits_created w o -> events_created w o ->
  (o_tiff o <> ""%string -> env_mkdir w (o_tiff o) = true) ->
  ds <> [] -> Forall dataset_ok ds -> Forall no_false_header ds ->
  0 < o_chunk o -> cuts_at_datasets (o_chunk o) ds -> (length (stream ds) <= fuel)%nat ->
  edges_ok (g_edges cfg) -> side (g_sr cfg) s -> 0 < s < 2 ^ 30 ->
  Permutation order (seq 0 (length (g_edges cfg) - 1)) ->
  (forall i, (i < length (g_edges cfg) - 1)%nat ->
     saved (d_files d) (tiff_name (o_tiff o) (o_base o) i) s s \/ unrelated (d_files d) (tiff_name (o_tiff o) (o_base o) i) s s) ->
  processed (timing_of o) ts0 ds hss s' ->
  Forall (fun h => (timing_of o = GDC_mode -> h_spider h < 2 ^ 48) /\ (timing_of o = TDC_mode -> h_tof h <> None)) (concat hss) ->
  exists d', program fuel ext w order args d = Ok (Exit 0, d').
Proof.
  intros H8 Hn' Hw U C I Hh He Hm Nd O N Hs Hc Hf Eo Sd Sz Po Hp P F.
  destruct (cut_read ds n O N H8) as [(X & _)|(ds' & Lf & Ne & Ic)]; [contradiction|].
  destruct (left_ok _ _ Lf O N) as [O' N']. destruct (left_cuts _ _ _ Lf Hc) as [Hc' Ll].
  destruct (C81_any_l fuel ext (set_input w (stream ds')) order args d o cfg ds' s) as (d' & R); try assumption; try reflexivity; try exact (Ne Nd); try lia.
  { intros h' s2 P'. destruct (left_processed _ _ _ _ _ _ _ _ Lf O P P') as (ha & hb & hc & rest & -> & -> & Er & _).
    rewrite concat_app in *. rewrite Er, app_assoc in F. apply Forall_app in F. exact (proj1 F). }
  exists d'. rewrite <- (program_same_input fuel ext w order args d o _ U I).
  change (set_input w (firstn n (stream ds))) with (set_input (set_input w (stream ds')) (firstn n (stream ds))).
  apply (program_input fuel fuel ext (set_input w (stream ds')) order args d d' o (stream ds') (firstn n (stream ds))); try assumption; try reflexivity.
  - apply stream_ne. exact (Ne Nd).
  - intros E. apply (f_equal (@length Z)) in E. rewrite firstn_length in E. cbn [length] in E. destruct ds as [|d0 ds0]; [congruence|].
    change (stream (d0 :: ds0)) with (dataset_bytes d0 ++ stream ds0) in E. rewrite app_length, bytes_len in E. lia.
  - intros cfg' md hm st st' L. apply loop_cut; try assumption.
    assert (Hb : bytes_ok (firstn n (stream ds))) by (apply Forall_firstn', stream_ok; exact O).
    rewrite <- (firstn_all2 (n := length (stream ds')) (stream ds') (le_n _)) in L. apply loop_cut in L; try assumption; [|lia]. rewrite firstn_all2 in L by lia.
    rewrite (run_chunk_ext ext cfg' md hm st (firstn n (stream ds)) (stream ds')); [exact L|exact Hb|apply stream_ok; exact O'|exact Ic].
Qed.
