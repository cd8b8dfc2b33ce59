(** The theorems about the display, put together. *)
From Coq Require Import Lia.
From Verif Require Export P_DisplayFile P_DisplayPixel P_DisplayThreads.
From Coq Require Import ZifyBool Zify.
Ltac Zify.zify_post_hook ::= Z.to_euclidean_division_equations.
Global Open Scope Z_scope.

(** * Hits *)

Lemma place_xy c f T : fields_ok f ->
  (w_x (place_raw c (decode_raw (pixel_packet f) T)), w_y (place_raw c (decode_raw (pixel_packet f) T))) =
  display_place c (f_x f) (f_y f).
Proof. intros Hf. apply (place_says c f T Hf). Qed.

Lemma C64_distinct_l c c' f f' T T' : 0 <= c < 4 -> 0 <= c' < 4 -> fields_ok f -> fields_ok f' ->
  w_x (place_raw c (decode_raw (pixel_packet f) T)) = w_x (place_raw c' (decode_raw (pixel_packet f') T')) ->
  w_y (place_raw c (decode_raw (pixel_packet f) T)) = w_y (place_raw c' (decode_raw (pixel_packet f') T')) ->
  c = c' /\ f_x f = f_x f' /\ f_y f = f_y f'.
Proof.
  intros Hc Hc' Hf Hf' Ex Ey. pose proof (place_xy c f T Hf) as P. pose proof (place_xy c' f' T' Hf') as P'.
  rewrite Ex, Ey, P' in P. unfold fields_ok in *. symmetry in P. apply place_distinct in P; lia.
Qed.

Lemma C64_onto_l X Y : 0 <= X < 512 -> 0 <= Y < 512 ->
  exists c f, 0 <= c < 4 /\ fields_ok f /\ f_type f = 11 /\ forall T,
    w_x (place_raw c (decode_raw (pixel_packet f) T)) = X /\ w_y (place_raw c (decode_raw (pixel_packet f) T)) = Y.
Proof.
  intros HX HY. destruct (place_onto X Y HX HY) as (c & x & y & Hc & Hx & Hy & E).
  exists c, (PF 11 x y 0 0 0 0). assert (Hf : fields_ok (PF 11 x y 0 0 0 0)) by (unfold fields_ok; cbn; lia).
  split; [exact Hc|]. split; [exact Hf|]. split; [reflexivity|]. intros T.
  pose proof (place_xy c (PF 11 x y 0 0 0 0) T Hf) as P. cbn [f_x f_y] in P. rewrite E in P. injection P as -> ->. auto.
Qed.

(** * Files *)

Lemma C65_file_l m : bytes_ok m ->
  exists ps t, m = flat_map packet_bytes ps ++ t /\ Forall packet_ok ps /\ zlen t < 8 /\
    ((exists xs rs es, reads t None None ps xs /\ (forall ys, reads t None None ps ys -> ys = xs) /\
        displays 0 xs rs es /\ (forall rs' es', displays 0 xs rs' es' -> rs' = rs /\ es' = es) /\
        filetohits (Some m) = Ok (rs, es)) \/
     ((forall xs, ~ reads t None None ps xs) /\ filetohits (Some m) = UB Uninitialised)).
Proof.
  intros Hm. destruct (file_all m Hm) as (ps & t & -> & H1 & H2 & H3). exists ps, t.
  split; [reflexivity|]. split; [exact H1|]. split; [exact H3|].
  destruct (file_l ps t H1 H2 H3) as [(xs & rs & es & HR & HD & HF)|K]; [left|right; exact K].
  exists xs, rs, es. split; [exact HR|]. split; [intros ys HY; eapply reads_unique; eassumption|].
  split; [exact HD|]. split; [|exact HF]. intros rs' es' HD'.
  destruct (displays_unique _ _ _ _ HD _ _ HD') as [-> ->]. auto.
Qed.

Lemma C66_bounds_l m rs es : bytes_ok m -> filetohits (Some m) = Ok (rs, es) ->
  Forall (fun e => 0 <= e < 170000) es /\ (length es <= length rs)%nat /\ Forall raw_ok rs.
Proof.
  intros Hm HF. destruct (C65_file_l m Hm) as (ps & t & _ & _ & _ & [(xs & rs' & es' & _ & _ & HD & _ & HF')|[_ HF']]);
    rewrite HF' in HF; [|discriminate HF]. injection HF as -> ->.
  destruct (displays_ok _ _ _ _ HD) as (H1 & H2 & H3 & _). auto.
Qed.

Lemma C66_entry_l f T : fields_ok f -> tof_entry (decode_raw (pixel_packet f) T) = Ok (tof_bins f T).
Proof.
  intros Hf. rewrite tof_entry_ok; [|apply pixel_packet_ok; exact Hf]. rewrite bins_eq by exact Hf. reflexivity.
Qed.

(** * Clusters *)

Lemma begin_127 : at_most_127 begin.
Proof. unfold at_most_127. cbn. lia. Qed.

Lemma run_parts_ok hs s : ring_run begin hs s -> Forall raw_ok hs -> Forall (Forall raw_ok) (fst s ++ snd s).
Proof.
  intros H Hh. apply ring_run_perm in H. cbn in H. rewrite Forall_forall in *. intros c Hc.
  apply Forall_forall. intros h Hin. apply Hh. eapply Permutation_in; [exact H|]. apply in_concat. exists c. auto.
Qed.

Lemma falls_all rot cs pxs c : Forall2 (falls_on rot) cs pxs -> In c cs -> exists px, falls_on rot c px.
Proof. induction 1 as [|a b l l' Hab Hf IH]; intros Hin; [destruct Hin|]. destruct Hin as [<-|Hin]; [exists b; exact Hab|auto]. Qed.

Lemma C67_clusters_l rot hs : rotation_ok rot -> Forall raw_ok hs ->
  exists closed op, ring_run begin hs (closed, op) /\
    (forall s, ring_run begin hs s -> s = (closed, op)) /\
    ((Forall small (closed ++ op) /\ Forall (fun c => big c = true -> 0 < sum_tot c) closed /\
      exists w pxs, wk_run rot wk_start hs = Ok w /\ wk_total w = zlen closed /\
        wk_acc w = zlen (filter big closed) /\
        Forall2 (falls_on rot) (filter big closed) pxs /\ wk_img w = concat pxs) \/
     (Exists (fun c => ~ small c) (closed ++ op) /\ wk_run rot wk_start hs = UB SignedOverflow) \/
     (Exists (fun c => big c = true /\ sum_tot c = 0) closed /\ wk_run rot wk_start hs = UB BadConversion)).
Proof.
  intros Hr Hh. destruct (ring_run_total hs begin begin_127) as ([closed op] & H). exists closed, op.
  split; [exact H|]. split; [intros s Hs; exact (ring_run_unique _ _ _ _ begin_127 Hs H)|].
  pose proof (run_parts_ok _ _ H Hh) as Ho. cbn [fst snd] in Ho.
  destruct (run_spec rot hs [] [] wk_start (closed, op)) as [(w & Ew & R & Sm)|(u & Ew & B)];
    [apply start_inv|constructor|exact Hh|constructor|exact H| |]; cbn [fst snd] in *.
  - left. split; [exact Sm|]. destruct R as [_ _ _ _ _ _ Rt Ra (pxs & RF & RI)]. split.
    + apply Forall_forall. intros c Hc Hb. apply Forall_app in Ho, Sm. destruct Ho as [Ho _], Sm as [Sm _].
      rewrite Forall_forall in Ho, Sm. destruct (sums_nonneg c (Ho c Hc)) as (Nt & _).
      destruct (Z.eq_dec (sum_tot c) 0) as [E|E]; [|lia]. exfalso.
      destruct (falls_all _ _ _ c RF) as (px & Hp); [apply filter_In; auto|].
      exact (falls_zero rot c px (Ho c Hc) E Hp).
    + exists w, pxs. auto.
  - right. destruct B as [[-> B]|[-> B]]; [left; auto|]. cbn [fst] in B.
    right. split; [|exact Ew]. apply Exists_exists in B. destruct B as (c & Hc & Hb & Sc). apply Exists_exists. exists c.
    split; [exact Hc|]. rewrite Forall_forall in Ho. assert (Hi : In c (closed ++ op)) by (apply in_app_iff; auto).
    apply (bad_iff rot c Hr (Ho c Hi) Sc). exact Hb.
Qed.

Lemma C67_partition_l hs closed op : ring_run begin hs (closed, op) ->
  Permutation (concat (closed ++ op)) hs /\ Forall (fun c => c <> []) (closed ++ op) /\
  (length op <= 127)%nat /\ (closed <> [] -> length op = 127%nat).
Proof.
  intros H. split; [apply (ring_run_perm _ _ _ H)|].
  destruct (ring_run_full _ _ _ begin_127 H) as [Hf Hl]; [left; reflexivity|].
  pose proof (ring_run_grown _ _ _ H (Forall_nil _)) as Hg. cbn [fst snd] in Hg. split; [|split].
  - eapply Forall_impl; [|exact Hg]. intros c Gc. destruct (grown_cons c Gc) as (g & r & ->). discriminate.
  - exact Hl.
  - intros Hn. destruct Hf as [Hf|Hf]; [contradiction|exact Hf].
Qed.

Lemma C67_grown_l hs closed op : ring_run begin hs (closed, op) -> Forall grown (closed ++ op).
Proof. intros H. exact (ring_run_grown _ _ _ H (Forall_nil _)). Qed.

Lemma C68_no_closed_l rot hs op : rotation_ok rot -> Forall raw_ok hs -> ring_run begin hs ([], op) ->
  Forall small op ->
  exists w, wk_run rot wk_start hs = Ok w /\ wk_total w = 0 /\ wk_img w = [].
Proof.
  intros Hr Hh H Sm. destruct (C67_clusters_l rot hs Hr Hh) as (closed & op' & H' & U & C).
  pose proof (U _ H) as E. injection E as <- <-.
  destruct C as [(_ & _ & w & pxs & Ew & Et & _ & F & Ei)|[(B & _)|(B & _)]].
  - exists w. split; [exact Ew|]. split; [exact Et|]. cbn in F. inversion F; subst. exact Ei.
  - exfalso. apply Exists_exists in B. destruct B as (c & Hc & Hn). rewrite Forall_forall in Sm. exact (Hn (Sm c Hc)).
  - inversion B.
Qed.
