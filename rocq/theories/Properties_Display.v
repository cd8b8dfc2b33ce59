(** Properties C64 to C69: the program sophiread_display.  Each theorem is
    followed by a concrete instance of its hypotheses. *)
From Coq Require Import Lia.
From Verif Require Import P_DisplayAll Properties_Tpx3.
Global Open Scope Z_scope.

(** * Concrete data used by the instances *)

Definition ex_pf : pixel_fields := PF 11 100 200 5234 77 5 2.
Definition ex_turn : rotation := Rot (f_of_Z 1) (f_of_Z 0).
Lemma ex_turn_ok : rotation_ok ex_turn.
Proof. repeat split; vm_compute; reflexivity. Qed.
(** Eleven hits in one place, and 127 hits far from each other. *)
Definition ex_blob (tot : Z) : list raw := repeat (Raw 3 tot 100 20 30 100 7) 11.
Definition ex_far : list raw :=
  map (fun n => let i := Z.of_nat n in Raw 3 9 0 (12 * (i mod 40)) (12 * (i / 40)) (1000 + 10 * i) 0) (seq 1 127).
Lemma ex_far_ok : Forall raw_ok ex_far.
Proof.
  apply Forall_forall. intros h Hh. apply in_map_iff in Hh. destruct Hh as (n & <- & Hn). apply in_seq in Hn.
  unfold raw_ok. cbn [w_tot w_x w_y w_spdr]. Z.to_euclidean_division_equations. lia.
Qed.
Lemma ex_blob_ok tot : 0 <= tot < 1024 -> Forall raw_ok (ex_blob tot).
Proof. intros H. repeat constructor; cbn; lia. Qed.

(** * C64: hits *)

(** C64: the fields of a pixel packet are decoded, and the hit is put at its
    place in the image, for every value of the chip field. *)
Theorem C64_hit_decoded : forall c f T, fields_ok f ->
  display_says c f T (place_raw c (decode_raw (pixel_packet f) T)).
Proof. exact place_says. Qed.
Print Assumptions C64_hit_decoded.
Example C64_instance : fields_ok ex_pf /\
  place_raw 1 (decode_raw (pixel_packet ex_pf) 30000) = Raw 5 77 5234 411 311 38002 8002.
Proof. split; [unfold fields_ok; cbn; lia|vm_compute; reflexivity]. Qed.

(** C64: different pixels of the detector are different in the image. *)
Theorem C64_distinct : forall c c' f f' T T', 0 <= c < 4 -> 0 <= c' < 4 -> fields_ok f -> fields_ok f' ->
  w_x (place_raw c (decode_raw (pixel_packet f) T)) = w_x (place_raw c' (decode_raw (pixel_packet f') T')) ->
  w_y (place_raw c (decode_raw (pixel_packet f) T)) = w_y (place_raw c' (decode_raw (pixel_packet f') T')) ->
  c = c' /\ f_x f = f_x f' /\ f_y f = f_y f'.
Proof. exact C64_distinct_l. Qed.
Print Assumptions C64_distinct.

(** C64: every position of the 512 x 512 image is a pixel of the detector. *)
Theorem C64_no_gap : forall X Y, 0 <= X < 512 -> 0 <= Y < 512 ->
  exists c f, 0 <= c < 4 /\ fields_ok f /\ f_type f = 11 /\ forall T,
    w_x (place_raw c (decode_raw (pixel_packet f) T)) = X /\
    w_y (place_raw c (decode_raw (pixel_packet f) T)) = Y.
Proof. exact C64_onto_l. Qed.
Print Assumptions C64_no_gap.
Example C64_no_gap_instance :
  w_x (place_raw 2 (decode_raw (pixel_packet (PF 11 0 255 0 0 0 0)) 0)) = 255 /\
  w_x (place_raw 1 (decode_raw (pixel_packet (PF 11 255 255 0 0 0 0)) 0)) = 256.
Proof. split; vm_compute; reflexivity. Qed.

(** * C65: what is read *)

(** C65: every file gives exactly the hits and histogram entries of the packets
    that are read; the only other outcome is the use of indeterminate bytes, for
    files of which nothing can be said to be read. *)
Theorem C65_every_file : forall m, bytes_ok m ->
  exists ps t, m = flat_map packet_bytes ps ++ t /\ Forall packet_ok ps /\ zlen t < 8 /\
    ((exists xs rs es, reads t None None ps xs /\ (forall ys, reads t None None ps ys -> ys = xs) /\
        displays 0 xs rs es /\ (forall rs' es', displays 0 xs rs' es' -> rs' = rs /\ es' = es) /\
        filetohits (Some m) = Ok (rs, es)) \/
     ((forall xs, ~ reads t None None ps xs) /\ filetohits (Some m) = UB Uninitialised)).
Proof. exact C65_file_l. Qed.
Print Assumptions C65_every_file.
(** A file that is cut off: the third packet of the dataset is read again. *)
Example C65_cut_instance :
  (let! r := filetohits (Some (firstn 32 (stream [DS 51 1 0 (repeat ex_pix2 2 ++ repeat ex_pix1 9)]))) in
   Ok (map (fun h => (w_x h, w_y h)) (fst r))) = Ok ((508, 507) :: (508, 507) :: repeat (411, 311) 9).
Proof. vm_compute. reflexivity. Qed.
(** A file whose only dataset has no packets at all. *)
Example C65_uninitialised_instance :
  filetohits (Some (packet_bytes (ds_header (DS 51 1 0 [ex_pix1])))) = UB Uninitialised.
Proof. vm_compute. reflexivity. Qed.

(** C65: of a dataset of n packets the first [taken_of n] are read. *)
Theorem C65_datasets : forall ds, Forall dataset_ok ds ->
  Forall (fun d => Forall (fun p => ~ starts_TPX p)
    (skipn (Z.to_nat (taken_of (zlen (d_payload d)))) (d_payload d))) ds ->
  exists rs es, displays 0 (shown ds) rs es /\ filetohits (Some (stream ds)) = Ok (rs, es).
Proof. exact stream_l. Qed.
Print Assumptions C65_datasets.

(** C65: datasets whose size is below 4096 packets and less than 16 modulo 32
    are read completely. *)
Theorem C65_complete : forall ds, Forall dataset_ok ds ->
  Forall (fun d => zlen (d_payload d) < 4096 /\ zlen (d_payload d) mod 32 < 16) ds ->
  exists rs es, displays 0 (payloads ds) rs es /\ filetohits (Some (stream ds)) = Ok (rs, es).
Proof. exact all_shown_l. Qed.
Print Assumptions C65_complete.
Example C65_complete_instance :
  Forall dataset_ok [ex_ds1; ex_ds2] /\
  Forall (fun d => zlen (d_payload d) < 4096 /\ zlen (d_payload d) mod 32 < 16) [ex_ds1; ex_ds2] /\
  filetohits (Some (stream [ex_ds1; ex_ds2])) =
  Ok ([Raw 5 77 5234 356 200 5234 5234; Raw 5 77 5234 356 200 5234 3234;
       Raw 6 88 2345 252 507 18729 16729; Raw 5 77 5234 155 311 5234 3234], []).
Proof.
  split; [apply Forall_cons; [apply ex_ds1_ok|apply Forall_cons; [apply ex_ds2_ok|apply Forall_nil]]|].
  split; [repeat constructor; vm_compute; congruence|vm_compute; reflexivity].
Qed.

(** C65: of datasets of 16 to 31 packets, and of 4096 packets and more, nothing
    at all is read. *)
Theorem C65_nothing_read : forall ds, Forall dataset_ok ds -> Forall no_false_header ds ->
  Forall (fun d => 16 <= zlen (d_payload d) < 32 \/ 4096 <= zlen (d_payload d)) ds ->
  filetohits (Some (stream ds)) = Ok ([], []).
Proof. exact none_shown_l. Qed.
Print Assumptions C65_nothing_read.
Theorem C65_all_hits_refuted : exists d, dataset_ok d /\ no_false_header d /\
  d_payload d = repeat ex_pix1 20 /\ filetohits (Some (stream [d])) = Ok ([], []).
Proof.
  exists (DS 51 0 0 (repeat ex_pix1 20)). split.
  - split; [unfold is_byte; cbn; lia|]. split; [unfold is_byte; cbn; lia|].
    split; [unfold is_byte; cbn; lia|]. split; [|vm_compute; congruence].
    apply Forall_forall. intros q Hq. apply repeat_spec in Hq. subst q. vm_compute. repeat split; congruence.
  - split; [|split; [reflexivity|vm_compute; reflexivity]].
    apply Forall_forall. intros q Hq. apply repeat_spec in Hq. subst q. vm_compute. intuition congruence.
Qed.
Print Assumptions C65_all_hits_refuted.

(** * C66: the time-of-flight histogram *)

(** C66: an entry is made exactly for the hits of the chip-local columns 251 and
    up and rows 126 and up, in steps of 100 ns. *)
Theorem C66_entry : forall f T, fields_ok f -> tof_entry (decode_raw (pixel_packet f) T) = Ok (tof_bins f T).
Proof. exact C66_entry_l. Qed.
Print Assumptions C66_entry.
Example C66_instance :
  fields_ok (PF 11 253 200 5234 77 5 2) /\
  tof_entry (decode_raw (pixel_packet (PF 11 253 200 5234 77 5 2)) 30000) = Ok [2000] /\
  tof_entry (decode_raw (pixel_packet (PF 11 253 200 5234 77 5 2)) 38003) = Ok [].
Proof. split; [unfold fields_ok; cbn; lia|]. split; vm_compute; reflexivity. Qed.

(** C66: for every file the entries are inside of the histogram, and there is at
    most one for each hit. *)
Theorem C66_in_bounds : forall m rs es, bytes_ok m -> filetohits (Some m) = Ok (rs, es) ->
  Forall (fun e => 0 <= e < 170000) es /\ (length es <= length rs)%nat /\ Forall raw_ok rs.
Proof. exact C66_bounds_l. Qed.
Print Assumptions C66_in_bounds.
Example C66_in_bounds_instance :
  (let! r := filetohits (Some (stream [DS 51 0 0 [ex_tdc; pixel_packet (PF 11 253 200 5234 77 5 2); ex_pix1]])) in
   Ok (snd r, length (fst r))) = Ok ([9000], 2%nat).
Proof. vm_compute. reflexivity. Qed.

(** C66: the window is not a window of the image: a hit inside of columns 251
    to 424 and rows 126 to 324 of the image is not counted, and a hit outside of
    them is. *)
Theorem C66_window_of_the_image_refuted :
  exists f f' c c' T, fields_ok f /\ fields_ok f' /\
    250 < w_x (place_raw c (decode_raw (pixel_packet f) T)) < 425 /\
    125 < w_y (place_raw c (decode_raw (pixel_packet f) T)) < 325 /\
    w_tof (decode_raw (pixel_packet f) T) = 8002 /\
    tof_entry (decode_raw (pixel_packet f) T) = Ok [] /\
    w_x (place_raw c' (decode_raw (pixel_packet f') T)) = 507 /\
    tof_entry (decode_raw (pixel_packet f') T) = Ok [2000].
Proof.
  exists ex_pf, (PF 11 251 200 5234 77 5 2), 0, 0, 30000.
  repeat split; try (vm_compute; reflexivity); try (vm_compute; congruence).
Qed.
Print Assumptions C66_window_of_the_image_refuted.

(** * C67: clusters *)

(** C67: the clusters are those of the ring of 128 slots; each closed cluster of
    more than 10 hits is counted and shown; the run is undefined if a sum of a
    cluster does not fit an int, or if such a cluster has no ToT. *)
Theorem C67_clusters : forall rot hs, rotation_ok rot -> Forall raw_ok hs ->
  exists closed op, ring_run begin hs (closed, op) /\
    (forall s, ring_run begin hs s -> s = (closed, op)) /\
    ((Forall small (closed ++ op) /\ Forall (fun c => big c = true -> 0 < sum_tot c) closed /\
      exists w pxs, wk_run rot wk_start hs = Ok w /\ wk_total w = zlen closed /\
        wk_acc w = zlen (filter big closed) /\
        Forall2 (falls_on rot) (filter big closed) pxs /\ wk_img w = concat pxs) \/
     (Exists (fun c => ~ small c) (closed ++ op) /\ wk_run rot wk_start hs = UB SignedOverflow) \/
     (Exists (fun c => big c = true /\ sum_tot c = 0) closed /\ wk_run rot wk_start hs = UB BadConversion)).
Proof. exact C67_clusters_l. Qed.
Print Assumptions C67_clusters.
Example C67_instance :
  rotation_ok ex_turn /\ Forall raw_ok (ex_blob 9 ++ ex_far) /\
  (let! w := wk_run ex_turn wk_start (ex_blob 9 ++ ex_far) in Ok (wk_total w, wk_acc w, wk_img w)) =
  Ok (1, 1, [(160, 240)]).
Proof.
  split; [exact ex_turn_ok|]. split; [apply Forall_app; split; [apply ex_blob_ok; lia|exact ex_far_ok]|].
  vm_compute. reflexivity.
Qed.

(** C67: every hit is in exactly one cluster; no cluster is empty; at most 127
    are open, and exactly 127 as soon as one has been closed. *)
Theorem C67_partition : forall hs closed op, ring_run begin hs (closed, op) ->
  Permutation (concat (closed ++ op)) hs /\ Forall (fun c => c <> []) (closed ++ op) /\
  (length op <= 127)%nat /\ (closed <> [] -> length op = 127%nat).
Proof. exact C67_partition_l. Qed.
Print Assumptions C67_partition.

(** C67: every hit of a cluster was accepted by the hits before it. *)
Theorem C67_grown : forall hs closed op, ring_run begin hs (closed, op) -> Forall grown (closed ++ op).
Proof. exact C67_grown_l. Qed.
Print Assumptions C67_grown.
(** C67: so all hits are less than 3 clock ticks from the first. *)
Theorem C67_spread : forall c, grown c -> forall g r h, c = g :: r -> In h r ->
  Z.abs (w_spdr g - w_spdr h) < 3.
Proof. exact grown_spread. Qed.
Print Assumptions C67_spread.
Example C67_grown_instance : grown (ex_blob 9).
Proof.
  assert (G : forall n h, grown (repeat h (S n))).
  { induction n as [|n IH]; intros h; [apply (gw_one h)|].
    replace (repeat h (S (S n))) with (repeat h (S n) ++ [h]).
    - apply gw_more; [apply IH|]. split; [exists h, (repeat h n); split; [reflexivity|lia]|].
      cbn [repeat]. repeat split; constructor; lia.
    - symmetry. apply (repeat_cons (S n) h). }
  apply G.
Qed.

(** * C68: the image *)

(** C68: the pixel of a small cluster with ToT is the integer part of numbers
    within 2^-36 of the exact rotated mean position in eighths of a pixel; it is
    in the image of 4096 x 4096 pixels or nothing is counted. *)
Theorem C68_pixel : forall rot c, rotation_ok rot -> Forall raw_ok c -> small c -> 0 < sum_tot c ->
  exists ix iy px, falls_on rot c px /\ near_part (exact_x rot c) ix /\ near_part (exact_y rot c) iy /\
    ((0 <= ix < 4096 /\ 0 <= iy < 4096 /\ px = [(ix, iy)]) \/
     (~ (0 <= ix < 4096 /\ 0 <= iy < 4096) /\ px = [])).
Proof. exact falls_spec. Qed.
Print Assumptions C68_pixel.
Example C68_pixel_instance :
  Forall raw_ok (ex_blob 9) /\ small (ex_blob 9) /\ 0 < sum_tot (ex_blob 9) /\
  falls_on ex_turn (ex_blob 9) [(160, 240)].
Proof.
  split; [apply ex_blob_ok; lia|]. split; [repeat split; vm_compute; reflexivity|].
  split; [vm_compute; reflexivity|]. exists 160, 240.
  split; [vm_compute; reflexivity|]. split; [vm_compute; reflexivity|]. left. repeat split; lia.
Qed.

(** C68: as long as no cluster has been pushed out of the ring nothing is
    counted or shown, whatever the open clusters are. *)
Theorem C68_open_clusters_not_shown : forall rot hs op, rotation_ok rot -> Forall raw_ok hs ->
  ring_run begin hs ([], op) -> Forall small op ->
  exists w, wk_run rot wk_start hs = Ok w /\ wk_total w = 0 /\ wk_img w = [].
Proof. exact C68_no_closed_l. Qed.
Print Assumptions C68_open_clusters_not_shown.
Theorem C68_all_clusters_shown_refuted : exists hs, Forall raw_ok hs /\
  (forall s, ring_run begin hs s -> s = ([], [hs])) /\ big hs = true /\ 0 < sum_tot hs /\
  (let! w := wk_run ex_turn wk_start hs in Ok (wk_total w, wk_img w)) = Ok (0, []).
Proof.
  exists (ex_blob 9). split; [apply ex_blob_ok; lia|]. split.
  - intros s H. change (snd begin) with (@nil rcluster) in *.
    assert (G : forall n h s, ring_run ([], [repeat h (S n)]) (repeat h (10 - n)) s ->
                 (n <= 10)%nat -> s = ([], [repeat h 11])).
    { intros n h s0. remember (10 - n)%nat as m eqn:Em. revert n Em s0.
      induction m as [|m IH]; intros n Em s0 R L.
      - inversion R; subst. replace n with 10%nat by lia. reflexivity.
      - cbn [repeat] in R. inversion R as [|s1 h1 s2 hs2 s3 S R2]; subst.
        assert (A : accepts (repeat h (Datatypes.S n)) h).
        { split; [exists h, (repeat h n); split; [reflexivity|lia]|]. cbn [repeat]. repeat split; constructor; lia. }
        assert (E : s2 = ([], [repeat h (Datatypes.S (Datatypes.S n))])).
        { inversion S as [cl op1 c op2 h0 A0 M E1 E2 E3|cl op h0 N L0 E1 E2 E3|cl c op h0 N L0 E1 E2 E3]; subst.
          - match goal with K : _ ++ _ :: _ = _ |- _ => rename K into Q end.
            destruct op1 as [|o op1]; [|destruct op1; discriminate Q]. cbn [app] in *. injection Q as -> ->.
            f_equal. f_equal. symmetry. apply (repeat_cons (Datatypes.S n) h).
          - inversion N; subst. contradiction.
          - inversion N; subst. contradiction. }
        subst s2. apply (IH (Datatypes.S n)); [lia|exact R2|lia]. }
    unfold ex_blob in *. set (h := Raw 3 9 100 20 30 100 7) in *. clearbody h.
    inversion H as [|s1 h1 s2 hs2 s3 S R2]; subst.
    assert (E : s2 = ([], [[h]])).
    { inversion S as [cl op1 c op2 h0 A0 M E1 E2 E3|cl op h0 N L0 E1 E2 E3|cl c op h0 N L0 E1 E2 E3]; subst.
      - match goal with K : _ ++ _ :: _ = _ |- _ => destruct op1; discriminate K end.
      - reflexivity. }
    subst s2. apply (G 0%nat); [exact R2|lia].
  - split; [reflexivity|]. split; [vm_compute; reflexivity|vm_compute; reflexivity].
Qed.
Print Assumptions C68_all_clusters_shown_refuted.

(** C68: hits that a detector can give make the run undefined: 4109 hits of one
    pixel within a clock tick, or 11 hits without ToT followed by 127 others. *)
Theorem C68_defined_refuted : exists hs hs', Forall raw_ok hs /\ Forall raw_ok hs' /\
  wk_run ex_turn wk_start hs = UB SignedOverflow /\ wk_run ex_turn wk_start hs' = UB BadConversion.
Proof.
  exists (repeat (Raw 3 1023 100 511 30 100 7) 4109), (ex_blob 0 ++ ex_far).
  split.
  - apply Forall_forall. intros h Hh. apply repeat_spec in Hh. subst h. unfold raw_ok. cbn. lia.
  - split; [apply Forall_app; split; [apply ex_blob_ok; lia|exact ex_far_ok]|].
    split; vm_compute; reflexivity.
Qed.
Print Assumptions C68_defined_refuted.

(** * C69: the two threads *)

(** C69: in every schedule the hits used by the worker are the first hits of the
    file, in order and each once; no indeterminate slot is used; and when the
    worker has ended at most 4095 hits are missing. *)
Theorem C69_in_order : forall (A : Type) (hits : list A) r, rsteps (rstart hits) r ->
  exists s rest, r = Some s /\ hits = g_out s ++ rest /\
    (g_cp s = CoEnd -> Z.of_nat (length rest) <= 4095).
Proof. exact @threads_l. Qed.
Print Assumptions C69_in_order.

(** C69: exactly these are the possible results. *)
Theorem C69_results : forall (A : Type) (hits out : list A),
  (exists s, rsteps (rstart hits) (Some s) /\ g_cp s = CoEnd /\ g_out s = out) <->
  (exists lost, hits = out ++ lost /\ Z.of_nat (length lost) <= 4095).
Proof. exact @ends_l. Qed.
Print Assumptions C69_results.
Example C69_results_instance : exists lost, [1; 2; 3] = [1] ++ lost /\ Z.of_nat (length lost) <= 4095.
Proof. exists [2; 3]. split; [reflexivity|cbn; lia]. Qed.

(** C69: from every state both threads can come to their end, and all hits are
    used if the worker has not been told to stop yet. *)
Theorem C69_can_end : forall (A : Type) (hits : list A) s, rsteps (rstart hits) (Some s) ->
  exists s', rsteps s (Some s') /\ g_pp s' = PrDone /\ g_cp s' = CoEnd /\
    (g_kill s = false -> g_out s' = hits).
Proof. exact @can_end_l. Qed.
Print Assumptions C69_can_end.
Example C69_execution_instance : exists s, rsteps (rstart [7; 8]) (Some s) /\ g_out s = [7] /\ g_todo s = [8].
Proof.
  assert (N : next_slot 0 <> 0%nat) by (vm_compute; discriminate).
  destruct (set_nth_z (repeat (@None Z) 4096) 0 (Some 7)) as [ring E]; [rewrite repeat_length; lia|].
  eexists. split.
  - unfold rstart. eapply rs_more; [apply r_free; exact N|]. eapply rs_more; [apply r_start|].
    eapply rs_more; [apply r_again; exact N|]. eapply rs_more; [apply r_copy; exact E|].
    eapply rs_more; [apply r_enter|]. eapply rs_more; [apply r_publish|].
    eapply rs_more; [apply r_use; [vm_compute; discriminate|apply (set_nth_get _ _ _ _ E)]|]. apply rs_none.
  - split; reflexivity.
Qed.

(** C69: so it is not true that all hits of the file are clustered. *)
Theorem C69_all_hits_used_refuted : forall (A : Type) (hits : list A), Z.of_nat (length hits) <= 4095 ->
  exists s, rsteps (rstart hits) (Some s) /\ g_cp s = CoEnd /\ g_out s = [].
Proof. intros A hits L. apply C69_results. exists hits. auto. Qed.
Print Assumptions C69_all_hits_used_refuted.
