(** Properties C27-C30: the time-of-flight images.  Each theorem is followed by
    a concrete instance of its hypotheses. *)
From Coq Require Import Reals Permutation.
From Verif Require Import S_Tof P_Core P_Tof.
Global Open Scope Z_scope.

(** * Concrete data: three bins, images of 5 x 5 pixels, four hits *)
Definition tex_edges : list f64 := [f_of_Z 0; f_lit 5 1000; f_lit 10 1000; f_lit 167 10000].
Definition tex_sr : f64 := f_lit 1 100.
(** Times of flight 10 ms, 0 ms, 7 ms, 16.7 ms in units of 25 ns. *)
Definition tex_hits : list hit :=
  [Hit 120 260 3 0 0 (Some 400000) 0; Hit 120 260 3 0 0 (Some 0) 0;
   Hit 149 340 3 0 0 (Some 280000) 0; Hit 120 260 3 0 0 (Some 668000) 0].
Definition tex_batch (hs : list hit) : batch := Batch 0 0 0 hs [] ts0.
Definition tex_flat (ims : list image) : list Z := concat (concat ims).
Lemma tex_edges_ok : edges_ok tex_edges.
Proof. apply edges_ok_check. vm_compute. reflexivity. Qed.
Lemma tex_side : side tex_sr 5.
Proof. apply dim_side. vm_compute. reflexivity. Qed.

(** C27: the bin of a time of flight (ns) among increasing edges (s). *)
Theorem C27_bin_of_time : forall edges tof i, edges_ok edges ->
  (bin_of edges (length edges - 1) tof = Some i <->
   is_finite tof = true /\ (0 <= B2R tof)%R /\
   in_bin edges (fdiv tof (f_of_Z 1000000000)) i /\
   before_last edges (fdiv tof (f_of_Z 1000000000))).
Proof. exact bin_of_spec. Qed.
Print Assumptions C27_bin_of_time.
Example C27_instance :
  edges_ok tex_edges /\
  map (fun h => match tof_ns h with Some t => bin_of tex_edges 3 t | None => None end) tex_hits =
  [Some 1%nat; None; Some 1%nat; None].
Proof. split; [exact tex_edges_ok|]. vm_compute. reflexivity. Qed.

(** C27: every time strictly between the outer edges has exactly one bin. *)
Theorem C27_total : forall edges t, edges_ok edges ->
  (exists a, nth_error edges 0 = Some a /\ (B2R a < B2R t)%R) -> before_last edges t ->
  exists i, in_bin edges t i /\ forall j, in_bin edges t j -> j = i.
Proof. exact C27_total_l. Qed.
Print Assumptions C27_total.

(** C27: a time on an interior edge goes to the lower bin. *)
Theorem C27_interior_edge : forall edges tof i b, edges_ok edges ->
  is_finite tof = true -> (0 <= B2R tof)%R ->
  nth_error edges (S i) = Some b -> (S i < length edges - 1)%nat ->
  B2R (fdiv tof (f_of_Z 1000000000)) = B2R b ->
  bin_of edges (length edges - 1) tof = Some i.
Proof. exact interior_edge_lower. Qed.
Print Assumptions C27_interior_edge.

(** C27 finding: a time on the first edge is lost, although it passes the range
    check ... *)
Theorem C27_first_edge_lost : forall edges tof a, edges_ok edges ->
  nth_error edges 0 = Some a -> B2R (fdiv tof (f_of_Z 1000000000)) = B2R a ->
  bin_of edges (length edges - 1) tof = None.
Proof. exact first_edge_lost. Qed.
Print Assumptions C27_first_edge_lost.

(** ... so a hit at the very start of the pulse never reaches an image. *)
Theorem C27_time_zero_lost : forall sr edges hm ims b e z,
  edges_ok edges -> nth_error edges 0 = Some z -> B2R z = 0%R ->
  entries hm b = [e] -> en_tof e = Some (f_of_Z 0) -> length ims = (length edges - 1)%nat ->
  forall d, side sr d -> update_images sr edges hm ims b = Ok ims.
Proof. exact C27_zero_l. Qed.
Print Assumptions C27_time_zero_lost.
Example C27_zero_instance :
  map tof_ns (t_hits (tex_batch [Hit 120 260 3 0 0 (Some 0) 0])) = [Some (f_of_Z 0)] /\
  nth_error tex_edges 0 = Some (f_of_Z 0) /\ B2R (f_of_Z 0) = 0%R.
Proof. split; [vm_compute; reflexivity|]. split; reflexivity. Qed.

(** C28: a pixel grows by the number of entries that land on it. *)
Theorem C28_pixel_counts : forall sr d edges hm bs ims ims', edges_ok edges -> side sr d ->
  shape (length edges - 1) d ims ->
  update_all sr edges hm ims bs = Ok ims' ->
  shape (length edges - 1) d ims' /\
  forall i x y v, pixel ims i x y = Some v ->
    exists k, counted (fun e => lands sr edges e i x y) (flat_map (entries hm) bs) k /\
              pixel ims' i x y = Some ((v + k) mod 2 ^ 32).
Proof. exact C28_pixels_l. Qed.
Print Assumptions C28_pixel_counts.
Example C28_instance :
  (let! ims := init_images tex_sr tex_edges in
   let! ims' := update_all tex_sr tex_edges true ims [tex_batch tex_hits; tex_batch tex_hits] in
   Ok (map tex_flat [ims'], firstn 1 (skipn 1 ims'))) =
  Ok ([repeat 0 25 ++
       [0; 0; 0; 0; 0;  0; 0; 0; 0; 0;  0; 0; 0; 0; 0;  0; 4; 0; 0; 0;  0; 0; 0; 0; 0] ++
       repeat 0 25],
      [[[0; 0; 0; 0; 0]; [0; 0; 0; 0; 0]; [0; 0; 0; 0; 0]; [0; 4; 0; 0; 0]; [0; 0; 0; 0; 0]]]).
Proof. vm_compute. reflexivity. Qed.

(** C28: no entry lands on two pixels. *)
Theorem C28_at_most_one_pixel : forall sr edges e i x y i' x' y', edges_ok edges ->
  lands sr edges e i x y -> lands sr edges e i' x' y' -> i = i' /\ x = x' /\ y = y'.
Proof. exact lands_unique_l. Qed.
Print Assumptions C28_at_most_one_pixel.

(** C28: the sum of all pixels grows by the number of accepted entries, as long
    as no counter can overflow. *)
Theorem C28_total : forall sr d edges hm bs ims ims' B, edges_ok edges -> side sr d ->
  shape (length edges - 1) d ims ->
  (forall i x y v, pixel ims i x y = Some v -> v < B) ->
  B + zlen (flat_map (entries hm) bs) <= 2 ^ 32 ->
  update_all sr edges hm ims bs = Ok ims' ->
  exists k, counted (fun e => exists i x y, lands sr edges e i x y /\ 0 <= x < d /\ 0 <= y < d)
              (flat_map (entries hm) bs) k /\
            total ims' = total ims + k.
Proof. exact C28_total_l. Qed.
Print Assumptions C28_total.
Example C28_total_instance :
  (let! ims := init_images tex_sr tex_edges in
   let! ims' := update_all tex_sr tex_edges true ims [tex_batch tex_hits] in
   Ok (total ims, total ims')) = Ok (0, 2).
Proof. vm_compute. reflexivity. Qed.

(** C28: without super resolution a hit lands on its own coordinates, which are
    on the image. *)
Theorem C28_hit_pixel : forall edges h i x y, 0 <= h_x h < 2 ^ 31 -> 0 <= h_y h < 2 ^ 31 ->
  (lands (f_of_Z 1) edges (entry_of_hit h) i x y <->
   x = h_x h /\ y = h_y h /\
   exists tof, tof_ns h = Some tof /\ is_finite tof = true /\ (0 <= B2R tof)%R /\
     in_bin edges (fdiv tof (f_of_Z 1000000000)) i /\
     before_last edges (fdiv tof (f_of_Z 1000000000))).
Proof. exact hit_lands_l. Qed.
Print Assumptions C28_hit_pixel.
Theorem C28_image_side : side (f_of_Z 1) 517.
Proof. exact side_one. Qed.
Print Assumptions C28_image_side.

(** C28: hits with a time of flight never make the update fail. *)
Theorem C28_hits_succeed : forall edges bs n ims, (2 <= length edges)%nat ->
  shape n 517 ims ->
  Forall (fun h => 0 <= h_x h < 2 ^ 30 /\ 0 <= h_y h < 2 ^ 30 /\ tof_ns h <> None)
    (flat_map t_hits bs) ->
  exists ims', update_all (f_of_Z 1) edges true ims bs = Ok ims'.
Proof. exact C28_hits_l. Qed.
Print Assumptions C28_hits_succeed.
(** Neither does a neutron whose scaled coordinates are not huge. *)
Theorem C28_events_succeed : forall sr d edges bs n ims, side sr d -> (2 <= length edges)%nat ->
  shape n d ims ->
  Forall (fun e => forall v, v = n_x e \/ v = n_y e -> is_finite v = true ->
            is_finite (fmul v sr) = true /\ (Rabs (B2R (fmul v sr)) <= IZR (2 ^ 30))%R)
    (flat_map t_neutrons bs) ->
  exists ims', update_all sr edges false ims bs = Ok ims'.
Proof. exact C28_events_l. Qed.
Print Assumptions C28_events_succeed.
(** A hit without a time of flight (decoded before the first TDC pulse) makes it
    read an uninitialised value. *)
Theorem C28_uninitialised_time : forall sr d edges ims b h rest, side sr d ->
  (2 <= length edges)%nat -> ims <> [] -> t_hits b = h :: rest -> tof_ns h = None ->
  update_images sr edges true ims b = UB Uninitialised.
Proof. exact C28_uninit_l. Qed.
Print Assumptions C28_uninitialised_time.
Example C28_uninit_instance : tof_ns (Hit 1 2 3 4 5 None 6) = None.
Proof. reflexivity. Qed.

(** C29: creating the images at once is initialising and updating them. *)
Theorem C29_create_is_init_and_update : forall sr edges hm bs, bs <> [] -> (2 <= length edges)%nat ->
  create_images sr edges hm bs =
  let! ims := init_images sr edges in update_all sr edges hm ims bs.
Proof. exact C29_create_l. Qed.
Print Assumptions C29_create_is_init_and_update.
Example C29_create_instance :
  (let! ims := create_images tex_sr tex_edges true [tex_batch tex_hits; tex_batch []] in
   Ok (total ims)) = Ok 2.
Proof. vm_compute. reflexivity. Qed.

(** C29: any order and grouping of the same entries gives the same images. *)
Theorem C29_any_order : forall sr d edges hm n bs bs' ims ims', side sr d ->
  (2 <= length edges)%nat -> shape n d ims ->
  Permutation (flat_map (entries hm) bs) (flat_map (entries hm) bs') ->
  update_all sr edges hm ims bs = Ok ims' ->
  update_all sr edges hm ims bs' = Ok ims'.
Proof. exact C29_order_l. Qed.
Print Assumptions C29_any_order.
Example C29_order_instance :
  Permutation (flat_map (entries true) [tex_batch tex_hits; tex_batch []])
              (flat_map (entries true) [tex_batch (skipn 2 tex_hits); tex_batch (firstn 2 tex_hits)]) /\
  side tex_sr 5.
Proof.
  split; [|exact tex_side]. cbn [flat_map entries t_hits tex_batch]. cbn [skipn firstn tex_hits].
  rewrite !app_nil_r, <- map_app. apply Permutation_map. cbn [app].
  apply (Permutation_app_comm (firstn 2 tex_hits) (skipn 2 tex_hits)).
Qed.

(** C30: one row per bin: its upper edge and the sum of its pixels. *)
Theorem C30_spectrum_rows : forall edges ims, length edges = S (length ims) ->
  write_spectral edges (spectral_counts ims) =
  Ok (combine (tl edges) (map (fun im => total [im] mod 2 ^ 64) ims)).
Proof. exact C30_rows_l. Qed.
Print Assumptions C30_spectrum_rows.
Example C30_instance :
  (let! ims := create_images tex_sr tex_edges true [tex_batch tex_hits] in
   let! rows := write_spectral tex_edges (spectral_counts ims) in
   Ok (map snd rows)) = Ok [0; 2; 0].
Proof. vm_compute. reflexivity. Qed.

(** C30: with fewer counts than bins, or without edges, it reads out of bounds. *)
Theorem C30_too_few_counts : forall edges ims, (S (length ims) < length edges)%nat \/ edges = [] ->
  write_spectral edges (spectral_counts ims) = UB OutOfBounds.
Proof. exact C30_short_l. Qed.
Print Assumptions C30_too_few_counts.

(** C30: fewer than two edges. *)
Theorem C30_degenerate_edges : forall sr hm bs d e, side sr d ->
  init_images sr [] = Throw LengthError /\ create_images sr [] hm bs = Throw LengthError /\
  init_images sr [e] = Ok [] /\ create_images sr [e] hm bs = Ok [].
Proof. exact C30_degenerate_l. Qed.
Print Assumptions C30_degenerate_edges.

(** C30: a negative super resolution is an exception; one that makes the side no int
    is undefined. *)
Theorem C30_resolution : forall sr edges hm b bs, (2 <= length edges)%nat ->
  (forall d, side sr d -> d < 0 -> init_images sr edges = Throw LengthError /\ create_images sr edges hm (b :: bs) = Throw LengthError) /\
  ((forall d, ~ side sr d) -> init_images sr edges = UB BadConversion /\ create_images sr edges hm (b :: bs) = UB BadConversion).
Proof. exact C30_resolution_l. Qed.
Print Assumptions C30_resolution.
Example C30_resolution_instance :
  (let! ims := init_images (f_of_Z (-1)) tex_edges in Ok (length ims)) = Throw LengthError /\
  (let! ims := init_images (f_of_Z 10000000) tex_edges in Ok (length ims)) = UB BadConversion.
Proof. split; vm_compute; reflexivity. Qed.

(** C30: no batches: images without rows. *)
Theorem C30_no_batches : forall sr hm edges i, (2 <= length edges)%nat -> (i < length edges - 1)%nat ->
  exists ims, create_images sr edges hm [] = Ok ims /\ length ims = (length edges - 1)%nat /\
    nth_error ims i = Some [].
Proof. exact C30_no_batches_l. Qed.
Print Assumptions C30_no_batches.
