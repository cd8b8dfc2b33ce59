(** Property C31 and the saving part of C30: image files.  Each theorem is
    followed by a concrete instance of its hypotheses. *)
From Coq Require Import Permutation.
From Verif Require Import S_Tiff P_Core P_Tiff.
Global Open Scope Z_scope.
Local Open Scope string_scope.
Local Open Scope list_scope.

(** * Concrete data: two bins of 2 x 1 pixels; the second file exists *)
Definition fex_old : files := fun p =>
  if String.eqb p "out/run_bin_0002.tiff" then Some (Tiff 2 1 [row_bytes [7; 4294967295]])
  else if String.eqb p "out/run_bin_0001.tiff" then Some (Tiff 3 1 [row_bytes [1; 1; 1]])
  else if String.eqb p "out/notes" then Some OtherFile else None.
Definition fex_ims (a b c d : Z) : list image := [[[a; b]]; [[c; d]]].
Definition fex_edges : list f64 := [f_of_Z 0; f_of_Z 1; f_of_Z 2].
Definition fex_calls : list save_call :=
  [Save (fex_ims 1 2 3 4) fex_edges [1%nat; 0%nat]; Save (fex_ims 10 20 30 40) fex_edges [0%nat; 1%nat]].
Lemma fex_stack a b c d : 0 <= a < 2 ^ 32 -> 0 <= b < 2 ^ 32 -> 0 <= c < 2 ^ 32 -> 0 <= d < 2 ^ 32 ->
  stack 2 2 1 (fex_ims a b c d).
Proof. intros. split; [reflexivity|]. repeat first [assumption|reflexivity|apply Forall_nil|apply Forall_cons|split]. Qed.

(** C31: a sequence of saves leaves the sums, modulo 2^32, of all saved stacks and
    of a readable image of the same size that was there before; the spectrum is
    that of the last stack; other files are untouched. *)
Theorem C31_history : forall writable dir base n w h calls c fs,
  0 < h -> 0 <= w -> (forall p, writable p = true) ->
  Forall (call_ok n w h) (calls ++ [c]) ->
  (forall i, (i < n)%nat ->
     saved fs (tiff_name dir base i) w h \/ unrelated fs (tiff_name dir base i) w h) ->
  exists fs', save_all writable dir base (calls ++ [c]) fs = Ok fs' /\
    (forall i x y u, (i < n)%nat -> 0 <= x < w -> 0 <= y < h ->
       prior fs (tiff_name dir base i) w h x y u ->
       disk fs' (tiff_name dir base i) x y =
         Some ((u + pixel_sum i x y (calls ++ [c])) mod 2 ^ 32)) /\
    fs' (spectra_name dir base) =
      Some (Spectrum (combine (tl (sv_edges c))
                        (map (fun im => total [im] mod 2 ^ 64) (sv_images c)))) /\
    (forall q, q <> spectra_name dir base ->
       (forall i, (i < n)%nat -> q <> tiff_name dir base i) -> fs' q = fs q).
Proof. exact C31_history_l. Qed.
Print Assumptions C31_history.
Example C31_instance :
  (let! fs := save_all (fun _ => true) "out" "run" fex_calls fex_old in
   Ok (map (fun p => map (fun x => disk fs p x 0) [0; 1])
         ["out/run_bin_0001.tiff"; "out/run_bin_0002.tiff"],
       match fs "out/run_Spectra.txt" with Some (Spectrum rows) => map snd rows | _ => [] end)) =
  Ok ([[Some 11; Some 22]; [Some 40; Some 43]], [30; 70]).
Proof. vm_compute. reflexivity. Qed.
Example C31_instance_hypotheses :
  Forall (call_ok 2 2 1) fex_calls /\
  saved fex_old (tiff_name "out" "run" 1) 2 1 /\ unrelated fex_old (tiff_name "out" "run" 0) 2 1.
Proof.
  split; [|split].
  - constructor; [|constructor; [|constructor]];
      (split; [apply fex_stack; lia|split; [reflexivity|]]); [apply perm_swap|apply Permutation_refl].
  - exists [row_bytes [7; 4294967295]]. split; [reflexivity|]. split; [reflexivity|].
    constructor; [|constructor]. split; [reflexivity|apply row_bytes_ok].
  - intros w h rows E. vm_compute in E. injection E as <- _ _. left. discriminate.
Qed.

(** C31: one save; a file of another size is replaced. *)
Theorem C31_one_save : forall writable dir base n w h ims edges order fs,
  0 < h -> 0 <= w -> stack n w h ims ->
  length edges = S n -> Permutation order (seq 0 n) -> (forall p, writable p = true) ->
  (forall i, (i < n)%nat ->
     saved fs (tiff_name dir base i) w h \/ unrelated fs (tiff_name dir base i) w h) ->
  exists fs', save_tiff true writable dir base ims edges order fs = Ok fs' /\
    (forall i, (i < n)%nat -> saved fs' (tiff_name dir base i) w h) /\
    (forall i x y v u, pixel ims i x y = Some v ->
       prior fs (tiff_name dir base i) w h x y u ->
       disk fs' (tiff_name dir base i) x y = Some ((u + v) mod 2 ^ 32)) /\
    fs' (spectra_name dir base) =
      Some (Spectrum (combine (tl edges) (map (fun im => total [im] mod 2 ^ 64) ims))) /\
    (forall q, q <> spectra_name dir base ->
       (forall i, (i < n)%nat -> q <> tiff_name dir base i) -> fs' q = fs q).
Proof. exact C31_save_l. Qed.
Print Assumptions C31_one_save.

(** C31: the order in which the parallel loop handles the bins does not matter. *)
Theorem C31_any_order : forall writable dir base n w h ims edges order order' fs fs1 fs2,
  0 < h -> 0 <= w -> stack n w h ims -> length edges = S n ->
  Permutation order (seq 0 n) -> Permutation order' (seq 0 n) ->
  (forall p, writable p = true) ->
  (forall i, (i < n)%nat ->
     saved fs (tiff_name dir base i) w h \/ unrelated fs (tiff_name dir base i) w h) ->
  save_tiff true writable dir base ims edges order fs = Ok fs1 ->
  save_tiff true writable dir base ims edges order' fs = Ok fs2 ->
  (forall i x y, (i < n)%nat -> 0 <= x < w -> 0 <= y < h ->
     disk fs1 (tiff_name dir base i) x y = disk fs2 (tiff_name dir base i) x y) /\
  forall q, (forall i, (i < n)%nat -> q <> tiff_name dir base i) -> fs1 q = fs2 q.
Proof. exact C31_order_l. Qed.
Print Assumptions C31_any_order.

(** C31: no two bins, and no bin and the spectrum, share a file. *)
Theorem C31_names_are_distinct : forall dir base i j,
  tiff_name dir base i <> spectra_name dir base /\
  (tiff_name dir base i = tiff_name dir base j -> i = j).
Proof. exact C31_names_l. Qed.
Print Assumptions C31_names_are_distinct.
Example C31_names_instance :
  map (tiff_name "out" "run") [0%nat; 11%nat; 998%nat; 2047%nat] =
  ["out/run_bin_0001.tiff"; "out/run_bin_0012.tiff"; "out/run_bin_0999.tiff"; "out/run_bin_2048.tiff"].
Proof. vm_compute. reflexivity. Qed.

(** C31: a file that cannot be opened for writing is left alone, silently. *)
Theorem C31_unwritable_file_kept : forall writable dir base fs bin w h (im : image),
  0 < h -> 0 <= w -> zlen im = h ->
  Forall (fun row => zlen row = w /\ Forall (fun v => 0 <= v < 2 ^ 32) row) im ->
  (saved fs (tiff_name dir base bin) w h \/ unrelated fs (tiff_name dir base bin) w h) ->
  writable (tiff_name dir base bin) = false ->
  save_bin writable dir base fs bin im = Ok fs.
Proof. exact C31_unwritable_l. Qed.
Print Assumptions C31_unwritable_file_kept.

(** C31 finding: an image of the same size with wider samples (for example RGB,
    or 64 bit) overflows the scan line buffer. *)
Theorem C31_wide_samples_overflow : forall writable dir base fs bin im row0 imr bytes rows,
  im = row0 :: imr ->
  fs (tiff_name dir base bin) = Some (Tiff (zlen row0) (zlen im) (bytes :: rows)) ->
  4 * zlen row0 < zlen bytes ->
  save_bin writable dir base fs bin im = UB OutOfBounds.
Proof. exact C31_wide_l. Qed.
Print Assumptions C31_wide_samples_overflow.

(** C31 finding: an image of the same size with narrower samples is taken for one
    with 32-bit samples: the bytes of the line are grouped by four, the rest is zero. *)
Theorem C31_narrow_samples : forall writable dir base fs bin w h (im : image) rows, 0 < h -> 0 <= w ->
  zlen im = h -> Forall (fun row => zlen row = w /\ Forall (fun v => 0 <= v < 2 ^ 32) row) im ->
  fs (tiff_name dir base bin) = Some (Tiff w h rows) -> zlen rows = h ->
  Forall (fun b => zlen b <= 4 * w /\ bytes_ok b) rows ->
  writable (tiff_name dir base bin) = true ->
  exists fs', save_bin writable dir base fs bin im = Ok fs' /\
    (forall q, q <> tiff_name dir base bin -> fs' q = fs q) /\
    forall x y v b, 0 <= x < w -> 0 <= y < h -> pixel [im] 0 x y = Some v -> nth_error rows (Z.to_nat y) = Some b ->
      disk fs' (tiff_name dir base bin) x y =
        Some ((v + nth (Z.to_nat (4 * x)) b 0 + nth (Z.to_nat (4 * x + 1)) b 0 * 2 ^ 8 +
               nth (Z.to_nat (4 * x + 2)) b 0 * 2 ^ 16 + nth (Z.to_nat (4 * x + 3)) b 0 * 2 ^ 24) mod 2 ^ 32).
Proof. exact C31_narrow_l. Qed.
Print Assumptions C31_narrow_samples.
(** 16-bit samples 7, 8 and 9: the first pixel gets 7 + 8 * 65536. *)
Example C31_narrow_instance :
  (let! fs := save_bin (fun _ => true) "out" "run" (fun p => if String.eqb p "out/run_bin_0001.tiff" then Some (Tiff 3 1 [[7; 0; 8; 0; 9; 0]]) else None) 0 [[1; 2; 3]] in
   Ok (map (fun x => disk fs "out/run_bin_0001.tiff" x 0) [0; 1; 2])) = Ok [Some (1 + 7 + 8 * 65536); Some (2 + 9); Some 3].
Proof. vm_compute. reflexivity. Qed.

(** C31: a directory that cannot be made is an exception; no file is touched. *)
Theorem C31_no_directory : forall writable dir base ims edges order fs,
  save_tiff false writable dir base ims edges order fs = Throw ExternalError.
Proof. exact C31_no_directory_l. Qed.
Print Assumptions C31_no_directory.

(** C30: saving what timedCreateTOFImages makes of an empty batch list reads
    outside the image. *)
Theorem C30_saving_no_batches : forall sr hm edges dir base writable mkdir order fs,
  (2 <= length edges)%nat -> Permutation order (seq 0 (length edges - 1)) -> mkdir = true ->
  exists ims, create_images sr edges hm [] = Ok ims /\
    save_tiff mkdir writable dir base ims edges order fs = UB OutOfBounds.
Proof. exact C30_saving_no_batches_l. Qed.
Print Assumptions C30_saving_no_batches.
