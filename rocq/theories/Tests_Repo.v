(** The unit tests of the repository, run on the model.  These are tests of the
    model, not proofs about it: each [Example] is the data and the expectation of
    one test case (cited), evaluated.  Tests that draw random numbers are run for
    one draw; tests whose data file is not in the repository are left out. *)
From Coq Require Import Ascii.
From Verif Require Import M_Config M_Gdc M_LibIO M_Lib M_Core M_Tiff M_Hdf5 M_StreamCli.
Local Open Scope string_scope.
Local Open Scope Z_scope.
Local Open Scope list_scope.

(** EXPECT_NEAR(x, n / d, tn / td). *)
Definition near (x : f64) (n d tn td : Z) : bool :=
  fle (fsub x (f_lit n d)) (f_lit tn td) && fle (fsub (f_lit n d) x) (f_lit tn td).
(** EXPECT_DOUBLE_EQ, without its tolerance. *)
Definition same (x : f64) (n d : Z) : bool := fle x (f_lit n d) && fle (f_lit n d) x.

(** * FastSophiread/tests *)

(** test_hit.cpp:43-83. *)
Example repo_hit :
  (let! h := hit_gdc (Packet 1 2 3 4 5 6 7 8) 8411155 2000 0 in
   Ok (h_spider h, same (spider_ns h) 210278900 1, h_tof h, option_map (fun t => same t 25 1) (tof_ns h),
       h_x h, h_y h)) =
  Ok (8411156, true, Some 1, Some true, 388, 56).
Proof. vm_compute. reflexivity. Qed.

(** test_tpx3.cpp:44-73. *)
Example repo_batch :
  let b := new_batch 0 10 1 in
  (let! hs := ofold (fun hs _ => let! h := hit_gdc (Packet 1 2 3 4 5 6 7 8) 1000 2000 (t_chip b) in Ok (hs ++ [h]))
                (seq 0 10) [] in
   Ok (t_index b, t_num b, t_chip b, length hs)) = Ok (0, 10, 1, 10%nat).
Proof. vm_compute. reflexivity. Qed.

(** test_centroid.cpp:43-87, and SophireadLib/tests/test_peakfitting.cpp:18-53. *)
Definition repo_hits : list hit :=
  [Hit 1750 2038 2445 1428 3989 (Some 3026) 740; Hit 3015 2073 3212 718 2842 (Some 428) 422;
   Hit 772 3912 3133 2664 236 (Some 3334) 3134].
Definition repo_near (weighted : bool) (k x y : Z) (tn td : Z) : outcome (bool * bool * bool) :=
  let! n := centroid_fit weighted (f_of_Z k) repo_hits in
  Ok (near (n_x n) (k * x) 100 tn td, near (n_y n) (k * y) 100 tn td, near (n_tof n) 226267 100 tn td).
Example repo_centroid_weighted : repo_near true 1 186366 271874 1 100 = Ok (true, true, true).
Proof. vm_compute. reflexivity. Qed.
Example repo_centroid_scaled : repo_near true 2 186366 271874 1 10 = Ok (true, true, true).
Proof. vm_compute. reflexivity. Qed.
Example repo_centroid_plain : repo_near false 1 184567 267433 1 100 = Ok (true, true, true).
Proof. vm_compute. reflexivity. Qed.

(** test_abs.cpp:45-134; three clusters of 100 hits. *)
Definition repo_cluster (p t : Z) : list hit :=
  map (fun i => let i := Z.of_nat i in
         Hit p p (37 * i mod 100) (i * 7) (i mod 16) (Some (i * 20)) (t - i mod 2)) (seq 0 100).
Definition repo_data : list hit := repo_cluster 50 10 ++ repo_cluster 100 15 ++ repo_cluster 150 20.
Example repo_abs : forall ext,
  (let cfg := AbsCfg (f_of_Z 5) 1 75 in
   let! o := abs_fit 128 cfg abs_new repo_data in
   let! es := abs_get_events ext cfg (abs_set_method o MCentroid) repo_data in
   Ok (length (o_labels abs_new), length (o_labels (abs_reset abs_new)),
       map (fun c => near (n_x (fst c)) (snd c) 1 1 2 && near (n_y (fst c)) (snd c) 1 1 2)
         (combine es [50; 100; 150]), length es)) =
  Ok (0%nat, 0%nat, [true; true; true], 3%nat).
Proof. intros. vm_compute. reflexivity. Qed.

(** test_gdc_processor.cpp:13-85. *)
Definition repo_gdc_chip (c : Z) : list Z :=
  [84; 80; 88; 51; c; 0; 16; 0] ++
  [0xAA; 0xAA; 1987 mod 256; 1987 / 256; 0; 0; 0; 0x44] ++ [0xAA; 0xAA; 0x34; 0x12; 0; 0; 0; 0x45].
Example repo_gdc :
  map gr_value (fst (process_gdc_chunk (repo_gdc_chip 1 ++ repo_gdc_chip 2) 0 (0, 0))) =
  [0x123400000000 + 1987; 0x123400000000 + 1987].
Proof. vm_compute. reflexivity. Qed.

(** test_disk_io.cpp:136-246: ten hits are saved, five appended; the same for
    neutrons.  The lengths of dataset x in the two groups. *)
Definition repo_n (n : nat) : list hit := map (fun i => Hit (Z.of_nat i + 1) 5 6 7 8 (Some 9) 10) (seq 0 n).
Definition repo_events (n : nat) : list neutron :=
  map (fun i => Neutron (f_of_Z (Z.of_nat i + 1)) (f_of_Z 2) (f_of_Z 3) (f_of_Z 4) 5) (seq 0 n).
Definition repo_points (d : h5disk) (g : string) : option nat :=
  match d "testfile.hdf5" with
  | Some f => match find_group f g with Some c => option_map (@length f64) (c "x") | None => None end
  | None => None
  end.
Definition repo_path : path := Path "" "testfile" ".hdf5".
Example repo_save_hits :
  (let! d1 := save_hits (fun _ => None) repo_path 0 (repo_n 10) in
   let! d2 := append_hits_group d1 "testfile.hdf5" (repo_n 5) in
   Ok (repo_points d1 "hits", repo_points d1 "hits_1", repo_points d2 "hits", repo_points d2 "hits_1")) =
  Ok (Some 10%nat, None, Some 10%nat, Some 5%nat).
Proof. vm_compute. reflexivity. Qed.
Example repo_save_neutrons :
  (let! d1 := save_neutrons (fun _ => None) repo_path 0 (repo_events 10) in
   let! d2 := append_neutrons_group d1 "testfile.hdf5" (repo_events 5) in
   Ok (repo_points d1 "neutrons", repo_points d2 "neutrons", repo_points d2 "neutrons_1")) =
  Ok (Some 10%nat, Some 10%nat, Some 5%nat).
Proof. vm_compute. reflexivity. Qed.
(** test_disk_io.cpp:74-134: six digits, whatever the number of microseconds. *)
Example repo_micros :
  (render (with_micros (Path "/path/to" "myfile" ".txt") (Z.to_nat 123456)),
   render (with_micros (Path "" "myfile" ".txt") 42), render (with_micros (Path "/path/to" "myfile" "") 0)) =
  ("/path/to/myfile_123456.txt", "myfile_000042.txt", "/path/to/myfile_000000.h5").
Proof. vm_compute. reflexivity. Qed.

(** * SophireadCLI/tests *)

(** test_sophiread_core.cpp:21-41, 83-92. *)
Definition repo_mock (n : nat) : list Z :=
  concat (repeat [84; 80; 88; 51; 0; 0; 8; 0; 0; 0; 0; 0; 0; 0; 0; 0] n).
Example repo_headers : (length (repo_mock 100), length (find_headers (repo_mock 100))) = (1600%nat, 100%nat).
Proof. vm_compute. reflexivity. Qed.

(** test_sophiread_core.cpp:94-113: ten packets of the letter T. *)
Example repo_letters :
  let m := repeat 84 (Z.to_nat 8000) in
  (let! r := locate GDC_mode [new_batch 0 10 0] m (zlen m) ts0 in
   let! bs := extract_all GDC_mode (fst r) m (zlen m) in
   Ok (map (fun b => length (t_hits b)) bs)) = Ok [0%nat].
Proof. vm_compute. reflexivity. Qed.

(** test_sophiread_core.cpp:43-66: batches with hits and neutrons.  The examples use
    one hit per batch instead of five, to keep the evaluation short. *)
Definition repo_mock_batch (i : Z) (hits : nat) : outcome batch :=
  let! hs := ofold (fun hs j =>
      let! h := hit_gdc (Packet 0 0 0 0 0 0 0 0) (1000 + Z.of_nat j) (2000 + Z.of_nat j) (i mod 3) in
      Ok (hs ++ [h])) (seq 0 hits) [] in
  let! ns := ofold (fun ns h =>
      let! t := get_tof h in
      Ok (ns ++ [Neutron (f_of_Z (h_x h)) (f_of_Z (h_y h)) (f_of_Z t) (f_of_Z (h_tot h)) 1])) hs [] in
  let b := new_batch (i * 100) (Z.of_nat hits) (i mod 3) in
  Ok (Batch (t_index b) (t_num b) (t_chip b) hs ns (t_ts b)).
Definition repo_edges : list f64 := [f_of_Z 0; f_lit 1 10; f_lit 2 10; f_lit 3 10].

(** test_sophiread_core.cpp:131-140. *)
Example repo_create_images :
  (let! b0 := repo_mock_batch 0 1 in
   let! b1 := repo_mock_batch 1 1 in
   let! ims := create_images (f_of_Z 1) repo_edges false [b0; b1] in
   Ok (length ims, map (@length (list Z)) ims, forallb (fun im => forallb (fun r => zlen r =? 517) im) ims)) =
  Ok (3%nat, [517%nat; 517%nat; 517%nat], true).
Proof. vm_compute. reflexivity. Qed.

(** test_sophiread_core.cpp:142-171: names of the files and rows of the spectrum. *)
Example repo_tiff :
  (let! fs := save_tiff true (fun _ => true) "test_tof" "test" (repeat (repeat (repeat 1 10) 10) 3) repo_edges
                [0%nat; 1%nat; 2%nat] (fun _ => None) in
   Ok (map (fun p => match fs p with Some (Tiff w h _) => (w, h) | _ => (0, 0) end)
         ["test_tof/test_bin_0001.tiff"; "test_tof/test_bin_0002.tiff"; "test_tof/test_bin_0003.tiff"],
       match fs "test_tof/test_Spectra.txt" with
       | Some (Spectrum rows) => map (fun r => (same (fst (fst r)) (snd r) 10, snd (fst r))) (combine rows [1; 2; 3])
       | _ => []
       end)) =
  Ok ([(10, 10); (10, 10); (10, 10)], [(true, 100); (true, 100); (true, 100)]).
Proof. vm_compute. reflexivity. Qed.

(** test_sophiread_core.cpp:173-198: some pixel has been counted. *)
Example repo_update_images :
  (let! b := repo_mock_batch 0 1 in
   let! ims := update_images (f_of_Z 1) repo_edges false (repeat (repeat (repeat 0 517) 517) 3) b in
   Ok (existsb (fun im => existsb (fun row => existsb (fun v => v >? 0) row) im) ims)) = Ok true.
Proof. vm_compute. reflexivity. Qed.

(** test_sophiread_core.cpp:200-212. *)
Example repo_spectral_counts : spectral_counts (repeat (repeat (repeat 2 5) 5) 3) = [50; 50; 50].
Proof. vm_compute. reflexivity. Qed.

(** test_sophiread_core.cpp:214-238. *)
Example repo_spectral_file :
  (let! rows := write_spectral repo_edges [10; 20; 30] in
   Ok (map (fun r => (same (fst (fst r)) (snd r) 10, snd (fst r))) (combine rows [1; 2; 3]), length rows)) =
  Ok ([(true, 10); (true, 20); (true, 30)], 3%nat).
Proof. vm_compute. reflexivity. Qed.

(** What the configuration tests look at: radius, sizes, super resolution, number
    of edges, first and last edge. *)
Definition repo_cfg (o : outcome config) (radius sr maxn maxd : Z) :=
  let! c := o in
  Ok (same (a_radius (g_abs c)) radius 1, a_min (g_abs c), a_range (g_abs c), same (g_sr c) sr 1,
      length (g_edges c), same (hd (f_of_Z 1) (g_edges c)) 0 1, near (last (g_edges c) (f_of_Z 1)) maxn maxd 1 (2 ^ 57)).

(** test_json_config_parser.cpp:21-36, 67-83. *)
Example repo_json_uniform :
  repo_cfg (json_config (JObject
      [("abs", JObject [("radius", JFloat (f_lit 6 1)); ("min_cluster_size", JInt 2); ("spider_time_range", JInt 80)]);
       ("tof_imaging", JObject
          [("uniform_bins", JObject [("num_bins", JInt 1000); ("end", JFloat (f_lit 167 10000))]);
           ("super_resolution", JFloat (f_lit 2 1))])])) 6 2 167 10000 =
  Ok (true, 2, 80, true, 1001%nat, true, true).
Proof. vm_compute. reflexivity. Qed.
(** test_json_config_parser.cpp:39-50, 85-100. *)
Example repo_json_custom :
  (let o := json_config (JObject
      [("abs", JObject [("radius", JFloat (f_lit 7 1)); ("min_cluster_size", JInt 3); ("spider_time_range", JInt 85)]);
       ("tof_imaging", JObject
          [("bin_edges", JArray [JInt 0; JFloat (f_lit 1 1000); JFloat (f_lit 2 1000); JFloat (f_lit 5 1000);
                                 JFloat (f_lit 1 100); JFloat (f_lit 167 10000)])])]) in
   let! s := repo_cfg o 7 1 167 10000 in
   let! c := o in
   Ok (s, map (fun e => same (fst e) (snd e) 10000) (combine (g_edges c) [0; 10; 20; 50; 100; 167]))) =
  Ok (true, 3, 85, true, 6%nat, true, true, [true; true; true; true; true; true]).
Proof. vm_compute. reflexivity. Qed.
(** test_json_config_parser.cpp:53-57, 102-114. *)
Example repo_json_default :
  repo_cfg (json_config (JObject [("abs", JObject [])])) 5 1 167 10000 = Ok (true, 1, 75, true, 1501%nat, true, true).
Proof. vm_compute. reflexivity. Qed.
(** test_json_config_parser.cpp:116-119. *)
Example repo_json_missing : forall parse, json_file parse Unreadable = Throw RuntimeError.
Proof. reflexivity. Qed.

(** test_user_config.cpp:19-43. *)
Example repo_user_default : repo_cfg (user_config default_abs) 5 1 1 60 = Ok (true, 1, 75, true, 1501%nat, true, true).
Proof. vm_compute. reflexivity. Qed.
Example repo_user_values :
  repo_cfg (user_config (AbsCfg (f_of_Z 10) 5 100)) 10 1 1 60 = Ok (true, 5, 100, true, 1501%nat, true, true).
Proof. vm_compute. reflexivity. Qed.
(** test_user_config.cpp:58-84. *)
Example repo_user_binning :
  (let! e := get_bin_edges (Binning (Some 1000) (Some (f_of_Z 20000)) []) in
   let! e' := get_bin_edges (Binning (Some 1500) (Some (f_lit 1 60)) (map f_of_Z [0; 100; 200; 300; 400])) in
   Ok (length e, same (hd (f_of_Z 1) e) 0 1, same (last e (f_of_Z 1)) 20000 1,
       map (fun e => same (fst e) (snd e) 1) (combine e' [0; 100; 200; 300; 400]), length e')) =
  Ok (1001%nat, true, true, [true; true; true; true; true], 5%nat).
Proof. vm_compute. reflexivity. Qed.

(** Reading of the doubles that occur in the test files: digits before the point. *)
Definition repo_rd (s : string) : f64 := f_of_Z (read_int s).
Definition repo_text (ls : list string) : string :=
  fold_right (fun l r => l ++ String newline r)%string "" ls.
(** test_user_config.cpp:100-122. *)
Example repo_user_file :
  (let! r := text_config repo_rd
      (Text (repo_text ["# ABS"; "abs_radius 20.0"; "abs_min_cluster_size 30"; "spider_time_range 500"])) in
   match r with Some c => repo_cfg (Ok c) 20 1 1 60 | None => Throw RuntimeError end) =
  Ok (true, 30, 500, true, 1501%nat, true, true).
Proof. vm_compute. reflexivity. Qed.
(** test_user_config.cpp:125-141. *)
Example repo_user_unknown :
  (let! r := text_config repo_rd (Text (repo_text ["# ABS"; "unknown_parameter 123.45"])) in
   match r with Some c => repo_cfg (Ok c) 5 1 1 60 | None => Throw RuntimeError end) =
  Ok (true, 1, 75, true, 1501%nat, true, true).
Proof. vm_compute. reflexivity. Qed.

(** test_gdc_extractor.cpp:5-40. *)
Definition repo_env : gdc_env :=
  GEnv (fun p => String.eqb p "/dev/null") (fun p => String.eqb p "/dev/null")
       (fun p => String.eqb p "test.csv") (fun p => String.eqb p "test.csv").
Example repo_gdc_options :
  map (fun o => gdc_validate repo_env o)
    [GOpt "/dev/null" "test.csv" (1024 * 1024 - 1) false false;
     GOpt "/dev/null" "test.csv" (20 * 1024 * 1024 * 1024 + 1) false false;
     GOpt "/dev/null" "test.csv" (10 * 1024 * 1024) false false;
     GOpt "nonexistent.tpx3" "" (10 * 1024 * 1024) false false;
     GOpt "/dev/null" "/nonexistent/path/output.csv" (10 * 1024 * 1024) false false] =
  [false; false; true; false; false].
Proof. vm_compute. reflexivity. Qed.

(** * SophireadLib/tests *)

(** test_tpx3.cpp:58-118: resources/data/rollover_test_data.tpx3 and the times of
    its hits. *)
Definition repo_rollover : list Z :=
  [84; 80; 88; 51; 0; 0; 208; 0; 0; 240; 255; 255; 255; 111; 135; 185;
   0; 255; 255; 255; 255; 111; 135; 185; 255; 255; 255; 255; 255; 111; 135; 185;
   15; 0; 255; 255; 255; 111; 135; 185; 255; 0; 255; 255; 255; 111; 135; 185;
   255; 15; 255; 255; 255; 111; 135; 185; 255; 47; 255; 255; 255; 111; 135; 185;
   15; 0; 255; 255; 255; 111; 135; 185; 255; 63; 255; 255; 255; 111; 135; 185;
   255; 0; 255; 255; 255; 111; 135; 185; 255; 15; 255; 255; 255; 111; 135; 185;
   255; 31; 255; 255; 255; 111; 135; 185; 255; 47; 255; 255; 255; 111; 135; 185;
   15; 0; 255; 255; 255; 111; 135; 185; 255; 0; 255; 255; 255; 111; 135; 185;
   255; 15; 255; 255; 255; 111; 135; 185; 255; 47; 255; 255; 255; 111; 135; 185;
   0; 240; 255; 255; 255; 111; 135; 185; 0; 255; 255; 255; 255; 111; 135; 185;
   255; 255; 255; 255; 255; 111; 135; 185; 15; 0; 255; 255; 255; 111; 135; 185;
   255; 0; 255; 255; 255; 111; 135; 185; 255; 15; 255; 255; 255; 111; 135; 185;
   255; 31; 255; 255; 255; 111; 135; 185; 255; 47; 255; 255; 255; 111; 135; 185;
   255; 63; 255; 255; 255; 111; 135; 185].
Example repo_rollover_times :
  (let! hs := read_raw (Some repo_rollover) in Ok (map h_spider hs)) =
  Ok [1006649343; 1069563903; 1073741823; 1074003967; 1077936127; 1140850687; 1275068415;
      1074003967; 1342177279; 1077936127; 1140850687; 1207959551; 1275068415; 1074003967;
      1077936127; 1140850687; 1275068415; 1006649343; 1069563903; 1073741823; 1074003967;
      1077936127; 1140850687; 1207959551; 1275068415; 1342177279].
Proof. vm_compute. reflexivity. Qed.

(** test_tpx3.cpp:121-134: resources/data/user_defined_params.txt and
    user_defined_params_1.txt. *)
Definition repo_params (r m s : string) : string :=
  ("# ABS" ++ String newline (r ++ String newline (m ++ String newline s)))%string.
Example repo_params_files :
  map (fun f => let c := parse_params repo_rd (Some f) in (f_to_i32 (a_radius c), a_min c, a_range c))
    [repo_params "abs_radius 5.0 					# in number of pixels" "abs_min_cluster_size 1  		# in number of pixels"
       "spider_time_range 75 			# in nanoseconds";
     repo_params "abs_radius 20.0 					# in number of pixels" "abs_min_cluster_size 30  		# in number of pixels"
       "spider_time_range 500000 			# in nanoseconds"] =
  [(Some 5, 1, 75); (Some 20, 30, 500000)].
Proof. vm_compute. reflexivity. Qed.

(** test_clustering.cpp:46-86: ABS with four slots. *)
Example repo_lib_abs : forall ext,
  (let cfg := AbsCfg (f_of_Z 5) 1 75 in
   let! o := lib_fit cfg abs_new repo_data in
   let! es := lib_get_events ext cfg (abs_set_method o MCentroid) repo_data in
   Ok (map (fun c => near (n_x (fst c)) (snd c) 1 2 1 && near (n_y (fst c)) (snd c) 1 2 1)
         (combine es [50; 100; 150]), length es)) =
  Ok ([true; true; true], 3%nat).
Proof. intros. vm_compute. reflexivity. Qed.
