(** Properties C40, C41, C51 and C52: configuration.  Each theorem is followed by a
    concrete instance of its hypotheses. *)
From Coq Require Import Ascii Reals.
From Flocq Require Import Core.
From Verif Require Import P_Load.
Global Open Scope Z_scope.
Local Open Scope string_scope.
Local Open Scope list_scope.

(** * Concrete data *)

(** Reading of doubles in the instances: integers only. *)
Definition gex_rd (s : string) : f64 := f_of_Z (read_int s).
Definition gex_lines : list string :=
  ["# radius in pixels"; "  abs_radius 7 px"; ""; "spider_time_range	60"; "abs_min_cluster_size -2";
   "tof_bins 3"; "tof_max"; "spider_time_range +80"; "abs_radiuss 9"].
Definition gex_show (o : outcome config) : outcome (option Z * Z * Z * option Z * nat * list (option Z)) :=
  let! c := o in
  Ok (f_to_i32 (a_radius (g_abs c)), a_min (g_abs c), a_range (g_abs c), f_to_i32 (g_sr c),
      length (g_edges c), map (fun e => f_to_i32 (fmul e (f_of_Z 1000000000))) (firstn 4 (g_edges c))).
Definition gex_show' (o : outcome (option config)) :=
  let! r := o in match r with Some c => let! s := gex_show (Ok c) in Ok (Some s) | None => Ok None end.

(** * C40: text configuration *)

(** C40: reading succeeds exactly if no line leaves out a value; each parameter
    then has the value of the last line about it, or its default; negative sizes
    wrap to 64 bits. *)
Theorem C40_last_line_wins : forall rd ls c, parse_lines rd ls = Ok c <->
  complete ls /\
  setting "abs_radius" (fun s v => v = rd s) (f_of_Z 5) ls (a_radius c) /\
  setting "abs_min_cluster_size" int_setting 1 ls (a_min c) /\
  setting "spider_time_range" int_setting 75 ls (a_range c).
Proof. exact C40_l. Qed.
Print Assumptions C40_last_line_wins.
Example C40_last_line_instance :
  (let! c := parse_lines gex_rd gex_lines in Ok (f_to_i32 (a_radius c), a_min c, a_range c)) =
  Ok (Some 7, 18446744073709551614, 80).
Proof. vm_compute. reflexivity. Qed.
Example C40_says_instance :
  says "  abs_radius 7 px" "abs_radius" "7 px" /\ reads_int "-2" (-2) /\ reads_int "99999999999x" (2 ^ 31 - 1) /\
  reads_int "abc" 0.
Proof.
  split.
  - exists "  ", " ". split; [reflexivity|].
    split; [repeat (constructor; [left; reflexivity|]); constructor|].
    split; [repeat (constructor; [vm_compute; intuition discriminate|]); constructor|].
    split; [discriminate|]. split; [constructor; [left; reflexivity|constructor]|].
    right. split; [discriminate|]. exists "7"%char, " px". split; [reflexivity|]. vm_compute. intuition discriminate.
  - split; [|split]; apply read_int_spec; vm_compute; reflexivity.
Qed.

(** C40, finding: a line that names a parameter without a value makes the program
    use an uninitialised variable. *)
Theorem C40_missing_value_undefined : forall rd ls,
  parse_lines rd ls = UB Uninitialised <-> ~ complete ls.
Proof. exact C40_undefined_l. Qed.
Print Assumptions C40_missing_value_undefined.
Example C40_missing_value_instance :
  parse_lines gex_rd ["abs_radius 7"; "abs_radius "; "abs_radius 8"] = UB Uninitialised.
Proof. vm_compute. reflexivity. Qed.

(** C40: a line about anything but the three parameters has no effect; in
    particular tof_bins and tof_max have none. *)
Theorem C40_other_lines_ignored : forall rd l1 l l2, (forall k v, In k the_keys -> ~ says l k v) ->
  parse_lines rd (l1 ++ l :: l2) = parse_lines rd (l1 ++ l2).
Proof. exact C40_ignored_l. Qed.
Print Assumptions C40_other_lines_ignored.
Example C40_other_lines_instance : forall k v, In k the_keys -> ~ says "tof_max 0.5" k v.
Proof.
  intros k v I S. apply says_read in S. destruct S as (r & E & _). cbn in E. injection E as <- _.
  cbn in I. intuition discriminate.
Qed.

(** C40: lines about different parameters can be exchanged. *)
Theorem C40_order_irrelevant : forall rd l1 a b l2, (forall k v w, says a k v -> ~ says b k w) ->
  parse_lines rd (l1 ++ a :: b :: l2) = parse_lines rd (l1 ++ b :: a :: l2).
Proof. exact C40_order_l. Qed.
Print Assumptions C40_order_irrelevant.
Example C40_order_instance : forall k v w, says "abs_radius 3" k v -> ~ says "spider_time_range 4" k w.
Proof.
  intros k v w S S'. apply says_read in S, S'. destruct S as (r & E & _), S' as (r' & E' & _).
  cbn in E, E'. injection E as <- _. discriminate E'.
Qed.

(** C40: a whole file, with or without a line break at its end; the bins are
    always the default ones and the resolution is 1. *)
Theorem C40_file : forall rd ls last c, Forall one_line ls -> one_line last ->
  text_config rd (Text (text_of ls ++ last)) = Ok (Some c) <->
  (complete (ls ++ [last]) /\
   setting "abs_radius" (fun s v => v = rd s) (f_of_Z 5) (ls ++ [last]) (a_radius (g_abs c)) /\
   setting "abs_min_cluster_size" int_setting 1 (ls ++ [last]) (a_min (g_abs c)) /\
   setting "spider_time_range" int_setting 75 (ls ++ [last]) (a_range (g_abs c))) /\
  g_sr c = f_of_Z 1 /\ default_edges (f_lit 1 60) (g_edges c).
Proof. exact C40_text_l. Qed.
Print Assumptions C40_file.
Example C40_file_instance :
  gex_show' (text_config gex_rd (Text (text_of gex_lines ++ "abs_radius 6"))) =
  Ok (Some (Some 6, 18446744073709551614, 80, Some 1, 1501%nat, [Some 0; Some 11111; Some 22222; Some 33333])).
Proof. vm_compute. reflexivity. Qed.

(** C40: a file that does not exist ends the program, one that cannot be opened
    gives the defaults. *)
Theorem C40_no_file : forall rd, text_config rd NoFile = Ok None /\
  (exists edges, default_edges (f_lit 1 60) edges /\
     text_config rd Unreadable = Ok (Some (Config (AbsCfg (f_of_Z 5) 1 75) (f_of_Z 1) edges))).
Proof. exact C40_file_l. Qed.
Print Assumptions C40_no_file.
Example C40_no_file_instance : gex_show' (text_config gex_rd Unreadable) =
  Ok (Some (Some 5, 1, 75, Some 1, 1501%nat, [Some 0; Some 11111; Some 22222; Some 33333])).
Proof. vm_compute. reflexivity. Qed.

(** * C41: bin edges *)

(** C41: custom edges are used as they are. *)
Theorem C41_custom : forall b, tb_custom b <> [] -> get_bin_edges b = Ok (tb_custom b).
Proof. exact C41_custom_l. Qed.
Print Assumptions C41_custom.
Example C41_custom_instance :
  (let! l := get_bin_edges (Binning (Some 3) (Some (f_of_Z 9)) [f_of_Z 4; f_of_Z 2]) in Ok (map f_to_i32 l)) =
  Ok [Some 4; Some 2].
Proof. vm_compute. reflexivity. Qed.

(** C41: uniform bins: n + 1 finite, strictly increasing edges, the first 0, the
    i-th at i/n of the maximum up to a relative error of 2^-51. *)
Theorem C41_uniform : forall n max, 1 <= n < 2 ^ 31 - 1 -> is_finite max = true ->
  (bpow radix2 (-900) <= B2R max <= bpow radix2 900)%R ->
  exists edges e0, get_bin_edges (Binning (Some n) (Some max) []) = Ok edges /\ edges_ok edges /\
    divides_evenly max n edges /\ nth_error edges 0 = Some e0 /\ B2R e0 = 0%R.
Proof. exact C41_uniform_l. Qed.
Print Assumptions C41_uniform.
Example C41_uniform_instance :
  (let! l := get_bin_edges (Binning (Some 4) (Some (f_lit 5 10)) []) in
   Ok (map (fun e => f_to_i32 (fmul e (f_of_Z 1000))) l)) =
  Ok [Some 0; Some 125; Some 250; Some 375; Some 500].
Proof. vm_compute. reflexivity. Qed.

(** C41: without a number of bins there are 1500, without a maximum it is 1/60 s. *)
Theorem C41_missing : forall n max l,
  get_bin_edges (Binning None max l) = get_bin_edges (Binning (Some 1500) max l) /\
  get_bin_edges (Binning n None l) = get_bin_edges (Binning n (Some (f_lit 1 60)) l).
Proof. intros. split; reflexivity. Qed.
Print Assumptions C41_missing.

(** C41, finding: the last edge need not be the maximum. *)
Theorem C41_last_edge_refuted : exists n max e, 1 <= n /\ is_finite max = true /\
  (exists edges, get_bin_edges (Binning (Some n) (Some max) []) = Ok edges /\
     nth_error edges (Z.to_nat n) = Some e) /\ flt max e = true.
Proof.
  exists 3, (f_lit 1 10), (uniform_edge (f_lit 1 10) 3 3). split; [discriminate|]. split; [vm_compute; reflexivity|].
  split; [|vm_compute; reflexivity]. eexists. split; reflexivity.
Qed.
Print Assumptions C41_last_edge_refuted.

(** C41, finding: 0 bins give one edge that is not a number, -1 none at all, fewer
    an exception and the largest int an overflow. *)
Theorem C41_degenerate : forall max, is_finite max = true ->
  (exists e, get_bin_edges (Binning (Some 0) (Some max) []) = Ok [e] /\ is_nan e = true) /\
  get_bin_edges (Binning (Some (-1)) (Some max) []) = Ok [] /\
  (forall n, - 2 ^ 31 <= n < -1 -> get_bin_edges (Binning (Some n) (Some max) []) = Throw LengthError) /\
  get_bin_edges (Binning (Some (2 ^ 31 - 1)) (Some max) []) = UB SignedOverflow.
Proof. exact C41_degenerate_l. Qed.
Print Assumptions C41_degenerate.
Example C41_degenerate_instance :
  (let! l := get_bin_edges (Binning (Some 0) None []) in Ok (map (fun e => is_nan e) l)) = Ok [true].
Proof. vm_compute. reflexivity. Qed.

(** * C51: JSON configuration *)

(** C51: a JSON configuration is accepted exactly if it is an object, every setting
    has a value of the right kind at its place or no value at all, and the bins are
    usable; each setting is then that value, or its default.  Explicit edges take
    precedence over uniform bins, those over the default. *)
Theorem C51_json : forall j c, json_config j = Ok c <->
  (exists b, binning_of j b /\ get_bin_edges b = Ok (g_edges c)) /\
  taken j ["abs"; "radius"] is_double (f_of_Z 5) (a_radius (g_abs c)) /\
  taken j ["abs"; "min_cluster_size"] is_ulong 1 (a_min (g_abs c)) /\
  taken j ["abs"; "spider_time_range"] is_ulong 75 (a_range (g_abs c)) /\
  taken j ["tof_imaging"; "super_resolution"] is_double (f_of_Z 1) (g_sr c).
Proof. exact C51_l. Qed.
Print Assumptions C51_json.
Definition gex_json : json :=
  JObject [("abs", JObject [("radius", JInt 7); ("min_cluster_size", JInt (-1)); ("spider_time_range", JFloat (f_lit 601 10))]);
           ("tof_imaging", JObject [("super_resolution", JInt 2);
              ("bin_edges", JArray [JInt 0; JFloat (f_lit 5 1000); JInt 1]); ("uniform_bins", JObject [])])].
Example C51_json_instance :
  gex_show (json_config gex_json) =
    Ok (Some 7, 18446744073709551615, 60, Some 2, 3%nat, [Some 0; Some 5000000; Some 1000000000]) /\
  gex_show (json_config (JObject [("abs", JNull); ("tof_imaging", JObject [("uniform_bins", JObject [("num_bins", JInt 2)])])])) =
    Ok (Some 5, 1, 75, Some 1, 3%nat, [Some 0; Some 8350000; Some 16700000]) /\
  gex_show (json_config (JObject [("abs", JObject [("radius", JString "5")])])) = Throw ExternalError /\
  gex_show (json_config (JArray [])) = Throw ExternalError.
Proof. repeat split; vm_compute; reflexivity. Qed.

(** C51: wrong types are exceptions; the reading is undefined only for a fraction
    beyond the range of an integer setting and for 2^31 - 1 bins. *)
Theorem C51_undefined : forall j u, json_config j = UB u ->
  (u = BadConversion /\ exists f, no_u64 f /\
     (at_path j ["abs"; "min_cluster_size"] (JFloat f) \/ at_path j ["abs"; "spider_time_range"] (JFloat f))) \/
  (u = BadConversion /\ exists f, no_i32 f /\ at_path j ["tof_imaging"; "uniform_bins"; "num_bins"] (JFloat f)) \/
  (u = SignedOverflow /\ exists v, at_path j ["tof_imaging"; "uniform_bins"; "num_bins"] v /\ is_int32 v (2 ^ 31 - 1)).
Proof. exact C51_undefined_l. Qed.
Print Assumptions C51_undefined.
(** C51, finding: all of these happen. *)
Theorem C51_defined_refuted : exists j1 j2 j3,
  json_config j1 = UB BadConversion /\ json_config j2 = UB BadConversion /\ json_config j3 = UB SignedOverflow.
Proof.
  exists (JObject [("abs", JObject [("min_cluster_size", JFloat (f_lit (-3) 2))])]),
    (JObject [("tof_imaging", JObject [("uniform_bins", JObject [("num_bins", JFloat (f_of_Z (2 ^ 31)))])])]),
    (JObject [("tof_imaging", JObject [("uniform_bins", JObject [("num_bins", JInt (2 ^ 31 - 1))])])]).
  split; [vm_compute; reflexivity|]. split; vm_compute; reflexivity.
Qed.
Print Assumptions C51_defined_refuted.

(** C51, finding: an empty list of edges selects 1500 bins up to 1/60 s instead of
    the documented default of 16.7 ms, even if uniform bins are given. *)
Theorem C51_empty_edges : forall l1 l2 l3 l4 b, ~ In "tof_imaging" (map fst l1) -> ~ In "bin_edges" (map fst l3) ->
  binning_of (JObject (l1 ++ ("tof_imaging", JObject (l3 ++ ("bin_edges", JArray []) :: l4)) :: l2)) b ->
  b = Binning (Some 1500) (Some (f_lit 1 60)) [].
Proof. exact C51_empty_l. Qed.
Print Assumptions C51_empty_edges.
Example C51_empty_edges_instance :
  gex_show (json_config (JObject [("tof_imaging", JObject [("bin_edges", JArray []);
      ("uniform_bins", JObject [("num_bins", JInt 2)])])])) =
    Ok (Some 5, 1, 75, Some 1, 1501%nat, [Some 0; Some 11111; Some 22222; Some 33333]).
Proof. vm_compute. reflexivity. Qed.

(** * C52: choice of the format *)

(** C52: without a file name the defaults are used; a file named *.json is read as
    JSON, any other file as text; the auto reducer reads every file as JSON. *)
Theorem C52_format : forall rd parse name f,
  (name = "" -> exists edges, default_edges (f_lit 167 10000) edges /\
     load_config rd parse name f = Ok (Some (Config (AbsCfg (f_of_Z 5) 1 75) (f_of_Z 1) edges)) /\
     load_venus_config parse name f = Ok (Config (AbsCfg (f_of_Z 5) 1 75) (f_of_Z 1) edges)) /\
  (name <> "" -> load_venus_config parse name f = json_file parse f) /\
  (json_name name -> forall c, load_config rd parse name f = Ok (Some c) <-> json_file parse f = Ok c) /\
  (name <> "" -> ~ json_name name -> load_config rd parse name f = text_config rd f) /\
  (forall c, json_file parse f = Ok c <-> exists s j, f = Text s /\ parse s = Some j /\ json_config j = Ok c).
Proof. exact C52_l. Qed.
Print Assumptions C52_format.
Example C52_format_instance :
  gex_show' (load_config gex_rd (fun _ => Some gex_json) "conf.d/a.json" (Text "{}")) =
    Ok (Some (Some 7, 18446744073709551615, 60, Some 2, 3%nat, [Some 0; Some 5000000; Some 1000000000])) /\
  gex_show' (load_config gex_rd (fun _ => Some gex_json) "conf.json/a.JSON" (Text "abs_radius 4")) =
    Ok (Some (Some 4, 1, 75, Some 1, 1501%nat, [Some 0; Some 11111; Some 22222; Some 33333])) /\
  gex_show' (load_config gex_rd (fun _ => None) "" NoFile) =
    Ok (Some (Some 5, 1, 75, Some 1, 1501%nat, [Some 0; Some 11133; Some 22266; Some 33400])).
Proof. repeat split; vm_compute; reflexivity. Qed.

(** C52, finding: the default bins of the two formats differ. *)
Theorem C52_defaults_differ_refuted : exists e e' x x', default_edges (f_lit 1 60) e /\
  default_edges (f_lit 167 10000) e' /\ nth_error e 1500 = Some x /\ nth_error e' 1500 = Some x' /\
  flt x x' = true.
Proof.
  exists (edges_uniform (f_lit 1 60) 1500), (edges_uniform (f_lit 167 10000) 1500),
    (uniform_edge (f_lit 1 60) 1500 1500), (uniform_edge (f_lit 167 10000) 1500 1500).
  split; [reflexivity|]. split; [reflexivity|]. split; [reflexivity|]. split; [reflexivity|]. vm_compute. reflexivity.
Qed.
Print Assumptions C52_defaults_differ_refuted.
