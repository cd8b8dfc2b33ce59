(** Model of sophiread/SophireadLib/src/dbscan.cpp and include/dbscan.h.
    std::sort and mlpack are parameters; messages and assertions are omitted. *)
From Verif Require Export M_Lib M_Abs.

(** dbscan.h:25-37: TimeClusterInfo. *)
Record info := Info
  { i_mean : f64; i_sum : f64; i_min : f64; i_max : f64; i_idx : list nat }.

(** DBL_MAX and DBL_MIN (the smallest positive normal number). *)
Definition dbl_max : f64 := @B754_finite 53 1024 false 9007199254740991 971 eq_refl.
Definition dbl_min : f64 := @B754_finite 53 1024 false 4503599627370496 (-1074) eq_refl.

(** dbscan.cpp:6-12 with the mean assigned at line 84; 14-20. *)
Definition info_new (mean : f64) : info := Info mean (f_of_Z 0) dbl_max dbl_min [].
Definition info_single (t : f64) (i : nat) : info := Info t t t t [i].

(** std::min, std::max. *)
Definition fmin (a b : f64) : f64 := if flt b a then b else a.
Definition fmax (a b : f64) : f64 := if flt a b then b else a.

(** What mlpack's DBSCAN returns: number of clusters, a label for every point
    (SIZE_MAX: none), and the centroids. *)
Record dbs_out (C : Type) := DbsOut { q_n : Z; q_labels : list Z; q_cents : list C }.
Arguments DbsOut {C}. Arguments q_n {C}. Arguments q_labels {C}. Arguments q_cents {C}.

(** std::sort with the comparison of lines 191-193, and fit1D, fit2D
    (dbscan.cpp:236-298) as functions of epsilon, the minimal number of points
    and the data. *)
Record dbs_ext := DbsExt
  { e_sort : list info -> list info;
    e_fit1 : f64 -> Z -> list f64 -> dbs_out f64;
    e_fit2 : f64 -> Z -> list (f64 * f64) -> dbs_out (f64 * f64) }.

(** dbscan.h:7-12, 53: constructor arguments; the size of a chunk. *)
Record dbs_cfg := DbsCfg
  { d_eps_time : f64; d_min_time : Z; d_eps_xy : f64; d_min_xy : Z }.
Definition chunk_hits : Z := 2000000.

Definition size_max : Z := 2 ^ 64 - 1.
(** dbscan.cpp:88, 150, 161: [number_of_clusters - 1] is unsigned. *)
Definition no_cluster (n label : Z) : bool := (label =? size_max) || (label >? u64 (n - 1)).

(** Conversion of an unsigned long to int. *)
Definition to_int (z : Z) : Z := (z + 2 ^ 31) mod 2 ^ 32 - 2 ^ 31.

(** * Time clusters *)

(** dbscan.cpp:76-84. *)
Fixpoint new_infos (n : nat) (cents : list f64) : outcome (list info) :=
  match n with
  | O => Ok []
  | S n' =>
      match cents with
      | [] => UB OutOfBounds
      | c :: cs => let! r := new_infos n' cs in Ok (info_new c :: r)
      end
  end.

(** dbscan.cpp:94-97. *)
Definition info_add (c : info) (t : f64) (i : nat) : info :=
  Info (i_mean c) (fadd (i_sum c) t) (fmin (i_min c) t) (fmax (i_max c) t) (i_idx c ++ [i]).

(** dbscan.cpp:86-103; [i] is [ii + hit_offset]. *)
Fixpoint assign (n : Z) (labels : list Z) (chunk : list f64) (i : nat) (infos singles : list info)
  : outcome (list info) :=
  match labels with
  | [] => Ok (infos ++ singles)
  | l :: ls =>
      match chunk with
      | [] => UB OutOfBounds
      | t :: ts =>
          if no_cluster n l then assign n ls ts (S i) infos (singles ++ [info_single t i])
          else
            match nth_error infos (Z.to_nat l) with
            | None => UB OutOfBounds
            | Some c =>
                match set_nth infos (Z.to_nat l) (info_add c t i) with
                | None => UB OutOfBounds
                | Some infos' => assign n ls ts (S i) infos' singles
                end
            end
      end
  end.

(** dbscan.cpp:70-103: one chunk. *)
Definition chunk_infos (ext : dbs_ext) (cfg : dbs_cfg) (chunk : list f64) (off : nat)
  : outcome (list info) :=
  let q := e_fit1 ext (d_eps_time cfg) (d_min_time cfg) chunk in
  let! infos := new_infos (Z.to_nat (q_n q)) (q_cents q) in
  assign (q_n q) (q_labels q) chunk off infos [].

(** dbscan.cpp:60-112: the loop over the chunks; [ts] are the times of the hits
    not yet processed. *)
Fixpoint chunks_loop (fuel : nat) (size : Z) (ext : dbs_ext) (cfg : dbs_cfg)
    (ts : list f64) (off : nat) (all : list info) : outcome (list info) :=
  match fuel with
  | O => OutOfFuel
  | S f =>
      let k := Z.to_nat (Z.min size (zlen ts)) in
      let! infos := chunk_infos ext cfg (firstn k ts) off in
      match skipn k ts with
      | [] => Ok (all ++ infos)
      | rest => chunks_loop f size ext cfg rest (off + k) (all ++ infos)
      end
  end.

(** dbscan.cpp:201-203. *)
Definition info_close (eps : f64) (cur next : info) : bool :=
  fgt (i_max cur) (i_min next) || fle (fsub (i_min next) (i_max cur)) eps.

(** dbscan.cpp:204-210. *)
Definition info_merge (cur next : info) : info :=
  Info (i_mean cur) (fadd (i_sum cur) (i_sum next))
       (fmin (i_min cur) (i_min next)) (fmax (i_max cur) (i_max next))
       (i_idx cur ++ i_idx next).

(** dbscan.cpp:212-216, 221-225: [size_t] to double. *)
Definition info_keep (minp : Z) (c : info) : list info :=
  if zlen (i_idx c) >=? minp
  then [Info (fdiv (i_sum c) (f_of_Z (zlen (i_idx c)))) (i_sum c) (i_min c) (i_max c) (i_idx c)]
  else [].

(** dbscan.cpp:199-225. *)
Fixpoint merge_loop (eps : f64) (minp : Z) (cur : info) (rest : list info) : list info :=
  match rest with
  | [] => info_keep minp cur
  | next :: rest' =>
      if info_close eps cur next then merge_loop eps minp (info_merge cur next) rest'
      else info_keep minp cur ++ merge_loop eps minp next rest'
  end.

(** dbscan.cpp:183-226; called with a non-empty vector. *)
Definition merge_infos (ext : dbs_ext) (cfg : dbs_cfg) (infos : list info) : outcome (list info) :=
  match e_sort ext infos with
  | [] => UB OutOfBounds
  | c :: rest => Ok (merge_loop (d_eps_time cfg) (d_min_time cfg) c rest)
  end.

(** dbscan.cpp:54-118: the merged time clusters of a non-empty vector of hits. *)
Definition time_clusters (size : Z) (ext : dbs_ext) (cfg : dbs_cfg) (hits : list hit)
  : outcome (list info) :=
  let! all := chunks_loop (length hits) size ext cfg (map toa_ns hits) 0 [] in
  match all with
  | [] => Ok []
  | _ => merge_infos ext cfg all
  end.

(** * Clusters in the plane *)

(** dbscan.cpp:137-140. *)
Fixpoint xy_points (hits : list hit) (ix : list nat) : outcome (list (f64 * f64)) :=
  match ix with
  | [] => Ok []
  | i :: r =>
      match nth_error hits i with
      | None => UB OutOfBounds
      | Some h => let! ps := xy_points hits r in Ok ((f_of_Z (h_x h), f_of_Z (h_y h)) :: ps)
      end
  end.

(** dbscan.cpp:147-154: the labels of the hits of one time cluster. *)
Fixpoint put_labels (n off : Z) (labels : list Z) (ix : list nat) (all : list Z)
  : outcome (list Z) :=
  match labels with
  | [] => Ok all
  | l :: ls =>
      match ix with
      | [] => UB OutOfBounds
      | i :: r =>
          match set_nth all i (if no_cluster n l then -1 else to_int (u64 (l + off))) with
          | None => UB OutOfBounds
          | Some all' => put_labels n off ls r all'
          end
      end
  end.

(** dbscan.cpp:157-164: std::map from labels to counts, by ascending label. *)
Fixpoint count_label (l : Z) (m : list (Z * Z)) : list (Z * Z) :=
  match m with
  | [] => [(l, 1)]
  | (k, c) :: r =>
      if l <? k then (l, 1) :: m
      else if l =? k then (k, c + 1) :: r
      else (k, c) :: count_label l r
  end.
Definition label_counts (n : Z) (labels : list Z) : list (Z * Z) :=
  fold_left (fun m l => if no_cluster n l then m else count_label l m) labels [].

(** dbscan.cpp:169-173; DSCALE is 1.0. *)
Fixpoint make_events (mean : f64) (cents : list (f64 * f64)) (counts : list (Z * Z))
  : outcome (list neutron) :=
  match counts with
  | [] => Ok []
  | (l, c) :: r =>
      match at_index cents l with
      | None => UB OutOfBounds
      | Some (x, y) =>
          let! es := make_events mean cents r in
          Ok (Neutron (fmul x (f_of_Z 1)) (fmul y (f_of_Z 1)) mean (f_of_Z 0) (to_int c) :: es)
      end
  end.

(** dbscan.cpp:133-174: the loop over the time clusters. *)
Fixpoint plane_loop (ext : dbs_ext) (cfg : dbs_cfg) (hits : list hit) (infos : list info)
    (off : Z) (labels : list Z) (events : list neutron) : outcome (list Z * list neutron) :=
  match infos with
  | [] => Ok (labels, events)
  | c :: rest =>
      let! ps := xy_points hits (i_idx c) in
      let q := e_fit2 ext (d_eps_xy cfg) (d_min_xy cfg) ps in
      let! labels' := put_labels (q_n q) off (q_labels q) (i_idx c) labels in
      let! es := make_events (i_mean c) (q_cents q) (label_counts (q_n q) (q_labels q)) in
      plane_loop ext cfg hits rest (u64 (off + q_n q)) labels' (events ++ es)
  end.

(** * The object *)

(** dbscan.h:52, 54. *)
Record dbs_obj := DbsObj { b_events : list neutron; b_labels : list Z }.
Definition dbs_new : dbs_obj := DbsObj [] [].

(** dbscan.cpp:30-175; [size] is m_max_hit_chunk_size. *)
Definition dbs_fit_with (size : Z) (ext : dbs_ext) (cfg : dbs_cfg) (o : dbs_obj) (hits : list hit)
  : outcome dbs_obj :=
  let labels := vresize (b_labels o) (length hits) (-1) in
  match hits with
  | [] => Ok (DbsObj [] labels)
  | _ =>
      let! infos := time_clusters size ext cfg hits in
      let! (labels', events) := plane_loop ext cfg hits infos 0 labels [] in
      Ok (DbsObj events labels')
  end.
Definition dbs_fit : dbs_ext -> dbs_cfg -> dbs_obj -> list hit -> outcome dbs_obj :=
  dbs_fit_with chunk_hits.

(** dbscan.cpp:306-313. *)
Definition dbs_get_events (ext : dbs_ext) (cfg : dbs_cfg) (o : dbs_obj) (hits : list hit)
  : outcome (dbs_obj * list neutron) :=
  match b_events o with
  | [] => let! o' := dbs_fit ext cfg o hits in Ok (o', b_events o')
  | es => Ok (o, es)
  end.

(** dbscan.cpp:318, 323. *)
Definition dbs_reset (o : dbs_obj) : dbs_obj := DbsObj [] (b_labels o).
Definition dbs_labels (o : dbs_obj) : list Z := b_labels o.
