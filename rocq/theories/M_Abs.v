(** Model of sophiread/FastSophiread/src/abs.cpp and include/abs.h.  The number
    of slots is a parameter: 8 here (abs.h:53), 4 in SophireadLib.
    [int] counters are unbounded (fewer than 2^31 - 8 hits). *)
From Verif Require Export M_Centroid.

(** abs.h:23-27: struct Cluster. *)
Record slot := Slot
  { c_xmin : Z; c_ymin : Z; c_xmax : Z; c_ymax : Z;
    c_time : Z;                (* unsigned long long spidertime, ns *)
    c_label : Z; c_size : Z }.

(** abs.h:35-39, 48-55: constructor arguments. *)
Record abs_cfg := AbsCfg
  { a_radius : f64;            (* m_feature *)
    a_min : Z;                 (* unsigned long m_min_cluster_size *)
    a_range : Z }.             (* unsigned long spiderTimeRange_ *)

(** abs.cpp:30-33. *)
Definition init_slots (n : nat) : list slot :=
  map (fun i => Slot 0 0 0 0 0 (Z.of_nat i) 0) (seq 0 n).

(** abs.cpp:63-64: the difference is taken and compared in double. *)
Definition time_ok (cfg : abs_cfg) (h : hit) (c : slot) : bool :=
  fle (fabs (fsub (spider_ns h) (f_of_Z (c_time c)))) (f_of_Z (a_range cfg)).

(** abs.cpp:65-68. *)
Definition box_ok (cfg : abs_cfg) (h : hit) (c : slot) : bool :=
  fge (f_of_Z (h_x h)) (fsub (f_of_Z (c_xmin c)) (a_radius cfg)) &&
  fle (f_of_Z (h_x h)) (fadd (f_of_Z (c_xmax c)) (a_radius cfg)) &&
  fge (f_of_Z (h_y h)) (fsub (f_of_Z (c_ymin c)) (a_radius cfg)) &&
  fle (f_of_Z (h_y h)) (fadd (f_of_Z (c_ymax c)) (a_radius cfg)).

(** abs.cpp:54, 102: assignment of the double to the unsigned long long. *)
Definition hit_time (h : hit) : outcome Z :=
  match f_to_u64 (spider_ns h) with Some t => Ok t | None => UB BadConversion end.

(** abs.cpp:48-57, case_0; 97-103 with the new label. *)
Definition start_slot (h : hit) (label size : Z) : outcome slot :=
  let! t := hit_time h in
  Ok (Slot (h_x h) (h_y h) (h_x h) (h_y h) t label size).

(** abs.cpp:69-73, case_1. *)
Definition grow_slot (h : hit) (c : slot) : slot :=
  Slot (Z.min (c_xmin c) (h_x h)) (Z.min (c_ymin c) (h_y h))
       (Z.max (c_xmax c) (h_x h)) (Z.max (c_ymax c) (h_y h))
       (c_time c) (c_label c) (c_size c + 1).

(** abs.cpp:46-82: the loop over the slots.  Some (label, slots) if a cluster
    was found. *)
Fixpoint scan (cfg : abs_cfg) (h : hit) (cs : list slot)
  : outcome (option (Z * list slot)) :=
  match cs with
  | [] => Ok None
  | c :: rest =>
      let next :=
        let! r := scan cfg h rest in
        Ok (match r with Some (l, rest') => Some (l, c :: rest') | None => None end) in
      if c_size c =? 0 then
        let! c' := start_slot h (c_label c) (c_size c + 1) in
        Ok (Some (c_label c, c' :: rest))
      else if time_ok cfg h c then
        if box_ok cfg h c then Ok (Some (c_label c, grow_slot h c :: rest))
        else next
      else next
  end.

(** abs.cpp:86-93: index of the slot with the smallest spidertime; [j] is the
    loop variable. *)
Fixpoint min_slot (cs : list slot) (j : nat) (min_time : Z) (min_index : nat) : nat :=
  match cs with
  | [] => min_index
  | c :: rest =>
      if (c_size c >? 0) && (c_time c <? min_time)
      then min_slot rest (S j) (c_time c) j
      else min_slot rest (S j) min_time min_index
  end.
Definition oldest_slot (cs : list slot) : outcome nat :=
  match cs with
  | [] => UB OutOfBounds
  | c :: rest => Ok (min_slot rest 1 (c_time c) 0)
  end.

(** Assignment to an element of a vector; [None] outside. *)
Fixpoint set_nth {A} (l : list A) (i : nat) (a : A) : option (list A) :=
  match l, i with
  | [], _ => None
  | _ :: r, O => Some (a :: r)
  | x :: r, S i' => match set_nth r i' a with Some r' => Some (x :: r') | None => None end
  end.

(** abs.cpp:41-107: one hit.  State: the slots and max_label. *)
Definition abs_step (cfg : abs_cfg) (st : list slot * Z) (h : hit)
  : outcome (list slot * Z * Z) :=
  let (cs, max_label) := st in
  let! r := scan cfg h cs in
  match r with
  | Some (label, cs') => Ok (cs', max_label, label)
  | None =>
      let! k := oldest_slot cs in
      let! c' := start_slot h max_label 1 in
      match set_nth cs k c' with
      | Some cs' => Ok (cs', max_label + 1, max_label)
      | None => UB OutOfBounds
      end
  end.

(** std::vector::resize. *)
Definition vresize {A} (l : list A) (n : nat) (v : A) : list A :=
  firstn n l ++ repeat v (n - length l).

(** abs.cpp:38-111: the loop over the hits; [i] is the loop variable and
    [labels] the vector clusterLabels_. *)
Fixpoint label_loop (cfg : abs_cfg) (data : list hit) (i : nat) (st : list slot * Z)
    (labels : list Z) : outcome (list Z * Z) :=
  match data with
  | [] => Ok (labels, snd st)
  | h :: rest =>
      let! (cs, m, l) := abs_step cfg st h in
      match set_nth labels i l with
      | Some labels' => label_loop cfg rest (S i) (cs, m) labels'
      | None => UB OutOfBounds
      end
  end.

(** Element access with an [int] index converted to size_t. *)
Definition at_index {A} (l : list A) (i : Z) : option A :=
  if i <? 0 then None else nth_error l (Z.to_nat i).

(** abs.cpp:115-117: the loop filling clusterIndices_. *)
Fixpoint index_loop (labels : list Z) (i : nat) (idx : list (list nat))
  : outcome (list (list nat)) :=
  match labels with
  | [] => Ok idx
  | l :: rest =>
      match at_index idx l with
      | None => UB OutOfBounds
      | Some v =>
          match set_nth idx (Z.to_nat l) (v ++ [i]) with
          | Some idx' => index_loop rest (S i) idx'
          | None => UB OutOfBounds
          end
      end
  end.

(** abs.h:49: the values of m_method that get_events distinguishes. *)
Inductive method := MCentroid | MFastGaussian | MOther.

(** The mutable members of an ABS object. *)
Record abs_obj := AbsObj
  { o_method : method; o_labels : list Z; o_indices : list (list nat) }.

(** abs.h:48-52: a new object. *)
Definition abs_new : abs_obj := AbsObj MCentroid [] [].

(** abs.cpp:24-118: ABS::fit. *)
Definition abs_fit (nslots : nat) (cfg : abs_cfg) (o : abs_obj) (data : list hit)
  : outcome abs_obj :=
  let labels := vresize (firstn 0 (o_labels o)) (length data) (-1) in
  let! (labels, max_label) :=
    label_loop cfg data 0 (init_slots nslots, Z.of_nat nslots) labels in
  let idx := vresize (firstn 0 (o_indices o)) (Z.to_nat (max_label + 1)) [] in
  let! idx := index_loop labels 0 idx in
  Ok (AbsObj (o_method o) labels idx).

(** abs.h:41, 42. *)
Definition abs_set_method (o : abs_obj) (m : method) : abs_obj :=
  AbsObj m (o_labels o) (o_indices o).
Definition abs_reset (o : abs_obj) : abs_obj :=
  AbsObj (o_method o) [] (o_indices o).

(** std::max_element on a non-empty vector of ints. *)
Definition max_label_of (l : Z) (ls : list Z) : Z := fold_left Z.max ls l.

(** abs.cpp:161-166: the hits of one cluster. *)
Fixpoint gather (data : list hit) (ix : list nat) : outcome (list hit) :=
  match ix with
  | [] => Ok []
  | i :: rest =>
      match nth_error data i with
      | None => UB OutOfBounds
      | Some h => let! hs := gather data rest in Ok (h :: hs)
      end
  end.

(** abs.cpp:160-179: the loop over the labels [label], [label]+1, ... *)
Fixpoint event_loop (fit : list hit -> outcome neutron) (min : Z) (data : list hit)
    (idx : list (list nat)) (label : nat) (n : nat) : outcome (list neutron) :=
  match n with
  | O => Ok []
  | S n' =>
      match nth_error idx label with
      | None => UB OutOfBounds
      | Some ix =>
          let! cluster := gather data ix in
          if zlen cluster <? min then event_loop fit min data idx (S label) n'
          else
            let! e := fit cluster in
            let! rest := event_loop fit min data idx (S label) n' in
            if fge (n_x e) (f_of_Z 0) && fge (n_y e) (f_of_Z 0)
            then Ok (e :: rest) else Ok rest
      end
  end.

(** abs.cpp:146-154: the fitting algorithm, default constructed. *)
Definition fit_of (ext : externals) (m : method) : option (list hit -> outcome neutron) :=
  match m with
  | MCentroid => Some (centroid_fit true (f_of_Z 1))
  | MFastGaussian => Some (gauss_fit ext (f_of_Z 1))
  | MOther => None
  end.

(** abs.cpp:126-182: ABS::get_events (events.reserve is not modelled). *)
Definition abs_get_events (ext : externals) (cfg : abs_cfg) (o : abs_obj) (data : list hit)
  : outcome (list neutron) :=
  if negb (zlen (o_labels o) =? zlen data) then Throw RuntimeError
  else
    match o_labels o with
    | [] => Ok []
    | l :: ls =>
        match fit_of ext (o_method o) with
        | None => Throw RuntimeError
        | Some fit =>
            event_loop fit (a_min cfg) data (o_indices o) 0
              (Z.to_nat (max_label_of l ls + 1))
        end
    end.
