(** Model of the peak fitting classes of sophiread/FastSophiread/src:
    centroid.cpp and fastgaussian.cpp. *)
From Verif Require Export M_Hit M_Neutron.

(** hit.h [getTOF]: reading an uninitialised m_tof is undefined behaviour. *)
Definition get_tof (h : hit) : outcome Z :=
  match h_tof h with Some t => Ok t | None => UB Uninitialised end.

(** centroid.cpp:21-24: the running sums x, y, tof, tot. *)
Record sums := Sums { s_x : f64; s_y : f64; s_tof : f64; s_tot : f64 }.
Definition sums0 : sums := Sums (f_of_Z 0) (f_of_Z 0) (f_of_Z 0) (f_of_Z 0).

(** centroid.cpp:32-40: loop body, weighted by ToT.  [srf] is
    m_super_resolution_factor; [srf * hit_x * hit_tot] associates to the left
    and the ints are converted to double. *)
Definition add_weighted (srf : f64) (s : sums) (h : hit) : outcome sums :=
  let! t := get_tof h in
  Ok (Sums (fadd (s_x s) (fmul (fmul srf (f_of_Z (h_x h))) (f_of_Z (h_tot h))))
           (fadd (s_y s) (fmul (fmul srf (f_of_Z (h_y h))) (f_of_Z (h_tot h))))
           (fadd (s_tof s) (f_of_Z t))
           (fadd (s_tot s) (f_of_Z (h_tot h)))).

(** centroid.cpp:47-50: loop body, unweighted. *)
Definition add_plain (srf : f64) (s : sums) (h : hit) : outcome sums :=
  let! t := get_tof h in
  Ok (Sums (fadd (s_x s) (fmul srf (f_of_Z (h_x h))))
           (fadd (s_y s) (fmul srf (f_of_Z (h_y h))))
           (fadd (s_tof s) (f_of_Z t))
           (fadd (s_tot s) (f_of_Z (h_tot h)))).

(** A loop over the hits with an effectful body. *)
Fixpoint ofold {A B} (f : A -> B -> outcome A) (l : list B) (a : A) : outcome A :=
  match l with
  | [] => Ok a
  | x :: rest => let! a' := f a x in ofold f rest a'
  end.

(** centroid.cpp:20-60: Centroid::fit. *)
Definition centroid_fit (weighted : bool) (srf : f64) (data : list hit) : outcome neutron :=
  match data with
  | [] => Ok (Neutron (f_of_Z 0) (f_of_Z 0) (f_of_Z 0) (f_of_Z 0) 0)
  | _ =>
      let n := zlen data in
      let! s := ofold (if weighted then add_weighted srf else add_plain srf) data sums0 in
      let inv := fdiv (f_of_Z 1) (if weighted then s_tot s else f_of_Z n) in
      Ok (Neutron (fmul (s_x s) inv) (fmul (s_y s) inv)
                  (fdiv (s_tof s) (f_of_Z n)) (s_tot s) n)
  end.

(** The two library functions used by the Gaussian fit: std::log, and the
    least squares solution of the rows (x, y, log tot, 1) for the right hand
    sides, of which the first two components are used.  Nothing is assumed
    about them. *)
Record externals := Ext
  { ext_log : f64 -> f64;
    ext_qr : list (f64 * f64 * f64) -> list f64 -> f64 * f64 }.

(** fastgaussian.cpp:28-29: std::sort of doubles (insertion sort; the values
    are finite, so the order is total and any sorting algorithm agrees). *)
Fixpoint finsert (x : f64) (l : list f64) : list f64 :=
  match l with
  | [] => [x]
  | y :: r => if fle x y then x :: l else y :: finsert x r
  end.
Definition fsort (l : list f64) : list f64 := fold_right finsert [] l.

(** fastgaussian.cpp:27-37: getMedian; an empty argument reads outside the
    vector. *)
Definition get_median (data : list f64) : outcome f64 :=
  let l := fsort data in
  let n := length l in
  if Nat.even n then
    match n, nth_error l (Nat.div n 2 - 1), nth_error l (Nat.div n 2) with
    | S _, Some a, Some b => Ok (fdiv (fadd a b) (f_of_Z 2))
    | _, _, _ => UB OutOfBounds
    end
  else
    match nth_error l (Nat.div n 2) with
    | Some a => Ok a
    | None => UB OutOfBounds
    end.

(** fastgaussian.cpp:61-70: the four extracted vectors, as rows. *)
Record grow := GRow { g_x : f64; g_y : f64; g_tof : f64; g_tot : f64 }.
Fixpoint gauss_rows (srf : f64) (data : list hit) : outcome (list grow) :=
  match data with
  | [] => Ok []
  | h :: rest =>
      let! t := get_tof h in
      let! rs := gauss_rows srf rest in
      Ok (GRow (fmul srf (f_of_Z (h_x h))) (fmul srf (f_of_Z (h_y h)))
               (f_of_Z t) (f_of_Z (h_tot h)) :: rs)
  end.

(** fastgaussian.cpp:76-78, 81-92: subtract the median and keep the rows with a
    positive rest. *)
Definition gauss_filter (med : f64) (rs : list grow) : list grow :=
  filter (fun r => fgt (g_tot r) (f_of_Z 0))
    (map (fun r => GRow (g_x r) (g_y r) (g_tof r) (fsub (g_tot r) med)) rs).

(** std::accumulate from 0.0. *)
Definition fsum (l : list f64) : f64 := fold_left fadd l (f_of_Z 0).

(** fastgaussian.cpp:45-127: FastGaussian::fit. *)
Definition gauss_fit (ext : externals) (srf : f64) (data : list hit) : outcome neutron :=
  if zlen data <? 8 then
    Ok (Neutron (f_of_Z (-1)) (f_of_Z (-1)) (f_of_Z 0) (f_of_Z 0) 0)
  else
    let! rs := gauss_rows srf data in
    let! med := get_median (map g_tot rs) in
    let fs := gauss_filter med rs in
    let b := map (fun r => fadd (fmul (g_x r) (g_x r)) (fmul (g_y r) (g_y r))) fs in
    let a := map (fun r => (fmul (f_of_Z 1) (g_x r), fmul (f_of_Z 1) (g_y r),
                            fmul (f_of_Z 1) (ext_log ext (g_tot r)))) fs in
    let (sx, sy) := ext_qr ext a b in
    Ok (Neutron (fdiv sx (f_of_Z 2)) (fdiv sy (f_of_Z 2))
                (fdiv (fsum (map g_tof fs)) (f_of_Z (zlen fs)))
                (fsum (map g_tot fs)) (zlen rs)).
