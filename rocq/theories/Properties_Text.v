(** C89: what can be read from the text files that hold doubles. *)
From Coq Require Import Reals String Sorted.
From Flocq Require Import Core.
From Verif Require Import M_Config.
From Verif Require Import P_TextTimes.
Local Open Scope string_scope.
Local Open Scope Z_scope.
Local Open Scope list_scope.

(** C89: the text of every finite double is a number; no number of at most six
    significant digits is nearer, and the relative error is at most 5 * 10^-6. *)
Theorem C89_number : forall v, is_finite v = true -> exists q,
  decimal (bytes (show6 v)) = Some q /\ nearest6 (B2R v) q /\
  (Rabs (B2R v - worth q) <= 5 / 10 ^ 6 * Rabs (B2R v))%R.
Proof. exact C89_number_l. Qed.
Print Assumptions C89_number.
Example C89_number_instance :
  map (fun v => (show6 v, decimal (bytes (show6 v))))
    [f_lit 1 60; f_of_Z 16666675; f_of_Z (-25); f_lit 12345 100000000; f_lit 1 100000; f_of_Z 0] =
  [("0.0166667", Some (166667, -7)); ("1.66667e+07", Some (166667, 2)); ("-25", Some (-25, 0));
   ("0.00012345", Some (12345, -8)); ("1e-05", Some (1, -5)); ("0", Some (0, 0))].
Proof. vm_compute. reflexivity. Qed.

(** C89: a double half way between two numbers of six digits: the even one. *)
Theorem C89_ties : forall v e k s, is_finite v = true -> 10 ^ 5 <= e < 10 ^ 6 ->
  B2R v = ((if s : bool then -1 else 1) * (IZR e + / 2) * powerRZ 10 k)%R ->
  exists q, decimal (bytes (show6 v)) = Some q /\
    worth q = ((if s then -1 else 1) * IZR (if Z.even e then e else e + 1) * powerRZ 10 k)%R.
Proof. exact C89_ties_l. Qed.
Print Assumptions C89_ties.
Example C89_ties_instance :
  map show6 [f_of_Z 1000005; f_of_Z 1000015; f_of_Z (-1000015); f_lit 9999995 10] =
  ["1e+06"; "1.00002e+06"; "-1.00002e+06"; "1e+06"].
Proof. vm_compute. reflexivity. Qed.

(** C89: what is not finite is not read as a number. *)
Theorem C89_not_finite : forall v, is_finite v = false -> decimal (bytes (show6 v)) = None /\
  (is_nan v = true -> show6 v = "nan") /\ (is_nan v = false -> show6 v = if Bsign v then "-inf" else "inf").
Proof. exact C89_special_l. Qed.
Print Assumptions C89_not_finite.
Example C89_not_finite_instance :
  map show6 [fdiv (f_of_Z 1) (f_of_Z 0); fdiv (f_of_Z (-1)) (f_of_Z 0); fdiv (f_of_Z 0) (f_of_Z 0)] = ["inf"; "-inf"; "nan"].
Proof. vm_compute. reflexivity. Qed.

(** C89: the layout: without needless zeros, with a power of ten for magnitudes
    below 10^-4 and from 10^6 on. *)
Theorem C89_layout : forall v, is_finite v = true -> laid_out (bytes (show6 v)).
Proof. exact show_layout. Qed.
Print Assumptions C89_layout.
Example C89_layout_instance :
  map show6 [f_lit 1 10000; f_lit 9999951 100000000000; f_lit 99999951 1000000000000; f_of_Z 999999; f_of_Z 123456789; f_lit 5 2] =
  ["0.0001"; "9.99995e-05"; "0.0001"; "999999"; "1.23457e+08"; "2.5"].
Proof. vm_compute. reflexivity. Qed.

(** C89: the file of a spectrum with finite bin edges: the header, then for every
    bin a line with its end and, exactly, its count. *)
Theorem C89_spectrum : forall edges ims rows, write_spectral edges (spectral_counts ims) = Ok rows ->
  Forall (fun e => is_finite e = true) edges -> spectrum_file rows (bytes (spectrum_text rows)).
Proof. exact C89_spectrum_l. Qed.
Print Assumptions C89_spectrum.
Example C89_spectrum_instance :
  (let! rows := write_spectral [f_of_Z 0; f_lit 1 60; f_lit 2 60] (spectral_counts [[[1; 0]; [2; 30]]; [[0; 0]; [0; 4]]]) in
   Ok (text_lines (bytes (spectrum_text rows)))) =
  Ok (Some [bytes "shutter_time,counts"; bytes "0.0166667,33"; bytes "0.0333333,4"]).
Proof. vm_compute. reflexivity. Qed.

(** C89: with 1 to 99999 uniform bins the times that a reader finds are strictly
    increasing, one for each bin. *)
Theorem C89_times : forall n max edges ims rows, 1 <= n <= 99999 -> is_finite max = true ->
  (bpow radix2 (-900) <= B2R max <= bpow radix2 900)%R ->
  get_bin_edges (Binning (Some n) (Some max) []) = Ok edges ->
  write_spectral edges (spectral_counts ims) = Ok rows ->
  exists h ls times, text_lines (bytes (spectrum_text rows)) = Some (h :: ls) /\ length ls = Z.to_nat n /\
    map read_time ls = map Some times /\ StronglySorted (fun a b => (worth a < worth b)%R) times.
Proof. exact C89_times_l. Qed.
Print Assumptions C89_times.
Example C89_times_instance :
  (let! edges := get_bin_edges (Binning (Some 3) (Some (f_lit 1 60)) []) in
   let! rows := write_spectral edges (spectral_counts [[[1]]; [[2]]; [[3]]]) in
   Ok (match text_lines (bytes (spectrum_text rows)) with Some (_ :: ls) => map read_time ls | _ => [] end)) =
  Ok [Some (555556, -8); Some (111111, -7); Some (166667, -7)].
Proof. vm_compute. reflexivity. Qed.

(** C89, finding: with more bins, different bins end at the same time in the
    file. *)
Theorem C89_times_refuted : exists n max edges i a b, is_finite max = true /\
  get_bin_edges (Binning (Some n) (Some max) []) = Ok edges /\
  nth_error edges i = Some a /\ nth_error edges (S i) = Some b /\ flt a b = true /\ show6 a = show6 b.
Proof. exact C89_times_refuted_l. Qed.
Print Assumptions C89_times_refuted.

(** C89: the .csv file of the mmap benchmark: what was there before, the header and
    a line for every neutron. *)
Theorem C89_csv : forall opens d name evs d', evs <> [] -> save_csv show6 opens d name evs = (true, d') ->
  Forall (fun n => is_finite (n_x n) = true /\ is_finite (n_y n) = true /\ is_finite (n_tof_ns n) = true /\
                   is_finite (n_tot n) = true /\ 0 <= n_hits n) evs ->
  exists t, events_file evs (bytes t) /\ (forall other, other <> name -> d' other = d other) /\
    d' name = Some (match d name with Some f => MFile (mf_h5 f) (mf_text f ++ t) | None => MFile None t end).
Proof. exact C89_csv_l. Qed.
Print Assumptions C89_csv.
Example C89_csv_instance :
  text_lines (bytes (events_text [Neutron (f_lit 3 2) (f_of_Z 200) (f_of_Z 666667) (f_of_Z 40) 3])) =
  Some [bytes "X,Y,TOF (ns),Nhits, TOT"; bytes "1.5,200,1.66667e+07,3,40"].
Proof. vm_compute. reflexivity. Qed.

(** C89, finding: neutrons one clock cycle apart have the same line in that file. *)
Theorem C89_csv_refuted : exists a b, n_x a = n_x b /\ n_y a = n_y b /\ flt (n_tof a) (n_tof b) = true /\
  is_finite (n_tof_ns a) = true /\ is_finite (n_tof_ns b) = true /\ csv_line show6 a = csv_line show6 b.
Proof. exact C89_csv_refuted_l. Qed.
Print Assumptions C89_csv_refuted.
