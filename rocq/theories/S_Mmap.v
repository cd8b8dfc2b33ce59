(** Specification of the program benchmark_mmap. *)
From Coq Require Import Reals String.
From Flocq Require Import Core.
From Verif Require Export S_Cli M_Mmap.
Local Open Scope string_scope.
Global Open Scope Z_scope.
Global Open Scope list_scope.

(** * Options *)

(** The word occurs in the option string. *)
Definition asks (s w : string) : Prop := exists a b, s = (a ++ w ++ b)%string.
Definition rates : list (Z * string) :=
  [(1, "1hz"); (10, "10hz"); (15, "15hz"); (30, "30hz"); (45, "45hz"); (60, "60hz")].
(** The pulse rate: the last of the known ones that is asked for. *)
Definition asked_rate (s : string) (r : Z) : Prop :=
  (exists l w l', rates = l ++ (r, w) :: l' /\ asks s w /\ Forall (fun q => ~ asks s (snd q)) l') \/
  (r = 0 /\ Forall (fun q => ~ asks s (snd q)) rates).
Definition asked_options (a : option string) (o : mopts) : Prop :=
  match a with
  | None => mo_tbb o = false /\ mo_mmap o = false /\ mo_tgdc o = false /\ mo_rate o = 0
  | Some s => (mo_tbb o = true <-> asks s "tbb") /\ (mo_mmap o = true <-> asks s "mmap") /\
              (mo_tgdc o = true <-> asks s "tgdc") /\ asked_rate s (mo_rate o)
  end.

(** The program stops before it reads: no argument, no input file, or an input
    file that is to be mapped and cannot be opened for writing. *)
Definition refused (input : string -> option (list Z * bool)) (args : list string) : Prop :=
  match args with
  | [] => True
  | inp :: rest =>
      match input inp with
      | None => True
      | Some (_, true) => False
      | Some (_, false) => exists s, nth_error rest 1 = Some s /\ asks s "mmap"
      end
  end.

(** * Hits and counts *)

(** The hits of the datasets: with tgdc the times run through the file,
    otherwise every dataset starts from zero times. *)
Definition mmap_hits (tgdc : bool) (ds : list dataset) (hss : list (list hit)) : Prop :=
  if tgdc then exists s, processed GDC_mode ts0 ds hss s
  else Forall2 (fun d hs => exists chip, declares_chip (ds_header d) chip /\
                              yields GDC_mode chip ts0 (d_payload d) hs) ds hss.

(** The clustering: radius 5, clusters of at least one hit, 75 units of time. *)
Definition radius_5 : abs_cfg := AbsCfg (f_of_Z 5) 1 75.

(** A hit counted as bad: its time of flight in milliseconds is more than
    1 / rate + 10^-6. *)
Definition over_limit (rate : Z) (h : hit) : Prop :=
  exists t, h_tof h = Some t /\ (IZR (25 * t) / 10 ^ 6 > 1 / IZR rate + 1 / 10 ^ 6)%R.
(** A hit later than one pulse period after its pulse (times in ns). *)
Definition after_period (rate : Z) (h : hit) : Prop :=
  exists t, h_tof h = Some t /\ (IZR (25 * t) > 10 ^ 9 / IZR rate)%R.

(** The distribution of the batches covers all of them. *)
Definition covers (p : nat -> nat -> plan) : Prop := forall k n, plan_size (p k n) = n.

(** * Output *)

Definition ends (s e : string) : Prop := exists a, s = (a ++ e)%string.

Definition text_of (d : mdisk) (name : string) : string :=
  match d name with Some f => mf_text f | None => "" end.
Definition image_of (d : mdisk) (name : string) : option lfile :=
  match d name with Some f => mf_h5 f | None => None end.

(** The time of flight as it is written: multiplied by 25 twice. *)
Definition tof_written (e : neutron) : f64 := fmul (fmul (n_tof e) (f_of_Z 25)) (f_of_Z 25).

Definition csv_row (show : f64 -> string) (e : neutron) : string :=
  (String.concat "," [show (n_x e); show (n_y e); show (tof_written e); dec (n_hits e); show (n_tot e)]
   ++ newline)%string.

(** [k] is the integer part of the double [v], between 0 and [hi]. *)
Definition int_part (hi : Z) (v : f64) (k : Z) : Prop :=
  is_finite v = true /\ Ztrunc (B2R v) = k /\ 0 <= k <= hi.
Definition scaled (v : f64) : f64 := fdiv (fmul v (f_of_Z 65535)) (f_of_Z 512).
(** The numbers written for an event. *)
Definition bin_numbers (e : neutron) (l : list Z) : Prop :=
  exists x y t tot, l = [x; y; t; n_hits e mod 2 ^ 16; tot] /\
    int_part 65535 (scaled (n_x e)) x /\ int_part 65535 (scaled (n_y e)) y /\
    int_part (2 ^ 64 - 1) (tof_written e) t /\ int_part 65535 (n_tot e) tot.

(** The text of a .bin file: the decimal numbers one after the other. *)
Definition bin_content (ls : list (list Z)) : string :=
  String.concat "" (map (fun l => String.concat "" (map dec l)) ls).

(** Writing the events [es] to [out]: exit status and files afterwards. *)
Inductive written (show : f64 -> string) (opens : string -> bool) (d : mdisk) (out : string)
    (es : list neutron) : Z -> mdisk -> Prop :=
| wr_nothing : es = [] -> written show opens d out es 0 d
| wr_unknown : ~ ends out ".csv" -> ~ ends out ".bin" -> ~ ends out ".h5" -> written show opens d out es 0 d
| wr_refused : es <> [] -> ends out ".csv" \/ ends out ".bin" -> opens out = false ->
    written show opens d out es 1 d
| wr_csv f d' : es <> [] -> ends out ".csv" -> opens out = true ->
    d' out = Some f -> (forall n, n <> out -> d' n = d n) ->
    mf_h5 f = image_of d out ->
    mf_text f = (text_of d out ++ "X,Y,TOF (ns),Nhits, TOT" ++ newline ++
                 String.concat "" (map (csv_row show) es))%string ->
    written show opens d out es 0 d'
| wr_bin f d' ls : es <> [] -> ends out ".bin" -> opens out = true ->
    d' out = Some f -> (forall n, n <> out -> d' n = d n) ->
    mf_h5 f = None -> Forall2 bin_numbers es ls ->
    mf_text f = bin_content ls ->
    written show opens d out es 0 d'
| wr_h5 f d' : es <> [] -> ends out ".h5" -> opens out = true ->
    d' out = Some f -> (forall n, n <> out -> d' n = d n) ->
    mf_text f = "" ->
    mf_h5 f = Some [("neutrons",
      [("x", Doubles (map n_x es)); ("y", Doubles (map n_y es)); ("tof", Doubles (map tof_written es));
       ("nHits", Ints (map n_hits es)); ("tot", Doubles (map n_tot es))])] ->
    written show opens d out es 0 d'.
