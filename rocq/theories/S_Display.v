(** Specification of sophiread_display: what is read from a file, what a hit
    says, and how hits become clusters.  Plain arithmetic and lists over the
    packet vocabulary of S_Hit and S_Tpx3. *)
From Verif Require Export S_Hit S_Tpx3 S_StreamCli M_Display.

(** * What is read *)

(** The number of packets taken from a dataset: both bytes of the size field
    are signed numbers. *)
Definition taken (p : packet) : Z :=
  if 128 <=? b7 p then 0
  else if 128 <=? b6 p then Z.max 0 ((b6 p + 256 * b7 p - 256) / 8)
  else (b6 p + 256 * b7 p) / 8.

(** The same for a dataset of [n] packets. *)
Definition taken_of (n : Z) : Z :=
  if 4096 <=? n then 0 else if n mod 32 <? 16 then n else Z.max 0 (n - 32).

(** What is read of each dataset. *)
Definition shown (ds : list dataset) : list (Z * packet) :=
  flat_map (fun d => map (pair (schar (d_chip d)))
    (firstn (Z.to_nat (taken_of (zlen (d_payload d)))) (d_payload d))) ds.

(** A packet of which the first bytes have been overwritten. *)
Definition overlay (t : list Z) (q : packet) : packet :=
  match t ++ skipn (length t) (packet_bytes q) with
  | [a0; a1; a2; a3; a4; a5; a6; a7] => Packet a0 a1 a2 a3 a4 a5 a6 a7
  | _ => q
  end.

(** The newest of some packets, [l] if there is none. *)
Definition newest (l : option packet) (ps : list packet) : option packet :=
  fold_left (fun _ p => Some p) ps l.

(** What stays in an array when the last read gets the bytes [t]. *)
Definition left_over (t : list Z) (l : option packet) : option packet :=
  match l with Some q => Some (overlay t q) | None => None end.

(** [reads t h l ps xs]: of a file that goes on with the packets [ps] and the
    fewer than 8 bytes [t], the payload packets [xs] are read, each with the chip
    that its dataset declares; [h] and [l] are the newest packets outside and
    inside of datasets. *)
Inductive reads (t : list Z) : option packet -> option packet -> list packet ->
    list (Z * packet) -> Prop :=
| rd_end h l : t = [] -> reads t h l [] []
| rd_odd l : odd_end t -> reads t None l [] []
| rd_tail q l : t <> [] -> ~ starts_TPX (overlay t q) -> reads t (Some q) l [] []
| rd_tail_none q l : t <> [] -> starts_TPX (overlay t q) -> taken (overlay t q) = 0 ->
    reads t (Some q) l [] []
| rd_tail_again q d c : t <> [] -> starts_TPX (overlay t q) ->
    declares_chip (overlay t q) c ->
    reads t (Some q) (Some d) [] (repeat (c, d) (Z.to_nat (taken (overlay t q))))
| rd_stray h l p ps xs : ~ starts_TPX p -> reads t (Some p) l ps xs ->
    reads t h l (p :: ps) xs
| rd_data h l p c ps qs xs : starts_TPX p -> declares_chip p c -> zlen ps = taken p ->
    reads t (Some p) (newest l ps) qs xs ->
    reads t h l (p :: ps ++ qs) (map (pair c) ps ++ xs)
| rd_cut h l p c ps d : starts_TPX p -> declares_chip p c -> zlen ps < taken p ->
    left_over t (newest l ps) = Some d ->
    reads t h l (p :: ps) (map (pair c) ps ++ repeat (c, d) (Z.to_nat (taken p - zlen ps))).

(** * What a hit says *)

(** The display has no gap between the chips. *)
Definition display_place (chip x y : Z) : Z * Z :=
  match chip with
  | 0 => (256 + x, y)
  | 1 => (511 - x, 511 - y)
  | 2 => (255 - x, 511 - y)
  | _ => (x, y)
  end.

(** The low 30 bits of the trigger counter. *)
Definition trigger30 (p : packet) : Z := (le64 p / 2 ^ 12) mod 2 ^ 30.

(** Time of flight after the trigger [T], as a 32-bit number. *)
Definition tof32 (f : pixel_fields) (T : Z) : Z := (time30 f - T) mod 2 ^ 32.

Definition display_says (c : Z) (f : pixel_fields) (T : Z) (r : raw) : Prop :=
  w_ftoa r = f_ftoa f /\ w_tot r = f_tot f /\ w_toa r = f_toa f /\
  (w_x r, w_y r) = display_place c (f_x f) (f_y f) /\
  w_spdr r = time30 f /\ w_tof r = tof32 f T.

(** The entry of the time-of-flight histogram: 100 ns steps, chip-local columns
    251 and up, rows 126 and up. *)
Definition tof_bins (f : pixel_fields) (T : Z) : list Z :=
  if (251 <=? f_x f) && (126 <=? f_y f) && (tof32 f T / 4 <? 170000)
  then [tof32 f T / 4] else [].

(** Hits and histogram entries of the packets, with [T] the last trigger. *)
Inductive displays : Z -> list (Z * packet) -> list raw -> list Z -> Prop :=
| di_nil T : displays T [] [] []
| di_pixel T c p f r xs rs es : p = pixel_packet f -> fields_ok f -> f_type f = 11 ->
    display_says c f T r -> displays T xs rs es ->
    displays T ((c, p) :: xs) (r :: rs) (tof_bins f T ++ es)
| di_tdc T c p xs rs es : b7 p = 111 -> displays (trigger30 p) xs rs es ->
    displays T ((c, p) :: xs) rs es
| di_other T c p xs rs es : b7 p / 16 <> 11 -> b7 p <> 111 -> displays T xs rs es ->
    displays T ((c, p) :: xs) rs es.

(** * Clusters *)

(** A cluster is the list of its hits, oldest first. *)
Definition rcluster := list raw.

(** Hit [h] is accepted: less than 3 clock ticks from the first hit, and at most
    5 pixels outside of the rectangle around the hits. *)
Definition accepts (c : rcluster) (h : raw) : Prop :=
  (exists g r, c = g :: r /\ Z.abs (w_spdr g - w_spdr h) < 3) /\
  Exists (fun g => w_x h <= w_x g + 5) c /\ Exists (fun g => w_x g - 5 <= w_x h) c /\
  Exists (fun g => w_y h <= w_y g + 5) c /\ Exists (fun g => w_y g - 5 <= w_y h) c.

(** Clusters are numbered in the order in which they begin.  Of the open
    clusters the hit goes to the one whose number is least modulo 128. *)
Inductive ring_step : list rcluster * list rcluster -> raw ->
    list rcluster * list rcluster -> Prop :=
| g_join closed op1 c op2 h : accepts c h ->
    (forall i c', nth_error (op1 ++ c :: op2) i = Some c' -> accepts c' h ->
       Nat.modulo (length closed + length op1) 128 <= Nat.modulo (length closed + i) 128)%nat ->
    ring_step (closed, op1 ++ c :: op2) h (closed, op1 ++ (c ++ [h]) :: op2)
| g_new closed op h : Forall (fun c => ~ accepts c h) op -> (length op < 127)%nat ->
    ring_step (closed, op) h (closed, op ++ [[h]])
| g_push closed c op h : Forall (fun c => ~ accepts c h) (c :: op) -> length op = 126%nat ->
    ring_step (closed, c :: op) h (closed ++ [c], op ++ [[h]]).

(** From the hits to closed and open clusters. *)
Inductive ring_run : list rcluster * list rcluster -> list raw ->
    list rcluster * list rcluster -> Prop :=
| gr_nil s : ring_run s [] s
| gr_cons s h s' hs s'' : ring_step s h s' -> ring_run s' hs s'' -> ring_run s (h :: hs) s''.

Definition begin : list rcluster * list rcluster := ([], []).

(** A cluster that has grown hit by hit. *)
Inductive grown : rcluster -> Prop :=
| gw_one h : grown [h]
| gw_more c h : grown c -> accepts c h -> grown (c ++ [h]).

(** Sums over a cluster. *)
Definition zsum (f : raw -> Z) (c : rcluster) : Z := fold_right (fun h a => f h + a) 0 c.
Definition sum_tot : rcluster -> Z := zsum w_tot.
Definition sum_x : rcluster -> Z := zsum (fun h => w_tot h * w_x h).
Definition sum_y : rcluster -> Z := zsum (fun h => w_tot h * w_y h).

(** The number of hits and the sums can be represented in an int. *)
Definition small (c : rcluster) : Prop :=
  zlen c < 2 ^ 31 /\ sum_tot c < 2 ^ 31 /\ sum_x c < 2 ^ 31 /\ sum_y c < 2 ^ 31.

(** A hit that a packet can give. *)
Definition raw_ok (h : raw) : Prop :=
  0 <= w_tot h < 1024 /\ 0 <= w_x h < 512 /\ 0 <= w_y h < 512 /\ 0 <= w_spdr h < 2 ^ 30.

(** Clusters that are shown: closed and of more than 10 hits. *)
Definition big (c : rcluster) : bool := 10 <? zlen c.

(** The pixel of a cluster: the mean of the positions, weighted by ToT, in
    eighths of a pixel, rotated. *)
Definition mean8 (s t : Z) : f64 := fdiv (fmul (f_of_Z 8) (f_of_Z s)) (f_of_Z t).
Definition rotated (rot : rotation) (x y : f64) : f64 * f64 :=
  (fsub (fmul x (rot_cos rot)) (fmul y (rot_sin rot)),
   fadd (fmul x (rot_sin rot)) (fmul y (rot_cos rot))).
Definition falls_on (rot : rotation) (c : rcluster) (px : list (Z * Z)) : Prop :=
  exists ix iy,
    f_to_i32 (fst (rotated rot (mean8 (sum_x c) (sum_tot c)) (mean8 (sum_y c) (sum_tot c)))) = Some ix /\
    f_to_i32 (snd (rotated rot (mean8 (sum_x c) (sum_tot c)) (mean8 (sum_y c) (sum_tot c)))) = Some iy /\
    ((0 <= ix < 4096 /\ 0 <= iy < 4096 /\ px = [(ix, iy)]) \/
     (~ (0 <= ix < 4096 /\ 0 <= iy < 4096) /\ px = [])).

(** A rotation: sine and cosine are finite and at most 1. *)
Definition rotation_ok (rot : rotation) : Prop :=
  is_finite (rot_cos rot) = true /\ is_finite (rot_sin rot) = true /\
  fle (fabs (rot_cos rot)) (f_of_Z 1) = true /\ fle (fabs (rot_sin rot)) (f_of_Z 1) = true.
