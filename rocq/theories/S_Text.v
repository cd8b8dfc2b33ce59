(** How a reader of the text files understands numbers, lines and columns,
    independent of how they are written. *)
From Coq Require Import Reals Ascii String.
From Flocq Require Import Core.
From Verif Require Export M_Text.
Global Open Scope Z_scope.
Global Open Scope list_scope.

Definition bytes (s : string) : list Z := map (fun a => Z.of_N (N_of_ascii a)) (list_ascii_of_string s).

(** * Numbers *)

Definition is_digit (c : Z) : bool := (48 <=? c) && (c <=? 57).
(** The digits at the start of [l] appended to the number [v], how many they are,
    and the rest. *)
Fixpoint number (v n : Z) (l : list Z) : Z * Z * list Z :=
  match l with
  | c :: r => if is_digit c then number (10 * v + (c - 48)) (n + 1) r else (v, n, l)
  | [] => (v, n, l)
  end.
(** A natural number and nothing else. *)
Definition natural (l : list Z) : option Z :=
  match number 0 0 l with (v, n, []) => if 0 <? n then Some v else None | _ => None end.
(** "e+07", "e-324" or nothing. *)
Definition power (l : list Z) : option Z :=
  match l with
  | [] => Some 0
  | e :: s :: r =>
      if e =? 101 then
        if s =? 43 then natural r
        else if s =? 45 then match natural r with Some x => Some (- x) | None => None end
        else None
      else None
  | _ => None
  end.
(** Digits, perhaps a point and digits, perhaps a power of ten: [Some (m, k)] for
    m * 10^k. *)
Definition unsigned (l : list Z) : option (Z * Z) :=
  let '(v, n, r) := number 0 0 l in
  if n =? 0 then None
  else match r with
       | c :: r' =>
           if c =? 46 then
             let '(w, m, t) := number v 0 r' in
             if m =? 0 then None else match power t with Some x => Some (w, x - m) | None => None end
           else match power r with Some x => Some (v, x) | None => None end
       | [] => Some (v, 0)
       end.
(** With a sign or without. *)
Definition decimal (l : list Z) : option (Z * Z) :=
  match l with
  | c :: r => if c =? 45 then match unsigned r with Some (m, k) => Some (- m, k) | None => None end else unsigned l
  | [] => None
  end.
Definition worth (q : Z * Z) : R := (IZR (fst q) * powerRZ 10 (snd q))%R.

(** [q] is a number of at most six significant digits, and none is nearer to [x]. *)
Definition nearest6 (x : R) (q : Z * Z) : Prop :=
  Z.abs (fst q) < 10 ^ 6 /\
  forall m k, Z.abs m < 10 ^ 6 -> (Rabs (x - worth q) <= Rabs (x - worth (m, k)))%R.
(** The text is a number, the nearest of at most six digits. *)
Definition tells (x : R) (l : list Z) : Prop := exists q, decimal l = Some q /\ nearest6 x q.

(** The layout of a number: no needless zeros. *)
Definition plain_layout (l : list Z) : Prop := exists a b,
  l = a ++ match b with [] => [] | _ => 46 :: b end /\ forallb is_digit (a ++ b) = true /\
  (a = [48] \/ exists c r, a = c :: r /\ c <> 48) /\ last b 49 <> 48.
Definition power_layout (l : list Z) : Prop := exists c b s x,
  l = c :: match b with [] => [] | _ => 46 :: b end ++ 101 :: s :: x /\ forallb is_digit (c :: b ++ x) = true /\
  c <> 48 /\ last b 49 <> 48 /\ (s = 43 \/ s = 45) /\
  (length x = 2%nat \/ (length x = 3%nat /\ exists d r, x = d :: r /\ d <> 48)).
(** A power of ten is written for the magnitudes outside [10^-4, 10^6). *)
Definition laid_out (l : list Z) : Prop := exists sign r q,
  l = sign ++ r /\ (sign = [] \/ sign = [45]) /\ unsigned r = Some q /\
  ((worth q = 0 \/ / 10 ^ 4 <= worth q < 10 ^ 6)%R -> plain_layout r) /\
  (~ (worth q = 0 \/ / 10 ^ 4 <= worth q < 10 ^ 6)%R -> power_layout r).

(** * Lines and columns *)

(** The parts between the separators. *)
Fixpoint pieces (sep : Z) (l : list Z) : list (list Z) :=
  match l with
  | [] => [[]]
  | c :: r =>
      if c =? sep then [] :: pieces sep r
      else match pieces sep r with p :: ps => (c :: p) :: ps | [] => [[c]] end
  end.
(** The lines of a text that ends with a newline, and the columns of a line. *)
Definition text_lines (l : list Z) : option (list (list Z)) :=
  match rev (pieces 10 l) with [] :: r => Some (rev r) | _ => None end.
Definition columns (l : list Z) : list (list Z) := pieces 44 l.

(** A line of the spectrum tells the end of a bin and, exactly, the count. *)
Definition spectrum_row (r : f64 * Z) (l : list Z) : Prop := exists a b,
  columns l = [a; b] /\ tells (B2R (fst r)) a /\ natural b = Some (snd r).
Definition spectrum_file (rows : list (f64 * Z)) (l : list Z) : Prop := exists h ls,
  text_lines l = Some (h :: ls) /\ h = bytes "shutter_time,counts" /\ Forall2 spectrum_row rows ls.

(** A line of the .csv file tells position, time of flight and sum of the times over
    threshold of a neutron, and exactly the number of its hits. *)
Definition event_row (n : neutron) (l : list Z) : Prop := exists x y t c s,
  columns l = [x; y; t; c; s] /\ tells (B2R (n_x n)) x /\ tells (B2R (n_y n)) y /\
  tells (B2R (n_tof_ns n)) t /\ natural c = Some (n_hits n) /\ tells (B2R (n_tot n)) s.
Definition events_file (evs : list neutron) (l : list Z) : Prop := exists h ls,
  text_lines l = Some (h :: ls) /\ h = bytes "X,Y,TOF (ns),Nhits, TOT" /\ Forall2 event_row evs ls.

(** The times of a spectrum as its reader sees them. *)
Definition read_time (l : list Z) : option (Z * Z) :=
  match columns l with [a; _] => decimal a | _ => None end.
