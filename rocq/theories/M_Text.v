(** Model of the text of doubles: std::ostream << double with the default flags
    and precision 6, that is the conversion %.6g of the C library in the "C"
    locale, and the files that are written with it: the spectrum of
    sophiread/SophireadCLI/src/sophiread_core.cpp:614-620 and the .csv file of
    sophiread/FastSophiread/benchmarks/benchmark_mmap.cpp:117-124 ([csv_line] of
    [M_Mmap]).

    The conversion is the one ISO C prescribes for %g (7.21.6.1), rounded to
    nearest, halves to even, as in the GNU C library.  Texts of a NaN have no
    sign here. *)
From Coq Require Import Ascii String.
From Verif Require Export M_Tiff M_Mmap.
Local Open Scope string_scope.
Local Open Scope Z_scope.
Local Open Scope list_scope.

(** The fraction [n / d] times 10^-k, as a fraction. *)
Definition scaled (n d k : Z) : Z * Z := if 0 <=? k then (n, d * 10 ^ k) else (n * 10 ^ (- k), d).
(** The nearest integer of the fraction, halves to even. *)
Definition to_nearest (q : Z * Z) : Z :=
  let '(n, d) := q in
  match 2 * (n mod d) ?= d with
  | Lt => n / d
  | Gt => n / d + 1
  | Eq => if Z.even (n / d) then n / d else n / d + 1
  end.
(** The largest [k] (from the given one downwards) with 10^k <= n / d. *)
Fixpoint exponent_from (fuel : nat) (k n d : Z) : Z :=
  match fuel with
  | O => k
  | S f => let '(a, b) := scaled n d k in if b <=? a then k else exponent_from f (k - 1) n d
  end.
(** Every double lies between 10^-324 and 10^309. *)
Definition exponent (n d : Z) : Z := exponent_from 640 309 n d.

(** Six significant digits [c] and the exponent [x] of the first one:
    c * 10^(x - 5), the style %e with precision 5. *)
Definition six_digits (n d : Z) : Z * Z :=
  let x := exponent n d in
  let c := to_nearest (scaled n d (x - 5)) in
  if c =? 10 ^ 6 then (10 ^ 5, x + 1) else (c, x).

(** The last [n] decimal digits of [z]. *)
Fixpoint digits_of (n : nat) (z : Z) : list Z :=
  match n with O => [] | S m => digits_of m (z / 10) ++ [z mod 10] end.
Definition digit_char (d : Z) : ascii := ascii_of_N (Z.to_N (48 + d)).
Definition digits (l : list Z) : string := string_of_list_ascii (map digit_char l).
(** Without the zeros at the end. *)
Fixpoint strip (l : list Z) : list Z :=
  match l with
  | [] => []
  | d :: r => match strip r with [] => if d =? 0 then [] else [d] | r' => d :: r' end
  end.
Definition fraction (l : list Z) : string :=
  match strip l with [] => "" | l' => "." ++ digits l' end.
(** At least two digits. *)
Definition exponent_text (x : Z) : string :=
  "e" ++ (if x <? 0 then "-" else "+") ++ digits (digits_of (if Z.abs x <? 100 then 2 else 3) (Z.abs x)).

(** Style %f if the exponent is at least -4 and less than the precision, else
    style %e. *)
Definition magnitude_text (q : Z * Z) : string :=
  let '(c, x) := q in
  let ds := digits_of 6 c in
  if (-4 <=? x) && (x <? 6) then
    if x <? 0 then "0" ++ fraction (repeat 0 (Z.to_nat (- x - 1)) ++ ds)
    else let n := Z.to_nat (x + 1) in digits (firstn n ds) ++ fraction (skipn n ds)
  else digits (firstn 1 ds) ++ fraction (skipn 1 ds) ++ exponent_text x.

Definition sign_text (s : bool) : string := if s then "-" else "".
(** std::ostream << double. *)
Definition show6 (v : f64) : string :=
  match v with
  | B754_zero s => sign_text s ++ "0"
  | B754_infinity s => sign_text s ++ "inf"
  | B754_nan => "nan"
  | B754_finite s m e _ =>
      sign_text s ++
      magnitude_text (if 0 <=? e then six_digits (Z.pos m * 2 ^ e) 1 else six_digits (Z.pos m) (2 ^ (- e)))
  end.

(** sophiread_core.cpp:615-620: the text of a file [Spectrum rows]. *)
Definition spectrum_header : string := "shutter_time,counts" ++ newline.
Definition spectrum_line (r : f64 * Z) : string := show6 (fst r) ++ "," ++ dec (snd r) ++ newline.
Definition spectrum_text (rows : list (f64 * Z)) : string := spectrum_header ++ joined (map spectrum_line rows).

(** benchmark_mmap.cpp:117-124: what is added to the file. *)
Definition events_text (evs : list neutron) : string := csv_header ++ joined (map (csv_line show6) evs).
