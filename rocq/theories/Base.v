(** Shared vocabulary of the model: outcomes, bytes, packets, machine integers.
    Definitions only. *)
From Coq Require Export ZArith List Bool.
Export ListNotations.
Global Open Scope Z_scope.

(** Why an execution has undefined behaviour (C++ gives it no meaning). *)
Inductive ub_kind :=
| OutOfBounds        (* read or write outside a buffer / vector *)
| Uninitialised      (* use of an indeterminate value *)
| BadConversion      (* floating -> integer conversion out of range *)
| NullDeref          (* dereference of an end iterator / null pointer *)
| SignedOverflow.    (* overflow of a signed integer *)

(** Why an execution throws. *)
Inductive exn_kind :=
| RuntimeError       (* std::runtime_error thrown by the repository code *)
| LengthError        (* std::length_error / std::bad_alloc from a huge vector *)
| ExternalError.     (* exception thrown by a library (HDF5, filesystem, ...) *)

(** The result of running a piece of code: a value, an exception, or
    undefined behaviour.  UB is never confused with a normal value, and
    neither is running out of the fuel given to a loop. *)
Inductive outcome (A : Type) :=
| Ok (a : A)
| Throw (e : exn_kind)
| UB (u : ub_kind)
| OutOfFuel.         (* a modelled loop did not finish within its fuel *)
Arguments Ok {A} a.
Arguments Throw {A} e.
Arguments UB {A} u.
Arguments OutOfFuel {A}.

Definition obind {A B} (o : outcome A) (f : A -> outcome B) : outcome B :=
  match o with
  | Ok a => f a
  | Throw e => Throw e
  | UB u => UB u
  | OutOfFuel => OutOfFuel
  end.

Notation "'let!' x ':=' e 'in' k" := (obind e (fun x => k))
  (at level 200, x pattern, e at level 100, k at level 200, right associativity).

(** Unsigned machine integers: reduction modulo the width. *)
Definition u16 (z : Z) : Z := z mod 2 ^ 16.
Definition u32 (z : Z) : Z := z mod 2 ^ 32.
Definition u64 (z : Z) : Z := z mod 2 ^ 64.

(** Value of a plain (signed) [char] holding the byte [b] after promotion to
    [int]. *)
Definition schar (b : Z) : Z := if b <? 128 then b else b - 256.

(** A byte value. *)
Definition is_byte (b : Z) : Prop := 0 <= b < 256.
Definition bytes_ok (m : list Z) : Prop := Forall is_byte m.

(** The 8 bytes a [const char *char_array] points at. *)
Record packet := Packet
  { b0 : Z; b1 : Z; b2 : Z; b3 : Z; b4 : Z; b5 : Z; b6 : Z; b7 : Z }.

Definition packet_ok (p : packet) : Prop :=
  is_byte (b0 p) /\ is_byte (b1 p) /\ is_byte (b2 p) /\ is_byte (b3 p) /\
  is_byte (b4 p) /\ is_byte (b5 p) /\ is_byte (b6 p) /\ is_byte (b7 p).

Definition packet_bytes (p : packet) : list Z :=
  [b0 p; b1 p; b2 p; b3 p; b4 p; b5 p; b6 p; b7 p].

(** Little endian loads through [unsigned short *], [unsigned int *] and
    [unsigned long *] pointers into the packet. *)
Definition le16 (a b : Z) : Z := a + 256 * b.
Definition le32 (a b c d : Z) : Z := a + 256 * (b + 256 * (c + 256 * d)).
Definition le64 (p : packet) : Z :=
  le32 (b0 p) (b1 p) (b2 p) (b3 p) + 2 ^ 32 * le32 (b4 p) (b5 p) (b6 p) (b7 p).

(** The packet at byte offset [off] of [m]; [None] if any of its 8 bytes lies
    outside the buffer. *)
Definition read_packet (m : list Z) (off : Z) : option packet :=
  if off <? 0 then None else
  match skipn (Z.to_nat off) m with
  | a0 :: a1 :: a2 :: a3 :: a4 :: a5 :: a6 :: a7 :: _ =>
      Some (Packet a0 a1 a2 a3 a4 a5 a6 a7)
  | _ => None
  end.

(** Length of a buffer as an integer. *)
Definition zlen {A} (l : list A) : Z := Z.of_nat (length l).
