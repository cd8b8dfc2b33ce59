(** Packets after which the program knows the time, whatever it took the time to be before. *)
From Coq Require Import String.
From Verif Require Export S_Damage.
Global Open Scope Z_scope.
Global Open Scope list_scope.

(** A low and a high half of a reference that is not 0, and a pulse, in this order; there may
    be other packets before, between and after them, but no other low half between the two
    halves. *)
Definition tells_time (ps : list packet) : Prop :=
  exists a l b m c t e, ps = a ++ l :: b ++ m :: c ++ t :: e /\
    b7 l = 68 /\ b7 m = 69 /\ b7 t = 111 /\ Forall (fun q => b7 q <> 68) b /\
    0 < msb_value m * 2 ^ 32 + lsb_value l.
