(** Other orders: the hits of a cluster, the sums of the centroid and the
    stream of hits in any order. *)
From Coq Require Import Permutation.
From Verif Require Export S_Centroid S_Recover.
Global Open Scope Z_scope.

(** A sum of doubles with any order and any brackets. *)
Inductive adding := Term (h : hit) | Plus (a b : adding).
Fixpoint terms (t : adding) : list hit :=
  match t with Term h => [h] | Plus a b => terms a ++ terms b end.
Fixpoint computed (g : hit -> Z) (t : adding) : f64 :=
  match t with Term h => f_of_Z (g h) | Plus a b => fadd (computed g a) (computed g b) end.
Definition adds_up (t : adding) (c : list hit) : Prop := Permutation (terms t) c.

(** The quotient of two doubles as a compiler may compute it with
    -freciprocal-math. *)
Definition quotient (v a b : f64) : Prop := v = fdiv a b \/ v = fmul a (fdiv (f_of_Z 1) b).

(** The same hits of the same events in another order; the events may then have
    other numbers. *)
Definition reordered (own : list nat) (data : list hit) (own' : list nat) (data' : list hit) : Prop :=
  exists r : nat -> nat,
    (forall l l', In l own -> In l' own -> r l = r l' -> l = l') /\
    Permutation (combine (map r own) data) (combine own' data').
