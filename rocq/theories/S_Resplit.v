(** Where the datasets of a recording end. *)
From Coq Require Import String Permutation.
From Verif Require Export S_Damage S_Same.
Global Open Scope Z_scope.
Global Open Scope list_scope.

(** The packets of a recording, each with its chip. *)
Definition tagged (ds : list dataset) : list (Z * packet) :=
  flat_map (fun d => map (fun p => (d_chip d, p)) (d_payload d)) ds.

(** Two datasets without time packets may be exchanged. *)
Definition timeless (d : dataset) : Prop := Forall (fun p => time_packet p = false) (d_payload d).
Inductive shuffled : list dataset -> list dataset -> Prop :=
| sh_same ds : shuffled ds ds
| sh_swap a d e b ds : timeless d -> timeless e -> shuffled (a ++ e :: d :: b) ds -> shuffled (a ++ d :: e :: b) ds.
