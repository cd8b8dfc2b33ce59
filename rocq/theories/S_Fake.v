(** Specification of the generated hits: the ranges of the random numbers and
    the clusters that can be seen. *)
From Coq Require Import Reals.
From Flocq Require Import Core.
From Verif Require Export Base F64 M_Fake.
Global Open Scope Z_scope.

(** A number drawn uniformly from [lo, hi). *)
Definition drawn (lo hi : Z) (d : f64) : Prop :=
  is_finite d = true /\ (IZR lo <= B2R d < IZR hi)%R.

Definition fair_hit (d : hit_draw) : Prop :=
  drawn 0 100 (w_tot d) /\ drawn 0 1000 (w_toa d) /\ drawn 0 255 (w_ftoa d) /\ drawn 0 2000 (w_tof d).

(** What the distributions can yield for a cluster of ten hits. *)
Definition possible (d : draw) : Prop :=
  drawn 0 2 (w_x d) /\ drawn 0 2 (w_y d) /\ drawn (-1) 1 (w_time d) /\
  length (w_hits d) = 10%nat /\ Forall fair_hit (w_hits d).

(** The first cluster starts after -1. *)
Definition starts_late (ds : list draw) : Prop :=
  match ds with [] => True | d :: _ => (-1 < B2R (w_time d))%R end.

(** Some hit of the cluster has a time over threshold of at least 1. *)
Definition seen (d : draw) : bool := existsb (fun h => fge (w_tot h) (f_of_Z 1)) (w_hits d).

(** The number of clusters that can be seen. *)
Definition number_seen (ds : list draw) : Z := zlen (filter seen ds).
