(** What time-of-flight images with fewer bins should be. *)
From Coq Require Import Sorted.
From Verif Require Export S_Motion.
Global Open Scope Z_scope.
Global Open Scope list_scope.

(** [edges'] has some of the edges, those at the places [pos], among them the last
    one. *)
Definition thinned (pos : list nat) (edges edges' : list f64) : Prop :=
  map Some edges' = map (nth_error edges) pos /\ StronglySorted lt pos /\
  exists p, pos = p ++ [(length edges - 1)%nat].

Definition zsum (l : list Z) : Z := fold_right Z.add 0 l.
