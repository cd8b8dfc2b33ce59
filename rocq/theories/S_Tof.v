(** Specification of the time-of-flight images. *)
From Coq Require Import Reals Sorted.
From Flocq Require Import Core.
From Verif Require Export Base F64 M_Tof.
Global Open Scope Z_scope.

(** Finite, strictly increasing bin edges. *)
Definition edges_ok (edges : list f64) : Prop :=
  (2 <= length edges)%nat /\ Forall (fun e => is_finite e = true) edges /\
  StronglySorted (fun a b => (B2R a < B2R b)%R) edges.

(** The time [t] (seconds) is in the half open interval (e_i, e_(i+1)]. *)
Definition in_bin (edges : list f64) (t : f64) (i : nat) : Prop :=
  exists a b, nth_error edges i = Some a /\ nth_error edges (S i) = Some b /\
    (B2R a < B2R t <= B2R b)%R.

(** Before the last edge. *)
Definition before_last (edges : list f64) (t : f64) : Prop :=
  exists z, nth_error edges (length edges - 1) = Some z /\ (B2R t < B2R z)%R.

(** [z] is the integer nearest to [v], halves away from zero. *)
Definition nearest (v : f64) (z : Z) : Prop := is_finite v = true /\ ZnearestA (B2R v) = z.

(** Where an event goes: bin, column x, row y. *)
Definition lands (sr : f64) (edges : list f64) (e : entry) (i : nat) (x y : Z) : Prop :=
  (exists tof, en_tof e = Some tof /\ is_finite tof = true /\ (0 <= B2R tof)%R /\
     in_bin edges (fdiv tof (f_of_Z 1000000000)) i /\
     before_last edges (fdiv tof (f_of_Z 1000000000))) /\
  is_finite (en_x e) = true /\ is_finite (en_y e) = true /\
  nearest (fmul (en_x e) sr) x /\ nearest (fmul (en_y e) sr) y.

(** Number of elements of a list that satisfy [P]. *)
Inductive counted {A} (P : A -> Prop) : list A -> Z -> Prop :=
| counted_nil : counted P [] 0
| counted_yes a l n : P a -> counted P l n -> counted P (a :: l) (n + 1)
| counted_no a l n : ~ P a -> counted P l n -> counted P (a :: l) n.

(** The pixel (x, y) of bin i. *)
Definition pixel (ims : list image) (i : nat) (x y : Z) : option Z :=
  if (x <? 0) || (y <? 0) then None else
  match nth_error ims i with
  | Some im => match nth_error im (Z.to_nat y) with
               | Some row => nth_error row (Z.to_nat x)
               | None => None
               end
  | None => None
  end.

(** [n] images of [d] rows of [d] counters. *)
Definition shape (n : nat) (d : Z) (ims : list image) : Prop :=
  length ims = n /\
  Forall (fun im => zlen im = d /\
    Forall (fun row => zlen row = d /\ Forall (fun v => 0 <= v < 2 ^ 32) row) im) ims.

(** The image side for a super resolution factor. *)
Definition side (sr : f64) (d : Z) : Prop :=
  is_finite (fmul (f_of_Z 517) sr) = true /\ Ztrunc (B2R (fmul (f_of_Z 517) sr)) = d /\
  - 2 ^ 31 <= d < 2 ^ 31.

(** Sum of all pixels. *)
Definition total (ims : list image) : Z :=
  fold_right Z.add 0 (map (fun im => fold_right Z.add 0 (map (fold_right Z.add 0) im)) ims).
