(** Specification of a whole run of the command line program. *)
From Coq Require Import Reals String.
From Verif Require Export S_Cli S_Tiff.
Global Open Scope Z_scope.
Global Open Scope list_scope.

(** A spectrum: row [i] has the upper edge of bin [i] and the number of entries
    of that bin that are in the image. *)
Definition spectrum_of (sr : f64) (edges : list f64) (d : Z) (es : list entry) (rows : list (f64 * Z)) : Prop :=
  length rows = (length edges - 1)%nat /\
  forall i t c, nth_error rows i = Some (t, c) ->
    nth_error edges (S i) = Some t /\
    counted (fun e => exists x y, 0 <= x < d /\ 0 <= y < d /\ lands sr edges e i x y) es c.

(** What is binned. *)
Definition binned (o : options) (hss : list (list hit)) (nss : list (list neutron)) : list entry :=
  if String.eqb (o_mode o) "hit" then map entry_of_hit (concat hss) else map entry_of_neutron (concat nss).
Definition timing_of (o : options) : mode_t := if String.eqb (o_timing o) "gdc" then GDC_mode else TDC_mode.
