(** What a reader of the spectrum file learns about the entries [es]. *)
From Coq Require Import Reals String.
From Verif Require Export S_Program S_Text.
Global Open Scope Z_scope.
Global Open Scope list_scope.

Definition spectrum_told (sr : f64) (edges : list f64) (d : Z) (es : list entry) (text : list Z) : Prop :=
  exists h ls, text_lines text = Some (h :: ls) /\ h = bytes "shutter_time,counts" /\
    length ls = (length edges - 1)%nat /\
    forall i l, nth_error ls i = Some l -> exists t a b c,
      nth_error edges (S i) = Some t /\ columns l = [a; b] /\ tells (B2R t) a /\ natural b = Some c /\
      counted (fun e => exists x y, 0 <= x < d /\ 0 <= y < d /\ lands sr edges e i x y) es c.
