(** The true hit as sophiread_display shows it: no gap between the chips, the
    low 30 bits of the arrival time. *)
From Verif Require Export S_Measure S_Display.
Global Open Scope Z_scope.

Definition without_gap (v : Z) : Z := if 260 <=? v then v - 4 else v.
Definition shown_as (h : hit) (r : raw) : Prop :=
  w_x r = without_gap (h_x h) /\ w_y r = without_gap (h_y h) /\ w_tot r = h_tot h /\
  w_toa r = h_toa h /\ w_ftoa r = h_ftoa h /\ w_spdr r = h_spider h mod 2 ^ 30 /\
  h_tof h = Some (w_tof r).
