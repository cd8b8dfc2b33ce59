(** Model of sophiread/FastSophiread/include/neutron.h. *)
From Verif Require Export Base F64.

(** neutron.h: the data members.  A neutron event carries doubles for x, y,
    time of flight and time over threshold (in 25 ns ticks), and the number of
    hits. *)
Record neutron := Neutron
  { n_x : f64; n_y : f64; n_tof : f64; n_tot : f64; n_hits : Z }.

(** neutron.h: [getTOF_ns] and [getTOT_ns] multiply by 25.0. *)
Definition n_tof_ns (n : neutron) : f64 := fmul (n_tof n) (f_of_Z 25).
Definition n_tot_ns (n : neutron) : f64 := fmul (n_tot n) (f_of_Z 25).
