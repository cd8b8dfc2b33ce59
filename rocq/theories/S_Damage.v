(** Recordings that differ in some datasets but not in their time packets. *)
From Verif Require Export S_Motion.
Global Open Scope Z_scope.
Global Open Scope list_scope.

(** Packets that tell the time, and packets of pixels. *)
Definition time_packet (p : packet) : bool := match kind_of p with KTdc | KGdc => true | _ => false end.
Definition of_pixel (p : packet) : bool := match kind_of p with KPixel => true | _ => false end.

Definition packets_of (ds : list dataset) : list packet := flat_map d_payload ds.

(** The same time packets in the same order, however they are spread over datasets. *)
Definition same_times (ds ds' : list dataset) : Prop :=
  filter time_packet (packets_of ds) = filter time_packet (packets_of ds').

(** How many pixels fire. *)
Definition fires (ds : list dataset) : Z := zlen (filter of_pixel (packets_of ds)).

(** Two numbers that consist of a common part and of at most [n] and [n']. *)
Definition share (n n' v v' : Z) : Prop :=
  exists c m m', 0 <= c /\ 0 <= m <= n /\ 0 <= m' <= n' /\ v = c + m /\ v' = c + m'.
