(** What a minimum size of clusters should mean. *)
From Verif Require Export S_Events S_Motion.
Global Open Scope Z_scope.
Global Open Scope list_scope.

(** The neutrons of at least [m] hits. *)
Definition at_least (m : Z) (ns : list neutron) : list neutron := filter (fun e => m <=? n_hits e) ns.

(** Settings that differ at most in the minimum size. *)
Definition but_for_size (c c' : abs_cfg) : Prop := a_radius c' = a_radius c /\ a_range c' = a_range c.

(** One neutron for each event of at least [m] hits, in the same order. *)
Inductive big_ones (m a w : Z) (x : exposure) : list nat -> list neutron -> Prop :=
| bg_end : big_ones m a w x [] []
| bg_small l ls ns : zlen (members l (x_own x) (x_hits x)) < m -> big_ones m a w x ls ns ->
    big_ones m a w x (l :: ls) ns
| bg_big l ls e ns : m <= zlen (members l (x_own x) (x_hits x)) ->
    tells a w (nth_event (x_events x) l) (members l (x_own x) (x_hits x)) e -> big_ones m a w x ls ns ->
    big_ones m a w x (l :: ls) (e :: ns).
Definition accounted_big (m a w : Z) (x : exposure) (ns : list neutron) : Prop :=
  big_ones m a w x (seq 0 (length (x_events x))) ns.
