(** Specification of the streaming program. *)
From Verif Require Export S_Lib S_Abs M_StreamCli.

(** No pixel packet precedes the trigger that is current when it is read. *)
Inductive timely : list packet -> list (Z * packet) -> Prop :=
| ti_nil seen : timely seen []
| ti_pixel seen c p xs T g : kind_of p = KPixel ->
    tdc_is seen T -> gdc_is seen g -> T <= h_spider (lib_hit p T g c) ->
    timely (seen ++ [p]) xs -> timely seen ((c, p) :: xs)
| ti_other seen c p xs : kind_of p <> KPixel ->
    timely (seen ++ [p]) xs -> timely seen ((c, p) :: xs).

(** A rest of one to seven bytes that cannot be the beginning of a header. *)
Definition odd_end (m : list Z) : Prop :=
  zlen m < 8 /\ exists i b c, nth_error m i = Some b /\
    nth_error [84; 80; 88] i = Some c /\ b <> c.

(** [hits] split into full batches, lost hits and a last batch. *)
Definition batched {A} (hits : list A) (full : list (list A)) (lost rest : list A) : Prop :=
  hits = concat full ++ lost ++ rest /\ Forall (fun b => zlen b = 10000) full /\
  zlen lost < 10000.

(** The last batch is handed over unless it is empty. *)
Definition nonempty_batch {A} (rest : list A) : list (list A) :=
  match rest with [] => [] | _ => [rest] end.

(** Executions with their number of steps. *)
Inductive sys_run {A} (opened : bool) : Z -> sys A -> sys A -> Prop :=
| yr_none s : sys_run opened 0 s s
| yr_more n s s' s'' : sys_step opened s s' -> sys_run opened n s' s'' ->
    sys_run opened (1 + n) s s''.

(** The events of one batch: the hits are clustered with four slots, radius 5
    pixels and 75 ns, and every cluster is fitted. *)
Definition batch_events (ext : externals) (b : list hit) (evs : list neutron) : Prop :=
  exists ls op closed,
    clusters 4 (fits_box (5 * 2 ^ 20) 75) b ls op closed /\
    events (gauss_fit ext (f_of_Z 1)) 1
      (clusters_of (length op + length closed) ls b) evs.
