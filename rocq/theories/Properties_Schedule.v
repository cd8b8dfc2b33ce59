(** Property C17: how schedules fail.  The theorem is followed by a concrete
    instance. *)
From Coq Require Import Permutation Lia.
From Verif Require Import M_Parallel P_Parallel P_Schedule Properties_Parallel.
Local Open Scope Z_scope.
Local Open Scope list_scope.

(** C17: no schedule ends with an exception, and one that is undefined is so for a
    reason that one of the batches has by itself. *)
Theorem C17_undefined : forall ext cfg md m bs ranges sched, Permutation (concat ranges) (seq 0 (length bs)) ->
  (forall e, prun ext cfg md m (pstart bs ranges) sched <> Throw e) /\
  (forall u, prun ext cfg md m (pstart bs ranges) sched = UB u ->
     exists b, In b bs /\ process_all ext cfg md m [b] = UB u).
Proof. exact C17_undefined_l. Qed.
Print Assumptions C17_undefined.

(** The chunk without its last four bytes: its last packet is cut. *)
Example C17_undefined_instance :
  prun pex_ext pex_cfg GDC_mode (firstn (length pex_chunk - 4) pex_chunk) (pstart pex_batches pex_ranges) pex_schedule = UB OutOfBounds /\
  exists b, In b pex_batches /\ process_all pex_ext pex_cfg GDC_mode (firstn (length pex_chunk - 4) pex_chunk) [b] = UB OutOfBounds.
Proof.
  assert (H : prun pex_ext pex_cfg GDC_mode (firstn (length pex_chunk - 4) pex_chunk) (pstart pex_batches pex_ranges) pex_schedule = UB OutOfBounds)
    by (vm_compute; reflexivity).
  split; [exact H|]. exact (proj2 (C17_undefined _ _ _ _ _ _ _ pex_ranges_ok) _ H).
Qed.
