(** Model of timedProcessing in sophiread/SophireadCLI/src/sophiread_core.cpp
    (121-176), which is also the structure of the parallel loops in
    benchmark_mmap.cpp: tbb::parallel_for over the batches.

    The scheduler splits the indices into ranges and runs the ranges
    concurrently.  Each range is a task with its own ABS object; the vector of
    batches is shared memory.  A schedule says which task moves next; one move
    is one packet, or one call of the clustering object. *)
From Verif Require Export M_Core M_Abs.

(** * Sequential execution *)

(** sophiread_core.cpp:137-146: the loop body for one batch.  [o] is the state
    of the clustering object when the body starts. *)
Definition body (ext : externals) (cfg : abs_cfg) (md : mode_t) (m : list Z)
    (o : abs_obj) (b : batch) : outcome (abs_obj * batch) :=
  let! b1 := extract_hits md b m (zlen m) in
  let o1 := abs_set_method (abs_reset o) MCentroid in
  let! o2 := abs_fit 8 cfg o1 (t_hits b1) in
  let! evs := abs_get_events ext cfg o2 (t_hits b1) in
  Ok (o2, Batch (t_index b1) (t_num b1) (t_chip b1) (t_hits b1) evs (t_ts b1)).

(** One range containing everything. *)
Fixpoint process_from (ext : externals) (cfg : abs_cfg) (md : mode_t) (m : list Z)
    (o : abs_obj) (bs : list batch) : outcome (list batch) :=
  match bs with
  | [] => Ok []
  | b :: rest =>
      let! (o', b') := body ext cfg md m o b in
      let! rest' := process_from ext cfg md m o' rest in
      Ok (b' :: rest')
  end.
Definition process_all ext cfg md m bs := process_from ext cfg md m abs_new bs.

(** * Concurrent execution *)

(** Where a task is inside the loop body. *)
Inductive pc_t :=
| Begin                        (* line 137 *)
| Packets (n : nat) (iter : Z) (* in extractHits: n iterations left, iterator *)
| Clear                        (* lines 140, 141 *)
| Fit                          (* line 142 *)
| Events.                      (* line 144 *)

(** A task: the batch indices still to do, the first being worked on. *)
Record task := Task { k_todo : list nat; k_pc : pc_t; k_abs : abs_obj }.

(** One move of a task on the batch it is working on.  The last component says
    whether the loop body is finished. *)
Definition move (ext : externals) (cfg : abs_cfg) (md : mode_t) (m : list Z)
    (pc : pc_t) (o : abs_obj) (b : batch) : outcome (pc_t * abs_obj * batch * bool) :=
  match pc with
  | Begin => Ok (Packets (Z.to_nat (t_num b)) (t_index b), o, b, false)
  | Packets O _ => Ok (Clear, o, b, false)
  | Packets (S n) iter =>
      if iter + 8 >=? zlen m then Ok (Packets n iter, o, b, false)
      else
        match read_packet m (iter + 8) with
        | None => UB OutOfBounds
        | Some p =>
            let! (s', hits') := step md true (t_chip b) p (t_ts b) (t_hits b) in
            Ok (Packets n (iter + 8), o,
                Batch (t_index b) (t_num b) (t_chip b) hits' (t_neutrons b) s', false)
        end
  | Clear => Ok (Fit, abs_set_method (abs_reset o) MCentroid, b, false)
  | Fit => let! o' := abs_fit 8 cfg o (t_hits b) in Ok (Events, o', b, false)
  | Events =>
      let! evs := abs_get_events ext cfg o (t_hits b) in
      Ok (Begin, o, Batch (t_index b) (t_num b) (t_chip b) (t_hits b) evs (t_ts b), true)
  end.

(** Shared batches and tasks. *)
Record pstate := PS { p_batches : list batch; p_tasks : list task }.

(** Task [k] moves; a finished (or missing) task does nothing. *)
Definition pstep (ext : externals) (cfg : abs_cfg) (md : mode_t) (m : list Z)
    (s : pstate) (k : nat) : outcome pstate :=
  match nth_error (p_tasks s) k with
  | None => Ok s
  | Some t =>
      match k_todo t with
      | [] => Ok s
      | i :: rest =>
          match nth_error (p_batches s) i with
          | None => UB OutOfBounds
          | Some b =>
              let! (pc', o', b', fin) := move ext cfg md m (k_pc t) (k_abs t) b in
              let t' := Task (if fin then rest else i :: rest) pc' o' in
              match set_nth (p_batches s) i b', set_nth (p_tasks s) k t' with
              | Some bs', Some ts' => Ok (PS bs' ts')
              | _, _ => UB OutOfBounds
              end
          end
      end
  end.

Fixpoint prun (ext : externals) (cfg : abs_cfg) (md : mode_t) (m : list Z)
    (s : pstate) (schedule : list nat) : outcome pstate :=
  match schedule with
  | [] => Ok s
  | k :: rest => let! s' := pstep ext cfg md m s k in prun ext cfg md m s' rest
  end.

(** The start of the parallel loop for a partition into ranges of indices; each
    range makes its own clustering object (sophiread_core.cpp:131-134). *)
Definition pstart (bs : list batch) (ranges : list (list nat)) : pstate :=
  PS bs (map (fun r => Task r Begin abs_new) ranges).

Definition pdone (s : pstate) : Prop := Forall (fun t => k_todo t = []) (p_tasks s).
