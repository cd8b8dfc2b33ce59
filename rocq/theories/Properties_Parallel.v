(** Property C17: parallel processing of the batches.  Each theorem is followed
    by a concrete instance of its hypotheses. *)
From Coq Require Import Permutation.
From Verif Require Import S_Hit S_Tpx3 P_Core P_Parallel.
Global Open Scope Z_scope.

(** * Concrete data: two chip datasets in one chunk *)
Definition pex_lsb : packet := word_packet (0x44 * 2 ^ 56 + 1000 * 2 ^ 16).
Definition pex_msb : packet := word_packet (0x45 * 2 ^ 56 + 1 * 2 ^ 16).
Definition pex_tdc : packet := word_packet (0x6F * 2 ^ 56 + 2000 * 2 ^ 12).
Definition pex_pix (x y toa : Z) : packet := pixel_packet (PF 11 x y toa 77 5 0).
Definition pex_chunk : list Z :=
  stream [DS 51 0 0 [pex_lsb; pex_msb; pex_tdc; pex_pix 100 200 5234; pex_pix 102 201 5235];
          DS 51 2 0 [pex_pix 7 7 6000; pex_pix 90 90 6001]].
Definition pex_batches : list batch :=
  match locate GDC_mode (find_headers pex_chunk) pex_chunk (zlen pex_chunk) ts0 with
  | Ok (bs, _) => bs
  | _ => []
  end.
Definition pex_cfg : abs_cfg := AbsCfg (f_of_Z 5) 1 75.
Definition pex_ext : externals := Ext (fun v => v) (fun _ _ => (f_of_Z 1, f_of_Z 1)).
Definition pex_ranges : list (list nat) := [[1%nat]; []; [0%nat]].
(** Strict alternation of the two tasks with work. *)
Definition pex_schedule : list nat := flat_map (fun _ => [0%nat; 2%nat]) (seq 0 11).
(** Hits and events of each batch, without the doubles. *)
Definition counts (bs : list batch) : list (list Z * list Z) :=
  map (fun b => (map h_x (t_hits b), map n_hits (t_neutrons b))) bs.

Lemma pex_ranges_ok : Permutation (concat pex_ranges) (seq 0 (length pex_batches)).
Proof.
  replace (length pex_batches) with 2%nat by (vm_compute; reflexivity).
  cbn. apply perm_swap.
Qed.

(** Every schedule that finishes gives what sequential processing gives. *)
Theorem C17_schedule_independent : forall ext cfg md m bs ranges sched s,
  Permutation (concat ranges) (seq 0 (length bs)) ->
  prun ext cfg md m (pstart bs ranges) sched = Ok s -> pdone s ->
  process_all ext cfg md m bs = Ok (p_batches s).
Proof. exact C17_result_l. Qed.
Print Assumptions C17_schedule_independent.
Example C17_instance :
  (let! s := prun pex_ext pex_cfg GDC_mode pex_chunk (pstart pex_batches pex_ranges) pex_schedule in
   Ok (counts (p_batches s), map k_todo (p_tasks s))) =
  Ok ([([360; 362], [2]); ([248; 165], [1; 1])], [[]; []; []]).
Proof. vm_compute. reflexivity. Qed.
Example C17_instance_sequential :
  (let! bs := process_all pex_ext pex_cfg GDC_mode pex_chunk pex_batches in Ok (counts bs)) =
  Ok [([360; 362], [2]); ([248; 165], [1; 1])].
Proof. vm_compute. reflexivity. Qed.

(** If sequential processing succeeds, no schedule fails ... *)
Theorem C17_no_schedule_fails : forall ext cfg md m bs ranges rs,
  Permutation (concat ranges) (seq 0 (length bs)) ->
  process_all ext cfg md m bs = Ok rs ->
  forall sched, exists s, prun ext cfg md m (pstart bs ranges) sched = Ok s.
Proof. exact C17_total_l. Qed.
Print Assumptions C17_no_schedule_fails.

(** ... and every start of a schedule can be continued to the end. *)
Theorem C17_schedules_complete : forall ext cfg md m bs ranges sched rs,
  Permutation (concat ranges) (seq 0 (length bs)) ->
  process_all ext cfg md m bs = Ok rs ->
  exists more s, prun ext cfg md m (pstart bs ranges) (sched ++ more) = Ok s /\
    pdone s /\ p_batches s = rs.
Proof. exact C17_completes_l. Qed.
Print Assumptions C17_schedules_complete.
Example C17_instance_partition :
  Permutation (concat pex_ranges) (seq 0 (length pex_batches)) /\
  exists rs, process_all pex_ext pex_cfg GDC_mode pex_chunk pex_batches = Ok rs.
Proof.
  split; [exact pex_ranges_ok|].
  assert (C : ok_check (process_all pex_ext pex_cfg GDC_mode pex_chunk pex_batches)
                (fun _ => true) = true) by (vm_compute; reflexivity).
  destruct (ok_check_spec _ _ C) as (rs & E & _). exists rs. exact E.
Qed.
