(** Specification of batch level processing: one sequential pass. *)
From Verif Require Export S_Tpx3 M_Core.

(** All batches in order, timestamps running through, hits collected per
    batch. *)
Fixpoint one_pass (md : mode_t) (bs : list batch) (m : list Z) (fin : Z) (s : ts)
  : outcome (list (list hit) * ts) :=
  match bs with
  | [] => Ok ([], s)
  | b :: rest =>
      let! (s', hits) := process_packets md true b m fin s in
      let! (hs, s'') := one_pass md rest m fin s' in
      Ok (hits :: hs, s'')
  end.

(** Every declared payload ends before the next header. *)
Definition payloads_disjoint (m : list Z) : Prop :=
  forall off p off' p', header_at m off p -> header_at m off' p' -> off < off' ->
    off + 8 + 8 * declared_packets p <= off'.
