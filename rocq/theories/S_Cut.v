(** A recording that was cut short. *)
From Coq Require Import String Permutation.
From Verif Require Export S_Damage.
Global Open Scope Z_scope.
Global Open Scope list_scope.

(** The program has processed a file that consists of the first [n] bytes of the datasets
    [ds], returned 0 and left the files [d'].  (As [completed], which has the whole file.) *)
Definition finished (ext : externals) (o : options) (cfg : config) (ds : list dataset) (n : nat) (s : Z) (d d' : store) : Prop :=
  exists fuel w order args,
    exclusive w /\ (forall p, env_writable w p = true) /\ understood w args o /\ configured w o cfg /\
    env_input w (o_input o) = Some (firstn n (stream ds)) /\ Forall dataset_ok ds /\ Forall no_false_header ds /\
    0 < o_chunk o /\ cuts_at_datasets (o_chunk o) ds /\ (length (stream ds) <= fuel)%nat /\
    edges_ok (g_edges cfg) /\ side (g_sr cfg) s /\ 0 < s /\
    Permutation order (seq 0 (length (g_edges cfg) - 1)) /\
    (forall i, (i < length (g_edges cfg) - 1)%nat ->
       saved (d_files d) (tiff_name (o_tiff o) (o_base o) i) s s \/ unrelated (d_files d) (tiff_name (o_tiff o) (o_base o) i) s s) /\
    program fuel ext w order args d = Ok (Exit 0, d').

(** What is left of the datasets: some of them, the last one with a part of its packets. *)
Inductive left_of : list dataset -> list dataset -> Prop :=
| lo_all ds : left_of ds ds
| lo_whole ds1 ds2 : ds1 <> [] -> left_of (ds1 ++ ds2) ds1
| lo_part ds1 d ds2 k : (k <= length (d_payload d))%nat -> left_of (ds1 ++ d :: ds2) (ds1 ++ [shorten k d]).

(** The file ends inside a packet of a payload. *)
Definition ends_in_packet (ds : list dataset) (n : nat) : Prop :=
  exists ds1 d ds2 j, ds = ds1 ++ d :: ds2 /\ (n = length (stream ds1) + 8 + j)%nat /\
    0 < Z.of_nat j < 8 * zlen (d_payload d) /\ Z.of_nat j mod 8 <> 0.
