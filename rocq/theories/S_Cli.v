(** What reading and processing a file in chunks should do. *)
From Verif Require Export M_Cli S_Core S_Hdf5 S_Tof.
Global Open Scope Z_scope.
Global Open Scope list_scope.

(** [n] reads in a row. *)
Fixpoint reads (n : nat) (size : Z) (r : reader) : list (list Z) * reader :=
  match n with
  | O => ([], r)
  | S n' =>
      let (c, r') := read_chunk size r in
      let (cs, r'') := reads n' size r' in
      (c :: cs, r'')
  end.

(** The bytes of [m] from position [i * size], at most [size] of them. *)
Definition slice (m : list Z) (size : Z) (i : nat) : list Z :=
  firstn (Z.to_nat size) (skipn (Z.to_nat (Z.of_nat i * size)) m).

(** No declared payload reaches across a multiple of [size] inside the file. *)
Definition boundaries_clean (size : Z) (m : list Z) : Prop :=
  forall off p k, header_at m off p -> off < k * size < zlen m ->
    off + 8 + 8 * declared_packets p <= k * size.

(** Every chunk boundary inside the stream is the start of a dataset. *)
Definition cuts_at_datasets (size : Z) (ds : list dataset) : Prop :=
  forall k, 0 < k * size < zlen (stream ds) -> exists j, k * size = zlen (stream (firstn j ds)).

(** A dataset of which only the first [k] packets are there. *)
Definition shorten (k : nat) (d : dataset) : dataset :=
  DS (d_b3 d) (d_chip d) (d_b5 d) (firstn k (d_payload d)).

(** * The result for a well-formed stream *)

(** The hits of each dataset, timestamps running through. *)
Inductive processed (md : mode_t) : ts -> list dataset -> list (list hit) -> ts -> Prop :=
| pr_nil s : processed md s [] [] s
| pr_cons s d ds chip hs hss s' :
    declares_chip (ds_header d) chip ->
    yields md chip s (d_payload d) hs ->
    processed md (fold_left (fun s p => next_ts md p s) (d_payload d) s) ds hss s' ->
    processed md s (d :: ds) (hs :: hss) s'.

(** The neutrons of the hits of one dataset: a new clustering object. *)
Definition neutrons_of (ext : externals) (cfg : abs_cfg) (hits : list hit) (ns : list neutron) : Prop :=
  exists o, abs_fit 8 cfg abs_new hits = Ok o /\
    abs_get_events ext cfg (abs_set_method o MCentroid) hits = Ok ns.

(** * The command line *)

(** The value for which the last matching option asks, or the default. *)
Definition chosen {X A} (sel : X -> option A) (dflt : A) (args : list X) (v : A) : Prop :=
  (exists l x r, args = l ++ x :: r /\ sel x = Some v /\ Forall (fun y => sel y = None) r) \/
  (v = dflt /\ Forall (fun y => sel y = None) args).

Definition sel_i a := match a with Ai s => Some s | _ => None end.
Definition sel_H a := match a with AH s => Some s | _ => None end.
Definition sel_E a := match a with AE s => Some s | _ => None end.
Definition sel_u a := match a with Au s => Some s | _ => None end.
Definition sel_T a := match a with AT s => Some s | _ => None end.
Definition sel_f a := match a with Af s => Some s | _ => None end.
Definition sel_m a := match a with Am s => Some s | _ => None end.
Definition sel_t a := match a with At s => Some s | _ => None end.
Definition sel_s a := match a with As s => Some s | _ => None end.
(** -c counts mebibytes, modulo 2^64 bytes. *)
Definition sel_c (stoull : string -> option Z) a :=
  match a with
  | Ac s => match stoull s with Some n => Some ((n * 2 ^ 20) mod 2 ^ 64) | None => None end
  | _ => None
  end.
Definition sel_d a := match a with Ad => Some true | _ => None end.
Definition sel_v a := match a with Av => Some true | _ => None end.

Definition read_options (stoull : string -> option Z) (args : list arg) (o : options) : Prop :=
  chosen sel_i ""%string args (o_input o) /\ chosen sel_H ""%string args (o_hits o) /\
  chosen sel_E ""%string args (o_events o) /\ chosen sel_u ""%string args (o_config o) /\
  chosen sel_T ""%string args (o_tiff o) /\ chosen sel_f "tof_image"%string args (o_base o) /\
  chosen sel_m "neutron"%string args (o_mode o) /\ chosen sel_s "Spectra"%string args (o_spectra o) /\
  chosen sel_t "tdc"%string args (o_timing o) /\
  chosen (sel_c stoull) (5 * 2 ^ 30) args (o_chunk o) /\
  chosen sel_d false args (o_debug o) /\ chosen sel_v false args (o_verbose o).

Definition acceptable (stoull : string -> option Z) (args : list arg) : Prop :=
  ~ In Abad args /\ forall s, In (Ac s) args -> stoull s <> None.

Definition valid_options (o : options) : Prop :=
  o_input o <> ""%string /\ (o_mode o = "hit" \/ o_mode o = "neutron")%string /\
  (o_timing o = "gdc" \/ o_timing o = "tdc")%string.
