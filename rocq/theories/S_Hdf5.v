(** What the HDF5 output should contain, in terms of records and columns. *)
From Coq Require Import Ascii.
From Verif Require Export M_Hdf5.
Global Open Scope Z_scope.
Global Open Scope list_scope.

(** The content of a column; an absent one is empty. *)
Definition col (f : h5file) (grp name : string) : list f64 :=
  match find_group f grp with
  | Some g => match g name with Some c => c | None => [] end
  | None => []
  end.

(** What each column of the hits (neutrons) group records of one hit (neutron). *)
Inductive hit_field : string -> (hit -> option f64) -> Prop :=
| HF_x : hit_field "x" (fun h => Some (f_of_Z (h_x h)))
| HF_y : hit_field "y" (fun h => Some (f_of_Z (h_y h)))
| HF_tot : hit_field "tot_ns" (fun h => Some (tot_ns h))
| HF_toa : hit_field "toa_ns" (fun h => Some (toa_ns h))
| HF_ftoa : hit_field "ftoa_ns" (fun h => Some (ftoa_ns h))
| HF_tof : hit_field "tof_ns" tof_ns
| HF_spider : hit_field "spidertime_ns" (fun h => Some (spider_ns h)).
Inductive neutron_field : string -> (neutron -> f64) -> Prop :=
| NF_x : neutron_field "x" n_x
| NF_y : neutron_field "y" n_y
| NF_tof : neutron_field "tof_ns" n_tof_ns
| NF_tot : neutron_field "tot_ns" n_tot_ns
| NF_n : neutron_field "nHits" (fun n => f_of_Z (n_hits n)).

(** A sequence of appends of both kinds to one open file, all library calls
    succeeding. *)
Inductive append_op := AHits (hits : list hit) | ANeutrons (ns : list neutron).
Definition do_append (f : h5file) (a : append_op) : outcome h5file :=
  match a with
  | AHits hits => append_hits no_fault f hits
  | ANeutrons ns => let (r, f') := append_neutrons no_fault f ns in let! _ := r in Ok f'
  end.
Definition all_hits (l : list append_op) : list hit :=
  flat_map (fun a => match a with AHits h => h | ANeutrons _ => [] end) l.
Definition all_neutrons (l : list append_op) : list neutron :=
  flat_map (fun a => match a with AHits _ => [] | ANeutrons n => n end) l.

(** A name that no group of the file has. *)
Definition free (f : h5file) (name : string) : Prop := find_group f name = None.

(** The k-th candidate name for a new group. *)
Definition candidate (base : string) (k : nat) : string :=
  match k with O => base | S _ => (base ++ "_" ++ to_string k)%string end.

(** The group holds exactly the given columns. *)
Definition group_is (g : group) (cols : list (string * column)) : Prop :=
  forall n, g n = match find (fun c => String.eqb (fst c) n) cols with
                  | Some c => Some (snd c) | None => None end.

(** The first of [n] library calls that fails is number [m] ([m] = [n]: none
    does). *)
Definition first_fault (is : nat -> io) (n m : nat) : Prop :=
  (m <= n)%nat /\ (forall j, (j < m)%nat -> is j = IoOk) /\ ((m < n)%nat -> is m <> IoOk).

(** The decimal numeral [s] of [n] (leading zeros are allowed). *)
Fixpoint decimal_value (acc : Z) (s : string) : Z :=
  match s with EmptyString => acc | String c r => decimal_value (10 * acc + (Z.of_N (N_of_ascii c) - 48)) r end.
Fixpoint all_digits (s : string) : Prop :=
  match s with EmptyString => True | String c r => 48 <= Z.of_N (N_of_ascii c) <= 57 /\ all_digits r end.
Definition decimal_numeral (n : nat) (s : string) : Prop :=
  s <> ""%string /\ all_digits s /\ decimal_value 0 s = Z.of_nat n.
