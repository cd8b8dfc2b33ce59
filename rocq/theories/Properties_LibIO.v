(** Properties C72 and C73: the file output and the parameter file of
    SophireadLib.  Each theorem is followed by a concrete instance of its
    hypotheses. *)
From Coq Require Import Lia.
From Coq Require Import Ascii String.
From Verif Require Import P_LibIO.
Global Open Scope Z_scope.

Definition ex_lhits : list hit := [Hit 3 4 77 100 5 (Some 900) 5234; Hit 360 200 20 101 6 (Some 901) 5235].
Definition ex_evs : list neutron := [Neutron (f_of_Z 3) (f_of_Z 4) (f_of_Z 36) (f_of_Z 77) 2; Neutron (f_of_Z 5) (f_of_Z 6) (f_of_Z 40) (f_of_Z 12) 7].
Definition ex_ldisk : ldisk := put_lfile (fun _ => None) "old"%string [("hits"%string, [])].

(** * C72: HDF5 output *)

(** C72: hits: one group with the eight datasets, each with its values in the
    order of the hits; an existing file is replaced and no other file touched. *)
Theorem C72_hits : forall d name hits labels, zlen hits = zlen labels -> Forall (fun h => h_tof h <> None) hits ->
  exists d' f g, lib_save_hits lib_works d name hits labels = (Ok tt, d') /\
    (forall n, n <> name -> d' n = d n) /\ d' name = Some f /\
    only_group f "hits" ["x"; "y"; "tot_ns"; "toa_ns"; "ftoa_ns"; "tof_ns"; "spidertime_ns"; "labels"]%string g /\
    In ("labels"%string, Ints labels) g /\
    (forall nm fld, hit_ints nm fld -> In (nm, Ints (map fld hits)) g) /\
    (forall nm fld, hit_doubles nm fld -> exists l, In (nm, Doubles l) g /\ Forall2 (fun h v => fld h = Some v) hits l).
Proof. exact C72_hits_l. Qed.
Print Assumptions C72_hits.
Example C72_hits_instance : zlen ex_lhits = zlen [0; 1] /\ Forall (fun h => h_tof h <> None) ex_lhits /\
  match lib_save_hits lib_works ex_ldisk "old" ex_lhits [0; 1] with
  | (Ok tt, d) => match d "old"%string with Some [(_, g)] => map fst g = ["x"; "y"; "tot_ns"; "toa_ns"; "ftoa_ns"; "tof_ns"; "spidertime_ns"; "labels"]%string | _ => False end
  | _ => False end.
Proof. split; [reflexivity|]. split; [repeat constructor; discriminate|]. reflexivity. Qed.

(** C72: a different number of labels is an error, before any file is touched. *)
Theorem C72_mismatch : forall lib d name hits labels, zlen hits <> zlen labels ->
  lib_save_hits lib d name hits labels = (Throw RuntimeError, d).
Proof. exact C72_mismatch_l. Qed.
Print Assumptions C72_mismatch.
Example C72_mismatch_instance : zlen ex_lhits <> zlen [7].
Proof. vm_compute. discriminate. Qed.

(** C72: events: one group with five datasets. *)
Theorem C72_events : forall d name evs, evs <> [] ->
  exists d' f g, lib_save_events lib_works d name evs = (Ok tt, d') /\
    (forall n, n <> name -> d' n = d n) /\ d' name = Some f /\
    only_group f "events" ["x"; "y"; "tof_ns"; "NHits"; "tot"]%string g /\
    In ("NHits"%string, Ints (map n_hits evs)) g /\
    (forall nm fld, event_doubles nm fld -> In (nm, Doubles (map fld evs)) g).
Proof. exact C72_events_l. Qed.
Print Assumptions C72_events.
Example C72_events_instance : ex_evs <> [] /\ map n_hits ex_evs = [2; 7].
Proof. split; [discriminate|reflexivity]. Qed.

(** C72: no events are an error, and an existing file stays. *)
Theorem C72_no_events : forall lib d name, lib_save_events lib d name [] = (Throw RuntimeError, d).
Proof. exact C72_no_events_l. Qed.
Print Assumptions C72_no_events.

(** C72: saving hits of which one has no time of flight reads an uninitialised
    number, before any file is touched. *)
Theorem C72_no_tof : forall lib d name hits labels, zlen hits = zlen labels -> Exists (fun h => h_tof h = None) hits ->
  lib_save_hits lib d name hits labels = (UB Uninitialised, d).
Proof. exact C72_no_tof_l. Qed.
Print Assumptions C72_no_tof.
Example C72_no_tof_instance : Exists (fun h => h_tof h = None) (ex_lhits ++ [Hit 1 2 3 4 5 None 6]) /\
  lib_save_hits lib_works ex_ldisk "old" (ex_lhits ++ [Hit 1 2 3 4 5 None 6]) [0; 1; 2] = (UB Uninitialised, ex_ldisk).
Proof.
  assert (E : Exists (fun h => h_tof h = None) (ex_lhits ++ [Hit 1 2 3 4 5 None 6])) by (apply Exists_app; right; constructor; reflexivity).
  split; [exact E|]. apply C72_no_tof; [reflexivity|exact E].
Qed.

(** C72: if the HDF5 library fails at any point, an exception is thrown, other
    files stay, and every complete dataset in the file holds its values. *)
Theorem C72_hits_fail : forall lib d name hits labels r d', zlen hits = zlen labels -> Forall (fun h => h_tof h <> None) hits ->
  lib_save_hits lib d name hits labels = (r, d') ->
  (forall n, n <> name -> d' n = d n) /\
  exists full, lib_save_hits lib_works d name hits labels = (Ok tt, put_lfile d name [("hits"%string, full)]) /\
    ((r = Ok tt /\ d' name = Some [("hits"%string, full)]) \/
     (r = Throw ExternalError /\
        (d' name = d name \/ d' name = Some [] \/ exists g, d' name = Some [("hits"%string, g)] /\ partly full g))).
Proof. exact C72_hits_fail_l. Qed.
Print Assumptions C72_hits_fail.
Theorem C72_events_fail : forall lib d name evs r d', evs <> [] -> lib_save_events lib d name evs = (r, d') ->
  (forall n, n <> name -> d' n = d n) /\
  exists full, lib_save_events lib_works d name evs = (Ok tt, put_lfile d name [("events"%string, full)]) /\
    ((r = Ok tt /\ d' name = Some [("events"%string, full)]) \/
     (r = Throw ExternalError /\
        (d' name = d name \/ d' name = Some [] \/ exists g, d' name = Some [("events"%string, g)] /\ partly full g))).
Proof. exact C72_events_fail_l. Qed.
Print Assumptions C72_events_fail.
Example C72_fail_instance :
  match lib_save_events (H5Lib true true (fun n => if Nat.eqb n 3 then WrUnwritten else WrOk)) ex_ldisk "new" ex_evs with
  | (Throw ExternalError, d) =>
      match d "new"%string, d "old"%string with
      | Some [(_, g)], Some [(_, [])] => map fst g = ["x"; "y"; "tof_ns"; "NHits"]%string /\ nth_error g 3 = Some ("NHits"%string, Ints [0; 0])
      | _, _ => False
      end
  | _ => False end.
Proof. split; reflexivity. Qed.

(** * C73: the parameter file *)

(** C73: every file whatever gives each parameter the value of the last line that
    gives one, else its default. *)
Theorem C73_values : forall rd s c, parse_params rd (Some s) = c <->
  given "abs_radius" (fun s v => v = rd s) (f_of_Z 5) (lines_of s) (a_radius c) /\
  given "abs_min_cluster_size" reads_ulong 1 (lines_of s) (a_min c) /\
  given "spider_time_range" reads_ulong 75 (lines_of s) (a_range c).
Proof. exact C73_l. Qed.
Print Assumptions C73_values.
Theorem C73_text : forall rd ls last c, Forall one_line ls -> one_line last ->
  parse_params rd (Some (text_of ls ++ last)%string) = c <->
  given "abs_radius" (fun s v => v = rd s) (f_of_Z 5) (ls ++ [last]) (a_radius c) /\
  given "abs_min_cluster_size" reads_ulong 1 (ls ++ [last]) (a_min c) /\
  given "spider_time_range" reads_ulong 75 (ls ++ [last]) (a_range c).
Proof. exact C73_text_l. Qed.
Print Assumptions C73_text.
Theorem C73_no_file : forall rd, parse_params rd None = AbsCfg (f_of_Z 5) 1 75.
Proof. exact C73_no_file_l. Qed.
Print Assumptions C73_no_file.
Example C73_instance :
  let ls := ["# comment"; "spider_time_range 80"; "abs_min_cluster_size	-3"; "spider_time_range"; "spider_time_range 90x"]%string in
  Forall one_line ls /\ one_line "" /\
  a_range (parse_params (fun _ => f_of_Z 5) (Some (text_of ls))) = 90 /\
  a_min (parse_params (fun _ => f_of_Z 5) (Some (text_of ls))) = 2 ^ 64 - 3.
Proof. split; [|split; [|split; reflexivity]]; repeat constructor; unfold one_line; vm_compute; intuition congruence. Qed.

(** C73: on complete files with numbers of at most 31 bits this is what the
    command line program reads; in general it is not. *)
Theorem C73_agree : forall rd s, complete (lines_of s) -> short_numbers (lines_of s) ->
  parse_lines rd (lines_of s) = Ok (parse_params rd (Some s)).
Proof. exact C73_agree_l. Qed.
Print Assumptions C73_agree.
Example C73_agree_instance : complete (lines_of "spider_time_range 80") /\ short_numbers (lines_of "spider_time_range 80").
Proof.
  split.
  - assert (E : parse_lines (fun _ => f_of_Z 5) (lines_of "spider_time_range 80") = Ok (AbsCfg (f_of_Z 5) 1 80)) by reflexivity.
    apply (proj1 (C40_l _ _ _)) in E. apply E.
  - constructor; [|constructor]. intros k s _ S. apply says_read in S. destruct S as (r & E & <-). cbn in E. injection E as <- <-.
    exists ""%string, "80"%string, ""%string, 80. split; [reflexivity|]. split.
    + apply (num_snoc "8" 8 "0"%char 0); [|split; [lia|reflexivity]]. apply (num_snoc "" 0 "8"%char 8); [constructor|split; [lia|reflexivity]].
    + split; [intros c r d E; discriminate E|]. split; [left; reflexivity|]. right. right. split; [reflexivity|]. discriminate.
Qed.
Theorem C73_same_as_cli_refuted : exists rd s c, complete (lines_of s) /\ parse_lines rd (lines_of s) = Ok c /\
  a_range c = 2 ^ 31 - 1 /\ a_range (parse_params rd (Some s)) = 3000000000.
Proof. exact C73_differ_l. Qed.
Print Assumptions C73_same_as_cli_refuted.
