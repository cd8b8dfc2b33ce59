(** Property C80: the program benchmark_mmap.  Each theorem is followed by a
    concrete instance of its hypotheses. *)
From Coq Require Import Reals String Lia Lra.
From Verif Require Import P_Mmap Properties_Tpx3 Properties_Cli.
Local Open Scope string_scope.
Local Open Scope list_scope.
Global Open Scope Z_scope.

(** * Concrete data used by the instances *)

Definition mex_show (v : f64) : string := "v".
Definition mex_disk : mdisk := fun _ => None.
Definition mex_opens (name : string) : bool := negb (String.eqb name "no.bin").
Definition mex_input (m : list Z) (name : string) : option (list Z * bool) :=
  if String.eqb name "a.tpx3" then Some (m, true)
  else if String.eqb name "ro.tpx3" then Some (m, false) else None.
Definition mex_plan (k n : nat) : plan := Leaf n.
Definition mex_split (k n : nat) : plan := match n with S n' => Join (Leaf 1) (Leaf n') | O => Leaf 0 end.
Definition mex_run (env : option Z) (p : nat -> nat -> plan) (m : list Z) (args : list string)
  : outcome mresult :=
  mmap_main 100 cex_ext mex_show mex_opens env p (mex_input m) args mex_disk.
(** Exit status, report and text of the file [name]. *)
Definition seen (name : string) (o : outcome mresult) : outcome (Z * option mreport * string) :=
  let! r := o in Ok (mr_status r, mr_report r, text_of (mr_disk r) name).

(** A hit in the last column of chip 0: x = 515. *)
Definition edge_ds : dataset :=
  DS 51 0 0 [ex_lsb; ex_msb; ex_tdc; pixel_packet (PF 11 255 200 5234 77 5 0)].
Lemma edge_ok : Forall dataset_ok [edge_ds] /\ Forall no_false_header [edge_ds].
Proof.
  split; (apply Forall_cons; [|apply Forall_nil]); [|repeat constructor; vm_compute; intuition discriminate].
  repeat (apply conj); try (vm_compute; intuition discriminate).
  repeat constructor; vm_compute; intuition discriminate.
Qed.

(** C80: the hits of the report are those of the datasets of the file; the bad ones
    are those over the limit; the output has the events of all datasets in order.
    The number of events reported is at least that of the events, and equal if
    the file is processed in one window. *)
Theorem C80_run : forall fuel ext show opens env p input inp rest d rw ds r rep,
  Forall dataset_ok ds -> Forall no_false_header ds -> input inp = Some (stream ds, rw) ->
  (forall v, env = Some v -> 0 <= v) -> covers p ->
  mmap_main fuel ext show opens env p input (inp :: rest) d = Ok r -> mr_report r = Some rep ->
  exists o hss nss, asked_options (nth_error rest 1) o /\ mmap_hits (mo_tgdc o) ds hss /\
    Forall2 (neutrons_of ext radius_5) hss nss /\
    mr_hits rep = zlen (concat hss) /\
    (mo_rate o <> 0 -> counted (over_limit (mo_rate o)) (concat hss) (mr_bad rep)) /\
    (mo_rate o = 0 -> mr_bad rep = 0) /\
    zlen (concat nss) <= mr_events rep /\ (concat nss = [] -> mr_events rep = 0) /\
    (zlen ds < max_batch_len env -> mr_events rep = zlen (concat nss)) /\
    match rest with
    | [] => mr_status r = 0 /\ mr_disk r = d
    | out :: _ => written show opens d out (concat nss) (mr_status r) (mr_disk r)
    end.
Proof. exact C80_run_l. Qed.
Print Assumptions C80_run.
Example C80_run_instance :
  Forall dataset_ok cex_ds /\ Forall no_false_header cex_ds /\ covers mex_plan /\
  seen "out.csv" (mex_run None mex_plan (stream cex_ds) ["a.tpx3"; "out.csv"; "tgdc,60hz"]) =
  Ok (0, Some (MReport 3 3 3),
      joined ["X,Y,TOF (ns),Nhits, TOT"; newline; "v,v,v,1,v"; newline; "v,v,v,1,v"; newline;
              "v,v,v,1,v"; newline]).
Proof.
  destruct cex_ok. split; [assumption|]. split; [assumption|]. split; [intros k n; reflexivity|].
  vm_compute. reflexivity.
Qed.

(** C80: without a report nothing is written and the status is 1; this is when there
    is no argument, the input cannot be opened, or it is to be mapped and cannot be
    opened for writing. *)
Theorem C80_refused : forall fuel ext show opens env p input args d r,
  mmap_main fuel ext show opens env p input args d = Ok r ->
  (mr_report r = None <-> refused input args) /\ (mr_report r = None -> mr_status r = 1 /\ mr_disk r = d).
Proof. exact C80_refused_l. Qed.
Print Assumptions C80_refused.
Example C80_refused_instance :
  map (fun args => seen "out.csv" (mex_run None mex_plan (stream cex_ds) args))
    [[]; ["b.tpx3"; "out.csv"]; ["ro.tpx3"; "out.csv"; "mmap"]; ["ro.tpx3"]] =
  [Ok (1, None, ""); Ok (1, None, ""); Ok (1, None, ""); Ok (0, Some (MReport 1 0 1), "")].
Proof. vm_compute. reflexivity. Qed.

(** C80: the program ends, if a window can take two headers, the times of the hits
    stay below 2^48 and, for a .bin file, the numbers fit their types. *)
Theorem C80_ends : forall fuel ext show opens env p input inp rest d rw ds,
  Forall dataset_ok ds -> Forall no_false_header ds -> input inp = Some (stream ds, rw) ->
  2 <= max_batch_len env -> covers p -> (length (stream ds) < fuel)%nat ->
  (forall o hss, asked_options (nth_error rest 1) o -> mmap_hits (mo_tgdc o) ds hss ->
     Forall (fun h => h_spider h < 2 ^ 48) (concat hss)) ->
  (forall out, nth_error rest 0 = Some out ->
     (ends out ".h5" -> opens out = true) /\
     (ends out ".bin" -> opens out = true -> forall o hss nss, asked_options (nth_error rest 1) o ->
        mmap_hits (mo_tgdc o) ds hss -> Forall2 (neutrons_of ext radius_5) hss nss ->
        exists ls, Forall2 bin_numbers (concat nss) ls)) ->
  exists r, mmap_main fuel ext show opens env p input (inp :: rest) d = Ok r.
Proof. exact C80_ends_l. Qed.
Print Assumptions C80_ends.
Example C80_ends_instance :
  (length (stream cex_ds) < 100)%nat /\
  (forall o hss, asked_options (Some "tgdc") o -> mmap_hits (mo_tgdc o) cex_ds hss ->
     Forall (fun h => h_spider h < 2 ^ 48) (concat hss)) /\
  seen "out.bin" (mex_run (Some 2) mex_plan (stream cex_ds) ["a.tpx3"; "out.bin"; "tgdc"]) =
  Ok (0, Some (MReport 3 0 4),
      joined ["46079"; "25599"; "2021250"; "1"; "77"; "32255"; "65407"; "10455625"; "1"; "88";
              "19839"; "40319"; "2021250"; "1"; "77"]).
Proof.
  split; [cbn; lia|]. split; [|vm_compute; reflexivity].
  intros o hss (_ & _ & T & _) H. rewrite (proj2 T) in H by (exists "", ""; reflexivity).
  rewrite (mmap_hits_unique true cex_ds hss _ H (hits_of_ds true cex_ds (proj1 cex_ok))).
  assert (E : forallb (fun h => h_spider h <? 2 ^ 48) (concat (hits_of true (map ds_item cex_ds) ts0)) = true)
    by (vm_compute; reflexivity).
  rewrite forallb_forall in E. apply Forall_forall. intros h I. apply E in I. lia.
Qed.

(** C80: if the HDF5 file cannot be made, the program ends by an exception. *)
Theorem C80_no_hdf5 : forall fuel ext show opens opens' env p input inp out more d r,
  ends out ".h5" -> opens' out = false ->
  mmap_main fuel ext show opens env p input (inp :: out :: more) d = Ok r -> mr_disk r out <> d out ->
  mmap_main fuel ext show opens' env p input (inp :: out :: more) d = Throw ExternalError.
Proof. exact C80_no_hdf5_l. Qed.
Print Assumptions C80_no_hdf5.
Example C80_no_hdf5_instance :
  (let! r := mex_run None mex_plan (stream cex_ds) ["a.tpx3"; "out.h5"] in
   Ok (match mr_disk r "out.h5" with Some _ => true | None => false end)) = Ok true /\ mex_disk "out.h5" = None /\
  mmap_main 100 cex_ext mex_show (fun _ => false) None mex_plan (mex_input (stream cex_ds)) ["a.tpx3"; "out.h5"] mex_disk =
  Throw ExternalError.
Proof. vm_compute. repeat split; reflexivity. Qed.

(** C80: neither the use of threads nor the way the batches are shared out changes
    anything. *)
Theorem C80_threads : forall fuel ext show opens env p p' input inp out s s' more d,
  covers p -> covers p' ->
  (forall w, In w ["mmap"; "tgdc"; "1hz"; "10hz"; "15hz"; "30hz"; "45hz"; "60hz"]%string -> (asks s w <-> asks s' w)) ->
  mmap_main fuel ext show opens env p input (inp :: out :: s :: more) d =
  mmap_main fuel ext show opens env p' input (inp :: out :: s' :: more) d.
Proof. exact C80_threads_l. Qed.
Print Assumptions C80_threads.
Example C80_threads_instance : covers mex_split /\
  seen "out.bin" (mex_run None mex_split (stream cex_ds) ["a.tpx3"; "out.bin"; "tgdc,tbb"]) =
  seen "out.bin" (mex_run None mex_plan (stream cex_ds) ["a.tpx3"; "out.bin"; "tgdc"]).
Proof. split; [intros k [|n]; reflexivity|]. vm_compute. reflexivity. Qed.

(** C80: a file whose size is not a multiple of 8 is never finished. *)
Theorem C80_trailing_bytes : forall fuel ext show opens env p input inp rest d m rw r,
  input inp = Some (m, rw) -> bytes_ok m -> zlen m mod 8 <> 0 -> (forall v, env = Some v -> 0 <= v) -> covers p ->
  ~ refused input (inp :: rest) ->
  mmap_main fuel ext show opens env p input (inp :: rest) d <> Ok r.
Proof. exact C80_trailing_l. Qed.
Print Assumptions C80_trailing_bytes.
Example C80_trailing_bytes_instance :
  zlen (stream cex_ds ++ [0]) mod 8 <> 0 /\ ~ refused (mex_input (stream cex_ds ++ [0])) ["a.tpx3"] /\
  seen "" (mex_run None mex_plan (stream cex_ds ++ [0]) ["a.tpx3"]) = OutOfFuel.
Proof. split; [vm_compute; discriminate|]. split; [intros []|]. vm_compute. reflexivity. Qed.

(** C80: every hit later than one pulse period counts as bad. *)
Theorem C80_late_is_bad : forall rate h, 0 < rate <= 60 -> after_period rate h -> over_limit rate h.
Proof. exact C80_late_l. Qed.
Print Assumptions C80_late_is_bad.
Example C80_late_is_bad_instance : after_period 60 (Hit 0 0 0 0 0 (Some 666667) 0).
Proof. exists 666667. split; [reflexivity|]. replace (25 * 666667) with 16666675 by reflexivity. lra. Qed.

(** Finding: without the option tgdc the hits before the first time packets of their
    own dataset are lost. *)
Theorem C80_without_tgdc_refuted : exists ds hss hss',
  Forall dataset_ok ds /\ Forall no_false_header ds /\
  mmap_hits true ds hss /\ mmap_hits false ds hss' /\ zlen (concat hss') < zlen (concat hss).
Proof.
  exists cex_ds, (hits_of true (map ds_item cex_ds) ts0), (hits_of false (map ds_item cex_ds) ts0).
  destruct cex_ok as [A B]. split; [exact A|]. split; [exact B|].
  split; [apply hits_of_ds; exact A|]. split; [apply hits_of_ds; exact A|]. vm_compute. reflexivity.
Qed.
Print Assumptions C80_without_tgdc_refuted.

(** Finding: the limit is 1/rate milliseconds (plus 1 ns), not 1/rate seconds, so
    hits well within the period count as bad; here all of them. *)
Theorem C80_bad_is_late_refuted : exists hss r rep,
  mex_run None mex_plan (stream cex_ds) ["a.tpx3"; "out.csv"; "tgdc,60hz"] = Ok r /\
  mmap_hits true cex_ds hss /\ mr_report r = Some rep /\
  Forall (fun h => ~ after_period 60 h) (concat hss) /\ mr_bad rep = zlen (concat hss) /\ 0 < mr_bad rep.
Proof.
  assert (E : (let! r := mex_run None mex_plan (stream cex_ds) ["a.tpx3"; "out.csv"; "tgdc,60hz"] in
              Ok (mr_report r)) = Ok (Some (MReport 3 3 3))) by (vm_compute; reflexivity).
  destruct (mex_run None mex_plan (stream cex_ds) ["a.tpx3"; "out.csv"; "tgdc,60hz"]) as [r| | |]; try discriminate E.
  apply Ok_inj in E.
  exists (hits_of true (map ds_item cex_ds) ts0), r, (MReport 3 3 3). split; [reflexivity|].
  split; [apply hits_of_ds; exact (proj1 cex_ok)|]. split; [exact E|].
  split; [|split; [vm_compute; reflexivity|reflexivity]].
  assert (F : forallb (fun h => match h_tof h with Some t => t <=? 666666 | None => true end)
                (concat (hits_of true (map ds_item cex_ds) ts0)) = true) by (vm_compute; reflexivity).
  rewrite forallb_forall in F. apply Forall_forall. intros h I (t & T & L). apply F in I. rewrite T in I.
  assert (B : 25 * t <= 16666650) by lia. apply IZR_le in B. lra.
Qed.
Print Assumptions C80_bad_is_late_refuted.

(** Finding: with several windows the number of events reported is too large. *)
Theorem C80_events_counted_refuted : exists hss nss r rep,
  mex_run (Some 2) mex_plan (stream cex_ds) ["a.tpx3"; ""; "tgdc"] = Ok r /\ mr_report r = Some rep /\
  mmap_hits true cex_ds hss /\ Forall2 (neutrons_of cex_ext radius_5) hss nss /\
  zlen (concat nss) < mr_events rep.
Proof.
  assert (E : (let! r := mex_run None mex_plan (stream cex_ds) ["a.tpx3"; ""; "tgdc"] in
              Ok (mr_report r)) = Ok (Some (MReport 3 0 3))) by (vm_compute; reflexivity).
  assert (E2 : (let! r := mex_run (Some 2) mex_plan (stream cex_ds) ["a.tpx3"; ""; "tgdc"] in
              Ok (mr_report r)) = Ok (Some (MReport 3 0 4))) by (vm_compute; reflexivity).
  destruct (mex_run None mex_plan (stream cex_ds) ["a.tpx3"; ""; "tgdc"]) as [r| | |] eqn:R; try discriminate E.
  destruct (mex_run (Some 2) mex_plan (stream cex_ds) ["a.tpx3"; ""; "tgdc"]) as [r2| | |] eqn:R2; try discriminate E2.
  apply Ok_inj in E. apply Ok_inj in E2.
  destruct (C80_count_l 100 cex_ext mex_show mex_opens mex_plan (mex_input (stream cex_ds)) "a.tpx3" ["";"tgdc"]
              mex_disk true cex_ds "tgdc" [] r r2 _ _ (proj1 cex_ok) (proj2 cex_ok) eq_refl
              (fun k n => eq_refl) eq_refl (ex_intro _ "" (ex_intro _ "" eq_refl)) eq_refl R E R2 E2 eq_refl)
    as (hss & nss & A & B & C).
  exists hss, nss, r2, (MReport 3 0 4). auto.
Qed.
Print Assumptions C80_events_counted_refuted.

(** Finding: the times written are 625 times the clock count, not 25 times (25 ns per
    clock): the factor is applied when the events are copied and again when they
    are written. *)
Theorem C80_time_written : forall e t,
  is_finite (n_tof e) = true -> B2R (n_tof e) = IZR t -> Z.abs t <= 2 ^ 40 ->
  B2R (tof_written e) = IZR (625 * t).
Proof. exact C80_tof_value_l. Qed.
Print Assumptions C80_time_written.
Example C80_time_written_instance : f_to_u64 (tof_written (Neutron (f_of_Z 1) (f_of_Z 1) (f_of_Z 3234) (f_of_Z 7) 1)) =
  Some (625 * 3234).
Proof. vm_compute. reflexivity. Qed.

(** Finding: the text of a .bin file does not determine the events. *)
Theorem C80_bin_decodable_refuted : exists es es' ls ls',
  Forall2 bin_numbers es ls /\ Forall2 bin_numbers es' ls' /\
  bin_content ls = bin_content ls' /\ map n_hits es <> map n_hits es'.
Proof.
  apply (C80_bin_same_l (Neutron (f_of_Z 1) (f_of_Z 1) (f_of_Z 3234) (f_of_Z 11) 1)
           (Neutron (f_of_Z 1) (f_of_Z 1) (f_of_Z 3234) (f_of_Z 1) 11) "1271272021250111");
    vm_compute; reflexivity.
Qed.
Print Assumptions C80_bin_decodable_refuted.

(** Finding: a hit in one of the last columns (x > 512) makes the conversion to 16
    bits of a .bin file undefined. *)
Theorem C80_bin_undefined_refuted : exists ds,
  Forall dataset_ok ds /\ Forall no_false_header ds /\
  mex_run None mex_plan (stream ds) ["a.tpx3"; "out.bin"; "tgdc"] = UB BadConversion.
Proof.
  exists [edge_ds]. destruct edge_ok. split; [assumption|]. split; [assumption|]. vm_compute. reflexivity.
Qed.
Print Assumptions C80_bin_undefined_refuted.
