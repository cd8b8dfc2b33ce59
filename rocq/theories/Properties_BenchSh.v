(** Property C99: the script benchmark.sh.  Each theorem is followed by a concrete
    instance of its hypotheses. *)
From Coq Require Import Reals String Lia.
From Verif Require Import S_BenchSh P_Mmap P_BenchSh Properties_Tpx3 Properties_Cli Properties_Mmap.
Local Open Scope string_scope.
Local Open Scope list_scope.
Global Open Scope Z_scope.

(** * Concrete data used by the instances *)

Definition bex_input (rw : bool) (m : list Z) (name : string) : option (list Z * bool) :=
  if String.eqb name star_file then Some (m, rw) else None.
Definition bex_plan (k : label) : nat -> nat -> plan :=
  match k with Base => mex_plan | Try _ _ _ => mex_split end.
Definition bex_opens (name : string) : bool := true.
Definition bex_run (rw : bool) (m : list Z) (a1 : string) (a2 : nat) (d : mdisk) : outcome (verdict * mdisk) :=
  bench_sh (bench_app 100 cex_ext mex_show bex_opens None bex_plan (bex_input rw m)) bex_find bex_same
    (Some a1) (Some a2) d.
(** The verdict, and the length of the text of one result file. *)
Definition bex_seen (e : string) (k : label) (o : outcome (verdict * mdisk)) : outcome (verdict * nat) :=
  let! (v, d) := o in Ok (v, String.length (text_of d (result_of e k))).
Definition bex_missing (name : string) : option (list Z * bool) := None.
Lemma bex_covers k : covers (bex_plan k).
Proof. destruct k as [|m c t]; intros i n; [reflexivity|]. destruct n; reflexivity. Qed.
Lemma bex_empty e : no_results e mex_disk.
Proof. intros n _. reflexivity. Qed.

(** C99: starting without result files, either nothing is written and no comparison
    is made, or all runs that can open the file write the same file and the script
    reports that all of them match.  Nothing else is changed. *)
Theorem C99_fresh : forall fuel ext show opens env p input find same a1 a2 e n d v d',
  bench_ext a1 = e -> bench_itr a2 = n -> known_ext e ->
  (forall k, covers (p k)) -> (forall k, opens (result_of e k) = true) -> (forall f, same f f = true) ->
  no_results e d -> lists e d' (find d' e) ->
  bench_sh (bench_app fuel ext show opens env p input) find same a1 a2 d = Ok (v, d') ->
  (v = NoFiles /\ d' = d) \/
  exists m rw f, input star_file = Some (m, rw) /\ v = AllMatched (1 + configs rw * Z.of_nat n) /\
    (forall k, made rw n k -> d' (result_of e k) = Some f) /\
    (forall x, (forall k, made rw n k -> x <> result_of e k) -> d' x = d x).
Proof. exact C99_fresh_l. Qed.
Print Assumptions C99_fresh.
Example C99_fresh_instance :
  (forall v d', bex_run false (stream cex_ds) "csv" 2 mex_disk = Ok (v, d') -> lists "csv" d' (bex_find d' "csv")) /\
  bex_seen "csv" (Try false true 2) (bex_run true (stream cex_ds) "csv" 2 mex_disk) = Ok (AllMatched 9, 54%nat) /\
  bex_seen "csv" (Try true true 2) (bex_run false (stream cex_ds) "csv" 2 mex_disk) = Ok (AllMatched 5, 0%nat) /\
  bex_seen "bin" (Try true true 2) (bex_run true [] "bin" 2 mex_disk) = Ok (NoFiles, 0%nat).
Proof.
  split; [|vm_compute; repeat split; reflexivity].
  intros v d' H. eapply (proj1 (bex_lists _ _ _ _ _ _ _ _ _ _ _ _ _ (or_introl eq_refl) bex_covers (fun _ => eq_refl) _ _ H)).
  Unshelve. { lia. } intros x _ N. contradiction.
Qed.

(** C99: for a well-formed data file the script comes to an end; it inspects no files
    exactly if there are no events, and otherwise every result file has all
    events. *)
Theorem C99_events : forall fuel ext show opens env p input find same a1 a2 e n rw ds hss nss d,
  bench_ext a1 = e -> bench_itr a2 = n -> known_ext e ->
  Forall dataset_ok ds -> Forall no_false_header ds -> input star_file = Some (stream ds, rw) ->
  2 <= max_batch_len env -> (forall k, covers (p k)) -> (length (stream ds) < fuel)%nat ->
  mmap_hits true ds hss -> Forall (fun h => h_spider h < 2 ^ 48) (concat hss) ->
  Forall2 (neutrons_of ext radius_5) hss nss ->
  (e = "bin" -> exists ls, Forall2 bin_numbers (concat nss) ls) ->
  (forall k, opens (result_of e k) = true) -> (forall f, same f f = true) -> no_results e d ->
  (forall v d', bench_sh (bench_app fuel ext show opens env p input) find same a1 a2 d = Ok (v, d') ->
     lists e d' (find d' e)) ->
  exists d', bench_sh (bench_app fuel ext show opens env p input) find same a1 a2 d =
               Ok (match concat nss with [] => NoFiles | _ => AllMatched (1 + configs rw * Z.of_nat n) end, d') /\
    forall k, made rw n k -> exists dk, written show opens d (result_of e k) (concat nss) 0 dk /\
                                        d' (result_of e k) = dk (result_of e k).
Proof. exact C99_events_l. Qed.
Print Assumptions C99_events.
Example C99_events_instance :
  Forall dataset_ok cex_ds /\ Forall no_false_header cex_ds /\ 2 <= max_batch_len None /\
  (length (stream cex_ds) < 100)%nat /\
  (exists hss nss, mmap_hits true cex_ds hss /\ Forall (fun h => h_spider h < 2 ^ 48) (concat hss) /\
     Forall2 (neutrons_of cex_ext radius_5) hss nss) /\
  bex_seen "csv" (Try true true 1) (bex_run true (stream cex_ds) "csv" 1 mex_disk) = Ok (AllMatched 5, 54%nat).
Proof.
  split; [exact (proj1 cex_ok)|]. split; [exact (proj2 cex_ok)|]. split; [cbn; lia|].
  split; [cbn; lia|]. split; [|vm_compute; reflexivity].
  assert (H := hits_of_ds true cex_ds (proj1 cex_ok)).
  assert (E : forallb (fun h => h_spider h <? 2 ^ 48) (concat (hits_of true (map ds_item cex_ds) ts0)) = true)
    by (vm_compute; reflexivity).
  assert (F : Forall (fun h => h_spider h < 2 ^ 48) (concat (hits_of true (map ds_item cex_ds) ts0))).
  { rewrite forallb_forall in E. apply Forall_forall. intros h I. apply E in I. lia. }
  destruct (fine_events cex_ext _ (mmap_hits_fine _ _ _ (proj1 cex_ok) H F)) as [l L].
  exists (hits_of true (map ds_item cex_ds) ts0), (map snd l). split; [exact H|]. split; [exact F|].
  exact (all_events_neutrons _ _ _ _ L).
Qed.

(** C99: without the data file, or with an extension that the program does not
    know, the script writes no results and inspects none. *)
Theorem C99_nothing : forall fuel ext show opens env p input find same a1 a2 e d v d',
  bench_ext a1 = e ->
  input star_file = None \/ (forall w, known_ext w -> ~ ends ("." ++ e) ("." ++ w)) ->
  no_results e d -> lists e d' (find d' e) ->
  bench_sh (bench_app fuel ext show opens env p input) find same a1 a2 d = Ok (v, d') ->
  v = NoFiles /\ d' = d.
Proof. exact C99_nothing_l. Qed.
Print Assumptions C99_nothing.
Example C99_nothing_instance :
  (forall w, known_ext w -> ~ ends ".hdf5" ("." ++ w)) /\
  lists "hdf5" mex_disk (bex_find mex_disk "hdf5") /\
  bex_seen "hdf5" Base (bex_run true (stream cex_ds) "hdf5" 1 mex_disk) = Ok (NoFiles, 0%nat) /\
  bex_seen "csv" Base (bench_sh (bench_app 100 cex_ext mex_show bex_opens None bex_plan bex_missing) bex_find bex_same
                         (Some "csv") None mex_disk) = Ok (NoFiles, 0%nat).
Proof.
  split.
  { intros w [->|[->| ->]] E; apply endsWith_spec in E; vm_compute in E; discriminate E. }
  split; [|vm_compute; split; reflexivity].
  assert (N : bex_find mex_disk "hdf5" = []) by (vm_compute; reflexivity). rewrite N.
  split; [constructor|]. intros n. split; [intros []|]. intros [_ C]. contradiction.
Qed.

(** C99: .bin and .h5 files are written anew, so a second run reports the same, for
    all files that are then there. *)
Theorem C99_again : forall fuel ext show opens env p p' input find same a1 a2 a2' e n n' d v d1 v' d',
  bench_ext a1 = e -> bench_itr a2 = n -> bench_itr a2' = n' -> e = "bin" \/ e = "h5" ->
  (forall k, covers (p k)) -> (forall k, covers (p' k)) -> (forall k, opens (result_of e k) = true) ->
  (forall f, same f f = true) ->
  no_results e d -> lists e d' (find d' e) ->
  bench_sh (bench_app fuel ext show opens env p input) find same a1 a2 d = Ok (v, d1) ->
  bench_sh (bench_app fuel ext show opens env p' input) find same a1 a2' d1 = Ok (v', d') ->
  (v' = NoFiles /\ d' = d) \/
  exists m rw, input star_file = Some (m, rw) /\ v' = AllMatched (1 + configs rw * Z.of_nat (Nat.max n n')).
Proof. exact C99_again_l. Qed.
Print Assumptions C99_again.
Example C99_again_instance :
  (let! (v, d) := bex_run true (stream cex_ds) "bin" 1 mex_disk in
   let! (v', d') := bex_run true (stream cex_ds) "bin" 2 d in Ok (v, v')) = Ok (AllMatched 5, AllMatched 9).
Proof. vm_compute. reflexivity. Qed.

(** C99: .csv files are appended to, so a second run with another number of tries
    reports false mismatches: for each configuration, the tries that only one of
    the two runs made. *)
Theorem C99_csv_again : forall fuel ext show opens env p p' input find same a1 a2 a2' n n' d v d1 v' d',
  bench_ext a1 = "csv" -> bench_itr a2 = n -> bench_itr a2' = n' ->
  (forall k, covers (p k)) -> (forall k, covers (p' k)) -> (forall k, opens (result_of "csv" k) = true) ->
  tells_texts same ->
  no_results "csv" d -> lists "csv" d' (find d' "csv") ->
  bench_sh (bench_app fuel ext show opens env p input) find same a1 a2 d = Ok (v, d1) ->
  bench_sh (bench_app fuel ext show opens env p' input) find same a1 a2' d1 = Ok (v', d') ->
  (v' = NoFiles /\ d' = d) \/
  exists m rw, input star_file = Some (m, rw) /\
    let total := 1 + configs rw * Z.of_nat (Nat.max n n') in
    v' = if (n =? n')%nat then AllMatched total
         else Mismatched (configs rw * Z.abs (Z.of_nat n - Z.of_nat n')) total.
Proof. exact C99_csv_again_l. Qed.
Print Assumptions C99_csv_again.
Example C99_csv_again_instance :
  tells_texts bex_same /\
  (let! (v, d) := bex_run true (stream cex_ds) "csv" 1 mex_disk in
   let! (v', d') := bex_run true (stream cex_ds) "csv" 2 d in
   let! (v2, _) := bex_run true (stream cex_ds) "csv" 1 d in Ok (v, v', v2)) =
  Ok (AllMatched 5, Mismatched 4 9, AllMatched 5).
Proof. split; [exact bex_same_texts|]. vm_compute. reflexivity. Qed.
