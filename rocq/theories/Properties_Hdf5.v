(** Properties C32, C33 and C46: HDF5 output.  Each theorem is followed by a
    concrete instance of its hypotheses. *)
From Coq Require Import Ascii.
From Verif Require Import S_Hdf5 P_Core P_Hdf5.
Global Open Scope Z_scope.
Local Open Scope string_scope.
Local Open Scope list_scope.

(** * Concrete data *)
Definition hex_a : hit := Hit 3 4 10 100 2 (Some 7) 200.
Definition hex_b : hit := Hit 5 6 20 300 4 (Some 9) 400.
Definition hex_c : hit := Hit 7 8 30 500 6 (Some 11) 600.
Definition hex_n : neutron := Neutron (f_of_Z 1) (f_of_Z 2) (f_of_Z 3) (f_of_Z 4) 5.
Definition hex_appends : list append_op :=
  [AHits [hex_a; hex_b]; ANeutrons [hex_n]; AHits []; AHits [hex_c]].
Definition int_col (f : h5file) (grp name : string) : list (option Z) :=
  map f_to_i32 (col f grp name).

(** C32: after any sequence of appends of hits and neutrons, every column holds
    what it held before followed by the values of all appended records in order;
    all other groups and datasets are untouched. *)
Theorem C32_columns : forall l f f', ofold do_append l f = Ok f' ->
  (forall n fld, hit_field n fld ->
     map Some (col f' "hits" n) = map Some (col f "hits" n) ++ map fld (all_hits l)) /\
  (forall n fld, neutron_field n fld ->
     col f' "neutrons" n = col f "neutrons" n ++ map fld (all_neutrons l)) /\
  (forall grp, grp <> "hits" -> grp <> "neutrons" -> find_group f' grp = find_group f grp) /\
  (forall n, (forall fld, ~ hit_field n fld) -> col f' "hits" n = col f "hits" n) /\
  (forall n, (forall fld, ~ neutron_field n fld) -> col f' "neutrons" n = col f "neutrons" n).
Proof. exact C32_columns_l. Qed.
Print Assumptions C32_columns.
Example C32_instance :
  (let! f := ofold do_append hex_appends [] in
   Ok (map (int_col f "hits") ["x"; "y"; "tof_ns"; "tot_ns"], int_col f "neutrons" "nHits")) =
  Ok ([[Some 3; Some 5; Some 7]; [Some 4; Some 6; Some 8]; [Some 175; Some 225; Some 275];
       [Some 250; Some 500; Some 750]], [Some 5]).
Proof. vm_compute. reflexivity. Qed.

(** The appends never fail if every hit has a time of flight. *)
Theorem C32_total : forall l f, Forall (fun h => h_tof h <> None) (all_hits l) ->
  exists f', ofold do_append l f = Ok f'.
Proof. exact C32_total_l. Qed.
Print Assumptions C32_total.
Example C32_total_instance : Forall (fun h => h_tof h <> None) (all_hits hex_appends).
Proof. repeat constructor; discriminate. Qed.

(** In a new file all columns have the length of the appended records. *)
Theorem C32_equal_lengths : forall l f', ofold do_append l [] = Ok f' ->
  (forall n fld, hit_field n fld -> length (col f' "hits" n) = length (all_hits l)) /\
  (forall n fld, neutron_field n fld -> length (col f' "neutrons" n) = length (all_neutrons l)).
Proof. exact C32_equal_lengths_l. Qed.
Print Assumptions C32_equal_lengths.
Example C32_equal_lengths_instance :
  (let! f := ofold do_append hex_appends [] in
   Ok (map (fun n => length (col f "hits" n)) ["x"; "y"; "tot_ns"; "toa_ns"; "ftoa_ns"; "tof_ns"; "spidertime_ns"])) =
  Ok [3; 3; 3; 3; 3; 3; 3]%nat.
Proof. vm_compute. reflexivity. Qed.

(** An empty append changes nothing, whatever the library would do. *)
Theorem C32_empty : forall is f, append_hits is f [] = Ok f /\ append_neutrons is f [] = (Ok tt, f).
Proof. exact C32_empty_l. Qed.
Print Assumptions C32_empty.

(** When library calls fail, an append of hits still reports success: it is cut
    at the column of the first failing call; the columns before have the new
    values, those after have not, and the one in between is unchanged or filled
    with zeros.  Old values are never lost. *)
Theorem C32_failed_append : forall is f hits f', hits <> [] ->
  append_hits is f hits = Ok f' ->
  exists m, first_fault is 7 m /\ forall i n fld,
    nth_error ["x"; "y"; "tot_ns"; "toa_ns"; "ftoa_ns"; "tof_ns"; "spidertime_ns"] i = Some n ->
    hit_field n fld ->
    ((i < m)%nat -> map Some (col f' "hits" n) = map Some (col f "hits" n) ++ map fld hits) /\
    (i = m -> is m = IoThrow -> col f' "hits" n = col f "hits" n) /\
    (i = m -> is m = IoThrowExtended -> col f' "hits" n = col f "hits" n ++ repeat (f_of_Z 0) (length hits)) /\
    ((m < i)%nat -> col f' "hits" n = col f "hits" n).
Proof. exact C32_failed_append_l. Qed.
Print Assumptions C32_failed_append.
(** An append of neutrons is cut in the same way, but the failure is reported. *)
Theorem C32_failed_neutron_append : forall is f ns r f', ns <> [] ->
  append_neutrons is f ns = (r, f') ->
  exists m, first_fault is 5 m /\ r = (if Nat.eqb m 5 then Ok tt else Throw ExternalError) /\
  forall i n fld, nth_error ["x"; "y"; "tof_ns"; "tot_ns"; "nHits"] i = Some n ->
    neutron_field n fld ->
    ((i < m)%nat -> col f' "neutrons" n = col f "neutrons" n ++ map fld ns) /\
    (i = m -> is m = IoThrow -> col f' "neutrons" n = col f "neutrons" n) /\
    (i = m -> is m = IoThrowExtended -> col f' "neutrons" n = col f "neutrons" n ++ repeat (f_of_Z 0) (length ns)) /\
    ((m < i)%nat -> col f' "neutrons" n = col f "neutrons" n).
Proof. exact C32_failed_neutrons_l. Qed.
Print Assumptions C32_failed_neutron_append.
Example C32_failed_instance :
  first_fault (fun k => if Nat.eqb k 1 then IoThrowExtended else IoOk) 5 1 /\
  (let (r, f) := append_neutrons (fun k => if Nat.eqb k 1 then IoThrowExtended else IoOk) []
     [Neutron (f_of_Z 1) (f_of_Z 2) (f_of_Z 3) (f_of_Z 4) 5] in
   (match r with Throw _ => true | _ => false end, length (col f "neutrons" "x"), length (col f "neutrons" "y"),
    length (col f "neutrons" "nHits"))) = (true, 1%nat, 1%nat, 0%nat).
Proof.
  split.
  - split; [lia|]. split; [intros [|j] L; [reflexivity|lia]|discriminate].
  - vm_compute. reflexivity.
Qed.

(** Finding: so the columns can get out of step without any error being
    reported, and the next append keeps them so: here the y column lacks its
    first two entries, and the third hit is recorded as (7, ...) in x and first
    in y. *)
Theorem C32_equal_lengths_with_faults_refuted :
  exists is f1 f2, append_hits is [] [hex_a; hex_b] = Ok f1 /\
    append_hits no_fault f1 [hex_c] = Ok f2 /\
    length (col f2 "hits" "x") = 3%nat /\ length (col f2 "hits" "y") = 1%nat.
Proof.
  exists (fun k => if Nat.eqb k 1 then IoThrow else IoOk). eexists. eexists.
  split; [reflexivity|]. split; [reflexivity|]. split; reflexivity.
Qed.
Print Assumptions C32_equal_lengths_with_faults_refuted.

(** C33: a name is always found; it is the first free one of base, base_1,
    base_2, ... *)
Theorem C33_name : forall f base, exists k,
  generate_group_name f base = Ok (candidate base k) /\ free f (candidate base k) /\
  forall j, (j < k)%nat -> ~ free f (candidate base j).
Proof. exact C33_name_l. Qed.
Print Assumptions C33_name.
Example C33_name_instance :
  generate_group_name [("hits", empty_group); ("hits_2", empty_group)] "hits" = Ok "hits_1" /\
  generate_group_name [("hits", empty_group); ("hits_2", empty_group); ("hits_1", empty_group)] "hits" = Ok "hits_3" /\
  generate_group_name [("hits_1", empty_group)] "hits" = Ok "hits".
Proof. vm_compute. auto. Qed.

(** Appending adds the records as one new group under that name and leaves every
    other group and file alone. *)
Theorem C33_append : forall d name n cols base d',
  NoDup (map fst cols) -> (0 < n)%nat ->
  save_or_append d name n (Ok cols) base true = Ok d' ->
  exists f f' k g, d' name = Some f' /\ f = (match d name with Some f => f | None => [] end) /\
    free f (candidate base k) /\ (forall j, (j < k)%nat -> ~ free f (candidate base j)) /\
    find_group f' (candidate base k) = Some g /\ group_is g cols /\
    (forall grp, grp <> candidate base k -> find_group f' grp = find_group f grp) /\
    (forall other, other <> name -> d' other = d other).
Proof. exact C33_append_l. Qed.
Print Assumptions C33_append.
Theorem C33_append_total : forall d name n cols base,
  exists d', save_or_append d name n (Ok cols) base true = Ok d'.
Proof. exact C33_append_total_l. Qed.
Print Assumptions C33_append_total.

(** The group appended by appendHitsToHDF5 holds the values of the hits. *)
Theorem C33_hits : forall d name hits d', hits <> [] -> append_hits_group d name hits = Ok d' ->
  exists f' k g, d' name = Some f' /\ find_group f' (candidate "hits" k) = Some g /\
    (forall j, (j <= k)%nat ->
       (free (match d name with Some f => f | None => [] end) (candidate "hits" j) <-> j = k)) /\
    (forall n fld, hit_field n fld -> exists c, g n = Some c /\ map Some c = map fld hits).
Proof. exact C33_hits_l. Qed.
Print Assumptions C33_hits.
(** The group appended by appendNeutronToHDF5 holds the values of the neutrons. *)
Theorem C33_neutrons : forall d name ns d', ns <> [] -> append_neutrons_group d name ns = Ok d' ->
  exists f' k g, d' name = Some f' /\ find_group f' (candidate "neutrons" k) = Some g /\
    (forall j, (j <= k)%nat ->
       (free (match d name with Some f => f | None => [] end) (candidate "neutrons" j) <-> j = k)) /\
    (forall n fld, neutron_field n fld -> g n = Some (map fld ns)).
Proof. exact C33_neutrons_l. Qed.
Print Assumptions C33_neutrons.
Example C33_neutrons_instance :
  (let! d := ofold (fun d ns => append_neutrons_group d "a.h5" ns) [[hex_n]; [hex_n; hex_n]] (fun _ => None) in
   Ok (map (fun g => int_col (match d "a.h5" with Some f => f | None => [] end) g "y") ["neutrons"; "neutrons_1"])) =
  Ok [[Some 2]; [Some 2; Some 2]].
Proof. vm_compute. reflexivity. Qed.

(** The numbers in the names of groups are decimal, without leading zeros. *)
Theorem C33_numbers : forall base k, (0 < k)%nat -> exists s, candidate base k = (base ++ "_" ++ s)%string /\
  decimal_numeral k s /\ forall c r, s = String c r -> c <> "0"%char.
Proof. exact C33_numbers_l. Qed.
Print Assumptions C33_numbers.
Example C33_numbers_instance : candidate "hits" 12 = "hits_12" /\ decimal_numeral 12 "12".
Proof. split; [reflexivity|]. split; [discriminate|]. split; [repeat split; discriminate|reflexivity]. Qed.

(** A series of appends to a new file gives the groups base, base_1, base_2, ...
    in that order and no others. *)
Theorem C33_history : forall batches d name base d',
  (forall b, In b batches -> NoDup (map fst (snd b)) /\ (0 < fst b)%nat) ->
  d name = None ->
  ofold (fun d b => save_or_append d name (fst b) (Ok (snd b)) base true) batches d = Ok d' ->
  batches <> [] ->
  exists f, d' name = Some f /\
    (forall k b, nth_error batches k = Some b ->
       exists g, find_group f (candidate base k) = Some g /\ group_is g (snd b)) /\
    (forall grp, (forall k, (k < length batches)%nat -> grp <> candidate base k) -> find_group f grp = None) /\
    (forall other, other <> name -> d' other = d other).
Proof. exact C33_history_l. Qed.
Print Assumptions C33_history.
Example C33_history_instance :
  (let! d := ofold (fun d hs => append_hits_group d "a.h5" hs) [[hex_a]; [hex_b; hex_c]; []; [hex_c]] (fun _ => None) in
   Ok (map (fun g => int_col (match d "a.h5" with Some f => f | None => [] end) g "x")
         ["hits"; "hits_1"; "hits_2"; "hits_3"])) =
  Ok [[Some 3]; [Some 5; Some 7]; [Some 7]; []].
Proof. vm_compute. reflexivity. Qed.

(** C46: saving writes a file of its own with one group: the requested name if it
    is free, otherwise that name with microseconds; an existing file of the
    requested name is kept, and no other file changes. *)
Theorem C46_save : forall d p micros n cols base d',
  (0 < n)%nat -> NoDup (map fst cols) ->
  save_new d p micros n (Ok cols) base = Ok d' ->
  exists final f g, d' final = Some f /\ find_group f base = Some g /\ group_is g cols /\
    (forall grp, grp <> base -> find_group f grp = None) /\
    (d (render p) = None -> final = render p) /\
    (d (render p) <> None -> final = render (with_micros p micros) /\ d' (render p) = d (render p)) /\
    (forall other, other <> final -> d' other = d other).
Proof. exact C46_save_l. Qed.
Print Assumptions C46_save.
Example C46_save_instance :
  (let! d := save_hits (fun _ => None) (Path "out" "run" ".h5") 12 [hex_a] in
   let! d := save_hits d (Path "out" "run" ".h5") 12 [hex_b] in
   Ok (map (fun n => match d n with Some f => int_col f "hits" "x" | None => [] end)
         ["out/run.h5"; "out/run_000012.h5"])) = Ok [[Some 3]; [Some 5]].
Proof. vm_compute. reflexivity. Qed.

(** The values saved are those of the hits (neutrons). *)
Theorem C46_hits : forall d p micros hits d', hits <> [] -> save_hits d p micros hits = Ok d' ->
  exists final f g, d' final = Some f /\ find_group f "hits" = Some g /\
    (forall grp, grp <> "hits" -> find_group f grp = None) /\
    (d (render p) = None -> final = render p) /\
    (forall other, other <> final -> d' other = d other) /\
    (forall n fld, hit_field n fld -> exists c, g n = Some c /\ map Some c = map fld hits).
Proof. exact C46_hits_l. Qed.
Print Assumptions C46_hits.
Theorem C46_neutrons : forall d p micros ns d', ns <> [] -> save_neutrons d p micros ns = Ok d' ->
  exists final f g, d' final = Some f /\ find_group f "neutrons" = Some g /\
    (forall grp, grp <> "neutrons" -> find_group f grp = None) /\
    (d (render p) = None -> final = render p) /\
    (forall other, other <> final -> d' other = d other) /\
    (forall n fld, neutron_field n fld -> g n = Some (map fld ns)).
Proof. exact C46_neutrons_l. Qed.
Print Assumptions C46_neutrons.
Example C46_neutrons_instance :
  (let! d := save_neutrons (fun _ => None) (Path "out" "run" ".h5") 12 [hex_n] in
   Ok (match d "out/run.h5" with Some f => int_col f "neutrons" "nHits" | None => [] end)) = Ok [Some 5].
Proof. vm_compute. reflexivity. Qed.

(** The name with microseconds: an underscore and six digits after the stem; a file
    without extension gets .h5. *)
Theorem C46_name : forall p micros, (micros < Z.to_nat (10 ^ 6))%nat -> exists s,
  decimal_numeral micros s /\ String.length s = 6%nat /\
  with_micros p micros = Path (p_parent p) (p_stem p ++ "_" ++ s) (if String.eqb (p_ext p) "" then ".h5" else p_ext p).
Proof. exact C46_name_l. Qed.
Print Assumptions C46_name.
Example C46_name_instance : render (with_micros (Path "out" "run" ".h5") 12) = "out/run_000012.h5".
Proof. vm_compute. reflexivity. Qed.

(** Finding: the name with microseconds is not checked.  Two saves at the same
    microsecond of (possibly different) seconds share it, and the second one
    replaces all data of the first. *)
Theorem C46_collision : forall d p micros n1 cols1 n2 cols2 base d1 d2,
  d (render p) <> None -> (0 < n1)%nat -> (0 < n2)%nat ->
  NoDup (map fst cols1) -> NoDup (map fst cols2) ->
  save_new d p micros n1 (Ok cols1) base = Ok d1 ->
  save_new d1 p micros n2 (Ok cols2) base = Ok d2 ->
  exists f g, d2 (render (with_micros p micros)) = Some f /\ find_group f base = Some g /\
    group_is g cols2 /\ (forall grp, grp <> base -> find_group f grp = None) /\
    (forall other, other <> render (with_micros p micros) -> d2 other = d other).
Proof. exact C46_collision_l. Qed.
Print Assumptions C46_collision.
Example C46_collision_instance :
  (let! d := save_hits (fun _ => None) (Path "" "run" "") 7 [hex_a] in
   let! d := save_hits d (Path "" "run" "") 7 [hex_b] in
   let! d := save_hits d (Path "" "run" "") 7 [hex_c] in
   Ok (map (fun n => match d n with Some f => int_col f "hits" "x" | None => [] end)
         ["run"; "run_000007.h5"])) = Ok [[Some 3]; [Some 7]].
Proof. vm_compute. reflexivity. Qed.
