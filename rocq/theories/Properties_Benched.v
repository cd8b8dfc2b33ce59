(** Property C102: what the benchmark programs report and write about a recording of
    true events.  Each theorem is followed by a concrete instance. *)
From Coq Require Import Reals Lra Lia String.
From Verif Require Import S_Benched P_Mmap P_Bench P_Benched.
From Verif Require Import Properties_Tpx3 Properties_Cli Properties_Measure Properties_Mmap Properties_Bench Properties_Events.
Local Open Scope string_scope.
Local Open Scope Z_scope.
Local Open Scope list_scope.

Definition nex_ds : list dataset := map dataset_of hex.
Definition nex_input (name : string) : option (list Z) :=
  if String.eqb name "a.tpx3" then Some (stream nex_ds) else None.
Lemma nex_header : Forall no_false_header nex_ds.
Proof. repeat constructor; vm_compute; intuition discriminate. Qed.
Lemma nex_fits : (length (stream nex_ds) < 200)%nat.
Proof. apply Nat.ltb_lt. vm_compute. reflexivity. Qed.
Lemma nex_tgdc : asks "tgdc,60hz" "tgdc".
Proof. exists "", ",60hz". reflexivity. Qed.
Lemma nex_60 : asks "tgdc,60hz" "60hz".
Proof. exists "tgdc,", "". reflexivity. Qed.
Lemma nex_no_mmap : asks "tgdc,60hz" "mmap" -> true = true.
Proof. reflexivity. Qed.

(** benchmark_mmap with tgdc, on a file that records the hits of isolated events:
    it returns 0; the number of hits is that of the true hits, the number of events at
    least that of the true events and equal if the file is processed in one window; the
    output has one neutron per true event, in order.  At 60 Hz it counts as bad
    the true hits from 16.675 microseconds after their pulse. *)
Theorem C102_mmap : forall fuel ext show opens env p input inp out s more d rw ds a w xs k,
  Forall dataset_ok ds -> Forall no_false_header ds -> input inp = Some (stream ds, rw) ->
  (asks s "mmap" -> rw = true) -> asks s "tgdc" -> 2 <= max_batch_len env -> (forall v, env = Some v -> 0 <= v) -> covers p ->
  (length (stream ds) < fuel)%nat -> opens out = true -> ends out ".csv" \/ ends out ".h5" ->
  recording around true nothing_known ds (map x_hits xs) k ->
  0 <= a -> 2 * a <= 5 -> 0 <= w <= 75 -> Forall (exposed 8 a w 5 75) xs ->
  exists r rep nss, mmap_main fuel ext show opens env p input (inp :: out :: s :: more) d = Ok r /\
    mr_status r = 0 /\ mr_report r = Some rep /\ mr_hits rep = zlen (true_hits xs) /\
    zlen (true_events xs) <= mr_events rep /\ (zlen ds < max_batch_len env -> mr_events rep = zlen (true_events xs)) /\
    (asks s "60hz" -> counted after_17us (true_hits xs) (mr_bad rep)) /\
    Forall2 (accounted a w) xs nss /\ written show opens d out (concat nss) 0 (mr_disk r).
Proof. exact C102_mmap_l. Qed.
Print Assumptions C102_mmap.
Example C102_mmap_instance :
  (exists r rep nss, mmap_main 200 cex_ext mex_show mex_opens None mex_plan (mex_input (stream nex_ds))
       ["a.tpx3"; "out.csv"; "tgdc,60hz"] mex_disk = Ok r /\ mr_report r = Some rep /\
     mr_hits rep = 4 /\ mr_events rep = 3 /\ mr_bad rep = 4 /\ Forall2 (accounted 1 25) eex nss) /\
  zlen (true_hits eex) = 4 /\ zlen (true_events eex) = 3.
Proof.
  split; [|split; reflexivity]. destruct eex_recording as (k & O & R).
  destruct (C102_mmap 200 cex_ext mex_show mex_opens None mex_plan (mex_input (stream nex_ds)) "a.tpx3" "out.csv" "tgdc,60hz" []
    mex_disk true nex_ds 1 25 eex k O nex_header eq_refl nex_no_mmap nex_tgdc ltac:(cbn; lia) ltac:(discriminate)
    ltac:(intros j n; reflexivity) nex_fits eq_refl (or_introl (ex_intro _ "out" eq_refl)) R ltac:(lia) ltac:(lia) ltac:(lia) eex_exposed)
    as (r & rep & nss & E & _ & Er & H & _ & Ev & B & A & _).
  exists r, rep, nss. split; [exact E|]. split; [exact Er|]. split; [exact H|]. split; [apply Ev; reflexivity|]. split; [|exact A].
  specialize (B nex_60). apply (counted_all _ _ _ B). repeat (apply Forall_cons; [eexists; split; [reflexivity|lia]|]). apply Forall_nil.
Qed.

(** Finding: the time of flight written for a true event is 25 times too large: it
    lies in 25 times the window of the event. *)
Theorem C102_time : forall k0 ds k a w n r range xs nss, recording around true k0 ds (map x_hits xs) k ->
  0 <= w <= 2 ^ 39 -> Forall (exposed n a w r range) xs -> Forall2 (accounted a w) xs nss ->
  Forall2 (fun x ns => forall l e, nth_error ns l = Some e -> late_by_25 w (nth_event (x_events x) l) e) xs nss.
Proof. exact C102_time_l. Qed.
Print Assumptions C102_time.
Example C102_time_instance : forall nss, Forall2 (accounted 1 25) eex nss ->
  exists e, nth_error (concat nss) 0 = Some e /\
    (IZR (25 * 80850) <= B2R (tof_written e) <= IZR (25 * 80875))%R.
Proof.
  intros nss A. destruct eex_recording as (k & O & R).
  pose proof (C102_time _ _ k 1 25 8 5 75 eex nss R ltac:(lia) eex_exposed A) as T.
  inversion A as [|? n1 ? ns1 A1 B]; subst. inversion T as [|? ? ? ? T1 T']; subst.
  destruct A1 as [L1 _]. destruct n1 as [|e1 n1]; [discriminate L1|].
  exists e1. split; [reflexivity|]. exact (proj2 (T1 0%nat e1 eq_refl)).
Qed.

(** benchmark_raw2events, on a file that records true hits (of any events): it reports
    their number, none of them as bad, and the latest true arrival; it saves the true
    hits; without an older file the value read back is the one reported. *)
Theorem C102_raw2events : forall ext micros input inp rest d ds hss k, Forall dataset_ok ds -> Forall no_false_header ds ->
  input inp = Some (stream ds) -> recording around true nothing_known ds hss k -> (micros < Z.to_nat (10 ^ 6))%nat ->
  exists r rep, raw2events ext micros input (inp :: rest) d = Ok r /\ rs_report r = Some rep /\
    rr_hits rep = zlen (concat hss) /\ rr_bad rep = 0 /\
    (exists v, largest (map h_spider (concat hss)) v /\ double_is (rr_max rep) (25 * v)) /\
    (exists final, goes_to d micros final /\ saved_hits d (rs_disk r) (concat hss) final) /\
    (d verify_file = None -> concat hss <> [] -> rs_end r = RDone (rr_max rep)).
Proof. exact C102_raw2events_l. Qed.
Print Assumptions C102_raw2events.
Example C102_raw2events_instance :
  (exists r rep, raw2events cex_ext 12 nex_input ["a.tpx3"] bex_disk = Ok r /\ rs_report r = Some rep /\
     rr_hits rep = 4 /\ rr_bad rep = 0 /\ rs_end r = RDone (rr_max rep)) /\
  shown (raw2events cex_ext 12 nex_input ["a.tpx3"] bex_disk) = Ok (Some (4, 0, Some 17500000), Some 17500000).
Proof.
  split; [|vm_compute; reflexivity]. destruct eex_recording as (k & O & R).
  destruct (C102_raw2events cex_ext 12 nex_input "a.tpx3" [] bex_disk nex_ds (map x_hits eex) k O nex_header eq_refl R
    ltac:(apply Nat.ltb_lt; vm_compute; reflexivity)) as (r & rep & E & Er & H & B & _ & _ & V).
  exists r, rep. split; [exact E|]. split; [exact Er|]. split; [exact H|]. split; [exact B|].
  apply V; [reflexivity|discriminate].
Qed.
