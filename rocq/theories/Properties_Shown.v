(** Property C97: what sophiread_display saves of the true hits and events of a
    recording.  Each theorem is followed by a concrete instance of its hypotheses. *)
From Coq Require Import Lia.
From Verif Require Import P_Shown P_MeasureHist Properties_Display.
Local Open Scope string_scope.
Local Open Scope Z_scope.
Local Open Scope list_scope.

(** * Concrete data used by the instances *)

(** An event of eleven hits and 127 events of one hit. *)
Definition sex_fires : list (Z * Z * Z * Z) :=
  map (fun n => (19 + n mod 3, 30, 5 + n, 3000 + n / 6)) (map Z.of_nat (seq 0 11)) ++
  map (fun n => (253, 200, 9, 3000 + 10 * n)) (map Z.of_nat (seq 1 127)).
Definition sex : list (Z * Z * Z * list act) := [(51, 3, 0, Ref 1000 :: Pulse 2000 :: map fire sex_fires)].
Definition sex_hits : list hit := map (fire_hit 3 2000) sex_fires.
Definition sex_events : list event :=
  Event (Source 20 30 75000) 2000 ::
  map (fun n => Event (Source 253 200 (25 * (3000 + 10 * n))) 2000) (map Z.of_nat (seq 1 127)).
Definition sex_own : list nat := repeat 0%nat 11 ++ seq 1 127.
Definition sex_period (_ t : Z) : Prop := t / 2 ^ 30 = 0.

Lemma sex_histories : histories sex_period None None sex [sex_hits].
Proof.
  eapply hs_cons; [unfold is_byte; lia|lia|unfold is_byte; lia| | |apply hs_nil].
  - apply Z.leb_le. vm_compute. reflexivity.
  - apply hy_ref; [lia|]. apply hy_pulse; [reflexivity|]. apply fires_history. vm_compute. reflexivity.
Qed.
Lemma sex_recording : exists k, Forall dataset_ok (map dataset_of sex) /\
  recording (fun _ t => t / 2 ^ 30 = 0) false nothing_known (map dataset_of sex) [sex_hits] k.
Proof. destruct (histories_recording sex_period None None sex [sex_hits] sex_histories) as [O (k & R)]. exists k. split; [exact O|exact R]. Qed.
Lemma sex_size : Forall of_good_size (map dataset_of sex).
Proof. constructor; [|constructor]. split; [apply Z.ltb_lt|apply Z.ltb_lt]; vm_compute; reflexivity. Qed.
Lemma sex_observed : observed 127 1 50 9 50 sex_events (concat [sex_hits]) sex_own.
Proof. apply observed_by. vm_compute. reflexivity. Qed.
Lemma sex_few : forall e, zlen (members e sex_own (concat [sex_hits])) <= 4096.
Proof.
  intros e. unfold zlen, members. rewrite map_length.
  assert (L : (length (filter (fun p => Nat.eqb (fst p) e) (combine sex_own (concat [sex_hits]))) <= 138)%nat).
  { eapply Nat.le_trans; [apply filter_shorter|]. vm_compute. repeat constructor. }
  lia.
Qed.

(** * C97: the spectrum *)

(** C97: the program tells the number of the true hits of the recording that was
    read last, and saves as spectrum the number of true hits at every time of
    flight in steps of 100 ns, for columns 251 and up and rows 126 and up of each
    chip. *)
Theorem C97_spectrum : forall c ds hss k rot l w d d0 img tof w' d', Forall dataset_ok ds -> Forall of_good_size ds ->
  recording (fun _ t => t / 2 ^ 30 = c) false nothing_known ds hss k ->
  rotation_ok rot -> real_files l -> last_read l = Some (stream ds) ->
  wsteps rot (win_new, d0) l (Ok (w, d)) -> d_busy w = false ->
  wstep rot (w, d) (LSave img tof) (Ok (w', d')) ->
  (exists n, d_label w = Some (zlen (concat hss), n)) /\
  (forall n b, tof = Some (n, b) -> exists f, d' n = Some f /\ spectrum_of (concat hss) f).
Proof. exact spectrum_l. Qed.
Print Assumptions C97_spectrum.
Example C97_spectrum_instance : counted (enters 252) sex_hits 1 /\ counted (enters 250) sex_hits 0.
Proof. split; apply counted_by; vm_compute; reflexivity. Qed.

(** * C97: the image *)

(** C97: for isolated events, up to 127 at the same time and of at most 4096 hits,
    the saved image shows every event of more than 10 hits at its place, in the
    order of their first hits, except for the last 127 events that have begun; at
    most the last 4095 hits are not used.  The program tells the number of these
    events. *)
Theorem C97_image : forall c a wd evs own ds hss k rot l w d d0 img tof w' d', Forall dataset_ok ds -> Forall of_good_size ds ->
  recording (fun _ t => t / 2 ^ 30 = c) false nothing_known ds hss k ->
  0 <= a <= 2 -> 0 <= wd <= 74 -> observed 127 a wd 9 50 evs (concat hss) own ->
  (forall e, zlen (members e own (concat hss)) <= 4096) ->
  rotation_ok rot -> real_files l -> last_read l = Some (stream ds) ->
  wsteps rot (win_new, d0) l (Ok (w, d)) -> d_busy w = false ->
  wstep rot (w, d) (LSave img tof) (Ok (w', d')) ->
  exists n pixels clusters, zlen (concat hss) - 4095 <= Z.of_nat n <= zlen (concat hss) /\
    image_of rot a evs own (concat hss) n pixels clusters /\ d_label w = Some (zlen (concat hss), clusters) /\
    (forall nm b, img = Some (nm, b) -> option_map fst tof <> Some nm -> exists f, d' nm = Some f /\ shows_image pixels f).
Proof. exact image_l. Qed.
Print Assumptions C97_image.

(** C97: there is such a session that uses all hits. *)
Theorem C97_session : forall c a wd evs own ds hss k rot d0 ni nt, Forall dataset_ok ds -> Forall of_good_size ds ->
  recording (fun _ t => t / 2 ^ 30 = c) false nothing_known ds hss k ->
  0 <= a <= 2 -> 0 <= wd <= 74 -> observed 127 a wd 9 50 evs (concat hss) own ->
  (forall e, zlen (members e own (concat hss)) <= 4096) -> rotation_ok rot -> ni <> nt ->
  exists l w d' pixels clusters fi ft, Forall (eq LTau) l /\
    wsteps rot (win_new, d0) (LRead (Some (stream ds)) :: l) (Ok (w, d0)) /\ d_busy w = false /\
    wstep rot (w, d0) (LSave (Some (ni, true)) (Some (nt, true))) (Ok (w, d')) /\
    image_of rot a evs own (concat hss) (length (concat hss)) pixels clusters /\
    d' ni = Some fi /\ shows_image pixels fi /\ d' nt = Some ft /\ spectrum_of (concat hss) ft.
Proof. exact session_l. Qed.
Print Assumptions C97_session.
Example C97_session_instance : exists l w d' px fi ft, Forall (eq LTau) l /\
  wsteps ex_turn (win_new, fun _ => None) (LRead (Some (stream (map dataset_of sex))) :: l) (Ok (w, fun _ => None)) /\
  d_busy w = false /\
  wstep ex_turn (w, fun _ => None) (LSave (Some ("image", true)) (Some ("tof", true))) (Ok (w, d')) /\
  shown_near ex_turn 1 (Source 20 30 75000) px /\ d' "image" = Some fi /\ shows_image px fi /\
  d' "tof" = Some ft /\ spectrum_of sex_hits ft.
Proof.
  destruct sex_recording as (k & O & R).
  destruct (C97_session 0 1 50 sex_events sex_own _ [sex_hits] k ex_turn (fun _ => None) "image" "tof" O sex_size R
    ltac:(lia) ltac:(lia) sex_observed sex_few ex_turn_ok ltac:(discriminate))
    as (l & w & d' & pixels & n & fi & ft & F & S1 & B & Q & (m & pxs & U & FP & -> & _) & Ei & Si & Et & St).
  assert (Em : m = 128%nat).
  { apply Nat.le_antisymm.
    - destruct (Nat.le_gt_cases m 128) as [C|C]; [exact C|]. exfalso. pose proof (proj2 (U 128%nat) C) as I. revert I. vm_compute.
      repeat (intros [I|I]; [discriminate I|revert I]). intros [].
    - apply U. rewrite firstn_all2 by (vm_compute; repeat constructor). unfold sex_own. apply in_or_app. right. apply in_seq. lia. }
  subst m. change (seq 0 (128 - 127)) with [0%nat] in FP.
  replace (filter (fun l => (10 <? zlen (members l sex_own (concat [sex_hits])))%Z) [0%nat]) with [0%nat] in FP by (vm_compute; reflexivity).
  inversion FP as [|? px ? ? Sp F0]; subst. inversion F0; subst. exists l, w, d', px, fi, ft.
  cbn [concat] in Si. rewrite app_nil_r in Si. change (concat [sex_hits]) with (sex_hits ++ []) in St. rewrite app_nil_r in St.
  exact (conj F (conj S1 (conj B (conj Q (conj Sp (conj Ei (conj Si (conj Et St)))))))).
Qed.

(** C97: no image of 127 or fewer events shows anything. *)
Theorem C97_few_events : forall rot a evs own hits n pixels clusters,
  (forall l, In l own -> (l < length evs)%nat) -> (length evs <= 127)%nat ->
  image_of rot a evs own hits n pixels clusters -> pixels = [] /\ clusters = 0.
Proof. exact few_events_l. Qed.
Print Assumptions C97_few_events.

(** * C97: no such recording makes the program undefined *)

(** C97: a session in which only such a recording is read is defined, unless a
    file cannot be opened. *)
Theorem C97_defined : forall c a wd evs own ds hss k rot l r d0, Forall dataset_ok ds -> Forall of_good_size ds ->
  recording (fun _ t => t / 2 ^ 30 = c) false nothing_known ds hss k ->
  0 <= a <= 2 -> 0 <= wd <= 74 -> observed 127 a wd 9 50 evs (concat hss) own ->
  (forall e, zlen (members e own (concat hss)) <= 4096) ->
  rotation_ok rot -> (forall m, In (LRead (Some m)) l -> m = stream ds) ->
  wsteps rot (win_new, d0) l r ->
  (exists w d, r = Ok (w, d)) \/
  (exists l' b, r = UB NullDeref /\ l = l' ++ [b] /\
     (b = LRead None \/ exists img tof n, b = LSave img tof /\ (img = Some (n, false) \/ tof = Some (n, false)))).
Proof. exact reads_defined_l. Qed.
Print Assumptions C97_defined.
