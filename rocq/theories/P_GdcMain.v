(** Proofs about the program of the GDC extractor. *)
From Coq Require Import Ascii String DecimalString DecimalPos Lia ZifyBool.
From Verif Require Export P_Gdc S_GdcMain.
Local Open Scope Z_scope.
Local Open Scope list_scope.

(** * Decimal numbers *)

Lemma codes_cons a s : codes (String a s) = Z.of_N (N_of_ascii a) :: codes s.
Proof. reflexivity. Qed.

Lemma uint_digits u : Forall (fun c => 48 <= c <= 57) (codes (NilEmpty.string_of_uint u)).
Proof.
  induction u; [constructor|..]; cbn [NilEmpty.string_of_uint]; rewrite codes_cons; constructor; try exact IHu;
    cbn; lia.
Qed.
Lemma uint_value u : forall p, digits_value (Z.pos p) (codes (NilEmpty.string_of_uint u)) = Z.pos (Pos.of_uint_acc u p).
Proof.
  induction u; intros p; [reflexivity|..]; cbn [NilEmpty.string_of_uint Pos.of_uint_acc]; rewrite codes_cons;
    cbn [digits_value];
    match goal with |- context [Z.of_N (N_of_ascii ?a)] =>
      let v := eval vm_compute in (Z.of_N (N_of_ascii a)) in change (Z.of_N (N_of_ascii a)) with v end;
    rewrite <- IHu; f_equal; lia.
Qed.
Lemma uint_value0 u : digits_value 0 (codes (NilEmpty.string_of_uint u)) = Z.of_N (Pos.of_uint u).
Proof.
  induction u; [reflexivity|exact IHu|..]; cbn [NilEmpty.string_of_uint Pos.of_uint]; rewrite codes_cons;
    cbn [digits_value]; cbn [Z.of_N]; rewrite <- uint_value; f_equal.
Qed.

Lemma in_decimal_field z : 0 <= z -> field z (in_decimal z).
Proof.
  intros H. unfold field, in_decimal. destruct z as [|p|p]; [|clear H|lia].
  - split; [discriminate|]. split; [|reflexivity]. constructor; [cbn; lia|constructor].
  - change (Z.to_int (Z.pos p)) with (Decimal.Pos (Pos.to_uint p)). cbn [NilZero.string_of_int].
    assert (E : NilZero.string_of_uint (Pos.to_uint p) = NilEmpty.string_of_uint (Pos.to_uint p)).
    { pose proof (Unsigned.of_to p) as O. destruct (Pos.to_uint p); [discriminate O|reflexivity..]. }
    rewrite E. pose proof (Unsigned.of_to p) as O. split; [|split].
    + intros C. pose proof (uint_value0 (Pos.to_uint p)) as V. rewrite C, O in V. discriminate V.
    + apply uint_digits.
    + rewrite uint_value0, O. reflexivity.
Qed.

Lemma row_text_line r : 0 <= row_chip r -> 0 <= row_value r -> 0 <= row_offset r -> 0 <= row_ns r ->
  csv_line r (row_text r).
Proof.
  intros A B C D. exists (in_decimal (row_chip r)), (in_decimal (row_value r)), (in_decimal (row_offset r)), (in_decimal (row_ns r)).
  do 4 (split; [apply in_decimal_field; assumption|]). reflexivity.
Qed.

Lemma header_same : csv_header = the_header.
Proof. reflexivity. Qed.

Definition row_nonneg (r : row) : Prop := 0 <= row_chip r /\ 0 <= row_value r /\ 0 <= row_offset r /\ 0 <= row_ns r.

Lemma csv_text_file rows : Forall row_nonneg rows -> csv_file rows (csv_text rows).
Proof.
  intros F. exists (map row_text rows). split.
  - induction F as [|r rows (A & B & C & D) F IH]; constructor; [apply row_text_line; assumption|exact IH].
  - unfold csv_text. rewrite header_same, flat_map_concat_map. reflexivity.
Qed.

(** * Reading the text back *)

Lemma until_sep (sep : Z) a a' b b' : Forall (fun c => 48 <= c <= 57) a -> Forall (fun c => 48 <= c <= 57) a' ->
  sep < 48 -> a ++ sep :: b = a' ++ sep :: b' -> a = a' /\ b = b'.
Proof.
  intros F. revert a'. induction F as [|x a Hx F IH]; intros [|y a'] F' S E; cbn in E.
  - injection E as ->. split; reflexivity.
  - injection E as -> E. inversion F'; subst. lia.
  - injection E as -> E. lia.
  - injection E as -> E. inversion F'; subst. destruct (IH a' H2 S E) as [-> ->]. split; reflexivity.
Qed.

Lemma line_read r r' l l' t t' : csv_line r l -> csv_line r' l' -> l ++ t = l' ++ t' -> r = r' /\ t = t'.
Proof.
  intros (a & b & c & u & (_ & Fa & Va) & (_ & Fb & Vb) & (_ & Fc & Vc) & (_ & Fu & Vu) & ->)
         (a' & b' & c' & u' & (_ & Fa' & Va') & (_ & Fb' & Vb') & (_ & Fc' & Vc') & (_ & Fu' & Vu') & ->) E.
  repeat (rewrite <- app_assoc in E; cbn [app] in E).
  apply until_sep in E; [|assumption..|lia]. destruct E as [-> E].
  repeat (rewrite <- app_assoc in E; cbn [app] in E).
  apply until_sep in E; [|assumption..|lia]. destruct E as [-> E].
  repeat (rewrite <- app_assoc in E; cbn [app] in E).
  apply until_sep in E; [|assumption..|lia]. destruct E as [-> E].
  repeat (rewrite <- app_assoc in E; cbn [app] in E).
  apply until_sep in E; [|assumption..|lia]. destruct E as [-> E].
  split; [|exact E]. destruct r, r'; cbn in *. congruence.
Qed.

Lemma line_nonempty r l t : csv_line r l -> l ++ t <> [].
Proof. intros (a & b & c & u & _ & _ & _ & _ & ->) E. destruct a; discriminate E. Qed.

Lemma lines_read rows ls : Forall2 csv_line rows ls ->
  forall rows' ls', Forall2 csv_line rows' ls' -> concat ls = concat ls' -> rows = rows'.
Proof.
  induction 1 as [|r l rows ls L F IH]; intros rows' ls' F' E; destruct F' as [|r' l' rows' ls' L' F']; cbn in E.
  - reflexivity.
  - symmetry in E. contradiction (line_nonempty _ _ _ L' E).
  - contradiction (line_nonempty _ _ _ L E).
  - destruct (line_read _ _ _ _ _ _ L L' E) as [-> E']. f_equal. eapply IH; eassumption.
Qed.

Lemma C82_readable_l rows rows' text : csv_file rows text -> csv_file rows' text -> rows = rows'.
Proof.
  intros (ls & F & ->) (ls' & F' & E). apply app_inv_head in E. exact (lines_read _ _ F _ _ F' E).
Qed.

(** * Files *)

Lemma gput_same d n b : gput d n b n = Some b.
Proof. unfold gput. rewrite String.eqb_refl. reflexivity. Qed.
Lemma gput_only d n b : only n d (gput d n b).
Proof. intros m N. unfold gput. destruct (String.eqb_spec m n); [contradiction|reflexivity]. Qed.
Lemma gtouch_only d n : only n d (gtouch d n).
Proof. unfold gtouch. destruct (d n); [intros m _; reflexivity|apply gput_only]. Qed.
Lemma only_trans n a b c : only n a b -> only n b c -> only n a c.
Proof. intros H K m N. rewrite (K m N). apply H, N. Qed.

(** * The program *)

Lemma fold_done stoull args : forall o,
  (exists o', ofold (parse_gdc_arg stoull) args o = Ok o') \/
  (exists t, ofold (parse_gdc_arg stoull) args o = Throw t).
Proof.
  induction args as [|a args IH]; intros o; [left; exists o; reflexivity|]. cbn [ofold].
  destruct a; cbn [parse_gdc_arg obind]; try apply IH.
  - destruct (stoull s); cbn [obind]; [apply IH|right; eexists; reflexivity].
  - right. eexists. reflexivity.
Qed.

Lemma fold_iff stoull args : (exists o, ofold (parse_gdc_arg stoull) args default_gdc_options = Ok o) <->
  acceptable_gdc stoull args.
Proof.
  split.
  - intros (o & E). apply (gdc_fold_read _ _ _ E).
  - intros A. apply gdc_fold_accepts, A.
Qed.

Lemma validate_cases e o d : go_input o <> ""%string -> go_output o <> ""%string ->
  (valid_gdc_options e o /\ gdc_validate_on e o d = (true, gtouch d (go_output o))) \/
  (~ valid_gdc_options e o /\ output_tried e o /\ gdc_validate_on e o d = (false, gtouch d (go_output o))) \/
  (~ output_tried e o /\ gdc_validate_on e o d = (false, d)).
Proof.
  intros Ni No. unfold gdc_validate_on, valid_gdc_options, output_tried.
  destruct (ge_exists e (go_input o)); cbn [negb]; [|right; right; split; [intros H; decompose [and] H; discriminate|reflexivity]].
  destruct (ge_readable e (go_input o)); cbn [negb]; [|right; right; split; [intros H; decompose [and] H; discriminate|reflexivity]].
  destruct (ge_dir_ok e (go_output o)); cbn [negb]; [|right; right; split; [intros H; decompose [and] H; discriminate|reflexivity]].
  destruct (ge_writable e (go_output o)); cbn [negb]; [|right; right; split; [intros H; decompose [and] H; discriminate|reflexivity]].
  destruct ((go_chunk o <? 1 * 1024 * 1024) || (go_chunk o >? 20 * 1024 * 1024 * 1024)) eqn:C.
  - right; left. split; [|repeat split; assumption]. intros H. decompose [and] H. lia.
  - left. repeat split; try assumption; lia.
Qed.

Lemma touch_then_put d n b m : gput (gtouch d n) n b m = gput d n b m.
Proof.
  unfold gtouch. destruct (d n); [reflexivity|]. unfold gput. destruct (String.eqb m n); reflexivity.
Qed.

Definition same_disk (d d' : gdisk) : Prop := forall n, d n = d' n.

(** The end of a run with valid options. *)
Lemma process_end fuel room e o d : ge_writable e (go_output o) = true ->
  gdc_process_on fuel room e o d =
    match gdc_process fuel true (gput d (go_output o) [] (go_input o)) (go_chunk o) with
    | Ok None => Ok (1, d)
    | Ok (Some rows) => Ok (0, gput d (go_output o) (stored room (csv_text rows)))
    | Throw _ => Ok (1, gput d (go_output o) (stored room (csv_text [])))
    | UB u => UB u
    | OutOfFuel => OutOfFuel
    end.
Proof. intros W. unfold gdc_process_on. rewrite W. reflexivity. Qed.

Lemma main_valid fuel stoull room e args d o : parse_gdc_arguments stoull e args = Ok o ->
  gdc_main fuel stoull room e args d =
    match gdc_process fuel true (gput (gtouch d (go_output o)) (go_output o) [] (go_input o)) (go_chunk o) with
    | Ok None => Ok (1, gtouch d (go_output o))
    | Ok (Some rows) => Ok (0, gput (gtouch d (go_output o)) (go_output o) (stored room (csv_text rows)))
    | Throw _ => Ok (1, gput (gtouch d (go_output o)) (go_output o) (stored room (csv_text [])))
    | UB u => UB u
    | OutOfFuel => OutOfFuel
    end.
Proof.
  intros P. pose proof (proj1 (C49_l _ _ _ _) P) as (A & R & V). unfold gdc_main.
  destruct (gdc_fold_accepts stoull args default_gdc_options A) as (o1 & F).
  rewrite F. destruct (gdc_fold_read _ _ _ F) as [R1 _].
  rewrite (gdc_read_unique _ _ _ _ R1 R). pose proof V as (N & N' & _ & _ & _ & W & _).
  destruct (String.eqb_spec (go_input o) ""); [contradiction|].
  destruct (String.eqb_spec (go_output o) ""); [contradiction|].
  destruct (validate_cases e o d N N') as [(_ & ->)|[(B & _)|(B & _)]].
  - cbn [negb]. apply process_end, W.
  - contradiction.
  - contradiction B. unfold output_tried. unfold valid_gdc_options in V. tauto.
Qed.

(** What the program does, by its options. *)
Lemma main_cases fuel stoull room e args d :
  (exists o, acceptable_gdc stoull args /\ read_gdc_options stoull args o /\ valid_gdc_options e o /\
     parse_gdc_arguments stoull e args = Ok o) \/
  (exists o, acceptable_gdc stoull args /\ read_gdc_options stoull args o /\ ~ valid_gdc_options e o /\
     ((output_tried e o /\ gdc_main fuel stoull room e args d = Ok (1, gtouch d (go_output o))) \/
      (~ output_tried e o /\ gdc_main fuel stoull room e args d = Ok (1, d)))) \/
  (~ acceptable_gdc stoull args /\ gdc_main fuel stoull room e args d = Ok (1, d)).
Proof.
  destruct (fold_done stoull args default_gdc_options) as [(o & F)|(t & F)].
  - destruct (gdc_fold_read _ _ _ F) as [R A]. unfold gdc_main. rewrite F.
    destruct (String.eqb_spec (go_input o) "") as [Ei|Ni].
    { right; left. exists o. do 2 (split; [assumption|]). split; [intros (V & _); contradiction|].
      right. split; [intros (V & _); contradiction|reflexivity]. }
    destruct (String.eqb_spec (go_output o) "") as [Eo|No].
    { right; left. exists o. do 2 (split; [assumption|]). split; [intros (_ & V & _); contradiction|].
      right. split; [intros (_ & V & _); contradiction|reflexivity]. }
    destruct (validate_cases e o d Ni No) as [(V & _)|[(V & T & ->)|(T & ->)]].
    + left. exists o. do 3 (split; [assumption|]). apply C49_l. repeat split; assumption || apply A || apply R || apply V.
    + right; left. exists o. do 3 (split; [assumption|]). left. split; [exact T|reflexivity].
    + right; left. exists o. do 2 (split; [assumption|]).
      split; [|right; split; [exact T|reflexivity]].
      intros V. apply T. unfold output_tried. unfold valid_gdc_options in V. tauto.
  - right; right. split.
    + intros A. apply fold_iff in A. destruct A as (o & E). rewrite E in F. discriminate F.
    + unfold gdc_main. rewrite F. reflexivity.
Qed.

Lemma same_options stoull args o o' : read_gdc_options stoull args o -> read_gdc_options stoull args o' -> o = o'.
Proof. apply gdc_read_unique. Qed.

Lemma input_then d o : go_input o <> go_output o ->
  gput (gtouch d (go_output o)) (go_output o) [] (go_input o) = d (go_input o).
Proof.
  intros N. rewrite touch_then_put. apply gput_only, N.
Qed.

Lemma C82_extracts_l stoull e args o d m ps rest : acceptable_gdc stoull args -> read_gdc_options stoull args o ->
  valid_gdc_options e o -> go_input o <> go_output o -> d (go_input o) = Some m ->
  m = flat_map packet_bytes ps ++ rest -> Forall packet_ok ps -> (length rest < 8)%nat -> m <> [] -> zlen m < 2 ^ 64 ->
  forall fuel, (length m <= fuel)%nat ->
  exists d' rows text c, gdc_main fuel stoull None e args d = Ok (0, d') /\ only (go_output o) d d' /\
    d' (go_output o) = Some text /\ csv_file rows text /\
    go_chunk o = 8 * Z.of_nat c /\ (forall r, In r rows <-> due c ps r) /\
    StronglySorted (fun a b => row_offset a < row_offset b) rows.
Proof.
  intros A R V N D Em Hp Hr Hm Hz fuel Hf. pose proof (proj2 (C49_l stoull e args o) (conj A (conj R V))) as P.
  destruct (C49_chunk8_l _ _ _ _ P) as (c & Hc & Ec).
  subst m. destruct (C36_l ps rest Hp Hr Hm Hz c fuel Hc Hf) as (rows & E & Due & Sorted).
  eexists _, rows, (csv_text rows), c. split; [|split; [|split; [|split; [|repeat split; try assumption; apply Due]]]].
  - rewrite (main_valid _ _ _ _ _ _ _ P), (input_then d o N), D, Ec, E. reflexivity.
  - eapply only_trans; [apply gtouch_only|apply gput_only].
  - apply gput_same.
  - apply csv_text_file, Forall_forall. intros r I. apply Due in I.
    destruct I as (k & p & _ & _ & Ho & T & _ & _ & Hc' & Hn).
    assert (0 <= row_value r).
    { pose proof (state_timestamp (firstn (S k) ps) (Forall_firstn' _ _ _ Hp)) as (T' & B).
      rewrite (timestamp_fun _ _ _ T T'). apply B. }
    unfold row_nonneg. lia.
Qed.

Lemma reader_empty fuel size x : x = None \/ x = Some [] -> exists t, gdc_process fuel true x size = Throw t.
Proof. intros [->| ->]; eexists; reflexivity. Qed.

Lemma C82_exit_l fuel stoull room e args d :
  (forall n m, d n = Some m -> zlen m < 2 ^ 64 /\ (length m <= fuel)%nat) ->
  exists code d', gdc_main fuel stoull room e args d = Ok (code, d') /\ (code = 0 \/ code = 1) /\
    (code = 0 <-> acceptable_gdc stoull args /\ exists o m, read_gdc_options stoull args o /\ valid_gdc_options e o /\
       go_input o <> go_output o /\ d (go_input o) = Some m /\ m <> []).
Proof.
  intros B. destruct (main_cases fuel stoull room e args d) as [(o & A & R & V & P)|[(o & A & R & V & M)|(A & M)]].
  - destruct (String.eqb_spec (go_input o) (go_output o)) as [Same|N].
    { destruct (reader_empty fuel (go_chunk o) (Some []) (or_intror eq_refl)) as (t & E).
      eexists 1, _. split; [|split; [right; reflexivity|]].
      - rewrite (main_valid _ _ _ _ _ _ _ P). rewrite Same at 1. rewrite gput_same, E. reflexivity.
      - split; [discriminate|]. intros (_ & o' & m & R' & _ & N & _). rewrite (same_options _ _ _ _ R' R) in N. contradiction. }
    destruct (d (go_input o)) as [[|x m]|] eqn:D.
    + destruct (reader_empty fuel (go_chunk o) (Some []) (or_intror eq_refl)) as (t & E).
      eexists 1, _. split; [|split; [right; reflexivity|]].
      * rewrite (main_valid _ _ _ _ _ _ _ P), (input_then d o N), D, E. reflexivity.
      * split; [discriminate|]. intros (_ & o' & m & R' & _ & _ & D' & N'). rewrite (same_options _ _ _ _ R' R) in D'.
        rewrite D in D'. injection D' as <-. contradiction.
    + destruct (C49_chunk8_l _ _ _ _ P) as (c & Hc & Ec). destruct (B _ _ D) as [Hz Hf].
      eexists 0, _. split; [|split; [left; reflexivity|]].
      * rewrite (main_valid _ _ _ _ _ _ _ P), (input_then d o N), D, Ec.
        rewrite (gdc_process_rows c (x :: m) fuel) by (assumption || discriminate). reflexivity.
      * split; [|reflexivity]. intros _. split; [exact A|]. exists o, (x :: m).
        do 3 (split; [assumption|]). split; [exact D|discriminate].
    + destruct (reader_empty fuel (go_chunk o) None (or_introl eq_refl)) as (t & E).
      eexists 1, _. split; [|split; [right; reflexivity|]].
      * rewrite (main_valid _ _ _ _ _ _ _ P), (input_then d o N), D, E. reflexivity.
      * split; [discriminate|]. intros (_ & o' & m & R' & _ & _ & D' & N'). rewrite (same_options _ _ _ _ R' R) in D'.
        rewrite D in D'. discriminate D'.
  - assert (K : ~ (acceptable_gdc stoull args /\ exists o m, read_gdc_options stoull args o /\ valid_gdc_options e o /\
       go_input o <> go_output o /\ d (go_input o) = Some m /\ m <> [])).
    { intros (_ & o' & m & R' & V' & _). rewrite (same_options _ _ _ _ R' R) in V'. contradiction. }
    destruct M as [(_ & M)|(_ & M)]; eexists 1, _; (split; [exact M|]); (split; [right; reflexivity|]);
      (split; [discriminate|intros H; contradiction]).
  - exists 1, d. split; [exact M|]. split; [right; reflexivity|]. split; [discriminate|intros (H & _); contradiction].
Qed.

Lemma C82_refused_l fuel stoull room e args d :
  ~ acceptable_gdc stoull args \/ (exists o, read_gdc_options stoull args o /\ ~ output_tried e o) ->
  gdc_main fuel stoull room e args d = Ok (1, d).
Proof.
  intros H. destruct (main_cases fuel stoull room e args d) as [(o & A & R & V & P)|[(o & A & R & V & M)|(A & M)]].
  - destruct H as [H|(o' & R' & T)]; [contradiction|]. rewrite (same_options _ _ _ _ R' R) in T. contradiction T.
    unfold output_tried. unfold valid_gdc_options in V. tauto.
  - destruct M as [(T & M)|(_ & M)]; [|exact M].
    destruct H as [H|(o' & R' & T')]; [contradiction|]. rewrite (same_options _ _ _ _ R' R) in T'. contradiction.
  - exact M.
Qed.

Lemma C82_bad_size_l fuel stoull room e args o d : acceptable_gdc stoull args -> read_gdc_options stoull args o ->
  output_tried e o -> ~ (2 ^ 20 <= go_chunk o <= 20 * 2 ^ 30) ->
  exists d', gdc_main fuel stoull room e args d = Ok (1, d') /\ only (go_output o) d d' /\
    (d (go_output o) = None -> d' (go_output o) = Some []) /\
    (d (go_output o) <> None -> d' (go_output o) = d (go_output o)).
Proof.
  intros A R T B. destruct (main_cases fuel stoull room e args d) as [(o' & _ & R' & V & P)|[(o' & _ & R' & V & M)|(A' & M)]].
  - rewrite (same_options _ _ _ _ R' R) in V. unfold valid_gdc_options in V. tauto.
  - rewrite (same_options _ _ _ _ R' R) in M. destruct M as [(_ & M)|(T' & _)]; [|contradiction].
    eexists. split; [exact M|]. split; [apply gtouch_only|]. unfold gtouch. destruct (d (go_output o)) as [x|] eqn:D.
    + split; [discriminate|]. intros _. exact D.
    + split; [|congruence]. intros _. apply gput_same.
  - contradiction.
Qed.

Lemma C82_no_data_l fuel stoull e args o d : acceptable_gdc stoull args -> read_gdc_options stoull args o ->
  valid_gdc_options e o ->
  go_input o = go_output o \/ d (go_input o) = None \/ d (go_input o) = Some [] ->
  exists d' text, gdc_main fuel stoull None e args d = Ok (1, d') /\ only (go_output o) d d' /\
    d' (go_output o) = Some text /\ csv_file [] text.
Proof.
  intros A R V H. pose proof (proj2 (C49_l stoull e args o) (conj A (conj R V))) as P.
  assert (E : exists t, gdc_process fuel true (gput (gtouch d (go_output o)) (go_output o) [] (go_input o)) (go_chunk o) = Throw t).
  { destruct (String.eqb_spec (go_input o) (go_output o)) as [Same|N].
    - rewrite Same, gput_same. apply reader_empty. right. reflexivity.
    - rewrite (input_then d o N). apply reader_empty. destruct H as [H|H]; [contradiction|exact H]. }
  destruct E as (t & E). eexists _, (csv_text []). split; [|split; [|split]].
  - rewrite (main_valid _ _ _ _ _ _ _ P), E. reflexivity.
  - eapply only_trans; [apply gtouch_only|apply gput_only].
  - apply gput_same.
  - apply csv_text_file. constructor.
Qed.

(** * Findings *)

Definition yes_env : gdc_env := GEnv (fun _ => true) (fun _ => true) (fun _ => true) (fun _ => true).
Definition on_disk (fs : list (string * list Z)) : gdisk :=
  fun n => match find (fun f => String.eqb (fst f) n) fs with Some f => Some (snd f) | None => None end.

Definition a_file : list Z := flat_map packet_bytes
  [Packet 84 80 88 51 2 0 0 0; Packet 0 0 7 0 0 0 0 68; Packet 0 0 1 0 0 0 0 69].

Definition seen (r : outcome (Z * gdisk)) (n : string) : outcome (Z * option (list Z)) :=
  let! x := r in Ok (fst x, snd x n).

Lemma seen_ok r n c x : seen r n = Ok (c, x) -> exists d', r = Ok (c, d') /\ d' n = x.
Proof.
  unfold seen. destruct r as [[c' d']| | |]; cbn; try discriminate. intros E. injection E as -> <-.
  exists d'. split; reflexivity.
Qed.

Lemma parsed_read e stoull args o : parse_gdc_arguments stoull e args = Ok o -> read_gdc_options stoull args o.
Proof. intros P. apply C49_l in P. apply P. Qed.

Lemma C82_lost_output_l : exists stoull e args o d d' old,
  read_gdc_options stoull args o /\ gdc_main 100 stoull None e args d = Ok (1, d') /\
  d (go_output o) = Some old /\ old <> [] /\ d' (go_output o) <> Some old.
Proof.
  set (d := on_disk [("in.tpx3", []); ("out.csv", csv_text [Row 2 7 8 175])]%string).
  assert (E : seen (gdc_main 100 (fun _ => None) None yes_env [Gi "in.tpx3"; Go "out.csv"]%string d) "out.csv" =
              Ok (1, Some the_header)) by (vm_compute; reflexivity).
  destruct (seen_ok _ _ _ _ E) as (d' & M & D).
  exists (fun _ => None), yes_env, [Gi "in.tpx3"; Go "out.csv"]%string, (GOpt "in.tpx3" "out.csv" (5 * 2 ^ 30) false false).
  exists d, d', (csv_text [Row 2 7 8 175]). split; [|split; [exact M|split; [reflexivity|split; [discriminate|]]]].
  - apply (parsed_read yes_env). reflexivity.
  - cbn [go_output]. rewrite D. vm_compute. discriminate.
Qed.

Lemma C82_lost_input_l : exists stoull e args o d d' m rows,
  read_gdc_options stoull args o /\ gdc_main 100 stoull None e args d = Ok (1, d') /\
  d (go_input o) = Some m /\ gdc_process 100 true (Some m) (go_chunk o) = Ok (Some rows) /\ rows <> [] /\
  d' (go_input o) <> Some m.
Proof.
  set (d := on_disk [("run.tpx3", a_file)]%string).
  assert (E : seen (gdc_main 100 (fun _ => None) None yes_env [Gi "run.tpx3"; Go "run.tpx3"]%string d) "run.tpx3" =
              Ok (1, Some the_header)) by (vm_compute; reflexivity).
  destruct (seen_ok _ _ _ _ E) as (d' & M & D).
  exists (fun _ => None), yes_env, [Gi "run.tpx3"; Go "run.tpx3"]%string, (GOpt "run.tpx3" "run.tpx3" (5 * 2 ^ 30) false false).
  exists d, d', a_file, [Row 2 (2 ^ 32 + 7) 16 (25 * (2 ^ 32 + 7))].
  split; [|split; [exact M|split; [reflexivity|split; [vm_compute; reflexivity|split; [discriminate|]]]]].
  - apply (parsed_read yes_env). reflexivity.
  - cbn [go_input]. rewrite D. vm_compute. discriminate.
Qed.

Lemma C82_full_disk_l : exists stoull e args o d d' room text,
  read_gdc_options stoull args o /\ gdc_main 100 stoull (Some room) e args d = Ok (0, d') /\
  d' (go_output o) = Some text /\ forall rows, ~ csv_file rows text.
Proof.
  set (d := on_disk [("in.tpx3", a_file)]%string).
  assert (E : seen (gdc_main 100 (fun _ => None) (Some 50%nat) yes_env [Gi "in.tpx3"; Go "out.csv"]%string d) "out.csv" =
              Ok (0, Some (the_header ++ [50; 44; 52; 50; 57; 52; 57]))) by (vm_compute; reflexivity).
  destruct (seen_ok _ _ _ _ E) as (d' & M & D).
  exists (fun _ => None), yes_env, [Gi "in.tpx3"; Go "out.csv"]%string, (GOpt "in.tpx3" "out.csv" (5 * 2 ^ 30) false false).
  exists d, d', 50%nat, (the_header ++ [50; 44; 52; 50; 57; 52; 57]). split; [|split; [exact M|split; [exact D|]]].
  - apply (parsed_read yes_env). reflexivity.
  - intros rows (ls & F & T). apply app_inv_head in T.
    assert (L : last (concat ls) 10 = 10).
    { clear T D M E d'. induction F as [|r l rows ls L F IH]; [reflexivity|]. cbn [concat].
      destruct L as (a & b & c & t & _ & _ & _ & _ & ->).
      destruct (concat ls) as [|x k] eqn:Ck.
      - rewrite app_nil_r. replace (a ++ 44 :: b ++ 44 :: c ++ 44 :: t ++ [10])
          with ((a ++ 44 :: b ++ 44 :: c ++ 44 :: t) ++ [10]) by (repeat (rewrite <- app_assoc; cbn [app]); reflexivity).
        apply last_last.
      - destruct (exists_last (l := x :: k)) as (k' & y & Ek); [discriminate|].
        rewrite Ek, last_last in IH. rewrite Ek, app_assoc, last_last. exact IH. }
    rewrite <- T in L. discriminate L.
Qed.

Lemma C82_catches_l fuel stoull room e args d t : gdc_main fuel stoull room e args d <> Throw t.
Proof.
  unfold gdc_main. destruct (ofold _ _ _); try discriminate. destruct (String.eqb _ _); [discriminate|].
  destruct (String.eqb _ _); [discriminate|]. destruct (gdc_validate_on _ _ _) as [v d1]. destruct (negb v); [discriminate|].
  unfold gdc_process_on. destruct (gdc_process _ _ _ _) as [[|]| | |]; discriminate.
Qed.
