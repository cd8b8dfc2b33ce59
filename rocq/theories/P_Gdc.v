(** Proofs about the GDC extractor. *)
From Verif Require Export P_CliRun S_Gdc.
From Coq Require Import Lia ZifyBool.
Local Open Scope Z_scope.

(** * Uniqueness of the specification *)

Lemma completes_fun pre p v v' : completes pre p v -> completes pre p v' -> v = v'.
Proof.
  intros (_ & t & L & ->) (_ & t' & L' & ->). rewrite (current_lsb_fun _ _ _ L L'). reflexivity.
Qed.
Lemma split_at {A} (a b a' b' : list A) x x' : a ++ x :: b = a' ++ x' :: b' ->
  (a = a' /\ x = x' /\ b = b') \/
  (exists c, a' = a ++ x :: c /\ b = c ++ x' :: b') \/
  (exists c, a = a' ++ x' :: c /\ b' = c ++ x :: b).
Proof.
  revert a'. induction a as [|y a IH]; intros [|y' a'] E; cbn in E.
  - injection E as <- <-. left. auto.
  - injection E as <- ->. right. left. exists a'. auto.
  - injection E as -> <-. right. right. exists a. auto.
  - injection E as <- E. destruct (IH a' E) as [(-> & -> & ->)|[(c & -> & ->)|(c & -> & ->)]].
    + left. auto.
    + right. left. exists c. auto.
    + right. right. exists c. auto.
Qed.
Lemma current_gdc_fun gs v v' : current_gdc gs v -> current_gdc gs v' -> v = v'.
Proof.
  intros [[-> N]|(pre & p & post & E & C & Z0 & N)] [[-> N']|(pre' & p' & post' & E' & C' & Z0' & N')].
  - reflexivity.
  - symmetry. eapply N; eassumption.
  - eapply N'; eassumption.
  - subst gs. apply split_at in E'. destruct E' as [(<- & <- & <-)|[(c & -> & ->)|(c & -> & ->)]].
    + eapply completes_fun; eassumption.
    + elim Z0'. eapply N; [reflexivity|exact C'].
    + elim Z0. eapply N'; [reflexivity|exact C].
Qed.
Lemma sublist_fun {A} (P : A -> Prop) l : forall r r', sublist P l r -> sublist P l r' -> r = r'.
Proof.
  induction l as [|a l IH]; intros r r' H H'; inversion H; inversion H'; subst; try contradiction;
    [reflexivity|f_equal|]; eauto.
Qed.

(** * Tests on packets *)

Lemma is_tpx3_spec p : is_tpx3 p = true <-> tpx3_header p.
Proof. unfold is_tpx3, tpx3_header. lia. Qed.
Lemma is_gdc_spec p : is_byte (b7 p) -> is_gdc p = true <-> b7 p / 16 = 4.
Proof.
  intros H. unfold is_gdc. rewrite schar_nibble by assumption. split; intros E; lia.
Qed.
Lemma subtype_b7 p : packet_ok p -> gdc_subtype p = b7 p mod 16.
Proof.
  intros (H0 & H1 & H2 & H3 & H4 & H5 & H6 & H7). unfold gdc_subtype, le64, le32. unfold is_byte in *.
  match goal with |- (?w / _) mod 16 = _ => replace (w / 2 ^ 56) with (b7 p) by lia end. reflexivity.
Qed.
Lemma msb_packet_spec p : packet_ok p -> (msb_packet p = true <-> gdc_subtype p = 5).
Proof.
  intros H. unfold msb_packet. pose proof (gdc_fields p H) as F. cbv zeta in F.
  destruct F as (F1 & _). rewrite F1. split; intros E; lia.
Qed.

(** * The loop over packets *)

Definition gdc_pk (p : packet) : bool := negb (is_tpx3 p) && is_gdc p.

Fixpoint loop_p (ps : list packet) (base offset chip timer gdc : Z) (records : list gdc_record)
  : list gdc_record * (Z * Z) :=
  match ps with
  | p :: rest =>
      if is_tpx3 p then loop_p rest base (offset + 8) (schar (b4 p)) timer gdc records
      else if is_gdc p then
        let (timer', gdc') := update_gdc p timer gdc in
        let records' :=
          if msb_packet p && negb (gdc' =? 0) && (chip >=? 0)
          then records ++ [GRec chip gdc' (u64 (base + offset))] else records in
        loop_p rest base (offset + 8) chip timer' gdc' records'
      else loop_p rest base (offset + 8) chip timer gdc records
  | [] => (records, (timer, gdc))
  end.
Lemma gdc_loop_p m : forall base offset chip timer gdc records,
  gdc_loop m base offset chip timer gdc records = loop_p (packets m) base offset chip timer gdc records.
Proof.
  induction m as [m Hm|p rest IH] using list8_ind; intros.
  - rewrite packets_short by assumption.
    destruct m as [|a0 [|a1 [|a2 [|a3 [|a4 [|a5 [|a6 [|a7 rest]]]]]]]]; try reflexivity. cbn in Hm. lia.
  - rewrite packets_bytes. destruct p as [a0 a1 a2 a3 a4 a5 a6 a7]. cbn [packet_bytes b0 b1 b2 b3 b4 b5 b6 b7 app gdc_loop loop_p].
    destruct (is_tpx3 _); [apply IH|]. destruct (is_gdc _); [|apply IH].
    destruct (update_gdc _ timer gdc) as [t' g']. apply IH.
Qed.

(** The chip of the last header of [cs], -1 if there is none. *)
Definition chip_after (cs : list packet) : Z :=
  fold_left (fun c p => if is_tpx3 p then schar (b4 p) else c) cs (-1).
(** The state after the file so far. *)
Definition state_after (pre : list packet) : Z * Z := gdc_run (filter gdc_pk pre).

Lemma chip_snoc cs p : chip_after (cs ++ [p]) = if is_tpx3 p then schar (b4 p) else chip_after cs.
Proof. unfold chip_after. rewrite fold_left_app. reflexivity. Qed.
Lemma state_snoc pre p : state_after (pre ++ [p]) =
  if gdc_pk p then update_gdc p (fst (state_after pre)) (snd (state_after pre)) else state_after pre.
Proof.
  unfold state_after. rewrite filter_app. cbn [filter]. destruct (gdc_pk p).
  - unfold gdc_run. rewrite fold_left_app. reflexivity.
  - rewrite List.app_nil_r. reflexivity.
Qed.

(** The record for packet [p] after [pre] (in the file) and [cs] (in the chunk). *)
Definition record_at (pre cs : list packet) (off : Z) (p : packet) : list gdc_record :=
  if gdc_pk p && msb_packet p && negb (snd (state_after (pre ++ [p])) =? 0) && (chip_after cs >=? 0)
  then [GRec (chip_after cs) (snd (state_after (pre ++ [p]))) (u64 off)] else [].
Fixpoint records_of (pre cs : list packet) (off : Z) (qs : list packet) : list gdc_record :=
  match qs with
  | [] => []
  | q :: qs' => record_at pre cs off q ++ records_of (pre ++ [q]) (cs ++ [q]) (off + 8) qs'
  end.

Lemma loop_records qs : forall pre cs base offset records,
  loop_p qs base offset (chip_after cs) (fst (state_after pre)) (snd (state_after pre)) records =
  (records ++ records_of pre cs (base + offset) qs, state_after (pre ++ qs)).
Proof.
  induction qs as [|q qs IH]; intros; cbn [loop_p records_of].
  - rewrite !List.app_nil_r. destruct (state_after pre); reflexivity.
  - replace (pre ++ q :: qs) with ((pre ++ [q]) ++ qs) by (rewrite <- List.app_assoc; reflexivity).
    unfold record_at. pose proof (chip_snoc cs q) as Ec. pose proof (state_snoc pre q) as Es.
    unfold gdc_pk in *. destruct (is_tpx3 q) eqn:T; cbn [negb andb] in *.
    + specialize (IH (pre ++ [q]) (cs ++ [q]) base (offset + 8) records).
      rewrite Ec, Es in IH. rewrite IH. cbn [app]. rewrite Z.add_assoc. reflexivity.
    + destruct (is_gdc q) eqn:G; cbn [andb] in *.
      * destruct (update_gdc q (fst (state_after pre)) (snd (state_after pre))) as [t' g'].
        rewrite Es. cbn [snd].
        specialize (IH (pre ++ [q]) (cs ++ [q]) base (offset + 8)).
        rewrite Ec, Es in IH. cbn [fst snd] in IH. rewrite IH. rewrite Z.add_assoc.
        destruct (_ && _ && _); [rewrite <- List.app_assoc|]; reflexivity.
      * specialize (IH (pre ++ [q]) (cs ++ [q]) base (offset + 8) records).
        rewrite Ec, Es in IH. rewrite IH. cbn [app]. rewrite Z.add_assoc. reflexivity.
Qed.

Lemma process_chunk_records m pre base :
  process_gdc_chunk m base (state_after pre) =
  (records_of pre [] base (packets m), state_after (pre ++ packets m)).
Proof.
  unfold process_gdc_chunk. rewrite gdc_loop_p.
  change (-1) with (chip_after []). rewrite loop_records. rewrite Z.add_0_r. reflexivity.
Qed.

(** * Chunks *)

(** The rows of packet number [k] of the file. *)
Definition slice_before (c : nat) (ps : list packet) (k : nat) : list packet :=
  skipn (k / c * c) (firstn k ps).
Definition rows_at (c : nat) (ps : list packet) (k : nat) : list row :=
  match nth_error ps k with
  | Some p => map row_of (record_at (firstn k ps) (slice_before c ps k) (8 * Z.of_nat k) p)
  | None => []
  end.
Definition all_rows (c : nat) (ps : list packet) (from to : nat) : list row :=
  flat_map (rows_at c ps) (seq from (to - from)).

Lemma firstn_snoc_nth {A} (l : list A) k x : nth_error l k = Some x -> firstn (S k) l = firstn k l ++ [x].
Proof.
  revert l. induction k as [|k IH]; intros [|y l] H; try discriminate H.
  - injection H as <-. reflexivity.
  - change (y :: firstn (S k) l = y :: (firstn k l ++ [x])). rewrite (IH l H). reflexivity.
Qed.

Lemma records_rows c ps b : (0 < c)%nat -> (b mod c = 0)%nat ->
  forall n k, (b <= k)%nat -> (k + n <= length ps)%nat -> (k + n <= b + c)%nat ->
  map row_of (records_of (firstn k ps) (skipn b (firstn k ps)) (8 * Z.of_nat k) (firstn n (skipn k ps))) =
  flat_map (rows_at c ps) (seq k n).
Proof.
  intros Hc Hb. induction n as [|n IH]; intros k H1 H2 H3; [reflexivity|].
  destruct (nth_error ps k) as [p|] eqn:E; [|apply nth_error_None in E; lia].
  assert (S1 : skipn k ps = p :: skipn (S k) ps).
  { clear - E. revert k E. induction ps as [|a ps IH]; intros [|k] E; try discriminate E.
    - injection E as <-. reflexivity.
    - cbn [skipn]. apply (IH k E). }
  rewrite S1. cbn [firstn records_of seq flat_map]. rewrite map_app. f_equal.
  - unfold rows_at. rewrite E. unfold slice_before.
    replace (k / c * c)%nat with b; [reflexivity|].
    assert (Eb : (b = b / c * c)%nat).
    { pose proof (Nat.div_mod b c ltac:(lia)). lia. }
    assert (Ek : (k / c = b / c)%nat).
    { symmetry. apply Nat.div_unique with (k - b)%nat; [lia|]. rewrite (Nat.mul_comm c). lia. }
    rewrite Ek. exact Eb.
  - rewrite <- (firstn_snoc_nth ps k p E).
    replace (skipn b (firstn k ps) ++ [p]) with (skipn b (firstn (S k) ps)).
    2:{ rewrite (firstn_snoc_nth ps k p E). rewrite skipn_app.
        replace (b - length (firstn k ps))%nat with 0%nat; [reflexivity|].
        rewrite firstn_length. lia. }
    replace (8 * Z.of_nat k + 8) with (8 * Z.of_nat (S k)) by lia.
    apply IH; lia.
Qed.

Lemma packets_firstn k m : packets (firstn (8 * k) m) = firstn k (packets m).
Proof.
  revert k. induction m as [m Hm|p rest IH] using list8_ind; intros k.
  - rewrite (packets_short m) by assumption. rewrite firstn_nil. apply packets_short.
    rewrite firstn_length. lia.
  - destruct k as [|k]; [reflexivity|].
    replace (8 * S k)%nat with (length (packet_bytes p) + 8 * k)%nat by (rewrite packet_bytes_length; lia).
    rewrite firstn_app_2, !packets_bytes. cbn [firstn]. f_equal. apply IH.
Qed.

Lemma firstn_plus {A} (l : list A) a b : firstn (a + b) l = firstn a l ++ firstn b (skipn a l).
Proof.
  revert l. induction a as [|a IH]; intros [|x l]; try reflexivity.
  - cbn. rewrite firstn_nil. reflexivity.
  - cbn [Nat.add firstn skipn app]. rewrite IH. reflexivity.
Qed.

Lemma chunks_rows c m : (0 < c)%nat -> zlen m < 2 ^ 64 ->
  forall fuel b rows,
  (length m - 8 * (b * c) <= fuel)%nat -> Z.of_nat (8 * (b * c)) <= zlen m ->
  gdc_chunks fuel (8 * Z.of_nat c) (Reader m (Z.of_nat (8 * (b * c)))) (Z.of_nat (8 * (b * c)))
    (state_after (firstn (b * c) (packets m))) rows =
  Ok (rows ++ all_rows c (packets m) (b * c) (length (packets m)), state_after (packets m)).
Proof.
  intros Hc Hm.
  assert (LP : (length (packets m) = length m / 8)%nat).
  { pose proof (packets_zlen m) as L. unfold zlen in L. apply Nat2Z.inj. rewrite L, Nat2Z.inj_div by lia. reflexivity. }
  assert (END : forall b fuel rows, zlen m <= Z.of_nat (8 * (b * c)) ->
    gdc_chunks fuel (8 * Z.of_nat c) (Reader m (Z.of_nat (8 * (b * c)))) (Z.of_nat (8 * (b * c)))
      (state_after (firstn (b * c) (packets m))) rows =
    Ok (rows ++ all_rows c (packets m) (b * c) (length (packets m)), state_after (packets m))).
  { intros b fuel rows L.
    assert (X : is_eof (Reader m (Z.of_nat (8 * (b * c)))) = true) by (unfold is_eof; cbn [r_pos r_map]; lia).
    assert (Y : (length (packets m) <= b * c)%nat).
    { rewrite LP. unfold zlen in L. pose proof (Nat.div_mod (length m) 8 ltac:(lia)). lia. }
    unfold all_rows. replace (length (packets m) - b * c)%nat with 0%nat by lia. cbn [seq flat_map].
    rewrite List.app_nil_r, firstn_all2 by exact Y.
    destruct fuel; cbn [gdc_chunks]; rewrite X; reflexivity. }
  induction fuel as [|fuel IH]; intros b rows HF HP.
  - apply END. unfold zlen. lia.
  - destruct (Z_lt_le_dec (Z.of_nat (8 * (b * c))) (zlen m)) as [L|L]; [|apply END; exact L].
    cbn [gdc_chunks]. unfold is_eof. cbn [r_pos r_map].
    destruct (Z.geb_spec (Z.of_nat (8 * (b * c))) (zlen m)); [lia|].
    unfold read_chunk. cbn [r_pos r_map].
    destruct (Z.geb_spec (Z.of_nat (8 * (b * c))) (zlen m)); [lia|].
    rewrite Nat2Z.id. set (rest := skipn (8 * (b * c)) m).
    assert (Lr : zlen rest = zlen m - Z.of_nat (8 * (b * c))).
    { unfold rest, zlen. rewrite skipn_length. unfold zlen in L. lia. }
    set (n := Z.min (8 * Z.of_nat c) (zlen m - Z.of_nat (8 * (b * c)))) in *.
    destruct (firstn (Z.to_nat n) rest) as [|x0 xs] eqn:EC.
    { apply (f_equal (@zlen _)) in EC. rewrite zlen_firstn in EC. unfold zlen in EC at 2. cbn [length] in EC. lia. }
    rewrite <- EC. clear x0 xs EC.
    rewrite process_chunk_records.
    assert (EP : packets (firstn (Z.to_nat n) rest) = firstn c (skipn (b * c) (packets m))).
    { rewrite <- skipn_packets. fold rest. destruct (Z.le_gt_cases (8 * Z.of_nat c) (zlen rest)) as [A|A].
      - replace (Z.to_nat n) with (8 * c)%nat by lia. apply packets_firstn.
      - rewrite firstn_all2 by (unfold zlen in *; lia).
        rewrite firstn_all2; [reflexivity|].
        pose proof (packets_zlen rest) as B. unfold zlen in *. lia. }
    rewrite EP.
    assert (R : map row_of (records_of (firstn (b * c) (packets m)) [] (Z.of_nat (8 * (b * c))) (firstn c (skipn (b * c) (packets m)))) =
                flat_map (rows_at c (packets m)) (seq (b * c) (Nat.min c (length (packets m) - b * c)))).
    { rewrite <- (records_rows c (packets m) (b * c) Hc).
      - rewrite skipn_firstn_comm, Nat.sub_diag. cbn [firstn].
        replace (8 * Z.of_nat (b * c)) with (Z.of_nat (8 * (b * c))) by lia. do 2 f_equal.
        destruct (Nat.le_gt_cases c (length (packets m) - b * c)) as [A|A].
        + rewrite Nat.min_l by lia. reflexivity.
        + rewrite Nat.min_r by lia. rewrite !firstn_all2 by (rewrite skipn_length; lia). reflexivity.
      - apply Nat.mod_mul. lia.
      - lia.
      - assert (b * c <= length (packets m))%nat; [|lia].
        rewrite LP. apply Nat.div_le_lower_bound; [lia|]. unfold zlen in HP. lia.
      - lia. }
    rewrite R.
    assert (NX : u64 (Z.of_nat (8 * (b * c)) + zlen (firstn (Z.to_nat n) rest)) = Z.of_nat (8 * (b * c)) + n).
    { rewrite zlen_firstn. rewrite u64_id; unfold zlen in *; lia. }
    rewrite NX.
    assert (SP : firstn (b * c) (packets m) ++ firstn c (skipn (b * c) (packets m)) = firstn (S b * c) (packets m)).
    { replace (S b * c)%nat with (b * c + c)%nat by lia. symmetry. apply firstn_plus. }
    rewrite SP.
    destruct (Z.le_gt_cases (8 * Z.of_nat c) (zlen rest)) as [A|A].
    + replace (Z.of_nat (8 * (b * c)) + n) with (Z.of_nat (8 * (S b * c))) by lia.
      rewrite IH; [|unfold zlen in *; lia|unfold zlen in *; lia].
      f_equal. f_equal. rewrite <- List.app_assoc. f_equal. unfold all_rows.
      assert (B : (b * c + c <= length (packets m))%nat).
      { rewrite LP. apply Nat.div_le_lower_bound; [lia|]. unfold zlen in *. lia. }
      rewrite Nat.min_l by lia. rewrite <- flat_map_app. f_equal.
      replace (S b * c)%nat with (b * c + c)%nat by lia. rewrite <- seq_app. f_equal. lia.
    + replace (Z.of_nat (8 * (b * c)) + n) with (zlen m) by lia.
      assert (B : (length (packets m) <= S b * c)%nat).
      { rewrite LP. apply Nat.div_le_upper_bound; [lia|]. unfold zlen in *. lia. }
      rewrite (firstn_all2 (packets m)) by exact B.
      assert (X : is_eof (Reader m (zlen m)) = true) by (unfold is_eof; cbn [r_pos r_map]; lia).
      assert (Y : forall f s rs, gdc_chunks f (8 * Z.of_nat c) (Reader m (zlen m)) (zlen m) s rs = Ok (rs, s)).
      { intros f s rs. destruct f; cbn [gdc_chunks]; rewrite X; reflexivity. }
      rewrite Y. unfold all_rows. rewrite Nat.min_r by lia. reflexivity.
Qed.

(** * What the rows are *)

Lemma nth_skipn {A} (l : list A) b i : nth_error (skipn b l) i = nth_error l (b + i).
Proof.
  revert l. induction b as [|b IH]; intros l; [reflexivity|]. destruct l as [|x l]; [destruct i; reflexivity|].
  cbn [skipn Nat.add nth_error]. apply IH.
Qed.
Lemma nth_firstn {A} (l : list A) k i : nth_error (firstn k l) i = if (i <? k)%nat then nth_error l i else None.
Proof.
  revert l i. induction k as [|k IH]; intros l i.
  - cbn [firstn]. destruct i; reflexivity.
  - destruct l as [|x l].
    + cbn [firstn]. destruct i; [reflexivity|]. cbn [nth_error]. destruct (_ <? _)%nat; reflexivity.
    + destruct i as [|i]; [reflexivity|]. cbn [firstn nth_error]. rewrite IH. reflexivity.
Qed.

Lemma gdc_pk_spec p : packet_ok p -> (gdc_pk p = true <-> gdc_packet p).
Proof.
  intros H. unfold gdc_pk, gdc_packet. rewrite <- is_tpx3_spec, <- is_gdc_spec by apply H.
  destruct (is_tpx3 p), (is_gdc p); cbn; intuition congruence.
Qed.
Lemma filter_sublist ps : Forall packet_ok ps -> sublist gdc_packet ps (filter gdc_pk ps).
Proof.
  induction 1 as [|p ps H F IH]; [constructor|]. cbn [filter].
  pose proof (gdc_pk_spec p H) as S. destruct (gdc_pk p); constructor; [apply S; reflexivity|exact IH| |exact IH].
  intros C. apply S in C. discriminate C.
Qed.
Lemma Forall_filter {A} (P : A -> Prop) f l : Forall P l -> Forall P (filter f l).
Proof. induction 1; cbn; [constructor|]. destruct (f x); [constructor|]; assumption. Qed.
Lemma state_timestamp ps : Forall packet_ok ps ->
  timestamp_after ps (snd (state_after ps)) /\ 0 <= snd (state_after ps) < 2 ^ 48.
Proof.
  intros F. destruct (C09_l (filter gdc_pk ps) (Forall_filter _ _ _ F)) as (_ & G & _ & R).
  split; [|exact R]. exists (filter gdc_pk ps). split; [apply filter_sublist; exact F|exact G].
Qed.
Lemma timestamp_fun ps v v' : timestamp_after ps v -> timestamp_after ps v' -> v = v'.
Proof.
  intros (g & S & G) (g' & S' & G'). rewrite (sublist_fun _ _ _ _ S S') in G.
  eapply current_gdc_fun; eassumption.
Qed.

(** The last header of a list. *)
Definition last_header (cs : list packet) (j : nat) (h : packet) : Prop :=
  nth_error cs j = Some h /\ tpx3_header h /\
  forall i q, (j < i)%nat -> nth_error cs i = Some q -> ~ tpx3_header q.
Lemma nth_snoc {A} (l : list A) a i : nth_error (l ++ [a]) i =
  if (i <? length l)%nat then nth_error l i else if (i =? length l)%nat then Some a else None.
Proof.
  destruct (Nat.ltb_spec i (length l)) as [L|L]; [apply nth_error_app1; exact L|].
  rewrite nth_error_app2 by exact L. destruct (Nat.eqb_spec i (length l)) as [->|N].
  - rewrite Nat.sub_diag. reflexivity.
  - destruct (i - length l)%nat as [|n] eqn:E; [lia|]. destruct n; reflexivity.
Qed.
Lemma chip_last cs :
  (exists j h, last_header cs j h /\ chip_after cs = schar (b4 h)) \/
  ((forall j h, nth_error cs j = Some h -> ~ tpx3_header h) /\ chip_after cs = -1).
Proof.
  induction cs as [|p cs IH] using rev_ind.
  - right. split; [|reflexivity]. intros [|j] h E; discriminate E.
  - rewrite chip_snoc. pose proof (is_tpx3_spec p) as T. destruct (is_tpx3 p).
    + left. exists (length cs), p. split; [|reflexivity]. split; [|split].
      * rewrite nth_snoc, Nat.ltb_irrefl, Nat.eqb_refl. reflexivity.
      * apply T. reflexivity.
      * intros i q L E. rewrite nth_snoc in E.
        destruct (Nat.ltb_spec i (length cs)); [lia|]. destruct (Nat.eqb_spec i (length cs)); [lia|discriminate E].
    + assert (NT : ~ tpx3_header p) by (intros C; apply T in C; discriminate C).
      destruct IH as [(j & h & (A & B & C) & E)|(A & E)]; [left|right].
      * exists j, h. split; [|exact E]. split; [|split; [exact B|]].
        -- rewrite nth_snoc. destruct (Nat.ltb_spec j (length cs)) as [L|L]; [exact A|].
           apply nth_error_None in L. congruence.
        -- intros i q L X. rewrite nth_snoc in X. destruct (i <? length cs)%nat; [eapply C; eassumption|].
           destruct (i =? length cs)%nat; [|discriminate X]. injection X as <-. exact NT.
      * split; [|exact E]. intros j h X. rewrite nth_snoc in X. destruct (j <? length cs)%nat; [eapply A; eassumption|].
        destruct (j =? length cs)%nat; [|discriminate X]. injection X as <-. exact NT.
Qed.

Lemma nth_slice c ps k i : nth_error (slice_before c ps k) i =
  if (k / c * c + i <? k)%nat then nth_error ps (k / c * c + i) else None.
Proof. unfold slice_before. rewrite nth_skipn, nth_firstn. reflexivity. Qed.

Lemma attributed_chip c ps k chip : Forall packet_ok ps -> 0 <= chip ->
  (attributed c ps k chip <-> chip_after (slice_before c ps k) = chip).
Proof.
  intros F P. set (b := (k / c * c)%nat). split.
  - intros (j & h & J & N & T & L & D). fold b in J.
    destruct (chip_last (slice_before c ps k)) as [(j' & h' & (A & B & C) & ->)|(A & E)].
    + rewrite nth_slice in A. fold b in A. destruct (Nat.ltb_spec (b + j') k) as [X|X]; [|discriminate A].
      assert (J' : (b + j' = j)%nat).
      { destruct (Nat.lt_trichotomy (b + j') j) as [Y|[Y|Y]]; [|exact Y|].
        - exfalso. apply (C (j - b)%nat h); [lia| |exact T]. rewrite nth_slice. fold b.
          replace (b + (j - b))%nat with j by lia. destruct (Nat.ltb_spec j k); [exact N|lia].
        - exfalso. apply (L (b + j')%nat h'); [lia|exact A|exact B]. }
      rewrite J' in A. rewrite N in A. injection A as ->.
      eapply declares_chip_unique; [|exact D]. apply schar_declares.
      apply nth_error_In in N. eapply Forall_forall in F; [|exact N]. apply F.
    + exfalso. apply (A (j - b)%nat h); [|exact T]. rewrite nth_slice. fold b.
      replace (b + (j - b))%nat with j by lia. destruct (Nat.ltb_spec j k); [exact N|lia].
  - intros E. destruct (chip_last (slice_before c ps k)) as [(j & h & (A & B & C) & E')|(A & E')]; [|lia].
    rewrite nth_slice in A. fold b in A. destruct (Nat.ltb_spec (b + j) k) as [X|X]; [|discriminate A].
    exists (b + j)%nat, h. fold b. split; [lia|]. split; [exact A|]. split; [exact B|]. split.
    + intros i q I N. apply (C (i - b)%nat q); [lia|]. rewrite nth_slice. fold b.
      replace (b + (i - b))%nat with i by lia. destruct (Nat.ltb_spec i k); [exact N|lia].
    + rewrite <- E, E'. apply schar_declares. apply nth_error_In in A. eapply Forall_forall in F; [|exact A]. apply F.
Qed.

Lemma msb_spec p : packet_ok p -> (gdc_pk p && msb_packet p = true <-> msb p).
Proof.
  intros H. rewrite andb_true_iff, (gdc_pk_spec p H), (msb_packet_spec p H), (subtype_b7 p H).
  unfold gdc_packet, msb. destruct H as (_ & _ & _ & _ & _ & _ & _ & H7). unfold is_byte in H7. split.
  - intros ((A & B) & C). split; [exact A|]. lia.
  - intros (A & B). split; [split; [exact A|]|]; rewrite B; reflexivity.
Qed.

Lemma Forall_firstn' {A} (P : A -> Prop) n l : Forall P l -> Forall P (firstn n l).
Proof. intros H. revert n. induction H; intros [|n]; cbn; constructor; auto. Qed.

Lemma rows_at_in c ps k r : Forall packet_ok ps -> Z.of_nat (length ps) <= 2 ^ 61 ->
  (In r (rows_at c ps k) <->
   exists p, nth_error ps k = Some p /\ msb p /\ row_offset r = 8 * Z.of_nat k /\
     timestamp_after (firstn (S k) ps) (row_value r) /\ row_value r <> 0 /\
     attributed c ps k (row_chip r) /\ 0 <= row_chip r /\ row_ns r = 25 * row_value r).
Proof.
  intros F HL. unfold rows_at. destruct (nth_error ps k) as [p|] eqn:E.
  2:{ split; [intros []|intros (p & X & _); discriminate X]. }
  assert (K : (k < length ps)%nat) by (apply nth_error_Some; congruence).
  assert (Hp : packet_ok p) by (apply nth_error_In in E; eapply Forall_forall in F; eassumption).
  unfold record_at. rewrite <- (firstn_snoc_nth ps k p E).
  destruct (state_timestamp (firstn (S k) ps) (Forall_firstn' _ _ _ F)) as [TS TR].
  set (v := snd (state_after (firstn (S k) ps))) in *. clearbody v.
  pose proof (msb_spec p Hp) as M. split.
  - destruct (gdc_pk p && msb_packet p); cbn [andb]; [|intros []].
    destruct (Z.eqb_spec v 0) as [|Nz]; cbn [negb andb]; [intros []|].
    destruct (Z.geb_spec (chip_after (slice_before c ps k)) 0) as [G|G]; cbn [andb]; [|intros []].
    intros [<-|[]]. exists p. unfold row_of. cbn [row_offset row_value row_chip row_ns gr_chip gr_value gr_offset].
    split; [reflexivity|]. split; [apply M; reflexivity|].
    split; [apply u64_id; lia|]. split; [exact TS|]. split; [exact Nz|].
    split; [apply attributed_chip; [exact F|exact G|reflexivity]|]. split; [exact G|].
    rewrite u64_id by lia. lia.
  - intros (p' & X & A & O & T & N & At & P & NS). injection X as <-.
    apply M in A. rewrite A. cbn [andb].
    pose proof (timestamp_fun _ _ _ TS T) as V.
    apply (attributed_chip c ps k _ F P) in At. rewrite At.
    destruct (Z.eqb_spec v 0) as [|Nz]; [lia|]. cbn [negb andb].
    destruct (Z.geb_spec (row_chip r) 0) as [G|G]; [|lia]. left.
    unfold row_of. cbn [gr_chip gr_value gr_offset]. rewrite V, !u64_id by lia.
    destruct r; cbn in *. f_equal; lia.
Qed.

Lemma rows_at_offset c ps k r : Z.of_nat (length ps) <= 2 ^ 61 -> In r (rows_at c ps k) -> row_offset r = 8 * Z.of_nat k.
Proof.
  intros HL. unfold rows_at. destruct (nth_error ps k) as [p|] eqn:E; [|intros []].
  assert (K : (k < length ps)%nat) by (apply nth_error_Some; congruence).
  unfold record_at. destruct (_ && _); [|intros []]. intros [<-|[]]. cbn. apply u64_id. lia.
Qed.
Lemma rows_sorted c ps : Z.of_nat (length ps) <= 2 ^ 61 ->
  forall n k, StronglySorted (fun a b => row_offset a < row_offset b) (flat_map (rows_at c ps) (seq k n)).
Proof.
  intros HL. induction n as [|n IH]; intros k; [constructor|]. cbn [seq flat_map].
  assert (O := rows_at_offset c ps k).
  assert (L : (length (rows_at c ps k) <= 1)%nat).
  { unfold rows_at. destruct (nth_error ps k); [|cbn; lia]. unfold record_at. destruct (_ && _); cbn; lia. }
  destruct (rows_at c ps k) as [|r [|]]; cbn [app]; [apply IH| |cbn in L; lia].
  constructor; [apply IH|]. apply Forall_forall. intros x X. apply in_flat_map in X.
  destruct X as (i & I & X). apply in_seq in I. rewrite (O r HL (or_introl eq_refl)), (rows_at_offset c ps i x HL X). lia.
Qed.

Lemma gdc_process_rows c m fuel : m <> [] -> (0 < c)%nat -> zlen m < 2 ^ 64 -> (length m <= fuel)%nat ->
  gdc_process fuel true (Some m) (8 * Z.of_nat c) = Ok (Some (all_rows c (packets m) 0 (length (packets m)))).
Proof.
  intros Hm Hc HL Hf. unfold gdc_process, open_reader. cbn [negb].
  destruct m as [|x m']; [contradiction|]. set (m := x :: m') in *. cbn [obind].
  pose proof (chunks_rows c m Hc HL fuel 0 []) as R. cbn [Nat.mul Nat.add firstn] in R.
  change (Z.of_nat 0) with 0 in R. change (state_after []) with (0, 0) in R.
  rewrite R; [reflexivity|lia|unfold zlen; lia].
Qed.

Lemma file_packets ps rest : (length rest < 8)%nat -> packets (flat_map packet_bytes ps ++ rest) = ps.
Proof.
  intros H. induction ps as [|p ps IH]; [apply packets_short; exact H|].
  cbn [flat_map]. rewrite <- List.app_assoc, packets_bytes, IH. reflexivity.
Qed.

Section File.
  Variables (ps : list packet) (rest : list Z).
  Hypothesis Hp : Forall packet_ok ps.
  Hypothesis Hr : (length rest < 8)%nat.
  Let m := flat_map packet_bytes ps ++ rest.
  Hypothesis Hm : m <> [].
  Hypothesis Hz : zlen m < 2 ^ 64.

  Lemma file_small : Z.of_nat (length ps) <= 2 ^ 61.
  Proof.
    pose proof (packets_zlen m) as L. unfold m at 1 in L. rewrite file_packets in L by exact Hr.
    unfold zlen in *. lia.
  Qed.

  Lemma rows_due c r : In r (all_rows c ps 0 (length ps)) <-> due c ps r.
  Proof.
    unfold all_rows, due. rewrite in_flat_map. split.
    - intros (k & _ & X). apply (rows_at_in c ps k r Hp file_small) in X.
      destruct X as (p & X). exists k, p. exact X.
    - intros (k & p & X). exists k. split.
      + apply in_seq. destruct X as (X & _). assert (K : (k < length ps)%nat) by (apply nth_error_Some; congruence). lia.
      + apply (rows_at_in c ps k r Hp file_small). exists p. exact X.
  Qed.

  Lemma C36_l c fuel : (0 < c)%nat -> (length m <= fuel)%nat ->
    exists rows, gdc_process fuel true (Some m) (8 * Z.of_nat c) = Ok (Some rows) /\
      (forall r, In r rows <-> due c ps r) /\
      StronglySorted (fun a b => row_offset a < row_offset b) rows.
  Proof.
    intros Hc Hf. exists (all_rows c ps 0 (length ps)). split; [|split].
    - rewrite (gdc_process_rows c m fuel Hm Hc Hz Hf). unfold m at 1 2. rewrite file_packets by exact Hr. reflexivity.
    - apply rows_due.
    - apply rows_sorted, file_small.
  Qed.

  Lemma C37_state_l c fuel : (0 < c)%nat -> (length m <= fuel)%nat ->
    exists rows, gdc_chunks fuel (8 * Z.of_nat c) (Reader m 0) 0 (0, 0) [] = Ok (rows, gdc_run (filter gdc_pk ps)).
  Proof.
    intros Hc Hf. exists (all_rows c ps 0 (length ps)).
    pose proof (chunks_rows c m Hc Hz fuel 0 []) as R. cbn [Nat.mul Nat.add firstn] in R.
    change (Z.of_nat 0) with 0 in R. change (state_after []) with (0, 0) in R.
    rewrite R; [|lia|unfold zlen; lia].
    assert (E : packets m = ps) by (unfold m; apply file_packets; exact Hr). rewrite E. reflexivity.
  Qed.
End File.

(** * Two chunk sizes *)

Lemma attributed_larger c c' ps k chip : (0 < c)%nat -> (k / c' * c' <= k / c * c)%nat ->
  attributed c ps k chip -> attributed c' ps k chip.
Proof.
  intros Hc L (j & h & J & X). exists j, h. split; [lia|exact X].
Qed.
Lemma multiple_start c n k : (0 < c)%nat -> (0 < n)%nat -> (k / (n * c) * (n * c) <= k / c * c)%nat.
Proof.
  intros Hc Hn. rewrite Nat.mul_assoc. apply Nat.mul_le_mono_r.
  apply Nat.div_le_lower_bound; [lia|].
  pose proof (Nat.mul_div_le k (n * c) ltac:(nia)) as M. nia.
Qed.
Lemma due_multiple c n ps r : (0 < c)%nat -> (0 < n)%nat -> due c ps r -> due (n * c) ps r.
Proof.
  intros Hc Hn (k & p & A & B & C & D & E & G & H). exists k, p. repeat (split; [assumption|]).
  split; [|exact H]. eapply attributed_larger; [exact Hc| |exact G]. apply multiple_start; assumption.
Qed.
Lemma attributed_same c c' ps k chip chip' : attributed c ps k chip -> attributed c' ps k chip' -> chip = chip'.
Proof.
  intros (j & h & J & N & T & L & D) (j' & h' & J' & N' & T' & L' & D').
  assert (E : j = j').
  { destruct (Nat.lt_trichotomy j j') as [Y|[Y|Y]]; [exfalso|exact Y|exfalso].
    - apply (L j' h'); [lia|exact N'|exact T'].
    - apply (L' j h); [lia|exact N|exact T]. }
  subst j'. rewrite N in N'. injection N' as <-. eapply declares_chip_unique; eassumption.
Qed.
Lemma due_agree c c' ps r r' : due c ps r -> due c' ps r' -> row_offset r = row_offset r' -> r = r'.
Proof.
  intros (k & p & A & B & C & D & E & G & H & I) (k' & p' & A' & B' & C' & D' & E' & G' & H' & I') O.
  assert (k = k') by lia. subst k'. pose proof (timestamp_fun _ _ _ D D') as V.
  pose proof (attributed_same _ _ _ _ _ _ G G') as Ch. destruct r, r'; cbn in *. f_equal; lia.
Qed.
Lemma due_whole c c' ps r : (0 < c)%nat -> (length ps <= c')%nat ->
  (due c ps r <-> due c' ps r /\
    exists k j h, row_offset r = 8 * Z.of_nat k /\ (k / c * c <= j < k)%nat /\
      nth_error ps j = Some h /\ tpx3_header h).
Proof.
  intros Hc Hc'. split.
  - intros (k & p & A & B & C & D & E & G & H).
    assert (K : (k < length ps)%nat) by (apply nth_error_Some; congruence). split.
    + exists k, p. repeat (split; [assumption|]). split; [|exact H].
      eapply attributed_larger; [exact Hc| |exact G]. rewrite (Nat.div_small k c') by lia. apply Nat.le_0_l.
    + destruct G as (j & h & J & N & T & _). exists k, j, h. auto.
  - intros ((k & p & A & B & C & D & E & G & H) & k' & j' & h' & C' & J' & N' & T').
    assert (k' = k) by lia. subst k'. exists k, p. repeat (split; [assumption|]). split; [|exact H].
    destruct G as (j & h & J & N & T & L & X). exists j, h. split; [|auto].
    split; [|apply J]. destruct (Nat.lt_ge_cases j (k / c * c)) as [Y|Y]; [|exact Y].
    exfalso. apply (L j' h'); [lia|exact N'|exact T'].
Qed.

(** * Stale timestamps *)

Lemma sublist_snoc {A} (P : A -> Prop) l r a : sublist P l r -> P a -> sublist P (l ++ [a]) (r ++ [a]).
Proof. intros H Pa. induction H; cbn; constructor; auto. constructor. Qed.
Lemma current_gdc_zero gs p v : current_gdc gs v -> completes gs p 0 -> current_gdc (gs ++ [p]) v.
Proof.
  intros H C. destruct H as [[-> N]|(pre & q & post & -> & C' & Nz & N)].
  - left. split; [reflexivity|]. intros pre q post w E K.
    destruct post as [|y post] using rev_ind.
    + apply app_inj_tail in E. destruct E as [-> ->]. eapply completes_fun; eassumption.
    + change (pre ++ q :: post ++ [y]) with (pre ++ (q :: post) ++ [y]) in E. rewrite List.app_assoc in E.
      apply app_inj_tail in E. destruct E as [-> _]. eapply N; [reflexivity|exact K].
  - right. exists pre, q, (post ++ [p]). rewrite <- List.app_assoc. split; [reflexivity|]. split; [exact C'|].
    split; [exact Nz|]. intros pre' y post' w E K.
    destruct post' as [|z post'] using rev_ind.
    + apply app_inj_tail in E. destruct E as [-> ->]. eapply completes_fun; [exact K|exact C].
    + change (pre' ++ y :: post' ++ [z]) with (pre' ++ (y :: post') ++ [z]) in E. rewrite List.app_assoc in E.
      apply app_inj_tail in E. destruct E as [-> _]. eapply N; [reflexivity|exact K].
Qed.
Lemma stale_l c ps k p gs v chip : nth_error ps k = Some p -> msb p ->
  sublist gdc_packet (firstn k ps) gs -> completes gs p 0 -> current_gdc gs v -> v <> 0 ->
  attributed c ps k chip -> 0 <= chip ->
  due c ps (Row chip v (8 * Z.of_nat k) (25 * v)).
Proof.
  intros E M S C G Nz At P. exists k, p. cbn [row_offset row_value row_chip row_ns].
  repeat (split; [assumption||reflexivity|]). split; [|auto].
  exists (gs ++ [p]). rewrite (firstn_snoc_nth ps k p E). split.
  - apply sublist_snoc; [exact S|]. destruct M as [A B]. split; [exact A|]. rewrite B. reflexivity.
  - apply current_gdc_zero; assumption.
Qed.


(** * The command line *)

Lemma gdc_parse_snoc stoull args o a o' : read_gdc_options stoull args o -> parse_gdc_arg stoull o a = Ok o' ->
  read_gdc_options stoull (args ++ [a]) o'.
Proof.
  intros (H1 & H2 & H3 & H4 & H5) E.
  destruct a as [s|s|s| | |]; cbn [parse_gdc_arg] in E;
    try (destruct (stoull s) as [n|] eqn:Es); try discriminate E; apply Ok_inj in E; subst o';
    (repeat apply conj; cbn [go_input go_output go_chunk go_debug go_verbose];
     (eapply chosen_snoc; [eassumption|cbn [gsel_i gsel_o gsel_c gsel_d gsel_v]; try reflexivity])).
  rewrite Es. apply mega.
Qed.
Lemma gdc_fold_read stoull args o : ofold (parse_gdc_arg stoull) args default_gdc_options = Ok o ->
  read_gdc_options stoull args o /\ acceptable_gdc stoull args.
Proof.
  revert o. induction args as [|a args IH] using rev_ind; intros o E.
  - cbn in E. apply Ok_inj in E. subst o. split; [|split; [intros []|intros s []]].
    repeat split; right; (split; [reflexivity|constructor]).
  - rewrite ofold_app in E. destruct (ofold _ args _) as [o1| | |]; cbn [obind ofold] in E; try discriminate E.
    destruct (IH o1 eq_refl) as [A [B1 B2]].
    destruct (parse_gdc_arg stoull o1 a) as [o2| | |] eqn:P; cbn [obind] in E; try discriminate E.
    apply Ok_inj in E. subst o2. split; [eapply gdc_parse_snoc; eassumption|]. split.
    + intros I. apply in_app_or in I. destruct I as [I|[->|[]]]; [auto|discriminate P].
    + intros s I. apply in_app_or in I. destruct I as [I|[->|[]]]; [auto|]. cbn in P. intros N. rewrite N in P. discriminate P.
Qed.
Lemma gdc_fold_accepts stoull args : forall o, acceptable_gdc stoull args -> exists o', ofold (parse_gdc_arg stoull) args o = Ok o'.
Proof.
  induction args as [|a args IH]; intros o [A B]; [eexists; reflexivity|]. cbn [ofold].
  assert (S : acceptable_gdc stoull args).
  { split; [intros I; apply A; right; exact I|intros s I; apply B; right; exact I]. }
  assert (P : exists o1, parse_gdc_arg stoull o a = Ok o1).
  { destruct a; cbn [parse_gdc_arg]; eauto.
    - destruct (stoull s) eqn:E; [eauto|]. exfalso. apply (B s); [left; reflexivity|exact E].
    - exfalso. apply A. left. reflexivity. }
  destruct P as (o1 & ->). cbn [obind]. apply IH. exact S.
Qed.
Lemma gdc_read_unique stoull args o o' : read_gdc_options stoull args o -> read_gdc_options stoull args o' -> o = o'.
Proof.
  intros (H1 & H2 & H3 & H4 & H5) (K1 & K2 & K3 & K4 & K5).
  destruct o, o'; cbn in *. f_equal; eapply chosen_unique; eassumption.
Qed.
Lemma gdc_validate_spec e o : go_input o <> ""%string -> go_output o <> ""%string ->
  (gdc_validate e o = true <-> valid_gdc_options e o).
Proof.
  intros A B. unfold gdc_validate, valid_gdc_options. rewrite !andb_true_iff, negb_true_iff, orb_false_iff.
  split; intros H; intuition lia.
Qed.
Lemma C49_l stoull e args o : parse_gdc_arguments stoull e args = Ok o <->
  acceptable_gdc stoull args /\ read_gdc_options stoull args o /\ valid_gdc_options e o.
Proof.
  unfold parse_gdc_arguments. split.
  - intros E. destruct (ofold (parse_gdc_arg stoull) args default_gdc_options) as [o1| | |] eqn:F; cbn [obind] in E; try discriminate E.
    apply gdc_fold_read in F. destruct F as [A B].
    destruct (String.eqb_spec (go_input o1) "") as [|N]; [discriminate E|].
    destruct (String.eqb_spec (go_output o1) "") as [|N']; [discriminate E|].
    pose proof (gdc_validate_spec e o1 N N') as V.
    destruct (gdc_validate e o1); cbn [negb] in E; [|discriminate E]. apply Ok_inj in E. subst o.
    split; [exact B|]. split; [exact A|]. apply V. reflexivity.
  - intros (A & R & V). destruct (gdc_fold_accepts stoull args default_gdc_options A) as (o1 & F).
    rewrite F. cbn [obind]. destruct (gdc_fold_read _ _ _ F) as [R1 _].
    rewrite (gdc_read_unique _ _ _ _ R1 R). pose proof V as (N & N' & _).
    destruct (String.eqb_spec (go_input o) ""); [contradiction|].
    destruct (String.eqb_spec (go_output o) ""); [contradiction|].
    rewrite (proj2 (gdc_validate_spec e o N N') V). reflexivity.
Qed.
Lemma C49_chunk_l stoull e args o : parse_gdc_arguments stoull e args = Ok o ->
  exists n, go_chunk o = n * 2 ^ 20 /\ 1 <= n <= 20480.
Proof.
  intros E. apply C49_l in E. destruct E as (_ & (_ & _ & R & _) & V). destruct V as (_ & _ & _ & _ & _ & _ & V).
  assert (M : (go_chunk o) mod 2 ^ 20 = 0).
  { destruct R as [(l & x & r & _ & S & _)|[-> _]]; [|reflexivity].
    destruct x; cbn in S; try discriminate S. destruct (stoull s) as [n|]; [|discriminate S].
    injection S as <-. lia. }
  exists (go_chunk o / 2 ^ 20). lia.
Qed.
Lemma C49_chunk8_l stoull e args o : parse_gdc_arguments stoull e args = Ok o ->
  exists c, (0 < c)%nat /\ go_chunk o = 8 * Z.of_nat c.
Proof.
  intros E. apply C49_chunk_l in E. destruct E as (n & -> & N). exists (Z.to_nat (n * 2 ^ 17)).
  rewrite Z2Nat.id by lia. lia.
Qed.
Lemma C49_size_l stoull e args o : parse_gdc_arguments stoull e args = Ok o ->
  (exists n, go_chunk o = n * 2 ^ 20 /\ 1 <= n <= 20480) /\
  exists c, (0 < c)%nat /\ go_chunk o = 8 * Z.of_nat c.
Proof. intros E. split; [eapply C49_chunk_l|eapply C49_chunk8_l]; exact E. Qed.

(** * Statements *)

Lemma file_nonempty k p ps rest : nth_error ps k = Some p -> flat_map packet_bytes ps ++ rest <> [].
Proof. destruct ps as [|q ps]; [destruct k; discriminate|]. cbn. discriminate. Qed.

Lemma run_due ps rest : Forall packet_ok ps -> (length rest < 8)%nat ->
  forall m, m = flat_map packet_bytes ps ++ rest -> zlen m < 2 ^ 64 ->
  forall c fuel rows, (0 < c)%nat -> (length m <= fuel)%nat ->
  gdc_process fuel true (Some m) (8 * Z.of_nat c) = Ok (Some rows) ->
  forall r, In r rows <-> due c ps r.
Proof.
  intros Hp Hr m -> Hz c fuel rows Hc Hf E r.
  destruct (flat_map packet_bytes ps ++ rest) as [|x l] eqn:Em; [discriminate E|]. rewrite <- Em in *.
  assert (Hm : flat_map packet_bytes ps ++ rest <> []) by (rewrite Em; discriminate).
  destruct (C36_l ps rest Hp Hr Hm Hz c fuel Hc Hf) as (rows' & E' & D & _).
  rewrite E in E'. injection E' as ->. apply D.
Qed.
Lemma C36_stale_l ps rest : Forall packet_ok ps -> (length rest < 8)%nat ->
  forall m, m = flat_map packet_bytes ps ++ rest -> zlen m < 2 ^ 64 ->
  forall c fuel k p gs v chip, (0 < c)%nat -> (length m <= fuel)%nat ->
  nth_error ps k = Some p -> msb p ->
  sublist gdc_packet (firstn k ps) gs -> completes gs p 0 -> current_gdc gs v -> v <> 0 ->
  attributed c ps k chip -> 0 <= chip ->
  exists rows, gdc_process fuel true (Some m) (8 * Z.of_nat c) = Ok (Some rows) /\
    In (Row chip v (8 * Z.of_nat k) (25 * v)) rows.
Proof.
  intros Hp Hr m -> Hz c fuel k p gs v chip Hc Hf E M S C G Nz At P.
  destruct (C36_l ps rest Hp Hr (file_nonempty _ _ _ _ E) Hz c fuel Hc Hf) as (rows & X & D & _).
  exists rows. split; [exact X|]. apply D. eapply stale_l; eassumption.
Qed.
Lemma C36_mixed_l : exists ps rows r,
  gdc_process 100 true (Some (flat_map packet_bytes ps)) 80 = Ok (Some rows) /\ In r rows /\
  row_chip r = 1 /\
  ps = [Packet 84 80 88 51 0 0 0 0; Packet 0 0 7 0 0 0 0 68; Packet 84 80 88 51 1 0 0 0; Packet 0 0 3 0 0 0 0 69] /\
  row_value r = 3 * 2 ^ 32 + 7 /\ completes [] (Packet 0 0 3 0 0 0 0 69) (3 * 2 ^ 32).
Proof.
  exists [Packet 84 80 88 51 0 0 0 0; Packet 0 0 7 0 0 0 0 68; Packet 84 80 88 51 1 0 0 0; Packet 0 0 3 0 0 0 0 69].
  exists [Row 1 (3 * 2 ^ 32 + 7) 24 (25 * (3 * 2 ^ 32 + 7))], (Row 1 (3 * 2 ^ 32 + 7) 24 (25 * (3 * 2 ^ 32 + 7))).
  split; [vm_compute; reflexivity|]. split; [left; reflexivity|]. split; [reflexivity|]. split; [reflexivity|].
  split; [reflexivity|]. split; [reflexivity|]. exists 0. split; [|reflexivity]. left. split; [reflexivity|constructor].
Qed.
Lemma C37_smaller_l : exists ps rows rows' r,
  Forall packet_ok ps /\
  gdc_process 100 true (Some (flat_map packet_bytes ps)) (8 * 2) = Ok (Some rows) /\
  gdc_process 100 true (Some (flat_map packet_bytes ps)) (8 * 3) = Ok (Some rows') /\
  In r rows /\ ~ In r rows'.
Proof.
  exists [Packet 84 80 88 51 0 0 0 0; Packet 0 0 7 0 0 0 0 68; Packet 84 80 88 51 1 0 0 0; Packet 0 0 3 0 0 0 0 69].
  exists [Row 1 (3 * 2 ^ 32 + 7) 24 (25 * (3 * 2 ^ 32 + 7))], [], (Row 1 (3 * 2 ^ 32 + 7) 24 (25 * (3 * 2 ^ 32 + 7))).
  split; [repeat constructor; unfold packet_ok, is_byte; cbn; lia|].
  split; [vm_compute; reflexivity|]. split; [vm_compute; reflexivity|]. split; [left; reflexivity|intros []].
Qed.
Lemma C37_final_l ps rest : Forall packet_ok ps -> (length rest < 8)%nat ->
  forall m, m = flat_map packet_bytes ps ++ rest -> zlen m < 2 ^ 64 ->
  forall c c' fuel, (0 < c)%nat -> (0 < c')%nat -> (length m <= fuel)%nat ->
  exists rows rows' s,
    gdc_chunks fuel (8 * Z.of_nat c) (Reader m 0) 0 (0, 0) [] = Ok (rows, s) /\
    gdc_chunks fuel (8 * Z.of_nat c') (Reader m 0) 0 (0, 0) [] = Ok (rows', s) /\
    timestamp_after ps (snd s).
Proof.
  intros Hp Hr m -> Hz c c' fuel Hc Hc' Hf.
  destruct (C37_state_l ps rest Hr Hz c fuel Hc Hf) as (rows & E).
  destruct (C37_state_l ps rest Hr Hz c' fuel Hc' Hf) as (rows' & E').
  exists rows, rows', (gdc_run (filter gdc_pk ps)). split; [exact E|]. split; [exact E'|].
  apply (state_timestamp ps Hp).
Qed.
Lemma C37_agree_l ps rest : Forall packet_ok ps -> (length rest < 8)%nat ->
  forall m, m = flat_map packet_bytes ps ++ rest -> zlen m < 2 ^ 64 ->
  forall c c' fuel rows rows', (0 < c)%nat -> (0 < c')%nat -> (length m <= fuel)%nat ->
  gdc_process fuel true (Some m) (8 * Z.of_nat c) = Ok (Some rows) ->
  gdc_process fuel true (Some m) (8 * Z.of_nat c') = Ok (Some rows') ->
  forall r r', In r rows -> In r' rows' -> row_offset r = row_offset r' -> r = r'.
Proof.
  intros Hp Hr m Em Hz c c' fuel rows rows' Hc Hc' Hf E E' r r' I I' O.
  apply (run_due ps rest Hp Hr m Em Hz c fuel rows Hc Hf E) in I.
  apply (run_due ps rest Hp Hr m Em Hz c' fuel rows' Hc' Hf E') in I'.
  eapply due_agree; eassumption.
Qed.
Lemma C37_larger_l ps rest : Forall packet_ok ps -> (length rest < 8)%nat ->
  forall m, m = flat_map packet_bytes ps ++ rest -> zlen m < 2 ^ 64 ->
  forall c n fuel rows rows', (0 < c)%nat -> (0 < n)%nat -> (length m <= fuel)%nat ->
  gdc_process fuel true (Some m) (8 * Z.of_nat c) = Ok (Some rows) ->
  gdc_process fuel true (Some m) (8 * Z.of_nat (n * c)) = Ok (Some rows') ->
  incl rows rows'.
Proof.
  intros Hp Hr m Em Hz c n fuel rows rows' Hc Hn Hf E E' r I.
  apply (run_due ps rest Hp Hr m Em Hz c fuel rows Hc Hf E) in I.
  apply (run_due ps rest Hp Hr m Em Hz (n * c) fuel rows' ltac:(nia) Hf E').
  apply due_multiple; assumption.
Qed.
Lemma C37_lost_l ps rest : Forall packet_ok ps -> (length rest < 8)%nat ->
  forall m, m = flat_map packet_bytes ps ++ rest -> zlen m < 2 ^ 64 ->
  forall c c' fuel rows rows', (0 < c)%nat -> (0 < c')%nat -> (length ps <= c')%nat -> (length m <= fuel)%nat ->
  gdc_process fuel true (Some m) (8 * Z.of_nat c) = Ok (Some rows) ->
  gdc_process fuel true (Some m) (8 * Z.of_nat c') = Ok (Some rows') ->
  forall r, In r rows <-> In r rows' /\
    exists k j h, row_offset r = 8 * Z.of_nat k /\ (k / c * c <= j < k)%nat /\
      nth_error ps j = Some h /\ tpx3_header h.
Proof.
  intros Hp Hr m Em Hz c c' fuel rows rows' Hc Hc' Hl Hf E E' r.
  rewrite (run_due ps rest Hp Hr m Em Hz c fuel rows Hc Hf E r).
  rewrite (run_due ps rest Hp Hr m Em Hz c' fuel rows' Hc' Hf E' r).
  apply due_whole; assumption.
Qed.

Lemma C49_refused_l stoull e args :
  (exists o, parse_gdc_arguments stoull e args = Ok o) \/ parse_gdc_arguments stoull e args = Throw RuntimeError.
Proof.
  unfold parse_gdc_arguments. generalize default_gdc_options. induction args as [|a args IH]; intros o.
  - cbn [ofold obind]. repeat match goal with |- context [if ?b then _ else _] => destruct b end;
      (left; eexists; reflexivity) || (right; reflexivity).
  - cbn [ofold]. destruct (parse_gdc_arg stoull o a) as [o'|x|u|] eqn:E.
    + exact (IH o').
    + right. unfold parse_gdc_arg in E. destruct a; try discriminate E; [destruct (stoull s); try discriminate E|];
        injection E as <-; reflexivity.
    + unfold parse_gdc_arg in E. destruct a; try discriminate E. destruct (stoull s); discriminate E.
    + unfold parse_gdc_arg in E. destruct a; try discriminate E. destruct (stoull s); discriminate E.
Qed.
