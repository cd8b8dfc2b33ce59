(** Proofs about benchmark.sh. *)
From Coq Require Import Lia ZifyBool Ascii DecimalString DecimalPos DecimalZ Permutation.
From Verif Require Import S_BenchSh P_Mmap.
Local Open Scope string_scope.
Local Open Scope Z_scope.
Local Open Scope list_scope.

(** * Strings *)

Lemma app_cancel_l (a b c : string) : (a ++ b = a ++ c)%string -> b = c.
Proof. induction a as [|x a IH]; cbn; [exact (fun H => H)|]. intros H. injection H as H. exact (IH H). Qed.
Lemma app_suffix (x y : string) : forall a b, (a ++ x = b ++ y)%string -> (String.length x <= String.length y)%nat ->
  exists z, y = (z ++ x)%string.
Proof.
  induction a as [|c a IH]; intros b E L.
  - cbn in E. exists "". cbn. destruct b as [|c b]; [cbn in E; congruence|]. exfalso.
    apply (f_equal String.length) in E. cbn in E. rewrite length_app in E. lia.
  - destruct b as [|c' b].
    + cbn in E. exists (String c a). cbn. congruence.
    + cbn in E. injection E as _ E. exact (IH b E L).
Qed.
Lemma app_cancel_r (a b c : string) : (a ++ c = b ++ c)%string -> a = b.
Proof.
  revert b. induction a as [|x a IH]; intros b E.
  - destruct b as [|y b]; [reflexivity|]. apply (f_equal String.length) in E. cbn in E. rewrite length_app in E. lia.
  - destruct b as [|y b].
    + apply (f_equal String.length) in E. cbn in E. rewrite length_app in E. lia.
    + cbn in E. injection E as -> E. f_equal. exact (IH b E).
Qed.

Lemma dec_inj a b : dec a = dec b -> a = b.
Proof.
  unfold dec. intros E.
  assert (N : forall z, Z.to_int z <> Decimal.Pos Decimal.Nil /\ Z.to_int z <> Decimal.Neg Decimal.Nil).
  { intros z. destruct z; cbn; split; try discriminate; intros H; injection H as H;
      apply (Unsigned.to_uint_nonnil _ H). }
  apply (f_equal NilZero.int_of_string) in E.
  rewrite !NilZero.isi in E by apply N. injection E as E.
  apply (f_equal Z.of_int) in E. rewrite !DecimalZ.of_to in E. exact E.
Qed.

Definition flat (s : string) : Prop := split_path s = None.
Lemma flat_cons c s : c <> "/"%char -> flat s -> flat (String c s).
Proof.
  unfold flat. intros N H. cbn. rewrite H. destruct (Ascii.eqb c "/") eqn:E; [|reflexivity].
  apply Ascii.eqb_eq in E. contradiction.
Qed.
Lemma flat_app a b : flat a -> flat b -> flat (a ++ b).
Proof.
  unfold flat. induction a as [|c a IH]; intros A B; [exact B|]. cbn in A |- *.
  destruct (split_path a) as [[x y]|] eqn:E; [discriminate A|].
  rewrite (IH eq_refl B). destruct (Ascii.eqb c "/"); [discriminate A|reflexivity].
Qed.
Lemma split_app a b : flat b -> split_path (a ++ String "/" b) = Some (a, b).
Proof.
  intros H. induction a as [|c a IH].
  - cbn. rewrite H. reflexivity.
  - cbn. rewrite IH. reflexivity.
Qed.
Lemma flat_uint d : flat (NilEmpty.string_of_uint d).
Proof. induction d; cbn; try (apply flat_cons; [discriminate|assumption]). reflexivity. Qed.
Lemma flat_dec n : flat (dec (Z.of_nat n)).
Proof.
  unfold dec, NilZero.string_of_int. destruct (Z.to_int (Z.of_nat n)) as [u|u] eqn:E.
  - unfold NilZero.string_of_uint. destruct u; try apply flat_uint. reflexivity.
  - destruct n; cbn in E; discriminate E.
Qed.

Lemma flat_word k : flat (label_word k).
Proof.
  destruct k as [|m c i]; [reflexivity|]. unfold label_word. apply flat_app; [destruct m, c; reflexivity|].
  apply flat_cons; [discriminate|apply flat_dec].
Qed.
Lemma flat_ext e : known_ext e -> flat e.
Proof. intros [->|[->| ->]]; reflexivity. Qed.

Lemma out_name_split e k : known_ext e -> split_path (out_name e k) =
  Some (result_dir, (data_name ++ "." ++ label_word k ++ "." ++ e)%string).
Proof.
  intros K. unfold out_name. apply split_app.
  repeat (apply flat_app; [first [reflexivity|apply flat_word]|]). apply flat_ext, K.
Qed.
Lemma out_name_dir e k : known_ext e -> dirname (out_name e k) = result_dir.
Proof. intros K. unfold dirname. rewrite out_name_split by exact K. reflexivity. Qed.
Lemma base_of_dir : basename result_dir = data_name.
Proof. vm_compute. reflexivity. Qed.

Lemma word_inj k k' : label_word k = label_word k' -> k = k'.
Proof.
  destruct k as [|m c i], k' as [|m' c' i']; try reflexivity;
    try (destruct m, c; cbn; discriminate); try (destruct m', c'; cbn; discriminate).
  intros E. assert (X : m = m' /\ c = c') by (destruct m, c, m', c'; cbn in E; (discriminate E || (split; reflexivity))).
  destruct X as [-> ->]. cbn [label_word] in E. apply app_cancel_l in E. apply app_cancel_l in E.
  apply dec_inj in E. f_equal. lia.
Qed.
Lemma out_name_inj e k k' : out_name e k = out_name e k' -> k = k'.
Proof.
  unfold out_name. intros E. do 4 apply app_cancel_l in E. apply app_cancel_r in E. exact (word_inj k k' E).
Qed.
Lemma out_name_result e k : result_file e (out_name e k).
Proof.
  exists (data_name ++ "/" ++ data_name ++ "." ++ label_word k)%string. unfold out_name, result_dir.
  rewrite !sapp_assoc. reflexivity.
Qed.
Lemma out_name_ends e k : ends (out_name e k) ("." ++ e).
Proof.
  exists (result_dir ++ "/" ++ data_name ++ "." ++ label_word k)%string. unfold out_name.
  rewrite !sapp_assoc. reflexivity.
Qed.
Lemma ends_ext s e w : known_ext w -> ends s ("." ++ e) -> ends s ("." ++ w) -> ends ("." ++ e) ("." ++ w).
Proof.
  intros K [a A] [b B]. rewrite A in B.
  destruct (Nat.le_ge_cases (String.length ("." ++ w)) (String.length ("." ++ e))) as [L|L].
  - destruct (app_suffix _ _ _ _ (eq_sym B) L) as [z Z]. exists z. exact Z.
  - destruct (app_suffix _ _ _ _ B L) as [z Z]. destruct z as [|c z]; [exists ""; exact (eq_sym Z)|]. exfalso.
    destruct K as [->|[->| ->]]; cbn in Z; injection Z as _ Z;
      repeat (destruct z as [|? z]; cbn in Z; [discriminate Z|injection Z as _ Z]); destruct z; discriminate Z.
Qed.

(** * Runs *)

Definition opts_of (k : label) : mopts :=
  match k with Base => MOpts false false true 0 | Try m c _ => MOpts c m true 0 end.
Lemma label_options k : mmap_options (Some (label_opts k)) = opts_of k.
Proof. destruct k as [|m c i]; [reflexivity|]. destruct m, c; reflexivity. Qed.

Definition maps (k : label) : bool := match k with Base => false | Try m _ _ => m end.
Definition skips (rw : bool) (k : label) : bool := maps k && negb rw.
(** The effect of a run on the disk: [wr] gives the new file. *)
Definition effect (W : option (option mfile -> mfile)) (sk : bool) (name : string) (d : mdisk) : mdisk :=
  match W with Some wr => if sk then d else mput d name (wr (d name)) | None => d end.

(** The kinds of files. *)
Lemma ends_only out c q c' q' : ends out (String c q) -> final_char c q <> final_char c' q' -> endsWith out (String c' q') = false.
Proof.
  intros [b Eb] L. destruct (endsWith out (String c' q')) eqn:E; [|reflexivity]. apply endsWith_spec in E.
  destruct E as [a ->]. exfalso. apply L. apply (f_equal (final_char "x"%char)) in Eb. rewrite !final_char_app in Eb. congruence.
Qed.
Definition writes (e : string) (wr : option mfile -> mfile) : Prop :=
  (e = "csv" -> exists t, (forall x, wr x = match x with None => MFile None t | Some f => MFile (mf_h5 f) (mf_text f ++ t) end) /\ t <> "") /\
  (e <> "csv" -> exists f, forall x, wr x = f).
Lemma output_effect e show evs : known_ext e ->
  (exists u, forall opens d out, ends out ("." ++ e) -> opens out = true -> mmap_output show opens d out evs = UB u) \/
  exists W, (forall wr, W = Some wr -> writes e wr) /\
    forall opens d out, ends out ("." ++ e) -> opens out = true ->
      mmap_output show opens d out evs = Ok (true, effect W false out d).
Proof.
  intros K. unfold mmap_output. set (v := map gathered (concat evs)).
  destruct v as [|x v'] eqn:Ev.
  { right. exists None. split; [discriminate|]. intros opens d out _ _. cbn.
    destruct (endsWith out ".csv"); [reflexivity|]. destruct (endsWith out ".bin"); [reflexivity|].
    destruct (endsWith out ".h5"); reflexivity. }
  rewrite <- Ev. assert (NE : v <> []) by (rewrite Ev; discriminate). clearbody v. clear x v' Ev.
  destruct K as [->|[->| ->]].
  - right. set (t := (csv_header ++ joined (map (csv_line show) v))%string).
    exists (Some (fun x => match x with None => MFile None t | Some f => MFile (mf_h5 f) (mf_text f ++ t) end)).
    split.
    { intros wr E. injection E as <-. split; [|intros C; exfalso; apply C; reflexivity]. intros _. exists t. split; [reflexivity|discriminate]. }
    intros opens d out En O. cbn [String.append] in En. rewrite (proj2 (endsWith_spec _ _) En). unfold save_csv.
    destruct v as [|a v]; [contradiction|]. rewrite O. cbn [effect]. destruct (d out) as [f|]; reflexivity.
  - assert (E : forall out, ends out ".bin" -> endsWith out ".csv" = false).
    { intros out En. apply (ends_only _ _ _ _ _ En). discriminate. }
    destruct (bin_text v) as [t| |u|] eqn:Eb.
    + right. exists (Some (fun _ => MFile None t)). split.
      { intros wr W. injection W as <-. split; [discriminate|]. intros _. exists (MFile None t). reflexivity. }
      intros opens d out En O. cbn [String.append] in En. rewrite (E out En), (proj2 (endsWith_spec _ _) En). unfold save_bin.
      destruct v as [|a v]; [contradiction|]. rewrite O, Eb. reflexivity.
    + exfalso. revert Eb. clear. revert e. induction v as [|a v IH]; intros e H; [discriminate H|]. cbn in H.
      destruct (bin_event a) as [s| | |] eqn:B; cbn in H; try discriminate H.
      * destruct (bin_text v) as [t|x| |]; cbn in H; try discriminate H. exact (IH x eq_refl).
      * unfold bin_event in B. repeat destruct (_ : option Z); discriminate B.
    + left. exists u. intros opens d out En O. cbn [String.append] in En. rewrite (E out En), (proj2 (endsWith_spec _ _) En). unfold save_bin.
      destruct v as [|a v]; [contradiction|]. rewrite O, Eb. reflexivity.
    + exfalso. revert Eb. clear. induction v as [|a v IH]; intros H; [discriminate H|]. cbn in H.
      destruct (bin_event a) as [s| | |] eqn:B; cbn in H; try discriminate H.
      * destruct (bin_text v) as [t| | |]; cbn in H; try discriminate H. exact (IH eq_refl).
      * unfold bin_event in B. repeat destruct (_ : option Z); discriminate B.
  - right. exists (Some (fun _ => MFile (Some [("neutrons", mmap_columns v)]) "")). split.
    { intros wr W. injection W as <-. split; [discriminate|]. intros _. eexists. reflexivity. }
    intros opens d out En O. cbn [String.append] in En. 
    rewrite (ends_only out _ _ "."%char "csv" En) by discriminate.
    rewrite (ends_only out _ _ "."%char "bin" En) by discriminate.
    rewrite (proj2 (endsWith_spec _ _) En). unfold save_h5.
    destruct v as [|a v]; [contradiction|]. rewrite O. reflexivity.
Qed.

Definition writable (input : string -> option (list Z * bool)) : bool :=
  match input data_file with Some (_, b) => b | None => true end.
Definition stuck {A} (o : outcome A) : Prop := (exists u, o = UB u) \/ o = OutOfFuel.

Lemma app_effect e fuel ext show opens env input : known_ext e -> (forall k, opens (out_name e k) = true) ->
  (forall p, (forall k, covers (p k)) -> forall d, stuck (bench_run (bench_app fuel ext show opens env p input) e Base d)) \/
  exists W, (forall wr, W = Some wr -> writes e wr) /\ (input data_file = None -> W = None) /\
    forall p, (forall k, covers (p k)) -> forall k d,
      bench_run (bench_app fuel ext show opens env p input) e k d = Ok (effect W (skips (writable input) k) (out_name e k) d).
Proof.
  intros K O. unfold bench_run, bench_app, mmap_main, writable. cbn [nth_error].
  destruct (input data_file) as [[m rw]|].
  2: { right. exists None. split; [discriminate|]. split; [reflexivity|]. reflexivity. }
  set (L := mmap_loop fuel ext (opts_of Base) (max_batch_len env) (fun _ n => Leaf n) m 0 0 ms_new).
  assert (EL : forall p, (forall k, covers (p k)) -> forall k,
     mmap_loop fuel ext (mmap_options (Some (label_opts k))) (max_batch_len env) (p k) m 0 0 ms_new = L).
  { intros p P k. unfold L. apply loop_threads.
    - rewrite label_options. destruct k; reflexivity.
    - rewrite label_options. destruct k; reflexivity.
    - apply P.
    - intros i n. reflexivity. }
  assert (EM : forall k, mo_mmap (mmap_options (Some (label_opts k))) = maps k).
  { intros k. rewrite label_options. destruct k; reflexivity. }
  clearbody L. destruct L as [st|x|u|] eqn:EqL.
  - destruct (ms_nevents st >? 0) eqn:N.
    + destruct (output_effect e show (ms_events st) K) as [[u U]|(W & WW & U)].
      * left. intros p P d. left. exists u. rewrite EM. cbn [maps andb]. rewrite (EL p P). cbn [obind]. rewrite N.
        rewrite U by (apply out_name_ends || apply O). reflexivity.
      * right. exists W. split; [exact WW|]. split; [discriminate|]. intros p P k d. rewrite EM. unfold skips.
        destruct (maps k && negb rw); [destruct W; reflexivity|]. rewrite (EL p P). cbn [obind]. rewrite N.
        rewrite U by (apply out_name_ends || apply O). reflexivity.
    + right. exists None. split; [discriminate|]. split; [reflexivity|]. intros p P k d. rewrite EM.
      destruct (maps k && negb rw); [reflexivity|]. rewrite (EL p P). cbn [obind]. rewrite N. reflexivity.
  - right. exists None. split; [discriminate|]. split; [reflexivity|]. intros p P k d. rewrite EM.
    destruct (maps k && negb rw); [reflexivity|]. rewrite (EL p P). reflexivity.
  - left. intros p P d. left. exists u. rewrite EM. cbn [maps andb]. rewrite (EL p P). reflexivity.
  - left. intros p P d. right. rewrite EM. cbn [maps andb]. rewrite (EL p P). reflexivity.
Qed.

Lemma runs_effect (app : label -> list string -> mdisk -> outcome mresult) e W rw ks :
  (forall k d, bench_run app e k d = Ok (effect W (skips rw k) (out_name e k) d)) -> NoDup ks ->
  forall d, exists d', bench_runs app e ks d = Ok d' /\ (W = None -> d' = d) /\
    (forall wr k, W = Some wr -> In k ks -> skips rw k = false -> d' (out_name e k) = Some (wr (d (out_name e k)))) /\
    (forall n, (forall k, In k ks -> skips rw k = false -> n <> out_name e k) -> d' n = d n).
Proof.
  intros H. induction ks as [|k ks IH]; intros ND d.
  - exists d. split; [reflexivity|]. split; [reflexivity|]. split; [intros ? ? _ []|reflexivity].
  - inversion ND as [|? ? N1 N2]; subst. cbn [bench_runs]. rewrite H. cbn [obind].
    destruct (IH N2 (effect W (skips rw k) (out_name e k) d)) as (d' & E & A & B & C).
    exists d'. split; [exact E|]. split.
    { intros ->. rewrite (A eq_refl). reflexivity. }
    assert (Oth : forall n, (skips rw k = false -> n <> out_name e k) -> effect W (skips rw k) (out_name e k) d n = d n).
    { intros n Q. unfold effect. destruct W as [wr|]; [|reflexivity]. destruct (skips rw k); [reflexivity|].
      unfold mput. destruct (String.eqb n (out_name e k)) eqn:X; [|reflexivity]. apply String.eqb_eq in X.
      exfalso. exact (Q eq_refl X). }
    split.
    + intros wr k' Hw [->|I] S.
      * rewrite C.
        { unfold effect. rewrite Hw, S. unfold mput. rewrite String.eqb_refl. reflexivity. }
        intros k2 I2 _ X. apply out_name_inj in X. subst k2. contradiction.
      * rewrite (B wr k' Hw I S). rewrite Oth; [reflexivity|]. intros _ X. apply out_name_inj in X. subst k'. contradiction.
    + intros n Q. rewrite C by (intros k' I S; apply Q; [right; exact I|exact S]).
      apply Oth. intros S. apply Q; [left; reflexivity|exact S].
Qed.

(** * The lists of runs *)

Definition done (rw : bool) (n : nat) : list label := filter (fun k => negb (skips rw k)) (labels n).
Lemma labels_nodup n : NoDup (labels n).
Proof.
  unfold labels. constructor.
  { intros I. apply in_flat_map in I. destruct I as (m & _ & I). apply in_flat_map in I. destruct I as (c & _ & I).
    apply in_map_iff in I. destruct I as (i & E & _). discriminate E. }
  cbn [flat_map]. rewrite !app_nil_r.
  assert (S : forall m c, NoDup (map (Try m c) (seq 1 n))).
  { intros m c. apply FinFun.Injective_map_NoDup; [intros a b E; injection E as E; exact E|apply seq_NoDup]. }
  assert (A : forall (a b : list label), NoDup a -> NoDup b -> (forall x, In x a -> In x b -> False) -> NoDup (a ++ b)).
  { induction a as [|x a IH]; intros b Na Nb D; [exact Nb|]. inversion Na; subst. cbn. constructor.
    - intros I. apply in_app_or in I. destruct I as [I|I]; [contradiction|]. exact (D x (or_introl eq_refl) I).
    - apply IH; try assumption. intros y I J. exact (D y (or_intror I) J). }
  assert (D : forall m c m' c' x, In x (map (Try m c) (seq 1 n)) -> In x (map (Try m' c') (seq 1 n)) -> m = m' /\ c = c').
  { intros m c m' c' x I J. apply in_map_iff in I, J. destruct I as (i & <- & _), J as (j & E & _). injection E as -> -> _.
    split; reflexivity. }
  repeat apply A; try apply S; intros x I J; repeat (apply in_app_or in I; destruct I as [I|I]);
    repeat (apply in_app_or in J; destruct J as [J|J]); destruct (D _ _ _ _ _ I J); discriminate.
Qed.
Lemma in_labels n k : In k (labels n) <-> match k with Base => True | Try _ _ i => (1 <= i <= n)%nat end.
Proof.
  unfold labels. destruct k as [|m c i]; [split; [trivial|left; reflexivity]|].
  split.
  - intros [E|I]; [discriminate E|]. apply in_flat_map in I. destruct I as (m' & _ & I). apply in_flat_map in I.
    destruct I as (c' & _ & I). apply in_map_iff in I. destruct I as (j & E & I). injection E as _ _ ->. apply in_seq in I. lia.
  - intros B. right. apply in_flat_map. exists m. split; [destruct m; cbn; tauto|]. apply in_flat_map.
    exists c. split; [destruct c; cbn; tauto|]. apply in_map, in_seq. lia.
Qed.
Lemma in_done rw n k : In k (done rw n) <-> made rw n k.
Proof.
  unfold done. rewrite filter_In, in_labels. unfold skips, made. destruct k as [|m c i]; cbn [maps]; [tauto|].
  destruct m, rw; cbn; intuition discriminate.
Qed.
Lemma done_nodup rw n : NoDup (done rw n).
Proof. apply NoDup_filter, labels_nodup. Qed.

(** The tries after the first [a]. *)
Lemma seq_after a : forall n s, length (filter (fun i => (a <? i)%nat) (seq s n)) = (Nat.min n (s + n - S a))%nat.
Proof.
  induction n as [|n IH]; intros s; [reflexivity|]. cbn [seq filter].
  destruct (Nat.ltb_spec a s) as [L|L]; cbn [length]; rewrite IH; lia.
Qed.
Definition later (a : nat) (k : label) : bool := match k with Base => false | Try _ _ i => (a <? i)%nat end.
Lemma filter_map_len {A B} (f : B -> bool) (g : A -> B) l : length (filter f (map g l)) = length (filter (fun x => f (g x)) l).
Proof. induction l as [|x l IH]; [reflexivity|]. cbn. destruct (f (g x)); cbn; rewrite IH; reflexivity. Qed.
Lemma filter_filter_map {A B} (f h : B -> bool) (g : A -> B) l :
  filter f (filter h (map g l)) = map g (filter (fun x => h (g x) && f (g x)) l).
Proof.
  induction l as [|x l IH]; [reflexivity|]. cbn. destruct (h (g x)); cbn; [|exact IH]. destruct (f (g x)); cbn; rewrite IH; reflexivity.
Qed.
Lemma done_split rw n : done rw n = Base :: (if rw then map (Try false true) (seq 1 n) ++ map (Try false false) (seq 1 n) ++
     map (Try true true) (seq 1 n) ++ map (Try true false) (seq 1 n)
   else map (Try false true) (seq 1 n) ++ map (Try false false) (seq 1 n)).
Proof.
  assert (All : forall m c l, m && negb rw = false -> filter (fun k => negb (skips rw k)) (map (Try m c) l) = map (Try m c) l).
  { intros m c l E. induction l as [|i l IH]; [reflexivity|]. cbn. unfold skips at 1. cbn [maps]. rewrite E. cbn. rewrite IH. reflexivity. }
  assert (No : forall c l, rw = false -> filter (fun k => negb (skips rw k)) (map (Try true c) l) = []).
  { intros c l E. induction l as [|i l IH]; [reflexivity|]. cbn. unfold skips at 1. cbn [maps]. rewrite E at 1. cbn. exact IH. }
  unfold done, labels. cbn [flat_map]. rewrite !app_nil_r. cbn [filter skips maps andb negb].
  f_equal. rewrite !filter_app. destruct rw.
  - rewrite !All by reflexivity. rewrite !app_assoc. reflexivity.
  - rewrite !(All false) by reflexivity. rewrite !No by reflexivity. rewrite !app_nil_r. reflexivity.
Qed.
Lemma done_later rw n a : zlen (filter (later a) (done rw n)) = configs rw * Z.max 0 (Z.of_nat n - Z.of_nat a).
Proof.
  rewrite done_split. unfold zlen. cbn [filter later].
  assert (X : forall m c, length (filter (later a) (map (Try m c) (seq 1 n))) = (n - a)%nat).
  { intros m c. rewrite filter_map_len. cbn [later]. rewrite seq_after. lia. }
  destruct rw; rewrite ?filter_app, ?app_length, ?X; cbn [configs]; lia.
Qed.
Lemma done_length rw n : zlen (done rw n) = 1 + configs rw * Z.of_nat n.
Proof.
  rewrite done_split. unfold zlen. cbn [length]. destruct rw; rewrite ?app_length, ?map_length, ?seq_length; cbn [configs]; lia.
Qed.

(** * The comparison *)

Lemma compare_counts same e d g l : forall a b,
  (forall f, In f l -> d (dirname f ++ "/" ++ basename (dirname f) ++ ".verify." ++ e)%string = Some g) ->
  compare_all same e d l a b =
  (a + zlen (filter (fun f => negb match d f with Some h => same g h | None => false end) l), b + zlen l).
Proof.
  unfold zlen. induction l as [|f l IH]; intros a b H.
  - cbn. f_equal; lia.
  - cbn [compare_all]. rewrite (H f) by (left; reflexivity). rewrite IH by (intros x I; apply H; right; exact I).
    cbn [filter length]. destruct (match d f with Some h => same g h | None => false end); cbn [negb length]; f_equal; lia.
Qed.
Lemma filter_perm {A} (f : A -> bool) l l' : Permutation l l' -> length (filter f l) = length (filter f l').
Proof.
  intros P. induction P as [|x l l' P IH|x y l|a b c P1 I1 P2 I2]; cbn; try (destruct (f x)); try (destruct (f y)); cbn; congruence.
Qed.
Lemma filter_same {A} (f g : A -> bool) l : (forall x, In x l -> f x = g x) -> filter f l = filter g l.
Proof.
  intros H. induction l as [|x l IH]; [reflexivity|]. cbn. rewrite (H x) by (left; reflexivity).
  rewrite IH by (intros y I; apply H; right; exact I). reflexivity.
Qed.

Lemma verdict_eq same e d l ks cont : known_ext e -> NoDup ks -> In Base ks ->
  (forall k, In k ks -> d (out_name e k) = Some (cont k)) ->
  (forall n, result_file e n -> d n <> None -> exists k, In k ks /\ n = out_name e k) ->
  lists e d l ->
  compare_all same e d l 0 0 = (zlen (filter (fun k => negb (same (cont Base) (cont k))) ks), zlen ks).
Proof.
  intros K ND IB C O [NL L].
  assert (P : Permutation l (map (out_name e) ks)).
  { apply NoDup_Permutation; [exact NL| |].
    - apply FinFun.Injective_map_NoDup; [intros a b; apply out_name_inj|exact ND].
    - intros n. rewrite L, in_map_iff. split.
      + intros [R N]. destruct (O n R N) as (k & I & E). exists k. split; [symmetry; exact E|exact I].
      + intros (k & <- & I). split; [apply out_name_result|]. rewrite (C k I). discriminate. }
  rewrite (compare_counts same e d (cont Base)).
  - f_equal; rewrite ?Z.add_0_l; unfold zlen; f_equal.
    + rewrite (filter_perm _ _ _ P), filter_map_len. f_equal. apply filter_same. intros k I. rewrite (C k I). reflexivity.
    + rewrite (Permutation_length P). apply map_length.
  - intros f I. apply (Permutation_in _ P), in_map_iff in I. destruct I as (k & <- & I).
    rewrite out_name_dir by exact K. rewrite base_of_dir. exact (C Base IB).
Qed.

(** * The script *)

Section Script.
Variables (fuel : nat) (ext : externals) (show : f64 -> string) (opens : string -> bool) (env : option Z)
  (input : string -> option (list Z * bool)) (e : string).
Let rw := writable input.
Hypothesis K : known_ext e.
Hypothesis O : forall k, opens (out_name e k) = true.

Lemma runs_ok p n d d' : (forall k, covers (p k)) ->
  bench_runs (bench_app fuel ext show opens env p input) e (labels n) d = Ok d' ->
  exists W, (forall wr, W = Some wr -> writes e wr) /\ (input data_file = None -> W = None) /\
    forall p, (forall k, covers (p k)) -> forall k d,
      bench_run (bench_app fuel ext show opens env p input) e k d = Ok (effect W (skips rw k) (out_name e k) d).
Proof.
  intros P H. destruct (app_effect e fuel ext show opens env input K O) as [S|X]; [|exact X]. exfalso.
  unfold labels in H. cbn [bench_runs] in H. destruct (S p P d) as [[u U]|U]; rewrite U in H; discriminate H.
Qed.

Lemma runs_result p n d d' W : (forall k, covers (p k)) ->
  (forall p, (forall k, covers (p k)) -> forall k d,
      bench_run (bench_app fuel ext show opens env p input) e k d = Ok (effect W (skips rw k) (out_name e k) d)) ->
  bench_runs (bench_app fuel ext show opens env p input) e (labels n) d = Ok d' ->
  (W = None -> d' = d) /\
  (forall wr k, W = Some wr -> made rw n k -> d' (out_name e k) = Some (wr (d (out_name e k)))) /\
  (forall x, (forall k, made rw n k -> x <> out_name e k) -> d' x = d x).
Proof.
  intros P H E. destruct (runs_effect _ e W rw (labels n) (H p P) (labels_nodup n) d) as (d2 & E2 & A & B & C).
  rewrite E2 in E. apply Ok_inj in E. subst d2. split; [exact A|]. split.
  - intros wr k Hw M. apply in_done, filter_In in M. destruct M as [I S]. apply B; [exact Hw|exact I|].
    destruct (skips rw k); [discriminate S|reflexivity].
  - intros x Q. apply C. intros k I S. apply Q. apply in_done. unfold done. apply filter_In. split; [exact I|]. rewrite S. reflexivity.
Qed.
End Script.

Lemma verdict_none same e d l : no_results e d -> lists e d l -> compare_all same e d l 0 0 = (0, 0).
Proof.
  intros N [_ L]. destruct l as [|f l]; [reflexivity|]. exfalso.
  destruct (proj1 (L f) (or_introl eq_refl)) as [R X]. exact (X (N f R)).
Qed.
Lemma verdict_all same f n rw ks (cont : label -> mfile) : (forall f, same f f = true) -> (forall k, In k ks -> cont k = f) ->
  In Base ks -> zlen ks = 1 + configs rw * Z.of_nat n ->
  verdict_of (zlen (filter (fun k => negb (same (cont Base) (cont k))) ks), zlen ks) = AllMatched (1 + configs rw * Z.of_nat n).
Proof.
  intros R C IB L. rewrite (C Base IB).
  assert (X : filter (fun k => negb (same f (cont k))) ks = []).
  { clear L IB. induction ks as [|k ks IH]; [reflexivity|]. cbn. rewrite (C k) by (left; reflexivity). rewrite R. cbn.
    apply IH. intros k' I. apply C. right. exact I. }
  rewrite X, L. unfold verdict_of. assert (0 <= configs rw) by (destruct rw; cbn; lia).
  rewrite (proj2 (Z.eqb_neq _ 0)) by nia. reflexivity.
Qed.

Lemma C99_fresh_l fuel ext show opens env p input find same a1 a2 e n d v d' :
  bench_ext a1 = e -> bench_itr a2 = n -> known_ext e ->
  (forall k, covers (p k)) -> (forall k, opens (out_name e k) = true) -> (forall f, same f f = true) ->
  no_results e d -> lists e d' (find d' e) ->
  bench_sh (bench_app fuel ext show opens env p input) find same a1 a2 d = Ok (v, d') ->
  (v = NoFiles /\ d' = d) \/
  exists m rw f, input data_file = Some (m, rw) /\ v = AllMatched (1 + configs rw * Z.of_nat n) /\
    (forall k, made rw n k -> d' (out_name e k) = Some f) /\
    (forall x, (forall k, made rw n k -> x <> out_name e k) -> d' x = d x).
Proof.
  intros E1 E2 K P O R N L H. unfold bench_sh in H. rewrite E1, E2 in H.
  destruct (bench_runs _ e (labels n) d) as [d1| | |] eqn:E; try discriminate H. cbn [obind] in H.
  apply Ok_inj in H. injection H as Hv Hd. subst d1.
  destruct (runs_ok _ _ _ _ _ _ _ K O _ _ _ _ P E) as (W & WW & WN & HW).
  destruct (runs_result _ _ _ _ _ _ _ _ _ _ _ _ P HW E) as (A & B & C).
  destruct W as [wr|].
  2: { left. rewrite (A eq_refl) in *. split; [|reflexivity]. subst v. rewrite verdict_none by assumption. reflexivity. }
  right. unfold writable in *. destruct (input data_file) as [[m rw]|]; [|discriminate (WN eq_refl)].
  exists m, rw, (wr None).
  assert (B' : forall k, made rw n k -> d' (out_name e k) = Some (wr None)).
  { intros k M. rewrite (B wr k eq_refl M). rewrite (N (out_name e k)) by apply out_name_result. reflexivity. }
  split; [reflexivity|]. split; [|split; [exact B'|exact C]].
  subst v. rewrite (verdict_eq same e d' _ (done rw n) (fun _ => wr None)).
  - exact (verdict_all same (wr None) n rw (done rw n) (fun _ => wr None) R (fun _ _ => eq_refl)
             (proj2 (in_done rw n Base) I) (done_length rw n)).
  - exact K.
  - apply done_nodup.
  - apply in_done. exact I.
  - intros k Ik. apply B', in_done, Ik.
  - intros x Rx Nx.
    assert (D : In x (map (out_name e) (done rw n)) \/ ~ In x (map (out_name e) (done rw n))).
    { destruct (in_dec string_dec x (map (out_name e) (done rw n))); [left|right]; assumption. }
    destruct D as [D|D].
    + apply in_map_iff in D. destruct D as (k & Ek & Ik). exists k. split; [exact Ik|symmetry; exact Ek].
    + exfalso. apply Nx. rewrite C; [apply N; exact Rx|]. intros k Mk Ek. apply D. subst x. apply in_map, in_done, Mk.
  - exact L.
Qed.

(** No input file, or an extension that the program does not know. *)
Lemma C99_nothing_l fuel ext show opens env p input find same a1 a2 e d v d' :
  bench_ext a1 = e ->
  input data_file = None \/ (forall w, known_ext w -> ~ ends ("." ++ e) ("." ++ w)) ->
  no_results e d -> lists e d' (find d' e) ->
  bench_sh (bench_app fuel ext show opens env p input) find same a1 a2 d = Ok (v, d') ->
  v = NoFiles /\ d' = d.
Proof.
  intros E1 Q N L H. unfold bench_sh in H. rewrite E1 in H.
  assert (X : forall k d d', bench_run (bench_app fuel ext show opens env p input) e k d = Ok d' -> d' = d).
  { clear H L N v d d'. intros k d d' H. unfold bench_run, bench_app, mmap_main in H. cbn [nth_error] in H.
    destruct Q as [Q|Q].
    - rewrite Q in H. apply Ok_inj in H. symmetry. exact H.
    - destruct (input data_file) as [[m rw]|]; [|apply Ok_inj in H; symmetry; exact H].
      destruct (_ && _); [apply Ok_inj in H; symmetry; exact H|].
      destruct (mmap_loop _ _ _ _ _ _ _ _ _) as [st| | |]; cbn [obind] in H; try discriminate H;
        [|apply Ok_inj in H; symmetry; exact H].
      destruct (ms_nevents st >? 0); [|apply Ok_inj in H; symmetry; exact H].
      assert (Z : forall w, known_ext w -> endsWith (out_name e k) ("." ++ w) = false).
      { intros w Kw. destruct (endsWith _ _) eqn:Ew; [|reflexivity]. apply endsWith_spec in Ew. exfalso.
        apply (Q w Kw). exact (ends_ext _ _ _ Kw (out_name_ends e k) Ew). }
      unfold mmap_output in H.
      rewrite (Z "csv" (or_introl eq_refl) : endsWith (out_name e k) ".csv" = false) in H.
      rewrite (Z "bin" (or_intror (or_introl eq_refl)) : endsWith (out_name e k) ".bin" = false) in H.
      rewrite (Z "h5" (or_intror (or_intror eq_refl)) : endsWith (out_name e k) ".h5" = false) in H.
      cbn [obind] in H. apply Ok_inj in H. symmetry. exact H. }
  assert (Y : forall ks d d', bench_runs (bench_app fuel ext show opens env p input) e ks d = Ok d' -> d' = d).
  { clear -X. induction ks as [|k ks IH]; intros d d' H; [apply Ok_inj in H; symmetry; exact H|].
    cbn [bench_runs] in H. destruct (bench_run _ e k d) as [d1| | |] eqn:E; try discriminate H. cbn [obind] in H.
    rewrite (IH d1 d' H). exact (X k d d1 E). }
  destruct (bench_runs _ e _ d) as [d1| | |] eqn:E; try discriminate H. cbn [obind] in H.
  apply Ok_inj in H. injection H as Hv Hd. subst d1. rewrite (Y _ _ _ E) in *. split; [|reflexivity].
  subst v. rewrite verdict_none by assumption. reflexivity.
Qed.

(** The script is run twice. *)
Lemma run_twice fuel ext show opens env p p' input find same a1 a2 a2' e n n' d v d1 v' d' :
  bench_ext a1 = e -> bench_itr a2 = n -> bench_itr a2' = n' -> known_ext e ->
  (forall k, covers (p k)) -> (forall k, covers (p' k)) -> (forall k, opens (out_name e k) = true) ->
  no_results e d -> lists e d' (find d' e) ->
  bench_sh (bench_app fuel ext show opens env p input) find same a1 a2 d = Ok (v, d1) ->
  bench_sh (bench_app fuel ext show opens env p' input) find same a1 a2' d1 = Ok (v', d') ->
  (v' = NoFiles /\ d' = d) \/
  exists wr m rw, writes e wr /\ input data_file = Some (m, rw) /\
    let cont k := if later (Nat.min n n') k then wr None else wr (Some (wr None)) in
    v' = verdict_of (zlen (filter (fun k => negb (same (cont Base) (cont k))) (done rw (Nat.max n n'))),
                     zlen (done rw (Nat.max n n'))).
Proof.
  intros E1 E2 E3 K P P' O N L H H'. unfold bench_sh in H, H'. rewrite E1, E2 in H. rewrite E1, E3 in H'.
  destruct (bench_runs _ e (labels n) d) as [x| | |] eqn:E; try discriminate H. cbn [obind] in H.
  apply Ok_inj in H. injection H as _ Hd. subst x.
  destruct (bench_runs _ e (labels n') d1) as [x| | |] eqn:E'; try discriminate H'. cbn [obind] in H'.
  apply Ok_inj in H'. injection H' as Hv Hd. subst x.
  destruct (runs_ok _ _ _ _ _ _ _ K O _ _ _ _ P E) as (W & WW & WN & HW).
  destruct (runs_result _ _ _ _ _ _ _ _ _ _ _ _ P HW E) as (A & B & C).
  destruct (runs_result _ _ _ _ _ _ _ _ _ _ _ _ P' HW E') as (A' & B' & C').
  destruct W as [wr|].
  2: { left. rewrite (A' eq_refl) in *. rewrite (A eq_refl) in *. split; [|reflexivity]. subst v'.
       rewrite verdict_none by assumption. reflexivity. }
  right. unfold writable in *. destruct (input data_file) as [[m rw]|]; [|discriminate (WN eq_refl)].
  exists wr, m, rw. split; [exact (WW wr eq_refl)|]. split; [reflexivity|].
  cbn zeta. set (cont := fun k => if later (Nat.min n n') k then wr None else wr (Some (wr None))). subst v'.
  change (verdict_of (compare_all same e d' (find d' e) 0 0) =
    verdict_of (zlen (filter (fun k => negb (same (cont Base) (cont k))) (done rw (Nat.max n n'))), zlen (done rw (Nat.max n n')))).
  f_equal.
  assert (F : forall k, made rw n k -> d1 (out_name e k) = Some (wr None)).
  { intros k M. rewrite (B wr k eq_refl M). rewrite (N (out_name e k)) by apply out_name_result. reflexivity. }
  assert (F0 : forall k, ~ made rw n k -> d1 (out_name e k) = None).
  { intros k M. rewrite C; [apply N, out_name_result|]. intros k' M' X. apply out_name_inj in X. subst k'. contradiction. }
  apply verdict_eq.
  - exact K.
  - apply done_nodup.
  - apply in_done. exact I.
  - intros k Ik. apply in_done in Ik. unfold cont.
    destruct (in_dec (fun a b : label => ltac:(decide equality; try apply Bool.bool_dec; apply Nat.eq_dec) : {a = b} + {a <> b}) k (done rw n)) as [D|D];
      destruct (in_dec (fun a b : label => ltac:(decide equality; try apply Bool.bool_dec; apply Nat.eq_dec) : {a = b} + {a <> b}) k (done rw n')) as [D'|D'];
      rewrite in_done in D, D'.
    + rewrite (B' wr k eq_refl D'), (F k D). destruct k as [|mm c i]; [reflexivity|]. cbn [later]. cbn in D, D'.
      destruct (Nat.ltb_spec (Nat.min n n') i); [lia|reflexivity].
    + rewrite C'. 2: { intros k' M' X. apply out_name_inj in X. subst k'. contradiction. }
      rewrite (F k D). destruct k as [|mm c i]; [cbn in D'; tauto|]. cbn [later]. cbn in D, D', Ik.
      destruct (Nat.ltb_spec (Nat.min n n') i); [reflexivity|]. exfalso. apply D'. split; [lia|tauto].
    + rewrite (B' wr k eq_refl D'), (F0 k D). destruct k as [|mm c i]; [cbn in D; tauto|]. cbn [later]. cbn in D, D', Ik.
      destruct (Nat.ltb_spec (Nat.min n n') i); [reflexivity|]. exfalso. apply D. split; [lia|tauto].
    + exfalso. destruct k as [|mm c i]; [apply D; exact I|]. cbn in D, D', Ik.
      destruct (Nat.le_ge_cases n n'); [apply D'|apply D]; split; try tauto; lia.
  - intros x Rx Nx.
    destruct (in_dec string_dec x (map (out_name e) (done rw (Nat.max n n')))) as [D|D].
    + apply in_map_iff in D. destruct D as (k & Ek & Ik). exists k. split; [exact Ik|symmetry; exact Ek].
    + exfalso. apply Nx.
      assert (Q : forall nn, (nn <= Nat.max n n')%nat -> forall k, made rw nn k -> x <> out_name e k).
      { intros nn Hn k Mk Ek. apply D. subst x. apply in_map, in_done. destruct k as [|mm c i]; [exact I|]. cbn in *. split; [lia|tauto]. }
      rewrite C' by (apply Q; lia). rewrite C by (apply Q; lia). apply N. exact Rx.
  - exact L.
Qed.

Lemma C99_again_l fuel ext show opens env p p' input find same a1 a2 a2' e n n' d v d1 v' d' :
  bench_ext a1 = e -> bench_itr a2 = n -> bench_itr a2' = n' -> e = "bin" \/ e = "h5" ->
  (forall k, covers (p k)) -> (forall k, covers (p' k)) -> (forall k, opens (out_name e k) = true) ->
  (forall f, same f f = true) ->
  no_results e d -> lists e d' (find d' e) ->
  bench_sh (bench_app fuel ext show opens env p input) find same a1 a2 d = Ok (v, d1) ->
  bench_sh (bench_app fuel ext show opens env p' input) find same a1 a2' d1 = Ok (v', d') ->
  (v' = NoFiles /\ d' = d) \/
  exists m rw, input data_file = Some (m, rw) /\ v' = AllMatched (1 + configs rw * Z.of_nat (Nat.max n n')).
Proof.
  intros E1 E2 E3 K P P' O R N L H H'.
  assert (K' : known_ext e) by (destruct K; unfold known_ext; tauto).
  destruct (run_twice _ _ _ _ _ _ _ _ _ _ _ _ _ _ _ _ _ _ _ _ _ E1 E2 E3 K' P P' O N L H H') as [X|(wr & m & rw & W & I & V)];
    [left; exact X|]. right. exists m, rw. split; [exact I|].
  destruct W as [_ W]. destruct W as [f F]; [destruct K as [->| ->]; discriminate|].
  rewrite V. refine (verdict_all same f (Nat.max n n') rw (done rw (Nat.max n n'))
    (fun k => if later (Nat.min n n') k then wr None else wr (Some (wr None))) R _
    (proj2 (in_done rw _ Base) Logic.I) (done_length rw _)).
  intros k _. cbn beta. destruct (later _ k); apply F.
Qed.

Lemma C99_csv_again_l fuel ext show opens env p p' input find same a1 a2 a2' n n' d v d1 v' d' :
  bench_ext a1 = "csv" -> bench_itr a2 = n -> bench_itr a2' = n' ->
  (forall k, covers (p k)) -> (forall k, covers (p' k)) -> (forall k, opens (out_name "csv" k) = true) ->
  tells_texts same ->
  no_results "csv" d -> lists "csv" d' (find d' "csv") ->
  bench_sh (bench_app fuel ext show opens env p input) find same a1 a2 d = Ok (v, d1) ->
  bench_sh (bench_app fuel ext show opens env p' input) find same a1 a2' d1 = Ok (v', d') ->
  (v' = NoFiles /\ d' = d) \/
  exists m rw, input data_file = Some (m, rw) /\
    let total := 1 + configs rw * Z.of_nat (Nat.max n n') in
    v' = if (n =? n')%nat then AllMatched total
         else Mismatched (configs rw * Z.abs (Z.of_nat n - Z.of_nat n')) total.
Proof.
  intros E1 E2 E3 P P' O R N L H H'.
  assert (K' : known_ext "csv") by (left; reflexivity).
  destruct (run_twice _ _ _ _ _ _ _ _ _ _ _ _ _ _ _ _ _ _ _ _ _ E1 E2 E3 K' P P' O N L H H') as [X|(wr & m & rw & W & I & V)];
    [left; exact X|]. right. exists m, rw. split; [exact I|]. intros total.
  destruct W as [W _]. destruct (W eq_refl) as (t & T & TN).
  assert (D : same (wr (Some (wr None))) (wr None) = false).
  { destruct (same _ _) eqn:S; [|reflexivity]. exfalso. rewrite !T in S. cbn in S. apply R in S.
    apply (f_equal String.length) in S. rewrite length_app in S. destruct t; [contradiction|cbn in S; lia]. }
  assert (F : filter (fun k => negb (same (wr (Some (wr None))) (if later (Nat.min n n') k then wr None else wr (Some (wr None)))))
                (done rw (Nat.max n n')) = filter (later (Nat.min n n')) (done rw (Nat.max n n'))).
  { apply filter_same. intros k _. destruct (later _ k); [rewrite D; reflexivity|]. rewrite !T. cbn [mf_h5 mf_text].
    rewrite (proj2 (R _ _) eq_refl). reflexivity. }
  rewrite V. cbn [later]. rewrite F, done_later, done_length. unfold verdict_of. fold total.
  assert (C : configs rw = 4 \/ configs rw = 2) by (destruct rw; [left|right]; reflexivity).
  assert (T0 : total <> 0) by (unfold total; nia). rewrite (proj2 (Z.eqb_neq _ _) T0).
  destruct (Nat.eqb_spec n n') as [->|Nn].
  - rewrite Nat.min_id, Nat.max_id. rewrite Z.sub_diag, Z.max_id, Z.mul_0_r. reflexivity.
  - assert (X : Z.max 0 (Z.of_nat (Nat.max n n') - Z.of_nat (Nat.min n n')) = Z.abs (Z.of_nat n - Z.of_nat n')) by lia.
    rewrite X. rewrite (proj2 (Z.eqb_neq _ 0)) by nia. reflexivity.
Qed.

(** * The events *)

Lemma neutrons_same ext cfg hss : forall nss nss', Forall2 (neutrons_of ext cfg) hss nss -> Forall2 (neutrons_of ext cfg) hss nss' -> nss = nss'.
Proof.
  intros nss nss' A. revert nss'. induction A as [|h ns hss nss (o & F & G) _ IH]; intros nss' B; inversion B as [|? x ? y (o' & F' & G') T]; subst; [reflexivity|].
  rewrite F in F'. apply Ok_inj in F'. subst o'. rewrite G in G'. apply Ok_inj in G'. subst x. f_equal. exact (IH y T).
Qed.

Lemma written_file show opens d out es e st d' : known_ext e -> ends out ("." ++ e) ->
  written show opens d out es st d' -> es <> [] -> opens out = true -> d' out <> None.
Proof.
  intros K En W N O. destruct W as [X|X Y Z|_ _ X|f d' _ _ _ X|f d' ls _ _ _ X|f d' _ _ _ X];
    try contradiction; try congruence.
  exfalso. destruct K as [->|[->| ->]]; [apply X|apply Y|apply Z]; exact En.
Qed.
Lemma written_none show opens d out st d' : written show opens d out [] st d' -> d' = d.
Proof. intros W. inversion W; congruence. Qed.

Lemma C99_events_l fuel ext show opens env p input find same a1 a2 e n rw ds hss nss d :
  bench_ext a1 = e -> bench_itr a2 = n -> known_ext e ->
  Forall dataset_ok ds -> Forall no_false_header ds -> input data_file = Some (stream ds, rw) ->
  2 <= max_batch_len env -> (forall k, covers (p k)) -> (length (stream ds) < fuel)%nat ->
  mmap_hits true ds hss -> Forall (fun h => h_spider h < 2 ^ 48) (concat hss) ->
  Forall2 (neutrons_of ext radius_5) hss nss ->
  (e = "bin" -> exists ls, Forall2 bin_numbers (concat nss) ls) ->
  (forall k, opens (out_name e k) = true) -> (forall f, same f f = true) -> no_results e d ->
  (forall v d', bench_sh (bench_app fuel ext show opens env p input) find same a1 a2 d = Ok (v, d') -> lists e d' (find d' e)) ->
  exists d', bench_sh (bench_app fuel ext show opens env p input) find same a1 a2 d =
               Ok (match concat nss with [] => NoFiles | _ => AllMatched (1 + configs rw * Z.of_nat n) end, d') /\
    forall k, made rw n k -> exists dk, written show opens d (out_name e k) (concat nss) 0 dk /\
                                        d' (out_name e k) = dk (out_name e k).
Proof.
  intros E1 E2 K Ho Hn Hi HL P HF Hh Hs Hns Hb O R N L.
  assert (He : forall v, env = Some v -> 0 <= v).
  { intros v ->. unfold max_batch_len in HL. destruct (v =? 0) eqn:V0; lia. }
  assert (AO : forall k o, asked_options (Some (label_opts k)) o -> mo_tgdc o = true).
  { intros k o (_ & _ & T & _). apply T. destruct k as [|m c i]; [exists "verify+", ""; reflexivity|].
    unfold label_opts, cfg_word. exists ((if m then "mmap" else "stream") ++ "+" ++ (if c then "tbb" else "verify") ++ "+")%string, "".
    rewrite !sapp_assoc. reflexivity. }
  (* every run comes to an end *)
  assert (Runs : forall k dd, exists r, mmap_main fuel ext show opens env (p k) input [data_file; out_name e k; label_opts k] dd = Ok r).
  { intros k dd. apply (C80_ends_l fuel ext show opens env (p k) input data_file [out_name e k; label_opts k] dd rw ds); try assumption; [apply P| |].
    - cbn [nth_error]. intros o h2 A M. rewrite (AO k o A) in M. rewrite (mmap_hits_unique _ _ _ _ M Hh). exact Hs.
    - cbn [nth_error]. intros out X. injection X as <-. split; [intros _; apply O|]. intros En _ o h2 n2 A M F.
      rewrite (AO k o A) in M. rewrite (mmap_hits_unique _ _ _ _ M Hh) in F.
      rewrite (neutrons_same _ _ _ _ _ F Hns). apply Hb.
      pose proof (out_name_ends e k) as Q. clear - K En Q. destruct K as [->|[->| ->]]; [exfalso|reflexivity|exfalso].
      + apply endsWith_spec in En. rewrite (ends_only _ _ _ _ _ Q) in En; discriminate.
      + apply endsWith_spec in En. rewrite (ends_only _ _ _ _ _ Q) in En; discriminate. }
  destruct (app_effect e fuel ext show opens env input K O) as [S|(W & WW & WN & HW)].
  { exfalso. specialize (S p P d). unfold bench_run, bench_app in S. destruct (Runs Base d) as [r Er]. rewrite Er in S.
    destruct S as [[u U]|U]; discriminate U. }
  destruct (runs_effect _ e W (writable input) (labels n) (HW p P) (labels_nodup n) d) as (d' & E & _).
  assert (Wr : writable input = rw) by (unfold writable; rewrite Hi; reflexivity).
  destruct (runs_result _ _ _ _ _ _ _ _ _ _ _ _ P HW E) as (A & B & C). rewrite Wr in *.
  assert (HB : bench_sh (bench_app fuel ext show opens env p input) find same a1 a2 d =
     Ok (verdict_of (compare_all same e d' (find d' e) 0 0), d')).
  { unfold bench_sh. rewrite E1, E2, E. reflexivity. }
  (* what each run writes *)
  assert (Wk : forall k, made rw n k -> exists r, bench_run (bench_app fuel ext show opens env p input) e k d = Ok (mr_disk r) /\
     written show opens d (out_name e k) (concat nss) 0 (mr_disk r)).
  { intros k M. destruct (Runs k d) as [r Er]. exists r. split; [unfold bench_run, bench_app; rewrite Er; reflexivity|].
    destruct (mr_report r) as [rep|] eqn:Rp.
    - destruct (C80_run_l fuel ext show opens env (p k) input data_file _ d rw ds r rep Ho Hn Hi He (P k) Er Rp)
        as (o & h2 & n2 & A2 & M2 & F2 & _ & _ & _ & _ & _ & _ & Wt).
      cbn [nth_error] in A2. rewrite (AO k o A2) in M2. rewrite (mmap_hits_unique _ _ _ _ M2 Hh) in F2.
      rewrite (neutrons_same _ _ _ _ _ F2 Hns) in Wt.
      assert (S0 : mr_status r = 0).
      { inversion Wt as [| |_ _ Of| | |]; try reflexivity. rewrite O in Of. discriminate Of. }
      rewrite S0 in Wt. exact Wt.
    - exfalso. destruct (C80_refused_l fuel ext show opens env (p k) input _ d r Er) as [[Q _] _]. specialize (Q Rp).
      unfold refused in Q. cbn [nth_error] in Q. rewrite Hi in Q. destruct rw; [exact Q|]. destruct Q as (s & Es & As). injection Es as <-.
      assert (Km : maps k = false) by (destruct k as [|[] c i]; try reflexivity; cbn in M; destruct M as [_ M]; specialize (M eq_refl); discriminate M).
      apply strstr_spec in As. assert (Z := label_options k). apply (f_equal mo_mmap) in Z. cbn [mmap_options mo_mmap] in Z.
      rewrite As in Z. destruct k as [|[] c i]; cbn in Z, Km; discriminate. }
  exists d'. split.
  - specialize (C99_fresh_l fuel ext show opens env p input find same a1 a2 e n d _ d' E1 E2 K P O R N (L _ _ HB) HB) as V.
    rewrite HB. f_equal. f_equal.
    destruct (Wk Base Logic.I) as (r & Er & Wt). rewrite (HW p P) in Er. apply Ok_inj in Er.
    cbn [skips maps andb] in Er.
    destruct V as [[V Vd]|(m & rw2 & f & V1 & V2 & V3 & _)].
    + rewrite V. destruct (concat nss) as [|x xs] eqn:Ec; [reflexivity|]. exfalso.
      assert (X : mr_disk r (out_name e Base) <> None).
      { apply (written_file _ _ _ _ _ e _ _ K (out_name_ends e Base) Wt); [discriminate|apply O]. }
      rewrite <- Er in X. unfold effect in X. destruct W as [wr|]; [|exact (X (N _ (out_name_result e Base)))].
      apply (f_equal (fun g => g (out_name e Base))) in Vd. rewrite (B wr Base eq_refl Logic.I) in Vd.
      rewrite (N _ (out_name_result e Base)) in Vd. discriminate Vd.
    + rewrite V2. rewrite Hi in V1. injection V1 as <- <-. destruct (concat nss) as [|x xs] eqn:Ec; [|reflexivity]. exfalso.
      assert (X : mr_disk r = d) by exact (written_none _ _ _ _ _ _ Wt).
      rewrite <- Er in X. apply (f_equal (fun g => g (out_name e Base))) in X. rewrite (N _ (out_name_result e Base)) in X.
      unfold effect in X. destruct W as [wr|].
      * unfold mput in X. rewrite String.eqb_refl in X. discriminate X.
      * pose proof (V3 Base Logic.I) as Y. rewrite (A eq_refl), (N _ (out_name_result e Base)) in Y. discriminate Y.
  - intros k M. destruct (Wk k M) as (r & Er & Wt). exists (mr_disk r). split; [exact Wt|].
    rewrite (HW p P) in Er. apply Ok_inj in Er. rewrite <- Er.
    assert (Sk : skips rw k = false).
    { destruct k as [|m c i]; [reflexivity|]. cbn in M |- *. unfold skips. cbn. destruct m, rw; try reflexivity.
      destruct M as [_ M]. specialize (M eq_refl). discriminate M. }
    rewrite Sk. unfold effect. destruct W as [wr|].
    + unfold mput. rewrite String.eqb_refl. apply (B wr k eq_refl M).
    + rewrite (A eq_refl). reflexivity.
Qed.

(** * Instances *)

Definition bex_find (d : mdisk) (e : string) : list string :=
  filter (fun n => match d n with Some _ => true | None => false end) (map (out_name e) (labels 5)).
Definition bex_same (f g : mfile) : bool := String.eqb (mf_text f) (mf_text g).
Lemma bex_same_refl f : bex_same f f = true.
Proof. apply String.eqb_refl. Qed.
Lemma bex_same_texts : tells_texts bex_same.
Proof. intros s t. unfold bex_same. cbn. apply String.eqb_eq. Qed.
Lemma bex_lists fuel ext show opens env p input same e n d v d' :
  known_ext e -> (forall k, covers (p k)) -> (forall k, opens (out_name e k) = true) -> (n <= 5)%nat ->
  (forall x, result_file e x -> d x <> None -> In x (map (out_name e) (labels 5))) ->
  bench_sh (bench_app fuel ext show opens env p input) bex_find same (Some e) (Some n) d = Ok (v, d') ->
  lists e d' (bex_find d' e) /\ (forall x, result_file e x -> d' x <> None -> In x (map (out_name e) (labels 5))).
Proof.
  intros K P O Hn N H. unfold bench_sh in H. cbn [bench_itr] in H.
  assert (E0 : bench_ext (Some e) = e) by (destruct K as [->|[->| ->]]; reflexivity). rewrite E0 in H.
  destruct (bench_runs _ e (labels n) d) as [x| | |] eqn:E; try discriminate H. cbn [obind] in H.
  apply Ok_inj in H. injection H as _ Hd. subst x.
  destruct (runs_ok _ _ _ _ _ _ _ K O _ _ _ _ P E) as (W & WW & WN & HW).
  destruct (runs_result _ _ _ _ _ _ _ _ _ _ _ _ P HW E) as (A & B & C).
  assert (M : forall x, result_file e x -> d' x <> None -> In x (map (out_name e) (labels 5))).
  { intros x Rx Nx. destruct (in_dec string_dec x (map (out_name e) (labels 5))) as [D|D]; [exact D|].
    apply N; [exact Rx|]. rewrite <- C; [exact Nx|]. intros k M X. apply D. subst x. apply in_map, in_labels.
    destruct k as [|m c i]; [exact I|]. cbn in M. lia. }
  split; [|exact M]. split.
  - apply NoDup_filter, FinFun.Injective_map_NoDup; [intros a b; apply out_name_inj|apply labels_nodup].
  - intros x. unfold bex_find. rewrite filter_In. split.
    + intros [I Sx]. split; [|destruct (d' x); [discriminate|discriminate Sx]].
      apply in_map_iff in I. destruct I as (k & <- & _). apply out_name_result.
    + intros [Rx Nx]. split; [exact (M x Rx Nx)|]. destruct (d' x); [reflexivity|contradiction].
Qed.
