(** Proofs about the HDF5 output. *)
From Verif Require Export S_Hdf5 P_Tiff.
From Coq Require Import Lia DecimalNat DecimalFacts Ascii.
Global Open Scope Z_scope.
Global Open Scope list_scope.

(** * Groups of a file *)

Lemma find_set_same f n g : find_group (set_group f n g) n = Some g.
Proof.
  induction f as [|[m g'] f IH]; cbn.
  - rewrite String.eqb_refl. reflexivity.
  - destruct (String.eqb m n) eqn:E; cbn; rewrite E; [reflexivity|exact IH].
Qed.
Lemma find_set_other f n g m : m <> n -> find_group (set_group f n g) m = find_group f m.
Proof.
  intros H. induction f as [|[k g'] f IH]; cbn.
  - destruct (String.eqb_spec n m); [subst; contradiction|reflexivity].
  - destruct (String.eqb k n) eqn:E; cbn.
    + apply String.eqb_eq in E. subst k.
      destruct (String.eqb_spec n m); [subst; contradiction|reflexivity].
    + rewrite IH. reflexivity.
Qed.

Lemma put_same g n c : put g n c n = Some c.
Proof. unfold put. rewrite String.eqb_refl. reflexivity. Qed.
Lemma put_other g n c m : m <> n -> put g n c m = g m.
Proof. intros H. unfold put. destruct (String.eqb_spec m n); [contradiction|reflexivity]. Qed.

Definition gcol (g : group) (n : string) : column := match g n with Some c => c | None => [] end.
Lemma col_gcol f grp n : col f grp n = gcol (open_or_create f grp) n.
Proof. unfold col, open_or_create, gcol. destruct (find_group f grp); reflexivity. Qed.
Lemma gcol_put_same g n c : gcol (put g n c) n = c.
Proof. unfold gcol. rewrite put_same. reflexivity. Qed.
Lemma gcol_put_other g n c m : m <> n -> gcol (put g n c) m = gcol g m.
Proof. intros H. unfold gcol. rewrite put_other by exact H. reflexivity. Qed.

(** * Extending columns *)

Lemma extend_ok g name data : fst (create_or_extend IoOk g name data) = g /\ data = [] \/
  create_or_extend IoOk g name data = (put g name (gcol g name ++ data), false).
Proof. destruct data; [left; split; reflexivity|right; reflexivity]. Qed.

Lemma extend_all_ok cols : forall k g, NoDup (map fst cols) -> Forall (fun c => snd c <> []) cols ->
  exists g', extend_all no_fault k g cols = (g', false) /\
    (forall n c, In (n, c) cols -> gcol g' n = gcol g n ++ c) /\
    (forall n, ~ In n (map fst cols) -> g' n = g n).
Proof.
  induction cols as [|[name data] cols IH]; intros k g ND NE.
  - exists g. split; [reflexivity|]. split; [intros n c []|reflexivity].
  - inversion NE as [|? ? D NE']; subst. cbn in D. cbn in ND. apply NoDup_cons_iff in ND. destruct ND as [NI ND].
    cbn [extend_all no_fault]. destruct (extend_ok g name data) as [[_ E]|E]; [contradiction|].
    unfold no_fault at 1. rewrite E.
    destruct (IH (S k) (put g name (gcol g name ++ data)) ND NE') as (g' & R & A & B).
    exists g'. split; [exact R|]. split.
    + intros n c [I|I].
      * injection I as <- <-. unfold gcol at 1. rewrite B by exact NI. rewrite put_same. reflexivity.
      * rewrite (A n c I). rewrite gcol_put_other; [reflexivity|].
        intros ->. apply NI. apply (in_map fst) in I. exact I.
    + intros n H. cbn in H. rewrite B by tauto. apply put_other. intros ->. tauto.
Qed.

Lemma tof_values_spec hits : forall l, tof_values hits = Ok l -> map tof_ns hits = map Some l.
Proof.
  induction hits as [|h hits IH]; intros l H; cbn in H; [apply Ok_inj in H; subst; reflexivity|].
  destruct (tof_ns h) as [t|] eqn:E; [|discriminate].
  destruct (tof_values hits) as [ts| | |]; try discriminate. cbn in H. apply Ok_inj in H. subst l.
  cbn. rewrite E, (IH ts eq_refl). reflexivity.
Qed.
Lemma tof_values_total hits : Forall (fun h => h_tof h <> None) hits -> exists l, tof_values hits = Ok l.
Proof.
  induction 1 as [|h hits Hh _ [l IH]]; [exists []; reflexivity|]. cbn. unfold tof_ns.
  destruct (h_tof h) as [t|]; [|contradiction]. rewrite IH. cbn. eexists. reflexivity.
Qed.

Lemma hit_names_nodup : NoDup ["x"; "y"; "tot_ns"; "toa_ns"; "ftoa_ns"; "tof_ns"; "spidertime_ns"]%string.
Proof. repeat constructor; cbn; intuition discriminate. Qed.
Lemma neutron_names_nodup : NoDup ["x"; "y"; "tof_ns"; "tot_ns"; "nHits"]%string.
Proof. repeat constructor; cbn; intuition discriminate. Qed.

Lemma map_nonempty {A B} (f : A -> B) a l : map f (a :: l) <> [].
Proof. discriminate. Qed.

Lemma hit_columns_spec h hits cols : hit_columns (h :: hits) = Ok cols ->
  map fst cols = ["x"; "y"; "tot_ns"; "toa_ns"; "ftoa_ns"; "tof_ns"; "spidertime_ns"]%string /\
  Forall (fun c => snd c <> []) cols /\
  Forall (fun c => length (snd c) = length (h :: hits)) cols /\
  forall n fld, hit_field n fld -> exists c, In (n, c) cols /\ map Some c = map fld (h :: hits).
Proof.
  unfold hit_columns. destruct (tof_values (h :: hits)) as [ts| | |] eqn:E; try discriminate.
  cbn [obind]. intros H. apply Ok_inj in H. subst cols.
  pose proof (tof_values_spec _ _ E) as T.
  assert (L : length ts = length (h :: hits)).
  { apply (f_equal (@length _)) in T. rewrite !map_length in T. symmetry. exact T. }
  split; [reflexivity|]. split; [|split].
  - repeat (apply Forall_cons; [apply map_nonempty|]). constructor.
    + cbn. intros ->. discriminate.
    + constructor; [apply map_nonempty|constructor].
  - repeat (apply Forall_cons; [cbn [snd]; first [exact L|apply map_length]|]). constructor.
  - intros n fld F. destruct F; eexists;
      (split; [repeat first [left; reflexivity|right]|]);
      first [rewrite map_map; reflexivity|symmetry; exact T].
Qed.

Lemma neutron_columns_spec m ns : 
  map fst (neutron_columns (m :: ns)) = ["x"; "y"; "tof_ns"; "tot_ns"; "nHits"]%string /\
  Forall (fun c => snd c <> []) (neutron_columns (m :: ns)) /\
  Forall (fun c => length (snd c) = length (m :: ns)) (neutron_columns (m :: ns)) /\
  forall n fld, neutron_field n fld -> In (n, map fld (m :: ns)) (neutron_columns (m :: ns)).
Proof.
  split; [reflexivity|]. split; [|split].
  - repeat (apply Forall_cons; [apply map_nonempty|]). constructor.
  - repeat (apply Forall_cons; [apply map_length|]). constructor.
  - intros n fld F. destruct F; cbn -[map]; tauto.
Qed.

Definition hit_names := ["x"; "y"; "tot_ns"; "toa_ns"; "ftoa_ns"; "tof_ns"; "spidertime_ns"]%string.
Definition neutron_names := ["x"; "y"; "tof_ns"; "tot_ns"; "nHits"]%string.

Lemma append_hits_ok f hits f' : append_hits no_fault f hits = Ok f' ->
  (forall n fld, hit_field n fld -> map Some (col f' "hits" n) = map Some (col f "hits" n) ++ map fld hits) /\
  (forall grp, grp <> "hits"%string -> find_group f' grp = find_group f grp) /\
  (forall n, ~ In n hit_names -> col f' "hits" n = col f "hits" n) /\
  (hits = [] -> f' = f).
Proof.
  destruct hits as [|h hits].
  - cbn. intros H. apply Ok_inj in H. subst f'. repeat split; auto. intros. rewrite List.app_nil_r. reflexivity.
  - unfold append_hits. destruct (hit_columns (h :: hits)) as [cols| | |] eqn:E; try discriminate.
    cbn [obind]. destruct (hit_columns_spec _ _ _ E) as (N & NE & _ & V).
    destruct (extend_all_ok cols 0 (open_or_create f "hits")) as (g' & R & A & B);
      [exact (eq_ind_r (@NoDup string) hit_names_nodup N)|exact NE|].
    rewrite R. intros H. apply Ok_inj in H. subst f'.
    assert (C : forall n, col (set_group f "hits" g') "hits" n = gcol g' n).
    { intros n. unfold col. rewrite find_set_same. reflexivity. }
    split; [|split; [|split]].
    + intros n fld F. destruct (V n fld F) as (c & I & M). rewrite C, (A n c I), map_app, M, col_gcol. reflexivity.
    + intros grp H. apply find_set_other. exact H.
    + intros n H. rewrite C, col_gcol. unfold gcol. rewrite B; [reflexivity|]. intros I. apply H. unfold hit_names, neutron_names. rewrite <- N. exact I.
    + discriminate.
Qed.

Lemma append_hits_total f hits : Forall (fun h => h_tof h <> None) hits ->
  forall is, exists f', append_hits is f hits = Ok f'.
Proof.
  intros H is. destruct hits as [|h hits]; [eexists; reflexivity|].
  unfold append_hits, hit_columns. destruct (tof_values_total _ H) as [l ->]. cbn [obind].
  destruct (extend_all _ _ _ _) as [g' t]. eexists. reflexivity.
Qed.

Lemma append_neutrons_ok f ns : exists f', append_neutrons no_fault f ns = (Ok tt, f') /\
  (forall n fld, neutron_field n fld -> col f' "neutrons" n = col f "neutrons" n ++ map fld ns) /\
  (forall grp, grp <> "neutrons"%string -> find_group f' grp = find_group f grp) /\
  (forall n, ~ In n neutron_names -> col f' "neutrons" n = col f "neutrons" n) /\
  (ns = [] -> f' = f).
Proof.
  destruct ns as [|m ns].
  - exists f. cbn. repeat split; auto. intros. rewrite List.app_nil_r. reflexivity.
  - unfold append_neutrons. destruct (neutron_columns_spec m ns) as (N & NE & _ & V).
    destruct (extend_all_ok (neutron_columns (m :: ns)) 0 (open_or_create f "neutrons")) as (g' & R & A & B);
      [exact (eq_ind_r (@NoDup string) neutron_names_nodup N)|exact NE|].
    rewrite R. eexists. split; [reflexivity|].
    assert (C : forall n, col (set_group f "neutrons" g') "neutrons" n = gcol g' n).
    { intros n. unfold col. rewrite find_set_same. reflexivity. }
    split; [|split; [|split]].
    + intros n fld F. rewrite C, (A n _ (V n fld F)), col_gcol. reflexivity.
    + intros grp H. apply find_set_other. exact H.
    + intros n H. rewrite C, col_gcol. unfold gcol. rewrite B; [reflexivity|]. intros I. apply H. unfold hit_names, neutron_names. rewrite <- N. exact I.
    + discriminate.
Qed.

Lemma col_frame f f' grp n : find_group f' grp = find_group f grp -> col f' grp n = col f grp n.
Proof. unfold col. intros ->. reflexivity. Qed.

Lemma C32_columns_l : forall l f f', ofold do_append l f = Ok f' ->
  (forall n fld, hit_field n fld ->
     map Some (col f' "hits" n) = map Some (col f "hits" n) ++ map fld (all_hits l)) /\
  (forall n fld, neutron_field n fld ->
     col f' "neutrons" n = col f "neutrons" n ++ map fld (all_neutrons l)) /\
  (forall grp, grp <> "hits"%string -> grp <> "neutrons"%string -> find_group f' grp = find_group f grp) /\
  (forall n, (forall fld, ~ hit_field n fld) -> col f' "hits" n = col f "hits" n) /\
  (forall n, (forall fld, ~ neutron_field n fld) -> col f' "neutrons" n = col f "neutrons" n).
Proof.
  induction l as [|a l IH]; intros f f' H.
  - cbn in H. apply Ok_inj in H. subst f'. cbn. repeat split; auto; intros; rewrite List.app_nil_r; reflexivity.
  - cbn [ofold] in H. destruct (do_append f a) as [f1| | |] eqn:E; try discriminate. cbn [obind] in H.
    destruct (IH f1 f' H) as (A & B & C & D & G). destruct a as [hits|ns].
    + cbn in E. destruct (append_hits_ok f hits f1 E) as (A1 & B1 & C1 & _).
      split; [|split; [|split; [|split]]].
      * intros n fld F. rewrite (A n fld F), (A1 n fld F). cbn. rewrite map_app, List.app_assoc. reflexivity.
      * intros n fld F. rewrite (B n fld F). rewrite (col_frame f f1) by (apply B1; discriminate). reflexivity.
      * intros grp N1 N2. rewrite C by assumption. apply B1. exact N1.
      * intros n N. rewrite D by exact N. apply C1. intros I. cbn in I.
        destruct I as [<-|[<-|[<-|[<-|[<-|[<-|[<-|[]]]]]]]]; eapply N; constructor.
      * intros n N. rewrite G by exact N. apply col_frame. apply B1. discriminate.
    + cbn in E. destruct (append_neutrons_ok f ns) as (f2 & R & A1 & B1 & C1 & _). rewrite R in E. cbn in E.
      apply Ok_inj in E. subst f2.
      split; [|split; [|split; [|split]]].
      * intros n fld F. rewrite (A n fld F). rewrite (col_frame f f1) by (apply B1; discriminate). reflexivity.
      * intros n fld F. rewrite (B n fld F), (A1 n fld F). cbn. rewrite map_app, List.app_assoc. reflexivity.
      * intros grp N1 N2. rewrite C by assumption. apply B1. exact N2.
      * intros n N. rewrite D by exact N. apply col_frame. apply B1. discriminate.
      * intros n N. rewrite G by exact N. apply C1. intros I. cbn in I.
        destruct I as [<-|[<-|[<-|[<-|[<-|[]]]]]]; eapply N; constructor.
Qed.

Lemma C32_total_l : forall l f, Forall (fun h => h_tof h <> None) (all_hits l) ->
  exists f', ofold do_append l f = Ok f'.
Proof.
  induction l as [|a l IH]; intros f F; [eexists; reflexivity|].
  unfold all_hits in F. cbn in F. apply Forall_app in F. destruct F as [F1 F2].
  cbn [ofold]. destruct a as [hits|ns].
  - destruct (append_hits_total f hits F1 no_fault) as [f1 E]. cbn [do_append]. rewrite E. cbn [obind]. apply IH. exact F2.
  - destruct (append_neutrons_ok f ns) as (f1 & R & _). cbn [do_append]. rewrite R. cbn [obind]. apply IH. exact F2.
Qed.

Lemma C32_equal_lengths_l : forall l f', ofold do_append l [] = Ok f' ->
  (forall n fld, hit_field n fld -> length (col f' "hits" n) = length (all_hits l)) /\
  (forall n fld, neutron_field n fld -> length (col f' "neutrons" n) = length (all_neutrons l)).
Proof.
  intros l f' H. destruct (C32_columns_l l [] f' H) as (A & B & _). split; intros n fld F.
  - specialize (A n fld F). apply (f_equal (@length _)) in A. rewrite app_length, !map_length in A. exact A.
  - rewrite (B n fld F). cbn. apply map_length.
Qed.

Lemma C32_empty_l : forall is f, append_hits is f [] = Ok f /\ append_neutrons is f [] = (Ok tt, f).
Proof. intros. split; reflexivity. Qed.

(** * Library failures *)

(** An append that stops at the k-th column. *)
Lemma extend_all_faulty is cols : forall k g g' t, NoDup (map fst cols) ->
  Forall (fun c => snd c <> []) cols ->
  extend_all is k g cols = (g', t) ->
  exists m, (m <= length cols)%nat /\ (forall j, (j < m)%nat -> is (k + j)%nat = IoOk) /\
   ((m < length cols)%nat -> is (k + m)%nat <> IoOk) /\ t = negb (Nat.eqb m (length cols)) /\
   (forall i n c, nth_error cols i = Some (n, c) -> (i < m)%nat -> gcol g' n = gcol g n ++ c) /\
   (forall n c, nth_error cols m = Some (n, c) ->
      (is (k + m)%nat = IoThrow -> gcol g' n = gcol g n) /\
      (is (k + m)%nat = IoThrowExtended -> gcol g' n = gcol g n ++ repeat (f_of_Z 0) (length c))) /\
   (forall i n c, nth_error cols i = Some (n, c) -> (m < i)%nat -> g' n = g n) /\
   (forall n, ~ In n (map fst cols) -> g' n = g n).
Proof.
  induction cols as [|[name data] cols IH]; intros k g g' t ND NE H.
  - cbn in H. injection H as <- <-. exists 0%nat. split; [lia|]. split; [intros; lia|]. split; [cbn; lia|]. split; [reflexivity|].
    split; [intros i n c E; destruct i; discriminate|]. split; [intros n c E; discriminate|].
    split; [intros i n c E; destruct i; discriminate|reflexivity].
  - inversion NE as [|? ? D NE']; subst. cbn in D. cbn in ND. apply NoDup_cons_iff in ND. destruct ND as [NI ND].
    cbn [extend_all] in H.
    assert (NB : forall i n c, nth_error cols i = Some (n, c) -> n <> name).
    { intros i n c E ->. apply NI. apply nth_error_In in E. apply (in_map fst) in E. exact E. }
    destruct (is k) eqn:K.
    + destruct (extend_ok g name data) as [[_ E]|E]; [contradiction|]. rewrite E in H.
      destruct (IH _ _ _ _ ND NE' H) as (m & Lm & P & Q & T & A & B & C & O).
      exists (S m). split; [cbn; lia|]. split.
      { intros [|j] L; [rewrite Nat.add_0_r; exact K|]. rewrite <- (P j) by lia. f_equal. lia. }
      split. { intros L. cbn [length] in L. replace (k + S m)%nat with (S k + m)%nat by lia. apply Q. lia. }
      split; [exact T|]. split; [|split; [|split]].
      * intros i n c E1 L. destruct i as [|i].
        -- cbn in E1. injection E1 as <- <-. unfold gcol at 1. rewrite O by exact NI. rewrite put_same. reflexivity.
        -- cbn in E1. rewrite (A i n c E1) by lia. rewrite gcol_put_other by (eapply NB; exact E1). reflexivity.
      * intros n c E1. cbn in E1. specialize (B n c E1). replace (k + S m)%nat with (S k + m)%nat by lia.
        rewrite gcol_put_other in B by (eapply NB; exact E1). exact B.
      * intros i n c E1 L. destruct i as [|i]; [lia|]. cbn in E1. rewrite (C i n c E1) by lia.
        apply put_other. eapply NB. exact E1.
      * intros n I. cbn in I. rewrite O by tauto. apply put_other. intros ->. tauto.
    + destruct data as [|v data]; [contradiction|]. cbn in H. injection H as <- <-.
      exists 0%nat. split; [cbn; lia|]. split; [intros; lia|]. rewrite Nat.add_0_r, K. split; [discriminate|]. split; [reflexivity|].
      split; [intros; lia|]. split; [split; [reflexivity|discriminate]|]. split; reflexivity.
    + destruct data as [|v data]; [contradiction|]. cbn [create_or_extend] in H. injection H as <- <-.
      exists 0%nat. split; [cbn; lia|]. split; [intros; lia|]. rewrite Nat.add_0_r, K. split; [discriminate|]. split; [reflexivity|].
      split; [intros; lia|]. split; [|split].
      * intros n c E1. cbn in E1. injection E1 as <- <-. split; [discriminate|]. intros _. rewrite gcol_put_same. reflexivity.
      * intros i n c E1 L. destruct i as [|i]; [lia|]. cbn in E1. apply put_other. eapply NB. exact E1.
      * intros n I. cbn in I. apply put_other. intros ->. tauto.
Qed.

Definition hit_order := hit_names.

Lemma in_cols_unique (cols : list (string * column)) n c c' : NoDup (map fst cols) ->
  In (n, c) cols -> In (n, c') cols -> c' = c.
Proof.
  intros ND E2 I. induction cols as [|[a b] cols IH]; [destruct E2|].
  cbn in ND. apply NoDup_cons_iff in ND. destruct ND as [NI ND].
  destruct E2 as [E2|E2], I as [I|I].
  - congruence.
  - injection E2 as -> ->. exfalso. apply NI. apply (in_map fst) in I. exact I.
  - injection I as -> ->. exfalso. apply NI. apply (in_map fst) in E2. exact E2.
  - apply IH; assumption.
Qed.

Lemma C32_failed_append_l : forall is f hits f', hits <> [] ->
  append_hits is f hits = Ok f' ->
  exists m, first_fault is 7 m /\
  forall i n fld, nth_error ["x"; "y"; "tot_ns"; "toa_ns"; "ftoa_ns"; "tof_ns"; "spidertime_ns"]%string i = Some n ->
    hit_field n fld ->
    ((i < m)%nat -> map Some (col f' "hits" n) = map Some (col f "hits" n) ++ map fld hits) /\
    (i = m -> is m = IoThrow -> col f' "hits" n = col f "hits" n) /\
    (i = m -> is m = IoThrowExtended -> col f' "hits" n = col f "hits" n ++ repeat (f_of_Z 0) (length hits)) /\
    ((m < i)%nat -> col f' "hits" n = col f "hits" n).
Proof.
  intros is f hits f' NN H. destruct hits as [|h hits]; [congruence|]. clear NN.
  unfold append_hits in H. destruct (hit_columns (h :: hits)) as [cols| | |] eqn:E; try discriminate.
  cbn [obind] in H. destruct (hit_columns_spec _ _ _ E) as (N & NE & Le & V).
  destruct (extend_all is 0 (open_or_create f "hits") cols) as [g' t] eqn:R.
  apply Ok_inj in H. subst f'.
  destruct (extend_all_faulty _ _ _ _ _ _ (eq_ind_r (@NoDup string) hit_names_nodup N) NE R) as (m & Lm & P & Q & _ & A & B & C & _).
  cbn [Nat.add] in P, Q, B.
  assert (Cc : forall n, col (set_group f "hits" g') "hits" n = gcol g' n).
  { intros n. unfold col. rewrite find_set_same. reflexivity. }
  assert (L7 : length cols = 7%nat) by (rewrite <- (map_length fst), N; reflexivity).
  exists m. split; [unfold column in *; rewrite L7 in Lm, Q; exact (conj Lm (conj P Q))|]. intros i n fld E1 F. rewrite Cc, col_gcol.
  rewrite <- N in E1. rewrite nth_error_map in E1.
  destruct (nth_error cols i) as [[n' c]|] eqn:E2; [|discriminate]. cbn in E1. injection E1 as ->.
  destruct (V n fld F) as (c' & I & M).
  assert (c' = c).
  { pose proof hit_names_nodup as ND. rewrite <- N in ND. apply nth_error_In in E2. eapply in_cols_unique; eassumption. }
  subst c'. split; [|split; [|split]].
  - intros L. rewrite (A i n c E2 L), map_app, M. reflexivity.
  - intros -> K. apply (B n c E2). exact K.
  - intros -> K. destruct (B n c E2) as [_ X]. rewrite (X K).
    rewrite Forall_forall in Le. apply nth_error_In in E2. specialize (Le _ E2). cbn in Le. rewrite Le. reflexivity.
  - intros L. unfold gcol. rewrite (C i n c E2 L). reflexivity.
Qed.

Lemma C32_failed_neutrons_l : forall is f ns r f', ns <> [] ->
  append_neutrons is f ns = (r, f') ->
  exists m, first_fault is 5 m /\ r = (if Nat.eqb m 5 then Ok tt else Throw ExternalError) /\
  forall i n fld, nth_error ["x"; "y"; "tof_ns"; "tot_ns"; "nHits"]%string i = Some n ->
    neutron_field n fld ->
    ((i < m)%nat -> col f' "neutrons" n = col f "neutrons" n ++ map fld ns) /\
    (i = m -> is m = IoThrow -> col f' "neutrons" n = col f "neutrons" n) /\
    (i = m -> is m = IoThrowExtended -> col f' "neutrons" n = col f "neutrons" n ++ repeat (f_of_Z 0) (length ns)) /\
    ((m < i)%nat -> col f' "neutrons" n = col f "neutrons" n).
Proof.
  intros is f ns r f' NN H. destruct ns as [|n0 ns]; [congruence|]. clear NN.
  unfold append_neutrons in H. destruct (neutron_columns_spec n0 ns) as (N & NE & Le & V).
  set (cols := neutron_columns (n0 :: ns)) in *.
  destruct (extend_all is 0 (open_or_create f "neutrons") cols) as [g' t] eqn:R.
  assert (Hr : r = (if t then Throw ExternalError else Ok tt) /\ f' = set_group f "neutrons" g') by (split; congruence).
  clear H. destruct Hr as [Hr ->].
  assert (ND : NoDup (map fst cols)).
  { rewrite N. exact neutron_names_nodup. }
  destruct (extend_all_faulty _ _ _ _ _ _ ND NE R) as (m & Lm & P & Q & T & A & B & C & _).
  cbn [Nat.add] in P, Q, B.
  assert (Cc : forall n, col (set_group f "neutrons" g') "neutrons" n = gcol g' n).
  { intros n. unfold col. rewrite find_set_same. reflexivity. }
  assert (L5 : length cols = 5%nat) by (rewrite <- (map_length fst), N; reflexivity).
  exists m. split; [unfold column in *; rewrite L5 in Lm, Q; exact (conj Lm (conj P Q))|].
  split. { unfold column in *. rewrite Hr, T, L5. destruct (Nat.eqb m 5); reflexivity. }
  intros i n fld E1 F. rewrite Cc, col_gcol.
  change ["x"; "y"; "tof_ns"; "tot_ns"; "nHits"]%string with (map fst cols) in E1. rewrite nth_error_map in E1.
  destruct (nth_error cols i) as [[n' c]|] eqn:E2; [|discriminate]. cbn in E1. injection E1 as ->.
  pose proof (V n fld F) as I.
  assert (Ec : map fld (n0 :: ns) = c) by (apply nth_error_In in E2; eapply in_cols_unique; eassumption).
  split; [|split; [|split]].
  - intros L. rewrite (A i n c E2 L), Ec. reflexivity.
  - intros -> K. apply (B n c E2). exact K.
  - intros -> K. destruct (B n c E2) as [_ X]. rewrite (X K). rewrite <- Ec, map_length. reflexivity.
  - intros L. unfold gcol. rewrite (C i n c E2 L). reflexivity.
Qed.

(** * Group names *)

Lemma to_string_inj n m : to_string n = to_string m -> n = m.
Proof.
  unfold to_string. intros H. apply (f_equal NilZero.uint_of_string) in H.
  rewrite !NilZero.usu in H by apply to_uint_not_nil.
  injection H as H. apply (f_equal Nat.of_uint) in H. rewrite !Unsigned.of_to in H. exact H.
Qed.

Lemma base_not_suffixed (b s : string) : b <> (b ++ "_" ++ s)%string.
Proof. intros H. apply (f_equal String.length) in H. rewrite length_app_s in H. cbn in H. lia. Qed.

Lemma candidate_inj base i j : candidate base i = candidate base j -> i = j.
Proof.
  destruct i as [|i], j as [|j]; cbn -[to_string]; intros H.
  - reflexivity.
  - exfalso. exact (base_not_suffixed _ _ H).
  - exfalso. symmetry in H. exact (base_not_suffixed _ _ H).
  - apply app_inj_l in H. cbn -[to_string] in H. injection H as H. apply to_string_inj in H. exact H.
Qed.

Lemma find_in f n g : find_group f n = Some g -> In n (map fst f).
Proof.
  induction f as [|[m g'] f IH]; cbn; [discriminate|].
  destruct (String.eqb_spec m n); [left; assumption|right; apply IH; assumption].
Qed.

(** Not all of the first [S (length f)] candidates are taken. *)
Lemma some_free f base : exists k, (k <= length f)%nat /\ free f (candidate base k).
Proof.
  assert (D : forall n, (exists k, (k < n)%nat /\ free f (candidate base k)) \/
                        (forall k, (k < n)%nat -> In (candidate base k) (map fst f))).
  { induction n as [|n [IH|IH]].
    - right. intros k L. lia.
    - left. destruct IH as (k & L & F). exists k. split; [lia|exact F].
    - destruct (find_group f (candidate base n)) eqn:E.
      + right. intros k L. destruct (Nat.eq_dec k n) as [->|].
        * eapply find_in. exact E.
        * apply IH. lia.
      + left. exists n. split; [lia|exact E]. }
  destruct (D (S (length f))) as [(k & L & F)|A]; [exists k; split; [lia|exact F]|].
  exfalso.
  assert (L : (length (map (candidate base) (seq 0 (S (length f)))) <= length (map fst f))%nat).
  { apply NoDup_incl_length.
    - apply FinFun.Injective_map_NoDup; [|apply seq_NoDup]. intros x y H. eapply candidate_inj. exact H.
    - intros x I. apply in_map_iff in I. destruct I as (k & <- & I). apply in_seq in I. apply A. lia. }
  rewrite !map_length, seq_length in L. lia.
Qed.

Lemma group_name_loop_spec f base : forall fuel k, (forall j, (j < k)%nat -> ~ free f (candidate base j)) ->
  (exists m, (m <= k + fuel)%nat /\ free f (candidate base m)) ->
  exists m, group_name_loop fuel f base (candidate base k) (S k) = Ok (candidate base m) /\
    free f (candidate base m) /\ forall j, (j < m)%nat -> ~ free f (candidate base j).
Proof.
  induction fuel as [|fuel IH]; intros k T (m & L & F).
  - assert (m = k) as ->. { destruct (Nat.lt_ge_cases m k) as [C|]; [destruct (T m C F)|lia]. }
    exists k. cbn [group_name_loop]. unfold free in F. rewrite F. split; [reflexivity|]. split; [exact F|exact T].
  - cbn [group_name_loop]. destruct (find_group f (candidate base k)) as [g|] eqn:E.
    + change (base ++ "_" ++ to_string (S k))%string with (candidate base (S k)). apply IH.
      * intros j Lj. destruct (Nat.eq_dec j k) as [->|]; [unfold free; rewrite E; discriminate|apply T; lia].
      * exists m. split; [lia|exact F].
    + exists k. split; [reflexivity|]. split; [exact E|exact T].
Qed.

Lemma C33_name_l : forall f base, exists k,
  generate_group_name f base = Ok (candidate base k) /\ free f (candidate base k) /\
  forall j, (j < k)%nat -> ~ free f (candidate base j).
Proof.
  intros f base. unfold generate_group_name.
  change base with (candidate base 0) at 2. apply (group_name_loop_spec f base (S (length f)) 0).
  - intros j L. lia.
  - destruct (some_free f base) as (k & L & F). exists k. split; [lia|exact F].
Qed.

(** * Saving groups *)

Lemma put_file_same d n f : put_file d n f n = Some f.
Proof. unfold put_file. rewrite String.eqb_refl. reflexivity. Qed.
Lemma put_file_other d n f m : m <> n -> put_file d n f m = d m.
Proof. intros H. unfold put_file. destruct (String.eqb_spec m n); [contradiction|reflexivity]. Qed.

Lemma group_of_spec cols : NoDup (map fst cols) -> group_is (group_of cols) cols.
Proof.
  intros ND n. unfold group_of.
  assert (G : forall cs g, NoDup (map fst cs) ->
    fold_left (fun g c => put g (fst c) (snd c)) cs g n =
    match find (fun c => String.eqb (fst c) n) cs with Some c => Some (snd c) | None => g n end).
  { induction cs as [|[m c] cs IH]; intros g H; [reflexivity|].
    cbn in H. apply NoDup_cons_iff in H. destruct H as [NI H].
    cbn [fold_left find fst snd]. rewrite IH by exact H.
    destruct (String.eqb_spec m n) as [->|Ne].
    - destruct (find _ cs) as [c'|] eqn:F; [|apply put_same].
      exfalso. apply find_some in F. destruct F as [F1 F2]. apply String.eqb_eq in F2. subst n.
      apply NI. apply in_map. exact F1.
    - destruct (find _ cs); [reflexivity|]. apply put_other. congruence. }
  rewrite G by exact ND. destruct (find _ cols); reflexivity.
Qed.

Definition content (d : h5disk) (name : string) : h5file := match d name with Some f => f | None => [] end.

Lemma C33_append_l : forall d name n cols base d',
  NoDup (map fst cols) -> (0 < n)%nat ->
  save_or_append d name n (Ok cols) base true = Ok d' ->
  exists f f' k g, d' name = Some f' /\ f = (match d name with Some f => f | None => [] end) /\
    free f (candidate base k) /\ (forall j, (j < k)%nat -> ~ free f (candidate base j)) /\
    find_group f' (candidate base k) = Some g /\ group_is g cols /\
    (forall grp, grp <> candidate base k -> find_group f' grp = find_group f grp) /\
    (forall other, other <> name -> d' other = d other).
Proof.
  intros d name n cols base d' ND Hn H. unfold save_or_append in H.
  destruct n as [|n]; [lia|]. cbn [Nat.eqb] in H.
  set (f := match d name with Some f => f | None => [] end) in *.
  replace (match d name with Some f => f | None => [] end) with f in H by reflexivity.
  destruct (C33_name_l f base) as (k & E & F & M). rewrite E in H. cbn [obind] in H.
  apply Ok_inj in H. subst d'.
  exists f, (set_group f (candidate base k) (group_of cols)), k, (group_of cols).
  split; [apply put_file_same|]. split; [reflexivity|]. split; [exact F|]. split; [exact M|].
  split; [apply find_set_same|]. split; [apply group_of_spec; exact ND|].
  split; [intros grp Hg; apply find_set_other; exact Hg|].
  intros other Ho. apply put_file_other. exact Ho.
Qed.

Lemma C33_append_total_l : forall d name n cols base, exists d', save_or_append d name n (Ok cols) base true = Ok d'.
Proof.
  intros. unfold save_or_append. destruct (Nat.eqb n 0); [eexists; reflexivity|].
  match goal with |- context [generate_group_name ?f base] => destruct (C33_name_l f base) as (k & E & _) end.
  rewrite E. eexists. reflexivity.
Qed.

(** A sequence of appends to one file that does not exist yet. *)
Lemma C33_history_l : forall batches d name base d',
  (forall b, In b batches -> NoDup (map fst (snd b)) /\ (0 < fst b)%nat) ->
  d name = None ->
  ofold (fun d b => save_or_append d name (fst b) (Ok (snd b)) base true) batches d = Ok d' ->
  batches <> [] ->
  exists f, d' name = Some f /\
    (forall k b, nth_error batches k = Some b ->
       exists g, find_group f (candidate base k) = Some g /\ group_is g (snd b)) /\
    (forall grp, (forall k, (k < length batches)%nat -> grp <> candidate base k) -> find_group f grp = None) /\
    (forall other, other <> name -> d' other = d other).
Proof.
  intros batches d name base d' W N H NE.
  assert (G : forall done todo d1, batches = done ++ todo ->
    ofold (fun d b => save_or_append d name (fst b) (Ok (snd b)) base true) todo d1 = Ok d' ->
    (forall k b, nth_error done k = Some b ->
       exists g, find_group (content d1 name) (candidate base k) = Some g /\ group_is g (snd b)) ->
    (forall grp, (forall k, (k < length done)%nat -> grp <> candidate base k) -> find_group (content d1 name) grp = None) ->
    (forall other, other <> name -> d1 other = d other) ->
    (done <> [] -> d1 name <> None) ->
    exists f, d' name = Some f /\
    (forall k b, nth_error batches k = Some b ->
       exists g, find_group f (candidate base k) = Some g /\ group_is g (snd b)) /\
    (forall grp, (forall k, (k < length batches)%nat -> grp <> candidate base k) -> find_group f grp = None) /\
    (forall other, other <> name -> d' other = d other)).
  { intros done todo. revert done. induction todo as [|b todo IH]; intros done d1 E R A B C S.
    - rewrite List.app_nil_r in E. subst done. cbn in R. apply Ok_inj in R. subst d1.
      unfold content in A, B. destruct (d' name) as [f|] eqn:D; [|destruct (S NE eq_refl)].
      exists f. auto.
    - cbn [ofold] in R. destruct (save_or_append d1 name (fst b) (Ok (snd b)) base true) as [d2| | |] eqn:E2; try discriminate.
      cbn [obind] in R. destruct (W b) as (Wd & Wn); [rewrite E; apply in_or_app; right; left; reflexivity|].
      destruct (C33_append_l _ _ _ _ _ _ Wd Wn E2) as (f & f' & k & g & F1 & F2 & F3 & F4 & F5 & F6 & F7 & F8).
      change (f = content d1 name) in F2.
      assert (k = length done) as Ek.
      { destruct (Nat.lt_trichotomy k (length done)) as [L|[L|L]]; [exfalso|exact L|exfalso].
        - destruct (nth_error done k) as [b'|] eqn:Nk; [|apply nth_error_None in Nk; lia].
          destruct (A k b' Nk) as (g' & G1 & _). unfold free in F3. rewrite F2 in F3. congruence.
        - apply (F4 (length done) L). unfold free. rewrite F2. apply B.
          intros j Lj X. apply candidate_inj in X. lia. }
      subst k. apply (IH (done ++ [b]) d2).
      + rewrite E, <- List.app_assoc. reflexivity.
      + exact R.
      + intros k b' Nk. unfold content. rewrite F1. destruct (Nat.eq_dec k (length done)) as [->|Nek].
        * rewrite nth_error_app2, Nat.sub_diag in Nk by lia. cbn in Nk. injection Nk as <-. exists g. auto.
        * assert (k < length done)%nat.
          { assert (L : (k < length (done ++ [b]))%nat) by (apply nth_error_Some; rewrite Nk; discriminate).
            rewrite app_length in L. cbn in L. lia. }
          rewrite nth_error_app1 in Nk by assumption. destruct (A k b' Nk) as (g' & G1 & G2).
          exists g'. split; [|exact G2]. rewrite F7; [rewrite F2; exact G1|].
          intros X. apply candidate_inj in X. contradiction.
      + intros grp X. unfold content. rewrite F1. rewrite F7.
        * rewrite F2. apply B. intros k Lk. apply X. rewrite app_length. cbn. lia.
        * apply X. rewrite app_length. cbn. lia.
      + intros other Ho. rewrite F8 by exact Ho. apply C. exact Ho.
      + intros _. rewrite F1. discriminate. }
  apply (G [] batches d); auto.
  - intros k b E. destruct k; discriminate.
  - intros grp _. unfold content. rewrite N. reflexivity.
Qed.

(** * Saving new files *)

Lemma render_micros_longer p m : (String.length (render p) < String.length (render (with_micros p m)))%nat.
Proof.
  unfold render, with_micros. cbn [p_parent p_stem p_ext].
  destruct (String.eqb (p_parent p) "") eqn:E; rewrite !length_app_s;
    destruct (String.eqb_spec (p_ext p) "") as [X|X]; try rewrite X; cbn -[digits6]; lia.
Qed.

Lemma C46_save_l : forall d p micros n cols base d',
  (0 < n)%nat -> NoDup (map fst cols) ->
  save_new d p micros n (Ok cols) base = Ok d' ->
  exists final f g, d' final = Some f /\ find_group f base = Some g /\ group_is g cols /\
    (forall grp, grp <> base -> find_group f grp = None) /\
    (d (render p) = None -> final = render p) /\
    (d (render p) <> None -> final = render (with_micros p micros) /\ d' (render p) = d (render p)) /\
    (forall other, other <> final -> d' other = d other).
Proof.
  intros d p micros n cols base d' Hn ND H. unfold save_new, save_or_append in H.
  destruct n as [|n]; [lia|]. cbn [Nat.eqb] in H.
  set (final := match d (render p) with Some _ => render (with_micros p micros) | None => render p end) in *.
  assert (E : (match d final with Some f => [] | None => [] end : h5file) = []) by (destruct (d final); reflexivity).
  rewrite E in H. cbn [obind] in H. apply Ok_inj in H. subst d'.
  exists final, (set_group [] base (group_of cols)), (group_of cols).
  split; [apply put_file_same|]. split; [apply find_set_same|]. split; [apply group_of_spec; exact ND|].
  split; [intros grp X; rewrite find_set_other by exact X; reflexivity|].
  split; [intros X; unfold final; rewrite X; reflexivity|].
  split.
  - intros X. assert (F : final = render (with_micros p micros)).
    { unfold final. destruct (d (render p)); [reflexivity|contradiction]. }
    split; [exact F|]. apply put_file_other. rewrite F. intros Y.
    pose proof (render_micros_longer p micros). rewrite <- Y in H. lia.
  - intros other X. apply put_file_other. exact X.
Qed.

(** A second save within the same microsecond of a second replaces the first. *)
Lemma C46_collision_l : forall d p micros n1 cols1 n2 cols2 base d1 d2,
  d (render p) <> None -> (0 < n1)%nat -> (0 < n2)%nat -> NoDup (map fst cols1) -> NoDup (map fst cols2) ->
  save_new d p micros n1 (Ok cols1) base = Ok d1 ->
  save_new d1 p micros n2 (Ok cols2) base = Ok d2 ->
  exists f g, d2 (render (with_micros p micros)) = Some f /\ find_group f base = Some g /\
    group_is g cols2 /\ (forall grp, grp <> base -> find_group f grp = None) /\
    (forall other, other <> render (with_micros p micros) -> d2 other = d other).
Proof.
  intros d p micros n1 cols1 n2 cols2 base d1 d2 E N1 N2 D1 D2 H1 H2.
  destruct (C46_save_l _ _ _ _ _ _ _ N1 D1 H1) as (fin1 & f1 & g1 & A1 & _ & _ & _ & _ & A2 & A3).
  destruct (A2 E) as [-> K1].
  destruct (C46_save_l _ _ _ _ _ _ _ N2 D2 H2) as (fin2 & f2 & g2 & B1 & B2 & B3 & B4 & _ & B5 & B6).
  rewrite K1 in B5. destruct (B5 E) as [-> _].
  exists f2, g2. split; [exact B1|]. split; [exact B2|]. split; [exact B3|]. split; [exact B4|].
  intros other X. rewrite B6 by exact X. apply A3. exact X.
Qed.

(** * The groups hold the records *)

Lemma find_unique (cols : list (string * column)) n c : NoDup (map fst cols) -> In (n, c) cols ->
  find (fun x => String.eqb (fst x) n) cols = Some (n, c).
Proof.
  induction cols as [|[m b] cols IH]; intros ND I; [destruct I|].
  cbn in ND. apply NoDup_cons_iff in ND. destruct ND as [NI ND]. cbn [find fst].
  destruct I as [I|I].
  - injection I as -> ->. rewrite String.eqb_refl. reflexivity.
  - destruct (String.eqb_spec m n) as [->|]; [|apply IH; assumption].
    exfalso. apply NI. apply (in_map fst) in I. exact I.
Qed.

Lemma group_is_hits g hits cols : hits <> [] -> hit_columns hits = Ok cols -> group_is g cols ->
  forall n fld, hit_field n fld -> exists c, g n = Some c /\ map Some c = map fld hits.
Proof.
  intros NE E G n fld F. destruct hits as [|h hits]; [contradiction|].
  destruct (hit_columns_spec _ _ _ E) as (N & _ & _ & V). destruct (V n fld F) as (c & I & M).
  exists c. split; [|exact M]. rewrite (G n).
  rewrite (find_unique cols n c); [reflexivity| |exact I]. exact (eq_ind_r (@NoDup string) hit_names_nodup N).
Qed.
Lemma group_is_neutrons g ns : ns <> [] -> group_is g (neutron_columns ns) ->
  forall n fld, neutron_field n fld -> g n = Some (map fld ns).
Proof.
  intros NE G n fld F. destruct ns as [|m ns]; [contradiction|].
  destruct (neutron_columns_spec m ns) as (N & _ & _ & V).
  rewrite (G n). rewrite (find_unique _ n _ (eq_ind_r (@NoDup string) neutron_names_nodup N) (V n fld F)). reflexivity.
Qed.

Lemma save_or_append_Ok d name n cols base app d' : (0 < n)%nat ->
  save_or_append d name n cols base app = Ok d' -> exists cs, cols = Ok cs.
Proof.
  intros Hn H. unfold save_or_append in H. destruct n as [|n]; [lia|]. cbn [Nat.eqb] in H.
  destruct (if app then _ else _) in H; try discriminate. cbn [obind] in H.
  destruct cols as [cs| | |]; try discriminate. exists cs. reflexivity.
Qed.

Lemma hits_nonempty {A} (l : list A) : l <> [] -> (0 < length l)%nat.
Proof. destruct l; [contradiction|cbn; lia]. Qed.

Lemma C33_hits_l : forall d name hits d', hits <> [] -> append_hits_group d name hits = Ok d' ->
  exists f' k g, d' name = Some f' /\ find_group f' (candidate "hits" k) = Some g /\
    (forall j, (j <= k)%nat -> (free (match d name with Some f => f | None => [] end) (candidate "hits" j) <-> j = k)) /\
    (forall n fld, hit_field n fld -> exists c, g n = Some c /\ map Some c = map fld hits).
Proof.
  intros d name hits d' NE H. unfold append_hits_group in H.
  destruct (save_or_append_Ok _ _ _ _ _ _ _ (hits_nonempty _ NE) H) as [cs E]. rewrite E in H.
  assert (ND : NoDup (map fst cs)).
  { destruct hits as [|h hits]; [contradiction|]. destruct (hit_columns_spec _ _ _ E) as (N & _).
    exact (eq_ind_r (@NoDup string) hit_names_nodup N). }
  destruct (C33_append_l _ _ _ _ _ _ ND (hits_nonempty _ NE) H) as (f & f' & k & g & A & B & C & D & F & G & _).
  exists f', k, g. split; [exact A|]. split; [exact F|]. split.
  - intros j L. rewrite <- B. split; [|intros ->; exact C].
    intros X. destruct (Nat.eq_dec j k); [assumption|]. exfalso. apply (D j); [lia|exact X].
  - apply (group_is_hits g hits cs NE E G).
Qed.

Lemma C33_neutrons_l : forall d name ns d', ns <> [] -> append_neutrons_group d name ns = Ok d' ->
  exists f' k g, d' name = Some f' /\ find_group f' (candidate "neutrons" k) = Some g /\
    (forall j, (j <= k)%nat -> (free (match d name with Some f => f | None => [] end) (candidate "neutrons" j) <-> j = k)) /\
    (forall n fld, neutron_field n fld -> g n = Some (map fld ns)).
Proof.
  intros d name ns d' NE H. unfold append_neutrons_group in H.
  assert (ND : NoDup (map fst (neutron_columns ns))).
  { destruct ns as [|n ns]; [contradiction|]. destruct (neutron_columns_spec n ns) as (N & _).
    exact (eq_ind_r (@NoDup string) neutron_names_nodup N). }
  destruct (C33_append_l _ _ _ _ _ _ ND (hits_nonempty _ NE) H) as (f & f' & k & g & A & B & C & D & F & G & _).
  exists f', k, g. split; [exact A|]. split; [exact F|]. split.
  - intros j L. rewrite <- B. split; [|intros ->; exact C].
    intros X. destruct (Nat.eq_dec j k); [assumption|]. exfalso. apply (D j); [lia|exact X].
  - apply (group_is_neutrons g ns NE G).
Qed.

Lemma C46_hits_l : forall d p micros hits d', hits <> [] -> save_hits d p micros hits = Ok d' ->
  exists final f g, d' final = Some f /\ find_group f "hits" = Some g /\
    (forall grp, grp <> "hits"%string -> find_group f grp = None) /\
    (d (render p) = None -> final = render p) /\
    (forall other, other <> final -> d' other = d other) /\
    (forall n fld, hit_field n fld -> exists c, g n = Some c /\ map Some c = map fld hits).
Proof.
  intros d p micros hits d' NE H. unfold save_hits, save_new in H.
  destruct (save_or_append_Ok _ _ _ _ _ _ _ (hits_nonempty _ NE) H) as [cs E]. rewrite E in H.
  assert (ND : NoDup (map fst cs)).
  { destruct hits as [|h hits]; [contradiction|]. destruct (hit_columns_spec _ _ _ E) as (N & _).
    exact (eq_ind_r (@NoDup string) hit_names_nodup N). }
  destruct (C46_save_l d p micros _ cs "hits" d' (hits_nonempty _ NE) ND H) as (final & f & g & A & B & C & D & F & _ & G).
  exists final, f, g. repeat split; try assumption. apply (group_is_hits g hits cs NE E C).
Qed.
Lemma C46_neutrons_l : forall d p micros ns d', ns <> [] -> save_neutrons d p micros ns = Ok d' ->
  exists final f g, d' final = Some f /\ find_group f "neutrons" = Some g /\
    (forall grp, grp <> "neutrons"%string -> find_group f grp = None) /\
    (d (render p) = None -> final = render p) /\
    (forall other, other <> final -> d' other = d other) /\
    (forall n fld, neutron_field n fld -> g n = Some (map fld ns)).
Proof.
  intros d p micros ns d' NE H. unfold save_neutrons in H.
  assert (ND : NoDup (map fst (neutron_columns ns))).
  { destruct ns as [|n ns]; [contradiction|]. destruct (neutron_columns_spec n ns) as (N & _).
    exact (eq_ind_r (@NoDup string) neutron_names_nodup N). }
  destruct (C46_save_l d p micros _ _ "neutrons" d' (hits_nonempty _ NE) ND H) as (final & f & g & A & B & C & D & F & _ & G).
  exists final, f, g. repeat split; try assumption. apply (group_is_neutrons g ns NE C).
Qed.

(** * Numerals *)

Lemma uint_all_digits u : all_digits (NilEmpty.string_of_uint u).
Proof. induction u; [exact I|..]; (split; [cbn; lia|exact IHu]). Qed.
Lemma uint_numeral_value u : forall acc,
  decimal_value (Z.of_nat acc) (NilEmpty.string_of_uint u) = Z.of_nat (Nat.of_uint_acc u acc).
Proof.
  induction u; intros acc; [reflexivity|..]; cbn [NilEmpty.string_of_uint decimal_value Nat.of_uint_acc]; rewrite <- IHu;
    (match goal with |- context [Z.of_N (N_of_ascii ?a)] =>
      let v := eval vm_compute in (Z.of_N (N_of_ascii a)) in change (Z.of_N (N_of_ascii a)) with v end);
    f_equal; rewrite Nat.tail_mul_spec; lia.
Qed.
Lemma uint_length u : String.length (NilEmpty.string_of_uint u) = Decimal.nb_digits u.
Proof. induction u; cbn; congruence. Qed.
Lemma numeral_bound s : all_digits s -> forall acc, 0 <= acc ->
  acc * 10 ^ Z.of_nat (String.length s) <= decimal_value acc s.
Proof.
  induction s as [|c s IH]; intros D acc P; [cbn; lia|]. destruct D as [Dc D]. cbn [decimal_value String.length].
  specialize (IH D (10 * acc + (Z.of_N (N_of_ascii c) - 48)) ltac:(lia)).
  rewrite Nat2Z.inj_succ, Z.pow_succ_r by lia.
  assert (0 <= 10 ^ Z.of_nat (String.length s)) by (apply Z.pow_nonneg; lia). nia.
Qed.

Definition zeros_then (k : nat) (u : Decimal.uint) : Decimal.uint := Nat.iter k Decimal.D0 u.
Lemma zeros_value k u : decimal_value 0 (NilEmpty.string_of_uint (zeros_then k u)) = decimal_value 0 (NilEmpty.string_of_uint u) /\
  Decimal.nb_digits (zeros_then k u) = (k + Decimal.nb_digits u)%nat.
Proof.
  induction k as [|k (IH & L)]; [split; reflexivity|]. split.
  - exact IH.
  - cbn. f_equal. exact L.
Qed.

Lemma to_uint_norm n : Decimal.unorm (Nat.to_uint n) = Nat.to_uint n.
Proof. rewrite <- Unsigned.to_of, Unsigned.of_to. reflexivity. Qed.
Lemma to_uint_head n u : Nat.to_uint n = Decimal.D0 u -> u = Decimal.Nil.
Proof.
  intros E. pose proof (to_uint_norm n) as N. rewrite E in N. unfold Decimal.unorm in N.
  destruct (Decimal.nzhead (Decimal.D0 u)) eqn:H; try discriminate N.
  - injection N as <-. reflexivity.
  - contradiction (nzhead_nonzero _ _ H).
Qed.
Lemma to_uint_nonnil n : Nat.to_uint n <> Decimal.Nil.
Proof. intros E. pose proof (to_uint_norm n) as N. rewrite E in N. discriminate N. Qed.
Lemma zero_string u : u <> Decimal.Nil -> NilZero.string_of_uint u = NilEmpty.string_of_uint u.
Proof. destruct u; [contradiction|reflexivity..]. Qed.

Lemma to_uint_value n : decimal_value 0 (NilEmpty.string_of_uint (Nat.to_uint n)) = Z.of_nat n.
Proof.
  rewrite (uint_numeral_value _ 0). change (Nat.of_uint_acc (Nat.to_uint n) 0) with (Nat.of_uint (Nat.to_uint n)).
  rewrite Unsigned.of_to. reflexivity.
Qed.

Lemma C33_numeral_l k : (0 < k)%nat -> decimal_numeral k (to_string k) /\
  forall c r, to_string k = String c r -> c <> "0"%char.
Proof.
  intros P. unfold to_string. rewrite (zero_string _ (to_uint_nonnil k)). split; [split; [|split]|].
  - pose proof (to_uint_nonnil k). destruct (Nat.to_uint k); [contradiction|discriminate..].
  - apply uint_all_digits.
  - apply to_uint_value.
  - intros c r E ->. pose proof (to_uint_value k) as V.
    destruct (Nat.to_uint k) as [|u|u|u|u|u|u|u|u|u|u] eqn:U; cbn [NilEmpty.string_of_uint] in E; try discriminate E.
    apply to_uint_head in U. subst u. cbn in V. lia.
Qed.

Lemma digits6_l n : (n < Z.to_nat (10 ^ 6))%nat -> decimal_numeral n (digits6 n) /\ String.length (digits6 n) = 6%nat.
Proof.
  intros B. unfold digits6.
  assert (L : (Decimal.nb_digits (Nat.to_uint n) <= 6)%nat).
  { pose proof (to_uint_value n) as V. pose proof (uint_all_digits (Nat.to_uint n)) as D.
    pose proof (uint_length (Nat.to_uint n)) as Len.
    destruct (Nat.to_uint n) as [|u|u|u|u|u|u|u|u|u|u] eqn:U; [cbn; lia| |..].
    { apply to_uint_head in U. subst u. cbn. lia. }
    all: cbn [NilEmpty.string_of_uint decimal_value String.length all_digits] in *; destruct D as [_ D];
      match type of V with decimal_value ?a _ = _ => assert (A : 1 <= a) by (vm_compute; discriminate);
        pose proof (numeral_bound _ D a ltac:(lia)) as Bd end;
      assert (10 ^ Z.of_nat (String.length (NilEmpty.string_of_uint u)) < 10 ^ 6) by nia;
      assert (Z.of_nat (String.length (NilEmpty.string_of_uint u)) < 6)
        by (apply (Z.pow_lt_mono_r_iff 10); lia); lia. }
  change (pad6 (Nat.to_uint n)) with (zeros_then (6 - Decimal.nb_digits (Nat.to_uint n)) (Nat.to_uint n)).
  destruct (zeros_value (6 - Decimal.nb_digits (Nat.to_uint n)) (Nat.to_uint n)) as (V & Nb).
  assert (N6 : Decimal.nb_digits (zeros_then (6 - Decimal.nb_digits (Nat.to_uint n)) (Nat.to_uint n)) = 6%nat) by lia.
  assert (NN : zeros_then (6 - Decimal.nb_digits (Nat.to_uint n)) (Nat.to_uint n) <> Decimal.Nil).
  { intros E. rewrite E in N6. discriminate N6. }
  rewrite (zero_string _ NN). split; [split; [|split]|].
  - intros E. apply (f_equal String.length) in E. rewrite uint_length, N6 in E. discriminate E.
  - apply uint_all_digits.
  - rewrite V. apply to_uint_value.
  - rewrite uint_length. exact N6.
Qed.

Lemma C46_name_l : forall p micros, (micros < Z.to_nat (10 ^ 6))%nat -> exists s,
  decimal_numeral micros s /\ String.length s = 6%nat /\
  with_micros p micros = Path (p_parent p) (p_stem p ++ "_" ++ s) (if String.eqb (p_ext p) "" then ".h5" else p_ext p).
Proof.
  intros p micros B. destruct (digits6_l micros B) as [N L]. exists (digits6 micros). repeat split; try apply N; assumption.
Qed.

Lemma C33_numbers_l : forall base k, (0 < k)%nat -> exists s, candidate base k = (base ++ "_" ++ s)%string /\
  decimal_numeral k s /\ forall c r, s = String c r -> c <> "0"%char.
Proof. intros base [|k] P; [inversion P|]. exists (to_string (S k)). split; [reflexivity|]. exact (C33_numeral_l (S k) P). Qed.
