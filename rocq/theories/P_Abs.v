(** The adaptive box search: the model refines the cluster specification. *)
From Verif Require Export M_Abs S_Abs F64Facts.
From Coq Require Import Lia ZifyBool Reals Lra Permutation.
From Flocq Require Import Core.
Global Open Scope Z_scope.

(** * Arrival times in doubles *)

Lemma spider_is_int h : hit_ok h -> is_int (spider_ns h) (arrival h).
Proof.
  intros (_ & _ & H). unfold spider_ns, arrival. rewrite Z.mul_comm.
  apply is_int_mul; [apply is_int_of_Z; lia| |lia].
  unfold M_Hit.c_25. apply is_int_of_Z. lia.
Qed.

Lemma to_u64_int x z : is_int x z -> 0 <= z < 2 ^ 64 -> f_to_u64 x = Some z.
Proof.
  intros [F E] Hz. unfold f_to_u64, f_to_int. rewrite F.
  assert (T : Btrunc x = z).
  { apply eq_IZR. rewrite Btrunc_correct by exact emax1024.
    rewrite round_FIX_IZR, E. rewrite Ztrunc_IZR. reflexivity. }
  rewrite T. replace ((0 <=? z) && (z <=? 2 ^ 64 - 1)) with true by lia. reflexivity.
Qed.

Lemma hit_time_ok h : hit_ok h -> hit_time h = Ok (arrival h).
Proof.
  intros H. unfold hit_time. rewrite (to_u64_int _ (arrival h)); [reflexivity|apply spider_is_int; exact H|].
  destruct H as (_ & _ & H). unfold arrival. lia.
Qed.

(** * Slots and clusters *)

Definition box_slot (f : hit) (rest : list hit) (id : nat) : slot :=
  Slot (fold_left Z.min (map h_x rest) (h_x f)) (fold_left Z.min (map h_y rest) (h_y f))
       (fold_left Z.max (map h_x rest) (h_x f)) (fold_left Z.max (map h_y rest) (h_y f))
       (arrival f) (Z.of_nat id) (1 + zlen rest).

Definition slot_of (c : cl) : slot :=
  match cl_hits c with
  | f :: rest => box_slot f rest (cl_id c)
  | [] => Slot 0 0 0 0 0 (Z.of_nat (cl_id c)) 0
  end.

(** The code's test on the slot of a cluster. *)
Definition fits_code (cfg : abs_cfg) (c : cl) (h : hit) : Prop :=
  time_ok cfg h (slot_of c) && box_ok cfg h (slot_of c) = true.

Definition empties (from n : nat) : list slot :=
  map (fun i => Slot 0 0 0 0 0 (Z.of_nat i) 0) (seq from n).

Definition live (c : cl) : Prop := cl_hits c <> [].

Lemma slot_of_size c : live c -> c_size (slot_of c) > 0.
Proof.
  unfold live, slot_of. destruct (cl_hits c) as [|f rest]; [congruence|]. intros _. cbn.
  pose proof (zlen_nonneg rest). lia.
Qed.
Lemma slot_of_label c : c_label (slot_of c) = Z.of_nat (cl_id c).
Proof. unfold slot_of. destruct (cl_hits c); reflexivity. Qed.

Lemma slot_of_new h id : hit_ok h -> start_slot h (Z.of_nat id) 1 = Ok (slot_of (Cl id [h])).
Proof. intros H. unfold start_slot. rewrite hit_time_ok by exact H. reflexivity. Qed.

Lemma slot_of_grow c h : live c ->
  grow_slot h (slot_of c) = slot_of (Cl (cl_id c) (cl_hits c ++ [h])).
Proof.
  unfold live, slot_of. cbn [cl_hits cl_id]. destruct (cl_hits c) as [|f rest]; [congruence|]. intros _.
  cbn [app]. unfold grow_slot, box_slot. cbn [c_xmin c_ymin c_xmax c_ymax c_time c_label c_size].
  rewrite !map_app, !fold_left_app, zlen_app. cbn. f_equal. unfold zlen. cbn. lia.
Qed.

(** * Scanning the slots *)

Lemma scan_cons cfg h c rest : live c ->
  scan cfg h (slot_of c :: rest) =
  if time_ok cfg h (slot_of c) && box_ok cfg h (slot_of c)
  then Ok (Some (Z.of_nat (cl_id c), slot_of (Cl (cl_id c) (cl_hits c ++ [h])) :: rest))
  else let! r := scan cfg h rest in
       Ok (match r with Some (l, rest') => Some (l, slot_of c :: rest') | None => None end).
Proof.
  intros L. cbn [scan]. pose proof (slot_of_size c L).
  replace (c_size (slot_of c) =? 0) with false by lia.
  rewrite slot_of_label, slot_of_grow by exact L.
  destruct (time_ok cfg h (slot_of c)); [|reflexivity]. cbn [andb].
  destruct (box_ok cfg h (slot_of c)); reflexivity.
Qed.

(** Either some first cluster fits, or none does. *)
Lemma first_fit (fits : cl -> hit -> Prop) (dec : forall c h, fits c h \/ ~ fits c h) h op :
  (exists pre c post, op = pre ++ c :: post /\ fits c h /\ forall c', In c' pre -> ~ fits c' h) \/
  (forall c', In c' op -> ~ fits c' h).
Proof.
  induction op as [|c op IH]; [right; intros c' []|].
  destruct (dec c h) as [F|F].
  - left. exists [], c, op. split; [reflexivity|]. split; [exact F|intros c' []].
  - destruct IH as [(pre & d & post & E & Fd & Np)|N].
    + left. exists (c :: pre), d, post. split; [rewrite E; reflexivity|]. split; [exact Fd|].
      intros c' [->|I]; auto.
    + right. intros c' [->|I]; auto.
Qed.

Lemma fits_code_dec cfg c h : fits_code cfg c h \/ ~ fits_code cfg c h.
Proof. unfold fits_code. destruct (_ && _); [left; reflexivity|right; discriminate]. Qed.

Lemma scan_hit cfg h pre c post rest :
  Forall live (pre ++ c :: post) -> fits_code cfg c h ->
  (forall c', In c' pre -> ~ fits_code cfg c' h) ->
  scan cfg h (map slot_of (pre ++ c :: post) ++ rest) =
  Ok (Some (Z.of_nat (cl_id c),
            map slot_of (pre ++ Cl (cl_id c) (cl_hits c ++ [h]) :: post) ++ rest)).
Proof.
  intros L F N. induction pre as [|d pre IH].
  - cbn [map app] in *. inversion L as [|? ? Lc Lp]; subst.
    rewrite scan_cons by exact Lc. unfold fits_code in F. rewrite F. reflexivity.
  - cbn [map app] in *. inversion L as [|? ? Ld Lr]; subst.
    rewrite scan_cons by exact Ld.
    destruct (time_ok cfg h (slot_of d) && box_ok cfg h (slot_of d)) eqn:E.
    + elim (N d (or_introl eq_refl)). exact E.
    + rewrite IH; [reflexivity|exact Lr|]. intros c' I. apply N. right. exact I.
Qed.

Lemma scan_miss cfg h op rest : Forall live op ->
  (forall c', In c' op -> ~ fits_code cfg c' h) ->
  scan cfg h (map slot_of op ++ rest) =
  let! r := scan cfg h rest in
  Ok (match r with Some (l, rest') => Some (l, map slot_of op ++ rest') | None => None end).
Proof.
  intros L N. induction op as [|d op IH]; cbn [map app].
  - destruct (scan cfg h rest) as [[[l r]|]| | |]; reflexivity.
  - inversion L as [|? ? Ld Lr]; subst. rewrite scan_cons by exact Ld.
    destruct (time_ok cfg h (slot_of d) && box_ok cfg h (slot_of d)) eqn:E.
    + elim (N d (or_introl eq_refl)). exact E.
    + rewrite IH; [|exact Lr|intros c' I; apply N; right; exact I].
      destruct (scan cfg h rest) as [[[l r]|]| | |]; reflexivity.
Qed.

Lemma scan_empties cfg h from n : hit_ok h ->
  scan cfg h (empties from (S n)) =
  Ok (Some (Z.of_nat from, slot_of (Cl from [h]) :: empties (S from) n)).
Proof.
  intros H. unfold empties. cbn [seq map scan c_size c_label].
  change (0 =? 0) with true. cbv iota. change (0 + 1) with 1.
  rewrite slot_of_new by exact H. reflexivity.
Qed.

(** * The oldest slot *)

Definition ctime (c : cl) : Z := c_time (slot_of c).

Lemma opened_ctime c t : opened_at c t <-> live c /\ t = ctime c.
Proof.
  unfold opened_at, ctime, live, slot_of. destruct (cl_hits c) as [|f rest].
  - split; [intros (f & r & H & _); discriminate|intros [H _]; congruence].
  - split.
    + intros (f' & r & H & ->). inversion H; subst. split; [congruence|reflexivity].
    + intros [_ ->]. exists f, rest. split; reflexivity.
Qed.

(** The scan keeps, at the index it reports, the first minimum seen so far. *)
Lemma min_slot_spec op : forall pre c mid,
  Forall live (pre ++ c :: mid ++ op) ->
  (forall c', In c' pre -> ctime c < ctime c') ->
  (forall c', In c' mid -> ctime c <= ctime c') ->
  exists pre' c' post', pre ++ c :: mid ++ op = pre' ++ c' :: post' /\
    min_slot (map slot_of op) (length (pre ++ c :: mid)) (ctime c) (length pre) = length pre' /\
    (forall d, In d pre' -> ctime c' < ctime d) /\ (forall d, In d post' -> ctime c' <= ctime d).
Proof.
  induction op as [|d op IH]; intros pre c mid L P M.
  - exists pre, c, mid. rewrite app_nil_r. cbn. auto.
  - cbn [map min_slot]. fold (ctime d).
    assert (Ld : live d).
    { rewrite Forall_forall in L. apply L. apply in_or_app. right. right. apply in_or_app.
      right. left. reflexivity. }
    pose proof (slot_of_size d Ld). replace (c_size (slot_of d) >? 0) with true by lia. cbn [andb].
    destruct (Z.ltb_spec (ctime d) (ctime c)) as [Hlt|Hge].
    + specialize (IH (pre ++ c :: mid) d []). cbn [app] in IH.
      replace ((pre ++ c :: mid) ++ d :: op) with (pre ++ c :: mid ++ d :: op) in IH
        by (rewrite <- app_assoc; reflexivity).
      destruct IH as (pre' & c' & post' & E & Hm & A & B); [exact L| |intros ? []|].
      * intros c' I. apply in_app_or in I. destruct I as [I|[<-|I]];
          [specialize (P _ I)| |specialize (M _ I)]; lia.
      * exists pre', c', post'. split; [exact E|]. split; [|auto]. rewrite <- Hm. f_equal.
        repeat (rewrite ?app_length; cbn [length app]). lia.
    + specialize (IH pre c (mid ++ [d])).
      replace (pre ++ c :: (mid ++ [d]) ++ op) with (pre ++ c :: mid ++ d :: op) in IH
        by (rewrite <- app_assoc; reflexivity).
      destruct IH as (pre' & c' & post' & E & Hm & A & B); [exact L|exact P| |].
      * intros c' I. apply in_app_or in I. destruct I as [I|[<-|[]]]; [apply M; exact I|lia].
      * exists pre', c', post'. split; [exact E|]. split; [|auto]. rewrite <- Hm. f_equal.
        repeat (rewrite ?app_length; cbn [length app]). lia.
Qed.

Lemma oldest_spec op : op <> [] -> Forall live op ->
  exists pre c post, op = pre ++ c :: post /\ oldest_slot (map slot_of op) = Ok (length pre) /\
    (forall d, In d pre -> ctime c < ctime d) /\ (forall d, In d post -> ctime c <= ctime d).
Proof.
  intros N L. destruct op as [|c op]; [congruence|].
  destruct (min_slot_spec op [] c []) as (pre' & c' & post' & E & Hm & A & B);
    [exact L|intros ? []|intros ? []|].
  exists pre', c', post'. split; [exact E|]. split; [|auto].
  cbn [map oldest_slot]. f_equal. exact Hm.
Qed.

Lemma set_nth_app {A} (pre : list A) c post v :
  set_nth (pre ++ c :: post) (length pre) v = Some (pre ++ v :: post).
Proof. induction pre as [|a pre IH]; cbn; [reflexivity|]. rewrite IH. reflexivity. Qed.

(** * One hit *)

(** The relation between the model's loop state and the specification's. *)
Definition st_rel (n : nat) (op closed : list cl) (st : list slot * Z) : Prop :=
  fst st = map slot_of op ++ empties (length op) (n - length op) /\
  snd st = Z.of_nat (n + length closed) /\
  Forall live op /\ (length op <= n)%nat.

Lemma step_refines n cfg hs ls op closed st h :
  (0 < n)%nat -> hit_ok h -> clusters n (fits_code cfg) hs ls op closed -> st_rel n op closed st ->
  exists st' l op' closed', abs_step cfg st h = Ok (st', Z.of_nat l) /\
    st_rel n op' closed' st' /\
    clusters n (fits_code cfg) (hs ++ [h]) (ls ++ [l]) op' closed'.
Proof.
  intros Hn Hh C (E1 & E2 & L & Len). destruct st as [cs m]. cbn [fst snd] in *. subst cs m.
  destruct (first_fit (fits_code cfg) (fits_code_dec cfg) h op)
    as [(pre & c & post & -> & F & N)|N].
  - eexists. exists (cl_id c), (pre ++ Cl (cl_id c) (cl_hits c ++ [h]) :: post), closed.
    unfold abs_step. rewrite (scan_hit cfg h pre c post _ L F N). cbn [obind].
    split; [reflexivity|]. split.
    + unfold st_rel. cbn [fst snd].
      assert (LL : length (pre ++ Cl (cl_id c) (cl_hits c ++ [h]) :: post) = length (pre ++ c :: post))
        by (rewrite !app_length; reflexivity).
      rewrite LL. repeat split; [| exact Len].
      apply Forall_app in L. destruct L as [L1 L2]. inversion L2; subst.
      apply Forall_app. split; [exact L1|]. constructor; [|assumption].
      unfold live. cbn. destruct (cl_hits c); discriminate.
    + apply cs_join; assumption.
  - destruct (Nat.lt_ge_cases (length op) n) as [Lt|Ge].
    + destruct (n - length op)%nat as [|k] eqn:Ek; [lia|].
      eexists. exists (length op), (op ++ [Cl (length op) [h]]), closed.
      unfold abs_step. rewrite scan_miss by assumption. rewrite scan_empties by exact Hh.
      cbn [obind]. split; [reflexivity|]. split.
      * unfold st_rel. cbn [fst snd]. rewrite app_length. cbn [length].
        rewrite map_app, <- app_assoc. cbn [map app].
        replace (n - (length op + 1))%nat with k by lia.
        replace (length op + 1)%nat with (S (length op)) by lia.
        repeat split; [|lia]. apply Forall_app. split; [exact L|].
        constructor; [unfold live; discriminate|constructor].
      * apply cs_open; assumption.
    + assert (En : length op = n) by lia.
      replace (n - length op)%nat with 0%nat by lia.
      destruct (oldest_spec op) as (pre & c & post & E & Ho & A & B);
        [destruct op; [cbn in *; lia|discriminate]|exact L|].
      eexists. exists (n + length closed)%nat, (pre ++ Cl (n + length closed) [h] :: post),
        (closed ++ [c]).
      unfold abs_step. rewrite scan_miss by assumption.
      cbn [empties seq map scan obind]. rewrite app_nil_r, Ho. cbn [obind].
      rewrite slot_of_new by exact Hh. cbn [obind].
      assert (Esn : set_nth (map slot_of op) (length pre) (slot_of (Cl (n + length closed) [h])) =
        Some (map slot_of (pre ++ Cl (n + length closed) [h] :: post))).
      { rewrite E, !map_app. cbn [map].
        replace (length pre) with (length (map slot_of pre)) by apply map_length.
        apply set_nth_app. }
      rewrite Esn.
      split; [reflexivity|].
      assert (LL : length (pre ++ Cl (n + length closed) [h] :: post) = n)
        by (rewrite E in En; rewrite app_length in En |- *; exact En).
      assert (Lc : Forall live (pre ++ c :: post)) by (rewrite <- E; exact L).
      pose proof Lc as Lc'. apply Forall_app in Lc'. destruct Lc' as [L1 L2].
      inversion L2 as [|? ? Lcc L3]; subst.
      split.
      * unfold st_rel. cbn [fst snd]. rewrite LL, Nat.sub_diag. cbn [empties seq map].
        rewrite app_nil_r. split; [reflexivity|]. split; [rewrite (app_length closed); cbn [length]; lia|].
        split; [|lia]. apply Forall_app. split; [exact L1|].
        constructor; [unfold live; discriminate|exact L3].
      * apply cs_evict with (t := ctime c); try assumption; try reflexivity.
        -- apply opened_ctime. auto.
        -- intros c' t' I O. apply opened_ctime in O. destruct O as [_ ->]. apply A. exact I.
        -- intros c' t' I O. apply opened_ctime in O. destruct O as [_ ->]. apply B. exact I.
Qed.

(** * All hits *)

Lemma set_nth_length {A} (l l' : list A) i v : set_nth l i v = Some l' -> length l' = length l.
Proof.
  revert i l'. induction l as [|a l IH]; intros [|i] l' H; cbn in H; try discriminate.
  - inversion H. reflexivity.
  - destruct (set_nth l i v) eqn:E; [|discriminate]. inversion H. cbn. f_equal. eauto.
Qed.

Lemma label_loop_refines n cfg : (0 < n)%nat -> forall data hs ls op closed st tail,
  Forall hit_ok data -> clusters n (fits_code cfg) hs ls op closed -> st_rel n op closed st ->
  length tail = length data ->
  exists ls' op' closed',
    label_loop cfg data (length ls) st (map Z.of_nat ls ++ tail) =
      Ok (map Z.of_nat (ls ++ ls'), Z.of_nat (n + length closed')) /\
    clusters n (fits_code cfg) (hs ++ data) (ls ++ ls') op' closed' /\ Forall live op' /\
    (length op' <= n)%nat.
Proof.
  intros Hn. induction data as [|h data IH]; intros hs ls op closed st tail Hd C R Lt.
  - exists [], op, closed. destruct R as (R1 & R2 & R3 & R4). rewrite !app_nil_r. cbn [label_loop].
    destruct tail; [|discriminate]. rewrite app_nil_r, R2. auto.
  - inversion Hd as [|? ? Hh Hd']; subst.
    destruct (step_refines n cfg hs ls op closed st h Hn Hh C R)
      as (st' & l & op' & closed' & Es & R' & C').
    destruct tail as [|t tail]; [discriminate|]. cbn [label_loop]. rewrite Es. cbn [obind].
    destruct st' as [cs' m'].
    replace (length ls) with (length (map Z.of_nat ls)) by apply map_length.
    rewrite set_nth_app. rewrite map_length.
    specialize (IH (hs ++ [h]) (ls ++ [l]) op' closed' (cs', m') tail Hd' C' R').
    destruct IH as (ls' & op2 & closed2 & E2 & C2 & L2); [cbn in Lt; lia|].
    exists (l :: ls'), op2, closed2.
    rewrite <- !app_assoc in C2. cbn [app] in C2.
    replace (S (length ls)) with (length (ls ++ [l])) by (rewrite app_length; cbn; lia).
    replace (map Z.of_nat ls ++ Z.of_nat l :: tail) with (map Z.of_nat (ls ++ [l]) ++ tail)
      by (rewrite map_app, <- app_assoc; reflexivity).
    rewrite E2, <- app_assoc. auto.
Qed.

(** * The index lists *)

Lemma at_index_nat {A} (l : list A) n : at_index l (Z.of_nat n) = nth_error l n.
Proof. unfold at_index. replace (Z.of_nat n <? 0) with false by lia. rewrite Nat2Z.id. reflexivity. Qed.

Lemma set_nth_some {A} (l : list A) i v x : nth_error l i = Some x ->
  exists l', set_nth l i v = Some l' /\ length l' = length l /\
    forall j, nth_error l' j = if Nat.eqb j i then Some v else nth_error l j.
Proof.
  revert i. induction l as [|a l IH]; intros [|i] H; try discriminate.
  - exists (v :: l). repeat split. intros [|j]; reflexivity.
  - cbn in H. destruct (IH i H) as (l' & E & L & N). exists (a :: l'). cbn. rewrite E.
    repeat split; [cbn; lia|]. intros [|j]; [reflexivity|]. cbn. apply N.
Qed.

Definition positions_from (i : nat) (l : nat) (ls : list nat) : list nat :=
  map (fun k => (i + k)%nat) (positions l ls).

Lemma filter_map {A B} (f : A -> B) p l : filter p (map f l) = map f (filter (fun a => p (f a)) l).
Proof. induction l as [|a l IH]; cbn; [reflexivity|]. rewrite IH. destruct (p (f a)); reflexivity. Qed.

Lemma positions_cons l l0 ls :
  positions l (l0 :: ls) = (if Nat.eqb l0 l then [0%nat] else []) ++ map S (positions l ls).
Proof.
  unfold positions. cbn [length seq filter nth_error]. rewrite <- seq_shift, filter_map. cbn.
  destruct (Nat.eqb l0 l); reflexivity.
Qed.

Lemma index_loop_spec ls : forall i idx, Forall (fun l => (l < length idx)%nat) ls ->
  exists idx', index_loop (map Z.of_nat ls) i idx = Ok idx' /\ length idx' = length idx /\
    forall l v, nth_error idx l = Some v ->
      nth_error idx' l = Some (v ++ positions_from i l ls).
Proof.
  induction ls as [|l ls IH]; intros i idx F.
  - exists idx. split; [reflexivity|]. split; [reflexivity|]. intros l v H. rewrite H.
    unfold positions_from, positions. cbn. rewrite app_nil_r. reflexivity.
  - inversion F as [|? ? Hl F']; subst. cbn [map index_loop]. rewrite at_index_nat.
    destruct (nth_error idx l) as [v|] eqn:E; [|apply nth_error_None in E; lia].
    rewrite Nat2Z.id.
    destruct (set_nth_some idx l (v ++ [i]) v E) as (idx1 & E1 & L1 & N1). rewrite E1.
    destruct (IH (S i) idx1) as (idx' & E' & L' & N').
    { eapply Forall_impl; [|exact F']. cbn. intros a Ha. lia. }
    exists idx'. split; [exact E'|]. split; [lia|]. intros l' v' H'.
    assert (X : nth_error idx1 l' = Some (v' ++ if Nat.eqb l l' then [i] else [])).
    { rewrite N1. rewrite (Nat.eqb_sym l l'). destruct (Nat.eqb_spec l' l) as [->|Ne].
      - f_equal. congruence.
      - rewrite app_nil_r. exact H'. }
    rewrite (N' l' _ X). f_equal. rewrite <- app_assoc. f_equal.
    unfold positions_from. rewrite positions_cons, map_app. f_equal.
    + destruct (Nat.eqb l l'); [cbn; f_equal; lia|reflexivity].
    + rewrite map_map. apply map_ext. intros a. lia.
Qed.

(** * Facts about the specification *)

Section SpecFacts.
Variable n : nat.
Variable fits : cl -> hit -> Prop.

Notation clusters := (clusters n fits).

Lemma clusters_length hs ls op closed : clusters hs ls op closed -> length ls = length hs.
Proof. induction 1; rewrite ?app_length in *; cbn in *; lia. Qed.

Lemma clusters_live hs ls op closed : clusters hs ls op closed ->
  Forall live op /\ Forall live closed.
Proof.
  induction 1 as [|hs ls pre c post closed h H [I1 I2] F N|hs ls op closed h H [I1 I2] N L
                  |hs ls pre c post closed h t H [I1 I2] N L O A B].
  - split; constructor.
  - split; [|exact I2]. apply Forall_app in I1. destruct I1 as [I1 I3]. inversion I3; subst.
    apply Forall_app. split; [exact I1|]. constructor; [|assumption].
    unfold live. cbn. destruct (cl_hits c); discriminate.
  - split; [|exact I2]. apply Forall_app. split; [exact I1|]. constructor; [discriminate|constructor].
  - apply Forall_app in I1. destruct I1 as [I1 I3]. inversion I3; subst. split.
    + apply Forall_app. split; [exact I1|]. constructor; [discriminate|assumption].
    + apply Forall_app. split; [exact I2|]. constructor; [assumption|constructor].
Qed.

Lemma clusters_width hs ls op closed : clusters hs ls op closed ->
  (length op <= n)%nat /\ (closed <> [] -> length op = n).
Proof.
  induction 1 as [|hs ls pre c post closed h H [I1 I2] F N|hs ls op closed h H [I1 I2] N L
                  |hs ls pre c post closed h t H [I1 I2] N L O A B]; cbn.
  - split; [lia|congruence].
  - rewrite app_length in *. cbn in *. split; [lia|]. intros Hc. specialize (I2 Hc). lia.
  - rewrite app_length. cbn. split; [lia|]. intros Hc. specialize (I2 Hc). lia.
  - rewrite app_length in *. cbn in *. split; [lia|]. intros _. lia.
Qed.

(** The identifiers in use are distinct and are 0, 1, ... *)
Lemma clusters_ids hs ls op closed : clusters hs ls op closed ->
  Permutation (map cl_id (op ++ closed)) (seq 0 (length op + length closed)).
Proof.
  intros H. induction H as [|hs ls pre c post closed h H IH F N|hs ls op closed h H IH N L
                  |hs ls pre c post closed h t H IH N L O A B].
  - constructor.
  - rewrite !map_app, !app_length in *. cbn in *. exact IH.
  - assert (W : closed = []).
    { destruct closed as [|a closed]; [reflexivity|]. apply clusters_width in H.
      destruct H as [_ H]. specialize (H ltac:(discriminate)). lia. }
    subst closed. rewrite !app_nil_r in *. rewrite map_app, app_length. cbn [map length cl_id].
    rewrite !Nat.add_0_r in *. rewrite seq_app. cbn. apply Permutation_app_tail. exact IH.
  - assert (E : (length (pre ++ Cl (n + length closed) [h] :: post) + length (closed ++ [c]) =
        length (pre ++ c :: post) + length closed + 1)%nat)
      by (rewrite !app_length; cbn; lia).
    rewrite E, seq_app. rewrite L. cbn [Nat.add seq].
    apply Permutation_trans with (map cl_id ((pre ++ c :: post) ++ closed) ++ [n + length closed]%nat).
    + rewrite !map_app. cbn [map cl_id]. rewrite <- !app_assoc.
      apply Permutation_app_head. cbn [app].
      apply Permutation_trans with (map cl_id post ++ map cl_id closed ++ [cl_id c] ++ [n + length closed]%nat).
      * rewrite !app_assoc. apply Permutation_cons_append.
      * apply Permutation_sym.
        apply Permutation_trans with ((map cl_id post ++ map cl_id closed ++ [n + length closed]%nat) ++ [cl_id c]).
        -- apply Permutation_cons_append.
        -- rewrite <- !app_assoc. do 2 apply Permutation_app_head. apply perm_swap.
    + rewrite <- L. apply Permutation_app_tail. exact IH.
Qed.

Lemma clusters_nodup hs ls op closed : clusters hs ls op closed ->
  NoDup (map cl_id (op ++ closed)).
Proof.
  intros H. apply clusters_ids in H. apply Permutation_sym in H.
  eapply Permutation_NoDup; [exact H|apply seq_NoDup].
Qed.

Lemma clusters_id_bound hs ls op closed c : clusters hs ls op closed ->
  In c (op ++ closed) -> (cl_id c < length op + length closed)%nat.
Proof.
  intros H I. apply clusters_ids in H.
  assert (J : In (cl_id c) (seq 0 (length op + length closed)))
    by (eapply Permutation_in; [exact H|apply in_map; exact I]).
  apply in_seq in J. lia.
Qed.

(** Labels given are identifiers of clusters. *)
Lemma clusters_label_bound hs ls op closed : clusters hs ls op closed ->
  Forall (fun l => (l < length op + length closed)%nat) ls.
Proof.
  intros H. induction H as [|hs ls pre c post closed h H IH F N|hs ls op closed h H IH N L
                  |hs ls pre c post closed h t H IH N L O A B].
  - constructor.
  - rewrite app_length in *. cbn [length] in *. apply Forall_app. split; [exact IH|].
    constructor; [|constructor].
    assert (B := clusters_id_bound _ _ _ _ c H). rewrite !app_length in B. cbn in B. apply B.
    apply in_or_app. left. apply in_or_app. right. left. reflexivity.
  - apply Forall_app. rewrite app_length. cbn [length]. split.
    + eapply Forall_impl; [|exact IH]. cbn. lia.
    + constructor; [lia|constructor].
  - assert (E : (length (pre ++ Cl (n + length closed) [h] :: post) + length (closed ++ [c]) =
        length (pre ++ c :: post) + length closed + 1)%nat)
      by (rewrite !app_length; cbn; lia).
    rewrite E. apply Forall_app. split.
    + eapply Forall_impl; [|exact IH]. cbn. lia.
    + constructor; [lia|constructor].
Qed.

Lemma combine_app {A B} (a a' : list A) (b b' : list B) : length a = length b ->
  combine (a ++ a') (b ++ b') = combine a b ++ combine a' b'.
Proof.
  revert b. induction a as [|x a IH]; intros [|y b] H; try discriminate; [reflexivity|].
  cbn. rewrite IH by (cbn in H; lia). reflexivity.
Qed.

Lemma members_app l ls ls' hs hs' : length ls = length hs ->
  members l (ls ++ ls') (hs ++ hs') = members l ls hs ++ members l ls' hs'.
Proof.
  intros H. unfold members. rewrite combine_app by exact H. rewrite filter_app, map_app. reflexivity.
Qed.

Lemma members_one l l' h : members l [l'] [h] = if Nat.eqb l' l then [h] else [].
Proof. unfold members. cbn. destruct (Nat.eqb l' l); reflexivity. Qed.

Lemma members_none l ls hs : Forall (fun x => (x < l)%nat) ls -> members l ls hs = [].
Proof.
  intros H. unfold members. revert hs. induction H as [|x ls Hx Hls IH]; intros [|h hs]; cbn; try reflexivity.
  destruct (Nat.eqb_spec x l); [lia|]. apply IH.
Qed.

(** Every cluster consists of exactly the hits with its label. *)
Lemma clusters_members hs ls op closed : clusters hs ls op closed ->
  forall c, In c (op ++ closed) -> cl_hits c = members (cl_id c) ls hs.
Proof.
  intros H. induction H as [|hs ls pre c post closed h H IH F N|hs ls op closed h H IH N L
                  |hs ls pre c post closed h t H IH N L O A B]; intros d I.
  - destruct I.
  - rewrite members_app by (eapply clusters_length; exact H). rewrite members_one.
    assert (ND := clusters_nodup _ _ _ _ H).
    assert (J : In d ((pre ++ c :: post) ++ closed) \/ d = Cl (cl_id c) (cl_hits c ++ [h])).
    { rewrite <- app_assoc in I |- *. cbn [app] in *. apply in_app_or in I.
      destruct I as [I|[<-|I]].
      - left. apply in_or_app. auto.
      - right. reflexivity.
      - left. apply in_or_app. right. right. exact I. }
    assert (Ic : In c ((pre ++ c :: post) ++ closed)).
    { rewrite <- app_assoc. apply in_or_app. right. left. reflexivity. }
    destruct (Nat.eqb_spec (cl_id c) (cl_id d)) as [E|Ne].
    + assert (Ed : d = Cl (cl_id c) (cl_hits c ++ [h])).
      { clear J. rewrite <- app_assoc in I. cbn [app] in I. rewrite <- app_assoc in ND. cbn [app] in ND.
        rewrite map_app in ND. cbn [map] in ND. apply NoDup_remove_2 in ND.
        apply in_app_or in I. destruct I as [I|[<-|I]]; [|reflexivity|].
        - elim ND. rewrite E. apply in_or_app. left. apply in_map. exact I.
        - elim ND. rewrite E. apply in_or_app. right. apply in_map. exact I. }
      rewrite Ed. cbn [cl_hits cl_id]. rewrite (IH c Ic). reflexivity.
    + destruct J as [J|J]; [|subst d; cbn in Ne; congruence].
      rewrite app_nil_r. apply IH. exact J.
  - rewrite members_app by (eapply clusters_length; exact H). rewrite members_one.
    assert (W : closed = []).
    { destruct closed as [|a closed]; [reflexivity|]. apply clusters_width in H.
      destruct H as [_ H]. specialize (H ltac:(discriminate)). lia. }
    subst closed. rewrite app_nil_r in *. apply in_app_or in I.
    assert (LB := clusters_label_bound _ _ _ _ H). cbn [length] in LB. rewrite Nat.add_0_r in LB.
    destruct I as [I|[<-|[]]].
    + assert (B := clusters_id_bound _ _ _ _ d H). rewrite app_nil_r in B. specialize (B I).
      cbn [length] in B. destruct (Nat.eqb_spec (length op) (cl_id d)); [lia|].
      rewrite app_nil_r. apply IH. exact I.
    + cbn [cl_hits cl_id]. rewrite Nat.eqb_refl. rewrite members_none by exact LB. reflexivity.
  - rewrite members_app by (eapply clusters_length; exact H). rewrite members_one.
    assert (LB := clusters_label_bound _ _ _ _ H). rewrite L in LB.
    assert (J : In d ((pre ++ c :: post) ++ closed) \/ d = Cl (n + length closed) [h]).
    { rewrite <- app_assoc in I |- *. cbn [app] in *. apply in_app_or in I.
      destruct I as [I|[<-|I]].
      - left. apply in_or_app. auto.
      - right. reflexivity.
      - apply in_app_or in I. left. apply in_or_app. right.
        destruct I as [I|I]; [right; apply in_or_app; auto|].
        apply in_app_or in I. destruct I as [I|[<-|[]]]; [right; apply in_or_app; auto|left; reflexivity]. }
    destruct J as [J|J].
    + assert (Bd := clusters_id_bound _ _ _ _ d H J). rewrite L in Bd.
      destruct (Nat.eqb_spec (n + length closed) (cl_id d)); [lia|]. rewrite app_nil_r. apply IH. exact J.
    + subst d. cbn [cl_hits cl_id]. rewrite Nat.eqb_refl, members_none by exact LB. reflexivity.
Qed.

(** Labels are numbered by first use. *)
Lemma clusters_all_used hs ls op closed : clusters hs ls op closed ->
  forall l, (l < length op + length closed)%nat -> In l ls.
Proof.
  intros H. induction H as [|hs ls pre c post closed h H IH F N|hs ls op closed h H IH N L
                  |hs ls pre c post closed h t H IH N L O A B]; intros l Hl.
  - cbn in Hl. lia.
  - rewrite app_length in *. cbn in *. apply in_or_app. left. apply IH. lia.
  - assert (W : closed = []).
    { destruct closed as [|a closed]; [reflexivity|]. apply clusters_width in H.
      destruct H as [_ H]. specialize (H ltac:(discriminate)). lia. }
    subst closed. rewrite app_length in Hl. cbn in *. apply in_or_app.
    destruct (Nat.eq_dec l (length op)) as [->|Ne]; [right; left; reflexivity|left; apply IH; lia].
  - rewrite !app_length in *. cbn in *. apply in_or_app.
    destruct (Nat.eq_dec l (n + length closed)) as [->|Ne]; [right; left; reflexivity|left; apply IH; lia].
Qed.

Lemma firstn_len_eq {A} (l : list A) k : length l = k -> firstn k l = l.
Proof. intros <-. apply firstn_all. Qed.

(** A prefix of a run is a run. *)
Lemma clusters_prefix hs ls op closed : clusters hs ls op closed ->
  forall k, (k <= length hs)%nat ->
  exists op' closed', clusters (firstn k hs) (firstn k ls) op' closed' /\
    exists more, closed = closed' ++ more.
Proof.
  intros H. pose proof (clusters_length _ _ _ _ H) as Len.
  induction H as [|hs ls pre c post closed h H IH F N|hs ls op closed h H IH N L
                  |hs ls pre c post closed h t H IH N L O A B]; intros k Hk;
    try (assert (Len' := clusters_length _ _ _ _ H);
         destruct (Nat.eq_dec k (length (hs ++ [h]))) as [->|Ne];
         [|rewrite app_length in Hk, Ne; cbn in Hk, Ne;
           rewrite !firstn_app; replace (k - length hs)%nat with 0%nat by lia;
           replace (k - length ls)%nat with 0%nat by lia; cbn [firstn]; rewrite !app_nil_r;
           destruct (IH Len' k ltac:(lia)) as (op' & closed' & C' & more & E);
           exists op', closed'; split; [exact C'|]]).
  - exists [], []. rewrite !firstn_nil. split; [constructor|exists []; reflexivity].
  - rewrite firstn_all. rewrite (firstn_len_eq _ _ Len).
    eexists. eexists. split; [apply cs_join; eassumption|exists []; rewrite app_nil_r; reflexivity].
  - exists more. exact E.
  - rewrite firstn_all. rewrite (firstn_len_eq _ _ Len).
    eexists. eexists. split; [apply cs_open; eassumption|exists []; rewrite app_nil_r; reflexivity].
  - exists more. exact E.
  - rewrite firstn_all. rewrite (firstn_len_eq _ _ Len).
    eexists. eexists. split; [eapply cs_evict; eassumption|exists []; rewrite app_nil_r; reflexivity].
  - exists (more ++ [c]). rewrite E, <- app_assoc. reflexivity.
Qed.

(** Runs are deterministic. *)
Lemma split_unique {A} (P : A -> Prop) pre (c : A) post pre' c' post' :
  pre ++ c :: post = pre' ++ c' :: post' ->
  P c -> P c' -> (forall x, In x pre -> ~ P x) -> (forall x, In x pre' -> ~ P x) ->
  pre = pre' /\ c = c' /\ post = post'.
Proof.
  revert pre'. induction pre as [|a pre IH]; intros [|a' pre'] E Pc Pc' N N'; cbn in E.
  - inversion E; auto.
  - inversion E; subst. elim (N' a'); [left; reflexivity|exact Pc].
  - inversion E; subst. elim (N c'); [left; reflexivity|exact Pc'].
  - inversion E; subst. destruct (IH pre' H1) as (-> & -> & ->); auto.
    + intros x I. apply N. right. exact I.
    + intros x I. apply N'. right. exact I.
Qed.

Lemma oldest_unique pre c post pre' c' post' t t' :
  pre ++ c :: post = pre' ++ c' :: post' -> Forall live (pre ++ c :: post) ->
  opened_at c t -> opened_at c' t' ->
  (forall d u, In d pre -> opened_at d u -> t < u) -> (forall d u, In d post -> opened_at d u -> t <= u) ->
  (forall d u, In d pre' -> opened_at d u -> t' < u) -> (forall d u, In d post' -> opened_at d u -> t' <= u) ->
  pre = pre' /\ c = c' /\ post = post'.
Proof.
  revert pre'. induction pre as [|a pre IH]; intros [|a' pre'] E Lv O O' P1 P2 P1' P2'; cbn in E.
  - inversion E; auto.
  - inversion E; subst.
    specialize (P1' a' t (or_introl eq_refl) O).
    specialize (P2 c' t' ltac:(apply in_or_app; right; left; reflexivity) O'). lia.
  - inversion E; subst.
    specialize (P1 c' t' (or_introl eq_refl) O').
    specialize (P2' c t ltac:(apply in_or_app; right; left; reflexivity) O). lia.
  - inversion E; subst. cbn in Lv. inversion Lv; subst. destruct (IH pre' H1) as (-> & -> & ->); auto.
    + intros d u I. apply P1. right. exact I.
    + intros d u I. apply P1'. right. exact I.
Qed.

Lemma clusters_unique hs ls op closed : clusters hs ls op closed ->
  forall ls' op' closed', clusters hs ls' op' closed' ->
  ls = ls' /\ op = op' /\ closed = closed'.
Proof.
  intros H. induction H as [|hs ls pre c post closed h H IH F N|hs ls op closed h H IH N L
                  |hs ls pre c post closed h t H IH N L O A B]; intros ls' op' closed' H'.
  - inversion H' as [|hs' ? ? ? ? ? ? ? ? ? E|hs' ? ? ? ? ? ? ? E|hs' ? ? ? ? ? ? ? ? ? ? ? ? ? E];
      [auto| | |]; destruct hs'; discriminate.
  - inversion H' as [E|hs' ls2 pre2 c2 post2 cl2 h2 H2 F2 N2 E|hs' ls2 op2 cl2 h2 H2 N2 L2 E
      |hs' ls2 pre2 c2 post2 cl2 h2 t2 H2 N2 L2 O2 A2 B2 E]; subst.
    + destruct hs; discriminate.
    + apply app_inj_tail in E. destruct E as [-> ->].
      destruct (IH _ _ _ H2) as (-> & E2 & ->).
      destruct (split_unique (fun x => fits x h) _ _ _ _ _ _ E2 F F2 N N2) as (-> & -> & ->). auto.
    + apply app_inj_tail in E. destruct E as [-> ->].
      destruct (IH _ _ _ H2) as (-> & <- & ->). elim (N2 c); [|exact F].
      apply in_or_app. right. left. reflexivity.
    + apply app_inj_tail in E. destruct E as [-> ->].
      destruct (IH _ _ _ H2) as (-> & E2 & ->). elim (N2 c); [|exact F].
      rewrite <- E2. apply in_or_app. right. left. reflexivity.
  - inversion H' as [E|hs' ls2 pre2 c2 post2 cl2 h2 H2 F2 N2 E|hs' ls2 op2 cl2 h2 H2 N2 L2 E
      |hs' ls2 pre2 c2 post2 cl2 h2 t2 H2 N2 L2 O2 A2 B2 E]; subst.
    + destruct hs; discriminate.
    + apply app_inj_tail in E. destruct E as [-> ->].
      destruct (IH _ _ _ H2) as (-> & -> & ->). elim (N c2); [|exact F2].
      apply in_or_app. right. left. reflexivity.
    + apply app_inj_tail in E. destruct E as [-> ->].
      destruct (IH _ _ _ H2) as (-> & -> & ->). auto.
    + apply app_inj_tail in E. destruct E as [-> ->].
      destruct (IH _ _ _ H2) as (-> & -> & ->). lia.
  - inversion H' as [E|hs' ls2 pre2 c2 post2 cl2 h2 H2 F2 N2 E|hs' ls2 op2 cl2 h2 H2 N2 L2 E
      |hs' ls2 pre2 c2 post2 cl2 h2 t2 H2 N2 L2 O2 A2 B2 E].
    + destruct hs; discriminate.
    + apply app_inj_tail in E. destruct E as [-> ->].
      destruct (IH _ _ _ H2) as (-> & E2 & ->). elim (N c2); [|exact F2].
      rewrite E2. apply in_or_app. right. left. reflexivity.
    + apply app_inj_tail in E. destruct E as [-> ->].
      destruct (IH _ _ _ H2) as (-> & E2 & ->). rewrite <- E2 in *. lia.
    + apply app_inj_tail in E. destruct E as [-> ->].
      destruct (IH _ _ _ H2) as (-> & E2 & ->).
      pose proof (clusters_live _ _ _ _ H) as [Lv _].
      destruct (oldest_unique _ _ _ _ _ _ _ _ E2 Lv O O2 A B A2 B2) as (-> & -> & ->). auto.
Qed.

(** What labels say about each hit: it fitted the cluster as it was then, or
    it opened a new one. *)
Lemma clusters_soundness hs ls op closed : clusters hs ls op closed ->
  forall i l h, nth_error ls i = Some l -> nth_error hs i = Some h ->
  members l (firstn i ls) (firstn i hs) <> [] ->
  fits (Cl l (members l (firstn i ls) (firstn i hs))) h.
Proof.
  intros H. pose proof (clusters_length _ _ _ _ H) as Len.
  induction H as [|hs ls pre c post closed h H IH F N|hs ls op closed h H IH N L
                  |hs ls pre c post closed h t H IH N L O A B]; intros i l h0 Hl Hh M;
    try (destruct i; discriminate);
    assert (Len' := clusters_length _ _ _ _ H);
    (destruct (Nat.lt_ge_cases i (length ls)) as [Lt|Ge];
     [rewrite nth_error_app1 in Hl, Hh by lia;
      rewrite !firstn_app in M |- *; replace (i - length hs)%nat with 0%nat in * by lia;
      replace (i - length ls)%nat with 0%nat in * by lia; cbn [firstn] in *; rewrite !app_nil_r in *;
      apply (IH Len' i); assumption|]);
    (assert (Ei : i = length ls);
     [destruct (Nat.eq_dec i (length ls)) as [->|Ne]; [reflexivity|];
      assert (X : nth_error (ls ++ [l]) i = None) by (apply nth_error_None; rewrite app_length; cbn; lia);
      rewrite nth_error_app2 in Hl by lia; destruct (i - length ls)%nat eqn:D; [lia|];
      destruct n0; discriminate|]);
    subst i; rewrite nth_error_app2 in Hl, Hh by lia; rewrite Len' in Hh;
    rewrite Nat.sub_diag in Hl, Hh; cbn in Hl, Hh; injection Hl as <-; injection Hh as <-;
    rewrite !firstn_app in *; rewrite Nat.sub_diag in *; rewrite firstn_all in *;
    rewrite Len' in *; rewrite Nat.sub_diag in *; rewrite firstn_all in *; cbn [firstn] in *;
    rewrite !app_nil_r in *.
  - assert (Ic : In c ((pre ++ c :: post) ++ closed)).
    { rewrite <- app_assoc. apply in_or_app. right. left. reflexivity. }
    rewrite <- (clusters_members _ _ _ _ H c Ic). destruct c. exact F.
  - assert (W : closed = []).
    { destruct closed as [|a closed]; [reflexivity|]. apply clusters_width in H.
      destruct H as [_ H]. specialize (H ltac:(discriminate)). lia. }
    subst closed. elim M. apply members_none.
    assert (LB := clusters_label_bound _ _ _ _ H). cbn [length] in LB. rewrite Nat.add_0_r in LB.
    exact LB.
  - elim M. apply members_none. assert (LB := clusters_label_bound _ _ _ _ H).
    rewrite L in LB. exact LB.
Qed.

(** Labels in order of first use. *)
Lemma clusters_first_use hs ls op closed : clusters hs ls op closed ->
  forall i l, nth_error ls i = Some l -> forall l', (l' < l)%nat -> In l' (firstn i ls).
Proof.
  intros H. pose proof (clusters_length _ _ _ _ H) as Len.
  induction H as [|hs ls pre c post closed h H IH F N|hs ls op closed h H IH N L
                  |hs ls pre c post closed h t H IH N L O A B]; intros i l Hl l' Hlt;
    try (destruct i; discriminate);
    assert (Len' := clusters_length _ _ _ _ H);
    (destruct (Nat.lt_ge_cases i (length ls)) as [Lt|Ge];
     [rewrite nth_error_app1 in Hl by lia; rewrite firstn_app;
      replace (i - length ls)%nat with 0%nat by lia; cbn [firstn]; rewrite app_nil_r;
      eapply IH; eassumption|]);
    rewrite nth_error_app2 in Hl by lia;
    (destruct (i - length ls)%nat as [|k] eqn:D; [|destruct k; discriminate]);
    assert (i = length ls) by lia; subst i; cbn in Hl; injection Hl as <-;
    rewrite firstn_app, Nat.sub_diag, firstn_all; cbn [firstn]; rewrite app_nil_r;
    apply (clusters_all_used _ _ _ _ H).
  - assert (B := clusters_id_bound _ _ _ _ c H).
    assert (Ic : In c ((pre ++ c :: post) ++ closed)).
    { rewrite <- app_assoc. apply in_or_app. right. left. reflexivity. }
    specialize (B Ic). lia.
  - lia.
  - lia.
Qed.

(** A closed cluster is never used again. *)
Lemma clusters_closed hs ls op closed : clusters hs ls op closed ->
  forall k op' closed', clusters (firstn k hs) (firstn k ls) op' closed' ->
  forall c i, In c closed' -> (k <= i)%nat -> nth_error ls i <> Some (cl_id c).
Proof.
  intros H. pose proof (clusters_length _ _ _ _ H) as Len.
  induction H as [|hs ls pre c post closed h H IH F N|hs ls op closed h H IH N L
                  |hs ls pre c post closed h t H IH N L O A B]; intros k op' closed' C' d i Id Hk E;
    try (destruct i; discriminate);
    assert (Len' := clusters_length _ _ _ _ H);
    (assert (Kl : (k <= length ls)%nat) by
      (assert (nth_error (ls ++ _) i <> None) as X by (rewrite E; discriminate);
       apply nth_error_Some in X; rewrite app_length in X; cbn in X; lia));
    (rewrite !firstn_app in C'; replace (k - length hs)%nat with 0%nat in C' by lia;
     replace (k - length ls)%nat with 0%nat in C' by lia; cbn [firstn] in C'; rewrite !app_nil_r in C');
    (destruct (Nat.lt_ge_cases i (length ls)) as [Lt|Ge];
     [rewrite nth_error_app1 in E by lia; exact (IH Len' k op' closed' C' d i Id Hk E)|]);
    (rewrite nth_error_app2 in E by lia;
     destruct (i - length ls)%nat as [|j] eqn:D; [|destruct j; discriminate]);
    cbn in E; injection E as E;
    (destruct (clusters_prefix _ _ _ _ H k ltac:(lia)) as (op2 & closed2 & C2 & more & Em);
     destruct (clusters_unique _ _ _ _ C' _ _ _ C2) as (_ & -> & ->));
    (assert (Ic : In d closed) by (rewrite Em; apply in_or_app; left; exact Id)).
  - assert (ND := clusters_nodup _ _ _ _ H). rewrite <- app_assoc, map_app in ND. cbn [app map] in ND.
    apply NoDup_remove_2 in ND. apply ND. rewrite E. rewrite <- map_app. apply in_map.
    apply in_or_app. right. apply in_or_app. right. exact Ic.
  - apply clusters_width in H. destruct H as [_ W].
    assert (closed <> []) by (intros ->; destruct Ic). specialize (W H). lia.
  - assert (Bd := clusters_id_bound _ _ _ _ d H ltac:(apply in_or_app; right; exact Ic)). lia.
Qed.

End SpecFacts.

(** * fit *)

Lemma st_rel_init n : st_rel n [] [] (init_slots n, Z.of_nat n).
Proof.
  unfold st_rel. cbn [fst snd map app length]. rewrite Nat.sub_0_r, Nat.add_0_r.
  repeat split; [constructor|lia].
Qed.

Lemma vresize_nil {A} n (v : A) : vresize [] n v = repeat v n.
Proof. unfold vresize. rewrite firstn_nil. cbn. rewrite Nat.sub_0_r. reflexivity. Qed.

Lemma nth_error_repeat {A} (v : A) n i : (i < n)%nat -> nth_error (repeat v n) i = Some v.
Proof.
  revert i. induction n as [|n IH]; intros i H; [lia|]. destruct i; [reflexivity|]. cbn. apply IH. lia.
Qed.

Lemma fit_refines n cfg o data : (0 < n)%nat -> Forall hit_ok data ->
  exists ls op closed o', abs_fit n cfg o data = Ok o' /\
    clusters n (fits_code cfg) data ls op closed /\
    o_method o' = o_method o /\ o_labels o' = map Z.of_nat ls /\
    length (o_indices o') = (n + length closed + 1)%nat /\
    (forall l, (l < length (o_indices o'))%nat ->
       nth_error (o_indices o') l = Some (positions l ls)).
Proof.
  intros Hn Hd. unfold abs_fit. cbn [firstn]. rewrite vresize_nil.
  destruct (label_loop_refines n cfg Hn data [] [] [] [] (init_slots n, Z.of_nat n)
    (repeat (-1) (length data)) Hd (cs_start n (fits_code cfg)) (st_rel_init n))
    as (ls & op & closed & E & C & L & W); [apply repeat_length|].
  cbn [length map app] in E, C. rewrite E. cbn [obind]. rewrite vresize_nil.
  replace (Z.to_nat (Z.of_nat (n + length closed) + 1)) with (n + length closed + 1)%nat by lia.
  destruct (index_loop_spec ls 0 (repeat [] (n + length closed + 1)%nat))
    as (idx & Ei & Li & Ni).
  { rewrite repeat_length. apply clusters_label_bound in C. eapply Forall_impl; [|exact C].
    cbn. intros a Ha. lia. }
  rewrite Ei. cbn [obind]. exists ls, op, closed. eexists. split; [reflexivity|].
  cbn [o_method o_labels o_indices]. rewrite repeat_length in Li.
  split; [exact C|]. split; [reflexivity|]. split; [reflexivity|]. split; [exact Li|].
  intros l Hl. rewrite (Ni l []).
  - f_equal. unfold positions_from. cbn. rewrite <- map_id. apply map_ext. reflexivity.
  - apply nth_error_repeat. lia.
Qed.

(** The specification with an equivalent notion of fitting is the same. *)
Lemma clusters_sub n f hs ls op closed c : clusters n f hs ls op closed -> In c (op ++ closed) ->
  live c /\ forall a, In a (cl_hits c) -> In a hs.
Proof.
  intros H I. split.
  - destruct (clusters_live _ _ _ _ _ _ H) as [LA LB]. apply in_app_or in I.
    rewrite Forall_forall in LA, LB. destruct I; auto.
  - intros a Ia. rewrite (clusters_members _ _ _ _ _ _ H c I) in Ia. unfold members in Ia.
    apply in_map_iff in Ia. destruct Ia as ((x & y) & <- & Ia). apply filter_In in Ia.
    destruct Ia as [Ia _]. apply in_combine_r in Ia. exact Ia.
Qed.

Definition fits_agree (f g : cl -> hit -> Prop) (hs : list hit) : Prop :=
  forall c h, live c -> In h hs -> (forall a, In a (cl_hits c) -> In a hs) -> (f c h <-> g c h).

Lemma fits_agree_app f g hs h : fits_agree f g (hs ++ [h]) -> fits_agree f g hs.
Proof.
  intros A c h0 L I S. apply A; [exact L|apply in_or_app; auto|].
  intros a Ia. apply in_or_app. left. apply S. exact Ia.
Qed.

Lemma fits_agree_last n f f' g hs ls op closed h c : fits_agree f g (hs ++ [h]) ->
  clusters n f' hs ls op closed -> In c (op ++ closed) -> (f c h <-> g c h).
Proof.
  intros A H I. destruct (clusters_sub _ _ _ _ _ _ c H I) as [Lv Sb].
  apply A; [exact Lv|apply in_or_app; right; left; reflexivity|].
  intros a Ia. apply in_or_app. left. apply Sb. exact Ia.
Qed.

Lemma clusters_ext n f g hs ls op closed :
  fits_agree f g hs -> clusters n f hs ls op closed -> clusters n g hs ls op closed.
Proof.
  intros Hfg H. revert Hfg.
  induction H as [|hs ls pre c post closed h H IH F N|hs ls op closed h H IH N L
                  |hs ls pre c post closed h t H IH N L O A B]; intros Hfg.
  - constructor.
  - apply cs_join; [apply IH; eapply fits_agree_app; exact Hfg| |].
    + apply (fits_agree_last n f f g _ _ _ _ _ c Hfg H); [|exact F].
      apply in_or_app. left. apply in_or_app. right. left. reflexivity.
    + intros c' I G. apply (N c' I). apply (fits_agree_last n f f g _ _ _ _ _ c' Hfg H); [|exact G].
      apply in_or_app. left. apply in_or_app. left. exact I.
  - apply cs_open; [apply IH; eapply fits_agree_app; exact Hfg| |exact L].
    intros c' I G. apply (N c' I). apply (fits_agree_last n f f g _ _ _ _ _ c' Hfg H); [|exact G].
    apply in_or_app. left. exact I.
  - apply cs_evict with (t := t); try assumption.
    + apply IH. eapply fits_agree_app. exact Hfg.
    + intros c' I G. apply (N c' I).
      apply (fits_agree_last n f f g _ _ _ _ _ c' Hfg H); [|exact G].
      apply in_or_app. left. exact I.
Qed.
