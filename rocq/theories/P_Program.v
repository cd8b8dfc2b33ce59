(** Proofs about the whole command line program. *)
From Coq Require Import Reals String Ascii Permutation.
From Flocq Require Import Core.
From Verif Require Export S_Program P_Main P_Load P_Bins.
From Coq Require Import Lia ZifyBool.
Local Open Scope Z_scope.
Local Open Scope list_scope.

(** * The configuration *)

Lemma prefs_config w name :
  load_config (env_double w) (env_json w) name (env_config w name) =
  let! s := load_prefs w name in
  match s with
  | None => Ok None
  | Some e => let! edges := get_bin_edges (e_bins e) in Ok (Some (Config (e_abs e) (e_sr e) edges))
  end.
Proof.
  assert (J : forall j, json_config j =
    let! e := json_prefs j in let! edges := get_bin_edges (e_bins e) in Ok (Config (e_abs e) (e_sr e) edges)).
  { intros j. unfold json_config, json_prefs. destruct (json_binning j); cbn [obind]; try reflexivity.
    repeat (match goal with |- context [json_value ?p ?g ?d j] => destruct (json_value p g d j); cbn [obind]; try reflexivity end). }
  unfold load_config, load_prefs. destruct (String.eqb name "").
  - rewrite J. destruct (json_prefs default_json) as [e| | |]; cbn [obind]; try reflexivity.
    destruct (get_bin_edges (e_bins e)); reflexivity.
  - destruct (String.eqb (path_extension name) ".json").
    + unfold json_file. destruct (env_config w name) as [| |s]; try reflexivity. destruct (env_json w s) as [j|]; [|reflexivity].
      rewrite J. destruct (json_prefs j) as [e| | |]; cbn [obind]; try reflexivity.
      destruct (get_bin_edges (e_bins e)); reflexivity.
    + unfold text_config, text_prefs, user_config. destruct (env_config w name) as [| |s]; try reflexivity.
      destruct (parse_lines (env_double w) (lines_of s)) as [a| | |]; cbn [obind]; try reflexivity.
Qed.
Lemma configured_prefs w o cfg : configured w o cfg <-> exists e,
  load_prefs w (o_config o) = Ok (Some e) /\ get_bin_edges (e_bins e) = Ok (g_edges cfg) /\
  e_abs e = g_abs cfg /\ e_sr e = g_sr cfg.
Proof.
  unfold configured. rewrite prefs_config. split.
  - destruct (load_prefs w (o_config o)) as [[e|]| | |]; cbn [obind]; try discriminate.
    destruct (get_bin_edges (e_bins e)) as [l| | |] eqn:G; cbn [obind]; try discriminate. intros H. apply Ok_inj in H.
    injection H as <-. exists e. auto.
  - intros (e & -> & G & A & B). cbn [obind]. rewrite G. cbn [obind]. destruct cfg. cbn in *. subst. reflexivity.
Qed.

(** * Without images the bin edges do not matter *)

Lemma try_no_images (a : list batch) : forall c1 c2 hm st, c_images st = None ->
  try_all (flat_map (statements c1 hm) a) st = try_all (flat_map (statements c2 hm) a) st /\
  (forall st' e, try_all (flat_map (statements c1 hm) a) st = Ok (st', e) -> c_images st' = None).
Proof.
  induction a as [|b a IH]; intros c1 c2 hm st N.
  - split; [reflexivity|]. intros st' e E. cbn in E. congruence.
  - cbn [flat_map]. unfold statements at 1 3 5. cbn [app try_all].
    assert (N1 : forall s, put_hits b st = Ok s -> c_images s = None).
    { intros s. unfold put_hits. destruct (c_hits st); [|congruence]. destruct (append_hits no_fault h (t_hits b)); cbn [obind]; try discriminate.
      intros E. apply Ok_inj in E. subst s. exact N. }
    destruct (put_hits b st) as [s1|k|u|]; try (split; [reflexivity|]; intros st' e E; congruence).
    specialize (N1 s1 eq_refl).
    assert (N2 : forall s, put_events b s1 = Ok s -> c_images s = None).
    { intros s. unfold put_events. destruct (c_events s1); [|congruence]. destruct (append_neutrons no_fault h (t_neutrons b)) as [r f'].
      destruct r; cbn [obind]; try discriminate. intros E. apply Ok_inj in E. subst s. exact N1. }
    destruct (put_events b s1) as [s2|k|u|]; try (split; [reflexivity|]; intros st' e E; congruence).
    specialize (N2 s2 eq_refl). unfold put_images. rewrite N2. cbn. apply IH. exact N2.
Qed.
Lemma run_chunk_no_images ext a sr e1 e2 md hm st m : c_images st = None ->
  run_chunk ext (Config a sr e1) md hm st m = run_chunk ext (Config a sr e2) md hm st m /\
  (forall st' e, run_chunk ext (Config a sr e1) md hm st m = Ok (st', e) -> c_images st' = None).
Proof.
  intros N. unfold run_chunk. destruct (locate md (find_headers m) m (zlen m) (c_ts st)) as [[bs s]|k|u|];
    try (split; [reflexivity|]; intros st' e E; congruence).
  cbn [g_abs]. destruct (process_all ext a md m bs) as [bs'|k|u|];
    try (split; [reflexivity|]; intros st' e E; first [discriminate E|apply Ok_inj in E; injection E as <- _; exact N]).
  apply (try_no_images bs' (Config a sr e1) (Config a sr e2)). exact N.
Qed.
Lemma loop_no_images ext a sr e1 e2 md hm size fuel : forall r st, c_images st = None ->
  chunk_loop fuel ext (Config a sr e1) md hm size r st = chunk_loop fuel ext (Config a sr e2) md hm size r st.
Proof.
  induction fuel as [|fuel IH]; intros r st N; cbn [chunk_loop]; [reflexivity|].
  destruct (is_eof r); [reflexivity|]. destruct (read_chunk size r) as [[|x c] r']; [reflexivity|].
  destruct (run_chunk_no_images ext a sr e1 e2 md hm st (x :: c) N) as [E I]. rewrite <- E.
  destruct (run_chunk ext (Config a sr e1) md hm st (x :: c)) as [[st' k]| | |]; cbn [obind]; try reflexivity.
  apply IH. apply (I st' k). reflexivity.
Qed.

(** The loop does not throw. *)
Lemma chunk_loop_no_throw ext cfg md hm size k fuel : forall r st, chunk_loop fuel ext cfg md hm size r st <> Throw k.
Proof.
  induction fuel as [|fuel IH]; intros r st; cbn [chunk_loop]; destruct (is_eof r); try discriminate.
  destruct (read_chunk size r) as [[|x c] r']; [discriminate|].
  assert (R : forall k', run_chunk ext cfg md hm st (x :: c) <> Throw k').
  { intros k'. unfold run_chunk. destruct (locate _ _ _ _ _) as [[bs s]|?|?|]; try discriminate.
    destruct (process_all _ _ _ _ _) as [bs'|?|?|]; try discriminate.
    generalize (flat_map (statements cfg hm) bs') (set_ts st s). intros l. induction l as [|f l IHl]; intros t; cbn [try_all]; [discriminate|].
    destruct (f t); try discriminate. apply IHl. }
  destruct (run_chunk ext cfg md hm st (x :: c)) as [[st' e]|k'|u|]; cbn [obind]; try discriminate; [apply IH|].
  elim (R k' eq_refl).
Qed.

(** * The program ends *)

Definition ends {A} (o : outcome A) : Prop := o <> OutOfFuel.
Lemma ends_bind {A B} (o : outcome A) (k : A -> outcome B) : ends o -> (forall a, ends (k a)) -> ends (obind o k).
Proof. unfold ends. destruct o; cbn [obind]; intros H K; try discriminate; [apply K|congruence]. Qed.
Ltac ends_tac :=
  repeat (lazymatch goal with
  | |- ends (Ok _) => discriminate
  | |- ends (UB _) => discriminate
  | |- ends (Throw _) => discriminate
  | |- ends (obind _ _) => apply ends_bind; [|intros]
  | |- ends (let (_, _) := ?x in _) => destruct x
  | |- ends (if ?x then _ else _) => destruct x
  | |- ends (match ?x with _ => _ end) => destruct x
  end); auto.

Lemma hit_gdc_ends p tdc gdc chip : ends (hit_gdc p tdc gdc chip).
Proof. rewrite hit_gdc_eq. discriminate. Qed.
Lemma step_ends md x chip p s hits : ends (step md x chip p s hits).
Proof. destruct md; cbn [step]; [unfold step_gdc|unfold step_tdc]; ends_tac; apply hit_gdc_ends. Qed.
Lemma process_loop_ends md x chip m fin n : forall iter s hits, ends (process_loop md x chip m fin n iter s hits).
Proof. induction n; intros; cbn [process_loop]; ends_tac; try apply step_ends. Qed.
Lemma extract_ends md b m fin : ends (extract_hits md b m fin).
Proof. unfold extract_hits, process_packets. ends_tac. apply process_loop_ends. Qed.
Lemma locate_ends md bs m fin : forall s, ends (locate md bs m fin s).
Proof.
  induction bs; intros; cbn [locate]; ends_tac. unfold update_timestamp, process_packets. ends_tac. apply process_loop_ends.
Qed.
Lemma scan_ends cfg h cs : ends (scan cfg h cs).
Proof. induction cs; cbn [scan]; unfold start_slot, hit_time; ends_tac. Qed.
Lemma abs_fit_ends n cfg o data : ends (abs_fit n cfg o data).
Proof.
  assert (L : forall data i st ls, ends (label_loop cfg data i st ls)).
  { intros l. induction l; intros; cbn [label_loop]; ends_tac. unfold abs_step. ends_tac; [apply scan_ends|..];
      unfold oldest_slot, start_slot, hit_time; ends_tac. }
  assert (I : forall ls i idx, ends (index_loop ls i idx)).
  { intros l. induction l; intros; cbn [index_loop]; ends_tac. }
  unfold abs_fit. ends_tac.
Qed.
Lemma ofold_ends {A B} (f : A -> B -> outcome A) l : (forall a b, ends (f a b)) -> forall a, ends (ofold f l a).
Proof. intros H. induction l; intros; cbn [ofold]; ends_tac. Qed.
Lemma fit_of_ends ext m fit data : fit_of ext m = Some fit -> ends (fit data).
Proof.
  assert (T : forall h, ends (get_tof h)) by (intros h; unfold get_tof; ends_tac).
  destruct m; cbn [fit_of]; intros E; try discriminate; injection E as <-.
  - unfold centroid_fit. ends_tac. apply ofold_ends. intros. unfold add_weighted. ends_tac.
  - unfold gauss_fit, get_median. ends_tac. induction data; cbn [gauss_rows]; ends_tac.
Qed.
Lemma events_ends ext cfg o data : ends (abs_get_events ext cfg o data).
Proof.
  unfold abs_get_events. destruct (negb _); [discriminate|]. destruct (o_labels o); [discriminate|].
  destruct (fit_of ext (o_method o)) as [fit|] eqn:F; [|discriminate].
  generalize 0%nat (Z.to_nat (max_label_of z l + 1)). intros k n. revert k.
  assert (G : forall ix, ends (gather data ix)) by (intros ix; induction ix; cbn [gather]; ends_tac).
  induction n; intros; cbn [event_loop]; ends_tac. apply (fit_of_ends _ _ _ _ F).
Qed.
Lemma process_all_ends ext cfg md m bs : ends (process_all ext cfg md m bs).
Proof.
  unfold process_all. generalize abs_new. induction bs; intros; cbn [process_from]; ends_tac. unfold body. ends_tac;
    [apply extract_ends|apply abs_fit_ends|apply events_ends].
Qed.
Lemma add_entry_ends sr edges d ims e : ends (add_entry sr edges d ims e).
Proof. unfold add_entry, pixel_of. ends_tac. Qed.
Lemma statement_ends cfg hm b f st : In f (statements cfg hm b) -> ends (f st).
Proof.
  cbn [statements In]. intros [<-|[<-|[<-|[<-|[]]]]].
  - unfold put_hits, append_hits, hit_columns. ends_tac. generalize (h0 :: l). intros hs.
    induction hs; cbn [tof_values]; ends_tac.
  - unfold put_events. destruct (c_events st) as [f|]; [|discriminate]. unfold append_neutrons.
    destruct (t_neutrons b); [discriminate|]. destruct (extend_all _ _ _ _) as [g' []]; discriminate.
  - unfold put_images, update_images, dim. ends_tac. apply ofold_ends. intros. apply add_entry_ends.
  - discriminate.
Qed.
Lemma try_ends l : (forall f st, In f l -> ends (f st)) -> forall st, ends (try_all l st).
Proof.
  induction l as [|f l IH]; intros H st; cbn [try_all]; [discriminate|]. pose proof (H f st (or_introl eq_refl)) as F.
  destruct (f st); try discriminate; [|congruence]. apply IH. intros g s I. apply H. right. exact I.
Qed.
Lemma run_chunk_ends ext cfg md hm st m : ends (run_chunk ext cfg md hm st m).
Proof.
  unfold run_chunk. pose proof (locate_ends md (find_headers m) m (zlen m) (c_ts st)) as L.
  destruct (locate _ _ _ _ _) as [[bs s]|k|u|]; try discriminate; [|congruence].
  pose proof (process_all_ends ext (g_abs cfg) md m bs) as P.
  destruct (process_all _ _ _ _ _) as [bs'|k|u|]; try discriminate; [|congruence].
  apply try_ends. intros f t I. apply in_flat_map in I. destruct I as (b & _ & I). eapply statement_ends. exact I.
Qed.

Lemma read_chunk_shrinks size r x c r' : is_eof r = false -> read_chunk size r = (x :: c, r') ->
  0 < r_pos r' - r_pos r /\ r_map r' = r_map r.
Proof.
  unfold is_eof, read_chunk. intros N. rewrite N. intros E. injection E as E <-. cbn [r_pos r_map]. split; [|reflexivity].
  apply f_equal with (f := @length Z) in E. rewrite firstn_length in E. cbn [length] in E. unfold zlen in *. lia.
Qed.
Lemma chunk_loop_ends ext cfg md hm size fuel : forall r st,
  (length (r_map r) <= fuel + Z.to_nat (r_pos r))%nat -> 0 <= r_pos r ->
  ends (chunk_loop fuel ext cfg md hm size r st).
Proof.
  induction fuel as [|fuel IH]; intros r st L P; cbn [chunk_loop]; destruct (is_eof r) eqn:I; try discriminate.
  - unfold is_eof, zlen in I. lia.
  - destruct (read_chunk size r) as [[|x c] r'] eqn:E; [discriminate|].
    pose proof (read_chunk_shrinks _ _ _ _ _ I E) as [G M]. apply ends_bind; [apply run_chunk_ends|]. intros [st' e].
    apply IH; rewrite ?M; lia.
Qed.

Lemma set_up_ends e o : ends (set_up e o).
Proof.
  unfold set_up, get_bin_edges, init_images, dim, blank. ends_tac.
Qed.
(** Neither out of fuel nor an exception. *)
Definition calm {A} (o : outcome A) : Prop := match o with Ok _ | UB _ => True | _ => False end.
Lemma calm_bind {A B} (o : outcome A) (k : A -> outcome B) : calm o -> (forall a, calm (k a)) -> calm (obind o k).
Proof. destruct o; cbn; auto. Qed.
Lemma calm_ends {A} (o : outcome A) : calm o -> ends o.
Proof. destruct o; cbn; intros H E; try discriminate; auto. Qed.
Ltac calm_tac :=
  repeat (lazymatch goal with
  | |- calm (Ok _) => exact I
  | |- calm (UB _) => exact I
  | |- calm (obind _ _) => apply calm_bind; [|intros]
  | |- calm (if ?x then _ else _) => destruct x
  | |- calm (match ?x with _ => _ end) => destruct x
  end); auto.
Lemma ofold_calm {A B} (f : A -> B -> outcome A) l : (forall a b, calm (f a b)) -> forall a, calm (ofold f l a).
Proof. intros H. induction l; intros; cbn [ofold]; calm_tac. Qed.
Lemma spectral_calm edges counts : calm (write_spectral edges counts).
Proof.
  assert (H : forall l c, calm (spectral_rows l c)) by (intros l; induction l; intros; cbn [spectral_rows]; calm_tac).
  unfold write_spectral. calm_tac.
Qed.
Lemma save_tiff_calm wr dir base ims edges order fs : calm (save_tiff true wr dir base ims edges order fs).
Proof.
  assert (W : forall width im, calm (write_rows width im)) by (intros width im; induction im; cbn [write_rows]; calm_tac).
  assert (C : forall n row scan, calm (add_cols n row scan)) by (intros n; induction n; intros; cbn [add_cols]; calm_tac).
  assert (A : forall width im old, calm (accumulate width im old)).
  { intros width im. induction im; intros; cbn [accumulate]; unfold read_scanline; calm_tac. }
  unfold save_tiff, save_bins. cbn [negb]. calm_tac; [|apply spectral_calm]. apply ofold_calm. intros. unfold save_bin. calm_tac.
Qed.

Lemma load_prefs_ends w name : ends (load_prefs w name).
Proof.
  assert (R : forall p j, ends (resolve p j)) by (intros p; induction p; intros; cbn [resolve]; ends_tac).
  assert (V : forall A p (g : json -> outcome A) x j, (forall j, ends (g j)) -> ends (json_value p g x j)).
  { intros. unfold json_value. ends_tac. }
  assert (D : forall j, ends (get_double j)) by (intros; unfold get_double; ends_tac).
  assert (U : forall j, ends (get_ulong j)) by (intros; unfold get_ulong; ends_tac).
  assert (N : forall j, ends (get_int j)) by (intros; unfold get_int; ends_tac).
  assert (L : forall l, ends (get_doubles l)) by (intros l; induction l; cbn [get_doubles]; ends_tac).
  assert (B : forall j, ends (json_binning j)) by (intros; unfold json_binning, get_vector; ends_tac).
  assert (P : forall j, ends (json_prefs j)) by (intros; unfold json_prefs; ends_tac).
  unfold load_prefs, text_prefs. ends_tac. unfold parse_lines. apply ofold_ends. intros.
  unfold config_line, with_value. ends_tac.
Qed.

(** * The part after the files have been created *)

Lemma catch_ends {A} (o : outcome A) d k : ends o -> (forall a, ends (k a)) -> ends (catch o d k).
Proof. destruct o; cbn [catch]; intros H K; [apply K|discriminate|discriminate|]. elim H. reflexivity. Qed.
Lemma catch_throw {A} (o : outcome A) d k e : (forall a, k a <> Throw e) -> catch o d k <> Throw e.
Proof. destruct o; cbn [catch]; intros K; auto; discriminate. Qed.
Lemma run_rest_no_throw fuel ext w order e o r d k : run_rest fuel ext w order e o r d <> Throw k.
Proof.
  unfold run_rest. apply catch_throw. intros [edges ims]. apply catch_throw. intros st. apply catch_throw. intros fs1.
  apply catch_throw. discriminate.
Qed.
Lemma run_rest_ends fuel ext w order e o r d : (length (r_map r) <= fuel + Z.to_nat (r_pos r))%nat -> 0 <= r_pos r ->
  ends (run_rest fuel ext w order e o r d).
Proof.
  intros L P. unfold run_rest. apply catch_ends; [apply set_up_ends|]. intros [edges ims].
  apply catch_ends; [apply chunk_loop_ends; assumption|]. intros st. apply catch_ends.
  - destruct (String.eqb (o_tiff o) ""); [discriminate|]. destruct (env_mkdir w (o_tiff o)); [|discriminate].
    apply calm_ends, save_tiff_calm.
  - intros fs1. apply catch_ends; [|intros; discriminate]. ends_tac. apply calm_ends, spectral_calm.
Qed.
Lemma close_frame o st d q : q <> o_hits o -> q <> o_events o -> d_h5 (close_files o st d) q = d_h5 d q.
Proof.
  intros H E. unfold close_files, close_file. cbn [d_h5]. apply String.eqb_neq in H, E.
  destruct (c_events st), (c_hits st); unfold put_file; rewrite ?H, ?E; reflexivity.
Qed.
Lemma run_rest_frame fuel ext w order e o r d x d' : run_rest fuel ext w order e o r d = Ok (x, d') ->
  (x = Exit 0 \/ (x = Exit 1 /\ d_files d' = d_files d)) /\
  forall q, q <> o_hits o -> q <> o_events o -> d_h5 d' q = d_h5 d q.
Proof.
  unfold run_rest. destruct (set_up e o) as [[edges ims]|k|u|]; cbn [catch]; try discriminate.
  2:{ intros E. apply Ok_inj in E. injection E as <- <-. auto. }
  destruct (chunk_loop _ _ _ _ _ _ _ _) as [st|k|u|]; cbn [catch]; try discriminate.
  2:{ intros E. apply Ok_inj in E. injection E as <- <-. auto. }
  pose proof (close_frame o st d) as F. set (d1 := close_files o st d) in *.
  assert (D1 : d_files d1 = d_files d) by reflexivity. clearbody d1.
  match goal with |- context [catch ?t d1 _] => destruct t as [fs1|k|u|] end; cbn [catch]; try discriminate.
  2:{ intros E. apply Ok_inj in E. injection E as <- <-. auto. }
  assert (C : forall l, calm (if String.eqb (o_spectra o) "" then Ok fs1
         else if env_writable w (o_spectra o ++ ".txt")%string then
           let! rows := write_spectral edges l in Ok (write_file fs1 (o_spectra o ++ ".txt")%string (Spectrum rows))
         else Ok fs1)) by (intros l; calm_tac; apply spectral_calm).
  specialize (C (spectral_counts (match c_images st with Some l => l | None => [] end))).
  match type of C with calm ?t => destruct t end; cbn [catch]; try discriminate; [|destruct C].
  intros E. apply Ok_inj in E. injection E as <- <-. cbn [d_h5]. auto.
Qed.
Lemma run_main_dir fuel ext cfg o content mk wr order fs r :
  run_main fuel ext cfg o content mk wr order fs = Ok r -> run_main fuel ext cfg o content true wr order fs = Ok r.
Proof.
  destruct mk; [auto|]. destruct (string_dec (o_tiff o) "") as [T|N].
  - unfold run_main. rewrite T. auto.
  - intros E. elim (C75_no_directory_l fuel ext cfg o content wr order fs N r E).
Qed.
Lemma run_rest_main fuel ext w order e o r content d edges :
  get_bin_edges (e_bins e) = Ok edges -> open_reader content = Ok r ->
  match run_main fuel ext (Config (e_abs e) (e_sr e) edges) o content (env_mkdir w (o_tiff o)) (env_writable w) order (d_files d) with
  | Ok (st, fs') => run_rest fuel ext w order e o r d = Ok (Exit 0, Store (d_h5 (close_files o st d)) fs')
  | Throw _ => exists d', run_rest fuel ext w order e o r d = Ok (Exit 1, d')
  | UB u => run_rest fuel ext w order e o r d = UB u
  | OutOfFuel => run_rest fuel ext w order e o r d = OutOfFuel
  end.
Proof.
  intros G R. unfold run_main, run_rest. rewrite R. cbn [obind]. unfold set_up, init_cli. fold (needs_images o).
  destruct (needs_images o) eqn:N.
  - rewrite G. cbn [obind g_sr g_edges]. destruct (init_images (e_sr e) edges) as [ims|k|u|]; cbn [obind catch]; try reflexivity.
    2:{ eexists. reflexivity. }
    destruct (chunk_loop _ _ _ _ _ _ _ _) as [st|k|u|]; cbn [obind catch]; try reflexivity.
    2:{ eexists. reflexivity. }
    set (l := match c_images st with Some l => l | None => [] end).
    change (d_files (close_files o st d)) with (d_files d).
    destruct (if String.eqb (o_tiff o) "" then Ok (d_files d) else
      save_tiff (env_mkdir w (o_tiff o)) (env_writable w) (o_tiff o) (o_base o) l edges order (d_files d)) as [fs1|k|u|]; cbn [obind catch]; try reflexivity.
    2:{ eexists. reflexivity. }
    match goal with |- context [catch ?t _ _] => destruct t end; cbn [obind catch]; try reflexivity. eexists. reflexivity.
  - unfold needs_images in N. apply orb_false_iff in N. destruct N as [T P]. apply negb_false_iff in T, P. rewrite T, P.
    cbn [obind catch]. rewrite (loop_no_images ext (e_abs e) (e_sr e) edges []); [|reflexivity].
    destruct (chunk_loop _ _ _ _ _ _ _ _) as [st|k|u|]; cbn [obind catch]; try reflexivity. eexists. reflexivity.
Qed.

(** * The program *)

Lemma understood_parse w args o : understood w args o <-> parse_arguments (env_stoull w) args = Ok o.
Proof. unfold understood. rewrite C48_l. tauto. Qed.
Lemma readable_open w o : readable w o -> exists m, m <> [] /\ env_input w (o_input o) = Some m /\
  open_reader (env_input w (o_input o)) = Ok (Reader m 0).
Proof. intros (b & m & ->). exists (b :: m). split; [discriminate|]. split; reflexivity. Qed.
Lemma not_readable_open w o : ~ readable w o -> exists k, open_reader (env_input w (o_input o)) = Throw k.
Proof.
  unfold readable, open_reader. intros H. destruct (env_input w (o_input o)) as [[|b m]|]; try (eexists; reflexivity).
  elim H. exists b, m. reflexivity.
Qed.

(** What the program does once the command line, the configuration and the input
    are accepted. *)
Definition second_open (o : options) : list string := if String.eqb (o_hits o) "" then [] else [o_hits o].
Lemma program_eq fuel ext w order args d o e m :
  understood w args o -> load_prefs w (o_config o) = Ok (Some e) ->
  open_reader (env_input w (o_input o)) = Ok (Reader m 0) ->
  program fuel ext w order args d =
  match create w [] (o_hits o) d with
  | None => Ok (Terminate, d)
  | Some d1 =>
      match create w (second_open o) (o_events o) d1 with
      | None => Ok (Terminate, d1)
      | Some d2 => run_rest fuel ext w order e o (Reader m 0) d2
      end
  end.
Proof.
  intros U L R. apply understood_parse in U. unfold program. rewrite U. cbn [catch]. rewrite L. cbn [catch]. rewrite R.
  reflexivity.
Qed.
Lemma create_some w l n d d1 : create w l n d = Some d1 -> d_files d1 = d_files d /\
  (n = ""%string -> d1 = d) /\ (n <> ""%string -> env_creates w l n = true /\ d_h5 d1 n = Some []) /\
  forall q, (n <> ""%string -> q <> n) -> d_h5 d1 q = d_h5 d q.
Proof.
  unfold create. destruct (String.eqb_spec n "") as [N|N].
  - intros E. injection E as <-. repeat split; auto; intros; contradiction.
  - destruct (env_creates w l n); [|discriminate]. intros E. injection E as <-. cbn [d_files d_h5]. unfold put_file.
    split; [reflexivity|]. split; [intros; contradiction|]. split.
    + intros _. rewrite String.eqb_refl. auto.
    + intros q Q. destruct (String.eqb_spec q n) as [->|]; [|reflexivity]. elim (Q N eq_refl).
Qed.
Lemma create_none w l n d : create w l n d = None <-> n <> ""%string /\ env_creates w l n = false.
Proof.
  unfold create. destruct (String.eqb_spec n "") as [N|N]; [split; [discriminate|intros [H _]; contradiction]|].
  destruct (env_creates w l n); split; intros H; try discriminate; auto. destruct H. discriminate.
Qed.
Lemma hits_created_spec w o d : hits_created w o <-> create w [] (o_hits o) d <> None.
Proof.
  rewrite create_none. unfold hits_created. destruct (env_creates w [] (o_hits o)); split; intros H.
  - intros [_ E]. discriminate.
  - reflexivity.
  - intros [N _]. specialize (H N). discriminate.
  - intros N. elim H. auto.
Qed.
Lemma events_created_spec w o d : events_created w o <-> create w (second_open o) (o_events o) d <> None.
Proof.
  rewrite create_none. unfold events_created, second_open.
  destruct (String.eqb_spec (o_hits o) "") as [N|N].
  - destruct (env_creates w [] (o_events o)); split; intros H.
    + intros [_ E]. discriminate.
    + intros _. split; intros; [reflexivity|contradiction].
    + intros [M _]. destruct (H M) as [A _]. specialize (A N). discriminate.
    + intros M. elim H. auto.
  - destruct (env_creates w [o_hits o] (o_events o)); split; intros H.
    + intros [_ E]. discriminate.
    + intros _. split; intros; [contradiction|reflexivity].
    + intros [M _]. destruct (H M) as [_ A]. specialize (A N). discriminate.
    + intros M. elim H. auto.
Qed.

Lemma C81_refused_l fuel ext w order args d : (forall o, ~ understood w args o) ->
  program fuel ext w order args d = Ok (Exit 1, d).
Proof.
  intros H. destruct (C48_rejects_l (env_stoull w) args) as (k & E).
  - intros o P. apply (H o). apply understood_parse. exact P.
  - unfold program. rewrite E. reflexivity.
Qed.
Lemma C81_no_config_l fuel ext w order args d o : understood w args o ->
  broken_json w o \/ (o_config o <> ""%string /\ ~ json_name (o_config o) /\ env_config w (o_config o) = NoFile) ->
  program fuel ext w order args d = Ok (Exit 1, d).
Proof.
  intros U C. apply understood_parse in U. unfold program. rewrite U. cbn [catch]. unfold load_prefs.
  destruct C as [[J B]|(N & J & F)].
  - apply json_name_spec in J. rewrite J. destruct (String.eqb_spec (o_config o) "") as [Z|_].
    { rewrite Z in J. discriminate. }
    destruct (env_config w (o_config o)) as [| |s]; try reflexivity. rewrite (B s eq_refl). reflexivity.
  - apply String.eqb_neq in N. rewrite N. destruct (String.eqb (path_extension (o_config o)) ".json") eqn:X.
    { apply json_name_spec in X. contradiction. }
    rewrite F. reflexivity.
Qed.
Lemma C81_no_input_l fuel ext w order args d o cfg : understood w args o -> configured w o cfg -> ~ readable w o ->
  program fuel ext w order args d = Ok (Exit 1, d).
Proof.
  intros U C R. apply configured_prefs in C. destruct C as (e & L & _). apply not_readable_open in R. destruct R as (k & R).
  apply understood_parse in U. unfold program. rewrite U. cbn [catch]. rewrite L. cbn [catch]. rewrite R. reflexivity.
Qed.
Lemma C81_terminates_l fuel ext w order args d o cfg : understood w args o -> configured w o cfg -> readable w o ->
  ((exists d', program fuel ext w order args d = Ok (Terminate, d')) <-> ~ (hits_created w o /\ events_created w o)).
Proof.
  intros U C R. apply configured_prefs in C. destruct C as (e & L & _). apply readable_open in R. destruct R as (m & _ & _ & R).
  rewrite (program_eq fuel ext w order args d o e m U L R). rewrite (hits_created_spec w o d).
  destruct (create w [] (o_hits o) d) as [d1|].
  - rewrite (events_created_spec w o d1). destruct (create w (second_open o) (o_events o) d1) as [d2|].
    + split; [|intros H; elim H; split; discriminate]. intros (d' & E). apply run_rest_frame in E. destruct E as [[E|[E _]] _]; discriminate.
    + split; [|intros _; eexists; reflexivity]. intros _ [_ H]. apply H. reflexivity.
  - split; [|intros _; eexists; reflexivity]. intros _ [H _]. apply H. reflexivity.
Qed.
Lemma C81_same_output_l fuel ext w order args d o cfg : exclusive w -> understood w args o -> configured w o cfg -> readable w o ->
  hits_created w o -> o_events o = o_hits o -> o_hits o <> ""%string ->
  exists d', program fuel ext w order args d = Ok (Terminate, d') /\ d_h5 d' (o_hits o) = Some [].
Proof.
  intros X U C R H S N. apply configured_prefs in C. destruct C as (e & L & _). apply readable_open in R. destruct R as (m & _ & _ & R).
  rewrite (program_eq fuel ext w order args d o e m U L R). apply (hits_created_spec w o d) in H.
  destruct (create w [] (o_hits o) d) as [d1|] eqn:D; [|elim H; reflexivity]. apply create_some in D.
  destruct (create w (second_open o) (o_events o) d1) as [d2|] eqn:E.
  - apply create_some in E. destruct E as (_ & _ & E & _). rewrite S in E. destruct (E N) as [F _].
    unfold second_open in F. apply String.eqb_neq in N. rewrite N in F. rewrite (X [o_hits o] (o_hits o)) in F; [discriminate|left; reflexivity].
  - exists d1. split; [reflexivity|]. apply D. exact N.
Qed.

(** What every exit_status has in common. *)
Lemma C81_endings_l fuel ext w order args d x d' : program fuel ext w order args d = Ok (x, d') ->
  (x = Exit 0 \/ x = Exit 1 \/ x = Terminate) /\
  (x <> Exit 0 -> d_files d' = d_files d) /\
  forall o, understood w args o -> forall q, q <> o_hits o -> q <> o_events o -> d_h5 d' q = d_h5 d q.
Proof.
  unfold program. destruct (parse_arguments (env_stoull w) args) as [o|k|u|] eqn:P; cbn [catch]; try discriminate.
  2:{ intros E. apply Ok_inj in E. injection E as <- <-. auto. }
  assert (Q : forall o', understood w args o' -> o' = o).
  { intros o' U. apply understood_parse in U. rewrite U in P. apply Ok_inj in P. exact P. }
  assert (S : forall y : exit_status, Ok (y, d) = Ok (x, d') -> y = Exit 1 \/ y = Terminate ->
    (x = Exit 0 \/ x = Exit 1 \/ x = Terminate) /\ (x <> Exit 0 -> d_files d' = d_files d) /\
    forall o, understood w args o -> forall q, q <> o_hits o -> q <> o_events o -> d_h5 d' q = d_h5 d q).
  { intros y E Y. apply Ok_inj in E. injection E as <- <-. auto. }
  destruct (load_prefs w (o_config o)) as [[e|]|k|u|]; cbn [catch]; try discriminate; try (intros E; apply (S _ E); auto; fail).
  destruct (open_reader (env_input w (o_input o))) as [r|k|u|]; cbn [catch]; try discriminate; try (intros E; apply (S _ E); auto; fail).
  fold (second_open o). destruct (create w [] (o_hits o) d) as [d1|] eqn:D; [|intros E; apply (S _ E); auto].
  apply create_some in D. destruct D as (D & _ & _ & Dq).
  destruct (create w (second_open o) (o_events o) d1) as [d2|] eqn:D2.
  - intros E. apply run_rest_frame in E. destruct E as [X F]. apply create_some in D2. destruct D2 as (E & _ & _ & Eq).
    split; [tauto|]. split.
    + intros N. destruct X as [X|[_ X]]; [contradiction|]. congruence.
    + intros o' U q H1 H2. rewrite (Q o' U) in *. rewrite F, Eq, Dq; auto.
  - intros E. apply Ok_inj in E. injection E as <- <-. split; [auto|]. split; [auto|]. intros o' U q H1 H2. rewrite (Q o' U) in *. auto.
Qed.
Lemma C81_ends_l fuel ext w order args d : (forall n m, env_input w n = Some m -> (length m <= fuel)%nat) ->
  program fuel ext w order args d <> OutOfFuel /\ forall k, program fuel ext w order args d <> Throw k.
Proof.
  intros F. unfold program. split.
  - apply catch_ends.
    { destruct (parse_arguments (env_stoull w) args) as [o|k|u|] eqn:P; try discriminate.
      destruct (C48_rejects_l (env_stoull w) args) as (k & E); [rewrite P; discriminate|]. rewrite E in P. discriminate. }
    intros o. apply catch_ends; [apply load_prefs_ends|]. intros [e|]; [|discriminate].
    destruct (env_input w (o_input o)) as [m|] eqn:I; [|discriminate]. specialize (F _ _ I).
    unfold open_reader. destruct m as [|b m]; [discriminate|]. cbn [catch].
    destruct (create _ _ _ _); [|discriminate]. destruct (create _ _ _ _); [|discriminate]. apply run_rest_ends; cbn [r_map r_pos]; lia.
  - intros k. apply catch_throw. intros o. apply catch_throw. intros [e|]; [|discriminate]. apply catch_throw. intros r.
    destruct (create _ _ _ _); [|discriminate]. destruct (create _ _ _ _); [|discriminate]. apply run_rest_no_throw.
Qed.

(** * Complete runs *)

Lemma exit_zero_main fuel ext w order args d d' o cfg : exclusive w -> understood w args o -> configured w o cfg ->
  program fuel ext w order args d = Ok (Exit 0, d') ->
  exists st, run_main fuel ext cfg o (env_input w (o_input o)) true (env_writable w) order (d_files d) = Ok (st, d_files d') /\
    (forall f, o_hits o <> ""%string -> c_hits st = Some f -> d_h5 d' (o_hits o) = Some f) /\
    (forall f, o_events o <> ""%string -> c_events st = Some f -> d_h5 d' (o_events o) = Some f) /\
    ((o_hits o = ""%string -> c_hits st = None) -> (o_events o = ""%string -> c_events st = None) ->
     forall q, (o_hits o <> ""%string -> q <> o_hits o) -> (o_events o <> ""%string -> q <> o_events o) -> d_h5 d' q = d_h5 d q).
Proof.
  intros X U C E. apply configured_prefs in C. destruct C as (e & L & G & A & B).
  assert (P := U). apply understood_parse in P.
  assert (R : readable w o).
  { unfold program in E. rewrite P in E. cbn [catch] in E. rewrite L in E. cbn [catch] in E. unfold readable.
    destruct (env_input w (o_input o)) as [[|b m]|]; [discriminate E|exists b, m; reflexivity|discriminate E]. }
  apply readable_open in R. destruct R as (m & _ & _ & R). rewrite (program_eq fuel ext w order args d o e m U L R) in E.
  destruct (create w [] (o_hits o) d) as [d1|] eqn:D; [|discriminate E]. apply create_some in D. destruct D as (Df & _ & Dn & Dq).
  destruct (create w (second_open o) (o_events o) d1) as [d2|] eqn:D2; [|discriminate E]. apply create_some in D2. destruct D2 as (Ef & _ & En & Eq).
  assert (S : o_hits o <> ""%string -> o_events o <> o_hits o).
  { intros N S. rewrite S in En. destruct (En N) as [F _]. unfold second_open in F. apply String.eqb_neq in N.
    rewrite N in F. rewrite (X [o_hits o] (o_hits o)) in F; [discriminate|left; reflexivity]. }
  pose proof (run_rest_main fuel ext w order e o (Reader m 0) (env_input w (o_input o)) d2 (g_edges cfg) G R) as M.
  assert (Cc : Config (e_abs e) (e_sr e) (g_edges cfg) = cfg) by (destruct cfg; cbn in *; subst; reflexivity). rewrite Cc in M.
  destruct (run_main fuel ext cfg o (env_input w (o_input o)) (env_mkdir w (o_tiff o)) (env_writable w) order (d_files d2)) as [[st fs']|k|u|] eqn:Q.
  - rewrite M in E. apply Ok_inj in E. injection E as <-. exists st. cbn [d_files d_h5]. rewrite Ef, Df in Q.
    split; [apply (run_main_dir _ _ _ _ _ _ _ _ _ _ Q)|]. unfold close_files. cbn [d_h5].
    split; [|split].
    + intros f N F. rewrite F. cbn [close_file]. specialize (S N). destruct (c_events st); cbn [close_file]; unfold put_file.
      * destruct (String.eqb_spec (o_hits o) (o_events o)); [congruence|]. rewrite String.eqb_refl. reflexivity.
      * rewrite String.eqb_refl. reflexivity.
    + intros f N F. rewrite F. cbn [close_file]. unfold put_file. rewrite String.eqb_refl. reflexivity.
    + intros H0 E0 q Hq Eq'. rewrite <- Dq by exact Hq. rewrite <- Eq by exact Eq'.
      assert (K : forall n c dd, (n = ""%string -> c = None) -> (n <> ""%string -> q <> n) -> close_file n c dd q = dd q).
      { intros n c dd I J. unfold close_file. destruct c; [|reflexivity]. unfold put_file. destruct (String.eqb_spec q n) as [->|]; [|reflexivity].
        destruct (string_dec n "") as [Z|Z]; [specialize (I Z); discriminate|elim (J Z eq_refl)]. }
      rewrite !K; auto.
  - destruct M as (d'' & M). rewrite M in E. discriminate.
  - rewrite M in E. discriminate.
  - rewrite M in E. discriminate.
Qed.

Lemma C81_program_l fuel ext w order args d d' o cfg ds s :
  exclusive w -> (forall p, env_writable w p = true) -> understood w args o -> configured w o cfg ->
  env_input w (o_input o) = Some (stream ds) ->
  Forall dataset_ok ds -> Forall no_false_header ds ->
  0 < o_chunk o -> cuts_at_datasets (o_chunk o) ds -> (length (stream ds) <= fuel)%nat ->
  edges_ok (g_edges cfg) -> side (g_sr cfg) s -> 0 < s ->
  Permutation order (seq 0 (length (g_edges cfg) - 1)) ->
  (forall i, (i < length (g_edges cfg) - 1)%nat ->
     saved (d_files d) (tiff_name (o_tiff o) (o_base o) i) s s \/ unrelated (d_files d) (tiff_name (o_tiff o) (o_base o) i) s s) ->
  program fuel ext w order args d = Ok (Exit 0, d') ->
  exists hss nss s',
    processed (timing_of o) ts0 ds hss s' /\ Forall2 (neutrons_of ext (g_abs cfg)) hss nss /\
    (o_hits o <> ""%string -> exists f, d_h5 d' (o_hits o) = Some f /\
       forall n fld, hit_field n fld -> map Some (col f "hits" n) = map fld (concat hss)) /\
    (o_events o <> ""%string -> exists f, d_h5 d' (o_events o) = Some f /\
       forall n fld, neutron_field n fld -> col f "neutrons" n = map fld (concat nss)) /\
    (forall q, (o_hits o <> ""%string -> q <> o_hits o) -> (o_events o <> ""%string -> q <> o_events o) -> d_h5 d' q = d_h5 d q) /\
    (o_tiff o <> ""%string -> forall i x y u, (i < length (g_edges cfg) - 1)%nat -> 0 <= x < s -> 0 <= y < s ->
       prior (d_files d) (tiff_name (o_tiff o) (o_base o) i) s s x y u ->
       exists k, counted (fun e => lands (g_sr cfg) (g_edges cfg) e i x y) (binned o hss nss) k /\
         disk (d_files d') (tiff_name (o_tiff o) (o_base o) i) x y = Some ((u + k) mod 2 ^ 32)) /\
    (zlen (binned o hss nss) < 2 ^ 32 ->
       (o_tiff o <> ""%string -> exists rows, d_files d' (spectra_name (o_tiff o) (o_base o)) = Some (Spectrum rows) /\
          spectrum_of (g_sr cfg) (g_edges cfg) s (binned o hss nss) rows) /\
       (o_spectra o <> ""%string -> exists rows, d_files d' (o_spectra o ++ ".txt")%string = Some (Spectrum rows) /\
          spectrum_of (g_sr cfg) (g_edges cfg) s (binned o hss nss) rows)) /\
    (forall q, (o_tiff o <> ""%string -> q <> spectra_name (o_tiff o) (o_base o) /\
                  forall i, (i < length (g_edges cfg) - 1)%nat -> q <> tiff_name (o_tiff o) (o_base o) i) ->
               (o_spectra o <> ""%string -> q <> (o_spectra o ++ ".txt")%string) -> d_files d' q = d_files d q).
Proof.
  intros X Hw U C I Ho Hn Hs Hc Hf Eo Sd Dp Po Hp E.
  destruct (exit_zero_main fuel ext w order args d d' o cfg X U C E) as (st & M & Fh & Fe & Fq). rewrite I in M.
  destruct (C75_program_l fuel ext cfg o ds (env_writable w) order (d_files d) st (d_files d') s Ho Hn Hs Hc Hf Eo Sd Dp Po Hw Hp M)
    as (hss & nss & P & N & H0 & H1 & E0 & E1 & _ & _ & T & Sp & Q).
  exists hss, nss, (c_ts st). split; [exact P|]. split; [exact N|]. split.
  { intros A. destruct (H1 A) as (f & F & K). exists f. split; [apply Fh; assumption|exact K]. }
  split.
  { intros A. destruct (E1 A) as (f & F & K). exists f. split; [apply Fe; assumption|exact K]. }
  split; [apply Fq; assumption|]. split; [exact T|]. split; [exact Sp|exact Q].
Qed.

Lemma C81_any_l fuel ext w order args d o cfg ds s :
  (forall p, env_writable w p = true) -> understood w args o -> configured w o cfg ->
  env_input w (o_input o) = Some (stream ds) -> hits_created w o -> events_created w o ->
  (o_tiff o <> ""%string -> env_mkdir w (o_tiff o) = true) ->
  ds <> [] -> Forall dataset_ok ds -> Forall no_false_header ds ->
  0 < o_chunk o -> cuts_at_datasets (o_chunk o) ds -> (length (stream ds) <= fuel)%nat ->
  edges_ok (g_edges cfg) -> side (g_sr cfg) s -> 0 < s < 2 ^ 30 ->
  Permutation order (seq 0 (length (g_edges cfg) - 1)) ->
  (forall i, (i < length (g_edges cfg) - 1)%nat ->
     saved (d_files d) (tiff_name (o_tiff o) (o_base o) i) s s \/ unrelated (d_files d) (tiff_name (o_tiff o) (o_base o) i) s s) ->
  (forall hss s', processed (timing_of o) ts0 ds hss s' ->
     Forall (fun h => (timing_of o = GDC_mode -> h_spider h < 2 ^ 48) /\ (timing_of o = TDC_mode -> h_tof h <> None)) (concat hss)) ->
  exists d', program fuel ext w order args d = Ok (Exit 0, d').
Proof.
  intros Hw U C I Hh He Hm Nd Ho Hn Hs Hc Hf Eo Sr Sz Po Hp Ht.
  destruct (C75_succeeds_l fuel ext cfg o ds (env_writable w) order (d_files d) s Nd Ho Hn Hs Hc Hf Eo Sr Sz Po Hw Hp Ht) as (st & fs' & M).
  apply configured_prefs in C. destruct C as (e & L & G & A & B).
  assert (R : readable w o).
  { unfold readable. rewrite I. destruct (stream ds) as [|b m] eqn:S; [|exists b, m; reflexivity].
    rewrite C75_no_input_l in M by (right; reflexivity). discriminate. }
  apply readable_open in R. destruct R as (m & _ & _ & R). rewrite (program_eq fuel ext w order args d o e m U L R).
  apply (hits_created_spec w o d) in Hh. destruct (create w [] (o_hits o) d) as [d1|] eqn:D; [|elim Hh; reflexivity].
  apply (events_created_spec w o d1) in He. destruct (create w (second_open o) (o_events o) d1) as [d2|] eqn:D2; [|elim He; reflexivity].
  apply create_some in D, D2. destruct D as (Df & _). destruct D2 as (Ef & _).
  pose proof (run_rest_main fuel ext w order e o (Reader m 0) (env_input w (o_input o)) d2 (g_edges cfg) G R) as Q.
  assert (Cc : Config (e_abs e) (e_sr e) (g_edges cfg) = cfg) by (destruct cfg; cbn in *; subst; reflexivity). rewrite Cc in Q.
  assert (M' : run_main fuel ext cfg o (env_input w (o_input o)) (env_mkdir w (o_tiff o)) (env_writable w) order (d_files d2) = Ok (st, fs')).
  { rewrite I, Ef, Df. destruct (string_dec (o_tiff o) "") as [Z|Z]; [|rewrite (Hm Z); exact M].
    revert M. unfold run_main. rewrite Z. auto. }
  rewrite M' in Q. rewrite Q. eexists. reflexivity.
Qed.
(** Without super resolution. *)
Lemma C81_succeeds_l fuel ext w order args d o cfg ds :
  (forall p, env_writable w p = true) -> understood w args o -> configured w o cfg ->
  env_input w (o_input o) = Some (stream ds) -> hits_created w o -> events_created w o ->
  (o_tiff o <> ""%string -> env_mkdir w (o_tiff o) = true) ->
  ds <> [] -> Forall dataset_ok ds -> Forall no_false_header ds ->
  0 < o_chunk o -> cuts_at_datasets (o_chunk o) ds -> (length (stream ds) <= fuel)%nat ->
  edges_ok (g_edges cfg) -> g_sr cfg = f_of_Z 1 ->
  Permutation order (seq 0 (length (g_edges cfg) - 1)) ->
  (forall i, (i < length (g_edges cfg) - 1)%nat ->
     saved (d_files d) (tiff_name (o_tiff o) (o_base o) i) 517 517 \/ unrelated (d_files d) (tiff_name (o_tiff o) (o_base o) i) 517 517) ->
  (forall hss s', processed (timing_of o) ts0 ds hss s' ->
     Forall (fun h => (timing_of o = GDC_mode -> h_spider h < 2 ^ 48) /\ (timing_of o = TDC_mode -> h_tof h <> None)) (concat hss)) ->
  exists d', program fuel ext w order args d = Ok (Exit 0, d').
Proof.
  intros Hw U C I Hh He Hm Nd Ho Hn Hs Hc Hf Eo Sr. apply (C81_any_l fuel ext w order args d o cfg ds 517); try assumption; [|lia].
  rewrite Sr. apply side_one.
Qed.
Lemma sized (x : f64) :
  match x with B754_finite false m e _ => (-900 <=? e) && (e <=? 800) && (Z.pos m <? 2 ^ 60) | _ => false end = true ->
  is_finite x = true /\ (bpow radix2 (-900) <= B2R x <= bpow radix2 900)%R.
Proof.
  destruct x as [|?| |[] m e b]; try discriminate. intros H. apply andb_true_iff in H. destruct H as [H M].
  apply andb_true_iff in H. destruct H as [H1 H2]. apply Z.leb_le in H1, H2. apply Z.ltb_lt in M. split; [reflexivity|].
  cbn [B2R]. unfold F2R. cbn [Fnum Fexp cond_Zopp]. split.
  - apply Rle_trans with (bpow radix2 e); [apply bpow_le; exact H1|]. rewrite <- (Rmult_1_l (bpow radix2 e)) at 1.
    apply Rmult_le_compat_r; [apply bpow_ge_0|]. apply IZR_le. lia.
  - apply Rle_trans with (bpow radix2 60 * bpow radix2 800)%R; [|rewrite <- bpow_plus; apply bpow_le; lia].
    apply Rmult_le_compat; [apply IZR_le; lia|apply bpow_ge_0| |apply bpow_le; exact H2].
    change (bpow radix2 60) with (IZR (2 ^ 60)). apply IZR_le. lia.
Qed.
Lemma default_max_ok : is_finite (f_lit 167 10000) = true /\
  (bpow radix2 (-900) <= B2R (f_lit 167 10000) <= bpow radix2 900)%R.
Proof. apply sized. vm_compute. reflexivity. Qed.
Lemma C81_default_l w o : o_config o = ""%string -> exists edges,
  configured w o (Config (AbsCfg (f_of_Z 5) 1 75) (f_of_Z 1) edges) /\ edges_ok edges /\
  divides_evenly (f_lit 167 10000) 1500 edges.
Proof.
  intros Z. unfold configured. rewrite Z. destruct default_max_ok as [F B].
  destruct (C41_uniform_l 1500 (f_lit 167 10000) ltac:(lia) F B) as (edges & e0 & G & O & V & _). exists edges.
  split; [|split; assumption]. destruct (C52_l (env_double w) (env_json w) "" (env_config w "")) as (A & _).
  destruct (A eq_refl) as (edges' & D & E & _). assert (Q : Ok edges' = Ok edges) by (rewrite <- G; symmetry; exact D).
  apply Ok_inj in Q. subst edges'. exact E.
Qed.

Lemma C81_zero_chunk_l fuel ext w order args s n d d' o cfg : exclusive w ->
  env_stoull w s = Some n -> (n * 2 ^ 20) mod 2 ^ 64 = 0 ->
  understood w (args ++ [Ac s]) o -> configured w o cfg ->
  program fuel ext w order (args ++ [Ac s]) d = Ok (Exit 0, d') ->
  (o_hits o <> ""%string -> d_h5 d' (o_hits o) = Some []) /\ (o_events o <> ""%string -> d_h5 d' (o_events o) = Some []).
Proof.
  intros X Hs Hn U C E. destruct (exit_zero_main fuel ext w order _ d d' o cfg X U C E) as (st & M & Fh & Fe & _).
  apply understood_parse in U. destruct (C34_zero_mega_l (env_stoull w) args s n Hs Hn o U) as [_ Z].
  unfold run_main in M. destruct (open_reader (env_input w (o_input o))) as [r|k|u|] eqn:R; cbn [obind] in M; try discriminate M.
  destruct (init_cli cfg o) as [st0|k|u|] eqn:I; cbn [obind] in M; try discriminate M.
  assert (S : forall st1, chunk_loop fuel ext cfg (if String.eqb (o_timing o) "gdc" then GDC_mode else TDC_mode)
      (String.eqb (o_mode o) "hit") (o_chunk o) r st0 = Ok st1 -> st1 = st0).
  { intros st1. destruct fuel; [|rewrite Z; intros Q; apply Ok_inj in Q; auto]. cbn [chunk_loop].
    destruct (is_eof r); [|discriminate]. intros Q. apply Ok_inj in Q. auto. }
  destruct (chunk_loop _ _ _ _ _ _ _ _) as [st1|k|u|]; cbn [obind] in M; try discriminate M. specialize (S st1 eq_refl). subst st1.
  match type of M with (let! _ := ?t in _) = _ => destruct t; cbn [obind] in M; try discriminate M end.
  match type of M with (let! _ := ?t in _) = _ => destruct t; cbn [obind] in M; try discriminate M end.
  apply Ok_inj in M. injection M as <- _. unfold init_cli in I.
  match type of I with (let! _ := ?t in _) = _ => destruct t; cbn [obind] in I; try discriminate I end.
  apply Ok_inj in I. subst st0. cbn [c_hits c_events] in *. split; intros N.
  - apply Fh; [exact N|]. apply String.eqb_neq in N. rewrite N. reflexivity.
  - apply Fe; [exact N|]. apply String.eqb_neq in N. rewrite N. reflexivity.
Qed.
Lemma C81_spectra_l fuel ext w order args d d' o cfg : exclusive w -> understood w args o -> configured w o cfg ->
  (forall s, ~ In (As s) args) -> env_writable w "Spectra.txt" = true ->
  program fuel ext w order args d = Ok (Exit 0, d') -> exists rows, d_files d' "Spectra.txt"%string = Some (Spectrum rows).
Proof.
  intros X U C N W E. destruct (exit_zero_main fuel ext w order _ d d' o cfg X U C E) as (st & M & _).
  destruct U as (_ & (_ & _ & _ & _ & _ & _ & _ & S & _) & _).
  assert (Z : o_spectra o = "Spectra"%string).
  { destruct S as [(l1 & a & l2 & L & H & _)|[S _]]; [|exact S]. destruct a; try discriminate H. elim (N s). rewrite L. apply in_elt. }
  unfold run_main in M. destruct (open_reader (env_input w (o_input o))) as [r|k|u|] eqn:R; cbn [obind] in M; try discriminate M.
  destruct (init_cli cfg o) as [st0|k|u|] eqn:I; cbn [obind] in M; try discriminate M.
  destruct (chunk_loop _ _ _ _ _ _ _ _) as [st1|k|u|]; cbn [obind] in M; try discriminate M.
  match type of M with (let! _ := ?t in _) = _ => destruct t; cbn [obind] in M; try discriminate M end.
  rewrite Z in M. change (String.eqb "Spectra" "") with false in M. change ("Spectra" ++ ".txt")%string with "Spectra.txt"%string in M.
  cbn iota in M. rewrite W in M.
  match type of M with (let! _ := (let! _ := ?t in _) in _) = _ => destruct t as [rows| | |]; cbn [obind] in M; try discriminate M end.
  apply Ok_inj in M. injection M as _ <-. exists rows. unfold write_file. rewrite String.eqb_refl. reflexivity.
Qed.
