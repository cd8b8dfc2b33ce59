(** Proofs about the program of the auto reducer. *)
From Coq Require Import Reals String Ascii Permutation.
From Verif Require Export P_VenusImages S_VenusMain.
From Coq Require Import Lia ZifyBool.
Local Open Scope Z_scope.
Local Open Scope list_scope.

(** * The configuration *)

Lemma json_config_prefs j : json_config j =
  (let! e := json_prefs j in let! edges := get_bin_edges (e_bins e) in Ok (Config (e_abs e) (e_sr e) edges)).
Proof.
  unfold json_config, json_prefs. destruct (json_binning j); cbn [obind]; try reflexivity.
  repeat match goal with |- context [json_value ?a ?b ?c ?d] => destruct (json_value a b c d); cbn [obind]; try reflexivity end.
Qed.

Lemma configured_prefs parse conf o cfg : configured_venus parse conf o cfg ->
  exists e edges, venus_prefs parse (vo_config o) (conf (vo_config o)) = Ok e /\
    get_bin_edges (e_bins e) = Ok edges /\ cfg = Config (e_abs e) (e_sr e) edges.
Proof.
  unfold configured_venus, load_venus_config, venus_prefs, json_file.
  assert (K : forall j, json_config j = Ok cfg -> exists e edges, json_prefs j = Ok e /\
    get_bin_edges (e_bins e) = Ok edges /\ cfg = Config (e_abs e) (e_sr e) edges).
  { intros j E. rewrite json_config_prefs in E. destruct (json_prefs j) as [e| | |]; cbn [obind] in E; try discriminate E.
    destruct (get_bin_edges (e_bins e)) as [edges| | |] eqn:G; cbn [obind] in E; try discriminate E.
    apply Ok_inj in E. exists e, edges. repeat split; congruence. }
  destruct (String.eqb (vo_config o) "").
  - apply K.
  - destruct (conf (vo_config o)) as [| |s]; try discriminate. destruct (parse s); [apply K|discriminate].
Qed.

(** * The loop *)

Lemma scan_job_edges j edges es : get_bin_edges (e_bins (j_prefs j)) = Ok edges -> forall s st,
  scan_job j es s st = scan_entries (job_setup j edges) es s st.
Proof.
  intros G. induction es as [|e es IH]; intros s st; [reflexivity|]. cbn [scan_job scan_entries].
  destruct (is_raw e && negb (seen st e)); [|apply IH]. unfold reduce_job. rewrite G.
  destruct (reduce_file (job_setup j edges) e s (v_files st)) as [[[r s'] fs']| | |]; cbn [obind]; try reflexivity.
  destruct r; [apply IH|apply IH|reflexivity].
Qed.

Lemma monitor_job_sound j edges vs : get_bin_edges (e_bins (j_prefs j)) = Ok edges -> Forall sound vs -> forall st,
  monitor_job j vs st =
    (let! (q, st') := monitor (job_setup j edges) (map round_of vs) st in Ok (code_of q, st')).
Proof.
  intros G F. induction F as [|v vs [Hc Hs] F IH]; intros st; [reflexivity|].
  cbn [monitor_job monitor map rd_check rd_scan round_of]. destruct (existsb is_stop (vs_check v)); [reflexivity|].
  rewrite Hc, Hs. cbn [negb]. unfold scan_dir. rewrite (scan_job_edges j edges _ G).
  destruct (scan_entries (job_setup j edges) (vs_scan v) ts0 st) as [[q st']| | |]; cbn [obind]; try reflexivity.
  destruct q; [reflexivity|]. apply IH.
Qed.

(** Whatever the directory does, the state is one of C38. *)
Lemma monitor_job_trace j edges vs : get_bin_edges (e_bins (j_prefs j)) = Ok edges -> forall st c st',
  monitor_job j vs st = Ok (c, st') ->
  exists rs q, monitor (job_setup j edges) rs st = Ok (q, st') /\
    forall r e, In r rs -> In e (rd_scan r) -> exists v, In v vs /\ In e (vs_scan v).
Proof.
  intros G. induction vs as [|v vs IH]; intros st c st' E; cbn [monitor_job] in E.
  - apply Ok_inj in E. injection E as <- <-. exists [], Running. split; [reflexivity|]. intros r e [].
  - destruct (existsb is_stop (vs_check v)).
    { apply Ok_inj in E. injection E as <- <-. exists [], Running. split; [reflexivity|]. intros r e []. }
    destruct (vs_check_ok v); cbn [negb] in E.
    2:{ apply Ok_inj in E. injection E as <- <-. exists [], Running. split; [reflexivity|]. intros r e []. }
    rewrite (scan_job_edges j edges _ G) in E.
    destruct (scan_entries (job_setup j edges) (vs_scan v) ts0 st) as [[q st1]| | |] eqn:S; cbn [obind] in E; try discriminate E.
    destruct q.
    { apply Ok_inj in E. injection E as <- <-. exists [Round [] (vs_scan v)], Exited.
      cbn [monitor existsb rd_check rd_scan]. unfold scan_dir. rewrite S. cbn [obind]. split; [reflexivity|].
      intros r e [<-|[]] I. exists v. split; [left; reflexivity|exact I]. }
    destruct (vs_scan_ok v); cbn [negb] in E.
    + destruct (IH _ _ _ E) as (rs & q & M & H). exists (Round [] (vs_scan v) :: rs), q.
      cbn [monitor existsb rd_check rd_scan]. unfold scan_dir. rewrite S. cbn [obind]. split; [exact M|].
      intros r e [<-|I] I'; [exists v; split; [left; reflexivity|exact I']|].
      destruct (H r e I I') as (v' & A & B). exists v'. split; [right; exact A|exact B].
    + apply Ok_inj in E. injection E as <- <-. exists [Round [] (vs_scan v)], Running.
      cbn [monitor existsb rd_check rd_scan]. unfold scan_dir. rewrite S. cbn [obind]. split; [reflexivity|].
      intros r e [<-|[]] I. exists v. split; [left; reflexivity|exact I].
Qed.

Lemma visit_stops_spec v : existsb is_stop (vs_check v) = true <-> visit_stops v.
Proof. apply (stops_spec (round_of v)). Qed.

(** * main *)

Section Main.
  Variables (ext : externals) (stoi : string -> option Z) (parse : string -> option json) (conf : string -> source).
  Variables (args : list varg).

  Lemma understood_parse o : understood_venus stoi args o -> parse_venus stoi args = Ok o.
  Proof. intros H. apply C50_l. exact H. Qed.

  Lemma main_run o e vs fs : understood_venus stoi args o ->
    venus_prefs parse (vo_config o) (conf (vo_config o)) = Ok e ->
    venus_main ext stoi parse conf args vs fs =
      monitor_job (Job ext e (String.eqb (vo_mode o) "hit") (vo_out o) (vo_base o)) vs (venus_start fs).
  Proof. intros U E. unfold venus_main. rewrite (understood_parse o U), E. reflexivity. Qed.

  Lemma C83_runs_l o cfg vs fs : understood_venus stoi args o -> configured_venus parse conf o cfg -> Forall sound vs ->
    venus_main ext stoi parse conf args vs fs =
      (let! (q, st) := monitor (setup_of ext o cfg) (map round_of vs) (venus_start fs) in Ok (code_of q, st)).
  Proof.
    intros U C F. destruct (configured_prefs _ _ _ _ C) as (e & edges & E & G & ->).
    rewrite (main_run o e vs fs U E). rewrite (monitor_job_sound (Job ext e (String.eqb (vo_mode o) "hit") (vo_out o) (vo_base o)) edges vs G F). reflexivity.
  Qed.

  Lemma C83_images_l o cfg n d vs fs0 c st : understood_venus stoi args o -> configured_venus parse conf o cfg ->
    length (g_edges cfg) = S n -> (0 < n)%nat -> side (g_sr cfg) d -> 0 < d ->
    (forall i, (i < n)%nat -> saved fs0 (tiff_name (vo_out o) (vo_base o) i) d d \/
                              unrelated fs0 (tiff_name (vo_out o) (vo_base o) i) d d) ->
    (forall v e, In v vs -> In e (vs_scan v) -> good_world n (d_world e)) ->
    venus_main ext stoi parse conf args vs fs0 = Ok (c, st) ->
    (saved_images (v_log st) = [] -> v_files st = fs0) /\
    (saved_images (v_log st) <> [] -> forall i, (i < n)%nat ->
       saved (v_files st) (tiff_name (vo_out o) (vo_base o) i) d d /\
       forall x y u, 0 <= x < d -> 0 <= y < d -> prior fs0 (tiff_name (vo_out o) (vo_base o) i) d d x y u ->
         disk (v_files st) (tiff_name (vo_out o) (vo_base o) i) x y =
           Some ((u + stack_sum i x y (saved_images (v_log st))) mod 2 ^ 32)) /\
    (forall p, p <> spectra_name (vo_out o) (vo_base o) ->
       (forall i, (i < n)%nat -> p <> tiff_name (vo_out o) (vo_base o) i) -> v_files st p = fs0 p).
  Proof.
    intros U C L N Sd D P W M. destruct (configured_prefs _ _ _ _ C) as (e & edges & E & G & ->).
    rewrite (main_run o e vs fs0 U E) in M. destruct (monitor_job_trace (Job ext e (String.eqb (vo_mode o) "hit") (vo_out o) (vo_base o)) edges vs G _ _ _ M) as (rs & q & R & H).
    refine (C38_images_l (job_setup (Job ext e (String.eqb (vo_mode o) "hit") (vo_out o) (vo_base o)) edges) n d fs0 rs q st _ N _ D P _ R).
    - exact L.
    - exact Sd.
    - intros r x I I'. destruct (H r x I I') as (v & A & B). eapply W; eassumption.
  Qed.

  Lemma monitor_job_app j vs1 vs2 : forall st st1, monitor_job j vs1 st = Ok (None, st1) ->
    monitor_job j (vs1 ++ vs2) st = monitor_job j vs2 st1.
  Proof.
    induction vs1 as [|v vs1 IH]; intros st st1 E; cbn [monitor_job app] in *.
    - apply Ok_inj in E. injection E as ->. reflexivity.
    - destruct (existsb is_stop (vs_check v)); [discriminate E|].
      destruct (vs_check_ok v); cbn [negb] in *; [|discriminate E].
      destruct (scan_job j (vs_scan v) ts0 st) as [[q st']| | |]; cbn [obind] in *; try discriminate E.
      destruct q; [discriminate E|]. destruct (vs_scan_ok v); cbn [negb] in *; [|discriminate E]. apply IH, E.
  Qed.

  Lemma monitor_job_zero j vs : forall st st', monitor_job j vs st = Ok (Some 0, st') ->
    exists vs1 v vs2, vs = vs1 ++ v :: vs2 /\ visit_stops v /\
      (forall v', In v' vs1 -> ~ visit_stops v' /\ sound v') /\ monitor_job j vs1 st = Ok (None, st').
  Proof.
    induction vs as [|v vs IH]; intros st st' E; cbn [monitor_job] in E; [discriminate E|].
    destruct (existsb is_stop (vs_check v)) eqn:B.
    - apply Ok_inj in E. injection E as <-. exists [], v, vs. split; [reflexivity|].
      split; [apply visit_stops_spec, B|]. split; [intros v' []|reflexivity].
    - destruct (vs_check_ok v) eqn:Oc; cbn [negb] in E; [|discriminate E].
      destruct (scan_job j (vs_scan v) ts0 st) as [[q st1]| | |] eqn:S; cbn [obind] in E; try discriminate E.
      destruct q; [discriminate E|]. destruct (vs_scan_ok v) eqn:Os; cbn [negb] in E; [|discriminate E].
      destruct (IH _ _ E) as (vs1 & w & vs2 & -> & P & Q & M). exists (v :: vs1), w, vs2. split; [reflexivity|].
      split; [exact P|]. split.
      + intros v' [<-|I]; [|apply Q, I]. split; [|split; assumption]. intros C. apply visit_stops_spec in C. congruence.
      + cbn [monitor_job]. rewrite B, Oc. cbn [negb]. rewrite S. cbn [obind]. rewrite Os. exact M.
  Qed.

  Lemma main_inv vs fs c st : venus_main ext stoi parse conf args vs fs = Ok (c, st) ->
    (c = Some 1 /\ st = venus_start fs /\
      ((forall o, ~ understood_venus stoi args o) \/
       exists o t, understood_venus stoi args o /\ venus_prefs parse (vo_config o) (conf (vo_config o)) = Throw t)) \/
    exists o e, understood_venus stoi args o /\ venus_prefs parse (vo_config o) (conf (vo_config o)) = Ok e /\
      monitor_job (Job ext e (String.eqb (vo_mode o) "hit") (vo_out o) (vo_base o)) vs (venus_start fs) = Ok (c, st).
  Proof.
    unfold venus_main. destruct (parse_venus stoi args) as [o|t| |] eqn:P; try discriminate.
    - assert (U : understood_venus stoi args o) by (apply C50_l, P).
      destruct (venus_prefs parse (vo_config o) (conf (vo_config o))) as [e|t| |] eqn:E; try discriminate.
      + intros M. right. exists o, e. repeat split; try assumption; apply U.
      + intros M. apply Ok_inj in M. injection M as <- <-. left. split; [reflexivity|]. split; [reflexivity|].
        right. exists o, t. split; [exact U|exact E].
    - intros M. apply Ok_inj in M. injection M as <- <-. left. split; [reflexivity|]. split; [reflexivity|].
      left. intros o U. apply understood_parse in U. congruence.
  Qed.

  Lemma C83_zero_l vs fs st : venus_main ext stoi parse conf args vs fs = Ok (Some 0, st) ->
    (exists o, understood_venus stoi args o) /\
    exists vs1 v vs2, vs = vs1 ++ v :: vs2 /\ visit_stops v /\
      (forall v', In v' vs1 -> ~ visit_stops v' /\ sound v') /\
      venus_main ext stoi parse conf args vs1 fs = Ok (None, st).
  Proof.
    intros M. destruct (main_inv _ _ _ _ M) as [(C & _)|(o & e & U & E & R)]; [discriminate C|].
    split; [exists o; exact U|]. destruct (monitor_job_zero _ _ _ _ R) as (vs1 & v & vs2 & -> & P & Q & S).
    exists vs1, v, vs2. split; [reflexivity|]. split; [exact P|]. split; [exact Q|].
    rewrite (main_run o e vs1 fs U E). exact S.
  Qed.

  Lemma main_app vs1 vs2 fs st : venus_main ext stoi parse conf args vs1 fs = Ok (None, st) ->
    exists o e, understood_venus stoi args o /\ venus_prefs parse (vo_config o) (conf (vo_config o)) = Ok e /\
      venus_main ext stoi parse conf args (vs1 ++ vs2) fs =
        monitor_job (Job ext e (String.eqb (vo_mode o) "hit") (vo_out o) (vo_base o)) vs2 st.
  Proof.
    intros M. destruct (main_inv _ _ _ _ M) as [(C & _)|(o & e & U & E & R)]; [discriminate C|].
    exists o, e. split; [exact U|]. split; [exact E|]. rewrite (main_run o e _ fs U E). apply monitor_job_app, R.
  Qed.

  Lemma C83_stops_l vs1 v vs2 fs st : venus_main ext stoi parse conf args vs1 fs = Ok (None, st) -> visit_stops v ->
    venus_main ext stoi parse conf args (vs1 ++ v :: vs2) fs = Ok (Some 0, st).
  Proof.
    intros M S. destruct (main_app vs1 (v :: vs2) fs st M) as (o & e & U & E & ->). cbn [monitor_job].
    apply visit_stops_spec in S. rewrite S. reflexivity.
  Qed.

  Lemma C83_lost_directory_l vs1 v vs2 fs st : venus_main ext stoi parse conf args vs1 fs = Ok (None, st) ->
    ~ visit_stops v ->
    (vs_check_ok v = false -> venus_main ext stoi parse conf args (vs1 ++ v :: vs2) fs = Ok (Some 1, st)) /\
    (vs_check_ok v = true -> vs_scan_ok v = false -> forall st',
       venus_main ext stoi parse conf args (vs1 ++ [Visit (vs_check v) true (vs_scan v) true]) fs = Ok (None, st') ->
       venus_main ext stoi parse conf args (vs1 ++ v :: vs2) fs = Ok (Some 1, st')).
  Proof.
    intros M S. assert (B : existsb is_stop (vs_check v) = false).
    { destruct (existsb is_stop (vs_check v)) eqn:B; [|reflexivity]. apply visit_stops_spec in B. contradiction. }
    destruct (main_app vs1 (v :: vs2) fs st M) as (o & e & U & E & ->). split.
    - intros K. cbn [monitor_job]. rewrite B, K. reflexivity.
    - intros K K' st' M'. destruct (main_app vs1 [Visit (vs_check v) true (vs_scan v) true] fs st M) as (o' & e' & U' & E' & X).
      rewrite X in M'. clear X. pose proof (understood_parse _ U) as Po. rewrite (understood_parse _ U') in Po.
      injection Po as ->. rewrite E in E'. injection E' as <-.
      cbn [monitor_job vs_check vs_check_ok vs_scan vs_scan_ok] in *. rewrite B in *. rewrite K, K'. cbn [negb] in *.
      destruct (scan_job _ (vs_scan v) ts0 st) as [[q st1]| | |]; cbn [obind] in *; try discriminate M'.
      destruct q; [discriminate M'|]. apply Ok_inj in M'. injection M' as ->. reflexivity.
  Qed.

  Lemma C83_refused_l vs fs : (forall o, ~ understood_venus stoi args o) \/
    (exists o, understood_venus stoi args o /\ no_json parse conf o) ->
    venus_main ext stoi parse conf args vs fs = Ok (Some 1, venus_start fs).
  Proof.
    intros [H|(o & U & N & J)].
    - unfold venus_main. destruct (parse_venus stoi args) as [o|t|u|] eqn:P.
      + contradiction (H o). apply C50_l, P.
      + reflexivity.
      + exfalso. revert P. unfold parse_venus.
        assert (K : forall l o, ofold (parse_varg stoi) l o <> UB u).
        { induction l as [|a l IH]; intros o; cbn [ofold]; [discriminate|].
          destruct a; cbn [parse_varg obind]; try apply IH; try discriminate.
          destruct (stoi s); cbn [obind]; [apply IH|discriminate]. }
        specialize (K args default_venus_options).
        destruct (ofold (parse_varg stoi) args default_venus_options) as [o| | |]; cbn [obind]; try discriminate.
        * repeat match goal with |- context [if ?b then _ else _] => destruct b; try discriminate end.
        * congruence.
      + exfalso. revert P. unfold parse_venus.
        assert (K : forall l o, ofold (parse_varg stoi) l o <> OutOfFuel).
        { induction l as [|a l IH]; intros o; cbn [ofold]; [discriminate|].
          destruct a; cbn [parse_varg obind]; try apply IH; try discriminate.
          destruct (stoi s); cbn [obind]; [apply IH|discriminate]. }
        specialize (K args default_venus_options).
        destruct (ofold (parse_varg stoi) args default_venus_options) as [o| | |]; cbn [obind]; try discriminate.
        * repeat match goal with |- context [if ?b then _ else _] => destruct b; try discriminate end.
        * congruence.
    - unfold venus_main. rewrite (understood_parse o U). unfold venus_prefs.
      destruct (String.eqb_spec (vo_config o) "") as [Z|_]; [contradiction|].
      destruct (conf (vo_config o)) as [| |s] eqn:C; try reflexivity. rewrite (J s eq_refl). reflexivity.
  Qed.

  (** ** The exit codes *)

  Lemma monitor_job_codes j vs : forall st c st', monitor_job j vs st = Ok (c, st') ->
    c = None \/ c = Some 0 \/
    (c = Some 1 /\ exists v, In v vs /\
       (~ sound v \/ exists e, In e (vs_scan v) /\ raw_file e /\ d_content e = None)).
  Proof.
    assert (Sc : forall es s st st', scan_job j es s st = Ok (true, st') ->
              exists e, In e es /\ raw_file e /\ d_content e = None).
    { induction es as [|e es IH]; intros s st st' E; cbn [scan_job] in E; [discriminate E|].
      destruct (is_raw e) eqn:R; cbn [andb] in E;
        [|destruct (IH _ _ _ E) as (x & I & K); exists x; split; [right; exact I|exact K]].
      destruct (seen st e); cbn [negb] in E; [destruct (IH _ _ _ E) as (x & I & K); exists x; split; [right; exact I|exact K]|].
      destruct (d_content e) as [m|] eqn:D; [|exists e; split; [left; reflexivity|split; [apply raw_spec, R|exact D]]].
      destruct (reduce_job j e s (v_files st)) as [[[r s'] fs']| | |] eqn:Rd; cbn [obind] in E; try discriminate E.
      destruct r; [destruct (IH _ _ _ E) as (x & I & K); exists x; split; [right; exact I|exact K]..|].
      exfalso. revert Rd. unfold reduce_job. destruct (get_bin_edges (e_bins (j_prefs j))) as [edges| | |].
      1:{ intros Rd. apply reduce_cases in Rd. rewrite D in Rd.
          decompose [and or ex] Rd; discriminate || congruence. }
      all: rewrite D; destruct (locate GDC_mode (find_headers m) m (zlen m) s) as [[bs s1]| | |]; try discriminate;
           destruct (process_all (j_ext j) (e_abs (j_prefs j)) GDC_mode m bs); cbn [obind]; discriminate. }
    induction vs as [|v vs IH]; intros st c st' E; cbn [monitor_job] in E.
    - apply Ok_inj in E. injection E as <- _. left. reflexivity.
    - destruct (existsb is_stop (vs_check v)); [apply Ok_inj in E; injection E as <- _; right; left; reflexivity|].
      destruct (vs_check_ok v) eqn:Oc; cbn [negb] in E.
      2:{ apply Ok_inj in E. injection E as <- _. right; right. split; [reflexivity|]. exists v. split; [left; reflexivity|].
          left. intros [K _]. congruence. }
      destruct (scan_job j (vs_scan v) ts0 st) as [[q st1]| | |] eqn:S; cbn [obind] in E; try discriminate E.
      destruct q.
      { apply Ok_inj in E. injection E as <- _. right; right. split; [reflexivity|]. exists v. split; [left; reflexivity|].
        right. eapply Sc. exact S. }
      destruct (vs_scan_ok v) eqn:Os; cbn [negb] in E.
      + destruct (IH _ _ _ E) as [K|[K|(K & w & I & H)]]; [left; exact K|right; left; exact K|].
        right; right. split; [exact K|]. exists w. split; [right; exact I|exact H].
      + apply Ok_inj in E. injection E as <- _. right; right. split; [reflexivity|]. exists v. split; [left; reflexivity|].
        left. intros [_ K]. congruence.
  Qed.

  Lemma C83_codes_l vs fs c st : venus_main ext stoi parse conf args vs fs = Ok (c, st) ->
    c = None \/ c = Some 0 \/
    (c = Some 1 /\
      ((forall o, ~ understood_venus stoi args o) \/
       (exists o t, understood_venus stoi args o /\ load_venus_config parse (vo_config o) (conf (vo_config o)) = Throw t) \/
       (exists v, In v vs /\ ~ sound v) \/
       (exists v e, In v vs /\ In e (vs_scan v) /\ raw_file e /\ d_content e = None))).
  Proof.
    intros M. destruct (main_inv _ _ _ _ M) as [(-> & _ & [H|(o & t & U & E)])|(o & e & U & E & R)].
    - right; right. split; [reflexivity|]. left. exact H.
    - right; right. split; [reflexivity|]. right; left. exists o, t. split; [exact U|].
      revert E. unfold venus_prefs, load_venus_config, json_file. rewrite !json_config_prefs.
      destruct (String.eqb (vo_config o) ""); [intros ->; reflexivity|].
      destruct (conf (vo_config o)) as [| |s]; try congruence. destruct (parse s); [|congruence].
      rewrite json_config_prefs. intros ->. reflexivity.
    - destruct (monitor_job_codes _ _ _ _ _ R) as [K|[K|(K & v & I & H)]]; [left; exact K|right; left; exact K|].
      right; right. split; [exact K|]. right; right. destruct H as [H|(x & A & B & D)].
      + left. exists v. split; assumption.
      + right. exists v, x. repeat split; try assumption; apply B.
  Qed.

  (** ** Bin edges that cannot be computed *)

  Lemma scan_job_broken j t es : get_bin_edges (e_bins (j_prefs j)) = Throw t -> forall s st q st',
    scan_job j es s st = Ok (q, st') ->
    v_files st' = v_files st /\ v_processed st' = v_processed st /\ saved_images (v_log st') = saved_images (v_log st).
  Proof.
    intros G. induction es as [|e es IH]; intros s st q st' E; cbn [scan_job] in E.
    - apply Ok_inj in E. injection E as _ <-. repeat split; reflexivity.
    - destruct (is_raw e && negb (seen st e)); [|eapply IH; exact E].
      destruct (reduce_job j e s (v_files st)) as [[[r s'] fs']| | |] eqn:Rd; cbn [obind] in E; try discriminate E.
      assert (K : (r = EndExit \/ r = EndFailed) /\ fs' = v_files st).
      { revert Rd. unfold reduce_job. rewrite G. destruct (d_content e) as [m|].
        - destruct (locate GDC_mode (find_headers m) m (zlen m) s) as [[bs s1]| | |]; try discriminate.
          + destruct (process_all (j_ext j) (e_abs (j_prefs j)) GDC_mode m bs); cbn [obind]; try discriminate;
              intros Rd; apply Ok_inj in Rd; injection Rd as <- _ <-; (split; [right|]; reflexivity).
          + intros Rd; apply Ok_inj in Rd; injection Rd as <- _ <-; (split; [right|]; reflexivity).
        - intros Rd; apply Ok_inj in Rd; injection Rd as <- _ <-; (split; [left|]; reflexivity). }
      destruct K as [[-> | ->] ->].
      + apply Ok_inj in E. injection E as _ <-. repeat split; reflexivity.
      + apply IH in E. cbn [v_files v_processed v_log] in E. destruct E as (A & B & C). rewrite A, B, C.
        unfold saved_images. rewrite flat_map_app, app_nil_r. repeat split; reflexivity.
  Qed.

  Lemma C83_no_edges_l o e t vs fs c st : understood_venus stoi args o ->
    venus_prefs parse (vo_config o) (conf (vo_config o)) = Ok e -> get_bin_edges (e_bins e) = Throw t ->
    venus_main ext stoi parse conf args vs fs = Ok (c, st) ->
    v_files st = fs /\ saved_images (v_log st) = [].
  Proof.
    intros U E G M. rewrite (main_run o e vs fs U E) in M.
    assert (K : forall st0, monitor_job (Job ext e (String.eqb (vo_mode o) "hit") (vo_out o) (vo_base o)) vs st0 = Ok (c, st) ->
      v_files st = v_files st0 /\ saved_images (v_log st) = saved_images (v_log st0)).
    { clear M. induction vs as [|v vs' IH]; intros st0 M; cbn [monitor_job] in M.
      - apply Ok_inj in M. injection M as _ ->. split; reflexivity.
      - destruct (existsb is_stop (vs_check v)); [apply Ok_inj in M; injection M as _ ->; split; reflexivity|].
        destruct (vs_check_ok v); cbn [negb] in M; [|apply Ok_inj in M; injection M as _ ->; split; reflexivity].
        destruct (scan_job _ (vs_scan v) ts0 st0) as [[q st1]| | |] eqn:S; cbn [obind] in M; try discriminate M.
        apply (scan_job_broken _ t) in S; [|exact G]. destruct S as (A & _ & B).
        destruct q; [apply Ok_inj in M; injection M as _ <-; split; assumption|].
        destruct (vs_scan_ok v); cbn [negb] in M; [|apply Ok_inj in M; injection M as _ <-; split; assumption].
        apply IH in M. destruct M as [A' B']. rewrite A', B'. split; assumption. }
    exact (K _ M).
  Qed.
End Main.

(** * No exception leaves the program *)

Lemma bind_quiet A B (o : outcome A) (k : A -> outcome B) :
  (forall t, o <> Throw t) -> (forall a t, k a <> Throw t) -> forall t, obind o k <> Throw t.
Proof. intros H K t. destruct o; cbn [obind]; [apply K|intros E; apply (H e); reflexivity|discriminate|discriminate]. Qed.
Lemma fold_quiet A B (f : A -> B -> outcome A) : (forall a b t, f a b <> Throw t) -> forall l a t, ofold f l a <> Throw t.
Proof. intros H. induction l as [|b l IH]; intros a; [discriminate|]. cbn [ofold]. apply bind_quiet; [apply H|apply IH]. Qed.
Lemma add_cols_quiet n : forall row scan t, add_cols n row scan <> Throw t.
Proof. induction n as [|n IH]; intros row scan; [discriminate|]. cbn [add_cols]. destruct row, scan; try discriminate. apply bind_quiet; [apply IH|discriminate]. Qed.
Lemma accumulate_quiet width im : forall old t, accumulate width im old <> Throw t.
Proof.
  induction im as [|row im IH]; intros old; [discriminate|]. cbn [accumulate].
  apply bind_quiet; [intros t; unfold read_scanline; destruct (_ >? _); discriminate|]. intros scan.
  apply bind_quiet; [apply add_cols_quiet|]. intros row'. apply bind_quiet; [apply IH|discriminate].
Qed.
Lemma write_rows_quiet width im t : write_rows width im <> Throw t.
Proof. revert t. induction im as [|row im IH]; [discriminate|]. cbn [write_rows]. destruct (_ <? _); [discriminate|]. apply bind_quiet; [exact IH|discriminate]. Qed.
Lemma save_bins_quiet writable dir base ims order fs t : save_bins writable dir base ims order fs <> Throw t.
Proof.
  apply fold_quiet. intros fs0 bin. destruct (nth_error ims bin) as [im|]; [|discriminate]. unfold save_bin. destruct im as [|row0 im]; [discriminate|].
  cbv zeta. apply bind_quiet.
  - destruct (fs0 _) as [[w h old| |]|]; try discriminate. destruct (_ && _); [apply accumulate_quiet|discriminate].
  - intros acc. destruct (writable _); [|discriminate]. apply bind_quiet; [apply write_rows_quiet|discriminate].
Qed.
Lemma save_quiet su w ims fs t : save_in_world su w ims fs <> Throw t.
Proof.
  unfold save_in_world. destruct (w_fault w).
  - destruct (w_mkdir w); [|discriminate]. apply bind_quiet; [apply save_bins_quiet|discriminate].
  - destruct (save_tiff _ _ _ _ _ _ _ _); discriminate.
Qed.
Lemma reduce_file_quiet su e s fs t : reduce_file su e s fs <> Throw t.
Proof.
  unfold reduce_file. destruct (d_content e); [|discriminate].
  destruct (locate _ _ _ _ _) as [[bs s1]| | |]; try discriminate. cbv zeta.
  match goal with |- match ?x with _ => _ end <> _ => destruct x end; try discriminate.
  apply bind_quiet; [intros; apply save_quiet|]. intros [r fs']; discriminate.
Qed.
Lemma reduce_job_quiet j e s fs t : reduce_job j e s fs <> Throw t.
Proof.
  unfold reduce_job. destruct (get_bin_edges (e_bins (j_prefs j))); [apply reduce_file_quiet|..];
    (destruct (d_content e); [|discriminate]); (destruct (locate _ _ _ _ _) as [[bs s1]| | |]; try discriminate);
    match goal with |- match ?x with _ => _ end <> _ => destruct x end; discriminate.
Qed.
Lemma scan_job_quiet j es : forall s st t, scan_job j es s st <> Throw t.
Proof.
  induction es as [|e es IH]; intros s st; [discriminate|]. cbn [scan_job]. destruct (_ && _); [|apply IH].
  apply bind_quiet; [intros; apply reduce_job_quiet|]. intros [[[ims| |] s'] fs']; first [discriminate|apply IH].
Qed.
Lemma monitor_job_quiet j vs : forall st t, monitor_job j vs st <> Throw t.
Proof.
  induction vs as [|v vs IH]; intros st; [discriminate|]. cbn [monitor_job]. destruct (existsb _ _); [discriminate|].
  destruct (negb _); [discriminate|]. apply bind_quiet; [intros; apply scan_job_quiet|].
  intros [[] st']; [discriminate|]. destruct (negb _); [discriminate|apply IH].
Qed.
Lemma C83_catches_l ext stoi parse conf args vs fs t : venus_main ext stoi parse conf args vs fs <> Throw t.
Proof.
  unfold venus_main. destruct (parse_venus stoi args); try discriminate.
  destruct (venus_prefs _ _ _); try discriminate. apply monitor_job_quiet.
Qed.
