(** Proofs about the choice of the configuration format. *)
From Coq Require Import Ascii Lia ZifyBool.
From Verif Require Export P_Json P_Venus.
Local Open Scope Z_scope.

Lemma after_slash_none s : after_slash s = None <-> all_chars (fun c => c <> "/"%char) s.
Proof.
  split.
  - induction s as [|c s IH]; cbn [after_slash]; [constructor|]. destruct (after_slash s); [discriminate|].
    destruct (Ascii.eqb_spec c "/"); [discriminate|]. constructor; auto.
  - induction 1 as [|c s Hc _ IH]; [reflexivity|]. cbn [after_slash]. rewrite IH. apply Ascii.eqb_neq in Hc. rewrite Hc. reflexivity.
Qed.
Lemma after_slash_some s t : after_slash s = Some t <->
  exists d, s = (d ++ "/" ++ t)%string /\ all_chars (fun c => c <> "/"%char) t.
Proof.
  split.
  - revert t. induction s as [|c s IH]; intros t; cbn [after_slash]; [discriminate|].
    destruct (after_slash s) as [t'|] eqn:E.
    + intros H. injection H as ->. destruct (IH t eq_refl) as (d & -> & A). exists (String c d). auto.
    + destruct (Ascii.eqb_spec c "/") as [->|]; [|discriminate]. intros H. injection H as ->.
      exists ""%string. split; [reflexivity|]. apply after_slash_none. exact E.
  - intros (d & -> & A). apply after_slash_none in A. induction d as [|c d IH]; cbn [append after_slash].
    + rewrite A. reflexivity.
    + cbn [append] in IH. rewrite IH. reflexivity.
Qed.
Lemma all_chars_app P a b : all_chars P (a ++ b)%string <-> all_chars P a /\ all_chars P b.
Proof.
  induction a as [|c a IH]; cbn [append].
  - split; [split; [constructor|assumption]|tauto].
  - split.
    + intros H. inversion H as [|? ? Hc Ha]; subst. apply IH in Ha. destruct Ha. split; [constructor; assumption|assumption].
    + intros [H1 H2]. inversion H1 as [|? ? Hc Ha]; subst. constructor; [exact Hc|]. apply IH. auto.
Qed.
Lemma json_chars : all_chars (fun c => c <> "/"%char) ".json".
Proof. repeat constructor; discriminate. Qed.
Lemma ext_json f : String.eqb (if String.eqb f "." || String.eqb f ".." then ""%string else extension f) ".json" = true <->
  exists p, p <> ""%string /\ f = (p ++ ".json")%string.
Proof.
  rewrite String.eqb_eq. rewrite <- (extension_spec f ".json") by (discriminate || reflexivity).
  destruct (String.eqb_spec f "."); [subst; split; discriminate|]. destruct (String.eqb_spec f ".."); [subst; split; discriminate|].
  reflexivity.
Qed.
Lemma filename_spec name f : match after_slash name with Some t => t | None => name end = f <->
  exists dir, name = (dir ++ f)%string /\ all_chars (fun c => c <> "/"%char) f /\
    (dir = ""%string \/ exists d, dir = (d ++ "/")%string).
Proof.
  split.
  - intros <-. destruct (after_slash name) as [t|] eqn:E.
    + apply after_slash_some in E. destruct E as (d & -> & A). exists (d ++ "/")%string. rewrite app_assoc_s. eauto.
    + exists ""%string. split; [reflexivity|]. split; [apply after_slash_none; exact E|auto].
  - intros (dir & -> & A & [->|(d & ->)]).
    + cbn [append]. rewrite (proj2 (after_slash_none f) A). reflexivity.
    + rewrite (proj2 (after_slash_some ((d ++ "/") ++ f) f)); [reflexivity|]. exists d. rewrite app_assoc_s. auto.
Qed.
Lemma json_name_spec name : String.eqb (path_extension name) ".json" = true <-> json_name name.
Proof.
  unfold path_extension, json_name. cbv zeta. rewrite ext_json. split.
  - intros (p & N & E). apply filename_spec in E. destruct E as (dir & -> & A & D). apply all_chars_app in A.
    exists dir, p. split; [reflexivity|]. split; [exact N|]. split; [apply A|exact D].
  - intros (dir & base & -> & N & B & D). exists base. split; [exact N|]. apply filename_spec. exists dir.
    split; [reflexivity|]. split; [|exact D]. apply all_chars_app. split; [exact B|exact json_chars].
Qed.

(** * Loading *)

Lemma default_json_l edges : default_edges (f_lit 167 10000) edges ->
  json_config default_json = Ok (Config default_abs (f_of_Z 1) edges).
Proof.
  intros H. unfold json_config. change (json_binning default_json) with (Ok (Binning (Some 1500) (Some default_max) [])).
  cbn [obind]. change (json_value ["abs"; "radius"]%string get_double (f_of_Z 5) default_json) with (Ok (f_of_Z 5)).
  change (json_value ["abs"; "min_cluster_size"]%string get_ulong 1 default_json) with (Ok 1).
  change (json_value ["abs"; "spider_time_range"]%string get_ulong 75 default_json) with (Ok 75).
  change (json_value ["tof_imaging"; "super_resolution"]%string get_double (f_of_Z 1) default_json) with (Ok (f_of_Z 1)).
  cbn [obind]. change default_max with (f_lit 167 10000). unfold default_edges in H. rewrite H. reflexivity.
Qed.
Lemma default_edges_ok max : exists edges, default_edges max edges.
Proof. eexists. reflexivity. Qed.

Lemma C40_text_l rd ls last c : Forall one_line ls -> one_line last ->
  text_config rd (Text (text_of ls ++ last)) = Ok (Some c) <->
  (complete (ls ++ [last]) /\ settings rd (ls ++ [last]) (g_abs c)) /\ g_sr c = f_of_Z 1 /\ default_edges (f_lit 1 60) (g_edges c).
Proof.
  intros Hl H1.
  assert (E : parse_lines rd (lines_of (text_of ls ++ last)) = parse_lines rd (ls ++ [last])).
  { destruct (string_dec last "") as [->|N].
    - rewrite append_nil. destruct (C40_lines_l ls "x" Hl) as [-> _]; [repeat constructor; discriminate|discriminate|].
      rewrite (C40_ignored_l rd ls ""%string []); [rewrite List.app_nil_r; reflexivity|].
      intros k v I S. apply says_read in S. destruct S as (r & S & _). cbn in S. injection S as <- _.
      cbn in I. intuition discriminate.
    - destruct (C40_lines_l ls last Hl H1 N) as [_ ->]. reflexivity. }
  unfold text_config. rewrite E, <- C40_l. unfold user_config, default_edges. fold default_binning.
  destruct (parse_lines rd (ls ++ [last])) as [a| | |]; cbn [obind];
    try (split; [discriminate|intros (K & _); discriminate K]).
  destruct (get_bin_edges default_binning) as [e| | |]; cbn [obind]; split.
  - intros H. apply Ok_inj in H. injection H as <-. auto.
  - intros (A & B & C). apply Ok_inj in A. apply Ok_inj in C. destruct c. cbn in *. subst. reflexivity.
  - discriminate.
  - intros (A & B & C). discriminate C.
  - discriminate.
  - intros (A & B & C). discriminate C.
  - discriminate.
  - intros (A & B & C). discriminate C.
Qed.
Lemma C40_file_l rd : text_config rd NoFile = Ok None /\
  (exists edges, default_edges (f_lit 1 60) edges /\
     text_config rd Unreadable = Ok (Some (Config (AbsCfg (f_of_Z 5) 1 75) (f_of_Z 1) edges))).
Proof.
  split; [reflexivity|]. destruct (default_edges_ok (f_lit 1 60)) as (e & E). exists e. split; [exact E|].
  unfold text_config, user_config. unfold default_edges in E. fold default_binning in E. rewrite E. reflexivity.
Qed.

Lemma C52_l rd parse name f :
  (name = ""%string -> exists edges, default_edges (f_lit 167 10000) edges /\
     load_config rd parse name f = Ok (Some (Config (AbsCfg (f_of_Z 5) 1 75) (f_of_Z 1) edges)) /\
     load_venus_config parse name f = Ok (Config (AbsCfg (f_of_Z 5) 1 75) (f_of_Z 1) edges)) /\
  (name <> ""%string -> load_venus_config parse name f = json_file parse f) /\
  (json_name name -> forall c, load_config rd parse name f = Ok (Some c) <-> json_file parse f = Ok c) /\
  (name <> ""%string -> ~ json_name name -> load_config rd parse name f = text_config rd f) /\
  (forall c, json_file parse f = Ok c <-> exists s j, f = Text s /\ parse s = Some j /\ json_config j = Ok c).
Proof.
  unfold load_config, load_venus_config. split; [|split; [|split; [|split]]].
  - intros ->. destruct (default_edges_ok (f_lit 167 10000)) as (e & E). exists e. split; [exact E|].
    cbn [String.eqb]. rewrite (default_json_l e E). split; reflexivity.
  - intros N. destruct (String.eqb_spec name ""); [contradiction|reflexivity].
  - intros J c. destruct (String.eqb_spec name "") as [->|N].
    + destruct J as ([|] & [|] & E & _); discriminate E.
    + apply json_name_spec in J. rewrite J. destruct (json_file parse f) as [c'| | |]; cbn [obind]; split; try discriminate.
      * intros H. apply Ok_inj in H. injection H as ->. reflexivity.
      * intros H. apply Ok_inj in H. subst. reflexivity.
  - intros N J. destruct (String.eqb_spec name ""); [contradiction|].
    destruct (String.eqb (path_extension name) ".json") eqn:E; [|reflexivity]. apply json_name_spec in E. contradiction.
  - intros c. unfold json_file. split.
    + destruct f as [| |s]; try discriminate. destruct (parse s) as [j|] eqn:P; [|discriminate]. eauto.
    + intros (s & j & -> & -> & H). exact H.
Qed.

Lemma at_unique p : forall j x y, at_path j p x -> at_path j p y -> x = y.
Proof. intros j x y H H'. apply resolve_some in H, H'. congruence. Qed.
Lemma C51_empty_l l1 l2 l3 l4 b : ~ In "tof_imaging"%string (map fst l1) -> ~ In "bin_edges"%string (map fst l3) ->
  binning_of (JObject (l1 ++ ("tof_imaging"%string, JObject (l3 ++ ("bin_edges"%string, JArray []) :: l4)) :: l2)) b ->
  b = Binning (Some 1500) (Some (f_lit 1 60)) [].
Proof.
  intros N1 N3 H.
  assert (P : at_path (JObject (l1 ++ ("tof_imaging"%string, JObject (l3 ++ ("bin_edges"%string, JArray []) :: l4)) :: l2))
                ["tof_imaging"; "bin_edges"]%string (JArray [])).
  { constructor; [exact N1|]. constructor; [exact N3|constructor]. }
  inversion H as [l e P' F E|u n x N P' Tn Tx E|N _ E].
  - pose proof (at_unique _ _ _ _ P P') as Q. injection Q as <-. inversion F. reflexivity.
  - elim (N _ P).
  - elim (N _ P).
Qed.
