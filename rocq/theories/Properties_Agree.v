(** Property C108: the auto reducer and the command line program make the same images.
    The theorem is followed by a concrete instance. *)
From Coq Require Import Reals String Lia Permutation.
From Verif Require Import P_Agree S_Agree P_Append P_Program P_Measure P_Reduce.
From Verif Require Import Properties_Tpx3 Properties_Abs Properties_Cli Properties_Venus Properties_Program Properties_Measure Properties_Events Properties_Motion Properties_Reduce Properties_Append.
Local Open Scope string_scope.
Local Open Scope Z_scope.
Local Open Scope list_scope.

(** The auto reducer follows a run in which raw files appear in any scans.  The command
    line program is run once for each of these files, in any order, starting from the
    same earlier images, with the same mode and names.  Then every pixel of every image
    is the same.  (The command line runs need not be on the very same bytes: any files
    that carry the same true hits will do.) *)
Theorem C108_images : forall ext stoi parse conf args o cfg truth vs v rest d names d',
  understood_venus stoi args o -> configured_venus parse conf o cfg -> vo_out o <> "" ->
  edges_ok (g_edges cfg) -> g_sr cfg = f_of_Z 1 ->
  images_fit (d_files d) (vo_out o) (vo_base o) (length (g_edges cfg) - 1) 517 ->
  Forall sound vs -> Forall (fun v => ~ visit_stops v) vs -> visit_stops v ->
  faithful (length (g_edges cfg) - 1) truth vs ->
  names <> [] -> NoDup names -> (forall nm, In nm names <-> offered vs nm) ->
  cli_runs ext cfg (vo_out o) (vo_base o) (vo_mode o) truth names d d' ->
  exists st, venus_main ext stoi parse conf args (vs ++ v :: rest) (d_files d) = Ok (Some 0, st) /\
    forall i x y, (i < length (g_edges cfg) - 1)%nat -> 0 <= x < 517 -> 0 <= y < 517 ->
      exists z, disk (v_files st) (tiff_name (vo_out o) (vo_base o) i) x y = Some z /\
        disk (d_files d') (tiff_name (vo_out o) (vo_base o) i) x y = Some z.
Proof. exact C108_l. Qed.
Print Assumptions C108_images.

(** Two files that appear in two scans, and two runs of the program in the other order. *)
Example C108_images_instance : exists edges d1 d2 st,
  completed cex_ext mo_o (Config (AbsCfg (f_of_Z 5) 1 75) (f_of_Z 1) edges) (map dataset_of hex) 517 pex_d d1 /\
  completed cex_ext mo_o (Config (AbsCfg (f_of_Z 5) 1 75) (f_of_Z 1) edges) (map dataset_of hex) 517 d1 d2 /\
  venus_main cex_ext (fun _ => None) rex_parse rex_conf (rex_args "hit")
    (rex_vs (length edges - 1) ++ [rex_stop]) (d_files pex_d) = Ok (Some 0, st) /\
  forall i x y, (i < length edges - 1)%nat -> 0 <= x < 517 -> 0 <= y < 517 ->
    exists z, disk (v_files st) (tiff_name "out" "tof_image" i) x y = Some z /\
      disk (d_files d2) (tiff_name "out" "tof_image" i) x y = Some z.
Proof.
  destruct eex_recording as (k & O & R).
  destruct (P_Program.C81_default_l (mo_w (map dataset_of hex)) mo_o eq_refl) as (edges & C & E & _).
  assert (Cv : configured_venus rex_parse rex_conf (rex_opts "hit") (Config (AbsCfg (f_of_Z 5) 1 75) (f_of_Z 1) edges)).
  { destruct (P_Load.C52_l (env_double (mo_w (map dataset_of hex))) (env_json (mo_w (map dataset_of hex))) "" (env_config (mo_w (map dataset_of hex)) "")) as (A & _).
    destruct (P_Load.C52_l (fun _ => f_of_Z 0) rex_parse "" (rex_conf "")) as (B & _).
    destruct (A eq_refl) as (e1 & D1 & E1 & _). destruct (B eq_refl) as (e2 & D2 & _ & E2).
    pose proof (f_equal (fun c => match c with Ok (Some c) => g_edges c | _ => [] end) (eq_trans (eq_sym C) E1)) as X1. cbn [g_edges] in X1.
    pose proof (P_AbsProps.Ok_inj _ _ (eq_trans (eq_sym D1) D2)) as X2. rewrite X1, X2. exact E2. }
  assert (Un : images_fit (d_files pex_d) "out" "tof_image" (length edges - 1) 517).
  { intros i _. right. intros w h r. discriminate. }
  assert (Nf : Forall no_false_header (map dataset_of hex)) by (repeat constructor; vm_compute; intuition discriminate).
  destruct (ap_completed (map dataset_of hex) (map x_hits eex) k edges pex_d C E ltac:(discriminate) O Nf ltac:(reflexivity) R Un) as (d1 & P1).
  destruct (ap_completed (map dataset_of hex) (map x_hits eex) k edges d1 C E ltac:(discriminate) O Nf ltac:(reflexivity) R) as (d2 & P2).
  { intros i Hi. left. exact (completed_saved _ _ _ _ _ _ _ P1 ltac:(discriminate) i Hi). }
  exists edges, d1, d2.
  destruct (C108_images cex_ext (fun _ => None) rex_parse rex_conf (rex_args "hit") (rex_opts "hit")
    (Config (AbsCfg (f_of_Z 5) 1 75) (f_of_Z 1) edges) (fun _ => map x_hits eex) (rex_vs (length edges - 1)) rex_stop [] pex_d
    ["b.tpx3"; "a.tpx3"] d2) as (st & V & D).
  - apply rex_understood. auto.
  - exact Cv.
  - discriminate.
  - exact E.
  - reflexivity.
  - exact Un.
  - repeat constructor.
  - apply rex_quiet.
  - exact rex_stops.
  - apply rex_faithful.
  - discriminate.
  - constructor; [intros [X|[]]; discriminate X|]. constructor; [intros []|constructor].
  - intros nm. rewrite rex_offered. cbn [In]. intuition congruence.
  - eapply (cr_run _ _ _ _ _ _ _ _ mo_o); [reflexivity|reflexivity|reflexivity|reflexivity|exact R|exact P1|].
    eapply (cr_run _ _ _ _ _ _ _ _ mo_o); [reflexivity|reflexivity|reflexivity|reflexivity|exact R|exact P2|constructor].
  - exists st. split; [exact P1|]. split; [exact P2|]. split; [exact V|]. exact D.
Qed.
