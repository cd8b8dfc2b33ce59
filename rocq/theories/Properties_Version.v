(** Property C94: the script for versions.  Each theorem is followed by a concrete
    instance, mostly the version file of the repository. *)
From Coq Require Import String.
From Verif Require Import P_Version.
Global Open Scope Z_scope.

Definition repo (g : list text) : vfiles := VFiles (Some version_h) (Some g).
(** The file of the repository after "release minor". *)
Definition version_h' : list text :=
  firstn 14 version_h ++ [codes "#define VERSION_MINOR 4"; codes "#define VERSION_PATCH 0"] ++ skipn 16 version_h.

(** The version file states the version: what the build asks for is that version. *)
Theorem C94_print : forall s d f g v, states f v -> exists t, written v t /\
  version_sh (command s d [codes "print"]) (VFiles (Some f) (Some g)) = (Ends Zero (Text (t ++ line_end s)), VFiles (Some f) (Some g)).
Proof. exact C94_print_l. Qed.
Print Assumptions C94_print.
Theorem C94_part : forall s d f g v p, states f v -> exists t, numeral (part_of p v) t /\
  version_sh (command s d [codes "print"; part_name p]) (VFiles (Some f) (Some g)) =
    (Ends Zero (Text (t ++ line_end s)), VFiles (Some f) (Some g)).
Proof. exact C94_part_l. Qed.
Print Assumptions C94_part.
Example C94_print_instance : states version_h (2, 3, 0) /\
  version_sh [codes "-s"; codes "print"] (repo []) = (Ends Zero (Text (codes "2.3.0")), repo []) /\
  version_sh [codes "print"; codes "minor"] (repo []) = (Ends Zero (Text (codes "3" ++ [10])), repo []).
Proof. split; [exact version_h_states|]. split; vm_compute; reflexivity. Qed.

(** A release states the next version, which is later, and keeps the other lines. *)
Theorem C94_release : forall s f g v p, states f v -> part_of p v < 2 ^ 63 - 1 ->
  exists t f', written (next p v) t /\
    version_sh (command s false [codes "release"; part_name p]) (VFiles (Some f) (Some g)) =
      (Ends Zero (Text (t ++ line_end s)), VFiles (Some f') (Some g)) /\
    states f' (next p v) /\ earlier v (next p v) /\ Forall2 kept f f'.
Proof. exact C94_release_l. Qed.
Print Assumptions C94_release.
Theorem C94_default : forall s d f g v, states f v -> part_of Patch v < 2 ^ 63 - 1 ->
  version_sh (command s d [codes "release"]) (VFiles (Some f) (Some g)) =
  version_sh (command s d [codes "release"; part_name Patch]) (VFiles (Some f) (Some g)).
Proof. exact C94_default_l. Qed.
Print Assumptions C94_default.
Theorem C94_dry : forall s f g v p, states f v -> part_of p v < 2 ^ 63 - 1 -> exists t, written (next p v) t /\
  version_sh (command s true [codes "release"; part_name p]) (VFiles (Some f) (Some g)) =
    (Ends Zero (Text (t ++ line_end s)), VFiles (Some f) (Some g)).
Proof. exact C94_dry_l. Qed.
Print Assumptions C94_dry.
Example C94_release_instance :
  version_sh [codes "-s"; codes "release"; codes "minor"] (repo []) =
    (Ends Zero (Text (codes "2.4.0")), VFiles (Some version_h') (Some [])) /\
  version_sh [codes "-s"; codes "--dry-run"; codes "release"] (repo []) = (Ends Zero (Text (codes "2.3.1")), repo []).
Proof. split; vm_compute; reflexivity. Qed.

(** Any files: what a release prints is what the build then reads. *)
Theorem C94_consistent : forall s d rest f g t fs', Forall plain rest ->
  version_sh (command s false (codes "release" :: rest)) (VFiles (Some f) (Some g)) = (Ends Zero (Text t), fs') ->
  version_sh (command s d [codes "print"]) fs' = (Ends Zero (Text t), fs').
Proof. exact C94_consistent_l. Qed.
Print Assumptions C94_consistent.
(** Any arguments: only numbers of the three definitions may change. *)
Theorem C94_lines : forall args fs e fs', version_sh args fs = (e, fs') ->
  f_changelog fs' = f_changelog fs /\
  (fs' = fs \/ exists f f', f_version fs = Some f /\ f_version fs' = Some f' /\ Forall2 kept f f').
Proof. exact C94_lines_l. Qed.
Print Assumptions C94_lines.
(** A dry run changes nothing, nor does anything but a release. *)
Theorem C94_untouched : forall args fs e fs', version_sh args fs = (e, fs') ->
  (~ In (codes "--") args /\ (In (codes "-d") args \/ In (codes "--dry-run") args)) \/
  (forall a x y, In a args -> a <> x ++ codes "release" ++ y) -> fs' = fs.
Proof. exact C94_untouched_l. Qed.
Print Assumptions C94_untouched.
Example C94_consistent_instance :
  version_sh [codes "print"] (VFiles (Some version_h') (Some [])) = (Ends Zero (Text (codes "2.4.0" ++ [10])), VFiles (Some version_h') (Some [])).
Proof. vm_compute. reflexivity. Qed.

(** The check succeeds exactly if the first release of the changelog has the version
    of the version file; so a release needs a new entry. *)
Theorem C94_check : forall s d f g v, states f v ->
  (exists t, written v t /\ logged g t /\ version_sh (command s d [codes "check"]) (VFiles (Some f) (Some g)) =
     (Ends Zero (Text (codes "Changelog version (" ++ t ++ codes ") OK!" ++ line_end s)), VFiles (Some f) (Some g))) \/
  ((forall t, written v t -> ~ logged g t) /\
   version_sh (command s d [codes "check"]) (VFiles (Some f) (Some g)) = (Ends Nonzero Nothing, VFiles (Some f) (Some g))).
Proof. exact C94_check_l. Qed.
Print Assumptions C94_check.
Theorem C94_log : forall v t r g, written v t -> Forall (fun c => ~ a_digit c /\ c <> 46) r ->
  logged ((codes "sophiread (" ++ t ++ r) :: g) t.
Proof. exact C94_log_l. Qed.
Print Assumptions C94_log.
Theorem C94_check_after : forall s s' d d' rest f g t t' fs', Forall plain rest ->
  version_sh (command s d [codes "check"]) (VFiles (Some f) (Some g)) = (Ends Zero t, VFiles (Some f) (Some g)) ->
  version_sh (command s' false (codes "release" :: rest)) (VFiles (Some f) (Some g)) = (Ends Zero t', fs') ->
  version_sh (command s d' [codes "check"]) fs' = (Ends Nonzero Nothing, fs').
Proof. exact C94_check_after_l. Qed.
Print Assumptions C94_check_after.
Example C94_check_instance : let g := lines ["sophiread (2.3.0) stable"; ""; "sophiread (2.2.9) stable"]%string in
  version_sh [codes "check"] (repo g) = (Ends Zero (Text (codes "Changelog version (2.3.0) OK!" ++ [10])), repo g) /\
  version_sh [codes "check"] (VFiles (Some version_h') (Some g)) = (Ends Nonzero Nothing, VFiles (Some version_h') (Some g)) /\
  version_sh [codes "check"] (repo []) = (Ends Nonzero Nothing, repo []).
Proof. cbv zeta. repeat split; vm_compute; reflexivity. Qed.

(** What is refused, with all files as they were: an unknown flag, action or part, a
    missing file. *)
Theorem C94_flag : forall pre w post fs, Forall (fun a => a <> codes "--") pre -> hd 0 w = 45 ->
  ~ In w (map codes ["-s"; "--script"; "-d"; "--dry-run"; "--"]%string) ->
  version_sh (pre ++ w :: post) fs = (Ends Nonzero Nothing, fs).
Proof. exact C94_flag_l. Qed.
Print Assumptions C94_flag.
Theorem C94_action : forall s d w rest f g, plain w -> Forall plain rest ->
  w <> codes "print" -> w <> codes "release" -> w <> codes "check" ->
  version_sh (command s d (w :: rest)) (VFiles (Some f) (Some g)) = (Ends Nonzero Nothing, VFiles (Some f) (Some g)).
Proof. exact C94_action_l. Qed.
Print Assumptions C94_action.
Theorem C94_part_refused : forall s d w act rest f g, plain w -> Forall plain rest -> In act [codes "print"; codes "release"] ->
  (forall p, w <> part_name p) ->
  version_sh (command s d (act :: w :: rest)) (VFiles (Some f) (Some g)) = (Ends Nonzero Nothing, VFiles (Some f) (Some g)).
Proof. exact C94_part_refused_l. Qed.
Print Assumptions C94_part_refused.
Theorem C94_files : forall args fs, args <> [] -> f_version fs = None \/ f_changelog fs = None ->
  version_sh args fs = (Ends Nonzero Nothing, fs).
Proof. exact C94_files_l. Qed.
Print Assumptions C94_files.
Example C94_refused_instance :
  version_sh [codes "release"; codes "tiny"] (repo []) = (Ends Nonzero Nothing, repo []) /\
  version_sh [codes "-s"; codes "-x"; codes "release"] (repo []) = (Ends Nonzero Nothing, repo []).
Proof. split; vm_compute; reflexivity. Qed.

(** Several words in one argument count as so many arguments. *)
Theorem C94_words : forall pre ws a post fs, Forall plain ws -> joined ws a ->
  version_sh (pre ++ a :: post) fs = version_sh (pre ++ ws ++ post) fs.
Proof. exact C94_words_l. Qed.
Print Assumptions C94_words.
Example C94_words_instance : joined [codes "print"; codes "minor"] (codes "print" ++ [9; 32] ++ codes "minor") /\
  version_sh [codes "print" ++ [9; 32] ++ codes "minor"] (repo []) = (Ends Zero (Text (codes "3" ++ [10])), repo []).
Proof.
  split; [|vm_compute; reflexivity]. apply jo_more; [discriminate|repeat constructor; cbn; tauto|apply jo_one].
Qed.

(** VERSION_NUMBER orders the versions whose parts fit. *)
Theorem C94_number : forall v v', (let '(a, b, c) := v in 0 <= a < 2 ^ 15 /\ 0 <= b < 256 /\ 0 <= c < 256) ->
  (let '(a, b, c) := v' in 0 <= a < 2 ^ 15 /\ 0 <= b < 256 /\ 0 <= c < 256) ->
  exists n n', (let '(a, b, c) := v in version_number a b c) = Some n /\ (let '(a, b, c) := v' in version_number a b c) = Some n' /\
    (n < n' <-> earlier v v').
Proof. exact C94_number_l. Qed.
Print Assumptions C94_number.
Example C94_number_instance : version_number 2 3 0 = Some 131840 /\ version_number 2 10 1 = Some 133633.
Proof. split; reflexivity. Qed.

(** * What does not hold *)

(** The hypothesis that a definition has no leading zero: 2.3.010 is followed by
    2.3.9, as the shell takes 010 for eight. *)
Theorem C94_octal_refuted : exists f f' g,
  version_sh [codes "-s"; codes "print"] (VFiles (Some f) (Some g)) = (Ends Zero (Text (codes "2.3.010")), VFiles (Some f) (Some g)) /\
  version_sh [codes "-s"; codes "release"] (VFiles (Some f) (Some g)) = (Ends Zero (Text (codes "2.3.9")), VFiles (Some f') (Some g)).
Proof. exact C94_octal_l. Qed.
Print Assumptions C94_octal_refuted.
(** That it has no other digit: a year in a comment becomes part of the version, and
    a release fails although it has changed the file. *)
Theorem C94_comment_refuted : exists f f' g,
  version_sh [codes "-s"; codes "print"] (VFiles (Some f) (Some g)) = (Ends Zero (Text (codes "2.3.52024")), VFiles (Some f) (Some g)) /\
  version_sh [codes "-s"; codes "release"; codes "minor"] (VFiles (Some f) (Some g)) = (Ends Nonzero Nothing, VFiles (Some f') (Some g)) /\
  f' <> f.
Proof. exact C94_comment_l. Qed.
Print Assumptions C94_comment_refuted.
(** That blanks after "#define" are spaces: with a tab the number is not found. *)
Theorem C94_tab_refuted : exists f g,
  In (codes "#define" ++ 9 :: codes "VERSION_PATCH 0") f /\
  version_sh [codes "-s"; codes "print"] (VFiles (Some f) (Some g)) = (Ends Nonzero Nothing, VFiles (Some f) (Some g)).
Proof. exact C94_tab_l. Qed.
Print Assumptions C94_tab_refuted.
(** That there is no "--" before: what follows it is dropped, the action and the
    option for a dry run alike. *)
Theorem C94_dashes_refuted : exists fs fs' e,
  version_sh [codes "--"; codes "print"] fs = (Ends Nonzero Usage, fs) /\
  version_sh [codes "release"; codes "--"; codes "--dry-run"] fs = (e, fs') /\ fs' <> fs.
Proof. exact C94_dashes_l. Qed.
Print Assumptions C94_dashes_refuted.
(** That the parts fit: two versions have one number. *)
Theorem C94_number_refuted : exists n, version_number 2 256 0 = Some n /\ version_number 3 0 0 = Some n.
Proof. exact C94_number_clash_l. Qed.
Print Assumptions C94_number_refuted.
