(** Model of sophiread/scripts/version.sh, which the build runs (CMakeLists.txt
    4-14) and which makes a release, and of the macros of include/version.h.

    Texts are lists of character codes, files are lists of lines.  The tools are
    those of GNU: in a bracket expression grep takes \t for the two characters
    backslash and t, sed for a tab.  Not modelled: wildcards in the
    arguments, files that cannot be read or written, what is printed on the error
    output; non-zero exit statuses are not told apart. *)
From Coq Require Import String.
From Verif Require Export M_GdcMain.
Local Open Scope Z_scope.
Local Open Scope list_scope.

Definition text := list Z.
Definition same (a b : text) : bool := if list_eq_dec Z.eq_dec a b then true else false.
Definition digit (c : Z) : bool := (48 <=? c) && (c <=? 57).

(** * grep and sed *)

Fixpoint skip (P : Z -> bool) (l : text) : text :=
  match l with c :: r => if P c then skip P r else l | [] => [] end.
Fixpoint span (P : Z -> bool) (l : text) : text :=
  match l with c :: r => if P c then c :: span P r else [] | [] => [] end.
(** What follows [w] at the start of [l]. *)
Fixpoint after (w l : text) : option text :=
  match w, l with
  | [], _ => Some l
  | c :: w', d :: l' => if c =? d then after w' l' else None
  | _ :: _, [] => None
  end.
Definition define : text := codes "#define".
(** [ \t] of grep and of sed. *)
Definition grep_blank (c : Z) : bool := (c =? 32) || (c =? 92) || (c =? 116).
Definition sed_blank (c : Z) : bool := (c =? 32) || (c =? 9).

(** version.sh:63: the pattern "^#define\([ \t]*\)$1"; [id] begins with none of
    the characters of the bracket. *)
Definition grep_define (id l : text) : bool :=
  match after define l with
  | Some r => match after id (skip grep_blank r) with Some _ => true | None => false end
  | None => false
  end.
(** version.sh:91: s/\(^#define[ \t]*$1\)[ \t]*\([0-9]*\)/\1 $2/g on one line; an
    anchored pattern matches once. *)
Definition sed_define (id v l : text) : text :=
  match after define l with
  | Some r =>
      match after id (skip sed_blank r) with
      | Some q => define ++ span sed_blank r ++ id ++ [32] ++ v ++ skip digit (skip sed_blank q)
      | None => l
      end
  | None => l
  end.

(** * Numbers of the shell *)

(** $((x+1)) takes a number with a leading zero as octal; [None]: an error, which
    ends the script.  The number must be below 2^63. *)
Fixpoint in_base (b v : Z) (l : text) : option Z :=
  match l with
  | [] => Some v
  | c :: r => if c - 48 <? b then in_base b (b * v + (c - 48)) r else None
  end.
Definition shell_number (l : text) : option Z :=
  match l with
  | 48 :: r => in_base 8 0 r
  | _ => in_base 10 0 l
  end.

(** * The script *)

Record vfiles := VFiles { f_version : option (list text); f_changelog : option (list text) }.
Inductive printed := Nothing | Usage | Text (l : text).
Inductive status := Zero | Nonzero.
(** [Unspecified]: arithmetic beyond intmax_t. *)
Inductive ending := Ends (s : status) (p : printed) | Unspecified.
Definition die : ending := Ends Nonzero Nothing.

(** version.sh:61-70: get_version_part; [None]: it dies.  The files exist. *)
Definition version_part (f : list text) (id : text) : option text :=
  match find (grep_define id) f with
  | Some l => match filter digit l with [] => None | d => Some d end
  | None => None
  end.
Definition MAJOR : text := codes "VERSION_MAJOR".
Definition MINOR : text := codes "VERSION_MINOR".
Definition PATCH : text := codes "VERSION_PATCH".
(** version.sh:75-80: get_version; under set -e the first failure ends it. *)
Definition version := (text * text * text)%type.
Definition get_version (f : list text) : option version :=
  match version_part f MAJOR, version_part f MINOR, version_part f PATCH with
  | Some a, Some b, Some c => Some (a, b, c)
  | _, _, _ => None
  end.
Definition dotted (v : version) : text := let '(a, b, c) := v in a ++ [46] ++ b ++ [46] ++ c.

(** version.sh:85-97: commit_version_part; false: it dies, after writing. *)
Definition commit_part (f : list text) (id v : text) : list text * bool :=
  let f' := map (sed_define id v) f in
  (f', match version_part f' id with Some v' => same v' v | None => false end).
(** version.sh:101-108. *)
Definition commit (f : list text) (v : version) : list text * bool :=
  let '(a, b, c) := v in
  let (f, ok) := commit_part f PATCH c in
  if ok then
    let (f, ok) := commit_part f MINOR b in
    if ok then commit_part f MAJOR a else (f, false)
  else (f, false).

(** version.sh:115-137: print_version; [lf]: "\n" or nothing. *)
Definition print_version (lf : text) (v : version) (part : text) : ending :=
  let '(a, b, c) := v in
  match part with
  | [] => Ends Zero (Text (dotted v ++ lf))
  | _ =>
      if same part (codes "major") then Ends Zero (Text (a ++ lf))
      else if same part (codes "minor") then Ends Zero (Text (b ++ lf))
      else if same part (codes "patch") then Ends Zero (Text (c ++ lf))
      else die
  end.

(** version.sh:141-157: the new version. *)
Inductive bumped := New (v : version) | Unknown | Illegal | TooLarge.
Definition plus_one (l : text) (k : text -> version) : bumped :=
  match shell_number l with
  | Some n => if n <? 2 ^ 63 - 1 then New (k (in_decimal (n + 1))) else TooLarge
  | None => Illegal
  end.
Definition new_version (v : version) (part : text) : bumped :=
  let '(a, b, c) := v in
  let part := match part with [] => codes "patch" | p => p end in
  let zero := codes "0" in
  if same part (codes "major") then plus_one a (fun a' => (a', zero, zero))
  else if same part (codes "minor") then plus_one b (fun b' => (a, b', zero))
  else if same part (codes "patch") then plus_one c (fun c' => (a, b, c'))
  else Unknown.
(** version.sh:139-165: bump_version on the version file [f]. *)
Definition bump_version (lf : text) (dry : bool) (f : list text) (v : version) (part : text) : ending * list text :=
  match new_version v part with
  | New v' =>
      if dry then (print_version lf v' [], f)
      else
        let (f', ok) := commit f v' in
        if ok then (print_version lf v' [], f') else (die, f')
  | Unknown | Illegal => (die, f)
  | TooLarge => (Unspecified, f)
  end.

(** version.sh:167-180: check_version on the changelog [g]. *)
Definition dot_or_digit (c : Z) : bool := digit c || (c =? 46).
Definition log_version (g : list text) : text :=
  match find (fun l => match after (codes "sophiread (") l with Some _ => true | None => false end) g with
  | Some l => filter dot_or_digit l
  | None => []
  end.
Definition check_version (lf : text) (v : version) (g : list text) : ending :=
  if same (log_version g) (dotted v)
  then Ends Zero (Text (codes "Changelog version (" ++ log_version g ++ codes ") OK!" ++ lf))
  else die.

(** The words of an argument: parse_command ${PARAMS} splits at blanks. *)
Definition separator (c : Z) : bool := (c =? 32) || (c =? 9) || (c =? 10).
Fixpoint words_from (cur : text) (l : text) : list text :=
  match l with
  | [] => match cur with [] => [] | _ => [cur] end
  | c :: r =>
      if separator c then match cur with [] => words_from [] r | _ => cur :: words_from [] r end
      else words_from (cur ++ [c]) r
  end.
Definition split_words (l : text) : list text := words_from [] l.

(** version.sh:231-253: the options; [None]: an unsupported flag.  After "--" the
    rest of the arguments is dropped. *)
Record flags := Flags { script_mode : bool; dry_run : bool; params : list text }.
Fixpoint parse (fl : flags) (args : list text) : option flags :=
  match args with
  | [] => Some fl
  | a :: r =>
      if same a (codes "-s") || same a (codes "--script") then parse (Flags true (dry_run fl) (params fl)) r
      else if same a (codes "-d") || same a (codes "--dry-run") then parse (Flags (script_mode fl) true (params fl)) r
      else if same a (codes "--") then Some fl
      else
        match a with
        | 45 :: _ => None
        | _ => parse (Flags (script_mode fl) (dry_run fl) (params fl ++ split_words a)) r
        end
  end.

(** version.sh:187-214: parse_command; the files are [f] and [g]. *)
Definition parse_command (fl : flags) (f g : list text) : ending * list text :=
  let lf := if script_mode fl then [] else [10] in
  match params fl with
  | [] => (Ends Nonzero Usage, f)
  | act :: rest =>
      let part := match rest with p :: _ => p | [] => [] end in
      let on_version k := match get_version f with Some v => k v | None => (die, f) end in
      if same act (codes "print") then on_version (fun v => (print_version lf v part, f))
      else if same act (codes "release") then on_version (fun v => bump_version lf (dry_run fl) f v part)
      else if same act (codes "check") then on_version (fun v => (check_version lf v g, f))
      else (die, f)
  end.

(** version.sh:222-262: the whole script. *)
Definition version_sh (args : list text) (fs : vfiles) : ending * vfiles :=
  match args with
  | [] => (Ends Zero Usage, fs)
  | _ =>
      match parse (Flags false false []) args with
      | None => (die, fs)
      | Some fl =>
          match f_version fs, f_changelog fs with
          | Some f, Some g => let (e, f') := parse_command fl f g in (e, VFiles (Some f') (f_changelog fs))
          | _, _ => (die, fs)
          end
      end
  end.

(** * version.h:19-21: VERSION_NUMBER, for ints whose shift is defined *)
Definition version_number (a b c : Z) : option Z :=
  if (0 <=? a) && (a <? 2 ^ 15) && (0 <=? b) && (b <? 2 ^ 23) && (0 <=? c) && (c <? 2 ^ 31)
  then Some (Z.lor (Z.lor (Z.shiftl a 16) (Z.shiftl b 8)) c)
  else None.
