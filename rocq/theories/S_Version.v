(** What the script for versions should do (C94). *)
From Coq Require Import String.
From Verif Require Export M_Version S_GdcMain.
Global Open Scope Z_scope.
Global Open Scope list_scope.

(** A number without leading zeros. *)
Definition numeral (n : Z) (l : text) : Prop := field n l /\ (l = [48] \/ hd 0 l <> 48).
Definition a_digit (c : Z) : Prop := 48 <= c <= 57.
(** "a.b.c" *)
Definition written (v : Z * Z * Z) (l : text) : Prop := let '(a, b, c) := v in
  exists x y z, numeral a x /\ numeral b y /\ numeral c z /\ l = x ++ 46 :: y ++ 46 :: z.

Definition names : list text := [codes "VERSION_MAJOR"; codes "VERSION_MINOR"; codes "VERSION_PATCH"].

(** A line that begins like a definition of [id]; blanks are spaces, tabs, and
    what grep takes for a tab. *)
Definition concerns (id l : text) : Prop := exists b r,
  Forall (fun c => In c [9; 32; 92; 116]) b /\ l = codes "#define" ++ b ++ id ++ r.
(** A definition of [id] as the digits [d]: no other digit in the line. *)
Definition defines (id d l : text) : Prop := exists b b' r,
  b <> [] /\ Forall (eq 32) b /\ b' <> [] /\ Forall (fun c => In c [9; 32]) b' /\
  Forall (fun c => ~ a_digit c) r /\ l = codes "#define" ++ b ++ id ++ b' ++ d ++ r.
(** The file has one line that concerns [id], which defines it as [n]. *)
Definition shows (f : list text) (id : text) (n : Z) : Prop := exists pre l post d,
  f = pre ++ l :: post /\ numeral n d /\ defines id d l /\ Forall (fun x => ~ concerns id x) (pre ++ post).
Definition states (f : list text) (v : Z * Z * Z) : Prop := let '(a, b, c) := v in
  shows f (codes "VERSION_MAJOR") a /\ shows f (codes "VERSION_MINOR") b /\ shows f (codes "VERSION_PATCH") c.

Inductive part := Major | Minor | Patch.
Definition part_name (p : part) : text :=
  match p with Major => codes "major" | Minor => codes "minor" | Patch => codes "patch" end.
Definition part_of (p : part) (v : Z * Z * Z) : Z :=
  let '(a, b, c) := v in match p with Major => a | Minor => b | Patch => c end.
Definition next (p : part) (v : Z * Z * Z) : Z * Z * Z :=
  let '(a, b, c) := v in
  match p with Major => (a + 1, 0, 0) | Minor => (a, b + 1, 0) | Patch => (a, b, c + 1) end.
Definition earlier (v v' : Z * Z * Z) : Prop :=
  let '(a, b, c) := v in let '(a', b', c') := v' in
  a < a' \/ (a = a' /\ (b < b' \/ (b = b' /\ c < c'))).

(** A line is kept, up to the number of a definition. *)
Definition kept (l l' : text) : Prop := l' = l \/ exists id b b' d d' r,
  In id names /\ Forall a_digit d /\ Forall a_digit d' /\ Forall (fun c => In c [9; 32]) b' /\
  l = codes "#define" ++ b ++ id ++ b' ++ d ++ r /\ l' = codes "#define" ++ b ++ id ++ 32 :: d' ++ r.

(** The latest version of the changelog, as digits and dots of the first line that
    begins with "sophiread (". *)
Definition release_line (l : text) : Prop := exists r, l = codes "sophiread (" ++ r.
Definition logged (g : list text) (t : text) : Prop := exists pre l post,
  g = pre ++ l :: post /\ release_line l /\ Forall (fun x => ~ release_line x) pre /\
  t = filter (fun c => (48 <=? c) && (c <=? 57) || (c =? 46)) l.

(** An argument that is one word and no flag. *)
Definition plain (a : text) : Prop := a <> [] /\ hd 0 a <> 45 /\ Forall (fun c => ~ In c [9; 10; 32]) a.
(** An argument that consists of several words, with blanks between them. *)
Inductive joined : list text -> text -> Prop :=
| jo_one w : joined [w] w
| jo_more w b ws a : b <> [] -> Forall (fun c => In c [9; 10; 32]) b -> joined ws a -> joined (w :: ws) (w ++ b ++ a).
(** The arguments with the options script and dry run. *)
Definition command (s d : bool) (ws : list text) : list text :=
  (if s then [codes "-s"] else []) ++ (if d then [codes "--dry-run"] else []) ++ ws.
Definition line_end (s : bool) : text := if s then [] else [10].

(** sophiread/include/version.h as it is. *)
Definition lines (l : list string) : list text := map codes l.
Definition version_h : list text := lines [
  "/**version.h"; " *"; " * Copyright 2024."; " */"; ""; "#ifndef VERSION_H"; "#define VERSION_H"; "";
  "// Macro for version string"; "#define VERSION_STR_EX(number) #number"; "#define VERSION_STR(number) VERSION_STR_EX(number)"; "";
  "// Version number"; "#define VERSION_MAJOR 2"; "#define VERSION_MINOR 3"; "#define VERSION_PATCH 0"; "";
  "// Version number final"; "#define VERSION_NUMBER                                           \";
  "  ((unsigned long)(VERSION_MAJOR << 16) | (VERSION_MINOR << 8) | \"; "   (VERSION_PATCH))"; "";
  "// Version string"; "#define VERSION_STRING       \"; "  VERSION_STR(VERSION_MAJOR) \"; 
  "  ""."" VERSION_STR(VERSION_MINOR) ""."" VERSION_STR(VERSION_PATCH)"; ""; "#endif  // VERSION_H"]%string.
