(** What the program of the GDC extractor should do: the text of its output as a
    reader of CSV files understands it, and the files it may change. *)
From Verif Require Export M_GdcMain S_Gdc.
Global Open Scope Z_scope.
Global Open Scope list_scope.

(** A number in decimal digits, the most significant first. *)
Fixpoint digits_value (acc : Z) (l : list Z) : Z :=
  match l with [] => acc | c :: r => digits_value (10 * acc + (c - 48)) r end.
Definition field (n : Z) (l : list Z) : Prop :=
  l <> [] /\ Forall (fun c => 48 <= c <= 57) l /\ digits_value 0 l = n.

(** A line of four numbers, separated by commas (44), ended by a newline (10). *)
Definition csv_line (r : row) (l : list Z) : Prop :=
  exists a b c t, field (row_chip r) a /\ field (row_value r) b /\ field (row_offset r) c /\ field (row_ns r) t /\
    l = a ++ 44 :: b ++ 44 :: c ++ 44 :: t ++ [10].

(** A file that names its four columns and holds the lines [rows]:
    "chip_id,gdc_value,file_offset,timestamp_ns" in ASCII. *)
Definition the_header : list Z :=
  [99; 104; 105; 112; 95; 105; 100; 44;
   103; 100; 99; 95; 118; 97; 108; 117; 101; 44;
   102; 105; 108; 101; 95; 111; 102; 102; 115; 101; 116; 44;
   116; 105; 109; 101; 115; 116; 97; 109; 112; 95; 110; 115; 10].
Definition csv_file (rows : list row) (text : list Z) : Prop :=
  exists ls, Forall2 csv_line rows ls /\ text = the_header ++ concat ls.

(** Only the file [name] differs. *)
Definition only (name : string) (d d' : gdisk) : Prop := forall n, n <> name -> d' n = d n.

(** The checks that come before the output file is tried. *)
Definition output_tried (e : gdc_env) (o : gdc_options) : Prop :=
  go_input o <> ""%string /\ go_output o <> ""%string /\
  ge_exists e (go_input o) = true /\ ge_readable e (go_input o) = true /\
  ge_dir_ok e (go_output o) = true /\ ge_writable e (go_output o) = true.
