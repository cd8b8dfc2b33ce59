(** What it means that two runs of the program told the same. *)
From Coq Require Import String.
From Verif Require Export S_Motion.
Global Open Scope Z_scope.
Global Open Scope list_scope.

(** Files with the same columns for all hits. *)
Definition same_hits (d : store) (name : string) (d' : store) (name' : string) : Prop :=
  exists f f', d_h5 d name = Some f /\ d_h5 d' name' = Some f' /\
    forall n fld, hit_field n fld -> col f' "hits" n = col f "hits" n.

(** Near enough to the reference for GDC timing, and in the first 53 s for TDC
    timing. *)
Definition both_near (g t : Z) : Prop := around g t /\ early_run g t.
