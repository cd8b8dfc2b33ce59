(** What the auto reducer should make of a run: every raw file counted once,
    whenever it is seen. *)
From Verif Require Export S_Measure S_Images S_VenusMain.
Global Open Scope Z_scope.
Global Open Scope list_scope.

(** A complete raw file that carries the true hits [hss] and brings its own time:
    no pulse or hit comes before the first time packet of the file. *)
Definition raw_of (hss : list (list hit)) (e : dir_entry) : Prop :=
  exists ds k, d_content e = Some (stream ds) /\ ds <> [] /\ Forall dataset_ok ds /\ Forall no_false_header ds /\
    recording around false nothing_known ds hss k.

(** A raw file of that name was in the directory at some scan. *)
Definition offered (vs : list visit) (nm : string) : Prop :=
  exists v e, In v vs /\ In e (vs_scan v) /\ raw_file e /\ d_name e = nm.

(** Every raw file can be saved and is the one that [truth] tells of its name. *)
Definition faithful (n : nat) (truth : string -> list (list hit)) (vs : list visit) : Prop :=
  forall v e, In v vs -> In e (vs_scan v) -> raw_file e ->
    good_world n (d_world e) /\ raw_of (truth (d_name e)) e.

(** The images can be created or continued. *)
Definition images_fit (fs : files) (dir base : string) (n : nat) (d : Z) : Prop :=
  forall i, (i < n)%nat -> saved fs (tiff_name dir base i) d d \/ unrelated fs (tiff_name dir base i) d d.
