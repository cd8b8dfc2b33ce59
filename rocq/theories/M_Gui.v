(** Model of SophireadGUI: src/mainwindow.cpp and include/mainwindow.h, with
    DSCALE = 1 and ROTANGLE = -1.  The widgets are left out except for what the
    user chooses in a dialog; one action is one slot run by the event loop. *)
From Verif Require Export M_LibIO M_Display.
Local Open Scope Z_scope.
Local Open Scope list_scope.

(** mainwindow.h:36-57: the timer runs; m_events, m_total_hits, m_total_events
    (not initialised by the constructor); the entries of my2dhisto that have been
    incremented; the clustering object. *)
Record gui := Gui
  { u_busy : bool; u_events : list neutron; u_hits : Z; u_count : option Z;
    u_image : list Z; u_abs : abs_obj }.

(** mainwindow.cpp:63-72. *)
Definition gui_cfg : abs_cfg := AbsCfg (f_of_Z 5) 1 75.
(** mainwindow.cpp:29-79. *)
Definition gui_new : gui := Gui false [] 0 None [] (abs_set_method abs_new MCentroid).

(** mainwindow.cpp:156-171: the entry incremented for one event, if any. *)
Definition gui_entry (rot : rotation) (e : neutron) : outcome (list Z) :=
  let x := fsub (fmul (n_x e) (rot_cos rot)) (fmul (n_y e) (rot_sin rot)) in
  let y := fadd (fmul (n_x e) (rot_sin rot)) (fmul (n_y e) (rot_cos rot)) in
  if fge x (f_of_Z 0) && flt x (f_of_Z 512) && fge y (f_of_Z 0) && flt y (f_of_Z 512) then
    match f_to_i32 x, f_to_i32 y with
    | Some i, Some j => Ok [512 * i + j]
    | _, _ => UB BadConversion
    end
  else Ok [].
(** mainwindow.cpp:154-173: the increments are atomic, so their order does not
    matter. *)
Fixpoint gui_entries (rot : rotation) (es : list neutron) : outcome (list Z) :=
  match es with
  | [] => Ok []
  | e :: r => let! l := gui_entry rot e in let! ls := gui_entries rot r in Ok (l ++ ls)
  end.

(** What the file dialog returns: nothing, or a file (which may fail to open). *)
Inductive choice := Cancelled | Chosen (file : option (list Z)).

(** mainwindow.cpp:106-181: handlereadfile.  The sizes are stored in ints. *)
Definition gui_read (ext : externals) (rot : rotation) (g : gui) (c : choice) : outcome gui :=
  if u_busy g then Ok g
  else
    match c with
    | Cancelled => Ok (Gui true (u_events g) (u_hits g) (u_count g) (u_image g) (u_abs g))
    | Chosen file =>
        let! hits := read_raw file in
        let! o := lib_fit gui_cfg (u_abs g) hits in
        let! evs := lib_get_events ext gui_cfg o hits in
        let! l := gui_entries rot evs in
        Ok (Gui false evs (i32 (zlen hits)) (Some (i32 (zlen evs))) (u_image g ++ l) o)
    end.

(** mainwindow.cpp:87-97: handletimer, called while the timer runs: the numbers
    shown.  The elapsed time (of a clock that is never started) is left out. *)
Definition gui_tick (g : gui) : outcome (option (Z * Z)) :=
  if u_busy g then
    match u_count g with Some n => Ok (Some (u_hits g, n)) | None => UB Uninitialised end
  else Ok None.

(** A file of doubles, as a function of the position. *)
Definition dfile := Z -> option Z.
Record gdisk := GDisk { k_images : string -> option dfile; k_h5 : ldisk }.

(** The value of an entry of my2dhisto. *)
Definition times (k : Z) (l : list Z) : Z := zlen (filter (Z.eqb k) l).
(** mainwindow.cpp:213-231. *)
Definition gui_image (g : gui) : dfile :=
  fun k => if (0 <=? k) && (k <? 512 * 512) then Some (times (512 * (k mod 512) + k / 512) (u_image g))
           else None.

(** The two dialogs of handlesavedata; the boolean says whether the file can be
    opened. *)
Record saving := Saving { v_image : option (string * bool); v_h5 : option string; v_lib : h5lib }.

(** mainwindow.cpp:200-241: handlesavedata. *)
Definition gui_save (g : gui) (d : gdisk) (s : saving) : outcome unit * gdisk :=
  if u_busy g then (Ok tt, d)
  else
    let '(r, d) := match v_image s with
                   | None => (Ok tt, d)
                   | Some (name, false) => (UB NullDeref, d)
                   | Some (name, true) =>
                       (Ok tt, GDisk (fun n => if String.eqb n name then Some (gui_image g) else k_images d n)
                                     (k_h5 d))
                   end in
    match r with
    | Ok _ =>
        match v_h5 s with
        | None => (Ok tt, d)
        | Some name =>
            let (r, h) := lib_save_events (v_lib s) (k_h5 d) name (u_events g) in
            (r, GDisk (k_images d) h)
        end
    | e => (e, d)
    end.

(** What the user and the timer can do.  An exception ends the program. *)
Inductive action := ARead (c : choice) | ASave (s : saving) | ARange | ATick.
Definition gui_step (ext : externals) (rot : rotation) (s : gui * gdisk) (a : action)
  : outcome (gui * gdisk) :=
  let (g, d) := s in
  match a with
  | ARead c => let! g' := gui_read ext rot g c in Ok (g', d)
  | ASave v => let (r, d') := gui_save g d v in let! _ := r in Ok (g, d')
  | ARange => Ok (g, d)
  | ATick => let! _ := gui_tick g in Ok (g, d)
  end.
Definition gui_run (ext : externals) (rot : rotation) (s : gui * gdisk) (l : list action)
  : outcome (gui * gdisk) := ofold (gui_step ext rot) l s.
