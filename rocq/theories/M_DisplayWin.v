(** Model of the main window of sophiread_display: mainwindow.cpp:177-367.  The
    widgets are left out except for what the user chooses in a dialog and for the
    numbers shown.  The user and the timer act while the two threads of M_Display
    run. *)
From Coq Require Export String.
From Verif Require Export M_Display.
Local Open Scope Z_scope.
Local Open Scope list_scope.

(** A file being read, or that has been read: its bytes, the hits in it, the
    threads, and what the worker has computed from the hits it has used. *)
Record job := Job { j_file : list Z; j_hits : list raw; j_sys : rsys raw; j_wk : wk }.

(** The timer runs; the numbers of hits and clusters shown, where they are
    known; the file; the entries of mytofhisto that have been incremented, [None]
    as long as the array is indeterminate. *)
Record dwin := DWin
  { d_busy : bool; d_label : option (Z * Z); d_job : option job; d_tof : option (list Z) }.

(** mainwindow.cpp:177-234: my2dhisto is zeroed by the vector (199), mytofhisto is
    not initialised (182). *)
Definition win_new : dwin := DWin false None None None.

(** The pixels of my2dhisto that have been incremented. *)
Definition win_image (w : dwin) : list (Z * Z) :=
  match d_job w with None => [] | Some j => wk_img (j_wk j) end.

(** mainwindow.cpp:291-310: the counters and both histograms are zeroed, the timer
    and the threads are started.  The entries that the reader makes are visible
    only after its end, so they are all entered here; a file of which the reading
    is undefined is undefined here.  What an earlier file has left in the ring is
    taken as indeterminate. *)
Definition win_read (w : dwin) (file : option (list Z)) : outcome dwin :=
  let! res := filetohits file in
  Ok (DWin true (d_label w)
        (Some (Job (match file with Some m => m | None => [] end) (fst res) (rstart (fst res)) wk_start))
        (Some (snd res))).

(** mainwindow.cpp:253-275: handletimer while the timer runs.  As long as the file
    is being read the numbers shown depend on the schedule; they are left out. *)
Definition set_kill {A} (s : rsys A) : rsys A :=
  RSys (g_todo s) (g_ring s) (g_pi s) (g_ci s) (g_pp s) (g_cp s) true (g_out s).
Definition win_tick (w : dwin) (j : job) : dwin :=
  match g_pp (j_sys j) with
  | PrDone =>
      DWin (match g_cp (j_sys j) with CoEnd => false | _ => true end)
        (Some (zlen (j_hits j), wk_total (j_wk j)))
        (Some (Job (j_file j) (j_hits j) (set_kill (j_sys j)) (j_wk j))) (d_tof w)
  | _ => DWin true None (d_job w) (d_tof w)
  end.

(** A file on disk, as a function of the position: an image of doubles, or a
    spectrum of unsigned ints, which may be indeterminate. *)
Inductive wfile := WImage (f : Z -> option Z) | WTof (f : Z -> option (option Z)).
Definition wdisk := string -> option wfile.
Definition wput (d : wdisk) (n : string) (f : wfile) : wdisk :=
  fun n' => if String.eqb n' n then Some f else d n'.

(** How often an entry has been incremented. *)
Definition hits_on (k : Z) (l : list Z) : Z := zlen (filter (Z.eqb k) l).
(** hit_worker.cpp:149: the position of a pixel in my2dhisto. *)
Definition pos2d (px : Z * Z) : Z := 4096 * snd px + fst px.
(** mainwindow.cpp:344-352. *)
Definition image_file (w : dwin) : wfile :=
  WImage (fun k => if (0 <=? k) && (k <? 4096 * 4096)
                   then Some (hits_on (4096 * (k mod 4096) + k / 4096) (map pos2d (win_image w)))
                   else None).
(** mainwindow.cpp:362. *)
Definition tof_file (w : dwin) : wfile :=
  WTof (fun k => if (0 <=? k) && (k <? 170000)
                 then Some (match d_tof w with Some es => Some (hits_on k es mod 2 ^ 32) | None => None end)
                 else None).

(** mainwindow.cpp:335-364: a dialog gives no name, or a name of a file that can
    be opened or not. *)
Definition target := option (string * bool).
Definition save_one (d : wdisk) (t : target) (f : wfile) : outcome wdisk :=
  match t with
  | None => Ok d
  | Some (n, true) => Ok (wput d n f)
  | Some (n, false) => UB NullDeref
  end.
Definition win_save (w : dwin) (d : wdisk) (img tof : target) : outcome wdisk :=
  if d_busy w then Ok d
  else let! d := save_one d img (image_file w) in save_one d tof (tof_file w).

(** What happens: a file is chosen ([None] if it cannot be opened) while nothing
    is read, the user tries to read while a file is read or cancels the dialog,
    data are saved, anything else. *)
Inductive wlabel := LRead (file : option (list Z)) | LNoRead | LSave (img tof : target) | LTau.

Inductive wstep (rot : rotation) : dwin * wdisk -> wlabel -> outcome (dwin * wdisk) -> Prop :=
| w_read w d file : d_busy w = false ->                        (* mainwindow.cpp:279-313 *)
    wstep rot (w, d) (LRead file) (let! w' := win_read w file in Ok (w', d))
| w_no_read w d :                                              (* mainwindow.cpp:282-289 *)
    wstep rot (w, d) LNoRead (Ok (w, d))
| w_save w d img tof :                                         (* mainwindow.cpp:325-367 *)
    wstep rot (w, d) (LSave img tof) (let! d' := win_save w d img tof in Ok (w, d'))
| w_range w d :                                                (* mainwindow.cpp:315-323 *)
    wstep rot (w, d) LTau (Ok (w, d))
| w_tick w d j : d_busy w = true -> d_job w = Some j ->        (* mainwindow.cpp:248-277 *)
    wstep rot (w, d) LTau (Ok (win_tick w j, d))
| w_thread b lab m hits s wkr tof d s' new :                   (* a step of the reader or the worker *)
    rstep s (Some s') -> (g_kill s' = true -> g_kill s = true) -> g_out s' = g_out s ++ new ->
    wstep rot (DWin b lab (Some (Job m hits s wkr)) tof, d) LTau
      (let! wkr' := wk_run rot wkr new in Ok (DWin b lab (Some (Job m hits s' wkr')) tof, d))
| w_thread_ub b lab m hits s wkr tof d :
    rstep s None -> wstep rot (DWin b lab (Some (Job m hits s wkr)) tof, d) LTau (UB Uninitialised).

(** A session. *)
Inductive wsteps (rot : rotation) : dwin * wdisk -> list wlabel -> outcome (dwin * wdisk) -> Prop :=
| ws_nil s : wsteps rot s [] (Ok s)
| ws_more s a s' l r : wstep rot s a (Ok s') -> wsteps rot s' l r -> wsteps rot s (a :: l) r
| ws_bad s a u : wstep rot s a (UB u) -> wsteps rot s [a] (UB u).
