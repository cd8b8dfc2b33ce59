(** What the auto reducer should do over its lifetime. *)
From Coq Require Import Permutation.
From Verif Require Export M_Venus S_Tiff S_Gdc.
Global Open Scope Z_scope.
Global Open Scope list_scope.

(** Raw data files, and the file that ends a run. *)
Definition raw_name (n : string) : Prop := exists p, p <> ""%string /\ n = (p ++ ".tpx3")%string.
Definition stop_name (n : string) : Prop := exists p, p <> ""%string /\ n = (p ++ ".nxs.h5")%string.
Definition raw_file (e : dir_entry) : Prop := d_regular e = true /\ raw_name (d_name e).
Definition stops (r : round) : Prop := exists n, In (n, true) (rd_check r) /\ stop_name n.

(** What happened so far. *)
Definition ev_name (ev : event) : string := match ev with Saved n _ => n | Failed n => n end.
Definition was_saved (log : list event) (n : string) : Prop := exists ims, In (Saved n ims) log.
Definition saved_images (log : list event) : list (list image) :=
  flat_map (fun ev => match ev with Saved _ ims => [ims] | Failed _ => [] end) log.

(** The sum of pixel (x, y) of bin [i] over image stacks. *)
Definition stack_sum (i : nat) (x y : Z) (l : list (list image)) : Z :=
  fold_right Z.add 0 (map (fun ims => match pixel ims i x y with Some v => v | None => 0 end) l).

(** The images of a file that starts with timestamps [s], and the timestamps
    afterwards. *)
Definition file_images (su : setup) (m : list Z) (s : ts) (ims : list image) (s' : ts) : Prop :=
  exists bs bs', locate GDC_mode (find_headers m) m (zlen m) s = Ok (bs, s') /\
    process_all (su_ext su) (g_abs (su_cfg su)) GDC_mode m bs = Ok bs' /\
    create_images (g_sr (su_cfg su)) (g_edges (su_cfg su)) (su_hit su) bs' = Ok ims.
Definition ts_after (m : list Z) (s : ts) : ts :=
  match locate GDC_mode (find_headers m) m (zlen m) s with Ok (_, s') => s' | _ => s end.

(** The files [es] are worked on in order, timestamps running through. *)
Inductive worked_on (su : setup) : ts -> list dir_entry -> list event -> Prop :=
| wo_nil s : worked_on su s [] []
| wo_saved s e es m ims evs : d_content e = Some m -> file_images su m s ims (ts_after m s) ->
    worked_on su (ts_after m s) es evs -> worked_on su s (e :: es) (Saved (d_name e) ims :: evs)
| wo_failed s e es m evs : d_content e = Some m ->
    worked_on su (ts_after m s) es evs -> worked_on su s (e :: es) (Failed (d_name e) :: evs).

(** Nothing prevents the images from being saved. *)
Definition good_world (n : nat) (w : world) : Prop :=
  w_mkdir w = true /\ (forall p, w_writable w p = true) /\
  Permutation (w_order w) (seq 0 n) /\ w_fault w = None.

(** * Command line *)
Definition vsel_i a := match a with Vi s => Some s | _ => None end.
Definition vsel_o a := match a with Vo s => Some s | _ => None end.
Definition vsel_u a := match a with Vu s => Some s | _ => None end.
Definition vsel_f a := match a with Vf s => Some s | _ => None end.
Definition vsel_m a := match a with Vm s => Some s | _ => None end.
Definition vsel_c (stoi : string -> option Z) a := match a with Vc s => stoi s | _ => None end.
Definition vsel_d a := match a with Vd => Some true | _ => None end.
Definition vsel_v a := match a with Vv => Some true | _ => None end.
Definition read_venus_options (stoi : string -> option Z) (args : list varg) (o : venus_options) : Prop :=
  chosen vsel_i ""%string args (vo_in o) /\ chosen vsel_o ""%string args (vo_out o) /\
  chosen vsel_u ""%string args (vo_config o) /\ chosen vsel_f "tof_image"%string args (vo_base o) /\
  chosen vsel_m "neutron"%string args (vo_mode o) /\ chosen (vsel_c stoi) 5 args (vo_interval o) /\
  chosen vsel_d false args (vo_debug o) /\ chosen vsel_v false args (vo_verbose o).
Definition acceptable_venus (stoi : string -> option Z) (args : list varg) : Prop :=
  ~ In Vbad args /\ forall s, In (Vc s) args -> stoi s <> None.
Definition valid_venus_options (o : venus_options) : Prop :=
  vo_in o <> ""%string /\ vo_out o <> ""%string /\
  (vo_mode o = "hit" \/ vo_mode o = "neutron")%string /\ 0 < vo_interval o.
