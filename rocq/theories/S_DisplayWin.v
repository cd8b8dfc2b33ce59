(** Specification of sessions of sophiread_display: what is saved. *)
From Verif Require Export S_Display M_DisplayWin.
Local Open Scope Z_scope.
Local Open Scope list_scope.

(** The last file of which reading was started. *)
Fixpoint last_read (l : list wlabel) : option (list Z) :=
  match l with
  | [] => None
  | LRead (Some m) :: r => match last_read r with Some m' => Some m' | None => Some m end
  | _ :: r => last_read r
  end.

(** Files consist of bytes. *)
Definition real_files (l : list wlabel) : Prop := forall m, In (LRead (Some m)) l -> bytes_ok m.

(** The hits and histogram entries of a file, as far as they are read. *)
Definition holds_hits (m : list Z) (hits : list raw) (es : list Z) : Prop :=
  exists ps t xs, m = flat_map packet_bytes ps ++ t /\ Forall packet_ok ps /\ zlen t < 8 /\
    reads t None None ps xs /\ displays 0 xs hits es.
(** The reading of a file uses bytes that were never read. *)
Definition unreadable (m : list Z) : Prop :=
  exists ps t, m = flat_map packet_bytes ps ++ t /\ Forall packet_ok ps /\ zlen t < 8 /\
    forall xs, ~ reads t None None ps xs.

(** The pixels of the clusters that have been closed. *)
Definition pixels_of (rot : rotation) (closed : list rcluster) (pixels : list (Z * Z)) : Prop :=
  exists pxs, Forall2 (falls_on rot) (filter big closed) pxs /\ pixels = concat pxs.

(** [pixels] result from all hits but at most the last 4095. *)
Definition clustered (rot : rotation) (hits : list raw) (pixels : list (Z * Z)) (n : Z) : Prop :=
  exists before last closed op, hits = before ++ last /\ zlen last <= 4095 /\
    ring_run begin before (closed, op) /\ pixels_of rot closed pixels /\ n = zlen closed.

Definition pixel_dec (p q : Z * Z) : {p = q} + {p <> q}.
Proof. decide equality; apply Z.eq_dec. Defined.
Definition occurs {A} (dec : forall a b : A, {a = b} + {a <> b}) (l : list A) (a : A) : Z :=
  Z.of_nat (count_occ dec l a).

(** A saved image: column by column, the number of clusters in every pixel. *)
Definition shows_image (pixels : list (Z * Z)) (f : wfile) : Prop :=
  exists g, f = WImage g /\
    (forall x y, 0 <= x < 4096 -> 0 <= y < 4096 -> g (4096 * x + y) = Some (occurs pixel_dec pixels (x, y))) /\
    (forall k, k < 0 \/ 4096 * 4096 <= k -> g k = None).
(** A saved spectrum of 170000 numbers of 32 bits; indeterminate if there are no
    entries. *)
Definition shows_spectrum (entries : option (list Z)) (f : wfile) : Prop :=
  exists g, f = WTof g /\
    (forall k, 0 <= k < 170000 ->
       g k = Some (match entries with Some es => Some (occurs Z.eq_dec es k mod 2 ^ 32) | None => None end)) /\
    (forall k, k < 0 \/ 170000 <= k -> g k = None).

(** What the program shows and saves, by the file that was read last. *)
Inductive outcome_of (rot : rotation) : option (list Z) -> list (Z * Z) -> option (list Z) ->
    option (Z * Z) -> Prop :=
| oc_none : outcome_of rot None [] None None
| oc_file m hits es pixels n : holds_hits m hits es -> clustered rot hits pixels n ->
    outcome_of rot (Some m) pixels (Some es) (Some (zlen hits, n)).

(** Why a session becomes undefined in its last step. *)
Inductive reason (rot : rotation) : option (list Z) -> wlabel -> ub_kind -> Prop :=
| re_open f : reason rot f (LRead None) NullDeref
| re_file f m : unreadable m -> reason rot f (LRead (Some m)) Uninitialised
| re_save f img tof n : img = Some (n, false) \/ tof = Some (n, false) ->
    reason rot f (LSave img tof) NullDeref
| re_sum m hits es before last closed op : holds_hits m hits es -> hits = before ++ last ->
    ring_run begin before (closed, op) -> Exists (fun c => ~ small c) (closed ++ op) ->
    reason rot (Some m) LTau SignedOverflow
| re_tot m hits es before last closed op : holds_hits m hits es -> hits = before ++ last ->
    ring_run begin before (closed, op) -> Exists (fun c => big c = true /\ sum_tot c = 0) closed ->
    reason rot (Some m) LTau BadConversion.
