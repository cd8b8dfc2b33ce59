(** Specification of the saved images. *)
From Coq Require Import Permutation.
From Verif Require Export S_Tof M_Tiff.
Global Open Scope Z_scope.
Global Open Scope list_scope.

(** The number in column [x] of a scan line of little endian 32-bit samples. *)
Definition sample (bytes : list Z) (x : Z) : option Z :=
  match skipn (Z.to_nat (4 * x)) bytes with
  | a :: b :: c :: d :: _ => Some (a + b * 2 ^ 8 + c * 2 ^ 16 + d * 2 ^ 24)
  | _ => None
  end.

(** The pixel (x, y) of the image file [p]. *)
Definition disk (fs : files) (p : string) (x y : Z) : option Z :=
  match fs p with
  | Some (Tiff _ _ rows) =>
      match nth_error rows (Z.to_nat y) with Some b => sample b x | None => None end
  | _ => None
  end.

(** A [w] x [h] image with one 32-bit sample per pixel. *)
Definition proper (w h : Z) (rows : list (list Z)) : Prop :=
  zlen rows = h /\ Forall (fun b => zlen b = 4 * w /\ bytes_ok b) rows.
Definition saved (fs : files) (p : string) (w h : Z) : Prop :=
  exists rows, fs p = Some (Tiff w h rows) /\ proper w h rows.

(** Nothing that would be taken for a [w] x [h] image: no file, an unreadable
    file, or an image of another size. *)
Definition unrelated (fs : files) (p : string) (w h : Z) : Prop :=
  forall w' h' rows, fs p = Some (Tiff w' h' rows) -> w' <> w \/ h' <> h.

(** What a pixel counts before the first save. *)
Inductive prior (fs : files) (p : string) (w h x y : Z) : Z -> Prop :=
| prior_saved v : saved fs p w h -> disk fs p x y = Some v -> prior fs p w h x y v
| prior_none : unrelated fs p w h -> prior fs p w h x y 0.

(** A stack of [n] images of [h] rows of [w] pixels. *)
Definition stack (n : nat) (w h : Z) (ims : list image) : Prop :=
  length ims = n /\
  Forall (fun im => zlen im = h /\
    Forall (fun row => zlen row = w /\ Forall (fun v => 0 <= v < 2 ^ 32) row) im) ims.

(** One call of the save function. *)
Record save_call := Save { sv_images : list image; sv_edges : list f64; sv_order : list nat }.
Definition save_all (writable : string -> bool) (dir base : string) (calls : list save_call)
    (fs : files) : outcome files :=
  ofold (fun fs c => save_tiff true writable dir base (sv_images c) (sv_edges c) (sv_order c) fs) calls fs.

(** The sum of pixel (x, y) of bin i over the saved stacks. *)
Definition pixel_sum (i : nat) (x y : Z) (calls : list save_call) : Z :=
  fold_right Z.add 0 (map (fun c => match pixel (sv_images c) i x y with Some v => v | None => 0 end) calls).

Definition call_ok (n : nat) (w h : Z) (c : save_call) : Prop :=
  stack n w h (sv_images c) /\ length (sv_edges c) = S n /\ Permutation (sv_order c) (seq 0 n).
