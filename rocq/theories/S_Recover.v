(** Specification of what the clustering should recover: hits that stem from
    known true events.  [own] gives, for every hit of the stream, the number of
    the event it stems from. *)
From Verif Require Export S_Abs.
Global Open Scope Z_scope.

(** The hits of event [l] among the first [i] hits. *)
Definition so_far (own : list nat) (data : list hit) (i l : nat) : cl :=
  Cl l (members l (firstn i own) (firstn i data)).

(** Event [l] has begun before hit [i], with a first hit at time [t]. *)
Definition begun (own : list nat) (data : list hit) (i l : nat) (t : Z) : Prop :=
  opened_at (so_far own data i l) t.

(** Events are numbered 0, 1, ... in the order of their first hits. *)
Definition by_first_hit (own : list nat) : Prop :=
  forall i l, nth_error own i = Some l -> forall l', (l' < l)%nat -> In l' (firstn i own).

(** The events can be told apart with [n] open clusters. *)
Record separable (n : nat) (fits : cl -> hit -> Prop) (data : list hit) (own : list nat) : Prop := {
  sep_length : length own = length data;
  sep_numbers : by_first_hit own;
  (** a later hit of an event fits the earlier hits of this event; *)
  sep_own : forall i l h t, nth_error own i = Some l -> nth_error data i = Some h ->
    begun own data i l t -> fits (so_far own data i l) h;
  (** no hit fits the earlier hits of another event; *)
  sep_other : forall i l l' h t, nth_error own i = Some l -> nth_error data i = Some h ->
    l' <> l -> begun own data i l' t -> ~ fits (so_far own data i l') h;
  (** the first hits of the events are in order of time; *)
  sep_order : forall i l h l' t', nth_error own i = Some l -> nth_error data i = Some h ->
    (forall t, ~ begun own data i l t) -> begun own data i l' t' -> t' <= arrival h;
  (** when an event gets a further hit, at most [n] events have begun since it began. *)
  sep_few : forall i l t ms, nth_error own i = Some l -> begun own data i l t -> NoDup ms ->
    (forall m, In m ms -> exists t', begun own data i m t' /\ t <= t') -> (length ms <= n)%nat
}.

(** * Isolated events *)

(** A true event: a place on the sensor and the time of its start in ns. *)
Record source := Source { at_x : Z; at_y : Z; at_t : Z }.

(** Hit [h] lies within [a] pixels and [w] ns of the event. *)
Definition stems (a w : Z) (s : source) (h : hit) : Prop :=
  Z.abs (h_x h - at_x s) <= a /\ Z.abs (h_y h - at_y s) <= a /\
  at_t s <= arrival h <= at_t s + w.

(** Two events are apart for a search with radius [r] and time range [range]. *)
Definition apart (a w r range : Z) (s s' : source) : Prop :=
  Z.abs (at_x s - at_x s') > 2 * a + r \/ Z.abs (at_y s - at_y s') > 2 * a + r \/
  Z.abs (at_t s - at_t s') > w + range.

Record isolated (n : nat) (a w r range : Z) (src : nat -> source) (data : list hit)
    (own : list nat) : Prop := {
  iso_length : length own = length data;
  iso_numbers : by_first_hit own;
  iso_stems : forall i l h, nth_error own i = Some l -> nth_error data i = Some h ->
    stems a w (src l) h;
  iso_apart : forall l l', In l own -> In l' own -> l <> l' -> apart a w r range (src l) (src l');
  iso_time : forall i j h h', (i < j)%nat -> nth_error data i = Some h ->
    nth_error data j = Some h' -> arrival h <= arrival h';
  (** At most [n] events start within [w] of any event. *)
  iso_few : forall l ms, In l own -> NoDup ms ->
    (forall m, In m ms -> In m own /\ Z.abs (at_t (src m) - at_t (src l)) <= w) ->
    (length ms <= n)%nat
}.
