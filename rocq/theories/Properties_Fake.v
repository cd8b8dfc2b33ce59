(** Property C88: the programs with generated hits.  Each theorem is followed by
    a concrete instance of its hypotheses. *)
From Coq Require Import Reals Lra Lia.
From Verif Require Import P_Fake.
Global Open Scope Z_scope.

(** * Concrete data used by the instances *)

Definition fk_hit (tot : Z) : hit_draw := HitDraw (f_of_Z tot) (f_of_Z 7) (f_of_Z 3) (f_of_Z 1000).
Definition fk_draw (x t tot : Z) : draw :=
  Draw (f_of_Z x) (f_of_Z 1) (f_of_Z t) (fk_hit tot :: repeat (fk_hit 0) 9).
(** Four clusters, one of them without any time over threshold. *)
Definition fk_draws : list draw := [fk_draw 0 0 50; fk_draw 1 (-1) 99; fk_draw 1 0 0; fk_draw 0 0 1].
Definition fk_ext : externals := Ext (fun v => v) (fun _ _ => (f_of_Z 1, f_of_Z 1)).

Lemma fk_hit_fair tot : 0 <= tot < 100 -> fair_hit (fk_hit tot).
Proof. intros H. split; [|split; [|split]]; apply drawn_of_Z; lia. Qed.
Lemma fk_possible x t tot : 0 <= x < 2 -> -1 <= t < 1 -> 0 <= tot < 100 -> possible (fk_draw x t tot).
Proof.
  intros X T W. split; [apply drawn_of_Z; lia|]. split; [apply drawn_of_Z; lia|].
  split; [apply drawn_of_Z; lia|]. split; [reflexivity|].
  constructor; [apply fk_hit_fair; exact W|]. apply Forall_forall. intros h I.
  apply repeat_spec in I. subst h. apply fk_hit_fair. lia.
Qed.
Lemma fk_draws_possible : Forall possible fk_draws.
Proof. repeat (apply Forall_cons; [apply fk_possible; lia|]). apply Forall_nil. Qed.
Lemma fk_late : starts_late fk_draws.
Proof.
  cbn [starts_late fk_draws w_time fk_draw]. destruct (is_int_of_Z 0 ltac:(lia)) as [_ E].
  rewrite E. apply IZR_lt. lia.
Qed.
Lemma fk_seen : number_seen fk_draws = 3.
Proof. vm_compute. reflexivity. Qed.

(** * C88 *)

(** benchmark_hits2events reports one event per cluster that can be seen. *)
Theorem C88_events : forall ext ds,
  Forall possible ds -> starts_late ds -> zlen ds <= 12000000 ->
  hits2events ext ds = Ok (number_seen ds).
Proof. exact C88_events_l. Qed.
Print Assumptions C88_events.

Example C88_events_instance : hits2events fk_ext fk_draws = Ok 3.
Proof.
  rewrite (C88_events fk_ext fk_draws fk_draws_possible fk_late ltac:(vm_compute; discriminate)), fk_seen.
  reflexivity.
Qed.

(** So does every test of benchmark_abs, with four slots. *)
Theorem C88_abs : forall ext tests ds, ds <> [] ->
  Forall possible ds -> starts_late ds -> zlen ds <= 12000000 ->
  bench_abs ext tests ds = Ok (repeat (number_seen ds) tests).
Proof. exact C88_abs_l. Qed.
Print Assumptions C88_abs.

Example C88_abs_instance : bench_abs fk_ext 2 fk_draws = Ok [3; 3].
Proof.
  rewrite (C88_abs fk_ext 2 fk_draws ltac:(discriminate) fk_draws_possible fk_late
    ltac:(vm_compute; discriminate)), fk_seen.
  reflexivity.
Qed.

(** The threads of benchmark_abs_thread share out the hits. *)
Theorem C88_chunks : forall A n (hits : list A), (0 < n)%nat ->
  concat (map (chunk n hits) (seq 0 n)) = hits.
Proof. exact @C88_chunks_l. Qed.
Print Assumptions C88_chunks.

Example C88_chunks_instance : map (chunk 3 [1; 2; 3; 4; 5; 6; 7; 8]) [0; 1; 2]%nat = [[1; 2]; [3; 4]; [5; 6; 7; 8]].
Proof. reflexivity. Qed.

(** If the chunks consist of whole clusters the threads together find the same
    number of events. *)
Theorem C88_threads : forall ext n q ds, (0 < n)%nat -> (0 < q)%nat ->
  Forall possible ds -> starts_late ds -> zlen ds <= 12000000 ->
  Nat.div (10 * length ds) n = (10 * q)%nat ->
  exists hits evss, fake_hits 0 ds = Ok hits /\ thread_test ext n hits = Ok evss /\
    length evss = n /\ zlen (concat evss) = number_seen ds.
Proof. exact C88_threads_l. Qed.
Print Assumptions C88_threads.

Example C88_threads_instance : exists evss,
  (let! hits := fake_hits 0 fk_draws in thread_test fk_ext 2 hits) = Ok evss /\ zlen (concat evss) = 3.
Proof.
  destruct (C88_threads fk_ext 2 2 fk_draws ltac:(lia) ltac:(lia) fk_draws_possible fk_late
    ltac:(vm_compute; discriminate) eq_refl) as (hits & evss & E & T & _ & N).
  exists evss. rewrite E. cbn [obind]. split; [exact T|]. rewrite N. exact fk_seen.
Qed.

(** This is so for the sizes of the benchmark. *)
Theorem C88_main : forall ext ds, zlen ds = 12000000 -> Forall possible ds -> starts_late ds ->
  exists hits evss, fake_hits 0 ds = Ok hits /\ thread_test ext 64 hits = Ok evss /\
    length evss = 64%nat /\ zlen (concat evss) = number_seen ds.
Proof. exact C88_main_l. Qed.
Print Assumptions C88_main.

(** Otherwise clusters can be cut. *)
Theorem C88_cut_refuted : exists ds n, Forall possible ds /\ starts_late ds /\ (0 < n)%nat /\
  (let! hits := fake_hits 0 ds in
   let! evss := thread_test fk_ext n hits in Ok (zlen (concat evss))) = Ok 4 /\ number_seen ds = 3.
Proof.
  exists (map (fun i => Draw (f_of_Z 0) (f_of_Z 0) (f_of_Z 0) (repeat (fk_hit i) 10)) [5; 6; 7]), 2%nat.
  split; [|split; [|split; [lia|]]].
  - repeat (apply Forall_cons; [|]); [..|apply Forall_nil];
      (split; [apply drawn_of_Z; lia|]; split; [apply drawn_of_Z; lia|]; split; [apply drawn_of_Z; lia|];
       split; [reflexivity|]; apply Forall_forall; intros h I; apply repeat_spec in I; subst h;
       apply fk_hit_fair; lia).
  - cbn [starts_late map w_time]. destruct (is_int_of_Z 0 ltac:(lia)) as [_ E]. rewrite E. apply IZR_lt. lia.
  - split; vm_compute; reflexivity.
Qed.
Print Assumptions C88_cut_refuted.

(** A thread without hits dereferences the end of an empty vector. *)
Theorem C88_idle : forall ext n hits, (length hits < n)%nat -> thread_test ext n hits = UB NullDeref.
Proof. exact C88_idle_l. Qed.
Print Assumptions C88_idle.

(** The number of events need not be the number of clusters. *)
Theorem C88_every_cluster_refuted : exists ds, Forall possible ds /\ starts_late ds /\
  zlen ds <= 12000000 /\ hits2events fk_ext ds <> Ok (zlen ds).
Proof.
  exists fk_draws. split; [exact fk_draws_possible|]. split; [exact fk_late|].
  split; [vm_compute; discriminate|]. rewrite C88_events_instance. vm_compute. discriminate.
Qed.
Print Assumptions C88_every_cluster_refuted.

(** The distribution of the time can yield -1 for the first cluster: a time of
    2^64 - 1 ticks, and an undefined conversion. *)
Theorem C88_defined_refuted : exists ds, Forall possible ds /\
  hits2events fk_ext ds = UB BadConversion.
Proof.
  exists [fk_draw 0 (-1) 50]. split.
  - constructor; [apply fk_possible; lia|constructor].
  - vm_compute. reflexivity.
Qed.
Print Assumptions C88_defined_refuted.
