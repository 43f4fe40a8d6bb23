(** Property theorems: main loop and result storage (C06, C07). *)
From Coq Require Import Reals List Arith.
From Verif Require Import MRun SRun LRun.
Import ListNotations.
Open Scope R_scope.

(** C06: whatever the buffers, a run that delivers results delivers time stamps starting at 0,
    advancing by exactly the accepted step sizes, all below the timeframe but the last. *)
Theorem C06_time_stamps : forall (Row : Type) (zero row0 : Row) steps m captures N tf n fuel rows,
  (1 <= N)%nat -> (match m with Disk => True | Mem b => (1 <= b)%nat end) ->
  (forall k, 0 < fst (steps k)) ->
  ends_at steps tf n -> (n <= fuel)%nat ->
  run zero fuel m captures N tf row0 steps = RDone rows ->
  let t := fun k => fst (nth k rows (0, zero)) in
  length rows = S n /\ t 0%nat = 0 /\
  (forall k, (k < n)%nat -> t (S k) = t k + fst (steps k) /\ t k < t (S k) /\ t k < tf) /\
  tf <= t n /\
  (forall k, n = S k -> t n - tf < fst (steps k)).
Proof. exact (@run_times). Qed.
Print Assumptions C06_time_stamps.

(** C06: the end is reached, after fewer than [timeframe/hmin + 1] steps. *)
Theorem C06_run_ends : forall (Row : Type) (steps : nat -> R * Row) tf hmin,
  0 < hmin -> (forall k, hmin <= fst (steps k)) ->
  exists n, ends_at steps tf n /\ hmin * INR n < Rmax 0 tf + hmin.
Proof. exact (@reach_end). Qed.
Print Assumptions C06_run_ends.

Example C06_example : ends_at ex_steps (INR 5) 5 /\
  run 0%nat 5 Disk true 3 (INR 5) 0%nat ex_steps = RDone (history 0%nat ex_steps 5).
Proof.
  split; [exact (ex_steps_end 5)|].
  apply run_disk_ok with (n := 5%nat); auto using ex_steps_end with arith.
  intros [k Hk]. destruct k as [|[|k]]; cbn in Hk; discriminate.
Qed.

(** C07, disk saving: everything computed is delivered once and in order, for every buffer
    length, unless the number of steps is a multiple of the buffer length. *)
Theorem C07_disk_partial : forall (Row : Type) (zero row0 : Row) steps N captures tf n fuel,
  (1 <= N)%nat -> ends_at steps tf n -> (n <= fuel)%nat -> ~ Nat.divide N n ->
  run zero fuel Disk captures N tf row0 steps = RDone (history row0 steps n).
Proof. exact (@run_disk_ok). Qed.
Print Assumptions C07_disk_partial.

(** C07 fails: if the run ends exactly when the buffer is full it dies while saving. *)
Theorem C07_disk_refuted : forall (Row : Type) (zero row0 : Row) steps N captures tf n fuel,
  (1 <= N)%nat -> ends_at steps tf n -> (n <= fuel)%nat -> (1 <= n)%nat -> Nat.divide N n ->
  run zero fuel Disk captures N tf row0 steps = RIndexError.
Proof. exact (@run_disk_full). Qed.
Print Assumptions C07_disk_refuted.

Example C07_disk_refuted_example :
  run 0%nat 6 Disk true 3 (INR 6) 0%nat ex_steps = RIndexError.
Proof.
  apply run_disk_full with (n := 6%nat); auto using ex_steps_end with arith.
  exists 2%nat; reflexivity.
Qed.

(** C07 without disk saving: arrays that are looked up anew grow without loss. *)
Theorem C07_memory_partial : forall (Row : Type) (zero row0 : Row) steps N base tf n fuel,
  (1 <= N)%nat -> (1 <= base)%nat -> ends_at steps tf n -> (n <= fuel)%nat ->
  run zero fuel (Mem base) false N tf row0 steps = RDone (history row0 steps n).
Proof. exact (@run_mem_live). Qed.
Print Assumptions C07_memory_partial.

(** Arrays captured by compiled part code are complete while no enlargement was needed ... *)
Theorem C07_memory_captured_partial : forall (Row : Type) (zero row0 : Row) steps N base tf n fuel,
  (1 <= N)%nat -> (1 <= base)%nat -> ends_at steps tf n -> (n <= fuel)%nat -> (n <= N)%nat ->
  run zero fuel (Mem base) true N tf row0 steps = RDone (history row0 steps n).
Proof. exact (@run_mem_small). Qed.
Print Assumptions C07_memory_captured_partial.

(** ... but after the first enlargement compiled code writes past the end of the old array. *)
Theorem C07_memory_refuted : forall (Row : Type) (zero row0 : Row) steps N base tf n fuel,
  (1 <= N)%nat -> (1 <= base)%nat -> ends_at steps tf n -> (n <= fuel)%nat -> (N < n)%nat ->
  run zero fuel (Mem base) true N tf row0 steps = ROutOfBounds.
Proof. exact (@run_mem_captured). Qed.
Print Assumptions C07_memory_refuted.

Example C07_memory_example :
  run 0%nat 5 (Mem 3) false 2 (INR 5) 0%nat ex_steps = RDone (history 0%nat ex_steps 5) /\
  run 0%nat 5 (Mem 3) true 2 (INR 5) 0%nat ex_steps = ROutOfBounds.
Proof.
  split; [apply run_mem_live with (n := 5%nat)|apply run_mem_captured with (n := 5%nat)];
    auto using ex_steps_end with arith.
Qed.
