(** Specification vocabulary for C06 and C07: the history of a run, independent of any buffer. *)
From Coq Require Import Reals List Arith.
Import ListNotations.
Open Scope R_scope.

(** Time after [n] accepted steps. *)
Fixpoint time_after {Row} (steps : nat -> R * Row) (n : nat) : R :=
  match n with O => 0 | S k => time_after steps k + fst (steps k) end.

(** The row belonging to time stamp [n]: the initial row, then what step [n-1] computed. *)
Definition row_at {Row} (row0 : Row) (steps : nat -> R * Row) (n : nat) : R * Row :=
  (time_after steps n, match n with O => row0 | S k => snd (steps k) end).

(** Everything a run of [n] steps computed, in order. *)
Definition history {Row} (row0 : Row) (steps : nat -> R * Row) (n : nat) : list (R * Row) :=
  map (row_at row0 steps) (seq 0 (S n)).

(** [n] is the first time stamp at or beyond the timeframe. *)
Definition ends_at {Row} (steps : nat -> R * Row) (tf : R) (n : nat) : Prop :=
  (forall k, (k < n)%nat -> time_after steps k < tf) /\ tf <= time_after steps n.
