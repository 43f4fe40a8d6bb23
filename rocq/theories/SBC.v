(** Specification vocabulary for dynamic boundary conditions. *)
From Coq Require Import Reals List.
From Verif Require Import MBC.
Import ListNotations.
Open Scope R_scope.

(** Simulated time after [k] steps. *)
Fixpoint time (h : nat -> R) (k : nat) : R :=
  match k with O => 0 | S k => time h k + h k end.

(** The steps made by the main loop: it runs while the time is below the timeframe; [n] steps
    in total. *)
Definition run_of (h : nat -> R) (timeframe : R) (n : nat) : Prop :=
  (forall k, 0 < h k) /\ (forall k, (k < n)%nat -> time h k < timeframe) /\
  timeframe <= time h n.

(** Linear interpolation of the series, sample [i] at time [i * td]. *)
Definition interpolated (td : R) (y : list R) (t v : R) : Prop :=
  exists i a b, nth_error y i = Some a /\ nth_error y (S i) = Some b /\
    INR i * td <= t < INR (S i) * td /\ v = a + (b - a) * ((t - INR i * td) / td).
