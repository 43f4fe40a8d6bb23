(** Model of the use of time series in a run: from which step on which value is used.

    Code: /repo/multisim/simenv.py [_call_postponed] (4408-4415), [_initialize_dynamic_BC] (1560-1566),
    [assign_boundary_cond] (1556-1558), [_initialize_actuator] (1199-1229), [add_open_port] (1314-1328),
    [_reset_simenv] (4798-4799), [start_sim] (5060-5077: the series is read after the step).

    Simplifications: one series, see MBC; [port] says whether the environment has an open port with a time
    series, which is what the key ['dyn_BC'] of the postponed calls stands for; [v0] is the value of the
    variable before the series is assigned (25 for open ports, the start value of the actuator or the set
    point otherwise). *)
From Coq Require Import Reals List.
From Verif Require Import MBC.
Import ListNotations.
Open Scope R_scope.

(** The value before the first step. *)
Definition before_run (port : bool) (v0 : R) (y : list R) : option R :=
  if port then nth_error y 0 else Some v0.
(** 4798-4799: the same after a reset. *)
Definition before_rerun (y : list R) : option R := nth_error y 0.

(** The value used in step [k], which goes from [time h k] to [time h (S k)]: what was written after the
    step before (5065-5077). *)
Definition used_from (start : option R) (td : R) (y : list R) (h : nat -> R) (k : nat) : option R :=
  match k with
  | O => start
  | S _ => option_map snd (bc_at td y h k)
  end.
Definition used (port : bool) (v0 : R) := fun td y => used_from (before_run port v0 y) td y.
Definition used_again := fun td y => used_from (before_rerun y) td y.
