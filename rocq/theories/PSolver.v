(** Property theorems: adaptive step-size control (C01, C02, C03). *)
From Coq Require Import Reals List Arith.
From Verif Require Import MSolver LSolver.
Import ListNotations.
Open Scope R_scope.

(** C01.  For every accepted configuration and every stream of reports from the parts, one
    solver step ends: accepted, or the instability error, the latter only after 100
    unstable attempts. *)
Theorem C01_step_terminates : forall c o s,
  cfg_ok c -> (forall i, reported_ok (o i)) ->
  exists fuel,
    (exists u k s', solver_step c fuel o s = Accepted u k s') \/
    (solver_step c fuel o s = Raised /\
     exists n, (n <= fuel)%nat /\ count_unstable o 0 n = 100%nat).
Proof. exact terminates_full. Qed.
Print Assumptions C01_step_terminates.

(** The loop bound ([fuel]) is only a device: a larger bound gives the same result. *)
Theorem C01_fuel_irrelevant : forall c o f i s r,
  step_loop c f o i s = r -> r <> OutOfFuel ->
  forall g, (f <= g)%nat -> step_loop c g o i s = r.
Proof. exact step_loop_mono. Qed.
Print Assumptions C01_fuel_irrelevant.

Example C01_example : cfg_ok cfg_default /\ (forall i, reported_ok (o_mixed i)) /\
  exists u k s', solver_step cfg_default 3 o_mixed (init_sst cfg_default) = Accepted u k s'.
Proof. exact (conj cfg_default_ok mixed_run). Qed.

(** C02 (full statement: all accepted step sizes lie in [min_stepsize, max_stepsize]) is
    false of the code in both directions. *)
Theorem C02_max_stepsize_refuted : exists c os us s, cfg_ok c /\
  solver_run c os us s /\ exists u, In u us /\ c_max_step c < u.
Proof. exact upper_above. Qed.
Print Assumptions C02_max_stepsize_refuted.

Theorem C02_min_stepsize_refuted : exists c os us s,
  cfg_ok c /\ c_min_step c <= 1 <= c_max_step c /\
  solver_run c os us s /\ exists u, In u us /\ u < c_min_step c.
Proof. exact lower_below. Qed.
Print Assumptions C02_min_stepsize_refuted.

(** What holds: all steps are positive, all but the first respect [max_stepsize], the first
    respects [max(1, max_stepsize)]. *)
Theorem C02_upper_partial : forall c os us s,
  cfg_ok c -> solver_run c os us s ->
  Forall (fun u => 0 < u) us /\
  forall n u, nth_error us n = Some u ->
    match n with O => u <= Rmax 1 (c_max_step c) | _ => u <= c_max_step c end.
Proof. exact run_upper. Qed.
Print Assumptions C02_upper_partial.

(** What holds: without stability violations the lower limit is respected. *)
Theorem C02_lower_partial : forall c os us s,
  cfg_ok c -> c_min_step c <= 1 -> solver_run c os us s ->
  (forall o i, In o os -> match o i with OStable _ _ => True | OUnstable _ => False end) ->
  Forall (fun u => c_min_step c <= u) us.
Proof. exact run_lower. Qed.
Print Assumptions C02_lower_partial.

Example C02_example : cfg_ok cfg_default /\ c_min_step cfg_default <= 1 /\
  solver_run cfg_default (repeat (oconst 0.99) 51) (repeat 1 51) (mkSst 1 None 2 51 0).
Proof. exact idle_example. Qed.

(** C03 (full statement: an accepted step is at most [max_factor] times the previous one) is
    false of the code, even with the default settings. *)
Theorem C03_max_factor_refuted : exists c os us u1 u2 s, cfg_ok c /\
  solver_run c os (us ++ [u1; u2]) s /\ c_min_step c <= u1 /\ c_max_factor c * u1 < u2.
Proof. exact growth_above. Qed.
Print Assumptions C03_max_factor_refuted.

(** What holds: during the first [factor_recovery] steps of a simulation the growth is
    limited (up to the lower step limit).  Missing: later steps. *)
Theorem C03_growth_partial : forall c os us u1 u2 s,
  cfg_ok c -> solver_run c os (us ++ [u1; u2]) s ->
  INR (S (length us)) <= c_fctr_rec c ->
  u2 <= Rmax (c_max_factor c * u1) (c_min_step c).
Proof. exact run_growth. Qed.
Print Assumptions C03_growth_partial.

Example C03_example : exists os s,
  solver_run cfg_default os ([1] ++ [1; 1]) s /\
  INR (S (length [1])) <= c_fctr_rec cfg_default.
Proof. exact growth_example. Qed.
