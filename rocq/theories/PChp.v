(** C23 - C28, C61 - C63: CHP plant. *)
From Coq Require Import Reals List Arith Bool Lia Lra Psatz.
From Verif Require Import MChp SChp LChp LChpCurve LChpRun LChpEx.
Import ListNotations.
Open Scope R_scope.

(** ** C23 Curves *)

(** Limited growth starts at [b0], moves strictly monotonically towards [s], never crosses it
    and comes arbitrarily close, for every curvature in (0,1). *)
Theorem C23_limited_growth : forall s b0 k, 0 < k < 1 ->
  lim_growth 0 s b0 k = b0 /\
  (b0 < s -> forall x y, x < y -> lim_growth x s b0 k < lim_growth y s b0 k < s) /\
  (s < b0 -> forall x y, x < y -> s < lim_growth y s b0 k < lim_growth x s b0 k) /\
  (forall eps, 0 < eps -> exists X, forall x, X <= x -> Rabs (lim_growth x s b0 k - s) < eps).
Proof.
  intros s b0 k K. split; [apply lim_start|]. split; [|split].
  - intros B x y L. exact (lim_grows s b0 k x y K B L).
  - intros B x y L. exact (lim_falls s b0 k x y K B L).
  - intros eps E. exact (lim_reaches s b0 k eps K E).
Qed.
Example C23_limited_growth_ex : lim_growth 1 10 2 (1 / 2) = 6.
Proof. unfold lim_growth. rewrite Rpower_one by lra. lra. Qed.
Print Assumptions C23_limited_growth.

Theorem C23_startup : forall x y, x < y ->
  0 < chp_startup_th x < 1 /\ chp_startup_th x < chp_startup_th y /\
  chp_startup_el x < chp_startup_el y /\ chp_startup_gas x < chp_startup_gas y.
Proof.
  intros x y L. split; [apply th_range|]. split; [apply th_incr, L|].
  split; [apply el_incr, L|apply gas_incr, L].
Qed.
(** Start-up takes less than 2000 s. *)
Theorem C23_startup_completes : forall t, 2000 <= t -> 0.999 < chp_startup_th t < 1.
Proof. intros t T. split; [exact (th_done t T)|apply th_range]. Qed.
Example C23_startup_ex : chp_startup_th 0 = 4.3715647889609857e-4.
Proof.
  unfold chp_startup_th. rewrite Rmult_0_r, exp_0, Rmult_1_r.
  replace (1 + (1 / 4.3715647889609857e-4 - 1)) with (1 / 4.3715647889609857e-4) by lra. lra.
Qed.
Print Assumptions C23_startup.
Print Assumptions C23_startup_completes.

Theorem C23_part_load : forall x y, 0 <= x -> x < y ->
  0 < chp_thermal_power x < chp_thermal_power y /\ 0 < chp_gas_power x < chp_gas_power y.
Proof.
  intros x y X L. pose proof (thermal_pos x X). pose proof (gaspow_pos x X).
  pose proof (thermal_incr x y L). pose proof (gaspow_incr x y L). lra.
Qed.
Example C23_part_load_ex : chp_thermal_power 0 = 0.972917 /\
  0.6744 < chp_thermal_power (1 / 2) / chp_thermal_power 1 < 0.6745.
Proof. split; [exact thermal_0|exact (proj1 half_bounds)]. Qed.
Print Assumptions C23_part_load.

Theorem C23_shutdown : forall x y, 0 <= x -> x < y ->
  chp_shutdown_th y < chp_shutdown_th x < 1.
Proof.
  intros x y X L. pose proof (down_decr x y L). pose proof down_0.
  destruct X as [X|<-]; [pose proof (down_decr 0 x X)|]; lra.
Qed.
Example C23_shutdown_ex : 0.9999999 < chp_shutdown_th 0 /\ chp_shutdown_th 728 < 0.01.
Proof. split; [exact (proj1 down_0)|exact down_end]. Qed.
Print Assumptions C23_shutdown.

(** ** C24, C25 Minimum off and on time *)

(** A plant that was running in row [i], off in rows [i+1 .. j] and runs again in row [j+1]
    was off for at least the minimum off time, in the times stored with the rows. *)
Theorem C24_min_off : forall P ins on start i j,
  chp_par_ok P -> unrejected ins -> (i < j)%nat ->
  let run := running P (chp_init P on start) ins in
  run i -> (forall k, (i < k <= j)%nat -> ~ run k) -> run (S j) ->
  p_off P <= i_t (ins (S j)) - i_t (ins (S i)).
Proof.
  intros P ins on start i j HP [_ Hh] Hij run Ri Ro Rj.
  rewrite (proj2 (Hh j)), (proj2 (Hh i)).
  apply (min_off_thm P ltac:(apply HP) ltac:(apply HP) (chp_init P on start)
           (init_sane P on start) ins (fun k => proj1 (Hh k)) i j Hij Ri Ro Rj).
Qed.
Example C24_min_off_ex : chp_par_ok exP /\ unrejected exH /\
  running exP ex0 exH 1 /\ (forall k, (1 < k <= 2)%nat -> ~ running exP ex0 exH k) /\
  running exP ex0 exH 3.
Proof.
  split; [exact exP_ok|]. split; [exact exH_hist|]. unfold running.
  split; [rewrite (proj1 exH_1); lra|]. split; [|rewrite exH_3; lra].
  intros k Hk. replace k with 2%nat by lia. rewrite (proj1 exH_2). lra.
Qed.
Print Assumptions C24_min_off.

(** With rejected attempts only the announced times keep the distance ... *)
Theorem C24_min_off_announced : forall P ins on start i j,
  chp_par_ok P -> (forall k, 0 < i_dt (ins k)) -> (i < j)%nat ->
  let run := running P (chp_init P on start) ins in
  run i -> (forall k, (i < k <= j)%nat -> ~ run k) -> run (S j) ->
  p_off P <= stamp ins j - stamp ins i.
Proof.
  intros P ins on start i j HP Hh Hij run Ri Ro Rj.
  apply (min_off_thm P ltac:(apply HP) ltac:(apply HP) (chp_init P on start)
           (init_sane P on start) ins Hh i j Hij Ri Ro Rj).
Qed.
Print Assumptions C24_min_off_announced.

(** ... the stored times do not: off for one second with a minimum off time of 600 s, and on
    for one second with a minimum on time of 60 s. *)
Theorem C24_rejected_attempt_refuted : exists P ins i j,
  chp_par_ok P /\ history ins /\ (i < j)%nat /\ (forall k, cool (ins k)) /\
  let run := running P (chp_init P false 0) ins in
  run i /\ (forall k, (i < k <= j)%nat -> ~ run k) /\ run (S j) /\
  i_t (ins (S j)) - i_t (ins (S i)) = 1 /\ p_off P = 600.
Proof.
  exists exP, exJ, 1%nat, 2%nat. split; [exact exP_ok|]. split; [exact exJ_hist|].
  split; [lia|]. split; [intros [|[|[|k]]]; apply cool60; reflexivity|].
  cbv zeta. fold ex0. unfold running.
  split; [rewrite (proj1 exJ_1); lra|].
  split; [intros k Hk; replace k with 2%nat by lia; rewrite (proj1 exJ_2); lra|].
  split; [rewrite exJ_3; lra|]. cbn. lra.
Qed.
Print Assumptions C24_rejected_attempt_refuted.

(** Unless the temperatures force it, a plant that was off in row [i] and running in rows
    [i+1 .. j] is off in row [j+1] only after the minimum on time. *)
Theorem C25_min_on : forall P ins on start i j,
  chp_par_ok P -> unrejected ins -> (i < j)%nat ->
  let run := running P (chp_init P on start) ins in
  ~ run i -> (forall k, (i < k <= j)%nat -> run k) -> ~ run (S j) -> cool (ins j) ->
  p_on P <= i_t (ins (S j)) - i_t (ins (S i)).
Proof.
  intros P ins on start i j HP [_ Hh] Hij run Ri Ro Rj [C1 C2].
  rewrite (proj2 (Hh j)), (proj2 (Hh i)).
  apply (min_on_thm P ltac:(apply HP) ltac:(apply HP) (chp_init P on start)
           (init_sane P on start) ins (fun k => proj1 (Hh k)) i j Hij Ri Ro Rj C1 C2).
Qed.
Example C25_min_on_ex : chp_par_ok exP /\ unrejected exH /\
  ~ running exP ex0 exH 0 /\ (forall k, (0 < k <= 1)%nat -> running exP ex0 exH k) /\
  ~ running exP ex0 exH 2 /\ cool (exH 1).
Proof.
  split; [exact exP_ok|]. split; [exact exH_hist|]. unfold running.
  split; [cbn; lra|]. split; [|split].
  - intros k Hk. replace k with 1%nat by lia. rewrite (proj1 exH_1). lra.
  - rewrite (proj1 exH_2). lra.
  - apply cool60. reflexivity.
Qed.
Print Assumptions C25_min_on.

Theorem C25_rejected_attempt_refuted : exists P ins i j,
  chp_par_ok P /\ history ins /\ (i < j)%nat /\ (forall k, cool (ins k)) /\
  let run := running P (chp_init P false 0) ins in
  ~ run i /\ (forall k, (i < k <= j)%nat -> run k) /\ ~ run (S j) /\
  i_t (ins (S j)) - i_t (ins (S i)) = 1 /\ p_on P = 60.
Proof.
  exists exP, exJ, 0%nat, 1%nat. split; [exact exP_ok|]. split; [exact exJ_hist|].
  split; [lia|]. split; [intros [|[|[|k]]]; apply cool60; reflexivity|].
  cbv zeta. fold ex0. unfold running.
  split; [cbn; lra|].
  split; [intros k Hk; replace k with 1%nat by lia; rewrite (proj1 exJ_1); lra|].
  split; [rewrite (proj1 exJ_2); lra|]. cbn. lra.
Qed.
Print Assumptions C25_rejected_attempt_refuted.

(** ** C26 Over-temperature *)

(** Any cell above 110 degC: off after the step. *)
Theorem C26_emergency : forall P ins on start k,
  chp_par_ok P -> (forall k, 0 < i_dt (ins k)) -> cell_hot (ins k) ->
  ~ running P (chp_init P on start) ins (S k).
Proof.
  intros P ins on start k HP Hh C. unfold running. cbn [chp_at].
  rewrite (step_emergency P ltac:(apply HP) ltac:(apply HP)); auto.
  apply at_sane; try apply HP; auto. apply init_sane.
Qed.
Example C26_emergency_ex : cell_hot (mkChpIn 0 1 (Some 1) [60; 120]).
Proof. exists 120. cbn. split; [auto|lra]. Qed.
Print Assumptions C26_emergency.

(** A hot return flow never allows a start. *)
Theorem C26_no_hot_start : forall P ins on start k,
  chp_par_ok P -> (forall k, 0 < i_dt (ins k)) ->
  let run := running P (chp_init P on start) ins in
  ~ run k -> run (S k) -> cool (ins k).
Proof.
  intros P ins on start k HP Hh run Rk Rs. apply cool_spec.
  unfold run, running in *. cbn [chp_at] in Rs.
  apply (step_start P ltac:(apply HP) ltac:(apply HP)) in Rs; [apply Rs| | |].
  - apply at_sane; try apply HP; auto. apply init_sane.
  - apply Hh.
  - destruct (Req_dec (h_row (chp_at P (chp_init P on start) ins k)) 0); [assumption|contradiction].
Qed.
Example C26_no_hot_start_ex : ~ running exP ex0 exH 0 /\ running exP ex0 exH 1.
Proof. unfold running. rewrite (proj1 exH_1). cbn. lra. Qed.
Print Assumptions C26_no_hot_start.

(** Running with a hot return flow lasts at most 120 s plus one step. *)
Theorem C26_hot_return : forall P ins on start j n,
  chp_par_ok P -> (forall k, 0 < i_dt (ins k)) ->
  (forall k, (j <= k <= j + n)%nat -> return_hot (ins k)) ->
  120 < elapsed ins j n ->
  exists k, (j <= k <= j + n)%nat /\ ~ running P (chp_init P on start) ins (S k).
Proof.
  intros P ins on start j n HP Hh Hot El.
  assert (D : forall m, (m <= S n)%nat ->
    (forall k, (j <= k < j + m)%nat -> running P (chp_init P on start) ins (S k)) \/
    exists k, (j <= k < j + m)%nat /\ ~ running P (chp_init P on start) ins (S k)).
  { induction m as [|m IH]; intros Hm; [left; intros; lia|].
    destruct IH as [A|(k&A&B)]; [lia| |right; exists k; split; [lia|exact B]].
    destruct (Req_dec (h_row (chp_at P (chp_init P on start) ins (S (j + m)))) 0) as [E|E].
    - right. exists (j + m)%nat. split; [lia|]. unfold running. lra.
    - left. intros k Hk. destruct (Nat.eq_dec k (j + m)) as [->|]; [exact E|apply A; lia]. }
  destruct (D (S n) (le_n _)) as [A|(k&A&B)]; [exfalso|exists k; split; [lia|exact B]].
  assert (L : elapsed ins j n <= 120); [|lra].
  apply (hot_thm P ltac:(apply HP) ltac:(apply HP) (chp_init P on start)); auto.
  - apply init_sane.
  - apply init_exc.
  - intros k Hk. split; [apply Hot; lia|apply A; lia].
Qed.
(** The bound is reached: three steps of 60 s with a hot return flow. *)
Example C26_hot_return_ex : (forall k, (1 <= k <= 4)%nat -> return_hot (exK k)) /\
  120 < elapsed exK 1 3 /\
  (forall k, (1 <= k <= 3)%nat -> running exP ex0 exK (S k)).
Proof.
  split; [|split; [cbn; lra|exact exK_rows]].
  intros [|k] Hk; [lia|]. apply exK_hot.
Qed.
Print Assumptions C26_hot_return.

(** ** C27 Modulation range and ramp *)

(** The stored modulation is zero or between the lower end of the range and whatever the
    controls never exceed. *)
Theorem C27_range_partial : forall P ins on start U,
  chp_par_ok P -> (forall k, 0 < i_dt (ins k)) -> start <= U -> p_low P <= U ->
  (forall k c, i_ctl (ins k) = Some c -> c <= U) ->
  forall k, let m := h_row (chp_at P (chp_init P on start) ins k) in m = 0 \/ p_low P <= m <= U.
Proof.
  intros P ins on start U HP Hh Hs Hl Hc k.
  assert (0 < p_low P) by apply HP.
  refine (proj2 (range_thm P ltac:(apply HP) ltac:(apply HP) (chp_init P on start)
    (init_sane P on start) ins Hh U _ _ Hl _ Hc k)); destruct on; cbn; lra.
Qed.
Example C27_range_partial_ex : h_row (chp_at exP ex0 exH 1) = 1 /\ h_row (chp_at exP ex0 exH 2) = 0.
Proof. split; [apply exH_1|apply exH_2]. Qed.
Print Assumptions C27_range_partial.

(** Missing for the full claim: the upper end of [modulation_range] is never applied. *)
Definition lowP : chp_par := mkChpPar 20000 0.5 0.32 0.5 0.9 0.01 600 60 1700.
Theorem C27_upper_refuted : exists P ins k,
  chp_par_ok P /\ unrejected ins /\ p_upp P = 0.9 /\
  h_row (chp_at P (chp_init P false 0) ins k) = 1.
Proof.
  exists lowP, exH, 1%nat. split; [unfold chp_par_ok; cbn; repeat split; lra|].
  split; [exact exH_hist|]. split; [reflexivity|].
  destruct (start_fwd lowP (chp_init lowP false 0) (exH 0)) as (A&_); try (cbn; lra).
  - apply cool60. reflexivity.
  - cbn [chp_at]. rewrite A. reflexivity.
Qed.
Print Assumptions C27_upper_refuted.

(** The ramp is kept while the request is within the range. *)
Theorem C27_ramp_partial : forall P ins on start k,
  chp_par_ok P -> (forall k, 0 < i_dt (ins k)) ->
  let st := chp_at P (chp_init P on start) ins in
  h_row (st k) <> 0 -> h_row (st (S k)) <> 0 -> p_low P <= asked (st k) (ins k) ->
  Rabs (h_row (st (S k)) - h_row (st k)) <= p_ramp P * i_dt (ins k).
Proof.
  intros P ins on start k HP Hh st Rk Rs A. unfold st in *. cbn [chp_at] in *.
  apply (step_stay_on P ltac:(apply HP) ltac:(apply HP)); auto.
  apply at_sane; try apply HP; auto. apply init_sane.
Qed.
Example C27_ramp_partial_ex : running exP ex0 exK 2 /\ running exP ex0 exK 3 /\
  p_low exP <= asked (chp_at exP ex0 exK 2) (exK 2).
Proof. split; [apply exK_rows; lia|]. split; [apply exK_rows; lia|]. cbn. lra. Qed.
Print Assumptions C27_ramp_partial.

(** Missing: a request below the range during the minimum run time sets the lowest modulation
    at once; here from 1 to 0.5 within a second, allowed are 0.01. *)
Definition exR (k : nat) : chp_in :=
  mkChpIn (INR k) 1 (Some (match k with O => 1 | S _ => 0 end)) [60].
Theorem C27_ramp_refuted : exists P ins k,
  chp_par_ok P /\ unrejected ins /\ (forall k, cool (ins k)) /\
  let st := chp_at P (chp_init P false 0) ins in
  h_row (st k) <> 0 /\ h_row (st (S k)) <> 0 /\
  Rabs (h_row (st (S k)) - h_row (st k)) = 50 * (p_ramp P * i_dt (ins k)).
Proof.
  exists exP, exR, 1%nat. split; [exact exP_ok|]. split.
  { split; [cbn; lra|]. intros k. unfold stamp, exR. cbn [i_t i_dt]. rewrite S_INR.
    split; [lra|reflexivity]. }
  split; [intros k; apply cool60; reflexivity|].
  cbv zeta. fold ex0.
  destruct (start_fwd exP ex0 (exR 0)) as (A&_&_&U&_); try (cbn; lra).
  { apply cool60. reflexivity. }
  assert (R1 : h_row (chp_at exP ex0 exR 1) = 1) by (cbn [chp_at]; rewrite A; reflexivity).
  assert (U1 : h_up (chp_at exP ex0 exR 1) = 1) by (cbn [chp_at]; rewrite U; cbn; lra).
  destruct (hold_fwd exP (chp_at exP ex0 exR 1) (exR 1)) as (B&_).
  { rewrite R1. lra. } { cbn. lra. } { rewrite U1. cbn. lra. } { apply cool60. reflexivity. }
  change (chp_at exP ex0 exR 2) with (chp_step exP (chp_at exP ex0 exR 1) (exR 1)).
  rewrite B, R1. cbn. split; [lra|]. split; [lra|]. rewrite Rabs_left by lra. lra.
Qed.
Print Assumptions C27_ramp_refuted.

(** ** C28 Timers *)

(** Recorded switching times are those of the first attempt; without a rejection they are the
    stored times. *)
Theorem C28_recorded_partial : forall P ins on start k,
  chp_par_ok P -> unrejected ins ->
  let st := chp_at P (chp_init P on start) ins in
  let run := running P (chp_init P on start) ins in
  (~ run k -> run (S k) -> h_up (st (S k)) = i_t (ins (S k))) /\
  (run k -> ~ run (S k) -> h_down (st (S k)) = i_t (ins (S k))).
Proof.
  intros P ins on start k HP [_ Hh] st run. rewrite (proj2 (Hh k)).
  assert (S0 : sane P (chp_at P (chp_init P on start) ins k)).
  { apply at_sane; try apply HP; [apply init_sane|]. intros; apply Hh. }
  unfold run, running, st. cbn [chp_at]. split; intros A B.
  - apply (step_start P ltac:(apply HP) ltac:(apply HP)); auto; [apply Hh|].
    destruct (Req_dec (h_row (chp_at P (chp_init P on start) ins k)) 0); [assumption|contradiction].
  - apply (step_stop P ltac:(apply HP) ltac:(apply HP)); auto; [apply Hh|].
    destruct (Req_dec (h_row (chp_step P (chp_at P (chp_init P on start) ins k) (ins k))) 0);
      [assumption|contradiction].
Qed.
Example C28_recorded_partial_ex : ~ running exP ex0 exH 0 /\ running exP ex0 exH 1 /\
  ~ running exP ex0 exH 2 /\ h_up (chp_at exP ex0 exH 1) = 1 /\ h_down (chp_at exP ex0 exH 2) = 101.
Proof.
  unfold running. rewrite (proj1 exH_1), (proj1 exH_2). cbn [ex0 chp_at chp_init h_row].
  repeat split; try lra; [apply exH_1|apply exH_2].
Qed.
Print Assumptions C28_recorded_partial.

(** All attempts of a step use the decision of the first one: if the attempt with 100 s is
    rejected and the one with 0.01 s accepted, the start is recorded 99.99 s too late. *)
Theorem C28_rejected_attempt_refuted : exists P s first second,
  chp_par_ok P /\ s = chp_init P false 0 /\
  i_t first = i_t second /\ i_dt first = 100 /\ i_dt second = 0.01 /\
  h_row s = 0 /\ h_row (chp_calls P true s [first; first; second; second]) = 1 /\
  h_up (chp_calls P true s [first; first; second; second]) = i_t second + i_dt second + 99.99.
Proof.
  exists exP, ex0, (mkChpIn 0 100 (Some 1) [60]), (mkChpIn 0 0.01 (Some 1) [60]).
  destruct (start_fwd exP ex0 (mkChpIn 0 100 (Some 1) [60])) as (A&B&C&D&_); try (cbn; lra).
  { apply cool60. reflexivity. }
  split; [exact exP_ok|]. repeat (split; [reflexivity|]). cbn [chp_calls].
  set (s1 := chp_step exP ex0 (mkChpIn 0 100 (Some 1) [60])) in *.
  assert (F1 : forall s, h_up (chp_outputs exP s) = h_up s) by reflexivity.
  assert (F2 : forall s, h_row (chp_outputs exP s) = h_bin s * h_mod s) by reflexivity.
  assert (F3 : forall s, h_bin (chp_outputs exP s) = h_bin s) by reflexivity.
  assert (F4 : forall s, h_mod (chp_outputs exP s) = h_mod s) by reflexivity.
  rewrite F2, !F3, !F4, !F1, B, C, D. cbn. lra.
Qed.
Print Assumptions C28_rejected_attempt_refuted.

(** As a consequence the remaining heat of a plant that is switched off can exceed its thermal
    power rating by more than 30 percent. *)
Theorem C28_heat_burst_refuted : exists P ins k,
  chp_par_ok P /\ history ins /\ (forall k, cool (ins k)) /\
  (forall k c, i_ctl (ins k) = Some c -> 0 <= c <= 1) /\
  ~ running P (chp_init P false 0) ins k /\
  1.3 * (p_pow P / p_p2h P) < h_dQ (chp_at P (chp_init P false 0) ins k).
Proof.
  exists exP, exB, 4%nat. split; [exact exP_ok|]. split; [exact exB_hist|].
  split; [intros [|[|[|k]]]; apply cool60; reflexivity|]. split.
  { intros [|[|[|k]]] c E; inversion E; subst; lra. }
  fold ex0. unfold running. rewrite (proj1 exB_4). split; [lra|exact (proj2 exB_4)].
Qed.
Print Assumptions C28_heat_burst_refuted.

(** ** C61 Outputs *)

(** In every reachable state (requests at most one, no rejected attempt) electric power, heat
    and gas are non-negative and within the ratings and the electrical efficiency is not above
    the rated one. *)
Theorem C61_ratings : forall P ins on start k,
  chp_par_ok P -> unrejected ins -> start <= 1 ->
  (forall k c, i_ctl (ins k) = Some c -> c <= 1) ->
  let s := chp_at P (chp_init P on start) ins (S k) in
  0 <= h_Pel s <= p_pow P /\ 0 <= h_dQ s <= p_pow P / p_p2h P /\
  0 <= h_Pgas s <= p_pow P / p_eta P /\ h_Pel s <= p_eta P * h_Pgas s.
Proof.
  intros P ins on start k HP Hh Hs Hc.
  apply (at_plate P HP (chp_init P on start) ins Hh); [|exact Hc].
  apply init_good; auto. apply Hh.
Qed.
Print Assumptions C61_ratings.

(** A constant request is met from 2000 s after the start on; at full load with the ratings. *)
Theorem C61_settles : forall P ins start m k,
  chp_par_ok P -> unrejected ins -> p_low P <= m ->
  (forall k, i_ctl (ins k) = Some m) -> (forall k, cool (ins k)) ->
  2000 <= i_t (ins (S k)) - i_t (ins 1%nat) ->
  let s := chp_at P (chp_init P false start) ins (S k) in
  h_Pel s = m * p_pow P /\
  h_dQ s = chp_thermal_power m / chp_thermal_power 1 * (p_pow P / p_p2h P) /\
  h_Pgas s = chp_gas_power m / chp_gas_power 1 * (p_pow P / p_eta P).
Proof.
  intros P ins start m k HP Hh Hm Hc Ho T.
  apply (steady_outputs P HP m start Hm ins Hh Hc Ho k).
  rewrite <- (proj2 (proj2 Hh k)), <- (proj2 (proj2 Hh O)). exact T.
Qed.
Example C61_settles_ex : 2000 <= i_t (effH 35) - i_t (effH 1) /\ unrejected effH.
Proof. split; [cbn; lra|exact effH_hist]. Qed.
Print Assumptions C61_settles.

(** Energy from nothing: an admissible plant (rated total efficiency 0.9605) at half load puts
    out more power than the gas contains. *)
Theorem C61_efficiency_refuted : exists P ins k,
  chp_par_ok P /\ unrejected ins /\ (forall k, cool (ins k)) /\
  let s := chp_at P (chp_init P false 0) ins k in
  0 < h_Pgas s /\ 1.009 * h_Pgas s < h_Pel s + h_dQ s.
Proof.
  exists effP, effH, 36%nat. split; [exact effP_ok|]. split; [exact effH_hist|].
  split; [intros k; apply cool60; reflexivity|].
  destruct (C61_settles effP effH 0 (1 / 2) 35 effP_ok effH_hist ltac:(cbn; lra)
    (fun _ => eq_refl) (fun k => cool60 (effH k) eq_refl) ltac:(cbn; lra)) as (A&B&C).
  cbv zeta. rewrite A, B, C. destruct half_bounds as [H1 H2].
  set (a := chp_thermal_power (1 / 2) / chp_thermal_power 1) in *.
  set (b := chp_gas_power (1 / 2) / chp_gas_power 1) in *. cbn. split; lra.
Qed.
Print Assumptions C61_efficiency_refuted.

(** ** C62 Constant request *)

(** A request renewed in every step is served as soon as nothing speaks against it. *)
Theorem C62_renewed_partial : forall P ins on start k m,
  chp_par_ok P -> (forall k, 0 < i_dt (ins k)) -> i_ctl (ins k) = Some m -> p_low P <= m ->
  let st := chp_at P (chp_init P on start) ins in
  h_row (st k) = 0 -> cool (ins k) -> p_off P <= stamp ins k - h_down (st k) ->
  h_row (st (S k)) = m.
Proof.
  intros P ins on start k m HP Hh Hc Hm st Z C O. unfold st in *. cbn [chp_at].
  destruct (start_fwd P (chp_at P (chp_init P on start) ins k) (ins k)) as (A&_); auto.
  - unfold asked. rewrite Hc. exact Hm.
  - rewrite A. unfold asked. rewrite Hc. reflexivity.
Qed.
Example C62_renewed_partial_ex : h_row (chp_at exP ex0 exH 2) = 0 /\
  p_off exP <= stamp exH 2 - h_down (chp_at exP ex0 exH 2) /\ h_row (chp_at exP ex0 exH 3) = 1.
Proof.
  split; [apply exH_2|]. split; [rewrite (proj2 exH_2); unfold stamp; cbn; lra|exact exH_3].
Qed.
Print Assumptions C62_renewed_partial.

(** A constant value is written once.  One blocked start and the plant never runs, however
    cool it is afterwards; one emergency shut-down and it never runs again. *)
Theorem C62_constant_refuted : forall P ins m,
  chp_par_ok P -> (forall k, 0 < i_dt (ins k)) -> (forall k, i_ctl (ins k) = None) ->
  p_low P <= m -> return_hot (ins O) ->
  forall k, ~ running P (chp_init P false m) ins k.
Proof.
  intros P ins m HP Hh Hc Hm Hot k.
  assert (L : 0 < p_low P) by apply HP.
  destruct (blocked_zero P (chp_init P false m) (ins O)) as [A B]; auto.
  { unfold asked. rewrite Hc. exact Hm. }
  destruct k as [|k]; [unfold running; cbn; lra|].
  unfold running. replace (S k) with (1 + k)%nat by lia.
  rewrite (proj1 (lost P (chp_init P false m) ins 1 L A B (fun k _ => Hc k) k)). lra.
Qed.
Theorem C62_emergency_refuted : forall P ins m j,
  chp_par_ok P -> (forall k, 0 < i_dt (ins k)) -> (forall k, i_ctl (ins k) = None) ->
  running P (chp_init P false m) ins j -> cell_hot (ins j) ->
  forall k, (j < k)%nat -> ~ running P (chp_init P false m) ins k.
Proof.
  intros P ins m j HP Hh Hc Hj Hot k Hk.
  assert (L : 0 < p_low P) by apply HP.
  assert (S0 : sane P (chp_at P (chp_init P false m) ins j)).
  { apply at_sane; try apply HP; [apply init_sane|exact Hh]. }
  destruct (shutdown_zero P (chp_at P (chp_init P false m) ins j) (ins j)) as [A B]; auto;
    try apply HP.
  { unfold asked. rewrite Hc. destruct S0 as [[Z|Z] M]; [contradiction|]. rewrite M; auto. }
  unfold running. replace k with (S j + (k - S j))%nat by lia.
  rewrite (proj1 (lost P (chp_init P false m) ins (S j) L A B (fun k _ => Hc k) (k - S j))). lra.
Qed.
(** Concrete: hot for the first minute, then cool for ever. *)
Definition exC (k : nat) : chp_in :=
  mkChpIn (60 * INR k) 60 None [match k with O => 80 | S _ => 60 end].
Example C62_constant_refuted_ex : unrejected exC /\ return_hot (exC O) /\
  forall k, ~ running exP (chp_init exP false 1) exC k.
Proof.
  split; [|split].
  - split; [cbn; lra|]. intros k. unfold stamp, exC. cbn [i_t i_dt]. rewrite S_INR. split; lra.
  - unfold return_hot. cbn. lra.
  - apply C62_constant_refuted; [exact exP_ok|intros; cbn; lra|reflexivity|cbn; lra|].
    unfold return_hot. cbn. lra.
Qed.
(** Running at constant value, then one hot step. *)
Definition exD (k : nat) : chp_in :=
  mkChpIn (60 * INR k) 60 None [match k with S O => 120 | _ => 60 end].
Example C62_emergency_refuted_ex :
  running exP (chp_init exP false 1) exD 1 /\ cell_hot (exD 1) /\
  forall k, (1 < k)%nat -> ~ running exP (chp_init exP false 1) exD k.
Proof.
  assert (A : running exP (chp_init exP false 1) exD 1).
  { unfold running. cbn [chp_at].
    destruct (start_fwd exP (chp_init exP false 1) (exD 0)) as (A&_); try (cbn; lra).
    - apply cool60. reflexivity.
    - rewrite A. cbn. lra. }
  assert (B : cell_hot (exD 1)) by (exists 120; cbn; split; [auto|lra]).
  split; [exact A|]. split; [exact B|].
  apply C62_emergency_refuted; auto; [exact exP_ok|intros; cbn; lra].
Qed.
Print Assumptions C62_constant_refuted.
Print Assumptions C62_emergency_refuted.

(** ** C63 Running at the start *)

(** The switch [chp_on_at_start] has no effect on the power delivered: in the first row the
    electric power is zero, for every plant and every input. *)
Theorem C63_on_at_start_refuted : forall P i start,
  chp_par_ok P -> 0 <= i_t i -> 0 < i_dt i ->
  h_Pel (chp_step P (chp_init P true start) i) = 0.
Proof.
  intros P i start HP Ht Hdt.
  assert (Hlow : 0 < p_low P) by apply HP. assert (Hon : 0 < p_on P) by apply HP.
  set (s := chp_init P true start).
  destruct (step_keeps P s i) as (K1&K2&K3&K4&K5&K6&K7).
  change (chp_step P s i) with (chp_outputs P (chp_process P i (decide P i s))) in *.
  destruct (out_forms P HP (chp_process P i (decide P i s))) as (_&_&->&_).
  destruct (process_keeps P i (decide P i s)) as (_&Q2&Q3&_&Q5&Q6&_&_).
  destruct (h_on (decide P i s)) eqn:E.
  - assert (D : decide P i s = chp_protect i
      (set_sw s (asked s i) 1 true (i_t i + i_dt i) (h_down s) true (h_stopping s)) /\
      overtemp (i_T i) = false).
    { unfold decide, chp_switch in *. fold (asked s i) in *.
      destruct (Req_EM_T (h_row s) 0) as [z|z]; [|exfalso; apply z; reflexivity].
      destruct (rlt (asked s i) (p_low P)); [cbn in E; discriminate|].
      destruct (rlt (i_t i + i_dt i - h_down s) (p_off P)); cbn [orb] in *;
        [cbn in E; discriminate|].
      destruct (overtemp (i_T i)) eqn:O; [cbn in E; discriminate|]. auto. }
    destruct D as [D O].
    assert (F : h_fel (chp_process P i (decide P i s)) = 0).
    { rewrite D. unfold chp_protect. rewrite O, andb_false_r.
      unfold chp_process. cbn [set_sw h_row h_mod h_bin h_on h_up h_down h_exc h_starting
        h_stopping h_fth h_fel h_fgas h_fdown h_rem h_last h_dQ h_Pel h_Pgas].
      unfold s. cbn [chp_init h_down h_fdown h_stopping h_fth h_fel h_fgas h_rem].
      assert (R1 : rlt (- p_on P - 1) (i_t i + i_dt i) = true) by (apply rlt_true; lra).
      assert (R2 : rlt off_perc 0 = false) by (apply rlt_false; unfold off_perc; lra).
      rewrite R1, R2. replace (i_t i + i_dt i - (i_t i + i_dt i) + 0) with 0 by lra.
      assert (R3 : rlt on_perc (clip01 (chp_startup_th 0)) = false).
      { apply rlt_false. rewrite clip01_id by (pose proof (th_range 0); lra).
        rewrite C23_startup_ex. unfold on_perc. lra. }
      rewrite R3. cbn [set_fac h_fel].
      unfold chp_startup_el. rewrite lim_start. unfold clip01.
      destruct (Rlt_dec (- 3.6832212021813398e-9) 0); [reflexivity|lra]. }
    rewrite F. ring.
  - assert (B : h_bin (decide P i s) = 0).
    { destruct (decide_sane P Hlow ltac:(apply HP) i s (init_sane P true start) Hdt)
        as [(A&_)|(_&A)]; [congruence|exact A]. }
    rewrite Q3, B. ring.
Qed.
Example C63_on_at_start_refuted_ex :
  h_Pel (chp_init exP true 1) = 0 /\ h_on (chp_init exP true 1) = true /\
  h_row (chp_step exP (chp_init exP true 1) (mkChpIn 0 600 (Some 1) [60])) = 1.
Proof.
  split; [reflexivity|]. split; [reflexivity|].
  destruct (start_fwd exP (chp_init exP true 1) (mkChpIn 0 600 (Some 1) [60])) as (A&_);
    try (cbn; lra).
  - apply cool60. reflexivity.
  - rewrite A. reflexivity.
Qed.
Print Assumptions C63_on_at_start_refuted.

(** During start-up neither the electrical nor the thermal factor exceeds what the gas supplies at
    the efficiencies of the data sheet (32.733 % and 63.34 %), nor do both together exceed it. *)
Theorem C23_startup_energy : forall t, 0 <= chp_startup_el t ->
  chp_startup_el t <= 0.32733 * chp_startup_gas t /\ chp_startup_th t <= 0.6334 * chp_startup_gas t /\
  chp_startup_el t + chp_startup_th t <= 0.6334 * chp_startup_gas t.
Proof.
  intros t E. pose proof (th_range t) as [T _]. unfold chp_startup_gas. 
  set (e := chp_startup_el t) in *. set (h := chp_startup_th t) in *. clearbody e h.
  unfold Rdiv. repeat split; lra.
Qed.
Print Assumptions C23_startup_energy.
Example C23_startup_energy_ex : 0 < chp_startup_el 1.
Proof. unfold chp_startup_el, lim_growth. rewrite Rpower_1 by lra. lra. Qed.
