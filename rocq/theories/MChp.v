(** Model of the CHP plant: fitted curves, on/off state machine with timers, start-up and
    shut-down procedure and outputs.

    Code: /repo/multisim/precomp_funs.py 5478-5702 (curves);
    /repo/multisim/parts/chp_plant.py [CHPPlant.__init__] (47-458) and the state machine in
    [CHPPlant.get_diff] (675-927).  The remainder of [get_diff] (the pipe differential with a
    heat source) is the heated pipe of [MDiff]. *)
From Coq Require Import Reals List Arith Bool.
Import ListNotations.
Open Scope R_scope.

(** precomp_funs.py 5478-5501; [k ** x] for positive [k]. *)
Definition lim_growth (x s b0 k : R) : R := s - (s - b0) * Rpower k x.

(** 5505-5537 with the default parameters. *)
Definition chp_startup_th (t : R) : R :=
  1 / (1 + (1 / 4.3715647889609857e-4 - 1) * exp (- 8.61423130773867e-3 * 1 * t)).

(** 5541-5579. *)
Definition chp_startup_el (t : R) : R :=
  lim_growth t 4.6611096613889975 (- 3.6832212021813398e-9) 0.9997484824090741.

(** 5583-5606. *)
Definition chp_startup_gas (t : R) : R :=
  chp_startup_el t / 0.32733 + chp_startup_th t / 0.6334.

(** 5610-5641. *)
Definition chp_thermal_power (m : R) : R := lim_growth m 0.60275 0.972917 3.5990506789130166.

(** 5645-5674. *)
Definition chp_gas_power (m : R) : R :=
  lim_growth m (- 1.17) 0.995828402366862 1.9507547298681704.

(** 5678-5702. *)
Definition chp_shutdown_th (t : R) : R :=
  - 1.2532286835042036e-9 * (t - 927.5198588530006) ^ 3.

(** Plant parameters (chp_plant.py 142-255). *)
Record chp_par := mkChpPar {
  p_pow : R;                    (* chp_power_el *)
  p_p2h : R; p_eta : R;         (* p2h_ratio, eta_el *)
  p_low : R; p_upp : R;         (* _mod_lower, _mod_upper; the latter is never used *)
  p_ramp : R;                   (* _max_ramp_el *)
  p_off : R; p_on : R;          (* _min_off_time, _min_on_time *)
  p_nsteps : nat                (* idx_on, length of _startuptsteps (441-448) *)
}.

(** The assertions of [__init__] on these values with default [eta_sum]. *)
Definition chp_par_ok (P : chp_par) : Prop :=
  0 < p_pow P /\ 0 < p_p2h P < 1 /\ 0 < p_eta P < 1 /\
  p_eta P + p_eta P / p_p2h P <= 0.961 /\
  0 < p_low P < p_upp P /\ p_upp P <= 1 /\ 0 < p_ramp P <= 1 /\ 0 < p_off P /\ 0 < p_on P.

(** Constants (240-241, 286, 316-317). *)
Definition T_in_max : R := 75.
Definition T_emergency : R := 110.
Definition exc_time : R := 120.
Definition on_perc : R := 0.999.
Definition off_perc : R := 0.01.

Record chp := mkChp {
  h_row : R;                    (* _chp_state[stepnum - 1] *)
  h_mod : R;                    (* _power_modulation[0], the actuator value *)
  h_bin : R;                    (* _bin_pow_fac *)
  h_on : bool;                  (* _chp_on *)
  h_up : R; h_down : R;         (* _startup_at_time, _shutdown_at_time *)
  h_exc : R;                    (* _dt_time_temp_exc *)
  h_starting : bool; h_stopping : bool;  (* _startup_in_progress, _shutdown_in_progress *)
  h_fth : R; h_fel : R; h_fgas : R;      (* start-up factors *)
  h_fdown : R;                  (* _shutdown_factor_th *)
  h_rem : R;                    (* _remaining_heat *)
  h_last : R;                   (* _last_dQ *)
  h_dQ : R; h_Pel : R; h_Pgas : R        (* outputs *)
}.

(** State after construction and initialisation of the result arrays (258-321, 560-564);
    [start] is [start_modulation] or [const_val]. *)
Definition chp_init (P : chp_par) (on_at_start : bool) (start : R) : chp :=
  if on_at_start then
    mkChp 0 start 1 true (- p_on P) (- p_on P - 1) 0 false false 1 1 1 0 0 0 0 0 0
  else
    mkChp 0 start 0 false 0 (- p_off P - 1) 0 true false 0 0 0 0 0 0 0 0 0.

(** What a call of [get_diff] sees in a new step: stored time of the previous row, step size of
    this attempt, value written by a controller or time series since the last step (none for
    a constant value, which is written once: simenv.py 1193-1202), temperatures of the part
    (cell 0 is the return flow). *)
Record chp_in := mkChpIn {
  i_t : R; i_dt : R; i_ctl : option R; i_T : list R
}.

Definition any_above (lim : R) (T : list R) : bool :=
  existsb (fun x => if Rlt_dec lim x then true else false) T.
Definition rlt (a b : R) : bool := if Rlt_dec a b then true else false.

Definition overtemp (T : list R) : bool :=
  rlt T_in_max (nth 0 T 0) || any_above T_emergency T.

(** Record with new modulation, binary factor, on flag, times and progress flags. *)
Definition set_sw (s : chp) (m b : R) (on : bool) (up down : R) (st sp : bool) : chp :=
  mkChp (h_row s) m b on up down (h_exc s) st sp (h_fth s) (h_fel s) (h_fgas s) (h_fdown s)
        (h_rem s) (h_last s) (h_dQ s) (h_Pel s) (h_Pgas s).

(** Switching logic (681-744): modulation range, minimum on and off time, ramp. *)
Definition chp_switch (P : chp_par) (i : chp_in) (s : chp) : chp :=
  let now := i_t i + i_dt i in
  let m := match i_ctl i with Some c => c | None => h_mod s end in
  let last := h_row s in
  let was := if Req_EM_T last 0 then false else true in
  if rlt m (p_low P) then
    if was then
      if rlt (now - h_up s) (p_on P) then
        (* minimum run time not reached: keep at minimum modulation *)
        set_sw s (p_low P) 1 true (h_up s) (h_down s) (h_starting s) (h_stopping s)
      else set_sw s m 0 false (h_up s) now (h_starting s) true
    else set_sw s m 0 false (h_up s) (h_down s) (h_starting s) (h_stopping s)
  else
    if was then
      let diff := last - m in
      let m' := if rlt (p_ramp P) (Rabs diff / i_dt i) then
                  (if Rle_dec diff 0 then last + p_ramp P * i_dt i
                   else last - p_ramp P * i_dt i)
                else m in
      set_sw s m' 1 true (h_up s) (h_down s) (h_starting s) (h_stopping s)
    else
      if rlt (now - h_down s) (p_off P) || overtemp (i_T i) then
        set_sw s 0 0 false (h_up s) (h_down s) (h_starting s) (h_stopping s)
      else set_sw s m 1 true now (h_down s) true (h_stopping s).

(** Over-temperature protection (745-770). *)
Definition chp_protect (i : chp_in) (s : chp) : chp :=
  let upd m b on down sp e :=
    mkChp (h_row s) m b on (h_up s) down e (h_starting s) sp (h_fth s) (h_fel s) (h_fgas s)
          (h_fdown s) (h_rem s) (h_last s) (h_dQ s) (h_Pel s) (h_Pgas s) in
  if h_on s && overtemp (i_T i) then
    if rlt exc_time (h_exc s) || any_above T_emergency (i_T i) then
      upd 0 0 false (i_t i + i_dt i) true (h_exc s)
    else upd (h_mod s) (h_bin s) (h_on s) (h_down s) (h_stopping s) (h_exc s + i_dt i)
  else upd (h_mod s) (h_bin s) (h_on s) (h_down s) (h_stopping s) 0.

Definition clip01 (x : R) : R := if Rlt_dec x 0 then 0 else if Rlt_dec 1 x then 1 else x.

(** Index of the entry of [l] closest to [x] (first one), [np.argmin(np.abs(l - x))]. *)
Fixpoint argmin_abs (l : list R) (x best : R) (ib i : nat) : nat :=
  match l with
  | [] => ib
  | y :: l' =>
      if Rlt_dec (Rabs (y - x)) best then argmin_abs l' x (Rabs (y - x)) i (S i)
      else argmin_abs l' x best ib (S i)
  end.

(** [_startuptsteps] (441-449): thermal start-up factor at full seconds 1 .. idx_on. *)
Definition startuptsteps (n : nat) : list R := map (fun k => chp_startup_th (INR k)) (seq 1 n).

Definition set_fac (s : chp) (st sp : bool) (fth fel fgas fdown rem : R) : chp :=
  mkChp (h_row s) (h_mod s) (h_bin s) (h_on s) (h_up s) (h_down s) (h_exc s) st sp
        fth fel fgas fdown rem (h_last s) (h_dQ s) (h_Pel s) (h_Pgas s).

(** Start-up and shut-down procedure (778-855). *)
Definition chp_process (P : chp_par) (i : chp_in) (s : chp) : chp :=
  let now := i_t i + i_dt i in
  if rlt (h_down s) (h_up s) then
    let hot := rlt off_perc (h_fdown s) in
    let rem := if hot then
        INR (argmin_abs (startuptsteps (p_nsteps P)) (h_fdown s)
               (Rabs (chp_startup_th 1 - h_fdown s)) 0 0)
      else h_rem s in
    let fdown := if hot then 0 else h_fdown s in
    let sp := if hot then false else h_stopping s in
    let dur := now - h_up s + rem in
    if h_starting s then
      let fth := clip01 (chp_startup_th dur) in
      let fel := clip01 (chp_startup_el dur) in
      let fgas := clip01 (chp_startup_gas dur) in
      if rlt on_perc fth then set_fac s false sp 1 1 1 fdown 0
      else set_fac s true sp fth fel fgas fdown rem
    else set_fac s false sp (h_fth s) (h_fel s) (h_fgas s) fdown rem
  else
    if h_stopping s then
      let f := chp_shutdown_th (now - h_down s) in
      if rlt f off_perc then
        set_fac s (h_starting s) false (h_fth s) (h_fel s) (h_fgas s) 0 (h_rem s)
      else set_fac s (h_starting s) true (h_fth s) (h_fel s) (h_fgas s) f (h_rem s)
    else s.

(** Outputs (857-886, 896-899) and the stored row (772-775). *)
Definition chp_outputs (P : chp_par) (s : chp) : chp :=
  let p2h := (1 / chp_thermal_power 1) / p_p2h P in
  let eta := (1 / chp_gas_power 1) / p_eta P in
  let dQ := if h_stopping s then h_last s * h_fdown s
            else h_bin s * chp_thermal_power (h_mod s) * p_pow P * h_fth s * p2h in
  let Pel := h_mod s * p_pow P * h_fel s * h_bin s in
  let Pgas := h_fgas s * h_bin s * eta * chp_gas_power (h_mod s) * p_pow P in
  mkChp (h_bin s * h_mod s) (h_mod s) (h_bin s) (h_on s) (h_up s) (h_down s) (h_exc s)
        (h_starting s) (h_stopping s) (h_fth s) (h_fel s) (h_fgas s) (h_fdown s) (h_rem s)
        (if h_stopping s then h_last s else dQ) dQ Pel Pgas.

(** First call of [get_diff] in a step.  The row stored at 772-775 is written before the
    procedure; modulation and binary factor do not change in between. *)
Definition chp_step (P : chp_par) (s : chp) (i : chp_in) : chp :=
  chp_outputs P (chp_process P i (chp_protect i (chp_switch P i s))).

(** Calls of [get_diff] within one solver step: predictor and corrector call of every attempt.
    [_process_flows] is set once per step (simenv.py 2706-2708) and cleared by the first call
    (chp_plant.py 901-909), so later calls only repeat the outputs (857-899). *)
Fixpoint chp_calls (P : chp_par) (flag : bool) (s : chp) (calls : list chp_in) : chp :=
  match calls with
  | [] => s
  | i :: l => chp_calls P false (if flag then chp_step P s i else chp_outputs P s) l
  end.

(** State after [k] steps with the given inputs. *)
Fixpoint chp_at (P : chp_par) (s0 : chp) (ins : nat -> chp_in) (k : nat) : chp :=
  match k with
  | O => s0
  | S k' => chp_step P (chp_at P s0 ins k') (ins k')
  end.
