(** Model of the storage content and the demand profiles of the model-predictive CHP controller.

    Code: /repo/multisim/parts/controllers.py [ModelPredCHP._tes_heat_content] (1657-1666),
    [ModelPredCHP._process_profiles] (1471-1580), [_longterm_opt_pred] (1807-1811), [_shortterm_opt] (2062-2071).

    Simplifications: real arithmetic; the storage temperatures are a list, the cell volume a scalar; a profile
    is a frame with an index of constant period (whole seconds), the checks of types, columns and NaN (1476-1487)
    are taken to pass; pandas' [resample], [mean] and [interpolate] are those of MResample; the period of
    optimisation [f] is a whole number of seconds.  The cumulated heat demand is in MMpc. *)
From Coq Require Import Reals List Bool Arith.
From Verif Require Import MOut MResample MWater MBC.
Import ListNotations.
Open Scope R_scope.

(** 1657-1666: content of one cell in kWh, and the sum. *)
Definition cell_content (V T : R) : R :=
  T * (1 / 3600000) * V * (cp_water T + cp_water 0) / 2 * (rho_water T + rho_water 0) / 2.
Definition heat_content (V : R) (temps : list R) : R := lsum (map (cell_content V) temps).

(** ** Profiles *)

(** Index: first time (seconds after midnight), period, number of entries; the columns. *)
Inductive column := HeatDmd | PelBase | PelUser | PelNoms.
Record frame := mkFrame { p_t0 : nat; p_d : nat; p_n : nat; p_val : column -> nat -> R }.
Definition series (p : frame) (c : column) : obs :=
  map (fun i => (p_t0 p + i * p_d p, p_val p c i)%nat) (seq 0 (p_n p)).

Inductive answer :=
| Missing                (* KeyError of [kwds['silence_unit_warn']] *)
| Units                  (* ValueError: seems to be in kW *)
| Refused                (* AssertionError *)
| Taken (l : column -> list (option R)).

(** [prfls['pel_user'].max() < 1000] *)
Definition all_below (b : R) (l : list R) : bool := forallb (fun v => if Rlt_dec v b then true else false) l.
(** 1526: [silence] is [None] when the key has not been given; [and] looks at it only when the left side holds. *)
Definition unit_check (silence : option bool) (p : frame) (rest : answer) : answer :=
  if all_below 1000 (map snd (series p PelUser)) then
    match silence with None => Missing | Some false => Units | Some true => rest end
  else rest.

(** 1513-1555 for [which='opt']. *)
Definition process_opt (silence : option bool) (f : nat) (tf : R) (p : frame) : answer :=
  if (f <? p_d p)%nat then Refused
  else unit_check silence p
    (if Rle_dec tf (INR ((length (bins f (series p PelUser)) - 1) * f)) then Taken (fun c => by_means f (series p c))
     else Refused).
(** 1519-1523, 1556-1561 for [which='ctrl']. *)
Definition process_ctrl (silence : option bool) (tf : R) (p : frame) : answer :=
  if (p_d p =? 1)%nat then
    unit_check silence p
      (if Rle_dec tf (INR ((p_n p - 1) * p_d p)) then Taken (fun c => map (fun o => Some (snd o)) (series p c)) else Refused)
  else Refused.

(** 1807-1811: the entries an optimisation with number [j] looks at. *)
Definition looked_at (size j : nat) (l : list (option R)) : list (option R) := firstn size (skipn j l).
(** 2067-2071: the entry used in a step at time [t]; [None] is an IndexError, [Some None] would be NaN. *)
Definition step_value (t : R) (l : list (option R)) : option (option R) := nth_error l (pyround t).
