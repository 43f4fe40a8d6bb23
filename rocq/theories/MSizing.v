(** Model of the sizes the predefined assemblies choose for pumps and pipes.

    Code modelled (all paths under /repo/multisim):
    - parts/part_modules/suppliers.py 87-92, 102-127, 134-138, 161-184 (CHP plant: pump, scaling of pipes, pipe of the
      plant, power estimate), 970-975, 994-995 (boiler)
    - parts/part_modules/consumers.py 86-87, 185-186, 211-212 (hot water pumps), 676-697, 790-794, 922-926 (storage loading),
      1367-1397 (valves of the heating circuit)
    - parts/pump.py 245-256 (limits are accepted), parts/pipe_with_valve.py 176-181 (start position)

    Simplifications: floats are exact reals.  A dictionary of settings is a record with an optional entry
    [pipe_specs]; pipe specifications are strings (the DN). *)
From Coq Require Import Reals List String.
Import ListNotations.
Open Scope R_scope.

(** [a / b]; [None]: ZeroDivisionError. *)
Definition quotient (a b : R) : option R := if Req_EM_T b 0 then None else Some (a / b).
Definition bind {A B : Type} (x : option A) (f : A -> option B) : option B := match x with Some a => f a | None => None end.
(** A pump from 0 to [u], pump.py 256. *)
Definition pump_limit (u : R) : option R := if Rlt_dec 0 u then Some u else None.

(** [chp_kwds] and the entry [off_val] of [chp_ctrl]. *)
Record chp_set := { power_el : R; eta_el : R; p2h : R; theta_ff : R; pipes : option string }.
(** suppliers.py 88-92, 134, 198-199. *)
Definition chp_thermal (k : chp_set) : option R := quotient (power_el k) (p2h k).
Definition chp_pump (k : chp_set) (off : R) : option R :=
  bind (chp_thermal k) (fun q => bind (quotient q ((theta_ff k - off) * 4180)) pump_limit).
(** 103-109. *)
Definition chp_scale (k : chp_set) (off : R) : option R :=
  bind (chp_thermal k) (fun q => quotient (q / 38700 * (825 / 10 - 73)) (theta_ff k - off)).
(** 135-138, 163-168. *)
Definition chp_estimate (k : chp_set) : option R :=
  bind (chp_thermal k) (fun core => bind (quotient (eta_el k) (p2h k)) (fun eta =>
  bind (quotient (power_el k) (eta_el k)) (fun lhv => Some (core + (lhv * (1108 / 1000) * eta - core) * (1 / 2))))).
(** 121-125: reference pipe of the plant and what is left of the caller's dictionary. *)
Definition chp_pipe (k : chp_set) : string * chp_set :=
  match pipes k with
  | Some d => (d, {| power_el := power_el k; eta_el := eta_el k; p2h := p2h k; theta_ff := theta_ff k; pipes := None |})
  | None => ("DN80"%string, k)
  end.
(** One call of the function: pump, scale, pipe; the dictionary afterwards. *)
Definition build_chp (k : chp_set) (off : R) : option (R * R * string) * chp_set :=
  let (d, k') := chp_pipe k in
  (bind (chp_pump k off) (fun u => bind (chp_scale k off) (fun f => Some (u, f, d))), k').
(** Several plants built one after the other with one dictionary. *)
Fixpoint build_all (k : chp_set) (offs : list R) : list (option (R * R * string)) :=
  match offs with [] => [] | o :: r => let (p, k') := build_chp k o in p :: build_all k' r end.

(** suppliers.py 970-975 and 995. *)
Definition boiler_scale (pth theta : R) : option R := bind (quotient (pth / 150000) (theta - 60)) (fun x => Some (x * (75 - 60))).
Definition boiler_pump (pth theta : R) : option R := bind (quotient pth (4180 * (theta - 60))) pump_limit.

(** consumers.py 86-87, 186, 212. *)
Definition hot_water_pump (mean : R) : option R := pump_limit (5 / 10 * (mean / (20426520552047665 / 1000000000000000000))).
Definition circulation_pump (mean : R) : option R := pump_limit (2 / 10 * (mean / (11555245060523046 / 100000000000000000))).

(** consumers.py 682-697; [hot], [circ]: mean flows of hot water and circulation, [ff]: [theta_ff_phwstore]. *)
Definition mean_power (hot circ : R) : R := (hot * (60 - 13) + circ * (60 - 55)) * 4180.
Definition load_max (p ff : R) : option R := bind (quotient (p * 5) (4180 * (ff - 55))) pump_limit.
Definition load_start (p ff : R) : option R := quotient p (4180 * (ff - 45)).
Definition store_max (p : R) : option R := bind (quotient (p * 5) (4180 * (60 + 15 / 100 - 53))) pump_limit.
Definition store_start (p : R) : option R := quotient p (4180 * (60 + 15 / 100 - 43)).

(** consumers.py 1370-1372, 1395-1397: limits and start position of the valves of the heating circuit; 771, 140 and
    suppliers.py 232-234, 279-281, 400-402: those of the others. *)
Definition heating_valves : list (R * R * R) := [(1 / 100, 99 / 100, 1); (1 / 100, 99 / 100, 1)].
Definition other_valves : list (R * R * R) :=
  [(0, 1, 32 / 100); (0, 1, 7 / 10); (1 / 100, 9 / 10, 15 / 100); (0, 1, 3 / 10); (1 / 100, 9 / 10, 15 / 100)].
