(** Model of how a part that can be controlled gets its value when no controller acts on it.

    Code (all under /repo/multisim): simenv.py [_initialize_actuator] (1130-1232), check in
    [_build_simenv] (4571-4582); controls.py (79-81, 792); parts/pump.py [init_part] (222-325),
    parts/mixingvalve.py [init_part] (272-393), parts/pipe_with_pump.py [init_part] (91-125),
    parts/pipe_with_valve.py [init_part] (166-189), parts/chp_plant.py (419-437, 494-501),
    parts/heated_pipe.py (158-180, 190-192).

    Simplifications: of the keyword arguments only those are kept which these functions read;
    materials, geometry and flue gas arguments are taken to be right.  Whether
    [assign_boundary_cond] takes a series is one flag of the series (see C37, C134, C177 for what
    it checks and does). *)
From Coq Require Import Reals List Bool String.
Import ListNotations.
Local Open Scope R_scope.

(** A keyword argument that is compared with [is True] and [is False]: not given, one of the two,
    anything else ([0], [None], [numpy.False_]). *)
Inductive flag := Absent | IsTrue | IsFalse | Neither (truthy : bool).

(** Values: a number ([int] or [float]), a NumPy array with two elements, anything else. *)
Inductive value := Number (x : R) | Two (a b : R) | Other.

(** A pandas object: is it a [Series], has it a [DatetimeIndex] of the right type, is it taken by
    [assign_boundary_cond]. *)
Record series := { s_id : nat; s_series : bool; s_stamped : bool; s_taken : bool }.

Record kwargs := {
  k_start : value;                 (* start_massflow, port_A_init, start_portA_opening, start_modulation *)
  k_no_control : flag; k_ctrl_required : flag;
  k_dm_const : option value; k_const_val : option value;
  k_dm_given : option series; k_time_series : option series; k_val_given : option series;
  k_limits : option (value * value);   (* lower_limit, upper_limit *)
  k_maximum_flow : option value }.

(** The controllable parts. *)
Inductive kind := Pump | PipeWithPump | Valve3w | PipeWith3wValve | CHPPlant | HeatedPipe.

(** After [init_part]: the array that a controller would write, the series bound to an attribute
    and index, [control_req], [ctrl_defined], the limits. *)
Record part := { cv : list R; bound : list (string * nat * nat); req : bool; defined : bool;
                 lims : option (R * R) }.

Definition num (v : value) : option R := match v with Number x => Some x | _ => None end.

(** [np.array([lower, upper], dtype=np.float64)] *)
Definition lim_array (l : option (value * value)) : option (R * R) :=
  match l with
  | Some (Number a, Number b) => Some (a, b)
  | _ => None
  end.
Definition lt (a b : R) : bool := if Rlt_dec a b then true else false.
Definition le (a b : R) : bool := if Rle_dec a b then true else false.

(** [self._models.assign_boundary_cond(..., variable_name=var, array_index=0)] *)
Definition bind (var : string) (s : series) (p : part) : option part :=
  if s_stamped s && s_taken s then
    Some {| cv := cv p; bound := bound p ++ [(var, 0%nat, s_id s)]; req := req p; defined := defined p;
            lims := lims p |}
  else None.
Definition set_first (x : R) (l : list R) : list R := match l with [] => [] | _ :: r => x :: r end.
Definition set_cv (l : list R) (p : part) : part :=
  {| cv := l; bound := bound p; req := req p; defined := defined p; lims := lims p |}.
Definition set_lims (l : R * R) (p : part) : part :=
  {| cv := cv p; bound := bound p; req := req p; defined := defined p; lims := Some l |}.
Definition free (p : part) : part :=
  {| cv := cv p; bound := bound p; req := false; defined := true; lims := lims p |}.
Definition fresh (l : list R) : part :=
  {| cv := l; bound := []; req := true; defined := false; lims := None |}.

(** simenv.py 1130-1232; [None] is an exception. *)
Definition initialize_actuator (var : string) (k : kwargs) (p : part) : option part :=
  match k_ctrl_required k with
  | Absent | IsTrue => option_map (fun l => set_lims l p) (lim_array (k_limits k))
  | IsFalse =>
      match k_const_val k, k_time_series k with
      | Some v, None => option_map (fun x => free (set_cv (set_first x (cv p)) p)) (num v)
      | None, Some s => option_map free (bind var s p)
      | _, _ => None
      end
  | Neither _ => Some p
  end.

(** pump.py 230-325 *)
Definition init_pump (k : kwargs) : option part :=
  match num (k_start k) with
  | None => None
  | Some x0 =>
      let p := fresh [x0] in
      match k_no_control k with
      | Absent | IsFalse =>
          match lim_array (k_limits k) with
          | Some (a, b) => if lt a b then Some (set_lims (a, b) p) else None
          | None => None
          end
      | IsTrue =>
          match k_dm_const k with
          | Some v => option_map (fun x => free (set_cv [x] p)) (num v)
          | None =>
              match k_time_series k with
              | Some s => option_map free (bind "dm" s p)
              | None => match k_dm_given k with Some _ => Some (free p) | None => None end
              end
          end
      | Neither _ => Some p
      end
  end.

(** mixingvalve.py 272-393.  With [const_val] line 339 reads the attribute [pfarr], which no valve
    has (it is [pf_arr]); were it there, line 340 would raise.  With [val_given] line 365 raises. *)
Definition init_valve (k : kwargs) : option part :=
  match num (k_start k) with
  | None => None
  | Some x0 =>
      if le 0 x0 && le x0 1 then
        let p := fresh [x0; 1 - x0] in
        match k_no_control k with
        | Absent | IsFalse =>
            match lim_array (k_limits k) with
            | Some (a, b) => if le 0 a && lt a b && le b 1 then Some (set_lims (a, b) p) else None
            | None => None
            end
        | IsTrue =>
            match k_const_val k, k_val_given k with
            | Some _, _ => None
            | None, Some _ => None
            | None, None => Some p
            end
        | Neither _ => Some p
        end
      else None
  end.

(** pipe_with_pump.py 91-125 *)
Definition init_pipe_pump (k : kwargs) : option part :=
  match num (k_start k) with
  | None => None
  | Some x0 =>
      if le 0 x0 then
        match initialize_actuator "dm" k (fresh [x0]) with
        | None => None
        | Some p =>
            let asks := match k_ctrl_required k with
                        | Absent | IsTrue => true | IsFalse => false | Neither b => b end in
            if asks then match k_maximum_flow k with Some (Number _) => Some p | _ => None end
            else Some p
        end
      else None
  end.

(** pipe_with_valve.py 170-189: the name of the attribute is left to its default ['dm']. *)
Definition init_pipe_valve (k : kwargs) : option part :=
  match num (k_start k) with
  | None => None
  | Some x0 =>
      if le 0 x0 && le x0 1 then
        match initialize_actuator "dm" k (fresh [x0; 1 - x0]) with
        | None => None
        | Some p => match cv p with
                    | a :: _ => Some (set_cv [a; 1 - a] p)
                    | [] => None
                    end
        end
      else None
  end.

(** chp_plant.py 429-437 (limits, in [__init__]), 494-501 *)
Definition init_chp (k : kwargs) : option part :=
  match lim_array (k_limits k), num (k_start k) with
  | Some (a, b), Some x0 =>
      if le 0 a && lt a b && le 0 x0 && le x0 1 then
        initialize_actuator "_power_modulation" k (set_lims (a, b) (fresh [x0]))
      else None
  | _, _ => None
  end.

(** heated_pipe.py 158-180 (limits, in [__init__]); [init_part] (190-192) only calls that of the pipe. *)
Definition init_heater (k : kwargs) : option part :=
  match lim_array (k_limits k) with
  | Some (a, b) => if le 0 a && lt a b then Some (set_lims (a, b) (fresh [0])) else None
  | None => None
  end.

Definition init_part (c : kind) (k : kwargs) : option part :=
  match c with
  | Pump => init_pump k | PipeWithPump => init_pipe_pump k | Valve3w => init_valve k
  | PipeWith3wValve => init_pipe_valve k | CHPPlant => init_chp k | HeatedPipe => init_heater k
  end.

(** Building the environment without a controller for this part (simenv.py 4571-4582). *)
Definition build_alone (c : kind) (k : kwargs) : option part :=
  match init_part c k with
  | Some p => if req p && negb (defined p) then None else Some p
  | None => None
  end.
(** ... and with one (controls.py 81). *)
Definition build_controlled (c : kind) (k : kwargs) : option part :=
  match init_part c k with
  | Some p => if defined p then None else Some p
  | None => None
  end.
