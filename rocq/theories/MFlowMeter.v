(** Model of the flow readings of the meters.

    Code: /repo/multisim/_utility/meters.py [massflow] (252-290), [volumeflow] (292-332);
    /repo/multisim/simenv.py [_massflow_idx_from_temp_idx] (3378-3392), [_check_isinrange] (5765-5806);
    what is recorded: precomp_funs.py 115, 202, 242, 3648, parts/mixingvalve.py 655; parts/connector_3w.py 403-436 and
    precomp_funs.py 3274-3347 record temperatures only; [dm_invariant]: pipe.py 255, pump.py 138, hex_num.py 366,
    tes.py 334, pipe_branched.py 102, mixingvalve.py 183, connector_3w.py 175.

    Simplifications: real arithmetic; one row of the results, i.e. one step; names and resampling are left out (C50). *)
From Coq Require Import Reals List Bool Arith ZArith.
From Verif Require Import MFlow MWater.
Import ListNotations.
Open Scope R_scope.

(** Parts with their flows at the end of a step. *)
Inductive device :=
| Pipe (n : nat) (io : R)                                              (* pipes and pumps *)
| Vessel (n np : nat) (own : nat -> nat) (io : arr) (before : flows)   (* storages and branched pipes *)
| Exchanger (gp : nat) (sup dmd : R)                                   (* grid of supply, wall and demand cells *)
| Valve (io : arr)
| Connector (io : arr).

(** [T.size] *)
Definition size (d : device) : nat :=
  match d with Pipe n _ => n | Vessel n _ _ _ _ => n | Exchanger gp _ _ => 3 * gp | _ => 3 end.
Definition dm_invariant (d : device) : bool :=
  match d with Pipe _ _ | Exchanger _ _ _ => true | _ => false end.
(** The row of [res_dm] written in the step. *)
Definition recorded (d : device) : list R :=
  match d with
  | Pipe _ io => [io]
  | Vessel n np own io f => map (snd (process_flow_var n np own io f)) (seq 0 n)
  | Exchanger _ sup dmd => [sup; dmd]
  | Valve io => map io (seq 0 3)
  | Connector _ => [0; 0; 0]          (* as allocated *)
  end.

(** Indexing with an integer; negative indexes count from the end. *)
Definition py_get (l : list R) (i : Z) : option R :=
  if (0 <=? i)%Z then nth_error l (Z.to_nat i)
  else if (0 <=? Z.of_nat (length l) + i)%Z then nth_error l (Z.to_nat (Z.of_nat (length l) + i)) else None.

(** Reading of a flow meter at [cell]; [None]: an error is raised. *)
Definition flow_meter (d : device) (cell : Z) : option R :=
  if (cell <? Z.of_nat (size d))%Z then py_get (recorded d) (if dm_invariant d then 0%Z else cell) else None.

(** Reading of a volume flow meter (317-319); [T] is the flat row of temperatures.  The result grid of an exchanger has
    three dimensions, where [res[:, cell]] is a table of which no column can be made. *)
Definition volume_meter (d : device) (T : list R) (cell : Z) : option R :=
  match d with
  | Exchanger _ _ _ => None
  | _ => match flow_meter d cell, py_get T cell with
         | Some m, Some t => Some (m / rho_water t)
         | _, _ => None
         end
  end.
