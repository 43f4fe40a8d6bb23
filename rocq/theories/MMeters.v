(** Model of the meters.

    Code: /repo/multisim/_utility/meters.py [Meters.heat_meter] (70-207), [temperature] (209-250),
    [massflow] (252-290), [volumeflow] (292-332), [_save_to_disk] (347-361); the vector of step
    sizes: /repo/multisim/simenv.py 4947-4952.

    Simplifications: real arithmetic; results are given as one row per stored step; resampling
    (340-345, pandas) is left out, i.e. [resample=False]; the checks of part and cell names
    come before and only raise.  The wide DataFrame [meters_df] has the same key (type, name) as the
    dictionary and is not modelled separately. *)
From Coq Require Import Reals List Bool String.
From Verif Require Import MWater MMpcCost MMpc.
Import ListNotations.
Open Scope string_scope.
Open Scope list_scope.
Open Scope R_scope.

(** ** Step sizes *)

(** [np.diff]. *)
Fixpoint diffs (ts : list R) : list R :=
  match ts with
  | a :: l => match l with b :: _ => (b - a) :: diffs l | [] => [] end
  | [] => []
  end.
(** simenv.py 4947-4952: "use last value twice". *)
Definition step_vec (ts : list R) : list R := diffs ts ++ [last (diffs ts) 0].

(** ** Heat meter *)

(** Row [k] of the results: mass flow, temperature of the warm and of the cold cell. *)
Record row := mkRow { w_m : R; w_ff : R; w_rf : R }.

Definition pos_only (v : R) : R := if Rlt_dec v 0 then 0 else v.

(** 141-146. *)
Definition flown_mass (dt : list R) (rows : list row) : list R :=
  cumsum (map2 Rmult (map w_m rows) dt).
Definition flown_volume (dt : list R) (rows : list row) : list R :=
  cumsum (map2 Rmult (map (fun r => w_m r / rho_water (w_rf r)) rows) dt).
(** 149-157. *)
Definition flown_mass_pos (dt : list R) (rows : list row) : list R :=
  cumsum (map2 Rmult (map (fun r => pos_only (w_m r)) rows) dt).
Definition flown_volume_pos (dt : list R) (rows : list row) : list R :=
  cumsum (map2 Rdiv (map2 Rmult (map (fun r => pos_only (w_m r)) rows) dt)
                    (map (fun r => rho_water (w_rf r)) rows)).
(** 159-165. *)
Definition heatflow (r : row) : R :=
  (w_ff r - w_rf r) * w_m r / 1000 * (cp_water (w_rf r) + cp_water (w_ff r)) / 2.
(** 167-177. *)
Definition flown_heat_MJ (dt : list R) (rows : list row) : list R :=
  map (fun v => v / 1000) (cumsum (map2 Rmult (map heatflow rows) dt)).
Definition flown_heat_kWh (dt : list R) (rows : list row) : list R :=
  map (fun v => v / (36 / 10)) (flown_heat_MJ dt rows).
Definition flown_heat_pos_MJ (dt : list R) (rows : list row) : list R :=
  map (fun v => v / 1000) (cumsum (map2 Rmult (map (fun r => pos_only (heatflow r)) rows) dt)).
Definition flown_heat_pos_kWh (dt : list R) (rows : list row) : list R :=
  map (fun v => v / (36 / 10)) (flown_heat_pos_MJ dt rows).

(** ** Registry *)

Inductive mtype := HeatMeter | Temperature | Massflow | Volumeflow.
Definition mtype_eqb (a b : mtype) : bool :=
  match a, b with
  | HeatMeter, HeatMeter | Temperature, Temperature | Massflow, Massflow
  | Volumeflow, Volumeflow => true
  | _, _ => false
  end.

Section Registry.
Context {D : Type}.

(** A Python dictionary. *)
Definition dict := list (string * D).
Fixpoint get (k : string) (d : dict) : option D :=
  match d with [] => None | (n, v) :: d => if String.eqb n k then Some v else get k d end.
Fixpoint set (k : string) (v : D) (d : dict) : dict :=
  match d with
  | [] => [(k, v)]
  | (n, w) :: d => if String.eqb n k then (n, v) :: d else (n, w) :: set k v d
  end.

(** [meters] (47-51) and the disk store, if any (key ['meters/' + name], 354-355). *)
Record registry := mkReg { g_mem : mtype -> dict; g_disk : option dict }.

(** The dictionary whose names are checked: 107, 223, 270, 310. *)
Definition checked (t : mtype) : mtype :=
  match t with Volumeflow => Massflow | t => t end.

(** [None]: AssertionError. *)
Definition add (t : mtype) (name : string) (data : D) (g : registry) : option registry :=
  match get name (g_mem g (checked t)) with
  | Some _ => None
  | None => Some (mkReg (fun u => if mtype_eqb u t then set name data (g_mem g u) else g_mem g u)
                        (option_map (set name data) (g_disk g)))
  end.

Definition empty_registry (disk : bool) : registry :=
  mkReg (fun _ => []) (if disk then Some [] else None).

(** A rejected call leaves everything as it is and the user carries on. *)
Definition try_add (g : registry) (c : mtype * string * D) : registry :=
  match add (fst (fst c)) (snd (fst c)) (snd c) g with Some g => g | None => g end.
Definition calls (g : registry) (l : list (mtype * string * D)) : registry :=
  fold_left try_add l g.
End Registry.
Arguments dict : clear implicits.
Arguments registry : clear implicits.
