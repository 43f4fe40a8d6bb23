(** Model of the values controllers see at their sensors.

    Code modelled (all paths under /repo/multisim):
    - controls.py 952-1086 [__check_args] (position of a sensor), 191-207 ([pv]), 238-258 ([_ref]), 885-891 (use)
    - parts/controllers.py 586-597, 648-651 (second sensor)
    - positions of the ports: parts/pipe.py 174, parts/pump.py 84, parts/tes.py 259 and 764-767, parts/mixingvalve.py 96,
      parts/connector_3w.py 93, parts/heatexchanger.py 165-167 and 236-241, parts/hex_num.py 194 and 277-295,
      parts/hex_condensing_polynome.py 185 and 228-235

    Simplifications: the temperature array is a function of row and column; an array with one axis has one column and
    [g_flat = true].  Port indices are given for each port name.  The slice is a view: its value at any time is that
    of the array at this time, so the array is a parameter. *)
From Coq Require Import List String ZArith Bool Reals.
Import ListNotations.
Open Scope string_scope.
Open Scope list_scope.

(** Shape of the array and position of the ports in the flattened array. *)
Record grid := { g_rows : nat; g_cols : nat; g_flat : bool; g_ports : list (string * nat) }.

(** One axis: [n] cells and ports at given cells. *)
Definition line (n : nat) (ports : list (string * nat)) : grid :=
  {| g_rows := n; g_cols := 1; g_flat := true; g_ports := ports |}.
Definition pipe_grid (n : nat) : grid := line n [("in", 0); ("out", n - 1)]%nat.
Definition storage_grid (n : nat) (new : list (string * nat)) : grid := line n (("in", 0) :: new ++ [("out", n - 1)])%nat.
Definition valve_grid : grid := line 3 [("A", 0); ("B", 1); ("AB", 2)]%nat.
Definition connector_grid : grid := line 3 [("A", 0); ("B", 1); ("C", 2)]%nat.
Definition ntu_grid : grid := line 4 [("sup_in", 0); ("sup_out", 1); ("dmd_in", 2); ("dmd_out", 3)]%nat.
(** Two axes. *)
Definition exchanger_grid (n : nat) : grid :=
  {| g_rows := n; g_cols := 3; g_flat := false;
     g_ports := [("sup_in", 0); ("sup_out", (n - 1) * 3); ("dmd_out", 2); ("dmd_in", n * 3 - 1)]%nat |}.
Definition condensing_grid : grid :=
  {| g_rows := 2; g_cols := 2; g_flat := false;
     g_ports := [("water_in", 0); ("water_out", 2); ("fluegas_in", 1); ("fluegas_out", 3)]%nat |}.

(** Place of a sensor as given by the user: a name, an integer, anything else. *)
Inductive place : Set := Named : string -> place | Cell : Z -> place | Other : place.
Fixpoint find_port (l : list (string * nat)) (q : string) : option nat :=
  match l with [] => None | (n, i) :: r => if String.eqb n q then Some i else find_port r q end.

(** controls.py 1029-1086; [None]: an exception. *)
Definition position (g : grid) (p : place) : option nat :=
  match p with
  | Named q => find_port (g_ports g) q
  | Cell z =>
    if ((0 <=? z) && (z <? Z.of_nat (g_rows g)))%Z || ((- Z.of_nat (g_rows g) <=? z) && (z <? 0))%Z
    then Some (Z.to_nat (if (z >? -1)%Z then z else Z.of_nat (g_rows g) + z)) else None
  | Other => None
  end%bool.

(** [T[i:i+1:1]]: rows of the slice. *)
Definition view (g : grid) (T : nat -> nat -> R) (i : nat) : list (list R) :=
  if Nat.ltb i (g_rows g) then [map (T i) (seq 0 (g_cols g))] else [].
(** [pv[0]] as a number; [None]: there is no such element or it is an array. *)
Definition number (g : grid) (v : list (list R)) : option R :=
  if g_flat g then match v with [x :: _] => Some x | _ => None end else None.
(** What the controller works with. *)
Definition sensed (g : grid) (T : nat -> nat -> R) (p : place) : option R :=
  match position g p with Some i => number g (view g T i) | None => None end.
