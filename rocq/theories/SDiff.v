(** Specification vocabulary for the part differentials (C12-C16, C22). *)
From Coq Require Import Reals List Arith.
From Verif Require Import MFlow MWater MDiff SFlow.
Open Scope R_scope.

(** Heat capacity of cell [j]: its water and its share of the wall. *)
Definition capacity (g : geo) (Tx : arr) (j : nat) : R :=
  g_V g * (rho_water (Tx (S j)) * cp_water (Tx (S j))) + g_mw g.

(** Heat entering the part per second when the cells warm up at the rates [rate]. *)
Definition heat_rate (g : geo) (Tx rate : arr) : R :=
  rsum (g_n g) (fun j => capacity g Tx j * rate j).

(** Enthalpy of a kilogram of water as the code counts it. *)
Definition enthalpy (T : R) : R := cp_water T * T.

(** Enthalpy carried in through the ports by [io] (positive into the part) minus the enthalpy
    carried out, the latter at the temperature of the cell the port is located at. *)
Definition port_enthalpy (g : geo) (io Tx Tp : arr) : R :=
  rsum (g_np g) (fun i => Rmax 0 (io i) * enthalpy (Tp i)
                          - Rmax 0 (- io i) * enthalpy (Tx (S (g_own g i)))).

(** Signed port flows of a pipe with flow [io]: in at the first port, out at the second. *)
Definition through (io : R) : arr := fun i => match i with O => io | _ => - io end.

(** What the two ends of a pipe look like; sorted port positions of a branched part. *)
Definition pipe_ports (g : geo) : Prop :=
  g_np g = 2%nat /\ g_own g 0%nat = 0%nat /\ g_own g 1%nat = (g_n g - 1)%nat.
Definition branch_ports (g : geo) : Prop := (1 <= g_np g)%nat /\
  (forall i, (S i < g_np g)%nat -> (g_own g i <= g_own g (S i))%nat).

(** Flow arrays after any number of earlier evaluations. *)
Inductive flows_at (g : geo) : flows -> Prop :=
| fl_new : flows_at g flows0
| fl_invar io f : flows_at g f -> flows_at g (process_flow_invar (g_n g) (g_np g) io f)
| fl_var io f : flows_at g f -> flows_at g (fst (process_flow_var (g_n g) (g_np g) (g_own g) io f)).

(** Surface buffers after any number of earlier evaluations with water and ambient between
    0 and 100 degrees. *)
Definition in_range (g : geo) (Tx Tp : arr) (Tamb : R) : Prop :=
  (forall j, (j < g_n g)%nat -> 0 <= Tx (S j) <= 100) /\
  (forall i, (i < g_np g)%nat -> 0 <= Tp i <= 100) /\ 0 <= Tamb <= 100.
Inductive bufs_at (g : geo) : buf -> Prop :=
| bf_new : bufs_at g buf0
| bf_pipe io f Tx Tp Tamb b : bufs_at g b -> in_range g Tx Tp Tamb ->
    bufs_at g (buf_after (pipe_diff g io f Tx Tp Tamb b))
| bf_branched io f Tx Tp Tamb b : bufs_at g b -> in_range g Tx Tp Tamb ->
    bufs_at g (buf_after (branched_diff g io f Tx Tp Tamb b))
| bf_heated lo hi dQ io f Tx Tp Tamb b : bufs_at g b -> in_range g Tx Tp Tamb ->
    bufs_at g (buf_after (heated_diff g lo hi dQ io f Tx Tp Tamb b))
| bf_tes io f Tx Tp Tamb b : bufs_at g b -> in_range g Tx Tp Tamb ->
    bufs_at g (buf_after (tes_diff g io f Tx Tp Tamb b)).

(** Throughput of cell [j] during a step over its mass. *)
Definition courant (g : geo) (f : flows) (r : res) (dt : R) (j : nat) : R :=
  cell_in (f_top f) (f_bot f) (g_np g) (g_own g) (f_port f) j * dt / (g_V g * r_rho r j).
