(** * The shapes of the attributes of the parts, as they are allocated (vocabulary of C176). *)
From Coq Require Import ZArith List Bool String.
From Verif Require Import MShapes.
Import ListNotations.
Local Open Scope Z_scope.

(** Lengths that depend on the sizes of the model: a constant and multiples of the sizes. *)
Record lin := mkL { l_c : Z; l_v : list Z }.
Definition sizes := nat -> Z.
Fixpoint leval_from (v : sizes) (k : nat) (l : list Z) : Z :=
  match l with [] => 0 | c :: l => c * v k + leval_from v (S k) l end.
Definition leval (v : sizes) (l : lin) : Z := l_c l + leval_from v 0 (l_v l).

(** The sizes: cells of the part, its ports, ports of all parts, rows of the result arrays, heated cells. *)
Definition N (v : sizes) := v 0%nat.
Definition P (v : sizes) := v 1%nat.
Definition Q (v : sizes) := v 2%nat.
Definition Rows (v : sizes) := v 3%nat.
Definition H (v : sizes) := v 4%nat.
Definition k_ (z : Z) : lin := mkL z [].
Definition n_ (c z : Z) : lin := mkL z [c].                (* c * N + z *)
Definition p_ (z : Z) : lin := mkL z [0; 1].               (* P + z *)
Definition q_ (z : Z) : lin := mkL z [0; 0; 1].            (* Q + z *)
Definition r_ (z : Z) : lin := mkL z [0; 0; 0; 1].         (* Rows + z *)
Definition h_ : lin := mkL 0 [0; 0; 0; 0; 1].              (* H *)

Inductive decl := Scalar | Array (l : list lin) | Index (len lo hi : lin).
Definition has_shape (v : sizes) (d : decl) (x : value) : Prop :=
  match d with
  | Scalar => x = VArr []
  | Array l => x = VArr (map (leval v) l)
  | Index n lo hi => exists l, x = VIdx l /\ Z.of_nat (List.length l) = leval v n /\ Forall (fun z => leval v lo <= z <= leval v hi) l
  end.
Definition table := list (string * decl).
Fixpoint find (t : table) (s : string) : option decl :=
  match t with [] => None | (a, d) :: r => if String.eqb s a then Some d else find r s end.
(** The attributes of the part have the shapes of the table. *)
Definition shaped (t : table) (v : sizes) (a : attributes) : Prop :=
  forall s d, find t s = Some d -> exists x, a s = Some x /\ has_shape v d x.

Local Open Scope string_scope.
Local Open Scope list_scope.
Definition scalars (l : list string) : table := map (fun s => (s, Scalar)) l.
Definition arrays (d : list lin) (l : list string) : table := map (fun s => (s, Array d)) l.

(** The environment: ports_all (simenv.py 838), stepnum (201, 4673), one-cell arrays (224, 376-378, 444), the ambient
    temperature (1600), _port_link_idx: one place in ports_all for each port (simenv.py 1779-1781). *)
Definition environment : table :=
  arrays [k_ 1] ["_vN_max_step"; "_max_factor"; "_step_stable"; "_T_amb"] ++ arrays [q_ 0] ["ports_all"] ++
  [("stepnum", Index (k_ 1) (k_ 0) (r_ (-1)))].
Definition links (p : lin) : table := [("_port_link_idx", Index p (k_ 0) (q_ (-1)))].
(** Numbers of a part that are not arrays. *)
Definition numbers : table :=
  scalars ["timestep"; "_lam_wll"; "_lam_ins"; "_mcp_wll"; "_UA_tb_wll"; "grid_spacing"; "_d_i"; "_flow_length"; "_flow_length_lid";
    "_r_total"; "_r_ln_wll"; "_r_ln_ins"; "_r_rins"; "_s_wll"; "_s_ins"; "A_cell"; "V_cell"; "_A_shell_i"; "_A_shell_ins"; "_vertical";
    "_vertical_lid"; "part_id"; "_heat_mult"; "kind"; "_cp_wll"; "_UA_dim1_wll"; "_d_h"; "_s_plate"; "_dist_min"; "A_channel";
    "V_cell_fld"; "A_plate_eff"; "_num_channels_sup"; "_num_channels_dmd"; "_num_A"].

(** Pipe (pipe.py 102-217, 261, 280-281; res_dm simenv.py 4684-4686): [p] ports, [io] flows in _dm_io. *)
Definition pipe (p io res_w : lin) : table :=
  environment ++ links p ++ numbers ++
  arrays [n_ 1 2] ["_T_ext"; "_cp_T"] ++ arrays [n_ 1 1] ["_UA_tb"] ++ arrays [n_ 1 (-1)] ["_lam_mean"] ++
  arrays [n_ 1 0] ["_T_s"; "_dm_top"; "_dm_bot"; "_lam_T"; "_rho_T"; "_ny_T"; "_mcp"; "_rhocp"; "_ui"; "_alpha_i"; "_alpha_inf";
    "_UA_amb_shell"; "_cell_dist"; "dT_cond"; "dT_adv"; "dT_total"] ++
  arrays [p] ["_T_port"; "_dm_port"; "_cp_port"; "_lam_port_fld"; "_UA_port"; "_UA_port_wll"; "_port_gsp"; "_port_subs_gsp"; "_A_p_fld_mean"] ++
  arrays [io] ["_dm_io"] ++ arrays [k_ 1] ["_process_flows"; "_stability_breaches"] ++
  arrays [r_ 0; res_w] ["res_dm"] ++ [("_port_own_idx", Index p (k_ 0) (n_ 1 (-1)))].
Definition t_pipe : table := pipe (k_ 2) (k_ 1) (k_ 1).
(** HeatedPipe, CHPPlant (heated_pipe.py 53-60, 152-158, 195; chp_plant.py 256-258, 322, 417-419, 562): H heated cells. *)
Definition t_heated : table :=
  t_pipe ++ arrays [k_ 1] ["_dQ_heating"] ++ arrays [r_ 0; k_ 1] ["res_dQ"] ++ arrays [n_ 1 0] ["dT_heat"] ++
  arrays [h_] ["_dT_heated"; "_mcp_heated"].
(** Pipes with further ports (pipe_branched.py 52-88, pipe_with_valve.py 77-128, simenv.py 1054-1068): P ports, one flow for
    each in _dm_io, one for each cell in dm. *)
Definition t_branched : table := pipe (p_ 0) (p_ 0) (n_ 1 0) ++ arrays [n_ 1 0] ["dm"].
(** Tes (tes.py 175-300, 340, 748-790). *)
Definition t_tes : table := t_branched ++ arrays [k_ 2] ["_T_s_lid"; "_UA_amb_lid"; "_lid_top"].
(** HexNum (hex_num.py 155-158, 193-290, 503-557): the cells of supply side, wall and demand side are the columns. *)
Definition t_hexnum : table :=
  environment ++ links (k_ 4) ++ numbers ++
  arrays [n_ 1 2; k_ 5] ["_T_ext"] ++
  arrays [n_ 1 0; k_ 3] ["_ui"; "_mcp"; "_rhocp"; "_lam_T"; "_UA_amb_shell"; "dT_cond"; "dT_adv"; "dT_total"] ++
  arrays [n_ 1 0; k_ 2] ["_lam_fld"; "_alpha_i"; "_rho_T"; "_ny_T"; "_dm_top"; "_dm_bot"] ++
  arrays [n_ 1 (-1); k_ 2] ["_lam_mean"] ++ arrays [n_ 1 2; k_ 2] ["_cp_T"] ++
  arrays [n_ 1 1; k_ 3] ["_UA_dim1"] ++ arrays [n_ 1 0; k_ 4] ["_UA_dim2"] ++
  arrays [n_ 1 0] ["_T_sup"; "_T_dmd"; "_cell_dist"] ++
  arrays [k_ 4] ["_T_port"; "_cp_port"; "_UA_port"; "_dm_port"; "_lam_port_fld"; "_port_gsp"; "_port_subs_gsp"; "_A_p_fld_mean"; "_UA_port_wll"] ++
  arrays [k_ 2] ["_dm_io"; "_channel_divisor"; "_flow_per_channel"] ++ arrays [k_ 1] ["_dm_sup"; "_dm_dmd"; "_corr_Re"; "_process_flows"; "_stability_breaches"] ++
  arrays [r_ 0; k_ 2] ["res_dm"] ++ arrays [n_ 3 0] ["T"] ++ [("_port_own_idx", Index (k_ 4) (k_ 0) (n_ 3 (-1)))].
(** HeatExchanger (heatexchanger.py 165-241, 399, 442, 453; res simenv.py 4702-4704). *)
Definition t_platehex : table :=
  environment ++ links (k_ 4) ++ numbers ++
  arrays [k_ 4] ["T"; "_T_port"; "_dm_port"] ++
  arrays [k_ 2] ["_T_mean"; "_dm_io"; "_cp_mean"; "_lam_mean"; "_rho_mean"; "_ny_mean"; "_alpha_i"; "_UA_fld_wll"] ++
  arrays [k_ 1] ["_lam_plate"; "_UA_fld_wll_fld"; "_cell_dist"; "_corr_Re"] ++ arrays [r_ 0; k_ 4] ["res"] ++
  [("_port_own_idx", Index (k_ 4) (k_ 0) (k_ 3))].
(** MixingValve (mixingvalve.py 73-77, 219-225) and Pump (pump.py 61, 171). *)
Definition t_valve : table :=
  environment ++ links (k_ 3) ++ numbers ++ arrays [k_ 3] ["T"; "_dm_io"] ++ arrays [r_ 0; k_ 3] ["res"; "res_dm"].
Definition t_pump : table :=
  environment ++ links (k_ 2) ++ numbers ++ arrays [k_ 2] ["T"] ++ arrays [k_ 1] ["dm"] ++ arrays [r_ 0; k_ 2] ["res"] ++ arrays [r_ 0; k_ 1] ["res_dm"].

Definition table_of (part : string) : option table :=
  if String.eqb part "Pipe" then Some t_pipe
  else if String.eqb part "PipeBranched" then Some t_branched
  else if String.eqb part "PipeWithValve" then Some t_branched
  else if String.eqb part "HeatedPipe" then Some t_heated
  else if String.eqb part "CHPPlant" then Some t_heated
  else if String.eqb part "TES" then Some t_tes
  else if String.eqb part "HexNum" then Some t_hexnum
  else if String.eqb part "HexNumImpl" then Some t_hexnum
  else if String.eqb part "HeatExchanger" then Some t_platehex
  else if String.eqb part "MixingValve" then Some t_valve
  else if String.eqb part "Pump" then Some t_pump
  else None.

(** Models with at least [n] cells in the part, one port, any numbers of other ports, rows of results and heated cells. *)
Definition sensible (n : Z) (v : sizes) : Prop := (forall k, 0 <= v k) /\ n <= N v /\ 1 <= P v.
(** The places of the ports of HexNum: first and last cell of the supply and of the demand side (hex_num.py 277-285). *)
Definition hexnum_ports (v : sizes) (a : attributes) : Prop :=
  a "_port_own_idx" = Some (VIdx [0; 3 * (N v - 1); 2; 3 * N v - 1]).
