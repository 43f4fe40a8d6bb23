(** * Units of the parameters and results of the compiled functions *)
From Coq Require Import Reals ZArith QArith List Bool String.
From Verif Require Import MUnits.
Import ListNotations.
Local Open Scope string_scope.

Definition metre : unit := mkU 2 0 0 0.
Definition kilogram : unit := mkU 0 2 0 0.
Definition second : unit := mkU 0 0 2 0.
Definition kelvin : unit := mkU 0 0 0 2.
Definition square_metre : unit := utimes metre metre.
Definition joule : unit := uover (utimes kilogram square_metre) (utimes second second).
Definition watt : unit := uover joule second.
Definition pascal : unit := uover (uover joule square_metre) metre.

(** Units by name of the parameter, as the documentation of the functions and classes gives them. *)
Definition by_name : list (unit * list string) :=
  [ (kelvin, ["ports_all"; "T"; "T_port"; "T_ext"; "T_ext_fld"; "T_wll"; "T_s"; "T_amb"; "emergency_shutdown"; "T_s_lid"; "res"; "T_mean";
       "port_array"; "pv_arr"; "delayed_pv"; "sp"; "pv"; "atol"; "parr_bkp"; "T_inf"; "Kelvin"; "T_fld"; "T_A_one"; "T_A_two"; "T_B_one"; "T_B_two"]);
    (none, ["port_link_idx"; "port_own_idx"; "process_flows"; "stepnum"; "part_id"; "stability_breaches"; "step_stable"; "max_factor"; "r_rins";
       "vertical"; "heat_mult"; "vertical_lid"; "lid_top"; "channel_divisor"; "corr_Re"; "num_A"; "num_channels_sup"; "num_channels_dmd";
       "_port_link_idx"; "len_dt_arr"; "dt_idx"; "last_dt_idx"; "trnc_err_cell_weight"; "rtol"; "err"; "new_trnc_err"; "sys_trnc_err";
       "num_cells_tot_nmrc"; "step_accepted"; "failed_steps"; "safety"; "order"; "solver_state"; "min_factor"; "cnt_instable"; "Pr"; "Re"; "top";
       "r_ro"; "N"; "new_length"; "wght"; "fill_edges"]);
    (uover (uover watt metre) kelvin, ["lam_T"; "lam_port_fld"; "lam_mean"; "lam_wll"; "lam_ins"; "lam_fld"; "lam"]);
    (uover watt kelvin, ["UA_port"; "UA_port_wll"; "UA_tb_wll"; "UA_tb"; "UA_amb_shell"; "UA_dim1"; "UA_dim2"; "UA_amb_lid"; "UA_dim1_wll";
       "UA_fld_wll"; "UA_fld_wll_fld"; "UA"; "args"]);
    (uover kilogram second, ["dm_io"; "dm_top"; "dm_bot"; "dm_port"; "res_dm"; "dm"]);
    (uover joule kelvin, ["mcp"; "mcp_wll"; "mcp_fld"; "mcp_heated"]);
    (square_metre, ["A_p_fld_mean"; "A_cell"; "A_port"; "A_shell"; "A_channel"; "A_plate_eff"; "A_shell_i"; "A_shell_ins"; "A"; "A_i"; "A_s"]);
    (metre, ["port_gsp"; "grid_spacing"; "d_i"; "port_subs_gsp"; "r_total"; "cell_dist"; "flow_length"; "r_ln_wll"; "r_ln_ins"; "flow_length_lid";
       "s_wll"; "s_ins"; "d_h"; "s_plate"; "dist_min"; "L"; "r_i"; "r_o"]);
    (uover (uover joule kilogram) kelvin, ["cp_port"; "cp_T"; "cp_wll"; "cp"; "cp_mean"]);
    (uover kilogram (utimes square_metre metre), ["rho_T"; "rho"; "rho_mean"]);
    (uover square_metre second, ["ny_T"; "ny"; "ny_mean"]);
    (utimes square_metre metre, ["V_cell"; "V_cell_fld"]);
    (uover (uover joule kelvin) (utimes square_metre metre), ["rhocp"; "rhocp_fld"]);
    (uover joule kilogram, ["ui"; "ui_fld"]);
    (second, ["vN_max_step"; "timestep"; "deadtime"; "dt_arr"; "_h"; "min_stepsize"; "max_stepsize"; "timeframe"]);
    (uover (uover watt square_metre) kelvin, ["alpha_i"; "alpha_inf"; "alpha"; "alpha_fld"]);
    (uover kelvin second, ["dT_cond"; "dT_adv"; "dT_total"; "dT_heat"; "dT_heated"; "df0"; "df1"]);
    (watt, ["dQ_heating"; "res_dQ"]);
    (uover none kelvin, ["beta"]);
    (uover metre second, ["v"]) ].
(** Names that stand for different quantities. *)
Definition by_function : list (string * string * unit) :=
  [ ("_port_values_to_idx", "out", kelvin); ("_port_values_to_cont", "out", kelvin);
    ("_lambda_mean_view", "out", uover (uover watt metre) kelvin);
    ("UA_plate_tb", "out", uover watt kelvin); ("UA_plate_tb_fld", "out", uover watt kelvin); ("UA_plate_tb_wll", "out", uover watt kelvin);
    ("UA_fld_wll_ins_amb_cyl", "out", uover watt kelvin);
    ("pipe_alpha_i", "x", metre); ("pipe_alpha_i_wll_sep", "x", metre); ("phex_alpha_i_wll_sep", "x", metre);
    ("phex_alpha_i_wll_sep_discretized", "x", metre);
    ("moving_avg", "x", kelvin); ("fill_edges", "x", kelvin); ("moving_avg_fill_edges", "x", kelvin); ("weighted_moving_avg", "x", kelvin) ].
Definition documented (f p : string) : option unit :=
  match find (fun t => String.eqb (fst (fst t)) f && String.eqb (snd (fst t)) p) by_function with
  | Some t => Some (snd t)
  | None => option_map fst (find (fun t => existsb (String.eqb p) (snd t)) by_name)
  end.

(** Units of the results of the functions that return quantities (other results are plain numbers). *)
Definition results : list (string * list unit) :=
  let per_second := uover kelvin second in let lam := uover (uover watt metre) kelvin in let UA := uover watt kelvin in
  let rho := uover kilogram (utimes square_metre metre) in let ny := uover square_metre second in
  let cp := uover (uover joule kilogram) kelvin in let alpha := uover (uover watt square_metre) kelvin in
  [ ("_process_flow_invar_fast", [none; uover kilogram second]);
    ("_process_ports_collapsed", [per_second]); ("_process_ports", [per_second]);
    ("water_mat_props_ext", [cp; lam; rho; ny]); ("_lambda_mean", [lam]);
    ("_vonNeumann_stability_invar", [none; second; none]); ("_vonNeumann_stability_invar_hexnum", [none; second; none]);
    ("_vonNeumann_stability_var", [none; second; none]);
    ("pipe1D_diff", [per_second]); ("pipe1D_branched_diff", [per_second]); ("heatedpipe1D_diff", [per_second; none; none; second; none]);
    ("tes_diff", [per_second; none; none; second; none; alpha]); ("hexnum_diff", [per_second]); ("hexnum_diff_impl", [per_second]);
    ("ctrl_deadtime", [kelvin; kelvin; none; none]); ("_embedded_adapt_stepsize", [none; second; second; none]);
    ("rho_water", [rho]); ("lambda_water", [lam]); ("cp_water", [cp]); ("ny_water", [ny]); ("beta_water_return", [uover none kelvin]);
    ("lam_dryair_return", [lam]); ("ny_dryair_return", [ny]); ("humid_air_saturation_pressure", [pascal]);
    ("plane_alpha_inf", [alpha]); ("vert_plane_alpha_inf", [alpha]); ("hor_plane_alpha_inf", [alpha]);
    ("UA_fld_wll_plate", [UA]); ("UA_fld_wll_ins_amb_plate", [UA]); ("UA_wll_ins_amb_plate", [UA]);
    ("surface_temp_steady_state", [kelvin]); ("series_circuit_UA", [UA]); ("parallel_circuit_UA", [UA]); ("log_mean_temp_diff", [kelvin]);
    ("moving_avg", [kelvin]); ("fill_edges", [kelvin]); ("moving_avg_fill_edges", [kelvin]); ("weighted_moving_avg", [kelvin]) ].
Definition result_units (f : string) (n : nat) : list unit :=
  match find (fun t => String.eqb (fst t) f) results with Some t => snd t | None => repeat none n end.

(** The quantities other than plain numbers and 0 that occur as constants. *)
Fixpoint e_const (e : expr) : list (Q * unit) :=
  match e with
  | Var _ => []
  | Const q u => if ueqb u none || Qeq_bool q 0 then [] else [(q, u)]
  | Add a b | Sub a b | Mul a b | Div a b | Max a b | Min a b | Cmp _ a b => e_const a ++ e_const b
  | Neg a | Abs a | Pow a _ | Sqrt a | Red _ _ a => e_const a
  | Fn _ l => l_const l
  | Sel _ a l => e_const a ++ l_const l
  | Ite c a b => e_const c ++ e_const a ++ e_const b
  end
with l_const (l : exprs) : list (Q * unit) := match l with Nil => [] | Cons e r => e_const e ++ l_const r end.
Fixpoint constants (p : stmt) : list (Q * unit) :=
  match p with
  | Let _ e => e_const e
  | View _ _ _ l => l_const l
  | Store _ _ l e => l_const l ++ e_const e
  | If c a b => e_const c ++ constants a ++ constants b
  | For _ _ l b => l_const l ++ constants b
  | Seq a b => constants a ++ constants b
  | Frame b => constants b
  | Skip | Break | Return | Raise => []
  end.
(** Acceleration of gravity, the zero of the Celsius scale, the smallest step; the coefficients of the fits of material
    properties of water and air (numbers times units of the property per power of a kelvin). *)
Definition physical : list (Q * unit) :=
  [ (981 # 100, uover (uover metre second) second); (27315 # 100, kelvin); (1 # 1000000000, second) ]%Q.
Definition property_units : list unit :=
  [uover kilogram (utimes square_metre metre); uover (uover watt metre) kelvin; uover (uover joule kilogram) kelvin; uover square_metre second;
   none; uover none kelvin; pascal].
Definition admissible (c : Q * unit) : bool :=
  existsb (fun d => Qeq_bool (fst c) (fst d) && ueqb (snd c) (snd d)) physical
  || existsb (fun u => existsb (fun n => ueqb (snd c) (uover u (upow kelvin (Z.of_nat n)))) (seq 0 11)) property_units.
