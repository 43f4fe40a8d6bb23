(** * Names and control flow of precomp_funs.py, _precompiled/dimensionless_numbers.py, _precompiled/material_properties.py (generated by tools/extract.py; representation: MPy.v). *)
From Coq Require Import List String PArith.
From Verif Require Import MPy.
Import ListNotations.
Local Open Scope string_scope. Local Open Scope positive_scope.


(* multisim/precomp_funs.py, line 1: <module> *)
Definition f_precomp_funs__module : func := {|
 f_file := "precomp_funs.py"; f_name := "<module>"; f_line := 1;
 f_params := []; f_closure := [];
 f_locals := ["nb"; "jit"; "njit"; "float64"; "int32"; "np"; "GLOB_NOGIL"; "GLOB_PARALLEL"; "upd_p_arr"; "_upddate_ports_interm"; "_upddate_ports_result"; "_port_values_to_idx"; "_port_values_to_cont"; "_process_flow_invar"; "_process_flow_invar_fast"; "_process_flow_var"; "_process_flow_multi_flow"; "_process_ports_collapsed"; "_process_ports"; "water_mat_props_ext_view"; "water_mat_props_ext"; "water_mat_props"; "cell_temp_props_ext"; "cell_temp_props_fld"; "specific_inner_energy_wll"; "cell_temp_props"; "_lambda_mean_view"; "_lambda_mean"; "UA_plate_tb"; "UA_plate_tb_fld"; "UA_plate_tb_wll"; "buoyancy_byNusselt"; "buoyancy_AixLib"; "_vonNeumann_stability_invar"; "_vonNeumann_stability_invar_hexnum"; "_vonNeumann_stability_var"; "pipe1D_diff"; "pipe1D_diff_fullstructarr"; "pipe1D_diff_structarr"; "pipe1D_branched_diff"; "heatedpipe1D_diff"; "tes_diff"; "chp_core_diff"; "hexnum_diff"; "condensing_hex_solve"; "hexnum_diff_impl"; "euler_forward"; "hexnum_imp_root_diff"; "hexnum_imp_fixedpoint"; "fixed_point_to_root"; "hexnum_imp_fixedp_diff"; "hexnum_imp_newt_diff"; "solve_connector_3w_overload"; "solve_connector_3w"; "solve_platehex"; "_get_p_arr_pump"; "solve_mix_overload"; "solve_mix"; "solve_split_overload"; "solve_split"; "solve_pump_overload"; "solve_pump"; "ctrl_deadtime"; "_heun_corrector_adapt"; "_embedded_adapt_stepsize"; "rayleigh_number"; "get_rho_water"; "rho_water"; "lambda_water"; "get_lambda_water"; "get_cp_water"; "cp_water"; "get_ny_water"; "ny_water"; "get_Pr_water"; "Pr_water_return"; "get_beta_water"; "beta_water_return"; "get_Re_water"; "Re_water_return"; "get_rho_dryair"; "get_lam_dryair"; "lam_dryair_return"; "get_ny_dryair"; "ny_dryair_return"; "humid_air_saturation_pressure"; "humid_air_sat_water_mass"; "calc_flow_length"; "pipe_get_Re"; "pipe_get_Re2"; "pipe_alpha_i"; "pipe_alpha_i_wll_sep"; "phex_alpha_i_wll_sep"; "phex_alpha_i_wll_sep_discretized"; "cylinder_alpha_inf"; "plane_alpha_inf"; "vert_plane_alpha_inf"; "hor_plane_alpha_inf"; "UA_fld_wll_ins_amb_cyl"; "UA_fld_wll_amb_cyl"; "UA_fld_wll_cyl"; "UA_wll_ins_amb_cyl"; "UA_wll_amb_cyl"; "UA_fld_wll_plate"; "UA_fld_wll_ins_amb_plate"; "UA_wll_ins_amb_plate"; "surface_temp_steady_state_inplace"; "surface_temp_steady_state"; "series_circuit_UA"; "parallel_circuit_UA"; "log_mean_temp_diff"; "moving_avg"; "fill_edges"; "moving_avg_fill_edges"; "weighted_moving_avg"; "root_finder"; "lim_growth"; "chp_startup_th"; "chp_startup_el"; "chp_startup_gas"; "chp_thermal_power"; "chp_gas_power"; "chp_shutdown_th"; "quad_get_c"; "quad_get_b"; "condensing_hex_quad_poly"; "_process_chp_core_modulation"; "predictor_step"; "solve_pred_loop"; "heun_predictor"; "make_poly_transf_combs_for_nb"; "extract_pca_results"; "transform_to_poly_nb"; "transform_pca_nb"; "poly_tranfs_pred"; "root_array_secant"; "root_array_newton"; "root_array_newton_fast"; "root_secant"];
 f_outer := [];
 f_conds := ["*"];
 f_body := block [Def [1]; Def [2]; Def [3]; Def [4]; Def [5]; Def [6]; Use [1]; Def [7]; Def [8]; Use [2;7];
 Def [9]; Use [3;7]; Def [10]; Use [3;7]; Def [11]; Use [3;7]; Def [12]; Use [1;7]; Def [13]; Use
 [3;7]; Def [14]; Use [3;7]; Def [15]; Use [3;7]; Def [16]; Use [3;7]; Def [17]; Use [1;7]; Def [18];
 Use [3;7]; Def [19]; Use [3;7]; Def [20]; Use [3;7]; Def [21]; Use [3;7]; Def [22]; Use [3;7]; Def
 [23]; Use [3;7]; Def [24]; Use [3;7]; Def [25]; Use [3;7]; Def [26]; Use [3;7]; Def [27]; Use [3;7];
 Def [28]; Use [3;7]; Def [29]; Use [3;7]; Def [30]; Use [3;7]; Def [31]; Use [1;7]; Def [32]; Use
 [1;7]; Def [33]; Use [3;7]; Def [34]; Use [3;7]; Def [35]; Use [3;7]; Def [36]; Use [3;7]; Def [37];
 Use [3;7]; Def [38]; Use [3;7]; Def [39]; Use [3;7]; Def [40]; Use [3;7]; Def [41]; Use [3;7]; Def
 [42]; Use [3;7]; Def [43]; Use [3;7]; Def [44]; Use [1]; Def [45]; Use [3;7]; Def [46]; Use [1;7];
 Def [47]; Use [1;7]; Def [48]; Use [1]; Def [49]; Use [1]; Def [50]; Use [1;7]; Def [51]; Def [52];
 Use [3;7]; Def [53]; Use [1;7]; Def [54]; Use [1;7]; Def [55]; Use [2;4;5;7]; Def [56]; Use [3;7];
 Def [57]; Use [1;7]; Def [58]; Use [3;7]; Def [59]; Use [1;4;5;7]; Def [60]; Use [3;7]; Def [61];
 Use [1;7]; Def [62]; Use [1;7]; Def [63]; Use [1;7]; Def [64]; Def [65]; Use [3;7]; Def [66]; Use
 [1;7]; Def [67]; Use [1;7]; Def [68]; Use [1;7]; Def [69]; Use [1;7]; Def [70]; Use [1;7]; Def [71];
 Use [1;7]; Def [72]; Use [1;7]; Def [73]; Use [3;7]; Def [74]; Use [1;7]; Def [75]; Use [1;7]; Def
 [76]; Use [1;7]; Def [77]; Use [1;7]; Def [78]; Use [1;7]; Def [79]; Use [1;7]; Def [80]; Use [1;7];
 Def [81]; Use [1;7]; Def [82]; Use [3;7]; Def [83]; Use [1;7]; Def [84]; Use [3;7]; Def [85]; Use
 [1;7]; Def [86]; Use [1;7]; Def [87]; Def [88]; Use [1;7]; Def [89]; Use [1;7]; Def [90]; Use [1;7];
 Def [91]; Use [1;7]; Def [92]; Use [1;7]; Def [93]; Use [1;7]; Def [94]; Use [1;7]; Def [95]; Use
 [1;7]; Def [96]; Use [3;7]; Def [97]; Use [3;7]; Def [98]; Use [1;7]; Def [99]; Use [1;7]; Def
 [100]; Use [1;7]; Def [101]; Use [1;7]; Def [102]; Use [1;7]; Def [103]; Use [1;7]; Def [104]; Use
 [1;7]; Def [105]; Use [1;7]; Def [106]; Use [1;7]; Def [107]; Use [1;7]; Def [108]; Use [1;7]; Def
 [109]; Use [1;7]; Def [110]; Use [1;7]; Def [111]; Use [1;7]; Def [112]; Use [1;7]; Def [113]; Use
 [1;7]; Def [114]; Use [1;7]; Def [115]; Use [1;8]; Def [116]; Use [1]; Def [117]; Use [1]; Def
 [118]; Use [1]; Def [119]; Use [1]; Def [120]; Use [1]; Def [121]; Use [1]; Def [122]; Use [1]; Def
 [123]; Use [1]; Def [124]; Use [1]; Def [125]; Use [1]; Def [126]; Def [127]; Use [1]; Def [128];
 Use [1]; Def [129]; Use [1;8]; Def [130]; Def [131]; Def [132]; Use [1]; Def [133]; Use [1]; Def
 [134]; Use [1]; Def [135]; Use [1]; Def [136]; Use [1]; Def [137]; Use [1]; Def [138]; Use [1]; Def
 [139]] |}.

(* multisim/precomp_funs.py, line 20: upd_p_arr *)
Definition f_precomp_funs__upd_p_arr : func := {|
 f_file := "precomp_funs.py"; f_name := "upd_p_arr"; f_line := 20;
 f_params := ["ports_all"; "port_ids"; "values"; "_port_own_idx"]; f_closure := [];
 f_locals := ["i"];
 f_outer := ["range"];
 f_conds := ["*"];
 f_body := block [Use [6;4]; Loop false (block [Def [5]; Use [3;4;5;1;2]]) Skip] |}.

(* multisim/precomp_funs.py, line 33: _upddate_ports_interm *)
Definition f_precomp_funs___upddate_ports_interm : func := {|
 f_file := "precomp_funs.py"; f_name := "_upddate_ports_interm"; f_line := 33;
 f_params := ["ports_all"; "trgt_indices"; "ports_src"; "source"]; f_closure := [];
 f_locals := ["values"; "i"; "val"];
 f_outer := [];
 f_conds := ["*"];
 f_body := block [Use [3;4]; Def [5]; Def [6]; Use [5]; Loop false (block [Def [7]; Use [7;1;2;6]; Def [6]])
 Skip] |}.

(* multisim/precomp_funs.py, line 50: _upddate_ports_result *)
Definition f_precomp_funs___upddate_ports_result : func := {|
 f_file := "precomp_funs.py"; f_name := "_upddate_ports_result"; f_line := 50;
 f_params := ["ports_all"; "trgt_indices"; "ports_src"; "stepnum"; "src_list"]; f_closure := [];
 f_locals := ["i"; "val"];
 f_outer := [];
 f_conds := ["*"];
 f_body := block [Def [6]; Use [3]; Loop false (block [Def [7]; Use [7;4;5;6;1;2]; Def [6]]) Skip] |}.

(* multisim/precomp_funs.py, line 66: _port_values_to_idx *)
Definition f_precomp_funs___port_values_to_idx : func := {|
 f_file := "precomp_funs.py"; f_name := "_port_values_to_idx"; f_line := 66;
 f_params := ["ports_all"; "port_link_idx"; "port_own_idx"; "out"]; f_closure := [];
 f_locals := ["i"];
 f_outer := ["range"];
 f_conds := ["*"];
 f_body := block [Use [6;2]; Loop false (block [Def [5]; Use [1;2;5;4;3]]) Skip] |}.

(* multisim/precomp_funs.py, line 77: _port_values_to_cont *)
Definition f_precomp_funs___port_values_to_cont : func := {|
 f_file := "precomp_funs.py"; f_name := "_port_values_to_cont"; f_line := 77;
 f_params := ["ports_all"; "port_link_idx"; "out"]; f_closure := [];
 f_locals := ["i"];
 f_outer := ["range"];
 f_conds := ["*"];
 f_body := block [Use [5;2]; Loop false (block [Def [4]; Use [1;2;4;3]]) Skip] |}.

(* multisim/precomp_funs.py, line 88: _process_flow_invar *)
Definition f_precomp_funs___process_flow_invar : func := {|
 f_file := "precomp_funs.py"; f_name := "_process_flow_invar"; f_line := 88;
 f_params := ["process_flows"; "dm_io"; "dm_top"; "dm_bot"; "dm_port"; "stepnum"; "res_dm"]; f_closure := [];
 f_locals := [];
 f_outer := [];
 f_conds := ["*"; "process_flows[0]"; "dm_io[0] >= 0.0"];
 f_body := block [Use [1]; Choice 2 (block [Use [2]; Choice 3 (Use [2;3;4]) (Use [2;4;3]); Use [2]; Choice 3
 (Use [2;5]) (Use [2;5]); Use [2;7;6]]) Skip; Return] |}.

(* multisim/precomp_funs.py, line 122: _process_flow_invar_fast *)
Definition f_precomp_funs___process_flow_invar_fast : func := {|
 f_file := "precomp_funs.py"; f_name := "_process_flow_invar_fast"; f_line := 122;
 f_params := ["process_flows"; "dm_io"; "dm_top"; "dm_bot"; "stepnum"; "res_dm"]; f_closure := [];
 f_locals := ["dm_port"];
 f_outer := ["np"];
 f_conds := ["*"; "process_flows[0]"; "dm_io[0] >= 0.0"];
 f_body := block [Use [1]; Choice 2 (block [Use [8]; Def [7]; Use [2]; Choice 3 (Use [2;3;4]) (Use [2;4;3]);
 Use [2]; Choice 3 (Use [2;7]) (Use [2;7]); Use [2;6;5]]) Skip; Use [7]; Return] |}.

(* multisim/precomp_funs.py, line 159: _process_flow_var *)
Definition f_precomp_funs___process_flow_var : func := {|
 f_file := "precomp_funs.py"; f_name := "_process_flow_var"; f_line := 159;
 f_params := ["process_flows"; "dm_io"; "dm"; "dm_top"; "dm_bot"; "dm_port"; "port_own_idx"; "stepnum"; "res_dm"]; f_closure := [];
 f_locals := ["cs"; "i"; "dp"];
 f_outer := ["np"; "range"];
 f_conds := ["*"; "process_flows[0]"];
 f_body := block [Use [1]; Choice 2 (block [Use [3;13;2]; Def [10]; Use [14;7]; Loop false (block [Def [11];
 Use [3;7;11;10]]) Skip; Use [2;6;3;4;5]; Def [12]; Use [12;3;9;8]]) Skip; Return] |}.

(* multisim/precomp_funs.py, line 209: _process_flow_multi_flow *)
Definition f_precomp_funs___process_flow_multi_flow : func := {|
 f_file := "precomp_funs.py"; f_name := "_process_flow_multi_flow"; f_line := 209;
 f_params := ["process_flows"; "dm_io"; "dm_top"; "dm_bot"; "dm_port"; "stepnum"; "res_dm"]; f_closure := [];
 f_locals := ["i"];
 f_outer := ["range"];
 f_conds := ["*"; "process_flows[0]"; "dm_io[i] >= 0.0"];
 f_body := block [Use [1]; Choice 2 (block [Use [9;2]; Loop false (block [Def [8]; Use [2;8]; Choice 3 (Use
 [2;8;3;4;5]) (Use [2;8;4;3;5])]) Skip; Use [2;7;6]]) Skip; Return] |}.

(* multisim/precomp_funs.py, line 250: _process_ports_collapsed *)
Definition f_precomp_funs___process_ports_collapsed : func := {|
 f_file := "precomp_funs.py"; f_name := "_process_ports_collapsed"; f_line := 250;
 f_params := ["ports_all"; "port_link_idx"; "port_own_idx"; "T"; "mcp"; "UA_port"; "UA_port_wll"; "A_p_fld_mean"; "port_gsp"; "grid_spacing"; "lam_T"; "cp_port"; "lam_port_fld"; "T_port"]; f_closure := [];
 f_locals := ["dT_cond_port"; "i"; "p_val"; "idx"];
 f_outer := ["np"; "range"; "cp_water"; "lambda_water"];
 f_conds := ["*"];
 f_body := block [Use [19;3]; Def [15]; Use [20;2]; Loop false (block [Def [16]; Use [1;2;16]; Def [17]; Use
 [3;16]; Def [18]; Use [17;14;16;21;12;22;13;8;9;10;11;18;7;6;4;5;15]]) Skip; Use [15]; Return] |}.

(* multisim/precomp_funs.py, line 301: _process_ports *)
Definition f_precomp_funs___process_ports : func := {|
 f_file := "precomp_funs.py"; f_name := "_process_ports"; f_line := 301;
 f_params := ["ports_all"; "port_link_idx"; "port_own_idx"; "T"; "mcp"; "UA_port"; "UA_port_wll"; "A_p_fld_mean"; "port_gsp"; "grid_spacing"; "lam_T"; "cp_port"; "lam_port_fld"; "T_port"]; f_closure := [];
 f_locals := ["dT_cond_port"; "i"; "p_val"; "idx"];
 f_outer := ["np"; "range"; "cp_water"; "lambda_water"];
 f_conds := ["*"];
 f_body := block [Use [19;3]; Def [15]; Use [20;2]; Loop false (block [Def [16]; Use [1;2;16]; Def [17]; Use
 [3;16]; Def [18]; Use [17;14;18;21;12;22;13;8;9;10;11;7;6;4;5;15;16]]) Skip; Use [15]; Return] |}.

(* multisim/precomp_funs.py, line 350: water_mat_props_ext_view *)
Definition f_precomp_funs__water_mat_props_ext_view : func := {|
 f_file := "precomp_funs.py"; f_name := "water_mat_props_ext_view"; f_line := 350;
 f_params := ["T_ext"; "cp_T"; "lam_T"; "rho_T"; "ny_T"]; f_closure := [];
 f_locals := [];
 f_outer := ["get_cp_water"; "get_lambda_water"; "get_rho_water"; "get_ny_water"];
 f_conds := ["*"];
 f_body := Use [6;1;2;7;3;8;4;9;5] |}.

(* multisim/precomp_funs.py, line 367: water_mat_props_ext *)
Definition f_precomp_funs__water_mat_props_ext : func := {|
 f_file := "precomp_funs.py"; f_name := "water_mat_props_ext"; f_line := 367;
 f_params := ["T_ext"]; f_closure := [];
 f_locals := [];
 f_outer := ["cp_water"; "lambda_water"; "rho_water"; "ny_water"];
 f_conds := ["*"];
 f_body := block [Use [2;1;3;4;5]; Return] |}.

(* multisim/precomp_funs.py, line 387: water_mat_props *)
Definition f_precomp_funs__water_mat_props : func := {|
 f_file := "precomp_funs.py"; f_name := "water_mat_props"; f_line := 387;
 f_params := ["T"; "cp_T"; "lam_T"; "rho_T"; "ny_T"]; f_closure := [];
 f_locals := [];
 f_outer := ["get_cp_water"; "get_lambda_water"; "get_rho_water"; "get_ny_water"];
 f_conds := ["*"];
 f_body := Use [6;1;2;7;3;8;4;9;5] |}.

(* multisim/precomp_funs.py, line 403: cell_temp_props_ext *)
Definition f_precomp_funs__cell_temp_props_ext : func := {|
 f_file := "precomp_funs.py"; f_name := "cell_temp_props_ext"; f_line := 403;
 f_params := ["T_ext"; "V_cell"; "cp_T"; "rho_T"; "mcp_wll"; "rhocp"; "mcp"; "ui"]; f_closure := [];
 f_locals := [];
 f_outer := [];
 f_conds := ["*"];
 f_body := Use [4;3;6;2;5;7;1;8] |}.

(* multisim/precomp_funs.py, line 421: cell_temp_props_fld *)
Definition f_precomp_funs__cell_temp_props_fld : func := {|
 f_file := "precomp_funs.py"; f_name := "cell_temp_props_fld"; f_line := 421;
 f_params := ["T_ext_fld"; "V_cell"; "cp_T"; "rho_T"; "rhocp_fld"; "mcp_fld"; "ui_fld"]; f_closure := [];
 f_locals := [];
 f_outer := [];
 f_conds := ["*"];
 f_body := Use [4;3;5;2;6;1;7] |}.

(* multisim/precomp_funs.py, line 441: specific_inner_energy_wll *)
Definition f_precomp_funs__specific_inner_energy_wll : func := {|
 f_file := "precomp_funs.py"; f_name := "specific_inner_energy_wll"; f_line := 441;
 f_params := ["T_wll"; "cp_wll"; "ui"]; f_closure := [];
 f_locals := [];
 f_outer := [];
 f_conds := ["*"];
 f_body := Use [2;1;3] |}.

(* multisim/precomp_funs.py, line 454: cell_temp_props *)
Definition f_precomp_funs__cell_temp_props : func := {|
 f_file := "precomp_funs.py"; f_name := "cell_temp_props"; f_line := 454;
 f_params := ["T"; "V_cell"; "cp_T"; "rho_T"; "mcp_wll"; "rhocp"; "mcp"; "ui"]; f_closure := [];
 f_locals := [];
 f_outer := [];
 f_conds := ["*"];
 f_body := Use [4;3;6;2;5;7;1;8] |}.

(* multisim/precomp_funs.py, line 471: _lambda_mean_view *)
Definition f_precomp_funs___lambda_mean_view : func := {|
 f_file := "precomp_funs.py"; f_name := "_lambda_mean_view"; f_line := 471;
 f_params := ["lam_T"; "out"]; f_closure := [];
 f_locals := [];
 f_outer := [];
 f_conds := ["*"];
 f_body := Use [1;2] |}.

(* multisim/precomp_funs.py, line 488: _lambda_mean *)
Definition f_precomp_funs___lambda_mean : func := {|
 f_file := "precomp_funs.py"; f_name := "_lambda_mean"; f_line := 488;
 f_params := ["lam_T"]; f_closure := [];
 f_locals := [];
 f_outer := [];
 f_conds := ["*"];
 f_body := block [Use [1]; Return] |}.

(* multisim/precomp_funs.py, line 506: UA_plate_tb *)
Definition f_precomp_funs__UA_plate_tb : func := {|
 f_file := "precomp_funs.py"; f_name := "UA_plate_tb"; f_line := 506;
 f_params := ["A_cell"; "grid_spacing"; "lam_mean"; "UA_tb_wll"; "out"]; f_closure := [];
 f_locals := [];
 f_outer := [];
 f_conds := ["*"];
 f_body := Use [1;2;3;4;5] |}.

(* multisim/precomp_funs.py, line 518: UA_plate_tb_fld *)
Definition f_precomp_funs__UA_plate_tb_fld : func := {|
 f_file := "precomp_funs.py"; f_name := "UA_plate_tb_fld"; f_line := 518;
 f_params := ["A_cell"; "grid_spacing"; "lam_mean"; "out"]; f_closure := [];
 f_locals := [];
 f_outer := [];
 f_conds := ["*"];
 f_body := Use [1;2;3;4] |}.

(* multisim/precomp_funs.py, line 530: UA_plate_tb_wll *)
Definition f_precomp_funs__UA_plate_tb_wll : func := {|
 f_file := "precomp_funs.py"; f_name := "UA_plate_tb_wll"; f_line := 530;
 f_params := ["UA_tb_wll"; "out"]; f_closure := [];
 f_locals := [];
 f_outer := [];
 f_conds := ["*"];
 f_body := Use [1;2] |}.

(* multisim/precomp_funs.py, line 542: buoyancy_byNusselt *)
Definition f_precomp_funs__buoyancy_byNusselt : func := {|
 f_file := "precomp_funs.py"; f_name := "buoyancy_byNusselt"; f_line := 542;
 f_params := ["T"; "ny"; "d_i"; "lam_mean"]; f_closure := [];
 f_locals := ["T_diff"; "corr_f"; "shape"; "Nu"; "Pr"; "beta"; "L"; "Ra"; "Ra_f2"; "turb"; "Nu_idx"];
 f_outer := ["np"; "Pr_water_return"; "beta_water_return"];
 f_conds := ["*"; "np.all(T_diff <= 0)"];
 f_body := block [Use [1]; Def [5]; Use [16;5]; Choice 2 (Return) Skip; Use [5]; Def [6]; Use [1]; Def [7]; Use
 [16;7]; Def [8]; Use [17;1]; Def [9]; Use [18;1]; Def [10]; Use [10;3]; Def [11]; Use [9;11;10;5;2];
 Def [12]; Use [12;9]; Def [13]; Use [13]; Def [14]; Use [13;14;8]; Def [15]; Use [4;15;8;6]] |}.

(* multisim/precomp_funs.py, line 593: buoyancy_AixLib *)
Definition f_precomp_funs__buoyancy_AixLib : func := {|
 f_file := "precomp_funs.py"; f_name := "buoyancy_AixLib"; f_line := 593;
 f_params := ["T"; "cp"; "rho"; "ny"; "grid_spacing"; "lam_mean"]; f_closure := [];
 f_locals := ["T_diff"; "kappa"; "g"; "beta"; "lambda_plus"];
 f_outer := ["np"; "beta_water_return"];
 f_conds := ["*"; "np.all(T_diff <= 0)"];
 f_body := block [Use [1]; Def [7]; Use [12;7]; Choice 2 (Return) Skip; Use [7]; Def [8]; Def [9]; Use [13;1];
 Def [10]; Use [10;3;2;8;5;12;9;7]; Def [11]; Use [6;11]; Def [6]] |}.

(* multisim/precomp_funs.py, line 640: _vonNeumann_stability_invar *)
Definition f_precomp_funs___vonNeumann_stability_invar : func := {|
 f_file := "precomp_funs.py"; f_name := "_vonNeumann_stability_invar"; f_line := 640;
 f_params := ["part_id"; "stability_breaches"; "UA_tb"; "UA_port"; "UA_amb_shell"; "dm_io"; "rho_T"; "rhocp"; "grid_spacing"; "port_subs_gsp"; "A_cell"; "A_port"; "A_shell"; "r_total"; "V_cell"; "step_stable"; "vN_max_step"; "max_factor"; "stepnum"; "timestep"]; f_closure := [];
 f_locals := ["vN_diff"; "vN_diff_max"; "Vcellrhomax"; "vN_dm_max"; "vN_diff_mult"; "vN_dm_mult"; "vN_div_max"; "local_vN_max_step"];
 f_outer := ["np"; "max"; "print"; "ValueError"];
 f_conds := ["*"; "vN_div_max > 1"; "True"; "vN_max_step[0] > local_vN_max_step"; "max_factor[0] > 1.05"; "max_factor[0] < 1.05"];
 f_body := block [Use [29]; Def [21]; Use [29;3;8;20;11;9;21;4;12;10;5;13;14]; Def [22]; Use [15;7]; Def [23];
 Use [29;6;20;23]; Def [24]; Use [22]; Def [25]; Use [24]; Def [26]; Use [30;25;26]; Def [27]; Use
 [27]; Choice 2 (Choice 3 (block [Use [16;2]; Def [2]; Use [20;27]; Def [28]; Use [17;28]; Choice 4
 (Use [28;17]) Skip; Use [18]; Choice 5 (block [Use [18]; Choice 6 (Use [18]) Skip]) Skip]) (block
 [Use [31;19;1;32]; Raise])) Skip; Use [16;17;18]; Return] |}.

(* multisim/precomp_funs.py, line 761: _vonNeumann_stability_invar_hexnum *)
Definition f_precomp_funs___vonNeumann_stability_invar_hexnum : func := {|
 f_file := "precomp_funs.py"; f_name := "_vonNeumann_stability_invar_hexnum"; f_line := 761;
 f_params := ["part_id"; "stability_breaches"; "UA_dim1"; "UA_dim2"; "UA_port"; "dm_io"; "rho_T"; "rhocp"; "grid_spacing"; "port_subs_gsp"; "A_channel"; "A_plate_eff"; "A_port"; "V_cell"; "step_stable"; "vN_max_step"; "max_factor"; "stepnum"; "timestep"]; f_closure := [];
 f_locals := ["vN_diff"; "rhocpmax"; "vN_diff_max"; "Vcellrhomax"; "vN_dm_max"; "vN_diff_mult"; "vN_dm_mult"; "vN_div_max"; "local_vN_max_step"];
 f_outer := ["np"; "max"; "print"; "ValueError"];
 f_conds := ["*"; "vN_div_max > 1"; "True"; "vN_max_step[0] > local_vN_max_step"; "max_factor[0] > 1.05"; "max_factor[0] < 1.05"];
 f_body := block [Use [29]; Def [20]; Use [8]; Def [21]; Use [3;21;19;11;9;20;4;12;5;13;10]; Def [22]; Use
 [14;7]; Def [23]; Use [29;6;19;23]; Def [24]; Use [22]; Def [25]; Use [24]; Def [26]; Use
 [30;25;26]; Def [27]; Use [27]; Choice 2 (Choice 3 (block [Use [15;2]; Def [2]; Use [19;27]; Def
 [28]; Use [16;28]; Choice 4 (Use [28;16]) Skip; Use [17]; Choice 5 (block [Use [17]; Choice 6 (Use
 [17]) Skip]) Skip]) (block [Use [31;18;1;32]; Raise])) Skip; Use [15;16;17]; Return] |}.

(* multisim/precomp_funs.py, line 893: _vonNeumann_stability_var *)
Definition f_precomp_funs___vonNeumann_stability_var : func := {|
 f_file := "precomp_funs.py"; f_name := "_vonNeumann_stability_var"; f_line := 893;
 f_params := ["part_id"; "stability_breaches"; "UA_tb"; "UA_port"; "UA_amb_shell"; "dm_top"; "dm_bot"; "dm_port"; "rho_T"; "rhocp"; "grid_spacing"; "port_subs_gsp"; "A_cell"; "A_port"; "A_shell"; "r_total"; "V_cell"; "step_stable"; "vN_max_step"; "max_factor"; "stepnum"; "timestep"]; f_closure := [];
 f_locals := ["vN_diff"; "vN_diff_max"; "Vcellrhomax"; "vN_dm_max"; "vN_diff_mult"; "vN_dm_mult"; "vN_div_max"; "local_vN_max_step"];
 f_outer := ["np"; "max"; "print"; "ValueError"];
 f_conds := ["*"; "vN_div_max > 1.0"; "True"; "vN_max_step[0] > local_vN_max_step"; "max_factor[0] > 1.05"; "max_factor[0] < 1.05"];
 f_body := block [Use [31]; Def [23]; Use [31;3;10;22;13;11;23;4;14;12;5;15;16]; Def [24]; Use [17;9]; Def
 [25]; Use [32;6;7;31;8;22;25]; Def [26]; Use [24]; Def [27]; Use [26]; Def [28]; Use [32;27;28]; Def
 [29]; Use [29]; Choice 2 (Choice 3 (block [Use [18;2]; Def [2]; Use [22;29]; Def [30]; Use [19;30];
 Choice 4 (Use [30;19]) Skip; Use [20]; Choice 5 (block [Use [20]; Choice 6 (Use [20]) Skip]) Skip])
 (block [Use [33;21;1;34]; Raise])) Skip; Use [18;19;20]; Return] |}.

(* multisim/precomp_funs.py, line 1031: pipe1D_diff *)
Definition f_precomp_funs__pipe1D_diff : func := {|
 f_file := "precomp_funs.py"; f_name := "pipe1D_diff"; f_line := 1031;
 f_params := ["T_ext"; "T_port"; "T_s"; "T_amb"; "ports_all"; "dm_io"; "dm_top"; "dm_bot"; "dm_port"; "res_dm"; "cp_T"; "lam_T"; "rho_T"; "ny_T"; "lam_mean"; "cp_port"; "lam_port_fld"; "mcp"; "rhocp"; "lam_wll"; "lam_ins"; "mcp_wll"; "ui"; "alpha_i"; "alpha_inf"; "UA_tb"; "UA_tb_wll"; "UA_amb_shell"; "UA_port"; "UA_port_wll"; "port_own_idx"; "port_link_idx"; "grid_spacing"; "port_gsp"; "port_subs_gsp"; "d_i"; "cell_dist"; "flow_length"; "r_total"; "r_ln_wll"; "r_ln_ins"; "r_rins"; "A_cell"; "V_cell"; "A_shell_i"; "A_shell_ins"; "A_p_fld_mean"; "process_flows"; "vertical"; "step_stable"; "part_id"; "stability_breaches"; "vN_max_step"; "max_factor"; "stepnum"; "dT_cond"; "dT_adv"; "dT_total"; "timestep"]; f_closure := [];
 f_locals := ["dT_cond_port"; "i"; "idx"];
 f_outer := ["_process_flow_invar"; "water_mat_props_ext_view"; "_lambda_mean_view"; "UA_plate_tb"; "surface_temp_steady_state_inplace"; "pipe_alpha_i"; "cylinder_alpha_inf"; "UA_fld_wll_ins_amb_cyl"; "cell_temp_props_ext"; "_process_ports_collapsed"; "_vonNeumann_stability_invar"; "range"];
 f_conds := ["*"];
 f_body := block [Use
 [63;48;6;7;8;9;55;10;64;1;11;12;13;14;65;15;66;43;33;27;26;67;4;46;25;28;3;68;36;37;24;69;38;49;39;70;45;40;41;42;20;21;71;44;22;19;18;23;72;5;32;31;29;30;47;34;16;17;2];
 Def [60]; Use [73;51;52;26;29;28;6;13;19;33;35;43;47;46;39;44;50;53;54;55;59]; Def [50]; Def [53];
 Def [54]; Use [26;1;28;4;18;56;7;11;23;8;57;74;31]; Loop false (block [Def [61]; Use [31;61]; Def
 [62]; Use [56;62;60;61;57;9;16;2;23;18]]) Skip; Use [56;57;58]; Return] |}.

(* multisim/precomp_funs.py, line 1238: pipe1D_diff_fullstructarr *)
Definition f_precomp_funs__pipe1D_diff_fullstructarr : func := {|
 f_file := "precomp_funs.py"; f_name := "pipe1D_diff_fullstructarr"; f_line := 1238;
 f_params := ["T_ext"; "ports_all"; "dm_io"; "res_dm"; "cp_T"; "lam_mean"; "UA_tb"; "port_link_idx"; "port_subs_gsp"; "step_stable"; "vN_max_step"; "max_factor"; "process_flows"; "vertical"; "stepnum"; "ra1"; "ra2"; "ra5"; "timestep"]; f_closure := [];
 f_locals := ["dT_cond_port"; "i"; "idx"];
 f_outer := ["_process_flow_invar"; "water_mat_props_ext_view"; "_lambda_mean_view"; "UA_plate_tb"; "surface_temp_steady_state_inplace"; "pipe_alpha_i"; "cylinder_alpha_inf"; "UA_fld_wll_ins_amb_cyl"; "cell_temp_props_ext"; "_process_ports_collapsed"; "_vonNeumann_stability_invar"; "range"];
 f_conds := ["*"];
 f_body := block [Use [23;13;3;18;17;15;4;24;1;5;25;6;26;16;7;27;28;29;14;30;31;32;2;8]; Def [20]; Use
 [33;16;7;17;18;3;9;10;11;12;15;19]; Def [10]; Def [11]; Def [12]; Use [7;1;18;16;5;34;17]; Loop
 false (block [Def [21]; Use [17;21]; Def [22]; Use [18;22;20;21;17]]) Skip; Use [18]; Return] |}.

(* multisim/precomp_funs.py, line 1445: pipe1D_diff_structarr *)
Definition f_precomp_funs__pipe1D_diff_structarr : func := {|
 f_file := "precomp_funs.py"; f_name := "pipe1D_diff_structarr"; f_line := 1445;
 f_params := ["T_ext"; "T_port"; "T_s"; "T_amb"; "ports_all"; "dm_io"; "dm_top"; "dm_bot"; "dm_port"; "res_dm"; "cp_T"; "lam_T"; "rho_T"; "ny_T"; "lam_mean"; "cp_port"; "lam_port_fld"; "mcp"; "rhocp"; "ui"; "alpha_i"; "alpha_inf"; "UA_tb"; "UA_amb_shell"; "UA_port"; "UA_port_wll"; "port_own_idx"; "port_link_idx"; "port_gsp"; "port_subs_gsp"; "cell_dist"; "A_p_fld_mean"; "process_flows"; "step_stable"; "stability_breaches"; "vN_max_step"; "max_factor"; "stepnum"; "dT_cond"; "dT_adv"; "dT_total"; "sar"; "vertical"; "part_id"; "timestep"]; f_closure := [];
 f_locals := ["dT_cond_port"; "i"; "idx"];
 f_outer := ["_process_flow_invar"; "water_mat_props_ext_view"; "_lambda_mean_view"; "UA_plate_tb"; "surface_temp_steady_state_inplace"; "pipe_alpha_i"; "cylinder_alpha_inf"; "UA_fld_wll_ins_amb_cyl"; "cell_temp_props_ext"; "_process_ports_collapsed"; "_vonNeumann_stability_invar"; "range"];
 f_conds := ["*"];
 f_body := block [Use
 [49;33;6;7;8;9;38;10;50;1;11;12;13;14;51;15;52;42;23;53;4;22;24;3;54;31;21;55;43;56;57;19;18;20;58;5;28;27;25;26;32;29;16;17;2];
 Def [46]; Use [59;44;35;23;25;24;6;13;19;42;30;32;34;36;37;38;45]; Def [34]; Def [36]; Def [37]; Use
 [23;1;24;4;18;39;7;11;20;8;40;60;27]; Loop false (block [Def [47]; Use [27;47]; Def [48]; Use
 [39;48;46;47;40;9;16;2;20;18]]) Skip; Use [39;40;41]; Return] |}.

(* multisim/precomp_funs.py, line 1662: pipe1D_branched_diff *)
Definition f_precomp_funs__pipe1D_branched_diff : func := {|
 f_file := "precomp_funs.py"; f_name := "pipe1D_branched_diff"; f_line := 1662;
 f_params := ["T_ext"; "T_port"; "T_s"; "T_amb"; "ports_all"; "dm_io"; "dm"; "dm_top"; "dm_bot"; "dm_port"; "res_dm"; "cp_T"; "lam_T"; "rho_T"; "ny_T"; "lam_mean"; "cp_port"; "lam_port_fld"; "mcp"; "rhocp"; "lam_wll"; "lam_ins"; "mcp_wll"; "ui"; "alpha_i"; "alpha_inf"; "UA_tb"; "UA_tb_wll"; "UA_amb_shell"; "UA_port"; "UA_port_wll"; "port_own_idx"; "port_link_idx"; "grid_spacing"; "port_gsp"; "port_subs_gsp"; "d_i"; "cell_dist"; "flow_length"; "r_total"; "r_ln_wll"; "r_ln_ins"; "r_rins"; "A_cell"; "V_cell"; "A_shell_i"; "A_shell_ins"; "A_p_fld_mean"; "process_flows"; "vertical"; "step_stable"; "part_id"; "stability_breaches"; "vN_max_step"; "max_factor"; "stepnum"; "dT_cond"; "dT_adv"; "dT_total"; "timestep"]; f_closure := [];
 f_locals := ["dT_cond_port"; "i"; "idx"];
 f_outer := ["_process_flow_var"; "water_mat_props_ext_view"; "_lambda_mean_view"; "UA_plate_tb"; "surface_temp_steady_state_inplace"; "pipe_alpha_i"; "cylinder_alpha_inf"; "UA_fld_wll_ins_amb_cyl"; "cell_temp_props_ext"; "_process_ports_collapsed"; "_vonNeumann_stability_invar"; "range"];
 f_conds := ["*"];
 f_body := block [Use
 [64;49;6;7;8;9;10;32;56;11;65;1;12;13;14;15;66;16;67;44;34;28;27;68;4;47;26;29;3;69;37;38;25;70;39;50;40;71;46;41;42;43;21;22;72;45;23;20;19;24;73;5;33;30;31;48;35;17;18;2];
 Def [61]; Use [74;52;53;27;30;29;6;14;20;34;36;44;48;47;40;45;51;54;55;56;60]; Def [51]; Def [54];
 Def [55]; Use [27;1;29;4;19;57;8;12;24;9;58;75;32]; Loop false (block [Def [62]; Use [32;62]; Def
 [63]; Use [57;63;61;62;58;10;17;2;24;19]]) Skip; Use [57;58;59]; Return] |}.

(* multisim/precomp_funs.py, line 1872: heatedpipe1D_diff *)
Definition f_precomp_funs__heatedpipe1D_diff : func := {|
 f_file := "precomp_funs.py"; f_name := "heatedpipe1D_diff"; f_line := 1872;
 f_params := ["T_ext"; "T_port"; "T_s"; "T_amb"; "ports_all"; "dm_io"; "dm_top"; "dm_bot"; "dm_port"; "dQ_heating"; "res_dm"; "res_dQ"; "cp_T"; "lam_T"; "rho_T"; "ny_T"; "lam_mean"; "cp_port"; "lam_port_fld"; "mcp"; "mcp_heated"; "rhocp"; "lam_wll"; "lam_ins"; "mcp_wll"; "ui"; "alpha_i"; "alpha_inf"; "UA_tb"; "UA_tb_wll"; "UA_amb_shell"; "UA_port"; "UA_port_wll"; "port_own_idx"; "port_link_idx"; "heat_mult"; "grid_spacing"; "port_gsp"; "port_subs_gsp"; "d_i"; "cell_dist"; "flow_length"; "r_total"; "r_ln_wll"; "r_ln_ins"; "r_rins"; "A_cell"; "V_cell"; "A_shell_i"; "A_shell_ins"; "A_p_fld_mean"; "process_flows"; "vertical"; "step_stable"; "part_id"; "stability_breaches"; "vN_max_step"; "max_factor"; "stepnum"; "timestep"; "dT_cond"; "dT_adv"; "dT_heat"; "dT_heated"; "emergency_shutdown"]; f_closure := [];
 f_locals := ["dT_cond_port"; "i"; "idx"; "dT_total"];
 f_outer := ["np"; "_process_flow_invar"; "water_mat_props_ext_view"; "_lambda_mean_view"; "UA_plate_tb"; "surface_temp_steady_state_inplace"; "pipe_alpha_i"; "cylinder_alpha_inf"; "UA_fld_wll_ins_amb_cyl"; "cell_temp_props_ext"; "_process_ports_collapsed"; "_vonNeumann_stability_invar"; "range"];
 f_conds := ["*"; "np.any(T_ext >= emergency_shutdown)"; "process_flows[0]"];
 f_body := block [Use [70;1;65]; Choice 2 (Use [10]) Skip; Use [52]; Choice 3 (Use [10;12;59]) Skip; Use
 [71;52;6;7;8;9;59;11;72;1;13;14;15;16;73;17;74;47;37;30;29;75;4;50;28;31;3;76;40;41;27;77;42;53;43;78;49;44;45;46;23;24;79;48;25;22;20;26;80;5;35;34;32;33;51;38;18;19;2];
 Def [66]; Use [81;55;56;29;32;31;6;15;22;37;39;47;51;50;43;48;54;57;58;59;60]; Def [54]; Def [57];
 Def [58]; Use [10;36;21;64;29;1;31;4;20;61;7;13;26;8;62;82;34]; Loop false (block [Def [67]; Use
 [34;67]; Def [68]; Use [61;68;66;67;62;9;18;2;26;20]]) Skip; Use [61;62;63]; Def [69]; Use
 [69;52;54;57;58]; Return] |}.

(* multisim/precomp_funs.py, line 2095: tes_diff *)
Definition f_precomp_funs__tes_diff : func := {|
 f_file := "precomp_funs.py"; f_name := "tes_diff"; f_line := 2095;
 f_params := ["T_ext"; "T_port"; "T_s"; "T_s_lid"; "T_amb"; "ports_all"; "dm_io"; "dm"; "dm_top"; "dm_bot"; "dm_port"; "res_dm"; "cp_T"; "lam_T"; "rho_T"; "ny_T"; "lam_mean"; "cp_port"; "lam_port_fld"; "mcp"; "rhocp"; "lam_wll"; "lam_ins"; "mcp_wll"; "ui"; "alpha_i"; "alpha_inf"; "UA_tb"; "UA_tb_wll"; "UA_amb_shell"; "UA_amb_lid"; "UA_port"; "UA_port_wll"; "port_own_idx"; "port_link_idx"; "grid_spacing"; "port_gsp"; "port_subs_gsp"; "d_i"; "cell_dist"; "flow_length"; "flow_length_lid"; "r_total"; "r_ln_wll"; "r_ln_ins"; "r_rins"; "s_wll"; "s_ins"; "A_cell"; "V_cell"; "A_shell_i"; "A_shell_ins"; "A_p_fld_mean"; "process_flows"; "vertical"; "vertical_lid"; "lid_top"; "step_stable"; "part_id"; "stability_breaches"; "vN_max_step"; "max_factor"; "stepnum"; "dT_cond"; "dT_adv"; "dT_total"; "timestep"]; f_closure := [];
 f_locals := ["alpha_inf_lid"; "_"; "i"; "idx"];
 f_outer := ["_process_flow_var"; "water_mat_props_ext_view"; "_lambda_mean_view"; "buoyancy_byNusselt"; "UA_plate_tb"; "surface_temp_steady_state_inplace"; "pipe_alpha_i"; "cylinder_alpha_inf"; "plane_alpha_inf"; "UA_fld_wll_ins_amb_cyl"; "UA_fld_wll_ins_amb_plate"; "cell_temp_props_ext"; "_process_ports_collapsed"; "_vonNeumann_stability_var"; "range"];
 f_conds := ["*"; "T_port.ndim == 1"];
 f_body := block [Use
 [72;54;7;8;9;10;11;34;63;12;73;1;13;14;15;16;74;17;75;39;76;49;36;29;28;77;5;52;27;30;3;78;40;26;79;41;55;43;80;4;42;56;57];
 Def [68]; Use
 [81;51;44;45;46;26;27;22;23;30;82;49;47;48;68;31;83;1;50;13;15;24;21;20;25;84;6;35;34;32;33;53;37;36;14;18;19;2];
 Def [69]; Use [85;59;60;28;32;30;9;10;11;15;21;36;38;49;53;52;43;50;58;61;62;63;67]; Def [58]; Def
 [61]; Def [62]; Use [2]; Choice 2 (Use [28;1;30;5;20;64;31;9;13;25;10;65]) (Use
 [28;1;30;5;20;64;31;9;13;25;10;65]); Use [86;2]; Loop false (block [Def [70]; Use [34;70]; Def [71];
 Use [64;71;32;70;2;1;20;65;11;18;25]]) Skip; Use [64;65;66;54;58;61;62;68]; Return] |}.

(* multisim/precomp_funs.py, line 2375: chp_core_diff *)
Definition f_precomp_funs__chp_core_diff : func := {|
 f_file := "precomp_funs.py"; f_name := "chp_core_diff"; f_line := 2375;
 f_params := ["T_ext"; "T_port"; "T_s"; "T_amb"; "ports_all"; "dm_io"; "dm_top"; "dm_bot"; "dm_port"; "dQ_heating"; "res_dm"; "res_dQ"; "cp_T"; "lam_T"; "rho_T"; "ny_T"; "lam_mean"; "cp_port"; "lam_port_fld"; "mcp"; "mcp_heated"; "rhocp"; "lam_wll"; "lam_ins"; "mcp_wll"; "ui"; "alpha_i"; "alpha_inf"; "UA_tb"; "UA_tb_wll"; "UA_amb_shell"; "UA_port"; "UA_port_wll"; "port_own_idx"; "port_link_idx"; "heat_mult"; "grid_spacing"; "port_gsp"; "port_subs_gsp"; "d_i"; "cell_dist"; "flow_length"; "r_total"; "r_ln_wll"; "r_ln_ins"; "r_rins"; "A_cell"; "V_cell"; "A_shell_i"; "A_shell_ins"; "A_p_fld_mean"; "process_flows"; "vertical"; "step_stable"; "part_id"; "stability_breaches"; "vN_max_step"; "max_factor"; "stepnum"; "timestep"; "dT_cond"; "dT_adv"; "dT_heat"; "dT_heated"]; f_closure := [];
 f_locals := ["dT_cond_port"; "i"; "idx"; "dT_total"];
 f_outer := ["_process_flow_invar"; "water_mat_props_ext_view"; "_lambda_mean_view"; "UA_plate_tb"; "surface_temp_steady_state_inplace"; "pipe_alpha_i"; "cylinder_alpha_inf"; "UA_fld_wll_ins_amb_cyl"; "cell_temp_props_ext"; "_process_ports_collapsed"; "_vonNeumann_stability_invar"; "range"];
 f_conds := ["*"; "process_flows[0]"];
 f_body := block [Use [52]; Choice 2 (Use [10;12;59]) Skip; Use
 [69;52;6;7;8;9;59;11;70;1;13;14;15;16;71;17;72;47;37;30;29;73;4;50;28;31;3;74;40;41;27;75;42;53;43;76;49;44;45;46;23;24;77;48;25;22;20;26;78;5;35;34;32;33;51;38;18;19;2];
 Def [65]; Use [79;55;56;29;32;31;6;15;22;37;39;47;51;50;43;48;54;57;58;59;60]; Def [54]; Def [57];
 Def [58]; Use [10;36;21;64;29;1;31;4;20;61;7;13;26;8;62;80;34]; Loop false (block [Def [66]; Use
 [34;66]; Def [67]; Use [61;67;65;66;62;9;18;2;26;20]]) Skip; Use [61;62;63]; Def [68]; Use
 [68;52;54;57;58]; Return] |}.

(* multisim/precomp_funs.py, line 2593: hexnum_diff *)
Definition f_precomp_funs__hexnum_diff : func := {|
 f_file := "precomp_funs.py"; f_name := "hexnum_diff"; f_line := 2593;
 f_params := ["T_ext"; "T_port"; "T_amb"; "ports_all"; "dm_io"; "dm_top"; "dm_bot"; "dm_port"; "res_dm"; "cp_T"; "lam_fld"; "rho_T"; "ny_T"; "lam_mean"; "cp_port"; "lam_port_fld"; "mcp"; "rhocp"; "cp_wll"; "lam_wll"; "ui"; "alpha_i"; "UA_dim1"; "UA_dim2"; "UA_dim1_wll"; "UA_port"; "UA_port_wll"; "port_own_idx"; "port_link_idx"; "grid_spacing"; "port_gsp"; "port_subs_gsp"; "d_h"; "s_plate"; "cell_dist"; "dist_min"; "A_channel"; "V_cell_fld"; "A_plate_eff"; "A_p_fld_mean"; "channel_divisor"; "corr_Re"; "process_flows"; "step_stable"; "part_id"; "stability_breaches"; "vN_max_step"; "max_factor"; "stepnum"; "dT_cond"; "dT_adv"; "dT_total"; "timestep"]; f_closure := [];
 f_locals := ["T_sup"; "T_dmd"; "dm_sup"; "dm_dmd"; "flow_per_channel"; "dT_cond_port"; "_step_stable"; "_vN_max_step"; "_max_factor"; "UA_amb_shell"; "i"; "idx"];
 f_outer := ["_process_flow_multi_flow"; "np"; "water_mat_props_ext_view"; "_lambda_mean_view"; "UA_plate_tb_fld"; "UA_plate_tb_wll"; "phex_alpha_i_wll_sep_discretized"; "UA_fld_wll_plate"; "cell_temp_props_fld"; "specific_inner_energy_wll"; "_process_ports_collapsed"; "_vonNeumann_stability_invar_hexnum"; "range"];
 f_conds := ["*"];
 f_body := block [Use [1]; Def [54]; Use [1]; Def [55]; Use [5]; Def [56]; Use [5]; Def [57]; Use
 [66;43;5;6;7;8;49;9;67;41]; Def [58]; Use
 [68;1;10;11;12;13;69;14;70;37;30;23;71;25;72;56;41;54;33;35;42;22;57;55;73;39;34;20;24;74;38;18;17;21;75;19;76;4;29;28;26;27;40;31;15;16;2];
 Def [59]; Use [77;45;46;23;24;26;58;12;18;30;32;37;39;40;38;44;47;48;49;53]; Def [60]; Def [61]; Def
 [62]; Def [63]; Use [23;1;24;63;3;17;50;6;10;21;7;51;78;28]; Loop false (block [Def [64]; Use
 [28;64]; Def [65]; Use [50;65;59;64;51;8;15;2;21;17]]) Skip; Use [51;41;50;52]; Return] |}.

(* multisim/precomp_funs.py, line 2820: condensing_hex_solve *)
Definition f_precomp_funs__condensing_hex_solve : func := {|
 f_file := "precomp_funs.py"; f_name := "condensing_hex_solve"; f_line := 2820;
 f_params := ["T"; "T_port"; "ports_all"; "res"; "res_dm"; "dm_io"; "dm_port"; "port_own_idx"; "port_link_idx"; "X_pred"; "flow_scaling"; "water_dm_range"; "gas_dv_range"; "int_comb_idx"; "nvars_per_ftr"; "pca_mean"; "pca_components"; "lm_intercept"; "lm_coef"; "stepnum"]; f_closure := [];
 f_locals := ["bypass"; "water_dm_excess"; "dm_water_thresh"; "n_samples"; "X_pf"; "X_PC"; "T_pred"; "T_pred_below_thresh"; "hcr_bypass"; "hcr_hex_out"; "hcr_out"; "T_out"];
 f_outer := ["_port_values_to_cont"; "round"; "print"; "ValueError"; "np"; "transform_to_poly_nb"; "transform_pca_nb"; "poly_tranfs_pred"; "condensing_hex_quad_poly"; "cp_water"];
 f_conds := ["*"; "water_dm_range[0] != 0.0 and X_pred[0, 2] < water_dm_range[0]"; "X_pred[0, 2] > water_dm_range[1]"; "gas_dv_range[0] != 0.0 and X_pred[0, 3] < gas_dv_range[0]"; "X_pred[0, 3] > gas_dv_range[1]"; "np.all(X_pred[0, 2:] != 0)"; "X_pred[0, 2] > dm_water_thresh"; "bypass"];
 f_body := block [Use [33;3;9;2;10;6;11]; Def [21]; Use [12]; Choice 1 Skip (Use [10;12]); Choice 2 (Use
 [34;10;12]) (block [Use [10;12]; Choice 3 (block [Use [10;12]; Def [22]; Def [21]; Use [12;10]])
 Skip]); Use [13]; Choice 1 Skip (Use [10;13]); Choice 4 (Use [34;10;13]) (block [Use [10;13]; Choice
 5 (block [Use [35;10;36]; Raise]) Skip]); Use [37;10]; Choice 6 (block [Def [23]; Def [24]; Use
 [10;23]; Choice 7 (block [Use [38;10;14;15;24]; Def [25]; Use [39;25;16;17]; Def [26]; Use
 [40;26;18;19]; Def [27]; Use [10;1;27]]) (block [Use [41;10;14;15;16;17;18;19]; Def [28]; Use
 [10;1;28]])]) (Use [10;1]); Use [21]; Choice 8 (block [Use [42;10;22]; Def [29]; Use [42;1;12]; Def
 [30]; Use [29;30]; Def [31]; Use [29;10;30;1;31]; Def [32]; Use [32;1]]) Skip; Use [1;4;20;6;5]] |}.

(* multisim/precomp_funs.py, line 2997: hexnum_diff_impl *)
Definition f_precomp_funs__hexnum_diff_impl : func := {|
 f_file := "precomp_funs.py"; f_name := "hexnum_diff_impl"; f_line := 2997;
 f_params := ["T_ext"; "T_port"; "T_amb"; "ports_all"; "dm_io"; "dm_top"; "dm_bot"; "dm_port"; "res_dm"; "cp_T"; "lam_fld"; "rho_T"; "ny_T"; "lam_mean"; "cp_port"; "lam_port_fld"; "mcp"; "rhocp"; "cp_wll"; "lam_wll"; "ui"; "alpha_i"; "UA_dim1"; "UA_dim2"; "UA_dim1_wll"; "UA_port"; "UA_port_wll"; "port_own_idx"; "port_link_idx"; "grid_spacing"; "port_gsp"; "d_h"; "s_plate"; "cell_dist"; "dist_min"; "A_channel"; "V_cell_fld"; "A_plate_eff"; "A_p_fld_mean"; "channel_divisor"; "corr_Re"; "process_flows"; "stepnum"; "dT_cond"; "dT_adv"; "dT_total"]; f_closure := [];
 f_locals := ["T_sup"; "T_dmd"; "dm_sup"; "dm_dmd"; "dT_cond_port"; "UA_amb_shell"; "i"; "idx"];
 f_outer := ["_process_flow_multi_flow"; "water_mat_props_ext_view"; "_lambda_mean_view"; "UA_plate_tb_fld"; "UA_plate_tb_wll"; "phex_alpha_i_wll_sep_discretized"; "UA_fld_wll_plate"; "cell_temp_props_fld"; "specific_inner_energy_wll"; "_process_ports_collapsed"; "range"];
 f_conds := ["*"];
 f_body := block [Use [1]; Def [47]; Use [1]; Def [48]; Use [5]; Def [49]; Use [5]; Def [50]; Use
 [55;42;5;6;7;8;43;9;56;1;10;11;12;13;57;14;58;36;30;23;59;25;60;49;40;47;32;34;41;22;50;48;61;38;33;20;24;62;37;18;17;21;63;19;64;4;29;28;26;27;39;31;15;16;2];
 Def [51]; Def [52]; Use [23;1;24;52;3;17;44;6;10;21;7;45;65;28]; Loop false (block [Def [53]; Use
 [28;53]; Def [54]; Use [44;54;51;53;45;8;15;2;21;17]]) Skip; Use [45;40;44;46]; Return] |}.

(* multisim/precomp_funs.py, line 3189: euler_forward *)
Definition f_precomp_funs__euler_forward : func := {|
 f_file := "precomp_funs.py"; f_name := "euler_forward"; f_line := 3189;
 f_params := ["diff"; "diff_input_args"; "yprev"; "_h"]; f_closure := [];
 f_locals := [];
 f_outer := [];
 f_conds := ["*"];
 f_body := block [Use [3;4;1;2]; Return] |}.

(* multisim/precomp_funs.py, line 3194: hexnum_imp_root_diff *)
Definition f_precomp_funs__hexnum_imp_root_diff : func := {|
 f_file := "precomp_funs.py"; f_name := "hexnum_imp_root_diff"; f_line := 3194;
 f_params := ["y"; "yprev"; "h"; "input_args"]; f_closure := [];
 f_locals := [];
 f_outer := ["hexnum_diff_impl"];
 f_conds := ["*"];
 f_body := block [Use [1;4;2;3;5]; Return] |}.

(* multisim/precomp_funs.py, line 3200: hexnum_imp_fixedpoint *)
Definition f_precomp_funs__hexnum_imp_fixedpoint : func := {|
 f_file := "precomp_funs.py"; f_name := "hexnum_imp_fixedpoint"; f_line := 3200;
 f_params := ["y"; "y_prev"; "h"; "input_args"]; f_closure := [];
 f_locals := [];
 f_outer := ["hexnum_diff_impl"];
 f_conds := ["*"];
 f_body := block [Use [1;4;2;3;5]; Return] |}.

(* multisim/precomp_funs.py, line 3213: fixed_point_to_root *)
Definition f_precomp_funs__fixed_point_to_root : func := {|
 f_file := "precomp_funs.py"; f_name := "fixed_point_to_root"; f_line := 3213;
 f_params := ["y"; "fp_fun"; "y_prev"; "h"; "input_args"]; f_closure := [];
 f_locals := [];
 f_outer := [];
 f_conds := ["*"];
 f_body := block [Use [1;2;3;4;5]; Return] |}.

(* multisim/precomp_funs.py, line 3218: hexnum_imp_fixedp_diff *)
Definition f_precomp_funs__hexnum_imp_fixedp_diff : func := {|
 f_file := "precomp_funs.py"; f_name := "hexnum_imp_fixedp_diff"; f_line := 3218;
 f_params := ["y"; "yprev"; "h"; "input_args"]; f_closure := [];
 f_locals := [];
 f_outer := ["hexnum_diff_impl"];
 f_conds := ["*"];
 f_body := block [Use [1;4;2;3;5]; Return] |}.

(* multisim/precomp_funs.py, line 3224: hexnum_imp_newt_diff *)
Definition f_precomp_funs__hexnum_imp_newt_diff : func := {|
 f_file := "precomp_funs.py"; f_name := "hexnum_imp_newt_diff"; f_line := 3224;
 f_params := ["yprev"; "_h"; "input_args"; "rtol"]; f_closure := [];
 f_locals := ["y_lastiter"; "err"; "diff"; "y"; "f"; "f_lastiter"; "nz"; "slope"];
 f_outer := ["hexnum_diff_impl"; "np"];
 f_conds := ["*"];
 f_body := block [Use [1;3]; Def [5]; Def [6]; Use [13;3]; Def [7]; Use [1;2;7]; Def [8]; Use [14;8]; Def [9];
 Loop false (block [Use [14;6;4;8;3;13]; Def [7]; Use [9]; Def [10]; Use [8;1;2;7]; Def [9]; Use [9];
 Def [11]; Use [9;11;10;8;5]; Def [12]; Use [5;11;9;12;8]; Def [6]; Use [8]; Def [5]]) (Use
 [14;6;4]); Use [8]; Return] |}.

(* multisim/precomp_funs.py, line 3269: solve_connector_3w_overload *)
Definition f_precomp_funs__solve_connector_3w_overload : func := {|
 f_file := "precomp_funs.py"; f_name := "solve_connector_3w_overload"; f_line := 3269;
 f_params := ["arglist"]; f_closure := [];
 f_locals := [];
 f_outer := ["solve_connector_3w"];
 f_conds := ["*"];
 f_body := Use [2;1] |}.

(* multisim/precomp_funs.py, line 3274: solve_connector_3w *)
Definition f_precomp_funs__solve_connector_3w : func := {|
 f_file := "precomp_funs.py"; f_name := "solve_connector_3w"; f_line := 3274;
 f_params := ["T"; "ports_all"; "cp_T"; "dm"; "port_link_idx"; "res"; "stepnum"]; f_closure := [];
 f_locals := ["dm_in"; "dm_out"; "cp_out"; "T_out"; "T_in"; "dm0"; "T0"; "T1"];
 f_outer := ["_port_values_to_cont"; "get_cp_water"; "np"; "cp_water"];
 f_conds := ["*"; "np.sum(dm_in) == 2"; "np.sum(dm_out) == 2"; "np.sum(dm_in) == 1"];
 f_body := block [Use [16;2;5;1;17;3;18;4]; Def [8]; Use [18;4]; Def [9]; Use [18;8]; Choice 2 (block [Use
 [19;18;1;8]; Def [10]; Use [18;4;8;3;1;10;9]; Def [11]; Use [1;9;8;11]]) (block [Use [18;9]; Choice
 3 (block [Use [1;9]; Def [12]; Use [1;8;9;12]]) (block [Use [18;8]; Choice 4 (block [Use [18;4]; Def
 [13]; Use [1;13;8;9]]) (block [Use [1]; Def [14]; Use [1]; Def [15]; Use [1;14;15]])])]); Use
 [1;6;7]] |}.

(* multisim/precomp_funs.py, line 3358: solve_platehex *)
Definition f_precomp_funs__solve_platehex : func := {|
 f_file := "precomp_funs.py"; f_name := "solve_platehex"; f_line := 3358;
 f_params := ["T"; "T_port"; "T_mean"; "ports_all"; "res"; "dm_io"; "dm_port"; "cp_mean"; "lam_mean"; "rho_mean"; "ny_mean"; "lam_wll"; "alpha_i"; "UA_fld_wll"; "UA_fld_wll_fld"; "port_own_idx"; "port_link_idx"; "A_plate_eff"; "A_channel"; "d_h"; "s_plate"; "cell_dist"; "num_A"; "num_channels_sup"; "num_channels_dmd"; "corr_Re"; "stepnum"]; f_closure := [];
 f_locals := ["dm_sup"; "T_sup_in"; "T_sup_out"; "dm_dmd"; "T_dmd_in"; "T_dmd_out"; "dC_sup"; "dC_dmd"; "NTU_sup"; "R_sup"; "rs_ntus"; "P_sup"; "P_dmd"];
 f_outer := ["_port_values_to_cont"; "water_mat_props"; "phex_alpha_i_wll_sep"; "UA_fld_wll_plate"; "series_circuit_UA"; "np"];
 f_conds := ["*"; "dm_io[0] >= 0"; "dm_io[1] >= 0"; "dm_sup != 0 and dm_dmd != 0"; "dC_sup != 0"; "dC_dmd != 0"; "R_sup != 1 and rs_ntus < 100"; "rs_ntus > 100"; "P_sup != P_sup"; "dm_sup != 0"; "dm_dmd != 0"];
 f_body := block [Use [41;4;17;2;6]; Choice 2 (block [Use [6]; Def [28]; Use [2]; Def [29]; Use [2]; Def [30];
 Use [6;7]]) (block [Use [6]; Def [28]; Use [2]; Def [29]; Use [2]; Def [30]; Use [7;6]]); Use [6];
 Choice 3 (block [Use [6]; Def [31]; Use [2]; Def [32]; Use [2]; Def [33]; Use [6;7]]) (block [Use
 [6]; Def [31]; Use [2]; Def [32]; Use [2]; Def [33]; Use [7;6]]); Use [28]; Choice 1 Skip (Use
 [31]); Choice 4 (block [Use
 [29;30;3;32;33;42;8;9;10;11;43;28;24;19;20;22;26;13;31;25;44;18;21;12;14;45;23;15]; Def [34]; Use
 [31;8]; Def [35]; Use [34]; Choice 5 (block [Use [15;34]; Def [36]]) (block [Use [46]; Def [36]]);
 Use [35]; Choice 6 (block [Use [34;35]; Def [37]]) (block [Use [46]; Def [37]]); Use [37;36]; Def
 [38]; Use [37]; Choice 1 Skip (Use [38]); Choice 7 (block [Use [46;38;37]; Def [39]]) (block [Use
 [38]; Choice 8 (block [Use [37]; Def [39]]) (block [Use [36]; Def [39]])]); Use [39;37]; Def [40];
 Use [39]; Choice 9 (block [Def [39]; Def [40]]) Skip; Use [29;39;32]; Def [30]; Use [32;40;29]; Def
 [33]]) (block [Use [28]; Choice 10 (block [Use [29]; Def [30]]) (block [Use [31]; Choice 11 (block
 [Use [32]; Def [33]]) Skip])]); Use [6]; Choice 2 (Use [29;1;30]) (Use [29;1;30]); Use [6]; Choice 3
 (Use [32;1;33]) (Use [32;1;33]); Use [1;5;27]] |}.

(* multisim/precomp_funs.py, line 3569: _get_p_arr_pump *)
Definition f_precomp_funs___get_p_arr_pump : func := {|
 f_file := "precomp_funs.py"; f_name := "_get_p_arr_pump"; f_line := 3569;
 f_params := ["ports_all"; "port_link_idx"; "T"]; f_closure := [];
 f_locals := [];
 f_outer := [];
 f_conds := ["*"];
 f_body := Use [1;2;3] |}.

(* multisim/precomp_funs.py, line 3578: solve_mix_overload *)
Definition f_precomp_funs__solve_mix_overload : func := {|
 f_file := "precomp_funs.py"; f_name := "solve_mix_overload"; f_line := 3578;
 f_params := ["arglist"]; f_closure := [];
 f_locals := [];
 f_outer := ["solve_mix"];
 f_conds := ["*"];
 f_body := Use [2;1] |}.

(* multisim/precomp_funs.py, line 3585: solve_mix *)
Definition f_precomp_funs__solve_mix : func := {|
 f_file := "precomp_funs.py"; f_name := "solve_mix"; f_line := 3585;
 f_params := ["port_array"; "_port_link_idx"; "dm_io"; "T"]; f_closure := [];
 f_locals := ["cp"; "T_AB"; "T_A"; "T_B"];
 f_outer := ["cp_water"];
 f_conds := ["*"; "dm_io[2] != 0"];
 f_body := block [Use [1;2;4;3]; Choice 2 (block [Use [4;9]; Def [5]; Use [3;5;4]; Def [6]; Use [4;6]]) (block
 [Use [4]; Def [6]; Use [4]; Def [7]; Use [4]; Def [8]; Use [7;4;8;6]])] |}.

(* multisim/precomp_funs.py, line 3617: solve_split_overload *)
Definition f_precomp_funs__solve_split_overload : func := {|
 f_file := "precomp_funs.py"; f_name := "solve_split_overload"; f_line := 3617;
 f_params := ["arglist"]; f_closure := [];
 f_locals := [];
 f_outer := ["solve_split"];
 f_conds := ["*"];
 f_body := Use [2;1] |}.

(* multisim/precomp_funs.py, line 3627: solve_split *)
Definition f_precomp_funs__solve_split : func := {|
 f_file := "precomp_funs.py"; f_name := "solve_split"; f_line := 3627;
 f_params := ["port_array"; "_port_link_idx"; "T"]; f_closure := [];
 f_locals := ["T_in"];
 f_outer := [];
 f_conds := ["*"];
 f_body := block [Use [1;2;3]; Def [4]; Use [3;4]] |}.

(* multisim/precomp_funs.py, line 3635: solve_pump_overload *)
Definition f_precomp_funs__solve_pump_overload : func := {|
 f_file := "precomp_funs.py"; f_name := "solve_pump_overload"; f_line := 3635;
 f_params := ["arglist"]; f_closure := [];
 f_locals := [];
 f_outer := ["solve_pump"];
 f_conds := ["*"];
 f_body := Use [2;1] |}.

(* multisim/precomp_funs.py, line 3640: solve_pump *)
Definition f_precomp_funs__solve_pump : func := {|
 f_file := "precomp_funs.py"; f_name := "solve_pump"; f_line := 3640;
 f_params := ["ports_all"; "port_link_idx"; "T"; "res"; "res_dm"; "dm"; "stepnum"]; f_closure := [];
 f_locals := [];
 f_outer := ["_get_p_arr_pump"];
 f_conds := ["*"];
 f_body := Use [8;1;2;3;6;5;7;4] |}.

(* multisim/precomp_funs.py, line 3654: ctrl_deadtime *)
Definition f_precomp_funs__ctrl_deadtime : func := {|
 f_file := "precomp_funs.py"; f_name := "ctrl_deadtime"; f_line := 3654;
 f_params := ["deadtime"; "timestep"; "dt_arr"; "pv_arr"; "len_dt_arr"; "dt_idx"; "last_dt_idx"; "delayed_pv"; "sp"; "pv"]; f_closure := [];
 f_locals := ["i"; "error"];
 f_outer := ["range"];
 f_conds := ["*"; "dt_idx != -1"; "dt_arr[i] >= deadtime"; "dt_idx == 0"; "dt_idx > 0"; "dt_arr[dt_idx] == deadtime"];
 f_body := block [Use [3;2]; Def [3]; Use [6]; Choice 2 (block [Use [6]; Def [7]]) (block [Use [7]; Def [7]]);
 Def [6]; Use [13;5]; Loop false (block [Def [11]; Use [3;11;1]; Choice 3 (block [Use [11]; Def [6];
 Break]) Skip]) Skip; Use [6]; Choice 4 (block [Use [8;4;1;3]; Def [8]]) (block [Use [6]; Choice 5
 (block [Use [3;6;1]; Choice 6 (block [Use [4;6]; Def [8]]) (block [Use [4;6;3;1]; Def [8]])]) (block
 [Use [8;4;7;1;3;2]; Def [8]])]); Use [9;8]; Def [12]; Use [3;6;4;10;12;8;7]; Return] |}.

(* multisim/precomp_funs.py, line 3733: _heun_corrector_adapt *)
Definition f_precomp_funs___heun_corrector_adapt : func := {|
 f_file := "precomp_funs.py"; f_name := "_heun_corrector_adapt"; f_line := 3733;
 f_params := ["res"; "T"; "df0"; "df1"; "trnc_err_cell_weight"; "_h"; "stepnum"; "rtol"; "atol"; "err"; "new_trnc_err"]; f_closure := [];
 f_locals := ["trnc_err"];
 f_outer := ["np"];
 f_conds := ["*"];
 f_body := block [Use [1;7;6;3;4;2;5;13;8;9]; Def [12]; Use [10;12]; Def [10]; Use [12;2]; Def [11]; Use
 [1;7;2;10;11]; Return] |}.

(* multisim/precomp_funs.py, line 3786: _embedded_adapt_stepsize *)
Definition f_precomp_funs___embedded_adapt_stepsize : func := {|
 f_file := "precomp_funs.py"; f_name := "_embedded_adapt_stepsize"; f_line := 3786;
 f_params := ["err"; "sys_trnc_err"; "num_cells_tot_nmrc"; "step_accepted"; "failed_steps"; "safety"; "order"; "solver_state"; "min_factor"; "max_factor"; "min_stepsize"; "max_stepsize"; "ports_all"; "parr_bkp"; "vN_max_step"; "step_stable"; "cnt_instable"; "timeframe"; "_h"; "timestep"; "stepnum"]; f_closure := [];
 f_locals := ["err_rms"];
 f_outer := ["min"; "max"];
 f_conds := ["*"; "err_rms < 1"; "_h > max_stepsize"; "err_rms == 0.0"; "_h == min_stepsize"; "_h < min_stepsize"; "not step_stable[0]"; "cnt_instable == 50"];
 f_body := block [Use [1;3]; Def [22]; Use [22;2;21]; Choice 2 (block [Def [4]; Use [19]; Def [20]; Use
 [19;23;10;24;6;22;7]; Def [19]; Use [19;12]; Choice 3 (block [Use [12]; Def [19]; Use [8;21]]) (Use
 [8;21])]) (block [Use [22]; Choice 4 (block [Def [4]; Use [19]; Def [20]; Use [19;10]; Def [19]; Use
 [8;21;19;12]; Choice 3 (block [Use [12]; Def [19]]) Skip]) (block [Use [19;11]; Choice 5 (block [Def
 [4]; Use [19]; Def [20]; Use [8;21]]) (block [Use [19;24;9;6;22;7]; Def [19]; Use [19;11]; Choice 6
 (block [Use [11]; Def [19]]) Skip; Use [14;13;5;21]])])]); Use [16]; Choice 7 (block [Def [4]; Use
 [17]; Def [17]; Use [15]; Def [19]; Use [5;21;14;13;17]; Choice 8 (block [Def [18]; Use [8;21]])
 Skip]) Skip; Use [4;20;18;17]; Return] |}.

(* multisim/precomp_funs.py, line 3906: rayleigh_number *)
Definition f_precomp_funs__rayleigh_number : func := {|
 f_file := "precomp_funs.py"; f_name := "rayleigh_number"; f_line := 3906;
 f_params := ["T_s"; "T_inf"; "Pr"; "ny"; "Kelvin"; "flow_length"]; f_closure := [];
 f_locals := [];
 f_outer := ["np"];
 f_conds := ["*"];
 f_body := block [Use [7;1;2;6;3;5;4]; Return] |}.

(* multisim/precomp_funs.py, line 3954: get_rho_water *)
Definition f_precomp_funs__get_rho_water : func := {|
 f_file := "precomp_funs.py"; f_name := "get_rho_water"; f_line := 3954;
 f_params := ["T"; "rho"]; f_closure := [];
 f_locals := [];
 f_outer := [];
 f_conds := ["*"];
 f_body := Use [1;2] |}.

(* multisim/precomp_funs.py, line 3972: rho_water *)
Definition f_precomp_funs__rho_water : func := {|
 f_file := "precomp_funs.py"; f_name := "rho_water"; f_line := 3972;
 f_params := ["T"]; f_closure := [];
 f_locals := [];
 f_outer := [];
 f_conds := ["*"];
 f_body := block [Use [1]; Return] |}.

(* multisim/precomp_funs.py, line 3987: lambda_water *)
Definition f_precomp_funs__lambda_water : func := {|
 f_file := "precomp_funs.py"; f_name := "lambda_water"; f_line := 3987;
 f_params := ["T"]; f_closure := [];
 f_locals := [];
 f_outer := [];
 f_conds := ["*"];
 f_body := block [Use [1]; Return] |}.

(* multisim/precomp_funs.py, line 4001: get_lambda_water *)
Definition f_precomp_funs__get_lambda_water : func := {|
 f_file := "precomp_funs.py"; f_name := "get_lambda_water"; f_line := 4001;
 f_params := ["T"; "lam"]; f_closure := [];
 f_locals := [];
 f_outer := [];
 f_conds := ["*"];
 f_body := Use [1;2] |}.

(* multisim/precomp_funs.py, line 4016: get_cp_water *)
Definition f_precomp_funs__get_cp_water : func := {|
 f_file := "precomp_funs.py"; f_name := "get_cp_water"; f_line := 4016;
 f_params := ["T"; "cp"]; f_closure := [];
 f_locals := [];
 f_outer := [];
 f_conds := ["*"];
 f_body := Use [1;2] |}.

(* multisim/precomp_funs.py, line 4034: cp_water *)
Definition f_precomp_funs__cp_water : func := {|
 f_file := "precomp_funs.py"; f_name := "cp_water"; f_line := 4034;
 f_params := ["T"]; f_closure := [];
 f_locals := [];
 f_outer := [];
 f_conds := ["*"];
 f_body := block [Use [1]; Return] |}.

(* multisim/precomp_funs.py, line 4050: get_ny_water *)
Definition f_precomp_funs__get_ny_water : func := {|
 f_file := "precomp_funs.py"; f_name := "get_ny_water"; f_line := 4050;
 f_params := ["T"; "ny"]; f_closure := [];
 f_locals := [];
 f_outer := [];
 f_conds := ["*"];
 f_body := Use [1;2] |}.

(* multisim/precomp_funs.py, line 4066: ny_water *)
Definition f_precomp_funs__ny_water : func := {|
 f_file := "precomp_funs.py"; f_name := "ny_water"; f_line := 4066;
 f_params := ["T"]; f_closure := [];
 f_locals := [];
 f_outer := [];
 f_conds := ["*"];
 f_body := block [Use [1]; Return] |}.

(* multisim/precomp_funs.py, line 4081: get_Pr_water *)
Definition f_precomp_funs__get_Pr_water : func := {|
 f_file := "precomp_funs.py"; f_name := "get_Pr_water"; f_line := 4081;
 f_params := ["T"; "Pr"]; f_closure := [];
 f_locals := [];
 f_outer := [];
 f_conds := ["*"];
 f_body := Use [1;2] |}.

(* multisim/precomp_funs.py, line 4100: Pr_water_return *)
Definition f_precomp_funs__Pr_water_return : func := {|
 f_file := "precomp_funs.py"; f_name := "Pr_water_return"; f_line := 4100;
 f_params := ["T"]; f_closure := [];
 f_locals := [];
 f_outer := [];
 f_conds := ["*"];
 f_body := block [Use [1]; Return] |}.

(* multisim/precomp_funs.py, line 4118: get_beta_water *)
Definition f_precomp_funs__get_beta_water : func := {|
 f_file := "precomp_funs.py"; f_name := "get_beta_water"; f_line := 4118;
 f_params := ["T"; "beta"]; f_closure := [];
 f_locals := [];
 f_outer := [];
 f_conds := ["*"];
 f_body := Use [1;2] |}.

(* multisim/precomp_funs.py, line 4133: beta_water_return *)
Definition f_precomp_funs__beta_water_return : func := {|
 f_file := "precomp_funs.py"; f_name := "beta_water_return"; f_line := 4133;
 f_params := ["T"]; f_closure := [];
 f_locals := [];
 f_outer := [];
 f_conds := ["*"];
 f_body := block [Use [1]; Return] |}.

(* multisim/precomp_funs.py, line 4147: get_Re_water *)
Definition f_precomp_funs__get_Re_water : func := {|
 f_file := "precomp_funs.py"; f_name := "get_Re_water"; f_line := 4147;
 f_params := ["v"; "L"; "ny"; "Re"]; f_closure := [];
 f_locals := [];
 f_outer := ["np"];
 f_conds := ["*"];
 f_body := Use [5;1;2;3;4] |}.

(* multisim/precomp_funs.py, line 4153: Re_water_return *)
Definition f_precomp_funs__Re_water_return : func := {|
 f_file := "precomp_funs.py"; f_name := "Re_water_return"; f_line := 4153;
 f_params := ["v"; "L"; "ny"]; f_closure := [];
 f_locals := [];
 f_outer := ["np"];
 f_conds := ["*"];
 f_body := block [Use [4;1;2;3]; Return] |}.

(* multisim/precomp_funs.py, line 4160: get_rho_dryair *)
Definition f_precomp_funs__get_rho_dryair : func := {|
 f_file := "precomp_funs.py"; f_name := "get_rho_dryair"; f_line := 4160;
 f_params := ["T"; "rho"]; f_closure := [];
 f_locals := [];
 f_outer := [];
 f_conds := ["*"];
 f_body := Use [1;2] |}.

(* multisim/precomp_funs.py, line 4171: get_lam_dryair *)
Definition f_precomp_funs__get_lam_dryair : func := {|
 f_file := "precomp_funs.py"; f_name := "get_lam_dryair"; f_line := 4171;
 f_params := ["T"; "lam"]; f_closure := [];
 f_locals := [];
 f_outer := [];
 f_conds := ["*"];
 f_body := Use [1;2] |}.

(* multisim/precomp_funs.py, line 4182: lam_dryair_return *)
Definition f_precomp_funs__lam_dryair_return : func := {|
 f_file := "precomp_funs.py"; f_name := "lam_dryair_return"; f_line := 4182;
 f_params := ["T"]; f_closure := [];
 f_locals := [];
 f_outer := [];
 f_conds := ["*"];
 f_body := block [Use [1]; Return] |}.

(* multisim/precomp_funs.py, line 4193: get_ny_dryair *)
Definition f_precomp_funs__get_ny_dryair : func := {|
 f_file := "precomp_funs.py"; f_name := "get_ny_dryair"; f_line := 4193;
 f_params := ["T"; "ny"]; f_closure := [];
 f_locals := [];
 f_outer := [];
 f_conds := ["*"];
 f_body := Use [1;2] |}.

(* multisim/precomp_funs.py, line 4204: ny_dryair_return *)
Definition f_precomp_funs__ny_dryair_return : func := {|
 f_file := "precomp_funs.py"; f_name := "ny_dryair_return"; f_line := 4204;
 f_params := ["T"]; f_closure := [];
 f_locals := [];
 f_outer := [];
 f_conds := ["*"];
 f_body := block [Use [1]; Return] |}.

(* multisim/precomp_funs.py, line 4216: humid_air_saturation_pressure *)
Definition f_precomp_funs__humid_air_saturation_pressure : func := {|
 f_file := "precomp_funs.py"; f_name := "humid_air_saturation_pressure"; f_line := 4216;
 f_params := ["T"]; f_closure := [];
 f_locals := [];
 f_outer := [];
 f_conds := ["*"];
 f_body := block [Use [1]; Return] |}.

(* multisim/precomp_funs.py, line 4239: humid_air_sat_water_mass *)
Definition f_precomp_funs__humid_air_sat_water_mass : func := {|
 f_file := "precomp_funs.py"; f_name := "humid_air_sat_water_mass"; f_line := 4239;
 f_params := ["T"]; f_closure := [];
 f_locals := [];
 f_outer := [];
 f_conds := ["*"];
 f_body := block [Use [1]; Return] |}.

(* multisim/precomp_funs.py, line 4270: calc_flow_length *)
Definition f_precomp_funs__calc_flow_length : func := {|
 f_file := "precomp_funs.py"; f_name := "calc_flow_length"; f_line := 4270;
 f_params := ["part_shape"; "vertical"; "kwargs"]; f_closure := [];
 f_locals := ["err_str"; "err_str_len"];
 f_outer := ["str"; "type"; "bool"; "isinstance"; "int"; "float"; "np"];
 f_conds := ["*"; "part_shape in ['plane', 'cylinder', 'sphere']"; "type(vertical) == bool"; "part_shape in ('plane', 'cylinder') and vertical"; "'height' in kwargs and isinstance(kwargs['height'], (int, float))"; "part_shape == 'plane' and (not vertical)"; "'width' in kwargs and isinstance(kwargs['width'], (int, float))"; "'depth' in kwargs and isinstance(kwargs['depth'], (int, float))"; "part_shape == 'cylinder' and (not vertical)"; "'diameter' in kwargs and isinstance(kwargs['diameter'], (int, float))"];
 f_body := block [Use [6;1]; Def [4]; Use [1]; Choice 2 Skip (block [Use [4]; Raise]); Use [6;2]; Def [4]; Use
 [7;2;8]; Choice 3 Skip (block [Use [4]; Raise]); Def [5]; Use [1]; Choice 1 Skip (Use [2]); Choice 4
 (block [Use [3]; Choice 1 Skip (Use [9;3;10;11]); Choice 5 Skip (block [Use [5]; Raise]); Use [3];
 Return]) (block [Use [1]; Choice 1 Skip (Use [2]); Choice 6 (block [Use [3]; Choice 1 Skip (Use
 [9;3;10;11]); Choice 7 Skip (block [Use [5]; Raise]); Use [3]; Choice 1 Skip (Use [9;3;10;11]);
 Choice 8 Skip (block [Use [5]; Raise]); Use [3]; Return]) (block [Use [1]; Choice 1 Skip (Use [2]);
 Choice 9 (block [Use [3]; Choice 1 Skip (Use [9;3;10;11]); Choice 10 Skip (block [Use [5]; Raise]);
 Use [3;12]; Return]) (block [Use [3]; Choice 1 Skip (Use [9;3;10;11]); Choice 10 Skip (block [Use
 [5]; Raise]); Use [3]; Return])])])] |}.

(* multisim/precomp_funs.py, line 4334: pipe_get_Re *)
Definition f_precomp_funs__pipe_get_Re : func := {|
 f_file := "precomp_funs.py"; f_name := "pipe_get_Re"; f_line := 4334;
 f_params := ["dm"; "rho"; "ny"; "A"; "d_i"; "Re"]; f_closure := [];
 f_locals := [];
 f_outer := ["get_Re_water"];
 f_conds := ["*"];
 f_body := Use [7;1;2;4;5;3;6] |}.

(* multisim/precomp_funs.py, line 4340: pipe_get_Re2 *)
Definition f_precomp_funs__pipe_get_Re2 : func := {|
 f_file := "precomp_funs.py"; f_name := "pipe_get_Re2"; f_line := 4340;
 f_params := ["dm"; "rho"; "ny"; "A"; "d_i"; "Re"]; f_closure := [];
 f_locals := [];
 f_outer := [];
 f_conds := ["*"];
 f_body := Use [1;5;2;4;3;6] |}.

(* multisim/precomp_funs.py, line 4345: pipe_alpha_i *)
Definition f_precomp_funs__pipe_alpha_i : func := {|
 f_file := "precomp_funs.py"; f_name := "pipe_alpha_i"; f_line := 4345;
 f_params := ["dm"; "T"; "rho"; "ny"; "lam_fld"; "A"; "d_i"; "x"; "alpha"]; f_closure := [];
 f_locals := ["shape"; "Re"; "Pr_f"; "Nu"; "Pe"; "xi"; "turb"; "f"];
 f_outer := ["np"; "get_Re_water"; "get_Pr_water"];
 f_conds := ["*"; "dm[0] < 0"];
 f_body := block [Use [3]; Def [10]; Use [18;10]; Def [11]; Use [18;2]; Def [12]; Use [18;10]; Def [13]; Use
 [19;1;3;6;7;4;11;20;2;12]; Def [14]; Use [1]; Choice 2 (block [Use [8]; Def [15]]) (block [Use [8];
 Def [15]]); Use [11]; Def [16]; Use [14;16;7;15;13;18;11]; Def [17]; Use [17;14;16;12;7;15;13;5;9]] |}.

(* multisim/precomp_funs.py, line 4429: pipe_alpha_i_wll_sep *)
Definition f_precomp_funs__pipe_alpha_i_wll_sep : func := {|
 f_file := "precomp_funs.py"; f_name := "pipe_alpha_i_wll_sep"; f_line := 4429;
 f_params := ["dm"; "T"; "rho"; "ny"; "lam_fld"; "A"; "d_i"; "x"; "alpha"]; f_closure := [];
 f_locals := ["shape"; "Re"; "Pr"; "Nu"; "K"; "Pr_f"; "Pe"; "xi"; "turb"; "f"];
 f_outer := ["np"; "get_Re_water"; "get_Pr_water"];
 f_conds := ["*"; "dm[0] < 0"];
 f_body := block [Use [3]; Def [10]; Use [20;10]; Def [11]; Use [20;2]; Def [12]; Use [20;10]; Def [13]; Use
 [21;1;3;6;7;4;11;22;2;12]; Def [14]; Use [12]; Def [15]; Use [11;15]; Def [16]; Use [1]; Choice 2
 (block [Use [8]; Def [17]]) (block [Use [8]; Def [17]]); Use [11]; Def [18]; Use
 [16;18;7;17;13;20;11]; Def [19]; Use [19;16;18;15;7;17;13;14;5;9]] |}.

(* multisim/precomp_funs.py, line 4516: phex_alpha_i_wll_sep *)
Definition f_precomp_funs__phex_alpha_i_wll_sep : func := {|
 f_file := "precomp_funs.py"; f_name := "phex_alpha_i_wll_sep"; f_line := 4516;
 f_params := ["dm"; "T_fld"; "T_wll"; "rho"; "ny"; "lam_fld"; "A"; "d_h"; "x"; "corr_Re"; "alpha"]; f_closure := [];
 f_locals := ["shape"; "Re"; "Nu"; "Pr_f"; "Pr_wll"; "K"; "Pe"; "turb"; "Pe_dx"; "f"];
 f_outer := ["np"; "get_Re_water"; "Pr_water_return"];
 f_conds := ["*"];
 f_body := block [Use [11]; Def [12]; Use [22;12]; Def [13]; Use [22;12]; Def [14]; Use [23;1;4;7;8;5;13;24;2];
 Def [15]; Use [24;3]; Def [16]; Use [13;10]; Def [13]; Use [15;16]; Def [17]; Use [13;15]; Def [18];
 Use [13]; Def [19]; Use [18;19;8;9]; Def [20]; Use [20;15;14;19;22;13]; Def [21]; Use
 [21;18;19;15;8;9;14;17;6;11]] |}.

(* multisim/precomp_funs.py, line 4601: phex_alpha_i_wll_sep_discretized *)
Definition f_precomp_funs__phex_alpha_i_wll_sep_discretized : func := {|
 f_file := "precomp_funs.py"; f_name := "phex_alpha_i_wll_sep_discretized"; f_line := 4601;
 f_params := ["dm"; "T_fld"; "T_wll"; "rho"; "ny"; "lam_fld"; "A"; "d_h"; "x"; "corr_Re"; "alpha"]; f_closure := [];
 f_locals := ["shape"; "Re"; "Nu"; "Pr_f"; "Pr_wll"; "K"; "Pe"; "turb"; "Pe_dx"; "f"];
 f_outer := ["np"; "get_Re_water"; "Pr_water_return"];
 f_conds := ["*"];
 f_body := block [Use [11]; Def [12]; Use [22;12]; Def [13]; Use [22;12]; Def [14]; Use [23;1;4;7;8;5;13;24;2];
 Def [15]; Use [24;3]; Def [16]; Use [13;10]; Def [13]; Use [15;16]; Def [17]; Use [13;15]; Def [18];
 Use [13]; Def [19]; Use [18;19;8;9]; Def [20]; Use [20;15;19;14;22;13]; Def [21]; Use
 [21;18;19;15;8;9;14;17;6;11]] |}.

(* multisim/precomp_funs.py, line 4687: cylinder_alpha_inf *)
Definition f_precomp_funs__cylinder_alpha_inf : func := {|
 f_file := "precomp_funs.py"; f_name := "cylinder_alpha_inf"; f_line := 4687;
 f_params := ["T_s"; "T_inf"; "flow_length"; "vertical"; "r_total"; "alpha_inf"]; f_closure := [];
 f_locals := ["Kelvin"; "Pr"; "T_mean"; "ny"; "lam"; "Ra"; "f_Pr"; "Nu"];
 f_outer := ["np"; "get_ny_dryair"; "get_lam_dryair"];
 f_conds := ["*"; "vertical"];
 f_body := block [Def [7]; Def [8]; Use [2;1]; Def [9]; Use [15;9]; Def [10]; Use [15;9]; Def [11]; Use
 [16;9;10;17;11;15;1;2;3;8;7]; Def [12]; Use [4]; Choice 2 (block [Def [13]; Use [12;13;3;5]; Def
 [14]]) (block [Def [13]; Use [12;13]; Def [14]]); Use [14;11;3;6]] |}.

(* multisim/precomp_funs.py, line 4761: plane_alpha_inf *)
Definition f_precomp_funs__plane_alpha_inf : func := {|
 f_file := "precomp_funs.py"; f_name := "plane_alpha_inf"; f_line := 4761;
 f_params := ["T_s"; "T_inf"; "flow_length"; "vertical"; "top"]; f_closure := [];
 f_locals := [];
 f_outer := ["vert_plane_alpha_inf"; "hor_plane_alpha_inf"];
 f_conds := ["*"; "vertical"];
 f_body := block [Use [4]; Choice 2 (block [Use [6;1;2;3]; Return]) (block [Use [7;1;2;3;5]; Return])] |}.

(* multisim/precomp_funs.py, line 4797: vert_plane_alpha_inf *)
Definition f_precomp_funs__vert_plane_alpha_inf : func := {|
 f_file := "precomp_funs.py"; f_name := "vert_plane_alpha_inf"; f_line := 4797;
 f_params := ["T_s"; "T_inf"; "flow_length"]; f_closure := [];
 f_locals := ["Kelvin"; "Pr"; "T_mean"; "ny"; "lam"; "f_Pr"; "Nu"];
 f_outer := ["np"; "get_ny_dryair"; "get_lam_dryair"; "rayleigh_number"];
 f_conds := ["*"];
 f_body := block [Def [4]; Def [5]; Use [2;1]; Def [6]; Use [11;6]; Def [7]; Use [11;6]; Def [8]; Use
 [12;6;7;13;8]; Def [9]; Use [14;1;2;5;7;4;3;9]; Def [10]; Use [10;8;3]; Return] |}.

(* multisim/precomp_funs.py, line 4841: hor_plane_alpha_inf *)
Definition f_precomp_funs__hor_plane_alpha_inf : func := {|
 f_file := "precomp_funs.py"; f_name := "hor_plane_alpha_inf"; f_line := 4841;
 f_params := ["T_s"; "T_inf"; "flow_length"; "top"]; f_closure := [];
 f_locals := ["Kelvin"; "Pr"; "T_mean"; "ny"; "lam"; "Nu"; "Ra"; "i"; "f_Pr"; "Ra_f_Pr"];
 f_outer := ["ny_dryair_return"; "lam_dryair_return"; "np"; "rayleigh_number"; "range"];
 f_conds := ["*"; "top[i] and T_s[i] >= T_inf or (not top[i] and T_s[i] < T_inf)"; "Ra_f_Pr <= 70000.0"];
 f_body := block [Def [5]; Def [6]; Use [2;1]; Def [7]; Use [15;7]; Def [8]; Use [16;7]; Def [9]; Use [17;7];
 Def [10]; Use [18;1;2;6;8;5;3]; Def [11]; Use [19;1]; Loop false (block [Def [12]; Use [4;12];
 Choice 1 Skip (Use [1;12;2]); Choice 1 Skip (block [Use [4;12]; Choice 1 Skip (Use [1;12;2])]);
 Choice 2 (block [Def [13]; Use [11;12;13]; Def [14]; Use [14]; Choice 3 (Use [14;10;12]) (Use
 [14;10;12])]) (block [Def [13]; Use [11;12;13;10]])]) Skip; Use [10;9;3]; Return] |}.

(* multisim/precomp_funs.py, line 4910: UA_fld_wll_ins_amb_cyl *)
Definition f_precomp_funs__UA_fld_wll_ins_amb_cyl : func := {|
 f_file := "precomp_funs.py"; f_name := "UA_fld_wll_ins_amb_cyl"; f_line := 4910;
 f_params := ["A_i"; "r_ln_wll"; "r_ln_ins"; "r_rins"; "alpha_i"; "alpha_inf"; "lam_wll"; "lam_ins"; "out"]; f_closure := [];
 f_locals := [];
 f_outer := [];
 f_conds := ["*"];
 f_body := Use [1;5;2;7;3;8;4;6;9] |}.

(* multisim/precomp_funs.py, line 4969: UA_fld_wll_amb_cyl *)
Definition f_precomp_funs__UA_fld_wll_amb_cyl : func := {|
 f_file := "precomp_funs.py"; f_name := "UA_fld_wll_amb_cyl"; f_line := 4969;
 f_params := ["A_i"; "r_ln_wll"; "r_ro"; "alpha_i"; "alpha_inf"; "lam_wll"; "UA"]; f_closure := [];
 f_locals := [];
 f_outer := [];
 f_conds := ["*"];
 f_body := Use [1;4;2;6;3;5;7] |}.

(* multisim/precomp_funs.py, line 5009: UA_fld_wll_cyl *)
Definition f_precomp_funs__UA_fld_wll_cyl : func := {|
 f_file := "precomp_funs.py"; f_name := "UA_fld_wll_cyl"; f_line := 5009;
 f_params := ["A_i"; "r_i"; "r_o"; "alpha_i"; "lam_wll"; "UA"]; f_closure := [];
 f_locals := [];
 f_outer := ["print"; "np"];
 f_conds := ["*"];
 f_body := Use [7;1;4;2;8;3;5;6] |}.

(* multisim/precomp_funs.py, line 5046: UA_wll_ins_amb_cyl *)
Definition f_precomp_funs__UA_wll_ins_amb_cyl : func := {|
 f_file := "precomp_funs.py"; f_name := "UA_wll_ins_amb_cyl"; f_line := 5046;
 f_params := ["A_i"; "r_i"; "r_o"; "r_ln_ins"; "r_rins"; "alpha_inf"; "lam_wll"; "lam_ins"; "UA"]; f_closure := [];
 f_locals := [];
 f_outer := ["np"];
 f_conds := ["*"];
 f_body := Use [1;2;10;3;7;4;8;5;6;9] |}.

(* multisim/precomp_funs.py, line 5100: UA_wll_amb_cyl *)
Definition f_precomp_funs__UA_wll_amb_cyl : func := {|
 f_file := "precomp_funs.py"; f_name := "UA_wll_amb_cyl"; f_line := 5100;
 f_params := ["A_i"; "r_i"; "r_o"; "alpha_inf"; "lam_wll"; "UA"]; f_closure := [];
 f_locals := [];
 f_outer := ["np"];
 f_conds := ["*"];
 f_body := Use [1;2;7;3;5;4;6] |}.

(* multisim/precomp_funs.py, line 5137: UA_fld_wll_plate *)
Definition f_precomp_funs__UA_fld_wll_plate : func := {|
 f_file := "precomp_funs.py"; f_name := "UA_fld_wll_plate"; f_line := 5137;
 f_params := ["A"; "s_wll"; "alpha_fld"; "lam_wll"]; f_closure := [];
 f_locals := [];
 f_outer := [];
 f_conds := ["*"];
 f_body := block [Use [1;3;2;4]; Return] |}.

(* multisim/precomp_funs.py, line 5162: UA_fld_wll_ins_amb_plate *)
Definition f_precomp_funs__UA_fld_wll_ins_amb_plate : func := {|
 f_file := "precomp_funs.py"; f_name := "UA_fld_wll_ins_amb_plate"; f_line := 5162;
 f_params := ["A"; "s_wll"; "s_ins"; "alpha_fld"; "alpha_inf"; "lam_wll"; "lam_ins"]; f_closure := [];
 f_locals := [];
 f_outer := [];
 f_conds := ["*"];
 f_body := block [Use [1;4;2;6;3;7;5]; Return] |}.

(* multisim/precomp_funs.py, line 5200: UA_wll_ins_amb_plate *)
Definition f_precomp_funs__UA_wll_ins_amb_plate : func := {|
 f_file := "precomp_funs.py"; f_name := "UA_wll_ins_amb_plate"; f_line := 5200;
 f_params := ["A"; "s_wll"; "s_ins"; "lam_wll"; "lam_ins"; "alpha_inf"]; f_closure := [];
 f_locals := [];
 f_outer := [];
 f_conds := ["*"];
 f_body := block [Use [1;2;4;3;5;6]; Return] |}.

(* multisim/precomp_funs.py, line 5230: surface_temp_steady_state_inplace *)
Definition f_precomp_funs__surface_temp_steady_state_inplace : func := {|
 f_file := "precomp_funs.py"; f_name := "surface_temp_steady_state_inplace"; f_line := 5230;
 f_params := ["T"; "T_inf"; "A_s"; "alpha_inf"; "UA"; "T_s"]; f_closure := [];
 f_locals := [];
 f_outer := [];
 f_conds := ["*"];
 f_body := Use [2;1;5;4;3;6] |}.

(* multisim/precomp_funs.py, line 5263: surface_temp_steady_state *)
Definition f_precomp_funs__surface_temp_steady_state : func := {|
 f_file := "precomp_funs.py"; f_name := "surface_temp_steady_state"; f_line := 5263;
 f_params := ["T"; "T_inf"; "A_s"; "alpha_inf"; "UA"]; f_closure := [];
 f_locals := [];
 f_outer := [];
 f_conds := ["*"];
 f_body := block [Use [2;1;5;4;3]; Return] |}.

(* multisim/precomp_funs.py, line 5296: series_circuit_UA *)
Definition f_precomp_funs__series_circuit_UA : func := {|
 f_file := "precomp_funs.py"; f_name := "series_circuit_UA"; f_line := 5296;
 f_params := ["args"]; f_closure := [];
 f_locals := ["UA_series"; "arg_iter"; "arg"];
 f_outer := ["iter"; "next"];
 f_conds := ["*"];
 f_body := block [Use [1]; Def [2]; Use [5;1]; Def [3]; Use [6;3]; Loop false (block [Def [4]; Use [2;4]; Def
 [2]]) Skip; Use [2]; Return] |}.

(* multisim/precomp_funs.py, line 5324: parallel_circuit_UA *)
Definition f_precomp_funs__parallel_circuit_UA : func := {|
 f_file := "precomp_funs.py"; f_name := "parallel_circuit_UA"; f_line := 5324;
 f_params := ["args"]; f_closure := [];
 f_locals := ["UA_parallel"; "arg_iter"; "arg"];
 f_outer := ["iter"; "next"];
 f_conds := ["*"];
 f_body := block [Use [1]; Def [2]; Use [5;1]; Def [3]; Use [6;3]; Loop false (block [Def [4]; Use [2;4]; Def
 [2]]) Skip; Use [2]; Return] |}.

(* multisim/precomp_funs.py, line 5354: log_mean_temp_diff *)
Definition f_precomp_funs__log_mean_temp_diff : func := {|
 f_file := "precomp_funs.py"; f_name := "log_mean_temp_diff"; f_line := 5354;
 f_params := ["T_A_one"; "T_A_two"; "T_B_one"; "T_B_two"]; f_closure := [];
 f_locals := ["Delta_T_A"; "Delta_T_B"; "lmtd"];
 f_outer := ["np"];
 f_conds := ["*"];
 f_body := block [Use [1;2]; Def [5]; Use [3;4]; Def [6]; Use [5;6;8]; Def [7]; Use [7]; Return] |}.

(* multisim/precomp_funs.py, line 5379: moving_avg *)
Definition f_precomp_funs__moving_avg : func := {|
 f_file := "precomp_funs.py"; f_name := "moving_avg"; f_line := 5379;
 f_params := ["x"; "N"]; f_closure := [];
 f_locals := ["arr"; "cumsum"];
 f_outer := ["np"; "float"];
 f_conds := ["*"];
 f_body := block [Use [5;1]; Def [3]; Use [1;3;5]; Def [4]; Use [4;2;6]; Return] |}.

(* multisim/precomp_funs.py, line 5390: fill_edges *)
Definition f_precomp_funs__fill_edges : func := {|
 f_file := "precomp_funs.py"; f_name := "fill_edges"; f_line := 5390;
 f_params := ["x"; "new_length"]; f_closure := [];
 f_locals := ["old_length"; "residual"; "x_new"; "start"];
 f_outer := ["np"];
 f_conds := ["*"];
 f_body := block [Use [1]; Def [3]; Use [2;3]; Def [4]; Use [7;2]; Def [5]; Use [4]; Def [6]; Use [1;5;6;3];
 Return] |}.

(* multisim/precomp_funs.py, line 5404: moving_avg_fill_edges *)
Definition f_precomp_funs__moving_avg_fill_edges : func := {|
 f_file := "precomp_funs.py"; f_name := "moving_avg_fill_edges"; f_line := 5404;
 f_params := ["x"; "N"]; f_closure := [];
 f_locals := [];
 f_outer := ["fill_edges"; "moving_avg"];
 f_conds := ["*"];
 f_body := block [Use [3;4;1;2]; Return] |}.

(* multisim/precomp_funs.py, line 5412: weighted_moving_avg *)
Definition f_precomp_funs__weighted_moving_avg : func := {|
 f_file := "precomp_funs.py"; f_name := "weighted_moving_avg"; f_line := 5412;
 f_params := ["x"; "wght"; "fill_edges"]; f_closure := [];
 f_locals := ["N"; "length"; "wa_len"; "residual"; "start"; "wa"; "i"];
 f_outer := ["np"; "range"];
 f_conds := ["*"; "fill_edges"];
 f_body := block [Use [2]; Def [4]; Use [1;4]; Def [5]; Use [3]; Choice 2 (block [Use [1]; Def [6]; Use [6;5];
 Def [7]; Use [7]; Def [8]; Use [11;6]; Def [9]]) (block [Def [8]; Use [11;5]; Def [9]]); Use [12;5];
 Loop false (block [Def [10]; Use [1;10;4;2;9;8]]) Skip; Use [3]; Choice 2 (Use [9;8;10;5]) Skip; Use
 [9]; Return] |}.

(* multisim/precomp_funs.py, line 5438: root_finder *)
Definition f_precomp_funs__root_finder : func := {|
 f_file := "precomp_funs.py"; f_name := "root_finder"; f_line := 5438;
 f_params := ["poly_coeff"; "roots"]; f_closure := [];
 f_locals := ["polcoeffs"; "lin_coeff"; "rts_arr"; "i"];
 f_outer := ["np"; "nb"];
 f_conds := ["*"];
 f_body := block [Use [1]; Def [3]; Use [3]; Def [4]; Use [7;2;1]; Def [5]; Use [8;2]; Loop false (block [Def
 [6]; Use [4;2;6;3;7;5]]) Skip; Use [5]; Return] |}.

(* multisim/precomp_funs.py, line 5478: lim_growth *)
Definition f_precomp_funs__lim_growth : func := {|
 f_file := "precomp_funs.py"; f_name := "lim_growth"; f_line := 5478;
 f_params := ["x"; "s"; "b0"; "k"]; f_closure := [];
 f_locals := [];
 f_outer := [];
 f_conds := ["*"];
 f_body := block [Use [2;3;4;1]; Return] |}.

(* multisim/precomp_funs.py, line 5504: chp_startup_th *)
Definition f_precomp_funs__chp_startup_th : func := {|
 f_file := "precomp_funs.py"; f_name := "chp_startup_th"; f_line := 5504;
 f_params := ["time"; "s"; "b0"; "k"]; f_closure := [];
 f_locals := [];
 f_outer := ["np"];
 f_conds := ["*"];
 f_body := block [Use [2;3;5;4;1]; Return] |}.

(* multisim/precomp_funs.py, line 5538: chp_startup_el *)
Definition f_precomp_funs__chp_startup_el : func := {|
 f_file := "precomp_funs.py"; f_name := "chp_startup_el"; f_line := 5538;
 f_params := ["time"; "s"; "b0"; "k"]; f_closure := [];
 f_locals := [];
 f_outer := ["lim_growth"];
 f_conds := ["*"];
 f_body := block [Use [5;1;2;3;4]; Return] |}.

(* multisim/precomp_funs.py, line 5578: chp_startup_gas *)
Definition f_precomp_funs__chp_startup_gas : func := {|
 f_file := "precomp_funs.py"; f_name := "chp_startup_gas"; f_line := 5578;
 f_params := ["time"]; f_closure := [];
 f_locals := [];
 f_outer := ["chp_startup_el"; "chp_startup_th"];
 f_conds := ["*"];
 f_body := block [Use [2;1;3]; Return] |}.

(* multisim/precomp_funs.py, line 5604: chp_thermal_power *)
Definition f_precomp_funs__chp_thermal_power : func := {|
 f_file := "precomp_funs.py"; f_name := "chp_thermal_power"; f_line := 5604;
 f_params := ["modulation"; "s"; "b0"; "k"]; f_closure := [];
 f_locals := [];
 f_outer := ["lim_growth"];
 f_conds := ["*"];
 f_body := block [Use [5;1;2;3;4]; Return] |}.

(* multisim/precomp_funs.py, line 5640: chp_gas_power *)
Definition f_precomp_funs__chp_gas_power : func := {|
 f_file := "precomp_funs.py"; f_name := "chp_gas_power"; f_line := 5640;
 f_params := ["modulation"; "s"; "b0"; "k"]; f_closure := [];
 f_locals := [];
 f_outer := ["lim_growth"];
 f_conds := ["*"];
 f_body := block [Use [5;1;2;3;4]; Return] |}.

(* multisim/precomp_funs.py, line 5675: chp_shutdown_th *)
Definition f_precomp_funs__chp_shutdown_th : func := {|
 f_file := "precomp_funs.py"; f_name := "chp_shutdown_th"; f_line := 5675;
 f_params := ["time"; "a"; "b"]; f_closure := [];
 f_locals := [];
 f_outer := [];
 f_conds := ["*"];
 f_body := block [Use [2;1;3]; Return] |}.

(* multisim/precomp_funs.py, line 5706: quad_get_c *)
Definition f_precomp_funs__quad_get_c : func := {|
 f_file := "precomp_funs.py"; f_name := "quad_get_c"; f_line := 5706;
 f_params := ["x"; "dy"; "b"; "c_base"]; f_closure := [];
 f_locals := [];
 f_outer := [];
 f_conds := ["*"];
 f_body := block [Use [4;2;3]; Return] |}.

(* multisim/precomp_funs.py, line 5712: quad_get_b *)
Definition f_precomp_funs__quad_get_b : func := {|
 f_file := "precomp_funs.py"; f_name := "quad_get_b"; f_line := 5712;
 f_params := ["y0"; "a"; "c"]; f_closure := [];
 f_locals := [];
 f_outer := ["np"];
 f_conds := ["*"];
 f_body := block [Use [4;1;2;3]; Return] |}.

(* multisim/precomp_funs.py, line 5718: condensing_hex_quad_poly *)
Definition f_precomp_funs__condensing_hex_quad_poly : func := {|
 f_file := "precomp_funs.py"; f_name := "condensing_hex_quad_poly"; f_line := 5718;
 f_params := ["X_pred"; "int_comb_idx"; "nvars_per_ftr"; "pca_mean"; "pca_components"; "lm_intercept"; "lm_coef"; "dm_water_thresh"; "dx"]; f_closure := [];
 f_locals := ["n_samples"; "dm_bkp"; "X_pred_bc"; "X_pred_dx"; "y0"; "X_pf_bc"; "X_PC_bc"; "y_hat_bc"; "X_pf_dx"; "X_PC_dx"; "y_hat_dx"; "dy"; "c"; "i"; "b"; "T_pred_below_thresh"];
 f_outer := ["np"; "transform_to_poly_nb"; "transform_pca_nb"; "poly_tranfs_pred"; "range"; "quad_get_b"; "quad_get_c"];
 f_conds := ["*"];
 f_body := block [Use [1]; Def [10]; Use [1]; Def [11]; Use [26;1;8]; Def [12]; Use [12]; Def [13]; Use
 [13;9;1]; Def [14]; Use [27;12;2;3;10]; Def [15]; Use [28;15;4;5]; Def [16]; Use [29;16;6;7]; Def
 [17]; Use [27;13;2;3;10]; Def [18]; Use [28;18;4;5]; Def [19]; Use [29;19;6;7]; Def [20]; Use
 [17;20;9]; Def [21]; Use [26;8]; Def [22]; Use [30]; Loop false (block [Def [23]; Use [31;14;17;22];
 Def [24]; Use [32;11;21;24;8]; Def [22]]) Skip; Use [17;24;11;8]; Def [25]; Use [25]; Return] |}.

(* multisim/precomp_funs.py, line 5787: _process_chp_core_modulation *)
Definition f_precomp_funs___process_chp_core_modulation : func := {|
 f_file := "precomp_funs.py"; f_name := "_process_chp_core_modulation"; f_line := 5787;
 f_params := ["process_flows"; "power_modulation"; "T"; "T_chp_in"; "T_chp_in_max"; "T_chp_in_max_emrgncy"; "mod_lower"; "min_on_time"; "min_off_time"; "max_ramp_el"; "startup_in_progress"; "shutdown_in_progress"; "chp_state"; "startup_at_time"; "shutdown_at_time"; "startup_duration"; "shutdown_duration"; "chp_on_perc"; "remaining_heat"; "bin_pow_fac"; "startup_factor_th"; "startup_factor_el"; "shutdown_factor_th"; "startuptsteps"; "chp_off_perc"; "dt_time_temp_exc"; "max_temp_exc_time"; "stepnum"; "time_vec"; "timestep"]; f_closure := [];
 f_locals := ["curr_time"; "state_last_step"; "chp_on"; "mod_diff"; "mod_ramp_abs"];
 f_outer := ["np"; "chp_startup_th"; "chp_startup_el"; "chp_shutdown_th"];
 f_conds := ["*"; "process_flows[0]"; "power_modulation[0] < mod_lower"; "(state_last_step != 0.0) != chp_on"; "not chp_on"; "min_on_time > curr_time - startup_at_time"; "min_off_time > curr_time - shutdown_at_time or T_chp_in[0] > T_chp_in_max or np.any(T >..."; "chp_on"; "mod_ramp_abs > max_ramp_el"; "mod_diff <= 0.0"; "chp_on and (T_chp_in[0] > T_chp_in_max or np.any(T > T_chp_in_max_emrgncy))"; "dt_time_temp_exc > max_temp_exc_time or np.any(T > T_chp_in_max_emrgncy)"; "startup_at_time > shutdown_at_time"; "shutdown_factor_th > chp_off_perc"; "startup_in_progress"; "startup_factor_th < 0.0"; "startup_factor_th > 1.0"; "startup_factor_el < 0.0"; "startup_factor_el > 1.0"; "startup_factor_th > chp_on_perc"; "shutdown_in_progress"; "shutdown_factor_th < chp_off_perc"];
 f_body := block [Use [1]; Choice 2 (block [Use [29;28;30]; Def [31]; Use [13;28]; Def [32]; Use [2;7]; Choice
 3 (block [Def [20]; Def [33]]) (block [Def [20]; Def [33]]); Use [32;33]; Choice 4 (block [Use [33];
 Choice 5 (block [Use [8;31;14]; Choice 6 (block [Def [20]; Def [33]; Use [7;2]]) (block [Use [31];
 Def [15]; Def [12]])]) (block [Use [9;31;15]; Choice 1 Skip (block [Use [4;5]; Choice 1 Skip (Use
 [36;3;6])]); Choice 7 (block [Def [20]; Def [33]; Use [2]]) (block [Use [31]; Def [14]; Def
 [11]])])]) (block [Use [33]; Choice 8 (block [Use [32;2]; Def [34]; Use [36;34;30]; Def [35]; Use
 [35;10]; Choice 9 (block [Use [34]; Choice 10 (Use [32;10;30;2]) (Use [32;10;30;2])]) Skip]) Skip]);
 Use [33]; Choice 1 Skip (block [Use [4;5]; Choice 1 Skip (Use [36;3;6])]); Choice 11 (block [Use
 [26;27]; Choice 1 Skip (Use [36;3;6]); Choice 12 (block [Use [2]; Def [20]; Def [33]; Use [31]; Def
 [15]; Def [12]]) (block [Use [26;30]; Def [26]])]) (Def [26]); Use [20;2;13;28;14;15]; Choice 13
 (block [Use [23;25]; Choice 14 (block [Use [36;24;23]; Def [19]; Def [23]; Def [12]]) Skip; Use
 [31;14;19]; Def [16]; Use [11]; Choice 15 (block [Use [37;16]; Def [21]; Use [38;16]; Def [22]; Use
 [21]; Choice 16 Skip (block [Use [21]; Choice 17 Skip (Use [21])]); Def [21]; Use [22]; Choice 18
 Skip (block [Use [22]; Choice 19 Skip (Use [22])]); Def [22]; Use [21;18]; Choice 20 (block [Def
 [11]; Def [21]; Def [22]; Def [19]]) Skip]) Skip]) (block [Use [31;15]; Def [17]; Use [12]; Choice
 21 (block [Use [39;17]; Def [23]; Use [23;25]; Choice 22 (block [Def [12]; Def [23]]) Skip])
 Skip])]) Skip; Use [20;14;15;11;12;21;22;23;26]; Return] |}.

(* multisim/precomp_funs.py, line 6000: predictor_step *)
Definition f_precomp_funs__predictor_step : func := {|
 f_file := "precomp_funs.py"; f_name := "predictor_step"; f_line := 6000;
 f_params := ["diff_fun"; "args"; "h"; "y_prev"]; f_closure := [];
 f_locals := [];
 f_outer := [];
 f_conds := ["*"];
 f_body := block [Use [4;3;1;2]; Return] |}.

(* multisim/precomp_funs.py, line 6005: solve_pred_loop *)
Definition f_precomp_funs__solve_pred_loop : func := {|
 f_file := "precomp_funs.py"; f_name := "solve_pred_loop"; f_line := 6005;
 f_params := ["h"; "diff_funs"; "all_args"; "all_y_prev"; "interm_res"]; f_closure := [];
 f_locals := ["ndiffs"; "n"];
 f_outer := ["len"; "range"; "predictor_step"];
 f_conds := ["*"];
 f_body := block [Use [8;2]; Def [6]; Use [9;6]; Loop false (block [Def [7]; Use [10;2;7;3;1;4;5]]) Skip; Use
 [5]; Return] |}.

(* multisim/precomp_funs.py, line 6015: heun_predictor *)
Definition f_precomp_funs__heun_predictor : func := {|
 f_file := "precomp_funs.py"; f_name := "heun_predictor"; f_line := 6015;
 f_params := ["_h"; "solve_num"; "parts"; "stepnum"; "i"]; f_closure := [];
 f_locals := ["part"];
 f_outer := [];
 f_conds := ["*"; "i == 0"];
 f_body := block [Use [2]; Loop false (block [Def [6]; Use [5]; Choice 2 (Use [3;6]) Skip; Use [3;6;4;2;1]])
 Skip] |}.

(* multisim/precomp_funs.py, line 6030: make_poly_transf_combs_for_nb *)
Definition f_precomp_funs__make_poly_transf_combs_for_nb : func := {|
 f_file := "precomp_funs.py"; f_name := "make_poly_transf_combs_for_nb"; f_line := 6030;
 f_params := ["mdl"; "n_features"; "pipeline"; "poly_step"]; f_closure := [];
 f_locals := ["poly_feats"; "cmbntns"; "int_cmb_idx"; "nvars_per_ftr"; "i"; "c"];
 f_outer := ["getattr"; "ValueError"; "tuple"; "np"; "len"; "enumerate"];
 f_conds := ["*"; "pipeline"; "n_features is None"];
 f_body := block [Use [3]; Choice 2 (block [Use [1;4]; Def [5]]) (block [Use [1]; Def [5]]); Use [2]; Choice 3
 (block [Use [11;5]; Def [2]; Use [2]; Choice 3 (block [Use [12]; Raise]) Skip]) Skip; Use [13;5;2];
 Def [6]; Use [14;15;6]; Def [7]; Use [13;6]; Choice 1 Skip (Use [15]); Def [8]; Use [16;6]; Loop
 false (block [Def [9]; Def [10]; Use [10;7;9;8]]) Skip; Use [7;8]; Return] |}.

(* multisim/precomp_funs.py, line 6065: extract_pca_results *)
Definition f_precomp_funs__extract_pca_results : func := {|
 f_file := "precomp_funs.py"; f_name := "extract_pca_results"; f_line := 6065;
 f_params := ["mdl"; "pipeline"; "pca_step"]; f_closure := [];
 f_locals := ["pca_mdl"];
 f_outer := [];
 f_conds := ["*"; "pipeline"];
 f_body := block [Use [2]; Choice 2 (block [Use [1;3]; Def [4]]) (block [Use [1]; Def [4]]); Use [4]; Return] |}.

(* multisim/precomp_funs.py, line 6077: transform_to_poly_nb *)
Definition f_precomp_funs__transform_to_poly_nb : func := {|
 f_file := "precomp_funs.py"; f_name := "transform_to_poly_nb"; f_line := 6077;
 f_params := ["X"; "int_comb_idx"; "nvars_per_ftr"; "n_samples"]; f_closure := [];
 f_locals := ["XP"; "n"; "i"];
 f_outer := ["np"; "range"];
 f_conds := ["*"];
 f_body := block [Use [8;4;2]; Def [5]; Use [9;5]; Loop false (block [Def [6]; Use [9;5]; Loop false (block
 [Def [7]; Use [5;6;7;1;2;3]]) Skip]) Skip; Use [5]; Return] |}.

(* multisim/precomp_funs.py, line 6089: transform_pca_nb *)
Definition f_precomp_funs__transform_pca_nb : func := {|
 f_file := "precomp_funs.py"; f_name := "transform_pca_nb"; f_line := 6089;
 f_params := ["XP"; "pca_mean"; "pca_components"]; f_closure := [];
 f_locals := [];
 f_outer := ["np"];
 f_conds := ["*"];
 f_body := block [Use [4;1;2;3]; Return] |}.

(* multisim/precomp_funs.py, line 6095: poly_tranfs_pred *)
Definition f_precomp_funs__poly_tranfs_pred : func := {|
 f_file := "precomp_funs.py"; f_name := "poly_tranfs_pred"; f_line := 6095;
 f_params := ["XP_pca_transf"; "intercept"; "coef"]; f_closure := [];
 f_locals := [];
 f_outer := ["np"];
 f_conds := ["*"];
 f_body := block [Use [2;4;1;3]; Return] |}.

(* multisim/precomp_funs.py, line 6104: root_array_secant *)
Definition f_precomp_funs__root_array_secant : func := {|
 f_file := "precomp_funs.py"; f_name := "root_array_secant"; f_line := 6104;
 f_params := ["func"; "x0"; "args"; "tol"; "maxiter"]; f_closure := [];
 f_locals := ["p"; "failures"; "nz_der"; "dx"; "p1"; "q0"; "q1"; "active"; "_"; "dp"; "active_zero_der"];
 f_outer := ["np"; "range"];
 f_conds := ["*"; "not nz_der.any()"; "not failures[nz_der].any()"];
 f_body := block [Use [2]; Def [6]; Use [6]; Def [7]; Use [7]; Def [8]; Use [17]; Def [9]; Use [6;9;17]; Def
 [10]; Use [1;6;3]; Def [11]; Use [1;10;3]; Def [12]; Use [7]; Def [13]; Use [18;5]; Loop false
 (block [Def [14]; Use [12;11]; Def [8]; Use [8]; Choice 2 (block [Use [10;6]; Def [6]; Break]) Skip;
 Use [12;10;6;8;11]; Def [15]; Use [10;8;15;6;13]; Def [16]; Use [10;6;16;13;8]; Def [13]; Use
 [17;15;4;7;8]; Choice 3 (Break) Skip; Use [6;10]; Def [10]; Def [6]; Use [12]; Def [11]; Use
 [1;10;3]; Def [12]]) Skip; Use [6]; Return] |}.

(* multisim/precomp_funs.py, line 6160: root_array_newton *)
Definition f_precomp_funs__root_array_newton : func := {|
 f_file := "precomp_funs.py"; f_name := "root_array_newton"; f_line := 6160;
 f_params := ["func"; "x0"; "fprime"; "args"; "tol"; "maxiter"]; f_closure := [];
 f_locals := ["p"; "failures"; "nz_der"; "iteration"; "fval"; "fder"; "dp"; "dx"; "p1"; "q0"; "q1"; "active"; "active_zero_der"];
 f_outer := ["range"; "bool"; "np"];
 f_conds := ["*"; "fprime is not None"; "not fval.any()"; "not nz_der.any()"; "not failures[nz_der].any()"];
 f_body := block [Use [2]; Def [7]; Use [7]; Def [8]; Use [8]; Def [9]; Use [3]; Choice 2 (block [Use [20;6];
 Loop false (block [Def [10]; Use [1;7;4]; Def [11]; Use [11]; Choice 3 (block [Use [11;21]; Def [8];
 Break]) Skip; Use [3;7;4]; Def [12]; Use [12]; Def [9]; Use [9]; Choice 4 (Break) Skip; Use
 [11;9;12]; Def [13]; Use [7;9;13;22;5;8]; Choice 5 (Break) Skip]) Skip]) (block [Use [22]; Def [14];
 Use [7;14;22]; Def [15]; Use [1;7;4]; Def [16]; Use [1;15;4]; Def [17]; Use [8]; Def [18]; Use
 [20;6]; Loop false (block [Def [10]; Use [17;16]; Def [9]; Use [9]; Choice 4 (block [Use [15;7]; Def
 [7]; Break]) Skip; Use [17;15;7;9;16]; Def [13]; Use [15;9;13;7;18]; Def [19]; Use [15;7;19;18;9];
 Def [18]; Use [22;13;5;8;9]; Choice 5 (Break) Skip; Use [7;15]; Def [15]; Def [7]; Use [17]; Def
 [16]; Use [1;15;4]; Def [17]]) Skip]); Use [7]; Return] |}.

(* multisim/precomp_funs.py, line 6235: root_array_newton_fast *)
Definition f_precomp_funs__root_array_newton_fast : func := {|
 f_file := "precomp_funs.py"; f_name := "root_array_newton_fast"; f_line := 6235;
 f_params := ["func"; "x0"; "fprime"; "args"; "tol"; "maxiter"]; f_closure := [];
 f_locals := ["p"; "nz_der"; "iteration"; "fval"; "failure"; "fder"; "dp"; "dx"; "p1"; "q0"; "q1"; "active"; "active_zero_der"];
 f_outer := ["range"; "np"];
 f_conds := ["*"; "fprime is not None"; "not fval.any()"; "not nz_der.any()"; "not failure"];
 f_body := block [Use [2]; Def [7]; Use [7]; Def [8]; Use [3]; Choice 2 (block [Use [20;6]; Loop false (block
 [Def [9]; Use [1;7;4]; Def [10]; Use [10]; Choice 3 (block [Def [11]; Break]) Skip; Use [3;7;4]; Def
 [12]; Use [12]; Def [8]; Use [8]; Choice 4 (Break) Skip; Use [10;8;12]; Def [13]; Use [7;8;13;5];
 Def [11]; Use [11]; Choice 5 (Break) Skip]) Skip]) (block [Use [21]; Def [14]; Use [7;14;21]; Def
 [15]; Use [1;7;4]; Def [16]; Use [1;15;4]; Def [17]; Use [8]; Def [18]; Use [20;6]; Loop false
 (block [Def [9]; Use [17;16]; Def [8]; Use [8]; Choice 4 (block [Use [15;7]; Def [7]; Break]) Skip;
 Use [17;15;7;8;16]; Def [13]; Use [15;8;13;7;18]; Def [19]; Use [15;7;19;18;8]; Def [18]; Use
 [13;5]; Def [11]; Use [11]; Choice 5 (Break) Skip; Use [7;15]; Def [15]; Def [7]; Use [17]; Def
 [16]; Use [1;15;4]; Def [17]]) Skip]); Use [7;9;17]; Return] |}.

(* multisim/precomp_funs.py, line 6308: root_secant *)
Definition f_precomp_funs__root_secant : func := {|
 f_file := "precomp_funs.py"; f_name := "root_secant"; f_line := 6308;
 f_params := ["f"; "x0"; "h"; "yprev"; "input_args"; "tol"; "max_iter"]; f_closure := [];
 f_locals := ["p0"; "p1"; "fp0"; "fp1"; "false_mask"; "eps"; "_"; "gt_eps"; "p2"];
 f_outer := ["range"; "np"];
 f_conds := ["*"; "((fp1 - tol) ** 2).mean() < tol"];
 f_body := block [Use [2]; Def [8]; Use [2]; Def [9]; Use [1;8;4;3;5]; Def [10]; Use [1;9;4;3;5]; Def [11]; Use
 [10;11]; Def [12]; Use [9;12;8]; Def [13]; Use [17;7]; Loop false (block [Def [14]; Use [11;6];
 Choice 2 (block [Use [9]; Return]) Skip; Use [18;11;13;10]; Def [15]; Use [8;11;9;10]; Def [16]; Use
 [9;15;16;8;11;1;4;3;5]; Def [10]; Def [11]]) Skip; Use [9]; Return] |}.

(* multisim/_precompiled/dimensionless_numbers.py, line 1: <module> *)
Definition f__precompiled_dimensionless_numbers__module : func := {|
 f_file := "_precompiled/dimensionless_numbers.py"; f_name := "<module>"; f_line := 1;
 f_params := []; f_closure := [];
 f_locals := ["nb"; "np"; "GLOB_NOGIL"; "GLOB_PARALLEL"; "get_Re_water"; "Re_water_return"; "rayleigh_number"];
 f_outer := [];
 f_conds := ["*"];
 f_body := block [Def [1]; Def [2]; Use [1]; Def [3]; Def [4]; Use [1;3]; Def [5]; Use [1;3]; Def [6]; Use
 [1;3]; Def [7]] |}.

(* multisim/_precompiled/dimensionless_numbers.py, line 21: get_Re_water *)
Definition f__precompiled_dimensionless_numbers__get_Re_water : func := {|
 f_file := "_precompiled/dimensionless_numbers.py"; f_name := "get_Re_water"; f_line := 21;
 f_params := ["v"; "L"; "ny"; "Re"]; f_closure := [];
 f_locals := [];
 f_outer := ["np"];
 f_conds := ["*"];
 f_body := Use [5;1;2;3;4] |}.

(* multisim/_precompiled/dimensionless_numbers.py, line 45: Re_water_return *)
Definition f__precompiled_dimensionless_numbers__Re_water_return : func := {|
 f_file := "_precompiled/dimensionless_numbers.py"; f_name := "Re_water_return"; f_line := 45;
 f_params := ["v"; "L"; "ny"]; f_closure := [];
 f_locals := [];
 f_outer := ["np"];
 f_conds := ["*"];
 f_body := block [Use [4;1;2;3]; Return] |}.

(* multisim/_precompiled/dimensionless_numbers.py, line 68: rayleigh_number *)
Definition f__precompiled_dimensionless_numbers__rayleigh_number : func := {|
 f_file := "_precompiled/dimensionless_numbers.py"; f_name := "rayleigh_number"; f_line := 68;
 f_params := ["T_s"; "T_inf"; "Pr"; "ny"; "Kelvin"; "flow_length"]; f_closure := [];
 f_locals := [];
 f_outer := ["np"];
 f_conds := ["*"];
 f_body := block [Use [7;1;2;6;3;5;4]; Return] |}.

(* multisim/_precompiled/material_properties.py, line 1: <module> *)
Definition f__precompiled_material_properties__module : func := {|
 f_file := "_precompiled/material_properties.py"; f_name := "<module>"; f_line := 1;
 f_params := []; f_closure := [];
 f_locals := ["nb"; "GLOB_NOGIL"; "GLOB_PARALLEL"; "get_rho_water"; "rho_water"; "lambda_water"; "get_lambda_water"; "get_cp_water"; "cp_water"; "get_ny_water"; "ny_water"; "get_Pr_water"; "Pr_water_return"; "get_beta_water"; "beta_water_return"; "get_rho_dryair"; "get_lam_dryair"; "lam_dryair_return"; "get_ny_dryair"; "ny_dryair_return"; "humid_air_saturation_pressure"; "humid_air_sat_water_mass"];
 f_outer := [];
 f_conds := ["*"];
 f_body := block [Def [1]; Use [1]; Def [2]; Def [3]; Use [1;2]; Def [4]; Use [1;2]; Def [5]; Use [1;2]; Def
 [6]; Use [1;2]; Def [7]; Use [1;2]; Def [8]; Use [1;2]; Def [9]; Use [1;2]; Def [10]; Use [1;2]; Def
 [11]; Use [1;2]; Def [12]; Use [1;2]; Def [13]; Use [1;2]; Def [14]; Use [1;2]; Def [15]; Use [1;2];
 Def [16]; Use [1;2]; Def [17]; Use [1;2]; Def [18]; Use [1;2]; Def [19]; Use [1;2]; Def [20]; Use
 [1;2]; Def [21]; Use [1;2]; Def [22]] |}.

(* multisim/_precompiled/material_properties.py, line 24: get_rho_water *)
Definition f__precompiled_material_properties__get_rho_water : func := {|
 f_file := "_precompiled/material_properties.py"; f_name := "get_rho_water"; f_line := 24;
 f_params := ["T"; "rho"]; f_closure := [];
 f_locals := [];
 f_outer := [];
 f_conds := ["*"];
 f_body := Use [1;2] |}.

(* multisim/_precompiled/material_properties.py, line 42: rho_water *)
Definition f__precompiled_material_properties__rho_water : func := {|
 f_file := "_precompiled/material_properties.py"; f_name := "rho_water"; f_line := 42;
 f_params := ["T"]; f_closure := [];
 f_locals := [];
 f_outer := [];
 f_conds := ["*"];
 f_body := block [Use [1]; Return] |}.

(* multisim/_precompiled/material_properties.py, line 57: lambda_water *)
Definition f__precompiled_material_properties__lambda_water : func := {|
 f_file := "_precompiled/material_properties.py"; f_name := "lambda_water"; f_line := 57;
 f_params := ["T"]; f_closure := [];
 f_locals := [];
 f_outer := [];
 f_conds := ["*"];
 f_body := block [Use [1]; Return] |}.

(* multisim/_precompiled/material_properties.py, line 71: get_lambda_water *)
Definition f__precompiled_material_properties__get_lambda_water : func := {|
 f_file := "_precompiled/material_properties.py"; f_name := "get_lambda_water"; f_line := 71;
 f_params := ["T"; "lam"]; f_closure := [];
 f_locals := [];
 f_outer := [];
 f_conds := ["*"];
 f_body := Use [1;2] |}.

(* multisim/_precompiled/material_properties.py, line 86: get_cp_water *)
Definition f__precompiled_material_properties__get_cp_water : func := {|
 f_file := "_precompiled/material_properties.py"; f_name := "get_cp_water"; f_line := 86;
 f_params := ["T"; "cp"]; f_closure := [];
 f_locals := [];
 f_outer := [];
 f_conds := ["*"];
 f_body := Use [1;2] |}.

(* multisim/_precompiled/material_properties.py, line 104: cp_water *)
Definition f__precompiled_material_properties__cp_water : func := {|
 f_file := "_precompiled/material_properties.py"; f_name := "cp_water"; f_line := 104;
 f_params := ["T"]; f_closure := [];
 f_locals := [];
 f_outer := [];
 f_conds := ["*"];
 f_body := block [Use [1]; Return] |}.

(* multisim/_precompiled/material_properties.py, line 120: get_ny_water *)
Definition f__precompiled_material_properties__get_ny_water : func := {|
 f_file := "_precompiled/material_properties.py"; f_name := "get_ny_water"; f_line := 120;
 f_params := ["T"; "ny"]; f_closure := [];
 f_locals := [];
 f_outer := [];
 f_conds := ["*"];
 f_body := Use [1;2] |}.

(* multisim/_precompiled/material_properties.py, line 136: ny_water *)
Definition f__precompiled_material_properties__ny_water : func := {|
 f_file := "_precompiled/material_properties.py"; f_name := "ny_water"; f_line := 136;
 f_params := ["T"]; f_closure := [];
 f_locals := [];
 f_outer := [];
 f_conds := ["*"];
 f_body := block [Use [1]; Return] |}.

(* multisim/_precompiled/material_properties.py, line 151: get_Pr_water *)
Definition f__precompiled_material_properties__get_Pr_water : func := {|
 f_file := "_precompiled/material_properties.py"; f_name := "get_Pr_water"; f_line := 151;
 f_params := ["T"; "Pr"]; f_closure := [];
 f_locals := [];
 f_outer := [];
 f_conds := ["*"];
 f_body := Use [1;2] |}.

(* multisim/_precompiled/material_properties.py, line 170: Pr_water_return *)
Definition f__precompiled_material_properties__Pr_water_return : func := {|
 f_file := "_precompiled/material_properties.py"; f_name := "Pr_water_return"; f_line := 170;
 f_params := ["T"]; f_closure := [];
 f_locals := [];
 f_outer := [];
 f_conds := ["*"];
 f_body := block [Use [1]; Return] |}.

(* multisim/_precompiled/material_properties.py, line 188: get_beta_water *)
Definition f__precompiled_material_properties__get_beta_water : func := {|
 f_file := "_precompiled/material_properties.py"; f_name := "get_beta_water"; f_line := 188;
 f_params := ["T"; "beta"]; f_closure := [];
 f_locals := [];
 f_outer := [];
 f_conds := ["*"];
 f_body := Use [1;2] |}.

(* multisim/_precompiled/material_properties.py, line 203: beta_water_return *)
Definition f__precompiled_material_properties__beta_water_return : func := {|
 f_file := "_precompiled/material_properties.py"; f_name := "beta_water_return"; f_line := 203;
 f_params := ["T"]; f_closure := [];
 f_locals := [];
 f_outer := [];
 f_conds := ["*"];
 f_body := block [Use [1]; Return] |}.

(* multisim/_precompiled/material_properties.py, line 218: get_rho_dryair *)
Definition f__precompiled_material_properties__get_rho_dryair : func := {|
 f_file := "_precompiled/material_properties.py"; f_name := "get_rho_dryair"; f_line := 218;
 f_params := ["T"; "rho"]; f_closure := [];
 f_locals := [];
 f_outer := [];
 f_conds := ["*"];
 f_body := Use [1;2] |}.

(* multisim/_precompiled/material_properties.py, line 229: get_lam_dryair *)
Definition f__precompiled_material_properties__get_lam_dryair : func := {|
 f_file := "_precompiled/material_properties.py"; f_name := "get_lam_dryair"; f_line := 229;
 f_params := ["T"; "lam"]; f_closure := [];
 f_locals := [];
 f_outer := [];
 f_conds := ["*"];
 f_body := Use [1;2] |}.

(* multisim/_precompiled/material_properties.py, line 240: lam_dryair_return *)
Definition f__precompiled_material_properties__lam_dryair_return : func := {|
 f_file := "_precompiled/material_properties.py"; f_name := "lam_dryair_return"; f_line := 240;
 f_params := ["T"]; f_closure := [];
 f_locals := [];
 f_outer := [];
 f_conds := ["*"];
 f_body := block [Use [1]; Return] |}.

(* multisim/_precompiled/material_properties.py, line 251: get_ny_dryair *)
Definition f__precompiled_material_properties__get_ny_dryair : func := {|
 f_file := "_precompiled/material_properties.py"; f_name := "get_ny_dryair"; f_line := 251;
 f_params := ["T"; "ny"]; f_closure := [];
 f_locals := [];
 f_outer := [];
 f_conds := ["*"];
 f_body := Use [1;2] |}.

(* multisim/_precompiled/material_properties.py, line 262: ny_dryair_return *)
Definition f__precompiled_material_properties__ny_dryair_return : func := {|
 f_file := "_precompiled/material_properties.py"; f_name := "ny_dryair_return"; f_line := 262;
 f_params := ["T"]; f_closure := [];
 f_locals := [];
 f_outer := [];
 f_conds := ["*"];
 f_body := block [Use [1]; Return] |}.

(* multisim/_precompiled/material_properties.py, line 274: humid_air_saturation_pressure *)
Definition f__precompiled_material_properties__humid_air_saturation_pressure : func := {|
 f_file := "_precompiled/material_properties.py"; f_name := "humid_air_saturation_pressure"; f_line := 274;
 f_params := ["T"]; f_closure := [];
 f_locals := [];
 f_outer := [];
 f_conds := ["*"];
 f_body := block [Use [1]; Return] |}.

(* multisim/_precompiled/material_properties.py, line 297: humid_air_sat_water_mass *)
Definition f__precompiled_material_properties__humid_air_sat_water_mass : func := {|
 f_file := "_precompiled/material_properties.py"; f_name := "humid_air_sat_water_mass"; f_line := 297;
 f_params := ["T"]; f_closure := [];
 f_locals := [];
 f_outer := [];
 f_conds := ["*"];
 f_body := block [Use [1]; Return] |}.

Definition table_Pre : list (func * list func) := [
 (f_precomp_funs__module, [f_precomp_funs__upd_p_arr; f_precomp_funs___upddate_ports_interm; f_precomp_funs___upddate_ports_result; f_precomp_funs___port_values_to_idx; f_precomp_funs___port_values_to_cont; f_precomp_funs___process_flow_invar; f_precomp_funs___process_flow_invar_fast; f_precomp_funs___process_flow_var; f_precomp_funs___process_flow_multi_flow; f_precomp_funs___process_ports_collapsed; f_precomp_funs___process_ports; f_precomp_funs__water_mat_props_ext_view; f_precomp_funs__water_mat_props_ext; f_precomp_funs__water_mat_props; f_precomp_funs__cell_temp_props_ext; f_precomp_funs__cell_temp_props_fld; f_precomp_funs__specific_inner_energy_wll; f_precomp_funs__cell_temp_props; f_precomp_funs___lambda_mean_view; f_precomp_funs___lambda_mean; f_precomp_funs__UA_plate_tb; f_precomp_funs__UA_plate_tb_fld; f_precomp_funs__UA_plate_tb_wll; f_precomp_funs__buoyancy_byNusselt; f_precomp_funs__buoyancy_AixLib; f_precomp_funs___vonNeumann_stability_invar; f_precomp_funs___vonNeumann_stability_invar_hexnum; f_precomp_funs___vonNeumann_stability_var; f_precomp_funs__pipe1D_diff; f_precomp_funs__pipe1D_diff_fullstructarr; f_precomp_funs__pipe1D_diff_structarr; f_precomp_funs__pipe1D_branched_diff; f_precomp_funs__heatedpipe1D_diff; f_precomp_funs__tes_diff; f_precomp_funs__chp_core_diff; f_precomp_funs__hexnum_diff; f_precomp_funs__condensing_hex_solve; f_precomp_funs__hexnum_diff_impl; f_precomp_funs__euler_forward; f_precomp_funs__hexnum_imp_root_diff; f_precomp_funs__hexnum_imp_fixedpoint; f_precomp_funs__fixed_point_to_root; f_precomp_funs__hexnum_imp_fixedp_diff; f_precomp_funs__hexnum_imp_newt_diff; f_precomp_funs__solve_connector_3w_overload; f_precomp_funs__solve_connector_3w; f_precomp_funs__solve_platehex; f_precomp_funs___get_p_arr_pump; f_precomp_funs__solve_mix_overload; f_precomp_funs__solve_mix; f_precomp_funs__solve_split_overload; f_precomp_funs__solve_split; f_precomp_funs__solve_pump_overload; f_precomp_funs__solve_pump; f_precomp_funs__ctrl_deadtime; f_precomp_funs___heun_corrector_adapt; f_precomp_funs___embedded_adapt_stepsize; f_precomp_funs__rayleigh_number; f_precomp_funs__get_rho_water; f_precomp_funs__rho_water; f_precomp_funs__lambda_water; f_precomp_funs__get_lambda_water; f_precomp_funs__get_cp_water; f_precomp_funs__cp_water; f_precomp_funs__get_ny_water; f_precomp_funs__ny_water; f_precomp_funs__get_Pr_water; f_precomp_funs__Pr_water_return; f_precomp_funs__get_beta_water; f_precomp_funs__beta_water_return; f_precomp_funs__get_Re_water; f_precomp_funs__Re_water_return; f_precomp_funs__get_rho_dryair; f_precomp_funs__get_lam_dryair; f_precomp_funs__lam_dryair_return; f_precomp_funs__get_ny_dryair; f_precomp_funs__ny_dryair_return; f_precomp_funs__humid_air_saturation_pressure; f_precomp_funs__humid_air_sat_water_mass; f_precomp_funs__calc_flow_length; f_precomp_funs__pipe_get_Re; f_precomp_funs__pipe_get_Re2; f_precomp_funs__pipe_alpha_i; f_precomp_funs__pipe_alpha_i_wll_sep; f_precomp_funs__phex_alpha_i_wll_sep; f_precomp_funs__phex_alpha_i_wll_sep_discretized; f_precomp_funs__cylinder_alpha_inf; f_precomp_funs__plane_alpha_inf; f_precomp_funs__vert_plane_alpha_inf; f_precomp_funs__hor_plane_alpha_inf; f_precomp_funs__UA_fld_wll_ins_amb_cyl; f_precomp_funs__UA_fld_wll_amb_cyl; f_precomp_funs__UA_fld_wll_cyl; f_precomp_funs__UA_wll_ins_amb_cyl; f_precomp_funs__UA_wll_amb_cyl; f_precomp_funs__UA_fld_wll_plate; f_precomp_funs__UA_fld_wll_ins_amb_plate; f_precomp_funs__UA_wll_ins_amb_plate; f_precomp_funs__surface_temp_steady_state_inplace; f_precomp_funs__surface_temp_steady_state; f_precomp_funs__series_circuit_UA; f_precomp_funs__parallel_circuit_UA; f_precomp_funs__log_mean_temp_diff; f_precomp_funs__moving_avg; f_precomp_funs__fill_edges; f_precomp_funs__moving_avg_fill_edges; f_precomp_funs__weighted_moving_avg; f_precomp_funs__root_finder; f_precomp_funs__lim_growth; f_precomp_funs__chp_startup_th; f_precomp_funs__chp_startup_el; f_precomp_funs__chp_startup_gas; f_precomp_funs__chp_thermal_power; f_precomp_funs__chp_gas_power; f_precomp_funs__chp_shutdown_th; f_precomp_funs__quad_get_c; f_precomp_funs__quad_get_b; f_precomp_funs__condensing_hex_quad_poly; f_precomp_funs___process_chp_core_modulation; f_precomp_funs__predictor_step; f_precomp_funs__solve_pred_loop; f_precomp_funs__heun_predictor; f_precomp_funs__make_poly_transf_combs_for_nb; f_precomp_funs__extract_pca_results; f_precomp_funs__transform_to_poly_nb; f_precomp_funs__transform_pca_nb; f_precomp_funs__poly_tranfs_pred; f_precomp_funs__root_array_secant; f_precomp_funs__root_array_newton; f_precomp_funs__root_array_newton_fast; f_precomp_funs__root_secant]);
 (f__precompiled_dimensionless_numbers__module, [f__precompiled_dimensionless_numbers__get_Re_water; f__precompiled_dimensionless_numbers__Re_water_return; f__precompiled_dimensionless_numbers__rayleigh_number]);
 (f__precompiled_material_properties__module, [f__precompiled_material_properties__get_rho_water; f__precompiled_material_properties__rho_water; f__precompiled_material_properties__lambda_water; f__precompiled_material_properties__get_lambda_water; f__precompiled_material_properties__get_cp_water; f__precompiled_material_properties__cp_water; f__precompiled_material_properties__get_ny_water; f__precompiled_material_properties__ny_water; f__precompiled_material_properties__get_Pr_water; f__precompiled_material_properties__Pr_water_return; f__precompiled_material_properties__get_beta_water; f__precompiled_material_properties__beta_water_return; f__precompiled_material_properties__get_rho_dryair; f__precompiled_material_properties__get_lam_dryair; f__precompiled_material_properties__lam_dryair_return; f__precompiled_material_properties__get_ny_dryair; f__precompiled_material_properties__ny_dryair_return; f__precompiled_material_properties__humid_air_saturation_pressure; f__precompiled_material_properties__humid_air_sat_water_mass])].
