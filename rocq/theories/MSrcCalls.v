(** * Names, classes, calls and solver inputs of the package (generated by
    tools/extract_calls.py; representation: MCall.v).  Every entry carries
    module file and line.  Calls of attributes that are assigned, hence not
    methods, are left out:
    controls Controls.ctrl line 907: self._process_cv_fun;
    simenv SimEnv.start_sim line 5067: self.solver. *)
From Coq Require Import List String PArith.
From Verif Require Import MCall.
Import ListNotations.
Local Open Scope string_scope.

(* multisim/__init__.py *)
Definition names_0 : list (string * binding) :=
 [("__version__", From "version" "version"); ("Models", From "simenv" "SimEnv"); ("SimEnv", From
 "simenv" "SimEnv"); ("ap", Mod "all_parts"); ("dimless_no", From "_precompiled/__init__"
 "dimless_no"); ("matprops", From "_precompiled/__init__" "matprops"); ("pf", Mod "precomp_funs");
 ("se", Mod "simenv"); ("_sp", Mod "std_parts"); ("ut", Mod "utility_functions"); ("Meters", From
 "_utility/__init__" "Meters"); ("stat_err_meas", From "_utility/__init__" "stat_err_meas");
 ("plotting", Mod "_utility/plotting"); ("__all__", Outside)].

(* multisim/_precompiled/__init__.py *)
Definition names_1 : list (string * binding) :=
 [("__version__", From "version" "version"); ("matprops", Mod "_precompiled/material_properties");
 ("dimless_no", Mod "_precompiled/dimensionless_numbers"); ("__all__", Outside)].

(* multisim/_precompiled/dimensionless_numbers.py *)
Definition names_2 : list (string * binding) :=
 [("get_Re_water", Func (Sig ["v"; "L"; "ny"; "Re"] 0 false [] false)); ("Re_water_return", Func (Sig
 ["v"; "L"; "ny"] 0 false [] false)); ("rayleigh_number", Func (Sig ["T_s"; "T_inf"; "Pr"; "ny";
 "Kelvin"; "flow_length"] 0 false [] false)); ("nb", Outside); ("np", Outside); ("GLOB_NOGIL",
 Outside); ("GLOB_PARALLEL", Outside)].

(* multisim/_precompiled/material_properties.py *)
Definition names_3 : list (string * binding) :=
 [("get_rho_water", Func (Sig ["T"; "rho"] 0 false [] false)); ("rho_water", Func (Sig ["T"] 0 false
 [] false)); ("lambda_water", Func (Sig ["T"] 0 false [] false)); ("get_lambda_water", Func (Sig
 ["T"; "lam"] 0 false [] false)); ("get_cp_water", Func (Sig ["T"; "cp"] 0 false [] false));
 ("cp_water", Func (Sig ["T"] 0 false [] false)); ("get_ny_water", Func (Sig ["T"; "ny"] 0 false []
 false)); ("ny_water", Func (Sig ["T"] 0 false [] false)); ("get_Pr_water", Func (Sig ["T"; "Pr"] 0
 false [] false)); ("Pr_water_return", Func (Sig ["T"] 0 false [] false)); ("get_beta_water", Func
 (Sig ["T"; "beta"] 0 false [] false)); ("beta_water_return", Func (Sig ["T"] 0 false [] false));
 ("get_rho_dryair", Func (Sig ["T"; "rho"] 0 false [] false)); ("get_lam_dryair", Func (Sig ["T";
 "lam"] 0 false [] false)); ("lam_dryair_return", Func (Sig ["T"] 0 false [] false));
 ("get_ny_dryair", Func (Sig ["T"; "ny"] 0 false [] false)); ("ny_dryair_return", Func (Sig ["T"] 0
 false [] false)); ("humid_air_saturation_pressure", Func (Sig ["T"] 0 false [] false));
 ("humid_air_sat_water_mass", Func (Sig ["T"] 0 false [] false)); ("nb", Outside); ("GLOB_NOGIL",
 Outside); ("GLOB_PARALLEL", Outside)].

(* multisim/_utility/__init__.py *)
Definition names_4 : list (string * binding) :=
 [("__version__", From "version" "version"); ("Meters", From "_utility/meters" "Meters");
 ("stat_err_meas", Mod "_utility/stat_error_measures"); ("plotting", Mod "_utility/plotting");
 ("__all__", Outside)].

(* multisim/_utility/meters.py *)
Definition names_5 : list (string * binding) :=
 [("mp", From "__init__" "matprops"); ("ut", From "__init__" "ut"); ("Meters", Class "Meters");
 ("np", Outside); ("pd", Outside); ("warnings", Outside)].

(* multisim/_utility/plotting.py *)
Definition names_6 : list (string * binding) :=
 [("_sem", Mod "_utility/stat_error_measures"); ("heatmap_from_df", Func (Sig ["df"; "ax"; "figsize";
 "cbar"; "cbar_ax"; "cmap"; "ylabel"; "cbar_label"; "label_style"; "vmin"; "vmax"; "linewidth";
 "limit_to_valid_data"; "log_cbar"; "plt_kwds"; "cbar_kwds"; "extend_over"; "extend_under"] 17 false
 [] false)); ("prediction_realization_scatter", Func (Sig ["y"; "y_hat"; "ax"; "aspect";
 "ax_scaling_tight"; "errors"; "scttr_kwds"; "diag_kwds"; "plt_err_range"; "err_rng_kwds";
 "err_kwds"; "err_loc"; "legend_kwds"; "auto_label"; "language"; "plot_every"; "fig_kwds";
 "err_vals"] 16 false [] false)); ("prediction_realization_2d_kde", Func (Sig ["y"; "y_hat"; "steps";
 "ax"; "contour"; "cmap"; "norm"; "vmin"; "vmax"; "cont_lines"; "cbar"; "line_color"; "fontsize";
 "aspect"; "extend"; "cm_under"; "cm_over"; "errors"; "plt_kwds"] 17 false [] true)); ("si_axlabel",
 Func (Sig ["ax"; "label"; "unit"; "which"; "style"; "spacing"; "invert_position"] 5 false []
 false)); ("sinum_frmt", Func (Sig ["x"] 0 false [] false)); ("annotate_errors", Func (Sig ["ax";
 "y"; "y_hat"; "errors"; "err_loc"; "err_vals"; "fontsize"; "err_kwds"] 4 false [] false));
 ("annotate_axes", Func (Sig ["axes"; "fig"; "annotations"; "loc"; "bbox"; "txt_offset"; "xy_offset";
 "fontsize"] 7 false [] true)); ("_copy", Outside); ("mpl", Outside); ("plt", Outside); ("_mal",
 Outside); ("_np", Outside); ("_pd", Outside); ("_sst", Outside)].

(* multisim/_utility/stat_error_measures.py *)
Definition names_7 : list (string * binding) :=
 [("r_squared", Func (Sig ["y"; "y_hat"] 0 false [] false)); ("r_squared_adj", Func (Sig ["p";
 "r_sqrd"; "n"; "y"; "y_hat"] 4 false [] false)); ("mean_squared_err", Func (Sig ["y"; "y_hat";
 "roll"; "window"; "min_periods"] 3 false [] false)); ("mean_abs_err", Func (Sig ["y"; "y_hat";
 "roll"; "window"; "min_periods"] 3 false [] false)); ("mean_signed_deviation", Func (Sig ["y";
 "y_hat"; "roll"; "window"; "min_periods"] 3 false [] false)); ("rmse", Func (Sig ["y"; "y_hat";
 "roll"; "window"; "min_periods"] 3 false [] false)); ("cv_rmse", Func (Sig ["y"; "y_hat"; "roll";
 "window"; "min_periods"] 3 false [] false)); ("normalized_err", Func (Sig ["y"; "y_hat";
 "err_method"; "norm"] 2 false [] false)); ("np", Outside); ("pd", Outside)].

(* multisim/all_parts.py *)
Definition names_8 : list (string * binding) :=
 [("PID", From "parts/controllers" "PID"); ("BangBang", From "parts/controllers" "BangBang");
 ("TwoSensors", From "parts/controllers" "TwoSensors"); ("ModelPredCHP", From "parts/controllers"
 "ModelPredCHP"); ("Pipe", From "parts/pipe" "Pipe"); ("HeatedPipe", From "parts/heated_pipe"
 "HeatedPipe"); ("PipeWithPump", From "parts/pipe_with_pump" "PipeWithPump"); ("PipeWith3wValve",
 From "parts/pipe_with_valve" "PipeWith3wValve"); ("PipeBranched", From "parts/pipe_branched"
 "PipeBranched"); ("Pipe2D", From "parts/pipe2D" "Pipe2D"); ("Tes", From "parts/tes" "Tes"); ("Pump",
 From "parts/pump" "Pump"); ("MixingValve", From "parts/mixingvalve" "MixingValve"); ("Connector3w",
 From "parts/connector_3w" "Connector3w"); ("HeatExchanger", From "parts/heatexchanger"
 "HeatExchanger"); ("HexNum", From "parts/hex_num" "HexNum"); ("HEXCondPoly", From
 "parts/hex_condensing_polynome" "HEXCondPoly"); ("CHPPlant", From "parts/chp_plant" "CHPPlant");
 ("CHPModule", Mod "parts/part_modules/chp_with_fluegas_hex"); ("consumers", Mod
 "parts/part_modules/consumers"); ("suppliers", Mod "parts/part_modules/suppliers"); ("__all__",
 Outside)].

(* multisim/controls.py *)
Definition names_9 : list (string * binding) :=
 [("_ctrl_deadtime", From "precomp_funs" "ctrl_deadtime"); ("Controls", Class "Controls"); ("np",
 Outside)].

(* multisim/flownet.py *)
Definition names_10 : list (string * binding) :=
 [("FlowNet", Class "FlowNet"); ("odict", Outside)].

(* multisim/parts/__init__.py *)
Definition names_11 : list (string * binding) :=
 [].

(* multisim/parts/chp_plant.py *)
Definition names_12 : list (string * binding) :=
 [("Pipe", From "parts/pipe" "Pipe"); ("_pf", Mod "precomp_funs"); ("CHPPlant", Class "CHPPlant");
 ("np", Outside); ("pd", Outside)].

(* multisim/parts/connector_3w.py *)
Definition names_13 : list (string * binding) :=
 [("SimEnv", From "simenv" "SimEnv"); ("_solve_connector_3w", From "precomp_funs"
 "solve_connector_3w"); ("Connector3w", Class "Connector3w"); ("np", Outside)].

(* multisim/parts/controllers.py *)
Definition names_14 : list (string * binding) :=
 [("Controls", From "controls" "Controls"); ("_pf", Mod "precomp_funs"); ("PID", Class "PID");
 ("BangBang", Class "BangBang"); ("TwoSensors", Class "TwoSensors"); ("ModelPredCHP", Class
 "ModelPredCHP"); ("np", Outside); ("pd", Outside); ("_sopt", Outside)].

(* multisim/parts/heated_pipe.py *)
Definition names_15 : list (string * binding) :=
 [("Pipe", From "parts/pipe" "Pipe"); ("heatedpipe1D_diff", From "precomp_funs" "heatedpipe1D_diff");
 ("HeatedPipe", Class "HeatedPipe"); ("np", Outside); ("pd", Outside)].

(* multisim/parts/heatexchanger.py *)
Definition names_16 : list (string * binding) :=
 [("SimEnv", From "simenv" "SimEnv"); ("_pf", Mod "precomp_funs"); ("HeatExchanger", Class
 "HeatExchanger"); ("np", Outside)].

(* multisim/parts/hex_condensing_polynome.py *)
Definition names_17 : list (string * binding) :=
 [("SimEnv", From "simenv" "SimEnv"); ("make_poly_transf_combs_for_nb", From "precomp_funs"
 "make_poly_transf_combs_for_nb"); ("extract_pca_results", From "precomp_funs"
 "extract_pca_results"); ("condensing_hex_solve", From "precomp_funs" "condensing_hex_solve");
 ("HEXCondPoly", Class "HEXCondPoly"); ("np", Outside); ("_skl", Outside)].

(* multisim/parts/hex_num.py *)
Definition names_18 : list (string * binding) :=
 [("SimEnv", From "simenv" "SimEnv"); ("_pf", Mod "precomp_funs"); ("HexNum", Class "HexNum"); ("np",
 Outside)].

(* multisim/parts/mixingvalve.py *)
Definition names_19 : list (string * binding) :=
 [("SimEnv", From "simenv" "SimEnv"); ("_pf", Mod "precomp_funs"); ("MixingValve", Class
 "MixingValve"); ("np", Outside); ("pd", Outside)].

(* multisim/parts/part_modules/__init__.py *)
Definition names_20 : list (string * binding) :=
 [].

(* multisim/parts/part_modules/chp_with_fluegas_hex.py *)
Definition names_21 : list (string * binding) :=
 [("_ap", Mod "all_parts"); ("_ut", Mod "utility_functions"); ("add_chp_with_fghex", Func (Sig
 ["simenv"; "databases"; "number_rf_ports"; "chp_ff_connection"; "chp_ntrf_connection";
 "chp_htrfA_connection"; "chp_htrfB_connection"; "segment_name"; "chp_kwds"; "chp_ff_pump_ulim";
 "chp_ctrl"; "fluegashex_theta_out_water"; "ht_rf_theta_mix"; "adjust_pipes"; "Tamb";
 "ctrl_chp_pump_by_ts"; "ctrl_hex_by_ts"; "ctrl_htrf_by_ts"; "fluegas_hex_kwds"] 12 false [] true));
 ("np", Outside)].

(* multisim/parts/part_modules/consumers.py *)
Definition names_22 : list (string * binding) :=
 [("_pf", Mod "precomp_funs"); ("_msp", Mod "all_parts"); ("_ut", Mod "utility_functions");
 ("lowex_phwrc", Func (Sig ["simenv"; "lhs"; "phw_dmd"; "rc_flow"; "segment_name"; "adjust_pipes";
 "ff_connector"; "rf_connector"; "rc_connector"; "Tamb"; "databases"; "calculations_df"] 8 false []
 false)); ("speicherladesys", Func (Sig ["simenv"; "lhs"; "phw_dmd"; "rc_flow"; "theta_ff_phwstore";
 "store_gp"; "store_dia"; "store_shell"; "store_init"; "store_ports"; "segment_name"; "adjust_pipes";
 "ff_connector"; "rf_connector"; "Tamb"; "databases"; "calculations_df"] 13 false [] false));
 ("space_heating", Func (Sig ["simenv"; "lhs"; "space_heating"; "aux_gasboiler_pth";
 "aux_gasboiler_theta_ff"; "configuration"; "segment_name"; "adjust_pipes"; "tes_ff_connector";
 "tes_rf_connector"; "Tamb"; "databases"; "calculations_df"] 8 false [] false)); ("np", Outside);
 ("pd", Outside)].

(* multisim/parts/part_modules/suppliers.py *)
Definition names_23 : list (string * binding) :=
 [("msp", Mod "all_parts"); ("ut", Mod "utility_functions"); ("chp_with_fghex", Func (Sig ["simenv";
 "databases"; "number_rf_ports"; "chp_ff_connection"; "chp_ntrf_connection"; "chp_htrfA_connection";
 "chp_htrfB_connection"; "segment_name"; "chp_kwds"; "chp_ctrl"; "fluegashex_theta_out_water";
 "ht_rf_theta_mix"; "adjust_pipes"; "Tamb"; "ctrl_chp_pump_by_ts"; "ctrl_hex_by_ts";
 "ctrl_htrf_by_ts"; "fluegas_hex_kwds"; "calculations_df"] 12 false [] true)); ("gasboiler", Func
 (Sig ["simenv"; "gasb_pth"; "lhs"; "rc_flow"; "phw_dmd"; "space_heating"; "n_rf_ports";
 "segment_name"; "adjust_pipes"; "ff_connector"; "ltrf_connector"; "htrf_connector";
 "gasboiler_ctrl"; "Tamb"; "calculations_df"] 10 false [] false)); ("np", Outside)].

(* multisim/parts/pipe.py *)
Definition names_24 : list (string * binding) :=
 [("SimEnv", From "simenv" "SimEnv"); ("_pf", Mod "precomp_funs"); ("Pipe", Class "Pipe"); ("np",
 Outside)].

(* multisim/parts/pipe2D.py *)
Definition names_25 : list (string * binding) :=
 [("SimEnv", From "simenv" "SimEnv"); ("_pf", Mod "precomp_funs"); ("Pipe2D", Class "Pipe2D"); ("np",
 Outside)].

(* multisim/parts/pipe_branched.py *)
Definition names_26 : list (string * binding) :=
 [("Pipe", From "parts/pipe" "Pipe"); ("pipe1D_branched_diff", From "precomp_funs"
 "pipe1D_branched_diff"); ("PipeBranched", Class "PipeBranched"); ("np", Outside)].

(* multisim/parts/pipe_with_pump.py *)
Definition names_27 : list (string * binding) :=
 [("Pipe", From "parts/pipe" "Pipe"); ("PipeWithPump", Class "PipeWithPump")].

(* multisim/parts/pipe_with_valve.py *)
Definition names_28 : list (string * binding) :=
 [("Pipe", From "parts/pipe" "Pipe"); ("pipe1D_branched_diff", From "precomp_funs"
 "pipe1D_branched_diff"); ("PipeWith3wValve", Class "PipeWith3wValve"); ("np", Outside)].

(* multisim/parts/pump.py *)
Definition names_29 : list (string * binding) :=
 [("SimEnv", From "simenv" "SimEnv"); ("_pf", Mod "precomp_funs"); ("Pump", Class "Pump"); ("np",
 Outside); ("pd", Outside); ("_plt", Outside)].

(* multisim/parts/tes.py *)
Definition names_30 : list (string * binding) :=
 [("SimEnv", From "simenv" "SimEnv"); ("_pf", Mod "precomp_funs"); ("Tes", Class "Tes"); ("np",
 Outside)].

(* multisim/precomp_funs.py *)
Definition names_31 : list (string * binding) :=
 [("upd_p_arr", Func (Sig ["ports_all"; "port_ids"; "values"; "_port_own_idx"] 0 false [] false));
 ("_upddate_ports_interm", Func (Sig ["ports_all"; "trgt_indices"; "ports_src"; "source"] 1 false []
 false)); ("_upddate_ports_result", Func (Sig ["ports_all"; "trgt_indices"; "ports_src"; "stepnum";
 "src_list"] 0 false [] false)); ("_port_values_to_idx", Func (Sig ["ports_all"; "port_link_idx";
 "port_own_idx"; "out"] 0 false [] false)); ("_port_values_to_cont", Func (Sig ["ports_all";
 "port_link_idx"; "out"] 0 false [] false)); ("_process_flow_invar", Func (Sig ["process_flows";
 "dm_io"; "dm_top"; "dm_bot"; "dm_port"; "stepnum"; "res_dm"] 0 false [] false));
 ("_process_flow_invar_fast", Func (Sig ["process_flows"; "dm_io"; "dm_top"; "dm_bot"; "stepnum";
 "res_dm"] 0 false [] false)); ("_process_flow_var", Func (Sig ["process_flows"; "dm_io"; "dm";
 "dm_top"; "dm_bot"; "dm_port"; "port_own_idx"; "stepnum"; "res_dm"] 0 false [] false));
 ("_process_flow_multi_flow", Func (Sig ["process_flows"; "dm_io"; "dm_top"; "dm_bot"; "dm_port";
 "stepnum"; "res_dm"] 0 false [] false)); ("_process_ports_collapsed", Func (Sig ["ports_all";
 "port_link_idx"; "port_own_idx"; "T"; "mcp"; "UA_port"; "UA_port_wll"; "A_p_fld_mean"; "port_gsp";
 "grid_spacing"; "lam_T"; "cp_port"; "lam_port_fld"; "T_port"] 0 false [] false)); ("_process_ports",
 Func (Sig ["ports_all"; "port_link_idx"; "port_own_idx"; "T"; "mcp"; "UA_port"; "UA_port_wll";
 "A_p_fld_mean"; "port_gsp"; "grid_spacing"; "lam_T"; "cp_port"; "lam_port_fld"; "T_port"] 0 false []
 false)); ("water_mat_props_ext_view", Func (Sig ["T_ext"; "cp_T"; "lam_T"; "rho_T"; "ny_T"] 0 false
 [] false)); ("water_mat_props_ext", Func (Sig ["T_ext"] 0 false [] false)); ("water_mat_props", Func
 (Sig ["T"; "cp_T"; "lam_T"; "rho_T"; "ny_T"] 0 false [] false)); ("cell_temp_props_ext", Func (Sig
 ["T_ext"; "V_cell"; "cp_T"; "rho_T"; "mcp_wll"; "rhocp"; "mcp"; "ui"] 0 false [] false));
 ("cell_temp_props_fld", Func (Sig ["T_ext_fld"; "V_cell"; "cp_T"; "rho_T"; "rhocp_fld"; "mcp_fld";
 "ui_fld"] 0 false [] false)); ("specific_inner_energy_wll", Func (Sig ["T_wll"; "cp_wll"; "ui"] 0
 false [] false)); ("cell_temp_props", Func (Sig ["T"; "V_cell"; "cp_T"; "rho_T"; "mcp_wll"; "rhocp";
 "mcp"; "ui"] 0 false [] false)); ("_lambda_mean_view", Func (Sig ["lam_T"; "out"] 0 false []
 false)); ("_lambda_mean", Func (Sig ["lam_T"] 0 false [] false)); ("UA_plate_tb", Func (Sig
 ["A_cell"; "grid_spacing"; "lam_mean"; "UA_tb_wll"; "out"] 0 false [] false)); ("UA_plate_tb_fld",
 Func (Sig ["A_cell"; "grid_spacing"; "lam_mean"; "out"] 0 false [] false)); ("UA_plate_tb_wll", Func
 (Sig ["UA_tb_wll"; "out"] 0 false [] false)); ("buoyancy_byNusselt", Func (Sig ["T"; "ny"; "d_i";
 "lam_mean"] 0 false [] false)); ("buoyancy_AixLib", Func (Sig ["T"; "cp"; "rho"; "ny";
 "grid_spacing"; "lam_mean"] 0 false [] false)); ("_vonNeumann_stability_invar", Func (Sig
 ["part_id"; "stability_breaches"; "UA_tb"; "UA_port"; "UA_amb_shell"; "dm_io"; "rho_T"; "rhocp";
 "grid_spacing"; "port_subs_gsp"; "A_cell"; "A_port"; "A_shell"; "r_total"; "V_cell"; "step_stable";
 "vN_max_step"; "max_factor"; "stepnum"; "timestep"] 0 false [] false));
 ("_vonNeumann_stability_invar_hexnum", Func (Sig ["part_id"; "stability_breaches"; "UA_dim1";
 "UA_dim2"; "UA_port"; "dm_io"; "rho_T"; "rhocp"; "grid_spacing"; "port_subs_gsp"; "A_channel";
 "A_plate_eff"; "A_port"; "V_cell"; "step_stable"; "vN_max_step"; "max_factor"; "stepnum";
 "timestep"] 0 false [] false)); ("_vonNeumann_stability_var", Func (Sig ["part_id";
 "stability_breaches"; "UA_tb"; "UA_port"; "UA_amb_shell"; "dm_top"; "dm_bot"; "dm_port"; "rho_T";
 "rhocp"; "grid_spacing"; "port_subs_gsp"; "A_cell"; "A_port"; "A_shell"; "r_total"; "V_cell";
 "step_stable"; "vN_max_step"; "max_factor"; "stepnum"; "timestep"] 0 false [] false));
 ("pipe1D_diff", Func (Sig ["T_ext"; "T_port"; "T_s"; "T_amb"; "ports_all"; "dm_io"; "dm_top";
 "dm_bot"; "dm_port"; "res_dm"; "cp_T"; "lam_T"; "rho_T"; "ny_T"; "lam_mean"; "cp_port";
 "lam_port_fld"; "mcp"; "rhocp"; "lam_wll"; "lam_ins"; "mcp_wll"; "ui"; "alpha_i"; "alpha_inf";
 "UA_tb"; "UA_tb_wll"; "UA_amb_shell"; "UA_port"; "UA_port_wll"; "port_own_idx"; "port_link_idx";
 "grid_spacing"; "port_gsp"; "port_subs_gsp"; "d_i"; "cell_dist"; "flow_length"; "r_total";
 "r_ln_wll"; "r_ln_ins"; "r_rins"; "A_cell"; "V_cell"; "A_shell_i"; "A_shell_ins"; "A_p_fld_mean";
 "process_flows"; "vertical"; "step_stable"; "part_id"; "stability_breaches"; "vN_max_step";
 "max_factor"; "stepnum"; "dT_cond"; "dT_adv"; "dT_total"; "timestep"] 0 false [] false));
 ("pipe1D_diff_fullstructarr", Func (Sig ["T_ext"; "ports_all"; "dm_io"; "res_dm"; "cp_T";
 "lam_mean"; "UA_tb"; "port_link_idx"; "port_subs_gsp"; "step_stable"; "vN_max_step"; "max_factor";
 "process_flows"; "vertical"; "stepnum"; "ra1"; "ra2"; "ra5"; "timestep"] 0 false [] false));
 ("pipe1D_diff_structarr", Func (Sig ["T_ext"; "T_port"; "T_s"; "T_amb"; "ports_all"; "dm_io";
 "dm_top"; "dm_bot"; "dm_port"; "res_dm"; "cp_T"; "lam_T"; "rho_T"; "ny_T"; "lam_mean"; "cp_port";
 "lam_port_fld"; "mcp"; "rhocp"; "ui"; "alpha_i"; "alpha_inf"; "UA_tb"; "UA_amb_shell"; "UA_port";
 "UA_port_wll"; "port_own_idx"; "port_link_idx"; "port_gsp"; "port_subs_gsp"; "cell_dist";
 "A_p_fld_mean"; "process_flows"; "step_stable"; "stability_breaches"; "vN_max_step"; "max_factor";
 "stepnum"; "dT_cond"; "dT_adv"; "dT_total"; "sar"; "vertical"; "part_id"; "timestep"] 0 false []
 false)); ("pipe1D_branched_diff", Func (Sig ["T_ext"; "T_port"; "T_s"; "T_amb"; "ports_all";
 "dm_io"; "dm"; "dm_top"; "dm_bot"; "dm_port"; "res_dm"; "cp_T"; "lam_T"; "rho_T"; "ny_T";
 "lam_mean"; "cp_port"; "lam_port_fld"; "mcp"; "rhocp"; "lam_wll"; "lam_ins"; "mcp_wll"; "ui";
 "alpha_i"; "alpha_inf"; "UA_tb"; "UA_tb_wll"; "UA_amb_shell"; "UA_port"; "UA_port_wll";
 "port_own_idx"; "port_link_idx"; "grid_spacing"; "port_gsp"; "port_subs_gsp"; "d_i"; "cell_dist";
 "flow_length"; "r_total"; "r_ln_wll"; "r_ln_ins"; "r_rins"; "A_cell"; "V_cell"; "A_shell_i";
 "A_shell_ins"; "A_p_fld_mean"; "process_flows"; "vertical"; "step_stable"; "part_id";
 "stability_breaches"; "vN_max_step"; "max_factor"; "stepnum"; "dT_cond"; "dT_adv"; "dT_total";
 "timestep"] 0 false [] false)); ("heatedpipe1D_diff", Func (Sig ["T_ext"; "T_port"; "T_s"; "T_amb";
 "ports_all"; "dm_io"; "dm_top"; "dm_bot"; "dm_port"; "dQ_heating"; "res_dm"; "res_dQ"; "cp_T";
 "lam_T"; "rho_T"; "ny_T"; "lam_mean"; "cp_port"; "lam_port_fld"; "mcp"; "mcp_heated"; "rhocp";
 "lam_wll"; "lam_ins"; "mcp_wll"; "ui"; "alpha_i"; "alpha_inf"; "UA_tb"; "UA_tb_wll"; "UA_amb_shell";
 "UA_port"; "UA_port_wll"; "port_own_idx"; "port_link_idx"; "heat_mult"; "grid_spacing"; "port_gsp";
 "port_subs_gsp"; "d_i"; "cell_dist"; "flow_length"; "r_total"; "r_ln_wll"; "r_ln_ins"; "r_rins";
 "A_cell"; "V_cell"; "A_shell_i"; "A_shell_ins"; "A_p_fld_mean"; "process_flows"; "vertical";
 "step_stable"; "part_id"; "stability_breaches"; "vN_max_step"; "max_factor"; "stepnum"; "timestep";
 "dT_cond"; "dT_adv"; "dT_heat"; "dT_heated"; "emergency_shutdown"] 1 false [] false)); ("tes_diff",
 Func (Sig ["T_ext"; "T_port"; "T_s"; "T_s_lid"; "T_amb"; "ports_all"; "dm_io"; "dm"; "dm_top";
 "dm_bot"; "dm_port"; "res_dm"; "cp_T"; "lam_T"; "rho_T"; "ny_T"; "lam_mean"; "cp_port";
 "lam_port_fld"; "mcp"; "rhocp"; "lam_wll"; "lam_ins"; "mcp_wll"; "ui"; "alpha_i"; "alpha_inf";
 "UA_tb"; "UA_tb_wll"; "UA_amb_shell"; "UA_amb_lid"; "UA_port"; "UA_port_wll"; "port_own_idx";
 "port_link_idx"; "grid_spacing"; "port_gsp"; "port_subs_gsp"; "d_i"; "cell_dist"; "flow_length";
 "flow_length_lid"; "r_total"; "r_ln_wll"; "r_ln_ins"; "r_rins"; "s_wll"; "s_ins"; "A_cell";
 "V_cell"; "A_shell_i"; "A_shell_ins"; "A_p_fld_mean"; "process_flows"; "vertical"; "vertical_lid";
 "lid_top"; "step_stable"; "part_id"; "stability_breaches"; "vN_max_step"; "max_factor"; "stepnum";
 "dT_cond"; "dT_adv"; "dT_total"; "timestep"] 0 false [] false)); ("chp_core_diff", Func (Sig
 ["T_ext"; "T_port"; "T_s"; "T_amb"; "ports_all"; "dm_io"; "dm_top"; "dm_bot"; "dm_port";
 "dQ_heating"; "res_dm"; "res_dQ"; "cp_T"; "lam_T"; "rho_T"; "ny_T"; "lam_mean"; "cp_port";
 "lam_port_fld"; "mcp"; "mcp_heated"; "rhocp"; "lam_wll"; "lam_ins"; "mcp_wll"; "ui"; "alpha_i";
 "alpha_inf"; "UA_tb"; "UA_tb_wll"; "UA_amb_shell"; "UA_port"; "UA_port_wll"; "port_own_idx";
 "port_link_idx"; "heat_mult"; "grid_spacing"; "port_gsp"; "port_subs_gsp"; "d_i"; "cell_dist";
 "flow_length"; "r_total"; "r_ln_wll"; "r_ln_ins"; "r_rins"; "A_cell"; "V_cell"; "A_shell_i";
 "A_shell_ins"; "A_p_fld_mean"; "process_flows"; "vertical"; "step_stable"; "part_id";
 "stability_breaches"; "vN_max_step"; "max_factor"; "stepnum"; "timestep"; "dT_cond"; "dT_adv";
 "dT_heat"; "dT_heated"] 0 false [] false)); ("hexnum_diff", Func (Sig ["T_ext"; "T_port"; "T_amb";
 "ports_all"; "dm_io"; "dm_top"; "dm_bot"; "dm_port"; "res_dm"; "cp_T"; "lam_fld"; "rho_T"; "ny_T";
 "lam_mean"; "cp_port"; "lam_port_fld"; "mcp"; "rhocp"; "cp_wll"; "lam_wll"; "ui"; "alpha_i";
 "UA_dim1"; "UA_dim2"; "UA_dim1_wll"; "UA_port"; "UA_port_wll"; "port_own_idx"; "port_link_idx";
 "grid_spacing"; "port_gsp"; "port_subs_gsp"; "d_h"; "s_plate"; "cell_dist"; "dist_min"; "A_channel";
 "V_cell_fld"; "A_plate_eff"; "A_p_fld_mean"; "channel_divisor"; "corr_Re"; "process_flows";
 "step_stable"; "part_id"; "stability_breaches"; "vN_max_step"; "max_factor"; "stepnum"; "dT_cond";
 "dT_adv"; "dT_total"; "timestep"] 0 false [] false)); ("condensing_hex_solve", Func (Sig ["T";
 "T_port"; "ports_all"; "res"; "res_dm"; "dm_io"; "dm_port"; "port_own_idx"; "port_link_idx";
 "X_pred"; "flow_scaling"; "water_dm_range"; "gas_dv_range"; "int_comb_idx"; "nvars_per_ftr";
 "pca_mean"; "pca_components"; "lm_intercept"; "lm_coef"; "stepnum"] 0 false [] false));
 ("hexnum_diff_impl", Func (Sig ["T_ext"; "T_port"; "T_amb"; "ports_all"; "dm_io"; "dm_top";
 "dm_bot"; "dm_port"; "res_dm"; "cp_T"; "lam_fld"; "rho_T"; "ny_T"; "lam_mean"; "cp_port";
 "lam_port_fld"; "mcp"; "rhocp"; "cp_wll"; "lam_wll"; "ui"; "alpha_i"; "UA_dim1"; "UA_dim2";
 "UA_dim1_wll"; "UA_port"; "UA_port_wll"; "port_own_idx"; "port_link_idx"; "grid_spacing";
 "port_gsp"; "d_h"; "s_plate"; "cell_dist"; "dist_min"; "A_channel"; "V_cell_fld"; "A_plate_eff";
 "A_p_fld_mean"; "channel_divisor"; "corr_Re"; "process_flows"; "stepnum"; "dT_cond"; "dT_adv";
 "dT_total"] 0 false [] false)); ("euler_forward", Func (Sig ["diff"; "diff_input_args"; "yprev";
 "_h"] 0 false [] false)); ("hexnum_imp_root_diff", Func (Sig ["y"; "yprev"; "h"; "input_args"] 0
 false [] false)); ("hexnum_imp_fixedpoint", Func (Sig ["y"; "y_prev"; "h"; "input_args"] 0 false []
 false)); ("fixed_point_to_root", Func (Sig ["y"; "fp_fun"; "y_prev"; "h"; "input_args"] 0 false []
 false)); ("hexnum_imp_fixedp_diff", Func (Sig ["y"; "yprev"; "h"; "input_args"] 0 false [] false));
 ("hexnum_imp_newt_diff", Func (Sig ["yprev"; "_h"; "input_args"; "rtol"] 1 false [] false));
 ("solve_connector_3w_overload", Func (Sig ["arglist"] 0 false [] false)); ("solve_connector_3w",
 Func (Sig ["T"; "ports_all"; "cp_T"; "dm"; "port_link_idx"; "res"; "stepnum"] 0 false [] false));
 ("solve_platehex", Func (Sig ["T"; "T_port"; "T_mean"; "ports_all"; "res"; "dm_io"; "dm_port";
 "cp_mean"; "lam_mean"; "rho_mean"; "ny_mean"; "lam_wll"; "alpha_i"; "UA_fld_wll"; "UA_fld_wll_fld";
 "port_own_idx"; "port_link_idx"; "A_plate_eff"; "A_channel"; "d_h"; "s_plate"; "cell_dist"; "num_A";
 "num_channels_sup"; "num_channels_dmd"; "corr_Re"; "stepnum"] 0 false [] false));
 ("_get_p_arr_pump", Func (Sig ["ports_all"; "port_link_idx"; "T"] 0 false [] false));
 ("solve_mix_overload", Func (Sig ["arglist"] 0 false [] false)); ("solve_mix", Func (Sig
 ["port_array"; "_port_link_idx"; "dm_io"; "T"] 0 false [] false)); ("solve_split_overload", Func
 (Sig ["arglist"] 0 false [] false)); ("solve_split", Func (Sig ["port_array"; "_port_link_idx"; "T"]
 0 false [] false)); ("solve_pump_overload", Func (Sig ["arglist"] 0 false [] false)); ("solve_pump",
 Func (Sig ["ports_all"; "port_link_idx"; "T"; "res"; "res_dm"; "dm"; "stepnum"] 0 false [] false));
 ("ctrl_deadtime", Func (Sig ["deadtime"; "timestep"; "dt_arr"; "pv_arr"; "len_dt_arr"; "dt_idx";
 "last_dt_idx"; "delayed_pv"; "sp"; "pv"] 0 false [] false)); ("_heun_corrector_adapt", Func (Sig
 ["res"; "T"; "df0"; "df1"; "trnc_err_cell_weight"; "_h"; "stepnum"; "rtol"; "atol"; "err";
 "new_trnc_err"] 0 false [] false)); ("_embedded_adapt_stepsize", Func (Sig ["err"; "sys_trnc_err";
 "num_cells_tot_nmrc"; "step_accepted"; "failed_steps"; "safety"; "order"; "solver_state";
 "min_factor"; "max_factor"; "min_stepsize"; "max_stepsize"; "ports_all"; "parr_bkp"; "vN_max_step";
 "step_stable"; "cnt_instable"; "timeframe"; "_h"; "timestep"; "stepnum"] 0 false [] false));
 ("rayleigh_number", Func (Sig ["T_s"; "T_inf"; "Pr"; "ny"; "Kelvin"; "flow_length"] 0 false []
 false)); ("get_rho_water", Func (Sig ["T"; "rho"] 0 false [] false)); ("rho_water", Func (Sig ["T"]
 0 false [] false)); ("lambda_water", Func (Sig ["T"] 0 false [] false)); ("get_lambda_water", Func
 (Sig ["T"; "lam"] 0 false [] false)); ("get_cp_water", Func (Sig ["T"; "cp"] 0 false [] false));
 ("cp_water", Func (Sig ["T"] 0 false [] false)); ("get_ny_water", Func (Sig ["T"; "ny"] 0 false []
 false)); ("ny_water", Func (Sig ["T"] 0 false [] false)); ("get_Pr_water", Func (Sig ["T"; "Pr"] 0
 false [] false)); ("Pr_water_return", Func (Sig ["T"] 0 false [] false)); ("get_beta_water", Func
 (Sig ["T"; "beta"] 0 false [] false)); ("beta_water_return", Func (Sig ["T"] 0 false [] false));
 ("get_Re_water", Func (Sig ["v"; "L"; "ny"; "Re"] 0 false [] false)); ("Re_water_return", Func (Sig
 ["v"; "L"; "ny"] 0 false [] false)); ("get_rho_dryair", Func (Sig ["T"; "rho"] 0 false [] false));
 ("get_lam_dryair", Func (Sig ["T"; "lam"] 0 false [] false)); ("lam_dryair_return", Func (Sig ["T"]
 0 false [] false)); ("get_ny_dryair", Func (Sig ["T"; "ny"] 0 false [] false)); ("ny_dryair_return",
 Func (Sig ["T"] 0 false [] false)); ("humid_air_saturation_pressure", Func (Sig ["T"] 0 false []
 false)); ("humid_air_sat_water_mass", Func (Sig ["T"] 0 false [] false)); ("calc_flow_length", Func
 (Sig [] 0 false [("part_shape", false); ("vertical", false)] true)); ("pipe_get_Re", Func (Sig
 ["dm"; "rho"; "ny"; "A"; "d_i"; "Re"] 0 false [] false)); ("pipe_get_Re2", Func (Sig ["dm"; "rho";
 "ny"; "A"; "d_i"; "Re"] 0 false [] false)); ("pipe_alpha_i", Func (Sig ["dm"; "T"; "rho"; "ny";
 "lam_fld"; "A"; "d_i"; "x"; "alpha"] 0 false [] false)); ("pipe_alpha_i_wll_sep", Func (Sig ["dm";
 "T"; "rho"; "ny"; "lam_fld"; "A"; "d_i"; "x"; "alpha"] 0 false [] false)); ("phex_alpha_i_wll_sep",
 Func (Sig ["dm"; "T_fld"; "T_wll"; "rho"; "ny"; "lam_fld"; "A"; "d_h"; "x"; "corr_Re"; "alpha"] 0
 false [] false)); ("phex_alpha_i_wll_sep_discretized", Func (Sig ["dm"; "T_fld"; "T_wll"; "rho";
 "ny"; "lam_fld"; "A"; "d_h"; "x"; "corr_Re"; "alpha"] 0 false [] false)); ("cylinder_alpha_inf",
 Func (Sig ["T_s"; "T_inf"; "flow_length"; "vertical"; "r_total"; "alpha_inf"] 0 false [] false));
 ("plane_alpha_inf", Func (Sig ["T_s"; "T_inf"; "flow_length"; "vertical"; "top"] 0 false [] false));
 ("vert_plane_alpha_inf", Func (Sig ["T_s"; "T_inf"; "flow_length"] 0 false [] false));
 ("hor_plane_alpha_inf", Func (Sig ["T_s"; "T_inf"; "flow_length"; "top"] 0 false [] false));
 ("UA_fld_wll_ins_amb_cyl", Func (Sig ["A_i"; "r_ln_wll"; "r_ln_ins"; "r_rins"; "alpha_i";
 "alpha_inf"; "lam_wll"; "lam_ins"; "out"] 0 false [] false)); ("UA_fld_wll_amb_cyl", Func (Sig
 ["A_i"; "r_ln_wll"; "r_ro"; "alpha_i"; "alpha_inf"; "lam_wll"; "UA"] 0 false [] false));
 ("UA_fld_wll_cyl", Func (Sig ["A_i"; "r_i"; "r_o"; "alpha_i"; "lam_wll"; "UA"] 0 false [] false));
 ("UA_wll_ins_amb_cyl", Func (Sig ["A_i"; "r_i"; "r_o"; "r_ln_ins"; "r_rins"; "alpha_inf"; "lam_wll";
 "lam_ins"; "UA"] 0 false [] false)); ("UA_wll_amb_cyl", Func (Sig ["A_i"; "r_i"; "r_o"; "alpha_inf";
 "lam_wll"; "UA"] 0 false [] false)); ("UA_fld_wll_plate", Func (Sig ["A"; "s_wll"; "alpha_fld";
 "lam_wll"] 0 false [] false)); ("UA_fld_wll_ins_amb_plate", Func (Sig ["A"; "s_wll"; "s_ins";
 "alpha_fld"; "alpha_inf"; "lam_wll"; "lam_ins"] 0 false [] false)); ("UA_wll_ins_amb_plate", Func
 (Sig ["A"; "s_wll"; "s_ins"; "lam_wll"; "lam_ins"; "alpha_inf"] 0 false [] false));
 ("surface_temp_steady_state_inplace", Func (Sig ["T"; "T_inf"; "A_s"; "alpha_inf"; "UA"; "T_s"] 0
 false [] false)); ("surface_temp_steady_state", Func (Sig ["T"; "T_inf"; "A_s"; "alpha_inf"; "UA"] 0
 false [] false)); ("series_circuit_UA", Func (Sig [] 0 true [] false)); ("parallel_circuit_UA", Func
 (Sig [] 0 true [] false)); ("log_mean_temp_diff", Func (Sig ["T_A_one"; "T_A_two"; "T_B_one";
 "T_B_two"] 0 false [] false)); ("moving_avg", Func (Sig ["x"; "N"] 0 false [] false));
 ("fill_edges", Func (Sig ["x"; "new_length"] 0 false [] false)); ("moving_avg_fill_edges", Func (Sig
 ["x"; "N"] 0 false [] false)); ("weighted_moving_avg", Func (Sig ["x"; "wght"; "fill_edges"] 1 false
 [] false)); ("root_finder", Func (Sig ["poly_coeff"; "roots"] 0 false [] false)); ("lim_growth",
 Func (Sig ["x"; "s"; "b0"; "k"] 0 false [] false)); ("chp_startup_th", Func (Sig ["time"; "s"; "b0";
 "k"] 3 false [] false)); ("chp_startup_el", Func (Sig ["time"; "s"; "b0"; "k"] 3 false [] false));
 ("chp_startup_gas", Func (Sig ["time"] 0 false [] false)); ("chp_thermal_power", Func (Sig
 ["modulation"; "s"; "b0"; "k"] 3 false [] false)); ("chp_gas_power", Func (Sig ["modulation"; "s";
 "b0"; "k"] 3 false [] false)); ("chp_shutdown_th", Func (Sig ["time"; "a"; "b"] 2 false [] false));
 ("quad_get_c", Func (Sig ["x"; "dy"; "b"; "c_base"] 0 false [] false)); ("quad_get_b", Func (Sig
 ["y0"; "a"; "c"] 0 false [] false)); ("condensing_hex_quad_poly", Func (Sig ["X_pred";
 "int_comb_idx"; "nvars_per_ftr"; "pca_mean"; "pca_components"; "lm_intercept"; "lm_coef";
 "dm_water_thresh"; "dx"] 2 false [] false)); ("_process_chp_core_modulation", Func (Sig
 ["process_flows"; "power_modulation"; "T"; "T_chp_in"; "T_chp_in_max"; "T_chp_in_max_emrgncy";
 "mod_lower"; "min_on_time"; "min_off_time"; "max_ramp_el"; "startup_in_progress";
 "shutdown_in_progress"; "chp_state"; "startup_at_time"; "shutdown_at_time"; "startup_duration";
 "shutdown_duration"; "chp_on_perc"; "remaining_heat"; "bin_pow_fac"; "startup_factor_th";
 "startup_factor_el"; "shutdown_factor_th"; "startuptsteps"; "chp_off_perc"; "dt_time_temp_exc";
 "max_temp_exc_time"; "stepnum"; "time_vec"; "timestep"] 0 false [] false)); ("predictor_step", Func
 (Sig ["diff_fun"; "args"; "h"; "y_prev"] 0 false [] false)); ("solve_pred_loop", Func (Sig ["h";
 "diff_funs"; "all_args"; "all_y_prev"; "interm_res"] 0 false [] false)); ("heun_predictor", Func
 (Sig ["_h"; "solve_num"; "parts"; "stepnum"; "i"] 0 false [] false));
 ("make_poly_transf_combs_for_nb", Func (Sig ["mdl"; "n_features"; "pipeline"; "poly_step"] 3 false
 [] false)); ("extract_pca_results", Func (Sig ["mdl"; "pipeline"; "pca_step"] 2 false [] false));
 ("transform_to_poly_nb", Func (Sig ["X"; "int_comb_idx"; "nvars_per_ftr"; "n_samples"] 0 false []
 false)); ("transform_pca_nb", Func (Sig ["XP"; "pca_mean"; "pca_components"] 0 false [] false));
 ("poly_tranfs_pred", Func (Sig ["XP_pca_transf"; "intercept"; "coef"] 0 false [] false));
 ("root_array_secant", Func (Sig ["func"; "x0"; "args"; "tol"; "maxiter"] 0 false [] false));
 ("root_array_newton", Func (Sig ["func"; "x0"; "fprime"; "args"; "tol"; "maxiter"] 0 false []
 false)); ("root_array_newton_fast", Func (Sig ["func"; "x0"; "fprime"; "args"; "tol"; "maxiter"] 0
 false [] false)); ("root_secant", Func (Sig ["f"; "x0"; "h"; "yprev"; "input_args"; "tol";
 "max_iter"] 2 false [] false)); ("nb", Outside); ("jit", Outside); ("njit", Outside); ("float64",
 Outside); ("int32", Outside); ("np", Outside); ("GLOB_NOGIL", Outside); ("GLOB_PARALLEL", Outside)].

(* multisim/simenv.py *)
Definition names_32 : list (string * binding) :=
 [("_FlowNet", From "flownet" "FlowNet"); ("_pf", Mod "precomp_funs"); ("__version__", From "version"
 "version"); ("SimEnv", Class "SimEnv"); ("_odict", Outside); ("_namedtuple", Outside); ("_partial",
 Outside); ("_math", Outside); ("os", Outside); ("sys", Outside); ("_time_", Outside); ("_traceback",
 Outside); ("np", Outside); ("pd", Outside); ("_psutil", Outside); ("_root", Outside); ("__all__",
 Outside)].

(* multisim/std_parts.py *)
Definition names_33 : list (string * binding) :=
 [("PID", From "parts/controllers" "PID"); ("BangBang", From "parts/controllers" "BangBang");
 ("TwoSensors", From "parts/controllers" "TwoSensors"); ("Pipe", From "parts/pipe" "Pipe"); ("Tes",
 From "parts/tes" "Tes"); ("Pump", From "parts/pump" "Pump"); ("MixingValve", From
 "parts/mixingvalve" "MixingValve"); ("Connector3w", From "parts/connector_3w" "Connector3w");
 ("HeatExchanger", From "parts/heatexchanger" "HeatExchanger"); ("HexNum", From "parts/hex_num"
 "HexNum"); ("HEXCondPoly", From "parts/hex_condensing_polynome" "HEXCondPoly"); ("__all__",
 Outside)].

(* multisim/utility_functions.py *)
Definition names_34 : list (string * binding) :=
 [("SimEnv", From "simenv" "SimEnv"); ("_cp_water", From "precomp_funs" "cp_water"); ("_rho_water",
 From "precomp_funs" "rho_water"); ("load_sim_results", Func (Sig ["filename"; "path"; "keys";
 "multiindex"] 3 false [] false)); ("load_results_by_name", Func (Sig ["set_identifier";
 "set_numbers"; "set_name"; "keys"; "result_file_ending"; "sub_dir"; "base_path"] 7 false [] false));
 ("load_failed_results", Func (Sig ["file"; "base_pth"; "results_folder"] 2 false [] false));
 ("package_results", Func (Sig ["name_feature"; "path"; "move_to"; "ndate_chars"] 4 false [] false));
 ("add_line_to_log", Func (Sig ["line"; "filename"; "path"] 2 false [] false));
 ("make_boundarycond_timeseries", Func (Sig ["bc_array"; "bc_freq"; "ts_start"; "ts_duration";
 "ts_freq"; "bc_too_short"; "downsample_method"; "upsample_method"] 3 false [] false));
 ("process_unevenly_spaced_timeseries", Func (Sig [] 0 false [("data", false); ("freq", false);
 ("how", false)] false)); ("interp_pipe_specs", Func (Sig ["A_i"; "pipe_type"; "base_pth"] 2 false []
 false)); ("adjust_pipes", Func (Sig ["pspecs"; "base_path"] 1 false [] false)); ("database_import",
 Func (Sig [] 0 false [("standard_db", true); ("path", true); ("which", true)] false));
 ("update_databases", Func (Sig [] 0 false [("path", true); ("transpose", true)] false));
 ("override", Func (Sig ["toolbox"; "submodule"; "function_name"] 3 false [] false)); ("r_squared",
 Func (Sig ["y"; "y_hat"] 0 false [] false)); ("r_squared_adj", Func (Sig ["p"; "r_sqrd"; "n"; "y";
 "y_hat"] 4 false [] false)); ("mean_abs_err", Func (Sig ["y"; "y_hat"; "roll"; "window";
 "min_periods"] 3 false [] false)); ("mean_signed_deviation", Func (Sig ["y"; "y_hat"; "roll";
 "window"; "min_periods"] 3 false [] false)); ("mean_squared_err", Func (Sig ["y"; "y_hat"; "roll";
 "window"; "min_periods"] 3 false [] false)); ("rmse", Func (Sig ["y"; "y_hat"; "roll"; "window";
 "min_periods"] 3 false [] false)); ("cv_rmse", Func (Sig ["y"; "y_hat"; "roll"; "window";
 "min_periods"] 3 false [] false)); ("normalized_err", Func (Sig ["y"; "y_hat"; "err_method"; "norm"]
 2 false [] false)); ("remove_outliers_std", Func (Sig [] 0 false [("data", false); ("stdevs", true);
 ("fill_value", true)] false)); ("remove_outliers_roll", Func (Sig [] 0 false [("data", false);
 ("window", true); ("stdevs", true); ("fill_value", true)] false)); ("rolling_median", Func (Sig [] 0
 false [("data", false); ("window", false)] false)); ("rolling_centered", Func (Sig ["df"; "window";
 "min_periods"; "method"; "win_type"; "on"; "axis"; "closed"] 6 false [] false));
 ("rolling_right_aligned", Func (Sig ["df"; "window"; "min_periods"] 0 false [] false));
 ("remove_outliers_mad", Func (Sig [] 0 false [("data", false); ("threshold", true); ("fill_value",
 true); ("rolling", true); ("window", true); ("dist_const", true)] false)); ("NetPlotter", Class
 "NetPlotter"); ("Meters", Class "Meters"); ("is_evenly_spaced", Func (Sig ["data"; "return_freq"] 1
 false [] false)); ("fit_time_series", Func (Sig [] 0 false [("pred", false); ("rlz", false);
 ("resample_uneven", true); ("freq", true); ("how", true); ("return_df", true)] false));
 ("ts_performance_indicators", Func (Sig [] 0 false [("pred", false); ("rlz", false);
 ("exclude_zeros", true); ("exclude_values", true); ("exclude_range", true); ("resample_uneven",
 true); ("freq", true); ("how", true)] false)); ("plt_prediction_realization", Func (Sig [] 0 false
 [("pred", false); ("rlz", false); ("ax", true); ("plot_type", true); ("plot_every", true);
 ("show_linregress", true); ("exclude_zeros", true); ("resample_uneven", true); ("freq", true);
 ("how", true); ("freq_perf", true); ("errors", true); ("aspect", true); ("scttr_kwds", true);
 ("kde_kwds", true); ("diag_kwds", true); ("err_kwds", true); ("err_loc", true); ("legend_kwds",
 true); ("auto_label", true); ("sprache", true)] false)); ("plot_pr_scatter", Func (Sig ["y";
 "y_hat"; "ax"; "aspect"; "ax_scaling_tight"; "errors"; "scttr_kwds"; "diag_kwds"; "plt_err_range";
 "err_rng_kwds"; "err_kwds"; "err_loc"; "legend_kwds"; "auto_label"; "sprache"; "plot_every";
 "fig_kwds"; "err_vals"] 16 false [] false)); ("plot_2d_kde", Func (Sig ["x"; "y"; "steps"; "ax";
 "contour"; "cmap"; "norm"; "vmin"; "vmax"; "cont_lines"; "cbar"; "line_color"; "fontsize"; "aspect";
 "extend"; "cm_under"; "cm_over"; "errors"; "plt_kwds"] 17 false [] true)); ("annotate_errors", Func
 (Sig ["ax"; "y"; "y_hat"; "errors"; "err_loc"; "err_vals"; "fontsize"; "err_kwds"] 4 false []
 false)); ("si_axlabel", Func (Sig ["ax"; "label"; "unit"; "which"; "style"; "spacing";
 "invert_position"] 5 false [] false)); ("annotate_axes", Func (Sig ["axes"; "fig"; "annotations";
 "loc"; "bbox"; "txt_offset"; "fontsize"] 6 false [] true)); ("opt_control", Func (Sig [] 0 false
 [("simenv_creater_function", false); ("LabData", false); ("control", false); ("actuator", false);
 ("terms", false); ("start_values", false); ("labdata_flow", false); ("opt_flow_and_temp", true);
 ("labdata_time_offset", true)] true)); ("_wraps", Outside); ("os", Outside); ("_glob", Outside);
 ("_shutil", Outside); ("sys", Outside); ("_types", Outside); ("np", Outside); ("pd", Outside);
 ("_mpl", Outside); ("plt", Outside); ("_mal", Outside); ("_LineCollection", Outside); ("_pe",
 Outside); ("_FuncAnimation", Outside); ("_re", Outside); ("stats", Outside); ("warnings", Outside);
 ("tb", Outside); ("_toolbox_installed", Outside)].

(* multisim/version.py *)
Definition names_35 : list (string * binding) :=
 [("version", Outside)].

Definition modules : list (string * list (string * binding)) :=
 [("__init__", names_0); ("_precompiled/__init__", names_1); ("_precompiled/dimensionless_numbers",
 names_2); ("_precompiled/material_properties", names_3); ("_utility/__init__", names_4);
 ("_utility/meters", names_5); ("_utility/plotting", names_6); ("_utility/stat_error_measures",
 names_7); ("all_parts", names_8); ("controls", names_9); ("flownet", names_10); ("parts/__init__",
 names_11); ("parts/chp_plant", names_12); ("parts/connector_3w", names_13); ("parts/controllers",
 names_14); ("parts/heated_pipe", names_15); ("parts/heatexchanger", names_16);
 ("parts/hex_condensing_polynome", names_17); ("parts/hex_num", names_18); ("parts/mixingvalve",
 names_19); ("parts/part_modules/__init__", names_20); ("parts/part_modules/chp_with_fluegas_hex",
 names_21); ("parts/part_modules/consumers", names_22); ("parts/part_modules/suppliers", names_23);
 ("parts/pipe", names_24); ("parts/pipe2D", names_25); ("parts/pipe_branched", names_26);
 ("parts/pipe_with_pump", names_27); ("parts/pipe_with_valve", names_28); ("parts/pump", names_29);
 ("parts/tes", names_30); ("precomp_funs", names_31); ("simenv", names_32); ("std_parts", names_33);
 ("utility_functions", names_34); ("version", names_35)].

(* multisim/_utility/meters.py, line 16 *)
Definition class_0 : class := Cls "_utility/meters" "Meters" []
 [("__init__", (false, (Sig ["self"; "simenv"; "start_time"] 0 false [] false))); ("heat_meter",
 (false, (Sig ["self"] 0 false [("name", false); ("warm_part", false); ("warm_cell", false);
 ("cold_part", false); ("cold_cell", false); ("massflow_from_hot_part", true); ("full_output", true);
 ("evenly_spaced", true); ("freq", true); ("how", true)] false))); ("temperature", (false, (Sig
 ["self"] 0 false [("name", false); ("part", false); ("cell", false)] false))); ("massflow", (false,
 (Sig ["self"] 0 false [("name", false); ("part", false); ("cell", false)] false))); ("volumeflow",
 (false, (Sig ["self"] 0 false [("name", false); ("part", false); ("cell", false)] false)));
 ("get_sensors_df", (false, (Sig ["self"] 0 false [] false))); ("get_sensors_dict", (false, (Sig
 ["self"] 0 false [] false))); ("_resample_meter", (false, (Sig ["self"; "df"] 0 false [] false)));
 ("_save_to_disk", (false, (Sig ["self"; "name"; "meter"] 0 false [] false))); ("pred_real_plot",
 (false, (Sig ["self"; "show_rmse"; "show_cvrmse"; "hexbin"; "exclude_zeros"; "resample_uneven"] 5
 false [] false)))].

(* multisim/controls.py, line 12 *)
Definition class_1 : class := Cls "controls" "Controls" []
 [("__init__", (false, (Sig ["self"; "name"; "master_cls"] 0 false [] true))); ("init_controller",
 (false, (Sig ["self"] 0 false [] true))); ("clear", (false, (Sig ["self"] 0 false [] false)));
 ("ctrl", (false, (Sig ["self"; "timestep"] 0 false [] false))); ("_process_cv_direct", (false, (Sig
 ["self"; "dummy_cls_instance"] 0 false [] false))); ("_clip_cv_to_saturation", (false, (Sig ["self"]
 0 false [] false))); ("_cv_invert", (false, (Sig ["self"] 0 false [] false)));
 ("_subcontroller_check", (false, (Sig ["self"; "pid"] 1 false [] false))); ("_Controls__check_args",
 (false, (Sig ["self"; "part"; "port"; "caller"] 2 false [] true)))].

(* multisim/flownet.py, line 10 *)
Definition class_2 : class := Cls "flownet" "FlowNet" []
 [("__init__", (false, (Sig ["self"; "SimEnv_instance"; "part"; "sub_net"] 1 false [] false)))].

(* multisim/parts/chp_plant.py, line 14 *)
Definition class_3 : class := Cls "parts/chp_plant" "CHPPlant" ["Pipe"]
 [("__init__", (false, (Sig ["self"; "name"; "master_cls"; "eta_el"; "p2h_ratio"; "max_slope_el";
 "min_off_time"; "min_on_time"; "chp_on_at_start"] 6 false [] true))); ("init_part", (false, (Sig
 ["self"; "start_modulation"; "fluegas_flow"] 2 false [] true))); ("_special_array_init", (false,
 (Sig ["self"; "num_steps"] 0 false [] false))); ("_CHPPlant__deprecated_special_free_memory",
 (false, (Sig ["self"; "disk_store"; "part"; "array_length"; "hdf_idx"; "stepnum"] 0 false []
 false))); ("_special_free_memory", (false, (Sig ["self"; "disk_store"; "part"; "array_length";
 "hdf_idx"; "stepnum"] 0 false [] false))); ("_check_results", (false, (Sig ["self"] 0 false []
 false))); ("_final_datastore_backcalc", (false, (Sig ["self"; "disk_store"; "part"] 0 false []
 false))); ("_special_crop_results", (false, (Sig ["self"; "stepnum"] 0 false [] false)));
 ("_special_return_store", (false, (Sig ["self"; "disk_store"; "dfs"; "part"] 0 false [] false)));
 ("get_diff", (false, (Sig ["self"; "timestep"] 0 false [] false)))].

(* multisim/parts/connector_3w.py, line 13 *)
Definition class_4 : class := Cls "parts/connector_3w" "Connector3w" ["SimEnv"]
 [("__init__", (false, (Sig ["self"; "name"; "master_cls"] 0 false [] true))); ("init_part", (false,
 (Sig ["self"] 0 false [("material", false); ("pipe_specs", false)] true))); ("_reset_to_init_cond",
 (false, (Sig ["self"] 0 false [] false))); ("_get_flow_routine", (false, (Sig ["self"; "port";
 "parent_port"; "subnet"] 2 false [] true))); ("solve", (false, (Sig ["self"; "timestep"] 0 false []
 false))); ("draw_part", (false, (Sig ["self"; "axis"; "timestep"; "draw"; "animate"] 1 false []
 false)))].

(* multisim/parts/controllers.py, line 15 *)
Definition class_5 : class := Cls "parts/controllers" "PID" ["Controls"]
 [("__init__", (false, (Sig ["self"; "name"; "master_cls"] 0 false [] true)));
 ("_reset_to_init_cond", (false, (Sig ["self"] 0 false [] false))); ("run_controller", (false, (Sig
 ["self"; "timestep"] 0 false [] false)))].

(* multisim/parts/controllers.py, line 497 *)
Definition class_6 : class := Cls "parts/controllers" "BangBang" ["Controls"]
 [("__init__", (false, (Sig ["self"; "name"; "master_cls"] 0 false [] true)));
 ("_reset_to_init_cond", (false, (Sig ["self"] 0 false [] false))); ("run_controller", (false, (Sig
 ["self"; "timestep"] 0 false [] false)))].

(* multisim/parts/controllers.py, line 555 *)
Definition class_7 : class := Cls "parts/controllers" "TwoSensors" ["Controls"]
 [("__init__", (false, (Sig ["self"; "name"; "master_cls"] 0 false [] true)));
 ("_reset_to_init_cond", (false, (Sig ["self"] 0 false [] false))); ("run_controller", (false, (Sig
 ["self"; "timestep"] 0 false [] false)))].

(* multisim/parts/controllers.py, line 661 *)
Definition class_8 : class := Cls "parts/controllers" "ModelPredCHP" ["Controls"]
 [("__init__", (false, (Sig ["self"; "name"; "master_cls"] 0 false [] true)));
 ("_special_store_to_disk", (false, (Sig ["self"; "store"; "store_kdws"] 0 false [] false)));
 ("_process_opt_profiles", (false, (Sig ["self"; "opt_prfls"] 0 false [] true)));
 ("_process_ctrl_profiles", (false, (Sig ["self"; "ctrl_prfls"] 0 false [] true)));
 ("_process_profiles", (false, (Sig ["self"; "prfls"; "which"] 0 false [] true)));
 ("_reset_to_init_cond", (false, (Sig ["self"] 0 false [] false))); ("tes_cap_before_empty", (false,
 (Sig ["self"; "x"] 0 false [] false))); ("tes_cap_before_full", (false, (Sig ["self"; "x"] 0 false
 [] false))); ("_tes_heat_content", (false, (Sig ["self"] 0 false [] false))); ("_emergency_control",
 (false, (Sig ["self"; "hysteresis"] 1 false [] false))); ("_adapt_cap", (false, (Sig ["self";
 "lower"; "check"] 1 false [] false))); ("_longterm_opt_pred", (false, (Sig ["self"] 0 false []
 false))); ("_longterm_clip_array", (false, (Sig ["self"; "x"; "atol"; "copy"] 1 false [] false)));
 ("_longterm_adj_by_soc", (false, (Sig ["self"; "x"; "atol"] 1 false [] false)));
 ("_longterm_clip_w_cont", (false, (Sig ["self"; "atol"] 1 false [] false)));
 ("_longterm_finalize_step", (false, (Sig ["self"] 0 false [] false))); ("_restore_adptd_caps",
 (false, (Sig ["self"] 0 false [] false))); ("_shortterm_opt", (false, (Sig ["self"] 0 false []
 false))); ("run_controller", (false, (Sig ["self"; "timestep"] 0 false [] false))); ("_preopt_x0",
 (false, (Sig ["self"; "x0"] 0 false [] false))); ("_minimizer_input", (true, (Sig ["x";
 "pel_baseload"; "pel_dmd_user_ms"; "pel_chp_max"; "eta_el"; "modrange_chp"; "freq_fac";
 "flat_instandh"; "gaspreis"; "esteuerrueck_gas"; "netzneg"; "eex_baseload"; "strompreis_zukauf";
 "aufschlag_verkauf"; "instandh_cost"; "penalty_wvk"; "penalty_pow_instandh"; "return_details"] 13
 false [] false))); ("_minimizer_input_scalar", (true, (Sig ["x"; "pel_baseload"; "pel_dmd_user_ms";
 "pel_chp_max"; "eta_el"; "modrange_chp"; "freq_fac"; "flat_instandh"; "gaspreis";
 "esteuerrueck_gas"; "netzneg"; "eex_baseload"; "strompreis_zukauf"; "aufschlag_verkauf";
 "instandh_cost"; "penalty_wvk"; "penalty_pow_instandh"; "return_details"] 13 false [] false)));
 ("_kwk_zuschlag", (true, (Sig ["pel_chp"; "as_sum"; "ersatz_alt"; "strompreis_negativ"] 3 false []
 false))); ("_instandh_chp_nonflat", (true, (Sig ["pel_chp_max"; "verfahren"] 1 false [] false)));
 ("_eeg_umlage", (true, (Sig ["pel_chp"; "jahr"; "verbraucher"] 2 false [] false)));
 ("_load_eex_baseload", (true, (Sig ["quartal"; "reload_xls"] 2 false [] false))); ("infer_instandh",
 (true, (Sig ["chp_pel"; "inkl_mwst"; "large_customer_discount"] 2 false [] false)))].

(* multisim/parts/heated_pipe.py, line 14 *)
Definition class_9 : class := Cls "parts/heated_pipe" "HeatedPipe" ["Pipe"]
 [("__init__", (false, (Sig ["self"; "name"; "master_cls"] 0 false [] true))); ("init_part", (false,
 (Sig ["self"] 0 false [] true))); ("_special_array_init", (false, (Sig ["self"; "num_steps"] 0 false
 [] false))); ("_HeatedPipe__depcreated_special_free_memory", (false, (Sig ["self"; "disk_store";
 "part"; "array_length"; "hdf_idx"; "stepnum"] 0 false [] false))); ("_special_free_memory", (false,
 (Sig ["self"; "disk_store"; "part"; "array_length"; "hdf_idx"; "stepnum"] 0 false [] false)));
 ("_check_results", (false, (Sig ["self"] 0 false [] false))); ("_final_datastore_backcalc", (false,
 (Sig ["self"; "disk_store"; "part"] 0 false [] false))); ("_special_crop_results", (false, (Sig
 ["self"; "stepnum"] 0 false [] false))); ("_special_return_store", (false, (Sig ["self";
 "disk_store"; "dfs"; "part"] 0 false [] false))); ("get_diff", (false, (Sig ["self"; "timestep"] 0
 false [] false)))].

(* multisim/parts/heatexchanger.py, line 26 *)
Definition class_10 : class := Cls "parts/heatexchanger" "HeatExchanger" ["SimEnv"]
 [("__init__", (false, (Sig ["self"; "name"; "master_cls"] 0 false [] true))); ("init_part", (false,
 (Sig ["self"] 0 false [("Reynolds_correction", true)] true))); ("_reset_to_init_cond", (false, (Sig
 ["self"] 0 false [] false))); ("get_plate_hex_geometry", (false, (Sig ["self"] 0 false [] true)));
 ("find_Reynolds_correction", (false, (Sig ["self"] 0 false [("T_in", false); ("T_out", false); ("P",
 false); ("alpha_target", false); ("side", false)] false))); ("_get_flow_routine", (false, (Sig
 ["self"; "port"; "parent_port"; "subnet"] 2 false [] true))); ("solve", (false, (Sig ["self";
 "timestep"] 0 false [] false))); ("draw_part", (false, (Sig ["self"; "axis"; "timestep"; "draw";
 "animate"] 1 false [] false)))].

(* multisim/parts/hex_condensing_polynome.py, line 18 *)
Definition class_11 : class := Cls "parts/hex_condensing_polynome" "HEXCondPoly" ["SimEnv"]
 [("__init__", (false, (Sig ["self"; "name"; "master_cls"] 0 false [] true))); ("init_part", (false,
 (Sig ["self"] 0 false [] true))); ("_reset_to_init_cond", (false, (Sig ["self"] 0 false [] false)));
 ("_get_flow_routine", (false, (Sig ["self"; "port"; "parent_port"; "subnet"] 2 false [] true)));
 ("_check_results", (false, (Sig ["self"] 0 false [] false))); ("solve", (false, (Sig ["self";
 "timestep"] 0 false [] false))); ("draw_part", (false, (Sig ["self"; "axis"; "timestep"; "draw";
 "animate"] 1 false [] false)))].

(* multisim/parts/hex_num.py, line 13 *)
Definition class_12 : class := Cls "parts/hex_num" "HexNum" ["SimEnv"]
 [("__init__", (false, (Sig ["self"; "name"; "master_cls"] 0 false [] true))); ("init_part", (false,
 (Sig ["self"] 0 false [("reynolds_correction", true)] true))); ("_reset_to_init_cond", (false, (Sig
 ["self"] 0 false [] false))); ("get_plate_hex_geometry", (false, (Sig ["self"] 0 false [] true)));
 ("find_reynolds_correction", (false, (Sig ["self"] 0 false [("T_in", false); ("T_out", false); ("P",
 false); ("alpha_target", false); ("side", false)] false))); ("_get_flow_routine", (false, (Sig
 ["self"; "port"; "parent_port"; "subnet"] 2 false [] true))); ("get_diff", (false, (Sig ["self";
 "timestep"] 0 false [] false))); ("get_diff_impl_ext", (false, (Sig ["self"; "T_ext"; "timestep"] 0
 false [] false))); ("get_diff_impl", (false, (Sig ["self"; "T"; "timestep"] 0 false [] false)));
 ("draw_part", (false, (Sig ["self"; "axis"; "timestep"; "draw"; "animate"] 1 false [] false)))].

(* multisim/parts/mixingvalve.py, line 14 *)
Definition class_13 : class := Cls "parts/mixingvalve" "MixingValve" ["SimEnv"]
 [("__init__", (false, (Sig ["self"; "name"; "master_cls"; "mix_or_split"] 1 false [] true)));
 ("init_part", (false, (Sig ["self"] 0 false [("port_A_init", false)] true)));
 ("_reset_to_init_cond", (false, (Sig ["self"] 0 false [] false))); ("_get_flow_routine", (false,
 (Sig ["self"; "port"; "parent_port"; "subnet"] 2 false [] true))); ("_process_cv", (false, (Sig
 ["self"; "ctrl_inst"] 0 false [] false))); ("solve", (false, (Sig ["self"; "timestep"] 0 false []
 false))); ("draw_part", (false, (Sig ["self"; "axis"; "timestep"; "draw"] 0 false [] false)))].

(* multisim/parts/pipe.py, line 13 *)
Definition class_14 : class := Cls "parts/pipe" "Pipe" ["SimEnv"]
 [("__init__", (false, (Sig ["self"; "name"; "master_cls"] 0 false [] true))); ("init_part", (false,
 (Sig ["self"] 0 false [] true))); ("_reset_to_init_cond", (false, (Sig ["self"] 0 false [] false)));
 ("_get_flow_routine", (false, (Sig ["self"; "port"; "parent_port"; "subnet"] 2 false [] true)));
 ("get_diff", (false, (Sig ["self"; "timestep"] 0 false [] false)))].

(* multisim/parts/pipe2D.py, line 14 *)
Definition class_15 : class := Cls "parts/pipe2D" "Pipe2D" ["SimEnv"]
 [("__init__", (false, (Sig ["self"; "name"; "master_cls"] 0 false [] true))); ("init_part", (false,
 (Sig ["self"] 0 false [] true))); ("_get_flow_routine", (false, (Sig ["self"; "port"; "parent_port";
 "subnet"] 2 false [] true))); ("get_diff", (false, (Sig ["self"; "timestep"] 0 false [] false)))].

(* multisim/parts/pipe_branched.py, line 13 *)
Definition class_16 : class := Cls "parts/pipe_branched" "PipeBranched" ["Pipe"]
 [("__init__", (false, (Sig ["self"; "name"; "master_cls"] 0 false [] true))); ("init_part", (false,
 (Sig ["self"] 0 false [] true))); ("_get_flow_routine", (false, (Sig ["self"; "port"; "parent_port";
 "subnet"] 2 false [] true))); ("get_diff", (false, (Sig ["self"; "timestep"] 0 false [] false)))].

(* multisim/parts/pipe_with_pump.py, line 10 *)
Definition class_17 : class := Cls "parts/pipe_with_pump" "PipeWithPump" ["Pipe"]
 [("__init__", (false, (Sig ["self"; "name"; "master_cls"] 0 false [] true))); ("init_part", (false,
 (Sig ["self"] 0 false [("start_massflow", false)] true))); ("_get_flow_routine", (false, (Sig
 ["self"; "port"; "parent_port"; "subnet"] 2 false [] true))); ("_process_cv", (false, (Sig ["self";
 "ctrlr"] 0 false [] false)))].

(* multisim/parts/pipe_with_valve.py, line 13 *)
Definition class_18 : class := Cls "parts/pipe_with_valve" "PipeWith3wValve" ["Pipe"]
 [("__init__", (false, (Sig ["self"; "name"; "master_cls"] 0 false [] true))); ("init_part", (false,
 (Sig ["self"; "start_portA_opening"] 0 false [] true))); ("_get_flow_routine", (false, (Sig ["self";
 "port"; "parent_port"; "subnet"] 2 false [] true))); ("_process_cv", (false, (Sig ["self";
 "ctrl_inst"] 0 false [] false))); ("get_diff", (false, (Sig ["self"; "timestep"] 0 false []
 false)))].

(* multisim/parts/pump.py, line 15 *)
Definition class_19 : class := Cls "parts/pump" "Pump" ["SimEnv"]
 [("__init__", (false, (Sig ["self"; "name"; "master_cls"] 0 false [] true))); ("init_part", (false,
 (Sig ["self"] 0 false [("start_massflow", false)] true))); ("_reset_to_init_cond", (false, (Sig
 ["self"] 0 false [] false))); ("_get_flow_routine", (false, (Sig ["self"; "port"; "parent_port";
 "subnet"] 2 false [] true))); ("solve", (false, (Sig ["self"; "timestep"] 0 false [] false)));
 ("_process_cv", (false, (Sig ["self"; "ctrl_inst"] 0 false [] false))); ("draw_part", (false, (Sig
 ["self"; "axis"; "timestep"; "draw"; "animate"] 1 false [] false)))].

(* multisim/parts/tes.py, line 13 *)
Definition class_20 : class := Cls "parts/tes" "Tes" ["SimEnv"]
 [("__init__", (false, (Sig ["self"; "name"; "master_cls"] 0 false [] true))); ("init_part", (false,
 (Sig ["self"] 0 false [] true))); ("_reset_to_init_cond", (false, (Sig ["self"] 0 false [] false)));
 ("_Tes__add_ports", (false, (Sig ["self"] 0 false [] true))); ("_get_flow_routine", (false, (Sig
 ["self"; "port"; "parent_port"; "subnet"] 2 false [] true))); ("get_diff", (false, (Sig ["self";
 "timestep"] 0 false [] false))); ("_buoyancy", (false, (Sig ["self"; "timestep"] 0 false []
 false))); ("buo_Nu", (false, (Sig ["self"] 0 false [] false)))].

(* multisim/simenv.py, line 27 *)
Definition class_21 : class := Cls "simenv" "SimEnv" []
 [("__init__", (false, (Sig ["self"; "suppress_printing"] 1 false [] false))); ("set_timeframe",
 (false, (Sig ["self"] 0 false [("timeframe", false); ("adaptive_steps", false)] true)));
 ("set_disksaving", (false, (Sig ["self"; "save"; "save_every_n_steps"; "sim_name"; "path";
 "start_date"; "resample_final"; "resample_freq"; "create_new_folder"; "overwrite"; "complevel";
 "complib"] 11 false [] false))); ("set_solver", (false, (Sig ["self"; "solver"] 1 false [] true)));
 ("add_part", (false, (Sig ["self"; "part"; "name"; "store_results"] 1 false [] true)));
 ("_add_part", (false, (Sig ["self"; "part"; "name"] 0 false [] true))); ("_add_ports", (false, (Sig
 ["self"] 0 false [] true))); ("add_open_port", (false, (Sig ["self"; "name"; "constant";
 "temperature"] 0 false [] false))); ("_initialize_actuator", (false, (Sig ["self"; "variable_name"]
 1 false [] true))); ("_add_open_port", (false, (Sig ["self"] 0 false [("name", false); ("constant",
 false); ("temperature", false)] false))); ("assign_boundary_cond", (false, (Sig ["self";
 "time_series"; "open_port"; "part"; "control"; "variable_name"; "array_index"] 5 false [] false)));
 ("_initialize_dynamic_BC", (false, (Sig ["self"] 0 false [] false))); ("_SimEnv__global_init_part",
 (false, (Sig ["self"] 0 false [] false))); ("_chk_amb_temp", (false, (Sig ["self"] 0 false []
 true))); ("add_control", (false, (Sig ["self"; "Controls_module"; "name"] 0 false [] true)));
 ("_add_control", (false, (Sig ["self"; "Controls_module"; "name"] 0 false [] true)));
 ("_update_ports", (false, (Sig ["self"; "source"; "all_ports"; "nnum"] 3 false [] false)));
 ("_get_port_connections", (false, (Sig ["self"] 0 false [] false))); ("connect_ports", (false, (Sig
 ["self"; "first_part"; "first_port"; "scnd_part"; "scnd_port"] 0 false [] false)));
 ("_connect_ports", (false, (Sig ["self"] 0 false [("first_part", false); ("first_port", false);
 ("scnd_part", false); ("scnd_port", false)] false))); ("_check_unconnected_ports", (false, (Sig
 ["self"] 0 false [] false))); ("_print_arg_errs", (false, (Sig ["self"; "part"; "name";
 "arg_and_err"; "kwd_args"] 0 false [] false))); ("_get_topology", (false, (Sig ["self"] 0 false []
 false))); ("_recursive_topology", (false, (Sig ["self"; "parent_pump"; "sub_net"] 1 false []
 true))); ("_calc_UAwll_port", (false, (Sig ["self"] 0 false [] false))); ("_update_FlowNet", (false,
 (Sig ["self"] 0 false [] false))); ("_update_control", (false, (Sig ["self"; "timestep"] 0 false []
 false))); ("_update_dyn_BC", (false, (Sig ["self"; "time"; "timestep"] 0 false [] false)));
 ("_get_conn_port", (false, (Sig ["self"; "own_port"; "as_id"] 1 false [] false))); ("_get_arr_idx",
 (false, (Sig ["self"; "part"; "port"; "target"; "as_slice"; "flat_index"; "cls"] 4 false []
 false))); ("_massflow_idx_from_temp_idx", (false, (Sig ["self"; "part"; "index"] 0 false []
 false))); ("_get_specs_n_props", (false, (Sig ["self"; "material"; "pipe_specs"; "material_only";
 "pipe_specs_only"] 4 false [] true))); ("_get_topo_cond", (false, (Sig ["self"; "port";
 "parent_port"] 1 false [] false))); ("_angle_to_x_axis", (true, (Sig ["vector"] 0 false [] false)));
 ("_rotate_vector", (true, (Sig ["vector"; "angle"] 0 false [] false))); ("_heun", (false, (Sig
 ["self"; "solve_num_expl"; "solve_nonnum"; "timestep"] 0 false [] false))); ("_heun_adaptive",
 (false, (Sig ["self"; "solve_num_expl"; "solve_num_impl"; "solve_nonnum"; "old_step"] 0 false []
 false))); ("_SimEnv__adaptive_step_control", (true, (Sig ["_h"; "err"; "num_cells_tot_nmrc_expl";
 "_solver_state"; "stepnum"; "_max_factor"; "__min_factor"; "_steps_since_fail"; "_fctr_rec_stps";
 "_failed_steps"; "__safety"; "__order"; "__max_stepsize"; "__min_stepsize"; "ports_all";
 "__parr_bkp"] 0 false [] false))); ("_call_postponed", (false, (Sig ["self"] 0 false [] false)));
 ("_create_port_updater", (false, (Sig ["self"] 0 false [] false))); ("_collapse_port_arrays",
 (false, (Sig ["self"] 0 false [] false))); ("_create_dataclasses", (false, (Sig ["self"] 0 false []
 false))); ("_build_simenv", (false, (Sig ["self"] 0 false [] false))); ("_initialize_arrays",
 (false, (Sig ["self"] 0 false [("max_steps_b4_save_to_disk", true)] false)));
 ("_create_diff_inputs", (false, (Sig ["self"] 0 false [] false))); ("_prep_inputs_for_njits",
 (false, (Sig ["self"] 0 false [] false))); ("_reset_simenv", (false, (Sig ["self"] 0 false []
 false))); ("initialize_sim", (false, (Sig ["self"] 0 false [("build_simenv", true); ("reset_simenv",
 true)] false))); ("_check_memory_address", (false, (Sig ["self"] 0 false [] false)));
 ("_finalize_sim", (false, (Sig ["self"] 0 false [] false))); ("start_sim", (false, (Sig ["self"] 0
 false [] false))); ("_SimEnv__deprecated_free_memory", (false, (Sig ["self"; "array_length"] 1 false
 [] false))); ("_free_memory", (false, (Sig ["self"; "array_length"] 1 false [] false)));
 ("_compress_store", (false, (Sig ["self"] 0 false [] false))); ("_write_report", (false, (Sig
 ["self"] 0 false [] false))); ("return_stored_data", (false, (Sig ["self"] 0 false [] false)));
 ("_crop_results", (false, (Sig ["self"] 0 false [] false))); ("_check_isadded", (false, (Sig
 ["self"] 0 false [("part", false); ("kind", false)] false))); ("_check_ispart", (false, (Sig
 ["self"] 0 false [("part", false)] false))); ("_check_isport", (false, (Sig ["self"] 0 false
 [("part", false); ("port", false)] false))); ("_check_isinrange", (false, (Sig ["self"] 0 false
 [("part", false); ("index", false); ("target_array", true)] false)))].

(* multisim/utility_functions.py, line 1270 *)
Definition class_22 : class := Cls "utility_functions" "NetPlotter" ["SimEnv"]
 [("__init__", (false, (Sig ["self"] 0 false [] false))); ("set_plot_shape", (true, (Sig [] 0 false
 [("part", false); ("start_pos", false); ("vertex_coords", false); ("linewidth", true);
 ("orientation", true); ("invert", true)] false))); ("_get_drctn", (true, (Sig ["coords";
 "start_coords"; "part"] 0 false [] false))); ("add_sensor", (true, (Sig [] 0 false [("part", false);
 ("cell", false); ("phys_quant", true); ("identifier", true)] true))); ("_draw_sensor", (true, (Sig
 [] 0 false [("axis", false); ("step", false); ("animate", false)] false))); ("plot_net", (true, (Sig
 [] 0 false [("timestep", false); ("clim", true); ("extend_area", true)] true))); ("animate", (true,
 (Sig [] 0 false [("t_start", false); ("t_stop", false); ("steps", false); ("clim", false); ("file",
 true); ("fps", true); ("dpi", true); ("extend_area", true)] true))); ("plot_errors", (true, (Sig
 ["simenv"; "rms_error"; "stability_violations"] 2 false [] false)))].

(* multisim/utility_functions.py, line 2443 *)
Definition class_23 : class := Cls "utility_functions" "Meters" []
 [("__init__", (false, (Sig ["self"; "simenv"; "start_time"] 0 false [] false))); ("heat_meter",
 (false, (Sig ["self"] 0 false [("name", false); ("warm_part", false); ("warm_cell", false);
 ("cold_part", false); ("cold_cell", false); ("massflow_from_hot_part", true); ("full_output", true);
 ("evenly_spaced", true); ("freq", true); ("how", true)] false))); ("temperature", (false, (Sig
 ["self"] 0 false [("name", false); ("part", false); ("cell", false)] false))); ("massflow", (false,
 (Sig ["self"] 0 false [("name", false); ("part", false); ("cell", false)] false))); ("volumeflow",
 (false, (Sig ["self"] 0 false [("name", false); ("part", false); ("cell", false)] false)));
 ("get_sensors_df", (false, (Sig ["self"] 0 false [] false))); ("get_sensors_dict", (false, (Sig
 ["self"] 0 false [] false))); ("_resample_meter", (false, (Sig ["self"; "df"] 0 false [] false)));
 ("_save_to_disk", (false, (Sig ["self"; "name"; "meter"] 0 false [] false))); ("pred_real_plot",
 (false, (Sig ["self"; "show_rmse"; "show_cvrmse"; "hexbin"; "exclude_zeros"; "resample_uneven"] 5
 false [] false)))].

Definition classes : list class := [class_0; class_1; class_2; class_3; class_4; class_5; class_6; class_7; class_8; class_9; class_10;
 class_11; class_12; class_13; class_14; class_15; class_16; class_17; class_18; class_19; class_20;
 class_21; class_22; class_23].

Definition sites : list site := [
 (Site "_utility/meters" "Meters.heat_meter" 193 (Own "Meters" "_resample_meter") ["df"] false []
 false);
 (Site "_utility/meters" "Meters.heat_meter" 207 (Own "Meters" "_save_to_disk") ["name"; "df"] false
 [] false);
 (Site "_utility/meters" "Meters.temperature" 237 (Own "Meters" "_resample_meter") ["df"] false []
 false);
 (Site "_utility/meters" "Meters.temperature" 250 (Own "Meters" "_save_to_disk") ["name"; "df"] false
 [] false);
 (Site "_utility/meters" "Meters.massflow" 277 (Own "Meters" "_resample_meter") ["df"] false []
 false);
 (Site "_utility/meters" "Meters.massflow" 290 (Own "Meters" "_save_to_disk") ["name"; "df"] false []
 false);
 (Site "_utility/meters" "Meters.volumeflow" 319 (Own "Meters" "_resample_meter") ["df"] false []
 false);
 (Site "_utility/meters" "Meters.volumeflow" 332 (Own "Meters" "_save_to_disk") ["name"; "df"] false
 [] false);
 (Site "_utility/plotting" "heatmap_from_df" 159 (Plain "si_axlabel") [] false [("ax", "ax");
 ("label", ""); ("unit", ""); ("which", ""); ("style", "label_style")] false);
 (Site "_utility/plotting" "heatmap_from_df" 175 (Plain "si_axlabel") [] false [("ax", "cbar");
 ("label", ""); ("unit", ""); ("which", ""); ("style", "label_style")] false);
 (Site "_utility/plotting" "prediction_realization_scatter" 300 (Plain "annotate_errors") [] false
 [("ax", "ax"); ("y", "y"); ("y_hat", "y_hat"); ("errors", "errors"); ("err_loc", "err_loc");
 ("err_vals", "err_vals"); ("err_kwds", "err_kwds")] false);
 (Site "_utility/plotting" "prediction_realization_scatter" 320 (Plain "si_axlabel") ["ax"] false
 [("label", "ylabel")] false);
 (Site "_utility/plotting" "prediction_realization_scatter" 321 (Plain "si_axlabel") ["ax"] false
 [("label", "xlabel"); ("which", "")] false);
 (Site "_utility/plotting" "prediction_realization_2d_kde" 520 (Plain "annotate_errors") [] false
 [("ax", "ax"); ("y", "y_hat"); ("y_hat", "y"); ("errors", "errors"); ("err_kwds", "err_kwds")]
 false);
 (Site "_utility/plotting" "annotate_errors" 733 (Of "_sem" "r_squared") ["y"; "y_hat"] false []
 false);
 (Site "_utility/plotting" "annotate_errors" 739 (Of "_sem" "mean_squared_err") ["y"; "y_hat"] false
 [] false);
 (Site "_utility/plotting" "annotate_errors" 745 (Of "_sem" "cv_rmse") ["y"; "y_hat"] false [] false);
 (Site "_utility/plotting" "annotate_errors" 751 (Of "_sem" "normalized_err") ["y"; "y_hat"] false
 [("err_method", ""); ("norm", "")] false);
 (Site "_utility/plotting" "annotate_errors" 759 (Plain "annotate_axes") ["ax"] false
 [("annotations", ""); ("loc", "err_loc"); ("fontsize", "fontsize")] true);
 (Site "_utility/stat_error_measures" "r_squared_adj" 93 (Plain "r_squared") ["y"; "y_hat"] false []
 false);
 (Site "_utility/stat_error_measures" "rmse" 265 (Plain "mean_squared_err") ["y"; "y_hat"] false
 [("roll", "roll"); ("window", "window"); ("min_periods", "min_periods")] false);
 (Site "_utility/stat_error_measures" "cv_rmse" 294 (Plain "rmse") ["y"; "y_hat"] false [("roll",
 "roll"); ("window", "window"); ("min_periods", "min_periods")] false);
 (Site "controls" "Controls.__init__" 191 (Own "Controls" "_Controls__check_args") [""; ""; ""] false
 [("controlled_part", ""); ("controlled_port", "")] false);
 (Site "controls" "Controls.__init__" 241 (Own "Controls" "_Controls__check_args") [""; ""] false
 [("reference_part", ""); ("reference_port", "")] false);
 (Site "controls" "Controls.ctrl" 875 (Plain "_ctrl_deadtime") ["deadtime"; "timestep"; "dt_arr";
 "pv_arr"; "len_dt_arr"; "dt_idx"; "last_dt_idx"; "delayed_pv"; "sp"; "pv"] false [] false);
 (Site "controls" "Controls.ctrl" 893 (Own "Controls" "run_controller") ["timestep"] false [] false);
 (Site "parts/chp_plant" "CHPPlant.__init__" 62 (Super "CHPPlant" "__init__") ["name"; "master_cls"]
 false [("constr_type", "constr_type")] true);
 (Site "parts/chp_plant" "CHPPlant.__init__" 141 (Own "CHPPlant" "_print_arg_errs") ["constr_type";
 "name"; "_aae"; "kwds"] false [] false);
 (Site "parts/chp_plant" "CHPPlant.__init__" 161 (Of "_pf" "chp_thermal_power") [""] false [] false);
 (Site "parts/chp_plant" "CHPPlant.__init__" 177 (Of "_pf" "chp_gas_power") [""] false [] false);
 (Site "parts/chp_plant" "CHPPlant.__init__" 444 (Of "_pf" "chp_startup_th") ["_tsteps_startup"]
 false [] false);
 (Site "parts/chp_plant" "CHPPlant.init_part" 463 (Super "CHPPlant" "init_part") [] false [] true);
 (Site "parts/chp_plant" "CHPPlant.init_part" 493 (Own "CHPPlant" "_print_arg_errs") ["constr_type";
 "name"; "_aaei"; "kwds"] false [] false);
 (Site "parts/chp_plant" "CHPPlant.init_part" 501 (Own "CHPPlant" "_initialize_actuator") [] false
 [("variable_name", "")] true);
 (Site "parts/chp_plant" "CHPPlant.init_part" 558 (Of "_pf" "chp_gas_power") [""] false [] false);
 (Site "parts/chp_plant" "CHPPlant.get_diff" 803 (Of "_pf" "chp_startup_th") ["_startup_duration"]
 false [] false);
 (Site "parts/chp_plant" "CHPPlant.get_diff" 806 (Of "_pf" "chp_startup_el") ["_startup_duration"]
 false [] false);
 (Site "parts/chp_plant" "CHPPlant.get_diff" 809 (Of "_pf" "chp_startup_gas") ["_startup_duration"]
 false [] false);
 (Site "parts/chp_plant" "CHPPlant.get_diff" 849 (Of "_pf" "chp_shutdown_th") ["_shutdown_duration"]
 false [] false);
 (Site "parts/chp_plant" "CHPPlant.get_diff" 860 (Of "_pf" "chp_thermal_power") [""] false [] false);
 (Site "parts/chp_plant" "CHPPlant.get_diff" 877 (Of "_pf" "chp_gas_power") [""] false [] false);
 (Site "parts/chp_plant" "CHPPlant.get_diff" 900 (Of "_pf" "_process_flow_invar") [] false
 [("process_flows", "_process_flows"); ("dm_io", "_dm_io"); ("dm_top", "_dm_top"); ("dm_bot",
 "_dm_bot"); ("dm_port", "_dm_port"); ("stepnum", "stepnum"); ("res_dm", "res_dm")] false);
 (Site "parts/chp_plant" "CHPPlant.get_diff" 910 (Of "_pf" "water_mat_props_ext_view") [] false
 [("T_ext", "_T_ext"); ("cp_T", "_cp_T"); ("lam_T", "_lam_T"); ("rho_T", "_rho_T"); ("ny_T",
 "_ny_T")] false);
 (Site "parts/chp_plant" "CHPPlant.get_diff" 919 (Of "_pf" "_lambda_mean_view") [] false [("lam_T",
 "_lam_T"); ("out", "_lam_mean")] false);
 (Site "parts/chp_plant" "CHPPlant.get_diff" 921 (Of "_pf" "UA_plate_tb") [] false [("A_cell",
 "A_cell"); ("grid_spacing", "grid_spacing"); ("lam_mean", "_lam_mean"); ("UA_tb_wll", "_UA_tb_wll");
 ("out", "_UA_tb")] false);
 (Site "parts/chp_plant" "CHPPlant.get_diff" 933 (Of "_pf" "surface_temp_steady_state_inplace") []
 false [("T", ""); ("T_inf", ""); ("A_s", "_A_shell_ins"); ("alpha_inf", "_alpha_inf"); ("UA",
 "_UA_amb_shell"); ("T_s", "_T_s")] false);
 (Site "parts/chp_plant" "CHPPlant.get_diff" 942 (Of "_pf" "pipe_alpha_i") ["_dm_io"; ""; "_rho_T";
 "_ny_T"; "_lam_T"; "A_cell"; "_d_i"; "_cell_dist"; "_alpha_i"] false [] false);
 (Site "parts/chp_plant" "CHPPlant.get_diff" 954 (Of "_pf" "cylinder_alpha_inf") [] false [("T_s",
 "_T_s"); ("T_inf", ""); ("flow_length", "_flow_length"); ("vertical", "_vertical"); ("r_total",
 "_r_total"); ("alpha_inf", "_alpha_inf")] false);
 (Site "parts/chp_plant" "CHPPlant.get_diff" 963 (Of "_pf" "UA_fld_wll_ins_amb_cyl") [] false
 [("A_i", "_A_shell_i"); ("r_ln_wll", "_r_ln_wll"); ("r_ln_ins", "_r_ln_ins"); ("r_rins", "_r_rins");
 ("alpha_i", "_alpha_i"); ("alpha_inf", "_alpha_inf"); ("lam_wll", "_lam_wll"); ("lam_ins",
 "_lam_ins"); ("out", "_UA_amb_shell")] false);
 (Site "parts/chp_plant" "CHPPlant.get_diff" 976 (Of "_pf" "cell_temp_props_ext") [] false [("T_ext",
 "_T_ext"); ("V_cell", "V_cell"); ("cp_T", "_cp_T"); ("rho_T", "_rho_T"); ("mcp_wll", "_mcp_wll");
 ("rhocp", "_rhocp"); ("mcp", "_mcp"); ("ui", "_ui")] false);
 (Site "parts/chp_plant" "CHPPlant.get_diff" 987 (Of "_pf" "_process_ports_collapsed") [] false
 [("ports_all", "ports_all"); ("port_link_idx", "_port_link_idx"); ("port_own_idx", "_port_own_idx");
 ("T", ""); ("mcp", "_mcp"); ("UA_port", "_UA_port"); ("UA_port_wll", "_UA_port_wll");
 ("A_p_fld_mean", "_A_p_fld_mean"); ("port_gsp", "_port_gsp"); ("grid_spacing", "grid_spacing");
 ("lam_T", "_lam_T"); ("cp_port", "_cp_port"); ("lam_port_fld", "_lam_port_fld"); ("T_port",
 "_T_port")] false);
 (Site "parts/chp_plant" "CHPPlant.get_diff" 1008 (Of "_pf" "_vonNeumann_stability_invar") [] false
 [("part_id", "part_id"); ("stability_breaches", "_stability_breaches"); ("UA_tb", "_UA_tb");
 ("UA_port", "_UA_port"); ("UA_amb_shell", "_UA_amb_shell"); ("dm_io", "_dm_io"); ("rho_T",
 "_rho_T"); ("rhocp", "_rhocp"); ("grid_spacing", "grid_spacing"); ("port_subs_gsp",
 "_port_subs_gsp"); ("A_cell", "A_cell"); ("A_port", "_A_p_fld_mean"); ("A_shell", "_A_shell_ins");
 ("r_total", "_r_total"); ("V_cell", "V_cell"); ("step_stable", "_step_stable"); ("vN_max_step",
 "_vN_max_step"); ("max_factor", "_max_factor"); ("stepnum", "stepnum"); ("timestep", "timestep")]
 false);
 (Site "parts/connector_3w" "Connector3w.init_part" 228 (Own "Connector3w" "_get_specs_n_props") []
 false [("material", "material"); ("pipe_specs", "pipe_specs")] false);
 (Site "parts/connector_3w" "Connector3w._get_flow_routine" 287 (Own "Connector3w" "_get_topo_cond")
 ["port"] false [] false);
 (Site "parts/connector_3w" "Connector3w._get_flow_routine" 332 (Own "Connector3w" "_get_topo_cond")
 ["port"; "parent_port"] false [] false);
 (Site "parts/connector_3w" "Connector3w.solve" 429 (Plain "_solve_connector_3w") [] false [("T",
 "T"); ("ports_all", "ports_all"); ("cp_T", "_cp_T"); ("dm", "dm"); ("port_link_idx",
 "_port_link_idx"); ("res", "res"); ("stepnum", "stepnum")] false);
 (Site "parts/controllers" "PID.__init__" 18 (Super "PID" "__init__") ["name"; "master_cls"] false []
 true);
 (Site "parts/controllers" "PID.run_controller" 453 (Own "PID" "_clip_cv_to_saturation") [] false []
 false);
 (Site "parts/controllers" "PID.run_controller" 491 (Own "PID" "_clip_cv_to_saturation") [] false []
 false);
 (Site "parts/controllers" "PID.run_controller" 494 (Own "PID" "_subcontroller_check") [] false
 [("pid", "")] false);
 (Site "parts/controllers" "BangBang.__init__" 500 (Super "BangBang" "__init__") ["name";
 "master_cls"] false [] true);
 (Site "parts/controllers" "BangBang.run_controller" 549 (Own "BangBang" "_cv_invert") [] false []
 false);
 (Site "parts/controllers" "BangBang.run_controller" 552 (Own "BangBang" "_subcontroller_check") []
 false [] false);
 (Site "parts/controllers" "TwoSensors.__init__" 558 (Super "TwoSensors" "__init__") ["name";
 "master_cls"] false [] true);
 (Site "parts/controllers" "TwoSensors.__init__" 588 (Own "TwoSensors" "_Controls__check_args") ["";
 ""; ""] false [("on_sensor_part", ""); ("on_sensor_port", "")] false);
 (Site "parts/controllers" "TwoSensors.run_controller" 655 (Own "TwoSensors" "_cv_invert") [] false
 [] false);
 (Site "parts/controllers" "TwoSensors.run_controller" 658 (Own "TwoSensors" "_subcontroller_check")
 [] false [] false);
 (Site "parts/controllers" "ModelPredCHP.__init__" 676 (Super "ModelPredCHP" "__init__") ["name";
 "master_cls"] false [] true);
 (Site "parts/controllers" "ModelPredCHP.__init__" 689 (Own "ModelPredCHP" "_Controls__check_args")
 [""; ""; ""] false [("on_sensor_part", ""); ("on_sensor_port", "")] false);
 (Site "parts/controllers" "ModelPredCHP.__init__" 1007 (Own "ModelPredCHP" "_Controls__check_args")
 [""] false [("caller", ""); ("tes_part", "")] false);
 (Site "parts/controllers" "ModelPredCHP.__init__" 1046 (Own "ModelPredCHP" "_process_profiles") [""]
 false [("which", "")] true);
 (Site "parts/controllers" "ModelPredCHP.__init__" 1074 (Own "ModelPredCHP" "_process_profiles") [""]
 false [("which", "")] true);
 (Site "parts/controllers" "ModelPredCHP._tes_heat_content" 1662 (Of "_pf" "cp_water") ["_tes_temp"]
 false [] false);
 (Site "parts/controllers" "ModelPredCHP._tes_heat_content" 1662 (Of "_pf" "cp_water") [""] false []
 false);
 (Site "parts/controllers" "ModelPredCHP._tes_heat_content" 1664 (Of "_pf" "rho_water") ["_tes_temp"]
 false [] false);
 (Site "parts/controllers" "ModelPredCHP._tes_heat_content" 1664 (Of "_pf" "rho_water") [""] false []
 false);
 (Site "parts/controllers" "ModelPredCHP._emergency_control" 1696 (Own "ModelPredCHP" "_adapt_cap")
 [] false [("lower", ""); ("check", "")] false);
 (Site "parts/controllers" "ModelPredCHP._emergency_control" 1712 (Own "ModelPredCHP" "_adapt_cap")
 [] false [("lower", ""); ("check", "")] false);
 (Site "parts/controllers" "ModelPredCHP._emergency_control" 1724 (Own "ModelPredCHP" "_adapt_cap")
 [] false [("lower", ""); ("check", "")] false);
 (Site "parts/controllers" "ModelPredCHP._emergency_control" 1734 (Own "ModelPredCHP" "_adapt_cap")
 [] false [("lower", ""); ("check", "")] false);
 (Site "parts/controllers" "ModelPredCHP._adapt_cap" 1757 (Own "ModelPredCHP" "_tes_heat_content") []
 false [] false);
 (Site "parts/controllers" "ModelPredCHP._longterm_opt_pred" 1787 (Own "ModelPredCHP"
 "_tes_heat_content") [] false [] false);
 (Site "parts/controllers" "ModelPredCHP._longterm_opt_pred" 1823 (Own "ModelPredCHP" "_preopt_x0")
 ["x_init"] false [] false);
 (Site "parts/controllers" "ModelPredCHP._longterm_opt_pred" 1865 (Own "ModelPredCHP"
 "_longterm_adj_by_soc") ["x"] false [] false);
 (Site "parts/controllers" "ModelPredCHP._longterm_opt_pred" 1891 (Own "ModelPredCHP"
 "_longterm_clip_w_cont") [] false [] false);
 (Site "parts/controllers" "ModelPredCHP._longterm_opt_pred" 1899 (Own "ModelPredCHP"
 "_longterm_adj_by_soc") ["opt_chp_now"] false [] false);
 (Site "parts/controllers" "ModelPredCHP._longterm_opt_pred" 1902 (Own "ModelPredCHP"
 "_longterm_clip_w_cont") [] false [] false);
 (Site "parts/controllers" "ModelPredCHP._longterm_adj_by_soc" 1943 (Own "ModelPredCHP"
 "_longterm_clip_array") ["x"; "atol"] false [("copy", "")] false);
 (Site "parts/controllers" "ModelPredCHP._longterm_adj_by_soc" 1946 (Own "ModelPredCHP"
 "tes_cap_before_full") ["x_clppd"] false [] false);
 (Site "parts/controllers" "ModelPredCHP._longterm_adj_by_soc" 1954 (Own "ModelPredCHP"
 "tes_cap_before_empty") ["new_x"] false [] false);
 (Site "parts/controllers" "ModelPredCHP._longterm_adj_by_soc" 1961 (Own "ModelPredCHP"
 "_longterm_clip_array") ["new_x_unclp"; "atol"] false [("copy", "")] false);
 (Site "parts/controllers" "ModelPredCHP._longterm_adj_by_soc" 1964 (Own "ModelPredCHP"
 "tes_cap_before_empty") ["new_x"] false [] false);
 (Site "parts/controllers" "ModelPredCHP._longterm_adj_by_soc" 1966 (Own "ModelPredCHP"
 "_longterm_clip_array") ["new_x_unclp"; "atol"] false [("copy", "")] false);
 (Site "parts/controllers" "ModelPredCHP._longterm_adj_by_soc" 1968 (Own "ModelPredCHP"
 "tes_cap_before_full") ["new_x"] false [] false);
 (Site "parts/controllers" "ModelPredCHP._longterm_finalize_step" 2023 (Own "ModelPredCHP"
 "_restore_adptd_caps") [] false [] false);
 (Site "parts/controllers" "ModelPredCHP.run_controller" 2104 (Own "ModelPredCHP"
 "_emergency_control") [] false [("hysteresis", "_emerg_use_hyst")] false);
 (Site "parts/controllers" "ModelPredCHP.run_controller" 2113 (Own "ModelPredCHP"
 "_longterm_opt_pred") [] false [] false);
 (Site "parts/controllers" "ModelPredCHP.run_controller" 2115 (Own "ModelPredCHP"
 "_longterm_finalize_step") [] false [] false);
 (Site "parts/controllers" "ModelPredCHP.run_controller" 2124 (Own "ModelPredCHP"
 "_longterm_finalize_step") [] false [] false);
 (Site "parts/controllers" "ModelPredCHP.run_controller" 2131 (Own "ModelPredCHP" "_shortterm_opt")
 [] false [] false);
 (Site "parts/controllers" "ModelPredCHP.run_controller" 2153 (Own "ModelPredCHP"
 "_clip_cv_to_saturation") [] false [] false);
 (Site "parts/controllers" "ModelPredCHP.run_controller" 2156 (Own "ModelPredCHP" "_cv_invert") []
 false [] false);
 (Site "parts/controllers" "ModelPredCHP.run_controller" 2159 (Own "ModelPredCHP"
 "_subcontroller_check") [] false [] false);
 (Site "parts/controllers" "ModelPredCHP._preopt_x0" 2165 (Own "ModelPredCHP" "tes_cap_before_empty")
 ["x0_opt"] false [] false);
 (Site "parts/controllers" "ModelPredCHP._preopt_x0" 2166 (Own "ModelPredCHP" "tes_cap_before_full")
 ["x0_opt"] false [] false);
 (Site "parts/controllers" "ModelPredCHP._preopt_x0" 2171 (Own "ModelPredCHP" "tes_cap_before_full")
 ["x0_opt"] false [] false);
 (Site "parts/controllers" "ModelPredCHP._preopt_x0" 2172 (Own "ModelPredCHP" "tes_cap_before_empty")
 ["x0_opt"] false [] false);
 (Site "parts/controllers" "ModelPredCHP._preopt_x0" 2175 (Own "ModelPredCHP" "tes_cap_before_empty")
 ["x0_opt"] false [] false);
 (Site "parts/controllers" "ModelPredCHP._preopt_x0" 2179 (Own "ModelPredCHP" "tes_cap_before_empty")
 ["x0_opt"] false [] false);
 (Site "parts/controllers" "ModelPredCHP._preopt_x0" 2186 (Own "ModelPredCHP" "tes_cap_before_full")
 ["x0_opt"] false [] false);
 (Site "parts/heated_pipe" "HeatedPipe.__init__" 49 (Super "HeatedPipe" "__init__") ["name";
 "master_cls"] false [("constr_type", "constr_type")] true);
 (Site "parts/heated_pipe" "HeatedPipe.init_part" 192 (Super "HeatedPipe" "init_part") [] false []
 true);
 (Site "parts/heated_pipe" "HeatedPipe.get_diff" 249 (Plain "heatedpipe1D_diff") [] false [("T_ext",
 "_T_ext"); ("T_port", "_T_port"); ("T_s", "_T_s"); ("T_amb", "_T_amb"); ("ports_all", "ports_all");
 ("dm_io", "_dm_io"); ("dm_top", "_dm_top"); ("dm_bot", "_dm_bot"); ("dm_port", "_dm_port");
 ("dQ_heating", "_dQ_heating"); ("res_dm", "res_dm"); ("res_dQ", "res_dQ"); ("cp_T", "_cp_T");
 ("lam_T", "_lam_T"); ("rho_T", "_rho_T"); ("ny_T", "_ny_T"); ("lam_mean", "_lam_mean"); ("cp_port",
 "_cp_port"); ("lam_port_fld", "_lam_port_fld"); ("mcp", "_mcp"); ("mcp_heated", "_mcp_heated");
 ("rhocp", "_rhocp"); ("lam_wll", "_lam_wll"); ("lam_ins", "_lam_ins"); ("mcp_wll", "_mcp_wll");
 ("ui", "_ui"); ("alpha_i", "_alpha_i"); ("alpha_inf", "_alpha_inf"); ("UA_tb", "_UA_tb");
 ("UA_tb_wll", "_UA_tb_wll"); ("UA_amb_shell", "_UA_amb_shell"); ("UA_port", "_UA_port");
 ("UA_port_wll", "_UA_port_wll"); ("port_own_idx", "_port_own_idx"); ("port_link_idx",
 "_port_link_idx"); ("heat_mult", "_heat_mult"); ("grid_spacing", "grid_spacing"); ("port_gsp",
 "_port_gsp"); ("port_subs_gsp", "_port_subs_gsp"); ("d_i", "_d_i"); ("cell_dist", "_cell_dist");
 ("flow_length", "_flow_length"); ("r_total", "_r_total"); ("r_ln_wll", "_r_ln_wll"); ("r_ln_ins",
 "_r_ln_ins"); ("r_rins", "_r_rins"); ("A_cell", "A_cell"); ("V_cell", "V_cell"); ("A_shell_i",
 "_A_shell_i"); ("A_shell_ins", "_A_shell_ins"); ("A_p_fld_mean", "_A_p_fld_mean"); ("process_flows",
 "_process_flows"); ("vertical", "_vertical"); ("step_stable", "_step_stable"); ("part_id",
 "part_id"); ("stability_breaches", "_stability_breaches"); ("vN_max_step", "_vN_max_step");
 ("max_factor", "_max_factor"); ("stepnum", "stepnum"); ("timestep", "timestep"); ("dT_cond",
 "dT_cond"); ("dT_adv", "dT_adv"); ("dT_heat", "dT_heat"); ("dT_heated", "_dT_heated")] false);
 (Site "parts/heatexchanger" "HeatExchanger.init_part" 390 (Own "HeatExchanger" "_get_specs_n_props")
 [] false [] true);
 (Site "parts/heatexchanger" "HeatExchanger.init_part" 402 (Own "HeatExchanger"
 "get_plate_hex_geometry") [] false [] true);
 (Site "parts/heatexchanger" "HeatExchanger.init_part" 458 (Own "HeatExchanger" "_chk_amb_temp") []
 false [] true);
 (Site "parts/heatexchanger" "HeatExchanger.find_Reynolds_correction" 979 (Of "_pf"
 "get_lambda_water") ["T_mean"; "lam_mean"] false [] false);
 (Site "parts/heatexchanger" "HeatExchanger.find_Reynolds_correction" 980 (Of "_pf" "get_cp_water")
 ["T_mean"; "cp_mean"] false [] false);
 (Site "parts/heatexchanger" "HeatExchanger.find_Reynolds_correction" 981 (Of "_pf" "get_rho_water")
 ["T_mean"; "rho_mean"] false [] false);
 (Site "parts/heatexchanger" "HeatExchanger.find_Reynolds_correction" 982 (Of "_pf" "get_ny_water")
 ["T_mean"; "ny_mean"] false [] false);
 (Site "parts/heatexchanger" "HeatExchanger.find_Reynolds_correction.alpha_wrapper" 998 (Of "_pf"
 "phex_alpha_i_wll_sep") [""; "T_mean"; "T_mean"; "rho_mean"; "ny_mean"; "lam_mean"; "A_channel";
 "_d_h"; "_cell_dist"; "corr_Re"; "alpha"] false [] false);
 (Site "parts/heatexchanger" "HeatExchanger._get_flow_routine" 1048 (Own "HeatExchanger"
 "_get_topo_cond") ["port"; "parent_port"] false [] false);
 (Site "parts/heatexchanger" "HeatExchanger._get_flow_routine" 1056 (Own "HeatExchanger"
 "_get_arr_idx") ["name"; "sp"] false [("target", ""); ("as_slice", ""); ("flat_index", "")] false);
 (Site "parts/heatexchanger" "HeatExchanger.solve" 1144 (Of "_pf" "solve_platehex") [] false [("T",
 "T"); ("T_port", "_T_port"); ("T_mean", "_T_mean"); ("ports_all", "ports_all"); ("res", "res");
 ("dm_io", "_dm_io"); ("dm_port", "_dm_port"); ("cp_mean", "_cp_mean"); ("lam_mean", "_lam_mean");
 ("rho_mean", "_rho_mean"); ("ny_mean", "_ny_mean"); ("lam_wll", "_lam_plate"); ("alpha_i",
 "_alpha_i"); ("UA_fld_wll", "_UA_fld_wll"); ("UA_fld_wll_fld", "_UA_fld_wll_fld"); ("port_own_idx",
 "_port_own_idx"); ("port_link_idx", "_port_link_idx"); ("A_plate_eff", "A_plate_eff"); ("A_channel",
 "A_channel"); ("d_h", "_d_h"); ("s_plate", "_s_plate"); ("cell_dist", "_cell_dist"); ("num_A",
 "_num_A"); ("num_channels_sup", "_num_channels_sup"); ("num_channels_dmd", "_num_channels_dmd");
 ("corr_Re", "_corr_Re"); ("stepnum", "stepnum")] false);
 (Site "parts/hex_condensing_polynome" "HEXCondPoly.init_part" 368 (Own "HEXCondPoly"
 "_get_specs_n_props") [] false [] true);
 (Site "parts/hex_condensing_polynome" "HEXCondPoly.init_part" 397 (Own "HEXCondPoly"
 "_chk_amb_temp") [] false [] true);
 (Site "parts/hex_condensing_polynome" "HEXCondPoly.init_part" 403 (Plain
 "make_poly_transf_combs_for_nb") ["_linreg_mdl"] false [("pipeline", ""); ("poly_step", "")] false);
 (Site "parts/hex_condensing_polynome" "HEXCondPoly.init_part" 406 (Plain "extract_pca_results")
 ["_linreg_mdl"] false [("pipeline", ""); ("pca_step", "")] false);
 (Site "parts/hex_condensing_polynome" "HEXCondPoly._get_flow_routine" 471 (Own "HEXCondPoly"
 "_get_topo_cond") ["port"; "parent_port"] false [] false);
 (Site "parts/hex_condensing_polynome" "HEXCondPoly._get_flow_routine" 479 (Own "HEXCondPoly"
 "_get_arr_idx") ["name"; "sp"] false [("target", ""); ("as_slice", ""); ("flat_index", "")] false);
 (Site "parts/hex_condensing_polynome" "HEXCondPoly.solve" 582 (Plain "condensing_hex_solve") []
 false [("T", "T"); ("T_port", "_T_port"); ("ports_all", "ports_all"); ("res", "res"); ("res_dm",
 "res_dm"); ("dm_io", "_dm_io"); ("dm_port", "_dm_port"); ("port_own_idx", "_port_own_idx");
 ("port_link_idx", "_port_link_idx"); ("X_pred", "_X_pred"); ("flow_scaling", "_flow_scaling");
 ("water_dm_range", "_water_dm_range"); ("gas_dv_range", "_gas_dv_range"); ("int_comb_idx",
 "_poly_int_comb_idx"); ("nvars_per_ftr", "_poly_nvars_per_ftr"); ("pca_mean", "_pca_mean");
 ("pca_components", "_pca_components"); ("lm_intercept", "_lm_intercept"); ("lm_coef", "_lm_coef");
 ("stepnum", "stepnum")] false);
 (Site "parts/hex_num" "HexNum.init_part" 487 (Own "HexNum" "_get_specs_n_props") [] false [] true);
 (Site "parts/hex_num" "HexNum.init_part" 497 (Own "HexNum" "get_plate_hex_geometry") [] false []
 true);
 (Site "parts/hex_num" "HexNum.init_part" 562 (Own "HexNum" "_chk_amb_temp") [] false [] true);
 (Site "parts/hex_num" "HexNum.find_reynolds_correction" 1144 (Of "_pf" "get_lambda_water")
 ["T_mean"; "lam_mean"] false [] false);
 (Site "parts/hex_num" "HexNum.find_reynolds_correction" 1145 (Of "_pf" "get_cp_water") ["T_mean";
 "cp_mean"] false [] false);
 (Site "parts/hex_num" "HexNum.find_reynolds_correction" 1146 (Of "_pf" "get_rho_water") ["T_mean";
 "rho_mean"] false [] false);
 (Site "parts/hex_num" "HexNum.find_reynolds_correction" 1147 (Of "_pf" "get_ny_water") ["T_mean";
 "ny_mean"] false [] false);
 (Site "parts/hex_num" "HexNum.find_reynolds_correction.alpha_wrapper" 1166 (Of "_pf"
 "phex_alpha_i_wll_sep") [""; "T_mean"; "T_mean"; "rho_mean"; "ny_mean"; "lam_mean"; "A_channel";
 "_d_h"; "_cell_dist"; "corr_Re"; "alpha"] false [] false);
 (Site "parts/hex_num" "HexNum._get_flow_routine" 1217 (Own "HexNum" "_get_topo_cond") ["port";
 "parent_port"] false [] false);
 (Site "parts/hex_num" "HexNum.get_diff" 1316 (Of "_pf" "hexnum_diff") ["timestep"] true [] false);
 (Site "parts/hex_num" "HexNum.get_diff_impl_ext" 1325 (Of "_pf" "_process_flow_multi_flow") [] false
 [("process_flows", "_process_flows"); ("dm_io", "_dm_io"); ("dm_top", "_dm_top"); ("dm_bot",
 "_dm_bot"); ("dm_port", "_dm_port"); ("stepnum", "stepnum"); ("res_dm", "res_dm")] false);
 (Site "parts/hex_num" "HexNum.get_diff_impl_ext" 1337 (Of "_pf" "water_mat_props_ext_view") [] false
 [("T_ext", ""); ("cp_T", "_cp_T"); ("lam_T", "_lam_fld"); ("rho_T", "_rho_T"); ("ny_T", "_ny_T")]
 false);
 (Site "parts/hex_num" "HexNum.get_diff_impl_ext" 1345 (Of "_pf" "_lambda_mean_view") [] false
 [("lam_T", "_lam_fld"); ("out", "_lam_mean")] false);
 (Site "parts/hex_num" "HexNum.get_diff_impl_ext" 1347 (Of "_pf" "UA_plate_tb_fld") [] false
 [("A_cell", "A_channel"); ("grid_spacing", "grid_spacing"); ("lam_mean", "_lam_mean"); ("out", "")]
 false);
 (Site "parts/hex_num" "HexNum.get_diff_impl_ext" 1354 (Of "_pf" "UA_plate_tb_wll") [] false
 [("UA_tb_wll", "_UA_dim1_wll"); ("out", "")] false);
 (Site "parts/hex_num" "HexNum.get_diff_impl_ext" 1361 (Of "_pf" "phex_alpha_i_wll_sep_discretized")
 [] false [("dm", ""); ("T_fld", "_T_sup"); ("T_wll", "_T_sup"); ("rho", ""); ("ny", ""); ("lam_fld",
 ""); ("A", "A_channel"); ("d_h", "_d_h"); ("x", "_cell_dist"); ("corr_Re", "_corr_Re"); ("alpha",
 "")] false);
 (Site "parts/hex_num" "HexNum.get_diff_impl_ext" 1374 (Of "_pf" "phex_alpha_i_wll_sep_discretized")
 [] false [("dm", ""); ("T_fld", "_T_dmd"); ("T_wll", "_T_dmd"); ("rho", ""); ("ny", ""); ("lam_fld",
 ""); ("A", "A_channel"); ("d_h", "_d_h"); ("x", "_cell_dist"); ("corr_Re", "_corr_Re"); ("alpha",
 "")] false);
 (Site "parts/hex_num" "HexNum.get_diff_impl_ext" 1388 (Of "_pf" "UA_fld_wll_plate") [] false [("A",
 "A_plate_eff"); ("s_wll", ""); ("alpha_fld", "_alpha_i"); ("lam_wll", "_lam_wll")] false);
 (Site "parts/hex_num" "HexNum.get_diff_impl_ext" 1395 (Of "_pf" "cell_temp_props_fld") [] false
 [("T_ext_fld", ""); ("V_cell", "V_cell_fld"); ("cp_T", "_cp_T"); ("rho_T", "_rho_T"); ("rhocp_fld",
 ""); ("mcp_fld", ""); ("ui_fld", "")] false);
 (Site "parts/hex_num" "HexNum.get_diff_impl_ext" 1405 (Of "_pf" "specific_inner_energy_wll") []
 false [("T_wll", ""); ("cp_wll", "_cp_wll"); ("ui", "")] false);
 (Site "parts/hex_num" "HexNum.get_diff_impl_ext" 1409 (Of "_pf" "_process_ports_collapsed") [] false
 [("ports_all", "ports_all"); ("port_link_idx", "_port_link_idx"); ("port_own_idx", "_port_own_idx");
 ("T", ""); ("mcp", "_mcp"); ("UA_port", "_UA_port"); ("UA_port_wll", "_UA_port_wll");
 ("A_p_fld_mean", "_A_p_fld_mean"); ("port_gsp", "_port_gsp"); ("grid_spacing", "grid_spacing");
 ("lam_T", "_lam_T"); ("cp_port", "_cp_port"); ("lam_port_fld", "_lam_port_fld"); ("T_port",
 "_T_port")] false);
 (Site "parts/hex_num" "HexNum.get_diff_impl" 1481 (Of "_pf" "_process_flow_multi_flow") [] false
 [("process_flows", "_process_flows"); ("dm_io", "_dm_io"); ("dm_top", "_dm_top"); ("dm_bot",
 "_dm_bot"); ("dm_port", "_dm_port"); ("stepnum", "stepnum"); ("res_dm", "res_dm")] false);
 (Site "parts/hex_num" "HexNum.get_diff_impl" 1493 (Of "_pf" "water_mat_props_ext_view") [] false
 [("T_ext", ""); ("cp_T", "_cp_T"); ("lam_T", "_lam_fld"); ("rho_T", "_rho_T"); ("ny_T", "_ny_T")]
 false);
 (Site "parts/hex_num" "HexNum.get_diff_impl" 1501 (Of "_pf" "_lambda_mean_view") [] false [("lam_T",
 "_lam_fld"); ("out", "_lam_mean")] false);
 (Site "parts/hex_num" "HexNum.get_diff_impl" 1503 (Of "_pf" "UA_plate_tb_fld") [] false [("A_cell",
 "A_channel"); ("grid_spacing", "grid_spacing"); ("lam_mean", "_lam_mean"); ("out", "")] false);
 (Site "parts/hex_num" "HexNum.get_diff_impl" 1510 (Of "_pf" "UA_plate_tb_wll") [] false
 [("UA_tb_wll", "_UA_dim1_wll"); ("out", "")] false);
 (Site "parts/hex_num" "HexNum.get_diff_impl" 1517 (Of "_pf" "phex_alpha_i_wll_sep_discretized") []
 false [("dm", ""); ("T_fld", "_T_sup"); ("T_wll", "_T_sup"); ("rho", ""); ("ny", ""); ("lam_fld",
 ""); ("A", "A_channel"); ("d_h", "_d_h"); ("x", "_cell_dist"); ("corr_Re", "_corr_Re"); ("alpha",
 "")] false);
 (Site "parts/hex_num" "HexNum.get_diff_impl" 1530 (Of "_pf" "phex_alpha_i_wll_sep_discretized") []
 false [("dm", ""); ("T_fld", "_T_dmd"); ("T_wll", "_T_dmd"); ("rho", ""); ("ny", ""); ("lam_fld",
 ""); ("A", "A_channel"); ("d_h", "_d_h"); ("x", "_cell_dist"); ("corr_Re", "_corr_Re"); ("alpha",
 "")] false);
 (Site "parts/hex_num" "HexNum.get_diff_impl" 1544 (Of "_pf" "UA_fld_wll_plate") [] false [("A",
 "A_plate_eff"); ("s_wll", ""); ("alpha_fld", "_alpha_i"); ("lam_wll", "_lam_wll")] false);
 (Site "parts/hex_num" "HexNum.get_diff_impl" 1551 (Of "_pf" "cell_temp_props_fld") [] false
 [("T_ext_fld", ""); ("V_cell", "V_cell_fld"); ("cp_T", "_cp_T"); ("rho_T", "_rho_T"); ("rhocp_fld",
 ""); ("mcp_fld", ""); ("ui_fld", "")] false);
 (Site "parts/hex_num" "HexNum.get_diff_impl" 1561 (Of "_pf" "specific_inner_energy_wll") [] false
 [("T_wll", ""); ("cp_wll", "_cp_wll"); ("ui", "")] false);
 (Site "parts/hex_num" "HexNum.get_diff_impl" 1565 (Of "_pf" "_process_ports_collapsed") [] false
 [("ports_all", "ports_all"); ("port_link_idx", "_port_link_idx"); ("port_own_idx", "_port_own_idx");
 ("T", ""); ("mcp", "_mcp"); ("UA_port", "_UA_port"); ("UA_port_wll", "_UA_port_wll");
 ("A_p_fld_mean", "_A_p_fld_mean"); ("port_gsp", "_port_gsp"); ("grid_spacing", "grid_spacing");
 ("lam_T", "_lam_T"); ("cp_port", "_cp_port"); ("lam_port_fld", "_lam_port_fld"); ("T_port",
 "_T_port")] false);
 (Site "parts/mixingvalve" "MixingValve.init_part" 252 (Own "MixingValve" "_get_specs_n_props") []
 false [] true);
 (Site "parts/mixingvalve" "MixingValve._get_flow_routine" 442 (Own "MixingValve" "_get_topo_cond")
 ["port"; "parent_port"] false [] false);
 (Site "parts/mixingvalve" "MixingValve.solve" 661 (Of "_pf" "solve_mix") ["ports_all";
 "_port_link_idx"; "_dm_io"; "T"] false [] false);
 (Site "parts/mixingvalve" "MixingValve.solve" 669 (Of "_pf" "solve_split") ["ports_all";
 "_port_link_idx"; "T"] false [] false);
 (Site "parts/part_modules/chp_with_fluegas_hex" "add_chp_with_fghex" 100 (Of "_ut" "adjust_pipes")
 ["pspecs"] false [] false);
 (Site "parts/part_modules/consumers" "lowex_phwrc" 118 (Of "_ut" "adjust_pipes") ["pspecs"] false []
 false);
 (Site "parts/part_modules/consumers" "lowex_phwrc" 123 (Of "_ut" "database_import") [] false []
 false);
 (Site "parts/part_modules/consumers" "speicherladesys" 729 (Of "_ut" "adjust_pipes") ["pspecs"]
 false [] false);
 (Site "parts/part_modules/consumers" "speicherladesys" 734 (Of "_ut" "database_import") [] false []
 false);
 (Site "parts/part_modules/consumers" "space_heating" 1281 (Of "_ut" "adjust_pipes") ["pspecs"] false
 [] false);
 (Site "parts/part_modules/suppliers" "chp_with_fghex" 128 (Of "ut" "adjust_pipes") ["pspecs"] false
 [] false);
 (Site "parts/part_modules/suppliers" "gasboiler" 990 (Of "ut" "adjust_pipes") ["pspecs"] false []
 false);
 (Site "parts/pipe" "Pipe.__init__" 59 (Own "Pipe" "_print_arg_errs") ["constr_type"; "name"; "_aae";
 "kwargs"] false [] false);
 (Site "parts/pipe" "Pipe.init_part" 332 (Own "Pipe" "_print_arg_errs") ["constr_type"; "name";
 "_aaei"; "kwds"] false [] false);
 (Site "parts/pipe" "Pipe.init_part" 351 (Own "Pipe" "_get_specs_n_props") [] false [] true);
 (Site "parts/pipe" "Pipe.init_part" 421 (Own "Pipe" "_chk_amb_temp") [] false [] true);
 (Site "parts/pipe" "Pipe.init_part" 426 (Of "_pf" "calc_flow_length") [] false [("part_shape", "");
 ("vertical", "_vertical"); ("diameter", "")] false);
 (Site "parts/pipe" "Pipe._get_flow_routine" 529 (Own "Pipe" "_get_topo_cond") ["port";
 "parent_port"] false [] false);
 (Site "parts/pipe" "Pipe.get_diff" 647 (Of "_pf" "pipe1D_diff") ["timestep"] true [] false);
 (Site "parts/pipe2D" "Pipe2D.init_part" 344 (Own "Pipe2D" "_get_specs_n_props") [] false [] true);
 (Site "parts/pipe2D" "Pipe2D.init_part" 416 (Own "Pipe2D" "_chk_amb_temp") [] false [] true);
 (Site "parts/pipe2D" "Pipe2D.init_part" 421 (Of "_pf" "calc_flow_length") [] false [("part_shape",
 ""); ("vertical", "_vertical"); ("diameter", "")] false);
 (Site "parts/pipe2D" "Pipe2D._get_flow_routine" 501 (Own "Pipe2D" "_get_topo_cond") ["port";
 "parent_port"] false [] false);
 (Site "parts/pipe2D" "Pipe2D.get_diff" 627 (Of "_pf" "_process_flow_invar") [] false
 [("process_flows", "_process_flows"); ("dm_io", "_dm_io"); ("dm_top", "_dm_top"); ("dm_bot",
 "_dm_bot"); ("dm_port", "_dm_port"); ("stepnum", "stepnum"); ("res_dm", "res_dm")] false);
 (Site "parts/pipe2D" "Pipe2D.get_diff" 637 (Of "_pf" "water_mat_props_ext") [] false [("T_ext", "");
 ("cp_T", "_cp_T"); ("lam_T", "_lam_T"); ("rho_T", "_rho_T"); ("ny_T", "_ny_T")] false);
 (Site "parts/pipe2D" "Pipe2D.get_diff" 647 (Of "_pf" "get_cp_water") ["_T_port"; "_cp_port"] false
 [] false);
 (Site "parts/pipe2D" "Pipe2D.get_diff" 648 (Of "_pf" "get_lambda_water") ["_T_port";
 "_lam_port_fld"] false [] false);
 (Site "parts/pipe2D" "Pipe2D.get_diff" 690 (Of "_pf" "pipe_alpha_i_wll_sep") ["dm"; "T"; "_rho_T";
 "_ny_T"; "_lam_T"; "A_cell"; "_d_i"; "_cell_dist"; "_alpha_i"] false [] false);
 (Site "parts/pipe2D" "Pipe2D.get_diff" 702 (Of "_pf" "UA_fld_wll") ["_A_shell_i"; "_r_i"; "_r_o";
 "_alpha_i"; "_lam_wll"; "_UA_fld_wll"] false [] false);
 (Site "parts/pipe2D" "Pipe2D.get_diff" 711 (Of "_pf" "UA_wll_ins_amb") ["_A_shell_i"; "_r_i";
 "_r_o"; "_r_ln_ins"; "_r_rins"; "_alpha_inf"; "_lam_wll"; "_lam_ins"; "_UA_wll_amb"] false [] false);
 (Site "parts/pipe_branched" "PipeBranched.__init__" 48 (Super "PipeBranched" "__init__") ["name";
 "master_cls"] false [("constr_type", "constr_type")] true);
 (Site "parts/pipe_branched" "PipeBranched.__init__" 64 (Own "PipeBranched" "_add_ports") [] false []
 true);
 (Site "parts/pipe_branched" "PipeBranched.init_part" 115 (Super "PipeBranched" "init_part") [] false
 [] true);
 (Site "parts/pipe_branched" "PipeBranched._get_flow_routine" 156 (Own "PipeBranched"
 "_get_topo_cond") ["port"; "parent_port"] false [] false);
 (Site "parts/pipe_branched" "PipeBranched._get_flow_routine" 194 (Own "PipeBranched"
 "_get_topo_cond") ["port"; "parent_port"] false [] false);
 (Site "parts/pipe_branched" "PipeBranched._get_flow_routine" 214 (Own "PipeBranched"
 "_get_topo_cond") ["port"] false [] false);
 (Site "parts/pipe_branched" "PipeBranched._get_flow_routine" 229 (Own "PipeBranched"
 "_get_topo_cond") ["slvd_prt"] false [] false);
 (Site "parts/pipe_branched" "PipeBranched.get_diff" 295 (Plain "pipe1D_branched_diff") ["timestep"]
 true [] false);
 (Site "parts/pipe_with_pump" "PipeWithPump.__init__" 45 (Super "PipeWithPump" "__init__") ["name";
 "master_cls"] false [("constr_type", "constr_type")] true);
 (Site "parts/pipe_with_pump" "PipeWithPump.init_part" 95 (Super "PipeWithPump" "init_part") [] false
 [] true);
 (Site "parts/pipe_with_pump" "PipeWithPump.init_part" 110 (Own "PipeWithPump"
 "_initialize_actuator") [] false [] true);
 (Site "parts/pipe_with_pump" "PipeWithPump._get_flow_routine" 153 (Own "PipeWithPump"
 "_get_topo_cond") ["port"] false [] false);
 (Site "parts/pipe_with_valve" "PipeWith3wValve.__init__" 48 (Super "PipeWith3wValve" "__init__")
 ["name"; "master_cls"] false [("constr_type", "constr_type")] true);
 (Site "parts/pipe_with_valve" "PipeWith3wValve.__init__" 81 (Own "PipeWith3wValve" "_add_ports") []
 false [] true);
 (Site "parts/pipe_with_valve" "PipeWith3wValve.init_part" 168 (Super "PipeWith3wValve" "init_part")
 [] false [] true);
 (Site "parts/pipe_with_valve" "PipeWith3wValve.init_part" 186 (Own "PipeWith3wValve"
 "_initialize_actuator") [] false [] true);
 (Site "parts/pipe_with_valve" "PipeWith3wValve._get_flow_routine" 220 (Own "PipeWith3wValve"
 "_get_topo_cond") ["port"; "parent_port"] false [] false);
 (Site "parts/pipe_with_valve" "PipeWith3wValve.get_diff" 403 (Plain "pipe1D_branched_diff")
 ["timestep"] true [] false);
 (Site "parts/pump" "Pump.init_part" 210 (Own "Pump" "_get_specs_n_props") [] false [] true);
 (Site "parts/pump" "Pump._get_flow_routine" 372 (Own "Pump" "_get_topo_cond") ["port"] false []
 false);
 (Site "parts/pump" "Pump.solve" 462 (Of "_pf" "solve_pump") [] false [("ports_all", "ports_all");
 ("port_link_idx", "_port_link_idx"); ("T", "T"); ("res", "res"); ("res_dm", "res_dm"); ("dm", "dm");
 ("stepnum", "stepnum")] false);
 (Site "parts/tes" "Tes.__init__" 86 (Own "Tes" "_print_arg_errs") ["constr_type"; "name"; "_aae";
 "kwargs"] false [] false);
 (Site "parts/tes" "Tes.__init__" 269 (Own "Tes" "_Tes__add_ports") [] false [] true);
 (Site "parts/tes" "Tes.init_part" 406 (Own "Tes" "_print_arg_errs") ["constr_type"; "name"; "_aaei";
 "kwds"] false [] false);
 (Site "parts/tes" "Tes.init_part" 451 (Own "Tes" "_get_specs_n_props") [] false [] true);
 (Site "parts/tes" "Tes.init_part" 475 (Own "Tes" "_chk_amb_temp") [] false [] true);
 (Site "parts/tes" "Tes.init_part" 498 (Of "_pf" "calc_flow_length") [] false [("part_shape", "");
 ("vertical", "_vertical"); ("height", "grid_spacing"); ("diameter", "")] false);
 (Site "parts/tes" "Tes.init_part" 505 (Of "_pf" "calc_flow_length") [] false [("part_shape", "");
 ("vertical", "_vertical_lid"); ("height", ""); ("width", ""); ("depth", "")] false);
 (Site "parts/tes" "Tes._get_flow_routine" 850 (Own "Tes" "_get_topo_cond") ["port"; "parent_port"]
 false [] false);
 (Site "parts/tes" "Tes._get_flow_routine" 893 (Own "Tes" "_get_topo_cond") ["port"; "parent_port"]
 false [] false);
 (Site "parts/tes" "Tes._get_flow_routine" 918 (Own "Tes" "_get_topo_cond") ["port"] false [] false);
 (Site "parts/tes" "Tes._get_flow_routine" 935 (Own "Tes" "_get_topo_cond") ["slvd_prt"] false []
 false);
 (Site "parts/tes" "Tes.get_diff" 996 (Of "_pf" "tes_diff") ["timestep"] true [] false);
 (Site "parts/tes" "Tes._buoyancy" 1077 (Of "_pf" "moving_avg_fill_edges") [""; ""] false [] false);
 (Site "parts/tes" "Tes.buo_Nu" 1218 (Of "_pf" "Pr_water_return") [""] false [] false);
 (Site "parts/tes" "Tes.buo_Nu" 1219 (Of "_pf" "beta_water_return") [""] false [] false);
 (Site "precomp_funs" "_process_ports_collapsed" 279 (Plain "cp_water") ["p_val"] false [] false);
 (Site "precomp_funs" "_process_ports_collapsed" 280 (Plain "lambda_water") ["p_val"] false [] false);
 (Site "precomp_funs" "_process_ports" 328 (Plain "cp_water") ["p_val"] false [] false);
 (Site "precomp_funs" "_process_ports" 330 (Plain "lambda_water") ["p_val"] false [] false);
 (Site "precomp_funs" "water_mat_props_ext_view" 360 (Plain "get_cp_water") ["T_ext"; "cp_T"] false
 [] false);
 (Site "precomp_funs" "water_mat_props_ext_view" 361 (Plain "get_lambda_water") [""; "lam_T"] false
 [] false);
 (Site "precomp_funs" "water_mat_props_ext_view" 362 (Plain "get_rho_water") [""; "rho_T"] false []
 false);
 (Site "precomp_funs" "water_mat_props_ext_view" 363 (Plain "get_ny_water") [""; "ny_T"] false []
 false);
 (Site "precomp_funs" "water_mat_props_ext" 379 (Plain "cp_water") ["T_ext"] false [] false);
 (Site "precomp_funs" "water_mat_props_ext" 380 (Plain "lambda_water") [""] false [] false);
 (Site "precomp_funs" "water_mat_props_ext" 381 (Plain "rho_water") [""] false [] false);
 (Site "precomp_funs" "water_mat_props_ext" 382 (Plain "ny_water") [""] false [] false);
 (Site "precomp_funs" "water_mat_props" 396 (Plain "get_cp_water") ["T"; "cp_T"] false [] false);
 (Site "precomp_funs" "water_mat_props" 397 (Plain "get_lambda_water") ["T"; "lam_T"] false [] false);
 (Site "precomp_funs" "water_mat_props" 398 (Plain "get_rho_water") ["T"; "rho_T"] false [] false);
 (Site "precomp_funs" "water_mat_props" 399 (Plain "get_ny_water") ["T"; "ny_T"] false [] false);
 (Site "precomp_funs" "buoyancy_byNusselt" 568 (Plain "Pr_water_return") [""] false [] false);
 (Site "precomp_funs" "buoyancy_byNusselt" 569 (Plain "beta_water_return") [""] false [] false);
 (Site "precomp_funs" "buoyancy_AixLib" 618 (Plain "beta_water_return") [""] false [] false);
 (Site "precomp_funs" "pipe1D_diff" 1093 (Plain "_process_flow_invar") [] false [("process_flows",
 "process_flows"); ("dm_io", "dm_io"); ("dm_top", "dm_top"); ("dm_bot", "dm_bot"); ("dm_port",
 "dm_port"); ("stepnum", "stepnum"); ("res_dm", "res_dm")] false);
 (Site "precomp_funs" "pipe1D_diff" 1103 (Plain "water_mat_props_ext_view") [] false [("T_ext",
 "T_ext"); ("cp_T", "cp_T"); ("lam_T", "lam_T"); ("rho_T", "rho_T"); ("ny_T", "ny_T")] false);
 (Site "precomp_funs" "pipe1D_diff" 1108 (Plain "_lambda_mean_view") [] false [("lam_T", "lam_T");
 ("out", "lam_mean")] false);
 (Site "precomp_funs" "pipe1D_diff" 1110 (Plain "UA_plate_tb") [] false [("A_cell", "A_cell");
 ("grid_spacing", "grid_spacing"); ("lam_mean", "lam_mean"); ("UA_tb_wll", "UA_tb_wll"); ("out",
 "UA_tb")] false);
 (Site "precomp_funs" "pipe1D_diff" 1122 (Plain "surface_temp_steady_state_inplace") [] false [("T",
 ""); ("T_inf", ""); ("A_s", "A_shell_ins"); ("alpha_inf", "alpha_inf"); ("UA", "UA_amb_shell");
 ("T_s", "T_s")] false);
 (Site "precomp_funs" "pipe1D_diff" 1131 (Plain "pipe_alpha_i") ["dm_io"; ""; "rho_T"; "ny_T";
 "lam_T"; "A_cell"; "d_i"; "cell_dist"; "alpha_i"] false [] false);
 (Site "precomp_funs" "pipe1D_diff" 1135 (Plain "cylinder_alpha_inf") [] false [("T_s", "T_s");
 ("T_inf", ""); ("flow_length", "flow_length"); ("vertical", "vertical"); ("r_total", "r_total");
 ("alpha_inf", "alpha_inf")] false);
 (Site "precomp_funs" "pipe1D_diff" 1144 (Plain "UA_fld_wll_ins_amb_cyl") [] false [("A_i",
 "A_shell_i"); ("r_ln_wll", "r_ln_wll"); ("r_ln_ins", "r_ln_ins"); ("r_rins", "r_rins"); ("alpha_i",
 "alpha_i"); ("alpha_inf", "alpha_inf"); ("lam_wll", "lam_wll"); ("lam_ins", "lam_ins"); ("out",
 "UA_amb_shell")] false);
 (Site "precomp_funs" "pipe1D_diff" 1157 (Plain "cell_temp_props_ext") [] false [("T_ext", "T_ext");
 ("V_cell", "V_cell"); ("cp_T", "cp_T"); ("rho_T", "rho_T"); ("mcp_wll", "mcp_wll"); ("rhocp",
 "rhocp"); ("mcp", "mcp"); ("ui", "ui")] false);
 (Site "precomp_funs" "pipe1D_diff" 1168 (Plain "_process_ports_collapsed") [] false [("ports_all",
 "ports_all"); ("port_link_idx", "port_link_idx"); ("port_own_idx", "port_own_idx"); ("T", "");
 ("mcp", "mcp"); ("UA_port", "UA_port"); ("UA_port_wll", "UA_port_wll"); ("A_p_fld_mean",
 "A_p_fld_mean"); ("port_gsp", "port_gsp"); ("grid_spacing", "grid_spacing"); ("lam_T", "lam_T");
 ("cp_port", "cp_port"); ("lam_port_fld", "lam_port_fld"); ("T_port", "T_port")] false);
 (Site "precomp_funs" "pipe1D_diff" 1185 (Plain "_vonNeumann_stability_invar") [] false [("part_id",
 "part_id"); ("stability_breaches", "stability_breaches"); ("UA_tb", "UA_tb"); ("UA_port",
 "UA_port"); ("UA_amb_shell", "UA_amb_shell"); ("dm_io", "dm_io"); ("rho_T", "rho_T"); ("rhocp",
 "rhocp"); ("grid_spacing", "grid_spacing"); ("port_subs_gsp", "port_subs_gsp"); ("A_cell",
 "A_cell"); ("A_port", "A_p_fld_mean"); ("A_shell", "A_shell_ins"); ("r_total", "r_total");
 ("V_cell", "V_cell"); ("step_stable", "step_stable"); ("vN_max_step", "vN_max_step"); ("max_factor",
 "max_factor"); ("stepnum", "stepnum"); ("timestep", "timestep")] false);
 (Site "precomp_funs" "pipe1D_diff_fullstructarr" 1270 (Plain "_process_flow_invar") [] false
 [("process_flows", "process_flows"); ("dm_io", "dm_io"); ("dm_top", ""); ("dm_bot", ""); ("dm_port",
 ""); ("stepnum", "stepnum"); ("res_dm", "res_dm")] false);
 (Site "precomp_funs" "pipe1D_diff_fullstructarr" 1280 (Plain "water_mat_props_ext_view") [] false
 [("T_ext", "T_ext"); ("cp_T", "cp_T"); ("lam_T", ""); ("rho_T", ""); ("ny_T", "")] false);
 (Site "precomp_funs" "pipe1D_diff_fullstructarr" 1289 (Plain "_lambda_mean_view") [] false
 [("lam_T", ""); ("out", "lam_mean")] false);
 (Site "precomp_funs" "pipe1D_diff_fullstructarr" 1291 (Plain "UA_plate_tb") [] false [("A_cell",
 ""); ("grid_spacing", ""); ("lam_mean", "lam_mean"); ("UA_tb_wll", ""); ("out", "UA_tb")] false);
 (Site "precomp_funs" "pipe1D_diff_fullstructarr" 1303 (Plain "surface_temp_steady_state_inplace") []
 false [("T", ""); ("T_inf", ""); ("A_s", ""); ("alpha_inf", ""); ("UA", ""); ("T_s", "")] false);
 (Site "precomp_funs" "pipe1D_diff_fullstructarr" 1312 (Plain "pipe_alpha_i") ["dm_io"; ""; ""; "";
 ""; ""; ""; ""; ""] false [] false);
 (Site "precomp_funs" "pipe1D_diff_fullstructarr" 1324 (Plain "cylinder_alpha_inf") [] false [("T_s",
 ""); ("T_inf", ""); ("flow_length", ""); ("vertical", "vertical"); ("r_total", ""); ("alpha_inf",
 "")] false);
 (Site "precomp_funs" "pipe1D_diff_fullstructarr" 1333 (Plain "UA_fld_wll_ins_amb_cyl") [] false
 [("A_i", ""); ("r_ln_wll", ""); ("r_ln_ins", ""); ("r_rins", ""); ("alpha_i", ""); ("alpha_inf",
 ""); ("lam_wll", ""); ("lam_ins", ""); ("out", "")] false);
 (Site "precomp_funs" "pipe1D_diff_fullstructarr" 1346 (Plain "cell_temp_props_ext") [] false
 [("T_ext", "T_ext"); ("V_cell", ""); ("cp_T", "cp_T"); ("rho_T", ""); ("mcp_wll", ""); ("rhocp",
 ""); ("mcp", ""); ("ui", "")] false);
 (Site "precomp_funs" "pipe1D_diff_fullstructarr" 1357 (Plain "_process_ports_collapsed") [] false
 [("ports_all", "ports_all"); ("port_link_idx", "port_link_idx"); ("port_own_idx", ""); ("T", "");
 ("mcp", ""); ("UA_port", ""); ("UA_port_wll", ""); ("A_p_fld_mean", ""); ("port_gsp", "");
 ("grid_spacing", ""); ("lam_T", ""); ("cp_port", ""); ("lam_port_fld", ""); ("T_port", "")] false);
 (Site "precomp_funs" "pipe1D_diff_fullstructarr" 1374 (Plain "_vonNeumann_stability_invar") [] false
 [("part_id", ""); ("stability_breaches", ""); ("UA_tb", "UA_tb"); ("UA_port", ""); ("UA_amb_shell",
 ""); ("dm_io", "dm_io"); ("rho_T", ""); ("rhocp", ""); ("grid_spacing", ""); ("port_subs_gsp",
 "port_subs_gsp"); ("A_cell", ""); ("A_port", ""); ("A_shell", ""); ("r_total", ""); ("V_cell", "");
 ("step_stable", "step_stable"); ("vN_max_step", "vN_max_step"); ("max_factor", "max_factor");
 ("stepnum", "stepnum"); ("timestep", "timestep")] false);
 (Site "precomp_funs" "pipe1D_diff_structarr" 1493 (Plain "_process_flow_invar") [] false
 [("process_flows", "process_flows"); ("dm_io", "dm_io"); ("dm_top", "dm_top"); ("dm_bot", "dm_bot");
 ("dm_port", "dm_port"); ("stepnum", "stepnum"); ("res_dm", "res_dm")] false);
 (Site "precomp_funs" "pipe1D_diff_structarr" 1503 (Plain "water_mat_props_ext_view") [] false
 [("T_ext", "T_ext"); ("cp_T", "cp_T"); ("lam_T", "lam_T"); ("rho_T", "rho_T"); ("ny_T", "ny_T")]
 false);
 (Site "precomp_funs" "pipe1D_diff_structarr" 1508 (Plain "_lambda_mean_view") [] false [("lam_T",
 "lam_T"); ("out", "lam_mean")] false);
 (Site "precomp_funs" "pipe1D_diff_structarr" 1510 (Plain "UA_plate_tb") [] false [("A_cell", "");
 ("grid_spacing", ""); ("lam_mean", "lam_mean"); ("UA_tb_wll", ""); ("out", "UA_tb")] false);
 (Site "precomp_funs" "pipe1D_diff_structarr" 1522 (Plain "surface_temp_steady_state_inplace") []
 false [("T", ""); ("T_inf", ""); ("A_s", ""); ("alpha_inf", "alpha_inf"); ("UA", "UA_amb_shell");
 ("T_s", "T_s")] false);
 (Site "precomp_funs" "pipe1D_diff_structarr" 1531 (Plain "pipe_alpha_i") ["dm_io"; ""; "rho_T";
 "ny_T"; "lam_T"; ""; ""; "cell_dist"; "alpha_i"] false [] false);
 (Site "precomp_funs" "pipe1D_diff_structarr" 1543 (Plain "cylinder_alpha_inf") [] false [("T_s",
 "T_s"); ("T_inf", ""); ("flow_length", ""); ("vertical", "vertical"); ("r_total", ""); ("alpha_inf",
 "alpha_inf")] false);
 (Site "precomp_funs" "pipe1D_diff_structarr" 1552 (Plain "UA_fld_wll_ins_amb_cyl") [] false [("A_i",
 ""); ("r_ln_wll", ""); ("r_ln_ins", ""); ("r_rins", ""); ("alpha_i", "alpha_i"); ("alpha_inf",
 "alpha_inf"); ("lam_wll", ""); ("lam_ins", ""); ("out", "UA_amb_shell")] false);
 (Site "precomp_funs" "pipe1D_diff_structarr" 1565 (Plain "cell_temp_props_ext") [] false [("T_ext",
 "T_ext"); ("V_cell", ""); ("cp_T", "cp_T"); ("rho_T", "rho_T"); ("mcp_wll", ""); ("rhocp", "rhocp");
 ("mcp", "mcp"); ("ui", "ui")] false);
 (Site "precomp_funs" "pipe1D_diff_structarr" 1576 (Plain "_process_ports_collapsed") [] false
 [("ports_all", "ports_all"); ("port_link_idx", "port_link_idx"); ("port_own_idx", "port_own_idx");
 ("T", ""); ("mcp", "mcp"); ("UA_port", "UA_port"); ("UA_port_wll", "UA_port_wll"); ("A_p_fld_mean",
 "A_p_fld_mean"); ("port_gsp", "port_gsp"); ("grid_spacing", ""); ("lam_T", "lam_T"); ("cp_port",
 "cp_port"); ("lam_port_fld", "lam_port_fld"); ("T_port", "T_port")] false);
 (Site "precomp_funs" "pipe1D_diff_structarr" 1593 (Plain "_vonNeumann_stability_invar") [] false
 [("part_id", "part_id"); ("stability_breaches", "stability_breaches"); ("UA_tb", "UA_tb");
 ("UA_port", "UA_port"); ("UA_amb_shell", "UA_amb_shell"); ("dm_io", "dm_io"); ("rho_T", "rho_T");
 ("rhocp", "rhocp"); ("grid_spacing", ""); ("port_subs_gsp", "port_subs_gsp"); ("A_cell", "");
 ("A_port", "A_p_fld_mean"); ("A_shell", ""); ("r_total", ""); ("V_cell", ""); ("step_stable",
 "step_stable"); ("vN_max_step", "vN_max_step"); ("max_factor", "max_factor"); ("stepnum",
 "stepnum"); ("timestep", "timestep")] false);
 (Site "precomp_funs" "pipe1D_branched_diff" 1725 (Plain "_process_flow_var") [] false
 [("process_flows", "process_flows"); ("dm_io", "dm_io"); ("dm", "dm"); ("dm_top", "dm_top");
 ("dm_bot", "dm_bot"); ("dm_port", "dm_port"); ("port_own_idx", "port_own_idx"); ("stepnum",
 "stepnum"); ("res_dm", "res_dm")] false);
 (Site "precomp_funs" "pipe1D_branched_diff" 1737 (Plain "water_mat_props_ext_view") [] false
 [("T_ext", "T_ext"); ("cp_T", "cp_T"); ("lam_T", "lam_T"); ("rho_T", "rho_T"); ("ny_T", "ny_T")]
 false);
 (Site "precomp_funs" "pipe1D_branched_diff" 1742 (Plain "_lambda_mean_view") [] false [("lam_T",
 "lam_T"); ("out", "lam_mean")] false);
 (Site "precomp_funs" "pipe1D_branched_diff" 1744 (Plain "UA_plate_tb") [] false [("A_cell",
 "A_cell"); ("grid_spacing", "grid_spacing"); ("lam_mean", "lam_mean"); ("UA_tb_wll", "UA_tb_wll");
 ("out", "UA_tb")] false);
 (Site "precomp_funs" "pipe1D_branched_diff" 1756 (Plain "surface_temp_steady_state_inplace") []
 false [("T", ""); ("T_inf", ""); ("A_s", "A_shell_ins"); ("alpha_inf", "alpha_inf"); ("UA",
 "UA_amb_shell"); ("T_s", "T_s")] false);
 (Site "precomp_funs" "pipe1D_branched_diff" 1765 (Plain "pipe_alpha_i") ["dm"; ""; "rho_T"; "ny_T";
 "lam_T"; "A_cell"; "d_i"; "cell_dist"; "alpha_i"] false [] false);
 (Site "precomp_funs" "pipe1D_branched_diff" 1769 (Plain "cylinder_alpha_inf") [] false [("T_s",
 "T_s"); ("T_inf", ""); ("flow_length", "flow_length"); ("vertical", "vertical"); ("r_total",
 "r_total"); ("alpha_inf", "alpha_inf")] false);
 (Site "precomp_funs" "pipe1D_branched_diff" 1778 (Plain "UA_fld_wll_ins_amb_cyl") [] false [("A_i",
 "A_shell_i"); ("r_ln_wll", "r_ln_wll"); ("r_ln_ins", "r_ln_ins"); ("r_rins", "r_rins"); ("alpha_i",
 "alpha_i"); ("alpha_inf", "alpha_inf"); ("lam_wll", "lam_wll"); ("lam_ins", "lam_ins"); ("out",
 "UA_amb_shell")] false);
 (Site "precomp_funs" "pipe1D_branched_diff" 1791 (Plain "cell_temp_props_ext") [] false [("T_ext",
 "T_ext"); ("V_cell", "V_cell"); ("cp_T", "cp_T"); ("rho_T", "rho_T"); ("mcp_wll", "mcp_wll");
 ("rhocp", "rhocp"); ("mcp", "mcp"); ("ui", "ui")] false);
 (Site "precomp_funs" "pipe1D_branched_diff" 1802 (Plain "_process_ports_collapsed") [] false
 [("ports_all", "ports_all"); ("port_link_idx", "port_link_idx"); ("port_own_idx", "port_own_idx");
 ("T", ""); ("mcp", "mcp"); ("UA_port", "UA_port"); ("UA_port_wll", "UA_port_wll"); ("A_p_fld_mean",
 "A_p_fld_mean"); ("port_gsp", "port_gsp"); ("grid_spacing", "grid_spacing"); ("lam_T", "lam_T");
 ("cp_port", "cp_port"); ("lam_port_fld", "lam_port_fld"); ("T_port", "T_port")] false);
 (Site "precomp_funs" "pipe1D_branched_diff" 1819 (Plain "_vonNeumann_stability_invar") [] false
 [("part_id", "part_id"); ("stability_breaches", "stability_breaches"); ("UA_tb", "UA_tb");
 ("UA_port", "UA_port"); ("UA_amb_shell", "UA_amb_shell"); ("dm_io", "dm_io"); ("rho_T", "rho_T");
 ("rhocp", "rhocp"); ("grid_spacing", "grid_spacing"); ("port_subs_gsp", "port_subs_gsp"); ("A_cell",
 "A_cell"); ("A_port", "A_p_fld_mean"); ("A_shell", "A_shell_ins"); ("r_total", "r_total");
 ("V_cell", "V_cell"); ("step_stable", "step_stable"); ("vN_max_step", "vN_max_step"); ("max_factor",
 "max_factor"); ("stepnum", "stepnum"); ("timestep", "timestep")] false);
 (Site "precomp_funs" "heatedpipe1D_diff" 1948 (Plain "_process_flow_invar") [] false
 [("process_flows", "process_flows"); ("dm_io", "dm_io"); ("dm_top", "dm_top"); ("dm_bot", "dm_bot");
 ("dm_port", "dm_port"); ("stepnum", "stepnum"); ("res_dm", "res_dm")] false);
 (Site "precomp_funs" "heatedpipe1D_diff" 1958 (Plain "water_mat_props_ext_view") [] false [("T_ext",
 "T_ext"); ("cp_T", "cp_T"); ("lam_T", "lam_T"); ("rho_T", "rho_T"); ("ny_T", "ny_T")] false);
 (Site "precomp_funs" "heatedpipe1D_diff" 1963 (Plain "_lambda_mean_view") [] false [("lam_T",
 "lam_T"); ("out", "lam_mean")] false);
 (Site "precomp_funs" "heatedpipe1D_diff" 1965 (Plain "UA_plate_tb") [] false [("A_cell", "A_cell");
 ("grid_spacing", "grid_spacing"); ("lam_mean", "lam_mean"); ("UA_tb_wll", "UA_tb_wll"); ("out",
 "UA_tb")] false);
 (Site "precomp_funs" "heatedpipe1D_diff" 1977 (Plain "surface_temp_steady_state_inplace") [] false
 [("T", ""); ("T_inf", ""); ("A_s", "A_shell_ins"); ("alpha_inf", "alpha_inf"); ("UA",
 "UA_amb_shell"); ("T_s", "T_s")] false);
 (Site "precomp_funs" "heatedpipe1D_diff" 1986 (Plain "pipe_alpha_i") ["dm_io"; ""; "rho_T"; "ny_T";
 "lam_T"; "A_cell"; "d_i"; "cell_dist"; "alpha_i"] false [] false);
 (Site "precomp_funs" "heatedpipe1D_diff" 1990 (Plain "cylinder_alpha_inf") [] false [("T_s", "T_s");
 ("T_inf", ""); ("flow_length", "flow_length"); ("vertical", "vertical"); ("r_total", "r_total");
 ("alpha_inf", "alpha_inf")] false);
 (Site "precomp_funs" "heatedpipe1D_diff" 1999 (Plain "UA_fld_wll_ins_amb_cyl") [] false [("A_i",
 "A_shell_i"); ("r_ln_wll", "r_ln_wll"); ("r_ln_ins", "r_ln_ins"); ("r_rins", "r_rins"); ("alpha_i",
 "alpha_i"); ("alpha_inf", "alpha_inf"); ("lam_wll", "lam_wll"); ("lam_ins", "lam_ins"); ("out",
 "UA_amb_shell")] false);
 (Site "precomp_funs" "heatedpipe1D_diff" 2012 (Plain "cell_temp_props_ext") [] false [("T_ext",
 "T_ext"); ("V_cell", "V_cell"); ("cp_T", "cp_T"); ("rho_T", "rho_T"); ("mcp_wll", "mcp_wll");
 ("rhocp", "rhocp"); ("mcp", "mcp"); ("ui", "ui")] false);
 (Site "precomp_funs" "heatedpipe1D_diff" 2023 (Plain "_process_ports_collapsed") [] false
 [("ports_all", "ports_all"); ("port_link_idx", "port_link_idx"); ("port_own_idx", "port_own_idx");
 ("T", ""); ("mcp", "mcp"); ("UA_port", "UA_port"); ("UA_port_wll", "UA_port_wll"); ("A_p_fld_mean",
 "A_p_fld_mean"); ("port_gsp", "port_gsp"); ("grid_spacing", "grid_spacing"); ("lam_T", "lam_T");
 ("cp_port", "cp_port"); ("lam_port_fld", "lam_port_fld"); ("T_port", "T_port")] false);
 (Site "precomp_funs" "heatedpipe1D_diff" 2040 (Plain "_vonNeumann_stability_invar") [] false
 [("part_id", "part_id"); ("stability_breaches", "stability_breaches"); ("UA_tb", "UA_tb");
 ("UA_port", "UA_port"); ("UA_amb_shell", "UA_amb_shell"); ("dm_io", "dm_io"); ("rho_T", "rho_T");
 ("rhocp", "rhocp"); ("grid_spacing", "grid_spacing"); ("port_subs_gsp", "port_subs_gsp"); ("A_cell",
 "A_cell"); ("A_port", "A_p_fld_mean"); ("A_shell", "A_shell_ins"); ("r_total", "r_total");
 ("V_cell", "V_cell"); ("step_stable", "step_stable"); ("vN_max_step", "vN_max_step"); ("max_factor",
 "max_factor"); ("stepnum", "stepnum"); ("timestep", "timestep")] false);
 (Site "precomp_funs" "tes_diff" 2167 (Plain "_process_flow_var") [] false [("process_flows",
 "process_flows"); ("dm_io", "dm_io"); ("dm", "dm"); ("dm_top", "dm_top"); ("dm_bot", "dm_bot");
 ("dm_port", "dm_port"); ("port_own_idx", "port_own_idx"); ("stepnum", "stepnum"); ("res_dm",
 "res_dm")] false);
 (Site "precomp_funs" "tes_diff" 2179 (Plain "water_mat_props_ext_view") [] false [("T_ext",
 "T_ext"); ("cp_T", "cp_T"); ("lam_T", "lam_T"); ("rho_T", "rho_T"); ("ny_T", "ny_T")] false);
 (Site "precomp_funs" "tes_diff" 2184 (Plain "_lambda_mean_view") [] false [("lam_T", "lam_T");
 ("out", "lam_mean")] false);
 (Site "precomp_funs" "tes_diff" 2187 (Plain "buoyancy_byNusselt") [] false [("T", ""); ("ny",
 "ny_T"); ("d_i", "d_i"); ("lam_mean", "lam_mean")] false);
 (Site "precomp_funs" "tes_diff" 2189 (Plain "UA_plate_tb") [] false [("A_cell", "A_cell");
 ("grid_spacing", "grid_spacing"); ("lam_mean", "lam_mean"); ("UA_tb_wll", "UA_tb_wll"); ("out",
 "UA_tb")] false);
 (Site "precomp_funs" "tes_diff" 2201 (Plain "surface_temp_steady_state_inplace") [] false [("T",
 ""); ("T_inf", ""); ("A_s", "A_shell_ins"); ("alpha_inf", "alpha_inf"); ("UA", "UA_amb_shell");
 ("T_s", "T_s")] false);
 (Site "precomp_funs" "tes_diff" 2210 (Plain "pipe_alpha_i") [] false [("dm", "dm"); ("T", "");
 ("rho", "rho_T"); ("ny", "ny_T"); ("lam_fld", "lam_T"); ("A", "A_cell"); ("d_i", "d_i"); ("x",
 "cell_dist"); ("alpha", "alpha_i")] false);
 (Site "precomp_funs" "tes_diff" 2222 (Plain "cylinder_alpha_inf") [] false [("T_s", "T_s");
 ("T_inf", ""); ("flow_length", "flow_length"); ("vertical", "vertical"); ("r_total", "r_total");
 ("alpha_inf", "alpha_inf")] false);
 (Site "precomp_funs" "tes_diff" 2230 (Plain "plane_alpha_inf") [] false [("T_s", "T_s_lid");
 ("T_inf", ""); ("flow_length", "flow_length_lid"); ("vertical", "vertical_lid"); ("top", "lid_top")]
 false);
 (Site "precomp_funs" "tes_diff" 2238 (Plain "UA_fld_wll_ins_amb_cyl") [] false [("A_i",
 "A_shell_i"); ("r_ln_wll", "r_ln_wll"); ("r_ln_ins", "r_ln_ins"); ("r_rins", "r_rins"); ("alpha_i",
 "alpha_i"); ("alpha_inf", "alpha_inf"); ("lam_wll", "lam_wll"); ("lam_ins", "lam_ins"); ("out",
 "UA_amb_shell")] false);
 (Site "precomp_funs" "tes_diff" 2249 (Plain "UA_fld_wll_ins_amb_plate") [] false [("A", "A_cell");
 ("s_wll", "s_wll"); ("s_ins", "s_ins"); ("alpha_fld", ""); ("alpha_inf", "alpha_inf_lid");
 ("lam_wll", "lam_wll"); ("lam_ins", "lam_ins")] false);
 (Site "precomp_funs" "tes_diff" 2260 (Plain "cell_temp_props_ext") [] false [("T_ext", "T_ext");
 ("V_cell", "V_cell"); ("cp_T", "cp_T"); ("rho_T", "rho_T"); ("mcp_wll", "mcp_wll"); ("rhocp",
 "rhocp"); ("mcp", "mcp"); ("ui", "ui")] false);
 (Site "precomp_funs" "tes_diff" 2272 (Plain "_process_ports_collapsed") [] false [("ports_all",
 "ports_all"); ("port_link_idx", "port_link_idx"); ("port_own_idx", "port_own_idx"); ("T", "");
 ("mcp", "mcp"); ("UA_port", "UA_port"); ("UA_port_wll", "UA_port_wll"); ("A_p_fld_mean",
 "A_p_fld_mean"); ("port_gsp", "port_gsp"); ("grid_spacing", "grid_spacing"); ("lam_T", "lam_T");
 ("cp_port", "cp_port"); ("lam_port_fld", "lam_port_fld"); ("T_port", "T_port")] false);
 (Site "precomp_funs" "tes_diff" 2289 (Plain "_vonNeumann_stability_var") [] false [("part_id",
 "part_id"); ("stability_breaches", "stability_breaches"); ("UA_tb", "UA_tb"); ("UA_port",
 "UA_port"); ("UA_amb_shell", "UA_amb_shell"); ("dm_top", "dm_top"); ("dm_bot", "dm_bot");
 ("dm_port", "dm_port"); ("rho_T", "rho_T"); ("rhocp", "rhocp"); ("grid_spacing", "grid_spacing");
 ("port_subs_gsp", "port_subs_gsp"); ("A_cell", "A_cell"); ("A_port", "A_p_fld_mean"); ("A_shell",
 "A_shell_ins"); ("r_total", "r_total"); ("V_cell", "V_cell"); ("step_stable", "step_stable");
 ("vN_max_step", "vN_max_step"); ("max_factor", "max_factor"); ("stepnum", "stepnum"); ("timestep",
 "timestep")] false);
 (Site "precomp_funs" "chp_core_diff" 2446 (Plain "_process_flow_invar") [] false [("process_flows",
 "process_flows"); ("dm_io", "dm_io"); ("dm_top", "dm_top"); ("dm_bot", "dm_bot"); ("dm_port",
 "dm_port"); ("stepnum", "stepnum"); ("res_dm", "res_dm")] false);
 (Site "precomp_funs" "chp_core_diff" 2456 (Plain "water_mat_props_ext_view") [] false [("T_ext",
 "T_ext"); ("cp_T", "cp_T"); ("lam_T", "lam_T"); ("rho_T", "rho_T"); ("ny_T", "ny_T")] false);
 (Site "precomp_funs" "chp_core_diff" 2461 (Plain "_lambda_mean_view") [] false [("lam_T", "lam_T");
 ("out", "lam_mean")] false);
 (Site "precomp_funs" "chp_core_diff" 2463 (Plain "UA_plate_tb") [] false [("A_cell", "A_cell");
 ("grid_spacing", "grid_spacing"); ("lam_mean", "lam_mean"); ("UA_tb_wll", "UA_tb_wll"); ("out",
 "UA_tb")] false);
 (Site "precomp_funs" "chp_core_diff" 2475 (Plain "surface_temp_steady_state_inplace") [] false
 [("T", ""); ("T_inf", ""); ("A_s", "A_shell_ins"); ("alpha_inf", "alpha_inf"); ("UA",
 "UA_amb_shell"); ("T_s", "T_s")] false);
 (Site "precomp_funs" "chp_core_diff" 2484 (Plain "pipe_alpha_i") ["dm_io"; ""; "rho_T"; "ny_T";
 "lam_T"; "A_cell"; "d_i"; "cell_dist"; "alpha_i"] false [] false);
 (Site "precomp_funs" "chp_core_diff" 2488 (Plain "cylinder_alpha_inf") [] false [("T_s", "T_s");
 ("T_inf", ""); ("flow_length", "flow_length"); ("vertical", "vertical"); ("r_total", "r_total");
 ("alpha_inf", "alpha_inf")] false);
 (Site "precomp_funs" "chp_core_diff" 2497 (Plain "UA_fld_wll_ins_amb_cyl") [] false [("A_i",
 "A_shell_i"); ("r_ln_wll", "r_ln_wll"); ("r_ln_ins", "r_ln_ins"); ("r_rins", "r_rins"); ("alpha_i",
 "alpha_i"); ("alpha_inf", "alpha_inf"); ("lam_wll", "lam_wll"); ("lam_ins", "lam_ins"); ("out",
 "UA_amb_shell")] false);
 (Site "precomp_funs" "chp_core_diff" 2510 (Plain "cell_temp_props_ext") [] false [("T_ext",
 "T_ext"); ("V_cell", "V_cell"); ("cp_T", "cp_T"); ("rho_T", "rho_T"); ("mcp_wll", "mcp_wll");
 ("rhocp", "rhocp"); ("mcp", "mcp"); ("ui", "ui")] false);
 (Site "precomp_funs" "chp_core_diff" 2521 (Plain "_process_ports_collapsed") [] false [("ports_all",
 "ports_all"); ("port_link_idx", "port_link_idx"); ("port_own_idx", "port_own_idx"); ("T", "");
 ("mcp", "mcp"); ("UA_port", "UA_port"); ("UA_port_wll", "UA_port_wll"); ("A_p_fld_mean",
 "A_p_fld_mean"); ("port_gsp", "port_gsp"); ("grid_spacing", "grid_spacing"); ("lam_T", "lam_T");
 ("cp_port", "cp_port"); ("lam_port_fld", "lam_port_fld"); ("T_port", "T_port")] false);
 (Site "precomp_funs" "chp_core_diff" 2538 (Plain "_vonNeumann_stability_invar") [] false
 [("part_id", "part_id"); ("stability_breaches", "stability_breaches"); ("UA_tb", "UA_tb");
 ("UA_port", "UA_port"); ("UA_amb_shell", "UA_amb_shell"); ("dm_io", "dm_io"); ("rho_T", "rho_T");
 ("rhocp", "rhocp"); ("grid_spacing", "grid_spacing"); ("port_subs_gsp", "port_subs_gsp"); ("A_cell",
 "A_cell"); ("A_port", "A_p_fld_mean"); ("A_shell", "A_shell_ins"); ("r_total", "r_total");
 ("V_cell", "V_cell"); ("step_stable", "step_stable"); ("vN_max_step", "vN_max_step"); ("max_factor",
 "max_factor"); ("stepnum", "stepnum"); ("timestep", "timestep")] false);
 (Site "precomp_funs" "hexnum_diff" 2656 (Plain "_process_flow_multi_flow") [] false
 [("process_flows", "process_flows"); ("dm_io", "dm_io"); ("dm_top", "dm_top"); ("dm_bot", "dm_bot");
 ("dm_port", "dm_port"); ("stepnum", "stepnum"); ("res_dm", "res_dm")] false);
 (Site "precomp_funs" "hexnum_diff" 2668 (Plain "water_mat_props_ext_view") [] false [("T_ext", "");
 ("cp_T", "cp_T"); ("lam_T", "lam_fld"); ("rho_T", "rho_T"); ("ny_T", "ny_T")] false);
 (Site "precomp_funs" "hexnum_diff" 2672 (Plain "_lambda_mean_view") [] false [("lam_T", "lam_fld");
 ("out", "lam_mean")] false);
 (Site "precomp_funs" "hexnum_diff" 2674 (Plain "UA_plate_tb_fld") [] false [("A_cell", "A_channel");
 ("grid_spacing", "grid_spacing"); ("lam_mean", "lam_mean"); ("out", "")] false);
 (Site "precomp_funs" "hexnum_diff" 2681 (Plain "UA_plate_tb_wll") [] false [("UA_tb_wll",
 "UA_dim1_wll"); ("out", "")] false);
 (Site "precomp_funs" "hexnum_diff" 2685 (Plain "phex_alpha_i_wll_sep_discretized") [] false [("dm",
 ""); ("T_fld", "T_sup"); ("T_wll", "T_sup"); ("rho", ""); ("ny", ""); ("lam_fld", ""); ("A",
 "A_channel"); ("d_h", "d_h"); ("x", "cell_dist"); ("corr_Re", "corr_Re"); ("alpha", "")] false);
 (Site "precomp_funs" "hexnum_diff" 2698 (Plain "phex_alpha_i_wll_sep_discretized") [] false [("dm",
 ""); ("T_fld", "T_dmd"); ("T_wll", "T_dmd"); ("rho", ""); ("ny", ""); ("lam_fld", ""); ("A",
 "A_channel"); ("d_h", "d_h"); ("x", "cell_dist"); ("corr_Re", "corr_Re"); ("alpha", "")] false);
 (Site "precomp_funs" "hexnum_diff" 2712 (Plain "UA_fld_wll_plate") [] false [("A", "A_plate_eff");
 ("s_wll", ""); ("alpha_fld", "alpha_i"); ("lam_wll", "lam_wll")] false);
 (Site "precomp_funs" "hexnum_diff" 2716 (Plain "cell_temp_props_fld") [] false [("T_ext_fld", "");
 ("V_cell", "V_cell_fld"); ("cp_T", "cp_T"); ("rho_T", "rho_T"); ("rhocp_fld", ""); ("mcp_fld", "");
 ("ui_fld", "")] false);
 (Site "precomp_funs" "hexnum_diff" 2726 (Plain "specific_inner_energy_wll") [] false [("T_wll", "");
 ("cp_wll", "cp_wll"); ("ui", "")] false);
 (Site "precomp_funs" "hexnum_diff" 2728 (Plain "_process_ports_collapsed") [] false [("ports_all",
 "ports_all"); ("port_link_idx", "port_link_idx"); ("port_own_idx", "port_own_idx"); ("T", "");
 ("mcp", "mcp"); ("UA_port", "UA_port"); ("UA_port_wll", "UA_port_wll"); ("A_p_fld_mean",
 "A_p_fld_mean"); ("port_gsp", "port_gsp"); ("grid_spacing", "grid_spacing"); ("lam_T", "lam_fld");
 ("cp_port", "cp_port"); ("lam_port_fld", "lam_port_fld"); ("T_port", "T_port")] false);
 (Site "precomp_funs" "hexnum_diff" 2749 (Plain "_vonNeumann_stability_invar_hexnum") [] false
 [("part_id", "part_id"); ("stability_breaches", "stability_breaches"); ("UA_dim1", "UA_dim1");
 ("UA_dim2", "UA_dim2"); ("UA_port", "UA_port"); ("dm_io", "flow_per_channel"); ("rho_T", "rho_T");
 ("rhocp", "rhocp"); ("grid_spacing", "grid_spacing"); ("port_subs_gsp", "port_subs_gsp");
 ("A_channel", "A_channel"); ("A_plate_eff", "A_plate_eff"); ("A_port", "A_p_fld_mean"); ("V_cell",
 "V_cell_fld"); ("step_stable", "step_stable"); ("vN_max_step", "vN_max_step"); ("max_factor",
 "max_factor"); ("stepnum", "stepnum"); ("timestep", "timestep")] false);
 (Site "precomp_funs" "condensing_hex_solve" 2898 (Plain "_port_values_to_cont") [] false
 [("ports_all", "ports_all"); ("port_link_idx", "port_link_idx"); ("out", "T_port")] false);
 (Site "precomp_funs" "condensing_hex_solve" 2945 (Plain "transform_to_poly_nb") ["X_pred";
 "int_comb_idx"; "nvars_per_ftr"; "n_samples"] false [] false);
 (Site "precomp_funs" "condensing_hex_solve" 2948 (Plain "transform_pca_nb") ["X_pf"; "pca_mean";
 "pca_components"] false [] false);
 (Site "precomp_funs" "condensing_hex_solve" 2950 (Plain "poly_tranfs_pred") ["X_PC"; "lm_intercept";
 "lm_coef"] false [] false);
 (Site "precomp_funs" "condensing_hex_solve" 2957 (Plain "condensing_hex_quad_poly") ["X_pred";
 "int_comb_idx"; "nvars_per_ftr"; "pca_mean"; "pca_components"; "lm_intercept"; "lm_coef"] false
 [("dm_water_thresh", ""); ("dx", "")] false);
 (Site "precomp_funs" "condensing_hex_solve" 2983 (Plain "cp_water") [""] false [] false);
 (Site "precomp_funs" "condensing_hex_solve" 2984 (Plain "cp_water") [""] false [] false);
 (Site "precomp_funs" "hexnum_diff_impl" 3053 (Plain "_process_flow_multi_flow") [] false
 [("process_flows", "process_flows"); ("dm_io", "dm_io"); ("dm_top", "dm_top"); ("dm_bot", "dm_bot");
 ("dm_port", "dm_port"); ("stepnum", "stepnum"); ("res_dm", "res_dm")] false);
 (Site "precomp_funs" "hexnum_diff_impl" 3063 (Plain "water_mat_props_ext_view") [] false [("T_ext",
 ""); ("cp_T", "cp_T"); ("lam_T", "lam_fld"); ("rho_T", "rho_T"); ("ny_T", "ny_T")] false);
 (Site "precomp_funs" "hexnum_diff_impl" 3067 (Plain "_lambda_mean_view") [] false [("lam_T",
 "lam_fld"); ("out", "lam_mean")] false);
 (Site "precomp_funs" "hexnum_diff_impl" 3069 (Plain "UA_plate_tb_fld") [] false [("A_cell",
 "A_channel"); ("grid_spacing", "grid_spacing"); ("lam_mean", "lam_mean"); ("out", "")] false);
 (Site "precomp_funs" "hexnum_diff_impl" 3076 (Plain "UA_plate_tb_wll") [] false [("UA_tb_wll",
 "UA_dim1_wll"); ("out", "")] false);
 (Site "precomp_funs" "hexnum_diff_impl" 3080 (Plain "phex_alpha_i_wll_sep_discretized") [] false
 [("dm", ""); ("T_fld", "T_sup"); ("T_wll", "T_sup"); ("rho", ""); ("ny", ""); ("lam_fld", ""); ("A",
 "A_channel"); ("d_h", "d_h"); ("x", "cell_dist"); ("corr_Re", "corr_Re"); ("alpha", "")] false);
 (Site "precomp_funs" "hexnum_diff_impl" 3093 (Plain "phex_alpha_i_wll_sep_discretized") [] false
 [("dm", ""); ("T_fld", "T_dmd"); ("T_wll", "T_dmd"); ("rho", ""); ("ny", ""); ("lam_fld", ""); ("A",
 "A_channel"); ("d_h", "d_h"); ("x", "cell_dist"); ("corr_Re", "corr_Re"); ("alpha", "")] false);
 (Site "precomp_funs" "hexnum_diff_impl" 3107 (Plain "UA_fld_wll_plate") [] false [("A",
 "A_plate_eff"); ("s_wll", ""); ("alpha_fld", "alpha_i"); ("lam_wll", "lam_wll")] false);
 (Site "precomp_funs" "hexnum_diff_impl" 3111 (Plain "cell_temp_props_fld") [] false [("T_ext_fld",
 ""); ("V_cell", "V_cell_fld"); ("cp_T", "cp_T"); ("rho_T", "rho_T"); ("rhocp_fld", ""); ("mcp_fld",
 ""); ("ui_fld", "")] false);
 (Site "precomp_funs" "hexnum_diff_impl" 3121 (Plain "specific_inner_energy_wll") [] false [("T_wll",
 ""); ("cp_wll", "cp_wll"); ("ui", "")] false);
 (Site "precomp_funs" "hexnum_diff_impl" 3123 (Plain "_process_ports_collapsed") [] false
 [("ports_all", "ports_all"); ("port_link_idx", "port_link_idx"); ("port_own_idx", "port_own_idx");
 ("T", ""); ("mcp", "mcp"); ("UA_port", "UA_port"); ("UA_port_wll", "UA_port_wll"); ("A_p_fld_mean",
 "A_p_fld_mean"); ("port_gsp", "port_gsp"); ("grid_spacing", "grid_spacing"); ("lam_T", "lam_fld");
 ("cp_port", "cp_port"); ("lam_port_fld", "lam_port_fld"); ("T_port", "T_port")] false);
 (Site "precomp_funs" "hexnum_imp_root_diff" 3196 (Plain "hexnum_diff_impl") [] true [] false);
 (Site "precomp_funs" "hexnum_imp_fixedpoint" 3208 (Plain "hexnum_diff_impl") [] true [] false);
 (Site "precomp_funs" "hexnum_imp_fixedp_diff" 3220 (Plain "hexnum_diff_impl") [] true [] false);
 (Site "precomp_funs" "hexnum_imp_newt_diff" 3235 (Plain "hexnum_diff_impl") [] true [] false);
 (Site "precomp_funs" "hexnum_imp_newt_diff" 3247 (Plain "hexnum_diff_impl") [] true [] false);
 (Site "precomp_funs" "solve_connector_3w_overload" 3270 (Plain "solve_connector_3w") [] true []
 false);
 (Site "precomp_funs" "solve_connector_3w" 3283 (Plain "_port_values_to_cont") [] false
 [("ports_all", "ports_all"); ("port_link_idx", "port_link_idx"); ("out", "T")] false);
 (Site "precomp_funs" "solve_connector_3w" 3287 (Plain "get_cp_water") ["T"; "cp_T"] false [] false);
 (Site "precomp_funs" "solve_connector_3w" 3298 (Plain "cp_water") [""] false [] false);
 (Site "precomp_funs" "solve_platehex" 3389 (Plain "_port_values_to_cont") [] false [("ports_all",
 "ports_all"); ("port_link_idx", "port_link_idx"); ("out", "T_port")] false);
 (Site "precomp_funs" "solve_platehex" 3433 (Plain "water_mat_props") ["T_mean"; "cp_mean";
 "lam_mean"; "rho_mean"; "ny_mean"] false [] false);
 (Site "precomp_funs" "solve_platehex" 3438 (Plain "phex_alpha_i_wll_sep") [""; ""; ""; ""; ""; "";
 "A_channel"; "d_h"; "cell_dist"; "corr_Re"; ""] false [] false);
 (Site "precomp_funs" "solve_platehex" 3452 (Plain "phex_alpha_i_wll_sep") [""; ""; ""; ""; ""; "";
 "A_channel"; "d_h"; "cell_dist"; "corr_Re"; ""] false [] false);
 (Site "precomp_funs" "solve_platehex" 3469 (Plain "UA_fld_wll_plate") ["A_plate_eff"; ""; "alpha_i";
 ""] false [] false);
 (Site "precomp_funs" "solve_platehex" 3477 (Plain "series_circuit_UA") [""; ""] false [] false);
 (Site "precomp_funs" "solve_mix_overload" 3579 (Plain "solve_mix") [] true [] false);
 (Site "precomp_funs" "solve_mix" 3595 (Plain "cp_water") ["T"] false [] false);
 (Site "precomp_funs" "solve_split_overload" 3618 (Plain "solve_split") [] true [] false);
 (Site "precomp_funs" "solve_pump_overload" 3636 (Plain "solve_pump") [] true [] false);
 (Site "precomp_funs" "solve_pump" 3646 (Plain "_get_p_arr_pump") [] false [("ports_all",
 "ports_all"); ("port_link_idx", "port_link_idx"); ("T", "T")] false);
 (Site "precomp_funs" "pipe_get_Re" 4335 (Plain "get_Re_water") [""; "d_i"; "ny"; "Re"] false []
 false);
 (Site "precomp_funs" "pipe_alpha_i" 4389 (Plain "get_Re_water") [""; "d_i"; "ny"; "Re"] false []
 false);
 (Site "precomp_funs" "pipe_alpha_i" 4390 (Plain "get_Pr_water") ["T"; "Pr_f"] false [] false);
 (Site "precomp_funs" "pipe_alpha_i_wll_sep" 4470 (Plain "get_Re_water") [""; "d_i"; "ny"; "Re"]
 false [] false);
 (Site "precomp_funs" "pipe_alpha_i_wll_sep" 4471 (Plain "get_Pr_water") ["T"; "Pr"] false [] false);
 (Site "precomp_funs" "phex_alpha_i_wll_sep" 4560 (Plain "get_Re_water") [""; "d_h"; "ny"; "Re"]
 false [] false);
 (Site "precomp_funs" "phex_alpha_i_wll_sep" 4562 (Plain "Pr_water_return") ["T_fld"] false [] false);
 (Site "precomp_funs" "phex_alpha_i_wll_sep" 4563 (Plain "Pr_water_return") ["T_wll"] false [] false);
 (Site "precomp_funs" "phex_alpha_i_wll_sep_discretized" 4645 (Plain "get_Re_water") [""; "d_h";
 "ny"; "Re"] false [] false);
 (Site "precomp_funs" "phex_alpha_i_wll_sep_discretized" 4647 (Plain "Pr_water_return") ["T_fld"]
 false [] false);
 (Site "precomp_funs" "phex_alpha_i_wll_sep_discretized" 4648 (Plain "Pr_water_return") ["T_wll"]
 false [] false);
 (Site "precomp_funs" "cylinder_alpha_inf" 4725 (Plain "get_ny_dryair") ["T_mean"; "ny"] false []
 false);
 (Site "precomp_funs" "cylinder_alpha_inf" 4726 (Plain "get_lam_dryair") ["T_mean"; "lam"] false []
 false);
 (Site "precomp_funs" "plane_alpha_inf" 4791 (Plain "vert_plane_alpha_inf") ["T_s"; "T_inf";
 "flow_length"] false [] false);
 (Site "precomp_funs" "plane_alpha_inf" 4793 (Plain "hor_plane_alpha_inf") ["T_s"; "T_inf";
 "flow_length"; "top"] false [] false);
 (Site "precomp_funs" "vert_plane_alpha_inf" 4814 (Plain "get_ny_dryair") ["T_mean"; "ny"] false []
 false);
 (Site "precomp_funs" "vert_plane_alpha_inf" 4815 (Plain "get_lam_dryair") ["T_mean"; "lam"] false []
 false);
 (Site "precomp_funs" "vert_plane_alpha_inf" 4831 (Plain "rayleigh_number") ["T_s"; "T_inf"; "Pr";
 "ny"; "Kelvin"; "flow_length"] false [] false);
 (Site "precomp_funs" "hor_plane_alpha_inf" 4865 (Plain "ny_dryair_return") ["T_mean"] false []
 false);
 (Site "precomp_funs" "hor_plane_alpha_inf" 4866 (Plain "lam_dryair_return") ["T_mean"] false []
 false);
 (Site "precomp_funs" "hor_plane_alpha_inf" 4869 (Plain "rayleigh_number") ["T_s"; "T_inf"; "Pr";
 "ny"; "Kelvin"; "flow_length"] false [] false);
 (Site "precomp_funs" "moving_avg_fill_edges" 5405 (Plain "fill_edges") [""; ""] false [] false);
 (Site "precomp_funs" "moving_avg_fill_edges" 5405 (Plain "moving_avg") ["x"; "N"] false [] false);
 (Site "precomp_funs" "chp_startup_el" 5573 (Plain "lim_growth") ["time"; "s"; "b0"; "k"] false []
 false);
 (Site "precomp_funs" "chp_startup_gas" 5600 (Plain "chp_startup_el") ["time"] false [] false);
 (Site "precomp_funs" "chp_startup_gas" 5600 (Plain "chp_startup_th") ["time"] false [] false);
 (Site "precomp_funs" "chp_thermal_power" 5635 (Plain "lim_growth") ["modulation"; "s"; "b0"; "k"]
 false [] false);
 (Site "precomp_funs" "chp_gas_power" 5671 (Plain "lim_growth") ["modulation"; "s"; "b0"; "k"] false
 [] false);
 (Site "precomp_funs" "condensing_hex_quad_poly" 5763 (Plain "transform_to_poly_nb") ["X_pred_bc";
 "int_comb_idx"; "nvars_per_ftr"; "n_samples"] false [] false);
 (Site "precomp_funs" "condensing_hex_quad_poly" 5766 (Plain "transform_pca_nb") ["X_pf_bc";
 "pca_mean"; "pca_components"] false [] false);
 (Site "precomp_funs" "condensing_hex_quad_poly" 5768 (Plain "poly_tranfs_pred") ["X_PC_bc";
 "lm_intercept"; "lm_coef"] false [] false);
 (Site "precomp_funs" "condensing_hex_quad_poly" 5770 (Plain "transform_to_poly_nb") ["X_pred_dx";
 "int_comb_idx"; "nvars_per_ftr"; "n_samples"] false [] false);
 (Site "precomp_funs" "condensing_hex_quad_poly" 5773 (Plain "transform_pca_nb") ["X_pf_dx";
 "pca_mean"; "pca_components"] false [] false);
 (Site "precomp_funs" "condensing_hex_quad_poly" 5775 (Plain "poly_tranfs_pred") ["X_PC_dx";
 "lm_intercept"; "lm_coef"] false [] false);
 (Site "precomp_funs" "condensing_hex_quad_poly" 5780 (Plain "quad_get_b") [] false [("y0", "y0");
 ("a", "y_hat_bc"); ("c", "c")] false);
 (Site "precomp_funs" "condensing_hex_quad_poly" 5781 (Plain "quad_get_c") [] false [("x", "dm_bkp");
 ("dy", "dy"); ("b", "b"); ("c_base", "dm_water_thresh")] false);
 (Site "precomp_funs" "_process_chp_core_modulation" 5950 (Plain "chp_startup_th")
 ["startup_duration"] false [] false);
 (Site "precomp_funs" "_process_chp_core_modulation" 5951 (Plain "chp_startup_el")
 ["startup_duration"] false [] false);
 (Site "precomp_funs" "_process_chp_core_modulation" 5978 (Plain "chp_shutdown_th")
 ["shutdown_duration"] false [] false);
 (Site "precomp_funs" "solve_pred_loop" 6008 (Plain "predictor_step") [""; ""; "h"; ""] false []
 false);
 (Site "simenv" "SimEnv.add_part" 762 (Own "SimEnv" "_check_isadded") [] false [("part", "name");
 ("kind", "")] false);
 (Site "simenv" "SimEnv.add_open_port" 1107 (Own "SimEnv" "_check_isadded") [] false [("part",
 "name"); ("kind", "")] false);
 (Site "simenv" "SimEnv._add_open_port" 1322 (Own "SimEnv" "assign_boundary_cond") [] false
 [("time_series", "tmprtr"); ("open_port", "name")] false);
 (Site "simenv" "SimEnv.add_control" 1625 (Own "SimEnv" "_check_isadded") [] false [("part", "name");
 ("kind", "")] false);
 (Site "simenv" "SimEnv._update_ports" 1688 (Of "_pf" "upd_p_arr") ["ports_all"; "port_ids";
 "values"; "_port_own_idx"] false [] false);
 (Site "simenv" "SimEnv._get_port_connections" 1795 (Own "SimEnv" "_get_arr_idx") ["part"; "port"]
 false [("target", ""); ("as_slice", "")] false);
 (Site "simenv" "SimEnv._get_port_connections" 1799 (Own "SimEnv" "_get_conn_port") [""] false []
 false);
 (Site "simenv" "SimEnv._get_port_connections" 1821 (Own "SimEnv" "_get_arr_idx") ["src_part";
 "src_port"] false [("target", ""); ("as_slice", "")] false);
 (Site "simenv" "SimEnv._get_port_connections" 1873 (Own "SimEnv" "_get_arr_idx") ["part"; "port"]
 false [("target", ""); ("as_slice", "")] false);
 (Site "simenv" "SimEnv._connect_ports" 1967 (Own "SimEnv" "_check_ispart") [] false [("part",
 "first_part")] false);
 (Site "simenv" "SimEnv._connect_ports" 1969 (Own "SimEnv" "_check_ispart") [] false [("part",
 "scnd_part")] false);
 (Site "simenv" "SimEnv._get_topology" 2201 (Plain "_FlowNet") ["self"; "part"] false [("sub_net",
 "")] false);
 (Site "simenv" "SimEnv._get_topology" 2232 (Plain "_FlowNet") ["self"; "part"] false [("sub_net",
 "")] false);
 (Site "simenv" "SimEnv._get_topology" 2267 (Plain "_FlowNet") ["self"; "part"] false [("sub_net",
 "")] false);
 (Site "simenv" "SimEnv._recursive_topology" 2407 (Own "SimEnv" "_get_flow_routine") ["port"] false
 [("subnet", "")] true);
 (Site "simenv" "SimEnv._recursive_topology" 2417 (Own "SimEnv" "_get_flow_routine") ["port"] false
 [("subnet", "")] true);
 (Site "simenv" "SimEnv._recursive_topology" 2433 (Own "SimEnv" "_get_flow_routine") ["port"] false
 [("subnet", "sub_net")] true);
 (Site "simenv" "SimEnv._recursive_topology" 2449 (Own "SimEnv" "_get_flow_routine") ["port"] false
 [("subnet", "sub_net")] true);
 (Site "simenv" "SimEnv._massflow_idx_from_temp_idx" 3385 (Own "SimEnv" "_check_isinrange") [] false
 [("part", "part"); ("index", "index"); ("target_array", "")] false);
 (Site "simenv" "SimEnv._get_specs_n_props" 3620 (Own "SimEnv" "_get_arr_idx") ["name"; "key"] false
 [("target", ""); ("as_slice", ""); ("cls", "self")] false);
 (Site "simenv" "SimEnv._get_topo_cond" 3761 (Own "SimEnv" "_get_arr_idx") ["name"; "port"; ""] false
 [("as_slice", "")] false);
 (Site "simenv" "SimEnv._get_topo_cond" 3767 (Own "SimEnv" "_get_arr_idx") ["name"; "port"; ""] false
 [("as_slice", ""); ("flat_index", "")] false);
 (Site "simenv" "SimEnv._get_topo_cond" 3782 (Own "SimEnv" "_get_arr_idx") ["src_part"; "src_port";
 ""] false [("as_slice", ""); ("flat_index", "")] false);
 (Site "simenv" "SimEnv._get_topo_cond" 3792 (Own "SimEnv" "_get_arr_idx") ["src_part"; "src_port";
 ""] false [("as_slice", ""); ("flat_index", "")] false);
 (Site "simenv" "SimEnv._heun" 3897 (Own "SimEnv" "_update_ports") [] false [("source", "");
 ("all_ports", ""); ("nnum", "")] false);
 (Site "simenv" "SimEnv._heun" 3898 (Own "SimEnv" "_update_ports") [] false [("source", "");
 ("all_ports", ""); ("nnum", "")] false);
 (Site "simenv" "SimEnv._heun" 3915 (Own "SimEnv" "_update_ports") [] false [("source", "");
 ("all_ports", ""); ("nnum", "")] false);
 (Site "simenv" "SimEnv._heun" 3918 (Own "SimEnv" "_update_ports") [] false [("source", "");
 ("all_ports", ""); ("nnum", "")] false);
 (Site "simenv" "SimEnv._heun_adaptive" 4021 (Of "_pf" "_upddate_ports_interm") [] false
 [("ports_all", "ports_all"); ("trgt_indices", "_ports_trgt_idx"); ("ports_src",
 "_ports_src_interm"); ("source", "")] false);
 (Site "simenv" "SimEnv._heun_adaptive" 4035 (Of "_pf" "_heun_corrector_adapt") [] false [("res",
 "res"); ("T", "T"); ("df0", "_df0"); ("df1", "_df1"); ("trnc_err_cell_weight",
 "_trnc_err_cell_weight"); ("_h", "_h"); ("stepnum", "stepnum"); ("rtol", "rtol"); ("atol", "atol");
 ("err", "err"); ("new_trnc_err", "__new_trnc_err")] false);
 (Site "simenv" "SimEnv._heun_adaptive" 4115 (Of "_pf" "_upddate_ports_result") [] false
 [("ports_all", "ports_all"); ("trgt_indices", "_ports_trgt_idx"); ("ports_src",
 "_ports_src_result"); ("stepnum", "stepnum"); ("src_list", "_ports_src_res_idx")] false);
 (Site "simenv" "SimEnv._call_postponed" 4415 (Own "SimEnv" "_initialize_dynamic_BC") [] false []
 false);
 (Site "simenv" "SimEnv._call_postponed" 4422 (Own "SimEnv" "_check_unconnected_ports") [] false []
 false);
 (Site "simenv" "SimEnv._build_simenv" 4560 (Own "SimEnv" "_call_postponed") [] false [] false);
 (Site "simenv" "SimEnv._build_simenv" 4619 (Own "SimEnv" "_get_topology") [] false [] false);
 (Site "simenv" "SimEnv._initialize_arrays" 4624 (Own "SimEnv" "_update_FlowNet") [] false [] false);
 (Site "simenv" "SimEnv._initialize_arrays" 4628 (Own "SimEnv" "_get_port_connections") [] false []
 false);
 (Site "simenv" "SimEnv._initialize_arrays" 4630 (Own "SimEnv" "_calc_UAwll_port") [] false [] false);
 (Site "simenv" "SimEnv._initialize_arrays" 4738 (Own "SimEnv" "_create_port_updater") [] false []
 false);
 (Site "simenv" "SimEnv._reset_simenv" 4784 (Own "SimEnv" "set_timeframe") [] false [("timeframe",
 "timeframe"); ("adaptive_steps", "adaptive_steps")] true);
 (Site "simenv" "SimEnv._reset_simenv" 4799 (Own "SimEnv" "_initialize_dynamic_BC") [] false []
 false);
 (Site "simenv" "SimEnv.initialize_sim" 4825 (Own "SimEnv" "_build_simenv") [] false [] false);
 (Site "simenv" "SimEnv.initialize_sim" 4828 (Own "SimEnv" "_reset_simenv") [] false [] false);
 (Site "simenv" "SimEnv.initialize_sim" 4831 (Own "SimEnv" "_initialize_arrays") [] false
 [("max_steps_b4_save_to_disk", "_save_every_n_steps")] false);
 (Site "simenv" "SimEnv.initialize_sim" 4836 (Own "SimEnv" "_create_diff_inputs") [] false [] false);
 (Site "simenv" "SimEnv.initialize_sim" 4839 (Own "SimEnv" "_prep_inputs_for_njits") [] false []
 false);
 (Site "simenv" "SimEnv._finalize_sim" 4878 (Own "SimEnv" "_check_memory_address") [] false [] false);
 (Site "simenv" "SimEnv._finalize_sim" 4882 (Own "SimEnv" "_free_memory") [] false [("array_length",
 "")] false);
 (Site "simenv" "SimEnv._finalize_sim" 4924 (Own "SimEnv" "_compress_store") [] false [] false);
 (Site "simenv" "SimEnv._finalize_sim" 4940 (Own "SimEnv" "_crop_results") [] false [] false);
 (Site "simenv" "SimEnv._finalize_sim" 5030 (Own "SimEnv" "_write_report") [] false [] false);
 (Site "simenv" "SimEnv.start_sim" 5065 (Own "SimEnv" "_update_FlowNet") [] false [] false);
 (Site "simenv" "SimEnv.start_sim" 5074 (Own "SimEnv" "_update_control") ["timestep"] false [] false);
 (Site "simenv" "SimEnv.start_sim" 5077 (Own "SimEnv" "_update_dyn_BC") ["time_sim"; "timestep"]
 false [] false);
 (Site "simenv" "SimEnv.start_sim" 5089 (Own "SimEnv" "_free_memory") [] false [] false);
 (Site "simenv" "SimEnv.start_sim" 5133 (Own "SimEnv" "_finalize_sim") [] false [] false);
 (Site "simenv" "SimEnv._check_isport" 5744 (Own "SimEnv" "_check_ispart") [] false [("part",
 "part")] false);
 (Site "simenv" "SimEnv._check_isinrange" 5771 (Own "SimEnv" "_check_ispart") [] false [("part",
 "part")] false);
 (Site "utility_functions" "load_results_by_name" 146 (Plain "load_sim_results") [""] false [("path",
 ""); ("keys", "keys")] false);
 (Site "utility_functions" "adjust_pipes" 529 (Plain "interp_pipe_specs") [] false [("A_i", "");
 ("base_pth", "base_path")] false);
 (Site "utility_functions" "r_squared" 676 (Plain "override") ["tb"; ""] false [] false);
 (Site "utility_functions" "r_squared_adj" 759 (Plain "r_squared") ["y"; "y_hat"] false [] false);
 (Site "utility_functions" "r_squared_adj" 712 (Plain "override") ["tb"; ""] false [] false);
 (Site "utility_functions" "mean_abs_err" 766 (Plain "override") ["tb"; ""] false [] false);
 (Site "utility_functions" "mean_signed_deviation" 786 (Plain "override") ["tb"; ""] false [] false);
 (Site "utility_functions" "mean_squared_err" 807 (Plain "override") ["tb"; ""] false [] false);
 (Site "utility_functions" "rmse" 829 (Plain "mean_squared_err") ["y"; "y_hat"] false [("roll",
 "roll"); ("window", "window"); ("min_periods", "min_periods")] false);
 (Site "utility_functions" "rmse" 826 (Plain "override") ["tb"; ""] false [] false);
 (Site "utility_functions" "cv_rmse" 837 (Plain "rmse") ["y"; "y_hat"] false [("roll", "roll");
 ("window", "window"); ("min_periods", "min_periods")] false);
 (Site "utility_functions" "cv_rmse" 835 (Plain "override") ["tb"; ""] false [] false);
 (Site "utility_functions" "normalized_err" 842 (Plain "override") ["tb"; ""] false [] false);
 (Site "utility_functions" "Meters.heat_meter" 2571 (Plain "_rho_water") ["values"] false [] false);
 (Site "utility_functions" "Meters.heat_meter" 2591 (Plain "_rho_water") ["values"] false [] false);
 (Site "utility_functions" "Meters.heat_meter" 2598 (Plain "_cp_water") ["values"] false [] false);
 (Site "utility_functions" "Meters.heat_meter" 2598 (Plain "_cp_water") ["values"] false [] false);
 (Site "utility_functions" "Meters.heat_meter" 2623 (Plain "process_unevenly_spaced_timeseries") []
 false [("data", "df"); ("freq", "freq"); ("how", "how")] false);
 (Site "utility_functions" "Meters.heat_meter" 2628 (Own "Meters" "_resample_meter") ["df"] false []
 false);
 (Site "utility_functions" "Meters.heat_meter" 2642 (Own "Meters" "_save_to_disk") ["name"; "df"]
 false [] false);
 (Site "utility_functions" "Meters.temperature" 2672 (Own "Meters" "_resample_meter") ["df"] false []
 false);
 (Site "utility_functions" "Meters.temperature" 2685 (Own "Meters" "_save_to_disk") ["name"; "df"]
 false [] false);
 (Site "utility_functions" "Meters.massflow" 2712 (Own "Meters" "_resample_meter") ["df"] false []
 false);
 (Site "utility_functions" "Meters.massflow" 2725 (Own "Meters" "_save_to_disk") ["name"; "df"] false
 [] false);
 (Site "utility_functions" "Meters.volumeflow" 2749 (Plain "_rho_water") [""] false [] false);
 (Site "utility_functions" "Meters.volumeflow" 2754 (Own "Meters" "_resample_meter") ["df"] false []
 false);
 (Site "utility_functions" "Meters.volumeflow" 2767 (Own "Meters" "_save_to_disk") ["name"; "df"]
 false [] false);
 (Site "utility_functions" "fit_time_series" 2881 (Plain "is_evenly_spaced") ["pred"] false
 [("return_freq", "")] false);
 (Site "utility_functions" "fit_time_series" 2882 (Plain "is_evenly_spaced") ["rlz"] false
 [("return_freq", "")] false);
 (Site "utility_functions" "fit_time_series" 2903 (Plain "process_unevenly_spaced_timeseries") []
 false [("data", "pred"); ("freq", "freq"); ("how", "how")] false);
 (Site "utility_functions" "fit_time_series" 2910 (Plain "process_unevenly_spaced_timeseries") []
 false [("data", "rlz"); ("freq", "freq"); ("how", "how")] false);
 (Site "utility_functions" "ts_performance_indicators" 2937 (Plain "fit_time_series") [] false
 [("pred", "pred"); ("rlz", "rlz"); ("resample_uneven", "resample_uneven"); ("freq", "freq"); ("how",
 "how"); ("return_df", "")] false);
 (Site "utility_functions" "plt_prediction_realization" 3134 (Plain "fit_time_series") [] false
 [("pred", "pred"); ("rlz", "rlz"); ("resample_uneven", "resample_uneven"); ("freq", "freq"); ("how",
 "how"); ("return_df", "")] false);
 (Site "utility_functions" "plt_prediction_realization" 3156 (Plain "ts_performance_indicators") []
 false [("pred", ""); ("rlz", ""); ("exclude_zeros", ""); ("exclude_values", ""); ("exclude_range",
 ""); ("resample_uneven", "resample_uneven"); ("freq", "freq_perf"); ("how", "how")] false);
 (Site "utility_functions" "plt_prediction_realization" 3193 (Plain "plot_2d_kde") [] false [("x",
 ""); ("y", ""); ("ax", "ax_pr"); ("cmap", ""); ("line_color", ""); ("errors", "_errs")] true);
 (Site "utility_functions" "plt_prediction_realization" 3203 (Plain "plot_pr_scatter") [""; ""] false
 [("errors", "_errs"); ("plot_every", "plot_every"); ("scttr_kwds", "scttr_kwds"); ("diag_kwds",
 "diag_kwds"); ("err_kwds", "err_kwds"); ("err_loc", "err_loc"); ("legend_kwds", "legend_kwds");
 ("auto_label", "auto_label"); ("sprache", "sprache"); ("err_vals", ""); ("ax", "ax_pr")] false);
 (Site "utility_functions" "plot_pr_scatter" 3388 (Plain "annotate_errors") [] false [("ax", "ax");
 ("y", "y"); ("y_hat", "y_hat"); ("errors", "errors"); ("err_loc", "err_loc"); ("err_vals",
 "err_vals"); ("err_kwds", "err_kwds")] false);
 (Site "utility_functions" "plot_pr_scatter" 3410 (Plain "si_axlabel") ["ax"] false [("label",
 "ylabel")] false);
 (Site "utility_functions" "plot_pr_scatter" 3411 (Plain "si_axlabel") ["ax"] false [("label",
 "xlabel"); ("which", "")] false);
 (Site "utility_functions" "plot_pr_scatter" 3325 (Plain "override") ["tb"; ""] false [] false);
 (Site "utility_functions" "plot_2d_kde" 3505 (Plain "annotate_errors") [] false [("ax", "ax"); ("y",
 "x"); ("y_hat", "y"); ("errors", "errors"); ("err_kwds", "err_kwds")] false);
 (Site "utility_functions" "plot_2d_kde" 3419 (Plain "override") ["tb"; ""] false [] false);
 (Site "utility_functions" "annotate_errors" 3531 (Plain "r_squared") ["y"; "y_hat"] false [] false);
 (Site "utility_functions" "annotate_errors" 3537 (Plain "mean_squared_err") ["y"; "y_hat"] false []
 false);
 (Site "utility_functions" "annotate_errors" 3543 (Plain "cv_rmse") ["y"; "y_hat"] false [] false);
 (Site "utility_functions" "annotate_errors" 3549 (Plain "normalized_err") ["y"; "y_hat"] false
 [("err_method", ""); ("norm", "")] false);
 (Site "utility_functions" "annotate_errors" 3557 (Plain "annotate_axes") ["ax"] false
 [("annotations", ""); ("loc", "err_loc"); ("fontsize", "fontsize")] true);
 (Site "utility_functions" "annotate_errors" 3510 (Plain "override") ["tb"; ""] false [] false);
 (Site "utility_functions" "si_axlabel" 3562 (Plain "override") ["tb"; ""] false [] false);
 (Site "utility_functions" "annotate_axes" 3700 (Plain "override") ["tb"; ""] false [] false);
 (Site "utility_functions" "opt_control.simenv_wrapper" 3886 (Plain "Meters") [] false [("simenv",
 "simenv"); ("start_time", "")] false);
 (Site "utility_functions" "opt_control.simenv_wrapper" 3889 (Plain
 "process_unevenly_spaced_timeseries") [] false [("data", ""); ("freq", ""); ("how", "")] false)].

Definition uses : list use := [
 (Use_of "_utility/plotting" "annotate_errors" 733 "_sem" "r_squared");
 (Use_of "_utility/plotting" "annotate_errors" 739 "_sem" "mean_squared_err");
 (Use_of "_utility/plotting" "annotate_errors" 745 "_sem" "cv_rmse");
 (Use_of "_utility/plotting" "annotate_errors" 751 "_sem" "normalized_err");
 (Use_of "parts/chp_plant" "CHPPlant.__init__" 161 "_pf" "chp_thermal_power");
 (Use_of "parts/chp_plant" "CHPPlant.__init__" 177 "_pf" "chp_gas_power");
 (Use_of "parts/chp_plant" "CHPPlant.__init__" 444 "_pf" "chp_startup_th");
 (Use_of "parts/chp_plant" "CHPPlant.init_part" 558 "_pf" "chp_gas_power");
 (Use_of "parts/chp_plant" "CHPPlant.get_diff" 803 "_pf" "chp_startup_th");
 (Use_of "parts/chp_plant" "CHPPlant.get_diff" 806 "_pf" "chp_startup_el");
 (Use_of "parts/chp_plant" "CHPPlant.get_diff" 809 "_pf" "chp_startup_gas");
 (Use_of "parts/chp_plant" "CHPPlant.get_diff" 849 "_pf" "chp_shutdown_th");
 (Use_of "parts/chp_plant" "CHPPlant.get_diff" 860 "_pf" "chp_thermal_power");
 (Use_of "parts/chp_plant" "CHPPlant.get_diff" 877 "_pf" "chp_gas_power");
 (Use_of "parts/chp_plant" "CHPPlant.get_diff" 900 "_pf" "_process_flow_invar");
 (Use_of "parts/chp_plant" "CHPPlant.get_diff" 910 "_pf" "water_mat_props_ext_view");
 (Use_of "parts/chp_plant" "CHPPlant.get_diff" 919 "_pf" "_lambda_mean_view");
 (Use_of "parts/chp_plant" "CHPPlant.get_diff" 921 "_pf" "UA_plate_tb");
 (Use_of "parts/chp_plant" "CHPPlant.get_diff" 933 "_pf" "surface_temp_steady_state_inplace");
 (Use_of "parts/chp_plant" "CHPPlant.get_diff" 942 "_pf" "pipe_alpha_i");
 (Use_of "parts/chp_plant" "CHPPlant.get_diff" 954 "_pf" "cylinder_alpha_inf");
 (Use_of "parts/chp_plant" "CHPPlant.get_diff" 963 "_pf" "UA_fld_wll_ins_amb_cyl");
 (Use_of "parts/chp_plant" "CHPPlant.get_diff" 976 "_pf" "cell_temp_props_ext");
 (Use_of "parts/chp_plant" "CHPPlant.get_diff" 987 "_pf" "_process_ports_collapsed");
 (Use_of "parts/chp_plant" "CHPPlant.get_diff" 1008 "_pf" "_vonNeumann_stability_invar");
 (Use_of "parts/controllers" "ModelPredCHP._tes_heat_content" 1662 "_pf" "cp_water");
 (Use_of "parts/controllers" "ModelPredCHP._tes_heat_content" 1662 "_pf" "cp_water");
 (Use_of "parts/controllers" "ModelPredCHP._tes_heat_content" 1664 "_pf" "rho_water");
 (Use_of "parts/controllers" "ModelPredCHP._tes_heat_content" 1664 "_pf" "rho_water");
 (Use_of "parts/heatexchanger" "HeatExchanger.find_Reynolds_correction" 979 "_pf" "get_lambda_water");
 (Use_of "parts/heatexchanger" "HeatExchanger.find_Reynolds_correction" 980 "_pf" "get_cp_water");
 (Use_of "parts/heatexchanger" "HeatExchanger.find_Reynolds_correction" 981 "_pf" "get_rho_water");
 (Use_of "parts/heatexchanger" "HeatExchanger.find_Reynolds_correction" 982 "_pf" "get_ny_water");
 (Use_of "parts/heatexchanger" "HeatExchanger.find_Reynolds_correction.alpha_wrapper" 998 "_pf" "phex_alpha_i_wll_sep");
 (Use_of "parts/heatexchanger" "HeatExchanger.solve" 1144 "_pf" "solve_platehex");
 (Use_of "parts/hex_num" "HexNum.find_reynolds_correction" 1144 "_pf" "get_lambda_water");
 (Use_of "parts/hex_num" "HexNum.find_reynolds_correction" 1145 "_pf" "get_cp_water");
 (Use_of "parts/hex_num" "HexNum.find_reynolds_correction" 1146 "_pf" "get_rho_water");
 (Use_of "parts/hex_num" "HexNum.find_reynolds_correction" 1147 "_pf" "get_ny_water");
 (Use_of "parts/hex_num" "HexNum.find_reynolds_correction.alpha_wrapper" 1166 "_pf" "phex_alpha_i_wll_sep");
 (Use_of "parts/hex_num" "HexNum.get_diff" 1316 "_pf" "hexnum_diff");
 (Use_of "parts/hex_num" "HexNum.get_diff_impl_ext" 1325 "_pf" "_process_flow_multi_flow");
 (Use_of "parts/hex_num" "HexNum.get_diff_impl_ext" 1337 "_pf" "water_mat_props_ext_view");
 (Use_of "parts/hex_num" "HexNum.get_diff_impl_ext" 1345 "_pf" "_lambda_mean_view");
 (Use_of "parts/hex_num" "HexNum.get_diff_impl_ext" 1347 "_pf" "UA_plate_tb_fld");
 (Use_of "parts/hex_num" "HexNum.get_diff_impl_ext" 1354 "_pf" "UA_plate_tb_wll");
 (Use_of "parts/hex_num" "HexNum.get_diff_impl_ext" 1361 "_pf" "phex_alpha_i_wll_sep_discretized");
 (Use_of "parts/hex_num" "HexNum.get_diff_impl_ext" 1374 "_pf" "phex_alpha_i_wll_sep_discretized");
 (Use_of "parts/hex_num" "HexNum.get_diff_impl_ext" 1388 "_pf" "UA_fld_wll_plate");
 (Use_of "parts/hex_num" "HexNum.get_diff_impl_ext" 1395 "_pf" "cell_temp_props_fld");
 (Use_of "parts/hex_num" "HexNum.get_diff_impl_ext" 1405 "_pf" "specific_inner_energy_wll");
 (Use_of "parts/hex_num" "HexNum.get_diff_impl_ext" 1409 "_pf" "_process_ports_collapsed");
 (Use_of "parts/hex_num" "HexNum.get_diff_impl" 1481 "_pf" "_process_flow_multi_flow");
 (Use_of "parts/hex_num" "HexNum.get_diff_impl" 1493 "_pf" "water_mat_props_ext_view");
 (Use_of "parts/hex_num" "HexNum.get_diff_impl" 1501 "_pf" "_lambda_mean_view");
 (Use_of "parts/hex_num" "HexNum.get_diff_impl" 1503 "_pf" "UA_plate_tb_fld");
 (Use_of "parts/hex_num" "HexNum.get_diff_impl" 1510 "_pf" "UA_plate_tb_wll");
 (Use_of "parts/hex_num" "HexNum.get_diff_impl" 1517 "_pf" "phex_alpha_i_wll_sep_discretized");
 (Use_of "parts/hex_num" "HexNum.get_diff_impl" 1530 "_pf" "phex_alpha_i_wll_sep_discretized");
 (Use_of "parts/hex_num" "HexNum.get_diff_impl" 1544 "_pf" "UA_fld_wll_plate");
 (Use_of "parts/hex_num" "HexNum.get_diff_impl" 1551 "_pf" "cell_temp_props_fld");
 (Use_of "parts/hex_num" "HexNum.get_diff_impl" 1561 "_pf" "specific_inner_energy_wll");
 (Use_of "parts/hex_num" "HexNum.get_diff_impl" 1565 "_pf" "_process_ports_collapsed");
 (Use_of "parts/mixingvalve" "MixingValve.solve" 661 "_pf" "solve_mix");
 (Use_of "parts/mixingvalve" "MixingValve.solve" 669 "_pf" "solve_split");
 (Use_of "parts/part_modules/chp_with_fluegas_hex" "add_chp_with_fghex" 100 "_ut" "adjust_pipes");
 (Use_of "parts/part_modules/chp_with_fluegas_hex" "add_chp_with_fghex" 107 "_ap" "CHPPlant");
 (Use_of "parts/part_modules/chp_with_fluegas_hex" "add_chp_with_fghex" 122 "_ap" "PipeWithPump");
 (Use_of "parts/part_modules/chp_with_fluegas_hex" "add_chp_with_fghex" 159 "_ap" "PipeWith3wValve");
 (Use_of "parts/part_modules/chp_with_fluegas_hex" "add_chp_with_fghex" 183 "_ap" "Pipe");
 (Use_of "parts/part_modules/chp_with_fluegas_hex" "add_chp_with_fghex" 198 "_ap" "PipeWith3wValve");
 (Use_of "parts/part_modules/chp_with_fluegas_hex" "add_chp_with_fghex" 228 "_ap" "Pipe");
 (Use_of "parts/part_modules/chp_with_fluegas_hex" "add_chp_with_fghex" 247 "_ap" "HEXCondPoly");
 (Use_of "parts/part_modules/chp_with_fluegas_hex" "add_chp_with_fghex" 322 "_ap" "PipeWith3wValve");
 (Use_of "parts/part_modules/chp_with_fluegas_hex" "add_chp_with_fghex" 346 "_ap" "Pipe");
 (Use_of "parts/part_modules/chp_with_fluegas_hex" "add_chp_with_fghex" 360 "_ap" "Pipe");
 (Use_of "parts/part_modules/chp_with_fluegas_hex" "add_chp_with_fghex" 380 "_ap" "HEXCondPoly");
 (Use_of "parts/part_modules/chp_with_fluegas_hex" "add_chp_with_fghex" 448 "_ap" "Pipe");
 (Use_of "parts/part_modules/chp_with_fluegas_hex" "add_chp_with_fghex" 467 "_ap" "Pipe");
 (Use_of "parts/part_modules/chp_with_fluegas_hex" "add_chp_with_fghex" 480 "_ap" "HEXCondPoly");
 (Use_of "parts/part_modules/chp_with_fluegas_hex" "add_chp_with_fghex" 550 "_ap" "TwoSensors");
 (Use_of "parts/part_modules/chp_with_fluegas_hex" "add_chp_with_fghex" 583 "_ap" "PID");
 (Use_of "parts/part_modules/chp_with_fluegas_hex" "add_chp_with_fghex" 617 "_ap" "PID");
 (Use_of "parts/part_modules/chp_with_fluegas_hex" "add_chp_with_fghex" 653 "_ap" "PID");
 (Use_of "parts/part_modules/chp_with_fluegas_hex" "add_chp_with_fghex" 680 "_ap" "PID");
 (Use_of "parts/part_modules/chp_with_fluegas_hex" "add_chp_with_fghex" 718 "_ap" "PID");
 (Use_of "parts/part_modules/chp_with_fluegas_hex" "add_chp_with_fghex" 743 "_ap" "PID");
 (Use_of "parts/part_modules/consumers" "lowex_phwrc" 118 "_ut" "adjust_pipes");
 (Use_of "parts/part_modules/consumers" "lowex_phwrc" 123 "_ut" "database_import");
 (Use_of "parts/part_modules/consumers" "lowex_phwrc" 127 "_msp" "PipeWith3wValve");
 (Use_of "parts/part_modules/consumers" "lowex_phwrc" 151 "_msp" "PipeBranched");
 (Use_of "parts/part_modules/consumers" "lowex_phwrc" 173 "_msp" "PipeWithPump");
 (Use_of "parts/part_modules/consumers" "lowex_phwrc" 197 "_msp" "PipeWithPump");
 (Use_of "parts/part_modules/consumers" "lowex_phwrc" 225 "_msp" "HexNum");
 (Use_of "parts/part_modules/consumers" "lowex_phwrc" 241 "_pf" "hexnum_imp_root_diff");
 (Use_of "parts/part_modules/consumers" "lowex_phwrc" 251 "_msp" "HeatExchanger");
 (Use_of "parts/part_modules/consumers" "lowex_phwrc" 276 "_msp" "PipeBranched");
 (Use_of "parts/part_modules/consumers" "lowex_phwrc" 303 "_msp" "Pipe");
 (Use_of "parts/part_modules/consumers" "lowex_phwrc" 329 "_msp" "Pipe");
 (Use_of "parts/part_modules/consumers" "lowex_phwrc" 357 "_msp" "Pipe");
 (Use_of "parts/part_modules/consumers" "lowex_phwrc" 377 "_msp" "PipeBranched");
 (Use_of "parts/part_modules/consumers" "lowex_phwrc" 415 "_msp" "PipeWithPump");
 (Use_of "parts/part_modules/consumers" "lowex_phwrc" 449 "_msp" "PipeWithPump");
 (Use_of "parts/part_modules/consumers" "lowex_phwrc" 485 "_msp" "PID");
 (Use_of "parts/part_modules/consumers" "lowex_phwrc" 510 "_msp" "PID");
 (Use_of "parts/part_modules/consumers" "lowex_phwrc" 545 "_msp" "PID");
 (Use_of "parts/part_modules/consumers" "speicherladesys" 729 "_ut" "adjust_pipes");
 (Use_of "parts/part_modules/consumers" "speicherladesys" 734 "_ut" "database_import");
 (Use_of "parts/part_modules/consumers" "speicherladesys" 738 "_msp" "Tes");
 (Use_of "parts/part_modules/consumers" "speicherladesys" 756 "_msp" "PipeWith3wValve");
 (Use_of "parts/part_modules/consumers" "speicherladesys" 781 "_msp" "PipeWithPump");
 (Use_of "parts/part_modules/consumers" "speicherladesys" 806 "_msp" "PipeBranched");
 (Use_of "parts/part_modules/consumers" "speicherladesys" 827 "_msp" "Pipe");
 (Use_of "parts/part_modules/consumers" "speicherladesys" 854 "_msp" "HexNum");
 (Use_of "parts/part_modules/consumers" "speicherladesys" 870 "_pf" "hexnum_imp_root_diff");
 (Use_of "parts/part_modules/consumers" "speicherladesys" 888 "_msp" "Pipe");
 (Use_of "parts/part_modules/consumers" "speicherladesys" 913 "_msp" "PipeWithPump");
 (Use_of "parts/part_modules/consumers" "speicherladesys" 945 "_msp" "Pipe");
 (Use_of "parts/part_modules/consumers" "speicherladesys" 977 "_msp" "PipeWithPump");
 (Use_of "parts/part_modules/consumers" "speicherladesys" 1013 "_msp" "PipeWithPump");
 (Use_of "parts/part_modules/consumers" "speicherladesys" 1049 "_msp" "PID");
 (Use_of "parts/part_modules/consumers" "speicherladesys" 1074 "_msp" "PID");
 (Use_of "parts/part_modules/consumers" "speicherladesys" 1110 "_msp" "PID");
 (Use_of "parts/part_modules/consumers" "space_heating" 1281 "_ut" "adjust_pipes");
 (Use_of "parts/part_modules/consumers" "space_heating" 1287 "_msp" "PipeWithPump");
 (Use_of "parts/part_modules/consumers" "space_heating" 1318 "_msp" "PipeBranched");
 (Use_of "parts/part_modules/consumers" "space_heating" 1353 "_msp" "PipeWith3wValve");
 (Use_of "parts/part_modules/consumers" "space_heating" 1383 "_msp" "PipeWith3wValve");
 (Use_of "parts/part_modules/consumers" "space_heating" 1427 "_msp" "Pipe");
 (Use_of "parts/part_modules/consumers" "space_heating" 1450 "_msp" "HeatedPipe");
 (Use_of "parts/part_modules/consumers" "space_heating" 1482 "_msp" "PID");
 (Use_of "parts/part_modules/consumers" "space_heating" 1508 "_msp" "PID");
 (Use_of "parts/part_modules/consumers" "space_heating" 1535 "_msp" "PID");
 (Use_of "parts/part_modules/suppliers" "chp_with_fghex" 128 "ut" "adjust_pipes");
 (Use_of "parts/part_modules/suppliers" "chp_with_fghex" 143 "msp" "CHPPlant");
 (Use_of "parts/part_modules/suppliers" "chp_with_fghex" 168 "msp" "CHPPlant");
 (Use_of "parts/part_modules/suppliers" "chp_with_fghex" 187 "msp" "PipeWithPump");
 (Use_of "parts/part_modules/suppliers" "chp_with_fghex" 220 "msp" "PipeWith3wValve");
 (Use_of "parts/part_modules/suppliers" "chp_with_fghex" 245 "msp" "Pipe");
 (Use_of "parts/part_modules/suppliers" "chp_with_fghex" 261 "msp" "PipeWith3wValve");
 (Use_of "parts/part_modules/suppliers" "chp_with_fghex" 292 "msp" "Pipe");
 (Use_of "parts/part_modules/suppliers" "chp_with_fghex" 312 "msp" "HEXCondPoly");
 (Use_of "parts/part_modules/suppliers" "chp_with_fghex" 388 "msp" "PipeWith3wValve");
 (Use_of "parts/part_modules/suppliers" "chp_with_fghex" 413 "msp" "Pipe");
 (Use_of "parts/part_modules/suppliers" "chp_with_fghex" 428 "msp" "Pipe");
 (Use_of "parts/part_modules/suppliers" "chp_with_fghex" 449 "msp" "HEXCondPoly");
 (Use_of "parts/part_modules/suppliers" "chp_with_fghex" 518 "msp" "Pipe");
 (Use_of "parts/part_modules/suppliers" "chp_with_fghex" 538 "msp" "Pipe");
 (Use_of "parts/part_modules/suppliers" "chp_with_fghex" 552 "msp" "HEXCondPoly");
 (Use_of "parts/part_modules/suppliers" "chp_with_fghex" 616 "msp" "Pipe");
 (Use_of "parts/part_modules/suppliers" "chp_with_fghex" 659 "msp" "TwoSensors");
 (Use_of "parts/part_modules/suppliers" "chp_with_fghex" 686 "msp" "ModelPredCHP");
 (Use_of "parts/part_modules/suppliers" "chp_with_fghex" 733 "msp" "PID");
 (Use_of "parts/part_modules/suppliers" "chp_with_fghex" 769 "msp" "PID");
 (Use_of "parts/part_modules/suppliers" "chp_with_fghex" 807 "msp" "PID");
 (Use_of "parts/part_modules/suppliers" "chp_with_fghex" 839 "msp" "PID");
 (Use_of "parts/part_modules/suppliers" "chp_with_fghex" 871 "msp" "PID");
 (Use_of "parts/part_modules/suppliers" "chp_with_fghex" 901 "msp" "PID");
 (Use_of "parts/part_modules/suppliers" "gasboiler" 990 "ut" "adjust_pipes");
 (Use_of "parts/part_modules/suppliers" "gasboiler" 998 "msp" "PipeWithPump");
 (Use_of "parts/part_modules/suppliers" "gasboiler" 1023 "msp" "HeatedPipe");
 (Use_of "parts/part_modules/suppliers" "gasboiler" 1049 "msp" "Pipe");
 (Use_of "parts/part_modules/suppliers" "gasboiler" 1083 "msp" "TwoSensors");
 (Use_of "parts/part_modules/suppliers" "gasboiler" 1107 "msp" "PID");
 (Use_of "parts/pipe" "Pipe.__init__" 297 "_pf" "pipe1D_diff");
 (Use_of "parts/pipe" "Pipe.init_part" 426 "_pf" "calc_flow_length");
 (Use_of "parts/pipe" "Pipe.get_diff" 647 "_pf" "pipe1D_diff");
 (Use_of "parts/pipe2D" "Pipe2D.init_part" 421 "_pf" "calc_flow_length");
 (Use_of "parts/pipe2D" "Pipe2D.get_diff" 627 "_pf" "_process_flow_invar");
 (Use_of "parts/pipe2D" "Pipe2D.get_diff" 637 "_pf" "water_mat_props_ext");
 (Use_of "parts/pipe2D" "Pipe2D.get_diff" 647 "_pf" "get_cp_water");
 (Use_of "parts/pipe2D" "Pipe2D.get_diff" 648 "_pf" "get_lambda_water");
 (Use_of "parts/pipe2D" "Pipe2D.get_diff" 690 "_pf" "pipe_alpha_i_wll_sep");
 (Use_of "parts/pipe2D" "Pipe2D.get_diff" 702 "_pf" "UA_fld_wll");
 (Use_of "parts/pipe2D" "Pipe2D.get_diff" 711 "_pf" "UA_wll_ins_amb");
 (Use_of "parts/pump" "Pump.solve" 462 "_pf" "solve_pump");
 (Use_of "parts/tes" "Tes.init_part" 498 "_pf" "calc_flow_length");
 (Use_of "parts/tes" "Tes.init_part" 505 "_pf" "calc_flow_length");
 (Use_of "parts/tes" "Tes.get_diff" 996 "_pf" "tes_diff");
 (Use_of "parts/tes" "Tes._buoyancy" 1077 "_pf" "moving_avg_fill_edges");
 (Use_of "parts/tes" "Tes.buo_Nu" 1218 "_pf" "Pr_water_return");
 (Use_of "parts/tes" "Tes.buo_Nu" 1219 "_pf" "beta_water_return");
 (Use_of "simenv" "SimEnv._update_ports" 1688 "_pf" "upd_p_arr");
 (Use_of "simenv" "SimEnv._heun_adaptive" 4021 "_pf" "_upddate_ports_interm");
 (Use_of "simenv" "SimEnv._heun_adaptive" 4035 "_pf" "_heun_corrector_adapt");
 (Use_of "simenv" "SimEnv._heun_adaptive" 4115 "_pf" "_upddate_ports_result")].

(* multisim/parts/connector_3w.py, line 246 *)
Definition inputs_Connector3w : list string :=
 ["T"; "ports_all"; "_cp_T"; "dm"; "_port_link_idx"; "res"; "stepnum"].

(* multisim/parts/heatexchanger.py, line 468 *)
Definition inputs_HeatExchanger : list string :=
 ["T"; "_T_port"; "_T_mean"; "ports_all"; "res"; "_dm_io"; "_dm_port"; "_cp_mean"; "_lam_mean";
 "_rho_mean"; "_ny_mean"; "_lam_wll"; "_alpha_i"; "_UA_fld_wll"; "_UA_fld_wll_fld"; "_port_own_idx";
 "_port_link_idx"; "A_plate_eff"; "A_channel"; "_d_h"; "_s_plate"; "_cell_dist"; "_num_A";
 "_num_channels_sup"; "_num_channels_dmd"; "_corr_Re"; "stepnum"].

(* multisim/parts/hex_condensing_polynome.py, line 417 *)
Definition inputs_HEXCondPoly : list string :=
 ["T"; "_T_port"; "ports_all"; "res"; "res_dm"; "_dm_io"; "_dm_port"; "_port_own_idx";
 "_port_link_idx"; "_X_pred"; "_flow_scaling"; "_poly_int_comb_idx"; "_poly_nvars_per_ftr";
 "_pca_mean"; "_pca_components"; "_lm_intercept"; "_lm_coef"; "stepnum"].

(* multisim/parts/hex_num.py, line 572 *)
Definition inputs_HexNum : list string :=
 ["_T_ext"; "_T_port"; "_T_amb"; "ports_all"; "_dm_io"; "_dm_top"; "_dm_bot"; "_dm_port"; "res_dm";
 "_cp_T"; "_lam_fld"; "_rho_T"; "_ny_T"; "_lam_mean"; "_cp_port"; "_lam_port_fld"; "_mcp"; "_rhocp";
 "_cp_wll"; "_lam_wll"; "_ui"; "_alpha_i"; "_UA_dim1"; "_UA_dim2"; "_UA_dim1_wll"; "_UA_port";
 "_UA_port_wll"; "_port_own_idx"; "_port_link_idx"; "grid_spacing"; "_port_gsp"; "_port_subs_gsp";
 "_d_h"; "_s_plate"; "_cell_dist"; "_dist_min"; "A_channel"; "V_cell_fld"; "A_plate_eff";
 "_A_p_fld_mean"; "_channel_divisor"; "_corr_Re"; "_process_flows"; "_step_stable"; "part_id";
 "_stability_breaches"; "_vN_max_step"; "_max_factor"; "stepnum"; "dT_cond"; "dT_adv"; "dT_total"].

(* multisim/parts/hex_num.py, line 628: removed when solved implicitly *)
Definition removed_HexNum : list string :=
 ["_port_subs_gsp"; "_step_stable"; "part_id"; "_stability_breaches"; "_vN_max_step"; "_max_factor";
 "timestep"].

(* multisim/parts/mixingvalve.py, line 394 *)
Definition inputs_MixingValve : list string :=
 ["ports_all"; "_port_link_idx"; "_dm_io"; "T"].

(* multisim/parts/pipe.py, line 435 *)
Definition inputs_Pipe : list string :=
 ["_T_ext"; "_T_port"; "_T_s"; "_T_amb"; "ports_all"; "_dm_io"; "_dm_top"; "_dm_bot"; "_dm_port";
 "res_dm"; "_cp_T"; "_lam_T"; "_rho_T"; "_ny_T"; "_lam_mean"; "_cp_port"; "_lam_port_fld"; "_mcp";
 "_rhocp"; "_lam_wll"; "_lam_ins"; "_mcp_wll"; "_ui"; "_alpha_i"; "_alpha_inf"; "_UA_tb";
 "_UA_tb_wll"; "_UA_amb_shell"; "_UA_port"; "_UA_port_wll"; "_port_own_idx"; "_port_link_idx";
 "grid_spacing"; "_port_gsp"; "_port_subs_gsp"; "_d_i"; "_cell_dist"; "_flow_length"; "_r_total";
 "_r_ln_wll"; "_r_ln_ins"; "_r_rins"; "A_cell"; "V_cell"; "_A_shell_i"; "_A_shell_ins";
 "_A_p_fld_mean"; "_process_flows"; "_vertical"; "_step_stable"; "part_id"; "_stability_breaches";
 "_vN_max_step"; "_max_factor"; "stepnum"; "dT_cond"; "dT_adv"; "dT_total"].

(* multisim/parts/pump.py, line 331 *)
Definition inputs_Pump : list string :=
 ["ports_all"; "_port_link_idx"; "T"; "res"; "res_dm"; "dm"; "stepnum"].

(* multisim/parts/tes.py, line 515 *)
Definition inputs_Tes : list string :=
 ["_T_ext"; "_T_port"; "_T_s"; "_T_s_lid"; "_T_amb"; "ports_all"; "_dm_io"; "dm"; "_dm_top";
 "_dm_bot"; "_dm_port"; "res_dm"; "_cp_T"; "_lam_T"; "_rho_T"; "_ny_T"; "_lam_mean"; "_cp_port";
 "_lam_port_fld"; "_mcp"; "_rhocp"; "_lam_wll"; "_lam_ins"; "_mcp_wll"; "_ui"; "_alpha_i";
 "_alpha_inf"; "_UA_tb"; "_UA_tb_wll"; "_UA_amb_shell"; "_UA_amb_lid"; "_UA_port"; "_UA_port_wll";
 "_port_own_idx"; "_port_link_idx"; "grid_spacing"; "_port_gsp"; "_port_subs_gsp"; "_d_i";
 "_cell_dist"; "_flow_length"; "_flow_length_lid"; "_r_total"; "_r_ln_wll"; "_r_ln_ins"; "_r_rins";
 "_s_wll"; "_s_ins"; "A_cell"; "V_cell"; "_A_shell_i"; "_A_shell_ins"; "_A_p_fld_mean";
 "_process_flows"; "_vertical"; "_vertical_lid"; "_lid_top"; "_step_stable"; "part_id";
 "_stability_breaches"; "_vN_max_step"; "_max_factor"; "stepnum"; "dT_cond"; "dT_adv"; "dT_total"].
