(** * Attributes of objects: construction, reads and assignments (generated by
    tools/extract_init.py; representation: MPy.v, attributes of self instead of names). *)
From Coq Require Import List String PArith.
From Verif Require Import MPy.
Import ListNotations.
Local Open Scope string_scope. Local Open Scope positive_scope.


(* multisim/_utility/meters.py, line 17: Meters *)
Definition init_Meters : func := {|
 f_file := "_utility/meters.py"; f_name := "Meters"; f_line := 17;
 f_params := []; f_closure := [];
 f_locals := ["_simenv"; "start_time"; "_resample"; "_resample_freq"; "_time_index"; "_meter_time_index"; "meters"; "_Meters__midx_names"; "meters_df"; "_disk_saving"; "_dstore"];
 f_outer := [];
 f_conds := ["*"; "self._simenv._disk_store['resample']"; "not self._resample"; "self._disk_saving"];
 f_body := Frame (block [Def [1]; Def [2]; Use [1]; Choice 2 (block [Def [3]; Use [1]; Def [4]]) (block [Def
 [3]; Def [4]]); Use [1;2]; Def [5]; Use [3]; Choice 3 (block [Use [5]; Def [6]]) (block [Use [5;4];
 Def [6]]); Def [7]; Use [7]; Def [8]; Use [6]; Def [9]; Use [7;1;9]; Def [10]; Use [10]; Choice 4
 (block [Use [1]; Def [11]]) Skip]) |}.

(* multisim/controls.py, line 30: Controls *)
Definition init_Controls : func := {|
 f_file := "controls.py"; f_name := "Controls"; f_line := 30;
 f_params := ["_process_cv_direct"]; f_closure := [];
 f_locals := ["_base_err"; "_arg_err"; "name"; "_models"; "actuator"; "_process_cv_mode"; "_process_cv_fun"; "_cv_sat_min"; "_cv_sat_max"; "_llim"; "_ulim"; "ctrl_part"; "ctrl_port_id"; "ctrl_port"; "ctrl_part_id"; "pv"; "ref_part"; "ref_port_id"; "ref_port"; "ref_part_id"; "_ref"; "use_ref"; "sp"; "_ref_diff"; "_act_cv_name"; "_act_cv"; "sub_ctrl"; "_master_type"; "master_ctrl"; "_master_act_cv"; "_master_act_offst"; "master_part"; "_master_variable"; "_master_variable_index"; "dependency_kind"; "_concurrent"; "_off_state"; "discrete_time"; "prev_cv"; "error_sum"; "i_term"; "prev_i_term"; "d_term"; "deadtime"; "dt_arr"; "pv_arr"; "len_dt_arr"; "_slope_n"; "_slope_p"; "_slope"; "_invert"; "_steady_state"; "cv"; "error"; "prev_error"; "_prev_deriv"; "_deriv_err"; "_deriv"; "dt_idx"; "last_dt_idx"; "delayed_pv"; "initialized"];
 f_outer := [];
 f_conds := ["*"; "type(name) == str"; "'actuator' in kwargs and kwargs['actuator'] in self._models.parts"; "self._models.parts[self.actuator].is_actuator"; "not self._models.parts[self.actuator].ctrl_defined"; "'process_CV_mode' in kwargs and kwargs['process_CV_mode'] in pcv"; "self._process_cv_mode == 'direct'"; "self._process_cv_mode == 'part_specific'"; "self._process_cv_mode == 'custom'"; "'process_cv_func' in kwargs and callable(kwargs['process_cv_func'])"; "'CV_saturation' in kwargs and isinstance(kwargs['CV_saturation'], (list, tuple)) and is..."; "self._cv_sat_min < self._cv_sat_max"; "hasattr(self._models.parts[self.actuator], '_llim') and hasattr(self._models.parts[self..."; "'controlled_part' in kwargs"; "'controlled_port' in kwargs"; "given_part in self._models.parts"; "type(given_port) == str"; "type(given_port) == int"; "0 <= given_port < self._models.parts[given_part].T.shape[0] or -self._models.parts[give..."; "given_port > -1"; "type(given_port) != int"; "'reference_part' in kwargs and (kwargs['reference_part'] == 'none' or kwargs['reference..."; "not kwargs['reference_part'] == 'none'"; "'reference_port' in kwargs and isinstance(kwargs['reference_port'], (str, int))"; "'reference_part' in kwargs"; "self.ref_part == 'none' and self._process_cv_mode != 'linked'"; "'setpoint' in kwargs and isinstance(kwargs['setpoint'], (int, float))"; "self._process_cv_mode != 'linked'"; "'ref_SP_diff' in kwargs and isinstance(kwargs['ref_SP_diff'], (int, float))"; "self._models.parts[self.actuator].actuator_special and self._process_cv_mode != 'linked'"; "self._process_cv_mode == 'linked'"; "self.ref_part != 'none'"; "self._models.parts[self.actuator].constr_type == self._models.parts[self.ref_part].cons..."; "controls.actuator == self.ref_part"; "controls._process_cv_mode == 'direct'"; "controls._process_cv_mode == 'part_specific' or controls._process_cv_mode == 'custom'"; "not found"; "'sub_controller' in kwargs and type(kwargs['sub_controller']) == bool"; "self.sub_ctrl"; "'master_type' in kwargs and type(kwargs['master_type']) == str and (kwargs['master_type..."; "self._master_type == 'controller'"; "'master_controller' in kwargs and kwargs['master_controller'] in self._models.ctrls"; "'master_part' in kwargs and kwargs['master_part'] in self._models.parts"; "'master_variable' in kwargs"; "hasattr(self._models.parts[self.master_part], kwargs['master_variable'])"; "kwargs['master_variable'] == 'dm'"; "self._models.parts[self.master_part].constr_type in ('PipeWithPump', 'PPump')"; "'master_variable_index' in kwargs and isinstance(kwargs['master_variable_index'], int)"; "0 <= self._master_variable_index < getattr(self._models.parts[self.master_part], self._..."; "'dependency_kind' in kwargs and type(kwargs['dependency_kind']) == str and (kwargs['dep..."; "self.dependency_kind == 'concurrent'"; "'off_state' in kwargs and isinstance(kwargs['off_state'], (int, float))"; "'time_domain' in kwargs and kwargs['time_domain'] in ['discrete', 'continuous']"; "kwargs['time_domain'] == 'discrete'"; "kwargs['time_domain'] == 'continuous'"; "'deadtime' in kwargs and isinstance(kwargs['deadtime'], (int, float)) and (kwargs['dead..."; "'slope' in kwargs and type(kwargs['slope']) == tuple and (len(kwargs['slope']) == 2) an..."; "self._slope_n == 0.0 and self._slope_p == 0.0"; "self._slope_n < 0.0 < self._slope_p"; "'invert' in kwargs and isinstance(kwargs['invert'], bool)"; "not kwargs['invert']"; "'steady_state' in kwargs"];
 f_body := Frame (block [Def [2]; Def [3]; Choice 2 Skip (Raise); Def [4]; Def [5]; Choice 1 Skip (Use [5]);
 Choice 3 Skip (block [Use [5]; Raise]); Def [6]; Use [5;6]; Choice 4 Skip (block [Use [6]; Raise]);
 Use [6;5]; Choice 5 Skip (Raise); Choice 6 Skip (Raise); Def [7]; Use [7]; Choice 7 (block [Use [1];
 Def [8]]) (block [Use [7]; Choice 8 (block [Use [5;6]; Def [8]]) (block [Use [7]; Choice 9 (block
 [Choice 10 Skip (Raise); Def [8]]) Skip])]); Use [2;3]; Choice 11 Skip (Raise); Def [9]; Def [10];
 Use [9;10]; Choice 12 Skip (Raise); Use [6;5]; Choice 1 Skip (Use [5;6]); Choice 13 Skip (Raise);
 Use [5;6]; Def [11]; Use [5;6]; Def [12]; Choice 14 Skip (Raise); Choice 15 Skip (Raise); Frame
 (block [Use [4;6]; Choice 14 Skip (Raise); Use [6;5]; Choice 16 Skip (Raise); Choice 17 (Try (Use
 [5]) (block [Use [6;4;5]; Raise]) Skip) (Choice 18 (block [Use [6;4;5]; Choice 1 Skip (Use [5]);
 Choice 19 Skip (Raise); Choice 20 Skip (Use [5])]) (Choice 21 (block [Use [6;4]; Raise]) Skip));
 Return]); Def [13]; Def [14]; Def [15]; Use [5;13]; Def [16]; Use [5;13;14]; Def [17]; Choice 1 Skip
 (Choice 1 Skip (Use [5])); Choice 22 Skip (Raise); Choice 23 (block [Choice 24 Skip (Raise); Frame
 (block [Use [4;6]; Choice 25 Skip (Raise); Use [6;5]; Choice 16 Skip (Raise); Choice 17 (Try (Use
 [5]) (block [Use [6;4;5]; Raise]) Skip) (Choice 18 (block [Use [6;4;5]; Choice 1 Skip (Use [5]);
 Choice 19 Skip (Raise); Choice 20 Skip (Use [5])]) (Choice 21 (block [Use [6;4]; Raise]) Skip));
 Return]); Def [18]; Def [19]; Def [20]; Use [5;18]; Def [21]; Use [5;18;19]; Def [22]; Def [23]])
 (block [Def [18]; Def [20]; Def [23]]); Use [18]; Choice 1 Skip (Use [7]); Choice 26 (block [Choice
 27 Skip (Raise); Def [24]]) (block [Use [7]; Choice 28 (block [Use [18]; Choice 29 Skip (Raise); Def
 [25]]) Skip]); Use [5;6]; Choice 1 Skip (Use [7]); Choice 30 (Use [6]) (block [Use [7]; Choice 31
 (block [Use [18]; Choice 32 Skip (Raise); Use [5;6;18]; Choice 33 Skip (block [Use [6;18]; Raise]);
 Use [5]; Loop false (block [Use [18]; Choice 34 (block [Choice 35 (block [Def [26]; Raise; Use
 [5;18;26;6]]) (Choice 36 (block [Def [26]; Try (block [Use []; Raise; Use [5;18;6;26]]) (Raise)
 Skip]) Skip); Break]) Skip]) Skip; Choice 37 (Use [18]) Skip]) Skip]); Use [5;6]; Def [26]; Use
 [5;6]; Def [27]; Choice 38 Skip (Raise); Def [28]; Use [28]; Choice 39 (block [Choice 40 Skip
 (Raise); Def [29]; Use [29]; Choice 41 (block [Use [4;5]; Choice 1 Skip (Use [5]); Choice 42 Skip
 (Raise); Def [30]; Use [5;30]; Def [31]; Use [5;30]; Def [32]]) (block [Use [4;5]; Choice 1 Skip
 (Use [5]); Choice 43 Skip (Raise); Def [33]; Use [33;4]; Choice 44 Skip (Raise); Use [5;33]; Choice
 45 Skip (block [Use [33]; Raise]); Choice 46 (block [Use [5;33]; Choice 47 Skip (Raise)]) Skip; Def
 [34]; Choice 48 Skip (Raise); Def [35]; Use [35;5;33;34]; Choice 1 Skip (Use [35]); Choice 49 Skip
 (Raise); Use [5;33;34;35]; Def [31]; Def [32]]); Use [4]; Choice 50 Skip (Raise); Def [36]; Use
 [36]; Choice 51 (Def [37]) (Def [37])]) Skip; Choice 52 Skip (Raise); Def [38]; Choice 53 Skip
 (Raise); Choice 54 (block [Def [39]; Def [40]]) (Choice 55 (block [Def [39]; Def [41]; Def [42]; Def
 [43]; Def [44]]) Skip); Choice 56 Skip (Raise); Def [45]; Use [45]; Def [46]; Use [46]; Def [47];
 Use [46]; Def [48]; Choice 57 Skip (Raise); Def [49]; Def [50]; Use [49]; Choice 1 Skip (Use [50]);
 Choice 58 (Def [51]) (block [Def [51]; Use [49;50]; Choice 59 Skip (Raise)]); Choice 60 Skip
 (Raise); Def [52]; Choice 62 (Def [53]) (Def [53]); Def [54]; Def [55]; Def [56]; Def [57]; Def
 [58]; Def [59]; Def [60]; Def [61]; Def [62]; Use [5;6]; Def [63]]) |}.

(* multisim/flownet.py, line 11: FlowNet *)
Definition init_FlowNet : func := {|
 f_file := "flownet.py"; f_name := "FlowNet"; f_line := 11;
 f_params := []; f_closure := [];
 f_locals := ["net_type"; "parent_pump"; "parent_part"; "dm_parent"; "dm_topo"];
 f_outer := [];
 f_conds := ["*"; "not sub_net"; "sub_net"];
 f_body := Frame (block [Choice 2 (block [Def [1]; Def [2]]) (Choice 3 (block [Def [1]; Def [3]]) Skip); Def
 [4]; Def [5]]) |}.

(* multisim/parts/chp_plant.py, line 47: CHPPlant *)
Definition init_CHPPlant : func := {|
 f_file := "parts/chp_plant.py"; f_name := "CHPPlant"; f_line := 47;
 f_params := []; f_closure := [];
 f_locals := ["constr_type"; "_models"; "_aae"; "_base_err"; "_arg_err"; "length"; "num_gp"; "name"; "part_id"; "_tiny"; "grid_spacing"; "_cell_dist"; "_T_ext"; "T"; "_T_top"; "_T_bot"; "_T_port"; "_T_s"; "_lam_T"; "_lam_mean"; "_alpha_i"; "_alpha_inf"; "_cp_T"; "_cp_top"; "_cp_bot"; "_cp_port"; "_rho_T"; "_rhocp"; "_ny_T"; "_ui"; "_mcp"; "_UA_tb"; "_UA_port"; "_UA_amb_shell"; "dm"; "_dm_top"; "_dm_bot"; "_dm_port"; "_dm_io"; "res"; "res_dm"; "dT_cond"; "dT_adv"; "dT_total"; "port_num"; "_port_own_idx"; "_port_own_idx_2D"; "port_ids"; "port_names"; "dm_char"; "_own_ports"; "_port_vals"; "_A_wll_conn_p"; "_A_fld_conn_p"; "_A_p_wll_mean"; "_A_p_fld_mean"; "_port_gsp"; "_lam_wll_conn_p"; "_lam_port_fld"; "_lam_fld_own_p"; "_UA_port_fld"; "_UA_port_wll"; "_solved_ports"; "_vN_diff"; "_trnc_err"; "_trnc_err_cell_weight"; "_stability_breaches"; "solve_numeric"; "solve_explicitly"; "collapse_arrays"; "_collapsed"; "can_add_ports"; "_use_structuredarray"; "hydr_comp"; "_flow_net_parent"; "break_topology"; "_cnt_open_prts"; "_port_heatcond"; "affect_dm"; "dm_invariant"; "multiple_flows"; "_process_flows"; "is_actuator"; "control_req"; "enlarged_memview"; "plot_special"; "initialized"; "_memadd_T"; "info_topology"; "_diff_fully_njit"; "_diff_njit"; "chp_power_el"; "p2h_ratio"; "_p2h_base"; "_p2h_ratio"; "eta_el"; "_eta_el_base"; "_eta_el_fac"; "eta_th"; "chp_power_th"; "chp_power_gas"; "_mod_range"; "_mod_lower"; "_mod_upper"; "_max_ramp_el"; "_max_ramp_th"; "_min_off_time"; "_min_on_time"; "_T_chp_in_max"; "_T_chp_in_max_emrgncy"; "_dQ_heating"; "res_dQ"; "_Pel"; "res_Pel"; "_Pgas"; "res_Pgas"; "_chp_on"; "_chp_state"; "_shutdown_in_progress"; "_startup_duration"; "_off_duration"; "_startup_at_time"; "_shutdown_at_time"; "_remaining_heat"; "_power_modulation"; "_dt_time_temp_exc"; "_max_temp_exc_time"; "_startup_factor_el"; "_startup_factor_th"; "_startup_factor_gas"; "_startup_in_progress"; "_shutdown_duration"; "_bin_pow_fac"; "_shutdown_factor_th"; "_last_dQ"; "_chp_on_perc"; "_chp_off_perc"; "_pth_power_factor"; "_pel_power_factor"; "dT_heat"; "_T_chp_in"; "_actuator_CV"; "_actuator_CV_name"; "_unit"; "actuator_special"; "ctrl_defined"; "_heat_spread"; "_heat_mult"; "_heated_cells"; "_num_heated_cells"; "_dT_heated"; "_mcp_heated"; "_lims"; "_llim"; "_ulim"; "_tsteps_startup"; "_startuptsteps"];
 f_outer := [];
 f_conds := ["*"; "'constr_type' not in kwargs"; "ks_ in kwd_args"; "not in_kwds"; "len(argerrs) >= 1"; "isinstance(kwargs['length'], (int, float)) and kwargs['length'] > 0"; "isinstance(kwargs['grid_points'], int) and kwargs['grid_points'] > 0"; "self.dm_invariant"; "not hasattr(self, 'info_topology')"; "not self._models.suppress_printing"; "dflt_val == locals()[dflt_nm]"; "dflt_val is not None"; "not master_cls.suppress_printing"; "isinstance(kwds['power_electrical'], (int, float)) and kwds['power_electrical'] > 0.0"; "isinstance(kwds['p2h_ratio'], float) and 0.0 < kwds['p2h_ratio'] < 1.0"; "isinstance(kwds['eta_el'], float) and 0.0 < kwds['eta_el'] < 1.0"; "'eta_sum' not in kwds"; "self.eta_el + self.eta_th <= eta_sum"; "isinstance(kwds['eta_sum'], (int, float)) and kwds['eta_sum'] > 0"; "self.eta_el + self.eta_th < kwds['eta_sum']"; "isinstance(kwds['modulation_range'], (tuple, list))"; "isinstance(self._mod_lower, (int, float)) and 0 < self._mod_lower <= 1"; "isinstance(self._mod_upper, (int, float)) and 0 < self._mod_upper <= 1 and (self._mod_l..."; "isinstance(kwds['max_slope_el'], float) and 0 < kwds['max_slope_el'] <= 1"; "isinstance(kwds['min_off_time'], (int, float)) and 0 < kwds['min_off_time']"; "isinstance(kwds['min_on_time'], (int, float)) and 0 < kwds['min_on_time']"; "not chp_on_at_start"; "kwds['heat_spread'] in ['all', 'single', 'range']"; "self._heat_spread == 'all'"; "self._heat_spread == 'single'"; "'heated_cells' in kwds and type(kwds['heated_cells']) == int and (0 <= kwds['heated_cel..."; "'heated_cells' in kwds and isinstance(kwds['heated_cells'], (list, tuple)) and (len(kwd..."; "start < end and start >= 0 and (end < self.num_gp)"; "0 <= self._lims[0] < self._lims[1]"];
 f_body := Frame (block [Def [1]; Use [1]; Frame (block [Def [2]; Choice 2 (Def [1]) (Def [1]); Def [3]; Use
 [1;3]; Frame (block [Loop false (Loop false Skip Skip) Skip; Choice 5 (Raise) Skip]); Use [1]; Def
 [4]; Def [5]; Choice 6 Skip (block [Use [4;5;3]; Raise]); Def [6]; Choice 7 Skip (block [Use
 [4;5;3]; Raise]); Def [7]; Def [8]; Use [2]; Def [9]; Use [2]; Def [10]; Use [6;7]; Def [11]; Use
 [11;6]; Def [12]; Use [7]; Def [13]; Use [13]; Def [14]; Use [14;13]; Def [15]; Use [13]; Def [16];
 Def [17]; Use [17]; Def [18]; Use [7]; Def [19]; Use [7]; Def [20]; Use [19]; Def [21]; Use [19];
 Def [22]; Use [7]; Def [23]; Use [23]; Def [24]; Use [23]; Def [25]; Def [26]; Use [7]; Def [27];
 Use [27]; Def [28]; Use [7]; Def [29]; Def [30]; Def [31]; Use [14]; Def [32]; Def [33]; Def [34];
 Def [35]; Def [36]; Def [37]; Def [38]; Def [39]; Use [7]; Def [40]; Def [41]; Def [42]; Def [43];
 Def [44]; Def [45]; Use [14]; Def [46]; Use [46]; Def [47]; Def [48]; Def [49]; Def [50]; Use
 [49;45]; Loop false (Use [8]) Skip; Def [51]; Use [45]; Def [52]; Def [53]; Def [54]; Def [55]; Def
 [56]; Def [57]; Use [17]; Def [58]; Def [59]; Def [60]; Def [61]; Def [62]; Def [63]; Def [64]; Def
 [65]; Def [66]; Def [67]; Def [68]; Def [69]; Def [70]; Def [71]; Def [72]; Def [73]; Def [74]; Def
 [75]; Use [2;8]; Def [76]; Use [45]; Def [77]; Def [78]; Def [79]; Def [80]; Def [81]; Def [82]; Def
 [83]; Def [84]; Def [85]; Def [86]; Def [87]; Use [80]; Choice 8 (block [Def [39]; Use [39]; Def
 [35]]) Skip; Use [14]; Def [88]; Choice 9 (Def [89]) Skip; Def [90]; Def [91]]); Use [2]; Loop false
 (Choice 11 (Choice 12 (Choice 13 (Use [8]) Skip) Skip) Skip) Skip; Def [3]; Use [1;3]; Frame (block
 [Loop false (Loop false Skip Skip) Skip; Choice 5 (Raise) Skip]); Choice 14 Skip (block [Use
 [4;5;3]; Raise]); Def [92]; Choice 15 Skip (block [Use [4;5;3]; Raise]); Def [93]; Def [94]; Use
 [94;93]; Def [95]; Choice 16 Skip (block [Use [4;5;3]; Raise]); Def [96]; Def [97]; Use [97;96]; Def
 [98]; Use [96;93]; Def [99]; Choice 17 (block [Use [96;99]; Choice 18 Skip (block [Use [4;5;96;99];
 Raise])]) (block [Choice 19 Skip (Raise); Use [96;99]; Choice 20 Skip (block [Use [4;5]; Raise])]);
 Use [92;93]; Def [100]; Use [92;96]; Def [101]; Choice 21 Skip (Raise); Def [102]; Use [102]; Def
 [103]; Use [102]; Def [104]; Use [103]; Choice 1 Skip (Use [103]); Choice 22 Skip (Raise); Use
 [104]; Choice 1 Skip (block [Use [104]; Choice 1 Skip (Use [103;104])]); Choice 23 Skip (Raise);
 Choice 24 Skip (block [Use [4;5;3]; Raise]); Def [105]; Def [106]; Choice 25 Skip (block [Use
 [4;5;3]; Raise]); Def [107]; Choice 26 Skip (block [Use [4;5;3]; Raise]); Def [108]; Def [109]; Def
 [110]; Def [111]; Def [112]; Def [113]; Def [114]; Def [115]; Def [116]; Def [117]; Def [118]; Def
 [119]; Def [120]; Def [121]; Def [122]; Use [107]; Def [123]; Def [124]; Def [125]; Def [126]; Def
 [127]; Choice 27 (block [Def [128]; Def [129]; Def [130]; Def [117]; Def [131]; Def [132]; Def
 [133]]) (block [Def [128]; Def [129]; Def [130]; Use [108]; Def [122]; Use [122]; Def [123]; Def
 [117]; Def [131]; Def [132]; Def [133]]); Def [134]; Use [111]; Def [135]; Def [136]; Def [137]; Def
 [138]; Def [139]; Use [14]; Def [140]; Use [14]; Def [141]; Def [83]; Use [125]; Def [142]; Def
 [143]; Def [144]; Def [84]; Def [145]; Def [146]; Use [4;5]; Choice 28 Skip (Raise); Def [147]; Use
 [147]; Choice 29 (block [Use [7]; Def [148]; Use [7]; Def [149]; Use [7]; Def [150]]) (block [Use
 [147]; Choice 30 (block [Use [4;5;7]; Choice 1 Skip (Choice 1 Skip (Use [7])); Choice 31 Skip
 (Raise); Def [149]; Def [150]; Def [148]]) (block [Use [4;5;7]; Choice 32 Skip (Raise); Choice 1
 Skip (Choice 1 Skip (Use [7])); Choice 33 Skip (Raise); Def [149]; Def [150]; Use [150]; Def
 [148]])]); Use [140;149]; Def [151]; Use [31;149]; Def [152]; Use [4;5;144]; Def [153]; Use [153];
 Def [154]; Use [153]; Def [155]; Use [153]; Choice 34 Skip (Raise); Def [156]; Use [156]; Def [157];
 Use [157;136;156]; Def [156]; Use [157]; Def [157]; Def [90]]) |}.

(* multisim/parts/connector_3w.py, line 36: Connector3w *)
Definition init_Connector3w : func := {|
 f_file := "parts/connector_3w.py"; f_name := "Connector3w"; f_line := 36;
 f_params := []; f_closure := [];
 f_locals := ["_models"; "constr_type"; "_base_err"; "_arg_err"; "name"; "part_id"; "_tiny"; "num_gp"; "T"; "_T_init"; "_T_port"; "dm"; "_dm_in"; "_dm_out"; "_dm0"; "_cp_T"; "_cp_out"; "_A_wll_conn_p"; "_A_fld_conn_p"; "_port_gsp"; "_lam_wll_conn_p"; "_lam_port_fld"; "port_num"; "_port_own_idx"; "_port_own_idx_2D"; "port_ids"; "_port_vals"; "port_names"; "dm_char"; "_solved_ports"; "_own_ports"; "res_dm"; "solve_numeric"; "collapse_arrays"; "_collapsed"; "hydr_comp"; "_flow_net_parent"; "break_topology"; "_cnt_open_prts"; "_port_heatcond"; "affect_dm"; "dm_invariant"; "multiple_flows"; "_process_flows"; "is_actuator"; "control_req"; "actuator_special"; "enlarged_memview"; "plot_special"; "_memadd_T"; "_dm_port"; "_dm_io"; "info_topology"; "initialized"];
 f_outer := [];
 f_conds := ["*"; "self.dm_invariant"; "not self.hydr_comp"];
 f_body := Frame (block [Def [1]; Def [2]; Use [2]; Def [3]; Def [4]; Def [5]; Use [1]; Def [6]; Use [1]; Def
 [7]; Def [8]; Def [9]; Use [9]; Def [10]; Use [9]; Def [11]; Def [12]; Def [13]; Def [14]; Def [15];
 Use [7]; Def [16]; Use [7]; Def [17]; Use [11]; Def [18]; Use [11]; Def [19]; Use [11;7]; Def [20];
 Use [11;7]; Def [21]; Use [11;7]; Def [22]; Def [23]; Use [9]; Def [24]; Use [24]; Def [25]; Def
 [26]; Use [23]; Def [27]; Def [28]; Def [29]; Def [30]; Use [28;23]; Loop false (Use [5]) Skip; Def
 [31]; Use [23]; Def [32]; Def [33]; Def [34]; Def [35]; Def [36]; Def [37]; Use [1;5]; Def [38]; Use
 [23]; Def [39]; Def [40]; Def [41]; Def [42]; Def [43]; Def [44]; Def [45]; Def [46]; Def [47]; Def
 [48]; Def [49]; Use [9]; Def [50]; Use [42]; Choice 2 (Def [12]) (block [Use [23]; Def [12]]); Use
 [36]; Choice 3 (block [Use [12]; Def [51]; Use [12]; Def [52]]) (block [Use [9]; Def [51]; Use [9];
 Def [52]]); Def [53]; Def [54]]) |}.

(* multisim/parts/controllers.py, line 16: PID *)
Definition init_PID : func := {|
 f_file := "parts/controllers.py"; f_name := "PID"; f_line := 16;
 f_params := ["_process_cv_direct"]; f_closure := [];
 f_locals := ["_base_err"; "_arg_err"; "name"; "_models"; "actuator"; "_process_cv_mode"; "_process_cv_fun"; "_cv_sat_min"; "_cv_sat_max"; "_llim"; "_ulim"; "ctrl_part"; "ctrl_port_id"; "ctrl_port"; "ctrl_part_id"; "pv"; "ref_part"; "ref_port_id"; "ref_port"; "ref_part_id"; "_ref"; "use_ref"; "sp"; "_ref_diff"; "_act_cv_name"; "_act_cv"; "sub_ctrl"; "_master_type"; "master_ctrl"; "_master_act_cv"; "_master_act_offst"; "master_part"; "_master_variable"; "_master_variable_index"; "dependency_kind"; "_concurrent"; "_off_state"; "discrete_time"; "prev_cv"; "error_sum"; "i_term"; "prev_i_term"; "d_term"; "deadtime"; "dt_arr"; "pv_arr"; "len_dt_arr"; "_slope_n"; "_slope_p"; "_slope"; "_invert"; "_steady_state"; "cv"; "error"; "prev_error"; "_prev_deriv"; "_deriv_err"; "_deriv"; "dt_idx"; "last_dt_idx"; "delayed_pv"; "initialized"; "terms"; "loop_tuning"; "kp"; "ki"; "kd"; "kp_mult"; "ki_mult"; "kd_mult"; "kp_crit"; "t_crit"; "t_n"; "t_v"; "loop_tuning_rule"; "filt_derivate"; "_bw_cutoff"; "_RC"; "_bw_alpha"; "_anti_windup"];
 f_outer := [];
 f_conds := ["*"; "type(name) == str"; "'actuator' in kwargs and kwargs['actuator'] in self._models.parts"; "self._models.parts[self.actuator].is_actuator"; "not self._models.parts[self.actuator].ctrl_defined"; "'process_CV_mode' in kwargs and kwargs['process_CV_mode'] in pcv"; "self._process_cv_mode == 'direct'"; "self._process_cv_mode == 'part_specific'"; "self._process_cv_mode == 'custom'"; "'process_cv_func' in kwargs and callable(kwargs['process_cv_func'])"; "'CV_saturation' in kwargs and isinstance(kwargs['CV_saturation'], (list, tuple)) and is..."; "self._cv_sat_min < self._cv_sat_max"; "hasattr(self._models.parts[self.actuator], '_llim') and hasattr(self._models.parts[self..."; "'controlled_part' in kwargs"; "'controlled_port' in kwargs"; "given_part in self._models.parts"; "type(given_port) == str"; "type(given_port) == int"; "0 <= given_port < self._models.parts[given_part].T.shape[0] or -self._models.parts[give..."; "given_port > -1"; "type(given_port) != int"; "'reference_part' in kwargs and (kwargs['reference_part'] == 'none' or kwargs['reference..."; "not kwargs['reference_part'] == 'none'"; "'reference_port' in kwargs and isinstance(kwargs['reference_port'], (str, int))"; "'reference_part' in kwargs"; "self.ref_part == 'none' and self._process_cv_mode != 'linked'"; "'setpoint' in kwargs and isinstance(kwargs['setpoint'], (int, float))"; "self._process_cv_mode != 'linked'"; "'ref_SP_diff' in kwargs and isinstance(kwargs['ref_SP_diff'], (int, float))"; "self._models.parts[self.actuator].actuator_special and self._process_cv_mode != 'linked'"; "self._process_cv_mode == 'linked'"; "self.ref_part != 'none'"; "self._models.parts[self.actuator].constr_type == self._models.parts[self.ref_part].cons..."; "controls.actuator == self.ref_part"; "controls._process_cv_mode == 'direct'"; "controls._process_cv_mode == 'part_specific' or controls._process_cv_mode == 'custom'"; "not found"; "'sub_controller' in kwargs and type(kwargs['sub_controller']) == bool"; "self.sub_ctrl"; "'master_type' in kwargs and type(kwargs['master_type']) == str and (kwargs['master_type..."; "self._master_type == 'controller'"; "'master_controller' in kwargs and kwargs['master_controller'] in self._models.ctrls"; "'master_part' in kwargs and kwargs['master_part'] in self._models.parts"; "'master_variable' in kwargs"; "hasattr(self._models.parts[self.master_part], kwargs['master_variable'])"; "kwargs['master_variable'] == 'dm'"; "self._models.parts[self.master_part].constr_type in ('PipeWithPump', 'PPump')"; "'master_variable_index' in kwargs and isinstance(kwargs['master_variable_index'], int)"; "0 <= self._master_variable_index < getattr(self._models.parts[self.master_part], self._..."; "'dependency_kind' in kwargs and type(kwargs['dependency_kind']) == str and (kwargs['dep..."; "self.dependency_kind == 'concurrent'"; "'off_state' in kwargs and isinstance(kwargs['off_state'], (int, float))"; "'time_domain' in kwargs and kwargs['time_domain'] in ['discrete', 'continuous']"; "kwargs['time_domain'] == 'discrete'"; "kwargs['time_domain'] == 'continuous'"; "'deadtime' in kwargs and isinstance(kwargs['deadtime'], (int, float)) and (kwargs['dead..."; "'slope' in kwargs and type(kwargs['slope']) == tuple and (len(kwargs['slope']) == 2) an..."; "self._slope_n == 0.0 and self._slope_p == 0.0"; "self._slope_n < 0.0 < self._slope_p"; "'invert' in kwargs and isinstance(kwargs['invert'], bool)"; "not kwargs['invert']"; "'steady_state' in kwargs"; "'terms' in kwargs and kwargs['terms'] in terms"; "self.terms in ['P', 'PI', 'PD', 'PID']"; "'loop_tuning' in kwargs"; "kwargs['loop_tuning'] in methods"; "self.loop_tuning == 'manual'"; "'P' in self.terms"; "'Kp' in kwargs and isinstance(kwargs['Kp'], (int, float))"; "'I' in self.terms"; "'Ki' in kwargs and isinstance(kwargs['Ki'], (int, float))"; "'D' in self.terms"; "'Kd' in kwargs and isinstance(kwargs['Kd'], (int, float))"; "self.loop_tuning == 'tune'"; "self.loop_tuning == 'ziegler-nichols'"; "self.terms == 'PID' and 'rule' in kwargs and (kwargs['rule'] not in rules)"; "kwargs['rule'] in rules"; "'Kp_crit' in kwargs and isinstance(kwargs['Kp_crit'], (int, float))"; "'T_crit' in kwargs and isinstance(kwargs['T_crit'], (int, float))"; "'I' not in self.terms"; "'Ki' not in kwargs"; "'D' not in self.terms"; "'Kd' not in kwargs"; "self.terms == 'P'"; "self.terms == 'PI'"; "self.terms == 'PD'"; "self.terms == 'PID'"; "'rule' in kwargs and kwargs['rule'] in rules"; "self.loop_tuning_rule == 'classic'"; "self.loop_tuning_rule == 'pessen-int'"; "self.loop_tuning_rule == 'some-os'"; "self.loop_tuning_rule == 'no-os'"; "'K_mult' in kwargs"; "type(kwargs['K_mult']) == list and len(kwargs['K_mult']) == 3"; "isinstance(kwargs['K_mult'][0], (int, float)) and isinstance(kwargs['K_mult'][1], (int,..."; "'filter_derivative' in kwargs"; "type(kwargs['filter_derivative']) == bool"; "kwargs['filter_derivative']"; "'cutoff_freq' in kwargs"; "isinstance(kwargs['cutoff_freq'], (int, float))"; "'anti_windup' in kwargs and isinstance(kwargs['anti_windup'], (int, float, str))"; "isinstance(kwargs['anti_windup'], (int, float))"; "'_' in kwargs['anti_windup']"; "self._anti_windup > 0.0"];
 f_body := Frame (block [Frame (block [Def [2]; Def [3]; Choice 2 Skip (Raise); Def [4]; Def [5]; Choice 1 Skip
 (Use [5]); Choice 3 Skip (block [Use [5]; Raise]); Def [6]; Use [5;6]; Choice 4 Skip (block [Use
 [6]; Raise]); Use [6;5]; Choice 5 Skip (Raise); Choice 6 Skip (Raise); Def [7]; Use [7]; Choice 7
 (block [Use [1]; Def [8]]) (block [Use [7]; Choice 8 (block [Use [5;6]; Def [8]]) (block [Use [7];
 Choice 9 (block [Choice 10 Skip (Raise); Def [8]]) Skip])]); Use [2;3]; Choice 11 Skip (Raise); Def
 [9]; Def [10]; Use [9;10]; Choice 12 Skip (Raise); Use [6;5]; Choice 1 Skip (Use [5;6]); Choice 13
 Skip (Raise); Use [5;6]; Def [11]; Use [5;6]; Def [12]; Choice 14 Skip (Raise); Choice 15 Skip
 (Raise); Frame (block [Use [4;6]; Choice 14 Skip (Raise); Use [6;5]; Choice 16 Skip (Raise); Choice
 17 (Try (Use [5]) (block [Use [6;4;5]; Raise]) Skip) (Choice 18 (block [Use [6;4;5]; Choice 1 Skip
 (Use [5]); Choice 19 Skip (Raise); Choice 20 Skip (Use [5])]) (Choice 21 (block [Use [6;4]; Raise])
 Skip)); Return]); Def [13]; Def [14]; Def [15]; Use [5;13]; Def [16]; Use [5;13;14]; Def [17];
 Choice 1 Skip (Choice 1 Skip (Use [5])); Choice 22 Skip (Raise); Choice 23 (block [Choice 24 Skip
 (Raise); Frame (block [Use [4;6]; Choice 25 Skip (Raise); Use [6;5]; Choice 16 Skip (Raise); Choice
 17 (Try (Use [5]) (block [Use [6;4;5]; Raise]) Skip) (Choice 18 (block [Use [6;4;5]; Choice 1 Skip
 (Use [5]); Choice 19 Skip (Raise); Choice 20 Skip (Use [5])]) (Choice 21 (block [Use [6;4]; Raise])
 Skip)); Return]); Def [18]; Def [19]; Def [20]; Use [5;18]; Def [21]; Use [5;18;19]; Def [22]; Def
 [23]]) (block [Def [18]; Def [20]; Def [23]]); Use [18]; Choice 1 Skip (Use [7]); Choice 26 (block
 [Choice 27 Skip (Raise); Def [24]]) (block [Use [7]; Choice 28 (block [Use [18]; Choice 29 Skip
 (Raise); Def [25]]) Skip]); Use [5;6]; Choice 1 Skip (Use [7]); Choice 30 (Use [6]) (block [Use [7];
 Choice 31 (block [Use [18]; Choice 32 Skip (Raise); Use [5;6;18]; Choice 33 Skip (block [Use [6;18];
 Raise]); Use [5]; Loop false (block [Use [18]; Choice 34 (block [Choice 35 (block [Def [26]; Raise;
 Use [5;18;26;6]]) (Choice 36 (block [Def [26]; Try (block [Use []; Raise; Use [5;18;6;26]]) (Raise)
 Skip]) Skip); Break]) Skip]) Skip; Choice 37 (Use [18]) Skip]) Skip]); Use [5;6]; Def [26]; Use
 [5;6]; Def [27]; Choice 38 Skip (Raise); Def [28]; Use [28]; Choice 39 (block [Choice 40 Skip
 (Raise); Def [29]; Use [29]; Choice 41 (block [Use [4;5]; Choice 1 Skip (Use [5]); Choice 42 Skip
 (Raise); Def [30]; Use [5;30]; Def [31]; Use [5;30]; Def [32]]) (block [Use [4;5]; Choice 1 Skip
 (Use [5]); Choice 43 Skip (Raise); Def [33]; Use [33;4]; Choice 44 Skip (Raise); Use [5;33]; Choice
 45 Skip (block [Use [33]; Raise]); Choice 46 (block [Use [5;33]; Choice 47 Skip (Raise)]) Skip; Def
 [34]; Choice 48 Skip (Raise); Def [35]; Use [35;5;33;34]; Choice 1 Skip (Use [35]); Choice 49 Skip
 (Raise); Use [5;33;34;35]; Def [31]; Def [32]]); Use [4]; Choice 50 Skip (Raise); Def [36]; Use
 [36]; Choice 51 (Def [37]) (Def [37])]) Skip; Choice 52 Skip (Raise); Def [38]; Choice 53 Skip
 (Raise); Choice 54 (block [Def [39]; Def [40]]) (Choice 55 (block [Def [39]; Def [41]; Def [42]; Def
 [43]; Def [44]]) Skip); Choice 56 Skip (Raise); Def [45]; Use [45]; Def [46]; Use [46]; Def [47];
 Use [46]; Def [48]; Choice 57 Skip (Raise); Def [49]; Def [50]; Use [49]; Choice 1 Skip (Use [50]);
 Choice 58 (Def [51]) (block [Def [51]; Use [49;50]; Choice 59 Skip (Raise)]); Choice 60 Skip
 (Raise); Def [52]; Choice 62 (Def [53]) (Def [53]); Def [54]; Def [55]; Def [56]; Def [57]; Def
 [58]; Def [59]; Def [60]; Def [61]; Def [62]; Use [5;6]; Def [63]]); Use [2;3]; Choice 63 Skip
 (Raise); Def [64]; Use [2;3;64]; Choice 64 (block [Use [2;3]; Choice 65 Skip (Raise); Choice 66 Skip
 (Raise); Def [65]; Def [66]; Def [67]; Def [68]; Def [69]; Def [70]; Def [71]; Use [65]; Choice 67
 (block [Use [2;3;64]; Choice 68 (block [Choice 69 Skip (Raise); Def [66]]) Skip; Use [64]; Choice 70
 (block [Choice 71 Skip (Raise); Def [67]]) Skip; Use [64]; Choice 72 (block [Choice 73 Skip (Raise);
 Def [68]]) Skip]) (block [Use [65]; Choice 74 (block [Use [2;3;64]; Choice 69 Skip (Raise); Def
 [66]; Def [67]; Def [68]; Use [4]]) (block [Use [65]; Choice 75 (block [Use [2;3;64]; Choice 76
 (Choice 77 Skip (Raise)) Skip; Choice 78 Skip (Raise); Choice 79 Skip (Raise); Use [64]; Choice 80
 (Choice 81 Skip (Raise)) Skip; Use [64]; Choice 82 (Choice 83 Skip (Raise)) Skip; Def [72]; Def
 [73]; Use [64]; Choice 84 (block [Use [72]; Def [66]]) (block [Use [64]; Choice 85 (block [Use [72];
 Def [66]; Use [73]; Def [74]; Use [66;74]; Def [67]]) (block [Use [64]; Choice 86 (block [Use [72];
 Def [66]; Use [73]; Def [75]; Use [66;75]; Def [68]]) (block [Use [64]; Choice 87 (block [Choice 88
 Skip (Raise); Def [76]; Use [76]; Choice 89 (block [Use [72]; Def [66]; Use [73]; Def [74]; Use
 [73]; Def [75]; Use [66;74]; Def [67]; Use [66;75]; Def [68]]) (block [Use [76]; Choice 90 (block
 [Use [72]; Def [66]; Use [73]; Def [74]; Use [73]; Def [75]; Use [66;74]; Def [67]; Use [66;75]; Def
 [68]]) (block [Use [76]; Choice 91 (block [Use [72]; Def [66]; Use [73]; Def [74]; Use [73]; Def
 [75]; Use [66;74]; Def [67]; Use [66;75]; Def [68]]) (block [Use [76]; Choice 92 (block [Use [72];
 Def [66]; Use [73]; Def [74]; Use [73]; Def [75]; Use [66;74]; Def [67]; Use [66;75]; Def [68]])
 Skip])])])]) Skip])])])]) Skip])])]) Skip; Use [2;3]; Choice 93 (block [Choice 94 Skip (Raise);
 Choice 95 Skip (Raise); Def [69]; Def [70]; Def [71]; Use [66;69]; Def [66]; Use [67;70]; Def [67];
 Use [68;71]; Def [68]]) Skip; Use [64]; Choice 72 (block [Use [2;3]; Choice 96 Skip (Raise); Choice
 97 Skip (Raise); Choice 98 (block [Choice 99 Skip (Raise); Choice 100 Skip (Raise); Def [77]; Def
 [78]; Use [78]; Def [79]; Use [5;79]; Def [80]]) (Def [77])]) (Def [77]); Use [64]; Choice 70 (block
 [Choice 101 Skip (Raise); Choice 102 (Def [81]) (block [Use [67]; Def [81]]); Use [81]; Choice 104
 Skip (block [Use [2;3]; Raise])]) (Def [81])]) |}.

(* multisim/parts/controllers.py, line 498: BangBang *)
Definition init_BangBang : func := {|
 f_file := "parts/controllers.py"; f_name := "BangBang"; f_line := 498;
 f_params := ["_process_cv_direct"]; f_closure := [];
 f_locals := ["_base_err"; "_arg_err"; "name"; "_models"; "actuator"; "_process_cv_mode"; "_process_cv_fun"; "_cv_sat_min"; "_cv_sat_max"; "_llim"; "_ulim"; "ctrl_part"; "ctrl_port_id"; "ctrl_port"; "ctrl_part_id"; "pv"; "ref_part"; "ref_port_id"; "ref_port"; "ref_part_id"; "_ref"; "use_ref"; "sp"; "_ref_diff"; "_act_cv_name"; "_act_cv"; "sub_ctrl"; "_master_type"; "master_ctrl"; "_master_act_cv"; "_master_act_offst"; "master_part"; "_master_variable"; "_master_variable_index"; "dependency_kind"; "_concurrent"; "_off_state"; "discrete_time"; "prev_cv"; "error_sum"; "i_term"; "prev_i_term"; "d_term"; "deadtime"; "dt_arr"; "pv_arr"; "len_dt_arr"; "_slope_n"; "_slope_p"; "_slope"; "_invert"; "_steady_state"; "cv"; "error"; "prev_error"; "_prev_deriv"; "_deriv_err"; "_deriv"; "dt_idx"; "last_dt_idx"; "delayed_pv"; "initialized"; "_reversed"; "_hysteresis"];
 f_outer := [];
 f_conds := ["*"; "type(name) == str"; "'actuator' in kwargs and kwargs['actuator'] in self._models.parts"; "self._models.parts[self.actuator].is_actuator"; "not self._models.parts[self.actuator].ctrl_defined"; "'process_CV_mode' in kwargs and kwargs['process_CV_mode'] in pcv"; "self._process_cv_mode == 'direct'"; "self._process_cv_mode == 'part_specific'"; "self._process_cv_mode == 'custom'"; "'process_cv_func' in kwargs and callable(kwargs['process_cv_func'])"; "'CV_saturation' in kwargs and isinstance(kwargs['CV_saturation'], (list, tuple)) and is..."; "self._cv_sat_min < self._cv_sat_max"; "hasattr(self._models.parts[self.actuator], '_llim') and hasattr(self._models.parts[self..."; "'controlled_part' in kwargs"; "'controlled_port' in kwargs"; "given_part in self._models.parts"; "type(given_port) == str"; "type(given_port) == int"; "0 <= given_port < self._models.parts[given_part].T.shape[0] or -self._models.parts[give..."; "given_port > -1"; "type(given_port) != int"; "'reference_part' in kwargs and (kwargs['reference_part'] == 'none' or kwargs['reference..."; "not kwargs['reference_part'] == 'none'"; "'reference_port' in kwargs and isinstance(kwargs['reference_port'], (str, int))"; "'reference_part' in kwargs"; "self.ref_part == 'none' and self._process_cv_mode != 'linked'"; "'setpoint' in kwargs and isinstance(kwargs['setpoint'], (int, float))"; "self._process_cv_mode != 'linked'"; "'ref_SP_diff' in kwargs and isinstance(kwargs['ref_SP_diff'], (int, float))"; "self._models.parts[self.actuator].actuator_special and self._process_cv_mode != 'linked'"; "self._process_cv_mode == 'linked'"; "self.ref_part != 'none'"; "self._models.parts[self.actuator].constr_type == self._models.parts[self.ref_part].cons..."; "controls.actuator == self.ref_part"; "controls._process_cv_mode == 'direct'"; "controls._process_cv_mode == 'part_specific' or controls._process_cv_mode == 'custom'"; "not found"; "'sub_controller' in kwargs and type(kwargs['sub_controller']) == bool"; "self.sub_ctrl"; "'master_type' in kwargs and type(kwargs['master_type']) == str and (kwargs['master_type..."; "self._master_type == 'controller'"; "'master_controller' in kwargs and kwargs['master_controller'] in self._models.ctrls"; "'master_part' in kwargs and kwargs['master_part'] in self._models.parts"; "'master_variable' in kwargs"; "hasattr(self._models.parts[self.master_part], kwargs['master_variable'])"; "kwargs['master_variable'] == 'dm'"; "self._models.parts[self.master_part].constr_type in ('PipeWithPump', 'PPump')"; "'master_variable_index' in kwargs and isinstance(kwargs['master_variable_index'], int)"; "0 <= self._master_variable_index < getattr(self._models.parts[self.master_part], self._..."; "'dependency_kind' in kwargs and type(kwargs['dependency_kind']) == str and (kwargs['dep..."; "self.dependency_kind == 'concurrent'"; "'off_state' in kwargs and isinstance(kwargs['off_state'], (int, float))"; "'time_domain' in kwargs and kwargs['time_domain'] in ['discrete', 'continuous']"; "kwargs['time_domain'] == 'discrete'"; "kwargs['time_domain'] == 'continuous'"; "'deadtime' in kwargs and isinstance(kwargs['deadtime'], (int, float)) and (kwargs['dead..."; "'slope' in kwargs and type(kwargs['slope']) == tuple and (len(kwargs['slope']) == 2) an..."; "self._slope_n == 0.0 and self._slope_p == 0.0"; "self._slope_n < 0.0 < self._slope_p"; "'invert' in kwargs and isinstance(kwargs['invert'], bool)"; "not kwargs['invert']"; "'steady_state' in kwargs"; "'hysteresis' in kwargs and isinstance(kwargs['hysteresis'], (int, float))"; "kwargs['hysteresis'] >= 0.0"];
 f_body := Frame (block [Frame (block [Def [2]; Def [3]; Choice 2 Skip (Raise); Def [4]; Def [5]; Choice 1 Skip
 (Use [5]); Choice 3 Skip (block [Use [5]; Raise]); Def [6]; Use [5;6]; Choice 4 Skip (block [Use
 [6]; Raise]); Use [6;5]; Choice 5 Skip (Raise); Choice 6 Skip (Raise); Def [7]; Use [7]; Choice 7
 (block [Use [1]; Def [8]]) (block [Use [7]; Choice 8 (block [Use [5;6]; Def [8]]) (block [Use [7];
 Choice 9 (block [Choice 10 Skip (Raise); Def [8]]) Skip])]); Use [2;3]; Choice 11 Skip (Raise); Def
 [9]; Def [10]; Use [9;10]; Choice 12 Skip (Raise); Use [6;5]; Choice 1 Skip (Use [5;6]); Choice 13
 Skip (Raise); Use [5;6]; Def [11]; Use [5;6]; Def [12]; Choice 14 Skip (Raise); Choice 15 Skip
 (Raise); Frame (block [Use [4;6]; Choice 14 Skip (Raise); Use [6;5]; Choice 16 Skip (Raise); Choice
 17 (Try (Use [5]) (block [Use [6;4;5]; Raise]) Skip) (Choice 18 (block [Use [6;4;5]; Choice 1 Skip
 (Use [5]); Choice 19 Skip (Raise); Choice 20 Skip (Use [5])]) (Choice 21 (block [Use [6;4]; Raise])
 Skip)); Return]); Def [13]; Def [14]; Def [15]; Use [5;13]; Def [16]; Use [5;13;14]; Def [17];
 Choice 1 Skip (Choice 1 Skip (Use [5])); Choice 22 Skip (Raise); Choice 23 (block [Choice 24 Skip
 (Raise); Frame (block [Use [4;6]; Choice 25 Skip (Raise); Use [6;5]; Choice 16 Skip (Raise); Choice
 17 (Try (Use [5]) (block [Use [6;4;5]; Raise]) Skip) (Choice 18 (block [Use [6;4;5]; Choice 1 Skip
 (Use [5]); Choice 19 Skip (Raise); Choice 20 Skip (Use [5])]) (Choice 21 (block [Use [6;4]; Raise])
 Skip)); Return]); Def [18]; Def [19]; Def [20]; Use [5;18]; Def [21]; Use [5;18;19]; Def [22]; Def
 [23]]) (block [Def [18]; Def [20]; Def [23]]); Use [18]; Choice 1 Skip (Use [7]); Choice 26 (block
 [Choice 27 Skip (Raise); Def [24]]) (block [Use [7]; Choice 28 (block [Use [18]; Choice 29 Skip
 (Raise); Def [25]]) Skip]); Use [5;6]; Choice 1 Skip (Use [7]); Choice 30 (Use [6]) (block [Use [7];
 Choice 31 (block [Use [18]; Choice 32 Skip (Raise); Use [5;6;18]; Choice 33 Skip (block [Use [6;18];
 Raise]); Use [5]; Loop false (block [Use [18]; Choice 34 (block [Choice 35 (block [Def [26]; Raise;
 Use [5;18;26;6]]) (Choice 36 (block [Def [26]; Try (block [Use []; Raise; Use [5;18;6;26]]) (Raise)
 Skip]) Skip); Break]) Skip]) Skip; Choice 37 (Use [18]) Skip]) Skip]); Use [5;6]; Def [26]; Use
 [5;6]; Def [27]; Choice 38 Skip (Raise); Def [28]; Use [28]; Choice 39 (block [Choice 40 Skip
 (Raise); Def [29]; Use [29]; Choice 41 (block [Use [4;5]; Choice 1 Skip (Use [5]); Choice 42 Skip
 (Raise); Def [30]; Use [5;30]; Def [31]; Use [5;30]; Def [32]]) (block [Use [4;5]; Choice 1 Skip
 (Use [5]); Choice 43 Skip (Raise); Def [33]; Use [33;4]; Choice 44 Skip (Raise); Use [5;33]; Choice
 45 Skip (block [Use [33]; Raise]); Choice 46 (block [Use [5;33]; Choice 47 Skip (Raise)]) Skip; Def
 [34]; Choice 48 Skip (Raise); Def [35]; Use [35;5;33;34]; Choice 1 Skip (Use [35]); Choice 49 Skip
 (Raise); Use [5;33;34;35]; Def [31]; Def [32]]); Use [4]; Choice 50 Skip (Raise); Def [36]; Use
 [36]; Choice 51 (Def [37]) (Def [37])]) Skip; Choice 52 Skip (Raise); Def [38]; Choice 53 Skip
 (Raise); Choice 54 (block [Def [39]; Def [40]]) (Choice 55 (block [Def [39]; Def [41]; Def [42]; Def
 [43]; Def [44]]) Skip); Choice 56 Skip (Raise); Def [45]; Use [45]; Def [46]; Use [46]; Def [47];
 Use [46]; Def [48]; Choice 57 Skip (Raise); Def [49]; Def [50]; Use [49]; Choice 1 Skip (Use [50]);
 Choice 58 (Def [51]) (block [Def [51]; Use [49;50]; Choice 59 Skip (Raise)]); Choice 60 Skip
 (Raise); Def [52]; Choice 62 (Def [53]) (Def [53]); Def [54]; Def [55]; Def [56]; Def [57]; Def
 [58]; Def [59]; Def [60]; Def [61]; Def [62]; Use [5;6]; Def [63]]); Use [2;3]; Choice 63 Skip
 (Raise); Choice 64 (Def [64]) (Def [64]); Def [65]]) |}.

(* multisim/parts/controllers.py, line 556: TwoSensors *)
Definition init_TwoSensors : func := {|
 f_file := "parts/controllers.py"; f_name := "TwoSensors"; f_line := 556;
 f_params := ["_process_cv_direct"]; f_closure := [];
 f_locals := ["_base_err"; "_arg_err"; "name"; "_models"; "actuator"; "_process_cv_mode"; "_process_cv_fun"; "_cv_sat_min"; "_cv_sat_max"; "_llim"; "_ulim"; "ctrl_part"; "ctrl_port_id"; "ctrl_port"; "ctrl_part_id"; "pv"; "ref_part"; "ref_port_id"; "ref_port"; "ref_part_id"; "_ref"; "use_ref"; "sp"; "_ref_diff"; "_act_cv_name"; "_act_cv"; "sub_ctrl"; "_master_type"; "master_ctrl"; "_master_act_cv"; "_master_act_offst"; "master_part"; "_master_variable"; "_master_variable_index"; "dependency_kind"; "_concurrent"; "_off_state"; "discrete_time"; "prev_cv"; "error_sum"; "i_term"; "prev_i_term"; "d_term"; "deadtime"; "dt_arr"; "pv_arr"; "len_dt_arr"; "_slope_n"; "_slope_p"; "_slope"; "_invert"; "_steady_state"; "cv"; "error"; "prev_error"; "_prev_deriv"; "_deriv_err"; "_deriv"; "dt_idx"; "last_dt_idx"; "delayed_pv"; "initialized"; "_on_sens_part"; "_on_sens_idx"; "on_sensor_val"; "_act_val"; "_act_sgn"; "_deact_sgn"];
 f_outer := [];
 f_conds := ["*"; "type(name) == str"; "'actuator' in kwargs and kwargs['actuator'] in self._models.parts"; "self._models.parts[self.actuator].is_actuator"; "not self._models.parts[self.actuator].ctrl_defined"; "'process_CV_mode' in kwargs and kwargs['process_CV_mode'] in pcv"; "self._process_cv_mode == 'direct'"; "self._process_cv_mode == 'part_specific'"; "self._process_cv_mode == 'custom'"; "'process_cv_func' in kwargs and callable(kwargs['process_cv_func'])"; "'CV_saturation' in kwargs and isinstance(kwargs['CV_saturation'], (list, tuple)) and is..."; "self._cv_sat_min < self._cv_sat_max"; "hasattr(self._models.parts[self.actuator], '_llim') and hasattr(self._models.parts[self..."; "'controlled_part' in kwargs"; "'controlled_port' in kwargs"; "given_part in self._models.parts"; "type(given_port) == str"; "type(given_port) == int"; "0 <= given_port < self._models.parts[given_part].T.shape[0] or -self._models.parts[give..."; "given_port > -1"; "type(given_port) != int"; "'reference_part' in kwargs and (kwargs['reference_part'] == 'none' or kwargs['reference..."; "not kwargs['reference_part'] == 'none'"; "'reference_port' in kwargs and isinstance(kwargs['reference_port'], (str, int))"; "'reference_part' in kwargs"; "self.ref_part == 'none' and self._process_cv_mode != 'linked'"; "'setpoint' in kwargs and isinstance(kwargs['setpoint'], (int, float))"; "self._process_cv_mode != 'linked'"; "'ref_SP_diff' in kwargs and isinstance(kwargs['ref_SP_diff'], (int, float))"; "self._models.parts[self.actuator].actuator_special and self._process_cv_mode != 'linked'"; "self._process_cv_mode == 'linked'"; "self.ref_part != 'none'"; "self._models.parts[self.actuator].constr_type == self._models.parts[self.ref_part].cons..."; "controls.actuator == self.ref_part"; "controls._process_cv_mode == 'direct'"; "controls._process_cv_mode == 'part_specific' or controls._process_cv_mode == 'custom'"; "not found"; "'sub_controller' in kwargs and type(kwargs['sub_controller']) == bool"; "self.sub_ctrl"; "'master_type' in kwargs and type(kwargs['master_type']) == str and (kwargs['master_type..."; "self._master_type == 'controller'"; "'master_controller' in kwargs and kwargs['master_controller'] in self._models.ctrls"; "'master_part' in kwargs and kwargs['master_part'] in self._models.parts"; "'master_variable' in kwargs"; "hasattr(self._models.parts[self.master_part], kwargs['master_variable'])"; "kwargs['master_variable'] == 'dm'"; "self._models.parts[self.master_part].constr_type in ('PipeWithPump', 'PPump')"; "'master_variable_index' in kwargs and isinstance(kwargs['master_variable_index'], int)"; "0 <= self._master_variable_index < getattr(self._models.parts[self.master_part], self._..."; "'dependency_kind' in kwargs and type(kwargs['dependency_kind']) == str and (kwargs['dep..."; "self.dependency_kind == 'concurrent'"; "'off_state' in kwargs and isinstance(kwargs['off_state'], (int, float))"; "'time_domain' in kwargs and kwargs['time_domain'] in ['discrete', 'continuous']"; "kwargs['time_domain'] == 'discrete'"; "kwargs['time_domain'] == 'continuous'"; "'deadtime' in kwargs and isinstance(kwargs['deadtime'], (int, float)) and (kwargs['dead..."; "'slope' in kwargs and type(kwargs['slope']) == tuple and (len(kwargs['slope']) == 2) an..."; "self._slope_n == 0.0 and self._slope_p == 0.0"; "self._slope_n < 0.0 < self._slope_p"; "'invert' in kwargs and isinstance(kwargs['invert'], bool)"; "not kwargs['invert']"; "'steady_state' in kwargs"; "self._slope"; "'silence_slope_warning' in kwargs and kwargs['silence_slope_warning']"; "'on_sensor_part' in kwargs and 'on_sensor_port' in kwargs"; "'on_sensor_part' in kwargs"; "'activation_value' in kwargs and 'activation_sign' in kwargs and ('deactivation_sign' i..."; "isinstance(kwargs['activation_value'], (int, float))"; "isinstance(kwargs['activation_sign'], str)"; "isinstance(kwargs['deactivation_sign'], str)"; "kwargs['activation_sign'] in ('greater', 'lower')"; "kwargs['deactivation_sign'] in ('greater', 'lower')"; "kwargs['activation_sign'] == 'lower'"; "kwargs['deactivation_sign'] == 'lower'"];
 f_body := Frame (block [Frame (block [Def [2]; Def [3]; Choice 2 Skip (Raise); Def [4]; Def [5]; Choice 1 Skip
 (Use [5]); Choice 3 Skip (block [Use [5]; Raise]); Def [6]; Use [5;6]; Choice 4 Skip (block [Use
 [6]; Raise]); Use [6;5]; Choice 5 Skip (Raise); Choice 6 Skip (Raise); Def [7]; Use [7]; Choice 7
 (block [Use [1]; Def [8]]) (block [Use [7]; Choice 8 (block [Use [5;6]; Def [8]]) (block [Use [7];
 Choice 9 (block [Choice 10 Skip (Raise); Def [8]]) Skip])]); Use [2;3]; Choice 11 Skip (Raise); Def
 [9]; Def [10]; Use [9;10]; Choice 12 Skip (Raise); Use [6;5]; Choice 1 Skip (Use [5;6]); Choice 13
 Skip (Raise); Use [5;6]; Def [11]; Use [5;6]; Def [12]; Choice 14 Skip (Raise); Choice 15 Skip
 (Raise); Frame (block [Use [4;6]; Choice 14 Skip (Raise); Use [6;5]; Choice 16 Skip (Raise); Choice
 17 (Try (Use [5]) (block [Use [6;4;5]; Raise]) Skip) (Choice 18 (block [Use [6;4;5]; Choice 1 Skip
 (Use [5]); Choice 19 Skip (Raise); Choice 20 Skip (Use [5])]) (Choice 21 (block [Use [6;4]; Raise])
 Skip)); Return]); Def [13]; Def [14]; Def [15]; Use [5;13]; Def [16]; Use [5;13;14]; Def [17];
 Choice 1 Skip (Choice 1 Skip (Use [5])); Choice 22 Skip (Raise); Choice 23 (block [Choice 24 Skip
 (Raise); Frame (block [Use [4;6]; Choice 25 Skip (Raise); Use [6;5]; Choice 16 Skip (Raise); Choice
 17 (Try (Use [5]) (block [Use [6;4;5]; Raise]) Skip) (Choice 18 (block [Use [6;4;5]; Choice 1 Skip
 (Use [5]); Choice 19 Skip (Raise); Choice 20 Skip (Use [5])]) (Choice 21 (block [Use [6;4]; Raise])
 Skip)); Return]); Def [18]; Def [19]; Def [20]; Use [5;18]; Def [21]; Use [5;18;19]; Def [22]; Def
 [23]]) (block [Def [18]; Def [20]; Def [23]]); Use [18]; Choice 1 Skip (Use [7]); Choice 26 (block
 [Choice 27 Skip (Raise); Def [24]]) (block [Use [7]; Choice 28 (block [Use [18]; Choice 29 Skip
 (Raise); Def [25]]) Skip]); Use [5;6]; Choice 1 Skip (Use [7]); Choice 30 (Use [6]) (block [Use [7];
 Choice 31 (block [Use [18]; Choice 32 Skip (Raise); Use [5;6;18]; Choice 33 Skip (block [Use [6;18];
 Raise]); Use [5]; Loop false (block [Use [18]; Choice 34 (block [Choice 35 (block [Def [26]; Raise;
 Use [5;18;26;6]]) (Choice 36 (block [Def [26]; Try (block [Use []; Raise; Use [5;18;6;26]]) (Raise)
 Skip]) Skip); Break]) Skip]) Skip; Choice 37 (Use [18]) Skip]) Skip]); Use [5;6]; Def [26]; Use
 [5;6]; Def [27]; Choice 38 Skip (Raise); Def [28]; Use [28]; Choice 39 (block [Choice 40 Skip
 (Raise); Def [29]; Use [29]; Choice 41 (block [Use [4;5]; Choice 1 Skip (Use [5]); Choice 42 Skip
 (Raise); Def [30]; Use [5;30]; Def [31]; Use [5;30]; Def [32]]) (block [Use [4;5]; Choice 1 Skip
 (Use [5]); Choice 43 Skip (Raise); Def [33]; Use [33;4]; Choice 44 Skip (Raise); Use [5;33]; Choice
 45 Skip (block [Use [33]; Raise]); Choice 46 (block [Use [5;33]; Choice 47 Skip (Raise)]) Skip; Def
 [34]; Choice 48 Skip (Raise); Def [35]; Use [35;5;33;34]; Choice 1 Skip (Use [35]); Choice 49 Skip
 (Raise); Use [5;33;34;35]; Def [31]; Def [32]]); Use [4]; Choice 50 Skip (Raise); Def [36]; Use
 [36]; Choice 51 (Def [37]) (Def [37])]) Skip; Choice 52 Skip (Raise); Def [38]; Choice 53 Skip
 (Raise); Choice 54 (block [Def [39]; Def [40]]) (Choice 55 (block [Def [39]; Def [41]; Def [42]; Def
 [43]; Def [44]]) Skip); Choice 56 Skip (Raise); Def [45]; Use [45]; Def [46]; Use [46]; Def [47];
 Use [46]; Def [48]; Choice 57 Skip (Raise); Def [49]; Def [50]; Use [49]; Choice 1 Skip (Use [50]);
 Choice 58 (Def [51]) (block [Def [51]; Use [49;50]; Choice 59 Skip (Raise)]); Choice 60 Skip
 (Raise); Def [52]; Choice 62 (Def [53]) (Def [53]); Def [54]; Def [55]; Def [56]; Def [57]; Def
 [58]; Def [59]; Def [60]; Def [61]; Def [62]; Use [5;6]; Def [63]]); Use [51]; Choice 63 (Choice 64
 Skip (Raise)) Skip; Use [2;3]; Choice 65 Skip (Raise); Frame (block [Use [4;6]; Choice 66 Skip
 (Raise); Use [6;5]; Choice 16 Skip (Raise); Choice 17 (Try (Use [5]) (block [Use [6;4;5]; Raise])
 Skip) (Choice 18 (block [Use [6;4;5]; Choice 1 Skip (Use [5]); Choice 19 Skip (Raise); Choice 20
 Skip (Use [5])]) (Choice 21 (block [Use [6;4]; Raise]) Skip)); Return]); Def [64]; Def [65]; Use
 [5;64;65]; Def [66]; Use [2;3]; Choice 67 Skip (Raise); Choice 68 Skip (Raise); Choice 69 Skip
 (Raise); Choice 70 Skip (Raise); Choice 71 Skip (Raise); Choice 72 Skip (Raise); Def [67]; Def [68];
 Def [69]]) |}.

(* multisim/parts/controllers.py, line 674: ModelPredCHP *)
Definition init_ModelPredCHP : func := {|
 f_file := "parts/controllers.py"; f_name := "ModelPredCHP"; f_line := 674;
 f_params := ["_special_store_to_disk"; "tes_cap_before_empty"; "tes_cap_before_full"; "_process_cv_direct"]; f_closure := [];
 f_locals := ["_base_err"; "_arg_err"; "name"; "_models"; "actuator"; "_process_cv_mode"; "_process_cv_fun"; "_cv_sat_min"; "_cv_sat_max"; "_llim"; "_ulim"; "ctrl_part"; "ctrl_port_id"; "ctrl_port"; "ctrl_part_id"; "pv"; "ref_part"; "ref_port_id"; "ref_port"; "ref_part_id"; "_ref"; "use_ref"; "sp"; "_ref_diff"; "_act_cv_name"; "_act_cv"; "sub_ctrl"; "_master_type"; "master_ctrl"; "_master_act_cv"; "_master_act_offst"; "master_part"; "_master_variable"; "_master_variable_index"; "dependency_kind"; "_concurrent"; "_off_state"; "discrete_time"; "prev_cv"; "error_sum"; "i_term"; "prev_i_term"; "d_term"; "deadtime"; "dt_arr"; "pv_arr"; "len_dt_arr"; "_slope_n"; "_slope_p"; "_slope"; "_invert"; "_steady_state"; "cv"; "error"; "prev_error"; "_prev_deriv"; "_deriv_err"; "_deriv"; "dt_idx"; "last_dt_idx"; "delayed_pv"; "initialized"; "_on_sens_part"; "_on_sens_idx"; "on_sensor_val"; "_act_val"; "_act_sgn"; "_deact_sgn"; "_emerg_prms"; "_emerg_use_hyst"; "_hyst_val"; "_act_val_fp_diff"; "_act_val_full_power"; "pel_chp_max"; "pth_chp"; "eta_el"; "_modrange_chp"; "_mrc"; "_opt_params"; "_opt_tf_sec"; "_opt_every_td"; "_opt_every"; "_inc_cont"; "_optsize"; "_opt_steps"; "_opt_chp_mod"; "_opt_chp_mod_post"; "_opt_status"; "_opt_cost"; "_opt_steptime"; "_tes_caps"; "_tes_caps_adpt"; "_tes_cap_adpt_lo"; "_tes_cap_adpt_hi"; "_time_last_cap_adpt"; "_tes_caps_res"; "_tes_socs"; "_ModelPredCHP__tes_rstr_dflt"; "_cap_restore_time"; "_tes_part"; "_tes_part_ref"; "_tes_temp"; "_tes_const"; "_tes_cell_vol"; "_ModelPredCHP__err_prof"; "_opt_prfl_input_prd"; "_opt_profiles"; "_chp_on_heat"; "_ModelPredCHP__err_prof_ctrl"; "_ctrl_prfl_input_prd"; "_ctrl_profiles"; "_cost_params"; "_gaspreis"; "_esr_gas"; "_vnneg"; "_eex"; "_spz"; "_awvk"; "_pwvk"; "_flat_instandh"; "_instandh_cost"; "_ppic"; "_opt_bounds"; "_opt_constraints"; "_unit_fac"; "_freq_fac"; "_precalc_pth_oe_uf"; "num_opts"; "_lt_prev_opt"; "_cv_prev_opt"; "_emerg_cnsctv"; "_emerg_on"; "_caps_adapted"];
 f_outer := [];
 f_conds := ["*"; "type(name) == str"; "'actuator' in kwargs and kwargs['actuator'] in self._models.parts"; "self._models.parts[self.actuator].is_actuator"; "not self._models.parts[self.actuator].ctrl_defined"; "'process_CV_mode' in kwargs and kwargs['process_CV_mode'] in pcv"; "self._process_cv_mode == 'direct'"; "self._process_cv_mode == 'part_specific'"; "self._process_cv_mode == 'custom'"; "'process_cv_func' in kwargs and callable(kwargs['process_cv_func'])"; "'CV_saturation' in kwargs and isinstance(kwargs['CV_saturation'], (list, tuple)) and is..."; "self._cv_sat_min < self._cv_sat_max"; "hasattr(self._models.parts[self.actuator], '_llim') and hasattr(self._models.parts[self..."; "'controlled_part' in kwargs"; "'controlled_port' in kwargs"; "given_part in self._models.parts"; "type(given_port) == str"; "type(given_port) == int"; "0 <= given_port < self._models.parts[given_part].T.shape[0] or -self._models.parts[give..."; "given_port > -1"; "type(given_port) != int"; "'reference_part' in kwargs and (kwargs['reference_part'] == 'none' or kwargs['reference..."; "not kwargs['reference_part'] == 'none'"; "'reference_port' in kwargs and isinstance(kwargs['reference_port'], (str, int))"; "'reference_part' in kwargs"; "self.ref_part == 'none' and self._process_cv_mode != 'linked'"; "'setpoint' in kwargs and isinstance(kwargs['setpoint'], (int, float))"; "self._process_cv_mode != 'linked'"; "'ref_SP_diff' in kwargs and isinstance(kwargs['ref_SP_diff'], (int, float))"; "self._models.parts[self.actuator].actuator_special and self._process_cv_mode != 'linked'"; "self._process_cv_mode == 'linked'"; "self.ref_part != 'none'"; "self._models.parts[self.actuator].constr_type == self._models.parts[self.ref_part].cons..."; "controls.actuator == self.ref_part"; "controls._process_cv_mode == 'direct'"; "controls._process_cv_mode == 'part_specific' or controls._process_cv_mode == 'custom'"; "not found"; "'sub_controller' in kwargs and type(kwargs['sub_controller']) == bool"; "self.sub_ctrl"; "'master_type' in kwargs and type(kwargs['master_type']) == str and (kwargs['master_type..."; "self._master_type == 'controller'"; "'master_controller' in kwargs and kwargs['master_controller'] in self._models.ctrls"; "'master_part' in kwargs and kwargs['master_part'] in self._models.parts"; "'master_variable' in kwargs"; "hasattr(self._models.parts[self.master_part], kwargs['master_variable'])"; "kwargs['master_variable'] == 'dm'"; "self._models.parts[self.master_part].constr_type in ('PipeWithPump', 'PPump')"; "'master_variable_index' in kwargs and isinstance(kwargs['master_variable_index'], int)"; "0 <= self._master_variable_index < getattr(self._models.parts[self.master_part], self._..."; "'dependency_kind' in kwargs and type(kwargs['dependency_kind']) == str and (kwargs['dep..."; "self.dependency_kind == 'concurrent'"; "'off_state' in kwargs and isinstance(kwargs['off_state'], (int, float))"; "'time_domain' in kwargs and kwargs['time_domain'] in ['discrete', 'continuous']"; "kwargs['time_domain'] == 'discrete'"; "kwargs['time_domain'] == 'continuous'"; "'deadtime' in kwargs and isinstance(kwargs['deadtime'], (int, float)) and (kwargs['dead..."; "'slope' in kwargs and type(kwargs['slope']) == tuple and (len(kwargs['slope']) == 2) an..."; "self._slope_n == 0.0 and self._slope_p == 0.0"; "self._slope_n < 0.0 < self._slope_p"; "'invert' in kwargs and isinstance(kwargs['invert'], bool)"; "not kwargs['invert']"; "'steady_state' in kwargs"; "'on_sensor_part' in kwds and 'on_sensor_port' in kwds"; "'on_sensor_part' in kwargs"; "'activation_value' in kwds and 'activation_sign' in kwds and ('deactivation_sign' in kwds)"; "isinstance(kwds['activation_value'], (int, float))"; "isinstance(kwds['activation_sign'], str)"; "isinstance(kwds['deactivation_sign'], str)"; "kwds['activation_sign'] in ('greater', 'lower')"; "kwds['deactivation_sign'] in ('greater', 'lower')"; "kwds['activation_sign'] == 'lower'"; "kwds['deactivation_sign'] == 'lower'"; "'emergency_cntrl' in kwds and isinstance(kwds['emergency_cntrl'], (str, dict))"; "isinstance(kwds['emergency_cntrl'], dict)"; "kwds['emergency_cntrl'] == 'default'"; "isinstance(self._emerg_prms['use_hysteresis'], bool)"; "isinstance(self._emerg_prms['hysteresis'], (int, float)) and self._emerg_prms['hysteres..."; "isinstance(self._emerg_prms['full_power_offset'], (int, float)) and self._emerg_prms['f..."; "self._act_sgn == 'le'"; "'chp_params' in kwds"; "np.all([key in kwds['chp_params'] for key in chp_params.keys()])"; "isinstance(self.pel_chp_max, (int, float)) and self.pel_chp_max > 0.0"; "isinstance(self.pth_chp, (int, float)) and self.pth_chp > 0.0"; "isinstance(self.eta_el, float) and 0.0 < self.eta_el < 1.0"; "isinstance(self._modrange_chp, (tuple, list)) and len(self._modrange_chp) == 2 and (0.0..."; "'opt_params' in kwds and isinstance(kwds['opt_params'], (str, dict))"; "isinstance(kwds['opt_params'], dict)"; "kwds['opt_params'] == 'default'"; "isinstance(self._inc_cont, bool)"; "'tes_soc_minmax' in kwds and isinstance(kwds['tes_soc_minmax'], tuple) and (len(kwds['t..."; "isinstance(self._tes_caps[0], (int, float)) and isinstance(self._tes_caps[1], (int, flo..."; "0 <= self._tes_caps[0] < self._tes_caps[1]"; "'tes_cap_restore_time' in kwds and isinstance(kwds['tes_cap_restore_time'], (str, int, ..."; "isinstance(kwds['tes_cap_restore_time'], str)"; "kwds['tes_cap_restore_time'] == 'default'"; "kwds['tes_cap_restore_time'] > 0.0"; "'tes_part' in kwds"; "'tes_part' in kwargs"; "port == 'no_port'"; "'opt_profiles' in kwds"; "'opt' in ('opt', 'ctrl')"; "isinstance(prfls, pd.DataFrame)"; "isinstance(prfls.index, pd.DatetimeIndex)"; "not prfls.isna().any().any()"; "set(cols) == set(prfls.columns)"; "prof_freq is not None"; "self._opt_prfl_input_prd <= self._opt_every"; "prfls['pel_user'].max() < 1000 and (not kwds['silence_unit_warn'])"; "(prfls.index[-1] - prfls.index[0]).total_seconds() >= self._models.timeframe"; "'ctrl_profiles' in kwds"; "'ctrl' in ('opt', 'ctrl')"; "self._ctrl_prfl_input_prd == 1.0"; "'costs' in kwds and isinstance(kwds['costs'], (str, dict))"; "isinstance(kwds['costs'], dict)"; "kwds['costs'] == 'default'"; "isinstance(self._gaspreis, (int, float)) and self._gaspreis >= 0.0"; "isinstance(self._esr_gas, (int, float)) and self._esr_gas >= 0.0"; "isinstance(self._vnneg, (int, float)) and self._vnneg >= 0.0"; "isinstance(self._cost_params['eex_baseload'], (int, float, str))"; "isinstance(self._cost_params['eex_baseload'], str)"; "self._cost_params['eex_baseload'] <= 1000"; "isinstance(self._spz, (int, float)) and self._spz >= 0.0"; "isinstance(self._awvk, (int, float)) and self._awvk >= 0.0"; "isinstance(self._pwvk, (int, float)) and self._pwvk >= 0.0"; "isinstance(self._flat_instandh, bool)"; "isinstance(self._cost_params['instandh_cost'], (float, str))"; "self._cost_params['instandh_cost'] == 'infer'"; "0 <= self._instandh_cost"; "isinstance(self._ppic, float) and self._ppic > 0.0"];
 f_body := Frame (block [Frame (block [Def [5]; Def [6]; Choice 2 Skip (Raise); Def [7]; Def [8]; Choice 1 Skip
 (Use [8]); Choice 3 Skip (block [Use [8]; Raise]); Def [9]; Use [8;9]; Choice 4 Skip (block [Use
 [9]; Raise]); Use [9;8]; Choice 5 Skip (Raise); Choice 6 Skip (Raise); Def [10]; Use [10]; Choice 7
 (block [Use [4]; Def [11]]) (block [Use [10]; Choice 8 (block [Use [8;9]; Def [11]]) (block [Use
 [10]; Choice 9 (block [Choice 10 Skip (Raise); Def [11]]) Skip])]); Use [5;6]; Choice 11 Skip
 (Raise); Def [12]; Def [13]; Use [12;13]; Choice 12 Skip (Raise); Use [9;8]; Choice 1 Skip (Use
 [8;9]); Choice 13 Skip (Raise); Use [8;9]; Def [14]; Use [8;9]; Def [15]; Choice 14 Skip (Raise);
 Choice 15 Skip (Raise); Frame (block [Use [7;9]; Choice 14 Skip (Raise); Use [9;8]; Choice 16 Skip
 (Raise); Choice 17 (Try (Use [8]) (block [Use [9;7;8]; Raise]) Skip) (Choice 18 (block [Use [9;7;8];
 Choice 1 Skip (Use [8]); Choice 19 Skip (Raise); Choice 20 Skip (Use [8])]) (Choice 21 (block [Use
 [9;7]; Raise]) Skip)); Return]); Def [16]; Def [17]; Def [18]; Use [8;16]; Def [19]; Use [8;16;17];
 Def [20]; Choice 1 Skip (Choice 1 Skip (Use [8])); Choice 22 Skip (Raise); Choice 23 (block [Choice
 24 Skip (Raise); Frame (block [Use [7;9]; Choice 25 Skip (Raise); Use [9;8]; Choice 16 Skip (Raise);
 Choice 17 (Try (Use [8]) (block [Use [9;7;8]; Raise]) Skip) (Choice 18 (block [Use [9;7;8]; Choice 1
 Skip (Use [8]); Choice 19 Skip (Raise); Choice 20 Skip (Use [8])]) (Choice 21 (block [Use [9;7];
 Raise]) Skip)); Return]); Def [21]; Def [22]; Def [23]; Use [8;21]; Def [24]; Use [8;21;22]; Def
 [25]; Def [26]]) (block [Def [21]; Def [23]; Def [26]]); Use [21]; Choice 1 Skip (Use [10]); Choice
 26 (block [Choice 27 Skip (Raise); Def [27]]) (block [Use [10]; Choice 28 (block [Use [21]; Choice
 29 Skip (Raise); Def [28]]) Skip]); Use [8;9]; Choice 1 Skip (Use [10]); Choice 30 (Use [9]) (block
 [Use [10]; Choice 31 (block [Use [21]; Choice 32 Skip (Raise); Use [8;9;21]; Choice 33 Skip (block
 [Use [9;21]; Raise]); Use [8]; Loop false (block [Use [21]; Choice 34 (block [Choice 35 (block [Def
 [29]; Raise; Use [8;21;29;9]]) (Choice 36 (block [Def [29]; Try (block [Use []; Raise; Use
 [8;21;9;29]]) (Raise) Skip]) Skip); Break]) Skip]) Skip; Choice 37 (Use [21]) Skip]) Skip]); Use
 [8;9]; Def [29]; Use [8;9]; Def [30]; Choice 38 Skip (Raise); Def [31]; Use [31]; Choice 39 (block
 [Choice 40 Skip (Raise); Def [32]; Use [32]; Choice 41 (block [Use [7;8]; Choice 1 Skip (Use [8]);
 Choice 42 Skip (Raise); Def [33]; Use [8;33]; Def [34]; Use [8;33]; Def [35]]) (block [Use [7;8];
 Choice 1 Skip (Use [8]); Choice 43 Skip (Raise); Def [36]; Use [36;7]; Choice 44 Skip (Raise); Use
 [8;36]; Choice 45 Skip (block [Use [36]; Raise]); Choice 46 (block [Use [8;36]; Choice 47 Skip
 (Raise)]) Skip; Def [37]; Choice 48 Skip (Raise); Def [38]; Use [38;8;36;37]; Choice 1 Skip (Use
 [38]); Choice 49 Skip (Raise); Use [8;36;37;38]; Def [34]; Def [35]]); Use [7]; Choice 50 Skip
 (Raise); Def [39]; Use [39]; Choice 51 (Def [40]) (Def [40])]) Skip; Choice 52 Skip (Raise); Def
 [41]; Choice 53 Skip (Raise); Choice 54 (block [Def [42]; Def [43]]) (Choice 55 (block [Def [42];
 Def [44]; Def [45]; Def [46]; Def [47]]) Skip); Choice 56 Skip (Raise); Def [48]; Use [48]; Def
 [49]; Use [49]; Def [50]; Use [49]; Def [51]; Choice 57 Skip (Raise); Def [52]; Def [53]; Use [52];
 Choice 1 Skip (Use [53]); Choice 58 (Def [54]) (block [Def [54]; Use [52;53]; Choice 59 Skip
 (Raise)]); Choice 60 Skip (Raise); Def [55]; Choice 62 (Def [56]) (Def [56]); Def [57]; Def [58];
 Def [59]; Def [60]; Def [61]; Def [62]; Def [63]; Def [64]; Def [65]; Use [8;9]; Def [66]]); Use
 [5;6]; Choice 63 Skip (Raise); Frame (block [Use [7;9]; Choice 64 Skip (Raise); Use [9;8]; Choice 16
 Skip (Raise); Choice 17 (Try (Use [8]) (block [Use [9;7;8]; Raise]) Skip) (Choice 18 (block [Use
 [9;7;8]; Choice 1 Skip (Use [8]); Choice 19 Skip (Raise); Choice 20 Skip (Use [8])]) (Choice 21
 (block [Use [9;7]; Raise]) Skip)); Return]); Def [67]; Def [68]; Use [8;67;68]; Def [69]; Use [5;6];
 Choice 65 Skip (Raise); Choice 66 Skip (Raise); Choice 67 Skip (Raise); Choice 68 Skip (Raise);
 Choice 69 Skip (Raise); Choice 70 Skip (Raise); Def [70]; Def [71]; Def [72]; Def [73]; Use
 [5;6;73]; Choice 73 Skip (Raise); Choice 74 (Use [73]) (Choice 75 Skip (Raise)); Use [73]; Choice 76
 Skip (Raise); Use [73]; Def [74]; Use [73]; Choice 1 Skip (Use [73]); Choice 77 Skip (Raise); Use
 [73]; Def [75]; Use [73]; Choice 1 Skip (Use [73]); Choice 78 Skip (Raise); Use [73]; Def [76]; Use
 [71]; Choice 79 (Use [70;76]) (Use [70;76]); Def [77]; Use [5;6]; Choice 80 Skip (Raise); Choice 81
 Skip (Raise); Def [78]; Use [78]; Choice 1 Skip (Use [78]); Choice 82 Skip (Raise); Def [79]; Use
 [79]; Choice 1 Skip (Use [79]); Choice 83 Skip (Raise); Def [80]; Use [80]; Choice 1 Skip (Use
 [80]); Choice 84 Skip (Raise); Def [81]; Use [81]; Choice 1 Skip (block [Use [81]; Choice 1 Skip
 (Use [81])]); Choice 85 Skip (Raise); Use [81]; Def [82]; Def [83]; Use [5;6;83]; Choice 86 Skip
 (Raise); Choice 87 (Use [83]) (Choice 88 Skip (Raise)); Use [83]; Def [84]; Use [83]; Def [85]; Use
 [85]; Def [86]; Use [83]; Def [87]; Use [87]; Choice 89 Skip (Raise); Use [84;86]; Def [88]; Use
 [86]; Def [89]; Use [89;88]; Def [90]; Use [90]; Def [91]; Use [89]; Def [92]; Use [92]; Def [93];
 Use [89]; Def [94]; Use [5;6]; Choice 90 Skip (Raise); Def [95]; Use [95]; Choice 1 Skip (Use [95]);
 Choice 91 Skip (Raise); Use [95]; Choice 92 Skip (Raise); Use [95]; Def [96]; Use [95]; Def [97];
 Use [95]; Def [98]; Def [99]; Def [100]; Def [101]; Def [102]; Use [5;6;102]; Choice 93 Skip
 (Raise); Choice 94 (block [Choice 95 Skip (Raise); Use [102]; Def [103]]) (block [Choice 96 Skip
 (Raise); Def [103]]); Use [5;6]; Choice 97 Skip (Raise); Frame (block [Use [7;9]; Choice 98 Skip
 (Raise); Use [9;8]; Choice 16 Skip (Raise); Choice 99 (Return) Skip; Choice 17 (Try (Use [8]) (block
 [Use [9;7;8]; Raise]) Skip) (Choice 18 (block [Use [9;7;8]; Choice 1 Skip (Use [8]); Choice 19 Skip
 (Raise); Choice 20 Skip (Use [8])]) (Choice 21 (block [Use [9;7]; Raise]) Skip)); Return]); Def
 [104]; Use [8;104]; Def [105]; Use [105]; Def [106]; Use [105]; Def [107]; Use [105]; Def [108]; Use
 [5;6;86]; Def [109]; Choice 100 Skip (block [Use [109]; Raise]); Frame (block [Choice 101 Skip
 (Raise); Use [109]; Choice 102 Skip (Raise); Choice 103 Skip (Raise); Choice 104 Skip (Raise);
 Choice 105 Skip (Raise); Choice 106 Skip (Raise); Try (block [Use []; Def [110]]) (Def [110]) Skip;
 Use [110;86]; Choice 107 Skip (block [Use [86]; Raise]); Choice 108 (Raise) Skip; Use [85;8]; Choice
 109 Skip (block [Use [86]; Raise]); Def [111]; Use [111;86;88;79]; Def [112]]); Use [5;6;86]; Def
 [113]; Choice 110 Skip (block [Use [113]; Raise]); Frame (block [Choice 111 Skip (Raise); Use [113];
 Choice 102 Skip (Raise); Choice 103 Skip (Raise); Choice 104 Skip (Raise); Choice 105 Skip (Raise);
 Choice 106 Skip (Raise); Try (block [Use []; Def [114]]) (Def [114]) Skip; Use [114]; Choice 112
 Skip (Raise); Choice 108 (Raise) Skip; Use [8]; Choice 109 Skip (Raise); Def [115]]); Def [116]; Use
 [5;6;116]; Choice 113 Skip (Raise); Choice 114 (Use [116]) (Choice 115 Skip (Raise)); Use [116]; Def
 [117]; Use [117]; Choice 1 Skip (Use [117]); Choice 116 Skip (Raise); Use [116]; Def [118]; Use
 [118]; Choice 1 Skip (Use [118]); Choice 117 Skip (Raise); Use [116]; Def [119]; Use [119]; Choice 1
 Skip (Use [119]); Choice 118 Skip (Raise); Use [116]; Choice 119 Skip (Raise); Use [116]; Choice 120
 (block [Use [116]; Def [120]]) (block [Use [116]; Choice 121 Skip (Raise); Use [116]; Def [120]]);
 Use [116]; Def [121]; Use [121]; Choice 1 Skip (Use [121]); Choice 122 Skip (Raise); Use [116]; Def
 [122]; Use [122]; Choice 1 Skip (Use [122]); Choice 123 Skip (Raise); Use [116]; Def [123]; Use
 [123]; Choice 1 Skip (Use [123]); Choice 124 Skip (Raise); Use [116]; Def [124]; Use [124]; Choice
 125 Skip (Raise); Use [116]; Choice 126 Skip (Raise); Use [116]; Choice 127 (block [Use [78]; Def
 [125]]) (block [Use [116]; Def [125]; Use [125]; Choice 128 Skip (Raise)]); Use [116]; Def [126];
 Use [126]; Choice 1 Skip (Use [126]); Choice 129 Skip (Raise); Use [88]; Def [127]; Use [127;2;3];
 Def [128]; Def [129]; Use [86]; Def [130]; Use [79;86;129]; Def [131]; Def [132]; Def [133]; Def
 [134]; Def [135]; Def [136]; Def [137]; Use [1;8;7]]) |}.

(* multisim/parts/heated_pipe.py, line 46: HeatedPipe *)
Definition init_HeatedPipe : func := {|
 f_file := "parts/heated_pipe.py"; f_name := "HeatedPipe"; f_line := 46;
 f_params := []; f_closure := [];
 f_locals := ["constr_type"; "_models"; "_aae"; "_base_err"; "_arg_err"; "length"; "num_gp"; "name"; "part_id"; "_tiny"; "grid_spacing"; "_cell_dist"; "_T_ext"; "T"; "_T_top"; "_T_bot"; "_T_port"; "_T_s"; "_lam_T"; "_lam_mean"; "_alpha_i"; "_alpha_inf"; "_cp_T"; "_cp_top"; "_cp_bot"; "_cp_port"; "_rho_T"; "_rhocp"; "_ny_T"; "_ui"; "_mcp"; "_UA_tb"; "_UA_port"; "_UA_amb_shell"; "dm"; "_dm_top"; "_dm_bot"; "_dm_port"; "_dm_io"; "res"; "res_dm"; "dT_cond"; "dT_adv"; "dT_total"; "port_num"; "_port_own_idx"; "_port_own_idx_2D"; "port_ids"; "port_names"; "dm_char"; "_own_ports"; "_port_vals"; "_A_wll_conn_p"; "_A_fld_conn_p"; "_A_p_wll_mean"; "_A_p_fld_mean"; "_port_gsp"; "_lam_wll_conn_p"; "_lam_port_fld"; "_lam_fld_own_p"; "_UA_port_fld"; "_UA_port_wll"; "_solved_ports"; "_vN_diff"; "_trnc_err"; "_trnc_err_cell_weight"; "_stability_breaches"; "solve_numeric"; "solve_explicitly"; "collapse_arrays"; "_collapsed"; "can_add_ports"; "_use_structuredarray"; "hydr_comp"; "_flow_net_parent"; "break_topology"; "_cnt_open_prts"; "_port_heatcond"; "affect_dm"; "dm_invariant"; "multiple_flows"; "_process_flows"; "is_actuator"; "control_req"; "enlarged_memview"; "plot_special"; "initialized"; "_memadd_T"; "info_topology"; "_diff_fully_njit"; "_diff_njit"; "_dQ_heating"; "res_dQ"; "dT_heat"; "_actuator_CV"; "_actuator_CV_name"; "_unit"; "actuator_special"; "ctrl_defined"; "_heat_spread"; "_heat_mult"; "_heated_cells"; "_num_heated_cells"; "_dT_heated"; "_mcp_heated"; "_lims"; "_llim"; "_ulim"];
 f_outer := [];
 f_conds := ["*"; "'constr_type' not in kwargs"; "ks_ in kwd_args"; "not in_kwds"; "len(argerrs) >= 1"; "isinstance(kwargs['length'], (int, float)) and kwargs['length'] > 0"; "isinstance(kwargs['grid_points'], int) and kwargs['grid_points'] > 0"; "self.dm_invariant"; "not hasattr(self, 'info_topology')"; "'heat_spread' in kwargs and kwargs['heat_spread'] in ['all', 'single', 'range']"; "self._heat_spread == 'all'"; "self._heat_spread == 'single'"; "'heated_cells' in kwargs and isinstance(kwargs['heated_cells'], int) and (0 <= kwargs['..."; "'heated_cells' in kwargs and isinstance(kwargs['heated_cells'], (list, tuple)) and (len..."; "start < end and start >= 0 and (end < self.num_gp)"; "'lower_limit' in kwargs and 'upper_limit' in kwargs"; "0 <= self._lims[0] < self._lims[1]"];
 f_body := Frame (block [Def [1]; Use [1]; Frame (block [Def [2]; Choice 2 (Def [1]) (Def [1]); Def [3]; Use
 [1;3]; Frame (block [Loop false (Loop false Skip Skip) Skip; Choice 5 (Raise) Skip]); Use [1]; Def
 [4]; Def [5]; Choice 6 Skip (block [Use [4;5;3]; Raise]); Def [6]; Choice 7 Skip (block [Use
 [4;5;3]; Raise]); Def [7]; Def [8]; Use [2]; Def [9]; Use [2]; Def [10]; Use [6;7]; Def [11]; Use
 [11;6]; Def [12]; Use [7]; Def [13]; Use [13]; Def [14]; Use [14;13]; Def [15]; Use [13]; Def [16];
 Def [17]; Use [17]; Def [18]; Use [7]; Def [19]; Use [7]; Def [20]; Use [19]; Def [21]; Use [19];
 Def [22]; Use [7]; Def [23]; Use [23]; Def [24]; Use [23]; Def [25]; Def [26]; Use [7]; Def [27];
 Use [27]; Def [28]; Use [7]; Def [29]; Def [30]; Def [31]; Use [14]; Def [32]; Def [33]; Def [34];
 Def [35]; Def [36]; Def [37]; Def [38]; Def [39]; Use [7]; Def [40]; Def [41]; Def [42]; Def [43];
 Def [44]; Def [45]; Use [14]; Def [46]; Use [46]; Def [47]; Def [48]; Def [49]; Def [50]; Use
 [49;45]; Loop false (Use [8]) Skip; Def [51]; Use [45]; Def [52]; Def [53]; Def [54]; Def [55]; Def
 [56]; Def [57]; Use [17]; Def [58]; Def [59]; Def [60]; Def [61]; Def [62]; Def [63]; Def [64]; Def
 [65]; Def [66]; Def [67]; Def [68]; Def [69]; Def [70]; Def [71]; Def [72]; Def [73]; Def [74]; Def
 [75]; Use [2;8]; Def [76]; Use [45]; Def [77]; Def [78]; Def [79]; Def [80]; Def [81]; Def [82]; Def
 [83]; Def [84]; Def [85]; Def [86]; Def [87]; Use [80]; Choice 8 (block [Def [39]; Use [39]; Def
 [35]]) Skip; Use [14]; Def [88]; Choice 9 (Def [89]) Skip; Def [90]; Def [91]]); Def [92]; Def [93];
 Use [14]; Def [94]; Def [83]; Use [92]; Def [95]; Def [96]; Def [97]; Def [84]; Def [98]; Def [99];
 Use [4;5]; Choice 10 Skip (Raise); Def [100]; Use [100]; Choice 11 (block [Use [7]; Def [101]; Use
 [7]; Def [102]; Use [7]; Def [103]]) (block [Use [100]; Choice 12 (block [Use [4;5;7]; Choice 1 Skip
 (Choice 1 Skip (Use [7])); Choice 13 Skip (Raise); Def [102]; Def [103]; Def [101]]) (block [Use
 [4;5;7]; Choice 14 Skip (Raise); Choice 1 Skip (Choice 1 Skip (Use [7])); Choice 15 Skip (Raise);
 Def [102]; Def [103]; Use [103]; Def [101]])]); Use [94;102]; Def [104]; Use [31;102]; Def [105];
 Use [4;5;97]; Choice 16 Skip (Raise); Def [106]; Use [106]; Def [107]; Use [106]; Def [108]; Use
 [106]; Choice 17 Skip (Raise); Def [90]]) |}.

(* multisim/parts/heatexchanger.py, line 57: HeatExchanger *)
Definition init_HeatExchanger : func := {|
 f_file := "parts/heatexchanger.py"; f_name := "HeatExchanger"; f_line := 57;
 f_params := []; f_closure := [];
 f_locals := ["_models"; "constr_type"; "_base_err"; "_arg_err"; "HEx_type"; "passes"; "num_plates"; "_num_channels_sup"; "_num_channels_dmd"; "_num_A"; "num_gp"; "name"; "part_id"; "_tiny"; "T"; "_T_init"; "_T_sup"; "_T_dmd"; "_T_mean"; "_T_port"; "_T_fld"; "_lam_mean"; "_alpha_i"; "_alpha_inf"; "_cp_mean"; "_cp_port"; "_rho_mean"; "_ny_mean"; "_UA_port"; "_UA_amb"; "_UA_fld_wll"; "_UA_fld_wll_fld"; "dm"; "_dm_port"; "_dm_io"; "_dm_sup"; "_dm_dmd"; "res"; "res_dm"; "dT_cond"; "dT_adv"; "dT_total"; "grid_spacing"; "port_num"; "_port_own_idx"; "_port_own_idx_2D"; "port_ids"; "_flow_channels"; "port_names"; "dm_char"; "_own_ports"; "_port_vals"; "_A_wll_conn_p"; "_A_fld_conn_p"; "_port_gsp"; "_lam_wll_conn_p"; "_lam_port_fld"; "_lam_fld_own_p"; "_UA_fld_ports"; "_solved_ports"; "_vN_diff"; "_trnc_err"; "_trnc_err_cell_weight"; "solve_numeric"; "collapse_arrays"; "_collapsed"; "hydr_comp"; "_flow_net_parent"; "break_topology"; "_cnt_open_prts"; "_port_heatcond"; "affect_dm"; "dm_invariant"; "multiple_flows"; "_process_flows"; "is_actuator"; "control_req"; "enlarged_memview"; "plot_special"; "initialized"; "_memadd_T"; "info_topology"; "_diff_fully_njit"];
 f_outer := [];
 f_conds := ["*"; "'HEx_type' in kwargs and kwargs['HEx_type'] in hex_types"; "self.HEx_type == 'plate_hex'"; "'passes' in kwargs and type(kwargs['passes']) == int and (kwargs['passes'] > 0)"; "'plates' in kwargs and type(kwargs['plates']) == int"; "self.passes == 1"; "kwargs['plates'] % 2 == 0"; "'max_channels' in kwargs and type(kwargs['max_channels']) == str"; "kwargs['max_channels'] == 'supply' or kwargs['max_channels'] == 'demand'"; "kwargs['max_channels'] == 'supply'"; "(kwargs['plates'] - 1) / self.passes % 2 == 0"; "not hasattr(self, 'info_topology')"];
 f_body := Frame (block [Def [1]; Def [2]; Use [2]; Def [3]; Def [4]; Use [3;4]; Choice 2 Skip (Raise); Def
 [5]; Use [5]; Choice 3 (block [Use [3;4]; Choice 4 Skip (Raise); Def [6]; Use [3;4]; Choice 5 Skip
 (Raise); Use [6]; Choice 6 (block [Choice 7 Skip (Raise); Def [7]; Use [3;4]; Choice 8 Skip (Raise);
 Choice 9 Skip (Raise); Choice 10 (block [Use [7]; Def [8]; Use [7]; Def [9]]) (block [Use [7]; Def
 [9]; Use [7]; Def [8]])]) (block [Use [6]; Choice 11 Skip (Raise); Def [7]; Use [7;6]; Def [8]; Use
 [8]; Def [9]])]) Skip; Use [7;6]; Def [10]; Def [11]; Def [12]; Use [1]; Def [13]; Use [1]; Def
 [14]; Def [15]; Def [15]; Use [15]; Def [16]; Use [15]; Def [17]; Use [15]; Def [18]; Def [19]; Use
 [15]; Def [20]; Def [20]; Use [20;15]; Def [21]; Def [22]; Def [23]; Def [24]; Def [25]; Def [26];
 Def [27]; Def [28]; Def [29]; Def [30]; Def [31]; Def [32]; Def [33]; Def [34]; Def [35]; Use [35];
 Def [36]; Use [35]; Def [37]; Use [15]; Def [38]; Def [39]; Def [40]; Def [41]; Def [42]; Def [43];
 Def [44]; Def [45]; Def [45]; Def [46]; Def [46]; Def [47]; Def [48]; Def [49]; Def [50]; Use
 [49;44]; Loop false (Use [12]) Skip; Def [51]; Use [44]; Def [52]; Def [53]; Def [54]; Def [55]; Use
 [20]; Def [56]; Def [57]; Use [20]; Def [58]; Def [59]; Def [60]; Def [61]; Def [62]; Def [63]; Def
 [63]; Def [63]; Def [64]; Def [65]; Def [66]; Def [67]; Def [68]; Use [1;12]; Def [69]; Use [44];
 Def [70]; Def [71]; Def [72]; Def [73]; Def [74]; Def [75]; Def [76]; Def [77]; Def [78]; Def [79];
 Def [80]; Use [15]; Def [81]; Choice 12 (Def [82]) Skip; Def [83]]) |}.

(* multisim/parts/hex_condensing_polynome.py, line 48: HEXCondPoly *)
Definition init_HEXCondPoly : func := {|
 f_file := "parts/hex_condensing_polynome.py"; f_name := "HEXCondPoly"; f_line := 48;
 f_params := []; f_closure := [];
 f_locals := ["_models"; "constr_type"; "_base_err"; "_arg_err"; "_linreg_mdl"; "_flow_scaling"; "_gas_dv_range"; "_water_dm_range"; "num_gp"; "name"; "part_id"; "_tiny"; "_X_pred"; "_T_w_in"; "_T_fg_in"; "_dm_w_scld"; "_dv_fg_scld"; "T"; "_T_init"; "_T_sup"; "_T_dmd"; "_T_port"; "dm"; "_dm_port"; "_dm_io"; "_dm_sup"; "_dm_dmd"; "res"; "res_dm"; "dT_cond"; "dT_adv"; "dT_total"; "grid_spacing"; "port_num"; "_port_own_idx"; "_port_own_idx_2D"; "port_ids"; "_flow_channels"; "port_names"; "_res_val_names"; "dm_char"; "_own_ports"; "_port_vals"; "_A_wll_conn_p"; "_A_fld_conn_p"; "_port_gsp"; "_lam_wll_conn_p"; "_lam_port_fld"; "_lam_fld_own_p"; "_UA_fld_ports"; "_solved_ports"; "_vN_diff"; "_trnc_err"; "_trnc_err_cell_weight"; "solve_numeric"; "collapse_arrays"; "_collapsed"; "hydr_comp"; "_flow_net_parent"; "break_topology"; "_cnt_open_prts"; "_port_heatcond"; "affect_dm"; "dm_invariant"; "multiple_flows"; "_process_flows"; "is_actuator"; "control_req"; "enlarged_memview"; "plot_special"; "initialized"; "_memadd_T"; "info_topology"; "_diff_fully_njit"];
 f_outer := [];
 f_conds := ["*"; "'regression_pipeline' in kwargs and isinstance(kwargs['regression_pipeline'], _skl.pipe..."; "'max_gas_Nm3h' in kwargs and isinstance(kwargs['max_gas_Nm3h'], (int, float)) and (kwar..."; "'max_water_kgs' in kwargs"; "'max_water_kgs' in kwargs and isinstance(kwargs['max_water_kgs'], (int, float)) and (kw..."; "'fluegas_flow_range' in kwargs and isinstance(kwargs['fluegas_flow_range'], (tuple, lis..."; "'water_flow_range' in kwargs and isinstance(kwargs['water_flow_range'], (tuple, list)) ..."; "not hasattr(self, 'info_topology')"];
 f_body := Frame (block [Def [1]; Def [2]; Use [2]; Def [3]; Def [4]; Use [3;4]; Choice 2 Skip (Raise); Def
 [5]; Use [3;4]; Choice 3 Skip (Raise); Def [6]; Use [6]; Choice 4 (block [Choice 5 Skip (Raise); Use
 [6]]) (Use [6]); Use [6;3;4]; Choice 6 Skip (Raise); Def [7]; Use [7;3;4]; Choice 7 Skip (Raise);
 Def [8]; Use [8]; Def [9]; Def [10]; Use [1]; Def [11]; Use [1]; Def [12]; Def [13]; Use [13]; Def
 [14]; Use [13]; Def [15]; Use [13]; Def [16]; Use [13]; Def [17]; Def [18]; Use [18]; Def [19]; Use
 [18]; Def [20]; Use [18]; Def [21]; Def [22]; Use [22]; Def [23]; Def [24]; Def [25]; Use [25]; Def
 [26]; Use [25]; Def [27]; Use [18]; Def [28]; Def [29]; Def [30]; Def [31]; Def [32]; Def [33]; Def
 [34]; Def [35]; Def [36]; Def [37]; Def [38]; Def [39]; Def [40]; Def [41]; Use [39;34]; Loop false
 (Use [10]) Skip; Def [42]; Use [34]; Def [43]; Def [44]; Def [45]; Def [46]; Use [22]; Def [47]; Def
 [48]; Use [22]; Def [49]; Def [50]; Def [51]; Def [52]; Def [53]; Def [54]; Def [54]; Def [55]; Def
 [56]; Def [57]; Def [58]; Def [59]; Use [1;10]; Def [60]; Use [34]; Def [61]; Def [62]; Def [63];
 Def [64]; Def [65]; Def [66]; Def [67]; Def [68]; Def [69]; Def [70]; Def [71]; Use [18]; Def [72];
 Choice 8 (Def [73]) Skip; Def [74]]) |}.

(* multisim/parts/hex_num.py, line 45: HexNum *)
Definition init_HexNum : func := {|
 f_file := "parts/hex_num.py"; f_name := "HexNum"; f_line := 45;
 f_params := []; f_closure := [];
 f_locals := ["_models"; "constr_type"; "_base_err"; "_arg_err"; "HEx_type"; "flow_type"; "passes"; "num_plates"; "_num_channels_sup"; "_num_channels_dmd"; "_channel_divisor"; "_num_A"; "num_gp"; "name"; "part_id"; "_tiny"; "_T_ext"; "T"; "_T_top"; "_T_bot"; "_T_sup"; "_T_dmd"; "_T_wll"; "_T_fld"; "_T_init"; "_T_port"; "_T_s"; "_lam_T"; "_lam_fld"; "_lam_mean"; "_alpha_i"; "_alpha_inf"; "_cp_T"; "_cp_top"; "_cp_bot"; "_cp_port"; "_rho_T"; "_rhocp"; "_ny_T"; "_ui"; "_mcp"; "_UA_dim1"; "_UA_dim2"; "_UA_fld_wll"; "_UA_port"; "_UA_amb_shell"; "dm"; "_dm_top"; "_dm_bot"; "_dm_port"; "_dm_io"; "_dm_sup"; "_dm_dmd"; "res"; "res_dm"; "dT_cond"; "dT_adv"; "dT_total"; "dT_cond_impl"; "dT_adv_impl"; "dT_total_impl"; "port_num"; "_port_own_idx"; "_port_own_idx_2D"; "port_ids"; "_flow_channels"; "port_names"; "dm_char"; "_own_ports"; "_port_vals"; "_A_wll_conn_p"; "_A_fld_conn_p"; "_port_gsp"; "_lam_wll_conn_p"; "_lam_port_fld"; "_lam_fld_own_p"; "_UA_port_fld"; "_solved_ports"; "_vN_diff"; "_trnc_err"; "_trnc_err_cell_weight"; "_stability_breaches"; "solve_numeric"; "solve_explicitly"; "collapse_arrays"; "_collapsed"; "hydr_comp"; "_flow_net_parent"; "break_topology"; "_cnt_open_prts"; "_port_heatcond"; "affect_dm"; "dm_invariant"; "multiple_flows"; "_process_flows"; "is_actuator"; "control_req"; "enlarged_memview"; "plot_special"; "initialized"; "_solve_implicit"; "diff_impl"; "_memadd_T"; "info_topology"];
 f_outer := [];
 f_conds := ["*"; "'HEx_type' in kwargs and kwargs['HEx_type'] in hex_types"; "'flow_type' in kwargs and kwargs['flow_type'] in flow_types"; "self.HEx_type == 'plate_hex'"; "'passes' in kwargs and isinstance(kwargs['passes'], int) and (kwargs['passes'] > 0)"; "'plates' in kwargs and isinstance(kwargs['plates'], int)"; "self.passes == 1"; "kwargs['plates'] % 2 == 0"; "'max_channels' in kwargs and isinstance(kwargs['max_channels'], str)"; "kwargs['max_channels'] == 'supply' or kwargs['max_channels'] == 'demand'"; "kwargs['max_channels'] == 'supply'"; "(kwargs['plates'] - 1) / self.passes % 2 == 0"; "'grid_points' in kwargs and isinstance(kwargs['grid_points'], int) and (kwargs['grid_po..."; "self.flow_type == 'counter'"; "self._models._allow_implicit"; "'solve_implicit' in kwargs and isinstance(kwargs['solve_implicit'], bool) and (kwargs['..."; "'implicit_root_diff' in kwargs and callable(kwargs['implicit_root_diff'])"; "not hasattr(self, 'info_topology')"];
 f_body := Frame (block [Def [1]; Def [2]; Use [2]; Def [3]; Def [4]; Use [3;4]; Choice 2 Skip (Raise); Def
 [5]; Use [3;4]; Choice 3 Skip (Raise); Def [6]; Use [5]; Choice 4 (block [Use [3;4]; Choice 5 Skip
 (Raise); Def [7]; Use [3;4]; Choice 6 Skip (Raise); Use [7]; Choice 7 (block [Choice 8 Skip (Raise);
 Def [8]; Use [3;4]; Choice 9 Skip (Raise); Choice 10 Skip (Raise); Choice 11 (block [Use [8]; Def
 [9]; Use [8]; Def [10]]) (block [Use [8]; Def [10]; Use [8]; Def [9]])]) (block [Use [7]; Choice 12
 Skip (Raise); Def [8]; Use [8;7]; Def [9]; Use [9]; Def [10]]); Use [9;10]; Def [11]]) Skip; Use
 [8;7]; Def [12]; Choice 13 Skip (Raise); Def [13]; Def [14]; Use [1]; Def [15]; Use [1]; Def [16];
 Use [13]; Def [17]; Use [17]; Def [18]; Use [18;17]; Def [19]; Use [17]; Def [20]; Use [18]; Def
 [21]; Use [18]; Def [22]; Use [18]; Def [23]; Use [18]; Def [24]; Def [25]; Def [26]; Use [26]; Def
 [27]; Def [28]; Use [28]; Def [29]; Use [13]; Def [30]; Use [29]; Def [31]; Use [29]; Def [32]; Use
 [13]; Def [33]; Use [33]; Def [34]; Use [33]; Def [35]; Def [36]; Use [24]; Def [37]; Def [38]; Use
 [24]; Def [39]; Def [40]; Def [41]; Use [18]; Def [42]; Use [18]; Def [43]; Use [13]; Def [44]; Def
 [45]; Def [46]; Def [47]; Use [24]; Def [48]; Use [24]; Def [49]; Def [50]; Def [51]; Use [51]; Def
 [52]; Use [51]; Def [53]; Use [18]; Def [54]; Def [55]; Def [56]; Def [57]; Def [58]; Use [17]; Def
 [59]; Use [17]; Def [60]; Use [17]; Def [61]; Def [62]; Use [13]; Def [63]; Use [63]; Def [64]; Def
 [65]; Def [66]; Use [6]; Choice 14 (Def [67]) (block [Def [67]; Raise]); Def [68]; Use [67;62]; Loop
 false (Use [14]) Skip; Def [69]; Use [62]; Def [70]; Def [71]; Def [72]; Def [73]; Use [26]; Def
 [74]; Def [75]; Def [76]; Def [77]; Def [78]; Def [79]; Def [80]; Def [81]; Def [82]; Def [83]; Def
 [84]; Def [85]; Def [86]; Def [87]; Def [88]; Use [1;14]; Def [89]; Use [62]; Def [90]; Def [91];
 Def [92]; Def [93]; Def [94]; Def [95]; Def [96]; Def [97]; Def [98]; Def [99]; Def [100]; Use [1];
 Choice 15 (Choice 16 (block [Def [101]; Def [84]; Choice 17 Skip (Raise); Def [102]]) Skip) Skip;
 Use [18]; Def [103]; Choice 18 (Def [104]) Skip]) |}.

(* multisim/parts/mixingvalve.py, line 47: MixingValve *)
Definition init_MixingValve : func := {|
 f_file := "parts/mixingvalve.py"; f_name := "MixingValve"; f_line := 47;
 f_params := []; f_closure := [];
 f_locals := ["_models"; "constr_type"; "_base_err"; "_arg_err"; "name"; "_unit"; "part_id"; "kind"; "_tiny"; "num_gp"; "T"; "_T_init"; "_T_port"; "dm"; "_A_wll_conn_p"; "_A_fld_conn_p"; "_port_gsp"; "_lam_wll_conn_p"; "_lam_port_fld"; "port_num"; "_port_own_idx"; "_port_own_idx_2D"; "port_ids"; "_port_vals"; "_solved_ports"; "port_names"; "dm_char"; "pf_arr"; "port_factors"; "_own_ports"; "res"; "res_dm"; "solve_numeric"; "collapse_arrays"; "_collapsed"; "hydr_comp"; "_flow_net_parent"; "break_topology"; "_cnt_open_prts"; "_port_heatcond"; "affect_dm"; "dm_invariant"; "multiple_flows"; "_process_flows"; "is_actuator"; "_actuator_CV"; "_actuator_CV_name"; "control_req"; "actuator_special"; "ctrl_defined"; "enlarged_memview"; "plot_special"; "initialized"; "_memadd_T"; "_dm_port"; "_dm_io"; "info_topology"; "_diff_fully_njit"];
 f_outer := [];
 f_conds := ["*"; "mix_or_split == 'mix'"; "mix_or_split == 'split'"; "self.dm_invariant"; "not self.hydr_comp"];
 f_body := Frame (block [Def [1]; Def [2]; Use [2]; Def [3]; Def [4]; Def [5]; Def [6]; Use [1]; Def [7]; Def
 [8]; Use [1]; Def [9]; Def [10]; Def [11]; Use [11]; Def [12]; Use [11]; Def [13]; Def [14]; Use
 [13]; Def [15]; Use [13]; Def [16]; Use [13;9]; Def [17]; Use [13;9]; Def [18]; Use [13;9]; Def
 [19]; Def [20]; Use [11]; Def [21]; Use [21]; Def [22]; Def [23]; Use [20]; Def [24]; Def [25];
 Choice 2 (block [Def [26]; Def [27]; Def [28]]) (Choice 3 (block [Def [26]; Def [27]; Def [28]])
 (Raise)); Use [28]; Def [29]; Use [26;20]; Loop false (Use [5]) Skip; Def [30]; Use [20]; Def [31];
 Use [20]; Def [32]; Def [33]; Def [34]; Def [35]; Def [36]; Def [37]; Use [1;5]; Def [38]; Use [20];
 Def [39]; Def [40]; Def [41]; Def [42]; Def [43]; Def [44]; Def [45]; Use [28]; Def [46]; Def [47];
 Def [48]; Def [49]; Def [50]; Def [51]; Def [52]; Def [53]; Use [11]; Def [54]; Use [42]; Choice 4
 (Def [14]) (block [Use [20]; Def [14]]); Use [36]; Choice 5 (block [Use [14]; Def [55]; Use [14];
 Def [56]]) (block [Use [11]; Def [55]; Use [11]; Def [56]]); Def [57]; Def [58]]) |}.

(* multisim/parts/pipe.py, line 45: Pipe *)
Definition init_Pipe : func := {|
 f_file := "parts/pipe.py"; f_name := "Pipe"; f_line := 45;
 f_params := []; f_closure := [];
 f_locals := ["_models"; "constr_type"; "_aae"; "_base_err"; "_arg_err"; "length"; "num_gp"; "name"; "part_id"; "_tiny"; "grid_spacing"; "_cell_dist"; "_T_ext"; "T"; "_T_top"; "_T_bot"; "_T_port"; "_T_s"; "_lam_T"; "_lam_mean"; "_alpha_i"; "_alpha_inf"; "_cp_T"; "_cp_top"; "_cp_bot"; "_cp_port"; "_rho_T"; "_rhocp"; "_ny_T"; "_ui"; "_mcp"; "_UA_tb"; "_UA_port"; "_UA_amb_shell"; "dm"; "_dm_top"; "_dm_bot"; "_dm_port"; "_dm_io"; "res"; "res_dm"; "dT_cond"; "dT_adv"; "dT_total"; "port_num"; "_port_own_idx"; "_port_own_idx_2D"; "port_ids"; "port_names"; "dm_char"; "_own_ports"; "_port_vals"; "_A_wll_conn_p"; "_A_fld_conn_p"; "_A_p_wll_mean"; "_A_p_fld_mean"; "_port_gsp"; "_lam_wll_conn_p"; "_lam_port_fld"; "_lam_fld_own_p"; "_UA_port_fld"; "_UA_port_wll"; "_solved_ports"; "_vN_diff"; "_trnc_err"; "_trnc_err_cell_weight"; "_stability_breaches"; "solve_numeric"; "solve_explicitly"; "collapse_arrays"; "_collapsed"; "can_add_ports"; "_use_structuredarray"; "hydr_comp"; "_flow_net_parent"; "break_topology"; "_cnt_open_prts"; "_port_heatcond"; "affect_dm"; "dm_invariant"; "multiple_flows"; "_process_flows"; "is_actuator"; "control_req"; "enlarged_memview"; "plot_special"; "initialized"; "_memadd_T"; "info_topology"; "_diff_fully_njit"; "_diff_njit"];
 f_outer := [];
 f_conds := ["*"; "'constr_type' not in kwargs"; "ks_ in kwd_args"; "not in_kwds"; "len(argerrs) >= 1"; "isinstance(kwargs['length'], (int, float)) and kwargs['length'] > 0"; "isinstance(kwargs['grid_points'], int) and kwargs['grid_points'] > 0"; "self.dm_invariant"; "not hasattr(self, 'info_topology')"];
 f_body := Frame (block [Def [1]; Choice 2 (Def [2]) (Def [2]); Def [3]; Use [2;3]; Frame (block [Loop false
 (Loop false Skip Skip) Skip; Choice 5 (Raise) Skip]); Use [2]; Def [4]; Def [5]; Choice 6 Skip
 (block [Use [4;5;3]; Raise]); Def [6]; Choice 7 Skip (block [Use [4;5;3]; Raise]); Def [7]; Def [8];
 Use [1]; Def [9]; Use [1]; Def [10]; Use [6;7]; Def [11]; Use [11;6]; Def [12]; Use [7]; Def [13];
 Use [13]; Def [14]; Use [14;13]; Def [15]; Use [13]; Def [16]; Def [17]; Use [17]; Def [18]; Use
 [7]; Def [19]; Use [7]; Def [20]; Use [19]; Def [21]; Use [19]; Def [22]; Use [7]; Def [23]; Use
 [23]; Def [24]; Use [23]; Def [25]; Def [26]; Use [7]; Def [27]; Use [27]; Def [28]; Use [7]; Def
 [29]; Def [30]; Def [31]; Use [14]; Def [32]; Def [33]; Def [34]; Def [35]; Def [36]; Def [37]; Def
 [38]; Def [39]; Use [7]; Def [40]; Def [41]; Def [42]; Def [43]; Def [44]; Def [45]; Use [14]; Def
 [46]; Use [46]; Def [47]; Def [48]; Def [49]; Def [50]; Use [49;45]; Loop false (Use [8]) Skip; Def
 [51]; Use [45]; Def [52]; Def [53]; Def [54]; Def [55]; Def [56]; Def [57]; Use [17]; Def [58]; Def
 [59]; Def [60]; Def [61]; Def [62]; Def [63]; Def [64]; Def [65]; Def [66]; Def [67]; Def [68]; Def
 [69]; Def [70]; Def [71]; Def [72]; Def [73]; Def [74]; Def [75]; Use [1;8]; Def [76]; Use [45]; Def
 [77]; Def [78]; Def [79]; Def [80]; Def [81]; Def [82]; Def [83]; Def [84]; Def [85]; Def [86]; Def
 [87]; Use [80]; Choice 8 (block [Def [39]; Use [39]; Def [35]]) Skip; Use [14]; Def [88]; Choice 9
 (Def [89]) Skip; Def [90]; Def [91]]) |}.

(* multisim/parts/pipe2D.py, line 46: Pipe2D *)
Definition init_Pipe2D : func := {|
 f_file := "parts/pipe2D.py"; f_name := "Pipe2D"; f_line := 46;
 f_params := []; f_closure := [];
 f_locals := ["constr_type"; "_base_err"; "_arg_err"; "length"; "num_gp"; "name"; "part_id"; "_tiny"; "_models"; "grid_spacing"; "_cell_dist"; "_T_ext"; "T"; "_T_top"; "_T_bot"; "_T_port"; "_lam_T"; "_lam_mean"; "_alpha_i"; "_alpha_inf"; "_cp_T"; "_cp_top"; "_cp_bot"; "_cp_port"; "_rho_T"; "_rhocp"; "_ny_T"; "_ui"; "_mcp"; "_UA_tb"; "_UA_port"; "_UA_radial"; "dm"; "_dm_cell"; "_dm_top"; "_dm_bot"; "_dm_port"; "_dm_io"; "res"; "res_dm"; "dT_cond"; "dT_adv"; "port_num"; "_port_own_idx"; "_port_own_idx_2D"; "port_ids"; "port_names"; "dm_char"; "_own_ports"; "_port_vals"; "_A_wll_conn_p"; "_A_fld_conn_p"; "_port_gsp"; "_lam_wll_conn_p"; "_lam_port_fld"; "_lam_fld_own_p"; "_UA_port_fld"; "_solved_ports"; "_vN_diff"; "_trnc_err"; "_trnc_err_cell_weight"; "_stability_breaches"; "solve_numeric"; "solve_explicitly"; "collapse_arrays"; "_collapsed"; "hydr_comp"; "_flow_net_parent"; "break_topology"; "_cnt_open_prts"; "_port_heatcond"; "affect_dm"; "dm_invariant"; "multiple_flows"; "_process_flows"; "is_actuator"; "control_req"; "enlarged_memview"; "plot_special"; "initialized"; "_memadd_T"; "info_topology"; "_diff_fully_njit"];
 f_outer := [];
 f_conds := ["*"; "kwargs"; "'length' in kwargs and isinstance(kwargs['length'], (int, float)) and (kwargs['length']..."; "'grid_points' in kwargs and type(kwargs['grid_points']) == int and (kwargs['grid_points..."; "not hasattr(self, 'info_topology')"];
 f_body := Frame (block [Def [1]; Use [1]; Def [2]; Def [3]; Choice 2 Skip (Raise); Choice 3 Skip (Raise); Def
 [4]; Choice 4 Skip (Raise); Def [5]; Def [6]; Use [9]; Def [7]; Use [9]; Def [8]; Def [9]; Use
 [4;5]; Def [10]; Use [10;4]; Def [11]; Use [5]; Def [12]; Use [12]; Def [13]; Use [12]; Def [14];
 Use [12]; Def [15]; Use [13]; Def [16]; Use [5]; Def [17]; Use [5]; Def [18]; Use [17]; Def [19];
 Use [17]; Def [20]; Use [5]; Def [21]; Use [21]; Def [22]; Use [21]; Def [23]; Use [16]; Def [24];
 Use [5]; Def [25]; Use [25]; Def [26]; Use [5]; Def [27]; Use [5]; Def [28]; Use [5]; Def [29]; Use
 [13]; Def [30]; Use [16]; Def [31]; Use [13]; Def [32]; Use [13]; Def [33]; Use [13]; Def [34]; Use
 [13]; Def [35]; Use [13]; Def [36]; Use [16]; Def [37]; Use [16]; Def [38]; Use [13]; Def [39]; Def
 [40]; Use [13]; Def [41]; Use [13]; Def [42]; Def [43]; Use [13]; Def [44]; Use [44]; Def [45]; Def
 [46]; Def [47]; Def [48]; Use [47;43]; Loop false (Use [6]) Skip; Def [49]; Use [43]; Def [50]; Use
 [16]; Def [51]; Use [16]; Def [52]; Use [16]; Def [53]; Use [16]; Def [54]; Use [16]; Def [55]; Use
 [16]; Def [56]; Use [16]; Def [57]; Def [58]; Def [59]; Def [60]; Def [61]; Def [62]; Def [63]; Def
 [64]; Def [65]; Def [66]; Def [67]; Def [68]; Use [9;6]; Def [69]; Use [43]; Def [70]; Def [71]; Def
 [72]; Def [73]; Def [74]; Def [75]; Def [76]; Def [77]; Def [78]; Def [79]; Def [80]; Use [13]; Def
 [81]; Choice 5 (Def [82]) Skip; Def [83]]) |}.

(* multisim/parts/pipe_branched.py, line 45: PipeBranched *)
Definition init_PipeBranched : func := {|
 f_file := "parts/pipe_branched.py"; f_name := "PipeBranched"; f_line := 45;
 f_params := []; f_closure := [];
 f_locals := ["constr_type"; "_models"; "_aae"; "_base_err"; "_arg_err"; "length"; "num_gp"; "name"; "part_id"; "_tiny"; "grid_spacing"; "_cell_dist"; "_T_ext"; "T"; "_T_top"; "_T_bot"; "_T_port"; "_T_s"; "_lam_T"; "_lam_mean"; "_alpha_i"; "_alpha_inf"; "_cp_T"; "_cp_top"; "_cp_bot"; "_cp_port"; "_rho_T"; "_rhocp"; "_ny_T"; "_ui"; "_mcp"; "_UA_tb"; "_UA_port"; "_UA_amb_shell"; "dm"; "_dm_top"; "_dm_bot"; "_dm_port"; "_dm_io"; "res"; "res_dm"; "dT_cond"; "dT_adv"; "dT_total"; "port_num"; "_port_own_idx"; "_port_own_idx_2D"; "port_ids"; "port_names"; "dm_char"; "_own_ports"; "_port_vals"; "_A_wll_conn_p"; "_A_fld_conn_p"; "_A_p_wll_mean"; "_A_p_fld_mean"; "_port_gsp"; "_lam_wll_conn_p"; "_lam_port_fld"; "_lam_fld_own_p"; "_UA_port_fld"; "_UA_port_wll"; "_solved_ports"; "_vN_diff"; "_trnc_err"; "_trnc_err_cell_weight"; "_stability_breaches"; "solve_numeric"; "solve_explicitly"; "collapse_arrays"; "_collapsed"; "can_add_ports"; "_use_structuredarray"; "hydr_comp"; "_flow_net_parent"; "break_topology"; "_cnt_open_prts"; "_port_heatcond"; "affect_dm"; "dm_invariant"; "multiple_flows"; "_process_flows"; "is_actuator"; "control_req"; "enlarged_memview"; "plot_special"; "initialized"; "_memadd_T"; "info_topology"; "_diff_fully_njit"; "_diff_njit"];
 f_outer := ["_V_total"; "V_cell"];
 f_conds := ["*"; "'constr_type' not in kwargs"; "ks_ in kwd_args"; "not in_kwds"; "len(argerrs) >= 1"; "isinstance(kwargs['length'], (int, float)) and kwargs['length'] > 0"; "isinstance(kwargs['grid_points'], int) and kwargs['grid_points'] > 0"; "self.dm_invariant"; "not hasattr(self, 'info_topology')"; "self.can_add_ports"; "'new_ports' in kwargs"; "kwargs['new_ports'] is not None"; "isinstance(kwargs['new_ports'], dict)"; "isinstance(value, list)"; "value[1] in ('index', 'volume', 'distance')"; "value[1] == 'index'"; "isinstance(value[0], int)"; "-1 <= value[0] <= self.num_gp - 1"; "value[0] == -1"; "value[1] == 'volume'"; "isinstance(value[0], (int, float))"; "0.0 <= value[0] <= self._V_total"; "0.0 <= value[0] <= self.length"; "value[0] >= 0"; "value[0] >= self.num_gp"; "value[0] < 0"; "value[0] in self._port_own_idx"];
 f_body := Frame (block [Def [1]; Use [1]; Frame (block [Def [2]; Choice 2 (Def [1]) (Def [1]); Def [3]; Use
 [1;3]; Frame (block [Loop false (Loop false Skip Skip) Skip; Choice 5 (Raise) Skip]); Use [1]; Def
 [4]; Def [5]; Choice 6 Skip (block [Use [4;5;3]; Raise]); Def [6]; Choice 7 Skip (block [Use
 [4;5;3]; Raise]); Def [7]; Def [8]; Use [2]; Def [9]; Use [2]; Def [10]; Use [6;7]; Def [11]; Use
 [11;6]; Def [12]; Use [7]; Def [13]; Use [13]; Def [14]; Use [14;13]; Def [15]; Use [13]; Def [16];
 Def [17]; Use [17]; Def [18]; Use [7]; Def [19]; Use [7]; Def [20]; Use [19]; Def [21]; Use [19];
 Def [22]; Use [7]; Def [23]; Use [23]; Def [24]; Use [23]; Def [25]; Def [26]; Use [7]; Def [27];
 Use [27]; Def [28]; Use [7]; Def [29]; Def [30]; Def [31]; Use [14]; Def [32]; Def [33]; Def [34];
 Def [35]; Def [36]; Def [37]; Def [38]; Def [39]; Use [7]; Def [40]; Def [41]; Def [42]; Def [43];
 Def [44]; Def [45]; Use [14]; Def [46]; Use [46]; Def [47]; Def [48]; Def [49]; Def [50]; Use
 [49;45]; Loop false (Use [8]) Skip; Def [51]; Use [45]; Def [52]; Def [53]; Def [54]; Def [55]; Def
 [56]; Def [57]; Use [17]; Def [58]; Def [59]; Def [60]; Def [61]; Def [62]; Def [63]; Def [64]; Def
 [65]; Def [66]; Def [67]; Def [68]; Def [69]; Def [70]; Def [71]; Def [72]; Def [73]; Def [74]; Def
 [75]; Use [2;8]; Def [76]; Use [45]; Def [77]; Def [78]; Def [79]; Def [80]; Def [81]; Def [82]; Def
 [83]; Def [84]; Def [85]; Def [86]; Def [87]; Use [80]; Choice 8 (block [Def [39]; Use [39]; Def
 [35]]) Skip; Use [14]; Def [88]; Choice 9 (Def [89]) Skip; Def [90]; Def [91]]); Use [14]; Def [35];
 Use [14]; Def [36]; Use [14]; Def [37]; Def [50]; Def [72]; Frame (block [Use [4;5;72]; Choice 10
 Skip (Raise); Use [4;5]; Choice 11 Skip (Raise); Choice 12 (block [Choice 13 Skip (Raise); Loop
 false (Choice 14 Skip (Raise)) Skip; Use [46]; Loop false (block [Choice 15 Skip (Raise); Choice 16
 (block [Choice 17 Skip (Raise); Use [4;5;7]; Choice 18 Skip (Raise); Choice 19 (Use [7]) Skip])
 (Choice 20 (block [Choice 21 Skip (Raise); Use [4;5;92]; Choice 22 Skip (Raise); Use [93]]) (block
 [Choice 21 Skip (Raise); Use [4;5;6]; Choice 23 Skip (Raise); Use [6;7]])); Use [7]; Choice 25 (Use
 [7]) Skip; Use [46]; Use [17]; Def [17]; Use [38]; Def [38]; Use [26]; Def [26]; Use [33]; Def [33];
 Use [17]; Def [39]; Use [46]; Def [46]; Use [50]; Def [50]; Use [49]; Def [49]; Use [45]; Def [45]])
 Skip]) Skip; Use [46]; Def [47]]); Use [49;45]; Loop false (Use [8]) Skip; Def [51]; Use [45]; Def
 [52]; Use [17]; Def [53]; Def [54]; Def [55]; Def [56]; Def [57]; Use [17]; Def [58]; Def [59]; Def
 [60]; Def [61]; Def [62]; Def [76]; Use [45]; Def [77]; Def [79]; Def [80]; Def [90]]) |}.

(* multisim/parts/pipe_with_pump.py, line 42: PipeWithPump *)
Definition init_PipeWithPump : func := {|
 f_file := "parts/pipe_with_pump.py"; f_name := "PipeWithPump"; f_line := 42;
 f_params := []; f_closure := [];
 f_locals := ["constr_type"; "_models"; "_aae"; "_base_err"; "_arg_err"; "length"; "num_gp"; "name"; "part_id"; "_tiny"; "grid_spacing"; "_cell_dist"; "_T_ext"; "T"; "_T_top"; "_T_bot"; "_T_port"; "_T_s"; "_lam_T"; "_lam_mean"; "_alpha_i"; "_alpha_inf"; "_cp_T"; "_cp_top"; "_cp_bot"; "_cp_port"; "_rho_T"; "_rhocp"; "_ny_T"; "_ui"; "_mcp"; "_UA_tb"; "_UA_port"; "_UA_amb_shell"; "dm"; "_dm_top"; "_dm_bot"; "_dm_port"; "_dm_io"; "res"; "res_dm"; "dT_cond"; "dT_adv"; "dT_total"; "port_num"; "_port_own_idx"; "_port_own_idx_2D"; "port_ids"; "port_names"; "dm_char"; "_own_ports"; "_port_vals"; "_A_wll_conn_p"; "_A_fld_conn_p"; "_A_p_wll_mean"; "_A_p_fld_mean"; "_port_gsp"; "_lam_wll_conn_p"; "_lam_port_fld"; "_lam_fld_own_p"; "_UA_port_fld"; "_UA_port_wll"; "_solved_ports"; "_vN_diff"; "_trnc_err"; "_trnc_err_cell_weight"; "_stability_breaches"; "solve_numeric"; "solve_explicitly"; "collapse_arrays"; "_collapsed"; "can_add_ports"; "_use_structuredarray"; "hydr_comp"; "_flow_net_parent"; "break_topology"; "_cnt_open_prts"; "_port_heatcond"; "affect_dm"; "dm_invariant"; "multiple_flows"; "_process_flows"; "is_actuator"; "control_req"; "enlarged_memview"; "plot_special"; "initialized"; "_memadd_T"; "info_topology"; "_diff_fully_njit"; "_diff_njit"; "_actuator_CV"; "_actuator_CV_name"; "_unit"; "actuator_special"; "ctrl_defined"];
 f_outer := [];
 f_conds := ["*"; "'constr_type' not in kwargs"; "ks_ in kwd_args"; "not in_kwds"; "len(argerrs) >= 1"; "isinstance(kwargs['length'], (int, float)) and kwargs['length'] > 0"; "isinstance(kwargs['grid_points'], int) and kwargs['grid_points'] > 0"; "self.dm_invariant"; "not hasattr(self, 'info_topology')"];
 f_body := Frame (block [Def [1]; Use [1]; Frame (block [Def [2]; Choice 2 (Def [1]) (Def [1]); Def [3]; Use
 [1;3]; Frame (block [Loop false (Loop false Skip Skip) Skip; Choice 5 (Raise) Skip]); Use [1]; Def
 [4]; Def [5]; Choice 6 Skip (block [Use [4;5;3]; Raise]); Def [6]; Choice 7 Skip (block [Use
 [4;5;3]; Raise]); Def [7]; Def [8]; Use [2]; Def [9]; Use [2]; Def [10]; Use [6;7]; Def [11]; Use
 [11;6]; Def [12]; Use [7]; Def [13]; Use [13]; Def [14]; Use [14;13]; Def [15]; Use [13]; Def [16];
 Def [17]; Use [17]; Def [18]; Use [7]; Def [19]; Use [7]; Def [20]; Use [19]; Def [21]; Use [19];
 Def [22]; Use [7]; Def [23]; Use [23]; Def [24]; Use [23]; Def [25]; Def [26]; Use [7]; Def [27];
 Use [27]; Def [28]; Use [7]; Def [29]; Def [30]; Def [31]; Use [14]; Def [32]; Def [33]; Def [34];
 Def [35]; Def [36]; Def [37]; Def [38]; Def [39]; Use [7]; Def [40]; Def [41]; Def [42]; Def [43];
 Def [44]; Def [45]; Use [14]; Def [46]; Use [46]; Def [47]; Def [48]; Def [49]; Def [50]; Use
 [49;45]; Loop false (Use [8]) Skip; Def [51]; Use [45]; Def [52]; Def [53]; Def [54]; Def [55]; Def
 [56]; Def [57]; Use [17]; Def [58]; Def [59]; Def [60]; Def [61]; Def [62]; Def [63]; Def [64]; Def
 [65]; Def [66]; Def [67]; Def [68]; Def [69]; Def [70]; Def [71]; Def [72]; Def [73]; Def [74]; Def
 [75]; Use [2;8]; Def [76]; Use [45]; Def [77]; Def [78]; Def [79]; Def [80]; Def [81]; Def [82]; Def
 [83]; Def [84]; Def [85]; Def [86]; Def [87]; Use [80]; Choice 8 (block [Def [39]; Use [39]; Def
 [35]]) Skip; Use [14]; Def [88]; Choice 9 (Def [89]) Skip; Def [90]; Def [91]]); Def [83]; Use [35];
 Def [92]; Def [93]; Def [94]; Def [84]; Def [95]; Def [96]; Def [75]; Def [90]]) |}.

(* multisim/parts/pipe_with_valve.py, line 45: PipeWith3wValve *)
Definition init_PipeWith3wValve : func := {|
 f_file := "parts/pipe_with_valve.py"; f_name := "PipeWith3wValve"; f_line := 45;
 f_params := []; f_closure := [];
 f_locals := ["constr_type"; "_models"; "_aae"; "_base_err"; "_arg_err"; "length"; "num_gp"; "name"; "part_id"; "_tiny"; "grid_spacing"; "_cell_dist"; "_T_ext"; "T"; "_T_top"; "_T_bot"; "_T_port"; "_T_s"; "_lam_T"; "_lam_mean"; "_alpha_i"; "_alpha_inf"; "_cp_T"; "_cp_top"; "_cp_bot"; "_cp_port"; "_rho_T"; "_rhocp"; "_ny_T"; "_ui"; "_mcp"; "_UA_tb"; "_UA_port"; "_UA_amb_shell"; "dm"; "_dm_top"; "_dm_bot"; "_dm_port"; "_dm_io"; "res"; "res_dm"; "dT_cond"; "dT_adv"; "dT_total"; "port_num"; "_port_own_idx"; "_port_own_idx_2D"; "port_ids"; "port_names"; "dm_char"; "_own_ports"; "_port_vals"; "_A_wll_conn_p"; "_A_fld_conn_p"; "_A_p_wll_mean"; "_A_p_fld_mean"; "_port_gsp"; "_lam_wll_conn_p"; "_lam_port_fld"; "_lam_fld_own_p"; "_UA_port_fld"; "_UA_port_wll"; "_solved_ports"; "_vN_diff"; "_trnc_err"; "_trnc_err_cell_weight"; "_stability_breaches"; "solve_numeric"; "solve_explicitly"; "collapse_arrays"; "_collapsed"; "can_add_ports"; "_use_structuredarray"; "hydr_comp"; "_flow_net_parent"; "break_topology"; "_cnt_open_prts"; "_port_heatcond"; "affect_dm"; "dm_invariant"; "multiple_flows"; "_process_flows"; "is_actuator"; "control_req"; "enlarged_memview"; "plot_special"; "initialized"; "_memadd_T"; "info_topology"; "_diff_fully_njit"; "_diff_njit"; "_valve_B_loc"; "pf_arr"; "port_factors"; "_actuator_CV"; "_actuator_CV_name"; "_unit"; "actuator_special"; "ctrl_defined"];
 f_outer := ["_V_total"; "V_cell"];
 f_conds := ["*"; "'constr_type' not in kwargs"; "ks_ in kwd_args"; "not in_kwds"; "len(argerrs) >= 1"; "isinstance(kwargs['length'], (int, float)) and kwargs['length'] > 0"; "isinstance(kwargs['grid_points'], int) and kwargs['grid_points'] > 0"; "self.dm_invariant"; "not hasattr(self, 'info_topology')"; "'valve_location' in kwargs and isinstance(kwargs['valve_location'], int) and (0 <= kwar..."; "self.can_add_ports"; "'new_ports' in kwargs"; "kwargs['new_ports'] is not None"; "isinstance(kwargs['new_ports'], dict)"; "isinstance(value, list)"; "value[1] in ('index', 'volume', 'distance')"; "value[1] == 'index'"; "isinstance(value[0], int)"; "-1 <= value[0] <= self.num_gp - 1"; "value[0] == -1"; "value[1] == 'volume'"; "isinstance(value[0], (int, float))"; "0.0 <= value[0] <= self._V_total"; "0.0 <= value[0] <= self.length"; "value[0] >= 0"; "value[0] >= self.num_gp"; "value[0] < 0"; "value[0] in self._port_own_idx"];
 f_body := Frame (block [Def [1]; Use [1]; Frame (block [Def [2]; Choice 2 (Def [1]) (Def [1]); Def [3]; Use
 [1;3]; Frame (block [Loop false (Loop false Skip Skip) Skip; Choice 5 (Raise) Skip]); Use [1]; Def
 [4]; Def [5]; Choice 6 Skip (block [Use [4;5;3]; Raise]); Def [6]; Choice 7 Skip (block [Use
 [4;5;3]; Raise]); Def [7]; Def [8]; Use [2]; Def [9]; Use [2]; Def [10]; Use [6;7]; Def [11]; Use
 [11;6]; Def [12]; Use [7]; Def [13]; Use [13]; Def [14]; Use [14;13]; Def [15]; Use [13]; Def [16];
 Def [17]; Use [17]; Def [18]; Use [7]; Def [19]; Use [7]; Def [20]; Use [19]; Def [21]; Use [19];
 Def [22]; Use [7]; Def [23]; Use [23]; Def [24]; Use [23]; Def [25]; Def [26]; Use [7]; Def [27];
 Use [27]; Def [28]; Use [7]; Def [29]; Def [30]; Def [31]; Use [14]; Def [32]; Def [33]; Def [34];
 Def [35]; Def [36]; Def [37]; Def [38]; Def [39]; Use [7]; Def [40]; Def [41]; Def [42]; Def [43];
 Def [44]; Def [45]; Use [14]; Def [46]; Use [46]; Def [47]; Def [48]; Def [49]; Def [50]; Use
 [49;45]; Loop false (Use [8]) Skip; Def [51]; Use [45]; Def [52]; Def [53]; Def [54]; Def [55]; Def
 [56]; Def [57]; Use [17]; Def [58]; Def [59]; Def [60]; Def [61]; Def [62]; Def [63]; Def [64]; Def
 [65]; Def [66]; Def [67]; Def [68]; Def [69]; Def [70]; Def [71]; Def [72]; Def [73]; Def [74]; Def
 [75]; Use [2;8]; Def [76]; Use [45]; Def [77]; Def [78]; Def [79]; Def [80]; Def [81]; Def [82]; Def
 [83]; Def [84]; Def [85]; Def [86]; Def [87]; Use [80]; Choice 8 (block [Def [39]; Use [39]; Def
 [35]]) Skip; Use [14]; Def [88]; Choice 9 (Def [89]) Skip; Def [90]; Def [91]]); Use [14]; Def [35];
 Use [14]; Def [36]; Use [14]; Def [37]; Def [50]; Use [4;5]; Choice 1 Skip (Choice 1 Skip (Use
 [7])); Choice 10 Skip (Raise); Def [92]; Def [72]; Use [92]; Frame (block [Use [4;5;72]; Choice 11
 Skip (Raise); Use [4;5]; Choice 12 Skip (Raise); Choice 13 (block [Choice 14 Skip (Raise); Loop
 false (Choice 15 Skip (Raise)) Skip; Use [46]; Loop false (block [Choice 16 Skip (Raise); Choice 17
 (block [Choice 18 Skip (Raise); Use [4;5;7]; Choice 19 Skip (Raise); Choice 20 (Use [7]) Skip])
 (Choice 21 (block [Choice 22 Skip (Raise); Use [4;5;100]; Choice 23 Skip (Raise); Use [101]]) (block
 [Choice 22 Skip (Raise); Use [4;5;6]; Choice 24 Skip (Raise); Use [6;7]])); Use [7]; Choice 26 (Use
 [7]) Skip; Use [46]; Use [17]; Def [17]; Use [38]; Def [38]; Use [26]; Def [26]; Use [33]; Def [33];
 Use [17]; Def [39]; Use [46]; Def [46]; Use [50]; Def [50]; Use [49]; Def [49]; Use [45]; Def [45]])
 Skip]) Skip; Use [46]; Def [47]]); Def [72]; Def [49]; Def [50]; Def [93]; Use [93]; Def [94]; Use
 [49;45]; Loop false (Use [8]) Skip; Def [51]; Use [45]; Def [52]; Use [17]; Def [53]; Def [54]; Def
 [55]; Def [56]; Def [57]; Use [17]; Def [58]; Def [59]; Def [60]; Def [61]; Def [62]; Def [76]; Use
 [45]; Def [77]; Def [79]; Def [80]; Def [83]; Use [93]; Def [95]; Def [96]; Def [97]; Def [84]; Def
 [98]; Def [99]; Def [90]]) |}.

(* multisim/parts/pump.py, line 32: Pump *)
Definition init_Pump : func := {|
 f_file := "parts/pump.py"; f_name := "Pump"; f_line := 32;
 f_params := []; f_closure := [];
 f_locals := ["_models"; "constr_type"; "_base_err"; "_arg_err"; "name"; "_unit"; "part_id"; "_tiny"; "num_gp"; "T"; "_T_init"; "_T_port"; "_A_wll_conn_p"; "_A_fld_conn_p"; "_port_gsp"; "_lam_wll_conn_p"; "_lam_port_fld"; "port_num"; "_port_own_idx"; "_port_own_idx_2D"; "port_ids"; "port_names"; "dm_char"; "_own_ports"; "_port_vals"; "_solved_ports"; "res_dm"; "solve_numeric"; "collapse_arrays"; "_collapsed"; "hydr_comp"; "_flow_net_parent"; "break_topology"; "_cnt_open_prts"; "_port_heatcond"; "affect_dm"; "dm_invariant"; "multiple_flows"; "_process_flows"; "dm_given"; "is_actuator"; "control_req"; "actuator_special"; "ctrl_defined"; "enlarged_memview"; "plot_special"; "initialized"; "_memadd_T"; "dm"; "_dm_port"; "_dm_io"; "_actuator_CV"; "_actuator_CV_name"; "_memadd_dm"; "info_topology"; "_diff_fully_njit"];
 f_outer := [];
 f_conds := ["*"; "self.dm_invariant"; "not self.hydr_comp"; "self.is_actuator"];
 f_body := Frame (block [Def [1]; Def [2]; Use [2]; Def [3]; Def [4]; Def [5]; Def [6]; Use [1]; Def [7]; Use
 [1]; Def [8]; Def [9]; Def [10]; Use [10]; Def [11]; Use [10]; Def [12]; Use [12]; Def [13]; Use
 [12]; Def [14]; Use [12;8]; Def [15]; Use [12;8]; Def [16]; Use [12;8]; Def [17]; Def [18]; Use
 [10]; Def [19]; Use [19]; Def [20]; Def [21]; Def [22]; Def [23]; Use [22;18]; Loop false (Use [5])
 Skip; Def [24]; Use [18]; Def [25]; Def [26]; Use [18]; Def [27]; Def [28]; Def [29]; Def [30]; Def
 [31]; Def [32]; Use [1;5]; Def [33]; Use [18]; Def [34]; Def [35]; Def [36]; Def [37]; Def [38]; Def
 [39]; Def [40]; Def [41]; Def [42]; Def [43]; Def [44]; Def [45]; Def [46]; Def [47]; Use [10]; Def
 [48]; Use [37]; Choice 2 (Def [49]) (block [Use [18]; Def [49]]); Use [31]; Choice 3 (block [Use
 [49]; Def [50]; Use [49]; Def [51]]) (block [Use [10]; Def [50]; Use [10]; Def [51]]); Use [41];
 Choice 4 (block [Use [49]; Def [52]; Def [53]]) Skip; Use [49]; Def [54]; Def [55]; Def [56]]) |}.

(* multisim/parts/tes.py, line 63: Tes *)
Definition init_Tes : func := {|
 f_file := "parts/tes.py"; f_name := "Tes"; f_line := 63;
 f_params := []; f_closure := [];
 f_locals := ["_models"; "constr_type"; "_aae"; "_base_err"; "_arg_err"; "V_tes"; "num_gp"; "_d_o"; "_r_o"; "_d_shell"; "name"; "part_id"; "_tiny"; "_d_i"; "_r_i"; "A_cell"; "V_cell"; "length"; "grid_spacing"; "_cell_dist"; "_A_shell_i"; "_A_shell_o"; "_A_shell_cs"; "_V_shell_cs"; "_V_shell_tb"; "_T_ext"; "T"; "_T_top"; "_T_bot"; "_T_port"; "_T_s"; "_T_s_lid"; "_lid_top"; "_lam_T"; "_lam_mean"; "_alpha_i"; "_alpha_inf"; "_cp_T"; "_cp_top"; "_cp_bot"; "_cp_port"; "_rho_T"; "_rhocp"; "_ny_T"; "_ui"; "_mcp"; "_UA_tb"; "_UA_port"; "_UA_amb_shell"; "_UA_amb_lid"; "dm"; "_dm_top"; "_dm_bot"; "_dm_port"; "_dm_io"; "res"; "res_dm"; "dT_cond"; "dT_adv"; "dT_total"; "port_num"; "_port_own_idx"; "port_ids"; "port_names"; "dm_char"; "_port_own_idx_2D"; "_own_ports"; "_port_vals"; "_A_wll_conn_p"; "_A_fld_conn_p"; "_port_gsp"; "_lam_wll_conn_p"; "_lam_port_fld"; "_lam_fld_own_p"; "_UA_port_fld"; "_solved_ports"; "_vN_diff"; "_vN_dm"; "_trnc_err"; "_trnc_err_cell_weight"; "_stability_breaches"; "solve_numeric"; "solve_explicitly"; "collapse_arrays"; "_collapsed"; "can_add_ports"; "hydr_comp"; "_flow_net_parent"; "break_topology"; "_cnt_open_prts"; "_port_heatcond"; "affect_dm"; "dm_invariant"; "multiple_flows"; "_process_flows"; "calculate_buoyancy"; "is_actuator"; "control_req"; "enlarged_memview"; "plot_special"; "initialized"; "_memadd_T"; "info_topology"; "_diff_fully_njit"];
 f_outer := [];
 f_conds := ["*"; "ks_ in kwd_args"; "not in_kwds"; "len(argerrs) >= 1"; "kwargs"; "isinstance(kwargs['grid_points'], int)"; "kwargs['outer_diameter'] > 0.0"; "isinstance(kwargs['shell_thickness'], (int, float)) and kwargs['shell_thickness'] > 0"; "self._d_shell < 1"; "'new_ports' in kwargs"; "kwargs['new_ports'] is None"; "kwargs['new_ports'] != 'none'"; "isinstance(kwargs['new_ports'], dict)"; "isinstance(value, list)"; "value[1] == 'index' or value[1] == 'volume'"; "value[1] == 'index'"; "isinstance(value[0], int)"; "-1 <= value[0] <= self.num_gp - 1"; "value[0] == -1"; "isinstance(value[0], (float, int))"; "0 <= value[0] <= self.V_tes"; "value[0] >= self.num_gp"; "value[0] < 0"; "value[0] in self._port_own_idx"];
 f_body := Frame (block [Def [1]; Def [2]; Def [3]; Use [2;3]; Frame (block [Loop false (Loop false Skip Skip)
 Skip; Choice 4 (Raise) Skip]); Use [2]; Def [4]; Def [5]; Choice 5 Skip (Raise); Def [6]; Choice 6
 Skip (block [Use [4;5;3]; Raise]); Def [7]; Choice 7 Skip (block [Use [4;5;3]; Raise]); Def [8]; Use
 [8]; Def [9]; Choice 8 Skip (block [Use [4;5;3]; Raise]); Def [10]; Use [10]; Choice 9 Skip (block
 [Use [10]; Raise]); Def [11]; Use [1]; Def [12]; Use [1]; Def [13]; Use [8;10]; Def [14]; Use [14];
 Def [15]; Use [14]; Def [16]; Use [6;7]; Def [17]; Use [6;14]; Def [18]; Use [18;7]; Def [19]; Use
 [7;18]; Def [20]; Use [14;19]; Def [21]; Use [8;19]; Def [22]; Use [8;14]; Def [23]; Use [23;18];
 Def [24]; Use [8;10]; Def [25]; Use [7]; Def [26]; Use [26]; Def [27]; Use [26]; Def [28]; Use [26];
 Def [29]; Def [30]; Use [27]; Def [31]; Use [31]; Def [32]; Def [33]; Use [7]; Def [34]; Use [7];
 Def [35]; Use [34]; Def [36]; Use [34]; Def [37]; Use [7]; Def [38]; Use [38]; Def [39]; Use [38];
 Def [40]; Use [30]; Def [41]; Use [7]; Def [42]; Use [42]; Def [43]; Use [7]; Def [44]; Use [27];
 Def [45]; Use [27]; Def [46]; Use [27]; Def [47]; Use [30]; Def [48]; Use [27]; Def [49]; Use [32];
 Def [50]; Use [27]; Def [51]; Use [27]; Def [52]; Use [27]; Def [53]; Use [30]; Def [54]; Use [30];
 Def [55]; Use [7]; Def [56]; Def [57]; Use [27]; Def [58]; Use [27]; Def [59]; Use [27]; Def [60];
 Def [61]; Use [27]; Def [62]; Def [63]; Def [64]; Def [65]; Frame (block [Use [4;5]; Choice 10 Skip
 (Raise); Choice 12 (block [Use [4;5;11]; Choice 13 Skip (Raise); Loop false (Choice 14 Skip (Raise))
 Skip; Use [62]; Loop false (block [Choice 15 Skip (Raise); Choice 16 (block [Choice 17 Skip (Raise);
 Use [11;7]; Choice 18 Skip (Raise); Choice 19 (Use [7]) Skip]) (block [Choice 20 Skip (Raise); Use
 [6]; Choice 21 Skip (Raise); Use [17]]); Use [7]; Choice 22 (Use [7]) Skip; Use [62]; Use [30]; Def
 [30]; Use [54]; Def [54]; Use [55]; Def [55]; Use [41]; Def [41]; Use [48]; Def [48]; Use [62]; Def
 [62]; Use [65]; Def [65]; Use [64]; Def [64]; Use [61]; Def [61]]) Skip]) Skip; Use [62]; Def
 [66]]); Use [64;61]; Loop false (Use [11]) Skip; Def [67]; Use [61]; Def [68]; Use [30]; Def [69];
 Use [30]; Def [70]; Use [30]; Def [71]; Use [30]; Def [72]; Use [30]; Def [73]; Use [30]; Def [74];
 Use [30]; Def [75]; Def [76]; Def [77]; Def [78]; Def [79]; Def [80]; Def [81]; Def [82]; Def [83];
 Def [84]; Def [85]; Def [86]; Def [87]; Def [88]; Use [1;11]; Def [89]; Use [61]; Def [90]; Def
 [91]; Def [92]; Def [93]; Def [94]; Def [95]; Def [96]; Def [97]; Def [98]; Def [99]; Def [100]; Def
 [101]; Use [27]; Def [102]; Def [103]; Def [104]]) |}.

(* multisim/simenv.py, line 34: SimEnv *)
Definition init_SimEnv : func := {|
 f_file := "simenv.py"; f_name := "SimEnv"; f_line := 34;
 f_params := []; f_closure := [];
 f_locals := ["_initialized"; "_solver_set"; "_timeframe_set"; "_disksaving_set"; "suppress_printing"; "_simenv_name"; "_pipe_specs"; "_mprop_sld"; "_hexdb"; "parts"; "ports"; "ports_all"; "_port_mapping"; "_port_map_arr"; "port_links"; "plinks_arr"; "boundary_conditions"; "_dyn_BC"; "_dyn_BC_timevec"; "solve_num_expl"; "solve_num_impl"; "solve_num_njit"; "solve_nonnum"; "sup_net"; "sub_net"; "flow_net"; "_hydr_comps"; "ctrl_l"; "ctrls"; "_actuators"; "stepnum"; "_total_stepnum"; "num_parts"; "num_ports"; "_num_conn_ports"; "num_ctrls"; "_num_cells_tot_nmrc"; "_num_cells_tot_nmrc_expl"; "_num_cells_tot_nmrc_impl"; "_num_cells_tot_nnmrc"; "time_vec"; "_total_time_vec"; "_vN_max_step"; "sensors"; "dm_warn"; "_SimEnv__postpone"; "_disk_store_parts"; "_disk_store_utility"; "_tiny"];
 f_outer := [];
 f_conds := ["*"; "not self.suppress_printing"];
 f_body := Frame (block [Def [1]; Def [2]; Def [3]; Def [4]; Def [5]; Def [6]; Def [7]; Def [8]; Def [9]; Use
 [6;5]; Def [10]; Def [11]; Def [12]; Def [13]; Def [14]; Def [15]; Def [16]; Def [17]; Def [18]; Def
 [19]; Def [20]; Def [21]; Def [22]; Def [23]; Def [24]; Def [25]; Def [26]; Def [27]; Def [28]; Def
 [29]; Def [30]; Def [31]; Def [32]; Def [33]; Def [34]; Def [35]; Def [36]; Def [37]; Def [38]; Def
 [39]; Def [40]; Def [41]; Def [42]; Def [43]; Def [44]; Def [45]; Def [46]; Def [47]; Def [48]; Def
 [49]]) |}.

(* multisim/utility_functions.py, line 1271: NetPlotter *)
Definition init_NetPlotter : func := {|
 f_file := "utility_functions.py"; f_name := "NetPlotter"; f_line := 1271;
 f_params := []; f_closure := [];
 f_locals := [];
 f_outer := [];
 f_conds := ["*"];
 f_body := Skip |}.

(* multisim/utility_functions.py, line 2444: Meters_2 *)
Definition init_Meters_2 : func := {|
 f_file := "utility_functions.py"; f_name := "Meters_2"; f_line := 2444;
 f_params := []; f_closure := [];
 f_locals := ["_simenv"; "start_time"; "_resample"; "_resample_freq"; "_time_index"; "_meter_time_index"; "meters"; "_Meters__midx_names"; "meters_df"; "_disk_saving"; "_dstore"];
 f_outer := [];
 f_conds := ["*"; "self._simenv._disk_store['resample']"; "not self._resample"; "self._disk_saving"];
 f_body := Frame (block [Def [1]; Def [2]; Use [1]; Choice 2 (block [Def [3]; Use [1]; Def [4]]) (block [Def
 [3]; Def [4]]); Use [1;2]; Def [5]; Use [3]; Choice 3 (block [Use [5]; Def [6]]) (block [Use [5;4];
 Def [6]]); Def [7]; Use [7]; Def [8]; Use [6]; Def [9]; Use [7;1;9]; Def [10]; Use [10]; Choice 4
 (block [Use [1]; Def [11]]) Skip]) |}.

Definition constructors : list func := [
 init_Meters;
 init_Controls;
 init_FlowNet;
 init_CHPPlant;
 init_Connector3w;
 init_PID;
 init_BangBang;
 init_TwoSensors;
 init_ModelPredCHP;
 init_HeatedPipe;
 init_HeatExchanger;
 init_HEXCondPoly;
 init_HexNum;
 init_MixingValve;
 init_Pipe;
 init_Pipe2D;
 init_PipeBranched;
 init_PipeWithPump;
 init_PipeWith3wValve;
 init_Pump;
 init_Tes;
 init_SimEnv;
 init_NetPlotter;
 init_Meters_2].

(* names assigned as attribute of some object somewhere (also by setattr,
   parts/controllers.py lines 1501-1563) *)
Definition assigned : list string :=
 ["A_cell"; "A_channel"; "A_hex_total"; "A_plate"; "A_plate_eff"; "HEx_type"; "NUMBA_DISABLE_JIT";
 "T"; "V_cell"; "V_cell_fld"; "V_ch_fld_tot"; "V_tes"; "_A_fld_conn_p"; "_A_fld_own_p"; "_A_o";
 "_A_o_ins"; "_A_o_rel"; "_A_p_fld_mean"; "_A_p_wll_mean"; "_A_shell_cs"; "_A_shell_i";
 "_A_shell_ins"; "_A_shell_o"; "_A_wll_conn_p"; "_A_wll_cs"; "_A_wll_own_p"; "_Connector3w__pt";
 "_Meters__midx_names"; "_MixingValve__pt"; "_ModelPredCHP__err_prof";
 "_ModelPredCHP__err_prof_ctrl"; "_ModelPredCHP__tes_rstr_dflt"; "_Pel"; "_Pgas"; "_Pgas_max";
 "_Pipe2D__Vcellrhomax"; "_Pipe2D__rhocpmax"; "_RC"; "_SimEnv__BC_timedelta"; "_SimEnv__atol";
 "_SimEnv__base_num_steps"; "_SimEnv__bkp_kwargs_timeframe"; "_SimEnv__dtdict"; "_SimEnv__dtnt";
 "_SimEnv__infer_start_date"; "_SimEnv__last_step_t_idx"; "_SimEnv__max_stepsize";
 "_SimEnv__min_factor"; "_SimEnv__min_stepsize"; "_SimEnv__new_trnc_err"; "_SimEnv__order";
 "_SimEnv__parr_bkp"; "_SimEnv__postpone"; "_SimEnv__rtol"; "_SimEnv__safety";
 "_SimEnv__save_to_disk"; "_T_amb"; "_T_bot"; "_T_chp_in"; "_T_chp_in_max"; "_T_chp_in_max_emrgncy";
 "_T_dmd"; "_T_ext"; "_T_fg_in"; "_T_fld"; "_T_init"; "_T_mean"; "_T_port"; "_T_s"; "_T_s_lid";
 "_T_sup"; "_T_top"; "_T_w_in"; "_T_wll"; "_Tes__n"; "_UA_amb"; "_UA_amb_lid"; "_UA_amb_shell";
 "_UA_dim1"; "_UA_dim1_wll"; "_UA_dim2"; "_UA_fld_ports"; "_UA_fld_wll"; "_UA_fld_wll_fld";
 "_UA_port"; "_UA_port_fld"; "_UA_port_wll"; "_UA_radial"; "_UA_tb"; "_UA_tb_wll"; "_V_cell_wll";
 "_V_plate"; "_V_shell_cs"; "_V_shell_tb"; "_X_pred"; "_aae"; "_aaei"; "_ab"; "_act_cv";
 "_act_cv_name"; "_act_sgn"; "_act_val"; "_act_val_fp_diff"; "_act_val_full_power"; "_actuator_CV";
 "_actuator_CV_name"; "_actuators"; "_allow_implicit"; "_alpha_i"; "_alpha_inf"; "_anti_windup";
 "_arg_err"; "_awvk"; "_base_err"; "_bin_pow_fac"; "_breaking_part"; "_bw_alpha"; "_bw_cutoff";
 "_cap_restore_time"; "_caps_adapted"; "_cell_dist"; "_channel_divisor"; "_check_vN";
 "_chp_off_perc"; "_chp_on"; "_chp_on_heat"; "_chp_on_perc"; "_chp_state"; "_cnt_open_prts";
 "_collapsed"; "_concurrent"; "_connect_fg_hex"; "_connected_ports"; "_corr_Re"; "_cost_params";
 "_cp_T"; "_cp_bot"; "_cp_mean"; "_cp_out"; "_cp_port"; "_cp_top"; "_cp_wll"; "_ctrl_prfl_input_prd";
 "_ctrl_profiles"; "_ctrld_by"; "_cv_prev_opt"; "_cv_sat_max"; "_cv_sat_min"; "_dQ_heating";
 "_dT_cond_port"; "_dT_heated"; "_d_h"; "_d_i"; "_d_o"; "_d_port"; "_d_shell"; "_data_nt";
 "_deact_sgn"; "_depth_base"; "_deriv"; "_deriv_err"; "_df0"; "_df1"; "_diff_depth";
 "_diff_fully_njit"; "_diff_m"; "_diff_njit"; "_disk_saving"; "_disk_store"; "_disk_store_parts";
 "_disk_store_timevec"; "_disk_store_utility"; "_disksaving_set"; "_dist_min"; "_dm0"; "_dm_bot";
 "_dm_cell"; "_dm_dmd"; "_dm_in"; "_dm_init"; "_dm_io"; "_dm_out"; "_dm_port"; "_dm_sup"; "_dm_top";
 "_dm_w_scld"; "_dstore"; "_dt_time_temp_exc"; "_dv_fg_scld"; "_dyn_BC"; "_dyn_BC_timevec"; "_eex";
 "_emerg_cnsctv"; "_emerg_on"; "_emerg_prms"; "_emerg_use_hyst"; "_esr_gas"; "_eta_el_base";
 "_eta_el_fac"; "_failed_steps"; "_fctr_cap_rstr"; "_fctr_rec_stps"; "_fg_dv_at_pmax"; "_fg_hex";
 "_fg_hex_gdv"; "_fg_hex_name"; "_flat_instandh"; "_flow_at_max_speed"; "_flow_channels";
 "_flow_length"; "_flow_length_lid"; "_flow_net_parent"; "_flow_per_channel"; "_flow_scaling";
 "_freq_fac"; "_gas_dv_range"; "_gaspreis"; "_heat_dmd"; "_heat_mult"; "_heat_spread";
 "_heated_cells"; "_hexdb"; "_hydr_comps"; "_hyst"; "_hyst_val"; "_hysteresis"; "_inc_cont";
 "_initialized"; "_input_arg_names_sorted"; "_input_args"; "_instandh_cost"; "_invert"; "_lam_T";
 "_lam_fld"; "_lam_fld_own_p"; "_lam_ins"; "_lam_mean"; "_lam_plate"; "_lam_port_fld"; "_lam_wll";
 "_lam_wll_conn_p"; "_last_dQ"; "_lid_top"; "_lims"; "_linreg_mdl"; "_llim"; "_lm_coef";
 "_lm_intercept"; "_lt_prev_opt"; "_m_hex_wll"; "_m_per_plate"; "_m_wll"; "_master_act_cv";
 "_master_act_offst"; "_master_type"; "_master_variable"; "_master_variable_index"; "_max_factor";
 "_max_ramp_el"; "_max_ramp_th"; "_max_speed"; "_max_steps"; "_max_temp_exc_time"; "_mcp";
 "_mcp_fld"; "_mcp_heated"; "_mcp_wll"; "_mcp_wll_cell"; "_mcp_wll_plate"; "_mcp_wll_total";
 "_memadd_T"; "_memadd_dm"; "_meter_time_index"; "_min_off_time"; "_min_on_time"; "_mod_lower";
 "_mod_range"; "_mod_upper"; "_models"; "_modrange_chp"; "_mprop_sld"; "_mrc"; "_msb4save";
 "_new_step"; "_njit_final_res"; "_njit_interm_res"; "_num_A"; "_num_cells_tot_nmrc";
 "_num_cells_tot_nmrc_expl"; "_num_cells_tot_nmrc_impl"; "_num_cells_tot_nnmrc"; "_num_channels_dmd";
 "_num_channels_sup"; "_num_conn_ports"; "_num_heated_cells"; "_num_max_cells"; "_ny_T"; "_ny_mean";
 "_off_duration"; "_off_state"; "_on_sens_idx"; "_on_sens_part"; "_opt_bounds"; "_opt_chp_mod";
 "_opt_chp_mod_post"; "_opt_constraints"; "_opt_cost"; "_opt_every"; "_opt_every_td"; "_opt_params";
 "_opt_prfl_input_prd"; "_opt_profiles"; "_opt_status"; "_opt_steps"; "_opt_steptime"; "_opt_tf_sec";
 "_optsize"; "_own_ports"; "_p2h_base"; "_p2h_ratio"; "_pca_components"; "_pca_mean";
 "_pel_power_factor"; "_pf_arr_init"; "_pf_init"; "_pipe_specs"; "_poly_int_comb_idx";
 "_poly_nvars_per_ftr"; "_port_gsp"; "_port_heatcond"; "_port_link_idx"; "_port_map_arr";
 "_port_mapping"; "_port_own_idx"; "_port_own_idx_2D"; "_port_subs_gsp"; "_port_vals";
 "_ports_connected"; "_ports_src_interm"; "_ports_src_res_idx"; "_ports_src_result";
 "_ports_trgt_idx"; "_ports_unconnected"; "_power_modulation"; "_ppic"; "_precalc_pth_oe_uf";
 "_prev_cv"; "_prev_cv_lim"; "_prev_deriv"; "_process_cv_fun"; "_process_cv_mode"; "_process_flows";
 "_pth_power_factor"; "_pwvk"; "_r_corner"; "_r_i"; "_r_ln_ins"; "_r_ln_wll"; "_r_o"; "_r_rins";
 "_r_total"; "_ram"; "_ref"; "_ref_diff"; "_remaining_heat"; "_res_opt_step3"; "_res_optimizer";
 "_res_val_names"; "_resample"; "_resample_freq"; "_reversed"; "_rho_T"; "_rho_mean"; "_rho_wll";
 "_rhocp"; "_s_channel"; "_s_ins"; "_s_plate"; "_s_wll"; "_save_every_n_steps"; "_shutdown_at_time";
 "_shutdown_duration"; "_shutdown_factor_th"; "_shutdown_in_progress"; "_sim_end_time";
 "_sim_postproc_time"; "_sim_start_time"; "_simenv"; "_simenv_name"; "_slope"; "_slope_n";
 "_slope_p"; "_solve_implicit"; "_solve_njit_args"; "_solved_ports"; "_solver_set"; "_solver_state";
 "_solvers"; "_spz"; "_stability_breaches"; "_startup_at_time"; "_startup_duration";
 "_startup_factor_el"; "_startup_factor_gas"; "_startup_factor_th"; "_startup_in_progress";
 "_startuptsteps"; "_steady_state"; "_step_accepted"; "_step_stable"; "_steps_since_fail";
 "_sys_trnc_err"; "_tes_cap_adpt_hi"; "_tes_cap_adpt_lo"; "_tes_caps"; "_tes_caps_adpt";
 "_tes_caps_res"; "_tes_cell_vol"; "_tes_const"; "_tes_part"; "_tes_part_ref"; "_tes_soc_now";
 "_tes_socs"; "_tes_temp"; "_time_index"; "_time_last_cap_adpt"; "_time_since_cap_adpt";
 "_timeframe_set"; "_tiny"; "_total_failed_steps"; "_total_solver_state"; "_total_stepnum";
 "_total_sys_trnc_err"; "_total_time_vec"; "_trnc_err"; "_trnc_err_cell_weight"; "_tsteps_startup";
 "_ui"; "_ulim"; "_unit"; "_unit_fac"; "_use_structuredarray"; "_vN_diff"; "_vN_dm"; "_vN_max_step";
 "_valve_B_loc"; "_vertical"; "_vertical_lid"; "_vnneg"; "_water_dm_range"; "actuator";
 "actuator_special"; "adaptive_steps"; "affect_dm"; "bf"; "boundary_conditions"; "break_topology";
 "calculate_buoyancy"; "can_add_ports"; "chp_power_el"; "chp_power_gas"; "chp_power_th";
 "collapse_arrays"; "constr_type"; "control_req"; "ctrl_defined"; "ctrl_l"; "ctrl_part";
 "ctrl_part_id"; "ctrl_port"; "ctrl_port_id"; "ctrls"; "cv"; "dT_adv"; "dT_adv_impl"; "dT_cond";
 "dT_cond_impl"; "dT_heat"; "dT_total"; "dT_total_impl"; "d_term"; "deadtime"; "delayed_pv";
 "dependency_kind"; "depth"; "diff_impl"; "discrete_time"; "dm"; "dm_char"; "dm_given";
 "dm_invariant"; "dm_parent"; "dm_topo"; "dm_warn"; "dt_arr"; "dt_idx"; "enlarged_memview"; "error";
 "error_sum"; "eta_el"; "eta_th"; "filt_derivate"; "flow_net"; "flow_type"; "fluegas_flow_specific";
 "freq"; "grid_spacing"; "hydr_comp"; "i_term"; "index"; "info_plot"; "info_topology"; "initialized";
 "is_actuator"; "kd"; "kd_mult"; "ki"; "ki_mult"; "kind"; "kp"; "kp_crit"; "kp_mult"; "last_dt_idx";
 "len_dt_arr"; "length"; "length_flow"; "loop_tuning"; "loop_tuning_rule"; "master_ctrl";
 "master_part"; "max_bf"; "meters"; "meters_df"; "multiple_flows"; "name"; "net_type"; "num_ctrls";
 "num_gp"; "num_opts"; "num_parts"; "num_plates"; "num_ports"; "num_steps"; "on_sensor_val";
 "opt_chp_now"; "p2h_ratio"; "parent_part"; "parent_pump"; "part_errors"; "part_id";
 "part_stability_breaches"; "parts"; "passes"; "pel_chp_max"; "pf_arr"; "plinks_arr"; "plot_ready";
 "plot_special"; "port_factors"; "port_ids"; "port_links"; "port_names"; "port_num"; "ports";
 "ports_all"; "prev2_error"; "prev_cv"; "prev_error"; "prev_i_term"; "pth_chp"; "pv"; "pv_arr";
 "ref_part"; "ref_part_id"; "ref_port"; "ref_port_id"; "res"; "res_Pel"; "res_Pgas"; "res_dQ";
 "res_dm"; "sensors"; "solve_explicitly"; "solve_nonnum"; "solve_num_expl"; "solve_num_impl";
 "solve_num_njit"; "solve_numeric"; "solver"; "sp"; "start_time"; "stepnum"; "sub_ctrl"; "sub_net";
 "sup_net"; "suppress_printing"; "t_crit"; "t_n"; "t_v"; "terms"; "tes_soc_max"; "tes_soc_min";
 "time_sim"; "time_step_vec"; "time_vec"; "timeframe"; "timestep"; "use_ref"; "val_given"; "width"].

(* class, attributes of self read in its methods, own or inherited (without
   methods and class variables) *)
Definition attribute_reads : list (string * list string) := [
 ("Meters", ["_Meters__midx_names"; "_disk_saving"; "_dstore"; "_meter_time_index"; "_resample";
 "_resample_freq"; "_simenv"; "_time_index"; "meters"; "meters_df"; "start_time"]);
 ("Controls", ["_act_cv"; "_act_cv_name"; "_arg_err"; "_base_err"; "_concurrent"; "_cv_sat_max"; "_cv_sat_min";
 "_invert"; "_llim"; "_master_act_cv"; "_master_act_offst"; "_master_type"; "_master_variable";
 "_master_variable_index"; "_models"; "_off_state"; "_prev_cv"; "_process_cv_fun";
 "_process_cv_mode"; "_ref"; "_ref_diff"; "_slope"; "_slope_n"; "_slope_p"; "_steady_state"; "_ulim";
 "actuator"; "ctrl_alg"; "ctrl_part"; "ctrl_port_id"; "cv"; "deadtime"; "delayed_pv";
 "dependency_kind"; "discrete_time"; "dt_arr"; "dt_idx"; "error"; "i_term"; "last_dt_idx";
 "len_dt_arr"; "master_ctrl"; "master_part"; "name"; "prev_error"; "pv"; "pv_arr"; "ref_part";
 "ref_port_id"; "run_controller"; "sp"; "sub_ctrl"; "use_ref"]);
 ("FlowNet", []);
 ("CHPPlant", ["A_cell"; "T"; "V_cell"; "_A_fld_own_p"; "_A_p_fld_mean"; "_A_shell_cs"; "_A_shell_i";
 "_A_shell_ins"; "_A_wll_own_p"; "_Pel"; "_Pgas"; "_Pgas_max"; "_SimEnv__BC_timedelta";
 "_SimEnv__atol"; "_SimEnv__base_num_steps"; "_SimEnv__bkp_kwargs_timeframe";
 "_SimEnv__infer_start_date"; "_SimEnv__last_step_t_idx"; "_SimEnv__max_stepsize";
 "_SimEnv__min_factor"; "_SimEnv__min_stepsize"; "_SimEnv__order"; "_SimEnv__parr_bkp";
 "_SimEnv__postpone"; "_SimEnv__rtol"; "_SimEnv__safety"; "_SimEnv__save_to_disk"; "_T_amb";
 "_T_chp_in"; "_T_chp_in_max"; "_T_chp_in_max_emrgncy"; "_T_ext"; "_T_init"; "_T_port"; "_T_s";
 "_UA_amb_shell"; "_UA_port"; "_UA_port_wll"; "_UA_tb"; "_UA_tb_wll"; "_V_shell_cs"; "_V_total";
 "_aae"; "_aaei"; "_actuator_CV"; "_actuators"; "_alpha_i"; "_alpha_inf"; "_arg_err"; "_base_err";
 "_bin_pow_fac"; "_breaking_part"; "_cell_dist"; "_chp_off_perc"; "_chp_on"; "_chp_on_perc";
 "_chp_state"; "_cnt_open_prts"; "_connect_fg_hex"; "_cp_T"; "_cp_port"; "_cp_wll"; "_dQ_heating";
 "_dT_heated"; "_d_i"; "_d_o"; "_disk_store"; "_disk_store_parts"; "_disk_store_timevec";
 "_disk_store_utility"; "_disksaving_set"; "_dm_bot"; "_dm_io"; "_dm_port"; "_dm_top";
 "_dt_time_temp_exc"; "_dyn_BC"; "_dyn_BC_timevec"; "_eta_el_base"; "_eta_el_fac"; "_failed_steps";
 "_fctr_rec_stps"; "_fg_dv_at_pmax"; "_fg_hex"; "_fg_hex_gdv"; "_fg_hex_name"; "_flow_length";
 "_heat_mult"; "_heat_spread"; "_heated_cells"; "_hydr_comps"; "_initialized"; "_input_args";
 "_lam_T"; "_lam_ins"; "_lam_mean"; "_lam_port_fld"; "_lam_wll"; "_last_dQ"; "_lims"; "_max_factor";
 "_max_ramp_el"; "_max_steps"; "_max_temp_exc_time"; "_mcp"; "_mcp_heated"; "_mcp_wll";
 "_min_off_time"; "_min_on_time"; "_mod_lower"; "_mod_range"; "_mod_upper"; "_models"; "_msb4save";
 "_new_step"; "_num_cells_tot_nmrc"; "_num_cells_tot_nmrc_expl"; "_num_conn_ports";
 "_num_heated_cells"; "_num_max_cells"; "_ny_T"; "_p2h_base"; "_p2h_ratio"; "_port_gsp";
 "_port_link_idx"; "_port_map_arr"; "_port_mapping"; "_port_own_idx"; "_port_subs_gsp";
 "_ports_src_interm"; "_ports_src_res_idx"; "_ports_src_result"; "_ports_trgt_idx";
 "_power_modulation"; "_process_flows"; "_r_i"; "_r_ln_ins"; "_r_ln_wll"; "_r_o"; "_r_rins";
 "_r_total"; "_ram"; "_remaining_heat"; "_rho_T"; "_rho_wll"; "_rhocp"; "_s_ins";
 "_save_every_n_steps"; "_shutdown_at_time"; "_shutdown_duration"; "_shutdown_factor_th";
 "_shutdown_in_progress"; "_sim_end_time"; "_sim_postproc_time"; "_sim_start_time"; "_simenv_name";
 "_solve_njit_args"; "_solved_ports"; "_solver_set"; "_solver_state"; "_solvers";
 "_stability_breaches"; "_startup_at_time"; "_startup_duration"; "_startup_factor_el";
 "_startup_factor_gas"; "_startup_factor_th"; "_startup_in_progress"; "_startuptsteps";
 "_step_accepted"; "_step_stable"; "_steps_since_fail"; "_sys_trnc_err"; "_timeframe_set";
 "_total_failed_steps"; "_total_solver_state"; "_total_stepnum"; "_total_sys_trnc_err";
 "_total_time_vec"; "_tsteps_startup"; "_ui"; "_unit"; "_vN_max_step"; "_vertical"; "adaptive_steps";
 "boundary_conditions"; "break_topology"; "can_add_ports"; "chp_power_el"; "chp_power_gas";
 "constr_type"; "ctrl_l"; "ctrls"; "dT_adv"; "dT_cond"; "dT_heat"; "dT_total"; "dm"; "dm_char";
 "dm_invariant"; "eta_el"; "eta_th"; "flow_net"; "fluegas_flow_specific"; "grid_spacing";
 "info_topology"; "length"; "multiple_flows"; "name"; "num_ctrls"; "num_gp"; "num_parts";
 "num_ports"; "num_steps"; "p2h_ratio"; "part_id"; "parts"; "plinks_arr"; "port_ids"; "port_links";
 "port_names"; "port_num"; "ports"; "ports_all"; "res"; "res_Pel"; "res_Pgas"; "res_dQ"; "res_dm";
 "solve_nonnum"; "solve_num_expl"; "solve_num_impl"; "solve_num_njit"; "solve_numeric"; "solver";
 "stepnum"; "sub_net"; "sup_net"; "suppress_printing"; "time_sim"; "time_step_vec"; "time_vec";
 "timeframe"; "timestep"]);
 ("Connector3w", ["T"; "V_cell"; "_A_fld_own_p"; "_A_wll_own_p"; "_Connector3w__pt"; "_SimEnv__BC_timedelta";
 "_SimEnv__atol"; "_SimEnv__base_num_steps"; "_SimEnv__bkp_kwargs_timeframe";
 "_SimEnv__infer_start_date"; "_SimEnv__last_step_t_idx"; "_SimEnv__max_stepsize";
 "_SimEnv__min_factor"; "_SimEnv__min_stepsize"; "_SimEnv__order"; "_SimEnv__parr_bkp";
 "_SimEnv__postpone"; "_SimEnv__rtol"; "_SimEnv__safety"; "_SimEnv__save_to_disk"; "_T_port";
 "_UA_port"; "_V_total"; "_actuator_CV"; "_actuators"; "_arg_err"; "_base_err"; "_breaking_part";
 "_cnt_open_prts"; "_cp_T"; "_cp_port"; "_cp_wll"; "_disk_store"; "_disk_store_parts";
 "_disk_store_timevec"; "_disk_store_utility"; "_disksaving_set"; "_dm_io"; "_dm_port"; "_dyn_BC";
 "_dyn_BC_timevec"; "_failed_steps"; "_fctr_rec_stps"; "_hydr_comps"; "_initialized"; "_lam_wll";
 "_lims"; "_max_factor"; "_max_steps"; "_models"; "_msb4save"; "_new_step"; "_num_cells_tot_nmrc";
 "_num_cells_tot_nmrc_expl"; "_num_conn_ports"; "_num_max_cells"; "_port_link_idx"; "_port_map_arr";
 "_port_mapping"; "_port_own_idx"; "_ports_src_interm"; "_ports_src_res_idx"; "_ports_src_result";
 "_ports_trgt_idx"; "_ram"; "_rho_wll"; "_save_every_n_steps"; "_sim_end_time"; "_sim_postproc_time";
 "_sim_start_time"; "_simenv_name"; "_solve_njit_args"; "_solved_ports"; "_solver_set";
 "_solver_state"; "_solvers"; "_step_accepted"; "_step_stable"; "_steps_since_fail"; "_sys_trnc_err";
 "_timeframe_set"; "_tiny"; "_total_failed_steps"; "_total_solver_state"; "_total_stepnum";
 "_total_sys_trnc_err"; "_total_time_vec"; "_unit"; "_vN_max_step"; "adaptive_steps";
 "boundary_conditions"; "break_topology"; "can_add_ports"; "constr_type"; "ctrl_l"; "ctrls"; "dm";
 "dm_char"; "dm_invariant"; "flow_net"; "hydr_comp"; "info_plot"; "info_topology"; "length";
 "multiple_flows"; "name"; "num_ctrls"; "num_gp"; "num_parts"; "num_ports"; "num_steps"; "parts";
 "plinks_arr"; "port_ids"; "port_links"; "port_names"; "port_num"; "ports"; "ports_all"; "res";
 "res_dm"; "solve_nonnum"; "solve_num_expl"; "solve_num_impl"; "solve_num_njit"; "solve_numeric";
 "solver"; "stepnum"; "sub_net"; "sup_net"; "suppress_printing"; "time_sim"; "time_step_vec";
 "time_vec"; "timeframe"; "timestep"]);
 ("PID", ["_RC"; "_act_cv"; "_act_cv_name"; "_anti_windup"; "_arg_err"; "_base_err"; "_bw_alpha";
 "_bw_cutoff"; "_concurrent"; "_cv_sat_max"; "_cv_sat_min"; "_deriv"; "_deriv_err"; "_invert";
 "_llim"; "_master_act_cv"; "_master_act_offst"; "_master_type"; "_master_variable";
 "_master_variable_index"; "_models"; "_off_state"; "_prev_cv"; "_prev_cv_lim"; "_prev_deriv";
 "_process_cv_fun"; "_process_cv_mode"; "_ref"; "_ref_diff"; "_slope"; "_slope_n"; "_slope_p";
 "_steady_state"; "_ulim"; "actuator"; "ctrl_alg"; "ctrl_part"; "ctrl_port_id"; "cv"; "d_term";
 "deadtime"; "delayed_pv"; "dependency_kind"; "discrete_time"; "dt_arr"; "dt_idx"; "error";
 "filt_derivate"; "i_term"; "kd"; "kd_mult"; "ki"; "ki_mult"; "kp"; "kp_crit"; "kp_mult";
 "last_dt_idx"; "len_dt_arr"; "loop_tuning"; "loop_tuning_rule"; "master_ctrl"; "master_part";
 "name"; "prev2_error"; "prev_error"; "prev_i_term"; "pv"; "pv_arr"; "ref_part"; "ref_port_id"; "sp";
 "sub_ctrl"; "t_crit"; "t_n"; "t_v"; "terms"; "use_ref"]);
 ("BangBang", ["_act_cv"; "_act_cv_name"; "_arg_err"; "_base_err"; "_concurrent"; "_cv_sat_max"; "_cv_sat_min";
 "_hysteresis"; "_invert"; "_llim"; "_master_act_cv"; "_master_act_offst"; "_master_type";
 "_master_variable"; "_master_variable_index"; "_models"; "_off_state"; "_prev_cv";
 "_process_cv_fun"; "_process_cv_mode"; "_ref"; "_ref_diff"; "_reversed"; "_slope"; "_slope_n";
 "_slope_p"; "_steady_state"; "_ulim"; "actuator"; "ctrl_alg"; "ctrl_part"; "ctrl_port_id"; "cv";
 "deadtime"; "delayed_pv"; "dependency_kind"; "discrete_time"; "dt_arr"; "dt_idx"; "error"; "i_term";
 "last_dt_idx"; "len_dt_arr"; "master_ctrl"; "master_part"; "name"; "prev_error"; "pv"; "pv_arr";
 "ref_part"; "ref_port_id"; "sp"; "sub_ctrl"; "use_ref"]);
 ("TwoSensors", ["_act_cv"; "_act_cv_name"; "_act_sgn"; "_act_val"; "_arg_err"; "_base_err"; "_concurrent";
 "_cv_sat_max"; "_cv_sat_min"; "_deact_sgn"; "_invert"; "_llim"; "_master_act_cv";
 "_master_act_offst"; "_master_type"; "_master_variable"; "_master_variable_index"; "_models";
 "_off_state"; "_on_sens_idx"; "_on_sens_part"; "_prev_cv"; "_process_cv_fun"; "_process_cv_mode";
 "_ref"; "_ref_diff"; "_slope"; "_slope_n"; "_slope_p"; "_steady_state"; "_ulim"; "actuator";
 "ctrl_alg"; "ctrl_part"; "ctrl_port_id"; "cv"; "deadtime"; "delayed_pv"; "dependency_kind";
 "discrete_time"; "dt_arr"; "dt_idx"; "error"; "i_term"; "last_dt_idx"; "len_dt_arr"; "master_ctrl";
 "master_part"; "name"; "on_sensor_val"; "prev_error"; "pv"; "pv_arr"; "ref_part"; "ref_port_id";
 "sp"; "sub_ctrl"; "use_ref"]);
 ("ModelPredCHP", ["_ModelPredCHP__err_prof"; "_ModelPredCHP__err_prof_ctrl"; "_ModelPredCHP__tes_rstr_dflt";
 "_act_cv"; "_act_cv_name"; "_act_sgn"; "_act_val"; "_act_val_fp_diff"; "_act_val_full_power";
 "_arg_err"; "_awvk"; "_base_err"; "_cap_restore_time"; "_caps_adapted"; "_concurrent";
 "_cost_params"; "_ctrl_prfl_input_prd"; "_ctrl_profiles"; "_cv_prev_opt"; "_cv_sat_max";
 "_cv_sat_min"; "_deact_sgn"; "_eex"; "_emerg_cnsctv"; "_emerg_on"; "_emerg_prms"; "_emerg_use_hyst";
 "_esr_gas"; "_fctr_cap_rstr"; "_flat_instandh"; "_freq_fac"; "_gaspreis"; "_heat_dmd"; "_hyst";
 "_hyst_val"; "_inc_cont"; "_instandh_cost"; "_invert"; "_llim"; "_lt_prev_opt"; "_master_act_cv";
 "_master_act_offst"; "_master_type"; "_master_variable"; "_master_variable_index"; "_models";
 "_modrange_chp"; "_mrc"; "_off_state"; "_on_sens_idx"; "_on_sens_part"; "_opt_bounds";
 "_opt_chp_mod"; "_opt_chp_mod_post"; "_opt_constraints"; "_opt_cost"; "_opt_every"; "_opt_every_td";
 "_opt_params"; "_opt_prfl_input_prd"; "_opt_profiles"; "_opt_status"; "_opt_steps"; "_opt_steptime";
 "_opt_tf_sec"; "_optsize"; "_ppic"; "_precalc_pth_oe_uf"; "_prev_cv"; "_process_cv_fun";
 "_process_cv_mode"; "_pwvk"; "_ref"; "_ref_diff"; "_res_opt_step3"; "_res_optimizer"; "_slope";
 "_slope_n"; "_slope_p"; "_spz"; "_steady_state"; "_tes_cap_adpt_hi"; "_tes_cap_adpt_lo";
 "_tes_caps"; "_tes_caps_adpt"; "_tes_caps_res"; "_tes_cell_vol"; "_tes_part"; "_tes_part_ref";
 "_tes_soc_now"; "_tes_socs"; "_tes_temp"; "_time_last_cap_adpt"; "_time_since_cap_adpt"; "_ulim";
 "_unit_fac"; "_vnneg"; "actuator"; "ctrl_alg"; "ctrl_part"; "ctrl_port_id"; "cv"; "deadtime";
 "delayed_pv"; "dependency_kind"; "discrete_time"; "dt_arr"; "dt_idx"; "error"; "eta_el"; "i_term";
 "last_dt_idx"; "len_dt_arr"; "master_ctrl"; "master_part"; "name"; "num_opts"; "on_sensor_val";
 "opt_chp_now"; "pel_chp_max"; "prev_error"; "pth_chp"; "pv"; "pv_arr"; "ref_part"; "ref_port_id";
 "sp"; "sub_ctrl"; "tes_soc_max"; "tes_soc_min"; "use_ref"]);
 ("HeatedPipe", ["A_cell"; "T"; "V_cell"; "_A_fld_own_p"; "_A_p_fld_mean"; "_A_shell_cs"; "_A_shell_i";
 "_A_shell_ins"; "_A_wll_own_p"; "_SimEnv__BC_timedelta"; "_SimEnv__atol"; "_SimEnv__base_num_steps";
 "_SimEnv__bkp_kwargs_timeframe"; "_SimEnv__infer_start_date"; "_SimEnv__last_step_t_idx";
 "_SimEnv__max_stepsize"; "_SimEnv__min_factor"; "_SimEnv__min_stepsize"; "_SimEnv__order";
 "_SimEnv__parr_bkp"; "_SimEnv__postpone"; "_SimEnv__rtol"; "_SimEnv__safety";
 "_SimEnv__save_to_disk"; "_T_amb"; "_T_ext"; "_T_init"; "_T_port"; "_T_s"; "_UA_amb_shell";
 "_UA_port"; "_UA_port_wll"; "_UA_tb"; "_UA_tb_wll"; "_V_shell_cs"; "_V_total"; "_aae"; "_aaei";
 "_actuator_CV"; "_actuators"; "_alpha_i"; "_alpha_inf"; "_arg_err"; "_base_err"; "_breaking_part";
 "_cell_dist"; "_cnt_open_prts"; "_cp_T"; "_cp_port"; "_cp_wll"; "_dQ_heating"; "_dT_heated"; "_d_i";
 "_d_o"; "_disk_store"; "_disk_store_parts"; "_disk_store_timevec"; "_disk_store_utility";
 "_disksaving_set"; "_dm_bot"; "_dm_io"; "_dm_port"; "_dm_top"; "_dyn_BC"; "_dyn_BC_timevec";
 "_failed_steps"; "_fctr_rec_stps"; "_flow_length"; "_heat_mult"; "_heat_spread"; "_heated_cells";
 "_hydr_comps"; "_initialized"; "_input_args"; "_lam_T"; "_lam_ins"; "_lam_mean"; "_lam_port_fld";
 "_lam_wll"; "_lims"; "_max_factor"; "_max_steps"; "_mcp"; "_mcp_heated"; "_mcp_wll"; "_models";
 "_msb4save"; "_new_step"; "_num_cells_tot_nmrc"; "_num_cells_tot_nmrc_expl"; "_num_conn_ports";
 "_num_heated_cells"; "_num_max_cells"; "_ny_T"; "_port_gsp"; "_port_link_idx"; "_port_map_arr";
 "_port_mapping"; "_port_own_idx"; "_port_subs_gsp"; "_ports_src_interm"; "_ports_src_res_idx";
 "_ports_src_result"; "_ports_trgt_idx"; "_process_flows"; "_r_i"; "_r_ln_ins"; "_r_ln_wll"; "_r_o";
 "_r_rins"; "_r_total"; "_ram"; "_rho_T"; "_rho_wll"; "_rhocp"; "_s_ins"; "_save_every_n_steps";
 "_sim_end_time"; "_sim_postproc_time"; "_sim_start_time"; "_simenv_name"; "_solve_njit_args";
 "_solved_ports"; "_solver_set"; "_solver_state"; "_solvers"; "_stability_breaches";
 "_step_accepted"; "_step_stable"; "_steps_since_fail"; "_sys_trnc_err"; "_timeframe_set";
 "_total_failed_steps"; "_total_solver_state"; "_total_stepnum"; "_total_sys_trnc_err";
 "_total_time_vec"; "_ui"; "_unit"; "_vN_max_step"; "_vertical"; "adaptive_steps";
 "boundary_conditions"; "break_topology"; "can_add_ports"; "constr_type"; "ctrl_l"; "ctrls";
 "dT_adv"; "dT_cond"; "dT_heat"; "dT_total"; "dm"; "dm_char"; "dm_invariant"; "flow_net";
 "grid_spacing"; "info_topology"; "length"; "multiple_flows"; "name"; "num_ctrls"; "num_gp";
 "num_parts"; "num_ports"; "num_steps"; "part_id"; "parts"; "plinks_arr"; "port_ids"; "port_links";
 "port_names"; "port_num"; "ports"; "ports_all"; "res"; "res_dQ"; "res_dm"; "solve_nonnum";
 "solve_num_expl"; "solve_num_impl"; "solve_num_njit"; "solve_numeric"; "solver"; "stepnum";
 "sub_net"; "sup_net"; "suppress_printing"; "time_sim"; "time_step_vec"; "time_vec"; "timeframe";
 "timestep"]);
 ("HeatExchanger", ["A_channel"; "A_plate"; "A_plate_eff"; "HEx_type"; "T"; "V_cell"; "V_ch_fld_tot"; "_A_fld_own_p";
 "_A_o"; "_A_o_ins"; "_A_wll_own_p"; "_SimEnv__BC_timedelta"; "_SimEnv__atol";
 "_SimEnv__base_num_steps"; "_SimEnv__bkp_kwargs_timeframe"; "_SimEnv__infer_start_date";
 "_SimEnv__last_step_t_idx"; "_SimEnv__max_stepsize"; "_SimEnv__min_factor"; "_SimEnv__min_stepsize";
 "_SimEnv__order"; "_SimEnv__parr_bkp"; "_SimEnv__postpone"; "_SimEnv__rtol"; "_SimEnv__safety";
 "_SimEnv__save_to_disk"; "_T_init"; "_T_mean"; "_T_port"; "_UA_fld_wll"; "_UA_fld_wll_fld";
 "_UA_port"; "_V_total"; "_actuator_CV"; "_actuators"; "_alpha_i"; "_arg_err"; "_base_err";
 "_breaking_part"; "_cell_dist"; "_cnt_open_prts"; "_corr_Re"; "_cp_mean"; "_cp_port"; "_cp_wll";
 "_d_h"; "_d_port"; "_depth_base"; "_diff_depth"; "_diff_m"; "_disk_store"; "_disk_store_parts";
 "_disk_store_timevec"; "_disk_store_utility"; "_disksaving_set"; "_dm_io"; "_dm_port"; "_dyn_BC";
 "_dyn_BC_timevec"; "_failed_steps"; "_fctr_rec_stps"; "_hydr_comps"; "_initialized"; "_lam_mean";
 "_lam_plate"; "_lam_wll"; "_lims"; "_m_wll"; "_max_factor"; "_max_steps"; "_models"; "_msb4save";
 "_new_step"; "_num_A"; "_num_cells_tot_nmrc"; "_num_cells_tot_nmrc_expl"; "_num_channels_dmd";
 "_num_channels_sup"; "_num_conn_ports"; "_num_max_cells"; "_ny_mean"; "_port_link_idx";
 "_port_map_arr"; "_port_mapping"; "_port_own_idx"; "_ports_src_interm"; "_ports_src_res_idx";
 "_ports_src_result"; "_ports_trgt_idx"; "_r_corner"; "_ram"; "_rho_mean"; "_rho_wll"; "_s_channel";
 "_s_ins"; "_s_plate"; "_save_every_n_steps"; "_sim_end_time"; "_sim_postproc_time";
 "_sim_start_time"; "_simenv_name"; "_solve_njit_args"; "_solved_ports"; "_solver_set";
 "_solver_state"; "_solvers"; "_step_accepted"; "_step_stable"; "_steps_since_fail"; "_sys_trnc_err";
 "_timeframe_set"; "_total_failed_steps"; "_total_solver_state"; "_total_stepnum";
 "_total_sys_trnc_err"; "_total_time_vec"; "_unit"; "_vN_max_step"; "adaptive_steps";
 "boundary_conditions"; "break_topology"; "can_add_ports"; "constr_type"; "ctrl_l"; "ctrls"; "depth";
 "dm_char"; "flow_net"; "info_topology"; "length"; "multiple_flows"; "name"; "num_ctrls"; "num_gp";
 "num_parts"; "num_plates"; "num_ports"; "num_steps"; "parts"; "passes"; "plinks_arr"; "port_ids";
 "port_links"; "port_names"; "port_num"; "ports"; "ports_all"; "res"; "solve_nonnum";
 "solve_num_expl"; "solve_num_impl"; "solve_num_njit"; "solve_numeric"; "solver"; "stepnum";
 "sub_net"; "sup_net"; "suppress_printing"; "time_sim"; "time_step_vec"; "time_vec"; "timeframe";
 "timestep"; "width"]);
 ("HEXCondPoly", ["T"; "V_cell"; "_A_fld_own_p"; "_A_wll_own_p"; "_SimEnv__BC_timedelta"; "_SimEnv__atol";
 "_SimEnv__base_num_steps"; "_SimEnv__bkp_kwargs_timeframe"; "_SimEnv__infer_start_date";
 "_SimEnv__last_step_t_idx"; "_SimEnv__max_stepsize"; "_SimEnv__min_factor"; "_SimEnv__min_stepsize";
 "_SimEnv__order"; "_SimEnv__parr_bkp"; "_SimEnv__postpone"; "_SimEnv__rtol"; "_SimEnv__safety";
 "_SimEnv__save_to_disk"; "_T_init"; "_T_port"; "_UA_port"; "_V_total"; "_X_pred"; "_actuator_CV";
 "_actuators"; "_arg_err"; "_base_err"; "_breaking_part"; "_cnt_open_prts"; "_cp_port"; "_cp_wll";
 "_disk_store"; "_disk_store_parts"; "_disk_store_timevec"; "_disk_store_utility"; "_disksaving_set";
 "_dm_io"; "_dm_port"; "_dyn_BC"; "_dyn_BC_timevec"; "_failed_steps"; "_fctr_rec_stps";
 "_flow_scaling"; "_gas_dv_range"; "_hydr_comps"; "_initialized"; "_lam_wll"; "_lims"; "_linreg_mdl";
 "_lm_coef"; "_lm_intercept"; "_max_factor"; "_max_steps"; "_models"; "_msb4save"; "_new_step";
 "_num_cells_tot_nmrc"; "_num_cells_tot_nmrc_expl"; "_num_conn_ports"; "_num_max_cells";
 "_pca_components"; "_pca_mean"; "_poly_int_comb_idx"; "_poly_nvars_per_ftr"; "_port_link_idx";
 "_port_map_arr"; "_port_mapping"; "_port_own_idx"; "_ports_src_interm"; "_ports_src_res_idx";
 "_ports_src_result"; "_ports_trgt_idx"; "_ram"; "_rho_wll"; "_save_every_n_steps"; "_sim_end_time";
 "_sim_postproc_time"; "_sim_start_time"; "_simenv_name"; "_solve_njit_args"; "_solved_ports";
 "_solver_set"; "_solver_state"; "_solvers"; "_step_accepted"; "_step_stable"; "_steps_since_fail";
 "_sys_trnc_err"; "_timeframe_set"; "_total_failed_steps"; "_total_solver_state"; "_total_stepnum";
 "_total_sys_trnc_err"; "_total_time_vec"; "_unit"; "_vN_max_step"; "_water_dm_range";
 "adaptive_steps"; "boundary_conditions"; "break_topology"; "can_add_ports"; "constr_type"; "ctrl_l";
 "ctrls"; "dm_char"; "flow_net"; "info_topology"; "length"; "multiple_flows"; "name"; "num_ctrls";
 "num_gp"; "num_parts"; "num_ports"; "num_steps"; "parts"; "plinks_arr"; "port_ids"; "port_links";
 "port_names"; "port_num"; "ports"; "ports_all"; "res"; "res_dm"; "solve_nonnum"; "solve_num_expl";
 "solve_num_impl"; "solve_num_njit"; "solve_numeric"; "solver"; "stepnum"; "sub_net"; "sup_net";
 "suppress_printing"; "time_sim"; "time_step_vec"; "time_vec"; "timeframe"; "timestep"]);
 ("HexNum", ["A_channel"; "A_plate"; "A_plate_eff"; "HEx_type"; "T"; "V_cell"; "V_cell_fld"; "V_ch_fld_tot";
 "_A_fld_own_p"; "_A_o"; "_A_o_ins"; "_A_p_fld_mean"; "_A_wll_cs"; "_A_wll_own_p";
 "_SimEnv__BC_timedelta"; "_SimEnv__atol"; "_SimEnv__base_num_steps";
 "_SimEnv__bkp_kwargs_timeframe"; "_SimEnv__infer_start_date"; "_SimEnv__last_step_t_idx";
 "_SimEnv__max_stepsize"; "_SimEnv__min_factor"; "_SimEnv__min_stepsize"; "_SimEnv__order";
 "_SimEnv__parr_bkp"; "_SimEnv__postpone"; "_SimEnv__rtol"; "_SimEnv__safety";
 "_SimEnv__save_to_disk"; "_T_amb"; "_T_dmd"; "_T_ext"; "_T_fld"; "_T_init"; "_T_port"; "_T_sup";
 "_UA_amb_shell"; "_UA_dim1"; "_UA_dim1_wll"; "_UA_dim2"; "_UA_port"; "_UA_port_wll"; "_V_plate";
 "_V_total"; "_actuator_CV"; "_actuators"; "_alpha_i"; "_arg_err"; "_base_err"; "_breaking_part";
 "_cell_dist"; "_channel_divisor"; "_cnt_open_prts"; "_corr_Re"; "_cp_T"; "_cp_port"; "_cp_wll";
 "_dT_cond_port"; "_d_h"; "_d_port"; "_depth_base"; "_diff_depth"; "_diff_m"; "_disk_store";
 "_disk_store_parts"; "_disk_store_timevec"; "_disk_store_utility"; "_disksaving_set"; "_dm_bot";
 "_dm_dmd"; "_dm_io"; "_dm_port"; "_dm_sup"; "_dm_top"; "_dyn_BC"; "_dyn_BC_timevec";
 "_failed_steps"; "_fctr_rec_stps"; "_hydr_comps"; "_initialized"; "_input_arg_names_sorted";
 "_input_args"; "_lam_T"; "_lam_fld"; "_lam_mean"; "_lam_port_fld"; "_lam_wll"; "_lims";
 "_m_hex_wll"; "_m_per_plate"; "_max_factor"; "_max_steps"; "_mcp"; "_mcp_wll_cell";
 "_mcp_wll_plate"; "_models"; "_msb4save"; "_new_step"; "_num_cells_tot_nmrc";
 "_num_cells_tot_nmrc_expl"; "_num_channels_dmd"; "_num_channels_sup"; "_num_conn_ports";
 "_num_max_cells"; "_ny_T"; "_port_gsp"; "_port_link_idx"; "_port_map_arr"; "_port_mapping";
 "_port_own_idx"; "_ports_src_interm"; "_ports_src_res_idx"; "_ports_src_result"; "_ports_trgt_idx";
 "_process_flows"; "_r_corner"; "_ram"; "_rho_T"; "_rho_wll"; "_rhocp"; "_s_channel"; "_s_ins";
 "_s_plate"; "_save_every_n_steps"; "_sim_end_time"; "_sim_postproc_time"; "_sim_start_time";
 "_simenv_name"; "_solve_njit_args"; "_solved_ports"; "_solver_set"; "_solver_state"; "_solvers";
 "_step_accepted"; "_step_stable"; "_steps_since_fail"; "_sys_trnc_err"; "_timeframe_set";
 "_total_failed_steps"; "_total_solver_state"; "_total_stepnum"; "_total_sys_trnc_err";
 "_total_time_vec"; "_ui"; "_unit"; "_vN_max_step"; "adaptive_steps"; "boundary_conditions";
 "break_topology"; "can_add_ports"; "constr_type"; "ctrl_l"; "ctrls"; "dT_adv"; "dT_adv_impl";
 "dT_cond"; "dT_cond_impl"; "dT_total"; "dT_total_impl"; "depth"; "dm_char"; "flow_net"; "flow_type";
 "grid_spacing"; "info_topology"; "length"; "multiple_flows"; "name"; "num_ctrls"; "num_gp";
 "num_parts"; "num_plates"; "num_ports"; "num_steps"; "parts"; "passes"; "plinks_arr"; "port_ids";
 "port_links"; "port_names"; "port_num"; "ports"; "ports_all"; "res"; "res_dm"; "solve_explicitly";
 "solve_nonnum"; "solve_num_expl"; "solve_num_impl"; "solve_num_njit"; "solve_numeric"; "solver";
 "stepnum"; "sub_net"; "sup_net"; "suppress_printing"; "time_sim"; "time_step_vec"; "time_vec";
 "timeframe"; "timestep"; "width"]);
 ("MixingValve", ["T"; "V_cell"; "_A_fld_own_p"; "_A_wll_own_p"; "_MixingValve__pt"; "_SimEnv__BC_timedelta";
 "_SimEnv__atol"; "_SimEnv__base_num_steps"; "_SimEnv__bkp_kwargs_timeframe";
 "_SimEnv__infer_start_date"; "_SimEnv__last_step_t_idx"; "_SimEnv__max_stepsize";
 "_SimEnv__min_factor"; "_SimEnv__min_stepsize"; "_SimEnv__order"; "_SimEnv__parr_bkp";
 "_SimEnv__postpone"; "_SimEnv__rtol"; "_SimEnv__safety"; "_SimEnv__save_to_disk"; "_T_port";
 "_UA_port"; "_V_total"; "_actuator_CV"; "_actuators"; "_arg_err"; "_base_err"; "_breaking_part";
 "_cnt_open_prts"; "_cp_port"; "_cp_wll"; "_disk_store"; "_disk_store_parts"; "_disk_store_timevec";
 "_disk_store_utility"; "_disksaving_set"; "_dm_io"; "_dm_port"; "_dyn_BC"; "_dyn_BC_timevec";
 "_failed_steps"; "_fctr_rec_stps"; "_hydr_comps"; "_initialized"; "_lam_wll"; "_lims"; "_llim";
 "_max_factor"; "_max_steps"; "_models"; "_msb4save"; "_new_step"; "_num_cells_tot_nmrc";
 "_num_cells_tot_nmrc_expl"; "_num_conn_ports"; "_num_max_cells"; "_pf_init"; "_port_link_idx";
 "_port_map_arr"; "_port_mapping"; "_port_own_idx"; "_ports_src_interm"; "_ports_src_res_idx";
 "_ports_src_result"; "_ports_trgt_idx"; "_ram"; "_rho_wll"; "_save_every_n_steps"; "_sim_end_time";
 "_sim_postproc_time"; "_sim_start_time"; "_simenv_name"; "_solve_njit_args"; "_solved_ports";
 "_solver_set"; "_solver_state"; "_solvers"; "_step_accepted"; "_step_stable"; "_steps_since_fail";
 "_sys_trnc_err"; "_timeframe_set"; "_tiny"; "_total_failed_steps"; "_total_solver_state";
 "_total_stepnum"; "_total_sys_trnc_err"; "_total_time_vec"; "_ulim"; "_unit"; "_vN_max_step";
 "adaptive_steps"; "boundary_conditions"; "break_topology"; "can_add_ports"; "constr_type"; "ctrl_l";
 "ctrls"; "dm"; "dm_char"; "dm_invariant"; "flow_net"; "hydr_comp"; "info_plot"; "info_topology";
 "kind"; "length"; "multiple_flows"; "name"; "num_ctrls"; "num_gp"; "num_parts"; "num_ports";
 "num_steps"; "parts"; "pf_arr"; "pfarr"; "plinks_arr"; "port_ids"; "port_links"; "port_names";
 "port_num"; "ports"; "ports_all"; "res"; "res_dm"; "solve_nonnum"; "solve_num_expl";
 "solve_num_impl"; "solve_num_njit"; "solve_numeric"; "solver"; "stepnum"; "sub_net"; "sup_net";
 "suppress_printing"; "time_sim"; "time_step_vec"; "time_vec"; "timeframe"; "timestep"]);
 ("Pipe", ["A_cell"; "T"; "V_cell"; "_A_fld_own_p"; "_A_shell_cs"; "_A_wll_own_p"; "_SimEnv__BC_timedelta";
 "_SimEnv__atol"; "_SimEnv__base_num_steps"; "_SimEnv__bkp_kwargs_timeframe";
 "_SimEnv__infer_start_date"; "_SimEnv__last_step_t_idx"; "_SimEnv__max_stepsize";
 "_SimEnv__min_factor"; "_SimEnv__min_stepsize"; "_SimEnv__order"; "_SimEnv__parr_bkp";
 "_SimEnv__postpone"; "_SimEnv__rtol"; "_SimEnv__safety"; "_SimEnv__save_to_disk"; "_T_ext";
 "_T_init"; "_T_port"; "_UA_port"; "_V_shell_cs"; "_V_total"; "_aae"; "_aaei"; "_actuator_CV";
 "_actuators"; "_arg_err"; "_base_err"; "_breaking_part"; "_cnt_open_prts"; "_cp_T"; "_cp_port";
 "_cp_wll"; "_d_i"; "_d_o"; "_disk_store"; "_disk_store_parts"; "_disk_store_timevec";
 "_disk_store_utility"; "_disksaving_set"; "_dm_io"; "_dm_port"; "_dyn_BC"; "_dyn_BC_timevec";
 "_failed_steps"; "_fctr_rec_stps"; "_hydr_comps"; "_initialized"; "_input_args"; "_lam_T";
 "_lam_ins"; "_lam_wll"; "_lims"; "_max_factor"; "_max_steps"; "_models"; "_msb4save"; "_new_step";
 "_num_cells_tot_nmrc"; "_num_cells_tot_nmrc_expl"; "_num_conn_ports"; "_num_max_cells";
 "_port_map_arr"; "_port_mapping"; "_port_own_idx"; "_ports_src_interm"; "_ports_src_res_idx";
 "_ports_src_result"; "_ports_trgt_idx"; "_r_i"; "_r_o"; "_r_total"; "_ram"; "_rho_T"; "_rho_wll";
 "_s_ins"; "_save_every_n_steps"; "_sim_end_time"; "_sim_postproc_time"; "_sim_start_time";
 "_simenv_name"; "_solve_njit_args"; "_solved_ports"; "_solver_set"; "_solver_state"; "_solvers";
 "_step_accepted"; "_step_stable"; "_steps_since_fail"; "_sys_trnc_err"; "_timeframe_set";
 "_total_failed_steps"; "_total_solver_state"; "_total_stepnum"; "_total_sys_trnc_err";
 "_total_time_vec"; "_unit"; "_vN_max_step"; "_vertical"; "adaptive_steps"; "boundary_conditions";
 "break_topology"; "can_add_ports"; "constr_type"; "ctrl_l"; "ctrls"; "dT_total"; "dm"; "dm_char";
 "dm_invariant"; "flow_net"; "grid_spacing"; "info_topology"; "length"; "multiple_flows"; "name";
 "num_ctrls"; "num_gp"; "num_parts"; "num_ports"; "num_steps"; "parts"; "plinks_arr"; "port_ids";
 "port_links"; "port_names"; "port_num"; "ports"; "ports_all"; "res"; "solve_nonnum";
 "solve_num_expl"; "solve_num_impl"; "solve_num_njit"; "solve_numeric"; "solver"; "stepnum";
 "sub_net"; "sup_net"; "suppress_printing"; "time_sim"; "time_step_vec"; "time_vec"; "timeframe";
 "timestep"]);
 ("Pipe2D", ["A_cell"; "T"; "V_cell"; "_A_fld_own_p"; "_A_p_fld_mean"; "_A_shell_cs"; "_A_shell_i";
 "_A_wll_own_p"; "_Pipe2D__Vcellrhomax"; "_Pipe2D__rhocpmax"; "_SimEnv__BC_timedelta";
 "_SimEnv__atol"; "_SimEnv__base_num_steps"; "_SimEnv__bkp_kwargs_timeframe";
 "_SimEnv__infer_start_date"; "_SimEnv__last_step_t_idx"; "_SimEnv__max_stepsize";
 "_SimEnv__min_factor"; "_SimEnv__min_stepsize"; "_SimEnv__order"; "_SimEnv__parr_bkp";
 "_SimEnv__postpone"; "_SimEnv__rtol"; "_SimEnv__safety"; "_SimEnv__save_to_disk"; "_T_amb";
 "_T_bot"; "_T_ext"; "_T_init"; "_T_port"; "_T_top"; "_UA_amb"; "_UA_fld_ports"; "_UA_fld_wll";
 "_UA_port"; "_UA_port_wll"; "_UA_tb"; "_UA_wll_amb"; "_V_shell_cs"; "_V_total"; "_actuator_CV";
 "_actuators"; "_alpha_i"; "_alpha_inf"; "_arg_err"; "_base_err"; "_breaking_part"; "_cell_dist";
 "_cnt_open_prts"; "_cp_T"; "_cp_bot"; "_cp_port"; "_cp_top"; "_cp_wll"; "_d_i"; "_d_o";
 "_disk_store"; "_disk_store_parts"; "_disk_store_timevec"; "_disk_store_utility"; "_disksaving_set";
 "_dm_bot"; "_dm_io"; "_dm_port"; "_dm_top"; "_dyn_BC"; "_dyn_BC_timevec"; "_failed_steps";
 "_fctr_rec_stps"; "_hydr_comps"; "_initialized"; "_lam_T"; "_lam_fld_own_p"; "_lam_ins";
 "_lam_mean"; "_lam_port_fld"; "_lam_wll"; "_lims"; "_max_factor"; "_max_steps"; "_mcp_fld";
 "_mcp_wll"; "_models"; "_msb4save"; "_new_step"; "_num_cells_tot_nmrc"; "_num_cells_tot_nmrc_expl";
 "_num_conn_ports"; "_num_max_cells"; "_ny_T"; "_port_gsp"; "_port_link_idx"; "_port_map_arr";
 "_port_mapping"; "_port_own_idx"; "_port_subs_gsp"; "_port_vals"; "_ports_src_interm";
 "_ports_src_res_idx"; "_ports_src_result"; "_ports_trgt_idx"; "_process_flows"; "_r_i"; "_r_ln_ins";
 "_r_o"; "_r_rins"; "_r_total"; "_ram"; "_rho_T"; "_rho_wll"; "_s_ins"; "_save_every_n_steps";
 "_sim_end_time"; "_sim_postproc_time"; "_sim_start_time"; "_simenv_name"; "_solve_njit_args";
 "_solved_ports"; "_solver_set"; "_solver_state"; "_solvers"; "_step_accepted"; "_step_stable";
 "_steps_since_fail"; "_sys_trnc_err"; "_timeframe_set"; "_total_failed_steps";
 "_total_solver_state"; "_total_stepnum"; "_total_sys_trnc_err"; "_total_time_vec"; "_unit";
 "_vN_diff"; "_vN_dm"; "_vN_max_step"; "_vertical"; "adaptive_steps"; "boundary_conditions";
 "break_topology"; "can_add_ports"; "constr_type"; "ctrl_l"; "ctrls"; "dT_adv"; "dT_cond";
 "dT_total"; "dm"; "dm_char"; "dm_invariant"; "flow_net"; "grid_spacing"; "info_topology"; "length";
 "multiple_flows"; "name"; "num_ctrls"; "num_gp"; "num_parts"; "num_ports"; "num_steps"; "parts";
 "plinks_arr"; "port_ids"; "port_links"; "port_names"; "port_num"; "ports"; "ports_all"; "res";
 "res_dm"; "solve_nonnum"; "solve_num_expl"; "solve_num_impl"; "solve_num_njit"; "solve_numeric";
 "solver"; "stepnum"; "sub_net"; "sup_net"; "suppress_printing"; "time_sim"; "time_step_vec";
 "time_vec"; "timeframe"; "timestep"]);
 ("PipeBranched", ["A_cell"; "T"; "V_cell"; "_A_fld_own_p"; "_A_shell_cs"; "_A_wll_own_p"; "_SimEnv__BC_timedelta";
 "_SimEnv__atol"; "_SimEnv__base_num_steps"; "_SimEnv__bkp_kwargs_timeframe";
 "_SimEnv__infer_start_date"; "_SimEnv__last_step_t_idx"; "_SimEnv__max_stepsize";
 "_SimEnv__min_factor"; "_SimEnv__min_stepsize"; "_SimEnv__order"; "_SimEnv__parr_bkp";
 "_SimEnv__postpone"; "_SimEnv__rtol"; "_SimEnv__safety"; "_SimEnv__save_to_disk"; "_T_ext";
 "_T_init"; "_T_port"; "_UA_port"; "_V_shell_cs"; "_V_total"; "_aae"; "_aaei"; "_actuator_CV";
 "_actuators"; "_arg_err"; "_base_err"; "_breaking_part"; "_cnt_open_prts"; "_cp_T"; "_cp_port";
 "_cp_wll"; "_d_i"; "_d_o"; "_disk_store"; "_disk_store_parts"; "_disk_store_timevec";
 "_disk_store_utility"; "_disksaving_set"; "_dm_io"; "_dm_port"; "_dyn_BC"; "_dyn_BC_timevec";
 "_failed_steps"; "_fctr_rec_stps"; "_hydr_comps"; "_initialized"; "_input_arg_names_sorted";
 "_input_args"; "_lam_T"; "_lam_ins"; "_lam_wll"; "_lims"; "_max_factor"; "_max_steps"; "_models";
 "_msb4save"; "_new_step"; "_num_cells_tot_nmrc"; "_num_cells_tot_nmrc_expl"; "_num_conn_ports";
 "_num_max_cells"; "_port_map_arr"; "_port_mapping"; "_port_own_idx"; "_ports_src_interm";
 "_ports_src_res_idx"; "_ports_src_result"; "_ports_trgt_idx"; "_r_i"; "_r_o"; "_r_total"; "_ram";
 "_rho_T"; "_rho_wll"; "_s_ins"; "_save_every_n_steps"; "_sim_end_time"; "_sim_postproc_time";
 "_sim_start_time"; "_simenv_name"; "_solve_njit_args"; "_solved_ports"; "_solver_set";
 "_solver_state"; "_solvers"; "_step_accepted"; "_step_stable"; "_steps_since_fail"; "_sys_trnc_err";
 "_timeframe_set"; "_total_failed_steps"; "_total_solver_state"; "_total_stepnum";
 "_total_sys_trnc_err"; "_total_time_vec"; "_unit"; "_vN_max_step"; "_vertical"; "adaptive_steps";
 "boundary_conditions"; "break_topology"; "can_add_ports"; "constr_type"; "ctrl_l"; "ctrls";
 "dT_total"; "dm"; "dm_char"; "dm_invariant"; "flow_net"; "grid_spacing"; "info_topology"; "length";
 "multiple_flows"; "name"; "num_ctrls"; "num_gp"; "num_parts"; "num_ports"; "num_steps"; "parts";
 "plinks_arr"; "port_ids"; "port_links"; "port_names"; "port_num"; "ports"; "ports_all"; "res";
 "solve_nonnum"; "solve_num_expl"; "solve_num_impl"; "solve_num_njit"; "solve_numeric"; "solver";
 "stepnum"; "sub_net"; "sup_net"; "suppress_printing"; "time_sim"; "time_step_vec"; "time_vec";
 "timeframe"; "timestep"]);
 ("PipeWithPump", ["A_cell"; "T"; "V_cell"; "_A_fld_own_p"; "_A_shell_cs"; "_A_wll_own_p"; "_SimEnv__BC_timedelta";
 "_SimEnv__atol"; "_SimEnv__base_num_steps"; "_SimEnv__bkp_kwargs_timeframe";
 "_SimEnv__infer_start_date"; "_SimEnv__last_step_t_idx"; "_SimEnv__max_stepsize";
 "_SimEnv__min_factor"; "_SimEnv__min_stepsize"; "_SimEnv__order"; "_SimEnv__parr_bkp";
 "_SimEnv__postpone"; "_SimEnv__rtol"; "_SimEnv__safety"; "_SimEnv__save_to_disk"; "_T_ext";
 "_T_init"; "_T_port"; "_UA_port"; "_V_shell_cs"; "_V_total"; "_aae"; "_aaei"; "_actuator_CV";
 "_actuators"; "_arg_err"; "_base_err"; "_breaking_part"; "_cnt_open_prts"; "_cp_T"; "_cp_port";
 "_cp_wll"; "_d_i"; "_d_o"; "_disk_store"; "_disk_store_parts"; "_disk_store_timevec";
 "_disk_store_utility"; "_disksaving_set"; "_dm_io"; "_dm_port"; "_dyn_BC"; "_dyn_BC_timevec";
 "_failed_steps"; "_fctr_rec_stps"; "_flow_at_max_speed"; "_hydr_comps"; "_initialized";
 "_input_args"; "_lam_T"; "_lam_ins"; "_lam_wll"; "_lims"; "_llim"; "_max_factor"; "_max_steps";
 "_models"; "_msb4save"; "_new_step"; "_num_cells_tot_nmrc"; "_num_cells_tot_nmrc_expl";
 "_num_conn_ports"; "_num_max_cells"; "_port_map_arr"; "_port_mapping"; "_port_own_idx";
 "_ports_src_interm"; "_ports_src_res_idx"; "_ports_src_result"; "_ports_trgt_idx"; "_r_i"; "_r_o";
 "_r_total"; "_ram"; "_rho_T"; "_rho_wll"; "_s_ins"; "_save_every_n_steps"; "_sim_end_time";
 "_sim_postproc_time"; "_sim_start_time"; "_simenv_name"; "_solve_njit_args"; "_solved_ports";
 "_solver_set"; "_solver_state"; "_solvers"; "_step_accepted"; "_step_stable"; "_steps_since_fail";
 "_sys_trnc_err"; "_timeframe_set"; "_total_failed_steps"; "_total_solver_state"; "_total_stepnum";
 "_total_sys_trnc_err"; "_total_time_vec"; "_ulim"; "_unit"; "_vN_max_step"; "_vertical";
 "adaptive_steps"; "boundary_conditions"; "break_topology"; "can_add_ports"; "constr_type"; "ctrl_l";
 "ctrls"; "dT_total"; "dm"; "dm_char"; "dm_invariant"; "flow_net"; "grid_spacing"; "info_topology";
 "length"; "multiple_flows"; "name"; "num_ctrls"; "num_gp"; "num_parts"; "num_ports"; "num_steps";
 "parts"; "plinks_arr"; "port_ids"; "port_links"; "port_names"; "port_num"; "ports"; "ports_all";
 "res"; "solve_nonnum"; "solve_num_expl"; "solve_num_impl"; "solve_num_njit"; "solve_numeric";
 "solver"; "stepnum"; "sub_net"; "sup_net"; "suppress_printing"; "time_sim"; "time_step_vec";
 "time_vec"; "timeframe"; "timestep"]);
 ("PipeWith3wValve", ["A_cell"; "T"; "V_cell"; "_A_fld_own_p"; "_A_shell_cs"; "_A_wll_own_p"; "_SimEnv__BC_timedelta";
 "_SimEnv__atol"; "_SimEnv__base_num_steps"; "_SimEnv__bkp_kwargs_timeframe";
 "_SimEnv__infer_start_date"; "_SimEnv__last_step_t_idx"; "_SimEnv__max_stepsize";
 "_SimEnv__min_factor"; "_SimEnv__min_stepsize"; "_SimEnv__order"; "_SimEnv__parr_bkp";
 "_SimEnv__postpone"; "_SimEnv__rtol"; "_SimEnv__safety"; "_SimEnv__save_to_disk"; "_T_ext";
 "_T_init"; "_T_port"; "_UA_port"; "_V_shell_cs"; "_V_total"; "_aae"; "_aaei"; "_actuator_CV";
 "_actuators"; "_arg_err"; "_base_err"; "_breaking_part"; "_cnt_open_prts"; "_cp_T"; "_cp_port";
 "_cp_wll"; "_d_i"; "_d_o"; "_disk_store"; "_disk_store_parts"; "_disk_store_timevec";
 "_disk_store_utility"; "_disksaving_set"; "_dm_io"; "_dm_port"; "_dyn_BC"; "_dyn_BC_timevec";
 "_failed_steps"; "_fctr_rec_stps"; "_hydr_comps"; "_initialized"; "_input_arg_names_sorted";
 "_input_args"; "_lam_T"; "_lam_ins"; "_lam_wll"; "_lims"; "_llim"; "_max_factor"; "_max_steps";
 "_models"; "_msb4save"; "_new_step"; "_num_cells_tot_nmrc"; "_num_cells_tot_nmrc_expl";
 "_num_conn_ports"; "_num_max_cells"; "_port_map_arr"; "_port_mapping"; "_port_own_idx";
 "_ports_src_interm"; "_ports_src_res_idx"; "_ports_src_result"; "_ports_trgt_idx"; "_r_i"; "_r_o";
 "_r_total"; "_ram"; "_rho_T"; "_rho_wll"; "_s_ins"; "_save_every_n_steps"; "_sim_end_time";
 "_sim_postproc_time"; "_sim_start_time"; "_simenv_name"; "_solve_njit_args"; "_solved_ports";
 "_solver_set"; "_solver_state"; "_solvers"; "_step_accepted"; "_step_stable"; "_steps_since_fail";
 "_sys_trnc_err"; "_timeframe_set"; "_total_failed_steps"; "_total_solver_state"; "_total_stepnum";
 "_total_sys_trnc_err"; "_total_time_vec"; "_ulim"; "_unit"; "_vN_max_step"; "_valve_B_loc";
 "_vertical"; "adaptive_steps"; "boundary_conditions"; "break_topology"; "can_add_ports";
 "constr_type"; "ctrl_l"; "ctrls"; "dT_total"; "dm"; "dm_char"; "dm_invariant"; "flow_net";
 "grid_spacing"; "info_topology"; "length"; "multiple_flows"; "name"; "num_ctrls"; "num_gp";
 "num_parts"; "num_ports"; "num_steps"; "parts"; "pf_arr"; "plinks_arr"; "port_ids"; "port_links";
 "port_names"; "port_num"; "ports"; "ports_all"; "res"; "solve_nonnum"; "solve_num_expl";
 "solve_num_impl"; "solve_num_njit"; "solve_numeric"; "solver"; "stepnum"; "sub_net"; "sup_net";
 "suppress_printing"; "time_sim"; "time_step_vec"; "time_vec"; "timeframe"; "timestep"]);
 ("Pump", ["T"; "V_cell"; "_A_fld_own_p"; "_A_wll_own_p"; "_SimEnv__BC_timedelta"; "_SimEnv__atol";
 "_SimEnv__base_num_steps"; "_SimEnv__bkp_kwargs_timeframe"; "_SimEnv__infer_start_date";
 "_SimEnv__last_step_t_idx"; "_SimEnv__max_stepsize"; "_SimEnv__min_factor"; "_SimEnv__min_stepsize";
 "_SimEnv__order"; "_SimEnv__parr_bkp"; "_SimEnv__postpone"; "_SimEnv__rtol"; "_SimEnv__safety";
 "_SimEnv__save_to_disk"; "_T_port"; "_UA_port"; "_V_total"; "_actuator_CV"; "_actuators";
 "_arg_err"; "_base_err"; "_breaking_part"; "_cnt_open_prts"; "_cp_port"; "_cp_wll"; "_disk_store";
 "_disk_store_parts"; "_disk_store_timevec"; "_disk_store_utility"; "_disksaving_set"; "_dm_init";
 "_dm_io"; "_dm_port"; "_dyn_BC"; "_dyn_BC_timevec"; "_failed_steps"; "_fctr_rec_stps";
 "_hydr_comps"; "_initialized"; "_lam_wll"; "_lims"; "_llim"; "_max_factor"; "_max_steps"; "_models";
 "_msb4save"; "_new_step"; "_num_cells_tot_nmrc"; "_num_cells_tot_nmrc_expl"; "_num_conn_ports";
 "_num_max_cells"; "_port_link_idx"; "_port_map_arr"; "_port_mapping"; "_port_own_idx";
 "_ports_src_interm"; "_ports_src_res_idx"; "_ports_src_result"; "_ports_trgt_idx"; "_ram";
 "_rho_wll"; "_save_every_n_steps"; "_sim_end_time"; "_sim_postproc_time"; "_sim_start_time";
 "_simenv_name"; "_solve_njit_args"; "_solved_ports"; "_solver_set"; "_solver_state"; "_solvers";
 "_step_accepted"; "_step_stable"; "_steps_since_fail"; "_sys_trnc_err"; "_timeframe_set"; "_tiny";
 "_total_failed_steps"; "_total_solver_state"; "_total_stepnum"; "_total_sys_trnc_err";
 "_total_time_vec"; "_ulim"; "_unit"; "_vN_max_step"; "adaptive_steps"; "boundary_conditions";
 "break_topology"; "can_add_ports"; "constr_type"; "ctrl_l"; "ctrls"; "dm"; "dm_char";
 "dm_invariant"; "flow_net"; "hydr_comp"; "info_plot"; "info_topology"; "is_actuator"; "length";
 "multiple_flows"; "name"; "num_ctrls"; "num_gp"; "num_parts"; "num_ports"; "num_steps"; "parts";
 "plinks_arr"; "port_ids"; "port_links"; "port_names"; "port_num"; "ports"; "ports_all"; "res";
 "res_dm"; "solve_nonnum"; "solve_num_expl"; "solve_num_impl"; "solve_num_njit"; "solve_numeric";
 "solver"; "stepnum"; "sub_net"; "sup_net"; "suppress_printing"; "time_sim"; "time_step_vec";
 "time_vec"; "timeframe"; "timestep"]);
 ("Tes", ["A_cell"; "T"; "V_cell"; "V_tes"; "_A_fld_own_p"; "_A_shell_cs"; "_A_wll_own_p";
 "_SimEnv__BC_timedelta"; "_SimEnv__atol"; "_SimEnv__base_num_steps";
 "_SimEnv__bkp_kwargs_timeframe"; "_SimEnv__infer_start_date"; "_SimEnv__last_step_t_idx";
 "_SimEnv__max_stepsize"; "_SimEnv__min_factor"; "_SimEnv__min_stepsize"; "_SimEnv__order";
 "_SimEnv__parr_bkp"; "_SimEnv__postpone"; "_SimEnv__rtol"; "_SimEnv__safety";
 "_SimEnv__save_to_disk"; "_T_ext"; "_T_init"; "_T_port"; "_T_s"; "_T_s_lid"; "_UA_port";
 "_V_shell_cs"; "_V_total"; "_aae"; "_aaei"; "_actuator_CV"; "_actuators"; "_arg_err"; "_base_err";
 "_breaking_part"; "_cnt_open_prts"; "_cp_T"; "_cp_port"; "_cp_wll"; "_d_i"; "_d_o"; "_d_shell";
 "_disk_store"; "_disk_store_parts"; "_disk_store_timevec"; "_disk_store_utility"; "_disksaving_set";
 "_dm_bot"; "_dm_io"; "_dm_port"; "_dm_top"; "_dyn_BC"; "_dyn_BC_timevec"; "_failed_steps";
 "_fctr_rec_stps"; "_hydr_comps"; "_initialized"; "_input_args"; "_lam_T"; "_lam_ins"; "_lam_mean";
 "_lam_wll"; "_lims"; "_max_factor"; "_max_steps"; "_models"; "_msb4save"; "_new_step";
 "_num_cells_tot_nmrc"; "_num_cells_tot_nmrc_expl"; "_num_conn_ports"; "_num_max_cells"; "_ny_T";
 "_port_map_arr"; "_port_mapping"; "_port_own_idx"; "_ports_src_interm"; "_ports_src_res_idx";
 "_ports_src_result"; "_ports_trgt_idx"; "_r_i"; "_r_o"; "_r_total"; "_ram"; "_rho_T"; "_rho_wll";
 "_s_ins"; "_save_every_n_steps"; "_sim_end_time"; "_sim_postproc_time"; "_sim_start_time";
 "_simenv_name"; "_solve_njit_args"; "_solved_ports"; "_solver_set"; "_solver_state"; "_solvers";
 "_step_accepted"; "_step_stable"; "_steps_since_fail"; "_sys_trnc_err"; "_timeframe_set";
 "_total_failed_steps"; "_total_solver_state"; "_total_stepnum"; "_total_sys_trnc_err";
 "_total_time_vec"; "_unit"; "_vN_max_step"; "_vertical"; "_vertical_lid"; "adaptive_steps";
 "boundary_conditions"; "break_topology"; "calculate_buoyancy"; "can_add_ports"; "constr_type";
 "ctrl_l"; "ctrls"; "dT_total"; "dm_char"; "flow_net"; "grid_spacing"; "info_topology"; "length";
 "max_bf"; "multiple_flows"; "name"; "num_ctrls"; "num_gp"; "num_parts"; "num_ports"; "num_steps";
 "parts"; "plinks_arr"; "port_ids"; "port_links"; "port_names"; "port_num"; "ports"; "ports_all";
 "res"; "solve_nonnum"; "solve_num_expl"; "solve_num_impl"; "solve_num_njit"; "solve_numeric";
 "solver"; "stepnum"; "sub_net"; "sup_net"; "suppress_printing"; "time_sim"; "time_step_vec";
 "time_vec"; "timeframe"; "timestep"]);
 ("SimEnv", ["T"; "V_cell"; "_A_fld_own_p"; "_A_wll_own_p"; "_SimEnv__BC_timedelta"; "_SimEnv__atol";
 "_SimEnv__base_num_steps"; "_SimEnv__bkp_kwargs_timeframe"; "_SimEnv__infer_start_date";
 "_SimEnv__last_step_t_idx"; "_SimEnv__max_stepsize"; "_SimEnv__min_factor"; "_SimEnv__min_stepsize";
 "_SimEnv__order"; "_SimEnv__parr_bkp"; "_SimEnv__postpone"; "_SimEnv__rtol"; "_SimEnv__safety";
 "_SimEnv__save_to_disk"; "_T_port"; "_UA_port"; "_V_total"; "_actuator_CV"; "_actuators";
 "_arg_err"; "_base_err"; "_breaking_part"; "_cp_port"; "_cp_wll"; "_disk_store";
 "_disk_store_parts"; "_disk_store_timevec"; "_disk_store_utility"; "_disksaving_set"; "_dm_port";
 "_dyn_BC"; "_dyn_BC_timevec"; "_failed_steps"; "_fctr_rec_stps"; "_get_flow_routine"; "_hydr_comps";
 "_initialized"; "_lam_wll"; "_lims"; "_max_factor"; "_max_steps"; "_models"; "_msb4save";
 "_new_step"; "_num_cells_tot_nmrc"; "_num_cells_tot_nmrc_expl"; "_num_conn_ports"; "_num_max_cells";
 "_port_map_arr"; "_port_mapping"; "_port_own_idx"; "_ports_src_interm"; "_ports_src_res_idx";
 "_ports_src_result"; "_ports_trgt_idx"; "_ram"; "_rho_wll"; "_save_every_n_steps"; "_sim_end_time";
 "_sim_postproc_time"; "_sim_start_time"; "_simenv_name"; "_solve_njit_args"; "_solved_ports";
 "_solver_set"; "_solver_state"; "_solvers"; "_step_accepted"; "_step_stable"; "_steps_since_fail";
 "_sys_trnc_err"; "_timeframe_set"; "_total_failed_steps"; "_total_solver_state"; "_total_stepnum";
 "_total_sys_trnc_err"; "_total_time_vec"; "_unit"; "_vN_max_step"; "adaptive_steps";
 "boundary_conditions"; "break_topology"; "can_add_ports"; "ctrl_l"; "ctrls"; "dm_char"; "flow_net";
 "info_topology"; "length"; "multiple_flows"; "name"; "num_ctrls"; "num_gp"; "num_parts";
 "num_ports"; "num_steps"; "parts"; "plinks_arr"; "port_ids"; "port_links"; "port_names"; "port_num";
 "ports"; "ports_all"; "res"; "solve_nonnum"; "solve_num_expl"; "solve_num_impl"; "solve_num_njit";
 "solve_numeric"; "solver"; "stepnum"; "sub_net"; "sup_net"; "suppress_printing"; "time_sim";
 "time_step_vec"; "time_vec"; "timeframe"; "timestep"]);
 ("NetPlotter", ["T"; "V_cell"; "_A_fld_own_p"; "_A_wll_own_p"; "_SimEnv__BC_timedelta"; "_SimEnv__atol";
 "_SimEnv__base_num_steps"; "_SimEnv__bkp_kwargs_timeframe"; "_SimEnv__infer_start_date";
 "_SimEnv__last_step_t_idx"; "_SimEnv__max_stepsize"; "_SimEnv__min_factor"; "_SimEnv__min_stepsize";
 "_SimEnv__order"; "_SimEnv__parr_bkp"; "_SimEnv__postpone"; "_SimEnv__rtol"; "_SimEnv__safety";
 "_SimEnv__save_to_disk"; "_T_port"; "_UA_port"; "_V_total"; "_actuator_CV"; "_actuators";
 "_arg_err"; "_base_err"; "_breaking_part"; "_cp_port"; "_cp_wll"; "_disk_store";
 "_disk_store_parts"; "_disk_store_timevec"; "_disk_store_utility"; "_disksaving_set"; "_dm_port";
 "_dyn_BC"; "_dyn_BC_timevec"; "_failed_steps"; "_fctr_rec_stps"; "_get_flow_routine"; "_hydr_comps";
 "_initialized"; "_lam_wll"; "_lims"; "_max_factor"; "_max_steps"; "_models"; "_msb4save";
 "_new_step"; "_num_cells_tot_nmrc"; "_num_cells_tot_nmrc_expl"; "_num_conn_ports"; "_num_max_cells";
 "_port_map_arr"; "_port_mapping"; "_port_own_idx"; "_ports_src_interm"; "_ports_src_res_idx";
 "_ports_src_result"; "_ports_trgt_idx"; "_ram"; "_rho_wll"; "_save_every_n_steps"; "_sim_end_time";
 "_sim_postproc_time"; "_sim_start_time"; "_simenv_name"; "_solve_njit_args"; "_solved_ports";
 "_solver_set"; "_solver_state"; "_solvers"; "_step_accepted"; "_step_stable"; "_steps_since_fail";
 "_sys_trnc_err"; "_timeframe_set"; "_total_failed_steps"; "_total_solver_state"; "_total_stepnum";
 "_total_sys_trnc_err"; "_total_time_vec"; "_unit"; "_vN_max_step"; "adaptive_steps";
 "boundary_conditions"; "break_topology"; "can_add_ports"; "ctrl_l"; "ctrls"; "dm_char"; "flow_net";
 "info_topology"; "length"; "multiple_flows"; "name"; "num_ctrls"; "num_gp"; "num_parts";
 "num_ports"; "num_steps"; "parts"; "plinks_arr"; "port_ids"; "port_links"; "port_names"; "port_num";
 "ports"; "ports_all"; "res"; "solve_nonnum"; "solve_num_expl"; "solve_num_impl"; "solve_num_njit";
 "solve_numeric"; "solver"; "stepnum"; "sub_net"; "sup_net"; "suppress_printing"; "time_sim";
 "time_step_vec"; "time_vec"; "timeframe"; "timestep"]);
 ("Meters_2", ["_Meters__midx_names"; "_disk_saving"; "_dstore"; "_meter_time_index"; "_resample";
 "_resample_freq"; "_simenv"; "_time_index"; "meters"; "meters_df"; "start_time"])].
