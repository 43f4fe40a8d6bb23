(** * Names and control flow of __init__.py, _precompiled/__init__.py, _utility/__init__.py, all_parts.py, parts/__init__.py, parts/chp_plant.py, parts/connector_3w.py, parts/controllers.py, parts/heated_pipe.py, parts/heatexchanger.py, parts/hex_condensing_polynome.py, parts/hex_num.py, parts/mixingvalve.py, parts/part_modules/__init__.py, parts/part_modules/chp_with_fluegas_hex.py, parts/part_modules/consumers.py, parts/part_modules/suppliers.py, parts/pipe.py, parts/pipe2D.py, parts/pipe_branched.py, parts/pipe_with_pump.py, parts/pipe_with_valve.py, parts/pump.py, parts/tes.py, std_parts.py, version.py (generated by tools/extract.py; representation: MPy.v). *)
From Coq Require Import List String PArith.
From Verif Require Import MPy.
Import ListNotations.
Local Open Scope string_scope. Local Open Scope positive_scope.


(* multisim/__init__.py, line 1: <module> *)
Definition f___init____module : func := {|
 f_file := "__init__.py"; f_name := "<module>"; f_line := 1;
 f_params := []; f_closure := [];
 f_locals := ["__version__"; "Models"; "SimEnv"; "ap"; "dimless_no"; "matprops"; "pf"; "se"; "_sp"; "ut"; "Meters"; "stat_err_meas"; "plotting"; "__all__"];
 f_outer := [];
 f_conds := ["*"];
 f_body := block [Def [1]; Def [2]; Def [3]; Def [4]; Def [5]; Def [6]; Def [7]; Def [8]; Def [9]; Def [10];
 Def [11]; Def [12]; Def [13]; Def [14]] |}.

(* multisim/_precompiled/__init__.py, line 1: <module> *)
Definition f__precompiled___init____module : func := {|
 f_file := "_precompiled/__init__.py"; f_name := "<module>"; f_line := 1;
 f_params := []; f_closure := [];
 f_locals := ["__version__"; "matprops"; "dimless_no"; "__all__"];
 f_outer := [];
 f_conds := ["*"];
 f_body := block [Def [1]; Def [2]; Def [3]; Def [4]] |}.

(* multisim/_utility/__init__.py, line 1: <module> *)
Definition f__utility___init____module : func := {|
 f_file := "_utility/__init__.py"; f_name := "<module>"; f_line := 1;
 f_params := []; f_closure := [];
 f_locals := ["__version__"; "Meters"; "stat_err_meas"; "plotting"; "__all__"];
 f_outer := [];
 f_conds := ["*"];
 f_body := block [Def [1]; Def [2]; Def [3]; Def [4]; Def [5]] |}.

(* multisim/all_parts.py, line 1: <module> *)
Definition f_all_parts__module : func := {|
 f_file := "all_parts.py"; f_name := "<module>"; f_line := 1;
 f_params := []; f_closure := [];
 f_locals := ["PID"; "BangBang"; "TwoSensors"; "ModelPredCHP"; "Pipe"; "HeatedPipe"; "PipeWithPump"; "PipeWith3wValve"; "PipeBranched"; "Pipe2D"; "Tes"; "Pump"; "MixingValve"; "Connector3w"; "HeatExchanger"; "HexNum"; "HEXCondPoly"; "CHPPlant"; "CHPModule"; "consumers"; "suppliers"; "__all__"];
 f_outer := [];
 f_conds := ["*"];
 f_body := block [Def [1]; Def [2]; Def [3]; Def [4]; Def [5]; Def [6]; Def [7]; Def [8]; Def [9]; Def [10];
 Def [11]; Def [12]; Def [13]; Def [14]; Def [15]; Def [16]; Def [17]; Def [18]; Def [19]; Def [20];
 Def [21]; Def [22]] |}.

(* multisim/parts/__init__.py, line 1: <module> *)
Definition f_parts___init____module : func := {|
 f_file := "parts/__init__.py"; f_name := "<module>"; f_line := 1;
 f_params := []; f_closure := [];
 f_locals := [];
 f_outer := [];
 f_conds := ["*"];
 f_body := Skip |}.

(* multisim/parts/chp_plant.py, line 1: <module> *)
Definition f_parts_chp_plant__module : func := {|
 f_file := "parts/chp_plant.py"; f_name := "<module>"; f_line := 1;
 f_params := []; f_closure := [];
 f_locals := ["np"; "pd"; "Pipe"; "_pf"; "CHPPlant"];
 f_outer := [];
 f_conds := ["*"];
 f_body := block [Def [1]; Def [2]; Def [3]; Def [4]; Use [3]; Def [5]] |}.

(* multisim/parts/chp_plant.py, line 14: CHPPlant.<class> *)
Definition f_parts_chp_plant__CHPPlant__class_ : func := {|
 f_file := "parts/chp_plant.py"; f_name := "CHPPlant.<class>"; f_line := 14;
 f_params := []; f_closure := [];
 f_locals := ["__init__"; "init_part"; "_special_array_init"; "__deprecated_special_free_memory"; "_special_free_memory"; "_check_results"; "_final_datastore_backcalc"; "_special_crop_results"; "_special_return_store"; "get_diff"];
 f_outer := [];
 f_conds := ["*"];
 f_body := block [Def [1]; Def [2]; Def [3]; Def [4]; Def [5]; Def [6]; Def [7]; Def [8]; Def [9]; Def [10]] |}.

(* multisim/parts/chp_plant.py, line 47: CHPPlant.__init__ *)
Definition f_parts_chp_plant__CHPPlant___init__ : func := {|
 f_file := "parts/chp_plant.py"; f_name := "CHPPlant.__init__"; f_line := 47;
 f_params := ["self"; "name"; "master_cls"; "eta_el"; "p2h_ratio"; "max_slope_el"; "min_off_time"; "min_on_time"; "chp_on_at_start"; "kwds"]; f_closure := [];
 f_locals := ["defaults"; "base_dflt_str"; "dflt_nm"; "dflt_val"; "eta_sum"; "err_mod"; "err_str"; "start"; "end"; "idx_on"];
 f_outer := ["super"; "print"; "locals"; "isinstance"; "int"; "float"; "_pf"; "tuple"; "list"; "np"; "slice"; "str"; "type"; "len"];
 f_conds := ["*"; "not self._models.suppress_printing"; "dflt_val == locals()[dflt_nm]"; "dflt_val is not None"; "not master_cls.suppress_printing"; "isinstance(kwds['power_electrical'], (int, float)) and kwds['power_electrical'] > 0.0"; "isinstance(kwds['p2h_ratio'], float) and 0.0 < kwds['p2h_ratio'] < 1.0"; "isinstance(kwds['eta_el'], float) and 0.0 < kwds['eta_el'] < 1.0"; "'eta_sum' not in kwds"; "self.eta_el + self.eta_th <= eta_sum"; "isinstance(kwds['eta_sum'], (int, float)) and kwds['eta_sum'] > 0"; "self.eta_el + self.eta_th < kwds['eta_sum']"; "isinstance(kwds['modulation_range'], (tuple, list))"; "isinstance(self._mod_lower, (int, float)) and 0 < self._mod_lower <= 1"; "isinstance(self._mod_upper, (int, float)) and 0 < self._mod_upper <= 1 and (self._mod_l..."; "isinstance(kwds['max_slope_el'], float) and 0 < kwds['max_slope_el'] <= 1"; "isinstance(kwds['min_off_time'], (int, float)) and 0 < kwds['min_off_time']"; "isinstance(kwds['min_on_time'], (int, float)) and 0 < kwds['min_on_time']"; "not chp_on_at_start"; "kwds['heat_spread'] in ['all', 'single', 'range']"; "self._heat_spread == 'all'"; "self._heat_spread == 'single'"; "'heated_cells' in kwds and type(kwds['heated_cells']) == int and (0 <= kwds['heated_cel..."; "'heated_cells' in kwds and isinstance(kwds['heated_cells'], (list, tuple)) and (len(kwd..."; "start < end and start >= 0 and (end < self.num_gp)"; "0 <= self._lims[0] < self._lims[1]"];
 f_body := block [Use [1;21;2;3;10]; Def [11]; Def [12]; Use [1]; Choice 2 (Use [22]) Skip; Use [11]; Loop
 false (block [Def [13]; Def [14]; Use [14;23;13]; Choice 3 (block [Use [14]; Choice 4 (block [Use
 [3]; Choice 5 (Use [22;12;1;13;14]) Skip; Use [14;10;13]]) Skip]) (Use [23;13;10])]) Skip; Use
 [1;2;10;24;25;26]; Choice 1 Skip (Use [10]); Choice 6 Skip (block [Use [1]; Raise]); Use
 [10;1;24;26]; Choice 1 Skip (Use [10]); Choice 7 Skip (block [Use [1]; Raise]); Use [10;1;27;24;26];
 Choice 1 Skip (Use [10]); Choice 8 Skip (block [Use [1]; Raise]); Use [10;1;27]; Choice 9 (block
 [Def [15]; Use [1;15]; Choice 10 Skip (block [Use [1;15]; Raise])]) (block [Use [24;10;25;26];
 Choice 1 Skip (Use [10]); Choice 11 Skip (Raise); Use [1;10]; Choice 12 Skip (block [Use [1];
 Raise])]); Use [1]; Def [16]; Use [24;10;28;29]; Choice 13 Skip (block [Use [16]; Raise]); Use
 [10;1;26;24;25]; Choice 1 Skip (Use [1]); Choice 14 Skip (block [Use [16]; Raise]); Use
 [24;1;25;26]; Choice 1 Skip (block [Use [1]; Choice 1 Skip (Use [1])]); Choice 15 Skip (block [Use
 [16]; Raise]); Use [24;10;26]; Choice 1 Skip (Use [10]); Choice 16 Skip (block [Use [1]; Raise]);
 Use [10;1;24;25;26]; Choice 1 Skip (Use [10]); Choice 17 Skip (block [Use [1]; Raise]); Use
 [10;1;24;25;26]; Choice 1 Skip (Use [10]); Choice 18 Skip (block [Use [1]; Raise]); Use [10;1;30;9];
 Choice 19 (Use [1]) (Use [1]); Use [1;30]; Def [17]; Use [10]; Choice 20 Skip (block [Use [17];
 Raise]); Use [10;1]; Choice 21 (Use [1;31]) (block [Use [1]; Choice 22 (block [Use [1;32]; Def [17];
 Use [10]; Choice 1 Skip (block [Use [33;10;25]; Choice 1 Skip (Use [10;1])]); Choice 23 Skip (block
 [Use [17]; Raise]); Use [31;10;1]]) (block [Use [1;32]; Def [17]; Use [10]; Choice 1 Skip (block
 [Use [24;10;29;28]; Choice 1 Skip (block [Use [34;10]; Choice 1 Skip (block [Use [24;10;25]; Choice
 1 Skip (Use [24;10;25])])])]); Choice 24 Skip (block [Use [17]; Raise]); Use [10]; Def [18]; Use
 [10]; Def [19]; Use [18;19]; Choice 1 Skip (block [Use [18]; Choice 1 Skip (Use [19;1])]); Choice 25
 Skip (block [Use [17]; Raise]); Use [31;18;19;1]])]); Use [1]; Def [17]; Use [30;10;1]; Choice 26
 Skip (block [Use [17]; Raise]); Use [30;1;27]; Def [20]; Use [1;20]] |}.

(* multisim/parts/chp_plant.py, line 460: CHPPlant.init_part *)
Definition f_parts_chp_plant__CHPPlant_init_part : func := {|
 f_file := "parts/chp_plant.py"; f_name := "CHPPlant.init_part"; f_line := 460;
 f_params := ["self"; "start_modulation"; "fluegas_flow"; "kwds"]; f_closure := [];
 f_locals := ["err_hex2"; "err_hex3"];
 f_outer := ["super"; "print"; "isinstance"; "int"; "float"; "bool"; "slice"; "np"; "_pf"];
 f_conds := ["*"; "fluegas_flow == 70 / 61.1"; "not self._models.suppress_printing"; "isinstance(start_modulation, (int, float)) and 0 <= start_modulation <= 1"; "isinstance(kwds['connect_fluegas_hex'], bool)"; "self._connect_fg_hex"; "'fg_hex_name' in kwds"; "kwds['fg_hex_name'] in self._models.parts"; "isinstance(kwds['fluegas_flow'], (int, float))"; "0 <= self._lims[0] < self._lims[1]"];
 f_body := block [Use [7;4;3]; Choice 2 (block [Use [1]; Choice 3 (Use [8;1;3]) Skip]) Skip; Use
 [3;4;1;9;2;10;11]; Choice 1 Skip (Use [2]); Choice 4 Skip (Raise); Use [2;1;4;9;12]; Choice 5 Skip
 (block [Use [1]; Raise]); Use [4;1]; Choice 6 (block [Use [1]; Def [5]; Use [4]; Choice 7 Skip
 (block [Use [5]; Raise]); Use [1;4]; Def [6]; Use [4;1]; Choice 8 Skip (block [Use [6]; Raise]); Use
 [4;1;13]]) (Use [14;1]); Use [9;4;10;11]; Choice 9 Skip (block [Use [1]; Raise]); Use [4;1]; Choice
 10 Skip (block [Use [1]; Raise]); Use [15;1]] |}.

(* multisim/parts/chp_plant.py, line 561: CHPPlant._special_array_init *)
Definition f_parts_chp_plant__CHPPlant__special_array_init : func := {|
 f_file := "parts/chp_plant.py"; f_name := "CHPPlant._special_array_init"; f_line := 561;
 f_params := ["self"; "num_steps"]; f_closure := [];
 f_locals := [];
 f_outer := ["np"];
 f_conds := ["*"];
 f_body := Use [3;2;1] |}.

(* multisim/parts/chp_plant.py, line 567: CHPPlant.__deprecated_special_free_memory *)
Definition f_parts_chp_plant__CHPPlant___deprecated_special_free_memory : func := {|
 f_file := "parts/chp_plant.py"; f_name := "CHPPlant.__deprecated_special_free_memory"; f_line := 567;
 f_params := ["self"; "disk_store"; "part"; "array_length"; "hdf_idx"; "stepnum"]; f_closure := [];
 f_locals := [];
 f_outer := ["pd"];
 f_conds := ["*"];
 f_body := Use [2;3;7;1;4;5;6] |}.

(* multisim/parts/chp_plant.py, line 600: CHPPlant._special_free_memory *)
Definition f_parts_chp_plant__CHPPlant__special_free_memory : func := {|
 f_file := "parts/chp_plant.py"; f_name := "CHPPlant._special_free_memory"; f_line := 600;
 f_params := ["self"; "disk_store"; "part"; "array_length"; "hdf_idx"; "stepnum"]; f_closure := [];
 f_locals := [];
 f_outer := ["pd"];
 f_conds := ["*"];
 f_body := Use [2;3;7;1;4;5;6] |}.

(* multisim/parts/chp_plant.py, line 633: CHPPlant._check_results *)
Definition f_parts_chp_plant__CHPPlant__check_results : func := {|
 f_file := "parts/chp_plant.py"; f_name := "CHPPlant._check_results"; f_line := 633;
 f_params := ["self"]; f_closure := [];
 f_locals := [];
 f_outer := ["np"];
 f_conds := ["*"; "np.all(self.res > 0.0) and np.all(self.res < 150)"];
 f_body := block [Use [2;1]; Choice 1 Skip (Use [2;1]); Choice 2 Skip (Raise)] |}.

(* multisim/parts/chp_plant.py, line 639: CHPPlant._final_datastore_backcalc *)
Definition f_parts_chp_plant__CHPPlant__final_datastore_backcalc : func := {|
 f_file := "parts/chp_plant.py"; f_name := "CHPPlant._final_datastore_backcalc"; f_line := 639;
 f_params := ["self"; "disk_store"; "part"]; f_closure := [];
 f_locals := [];
 f_outer := ["np"];
 f_conds := ["*"];
 f_body := Use [4;2;3;1] |}.

(* multisim/parts/chp_plant.py, line 659: CHPPlant._special_crop_results *)
Definition f_parts_chp_plant__CHPPlant__special_crop_results : func := {|
 f_file := "parts/chp_plant.py"; f_name := "CHPPlant._special_crop_results"; f_line := 659;
 f_params := ["self"; "stepnum"]; f_closure := [];
 f_locals := [];
 f_outer := [];
 f_conds := ["*"];
 f_body := Use [1;2] |}.

(* multisim/parts/chp_plant.py, line 665: CHPPlant._special_return_store *)
Definition f_parts_chp_plant__CHPPlant__special_return_store : func := {|
 f_file := "parts/chp_plant.py"; f_name := "CHPPlant._special_return_store"; f_line := 665;
 f_params := ["self"; "disk_store"; "dfs"; "part"]; f_closure := [];
 f_locals := [];
 f_outer := [];
 f_conds := ["*"];
 f_body := Use [3;4;2] |}.

(* multisim/parts/chp_plant.py, line 675: CHPPlant.get_diff *)
Definition f_parts_chp_plant__CHPPlant_get_diff : func := {|
 f_file := "parts/chp_plant.py"; f_name := "CHPPlant.get_diff"; f_line := 675;
 f_params := ["self"; "timestep"]; f_closure := [];
 f_locals := ["curr_time"; "state_last_step"; "mod_diff"; "mod_ramp_abs"; "dT_cond_port"; "i"; "idx"];
 f_outer := ["np"; "_pf"; "range"];
 f_conds := ["*"; "self._process_flows[0]"; "self._power_modulation[0] < self._mod_lower"; "(state_last_step != 0.0) != self._chp_on"; "not self._chp_on"; "self._min_on_time > curr_time - self._startup_at_time"; "self._min_off_time > curr_time - self._shutdown_at_time or self._T_chp_in[0] > self._T_..."; "self._chp_on"; "mod_ramp_abs > self._max_ramp_el"; "mod_diff <= 0.0"; "self._chp_on and (self._T_chp_in[0] > self._T_chp_in_max or np.any(self.T > self._T_chp..."; "self._dt_time_temp_exc > self._max_temp_exc_time or np.any(self.T > self._T_chp_in_max_..."; "self._startup_at_time > self._shutdown_at_time"; "self._shutdown_factor_th > self._chp_off_perc"; "self._startup_in_progress"; "self._startup_factor_th < 0.0"; "self._startup_factor_th > 1.0"; "self._startup_factor_el < 0.0"; "self._startup_factor_el > 1.0"; "self._startup_factor_gas < 0.0"; "self._startup_factor_gas > 1.0"; "self._startup_factor_th > self._chp_on_perc"; "self._shutdown_in_progress"; "self._shutdown_factor_th < self._chp_off_perc"; "not self._shutdown_in_progress"; "self._connect_fg_hex"];
 f_body := block [Use [1]; Choice 2 (block [Use [1;2]; Def [3]; Use [1]; Def [4]; Use [1]; Choice 3 (Use [1])
 (Use [1]); Use [4;1]; Choice 4 (block [Use [1]; Choice 5 (block [Use [1;3]; Choice 6 (Use [1]) (Use
 [3;1])]) (block [Use [1;3]; Choice 1 Skip (block [Use [1]; Choice 1 Skip (Use [10;1])]); Choice 7
 (Use [1]) (Use [3;1])])]) (block [Use [1]; Choice 8 (block [Use [4;1]; Def [5]; Use [10;5;2]; Def
 [6]; Use [6;1]; Choice 9 (block [Use [5]; Choice 10 (Use [4;1;2]) (Use [4;1;2])]) Skip]) Skip]); Use
 [1]; Choice 1 Skip (block [Use [1]; Choice 1 Skip (Use [10;1])]); Choice 11 (block [Use [1]; Choice
 1 Skip (Use [10;1]); Choice 12 (Use [1;3]) (Use [1;2])]) (Use [1]); Use [1]; Choice 13 (block [Use
 [1]; Choice 14 (Use [10;1]) Skip; Use [3;1]; Choice 15 (block [Use [11;1]; Choice 16 Skip (block
 [Use [1]; Choice 17 Skip (Use [1])]); Use [1]; Choice 18 Skip (block [Use [1]; Choice 19 Skip (Use
 [1])]); Use [1]; Choice 20 Skip (block [Use [1]; Choice 21 Skip (Use [1])]); Use [1]; Choice 22 (Use
 [1]) Skip]) Skip]) (block [Use [3;1]; Choice 23 (block [Use [11;1]; Choice 24 (Use [1]) Skip])
 Skip])]) Skip; Use [1]; Choice 25 (Use [1;11]) (Use [1]); Use [1;11]; Choice 2 (Use [1]) Skip; Use
 [1]; Choice 26 (Use [1]) Skip; Use [1]; Choice 25 (Use [1]) Skip; Use [11;1]; Def [7]; Use
 [11;1;2;12]; Loop false (block [Def [8]; Use [1;8]; Def [9]; Use [1;9;7;8]]) Skip; Use [1]; Return] |}.

(* multisim/parts/connector_3w.py, line 1: <module> *)
Definition f_parts_connector_3w__module : func := {|
 f_file := "parts/connector_3w.py"; f_name := "<module>"; f_line := 1;
 f_params := []; f_closure := [];
 f_locals := ["np"; "SimEnv"; "_solve_connector_3w"; "Connector3w"];
 f_outer := [];
 f_conds := ["*"];
 f_body := block [Def [1]; Def [2]; Def [3]; Use [2]; Def [4]] |}.

(* multisim/parts/connector_3w.py, line 13: Connector3w.<class> *)
Definition f_parts_connector_3w__Connector3w__class_ : func := {|
 f_file := "parts/connector_3w.py"; f_name := "Connector3w.<class>"; f_line := 13;
 f_params := []; f_closure := [];
 f_locals := ["__init__"; "init_part"; "_reset_to_init_cond"; "_get_flow_routine"; "solve"; "draw_part"];
 f_outer := [];
 f_conds := ["*"];
 f_body := block [Def [1]; Def [2]; Def [3]; Def [4]; Def [5]; Def [6]] |}.

(* multisim/parts/connector_3w.py, line 36: Connector3w.__init__ *)
Definition f_parts_connector_3w__Connector3w___init__ : func := {|
 f_file := "parts/connector_3w.py"; f_name := "Connector3w.__init__"; f_line := 36;
 f_params := ["self"; "name"; "master_cls"; "kwargs"]; f_closure := [];
 f_locals := ["base_err"; "arg_err"; "dummy_var"; "i"];
 f_outer := ["str"; "np"; "bool"; "tuple"; "list"; "range"; "dict"];
 f_conds := ["*"; "self.dm_invariant"; "not self.hydr_comp"];
 f_body := block [Use [3;1;9;2]; Def [5]; Def [6]; Use [5;1;6;2;10;11;12;13]; Def [7]; Use [14;1]; Loop false
 (block [Def [8]; Use [1;7;8]]) Skip; Use [12;7;1;10]; Choice 2 (Use [10;1]) (Use [10;1]); Use [1];
 Choice 3 (Use [1]) (Use [10;1]); Use [15;1]] |}.

(* multisim/parts/connector_3w.py, line 222: Connector3w.init_part *)
Definition f_parts_connector_3w__Connector3w_init_part : func := {|
 f_file := "parts/connector_3w.py"; f_name := "Connector3w.init_part"; f_line := 222;
 f_params := ["self"; "material"; "pipe_specs"; "kwargs"]; f_closure := [];
 f_locals := ["key"];
 f_outer := ["np"];
 f_conds := ["*"; "'in' in self.info_topology"];
 f_body := block [Use [1;2;3]; Choice 2 (Def [5]) (Def [5]); Use [6;1;5]] |}.

(* multisim/parts/connector_3w.py, line 259: Connector3w._reset_to_init_cond *)
Definition f_parts_connector_3w__Connector3w__reset_to_init_cond : func := {|
 f_file := "parts/connector_3w.py"; f_name := "Connector3w._reset_to_init_cond"; f_line := 259;
 f_params := ["self"]; f_closure := [];
 f_locals := [];
 f_outer := [];
 f_conds := ["*"];
 f_body := Skip |}.

(* multisim/parts/connector_3w.py, line 262: Connector3w._get_flow_routine *)
Definition f_parts_connector_3w__Connector3w__get_flow_routine : func := {|
 f_file := "parts/connector_3w.py"; f_name := "Connector3w._get_flow_routine"; f_line := 262;
 f_params := ["self"; "port"; "parent_port"; "subnet"; "kwargs"]; f_closure := [];
 f_locals := ["trgt_idx"; "operation_id"; "src1_idx"; "src2_idx"; "op_routine"; "src_part"; "src_port"; "src_idx"; "alg_sign"; "net"; "operation_routine"; "source_ports"];
 f_outer := ["enumerate"; "slice"; "len"; "tuple"; "set"; "dict"];
 f_conds := ["*"; "self._cnt_open_prts == 1"; "alg_sign == 'positive'"; "self._cnt_open_prts > 1"; "self._cnt_open_prts == 0"; "subnet"; "operation_id == -1"; "operation_id == 0"; "port not in self.info_topology"];
 f_body := block [Use [1;2]; Def [6]; Use [1]; Choice 2 (block [Def [7]; Use [1;18]; Choice 1 Skip (Use [2;1]);
 Def [8]; Def [9]; Use [19;8]; Def [8]; Use [19;9]; Def [9]; Use [1;6;7;8;9]; Def [10]]) (block [Use
 [1;2;3]; Def [6]; Def [11]; Def [12]; Def [13]; Def [14]; Use [14]; Choice 3 (Def [7]) (Def [7]);
 Use [1;6;7;11;13]; Def [10]]); Use [1;2;20]; Use [1]; Choice 5 (Use [1]) Skip; Use [4]; Def [15];
 Use [7]; Choice 7 Skip (Use [7]); Def [16]; Use [1]; Choice 4 (Use [11]) (Use [1]); Def [11]; Use
 [7]; Choice 8 (Use [12]) (Use [21;22;1;2]); Def [17]; Use [2;1]; Choice 9 (Use [23;1;2]) Skip; Use
 [1;2;15;6;16;11;17;5;10]; Return] |}.

(* multisim/parts/connector_3w.py, line 403: Connector3w.solve *)
Definition f_parts_connector_3w__Connector3w_solve : func := {|
 f_file := "parts/connector_3w.py"; f_name := "Connector3w.solve"; f_line := 403;
 f_params := ["self"; "timestep"]; f_closure := [];
 f_locals := [];
 f_outer := ["_solve_connector_3w"];
 f_conds := ["*"];
 f_body := Use [3;1] |}.

(* multisim/parts/connector_3w.py, line 439: Connector3w.draw_part *)
Definition f_parts_connector_3w__Connector3w_draw_part : func := {|
 f_file := "parts/connector_3w.py"; f_name := "Connector3w.draw_part"; f_line := 439;
 f_params := ["self"; "axis"; "timestep"; "draw"; "animate"]; f_closure := [];
 f_locals := ["__pt"; "orient_list"; "err_str"; "free_ports"; "p1"; "p2"; "offset"; "txt"; "txtA"; "txtB"; "txtC"];
 f_outer := ["dict"; "str"; "np"; "list"; "tuple"];
 f_conds := ["*"; "not draw"; "'orientation' in self.info_plot"; "self.info_plot['orientation'] in orient_list"; "__pt['orient'] == 'left'"; "__pt['orient'] == 'right'"; "__pt['orient'] == 'middle'"; "'invert' not in self.info_plot or not self.info_plot['invert']"; "self.info_plot['invert']"; "0 <= __pt['rot_angle'] <= 45 / 180 * np.pi or 135 / 180 * np.pi <= __pt['rot_angle'] <=..."; "draw"; "animate"];
 f_body := block [Use [4]; Choice 2 (block [Use [17]; Def [6]; Use [1;6]; Def [7]; Use [18;7]; Def [8]; Use
 [1]; Choice 3 Skip (block [Use [8]; Raise]); Use [1;7]; Choice 4 Skip (block [Use [8]; Raise]); Use
 [1;6;19]; Choice 5 (Use [6]) (block [Use [6]; Choice 6 (Use [19;6]) (block [Use [6]; Choice 7 (Use
 [19;6]) Skip])]); Use [6;1;19]; Choice 5 (Use [6]) (block [Use [6]; Choice 7 (Use [6]) (block [Use
 [6]; Choice 6 (Use [6]) Skip])]); Use [20;1]; Def [9]; Use [9;1]; Choice 1 Skip (Use [1]); Choice 8
 (block [Use [9]; Def [10]; Use [9]; Def [11]]) (block [Use [1]; Choice 9 (block [Use [9]; Def [10];
 Use [9]; Def [11]]) Skip]); Use [6;1;10;11;19]; Choice 1 Skip (block [Use [19;6]; Choice 1 Skip (Use
 [6;19])]); Def [12]; Use [21;1;19;12;6]]) Skip; Use [4]; Choice 11 (block [Use [2;1;5]; Def [13];
 Use [18;1;3]; Def [14]; Use [18;1;3]; Def [15]; Use [18;1;3]; Def [16]; Use [2;13;1;5;14;15;16];
 Choice 12 (Return) Skip]) Skip] |}.

(* multisim/parts/controllers.py, line 1: <module> *)
Definition f_parts_controllers__module : func := {|
 f_file := "parts/controllers.py"; f_name := "<module>"; f_line := 1;
 f_params := []; f_closure := [];
 f_locals := ["np"; "pd"; "_sopt"; "Controls"; "_pf"; "PID"; "BangBang"; "TwoSensors"; "ModelPredCHP"];
 f_outer := [];
 f_conds := ["*"];
 f_body := block [Def [1]; Def [2]; Def [3]; Def [4]; Def [5]; Use [4]; Def [6]; Use [4]; Def [7]; Use [4]; Def
 [8]; Use [4]; Def [9]] |}.

(* multisim/parts/controllers.py, line 15: PID.<class> *)
Definition f_parts_controllers__PID__class_ : func := {|
 f_file := "parts/controllers.py"; f_name := "PID.<class>"; f_line := 15;
 f_params := []; f_closure := [];
 f_locals := ["__init__"; "_reset_to_init_cond"; "run_controller"];
 f_outer := [];
 f_conds := ["*"];
 f_body := block [Def [1]; Def [2]; Def [3]] |}.

(* multisim/parts/controllers.py, line 16: PID.__init__ *)
Definition f_parts_controllers__PID___init__ : func := {|
 f_file := "parts/controllers.py"; f_name := "PID.__init__"; f_line := 16;
 f_params := ["self"; "name"; "master_cls"; "kwargs"]; f_closure := [];
 f_locals := ["terms"; "err_trms"; "err_str_awndp"; "methods"; "err_str"; "rules"; "errtune"; "err_str_crit"; "err_str_rules"; "awndp"];
 f_outer := ["super"; "str"; "isinstance"; "int"; "float"; "np"; "print"; "type"; "list"; "len"; "bool"];
 f_conds := ["*"; "'terms' in kwargs and kwargs['terms'] in terms"; "self.terms in ['P', 'PI', 'PD', 'PID']"; "'loop_tuning' in kwargs"; "kwargs['loop_tuning'] in methods"; "self.loop_tuning == 'manual'"; "'P' in self.terms"; "'Kp' in kwargs and isinstance(kwargs['Kp'], (int, float))"; "'I' in self.terms"; "'Ki' in kwargs and isinstance(kwargs['Ki'], (int, float))"; "'D' in self.terms"; "'Kd' in kwargs and isinstance(kwargs['Kd'], (int, float))"; "self.loop_tuning == 'tune'"; "self.loop_tuning == 'ziegler-nichols'"; "self.terms == 'PID' and 'rule' in kwargs and (kwargs['rule'] not in rules)"; "kwargs['rule'] in rules"; "'Kp_crit' in kwargs and isinstance(kwargs['Kp_crit'], (int, float))"; "'T_crit' in kwargs and isinstance(kwargs['T_crit'], (int, float))"; "'I' not in self.terms"; "'Ki' not in kwargs"; "'D' not in self.terms"; "'Kd' not in kwargs"; "self.terms == 'P'"; "self.terms == 'PI'"; "self.terms == 'PD'"; "self.terms == 'PID'"; "'rule' in kwargs and kwargs['rule'] in rules"; "self.loop_tuning_rule == 'classic'"; "self.loop_tuning_rule == 'pessen-int'"; "self.loop_tuning_rule == 'some-os'"; "self.loop_tuning_rule == 'no-os'"; "'K_mult' in kwargs"; "type(kwargs['K_mult']) == list and len(kwargs['K_mult']) == 3"; "isinstance(kwargs['K_mult'][0], (int, float)) and isinstance(kwargs['K_mult'][1], (int,..."; "'filter_derivative' in kwargs"; "type(kwargs['filter_derivative']) == bool"; "kwargs['filter_derivative']"; "'cutoff_freq' in kwargs"; "isinstance(kwargs['cutoff_freq'], (int, float))"; "'anti_windup' in kwargs and isinstance(kwargs['anti_windup'], (int, float, str))"; "isinstance(kwargs['anti_windup'], (int, float))"; "'_' in kwargs['anti_windup']"; "self._anti_windup > 0.0"];
 f_body := block [Use [15;2;3;4]; Def [5]; Use [1;16;5]; Def [6]; Use [4]; Choice 1 Skip (Use [4;5]); Choice 2
 Skip (block [Use [6]; Raise]); Use [4;1]; Def [7]; Use [1]; Choice 3 (block [Def [8]; Use [1]; Def
 [9]; Use [4]; Choice 4 Skip (block [Use [9]; Raise]); Use [4;8]; Choice 5 Skip (block [Use [9];
 Raise]); Use [4;1]; Def [10]; Use [1]; Choice 6 (block [Use [1]; Def [9]; Use [1]; Choice 7 (block
 [Use [4]; Choice 1 Skip (Use [17;4;18;19]); Choice 8 Skip (block [Use [9]; Raise]); Use [19;4;1]])
 Skip; Use [1]; Choice 9 (block [Use [4]; Choice 1 Skip (Use [17;4;18;19]); Choice 10 Skip (block
 [Use [9]; Raise]); Use [19;4;1]]) Skip; Use [1]; Choice 11 (block [Use [4]; Choice 1 Skip (Use
 [17;4;18;19]); Choice 12 Skip (block [Use [9]; Raise]); Use [19;4;1]]) Skip]) (block [Use [1];
 Choice 13 (block [Use [1]; Def [11]; Use [4]; Choice 1 Skip (Use [17;4;18;19]); Choice 8 Skip (block
 [Use [11]; Raise]); Use [19;4;1;20;21]]) (block [Use [1]; Choice 14 (block [Use [1]; Def [12]; Use
 [1]; Def [13]; Use [1]; Choice 1 Skip (block [Use [4]; Choice 1 Skip (Use [4;10])]); Choice 15
 (block [Use [4;10]; Choice 16 Skip (block [Use [13]; Raise])]) Skip; Use [4]; Choice 1 Skip (Use
 [17;4;18;19]); Choice 17 Skip (block [Use [12]; Raise]); Use [4]; Choice 1 Skip (Use [17;4;18;19]);
 Choice 18 Skip (block [Use [12]; Raise]); Use [1]; Choice 19 (block [Use [4]; Choice 20 Skip (block
 [Use [12]; Raise])]) Skip; Use [1]; Choice 21 (block [Use [4]; Choice 22 Skip (block [Use [12];
 Raise])]) Skip; Use [19;4;1]; Choice 23 (Use [1]) (block [Use [1]; Choice 24 (Use [1]) (block [Use
 [1]; Choice 25 (Use [1]) (block [Use [1]; Choice 26 (block [Use [4]; Choice 1 Skip (Use [4;10]);
 Choice 27 Skip (block [Use [13]; Raise]); Use [4;1]; Choice 28 (Use [1]) (block [Use [1]; Choice 29
 (Use [1]) (block [Use [1]; Choice 30 (Use [1]) (block [Use [1]; Choice 31 (Use [1]) Skip])])])])
 Skip])])])]) Skip])])]) Skip; Use [1]; Def [9]; Use [4]; Choice 32 (block [Use [22;4;23]; Choice 1
 Skip (Use [24;4]); Choice 33 Skip (block [Use [9]; Raise]); Use [17;4;18;19]; Choice 1 Skip (block
 [Use [17;4;18;19]; Choice 1 Skip (Use [17;4;18;19])]); Choice 34 Skip (block [Use [9]; Raise]); Use
 [19;4;1]]) Skip; Use [1]; Choice 11 (block [Use [1]; Def [9]; Use [4]; Choice 35 Skip (block [Use
 [9]; Raise]); Use [22;4;25]; Choice 36 Skip (block [Use [9]; Raise]); Use [4]; Choice 37 (block [Use
 [4]; Choice 38 Skip (block [Use [9]; Raise]); Use [17;4;18;19]; Choice 39 Skip (block [Use [9];
 Raise]); Use [1;19;4;20]]) (Use [1])]) (Use [1]); Use [1]; Choice 9 (block [Use [4]; Choice 1 Skip
 (Use [17;4;18;19;16]); Choice 40 Skip (block [Use [7]; Raise]); Use [17;4;18;19]; Choice 41 (Use
 [19;4;1]) (block [Use [4]; Choice 42 (Use [19;4]) Skip; Def [14]; Use [14;1]]); Use [1]; Choice 43
 Skip (block [Use [1]; Raise])]) (Use [20;1])] |}.

(* multisim/parts/controllers.py, line 366: PID._reset_to_init_cond *)
Definition f_parts_controllers__PID__reset_to_init_cond : func := {|
 f_file := "parts/controllers.py"; f_name := "PID._reset_to_init_cond"; f_line := 366;
 f_params := ["self"]; f_closure := [];
 f_locals := [];
 f_outer := [];
 f_conds := ["*"];
 f_body := Use [1] |}.

(* multisim/parts/controllers.py, line 375: PID.run_controller *)
Definition f_parts_controllers__PID_run_controller : func := {|
 f_file := "parts/controllers.py"; f_name := "PID.run_controller"; f_line := 375;
 f_params := ["self"; "timestep"]; f_closure := [];
 f_locals := [];
 f_outer := [];
 f_conds := ["*"; "self.discrete_time"; "self.ki != 0"; "self.cv < -self._anti_windup"; "self.cv > self._anti_windup"; "self.filt_derivate"; "self.i_term < -self._anti_windup"; "self.i_term > self._anti_windup"];
 f_body := block [Use [1]; Choice 2 (block [Use [1]; Choice 3 (block [Use [1]; Choice 4 (Use [1]) (block [Use
 [1]; Choice 5 (Use [1]) (Use [1])]); Use [1]; Choice 6 (Use [1;2]) (Use [1]); Use [1;2]]) (block
 [Use [1]; Choice 6 (Use [1;2]) (Use [1]); Use [1;2]]); Use [1]]) (block [Use [2;1]; Choice 7 (Use
 [1]) (block [Use [1]; Choice 8 (Use [1]) (Use [1])]); Use [1]; Choice 6 (Use [1;2]) (Use [1]); Use
 [1;2]]); Use [1]] |}.

(* multisim/parts/controllers.py, line 497: BangBang.<class> *)
Definition f_parts_controllers__BangBang__class_ : func := {|
 f_file := "parts/controllers.py"; f_name := "BangBang.<class>"; f_line := 497;
 f_params := []; f_closure := [];
 f_locals := ["__init__"; "_reset_to_init_cond"; "run_controller"];
 f_outer := [];
 f_conds := ["*"];
 f_body := block [Def [1]; Def [2]; Def [3]] |}.

(* multisim/parts/controllers.py, line 498: BangBang.__init__ *)
Definition f_parts_controllers__BangBang___init__ : func := {|
 f_file := "parts/controllers.py"; f_name := "BangBang.__init__"; f_line := 498;
 f_params := ["self"; "name"; "master_cls"; "kwargs"]; f_closure := [];
 f_locals := ["err_str"];
 f_outer := ["super"; "isinstance"; "int"; "float"; "abs"];
 f_conds := ["*"; "'hysteresis' in kwargs and isinstance(kwargs['hysteresis'], (int, float))"; "kwargs['hysteresis'] >= 0.0"];
 f_body := block [Use [6;2;3;4;1]; Def [5]; Use [4]; Choice 1 Skip (Use [7;4;8;9]); Choice 2 Skip (block [Use
 [5]; Raise]); Use [4]; Choice 3 (Use [1]) (Use [1]); Use [9;10;4;1]] |}.

(* multisim/parts/controllers.py, line 527: BangBang._reset_to_init_cond *)
Definition f_parts_controllers__BangBang__reset_to_init_cond : func := {|
 f_file := "parts/controllers.py"; f_name := "BangBang._reset_to_init_cond"; f_line := 527;
 f_params := ["self"]; f_closure := [];
 f_locals := [];
 f_outer := [];
 f_conds := ["*"];
 f_body := Use [1] |}.

(* multisim/parts/controllers.py, line 536: BangBang.run_controller *)
Definition f_parts_controllers__BangBang_run_controller : func := {|
 f_file := "parts/controllers.py"; f_name := "BangBang.run_controller"; f_line := 536;
 f_params := ["self"; "timestep"]; f_closure := [];
 f_locals := [];
 f_outer := [];
 f_conds := ["*"; "self.pv < self.sp - self._hysteresis / 2"; "self._reversed"; "self.pv > self.sp + self._hysteresis / 2"];
 f_body := block [Use [1]; Choice 2 (block [Use [1]; Choice 3 (Use [1]) (Use [1])]) (block [Use [1]; Choice 4
 (block [Use [1]; Choice 3 (Use [1]) (Use [1])]) Skip]); Use [1]] |}.

(* multisim/parts/controllers.py, line 555: TwoSensors.<class> *)
Definition f_parts_controllers__TwoSensors__class_ : func := {|
 f_file := "parts/controllers.py"; f_name := "TwoSensors.<class>"; f_line := 555;
 f_params := []; f_closure := [];
 f_locals := ["__init__"; "_reset_to_init_cond"; "run_controller"];
 f_outer := [];
 f_conds := ["*"];
 f_body := block [Def [1]; Def [2]; Def [3]] |}.

(* multisim/parts/controllers.py, line 556: TwoSensors.__init__ *)
Definition f_parts_controllers__TwoSensors___init__ : func := {|
 f_file := "parts/controllers.py"; f_name := "TwoSensors.__init__"; f_line := 556;
 f_params := ["self"; "name"; "master_cls"; "kwargs"]; f_closure := [];
 f_locals := ["err_slope"; "ers"; "erac"];
 f_outer := ["super"; "isinstance"; "int"; "float"; "str"];
 f_conds := ["*"; "self._slope"; "'silence_slope_warning' in kwargs and kwargs['silence_slope_warning']"; "'on_sensor_part' in kwargs and 'on_sensor_port' in kwargs"; "'activation_value' in kwargs and 'activation_sign' in kwargs and ('deactivation_sign' i..."; "isinstance(kwargs['activation_value'], (int, float))"; "isinstance(kwargs['activation_sign'], str)"; "isinstance(kwargs['deactivation_sign'], str)"; "kwargs['activation_sign'] in ('greater', 'lower')"; "kwargs['deactivation_sign'] in ('greater', 'lower')"; "kwargs['activation_sign'] == 'lower'"; "kwargs['deactivation_sign'] == 'lower'"];
 f_body := block [Use [8;2;3;4;1]; Choice 2 (block [Use [2]; Def [5]; Use [4]; Choice 1 Skip (Use [4]); Choice
 3 Skip (block [Use [5]; Raise])]) Skip; Use [1]; Def [6]; Use [4]; Choice 1 Skip (Use [4]); Choice 4
 Skip (block [Use [6]; Raise]); Use [1;4]; Def [7]; Use [4]; Choice 1 Skip (block [Use [4]; Choice 1
 Skip (Use [4])]); Choice 5 Skip (block [Use [7]; Raise]); Use [9;4;10;11]; Choice 6 Skip (block [Use
 [7]; Raise]); Use [9;4;12]; Choice 7 Skip (block [Use [7]; Raise]); Use [9;4;12]; Choice 8 Skip
 (block [Use [7]; Raise]); Use [4]; Choice 9 Skip (block [Use [7]; Raise]); Use [4]; Choice 10 Skip
 (block [Use [7]; Raise]); Use [11;4;1]; Use [1;4]; Use [1]] |}.

(* multisim/parts/controllers.py, line 629: TwoSensors._reset_to_init_cond *)
Definition f_parts_controllers__TwoSensors__reset_to_init_cond : func := {|
 f_file := "parts/controllers.py"; f_name := "TwoSensors._reset_to_init_cond"; f_line := 629;
 f_params := ["self"]; f_closure := [];
 f_locals := [];
 f_outer := [];
 f_conds := ["*"];
 f_body := Use [1] |}.

(* multisim/parts/controllers.py, line 638: TwoSensors.run_controller *)
Definition f_parts_controllers__TwoSensors_run_controller : func := {|
 f_file := "parts/controllers.py"; f_name := "TwoSensors.run_controller"; f_line := 638;
 f_params := ["self"; "timestep"]; f_closure := [];
 f_locals := [];
 f_outer := [];
 f_conds := ["*"; "self._act_sgn == 'le'"; "self.on_sensor_val[0] < self._act_val"; "self.on_sensor_val[0] > self._act_val"; "self._deact_sgn == 'ge'"; "self.pv[0] > self.sp[0]"; "self.pv[0] < self.sp[0]"];
 f_body := block [Use [1]; Choice 2 (block [Use [1]; Choice 3 (Use [1]) Skip]) (block [Use [1]; Choice 4 (Use
 [1]) Skip]); Use [1]; Choice 5 (block [Use [1]; Choice 6 (Use [1]) Skip]) (block [Use [1]; Choice 7
 (Use [1]) Skip]); Use [1]] |}.

(* multisim/parts/controllers.py, line 661: ModelPredCHP.<class> *)
Definition f_parts_controllers__ModelPredCHP__class_ : func := {|
 f_file := "parts/controllers.py"; f_name := "ModelPredCHP.<class>"; f_line := 661;
 f_params := []; f_closure := [];
 f_locals := ["__init__"; "_special_store_to_disk"; "_process_opt_profiles"; "_process_ctrl_profiles"; "_process_profiles"; "_reset_to_init_cond"; "tes_cap_before_empty"; "tes_cap_before_full"; "_tes_heat_content"; "_emergency_control"; "_adapt_cap"; "_longterm_opt_pred"; "_longterm_clip_array"; "_longterm_adj_by_soc"; "_longterm_clip_w_cont"; "_longterm_finalize_step"; "_restore_adptd_caps"; "_shortterm_opt"; "run_controller"; "_preopt_x0"; "_minimizer_input"; "_minimizer_input_scalar"; "_kwk_zuschlag"; "_instandh_chp_nonflat"; "_eeg_umlage"; "_load_eex_baseload"; "infer_instandh"];
 f_outer := ["staticmethod"];
 f_conds := ["*"];
 f_body := block [Def [1]; Def [2]; Def [3]; Def [4]; Def [5]; Def [6]; Def [7]; Def [8]; Def [9]; Def [10];
 Def [11]; Def [12]; Def [13]; Def [14]; Def [15]; Def [16]; Def [17]; Def [18]; Def [19]; Def [20];
 Use [28]; Def [21]; Use [28]; Def [22]; Use [28]; Def [23]; Use [28]; Def [24]; Use [28]; Def [25];
 Use [28]; Def [26]; Use [28]; Def [27]] |}.

(* multisim/parts/controllers.py, line 674: ModelPredCHP.__init__ *)
Definition f_parts_controllers__ModelPredCHP___init__ : func := {|
 f_file := "parts/controllers.py"; f_name := "ModelPredCHP.__init__"; f_line := 674;
 f_params := ["self"; "name"; "master_cls"; "kwds"]; f_closure := [];
 f_locals := ["ers"; "erac"; "err_ep"; "chp_params"; "err_chp"; "err_op"; "err_tessoc"; "err_trt"; "err_tes"; "err_cp"];
 f_outer := ["super"; "isinstance"; "int"; "float"; "str"; "repr"; "dict"; "bool"; "np"; "tuple"; "list"; "len"; "pd"; "ModelPredCHP"];
 f_conds := ["*"; "'on_sensor_part' in kwds and 'on_sensor_port' in kwds"; "'activation_value' in kwds and 'activation_sign' in kwds and ('deactivation_sign' in kwds)"; "isinstance(kwds['activation_value'], (int, float))"; "isinstance(kwds['activation_sign'], str)"; "isinstance(kwds['deactivation_sign'], str)"; "kwds['activation_sign'] in ('greater', 'lower')"; "kwds['deactivation_sign'] in ('greater', 'lower')"; "kwds['activation_sign'] == 'lower'"; "kwds['deactivation_sign'] == 'lower'"; "'emergency_cntrl' in kwds and isinstance(kwds['emergency_cntrl'], (str, dict))"; "isinstance(kwds['emergency_cntrl'], dict)"; "kwds['emergency_cntrl'] == 'default'"; "isinstance(self._emerg_prms['use_hysteresis'], bool)"; "isinstance(self._emerg_prms['hysteresis'], (int, float)) and self._emerg_prms['hysteres..."; "isinstance(self._emerg_prms['full_power_offset'], (int, float)) and self._emerg_prms['f..."; "self._act_sgn == 'le'"; "'chp_params' in kwds"; "np.all([key in kwds['chp_params'] for key in chp_params.keys()])"; "isinstance(self.pel_chp_max, (int, float)) and self.pel_chp_max > 0.0"; "isinstance(self.pth_chp, (int, float)) and self.pth_chp > 0.0"; "isinstance(self.eta_el, float) and 0.0 < self.eta_el < 1.0"; "isinstance(self._modrange_chp, (tuple, list)) and len(self._modrange_chp) == 2 and (0.0..."; "'opt_params' in kwds and isinstance(kwds['opt_params'], (str, dict))"; "isinstance(kwds['opt_params'], dict)"; "kwds['opt_params'] == 'default'"; "isinstance(self._inc_cont, bool)"; "'tes_soc_minmax' in kwds and isinstance(kwds['tes_soc_minmax'], tuple) and (len(kwds['t..."; "isinstance(self._tes_caps[0], (int, float)) and isinstance(self._tes_caps[1], (int, flo..."; "0 <= self._tes_caps[0] < self._tes_caps[1]"; "'tes_cap_restore_time' in kwds and isinstance(kwds['tes_cap_restore_time'], (str, int, ..."; "isinstance(kwds['tes_cap_restore_time'], str)"; "kwds['tes_cap_restore_time'] == 'default'"; "kwds['tes_cap_restore_time'] > 0.0"; "'tes_part' in kwds"; "'opt_profiles' in kwds"; "'ctrl_profiles' in kwds"; "'costs' in kwds and isinstance(kwds['costs'], (str, dict))"; "isinstance(kwds['costs'], dict)"; "kwds['costs'] == 'default'"; "isinstance(self._gaspreis, (int, float)) and self._gaspreis >= 0.0"; "isinstance(self._esr_gas, (int, float)) and self._esr_gas >= 0.0"; "isinstance(self._vnneg, (int, float)) and self._vnneg >= 0.0"; "isinstance(self._cost_params['eex_baseload'], (int, float, str))"; "isinstance(self._cost_params['eex_baseload'], str)"; "self._cost_params['eex_baseload'] <= 1000"; "isinstance(self._spz, (int, float)) and self._spz >= 0.0"; "isinstance(self._awvk, (int, float)) and self._awvk >= 0.0"; "isinstance(self._pwvk, (int, float)) and self._pwvk >= 0.0"; "isinstance(self._flat_instandh, bool)"; "isinstance(self._cost_params['instandh_cost'], (float, str))"; "self._cost_params['instandh_cost'] == 'infer'"; "0 <= self._instandh_cost"; "isinstance(self._ppic, float) and self._ppic > 0.0"];
 f_body := block [Use [15;2;3;4;1]; Def [5]; Use [4]; Choice 1 Skip (Use [4]); Choice 2 Skip (block [Use [5];
 Raise]); Use [1;4]; Def [6]; Use [4]; Choice 1 Skip (block [Use [4]; Choice 1 Skip (Use [4])]);
 Choice 3 Skip (block [Use [6]; Raise]); Use [16;4;17;18]; Choice 4 Skip (block [Use [6]; Raise]);
 Use [16;4;19]; Choice 5 Skip (block [Use [6]; Raise]); Use [16;4;19]; Choice 6 Skip (block [Use [6];
 Raise]); Use [4]; Choice 7 Skip (block [Use [6]; Raise]); Use [4]; Choice 8 Skip (block [Use [6];
 Raise]); Use [18;4;1]; Use [1;4]; Use [1;20]; Def [7]; Use [4]; Choice 1 Skip (Use [16;4;19;21]);
 Choice 11 Skip (block [Use [7]; Raise]); Use [16;4;21]; Choice 12 (Use [1;4]) (block [Use [4];
 Choice 13 Skip (block [Use [7]; Raise])]); Use [16;1;22]; Choice 14 Skip (block [Use [7]; Raise]);
 Use [1;16;17;18]; Choice 1 Skip (Use [1]); Choice 15 Skip (block [Use [7]; Raise]); Use
 [1;16;17;18]; Choice 1 Skip (Use [1]); Choice 16 Skip (block [Use [7]; Raise]); Use [1]; Choice 17
 (Use [1]) (Use [1]); Use [1]; Def [8]; Use [1;20;8]; Def [9]; Use [4]; Choice 18 Skip (block [Use
 [9]; Raise]); Use [23;8]; Choice 1 Skip (Use [4]); Choice 19 Skip (block [Use [9]; Raise]); Use
 [4;1;16;17;18]; Choice 1 Skip (Use [1]); Choice 20 Skip (Raise); Use [4;1;16;17;18]; Choice 1 Skip
 (Use [1]); Choice 21 Skip (Raise); Use [4;1;16;18]; Choice 1 Skip (Use [1]); Choice 22 Skip (Raise);
 Use [4;1;16;24;25]; Choice 1 Skip (block [Use [26;1]; Choice 1 Skip (Use [1])]); Choice 23 Skip
 (Raise); Use [1;20]; Def [10]; Use [4]; Choice 1 Skip (Use [16;4;19;21]); Choice 24 Skip (block [Use
 [10]; Raise]); Use [16;4;21]; Choice 25 (Use [1;4]) (block [Use [4]; Choice 26 Skip (block [Use
 [10]; Raise])]); Use [27;1;16;22]; Choice 27 Skip (block [Use [10]; Raise]); Use [17;23;1;3;26]; Def
 [11]; Use [4]; Choice 1 Skip (block [Use [16;4;24]; Choice 1 Skip (Use [26;4])]); Choice 28 Skip
 (block [Use [11]; Raise]); Use [4;1;16;17;18]; Choice 1 Skip (Use [16;1;17;18]); Choice 29 Skip
 (Raise); Use [1]; Choice 30 Skip (Raise); Use [23;1;18]; Def [12]; Use [4]; Choice 1 Skip (Use
 [16;4;19;17;18]); Choice 31 Skip (block [Use [12]; Raise]); Use [16;4;19]; Choice 32 (block [Use
 [4]; Choice 33 Skip (block [Use [12]; Raise]); Use [1]]) (block [Use [4]; Choice 34 Skip (block [Use
 [12]; Raise]); Use [18;4;1]]); Use [1]; Def [13]; Use [4]; Choice 35 Skip (block [Use [13]; Raise]);
 Use [1;4]; Choice 36 Skip (block [Use [1]; Raise]); Use [1;4]; Choice 37 Skip (block [Use [1];
 Raise]); Use [1;4;20]; Def [14]; Use [4]; Choice 1 Skip (Use [16;4;19;21]); Choice 38 Skip (block
 [Use [14]; Raise]); Use [16;4;21]; Choice 39 (Use [1;4]) (block [Use [4]; Choice 40 Skip (block [Use
 [14]; Raise])]); Use [1;16;17;18]; Choice 1 Skip (Use [1]); Choice 41 Skip (Raise); Use
 [1;16;17;18]; Choice 1 Skip (Use [1]); Choice 42 Skip (Raise); Use [1;16;17;18]; Choice 1 Skip (Use
 [1]); Choice 43 Skip (Raise); Use [16;1;17;18;19]; Choice 44 Skip (Raise); Use [16;1;19]; Choice 45
 (Use [28;1]) (block [Use [1]; Choice 46 Skip (Raise); Use [1]]); Use [1;16;17;18]; Choice 1 Skip
 (Use [1]); Choice 47 Skip (Raise); Use [1;16;17;18]; Choice 1 Skip (Use [1]); Choice 48 Skip
 (Raise); Use [1;16;17;18]; Choice 1 Skip (Use [1]); Choice 49 Skip (Raise); Use [1;16;22]; Choice 50
 Skip (Raise); Use [16;1;18;19]; Choice 51 Skip (Raise); Use [1]; Choice 52 (Use [28;1]) (block [Use
 [1]; Choice 53 Skip (Raise)]); Use [1;16;18]; Choice 1 Skip (Use [1]); Choice 54 Skip (Raise); Use
 [23;1]] |}.

(* multisim/parts/controllers.py, line 1244: ModelPredCHP._special_store_to_disk *)
Definition f_parts_controllers__ModelPredCHP__special_store_to_disk : func := {|
 f_file := "parts/controllers.py"; f_name := "ModelPredCHP._special_store_to_disk"; f_line := 1244;
 f_params := ["self"; "store"; "store_kdws"]; f_closure := [];
 f_locals := ["index"; "strt_time"; "tcapr"; "tsocs"; "ost"; "mod"; "mod_pp"; "ostat_cost"];
 f_outer := ["len"; "pd"];
 f_conds := ["*"; "len(self._tes_caps_res) == 0"; "len(self._tes_socs) == 0"];
 f_body := block [Use [1]; Def [4]; Use [4]; Def [5]; Use [12;1]; Choice 2 (Use [1]) Skip; Use [13;1]; Def [6];
 Use [13;6;5]; Def [6]; Use [6]; Def [6]; Use [12;1]; Choice 3 (Use [1]) Skip; Use [13;1]; Def [7];
 Use [13;7;5]; Def [7]; Use [7]; Def [7]; Use [6]; Def [6]; Use [7]; Def [7]; Use [13;1]; Def [8];
 Use [13;8;5]; Def [8]; Use [13;1;8]; Def [9]; Use [13;1;8]; Def [10]; Use [13;8;1]; Def [11]; Use
 [2;1;6;3;7;9;10;11]] |}.

(* multisim/parts/controllers.py, line 1311: ModelPredCHP._process_opt_profiles *)
Definition f_parts_controllers__ModelPredCHP__process_opt_profiles : func := {|
 f_file := "parts/controllers.py"; f_name := "ModelPredCHP._process_opt_profiles"; f_line := 1311;
 f_params := ["self"; "opt_prfls"; "kwds"]; f_closure := [];
 f_locals := ["prof_freq"; "opt_prfls_rs"];
 f_outer := ["isinstance"; "pd"; "set"; "getattr"; "ValueError"; "np"];
 f_conds := ["*"; "isinstance(opt_prfls, pd.DataFrame)"; "isinstance(opt_prfls.index, pd.DatetimeIndex)"; "not opt_prfls.isna().any().any()"; "set(['heat_dmd', 'pel_baseload', 'pel_user', 'pel_user_noms']) == set(opt_prfls.columns)"; "prof_freq is not None"; "self._opt_prfl_input_prd <= self._opt_every"; "opt_prfls['pel_user'].max() < 1000 and (not kwds['silence_unit_warn'])"; "(opt_prfls_rs.index[-1] - opt_prfls_rs.index[0]).total_seconds() >= self._models.timeframe"];
 f_body := block [Use [6;2;7]; Choice 2 Skip (block [Use [1]; Raise]); Use [6;2;7]; Choice 3 Skip (block [Use
 [1]; Raise]); Use [2]; Choice 4 Skip (Raise); Use [8;2]; Choice 5 Skip (block [Use [1]; Raise]); Use
 [9;2]; Def [4]; Use [4]; Choice 6 (Use [4]) (Use [9;2]); Def [4]; Use [4]; Choice 6 Skip (Raise);
 Try (Use [7;4;1]) (Use [10;7;4;1]) Skip; Use [1]; Choice 7 Skip (block [Use [1]; Raise]); Use [2];
 Choice 1 Skip (Use [3]); Choice 8 (block [Use [10]; Raise]) Skip; Use [2;1]; Def [5]; Use [5;1];
 Choice 9 Skip (Raise); Use [5;1;11]] |}.

(* multisim/parts/controllers.py, line 1389: ModelPredCHP._process_ctrl_profiles *)
Definition f_parts_controllers__ModelPredCHP__process_ctrl_profiles : func := {|
 f_file := "parts/controllers.py"; f_name := "ModelPredCHP._process_ctrl_profiles"; f_line := 1389;
 f_params := ["self"; "ctrl_prfls"; "kwds"]; f_closure := [];
 f_locals := ["prof_freq"; "ctrl_prfls_rs"];
 f_outer := ["isinstance"; "pd"; "set"; "getattr"; "ValueError"; "np"];
 f_conds := ["*"; "isinstance(ctrl_prfls, pd.DataFrame)"; "isinstance(ctrl_prfls.index, pd.DatetimeIndex)"; "not ctrl_prfls.isna().any().any()"; "set(['pel_baseload', 'pel_user', 'pel_user_noms']) == set(ctrl_prfls.columns)"; "prof_freq is not None"; "self._opt_prfl_input_prd <= self._opt_every"; "ctrl_prfls['pel_user'].max() < 1000 and (not kwds['silence_unit_warn'])"; "(ctrl_prfls_rs.index[-1] - ctrl_prfls_rs.index[0]).total_seconds() >= self._models.time..."];
 f_body := block [Use [6;2;7]; Choice 2 Skip (block [Use [1]; Raise]); Use [6;2;7]; Choice 3 Skip (block [Use
 [1]; Raise]); Use [2]; Choice 4 Skip (Raise); Use [8;2]; Choice 5 Skip (block [Use [1]; Raise]); Use
 [9;2]; Def [4]; Use [4]; Choice 6 (Use [4]) (Use [9;2]); Def [4]; Use [4]; Choice 6 Skip (Raise);
 Try (Use [7;4;1]) (Use [10;7;4;1]) Skip; Use [1]; Choice 7 Skip (block [Use [1]; Raise]); Use [2];
 Choice 1 Skip (Use [3]); Choice 8 (block [Use [10]; Raise]) Skip; Use [2;1]; Def [5]; Use [5;1];
 Choice 9 Skip (Raise); Use [5;1;11]] |}.

(* multisim/parts/controllers.py, line 1471: ModelPredCHP._process_profiles *)
Definition f_parts_controllers__ModelPredCHP__process_profiles : func := {|
 f_file := "parts/controllers.py"; f_name := "ModelPredCHP._process_profiles"; f_line := 1471;
 f_params := ["self"; "prfls"; "which"; "kwds"]; f_closure := [];
 f_locals := ["err"; "cols"; "prof_freq"];
 f_outer := ["isinstance"; "pd"; "set"; "getattr"; "setattr"; "ValueError"; "np"];
 f_conds := ["*"; "which in ('opt', 'ctrl')"; "which == 'opt'"; "isinstance(prfls, pd.DataFrame)"; "isinstance(prfls.index, pd.DatetimeIndex)"; "not prfls.isna().any().any()"; "set(cols) == set(prfls.columns)"; "prof_freq is not None"; "self._opt_prfl_input_prd <= self._opt_every"; "self._ctrl_prfl_input_prd == 1.0"; "prfls['pel_user'].max() < 1000 and (not kwds['silence_unit_warn'])"; "(prfls.index[-1] - prfls.index[0]).total_seconds() >= self._models.timeframe"];
 f_body := block [Use [3]; Choice 2 Skip (Raise); Use [3]; Choice 3 (Use [1]) (Use [1]); Def [5]; Use [8;2;9];
 Choice 4 Skip (block [Use [5]; Raise]); Use [8;2;9]; Choice 5 Skip (block [Use [5]; Raise]); Use
 [2]; Choice 6 Skip (block [Use [3]; Raise]); Use [3]; Def [6]; Use [10;6;2]; Choice 7 Skip (block
 [Use [5]; Raise]); Use [11;2]; Def [7]; Use [7]; Choice 8 (Use [7]) (Use [11;2]); Def [7]; Use [7];
 Choice 8 Skip (block [Use [3]; Raise]); Try (Use [12;1;3;9;7]) (Use [13;12;1;3;9;7]) Skip; Use [3];
 Choice 3 (block [Use [1]; Choice 9 Skip (block [Use [1]; Raise])]) (block [Use [1]; Choice 10 Skip
 (Raise)]); Use [2]; Choice 1 Skip (Use [4]); Choice 11 (block [Use [13]; Raise]) Skip; Use [3];
 Choice 3 (block [Use [2;1]; Def [2]; Use [2;1]; Choice 12 Skip (block [Use [1]; Raise])]) (block
 [Use [2;1]; Choice 12 Skip (Raise)]); Use [12;1;3;2]; Choice 3 (Use [1;14]) Skip] |}.

(* multisim/parts/controllers.py, line 1582: ModelPredCHP._reset_to_init_cond *)
Definition f_parts_controllers__ModelPredCHP__reset_to_init_cond : func := {|
 f_file := "parts/controllers.py"; f_name := "ModelPredCHP._reset_to_init_cond"; f_line := 1582;
 f_params := ["self"]; f_closure := [];
 f_locals := [];
 f_outer := [];
 f_conds := ["*"];
 f_body := Use [1] |}.

(* multisim/parts/controllers.py, line 1591: ModelPredCHP.tes_cap_before_empty *)
Definition f_parts_controllers__ModelPredCHP_tes_cap_before_empty : func := {|
 f_file := "parts/controllers.py"; f_name := "ModelPredCHP.tes_cap_before_empty"; f_line := 1591;
 f_params := ["self"; "x"]; f_closure := [];
 f_locals := [];
 f_outer := ["np"];
 f_conds := ["*"];
 f_body := block [Use [1;3;2]; Return] |}.

(* multisim/parts/controllers.py, line 1625: ModelPredCHP.tes_cap_before_full *)
Definition f_parts_controllers__ModelPredCHP_tes_cap_before_full : func := {|
 f_file := "parts/controllers.py"; f_name := "ModelPredCHP.tes_cap_before_full"; f_line := 1625;
 f_params := ["self"; "x"]; f_closure := [];
 f_locals := [];
 f_outer := ["np"];
 f_conds := ["*"];
 f_body := block [Use [1;3;2]; Return] |}.

(* multisim/parts/controllers.py, line 1657: ModelPredCHP._tes_heat_content *)
Definition f_parts_controllers__ModelPredCHP__tes_heat_content : func := {|
 f_file := "parts/controllers.py"; f_name := "ModelPredCHP._tes_heat_content"; f_line := 1657;
 f_params := ["self"]; f_closure := [];
 f_locals := [];
 f_outer := ["_pf"];
 f_conds := ["*"];
 f_body := block [Use [1;2]; Return] |}.

(* multisim/parts/controllers.py, line 1668: ModelPredCHP._emergency_control *)
Definition f_parts_controllers__ModelPredCHP__emergency_control : func := {|
 f_file := "parts/controllers.py"; f_name := "ModelPredCHP._emergency_control"; f_line := 1668;
 f_params := ["self"; "hysteresis"]; f_closure := [];
 f_locals := ["emerg_cntrl"; "thrd_step"];
 f_outer := [];
 f_conds := ["*"; "hysteresis and self._emerg_cnsctv"; "self._act_sgn == 'le'"; "self.on_sensor_val[0] < self._act_val + self._hyst"; "self.on_sensor_val[0] < self._act_val_full_power"; "self.on_sensor_val[0] > self._act_val - self._hyst"; "self.on_sensor_val[0] > self._act_val_full_power"; "self._deact_sgn == 'ge'"; "self.pv[0] > self.sp[0]"; "self.pv[0] < self.sp[0]"; "emerg_cntrl and (not self._emerg_cnsctv)"; "not emerg_cntrl"];
 f_body := block [Def [3]; Use [2]; Choice 1 Skip (Use [1]); Choice 2 (Use [1]) (Use [1]); Use [1]; Choice 3
 (block [Use [1]; Choice 4 (block [Use [1]; Choice 5 (Use [1]) Skip; Def [3]; Use [1]]) Skip]) (block
 [Use [1]; Choice 6 (block [Use [1]; Choice 7 (Use [1]) Skip; Def [3]; Use [1]]) Skip]); Use [1];
 Choice 8 (block [Use [1]; Choice 9 (block [Use [1]; Def [3]; Use [1]]) Skip]) (block [Use [1];
 Choice 10 (block [Use [1]; Def [3]; Use [1]]) Skip]); Use [3]; Choice 1 Skip (Use [1]); Choice 11
 (Use [1]) (block [Use [3]; Choice 12 (Use [1]) Skip]); Use [3]; Choice 1 Skip (Use [1]); Choice 1
 Skip (Use [3]); Def [4]; Use [3;4]; Return] |}.

(* multisim/parts/controllers.py, line 1751: ModelPredCHP._adapt_cap *)
Definition f_parts_controllers__ModelPredCHP__adapt_cap : func := {|
 f_file := "parts/controllers.py"; f_name := "ModelPredCHP._adapt_cap"; f_line := 1751;
 f_params := ["self"; "lower"; "check"]; f_closure := [];
 f_locals := ["tes_cap_now"; "cid"];
 f_outer := [];
 f_conds := ["*"; "check"; "self._emerg_cnsctv"; "lower"];
 f_body := block [Use [3]; Choice 2 (block [Use [1]; Choice 3 (Return) Skip]) Skip; Use [1]; Def [4]; Use [2];
 Choice 4 (block [Use [4;1]; Def [5]]) (block [Use [4;1]; Def [5]]); Use [1;5]] |}.

(* multisim/parts/controllers.py, line 1779: ModelPredCHP._longterm_opt_pred *)
Definition f_parts_controllers__ModelPredCHP__longterm_opt_pred : func := {|
 f_file := "parts/controllers.py"; f_name := "ModelPredCHP._longterm_opt_pred"; f_line := 1779;
 f_params := ["self"]; f_closure := [];
 f_locals := ["pel_baseload"; "pel_user_ms"; "x_init"; "x_init_po"; "szopt"];
 f_outer := ["_sopt"; "ModelPredCHP"; "np"];
 f_conds := ["*"; "self._res_optimizer.status in (0, 3, 4, 8, 9)"];
 f_body := block [Use [1]; Def [2]; Def [3]; Use [1;3;2]; Def [4]; Use [4;1]; Def [5]; Use [7;8;5;2;3;1]; Def
 [6]; Use [1;6]; Choice 2 (Use [1;6]) (Use [3;2;1;9;8])] |}.

(* multisim/parts/controllers.py, line 1929: ModelPredCHP._longterm_clip_array *)
Definition f_parts_controllers__ModelPredCHP__longterm_clip_array : func := {|
 f_file := "parts/controllers.py"; f_name := "ModelPredCHP._longterm_clip_array"; f_line := 1929;
 f_params := ["self"; "x"; "atol"; "copy"]; f_closure := [];
 f_locals := [];
 f_outer := [];
 f_conds := ["*"; "copy"];
 f_body := block [Use [4]; Choice 2 (block [Use [2]; Def [2]]) Skip; Use [2;1;3;4]; Choice 2 (block [Use [2];
 Return]) Skip] |}.

(* multisim/parts/controllers.py, line 1939: ModelPredCHP._longterm_adj_by_soc *)
Definition f_parts_controllers__ModelPredCHP__longterm_adj_by_soc : func := {|
 f_file := "parts/controllers.py"; f_name := "ModelPredCHP._longterm_adj_by_soc"; f_line := 1939;
 f_params := ["self"; "x"; "atol"]; f_closure := [];
 f_locals := ["xsz"; "x_clppd"; "i"; "new_x_unclp"; "new_x"];
 f_outer := ["np"];
 f_conds := ["*"; "np.any(self.tes_cap_before_full(x_clppd)[:xsz] < 0.0)"; "np.any(self.tes_cap_before_empty(new_x)[:xsz] < 0.0)"; "np.any(self.tes_cap_before_full(new_x)[:xsz] < 0.0)"];
 f_body := block [Use [2]; Def [4]; Use [1;2;3]; Def [5]; Use [9;1;5;4]; Choice 2 (block [Use [2]; Return])
 Skip; Def [6]; Use [2]; Def [7]; Use [7]; Def [8]; Loop false (block [Use [6]; Choice 1 Skip (Use
 [9;1;8;4]); Use [7]; Def [7]; Use [1;7;3]; Def [8]; Use [6]; Def [6]]) (block [Use [6]; Choice 1
 Skip (Use [9;1;8;4])]); Use [9;1;8;4]; Choice 3 (block [Use [7]; Def [7]; Use [1;7;3]; Def [8]])
 Skip; Use [9;1;8;4]; Choice 4 (block [Use [2]; Def [7]]) Skip; Use [9;7]; Return] |}.

(* multisim/parts/controllers.py, line 1973: ModelPredCHP._longterm_clip_w_cont *)
Definition f_parts_controllers__ModelPredCHP__longterm_clip_w_cont : func := {|
 f_file := "parts/controllers.py"; f_name := "ModelPredCHP._longterm_clip_w_cont"; f_line := 1973;
 f_params := ["self"; "atol"]; f_closure := [];
 f_locals := [];
 f_outer := [];
 f_conds := ["*"; "self._inc_cont"; "self._lt_prev_opt >= self._mrc[0]"; "self._mrc[0] <= self.opt_chp_now <= 1.0"; "self.opt_chp_now > 1.0"; "self.opt_chp_now >= self._mrc[0] / 2"; "self.opt_chp_now >= self._mrc[0] - atol"];
 f_body := block [Use [1]; Choice 2 (block [Use [1]; Choice 3 (block [Use [1]; Choice 4 (Use [1]) (block [Use
 [1]; Choice 5 Skip (block [Use [1]; Choice 6 (Use [1]) Skip])]); Use [1]]) (block [Use [1]; Choice 4
 (Use [1]) (block [Use [1]; Choice 5 Skip (block [Use [1;2]; Choice 7 (Use [1]) Skip])]); Use [1]])])
 (block [Use [1]; Choice 4 (Use [1]) (block [Use [1]; Choice 5 Skip (block [Use [1]; Choice 6 (Use
 [1]) Skip])]); Use [1]])] |}.

(* multisim/parts/controllers.py, line 2017: ModelPredCHP._longterm_finalize_step *)
Definition f_parts_controllers__ModelPredCHP__longterm_finalize_step : func := {|
 f_file := "parts/controllers.py"; f_name := "ModelPredCHP._longterm_finalize_step"; f_line := 2017;
 f_params := ["self"]; f_closure := [];
 f_locals := [];
 f_outer := [];
 f_conds := ["*"];
 f_body := Use [1] |}.

(* multisim/parts/controllers.py, line 2028: ModelPredCHP._restore_adptd_caps *)
Definition f_parts_controllers__ModelPredCHP__restore_adptd_caps : func := {|
 f_file := "parts/controllers.py"; f_name := "ModelPredCHP._restore_adptd_caps"; f_line := 2028;
 f_params := ["self"]; f_closure := [];
 f_locals := [];
 f_outer := ["np"];
 f_conds := ["*"; "not self._caps_adapted"; "np.all(self._fctr_cap_rstr >= 1.0)"];
 f_body := block [Use [1]; Choice 2 (Return) Skip; Use [1;2]; Choice 3 (block [Use [1]; Return]) Skip; Use [1]] |}.

(* multisim/parts/controllers.py, line 2062: ModelPredCHP._shortterm_opt *)
Definition f_parts_controllers__ModelPredCHP__shortterm_opt : func := {|
 f_file := "parts/controllers.py"; f_name := "ModelPredCHP._shortterm_opt"; f_line := 2062;
 f_params := ["self"]; f_closure := [];
 f_locals := ["pel_baseload_ctrl"; "pel_user_ms_ctrl"];
 f_outer := ["int"; "round"; "_sopt"; "ModelPredCHP"];
 f_conds := ["*"];
 f_body := block [Use [1;4;5]; Def [2]; Def [3]; Use [6;7;2;3;1]] |}.

(* multisim/parts/controllers.py, line 2102: ModelPredCHP.run_controller *)
Definition f_parts_controllers__ModelPredCHP_run_controller : func := {|
 f_file := "parts/controllers.py"; f_name := "ModelPredCHP.run_controller"; f_line := 2102;
 f_params := ["self"; "timestep"]; f_closure := [];
 f_locals := ["emerg_cntrl"; "thrd_step"];
 f_outer := [];
 f_conds := ["*"; "not emerg_cntrl and self._models.time_sim >= self._opt_steps[-1]"; "self._models.time_sim >= self._opt_steps[-1]"; "self._emerg_on"; "thrd_step and self.opt_chp_now > 0.0"; "not emerg_cntrl"];
 f_body := block [Use [1]; Def [3]; Def [4]; Use [3]; Choice 1 Skip (Use [1]); Choice 2 (Use [1]) (block [Use
 [1]; Choice 3 (block [Use [1]; Use [1]]) Skip]); Use [4]; Choice 1 Skip (Use [1]); Choice 5 (block
 [Use [1;3]; Choice 6 (Use [1]) (Use [1]); Use [1]]) (block [Use [3]; Choice 6 (Use [1]) Skip]); Use
 [1]] |}.

(* multisim/parts/controllers.py, line 2161: ModelPredCHP._preopt_x0 *)
Definition f_parts_controllers__ModelPredCHP__preopt_x0 : func := {|
 f_file := "parts/controllers.py"; f_name := "ModelPredCHP._preopt_x0"; f_line := 2161;
 f_params := ["self"; "x0"]; f_closure := [];
 f_locals := ["x0_opt"; "cons_min_vltd"; "cons_max_vltd"; "i"; "cmiv"; "xio_cmv"; "xinit_vltd_as"; "minus_arr"];
 f_outer := ["np"];
 f_conds := ["*"; "np.any(cons_max_vltd) or np.any(cons_min_vltd)"; "np.any(self.tes_cap_before_empty(x0_opt) < 0)"; "np.any(self.tes_cap_before_full(x0_opt) < 0)"; "i > 100"];
 f_body := block [Use [2]; Def [3]; Use [1;3]; Def [4]; Use [1;3]; Def [5]; Use [11;5]; Choice 1 Skip (Use
 [11;4]); Choice 2 (block [Def [6]; Loop false (block [Use [11;1;3]; Choice 1 Skip (Use [11;1;3]);
 Use [11;1;3]; Choice 3 (block [Use [1;3]; Def [7]; Use [3;7]]) Skip; Use [11;1;3]; Choice 4 (block
 [Use [3;5]; Def [8]; Use [11;8]; Def [9]; Use [11;9]; Def [10]; Use [8;9;10;3;5]]) Skip; Use [6];
 Def [6]; Use [6]; Choice 5 (block [Use [2]; Return]) Skip]) (block [Use [11;1;3]; Choice 1 Skip (Use
 [11;1;3])])]) Skip; Use [3]; Return] |}.

(* multisim/parts/controllers.py, line 2202: ModelPredCHP._minimizer_input *)
Definition f_parts_controllers__ModelPredCHP__minimizer_input : func := {|
 f_file := "parts/controllers.py"; f_name := "ModelPredCHP._minimizer_input"; f_line := 2202;
 f_params := ["x"; "pel_baseload"; "pel_dmd_user_ms"; "pel_chp_max"; "eta_el"; "modrange_chp"; "freq_fac"; "flat_instandh"; "gaspreis"; "esteuerrueck_gas"; "netzneg"; "eex_baseload"; "strompreis_zukauf"; "aufschlag_verkauf"; "instandh_cost"; "penalty_wvk"; "penalty_pow_instandh"; "return_details"]; f_closure := [];
 f_locals := ["curr_chp_pow"; "pgas_chp_kW"; "pel_zukauf_bsld"; "pel_eigen_bsld"; "chp_pel_rest"; "pel_zukauf_ms"; "mask_pel_einsp"; "pel_einsp"; "pel_eigen_ms"; "pel_zukauf_tot"; "pel_eigen_tot"; "kwkg_nach_pmax"; "kwkg"; "kwkg_eigen"; "kwkg_einsp"; "strompreis_verkauf"; "earnings"; "cost"];
 f_outer := ["np"; "ModelPredCHP"; "sum"];
 f_conds := ["*"; "kwkg_nach_pmax"; "not flat_instandh"; "flat_instandh"; "return_details"];
 f_body := block [Use [1;6;4]; Def [19]; Use [19;5]; Def [20]; Use [2;19]; Def [21]; Use [21;37;19;2]; Def
 [22]; Use [19;22]; Def [23]; Use [3;23]; Def [24]; Use [24]; Def [25]; Use [24]; Def [26]; Use
 [26;25;24;37;23;3]; Def [27]; Use [21;24]; Def [28]; Use [22;27]; Def [29]; Def [30]; Use [30];
 Choice 2 (block [Use [38;37;1;4]; Def [31]; Use [31;4;29]; Def [32]; Use [31;4;26]; Def [33]])
 (block [Use [38;29]; Def [32]; Use [38;26]; Def [33]]); Use [13]; Def [34]; Use [20;9;7;10;11;8];
 Choice 3 (Use [1;17;4;38;7]) (Use [37;1;15;7]); Use [7;22;38;4;23;28;13;34;16;33;26;12;32;29]; Def
 [35]; Use [8]; Choice 4 (Use [35;1]) Skip; Use [39;35]; Def [36]; Use [18]; Choice 5 (block [Use
 [35;36]; Return]) (block [Use [37;36]; Return])] |}.

(* multisim/parts/controllers.py, line 2421: ModelPredCHP._minimizer_input_scalar *)
Definition f_parts_controllers__ModelPredCHP__minimizer_input_scalar : func := {|
 f_file := "parts/controllers.py"; f_name := "ModelPredCHP._minimizer_input_scalar"; f_line := 2421;
 f_params := ["x"; "pel_baseload"; "pel_dmd_user_ms"; "pel_chp_max"; "eta_el"; "modrange_chp"; "freq_fac"; "flat_instandh"; "gaspreis"; "esteuerrueck_gas"; "netzneg"; "eex_baseload"; "strompreis_zukauf"; "aufschlag_verkauf"; "instandh_cost"; "penalty_wvk"; "penalty_pow_instandh"; "return_details"]; f_closure := [];
 f_locals := ["curr_chp_pow"; "pgas_chp_kW"; "pel_zukauf_bsld"; "pel_eigen_bsld"; "chp_pel_rest"; "pel_zukauf_ms"; "mask_pel_einsp"; "pel_einsp"; "pel_eigen_ms"; "pel_zukauf_tot"; "pel_eigen_tot"; "kwkg_nach_pmax"; "kwkg"; "kwkg_eigen"; "kwkg_einsp"; "strompreis_verkauf"; "earnings"; "cost"];
 f_outer := ["ModelPredCHP"; "np"; "sum"];
 f_conds := ["*"; "pel_zukauf_bsld < 0.0"; "curr_chp_pow > pel_baseload"; "not mask_pel_einsp"; "mask_pel_einsp"; "chp_pel_rest > pel_dmd_user_ms"; "kwkg_nach_pmax"; "not flat_instandh"; "flat_instandh"; "x == 0"; "return_details"];
 f_body := block [Use [1;4]; Def [19]; Use [19;5]; Def [20]; Use [2;19]; Def [21]; Use [21]; Choice 2 Skip (Use
 [21]); Def [21]; Use [19;2]; Choice 3 (Use [2]) (Use [19]); Def [22]; Use [19;22]; Def [23]; Use
 [3;23]; Def [24]; Use [24]; Def [25]; Use [24]; Def [26]; Use [25]; Choice 4 Skip (Use [26]); Def
 [26]; Use [25]; Choice 5 Skip (Use [24]); Def [24]; Use [23;3]; Choice 6 (Use [3]) (Use [23]); Def
 [27]; Use [21;24]; Def [28]; Use [22;27]; Def [29]; Def [30]; Use [30]; Choice 7 (block [Use
 [37;38;4]; Def [31]; Use [31;4;29]; Def [32]; Use [31;4;26]; Def [33]]) (block [Use [37;38;29]; Def
 [32]; Use [37;38;26]; Def [33]]); Use [13]; Def [34]; Use [20;9;7;10;11;8]; Choice 8 (Use
 [1;17;4;37;7]) (Use [15;7]); Use [7;22;37;4;23;28;13;34;16;33;26;12;32;29]; Def [35]; Use [8];
 Choice 9 (block [Use [1]; Choice 10 Skip (Use [35]); Use [35]]) Skip; Use [39;35]; Def [36]; Use
 [18]; Choice 11 (block [Use [35;36]; Return]) (block [Use [39;36]; Return])] |}.

(* multisim/parts/controllers.py, line 2635: ModelPredCHP._kwk_zuschlag *)
Definition f_parts_controllers__ModelPredCHP__kwk_zuschlag : func := {|
 f_file := "parts/controllers.py"; f_name := "ModelPredCHP._kwk_zuschlag"; f_line := 2635;
 f_params := ["pel_chp"; "as_sum"; "ersatz_alt"; "strompreis_negativ"]; f_closure := [];
 f_locals := ["_pel_chp"; "kwkg_steps"; "kwkg_es_verg"; "kwkg_en_verg"; "pel_per_step"; "kwkg_clp_steps"; "kwk_einsp"; "kwk_eigen"];
 f_outer := ["isinstance"; "int"; "float"; "np"];
 f_conds := ["*"; "isinstance(pel_chp, (int, float))"; "isinstance(pel_chp, np.ndarray)"; "as_sum"];
 f_body := block [Use [13;1;14;15]; Choice 2 (block [Use [16;1]; Def [5]]) Skip; Use [13;1;16]; Choice 3 Skip
 (Raise); Use [16;1]; Def [5]; Use [16]; Def [6]; Use [16]; Def [7]; Use [16]; Def [8]; Use [16;5];
 Def [9]; Use [5;9;6]; Def [9]; Use [9;16;6]; Def [10]; Use [16;9;10]; Def [9]; Use [9;7]; Def [11];
 Use [9;8]; Def [12]; Use [2]; Choice 4 (block [Use [11]; Def [11]; Use [12]; Def [12]]) Skip; Use
 [11;12]; Return] |}.

(* multisim/parts/controllers.py, line 2703: ModelPredCHP._instandh_chp_nonflat *)
Definition f_parts_controllers__ModelPredCHP__instandh_chp_nonflat : func := {|
 f_file := "parts/controllers.py"; f_name := "ModelPredCHP._instandh_chp_nonflat"; f_line := 2703;
 f_params := ["pel_chp_max"; "verfahren"]; f_closure := [];
 f_locals := ["instandhaltung_chp"];
 f_outer := ["print"; "isinstance"; "int"; "float"; "ValueError"; "np"];
 f_conds := ["*"; "verfahren != 'ASUE' and verfahren != 'VDI2067'"; "isinstance(pel_chp_max, (int, float))"; "verfahren == 'ASUE'"; "10 <= pel_chp_max <= 100"; "1 <= pel_chp_max < 10"; "verfahren == 'VDI2067'"; "np.all(pel_chp_max > 1) and np.all(pel_chp_max < 100)"];
 f_body := block [Use [2]; Choice 1 Skip (Use [2]); Choice 2 (block [Use [4]; Def [2]]) Skip; Use [5;1;6;7];
 Choice 3 (block [Use [2]; Choice 4 (block [Use [1]; Choice 5 (block [Use [1]; Def [3]]) (block [Use
 [1]; Choice 6 (block [Use [1]; Def [3]]) (block [Use [8]; Raise])])]) (block [Use [2]; Choice 7
 (block [Use [1]; Def [3]]) Skip])]) (block [Use [2]; Choice 4 (block [Use [9;1]; Choice 1 Skip (Use
 [9;1]); Choice 8 Skip (Raise); Use [9;1]; Def [3]; Use [8]; Raise]) (block [Use [2]; Choice 7 (block
 [Use [1]; Def [3]]) Skip])]); Use [3]; Return] |}.

(* multisim/parts/controllers.py, line 2784: ModelPredCHP._eeg_umlage *)
Definition f_parts_controllers__ModelPredCHP__eeg_umlage : func := {|
 f_file := "parts/controllers.py"; f_name := "ModelPredCHP._eeg_umlage"; f_line := 2784;
 f_params := ["pel_chp"; "jahr"; "verbraucher"]; f_closure := [];
 f_locals := ["eeg_umlg"; "eeg_u"];
 f_outer := ["isinstance"; "int"; "float"; "np"; "len"];
 f_conds := ["*"; "verbraucher in ('dritte', 'eigen')"; "isinstance(pel_chp, (int, float))"; "pel_chp >= 100 or verbraucher == 'dritte'"; "pel_chp <= 10 and verbraucher == 'eigen'"; "verbraucher == 'dritte'"];
 f_body := block [Use [3]; Choice 2 Skip (Raise); Use [2]; Def [4]; Use [6;1;7;8]; Choice 3 (block [Use [1];
 Choice 1 Skip (Use [3]); Choice 4 (block [Use [4]; Def [5]]) (block [Use [1]; Choice 1 Skip (Use
 [3]); Choice 5 (Def [5]) (block [Use [4]; Def [5]])])]) (block [Use [3]; Choice 6 (block [Use
 [9;10;1;4]; Def [5]]) (block [Use [9;1;4]; Def [5]])]); Use [5]; Return] |}.

(* multisim/parts/controllers.py, line 2848: ModelPredCHP._load_eex_baseload *)
Definition f_parts_controllers__ModelPredCHP__load_eex_baseload : func := {|
 f_file := "parts/controllers.py"; f_name := "ModelPredCHP._load_eex_baseload"; f_line := 2848;
 f_params := ["quartal"; "reload_xls"]; f_closure := [];
 f_locals := ["df"];
 f_outer := ["isinstance"; "bool"; "pd"; "NotImplementedError"];
 f_conds := ["*"; "isinstance(reload_xls, bool)"; "reload_xls and quartal != 'Q3 2019'"; "quartal == 'Q3 2019'"];
 f_body := block [Use [4;2;5]; Choice 2 Skip (Raise); Use [2]; Choice 1 Skip (Use [1]); Choice 3 (block [Use
 [6]; Def [3]; Use [3;1]; Return]) (block [Use [1]; Choice 4 (Return) (block [Use [7]; Raise])])] |}.

(* multisim/parts/controllers.py, line 2885: ModelPredCHP.infer_instandh *)
Definition f_parts_controllers__ModelPredCHP_infer_instandh : func := {|
 f_file := "parts/controllers.py"; f_name := "ModelPredCHP.infer_instandh"; f_line := 2885;
 f_params := ["chp_pel"; "inkl_mwst"; "large_customer_discount"]; f_closure := [];
 f_locals := ["pel_conti"; "cost_conti"; "cubic_cost"; "popt"; "pcov"; "instandh_flat"];
 f_outer := ["np"; "_sopt"];
 f_conds := ["*"; "inkl_mwst"];
 f_body := block [Use [10]; Def [4]; Use [10;4;3]; Def [5]; Def [6]; Use [11;6;4;5]; Def [7]; Def [8]; Use
 [6;1;7]; Def [9]; Use [2]; Choice 2 (block [Use [9]; Def [9]]) Skip; Use [9]; Return] |}.

(* multisim/parts/controllers.py, line 2900: ModelPredCHP.infer_instandh.cubic_cost *)
Definition f_parts_controllers__ModelPredCHP_infer_instandh_cubic_cost : func := {|
 f_file := "parts/controllers.py"; f_name := "ModelPredCHP.infer_instandh.cubic_cost"; f_line := 2900;
 f_params := ["x"; "a"; "b"; "c"; "d"]; f_closure := [];
 f_locals := [];
 f_outer := [];
 f_conds := ["*"];
 f_body := block [Use [2;1;3;4;5]; Return] |}.

(* multisim/parts/heated_pipe.py, line 1: <module> *)
Definition f_parts_heated_pipe__module : func := {|
 f_file := "parts/heated_pipe.py"; f_name := "<module>"; f_line := 1;
 f_params := []; f_closure := [];
 f_locals := ["np"; "pd"; "Pipe"; "heatedpipe1D_diff"; "HeatedPipe"];
 f_outer := [];
 f_conds := ["*"];
 f_body := block [Def [1]; Def [2]; Def [3]; Def [4]; Use [3]; Def [5]] |}.

(* multisim/parts/heated_pipe.py, line 14: HeatedPipe.<class> *)
Definition f_parts_heated_pipe__HeatedPipe__class_ : func := {|
 f_file := "parts/heated_pipe.py"; f_name := "HeatedPipe.<class>"; f_line := 14;
 f_params := []; f_closure := [];
 f_locals := ["__init__"; "init_part"; "_special_array_init"; "__depcreated_special_free_memory"; "_special_free_memory"; "_check_results"; "_final_datastore_backcalc"; "_special_crop_results"; "_special_return_store"; "get_diff"];
 f_outer := [];
 f_conds := ["*"];
 f_body := block [Def [1]; Def [2]; Def [3]; Def [4]; Def [5]; Def [6]; Def [7]; Def [8]; Def [9]; Def [10]] |}.

(* multisim/parts/heated_pipe.py, line 46: HeatedPipe.__init__ *)
Definition f_parts_heated_pipe__HeatedPipe___init__ : func := {|
 f_file := "parts/heated_pipe.py"; f_name := "HeatedPipe.__init__"; f_line := 46;
 f_params := ["self"; "name"; "master_cls"; "kwargs"]; f_closure := [];
 f_locals := ["err_str"; "start"; "end"];
 f_outer := ["super"; "np"; "slice"; "str"; "isinstance"; "int"; "list"; "tuple"; "len"];
 f_conds := ["*"; "'heat_spread' in kwargs and kwargs['heat_spread'] in ['all', 'single', 'range']"; "self._heat_spread == 'all'"; "self._heat_spread == 'single'"; "'heated_cells' in kwargs and isinstance(kwargs['heated_cells'], int) and (0 <= kwargs['..."; "'heated_cells' in kwargs and isinstance(kwargs['heated_cells'], (list, tuple)) and (len..."; "start < end and start >= 0 and (end < self.num_gp)"; "'lower_limit' in kwargs and 'upper_limit' in kwargs"; "0 <= self._lims[0] < self._lims[1]"];
 f_body := block [Use [1;8;2;3;4;9]; Def [5]; Use [4]; Choice 1 Skip (Use [4]); Choice 2 Skip (block [Use [5];
 Raise]); Use [4;1]; Choice 3 (Use [1;10]) (block [Use [1]; Choice 4 (block [Use [1;11]; Def [5]; Use
 [4]; Choice 1 Skip (block [Use [12;4;13]; Choice 1 Skip (Use [4;1])]); Choice 5 Skip (block [Use
 [5]; Raise]); Use [10;4;1]]) (block [Use [1;11]; Def [5]; Use [4]; Choice 1 Skip (block [Use
 [12;4;14;15]; Choice 1 Skip (block [Use [16;4]; Choice 1 Skip (block [Use [12;4;13]; Choice 1 Skip
 (Use [12;4;13])])])]); Choice 6 Skip (block [Use [5]; Raise]); Use [4]; Def [6]; Use [4]; Def [7];
 Use [6;7]; Choice 1 Skip (block [Use [6]; Choice 1 Skip (Use [7;1])]); Choice 7 Skip (block [Use
 [5]; Raise]); Use [10;6;7;1]])]); Use [1]; Def [5]; Use [4]; Choice 1 Skip (Use [4]); Choice 8 Skip
 (block [Use [5]; Raise]); Use [9;4;1]; Choice 9 Skip (block [Use [5]; Raise]); Use [1]] |}.

(* multisim/parts/heated_pipe.py, line 190: HeatedPipe.init_part *)
Definition f_parts_heated_pipe__HeatedPipe_init_part : func := {|
 f_file := "parts/heated_pipe.py"; f_name := "HeatedPipe.init_part"; f_line := 190;
 f_params := ["self"; "kwargs"]; f_closure := [];
 f_locals := [];
 f_outer := ["super"];
 f_conds := ["*"];
 f_body := Use [3;2] |}.

(* multisim/parts/heated_pipe.py, line 194: HeatedPipe._special_array_init *)
Definition f_parts_heated_pipe__HeatedPipe__special_array_init : func := {|
 f_file := "parts/heated_pipe.py"; f_name := "HeatedPipe._special_array_init"; f_line := 194;
 f_params := ["self"; "num_steps"]; f_closure := [];
 f_locals := [];
 f_outer := ["np"];
 f_conds := ["*"];
 f_body := Use [3;2;1] |}.

(* multisim/parts/heated_pipe.py, line 197: HeatedPipe.__depcreated_special_free_memory *)
Definition f_parts_heated_pipe__HeatedPipe___depcreated_special_free_memory : func := {|
 f_file := "parts/heated_pipe.py"; f_name := "HeatedPipe.__depcreated_special_free_memory"; f_line := 197;
 f_params := ["self"; "disk_store"; "part"; "array_length"; "hdf_idx"; "stepnum"]; f_closure := [];
 f_locals := [];
 f_outer := ["pd"];
 f_conds := ["*"];
 f_body := Use [2;3;7;1;4;5;6] |}.

(* multisim/parts/heated_pipe.py, line 208: HeatedPipe._special_free_memory *)
Definition f_parts_heated_pipe__HeatedPipe__special_free_memory : func := {|
 f_file := "parts/heated_pipe.py"; f_name := "HeatedPipe._special_free_memory"; f_line := 208;
 f_params := ["self"; "disk_store"; "part"; "array_length"; "hdf_idx"; "stepnum"]; f_closure := [];
 f_locals := [];
 f_outer := ["pd"];
 f_conds := ["*"];
 f_body := Use [2;3;7;1;4;5;6] |}.

(* multisim/parts/heated_pipe.py, line 219: HeatedPipe._check_results *)
Definition f_parts_heated_pipe__HeatedPipe__check_results : func := {|
 f_file := "parts/heated_pipe.py"; f_name := "HeatedPipe._check_results"; f_line := 219;
 f_params := ["self"]; f_closure := [];
 f_locals := [];
 f_outer := ["np"];
 f_conds := ["*"; "np.all(self.res > 0.0) and np.all(self.res < 150)"];
 f_body := block [Use [2;1]; Choice 1 Skip (Use [2;1]); Choice 2 Skip (Raise)] |}.

(* multisim/parts/heated_pipe.py, line 225: HeatedPipe._final_datastore_backcalc *)
Definition f_parts_heated_pipe__HeatedPipe__final_datastore_backcalc : func := {|
 f_file := "parts/heated_pipe.py"; f_name := "HeatedPipe._final_datastore_backcalc"; f_line := 225;
 f_params := ["self"; "disk_store"; "part"]; f_closure := [];
 f_locals := [];
 f_outer := ["np"];
 f_conds := ["*"];
 f_body := Use [4;2;3;1] |}.

(* multisim/parts/heated_pipe.py, line 232: HeatedPipe._special_crop_results *)
Definition f_parts_heated_pipe__HeatedPipe__special_crop_results : func := {|
 f_file := "parts/heated_pipe.py"; f_name := "HeatedPipe._special_crop_results"; f_line := 232;
 f_params := ["self"; "stepnum"]; f_closure := [];
 f_locals := [];
 f_outer := [];
 f_conds := ["*"];
 f_body := Use [1;2] |}.

(* multisim/parts/heated_pipe.py, line 235: HeatedPipe._special_return_store *)
Definition f_parts_heated_pipe__HeatedPipe__special_return_store : func := {|
 f_file := "parts/heated_pipe.py"; f_name := "HeatedPipe._special_return_store"; f_line := 235;
 f_params := ["self"; "disk_store"; "dfs"; "part"]; f_closure := [];
 f_locals := [];
 f_outer := [];
 f_conds := ["*"];
 f_body := Use [3;4;2] |}.

(* multisim/parts/heated_pipe.py, line 240: HeatedPipe.get_diff *)
Definition f_parts_heated_pipe__HeatedPipe_get_diff : func := {|
 f_file := "parts/heated_pipe.py"; f_name := "HeatedPipe.get_diff"; f_line := 240;
 f_params := ["self"; "timestep"]; f_closure := [];
 f_locals := [];
 f_outer := ["heatedpipe1D_diff"];
 f_conds := ["*"];
 f_body := block [Use [3;1;2]; Return] |}.

(* multisim/parts/heatexchanger.py, line 1: <module> *)
Definition f_parts_heatexchanger__module : func := {|
 f_file := "parts/heatexchanger.py"; f_name := "<module>"; f_line := 1;
 f_params := []; f_closure := [];
 f_locals := ["np"; "SimEnv"; "_pf"; "HeatExchanger"];
 f_outer := [];
 f_conds := ["*"];
 f_body := block [Def [1]; Def [2]; Def [3]; Use [2]; Def [4]] |}.

(* multisim/parts/heatexchanger.py, line 26: HeatExchanger.<class> *)
Definition f_parts_heatexchanger__HeatExchanger__class_ : func := {|
 f_file := "parts/heatexchanger.py"; f_name := "HeatExchanger.<class>"; f_line := 26;
 f_params := []; f_closure := [];
 f_locals := ["__init__"; "init_part"; "_reset_to_init_cond"; "get_plate_hex_geometry"; "find_Reynolds_correction"; "_get_flow_routine"; "solve"; "draw_part"];
 f_outer := [];
 f_conds := ["*"];
 f_body := block [Def [1]; Def [2]; Def [3]; Def [4]; Def [5]; Def [6]; Def [7]; Def [8]] |}.

(* multisim/parts/heatexchanger.py, line 57: HeatExchanger.__init__ *)
Definition f_parts_heatexchanger__HeatExchanger___init__ : func := {|
 f_file := "parts/heatexchanger.py"; f_name := "HeatExchanger.__init__"; f_line := 57;
 f_params := ["self"; "name"; "master_cls"; "kwargs"]; f_closure := [];
 f_locals := ["base_err"; "arg_err"; "hex_types"; "err_str"; "err_chn"; "Tshp"; "Tpshp"; "dummy_var"; "i"];
 f_outer := ["str"; "type"; "int"; "np"; "tuple"; "list"; "range"; "hasattr"; "dict"];
 f_conds := ["*"; "'HEx_type' in kwargs and kwargs['HEx_type'] in hex_types"; "self.HEx_type == 'plate_hex'"; "'passes' in kwargs and type(kwargs['passes']) == int and (kwargs['passes'] > 0)"; "'plates' in kwargs and type(kwargs['plates']) == int"; "self.passes == 1"; "kwargs['plates'] % 2 == 0"; "'max_channels' in kwargs and type(kwargs['max_channels']) == str"; "kwargs['max_channels'] == 'supply' or kwargs['max_channels'] == 'demand'"; "kwargs['max_channels'] == 'supply'"; "(kwargs['plates'] - 1) / self.passes % 2 == 0"; "not hasattr(self, 'info_topology')"];
 f_body := block [Use [3;1;14;2]; Def [5]; Def [6]; Use [5;1;6]; Def [7]; Use [1;14;7]; Def [8]; Use [4];
 Choice 1 Skip (Use [4;7]); Choice 2 Skip (block [Use [8]; Raise]); Use [4;1]; Choice 3 (block [Use
 [1]; Def [8]; Use [4]; Choice 1 Skip (block [Use [15;4;16]; Choice 1 Skip (Use [4])]); Choice 4 Skip
 (block [Use [8]; Raise]); Use [4;1]; Def [8]; Use [4]; Choice 1 Skip (Use [15;4;16]); Choice 5 Skip
 (block [Use [8]; Raise]); Use [1]; Choice 6 (block [Use [4]; Choice 7 Skip (block [Use [8]; Raise]);
 Use [4;1]; Def [9]; Use [4]; Choice 1 Skip (Use [15;4;14]); Choice 8 Skip (block [Use [9]; Raise]);
 Use [4]; Choice 1 Skip (Use [4]); Choice 9 Skip (block [Use [9]; Raise]); Use [4]; Choice 10 (Use
 [16;1]) (Use [16;1])]) (block [Use [4;1]; Choice 11 Skip (block [Use [8]; Raise]); Use [16;4;1]])])
 Skip; Use [16;1;2;17]; Def [10]; Use [17;10;1]; Def [11]; Use [1;17;11;10;18;19]; Def [12]; Use
 [20;1]; Loop false (block [Def [13]; Use [1;12;13]]) Skip; Use [18;12;1;17;11;19;10;21]; Choice 12
 (Use [22;1]) Skip; Use [1]] |}.

(* multisim/parts/heatexchanger.py, line 348: HeatExchanger.init_part *)
Definition f_parts_heatexchanger__HeatExchanger_init_part : func := {|
 f_file := "parts/heatexchanger.py"; f_name := "HeatExchanger.init_part"; f_line := 348;
 f_params := ["self"; "Reynolds_correction"; "kwargs"]; f_closure := [];
 f_locals := ["err_str"];
 f_outer := ["float"; "str"; "isinstance"; "int"; "np"; "type"];
 f_conds := ["*"; "kwargs"; "'insulation_thickness' in kwargs"; "'insulation_lambda' in kwargs"; "'material' in kwargs and 'pipe_specs' in kwargs"; "'all' in kwargs['pipe_specs']"; "'T_init' in kwargs"; "isinstance(self._T_init, (float, int, np.ndarray))"; "type(self._T_init) != np.ndarray"; "self._T_init.shape == self.T.shape"; "isinstance(Reynolds_correction, (int, float)) and Reynolds_correction > 0"];
 f_body := block [Use [1]; Def [4]; Use [3]; Choice 2 Skip (block [Use [4]; Raise]); Def [4]; Use [3]; Choice 3
 Skip (block [Use [4]; Raise]); Use [5;3;1]; Def [4]; Use [3]; Choice 4 Skip (block [Use [4];
 Raise]); Use [5;3;1]; Def [4]; Use [3]; Choice 1 Skip (Use [3]); Choice 5 Skip (block [Use [4];
 Raise]); Use [1;3]; Def [4]; Use [3]; Choice 6 Skip (block [Use [4]; Raise]); Use [1;3;6]; Def [4];
 Use [3]; Choice 7 Skip (block [Use [4]; Raise]); Use [3;1;7;5;8;9]; Choice 8 Skip (block [Use [4];
 Raise]); Use [10;1;9]; Choice 9 (Use [5;1]) (block [Use [1]; Choice 10 Skip (block [Use [4];
 Raise]); Use [1]]); Use [1]; Def [4]; Use [7;2;8;5]; Choice 1 Skip (Use [2]); Choice 11 Skip (block
 [Use [4]; Raise]); Use [9;2;1;5;3]] |}.

(* multisim/parts/heatexchanger.py, line 501: HeatExchanger._reset_to_init_cond *)
Definition f_parts_heatexchanger__HeatExchanger__reset_to_init_cond : func := {|
 f_file := "parts/heatexchanger.py"; f_name := "HeatExchanger._reset_to_init_cond"; f_line := 501;
 f_params := ["self"]; f_closure := [];
 f_locals := [];
 f_outer := [];
 f_conds := ["*"];
 f_body := Use [1] |}.

(* multisim/parts/heatexchanger.py, line 504: HeatExchanger.get_plate_hex_geometry *)
Definition f_parts_heatexchanger__HeatExchanger_get_plate_hex_geometry : func := {|
 f_file := "parts/heatexchanger.py"; f_name := "HeatExchanger.get_plate_hex_geometry"; f_line := 504;
 f_params := ["self"; "kwargs"]; f_closure := [];
 f_locals := ["__plate_area"; "__plate_thickness"; "__channel_width_by_plate_thickness"; "__channel_width_by_volume"; "err_len"; "err_wdt"; "err_dpt"; "err_Vfl"; "err_sch"; "err_sp"; "err_cr"; "err_pd"; "err_dd"; "err_dm"; "err_mw"; "err_a"; "err_str"];
 f_outer := ["isinstance"; "int"; "float"; "np"];
 f_conds := ["*"; "'length' in kwargs and isinstance(kwargs['length'], (int, float)) and (kwargs['length']..."; "'width' in kwargs and isinstance(kwargs['width'], (int, float)) and (kwargs['width'] > 0)"; "'port_diameter' in kwargs and isinstance(kwargs['port_diameter'], (int, float)) and (kw..."; "'channel_area' in kwargs"; "isinstance(kwargs['channel_area'], (int, float)) and kwargs['channel_area'] > 0"; "'corner_radius' in kwargs and isinstance(kwargs['corner_radius'], (int, float)) and (kw..."; "'A_plate' not in kwargs"; "'depth' in kwargs and isinstance(kwargs['depth'], (int, float)) and (kwargs['depth'] > ..."; "'depth_base' in kwargs"; "'channel_width' in kwargs"; "isinstance(kwargs['channel_width'], (int, float)) and kwargs['channel_width'] > 0"; "'plate_thickness' not in kwargs"; "'depth_per_plate' in kwargs and isinstance(kwargs['depth_per_plate'], (int, float)) and..."; "isinstance(kwargs['plate_thickness'], (int, float)) and kwargs['plate_thickness'] > 0"; "'V_channel' in kwargs"; "isinstance(kwargs['V_channel'], (int, float)) and kwargs['V_channel'] > 0"; "'mass_per_plate' in kwargs"; "isinstance(kwargs['mass_per_plate'], (int, float)) and kwargs['mass_per_plate'] > 0"; "'V_channel' not in kwargs"; "False"; "'mass_base' in kwargs"; "'mass_total' in kwargs"];
 f_body := block [Def [3]; Def [4]; Def [5]; Def [6]; Use [1]; Def [7]; Use [1]; Def [8]; Use [1]; Def [9]; Use
 [1]; Def [10]; Use [1]; Def [11]; Use [1]; Def [12]; Use [1]; Def [13]; Use [1]; Def [14]; Use [1];
 Def [15]; Use [1]; Def [16]; Use [1]; Def [17]; Use [1]; Def [18]; Use [2]; Choice 1 Skip (block
 [Use [20;2;21;22]; Choice 1 Skip (Use [2])]); Choice 2 Skip (block [Use [7]; Raise]); Use [2];
 Choice 1 Skip (block [Use [20;2;21;22]; Choice 1 Skip (Use [2])]); Choice 3 Skip (block [Use [8];
 Raise]); Use [2]; Choice 1 Skip (block [Use [20;2;21;22]; Choice 1 Skip (Use [2])]); Choice 4 Skip
 (block [Use [14]; Raise]); Use [2]; Choice 5 (block [Use [20;2;21;22]; Choice 1 Skip (Use [2]);
 Choice 6 Skip (block [Use [18]; Raise])]) Skip; Use [22;2;1]; Choice 1 Skip (block [Use
 [20;2;21;22]; Choice 1 Skip (Use [2])]); Choice 7 Skip (block [Use [13]; Raise]); Use [22;2;1];
 Choice 8 (Use [3;1]) (Use [22;2;1]); Use [1;2]; Choice 1 Skip (block [Use [20;2;21;22]; Choice 1
 Skip (Use [2])]); Choice 1 Skip (block [Use [2]; Choice 1 Skip (block [Use [2]; Choice 1 Skip (block
 [Use [20;2;21;22]; Choice 1 Skip (block [Use [20;2;21;22]; Choice 1 Skip (block [Use [2]; Choice 1
 Skip (Use [2])])])])])]); Choice 9 Skip (block [Use [9]; Raise]); Use [2]; Choice 10 (Use [22;2;1])
 (Use [22;2;1]); Use [2]; Choice 11 (block [Use [20;2;21;22]; Choice 1 Skip (Use [2]); Choice 12 Skip
 (block [Use [11]; Raise]); Use [22;2;1]; Choice 5 (Use [22;2;1]) (Use [1]); Use [2]; Choice 13
 (block [Use [2]; Choice 1 Skip (block [Use [20;2;21;22]; Choice 1 Skip (Use [2])]); Choice 14 Skip
 (block [Use [15]; Raise]); Use [22;2;1]]) (block [Use [20;2;21;22]; Choice 1 Skip (Use [2]); Choice
 15 Skip (block [Use [12]; Raise]); Use [22;2;1]]); Use [2]; Choice 16 (block [Use [20;2;21;22];
 Choice 1 Skip (Use [2]); Choice 17 Skip (block [Use [10]; Raise]); Use [22;2;1]]) (Use [1])]) (block
 [Use [2]; Choice 18 (block [Use [2]; Choice 1 Skip (block [Use [20;2;21;22]; Choice 1 Skip (Use
 [2])]); Choice 14 Skip (block [Use [15]; Raise]); Use [20;2;21;22]; Choice 1 Skip (Use [2]); Choice
 19 Skip (block [Use [16]; Raise]); Use [22;2;1]; Choice 13 (Use [4;1]) (block [Use [20;2;21;22];
 Choice 1 Skip (Use [2]); Choice 15 Skip (block [Use [12]; Raise]); Use [22;2;1]]); Use [5;1;2];
 Choice 5 (Use [22;2;1]) (Use [1]); Use [2]; Choice 20 (Use [3;1;23]) (Use [22;2;1])]) (block [Use
 [2]; Choice 16 (block [Use [20;2;21;22]; Choice 1 Skip (Use [2]); Choice 17 Skip (block [Use [10];
 Raise]); Use [22;2;1;6]; Choice 13 (block [Use [2]; Choice 1 Skip (block [Use [20;2;21;22]; Choice 1
 Skip (Use [2])]); Choice 14 Skip (block [Use [15]; Raise]); Use [22;2;1]]) (block [Use [20;2;21;22];
 Choice 1 Skip (Use [2]); Choice 15 Skip (block [Use [12]; Raise]); Use [22;2;1]]); Use [2]; Choice 5
 (Use [22;2;1]) (Use [1])]) (block [Use [1]; Def [19]; Choice 21 Skip (block [Use [19];
 Raise])])])]); Use [2]; Choice 22 (block [Use [2]; Choice 18 Skip (block [Use [16]; Raise]); Use
 [22;2;1]]) (block [Use [2]; Choice 23 Skip (block [Use [17]; Raise]); Use [22;2;1]]); Use [1;3;23]] |}.

(* multisim/parts/heatexchanger.py, line 510: HeatExchanger.get_plate_hex_geometry.__plate_area *)
Definition f_parts_heatexchanger__HeatExchanger_get_plate_hex_geometry___plate_area : func := {|
 f_file := "parts/heatexchanger.py"; f_name := "HeatExchanger.get_plate_hex_geometry.__plate_area"; f_line := 510;
 f_params := ["length"; "width"; "port_diameter"; "corner_radius"]; f_closure := [];
 f_locals := ["Ap"; "Acr"];
 f_outer := ["np"];
 f_conds := ["*"];
 f_body := block [Use [3;7]; Def [5]; Use [4;7]; Def [6]; Use [1;2;5;6]; Return] |}.

(* multisim/parts/heatexchanger.py, line 522: HeatExchanger.get_plate_hex_geometry.__plate_thickness *)
Definition f_parts_heatexchanger__HeatExchanger_get_plate_hex_geometry___plate_thickness : func := {|
 f_file := "parts/heatexchanger.py"; f_name := "HeatExchanger.get_plate_hex_geometry.__plate_thickness"; f_line := 522;
 f_params := ["diff_m"; "rho_plate"; "A_plate"; "diff_depth"; "length"; "width"; "corner_radius"]; f_closure := [];
 f_locals := ["U"];
 f_outer := ["np"];
 f_conds := ["*"];
 f_body := block [Use [5;6;7;9]; Def [8]; Use [3;4;8]; Def [3]; Use [1;3;2]; Return] |}.

(* multisim/parts/heatexchanger.py, line 551: HeatExchanger.get_plate_hex_geometry.__channel_width_by_plate_thickness *)
Definition f_parts_heatexchanger__HeatExchanger_get_plate_hex_geometry___channel_width_by_plate_thickness : func := {|
 f_file := "parts/heatexchanger.py"; f_name := "HeatExchanger.get_plate_hex_geometry.__channel_width_by_plate_thickness"; f_line := 551;
 f_params := ["diff_depth"; "plate_thickness"]; f_closure := [];
 f_locals := [];
 f_outer := [];
 f_conds := ["*"];
 f_body := block [Use [1;2]; Return] |}.

(* multisim/parts/heatexchanger.py, line 559: HeatExchanger.get_plate_hex_geometry.__channel_width_by_volume *)
Definition f_parts_heatexchanger__HeatExchanger_get_plate_hex_geometry___channel_width_by_volume : func := {|
 f_file := "parts/heatexchanger.py"; f_name := "HeatExchanger.get_plate_hex_geometry.__channel_width_by_volume"; f_line := 559;
 f_params := ["V_channel_total"; "length"; "width"; "corner_radius"]; f_closure := ["__plate_area"];
 f_locals := [];
 f_outer := [];
 f_conds := ["*"];
 f_body := block [Use [1;5;2;3;4]; Return] |}.

(* multisim/parts/heatexchanger.py, line 943: HeatExchanger.find_Reynolds_correction *)
Definition f_parts_heatexchanger__HeatExchanger_find_Reynolds_correction : func := {|
 f_file := "parts/heatexchanger.py"; f_name := "HeatExchanger.find_Reynolds_correction"; f_line := 943;
 f_params := ["self"; "T_in"; "T_out"; "P"; "alpha_target"; "side"]; f_closure := [];
 f_locals := ["err_str"; "num_channels"; "shape"; "T_mean"; "lam_mean"; "cp_mean"; "rho_mean"; "ny_mean"; "dm"; "alpha"; "start_value"; "minimize"; "alpha_wrapper"; "res"];
 f_outer := ["type"; "str"; "np"; "_pf"; "abs"; "print"];
 f_conds := ["*"; "type(side) == str and (side == 'supply' or side == 'demand')"; "side == 'supply'"; "type(P) == np.ndarray"; "type(alpha_target) == type(P)"; "alpha_target.shape == P.shape"];
 f_body := block [Def [7]; Use [21;6;22]; Choice 1 Skip (block [Use [6]; Choice 1 Skip (Use [6])]); Choice 2
 Skip (block [Use [7]; Raise]); Use [6]; Choice 3 (block [Use [1]; Def [8]]) (block [Use [1]; Def
 [8]]); Use [21;4;23]; Choice 4 (block [Def [7]; Use [21;5;4]; Choice 5 Skip (block [Use [7];
 Raise]); Use [5;4]; Choice 6 Skip (block [Use [7]; Raise]); Use [4]; Def [9]]) (Def [9]); Use [2;3];
 Def [10]; Use [23;9]; Def [11]; Use [23;9]; Def [12]; Use [23;9]; Def [13]; Use [23;9]; Def [14];
 Use [24;10;11;12;13;14;25;4;2;3]; Def [15]; Use [23;15]; Def [16]; Use [23]; Def [17]; Def [18]; Def
 [19]; Use [18;19;17]; Def [20]; Use [20;1;26;22]] |}.

(* multisim/parts/heatexchanger.py, line 992: HeatExchanger.find_Reynolds_correction.alpha_wrapper *)
Definition f_parts_heatexchanger__HeatExchanger_find_Reynolds_correction_alpha_wrapper : func := {|
 f_file := "parts/heatexchanger.py"; f_name := "HeatExchanger.find_Reynolds_correction.alpha_wrapper"; f_line := 992;
 f_params := ["corr_Re"]; f_closure := ["dm"; "num_channels"; "T_mean"; "rho_mean"; "ny_mean"; "lam_mean"; "self"; "alpha"; "alpha_target"];
 f_locals := [];
 f_outer := ["_pf"; "abs"];
 f_conds := ["*"];
 f_body := block [Use [11;2;3;4;5;6;7;8;1;9;12;10]; Return] |}.

(* multisim/parts/heatexchanger.py, line 1023: HeatExchanger._get_flow_routine *)
Definition f_parts_heatexchanger__HeatExchanger__get_flow_routine : func := {|
 f_file := "parts/heatexchanger.py"; f_name := "HeatExchanger._get_flow_routine"; f_line := 1023;
 f_params := ["self"; "port"; "parent_port"; "subnet"; "kwargs"]; f_closure := [];
 f_locals := ["trgt_idx"; "src_part"; "src_port"; "src_idx"; "alg_sign"; "sp"; "operation_id"; "op_routine"; "net"; "operation_routine"; "source_ports"];
 f_outer := ["len"; "dict"];
 f_conds := ["*"; "kwargs['flow_channel'] in sp"; "alg_sign == 'positive'"; "self._cnt_open_prts == 0"; "subnet"; "operation_id == -1"; "operation_id == 1"; "operation_id == 0"; "operation_id == 3"; "src_part is not None"; "port not in self.info_topology"];
 f_body := block [Use [1;2;3]; Def [6]; Def [7]; Def [8]; Def [9]; Def [10]; Use [1]; Loop false (block [Def
 [11]; Use [5;11]; Choice 2 (block [Use [1]; Def [7]; Use [1;11]; Def [9]; Def [10]]) Skip]) Skip;
 Use [10]; Choice 3 (Def [12]) (Def [12]); Use [1;6;12;7;9]; Def [13]; Use [1;2;17]; Choice 4 (Use
 [1]) Skip; Use [4]; Def [14]; Use [12]; Choice 6 Skip (block [Use [12]; Choice 7 Skip (block [Use
 [12]; Choice 8 Skip (Use [12])])]); Def [15]; Use [7]; Choice 10 (Use [7]) (Use [1]); Def [7]; Use
 [8]; Def [16]; Use [2;1]; Choice 11 (Use [18;1;2]) Skip; Use [1;2;14;6;15;7;16;5;13]; Return] |}.

(* multisim/parts/heatexchanger.py, line 1141: HeatExchanger.solve *)
Definition f_parts_heatexchanger__HeatExchanger_solve : func := {|
 f_file := "parts/heatexchanger.py"; f_name := "HeatExchanger.solve"; f_line := 1141;
 f_params := ["self"; "timestep"]; f_closure := [];
 f_locals := [];
 f_outer := ["_pf"];
 f_conds := ["*"];
 f_body := Use [3;1] |}.

(* multisim/parts/heatexchanger.py, line 1174: HeatExchanger.draw_part *)
Definition f_parts_heatexchanger__HeatExchanger_draw_part : func := {|
 f_file := "parts/heatexchanger.py"; f_name := "HeatExchanger.draw_part"; f_line := 1174;
 f_params := ["self"; "axis"; "timestep"; "draw"; "animate"]; f_closure := [];
 f_locals := [];
 f_outer := [];
 f_conds := ["*"];
 f_body := Return |}.

(* multisim/parts/hex_condensing_polynome.py, line 1: <module> *)
Definition f_parts_hex_condensing_polynome__module : func := {|
 f_file := "parts/hex_condensing_polynome.py"; f_name := "<module>"; f_line := 1;
 f_params := []; f_closure := [];
 f_locals := ["np"; "_skl"; "SimEnv"; "make_poly_transf_combs_for_nb"; "extract_pca_results"; "condensing_hex_solve"; "HEXCondPoly"];
 f_outer := [];
 f_conds := ["*"];
 f_body := block [Def [1]; Def [2]; Def [3]; Def [4]; Def [5]; Def [6]; Use [3]; Def [7]] |}.

(* multisim/parts/hex_condensing_polynome.py, line 18: HEXCondPoly.<class> *)
Definition f_parts_hex_condensing_polynome__HEXCondPoly__class_ : func := {|
 f_file := "parts/hex_condensing_polynome.py"; f_name := "HEXCondPoly.<class>"; f_line := 18;
 f_params := []; f_closure := [];
 f_locals := ["__init__"; "init_part"; "_reset_to_init_cond"; "_get_flow_routine"; "_check_results"; "solve"; "draw_part"];
 f_outer := [];
 f_conds := ["*"];
 f_body := block [Def [1]; Def [2]; Def [3]; Def [4]; Def [5]; Def [6]; Def [7]] |}.

(* multisim/parts/hex_condensing_polynome.py, line 48: HEXCondPoly.__init__ *)
Definition f_parts_hex_condensing_polynome__HEXCondPoly___init__ : func := {|
 f_file := "parts/hex_condensing_polynome.py"; f_name := "HEXCondPoly.__init__"; f_line := 48;
 f_params := ["self"; "name"; "master_cls"; "kwargs"]; f_closure := [];
 f_locals := ["base_err"; "arg_err"; "err_rp"; "err_fsg"; "err_fgr"; "err_wr"; "Tshp"; "Tpshp"; "dummy_var"; "i"];
 f_outer := ["str"; "isinstance"; "_skl"; "int"; "float"; "np"; "tuple"; "list"; "slice"; "range"; "hasattr"; "dict"];
 f_conds := ["*"; "'regression_pipeline' in kwargs and isinstance(kwargs['regression_pipeline'], _skl.pipe..."; "'max_gas_Nm3h' in kwargs and isinstance(kwargs['max_gas_Nm3h'], (int, float)) and (kwar..."; "'max_water_kgs' in kwargs"; "'max_water_kgs' in kwargs and isinstance(kwargs['max_water_kgs'], (int, float)) and (kw..."; "'fluegas_flow_range' in kwargs and isinstance(kwargs['fluegas_flow_range'], (tuple, lis..."; "'water_flow_range' in kwargs and isinstance(kwargs['water_flow_range'], (tuple, list)) ..."; "not hasattr(self, 'info_topology')"];
 f_body := block [Use [3;1;15;2]; Def [5]; Def [6]; Use [5;1;6]; Def [7]; Use [4]; Choice 1 Skip (Use
 [16;4;17]); Choice 2 Skip (block [Use [7]; Raise]); Use [4;1]; Def [8]; Use [4]; Choice 1 Skip
 (block [Use [16;4;18;19]; Choice 1 Skip (Use [4])]); Choice 3 Skip (block [Use [8]; Raise]); Use
 [20;1;4]; Choice 4 (block [Use [4]; Choice 1 Skip (block [Use [16;4;18;19]; Choice 1 Skip (Use
 [4])]); Choice 5 Skip (block [Use [8]; Raise]); Use [4;1]]) (Use [1]); Use [1]; Def [9]; Use [4];
 Choice 1 Skip (block [Use [16;4;21;22]; Choice 1 Skip (block [Use [4]; Choice 1 Skip (Use [4])])]);
 Choice 6 Skip (block [Use [9]; Raise]); Use [20;1;4]; Def [10]; Use [4]; Choice 1 Skip (block [Use
 [16;4;21;22]; Choice 1 Skip (block [Use [4]; Choice 1 Skip (Use [4])])]); Choice 7 Skip (block [Use
 [10]; Raise]); Use [20;1;4;2;23]; Def [11]; Use [20;11;1]; Def [12]; Use [20;1;12;11;21;22]; Def
 [13]; Use [24;1]; Loop false (block [Def [14]; Use [1;13;14]]) Skip; Use [21;13;1;20;12;22;25];
 Choice 8 (Use [26;1]) Skip; Use [1]] |}.

(* multisim/parts/hex_condensing_polynome.py, line 342: HEXCondPoly.init_part *)
Definition f_parts_hex_condensing_polynome__HEXCondPoly_init_part : func := {|
 f_file := "parts/hex_condensing_polynome.py"; f_name := "HEXCondPoly.init_part"; f_line := 342;
 f_params := ["self"; "kwargs"]; f_closure := [];
 f_locals := ["err_str"];
 f_outer := ["str"; "isinstance"; "float"; "int"; "np"; "make_poly_transf_combs_for_nb"; "extract_pca_results"];
 f_conds := ["*"; "kwargs"; "'material' in kwargs and 'pipe_specs' in kwargs"; "'all' in kwargs['pipe_specs']"; "'T_init' in kwargs"; "isinstance(self._T_init, (float, int, np.ndarray))"; "not isinstance(self._T_init, np.ndarray)"; "self._T_init.shape == self.T.shape"];
 f_body := block [Use [1]; Def [3]; Use [2]; Choice 2 Skip (block [Use [3]; Raise]); Use [1]; Def [3]; Use [2];
 Choice 1 Skip (Use [2]); Choice 3 Skip (block [Use [3]; Raise]); Use [1;2]; Def [3]; Use [2]; Choice
 4 Skip (block [Use [3]; Raise]); Use [1;4]; Def [3]; Use [2]; Choice 5 Skip (block [Use [3];
 Raise]); Use [2;1;5;6;7;8]; Choice 6 Skip (block [Use [3]; Raise]); Use [5;1;8]; Choice 7 (Use
 [6;1]) (block [Use [1]; Choice 8 Skip (block [Use [3]; Raise]); Use [1]]); Use [1;2;9;10]] |}.

(* multisim/parts/hex_condensing_polynome.py, line 441: HEXCondPoly._reset_to_init_cond *)
Definition f_parts_hex_condensing_polynome__HEXCondPoly__reset_to_init_cond : func := {|
 f_file := "parts/hex_condensing_polynome.py"; f_name := "HEXCondPoly._reset_to_init_cond"; f_line := 441;
 f_params := ["self"]; f_closure := [];
 f_locals := [];
 f_outer := [];
 f_conds := ["*"];
 f_body := Use [1] |}.

(* multisim/parts/hex_condensing_polynome.py, line 444: HEXCondPoly._get_flow_routine *)
Definition f_parts_hex_condensing_polynome__HEXCondPoly__get_flow_routine : func := {|
 f_file := "parts/hex_condensing_polynome.py"; f_name := "HEXCondPoly._get_flow_routine"; f_line := 444;
 f_params := ["self"; "port"; "parent_port"; "subnet"; "kwargs"]; f_closure := [];
 f_locals := ["trgt_idx"; "src_part"; "src_port"; "src_idx"; "alg_sign"; "sp"; "operation_id"; "op_routine"; "net"; "operation_routine"; "source_ports"];
 f_outer := ["len"; "dict"];
 f_conds := ["*"; "kwargs['flow_channel'] in sp"; "alg_sign == 'positive'"; "self._cnt_open_prts == 0"; "subnet"; "operation_id == -1"; "operation_id == 1"; "operation_id == 0"; "operation_id == 3"; "src_part is not None"; "port not in self.info_topology"];
 f_body := block [Use [1;2;3]; Def [6]; Def [7]; Def [8]; Def [9]; Def [10]; Use [1]; Loop false (block [Def
 [11]; Use [5;11]; Choice 2 (block [Use [1]; Def [7]; Use [1;11]; Def [9]; Def [10]]) Skip]) Skip;
 Use [10]; Choice 3 (Def [12]) (Def [12]); Use [1;6;12;7;9]; Def [13]; Use [1;2;17]; Choice 4 (Use
 [1]) Skip; Use [4]; Def [14]; Use [12]; Choice 6 Skip (block [Use [12]; Choice 7 Skip (block [Use
 [12]; Choice 8 Skip (Use [12])])]); Def [15]; Use [7]; Choice 10 (Use [7]) (Use [1]); Def [7]; Use
 [8]; Def [16]; Use [2;1]; Choice 11 (Use [18;1;2]) Skip; Use [1;2;14;6;15;7;16;5;13]; Return] |}.

(* multisim/parts/hex_condensing_polynome.py, line 564: HEXCondPoly._check_results *)
Definition f_parts_hex_condensing_polynome__HEXCondPoly__check_results : func := {|
 f_file := "parts/hex_condensing_polynome.py"; f_name := "HEXCondPoly._check_results"; f_line := 564;
 f_params := ["self"]; f_closure := [];
 f_locals := [];
 f_outer := ["np"];
 f_conds := ["*"; "np.all(self.res > 0.0) and np.all(self.res < 150)"; "np.all(self.res_dm >= 0.0)"; "self.res_dm[:, 1].max() / self._flow_scaling[1] < self._gas_dv_range[1]"];
 f_body := block [Use [2;1]; Choice 1 Skip (Use [2;1]); Choice 2 Skip (Raise); Use [2;1]; Choice 3 Skip
 (Raise); Use [1]; Choice 4 Skip (Raise)] |}.

(* multisim/parts/hex_condensing_polynome.py, line 580: HEXCondPoly.solve *)
Definition f_parts_hex_condensing_polynome__HEXCondPoly_solve : func := {|
 f_file := "parts/hex_condensing_polynome.py"; f_name := "HEXCondPoly.solve"; f_line := 580;
 f_params := ["self"; "timestep"]; f_closure := [];
 f_locals := [];
 f_outer := ["condensing_hex_solve"];
 f_conds := ["*"];
 f_body := Use [3;1] |}.

(* multisim/parts/hex_condensing_polynome.py, line 605: HEXCondPoly.draw_part *)
Definition f_parts_hex_condensing_polynome__HEXCondPoly_draw_part : func := {|
 f_file := "parts/hex_condensing_polynome.py"; f_name := "HEXCondPoly.draw_part"; f_line := 605;
 f_params := ["self"; "axis"; "timestep"; "draw"; "animate"]; f_closure := [];
 f_locals := [];
 f_outer := [];
 f_conds := ["*"];
 f_body := Return |}.

(* multisim/parts/hex_num.py, line 1: <module> *)
Definition f_parts_hex_num__module : func := {|
 f_file := "parts/hex_num.py"; f_name := "<module>"; f_line := 1;
 f_params := []; f_closure := [];
 f_locals := ["np"; "SimEnv"; "_pf"; "HexNum"];
 f_outer := [];
 f_conds := ["*"];
 f_body := block [Def [1]; Def [2]; Def [3]; Use [2]; Def [4]] |}.

(* multisim/parts/hex_num.py, line 13: HexNum.<class> *)
Definition f_parts_hex_num__HexNum__class_ : func := {|
 f_file := "parts/hex_num.py"; f_name := "HexNum.<class>"; f_line := 13;
 f_params := []; f_closure := [];
 f_locals := ["__init__"; "init_part"; "_reset_to_init_cond"; "get_plate_hex_geometry"; "find_reynolds_correction"; "_get_flow_routine"; "get_diff"; "get_diff_impl_ext"; "get_diff_impl"; "draw_part"];
 f_outer := [];
 f_conds := ["*"];
 f_body := block [Def [1]; Def [2]; Def [3]; Def [4]; Def [5]; Def [6]; Def [7]; Def [8]; Def [9]; Def [10]] |}.

(* multisim/parts/hex_num.py, line 45: HexNum.__init__ *)
Definition f_parts_hex_num__HexNum___init__ : func := {|
 f_file := "parts/hex_num.py"; f_name := "HexNum.__init__"; f_line := 45;
 f_params := ["self"; "name"; "master_cls"; "kwargs"]; f_closure := [];
 f_locals := ["base_err"; "arg_err"; "hex_types"; "err_str"; "flow_types"; "err_flow"; "err_chn"; "Tshp"; "Tpshp"; "dummy_var"; "i"];
 f_outer := ["str"; "isinstance"; "int"; "np"; "tuple"; "ValueError"; "list"; "range"; "bool"; "callable"; "hasattr"; "dict"];
 f_conds := ["*"; "'HEx_type' in kwargs and kwargs['HEx_type'] in hex_types"; "'flow_type' in kwargs and kwargs['flow_type'] in flow_types"; "self.HEx_type == 'plate_hex'"; "'passes' in kwargs and isinstance(kwargs['passes'], int) and (kwargs['passes'] > 0)"; "'plates' in kwargs and isinstance(kwargs['plates'], int)"; "self.passes == 1"; "kwargs['plates'] % 2 == 0"; "'max_channels' in kwargs and isinstance(kwargs['max_channels'], str)"; "kwargs['max_channels'] == 'supply' or kwargs['max_channels'] == 'demand'"; "kwargs['max_channels'] == 'supply'"; "(kwargs['plates'] - 1) / self.passes % 2 == 0"; "'grid_points' in kwargs and isinstance(kwargs['grid_points'], int) and (kwargs['grid_po..."; "self.flow_type == 'counter'"; "self._models._allow_implicit"; "'solve_implicit' in kwargs and isinstance(kwargs['solve_implicit'], bool) and (kwargs['..."; "'implicit_root_diff' in kwargs and callable(kwargs['implicit_root_diff'])"; "not hasattr(self, 'info_topology')"];
 f_body := block [Use [3;1;16;2]; Def [5]; Def [6]; Use [5;1;6]; Def [7]; Use [1;7]; Def [8]; Use [4]; Choice 1
 Skip (Use [4;7]); Choice 2 Skip (block [Use [8]; Raise]); Use [4;1]; Def [9]; Use [1;16;9]; Def
 [10]; Use [4]; Choice 1 Skip (Use [4;9]); Choice 3 Skip (block [Use [10]; Raise]); Use [4;1]; Choice
 4 (block [Use [1]; Def [8]; Use [4]; Choice 1 Skip (block [Use [17;4;18]; Choice 1 Skip (Use [4])]);
 Choice 5 Skip (block [Use [8]; Raise]); Use [4;1]; Def [8]; Use [4]; Choice 1 Skip (Use [17;4;18]);
 Choice 6 Skip (block [Use [8]; Raise]); Use [1]; Choice 7 (block [Use [4]; Choice 8 Skip (block [Use
 [8]; Raise]); Use [4;1]; Def [11]; Use [4]; Choice 1 Skip (Use [17;4;16]); Choice 9 Skip (block [Use
 [11]; Raise]); Use [4]; Choice 1 Skip (Use [4]); Choice 10 Skip (block [Use [11]; Raise]); Use [4];
 Choice 11 (Use [18;1]) (Use [18;1])]) (block [Use [4;1]; Choice 12 Skip (block [Use [8]; Raise]);
 Use [18;4;1]]); Use [19;1]]) Skip; Use [18;1;5;6]; Def [8]; Use [4]; Choice 1 Skip (block [Use
 [17;4;18]; Choice 1 Skip (Use [4])]); Choice 13 Skip (block [Use [8]; Raise]); Use [4;1;2;19]; Def
 [12]; Use [1;19;12]; Def [13]; Use [19;12;1;13]; Choice 14 (Use [20;1]) (block [Use [20;1;21];
 Raise]); Use [20;1;22]; Def [14]; Use [23;1]; Loop false (block [Def [15]; Use [1;14;15]]) Skip; Use
 [20;14;1;19;13;22;18]; Choice 15 (block [Use [4]; Choice 1 Skip (block [Use [17;4;24]; Choice 1 Skip
 (Use [4])]); Choice 16 (block [Use [1;5;6]; Def [8]; Use [4]; Choice 1 Skip (Use [25;4]); Choice 17
 Skip (block [Use [8]; Raise]); Use [4;1]]) Skip]) Skip; Use [1;26]; Choice 18 (Use [27;1]) Skip] |}.

(* multisim/parts/hex_num.py, line 440: HexNum.init_part *)
Definition f_parts_hex_num__HexNum_init_part : func := {|
 f_file := "parts/hex_num.py"; f_name := "HexNum.init_part"; f_line := 440;
 f_params := ["self"; "reynolds_correction"; "kwargs"]; f_closure := [];
 f_locals := ["err_str"];
 f_outer := ["float"; "str"; "isinstance"; "int"; "np"];
 f_conds := ["*"; "kwargs"; "'insulation_thickness' in kwargs"; "'insulation_lambda' in kwargs"; "'material' in kwargs and 'pipe_specs' in kwargs"; "'all' in kwargs['pipe_specs']"; "'T_init' in kwargs"; "isinstance(self._T_init, (float, int, np.ndarray))"; "not isinstance(self._T_init, np.ndarray)"; "self._T_init.shape == self.T.shape"; "isinstance(reynolds_correction, (int, float)) and reynolds_correction > 0"; "not self.solve_explicitly"];
 f_body := block [Use [1]; Def [4]; Use [3]; Choice 2 Skip (block [Use [4]; Raise]); Def [4]; Use [3]; Choice 3
 Skip (block [Use [4]; Raise]); Use [5;3;1]; Def [4]; Use [3]; Choice 4 Skip (block [Use [4];
 Raise]); Use [5;3;1]; Def [4]; Use [3]; Choice 1 Skip (Use [3]); Choice 5 Skip (block [Use [4];
 Raise]); Use [1;3]; Def [4]; Use [3]; Choice 6 Skip (block [Use [4]; Raise]); Use [1;3;6]; Def [4];
 Use [3]; Choice 7 Skip (block [Use [4]; Raise]); Use [3;1;7;5;8;9]; Choice 8 Skip (block [Use [4];
 Raise]); Use [7;1;9]; Choice 9 (Use [5;1]) (block [Use [1]; Choice 10 Skip (block [Use [4]; Raise]);
 Use [1]]); Use [1]; Def [4]; Use [7;2;8;5]; Choice 1 Skip (Use [2]); Choice 11 Skip (block [Use [4];
 Raise]); Use [9;2;1;3]; Choice 12 (block [Use [1]; Use [1]]) Skip; Use [1]] |}.

(* multisim/parts/hex_num.py, line 646: HexNum._reset_to_init_cond *)
Definition f_parts_hex_num__HexNum__reset_to_init_cond : func := {|
 f_file := "parts/hex_num.py"; f_name := "HexNum._reset_to_init_cond"; f_line := 646;
 f_params := ["self"]; f_closure := [];
 f_locals := [];
 f_outer := [];
 f_conds := ["*"];
 f_body := Use [1] |}.

(* multisim/parts/hex_num.py, line 649: HexNum.get_plate_hex_geometry *)
Definition f_parts_hex_num__HexNum_get_plate_hex_geometry : func := {|
 f_file := "parts/hex_num.py"; f_name := "HexNum.get_plate_hex_geometry"; f_line := 649;
 f_params := ["self"; "kwargs"]; f_closure := [];
 f_locals := ["__plate_area"; "__plate_thickness"; "__channel_width_by_plate_thickness"; "__channel_width_by_volume"; "err_len"; "err_wdt"; "err_dpt"; "err_Vfl"; "err_sch"; "err_sp"; "err_cr"; "err_pd"; "err_dd"; "err_dm"; "err_mw"; "err_a"; "err_str"];
 f_outer := ["isinstance"; "int"; "float"; "np"];
 f_conds := ["*"; "'length' in kwargs and isinstance(kwargs['length'], (int, float)) and (kwargs['length']..."; "'width' in kwargs and isinstance(kwargs['width'], (int, float)) and (kwargs['width'] > 0)"; "'port_diameter' in kwargs and isinstance(kwargs['port_diameter'], (int, float)) and (kw..."; "'channel_area' in kwargs"; "isinstance(kwargs['channel_area'], (int, float)) and kwargs['channel_area'] > 0"; "'corner_radius' in kwargs and isinstance(kwargs['corner_radius'], (int, float)) and (kw..."; "'A_plate' not in kwargs"; "'depth' in kwargs and isinstance(kwargs['depth'], (int, float)) and (kwargs['depth'] > ..."; "'depth_base' in kwargs"; "'channel_width' in kwargs"; "isinstance(kwargs['channel_width'], (int, float)) and kwargs['channel_width'] > 0"; "'plate_thickness' not in kwargs"; "'depth_per_plate' in kwargs and isinstance(kwargs['depth_per_plate'], (int, float)) and..."; "isinstance(kwargs['plate_thickness'], (int, float)) and kwargs['plate_thickness'] > 0"; "'V_channel' in kwargs"; "isinstance(kwargs['V_channel'], (int, float)) and kwargs['V_channel'] > 0"; "'mass_per_plate' in kwargs"; "isinstance(kwargs['mass_per_plate'], (int, float)) and kwargs['mass_per_plate'] > 0"; "'V_channel' not in kwargs"; "False"; "'mass_base' in kwargs"; "'mass_total' in kwargs"];
 f_body := block [Def [3]; Def [4]; Def [5]; Def [6]; Use [1]; Def [7]; Use [1]; Def [8]; Use [1]; Def [9]; Use
 [1]; Def [10]; Use [1]; Def [11]; Use [1]; Def [12]; Use [1]; Def [13]; Use [1]; Def [14]; Use [1];
 Def [15]; Use [1]; Def [16]; Use [1]; Def [17]; Use [1]; Def [18]; Use [2]; Choice 1 Skip (block
 [Use [20;2;21;22]; Choice 1 Skip (Use [2])]); Choice 2 Skip (block [Use [7]; Raise]); Use [2];
 Choice 1 Skip (block [Use [20;2;21;22]; Choice 1 Skip (Use [2])]); Choice 3 Skip (block [Use [8];
 Raise]); Use [2]; Choice 1 Skip (block [Use [20;2;21;22]; Choice 1 Skip (Use [2])]); Choice 4 Skip
 (block [Use [14]; Raise]); Use [2]; Choice 5 (block [Use [20;2;21;22]; Choice 1 Skip (Use [2]);
 Choice 6 Skip (block [Use [18]; Raise])]) Skip; Use [22;2;1]; Choice 1 Skip (block [Use
 [20;2;21;22]; Choice 1 Skip (Use [2])]); Choice 7 Skip (block [Use [13]; Raise]); Use [22;2;1];
 Choice 8 (Use [3;1]) (Use [22;2;1]); Use [1;2]; Choice 1 Skip (block [Use [20;2;21;22]; Choice 1
 Skip (Use [2])]); Choice 1 Skip (block [Use [2]; Choice 1 Skip (block [Use [2]; Choice 1 Skip (block
 [Use [20;2;21;22]; Choice 1 Skip (block [Use [20;2;21;22]; Choice 1 Skip (block [Use [2]; Choice 1
 Skip (Use [2])])])])])]); Choice 9 Skip (block [Use [9]; Raise]); Use [2]; Choice 10 (Use [22;2;1])
 (Use [22;2;1]); Use [2]; Choice 11 (block [Use [20;2;21;22]; Choice 1 Skip (Use [2]); Choice 12 Skip
 (block [Use [11]; Raise]); Use [22;2;1]; Choice 5 (Use [22;2;1]) (Use [1]); Use [2]; Choice 13
 (block [Use [2]; Choice 1 Skip (block [Use [20;2;21;22]; Choice 1 Skip (Use [2])]); Choice 14 Skip
 (block [Use [15]; Raise]); Use [22;2;1]]) (block [Use [20;2;21;22]; Choice 1 Skip (Use [2]); Choice
 15 Skip (block [Use [12]; Raise]); Use [22;2;1]]); Use [2]; Choice 16 (block [Use [20;2;21;22];
 Choice 1 Skip (Use [2]); Choice 17 Skip (block [Use [10]; Raise]); Use [22;2;1]]) (Use [1])]) (block
 [Use [2]; Choice 18 (block [Use [2]; Choice 1 Skip (block [Use [20;2;21;22]; Choice 1 Skip (Use
 [2])]); Choice 14 Skip (block [Use [15]; Raise]); Use [20;2;21;22]; Choice 1 Skip (Use [2]); Choice
 19 Skip (block [Use [16]; Raise]); Use [22;2;1]; Choice 13 (Use [4;1]) (block [Use [20;2;21;22];
 Choice 1 Skip (Use [2]); Choice 15 Skip (block [Use [12]; Raise]); Use [22;2;1]]); Use [5;1;2];
 Choice 5 (Use [22;2;1]) (Use [1]); Use [2]; Choice 20 (Use [3;1;23]) (Use [22;2;1])]) (block [Use
 [2]; Choice 16 (block [Use [20;2;21;22]; Choice 1 Skip (Use [2]); Choice 17 Skip (block [Use [10];
 Raise]); Use [22;2;1;6]; Choice 13 (block [Use [2]; Choice 1 Skip (block [Use [20;2;21;22]; Choice 1
 Skip (Use [2])]); Choice 14 Skip (block [Use [15]; Raise]); Use [22;2;1]]) (block [Use [20;2;21;22];
 Choice 1 Skip (Use [2]); Choice 15 Skip (block [Use [12]; Raise]); Use [22;2;1]]); Use [2]; Choice 5
 (Use [22;2;1]) (Use [1])]) (block [Use [1]; Def [19]; Choice 21 Skip (block [Use [19];
 Raise])])])]); Use [2]; Choice 22 (block [Use [2]; Choice 18 Skip (block [Use [16]; Raise]); Use
 [22;2;1]]) (block [Use [2]; Choice 23 Skip (block [Use [17]; Raise]); Use [2]; Choice 18 Skip (block
 [Use [16]; Raise]); Use [22;2;1]]); Use [1;3;23]] |}.

(* multisim/parts/hex_num.py, line 655: HexNum.get_plate_hex_geometry.__plate_area *)
Definition f_parts_hex_num__HexNum_get_plate_hex_geometry___plate_area : func := {|
 f_file := "parts/hex_num.py"; f_name := "HexNum.get_plate_hex_geometry.__plate_area"; f_line := 655;
 f_params := ["length"; "width"; "port_diameter"; "corner_radius"]; f_closure := [];
 f_locals := ["Ap"; "Acr"];
 f_outer := ["np"];
 f_conds := ["*"];
 f_body := block [Use [3;7]; Def [5]; Use [4;7]; Def [6]; Use [1;2;5;6]; Return] |}.

(* multisim/parts/hex_num.py, line 667: HexNum.get_plate_hex_geometry.__plate_thickness *)
Definition f_parts_hex_num__HexNum_get_plate_hex_geometry___plate_thickness : func := {|
 f_file := "parts/hex_num.py"; f_name := "HexNum.get_plate_hex_geometry.__plate_thickness"; f_line := 667;
 f_params := ["diff_m"; "rho_plate"; "A_plate"; "diff_depth"; "length"; "width"; "corner_radius"]; f_closure := [];
 f_locals := ["U"];
 f_outer := ["np"];
 f_conds := ["*"];
 f_body := block [Use [5;6;7;9]; Def [8]; Use [3;4;8]; Def [3]; Use [1;3;2]; Return] |}.

(* multisim/parts/hex_num.py, line 696: HexNum.get_plate_hex_geometry.__channel_width_by_plate_thickness *)
Definition f_parts_hex_num__HexNum_get_plate_hex_geometry___channel_width_by_plate_thickness : func := {|
 f_file := "parts/hex_num.py"; f_name := "HexNum.get_plate_hex_geometry.__channel_width_by_plate_thickness"; f_line := 696;
 f_params := ["diff_depth"; "plate_thickness"]; f_closure := [];
 f_locals := [];
 f_outer := [];
 f_conds := ["*"];
 f_body := block [Use [1;2]; Return] |}.

(* multisim/parts/hex_num.py, line 704: HexNum.get_plate_hex_geometry.__channel_width_by_volume *)
Definition f_parts_hex_num__HexNum_get_plate_hex_geometry___channel_width_by_volume : func := {|
 f_file := "parts/hex_num.py"; f_name := "HexNum.get_plate_hex_geometry.__channel_width_by_volume"; f_line := 704;
 f_params := ["V_channel_total"; "length"; "width"; "corner_radius"]; f_closure := ["__plate_area"];
 f_locals := [];
 f_outer := [];
 f_conds := ["*"];
 f_body := block [Use [1;5;2;3;4]; Return] |}.

(* multisim/parts/hex_num.py, line 1106: HexNum.find_reynolds_correction *)
Definition f_parts_hex_num__HexNum_find_reynolds_correction : func := {|
 f_file := "parts/hex_num.py"; f_name := "HexNum.find_reynolds_correction"; f_line := 1106;
 f_params := ["self"; "T_in"; "T_out"; "P"; "alpha_target"; "side"]; f_closure := [];
 f_locals := ["err_str"; "num_channels"; "shape"; "T_mean"; "lam_mean"; "cp_mean"; "rho_mean"; "ny_mean"; "dm"; "alpha"; "start_value"; "minimize"; "alpha_wrapper"; "res"];
 f_outer := ["isinstance"; "str"; "np"; "type"; "_pf"; "abs"; "print"];
 f_conds := ["*"; "isinstance(side, str) and side in ('supply', 'demand')"; "side == 'supply'"; "isinstance(P, np.ndarray)"; "type(alpha_target) == type(P)"; "alpha_target.shape == P.shape"];
 f_body := block [Def [7]; Use [21;6;22]; Choice 1 Skip (Use [6]); Choice 2 Skip (block [Use [7]; Raise]); Use
 [6]; Choice 3 (block [Use [1]; Def [8]]) (block [Use [1]; Def [8]]); Use [21;4;23]; Choice 4 (block
 [Def [7]; Use [24;5;4]; Choice 5 Skip (block [Use [7]; Raise]); Use [5;4]; Choice 6 Skip (block [Use
 [7]; Raise]); Use [4]; Def [9]]) (Def [9]); Use [2;3]; Def [10]; Use [23;9]; Def [11]; Use [23;9];
 Def [12]; Use [23;9]; Def [13]; Use [23;9]; Def [14]; Use [25;10;11;12;13;14;26;4;2;3]; Def [15];
 Use [23;15]; Def [16]; Use [23]; Def [17]; Def [18]; Def [19]; Use [18;19;17]; Def [20]; Use
 [20;1;27;22]] |}.

(* multisim/parts/hex_num.py, line 1160: HexNum.find_reynolds_correction.alpha_wrapper *)
Definition f_parts_hex_num__HexNum_find_reynolds_correction_alpha_wrapper : func := {|
 f_file := "parts/hex_num.py"; f_name := "HexNum.find_reynolds_correction.alpha_wrapper"; f_line := 1160;
 f_params := ["corr_Re"]; f_closure := ["dm"; "num_channels"; "T_mean"; "rho_mean"; "ny_mean"; "lam_mean"; "self"; "alpha"; "alpha_target"];
 f_locals := [];
 f_outer := ["_pf"; "abs"];
 f_conds := ["*"];
 f_body := block [Use [11;2;3;4;5;6;7;8;1;9;12;10]; Return] |}.

(* multisim/parts/hex_num.py, line 1191: HexNum._get_flow_routine *)
Definition f_parts_hex_num__HexNum__get_flow_routine : func := {|
 f_file := "parts/hex_num.py"; f_name := "HexNum._get_flow_routine"; f_line := 1191;
 f_params := ["self"; "port"; "parent_port"; "subnet"; "kwargs"]; f_closure := [];
 f_locals := ["trgt_idx"; "src_part"; "src_port"; "src_idx"; "alg_sign"; "flow_channel_solved"; "sp"; "operation_id"; "op_routine"; "net"; "operation_routine"; "source_ports"];
 f_outer := ["len"; "dict"];
 f_conds := ["*"; "kwargs['flow_channel'] in sp"; "not flow_channel_solved"; "alg_sign == 'positive'"; "self._cnt_open_prts == 0"; "subnet"; "operation_id == -1"; "operation_id == 1"; "operation_id == 0"; "operation_id == 3"; "src_part is not None"; "port not in self.info_topology"];
 f_body := block [Use [1;2;3]; Def [6]; Def [7]; Def [8]; Def [9]; Def [10]; Def [11]; Use [1]; Loop false
 (block [Def [12]; Use [5;12]; Choice 2 (Def [11]) Skip]) Skip; Use [11]; Choice 3 (block [Use [10];
 Choice 4 (Def [13]) (Def [13]); Use [1;6;13;7;9]; Def [14]]) (block [Def [13]; Def [14]]); Use
 [1;2;18]; Choice 5 (Use [1]) Skip; Use [4]; Def [15]; Use [13]; Choice 7 Skip (block [Use [13];
 Choice 8 Skip (block [Use [13]; Choice 9 Skip (Use [13])])]); Def [16]; Use [7]; Choice 11 (Use [7])
 (Use [1]); Def [7]; Use [8]; Def [17]; Use [2;1]; Choice 12 (Use [19;1;2]) Skip; Use
 [1;2;15;6;16;7;17;5;14]; Return] |}.

(* multisim/parts/hex_num.py, line 1311: HexNum.get_diff *)
Definition f_parts_hex_num__HexNum_get_diff : func := {|
 f_file := "parts/hex_num.py"; f_name := "HexNum.get_diff"; f_line := 1311;
 f_params := ["self"; "timestep"]; f_closure := [];
 f_locals := [];
 f_outer := ["_pf"];
 f_conds := ["*"];
 f_body := block [Use [3;1;2]; Return] |}.

(* multisim/parts/hex_num.py, line 1320: HexNum.get_diff_impl_ext *)
Definition f_parts_hex_num__HexNum_get_diff_impl_ext : func := {|
 f_file := "parts/hex_num.py"; f_name := "HexNum.get_diff_impl_ext"; f_line := 1320;
 f_params := ["self"; "T_ext"; "timestep"]; f_closure := [];
 f_locals := ["i"; "idx"];
 f_outer := ["_pf"; "np"; "range"];
 f_conds := ["*"];
 f_body := block [Use [6;1;7;2;8]; Loop false (block [Def [4]; Use [1;4]; Def [5]; Use [1;5;4]]) Skip; Use [1];
 Return] |}.

(* multisim/parts/hex_num.py, line 1473: HexNum.get_diff_impl *)
Definition f_parts_hex_num__HexNum_get_diff_impl : func := {|
 f_file := "parts/hex_num.py"; f_name := "HexNum.get_diff_impl"; f_line := 1473;
 f_params := ["self"; "T"; "timestep"]; f_closure := [];
 f_locals := ["i"; "idx"];
 f_outer := ["_pf"; "np"; "range"];
 f_conds := ["*"];
 f_body := block [Use [2;1;6;7;8]; Loop false (block [Def [4]; Use [1;4]; Def [5]; Use [1;5;4]]) Skip; Use [1];
 Return] |}.

(* multisim/parts/hex_num.py, line 1641: HexNum.draw_part *)
Definition f_parts_hex_num__HexNum_draw_part : func := {|
 f_file := "parts/hex_num.py"; f_name := "HexNum.draw_part"; f_line := 1641;
 f_params := ["self"; "axis"; "timestep"; "draw"; "animate"]; f_closure := [];
 f_locals := [];
 f_outer := [];
 f_conds := ["*"];
 f_body := Use [1] |}.

(* multisim/parts/mixingvalve.py, line 1: <module> *)
Definition f_parts_mixingvalve__module : func := {|
 f_file := "parts/mixingvalve.py"; f_name := "<module>"; f_line := 1;
 f_params := []; f_closure := [];
 f_locals := ["np"; "pd"; "SimEnv"; "_pf"; "MixingValve"];
 f_outer := [];
 f_conds := ["*"];
 f_body := block [Def [1]; Def [2]; Def [3]; Def [4]; Use [3]; Def [5]] |}.

(* multisim/parts/mixingvalve.py, line 14: MixingValve.<class> *)
Definition f_parts_mixingvalve__MixingValve__class_ : func := {|
 f_file := "parts/mixingvalve.py"; f_name := "MixingValve.<class>"; f_line := 14;
 f_params := []; f_closure := [];
 f_locals := ["__init__"; "init_part"; "_reset_to_init_cond"; "_get_flow_routine"; "_process_cv"; "solve"; "draw_part"];
 f_outer := [];
 f_conds := ["*"];
 f_body := block [Def [1]; Def [2]; Def [3]; Def [4]; Def [5]; Def [6]; Def [7]] |}.

(* multisim/parts/mixingvalve.py, line 47: MixingValve.__init__ *)
Definition f_parts_mixingvalve__MixingValve___init__ : func := {|
 f_file := "parts/mixingvalve.py"; f_name := "MixingValve.__init__"; f_line := 47;
 f_params := ["self"; "name"; "master_cls"; "mix_or_split"; "kwargs"]; f_closure := [];
 f_locals := ["base_err"; "arg_err"; "err_str"; "dummy_var"; "i"];
 f_outer := ["str"; "np"; "list"; "tuple"; "ValueError"; "dict"; "range"];
 f_conds := ["*"; "mix_or_split == 'mix'"; "mix_or_split == 'split'"; "self.dm_invariant"; "not self.hydr_comp"];
 f_body := block [Use [3;1;11;2]; Def [6]; Def [7]; Use [6;1;7;2;4;12;13]; Choice 2 (Use [14;1;12]) (block [Use
 [4]; Choice 3 (Use [14;1;12]) (block [Def [8]; Use [15;8]; Raise])]); Use [16;1;13]; Def [9]; Use
 [17;1]; Loop false (block [Def [10]; Use [1;9;10]]) Skip; Use [14;9;1;12]; Choice 4 (Use [12;1])
 (Use [12;1]); Use [1]; Choice 5 (Use [1]) (Use [12;1]); Use [16;1]] |}.

(* multisim/parts/mixingvalve.py, line 244: MixingValve.init_part *)
Definition f_parts_mixingvalve__MixingValve_init_part : func := {|
 f_file := "parts/mixingvalve.py"; f_name := "MixingValve.init_part"; f_line := 244;
 f_params := ["self"; "port_A_init"; "kwargs"]; f_closure := [];
 f_locals := ["key"; "err_str"];
 f_outer := ["np"; "type"; "ValueError"; "pd"; "TypeError"];
 f_conds := ["*"; "'in' in self.info_topology"; "0 <= port_A_init <= 1"; "self.kind == 'mix'"; "'no_control' not in kwargs or ('no_control' in kwargs and kwargs['no_control'] is False)"; "'lower_limit' in kwargs and 'upper_limit' in kwargs"; "0 <= self._lims[0] < self._lims[1] <= 1"; "'no_control' in kwargs and kwargs['no_control'] is True"; "'const_val' in kwargs"; "type(kwargs['const_val']) == np.ndarray and kwargs['const_val'].shape == (2,)"; "'val_given' in kwargs"; "type(kwargs['val_given']) == pd.core.series.Series"; "'const_val' not in kwargs and 'val_given' not in kwargs"];
 f_body := block [Use [1;3]; Choice 2 (Def [4]) (Def [4]); Use [6;1;4;3]; Def [5]; Use [2]; Choice 3 Skip
 (block [Use [5]; Raise]); Use [1]; Choice 4 (Use [2;1]) (Use [2;1]); Use [2;1;3]; Choice 1 Skip
 (block [Use [3]; Choice 1 Skip (Use [3])]); Choice 5 (block [Use [1]; Def [5]; Use [3]; Choice 1
 Skip (Use [3]); Choice 6 Skip (block [Use [5]; Raise]); Use [6;3;1]; Choice 7 Skip (block [Use [5];
 Raise])]) (block [Use [3]; Choice 1 Skip (Use [3]); Choice 8 (block [Use [3]; Choice 9 (block [Use
 [1]; Def [5]; Use [7;3;6]; Choice 1 Skip (Use [3]); Choice 10 Skip (block [Use [5]; Raise]); Use
 [3;1;8]; Raise; Use [3]]) (block [Use [3]; Choice 11 (block [Use [1]; Def [5]; Def [5]; Use [7;3;9];
 Choice 12 Skip (block [Use [5]; Raise]); Use [10]; Raise; Use [3;1]]) (block [Use [1]; Def [5]; Use
 [3]; Choice 1 Skip (Use [3]); Choice 13 Skip (block [Use [5]; Raise])])])]) (block [Use [1]; Def
 [5]])]); Use [1]] |}.

(* multisim/parts/mixingvalve.py, line 404: MixingValve._reset_to_init_cond *)
Definition f_parts_mixingvalve__MixingValve__reset_to_init_cond : func := {|
 f_file := "parts/mixingvalve.py"; f_name := "MixingValve._reset_to_init_cond"; f_line := 404;
 f_params := ["self"]; f_closure := [];
 f_locals := [];
 f_outer := [];
 f_conds := ["*"; "self.kind == 'mix'"];
 f_body := block [Use [1]; Choice 2 (Use [1]) (Use [1])] |}.

(* multisim/parts/mixingvalve.py, line 416: MixingValve._get_flow_routine *)
Definition f_parts_mixingvalve__MixingValve__get_flow_routine : func := {|
 f_file := "parts/mixingvalve.py"; f_name := "MixingValve._get_flow_routine"; f_line := 416;
 f_params := ["self"; "port"; "parent_port"; "subnet"; "kwargs"]; f_closure := [];
 f_locals := ["trgt_idx"; "src_part"; "src_port"; "src_idx"; "alg_sign"; "err_str1"; "err_str2"; "err_str3"; "err_str4"; "err_str5"; "operation_id"; "op_routine"; "src1_idx_start"; "src1_idx"; "src2_idx_start"; "src2_idx"; "net"; "operation_routine"; "source_ports"];
 f_outer := ["tuple"; "slice"; "len"; "set"; "dict"];
 f_conds := ["*"; "self._cnt_open_prts == 3"; "self.kind == 'mix'"; "kwargs['pump_side'] != 'pressure'"; "port == 'AB'"; "kwargs['pump_side'] != 'suction'"; "self._models.parts[src_part].solve_numeric"; "alg_sign == 'positive'"; "self._cnt_open_prts == 0"; "subnet"; "operation_id == -1"; "operation_id == 1"; "operation_id == 0"; "operation_id == 3"; "src_part is not None"; "port not in self.info_topology"];
 f_body := block [Use [1;2;3]; Def [6]; Def [7]; Def [8]; Def [9]; Def [10]; Use [1]; Choice 2 (block [Use [1];
 Def [11]; Use [1]; Def [12]; Use [1]; Def [13]; Use [1]; Def [14]; Use [1]; Choice 3 (block [Use
 [5]; Choice 4 Skip (block [Use [11]; Raise]); Use [2]; Choice 5 Skip (block [Use [12]; Raise])])
 (block [Use [5]; Choice 6 Skip (block [Use [13]; Raise]); Use [2]; Choice 5 Skip (block [Use [14];
 Raise])]); Use [1;7]; Def [15]; Use [1;7]; Choice 7 Skip (block [Use [15]; Raise]); Use [10]; Choice
 8 (Def [16]) (Def [16]); Use [25]; Def [17]; Use [17;1;6]; Def [17]; Use [17;16]; Def [17]; Use
 [17;1;7;9]; Def [17]]) (block [Def [16]; Use [1]; Def [18]; Use [26;18]; Def [19]; Use [1;2]; Def
 [20]; Use [26;20]; Def [21]; Use [1;6;16;19;21]; Def [17]]); Use [1;2;27]; Choice 9 (Use [1]) Skip;
 Use [4]; Def [22]; Use [16]; Choice 11 Skip (block [Use [16]; Choice 12 Skip (block [Use [16];
 Choice 13 Skip (Use [16])])]); Def [23]; Use [7]; Choice 15 (Use [7]) (Use [1]); Def [7]; Use [16];
 Choice 14 (Use [25;2]) (block [Use [16]; Choice 13 (Use [8]) (Use [25;28;1;2])]); Def [24]; Use
 [2;1]; Choice 16 (Use [29;1;2]) Skip; Use [1;2;22;6;23;7;24;5;17]; Return] |}.

(* multisim/parts/mixingvalve.py, line 615: MixingValve._process_cv *)
Definition f_parts_mixingvalve__MixingValve__process_cv : func := {|
 f_file := "parts/mixingvalve.py"; f_name := "MixingValve._process_cv"; f_line := 615;
 f_params := ["self"; "ctrl_inst"]; f_closure := [];
 f_locals := [];
 f_outer := [];
 f_conds := ["*"; "ctrl_inst.cv < self._llim"; "ctrl_inst.cv > self._ulim"];
 f_body := block [Use [2;1]; Choice 2 (Use [1]) (block [Use [2;1]; Choice 3 (Use [1]) (Use [2])]); Use [1]] |}.

(* multisim/parts/mixingvalve.py, line 628: MixingValve.solve *)
Definition f_parts_mixingvalve__MixingValve_solve : func := {|
 f_file := "parts/mixingvalve.py"; f_name := "MixingValve.solve"; f_line := 628;
 f_params := ["self"; "timestep"]; f_closure := [];
 f_locals := [];
 f_outer := ["_pf"];
 f_conds := ["*"; "self.kind == 'mix'"];
 f_body := block [Use [1]; Choice 2 (Use [3;1]) (Use [3;1]); Use [1]] |}.

(* multisim/parts/mixingvalve.py, line 675: MixingValve.draw_part *)
Definition f_parts_mixingvalve__MixingValve_draw_part : func := {|
 f_file := "parts/mixingvalve.py"; f_name := "MixingValve.draw_part"; f_line := 675;
 f_params := ["self"; "axis"; "timestep"; "draw"]; f_closure := [];
 f_locals := ["__pt"; "orient_list"; "err_str"; "free_ports"; "p1"; "p2"; "offset"; "txt"; "txtA"; "txtB"];
 f_outer := ["dict"; "str"; "np"; "list"; "tuple"];
 f_conds := ["*"; "not draw"; "'orientation' in self.info_plot"; "self.info_plot['orientation'] in orient_list"; "__pt['orient'] == 'left'"; "__pt['orient'] == 'right'"; "__pt['orient'] == 'middle'"; "'invert' not in self.info_plot or not self.info_plot['invert']"; "self.info_plot['invert']"; "0 <= __pt['rot_angle'] <= 45 / 180 * np.pi or 135 / 180 * np.pi <= __pt['rot_angle'] <=..."; "draw"];
 f_body := block [Use [4]; Choice 2 (block [Use [15]; Def [5]; Use [1;5]; Def [6]; Use [16;6]; Def [7]; Use
 [1]; Choice 3 Skip (block [Use [7]; Raise]); Use [1;6]; Choice 4 Skip (block [Use [7]; Raise]); Use
 [1;5;17]; Choice 5 (Use [5]) (block [Use [5]; Choice 6 (Use [17;5]) (block [Use [5]; Choice 7 (Use
 [17;5]) Skip])]); Use [5;1;17]; Choice 5 (Use [5]) (block [Use [5]; Choice 7 (Use [5]) (block [Use
 [5]; Choice 6 (Use [5]) Skip])]); Use [18;1]; Def [8]; Use [8;1]; Choice 1 Skip (Use [1]); Choice 8
 (block [Use [8]; Def [9]; Use [8]; Def [10]]) (block [Use [1]; Choice 9 (block [Use [8]; Def [9];
 Use [8]; Def [10]]) Skip]); Use [5;1;9;10;17]; Choice 1 Skip (block [Use [17;5]; Choice 1 Skip (Use
 [5;17])]); Def [11]; Use [19;1;17;11;5]]) Skip; Use [4]; Choice 11 (block [Use [2;1]; Def [12]; Use
 [16;1;3]; Def [13]; Use [16;1;3]; Def [14]; Use [2;12;1;13;14]]) Skip] |}.

(* multisim/parts/part_modules/__init__.py, line 1: <module> *)
Definition f_parts_part_modules___init____module : func := {|
 f_file := "parts/part_modules/__init__.py"; f_name := "<module>"; f_line := 1;
 f_params := []; f_closure := [];
 f_locals := [];
 f_outer := [];
 f_conds := ["*"];
 f_body := Skip |}.

(* multisim/parts/part_modules/chp_with_fluegas_hex.py, line 1: <module> *)
Definition f_parts_part_modules_chp_with_fluegas_hex__module : func := {|
 f_file := "parts/part_modules/chp_with_fluegas_hex.py"; f_name := "<module>"; f_line := 1;
 f_params := []; f_closure := [];
 f_locals := ["np"; "_ap"; "_ut"; "add_chp_with_fghex"];
 f_outer := ["dict"];
 f_conds := ["*"];
 f_body := block [Def [1]; Def [2]; Def [3]; Use [5]; Def [4]] |}.

(* multisim/parts/part_modules/chp_with_fluegas_hex.py, line 13: add_chp_with_fghex *)
Definition f_parts_part_modules_chp_with_fluegas_hex__add_chp_with_fghex : func := {|
 f_file := "parts/part_modules/chp_with_fluegas_hex.py"; f_name := "add_chp_with_fghex"; f_line := 13;
 f_params := ["simenv"; "databases"; "number_rf_ports"; "chp_ff_connection"; "chp_ntrf_connection"; "chp_htrfA_connection"; "chp_htrfB_connection"; "segment_name"; "chp_kwds"; "chp_ff_pump_ulim"; "chp_ctrl"; "fluegashex_theta_out_water"; "ht_rf_theta_mix"; "adjust_pipes"; "Tamb"; "ctrl_chp_pump_by_ts"; "ctrl_hex_by_ts"; "ctrl_htrf_by_ts"; "fluegas_hex_kwds"; "kwds"]; f_closure := [];
 f_locals := ["ps_dn25"; "ps_dn32"; "chp_power_factor"; "pspecs"; "c_pel_chp_ctrld_part"];
 f_outer := ["isinstance"; "int"; "_ut"; "_ap"; "np"; "ValueError"; "print"];
 f_conds := ["*"; "isinstance(number_rf_ports, int)"; "adjust_pipes"; "number_rf_ports == 3"; "number_rf_ports == 2"; "number_rf_ports == 1"; "number_rf_ports in (2, 3)"; "not ctrl_chp_pump_by_ts"; "not ctrl_hex_by_ts"; "not ctrl_htrf_by_ts"];
 f_body := block [Use [26;3;27]; Choice 2 Skip (Raise); Def [21]; Def [22]; Use [9]; Def [23]; Use
 [22;23;21;9]; Def [24]; Use [9;14]; Choice 3 (block [Use [28;24]; Def [24]]) (block [Use [24]; Def
 [24]]); Use [1;29;8;9;15;24;30;10;3]; Choice 4 (Use [1;29;8;24;30;15;19;4;5;6;7]) (block [Use [3];
 Choice 5 (Use [1;29;8;24;30;15;19;4;5;6]) (block [Use [3]; Choice 6 (Use [1;29;8;24;30;15;19;4;5])
 (block [Use [31]; Raise])])]); Use [3]; Def [25]; Use [1;29;8;25;11;16]; Choice 8 (Use [1;29;8;9])
 (Use [1;29;8;9]); Use [17]; Choice 9 (Use [1;29;8;12]) (Use [1;29;8;12]); Use [32;18]; Choice 10
 (Use [1;29;8;13]) (Use [1;29;8;13])] |}.

(* multisim/parts/part_modules/consumers.py, line 1: <module> *)
Definition f_parts_part_modules_consumers__module : func := {|
 f_file := "parts/part_modules/consumers.py"; f_name := "<module>"; f_line := 1;
 f_params := []; f_closure := [];
 f_locals := ["np"; "pd"; "_pf"; "_msp"; "_ut"; "lowex_phwrc"; "speicherladesys"; "space_heating"];
 f_outer := ["round"];
 f_conds := ["*"];
 f_body := block [Def [1]; Def [2]; Def [3]; Def [4]; Def [5]; Def [6]; Use [9]; Def [7]; Def [8]] |}.

(* multisim/parts/part_modules/consumers.py, line 15: lowex_phwrc *)
Definition f_parts_part_modules_consumers__lowex_phwrc : func := {|
 f_file := "parts/part_modules/consumers.py"; f_name := "lowex_phwrc"; f_line := 15;
 f_params := ["simenv"; "lhs"; "phw_dmd"; "rc_flow"; "segment_name"; "adjust_pipes"; "ff_connector"; "rf_connector"; "rc_connector"; "Tamb"; "databases"; "calculations_df"]; f_closure := [];
 f_locals := ["hex_phw_plates"; "hex_rc_plates"; "passes_hex_phw"; "passes_hex_rc"; "is_even"; "even_no"; "theta_phw"; "theta_rc"; "theta_cw"; "theta_rc_rf"; "sp_theta_mix"; "ps_dn25"; "ps_dn32"; "ps_dn50"; "phw_flow_factor"; "rc_flow_factor"; "pspecs"];
 f_outer := ["int"; "round"; "_ut"; "_msp"; "np"; "list"; "_pf"];
 f_conds := ["*"; "('part' not in ff_connector and 'part' not in rf_connector and ('part' not in rc_connec..."; "passes_hex_phw > 1"; "not is_even"; "passes_hex_rc > 1"; "adjust_pipes"; "calculations_df is not None"];
 f_body := block [Use [7]; Choice 1 Skip (block [Use [8]; Choice 1 Skip (Use [9])]); Choice 1 Skip (block [Use
 [7]; Choice 1 Skip (block [Use [8]; Choice 1 Skip (Use [9])])]); Choice 2 Skip (Raise); Use
 [30;31;2]; Def [13]; Use [30;31;4]; Def [14]; Def [15]; Def [16]; Use [15]; Choice 3 (block [Use
 [13;15]; Def [17]; Loop false (block [Use [17;13]; Def [13]; Use [13;15]; Def [18]; Use [18]; Def
 [17]]) (Use [17])]) (block [Use [13]; Def [17]; Use [17]; Choice 4 (Use [13]) (Use [13]); Def
 [13]]); Use [16]; Choice 5 (block [Use [14;16]; Def [17]; Loop false (block [Use [17;14]; Def [14];
 Use [14;16]; Def [18]; Use [18]; Def [17]]) (Use [17])]) (block [Use [14]; Def [17]; Use [17];
 Choice 4 (Use [14]) (Use [14]); Def [14]]); Def [19]; Def [20]; Def [21]; Def [22]; Def [23]; Def
 [24]; Def [25]; Def [26]; Use [3]; Def [27]; Use [4]; Def [28]; Use [25;27;28;24;26]; Def [29]; Use
 [6]; Choice 6 (block [Use [32;29]; Def [29]]) (block [Use [29]; Def [29]]); Use [32]; Def [11]; Use
 [1;33;5;29;10;34;23;35;7;3;27;4;22;19;20;28;15;13;11;36;16;14;9;21;8;12]; Choice 7 (block [Use
 [13;12;5;14;27;28;19;20;21;22;23]; Return]) Skip] |}.

(* multisim/parts/part_modules/consumers.py, line 605: speicherladesys *)
Definition f_parts_part_modules_consumers__speicherladesys : func := {|
 f_file := "parts/part_modules/consumers.py"; f_name := "speicherladesys"; f_line := 605;
 f_params := ["simenv"; "lhs"; "phw_dmd"; "rc_flow"; "theta_ff_phwstore"; "store_gp"; "store_dia"; "store_shell"; "store_init"; "store_ports"; "segment_name"; "adjust_pipes"; "ff_connector"; "rf_connector"; "Tamb"; "databases"; "calculations_df"]; f_closure := [];
 f_locals := ["hex_store_plates"; "passes_hex_store"; "is_even"; "even_no"; "theta_phw"; "theta_rc"; "theta_cw"; "sp_theta_mix_ff_store"; "theta_ff_diff"; "theta_chrg_diff"; "store_control_idx"; "sp_store_control"; "phw_mean"; "rc_mean"; "phw_flow_factor"; "rc_flow_factor"; "mean_phwrc_power"; "mean_dmd_flow_factor"; "pump_ff_hex_max"; "pump_store_max"; "pump_ff_hex_mean"; "pump_store_mean"; "ps_dn25"; "ps_dn32"; "ps_dn50"; "pspecs"];
 f_outer := ["int"; "round"; "_ut"; "_msp"; "np"; "list"; "_pf"];
 f_conds := ["*"; "('part' not in ff_connector and 'part' not in rf_connector) and ('port' not in ff_conne..."; "passes_hex_store > 1"; "not is_even"; "adjust_pipes"; "calculations_df is not None"];
 f_body := block [Use [13]; Choice 1 Skip (Use [14]); Choice 1 Skip (block [Use [13]; Choice 1 Skip (Use
 [14])]); Choice 2 Skip (Raise); Use [44;45;2]; Def [18]; Def [19]; Use [19]; Choice 3 (block [Use
 [18;19]; Def [20]; Loop false (block [Use [20;18]; Def [18]; Use [18;19]; Def [21]; Use [21]; Def
 [20]]) (Use [20])]) (block [Use [18]; Def [20]; Use [20]; Choice 4 (Use [18]) (Use [18]); Def
 [18]]); Def [22]; Def [23]; Def [24]; Use [5]; Def [25]; Def [26]; Def [27]; Use [44;6]; Def [28];
 Use [22;27]; Def [29]; Use [3;4]; Def [30]; Def [31]; Use [30]; Def [32]; Use [31]; Def [33]; Use
 [30;22;24;31;23]; Def [34]; Use [34]; Def [35]; Use [34;5]; Def [36]; Use [34;22;26]; Def [37]; Use
 [34;5]; Def [38]; Use [34;22;26]; Def [39]; Def [40]; Def [41]; Def [42]; Use [40;35;41;42;32;33];
 Def [43]; Use [12]; Choice 5 (block [Use [46;43]; Def [43]]) (block [Use [43]; Def [43]]); Use [46];
 Def [16]; Use
 [1;47;11;2;6;7;8;10;9;15;43;48;25;49;13;38;36;14;19;18;16;50;22;26;39;37;23;4;24;3;28;29;17]; Choice
 6 (block [Use [18;17;11;32;33;35;22;23;24;25;36;26;37;28;29;45;10;2;6]; Return]) Skip] |}.

(* multisim/parts/part_modules/consumers.py, line 1193: space_heating *)
Definition f_parts_part_modules_consumers__space_heating : func := {|
 f_file := "parts/part_modules/consumers.py"; f_name := "space_heating"; f_line := 1193;
 f_params := ["simenv"; "lhs"; "space_heating"; "aux_gasboiler_pth"; "aux_gasboiler_theta_ff"; "configuration"; "segment_name"; "adjust_pipes"; "tes_ff_connector"; "tes_rf_connector"; "Tamb"; "databases"; "calculations_df"]; f_closure := [];
 f_locals := ["ps_dn32"; "ps_dn40"; "ps_dn50"; "ps_dn125"; "sh_dmd"; "sh_theta_ff"; "sh_theta_rf"; "gasb_sh_pth"; "gasb_sh_sp"; "sp_theta_gasb"; "sh_theta_ff_init"; "sh_theta_rf_init"; "mixing_valve_delta"; "sp_theta_tesrf_init"; "tes_theta_ff_ctrl_init"; "sh_theta_ff_max"; "sh_theta_ff_min"; "sh_theta_ff_mean"; "sh_theta_rf_max"; "sh_theta_rf_min"; "sh_theta_rf_mean"; "sh_power_factor"; "gasb_factor"; "pspecs"; "tesgb_3wv_min_open"; "aux_gasb_cells"; "aux_gasb_heated_cells"; "last_heated_cell"; "kp_sh_gasboiler"];
 f_outer := ["isinstance"; "pd"; "np"; "_ut"; "_msp"; "list"; "NotImplementedError"; "max"];
 f_conds := ["*"; "isinstance(space_heating, pd.DataFrame)"; "isinstance(sp_theta_gasb, pd.Series)"; "sp_theta_gasb >= 70.0"; "isinstance(sh_theta_ff, pd.Series)"; "isinstance(sh_theta_rf, pd.Series)"; "adjust_pipes"; "configuration == '4w_valve'"; "calculations_df is not None"];
 f_body := block [Def [14]; Def [15]; Def [16]; Def [17]; Use [43;3;44]; Choice 2 Skip (Raise); Use [3]; Def
 [18]; Use [3]; Def [19]; Use [3]; Def [20]; Use [4]; Def [21]; Use [5]; Def [22]; Use [19]; Def
 [23]; Use [43;23;44]; Choice 3 (block [Use [23]; Def [23]]) (block [Use [23]; Choice 4 (Use [23])
 Skip; Def [23]]); Use [43;19;44]; Choice 5 (block [Use [19]; Def [24]]) (block [Use [19]; Def
 [24]]); Use [43;20;44]; Choice 6 (block [Use [20]; Def [25]]) (block [Use [20]; Def [25]]); Def
 [26]; Use [24]; Def [27]; Use [24;26]; Def [28]; Use [45;19]; Def [29]; Def [30]; Use [45;19]; Def
 [31]; Use [45;20]; Def [32]; Def [33]; Use [45;20]; Def [34]; Use [18;29;32]; Def [35]; Use
 [4;22;34]; Def [36]; Use [15;35;14;16;36;17]; Def [37]; Use [8]; Choice 7 (block [Use [46;37]; Def
 [37]]) (block [Use [37]; Def [37]]); Use [1;47;7;37;24;11;18;19;25;20;48;10;6]; Choice 8 (block [Def
 [38]; Use [1;47;7;37;11;45;28;24;38;48;9]]) (block [Use [49]; Raise]); Use [1;47;7;37;11;45]; Def
 [39]; Use [39]; Def [40]; Use [50;40]; Def [41]; Use [1;47;7;37;11;45;21;27;38;24;22;31]; Def [42];
 Use [1;47;7;41;22;42;21;13]; Choice 9 (block [Use [35;13;7;36;29;32;31;34;30;33;22]; Return]) Skip] |}.

(* multisim/parts/part_modules/suppliers.py, line 1: <module> *)
Definition f_parts_part_modules_suppliers__module : func := {|
 f_file := "parts/part_modules/suppliers.py"; f_name := "<module>"; f_line := 1;
 f_params := []; f_closure := [];
 f_locals := ["np"; "msp"; "ut"; "chp_with_fghex"; "gasboiler"];
 f_outer := ["dict"];
 f_conds := ["*"];
 f_body := block [Def [1]; Def [2]; Def [3]; Use [6]; Def [4]; Use [6]; Def [5]] |}.

(* multisim/parts/part_modules/suppliers.py, line 13: chp_with_fghex *)
Definition f_parts_part_modules_suppliers__chp_with_fghex : func := {|
 f_file := "parts/part_modules/suppliers.py"; f_name := "chp_with_fghex"; f_line := 13;
 f_params := ["simenv"; "databases"; "number_rf_ports"; "chp_ff_connection"; "chp_ntrf_connection"; "chp_htrfA_connection"; "chp_htrfB_connection"; "segment_name"; "chp_kwds"; "chp_ctrl"; "fluegashex_theta_out_water"; "ht_rf_theta_mix"; "adjust_pipes"; "Tamb"; "ctrl_chp_pump_by_ts"; "ctrl_hex_by_ts"; "ctrl_htrf_by_ts"; "fluegas_hex_kwds"; "calculations_df"; "kwds"]; f_closure := [];
 f_locals := ["tes_cap_min"; "tes_cap_max"; "chp_ff_pump_ulim"; "ps_dn25"; "ps_dn32"; "ps_dn40"; "ps_dn80"; "chp_power_factor"; "pspecs"; "chp_pth_core"; "chp_eta_pth"; "chp_pgas_lhv"; "chp_pgas_hhv"; "chp_pth_est"; "c_pel_chp_ctrld_part"];
 f_outer := ["isinstance"; "int"; "float"; "ut"; "msp"; "np"; "ValueError"];
 f_conds := ["*"; "isinstance(number_rf_ports, (int, float))"; "chp_ctrl['chp_mode'] in ('heat', 'el', 'el_mod')"; "chp_ctrl['chp_mode'] == 'el_mod'"; "'tes_cap_mpred' in chp_ctrl and 'opt_profiles' in chp_ctrl and ('ctrl_profiles' in chp_..."; "'pipe_specs' in chp_kwds"; "adjust_pipes"; "number_rf_ports != 0.5"; "number_rf_ports == 3"; "number_rf_ports == 2"; "number_rf_ports == 1"; "number_rf_ports == 0.5"; "chp_ctrl['chp_mode'] == 'heat'"; "number_rf_ports in (2, 3)"; "not ctrl_chp_pump_by_ts"; "not ctrl_hex_by_ts"; "not ctrl_htrf_by_ts"; "calculations_df is not None"];
 f_body := block [Use [36;3;37;38]; Choice 2 Skip (Raise); Use [10]; Choice 3 Skip (Raise); Use [10]; Choice 4
 (block [Use [10]; Choice 1 Skip (block [Use [10]; Choice 1 Skip (Use [10])]); Choice 5 Skip (Raise);
 Use [10]; Def [21]; Def [22]]) Skip; Use [9;10]; Def [23]; Def [24]; Def [25]; Def [26]; Def [27];
 Use [9;10]; Def [28]; Use [26;28;24;25]; Def [29]; Use [9]; Choice 6 (Use [9;28;29]) (Use
 [27;28;29]); Use [13]; Choice 7 (block [Use [39;29]; Def [29]]) (block [Use [29]; Def [29]]); Use
 [9]; Def [30]; Use [9]; Def [31]; Use [9]; Def [32]; Use [32]; Def [33]; Use [3]; Choice 8 (block
 [Use [1;40;8;9;14;29;30;33;31]; Def [34]]) (block [Use [1;40;8;9;14;29;30]; Def [34]]); Use
 [1;40;8;29;41;9;14;23;3]; Choice 9 (Use [1;40;8;29;41;14;18;4;5;6;7]) (block [Use [3]; Choice 10
 (Use [1;40;8;29;41;14;18;4;5;6]) (block [Use [3]; Choice 11 (Use [1;40;8;29;41;14;18;4;5]) (block
 [Use [3]; Choice 12 (Use [1;40;8;29;41;14;4;5]) (block [Use [42]; Raise])])])]); Use [10]; Choice 13
 (block [Use [3]; Def [35]; Use [1;40;8;35;10]]) (block [Use [10]; Choice 4 (block [Use [3]; Def
 [35]; Use [1;40;8;35;10;9;34;21;22]]) Skip]); Use [15]; Choice 15 (Use [1;40;8;9]) (Use [1;40;8;9]);
 Use [3]; Choice 14 (block [Use [16]; Choice 16 (Use [1;40;8;11]) (Use [1;40;8;11])]) Skip; Use [3];
 Choice 9 (block [Use [17]; Choice 17 (Use [1;40;8;12]) (Use [1;40;8;12])]) Skip; Use [19]; Choice 18
 (block [Use [23;19;8;28]; Return]) Skip] |}.

(* multisim/parts/part_modules/suppliers.py, line 939: gasboiler *)
Definition f_parts_part_modules_suppliers__gasboiler : func := {|
 f_file := "parts/part_modules/suppliers.py"; f_name := "gasboiler"; f_line := 939;
 f_params := ["simenv"; "gasb_pth"; "lhs"; "rc_flow"; "phw_dmd"; "space_heating"; "n_rf_ports"; "segment_name"; "adjust_pipes"; "ff_connector"; "ltrf_connector"; "htrf_connector"; "gasboiler_ctrl"; "Tamb"; "calculations_df"]; f_closure := [];
 f_locals := ["ps_dn50"; "ps_dn125"; "gasb_factor"; "pspecs"; "pmp_flow_lim"];
 f_outer := ["ut"; "msp"; "np"; "list"; "NotImplementedError"; "ValueError"];
 f_conds := ["*"; "adjust_pipes"; "n_rf_ports == 1"; "n_rf_ports == 2"; "calculations_df is not None"];
 f_body := block [Def [16]; Def [17]; Use [2;13]; Def [18]; Use [16;18;17]; Def [19]; Use [9]; Choice 2 (block
 [Use [21;19]; Def [19]]) (block [Use [19]; Def [19]]); Use [2;13]; Def [20]; Use
 [1;22;8;19;14;23;13;20;24;10;2;7]; Choice 3 (Use [1;22;8;19;14;23;24;11]) (block [Use [7]; Choice 4
 (block [Use [25]; Raise]) (block [Use [26]; Raise])]); Use [1;22;8;2;13;15]; Choice 5 (block [Use
 [20;15;8;18]; Return]) Skip] |}.

(* multisim/parts/pipe.py, line 1: <module> *)
Definition f_parts_pipe__module : func := {|
 f_file := "parts/pipe.py"; f_name := "<module>"; f_line := 1;
 f_params := []; f_closure := [];
 f_locals := ["np"; "SimEnv"; "_pf"; "Pipe"];
 f_outer := [];
 f_conds := ["*"];
 f_body := block [Def [1]; Def [2]; Def [3]; Use [2]; Def [4]] |}.

(* multisim/parts/pipe.py, line 13: Pipe.<class> *)
Definition f_parts_pipe__Pipe__class_ : func := {|
 f_file := "parts/pipe.py"; f_name := "Pipe.<class>"; f_line := 13;
 f_params := []; f_closure := [];
 f_locals := ["__init__"; "init_part"; "_reset_to_init_cond"; "_get_flow_routine"; "get_diff"];
 f_outer := [];
 f_conds := ["*"];
 f_body := block [Def [1]; Def [2]; Def [3]; Def [4]; Def [5]] |}.

(* multisim/parts/pipe.py, line 45: Pipe.__init__ *)
Definition f_parts_pipe__Pipe___init__ : func := {|
 f_file := "parts/pipe.py"; f_name := "Pipe.__init__"; f_line := 45;
 f_params := ["self"; "name"; "master_cls"; "kwargs"]; f_closure := [];
 f_locals := ["base_err"; "arg_err"; "Tshp"; "Tpshp"; "dummy_var"; "i"];
 f_outer := ["str"; "isinstance"; "int"; "float"; "np"; "tuple"; "list"; "range"; "hasattr"; "dict"; "_pf"];
 f_conds := ["*"; "'constr_type' not in kwargs"; "isinstance(kwargs['length'], (int, float)) and kwargs['length'] > 0"; "isinstance(kwargs['grid_points'], int) and kwargs['grid_points'] > 0"; "self.dm_invariant"; "not hasattr(self, 'info_topology')"];
 f_body := block [Use [3;1;4]; Choice 2 (Use [1]) (Use [4;1]); Use [1;2;4;11]; Def [5]; Def [6]; Use
 [5;1;6;12;4;13;14]; Choice 1 Skip (Use [4]); Choice 3 Skip (block [Use [1]; Raise]); Use
 [14;4;1;12;13]; Choice 1 Skip (Use [4]); Choice 4 Skip (block [Use [1]; Raise]); Use [4;1;2;15]; Def
 [7]; Use [1;15]; Def [8]; Use [15;7;1;8;16;17]; Def [9]; Use [18;1]; Loop false (block [Def [10];
 Use [1;9;10]]) Skip; Use [16;9;1;15;8;17;13]; Choice 5 (Use [15;1]) Skip; Use [1;19]; Choice 6 (Use
 [20;1]) Skip; Use [1;21]] |}.

(* multisim/parts/pipe.py, line 300: Pipe.init_part *)
Definition f_parts_pipe__Pipe_init_part : func := {|
 f_file := "parts/pipe.py"; f_name := "Pipe.init_part"; f_line := 300;
 f_params := ["self"; "kwds"]; f_closure := [];
 f_locals := ["err_str"];
 f_outer := ["isinstance"; "int"; "float"; "np"; "_pf"];
 f_conds := ["*"; "isinstance(self._s_ins, (int, float)) and self._s_ins >= 0"; "isinstance(self._lam_ins, (int, float)) and self._lam_ins >= 0"; "'all' in kwds['pipe_specs']"; "isinstance(self._T_init, (float, int, np.ndarray))"; "isinstance(self._T_init, (int, float))"; "self._T_init.shape == self.T.shape"];
 f_body := block [Use [1;2;4;5;6]; Choice 1 Skip (Use [1]); Choice 2 Skip (block [Use [1]; Raise]); Use
 [6;1;2;4;5]; Choice 1 Skip (Use [1]); Choice 3 Skip (block [Use [1]; Raise]); Use [6;1;2]; Def [3];
 Use [2]; Choice 4 Skip (block [Use [3]; Raise]); Use [2;1;4;6;5;7]; Choice 5 Skip (block [Use [1];
 Raise]); Use [4;1;5;6]; Choice 6 (Use [6;1]) (block [Use [1]; Choice 7 Skip (block [Use [1];
 Raise]); Use [1]]); Use [6;1;7;2;8]] |}.

(* multisim/parts/pipe.py, line 499: Pipe._reset_to_init_cond *)
Definition f_parts_pipe__Pipe__reset_to_init_cond : func := {|
 f_file := "parts/pipe.py"; f_name := "Pipe._reset_to_init_cond"; f_line := 499;
 f_params := ["self"]; f_closure := [];
 f_locals := [];
 f_outer := [];
 f_conds := ["*"];
 f_body := Use [1] |}.

(* multisim/parts/pipe.py, line 503: Pipe._get_flow_routine *)
Definition f_parts_pipe__Pipe__get_flow_routine : func := {|
 f_file := "parts/pipe.py"; f_name := "Pipe._get_flow_routine"; f_line := 503;
 f_params := ["self"; "port"; "parent_port"; "subnet"; "kwargs"]; f_closure := [];
 f_locals := ["trgt_idx"; "src_part"; "src_port"; "src_idx"; "alg_sign"; "operation_id"; "op_routine"; "net"; "operation_routine"; "source_ports"];
 f_outer := ["len"; "dict"];
 f_conds := ["*"; "self._cnt_open_prts == 2"; "alg_sign == 'positive'"; "operation_id == -99"; "self._cnt_open_prts == 0"; "subnet"; "operation_id == -1"; "operation_id == 1"; "operation_id == 0"; "operation_id == 3"; "src_part is not None"; "port not in self.info_topology"];
 f_body := block [Use [1;2;3]; Def [6]; Def [7]; Def [8]; Def [9]; Def [10]; Use [1]; Choice 2 (block [Use
 [10]; Choice 3 (Def [11]) (Def [11]); Use [11]; Choice 4 (block [Use [1;7;9;6;11]; Def [12]]) (block
 [Use [1;6;11;7;9]; Def [12]])]) (block [Def [11]; Def [12]]); Use [1;2;16]; Choice 5 (Use [1]) Skip;
 Use [4]; Def [13]; Use [11]; Choice 7 Skip (block [Use [11]; Choice 8 Skip (block [Use [11]; Choice
 9 Skip (Use [11])])]); Def [14]; Use [7]; Choice 11 (Use [7]) (Use [1]); Def [7]; Use [8]; Def [15];
 Use [2;1]; Choice 12 (Use [17;1;2]) Skip; Use [1;2;13;14;7;15;5;12]; Return] |}.

(* multisim/parts/pipe.py, line 641: Pipe.get_diff *)
Definition f_parts_pipe__Pipe_get_diff : func := {|
 f_file := "parts/pipe.py"; f_name := "Pipe.get_diff"; f_line := 641;
 f_params := ["self"; "timestep"]; f_closure := [];
 f_locals := [];
 f_outer := ["_pf"];
 f_conds := ["*"];
 f_body := block [Use [3;1;2]; Return] |}.

(* multisim/parts/pipe2D.py, line 1: <module> *)
Definition f_parts_pipe2D__module : func := {|
 f_file := "parts/pipe2D.py"; f_name := "<module>"; f_line := 1;
 f_params := []; f_closure := [];
 f_locals := ["np"; "SimEnv"; "_pf"; "Pipe2D"];
 f_outer := [];
 f_conds := ["*"];
 f_body := block [Def [1]; Def [2]; Def [3]; Use [2]; Def [4]] |}.

(* multisim/parts/pipe2D.py, line 14: Pipe2D.<class> *)
Definition f_parts_pipe2D__Pipe2D__class_ : func := {|
 f_file := "parts/pipe2D.py"; f_name := "Pipe2D.<class>"; f_line := 14;
 f_params := []; f_closure := [];
 f_locals := ["__init__"; "init_part"; "_get_flow_routine"; "get_diff"];
 f_outer := [];
 f_conds := ["*"];
 f_body := block [Def [1]; Def [2]; Def [3]; Def [4]] |}.

(* multisim/parts/pipe2D.py, line 46: Pipe2D.__init__ *)
Definition f_parts_pipe2D__Pipe2D___init__ : func := {|
 f_file := "parts/pipe2D.py"; f_name := "Pipe2D.__init__"; f_line := 46;
 f_params := ["self"; "name"; "master_cls"; "kwargs"]; f_closure := [];
 f_locals := ["base_err"; "arg_err"; "err_str"; "dummy_var"; "i"];
 f_outer := ["print"; "str"; "isinstance"; "int"; "float"; "type"; "np"; "tuple"; "list"; "range"; "hasattr"; "dict"];
 f_conds := ["*"; "kwargs"; "'length' in kwargs and isinstance(kwargs['length'], (int, float)) and (kwargs['length']..."; "'grid_points' in kwargs and type(kwargs['grid_points']) == int and (kwargs['grid_points..."; "not hasattr(self, 'info_topology')"];
 f_body := block [Use [10;1;11;2]; Def [5]; Def [6]; Use [5;1;6;2]; Def [7]; Use [4]; Choice 2 Skip (block [Use
 [7]; Raise]); Def [7]; Use [4]; Choice 1 Skip (block [Use [12;4;13;14]; Choice 1 Skip (Use [4])]);
 Choice 3 Skip (block [Use [7]; Raise]); Use [4;1;2]; Def [7]; Use [4]; Choice 1 Skip (block [Use
 [15;4;13]; Choice 1 Skip (Use [4])]); Choice 4 Skip (block [Use [7]; Raise]); Use
 [4;1;2;3;16;17;18]; Def [8]; Use [19;1]; Loop false (block [Def [9]; Use [1;8;9]]) Skip; Use
 [17;8;1;16;18;13;20]; Choice 5 (Use [21;1]) Skip; Use [1]] |}.

(* multisim/parts/pipe2D.py, line 307: Pipe2D.init_part *)
Definition f_parts_pipe2D__Pipe2D_init_part : func := {|
 f_file := "parts/pipe2D.py"; f_name := "Pipe2D.init_part"; f_line := 307;
 f_params := ["self"; "kwargs"]; f_closure := [];
 f_locals := ["err_str"];
 f_outer := ["str"; "isinstance"; "float"; "int"; "np"; "type"; "_pf"];
 f_conds := ["*"; "kwargs"; "'insulation_thickness' in kwargs"; "'insulation_lambda' in kwargs"; "'material' in kwargs and 'pipe_specs' in kwargs"; "'all' in kwargs['pipe_specs']"; "'T_init' in kwargs"; "isinstance(self._T_init, (float, int, np.ndarray))"; "type(self._T_init) != np.ndarray"; "self._T_init.shape == self.T.shape"; "self.dm_invariant"];
 f_body := block [Use [1]; Def [3]; Use [2]; Choice 2 Skip (block [Use [3]; Raise]); Def [3]; Use [2]; Choice 3
 Skip (block [Use [3]; Raise]); Use [2;1]; Def [3]; Use [2]; Choice 4 Skip (block [Use [3]; Raise]);
 Use [2;1]; Def [3]; Use [2]; Choice 1 Skip (Use [2]); Choice 5 Skip (block [Use [3]; Raise]); Use
 [1;2]; Def [3]; Use [2]; Choice 6 Skip (block [Use [3]; Raise]); Use [1;4]; Def [3]; Use [2]; Choice
 7 Skip (block [Use [3]; Raise]); Use [2;1;5;6;7;8]; Choice 8 Skip (block [Use [3]; Raise]); Use
 [9;1;8]; Choice 9 (Use [1]) (block [Use [1]; Choice 10 Skip (block [Use [3]; Raise]); Use [1]]); Use
 [1;8;2;10]; Choice 11 (Use [8;1]) Skip; Use [1]] |}.

(* multisim/parts/pipe2D.py, line 475: Pipe2D._get_flow_routine *)
Definition f_parts_pipe2D__Pipe2D__get_flow_routine : func := {|
 f_file := "parts/pipe2D.py"; f_name := "Pipe2D._get_flow_routine"; f_line := 475;
 f_params := ["self"; "port"; "parent_port"; "subnet"; "kwargs"]; f_closure := [];
 f_locals := ["trgt_idx"; "src_part"; "src_port"; "src_idx"; "alg_sign"; "operation_id"; "op_routine"; "net"; "operation_routine"; "source_ports"];
 f_outer := ["len"; "dict"];
 f_conds := ["*"; "self._cnt_open_prts == 2"; "alg_sign == 'positive'"; "operation_id == -99"; "self._cnt_open_prts == 0"; "subnet"; "operation_id == -1"; "operation_id == 1"; "operation_id == 0"; "operation_id == 3"; "src_part is not None"; "port not in self.info_topology"];
 f_body := block [Use [1;2;3]; Def [6]; Def [7]; Def [8]; Def [9]; Def [10]; Use [1]; Choice 2 (block [Use
 [10]; Choice 3 (Def [11]) (Def [11]); Use [11]; Choice 4 (block [Use [1;7;9;6;11]; Def [12]]) (block
 [Use [1;6;11;7;9]; Def [12]])]) (block [Def [11]; Def [12]]); Use [1;2;16]; Choice 5 (Use [1]) Skip;
 Use [4]; Def [13]; Use [11]; Choice 7 Skip (block [Use [11]; Choice 8 Skip (block [Use [11]; Choice
 9 Skip (Use [11])])]); Def [14]; Use [7]; Choice 11 (Use [7]) (Use [1]); Def [7]; Use [8]; Def [15];
 Use [2;1]; Choice 12 (Use [17;1;2]) Skip; Use [1;2;13;14;7;15;5;12]; Return] |}.

(* multisim/parts/pipe2D.py, line 613: Pipe2D.get_diff *)
Definition f_parts_pipe2D__Pipe2D_get_diff : func := {|
 f_file := "parts/pipe2D.py"; f_name := "Pipe2D.get_diff"; f_line := 613;
 f_params := ["self"; "timestep"]; f_closure := [];
 f_locals := ["rhocp"; "ui"; "vN_diff_max"; "vN_diff_mult"; "vN_dm_mult"; "vN_div_max"; "vN_max_step"];
 f_outer := ["_pf"; "abs"; "max"; "print"; "str"; "ValueError"];
 f_conds := ["*"; "vN_div_max > 1"; "self._models._check_vN"; "self._models._vN_max_step > vN_max_step"; "self._models._max_speed"];
 f_body := block [Use [1;10]; Def [3]; Use [1;3]; Def [4]; Use [3;1;2;11]; Def [5]; Use [5]; Def [6]; Use [1];
 Def [7]; Use [12;6;7]; Def [8]; Use [8]; Choice 2 (block [Use [1]; Choice 3 (block [Use [1;2;8]; Def
 [9]; Use [1;9]; Choice 4 (Use [9;1]) Skip]) (block [Use [13;14;1;15]; Raise])]) (block [Use [1];
 Choice 5 (block [Use [15]; Raise; Use [2;8]; Def [2]]) Skip]); Use [1;4]; Return] |}.

(* multisim/parts/pipe_branched.py, line 1: <module> *)
Definition f_parts_pipe_branched__module : func := {|
 f_file := "parts/pipe_branched.py"; f_name := "<module>"; f_line := 1;
 f_params := []; f_closure := [];
 f_locals := ["np"; "Pipe"; "pipe1D_branched_diff"; "PipeBranched"];
 f_outer := [];
 f_conds := ["*"];
 f_body := block [Def [1]; Def [2]; Def [3]; Use [2]; Def [4]] |}.

(* multisim/parts/pipe_branched.py, line 13: PipeBranched.<class> *)
Definition f_parts_pipe_branched__PipeBranched__class_ : func := {|
 f_file := "parts/pipe_branched.py"; f_name := "PipeBranched.<class>"; f_line := 13;
 f_params := []; f_closure := [];
 f_locals := ["__init__"; "init_part"; "_get_flow_routine"; "get_diff"];
 f_outer := [];
 f_conds := ["*"];
 f_body := block [Def [1]; Def [2]; Def [3]; Def [4]] |}.

(* multisim/parts/pipe_branched.py, line 45: PipeBranched.__init__ *)
Definition f_parts_pipe_branched__PipeBranched___init__ : func := {|
 f_file := "parts/pipe_branched.py"; f_name := "PipeBranched.__init__"; f_line := 45;
 f_params := ["self"; "name"; "master_cls"; "kwargs"]; f_closure := [];
 f_locals := ["dummy_var"; "i"; "Tpshp"];
 f_outer := ["super"; "np"; "tuple"; "list"; "range"];
 f_conds := ["*"];
 f_body := block [Use [1;8;2;3;4;9;10;11]; Def [5]; Use [12;1]; Loop false (block [Def [6]; Use [1;5;6]]) Skip;
 Use [10;5;1;9]; Def [7]; Use [9;7;1]] |}.

(* multisim/parts/pipe_branched.py, line 113: PipeBranched.init_part *)
Definition f_parts_pipe_branched__PipeBranched_init_part : func := {|
 f_file := "parts/pipe_branched.py"; f_name := "PipeBranched.init_part"; f_line := 113;
 f_params := ["self"; "kwargs"]; f_closure := [];
 f_locals := [];
 f_outer := ["super"];
 f_conds := ["*"];
 f_body := Use [3;2;1] |}.

(* multisim/parts/pipe_branched.py, line 120: PipeBranched._get_flow_routine *)
Definition f_parts_pipe_branched__PipeBranched__get_flow_routine : func := {|
 f_file := "parts/pipe_branched.py"; f_name := "PipeBranched._get_flow_routine"; f_line := 120;
 f_params := ["self"; "port"; "parent_port"; "subnet"; "kwargs"]; f_closure := [];
 f_locals := ["trgt_idx"; "src_part"; "src_port"; "src_idx"; "alg_sign"; "operation_id"; "op_routine"; "slvd_prt"; "slvd_prt_idx"; "net"; "operation_routine"; "source_ports"];
 f_outer := ["len"; "tuple"; "set"; "dict"];
 f_conds := ["*"; "self._cnt_open_prts != 1"; "alg_sign == 'positive'"; "parent_port is not None"; "self._cnt_open_prts > 0"; "self._cnt_open_prts == 0"; "subnet"; "operation_id == -1"; "operation_id == 0"; "self._cnt_open_prts > 1"; "kwargs['pump_side'] == 'sub net - undefined'"; "port not in self.info_topology"];
 f_body := block [Use [1]; Choice 2 (block [Use [1;2;3]; Def [6]; Def [7]; Def [8]; Def [9]; Def [10]; Use
 [10]; Choice 3 (Def [11]) (Def [11]); Use [1;6;11;7;9]; Def [12]]) (block [Use [3]; Choice 4 (block
 [Use [1;2;3]; Def [6]; Def [7]; Def [8]; Def [9]; Def [10]; Use [10]; Choice 3 (Def [11]) (Def
 [11]); Use [1;6;11;7;9]; Def [12]]) (block [Use [1;2]; Def [6]; Def [11]; Use [1;6;11]; Def [12];
 Use [1]; Loop false (block [Def [13]; Use [1;13]; Def [14]; Use [12;1;14]; Def [12]]) Skip])]); Use
 [1;2;18]; Use [1]; Choice 6 (Use [1]) Skip; Use [4]; Def [15]; Use [11]; Choice 8 Skip (Use [11]);
 Def [16]; Use [1]; Choice 10 (Use [7]) (Use [1]); Def [7]; Use [11]; Choice 9 (Use [3]) (Use
 [19;20;1;2]); Def [17]; Use [5]; Choice 11 Skip (Use [5]); Use [5;2;1]; Choice 12 (Use [21;1;2])
 Skip; Use [1;2;15;6;16;7;17;5;12]; Return] |}.

(* multisim/parts/pipe_branched.py, line 289: PipeBranched.get_diff *)
Definition f_parts_pipe_branched__PipeBranched_get_diff : func := {|
 f_file := "parts/pipe_branched.py"; f_name := "PipeBranched.get_diff"; f_line := 289;
 f_params := ["self"; "timestep"]; f_closure := [];
 f_locals := [];
 f_outer := ["pipe1D_branched_diff"];
 f_conds := ["*"];
 f_body := block [Use [3;1;2]; Return] |}.

(* multisim/parts/pipe_with_pump.py, line 1: <module> *)
Definition f_parts_pipe_with_pump__module : func := {|
 f_file := "parts/pipe_with_pump.py"; f_name := "<module>"; f_line := 1;
 f_params := []; f_closure := [];
 f_locals := ["Pipe"; "PipeWithPump"];
 f_outer := [];
 f_conds := ["*"];
 f_body := block [Def [1]; Use [1]; Def [2]] |}.

(* multisim/parts/pipe_with_pump.py, line 10: PipeWithPump.<class> *)
Definition f_parts_pipe_with_pump__PipeWithPump__class_ : func := {|
 f_file := "parts/pipe_with_pump.py"; f_name := "PipeWithPump.<class>"; f_line := 10;
 f_params := []; f_closure := [];
 f_locals := ["__init__"; "init_part"; "_get_flow_routine"; "_process_cv"];
 f_outer := [];
 f_conds := ["*"];
 f_body := block [Def [1]; Def [2]; Def [3]; Def [4]] |}.

(* multisim/parts/pipe_with_pump.py, line 42: PipeWithPump.__init__ *)
Definition f_parts_pipe_with_pump__PipeWithPump___init__ : func := {|
 f_file := "parts/pipe_with_pump.py"; f_name := "PipeWithPump.__init__"; f_line := 42;
 f_params := ["self"; "name"; "master_cls"; "kwargs"]; f_closure := [];
 f_locals := [];
 f_outer := ["super"];
 f_conds := ["*"];
 f_body := Use [1;5;2;3;4] |}.

(* multisim/parts/pipe_with_pump.py, line 92: PipeWithPump.init_part *)
Definition f_parts_pipe_with_pump__PipeWithPump_init_part : func := {|
 f_file := "parts/pipe_with_pump.py"; f_name := "PipeWithPump.init_part"; f_line := 92;
 f_params := ["self"; "start_massflow"; "kwds"]; f_closure := [];
 f_locals := ["err_str"];
 f_outer := ["super"; "isinstance"; "int"; "float"];
 f_conds := ["*"; "isinstance(start_massflow, (int, float)) and 0 <= start_massflow"; "'ctrl_required' not in kwds or kwds['ctrl_required']"; "'maximum_flow' in kwds and isinstance(kwds['maximum_flow'], (int, float))"];
 f_body := block [Use [5;3;1]; Def [4]; Use [6;2;7;8]; Choice 1 Skip (Use [2]); Choice 2 Skip (block [Use [4];
 Raise]); Use [2;1;3]; Choice 1 Skip (Use [3]); Choice 3 (block [Use [3]; Choice 1 Skip (Use
 [6;3;7;8]); Choice 4 Skip (block [Use [1]; Raise]); Use [3;1]]) Skip] |}.

(* multisim/parts/pipe_with_pump.py, line 127: PipeWithPump._get_flow_routine *)
Definition f_parts_pipe_with_pump__PipeWithPump__get_flow_routine : func := {|
 f_file := "parts/pipe_with_pump.py"; f_name := "PipeWithPump._get_flow_routine"; f_line := 127;
 f_params := ["self"; "port"; "parent_port"; "subnet"; "kwargs"]; f_closure := [];
 f_locals := ["trgt_idx"; "err_str"; "net"; "operation_routine"; "parent_part"];
 f_outer := ["TypeError"; "len"; "dict"];
 f_conds := ["*"; "parent_port is None"; "self.name == kwargs['parent_pump']"; "self._cnt_open_prts == 0"; "subnet"; "port not in self.info_topology"];
 f_body := block [Use [1;2]; Def [6]; Use [3]; Choice 2 Skip (block [Use [1;5]; Choice 3 (Return) (block [Use
 [1]; Def [7]; Use [11;7]; Raise])]); Use [1;2;12]; Choice 4 (Use [1]) Skip; Use [4]; Def [8]; Def
 [9]; Use [1]; Def [10]; Use [2;1]; Choice 6 (Use [13;1;2]) Skip; Use [1;2;8;6;9;10;5]] |}.

(* multisim/parts/pipe_with_pump.py, line 217: PipeWithPump._process_cv *)
Definition f_parts_pipe_with_pump__PipeWithPump__process_cv : func := {|
 f_file := "parts/pipe_with_pump.py"; f_name := "PipeWithPump._process_cv"; f_line := 217;
 f_params := ["self"; "ctrlr"]; f_closure := [];
 f_locals := ["cv"];
 f_outer := [];
 f_conds := ["*"; "self._llim <= cv <= self._ulim"; "cv > self._ulim"];
 f_body := block [Use [2;1]; Def [3]; Use [1;3]; Choice 2 (Use [3]) (block [Use [3;1]; Choice 3 (Use [1]) (Use
 [1])]); Use [1]] |}.

(* multisim/parts/pipe_with_valve.py, line 1: <module> *)
Definition f_parts_pipe_with_valve__module : func := {|
 f_file := "parts/pipe_with_valve.py"; f_name := "<module>"; f_line := 1;
 f_params := []; f_closure := [];
 f_locals := ["np"; "Pipe"; "pipe1D_branched_diff"; "PipeWith3wValve"];
 f_outer := [];
 f_conds := ["*"];
 f_body := block [Def [1]; Def [2]; Def [3]; Use [2]; Def [4]] |}.

(* multisim/parts/pipe_with_valve.py, line 13: PipeWith3wValve.<class> *)
Definition f_parts_pipe_with_valve__PipeWith3wValve__class_ : func := {|
 f_file := "parts/pipe_with_valve.py"; f_name := "PipeWith3wValve.<class>"; f_line := 13;
 f_params := []; f_closure := [];
 f_locals := ["__init__"; "init_part"; "_get_flow_routine"; "_process_cv"; "get_diff"];
 f_outer := [];
 f_conds := ["*"];
 f_body := block [Def [1]; Def [2]; Def [3]; Def [4]; Def [5]] |}.

(* multisim/parts/pipe_with_valve.py, line 45: PipeWith3wValve.__init__ *)
Definition f_parts_pipe_with_valve__PipeWith3wValve___init__ : func := {|
 f_file := "parts/pipe_with_valve.py"; f_name := "PipeWith3wValve.__init__"; f_line := 45;
 f_params := ["self"; "name"; "master_cls"; "kwargs"]; f_closure := [];
 f_locals := ["err_str"; "dummy_var"; "i"; "Tpshp"];
 f_outer := ["super"; "np"; "tuple"; "isinstance"; "int"; "dict"; "list"; "range"];
 f_conds := ["*"; "'valve_location' in kwargs and isinstance(kwargs['valve_location'], int) and (0 <= kwar..."];
 f_body := block [Use [1;9;2;3;4;10;11]; Def [5]; Use [4]; Choice 1 Skip (block [Use [12;4;13]; Choice 1 Skip
 (Use [4;1])]); Choice 2 Skip (block [Use [5]; Raise]); Use [4;1;11;10;14;15]; Def [6]; Use [16;1];
 Loop false (block [Def [7]; Use [1;6;7]]) Skip; Use [11;6;1;10]; Def [8]; Use [10;8;1]] |}.

(* multisim/parts/pipe_with_valve.py, line 166: PipeWith3wValve.init_part *)
Definition f_parts_pipe_with_valve__PipeWith3wValve_init_part : func := {|
 f_file := "parts/pipe_with_valve.py"; f_name := "PipeWith3wValve.init_part"; f_line := 166;
 f_params := ["self"; "start_portA_opening"; "kwargs"]; f_closure := [];
 f_locals := ["err_str"];
 f_outer := ["super"; "isinstance"; "int"; "float"];
 f_conds := ["*"; "isinstance(start_portA_opening, (int, float)) and 0 <= start_portA_opening <= 1"];
 f_body := block [Use [5;3;1]; Def [4]; Use [6;2;7;8]; Choice 1 Skip (Use [2]); Choice 2 Skip (block [Use [4];
 Raise]); Use [2;1;3]] |}.

(* multisim/parts/pipe_with_valve.py, line 194: PipeWith3wValve._get_flow_routine *)
Definition f_parts_pipe_with_valve__PipeWith3wValve__get_flow_routine : func := {|
 f_file := "parts/pipe_with_valve.py"; f_name := "PipeWith3wValve._get_flow_routine"; f_line := 194;
 f_params := ["self"; "port"; "parent_port"; "subnet"; "kwargs"]; f_closure := [];
 f_locals := ["trgt_idx"; "src_part"; "src_port"; "src_idx"; "alg_sign"; "operation_id"; "op_routine"; "src_idx_ab"; "net"; "operation_routine"; "source_ports"];
 f_outer := ["slice"; "len"; "tuple"; "set"; "dict"];
 f_conds := ["*"; "self._cnt_open_prts == 3"; "alg_sign == 'positive'"; "port in ('A', 'B') and 'AB' in self._solved_ports"; "port == 'AB' and ('A' in self._solved_ports or 'B' in self._solved_ports)"; "'A' in self._solved_ports"; "port in ('A', 'B') and 'AB' not in self._solved_ports"; "self._cnt_open_prts == 0"; "subnet"; "operation_id == -1"; "operation_id == 1"; "operation_id == 0"; "operation_id == 3"; "operation_id == 4"; "operation_id == 5"; "src_part is not None"; "port not in self.info_topology"];
 f_body := block [Use [1;2;3]; Def [6]; Def [7]; Def [8]; Def [9]; Def [10]; Use [1]; Choice 2 (block [Use
 [10]; Choice 3 (Def [11]) (Def [11]); Use [1;6;11;7;9]; Def [12]]) (block [Use [2]; Choice 1 Skip
 (Use [1]); Choice 4 (block [Def [11]; Use [17]; Def [13]; Use [1;6;11;13]; Def [12]]) (block [Use
 [2]; Choice 1 Skip (block [Use [1]; Choice 1 Skip (Use [1])]); Choice 5 (block [Def [11]; Use [1];
 Choice 6 (block [Use [17]; Def [9]]) (block [Use [17]; Def [9]]); Use [1;6;11;9]; Def [12]]) (block
 [Use [2]; Choice 1 Skip (Use [1]); Choice 7 (block [Def [11]; Use [1]; Choice 6 (block [Use [17];
 Def [9]]) (block [Use [17]; Def [9]]); Use [1;6;11;9]; Def [12]]) Skip])])]); Use [1;2;18]; Choice 8
 (Use [1]) Skip; Use [4]; Def [14]; Use [11]; Choice 10 Skip (block [Use [11]; Choice 11 Skip (block
 [Use [11]; Choice 12 Skip (block [Use [11]; Choice 13 Skip (block [Use [11]; Choice 14 Skip (Use
 [11])])])])]); Def [15]; Use [7]; Choice 16 (Use [7]) (Use [1]); Def [7]; Use [11]; Choice 13 (Use
 [19;2]) (block [Use [11]; Choice 12 (Use [8]) (block [Use [11]; Choice 10 (Use [8]) (Use
 [19;20;1;2])])]); Def [16]; Use [2;1]; Choice 17 (Use [21;1;2]) Skip; Use [1;2;14;6;15;7;16;5;12];
 Return] |}.

(* multisim/parts/pipe_with_valve.py, line 382: PipeWith3wValve._process_cv *)
Definition f_parts_pipe_with_valve__PipeWith3wValve__process_cv : func := {|
 f_file := "parts/pipe_with_valve.py"; f_name := "PipeWith3wValve._process_cv"; f_line := 382;
 f_params := ["self"; "ctrl_inst"]; f_closure := [];
 f_locals := [];
 f_outer := [];
 f_conds := ["*"; "ctrl_inst.cv < self._llim"; "ctrl_inst.cv > self._ulim"];
 f_body := block [Use [2;1]; Choice 2 (Use [1]) (block [Use [2;1]; Choice 3 (Use [1]) (Use [2])]); Use [1]] |}.

(* multisim/parts/pipe_with_valve.py, line 395: PipeWith3wValve.get_diff *)
Definition f_parts_pipe_with_valve__PipeWith3wValve_get_diff : func := {|
 f_file := "parts/pipe_with_valve.py"; f_name := "PipeWith3wValve.get_diff"; f_line := 395;
 f_params := ["self"; "timestep"]; f_closure := [];
 f_locals := [];
 f_outer := ["pipe1D_branched_diff"];
 f_conds := ["*"];
 f_body := block [Use [3;1;2]; Return] |}.

(* multisim/parts/pump.py, line 1: <module> *)
Definition f_parts_pump__module : func := {|
 f_file := "parts/pump.py"; f_name := "<module>"; f_line := 1;
 f_params := []; f_closure := [];
 f_locals := ["np"; "pd"; "_plt"; "SimEnv"; "_pf"; "Pump"];
 f_outer := [];
 f_conds := ["*"];
 f_body := block [Def [1]; Def [2]; Def [3]; Def [4]; Def [5]; Use [4]; Def [6]] |}.

(* multisim/parts/pump.py, line 15: Pump.<class> *)
Definition f_parts_pump__Pump__class_ : func := {|
 f_file := "parts/pump.py"; f_name := "Pump.<class>"; f_line := 15;
 f_params := []; f_closure := [];
 f_locals := ["__init__"; "init_part"; "_reset_to_init_cond"; "_get_flow_routine"; "solve"; "_process_cv"; "draw_part"];
 f_outer := [];
 f_conds := ["*"];
 f_body := block [Def [1]; Def [2]; Def [3]; Def [4]; Def [5]; Def [6]; Def [7]] |}.

(* multisim/parts/pump.py, line 32: Pump.__init__ *)
Definition f_parts_pump__Pump___init__ : func := {|
 f_file := "parts/pump.py"; f_name := "Pump.__init__"; f_line := 32;
 f_params := ["self"; "name"; "master_cls"; "kwargs"]; f_closure := [];
 f_locals := ["base_err"; "arg_err"; "dummy_var"; "i"];
 f_outer := ["str"; "np"; "tuple"; "list"; "range"; "dict"];
 f_conds := ["*"; "self.dm_invariant"; "not self.hydr_comp"; "self.is_actuator"];
 f_body := block [Use [3;1;9;2]; Def [5]; Def [6]; Use [5;1;6;2;10;11;12]; Def [7]; Use [13;1]; Loop false
 (block [Def [8]; Use [1;7;8]]) Skip; Use [11;7;1;10;12]; Choice 2 (Use [10;1]) (Use [10;1]); Use
 [1]; Choice 3 (Use [1]) (Use [10;1]); Use [1]; Choice 4 (Use [1]) Skip; Use [1;14]] |}.

(* multisim/parts/pump.py, line 204: Pump.init_part *)
Definition f_parts_pump__Pump_init_part : func := {|
 f_file := "parts/pump.py"; f_name := "Pump.init_part"; f_line := 204;
 f_params := ["self"; "start_massflow"; "kwargs"]; f_closure := [];
 f_locals := ["key"; "err_str"];
 f_outer := ["np"; "isinstance"; "int"; "float"; "pd"];
 f_conds := ["*"; "'in' in self.info_topology"; "'no_control' not in kwargs or ('no_control' in kwargs and kwargs['no_control'] is False)"; "'lower_limit' in kwargs and 'upper_limit' in kwargs"; "self._lims[0] < self._lims[1]"; "'no_control' in kwargs and kwargs['no_control'] is True"; "'dm_const' in kwargs"; "isinstance(kwargs['dm_const'], (int, float))"; "'time_series' in kwargs"; "isinstance(kwargs['time_series'], (pd.Series, pd.DataFrame))"; "isinstance(kwargs['time_series'].index, pd.DatetimeIndex)"; "isinstance(kwargs['time_series'].index.values, np.ndarray)"; "kwargs['time_series'].index.values.dtype == 'datetime64[ns]'"; "'dm_const' in kwargs or 'dm_given' in kwargs"];
 f_body := block [Use [1;3]; Choice 2 (Def [4]) (Def [4]); Use [6;1;4;2;3]; Choice 1 Skip (block [Use [3];
 Choice 1 Skip (Use [3])]); Choice 3 (block [Use [1]; Def [5]; Use [3]; Choice 1 Skip (Use [3]);
 Choice 4 Skip (block [Use [5]; Raise]); Use [6;3;1]; Choice 5 Skip (block [Use [5]; Raise])]) (block
 [Use [3]; Choice 1 Skip (Use [3]); Choice 6 (block [Use [3]; Choice 7 (block [Use [1]; Def [5]; Use
 [7;3;8;9]; Choice 8 Skip (block [Use [5]; Raise]); Use [3;1]]) (block [Use [3]; Choice 9 (block [Use
 [1]; Def [5]; Use [7;3;10]; Choice 10 Skip (block [Use [5]; Raise]); Use [7;3;10]; Choice 11 Skip
 (block [Use [5]; Raise]); Use [7;3;6]; Choice 12 Skip (block [Use [5]; Raise]); Use [3]; Choice 13
 Skip (block [Use [5]; Raise]); Use [1;3]]) (block [Use [1]; Def [5]; Use [3]; Choice 1 Skip (Use
 [3]); Choice 14 Skip (block [Use [5]; Raise])])]); Use [1]]) (block [Use [1]; Def [5]])]); Use [1]] |}.

(* multisim/parts/pump.py, line 344: Pump._reset_to_init_cond *)
Definition f_parts_pump__Pump__reset_to_init_cond : func := {|
 f_file := "parts/pump.py"; f_name := "Pump._reset_to_init_cond"; f_line := 344;
 f_params := ["self"]; f_closure := [];
 f_locals := [];
 f_outer := [];
 f_conds := ["*"];
 f_body := Use [1] |}.

(* multisim/parts/pump.py, line 347: Pump._get_flow_routine *)
Definition f_parts_pump__Pump__get_flow_routine : func := {|
 f_file := "parts/pump.py"; f_name := "Pump._get_flow_routine"; f_line := 347;
 f_params := ["self"; "port"; "parent_port"; "subnet"; "kwargs"]; f_closure := [];
 f_locals := ["trgt_idx"; "err_str"; "net"; "operation_routine"; "parent_part"];
 f_outer := ["TypeError"; "len"; "dict"];
 f_conds := ["*"; "parent_port is None"; "self.name == kwargs['parent_pump']"; "self._cnt_open_prts == 0"; "subnet"; "port not in self.info_topology"];
 f_body := block [Use [1;2]; Def [6]; Use [3]; Choice 2 Skip (block [Use [1;5]; Choice 3 (Return) (block [Use
 [1]; Def [7]; Use [11;7]; Raise])]); Use [1;2;12]; Choice 4 (Use [1]) Skip; Use [4]; Def [8]; Def
 [9]; Use [1]; Def [10]; Use [2;1]; Choice 6 (Use [13;1;2]) Skip; Use [1;2;8;6;9;10;5]] |}.

(* multisim/parts/pump.py, line 443: Pump.solve *)
Definition f_parts_pump__Pump_solve : func := {|
 f_file := "parts/pump.py"; f_name := "Pump.solve"; f_line := 443;
 f_params := ["self"; "timestep"]; f_closure := [];
 f_locals := [];
 f_outer := ["_pf"];
 f_conds := ["*"];
 f_body := Use [3;1] |}.

(* multisim/parts/pump.py, line 472: Pump._process_cv *)
Definition f_parts_pump__Pump__process_cv : func := {|
 f_file := "parts/pump.py"; f_name := "Pump._process_cv"; f_line := 472;
 f_params := ["self"; "ctrl_inst"]; f_closure := [];
 f_locals := [];
 f_outer := [];
 f_conds := ["*"; "self._llim <= ctrl_inst.cv <= self._ulim"; "ctrl_inst.cv > self._ulim"];
 f_body := block [Use [1;2]; Choice 2 (Use [2]) (block [Use [2;1]; Choice 3 (Use [1]) (Use [1])]); Use [1]] |}.

(* multisim/parts/pump.py, line 481: Pump.draw_part *)
Definition f_parts_pump__Pump_draw_part : func := {|
 f_file := "parts/pump.py"; f_name := "Pump.draw_part"; f_line := 481;
 f_params := ["self"; "axis"; "timestep"; "draw"; "animate"]; f_closure := [];
 f_locals := ["pos_start"; "pos_end"; "vec_dir"; "rot_angle"; "vec_len"; "vec_top"; "vec_bot"; "pos_top"; "pos_bot"; "x_grid"; "y_grid"; "circ"; "txt"; "txt_constr"; "arr_view"; "offset"; "txt_offset"; "ann"];
 f_outer := ["np"; "_plt"; "tuple"];
 f_conds := ["*"; "draw"; "animate"; "0 <= rot_angle <= 45 / 180 * np.pi or 135 / 180 * np.pi <= rot_angle <= 225 / 180 * np...."];
 f_body := block [Use [1]; Def [6]; Use [1]; Def [7]; Use [1]; Def [8]; Use [1;8]; Def [9]; Use [24;8]; Def
 [10]; Use [24;10]; Def [11]; Use [24;10]; Def [12]; Use [1;11;9]; Def [11]; Use [1;12;9]; Def [12];
 Use [6;11]; Def [13]; Use [6;12]; Def [14]; Use [24;13;7;14]; Def [15]; Use [24;13;7;14]; Def [16];
 Use [4]; Choice 2 (block [Use [25;26;6;24;7;8;1;5]; Def [17]; Use [2;17;15;16;1;5;24;3]; Def [18];
 Use [5]; Choice 3 (block [Use [1]; Def [19]; Use [1]; Def [20]]) Skip; Use [9;24]; Choice 1 Skip
 (block [Use [24;9]; Choice 1 Skip (Use [9;24])]); Def [21]; Use [26;1;24;21;9]; Def [22]; Use
 [2;18;14;22;5]; Def [23]; Use [5]; Choice 3 (block [Use [23;19;20]; Return]) Skip]) Skip] |}.

(* multisim/parts/tes.py, line 1: <module> *)
Definition f_parts_tes__module : func := {|
 f_file := "parts/tes.py"; f_name := "<module>"; f_line := 1;
 f_params := []; f_closure := [];
 f_locals := ["np"; "SimEnv"; "_pf"; "Tes"];
 f_outer := [];
 f_conds := ["*"];
 f_body := block [Def [1]; Def [2]; Def [3]; Use [2]; Def [4]] |}.

(* multisim/parts/tes.py, line 13: Tes.<class> *)
Definition f_parts_tes__Tes__class_ : func := {|
 f_file := "parts/tes.py"; f_name := "Tes.<class>"; f_line := 13;
 f_params := []; f_closure := [];
 f_locals := ["__init__"; "init_part"; "_reset_to_init_cond"; "__add_ports"; "_get_flow_routine"; "get_diff"; "_buoyancy"; "buo_Nu"];
 f_outer := [];
 f_conds := ["*"];
 f_body := block [Def [1]; Def [2]; Def [3]; Def [4]; Def [5]; Def [6]; Def [7]; Def [8]] |}.

(* multisim/parts/tes.py, line 63: Tes.__init__ *)
Definition f_parts_tes__Tes___init__ : func := {|
 f_file := "parts/tes.py"; f_name := "Tes.__init__"; f_line := 63;
 f_params := ["self"; "name"; "master_cls"; "kwargs"]; f_closure := [];
 f_locals := ["base_err"; "arg_err"; "known_kwargs"; "err_str"; "dummy_var"; "i"];
 f_outer := ["str"; "set"; "float"; "isinstance"; "int"; "np"; "tuple"; "list"; "range"; "dict"];
 f_conds := ["*"; "kwargs"; "isinstance(kwargs['grid_points'], int)"; "kwargs['outer_diameter'] > 0.0"; "isinstance(kwargs['shell_thickness'], (int, float)) and kwargs['shell_thickness'] > 0"; "self._d_shell < 1"];
 f_body := block [Use [3;1;2;4;11]; Def [5]; Def [6]; Use [5;1;6;12]; Def [7]; Use [2]; Def [8]; Use [4];
 Choice 2 Skip (block [Use [8]; Raise]); Use [2;12;4;7]; Def [8]; Use [13;4;1;14;15]; Choice 3 Skip
 (block [Use [1]; Raise]); Use [4;1]; Choice 4 Skip (block [Use [1]; Raise]); Use [13;4;1;14;15];
 Choice 1 Skip (Use [4]); Choice 5 Skip (block [Use [1]; Raise]); Use [13;4;1]; Choice 6 Skip (block
 [Use [1]; Raise]); Use [2;1;16;17;4;18]; Def [9]; Use [19;1]; Loop false (block [Def [10]; Use
 [1;9;10]]) Skip; Use [17;9;1;16;18;15;20]] |}.

(* multisim/parts/tes.py, line 374: Tes.init_part *)
Definition f_parts_tes__Tes_init_part : func := {|
 f_file := "parts/tes.py"; f_name := "Tes.init_part"; f_line := 374;
 f_params := ["self"; "kwds"]; f_closure := [];
 f_locals := [];
 f_outer := ["isinstance"; "int"; "float"; "np"; "_pf"];
 f_conds := ["*"; "'s_ins' in kwds"; "isinstance(self._s_ins, (int, float)) and self._s_ins >= 0"; "'lambda_ins' in kwds"; "isinstance(self._lam_ins, (int, float)) and self._lam_ins >= 0"; "isinstance(kwds['T_init'], (float, int, np.ndarray)) and np.all((kwds['T_init'] > 0.0) ..."; "isinstance(self._T_init, (int, float))"; "self._T_init.shape == self.T.shape"; "self.calculate_buoyancy"; "self.num_gp > 19"; "8 < self.num_gp < 20"; "self.num_gp > 2"];
 f_body := block [Use [1;2]; Choice 2 (Use [2]) (Use [2]); Use [1;3;4;5]; Choice 1 Skip (Use [1]); Choice 3
 Skip (block [Use [1]; Raise]); Use [5;1;2]; Choice 4 (Use [2]) (Use [2]); Use [1;3;4;5]; Choice 1
 Skip (Use [1]); Choice 5 Skip (block [Use [1]; Raise]); Use [5;1;3;2;4;6]; Choice 1 Skip (Use
 [6;2]); Choice 6 Skip (block [Use [1]; Raise]); Use [2;1;3;4;5]; Choice 7 (Use [5;1]) (block [Use
 [1]; Choice 8 Skip (block [Use [1]; Raise]); Use [1]]); Use [1;2;6]; Choice 9 (block [Use [1];
 Choice 10 (Use [4;1]) (block [Use [1]; Choice 11 (Use [4;1]) (block [Use [1]; Choice 12 Skip (Use
 [1]); Use [1]])])]) Skip; Use [1;7]] |}.

(* multisim/parts/tes.py, line 625: Tes._reset_to_init_cond *)
Definition f_parts_tes__Tes__reset_to_init_cond : func := {|
 f_file := "parts/tes.py"; f_name := "Tes._reset_to_init_cond"; f_line := 625;
 f_params := ["self"]; f_closure := [];
 f_locals := [];
 f_outer := [];
 f_conds := ["*"];
 f_body := Use [1] |}.

(* multisim/parts/tes.py, line 629: Tes.__add_ports *)
Definition f_parts_tes__Tes___add_ports : func := {|
 f_file := "parts/tes.py"; f_name := "Tes.__add_ports"; f_line := 629;
 f_params := ["self"; "kwargs"]; f_closure := [];
 f_locals := ["err_str"; "value"; "nep_cpy"; "pidx"; "counter"; "port_occurrence"; "key"; "err_str2"; "idx_to_insert"];
 f_outer := ["isinstance"; "dict"; "list"; "np"; "zip"; "int"; "str"; "float"; "round"];
 f_conds := ["*"; "'new_ports' in kwargs"; "kwargs['new_ports'] is None"; "kwargs['new_ports'] != 'none'"; "isinstance(kwargs['new_ports'], dict)"; "isinstance(value, list)"; "value[1] == 'index' or value[1] == 'volume'"; "value[1] == 'index'"; "isinstance(value[0], int)"; "-1 <= value[0] <= self.num_gp - 1"; "value[0] == -1"; "isinstance(value[0], (float, int))"; "0 <= value[0] <= self.V_tes"; "value[0] >= self.num_gp"; "value[0] < 0"; "value[0] in self._port_own_idx"];
 f_body := block [Use [1]; Def [3]; Use [2]; Choice 2 Skip (block [Use [3]; Raise]); Use [2]; Choice 3 Skip
 (Use [2]); Use [2]; Choice 4 (block [Use [1]; Def [3]; Use [12;2;13]; Choice 5 Skip (block [Use [3];
 Raise]); Use [2]; Loop false (block [Def [4]; Use [12;4;14]; Choice 6 Skip (block [Use [3];
 Raise])]) Skip; Use [2]; Def [5]; Use [15;1]; Def [6]; Def [7]; Use [13;16;6;7]; Def [8]; Use [5];
 Loop false (block [Def [9]; Def [4]; Use [4]; Choice 1 Skip (Use [4]); Choice 7 Skip (block [Use
 [3]; Raise]); Use [4]; Choice 8 (block [Use [12;4;17]; Choice 9 Skip (block [Use [3]; Raise]); Use
 [9;1;18;4]; Def [10]; Use [4;1]; Choice 10 Skip (block [Use [10]; Raise]); Use [4]; Choice 11 (Use
 [1;4]) Skip]) (block [Use [12;4;19;17]; Choice 12 Skip (block [Use [3]; Raise]); Use [18;4;9;1]; Def
 [10]; Use [4;1]; Choice 13 Skip (block [Use [10]; Raise]); Use [20;4;1]]); Use [4;1]; Choice 14 (Use
 [1]) (block [Use [4]; Choice 15 Skip (Use [4])]); Use [4;1]; Choice 16 (Use [8;4]) (Use [8;4]); Use
 [15;1;4]; Def [11]; Use [15;1;11;4;9]]) Skip]) Skip; Use [1]] |}.

(* multisim/parts/tes.py, line 814: Tes._get_flow_routine *)
Definition f_parts_tes__Tes__get_flow_routine : func := {|
 f_file := "parts/tes.py"; f_name := "Tes._get_flow_routine"; f_line := 814;
 f_params := ["self"; "port"; "parent_port"; "subnet"; "kwargs"]; f_closure := [];
 f_locals := ["trgt_idx"; "src_part"; "src_port"; "src_idx"; "alg_sign"; "operation_id"; "op_routine"; "slvd_prt"; "slvd_prt_idx"; "net"; "operation_routine"; "source_ports"];
 f_outer := ["tuple"; "len"; "set"; "dict"];
 f_conds := ["*"; "self._cnt_open_prts != 1"; "alg_sign == 'positive'"; "parent_port is not None"; "self._cnt_open_prts > 0"; "subnet"; "operation_id == -1"; "operation_id == 0"; "self._cnt_open_prts > 1"; "kwargs['pump_side'] == 'sub net - undefined'"; "port not in self.info_topology"];
 f_body := block [Use [1]; Choice 2 (block [Use [1;2;3]; Def [6]; Def [7]; Def [8]; Def [9]; Def [10]; Use
 [10]; Choice 3 (Def [11]) (Def [11]); Use [18]; Def [12]; Use [12;1;6]; Def [12]; Use [12;11]; Def
 [12]; Use [12;1;7;9]; Def [12]]) (block [Use [3]; Choice 4 (block [Use [1;2;3]; Def [6]; Def [7];
 Def [8]; Def [9]; Def [10]; Use [10]; Choice 3 (Def [11]) (Def [11]); Use [18]; Def [12]; Use
 [12;1;6]; Def [12]; Use [12;11]; Def [12]; Use [12;1;7;9]; Def [12]]) (block [Use [1;2]; Def [6];
 Def [11]; Use [18]; Def [12]; Use [12;1;6]; Def [12]; Use [12;11]; Def [12]; Use [1]; Loop false
 (block [Def [13]; Use [1;13]; Def [14]; Use [12;1;14]; Def [12]]) Skip])]); Use [1;2;19]; Use [1;4];
 Def [15]; Use [11]; Choice 7 Skip (Use [11]); Def [16]; Use [1]; Choice 9 (Use [7]) (Use [1]); Def
 [7]; Use [11]; Choice 8 (Use [3]) (Use [18;20;1;2]); Def [17]; Use [5]; Choice 10 Skip (Use [5]);
 Use [5;2;1]; Choice 11 (Use [21;1;2]) Skip; Use [1;2;15;6;16;7;17;5;12]; Return] |}.

(* multisim/parts/tes.py, line 995: Tes.get_diff *)
Definition f_parts_tes__Tes_get_diff : func := {|
 f_file := "parts/tes.py"; f_name := "Tes.get_diff"; f_line := 995;
 f_params := ["self"; "timestep"]; f_closure := [];
 f_locals := [];
 f_outer := ["_pf"];
 f_conds := ["*"];
 f_body := block [Use [3;1;2]; Return] |}.

(* multisim/parts/tes.py, line 999: Tes._buoyancy *)
Definition f_parts_tes__Tes__buoyancy : func := {|
 f_file := "parts/tes.py"; f_name := "Tes._buoyancy"; f_line := 999;
 f_params := ["self"; "timestep"]; f_closure := [];
 f_locals := ["diff_rho"; "g"; "g_red"; "int_const_v"; "t"; "mavggrad"; "N"; "omega"; "R_0"; "B"; "bf"; "bf_max"];
 f_outer := ["np"; "_pf"; "abs"; "ValueError"];
 f_conds := ["*"; "np.any(diff_rho < 0)"; "self.max_bf < bf_max"; "np.any(bf < 0)"];
 f_body := block [Use [15;1]; Def [3]; Use [15;3]; Choice 2 (block [Def [4]; Use [4;3;1]; Def [5]; Use [5]; Def
 [6]; Use [2]; Def [7]; Use [16;15;1]; Def [8]; Use [15;4;8;1]; Def [9]; Use [9]; Def [10]; Use [1];
 Def [11]; Use [11;5;9]; Def [12]; Use [6;10;15;7;12;1]; Def [13]; Use [13;15;1;17]; Def [13]; Use
 [1;13]; Def [14]; Use [1;14]; Choice 3 (Use [14;1]) Skip; Use [15;13]; Choice 4 (block [Use [18];
 Raise]) Skip]) Skip] |}.

(* multisim/parts/tes.py, line 1199: Tes.buo_Nu *)
Definition f_parts_tes__Tes_buo_Nu : func := {|
 f_file := "parts/tes.py"; f_name := "Tes.buo_Nu"; f_line := 1199;
 f_params := ["self"]; f_closure := [];
 f_locals := ["T_diff"; "corr_f"; "shape"; "Nu"; "Pr"; "beta"; "L"; "Ra"; "Ra_f2"; "turb"; "Nu_idx"];
 f_outer := ["np"; "_pf"];
 f_conds := ["*"; "np.all(T_diff <= 0)"];
 f_body := block [Use [1]; Def [2]; Use [13;2]; Choice 2 (Return) Skip; Use [2]; Def [3]; Use [1]; Def [4]; Use
 [13;4]; Def [5]; Use [14;1]; Def [6]; Use [14;1]; Def [7]; Use [7;1]; Def [8]; Use [6;8;7;2;1]; Def
 [9]; Use [9;6]; Def [10]; Use [10]; Def [11]; Use [10;11;5]; Def [12]; Use [1;12;5;3]] |}.

(* multisim/std_parts.py, line 1: <module> *)
Definition f_std_parts__module : func := {|
 f_file := "std_parts.py"; f_name := "<module>"; f_line := 1;
 f_params := []; f_closure := [];
 f_locals := ["PID"; "BangBang"; "TwoSensors"; "Pipe"; "Tes"; "Pump"; "MixingValve"; "Connector3w"; "HeatExchanger"; "HexNum"; "HEXCondPoly"; "__all__"];
 f_outer := [];
 f_conds := ["*"];
 f_body := block [Def [1]; Def [2]; Def [3]; Def [4]; Def [5]; Def [6]; Def [7]; Def [8]; Def [9]; Def [10];
 Def [11]; Def [12]] |}.

(* multisim/version.py, line 1: <module> *)
Definition f_version__module : func := {|
 f_file := "version.py"; f_name := "<module>"; f_line := 1;
 f_params := []; f_closure := [];
 f_locals := ["version"];
 f_outer := [];
 f_conds := ["*"];
 f_body := Def [1] |}.

Definition table_Parts : list (func * list func) := [
 (f___init____module, []);
 (f__precompiled___init____module, []);
 (f__utility___init____module, []);
 (f_all_parts__module, []);
 (f_parts___init____module, []);
 (f_parts_chp_plant__module, [f_parts_chp_plant__CHPPlant__class_; f_parts_chp_plant__CHPPlant___init__; f_parts_chp_plant__CHPPlant_init_part; f_parts_chp_plant__CHPPlant__special_array_init; f_parts_chp_plant__CHPPlant___deprecated_special_free_memory; f_parts_chp_plant__CHPPlant__special_free_memory; f_parts_chp_plant__CHPPlant__check_results; f_parts_chp_plant__CHPPlant__final_datastore_backcalc; f_parts_chp_plant__CHPPlant__special_crop_results; f_parts_chp_plant__CHPPlant__special_return_store; f_parts_chp_plant__CHPPlant_get_diff]);
 (f_parts_connector_3w__module, [f_parts_connector_3w__Connector3w__class_; f_parts_connector_3w__Connector3w___init__; f_parts_connector_3w__Connector3w_init_part; f_parts_connector_3w__Connector3w__reset_to_init_cond; f_parts_connector_3w__Connector3w__get_flow_routine; f_parts_connector_3w__Connector3w_solve; f_parts_connector_3w__Connector3w_draw_part]);
 (f_parts_controllers__module, [f_parts_controllers__PID__class_; f_parts_controllers__PID___init__; f_parts_controllers__PID__reset_to_init_cond; f_parts_controllers__PID_run_controller; f_parts_controllers__BangBang__class_; f_parts_controllers__BangBang___init__; f_parts_controllers__BangBang__reset_to_init_cond; f_parts_controllers__BangBang_run_controller; f_parts_controllers__TwoSensors__class_; f_parts_controllers__TwoSensors___init__; f_parts_controllers__TwoSensors__reset_to_init_cond; f_parts_controllers__TwoSensors_run_controller; f_parts_controllers__ModelPredCHP__class_; f_parts_controllers__ModelPredCHP___init__; f_parts_controllers__ModelPredCHP__special_store_to_disk; f_parts_controllers__ModelPredCHP__process_opt_profiles; f_parts_controllers__ModelPredCHP__process_ctrl_profiles; f_parts_controllers__ModelPredCHP__process_profiles; f_parts_controllers__ModelPredCHP__reset_to_init_cond; f_parts_controllers__ModelPredCHP_tes_cap_before_empty; f_parts_controllers__ModelPredCHP_tes_cap_before_full; f_parts_controllers__ModelPredCHP__tes_heat_content; f_parts_controllers__ModelPredCHP__emergency_control; f_parts_controllers__ModelPredCHP__adapt_cap; f_parts_controllers__ModelPredCHP__longterm_opt_pred; f_parts_controllers__ModelPredCHP__longterm_clip_array; f_parts_controllers__ModelPredCHP__longterm_adj_by_soc; f_parts_controllers__ModelPredCHP__longterm_clip_w_cont; f_parts_controllers__ModelPredCHP__longterm_finalize_step; f_parts_controllers__ModelPredCHP__restore_adptd_caps; f_parts_controllers__ModelPredCHP__shortterm_opt; f_parts_controllers__ModelPredCHP_run_controller; f_parts_controllers__ModelPredCHP__preopt_x0; f_parts_controllers__ModelPredCHP__minimizer_input; f_parts_controllers__ModelPredCHP__minimizer_input_scalar; f_parts_controllers__ModelPredCHP__kwk_zuschlag; f_parts_controllers__ModelPredCHP__instandh_chp_nonflat; f_parts_controllers__ModelPredCHP__eeg_umlage; f_parts_controllers__ModelPredCHP__load_eex_baseload; f_parts_controllers__ModelPredCHP_infer_instandh; f_parts_controllers__ModelPredCHP_infer_instandh_cubic_cost]);
 (f_parts_heated_pipe__module, [f_parts_heated_pipe__HeatedPipe__class_; f_parts_heated_pipe__HeatedPipe___init__; f_parts_heated_pipe__HeatedPipe_init_part; f_parts_heated_pipe__HeatedPipe__special_array_init; f_parts_heated_pipe__HeatedPipe___depcreated_special_free_memory; f_parts_heated_pipe__HeatedPipe__special_free_memory; f_parts_heated_pipe__HeatedPipe__check_results; f_parts_heated_pipe__HeatedPipe__final_datastore_backcalc; f_parts_heated_pipe__HeatedPipe__special_crop_results; f_parts_heated_pipe__HeatedPipe__special_return_store; f_parts_heated_pipe__HeatedPipe_get_diff]);
 (f_parts_heatexchanger__module, [f_parts_heatexchanger__HeatExchanger__class_; f_parts_heatexchanger__HeatExchanger___init__; f_parts_heatexchanger__HeatExchanger_init_part; f_parts_heatexchanger__HeatExchanger__reset_to_init_cond; f_parts_heatexchanger__HeatExchanger_get_plate_hex_geometry; f_parts_heatexchanger__HeatExchanger_get_plate_hex_geometry___plate_area; f_parts_heatexchanger__HeatExchanger_get_plate_hex_geometry___plate_thickness; f_parts_heatexchanger__HeatExchanger_get_plate_hex_geometry___channel_width_by_plate_thickness; f_parts_heatexchanger__HeatExchanger_get_plate_hex_geometry___channel_width_by_volume; f_parts_heatexchanger__HeatExchanger_find_Reynolds_correction; f_parts_heatexchanger__HeatExchanger_find_Reynolds_correction_alpha_wrapper; f_parts_heatexchanger__HeatExchanger__get_flow_routine; f_parts_heatexchanger__HeatExchanger_solve; f_parts_heatexchanger__HeatExchanger_draw_part]);
 (f_parts_hex_condensing_polynome__module, [f_parts_hex_condensing_polynome__HEXCondPoly__class_; f_parts_hex_condensing_polynome__HEXCondPoly___init__; f_parts_hex_condensing_polynome__HEXCondPoly_init_part; f_parts_hex_condensing_polynome__HEXCondPoly__reset_to_init_cond; f_parts_hex_condensing_polynome__HEXCondPoly__get_flow_routine; f_parts_hex_condensing_polynome__HEXCondPoly__check_results; f_parts_hex_condensing_polynome__HEXCondPoly_solve; f_parts_hex_condensing_polynome__HEXCondPoly_draw_part]);
 (f_parts_hex_num__module, [f_parts_hex_num__HexNum__class_; f_parts_hex_num__HexNum___init__; f_parts_hex_num__HexNum_init_part; f_parts_hex_num__HexNum__reset_to_init_cond; f_parts_hex_num__HexNum_get_plate_hex_geometry; f_parts_hex_num__HexNum_get_plate_hex_geometry___plate_area; f_parts_hex_num__HexNum_get_plate_hex_geometry___plate_thickness; f_parts_hex_num__HexNum_get_plate_hex_geometry___channel_width_by_plate_thickness; f_parts_hex_num__HexNum_get_plate_hex_geometry___channel_width_by_volume; f_parts_hex_num__HexNum_find_reynolds_correction; f_parts_hex_num__HexNum_find_reynolds_correction_alpha_wrapper; f_parts_hex_num__HexNum__get_flow_routine; f_parts_hex_num__HexNum_get_diff; f_parts_hex_num__HexNum_get_diff_impl_ext; f_parts_hex_num__HexNum_get_diff_impl; f_parts_hex_num__HexNum_draw_part]);
 (f_parts_mixingvalve__module, [f_parts_mixingvalve__MixingValve__class_; f_parts_mixingvalve__MixingValve___init__; f_parts_mixingvalve__MixingValve_init_part; f_parts_mixingvalve__MixingValve__reset_to_init_cond; f_parts_mixingvalve__MixingValve__get_flow_routine; f_parts_mixingvalve__MixingValve__process_cv; f_parts_mixingvalve__MixingValve_solve; f_parts_mixingvalve__MixingValve_draw_part]);
 (f_parts_part_modules___init____module, []);
 (f_parts_part_modules_chp_with_fluegas_hex__module, [f_parts_part_modules_chp_with_fluegas_hex__add_chp_with_fghex]);
 (f_parts_part_modules_consumers__module, [f_parts_part_modules_consumers__lowex_phwrc; f_parts_part_modules_consumers__speicherladesys; f_parts_part_modules_consumers__space_heating]);
 (f_parts_part_modules_suppliers__module, [f_parts_part_modules_suppliers__chp_with_fghex; f_parts_part_modules_suppliers__gasboiler]);
 (f_parts_pipe__module, [f_parts_pipe__Pipe__class_; f_parts_pipe__Pipe___init__; f_parts_pipe__Pipe_init_part; f_parts_pipe__Pipe__reset_to_init_cond; f_parts_pipe__Pipe__get_flow_routine; f_parts_pipe__Pipe_get_diff]);
 (f_parts_pipe2D__module, [f_parts_pipe2D__Pipe2D__class_; f_parts_pipe2D__Pipe2D___init__; f_parts_pipe2D__Pipe2D_init_part; f_parts_pipe2D__Pipe2D__get_flow_routine; f_parts_pipe2D__Pipe2D_get_diff]);
 (f_parts_pipe_branched__module, [f_parts_pipe_branched__PipeBranched__class_; f_parts_pipe_branched__PipeBranched___init__; f_parts_pipe_branched__PipeBranched_init_part; f_parts_pipe_branched__PipeBranched__get_flow_routine; f_parts_pipe_branched__PipeBranched_get_diff]);
 (f_parts_pipe_with_pump__module, [f_parts_pipe_with_pump__PipeWithPump__class_; f_parts_pipe_with_pump__PipeWithPump___init__; f_parts_pipe_with_pump__PipeWithPump_init_part; f_parts_pipe_with_pump__PipeWithPump__get_flow_routine; f_parts_pipe_with_pump__PipeWithPump__process_cv]);
 (f_parts_pipe_with_valve__module, [f_parts_pipe_with_valve__PipeWith3wValve__class_; f_parts_pipe_with_valve__PipeWith3wValve___init__; f_parts_pipe_with_valve__PipeWith3wValve_init_part; f_parts_pipe_with_valve__PipeWith3wValve__get_flow_routine; f_parts_pipe_with_valve__PipeWith3wValve__process_cv; f_parts_pipe_with_valve__PipeWith3wValve_get_diff]);
 (f_parts_pump__module, [f_parts_pump__Pump__class_; f_parts_pump__Pump___init__; f_parts_pump__Pump_init_part; f_parts_pump__Pump__reset_to_init_cond; f_parts_pump__Pump__get_flow_routine; f_parts_pump__Pump_solve; f_parts_pump__Pump__process_cv; f_parts_pump__Pump_draw_part]);
 (f_parts_tes__module, [f_parts_tes__Tes__class_; f_parts_tes__Tes___init__; f_parts_tes__Tes_init_part; f_parts_tes__Tes__reset_to_init_cond; f_parts_tes__Tes___add_ports; f_parts_tes__Tes__get_flow_routine; f_parts_tes__Tes_get_diff; f_parts_tes__Tes__buoyancy; f_parts_tes__Tes_buo_Nu]);
 (f_std_parts__module, []);
 (f_version__module, [])].
