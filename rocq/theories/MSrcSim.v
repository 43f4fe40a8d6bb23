(** * Names and control flow of simenv.py, flownet.py, controls.py (generated by tools/extract.py; representation: MPy.v). *)
From Coq Require Import List String PArith.
From Verif Require Import MPy.
Import ListNotations.
Local Open Scope string_scope. Local Open Scope positive_scope.


(* multisim/simenv.py, line 1: <module> *)
Definition f_simenv__module : func := {|
 f_file := "simenv.py"; f_name := "<module>"; f_line := 1;
 f_params := []; f_closure := [];
 f_locals := ["_odict"; "_namedtuple"; "_partial"; "_math"; "os"; "sys"; "_time_"; "_traceback"; "np"; "pd"; "_psutil"; "_root"; "_FlowNet"; "_pf"; "__version__"; "__all__"; "SimEnv"];
 f_outer := [];
 f_conds := ["*"];
 f_body := block [Def [1]; Def [2]; Def [3]; Def [4]; Def [5]; Def [6]; Def [7]; Def [8]; Def [9]; Def [10];
 Def [11]; Def [12]; Def [13]; Def [14]; Def [15]; Def [16]; Def [17]] |}.

(* multisim/simenv.py, line 27: SimEnv.<class> *)
Definition f_simenv__SimEnv__class_ : func := {|
 f_file := "simenv.py"; f_name := "SimEnv.<class>"; f_line := 27;
 f_params := []; f_closure := [];
 f_locals := ["__init__"; "set_timeframe"; "set_disksaving"; "set_solver"; "add_part"; "_add_part"; "_add_ports"; "add_open_port"; "_initialize_actuator"; "_add_open_port"; "assign_boundary_cond"; "_initialize_dynamic_BC"; "__global_init_part"; "_chk_amb_temp"; "add_control"; "_add_control"; "_update_ports"; "_get_port_connections"; "connect_ports"; "_connect_ports"; "_check_unconnected_ports"; "_print_arg_errs"; "_get_topology"; "_recursive_topology"; "_calc_UAwll_port"; "_update_FlowNet"; "_update_control"; "_update_dyn_BC"; "_get_conn_port"; "_get_arr_idx"; "_massflow_idx_from_temp_idx"; "_get_specs_n_props"; "_get_topo_cond"; "_angle_to_x_axis"; "_rotate_vector"; "_heun"; "_heun_adaptive"; "__adaptive_step_control"; "_call_postponed"; "_create_port_updater"; "_collapse_port_arrays"; "_create_dataclasses"; "_build_simenv"; "_initialize_arrays"; "_create_diff_inputs"; "_prep_inputs_for_njits"; "_reset_simenv"; "initialize_sim"; "_check_memory_address"; "_finalize_sim"; "start_sim"; "__deprecated_free_memory"; "_free_memory"; "_compress_store"; "_write_report"; "return_stored_data"; "_crop_results"; "_check_isadded"; "_check_ispart"; "_check_isport"; "_check_isinrange"];
 f_outer := ["staticmethod"];
 f_conds := ["*"];
 f_body := block [Def [1]; Def [2]; Def [3]; Def [4]; Def [5]; Def [6]; Def [7]; Def [8]; Def [9]; Def [10];
 Def [11]; Def [12]; Def [13]; Def [14]; Def [15]; Def [16]; Def [17]; Def [18]; Def [19]; Def [20];
 Def [21]; Def [22]; Def [23]; Def [24]; Def [25]; Def [26]; Def [27]; Def [28]; Def [29]; Def [30];
 Def [31]; Def [32]; Def [33]; Use [62]; Def [34]; Use [62]; Def [35]; Def [36]; Def [37]; Use [62];
 Def [38]; Def [39]; Def [40]; Def [41]; Def [42]; Def [43]; Def [44]; Def [45]; Def [46]; Def [47];
 Def [48]; Def [49]; Def [50]; Def [51]; Def [52]; Def [53]; Def [54]; Def [55]; Def [56]; Def [57];
 Def [58]; Def [59]; Def [60]; Def [61]] |}.

(* multisim/simenv.py, line 34: SimEnv.__init__ *)
Definition f_simenv__SimEnv___init__ : func := {|
 f_file := "simenv.py"; f_name := "SimEnv.__init__"; f_line := 34;
 f_params := ["self"; "suppress_printing"]; f_closure := [];
 f_locals := ["filename"; "line_number"; "function_name"; "text"; "def_name"; "current_dir"; "sub_pth"; "usage_helper"];
 f_outer := ["_traceback"; "os"; "__file__"; "pd"; "print"; "dict"; "np"; "tuple"; "_odict"; "set"; "list"];
 f_conds := ["*"; "not self.suppress_printing"];
 f_body := block [Use [1;2;11]; Def [3]; Def [4]; Def [5]; Def [6]; Use [6]; Def [7]; Use [7;1;12;13]; Def [8];
 Use [12;8]; Def [9]; Use [14;12;9;1]; Def [10]; Use [1]; Choice 2 (Use [15;10]) Skip; Use
 [16;1;17;18;19;20;21]] |}.

(* multisim/simenv.py, line 243: SimEnv.set_timeframe *)
Definition f_simenv__SimEnv_set_timeframe : func := {|
 f_file := "simenv.py"; f_name := "SimEnv.set_timeframe"; f_line := 243;
 f_params := ["self"; "timeframe"; "adaptive_steps"; "kwargs"]; f_closure := [];
 f_locals := ["err_str"];
 f_outer := ["isinstance"; "float"; "int"; "bool"; "np"];
 f_conds := ["*"; "isinstance(timeframe, (float, int)) and timeframe > 0"; "isinstance(adaptive_steps, bool)"; "adaptive_steps"; "'rtol' in kwargs"; "isinstance(kwargs['rtol'], float) and 0 < kwargs['rtol'] < 1"; "'atol' in kwargs"; "isinstance(kwargs['atol'], float) and 0 < kwargs['atol'] < 1"; "'max_stepsize' in kwargs"; "isinstance(kwargs['max_stepsize'], (int, float)) and kwargs['max_stepsize'] > 1e-08"; "'min_stepsize' in kwargs"; "isinstance(kwargs['min_stepsize'], (int, float)) and 0 < kwargs['min_stepsize'] < self...."; "'max_factor' in kwargs"; "isinstance(kwargs['max_factor'], (int, float)) and kwargs['max_factor'] > 1"; "'min_factor' in kwargs"; "isinstance(kwargs['min_factor'], float) and 0 < kwargs['min_factor'] < 1"; "'check_vN' in kwargs"; "isinstance(kwargs['check_vN'], bool)('check_vN not of correct type!\n\n' + err_str)"; "'max_speed' in kwargs"; "isinstance(kwargs['max_speed'], bool)"; "'safety_factor' in kwargs"; "isinstance(kwargs['safety_factor'], float) and 0 < kwargs['safety_factor'] < 1"; "'factor_recovery' in kwargs"; "isinstance(kwargs['factor_recovery'], (int, float)) and kwargs['factor_recovery'] > 0"; "'timestep' in kwargs and isinstance(kwargs['timestep'], (float, int)) and (kwargs['time..."];
 f_body := block [Def [5]; Use [6;2;7;8]; Choice 1 Skip (Use [2]); Choice 2 Skip (block [Use [5]; Raise]); Use
 [7;2;1]; Def [5]; Use [6;3;9]; Choice 3 Skip (block [Use [5]; Raise]); Use [3;1]; Choice 4 (block
 [Use [4]; Choice 5 (block [Use [6;4;7]; Choice 1 Skip (Use [4]); Choice 6 Skip (block [Use [5];
 Raise]); Use [4;1]]) (Use [1]); Use [4]; Choice 7 (block [Use [6;4;7]; Choice 1 Skip (Use [4]);
 Choice 8 Skip (block [Use [5]; Raise]); Use [4;1]]) (Use [1]); Use [4]; Choice 9 (block [Use
 [6;4;8;7]; Choice 1 Skip (Use [4]); Choice 10 Skip (block [Use [5]; Raise]); Use [7;4;1]]) (Use
 [1]); Use [4]; Choice 11 (block [Use [6;4;8;7]; Choice 1 Skip (Use [4;1]); Choice 12 Skip (block
 [Use [5]; Raise]); Use [7;4;1]]) (Use [1]); Use [4]; Choice 13 (block [Use [6;4;8;7]; Choice 1 Skip
 (Use [4]); Choice 14 Skip (block [Use [5]; Raise]); Use [10;7;4;1]]) (Use [10;1]); Use [4]; Choice
 15 (block [Use [6;4;7]; Choice 1 Skip (Use [4]); Choice 16 Skip (block [Use [5]; Raise]); Use
 [4;1]]) (Use [1]); Use [4]; Choice 17 (block [Use [6;4;9;5]; Choice 18 Skip (Raise); Use [4;1]])
 (Use [1]); Use [4]; Choice 19 (block [Use [6;4;9]; Choice 20 Skip (block [Use [5]; Raise]); Use
 [4;1]]) (Use [1]); Use [4]; Choice 21 (block [Use [6;4;7]; Choice 1 Skip (Use [4]); Choice 22 Skip
 (block [Use [5]; Raise]); Use [4;1]]) (Use [1]); Use [4]; Choice 23 (block [Use [6;4;8;7]; Choice 1
 Skip (Use [4]); Choice 24 Skip (block [Use [5]; Raise]); Use [7;4;1]]) (Use [1]); Use [1]]) (block
 [Def [5]; Use [4]; Choice 1 Skip (block [Use [6;4;7;8]; Choice 1 Skip (Use [4])]); Choice 25 Skip
 (block [Use [5]; Raise]); Use [7;4;1]]); Use [1;10;8;2;4]] |}.

(* multisim/simenv.py, line 455: SimEnv.set_disksaving *)
Definition f_simenv__SimEnv_set_disksaving : func := {|
 f_file := "simenv.py"; f_name := "SimEnv.set_disksaving"; f_line := 455;
 f_params := ["self"; "save"; "save_every_n_steps"; "sim_name"; "path"; "start_date"; "resample_final"; "resample_freq"; "create_new_folder"; "overwrite"; "complevel"; "complib"]; f_closure := [];
 f_locals := ["now"; "store"];
 f_outer := ["pd"; "print"; "int"; "os"; "isinstance"; "bool"; "ValueError"; "FileNotFoundError"; "FileExistsError"];
 f_conds := ["*"; "start_date != 'infer'"; "not save"; "not self.suppress_printing"; "sim_name is None"; "isinstance(resample_final, bool)"; "resample_final"; "complevel > 0"; "not os.path.isdir(path)"; "not create_new_folder"; "os.path.exists(self._disk_store['path']) and (not overwrite)"];
 f_body := block [Use [2;1;6]; Choice 2 (Use [15;6;1]) (Use [1]); Use [2]; Choice 3 (block [Use [1]; Choice 4
 (Use [16]) Skip; Return]) Skip; Use [4]; Choice 5 (Use [1]) (Use [4]); Def [4]; Use [15]; Def [13];
 Use [17;3;1;18;5;13;4;19;7;20]; Choice 6 Skip (Raise); Use [7]; Choice 7 (Try (Use [15;8]) (block
 [Use [21;8]; Raise]) Skip) Skip; Use [7;1;8;11]; Use [1;11;12;18;5]; Choice 9 (block [Use [9];
 Choice 10 (block [Use [22]; Raise]) Skip; Use [18;5]]) Skip; Use [18;1]; Choice 1 Skip (Use [10]);
 Choice 11 (block [Use [23]; Raise]) Skip; Use [1;15]; Def [14]; Use [14;1]] |}.

(* multisim/simenv.py, line 593: SimEnv.set_solver *)
Definition f_simenv__SimEnv_set_solver : func := {|
 f_file := "simenv.py"; f_name := "SimEnv.set_solver"; f_line := 593;
 f_params := ["self"; "solver"; "kwargs"]; f_closure := [];
 f_locals := ["err_str"];
 f_outer := ["tuple"; "NameError"; "getattr"; "isinstance"; "bool"];
 f_conds := ["*"; "self._timeframe_set"; "solver == 'heun'"; "self.adaptive_steps"; "solver not in self._solvers"; "solver == '_heun_adaptive'"; "solver == '_rk4(3)_adaptive'"; "solver == '_dormand_prince'"; "'allow_implicit' in kwargs and isinstance(kwargs['allow_implicit'], bool)"];
 f_body := block [Def [4]; Use [1]; Choice 2 Skip (block [Use [4]; Raise]); Use [5;1;2]; Choice 3 Skip (Raise);
 Use [2]; Def [2]; Use [1]; Choice 4 (block [Use [2]; Def [2]]) Skip; Use [2;1]; Choice 5 (block [Def
 [4]; Use [6;4]; Raise]) Skip; Use [2]; Choice 6 (Use [1]) (block [Use [2]; Choice 7 (Use [1]) (block
 [Use [2]; Choice 8 (Use [1]) Skip])]); Use [7;1;2]; Def [4]; Use [3]; Choice 1 Skip (Use [8;3;9]);
 Choice 9 Skip (block [Use [4]; Raise]); Use [3;1]] |}.

(* multisim/simenv.py, line 691: SimEnv.add_part *)
Definition f_simenv__SimEnv_add_part : func := {|
 f_file := "simenv.py"; f_name := "SimEnv.add_part"; f_line := 691;
 f_params := ["self"; "part"; "name"; "store_results"; "kwargs"]; f_closure := [];
 f_locals := ["gps"; "elmnt"];
 f_outer := ["isinstance"; "bool"; "int"; "slice"; "list"; "tuple"; "_partial"];
 f_conds := ["*"; "'add_part' not in self.__postpone"; "'grid_points' in kwargs"; "store_results"; "isinstance(store_results, (bool, int, slice, list, tuple))"; "isinstance(store_results, (bool, int, slice))"; "isinstance(store_results, int) and (not isinstance(store_results, bool))"; "store_results < gps"; "isinstance(store_results, (list, tuple))"; "isinstance(elmnt, int)"; "elmnt < gps"];
 f_body := block [Use [1]; Choice 2 (Use [1]) Skip; Use [5]; Choice 3 (block [Use [5]; Def [6]]) (block [Def
 [6]; Use [4]; Def [4]]); Use [8;4;9;10;11;12;13]; Choice 5 Skip (block [Use [3]; Raise]); Use
 [8;4;9;10;11]; Choice 6 (block [Use [4;1;3;8;10]; Choice 1 Skip (Use [8;4;9]); Choice 7 (block [Use
 [4;6]; Choice 8 Skip (block [Use [3]; Raise])]) Skip]) (block [Use [8;4;12;13]; Choice 9 (block [Use
 [4]; Loop false (block [Def [7]; Use [8;7;10]; Choice 10 Skip (Raise); Use [7;6]; Choice 11 Skip
 (block [Use [3]; Raise])]) Skip; Use [4;1;3]]) Skip]); Use [1;3;14;2;5]] |}.

(* multisim/simenv.py, line 774: SimEnv._add_part *)
Definition f_simenv__SimEnv__add_part : func := {|
 f_file := "simenv.py"; f_name := "SimEnv._add_part"; f_line := 774;
 f_params := ["self"; "part"; "name"; "kwargs"]; f_closure := [];
 f_locals := ["err_str"; "port_indices"; "i"; "port_key"];
 f_outer := ["range"; "len"; "np"; "hasattr"; "getattr"];
 f_conds := ["*"; "self._solver_set and self._timeframe_set"; "name != 'BC'"; "'/' not in name"; "self.parts[name]._port_own_idx.ndim >= 2"; "self.num_parts == 1"; "self.parts[name].solve_numeric"; "hasattr(self.parts[name], '_diff_fully_njit') and getattr(self.parts[name], '_diff_full..."; "self.parts[name].solve_explicitly"; "not self.parts[name].solve_numeric"; "self.parts[name].is_actuator"];
 f_body := block [Use [1]; Def [5]; Use [1]; Choice 1 Skip (Use [1]); Choice 2 Skip (block [Use [5]; Raise]);
 Def [5]; Use [3]; Choice 3 Skip (block [Use [5]; Raise]); Use [3]; Choice 4 Skip (block [Use [3];
 Raise]); Use [1;2;3;4]; Choice 5 (block [Use [1;3]; Def [6]]) (block [Use [1;3]; Def [6]]); Use
 [9;10;1;3]; Loop false (block [Def [7]; Use [3;1;7]; Def [8]; Use [1;8;3;7;6;11]]) Skip; Use [1];
 Choice 6 (Use [1]) Skip; Use [1;3]; Choice 7 (block [Use [12;1;3]; Choice 1 Skip (Use [13;1;3]);
 Choice 8 (block [Use [1;3]; Choice 9 (Use [1;3]) (Use [1;3])]) (block [Use [1;3]; Choice 9 (Use
 [1;3]) (Use [1;3])]); Use [1;3]]) (block [Use [1;3]; Choice 10 (Use [1;3]) Skip]); Use [1;3]; Choice
 11 (Use [1;3]) Skip] |}.

(* multisim/simenv.py, line 902: SimEnv._add_ports *)
Definition f_simenv__SimEnv__add_ports : func := {|
 f_file := "simenv.py"; f_name := "SimEnv._add_ports"; f_line := 902;
 f_params := ["self"; "kwargs"]; f_closure := [];
 f_locals := ["err_cap"; "err_str"; "value"; "nep_cpy"; "pidx"; "counter"; "port_occurrence"; "key"; "err_str2"; "idx_to_insert"];
 f_outer := ["isinstance"; "dict"; "list"; "np"; "zip"; "int"; "str"; "float"; "round"];
 f_conds := ["*"; "self.can_add_ports"; "'new_ports' in kwargs"; "kwargs['new_ports'] is not None"; "isinstance(kwargs['new_ports'], dict)"; "isinstance(value, list)"; "value[1] in ('index', 'volume', 'distance')"; "value[1] == 'index'"; "isinstance(value[0], int)"; "-1 <= value[0] <= self.num_gp - 1"; "value[0] == -1"; "value[1] == 'volume'"; "isinstance(value[0], (int, float))"; "0.0 <= value[0] <= self._V_total"; "0.0 <= value[0] <= self.length"; "value[0] >= 0"; "value[0] >= self.num_gp"; "value[0] < 0"; "value[0] in self._port_own_idx"];
 f_body := block [Use [1]; Def [3]; Use [1]; Choice 2 Skip (block [Use [3]; Raise]); Use [1]; Def [4]; Use [2];
 Choice 3 Skip (block [Use [4]; Raise]); Use [2]; Choice 4 (block [Use [13;2;14]; Choice 5 Skip
 (block [Use [4]; Raise]); Use [2]; Loop false (block [Def [5]; Use [13;5;15]; Choice 6 Skip (block
 [Use [4]; Raise])]) Skip; Use [2]; Def [6]; Use [16;1]; Def [7]; Def [8]; Use [14;17;7;8]; Def [9];
 Use [6]; Loop false (block [Def [10]; Def [5]; Use [5]; Choice 7 Skip (block [Use [4]; Raise]); Use
 [5]; Choice 8 (block [Use [13;5;18]; Choice 9 Skip (block [Use [4]; Raise]); Use [1;10;19;5]; Def
 [11]; Use [5;1]; Choice 10 Skip (block [Use [11]; Raise]); Use [5]; Choice 11 (Use [1;5]) Skip])
 (block [Use [5]; Choice 12 (block [Use [13;5;18;20]; Choice 13 Skip (block [Use [4]; Raise]); Use
 [1;19;5;10]; Def [11]; Use [5;1]; Choice 14 Skip (block [Use [11]; Raise]); Use [21;5;1]]) (block
 [Use [13;5;18;20]; Choice 13 Skip (block [Use [4]; Raise]); Use [1;19;5;10]; Def [11]; Use [5;1];
 Choice 15 Skip (block [Use [11]; Raise]); Use [21;16;5;1]; Choice 16 (Use [5]) Skip; Use [5]])]);
 Use [5;1]; Choice 17 (Use [1]) (block [Use [5]; Choice 18 Skip (Use [5])]); Use [5;1]; Choice 19
 (Use [9;5]) (Use [9;5]); Use [16;1;5]; Def [12]; Use [16;1;12;5;10]]) Skip]) Skip; Use [1]] |}.

(* multisim/simenv.py, line 1086: SimEnv.add_open_port *)
Definition f_simenv__SimEnv_add_open_port : func := {|
 f_file := "simenv.py"; f_name := "SimEnv.add_open_port"; f_line := 1086;
 f_params := ["self"; "name"; "constant"; "temperature"]; f_closure := [];
 f_locals := [];
 f_outer := ["np"; "isinstance"; "int"; "float"; "pd"; "_partial"];
 f_conds := ["*"; "'add_open_port' not in self.__postpone"; "not np.isnan(temperature).any() and isinstance(temperature, (int, float, np.ndarray, pd..."];
 f_body := block [Use [1]; Choice 2 (Use [1]) Skip; Use [1;2;5;4]; Choice 1 Skip (Use [6;4;7;8;5;9]); Choice 3
 Skip (block [Use [2]; Raise]); Use [10;1;2;3;4]] |}.

(* multisim/simenv.py, line 1130: SimEnv._initialize_actuator *)
Definition f_simenv__SimEnv__initialize_actuator : func := {|
 f_file := "simenv.py"; f_name := "SimEnv._initialize_actuator"; f_line := 1130;
 f_params := ["self"; "variable_name"; "kwargs"]; f_closure := [];
 f_locals := ["err_str"];
 f_outer := ["isinstance"; "int"; "float"; "np"; "pd"];
 f_conds := ["*"; "'ctrl_required' not in kwargs or ('ctrl_required' in kwargs and kwargs['ctrl_required']..."; "'lower_limit' in kwargs and 'upper_limit' in kwargs"; "isinstance(kwargs['lower_limit'], (int, float))"; "isinstance(kwargs['upper_limit'], (int, float))"; "'ctrl_required' in kwargs and kwargs['ctrl_required'] is False"; "'const_val' in kwargs or 'time_series' in kwargs"; "not ('const_val' in kwargs and 'time_series' in kwargs)"; "'const_val' in kwargs"; "isinstance(kwargs['const_val'], (int, float))"; "'time_series' in kwargs"; "isinstance(kwargs['time_series'], (pd.Series, pd.DataFrame))"; "isinstance(kwargs['time_series'].index, pd.DatetimeIndex)"; "isinstance(kwargs['time_series'].index.values, np.ndarray)"; "kwargs['time_series'].index.values.dtype == 'datetime64[ns]'"];
 f_body := block [Use [3]; Choice 1 Skip (block [Use [3]; Choice 1 Skip (Use [3])]); Choice 2 (block [Use [1];
 Def [4]; Use [3]; Choice 1 Skip (Use [3]); Choice 3 Skip (block [Use [4]; Raise]); Use [5;3;6;7];
 Choice 4 Skip (block [Use [4]; Raise]); Use [5;3;6;7]; Choice 5 Skip (block [Use [4]; Raise]); Use
 [8;3;1]]) (block [Use [3]; Choice 1 Skip (Use [3]); Choice 6 (block [Use [1]; Def [4]; Use [3];
 Choice 1 Skip (Use [3]); Choice 7 Skip (block [Use [4]; Raise]); Use [3]; Choice 1 Skip (Use [3]);
 Choice 8 Skip (block [Use [4]; Raise]); Use [3]; Choice 9 (block [Use [1]; Def [4]; Use [5;3;6;7];
 Choice 10 Skip (block [Use [4]; Raise]); Use [7;3;1]]) (block [Use [3]; Choice 11 (block [Use [1];
 Def [4]; Use [5;3;9]; Choice 12 Skip (block [Use [4]; Raise]); Use [5;3;9]; Choice 13 Skip (block
 [Use [4]; Raise]); Use [5;3;8]; Choice 14 Skip (block [Use [4]; Raise]); Use [3]; Choice 15 Skip
 (block [Use [4]; Raise]); Use [1;3;2]]) Skip]); Use [1]]) Skip])] |}.

(* multisim/simenv.py, line 1234: SimEnv._add_open_port *)
Definition f_simenv__SimEnv__add_open_port : func := {|
 f_file := "simenv.py"; f_name := "SimEnv._add_open_port"; f_line := 1234;
 f_params := ["self"; "name"; "constant"; "temperature"]; f_closure := [];
 f_locals := ["err_str"; "tmprtr"];
 f_outer := ["isinstance"; "str"; "bool"; "pd"; "int"; "float"; "np"];
 f_conds := ["*"; "isinstance(name, str) and 'BC_' == name[0:3]"; "name not in self.ports"; "isinstance(constant, bool)"; "not constant"; "isinstance(temperature, (pd.Series, pd.DataFrame))"; "isinstance(temperature, (int, float))"; "'dyn_BC' not in self.__postpone"];
 f_body := block [Def [5]; Use [7;2;8]; Choice 1 Skip (Use [2]); Choice 2 Skip (block [Use [5]; Raise]); Use
 [2;1]; Choice 3 Skip (block [Use [2]; Raise]); Use [7;3;9]; Choice 4 Skip (block [Use [8;3;2];
 Raise]); Use [3]; Choice 5 (block [Use [2;1]; Def [5]; Use [7;4;10]; Choice 6 Skip (block [Use [5];
 Raise]); Use [4]; Def [6]; Def [4]]) Skip; Def [5]; Use [7;4;11;12]; Choice 7 Skip (block [Use [5];
 Raise]); Use [12;4]; Def [4]; Use [13;4;1;2;3]; Choice 5 (block [Use [1]; Choice 8 (Use [1]) Skip;
 Choice 1 Skip (Use [1;6;2]); Use [1;2;6]]) Skip] |}.

(* multisim/simenv.py, line 1330: SimEnv.assign_boundary_cond *)
Definition f_simenv__SimEnv_assign_boundary_cond : func := {|
 f_file := "simenv.py"; f_name := "SimEnv.assign_boundary_cond"; f_line := 1330;
 f_params := ["self"; "time_series"; "open_port"; "part"; "control"; "variable_name"; "array_index"]; f_closure := [];
 f_locals := ["err_name"; "err_str"; "for_which"; "for_which_str"; "err_st2"; "pid"; "trgt_idx"; "trgt_arr_view"; "bkp_ov"];
 f_outer := ["isinstance"; "pd"; "np"; "getattr"; "str"; "slice"; "hasattr"; "setattr"; "int"; "repr"; "list"; "ValueError"];
 f_conds := ["*"; "open_port is not None"; "part is not None"; "control is not None"; "isinstance(time_series, (pd.Series, pd.DataFrame))"; "isinstance(time_series.index, pd.DatetimeIndex)"; "isinstance(time_series.index.values, np.ndarray)"; "getattr(time_series.index, 'freq', None) is not None or getattr(time_series.index, 'inf..."; "time_series.index.values.dtype == 'datetime64[ns]'"; "self._disksaving_set and (not self.__infer_start_date)"; "time_series.index[0] == self._disk_store['start_date']"; "self.__infer_start_date and self._disksaving_set"; "not np.isnan(time_series).any()"; "self._dyn_BC_timevec.shape != (0,)"; "self._dyn_BC_timevec.shape == time_series.index.values.shape"; "np.all(self._dyn_BC_timevec == time_series.index.values)"; "self._SimEnv__BC_timedelta * time_series.index.size > self.timeframe"; "open_port is not None and part is None and (control is None)"; "open_port in self.boundary_conditions"; "open_port is None and part is not None and (control is None)"; "part in self.parts and hasattr(self.parts[part], variable_name)"; "not isinstance(getattr(self.parts[part], variable_name), np.ndarray)"; "isinstance(array_index, int)"; "array_index < getattr(self.parts[part], variable_name).shape[0]"; "open_port is None and part is None and (control is not None)"; "control in self.ctrls and hasattr(self.ctrls[control], 'sp')"; "not isinstance(getattr(self.ctrls[control], 'sp'), np.ndarray)"];
 f_body := block [Use [3]; Choice 2 (Use [3]) (block [Use [4]; Choice 3 (Use [4]) (block [Use [5]; Choice 4
 (Use [5]) (Use [6])])]); Def [8]; Use [8]; Def [9]; Use [17;2;18]; Choice 5 Skip (block [Use [9];
 Raise]); Use [17;2;18]; Choice 6 Skip (block [Use [9]; Raise]); Use [17;2;19]; Choice 7 Skip (block
 [Use [9]; Raise]); Use [20;2]; Choice 1 Skip (Use [20;2]); Choice 8 Skip (Raise); Use [2]; Choice 9
 Skip (block [Use [9]; Raise]); Use [1]; Choice 1 Skip (Use [1]); Choice 10 (block [Use [2;1]; Choice
 11 Skip (Raise)]) (block [Use [1]; Choice 1 Skip (Use [1]); Choice 12 (Use [2;1]) Skip]); Use [3];
 Choice 2 (Use [3]) (block [Use [4]; Choice 3 (Use [4]) (Use [5])]); Def [10]; Def [11]; Use [19;2];
 Choice 13 Skip (block [Use [11;10]; Raise]); Use [1]; Choice 14 (block [Use [21;1;8]; Def [12]; Use
 [1;2]; Choice 15 Skip (block [Use [9;12]; Raise]); Use [19;1;2]; Choice 16 Skip (block [Use [9;12];
 Raise])]) (block [Use [2;1;8]; Def [9]; Use [1;2]; Choice 17 Skip (block [Use [9]; Raise]); Use
 [2;1]]); Use [3]; Choice 1 Skip (block [Use [4]; Choice 1 Skip (Use [5])]); Choice 18 (block [Use
 [3]; Def [9]; Use [3;1]; Choice 19 Skip (block [Use [9]; Raise]); Use [1;3]; Def [13]; Use [22;13];
 Def [14]; Use [1;14]; Def [15]]) (block [Use [3]; Choice 1 Skip (block [Use [4]; Choice 1 Skip (Use
 [5])]); Choice 20 (block [Use [4;6;8]; Def [9]; Use [4;1]; Choice 1 Skip (Use [23;1;4;6]); Choice 21
 Skip (block [Use [9]; Raise]); Use [17;20;1;4;6;19]; Choice 22 (block [Use [20;1;4;6]; Def [16]; Use
 [24;1;4;6;19;16]]) Skip; Use [7;20;1;4;6;8]; Def [9]; Use [17;7;25]; Choice 23 Skip (block [Use [9];
 Raise]); Use [7;20;1;4;6]; Choice 24 Skip (block [Use [9]; Raise]); Use [22;7]; Def [14]; Use
 [20;1;4;6;14]; Def [15]]) (block [Use [3]; Choice 1 Skip (block [Use [4]; Choice 1 Skip (Use [5])]);
 Choice 25 (block [Use [5;26;27;1;8]; Def [9]; Use [5;1]; Choice 1 Skip (Use [23;1;5]); Choice 26
 Skip (block [Use [9]; Raise]); Use [17;20;1;5;19]; Choice 27 (block [Use [20;1;5]; Def [16]; Use
 [24;1;5;19;16]]) Skip; Use [22]; Def [14]; Use [20;1;5;14]; Def [15]]) (block [Use [28];
 Raise])])]); Use [1;15;2]] |}.

(* multisim/simenv.py, line 1560: SimEnv._initialize_dynamic_BC *)
Definition f_simenv__SimEnv__initialize_dynamic_BC : func := {|
 f_file := "simenv.py"; f_name := "SimEnv._initialize_dynamic_BC"; f_line := 1560;
 f_params := ["self"]; f_closure := [];
 f_locals := ["dbc"];
 f_outer := [];
 f_conds := ["*"];
 f_body := block [Use [1]; Loop false (block [Def [2]; Use [2]]) Skip] |}.

(* multisim/simenv.py, line 1568: SimEnv.__global_init_part *)
Definition f_simenv__SimEnv___global_init_part : func := {|
 f_file := "simenv.py"; f_name := "SimEnv.__global_init_part"; f_line := 1568;
 f_params := ["self"]; f_closure := [];
 f_locals := [];
 f_outer := [];
 f_conds := ["*"];
 f_body := Skip |}.

(* multisim/simenv.py, line 1582: SimEnv._chk_amb_temp *)
Definition f_simenv__SimEnv__chk_amb_temp : func := {|
 f_file := "simenv.py"; f_name := "SimEnv._chk_amb_temp"; f_line := 1582;
 f_params := ["self"; "kwargs"]; f_closure := [];
 f_locals := ["err_str"];
 f_outer := ["isinstance"; "int"; "float"; "np"];
 f_conds := ["*"; "'T_amb' in kwargs and isinstance(kwargs['T_amb'], (int, float)) and (kwargs['T_amb'] > ..."];
 f_body := block [Use [1]; Def [3]; Use [2]; Choice 1 Skip (block [Use [4;2;5;6]; Choice 1 Skip (Use [2])]);
 Choice 2 Skip (block [Use [3]; Raise]); Use [7;6;2;1]] |}.

(* multisim/simenv.py, line 1602: SimEnv.add_control *)
Definition f_simenv__SimEnv_add_control : func := {|
 f_file := "simenv.py"; f_name := "SimEnv.add_control"; f_line := 1602;
 f_params := ["self"; "Controls_module"; "name"; "kwargs"]; f_closure := [];
 f_locals := [];
 f_outer := ["_partial"];
 f_conds := ["*"; "'add_ctrl' not in self.__postpone"];
 f_body := block [Use [1]; Choice 2 (Use [1]) Skip; Use [1;3;5;2;4]] |}.

(* multisim/simenv.py, line 1645: SimEnv._add_control *)
Definition f_simenv__SimEnv__add_control : func := {|
 f_file := "simenv.py"; f_name := "SimEnv._add_control"; f_line := 1645;
 f_params := ["self"; "Controls_module"; "name"; "kwargs"]; f_closure := [];
 f_locals := ["err_str"];
 f_outer := [];
 f_conds := ["*"; "self.num_ports == self._num_conn_ports"; "name not in self.ctrls"];
 f_body := block [Use [1]; Def [5]; Use [1]; Choice 2 Skip (block [Use [5]; Raise]); Use [3]; Def [5]; Use
 [3;1]; Choice 3 Skip (block [Use [5]; Raise]); Use [1;2;3;4]] |}.

(* multisim/simenv.py, line 1667: SimEnv._update_ports *)
Definition f_simenv__SimEnv__update_ports : func := {|
 f_file := "simenv.py"; f_name := "SimEnv._update_ports"; f_line := 1667;
 f_params := ["self"; "source"; "all_ports"; "nnum"]; f_closure := [];
 f_locals := ["assert_str"; "values"; "part"; "err_str"];
 f_outer := ["_pf"; "np"; "NotADirectoryError"; "ValueError"];
 f_conds := ["*"; "source == 'results' or source == 'intermediate'"; "not all_ports"; "self.solve_numeric or nnum"; "source == 'results'"; "source == 'intermediate'"; "np.any(np.isnan(values))"; "all_ports"; "not nnum"];
 f_body := block [Def [5]; Use [2]; Choice 1 Skip (Use [2]); Choice 2 Skip (block [Use [5]; Raise]); Use [3];
 Choice 3 (block [Use [1]; Choice 1 Skip (Use [4]); Choice 4 (block [Use [2]; Choice 5 (block [Use
 [1]; Def [6]]) (block [Use [2]; Choice 6 (block [Use [1]; Def [6]]) Skip]); Use [9;1;6;10]; Choice 7
 (block [Use [11]; Raise]) Skip]) Skip]) (block [Use [3]; Choice 8 (block [Use [4]; Choice 9 (block
 [Use [1]; Loop false (block [Def [7]; Use [1;7;2]]) Skip]) (block [Use [1]; Loop false (block [Def
 [7]; Use [1;7;2]]) Skip])]) (block [Def [8]; Use [12;8]; Raise])])] |}.

(* multisim/simenv.py, line 1713: SimEnv._get_port_connections *)
Definition f_simenv__SimEnv__get_port_connections : func := {|
 f_file := "simenv.py"; f_name := "SimEnv._get_port_connections"; f_line := 1713;
 f_params := ["self"]; f_closure := [];
 f_locals := ["loop_order"; "part"; "other_port_key"; "i"; "self_port_key"; "missing_ports"; "part_port"; "pa"; "po"; "pid"; "port"; "trgt_idx"; "src_part"; "src_port"; "A_wcp"; "A_fcp"; "src_idx"; "gsp_p"; "lam_wcp"; "A_wll_conn_bkp"; "A_fld_conn_bkp"; "port_gsp_bkp"; "lam_wll_conn_bkp"; "mask"];
 f_outer := ["list"; "range"; "KeyError"; "AssertionError"; "tuple"; "isinstance"; "np"; "type"; "IndexError"; "ValueError"];
 f_conds := ["*"; "self.parts[part].solve_numeric"; "part_port not in self.port_links"; "src_part == 'BoundaryCondition'"; "self.parts[src_part]._port_heatcond"; "not isinstance(self.parts[src_part]._A_wll_own_p, np.ndarray)"; "type(self.parts[src_part].grid_spacing) != np.ndarray"; "not self.parts[part].solve_numeric"];
 f_body := block [Use [26]; Def [2]; Use [1]; Loop false (block [Def [3]; Use [1;3]; Choice 2 (Use [2;3]) (Use
 [2;3])]) Skip; Use [2]; Loop false (block [Def [3]; Def [4]; Use [27;1;3]; Loop false (block [Def
 [5]; Use [1;3;5]; Def [6]; Try (Use [4;1;6]) (block [Use [28]; Def [7]; Use [1]; Loop false (block
 [Def [8]; Use [8]; Def [9]; Def [10]; Use [8;1]; Choice 3 (block [Use [7;9;10]; Def [7]]) Skip])
 Skip; Use [7;1]; Def [7]; Use [29;7]; Raise]) Skip; Use [1;3;5]; Def [11]; Use [1;11;6]]) Skip; Use
 [30;4;1;3]; Loop false (block [Def [12]; Use [1;3;12]; Def [13]; Use [1;3;12]; Def [14]; Def [15];
 Use [14]; Choice 4 (block [Use [3]; Def [14]; Use [12]; Def [15]]) Skip; Use [1;14]; Choice 5 (block
 [Use [31;1;14;32]; Choice 6 (block [Use [1;14]; Def [16]; Use [1;14]; Def [17]]) (block [Use
 [1;14;15]; Def [18]; Use [1;14;18]; Def [16]; Use [1;14;18]; Def [17]]); Use [33;1;14;32]; Choice 7
 (block [Use [1;14]; Def [19]; Use [1;14]; Def [20]]) (block [Use [1;14;18]; Def [19]; Use [1;14;18];
 Def [20]])]) (block [Def [16]; Def [17]; Def [19]; Def [20]]); Try (Use [16;1;3;13]) (block [Use
 [34;3;13;12]; Raise]) Skip; Use [17;1;3;13]; Try (Use [19;1;3;13]) (block [Use [34;35;3]; Raise])
 Skip; Use [20;1;3;13]]) Skip; Use [1;3]; Choice 8 (block [Use [1;3]; Def [21]; Use [1;3]; Def [22];
 Use [1;3]; Def [23]; Use [1;3]; Def [24]; Use [1;3]; Loop false (block [Def [12]; Use [1;3;12]; Def
 [13]; Use [32;21]; Def [25]; Use [25;1;3;13;21;22;23;24]]) Skip]) Skip]) Skip] |}.

(* multisim/simenv.py, line 1897: SimEnv.connect_ports *)
Definition f_simenv__SimEnv_connect_ports : func := {|
 f_file := "simenv.py"; f_name := "SimEnv.connect_ports"; f_line := 1897;
 f_params := ["self"; "first_part"; "first_port"; "scnd_part"; "scnd_port"]; f_closure := [];
 f_locals := [];
 f_outer := ["_partial"];
 f_conds := ["*"; "'connect_ports' not in self.__postpone"];
 f_body := block [Use [1]; Choice 2 (Use [1]) Skip; Use [6;1;2;3;4;5]] |}.

(* multisim/simenv.py, line 1944: SimEnv._connect_ports *)
Definition f_simenv__SimEnv__connect_ports : func := {|
 f_file := "simenv.py"; f_name := "SimEnv._connect_ports"; f_line := 1944;
 f_params := ["self"; "first_part"; "first_port"; "scnd_part"; "scnd_port"]; f_closure := [];
 f_locals := ["e"; "err_str"; "own_port_id"; "other_port_id"];
 f_outer := ["AssertionError"; "hasattr"; "breakpoint"; "ValueError"; "str"; "set"; "KeyError"; "list"; "repr"; "tuple"];
 f_conds := ["*"; "first_part != 'BoundaryCondition'"; "scnd_part != 'BoundaryCondition'"; "first_part != 'BoundaryCondition' and hasattr(self.parts[first_part], '_ports_connected')"; "first_port not in self.parts[first_part]._ports_connected"; "scnd_part == 'p_gasb1_ff'"; "scnd_part != 'BoundaryCondition' and hasattr(self.parts[scnd_part], '_ports_connected')"; "scnd_port not in self.parts[scnd_part]._ports_connected"; "first_port in self.boundary_conditions"; "scnd_port in self.boundary_conditions"];
 f_body := block [Try (block [Use [2]; Choice 2 (Use [1;2]) Skip; Use [4]; Choice 3 (Use [1;4]) Skip]) (block
 [Use [10]; Def [6]; Use [10;6]; Raise; Del [6]]) Skip; Use [2;3;4;5]; Def [7]; Use [2]; Choice 1
 Skip (Use [11;1;2]); Choice 4 (block [Use [3;1;2]; Choice 5 Skip (block [Use [7;3;2]; Raise])])
 (block [Use [2]; Choice 2 (Use [1;2]) Skip]); Use [4]; Choice 6 (Use [12]) Skip; Use [4]; Choice 1
 Skip (Use [11;1;4]); Choice 7 (block [Use [5;1;4]; Choice 8 Skip (block [Use [7;5;4]; Raise])])
 (block [Use [4]; Choice 3 (Use [1;4]) Skip]); Use [2]; Choice 2 (Try (block [Use [1;2;3]; Def [8]])
 (Choice 1 (block [Use [13;2;3;4;5;14;1;15]; Def [7]; Use [13;7]; Raise]) (block [Use
 [16;2;3;4;5;14;17;1]; Def [7]; Use [13;7]; Raise])) Skip) (block [Use [3;4;14;17;1]; Def [7]; Use
 [3;1]; Choice 9 Skip (block [Use [7]; Raise]); Use [1;3]; Def [8]]); Use [4]; Choice 3 (Try (block
 [Use [1;4;5]; Def [9]]) (Choice 1 (block [Use [13;2;3;4;5;18;1;15]; Def [7]; Use [13;7]; Raise])
 (block [Use [16;2;3;4;5;14;17;1]; Def [7]; Use [13;7]; Raise])) Skip) (block [Use [5;14;17;1]; Def
 [7]; Use [5;1]; Choice 10 Skip (block [Use [7]; Raise]); Use [1;5]; Def [9]]); Use [9;1;8;4;5;2;3];
 Choice 1 Skip (Use [11;1;2]); Choice 4 (Use [1;2;3;19;15]) (block [Use [2]; Choice 2 (Use
 [3;1;2;19;15]) Skip]); Use [4]; Choice 1 Skip (Use [11;1;4]); Choice 7 (Use [1;4;5;19;15]) (block
 [Use [4]; Choice 3 (Use [5;1;4;19;15]) Skip])] |}.

(* multisim/simenv.py, line 2145: SimEnv._check_unconnected_ports *)
Definition f_simenv__SimEnv__check_unconnected_ports : func := {|
 f_file := "simenv.py"; f_name := "SimEnv._check_unconnected_ports"; f_line := 2145;
 f_params := ["self"]; f_closure := [];
 f_locals := ["missing_ports"; "unconnected_ports"; "part_port"; "pa"; "po"];
 f_outer := ["AssertionError"];
 f_conds := ["*"; "part_port not in self.port_links"; "unconnected_ports"];
 f_body := block [Def [2]; Def [3]; Use [1]; Loop false (block [Def [4]; Use [4]; Def [5]; Def [6]; Use [4;1];
 Choice 2 (block [Def [3]; Use [2;5;6]; Def [2]]) Skip]) Skip; Use [2;1]; Def [2]; Use [3]; Choice 3
 (block [Use [7;2]; Raise]) Skip] |}.

(* multisim/simenv.py, line 2167: SimEnv._print_arg_errs *)
Definition f_simenv__SimEnv__print_arg_errs : func := {|
 f_file := "simenv.py"; f_name := "SimEnv._print_arg_errs"; f_line := 2167;
 f_params := ["self"; "part"; "name"; "arg_and_err"; "kwd_args"]; f_closure := [];
 f_locals := ["err_base"; "err_ma"; "argerr"; "argerrs"; "k"; "v"; "ks"; "in_kwds"; "ks_"];
 f_outer := ["len"; "ValueError"];
 f_conds := ["*"; "ks_ in kwd_args"; "not in_kwds"; "len(argerrs) >= 1"];
 f_body := block [Use [2;3]; Def [6]; Def [7]; Def [8]; Def [9]; Use [4]; Loop false (block [Def [10]; Def
 [11]; Use [10]; Def [12]; Def [13]; Use [12]; Loop false (block [Def [14]; Use [14;5]; Choice 2 (Def
 [13]) Skip]) Skip; Use [13]; Choice 3 (Use [9;8;10;11]) Skip]) Skip; Use [15;9]; Choice 4 (block
 [Use [16;6;7;9]; Raise]) Skip] |}.

(* multisim/simenv.py, line 2186: SimEnv._get_topology *)
Definition f_simenv__SimEnv__get_topology : func := {|
 f_file := "simenv.py"; f_name := "SimEnv._get_topology"; f_line := 2186;
 f_params := ["self"]; f_closure := [];
 f_locals := ["part"; "_"; "net"; "i"; "flow_net_bkp"; "element"; "err_str"];
 f_outer := ["_FlowNet"; "tuple"; "list"; "set"; "str"; "TypeError"];
 f_conds := ["*"; "self.parts[part]._flow_net_parent"; "self.parts[part].break_topology and (not self.parts[part].hydr_comp) and (self.parts[pa..."; "i == 2"; "self.parts[part].break_topology and self.parts[part]._cnt_open_prts == 1"; "element != ()"; "element[1] != -99"; "not self.parts[part].hydr_comp"];
 f_body := block [Use [1]; Loop false (block [Def [2]; Use [1;2]; Choice 2 (Use [9;1;2]) Skip]) Skip; Use [1];
 Loop false (block [Def [3]; Def [4]; Use [1;10;4]]) Skip; Def [5]; Use [11;1]; Loop false (block
 [Use [5;1]; Loop false (block [Def [2]; Use [1;2]; Choice 1 Skip (block [Use [1;2]; Choice 1 Skip
 (Use [1;2])]); Choice 3 (block [Use [9;1;2]; Def [5]]) Skip]) Skip; Use [5]; Choice 4 (Def [5]) (Def
 [5])]) (Use [5]); Use [12;1]; Def [5]; Use [11;1]; Loop false (block [Use [5;1]; Loop false (block
 [Def [2]; Use [1;2]; Choice 1 Skip (Use [1;2]); Choice 5 (block [Use [9;1;2]; Def [5]]) Skip]) Skip;
 Use [5]; Choice 4 (Def [5]) (Def [5])]) (Use [5]); Use [12;1]; Loop false (block [Def [3]; Def [4];
 Use [1;10;4]]) Skip; Use [1]; Def [6]; Use [10;1;6]; Loop false (block [Def [7]; Use [7]; Choice 6
 (block [Use [7]; Choice 7 (Use [1;7]) Skip]) Skip]) Skip; Use [1]; Loop false (block [Def [2]; Use
 [1;2]; Choice 8 (block [Use [2;13;12;1]; Def [8]; Use [14;8]; Raise]) Skip]) Skip] |}.

(* multisim/simenv.py, line 2325: SimEnv._recursive_topology *)
Definition f_simenv__SimEnv__recursive_topology : func := {|
 f_file := "simenv.py"; f_name := "SimEnv._recursive_topology"; f_line := 2325;
 f_params := ["self"; "parent_pump"; "sub_net"; "kwargs"]; f_closure := [];
 f_locals := ["port_names"; "next_port"; "port"; "current_port"; "topo_routine"; "llim"; "ulim"; "err_lim"; "connected_port"; "connected_part"; "err_str"; "fc"; "channel"];
 f_outer := ["list"; "tuple"; "len"; "getattr"; "ValueError"; "TypeError"];
 f_conds := ["*"; "self.name not in self._models._hydr_comps"; "not self.solve_numeric"; "'next_port' in kwargs"; "port in self._solved_ports"; "self.multiple_flows"; "kwargs['flow_channel'] not in port"; "'parent_port' not in kwargs and (not sub_net)"; "port == 'out'"; "'parent_port' not in kwargs and sub_net"; "'parent_port' in kwargs and (not sub_net)"; "self.break_topology"; "'parent_port' in kwargs and sub_net"; "topo_routine is not None and len(topo_routine) > 1 and (topo_routine[1] in (-4, 4, 5))"; "llim is not None and llim == 0.0"; "ulim is not None and ulim == 0.0"; "connected_part == 'BoundaryCondition'"; "connected_port.split(';')[1] in self._models.parts[connected_part]._solved_ports"; "self._models.parts[connected_part]._flow_net_parent and self._models.parts[connected_pa..."; "connected_part in self._models._hydr_comps"; "not self._models.parts[connected_part].multiple_flows"; "fc in connected_port"];
 f_body := block [Use [2;4;1]; Choice 2 (Return) Skip; Use [1]; Choice 3 (Use [1]) Skip; Use [18;1]; Def [5];
 Use [4]; Choice 4 (block [Use [4]; Def [6]; Use [5;6]]) Skip; Use [5]; Loop false (block [Def [7];
 Use [7;1]; Choice 5 (Continue) Skip; Use [1;7]; Def [8]; Use [1]; Choice 6 (block [Use [4;7]; Choice
 7 (Continue) Skip]) Skip; Def [9]; Use [4]; Choice 1 Skip (Use [3]); Choice 8 (block [Use
 [19;1;2;8;7]; Use [4;1;7]]) (block [Use [4]; Choice 1 Skip (Use [3]); Choice 10 (block [Use
 [19;1;2;8;7;4]; Def [9]; Use [1;2;8;9;7;4]]) (block [Use [4]; Choice 1 Skip (Use [3]); Choice 11
 (block [Use [19;1;2;8;7;3;4]; Def [9]; Use [1;2;8;9]; Choice 12 (Return) Skip]) (block [Use [4];
 Choice 1 Skip (Use [3]); Choice 13 (block [Use [19;1;2;8;7;3;4]; Def [9]; Use [1;2;8;9]; Choice 12
 (Return) Skip]) Skip])])]); Use [9]; Choice 1 Skip (block [Use [20;9]; Choice 1 Skip (Use [9])]);
 Choice 14 (block [Use [21;1]; Def [10]; Use [21;1]; Def [11]; Def [12]; Use [10]; Choice 1 Skip (Use
 [10]); Choice 15 (block [Use [22;12;1;7]; Raise]) Skip; Use [11]; Choice 1 Skip (Use [11]); Choice
 16 (block [Use [22;12;1;7]; Raise]) Skip]) Skip; Use [1;8]; Def [13]; Use [13]; Def [14]; Use [14];
 Choice 17 (Continue) Skip; Use [13;1;14]; Choice 18 (Continue) Skip; Use [1;14]; Choice 1 Skip (Use
 [1;14;2]); Choice 19 (block [Def [15]; Use [23;15]; Raise]) Skip; Use [14;1]; Choice 20 (block [Use
 [1;14]; Choice 21 (Use [1;14;2;3;4;8;13]) (block [Use [1;14]; Loop false (block [Def [16]; Use
 [16;13]; Choice 22 (block [Use [16]; Def [17]]) Skip]) Skip; Use [1;14;2;3;4;8;13;17]])]) Skip])
 Skip] |}.

(* multisim/simenv.py, line 2565: SimEnv._calc_UAwll_port *)
Definition f_simenv__SimEnv__calc_UAwll_port : func := {|
 f_file := "simenv.py"; f_name := "SimEnv._calc_UAwll_port"; f_line := 2565;
 f_params := ["self"]; f_closure := [];
 f_locals := ["part"; "mask"];
 f_outer := ["hasattr"; "np"; "type"];
 f_conds := ["*"; "hasattr(part, '_A_p_wll_mean') and hasattr(part, '_A_p_fld_mean')"; "not hasattr(part, '_UA_port_wll')"; "type(part.grid_spacing) == np.ndarray"];
 f_body := block [Use [1]; Loop false (block [Def [2]; Use [4;2]; Choice 1 Skip (Use [4;2]); Choice 2 (Use [2])
 (Use [2]); Use [2;4]; Choice 3 (Use [5;2]) Skip; Use [2]; Def [3]; Use [6;2;5]; Choice 4 (Use [2;3])
 (Use [2;3])]) Skip] |}.

(* multisim/simenv.py, line 2620: SimEnv._update_FlowNet *)
Definition f_simenv__SimEnv__update_FlowNet : func := {|
 f_file := "simenv.py"; f_name := "SimEnv._update_FlowNet"; f_line := 2620;
 f_params := ["self"]; f_closure := [];
 f_locals := ["port"; "i"; "dm_view"; "part"];
 f_outer := ["np"];
 f_conds := ["*"; "port[1] == 0"; "port[1] == -1"; "i == 1"; "port[1] == 1"; "port[1] == -3"; "port[1] == -4"; "port[1] == 3"; "port[1] == 4"; "port[1] == 2"; "port[1] == 5"];
 f_body := block [Use [1]; Loop false (block [Def [2]; Use [2]; Choice 2 (Use [2]) (block [Use [2]; Choice 3
 (block [Use [2]; Def [3]; Use [2]; Loop false (block [Def [4]; Use [3]; Def [3]; Use [3]; Choice 4
 (Continue) Skip; Use [2;4]]) Skip]) (block [Use [2]; Choice 5 (Use [6;2]) (block [Use [2]; Choice 6
 (Use [2]) (block [Use [2]; Choice 7 (Use [2]) (block [Use [2]; Choice 8 (Use [2]) (block [Use [2];
 Choice 9 (Use [2]) (block [Use [2]; Choice 10 (Use [2]) (block [Use [2]; Choice 11 (Use [2])
 Skip])])])])])])])])]) Skip; Use [1]; Loop false (block [Def [5]; Use [5]]) Skip] |}.

(* multisim/simenv.py, line 2710: SimEnv._update_control *)
Definition f_simenv__SimEnv__update_control : func := {|
 f_file := "simenv.py"; f_name := "SimEnv._update_control"; f_line := 2710;
 f_params := ["self"; "timestep"]; f_closure := [];
 f_locals := ["controller"; "_"];
 f_outer := ["enumerate"];
 f_conds := ["*"];
 f_body := block [Use [5;1]; Loop false (block [Def [3]; Def [4]; Use [1;3;2]]) Skip] |}.

(* multisim/simenv.py, line 2717: SimEnv._update_dyn_BC *)
Definition f_simenv__SimEnv__update_dyn_BC : func := {|
 f_file := "simenv.py"; f_name := "SimEnv._update_dyn_BC"; f_line := 2717;
 f_params := ["self"; "time"; "timestep"]; f_closure := [];
 f_locals := ["cells"; "new_idx"; "first_idx"; "lev"; "BC"; "lev_mean"];
 f_outer := ["int"; "round"];
 f_conds := ["*"; "self._dyn_BC"; "cells <= 1"];
 f_body := block [Use [1]; Choice 2 (block [Use [3;1]; Def [4]; Use [1;4]; Def [5]; Use [10;5]; Def [6]; Use
 [5;10]; Def [7]; Use [1]; Loop false (block [Def [8]; Use [8;6;7]; Def [9]; Use [4]; Choice 3 (Use
 [9;8]) (Use [8;10;11;1;5;4;7;9])]) Skip; Use [5;1]]) Skip] |}.

(* multisim/simenv.py, line 2766: SimEnv._get_conn_port *)
Definition f_simenv__SimEnv__get_conn_port : func := {|
 f_file := "simenv.py"; f_name := "SimEnv._get_conn_port"; f_line := 2766;
 f_params := ["self"; "own_port"; "as_id"]; f_closure := [];
 f_locals := ["own_part_id"; "part"; "conn_part"; "conn_port"; "conn_part_id"; "conn_port_id"];
 f_outer := ["type"; "int"; "np"];
 f_conds := ["*"; "type(own_port) == int"; "own_part_id == self.parts[part].part_id"; "as_id"];
 f_body := block [Use [10;2;11]; Choice 2 (block [Use [1;2]; Def [4]; Use [1]; Loop false (block [Def [5]; Use
 [4;1;5]; Choice 3 (block [Use [1;5;12;2]; Def [2]; Break]) Skip]) Skip]) Skip; Use [1;2]; Def [6];
 Def [7]; Use [3]; Choice 4 (block [Use [1;6]; Def [8]; Use [1;6;7]; Def [9]; Use [9;8]; Return])
 (block [Use [6;7]; Return])] |}.

(* multisim/simenv.py, line 2890: SimEnv._get_arr_idx *)
Definition f_simenv__SimEnv__get_arr_idx : func := {|
 f_file := "simenv.py"; f_name := "SimEnv._get_arr_idx"; f_line := 2890;
 f_params := ["self"; "part"; "port"; "target"; "as_slice"; "flat_index"; "cls"]; f_closure := [];
 f_locals := ["sup_idx"; "err_str"; "parts_dict"; "e"; "unflat_idx"; "idx_ax0"; "idx_ax1"; "idx"; "idx_start"; "fc"; "fc_idx"];
 f_outer := ["str"; "type"; "bool"; "SimEnv"; "AttributeError"; "print"; "breakpoint"; "isinstance"; "int"; "NotImplementedError"; "TypeError"; "repr"; "np"; "slice"];
 f_conds := ["*"; "target in sup_idx"; "type(as_slice) == bool"; "self.__class__ != SimEnv"; "part in parts_dict"; "cls is not None"; "isinstance(part, int) and isinstance(port, int)"; "type(part) != str or type(port) != str"; "port in cls.port_names"; "target == 'temperature'"; "cls._T_port.ndim > 1"; "not flat_index"; "not as_slice"; "target == 'massflow'"; "cls._T_port.ndim == 1"; "cls.dm_invariant"; "not cls.multiple_flows"; "fc in port"; "cls._dm_io.size == cls.port_num"; "not flat_index and (not cls.multiple_flows)"; "flat_index and (not cls.multiple_flows)"; "target == 'port_specs'"; "cls._collapsed"];
 f_body := block [Def [8]; Use [19;8]; Def [9]; Use [4;8]; Choice 2 Skip (block [Use [9]; Raise]); Def [9]; Use
 [20;5;21]; Choice 3 Skip (block [Use [9]; Raise]); Use [1;22]; Choice 4 (Try (block [Use [1]; Def
 [10]]) (block [Use [23]; Def [11]; Use [24;11;25]; Del [11]]) Skip) (block [Use [1]; Def [10]]); Use
 [2;10]; Choice 5 (block [Use [10;2]; Def [7]]) (block [Use [7]; Choice 6 Skip (Raise)]); Use
 [26;2;27]; Choice 1 Skip (Use [26;3;27]); Choice 7 (block [Use [28]; Raise; Use [7;2;3]; Def [2];
 Def [3]]) (block [Use [20;2;19]; Choice 1 Skip (Use [20;3;19]); Choice 8 (block [Def [9]; Use
 [29;9]; Raise]) Skip]); Use [3;2;30;7]; Def [9]; Use [3;7]; Choice 9 Skip (block [Use [9]; Raise]);
 Use [4]; Choice 10 (block [Use [7]; Choice 11 (block [Use [6]; Choice 12 (block [Use [31;7]; Def
 [12]; Use [12;7;3]; Def [13]; Use [12;7;3]; Def [14]; Use [5]; Choice 13 (block [Use [13;14]; Def
 [15]]) (block [Use [13;32;14]; Def [15]])]) (block [Use [7;3]; Def [16]; Use [5]; Choice 13 (block
 [Use [16]; Def [15]]) (block [Use [32;16]; Def [15]])])]) (block [Use [7;3]; Def [16]; Use [5];
 Choice 13 (block [Use [16]; Def [15]]) (block [Use [32;16]; Def [15]])])]) (block [Use [4]; Choice
 14 (block [Use [7]; Choice 15 (block [Use [7]; Choice 16 (block [Use [7]; Choice 17 (block [Use [5];
 Choice 13 (Def [15]) (block [Use [32]; Def [15]])]) (block [Use [7]; Loop false (block [Def [17];
 Use [17;3]; Choice 18 (block [Use [7;17]; Def [18]]) Skip]) Skip; Use [5]; Choice 13 (block [Use
 [18]; Def [15]]) (block [Use [32;18]; Def [15]])])]) (block [Use [7]; Choice 19 (block [Use [7];
 Choice 17 (block [Use [7;3]; Def [16]; Use [5]; Choice 13 (block [Use [16]; Def [15]]) (block [Use
 [32;16]; Def [15]])]) (block [Use [28]; Raise; Use [7]; Loop false (block [Def [17]; Use [17;3];
 Choice 18 (block [Use [7;17]; Def [18]]) Skip]) Skip; Use [5]; Choice 13 (block [Use [18]; Def
 [15]]) (block [Use [32;18]; Def [15]])])]) (block [Use [7;3]; Def [16]; Use [5]; Choice 13 (block
 [Use [16]; Def [15]]) (block [Use [32;16]; Def [15]])])])]) (block [Use [6]; Choice 1 Skip (Use
 [7]); Choice 20 (block [Use [31;7]; Def [12]; Use [12;7;3]; Def [13]; Use [12;7;3]; Def [14]; Use
 [5]; Choice 13 (block [Use [13;14]; Def [15]]) (block [Use [13;32;14]; Def [15]])]) (block [Use [6];
 Choice 1 Skip (Use [7]); Choice 21 (block [Use [7;3]; Def [16]; Use [5]; Choice 13 (block [Use [16];
 Def [15]]) (block [Use [32;16]; Def [15]])]) (block [Use [7]; Loop false (block [Def [17]; Use
 [17;3]; Choice 18 (block [Use [7;17]; Def [18]]) Skip]) Skip; Use [5]; Choice 13 (block [Use [18];
 Def [15]]) (block [Use [32;18]; Def [15]])])])])]) (block [Use [4]; Choice 22 (block [Use [7];
 Choice 15 (block [Use [7]; Choice 23 (block [Use [7;3]; Def [16]]) (block [Use [7;3]; Def [16]]);
 Use [5]; Choice 13 (block [Use [16]; Def [15]]) (block [Use [32;16]; Def [15]])]) (block [Use [6];
 Choice 12 (block [Use [31;7]; Def [12]; Use [12;7;3]; Def [13]; Use [12;7;3]; Def [14]; Use [5];
 Choice 13 (block [Use [13;14]; Def [15]]) (block [Use [13;32;14]; Def [15]])]) (block [Use [7;3];
 Def [16]; Use [5]; Choice 13 (block [Use [16]; Def [15]]) (block [Use [32;16]; Def [15]])])])])
 Skip])]); Use [15]; Return] |}.

(* multisim/simenv.py, line 3378: SimEnv._massflow_idx_from_temp_idx *)
Definition f_simenv__SimEnv__massflow_idx_from_temp_idx : func := {|
 f_file := "simenv.py"; f_name := "SimEnv._massflow_idx_from_temp_idx"; f_line := 3378;
 f_params := ["self"; "part"; "index"]; f_closure := [];
 f_locals := [];
 f_outer := [];
 f_conds := ["*"; "self.parts[part].dm_invariant"];
 f_body := block [Use [1;2;3]; Choice 2 (Return) (block [Use [3]; Return])] |}.

(* multisim/simenv.py, line 3394: SimEnv._get_specs_n_props *)
Definition f_simenv__SimEnv__get_specs_n_props : func := {|
 f_file := "simenv.py"; f_name := "SimEnv._get_specs_n_props"; f_line := 3394;
 f_params := ["self"; "material"; "pipe_specs"; "material_only"; "pipe_specs_only"; "kwargs"]; f_closure := [];
 f_locals := ["err_str"; "key"; "value"; "pipe_type"; "DN"; "get_from_table"; "trgt_idx"];
 f_outer := ["str"; "isinstance"; "bool"; "hasattr"; "dict"; "list"; "float"; "np"; "len"];
 f_conds := ["*"; "isinstance(material_only, bool) and isinstance(pipe_specs_only, bool)"; "not hasattr(self, 'info_topology')"; "not pipe_specs_only"; "material is None"; "'material' in kwargs"; "material in self._models._mprop_sld.columns"; "self.solve_numeric"; "'all_ports' not in self.info_topology"; "not material_only"; "pipe_specs is None"; "'pipe_specs' in kwargs"; "isinstance(pipe_specs, dict)"; "'pipe_type' in pipe_specs[key].keys() and ('DN' in pipe_specs[key].keys() or ('A_i' in ..."; "'DN' in value.keys()"; "pipe_type in self._models._pipe_specs.columns"; "get_from_table"; "DN in self._models._pipe_specs[pipe_type].columns"; "'all' in pipe_specs and len(pipe_specs.keys()) == 1"; "not (hasattr(self, '_A_wll_own_p') and isinstance(self._A_wll_own_p, np.ndarray) and (s..."; "key not in self.info_topology"; "'all' not in pipe_specs"; "len(pipe_specs) == self.port_num"];
 f_body := block [Use [14;4;5]; Def [7]; Use [15;4;16]; Choice 1 Skip (Use [15;5;16]); Choice 2 Skip (block
 [Use [7]; Raise]); Use [17;1]; Choice 3 (Use [18;1]) Skip; Use [5]; Choice 4 (block [Use [14;19;1];
 Def [7]; Use [2]; Choice 5 (block [Use [6]; Choice 6 Skip (block [Use [7]; Raise])]) Skip; Use
 [2;1]; Choice 7 Skip (block [Use [7]; Raise]); Use [20;1;2]; Choice 8 (Use [20;1;2]) (Use
 [21;1;20;2]); Use [1]; Choice 9 (Use [18;1]) Skip; Use [1;2]]) Skip; Use [1]; Def [7]; Use [4];
 Choice 10 (block [Use [3]; Choice 11 (block [Use [6]; Choice 12 Skip (block [Use [7]; Raise]); Use
 [6]; Def [3]]) Skip; Use [15;3;18]; Choice 13 Skip (block [Use [7]; Raise]); Use [3]; Loop false
 (block [Def [8]; Use [3;8]; Choice 1 Skip (block [Use [3;8]; Choice 1 Skip (block [Use [3;8]; Choice
 1 Skip (Use [3;8])])]); Choice 14 Skip (block [Use [7]; Raise])]) Skip; Use [3]; Loop false (block
 [Def [8]; Def [9]; Use [9]; Def [10]; Use [9]; Choice 15 (block [Use [9]; Def [11]; Def [12]])
 (block [Def [12]; Use [9]; Def [11]]); Use [1;14;19]; Def [7]; Use [10;1]; Choice 16 Skip (block
 [Use [7]; Raise]); Use [12]; Choice 17 (block [Use [1]; Def [7]; Use [11;1;10]; Choice 18 Skip
 (block [Use [7]; Raise])]) Skip; Use [3]; Choice 1 Skip (Use [22;3]); Choice 19 (block [Use [1];
 Choice 8 (block [Use [12]; Choice 17 (Use [20;1;10;11]) (Use [20;9;1])]) (block [Use [12]; Choice 17
 (Use [21;1;20;10;11]) (Use [21;1;20;9])]); Use [1]; Choice 9 (Use [18;1]) Skip; Use [1;10;11;12];
 Choice 17 (Use [18;1;10;11]) (Use [9])]) (block [Use [1;8]; Def [13]; Use [17;1]; Choice 1 Skip
 (block [Use [15;1;21]; Choice 1 Skip (Use [1])]); Choice 20 (Use [21;1]) Skip; Use [12]; Choice 17
 (Use [1;10;11;13]) (Use [9;1;13]); Use [8;1]; Choice 21 (Use [18;1;8]) Skip; Use [1;8;10;11;12];
 Choice 17 (Use [1;10;11]) (Use [9])])]) Skip; Use [3]; Choice 22 (block [Use [1]; Def [7]; Use
 [22;3;1]; Choice 23 Skip (block [Use [7]; Raise])]) Skip]) Skip] |}.

(* multisim/simenv.py, line 3676: SimEnv._get_topo_cond *)
Definition f_simenv__SimEnv__get_topo_cond : func := {|
 f_file := "simenv.py"; f_name := "SimEnv._get_topo_cond"; f_line := 3676;
 f_params := ["self"; "port"; "parent_port"]; f_closure := [];
 f_locals := ["trgt_idx"; "src_part"; "src_port"; "src_idx"; "trgt_prt_chr"; "src_prt_chr"; "alg_sign"];
 f_outer := [];
 f_conds := ["*"; "self._T_port.ndim == 1"; "self._T_port.ndim == 2"; "parent_port is not None"; "self._models.parts[src_part]._T_port.ndim == 1"; "self._models.parts[src_part]._T_port.ndim == 2"; "trgt_prt_chr != src_prt_chr"];
 f_body := block [Use [1]; Choice 2 (block [Use [1;2]; Def [4]]) (block [Use [1]; Choice 3 (block [Use [1;2];
 Def [4]]) Skip]); Use [3]; Choice 4 (block [Use [3]; Def [5]; Def [6]; Use [1;5]; Choice 5 (block
 [Use [1;5;6]; Def [7]]) (block [Use [1;5]; Choice 6 (block [Use [1;5;6]; Def [7]]) Skip]); Use
 [1;2]; Def [8]; Use [1;5;6]; Def [9]; Use [8;9]; Choice 7 (Def [10]) (Def [10]); Use [4;5;6;7;10];
 Return]) (block [Use [4]; Return])] |}.

(* multisim/simenv.py, line 3827: SimEnv._angle_to_x_axis *)
Definition f_simenv__SimEnv__angle_to_x_axis : func := {|
 f_file := "simenv.py"; f_name := "SimEnv._angle_to_x_axis"; f_line := 3827;
 f_params := ["vector"]; f_closure := [];
 f_locals := ["angle"];
 f_outer := ["_math"];
 f_conds := ["*"];
 f_body := block [Use [3;1]; Def [2]; Use [2]; Return] |}.

(* multisim/simenv.py, line 3845: SimEnv._rotate_vector *)
Definition f_simenv__SimEnv__rotate_vector : func := {|
 f_file := "simenv.py"; f_name := "SimEnv._rotate_vector"; f_line := 3845;
 f_params := ["vector"; "angle"]; f_closure := [];
 f_locals := ["R"; "vector_rot"];
 f_outer := ["np"];
 f_conds := ["*"];
 f_body := block [Use [5;2]; Def [3]; Use [5;3;1]; Def [4]; Use [4]; Return] |}.

(* multisim/simenv.py, line 3862: SimEnv._heun *)
Definition f_simenv__SimEnv__heun : func := {|
 f_file := "simenv.py"; f_name := "SimEnv._heun"; f_line := 3862;
 f_params := ["self"; "solve_num_expl"; "solve_nonnum"; "timestep"]; f_closure := [];
 f_locals := ["part"];
 f_outer := [];
 f_conds := ["*"];
 f_body := block [Use [2]; Loop false (block [Def [5]; Use [1;5;2;4]]) Skip; Use [3]; Loop false (block [Def
 [5]; Use [1;5]]) Skip; Use [1;2]; Loop false (block [Def [5]; Use [2;5;1;4]]) Skip; Use [3]; Loop
 false (block [Def [5]; Use [1;5]]) Skip; Use [1]] |}.

(* multisim/simenv.py, line 3920: SimEnv._heun_adaptive *)
Definition f_simenv__SimEnv__heun_adaptive : func := {|
 f_file := "simenv.py"; f_name := "SimEnv._heun_adaptive"; f_line := 3920;
 f_params := ["self"; "solve_num_expl"; "solve_num_impl"; "solve_nonnum"; "old_step"]; f_closure := [];
 f_locals := ["_h"; "stepnum"; "rtol"; "atol"; "cnt_instable"; "i"; "err"; "part"; "T_prev"; "err_rms"];
 f_outer := ["np"; "_root"; "_pf"; "max"; "min"; "ValueError"];
 f_conds := ["*"; "i == 0"; "not self._step_stable[0]"; "self._step_stable[0]"; "0.0 < err_rms < 1.0"; "_h > self.__max_stepsize"; "err_rms == 0.0"; "_h == self.__min_stepsize"; "_h < self.__min_stepsize"; "cnt_instable == 100"];
 f_body := block [Use [1]; Def [6]; Use [1]; Def [7]; Use [1]; Def [8]; Use [1]; Def [9]; Use [1]; Def [10];
 Use [16;1]; Def [11]; Loop false (block [Use [1]; Def [12]; Use [1;2]; Loop false (block [Def [13];
 Use [11]; Choice 2 (Use [1;13]) Skip; Use [1;13;7;2;6]; Choice 3 (block [Use [13;1]; Break]) Skip])
 Skip; Use [1]; Choice 4 (block [Use [3]; Loop false (block [Def [13]; Use [1;13;7]; Def [14]; Use
 [17;3;13;14;6;1]]) Skip; Use [4]; Loop false (block [Def [13]; Use [1;13;6]]) Skip; Use [18;1;2];
 Loop false (block [Def [13]; Use [2;13;6;1;18;7;8;9;12]; Def [12]; Use [1;13]]) Skip; Use [3]; Loop
 false (block [Def [13]; Use [1;13]; Def [14]; Use [17;3;13;14;6;1;7]]) Skip; Use [4]; Loop false
 (block [Def [13]; Use [1;13;6]]) Skip; Use [18;1;7;12]; Def [15]; Use [15]; Choice 5 (block [Use
 [1;6;19;20;15]; Def [6]; Use [6;1]; Choice 6 (block [Use [1]; Def [6]; Use [1;7]]) (Use [1;7])])
 (block [Use [15]; Choice 7 (block [Use [1;6]; Def [6]; Use [1;7;6]; Choice 6 (block [Use [1]; Def
 [6]]) Skip]) (block [Use [6;1]; Choice 8 (Use [1;6;7]) (block [Use [6;19;1;15]; Def [6]; Use [6;1];
 Choice 9 (block [Use [1]; Def [6]]) Skip; Use [1;7]])])])]) (block [Use [1;10]; Def [10]; Use [1];
 Def [6]; Use [1;7;10]; Choice 10 (block [Use [21;6;1]; Raise; Use [1;7]; Break]) Skip]); Use [11];
 Def [11]]) (Use [1]); Use [6;1;15;7]] |}.

(* multisim/simenv.py, line 4264: SimEnv.__adaptive_step_control *)
Definition f_simenv__SimEnv___adaptive_step_control : func := {|
 f_file := "simenv.py"; f_name := "SimEnv.__adaptive_step_control"; f_line := 4264;
 f_params := ["_h"; "err"; "num_cells_tot_nmrc_expl"; "_solver_state"; "stepnum"; "_max_factor"; "__min_factor"; "_steps_since_fail"; "_fctr_rec_stps"; "_failed_steps"; "__safety"; "__order"; "__max_stepsize"; "__min_stepsize"; "ports_all"; "__parr_bkp"]; f_closure := [];
 f_locals := ["err_rms"; "_step_accepted"; "timestep"];
 f_outer := ["max"; "min"];
 f_conds := ["*"; "0.0 < err_rms < 1.0"; "_h > __max_stepsize"; "err_rms == 0.0"; "_h == __min_stepsize"; "_h < __min_stepsize"];
 f_body := block [Use [2;3]; Def [17]; Use [17]; Choice 2 (block [Def [18]; Use [1]; Def [19]; Use
 [1;20;21;6;11;17;12;8;9]; Def [1]; Use [1;13]; Choice 3 (block [Use [13]; Def [1]; Use [4;5]]) (Use
 [4;5])]) (block [Use [17]; Choice 4 (block [Def [18]; Use [1]; Def [19]; Use [1;6]; Def [1]; Use
 [4;5;1;13]; Choice 3 (block [Use [13]; Def [1]]) Skip]) (block [Use [1;14]; Choice 5 (block [Def
 [18]; Use [1]; Def [19]; Use [4;5]]) (block [Use [1;20;7;11;17;12]; Def [1]; Use [1;14]; Choice 6
 (block [Use [14]; Def [1]]) Skip; Use [16;15;10;5]; Def [18]])])]); Use [1;19;18;17]; Return] |}.

(* multisim/simenv.py, line 4374: SimEnv._call_postponed *)
Definition f_simenv__SimEnv__call_postponed : func := {|
 f_file := "simenv.py"; f_name := "SimEnv._call_postponed"; f_line := 4374;
 f_params := ["self"]; f_closure := [];
 f_locals := ["add_part"; "init_part"; "kwargs"; "e"; "ke"; "add_open_port"; "dyn_BC"; "connect_ports"; "add_ctrl"; "init_ctrl"];
 f_outer := ["TypeError"; "KeyError"; "str"; "AssertionError"];
 f_conds := ["*"; "str(ke) == 'add_part'"; "'add_open_port' in self.__postpone"; "'dyn_BC' in self.__postpone"; "'connect_ports' in self.__postpone"; "'add_ctrl' in self.__postpone"];
 f_body := block [Try (block [Use [1]; Loop false (block [Def [2]; Use [2]]) Skip; Use [1]; Loop false (block
 [Def [3]; Def [4]; Try (Use [1;3;4]) (block [Use [12]; Def [5]; Use [12;3;5]; Raise; Del [5]])
 Skip]) Skip]) (block [Use [13]; Def [6]; Use [14;6]; Choice 2 (block [Use [15;1]; Raise]) (Raise);
 Del [6]]) Skip; Use [1]; Choice 3 (block [Use [1]; Loop false (block [Def [7]; Use [7]]) Skip])
 Skip; Use [1]; Choice 4 (block [Use [1]; Loop false (block [Def [8]; Use [8]]) Skip; Use [1]]) Skip;
 Use [1]; Choice 5 (block [Use [1]; Loop false (block [Def [9]; Use [9]]) Skip]) Skip; Use [1];
 Choice 6 (block [Use [1]; Loop false (block [Def [10]; Use [10]]) Skip; Use [1]; Loop false (block
 [Def [11]; Def [4]; Use [1;11;4]]) Skip]) Skip] |}.

(* multisim/simenv.py, line 4432: SimEnv._create_port_updater *)
Definition f_simenv__SimEnv__create_port_updater : func := {|
 f_file := "simenv.py"; f_name := "SimEnv._create_port_updater"; f_line := 4432;
 f_params := ["self"]; f_closure := [];
 f_locals := ["interm_result_1_list"; "result_list"; "result_idx_list"; "trgt_idx_list"; "part"; "i"; "trgt_idx"; "src_idx"; "src_idx_inter"; "src_slc_inter"];
 f_outer := ["range"; "np"; "slice"; "tuple"];
 f_conds := ["*"];
 f_body := block [Use [1]; Def [2]; Use [1]; Def [3]; Use [1]; Def [4]; Use [1]; Def [5]; Use [1]; Loop false
 (block [Def [6]; Use [12;6]; Loop false (block [Def [7]; Use [6;7]; Def [8]; Use [6;7]; Def [9]; Use
 [13;9;6]; Def [10]; Use [14;10]; Def [11]; Use [6;11;2;8;5;3;9;4]]) Skip]) Skip; Use [2]; Def [2];
 Use [3]; Def [3]; Use [4]; Def [4]; Use [5]; Def [5]; Use [15;2;1;3;5;4]] |}.

(* multisim/simenv.py, line 4477: SimEnv._collapse_port_arrays *)
Definition f_simenv__SimEnv__collapse_port_arrays : func := {|
 f_file := "simenv.py"; f_name := "SimEnv._collapse_port_arrays"; f_line := 4477;
 f_params := ["self"]; f_closure := [];
 f_locals := ["part"];
 f_outer := ["print"];
 f_conds := ["*"; "part.collapse_arrays and (not part._collapsed)"];
 f_body := block [Use [1]; Loop false (block [Def [2]; Use [2]; Choice 1 Skip (Use [2]); Choice 2 (Use [2;3])
 Skip]) Skip] |}.

(* multisim/simenv.py, line 4522: SimEnv._create_dataclasses *)
Definition f_simenv__SimEnv__create_dataclasses : func := {|
 f_file := "simenv.py"; f_name := "SimEnv._create_dataclasses"; f_line := 4522;
 f_params := ["self"]; f_closure := [];
 f_locals := ["part"; "i"; "lmnt"];
 f_outer := ["hasattr"; "getattr"; "_namedtuple"];
 f_conds := ["*"; "hasattr(part, '_calc_att_list')"];
 f_body := block [Use [1]; Loop false (block [Def [2]; Use [5;2]; Choice 2 (block [Use [2]; Def [3]; Use [2];
 Loop false (block [Def [4]; Use [6;2;3;4]; Def [3]]) Skip; Use [7;2]]) Skip]) Skip] |}.

(* multisim/simenv.py, line 4546: SimEnv._build_simenv *)
Definition f_simenv__SimEnv__build_simenv : func := {|
 f_file := "simenv.py"; f_name := "SimEnv._build_simenv"; f_line := 4546;
 f_params := ["self"]; f_closure := [];
 f_locals := ["name"; "part"; "err_str"; "controller"; "err_slvr"; "err_tf"; "err_ds"];
 f_outer := ["UserWarning"];
 f_conds := ["*"; "not part.initialized"; "self.parts[part].control_req"; "not self.parts[part].ctrl_defined"; "not controller.initialized"; "self._solver_set"; "self._timeframe_set"; "self._disksaving_set"];
 f_body := block [Use [1]; Loop false (block [Def [2]; Def [3]; Use [3]; Choice 2 (block [Use [2;1]; Def [4];
 Use [9;4]; Raise]) Skip]) Skip; Use [1]; Loop false (block [Def [3]; Use [1;3]; Choice 3 (block [Use
 [1;3]; Choice 4 (block [Use [9;1;3]; Raise]) Skip]) Skip]) Skip; Use [1]; Loop false (block [Def
 [5]; Use [5]; Choice 5 (block [Use [9;5;1]; Raise]) Skip]) Skip; Use [1]; Def [6]; Use [1]; Choice 6
 Skip (block [Use [6]; Raise]); Use [1]; Def [7]; Use [1]; Choice 7 Skip (block [Use [7]; Raise]);
 Use [1]; Def [8]; Use [1]; Choice 8 Skip (block [Use [8]; Raise]); Use [1]] |}.

(* multisim/simenv.py, line 4621: SimEnv._initialize_arrays *)
Definition f_simenv__SimEnv__initialize_arrays : func := {|
 f_file := "simenv.py"; f_name := "SimEnv._initialize_arrays"; f_line := 4621;
 f_params := ["self"; "max_steps_b4_save_to_disk"]; f_closure := [];
 f_locals := ["part"];
 f_outer := ["int"; "_psutil"; "np"; "hasattr"];
 f_conds := ["*"; "self.adaptive_steps"; "self.parts[part].solve_numeric"; "self.num_steps > self._msb4save or self.num_steps > self._max_steps"; "self._max_steps > self._msb4save"; "hasattr(self.parts[part], 'res_dQ')"; "hasattr(self.parts[part], '_special_array_init')"];
 f_body := block [Use [1;4;2;5]; Choice 2 (block [Use [4;1]; Loop false (block [Def [3]; Use [1;3]; Choice 3
 (Use [1;3]) Skip]) Skip]) Skip; Use [1]; Choice 1 Skip (Use [1]); Choice 4 (block [Use [1]; Choice 5
 (Use [1]) (Use [1]); Use [1]]) Skip; Use [1]; Loop false (block [Def [3]; Use [1;3]]) Skip; Use [1];
 Loop false (block [Def [3]; Use [1;3]; Choice 3 (block [Use [6;1;3;7]; Choice 6 (Use [6;1;3]) Skip;
 Use [7;1;3]; Choice 7 (Use [1;3]) Skip]) Skip]) Skip; Use [1]; Loop false (block [Def [3]; Use
 [6;1;3]]) Skip; Use [6;1]] |}.

(* multisim/simenv.py, line 4740: SimEnv._create_diff_inputs *)
Definition f_simenv__SimEnv__create_diff_inputs : func := {|
 f_file := "simenv.py"; f_name := "SimEnv._create_diff_inputs"; f_line := 4740;
 f_params := ["self"]; f_closure := [];
 f_locals := ["name"; "part"; "arg"];
 f_outer := ["tuple"; "np"];
 f_conds := ["*"];
 f_body := block [Use [1]; Loop false (block [Def [2]; Def [3]; Use [3]; Loop false (block [Def [4]; Use
 [3;4]]) Skip; Use [5;3;6]]) Skip; Use [1]; Loop false (block [Def [3]; Use [1;3]]) Skip; Use [5;1]] |}.

(* multisim/simenv.py, line 4774: SimEnv._prep_inputs_for_njits *)
Definition f_simenv__SimEnv__prep_inputs_for_njits : func := {|
 f_file := "simenv.py"; f_name := "SimEnv._prep_inputs_for_njits"; f_line := 4774;
 f_params := ["self"]; f_closure := [];
 f_locals := [];
 f_outer := ["tuple"];
 f_conds := ["*"];
 f_body := block [Use [2;1]; Choice 1 Skip (Use [1]); Use [1;2]; Choice 1 Skip (Use [1]); Use [1]] |}.

(* multisim/simenv.py, line 4782: SimEnv._reset_simenv *)
Definition f_simenv__SimEnv__reset_simenv : func := {|
 f_file := "simenv.py"; f_name := "SimEnv._reset_simenv"; f_line := 4782;
 f_params := ["self"]; f_closure := [];
 f_locals := ["part"; "ctrl"];
 f_outer := [];
 f_conds := ["*"];
 f_body := block [Use [1]; Loop false (block [Def [2]; Use [2]]) Skip; Use [1]; Loop false (block [Def [3]; Use
 [3]]) Skip; Use [1]] |}.

(* multisim/simenv.py, line 4804: SimEnv.initialize_sim *)
Definition f_simenv__SimEnv_initialize_sim : func := {|
 f_file := "simenv.py"; f_name := "SimEnv.initialize_sim"; f_line := 4804;
 f_params := ["self"; "build_simenv"; "reset_simenv"]; f_closure := [];
 f_locals := [];
 f_outer := [];
 f_conds := ["*"; "build_simenv"; "reset_simenv"];
 f_body := block [Use [2]; Choice 2 (Use [1]) Skip; Use [3]; Choice 3 (Use [1]) Skip; Use [1]] |}.

(* multisim/simenv.py, line 4847: SimEnv._check_memory_address *)
Definition f_simenv__SimEnv__check_memory_address : func := {|
 f_file := "simenv.py"; f_name := "SimEnv._check_memory_address"; f_line := 4847;
 f_params := ["self"]; f_closure := [];
 f_locals := ["part"];
 f_outer := ["print"; "hasattr"];
 f_conds := ["*"; "self.parts[part].T.__array_interface__['data'][0] != self.parts[part]._memadd_T"; "hasattr(self.parts[part], '_memadd_dm')"; "self.parts[part].dm.__array_interface__['data'][0] != self.parts[part]._memadd_dm"];
 f_body := block [Use [1]; Loop false (block [Def [2]; Use [1;2]; Choice 2 (Use [3;2]) Skip; Use [4;1;2];
 Choice 3 (block [Use [1;2]; Choice 4 (Use [3;2]) Skip]) Skip]) Skip] |}.

(* multisim/simenv.py, line 4876: SimEnv._finalize_sim *)
Definition f_simenv__SimEnv__finalize_sim : func := {|
 f_file := "simenv.py"; f_name := "SimEnv._finalize_sim"; f_line := 4876;
 f_params := ["self"]; f_closure := [];
 f_locals := ["part"; "p"; "k"; "v"; "states"; "states_list"];
 f_outer := ["pd"; "np"; "hasattr"; "len"; "dict"; "zip"; "print"; "str"; "_time_"];
 f_conds := ["*"; "self.__save_to_disk"; "self.parts[part].res.ndim == 2"; "self.parts[part].res.ndim == 3"; "hasattr(self.parts[part], '_final_datastore_backcalc')"; "hasattr(p, '_check_results')"; "len(self._disk_store_utility) > 0"; "4 not in states"; "5 not in states"; "6 not in states"; "7 not in states"; "not self.suppress_printing"];
 f_body := block [Use [1]; Choice 2 (Use [1]) Skip; Use [1]; Choice 2 (Use [8;1]) Skip; Use [1]; Choice 2
 (block [Use [1]; Loop false (block [Def [2]; Use [9;1;2]; Choice 3 (Use [9;1;2]) (block [Use [1;2];
 Choice 4 (Use [9;1;2]) Skip]); Use [10;1;2]; Choice 5 (Use [1;2]) Skip]) Skip; Use [1;9]]) Skip; Use
 [1]; Loop false (block [Def [3]; Use [10;3]; Choice 6 (Use [3]) Skip]) Skip; Use [9;1]; Choice 2
 (block [Use [1;8;11]; Choice 7 (block [Use [1]; Loop false (block [Def [4]; Def [5]; Use [5;1;12]])
 Skip]) Skip; Use [1]]) Skip; Use [12;13;9;1]; Def [6]; Use [6]; Choice 8 Skip (Use [6]); Use [6];
 Choice 9 Skip (Use [6]); Use [6]; Choice 10 Skip (Use [6]); Use [6]; Choice 11 Skip (Use [6]); Use
 [6]; Def [7]; Use [1]; Choice 12 (Use [14;15;1;6;7]) Skip; Use [16;1]] |}.

(* multisim/simenv.py, line 5032: SimEnv.start_sim *)
Definition f_simenv__SimEnv_start_sim : func := {|
 f_file := "simenv.py"; f_name := "SimEnv.start_sim"; f_line := 5032;
 f_params := ["self"]; f_closure := [];
 f_locals := ["Counter"; "name"; "prt"; "isanynan"];
 f_outer := ["UserWarning"; "TypeError"; "_time_"; "int"; "sys"; "np"; "print"];
 f_conds := ["*"; "not self._initialized"; "self._disksaving_set and self._disk_store['start_date'] is None"; "self.stepnum[0] == self.num_steps"; "self.time_sim < self.timeframe"; "Counter - int(Counter) < 0.01"; "self._total_stepnum % 5000 == 0"; "isanynan"];
 f_body := block [Use [1]; Choice 2 (block [Use [6;1]; Raise]) Skip; Use [1]; Choice 1 Skip (Use [1]); Choice 3
 (block [Use [7]; Raise]) Skip; Use [8;1]; Loop false (block [Use [1]; Choice 4 (block [Use [1];
 Choice 5 (Use [1]) Skip]) Skip; Use [1]; Def [2]; Use [2;9]; Choice 6 (Use [10;9;2]) Skip; Use [1];
 Choice 7 (block [Use [1]; Loop false (block [Def [3]; Def [4]; Use [11;4]; Choice 1 Skip (Use
 [11;4]); Def [5]; Use [5]; Choice 8 (block [Use [12;1]; Break]) Skip]) Skip]) Skip]) (Use [1]); Use
 [8;1]] |}.

(* multisim/simenv.py, line 5135: SimEnv.__deprecated_free_memory *)
Definition f_simenv__SimEnv___deprecated_free_memory : func := {|
 f_file := "simenv.py"; f_name := "SimEnv.__deprecated_free_memory"; f_line := 5135;
 f_params := ["self"; "array_length"]; f_closure := [];
 f_locals := ["arr_to_append"; "part"; "hdf_idx"; "coln"];
 f_outer := ["np"; "pd"; "getattr"; "hasattr"];
 f_conds := ["*"; "not self.__save_to_disk"; "self.parts[part].res[:array_length, ...].ndim == 2"; "self.parts[part].res[:array_length, ...].ndim == 3"; "hasattr(self.parts[part], '_special_free_memory')"];
 f_body := block [Use [1]; Choice 2 (block [Use [7;1]; Def [3]; Use [7;1;3]; Loop false (block [Def [4]; Use
 [7;1;4]]) Skip; Use [1]]) (block [Use [1;8;2]; Def [5]; Use [7;1;2]; Loop false (block [Def [4]; Use
 [1;4;8;2;5]; Choice 3 (Use [1;4;8;2;5]) (block [Use [1;4;2]; Choice 4 (block [Use [9;1;4]; Def [6];
 Use [1;4;8;2;7;5;6]]) Skip]); Use [1;4;10]; Choice 5 (Use [1;4;2;5]) Skip]) Skip; Use [1]])] |}.

(* multisim/simenv.py, line 5278: SimEnv._free_memory *)
Definition f_simenv__SimEnv__free_memory : func := {|
 f_file := "simenv.py"; f_name := "SimEnv._free_memory"; f_line := 5278;
 f_params := ["self"; "array_length"]; f_closure := [];
 f_locals := ["arr_to_append"; "part"; "store"; "hdf_idx"; "coln"];
 f_outer := ["np"; "pd"; "getattr"; "hasattr"];
 f_conds := ["*"; "not self.__save_to_disk"; "self.parts[part].res[:array_length, ...].ndim == 2"; "self.parts[part].res[:array_length, ...].ndim == 3"; "hasattr(self.parts[part], '_special_free_memory')"];
 f_body := block [Use [1]; Choice 2 (block [Use [8;1]; Def [3]; Use [8;1;3]; Loop false (block [Def [4]; Use
 [8;1;4]]) Skip; Use [1]]) (block [Use [9;1]; Def [5]; Use [1;9;2]; Def [6]; Use [8;1;2]; Loop false
 (block [Def [4]; Use [5;4;9;1;2;6]; Choice 3 (Use [5;4;9;1;2;6]) (block [Use [1;4;2]; Choice 4
 (block [Use [10;1;4]; Def [7]; Use [5;4;9;1;2;8;6;7]]) Skip]); Use [1;4;11]; Choice 5 (Use
 [1;4;5;2;6]) Skip]) Skip; Use [1]])] |}.

(* multisim/simenv.py, line 5424: SimEnv._compress_store *)
Definition f_simenv__SimEnv__compress_store : func := {|
 f_file := "simenv.py"; f_name := "SimEnv._compress_store"; f_line := 5424;
 f_params := ["self"]; f_closure := [];
 f_locals := ["key"; "dst_tab"; "pn"; "dsp"];
 f_outer := ["list"; "pd"; "isinstance"; "bool"; "np"; "int"; "tuple"; "slice"; "os"; "print"];
 f_conds := ["*"; "self._disk_store['compress']"; "isinstance(dsp, bool) and (not dsp)"; "isinstance(dsp, bool) and dsp"; "dst_tab.shape[1] == 1"; "isinstance(dsp, (int, list, tuple))"; "isinstance(dsp, int)"; "isinstance(dsp, slice)"; "not self._disk_store['resample']"];
 f_body := block [Use [1;6]; Choice 2 (block [Use [7;1]; Loop false (block [Def [2]; Use [1;2]; Def [3]; Use
 [2]; Def [4]; Use [1;4]; Def [5]; Use [8;5;9]; Choice 1 Skip (Use [5]); Choice 3 (Continue) (block
 [Use [8;5;9]; Choice 1 Skip (Use [5]); Choice 4 (block [Use [10]; Def [5]]) (block [Use [3]; Choice
 5 (block [Use [10]; Def [5]]) (block [Use [8;5;11;6;12]; Choice 6 (block [Use [8;5;11]; Choice 7
 (Use [10;6;5]) (Use [10;6;5]); Def [5]]) (block [Use [8;5;13]; Choice 8 (block [Use [10;5]; Def
 [5]]) Skip])])])]); Use [1]; Choice 9 (Use [1;2;3;5]) (Use [1;2;3;5])]) Skip; Use [1;14]]) (block
 [Use [1]; Choice 9 (Use [1;14;7;15]) (block [Use [7;1]; Loop false (block [Def [2]; Use [1;2]])
 Skip; Use [1;14]])])] |}.

(* multisim/simenv.py, line 5532: SimEnv._write_report *)
Definition f_simenv__SimEnv__write_report : func := {|
 f_file := "simenv.py"; f_name := "SimEnv._write_report"; f_line := 5532;
 f_params := ["self"]; f_closure := [];
 f_locals := ["states"; "failure"; "fail_info"; "qrtl_25"; "med"; "qrtl_75"; "info"; "rprt"];
 f_outer := ["dict"; "zip"; "np"; "__version__"; "sys"; "pd"];
 f_conds := ["*"; "4 not in states"; "5 not in states"; "6 not in states"; "7 not in states"; "98 not in states"; "99 not in states"; "states[98] != 0 or states[99] != 0"; "failure"; "states[98] != 0"; "states[99] == 0"; "self.__save_to_disk"];
 f_body := block [Use [10;11;12;1]; Def [2]; Use [2]; Choice 2 Skip (Use [2]); Use [2]; Choice 3 Skip (Use
 [2]); Use [2]; Choice 4 Skip (Use [2]); Use [2]; Choice 5 Skip (Use [2]); Use [2]; Choice 6 Skip
 (Use [2]); Use [2]; Choice 7 Skip (Use [2]); Use [2]; Choice 1 Skip (Use [2]); Def [3]; Use [3]; Use
 [1]; Def [4]; Use [3]; Choice 9 (block [Use [2]; Use [4]]) Skip; Use [12;1]; Def [5]; Def [6]; Def
 [7]; Use [13;2]; Def [8]; Use [8;4;2;1;6;5;7;14;15]; Def [9]; Use [1]; Choice 12 (Use [9;1]) Skip] |}.

(* multisim/simenv.py, line 5619: SimEnv.return_stored_data *)
Definition f_simenv__SimEnv_return_stored_data : func := {|
 f_file := "simenv.py"; f_name := "SimEnv.return_stored_data"; f_line := 5619;
 f_params := ["self"]; f_closure := [];
 f_locals := ["dfs"; "part"; "ds_keys"; "mtrs"; "k"];
 f_outer := ["hasattr"; "KeyError"; "len"; "ValueError"];
 f_conds := ["*"; "self.__save_to_disk"; "hasattr(self.parts[part], '_special_return_store')"; "'meters' not in k"; "len(mtrs) > 0"];
 f_body := block [Use [1]; Choice 2 (block [Def [2]; Use [1]; Loop false (block [Def [3]; Try (block [Use
 [1;3;2;7]; Choice 3 (Use [1;3;2]) Skip]) (block [Use [8]; Continue]) Skip]) Skip; Use [1;2]; Def
 [4]; Def [5]; Use [4]; Loop false (block [Def [6]; Use [6]; Choice 4 (Continue) Skip; Use [1;6;5]])
 Skip; Use [9;5]; Choice 5 (Use [5;2]) Skip; Use [1;2]; Return]) (block [Use [10]; Raise])] |}.

(* multisim/simenv.py, line 5668: SimEnv._crop_results *)
Definition f_simenv__SimEnv__crop_results : func := {|
 f_file := "simenv.py"; f_name := "SimEnv._crop_results"; f_line := 5668;
 f_params := ["self"]; f_closure := [];
 f_locals := ["part"];
 f_outer := ["hasattr"];
 f_conds := ["*"; "hasattr(self.parts[part], '_special_crop_results')"];
 f_body := block [Use [1]; Loop false (block [Def [2]; Use [1;2;3]; Choice 2 (Use [1;2]) Skip]) Skip] |}.

(* multisim/simenv.py, line 5689: SimEnv._check_isadded *)
Definition f_simenv__SimEnv__check_isadded : func := {|
 f_file := "simenv.py"; f_name := "SimEnv._check_isadded"; f_line := 5689;
 f_params := ["self"; "part"; "kind"]; f_closure := [];
 f_locals := ["err_str"];
 f_outer := [];
 f_conds := ["*"; "kind in ['part', 'control', 'open_port']"; "kind == 'part'"; "part not in self.__postpone['add_part']"; "kind == 'control'"; "part not in self.__postpone['add_ctrl']"; "kind == 'open_port'"; "part not in self.__postpone['add_open_port']"];
 f_body := block [Def [4]; Use [3]; Choice 2 Skip (block [Use [4;3]; Raise]); Def [4]; Use [3]; Choice 3 (block
 [Use [2;1]; Choice 4 Skip (block [Use [4;3;2]; Raise])]) Skip; Use [3]; Choice 5 (block [Use [2;1];
 Choice 6 Skip (block [Use [4;3;2]; Raise])]) (block [Use [3]; Choice 7 (block [Use [2;1]; Choice 8
 Skip (block [Use [4;3;2]; Raise])]) Skip])] |}.

(* multisim/simenv.py, line 5720: SimEnv._check_ispart *)
Definition f_simenv__SimEnv__check_ispart : func := {|
 f_file := "simenv.py"; f_name := "SimEnv._check_ispart"; f_line := 5720;
 f_params := ["self"; "part"]; f_closure := [];
 f_locals := ["setpart"; "diffs"; "p"; "err_str"];
 f_outer := ["set"; "len"; "str"; "repr"];
 f_conds := ["*"; "len(setpart.symmetric_difference(set(p))) < 2"; "len(diffs) > 0"; "part in self.parts"];
 f_body := block [Use [7;2]; Def [3]; Def [4]; Use [1]; Loop false (block [Def [5]; Use [8;3;7;5]; Choice 2
 (Use [4;5]) Skip]) Skip; Use [8;4]; Choice 3 (block [Use [9;2;1;10;4]; Def [6]]) (block [Use
 [9;2;1]; Def [6]]); Use [2;1]; Choice 4 Skip (block [Use [6]; Raise])] |}.

(* multisim/simenv.py, line 5742: SimEnv._check_isport *)
Definition f_simenv__SimEnv__check_isport : func := {|
 f_file := "simenv.py"; f_name := "SimEnv._check_isport"; f_line := 5742;
 f_params := ["self"; "part"; "port"]; f_closure := [];
 f_locals := ["setport"; "diffs"; "p"; "err_str"];
 f_outer := ["set"; "len"; "str"; "repr"];
 f_conds := ["*"; "len(setport.symmetric_difference(set(p))) < 2"; "len(diffs) > 0"; "port in self.parts[part].port_names"];
 f_body := block [Use [1;2;8;3]; Def [4]; Def [5]; Use [1;2]; Loop false (block [Def [6]; Use [9;4;8;6]; Choice
 2 (Use [5;6]) Skip]) Skip; Use [9;5]; Choice 3 (block [Use [10;3;2;1;11;5]; Def [7]]) (block [Use
 [10;3;2;1]; Def [7]]); Use [3;1;2]; Choice 4 Skip (block [Use [7]; Raise])] |}.

(* multisim/simenv.py, line 5765: SimEnv._check_isinrange *)
Definition f_simenv__SimEnv__check_isinrange : func := {|
 f_file := "simenv.py"; f_name := "SimEnv._check_isinrange"; f_line := 5765;
 f_params := ["self"; "part"; "index"; "target_array"]; f_closure := [];
 f_locals := ["targets"; "err_str"];
 f_outer := ["str"; "isinstance"; "int"; "np"];
 f_conds := ["*"; "target_array in targets"; "isinstance(index, (int, np.integer))"; "target_array == 'temperature'"; "index < self.parts[part].T.size"; "target_array == 'massflow'"; "index < self.parts[part]._dm_io.size"; "target_array == 'ports'"; "index < self.parts[part]._T_port.size"];
 f_body := block [Use [1;2]; Def [5]; Use [7;5;2]; Def [6]; Use [4;5]; Choice 2 Skip (block [Use [6]; Raise]);
 Use [7;3;4;2;1]; Def [6]; Use [8;3;9;10]; Choice 3 Skip (block [Use [6]; Raise]); Use [7;3;4;2;1];
 Def [6]; Use [4]; Choice 4 (block [Use [3;1;2]; Choice 5 Skip (block [Use [6]; Raise])]) (block [Use
 [4]; Choice 6 (block [Use [3;1;2]; Choice 7 Skip (block [Use [6]; Raise])]) (block [Use [4]; Choice
 8 (block [Use [3;1;2]; Choice 9 Skip (block [Use [6]; Raise])]) Skip])])] |}.

(* multisim/flownet.py, line 1: <module> *)
Definition f_flownet__module : func := {|
 f_file := "flownet.py"; f_name := "<module>"; f_line := 1;
 f_params := []; f_closure := [];
 f_locals := ["odict"; "FlowNet"];
 f_outer := [];
 f_conds := ["*"];
 f_body := block [Def [1]; Def [2]] |}.

(* multisim/flownet.py, line 10: FlowNet.<class> *)
Definition f_flownet__FlowNet__class_ : func := {|
 f_file := "flownet.py"; f_name := "FlowNet.<class>"; f_line := 10;
 f_params := []; f_closure := [];
 f_locals := ["__init__"];
 f_outer := [];
 f_conds := ["*"];
 f_body := Def [1] |}.

(* multisim/flownet.py, line 11: FlowNet.__init__ *)
Definition f_flownet__FlowNet___init__ : func := {|
 f_file := "flownet.py"; f_name := "FlowNet.__init__"; f_line := 11;
 f_params := ["self"; "SimEnv_instance"; "part"; "sub_net"]; f_closure := [];
 f_locals := [];
 f_outer := ["odict"];
 f_conds := ["*"; "not sub_net"; "sub_net"];
 f_body := block [Use [4]; Choice 2 (Use [1;3]) (block [Use [4]; Choice 3 (Use [1;3]) Skip]); Use [2;3;1;5]] |}.

(* multisim/controls.py, line 1: <module> *)
Definition f_controls__module : func := {|
 f_file := "controls.py"; f_name := "<module>"; f_line := 1;
 f_params := []; f_closure := [];
 f_locals := ["np"; "_ctrl_deadtime"; "Controls"];
 f_outer := [];
 f_conds := ["*"];
 f_body := block [Def [1]; Def [2]; Def [3]] |}.

(* multisim/controls.py, line 12: Controls.<class> *)
Definition f_controls__Controls__class_ : func := {|
 f_file := "controls.py"; f_name := "Controls.<class>"; f_line := 12;
 f_params := []; f_closure := [];
 f_locals := ["__init__"; "init_controller"; "clear"; "ctrl"; "_process_cv_direct"; "_clip_cv_to_saturation"; "_cv_invert"; "_subcontroller_check"; "__check_args"];
 f_outer := [];
 f_conds := ["*"];
 f_body := block [Def [1]; Def [2]; Def [3]; Def [4]; Def [5]; Def [6]; Def [7]; Def [8]; Def [9]] |}.

(* multisim/controls.py, line 30: Controls.__init__ *)
Definition f_controls__Controls___init__ : func := {|
 f_file := "controls.py"; f_name := "Controls.__init__"; f_line := 30;
 f_params := ["self"; "name"; "master_cls"; "kwargs"]; f_closure := [];
 f_locals := ["base_err"; "arg_err"; "err_str"; "pcv"; "found"; "i"; "controls"; "dep_list"; "err_invert"];
 f_outer := ["str"; "type"; "callable"; "isinstance"; "list"; "tuple"; "int"; "float"; "hasattr"; "np"; "enumerate"; "ValueError"; "AttributeError"; "TypeError"; "bool"; "getattr"; "slice"; "len"];
 f_conds := ["*"; "type(name) == str"; "'actuator' in kwargs and kwargs['actuator'] in self._models.parts"; "self._models.parts[self.actuator].is_actuator"; "not self._models.parts[self.actuator].ctrl_defined"; "'process_CV_mode' in kwargs and kwargs['process_CV_mode'] in pcv"; "self._process_cv_mode == 'direct'"; "self._process_cv_mode == 'part_specific'"; "self._process_cv_mode == 'custom'"; "'process_cv_func' in kwargs and callable(kwargs['process_cv_func'])"; "'CV_saturation' in kwargs and isinstance(kwargs['CV_saturation'], (list, tuple)) and is..."; "self._cv_sat_min < self._cv_sat_max"; "hasattr(self._models.parts[self.actuator], '_llim') and hasattr(self._models.parts[self..."; "'controlled_part' in kwargs"; "'controlled_port' in kwargs"; "'reference_part' in kwargs and (kwargs['reference_part'] == 'none' or kwargs['reference..."; "not kwargs['reference_part'] == 'none'"; "'reference_port' in kwargs and isinstance(kwargs['reference_port'], (str, int))"; "self.ref_part == 'none' and self._process_cv_mode != 'linked'"; "'setpoint' in kwargs and isinstance(kwargs['setpoint'], (int, float))"; "self._process_cv_mode != 'linked'"; "'ref_SP_diff' in kwargs and isinstance(kwargs['ref_SP_diff'], (int, float))"; "self._models.parts[self.actuator].actuator_special and self._process_cv_mode != 'linked'"; "self._process_cv_mode == 'linked'"; "self.ref_part != 'none'"; "self._models.parts[self.actuator].constr_type == self._models.parts[self.ref_part].cons..."; "controls.actuator == self.ref_part"; "controls._process_cv_mode == 'direct'"; "controls._process_cv_mode == 'part_specific' or controls._process_cv_mode == 'custom'"; "not found"; "'sub_controller' in kwargs and type(kwargs['sub_controller']) == bool"; "self.sub_ctrl"; "'master_type' in kwargs and type(kwargs['master_type']) == str and (kwargs['master_type..."; "self._master_type == 'controller'"; "'master_controller' in kwargs and kwargs['master_controller'] in self._models.ctrls"; "'master_part' in kwargs and kwargs['master_part'] in self._models.parts"; "'master_variable' in kwargs"; "hasattr(self._models.parts[self.master_part], kwargs['master_variable'])"; "kwargs['master_variable'] == 'dm'"; "self._models.parts[self.master_part].constr_type in ('PipeWithPump', 'PPump')"; "'master_variable_index' in kwargs and isinstance(kwargs['master_variable_index'], int)"; "0 <= self._master_variable_index < getattr(self._models.parts[self.master_part], self._..."; "'dependency_kind' in kwargs and type(kwargs['dependency_kind']) == str and (kwargs['dep..."; "self.dependency_kind == 'concurrent'"; "'off_state' in kwargs and isinstance(kwargs['off_state'], (int, float))"; "'time_domain' in kwargs and kwargs['time_domain'] in ['discrete', 'continuous']"; "kwargs['time_domain'] == 'discrete'"; "kwargs['time_domain'] == 'continuous'"; "'deadtime' in kwargs and isinstance(kwargs['deadtime'], (int, float)) and (kwargs['dead..."; "'slope' in kwargs and type(kwargs['slope']) == tuple and (len(kwargs['slope']) == 2) an..."; "self._slope_n == 0.0 and self._slope_p == 0.0"; "self._slope_n < 0.0 < self._slope_p"; "'invert' in kwargs and isinstance(kwargs['invert'], bool)"; "not kwargs['invert']"; "'steady_state' in kwargs"];
 f_body := block [Use [14;2]; Def [5]; Def [6]; Use [5;1;6;15;2;14]; Choice 2 Skip (block [Use [5;6]; Raise]);
 Use [2;1;3;4]; Choice 1 Skip (Use [4;1]); Choice 3 Skip (block [Use [5;6;14;1]; Raise]); Use [4;1];
 Choice 4 Skip (block [Use [5;6;1]; Raise]); Use [5;6;1]; Def [7]; Use [1]; Choice 5 Skip (block [Use
 [7]; Raise]); Use [5;6]; Def [7]; Def [8]; Use [4]; Choice 1 Skip (Use [4;8]); Choice 6 Skip (block
 [Use [7]; Raise]); Use [4;1]; Choice 7 (Use [1]) (block [Use [1]; Choice 8 (Use [1]) (block [Use
 [1]; Choice 9 (block [Use [5;6]; Def [7]; Use [4]; Choice 1 Skip (Use [16;4]); Choice 10 Skip (block
 [Use [7]; Raise]); Use [4;1]]) Skip])]); Use [1]; Def [7]; Use [4]; Choice 1 Skip (block [Use
 [17;4;18;19]; Choice 1 Skip (block [Use [17;4;20;21]; Choice 1 Skip (Use [17;4;20;21])])]); Choice
 11 Skip (block [Use [7]; Raise]); Use [21;4;1]; Choice 12 Skip (block [Use [7]; Raise]); Use
 [5;6;14;1]; Def [7]; Use [22;1]; Choice 1 Skip (Use [22;1]); Choice 13 Skip (block [Use [7];
 Raise]); Use [1;4]; Choice 14 Skip (block [Use [5]; Raise]); Use [4]; Choice 15 Skip (block [Use
 [5]; Raise]); Use [1;4;5]; Def [7]; Use [4]; Choice 1 Skip (block [Use [4]; Choice 1 Skip (Use
 [4;1])]); Choice 16 Skip (block [Use [7]; Raise]); Use [4]; Choice 17 (block [Use [5]; Def [7]; Use
 [4]; Choice 1 Skip (Use [17;4;14;20]); Choice 18 Skip (block [Use [7]; Raise]); Use [1;4]]) (Use
 [1]); Use [1]; Choice 1 Skip (Use [1]); Choice 19 (block [Use [5]; Def [7]; Use [4]; Choice 1 Skip
 (Use [17;4;20;21]); Choice 20 Skip (block [Use [7]; Raise]); Use [23;4;1]]) (block [Use [1]; Choice
 21 (block [Use [5;1]; Def [7]; Use [4]; Choice 1 Skip (Use [17;4;20;21]); Choice 22 Skip (block [Use
 [7]; Raise]); Use [21;4;1]]) Skip]); Use [1]; Choice 1 Skip (Use [1]); Choice 23 (block [Use [5;1];
 Def [7]]) (block [Use [1]; Choice 24 (block [Use [5]; Def [7]; Use [1]; Choice 25 Skip (block [Use
 [7]; Raise]); Use [1]; Choice 26 Skip (block [Use [5;1]; Raise]); Def [9]; Use [24;1]; Loop false
 (block [Def [10]; Def [11]; Use [11;1]; Choice 27 (block [Def [9]; Use [11]; Choice 28 (block [Use
 [11;1;25]; Raise; Use [1]]) (block [Use [11]; Choice 1 Skip (Use [11]); Choice 29 (block [Use
 [11;1]; Try (block [Use [25]; Raise; Use [1]]) (block [Use [26;27]; Raise]) Skip]) Skip]); Break])
 Skip]) Skip; Use [9]; Choice 30 (block [Use [5;6;14;1]; Def [7]]) Skip]) Skip]); Use [1;5;6]; Def
 [7]; Use [4]; Choice 1 Skip (Use [15;4;28]); Choice 31 Skip (block [Use [7]; Raise]); Use [4;1];
 Choice 32 (block [Use [5;6]; Def [7]; Use [4]; Choice 1 Skip (block [Use [15;4;14]; Choice 1 Skip
 (Use [4])]); Choice 33 Skip (block [Use [7]; Raise]); Use [4;1]; Choice 34 (block [Use
 [5;6;1;14;18]; Def [7]; Use [4]; Choice 1 Skip (Use [4;1]); Choice 35 Skip (block [Use [7]; Raise]);
 Use [4;1]]) (block [Use [5;6;1;14;18]; Def [7]; Use [4]; Choice 1 Skip (Use [4;1]); Choice 36 Skip
 (block [Use [7]; Raise]); Use [4;1;5;6]; Def [7]; Use [4]; Choice 37 Skip (block [Use [7]; Raise]);
 Use [22;1;4]; Choice 38 Skip (block [Use [5;6;4;1]; Raise]); Use [4]; Choice 39 (block [Use [1];
 Choice 40 Skip (Raise)]) Skip; Use [4;1]; Choice 1 Skip (Use [17;4;20]); Choice 41 Skip (block [Use
 [7]; Raise]); Use [4;1;5;29]; Def [7]; Use [1;29]; Choice 1 Skip (Use [17;1;20]); Choice 42 Skip
 (block [Use [7]; Raise]); Use [29;1;30]]); Use [5;6;1]; Def [7]; Def [12]; Use [4]; Choice 1 Skip
 (block [Use [15;4;14]; Choice 1 Skip (Use [4;12])]); Choice 43 Skip (block [Use [7]; Raise]); Use
 [4;1]; Choice 44 (Use [1]) (Use [1])]) Skip; Use [5;6]; Def [7]; Use [4]; Choice 1 Skip (Use
 [17;4;20;21]); Choice 45 Skip (block [Use [7]; Raise]); Use [21;4;1;5;6]; Def [7]; Use [4]; Choice 1
 Skip (Use [4]); Choice 46 Skip (block [Use [7]; Raise]); Use [4]; Choice 47 (Use [1]) (block [Use
 [4]; Choice 48 (Use [1]) Skip]); Use [5;6]; Def [7]; Use [4]; Choice 1 Skip (block [Use
 [17;4;20;21]; Choice 1 Skip (Use [4])]); Choice 49 Skip (block [Use [7]; Raise]); Use
 [4;1;23;20;5;6]; Def [7]; Use [4]; Choice 1 Skip (block [Use [15;4;19]; Choice 1 Skip (block [Use
 [31;4]; Choice 1 Skip (block [Use [17;4;20;21]; Choice 1 Skip (Use [17;4;20;21])])])]); Choice 50
 Skip (block [Use [7]; Raise]); Use [21;4;1]; Choice 1 Skip (Use [1]); Choice 51 (Use [1]) (block
 [Use [1]; Choice 52 Skip (block [Use [7]; Raise])]); Use [5;6]; Def [13]; Use [4]; Choice 1 Skip
 (Use [17;4;28]); Choice 53 Skip (block [Use [13]; Raise]); Use [4]; Use [1;4]; Choice 55 (Use [4;1])
 (Use [1]); Use [1;2]] |}.

(* multisim/controls.py, line 798: Controls.init_controller *)
Definition f_controls__Controls_init_controller : func := {|
 f_file := "controls.py"; f_name := "Controls.init_controller"; f_line := 798;
 f_params := ["self"; "kwargs"]; f_closure := [];
 f_locals := ["err_str"];
 f_outer := ["ValueError"];
 f_conds := ["*"; "not kwargs and self.ctrl_alg != 999"];
 f_body := block [Use [2]; Choice 1 Skip (Use [1]); Choice 2 (block [Use [1]; Def [3]; Use [4;3]; Raise]) Skip;
 Use [1]] |}.

(* multisim/controls.py, line 816: Controls.clear *)
Definition f_controls__Controls_clear : func := {|
 f_file := "controls.py"; f_name := "Controls.clear"; f_line := 816;
 f_params := ["self"]; f_closure := [];
 f_locals := [];
 f_outer := [];
 f_conds := ["*"; "self.discrete_time"];
 f_body := block [Use [1]; Choice 2 (Use [1]) (Use [1])] |}.

(* multisim/controls.py, line 841: Controls.ctrl *)
Definition f_controls__Controls_ctrl : func := {|
 f_file := "controls.py"; f_name := "Controls.ctrl"; f_line := 841;
 f_params := ["self"; "timestep"]; f_closure := [];
 f_locals := ["current_slope"];
 f_outer := ["_ctrl_deadtime"];
 f_conds := ["*"; "self._process_cv_mode != 'linked'"; "not self._steady_state"; "self.discrete_time"; "self.use_ref"; "self.deadtime"; "self._slope"; "self._slope_n <= current_slope <= self._slope_p"; "current_slope > self._slope_p"];
 f_body := block [Use [1]; Choice 2 (block [Use [1]; Choice 3 (block [Use [1]; Choice 4 (Use [1]) (Use [1])])
 Skip; Use [1]; Choice 5 (Use [1]) Skip; Use [1]; Choice 6 (Use [4;1;2]) (Use [1]); Use [1;2]; Choice
 7 (block [Use [1;2]; Def [3]; Use [1;3]; Choice 8 (Use [1]) (block [Use [3;1]; Choice 9 (Use [1;2])
 (Use [1;2])]); Use [1]]) Skip; Use [1]]) Skip] |}.

(* multisim/controls.py, line 909: Controls._process_cv_direct *)
Definition f_controls__Controls__process_cv_direct : func := {|
 f_file := "controls.py"; f_name := "Controls._process_cv_direct"; f_line := 909;
 f_params := ["self"; "dummy_cls_instance"]; f_closure := [];
 f_locals := [];
 f_outer := [];
 f_conds := ["*"; "self._llim <= self.cv <= self._ulim"; "self.cv > self._ulim"];
 f_body := block [Use [1]; Choice 2 (Use [1]) (block [Use [1]; Choice 3 (Use [1]) (Use [1])]); Use [1]] |}.

(* multisim/controls.py, line 919: Controls._clip_cv_to_saturation *)
Definition f_controls__Controls__clip_cv_to_saturation : func := {|
 f_file := "controls.py"; f_name := "Controls._clip_cv_to_saturation"; f_line := 919;
 f_params := ["self"]; f_closure := [];
 f_locals := [];
 f_outer := [];
 f_conds := ["*"; "self.cv < self._cv_sat_min"; "self.cv > self._cv_sat_max"];
 f_body := block [Use [1]; Choice 2 (Use [1]) (block [Use [1]; Choice 3 (Use [1]) (Use [1])]); Use [1]] |}.

(* multisim/controls.py, line 928: Controls._cv_invert *)
Definition f_controls__Controls__cv_invert : func := {|
 f_file := "controls.py"; f_name := "Controls._cv_invert"; f_line := 928;
 f_params := ["self"]; f_closure := [];
 f_locals := [];
 f_outer := [];
 f_conds := ["*"];
 f_body := Use [1] |}.

(* multisim/controls.py, line 932: Controls._subcontroller_check *)
Definition f_controls__Controls__subcontroller_check : func := {|
 f_file := "controls.py"; f_name := "Controls._subcontroller_check"; f_line := 932;
 f_params := ["self"; "pid"]; f_closure := [];
 f_locals := [];
 f_outer := [];
 f_conds := ["*"; "self.sub_ctrl"; "self._concurrent"; "self._master_act_cv[0] == self._master_act_offst"; "pid"; "self._master_act_cv[0] != self._master_act_offst"];
 f_body := block [Use [1]; Choice 2 (block [Use [1]; Choice 3 (block [Use [1]; Choice 4 (block [Use [1;2];
 Choice 5 (Use [1]) Skip]) Skip]) (block [Use [1]; Choice 6 (block [Use [1;2]; Choice 5 (Use [1])
 Skip]) Skip])]) Skip] |}.

(* multisim/controls.py, line 952: Controls.__check_args *)
Definition f_controls__Controls___check_args : func := {|
 f_file := "controls.py"; f_name := "Controls.__check_args"; f_line := 952;
 f_params := ["self"; "part"; "port"; "caller"; "kwargs"]; f_closure := [];
 f_locals := ["base_err"; "err_str"; "given_part"; "given_port"];
 f_outer := ["repr"; "list"; "type"; "str"; "ValueError"; "int"; "TypeError"];
 f_conds := ["*"; "part in kwargs"; "given_part in self._models.parts"; "port == 'no_port'"; "type(given_port) == str"; "type(given_port) == int"; "0 <= given_port < self._models.parts[given_part].T.shape[0] or -self._models.parts[give..."; "given_port > -1"; "type(given_port) != int"];
 f_body := block [Use [1]; Def [6]; Def [4]; Use [2;4;1]; Def [7]; Use [2;5]; Choice 2 Skip (block [Use [6;7];
 Raise]); Use [5;2]; Def [8]; Use [8;4;2;1;10;11]; Def [7]; Use [8;1]; Choice 3 Skip (block [Use
 [6;7]; Raise]); Use [3]; Choice 4 (block [Use [8]; Return]) Skip; Use [5;3]; Def [9]; Use [12;9;13];
 Choice 5 (Try (block [Use [1;8;9]; Def [9]]) (block [Use [14;6;9;8;4;3;1]; Def [7]; Use [14;7];
 Raise]) Skip) (block [Use [12;9;15]; Choice 6 (block [Use [6;9;8;4;3;1]; Def [7]; Use [9;1;8];
 Choice 1 Skip (Use [1;8;9]); Choice 7 Skip (block [Use [7]; Raise]); Use [9]; Choice 8 (Use [9])
 (Use [1;8;9]); Def [9]]) (block [Use [12;9;15]; Choice 9 (block [Use [6;9;8;4;3;1]; Def [7]; Use
 [16;6;7]; Raise]) Skip])]); Use [8;9]; Return] |}.

Definition table_Sim : list (func * list func) := [
 (f_simenv__module, [f_simenv__SimEnv__class_; f_simenv__SimEnv___init__; f_simenv__SimEnv_set_timeframe; f_simenv__SimEnv_set_disksaving; f_simenv__SimEnv_set_solver; f_simenv__SimEnv_add_part; f_simenv__SimEnv__add_part; f_simenv__SimEnv__add_ports; f_simenv__SimEnv_add_open_port; f_simenv__SimEnv__initialize_actuator; f_simenv__SimEnv__add_open_port; f_simenv__SimEnv_assign_boundary_cond; f_simenv__SimEnv__initialize_dynamic_BC; f_simenv__SimEnv___global_init_part; f_simenv__SimEnv__chk_amb_temp; f_simenv__SimEnv_add_control; f_simenv__SimEnv__add_control; f_simenv__SimEnv__update_ports; f_simenv__SimEnv__get_port_connections; f_simenv__SimEnv_connect_ports; f_simenv__SimEnv__connect_ports; f_simenv__SimEnv__check_unconnected_ports; f_simenv__SimEnv__print_arg_errs; f_simenv__SimEnv__get_topology; f_simenv__SimEnv__recursive_topology; f_simenv__SimEnv__calc_UAwll_port; f_simenv__SimEnv__update_FlowNet; f_simenv__SimEnv__update_control; f_simenv__SimEnv__update_dyn_BC; f_simenv__SimEnv__get_conn_port; f_simenv__SimEnv__get_arr_idx; f_simenv__SimEnv__massflow_idx_from_temp_idx; f_simenv__SimEnv__get_specs_n_props; f_simenv__SimEnv__get_topo_cond; f_simenv__SimEnv__angle_to_x_axis; f_simenv__SimEnv__rotate_vector; f_simenv__SimEnv__heun; f_simenv__SimEnv__heun_adaptive; f_simenv__SimEnv___adaptive_step_control; f_simenv__SimEnv__call_postponed; f_simenv__SimEnv__create_port_updater; f_simenv__SimEnv__collapse_port_arrays; f_simenv__SimEnv__create_dataclasses; f_simenv__SimEnv__build_simenv; f_simenv__SimEnv__initialize_arrays; f_simenv__SimEnv__create_diff_inputs; f_simenv__SimEnv__prep_inputs_for_njits; f_simenv__SimEnv__reset_simenv; f_simenv__SimEnv_initialize_sim; f_simenv__SimEnv__check_memory_address; f_simenv__SimEnv__finalize_sim; f_simenv__SimEnv_start_sim; f_simenv__SimEnv___deprecated_free_memory; f_simenv__SimEnv__free_memory; f_simenv__SimEnv__compress_store; f_simenv__SimEnv__write_report; f_simenv__SimEnv_return_stored_data; f_simenv__SimEnv__crop_results; f_simenv__SimEnv__check_isadded; f_simenv__SimEnv__check_ispart; f_simenv__SimEnv__check_isport; f_simenv__SimEnv__check_isinrange]);
 (f_flownet__module, [f_flownet__FlowNet__class_; f_flownet__FlowNet___init__]);
 (f_controls__module, [f_controls__Controls__class_; f_controls__Controls___init__; f_controls__Controls_init_controller; f_controls__Controls_clear; f_controls__Controls_ctrl; f_controls__Controls__process_cv_direct; f_controls__Controls__clip_cv_to_saturation; f_controls__Controls__cv_invert; f_controls__Controls__subcontroller_check; f_controls__Controls___check_args])].
