(** * Names and control flow of utility_functions.py, _utility/meters.py, _utility/plotting.py, _utility/stat_error_measures.py (generated by tools/extract.py; representation: MPy.v). *)
From Coq Require Import List String PArith.
From Verif Require Import MPy.
Import ListNotations.
Local Open Scope string_scope. Local Open Scope positive_scope.


(* multisim/utility_functions.py, line 1: <module> *)
Definition f_utility_functions__module : func := {|
 f_file := "utility_functions.py"; f_name := "<module>"; f_line := 1;
 f_params := []; f_closure := [];
 f_locals := ["_wraps"; "os"; "_glob"; "_shutil"; "sys"; "_types"; "np"; "pd"; "_mpl"; "plt"; "_mal"; "_LineCollection"; "_pe"; "_FuncAnimation"; "_re"; "stats"; "SimEnv"; "_cp_water"; "_rho_water"; "warnings"; "tb"; "_toolbox_installed"; "load_sim_results"; "load_results_by_name"; "load_failed_results"; "package_results"; "add_line_to_log"; "make_boundarycond_timeseries"; "process_unevenly_spaced_timeseries"; "interp_pipe_specs"; "adjust_pipes"; "database_import"; "update_databases"; "override"; "r_squared"; "r_squared_adj"; "mean_abs_err"; "mean_signed_deviation"; "mean_squared_err"; "rmse"; "cv_rmse"; "normalized_err"; "remove_outliers_std"; "remove_outliers_roll"; "rolling_median"; "rolling_centered"; "rolling_right_aligned"; "remove_outliers_mad"; "NetPlotter"; "Meters"; "is_evenly_spaced"; "fit_time_series"; "ts_performance_indicators"; "plt_prediction_realization"; "plot_pr_scatter"; "plot_2d_kde"; "annotate_errors"; "si_axlabel"; "annotate_axes"; "opt_control"];
 f_outer := ["FutureWarning"; "ModuleNotFoundError"; "dict"];
 f_conds := ["*"];
 f_body := block [Def [1]; Def [2]; Def [3]; Def [4]; Def [5]; Def [6]; Def [7]; Def [8]; Def [9]; Def [10];
 Def [11]; Def [12]; Def [13]; Def [14]; Def [15]; Def [16]; Def [17]; Def [18]; Def [19]; Def [20];
 Use [20;61]; Try (block [Use []; Def [21]; Def [22]]) (block [Use [62]; Def [21]; Def [22]]) Skip;
 Def [23]; Def [24]; Def [25]; Def [26]; Def [27]; Def [28]; Def [29]; Def [30]; Def [31]; Def [32];
 Def [33]; Def [34]; Use [34;21]; Def [35]; Use [34;21]; Def [36]; Use [34;21]; Def [37]; Use
 [34;21]; Def [38]; Use [34;21]; Def [39]; Use [34;21]; Def [40]; Use [34;21]; Def [41]; Use [34;21];
 Def [42]; Def [43]; Def [44]; Def [45]; Def [46]; Def [47]; Def [48]; Use [17]; Def [49]; Def [50];
 Def [51]; Def [52]; Def [53]; Use [63]; Def [54]; Use [34;21;63]; Def [55]; Use [34;21]; Def [56];
 Use [34;21;63]; Def [57]; Use [34;21]; Def [58]; Use [34;21;63]; Def [59]; Def [60]] |}.

(* multisim/utility_functions.py, line 46: load_sim_results *)
Definition f_utility_functions__load_sim_results : func := {|
 f_file := "utility_functions.py"; f_name := "load_sim_results"; f_line := 46;
 f_params := ["filename"; "path"; "keys"; "multiindex"]; f_closure := [];
 f_locals := ["_keys"; "key"; "store"; "dfs"; "p"; "g"; "lvs"; "lv"; "empty_cols"; "col"; "mi_tuples"; "dfs_cc"; "k"; "v"; "k2"; "v2"; "df_mi"];
 f_outer := ["len"; "isinstance"; "tuple"; "list"; "pd"; "ValueError"];
 f_conds := ["*"; "path is not None and len(path) > 0 and (path[-1] != '\\')"; "keys != 'all'"; "isinstance(keys, tuple)"; "not isinstance(keys, list)"; "key[0] != '/'"; "p != ''"; "_keys == 'all' or key in _keys"; "_keys == 'all' or p + '/' + lvs[0] in _keys"; "len(dfs) == 0"; "multiindex"; "'sim_vecs' not in k"; "'sim_vecs' in dfs"];
 f_body := block [Use [2]; Choice 1 Skip (block [Use [22;2]; Choice 1 Skip (Use [2])]); Choice 2 (block [Use
 [2]; Def [2]]) Skip; Use [3]; Choice 3 (block [Use [23;3;24]; Choice 4 (Use [25;3]) (Use [3]); Def
 [3]; Use [23;3;25]; Choice 5 (Use [3]) (Use [3]); Def [3]; Def [5]; Use [3]; Loop false (block [Def
 [6]; Use [5;6]; Choice 6 (Use [6]) (Use [6])]) Skip]) (block [Use [3]; Def [5]]); Use [26;2;1]; Def
 [7]; Def [8]; Use [7]; Loop false (block [Def [9]; Def [10]; Def [11]; Use [9]; Choice 7 (block [Use
 [8;9;11]; Loop false (block [Def [12]; Use [9;12]; Def [6]; Use [5]; Choice 1 Skip (Use [6;5]);
 Choice 8 (Use [7;6;8;9;12]) Skip]) Skip]) (block [Use [5]; Choice 1 Skip (Use [9;11;5]); Choice 9
 (Use [7;9;11;8]) Skip])]) Skip; Use [8]; Choice 1 Skip (Use [22]); Def [13]; Use [13]; Loop false
 (block [Def [14]; Use [8;14]]) Skip; Use [22;8]; Choice 10 (block [Use [27]; Raise]) Skip; Use [4];
 Choice 11 (block [Def [15]; Def [16]; Use [8]; Loop false (block [Def [17]; Def [18]; Use [17];
 Choice 12 (block [Use [18]; Loop false (block [Def [19]; Def [20]; Use [15;17;19;20;16]]) Skip])
 Skip]) Skip; Use [26;16;15]; Def [21]; Use [8]; Choice 13 (block [Use [21;8]; Return]) (block [Use
 [21]; Return])]) Skip; Use [8]; Return] |}.

(* multisim/utility_functions.py, line 104: load_results_by_name *)
Definition f_utility_functions__load_results_by_name : func := {|
 f_file := "utility_functions.py"; f_name := "load_results_by_name"; f_line := 104;
 f_params := ["set_identifier"; "set_numbers"; "set_name"; "keys"; "result_file_ending"; "sub_dir"; "base_path"]; f_closure := [];
 f_locals := ["_pth"; "ldir"; "_subdirs"; "_sn_sdirs"; "sim_res_fns"; "sim_res"; "i"];
 f_outer := ["isinstance"; "int"; "list"; "tuple"; "print"; "os"; "len"; "_re"; "_glob"; "range"; "load_sim_results"];
 f_conds := ["*"; "set_numbers is None or isinstance(set_numbers, (int, list, tuple))"; "set_numbers is not None and isinstance(set_numbers, int)"; "set_numbers is None"; "os.path.isdir(_pth)"; "len(_subdirs) > 0"; "set_numbers is not None"; "len(_sn_sdirs) > 0"];
 f_body := block [Use [2]; Choice 1 Skip (Use [15;2;16;17;18]); Choice 2 Skip (Raise); Use [2]; Choice 1 Skip
 (Use [15;2;16]); Choice 3 (block [Use [2]; Def [2]]) Skip; Use [2]; Choice 4 (Use [19]) Skip; Use
 [20;7;3;6]; Def [8]; Use [20;8]; Choice 5 Skip (block [Use [8]; Raise]); Use [20;8]; Def [9]; Use
 [9]; Choice 1 Skip (block [Use [20;8]; Choice 1 Skip (Use [1])]); Def [10]; Use [21;10]; Choice 6
 Skip (Raise); Use [2]; Choice 7 (block [Use [9]; Choice 1 Skip (Use [16;22;2]); Def [11]; Use
 [21;11]; Choice 8 Skip (Raise)]) Skip; Use [11]; Choice 1 Skip (Use [23;8;5]); Def [12]; Def [13];
 Use [24;21;12]; Loop false (block [Def [14]; Use [25;12;14;4;13;16;22;11]]) Skip; Use [13]; Return] |}.

(* multisim/utility_functions.py, line 152: load_failed_results *)
Definition f_utility_functions__load_failed_results : func := {|
 f_file := "utility_functions.py"; f_name := "load_failed_results"; f_line := 152;
 f_params := ["file"; "base_pth"; "results_folder"]; f_closure := [];
 f_locals := ["sr0"; "sr0_data"; "k"; "_"; "k1"; "k2"];
 f_outer := ["pd"];
 f_conds := ["*"; "base_pth is None"; "k1 in sr0_data"];
 f_body := block [Use [2]; Choice 2 Skip (Use [2]); Def [2]; Use [10;2;3;1]; Def [4]; Def [5]; Use [4]; Loop
 false (block [Def [6]; Use [6]; Def [7]; Def [8]; Def [9]; Use [8;5]; Choice 3 (Use [4;6;5;8;9])
 (Use [9;4;6;5;8])]) Skip; Use [5]; Return] |}.

(* multisim/utility_functions.py, line 167: package_results *)
Definition f_utility_functions__package_results : func := {|
 f_file := "utility_functions.py"; f_name := "package_results"; f_line := 167;
 f_params := ["name_feature"; "path"; "move_to"; "ndate_chars"]; f_closure := [];
 f_locals := ["rel_moveto"; "h5_fls"; "rprt_fls"; "log_fls"; "unresolved_files"; "pending_sims"; "fl"; "fpath_base"; "fpath_rprt"; "fpath_bcs"; "log_idtfr"; "fpath_log"; "new_name_prefix"; "new_dirname"; "move_to_pth"; "move_to_fl"; "e"; "h5temp_fls"];
 f_outer := ["os"; "_glob"; "len"; "print"; "_shutil"; "BaseException"];
 f_conds := ["*"; "path[-1] not in ('\\', '\\\\', '/', '//', '////')"; "move_to[-1] not in ('\\', '\\\\', '/', '//', '////')"; "not os.path.isabs(move_to)"; "len(fpath_log) == 1"; "fpath_log"; "fpath_rprt not in rprt_fls"; "os.path.isfile(fpath_base + '.h5_tmp')"; "rel_moveto"; "not os.path.exists(move_to_pth)"];
 f_body := block [Use [2]; Choice 2 (Use [2]) (Use [2]); Def [2]; Use [3]; Choice 3 (Use [3]) (Use [3]); Def
 [3]; Use [23;3]; Def [5]; Use [24;2;1]; Def [6]; Use [24;2;1]; Def [7]; Use [24;2;1]; Def [8]; Def
 [9]; Def [10]; Use [6]; Loop false (block [Def [11]; Use [11]; Def [12]; Use [12]; Def [13]; Use
 [12]; Def [14]; Use [1;23;12]; Def [15]; Use [8]; Choice 1 Skip (Use [15]); Def [16]; Use [25;16];
 Choice 5 (Use [16]) Skip; Def [16]; Use [16]; Choice 6 (Use [23;16]) (Use [23;12;4]); Def [17]; Use
 [1;17]; Def [18]; Use [13;7]; Choice 7 (block [Use [9;12]; Continue]) Skip; Use [23;12]; Choice 8
 (block [Use [10;12]; Continue]) Skip; Use [5]; Choice 9 (block [Use [23;2;3;18]; Def [19]]) (block
 [Use [23;3;18]; Def [19]]); Use [19]; Def [20]; Use [23;19]; Choice 10 (Use [23;19]) (block [Use
 [26;11]; Continue]); Use [27;11;20;17;13]; Try (Use [27;14;20;17]) (block [Use [28]; Def [21]; Use
 [26;14;21]; Del [21]]) Skip; Use [16]; Choice 6 (Use [27;16;19]) Skip]) Skip; Use [24;2;1]; Def
 [22]; Use [10;22;26;25;6;9]; Return] |}.

(* multisim/utility_functions.py, line 288: add_line_to_log *)
Definition f_utility_functions__add_line_to_log : func := {|
 f_file := "utility_functions.py"; f_name := "add_line_to_log"; f_line := 288;
 f_params := ["line"; "filename"; "path"]; f_closure := [];
 f_locals := ["f"];
 f_outer := ["open"];
 f_conds := ["*"];
 f_body := block [Use [5;3;2]; Def [4]; Use [4;1]] |}.

(* multisim/utility_functions.py, line 293: make_boundarycond_timeseries *)
Definition f_utility_functions__make_boundarycond_timeseries : func := {|
 f_file := "utility_functions.py"; f_name := "make_boundarycond_timeseries"; f_line := 293;
 f_params := ["bc_array"; "bc_freq"; "ts_start"; "ts_duration"; "ts_freq"; "bc_too_short"; "downsample_method"; "upsample_method"]; f_closure := [];
 f_locals := ["err_str"; "bc_freq_string"; "ts_freq_string"; "bc_timevec"; "bc_first_idx"; "bc"; "bc_duration"; "ts_timedelta"; "bc_ts"; "n_stacks"; "bc_array_short"; "i"];
 f_outer := ["isinstance"; "np"; "type"; "float"; "int"; "str"; "pd"; "ValueError"; "range"];
 f_conds := ["*"; "isinstance(bc_array, np.ndarray)"; "bc_array.ndim == 1"; "type(bc_freq) == float or type(bc_freq) == int"; "type(ts_start) == str"; "type(ts_duration) == float or type(ts_duration) == int"; "type(ts_freq) == float or type(ts_freq) == int"; "type(bc_too_short) == str"; "bc_too_short == 'error' or bc_too_short == 'stack'"; "bc_duration != ts_timedelta"; "bc_duration > ts_timedelta"; "ts_freq <= bc_freq"; "bc_duration < ts_timedelta"; "bc_too_short == 'error'"];
 f_body := block [Def [9]; Use [21;1;22]; Choice 2 Skip (block [Use [9]; Raise]); Use [1]; Choice 3 Skip (block
 [Use [9]; Raise]); Def [9]; Use [23;2;24]; Choice 1 Skip (Use [23;2;25]); Choice 4 Skip (block [Use
 [9]; Raise]); Def [9]; Use [23;3;26]; Choice 5 Skip (block [Use [9]; Raise]); Def [9]; Use
 [23;4;24]; Choice 1 Skip (Use [23;4;25]); Choice 6 Skip (block [Use [9]; Raise]); Def [9]; Use
 [23;5;24]; Choice 1 Skip (Use [23;5;25]); Choice 7 Skip (block [Use [9]; Raise]); Def [9]; Use
 [23;6;26]; Choice 8 Skip (block [Use [9]; Raise]); Use [6]; Choice 1 Skip (Use [6]); Choice 9 Skip
 (block [Use [9]; Raise]); Use [26;25;2]; Def [10]; Use [26;25;5]; Def [11]; Use [27;3;1;10]; Def
 [12]; Use [12]; Def [13]; Use [27;1;12]; Def [14]; Use [14]; Def [15]; Use [27;4]; Def [16]; Use
 [15;16]; Choice 10 (block [Use [15;16]; Choice 11 (block [Use [14;13;16]; Def [14]; Use [5;2];
 Choice 12 (block [Use [14;11;7]; Def [17]]) (block [Use [14;11;8]; Def [17]])]) (block [Use [15;16];
 Choice 13 (block [Use [6]; Choice 14 (block [Use [28]; Raise]) (block [Use [22;16;15;25]; Def [18];
 Use [1]; Def [19]; Use [29;18]; Loop false (block [Def [20]; Use [22;1;19]; Def [1]]) Skip; Use
 [27;3;1;10]; Def [12]; Use [27;1;12]; Def [14]; Use [14;13;16]; Def [14]; Use [5;2]; Choice 12
 (block [Use [14;11;7]; Def [17]]) (block [Use [14;11;8]; Def [17]])])]) Skip])]) Skip; Use [17];
 Return] |}.

(* multisim/utility_functions.py, line 415: process_unevenly_spaced_timeseries *)
Definition f_utility_functions__process_unevenly_spaced_timeseries : func := {|
 f_file := "utility_functions.py"; f_name := "process_unevenly_spaced_timeseries"; f_line := 415;
 f_params := ["data"; "freq"; "how"]; f_closure := [];
 f_locals := ["how_list"];
 f_outer := ["isinstance"; "pd"; "type"; "str"];
 f_conds := ["*"; "isinstance(data, (pd.Series, pd.DataFrame)) and type(data.index) == pd.DatetimeIndex"; "type(freq) == str"; "type(how) == str and how in how_list"; "how == 'interpolate'"; "how == 'forward_fill'"; "how == 'backward_fill'"];
 f_body := block [Use [5;1;6]; Choice 1 Skip (Use [7;1;6]); Choice 2 Skip (Raise); Use [7;2;8]; Choice 3 Skip
 (Raise); Def [4]; Use [7;3;8]; Choice 1 Skip (Use [3;4]); Choice 4 Skip (block [Use [8;4]; Raise]);
 Use [3]; Choice 5 (block [Use [1;2]; Return]) (block [Use [3]; Choice 6 (block [Use [1;2]; Return])
 (block [Use [3]; Choice 7 (block [Use [1;2]; Return]) Skip])])] |}.

(* multisim/utility_functions.py, line 451: interp_pipe_specs *)
Definition f_utility_functions__interp_pipe_specs : func := {|
 f_file := "utility_functions.py"; f_name := "interp_pipe_specs"; f_line := 451;
 f_params := ["A_i"; "pipe_type"; "base_pth"]; f_closure := [];
 f_locals := ["ps"; "ps_tp"; "grad_hi"; "grad_lo"; "new_val_hi"; "new_val_lo"; "rel_increase_hi"; "rel_increase_lo"; "ai"];
 f_outer := ["pd"; "os"; "__file__"; "isinstance"; "int"; "float"; "list"; "tuple"; "TypeError"; "np"];
 f_conds := ["*"; "base_pth is not None"; "isinstance(A_i, (int, float))"; "not isinstance(A_i, (list, tuple))"; "ai in (new_val_lo, new_val_hi)"; "not ps_tp.isna().any().any()"];
 f_body := block [Use [3]; Choice 2 (block [Use [13;3]; Def [4]]) (block [Use [13;14;15]; Def [4]]); Use [4;2];
 Def [5]; Use [5]; Def [6]; Use [5]; Def [7]; Def [8]; Def [9]; Use [8;5;6]; Def [10]; Use [9;5;7];
 Def [11]; Use [5]; Def [5]; Use [5;10;8;11;9;16;1;17;18]; Choice 3 (block [Use [1]; Def [1]]) (block
 [Use [16;1;19;20]; Choice 4 (block [Use [21]; Raise]) Skip]); Use [1]; Loop false (block [Def [12];
 Use [12;9;8]; Choice 5 (Continue) Skip; Use [22;5;12]]) Skip; Use [5]; Def [5]; Use [22;5;1]; Choice
 6 Skip (Raise); Use [5;1]; Return] |}.

(* multisim/utility_functions.py, line 497: adjust_pipes *)
Definition f_utility_functions__adjust_pipes : func := {|
 f_file := "utility_functions.py"; f_name := "adjust_pipes"; f_line := 497;
 f_params := ["pspecs"; "base_path"]; f_closure := [];
 f_locals := ["err_str"; "v"; "ps_table"; "ai_vals"; "pipe_specs"; "_pspecs"; "k"];
 f_outer := ["repr"; "isinstance"; "dict"; "list"; "tuple"; "len"; "float"; "int"; "pd"; "os"; "__file__"; "interp_pipe_specs"; "zip"];
 f_conds := ["*"; "isinstance(pspecs, dict)"; "isinstance(v, (list, tuple))"; "len(v) == 2"; "isinstance(v[0], dict)"; "isinstance(v[1], (float, int))"];
 f_body := block [Use [10]; Def [3]; Use [11;1;12]; Choice 2 Skip (block [Use [3]; Raise]); Use [1]; Loop false
 (block [Def [4]; Use [11;4;13;14]; Choice 3 Skip (block [Use [3]; Raise]); Use [15;4]; Choice 4 Skip
 (block [Use [3]; Raise]); Use [11;4;12]; Choice 5 Skip (block [Use [3]; Raise]); Use [11;4;16;17];
 Choice 6 Skip (block [Use [3]; Raise])]) Skip; Use [18;19;20]; Def [5]; Use [1]; Choice 1 Skip (Use
 [5;14]); Def [6]; Use [21;13;6;2]; Def [7]; Use [22;6;7]; Def [8]; Use [8]; Loop false (block [Def
 [9]; Def [4]; Use [1;9;4]]) Skip; Use [8]; Return] |}.

(* multisim/utility_functions.py, line 541: database_import *)
Definition f_utility_functions__database_import : func := {|
 f_file := "utility_functions.py"; f_name := "database_import"; f_line := 541;
 f_params := ["standard_db"; "path"; "which"]; f_closure := [];
 f_locals := ["dbs"; "pth"; "files"; "file"; "db_name"; "db"; "askdirectory"];
 f_outer := ["os"; "__file__"; "NameError"; "sys"; "_glob"; "pd"];
 f_conds := ["*"; "standard_db"; "which == 'all'"; "not path"];
 f_body := block [Def [4]; Use [1]; Choice 2 (block [Try (block [Use [11;12]; Def [5]]) (block [Use [13;11;14];
 Def [5]]) Skip; Use [5]; Def [5]; Use [15;11;5]; Def [6]; Use [3]; Choice 3 (block [Use [6]; Loop
 false (block [Def [7]; Use [7]; Def [8]; Use [16;7;4;8]]) Skip]) (block [Use [3]; Loop false (block
 [Def [9]; Use [5;9]; Def [5]; Use [5]; Def [8]; Use [16;7;4;8]]) Skip])]) (block [Use [2]; Choice 4
 (block [Def [10]; Use [10]; Def [5]]) Skip; Use [3]; Choice 3 (block [Use [15;11;5]; Def [6]; Use
 [6]; Loop false (block [Def [7]; Use [7]; Def [8]; Use [16;7;4;8]]) Skip]) (block [Use [3]; Loop
 false (block [Def [9]; Use [5;9]; Def [5]; Use [5]; Def [8]; Use [16;7;4;8]]) Skip])]); Use [4];
 Return] |}.

(* multisim/utility_functions.py, line 589: update_databases *)
Definition f_utility_functions__update_databases : func := {|
 f_file := "utility_functions.py"; f_name := "update_databases"; f_line := 589;
 f_params := ["path"; "transpose"]; f_closure := [];
 f_locals := ["pth"; "files"; "file"; "desc"; "start_row"; "start_col"; "idx_col"; "idx_row"; "db"; "trgt_pth"];
 f_outer := ["os"; "__file__"; "NameError"; "sys"; "_glob"; "pd"; "range"; "int"];
 f_conds := ["*"; "not path"; "transpose"];
 f_body := block [Use [1]; Choice 2 (block [Try (block [Use [13;14]; Def [3]]) (block [Use [15;13;16]; Def
 [3]]) Skip; Use [3]; Def [3]; Use [17;13;3]; Def [4]; Use [4]; Loop false (block [Def [5]; Use
 [18;5]; Def [6]; Use [6]; Def [7]; Use [6]; Def [8]; Use [19;20;8]; Def [9]; Use [19;20;7]; Def
 [10]; Use [18;5;9;10]; Def [11]; Use [2]; Choice 3 (block [Use [11]; Def [11]]) Skip; Use [5]; Def
 [12]; Use [11;12]]) Skip]) (block [Use [18;1]; Def [6]; Use [6]; Def [7]; Use [6]; Def [8]; Use
 [19;20;8]; Def [9]; Use [19;20;7]; Def [10]; Use [18;1;9;10]; Def [11]; Use [2]; Choice 3 (block
 [Use [11]; Def [11]]) Skip; Use [1]; Def [12]; Use [11;12]])] |}.

(* multisim/utility_functions.py, line 637: override *)
Definition f_utility_functions__override : func := {|
 f_file := "utility_functions.py"; f_name := "override"; f_line := 637;
 f_params := ["toolbox"; "submodule"; "function_name"]; f_closure := [];
 f_locals := ["decorator"];
 f_outer := ["isinstance"; "_types"; "str"];
 f_conds := ["*"; "toolbox is None or isinstance(toolbox, _types.ModuleType)"; "submodule is None or isinstance(submodule, str)"; "function_name is None or isinstance(function_name, str)"];
 f_body := block [Use [1]; Choice 1 Skip (Use [5;1;6]); Choice 2 Skip (Raise); Use [2]; Choice 1 Skip (Use
 [5;2;7]); Choice 3 Skip (Raise); Use [3]; Choice 1 Skip (Use [5;3;7]); Choice 4 Skip (Raise); Def
 [4]; Use [4]; Return] |}.

(* multisim/utility_functions.py, line 652: override.decorator *)
Definition f_utility_functions__override_decorator : func := {|
 f_file := "utility_functions.py"; f_name := "override.decorator"; f_line := 652;
 f_params := ["function"]; f_closure := [];
 f_locals := ["wrapper"];
 f_outer := ["_wraps"];
 f_conds := ["*"];
 f_body := block [Use [3;1]; Def [2]; Use [2]; Return] |}.

(* multisim/utility_functions.py, line 654: override.decorator.wrapper *)
Definition f_utility_functions__override_decorator_wrapper : func := {|
 f_file := "utility_functions.py"; f_name := "override.decorator.wrapper"; f_line := 654;
 f_params := ["args"; "kwargs"]; f_closure := ["toolbox"; "function"; "submodule"; "function_name"];
 f_locals := [];
 f_outer := ["getattr"];
 f_conds := ["*"; "toolbox is None"; "submodule is not None"; "function_name is None"];
 f_body := block [Use [3]; Choice 2 (block [Use [4;1;2]; Return]) (block [Use [5]; Choice 3 Skip (Raise); Use
 [6]; Choice 4 (block [Use [7;3;5;4;1;2]; Return]) (block [Use [7;3;5;6;1;2]; Return])])] |}.

(* multisim/utility_functions.py, line 677: r_squared *)
Definition f_utility_functions__r_squared : func := {|
 f_file := "utility_functions.py"; f_name := "r_squared"; f_line := 677;
 f_params := ["y"; "y_hat"]; f_closure := [];
 f_locals := ["ss_res"; "ss_tot"];
 f_outer := ["np"; "ValueError"];
 f_conds := ["*"; "not np.isnan(y).any().any()"; "y_hat.ndim == 2"; "y.ndim == 1"; "y_hat.ndim == 1 and y.ndim == 2"; "y_hat.ndim > 2"];
 f_body := block [Use [5;1]; Choice 2 Skip (Raise); Use [2]; Choice 3 (block [Use [1]; Choice 4 (Use [1]) (Use
 [1]); Def [1]]) (block [Use [2]; Choice 1 Skip (Use [1]); Choice 5 (block [Use [2]; Def [2]]) (block
 [Use [2]; Choice 6 (block [Use [6]; Raise]) Skip])]); Use [1;2]; Def [3]; Use [1]; Def [4]; Use
 [3;4]; Return] |}.

(* multisim/utility_functions.py, line 713: r_squared_adj *)
Definition f_utility_functions__r_squared_adj : func := {|
 f_file := "utility_functions.py"; f_name := "r_squared_adj"; f_line := 713;
 f_params := ["p"; "r_sqrd"; "n"; "y"; "y_hat"]; f_closure := [];
 f_locals := ["r_sqrd_adj"];
 f_outer := ["r_squared"];
 f_conds := ["*"; "r_sqrd is not None"; "n is not None and y is None and (y_hat is None)"; "n is None and y is not None and (y_hat is not None)"];
 f_body := block [Use [2]; Choice 2 (block [Use [3]; Choice 1 Skip (block [Use [4]; Choice 1 Skip (Use [5])]);
 Choice 3 Skip (Raise)]) (block [Use [3]; Choice 1 Skip (block [Use [4]; Choice 1 Skip (Use [5])]);
 Choice 4 Skip (Raise); Use [7;4;5]; Def [2]; Use [5]; Def [3]]); Use [2;3;1]; Def [6]; Use [6];
 Return] |}.

(* multisim/utility_functions.py, line 767: mean_abs_err *)
Definition f_utility_functions__mean_abs_err : func := {|
 f_file := "utility_functions.py"; f_name := "mean_abs_err"; f_line := 767;
 f_params := ["y"; "y_hat"; "roll"; "window"; "min_periods"]; f_closure := [];
 f_locals := [];
 f_outer := ["ValueError"; "np"; "pd"];
 f_conds := ["*"; "y_hat.ndim == 2"; "y.ndim == 1"; "y_hat.ndim == 1 and y.ndim == 2"; "y_hat.ndim > 2"; "not roll"];
 f_body := block [Use [2]; Choice 2 (block [Use [1]; Choice 3 (Use [1]) (Use [1]); Def [1]]) (block [Use [2];
 Choice 1 Skip (Use [1]); Choice 4 (block [Use [2]; Def [2]]) (block [Use [2]; Choice 5 (block [Use
 [6]; Raise]) Skip])]); Use [3]; Choice 6 (block [Use [7;1;2]; Return]) (block [Use [8;7;1;2;4;5];
 Return])] |}.

(* multisim/utility_functions.py, line 787: mean_signed_deviation *)
Definition f_utility_functions__mean_signed_deviation : func := {|
 f_file := "utility_functions.py"; f_name := "mean_signed_deviation"; f_line := 787;
 f_params := ["y"; "y_hat"; "roll"; "window"; "min_periods"]; f_closure := [];
 f_locals := [];
 f_outer := ["ValueError"; "pd"];
 f_conds := ["*"; "y_hat.ndim == 2"; "y.ndim == 1"; "y_hat.ndim == 1 and y.ndim == 2"; "y_hat.ndim > 2"; "not roll"];
 f_body := block [Use [2]; Choice 2 (block [Use [1]; Choice 3 (Use [1]) (Use [1]); Def [1]]) (block [Use [2];
 Choice 1 Skip (Use [1]); Choice 4 (block [Use [2]; Def [2]]) (block [Use [2]; Choice 5 (block [Use
 [6]; Raise]) Skip])]); Use [3]; Choice 6 (block [Use [2;1]; Return]) (block [Use [7;2;1;4;5];
 Return])] |}.

(* multisim/utility_functions.py, line 808: mean_squared_err *)
Definition f_utility_functions__mean_squared_err : func := {|
 f_file := "utility_functions.py"; f_name := "mean_squared_err"; f_line := 808;
 f_params := ["y"; "y_hat"; "roll"; "window"; "min_periods"]; f_closure := [];
 f_locals := [];
 f_outer := ["ValueError"; "pd"];
 f_conds := ["*"; "y_hat.ndim == 2"; "y.ndim == 1"; "y_hat.ndim == 1 and y.ndim == 2"; "y_hat.ndim > 2"; "not roll"];
 f_body := block [Use [2]; Choice 2 (block [Use [1]; Choice 3 (Use [1]) (Use [1]); Def [1]]) (block [Use [2];
 Choice 1 Skip (Use [1]); Choice 4 (block [Use [2]; Def [2]]) (block [Use [2]; Choice 5 (block [Use
 [6]; Raise]) Skip])]); Use [3]; Choice 6 (block [Use [1;2]; Return]) (block [Use [7;1;2;4;5];
 Return])] |}.

(* multisim/utility_functions.py, line 827: rmse *)
Definition f_utility_functions__rmse : func := {|
 f_file := "utility_functions.py"; f_name := "rmse"; f_line := 827;
 f_params := ["y"; "y_hat"; "roll"; "window"; "min_periods"]; f_closure := [];
 f_locals := [];
 f_outer := ["np"; "mean_squared_err"];
 f_conds := ["*"];
 f_body := block [Use [6;7;1;2;3;4;5]; Return] |}.

(* multisim/utility_functions.py, line 836: cv_rmse *)
Definition f_utility_functions__cv_rmse : func := {|
 f_file := "utility_functions.py"; f_name := "cv_rmse"; f_line := 836;
 f_params := ["y"; "y_hat"; "roll"; "window"; "min_periods"]; f_closure := [];
 f_locals := [];
 f_outer := ["rmse"; "np"];
 f_conds := ["*"];
 f_body := block [Use [6;1;2;3;4;5;7]; Return] |}.

(* multisim/utility_functions.py, line 843: normalized_err *)
Definition f_utility_functions__normalized_err : func := {|
 f_file := "utility_functions.py"; f_name := "normalized_err"; f_line := 843;
 f_params := ["y"; "y_hat"; "err_method"; "norm"]; f_closure := [];
 f_locals := ["err_methods"; "err_fun"; "q3"; "q1"; "desc"];
 f_outer := ["mean_squared_err"; "rmse"; "mean_signed_deviation"; "mean_abs_err"; "np"; "pd"];
 f_conds := ["*"; "err_method in ('MSE', 'RMSE', 'MSD', 'MAE')"; "norm in ('IQR', 'range', 'mean', 'median')"; "norm == 'mean'"; "norm == 'median'"; "norm == 'IQR'"; "norm == 'range'"];
 f_body := block [Use [3]; Choice 2 Skip (Raise); Use [4]; Choice 3 Skip (Raise); Use [10;11;12;13]; Def [5];
 Use [5;3]; Def [6]; Use [4]; Choice 4 (block [Use [6;1;2;14]; Return]) (block [Use [4]; Choice 5
 (block [Use [6;1;2;14]; Return]) (block [Use [4]; Choice 6 (block [Use [14;1]; Def [7]; Def [8]; Use
 [6;1;2;7;8]; Return]) (block [Use [4]; Choice 7 (block [Use [15;1]; Def [9]; Use [6;1;2;9]; Return])
 Skip])])])] |}.

(* multisim/utility_functions.py, line 867: remove_outliers_std *)
Definition f_utility_functions__remove_outliers_std : func := {|
 f_file := "utility_functions.py"; f_name := "remove_outliers_std"; f_line := 867;
 f_params := ["data"; "stdevs"; "fill_value"]; f_closure := [];
 f_locals := [];
 f_outer := ["isinstance"; "np"; "pd"; "int"; "float"; "type"; "print"];
 f_conds := ["*"; "isinstance(data, (np.ndarray, pd.Series, pd.DataFrame))"; "isinstance(stdevs, (int, float)) and stdevs > 0"; "fill_value in ['interpolate', 'nan', 'remove'] or isinstance(fill_value, (int, float))"; "fill_value == 'interpolate'"; "fill_value == 'nan'"; "fill_value == 'remove'"; "type(data) != pd.Series or (type(data) == np.ndarray and data.ndim > 1)"];
 f_body := block [Use [4;1;5;6]; Choice 2 Skip (Raise); Use [4;2;7;8]; Choice 1 Skip (Use [2]); Choice 3 Skip
 (Raise); Use [3]; Choice 1 Skip (Use [4;3;7;8]); Choice 4 Skip (Raise); Use [3]; Choice 5 (block
 [Use [5;1;2]; Return]) (block [Use [3]; Choice 6 (block [Use [5;1;2]; Return]) (block [Use [3];
 Choice 7 (block [Use [9;1;6]; Choice 1 Skip (block [Use [9;1;5]; Choice 1 Skip (Use [1])]); Choice 8
 (Use [10]) Skip; Use [1;5;2]; Return]) (block [Use [3;1;5;2]; Return])])])] |}.

(* multisim/utility_functions.py, line 909: remove_outliers_roll *)
Definition f_utility_functions__remove_outliers_roll : func := {|
 f_file := "utility_functions.py"; f_name := "remove_outliers_roll"; f_line := 909;
 f_params := ["data"; "window"; "stdevs"; "fill_value"]; f_closure := [];
 f_locals := ["rolling_median"; "difference"; "deviation"; "outliers"; "freq"];
 f_outer := ["isinstance"; "pd"; "int"; "float"; "np"; "TypeError"; "type"; "print"];
 f_conds := ["*"; "isinstance(data, (pd.Series, pd.DataFrame))"; "isinstance(window, int) and window > 0"; "isinstance(stdevs, (int, float)) and stdevs > 0"; "fill_value in ['interpolate', 'nan', 'remove'] or isinstance(fill_value, (int, float))"; "fill_value == 'interpolate'"; "fill_value == 'nan'"; "fill_value == 'remove'"; "type(data) != pd.Series or (type(data) == np.ndarray and data.ndim > 1)"];
 f_body := block [Use [1]; Def [1]; Use [10;1;11]; Choice 2 Skip (Raise); Use [10;2;12]; Choice 1 Skip (Use
 [2]); Choice 3 Skip (Raise); Use [10;3;12;13]; Choice 1 Skip (Use [3]); Choice 4 Skip (Raise); Use
 [4]; Choice 1 Skip (Use [10;4;12;13]); Choice 5 Skip (Raise); Use [1;2]; Def [5]; Use [14;1;5]; Def
 [6]; Use [6;3]; Def [7]; Use [6;7]; Def [8]; Use [4]; Choice 6 (block [Use [14;1;8]; Try (block [Use
 [1]; Return]) (block [Use [15;1]; Def [9]; Use [1]; Def [1]; Use [1;9]; Return]) Skip]) (block [Use
 [4]; Choice 7 (block [Use [14;1;8]; Return]) (block [Use [4]; Choice 8 (block [Use [16;1;11]; Choice
 1 Skip (block [Use [16;1;14]; Choice 1 Skip (Use [1])]); Choice 9 (Use [17]) Skip; Use [1;8];
 Return]) (block [Use [4;1;8]; Return])])])] |}.

(* multisim/utility_functions.py, line 979: rolling_median *)
Definition f_utility_functions__rolling_median : func := {|
 f_file := "utility_functions.py"; f_name := "rolling_median"; f_line := 979;
 f_params := ["data"; "window"]; f_closure := [];
 f_locals := [];
 f_outer := [];
 f_conds := ["*"];
 f_body := block [Use [1;2]; Return] |}.

(* multisim/utility_functions.py, line 983: rolling_centered *)
Definition f_utility_functions__rolling_centered : func := {|
 f_file := "utility_functions.py"; f_name := "rolling_centered"; f_line := 983;
 f_params := ["df"; "window"; "min_periods"; "method"; "win_type"; "on"; "axis"; "closed"]; f_closure := [];
 f_locals := ["win_err"; "shift_idc"; "freq_ratio"; "index_bkp"];
 f_outer := ["isinstance"; "str"; "_re"; "int"; "pd"; "abs"; "np"];
 f_conds := ["*"; "method in ('mean', 'max', 'min', 'median', 'sum')"; "df.index.freq is None"; "df.index.freq is not None"; "isinstance(window, str)"; "_re.findall('[\\D]', window) is not None"; "min_periods is None"; "isinstance(min_periods, str)"; "abs(freq_ratio - int(freq_ratio)) < 1e-16"; "method == 'mean'"; "method == 'median'"; "method == 'sum'"; "method == 'min'"; "method == 'max'"];
 f_body := block [Use [1]; Def [1]; Use [4]; Choice 2 Skip (Raise); Use [1]; Choice 3 (Use [1]) Skip; Use [1];
 Choice 4 Skip (Raise); Def [9]; Use [13;2;14]; Choice 5 Skip (block [Use [9]; Raise]); Use [15;2];
 Choice 6 Skip (block [Use [9]; Raise]); Use [16;17;2;1]; Def [10]; Use [3]; Choice 7 (Def [3])
 (block [Use [13;3;14]; Choice 8 (block [Use [16;17;3;1]; Def [3]]) (block [Use [16;3]; Def [3]])]);
 Use [17;2;1]; Def [11]; Use [18;11;16]; Choice 9 (block [Use [1]; Def [12]; Use [19;1;16;17;2;12];
 Def [2]; Use [4]; Choice 10 (block [Use [1;2;3;5;6;7]; Def [1]; Use [12;1]]) (block [Use [4]; Choice
 11 (block [Use [1;2;3;5;6;7]; Def [1]; Use [12;1]]) (block [Use [4]; Choice 12 (block [Use
 [1;2;3;5;6;7]; Def [1]; Use [12;1]]) (block [Use [4]; Choice 13 (block [Use [1;2;3;5;6;7]; Def [1];
 Use [12;1]]) (block [Use [4]; Choice 14 (block [Use [1;2;3;5;6;7]; Def [1]; Use [12;1]])
 Skip])])])]); Use [1]; Return]) (block [Use [4]; Choice 10 (block [Use [1;2;3;5;6;7;8;10]; Return])
 (block [Use [4]; Choice 11 (block [Use [1;2;3;5;6;7;8;10]; Return]) (block [Use [4]; Choice 12
 (block [Use [1;2;3;5;6;7;8;10]; Return]) (block [Use [4]; Choice 13 (block [Use [1;2;3;5;6;7;8;10];
 Return]) (block [Use [4]; Choice 14 (block [Use [1;2;3;5;6;7;8;10]; Return]) Skip])])])])])] |}.

(* multisim/utility_functions.py, line 1197: rolling_right_aligned *)
Definition f_utility_functions__rolling_right_aligned : func := {|
 f_file := "utility_functions.py"; f_name := "rolling_right_aligned"; f_line := 1197;
 f_params := ["df"; "window"; "min_periods"]; f_closure := [];
 f_locals := ["shift"];
 f_outer := ["isinstance"; "str"; "int"];
 f_conds := ["*"; "isinstance(window, str)"];
 f_body := block [Use [5;2;6]; Choice 2 (Use [7;2]) (Use [2]); Def [4]; Use [1;2;3;4]; Def [1]; Use [1];
 Return] |}.

(* multisim/utility_functions.py, line 1205: remove_outliers_mad *)
Definition f_utility_functions__remove_outliers_mad : func := {|
 f_file := "utility_functions.py"; f_name := "remove_outliers_mad"; f_line := 1205;
 f_params := ["data"; "threshold"; "fill_value"; "rolling"; "window"; "dist_const"]; f_closure := [];
 f_locals := ["median"; "absolute_thresh"; "outliers"];
 f_outer := ["isinstance"; "pd"; "np"; "NotImplementedError"; "type"; "print"];
 f_conds := ["*"; "not isinstance(data, (pd.Series, pd.DataFrame))"; "not rolling"; "fill_value == 'interpolate'"; "fill_value == 'nan'"; "fill_value == 'remove'"; "type(data) != pd.Series or (type(data) == np.ndarray and data.ndim > 1)"];
 f_body := block [Use [10;1;11]; Choice 2 (block [Use [11;1]; Def [1]]) (block [Use [1]; Def [1]]); Use [4];
 Choice 3 (block [Use [1]; Def [7]; Use [2;6;1;7]; Def [8]; Use [12;1;7;8]; Def [9]]) (block [Use
 [13]; Raise; Use [1;5]; Def [7]; Use [2;6;1;7;5]; Def [8]; Use [12;1;7;8]; Def [9]]); Use
 [12;1;9;3]; Choice 4 (block [Use [1]; Return]) (block [Use [3]; Choice 5 (block [Use [1]; Return])
 (block [Use [3]; Choice 6 (block [Use [14;1;11]; Choice 1 Skip (block [Use [14;1;12]; Choice 1 Skip
 (Use [1])]); Choice 7 (Use [15]) Skip; Use [1;9]; Return]) (block [Use [3;1;9]; Return])])])] |}.

(* multisim/utility_functions.py, line 1270: NetPlotter.<class> *)
Definition f_utility_functions__NetPlotter__class_ : func := {|
 f_file := "utility_functions.py"; f_name := "NetPlotter.<class>"; f_line := 1270;
 f_params := []; f_closure := [];
 f_locals := ["__init__"; "set_plot_shape"; "_get_drctn"; "add_sensor"; "_draw_sensor"; "plot_net"; "animate"; "plot_errors"];
 f_outer := ["warnings"; "DeprecationWarning"; "staticmethod"];
 f_conds := ["*"];
 f_body := block [Def [1]; Use [9;10;11]; Def [2]; Use [11]; Def [3]; Use [11]; Def [4]; Use [11]; Def [5]; Use
 [11]; Def [6]; Use [11]; Def [7]; Use [11]; Def [8]] |}.

(* multisim/utility_functions.py, line 1271: NetPlotter.__init__ *)
Definition f_utility_functions__NetPlotter___init__ : func := {|
 f_file := "utility_functions.py"; f_name := "NetPlotter.__init__"; f_line := 1271;
 f_params := ["self"]; f_closure := [];
 f_locals := [];
 f_outer := ["print"];
 f_conds := ["*"];
 f_body := Use [2] |}.

(* multisim/utility_functions.py, line 1285: NetPlotter.set_plot_shape *)
Definition f_utility_functions__NetPlotter_set_plot_shape : func := {|
 f_file := "utility_functions.py"; f_name := "NetPlotter.set_plot_shape"; f_line := 1285;
 f_params := ["part"; "start_pos"; "vertex_coords"; "linewidth"; "orientation"; "invert"]; f_closure := [];
 f_locals := ["info_plot"; "err_str"; "found"; "i"; "conn_part"; "conn_port"; "d_key"; "_"; "new_info"; "key"; "value"; "max_key"; "total_length"; "path_start"; "end_coords"; "vec"; "length"; "total_num_cells"; "xy_vec_total"; "use_ep"; "path_frac"; "num_cells"; "dif"; "x_vec"; "y_vec"; "xy_vec_path"; "pi"; "itr"; "p_idx"; "port_coords"; "port_name"];
 f_outer := ["dict"; "type"; "tuple"; "len"; "int"; "float"; "str"; "range"; "SimEnv"; "hasattr"; "NetPlotter"; "bool"; "np"; "list"; "round"; "ValueError"];
 f_conds := ["*"; "type(start_pos) == tuple"; "len(start_pos) == 2"; "type(start_pos[0]) == int or type(start_pos[0]) == float"; "type(start_pos[1]) == int or type(start_pos[1]) == float"; "type(start_pos) == str and start_pos == 'auto'"; "start_pos == 'auto'"; "hasattr(SimEnv.parts[conn_part], 'info_plot') and SimEnv.parts[conn_part].plot_ready"; "found"; "type(start_pos) == str and start_pos in SimEnv.parts[part].port_names"; "linewidth is not None"; "type(linewidth) == int or type(linewidth) == float"; "linewidth >= 0"; "orientation is not None"; "type(orientation) == str"; "invert is not None"; "type(invert) == bool"; "type(vertex_coords) == dict"; "np.all(np.diff(np.asarray(list(vertex_coords.keys()))) == 1)"; "list(vertex_coords.keys())[0] == 1"; "type(key) == int"; "i == 1"; "vertex_coords[i][0] != 'port'"; "i == max_key - 1"; "total_num_cells != SimEnv.parts[part].num_gp + 1"; "np.all(info_plot['path'][i]['start_coordinates'] == info_plot['path'][i]['end_coordinat..."; "'auto_connection' not in info_plot or SimEnv.parts[part].port_names.index(info_plot['au..."; "total_num_cells - num_cells <= p_idx < total_num_cells"; "p_idx == 0"; "p_idx == SimEnv.parts[part].num_gp - 1"; "total_num_cells == SimEnv.parts[part].num_gp + 1"; "SimEnv.parts[part].plot_special"];
 f_body := block [Use [38]; Def [7]; Def [8]; Use [39;2;40]; Choice 2 (block [Use [41;2]; Choice 3 Skip (block
 [Use [8]; Raise]); Use [39;2;42]; Choice 1 Skip (Use [39;2;43]); Choice 4 Skip (block [Use [8];
 Raise]); Use [39;2;42]; Choice 1 Skip (Use [39;2;43]); Choice 5 Skip (block [Use [8]; Raise]); Use
 [2;7]]) (block [Use [39;2;44]; Choice 1 Skip (Use [2]); Choice 6 (block [Use [2]; Choice 7 Skip
 (block [Use [8]; Raise]); Def [9]; Use [45;41;46;1]; Loop false (block [Def [10]; Use [46;1;10]; Def
 [11]; Use [11]; Def [11]; Def [12]; Use [47;46;11]; Choice 1 Skip (Use [46;11]); Choice 8 (block
 [Def [9]; Use [11;12;46;1;10;7]; Break]) Skip]) Skip; Def [8]; Use [9]; Choice 9 Skip (block [Use
 [8]; Raise]); Use [46;11;12]; Def [2]]) (block [Use [39;2;44]; Choice 1 Skip (Use [2;46;1]); Choice
 10 (block [Use [2]; Def [13]; Use [48;2;1]; Def [2]; Def [14]; Def [14]; Def [15]; Use [15;13;7]])
 Skip])]); Def [8]; Use [4]; Choice 11 (block [Use [39;4;42]; Choice 1 Skip (Use [39;4;43]); Choice
 12 Skip (block [Use [8]; Raise]); Use [4]; Choice 13 Skip (block [Use [8]; Raise]); Use [4;7]]) (Use
 [7]); Def [8]; Use [5]; Choice 14 (block [Use [39;5;44]; Choice 15 Skip (block [Use [8]; Raise]);
 Use [5;7]]) Skip; Def [8]; Use [6]; Choice 16 (block [Use [39;6;49]; Choice 17 Skip (block [Use [8];
 Raise]); Use [6;7]]) Skip; Def [8]; Use [39;3;38]; Choice 18 Skip (block [Use [8]; Raise]); Use
 [50;51;3]; Choice 19 Skip (block [Use [8]; Raise]); Use [51;3]; Choice 20 Skip (block [Use [8];
 Raise]); Use [3]; Loop false (block [Def [16]; Def [17]; Use [39;16;42]; Choice 21 Skip (block [Use
 [8]; Raise]); Use [16]; Def [18]]) Skip; Use [18;7;3]; Def [19]; Use [38;7;45;18]; Loop false (block
 [Def [10]; Use [10]; Choice 22 (block [Use [2]; Def [20]]) (block [Use [7;10]; Def [20]]); Use
 [3;10]; Choice 23 (block [Use [48;3;10;20;1]; Def [21]; Def [22]; Def [23]]) (block [Use
 [48;3;10;20;1]; Def [21]; Def [22]; Def [23]; Def [15]; Use [7;15]]); Use [19;23]; Def [19]; Use
 [38;7;10;20;21;22;23]]) Skip; Use [19;7]; Def [24]; Use [50]; Def [25]; Def [26]; Use [45;18]; Loop
 false (block [Def [10]; Use [7;10;19]; Def [27]; Use [52;27;46;1]; Def [28]; Use [24;28]; Def [24];
 Use [10;18]; Choice 24 (block [Def [26]; Use [24;46;1]; Choice 25 (block [Use [46;1;24]; Def [29];
 Use [24;29]; Def [24]; Use [28;29]; Def [28]]) Skip]) Skip; Use [1;44;10]; Def [8]; Use [50;7;10];
 Choice 26 (block [Use [53;8]; Raise]) Skip; Use [50;7;10;28;26]; Def [30]; Use [50;7;10;28;26]; Def
 [31]; Use [50;30]; Def [32]; Use [30;32;31;50;25]; Def [25]; Use [27;7;10;28;32]; Choice 1 Skip (Use
 [46;1;7]); Choice 27 (block [Use [46;1]; Def [33]]) (block [Use [46;1]; Def [33]]); Use [50;33]; Def
 [34]; Use [34]; Loop false (block [Def [35]; Use [24;28;35]; Choice 28 (block [Use [35]; Choice 29
 (block [Use [25;35]; Def [36]]) (block [Use [35;46;1]; Choice 30 (block [Use [25;35]; Def [36]])
 (block [Use [25;35]; Def [36]])]); Use [46;1;34]; Def [37]; Use [36;7;37]]) Skip]) Skip]) Skip; Def
 [8]; Use [24;46;1]; Choice 31 Skip (block [Use [8]; Raise]); Use [25;7;46;1]; Choice 32 (Use [46;1])
 Skip] |}.

(* multisim/utility_functions.py, line 1644: NetPlotter._get_drctn *)
Definition f_utility_functions__NetPlotter__get_drctn : func := {|
 f_file := "utility_functions.py"; f_name := "NetPlotter._get_drctn"; f_line := 1644;
 f_params := ["coords"; "start_coords"; "part"]; f_closure := [];
 f_locals := ["err_str"; "trgt_coords"; "vec"; "length"; "conn_part"; "conn_port"; "d_key"; "info_plot"];
 f_outer := ["type"; "tuple"; "np"; "len"; "int"; "float"; "str"; "SimEnv"; "hasattr"; "dict"; "ValueError"];
 f_conds := ["*"; "type(coords) == tuple"; "coords[0] in ['pos', 'vec', 'port']"; "(type(start_coords) == tuple or type(start_coords) == np.ndarray) and len(start_coords)..."; "coords[0] == 'pos'"; "type(coords[1]) == int or (type(coords[1]) == float and type(coords[2]) == int) or type..."; "coords[0] == 'vec'"; "coords[0] == 'port'"; "type(coords[1]) == str"; "coords[1] in SimEnv.parts[part].port_names"; "hasattr(SimEnv.parts[conn_part], 'info_plot') and SimEnv.parts[conn_part].plot_ready"];
 f_body := block [Def [4]; Use [12;1;13]; Choice 2 Skip (block [Use [4]; Raise]); Use [1]; Choice 3 Skip (block
 [Use [4]; Raise]); Def [4]; Use [12;2;13]; Choice 1 Skip (Use [12;2;14]); Choice 1 Skip (Use
 [15;2]); Choice 4 Skip (block [Use [4]; Raise]); Use [1]; Choice 5 (block [Use [12;1;16]; Choice 1
 Skip (block [Use [12;1;17]; Choice 1 Skip (Use [12;1;16]); Choice 1 Skip (Use [12;1;17])]); Choice 6
 Skip (block [Use [4]; Raise]); Use [1]; Def [5]; Use [14;5;2]; Def [6]; Use [14;6]; Def [7]; Use
 [5;6;7]; Return]) (block [Use [1]; Choice 7 (block [Use [12;1;16]; Choice 1 Skip (block [Use
 [12;1;17]; Choice 1 Skip (Use [12;1;16]); Choice 1 Skip (Use [12;1;17])]); Choice 6 Skip (block [Use
 [4]; Raise]); Use [14;1]; Def [6]; Use [13;2;6]; Def [5]; Use [14;6]; Def [7]; Use [5;6;7]; Return])
 (block [Use [1]; Choice 8 (block [Use [12;1;18]; Choice 9 Skip (block [Use [4]; Raise]); Use [1;3];
 Def [4]; Use [1;19;3]; Choice 10 Skip (block [Use [4]; Raise]); Use [19;3;1]; Def [8]; Use [8]; Def
 [8]; Def [9]; Use [20;19;8]; Choice 1 Skip (Use [19;8]); Choice 11 (block [Use [1]; Def [10]; Use
 [21]; Def [11]; Use [8;9;1;11;10;19]; Def [5]; Use [14;5;2]; Def [6]; Use [14;6]; Def [7]; Use
 [5;6;7;11]; Return]) (block [Use [22;8;3]; Raise])]) Skip])])] |}.

(* multisim/utility_functions.py, line 1779: NetPlotter.add_sensor *)
Definition f_utility_functions__NetPlotter_add_sensor : func := {|
 f_file := "utility_functions.py"; f_name := "NetPlotter.add_sensor"; f_line := 1779;
 f_params := ["part"; "cell"; "phys_quant"; "identifier"; "kwargs"]; f_closure := [];
 f_locals := ["err_str"; "pt"; "animate"; "offset"];
 f_outer := ["SimEnv"; "dict"; "str"; "TypeError"; "np"; "plt"; "tuple"];
 f_conds := ["*"; "SimEnv.parts[part].plot_ready"; "part in SimEnv.parts"; "0 <= cell < SimEnv.parts[part].T.shape[0]"; "'animate' in kwargs"; "phys_quant == 'T'"; "phys_quant == 'dm'"; "SimEnv.parts[part].dm_invariant"; "identifier is None"; "0 <= pt['rot_angle'] <= 45 / 180 * np.pi or 135 / 180 * np.pi <= pt['rot_angle'] <= 225..."];
 f_body := block [Use [1]; Def [6]; Use [10;1]; Choice 2 Skip (block [Use [6]; Raise]); Use [11]; Def [7]; Use
 [1]; Def [6]; Use [1;10]; Choice 3 Skip (block [Use [6]; Raise]); Use [1;7;12;2;10]; Def [6]; Use
 [2;10;1]; Choice 4 Skip (block [Use [6]; Raise]); Use [2;7;5]; Choice 5 (block [Use [5]; Def [8]])
 (Def [8]); Use [3]; Choice 6 (Use [10;1;2;7]) (block [Use [3]; Choice 7 (block [Use [10;1]; Choice 8
 (Use [10;1;7]) (Use [10;1;2;7])]) (block [Use [13;3]; Raise])]); Use [3;7;4;10;1;2;14;15;16;8];
 Choice 6 (block [Use [4]; Choice 9 (Use [3;7]) (Use [7])]) (block [Use [3]; Choice 7 (block [Use
 [4]; Choice 9 (Use [7]) (Use [7])]) Skip]); Use [7;14]; Choice 1 Skip (block [Use [14;7]; Choice 1
 Skip (Use [7;14])]); Def [9]; Use [16;10;14;9;7]] |}.

(* multisim/utility_functions.py, line 1914: NetPlotter._draw_sensor *)
Definition f_utility_functions__NetPlotter__draw_sensor : func := {|
 f_file := "utility_functions.py"; f_name := "NetPlotter._draw_sensor"; f_line := 1914;
 f_params := ["axis"; "step"; "animate"]; f_closure := [];
 f_locals := ["ani_ret"; "i"; "sensor"; "sens_bkp"; "txt"];
 f_outer := ["list"; "enumerate"; "SimEnv"; "RuntimeError"; "NetPlotter"];
 f_conds := ["*"; "animate"];
 f_body := block [Use [9]; Def [4]; Use [10;11]; Loop false (block [Def [5]; Def [6]; Try (Use [1;6]) (block
 [Use [12;6]; Def [7]; Use [11;5;13;7;3]]) Skip; Use [1;6;3;2]; Def [8]; Use [1;8;6;3;4]]) Skip; Use
 [11]; Use [11;3]; Choice 2 (block [Use [4]; Return]) Skip] |}.

(* multisim/utility_functions.py, line 1975: NetPlotter.plot_net *)
Definition f_utility_functions__NetPlotter_plot_net : func := {|
 f_file := "utility_functions.py"; f_name := "NetPlotter.plot_net"; f_line := 1975;
 f_params := ["timestep"; "clim"; "extend_area"; "kwargs"]; f_closure := [];
 f_locals := ["err_str"; "cmin"; "cmax"; "fig"; "ax"; "part"; "ip"; "xy_resh"; "xy_seg"; "lines"; "divider"; "cax"; "_"];
 f_outer := ["str"; "SimEnv"; "type"; "tuple"; "len"; "float"; "int"; "plt"; "NetPlotter"; "hasattr"; "np"; "_LineCollection"; "_pe"; "_mal"];
 f_conds := ["*"; "timestep < SimEnv.stepnum"; "clim is not None"; "extend_area is not None"; "type(extend_area) == tuple and len(extend_area) == 2"; "type(extend_area[0]) == float or type(extend_area[0]) == int"; "SimEnv.parts[part].plot_special"; "hasattr(SimEnv.parts[part], 'plot_ready') and SimEnv.parts[part].plot_ready and (not Si..."; "hasattr(SimEnv.parts[part], 'plot_ready') and SimEnv.parts[part].plot_ready and SimEnv...."];
 f_body := block [Use [18;19]; Def [5]; Use [1;19]; Choice 2 Skip (block [Use [5]; Raise]); Use [2]; Choice 3
 (block [Use [2]; Def [6]; Use [2]; Def [7]]) (block [Def [6]; Def [7]]); Use [3]; Choice 4 (block
 [Def [5]; Use [20;3;21]; Choice 1 Skip (Use [22;3]); Choice 5 Skip (block [Use [5]; Raise]); Use
 [20;3;23]; Choice 1 Skip (Use [20;3;24]); Choice 6 Skip (block [Use [5]; Raise])]) (Def [3]); Use
 [25;4]; Def [8]; Use [8]; Def [9]; Use [25;19]; Loop false (block [Def [10]; Use [19;10]; Choice 7
 (Use [19;10;9;1]) Skip]) Skip; Use [26;9;1;19]; Loop false (block [Def [10]; Use [27;19;10]; Choice
 1 Skip (block [Use [19;10]; Choice 1 Skip (Use [19;10])]); Choice 8 (block [Use [19;10]; Def [11];
 Use [11]; Def [12]; Use [28;12]; Def [13]; Use [29;13;19;10;1;25;6;7;11]; Def [14]; Use
 [14;30;11;9]]) (block [Use [27;19;10]; Choice 1 Skip (block [Use [19;10]; Choice 1 Skip (Use
 [19;10])]); Choice 9 (Use [19;10;9;1]) Skip])]) Skip; Use [9;3;31;25]; Def [15]; Use [15]; Def [16];
 Use [25;14;16]; Def [17]; Use [8]] |}.

(* multisim/utility_functions.py, line 2088: NetPlotter.animate *)
Definition f_utility_functions__NetPlotter_animate : func := {|
 f_file := "utility_functions.py"; f_name := "NetPlotter.animate"; f_line := 2088;
 f_params := ["t_start"; "t_stop"; "steps"; "clim"; "file"; "fps"; "dpi"; "extend_area"; "kwargs"]; f_closure := [];
 f_locals := ["err_str"; "cmin"; "cmax"; "fig_ani"; "ax_a"; "txt"; "txt_constr"; "ann_t"; "t_vec"; "t_view"; "txts"; "txts_constr"; "txts_val_view"; "part"; "line_ctr"; "xy_segs"; "lws"; "peffs"; "data"; "ip"; "xy_resh"; "ann"; "lmnt"; "sens_txt"; "xmax"; "xmin"; "ymax"; "ymin"; "i"; "xy"; "lines"; "divider"; "cax"; "_"; "init"; "update"; "time_idx"; "ani"];
 f_outer := ["str"; "SimEnv"; "type"; "tuple"; "len"; "float"; "int"; "plt"; "np"; "list"; "hasattr"; "_pe"; "NetPlotter"; "enumerate"; "range"; "_LineCollection"; "_mal"; "_FuncAnimation"];
 f_conds := ["*"; "t_stop <= SimEnv.timeframe"; "clim is not None"; "extend_area is not None"; "type(extend_area) == tuple and len(extend_area) == 2"; "type(extend_area[0]) == float or type(extend_area[0]) == int"; "SimEnv.parts[part].plot_special"; "hasattr(SimEnv.parts[part], 'plot_ready') and SimEnv.parts[part].plot_ready and (not Si..."; "hasattr(SimEnv.parts[part], 'plot_ready') and SimEnv.parts[part].plot_ready and SimEnv...."; "xy[:, :, 0].max() > xmax"; "xy[:, :, 0].min() < xmin"; "xy[:, :, 1].max() > ymax"; "xy[:, :, 1].min() < ymin"; "file is None"];
 f_body := block [Use [48;49]; Def [10]; Use [2;49]; Choice 2 Skip (block [Use [10]; Raise]); Use [4]; Choice 3
 (block [Use [4]; Def [11]; Use [4]; Def [12]]) (block [Def [11]; Def [12]]); Use [8]; Choice 4
 (block [Def [10]; Use [50;8;51]; Choice 1 Skip (Use [52;8]); Choice 5 Skip (block [Use [10];
 Raise]); Use [50;8;53]; Choice 1 Skip (Use [50;8;54]); Choice 6 Skip (block [Use [10]; Raise])])
 (Def [8]); Use [55;9]; Def [13]; Use [13]; Def [14]; Use [55]; Def [15]; Def [16]; Use [14;15]; Def
 [17]; Use [56;49]; Def [18]; Use [18]; Def [19]; Use [17]; Def [20]; Use [16]; Def [21]; Use [19];
 Def [22]; Use [49]; Loop false (block [Def [23]; Use [49;23]; Choice 7 (Use [49;23;14;2]) Skip])
 Skip; Def [24]; Use [57]; Def [25]; Use [57]; Def [26]; Use [57]; Def [27]; Use [57]; Def [28]; Use
 [49]; Loop false (block [Def [23]; Use [58;49;23]; Choice 1 Skip (block [Use [49;23]; Choice 1 Skip
 (Use [49;23])]); Choice 8 (block [Use [24]; Def [24]; Use [49;23]; Def [29]; Use [29]; Def [30]; Use
 [25;56;30;26;29;27;59;28;49;23]]) (block [Use [58;49;23]; Choice 1 Skip (block [Use [49;23]; Choice
 1 Skip (Use [49;23])]); Choice 9 (block [Use [49;23;14]; Def [31]; Use [31]; Loop false (block [Def
 [32]; Use [20;32;21;22]]) Skip]) Skip])]) Skip; Use [60;14]; Def [33]; Use [33]; Loop false (block
 [Def [32]; Use [20;32;21;22]]) Skip; Use [56]; Def [34]; Use [56]; Def [35]; Use [56]; Def [36]; Use
 [56]; Def [37]; Use [61;25]; Loop false (block [Def [38]; Def [39]; Use [39;34]; Choice 10 (block
 [Use [39]; Def [34]]) Skip; Use [39;35]; Choice 11 (block [Use [39]; Def [35]]) Skip; Use [39;36];
 Choice 12 (block [Use [39]; Def [36]]) Skip; Use [39;37]; Choice 13 (block [Use [39]; Def [37]])
 Skip]) Skip; Use [62;24]; Choice 1 Skip (Use [14;63;25;55;11;12;26]); Def [40]; Use
 [14;35;8;34;37;36;64;55]; Def [41]; Use [41]; Def [42]; Use [55;40;42]; Def [43]; Def [44]; Def
 [45]; Use [56;1;49;3;2]; Def [46]; Use [65;13;45;44;46;28;21;22]; Def [47]; Use [14;5]; Choice 14
 (Def [5]) Skip; Use [47;5;6;7]] |}.

(* multisim/utility_functions.py, line 2289: NetPlotter.animate.init *)
Definition f_utility_functions__NetPlotter_animate_init : func := {|
 f_file := "utility_functions.py"; f_name := "NetPlotter.animate.init"; f_line := 2289;
 f_params := []; f_closure := ["lines"; "peffs"; "txts"];
 f_locals := ["i"; "lc"];
 f_outer := ["enumerate"];
 f_conds := ["*"];
 f_body := block [Use [6;1]; Loop false (block [Def [4]; Def [5]; Use [5;2;4]]) Skip; Use [1;3]; Return] |}.

(* multisim/utility_functions.py, line 2296: NetPlotter.animate.update *)
Definition f_utility_functions__NetPlotter_animate_update : func := {|
 f_file := "utility_functions.py"; f_name := "NetPlotter.animate.update"; f_line := 2296;
 f_params := ["time_idx"; "data"; "txts_constr"; "txts_val_view"]; f_closure := ["lines"; "txts"];
 f_locals := ["i"; "lc"; "txt"];
 f_outer := ["enumerate"];
 f_conds := ["*"];
 f_body := block [Use [10;5]; Loop false (block [Def [7]; Def [8]; Use [8;2;7;1]]) Skip; Use [10;6]; Loop false
 (block [Def [7]; Def [9]; Use [9;3;7;4;1]]) Skip; Use [5;6]; Return] |}.

(* multisim/utility_functions.py, line 2341: NetPlotter.plot_errors *)
Definition f_utility_functions__NetPlotter_plot_errors : func := {|
 f_file := "utility_functions.py"; f_name := "NetPlotter.plot_errors"; f_line := 2341;
 f_params := ["simenv"; "rms_error"; "stability_violations"]; f_closure := [];
 f_locals := ["returns"; "part"; "fig_err"; "ax_err"; "helper"; "fig_breach"; "ax_breach"];
 f_outer := ["pd"; "plt"];
 f_conds := ["*"; "rms_error"; "simenv.parts[part].solve_numeric"; "stability_violations"];
 f_body := block [Def [4]; Use [2]; Choice 2 (block [Use [11;1]; Loop false (block [Def [5]; Use [1;5]; Choice
 3 (Use [11;1;5]) Skip]) Skip; Use [12]; Def [6]; Use [6]; Def [7]; Use [7;1;6]; Def [8]; Use
 [7;8;6;4]]) Skip; Use [3]; Choice 4 (block [Use [11;1]; Loop false (block [Def [5]; Use [1;5];
 Choice 3 (Use [11;1;5]) Skip]) Skip; Use [12]; Def [9]; Use [9]; Def [10]; Use [10;1;9]; Def [8];
 Use [10;8;9;4]]) Skip; Use [4]; Return] |}.

(* multisim/utility_functions.py, line 2443: Meters.<class> *)
Definition f_utility_functions__Meters__class_ : func := {|
 f_file := "utility_functions.py"; f_name := "Meters.<class>"; f_line := 2443;
 f_params := []; f_closure := [];
 f_locals := ["__init__"; "heat_meter"; "temperature"; "massflow"; "volumeflow"; "get_sensors_df"; "get_sensors_dict"; "_resample_meter"; "_save_to_disk"; "pred_real_plot"];
 f_outer := [];
 f_conds := ["*"];
 f_body := block [Def [1]; Def [2]; Def [3]; Def [4]; Def [5]; Def [6]; Def [7]; Def [8]; Def [9]; Def [10]] |}.

(* multisim/utility_functions.py, line 2444: Meters.__init__ *)
Definition f_utility_functions__Meters___init__ : func := {|
 f_file := "utility_functions.py"; f_name := "Meters.__init__"; f_line := 2444;
 f_params := ["self"; "simenv"; "start_time"]; f_closure := [];
 f_locals := ["mid"];
 f_outer := ["warnings"; "DeprecationWarning"; "pd"; "np"];
 f_conds := ["*"; "self._simenv._disk_store['resample']"; "not self._resample"; "self._disk_saving"];
 f_body := block [Use [5;6;2;1;7;3]; Choice 2 (Use [1]) (Use [1]); Use [7;1]; Choice 3 (Use [1]) (Use [7;1;8]);
 Use [1;7]; Def [4]; Use [7;4;1]; Choice 4 (Use [1]) Skip] |}.

(* multisim/utility_functions.py, line 2505: Meters.heat_meter *)
Definition f_utility_functions__Meters_heat_meter : func := {|
 f_file := "utility_functions.py"; f_name := "Meters.heat_meter"; f_line := 2505;
 f_params := ["self"; "name"; "warm_part"; "warm_cell"; "cold_part"; "cold_cell"; "massflow_from_hot_part"; "full_output"; "evenly_spaced"; "freq"; "how"]; f_closure := [];
 f_locals := ["err_str"; "fidx_dm"; "mflow"; "sidx_dm"; "df"; "massflow_bkp"; "hf_bkp"; "tuples"; "col"; "midx"];
 f_outer := ["pd"; "_rho_water"; "np"; "_cp_water"; "DeprecationWarning"; "process_unevenly_spaced_timeseries"];
 f_conds := ["*"; "name not in self.meters['heat_meter']"; "massflow_from_hot_part"; "full_output"; "evenly_spaced"; "self._disk_saving"];
 f_body := block [Use [2]; Def [12]; Use [2;1]; Choice 2 Skip (block [Use [12]; Raise]); Use [1;3;4;5;6;7];
 Choice 3 (block [Use [1;3;4]; Def [13]; Use [1;3;13]; Def [14]]) (block [Use [1;5;6]; Def [15]; Use
 [1;5;15]; Def [14]]); Use [22;1]; Def [16]; Use [1;3;4;16;5;6;14;23]; Def [17]; Use [24;17;1;16;8];
 Choice 4 (Use [17;24;1;16;23]) Skip; Use [16;25]; Def [18]; Use [24;18;1;16;8]; Choice 4 (Use
 [18;24;1;16]) Skip; Use [9]; Choice 5 (block [Use [26]; Raise; Use [27;16;10;11]; Def [16]]) Skip;
 Use [1;16]; Def [16]; Def [19]; Use [16]; Loop false (block [Def [20]; Use [19;2;20]]) Skip; Use
 [22;19;1]; Def [21]; Use [16;1;21;2]; Choice 6 (Use [1;2;16]) Skip] |}.

(* multisim/utility_functions.py, line 2644: Meters.temperature *)
Definition f_utility_functions__Meters_temperature : func := {|
 f_file := "utility_functions.py"; f_name := "Meters.temperature"; f_line := 2644;
 f_params := ["self"; "name"; "part"; "cell"]; f_closure := [];
 f_locals := ["err_str"; "df"; "tuples"; "col"; "midx"];
 f_outer := ["pd"; "np"];
 f_conds := ["*"; "name not in self.meters['temperature']"; "self._simenv.parts[part].res.ndim == 2"; "self._simenv.parts[part].res.ndim > 2"; "self._disk_saving"];
 f_body := block [Use [1;3;4;2]; Def [5]; Use [2;1]; Choice 2 Skip (block [Use [5]; Raise]); Use [10;1]; Def
 [6]; Use [1;3]; Choice 3 (Use [1;3;4;6;2]) (block [Use [1;3]; Choice 4 (Use [1;3;11;4;6;2]) Skip]);
 Use [1;6]; Def [6]; Def [7]; Use [6]; Loop false (block [Def [8]; Use [7;2;8]]) Skip; Use [10;7;1];
 Def [9]; Use [6;1;9;2]; Choice 5 (Use [1;2;6]) Skip] |}.

(* multisim/utility_functions.py, line 2687: Meters.massflow *)
Definition f_utility_functions__Meters_massflow : func := {|
 f_file := "utility_functions.py"; f_name := "Meters.massflow"; f_line := 2687;
 f_params := ["self"; "name"; "part"; "cell"]; f_closure := [];
 f_locals := ["idx_dm"; "err_str"; "df"; "tuples"; "col"; "midx"];
 f_outer := ["str"; "pd"];
 f_conds := ["*"; "name not in self.meters['massflow']"; "self._disk_saving"];
 f_body := block [Use [1;3;4]; Def [5]; Use [11;2]; Def [6]; Use [2;1]; Choice 2 Skip (block [Use [6]; Raise]);
 Use [12;1]; Def [7]; Use [1;3;5;7;2]; Def [7]; Def [8]; Use [7]; Loop false (block [Def [9]; Use
 [8;2;9]]) Skip; Use [12;8;1]; Def [10]; Use [7;1;10;2]; Choice 3 (Use [1;2;7]) Skip] |}.

(* multisim/utility_functions.py, line 2727: Meters.volumeflow *)
Definition f_utility_functions__Meters_volumeflow : func := {|
 f_file := "utility_functions.py"; f_name := "Meters.volumeflow"; f_line := 2727;
 f_params := ["self"; "name"; "part"; "cell"]; f_closure := [];
 f_locals := ["idx_dm"; "err_str"; "df"; "tuples"; "col"; "midx"];
 f_outer := ["str"; "pd"; "_rho_water"];
 f_conds := ["*"; "name not in self.meters['massflow']"; "self._disk_saving"];
 f_body := block [Use [1;3;4]; Def [5]; Use [11;2]; Def [6]; Use [2;1]; Choice 2 Skip (block [Use [6]; Raise]);
 Use [12;1]; Def [7]; Use [1;3;5;13;4;7;2]; Def [7]; Def [8]; Use [7]; Loop false (block [Def [9];
 Use [8;2;9]]) Skip; Use [12;8;1]; Def [10]; Use [7;1;10;2]; Choice 3 (Use [1;2;7]) Skip] |}.

(* multisim/utility_functions.py, line 2769: Meters.get_sensors_df *)
Definition f_utility_functions__Meters_get_sensors_df : func := {|
 f_file := "utility_functions.py"; f_name := "Meters.get_sensors_df"; f_line := 2769;
 f_params := ["self"]; f_closure := [];
 f_locals := [];
 f_outer := [];
 f_conds := ["*"];
 f_body := block [Use [1]; Return] |}.

(* multisim/utility_functions.py, line 2772: Meters.get_sensors_dict *)
Definition f_utility_functions__Meters_get_sensors_dict : func := {|
 f_file := "utility_functions.py"; f_name := "Meters.get_sensors_dict"; f_line := 2772;
 f_params := ["self"]; f_closure := [];
 f_locals := [];
 f_outer := [];
 f_conds := ["*"];
 f_body := block [Use [1]; Return] |}.

(* multisim/utility_functions.py, line 2775: Meters._resample_meter *)
Definition f_utility_functions__Meters__resample_meter : func := {|
 f_file := "utility_functions.py"; f_name := "Meters._resample_meter"; f_line := 2775;
 f_params := ["self"; "df"]; f_closure := [];
 f_locals := [];
 f_outer := [];
 f_conds := ["*"; "self._resample"];
 f_body := block [Use [1]; Choice 2 (block [Use [2;1]; Return]) (block [Use [2]; Return])] |}.

(* multisim/utility_functions.py, line 2782: Meters._save_to_disk *)
Definition f_utility_functions__Meters__save_to_disk : func := {|
 f_file := "utility_functions.py"; f_name := "Meters._save_to_disk"; f_line := 2782;
 f_params := ["self"; "name"; "meter"]; f_closure := [];
 f_locals := [];
 f_outer := ["ValueError"];
 f_conds := ["*"; "self._save_to_disk"];
 f_body := block [Use [1]; Choice 2 (block [Try (Use [1]) (Use [4;1]) Skip; Use [1;2;3]]) Skip] |}.

(* multisim/utility_functions.py, line 2798: Meters.pred_real_plot *)
Definition f_utility_functions__Meters_pred_real_plot : func := {|
 f_file := "utility_functions.py"; f_name := "Meters.pred_real_plot"; f_line := 2798;
 f_params := ["self"; "show_rmse"; "show_cvrmse"; "hexbin"; "exclude_zeros"; "resample_uneven"]; f_closure := [];
 f_locals := [];
 f_outer := [];
 f_conds := ["*"];
 f_body := Skip |}.

(* multisim/utility_functions.py, line 2817: is_evenly_spaced *)
Definition f_utility_functions__is_evenly_spaced : func := {|
 f_file := "utility_functions.py"; f_name := "is_evenly_spaced"; f_line := 2817;
 f_params := ["data"; "return_freq"]; f_closure := [];
 f_locals := [];
 f_outer := ["isinstance"; "pd"];
 f_conds := ["*"; "isinstance(data.index, pd.DatetimeIndex)"; "not return_freq"];
 f_body := block [Use [3;1;4]; Choice 2 Skip (Raise); Use [2]; Choice 3 (block [Use [1]; Return]) (block [Use
 [1]; Return])] |}.

(* multisim/utility_functions.py, line 2834: fit_time_series *)
Definition f_utility_functions__fit_time_series : func := {|
 f_file := "utility_functions.py"; f_name := "fit_time_series"; f_line := 2834;
 f_params := ["pred"; "rlz"; "resample_uneven"; "freq"; "how"; "return_df"]; f_closure := [];
 f_locals := ["err_type"; "err_idx"; "err_shape"; "target_freq"; "pred_evenly"; "pred_freq"; "rlz_evenly"; "rlz_freq"; "err_uneven"];
 f_outer := ["isinstance"; "pd"; "str"; "is_evenly_spaced"; "process_unevenly_spaced_timeseries"];
 f_conds := ["*"; "isinstance(pred, pd.Series) and isinstance(rlz, pd.Series)"; "isinstance(pred.index, pd.DatetimeIndex)"; "isinstance(rlz.index, pd.DatetimeIndex)"; "target_freq is not None"; "not pred_evenly or not rlz_evenly or pred_freq != target_freq or (rlz_freq != target_freq)"; "resample_uneven"; "not pred_evenly or pred_freq != target_freq"; "freq is not None and how is not None"; "not rlz_evenly or rlz_freq != target_freq"; "pred.shape == rlz.shape"; "not return_df"];
 f_body := block [Def [7]; Use [16;1;17]; Choice 1 Skip (Use [16;2;17]); Choice 2 Skip (block [Use [7];
 Raise]); Def [8]; Use [18;1;2]; Def [9]; Use [16;1;17]; Choice 3 (block [Use [16;2;17]; Choice 4
 Skip (block [Use [8]; Raise]); Use [17;4]; Def [10]; Use [19;1]; Def [11]; Def [12]; Use [19;2]; Def
 [13]; Def [14]; Use [10]; Choice 5 (Use [10]) (Use [14]); Def [10]; Use [11]; Choice 1 Skip (block
 [Use [13]; Choice 1 Skip (block [Use [12;10]; Choice 1 Skip (Use [14;10])])]); Choice 6 (block [Use
 [3]; Choice 7 Skip (block [Use [8]; Raise]); Def [15]; Use [11]; Choice 1 Skip (Use [12;10]); Choice
 8 (block [Use [4]; Choice 1 Skip (Use [5]); Choice 9 Skip (block [Use [15]; Raise]); Use [20;1;4;5];
 Def [1]]) Skip; Use [13]; Choice 1 Skip (Use [14;10]); Choice 10 (block [Use [4]; Choice 1 Skip (Use
 [5]); Choice 9 Skip (block [Use [15]; Raise]); Use [20;2;4;5]; Def [2]]) Skip]) Skip; Use [1;2];
 Choice 11 Skip (block [Use [9]; Raise])]) (block [Use [1;2]; Choice 11 Skip (block [Use [9];
 Raise])]); Use [6]; Choice 12 (block [Use [1;2]; Return]) (block [Use [17;1;2]; Return])] |}.

(* multisim/utility_functions.py, line 2925: ts_performance_indicators *)
Definition f_utility_functions__ts_performance_indicators : func := {|
 f_file := "utility_functions.py"; f_name := "ts_performance_indicators"; f_line := 2925;
 f_params := ["pred"; "rlz"; "exclude_zeros"; "exclude_values"; "exclude_range"; "resample_uneven"; "freq"; "how"]; f_closure := [];
 f_locals := ["pred_rlz"; "err_excl"; "residuals"; "rlz_desc"; "n"; "ss_res"; "ss_total"; "mean_bias_err"; "mean_abs_err"; "nmbe"; "rmse"; "cv_rmse"; "nrmse"; "nrmse_iqr"; "r_squared"; "perf_indicators"];
 f_outer := ["fit_time_series"; "isinstance"; "bool"; "list"; "int"; "float"; "print"; "NotImplementedError"; "np"; "abs"; "pd"];
 f_conds := ["*"; "isinstance(exclude_zeros, bool)"; "exclude_zeros"; "exclude_values is not None"; "isinstance(exclude_values, list) and isinstance(exclude_values[0], (int, float))"; "exclude_range is not None"; "isinstance(exclude_range, list) and isinstance(exclude_range[0], (int, float))"];
 f_body := block [Use [25;1;2;6;7;8]; Def [9]; Def [10]; Use [26;3;27]; Choice 2 Skip (block [Use [10];
 Raise]); Use [3]; Choice 3 (block [Use [9]; Def [9]]) Skip; Use [4]; Choice 4 (block [Use [26;4;28];
 Choice 1 Skip (Use [26;4;29;30]); Choice 5 Skip (block [Use [10]; Raise]); Use [31;32]; Raise])
 Skip; Use [5]; Choice 6 (block [Use [26;5;28]; Choice 1 Skip (Use [26;5;29;30]); Choice 7 Skip
 (block [Use [10]; Raise]); Use [31;32]; Raise]) Skip; Use [9]; Def [11]; Use [9]; Def [12]; Use
 [11]; Def [13]; Use [11]; Def [14]; Use [12]; Def [15]; Use [11;13]; Def [16]; Use [11;13]; Def
 [17]; Use [16;12]; Def [18]; Use [33;14;13]; Def [19]; Use [19;12]; Def [20]; Use [19;12]; Def [21];
 Use [19;34;12]; Def [22]; Use [14;15]; Def [23]; Use [35;13;16;17;18;19;20;21;22;23]; Def [24]; Use
 [24]; Return] |}.

(* multisim/utility_functions.py, line 3030: plt_prediction_realization *)
Definition f_utility_functions__plt_prediction_realization : func := {|
 f_file := "utility_functions.py"; f_name := "plt_prediction_realization"; f_line := 3030;
 f_params := ["pred"; "rlz"; "ax"; "plot_type"; "plot_every"; "show_linregress"; "exclude_zeros"; "resample_uneven"; "freq"; "how"; "freq_perf"; "errors"; "aspect"; "scttr_kwds"; "kde_kwds"; "diag_kwds"; "err_kwds"; "err_loc"; "legend_kwds"; "auto_label"; "sprache"]; f_closure := [];
 f_locals := ["df"; "data_min"; "data_max"; "perf_ind"; "fig_pr"; "ax_pr"; "indicators_txt"; "line_colors"; "_errs"; "colnames"; "handles"; "slope"; "intercept"; "_"];
 f_outer := ["fit_time_series"; "min"; "max"; "ts_performance_indicators"; "plt"; "tuple"; "plot_2d_kde"; "plot_pr_scatter"; "stats"; "dict"];
 f_conds := ["*"; "plot_type in ('scatter', 'hexbin', 'kde')"; "exclude_zeros"; "freq_perf is None"; "ax is None"; "plot_type == 'hexbin'"; "plot_type == 'kde'"; "errors.get('MBE', False)"; "errors.get('MAE', False)"; "errors.get('NMBE', False)"; "errors.get('RMSE', False)"; "show_linregress"; "errors.get('CVRMSE', False)"; "errors.get('NRMSE', False)"; "errors.get('NRMSE_IQR', False)"; "errors.get('R2', False)"; "indicators_txt != ''"; "indicators_txt[-1:] == '\n'"];
 f_body := block [Use [4]; Choice 2 Skip (Raise); Use [36;1;2;8;9;10]; Def [22]; Use [7]; Choice 3 (block [Use
 [22]; Def [22]]) Skip; Use [37;22]; Def [23]; Use [38;22]; Def [24]; Use [11]; Choice 4 (Use [9])
 (Use [11]); Def [11]; Use [39;22;8;11;10]; Def [25]; Use [3]; Choice 5 (block [Use [40]; Def [26];
 Def [27]]) (block [Use [3]; Def [27]]); Def [28]; Def [29]; Use [41;12]; Def [30]; Use [4]; Choice 6
 (block [Use [22]; Def [31]; Use [22;31;27;23;24]; Def [32]; Def [29]]) (block [Use [4]; Choice 7
 (block [Use [42;22;27;30;15]; Def [32]]) (block [Use [43;22;30;5;14;16;17;18;19;20;21]; Choice 1
 Skip (Use [25]); Use [27]; Def [32]])]); Use [4]; Choice 6 (block [Use [27;23;24;29;12]; Choice 8
 (block [Use [28;25]; Def [28]]) Skip; Use [12]; Choice 9 (block [Use [28;25]; Def [28]]) Skip; Use
 [12]; Choice 10 (block [Use [28;25]; Def [28]]) Skip; Use [12]; Choice 11 (block [Use
 [27;23;24;25;29;28]; Def [28]]) Skip; Use [6]; Choice 12 (block [Use [44;22]; Def [33]; Def [34];
 Def [35]; Def [35]; Def [35]; Use [27;23;24;34;33]]) Skip; Use [12]; Choice 13 (block [Use [28;25];
 Def [28]]) Skip; Use [12]; Choice 14 (block [Use [28;25]; Def [28]]) Skip; Use [12]; Choice 15
 (block [Use [28;25]; Def [28]]) Skip; Use [12]; Choice 16 (block [Use [28;25]; Def [28]]) Skip; Use
 [27]]) Skip; Use [27;13;28]; Choice 17 (block [Use [28]; Choice 18 (block [Use [28]; Def [28]])
 Skip; Use [28]; Def [28]; Use [27;28;45]]) Skip; Use [32]; Return] |}.

(* multisim/utility_functions.py, line 3326: plot_pr_scatter *)
Definition f_utility_functions__plot_pr_scatter : func := {|
 f_file := "utility_functions.py"; f_name := "plot_pr_scatter"; f_line := 3326;
 f_params := ["y"; "y_hat"; "ax"; "aspect"; "ax_scaling_tight"; "errors"; "scttr_kwds"; "diag_kwds"; "plt_err_range"; "err_rng_kwds"; "err_kwds"; "err_loc"; "legend_kwds"; "auto_label"; "sprache"; "plot_every"; "fig_kwds"; "err_vals"]; f_closure := [];
 f_locals := ["fig"; "pr_min"; "pr_max"; "minmax_range"; "datap"; "bsline"; "xlabel"; "ylabel"; "lims"];
 f_outer := ["plt"; "np"; "annotate_errors"; "si_axlabel"];
 f_conds := ["*"; "ax is None"; "sprache in ('eng', 'de')"; "sprache == 'eng'"; "sprache == 'de'"; "ax_scaling_tight"; "auto_label"];
 f_body := block [Use [3]; Choice 2 (block [Use [28;17]; Def [19]; Def [3]]) (block [Use [3]; Def [19]]); Use
 [29;1;2]; Def [20]; Def [21]; Use [21;20]; Def [22]; Use [15]; Choice 3 Skip (Raise); Use [15];
 Choice 4 (block [Def [23]; Def [24]; Def [25]; Def [26]]) (block [Use [15]; Choice 5 (block [Def
 [23]; Def [24]; Def [25]; Def [26]]) Skip]); Use [3;1;16;2;23;7;20;22;21;24;8;30;6;12;18;11;4;5];
 Choice 6 (Use [3]) (block [Use [20;22;21]; Def [27]; Use [3;27]]); Use [3;14]; Choice 7 (Use
 [31;3;26;25]) Skip; Use [3;13;19]; Return] |}.

(* multisim/utility_functions.py, line 3420: plot_2d_kde *)
Definition f_utility_functions__plot_2d_kde : func := {|
 f_file := "utility_functions.py"; f_name := "plot_2d_kde"; f_line := 3420;
 f_params := ["x"; "y"; "steps"; "ax"; "contour"; "cmap"; "norm"; "vmin"; "vmax"; "cont_lines"; "cbar"; "line_color"; "fontsize"; "aspect"; "extend"; "cm_under"; "cm_over"; "errors"; "plt_kwds"; "err_kwds"]; f_closure := [];
 f_locals := ["fig"; "m1"; "m2"; "xmin"; "xmax"; "ymin"; "ymax"; "X"; "Y"; "positions"; "values"; "kernel"; "Z"; "vmin_"; "vmax_"; "im"; "clines"; "cax_div"];
 f_outer := ["plt"; "isinstance"; "int"; "complex"; "np"; "stats"; "_mal"; "annotate_errors"];
 f_conds := ["*"; "ax is None"; "isinstance(steps, (int, complex))"; "isinstance(steps, int)"; "norm"; "vmin is not None"; "vmax is not None"; "not contour"; "cont_lines"; "extend in ('both', 'max')"; "extend in ('both', 'min')"; "cbar"];
 f_body := block [Use [4]; Choice 2 (block [Use [39]; Def [21]; Def [4]]) (block [Use [4]; Def [21]]); Use
 [40;3;41;42]; Choice 3 Skip (Raise); Use [40;3;41]; Choice 4 Skip (Use [3]); Def [3]; Use [1;2]; Def
 [22]; Def [23]; Use [22;23]; Def [24]; Def [25]; Def [26]; Def [27]; Use [43;24;25;3;26;27]; Def
 [28]; Def [29]; Use [43;28;29]; Def [30]; Use [43;22;23]; Def [31]; Use [44;31]; Def [32]; Use
 [43;32;30;28]; Def [33]; Use [7]; Choice 5 (block [Use [33]; Def [34]; Def [35]; Use [8]; Choice 6
 (Use [8]) (Use [34]); Def [8]; Use [9]; Choice 7 (Use [9]) (Use [35]); Def [9]]) Skip; Use [5];
 Choice 8 (block [Use [4;43;33;6;19;24;25;26;27;15;8;9]; Def [36]]) (block [Use
 [4;28;29;33;6;15;8;9]; Def [36]; Use [10]; Choice 9 (block [Use [4;28;29;33;19;15;8;9;12]; Def [37];
 Use [4;37;13]]) Skip]); Use [15]; Choice 10 (Use [36;17]) Skip; Use [15]; Choice 11 (Use [36;16])
 Skip; Use [11]; Choice 12 (block [Use [45;4]; Def [38]; Use [39;36;38]; Def [11]]) Skip; Use
 [4;24;25;26;27;14;46;1;2;18;20;21;36;11]; Return] |}.

(* multisim/utility_functions.py, line 3511: annotate_errors *)
Definition f_utility_functions__annotate_errors : func := {|
 f_file := "utility_functions.py"; f_name := "annotate_errors"; f_line := 3511;
 f_params := ["ax"; "y"; "y_hat"; "errors"; "err_loc"; "err_vals"; "fontsize"; "err_kwds"]; f_closure := [];
 f_locals := ["annot_str"; "r2"; "mse"; "cvrmse"; "nmbe"];
 f_outer := ["r_squared"; "mean_squared_err"; "cv_rmse"; "normalized_err"; "annotate_axes"];
 f_conds := ["*"; "'R2' in errors"; "err_vals is None or 'R2' not in err_vals"; "'MSE' in errors"; "err_vals is None or 'MSE' not in err_vals"; "'CV(RMSE)' in errors"; "err_vals is None or 'CV(RMSE)' not in err_vals"; "'NMBE' in errors"; "err_vals is None or 'NMBE' not in err_vals"; "annot_str[-1:] == '\n'"];
 f_body := block [Def [9]; Use [4]; Choice 2 (block [Use [6]; Choice 1 Skip (Use [6]); Choice 3 (block [Use
 [14;2;3]; Def [10]]) (block [Use [6]; Def [10]]); Use [9;10]; Def [9]]) Skip; Use [4]; Choice 4
 (block [Use [6]; Choice 1 Skip (Use [6]); Choice 5 (block [Use [15;2;3]; Def [11]]) (block [Use [6];
 Def [11]]); Use [9;11]; Def [9]]) Skip; Use [4]; Choice 6 (block [Use [6]; Choice 1 Skip (Use [6]);
 Choice 7 (block [Use [16;2;3]; Def [12]]) (block [Use [6]; Def [12]]); Use [9;12]; Def [9]]) Skip;
 Use [4]; Choice 8 (block [Use [6]; Choice 1 Skip (Use [6]); Choice 9 (block [Use [17;2;3]; Def
 [13]]) (block [Use [6]; Def [13]]); Use [9;13]; Def [9]]) Skip; Use [9]; Choice 10 (block [Use [9];
 Def [9]]) Skip; Use [18;1;9;5;7;8]] |}.

(* multisim/utility_functions.py, line 3563: si_axlabel *)
Definition f_utility_functions__si_axlabel : func := {|
 f_file := "utility_functions.py"; f_name := "si_axlabel"; f_line := 3563;
 f_params := ["ax"; "label"; "unit"; "which"; "style"; "spacing"; "invert_position"]; f_closure := [];
 f_locals := ["full_axlabel"; "lbl"; "unt"; "unit_"; "label_"; "axlabel"];
 f_outer := ["isinstance"; "str"; "tuple"; "list"; "len"; "zip"];
 f_conds := ["*"; "style in ('SI', 'in', 'parentheses', 'IEEE')"; "isinstance(label, str)"; "isinstance(unit, str) or unit in ('', 'none', None)"; "isinstance(label, (tuple, list))"; "unit in ('', 'none', None) or isinstance(unit, (tuple, list))"; "isinstance(unit, (tuple, list))"; "len(unit) == len(label)"; "'$' not in lbl and unt is None or '$' not in unt"; "unt in ('', 'none')"; "unit_ is not None"; "style == 'SI'"; "style == 'in'"; "style == 'parentheses'"; "style == 'IEEE'"; "which == 'y'"; "invert_position"; "which == 'x'"; "which == 'z'"; "which == 'cbar'"];
 f_body := block [Use [5]; Choice 2 Skip (Raise); Use [14;2;15]; Choice 3 (block [Use [2]; Def [2]; Use
 [14;3;15]; Choice 1 Skip (Use [3]); Choice 4 Skip (Raise); Use [3]; Def [3]]) (block [Use
 [14;2;16;17]; Choice 5 (block [Use [3]; Choice 1 Skip (Use [14;3;16;17]); Choice 6 Skip (Raise); Use
 [14;3;16;17]; Choice 7 (block [Use [18;3;2]; Choice 8 Skip (Raise)]) (block [Use [3;18;2]; Def
 [3]])]) Skip]); Def [8]; Use [19;2;3]; Loop false (block [Def [9]; Def [10]; Use [9]; Choice 1 Skip
 (Use [10]); Choice 1 Skip (Use [10]); Choice 9 Skip (Raise); Use [10]; Choice 10 Skip (Use [10]);
 Def [11]; Use [9;6]; Def [12]; Use [11]; Choice 11 (block [Use [11]; Def [11]]) Skip; Use [5];
 Choice 12 (block [Use [11]; Choice 11 (block [Use [12;11;6]; Def [13]]) (block [Use [12]; Def
 [13]])]) (block [Use [5]; Choice 13 (block [Use [11]; Choice 11 (block [Use [12;11;6]; Def [13]])
 (block [Use [12]; Def [13]])]) (block [Use [5]; Choice 14 (block [Use [11]; Choice 11 (block [Use
 [12;11;6]; Def [13]]) (block [Use [12]; Def [13]])]) (block [Use [5]; Choice 15 (block [Use [11];
 Choice 11 (block [Use [12;11;6]; Def [13]]) (block [Use [12]; Def [13]])]) Skip])])]); Use [8;13];
 Def [8]]) Skip; Use [8;6]; Def [8]; Use [4]; Choice 16 (block [Use [1;8;7]; Choice 17 (Use [1])
 Skip]) (block [Use [4]; Choice 18 (block [Use [1;8;7]; Choice 17 (Use [1]) Skip]) (block [Use [4];
 Choice 19 (Use [1;8]) (block [Use [4]; Choice 20 (Use [1;8]) Skip])])])] |}.

(* multisim/utility_functions.py, line 3701: annotate_axes *)
Definition f_utility_functions__annotate_axes : func := {|
 f_file := "utility_functions.py"; f_name := "annotate_axes"; f_line := 3701;
 f_params := ["axes"; "fig"; "annotations"; "loc"; "bbox"; "txt_offset"; "fontsize"; "kwds"]; f_closure := [];
 f_locals := ["annt"; "xycoords"; "ha"; "va"; "zorder"; "xy"; "xytext"; "i"; "ax"];
 f_outer := ["isinstance"; "_mpl"; "list"; "tuple"; "enumerate"];
 f_conds := ["*"; "isinstance(fig, _mpl.figure.Figure)"; "axes is None"; "not isinstance(axes, (list, tuple))"; "annotations is None"; "'xycoords' in kwds"; "'ha' in kwds"; "'va' in kwds"; "'zorder' in kwds"; "loc in ('top left', 'top right', 'bottom left', 'bottom right', 'top center', 'lower ce..."; "loc == 'top left'"; "loc == 'top right'"; "loc == 'bottom left'"; "loc == 'bottom right'"; "loc == 'top center'"; "loc == 'lower center'"; "loc == 'center left'"; "loc == 'center right'"];
 f_body := block [Use [18;2;19]; Choice 2 (block [Use [1]; Choice 3 Skip (Raise); Use [2]; Def [1]]) Skip; Use
 [18;1;20;21]; Choice 4 (block [Use [1]; Def [1]]) Skip; Use [3]; Choice 5 (Def [9]) (block [Use [3];
 Def [9]]); Use [8]; Choice 6 (Use [8]) Skip; Def [10]; Use [8]; Choice 7 (Use [8]) Skip; Def [11];
 Use [8]; Choice 8 (Use [8]) Skip; Def [12]; Use [8]; Choice 9 (Use [8]) Skip; Def [13]; Use [4];
 Choice 10 Skip (Raise); Use [4]; Choice 11 (block [Def [14]; Use [6]; Def [15]; Def [11]; Def [12]])
 (block [Use [4]; Choice 12 (block [Def [14]; Use [6]; Def [15]; Def [11]; Def [12]]) (block [Use
 [4]; Choice 13 (block [Def [14]; Use [6]; Def [15]; Def [11]; Def [12]]) (block [Use [4]; Choice 14
 (block [Def [14]; Use [6]; Def [15]; Def [11]; Def [12]]) (block [Use [4]; Choice 15 (block [Def
 [14]; Use [6]; Def [15]; Def [11]; Def [12]]) (block [Use [4]; Choice 16 (block [Def [14]; Use [6];
 Def [15]; Def [11]; Def [12]]) (block [Use [4]; Choice 17 (block [Def [14]; Use [6]; Def [15]; Def
 [11]; Def [12]]) (block [Use [4]; Choice 18 (block [Def [14]; Use [6]; Def [15]; Def [11]; Def
 [12]]) Skip])])])])])])]); Use [8]; Choice 7 (Use [8]) (Use [11]); Def [11]; Use [8]; Choice 8 (Use
 [8]) (Use [12]); Def [12]; Use [22;1]; Loop false (block [Def [16]; Def [17]; Use
 [17;9;16;14;10;15;11;12;13;5;7]]) Skip] |}.

(* multisim/utility_functions.py, line 3831: opt_control *)
Definition f_utility_functions__opt_control : func := {|
 f_file := "utility_functions.py"; f_name := "opt_control"; f_line := 3831;
 f_params := ["simenv_creater_function"; "LabData"; "control"; "actuator"; "terms"; "start_values"; "labdata_flow"; "opt_flow_and_temp"; "labdata_time_offset"; "kwargs"]; f_closure := [];
 f_locals := ["part2"; "cell2"; "labdata_temp"; "flow_only"; "minimize"; "simenv_wrapper"; "res"];
 f_outer := [];
 f_conds := ["*"; "opt_flow_and_temp"];
 f_body := block [Use [8]; Choice 2 (block [Use [10]; Def [11]; Use [10]; Def [12]; Use [10]; Def [13]; Def
 [14]]) (Def [14]); Def [15]; Def [16]; Use [15;16;6]; Def [17]; Use [17]; Return] |}.

(* multisim/utility_functions.py, line 3862: opt_control.simenv_wrapper *)
Definition f_utility_functions__opt_control_simenv_wrapper : func := {|
 f_file := "utility_functions.py"; f_name := "opt_control.simenv_wrapper"; f_line := 3862;
 f_params := ["start_values"]; f_closure := ["simenv_creater_function"; "LabData"; "kwargs"; "actuator"; "labdata_flow"; "flow_only"; "part2"; "cell2"; "labdata_temp"];
 f_locals := ["simenv"; "meters"; "even_massflow"; "end"; "act_res_dm"; "part2_res"];
 f_outer := ["Meters"; "process_unevenly_spaced_timeseries"; "pd"; "print"];
 f_conds := ["*"; "not flow_only"; "flow_only"];
 f_body := block [Use [2;1;3;4]; Def [11]; Use [17;11;3]; Def [12]; Use [12;5;18;19;6]; Def [13]; Use [13]; Def
 [14]; Use [11;5]; Def [15]; Use [7]; Choice 2 (block [Use [11;8]; Def [16]]) Skip; Use [11]; Del
 [11]; Use [7]; Choice 3 (block [Use [20;14;13;6]; Return]) (block [Use [16;9;10;14;15;6]; Return])] |}.

(* multisim/_utility/meters.py, line 1: <module> *)
Definition f__utility_meters__module : func := {|
 f_file := "_utility/meters.py"; f_name := "<module>"; f_line := 1;
 f_params := []; f_closure := [];
 f_locals := ["np"; "pd"; "warnings"; "mp"; "ut"; "Meters"];
 f_outer := [];
 f_conds := ["*"];
 f_body := block [Def [1]; Def [2]; Def [3]; Def [4]; Def [5]; Def [6]] |}.

(* multisim/_utility/meters.py, line 16: Meters.<class> *)
Definition f__utility_meters__Meters__class_ : func := {|
 f_file := "_utility/meters.py"; f_name := "Meters.<class>"; f_line := 16;
 f_params := []; f_closure := [];
 f_locals := ["__init__"; "heat_meter"; "temperature"; "massflow"; "volumeflow"; "get_sensors_df"; "get_sensors_dict"; "_resample_meter"; "_save_to_disk"; "pred_real_plot"];
 f_outer := [];
 f_conds := ["*"];
 f_body := block [Def [1]; Def [2]; Def [3]; Def [4]; Def [5]; Def [6]; Def [7]; Def [8]; Def [9]; Def [10]] |}.

(* multisim/_utility/meters.py, line 17: Meters.__init__ *)
Definition f__utility_meters__Meters___init__ : func := {|
 f_file := "_utility/meters.py"; f_name := "Meters.__init__"; f_line := 17;
 f_params := ["self"; "simenv"; "start_time"]; f_closure := [];
 f_locals := ["mid"];
 f_outer := ["pd"; "np"];
 f_conds := ["*"; "self._simenv._disk_store['resample']"; "not self._resample"; "self._disk_saving"];
 f_body := block [Use [2;1;5;3]; Choice 2 (Use [1]) (Use [1]); Use [5;1]; Choice 3 (Use [1]) (Use [5;1;6]); Use
 [1;5]; Def [4]; Use [5;4;1]; Choice 4 (Use [1]) Skip] |}.

(* multisim/_utility/meters.py, line 70: Meters.heat_meter *)
Definition f__utility_meters__Meters_heat_meter : func := {|
 f_file := "_utility/meters.py"; f_name := "Meters.heat_meter"; f_line := 70;
 f_params := ["self"; "name"; "warm_part"; "warm_cell"; "cold_part"; "cold_cell"; "massflow_from_hot_part"; "full_output"; "evenly_spaced"; "freq"; "how"]; f_closure := [];
 f_locals := ["err_str"; "fidx_dm"; "mflow"; "sidx_dm"; "df"; "massflow_bkp"; "hf_bkp"; "tuples"; "col"; "midx"];
 f_outer := ["pd"; "mp"; "np"; "DeprecationWarning"; "ut"];
 f_conds := ["*"; "name not in self.meters['heat_meter']"; "massflow_from_hot_part"; "full_output"; "evenly_spaced"; "self._disk_saving"];
 f_body := block [Use [2]; Def [12]; Use [2;1]; Choice 2 Skip (block [Use [12]; Raise]); Use [1;3;4;5;6;7];
 Choice 3 (block [Use [1;3;4]; Def [13]; Use [1;3;13]; Def [14]]) (block [Use [1;5;6]; Def [15]; Use
 [1;5;15]; Def [14]]); Use [22;1]; Def [16]; Use [1;3;4;16;5;6;14;23]; Def [17]; Use [24;17;1;16;8];
 Choice 4 (Use [17;24;1;16;23]) Skip; Use [16;23]; Def [18]; Use [24;18;1;16;8]; Choice 4 (Use
 [18;24;1;16]) Skip; Use [9]; Choice 5 (block [Use [25]; Raise; Use [26;16;10;11]; Def [16]]) Skip;
 Use [1;16]; Def [16]; Def [19]; Use [16]; Loop false (block [Def [20]; Use [19;2;20]]) Skip; Use
 [22;19;1]; Def [21]; Use [16;1;21;2]; Choice 6 (Use [1;2;16]) Skip] |}.

(* multisim/_utility/meters.py, line 209: Meters.temperature *)
Definition f__utility_meters__Meters_temperature : func := {|
 f_file := "_utility/meters.py"; f_name := "Meters.temperature"; f_line := 209;
 f_params := ["self"; "name"; "part"; "cell"]; f_closure := [];
 f_locals := ["err_str"; "df"; "tuples"; "col"; "midx"];
 f_outer := ["pd"; "np"];
 f_conds := ["*"; "name not in self.meters['temperature']"; "self._simenv.parts[part].res.ndim == 2"; "self._simenv.parts[part].res.ndim > 2"; "self._disk_saving"];
 f_body := block [Use [1;3;4;2]; Def [5]; Use [2;1]; Choice 2 Skip (block [Use [5]; Raise]); Use [10;1]; Def
 [6]; Use [1;3]; Choice 3 (Use [1;3;4;6;2]) (block [Use [1;3]; Choice 4 (Use [1;3;11;4;6;2]) Skip]);
 Use [1;6]; Def [6]; Def [7]; Use [6]; Loop false (block [Def [8]; Use [7;2;8]]) Skip; Use [10;7;1];
 Def [9]; Use [6;1;9;2]; Choice 5 (Use [1;2;6]) Skip] |}.

(* multisim/_utility/meters.py, line 252: Meters.massflow *)
Definition f__utility_meters__Meters_massflow : func := {|
 f_file := "_utility/meters.py"; f_name := "Meters.massflow"; f_line := 252;
 f_params := ["self"; "name"; "part"; "cell"]; f_closure := [];
 f_locals := ["idx_dm"; "err_str"; "df"; "tuples"; "col"; "midx"];
 f_outer := ["str"; "pd"];
 f_conds := ["*"; "name not in self.meters['massflow']"; "self._disk_saving"];
 f_body := block [Use [1;3;4]; Def [5]; Use [11;2]; Def [6]; Use [2;1]; Choice 2 Skip (block [Use [6]; Raise]);
 Use [12;1]; Def [7]; Use [1;3;5;7;2]; Def [7]; Def [8]; Use [7]; Loop false (block [Def [9]; Use
 [8;2;9]]) Skip; Use [12;8;1]; Def [10]; Use [7;1;10;2]; Choice 3 (Use [1;2;7]) Skip] |}.

(* multisim/_utility/meters.py, line 292: Meters.volumeflow *)
Definition f__utility_meters__Meters_volumeflow : func := {|
 f_file := "_utility/meters.py"; f_name := "Meters.volumeflow"; f_line := 292;
 f_params := ["self"; "name"; "part"; "cell"]; f_closure := [];
 f_locals := ["idx_dm"; "err_str"; "df"; "tuples"; "col"; "midx"];
 f_outer := ["str"; "pd"; "mp"];
 f_conds := ["*"; "name not in self.meters['massflow']"; "self._disk_saving"];
 f_body := block [Use [1;3;4]; Def [5]; Use [11;2]; Def [6]; Use [2;1]; Choice 2 Skip (block [Use [6]; Raise]);
 Use [12;1]; Def [7]; Use [1;3;5;13;4;7;2]; Def [7]; Def [8]; Use [7]; Loop false (block [Def [9];
 Use [8;2;9]]) Skip; Use [12;8;1]; Def [10]; Use [7;1;10;2]; Choice 3 (Use [1;2;7]) Skip] |}.

(* multisim/_utility/meters.py, line 334: Meters.get_sensors_df *)
Definition f__utility_meters__Meters_get_sensors_df : func := {|
 f_file := "_utility/meters.py"; f_name := "Meters.get_sensors_df"; f_line := 334;
 f_params := ["self"]; f_closure := [];
 f_locals := [];
 f_outer := [];
 f_conds := ["*"];
 f_body := block [Use [1]; Return] |}.

(* multisim/_utility/meters.py, line 337: Meters.get_sensors_dict *)
Definition f__utility_meters__Meters_get_sensors_dict : func := {|
 f_file := "_utility/meters.py"; f_name := "Meters.get_sensors_dict"; f_line := 337;
 f_params := ["self"]; f_closure := [];
 f_locals := [];
 f_outer := [];
 f_conds := ["*"];
 f_body := block [Use [1]; Return] |}.

(* multisim/_utility/meters.py, line 340: Meters._resample_meter *)
Definition f__utility_meters__Meters__resample_meter : func := {|
 f_file := "_utility/meters.py"; f_name := "Meters._resample_meter"; f_line := 340;
 f_params := ["self"; "df"]; f_closure := [];
 f_locals := [];
 f_outer := [];
 f_conds := ["*"; "self._resample"];
 f_body := block [Use [1]; Choice 2 (block [Use [2;1]; Return]) (block [Use [2]; Return])] |}.

(* multisim/_utility/meters.py, line 347: Meters._save_to_disk *)
Definition f__utility_meters__Meters__save_to_disk : func := {|
 f_file := "_utility/meters.py"; f_name := "Meters._save_to_disk"; f_line := 347;
 f_params := ["self"; "name"; "meter"]; f_closure := [];
 f_locals := [];
 f_outer := ["ValueError"];
 f_conds := ["*"; "self._save_to_disk"];
 f_body := block [Use [1]; Choice 2 (block [Try (Use [1]) (Use [4;1]) Skip; Use [1;2;3]]) Skip] |}.

(* multisim/_utility/meters.py, line 363: Meters.pred_real_plot *)
Definition f__utility_meters__Meters_pred_real_plot : func := {|
 f_file := "_utility/meters.py"; f_name := "Meters.pred_real_plot"; f_line := 363;
 f_params := ["self"; "show_rmse"; "show_cvrmse"; "hexbin"; "exclude_zeros"; "resample_uneven"]; f_closure := [];
 f_locals := [];
 f_outer := ["warnings"; "DeprecationWarning"];
 f_conds := ["*"];
 f_body := Use [7;8] |}.

(* multisim/_utility/plotting.py, line 1: <module> *)
Definition f__utility_plotting__module : func := {|
 f_file := "_utility/plotting.py"; f_name := "<module>"; f_line := 1;
 f_params := []; f_closure := [];
 f_locals := ["_copy"; "mpl"; "plt"; "_mal"; "_np"; "_pd"; "_sst"; "_sem"; "heatmap_from_df"; "prediction_realization_scatter"; "prediction_realization_2d_kde"; "si_axlabel"; "sinum_frmt"; "annotate_errors"; "annotate_axes"];
 f_outer := ["dict"];
 f_conds := ["*"];
 f_body := block [Def [1]; Def [2]; Def [3]; Def [4]; Def [5]; Def [6]; Def [7]; Def [8]; Def [9]; Use [16];
 Def [10]; Def [11]; Def [12]; Def [13]; Use [16]; Def [14]; Use [16]; Def [15]] |}.

(* multisim/_utility/plotting.py, line 20: heatmap_from_df *)
Definition f__utility_plotting__heatmap_from_df : func := {|
 f_file := "_utility/plotting.py"; f_name := "heatmap_from_df"; f_line := 20;
 f_params := ["df"; "ax"; "figsize"; "cbar"; "cbar_ax"; "cmap"; "ylabel"; "cbar_label"; "label_style"; "vmin"; "vmax"; "linewidth"; "limit_to_valid_data"; "log_cbar"; "plt_kwds"; "cbar_kwds"; "extend_over"; "extend_under"]; f_closure := [];
 f_locals := ["fig"; "fvxi"; "fvyi"; "lvxi"; "lvyi"; "X"; "Y"; "copy"; "cax"];
 f_outer := ["isinstance"; "_pd"; "plt"; "_np"; "range"; "mpl"; "tuple"; "list"; "len"; "si_axlabel"];
 f_conds := ["*"; "isinstance(df, _pd.DataFrame)"; "ax is None"; "limit_to_valid_data"; "isinstance(df.index, _pd.PeriodIndex)"; "isinstance(df.columns, _pd.PeriodIndex)"; "log_cbar"; "extend_over is not None or extend_under is not None"; "extend_over is not None"; "extend_over == 'cmap'"; "extend_under is None"; "extend_under is not None"; "extend_under == 'cmap'"; "extend_over is None"; "ylabel is not None"; "isinstance(ylabel, (tuple, list)) and len(ylabel) == 2"; "cbar"; "cbar_ax is None"; "cbar_label is not None"; "isinstance(cbar_label, (tuple, list)) and len(cbar_label) == 2"];
 f_body := block [Use [28;1;29]; Choice 2 Skip (Raise); Use [2]; Choice 3 (block [Use [30;3]; Def [19]; Use
 [19]; Def [2]]) (block [Use [2]; Def [19]]); Use [13]; Choice 4 (block [Use [1]; Def [20]; Use [1];
 Def [21]; Use [1]; Def [22]; Use [1]; Def [23]; Use [1;21;23;20;22]; Def [1]]) Skip; Use [28;1;29];
 Choice 5 (Use [1;2]) Skip; Use [28;1;29]; Choice 6 (Use [1;2]) Skip; Use [31;32;1]; Def [24]; Def
 [25]; Use [31;1]; Def [24]; Def [25]; Use [14]; Choice 7 (Use [33;15]) Skip; Use [17]; Choice 1 Skip
 (Use [18]); Choice 8 (block [Def [26]; Use [26;30;6]; Def [6]]) Skip; Use [17]; Choice 9 (block [Use
 [17]; Choice 10 (block [Use [6]; Def [17]]) Skip; Use [6;17;18]; Use [16]]) Skip; Use [18]; Choice
 12 (block [Use [18]; Choice 13 (block [Use [6]; Def [18]]) Skip; Use [6;18;17]; Use [16]]) Skip; Use
 [2;24;25;1;11;10;6;12;15]; Def [27]; Use [7]; Choice 15 (block [Use [28;7;34;35]; Choice 1 Skip (Use
 [36;7]); Choice 16 Skip (Raise); Use [37;2;7;9]]) Skip; Use [4]; Choice 17 (block [Use [5]; Choice
 18 (block [Use [19;27;2;16]; Def [4]]) (block [Use [19;27;5;16]; Def [4]]); Use [8]; Choice 19
 (block [Use [28;8;34;35]; Choice 1 Skip (Use [36;8]); Choice 20 Skip (Raise); Use [37;4;8;9]])
 Skip]) Skip; Use [2;19]; Return] |}.

(* multisim/_utility/plotting.py, line 187: prediction_realization_scatter *)
Definition f__utility_plotting__prediction_realization_scatter : func := {|
 f_file := "_utility/plotting.py"; f_name := "prediction_realization_scatter"; f_line := 187;
 f_params := ["y"; "y_hat"; "ax"; "aspect"; "ax_scaling_tight"; "errors"; "scttr_kwds"; "diag_kwds"; "plt_err_range"; "err_rng_kwds"; "err_kwds"; "err_loc"; "legend_kwds"; "auto_label"; "language"; "plot_every"; "fig_kwds"; "err_vals"]; f_closure := [];
 f_locals := ["fig"; "pr_min"; "pr_max"; "minmax_range"; "datap"; "bsline"; "xlabel"; "ylabel"; "lims"];
 f_outer := ["plt"; "_np"; "annotate_errors"; "si_axlabel"];
 f_conds := ["*"; "ax is None"; "language in ('eng', 'de')"; "language == 'eng'"; "language == 'de'"; "ax_scaling_tight"; "auto_label"];
 f_body := block [Use [3]; Choice 2 (block [Use [28;17]; Def [19]; Def [3]]) (block [Use [3]; Def [19]]); Use
 [29;1;2]; Def [20]; Def [21]; Use [21;20]; Def [22]; Use [15]; Choice 3 Skip (Raise); Use [15];
 Choice 4 (block [Def [23]; Def [24]; Def [25]; Def [26]]) (block [Use [15]; Choice 5 (block [Def
 [23]; Def [24]; Def [25]; Def [26]]) Skip]); Use [3;1;16;2;23;7;20;22;21;24;8;30;6;12;18;11;4;5];
 Choice 6 (Use [3]) (block [Use [20;22;21]; Def [27]; Use [3;27]]); Use [3;14]; Choice 7 (Use
 [31;3;26;25]) Skip; Use [3;13;19]; Return] |}.

(* multisim/_utility/plotting.py, line 332: prediction_realization_2d_kde *)
Definition f__utility_plotting__prediction_realization_2d_kde : func := {|
 f_file := "_utility/plotting.py"; f_name := "prediction_realization_2d_kde"; f_line := 332;
 f_params := ["y"; "y_hat"; "steps"; "ax"; "contour"; "cmap"; "norm"; "vmin"; "vmax"; "cont_lines"; "cbar"; "line_color"; "fontsize"; "aspect"; "extend"; "cm_under"; "cm_over"; "errors"; "plt_kwds"; "err_kwds"]; f_closure := [];
 f_locals := ["fig"; "m1"; "m2"; "xmin"; "xmax"; "ymin"; "ymax"; "X"; "Y"; "positions"; "values"; "kernel"; "Z"; "_cmap"; "vmin_"; "vmax_"; "cont_kwds"; "imkwds"; "im"; "clines"; "cax_div"];
 f_outer := ["plt"; "isinstance"; "int"; "complex"; "_np"; "_sst"; "_copy"; "mpl"; "ValueError"; "_mal"; "annotate_errors"];
 f_conds := ["*"; "ax is None"; "isinstance(steps, (int, complex))"; "isinstance(steps, int)"; "extend in ('both', 'max')"; "extend in ('both', 'min')"; "norm and norm != 'log'"; "vmin is not None"; "vmax is not None"; "norm == 'log'"; "_np.any(Z < 0.0)"; "not contour"; "cont_lines"; "cbar"];
 f_body := block [Use [4]; Choice 2 (block [Use [42]; Def [21]; Def [4]]) (block [Use [4]; Def [21]]); Use
 [43;3;44;45]; Choice 3 Skip (Raise); Use [43;3;44]; Choice 4 Skip (Use [3]); Def [3]; Use [1;2]; Def
 [22]; Def [23]; Use [22;23]; Def [24]; Def [25]; Def [26]; Def [27]; Use [46;24;25;3;26;27]; Def
 [28]; Def [29]; Use [46;28;29]; Def [30]; Use [46;22;23]; Def [31]; Use [47;31]; Def [32]; Use
 [46;32;30;28]; Def [33]; Use [48;49;6]; Def [34]; Use [15]; Choice 5 (Use [34;17]) Skip; Use [15];
 Choice 6 (Use [34;16]) Skip; Use [7]; Choice 1 Skip (Use [7]); Choice 7 (block [Use [33]; Def [35];
 Def [36]; Use [8]; Choice 8 (Use [8]) (Use [35]); Def [8]; Use [9]; Choice 9 (Use [9]) (Use [36]);
 Def [9]; Def [37]]) (block [Use [7]; Choice 10 (block [Use [46;33]; Choice 11 (block [Use [50];
 Raise]) Skip; Use [33]; Def [33]; Use [33]; Def [35]; Def [36]; Use [8]; Choice 8 (Use [8]) (Use
 [35]); Def [8]; Use [9]; Choice 9 (Use [9]) (Use [36]); Def [9]; Use [49;8;9]; Def [37]]) Skip]);
 Use [5]; Choice 12 (block [Use [7]; Choice 10 (Use [49;8;9]) Skip; Def [38]; Use
 [4;46;33;34;19;24;25;26;27;8;9;38]; Def [39]]) (block [Try (block [Use [4;28;29;33;34;15;8;9;37];
 Def [39]]) (block [Use [50;4;28;29;33;34;15;8;9;37]; Def [39]]) Skip; Use [10]; Choice 13 (block
 [Use [4;28;29;33;19;15;8;9;12;37]; Def [40]; Use [4;40;13]]) Skip]); Use [11]; Choice 14 (block [Use
 [51;4]; Def [41]; Use [42;39;41]; Def [11]]) Skip; Use [4;24;25;26;27;14;52;2;1;18;20;21;39;11];
 Return] |}.

(* multisim/_utility/plotting.py, line 525: si_axlabel *)
Definition f__utility_plotting__si_axlabel : func := {|
 f_file := "_utility/plotting.py"; f_name := "si_axlabel"; f_line := 525;
 f_params := ["ax"; "label"; "unit"; "which"; "style"; "spacing"; "invert_position"]; f_closure := [];
 f_locals := ["full_axlabel"; "lbl"; "unt"; "unit_"; "label_"; "axlabel"];
 f_outer := ["isinstance"; "str"; "tuple"; "list"; "len"; "zip"];
 f_conds := ["*"; "style in ('SI', 'in', 'parentheses', 'IEEE')"; "isinstance(label, str)"; "isinstance(unit, str) or unit in ('', 'none', None)"; "isinstance(label, (tuple, list))"; "unit in ('', 'none', None) or isinstance(unit, (tuple, list))"; "isinstance(unit, (tuple, list))"; "len(unit) == len(label)"; "'$' not in lbl and unt is None or '$' not in unt"; "unt in ('', 'none')"; "unit_ is not None"; "style == 'SI'"; "style == 'in'"; "style == 'parentheses'"; "style == 'IEEE'"; "which == 'y'"; "invert_position"; "which == 'x'"; "which == 'z'"; "which == 'cbar'"];
 f_body := block [Use [5]; Choice 2 Skip (Raise); Use [14;2;15]; Choice 3 (block [Use [2]; Def [2]; Use
 [14;3;15]; Choice 1 Skip (Use [3]); Choice 4 Skip (Raise); Use [3]; Def [3]]) (block [Use
 [14;2;16;17]; Choice 5 (block [Use [3]; Choice 1 Skip (Use [14;3;16;17]); Choice 6 Skip (Raise); Use
 [14;3;16;17]; Choice 7 (block [Use [18;3;2]; Choice 8 Skip (Raise)]) (block [Use [3;18;2]; Def
 [3]])]) Skip]); Def [8]; Use [19;2;3]; Loop false (block [Def [9]; Def [10]; Use [9]; Choice 1 Skip
 (Use [10]); Choice 1 Skip (Use [10]); Choice 9 Skip (Raise); Use [10]; Choice 10 Skip (Use [10]);
 Def [11]; Use [9;6]; Def [12]; Use [11]; Choice 11 (block [Use [11]; Def [11]]) Skip; Use [5];
 Choice 12 (block [Use [11]; Choice 11 (block [Use [12;11;6]; Def [13]]) (block [Use [12]; Def
 [13]])]) (block [Use [5]; Choice 13 (block [Use [11]; Choice 11 (block [Use [12;11;6]; Def [13]])
 (block [Use [12]; Def [13]])]) (block [Use [5]; Choice 14 (block [Use [11]; Choice 11 (block [Use
 [12;11;6]; Def [13]]) (block [Use [12]; Def [13]])]) (block [Use [5]; Choice 15 (block [Use [11];
 Choice 11 (block [Use [12;11;6]; Def [13]]) (block [Use [12]; Def [13]])]) Skip])])]); Use [8;13];
 Def [8]]) Skip; Use [8;6]; Def [8]; Use [4]; Choice 16 (block [Use [1;8;7]; Choice 17 (Use [1])
 Skip]) (block [Use [4]; Choice 18 (block [Use [1;8;7]; Choice 17 (Use [1]) Skip]) (block [Use [4];
 Choice 19 (Use [1;8]) (block [Use [4]; Choice 20 (Use [1;8]) Skip])])])] |}.

(* multisim/_utility/plotting.py, line 660: sinum_frmt *)
Definition f__utility_plotting__sinum_frmt : func := {|
 f_file := "_utility/plotting.py"; f_name := "sinum_frmt"; f_line := 660;
 f_params := ["x"]; f_closure := [];
 f_locals := [];
 f_outer := ["isinstance"; "int"; "float"];
 f_conds := ["*"; "isinstance(x, (int, float))"; "x < 1000.0"; "x >= 1000.0"];
 f_body := block [Use [2;1;3;4]; Choice 2 (block [Use [1]; Choice 3 (block [Use [1]; Return]) (block [Use [1];
 Choice 4 (block [Use [1]; Return]) (Return)])]) (block [Use [1]; Return])] |}.

(* multisim/_utility/plotting.py, line 689: annotate_errors *)
Definition f__utility_plotting__annotate_errors : func := {|
 f_file := "_utility/plotting.py"; f_name := "annotate_errors"; f_line := 689;
 f_params := ["ax"; "y"; "y_hat"; "errors"; "err_loc"; "err_vals"; "fontsize"; "err_kwds"]; f_closure := [];
 f_locals := ["annot_str"; "r2"; "mse"; "cvrmse"; "nmbe"];
 f_outer := ["_sem"; "annotate_axes"];
 f_conds := ["*"; "'R2' in errors"; "err_vals is None or 'R2' not in err_vals"; "'MSE' in errors"; "err_vals is None or 'MSE' not in err_vals"; "'CV(RMSE)' in errors"; "err_vals is None or 'CV(RMSE)' not in err_vals"; "'NMBE' in errors"; "err_vals is None or 'NMBE' not in err_vals"; "annot_str[-1:] == '\n'"];
 f_body := block [Def [9]; Use [4]; Choice 2 (block [Use [6]; Choice 1 Skip (Use [6]); Choice 3 (block [Use
 [14;2;3]; Def [10]]) (block [Use [6]; Def [10]]); Use [9;10]; Def [9]]) Skip; Use [4]; Choice 4
 (block [Use [6]; Choice 1 Skip (Use [6]); Choice 5 (block [Use [14;2;3]; Def [11]]) (block [Use [6];
 Def [11]]); Use [9;11]; Def [9]]) Skip; Use [4]; Choice 6 (block [Use [6]; Choice 1 Skip (Use [6]);
 Choice 7 (block [Use [14;2;3]; Def [12]]) (block [Use [6]; Def [12]]); Use [9;12]; Def [9]]) Skip;
 Use [4]; Choice 8 (block [Use [6]; Choice 1 Skip (Use [6]); Choice 9 (block [Use [14;2;3]; Def
 [13]]) (block [Use [6]; Def [13]]); Use [9;13]; Def [9]]) Skip; Use [9]; Choice 10 (block [Use [9];
 Def [9]]) Skip; Use [15;1;9;5;7;8]] |}.

(* multisim/_utility/plotting.py, line 764: annotate_axes *)
Definition f__utility_plotting__annotate_axes : func := {|
 f_file := "_utility/plotting.py"; f_name := "annotate_axes"; f_line := 764;
 f_params := ["axes"; "fig"; "annotations"; "loc"; "bbox"; "txt_offset"; "xy_offset"; "fontsize"; "kwds"]; f_closure := [];
 f_locals := ["annt"; "xycoords"; "ha"; "va"; "zorder"; "xy"; "xytext"; "i"; "ax"];
 f_outer := ["isinstance"; "mpl"; "list"; "tuple"; "enumerate"];
 f_conds := ["*"; "isinstance(fig, mpl.figure.Figure)"; "axes is None"; "not isinstance(axes, (list, tuple))"; "annotations is None"; "'xycoords' in kwds"; "'ha' in kwds"; "'va' in kwds"; "'zorder' in kwds"; "loc in ('top left', 'top right', 'bottom left', 'bottom right', 'top center', 'lower ce..."; "loc == 'top left'"; "loc == 'top right'"; "loc == 'bottom left'"; "loc == 'bottom right'"; "loc == 'top center'"; "loc == 'lower center'"; "loc == 'center left'"; "loc == 'center right'"];
 f_body := block [Use [19;2;20]; Choice 2 (block [Use [1]; Choice 3 Skip (Raise); Use [2]; Def [1]]) Skip; Use
 [19;1;21;22]; Choice 4 (block [Use [1]; Def [1]]) Skip; Use [3]; Choice 5 (Def [10]) (block [Use
 [3]; Def [10]]); Use [9]; Choice 6 (Use [9]) Skip; Def [11]; Use [9]; Choice 7 (Use [9]) Skip; Def
 [12]; Use [9]; Choice 8 (Use [9]) Skip; Def [13]; Use [9]; Choice 9 (Use [9]) Skip; Def [14]; Use
 [4]; Choice 10 Skip (Raise); Use [4]; Choice 11 (block [Def [15]; Use [6;7]; Def [16]; Def [12]; Def
 [13]]) (block [Use [4]; Choice 12 (block [Def [15]; Use [6;7]; Def [16]; Def [12]; Def [13]]) (block
 [Use [4]; Choice 13 (block [Def [15]; Use [6;7]; Def [16]; Def [12]; Def [13]]) (block [Use [4];
 Choice 14 (block [Def [15]; Use [6;7]; Def [16]; Def [12]; Def [13]]) (block [Use [4]; Choice 15
 (block [Def [15]; Use [7;6]; Def [16]; Def [12]; Def [13]]) (block [Use [4]; Choice 16 (block [Def
 [15]; Use [7;6]; Def [16]; Def [12]; Def [13]]) (block [Use [4]; Choice 17 (block [Def [15]; Use
 [6;7]; Def [16]; Def [12]; Def [13]]) (block [Use [4]; Choice 18 (block [Def [15]; Use [6;7]; Def
 [16]; Def [12]; Def [13]]) Skip])])])])])])]); Use [9]; Choice 7 (Use [9]) (Use [12]); Def [12]; Use
 [9]; Choice 8 (Use [9]) (Use [13]); Def [13]; Use [23;1]; Loop false (block [Def [17]; Def [18]; Use
 [18;10;17;15;11;16;12;13;14;5;8]]) Skip] |}.

(* multisim/_utility/stat_error_measures.py, line 1: <module> *)
Definition f__utility_stat_error_measures__module : func := {|
 f_file := "_utility/stat_error_measures.py"; f_name := "<module>"; f_line := 1;
 f_params := []; f_closure := [];
 f_locals := ["np"; "pd"; "r_squared"; "r_squared_adj"; "mean_squared_err"; "mean_abs_err"; "mean_signed_deviation"; "rmse"; "cv_rmse"; "normalized_err"];
 f_outer := [];
 f_conds := ["*"];
 f_body := block [Def [1]; Def [2]; Def [3]; Def [4]; Def [5]; Def [6]; Def [7]; Def [8]; Def [9]; Def [10]] |}.

(* multisim/_utility/stat_error_measures.py, line 12: r_squared *)
Definition f__utility_stat_error_measures__r_squared : func := {|
 f_file := "_utility/stat_error_measures.py"; f_name := "r_squared"; f_line := 12;
 f_params := ["y"; "y_hat"]; f_closure := [];
 f_locals := ["ss_res"; "ss_tot"];
 f_outer := ["np"; "ValueError"];
 f_conds := ["*"; "not np.isnan(y).any().any()"; "y_hat.ndim == 2"; "y.ndim == 1"; "y_hat.ndim == 1 and y.ndim == 2"; "y_hat.ndim > 2"];
 f_body := block [Use [5;1]; Choice 2 Skip (Raise); Use [2]; Choice 3 (block [Use [1]; Choice 4 (Use [1]) (Use
 [1]); Def [1]]) (block [Use [2]; Choice 1 Skip (Use [1]); Choice 5 (block [Use [2]; Def [2]]) (block
 [Use [2]; Choice 6 (block [Use [6]; Raise]) Skip])]); Use [1;2]; Def [3]; Use [1]; Def [4]; Use
 [3;4]; Return] |}.

(* multisim/_utility/stat_error_measures.py, line 47: r_squared_adj *)
Definition f__utility_stat_error_measures__r_squared_adj : func := {|
 f_file := "_utility/stat_error_measures.py"; f_name := "r_squared_adj"; f_line := 47;
 f_params := ["p"; "r_sqrd"; "n"; "y"; "y_hat"]; f_closure := [];
 f_locals := ["max_r2"; "r_sqrd_adj"];
 f_outer := ["breakpoint"; "print"; "r_squared"];
 f_conds := ["*"; "r_sqrd is not None"; "n is not None and y is None and (y_hat is None)"; "n is None and y is not None and (y_hat is not None)"; "r_sqrd <= 1.0"];
 f_body := block [Use [2]; Choice 2 (block [Use [3]; Choice 1 Skip (block [Use [4]; Choice 1 Skip (Use [5])]);
 Choice 3 Skip (Raise)]) (block [Use [3]; Choice 1 Skip (block [Use [4]; Choice 1 Skip (Use [5])]);
 Choice 4 Skip (Raise); Use [8;9;10;4;5]; Def [2]; Use [5]; Def [3]]); Use [2]; Def [6]; Use
 [6;2;3;1]; Def [7]; Use [7]; Return] |}.

(* multisim/_utility/stat_error_measures.py, line 102: mean_squared_err *)
Definition f__utility_stat_error_measures__mean_squared_err : func := {|
 f_file := "_utility/stat_error_measures.py"; f_name := "mean_squared_err"; f_line := 102;
 f_params := ["y"; "y_hat"; "roll"; "window"; "min_periods"]; f_closure := [];
 f_locals := [];
 f_outer := ["ValueError"; "pd"];
 f_conds := ["*"; "y_hat.ndim == 2"; "y.ndim == 1"; "y_hat.ndim == 1 and y.ndim == 2"; "y_hat.ndim > 2"; "not roll"];
 f_body := block [Use [2]; Choice 2 (block [Use [1]; Choice 3 (Use [1]) (Use [1]); Def [1]]) (block [Use [2];
 Choice 1 Skip (Use [1]); Choice 4 (block [Use [2]; Def [2]]) (block [Use [2]; Choice 5 (block [Use
 [6]; Raise]) Skip])]); Use [3]; Choice 6 (block [Use [1;2]; Return]) (block [Use [7;1;2;4;5];
 Return])] |}.

(* multisim/_utility/stat_error_measures.py, line 147: mean_abs_err *)
Definition f__utility_stat_error_measures__mean_abs_err : func := {|
 f_file := "_utility/stat_error_measures.py"; f_name := "mean_abs_err"; f_line := 147;
 f_params := ["y"; "y_hat"; "roll"; "window"; "min_periods"]; f_closure := [];
 f_locals := [];
 f_outer := ["ValueError"; "np"; "pd"];
 f_conds := ["*"; "y_hat.ndim == 2"; "y.ndim == 1"; "y_hat.ndim == 1 and y.ndim == 2"; "y_hat.ndim > 2"; "not roll"];
 f_body := block [Use [2]; Choice 2 (block [Use [1]; Choice 3 (Use [1]) (Use [1]); Def [1]]) (block [Use [2];
 Choice 1 Skip (Use [1]); Choice 4 (block [Use [2]; Def [2]]) (block [Use [2]; Choice 5 (block [Use
 [6]; Raise]) Skip])]); Use [3]; Choice 6 (block [Use [7;1;2]; Return]) (block [Use [8;7;1;2;4;5];
 Return])] |}.

(* multisim/_utility/stat_error_measures.py, line 194: mean_signed_deviation *)
Definition f__utility_stat_error_measures__mean_signed_deviation : func := {|
 f_file := "_utility/stat_error_measures.py"; f_name := "mean_signed_deviation"; f_line := 194;
 f_params := ["y"; "y_hat"; "roll"; "window"; "min_periods"]; f_closure := [];
 f_locals := [];
 f_outer := ["ValueError"; "pd"];
 f_conds := ["*"; "y_hat.ndim == 2"; "y.ndim == 1"; "y_hat.ndim == 1 and y.ndim == 2"; "y_hat.ndim > 2"; "not roll"];
 f_body := block [Use [2]; Choice 2 (block [Use [1]; Choice 3 (Use [1]) (Use [1]); Def [1]]) (block [Use [2];
 Choice 1 Skip (Use [1]); Choice 4 (block [Use [2]; Def [2]]) (block [Use [2]; Choice 5 (block [Use
 [6]; Raise]) Skip])]); Use [3]; Choice 6 (block [Use [2;1]; Return]) (block [Use [7;2;1;4;5];
 Return])] |}.

(* multisim/_utility/stat_error_measures.py, line 241: rmse *)
Definition f__utility_stat_error_measures__rmse : func := {|
 f_file := "_utility/stat_error_measures.py"; f_name := "rmse"; f_line := 241;
 f_params := ["y"; "y_hat"; "roll"; "window"; "min_periods"]; f_closure := [];
 f_locals := [];
 f_outer := ["np"; "mean_squared_err"];
 f_conds := ["*"];
 f_body := block [Use [6;7;1;2;3;4;5]; Return] |}.

(* multisim/_utility/stat_error_measures.py, line 271: cv_rmse *)
Definition f__utility_stat_error_measures__cv_rmse : func := {|
 f_file := "_utility/stat_error_measures.py"; f_name := "cv_rmse"; f_line := 271;
 f_params := ["y"; "y_hat"; "roll"; "window"; "min_periods"]; f_closure := [];
 f_locals := [];
 f_outer := ["rmse"; "np"];
 f_conds := ["*"];
 f_body := block [Use [6;1;2;3;4;5;7]; Return] |}.

(* multisim/_utility/stat_error_measures.py, line 299: normalized_err *)
Definition f__utility_stat_error_measures__normalized_err : func := {|
 f_file := "_utility/stat_error_measures.py"; f_name := "normalized_err"; f_line := 299;
 f_params := ["y"; "y_hat"; "err_method"; "norm"]; f_closure := [];
 f_locals := ["err_methods"; "err_fun"; "q3"; "q1"; "desc"];
 f_outer := ["mean_squared_err"; "rmse"; "mean_signed_deviation"; "mean_abs_err"; "np"; "pd"];
 f_conds := ["*"; "err_method in ('MSE', 'RMSE', 'MSD', 'MAE')"; "norm in ('IQR', 'range', 'mean', 'median')"; "norm == 'mean'"; "norm == 'median'"; "norm == 'IQR'"; "norm == 'range'"];
 f_body := block [Use [3]; Choice 2 Skip (Raise); Use [4]; Choice 3 Skip (Raise); Use [10;11;12;13]; Def [5];
 Use [5;3]; Def [6]; Use [4]; Choice 4 (block [Use [6;1;2;14]; Return]) (block [Use [4]; Choice 5
 (block [Use [6;1;2;14]; Return]) (block [Use [4]; Choice 6 (block [Use [14;1]; Def [7]; Def [8]; Use
 [6;1;2;7;8]; Return]) (block [Use [4]; Choice 7 (block [Use [15;1]; Def [9]; Use [6;1;2;9]; Return])
 Skip])])])] |}.

Definition table_Ut : list (func * list func) := [
 (f_utility_functions__module, [f_utility_functions__load_sim_results; f_utility_functions__load_results_by_name; f_utility_functions__load_failed_results; f_utility_functions__package_results; f_utility_functions__add_line_to_log; f_utility_functions__make_boundarycond_timeseries; f_utility_functions__process_unevenly_spaced_timeseries; f_utility_functions__interp_pipe_specs; f_utility_functions__adjust_pipes; f_utility_functions__database_import; f_utility_functions__update_databases; f_utility_functions__override; f_utility_functions__override_decorator; f_utility_functions__override_decorator_wrapper; f_utility_functions__r_squared; f_utility_functions__r_squared_adj; f_utility_functions__mean_abs_err; f_utility_functions__mean_signed_deviation; f_utility_functions__mean_squared_err; f_utility_functions__rmse; f_utility_functions__cv_rmse; f_utility_functions__normalized_err; f_utility_functions__remove_outliers_std; f_utility_functions__remove_outliers_roll; f_utility_functions__rolling_median; f_utility_functions__rolling_centered; f_utility_functions__rolling_right_aligned; f_utility_functions__remove_outliers_mad; f_utility_functions__NetPlotter__class_; f_utility_functions__NetPlotter___init__; f_utility_functions__NetPlotter_set_plot_shape; f_utility_functions__NetPlotter__get_drctn; f_utility_functions__NetPlotter_add_sensor; f_utility_functions__NetPlotter__draw_sensor; f_utility_functions__NetPlotter_plot_net; f_utility_functions__NetPlotter_animate; f_utility_functions__NetPlotter_animate_init; f_utility_functions__NetPlotter_animate_update; f_utility_functions__NetPlotter_plot_errors; f_utility_functions__Meters__class_; f_utility_functions__Meters___init__; f_utility_functions__Meters_heat_meter; f_utility_functions__Meters_temperature; f_utility_functions__Meters_massflow; f_utility_functions__Meters_volumeflow; f_utility_functions__Meters_get_sensors_df; f_utility_functions__Meters_get_sensors_dict; f_utility_functions__Meters__resample_meter; f_utility_functions__Meters__save_to_disk; f_utility_functions__Meters_pred_real_plot; f_utility_functions__is_evenly_spaced; f_utility_functions__fit_time_series; f_utility_functions__ts_performance_indicators; f_utility_functions__plt_prediction_realization; f_utility_functions__plot_pr_scatter; f_utility_functions__plot_2d_kde; f_utility_functions__annotate_errors; f_utility_functions__si_axlabel; f_utility_functions__annotate_axes; f_utility_functions__opt_control; f_utility_functions__opt_control_simenv_wrapper]);
 (f__utility_meters__module, [f__utility_meters__Meters__class_; f__utility_meters__Meters___init__; f__utility_meters__Meters_heat_meter; f__utility_meters__Meters_temperature; f__utility_meters__Meters_massflow; f__utility_meters__Meters_volumeflow; f__utility_meters__Meters_get_sensors_df; f__utility_meters__Meters_get_sensors_dict; f__utility_meters__Meters__resample_meter; f__utility_meters__Meters__save_to_disk; f__utility_meters__Meters_pred_real_plot]);
 (f__utility_plotting__module, [f__utility_plotting__heatmap_from_df; f__utility_plotting__prediction_realization_scatter; f__utility_plotting__prediction_realization_2d_kde; f__utility_plotting__si_axlabel; f__utility_plotting__sinum_frmt; f__utility_plotting__annotate_errors; f__utility_plotting__annotate_axes]);
 (f__utility_stat_error_measures__module, [f__utility_stat_error_measures__r_squared; f__utility_stat_error_measures__r_squared_adj; f__utility_stat_error_measures__mean_squared_err; f__utility_stat_error_measures__mean_abs_err; f__utility_stat_error_measures__mean_signed_deviation; f__utility_stat_error_measures__rmse; f__utility_stat_error_measures__cv_rmse; f__utility_stat_error_measures__normalized_err])].
