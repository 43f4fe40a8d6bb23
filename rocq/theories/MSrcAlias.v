(** * Arguments, the variables referring to them, and changes in place (generated by
    tools/extract_alias.py; representation: MAlias.v). *)
From Coq Require Import List String PArith.
From Verif Require Import MAlias.
Import ListNotations.
Local Open Scope string_scope. Local Open Scope positive_scope.


(* multisim/_utility/meters.py, line 17: Meters.__init__ *)
Definition f__utility_meters__Meters___init__ : func := {|
 f_file := "_utility/meters.py"; f_name := "Meters.__init__"; f_line := 17;
 f_params := ["simenv"; "start_time"];
 f_body := Skip |}.

(* multisim/_utility/meters.py, line 70: Meters.heat_meter *)
Definition f__utility_meters__Meters_heat_meter : func := {|
 f_file := "_utility/meters.py"; f_name := "Meters.heat_meter"; f_line := 70;
 f_params := ["name"; "warm_part"; "warm_cell"; "cold_part"; "cold_cell"; "massflow_from_hot_part"; "full_output"; "evenly_spaced"; "freq"; "how"];
 f_body := block [Choice Skip Raise; Choice Raise Skip; Frame Return; Choice (block [Bind 11 [1] false; Frame
 (Choice (Try Eval Skip Skip) Skip)]) Skip] |}.

(* multisim/_utility/meters.py, line 209: Meters.temperature *)
Definition f__utility_meters__Meters_temperature : func := {|
 f_file := "_utility/meters.py"; f_name := "Meters.temperature"; f_line := 209;
 f_params := ["name"; "part"; "cell"];
 f_body := block [Choice Skip Raise; Frame Return; Choice (block [Bind 4 [1] false; Frame (Choice (Try Eval
 Skip Skip) Skip)]) Skip] |}.

(* multisim/_utility/meters.py, line 252: Meters.massflow *)
Definition f__utility_meters__Meters_massflow : func := {|
 f_file := "_utility/meters.py"; f_name := "Meters.massflow"; f_line := 252;
 f_params := ["name"; "part"; "cell"];
 f_body := block [Choice Skip Raise; Frame Return; Choice (block [Bind 4 [1] false; Frame (Choice (Try Eval
 Skip Skip) Skip)]) Skip] |}.

(* multisim/_utility/meters.py, line 292: Meters.volumeflow *)
Definition f__utility_meters__Meters_volumeflow : func := {|
 f_file := "_utility/meters.py"; f_name := "Meters.volumeflow"; f_line := 292;
 f_params := ["name"; "part"; "cell"];
 f_body := block [Choice Skip Raise; Frame Return; Choice (block [Bind 4 [1] false; Frame (Choice (Try Eval
 Skip Skip) Skip)]) Skip] |}.

(* multisim/_utility/meters.py, line 334: Meters.get_sensors_df *)
Definition f__utility_meters__Meters_get_sensors_df : func := {|
 f_file := "_utility/meters.py"; f_name := "Meters.get_sensors_df"; f_line := 334;
 f_params := [];
 f_body := Return |}.

(* multisim/_utility/meters.py, line 337: Meters.get_sensors_dict *)
Definition f__utility_meters__Meters_get_sensors_dict : func := {|
 f_file := "_utility/meters.py"; f_name := "Meters.get_sensors_dict"; f_line := 337;
 f_params := [];
 f_body := Return |}.

(* multisim/_utility/meters.py, line 340: Meters._resample_meter *)
Definition f__utility_meters__Meters__resample_meter : func := {|
 f_file := "_utility/meters.py"; f_name := "Meters._resample_meter"; f_line := 340;
 f_params := ["df"];
 f_body := Return |}.

(* multisim/_utility/meters.py, line 347: Meters._save_to_disk *)
Definition f__utility_meters__Meters__save_to_disk : func := {|
 f_file := "_utility/meters.py"; f_name := "Meters._save_to_disk"; f_line := 347;
 f_params := ["name"; "meter"];
 f_body := Choice (Try Eval Skip Skip) Skip |}.

(* multisim/_utility/meters.py, line 363: Meters.pred_real_plot *)
Definition f__utility_meters__Meters_pred_real_plot : func := {|
 f_file := "_utility/meters.py"; f_name := "Meters.pred_real_plot"; f_line := 363;
 f_params := ["show_rmse"; "show_cvrmse"; "hexbin"; "exclude_zeros"; "resample_uneven"];
 f_body := Skip |}.

(* multisim/_utility/plotting.py, line 20: heatmap_from_df *)
Definition f__utility_plotting__heatmap_from_df : func := {|
 f_file := "_utility/plotting.py"; f_name := "heatmap_from_df"; f_line := 20;
 f_params := ["df"; "ax"; "figsize"; "cbar"; "cbar_ax"; "cmap"; "ylabel"; "cbar_label"; "label_style"; "vmin"; "vmax"; "linewidth"; "limit_to_valid_data"; "log_cbar"; "plt_kwds"; "cbar_kwds"; "extend_over"; "extend_under"];
 f_body := block [Choice Skip Raise; Choice (Bind 2 [] true) Skip; Choice (Bind 1 [] true) Skip; Choice (Write
 2) Skip; Choice (Write 2) Skip; Choice (Write 15) Skip; Choice (Bind 6 [] true) Skip; Choice (block
 [Choice (Bind 17 [6] false) Skip; Write 16]) Skip; Choice (block [Choice (Bind 18 [6] false) Skip;
 Write 16]) Skip; Choice (Choice Skip Raise) Skip; Choice (block [Bind 4 [] true; Choice (Choice Skip
 Raise) Skip]) Skip; Return] |}.

(* multisim/_utility/plotting.py, line 187: prediction_realization_scatter *)
Definition f__utility_plotting__prediction_realization_scatter : func := {|
 f_file := "_utility/plotting.py"; f_name := "prediction_realization_scatter"; f_line := 187;
 f_params := ["y"; "y_hat"; "ax"; "aspect"; "ax_scaling_tight"; "errors"; "scttr_kwds"; "diag_kwds"; "plt_err_range"; "err_rng_kwds"; "err_kwds"; "err_loc"; "legend_kwds"; "auto_label"; "language"; "plot_every"; "fig_kwds"; "err_vals"];
 f_body := block [Choice (Bind 3 [] true) Skip; Choice Skip Raise; Return] |}.

(* multisim/_utility/plotting.py, line 332: prediction_realization_2d_kde *)
Definition f__utility_plotting__prediction_realization_2d_kde : func := {|
 f_file := "_utility/plotting.py"; f_name := "prediction_realization_2d_kde"; f_line := 332;
 f_params := ["y"; "y_hat"; "steps"; "ax"; "contour"; "cmap"; "norm"; "vmin"; "vmax"; "cont_lines"; "cbar"; "line_color"; "fontsize"; "aspect"; "extend"; "cm_under"; "cm_over"; "errors"; "plt_kwds"; "err_kwds"];
 f_body := block [Choice (Bind 4 [] true) Skip; Choice Skip Raise; Bind 3 [3] true; Choice (block [Bind 8 [8]
 true; Bind 9 [9] true]) (Choice (block [Choice Raise Skip; Bind 8 [8] true; Bind 9 [9] true]) Skip);
 Choice Skip (Try Eval Skip Skip); Choice (Bind 11 [] true) Skip; Return] |}.

(* multisim/_utility/plotting.py, line 525: si_axlabel *)
Definition f__utility_plotting__si_axlabel : func := {|
 f_file := "_utility/plotting.py"; f_name := "si_axlabel"; f_line := 525;
 f_params := ["ax"; "label"; "unit"; "which"; "style"; "spacing"; "invert_position"];
 f_body := block [Choice Skip Raise; Choice (block [Bind 2 [] true; Choice Skip Raise; Bind 3 [] true]) (Choice
 (block [Choice Skip Raise; Choice (Choice Skip Raise) (Bind 3 [] true)]) Skip); Loop false (block
 [Bind 8 [2;3] true; Bind 9 [2;3] true; Choice Skip Raise; Bind 10 [9] true; Choice (Bind 10 [] true)
 Skip]) Skip] |}.

(* multisim/_utility/plotting.py, line 660: sinum_frmt *)
Definition f__utility_plotting__sinum_frmt : func := {|
 f_file := "_utility/plotting.py"; f_name := "sinum_frmt"; f_line := 660;
 f_params := ["x"];
 f_body := Return |}.

(* multisim/_utility/plotting.py, line 689: annotate_errors *)
Definition f__utility_plotting__annotate_errors : func := {|
 f_file := "_utility/plotting.py"; f_name := "annotate_errors"; f_line := 689;
 f_params := ["ax"; "y"; "y_hat"; "errors"; "err_loc"; "err_vals"; "fontsize"; "err_kwds"];
 f_body := block [Choice (Choice (Bind 9 [] true) (Bind 9 [6] false)) Skip; Choice (Choice (Bind 10 [] true)
 (Bind 10 [6] false)) Skip; Choice (Choice (Bind 11 [] true) (Bind 11 [6] false)) Skip; Choice
 (Choice (Bind 12 [] true) (Bind 12 [6] false)) Skip] |}.

(* multisim/_utility/plotting.py, line 764: annotate_axes *)
Definition f__utility_plotting__annotate_axes : func := {|
 f_file := "_utility/plotting.py"; f_name := "annotate_axes"; f_line := 764;
 f_params := ["axes"; "fig"; "annotations"; "loc"; "bbox"; "txt_offset"; "xy_offset"; "fontsize"; "kwds"];
 f_body := block [Choice (block [Choice Skip Raise; Bind 1 [] true]) Skip; Choice (Bind 1 [] true) Skip; Choice
 (Bind 10 [] true) (Bind 10 [3] false); Bind 11 [9] true; Bind 12 [9] true; Bind 13 [9] true; Bind 14
 [9] true; Choice Skip Raise; Choice (block [Bind 12 [] true; Bind 13 [] true]) (Choice (block [Bind
 12 [] true; Bind 13 [] true]) (Choice (block [Bind 12 [] true; Bind 13 [] true]) (Choice (block
 [Bind 12 [] true; Bind 13 [] true]) (Choice (block [Bind 12 [] true; Bind 13 [] true]) (Choice
 (block [Bind 12 [] true; Bind 13 [] true]) (Choice (block [Bind 12 [] true; Bind 13 [] true])
 (Choice (block [Bind 12 [] true; Bind 13 [] true]) Skip))))))); Bind 12 [9;12] false; Bind 13 [9;13]
 false; Loop false (block [Bind 15 [1] true; Bind 16 [1] true]) Skip] |}.

(* multisim/_utility/stat_error_measures.py, line 12: r_squared *)
Definition f__utility_stat_error_measures__r_squared : func := {|
 f_file := "_utility/stat_error_measures.py"; f_name := "r_squared"; f_line := 12;
 f_params := ["y"; "y_hat"];
 f_body := block [Choice Skip Raise; Choice (Bind 1 [1] false) (Choice (Bind 2 [2] false) (Choice Raise Skip));
 Return] |}.

(* multisim/_utility/stat_error_measures.py, line 47: r_squared_adj *)
Definition f__utility_stat_error_measures__r_squared_adj : func := {|
 f_file := "_utility/stat_error_measures.py"; f_name := "r_squared_adj"; f_line := 47;
 f_params := ["p"; "r_sqrd"; "n"; "y"; "y_hat"];
 f_body := block [Choice (Choice Skip Raise) (block [Choice Skip Raise; Bind 2 [] true; Bind 3 [5] false]);
 Return] |}.

(* multisim/_utility/stat_error_measures.py, line 102: mean_squared_err *)
Definition f__utility_stat_error_measures__mean_squared_err : func := {|
 f_file := "_utility/stat_error_measures.py"; f_name := "mean_squared_err"; f_line := 102;
 f_params := ["y"; "y_hat"; "roll"; "window"; "min_periods"];
 f_body := block [Choice (Bind 1 [1] false) (Choice (Bind 2 [2] false) (Choice Raise Skip)); Return] |}.

(* multisim/_utility/stat_error_measures.py, line 147: mean_abs_err *)
Definition f__utility_stat_error_measures__mean_abs_err : func := {|
 f_file := "_utility/stat_error_measures.py"; f_name := "mean_abs_err"; f_line := 147;
 f_params := ["y"; "y_hat"; "roll"; "window"; "min_periods"];
 f_body := block [Choice (Bind 1 [1] false) (Choice (Bind 2 [2] false) (Choice Raise Skip)); Return] |}.

(* multisim/_utility/stat_error_measures.py, line 194: mean_signed_deviation *)
Definition f__utility_stat_error_measures__mean_signed_deviation : func := {|
 f_file := "_utility/stat_error_measures.py"; f_name := "mean_signed_deviation"; f_line := 194;
 f_params := ["y"; "y_hat"; "roll"; "window"; "min_periods"];
 f_body := block [Choice (Bind 1 [1] false) (Choice (Bind 2 [2] false) (Choice Raise Skip)); Return] |}.

(* multisim/_utility/stat_error_measures.py, line 241: rmse *)
Definition f__utility_stat_error_measures__rmse : func := {|
 f_file := "_utility/stat_error_measures.py"; f_name := "rmse"; f_line := 241;
 f_params := ["y"; "y_hat"; "roll"; "window"; "min_periods"];
 f_body := Return |}.

(* multisim/_utility/stat_error_measures.py, line 271: cv_rmse *)
Definition f__utility_stat_error_measures__cv_rmse : func := {|
 f_file := "_utility/stat_error_measures.py"; f_name := "cv_rmse"; f_line := 271;
 f_params := ["y"; "y_hat"; "roll"; "window"; "min_periods"];
 f_body := Return |}.

(* multisim/_utility/stat_error_measures.py, line 299: normalized_err *)
Definition f__utility_stat_error_measures__normalized_err : func := {|
 f_file := "_utility/stat_error_measures.py"; f_name := "normalized_err"; f_line := 299;
 f_params := ["y"; "y_hat"; "err_method"; "norm"];
 f_body := block [Choice Skip Raise; Choice Skip Raise; Choice Return (Choice Return (Choice Return (Choice
 Return Skip)))] |}.

(* multisim/controls.py, line 30: Controls.__init__ *)
Definition f_controls__Controls___init__ : func := {|
 f_file := "controls.py"; f_name := "Controls.__init__"; f_line := 30;
 f_params := ["name"; "master_cls"; "kwargs"];
 f_body := block [Choice Skip Raise; Choice Skip Raise; Choice Skip Raise; Choice Skip Raise; Choice Skip
 Raise; Choice Skip (Choice Skip (Choice (Choice Skip Raise) Skip)); Choice Skip Raise; Choice Skip
 Raise; Choice Skip Raise; Choice Skip Raise; Choice Skip Raise; Bind 4 [3] true; Bind 5 [] true;
 Frame (block [Choice Skip Raise; Bind 6 [4] false; Choice Skip Raise; Choice (block [Bind 5 [6]
 false; Return]) Skip; Bind 7 [4] false; Choice (Try (block [Eval; Bind 7 [] true]) Raise Skip)
 (Choice (block [Choice Skip Raise; Bind 7 [7] true]) (Choice Raise Skip)); Bind 5 [] true; Return]);
 Choice Skip Raise; Choice (block [Choice Skip Raise; Bind 8 [3] true; Bind 9 [] true; Frame (block
 [Choice Skip Raise; Bind 10 [8] false; Choice Skip Raise; Choice (block [Bind 9 [10] false; Return])
 Skip; Bind 11 [8] false; Choice (Try (block [Eval; Bind 11 [] true]) Raise Skip) (Choice (block
 [Choice Skip Raise; Bind 11 [11] true]) (Choice Raise Skip)); Bind 9 [] true; Return])]) Skip;
 Choice (Choice Skip Raise) (Choice (Choice Skip Raise) Skip); Choice Skip (Choice (block [Choice
 Skip Raise; Choice Skip Raise; Loop false (Choice (block [Choice Raise (Choice (Try (block [Eval;
 Raise]) Raise Skip) Skip); Break]) Skip) Skip]) Skip); Choice Skip Raise; Choice (block [Choice Skip
 Raise; Choice (Choice Skip Raise) (block [Choice Skip Raise; Choice Skip Raise; Choice Skip Raise;
 Choice (Choice Skip Raise) Skip; Choice Skip Raise; Choice Skip Raise]); Choice Skip Raise]) Skip;
 Choice Skip Raise; Choice Skip Raise; Choice Skip Raise; Choice Skip Raise; Choice Skip (Choice Skip
 Raise); Choice Skip Raise] |}.

(* multisim/controls.py, line 798: Controls.init_controller *)
Definition f_controls__Controls_init_controller : func := {|
 f_file := "controls.py"; f_name := "Controls.init_controller"; f_line := 798;
 f_params := ["kwargs"];
 f_body := Choice Raise Skip |}.

(* multisim/controls.py, line 816: Controls.clear *)
Definition f_controls__Controls_clear : func := {|
 f_file := "controls.py"; f_name := "Controls.clear"; f_line := 816;
 f_params := [];
 f_body := Skip |}.

(* multisim/controls.py, line 841: Controls.ctrl *)
Definition f_controls__Controls_ctrl : func := {|
 f_file := "controls.py"; f_name := "Controls.ctrl"; f_line := 841;
 f_params := ["timestep"];
 f_body := Skip |}.

(* multisim/controls.py, line 909: Controls._process_cv_direct *)
Definition f_controls__Controls__process_cv_direct : func := {|
 f_file := "controls.py"; f_name := "Controls._process_cv_direct"; f_line := 909;
 f_params := ["dummy_cls_instance"];
 f_body := Skip |}.

(* multisim/controls.py, line 919: Controls._clip_cv_to_saturation *)
Definition f_controls__Controls__clip_cv_to_saturation : func := {|
 f_file := "controls.py"; f_name := "Controls._clip_cv_to_saturation"; f_line := 919;
 f_params := [];
 f_body := Skip |}.

(* multisim/controls.py, line 928: Controls._cv_invert *)
Definition f_controls__Controls__cv_invert : func := {|
 f_file := "controls.py"; f_name := "Controls._cv_invert"; f_line := 928;
 f_params := [];
 f_body := Skip |}.

(* multisim/controls.py, line 932: Controls._subcontroller_check *)
Definition f_controls__Controls__subcontroller_check : func := {|
 f_file := "controls.py"; f_name := "Controls._subcontroller_check"; f_line := 932;
 f_params := ["pid"];
 f_body := Skip |}.

(* multisim/controls.py, line 952: Controls.__check_args *)
Definition f_controls__Controls___check_args : func := {|
 f_file := "controls.py"; f_name := "Controls.__check_args"; f_line := 952;
 f_params := ["part"; "port"; "caller"; "kwargs"];
 f_body := block [Bind 3 [] true; Choice Skip Raise; Bind 5 [4] false; Choice Skip Raise; Choice Return Skip;
 Bind 6 [4] false; Choice (Try (block [Eval; Bind 6 [] true]) Raise Skip) (Choice (block [Choice Skip
 Raise; Bind 6 [6] true]) (Choice Raise Skip)); Return] |}.

(* multisim/flownet.py, line 11: FlowNet.__init__ *)
Definition f_flownet__FlowNet___init__ : func := {|
 f_file := "flownet.py"; f_name := "FlowNet.__init__"; f_line := 11;
 f_params := ["SimEnv_instance"; "part"; "sub_net"];
 f_body := Skip |}.

(* multisim/parts/chp_plant.py, line 47: CHPPlant.__init__ *)
Definition f_parts_chp_plant__CHPPlant___init__ : func := {|
 f_file := "parts/chp_plant.py"; f_name := "CHPPlant.__init__"; f_line := 47;
 f_params := ["name"; "master_cls"; "eta_el"; "p2h_ratio"; "max_slope_el"; "min_off_time"; "min_on_time"; "chp_on_at_start"; "kwds"];
 f_body := block [Bind 10 [1] false; Bind 11 [9] false; Frame (Choice Raise Skip); Choice Skip Raise; Choice
 Skip Raise; Choice Skip Raise; Choice (Choice Skip Raise) (block [Choice Skip Raise; Choice Skip
 Raise]); Choice Skip Raise; Choice Skip Raise; Choice Skip Raise; Choice Skip Raise; Choice Skip
 Raise; Choice Skip Raise; Choice Skip Raise; Choice Skip (Choice (Choice Skip Raise) (block [Choice
 Skip Raise; Bind 12 [9] false; Bind 13 [9] false; Choice Skip Raise])); Choice Skip Raise] |}.

(* multisim/parts/chp_plant.py, line 460: CHPPlant.init_part *)
Definition f_parts_chp_plant__CHPPlant_init_part : func := {|
 f_file := "parts/chp_plant.py"; f_name := "CHPPlant.init_part"; f_line := 460;
 f_params := ["start_modulation"; "fluegas_flow"; "kwds"];
 f_body := block [Bind 4 [3] false; Frame (Choice Raise Skip); Choice Skip Raise; Bind 5 [3] true; Frame
 (Choice (block [Choice Skip Raise; Choice Skip Raise; Choice Skip Raise]) (Choice (block [Choice
 Skip Raise; Choice Skip Raise; Choice (Choice Skip Raise) (Choice (block [Choice Skip Raise; Choice
 Skip Raise; Choice Skip Raise; Choice Skip Raise]) Skip)]) Skip)); Choice Skip Raise; Choice (block
 [Choice Skip Raise; Choice Skip Raise]) Skip; Choice Skip Raise; Choice Skip Raise] |}.

(* multisim/parts/chp_plant.py, line 561: CHPPlant._special_array_init *)
Definition f_parts_chp_plant__CHPPlant__special_array_init : func := {|
 f_file := "parts/chp_plant.py"; f_name := "CHPPlant._special_array_init"; f_line := 561;
 f_params := ["num_steps"];
 f_body := Skip |}.

(* multisim/parts/chp_plant.py, line 567: CHPPlant.__deprecated_special_free_memory *)
Definition f_parts_chp_plant__CHPPlant___deprecated_special_free_memory : func := {|
 f_file := "parts/chp_plant.py"; f_name := "CHPPlant.__deprecated_special_free_memory"; f_line := 567;
 f_params := ["disk_store"; "part"; "array_length"; "hdf_idx"; "stepnum"];
 f_body := block [Write 1; Write 1; Write 1; Write 1] |}.

(* multisim/parts/chp_plant.py, line 600: CHPPlant._special_free_memory *)
Definition f_parts_chp_plant__CHPPlant__special_free_memory : func := {|
 f_file := "parts/chp_plant.py"; f_name := "CHPPlant._special_free_memory"; f_line := 600;
 f_params := ["disk_store"; "part"; "array_length"; "hdf_idx"; "stepnum"];
 f_body := block [Write 1; Write 1; Write 1; Write 1] |}.

(* multisim/parts/chp_plant.py, line 633: CHPPlant._check_results *)
Definition f_parts_chp_plant__CHPPlant__check_results : func := {|
 f_file := "parts/chp_plant.py"; f_name := "CHPPlant._check_results"; f_line := 633;
 f_params := [];
 f_body := Choice Skip Raise |}.

(* multisim/parts/chp_plant.py, line 639: CHPPlant._final_datastore_backcalc *)
Definition f_parts_chp_plant__CHPPlant__final_datastore_backcalc : func := {|
 f_file := "parts/chp_plant.py"; f_name := "CHPPlant._final_datastore_backcalc"; f_line := 639;
 f_params := ["disk_store"; "part"];
 f_body := Skip |}.

(* multisim/parts/chp_plant.py, line 659: CHPPlant._special_crop_results *)
Definition f_parts_chp_plant__CHPPlant__special_crop_results : func := {|
 f_file := "parts/chp_plant.py"; f_name := "CHPPlant._special_crop_results"; f_line := 659;
 f_params := ["stepnum"];
 f_body := Skip |}.

(* multisim/parts/chp_plant.py, line 665: CHPPlant._special_return_store *)
Definition f_parts_chp_plant__CHPPlant__special_return_store : func := {|
 f_file := "parts/chp_plant.py"; f_name := "CHPPlant._special_return_store"; f_line := 665;
 f_params := ["disk_store"; "dfs"; "part"];
 f_body := Write 2 |}.

(* multisim/parts/chp_plant.py, line 675: CHPPlant.get_diff *)
Definition f_parts_chp_plant__CHPPlant_get_diff : func := {|
 f_file := "parts/chp_plant.py"; f_name := "CHPPlant.get_diff"; f_line := 675;
 f_params := ["timestep"];
 f_body := block [Bind 2 [1] false; Frame (block [Choice (Choice Skip Raise) Skip; Return]); Return] |}.

(* multisim/parts/connector_3w.py, line 36: Connector3w.__init__ *)
Definition f_parts_connector_3w__Connector3w___init__ : func := {|
 f_file := "parts/connector_3w.py"; f_name := "Connector3w.__init__"; f_line := 36;
 f_params := ["name"; "master_cls"; "kwargs"];
 f_body := Skip |}.

(* multisim/parts/connector_3w.py, line 222: Connector3w.init_part *)
Definition f_parts_connector_3w__Connector3w_init_part : func := {|
 f_file := "parts/connector_3w.py"; f_name := "Connector3w.init_part"; f_line := 222;
 f_params := ["material"; "pipe_specs"; "kwargs"];
 f_body := block [Bind 4 [1] false; Bind 5 [2] false; Frame (block [Choice Skip Raise; Choice (Choice Skip
 Raise) Skip; Choice Skip Raise; Choice (block [Choice Skip Raise; Bind 5 [] true]) Skip; Choice Skip
 Raise; Loop false (block [Bind 6 [5] false; Choice Skip Raise]) Skip; Loop false (block [Bind 6 [5]
 false; Bind 7 [5] false; Bind 8 [7] false; Choice (Bind 9 [7] false) (Bind 9 [] true); Choice Skip
 Raise; Choice (Choice Skip Raise) Skip; Choice Skip (block [Bind 10 [6] false; Frame (block [Choice
 Skip Raise; Choice Skip Raise; Choice (Try Eval Skip Skip) Skip; Choice Skip (Choice Skip Raise);
 Choice Raise (Choice Raise Skip); Choice Skip Raise; Choice Skip (Choice (Choice (Choice Skip
 (Choice (Choice Skip Raise) Skip)) Skip) Skip); Return])])]) Skip; Choice (Choice Skip Raise)
 Skip])] |}.

(* multisim/parts/connector_3w.py, line 259: Connector3w._reset_to_init_cond *)
Definition f_parts_connector_3w__Connector3w__reset_to_init_cond : func := {|
 f_file := "parts/connector_3w.py"; f_name := "Connector3w._reset_to_init_cond"; f_line := 259;
 f_params := [];
 f_body := Skip |}.

(* multisim/parts/connector_3w.py, line 262: Connector3w._get_flow_routine *)
Definition f_parts_connector_3w__Connector3w__get_flow_routine : func := {|
 f_file := "parts/connector_3w.py"; f_name := "Connector3w._get_flow_routine"; f_line := 262;
 f_params := ["port"; "parent_port"; "subnet"; "kwargs"];
 f_body := block [Bind 5 [1] false; Frame (block [Choice (block [Bind 6 [5] false; Frame (block [Choice Skip
 Raise; Choice Skip Raise; Choice (Try Eval Skip Skip) Skip; Choice Skip (Choice Skip Raise); Choice
 Raise (Choice Raise Skip); Choice Skip Raise; Choice Skip (Choice (Choice (Choice Skip (Choice
 (Choice Skip Raise) Skip)) Skip) Skip); Return])]) (Choice (block [Bind 7 [5] false; Frame (block
 [Choice Skip Raise; Choice Skip Raise; Choice (Try Eval Skip Skip) Skip; Choice Skip (Choice Skip
 Raise); Choice Raise (Choice Raise Skip); Choice Skip Raise; Choice Skip (Choice (Choice (Choice
 Skip (Choice (Choice Skip Raise) Skip)) Skip) Skip); Return])]) Skip); Choice (block [Choice (Frame
 (block [Choice Skip Raise; Choice Skip Raise; Choice (Try Eval Skip Skip) Skip; Choice Skip (Choice
 Skip Raise); Choice Raise (Choice Raise Skip); Choice Skip Raise; Choice Skip (Choice (Choice
 (Choice Skip (Choice (Choice Skip Raise) Skip)) Skip) Skip); Return])) (Choice (Frame (block [Choice
 Skip Raise; Choice Skip Raise; Choice (Try Eval Skip Skip) Skip; Choice Skip (Choice Skip Raise);
 Choice Raise (Choice Raise Skip); Choice Skip Raise; Choice Skip (Choice (Choice (Choice Skip
 (Choice (Choice Skip Raise) Skip)) Skip) Skip); Return])) Skip); Return]) Return]); Choice Skip
 (block [Bind 8 [1] false; Bind 9 [2] false; Frame (block [Choice (block [Bind 10 [8] false; Frame
 (block [Choice Skip Raise; Choice Skip Raise; Choice (Try Eval Skip Skip) Skip; Choice Skip (Choice
 Skip Raise); Choice Raise (Choice Raise Skip); Choice Skip Raise; Choice Skip (Choice (Choice
 (Choice Skip (Choice (Choice Skip Raise) Skip)) Skip) Skip); Return])]) (Choice (block [Bind 11 [8]
 false; Frame (block [Choice Skip Raise; Choice Skip Raise; Choice (Try Eval Skip Skip) Skip; Choice
 Skip (Choice Skip Raise); Choice Raise (Choice Raise Skip); Choice Skip Raise; Choice Skip (Choice
 (Choice (Choice Skip (Choice (Choice Skip Raise) Skip)) Skip) Skip); Return])]) Skip); Choice (block
 [Choice (Frame (block [Choice Skip Raise; Choice Skip Raise; Choice (Try Eval Skip Skip) Skip;
 Choice Skip (Choice Skip Raise); Choice Raise (Choice Raise Skip); Choice Skip Raise; Choice Skip
 (Choice (Choice (Choice Skip (Choice (Choice Skip Raise) Skip)) Skip) Skip); Return])) (Choice
 (Frame (block [Choice Skip Raise; Choice Skip Raise; Choice (Try Eval Skip Skip) Skip; Choice Skip
 (Choice Skip Raise); Choice Raise (Choice Raise Skip); Choice Skip Raise; Choice Skip (Choice
 (Choice (Choice Skip (Choice (Choice Skip Raise) Skip)) Skip) Skip); Return])) Skip); Return])
 Return])]); Return] |}.

(* multisim/parts/connector_3w.py, line 403: Connector3w.solve *)
Definition f_parts_connector_3w__Connector3w_solve : func := {|
 f_file := "parts/connector_3w.py"; f_name := "Connector3w.solve"; f_line := 403;
 f_params := ["timestep"];
 f_body := Skip |}.

(* multisim/parts/connector_3w.py, line 439: Connector3w.draw_part *)
Definition f_parts_connector_3w__Connector3w_draw_part : func := {|
 f_file := "parts/connector_3w.py"; f_name := "Connector3w.draw_part"; f_line := 439;
 f_params := ["axis"; "timestep"; "draw"; "animate"];
 f_body := block [Choice (block [Choice Skip Raise; Choice Skip Raise]) Skip; Choice (Choice Return Skip) Skip] |}.

(* multisim/parts/controllers.py, line 16: PID.__init__ *)
Definition f_parts_controllers__PID___init__ : func := {|
 f_file := "parts/controllers.py"; f_name := "PID.__init__"; f_line := 16;
 f_params := ["name"; "master_cls"; "kwargs"];
 f_body := block [Choice Skip Raise; Choice (block [Choice Skip Raise; Choice Skip Raise; Choice (block [Choice
 (Choice Skip Raise) Skip; Choice (Choice Skip Raise) Skip; Choice (Choice Skip Raise) Skip]) (Choice
 (Choice Skip Raise) (Choice (block [Choice (Choice Skip Raise) Skip; Choice Skip Raise; Choice Skip
 Raise; Choice (Choice Skip Raise) Skip; Choice (Choice Skip Raise) Skip; Choice Skip (Choice Skip
 (Choice Skip (Choice (Choice Skip Raise) Skip)))]) Skip))]) Skip; Choice (block [Choice Skip Raise;
 Choice Skip Raise]) Skip; Choice (block [Choice Skip Raise; Choice Skip Raise; Choice (block [Choice
 Skip Raise; Choice Skip Raise]) Skip]) Skip; Choice (block [Choice Skip Raise; Choice Skip Raise])
 Skip] |}.

(* multisim/parts/controllers.py, line 366: PID._reset_to_init_cond *)
Definition f_parts_controllers__PID__reset_to_init_cond : func := {|
 f_file := "parts/controllers.py"; f_name := "PID._reset_to_init_cond"; f_line := 366;
 f_params := [];
 f_body := Skip |}.

(* multisim/parts/controllers.py, line 375: PID.run_controller *)
Definition f_parts_controllers__PID_run_controller : func := {|
 f_file := "parts/controllers.py"; f_name := "PID.run_controller"; f_line := 375;
 f_params := ["timestep"];
 f_body := Skip |}.

(* multisim/parts/controllers.py, line 498: BangBang.__init__ *)
Definition f_parts_controllers__BangBang___init__ : func := {|
 f_file := "parts/controllers.py"; f_name := "BangBang.__init__"; f_line := 498;
 f_params := ["name"; "master_cls"; "kwargs"];
 f_body := Choice Skip Raise |}.

(* multisim/parts/controllers.py, line 527: BangBang._reset_to_init_cond *)
Definition f_parts_controllers__BangBang__reset_to_init_cond : func := {|
 f_file := "parts/controllers.py"; f_name := "BangBang._reset_to_init_cond"; f_line := 527;
 f_params := [];
 f_body := Skip |}.

(* multisim/parts/controllers.py, line 536: BangBang.run_controller *)
Definition f_parts_controllers__BangBang_run_controller : func := {|
 f_file := "parts/controllers.py"; f_name := "BangBang.run_controller"; f_line := 536;
 f_params := ["timestep"];
 f_body := Skip |}.

(* multisim/parts/controllers.py, line 556: TwoSensors.__init__ *)
Definition f_parts_controllers__TwoSensors___init__ : func := {|
 f_file := "parts/controllers.py"; f_name := "TwoSensors.__init__"; f_line := 556;
 f_params := ["name"; "master_cls"; "kwargs"];
 f_body := block [Choice (Choice Skip Raise) Skip; Choice Skip Raise; Choice Skip Raise; Choice Skip Raise;
 Choice Skip Raise; Choice Skip Raise; Choice Skip Raise; Choice Skip Raise] |}.

(* multisim/parts/controllers.py, line 629: TwoSensors._reset_to_init_cond *)
Definition f_parts_controllers__TwoSensors__reset_to_init_cond : func := {|
 f_file := "parts/controllers.py"; f_name := "TwoSensors._reset_to_init_cond"; f_line := 629;
 f_params := [];
 f_body := Skip |}.

(* multisim/parts/controllers.py, line 638: TwoSensors.run_controller *)
Definition f_parts_controllers__TwoSensors_run_controller : func := {|
 f_file := "parts/controllers.py"; f_name := "TwoSensors.run_controller"; f_line := 638;
 f_params := ["timestep"];
 f_body := Skip |}.

(* multisim/parts/controllers.py, line 674: ModelPredCHP.__init__ *)
Definition f_parts_controllers__ModelPredCHP___init__ : func := {|
 f_file := "parts/controllers.py"; f_name := "ModelPredCHP.__init__"; f_line := 674;
 f_params := ["name"; "master_cls"; "kwds"];
 f_body := block [Choice Skip Raise; Choice Skip Raise; Choice Skip Raise; Choice Skip Raise; Choice Skip
 Raise; Choice Skip Raise; Choice Skip Raise; Choice Skip Raise; Choice Skip (Choice Skip Raise);
 Choice Skip Raise; Choice Skip Raise; Choice Skip Raise; Choice Skip Raise; Choice Skip Raise;
 Choice Skip Raise; Choice Skip Raise; Choice Skip Raise; Choice Skip Raise; Choice Skip Raise;
 Choice Skip (Choice Skip Raise); Choice Skip Raise; Choice Skip Raise; Choice Skip Raise; Choice
 Skip Raise; Choice Skip Raise; Choice Skip Raise; Choice Skip Raise; Choice Skip Raise; Bind 4 [3]
 false; Bind 5 [3] true; Frame (block [Choice Skip Raise; Choice Skip Raise; Choice Skip Raise;
 Choice Skip Raise; Choice Skip Raise; Choice Skip Raise; Try Eval Skip Skip; Choice Skip Raise;
 Choice Raise Skip; Choice (block [Bind 4 [] true; Choice Skip Raise]) (Choice Skip Raise)]); Choice
 Skip Raise; Bind 6 [3] false; Bind 7 [3] true; Frame (block [Choice Skip Raise; Choice Skip Raise;
 Choice Skip Raise; Choice Skip Raise; Choice Skip Raise; Choice Skip Raise; Try Eval Skip Skip;
 Choice Skip Raise; Choice Raise Skip; Choice (block [Bind 6 [] true; Choice Skip Raise]) (Choice
 Skip Raise)]); Choice Skip Raise; Choice Skip (Choice Skip Raise); Choice Skip Raise; Choice Skip
 Raise; Choice Skip Raise; Choice Skip Raise; Choice Skip (Choice Skip Raise); Choice Skip Raise;
 Choice Skip Raise; Choice Skip Raise; Choice Skip Raise; Choice Skip Raise; Choice Skip (Choice Skip
 Raise); Choice Skip Raise] |}.

(* multisim/parts/controllers.py, line 1244: ModelPredCHP._special_store_to_disk *)
Definition f_parts_controllers__ModelPredCHP__special_store_to_disk : func := {|
 f_file := "parts/controllers.py"; f_name := "ModelPredCHP._special_store_to_disk"; f_line := 1244;
 f_params := ["store"; "store_kdws"];
 f_body := block [Write 1; Write 1; Write 1; Write 1; Write 1] |}.

(* multisim/parts/controllers.py, line 1311: ModelPredCHP._process_opt_profiles *)
Definition f_parts_controllers__ModelPredCHP__process_opt_profiles : func := {|
 f_file := "parts/controllers.py"; f_name := "ModelPredCHP._process_opt_profiles"; f_line := 1311;
 f_params := ["opt_prfls"; "kwds"];
 f_body := block [Choice Skip Raise; Choice Skip Raise; Choice Skip Raise; Choice Skip Raise; Choice Skip
 Raise; Try Eval Skip Skip; Choice Skip Raise; Choice Raise Skip; Choice Skip Raise] |}.

(* multisim/parts/controllers.py, line 1389: ModelPredCHP._process_ctrl_profiles *)
Definition f_parts_controllers__ModelPredCHP__process_ctrl_profiles : func := {|
 f_file := "parts/controllers.py"; f_name := "ModelPredCHP._process_ctrl_profiles"; f_line := 1389;
 f_params := ["ctrl_prfls"; "kwds"];
 f_body := block [Choice Skip Raise; Choice Skip Raise; Choice Skip Raise; Choice Skip Raise; Choice Skip
 Raise; Try Eval Skip Skip; Choice Skip Raise; Choice Raise Skip; Choice Skip Raise] |}.

(* multisim/parts/controllers.py, line 1471: ModelPredCHP._process_profiles *)
Definition f_parts_controllers__ModelPredCHP__process_profiles : func := {|
 f_file := "parts/controllers.py"; f_name := "ModelPredCHP._process_profiles"; f_line := 1471;
 f_params := ["prfls"; "which"; "kwds"];
 f_body := block [Choice Skip Raise; Choice Skip Raise; Choice Skip Raise; Choice Skip Raise; Choice Skip
 Raise; Choice Skip Raise; Try Eval Skip Skip; Choice Skip Raise; Choice Raise Skip; Choice (block
 [Bind 1 [] true; Choice Skip Raise]) (Choice Skip Raise)] |}.

(* multisim/parts/controllers.py, line 1582: ModelPredCHP._reset_to_init_cond *)
Definition f_parts_controllers__ModelPredCHP__reset_to_init_cond : func := {|
 f_file := "parts/controllers.py"; f_name := "ModelPredCHP._reset_to_init_cond"; f_line := 1582;
 f_params := [];
 f_body := Skip |}.

(* multisim/parts/controllers.py, line 1591: ModelPredCHP.tes_cap_before_empty *)
Definition f_parts_controllers__ModelPredCHP_tes_cap_before_empty : func := {|
 f_file := "parts/controllers.py"; f_name := "ModelPredCHP.tes_cap_before_empty"; f_line := 1591;
 f_params := ["x"];
 f_body := Return |}.

(* multisim/parts/controllers.py, line 1625: ModelPredCHP.tes_cap_before_full *)
Definition f_parts_controllers__ModelPredCHP_tes_cap_before_full : func := {|
 f_file := "parts/controllers.py"; f_name := "ModelPredCHP.tes_cap_before_full"; f_line := 1625;
 f_params := ["x"];
 f_body := Return |}.

(* multisim/parts/controllers.py, line 1657: ModelPredCHP._tes_heat_content *)
Definition f_parts_controllers__ModelPredCHP__tes_heat_content : func := {|
 f_file := "parts/controllers.py"; f_name := "ModelPredCHP._tes_heat_content"; f_line := 1657;
 f_params := [];
 f_body := Return |}.

(* multisim/parts/controllers.py, line 1668: ModelPredCHP._emergency_control *)
Definition f_parts_controllers__ModelPredCHP__emergency_control : func := {|
 f_file := "parts/controllers.py"; f_name := "ModelPredCHP._emergency_control"; f_line := 1668;
 f_params := ["hysteresis"];
 f_body := Return |}.

(* multisim/parts/controllers.py, line 1751: ModelPredCHP._adapt_cap *)
Definition f_parts_controllers__ModelPredCHP__adapt_cap : func := {|
 f_file := "parts/controllers.py"; f_name := "ModelPredCHP._adapt_cap"; f_line := 1751;
 f_params := ["lower"; "check"];
 f_body := Choice (Choice Return Skip) Skip |}.

(* multisim/parts/controllers.py, line 1779: ModelPredCHP._longterm_opt_pred *)
Definition f_parts_controllers__ModelPredCHP__longterm_opt_pred : func := {|
 f_file := "parts/controllers.py"; f_name := "ModelPredCHP._longterm_opt_pred"; f_line := 1779;
 f_params := [];
 f_body := block [Frame (block [Frame Return; Frame Return; Choice (Loop false (block [Frame Return; Frame
 Return; Frame Return; Choice (Frame Return) Skip; Frame Return; Choice Return Skip]) (block [Frame
 Return; Frame Return])) Skip; Return]); Choice Skip (Frame (block [Frame (block [Choice Skip Raise;
 Return]); Frame (block [Choice Skip Raise; Return]); Return]))] |}.

(* multisim/parts/controllers.py, line 1929: ModelPredCHP._longterm_clip_array *)
Definition f_parts_controllers__ModelPredCHP__longterm_clip_array : func := {|
 f_file := "parts/controllers.py"; f_name := "ModelPredCHP._longterm_clip_array"; f_line := 1929;
 f_params := ["x"; "atol"; "copy"];
 f_body := block [Choice (Bind 1 [] true) Skip; Write 1; Write 1; Write 1; Choice Return Skip] |}.

(* multisim/parts/controllers.py, line 1939: ModelPredCHP._longterm_adj_by_soc *)
Definition f_parts_controllers__ModelPredCHP__longterm_adj_by_soc : func := {|
 f_file := "parts/controllers.py"; f_name := "ModelPredCHP._longterm_adj_by_soc"; f_line := 1939;
 f_params := ["x"; "atol"];
 f_body := block [Bind 3 [1] false; Bind 4 [1] false; Bind 5 [2] false; Bind 6 [] true; Frame (block [Bind 4 []
 true; Write 4; Write 4; Write 4; Bind 6 [4] false; Return]); Bind 7 [6] false; Bind 8 [7] false;
 Frame Return; Choice Return Skip; Loop false (block [Frame Return; Bind 9 [2] false; Frame Return])
 (Frame Return); Frame Return; Choice (block [Bind 10 [2] false; Frame Return]) Skip; Frame Return;
 Return] |}.

(* multisim/parts/controllers.py, line 1973: ModelPredCHP._longterm_clip_w_cont *)
Definition f_parts_controllers__ModelPredCHP__longterm_clip_w_cont : func := {|
 f_file := "parts/controllers.py"; f_name := "ModelPredCHP._longterm_clip_w_cont"; f_line := 1973;
 f_params := ["atol"];
 f_body := Skip |}.

(* multisim/parts/controllers.py, line 2017: ModelPredCHP._longterm_finalize_step *)
Definition f_parts_controllers__ModelPredCHP__longterm_finalize_step : func := {|
 f_file := "parts/controllers.py"; f_name := "ModelPredCHP._longterm_finalize_step"; f_line := 2017;
 f_params := [];
 f_body := Skip |}.

(* multisim/parts/controllers.py, line 2028: ModelPredCHP._restore_adptd_caps *)
Definition f_parts_controllers__ModelPredCHP__restore_adptd_caps : func := {|
 f_file := "parts/controllers.py"; f_name := "ModelPredCHP._restore_adptd_caps"; f_line := 2028;
 f_params := [];
 f_body := block [Choice Return Skip; Choice Return Skip] |}.

(* multisim/parts/controllers.py, line 2062: ModelPredCHP._shortterm_opt *)
Definition f_parts_controllers__ModelPredCHP__shortterm_opt : func := {|
 f_file := "parts/controllers.py"; f_name := "ModelPredCHP._shortterm_opt"; f_line := 2062;
 f_params := [];
 f_body := Skip |}.

(* multisim/parts/controllers.py, line 2102: ModelPredCHP.run_controller *)
Definition f_parts_controllers__ModelPredCHP_run_controller : func := {|
 f_file := "parts/controllers.py"; f_name := "ModelPredCHP.run_controller"; f_line := 2102;
 f_params := ["timestep"];
 f_body := Skip |}.

(* multisim/parts/controllers.py, line 2161: ModelPredCHP._preopt_x0 *)
Definition f_parts_controllers__ModelPredCHP__preopt_x0 : func := {|
 f_file := "parts/controllers.py"; f_name := "ModelPredCHP._preopt_x0"; f_line := 2161;
 f_params := ["x0"];
 f_body := block [Frame Return; Frame Return; Choice (Loop false (block [Frame Return; Frame Return; Frame
 Return; Choice (Frame Return) Skip; Frame Return; Choice Return Skip]) (block [Frame Return; Frame
 Return])) Skip; Return] |}.

(* multisim/parts/controllers.py, line 2202: ModelPredCHP._minimizer_input *)
Definition f_parts_controllers__ModelPredCHP__minimizer_input : func := {|
 f_file := "parts/controllers.py"; f_name := "ModelPredCHP._minimizer_input"; f_line := 2202;
 f_params := ["x"; "pel_baseload"; "pel_dmd_user_ms"; "pel_chp_max"; "eta_el"; "modrange_chp"; "freq_fac"; "flat_instandh"; "gaspreis"; "esteuerrueck_gas"; "netzneg"; "eex_baseload"; "strompreis_zukauf"; "aufschlag_verkauf"; "instandh_cost"; "penalty_wvk"; "penalty_pow_instandh"; "return_details"];
 f_body := block [Write 1; Write 1; Bind 19 [4] false; Frame (block [Choice Skip Raise; Return]); Bind 20 [4]
 false; Frame (block [Choice Skip Raise; Return]); Return] |}.

(* multisim/parts/controllers.py, line 2421: ModelPredCHP._minimizer_input_scalar *)
Definition f_parts_controllers__ModelPredCHP__minimizer_input_scalar : func := {|
 f_file := "parts/controllers.py"; f_name := "ModelPredCHP._minimizer_input_scalar"; f_line := 2421;
 f_params := ["x"; "pel_baseload"; "pel_dmd_user_ms"; "pel_chp_max"; "eta_el"; "modrange_chp"; "freq_fac"; "flat_instandh"; "gaspreis"; "esteuerrueck_gas"; "netzneg"; "eex_baseload"; "strompreis_zukauf"; "aufschlag_verkauf"; "instandh_cost"; "penalty_wvk"; "penalty_pow_instandh"; "return_details"];
 f_body := block [Bind 19 [2] true; Bind 20 [3] true; Bind 21 [4] false; Frame (block [Choice Skip Raise;
 Return]); Bind 22 [4] false; Frame (block [Choice Skip Raise; Return]); Return] |}.

(* multisim/parts/controllers.py, line 2635: ModelPredCHP._kwk_zuschlag *)
Definition f_parts_controllers__ModelPredCHP__kwk_zuschlag : func := {|
 f_file := "parts/controllers.py"; f_name := "ModelPredCHP._kwk_zuschlag"; f_line := 2635;
 f_params := ["pel_chp"; "as_sum"; "ersatz_alt"; "strompreis_negativ"];
 f_body := block [Choice Skip Raise; Return] |}.

(* multisim/parts/controllers.py, line 2703: ModelPredCHP._instandh_chp_nonflat *)
Definition f_parts_controllers__ModelPredCHP__instandh_chp_nonflat : func := {|
 f_file := "parts/controllers.py"; f_name := "ModelPredCHP._instandh_chp_nonflat"; f_line := 2703;
 f_params := ["pel_chp_max"; "verfahren"];
 f_body := block [Choice (Bind 2 [] true) Skip; Choice (Choice (Choice Skip (Choice Skip Raise)) Skip) (Choice
 (block [Choice Skip Raise; Raise]) Skip); Return] |}.

(* multisim/parts/controllers.py, line 2784: ModelPredCHP._eeg_umlage *)
Definition f_parts_controllers__ModelPredCHP__eeg_umlage : func := {|
 f_file := "parts/controllers.py"; f_name := "ModelPredCHP._eeg_umlage"; f_line := 2784;
 f_params := ["pel_chp"; "jahr"; "verbraucher"];
 f_body := block [Choice Skip Raise; Return] |}.

(* multisim/parts/controllers.py, line 2848: ModelPredCHP._load_eex_baseload *)
Definition f_parts_controllers__ModelPredCHP__load_eex_baseload : func := {|
 f_file := "parts/controllers.py"; f_name := "ModelPredCHP._load_eex_baseload"; f_line := 2848;
 f_params := ["quartal"; "reload_xls"];
 f_body := block [Choice Skip Raise; Choice Return (Choice Return Raise)] |}.

(* multisim/parts/controllers.py, line 2885: ModelPredCHP.infer_instandh *)
Definition f_parts_controllers__ModelPredCHP_infer_instandh : func := {|
 f_file := "parts/controllers.py"; f_name := "ModelPredCHP.infer_instandh"; f_line := 2885;
 f_params := ["chp_pel"; "inkl_mwst"; "large_customer_discount"];
 f_body := block [Frame Return; Return] |}.

(* multisim/parts/heated_pipe.py, line 46: HeatedPipe.__init__ *)
Definition f_parts_heated_pipe__HeatedPipe___init__ : func := {|
 f_file := "parts/heated_pipe.py"; f_name := "HeatedPipe.__init__"; f_line := 46;
 f_params := ["name"; "master_cls"; "kwargs"];
 f_body := block [Choice Skip Raise; Choice Skip (Choice (Choice Skip Raise) (block [Choice Skip Raise; Bind 4
 [3] false; Bind 5 [3] false; Choice Skip Raise])); Choice Skip Raise; Choice Skip Raise] |}.

(* multisim/parts/heated_pipe.py, line 190: HeatedPipe.init_part *)
Definition f_parts_heated_pipe__HeatedPipe_init_part : func := {|
 f_file := "parts/heated_pipe.py"; f_name := "HeatedPipe.init_part"; f_line := 190;
 f_params := ["kwargs"];
 f_body := Skip |}.

(* multisim/parts/heated_pipe.py, line 194: HeatedPipe._special_array_init *)
Definition f_parts_heated_pipe__HeatedPipe__special_array_init : func := {|
 f_file := "parts/heated_pipe.py"; f_name := "HeatedPipe._special_array_init"; f_line := 194;
 f_params := ["num_steps"];
 f_body := Skip |}.

(* multisim/parts/heated_pipe.py, line 197: HeatedPipe.__depcreated_special_free_memory *)
Definition f_parts_heated_pipe__HeatedPipe___depcreated_special_free_memory : func := {|
 f_file := "parts/heated_pipe.py"; f_name := "HeatedPipe.__depcreated_special_free_memory"; f_line := 197;
 f_params := ["disk_store"; "part"; "array_length"; "hdf_idx"; "stepnum"];
 f_body := Write 1 |}.

(* multisim/parts/heated_pipe.py, line 208: HeatedPipe._special_free_memory *)
Definition f_parts_heated_pipe__HeatedPipe__special_free_memory : func := {|
 f_file := "parts/heated_pipe.py"; f_name := "HeatedPipe._special_free_memory"; f_line := 208;
 f_params := ["disk_store"; "part"; "array_length"; "hdf_idx"; "stepnum"];
 f_body := Write 1 |}.

(* multisim/parts/heated_pipe.py, line 219: HeatedPipe._check_results *)
Definition f_parts_heated_pipe__HeatedPipe__check_results : func := {|
 f_file := "parts/heated_pipe.py"; f_name := "HeatedPipe._check_results"; f_line := 219;
 f_params := [];
 f_body := Choice Skip Raise |}.

(* multisim/parts/heated_pipe.py, line 225: HeatedPipe._final_datastore_backcalc *)
Definition f_parts_heated_pipe__HeatedPipe__final_datastore_backcalc : func := {|
 f_file := "parts/heated_pipe.py"; f_name := "HeatedPipe._final_datastore_backcalc"; f_line := 225;
 f_params := ["disk_store"; "part"];
 f_body := Skip |}.

(* multisim/parts/heated_pipe.py, line 232: HeatedPipe._special_crop_results *)
Definition f_parts_heated_pipe__HeatedPipe__special_crop_results : func := {|
 f_file := "parts/heated_pipe.py"; f_name := "HeatedPipe._special_crop_results"; f_line := 232;
 f_params := ["stepnum"];
 f_body := Skip |}.

(* multisim/parts/heated_pipe.py, line 235: HeatedPipe._special_return_store *)
Definition f_parts_heated_pipe__HeatedPipe__special_return_store : func := {|
 f_file := "parts/heated_pipe.py"; f_name := "HeatedPipe._special_return_store"; f_line := 235;
 f_params := ["disk_store"; "dfs"; "part"];
 f_body := Write 2 |}.

(* multisim/parts/heated_pipe.py, line 240: HeatedPipe.get_diff *)
Definition f_parts_heated_pipe__HeatedPipe_get_diff : func := {|
 f_file := "parts/heated_pipe.py"; f_name := "HeatedPipe.get_diff"; f_line := 240;
 f_params := ["timestep"];
 f_body := block [Bind 2 [1] false; Frame (block [Frame Return; Frame Return; Bind 3 [2] false; Frame (block
 [Choice (Choice Skip Raise) Skip; Return]); Return]); Return] |}.

(* multisim/parts/heatexchanger.py, line 57: HeatExchanger.__init__ *)
Definition f_parts_heatexchanger__HeatExchanger___init__ : func := {|
 f_file := "parts/heatexchanger.py"; f_name := "HeatExchanger.__init__"; f_line := 57;
 f_params := ["name"; "master_cls"; "kwargs"];
 f_body := block [Choice Skip Raise; Choice (block [Choice Skip Raise; Choice Skip Raise; Choice (block [Choice
 Skip Raise; Choice Skip Raise; Choice Skip Raise]) (Choice Skip Raise)]) Skip] |}.

(* multisim/parts/heatexchanger.py, line 348: HeatExchanger.init_part *)
Definition f_parts_heatexchanger__HeatExchanger_init_part : func := {|
 f_file := "parts/heatexchanger.py"; f_name := "HeatExchanger.init_part"; f_line := 348;
 f_params := ["Reynolds_correction"; "kwargs"];
 f_body := block [Choice Skip Raise; Choice Skip Raise; Choice Skip Raise; Choice Skip Raise; Bind 3 [2] true;
 Bind 4 [2] true; Bind 5 [2] true; Bind 6 [2] true; Bind 7 [2] true; Frame (block [Choice Skip Raise;
 Choice (block [Choice (Choice Skip Raise) Skip; Choice Skip Raise]) Skip; Choice (block [Choice
 (block [Choice Skip Raise; Bind 4 [7] false]) Skip; Choice Skip Raise; Loop false (block [Bind 8 [4]
 false; Choice Skip Raise]) Skip; Loop false (block [Bind 8 [4] false; Bind 9 [4] false; Bind 10 [9]
 false; Choice (Bind 11 [9] false) (Bind 11 [] true); Choice Skip Raise; Choice (Choice Skip Raise)
 Skip; Choice Skip (block [Bind 12 [8] false; Frame (block [Choice Skip Raise; Choice Skip Raise;
 Choice (Try Eval Skip Skip) Skip; Choice Skip (Choice Skip Raise); Choice Raise (Choice Raise Skip);
 Choice Skip Raise; Choice Skip (Choice (Choice (Choice Skip (Choice (Choice Skip Raise) Skip)) Skip)
 Skip); Return])])]) Skip; Choice (Choice Skip Raise) Skip]) Skip]); Choice Skip Raise; Bind 13 [2]
 true; Frame (block [Choice Skip Raise; Choice Skip Raise; Choice Skip Raise; Choice (Choice Skip
 Raise) Skip; Choice Skip Raise; Choice (Frame Return) Skip; Choice Skip Raise; Choice (block [Choice
 Skip Raise; Choice Skip Raise; Choice (Choice Skip Raise) Skip]) (Choice (block [Choice Skip Raise;
 Choice Skip Raise; Choice (Frame Return) (Choice Skip Raise); Frame Return; Choice (Frame Return)
 Skip]) (Choice (block [Choice Skip Raise; Frame (block [Frame Return; Return]); Choice Skip Raise])
 (Choice Skip Raise))); Choice Skip Raise; Frame Return; Frame Return]); Choice Skip Raise; Choice
 Skip Raise; Choice Skip (Choice Skip Raise); Choice Skip Raise; Bind 14 [2] true; Frame (Choice Skip
 Raise)] |}.

(* multisim/parts/heatexchanger.py, line 501: HeatExchanger._reset_to_init_cond *)
Definition f_parts_heatexchanger__HeatExchanger__reset_to_init_cond : func := {|
 f_file := "parts/heatexchanger.py"; f_name := "HeatExchanger._reset_to_init_cond"; f_line := 501;
 f_params := [];
 f_body := Skip |}.

(* multisim/parts/heatexchanger.py, line 504: HeatExchanger.get_plate_hex_geometry *)
Definition f_parts_heatexchanger__HeatExchanger_get_plate_hex_geometry : func := {|
 f_file := "parts/heatexchanger.py"; f_name := "HeatExchanger.get_plate_hex_geometry"; f_line := 504;
 f_params := ["kwargs"];
 f_body := block [Choice Skip Raise; Choice Skip Raise; Choice Skip Raise; Choice (Choice Skip Raise) Skip;
 Choice Skip Raise; Choice (Frame Return) Skip; Choice Skip Raise; Choice (block [Choice Skip Raise;
 Choice Skip Raise; Choice (Choice Skip Raise) Skip]) (Choice (block [Choice Skip Raise; Choice Skip
 Raise; Choice (Frame Return) (Choice Skip Raise); Frame Return; Choice (Frame Return) Skip]) (Choice
 (block [Choice Skip Raise; Frame (block [Frame Return; Return]); Choice Skip Raise]) (Choice Skip
 Raise))); Choice Skip Raise; Frame Return; Frame Return] |}.

(* multisim/parts/heatexchanger.py, line 943: HeatExchanger.find_Reynolds_correction *)
Definition f_parts_heatexchanger__HeatExchanger_find_Reynolds_correction : func := {|
 f_file := "parts/heatexchanger.py"; f_name := "HeatExchanger.find_Reynolds_correction"; f_line := 943;
 f_params := ["T_in"; "T_out"; "P"; "alpha_target"; "side"];
 f_body := block [Choice Skip Raise; Choice (block [Choice Skip Raise; Choice Skip Raise; Bind 6 [3] false])
 (Bind 6 [] true)] |}.

(* multisim/parts/heatexchanger.py, line 1023: HeatExchanger._get_flow_routine *)
Definition f_parts_heatexchanger__HeatExchanger__get_flow_routine : func := {|
 f_file := "parts/heatexchanger.py"; f_name := "HeatExchanger._get_flow_routine"; f_line := 1023;
 f_params := ["port"; "parent_port"; "subnet"; "kwargs"];
 f_body := block [Bind 5 [1] false; Bind 6 [2] false; Frame (block [Choice (block [Bind 7 [5] false; Frame
 (block [Choice Skip Raise; Choice Skip Raise; Choice (Try Eval Skip Skip) Skip; Choice Skip (Choice
 Skip Raise); Choice Raise (Choice Raise Skip); Choice Skip Raise; Choice Skip (Choice (Choice
 (Choice Skip (Choice (Choice Skip Raise) Skip)) Skip) Skip); Return])]) (Choice (block [Bind 8 [5]
 false; Frame (block [Choice Skip Raise; Choice Skip Raise; Choice (Try Eval Skip Skip) Skip; Choice
 Skip (Choice Skip Raise); Choice Raise (Choice Raise Skip); Choice Skip Raise; Choice Skip (Choice
 (Choice (Choice Skip (Choice (Choice Skip Raise) Skip)) Skip) Skip); Return])]) Skip); Choice (block
 [Choice (Frame (block [Choice Skip Raise; Choice Skip Raise; Choice (Try Eval Skip Skip) Skip;
 Choice Skip (Choice Skip Raise); Choice Raise (Choice Raise Skip); Choice Skip Raise; Choice Skip
 (Choice (Choice (Choice Skip (Choice (Choice Skip Raise) Skip)) Skip) Skip); Return])) (Choice
 (Frame (block [Choice Skip Raise; Choice Skip Raise; Choice (Try Eval Skip Skip) Skip; Choice Skip
 (Choice Skip Raise); Choice Raise (Choice Raise Skip); Choice Skip Raise; Choice Skip (Choice
 (Choice (Choice Skip (Choice (Choice Skip Raise) Skip)) Skip) Skip); Return])) Skip); Return])
 Return]); Loop false (Choice (Frame (block [Choice Skip Raise; Choice Skip Raise; Choice (Try Eval
 Skip Skip) Skip; Choice Skip (Choice Skip Raise); Choice Raise (Choice Raise Skip); Choice Skip
 Raise; Choice Skip (Choice (Choice (Choice Skip (Choice (Choice Skip Raise) Skip)) Skip) Skip);
 Return])) Skip) Skip; Return] |}.

(* multisim/parts/heatexchanger.py, line 1141: HeatExchanger.solve *)
Definition f_parts_heatexchanger__HeatExchanger_solve : func := {|
 f_file := "parts/heatexchanger.py"; f_name := "HeatExchanger.solve"; f_line := 1141;
 f_params := ["timestep"];
 f_body := Skip |}.

(* multisim/parts/heatexchanger.py, line 1174: HeatExchanger.draw_part *)
Definition f_parts_heatexchanger__HeatExchanger_draw_part : func := {|
 f_file := "parts/heatexchanger.py"; f_name := "HeatExchanger.draw_part"; f_line := 1174;
 f_params := ["axis"; "timestep"; "draw"; "animate"];
 f_body := Return |}.

(* multisim/parts/hex_condensing_polynome.py, line 48: HEXCondPoly.__init__ *)
Definition f_parts_hex_condensing_polynome__HEXCondPoly___init__ : func := {|
 f_file := "parts/hex_condensing_polynome.py"; f_name := "HEXCondPoly.__init__"; f_line := 48;
 f_params := ["name"; "master_cls"; "kwargs"];
 f_body := block [Choice Skip Raise; Choice Skip Raise; Choice (Choice Skip Raise) Skip; Choice Skip Raise;
 Choice Skip Raise] |}.

(* multisim/parts/hex_condensing_polynome.py, line 342: HEXCondPoly.init_part *)
Definition f_parts_hex_condensing_polynome__HEXCondPoly_init_part : func := {|
 f_file := "parts/hex_condensing_polynome.py"; f_name := "HEXCondPoly.init_part"; f_line := 342;
 f_params := ["kwargs"];
 f_body := block [Choice Skip Raise; Choice Skip Raise; Bind 2 [1] true; Bind 3 [1] true; Bind 4 [1] true; Bind
 5 [1] true; Bind 6 [1] true; Frame (block [Choice Skip Raise; Choice (block [Choice (Choice Skip
 Raise) Skip; Choice Skip Raise]) Skip; Choice (block [Choice (block [Choice Skip Raise; Bind 3 [6]
 false]) Skip; Choice Skip Raise; Loop false (block [Bind 7 [3] false; Choice Skip Raise]) Skip; Loop
 false (block [Bind 7 [3] false; Bind 8 [3] false; Bind 9 [8] false; Choice (Bind 10 [8] false) (Bind
 10 [] true); Choice Skip Raise; Choice (Choice Skip Raise) Skip; Choice Skip (block [Bind 11 [7]
 false; Frame (block [Choice Skip Raise; Choice Skip Raise; Choice (Try Eval Skip Skip) Skip; Choice
 Skip (Choice Skip Raise); Choice Raise (Choice Raise Skip); Choice Skip Raise; Choice Skip (Choice
 (Choice (Choice Skip (Choice (Choice Skip Raise) Skip)) Skip) Skip); Return])])]) Skip; Choice
 (Choice Skip Raise) Skip]) Skip]); Choice Skip Raise; Choice Skip Raise; Choice Skip Raise; Choice
 Skip (Choice Skip Raise); Bind 12 [1] true; Frame (Choice Skip Raise)] |}.

(* multisim/parts/hex_condensing_polynome.py, line 441: HEXCondPoly._reset_to_init_cond *)
Definition f_parts_hex_condensing_polynome__HEXCondPoly__reset_to_init_cond : func := {|
 f_file := "parts/hex_condensing_polynome.py"; f_name := "HEXCondPoly._reset_to_init_cond"; f_line := 441;
 f_params := [];
 f_body := Skip |}.

(* multisim/parts/hex_condensing_polynome.py, line 444: HEXCondPoly._get_flow_routine *)
Definition f_parts_hex_condensing_polynome__HEXCondPoly__get_flow_routine : func := {|
 f_file := "parts/hex_condensing_polynome.py"; f_name := "HEXCondPoly._get_flow_routine"; f_line := 444;
 f_params := ["port"; "parent_port"; "subnet"; "kwargs"];
 f_body := block [Bind 5 [1] false; Bind 6 [2] false; Frame (block [Choice (block [Bind 7 [5] false; Frame
 (block [Choice Skip Raise; Choice Skip Raise; Choice (Try Eval Skip Skip) Skip; Choice Skip (Choice
 Skip Raise); Choice Raise (Choice Raise Skip); Choice Skip Raise; Choice Skip (Choice (Choice
 (Choice Skip (Choice (Choice Skip Raise) Skip)) Skip) Skip); Return])]) (Choice (block [Bind 8 [5]
 false; Frame (block [Choice Skip Raise; Choice Skip Raise; Choice (Try Eval Skip Skip) Skip; Choice
 Skip (Choice Skip Raise); Choice Raise (Choice Raise Skip); Choice Skip Raise; Choice Skip (Choice
 (Choice (Choice Skip (Choice (Choice Skip Raise) Skip)) Skip) Skip); Return])]) Skip); Choice (block
 [Choice (Frame (block [Choice Skip Raise; Choice Skip Raise; Choice (Try Eval Skip Skip) Skip;
 Choice Skip (Choice Skip Raise); Choice Raise (Choice Raise Skip); Choice Skip Raise; Choice Skip
 (Choice (Choice (Choice Skip (Choice (Choice Skip Raise) Skip)) Skip) Skip); Return])) (Choice
 (Frame (block [Choice Skip Raise; Choice Skip Raise; Choice (Try Eval Skip Skip) Skip; Choice Skip
 (Choice Skip Raise); Choice Raise (Choice Raise Skip); Choice Skip Raise; Choice Skip (Choice
 (Choice (Choice Skip (Choice (Choice Skip Raise) Skip)) Skip) Skip); Return])) Skip); Return])
 Return]); Loop false (Choice (Frame (block [Choice Skip Raise; Choice Skip Raise; Choice (Try Eval
 Skip Skip) Skip; Choice Skip (Choice Skip Raise); Choice Raise (Choice Raise Skip); Choice Skip
 Raise; Choice Skip (Choice (Choice (Choice Skip (Choice (Choice Skip Raise) Skip)) Skip) Skip);
 Return])) Skip) Skip; Return] |}.

(* multisim/parts/hex_condensing_polynome.py, line 564: HEXCondPoly._check_results *)
Definition f_parts_hex_condensing_polynome__HEXCondPoly__check_results : func := {|
 f_file := "parts/hex_condensing_polynome.py"; f_name := "HEXCondPoly._check_results"; f_line := 564;
 f_params := [];
 f_body := block [Choice Skip Raise; Choice Skip Raise; Choice Skip Raise] |}.

(* multisim/parts/hex_condensing_polynome.py, line 580: HEXCondPoly.solve *)
Definition f_parts_hex_condensing_polynome__HEXCondPoly_solve : func := {|
 f_file := "parts/hex_condensing_polynome.py"; f_name := "HEXCondPoly.solve"; f_line := 580;
 f_params := ["timestep"];
 f_body := Skip |}.

(* multisim/parts/hex_condensing_polynome.py, line 605: HEXCondPoly.draw_part *)
Definition f_parts_hex_condensing_polynome__HEXCondPoly_draw_part : func := {|
 f_file := "parts/hex_condensing_polynome.py"; f_name := "HEXCondPoly.draw_part"; f_line := 605;
 f_params := ["axis"; "timestep"; "draw"; "animate"];
 f_body := Return |}.

(* multisim/parts/hex_num.py, line 45: HexNum.__init__ *)
Definition f_parts_hex_num__HexNum___init__ : func := {|
 f_file := "parts/hex_num.py"; f_name := "HexNum.__init__"; f_line := 45;
 f_params := ["name"; "master_cls"; "kwargs"];
 f_body := block [Choice Skip Raise; Choice Skip Raise; Choice (block [Choice Skip Raise; Choice Skip Raise;
 Choice (block [Choice Skip Raise; Choice Skip Raise; Choice Skip Raise]) (Choice Skip Raise)]) Skip;
 Choice Skip Raise; Choice Skip Raise; Choice (Choice (Choice Skip Raise) Skip) Skip] |}.

(* multisim/parts/hex_num.py, line 440: HexNum.init_part *)
Definition f_parts_hex_num__HexNum_init_part : func := {|
 f_file := "parts/hex_num.py"; f_name := "HexNum.init_part"; f_line := 440;
 f_params := ["reynolds_correction"; "kwargs"];
 f_body := block [Choice Skip Raise; Choice Skip Raise; Choice Skip Raise; Choice Skip Raise; Bind 3 [2] true;
 Bind 4 [2] true; Bind 5 [2] true; Bind 6 [2] true; Bind 7 [2] true; Frame (block [Choice Skip Raise;
 Choice (block [Choice (Choice Skip Raise) Skip; Choice Skip Raise]) Skip; Choice (block [Choice
 (block [Choice Skip Raise; Bind 4 [7] false]) Skip; Choice Skip Raise; Loop false (block [Bind 8 [4]
 false; Choice Skip Raise]) Skip; Loop false (block [Bind 8 [4] false; Bind 9 [4] false; Bind 10 [9]
 false; Choice (Bind 11 [9] false) (Bind 11 [] true); Choice Skip Raise; Choice (Choice Skip Raise)
 Skip; Choice Skip (block [Bind 12 [8] false; Frame (block [Choice Skip Raise; Choice Skip Raise;
 Choice (Try Eval Skip Skip) Skip; Choice Skip (Choice Skip Raise); Choice Raise (Choice Raise Skip);
 Choice Skip Raise; Choice Skip (Choice (Choice (Choice Skip (Choice (Choice Skip Raise) Skip)) Skip)
 Skip); Return])])]) Skip; Choice (Choice Skip Raise) Skip]) Skip]); Choice Skip Raise; Bind 13 [2]
 true; Frame (block [Choice Skip Raise; Choice Skip Raise; Choice Skip Raise; Choice (Choice Skip
 Raise) Skip; Choice Skip Raise; Choice (Frame Return) Skip; Choice Skip Raise; Choice (block [Choice
 Skip Raise; Choice Skip Raise; Choice (Choice Skip Raise) Skip]) (Choice (block [Choice Skip Raise;
 Choice Skip Raise; Choice (Frame Return) (Choice Skip Raise); Frame Return; Choice (Frame Return)
 Skip]) (Choice (block [Choice Skip Raise; Frame (block [Frame Return; Return]); Choice Skip Raise])
 (Choice Skip Raise))); Choice (Choice Skip Raise) (block [Choice Skip Raise; Choice Skip Raise]);
 Frame Return; Frame Return]); Choice Skip Raise; Choice Skip Raise; Choice Skip (Choice Skip Raise);
 Choice Skip Raise; Bind 14 [2] true; Frame (Choice Skip Raise)] |}.

(* multisim/parts/hex_num.py, line 646: HexNum._reset_to_init_cond *)
Definition f_parts_hex_num__HexNum__reset_to_init_cond : func := {|
 f_file := "parts/hex_num.py"; f_name := "HexNum._reset_to_init_cond"; f_line := 646;
 f_params := [];
 f_body := Skip |}.

(* multisim/parts/hex_num.py, line 649: HexNum.get_plate_hex_geometry *)
Definition f_parts_hex_num__HexNum_get_plate_hex_geometry : func := {|
 f_file := "parts/hex_num.py"; f_name := "HexNum.get_plate_hex_geometry"; f_line := 649;
 f_params := ["kwargs"];
 f_body := block [Choice Skip Raise; Choice Skip Raise; Choice Skip Raise; Choice (Choice Skip Raise) Skip;
 Choice Skip Raise; Choice (Frame Return) Skip; Choice Skip Raise; Choice (block [Choice Skip Raise;
 Choice Skip Raise; Choice (Choice Skip Raise) Skip]) (Choice (block [Choice Skip Raise; Choice Skip
 Raise; Choice (Frame Return) (Choice Skip Raise); Frame Return; Choice (Frame Return) Skip]) (Choice
 (block [Choice Skip Raise; Frame (block [Frame Return; Return]); Choice Skip Raise]) (Choice Skip
 Raise))); Choice (Choice Skip Raise) (block [Choice Skip Raise; Choice Skip Raise]); Frame Return;
 Frame Return] |}.

(* multisim/parts/hex_num.py, line 1106: HexNum.find_reynolds_correction *)
Definition f_parts_hex_num__HexNum_find_reynolds_correction : func := {|
 f_file := "parts/hex_num.py"; f_name := "HexNum.find_reynolds_correction"; f_line := 1106;
 f_params := ["T_in"; "T_out"; "P"; "alpha_target"; "side"];
 f_body := block [Choice Skip Raise; Choice (block [Choice Skip Raise; Choice Skip Raise; Bind 6 [3] false])
 (Bind 6 [] true)] |}.

(* multisim/parts/hex_num.py, line 1191: HexNum._get_flow_routine *)
Definition f_parts_hex_num__HexNum__get_flow_routine : func := {|
 f_file := "parts/hex_num.py"; f_name := "HexNum._get_flow_routine"; f_line := 1191;
 f_params := ["port"; "parent_port"; "subnet"; "kwargs"];
 f_body := block [Bind 5 [1] false; Bind 6 [2] false; Frame (block [Choice (block [Bind 7 [5] false; Frame
 (block [Choice Skip Raise; Choice Skip Raise; Choice (Try Eval Skip Skip) Skip; Choice Skip (Choice
 Skip Raise); Choice Raise (Choice Raise Skip); Choice Skip Raise; Choice Skip (Choice (Choice
 (Choice Skip (Choice (Choice Skip Raise) Skip)) Skip) Skip); Return])]) (Choice (block [Bind 8 [5]
 false; Frame (block [Choice Skip Raise; Choice Skip Raise; Choice (Try Eval Skip Skip) Skip; Choice
 Skip (Choice Skip Raise); Choice Raise (Choice Raise Skip); Choice Skip Raise; Choice Skip (Choice
 (Choice (Choice Skip (Choice (Choice Skip Raise) Skip)) Skip) Skip); Return])]) Skip); Choice (block
 [Choice (Frame (block [Choice Skip Raise; Choice Skip Raise; Choice (Try Eval Skip Skip) Skip;
 Choice Skip (Choice Skip Raise); Choice Raise (Choice Raise Skip); Choice Skip Raise; Choice Skip
 (Choice (Choice (Choice Skip (Choice (Choice Skip Raise) Skip)) Skip) Skip); Return])) (Choice
 (Frame (block [Choice Skip Raise; Choice Skip Raise; Choice (Try Eval Skip Skip) Skip; Choice Skip
 (Choice Skip Raise); Choice Raise (Choice Raise Skip); Choice Skip Raise; Choice Skip (Choice
 (Choice (Choice Skip (Choice (Choice Skip Raise) Skip)) Skip) Skip); Return])) Skip); Return])
 Return]); Return] |}.

(* multisim/parts/hex_num.py, line 1311: HexNum.get_diff *)
Definition f_parts_hex_num__HexNum_get_diff : func := {|
 f_file := "parts/hex_num.py"; f_name := "HexNum.get_diff"; f_line := 1311;
 f_params := ["timestep"];
 f_body := block [Bind 2 [1] false; Frame (block [Bind 3 [2] false; Bind 4 [2] false; Frame Return; Bind 5 [2]
 false; Bind 6 [3] false; Bind 7 [3] false; Bind 8 [4] false; Bind 9 [4] false; Frame Return; Bind 10
 [2] false; Bind 11 [2] false; Bind 12 [2] false; Frame Return; Frame (block [Choice (Choice Skip
 Raise) Skip; Return]); Return]); Return] |}.

(* multisim/parts/hex_num.py, line 1320: HexNum.get_diff_impl_ext *)
Definition f_parts_hex_num__HexNum_get_diff_impl_ext : func := {|
 f_file := "parts/hex_num.py"; f_name := "HexNum.get_diff_impl_ext"; f_line := 1320;
 f_params := ["T_ext"; "timestep"];
 f_body := block [Bind 3 [1] false; Bind 4 [1] false; Bind 5 [1] false; Bind 6 [1] false; Frame Return; Return] |}.

(* multisim/parts/hex_num.py, line 1473: HexNum.get_diff_impl *)
Definition f_parts_hex_num__HexNum_get_diff_impl : func := {|
 f_file := "parts/hex_num.py"; f_name := "HexNum.get_diff_impl"; f_line := 1473;
 f_params := ["T"; "timestep"];
 f_body := Return |}.

(* multisim/parts/hex_num.py, line 1641: HexNum.draw_part *)
Definition f_parts_hex_num__HexNum_draw_part : func := {|
 f_file := "parts/hex_num.py"; f_name := "HexNum.draw_part"; f_line := 1641;
 f_params := ["axis"; "timestep"; "draw"; "animate"];
 f_body := Skip |}.

(* multisim/parts/mixingvalve.py, line 47: MixingValve.__init__ *)
Definition f_parts_mixingvalve__MixingValve___init__ : func := {|
 f_file := "parts/mixingvalve.py"; f_name := "MixingValve.__init__"; f_line := 47;
 f_params := ["name"; "master_cls"; "mix_or_split"; "kwargs"];
 f_body := Choice Skip (Choice Skip Raise) |}.

(* multisim/parts/mixingvalve.py, line 244: MixingValve.init_part *)
Definition f_parts_mixingvalve__MixingValve_init_part : func := {|
 f_file := "parts/mixingvalve.py"; f_name := "MixingValve.init_part"; f_line := 244;
 f_params := ["port_A_init"; "kwargs"];
 f_body := block [Bind 3 [2] true; Bind 4 [2] true; Bind 5 [2] true; Bind 6 [2] true; Bind 7 [2] true; Frame
 (block [Choice Skip Raise; Choice (block [Choice (Choice Skip Raise) Skip; Choice Skip Raise]) Skip;
 Choice (block [Choice (block [Choice Skip Raise; Bind 4 [7] false]) Skip; Choice Skip Raise; Loop
 false (block [Bind 8 [4] false; Choice Skip Raise]) Skip; Loop false (block [Bind 8 [4] false; Bind
 9 [4] false; Bind 10 [9] false; Choice (Bind 11 [9] false) (Bind 11 [] true); Choice Skip Raise;
 Choice (Choice Skip Raise) Skip; Choice Skip (block [Bind 12 [8] false; Frame (block [Choice Skip
 Raise; Choice Skip Raise; Choice (Try Eval Skip Skip) Skip; Choice Skip (Choice Skip Raise); Choice
 Raise (Choice Raise Skip); Choice Skip Raise; Choice Skip (Choice (Choice (Choice Skip (Choice
 (Choice Skip Raise) Skip)) Skip) Skip); Return])])]) Skip; Choice (Choice Skip Raise) Skip]) Skip]);
 Choice Skip Raise; Choice (block [Choice Skip Raise; Choice Skip Raise]) (Choice (Choice (block
 [Choice Skip Raise; Raise]) (Choice (block [Choice Skip Raise; Raise]) (Choice Skip Raise))) Skip)] |}.

(* multisim/parts/mixingvalve.py, line 404: MixingValve._reset_to_init_cond *)
Definition f_parts_mixingvalve__MixingValve__reset_to_init_cond : func := {|
 f_file := "parts/mixingvalve.py"; f_name := "MixingValve._reset_to_init_cond"; f_line := 404;
 f_params := [];
 f_body := Skip |}.

(* multisim/parts/mixingvalve.py, line 416: MixingValve._get_flow_routine *)
Definition f_parts_mixingvalve__MixingValve__get_flow_routine : func := {|
 f_file := "parts/mixingvalve.py"; f_name := "MixingValve._get_flow_routine"; f_line := 416;
 f_params := ["port"; "parent_port"; "subnet"; "kwargs"];
 f_body := block [Bind 5 [1] false; Bind 6 [2] false; Frame (block [Choice (block [Bind 7 [5] false; Frame
 (block [Choice Skip Raise; Choice Skip Raise; Choice (Try Eval Skip Skip) Skip; Choice Skip (Choice
 Skip Raise); Choice Raise (Choice Raise Skip); Choice Skip Raise; Choice Skip (Choice (Choice
 (Choice Skip (Choice (Choice Skip Raise) Skip)) Skip) Skip); Return])]) (Choice (block [Bind 8 [5]
 false; Frame (block [Choice Skip Raise; Choice Skip Raise; Choice (Try Eval Skip Skip) Skip; Choice
 Skip (Choice Skip Raise); Choice Raise (Choice Raise Skip); Choice Skip Raise; Choice Skip (Choice
 (Choice (Choice Skip (Choice (Choice Skip Raise) Skip)) Skip) Skip); Return])]) Skip); Choice (block
 [Choice (Frame (block [Choice Skip Raise; Choice Skip Raise; Choice (Try Eval Skip Skip) Skip;
 Choice Skip (Choice Skip Raise); Choice Raise (Choice Raise Skip); Choice Skip Raise; Choice Skip
 (Choice (Choice (Choice Skip (Choice (Choice Skip Raise) Skip)) Skip) Skip); Return])) (Choice
 (Frame (block [Choice Skip Raise; Choice Skip Raise; Choice (Try Eval Skip Skip) Skip; Choice Skip
 (Choice Skip Raise); Choice Raise (Choice Raise Skip); Choice Skip Raise; Choice Skip (Choice
 (Choice (Choice Skip (Choice (Choice Skip Raise) Skip)) Skip) Skip); Return])) Skip); Return])
 Return]); Choice (block [Choice Skip Raise; Choice Skip Raise; Choice Skip Raise]) Skip; Return] |}.

(* multisim/parts/mixingvalve.py, line 615: MixingValve._process_cv *)
Definition f_parts_mixingvalve__MixingValve__process_cv : func := {|
 f_file := "parts/mixingvalve.py"; f_name := "MixingValve._process_cv"; f_line := 615;
 f_params := ["ctrl_inst"];
 f_body := Skip |}.

(* multisim/parts/mixingvalve.py, line 628: MixingValve.solve *)
Definition f_parts_mixingvalve__MixingValve_solve : func := {|
 f_file := "parts/mixingvalve.py"; f_name := "MixingValve.solve"; f_line := 628;
 f_params := ["timestep"];
 f_body := Skip |}.

(* multisim/parts/mixingvalve.py, line 675: MixingValve.draw_part *)
Definition f_parts_mixingvalve__MixingValve_draw_part : func := {|
 f_file := "parts/mixingvalve.py"; f_name := "MixingValve.draw_part"; f_line := 675;
 f_params := ["axis"; "timestep"; "draw"];
 f_body := Choice (block [Choice Skip Raise; Choice Skip Raise]) Skip |}.

(* multisim/parts/part_modules/chp_with_fluegas_hex.py, line 13: add_chp_with_fghex *)
Definition f_parts_part_modules_chp_with_fluegas_hex__add_chp_with_fghex : func := {|
 f_file := "parts/part_modules/chp_with_fluegas_hex.py"; f_name := "add_chp_with_fghex"; f_line := 13;
 f_params := ["simenv"; "databases"; "number_rf_ports"; "chp_ff_connection"; "chp_ntrf_connection"; "chp_htrfA_connection"; "chp_htrfB_connection"; "segment_name"; "chp_kwds"; "chp_ff_pump_ulim"; "chp_ctrl"; "fluegashex_theta_out_water"; "ht_rf_theta_mix"; "adjust_pipes"; "Tamb"; "ctrl_chp_pump_by_ts"; "ctrl_hex_by_ts"; "ctrl_htrf_by_ts"; "fluegas_hex_kwds"; "kwds"];
 f_body := block [Choice Skip Raise; Write 9; Choice (Frame (block [Choice Skip Raise; Loop false (block
 [Choice Skip Raise; Choice Skip Raise; Choice Skip Raise; Choice Skip Raise]) Skip; Frame (block
 [Choice Skip (Choice Raise Skip); Loop false (Choice Continue Skip) Skip; Choice Skip Raise;
 Return]); Return])) Skip; Choice Skip (Choice Skip (Choice Skip Raise))] |}.

(* multisim/parts/part_modules/consumers.py, line 15: lowex_phwrc *)
Definition f_parts_part_modules_consumers__lowex_phwrc : func := {|
 f_file := "parts/part_modules/consumers.py"; f_name := "lowex_phwrc"; f_line := 15;
 f_params := ["simenv"; "lhs"; "phw_dmd"; "rc_flow"; "segment_name"; "adjust_pipes"; "ff_connector"; "rf_connector"; "rc_connector"; "Tamb"; "databases"; "calculations_df"];
 f_body := block [Choice Skip Raise; Choice (Frame (block [Choice Skip Raise; Loop false (block [Choice Skip
 Raise; Choice Skip Raise; Choice Skip Raise; Choice Skip Raise]) Skip; Frame (block [Choice Skip
 (Choice Raise Skip); Loop false (Choice Continue Skip) Skip; Choice Skip Raise; Return]); Return]))
 Skip; Bind 11 [] true; Choice (block [Write 12; Write 12; Write 12; Write 12; Write 12; Write 12;
 Write 12; Write 12; Write 12; Write 12; Return]) Skip] |}.

(* multisim/parts/part_modules/consumers.py, line 605: speicherladesys *)
Definition f_parts_part_modules_consumers__speicherladesys : func := {|
 f_file := "parts/part_modules/consumers.py"; f_name := "speicherladesys"; f_line := 605;
 f_params := ["simenv"; "lhs"; "phw_dmd"; "rc_flow"; "theta_ff_phwstore"; "store_gp"; "store_dia"; "store_shell"; "store_init"; "store_ports"; "segment_name"; "adjust_pipes"; "ff_connector"; "rf_connector"; "Tamb"; "databases"; "calculations_df"];
 f_body := block [Choice Skip Raise; Bind 18 [5] false; Choice (Frame (block [Choice Skip Raise; Loop false
 (block [Choice Skip Raise; Choice Skip Raise; Choice Skip Raise; Choice Skip Raise]) Skip; Frame
 (block [Choice Skip (Choice Raise Skip); Loop false (Choice Continue Skip) Skip; Choice Skip Raise;
 Return]); Return])) Skip; Bind 16 [] true; Choice (block [Write 17; Write 17; Write 17; Write 17;
 Write 17; Write 17; Write 17; Write 17; Write 17; Write 17; Write 17; Write 17; Write 17; Write 17;
 Write 17; Return]) Skip] |}.

(* multisim/parts/part_modules/consumers.py, line 1193: space_heating *)
Definition f_parts_part_modules_consumers__space_heating : func := {|
 f_file := "parts/part_modules/consumers.py"; f_name := "space_heating"; f_line := 1193;
 f_params := ["simenv"; "lhs"; "space_heating"; "aux_gasboiler_pth"; "aux_gasboiler_theta_ff"; "configuration"; "segment_name"; "adjust_pipes"; "tes_ff_connector"; "tes_rf_connector"; "Tamb"; "databases"; "calculations_df"];
 f_body := block [Choice Skip Raise; Bind 14 [4] false; Bind 15 [5] false; Choice (Frame (block [Choice Skip
 Raise; Loop false (block [Choice Skip Raise; Choice Skip Raise; Choice Skip Raise; Choice Skip
 Raise]) Skip; Frame (block [Choice Skip (Choice Raise Skip); Loop false (Choice Continue Skip) Skip;
 Choice Skip Raise; Return]); Return])) Skip; Choice Skip Raise; Choice (block [Write 13; Write 13;
 Write 13; Write 13; Write 13; Write 13; Write 13; Write 13; Write 13; Return]) Skip] |}.

(* multisim/parts/part_modules/suppliers.py, line 13: chp_with_fghex *)
Definition f_parts_part_modules_suppliers__chp_with_fghex : func := {|
 f_file := "parts/part_modules/suppliers.py"; f_name := "chp_with_fghex"; f_line := 13;
 f_params := ["simenv"; "databases"; "number_rf_ports"; "chp_ff_connection"; "chp_ntrf_connection"; "chp_htrfA_connection"; "chp_htrfB_connection"; "segment_name"; "chp_kwds"; "chp_ctrl"; "fluegashex_theta_out_water"; "ht_rf_theta_mix"; "adjust_pipes"; "Tamb"; "ctrl_chp_pump_by_ts"; "ctrl_hex_by_ts"; "ctrl_htrf_by_ts"; "fluegas_hex_kwds"; "calculations_df"; "kwds"];
 f_body := block [Choice Skip Raise; Choice Skip Raise; Choice (block [Choice Skip Raise; Bind 21 [10] false;
 Bind 22 [10] false]) Skip; Choice (Write 9) Skip; Choice (Frame (block [Choice Skip Raise; Loop
 false (block [Choice Skip Raise; Choice Skip Raise; Choice Skip Raise; Choice Skip Raise]) Skip;
 Frame (block [Choice Skip (Choice Raise Skip); Loop false (Choice Continue Skip) Skip; Choice Skip
 Raise; Return]); Return])) Skip; Choice Skip (Choice Skip (Choice Skip (Choice Skip Raise))); Choice
 (block [Write 19; Write 19; Return]) Skip] |}.

(* multisim/parts/part_modules/suppliers.py, line 939: gasboiler *)
Definition f_parts_part_modules_suppliers__gasboiler : func := {|
 f_file := "parts/part_modules/suppliers.py"; f_name := "gasboiler"; f_line := 939;
 f_params := ["simenv"; "gasb_pth"; "lhs"; "rc_flow"; "phw_dmd"; "space_heating"; "n_rf_ports"; "segment_name"; "adjust_pipes"; "ff_connector"; "ltrf_connector"; "htrf_connector"; "gasboiler_ctrl"; "Tamb"; "calculations_df"];
 f_body := block [Choice (Frame (block [Choice Skip Raise; Loop false (block [Choice Skip Raise; Choice Skip
 Raise; Choice Skip Raise; Choice Skip Raise]) Skip; Frame (block [Choice Skip (Choice Raise Skip);
 Loop false (Choice Continue Skip) Skip; Choice Skip Raise; Return]); Return])) Skip; Choice Skip
 Raise; Choice (block [Write 15; Write 15; Return]) Skip] |}.

(* multisim/parts/pipe.py, line 45: Pipe.__init__ *)
Definition f_parts_pipe__Pipe___init__ : func := {|
 f_file := "parts/pipe.py"; f_name := "Pipe.__init__"; f_line := 45;
 f_params := ["name"; "master_cls"; "kwargs"];
 f_body := block [Bind 4 [1] false; Bind 5 [3] false; Frame (Choice Raise Skip); Choice Skip Raise; Choice Skip
 Raise] |}.

(* multisim/parts/pipe.py, line 300: Pipe.init_part *)
Definition f_parts_pipe__Pipe_init_part : func := {|
 f_file := "parts/pipe.py"; f_name := "Pipe.init_part"; f_line := 300;
 f_params := ["kwds"];
 f_body := block [Bind 2 [1] false; Frame (Choice Raise Skip); Choice Skip Raise; Choice Skip Raise; Bind 3 [1]
 true; Bind 4 [1] true; Bind 5 [1] true; Bind 6 [1] true; Bind 7 [1] true; Frame (block [Choice Skip
 Raise; Choice (block [Choice (Choice Skip Raise) Skip; Choice Skip Raise]) Skip; Choice (block
 [Choice (block [Choice Skip Raise; Bind 4 [7] false]) Skip; Choice Skip Raise; Loop false (block
 [Bind 8 [4] false; Choice Skip Raise]) Skip; Loop false (block [Bind 8 [4] false; Bind 9 [4] false;
 Bind 10 [9] false; Choice (Bind 11 [9] false) (Bind 11 [] true); Choice Skip Raise; Choice (Choice
 Skip Raise) Skip; Choice Skip (block [Bind 12 [8] false; Frame (block [Choice Skip Raise; Choice
 Skip Raise; Choice (Try Eval Skip Skip) Skip; Choice Skip (Choice Skip Raise); Choice Raise (Choice
 Raise Skip); Choice Skip Raise; Choice Skip (Choice (Choice (Choice Skip (Choice (Choice Skip Raise)
 Skip)) Skip) Skip); Return])])]) Skip; Choice (Choice Skip Raise) Skip]) Skip]); Choice Skip Raise;
 Choice Skip Raise; Choice Skip (Choice Skip Raise); Bind 13 [1] true; Frame (Choice Skip Raise)] |}.

(* multisim/parts/pipe.py, line 499: Pipe._reset_to_init_cond *)
Definition f_parts_pipe__Pipe__reset_to_init_cond : func := {|
 f_file := "parts/pipe.py"; f_name := "Pipe._reset_to_init_cond"; f_line := 499;
 f_params := [];
 f_body := Skip |}.

(* multisim/parts/pipe.py, line 503: Pipe._get_flow_routine *)
Definition f_parts_pipe__Pipe__get_flow_routine : func := {|
 f_file := "parts/pipe.py"; f_name := "Pipe._get_flow_routine"; f_line := 503;
 f_params := ["port"; "parent_port"; "subnet"; "kwargs"];
 f_body := block [Bind 5 [1] false; Bind 6 [2] false; Frame (block [Choice (block [Bind 7 [5] false; Frame
 (block [Choice Skip Raise; Choice Skip Raise; Choice (Try Eval Skip Skip) Skip; Choice Skip (Choice
 Skip Raise); Choice Raise (Choice Raise Skip); Choice Skip Raise; Choice Skip (Choice (Choice
 (Choice Skip (Choice (Choice Skip Raise) Skip)) Skip) Skip); Return])]) (Choice (block [Bind 8 [5]
 false; Frame (block [Choice Skip Raise; Choice Skip Raise; Choice (Try Eval Skip Skip) Skip; Choice
 Skip (Choice Skip Raise); Choice Raise (Choice Raise Skip); Choice Skip Raise; Choice Skip (Choice
 (Choice (Choice Skip (Choice (Choice Skip Raise) Skip)) Skip) Skip); Return])]) Skip); Choice (block
 [Choice (Frame (block [Choice Skip Raise; Choice Skip Raise; Choice (Try Eval Skip Skip) Skip;
 Choice Skip (Choice Skip Raise); Choice Raise (Choice Raise Skip); Choice Skip Raise; Choice Skip
 (Choice (Choice (Choice Skip (Choice (Choice Skip Raise) Skip)) Skip) Skip); Return])) (Choice
 (Frame (block [Choice Skip Raise; Choice Skip Raise; Choice (Try Eval Skip Skip) Skip; Choice Skip
 (Choice Skip Raise); Choice Raise (Choice Raise Skip); Choice Skip Raise; Choice Skip (Choice
 (Choice (Choice Skip (Choice (Choice Skip Raise) Skip)) Skip) Skip); Return])) Skip); Return])
 Return]); Return] |}.

(* multisim/parts/pipe.py, line 641: Pipe.get_diff *)
Definition f_parts_pipe__Pipe_get_diff : func := {|
 f_file := "parts/pipe.py"; f_name := "Pipe.get_diff"; f_line := 641;
 f_params := ["timestep"];
 f_body := block [Bind 2 [1] false; Frame (block [Frame Return; Bind 3 [2] false; Bind 4 [2] false; Bind 5 [2]
 false; Bind 6 [2] false; Bind 7 [2] false; Frame Return; Frame (block [Choice (Choice Skip Raise)
 Skip; Return]); Return]); Return] |}.

(* multisim/parts/pipe2D.py, line 46: Pipe2D.__init__ *)
Definition f_parts_pipe2D__Pipe2D___init__ : func := {|
 f_file := "parts/pipe2D.py"; f_name := "Pipe2D.__init__"; f_line := 46;
 f_params := ["name"; "master_cls"; "kwargs"];
 f_body := block [Choice Skip Raise; Choice Skip Raise; Choice Skip Raise] |}.

(* multisim/parts/pipe2D.py, line 307: Pipe2D.init_part *)
Definition f_parts_pipe2D__Pipe2D_init_part : func := {|
 f_file := "parts/pipe2D.py"; f_name := "Pipe2D.init_part"; f_line := 307;
 f_params := ["kwargs"];
 f_body := block [Choice Skip Raise; Choice Skip Raise; Choice Skip Raise; Choice Skip Raise; Bind 2 [1] true;
 Bind 3 [1] true; Bind 4 [1] true; Bind 5 [1] true; Bind 6 [1] true; Frame (block [Choice Skip Raise;
 Choice (block [Choice (Choice Skip Raise) Skip; Choice Skip Raise]) Skip; Choice (block [Choice
 (block [Choice Skip Raise; Bind 3 [6] false]) Skip; Choice Skip Raise; Loop false (block [Bind 7 [3]
 false; Choice Skip Raise]) Skip; Loop false (block [Bind 7 [3] false; Bind 8 [3] false; Bind 9 [8]
 false; Choice (Bind 10 [8] false) (Bind 10 [] true); Choice Skip Raise; Choice (Choice Skip Raise)
 Skip; Choice Skip (block [Bind 11 [7] false; Frame (block [Choice Skip Raise; Choice Skip Raise;
 Choice (Try Eval Skip Skip) Skip; Choice Skip (Choice Skip Raise); Choice Raise (Choice Raise Skip);
 Choice Skip Raise; Choice Skip (Choice (Choice (Choice Skip (Choice (Choice Skip Raise) Skip)) Skip)
 Skip); Return])])]) Skip; Choice (Choice Skip Raise) Skip]) Skip]); Choice Skip Raise; Choice Skip
 Raise; Choice Skip Raise; Choice Skip (Choice Skip Raise); Bind 12 [1] true; Frame (Choice Skip
 Raise)] |}.

(* multisim/parts/pipe2D.py, line 475: Pipe2D._get_flow_routine *)
Definition f_parts_pipe2D__Pipe2D__get_flow_routine : func := {|
 f_file := "parts/pipe2D.py"; f_name := "Pipe2D._get_flow_routine"; f_line := 475;
 f_params := ["port"; "parent_port"; "subnet"; "kwargs"];
 f_body := block [Bind 5 [1] false; Bind 6 [2] false; Frame (block [Choice (block [Bind 7 [5] false; Frame
 (block [Choice Skip Raise; Choice Skip Raise; Choice (Try Eval Skip Skip) Skip; Choice Skip (Choice
 Skip Raise); Choice Raise (Choice Raise Skip); Choice Skip Raise; Choice Skip (Choice (Choice
 (Choice Skip (Choice (Choice Skip Raise) Skip)) Skip) Skip); Return])]) (Choice (block [Bind 8 [5]
 false; Frame (block [Choice Skip Raise; Choice Skip Raise; Choice (Try Eval Skip Skip) Skip; Choice
 Skip (Choice Skip Raise); Choice Raise (Choice Raise Skip); Choice Skip Raise; Choice Skip (Choice
 (Choice (Choice Skip (Choice (Choice Skip Raise) Skip)) Skip) Skip); Return])]) Skip); Choice (block
 [Choice (Frame (block [Choice Skip Raise; Choice Skip Raise; Choice (Try Eval Skip Skip) Skip;
 Choice Skip (Choice Skip Raise); Choice Raise (Choice Raise Skip); Choice Skip Raise; Choice Skip
 (Choice (Choice (Choice Skip (Choice (Choice Skip Raise) Skip)) Skip) Skip); Return])) (Choice
 (Frame (block [Choice Skip Raise; Choice Skip Raise; Choice (Try Eval Skip Skip) Skip; Choice Skip
 (Choice Skip Raise); Choice Raise (Choice Raise Skip); Choice Skip Raise; Choice Skip (Choice
 (Choice (Choice Skip (Choice (Choice Skip Raise) Skip)) Skip) Skip); Return])) Skip); Return])
 Return]); Return] |}.

(* multisim/parts/pipe2D.py, line 613: Pipe2D.get_diff *)
Definition f_parts_pipe2D__Pipe2D_get_diff : func := {|
 f_file := "parts/pipe2D.py"; f_name := "Pipe2D.get_diff"; f_line := 613;
 f_params := ["timestep"];
 f_body := block [Choice (Choice Skip Raise) (Choice Raise Skip); Return] |}.

(* multisim/parts/pipe_branched.py, line 45: PipeBranched.__init__ *)
Definition f_parts_pipe_branched__PipeBranched___init__ : func := {|
 f_file := "parts/pipe_branched.py"; f_name := "PipeBranched.__init__"; f_line := 45;
 f_params := ["name"; "master_cls"; "kwargs"];
 f_body := block [Bind 4 [3] true; Frame (block [Choice Skip Raise; Choice Skip Raise; Choice (block [Choice
 Skip Raise; Loop false (block [Bind 5 [4] false; Choice Skip Raise]) Skip; Loop false (block [Bind 5
 [] true; Choice Skip Raise; Choice (block [Choice Skip Raise; Choice Skip Raise; Choice (Write 5)
 Skip]) (Choice (block [Choice Skip Raise; Choice Skip Raise; Write 5]) (block [Choice Skip Raise;
 Choice Skip Raise; Write 5; Write 5])); Write 5]) Skip]) Skip])] |}.

(* multisim/parts/pipe_branched.py, line 113: PipeBranched.init_part *)
Definition f_parts_pipe_branched__PipeBranched_init_part : func := {|
 f_file := "parts/pipe_branched.py"; f_name := "PipeBranched.init_part"; f_line := 113;
 f_params := ["kwargs"];
 f_body := Skip |}.

(* multisim/parts/pipe_branched.py, line 120: PipeBranched._get_flow_routine *)
Definition f_parts_pipe_branched__PipeBranched__get_flow_routine : func := {|
 f_file := "parts/pipe_branched.py"; f_name := "PipeBranched._get_flow_routine"; f_line := 120;
 f_params := ["port"; "parent_port"; "subnet"; "kwargs"];
 f_body := block [Choice (block [Bind 5 [1] false; Bind 6 [2] false; Frame (block [Choice (block [Bind 7 [5]
 false; Frame (block [Choice Skip Raise; Choice Skip Raise; Choice (Try Eval Skip Skip) Skip; Choice
 Skip (Choice Skip Raise); Choice Raise (Choice Raise Skip); Choice Skip Raise; Choice Skip (Choice
 (Choice (Choice Skip (Choice (Choice Skip Raise) Skip)) Skip) Skip); Return])]) (Choice (block [Bind
 8 [5] false; Frame (block [Choice Skip Raise; Choice Skip Raise; Choice (Try Eval Skip Skip) Skip;
 Choice Skip (Choice Skip Raise); Choice Raise (Choice Raise Skip); Choice Skip Raise; Choice Skip
 (Choice (Choice (Choice Skip (Choice (Choice Skip Raise) Skip)) Skip) Skip); Return])]) Skip);
 Choice (block [Choice (Frame (block [Choice Skip Raise; Choice Skip Raise; Choice (Try Eval Skip
 Skip) Skip; Choice Skip (Choice Skip Raise); Choice Raise (Choice Raise Skip); Choice Skip Raise;
 Choice Skip (Choice (Choice (Choice Skip (Choice (Choice Skip Raise) Skip)) Skip) Skip); Return]))
 (Choice (Frame (block [Choice Skip Raise; Choice Skip Raise; Choice (Try Eval Skip Skip) Skip;
 Choice Skip (Choice Skip Raise); Choice Raise (Choice Raise Skip); Choice Skip Raise; Choice Skip
 (Choice (Choice (Choice Skip (Choice (Choice Skip Raise) Skip)) Skip) Skip); Return])) Skip);
 Return]) Return])]) (Choice (block [Bind 9 [1] false; Bind 10 [2] false; Frame (block [Choice (block
 [Bind 11 [9] false; Frame (block [Choice Skip Raise; Choice Skip Raise; Choice (Try Eval Skip Skip)
 Skip; Choice Skip (Choice Skip Raise); Choice Raise (Choice Raise Skip); Choice Skip Raise; Choice
 Skip (Choice (Choice (Choice Skip (Choice (Choice Skip Raise) Skip)) Skip) Skip); Return])]) (Choice
 (block [Bind 12 [9] false; Frame (block [Choice Skip Raise; Choice Skip Raise; Choice (Try Eval Skip
 Skip) Skip; Choice Skip (Choice Skip Raise); Choice Raise (Choice Raise Skip); Choice Skip Raise;
 Choice Skip (Choice (Choice (Choice Skip (Choice (Choice Skip Raise) Skip)) Skip) Skip); Return])])
 Skip); Choice (block [Choice (Frame (block [Choice Skip Raise; Choice Skip Raise; Choice (Try Eval
 Skip Skip) Skip; Choice Skip (Choice Skip Raise); Choice Raise (Choice Raise Skip); Choice Skip
 Raise; Choice Skip (Choice (Choice (Choice Skip (Choice (Choice Skip Raise) Skip)) Skip) Skip);
 Return])) (Choice (Frame (block [Choice Skip Raise; Choice Skip Raise; Choice (Try Eval Skip Skip)
 Skip; Choice Skip (Choice Skip Raise); Choice Raise (Choice Raise Skip); Choice Skip Raise; Choice
 Skip (Choice (Choice (Choice Skip (Choice (Choice Skip Raise) Skip)) Skip) Skip); Return])) Skip);
 Return]) Return])]) (block [Bind 13 [1] false; Frame (block [Choice (block [Bind 14 [13] false;
 Frame (block [Choice Skip Raise; Choice Skip Raise; Choice (Try Eval Skip Skip) Skip; Choice Skip
 (Choice Skip Raise); Choice Raise (Choice Raise Skip); Choice Skip Raise; Choice Skip (Choice
 (Choice (Choice Skip (Choice (Choice Skip Raise) Skip)) Skip) Skip); Return])]) (Choice (block [Bind
 15 [13] false; Frame (block [Choice Skip Raise; Choice Skip Raise; Choice (Try Eval Skip Skip) Skip;
 Choice Skip (Choice Skip Raise); Choice Raise (Choice Raise Skip); Choice Skip Raise; Choice Skip
 (Choice (Choice (Choice Skip (Choice (Choice Skip Raise) Skip)) Skip) Skip); Return])]) Skip);
 Choice (block [Choice (Frame (block [Choice Skip Raise; Choice Skip Raise; Choice (Try Eval Skip
 Skip) Skip; Choice Skip (Choice Skip Raise); Choice Raise (Choice Raise Skip); Choice Skip Raise;
 Choice Skip (Choice (Choice (Choice Skip (Choice (Choice Skip Raise) Skip)) Skip) Skip); Return]))
 (Choice (Frame (block [Choice Skip Raise; Choice Skip Raise; Choice (Try Eval Skip Skip) Skip;
 Choice Skip (Choice Skip Raise); Choice Raise (Choice Raise Skip); Choice Skip Raise; Choice Skip
 (Choice (Choice (Choice Skip (Choice (Choice Skip Raise) Skip)) Skip) Skip); Return])) Skip);
 Return]) Return]); Loop false (Frame (block [Choice (Frame (block [Choice Skip Raise; Choice Skip
 Raise; Choice (Try Eval Skip Skip) Skip; Choice Skip (Choice Skip Raise); Choice Raise (Choice Raise
 Skip); Choice Skip Raise; Choice Skip (Choice (Choice (Choice Skip (Choice (Choice Skip Raise)
 Skip)) Skip) Skip); Return])) (Choice (Frame (block [Choice Skip Raise; Choice Skip Raise; Choice
 (Try Eval Skip Skip) Skip; Choice Skip (Choice Skip Raise); Choice Raise (Choice Raise Skip); Choice
 Skip Raise; Choice Skip (Choice (Choice (Choice Skip (Choice (Choice Skip Raise) Skip)) Skip) Skip);
 Return])) Skip); Choice (block [Choice (Frame (block [Choice Skip Raise; Choice Skip Raise; Choice
 (Try Eval Skip Skip) Skip; Choice Skip (Choice Skip Raise); Choice Raise (Choice Raise Skip); Choice
 Skip Raise; Choice Skip (Choice (Choice (Choice Skip (Choice (Choice Skip Raise) Skip)) Skip) Skip);
 Return])) (Choice (Frame (block [Choice Skip Raise; Choice Skip Raise; Choice (Try Eval Skip Skip)
 Skip; Choice Skip (Choice Skip Raise); Choice Raise (Choice Raise Skip); Choice Skip Raise; Choice
 Skip (Choice (Choice (Choice Skip (Choice (Choice Skip Raise) Skip)) Skip) Skip); Return])) Skip);
 Return]) Return])) Skip])); Bind 16 [2] true; Return] |}.

(* multisim/parts/pipe_branched.py, line 289: PipeBranched.get_diff *)
Definition f_parts_pipe_branched__PipeBranched_get_diff : func := {|
 f_file := "parts/pipe_branched.py"; f_name := "PipeBranched.get_diff"; f_line := 289;
 f_params := ["timestep"];
 f_body := block [Bind 2 [1] false; Frame (block [Frame Return; Bind 3 [2] false; Bind 4 [2] false; Bind 5 [2]
 false; Bind 6 [2] false; Bind 7 [2] false; Frame Return; Frame (block [Choice (Choice Skip Raise)
 Skip; Return]); Return]); Return] |}.

(* multisim/parts/pipe_with_pump.py, line 42: PipeWithPump.__init__ *)
Definition f_parts_pipe_with_pump__PipeWithPump___init__ : func := {|
 f_file := "parts/pipe_with_pump.py"; f_name := "PipeWithPump.__init__"; f_line := 42;
 f_params := ["name"; "master_cls"; "kwargs"];
 f_body := Skip |}.

(* multisim/parts/pipe_with_pump.py, line 92: PipeWithPump.init_part *)
Definition f_parts_pipe_with_pump__PipeWithPump_init_part : func := {|
 f_file := "parts/pipe_with_pump.py"; f_name := "PipeWithPump.init_part"; f_line := 92;
 f_params := ["start_massflow"; "kwds"];
 f_body := block [Choice Skip Raise; Bind 3 [2] true; Bind 4 [2] true; Frame (Choice (block [Choice Skip Raise;
 Choice Skip Raise; Choice Skip Raise]) (Choice (block [Choice Skip Raise; Choice Skip Raise; Choice
 (Choice Skip Raise) (Choice (block [Choice Skip Raise; Choice Skip Raise; Choice Skip Raise; Choice
 Skip Raise]) Skip)]) Skip)); Choice (Choice Skip Raise) Skip] |}.

(* multisim/parts/pipe_with_pump.py, line 127: PipeWithPump._get_flow_routine *)
Definition f_parts_pipe_with_pump__PipeWithPump__get_flow_routine : func := {|
 f_file := "parts/pipe_with_pump.py"; f_name := "PipeWithPump._get_flow_routine"; f_line := 127;
 f_params := ["port"; "parent_port"; "subnet"; "kwargs"];
 f_body := block [Bind 5 [1] false; Frame (block [Choice (block [Bind 6 [5] false; Frame (block [Choice Skip
 Raise; Choice Skip Raise; Choice (Try Eval Skip Skip) Skip; Choice Skip (Choice Skip Raise); Choice
 Raise (Choice Raise Skip); Choice Skip Raise; Choice Skip (Choice (Choice (Choice Skip (Choice
 (Choice Skip Raise) Skip)) Skip) Skip); Return])]) (Choice (block [Bind 7 [5] false; Frame (block
 [Choice Skip Raise; Choice Skip Raise; Choice (Try Eval Skip Skip) Skip; Choice Skip (Choice Skip
 Raise); Choice Raise (Choice Raise Skip); Choice Skip Raise; Choice Skip (Choice (Choice (Choice
 Skip (Choice (Choice Skip Raise) Skip)) Skip) Skip); Return])]) Skip); Choice (block [Choice (Frame
 (block [Choice Skip Raise; Choice Skip Raise; Choice (Try Eval Skip Skip) Skip; Choice Skip (Choice
 Skip Raise); Choice Raise (Choice Raise Skip); Choice Skip Raise; Choice Skip (Choice (Choice
 (Choice Skip (Choice (Choice Skip Raise) Skip)) Skip) Skip); Return])) (Choice (Frame (block [Choice
 Skip Raise; Choice Skip Raise; Choice (Try Eval Skip Skip) Skip; Choice Skip (Choice Skip Raise);
 Choice Raise (Choice Raise Skip); Choice Skip Raise; Choice Skip (Choice (Choice (Choice Skip
 (Choice (Choice Skip Raise) Skip)) Skip) Skip); Return])) Skip); Return]) Return]); Choice Skip
 (Choice Return Raise)] |}.

(* multisim/parts/pipe_with_pump.py, line 217: PipeWithPump._process_cv *)
Definition f_parts_pipe_with_pump__PipeWithPump__process_cv : func := {|
 f_file := "parts/pipe_with_pump.py"; f_name := "PipeWithPump._process_cv"; f_line := 217;
 f_params := ["ctrlr"];
 f_body := Skip |}.

(* multisim/parts/pipe_with_valve.py, line 45: PipeWith3wValve.__init__ *)
Definition f_parts_pipe_with_valve__PipeWith3wValve___init__ : func := {|
 f_file := "parts/pipe_with_valve.py"; f_name := "PipeWith3wValve.__init__"; f_line := 45;
 f_params := ["name"; "master_cls"; "kwargs"];
 f_body := block [Choice Skip Raise; Bind 4 [3] true; Frame (block [Choice Skip Raise; Choice Skip Raise;
 Choice (block [Choice Skip Raise; Loop false (block [Bind 5 [4] false; Choice Skip Raise]) Skip;
 Loop false (block [Bind 5 [] true; Choice Skip Raise; Choice (block [Choice Skip Raise; Choice Skip
 Raise; Choice (Write 5) Skip]) (Choice (block [Choice Skip Raise; Choice Skip Raise; Write 5])
 (block [Choice Skip Raise; Choice Skip Raise; Write 5; Write 5])); Write 5]) Skip]) Skip])] |}.

(* multisim/parts/pipe_with_valve.py, line 166: PipeWith3wValve.init_part *)
Definition f_parts_pipe_with_valve__PipeWith3wValve_init_part : func := {|
 f_file := "parts/pipe_with_valve.py"; f_name := "PipeWith3wValve.init_part"; f_line := 166;
 f_params := ["start_portA_opening"; "kwargs"];
 f_body := block [Choice Skip Raise; Bind 3 [2] true; Bind 4 [2] true; Frame (Choice (block [Choice Skip Raise;
 Choice Skip Raise; Choice Skip Raise]) (Choice (block [Choice Skip Raise; Choice Skip Raise; Choice
 (Choice Skip Raise) (Choice (block [Choice Skip Raise; Choice Skip Raise; Choice Skip Raise; Choice
 Skip Raise]) Skip)]) Skip))] |}.

(* multisim/parts/pipe_with_valve.py, line 194: PipeWith3wValve._get_flow_routine *)
Definition f_parts_pipe_with_valve__PipeWith3wValve__get_flow_routine : func := {|
 f_file := "parts/pipe_with_valve.py"; f_name := "PipeWith3wValve._get_flow_routine"; f_line := 194;
 f_params := ["port"; "parent_port"; "subnet"; "kwargs"];
 f_body := block [Bind 5 [1] false; Bind 6 [2] false; Frame (block [Choice (block [Bind 7 [5] false; Frame
 (block [Choice Skip Raise; Choice Skip Raise; Choice (Try Eval Skip Skip) Skip; Choice Skip (Choice
 Skip Raise); Choice Raise (Choice Raise Skip); Choice Skip Raise; Choice Skip (Choice (Choice
 (Choice Skip (Choice (Choice Skip Raise) Skip)) Skip) Skip); Return])]) (Choice (block [Bind 8 [5]
 false; Frame (block [Choice Skip Raise; Choice Skip Raise; Choice (Try Eval Skip Skip) Skip; Choice
 Skip (Choice Skip Raise); Choice Raise (Choice Raise Skip); Choice Skip Raise; Choice Skip (Choice
 (Choice (Choice Skip (Choice (Choice Skip Raise) Skip)) Skip) Skip); Return])]) Skip); Choice (block
 [Choice (Frame (block [Choice Skip Raise; Choice Skip Raise; Choice (Try Eval Skip Skip) Skip;
 Choice Skip (Choice Skip Raise); Choice Raise (Choice Raise Skip); Choice Skip Raise; Choice Skip
 (Choice (Choice (Choice Skip (Choice (Choice Skip Raise) Skip)) Skip) Skip); Return])) (Choice
 (Frame (block [Choice Skip Raise; Choice Skip Raise; Choice (Try Eval Skip Skip) Skip; Choice Skip
 (Choice Skip Raise); Choice Raise (Choice Raise Skip); Choice Skip Raise; Choice Skip (Choice
 (Choice (Choice Skip (Choice (Choice Skip Raise) Skip)) Skip) Skip); Return])) Skip); Return])
 Return]); Return] |}.

(* multisim/parts/pipe_with_valve.py, line 382: PipeWith3wValve._process_cv *)
Definition f_parts_pipe_with_valve__PipeWith3wValve__process_cv : func := {|
 f_file := "parts/pipe_with_valve.py"; f_name := "PipeWith3wValve._process_cv"; f_line := 382;
 f_params := ["ctrl_inst"];
 f_body := Skip |}.

(* multisim/parts/pipe_with_valve.py, line 395: PipeWith3wValve.get_diff *)
Definition f_parts_pipe_with_valve__PipeWith3wValve_get_diff : func := {|
 f_file := "parts/pipe_with_valve.py"; f_name := "PipeWith3wValve.get_diff"; f_line := 395;
 f_params := ["timestep"];
 f_body := block [Bind 2 [1] false; Frame (block [Frame Return; Bind 3 [2] false; Bind 4 [2] false; Bind 5 [2]
 false; Bind 6 [2] false; Bind 7 [2] false; Frame Return; Frame (block [Choice (Choice Skip Raise)
 Skip; Return]); Return]); Return] |}.

(* multisim/parts/pump.py, line 32: Pump.__init__ *)
Definition f_parts_pump__Pump___init__ : func := {|
 f_file := "parts/pump.py"; f_name := "Pump.__init__"; f_line := 32;
 f_params := ["name"; "master_cls"; "kwargs"];
 f_body := Skip |}.

(* multisim/parts/pump.py, line 204: Pump.init_part *)
Definition f_parts_pump__Pump_init_part : func := {|
 f_file := "parts/pump.py"; f_name := "Pump.init_part"; f_line := 204;
 f_params := ["start_massflow"; "kwargs"];
 f_body := block [Bind 3 [2] true; Bind 4 [2] true; Bind 5 [2] true; Bind 6 [2] true; Bind 7 [2] true; Frame
 (block [Choice Skip Raise; Choice (block [Choice (Choice Skip Raise) Skip; Choice Skip Raise]) Skip;
 Choice (block [Choice (block [Choice Skip Raise; Bind 4 [7] false]) Skip; Choice Skip Raise; Loop
 false (block [Bind 8 [4] false; Choice Skip Raise]) Skip; Loop false (block [Bind 8 [4] false; Bind
 9 [4] false; Bind 10 [9] false; Choice (Bind 11 [9] false) (Bind 11 [] true); Choice Skip Raise;
 Choice (Choice Skip Raise) Skip; Choice Skip (block [Bind 12 [8] false; Frame (block [Choice Skip
 Raise; Choice Skip Raise; Choice (Try Eval Skip Skip) Skip; Choice Skip (Choice Skip Raise); Choice
 Raise (Choice Raise Skip); Choice Skip Raise; Choice Skip (Choice (Choice (Choice Skip (Choice
 (Choice Skip Raise) Skip)) Skip) Skip); Return])])]) Skip; Choice (Choice Skip Raise) Skip]) Skip]);
 Choice (block [Choice Skip Raise; Choice Skip Raise]) (Choice (Choice (Choice Skip Raise) (Choice
 (block [Choice Skip Raise; Choice Skip Raise; Choice Skip Raise; Choice Skip Raise]) (Choice Skip
 Raise))) Skip)] |}.

(* multisim/parts/pump.py, line 344: Pump._reset_to_init_cond *)
Definition f_parts_pump__Pump__reset_to_init_cond : func := {|
 f_file := "parts/pump.py"; f_name := "Pump._reset_to_init_cond"; f_line := 344;
 f_params := [];
 f_body := Skip |}.

(* multisim/parts/pump.py, line 347: Pump._get_flow_routine *)
Definition f_parts_pump__Pump__get_flow_routine : func := {|
 f_file := "parts/pump.py"; f_name := "Pump._get_flow_routine"; f_line := 347;
 f_params := ["port"; "parent_port"; "subnet"; "kwargs"];
 f_body := block [Bind 5 [1] false; Frame (block [Choice (block [Bind 6 [5] false; Frame (block [Choice Skip
 Raise; Choice Skip Raise; Choice (Try Eval Skip Skip) Skip; Choice Skip (Choice Skip Raise); Choice
 Raise (Choice Raise Skip); Choice Skip Raise; Choice Skip (Choice (Choice (Choice Skip (Choice
 (Choice Skip Raise) Skip)) Skip) Skip); Return])]) (Choice (block [Bind 7 [5] false; Frame (block
 [Choice Skip Raise; Choice Skip Raise; Choice (Try Eval Skip Skip) Skip; Choice Skip (Choice Skip
 Raise); Choice Raise (Choice Raise Skip); Choice Skip Raise; Choice Skip (Choice (Choice (Choice
 Skip (Choice (Choice Skip Raise) Skip)) Skip) Skip); Return])]) Skip); Choice (block [Choice (Frame
 (block [Choice Skip Raise; Choice Skip Raise; Choice (Try Eval Skip Skip) Skip; Choice Skip (Choice
 Skip Raise); Choice Raise (Choice Raise Skip); Choice Skip Raise; Choice Skip (Choice (Choice
 (Choice Skip (Choice (Choice Skip Raise) Skip)) Skip) Skip); Return])) (Choice (Frame (block [Choice
 Skip Raise; Choice Skip Raise; Choice (Try Eval Skip Skip) Skip; Choice Skip (Choice Skip Raise);
 Choice Raise (Choice Raise Skip); Choice Skip Raise; Choice Skip (Choice (Choice (Choice Skip
 (Choice (Choice Skip Raise) Skip)) Skip) Skip); Return])) Skip); Return]) Return]); Choice Skip
 (Choice Return Raise)] |}.

(* multisim/parts/pump.py, line 443: Pump.solve *)
Definition f_parts_pump__Pump_solve : func := {|
 f_file := "parts/pump.py"; f_name := "Pump.solve"; f_line := 443;
 f_params := ["timestep"];
 f_body := Skip |}.

(* multisim/parts/pump.py, line 472: Pump._process_cv *)
Definition f_parts_pump__Pump__process_cv : func := {|
 f_file := "parts/pump.py"; f_name := "Pump._process_cv"; f_line := 472;
 f_params := ["ctrl_inst"];
 f_body := Skip |}.

(* multisim/parts/pump.py, line 481: Pump.draw_part *)
Definition f_parts_pump__Pump_draw_part : func := {|
 f_file := "parts/pump.py"; f_name := "Pump.draw_part"; f_line := 481;
 f_params := ["axis"; "timestep"; "draw"; "animate"];
 f_body := Choice (Choice Return Skip) Skip |}.

(* multisim/parts/tes.py, line 63: Tes.__init__ *)
Definition f_parts_tes__Tes___init__ : func := {|
 f_file := "parts/tes.py"; f_name := "Tes.__init__"; f_line := 63;
 f_params := ["name"; "master_cls"; "kwargs"];
 f_body := block [Bind 4 [1] false; Bind 5 [3] false; Frame (Choice Raise Skip); Choice Skip Raise; Choice Skip
 Raise; Choice Skip Raise; Choice Skip Raise; Choice Skip Raise; Bind 6 [3] true; Frame (block
 [Choice Skip Raise; Choice (block [Choice Skip Raise; Loop false (block [Bind 7 [6] false; Choice
 Skip Raise]) Skip; Loop false (block [Bind 7 [] true; Choice Skip Raise; Choice (block [Choice Skip
 Raise; Choice Skip Raise; Choice (Write 7) Skip]) (block [Choice Skip Raise; Choice Skip Raise;
 Write 7]); Write 7]) Skip]) Skip])] |}.

(* multisim/parts/tes.py, line 374: Tes.init_part *)
Definition f_parts_tes__Tes_init_part : func := {|
 f_file := "parts/tes.py"; f_name := "Tes.init_part"; f_line := 374;
 f_params := ["kwds"];
 f_body := block [Bind 2 [1] false; Frame (Choice Raise Skip); Choice Skip Raise; Choice Skip Raise; Choice
 Skip Raise; Choice Skip (Choice Skip Raise); Bind 3 [1] true; Bind 4 [1] true; Bind 5 [1] true; Bind
 6 [1] true; Bind 7 [1] true; Frame (block [Choice Skip Raise; Choice (block [Choice (Choice Skip
 Raise) Skip; Choice Skip Raise]) Skip; Choice (block [Choice (block [Choice Skip Raise; Bind 4 [7]
 false]) Skip; Choice Skip Raise; Loop false (block [Bind 8 [4] false; Choice Skip Raise]) Skip; Loop
 false (block [Bind 8 [4] false; Bind 9 [4] false; Bind 10 [9] false; Choice (Bind 11 [9] false)
 (Bind 11 [] true); Choice Skip Raise; Choice (Choice Skip Raise) Skip; Choice Skip (block [Bind 12
 [8] false; Frame (block [Choice Skip Raise; Choice Skip Raise; Choice (Try Eval Skip Skip) Skip;
 Choice Skip (Choice Skip Raise); Choice Raise (Choice Raise Skip); Choice Skip Raise; Choice Skip
 (Choice (Choice (Choice Skip (Choice (Choice Skip Raise) Skip)) Skip) Skip); Return])])]) Skip;
 Choice (Choice Skip Raise) Skip]) Skip]); Bind 13 [1] true; Frame (Choice Skip Raise)] |}.

(* multisim/parts/tes.py, line 625: Tes._reset_to_init_cond *)
Definition f_parts_tes__Tes__reset_to_init_cond : func := {|
 f_file := "parts/tes.py"; f_name := "Tes._reset_to_init_cond"; f_line := 625;
 f_params := [];
 f_body := Skip |}.

(* multisim/parts/tes.py, line 629: Tes.__add_ports *)
Definition f_parts_tes__Tes___add_ports : func := {|
 f_file := "parts/tes.py"; f_name := "Tes.__add_ports"; f_line := 629;
 f_params := ["kwargs"];
 f_body := block [Choice Skip Raise; Choice (block [Choice Skip Raise; Loop false (block [Bind 2 [1] false;
 Choice Skip Raise]) Skip; Loop false (block [Bind 2 [] true; Choice Skip Raise; Choice (block
 [Choice Skip Raise; Choice Skip Raise; Choice (Write 2) Skip]) (block [Choice Skip Raise; Choice
 Skip Raise; Write 2]); Write 2]) Skip]) Skip] |}.

(* multisim/parts/tes.py, line 814: Tes._get_flow_routine *)
Definition f_parts_tes__Tes__get_flow_routine : func := {|
 f_file := "parts/tes.py"; f_name := "Tes._get_flow_routine"; f_line := 814;
 f_params := ["port"; "parent_port"; "subnet"; "kwargs"];
 f_body := block [Choice (block [Bind 5 [1] false; Bind 6 [2] false; Frame (block [Choice (block [Bind 7 [5]
 false; Frame (block [Choice Skip Raise; Choice Skip Raise; Choice (Try Eval Skip Skip) Skip; Choice
 Skip (Choice Skip Raise); Choice Raise (Choice Raise Skip); Choice Skip Raise; Choice Skip (Choice
 (Choice (Choice Skip (Choice (Choice Skip Raise) Skip)) Skip) Skip); Return])]) (Choice (block [Bind
 8 [5] false; Frame (block [Choice Skip Raise; Choice Skip Raise; Choice (Try Eval Skip Skip) Skip;
 Choice Skip (Choice Skip Raise); Choice Raise (Choice Raise Skip); Choice Skip Raise; Choice Skip
 (Choice (Choice (Choice Skip (Choice (Choice Skip Raise) Skip)) Skip) Skip); Return])]) Skip);
 Choice (block [Choice (Frame (block [Choice Skip Raise; Choice Skip Raise; Choice (Try Eval Skip
 Skip) Skip; Choice Skip (Choice Skip Raise); Choice Raise (Choice Raise Skip); Choice Skip Raise;
 Choice Skip (Choice (Choice (Choice Skip (Choice (Choice Skip Raise) Skip)) Skip) Skip); Return]))
 (Choice (Frame (block [Choice Skip Raise; Choice Skip Raise; Choice (Try Eval Skip Skip) Skip;
 Choice Skip (Choice Skip Raise); Choice Raise (Choice Raise Skip); Choice Skip Raise; Choice Skip
 (Choice (Choice (Choice Skip (Choice (Choice Skip Raise) Skip)) Skip) Skip); Return])) Skip);
 Return]) Return])]) (Choice (block [Bind 9 [1] false; Bind 10 [2] false; Frame (block [Choice (block
 [Bind 11 [9] false; Frame (block [Choice Skip Raise; Choice Skip Raise; Choice (Try Eval Skip Skip)
 Skip; Choice Skip (Choice Skip Raise); Choice Raise (Choice Raise Skip); Choice Skip Raise; Choice
 Skip (Choice (Choice (Choice Skip (Choice (Choice Skip Raise) Skip)) Skip) Skip); Return])]) (Choice
 (block [Bind 12 [9] false; Frame (block [Choice Skip Raise; Choice Skip Raise; Choice (Try Eval Skip
 Skip) Skip; Choice Skip (Choice Skip Raise); Choice Raise (Choice Raise Skip); Choice Skip Raise;
 Choice Skip (Choice (Choice (Choice Skip (Choice (Choice Skip Raise) Skip)) Skip) Skip); Return])])
 Skip); Choice (block [Choice (Frame (block [Choice Skip Raise; Choice Skip Raise; Choice (Try Eval
 Skip Skip) Skip; Choice Skip (Choice Skip Raise); Choice Raise (Choice Raise Skip); Choice Skip
 Raise; Choice Skip (Choice (Choice (Choice Skip (Choice (Choice Skip Raise) Skip)) Skip) Skip);
 Return])) (Choice (Frame (block [Choice Skip Raise; Choice Skip Raise; Choice (Try Eval Skip Skip)
 Skip; Choice Skip (Choice Skip Raise); Choice Raise (Choice Raise Skip); Choice Skip Raise; Choice
 Skip (Choice (Choice (Choice Skip (Choice (Choice Skip Raise) Skip)) Skip) Skip); Return])) Skip);
 Return]) Return])]) (block [Bind 13 [1] false; Frame (block [Choice (block [Bind 14 [13] false;
 Frame (block [Choice Skip Raise; Choice Skip Raise; Choice (Try Eval Skip Skip) Skip; Choice Skip
 (Choice Skip Raise); Choice Raise (Choice Raise Skip); Choice Skip Raise; Choice Skip (Choice
 (Choice (Choice Skip (Choice (Choice Skip Raise) Skip)) Skip) Skip); Return])]) (Choice (block [Bind
 15 [13] false; Frame (block [Choice Skip Raise; Choice Skip Raise; Choice (Try Eval Skip Skip) Skip;
 Choice Skip (Choice Skip Raise); Choice Raise (Choice Raise Skip); Choice Skip Raise; Choice Skip
 (Choice (Choice (Choice Skip (Choice (Choice Skip Raise) Skip)) Skip) Skip); Return])]) Skip);
 Choice (block [Choice (Frame (block [Choice Skip Raise; Choice Skip Raise; Choice (Try Eval Skip
 Skip) Skip; Choice Skip (Choice Skip Raise); Choice Raise (Choice Raise Skip); Choice Skip Raise;
 Choice Skip (Choice (Choice (Choice Skip (Choice (Choice Skip Raise) Skip)) Skip) Skip); Return]))
 (Choice (Frame (block [Choice Skip Raise; Choice Skip Raise; Choice (Try Eval Skip Skip) Skip;
 Choice Skip (Choice Skip Raise); Choice Raise (Choice Raise Skip); Choice Skip Raise; Choice Skip
 (Choice (Choice (Choice Skip (Choice (Choice Skip Raise) Skip)) Skip) Skip); Return])) Skip);
 Return]) Return]); Loop false (Frame (block [Choice (Frame (block [Choice Skip Raise; Choice Skip
 Raise; Choice (Try Eval Skip Skip) Skip; Choice Skip (Choice Skip Raise); Choice Raise (Choice Raise
 Skip); Choice Skip Raise; Choice Skip (Choice (Choice (Choice Skip (Choice (Choice Skip Raise)
 Skip)) Skip) Skip); Return])) (Choice (Frame (block [Choice Skip Raise; Choice Skip Raise; Choice
 (Try Eval Skip Skip) Skip; Choice Skip (Choice Skip Raise); Choice Raise (Choice Raise Skip); Choice
 Skip Raise; Choice Skip (Choice (Choice (Choice Skip (Choice (Choice Skip Raise) Skip)) Skip) Skip);
 Return])) Skip); Choice (block [Choice (Frame (block [Choice Skip Raise; Choice Skip Raise; Choice
 (Try Eval Skip Skip) Skip; Choice Skip (Choice Skip Raise); Choice Raise (Choice Raise Skip); Choice
 Skip Raise; Choice Skip (Choice (Choice (Choice Skip (Choice (Choice Skip Raise) Skip)) Skip) Skip);
 Return])) (Choice (Frame (block [Choice Skip Raise; Choice Skip Raise; Choice (Try Eval Skip Skip)
 Skip; Choice Skip (Choice Skip Raise); Choice Raise (Choice Raise Skip); Choice Skip Raise; Choice
 Skip (Choice (Choice (Choice Skip (Choice (Choice Skip Raise) Skip)) Skip) Skip); Return])) Skip);
 Return]) Return])) Skip])); Bind 16 [2] true; Return] |}.

(* multisim/parts/tes.py, line 995: Tes.get_diff *)
Definition f_parts_tes__Tes_get_diff : func := {|
 f_file := "parts/tes.py"; f_name := "Tes.get_diff"; f_line := 995;
 f_params := ["timestep"];
 f_body := block [Bind 2 [1] false; Frame (block [Frame Return; Bind 3 [2] false; Bind 4 [2] false; Frame
 (Choice Return Skip); Bind 5 [2] false; Bind 6 [2] false; Frame (block [Frame Return; Return]);
 Frame Return; Bind 7 [2] false; Bind 8 [2] false; Frame Return; Frame (block [Choice (Choice Skip
 Raise) Skip; Return]); Return]); Return] |}.

(* multisim/parts/tes.py, line 999: Tes._buoyancy *)
Definition f_parts_tes__Tes__buoyancy : func := {|
 f_file := "parts/tes.py"; f_name := "Tes._buoyancy"; f_line := 999;
 f_params := ["timestep"];
 f_body := Choice (block [Bind 2 [1] false; Choice Raise Skip]) Skip |}.

(* multisim/parts/tes.py, line 1199: Tes.buo_Nu *)
Definition f_parts_tes__Tes_buo_Nu : func := {|
 f_file := "parts/tes.py"; f_name := "Tes.buo_Nu"; f_line := 1199;
 f_params := [];
 f_body := Choice Return Skip |}.

(* multisim/simenv.py, line 34: SimEnv.__init__ *)
Definition f_simenv__SimEnv___init__ : func := {|
 f_file := "simenv.py"; f_name := "SimEnv.__init__"; f_line := 34;
 f_params := ["suppress_printing"];
 f_body := Skip |}.

(* multisim/simenv.py, line 243: SimEnv.set_timeframe *)
Definition f_simenv__SimEnv_set_timeframe : func := {|
 f_file := "simenv.py"; f_name := "SimEnv.set_timeframe"; f_line := 243;
 f_params := ["timeframe"; "adaptive_steps"; "kwargs"];
 f_body := block [Choice Skip Raise; Choice Skip Raise; Choice (block [Choice (Choice Skip Raise) Skip; Choice
 (Choice Skip Raise) Skip; Choice (Choice Skip Raise) Skip; Choice (Choice Skip Raise) Skip; Choice
 (Choice Skip Raise) Skip; Choice (Choice Skip Raise) Skip; Choice (Choice Skip Raise) Skip; Choice
 (Choice Skip Raise) Skip; Choice (Choice Skip Raise) Skip; Choice (Choice Skip Raise) Skip]) (Choice
 Skip Raise)] |}.

(* multisim/simenv.py, line 455: SimEnv.set_disksaving *)
Definition f_simenv__SimEnv_set_disksaving : func := {|
 f_file := "simenv.py"; f_name := "SimEnv.set_disksaving"; f_line := 455;
 f_params := ["save"; "save_every_n_steps"; "sim_name"; "path"; "start_date"; "resample_final"; "resample_freq"; "create_new_folder"; "overwrite"; "complevel"; "complib"];
 f_body := block [Choice Return Skip; Bind 3 [3] true; Choice Skip Raise; Choice (Try Eval Raise Skip) Skip;
 Choice (Choice Raise Skip) Skip; Choice Raise Skip] |}.

(* multisim/simenv.py, line 593: SimEnv.set_solver *)
Definition f_simenv__SimEnv_set_solver : func := {|
 f_file := "simenv.py"; f_name := "SimEnv.set_solver"; f_line := 593;
 f_params := ["solver"; "kwargs"];
 f_body := block [Choice Skip Raise; Choice Skip Raise; Bind 1 [] true; Choice (Bind 1 [] true) Skip; Choice
 Raise Skip; Choice Skip Raise] |}.

(* multisim/simenv.py, line 691: SimEnv.add_part *)
Definition f_simenv__SimEnv_add_part : func := {|
 f_file := "simenv.py"; f_name := "SimEnv.add_part"; f_line := 691;
 f_params := ["part"; "name"; "store_results"; "kwargs"];
 f_body := block [Choice (Bind 5 [4] false) (block [Bind 5 [] true; Bind 3 [] true]); Choice Skip Raise; Choice
 (Choice (Choice Skip Raise) Skip) (Choice (Loop false (block [Bind 6 [3] false; Choice Skip Raise;
 Choice Skip Raise]) Skip) Skip); Bind 7 [2] false; Frame (block [Choice Skip Raise; Choice (Choice
 Skip Raise) Skip; Choice (Choice Skip Raise) (Choice (Choice Skip Raise) Skip)])] |}.

(* multisim/simenv.py, line 774: SimEnv._add_part *)
Definition f_simenv__SimEnv__add_part : func := {|
 f_file := "simenv.py"; f_name := "SimEnv._add_part"; f_line := 774;
 f_params := ["part"; "name"; "kwargs"];
 f_body := block [Choice Skip Raise; Choice Skip Raise; Choice Skip Raise] |}.

(* multisim/simenv.py, line 902: SimEnv._add_ports *)
Definition f_simenv__SimEnv__add_ports : func := {|
 f_file := "simenv.py"; f_name := "SimEnv._add_ports"; f_line := 902;
 f_params := ["kwargs"];
 f_body := block [Choice Skip Raise; Choice Skip Raise; Choice (block [Choice Skip Raise; Loop false (block
 [Bind 2 [1] false; Choice Skip Raise]) Skip; Loop false (block [Bind 2 [] true; Choice Skip Raise;
 Choice (block [Choice Skip Raise; Choice Skip Raise; Choice (Write 2) Skip]) (Choice (block [Choice
 Skip Raise; Choice Skip Raise; Write 2]) (block [Choice Skip Raise; Choice Skip Raise; Write 2;
 Write 2])); Write 2]) Skip]) Skip] |}.

(* multisim/simenv.py, line 1086: SimEnv.add_open_port *)
Definition f_simenv__SimEnv_add_open_port : func := {|
 f_file := "simenv.py"; f_name := "SimEnv.add_open_port"; f_line := 1086;
 f_params := ["name"; "constant"; "temperature"];
 f_body := block [Bind 4 [1] false; Frame (block [Choice Skip Raise; Choice (Choice Skip Raise) Skip; Choice
 (Choice Skip Raise) (Choice (Choice Skip Raise) Skip)]); Choice Skip Raise] |}.

(* multisim/simenv.py, line 1130: SimEnv._initialize_actuator *)
Definition f_simenv__SimEnv__initialize_actuator : func := {|
 f_file := "simenv.py"; f_name := "SimEnv._initialize_actuator"; f_line := 1130;
 f_params := ["variable_name"; "kwargs"];
 f_body := Choice (block [Choice Skip Raise; Choice Skip Raise; Choice Skip Raise]) (Choice (block [Choice Skip
 Raise; Choice Skip Raise; Choice (Choice Skip Raise) (Choice (block [Choice Skip Raise; Choice Skip
 Raise; Choice Skip Raise; Choice Skip Raise]) Skip)]) Skip) |}.

(* multisim/simenv.py, line 1234: SimEnv._add_open_port *)
Definition f_simenv__SimEnv__add_open_port : func := {|
 f_file := "simenv.py"; f_name := "SimEnv._add_open_port"; f_line := 1234;
 f_params := ["name"; "constant"; "temperature"];
 f_body := block [Choice Skip Raise; Choice Skip Raise; Choice Skip Raise; Choice (block [Choice Skip Raise;
 Bind 4 [3] false; Bind 3 [] true]) Skip; Choice Skip Raise; Bind 3 [] true] |}.

(* multisim/simenv.py, line 1330: SimEnv.assign_boundary_cond *)
Definition f_simenv__SimEnv_assign_boundary_cond : func := {|
 f_file := "simenv.py"; f_name := "SimEnv.assign_boundary_cond"; f_line := 1330;
 f_params := ["time_series"; "open_port"; "part"; "control"; "variable_name"; "array_index"];
 f_body := block [Bind 7 [2;3;4;5] false; Choice Skip Raise; Choice Skip Raise; Choice Skip Raise; Choice Skip
 Raise; Choice Skip Raise; Choice (Choice Skip Raise) Skip; Choice Skip Raise; Choice (block [Choice
 Skip Raise; Choice Skip Raise]) (Choice Skip Raise); Choice (Choice Skip Raise) (Choice (block
 [Choice Skip Raise; Choice Skip Raise; Choice Skip Raise]) (Choice (Choice Skip Raise) Raise))] |}.

(* multisim/simenv.py, line 1560: SimEnv._initialize_dynamic_BC *)
Definition f_simenv__SimEnv__initialize_dynamic_BC : func := {|
 f_file := "simenv.py"; f_name := "SimEnv._initialize_dynamic_BC"; f_line := 1560;
 f_params := [];
 f_body := Skip |}.

(* multisim/simenv.py, line 1568: SimEnv.__global_init_part *)
Definition f_simenv__SimEnv___global_init_part : func := {|
 f_file := "simenv.py"; f_name := "SimEnv.__global_init_part"; f_line := 1568;
 f_params := [];
 f_body := Skip |}.

(* multisim/simenv.py, line 1582: SimEnv._chk_amb_temp *)
Definition f_simenv__SimEnv__chk_amb_temp : func := {|
 f_file := "simenv.py"; f_name := "SimEnv._chk_amb_temp"; f_line := 1582;
 f_params := ["kwargs"];
 f_body := Choice Skip Raise |}.

(* multisim/simenv.py, line 1602: SimEnv.add_control *)
Definition f_simenv__SimEnv_add_control : func := {|
 f_file := "simenv.py"; f_name := "SimEnv.add_control"; f_line := 1602;
 f_params := ["Controls_module"; "name"; "kwargs"];
 f_body := block [Bind 4 [2] false; Frame (block [Choice Skip Raise; Choice (Choice Skip Raise) Skip; Choice
 (Choice Skip Raise) (Choice (Choice Skip Raise) Skip)])] |}.

(* multisim/simenv.py, line 1645: SimEnv._add_control *)
Definition f_simenv__SimEnv__add_control : func := {|
 f_file := "simenv.py"; f_name := "SimEnv._add_control"; f_line := 1645;
 f_params := ["Controls_module"; "name"; "kwargs"];
 f_body := block [Choice Skip Raise; Choice Skip Raise] |}.

(* multisim/simenv.py, line 1667: SimEnv._update_ports *)
Definition f_simenv__SimEnv__update_ports : func := {|
 f_file := "simenv.py"; f_name := "SimEnv._update_ports"; f_line := 1667;
 f_params := ["source"; "all_ports"; "nnum"];
 f_body := block [Choice Skip Raise; Choice (Choice (Choice Raise Skip) Skip) (Choice Skip Raise)] |}.

(* multisim/simenv.py, line 1713: SimEnv._get_port_connections *)
Definition f_simenv__SimEnv__get_port_connections : func := {|
 f_file := "simenv.py"; f_name := "SimEnv._get_port_connections"; f_line := 1713;
 f_params := [];
 f_body := Loop false (block [Loop false (Try Eval Raise Skip) Skip; Loop false (block [Frame (block [Choice
 Skip Raise; Choice Skip Raise; Choice (Try Eval Skip Skip) Skip; Choice Skip (Choice Skip Raise);
 Choice Raise (Choice Raise Skip); Choice Skip Raise; Choice Skip (Choice (Choice (Choice Skip
 (Choice (Choice Skip Raise) Skip)) Skip) Skip); Return]); Choice (Choice Skip (Frame (block [Choice
 Skip Raise; Choice Skip Raise; Choice (Try Eval Skip Skip) Skip; Choice Skip (Choice Skip Raise);
 Choice Raise (Choice Raise Skip); Choice Skip Raise; Choice Skip (Choice (Choice (Choice Skip
 (Choice (Choice Skip Raise) Skip)) Skip) Skip); Return]))) Skip; Try Eval Raise Skip; Try Eval Raise
 Skip]) Skip; Choice (Loop false (Frame (block [Choice Skip Raise; Choice Skip Raise; Choice (Try
 Eval Skip Skip) Skip; Choice Skip (Choice Skip Raise); Choice Raise (Choice Raise Skip); Choice Skip
 Raise; Choice Skip (Choice (Choice (Choice Skip (Choice (Choice Skip Raise) Skip)) Skip) Skip);
 Return])) Skip) Skip]) Skip |}.

(* multisim/simenv.py, line 1897: SimEnv.connect_ports *)
Definition f_simenv__SimEnv_connect_ports : func := {|
 f_file := "simenv.py"; f_name := "SimEnv.connect_ports"; f_line := 1897;
 f_params := ["first_part"; "first_port"; "scnd_part"; "scnd_port"];
 f_body := Skip |}.

(* multisim/simenv.py, line 1944: SimEnv._connect_ports *)
Definition f_simenv__SimEnv__connect_ports : func := {|
 f_file := "simenv.py"; f_name := "SimEnv._connect_ports"; f_line := 1944;
 f_params := ["first_part"; "first_port"; "scnd_part"; "scnd_port"];
 f_body := block [Try (block [Eval; Choice (block [Bind 5 [1] false; Eval; Frame (block [Eval; Loop false
 (block [Eval; Choice Eval Skip]) Skip; Eval; Choice Skip Raise])]) Skip; Eval; Choice (block [Bind 6
 [3] false; Eval; Frame (block [Eval; Loop false (block [Eval; Choice Eval Skip]) Skip; Eval; Choice
 Skip Raise])]) Skip]) Raise Skip; Choice (Choice Skip Raise) Skip; Choice (Choice Skip Raise) Skip;
 Choice (Try Eval Raise Skip) (Choice Skip Raise); Choice (Try Eval Raise Skip) (Choice Skip Raise)] |}.

(* multisim/simenv.py, line 2145: SimEnv._check_unconnected_ports *)
Definition f_simenv__SimEnv__check_unconnected_ports : func := {|
 f_file := "simenv.py"; f_name := "SimEnv._check_unconnected_ports"; f_line := 2145;
 f_params := [];
 f_body := Choice Raise Skip |}.

(* multisim/simenv.py, line 2167: SimEnv._print_arg_errs *)
Definition f_simenv__SimEnv__print_arg_errs : func := {|
 f_file := "simenv.py"; f_name := "SimEnv._print_arg_errs"; f_line := 2167;
 f_params := ["part"; "name"; "arg_and_err"; "kwd_args"];
 f_body := block [Loop false (block [Bind 5 [3] false; Bind 6 [3] false]) Skip; Choice Raise Skip] |}.

(* multisim/simenv.py, line 2186: SimEnv._get_topology *)
Definition f_simenv__SimEnv__get_topology : func := {|
 f_file := "simenv.py"; f_name := "SimEnv._get_topology"; f_line := 2186;
 f_params := [];
 f_body := Loop false (Choice Raise Skip) Skip |}.

(* multisim/simenv.py, line 2325: SimEnv._recursive_topology *)
Definition f_simenv__SimEnv__recursive_topology : func := {|
 f_file := "simenv.py"; f_name := "SimEnv._recursive_topology"; f_line := 2325;
 f_params := ["parent_pump"; "sub_net"; "kwargs"];
 f_body := block [Choice Return Skip; Loop false (block [Choice Continue Skip; Choice (Choice Continue Skip)
 Skip; Choice Skip (Choice Skip (Choice (Choice Return Skip) (Choice (Choice Return Skip) Skip)));
 Choice (block [Choice Raise Skip; Choice Raise Skip]) Skip; Choice Continue Skip; Choice Continue
 Skip; Choice Raise Skip]) Skip] |}.

(* multisim/simenv.py, line 2565: SimEnv._calc_UAwll_port *)
Definition f_simenv__SimEnv__calc_UAwll_port : func := {|
 f_file := "simenv.py"; f_name := "SimEnv._calc_UAwll_port"; f_line := 2565;
 f_params := [];
 f_body := Skip |}.

(* multisim/simenv.py, line 2620: SimEnv._update_FlowNet *)
Definition f_simenv__SimEnv__update_FlowNet : func := {|
 f_file := "simenv.py"; f_name := "SimEnv._update_FlowNet"; f_line := 2620;
 f_params := [];
 f_body := Loop false (Choice Skip (Choice (Loop false (Choice Continue Skip) Skip) Skip)) Skip |}.

(* multisim/simenv.py, line 2710: SimEnv._update_control *)
Definition f_simenv__SimEnv__update_control : func := {|
 f_file := "simenv.py"; f_name := "SimEnv._update_control"; f_line := 2710;
 f_params := ["timestep"];
 f_body := Skip |}.

(* multisim/simenv.py, line 2717: SimEnv._update_dyn_BC *)
Definition f_simenv__SimEnv__update_dyn_BC : func := {|
 f_file := "simenv.py"; f_name := "SimEnv._update_dyn_BC"; f_line := 2717;
 f_params := ["time"; "timestep"];
 f_body := Skip |}.

(* multisim/simenv.py, line 2766: SimEnv._get_conn_port *)
Definition f_simenv__SimEnv__get_conn_port : func := {|
 f_file := "simenv.py"; f_name := "SimEnv._get_conn_port"; f_line := 2766;
 f_params := ["own_port"; "as_id"];
 f_body := block [Choice (Loop false (Choice (block [Bind 1 [] true; Break]) Skip) Skip) Skip; Return] |}.

(* multisim/simenv.py, line 2890: SimEnv._get_arr_idx *)
Definition f_simenv__SimEnv__get_arr_idx : func := {|
 f_file := "simenv.py"; f_name := "SimEnv._get_arr_idx"; f_line := 2890;
 f_params := ["part"; "port"; "target"; "as_slice"; "flat_index"; "cls"];
 f_body := block [Choice Skip Raise; Choice Skip Raise; Choice (Try Eval Skip Skip) Skip; Choice (Bind 6 []
 true) (Choice Skip Raise); Choice Raise (Choice Raise Skip); Choice Skip Raise; Choice (Choice
 (Choice (Bind 7 [] true) (block [Bind 8 [6] false; Choice (Bind 7 [8] false) (Bind 7 [] true)]))
 (block [Bind 8 [6] false; Choice (Bind 7 [8] false) (Bind 7 [] true)])) (Choice (Choice (Choice
 (Choice (Bind 7 [] true) (block [Loop false (Bind 9 [6] false) Skip; Bind 7 [] true])) (Choice
 (Choice (block [Bind 8 [] true; Choice (Bind 7 [8] false) (Bind 7 [] true)]) Raise) (block [Bind 8
 [6] false; Choice (Bind 7 [8] false) (Bind 7 [] true)]))) (Choice (Bind 7 [] true) (Choice (block
 [Bind 8 [6] false; Choice (Bind 7 [8] false) (Bind 7 [] true)]) (block [Loop false (Bind 9 [6]
 false) Skip; Bind 7 [] true])))) (Choice (Choice (block [Choice (Bind 8 [] true) (Bind 8 [6] false);
 Choice (Bind 7 [8] false) (Bind 7 [] true)]) (Choice (Bind 7 [] true) (block [Bind 8 [6] false;
 Choice (Bind 7 [8] false) (Bind 7 [] true)]))) Skip)); Return] |}.

(* multisim/simenv.py, line 3378: SimEnv._massflow_idx_from_temp_idx *)
Definition f_simenv__SimEnv__massflow_idx_from_temp_idx : func := {|
 f_file := "simenv.py"; f_name := "SimEnv._massflow_idx_from_temp_idx"; f_line := 3378;
 f_params := ["part"; "index"];
 f_body := block [Bind 3 [1] false; Bind 4 [2] false; Frame (block [Bind 5 [3] false; Frame (Choice Skip
 Raise); Choice Skip Raise; Choice Skip Raise; Choice (Choice Skip Raise) (Choice (Choice Skip Raise)
 (Choice (Choice Skip Raise) Skip))]); Return] |}.

(* multisim/simenv.py, line 3394: SimEnv._get_specs_n_props *)
Definition f_simenv__SimEnv__get_specs_n_props : func := {|
 f_file := "simenv.py"; f_name := "SimEnv._get_specs_n_props"; f_line := 3394;
 f_params := ["material"; "pipe_specs"; "material_only"; "pipe_specs_only"; "kwargs"];
 f_body := block [Choice Skip Raise; Choice (block [Choice (Choice Skip Raise) Skip; Choice Skip Raise]) Skip;
 Choice (block [Choice (block [Choice Skip Raise; Bind 2 [5] false]) Skip; Choice Skip Raise; Loop
 false (block [Bind 6 [2] false; Choice Skip Raise]) Skip; Loop false (block [Bind 6 [2] false; Bind
 7 [2] false; Bind 8 [7] false; Choice (Bind 9 [7] false) (Bind 9 [] true); Choice Skip Raise; Choice
 (Choice Skip Raise) Skip; Choice Skip (block [Bind 10 [6] false; Frame (block [Choice Skip Raise;
 Choice Skip Raise; Choice (Try Eval Skip Skip) Skip; Choice Skip (Choice Skip Raise); Choice Raise
 (Choice Raise Skip); Choice Skip Raise; Choice Skip (Choice (Choice (Choice Skip (Choice (Choice
 Skip Raise) Skip)) Skip) Skip); Return])])]) Skip; Choice (Choice Skip Raise) Skip]) Skip] |}.

(* multisim/simenv.py, line 3676: SimEnv._get_topo_cond *)
Definition f_simenv__SimEnv__get_topo_cond : func := {|
 f_file := "simenv.py"; f_name := "SimEnv._get_topo_cond"; f_line := 3676;
 f_params := ["port"; "parent_port"];
 f_body := block [Choice (block [Bind 3 [1] false; Frame (block [Choice Skip Raise; Choice Skip Raise; Choice
 (Try Eval Skip Skip) Skip; Choice Skip (Choice Skip Raise); Choice Raise (Choice Raise Skip); Choice
 Skip Raise; Choice Skip (Choice (Choice (Choice Skip (Choice (Choice Skip Raise) Skip)) Skip) Skip);
 Return])]) (Choice (block [Bind 4 [1] false; Frame (block [Choice Skip Raise; Choice Skip Raise;
 Choice (Try Eval Skip Skip) Skip; Choice Skip (Choice Skip Raise); Choice Raise (Choice Raise Skip);
 Choice Skip Raise; Choice Skip (Choice (Choice (Choice Skip (Choice (Choice Skip Raise) Skip)) Skip)
 Skip); Return])]) Skip); Choice (block [Choice (Frame (block [Choice Skip Raise; Choice Skip Raise;
 Choice (Try Eval Skip Skip) Skip; Choice Skip (Choice Skip Raise); Choice Raise (Choice Raise Skip);
 Choice Skip Raise; Choice Skip (Choice (Choice (Choice Skip (Choice (Choice Skip Raise) Skip)) Skip)
 Skip); Return])) (Choice (Frame (block [Choice Skip Raise; Choice Skip Raise; Choice (Try Eval Skip
 Skip) Skip; Choice Skip (Choice Skip Raise); Choice Raise (Choice Raise Skip); Choice Skip Raise;
 Choice Skip (Choice (Choice (Choice Skip (Choice (Choice Skip Raise) Skip)) Skip) Skip); Return]))
 Skip); Return]) Return] |}.

(* multisim/simenv.py, line 3827: SimEnv._angle_to_x_axis *)
Definition f_simenv__SimEnv__angle_to_x_axis : func := {|
 f_file := "simenv.py"; f_name := "SimEnv._angle_to_x_axis"; f_line := 3827;
 f_params := ["vector"];
 f_body := Return |}.

(* multisim/simenv.py, line 3845: SimEnv._rotate_vector *)
Definition f_simenv__SimEnv__rotate_vector : func := {|
 f_file := "simenv.py"; f_name := "SimEnv._rotate_vector"; f_line := 3845;
 f_params := ["vector"; "angle"];
 f_body := Return |}.

(* multisim/simenv.py, line 3862: SimEnv._heun *)
Definition f_simenv__SimEnv__heun : func := {|
 f_file := "simenv.py"; f_name := "SimEnv._heun"; f_line := 3862;
 f_params := ["solve_num_expl"; "solve_nonnum"; "timestep"];
 f_body := block [Loop false (Bind 4 [1] false) Skip; Loop false (Bind 4 [2] false) Skip; Loop false (Bind 4
 [1] false) Skip; Loop false (Bind 4 [2] false) Skip] |}.

(* multisim/simenv.py, line 3920: SimEnv._heun_adaptive *)
Definition f_simenv__SimEnv__heun_adaptive : func := {|
 f_file := "simenv.py"; f_name := "SimEnv._heun_adaptive"; f_line := 3920;
 f_params := ["solve_num_expl"; "solve_num_impl"; "solve_nonnum"; "old_step"];
 f_body := Loop false (block [Loop false (block [Bind 5 [1] false; Choice Break Skip]) Skip; Choice (block
 [Loop false (Bind 5 [2] false) Skip; Loop false (Bind 5 [3] false) Skip; Loop false (block [Bind 5
 [1] false; Frame Return]) Skip; Loop false (Bind 5 [2] false) Skip; Loop false (Bind 5 [3] false)
 Skip]) (Choice Raise Skip)]) Skip |}.

(* multisim/simenv.py, line 4264: SimEnv.__adaptive_step_control *)
Definition f_simenv__SimEnv___adaptive_step_control : func := {|
 f_file := "simenv.py"; f_name := "SimEnv.__adaptive_step_control"; f_line := 4264;
 f_params := ["_h"; "err"; "num_cells_tot_nmrc_expl"; "_solver_state"; "stepnum"; "_max_factor"; "__min_factor"; "_steps_since_fail"; "_fctr_rec_stps"; "_failed_steps"; "__safety"; "__order"; "__max_stepsize"; "__min_stepsize"; "ports_all"; "__parr_bkp"];
 f_body := block [Choice (block [Bind 17 [1] false; Bind 1 [] true; Choice (block [Bind 1 [13] false; Write 4])
 (Write 4)]) (Choice (block [Bind 17 [1] false; Bind 1 [] true; Write 4; Choice (Bind 1 [13] false)
 Skip]) (Choice (block [Bind 17 [1] false; Write 4]) (block [Bind 1 [] true; Choice (Bind 1 [14]
 false) Skip; Write 15; Write 10]))); Return] |}.

(* multisim/simenv.py, line 4374: SimEnv._call_postponed *)
Definition f_simenv__SimEnv__call_postponed : func := {|
 f_file := "simenv.py"; f_name := "SimEnv._call_postponed"; f_line := 4374;
 f_params := [];
 f_body := Try (block [Eval; Loop false Eval Skip; Eval; Loop false (block [Eval; Try Eval (block [Eval;
 Raise]) Skip]) Skip]) Raise Skip |}.

(* multisim/simenv.py, line 4432: SimEnv._create_port_updater *)
Definition f_simenv__SimEnv__create_port_updater : func := {|
 f_file := "simenv.py"; f_name := "SimEnv._create_port_updater"; f_line := 4432;
 f_params := [];
 f_body := Skip |}.

(* multisim/simenv.py, line 4477: SimEnv._collapse_port_arrays *)
Definition f_simenv__SimEnv__collapse_port_arrays : func := {|
 f_file := "simenv.py"; f_name := "SimEnv._collapse_port_arrays"; f_line := 4477;
 f_params := [];
 f_body := Skip |}.

(* multisim/simenv.py, line 4522: SimEnv._create_dataclasses *)
Definition f_simenv__SimEnv__create_dataclasses : func := {|
 f_file := "simenv.py"; f_name := "SimEnv._create_dataclasses"; f_line := 4522;
 f_params := [];
 f_body := Skip |}.

(* multisim/simenv.py, line 4546: SimEnv._build_simenv *)
Definition f_simenv__SimEnv__build_simenv : func := {|
 f_file := "simenv.py"; f_name := "SimEnv._build_simenv"; f_line := 4546;
 f_params := [];
 f_body := block [Loop false (Choice Raise Skip) Skip; Loop false (Choice (Choice Raise Skip) Skip) Skip; Loop
 false (Choice Raise Skip) Skip; Choice Skip Raise; Choice Skip Raise; Choice Skip Raise] |}.

(* multisim/simenv.py, line 4621: SimEnv._initialize_arrays *)
Definition f_simenv__SimEnv__initialize_arrays : func := {|
 f_file := "simenv.py"; f_name := "SimEnv._initialize_arrays"; f_line := 4621;
 f_params := ["max_steps_b4_save_to_disk"];
 f_body := Skip |}.

(* multisim/simenv.py, line 4740: SimEnv._create_diff_inputs *)
Definition f_simenv__SimEnv__create_diff_inputs : func := {|
 f_file := "simenv.py"; f_name := "SimEnv._create_diff_inputs"; f_line := 4740;
 f_params := [];
 f_body := Skip |}.

(* multisim/simenv.py, line 4774: SimEnv._prep_inputs_for_njits *)
Definition f_simenv__SimEnv__prep_inputs_for_njits : func := {|
 f_file := "simenv.py"; f_name := "SimEnv._prep_inputs_for_njits"; f_line := 4774;
 f_params := [];
 f_body := Skip |}.

(* multisim/simenv.py, line 4782: SimEnv._reset_simenv *)
Definition f_simenv__SimEnv__reset_simenv : func := {|
 f_file := "simenv.py"; f_name := "SimEnv._reset_simenv"; f_line := 4782;
 f_params := [];
 f_body := Skip |}.

(* multisim/simenv.py, line 4804: SimEnv.initialize_sim *)
Definition f_simenv__SimEnv_initialize_sim : func := {|
 f_file := "simenv.py"; f_name := "SimEnv.initialize_sim"; f_line := 4804;
 f_params := ["build_simenv"; "reset_simenv"];
 f_body := Skip |}.

(* multisim/simenv.py, line 4847: SimEnv._check_memory_address *)
Definition f_simenv__SimEnv__check_memory_address : func := {|
 f_file := "simenv.py"; f_name := "SimEnv._check_memory_address"; f_line := 4847;
 f_params := [];
 f_body := Skip |}.

(* multisim/simenv.py, line 4876: SimEnv._finalize_sim *)
Definition f_simenv__SimEnv__finalize_sim : func := {|
 f_file := "simenv.py"; f_name := "SimEnv._finalize_sim"; f_line := 4876;
 f_params := [];
 f_body := Skip |}.

(* multisim/simenv.py, line 5032: SimEnv.start_sim *)
Definition f_simenv__SimEnv_start_sim : func := {|
 f_file := "simenv.py"; f_name := "SimEnv.start_sim"; f_line := 5032;
 f_params := [];
 f_body := block [Choice Raise Skip; Choice Raise Skip; Loop false (Choice (Loop false (Choice Break Skip)
 Skip) Skip) Skip] |}.

(* multisim/simenv.py, line 5135: SimEnv.__deprecated_free_memory *)
Definition f_simenv__SimEnv___deprecated_free_memory : func := {|
 f_file := "simenv.py"; f_name := "SimEnv.__deprecated_free_memory"; f_line := 5135;
 f_params := ["array_length"];
 f_body := Skip |}.

(* multisim/simenv.py, line 5278: SimEnv._free_memory *)
Definition f_simenv__SimEnv__free_memory : func := {|
 f_file := "simenv.py"; f_name := "SimEnv._free_memory"; f_line := 5278;
 f_params := ["array_length"];
 f_body := Skip |}.

(* multisim/simenv.py, line 5424: SimEnv._compress_store *)
Definition f_simenv__SimEnv__compress_store : func := {|
 f_file := "simenv.py"; f_name := "SimEnv._compress_store"; f_line := 5424;
 f_params := [];
 f_body := Choice (Loop false (Choice Continue Skip) Skip) Skip |}.

(* multisim/simenv.py, line 5532: SimEnv._write_report *)
Definition f_simenv__SimEnv__write_report : func := {|
 f_file := "simenv.py"; f_name := "SimEnv._write_report"; f_line := 5532;
 f_params := [];
 f_body := Skip |}.

(* multisim/simenv.py, line 5619: SimEnv.return_stored_data *)
Definition f_simenv__SimEnv_return_stored_data : func := {|
 f_file := "simenv.py"; f_name := "SimEnv.return_stored_data"; f_line := 5619;
 f_params := [];
 f_body := Choice (block [Loop false (Try (block [Eval; Choice Eval Skip]) Continue Skip) Skip; Loop false
 (Choice Continue Skip) Skip; Return]) Raise |}.

(* multisim/simenv.py, line 5668: SimEnv._crop_results *)
Definition f_simenv__SimEnv__crop_results : func := {|
 f_file := "simenv.py"; f_name := "SimEnv._crop_results"; f_line := 5668;
 f_params := [];
 f_body := Skip |}.

(* multisim/simenv.py, line 5689: SimEnv._check_isadded *)
Definition f_simenv__SimEnv__check_isadded : func := {|
 f_file := "simenv.py"; f_name := "SimEnv._check_isadded"; f_line := 5689;
 f_params := ["part"; "kind"];
 f_body := block [Choice Skip Raise; Choice (Choice Skip Raise) Skip; Choice (Choice Skip Raise) (Choice
 (Choice Skip Raise) Skip)] |}.

(* multisim/simenv.py, line 5720: SimEnv._check_ispart *)
Definition f_simenv__SimEnv__check_ispart : func := {|
 f_file := "simenv.py"; f_name := "SimEnv._check_ispart"; f_line := 5720;
 f_params := ["part"];
 f_body := Choice Skip Raise |}.

(* multisim/simenv.py, line 5742: SimEnv._check_isport *)
Definition f_simenv__SimEnv__check_isport : func := {|
 f_file := "simenv.py"; f_name := "SimEnv._check_isport"; f_line := 5742;
 f_params := ["part"; "port"];
 f_body := block [Bind 3 [1] false; Frame (Choice Skip Raise); Choice Skip Raise] |}.

(* multisim/simenv.py, line 5765: SimEnv._check_isinrange *)
Definition f_simenv__SimEnv__check_isinrange : func := {|
 f_file := "simenv.py"; f_name := "SimEnv._check_isinrange"; f_line := 5765;
 f_params := ["part"; "index"; "target_array"];
 f_body := block [Bind 4 [1] false; Frame (Choice Skip Raise); Choice Skip Raise; Choice Skip Raise; Choice
 (Choice Skip Raise) (Choice (Choice Skip Raise) (Choice (Choice Skip Raise) Skip))] |}.

(* multisim/utility_functions.py, line 46: load_sim_results *)
Definition f_utility_functions__load_sim_results : func := {|
 f_file := "utility_functions.py"; f_name := "load_sim_results"; f_line := 46;
 f_params := ["filename"; "path"; "keys"; "multiindex"];
 f_body := block [Choice (Bind 2 [] true) Skip; Choice (block [Bind 3 [3] true; Bind 3 [3] true; Bind 5 []
 true; Loop false (block [Bind 6 [3] false; Write 5]) Skip]) (Bind 5 [3] false); Loop false (Choice
 (Loop false (Bind 6 [] true) Skip) Skip) Skip; Choice Raise Skip; Choice Return Skip; Return] |}.

(* multisim/utility_functions.py, line 104: load_results_by_name *)
Definition f_utility_functions__load_results_by_name : func := {|
 f_file := "utility_functions.py"; f_name := "load_results_by_name"; f_line := 104;
 f_params := ["set_identifier"; "set_numbers"; "set_name"; "keys"; "result_file_ending"; "sub_dir"; "base_path"];
 f_body := block [Choice Skip Raise; Choice (Bind 2 [] true) Skip; Choice Skip Raise; Choice Skip Raise; Choice
 (Choice Skip Raise) Skip; Loop false (block [Bind 8 [4] false; Frame (block [Choice (block [Bind 8
 [8] true; Bind 8 [8] true; Bind 9 [] true; Loop false (block [Bind 10 [8] false; Write 9]) Skip])
 (Bind 9 [8] false); Loop false (Choice (Loop false (Bind 10 [] true) Skip) Skip) Skip; Choice Raise
 Skip; Return])]) Skip; Return] |}.

(* multisim/utility_functions.py, line 152: load_failed_results *)
Definition f_utility_functions__load_failed_results : func := {|
 f_file := "utility_functions.py"; f_name := "load_failed_results"; f_line := 152;
 f_params := ["file"; "base_pth"; "results_folder"];
 f_body := block [Bind 2 [2] true; Return] |}.

(* multisim/utility_functions.py, line 167: package_results *)
Definition f_utility_functions__package_results : func := {|
 f_file := "utility_functions.py"; f_name := "package_results"; f_line := 167;
 f_params := ["name_feature"; "path"; "move_to"; "ndate_chars"];
 f_body := block [Bind 2 [2] true; Bind 3 [3] true; Loop false (block [Choice Continue Skip; Choice Continue
 Skip; Choice Skip Continue; Try Eval Skip Skip]) Skip; Return] |}.

(* multisim/utility_functions.py, line 288: add_line_to_log *)
Definition f_utility_functions__add_line_to_log : func := {|
 f_file := "utility_functions.py"; f_name := "add_line_to_log"; f_line := 288;
 f_params := ["line"; "filename"; "path"];
 f_body := Skip |}.

(* multisim/utility_functions.py, line 293: make_boundarycond_timeseries *)
Definition f_utility_functions__make_boundarycond_timeseries : func := {|
 f_file := "utility_functions.py"; f_name := "make_boundarycond_timeseries"; f_line := 293;
 f_params := ["bc_array"; "bc_freq"; "ts_start"; "ts_duration"; "ts_freq"; "bc_too_short"; "downsample_method"; "upsample_method"];
 f_body := block [Choice Skip Raise; Choice Skip Raise; Choice Skip Raise; Choice Skip Raise; Choice Skip
 Raise; Choice Skip Raise; Choice Skip Raise; Choice Skip Raise; Bind 9 [1] true; Choice (Choice
 (Bind 9 [9] false) (Choice (Choice Raise (block [Loop false (Bind 1 [] true) Skip; Bind 9 [1] true;
 Bind 9 [9] false])) Skip)) Skip; Return] |}.

(* multisim/utility_functions.py, line 415: process_unevenly_spaced_timeseries *)
Definition f_utility_functions__process_unevenly_spaced_timeseries : func := {|
 f_file := "utility_functions.py"; f_name := "process_unevenly_spaced_timeseries"; f_line := 415;
 f_params := ["data"; "freq"; "how"];
 f_body := block [Choice Skip Raise; Choice Skip Raise; Choice Skip Raise; Choice Return (Choice Return (Choice
 Return Skip))] |}.

(* multisim/utility_functions.py, line 451: interp_pipe_specs *)
Definition f_utility_functions__interp_pipe_specs : func := {|
 f_file := "utility_functions.py"; f_name := "interp_pipe_specs"; f_line := 451;
 f_params := ["A_i"; "pipe_type"; "base_pth"];
 f_body := block [Choice (Bind 1 [] true) (Choice Raise Skip); Loop false (block [Bind 4 [1] false; Choice
 Continue Skip]) Skip; Choice Skip Raise; Return] |}.

(* multisim/utility_functions.py, line 497: adjust_pipes *)
Definition f_utility_functions__adjust_pipes : func := {|
 f_file := "utility_functions.py"; f_name := "adjust_pipes"; f_line := 497;
 f_params := ["pspecs"; "base_path"];
 f_body := block [Choice Skip Raise; Loop false (block [Bind 3 [1] false; Choice Skip Raise; Choice Skip Raise;
 Choice Skip Raise; Choice Skip Raise]) Skip; Bind 4 [2] false; Frame (block [Choice Skip (Choice
 Raise Skip); Loop false (Choice Continue Skip) Skip; Choice Skip Raise; Return]); Loop false (block
 [Bind 3 [] true; Write 3]) Skip; Return] |}.

(* multisim/utility_functions.py, line 541: database_import *)
Definition f_utility_functions__database_import : func := {|
 f_file := "utility_functions.py"; f_name := "database_import"; f_line := 541;
 f_params := ["standard_db"; "path"; "which"];
 f_body := block [Choice (block [Try Eval Skip Skip; Choice Skip (Loop false (Bind 4 [3] false) Skip)]) (Choice
 Skip (Loop false (Bind 4 [3] false) Skip)); Return] |}.

(* multisim/utility_functions.py, line 589: update_databases *)
Definition f_utility_functions__update_databases : func := {|
 f_file := "utility_functions.py"; f_name := "update_databases"; f_line := 589;
 f_params := ["path"; "transpose"];
 f_body := Choice (Try Eval Skip Skip) Skip |}.

(* multisim/utility_functions.py, line 637: override *)
Definition f_utility_functions__override : func := {|
 f_file := "utility_functions.py"; f_name := "override"; f_line := 637;
 f_params := ["toolbox"; "submodule"; "function_name"];
 f_body := block [Choice Skip Raise; Choice Skip Raise; Choice Skip Raise; Return] |}.

(* multisim/utility_functions.py, line 677: r_squared *)
Definition f_utility_functions__r_squared : func := {|
 f_file := "utility_functions.py"; f_name := "r_squared"; f_line := 677;
 f_params := ["y"; "y_hat"];
 f_body := block [Choice Skip Raise; Choice (Bind 1 [1] false) (Choice (Bind 2 [2] false) (Choice Raise Skip));
 Return] |}.

(* multisim/utility_functions.py, line 713: r_squared_adj *)
Definition f_utility_functions__r_squared_adj : func := {|
 f_file := "utility_functions.py"; f_name := "r_squared_adj"; f_line := 713;
 f_params := ["p"; "r_sqrd"; "n"; "y"; "y_hat"];
 f_body := block [Choice (Choice Skip Raise) (block [Choice Skip Raise; Bind 2 [] true; Bind 3 [5] false]);
 Return] |}.

(* multisim/utility_functions.py, line 767: mean_abs_err *)
Definition f_utility_functions__mean_abs_err : func := {|
 f_file := "utility_functions.py"; f_name := "mean_abs_err"; f_line := 767;
 f_params := ["y"; "y_hat"; "roll"; "window"; "min_periods"];
 f_body := block [Choice (Bind 1 [1] false) (Choice (Bind 2 [2] false) (Choice Raise Skip)); Return] |}.

(* multisim/utility_functions.py, line 787: mean_signed_deviation *)
Definition f_utility_functions__mean_signed_deviation : func := {|
 f_file := "utility_functions.py"; f_name := "mean_signed_deviation"; f_line := 787;
 f_params := ["y"; "y_hat"; "roll"; "window"; "min_periods"];
 f_body := block [Choice (Bind 1 [1] false) (Choice (Bind 2 [2] false) (Choice Raise Skip)); Return] |}.

(* multisim/utility_functions.py, line 808: mean_squared_err *)
Definition f_utility_functions__mean_squared_err : func := {|
 f_file := "utility_functions.py"; f_name := "mean_squared_err"; f_line := 808;
 f_params := ["y"; "y_hat"; "roll"; "window"; "min_periods"];
 f_body := block [Choice (Bind 1 [1] false) (Choice (Bind 2 [2] false) (Choice Raise Skip)); Return] |}.

(* multisim/utility_functions.py, line 827: rmse *)
Definition f_utility_functions__rmse : func := {|
 f_file := "utility_functions.py"; f_name := "rmse"; f_line := 827;
 f_params := ["y"; "y_hat"; "roll"; "window"; "min_periods"];
 f_body := Return |}.

(* multisim/utility_functions.py, line 836: cv_rmse *)
Definition f_utility_functions__cv_rmse : func := {|
 f_file := "utility_functions.py"; f_name := "cv_rmse"; f_line := 836;
 f_params := ["y"; "y_hat"; "roll"; "window"; "min_periods"];
 f_body := Return |}.

(* multisim/utility_functions.py, line 843: normalized_err *)
Definition f_utility_functions__normalized_err : func := {|
 f_file := "utility_functions.py"; f_name := "normalized_err"; f_line := 843;
 f_params := ["y"; "y_hat"; "err_method"; "norm"];
 f_body := block [Choice Skip Raise; Choice Skip Raise; Choice Return (Choice Return (Choice Return (Choice
 Return Skip)))] |}.

(* multisim/utility_functions.py, line 867: remove_outliers_std *)
Definition f_utility_functions__remove_outliers_std : func := {|
 f_file := "utility_functions.py"; f_name := "remove_outliers_std"; f_line := 867;
 f_params := ["data"; "stdevs"; "fill_value"];
 f_body := block [Choice Skip Raise; Choice Skip Raise; Choice Skip Raise; Choice (block [Write 1; Return])
 (Choice (block [Write 1; Return]) (Choice Return (block [Write 1; Return])))] |}.

(* multisim/utility_functions.py, line 909: remove_outliers_roll *)
Definition f_utility_functions__remove_outliers_roll : func := {|
 f_file := "utility_functions.py"; f_name := "remove_outliers_roll"; f_line := 909;
 f_params := ["data"; "window"; "stdevs"; "fill_value"];
 f_body := block [Bind 1 [] true; Choice Skip Raise; Choice Skip Raise; Choice Skip Raise; Choice Skip Raise;
 Choice (block [Write 1; Try (block [Eval; Return]) (block [Bind 5 [1] false; Write 1; Bind 1 []
 true; Write 1; Return]) Skip]) (Choice (block [Write 1; Return]) (Choice Return (block [Write 1;
 Return])))] |}.

(* multisim/utility_functions.py, line 979: rolling_median *)
Definition f_utility_functions__rolling_median : func := {|
 f_file := "utility_functions.py"; f_name := "rolling_median"; f_line := 979;
 f_params := ["data"; "window"];
 f_body := Return |}.

(* multisim/utility_functions.py, line 983: rolling_centered *)
Definition f_utility_functions__rolling_centered : func := {|
 f_file := "utility_functions.py"; f_name := "rolling_centered"; f_line := 983;
 f_params := ["df"; "window"; "min_periods"; "method"; "win_type"; "on"; "axis"; "closed"];
 f_body := block [Bind 1 [] true; Choice Skip Raise; Choice (Write 1) Skip; Choice Skip Raise; Choice Skip
 Raise; Choice Skip Raise; Bind 3 [] true; Choice (block [Bind 9 [1] false; Write 1; Bind 2 [] true;
 Choice (block [Bind 1 [] true; Write 1]) (Choice (block [Bind 1 [] true; Write 1]) (Choice (block
 [Bind 1 [] true; Write 1]) (Choice (block [Bind 1 [] true; Write 1]) (Choice (block [Bind 1 [] true;
 Write 1]) Skip)))); Return]) (Choice Return (Choice Return (Choice Return (Choice Return (Choice
 Return Skip)))))] |}.

(* multisim/utility_functions.py, line 1197: rolling_right_aligned *)
Definition f_utility_functions__rolling_right_aligned : func := {|
 f_file := "utility_functions.py"; f_name := "rolling_right_aligned"; f_line := 1197;
 f_params := ["df"; "window"; "min_periods"];
 f_body := block [Bind 1 [] true; Return] |}.

(* multisim/utility_functions.py, line 1205: remove_outliers_mad *)
Definition f_utility_functions__remove_outliers_mad : func := {|
 f_file := "utility_functions.py"; f_name := "remove_outliers_mad"; f_line := 1205;
 f_params := ["data"; "threshold"; "fill_value"; "rolling"; "window"; "dist_const"];
 f_body := block [Choice (Bind 1 [1] true) (Bind 1 [] true); Choice Skip Raise; Write 1; Choice Return (Choice
 Return (Choice Return (block [Write 1; Return])))] |}.

(* multisim/utility_functions.py, line 1271: NetPlotter.__init__ *)
Definition f_utility_functions__NetPlotter___init__ : func := {|
 f_file := "utility_functions.py"; f_name := "NetPlotter.__init__"; f_line := 1271;
 f_params := [];
 f_body := Skip |}.

(* multisim/utility_functions.py, line 1285: NetPlotter.set_plot_shape *)
Definition f_utility_functions__NetPlotter_set_plot_shape : func := {|
 f_file := "utility_functions.py"; f_name := "NetPlotter.set_plot_shape"; f_line := 1285;
 f_params := ["part"; "start_pos"; "vertex_coords"; "linewidth"; "orientation"; "invert"];
 f_body := block [Choice (block [Choice Skip Raise; Choice Skip Raise; Choice Skip Raise]) (Choice (block
 [Choice Skip Raise; Loop false (Choice Break Skip) Skip; Choice Skip Raise; Bind 2 [] true]) (Choice
 (block [Bind 7 [1] false; Frame (block [Choice Skip Raise; Choice Skip Raise; Choice Skip Raise;
 Choice (block [Choice Skip Raise; Return]) (Choice (block [Choice Skip Raise; Return]) (Choice
 (block [Choice Skip Raise; Choice Skip Raise; Choice Return Raise]) Skip))]); Bind 2 [] true])
 Skip)); Choice (block [Choice Skip Raise; Choice Skip Raise]) Skip; Choice (Choice Skip Raise) Skip;
 Choice (Choice Skip Raise) Skip; Choice Skip Raise; Choice Skip Raise; Choice Skip Raise; Loop false
 (block [Bind 8 [3] false; Bind 9 [3] false; Choice Skip Raise; Bind 10 [8] false]) Skip; Loop false
 (block [Choice (Bind 11 [2] false) (Bind 11 [] true); Choice (block [Bind 12 [3] false; Bind 13 [11]
 false; Bind 14 [1] false; Frame (block [Choice Skip Raise; Choice Skip Raise; Choice Skip Raise;
 Choice (block [Choice Skip Raise; Bind 15 [12] false; Bind 16 [] true; Return]) (Choice (block
 [Choice Skip Raise; Bind 16 [12] true; Bind 15 [] true; Return]) (Choice (block [Choice Skip Raise;
 Choice Skip Raise; Choice (block [Bind 15 [] true; Bind 16 [] true; Return]) Raise]) Skip))])])
 (block [Bind 17 [3] false; Bind 18 [11] false; Bind 19 [1] false; Frame (block [Choice Skip Raise;
 Choice Skip Raise; Choice Skip Raise; Choice (block [Choice Skip Raise; Bind 20 [17] false; Bind 21
 [] true; Return]) (Choice (block [Choice Skip Raise; Bind 21 [17] true; Bind 20 [] true; Return])
 (Choice (block [Choice Skip Raise; Choice Skip Raise; Choice (block [Bind 20 [] true; Bind 21 []
 true; Return]) Raise]) Skip))])])]) Skip; Loop false (Choice Raise Skip) Skip; Choice Skip Raise] |}.

(* multisim/utility_functions.py, line 1644: NetPlotter._get_drctn *)
Definition f_utility_functions__NetPlotter__get_drctn : func := {|
 f_file := "utility_functions.py"; f_name := "NetPlotter._get_drctn"; f_line := 1644;
 f_params := ["coords"; "start_coords"; "part"];
 f_body := block [Choice Skip Raise; Choice Skip Raise; Choice Skip Raise; Choice (block [Choice Skip Raise;
 Bind 4 [1] false; Bind 5 [] true; Return]) (Choice (block [Choice Skip Raise; Bind 5 [1] true; Bind
 4 [] true; Return]) (Choice (block [Choice Skip Raise; Choice Skip Raise; Choice (block [Bind 4 []
 true; Bind 5 [] true; Return]) Raise]) Skip))] |}.

(* multisim/utility_functions.py, line 1779: NetPlotter.add_sensor *)
Definition f_utility_functions__NetPlotter_add_sensor : func := {|
 f_file := "utility_functions.py"; f_name := "NetPlotter.add_sensor"; f_line := 1779;
 f_params := ["part"; "cell"; "phys_quant"; "identifier"; "kwargs"];
 f_body := block [Choice Skip Raise; Choice Skip Raise; Choice Skip Raise; Choice (Bind 6 [5] false) (Bind 6 []
 true); Choice Skip (Choice Skip Raise); Frame Return; Frame Return; Frame Return; Frame Return;
 Frame Return] |}.

(* multisim/utility_functions.py, line 1914: NetPlotter._draw_sensor *)
Definition f_utility_functions__NetPlotter__draw_sensor : func := {|
 f_file := "utility_functions.py"; f_name := "NetPlotter._draw_sensor"; f_line := 1914;
 f_params := ["axis"; "step"; "animate"];
 f_body := block [Loop false (Try Eval (block [Bind 4 [3] true; Frame (block [Choice Skip Raise; Choice Skip
 Raise; Choice Skip Raise; Choice (Bind 5 [4] false) (Bind 5 [] true); Choice Skip (Choice Skip
 Raise); Frame Return; Frame Return; Frame Return; Frame Return; Frame Return])]) Skip) Skip; Choice
 Return Skip] |}.

(* multisim/utility_functions.py, line 1975: NetPlotter.plot_net *)
Definition f_utility_functions__NetPlotter_plot_net : func := {|
 f_file := "utility_functions.py"; f_name := "NetPlotter.plot_net"; f_line := 1975;
 f_params := ["timestep"; "clim"; "extend_area"; "kwargs"];
 f_body := block [Choice Skip Raise; Choice (block [Bind 5 [2] false; Bind 6 [2] false]) (block [Bind 5 []
 true; Bind 6 [] true]); Choice (block [Choice Skip Raise; Choice Skip Raise]) (Bind 3 [] true); Bind
 7 [1] false; Frame (Loop false (Try Eval (Frame (block [Choice Skip Raise; Choice Skip Raise; Choice
 Skip Raise; Choice Skip (Choice Skip Raise); Frame Return; Frame Return; Frame Return; Frame Return;
 Frame Return])) Skip) Skip)] |}.

(* multisim/utility_functions.py, line 2088: NetPlotter.animate *)
Definition f_utility_functions__NetPlotter_animate : func := {|
 f_file := "utility_functions.py"; f_name := "NetPlotter.animate"; f_line := 2088;
 f_params := ["t_start"; "t_stop"; "steps"; "clim"; "file"; "fps"; "dpi"; "extend_area"; "kwargs"];
 f_body := block [Choice Skip Raise; Choice (block [Bind 10 [4] false; Bind 11 [4] false]) (block [Bind 10 []
 true; Bind 11 [] true]); Choice (block [Choice Skip Raise; Choice Skip Raise]) (Bind 8 [] true);
 Frame (block [Loop false (Try Eval (Frame (block [Choice Skip Raise; Choice Skip Raise; Choice Skip
 Raise; Choice Skip (Choice Skip Raise); Frame Return; Frame Return; Frame Return; Frame Return;
 Frame Return])) Skip) Skip; Return]); Choice (Bind 5 [] true) Skip] |}.

(* multisim/utility_functions.py, line 2341: NetPlotter.plot_errors *)
Definition f_utility_functions__NetPlotter_plot_errors : func := {|
 f_file := "utility_functions.py"; f_name := "NetPlotter.plot_errors"; f_line := 2341;
 f_params := ["simenv"; "rms_error"; "stability_violations"];
 f_body := block [Choice (block [Write 1; Loop false (block [Bind 4 [1] false; Choice (Write 1) Skip]) Skip])
 Skip; Choice (block [Write 1; Loop false (block [Bind 4 [1] false; Choice (Write 1) Skip]) Skip])
 Skip; Return] |}.

(* multisim/utility_functions.py, line 2444: Meters.__init__ *)
Definition f_utility_functions__Meters___init__ : func := {|
 f_file := "utility_functions.py"; f_name := "Meters.__init__"; f_line := 2444;
 f_params := ["simenv"; "start_time"];
 f_body := Skip |}.

(* multisim/utility_functions.py, line 2505: Meters.heat_meter *)
Definition f_utility_functions__Meters_heat_meter : func := {|
 f_file := "utility_functions.py"; f_name := "Meters.heat_meter"; f_line := 2505;
 f_params := ["name"; "warm_part"; "warm_cell"; "cold_part"; "cold_cell"; "massflow_from_hot_part"; "full_output"; "evenly_spaced"; "freq"; "how"];
 f_body := block [Choice Skip Raise; Choice Raise Skip; Frame Return; Choice (block [Bind 11 [1] false; Frame
 (Choice (Try Eval Skip Skip) Skip)]) Skip] |}.

(* multisim/utility_functions.py, line 2644: Meters.temperature *)
Definition f_utility_functions__Meters_temperature : func := {|
 f_file := "utility_functions.py"; f_name := "Meters.temperature"; f_line := 2644;
 f_params := ["name"; "part"; "cell"];
 f_body := block [Choice Skip Raise; Frame Return; Choice (block [Bind 4 [1] false; Frame (Choice (Try Eval
 Skip Skip) Skip)]) Skip] |}.

(* multisim/utility_functions.py, line 2687: Meters.massflow *)
Definition f_utility_functions__Meters_massflow : func := {|
 f_file := "utility_functions.py"; f_name := "Meters.massflow"; f_line := 2687;
 f_params := ["name"; "part"; "cell"];
 f_body := block [Choice Skip Raise; Frame Return; Choice (block [Bind 4 [1] false; Frame (Choice (Try Eval
 Skip Skip) Skip)]) Skip] |}.

(* multisim/utility_functions.py, line 2727: Meters.volumeflow *)
Definition f_utility_functions__Meters_volumeflow : func := {|
 f_file := "utility_functions.py"; f_name := "Meters.volumeflow"; f_line := 2727;
 f_params := ["name"; "part"; "cell"];
 f_body := block [Choice Skip Raise; Frame Return; Choice (block [Bind 4 [1] false; Frame (Choice (Try Eval
 Skip Skip) Skip)]) Skip] |}.

(* multisim/utility_functions.py, line 2769: Meters.get_sensors_df *)
Definition f_utility_functions__Meters_get_sensors_df : func := {|
 f_file := "utility_functions.py"; f_name := "Meters.get_sensors_df"; f_line := 2769;
 f_params := [];
 f_body := Return |}.

(* multisim/utility_functions.py, line 2772: Meters.get_sensors_dict *)
Definition f_utility_functions__Meters_get_sensors_dict : func := {|
 f_file := "utility_functions.py"; f_name := "Meters.get_sensors_dict"; f_line := 2772;
 f_params := [];
 f_body := Return |}.

(* multisim/utility_functions.py, line 2775: Meters._resample_meter *)
Definition f_utility_functions__Meters__resample_meter : func := {|
 f_file := "utility_functions.py"; f_name := "Meters._resample_meter"; f_line := 2775;
 f_params := ["df"];
 f_body := Return |}.

(* multisim/utility_functions.py, line 2782: Meters._save_to_disk *)
Definition f_utility_functions__Meters__save_to_disk : func := {|
 f_file := "utility_functions.py"; f_name := "Meters._save_to_disk"; f_line := 2782;
 f_params := ["name"; "meter"];
 f_body := Choice (Try Eval Skip Skip) Skip |}.

(* multisim/utility_functions.py, line 2798: Meters.pred_real_plot *)
Definition f_utility_functions__Meters_pred_real_plot : func := {|
 f_file := "utility_functions.py"; f_name := "Meters.pred_real_plot"; f_line := 2798;
 f_params := ["show_rmse"; "show_cvrmse"; "hexbin"; "exclude_zeros"; "resample_uneven"];
 f_body := Skip |}.

(* multisim/utility_functions.py, line 2817: is_evenly_spaced *)
Definition f_utility_functions__is_evenly_spaced : func := {|
 f_file := "utility_functions.py"; f_name := "is_evenly_spaced"; f_line := 2817;
 f_params := ["data"; "return_freq"];
 f_body := block [Choice Skip Raise; Return] |}.

(* multisim/utility_functions.py, line 2834: fit_time_series *)
Definition f_utility_functions__fit_time_series : func := {|
 f_file := "utility_functions.py"; f_name := "fit_time_series"; f_line := 2834;
 f_params := ["pred"; "rlz"; "resample_uneven"; "freq"; "how"; "return_df"];
 f_body := block [Choice Skip Raise; Choice (block [Choice Skip Raise; Bind 7 [1] false; Frame (block [Choice
 Skip Raise; Return]); Bind 8 [2] false; Frame (block [Choice Skip Raise; Return]); Choice (block
 [Choice Skip Raise; Choice (block [Choice Skip Raise; Bind 9 [1] false; Bind 10 [4] false; Bind 11
 [5] false; Frame (block [Choice Skip Raise; Choice Skip Raise; Choice Skip Raise; Choice Return
 (Choice Return (Choice Return Skip))]); Bind 1 [] true]) Skip; Choice (block [Choice Skip Raise;
 Bind 12 [2] false; Bind 13 [4] false; Bind 14 [5] false; Frame (block [Choice Skip Raise; Choice
 Skip Raise; Choice Skip Raise; Choice Return (Choice Return (Choice Return Skip))]); Bind 2 []
 true]) Skip]) Skip; Choice Skip Raise]) (Choice Skip Raise); Return] |}.

(* multisim/utility_functions.py, line 2925: ts_performance_indicators *)
Definition f_utility_functions__ts_performance_indicators : func := {|
 f_file := "utility_functions.py"; f_name := "ts_performance_indicators"; f_line := 2925;
 f_params := ["pred"; "rlz"; "exclude_zeros"; "exclude_values"; "exclude_range"; "resample_uneven"; "freq"; "how"];
 f_body := block [Bind 9 [1] false; Bind 10 [2] false; Bind 11 [6] false; Bind 12 [7] false; Bind 13 [8] false;
 Frame (block [Choice Skip Raise; Choice (block [Choice Skip Raise; Bind 14 [9] false; Frame (block
 [Choice Skip Raise; Return]); Bind 15 [10] false; Frame (block [Choice Skip Raise; Return]); Choice
 (block [Choice Skip Raise; Choice (block [Choice Skip Raise; Bind 16 [9] false; Bind 17 [12] false;
 Bind 18 [13] false; Frame (block [Choice Skip Raise; Choice Skip Raise; Choice Skip Raise; Choice
 Return (Choice Return (Choice Return Skip))]); Bind 9 [] true]) Skip; Choice (block [Choice Skip
 Raise; Bind 19 [10] false; Bind 20 [12] false; Bind 21 [13] false; Frame (block [Choice Skip Raise;
 Choice Skip Raise; Choice Skip Raise; Choice Return (Choice Return (Choice Return Skip))]); Bind 10
 [] true]) Skip]) Skip; Choice Skip Raise]) (Choice Skip Raise); Return]); Choice Skip Raise; Choice
 (block [Choice Skip Raise; Raise]) Skip; Choice (block [Choice Skip Raise; Raise]) Skip; Return] |}.

(* multisim/utility_functions.py, line 3030: plt_prediction_realization *)
Definition f_utility_functions__plt_prediction_realization : func := {|
 f_file := "utility_functions.py"; f_name := "plt_prediction_realization"; f_line := 3030;
 f_params := ["pred"; "rlz"; "ax"; "plot_type"; "plot_every"; "show_linregress"; "exclude_zeros"; "resample_uneven"; "freq"; "how"; "freq_perf"; "errors"; "aspect"; "scttr_kwds"; "kde_kwds"; "diag_kwds"; "err_kwds"; "err_loc"; "legend_kwds"; "auto_label"; "sprache"];
 f_body := block [Choice Skip Raise; Bind 22 [1] false; Bind 23 [2] false; Bind 24 [8] false; Bind 25 [9]
 false; Bind 26 [10] false; Frame (block [Choice Skip Raise; Choice (block [Choice Skip Raise; Bind
 27 [22] false; Frame (block [Choice Skip Raise; Return]); Bind 28 [23] false; Frame (block [Choice
 Skip Raise; Return]); Choice (block [Choice Skip Raise; Choice (block [Choice Skip Raise; Bind 29
 [22] false; Bind 30 [25] false; Bind 31 [26] false; Frame (block [Choice Skip Raise; Choice Skip
 Raise; Choice Skip Raise; Choice Return (Choice Return (Choice Return Skip))]); Bind 22 [] true])
 Skip; Choice (block [Choice Skip Raise; Bind 32 [23] false; Bind 33 [25] false; Bind 34 [26] false;
 Frame (block [Choice Skip Raise; Choice Skip Raise; Choice Skip Raise; Choice Return (Choice Return
 (Choice Return Skip))]); Bind 23 [] true]) Skip]) Skip; Choice Skip Raise]) (Choice Skip Raise);
 Return]); Bind 11 [9;11] false; Bind 35 [8] false; Bind 36 [11] false; Bind 37 [10] false; Frame
 (block [Bind 38 [35] false; Bind 39 [36] false; Bind 40 [37] false; Frame (block [Choice Skip Raise;
 Choice (block [Choice Skip Raise; Frame (block [Choice Skip Raise; Return]); Frame (block [Choice
 Skip Raise; Return]); Choice (block [Choice Skip Raise; Choice (block [Choice Skip Raise; Bind 41
 [39] false; Bind 42 [40] false; Frame (block [Choice Skip Raise; Choice Skip Raise; Choice Skip
 Raise; Choice Return (Choice Return (Choice Return Skip))])]) Skip; Choice (block [Choice Skip
 Raise; Bind 43 [39] false; Bind 44 [40] false; Frame (block [Choice Skip Raise; Choice Skip Raise;
 Choice Skip Raise; Choice Return (Choice Return (Choice Return Skip))])]) Skip]) Skip; Choice Skip
 Raise]) (Choice Skip Raise); Return]); Choice Skip Raise; Choice (block [Choice Skip Raise; Raise])
 Skip; Choice (block [Choice Skip Raise; Raise]) Skip; Return]); Choice (Bind 45 [] true) (Bind 45
 [3] false); Choice Skip (Choice (block [Bind 46 [15] true; Bind 47 [45] false; Bind 48 [15] true;
 Bind 49 [15] true; Bind 50 [15] true; Bind 51 [15] true; Bind 52 [15] true; Bind 53 [15] true; Bind
 54 [15] true; Bind 55 [15] true; Bind 56 [15] true; Bind 57 [15] true; Bind 58 [15] true; Bind 59
 [15] true; Bind 60 [15] true; Frame (block [Choice (Bind 47 [] true) Skip; Choice Skip Raise; Bind
 46 [46] true; Choice (block [Bind 50 [50] true; Bind 51 [51] true]) Skip; Choice (Bind 53 [] true)
 Skip; Return])]) (block [Bind 61 [45] false; Bind 62 [14] false; Bind 63 [16] false; Bind 64 [17]
 false; Bind 65 [18] false; Bind 66 [19] false; Bind 67 [20] false; Bind 68 [21] false; Bind 69 [5]
 false; Frame (block [Choice (Bind 61 [] true) Skip; Choice Skip Raise; Return])])); Return] |}.

(* multisim/utility_functions.py, line 3326: plot_pr_scatter *)
Definition f_utility_functions__plot_pr_scatter : func := {|
 f_file := "utility_functions.py"; f_name := "plot_pr_scatter"; f_line := 3326;
 f_params := ["y"; "y_hat"; "ax"; "aspect"; "ax_scaling_tight"; "errors"; "scttr_kwds"; "diag_kwds"; "plt_err_range"; "err_rng_kwds"; "err_kwds"; "err_loc"; "legend_kwds"; "auto_label"; "sprache"; "plot_every"; "fig_kwds"; "err_vals"];
 f_body := block [Choice (Bind 3 [] true) Skip; Choice Skip Raise; Return] |}.

(* multisim/utility_functions.py, line 3420: plot_2d_kde *)
Definition f_utility_functions__plot_2d_kde : func := {|
 f_file := "utility_functions.py"; f_name := "plot_2d_kde"; f_line := 3420;
 f_params := ["x"; "y"; "steps"; "ax"; "contour"; "cmap"; "norm"; "vmin"; "vmax"; "cont_lines"; "cbar"; "line_color"; "fontsize"; "aspect"; "extend"; "cm_under"; "cm_over"; "errors"; "plt_kwds"; "err_kwds"];
 f_body := block [Choice (Bind 4 [] true) Skip; Choice Skip Raise; Bind 3 [3] true; Choice (block [Bind 8 [8]
 true; Bind 9 [9] true]) Skip; Choice (Bind 11 [] true) Skip; Return] |}.

(* multisim/utility_functions.py, line 3511: annotate_errors *)
Definition f_utility_functions__annotate_errors : func := {|
 f_file := "utility_functions.py"; f_name := "annotate_errors"; f_line := 3511;
 f_params := ["ax"; "y"; "y_hat"; "errors"; "err_loc"; "err_vals"; "fontsize"; "err_kwds"];
 f_body := block [Choice (Choice (Bind 9 [] true) (Bind 9 [6] false)) Skip; Choice (Choice (Bind 10 [] true)
 (Bind 10 [6] false)) Skip; Choice (Choice (Bind 11 [] true) (Bind 11 [6] false)) Skip; Choice
 (Choice (Bind 12 [] true) (Bind 12 [6] false)) Skip] |}.

(* multisim/utility_functions.py, line 3563: si_axlabel *)
Definition f_utility_functions__si_axlabel : func := {|
 f_file := "utility_functions.py"; f_name := "si_axlabel"; f_line := 3563;
 f_params := ["ax"; "label"; "unit"; "which"; "style"; "spacing"; "invert_position"];
 f_body := block [Choice Skip Raise; Choice (block [Bind 2 [] true; Choice Skip Raise; Bind 3 [] true]) (Choice
 (block [Choice Skip Raise; Choice (Choice Skip Raise) (Bind 3 [] true)]) Skip); Loop false (block
 [Bind 8 [2;3] true; Bind 9 [2;3] true; Choice Skip Raise; Bind 10 [9] true; Choice (Bind 10 [] true)
 Skip]) Skip] |}.

(* multisim/utility_functions.py, line 3701: annotate_axes *)
Definition f_utility_functions__annotate_axes : func := {|
 f_file := "utility_functions.py"; f_name := "annotate_axes"; f_line := 3701;
 f_params := ["axes"; "fig"; "annotations"; "loc"; "bbox"; "txt_offset"; "fontsize"; "kwds"];
 f_body := block [Choice (block [Choice Skip Raise; Bind 1 [] true]) Skip; Choice (Bind 1 [] true) Skip; Choice
 (Bind 9 [] true) (Bind 9 [3] false); Bind 10 [8] true; Bind 11 [8] true; Bind 12 [8] true; Bind 13
 [8] true; Choice Skip Raise; Choice (block [Bind 11 [] true; Bind 12 [] true]) (Choice (block [Bind
 11 [] true; Bind 12 [] true]) (Choice (block [Bind 11 [] true; Bind 12 [] true]) (Choice (block
 [Bind 11 [] true; Bind 12 [] true]) (Choice (block [Bind 11 [] true; Bind 12 [] true]) (Choice
 (block [Bind 11 [] true; Bind 12 [] true]) (Choice (block [Bind 11 [] true; Bind 12 [] true])
 (Choice (block [Bind 11 [] true; Bind 12 [] true]) Skip))))))); Bind 11 [8;11] false; Bind 12 [8;12]
 false; Loop false (block [Bind 14 [1] true; Bind 15 [1] true]) Skip] |}.

(* multisim/utility_functions.py, line 3831: opt_control *)
Definition f_utility_functions__opt_control : func := {|
 f_file := "utility_functions.py"; f_name := "opt_control"; f_line := 3831;
 f_params := ["simenv_creater_function"; "LabData"; "control"; "actuator"; "terms"; "start_values"; "labdata_flow"; "opt_flow_and_temp"; "labdata_time_offset"; "kwargs"];
 f_body := block [Choice (block [Bind 11 [10] false; Bind 12 [10] false; Bind 13 [10] false]) Skip; Return] |}.

Definition functions : list func := [
 f__utility_meters__Meters___init__;
 f__utility_meters__Meters_heat_meter;
 f__utility_meters__Meters_temperature;
 f__utility_meters__Meters_massflow;
 f__utility_meters__Meters_volumeflow;
 f__utility_meters__Meters_get_sensors_df;
 f__utility_meters__Meters_get_sensors_dict;
 f__utility_meters__Meters__resample_meter;
 f__utility_meters__Meters__save_to_disk;
 f__utility_meters__Meters_pred_real_plot;
 f__utility_plotting__heatmap_from_df;
 f__utility_plotting__prediction_realization_scatter;
 f__utility_plotting__prediction_realization_2d_kde;
 f__utility_plotting__si_axlabel;
 f__utility_plotting__sinum_frmt;
 f__utility_plotting__annotate_errors;
 f__utility_plotting__annotate_axes;
 f__utility_stat_error_measures__r_squared;
 f__utility_stat_error_measures__r_squared_adj;
 f__utility_stat_error_measures__mean_squared_err;
 f__utility_stat_error_measures__mean_abs_err;
 f__utility_stat_error_measures__mean_signed_deviation;
 f__utility_stat_error_measures__rmse;
 f__utility_stat_error_measures__cv_rmse;
 f__utility_stat_error_measures__normalized_err;
 f_controls__Controls___init__;
 f_controls__Controls_init_controller;
 f_controls__Controls_clear;
 f_controls__Controls_ctrl;
 f_controls__Controls__process_cv_direct;
 f_controls__Controls__clip_cv_to_saturation;
 f_controls__Controls__cv_invert;
 f_controls__Controls__subcontroller_check;
 f_controls__Controls___check_args;
 f_flownet__FlowNet___init__;
 f_parts_chp_plant__CHPPlant___init__;
 f_parts_chp_plant__CHPPlant_init_part;
 f_parts_chp_plant__CHPPlant__special_array_init;
 f_parts_chp_plant__CHPPlant___deprecated_special_free_memory;
 f_parts_chp_plant__CHPPlant__special_free_memory;
 f_parts_chp_plant__CHPPlant__check_results;
 f_parts_chp_plant__CHPPlant__final_datastore_backcalc;
 f_parts_chp_plant__CHPPlant__special_crop_results;
 f_parts_chp_plant__CHPPlant__special_return_store;
 f_parts_chp_plant__CHPPlant_get_diff;
 f_parts_connector_3w__Connector3w___init__;
 f_parts_connector_3w__Connector3w_init_part;
 f_parts_connector_3w__Connector3w__reset_to_init_cond;
 f_parts_connector_3w__Connector3w__get_flow_routine;
 f_parts_connector_3w__Connector3w_solve;
 f_parts_connector_3w__Connector3w_draw_part;
 f_parts_controllers__PID___init__;
 f_parts_controllers__PID__reset_to_init_cond;
 f_parts_controllers__PID_run_controller;
 f_parts_controllers__BangBang___init__;
 f_parts_controllers__BangBang__reset_to_init_cond;
 f_parts_controllers__BangBang_run_controller;
 f_parts_controllers__TwoSensors___init__;
 f_parts_controllers__TwoSensors__reset_to_init_cond;
 f_parts_controllers__TwoSensors_run_controller;
 f_parts_controllers__ModelPredCHP___init__;
 f_parts_controllers__ModelPredCHP__special_store_to_disk;
 f_parts_controllers__ModelPredCHP__process_opt_profiles;
 f_parts_controllers__ModelPredCHP__process_ctrl_profiles;
 f_parts_controllers__ModelPredCHP__process_profiles;
 f_parts_controllers__ModelPredCHP__reset_to_init_cond;
 f_parts_controllers__ModelPredCHP_tes_cap_before_empty;
 f_parts_controllers__ModelPredCHP_tes_cap_before_full;
 f_parts_controllers__ModelPredCHP__tes_heat_content;
 f_parts_controllers__ModelPredCHP__emergency_control;
 f_parts_controllers__ModelPredCHP__adapt_cap;
 f_parts_controllers__ModelPredCHP__longterm_opt_pred;
 f_parts_controllers__ModelPredCHP__longterm_clip_array;
 f_parts_controllers__ModelPredCHP__longterm_adj_by_soc;
 f_parts_controllers__ModelPredCHP__longterm_clip_w_cont;
 f_parts_controllers__ModelPredCHP__longterm_finalize_step;
 f_parts_controllers__ModelPredCHP__restore_adptd_caps;
 f_parts_controllers__ModelPredCHP__shortterm_opt;
 f_parts_controllers__ModelPredCHP_run_controller;
 f_parts_controllers__ModelPredCHP__preopt_x0;
 f_parts_controllers__ModelPredCHP__minimizer_input;
 f_parts_controllers__ModelPredCHP__minimizer_input_scalar;
 f_parts_controllers__ModelPredCHP__kwk_zuschlag;
 f_parts_controllers__ModelPredCHP__instandh_chp_nonflat;
 f_parts_controllers__ModelPredCHP__eeg_umlage;
 f_parts_controllers__ModelPredCHP__load_eex_baseload;
 f_parts_controllers__ModelPredCHP_infer_instandh;
 f_parts_heated_pipe__HeatedPipe___init__;
 f_parts_heated_pipe__HeatedPipe_init_part;
 f_parts_heated_pipe__HeatedPipe__special_array_init;
 f_parts_heated_pipe__HeatedPipe___depcreated_special_free_memory;
 f_parts_heated_pipe__HeatedPipe__special_free_memory;
 f_parts_heated_pipe__HeatedPipe__check_results;
 f_parts_heated_pipe__HeatedPipe__final_datastore_backcalc;
 f_parts_heated_pipe__HeatedPipe__special_crop_results;
 f_parts_heated_pipe__HeatedPipe__special_return_store;
 f_parts_heated_pipe__HeatedPipe_get_diff;
 f_parts_heatexchanger__HeatExchanger___init__;
 f_parts_heatexchanger__HeatExchanger_init_part;
 f_parts_heatexchanger__HeatExchanger__reset_to_init_cond;
 f_parts_heatexchanger__HeatExchanger_get_plate_hex_geometry;
 f_parts_heatexchanger__HeatExchanger_find_Reynolds_correction;
 f_parts_heatexchanger__HeatExchanger__get_flow_routine;
 f_parts_heatexchanger__HeatExchanger_solve;
 f_parts_heatexchanger__HeatExchanger_draw_part;
 f_parts_hex_condensing_polynome__HEXCondPoly___init__;
 f_parts_hex_condensing_polynome__HEXCondPoly_init_part;
 f_parts_hex_condensing_polynome__HEXCondPoly__reset_to_init_cond;
 f_parts_hex_condensing_polynome__HEXCondPoly__get_flow_routine;
 f_parts_hex_condensing_polynome__HEXCondPoly__check_results;
 f_parts_hex_condensing_polynome__HEXCondPoly_solve;
 f_parts_hex_condensing_polynome__HEXCondPoly_draw_part;
 f_parts_hex_num__HexNum___init__;
 f_parts_hex_num__HexNum_init_part;
 f_parts_hex_num__HexNum__reset_to_init_cond;
 f_parts_hex_num__HexNum_get_plate_hex_geometry;
 f_parts_hex_num__HexNum_find_reynolds_correction;
 f_parts_hex_num__HexNum__get_flow_routine;
 f_parts_hex_num__HexNum_get_diff;
 f_parts_hex_num__HexNum_get_diff_impl_ext;
 f_parts_hex_num__HexNum_get_diff_impl;
 f_parts_hex_num__HexNum_draw_part;
 f_parts_mixingvalve__MixingValve___init__;
 f_parts_mixingvalve__MixingValve_init_part;
 f_parts_mixingvalve__MixingValve__reset_to_init_cond;
 f_parts_mixingvalve__MixingValve__get_flow_routine;
 f_parts_mixingvalve__MixingValve__process_cv;
 f_parts_mixingvalve__MixingValve_solve;
 f_parts_mixingvalve__MixingValve_draw_part;
 f_parts_part_modules_chp_with_fluegas_hex__add_chp_with_fghex;
 f_parts_part_modules_consumers__lowex_phwrc;
 f_parts_part_modules_consumers__speicherladesys;
 f_parts_part_modules_consumers__space_heating;
 f_parts_part_modules_suppliers__chp_with_fghex;
 f_parts_part_modules_suppliers__gasboiler;
 f_parts_pipe__Pipe___init__;
 f_parts_pipe__Pipe_init_part;
 f_parts_pipe__Pipe__reset_to_init_cond;
 f_parts_pipe__Pipe__get_flow_routine;
 f_parts_pipe__Pipe_get_diff;
 f_parts_pipe2D__Pipe2D___init__;
 f_parts_pipe2D__Pipe2D_init_part;
 f_parts_pipe2D__Pipe2D__get_flow_routine;
 f_parts_pipe2D__Pipe2D_get_diff;
 f_parts_pipe_branched__PipeBranched___init__;
 f_parts_pipe_branched__PipeBranched_init_part;
 f_parts_pipe_branched__PipeBranched__get_flow_routine;
 f_parts_pipe_branched__PipeBranched_get_diff;
 f_parts_pipe_with_pump__PipeWithPump___init__;
 f_parts_pipe_with_pump__PipeWithPump_init_part;
 f_parts_pipe_with_pump__PipeWithPump__get_flow_routine;
 f_parts_pipe_with_pump__PipeWithPump__process_cv;
 f_parts_pipe_with_valve__PipeWith3wValve___init__;
 f_parts_pipe_with_valve__PipeWith3wValve_init_part;
 f_parts_pipe_with_valve__PipeWith3wValve__get_flow_routine;
 f_parts_pipe_with_valve__PipeWith3wValve__process_cv;
 f_parts_pipe_with_valve__PipeWith3wValve_get_diff;
 f_parts_pump__Pump___init__;
 f_parts_pump__Pump_init_part;
 f_parts_pump__Pump__reset_to_init_cond;
 f_parts_pump__Pump__get_flow_routine;
 f_parts_pump__Pump_solve;
 f_parts_pump__Pump__process_cv;
 f_parts_pump__Pump_draw_part;
 f_parts_tes__Tes___init__;
 f_parts_tes__Tes_init_part;
 f_parts_tes__Tes__reset_to_init_cond;
 f_parts_tes__Tes___add_ports;
 f_parts_tes__Tes__get_flow_routine;
 f_parts_tes__Tes_get_diff;
 f_parts_tes__Tes__buoyancy;
 f_parts_tes__Tes_buo_Nu;
 f_simenv__SimEnv___init__;
 f_simenv__SimEnv_set_timeframe;
 f_simenv__SimEnv_set_disksaving;
 f_simenv__SimEnv_set_solver;
 f_simenv__SimEnv_add_part;
 f_simenv__SimEnv__add_part;
 f_simenv__SimEnv__add_ports;
 f_simenv__SimEnv_add_open_port;
 f_simenv__SimEnv__initialize_actuator;
 f_simenv__SimEnv__add_open_port;
 f_simenv__SimEnv_assign_boundary_cond;
 f_simenv__SimEnv__initialize_dynamic_BC;
 f_simenv__SimEnv___global_init_part;
 f_simenv__SimEnv__chk_amb_temp;
 f_simenv__SimEnv_add_control;
 f_simenv__SimEnv__add_control;
 f_simenv__SimEnv__update_ports;
 f_simenv__SimEnv__get_port_connections;
 f_simenv__SimEnv_connect_ports;
 f_simenv__SimEnv__connect_ports;
 f_simenv__SimEnv__check_unconnected_ports;
 f_simenv__SimEnv__print_arg_errs;
 f_simenv__SimEnv__get_topology;
 f_simenv__SimEnv__recursive_topology;
 f_simenv__SimEnv__calc_UAwll_port;
 f_simenv__SimEnv__update_FlowNet;
 f_simenv__SimEnv__update_control;
 f_simenv__SimEnv__update_dyn_BC;
 f_simenv__SimEnv__get_conn_port;
 f_simenv__SimEnv__get_arr_idx;
 f_simenv__SimEnv__massflow_idx_from_temp_idx;
 f_simenv__SimEnv__get_specs_n_props;
 f_simenv__SimEnv__get_topo_cond;
 f_simenv__SimEnv__angle_to_x_axis;
 f_simenv__SimEnv__rotate_vector;
 f_simenv__SimEnv__heun;
 f_simenv__SimEnv__heun_adaptive;
 f_simenv__SimEnv___adaptive_step_control;
 f_simenv__SimEnv__call_postponed;
 f_simenv__SimEnv__create_port_updater;
 f_simenv__SimEnv__collapse_port_arrays;
 f_simenv__SimEnv__create_dataclasses;
 f_simenv__SimEnv__build_simenv;
 f_simenv__SimEnv__initialize_arrays;
 f_simenv__SimEnv__create_diff_inputs;
 f_simenv__SimEnv__prep_inputs_for_njits;
 f_simenv__SimEnv__reset_simenv;
 f_simenv__SimEnv_initialize_sim;
 f_simenv__SimEnv__check_memory_address;
 f_simenv__SimEnv__finalize_sim;
 f_simenv__SimEnv_start_sim;
 f_simenv__SimEnv___deprecated_free_memory;
 f_simenv__SimEnv__free_memory;
 f_simenv__SimEnv__compress_store;
 f_simenv__SimEnv__write_report;
 f_simenv__SimEnv_return_stored_data;
 f_simenv__SimEnv__crop_results;
 f_simenv__SimEnv__check_isadded;
 f_simenv__SimEnv__check_ispart;
 f_simenv__SimEnv__check_isport;
 f_simenv__SimEnv__check_isinrange;
 f_utility_functions__load_sim_results;
 f_utility_functions__load_results_by_name;
 f_utility_functions__load_failed_results;
 f_utility_functions__package_results;
 f_utility_functions__add_line_to_log;
 f_utility_functions__make_boundarycond_timeseries;
 f_utility_functions__process_unevenly_spaced_timeseries;
 f_utility_functions__interp_pipe_specs;
 f_utility_functions__adjust_pipes;
 f_utility_functions__database_import;
 f_utility_functions__update_databases;
 f_utility_functions__override;
 f_utility_functions__r_squared;
 f_utility_functions__r_squared_adj;
 f_utility_functions__mean_abs_err;
 f_utility_functions__mean_signed_deviation;
 f_utility_functions__mean_squared_err;
 f_utility_functions__rmse;
 f_utility_functions__cv_rmse;
 f_utility_functions__normalized_err;
 f_utility_functions__remove_outliers_std;
 f_utility_functions__remove_outliers_roll;
 f_utility_functions__rolling_median;
 f_utility_functions__rolling_centered;
 f_utility_functions__rolling_right_aligned;
 f_utility_functions__remove_outliers_mad;
 f_utility_functions__NetPlotter___init__;
 f_utility_functions__NetPlotter_set_plot_shape;
 f_utility_functions__NetPlotter__get_drctn;
 f_utility_functions__NetPlotter_add_sensor;
 f_utility_functions__NetPlotter__draw_sensor;
 f_utility_functions__NetPlotter_plot_net;
 f_utility_functions__NetPlotter_animate;
 f_utility_functions__NetPlotter_plot_errors;
 f_utility_functions__Meters___init__;
 f_utility_functions__Meters_heat_meter;
 f_utility_functions__Meters_temperature;
 f_utility_functions__Meters_massflow;
 f_utility_functions__Meters_volumeflow;
 f_utility_functions__Meters_get_sensors_df;
 f_utility_functions__Meters_get_sensors_dict;
 f_utility_functions__Meters__resample_meter;
 f_utility_functions__Meters__save_to_disk;
 f_utility_functions__Meters_pred_real_plot;
 f_utility_functions__is_evenly_spaced;
 f_utility_functions__fit_time_series;
 f_utility_functions__ts_performance_indicators;
 f_utility_functions__plt_prediction_realization;
 f_utility_functions__plot_pr_scatter;
 f_utility_functions__plot_2d_kde;
 f_utility_functions__annotate_errors;
 f_utility_functions__si_axlabel;
 f_utility_functions__annotate_axes;
 f_utility_functions__opt_control].
