{
 "claims": [
  {
   "property": "C01",
   "status": "proved",
   "theorems": [
    "C01_step_terminates",
    "C01_fuel_irrelevant"
   ],
   "note": "Every outcome stream; raising needs 100 unstable attempts."
  },
  {
   "property": "C02",
   "status": "partial",
   "theorems": [
    "C02_max_stepsize_refuted",
    "C02_min_stepsize_refuted",
    "C02_upper_partial",
    "C02_lower_partial"
   ],
   "note": "Code violates both limits: first step is always 1.0; stability reduction ignores min_stepsize. Proved: positivity, upper limit from second step on, lower limit without stability violations."
  },
  {
   "property": "C03",
   "status": "partial",
   "theorems": [
    "C03_max_factor_refuted",
    "C03_growth_partial"
   ],
   "note": "Code violates the claim with default settings (factor (n/50)^2 is not clipped at 1). Proved for the first factor_recovery steps."
  },
  {
   "property": "C04",
   "status": "partial",
   "theorems": [
    "C04_rejected_leave_no_trace_partial",
    "C04_pipe_slope_history_refuted",
    "C04_heating_history_refuted"
   ],
   "note": "Proved for parts whose slope reads only temperatures and ports. Code violates it for pipes (heat transfer buffers survive a rejected attempt) and heated pipes (an emergency shutdown in a rejected attempt persists)."
  },
  {
   "property": "C05",
   "status": "proved",
   "theorems": [
    "C05_step_error",
    "C05_global_error",
    "C05_relaxation",
    "C05_relaxation_error"
   ],
   "note": "Coupled systems of explicit parts; any sequence of accepted step sizes. Systems that also contain parts without own differential equation are only covered by C04."
  },
  {
   "property": "C06",
   "status": "proved",
   "theorems": [
    "C06_time_stamps",
    "C06_run_ends"
   ],
   "note": "All buffer modes and step sequences; the stop at invalid values is the subject of C122."
  },
  {
   "property": "C07",
   "status": "partial",
   "theorems": [
    "C07_disk_partial",
    "C07_disk_refuted",
    "C07_memory_partial",
    "C07_memory_captured_partial",
    "C07_memory_refuted"
   ],
   "note": "Code loses the last chunk (IndexError) when the run ends exactly on a full buffer, and writes out of bounds after enlarging in-memory arrays captured by compiled code. Exact otherwise."
  },
  {
   "property": "C08",
   "status": "proved",
   "theorems": [
    "C08_through_flow",
    "C08_channels"
   ],
   "note": ""
  },
  {
   "property": "C09",
   "status": "proved",
   "theorems": [
    "C09_multi_port"
   ],
   "note": ""
  },
  {
   "property": "C10",
   "status": "proved",
   "theorems": [
    "C10_relations",
    "C10_only_solution"
   ],
   "note": "Networks in dependency order; that _get_topology builds such an order is C81."
  },
  {
   "property": "C11",
   "status": "partial",
   "theorems": [
    "C11_connector",
    "C11_hub",
    "C11_valve",
    "C11_split_factors",
    "C11_pipe_valve_partial",
    "C11_pipe_valve_zero_opening_refuted",
    "C11_pipe_valve_limits_refuted",
    "C11_start_opening_refuted"
   ],
   "note": "Proved for connectors, three-way valves and storages. Code violates it for PipeWith3wValve: the split factor of the supplying port can reach zero and then divides by zero (the topology check only excludes limits equal to 0, upper limit 1 shuts port B), limits in wrong order are accepted; start openings are not clipped."
  },
  {
   "property": "C56",
   "status": "partial",
   "theorems": [
    "C56_valve_series_refuted"
   ],
   "note": "Code violates the claim: the series is bound to the massflow array."
  },
  {
   "property": "C18",
   "status": "proved",
   "theorems": [
    "C18_bands",
    "C18_density_falls",
    "C18_conductivity_rises",
    "C18_energy_rises"
   ],
   "note": ""
  },
  {
   "property": "C57",
   "status": "partial",
   "theorems": [
    "C57_prandtl_falls",
    "C57_viscosity_falls_partial",
    "C57_viscosity_refuted",
    "C57_turning_point"
   ],
   "note": "Proved for Pr. Code violates it for the viscosity: it falls up to a turning point between 97.6 and 97.7 degC and rises from there on (C57_turning_point, complete)."
  },
  {
   "property": "C12",
   "status": "proved",
   "theorems": [
    "C12_pipe",
    "C12_branched",
    "C12_heated",
    "C12_tes",
    "C12_second_law"
   ],
   "note": ""
  },
  {
   "property": "C13",
   "status": "proved",
   "theorems": [
    "C13_pipe",
    "C13_heated",
    "C13_branched",
    "C13_tes"
   ],
   "note": ""
  },
  {
   "property": "C14",
   "status": "proved",
   "theorems": [
    "C14_uniform",
    "C14_outer_cells"
   ],
   "note": ""
  },
  {
   "property": "C15",
   "status": "partial",
   "theorems": [
    "C15_pipe_partial",
    "C15_tes_partial",
    "C15_refuted"
   ],
   "note": "Code violates it: a step that passes the check cools a cell from 60 to below 10 with everything else at 20. Proved for steps that pass with a margin (2.7 + 0.53 c) or satisfy the cell heat bound."
  },
  {
   "property": "C16",
   "status": "partial",
   "theorems": [
    "C16_objection",
    "C16_pass_partial",
    "C16_courant_refuted",
    "C16_diffusion_refuted",
    "C16_branched_refuted",
    "C16_tes_refuted",
    "C16_zero_port_refuted",
    "C16_ports_checked"
   ],
   "note": "The objection half is proved. Code violates the pass half: largest density and lower-cell capacity are used, branched pipes and storages look at port or single streams, zero port areas give NaN. Pipes: within 5 and 6 per cent."
  },
  {
   "property": "C17",
   "status": "proved",
   "theorems": [
    "C17_series",
    "C17_parallel",
    "C17_interface"
   ],
   "note": ""
  },
  {
   "property": "C22",
   "status": "proved",
   "theorems": [
    "C22_surface",
    "C22_parts",
    "C22_first_evaluation"
   ],
   "note": "Coefficients are those of the previous evaluation."
  },
  {
   "property": "C54",
   "status": "proved",
   "theorems": [
    "C54_buoyancy"
   ],
   "note": ""
  },
  {
   "property": "C55",
   "status": "proved",
   "theorems": [
    "C55_delivered",
    "C55_shutdown"
   ],
   "note": ""
  },
  {
   "property": "C58",
   "status": "partial",
   "theorems": [
    "C58_mixing_refuted"
   ],
   "note": "Code violates it at the switch between the correlations."
  },
  {
   "property": "C19",
   "status": "partial",
   "theorems": [
    "C19_connector_cold_partial",
    "C19_connector_band_partial",
    "C19_connector_refuted",
    "C19_valve_partial",
    "C19_valve_shut_refuted"
   ],
   "note": "Holds up to 33 degC and within one percent everywhere; the code violates it for every pair of temperatures from 35 degC (outlet heat capacity taken at the arithmetic mean)."
  },
  {
   "property": "C20",
   "status": "proved",
   "theorems": [
    "C20_connector_split",
    "C20_connector_through",
    "C20_valve_split",
    "C20_pump",
    "C20_range"
   ],
   "note": ""
  },
  {
   "property": "C21",
   "status": "partial",
   "theorems": [
    "C21_laws_partial",
    "C21_counterflow",
    "C21_cutoff",
    "C21_idle",
    "C21_edge_refuted"
   ],
   "note": "Proved for all cases except exponent exactly 100, where the code falls into the formula for equal capacity flows and violates the second law."
  },
  {
   "property": "C59",
   "status": "partial",
   "theorems": [
    "C59_one_percent_partial",
    "C59_half_percent_refuted"
   ],
   "note": "One percent holds, the documented half percent does not."
  },
  {
   "property": "C60",
   "status": "partial",
   "theorems": [
    "C60_tolerance_kept_partial",
    "C60_within_tolerance_accepted",
    "C60_absolute_tolerance_refuted"
   ],
   "note": "Code weights with max(y, r) instead of magnitudes: the tolerance vanishes near -atol/rtol. Proved relative to the tolerance the code uses, per cell up to the root of the number of cells."
  },
  {
   "property": "C23",
   "status": "proved",
   "theorems": [
    "C23_limited_growth",
    "C23_startup",
    "C23_startup_completes",
    "C23_part_load",
    "C23_shutdown",
    "C23_startup_energy"
   ],
   "note": ""
  },
  {
   "property": "C24",
   "status": "partial",
   "theorems": [
    "C24_min_off",
    "C24_min_off_announced",
    "C24_rejected_attempt_refuted"
   ],
   "note": "Proved for histories without rejected solver attempts and for announced times; the code violates it in stored time after a rejected attempt."
  },
  {
   "property": "C25",
   "status": "partial",
   "theorems": [
    "C25_min_on",
    "C25_rejected_attempt_refuted"
   ],
   "note": "Proved for histories without rejected solver attempts; the code violates it in stored time after a rejected attempt."
  },
  {
   "property": "C26",
   "status": "proved",
   "theorems": [
    "C26_emergency",
    "C26_no_hot_start",
    "C26_hot_return"
   ],
   "note": ""
  },
  {
   "property": "C27",
   "status": "partial",
   "theorems": [
    "C27_range_partial",
    "C27_upper_refuted",
    "C27_ramp_partial",
    "C27_ramp_refuted"
   ],
   "note": "Code violates it: the upper end of the range is never applied; a request below the range during the minimum run time jumps to the lowest modulation."
  },
  {
   "property": "C28",
   "status": "partial",
   "theorems": [
    "C28_recorded_partial",
    "C28_rejected_attempt_refuted",
    "C28_heat_burst_refuted"
   ],
   "note": "Code violates it: timers use the first attempted step size, also if it is rejected."
  },
  {
   "property": "C61",
   "status": "partial",
   "theorems": [
    "C61_ratings",
    "C61_settles",
    "C61_efficiency_refuted"
   ],
   "note": "Ratings, electrical efficiency and settling proved; the code violates the energy balance at part load."
  },
  {
   "property": "C62",
   "status": "partial",
   "theorems": [
    "C62_renewed_partial",
    "C62_constant_refuted",
    "C62_emergency_refuted"
   ],
   "note": "Code violates it: the constant is written once and overwritten with zero."
  },
  {
   "property": "C63",
   "status": "partial",
   "theorems": [
    "C63_on_at_start_refuted"
   ],
   "note": "Code violates it for every plant: electric power in the first row is zero."
  },
  {
   "property": "C29",
   "status": "partial",
   "theorems": [
    "C29_pid",
    "C29_saturation_partial",
    "C29_actuator",
    "C29_slope_start_refuted",
    "C29_inverted_refuted",
    "C29_off_state_refuted"
   ],
   "note": "Proved for PID without slope limit and master, and for all controllers if off state and 0 lie within the limits and switching controllers are not inverted; the code violates it otherwise."
  },
  {
   "property": "C30",
   "status": "proved",
   "theorems": [
    "C30_slope",
    "C30_slope_run"
   ],
   "note": ""
  },
  {
   "property": "C31",
   "status": "partial",
   "theorems": [
    "C31_integral",
    "C31_auto",
    "C31_discrete_refuted"
   ],
   "note": "Proved for continuous controllers; discrete (velocity form) controllers do not limit the integral share."
  },
  {
   "property": "C32",
   "status": "partial",
   "theorems": [
    "C32_reset_partial",
    "C32_integral_refuted",
    "C32_dead_time_refuted"
   ],
   "note": "Code violates it for continuous controllers with integral share and for controllers with dead time."
  },
  {
   "property": "C33",
   "status": "partial",
   "theorems": [
    "C33_hysteresis_partial",
    "C33_inverted_refuted",
    "C33_slope_refuted",
    "C33_start_refuted"
   ],
   "note": "Proved without inversion, slope limit and master from an on or off start value; the code violates it otherwise."
  },
  {
   "property": "C34",
   "status": "partial",
   "theorems": [
    "C34_two_sensors_partial",
    "C34_stays_off",
    "C34_inverted_refuted"
   ],
   "note": "Proved without inversion, slope limit and master; with inversion the code flips the sign each step."
  },
  {
   "property": "C35",
   "status": "partial",
   "theorems": [
    "C35_sub_partial",
    "C35_free",
    "C35_slope_refuted",
    "C35_master_limit_refuted"
   ],
   "note": "Proved without slope limit; violated with a slope limit and for masters whose off state lies outside their hardware limits."
  },
  {
   "property": "C53",
   "status": "partial",
   "theorems": [
    "C53_delay_partial",
    "C53_signal",
    "C53_constant_steps",
    "C53_long_step_refuted",
    "C53_short_step_refuted",
    "C53_switching_refuted"
   ],
   "note": "Proved for all step sequences between the buffer resolution and the dead time; violated for longer and shorter steps and by switching controllers."
  },
  {
   "property": "C64",
   "status": "partial",
   "theorems": [
    "C64_dead_time",
    "C64_invert_partial",
    "C64_discrete_refuted",
    "C64_discrete_cooling_refuted",
    "C64_switching_refuted"
   ],
   "note": "Proved for continuous PID, with dead time for all steps not too short for its buffer. Code violates it otherwise: discrete PID ignores the argument, bang-bang controllers multiply their value by -1 and leave the actuator off on both sides of the set point."
  },
  {
   "property": "C65",
   "status": "partial",
   "theorems": [
    "C65_reference_refuted",
    "C65_constant"
   ],
   "note": "Code violates it: the constructor reads another argument name."
  },
  {
   "property": "C66",
   "status": "partial",
   "theorems": [
    "C66_terms_partial",
    "C66_integral_only_refuted",
    "C66_gains_needed"
   ],
   "note": "All selections except 'I', which the code accepts but cannot run."
  },
  {
   "property": "C67",
   "status": "partial",
   "theorems": [
    "C67_continuous",
    "C67_discrete_partial",
    "C67_velocity",
    "C67_velocity_law",
    "C67_discrete_pd",
    "C67_varying_steps_refuted"
   ],
   "note": "Continuous mode in full, discrete mode without integral share in full; velocity form for all step sequences as accumulated sum with its exact distance from the law. Code violates the law in velocity form with changing steps: the derivative share leaves a permanent offset."
  },
  {
   "property": "C68",
   "status": "partial",
   "theorems": [
    "C68_filter_bounded",
    "C68_ramp",
    "C68_varying_steps_refuted"
   ],
   "note": "Differences stay bounded and constant steps follow the ramp; with varying steps the code filters differences instead of rates and overshoots."
  },
  {
   "property": "C36",
   "status": "proved",
   "theorems": [
    "C36_position",
    "C36_range",
    "C36_constant",
    "C36_interpolation"
   ],
   "note": "One series, exact reals; Python's round (half to even) and slices modelled. Interpolation added for steps up to one sampling interval."
  },
  {
   "property": "C37",
   "status": "partial",
   "theorems": [
    "C37_length_refuted",
    "C37_length_partial",
    "C37_margin",
    "C37_accepted"
   ],
   "note": "The code violates the claim: every accepted series whose last sample lies within the timeframe is read beyond its end, for all step sequences (C37_length_refuted). Proved instead: a series ending after the last step (or longest step past the timeframe) is never read beyond its end."
  },
  {
   "property": "C69",
   "status": "proved",
   "theorems": [
    "C69_ramp_mean",
    "C69_exact_refuted"
   ],
   "note": "Bound of half an increment; C69_exact_refuted shows that it is not the exact mean."
  },
  {
   "property": "C38",
   "status": "partial",
   "theorems": [
    "C38_sorted",
    "C38_names",
    "C38_volume",
    "C38_distance",
    "C38_index",
    "C38_duplicate_refuted"
   ],
   "note": "Proved for distinct names; positions by volume/distance up to the code's 1e-9 tolerance at a cell boundary. The code does not check names: a new port with an existing name is accepted and hides the old one (C38_duplicate_refuted)."
  },
  {
   "property": "C39",
   "status": "proved",
   "theorems": [
    "C39_labels",
    "C39_general_refuted"
   ],
   "note": "For all parts that can take new ports (all of them label every port 'in' before). The function alone, on a part with an 'out' label, shifts labels (C39_general_refuted); no part in the repository reaches this."
  },
  {
   "property": "C40",
   "status": "partial",
   "theorems": [
    "C40_symmetric_partial",
    "C40_exclusive",
    "C40_permanent",
    "C40_refused",
    "C40_unconnected",
    "C40_shared_refuted"
   ],
   "note": "Symmetry proved for links to part ports; a boundary condition shared by two ports is only linked back to the last one (C40_shared_refuted). Exclusivity, permanence and the report of unconnected ports proved."
  },
  {
   "property": "C41",
   "status": "partial",
   "theorems": [
    "C41_requests_partial",
    "C41_distinct",
    "C41_only_requested",
    "C41_lost_refuted"
   ],
   "note": "The code violates the claim: a second request with the same first port silently replaces the first one (C41_lost_refuted). Proved for requests that are not replaced, in particular for distinct first ports."
  },
  {
   "property": "C42",
   "status": "partial",
   "theorems": [
    "C42_ranges",
    "C42_stored",
    "C42_rejects",
    "C42_timeframe",
    "C42_constant",
    "C42_accepts_partial",
    "C42_check_vN_refuted",
    "C42_start_step_refuted",
    "C42_unknown_refuted"
   ],
   "note": "Ranges, stored values and rejection of invalid values proved; every check_vN argument raises (C42_check_vN_refuted), the first step ignores max_stepsize (C42_start_step_refuted), unknown names are ignored (C42_unknown_refuted)."
  },
  {
   "property": "C70",
   "status": "partial",
   "theorems": [
    "C70_direct",
    "C70_pump_partial",
    "C70_mixer",
    "C70_mixer_mean",
    "C70_insulated",
    "C70_chain_refuted"
   ],
   "note": "Proved for direct connections and for one part without cells between numeric parts; two such parts in a row break the symmetry (C70_chain_refuted)."
  },
  {
   "property": "C71",
   "status": "partial",
   "theorems": [
    "C71_control",
    "C71_shared_refuted"
   ],
   "note": "Proved when each boundary condition is used once and no port is connected to itself; a shared boundary condition makes the counter wrong and controls are refused (C71_shared_refuted)."
  },
  {
   "property": "C43",
   "status": "partial",
   "theorems": [
    "C43_partition",
    "C43_mean",
    "C43_monotone",
    "C43_array",
    "C43_scalar_refuted"
   ],
   "note": "Proved for arrays (the only use in the repository); the documented scalar input raises (C43_scalar_refuted)."
  },
  {
   "property": "C44",
   "status": "proved",
   "theorems": [
    "C44_balance",
    "C44_slots"
   ],
   "note": ""
  },
  {
   "property": "C45",
   "status": "partial",
   "theorems": [
    "C45_meaning",
    "C45_sum",
    "C45_limits_partial",
    "C45_limits_refuted",
    "C45_crossed"
   ],
   "note": "Sum and equivalence with the state of charge proved for a demand that leaves out the first slot, as the code does; with the true demand the limit can be violated (C45_limits_refuted)."
  },
  {
   "property": "C46",
   "status": "partial",
   "theorems": [
    "C46_longterm",
    "C46_longterm_partial",
    "C46_longterm_refuted",
    "C46_plan_partial",
    "C46_plan_refuted",
    "C46_negative_refuted",
    "C46_output_partial",
    "C46_output_refuted"
   ],
   "note": "Proved for an upper limit of 1 and a lower limit of one half; the code uses the constants 1 and 0.5 instead of the configured range, so other ranges are violated."
  },
  {
   "property": "C47",
   "status": "partial",
   "theorems": [
    "C47_off",
    "C47_on",
    "C47_none",
    "C47_history_partial",
    "C47_start_partial",
    "C47_leak_refuted"
   ],
   "note": "Switching on/off and precedence proved; hysteresis history proved without hot events; after an off event the hysteresis of the on condition is applied (C47_leak_refuted)."
  },
  {
   "property": "C48",
   "status": "partial",
   "theorems": [
    "C48_lower_refuted",
    "C48_upper_refuted",
    "C48_adapted",
    "C48_lower_partial",
    "C48_late_refuted"
   ],
   "note": "The code violates the claim: the limit adapted last never returns exactly to its configured value in any run without further emergency. Proved instead: at most a fraction d/restore time is left when restores are at most d apart."
  },
  {
   "property": "C72",
   "status": "partial",
   "theorems": [
    "C72_agree",
    "C72_above_refuted"
   ],
   "note": "Agreement proved for modulations up to the upper limit; above it the two functions differ."
  },
  {
   "property": "C73",
   "status": "partial",
   "theorems": [
    "C73_surcharge_partial",
    "C73_surcharge_refuted",
    "C73_levy_refuted",
    "C73_levy_monotone"
   ],
   "note": "The code violates the claim: the surcharge on sales is ignored and the levy is called with W instead of kW."
  },
  {
   "property": "C74",
   "status": "partial",
   "theorems": [
    "C74_scalar",
    "C74_array_refuted",
    "C74_grows_below",
    "C74_share"
   ],
   "note": "Scalar branch proved; array branch always raises; jump at 10 kW."
  },
  {
   "property": "C75",
   "status": "partial",
   "theorems": [
    "C75_raises",
    "C75_keeps",
    "C75_zero_refuted"
   ],
   "note": "Proved for plans with a positive entry; an all-zero plan divides by zero."
  },
  {
   "property": "C76",
   "status": "proved",
   "theorems": [
    "C76_steps",
    "C76_lag_refuted"
   ],
   "note": "For steps up to one optimisation period (the premise); C76_lag_refuted shows that longer steps fall behind."
  },
  {
   "property": "C77",
   "status": "partial",
   "theorems": [
    "C77_ordered_partial",
    "C77_crossed_refuted"
   ],
   "note": "Ordered if lower adaptions happen below and upper ones above a common heat content; in general the limits cross (C77_crossed_refuted)."
  },
  {
   "property": "C78",
   "status": "partial",
   "theorems": [
    "C78_start",
    "C78_raised",
    "C78_lowered",
    "C78_half_load_refuted",
    "C78_never_lowered_refuted"
   ],
   "note": "Proved for a lower modulation limit of one half (the code's constant); other limits are not respected (C78_half_load_refuted)."
  },
  {
   "property": "C49",
   "status": "partial",
   "theorems": [
    "C49_readings",
    "C49_positive_readings",
    "C49_heatflow",
    "C49_monotone",
    "C49_net",
    "C49_split_steps",
    "C49_constant_steps_partial",
    "C49_ahead_refuted",
    "C49_total_refuted",
    "C49_shifted_refuted",
    "C49_split_refuted"
   ],
   "note": "Running sums, units, monotonicity, net = forward - backward and splitting proved for given step sizes. The code violates the claim with the simulation's step vector: it weights each flow with the next step and counts the last step twice (C49_total_refuted for every constant flow)."
  },
  {
   "property": "C50",
   "status": "partial",
   "theorems": [
    "C50_names_partial",
    "C50_kept",
    "C50_overwrite_refuted",
    "C50_rejected_refuted",
    "C50_disk_refuted"
   ],
   "note": "Proved for heat, temperature and mass flow meters; volume flow meters check the names of the mass flow meters; the disk store drops the meter type."
  },
  {
   "property": "C51",
   "status": "proved",
   "theorems": [
    "C51_laws",
    "C51_r_squared",
    "C51_columns",
    "C51_rolling",
    "C51_window"
   ],
   "note": "R^2 for series that are not constant (division by zero otherwise)."
  },
  {
   "property": "C52",
   "status": "partial",
   "theorems": [
    "C52_single_partial",
    "C52_columns_refuted"
   ],
   "note": "Proved for one measured series; with several measured columns the code divides by the variation of all columns, which is proved to be too good in every such case."
  },
  {
   "property": "C79",
   "status": "partial",
   "theorems": [
    "C79_unit_free",
    "C79_default_refuted",
    "C79_columns_refuted",
    "C79_range_affine"
   ],
   "note": "Proved for RMSE, MSD, MAE and CV(RMSE); the default measure MSE carries a unit; several measured columns are divided by their common mean."
  },
  {
   "property": "C80",
   "status": "partial",
   "theorems": [
    "C80_adjusted",
    "C80_overfit_refuted",
    "C80_percent_partial",
    "C80_percent_refuted"
   ],
   "note": "Proved for fractions with more samples than parameters; more parameters give values above 1; percentages up to 1 are read as fractions."
  },
  {
   "property": "C81",
   "status": "proved",
   "theorems": [
    "C81_ordered"
   ],
   "note": "Part and port names are numbers; see MTopo for the kinds of parts."
  },
  {
   "property": "C82",
   "status": "proved",
   "theorems": [
    "C82_physical",
    "C82_unique",
    "C82_schedule",
    "C82_limits"
   ],
   "note": ""
  },
  {
   "property": "C83",
   "status": "partial",
   "theorems": [
    "C83_balance",
    "C83_complete",
    "C83_storage_refuted"
   ],
   "note": "Proved for all parts but storages. Storages with two or more ports left over are accepted by the code and these ports keep old flows."
  },
  {
   "property": "C84",
   "status": "partial",
   "theorems": [
    "C84_circuit_partial",
    "C84_parallel_refuted",
    "C82_physical"
   ],
   "note": "Proved for closed circuits with 2 pumps + valves <= connectors + 2, and (C82) whenever a consistent distribution exists. Code violates it: two valve pipes in parallel are accepted, and the ends of a connection differ unless both are set alike."
  },
  {
   "property": "C85",
   "status": "partial",
   "theorems": [
    "C85_hub_partial",
    "C85_storage_refuted"
   ],
   "note": "Proved for storages and branched pipes with one port on a boundary condition. Code violates it: two pumps between two storages are accepted with unequal flows."
  },
  {
   "property": "C86",
   "status": "partial",
   "theorems": [
    "C86_channel_partial",
    "C86_condensing_partial",
    "C86_channel_refuted"
   ],
   "note": "Exact condition proved: correct unless the part's name contains the second channel's name (dmd, fluegas). Code violates it for such names."
  },
  {
   "property": "C87",
   "status": "proved",
   "theorems": [
    "C87_conduction",
    "C87_advection",
    "C87_uniform"
   ],
   "note": ""
  },
  {
   "property": "C88",
   "status": "partial",
   "theorems": [
    "C88_steady_partial",
    "C88_one_pass_refuted",
    "C88_channels"
   ],
   "note": "Proved for equal numbers of channels (two or more passes) without conduction through the ports. Code violates it for every one-pass exchanger."
  },
  {
   "property": "C89",
   "status": "partial",
   "theorems": [
    "C89_single_partial",
    "C89_grid_refuted",
    "C89_area"
   ],
   "note": "Holds for one grid point. Code violates it: every cell is given the area of the whole plate."
  },
  {
   "property": "C90",
   "status": "partial",
   "theorems": [
    "C90_ports_partial",
    "C90_wrong_cell_refuted",
    "C90_outside_refuted"
   ],
   "note": "Holds for the first supply port and in the class methods. Code violates it in the compiled differential: wrong cell, and reads outside the array."
  },
  {
   "property": "C91",
   "status": "partial",
   "theorems": [
    "C91_check_partial",
    "C91_overshoot_refuted"
   ],
   "note": "Proved for the flow. Code violates it for conduction: the check uses plate area times cell length instead of the cell volume."
  },
  {
   "property": "C92",
   "status": "proved",
   "theorems": [
    "C92_pipeline",
    "C92_short_last"
   ],
   "note": ""
  },
  {
   "property": "C93",
   "status": "proved",
   "theorems": [
    "C93_continuous"
   ],
   "note": "For water temperatures from 0 to 100 degrees."
  },
  {
   "property": "C94",
   "status": "partial",
   "theorems": [
    "C94_smooth_partial",
    "C94_kink_refuted"
   ],
   "note": "Exact condition proved: no kink only if the regression is flat at the threshold. Code violates it otherwise: the slope is computed but never used."
  },
  {
   "property": "C95",
   "status": "partial",
   "theorems": [
    "C95_standstill",
    "C95_limit",
    "C95_jump_refuted"
   ],
   "note": "Standstill proved, and the flue gas outlet has no jump. Code violates it for the water outlet: a vanishing flow leaves at flue gas inlet temperature, standing water at water inlet temperature."
  },
  {
   "property": "C96",
   "status": "proved",
   "theorems": [
    "C96_low_flow"
   ],
   "note": ""
  },
  {
   "property": "C97",
   "status": "proved",
   "theorems": [
    "C97_water",
    "C97_gas",
    "C97_made"
   ],
   "note": ""
  },
  {
   "property": "C98",
   "status": "partial",
   "theorems": [
    "C98_check_partial",
    "C98_reversed_refuted"
   ],
   "note": "Proved that the check after the run refuses it. Code violates it during the run: the outlet temperature passes every bound and is handed on to other parts."
  },
  {
   "property": "C99",
   "status": "partial",
   "theorems": [
    "C99_accept_partial",
    "C99_rated_refuted"
   ],
   "note": "Exact condition proved. Code violates it for a flue gas flow at the upper end of its range: accepted by the run, refused by the check."
  },
  {
   "property": "C100",
   "status": "partial",
   "theorems": [
    "C100_bypass_partial",
    "C100_enthalpy_refuted"
   ],
   "note": "Proved with the mean heat capacity of the two streams. Code violates it when enthalpy is measured with the heat capacity at the mixed temperature, as the heat meters do."
  },
  {
   "property": "C101",
   "status": "partial",
   "theorems": [
    "C101_pipe_partial",
    "C101_tes_partial",
    "C101_accept",
    "C101_tes_refuted",
    "C101_pipe_refuted"
   ],
   "note": "Proved for dimensions of a hollow cylinder and conducting insulation; exact condition for storages. Code violates it: storages with negative volume or a shell thicker than the radius, and pipes with negative areas, are accepted."
  },
  {
   "property": "C102",
   "status": "proved",
   "theorems": [
    "C102_pipe",
    "C102_tes"
   ],
   "note": "For storages the lids of the casing are not counted."
  },
  {
   "property": "C103",
   "status": "partial",
   "theorems": [
    "C103_pipe_partial",
    "C103_tes_partial",
    "C103_bare",
    "C103_zero_refuted"
   ],
   "note": "Proved for conducting insulation. Code violates it for the documented insulation conductivity 0, also for a bare pipe: accepted, but the evaluation divides by zero."
  },
  {
   "property": "C104",
   "status": "partial",
   "theorems": [
    "C104_pipe_partial",
    "C104_tes_refuted",
    "C104_unbounded_refuted"
   ],
   "note": "Proved for pipes after any history at rest. Code violates it for every storage: the length of a cell is used as height of the cylinder, so finer grids lose more heat."
  },
  {
   "property": "C105",
   "status": "partial",
   "theorems": [
    "C105_all_partial",
    "C105_each_partial",
    "C105_table_refuted"
   ],
   "note": "Proved for 'all' and for given areas. Code violates it for nominal diameters given port by port: the table is read by row instead of by column, every such call raises."
  },
  {
   "property": "C106",
   "status": "partial",
   "theorems": [
    "C106_continuous_partial",
    "C106_jump_refuted"
   ],
   "note": "Proved for every flow but one. Code violates it for every pipe, position and temperature: at Reynolds number 2300 the coefficient jumps up by at least 1.7 lambda/d."
  },
  {
   "property": "C107",
   "status": "proved",
   "theorems": [
    "C107_flow",
    "C107_floor",
    "C107_conductance"
   ],
   "note": ""
  },
  {
   "property": "C108",
   "status": "partial",
   "theorems": [
    "C108_cylinder",
    "C108_vertical",
    "C108_horizontal_partial",
    "C108_lid_refuted"
   ],
   "note": "Proved for cylinders, vertical planes, the lower side of horizontal planes, and the upper side within one flow regime. Code violates it where the flow over a lid turns turbulent: the heat loss drops by about 13 %."
  },
  {
   "property": "C109",
   "status": "partial",
   "theorems": [
    "C109_unbranched_partial",
    "C109_reverse",
    "C109_branched_refuted"
   ],
   "note": "Proved for pipes with one flow in all cells. Code violates it for pipes fed between their ends: the direction in the first cell is used for all cells."
  },
  {
   "property": "C110",
   "status": "proved",
   "theorems": [
    "C110_no_overshoot",
    "C110_run"
   ],
   "note": "For exact solutions within the range of liquid water; the compiled code may read the conductivity of one port from outside its array (C90), any positive value is allowed there."
  },
  {
   "property": "C111",
   "status": "proved",
   "theorems": [
    "C111_energy"
   ],
   "note": ""
  },
  {
   "property": "C112",
   "status": "partial",
   "theorems": [
    "C112_any_root_refuted",
    "C112_tolerance_refuted"
   ],
   "note": "Code violates it: implicit parts do not enter the error and the root finder's success flag is ignored, so any of its results is accepted; even exact half steps are more than 6 K off for every tolerance."
  },
  {
   "property": "C113",
   "status": "partial",
   "theorems": [
    "C113_no_explicit_refuted",
    "C113_rms"
   ],
   "note": "Code violates it: the system error divides by the number of explicitly solved cells, so the first step raises ZeroDivisionError exactly if there are none."
  },
  {
   "property": "C114",
   "status": "partial",
   "theorems": [
    "C114_mirrored_refuted",
    "C114_wrong_way_refuted"
   ],
   "note": "Code violates it: it stops after at most two passes and returns the explicit Euler step mirrored at the old temperature, so warming cells are cooled."
  },
  {
   "property": "C115",
   "status": "partial",
   "theorems": [
    "C115_bound",
    "C115_gross_refuted"
   ],
   "note": "Code violates it: at most (n-1)/stdevs^2 values can be removed, so with the default limit a series of up to ten values keeps every value however far off it is."
  },
  {
   "property": "C116",
   "status": "proved",
   "theorems": [
    "C116_mad_gross"
   ],
   "note": ""
  },
  {
   "property": "C117",
   "status": "partial",
   "theorems": [
    "C117_mad_half",
    "C117_std_half",
    "C117_single_refuted"
   ],
   "note": "Proved for series of at least two values and arrays of at least one; a series with a single value loses it (its standard deviation is NaN)."
  },
  {
   "property": "C118",
   "status": "partial",
   "theorems": [
    "C118_majority_refuted",
    "C118_line_refuted"
   ],
   "note": "Code violates it: if more than half of the values are equal every other value is removed whatever the threshold; the rolling median removes both ends of every straight line of at least 17 values."
  },
  {
   "property": "C119",
   "status": "proved",
   "theorems": [
    "C119_std",
    "C119_mad",
    "C119_roll"
   ],
   "note": ""
  },
  {
   "property": "C120",
   "status": "partial",
   "theorems": [
    "C120_std",
    "C120_mad",
    "C120_start_refuted"
   ],
   "note": "Proved behind the first kept value; outliers at the start of a series stay NaN."
  },
  {
   "property": "C121",
   "status": "partial",
   "theorems": [
    "C121_std_refuted",
    "C121_mad_array_refuted",
    "C121_array_interpolate_refuted"
   ],
   "note": "Code violates it: remove_outliers_std writes into the caller's object except for 'remove', remove_outliers_mad into a numpy array; an array with 'interpolate' is altered although the call raises."
  },
  {
   "property": "C122",
   "status": "partial",
   "theorems": [
    "C122_stop",
    "C122_blind_refuted",
    "C122_short_refuted",
    "C122_disk_refuted"
   ],
   "note": "Code violates it: proved only in memory with at least 5000 rows and NaN in temperatures and mass flows of the same part. NaN temperatures with valid flows are never noticed (every pass then advances by the smallest step); up to 49 s of time frame the search raises IndexError; on disk it cannot stop a run after the second flush."
  },
  {
   "property": "C123",
   "status": "partial",
   "theorems": [
    "C123_call_refuted",
    "C123_slopes_refuted"
   ],
   "note": "Code violates it for every accepted setting: the solver method is called with four arguments and takes three, and calls get_diff without its argument."
  },
  {
   "property": "C124",
   "status": "partial",
   "theorems": [
    "C124_counters",
    "C124_surface_refuted",
    "C124_heating_refuted",
    "C124_stopped_refuted",
    "C124_disk_refuted",
    "C124_chp_refuted",
    "C124_chp_iff",
    "C124_reset_iff"
   ],
   "note": "Counters and solver variables are restored in memory; code violates the rest: surface buffers and heating power of the first run are kept, after a stop by NaN the time frame stays a nanosecond, with disk saving the second run raises, and with a CHP plant every second run raises in its first step, since the array of its states gets one axis more with each initialisation."
  },
  {
   "property": "C125",
   "status": "proved",
   "theorems": [
    "C125_order",
    "C125_values",
    "C125_zero",
    "C125_units",
    "C125_normalised",
    "C125_quartiles"
   ],
   "note": "Real arithmetic; pandas functions by their documentation; resampling left out (MResample)."
  },
  {
   "property": "C126",
   "status": "partial",
   "theorems": [
    "C126_r2_refuted",
    "C126_mean_refuted"
   ],
   "note": "Code violates it: the sample variance is multiplied by n instead of n - 1, so the value is 1 - (1 - R2)(n - 1)/n, too high for every imperfect prediction."
  },
  {
   "property": "C127",
   "status": "partial",
   "theorems": [
    "C127_accepted",
    "C127_labels_refuted",
    "C127_perfect_refuted",
    "C127_mixed_refuted",
    "C125_values"
   ],
   "note": "Code violates it: values are joined by label; with disjoint labels any prediction gets RMSE 0 and R2 1, and a prediction without times is compared with a measurement in time. Holds if both series have the same labels (C125_values)."
  },
  {
   "property": "C128",
   "status": "partial",
   "theorems": [
    "C128_both",
    "C128_missed_refuted",
    "C128_all"
   ],
   "note": "Code violates it: a row is left out as soon as one value is zero, so errors where the prediction is zero have no effect."
  },
  {
   "property": "C129",
   "status": "proved",
   "theorems": [
    "C129_range",
    "C129_constant"
   ],
   "note": "Times in whole seconds; pandas functions by their documentation."
  },
  {
   "property": "C130",
   "status": "partial",
   "theorems": [
    "C130_interpolated",
    "C130_backward",
    "C130_forward_refuted"
   ],
   "note": "Holds for interpolation and backward filling; code violates it for forward filling: NaN at the beginning unless the series begins on an edge of a bin."
  },
  {
   "property": "C131",
   "status": "partial",
   "theorems": [
    "C131_aligned",
    "C131_shift_refuted"
   ],
   "note": "Holds if the series begins on an edge of a bin; otherwise all values are moved back in time by the offset."
  },
  {
   "property": "C132",
   "status": "proved",
   "theorems": [
    "C132_forward",
    "C132_backward",
    "C132_complete"
   ],
   "note": "For series which pandas does not take as equally sampled (see C131 for these)."
  },
  {
   "property": "C133",
   "status": "partial",
   "theorems": [
    "C133_mean",
    "C133_pulse_refuted"
   ],
   "note": "Holds for interpolation (each bin gets the mean of its values); with forward filling a value followed by another one before the next edge has no effect."
  },
  {
   "property": "C134",
   "status": "partial",
   "theorems": [
    "C134_never_refuted",
    "C134_exact_refuted",
    "C134_single_refuted",
    "C134_cover"
   ],
   "note": "Code violates it: resample is called with an argument removed in pandas 1.0 (>= 1.0.5 is required), and an exact fit leaves the result unbound. With older pandas the series before resampling is right in the remaining cases."
  },
  {
   "property": "C135",
   "status": "partial",
   "theorems": [
    "C135_unbounded_refuted",
    "C135_below_refuted"
   ],
   "note": "Code violates it: the signed differences are summed, so the objective has no minimum and every flow below the measured one is rated better."
  },
  {
   "property": "C136",
   "status": "proved",
   "theorems": [
    "C136_range",
    "C136_order"
   ],
   "note": "Real arithmetic; pandas functions by their documentation; input without NaN."
  },
  {
   "property": "C137",
   "status": "partial",
   "theorems": [
    "C137_odd",
    "C137_even_refuted",
    "C137_time_refuted"
   ],
   "note": "Holds for windows of an odd number of rows; late by half a row for an even number and by half a row or a row if the window is no multiple of the frequency."
  },
  {
   "property": "C138",
   "status": "partial",
   "theorems": [
    "C138_rows",
    "C138_whole",
    "C138_end_refuted"
   ],
   "note": "Holds if the window is a multiple of the frequency; otherwise the last rows are lost."
  },
  {
   "property": "C139",
   "status": "proved",
   "theorems": [
    "C139_linear",
    "C139_start",
    "C139_newton"
   ],
   "note": "Real arithmetic; C139_linear and C139_start hold for every convergence test, hence for the three solvers without derivative."
  },
  {
   "property": "C140",
   "status": "partial",
   "theorems": [
    "C140_coupled_refuted",
    "C140_fast_refuted",
    "C140_none_refuted",
    "C140_limit_refuted"
   ],
   "note": "Code violates it: cells without derivative count as converged, an equation without root and the iteration limit are not reported, at the limit the last value but one is returned."
  },
  {
   "property": "C141",
   "status": "partial",
   "theorems": [
    "C141_linear_partial",
    "C141_lower_refuted",
    "C141_upper_refuted",
    "C141_zero_refuted",
    "C141_tol_refuted"
   ],
   "note": "Holds with tol + sqrt(tol) in place of tol unless the start is 0 or the root is (close to) an end of the first bracket; there the code returns the wrong end or NaN."
  },
  {
   "property": "C142",
   "status": "partial",
   "theorems": [
    "C142_range",
    "C142_ramp",
    "C142_weights",
    "C142_weighted_range",
    "C142_short_refuted"
   ],
   "note": "Holds for windows not longer than the array; the average over an even number of cells is half a cell late; windows longer than the array (such as the 40 cells of _buoyancy in tes.py) read beyond the array."
  },
  {
   "property": "C143",
   "status": "partial",
   "theorems": [
    "C143_between",
    "C143_symmetric",
    "C143_equal_refuted"
   ],
   "note": "Holds unless the differences at both ends are equal; then the code divides 0 by 0."
  },
  {
   "property": "C144",
   "status": "proved",
   "theorems": [
    "C144_cyl",
    "C144_bare",
    "C144_plate",
    "C144_thickness"
   ],
   "note": "Real arithmetic; C144_thickness quantifies what happens if the whole wall thickness is given to both halves of a plate."
  },
  {
   "property": "C145",
   "status": "partial",
   "theorems": [
    "C145_selected",
    "C145_uncompressed_refuted",
    "C145_index_refuted",
    "C145_negative_refuted",
    "C145_exchanger_refuted",
    "C145_flattened_refuted",
    "C145_from_end"
   ],
   "note": "Holds with compression for tables with one column per grid point or one column; code violates it without compression, for parts without grid points, negative cells and the numeric heat exchanger."
  },
  {
   "property": "C146",
   "status": "partial",
   "theorems": [
    "C146_structure",
    "C146_duplicate_refuted",
    "C146_cell_refuted"
   ],
   "note": "Holds for everything but the choice of stored cells, which rejected calls of add_part overwrite."
  },
  {
   "property": "C147",
   "status": "proved",
   "theorems": [
    "C147_order",
    "C147_connections",
    "C147_script",
    "C147_before",
    "C147_built"
   ],
   "note": "Order within each kind of call kept; see C41 for connections."
  },
  {
   "property": "C148",
   "status": "partial",
   "theorems": [
    "C148_short",
    "C148_start_refuted",
    "C148_lag_refuted"
   ],
   "note": "Holds for short steps in environments with a time dependent open port; without such a port the first step uses the old value, and means over long steps are used one step late."
  },
  {
   "property": "C149",
   "status": "partial",
   "theorems": [
    "C149_fixed",
    "C149_adaptive_refuted"
   ],
   "note": "Holds for fixed steps; with adaptive steps all steps count alike."
  },
  {
   "property": "C150",
   "status": "partial",
   "theorems": [
    "C150_adaptive",
    "C150_fixed_refuted",
    "C150_exchanger_refuted",
    "C150_heating_refuted"
   ],
   "note": "Room for the rows; holds with adaptive steps and two-dimensional results of parts without further records (heating power, CHP). What is written to the enlarged arrays is the subject of C07."
  },
  {
   "property": "C151",
   "status": "proved",
   "theorems": [
    "C151_cell",
    "C151_zero",
    "C151_monotone",
    "C151_layers",
    "C151_split"
   ],
   "note": "Exact reals with the polynomials of the code."
  },
  {
   "property": "C152",
   "status": "partial",
   "theorems": [
    "C152_optimisation",
    "C152_control",
    "C152_zero_refuted"
   ],
   "note": "Profiles last long enough; profiles with zero user demand, as the message asks for, are refused unless an undocumented keyword is given."
  },
  {
   "property": "C153",
   "status": "partial",
   "theorems": [
    "C153_entry",
    "C153_aligned",
    "C153_early_refuted"
   ],
   "note": "Holds for profiles starting at a multiple of the optimisation period after midnight; otherwise the values are taken too early."
  },
  {
   "property": "C154",
   "status": "partial",
   "theorems": [
    "C154_pressure",
    "C154_water_partial",
    "C154_water_refuted",
    "C154_consistent"
   ],
   "note": "The water content falls between -30 and -29 degC; monotone from -28 degC on; agreement within 10 percent between 0 and 80 degC."
  },
  {
   "property": "C155",
   "status": "partial",
   "theorems": [
    "C155_areas",
    "C155_accepted",
    "C155_proportion",
    "C155_range",
    "C155_unchanged_refuted",
    "C155_type_refuted",
    "C155_order_refuted"
   ],
   "note": "Areas and dimensions fit; the table row of an unscaled pipe is overwritten and interpolated, and always for type EN10255_medium."
  },
  {
   "property": "C156",
   "status": "proved",
   "theorems": [
    "C156_network",
    "C156_limit",
    "C156_equilibrium",
    "C156_passive",
    "C156_sides"
   ],
   "note": "Needs the stated limit on the step size, which is not what the solver checks (C15); mixing is excluded (C19)."
  },
  {
   "property": "C157",
   "status": "proved",
   "theorems": [
    "C157_first_law",
    "C157_closed"
   ],
   "note": "At one instant, for the differentials; connected ports have equal connection data."
  },
  {
   "property": "C158",
   "status": "partial",
   "theorems": [
    "C158_kinds",
    "C158_repeated",
    "C158_inaccurate",
    "C158_total",
    "C158_quartiles",
    "C158_vector",
    "C158_success",
    "C158_steps_refuted",
    "C158_mean_refuted",
    "C158_maximum_refuted",
    "C158_success_refuted"
   ],
   "note": "Kinds, repetitions, inaccurate steps, time frame and quartiles are proved. Violated: the number of steps is one too many, the mean counts the last step twice, steps counted as limited to the maximum need not have that size, and runs stopped by invalid values are reported as a success."
  },
  {
   "property": "C159",
   "status": "partial",
   "theorems": [
    "C159_shown_partial",
    "C159_volume",
    "C159_beyond",
    "C159_exchanger_refuted",
    "C159_connector_refuted",
    "C159_negative_refuted"
   ],
   "note": "Holds for pipes, pumps, storages, branched pipes, valves and the supply side of heat exchangers. Violated: the demand side of an exchanger shows the supply flow, connectors never record their flows, negative cells are accepted."
  },
  {
   "property": "C160",
   "status": "partial",
   "theorems": [
    "C160_plant",
    "C160_cells",
    "C160_names",
    "C160_distinct",
    "C160_arguments",
    "C160_underscore_refuted",
    "C160_default_refuted",
    "C160_electric_refuted"
   ],
   "note": "Holds for all plants whose names are accepted; segment names without underscores never clash. Violated: segment names with underscores and the two hot water assemblies with one segment name clash; CHP mode 'el' is accepted but leaves the plant without a controller."
  },
  {
   "property": "C161",
   "status": "partial",
   "theorems": [
    "C161_solvable",
    "C161_lowex",
    "C161_store_loading",
    "C161_heating",
    "C161_boiler",
    "C161_chp3",
    "C161_chp2",
    "C161_chp1",
    "C161_chp0",
    "C161_return",
    "C161_return_refuted"
   ],
   "note": "Flows of all assemblies proved for all pump flows and openings. Violated: the circulation return of the hot water assembly draws water from the storage when the valve takes less than the hot water flow from the supply."
  },
  {
   "property": "C162",
   "status": "partial",
   "theorems": [
    "C162_accepted",
    "C162_reference",
    "C162_monotone",
    "C162_near",
    "C162_usable_one",
    "C162_usable_more",
    "C162_sizes",
    "C162_areas",
    "C162_unchecked_refuted",
    "C162_small_refuted"
   ],
   "note": "Choice of the number of plates proved, with the exact sizes from which on exchangers are usable. Violated: the documented minimum is not checked, so that exchangers without channels on one side or without area are accepted; the storage loading assembly builds such ones for buildings up to 461 square metres."
  },
  {
   "property": "C163",
   "status": "partial",
   "theorems": [
    "C163_port",
    "C163_cell",
    "C163_refused",
    "C163_parts",
    "C163_named",
    "C163_exchanger_refuted",
    "C163_condensing_refuted"
   ],
   "note": "Holds for all parts with a one-dimensional temperature array. Violated for heat exchangers with a temperature grid: sensors are accepted but give whole rows or nothing."
  },
  {
   "property": "C164",
   "status": "partial",
   "theorems": [
    "C164_chp",
    "C164_boiler",
    "C164_velocity",
    "C164_estimate",
    "C164_hot_water",
    "C164_loading",
    "C164_loading_refused",
    "C164_again_partial",
    "C164_again_refuted",
    "C164_start_refuted"
   ],
   "note": "Sizes proved for all settings. Violated: the CHP assembly deletes pipe_specs from the dictionary of the caller, a second plant gets DN80; the valves of the heating circuit start outside their limits."
  },
  {
   "property": "C165",
   "status": "partial",
   "theorems": [
    "C165_plate",
    "C165_given",
    "C165_mass",
    "C165_depth",
    "C165_cells",
    "C165_surface",
    "C165_total_mass",
    "C165_physical_partial",
    "C165_thickness_refuted",
    "C165_area_refuted",
    "C165_volume_refuted",
    "C165_width_refuted",
    "C165_third_way_refuted",
    "C165_base_mass_refuted",
    "C165_base_refuted"
   ],
   "note": "Areas, masses, depth and surfaces proved for all data. Violated: plates of negative thickness or area and negative depths are accepted; channel volumes leave out four, two or no ports depending on the description; the numeric exchanger cannot be described by the channel volume, the other one not by channel width and mass of the casing."
  },
  {
   "property": "C166",
   "status": "partial",
   "theorems": [
    "C166_nothing_lost",
    "C166_folders",
    "C166_all_partial",
    "C166_ends",
    "C166_reported_refuted",
    "C166_exists_refuted",
    "C166_shared_refuted",
    "C166_log_refuted",
    "C166_date_refuted"
   ],
   "note": "Proved: nothing is lost or overwritten even after an exception, folders hold exactly the files of one finished simulation, all with a folder name of their own are packaged, and exactly when the packaging goes through. Violated: a simulation whose name is the beginning of that of another takes its log and folder; skipped and pending simulations are reported as packaged; the number of pending ones is the length of a path; names without a date end the packaging."
  },
  {
   "property": "C167",
   "status": "partial",
   "theorems": [
    "C167_selected",
    "C167_packaged",
    "C167_tables",
    "C167_missing",
    "C167_same_number_refuted",
    "C167_none_refuted",
    "C167_identifier_refuted",
    "C167_entry_refuted",
    "C167_root_refuted"
   ],
   "note": "Holds for given numbers that occur once. Violated: set_numbers=None always fails, the identifier selects nothing, entries without number make all results unavailable, only the last of several folders with a number is loaded, files of unfinished runs cannot be read."
  },
  {
   "property": "C168",
   "status": "partial",
   "theorems": [
    "C168_unbound_names",
    "C168_module_names",
    "C168_loading",
    "C168_excused",
    "C168_load_all_refuted",
    "C168_equal_duration_refuted",
    "C168_own_database_refuted",
    "C168_contour_refuted",
    "C168_newton_derivative_refuted"
   ],
   "note": "Proved over the control flow of all functions: exactly the 56 listed names can be read unbound; names taken from a module are never missing; loading a module never fails this way; 28 of the 56 are ruled out by the tests made before. Violated: loading all results (set_numbers=None), boundary series as long as the simulation, databases at an own path, contour plots without normalisation and root finding with a derivative always fail. 22 entries depend on data the control flow does not show and are neither excluded nor confirmed."
  },
  {
   "property": "C169",
   "status": "partial",
   "theorems": [
    "C169_binding",
    "C169_calls",
    "C169_targets",
    "C169_module_names",
    "C169_pipe2D_refuted",
    "C169_bound",
    "C169_methods"
   ],
   "note": "Proved for all calls except three in Pipe2D.get_diff, which pass an unknown keyword to water_mat_props_ext and call two functions that do not exist: the two-dimensional pipe cannot be solved."
  },
  {
   "property": "C170",
   "status": "partial",
   "theorems": [
    "C170_straight",
    "C170_solver_inputs",
    "C170_errors_refuted",
    "C170_bias_refuted",
    "C170_r_squared_refuted"
   ],
   "note": "Proved for all calls and for the solver inputs of all parts. Violated by prediction_realization_2d_kde, which annotates its errors with prediction and realisation exchanged, so that the bias has the wrong sign (for all series with positive means) and the coefficient of determination is a different one. plot_2d_kde is listed apart: its arguments are called x and y."
  },
  {
   "property": "C171",
   "status": "partial",
   "theorems": [
    "C171_construction",
    "C171_excused",
    "C171_clean",
    "C171_never_set",
    "C171_pipe2D_refuted",
    "C171_volume_refuted",
    "C171_integral_refuted",
    "C171_static_valve_refuted"
   ],
   "note": "Proved exactly: the attributes that can be read too early are listed, with the outcomes of tests under which they are not. Violated by Pipe2D (no object can be constructed), ports of branched pipes given by volume, a purely integral PID controller, static mixing valves and init_controller without arguments. Attributes set from outside after construction are only covered by the last part of the claim."
  },
  {
   "property": "C172",
   "status": "partial",
   "theorems": [
    "C172_parts",
    "C172_meters",
    "C172_failed",
    "C172_part_as_meter_refuted",
    "C172_same_name_refuted",
    "C172_own_name_refuted",
    "C172_vecs_name_refuted",
    "C172_failed_refuted",
    "C172_accepted"
   ],
   "note": "Holds for different names without slashes if no part or controller has meters in its name and the meters have different names. Violated: tables of a part with meters in its name are also returned as meters, a part called meters or sim_vecs is replaced, two meters of different kinds may share a name and the first is lost, load_failed_results refuses the file of a finished run (found by model and statement, code is wrong)."
  },
  {
   "property": "C173",
   "status": "partial",
   "theorems": [
    "C173_exact",
    "C173_listed",
    "C173_unchanged",
    "C173_altered_refuted",
    "C173_heatmap_refuted",
    "C173_heatmap_given",
    "C173_pipes_refuted",
    "C173_second_refuted",
    "C173_colorbar_refuted"
   ],
   "note": "Of 957 arguments exactly 25 can be changed, 18 of them on purpose; most files change none. Violated: heatmap_from_df changes plt_kwds and cbar_kwds, by default shared by all calls (all maps after a logarithmic one are logarithmic), chp_with_fghex and add_chp_with_fghex delete the pipe from chp_kwds (a second plant gets DN80, a second call of the latter fails even with default values), the outlier filters and _minimizer_input change the given array (found by model and statement, code is wrong)."
  },
  {
   "property": "C174",
   "status": "proved",
   "theorems": [
    "C174_units",
    "C174_named",
    "C174_constants",
    "C174_calls",
    "C174_called"
   ],
   "note": "Programs generated from the text with calls written out; entries selected by indices, powers that are not whole and exponentials of plain numbers are left open and quantified over. The units of parameters and results are the documented ones by name; constants with a unit are 9.81 m/s2, 273.15 K, 1e-9 s or coefficients of material property fits. Temperatures are counted from 0 degC."
  },
  {
   "property": "C175",
   "status": "partial",
   "theorems": [
    "C175_messages_partial",
    "C175_closed",
    "C175_decimal",
    "C175_count",
    "C175_braces_refuted",
    "C175_early_refuted",
    "C175_index_refuted",
    "C175_silent_refuted"
   ],
   "note": "Holds for the 683 calls whose template is known from the source and for the other 38 with names without braces. Violated: the 38 calls fail for names with braces, 20 of them also when nothing is wrong (actuators, open ports, boundary conditions, sensor labels with LaTeX names); the message for a wrong array index can only be made for a number; three calls do not show the value they are given."
  },
  {
   "property": "C176",
   "status": "partial",
   "theorems": [
    "C176_steps_stay_inside",
    "C176_single_cell_refuted",
    "C176_hexnum_refuted",
    "C176_every_part_refuted"
   ],
   "note": "Proved for Pipe, PipeBranched, PipeWith3wValve, HeatedPipe, CHPPlant (its step after the control), Tes with two or more cells, HexNum.get_diff_impl, HeatExchanger, MixingValve, Pump, and HexNum.get_diff without one read. Violated: with one cell (accepted by the constructor) no step of the six pipe-like parts can be done, whatever the data; HexNum.get_diff always reads outside the conductivities, whatever the data."
  },
  {
   "property": "C177",
   "status": "partial",
   "theorems": [
    "C177_acts",
    "C177_only",
    "C177_temperature_refuted",
    "C177_number_refuted",
    "C177_last_refuted",
    "C177_index",
    "C177_name_refuted",
    "C177_second_series"
   ],
   "note": "Proved for arrays that are an argument of the step function, other than the temperatures, and every index from -n to n-1 but -1. Violated: a series for 'T' (named in the documentation) has no effect since each step starts from the stored results; a series for a variable that is a number has no effect, since the attribute gets a new array after the arguments were collected; index -1 is accepted and then no step can be done; indices below -n are accepted; without index the prepared error message raises a TypeError; 'T_amb' (named in the documentation) is the name of no attribute; an identical second series is rejected unless all time stamps are whole seconds."
  },
  {
   "property": "C178",
   "status": "partial",
   "theorems": [
    "C178_pump",
    "C178_series",
    "C178_valve",
    "C178_pipe_valve_refuted",
    "C178_pipe_pump_refuted",
    "C178_first_pump_refuted",
    "C178_whole_run"
   ],
   "note": "Valves and flows given by a series are restored. A pump gets its start flow back exactly if that is zero or no part created later shares its flow array and clears it: in every network the first pump that draws from a pipe created after it stands still in the second run (without error). A pipe with a pump never gets its flow back, a pipe with a valve keeps the opening the first run ended with."
  },
  {
   "property": "C179",
   "status": "partial",
   "theorems": [
    "C179_constant",
    "C179_series",
    "C179_exactly_one",
    "C179_pump",
    "C179_one_master",
    "C179_dm_given_refuted",
    "C179_both_refuted",
    "C179_pump_message_refuted",
    "C179_valve_refuted",
    "C179_heater_refuted",
    "C179_opening_refuted"
   ],
   "note": "Proved for constants on pipes with pump, pipes with valve, CHP plants and pumps, and for series on all but the pipe with valve (C56). Violated: a pump takes a series under the name dm_given (named in its message), drops it and runs with the start flow; a series beside a constant flow is dropped; a pump with ctrl_required=False, asked for by the message of the build, is never taken; a three-way valve and a heated pipe can not be had without controller, whatever is given; a constant opening above 1 is taken and the second branch gets a negative opening."
  },
  {
   "property": "C180",
   "status": "partial",
   "theorems": [
    "C180_key_iff",
    "C180_renaming_partial",
    "C180_neighbours",
    "C180_semicolon_refuted",
    "C180_shared_key_refuted",
    "C180_boundary_refuted",
    "C180_debugger_refuted"
   ],
   "note": "Proved for all names without ';' which are not used by the code itself. Violated: a name with ';' is accepted, but a network with it is never built (ValueError of an unpacking), and two different ports can have the same key so that one connection replaces the other; a part named BoundaryCondition is accepted (only BC is refused), but its ports are never found; connecting to a part named p_gasb1_ff stops in the debugger, while the same connection given from the other end is made."
  },
  {
   "property": "C181",
   "status": "partial",
   "theorems": [
    "C181_table",
    "C181_shortened",
    "C181_continues",
    "C181_course",
    "C181_cold_partial",
    "C181_cold_refuted",
    "C181_unwarmed_refuted"
   ],
   "note": "Proved: the look-up of the remaining heat, continuity within one percent of full power, the course afterwards, and full cold starts after complete start-ups. Violated: _remaining_heat is reset only by a completed start-up, so a plant whose shortened start-up was interrupted starts with about ten percent of its heat although it has been cold for hours; and the remaining heat is counted as if the plant had been stopped at full power, so a plant stopped after 100 s with half a permille of its heat restarts with a hundred times as much."
  },
  {
   "property": "C182",
   "status": "partial",
   "theorems": [
    "C182_reported",
    "C182_recovers_partial",
    "C182_gap_refuted",
    "C182_negative_refuted",
    "C182_both_refuted",
    "C182_grid_refuted"
   ],
   "note": "Proved: the printed number bounds the deviation of every point in the simulated coefficient, and for plates longer than 74 hydraulic diameters the Nusselt number is strictly increasing over both branches, so that a correction is recovered uniquely. Violated: coefficients between the laminar and the turbulent branch cannot be reached, corrections may become negative and give NaN at small flows, the correction of the second side replaces that of the first, and the exchanger with a grid raises an exception because its distances per cell do not fit the points. Shorter plates are not covered; the minimiser is not modelled."
  },
  {
   "property": "C183",
   "status": "partial",
   "theorems": [
    "C183_step",
    "C183_course_partial",
    "C183_solver_partial",
    "C183_error",
    "C183_tolerance_refuted"
   ],
   "note": "Proved: attempts, courses of attempts and accepted steps of the common environment are pairs of those of the networks with the same step size (C183_solver_partial for parts without memory between evaluations; C183_course_partial for courses without stability violation in the predictor), and the squared error is the mean weighted with the numbers of cells. Violated: since the error is averaged over all cells of the environment, cells at rest in an unconnected network let the solver accept steps of the first network which its tolerances reject when simulated alone. Missing: controllers, flow-dependent step limits shared by the networks."
  },
  {
   "property": "C184",
   "status": "partial",
   "theorems": [
    "C184_pipe",
    "C184_run",
    "C184_heated",
    "C184_branched_partial",
    "C184_branched_refuted",
    "C184_check_refuted"
   ],
   "note": "Proved: the differential of pipes and heated pipes and any sequence of evaluations and steps of a pipe commute with the reversal; advection also for branched pipes with any ports. Violated: in branched pipes with water leaving at both ends the heat loss of a cell depends on the end from which the pipe is described, because the direction in the first cell decides on the position of all cells; the stability check compares conduction with the capacity of the later of two cells only, so that a step passes in one description and is refused in the other."
  },
  {
   "property": "C185",
   "status": "partial",
   "theorems": [
    "C185_network",
    "C185_rest",
    "C185_rate",
    "C185_passive",
    "C185_check_refuted"
   ],
   "note": "Proved for runs whose steps obey the explicit limit of C156 (not the check of the solver): the distance of every cell and port decays at least like exp(-c t / 2), where c is a rate computed from the geometry; networks without implicit parts, other parts between pipes or storages and without mixing (C19). Violated with the check of the solver alone: for a thin insulated plastic pipe without flow (max_stepsize given larger than 13000 s) a step passes the stability check and the tolerance and takes every cell at least five times as far from the temperature of the room as before, since the check compares the loss to the ambient with the product of outer surface and radius instead of the heat capacity."
  },
  {
   "property": "C186",
   "status": "proved",
   "theorems": [
    "C186_range",
    "C186_falls",
    "C186_cooling"
   ],
   "note": "Networks of pipes, branched pipes and storages without heat sources, implicit parts and mixing; a port shows a temperature of the surroundings or that of some cell. Lines of pipes with one flow from the first to the last port (the other direction follows from C184); the temperature behind the last pipe lies between the room and the last cell. The example shows by the intermediate value theorem that a steady pipe exists."
  },
  {
   "property": "C187",
   "status": "partial",
   "theorems": [
    "C187_pieces_partial",
    "C187_rest",
    "C187_losses_refuted"
   ],
   "note": "Holds for heat capacities, flow, conduction over the joint and everything in the piece at the inlet, for all geometries; at rest over whole runs. Violated for heat losses with a running flow: the distance from the inlet starts anew in each part (pipe.py 97-99), so every cell behind the cut has a strictly higher heat loss coefficient than in the whole pipe, for all pipes, cuts and temperatures between 0 and 100 degrees. Explicit parts; the inner ports show the cells of the neighbour at the beginning of the step."
  },
  {
   "property": "C188",
   "status": "partial",
   "theorems": [
    "C188_heard",
    "C188_step",
    "C188_fit",
    "C188_unheard_refuted",
    "C188_step_refuted",
    "C188_arrays_refuted"
   ],
   "note": "Holds for every sequence of calls that ends with initialize_sim. Violated when set_timeframe is called after initialize_sim, which is accepted: new arrays are made while pipes, storages and heat exchangers go on writing to the old ones, so that no instability is noticed and unstable steps are accepted at once (heated pipes and CHP plants look the arrays up and are heard); the number of steps no longer fits the arrays: with disk saving all steps beyond the new number are replaced by zeros, or the run breaks off at the end of the arrays."
  },
  {
   "property": "C189",
   "status": "proved",
   "theorems": [
    "C189_settles",
    "C189_insulation",
    "C189_tes",
    "C189_thin"
   ],
   "note": "The loss in the settled state (an evaluation that reproduces its persistent arrays) exists and is unique; that repeated evaluation tends to it is C190. The lids of storages are not part of the comparison. C189_thin shows that the condition on the critical radius is needed."
  },
  {
   "property": "C190",
   "status": "proved",
   "theorems": [
    "C190_pipe",
    "C190_tes",
    "C190_any",
    "C190_any_tes"
   ],
   "note": "C190_pipe and C190_tes are on cells warmer than the air, with enclosure; C190_any and C190_any_tes on all cells, without. The lids of storages use the same surface temperatures, their conductances are not part of the claim."
  },
  {
   "property": "C191",
   "status": "partial",
   "theorems": [
    "C191_windows",
    "C191_posix_refuted",
    "C191_dialog_refuted",
    "C191_dots_refuted"
   ],
   "note": "Holds on Windows for file names without a further dot. Violated elsewhere: the folder is built with a backslash, so the standard databases are never found and the dict is empty; databases of a folder chosen in the dialog are returned under their paths. With a further dot in the names, databases replace each other. which as a list and path are covered by C168."
  }
 ]
}