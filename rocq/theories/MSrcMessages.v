(** * Calls of str.format. Generated by /verif/tools/extract_messages.py from the text of /repo/multisim; do not edit. *)
From Coq Require Import List String PArith.
From Verif Require Import MMessages.
Import ListNotations.
Local Open Scope string_scope.

Definition t1 : string := "`name='{0}'` has already been assigned to another heat meter.".
Definition t2 : string := "`name={0}` has already been assigned to another temperature sensor.".
Definition t3 : string := "${0}{3}{2}{3}\mathrm{{{1}}}$".
Definition t4 : string := "${0}$".
Definition t5 : string := "${0}{2}in{2}\mathrm{{{1}}}$".
Definition t6 : string := "${0}{2}in{2}(\mathrm{{{1}}})$".
Definition t7 : string := "${0}{2}(\mathrm{{{1}}})$".
Definition t8 : string := "{0:.3G}".
Definition t9 : string := "{0:.0f}".
Definition t10 : string := "$R^2={0:.3f}$".
Definition t11 : string := "$MSE={0:.3G}$".
Definition t12 : string := "$CV(RMSE)={0:.3f}$".
Definition t13 : string := "$NMBE={0:.3f}$".
Definition t14 : string := "{0})".
Definition t15 : string := "Missing argument or incorrect type: {0}

".
Definition t16 : string := "While adding controller `".
Definition t17 : string := "` to the simulation environment, the following error occurred:
Missing argument or incorrect type: {0}

A controller requires the following additional arguments:
    - `CV_saturation`: List or tuple with the lower and upper saturation limit of the control variable (CV, the controller output). CV will be clipped to `lower_lim <= CV <= upper_lim` before passing it to the CV processing method (where part specific limits can also be applied). For a Bang-Bang-controller, the upper limit is the on-value.
Negative and infinite values are allowed with `lower_lim < upper lim`. For example `CV_saturation=(lower_lim, upper_lim)=(-1, np.inf)`.
".
Definition t18 : string := "` to the simulation environment, the following error occurred:
The selected actuator `{0}` requires a special CV processing method, thus `process_CV_mode='direct'` is not supported.


Deprecated - Not used anymore:
(Furthermore the port or cell position which has to be controlled (positive feedback on controller action, that means that the control variable, for example the valve opening of the port, is proportional to the error) must be given with `actuator_port=X`, where X is either the port name as a string or the cell index as integer value.)".
Definition t19 : string := "` to the simulation environment, the following error occurred:
Missing argument or incorrect type: {0}

`sub_control=True`, `master_type='part'` and `master_part=".
Definition t20 : string := "` are set. The variable of the part, on which the action of `".
Definition t21 : string := "` is depending, has to be given with `master_variable=X`, where `X` is the name of variable in the master part as a string. The variable in the master part has to be stored in an array.
Additionally the array index of the storage location of the master part variable has to be given with `master_variable_index=X`, where `X` is the integer index to the variable array >=0. Currently only 1D indices are supported.".
Definition t22 : string := "` to the simulation environment, the following error occurred:
Missing argument or incorrect type: {0}

`master_variable='".
Definition t23 : string := "'` was not found in master part `".
Definition t24 : string := "`.".
Definition t25 : string := "`master_variable='{0}'`".
Definition t26 : string := " was not found in master part `{0}`.".
Definition t27 : string := "Index {0} is out of range for the chosen master variable with array shape {1}".
Definition t28 : string := "` to the simulation environment, the following error occurred:
Index ".
Definition t29 : string := " is out of range for the chosen master variable with array shape ".
Definition t30 : string := "While adding controller `{0}` to the simulation environment, the following error occurred:
".
Definition t31 : string := "The part `{0}` has to be given to {1} for actuator {2}.".
Definition t32 : string := "The part `{0}` passed to {1} as `{2}` for actuator `{3}` does not exist. The following parts have been defined:
{4}".
Definition t33 : string := "    ---> CHP plant {0}: No `{1}` given. Using default value of `{2:.3f}`.".
Definition t34 : string := "Missing argument or incorrect type/value: {0}

".
Definition t35 : string := "The current total CHP plant efficiency is {0:.4f}, but must be <={1:.3f}. If a higher total efficiency shall be set, adjust the `eta_sum` parameter.".
Definition t36 : string := "While adding ".
Definition t37 : string := " `".
Definition t38 : string := "` to the simulation environment, the following error occurred:
Missing argument or incorrect type/value: lower_limit, upper_limit

The part was set to be an actuator and need a control with `no_control=False`, thus `lower_limit` and `upper_limit` in {0} have to be passed to clip the controller action on the actuator to the limits.
The limits have to be given as integer or float values with `lower_limit < upper_limit`.".
Definition t39 : string := "While adding CHPPlant `".
Definition t40 : string := "While adding HeatedPipe `".
Definition t41 : string := "While adding Pipe `".
Definition t42 : string := "While adding PipeBranched `".
Definition t43 : string := "While adding PipeWith3wValve `".
Definition t44 : string := "While adding PipeWithPump `".
Definition t45 : string := "    ---> CHP plant {0}: No `{1}` given. Using default value of `{2:.3f}Nm3/kWh`.".
Definition t46 : string := "The fluegas heat exchanger with the name `{0}` was not found.".
Definition t47 : string := "While adding {0} `{1}` to the simulation environment, the following error occurred:
".
Definition t48 : string := "` to the simulation environment, the following error occurred:
Missing argument or incorrect type: K{0}


`K{0}` has to be given as integer or float value for a controller of type `".
Definition t49 : string := "

Loop tuning mode selected for controller `{0}`.
Ki, Kd and anti-windup are deactivated. Make sure that the actuator limits (and if applicable: max. scaling) are set correctly. Don't forget to deactivate loop tuning mode when done.".
Definition t50 : string := "` to the simulation environment, the following error occurred:
Missing argument or incorrect type: {0}

The controller contains a derivative term, thus `filter_derivative=bool` has to be given.
If it is set to `True`, the derivative term will be low pass filtered with the additionally required cutoff frequency `cutoff_freq=X`, where X is the frequency in [Hz]. The filtering method is a first order Butterworth filter.
If it is set to `False`, no filtering will be applied to the derivative term. Oscillations of the controller are likely, especially when the simulation timestep is small.".
Definition t51 : string := "` to the simulation environment, the following error occurred:
Missing argument or incorrect type: {0}

A PID controller requires the following additional arguments:
    - `anti_windup`: Float, int or str value to prevent a windup of the ingegrative- (I-) term of the controller. For a continuous time controller the I-term is limited to `-anti_windup <= I-term <= anti_windup`, for a discrete time controller the CV value of the last step is limited to `-anti_windup <= last_CV <= anti_windup`.
If set to 'auto_X' with X being a float or integer, anti windup will be automatically scaled by Ki so that the term `-X <= i_term * ki <= X` will be satisfied. If X is omitted, the default of `X=1` is set.".
Definition t52 : string := "
A slope was set for two sensor controller `{0}`. Slopes with discrete step (0-1) controllers such as Bang-Bang- or two sensor controllers may cause problems when used as sub- or master-controllers, f.i. a two sensor controller for a CHP plant and a PID-sub-controller for the pump.
Make sure that controllers do not interfer and set `silence_slope_warning=True` to controller `{0}` to use a slope for this controller.
".
Definition t53 : string := "`emergency_cntrl` must be given. Either set to `emergency_cntrl='default'` to use default parameters (see below) or pass a dictionary with values to change.

Parameters:
    - `use_hysteresis`: Use a hysteresis to switch off emergency **activatation** of the CHP plant? F.i. if the setpoint is 65°C, then the CHP plant will switch off at `65°C+hysteresis`. For act. sign `greater` this is `65°C-hysteresis`. Only applies to CHP activation, not deactivation! Must be bool.
    - `hysteresis`: Hysteresis to use. Must be int, float >= 0.
    - `full_power_offset`: Offset to activation value for emergency-on-sensor above/below (depending on act. sign) the CHP plant will go to full power, completely overwriting the modelpredictive optimization. This means that, for act. sign `lower`, the CHP plant will go into 'mixed emergency mode' when the PV is `(act.val. - full_power_offset) <= PV <= act.val.` and into full power emergency mode for `PV < (act.val. - full_power_offset)`.For act. sign `greater`, full power mode is active when `PV > (act.val. + full_power_offset)`. **Mind the changed SIGN!**.In 'mixed emergency mode' the CHP is forced on, but the modulation is a 50:50 mix of full power and modelpredictive output. Full power mode clips the modulation to the maximum value.
Value must be int, float >= 0.

Defaults:
{0}".
Definition t54 : string := "`chp_params` must be given. The CHP plant parameters as described in:
{0}.

Replace the description in the dict with the values to set. Since these values are used in the outer optimization loop, non exact values, f.i. disregarding dependency of efficiency on the modulation, are sufficient.".
Definition t55 : string := "`opt_params` must be given. Either set to `opt_params='default' to use default parameters (see below) or pass a dictionary with values to change.

Parameters:
    - `opt_timeframe`: The timeframe over which the optimization is performed every `opt_every` period. Must be str.
    - `opt_every`: How often is the optimization algorithm performed? Must be str.
    - `increase_continuity`: Try to increase result continuity to reduce CHP plant switching by incorporating the previous step in the result post processing. Must be bool.
    - `max_iter`: Max. number of iterations for the opt. algorithm, after which the initial guess will be chosen. Must be int.


Defaults:
{0}".
Definition t56 : string := "`tes_cap_restore_time` must be given. Either set to `tes_cap_restore_time='default' to use default parameter (see below) or define an int/float value > 0.
The TES capacity will be adapted to the current state each time the emergency control overrides the modelpredictive control. After each adaption, the TES capacity will slowly revert to its initial state. `tes_cap_restore_time` defines the time in [s], after which the TES capacity is fully reverted.
The default is {0}s(=={1}h).".
Definition t57 : string := "` to the simulation environment, the following error occurred:
Missing argument or incorrect type: opt_profiles

The power demand profiles in __**Watt**__ for the optimization of the long term production schedule must be given as a pd.DataFrame with a DatetimeIndex. Using average daily profiles is recommended, since these profiles will be used for predicting an optimal load schedule.
The index period (pandas: freq) should be substantially shorter than the value `opt_every={0:.2f}s` (set with `opt_params`). The following columns are required:
    - `heat_dmd`: heat demand in W. Primarily PHW and recirculation. Space heating only if supplied by the CHP plant.
    - `pel_baseload`: Electric baseload power of the building in W. This is the electric power, which the CHP plant owner can use directly, thus a reduced EEG-Umlage has to be paid, while still earning the full reselling-price and KWKG-Verguetung. This typically includes f.i. elevator, public lights, carpark ventilation etc.. SET TO ZERO, if there is no baseload of this type.    - `pel_user`: Electric power demand in W of users participating in a Mieterstrommodell. Set to zero if none.    - `pel_user_noms`: Electric power demand in W of users NOT participating in a Mieterstrommodell. Set to zero if none. This value will be ignored during the optimization.".
Definition t58 : string := "` to the simulation environment, the following error occurred:
Missing argument or incorrect type: ctrl_profiles

The power demand profiles in __**Watt**__ for the control and optimization at each timestep (short term) must be given as a pd.DataFrame with a DatetimeIndex. These profiles are used to control the CHP plant at each step, thus non-averaged real measurement data profiles are recommended.
The index period (pandas: freq) must be 1s.The following columns are required:
    - `pel_baseload`: Electric baseload power of the building in W. This is the electric power, which the CHP plant owner can use directly, thus a reduced EEG-Umlage has to be paid, while still earning the full reselling-price and KWKG-Verguetung. This typically includes f.i. elevator, public lights, carpark ventilation etc.. SET TO ZERO, if there is no baseload of this type.    - `pel_user`: Electric power demand in W of users participating in a Mieterstrommodell. Set to zero if none.    - `pel_user_noms`: Electric power demand in W of users NOT participating in a Mieterstrommodell. Set to zero if none. This value will be ignored during the optimization.".
Definition t59 : string := "`costs` must be given. Either set to `costs='default' to use default parameters (see below) or pass a dictionary with values to change. Currently values are the net values, that is including energy taxes, el. power taxes etc. but without sales taxes.
    - `gaspreis`: Gaspreis in Cent/kWh_gas.
    - `esteuerrueck_gas`: Gas tax refund in Cent/kWh_gas, f.i. according to EnergieStG § 53a Absatz (6) and § 2 Absatz 3 Satz 1 Nummer 4 (default).
    - `netzneg`: Refund of avoided Netznutzungsentgelte for electric power in Cent/kWh_el. Scrapped starting 01.01.2023 (default).
    - `eex_baseload`: The EEX baseload (also KWK-Index) price must either be given as the price in Cent/kWh_el as a float/int > 0 OR as a string defining the quarter of the year to take the value from. The quarterly values are extracted from table `data_tables/phelix-quarterly-data-data-data.xls`. Update this table to include new values. Default is 'Q3 2019'=3.745.
    - `strompreis_zukauf`: Price to buy electricity from an energy supply company in Cent/kWh_el.
    - `aufschlag_verkauf`: Surcharge for reselling bought electricity to a third party in Cent/kWh_el. Also defines the selling price of electricity produced in the CHP plant with `strompreis_zukauf + aufschlag_verkauf`.
    - `penalty_wvk`: Penalty for reselling electric power in Cent/kWh_el. May be introduced, to incorporate a different selling price for electric power produced in the CHP plant and bought electric power. The re-selling electric power price is calculated with:`strompreis_zukauf + aufschlag_verkauf - penalty_wvk`.
    - `flat_instandh`: Bool flag if to set if using a flat maintenance tariff. If True, the value set to `instandh_cost` will be used to calculate the cost per operating hour, independent of the CHP plant modulation. If False, an approximation by ASUE for the cost per kWh will be used, with a penalty of `modulation**penalty_pow_instandh`.
    - `instandh_cost`: Flat CHP plant maintenance cost, independent of the modulation. If given as float, the value will be in Cent/h, where h is the operation hour. If set to `'infer'`, the value will be infered from a table of usual market terms depending on the nominal electric CHP power. . Only used if `flat_instandh=True`.
    - `penalty_pow_instandh`: Penalize the maintenance cost at low modulations with f.i. `0.6**penalty_pow_instandh` for 60% modulation. Only applies if `flat_instandh=False`. Setting to 1 disables penalty.

Defaults:
{0}".
Definition t60 : string := "{0}/tes_cap".
Definition t61 : string := "{0}/tes_soc".
Definition t62 : string := "{0}_opt/opt_res_longterm".
Definition t63 : string := "{0}_opt/opt_res_longterm_postproc".
Definition t64 : string := "{0}_opt/opt_stats".
Definition t65 : string := "1{0}".
Definition t66 : string := "`opt_profiles` index period (pandas: freq) higher than `opt_every={0}`.".
Definition t67 : string := "`ctrl_profiles` index period (pandas: freq) higher than `opt_every={0}`.".
Definition t68 : string := "NaN found in `{0}_profiles`".
Definition t69 : string := "`{0}_profiles` no index freq found.".
Definition t70 : string := "_{0}_prfl_input_prd".
Definition t71 : string := "`opt_profiles` duration must be longer than the simulation timeframe. This error is raised after resampling to the `opt_every={0}s` period which typically results in cutting off the last period. Thus make sure that the profiles are at least simulation timeframe + opt_every long.".
Definition t72 : string := "_{0}_profiles".
Definition t73 : string := "While adding HeatExchanger `".
Definition t74 : string := "` to the simulation environment, the following error occurred:
Missing argument or incorrect type/value: {0}

To define the plate heat exchanger geometry, one of the following arguments has to be given:
    - `channel_width=X`: The channel width of the plate heat exchanger (distance between two plates) in [m], where X is a float or integer value >0. Giving the channel width is highly recommended over giving the channel volume of mass per plate.
    - `mass_per_plate=X`: The mass of a single heat exchanger plate (the increase in mass of the heat exchanger per plate) in [kg], where X is a float or integer value >0. This method is less recommended than giving the channel width, but should be preferred over giving the channel volume.
    - `V_channel=X`: The total fluid channel volume **per channel** in [m^3], as given in the datasheet, where X is a float or integer value >0.

In all cases passing the channel cross section area in [m^2] with `channel_area=X`, where X is an integer or float value >0, additionally increases the accuracy of the solution. Otherwise this will be calculated from the width which may or may not include the casing.".
Definition t75 : string := "While adding HexNum `".
Definition t76 : string := "` to the simulation environment, the following error occurred:
Missing argument or incorrect type/value: HEx_type

The construction type has to be given with `HEx_type=X`, with `X` being one of the following strings:
{0}".
Definition t77 : string := "While adding Valve_3w `".
Definition t78 : string := "CHP{0}".
Definition t79 : string := "hex_chp{0}_fg".
Definition t80 : string := "pwp_chp{0}_ff".
Definition t81 : string := "p3v_chp{0}_rf".
Definition t82 : string := "p_chp{0}_rf_lt".
Definition t83 : string := "p3v_chp{0}_rf_htA".
Definition t84 : string := "p3v_chp{0}_rf_htB".
Definition t85 : string := "BC_fg{0}_in".
Definition t86 : string := "BC_fg{0}_out".
Definition t87 : string := "p_chp{0}_rf_ht".
Definition t88 : string := "p_chp{0}_rf".
Definition t89 : string := "c_pel_chp{0}".
Definition t90 : string := "c_p_chp{0}".
Definition t91 : string := "c_3v_chp_hex_fg{0}".
Definition t92 : string := "c_3v_chp_htrf{0}".
Definition t93 : string := "p3v_phwrc_ff_mix_{0}".
Definition t94 : string := "pb_phwrc_ff_{0}".
Definition t95 : string := "pwp_phw_ff_{0}".
Definition t96 : string := "pwp_rc_ff_{0}".
Definition t97 : string := "hex_phw_{0}".
Definition t98 : string := "hex_rc_{0}".
Definition t99 : string := "pb_rc_rf_{0}".
Definition t100 : string := "p_rc_to_mix{0}".
Definition t101 : string := "p_phw_rf_{0}".
Definition t102 : string := "p_rc_dmd_{0}".
Definition t103 : string := "pb_phwrc_dmd_{0}".
Definition t104 : string := "BC_phwrc_theta_ff_{0}".
Definition t105 : string := "pwp_rc_{0}".
Definition t106 : string := "BC_rc_theta_rf_{0}".
Definition t107 : string := "pwp_cw_{0}".
Definition t108 : string := "BC_phw_theta_cw_{0}".
Definition t109 : string := "c_3v_mix{0}".
Definition t110 : string := "c_pump_phw_{0}".
Definition t111 : string := "c_pump_rc{0}".
Definition t112 : string := "LowEx{0}".
Definition t113 : string := "sps_store_phw_{0}".
Definition t114 : string := "sps_p3v_ff_hex_{0}".
Definition t115 : string := "sps_pwp_ff_hex_{0}".
Definition t116 : string := "sps_pb_rf_hex_{0}".
Definition t117 : string := "sps_p_rf_hex_to_mix_{0}".
Definition t118 : string := "sps_hex_phw_store_{0}".
Definition t119 : string := "sps_p_ff_store_{0}".
Definition t120 : string := "sps_pwp_rf_store_{0}".
Definition t121 : string := "sps_p_phwrc_dmd_{0}".
Definition t122 : string := "sps_pwp_rc_{0}".
Definition t123 : string := "sps_pwp_cw_{0}".
Definition t124 : string := "sps_c_3v_hex_ff_{0}".
Definition t125 : string := "sps_c_pump_hex_{0}".
Definition t126 : string := "sps_c_pump_store_{0}".
Definition t127 : string := "SPS{0}".
Definition t128 : string := "pwp_sh_ff_{0}".
Definition t129 : string := "BC_sh_theta_ff_{0}".
Definition t130 : string := "pb_sh_rf_{0}".
Definition t131 : string := "BC_sh_theta_rf_{0}".
Definition t132 : string := "p3v_sh_tes_gb_{0}".
Definition t133 : string := "p3v_sh_tes_rf_{0}".
Definition t134 : string := "p_sh_gasb_ff_{0}".
Definition t135 : string := "ph_sh_gasb_{0}".
Definition t136 : string := "c_sh_3v_tesrf_{0}".
Definition t137 : string := "c_sh_3v_tesgb_{0}".
Definition t138 : string := "c_sh_gasb_pth_{0}".
Definition t139 : string := "space_heating{0}".
Definition t140 : string := "hex_chp_fg_{0}".
Definition t141 : string := "pwp_chp_ff_{0}".
Definition t142 : string := "p3v_chp_rf_{0}".
Definition t143 : string := "p_chp_rf_lt_{0}".
Definition t144 : string := "p3v_chp_rf_htA_{0}".
Definition t145 : string := "p_chp_rf_htB_{0}".
Definition t146 : string := "BC_fg_in_{0}".
Definition t147 : string := "BC_fg_out_{0}".
Definition t148 : string := "p_chp_rf_ht_{0}".
Definition t149 : string := "p_chp_rf_{0}".
Definition t150 : string := "c_chp_pel_{0}".
Definition t151 : string := "chp_modelpred_{0}".
Definition t152 : string := "c_chp_pump_{0}".
Definition t153 : string := "c_chp_3v_hex_fg_{0}".
Definition t154 : string := "c_chp_3v_htrf_{0}".
Definition t155 : string := "pwp_gasb_ff_{0}".
Definition t156 : string := "ph_gasb_{0}".
Definition t157 : string := "p_gasb_rf_{0}".
Definition t158 : string := "c_gasb_pth_{0}".
Definition t159 : string := "c_gasb_pump_{0}".
Definition t160 : string := "Gasboiler_{0}".
Definition t161 : string := "While adding Pump `".
Definition t162 : string := "{0} \n$\dot{{m}} = $ {1:.3f} $\,$kg/s".
Definition t163 : string := "Simulation environment {0} created.

Next steps:
    - set disk-saving with `{0}.set_disksaving()` to save results to a pandas HDFStore. This must be set for simulations with many timesteps and numeric cells to avoid overflowing the memory. More than 50% of the available memory should never be in use. F.i. 24h simulation with 1s timestep and 100 parts with 100 cells each results in about 6.4GB of memory. To exclude specific parts/cells from disksaving to reduce hard disk drive memory consumption, set the `store_results` parameter for the `{0}.add_part()` method for relevant parts.
    - set the timeframe with `{0}.set_timeframe()`
    - set the solver with `{0}.set_solver()`
    - add parts with `{0}.add_part()`
    - if required, add constant boundary conditions with `{0}.add_open_port()`
    - if required, convert a constant boundary condition to a time dependent dynamic BC with `{0}.assign_boundary_cond()`. This also works for controller setpoints.
    - connect parts at ports and to boundary conditions with `{0}.connect_ports()`
    - add controllers with `{0}.add_control()`
    - initialize the simulation environment with `{0}.initialize_sim()`
    - start the simulation with `{0}.start_sim()`
    - once the simulation is finished, use the `Meters` class to add measurements/meters like heat meters and/or plot the numeric errors of the simulation with the class `NetPlotter`
    - access results and meters as a pandas DataFrame with `{0}.return_stored_data()` or load results from a previously completed simulation with `load_sim_results()` from the `utility_functions` module
".
Definition t164 : string := "{path}{iso_date}_{name}.{typ}".
Definition t165 : string := "Invalid resample frequency `resample_freq={}`.".
Definition t166 : string := "The argument `allow_implicit=X` has to be given to `{0}.set_solver` method, where X is a bool.

If it is set to True, parts may also be solved implicitly. This allows for much larger timesteps at the cost of a significant increase in computational cost and numeric error.
Thus only parts with very stiff PDEs, like plate heat exchangers, should be solved implicitly, by passing `solve_implicit=True` to their respective `{0}.add_part()` method. This also introduces an increase of the numeric error of the solving method of these parts, as well as a loss of solver order.

To check if parts may require implicit solving, plot the part specific numeric errors with `NetPlotter.plot_errors(simenv={0})` after fully explicitly solving a relevant range of timesteps. Parts with outstanding high numeric errors may be worth to be solved implicitly. But before solving parts implicitly, trying to decrease the number of grid points (increase the cell volume and thus the thermal capacity) is recommended.".
Definition t167 : string := "While adding part `{0}`, argument `store_results` is not correct. Store results must be of type bool, int, slice or list/tuple.
    - If bool, True or False results in saving all or no results to disk.
    - If int, the integer will be used as index for the cell to store the values from.
    - If slice, the values of the cells indexed by the slice will be stored.
    - If list or tuple, values must be integer indices for the cells of which the values shall be stored".
Definition t168 : string := "Elements of `store_results` must be smaller than the number of grid points of part `{0}`.".
Definition t169 : string := "Elements of `store_results` list/tuple must be smaller than the number of grid points of part `{0}`.".
Definition t170 : string := "Before adding any parts to the simulation environment, the simulation timeframe and solver have to be set with `{0}.set_timeframe()` and `{0}.set_solver()` methods.".
Definition t171 : string := "The part name may not include 'BC', '\', '/'. The given name was {0}".
Definition t172 : string := "Value given to `add_open_port` with `name={0}` contains NaN values or is not numeric.".
Definition t173 : string := "` to the simulation environment, the following error occurred:
Missing argument or incorrect type/value: lower_limit, upper_limit

The part is an actuator and thus requires additional parameters. To disable treating this part as a controlled actuator, set `ctrl_required=False`. This enables setting a constant value or a time series to the actuator.
To clip the controller action on the actuator to upper and lower boundaries, the control variable limits have to be given in {0} with `lower_limit=X` and `upper_limit=Y`.
The limits have to be given as integer or float values with `lower_limit < upper_limit`. X and/or Y may be set to `+-np.inf` to disable clipping.".
Definition t174 : string := "While adding Connector_3w `".
Definition t175 : string := "While adding HEXCondPoly `".
Definition t176 : string := "While adding Pipe2D `".
Definition t177 : string := "While adding TES `".
Definition t178 : string := "` to the simulation environment, the following error occurred:
Missing argument or incorrect type/value: const_val OR time_series

If `ctrl_required=False` is defined, the actuator's control variable needs to be set manually with:
    `const_val`: A constant value for the actuator control variable in {0}, given as an integer or float value.
    `time_series`: A time dependent value which will be set to the actuator control variable depending on the elapsed simulation time. Needs to be given as a pandas Series or DataFrame object with a DatetimeIndex and the values in {0}.

Only one of these options may be given.
For parts with multiple actuator ports, like a 3 way valve, the given values will always be assigned to the first actuator port, for example port A for a 3 way valve.".
Definition t179 : string := "`temperature` passed to `{0}.add_open_port(name=".
Definition t180 : string := ", ...)` with `constant=False` has to be a pandas DataFrame or Series. If further exceptions occur, the temperature will be referred to as `time_series`.".
Definition t181 : string := "Error while assigning boundary condition to: `{0}`
`time_series` passed to `assign_boundary_cond()` has to be of type pd.DataFrame or pd.Series with the values stored in the column with index 0 and the timestamps stored in the index as numpy `dtype='datetime64[ns]'`.
The index must be **EVENLY SPACED**, monotonic increasing and without any missing values!!!
If this is NOT the first dynamic boundary condition, ALL subsequently added dynamic boundary conditions MUST be of the same shape as the time_series of the first dynamic boundary conditions AND the timestamp in the index must be exactly equal!".
Definition t182 : string := "`time_series` passed to `assign_boundary_cond()` for `{0}={1}` may not contain NaN values.".
Definition t183 : string := "Error while assigning boundary condition to: `{0}`


Another timeseries has already been added as a boundary condition to this simulation environment. This may also include timeseries added to actuator parts like a massflow timeseries for a pump.
All timeseries added to a simulation environment must be of the same shape and must have exactly the same timestamp index. The timeseries added before has the following shape: ".
Definition t184 : string := ", first entry: ".
Definition t185 : string := " and last entry: ".
Definition t186 : string := "Error while assigning boundary condition to: `{0}`
The index of `time_series` has to cover at least a timeframe a few seconds longer than the simulation environment timeframe to avoid running into indexing problems!".
Definition t187 : string := "Error while assigning boundary condition to: `".
Definition t188 : string := "`
While assigning dynamic boundary conditions to a part specific variable, at least one of the following parameters was not found in the simulation environment:
part=".
Definition t189 : string := ", variable_name=".
Definition t190 : string := "
 MUST be called after `initialize_sim`, otherwise parts won't be found!.".
Definition t191 : string := "Error while assigning boundary condition to: `{0}`
While assigning dynamic boundary conditions to a part specific variable, at least one of the following parameters was not found in the simulation environment:
part={0}, variable_name={1}".
Definition t192 : string := "Error while assigning boundary condition to: `{2}`
`array_index={0:G}` passed to `assign_boundary_cond()` is either not given as an integer or out of range for the array with shape {1}".
Definition t193 : string := "Error while assigning boundary condition to: `{2}`
While assigning dynamic boundary conditions to a controller specific variable with `simenv.assign_boundary_cond()`, the following controller was not found:
control='{0}'
Existing controllers: {1}
`assign_boundary_cond()` MUST be called after `initialize_sim`, otherwise no controllers exist!".
Definition t194 : string := "Before adding controls all ports must be connected!
Use method `{0}.connect_ports()` to connect ports.".
Definition t195 : string := "A control with `name={0}` is already existing.".
Definition t196 : string := "Use method `{0}.connect_ports()` to connect ports.".
Definition t197 : string := "While connecting ports, the following error occurred:
{0}".
Definition t198 : string := "While connecting part `{0}` at port `{1}` with part `{2}` at port `{3}` an error occurred:
Port `{4}` of part `{5}` has already been connected to another port or boundary condition.".
Definition t199 : string := "While connecting part `".
Definition t200 : string := "` at port `".
Definition t201 : string := "` with part `".
Definition t202 : string := "` an error occurred:
Port `{0}` of part `{1}` has already been connected to another port or boundary condition.".
Definition t203 : string := "While connecting part `{0}` at port `{1}` with part `{2}` at port `{3}` an error occurred:
Port `{1}` at `{0}` was not found!
 The following ports exist at that part:
".
Definition t204 : string := "While connecting part `{0}` at port `{1}` with part `{2}` at port `{3}` an error occurred:
Part `{0}` was not found!
 The following parts have been added to the simulation environment:
".
Definition t205 : string := "While connecting boundary condition `{0}` with part `{1}`:
Boundary condition `{0}` was not found!
The following boundary conditions have been added to the simulation environment:
".
Definition t206 : string := "While connecting part `{0}` at port `{1}` with part `{2}` at port `{3}` an error occurred:
Port `{3}` at `{2}` was not found!
The following ports exist at that part:
{4}
And the following ports are not yet connected:
{5}".
Definition t207 : string := "While connecting part `{0}` at port `{1}` with part `{2}` at port `{3}` an error occurred:
Part `{2}` was not found!
 The following parts have been added to the simulation environment:
".
Definition t208 : string := "The boundary condition `{0}` was not found!
 The following boundary conditions have been added to the simulation environment:
".
Definition t209 : string := "Use the method `{0}.connect_ports()` to connect ports.
To add a static or dynamic temperature boundary condition to a port, call the function `{0}.add_open_port()` and connect it to the target part/port with `scnd_part='BoundaryCondition', scnd_port=X`, where X is the name given to the boundary condition using `{0}.add_open_port()`.".
Definition t210 : string := "While adding {part} `{name}` to the simulation environment, the following argument error(s) occurred:
".
Definition t211 : string := "    - {arg}: {err}".
Definition t212 : string := "While solving the topology for part `{0}` at port `{1}` the following error occurred:
`{2}=0` found with a topology that requires division!
To solve this error, try the following steps:
  - 1. Try altering the topology of the system. Since the topology is analyzed starting with/from pumps, setting a pump to another branch usually solves the problem. Since this problem mainly arises when a pump is directly pushing into or pulling from the A or B port of a mixing valve (or alike), which should be frowned upon anyways due to realistic technic considerations, a refactoring of the topology is recommended. As a last measure, surrogate pumps may be introduced.
  - 2. Set a numeric slip value higher than machine epsilon to the `{2}`. A good value is `{2}>>1.5e-7`. Since the division with small values will yield large values, setting a slip value of **at least** 0.01 is recommended. Larger values increase stability (especially of PID controls) and stepsize while reducing the error. As long as the value is acceptable: The larger the better.
".
Definition t213 : string := "Port `{0}` was not found at part `{1}`. The following ports exist at `{1}`: {2}
This error might also be caused by trying to pass a mix of an all-ports-identifier and port names to a function which can take multiple ports as parameters, for example when defining port specifications.".
Definition t214 : string := "self defined, Ai: {0:.3G}, Awall: {1:.3G}".
Definition t215 : string := "No stable solution found, stopping solver.
Required stepsize for stable solution: {0:4G}s.
Breaking part: {1}.".
Definition t216 : string := "While adding part `{0}` to the simulation environment, the following error occurred: ".
Definition t217 : string := "No parts have been added to the simulation environment! Add at least one part with `{0}.add_part()` before initializing the simulation.".
Definition t218 : string := "Part `".
Definition t219 : string := "` not initialized! Initialize the part by calling its `{0}.parts['".
Definition t220 : string := "'].init_part()` method.".
Definition t221 : string := "Controller `{0}` is not initialized! Initialize the controller by calling its `{1}.ctrls['{0}'].init_controller()` method.".
Definition t222 : string := "The solver method was not set! Set the solver method with `{0}.set_solver()`, before initializing the simulation.".
Definition t223 : string := "The timeframe for the simulation environment has to be set before initializing the simulation environment by calling the method `{0}.set_timeframe()`.".
Definition t224 : string := "Disk saving of results has to be set before initializing the simulation environment by calling the method `{0}.set_disksaving()`.".
Definition t225 : string := "Simulation environment is not correctly initialized! Initialize the simulation environment by calling the method `{0}.initialize_sim()` before starting the simulation.".
Definition t226 : string := "

WARNING: Invalid value found between step {0} at time {1}s and step {2} at time {3}s!
Stopping simulation.

".
Definition t227 : string := "`kind={0}` not supported.".
Definition t228 : string := "The {0} `name='{1}'` has already been added to the simulation environment.".
Definition t229 : string := "Part `{0}` does not exist in simulation environment `{1}`.
The following existing part names have a low difference to `{0}`:
{2}
Typo?".
Definition t230 : string := "Part `{0}` does not exist in the simulation environment `{1}`.".
Definition t231 : string := "Port `{0}` does not exist at part `{1}` in simulation environment `{2}`.
The following existing port names have a low difference to `{0}`:
{3}
Typo?".
Definition t232 : string := "Port `{0}` does not exist at part `{1}` in simulation environment `{2}`.".
Definition t233 : string := "For checking if index is in range of the FLATTENED value array of part `{0}` the target array has to be given with `target=X`, where X can be one of the following:
".
Definition t234 : string := "Index {0} for the FLATTENED {1} value array of part `{2}` in the simulation environment `{3}` must be given as an integer value. If value array ndim>2, use `array[0].reshape(-1)` to see which index to select.".
Definition t235 : string := "Index {0} is not in range of the FLATTENED {1} value array of part `{2}` with size {3} and shape {4} in the simulation environment `{5}`.".
Definition t236 : string := "{0}\{1}\{2}\".
Definition t237 : string := "path not found:
{0}".
Definition t238 : string := "{0}*{1}*.h5".
Definition t239 : string := "{0}*{1}*_REPORT.csv".
Definition t240 : string := "{0}*{1}*.log".
Definition t241 : string := "{0}{1}{2}".
Definition t242 : string := "{0}{1}".
Definition t243 : string := "{0}\{{0}}{{1}}".
Definition t244 : string := "folder already existing, skipping {0}".
Definition t245 : string := "\{0}{1}".
Definition t246 : string := "{0}*{1}*.h5_tmp".
Definition t247 : string := "Packaged results: {0}
Unresolved files: {1}
Pending Simulations: {2}".
Definition t248 : string := "{}
".
Definition t249 : string := "`pspecs` must be a dict. Keys are part identifiers, values are lists/tuples consisting of a reference pipe-spec dict in the first element and a multiplication factor for the inner cross section area in the second element, f.i.
{0}".
Definition t250 : string := "$".
Definition t251 : string := " = {0:6.2f}\,$°C".
Definition t252 : string := " = {0:6.3f}\,$kg/s".
Definition t253 : string := "$\dot{{m}} = {0:6.3f}\,$kg/s".
Definition t254 : string := "elapsed time: $t = ${0:6.3f}$\,$s".
Definition t255 : string := "MBE = {:.1f}
".
Definition t256 : string := "MAE = {:.1f}
".
Definition t257 : string := "MBE = ".
Definition t258 : string := "
MAE = {:.1f}
".
Definition t259 : string := "MAE = ".
Definition t260 : string := "
NMBE = {:.3f}
".
Definition t261 : string := "
MAE = ".
Definition t262 : string := "NMBE = {:.3f}
".
Definition t263 : string := "
NMBE = ".
Definition t264 : string := "
RMSE = {:.1f}
".
Definition t265 : string := "NMBE = ".
Definition t266 : string := "RMSE = {:.1f}
".
Definition t267 : string := "CV(RMSE) = {:.3f}
".
Definition t268 : string := "
CV(RMSE) = {:.3f}
".
Definition t269 : string := "
RMSE = ".
Definition t270 : string := "RMSE = ".
Definition t271 : string := "CV(RMSE) = ".
Definition t272 : string := "
NRMSE = {:.3f}
".
Definition t273 : string := "
CV(RMSE) = ".
Definition t274 : string := "NRMSE = {:.3f}
".
Definition t275 : string := "
NRMSE = ".
Definition t276 : string := "
NRMSE IQR = {:.3f}
".
Definition t277 : string := "NRMSE = ".
Definition t278 : string := "NRMSE IQR = {:.3f}
".
Definition t279 : string := "
NRMSE IQR = ".
Definition t280 : string := "
R$^2$ = {:.3f}
".
Definition t281 : string := "NRMSE IQR = ".
Definition t282 : string := "R$^2$ = {:.3f}
".

Definition calls : list site := [
  mkSite "_utility/meters.py" 104%positive false 1 [] [[Lit t1]];
  mkSite "_utility/meters.py" 220%positive false 1 [] [[Lit t2]];
  mkSite "_utility/plotting.py" 611%positive false 4 [] [[Lit t3]];
  mkSite "_utility/plotting.py" 615%positive false 1 [] [[Lit t4]];
  mkSite "_utility/plotting.py" 618%positive false 3 [] [[Lit t5]];
  mkSite "_utility/plotting.py" 622%positive false 1 [] [[Lit t4]];
  mkSite "_utility/plotting.py" 625%positive false 3 [] [[Lit t6]];
  mkSite "_utility/plotting.py" 629%positive false 1 [] [[Lit t4]];
  mkSite "_utility/plotting.py" 632%positive false 3 [] [[Lit t7]];
  mkSite "_utility/plotting.py" 636%positive false 1 [] [[Lit t4]];
  mkSite "_utility/plotting.py" 680%positive false 1 [] [[Lit t8]];
  mkSite "_utility/plotting.py" 682%positive false 1 [] [[Lit t9]];
  mkSite "_utility/plotting.py" 736%positive false 1 [] [[Lit t10]];
  mkSite "_utility/plotting.py" 742%positive false 1 [] [[Lit t11]];
  mkSite "_utility/plotting.py" 748%positive false 1 [] [[Lit t12]];
  mkSite "_utility/plotting.py" 754%positive false 1 [] [[Lit t13]];
  mkSite "_utility/plotting.py" 818%positive false 1 [] [[Lit t14]];
  mkSite "controls.py" 44%positive true 1 [] [[Lit t15]];
  mkSite "controls.py" 56%positive true 1 [] [[Lit t15]];
  mkSite "controls.py" 65%positive true 1 [] [[Lit t15]];
  mkSite "controls.py" 74%positive false 1 [] [[Lit t15]];
  mkSite "controls.py" 86%positive false 1 [] [[Lit t15]];
  mkSite "controls.py" 118%positive false 1 [] [[Lit t15]];
  mkSite "controls.py" 153%positive true 1 [] [[Lit t16; Hole; Lit t17]];
  mkSite "controls.py" 156%positive true 1 [] [[Lit t16; Hole; Lit t17]];
  mkSite "controls.py" 164%positive false 1 [] [[Lit t15]];
  mkSite "controls.py" 309%positive false 1 [] [[Lit t16; Hole; Lit t18]];
  mkSite "controls.py" 420%positive false 1 [] [[Lit t15]];
  mkSite "controls.py" 434%positive false 1 [] [[Lit t15]];
  mkSite "controls.py" 450%positive false 1 [] [[Lit t15]];
  mkSite "controls.py" 467%positive false 1 [] [[Lit t15]];
  mkSite "controls.py" 493%positive false 1 [] [[Lit t15]];
  mkSite "controls.py" 526%positive true 1 [] [[Lit t16; Hole; Lit t19; Hole; Lit t20; Hole; Lit t21]];
  mkSite "controls.py" 532%positive true 1 [] [[Lit t16; Hole; Lit t22; Hole; Lit t23; Hole; Lit t24]];
  mkSite "controls.py" 535%positive true 1 [] [[Lit t25]];
  mkSite "controls.py" 538%positive true 1 [] [[Lit t26]];
  mkSite "controls.py" 563%positive true 1 [] [[Lit t16; Hole; Lit t19; Hole; Lit t20; Hole; Lit t21]];
  mkSite "controls.py" 568%positive false 2 [] [[Lit t27]];
  mkSite "controls.py" 586%positive true 1 [] [[Lit t16; Hole; Lit t28; Hole; Lit t29; Hole]];
  mkSite "controls.py" 609%positive false 1 [] [[Lit t15]];
  mkSite "controls.py" 640%positive false 1 [] [[Lit t15]];
  mkSite "controls.py" 659%positive false 1 [] [[Lit t15]];
  mkSite "controls.py" 693%positive false 1 [] [[Lit t15]];
  mkSite "controls.py" 717%positive false 1 [] [[Lit t15]];
  mkSite "controls.py" 753%positive false 1 [] [[Lit t15]];
  mkSite "controls.py" 993%positive false 1 [] [[Lit t30]];
  mkSite "controls.py" 1001%positive false 3 [] [[Lit t31]];
  mkSite "controls.py" 1008%positive false 5 [] [[Lit t32]];
  mkSite "parts/chp_plant.py" 88%positive false 3 [] [[Lit t33]];
  mkSite "parts/chp_plant.py" 147%positive true 1 [] [[Lit t34]];
  mkSite "parts/chp_plant.py" 155%positive true 1 [] [[Lit t34]];
  mkSite "parts/chp_plant.py" 170%positive true 1 [] [[Lit t34]];
  mkSite "parts/chp_plant.py" 185%positive true 1 [] [[Lit t34]];
  mkSite "parts/chp_plant.py" 186%positive true 2 [] [[Lit t35]];
  mkSite "parts/chp_plant.py" 199%positive true 1 [] [[Lit t34]];
  mkSite "parts/chp_plant.py" 231%positive true 1 [] [[Lit t34]];
  mkSite "parts/chp_plant.py" 240%positive true 1 [] [[Lit t34]];
  mkSite "parts/chp_plant.py" 248%positive true 1 [] [[Lit t34]];
  mkSite "parts/chp_plant.py" 342%positive false 1 [] [[Lit t34]];
  mkSite "parts/chp_plant.py" 367%positive false 1 [] [[Lit t34]];
  mkSite "parts/chp_plant.py" 388%positive false 1 [] [[Lit t34]];
  mkSite "parts/chp_plant.py" 421%positive false 1 [] [[Lit t36; Hole; Lit t37; Hole; Lit t38]; [Lit t39; Hole; Lit t38]; [Lit t40; Hole; Lit t38]; [Lit t41; Hole; Lit t38]; [Lit t42; Hole; Lit t38]; [Lit t43; Hole; Lit t38]; [Lit t44; Hole; Lit t38]];
  mkSite "parts/chp_plant.py" 423%positive false 1 [] [[Lit t34]];
  mkSite "parts/chp_plant.py" 469%positive false 3 [] [[Lit t45]];
  mkSite "parts/chp_plant.py" 506%positive true 1 [] [[Lit t34]];
  mkSite "parts/chp_plant.py" 513%positive false 1 [] [[Lit t34]];
  mkSite "parts/chp_plant.py" 517%positive false 1 [] [[Lit t34]];
  mkSite "parts/chp_plant.py" 519%positive false 1 [] [[Lit t46]];
  mkSite "parts/chp_plant.py" 539%positive true 1 [] [[Lit t34]];
  mkSite "parts/chp_plant.py" 552%positive true 1 [] [[Lit t34]];
  mkSite "parts/connector_3w.py" 40%positive false 2 [] [[Lit t47]];
  mkSite "parts/controllers.py" 24%positive false 1 [] [[Lit t15]];
  mkSite "parts/controllers.py" 54%positive false 1 [] [[Lit t15]];
  mkSite "parts/controllers.py" 105%positive false 1 [] [[Lit t15]];
  mkSite "parts/controllers.py" 114%positive true 1 [] [[Lit t16; Hole; Lit t48; Hole; Lit t24]];
  mkSite "parts/controllers.py" 119%positive true 1 [] [[Lit t16; Hole; Lit t48; Hole; Lit t24]];
  mkSite "parts/controllers.py" 124%positive true 1 [] [[Lit t16; Hole; Lit t48; Hole; Lit t24]];
  mkSite "parts/controllers.py" 129%positive false 1 [] [[Lit t15]];
  mkSite "parts/controllers.py" 143%positive false 1 [] [[Lit t49]];
  mkSite "parts/controllers.py" 153%positive false 1 [] [[Lit t15]];
  mkSite "parts/controllers.py" 174%positive false 1 [] [[Lit t15]];
  mkSite "parts/controllers.py" 270%positive false 1 [] [[Lit t15]];
  mkSite "parts/controllers.py" 314%positive true 1 [] [[Lit t16; Hole; Lit t50]];
  mkSite "parts/controllers.py" 317%positive true 1 [] [[Lit t16; Hole; Lit t50]];
  mkSite "parts/controllers.py" 323%positive true 1 [] [[Lit t16; Hole; Lit t50]];
  mkSite "parts/controllers.py" 326%positive true 1 [] [[Lit t16; Hole; Lit t50]];
  mkSite "parts/controllers.py" 345%positive true 1 [] [[Lit t16; Hole; Lit t51]];
  mkSite "parts/controllers.py" 359%positive true 1 [] [[Lit t15]];
  mkSite "parts/controllers.py" 505%positive false 1 [] [[Lit t15]];
  mkSite "parts/controllers.py" 563%positive false 1 [] [[Lit t52]];
  mkSite "parts/controllers.py" 581%positive false 1 [] [[Lit t15]];
  mkSite "parts/controllers.py" 601%positive false 1 [] [[Lit t15]];
  mkSite "parts/controllers.py" 682%positive false 1 [] [[Lit t15]];
  mkSite "parts/controllers.py" 702%positive false 1 [] [[Lit t15]];
  mkSite "parts/controllers.py" 738%positive false 1 [] [[Lit t15]];
  mkSite "parts/controllers.py" 739%positive false 1 [] [[Lit t53]];
  mkSite "parts/controllers.py" 816%positive false 1 [] [[Lit t15]];
  mkSite "parts/controllers.py" 817%positive false 1 [] [[Lit t54]];
  mkSite "parts/controllers.py" 864%positive false 1 [] [[Lit t15]];
  mkSite "parts/controllers.py" 865%positive false 1 [] [[Lit t55]];
  mkSite "parts/controllers.py" 930%positive false 1 [] [[Lit t15]];
  mkSite "parts/controllers.py" 976%positive false 1 [] [[Lit t15]];
  mkSite "parts/controllers.py" 977%positive false 2 [] [[Lit t56]];
  mkSite "parts/controllers.py" 1002%positive false 1 [] [[Lit t15]];
  mkSite "parts/controllers.py" 1018%positive false 1 [] [[Lit t16; Hole; Lit t57]];
  mkSite "parts/controllers.py" 1020%positive false 1 [] [[Lit t15]];
  mkSite "parts/controllers.py" 1049%positive false 1 [] [[Lit t16; Hole; Lit t58]];
  mkSite "parts/controllers.py" 1051%positive false 1 [] [[Lit t15]];
  mkSite "parts/controllers.py" 1091%positive false 1 [] [[Lit t15]];
  mkSite "parts/controllers.py" 1092%positive false 1 [] [[Lit t59]];
  mkSite "parts/controllers.py" 1296%positive false 1 [] [[Lit t60]];
  mkSite "parts/controllers.py" 1297%positive false 1 [] [[Lit t61]];
  mkSite "parts/controllers.py" 1300%positive false 1 [] [[Lit t62]];
  mkSite "parts/controllers.py" 1303%positive false 1 [] [[Lit t63]];
  mkSite "parts/controllers.py" 1308%positive false 1 [] [[Lit t64]];
  mkSite "parts/controllers.py" 1336%positive false 1 [] [[Lit t65]];
  mkSite "parts/controllers.py" 1339%positive true 1 [] [[Lit t66]];
  mkSite "parts/controllers.py" 1418%positive false 1 [] [[Lit t65]];
  mkSite "parts/controllers.py" 1421%positive true 1 [] [[Lit t67]];
  mkSite "parts/controllers.py" 1480%positive true 1 [] [[Lit t68]];
  mkSite "parts/controllers.py" 1497%positive true 1 [] [[Lit t69]];
  mkSite "parts/controllers.py" 1503%positive false 1 [] [[Lit t70]];
  mkSite "parts/controllers.py" 1509%positive false 1 [] [[Lit t70]];
  mkSite "parts/controllers.py" 1510%positive false 1 [] [[Lit t65]];
  mkSite "parts/controllers.py" 1516%positive true 1 [] [[Lit t66]];
  mkSite "parts/controllers.py" 1547%positive true 1 [] [[Lit t71]];
  mkSite "parts/controllers.py" 1563%positive false 1 [] [[Lit t72]];
  mkSite "parts/heated_pipe.py" 77%positive false 1 [] [[Lit t34]];
  mkSite "parts/heated_pipe.py" 106%positive false 1 [] [[Lit t34]];
  mkSite "parts/heated_pipe.py" 127%positive false 1 [] [[Lit t34]];
  mkSite "parts/heated_pipe.py" 160%positive false 1 [] [[Lit t36; Hole; Lit t37; Hole; Lit t38]; [Lit t39; Hole; Lit t38]; [Lit t40; Hole; Lit t38]; [Lit t41; Hole; Lit t38]; [Lit t42; Hole; Lit t38]; [Lit t43; Hole; Lit t38]; [Lit t44; Hole; Lit t38]];
  mkSite "parts/heated_pipe.py" 162%positive false 1 [] [[Lit t34]];
  mkSite "parts/heatexchanger.py" 61%positive false 2 [] [[Lit t47]];
  mkSite "parts/heatexchanger.py" 73%positive false 1 [] [[Lit t34]];
  mkSite "parts/heatexchanger.py" 86%positive false 1 [] [[Lit t34]];
  mkSite "parts/heatexchanger.py" 102%positive false 1 [] [[Lit t34]];
  mkSite "parts/heatexchanger.py" 117%positive false 1 [] [[Lit t34]];
  mkSite "parts/heatexchanger.py" 575%positive false 1 [] [[Lit t34]];
  mkSite "parts/heatexchanger.py" 582%positive false 1 [] [[Lit t34]];
  mkSite "parts/heatexchanger.py" 604%positive false 1 [] [[Lit t34]];
  mkSite "parts/heatexchanger.py" 611%positive false 1 [] [[Lit t34]];
  mkSite "parts/heatexchanger.py" 618%positive false 1 [] [[Lit t34]];
  mkSite "parts/heatexchanger.py" 626%positive false 1 [] [[Lit t34]];
  mkSite "parts/heatexchanger.py" 633%positive false 1 [] [[Lit t34]];
  mkSite "parts/heatexchanger.py" 639%positive false 1 [] [[Lit t34]];
  mkSite "parts/heatexchanger.py" 647%positive false 1 [] [[Lit t34]];
  mkSite "parts/heatexchanger.py" 654%positive false 1 [] [[Lit t34]];
  mkSite "parts/heatexchanger.py" 663%positive false 1 [] [[Lit t34]];
  mkSite "parts/heatexchanger.py" 892%positive true 1 [] [[Lit t73; Hole; Lit t74]];
  mkSite "parts/hex_condensing_polynome.py" 52%positive false 2 [] [[Lit t47]];
  mkSite "parts/hex_condensing_polynome.py" 66%positive false 1 [] [[Lit t34]];
  mkSite "parts/hex_condensing_polynome.py" 76%positive false 1 [] [[Lit t34]];
  mkSite "parts/hex_condensing_polynome.py" 121%positive false 1 [] [[Lit t34]];
  mkSite "parts/hex_condensing_polynome.py" 142%positive false 1 [] [[Lit t34]];
  mkSite "parts/hex_num.py" 49%positive false 2 [] [[Lit t47]];
  mkSite "parts/hex_num.py" 61%positive false 1 [] [[Lit t75; Hole; Lit t76]];
  mkSite "parts/hex_num.py" 63%positive false 1 [] [[Lit t34]];
  mkSite "parts/hex_num.py" 75%positive false 1 [] [[Lit t34]];
  mkSite "parts/hex_num.py" 95%positive false 1 [] [[Lit t34]];
  mkSite "parts/hex_num.py" 111%positive false 1 [] [[Lit t34]];
  mkSite "parts/hex_num.py" 126%positive false 1 [] [[Lit t34]];
  mkSite "parts/hex_num.py" 166%positive false 1 [] [[Lit t34]];
  mkSite "parts/hex_num.py" 399%positive false 1 [] [[Lit t34]];
  mkSite "parts/hex_num.py" 720%positive false 1 [] [[Lit t34]];
  mkSite "parts/hex_num.py" 727%positive false 1 [] [[Lit t34]];
  mkSite "parts/hex_num.py" 749%positive false 1 [] [[Lit t34]];
  mkSite "parts/hex_num.py" 756%positive false 1 [] [[Lit t34]];
  mkSite "parts/hex_num.py" 763%positive false 1 [] [[Lit t34]];
  mkSite "parts/hex_num.py" 771%positive false 1 [] [[Lit t34]];
  mkSite "parts/hex_num.py" 778%positive false 1 [] [[Lit t34]];
  mkSite "parts/hex_num.py" 784%positive false 1 [] [[Lit t34]];
  mkSite "parts/hex_num.py" 792%positive false 1 [] [[Lit t34]];
  mkSite "parts/hex_num.py" 799%positive false 1 [] [[Lit t34]];
  mkSite "parts/hex_num.py" 808%positive false 1 [] [[Lit t34]];
  mkSite "parts/hex_num.py" 1037%positive true 1 [] [[Lit t75; Hole; Lit t74]];
  mkSite "parts/mixingvalve.py" 51%positive false 2 [] [[Lit t47]];
  mkSite "parts/mixingvalve.py" 303%positive false 1 [] [[Lit t77; Hole; Lit t38]];
  mkSite "parts/mixingvalve.py" 305%positive false 1 [] [[Lit t34]];
  mkSite "parts/part_modules/chp_with_fluegas_hex.py" 108%positive false 1 [] [[Lit t78]];
  mkSite "parts/part_modules/chp_with_fluegas_hex.py" 119%positive false 1 [] [[Lit t79]];
  mkSite "parts/part_modules/chp_with_fluegas_hex.py" 123%positive false 1 [] [[Lit t80]];
  mkSite "parts/part_modules/chp_with_fluegas_hex.py" 144%positive false 1 [] [[Lit t78]];
  mkSite "parts/part_modules/chp_with_fluegas_hex.py" 146%positive false 1 [] [[Lit t80]];
  mkSite "parts/part_modules/chp_with_fluegas_hex.py" 160%positive false 1 [] [[Lit t81]];
  mkSite "parts/part_modules/chp_with_fluegas_hex.py" 176%positive false 1 [] [[Lit t81]];
  mkSite "parts/part_modules/chp_with_fluegas_hex.py" 178%positive false 1 [] [[Lit t78]];
  mkSite "parts/part_modules/chp_with_fluegas_hex.py" 184%positive false 1 [] [[Lit t82]];
  mkSite "parts/part_modules/chp_with_fluegas_hex.py" 199%positive false 1 [] [[Lit t83]];
  mkSite "parts/part_modules/chp_with_fluegas_hex.py" 221%positive false 1 [] [[Lit t83]];
  mkSite "parts/part_modules/chp_with_fluegas_hex.py" 223%positive false 1 [] [[Lit t81]];
  mkSite "parts/part_modules/chp_with_fluegas_hex.py" 229%positive false 1 [] [[Lit t84]];
  mkSite "parts/part_modules/chp_with_fluegas_hex.py" 240%positive false 1 [] [[Lit t84]];
  mkSite "parts/part_modules/chp_with_fluegas_hex.py" 242%positive false 1 [] [[Lit t83]];
  mkSite "parts/part_modules/chp_with_fluegas_hex.py" 248%positive false 1 [] [[Lit t79]];
  mkSite "parts/part_modules/chp_with_fluegas_hex.py" 258%positive false 1 [] [[Lit t82]];
  mkSite "parts/part_modules/chp_with_fluegas_hex.py" 260%positive false 1 [] [[Lit t79]];
  mkSite "parts/part_modules/chp_with_fluegas_hex.py" 264%positive false 1 [] [[Lit t79]];
  mkSite "parts/part_modules/chp_with_fluegas_hex.py" 266%positive false 1 [] [[Lit t81]];
  mkSite "parts/part_modules/chp_with_fluegas_hex.py" 271%positive false 1 [] [[Lit t85]];
  mkSite "parts/part_modules/chp_with_fluegas_hex.py" 276%positive false 1 [] [[Lit t86]];
  mkSite "parts/part_modules/chp_with_fluegas_hex.py" 282%positive false 1 [] [[Lit t85]];
  mkSite "parts/part_modules/chp_with_fluegas_hex.py" 283%positive false 1 [] [[Lit t79]];
  mkSite "parts/part_modules/chp_with_fluegas_hex.py" 288%positive false 1 [] [[Lit t86]];
  mkSite "parts/part_modules/chp_with_fluegas_hex.py" 289%positive false 1 [] [[Lit t79]];
  mkSite "parts/part_modules/chp_with_fluegas_hex.py" 295%positive false 1 [] [[Lit t80]];
  mkSite "parts/part_modules/chp_with_fluegas_hex.py" 301%positive false 1 [] [[Lit t82]];
  mkSite "parts/part_modules/chp_with_fluegas_hex.py" 307%positive false 1 [] [[Lit t83]];
  mkSite "parts/part_modules/chp_with_fluegas_hex.py" 313%positive false 1 [] [[Lit t84]];
  mkSite "parts/part_modules/chp_with_fluegas_hex.py" 323%positive false 1 [] [[Lit t81]];
  mkSite "parts/part_modules/chp_with_fluegas_hex.py" 339%positive false 1 [] [[Lit t81]];
  mkSite "parts/part_modules/chp_with_fluegas_hex.py" 341%positive false 1 [] [[Lit t78]];
  mkSite "parts/part_modules/chp_with_fluegas_hex.py" 347%positive false 1 [] [[Lit t82]];
  mkSite "parts/part_modules/chp_with_fluegas_hex.py" 361%positive false 1 [] [[Lit t87]];
  mkSite "parts/part_modules/chp_with_fluegas_hex.py" 373%positive false 1 [] [[Lit t87]];
  mkSite "parts/part_modules/chp_with_fluegas_hex.py" 375%positive false 1 [] [[Lit t81]];
  mkSite "parts/part_modules/chp_with_fluegas_hex.py" 381%positive false 1 [] [[Lit t79]];
  mkSite "parts/part_modules/chp_with_fluegas_hex.py" 391%positive false 1 [] [[Lit t82]];
  mkSite "parts/part_modules/chp_with_fluegas_hex.py" 393%positive false 1 [] [[Lit t79]];
  mkSite "parts/part_modules/chp_with_fluegas_hex.py" 397%positive false 1 [] [[Lit t79]];
  mkSite "parts/part_modules/chp_with_fluegas_hex.py" 399%positive false 1 [] [[Lit t81]];
  mkSite "parts/part_modules/chp_with_fluegas_hex.py" 404%positive false 1 [] [[Lit t85]];
  mkSite "parts/part_modules/chp_with_fluegas_hex.py" 409%positive false 1 [] [[Lit t86]];
  mkSite "parts/part_modules/chp_with_fluegas_hex.py" 415%positive false 1 [] [[Lit t85]];
  mkSite "parts/part_modules/chp_with_fluegas_hex.py" 416%positive false 1 [] [[Lit t79]];
  mkSite "parts/part_modules/chp_with_fluegas_hex.py" 421%positive false 1 [] [[Lit t86]];
  mkSite "parts/part_modules/chp_with_fluegas_hex.py" 422%positive false 1 [] [[Lit t79]];
  mkSite "parts/part_modules/chp_with_fluegas_hex.py" 428%positive false 1 [] [[Lit t80]];
  mkSite "parts/part_modules/chp_with_fluegas_hex.py" 434%positive false 1 [] [[Lit t82]];
  mkSite "parts/part_modules/chp_with_fluegas_hex.py" 440%positive false 1 [] [[Lit t87]];
  mkSite "parts/part_modules/chp_with_fluegas_hex.py" 449%positive false 1 [] [[Lit t88]];
  mkSite "parts/part_modules/chp_with_fluegas_hex.py" 460%positive false 1 [] [[Lit t88]];
  mkSite "parts/part_modules/chp_with_fluegas_hex.py" 462%positive false 1 [] [[Lit t78]];
  mkSite "parts/part_modules/chp_with_fluegas_hex.py" 468%positive false 1 [] [[Lit t82]];
  mkSite "parts/part_modules/chp_with_fluegas_hex.py" 481%positive false 1 [] [[Lit t79]];
  mkSite "parts/part_modules/chp_with_fluegas_hex.py" 491%positive false 1 [] [[Lit t82]];
  mkSite "parts/part_modules/chp_with_fluegas_hex.py" 493%positive false 1 [] [[Lit t79]];
  mkSite "parts/part_modules/chp_with_fluegas_hex.py" 497%positive false 1 [] [[Lit t79]];
  mkSite "parts/part_modules/chp_with_fluegas_hex.py" 499%positive false 1 [] [[Lit t88]];
  mkSite "parts/part_modules/chp_with_fluegas_hex.py" 504%positive false 1 [] [[Lit t85]];
  mkSite "parts/part_modules/chp_with_fluegas_hex.py" 509%positive false 1 [] [[Lit t86]];
  mkSite "parts/part_modules/chp_with_fluegas_hex.py" 515%positive false 1 [] [[Lit t85]];
  mkSite "parts/part_modules/chp_with_fluegas_hex.py" 516%positive false 1 [] [[Lit t79]];
  mkSite "parts/part_modules/chp_with_fluegas_hex.py" 521%positive false 1 [] [[Lit t86]];
  mkSite "parts/part_modules/chp_with_fluegas_hex.py" 522%positive false 1 [] [[Lit t79]];
  mkSite "parts/part_modules/chp_with_fluegas_hex.py" 528%positive false 1 [] [[Lit t80]];
  mkSite "parts/part_modules/chp_with_fluegas_hex.py" 534%positive false 1 [] [[Lit t82]];
  mkSite "parts/part_modules/chp_with_fluegas_hex.py" 551%positive false 1 [] [[Lit t89]];
  mkSite "parts/part_modules/chp_with_fluegas_hex.py" 552%positive false 1 [] [[Lit t78]];
  mkSite "parts/part_modules/chp_with_fluegas_hex.py" 555%positive false 1 [] [[Lit t81]; [Lit t88]];
  mkSite "parts/part_modules/chp_with_fluegas_hex.py" 584%positive false 1 [] [[Lit t90]];
  mkSite "parts/part_modules/chp_with_fluegas_hex.py" 585%positive false 1 [] [[Lit t80]];
  mkSite "parts/part_modules/chp_with_fluegas_hex.py" 588%positive false 1 [] [[Lit t78]];
  mkSite "parts/part_modules/chp_with_fluegas_hex.py" 596%positive false 1 [] [[Lit t78]];
  mkSite "parts/part_modules/chp_with_fluegas_hex.py" 618%positive false 1 [] [[Lit t90]];
  mkSite "parts/part_modules/chp_with_fluegas_hex.py" 619%positive false 1 [] [[Lit t80]];
  mkSite "parts/part_modules/chp_with_fluegas_hex.py" 622%positive false 1 [] [[Lit t78]];
  mkSite "parts/part_modules/chp_with_fluegas_hex.py" 630%positive false 1 [] [[Lit t78]];
  mkSite "parts/part_modules/chp_with_fluegas_hex.py" 654%positive false 1 [] [[Lit t91]];
  mkSite "parts/part_modules/chp_with_fluegas_hex.py" 655%positive false 1 [] [[Lit t81]];
  mkSite "parts/part_modules/chp_with_fluegas_hex.py" 659%positive false 1 [] [[Lit t81]];
  mkSite "parts/part_modules/chp_with_fluegas_hex.py" 681%positive false 1 [] [[Lit t91]];
  mkSite "parts/part_modules/chp_with_fluegas_hex.py" 682%positive false 1 [] [[Lit t81]];
  mkSite "parts/part_modules/chp_with_fluegas_hex.py" 686%positive false 1 [] [[Lit t81]];
  mkSite "parts/part_modules/chp_with_fluegas_hex.py" 719%positive false 1 [] [[Lit t92]];
  mkSite "parts/part_modules/chp_with_fluegas_hex.py" 720%positive false 1 [] [[Lit t83]];
  mkSite "parts/part_modules/chp_with_fluegas_hex.py" 724%positive false 1 [] [[Lit t83]];
  mkSite "parts/part_modules/chp_with_fluegas_hex.py" 744%positive false 1 [] [[Lit t92]];
  mkSite "parts/part_modules/chp_with_fluegas_hex.py" 745%positive false 1 [] [[Lit t83]];
  mkSite "parts/part_modules/chp_with_fluegas_hex.py" 749%positive false 1 [] [[Lit t83]];
  mkSite "parts/part_modules/consumers.py" 128%positive false 1 [] [[Lit t93]];
  mkSite "parts/part_modules/consumers.py" 146%positive false 1 [] [[Lit t93]];
  mkSite "parts/part_modules/consumers.py" 152%positive false 1 [] [[Lit t94]];
  mkSite "parts/part_modules/consumers.py" 165%positive false 1 [] [[Lit t93]];
  mkSite "parts/part_modules/consumers.py" 167%positive false 1 [] [[Lit t94]];
  mkSite "parts/part_modules/consumers.py" 174%positive false 1 [] [[Lit t95]];
  mkSite "parts/part_modules/consumers.py" 191%positive false 1 [] [[Lit t94]];
  mkSite "parts/part_modules/consumers.py" 193%positive false 1 [] [[Lit t95]];
  mkSite "parts/part_modules/consumers.py" 198%positive false 1 [] [[Lit t96]];
  mkSite "parts/part_modules/consumers.py" 217%positive false 1 [] [[Lit t94]];
  mkSite "parts/part_modules/consumers.py" 219%positive false 1 [] [[Lit t96]];
  mkSite "parts/part_modules/consumers.py" 226%positive false 1 [] [[Lit t97]];
  mkSite "parts/part_modules/consumers.py" 245%positive false 1 [] [[Lit t95]];
  mkSite "parts/part_modules/consumers.py" 247%positive false 1 [] [[Lit t97]];
  mkSite "parts/part_modules/consumers.py" 252%positive false 1 [] [[Lit t98]];
  mkSite "parts/part_modules/consumers.py" 267%positive false 1 [] [[Lit t96]];
  mkSite "parts/part_modules/consumers.py" 269%positive false 1 [] [[Lit t98]];
  mkSite "parts/part_modules/consumers.py" 277%positive false 1 [] [[Lit t99]];
  mkSite "parts/part_modules/consumers.py" 290%positive false 1 [] [[Lit t98]];
  mkSite "parts/part_modules/consumers.py" 292%positive false 1 [] [[Lit t99]];
  mkSite "parts/part_modules/consumers.py" 296%positive false 1 [] [[Lit t99]];
  mkSite "parts/part_modules/consumers.py" 304%positive false 1 [] [[Lit t100]];
  mkSite "parts/part_modules/consumers.py" 316%positive false 1 [] [[Lit t99]];
  mkSite "parts/part_modules/consumers.py" 318%positive false 1 [] [[Lit t100]];
  mkSite "parts/part_modules/consumers.py" 322%positive false 1 [] [[Lit t100]];
  mkSite "parts/part_modules/consumers.py" 324%positive false 1 [] [[Lit t93]];
  mkSite "parts/part_modules/consumers.py" 330%positive false 1 [] [[Lit t101]];
  mkSite "parts/part_modules/consumers.py" 342%positive false 1 [] [[Lit t97]];
  mkSite "parts/part_modules/consumers.py" 344%positive false 1 [] [[Lit t101]];
  mkSite "parts/part_modules/consumers.py" 348%positive false 1 [] [[Lit t101]];
  mkSite "parts/part_modules/consumers.py" 358%positive false 1 [] [[Lit t102]];
  mkSite "parts/part_modules/consumers.py" 370%positive false 1 [] [[Lit t98]];
  mkSite "parts/part_modules/consumers.py" 372%positive false 1 [] [[Lit t102]];
  mkSite "parts/part_modules/consumers.py" 378%positive false 1 [] [[Lit t103]];
  mkSite "parts/part_modules/consumers.py" 391%positive false 1 [] [[Lit t97]];
  mkSite "parts/part_modules/consumers.py" 393%positive false 1 [] [[Lit t103]];
  mkSite "parts/part_modules/consumers.py" 397%positive false 1 [] [[Lit t102]];
  mkSite "parts/part_modules/consumers.py" 399%positive false 1 [] [[Lit t103]];
  mkSite "parts/part_modules/consumers.py" 403%positive false 1 [] [[Lit t104]];
  mkSite "parts/part_modules/consumers.py" 408%positive false 1 [] [[Lit t103]];
  mkSite "parts/part_modules/consumers.py" 411%positive false 1 [] [[Lit t104]];
  mkSite "parts/part_modules/consumers.py" 416%positive false 1 [] [[Lit t105]];
  mkSite "parts/part_modules/consumers.py" 431%positive false 1 [] [[Lit t105]];
  mkSite "parts/part_modules/consumers.py" 433%positive false 1 [] [[Lit t98]];
  mkSite "parts/part_modules/consumers.py" 437%positive false 1 [] [[Lit t106]];
  mkSite "parts/part_modules/consumers.py" 443%positive false 1 [] [[Lit t106]];
  mkSite "parts/part_modules/consumers.py" 444%positive false 1 [] [[Lit t105]];
  mkSite "parts/part_modules/consumers.py" 450%positive false 1 [] [[Lit t107]];
  mkSite "parts/part_modules/consumers.py" 465%positive false 1 [] [[Lit t108]];
  mkSite "parts/part_modules/consumers.py" 471%positive false 1 [] [[Lit t108]];
  mkSite "parts/part_modules/consumers.py" 472%positive false 1 [] [[Lit t107]];
  mkSite "parts/part_modules/consumers.py" 476%positive false 1 [] [[Lit t107]];
  mkSite "parts/part_modules/consumers.py" 478%positive false 1 [] [[Lit t97]];
  mkSite "parts/part_modules/consumers.py" 486%positive false 1 [] [[Lit t109]];
  mkSite "parts/part_modules/consumers.py" 488%positive false 1 [] [[Lit t93]];
  mkSite "parts/part_modules/consumers.py" 489%positive false 1 [] [[Lit t93]];
  mkSite "parts/part_modules/consumers.py" 511%positive false 1 [] [[Lit t110]];
  mkSite "parts/part_modules/consumers.py" 513%positive false 1 [] [[Lit t95]];
  mkSite "parts/part_modules/consumers.py" 514%positive false 1 [] [[Lit t103]];
  mkSite "parts/part_modules/consumers.py" 521%positive false 1 [] [[Lit t107]];
  mkSite "parts/part_modules/consumers.py" 546%positive false 1 [] [[Lit t111]];
  mkSite "parts/part_modules/consumers.py" 548%positive false 1 [] [[Lit t96]];
  mkSite "parts/part_modules/consumers.py" 549%positive false 1 [] [[Lit t102]];
  mkSite "parts/part_modules/consumers.py" 572%positive false 1 [] [[Lit t112]];
  mkSite "parts/part_modules/consumers.py" 575%positive false 1 [] [[Lit t112]];
  mkSite "parts/part_modules/consumers.py" 578%positive false 1 [] [[Lit t112]];
  mkSite "parts/part_modules/consumers.py" 581%positive false 1 [] [[Lit t112]];
  mkSite "parts/part_modules/consumers.py" 584%positive false 1 [] [[Lit t112]];
  mkSite "parts/part_modules/consumers.py" 587%positive false 1 [] [[Lit t112]];
  mkSite "parts/part_modules/consumers.py" 590%positive false 1 [] [[Lit t112]];
  mkSite "parts/part_modules/consumers.py" 593%positive false 1 [] [[Lit t112]];
  mkSite "parts/part_modules/consumers.py" 596%positive false 1 [] [[Lit t112]];
  mkSite "parts/part_modules/consumers.py" 599%positive false 1 [] [[Lit t112]];
  mkSite "parts/part_modules/consumers.py" 739%positive false 1 [] [[Lit t113]];
  mkSite "parts/part_modules/consumers.py" 757%positive false 1 [] [[Lit t114]];
  mkSite "parts/part_modules/consumers.py" 777%positive false 1 [] [[Lit t114]];
  mkSite "parts/part_modules/consumers.py" 782%positive false 1 [] [[Lit t115]];
  mkSite "parts/part_modules/consumers.py" 798%positive false 1 [] [[Lit t114]];
  mkSite "parts/part_modules/consumers.py" 800%positive false 1 [] [[Lit t115]];
  mkSite "parts/part_modules/consumers.py" 807%positive false 1 [] [[Lit t116]];
  mkSite "parts/part_modules/consumers.py" 820%positive false 1 [] [[Lit t116]];
  mkSite "parts/part_modules/consumers.py" 828%positive false 1 [] [[Lit t117]];
  mkSite "parts/part_modules/consumers.py" 840%positive false 1 [] [[Lit t116]];
  mkSite "parts/part_modules/consumers.py" 842%positive false 1 [] [[Lit t117]];
  mkSite "parts/part_modules/consumers.py" 846%positive false 1 [] [[Lit t117]];
  mkSite "parts/part_modules/consumers.py" 848%positive false 1 [] [[Lit t114]];
  mkSite "parts/part_modules/consumers.py" 855%positive false 1 [] [[Lit t118]];
  mkSite "parts/part_modules/consumers.py" 874%positive false 1 [] [[Lit t115]];
  mkSite "parts/part_modules/consumers.py" 876%positive false 1 [] [[Lit t118]];
  mkSite "parts/part_modules/consumers.py" 880%positive false 1 [] [[Lit t118]];
  mkSite "parts/part_modules/consumers.py" 882%positive false 1 [] [[Lit t116]];
  mkSite "parts/part_modules/consumers.py" 889%positive false 1 [] [[Lit t119]];
  mkSite "parts/part_modules/consumers.py" 901%positive false 1 [] [[Lit t118]];
  mkSite "parts/part_modules/consumers.py" 903%positive false 1 [] [[Lit t119]];
  mkSite "parts/part_modules/consumers.py" 907%positive false 1 [] [[Lit t119]];
  mkSite "parts/part_modules/consumers.py" 909%positive false 1 [] [[Lit t113]];
  mkSite "parts/part_modules/consumers.py" 914%positive false 1 [] [[Lit t120]];
  mkSite "parts/part_modules/consumers.py" 930%positive false 1 [] [[Lit t113]];
  mkSite "parts/part_modules/consumers.py" 932%positive false 1 [] [[Lit t120]];
  mkSite "parts/part_modules/consumers.py" 936%positive false 1 [] [[Lit t120]];
  mkSite "parts/part_modules/consumers.py" 938%positive false 1 [] [[Lit t118]];
  mkSite "parts/part_modules/consumers.py" 946%positive false 1 [] [[Lit t121]];
  mkSite "parts/part_modules/consumers.py" 958%positive false 1 [] [[Lit t113]];
  mkSite "parts/part_modules/consumers.py" 960%positive false 1 [] [[Lit t121]];
  mkSite "parts/part_modules/consumers.py" 964%positive false 1 [] [[Lit t104]];
  mkSite "parts/part_modules/consumers.py" 969%positive false 1 [] [[Lit t121]];
  mkSite "parts/part_modules/consumers.py" 972%positive false 1 [] [[Lit t104]];
  mkSite "parts/part_modules/consumers.py" 978%positive false 1 [] [[Lit t122]];
  mkSite "parts/part_modules/consumers.py" 994%positive false 1 [] [[Lit t122]];
  mkSite "parts/part_modules/consumers.py" 996%positive false 1 [] [[Lit t113]];
  mkSite "parts/part_modules/consumers.py" 1000%positive false 1 [] [[Lit t106]];
  mkSite "parts/part_modules/consumers.py" 1006%positive false 1 [] [[Lit t106]];
  mkSite "parts/part_modules/consumers.py" 1007%positive false 1 [] [[Lit t122]];
  mkSite "parts/part_modules/consumers.py" 1014%positive false 1 [] [[Lit t123]];
  mkSite "parts/part_modules/consumers.py" 1029%positive false 1 [] [[Lit t108]];
  mkSite "parts/part_modules/consumers.py" 1035%positive false 1 [] [[Lit t108]];
  mkSite "parts/part_modules/consumers.py" 1036%positive false 1 [] [[Lit t123]];
  mkSite "parts/part_modules/consumers.py" 1040%positive false 1 [] [[Lit t123]];
  mkSite "parts/part_modules/consumers.py" 1042%positive false 1 [] [[Lit t113]];
  mkSite "parts/part_modules/consumers.py" 1050%positive false 1 [] [[Lit t124]];
  mkSite "parts/part_modules/consumers.py" 1052%positive false 1 [] [[Lit t114]];
  mkSite "parts/part_modules/consumers.py" 1053%positive false 1 [] [[Lit t114]];
  mkSite "parts/part_modules/consumers.py" 1075%positive false 1 [] [[Lit t125]];
  mkSite "parts/part_modules/consumers.py" 1077%positive false 1 [] [[Lit t115]];
  mkSite "parts/part_modules/consumers.py" 1078%positive false 1 [] [[Lit t119]];
  mkSite "parts/part_modules/consumers.py" 1086%positive false 1 [] [[Lit t120]];
  mkSite "parts/part_modules/consumers.py" 1111%positive false 1 [] [[Lit t126]];
  mkSite "parts/part_modules/consumers.py" 1113%positive false 1 [] [[Lit t120]];
  mkSite "parts/part_modules/consumers.py" 1114%positive false 1 [] [[Lit t113]];
  mkSite "parts/part_modules/consumers.py" 1145%positive false 1 [] [[Lit t127]];
  mkSite "parts/part_modules/consumers.py" 1148%positive false 1 [] [[Lit t127]];
  mkSite "parts/part_modules/consumers.py" 1151%positive false 1 [] [[Lit t127]];
  mkSite "parts/part_modules/consumers.py" 1154%positive false 1 [] [[Lit t127]];
  mkSite "parts/part_modules/consumers.py" 1157%positive false 1 [] [[Lit t127]];
  mkSite "parts/part_modules/consumers.py" 1160%positive false 1 [] [[Lit t127]];
  mkSite "parts/part_modules/consumers.py" 1163%positive false 1 [] [[Lit t127]];
  mkSite "parts/part_modules/consumers.py" 1166%positive false 1 [] [[Lit t127]];
  mkSite "parts/part_modules/consumers.py" 1169%positive false 1 [] [[Lit t127]];
  mkSite "parts/part_modules/consumers.py" 1172%positive false 1 [] [[Lit t127]];
  mkSite "parts/part_modules/consumers.py" 1175%positive false 1 [] [[Lit t127]];
  mkSite "parts/part_modules/consumers.py" 1178%positive false 1 [] [[Lit t127]];
  mkSite "parts/part_modules/consumers.py" 1181%positive false 1 [] [[Lit t127]];
  mkSite "parts/part_modules/consumers.py" 1184%positive false 1 [] [[Lit t127]];
  mkSite "parts/part_modules/consumers.py" 1187%positive false 1 [] [[Lit t127]];
  mkSite "parts/part_modules/consumers.py" 1288%positive false 1 [] [[Lit t128]];
  mkSite "parts/part_modules/consumers.py" 1305%positive false 1 [] [[Lit t129]];
  mkSite "parts/part_modules/consumers.py" 1310%positive false 1 [] [[Lit t128]];
  mkSite "parts/part_modules/consumers.py" 1313%positive false 1 [] [[Lit t129]];
  mkSite "parts/part_modules/consumers.py" 1319%positive false 1 [] [[Lit t130]];
  mkSite "parts/part_modules/consumers.py" 1332%positive false 1 [] [[Lit t131]];
  mkSite "parts/part_modules/consumers.py" 1338%positive false 1 [] [[Lit t131]];
  mkSite "parts/part_modules/consumers.py" 1339%positive false 1 [] [[Lit t130]];
  mkSite "parts/part_modules/consumers.py" 1343%positive false 1 [] [[Lit t130]];
  mkSite "parts/part_modules/consumers.py" 1354%positive false 1 [] [[Lit t132]];
  mkSite "parts/part_modules/consumers.py" 1376%positive false 1 [] [[Lit t132]];
  mkSite "parts/part_modules/consumers.py" 1378%positive false 1 [] [[Lit t128]];
  mkSite "parts/part_modules/consumers.py" 1384%positive false 1 [] [[Lit t133]];
  mkSite "parts/part_modules/consumers.py" 1401%positive false 1 [] [[Lit t133]];
  mkSite "parts/part_modules/consumers.py" 1403%positive false 1 [] [[Lit t132]];
  mkSite "parts/part_modules/consumers.py" 1409%positive false 1 [] [[Lit t133]];
  mkSite "parts/part_modules/consumers.py" 1413%positive false 1 [] [[Lit t133]];
  mkSite "parts/part_modules/consumers.py" 1415%positive false 1 [] [[Lit t130]];
  mkSite "parts/part_modules/consumers.py" 1428%positive false 1 [] [[Lit t134]];
  mkSite "parts/part_modules/consumers.py" 1440%positive false 1 [] [[Lit t132]];
  mkSite "parts/part_modules/consumers.py" 1442%positive false 1 [] [[Lit t134]];
  mkSite "parts/part_modules/consumers.py" 1451%positive false 1 [] [[Lit t135]];
  mkSite "parts/part_modules/consumers.py" 1468%positive false 1 [] [[Lit t134]];
  mkSite "parts/part_modules/consumers.py" 1470%positive false 1 [] [[Lit t135]];
  mkSite "parts/part_modules/consumers.py" 1474%positive false 1 [] [[Lit t135]];
  mkSite "parts/part_modules/consumers.py" 1476%positive false 1 [] [[Lit t130]];
  mkSite "parts/part_modules/consumers.py" 1483%positive false 1 [] [[Lit t136]];
  mkSite "parts/part_modules/consumers.py" 1485%positive false 1 [] [[Lit t133]];
  mkSite "parts/part_modules/consumers.py" 1486%positive false 1 [] [[Lit t133]];
  mkSite "parts/part_modules/consumers.py" 1509%positive false 1 [] [[Lit t137]];
  mkSite "parts/part_modules/consumers.py" 1511%positive false 1 [] [[Lit t132]];
  mkSite "parts/part_modules/consumers.py" 1512%positive false 1 [] [[Lit t132]];
  mkSite "parts/part_modules/consumers.py" 1536%positive false 1 [] [[Lit t138]];
  mkSite "parts/part_modules/consumers.py" 1538%positive false 1 [] [[Lit t135]];
  mkSite "parts/part_modules/consumers.py" 1540%positive false 1 [] [[Lit t135]];
  mkSite "parts/part_modules/consumers.py" 1547%positive false 1 [] [[Lit t137]];
  mkSite "parts/part_modules/consumers.py" 1566%positive false 1 [] [[Lit t139]];
  mkSite "parts/part_modules/consumers.py" 1570%positive false 1 [] [[Lit t139]];
  mkSite "parts/part_modules/consumers.py" 1573%positive false 1 [] [[Lit t139]];
  mkSite "parts/part_modules/consumers.py" 1576%positive false 1 [] [[Lit t139]];
  mkSite "parts/part_modules/consumers.py" 1579%positive false 1 [] [[Lit t139]];
  mkSite "parts/part_modules/consumers.py" 1582%positive false 1 [] [[Lit t139]];
  mkSite "parts/part_modules/consumers.py" 1585%positive false 1 [] [[Lit t139]];
  mkSite "parts/part_modules/consumers.py" 1588%positive false 1 [] [[Lit t139]];
  mkSite "parts/part_modules/consumers.py" 1591%positive false 1 [] [[Lit t139]];
  mkSite "parts/part_modules/suppliers.py" 144%positive false 1 [] [[Lit t78]];
  mkSite "parts/part_modules/suppliers.py" 155%positive false 1 [] [[Lit t140]];
  mkSite "parts/part_modules/suppliers.py" 169%positive false 1 [] [[Lit t78]];
  mkSite "parts/part_modules/suppliers.py" 188%positive false 1 [] [[Lit t141]];
  mkSite "parts/part_modules/suppliers.py" 205%positive false 1 [] [[Lit t78]];
  mkSite "parts/part_modules/suppliers.py" 207%positive false 1 [] [[Lit t141]];
  mkSite "parts/part_modules/suppliers.py" 221%positive false 1 [] [[Lit t142]];
  mkSite "parts/part_modules/suppliers.py" 238%positive false 1 [] [[Lit t142]];
  mkSite "parts/part_modules/suppliers.py" 240%positive false 1 [] [[Lit t78]];
  mkSite "parts/part_modules/suppliers.py" 246%positive false 1 [] [[Lit t143]];
  mkSite "parts/part_modules/suppliers.py" 262%positive false 1 [] [[Lit t144]];
  mkSite "parts/part_modules/suppliers.py" 285%positive false 1 [] [[Lit t144]];
  mkSite "parts/part_modules/suppliers.py" 287%positive false 1 [] [[Lit t142]];
  mkSite "parts/part_modules/suppliers.py" 293%positive false 1 [] [[Lit t145]];
  mkSite "parts/part_modules/suppliers.py" 305%positive false 1 [] [[Lit t145]];
  mkSite "parts/part_modules/suppliers.py" 307%positive false 1 [] [[Lit t144]];
  mkSite "parts/part_modules/suppliers.py" 313%positive false 1 [] [[Lit t140]];
  mkSite "parts/part_modules/suppliers.py" 324%positive false 1 [] [[Lit t143]];
  mkSite "parts/part_modules/suppliers.py" 326%positive false 1 [] [[Lit t140]];
  mkSite "parts/part_modules/suppliers.py" 330%positive false 1 [] [[Lit t140]];
  mkSite "parts/part_modules/suppliers.py" 332%positive false 1 [] [[Lit t142]];
  mkSite "parts/part_modules/suppliers.py" 337%positive false 1 [] [[Lit t146]];
  mkSite "parts/part_modules/suppliers.py" 342%positive false 1 [] [[Lit t147]];
  mkSite "parts/part_modules/suppliers.py" 348%positive false 1 [] [[Lit t146]];
  mkSite "parts/part_modules/suppliers.py" 349%positive false 1 [] [[Lit t140]];
  mkSite "parts/part_modules/suppliers.py" 354%positive false 1 [] [[Lit t147]];
  mkSite "parts/part_modules/suppliers.py" 355%positive false 1 [] [[Lit t140]];
  mkSite "parts/part_modules/suppliers.py" 361%positive false 1 [] [[Lit t141]];
  mkSite "parts/part_modules/suppliers.py" 367%positive false 1 [] [[Lit t143]];
  mkSite "parts/part_modules/suppliers.py" 373%positive false 1 [] [[Lit t144]];
  mkSite "parts/part_modules/suppliers.py" 379%positive false 1 [] [[Lit t145]];
  mkSite "parts/part_modules/suppliers.py" 389%positive false 1 [] [[Lit t142]];
  mkSite "parts/part_modules/suppliers.py" 406%positive false 1 [] [[Lit t142]];
  mkSite "parts/part_modules/suppliers.py" 408%positive false 1 [] [[Lit t78]];
  mkSite "parts/part_modules/suppliers.py" 414%positive false 1 [] [[Lit t143]];
  mkSite "parts/part_modules/suppliers.py" 429%positive false 1 [] [[Lit t148]];
  mkSite "parts/part_modules/suppliers.py" 442%positive false 1 [] [[Lit t148]];
  mkSite "parts/part_modules/suppliers.py" 444%positive false 1 [] [[Lit t142]];
  mkSite "parts/part_modules/suppliers.py" 450%positive false 1 [] [[Lit t140]];
  mkSite "parts/part_modules/suppliers.py" 461%positive false 1 [] [[Lit t143]];
  mkSite "parts/part_modules/suppliers.py" 463%positive false 1 [] [[Lit t140]];
  mkSite "parts/part_modules/suppliers.py" 467%positive false 1 [] [[Lit t140]];
  mkSite "parts/part_modules/suppliers.py" 469%positive false 1 [] [[Lit t142]];
  mkSite "parts/part_modules/suppliers.py" 474%positive false 1 [] [[Lit t146]];
  mkSite "parts/part_modules/suppliers.py" 479%positive false 1 [] [[Lit t147]];
  mkSite "parts/part_modules/suppliers.py" 485%positive false 1 [] [[Lit t146]];
  mkSite "parts/part_modules/suppliers.py" 486%positive false 1 [] [[Lit t140]];
  mkSite "parts/part_modules/suppliers.py" 491%positive false 1 [] [[Lit t147]];
  mkSite "parts/part_modules/suppliers.py" 492%positive false 1 [] [[Lit t140]];
  mkSite "parts/part_modules/suppliers.py" 498%positive false 1 [] [[Lit t141]];
  mkSite "parts/part_modules/suppliers.py" 504%positive false 1 [] [[Lit t143]];
  mkSite "parts/part_modules/suppliers.py" 510%positive false 1 [] [[Lit t148]];
  mkSite "parts/part_modules/suppliers.py" 519%positive false 1 [] [[Lit t149]];
  mkSite "parts/part_modules/suppliers.py" 531%positive false 1 [] [[Lit t149]];
  mkSite "parts/part_modules/suppliers.py" 533%positive false 1 [] [[Lit t78]];
  mkSite "parts/part_modules/suppliers.py" 539%positive false 1 [] [[Lit t143]];
  mkSite "parts/part_modules/suppliers.py" 553%positive false 1 [] [[Lit t140]];
  mkSite "parts/part_modules/suppliers.py" 564%positive false 1 [] [[Lit t143]];
  mkSite "parts/part_modules/suppliers.py" 566%positive false 1 [] [[Lit t140]];
  mkSite "parts/part_modules/suppliers.py" 570%positive false 1 [] [[Lit t140]];
  mkSite "parts/part_modules/suppliers.py" 572%positive false 1 [] [[Lit t149]];
  mkSite "parts/part_modules/suppliers.py" 577%positive false 1 [] [[Lit t146]];
  mkSite "parts/part_modules/suppliers.py" 582%positive false 1 [] [[Lit t147]];
  mkSite "parts/part_modules/suppliers.py" 588%positive false 1 [] [[Lit t146]];
  mkSite "parts/part_modules/suppliers.py" 589%positive false 1 [] [[Lit t140]];
  mkSite "parts/part_modules/suppliers.py" 594%positive false 1 [] [[Lit t147]];
  mkSite "parts/part_modules/suppliers.py" 595%positive false 1 [] [[Lit t140]];
  mkSite "parts/part_modules/suppliers.py" 601%positive false 1 [] [[Lit t141]];
  mkSite "parts/part_modules/suppliers.py" 607%positive false 1 [] [[Lit t143]];
  mkSite "parts/part_modules/suppliers.py" 617%positive false 1 [] [[Lit t149]];
  mkSite "parts/part_modules/suppliers.py" 629%positive false 1 [] [[Lit t149]];
  mkSite "parts/part_modules/suppliers.py" 631%positive false 1 [] [[Lit t78]];
  mkSite "parts/part_modules/suppliers.py" 636%positive false 1 [] [[Lit t141]];
  mkSite "parts/part_modules/suppliers.py" 642%positive false 1 [] [[Lit t149]];
  mkSite "parts/part_modules/suppliers.py" 660%positive false 1 [] [[Lit t150]];
  mkSite "parts/part_modules/suppliers.py" 661%positive false 1 [] [[Lit t78]];
  mkSite "parts/part_modules/suppliers.py" 664%positive false 1 [] [[Lit t142]; [Lit t149]];
  mkSite "parts/part_modules/suppliers.py" 687%positive false 1 [] [[Lit t151]];
  mkSite "parts/part_modules/suppliers.py" 688%positive false 1 [] [[Lit t78]];
  mkSite "parts/part_modules/suppliers.py" 691%positive false 1 [] [[Lit t142]; [Lit t149]];
  mkSite "parts/part_modules/suppliers.py" 734%positive false 1 [] [[Lit t152]];
  mkSite "parts/part_modules/suppliers.py" 735%positive false 1 [] [[Lit t141]];
  mkSite "parts/part_modules/suppliers.py" 738%positive false 1 [] [[Lit t78]];
  mkSite "parts/part_modules/suppliers.py" 746%positive false 1 [] [[Lit t78]];
  mkSite "parts/part_modules/suppliers.py" 770%positive false 1 [] [[Lit t152]];
  mkSite "parts/part_modules/suppliers.py" 771%positive false 1 [] [[Lit t141]];
  mkSite "parts/part_modules/suppliers.py" 774%positive false 1 [] [[Lit t78]];
  mkSite "parts/part_modules/suppliers.py" 782%positive false 1 [] [[Lit t78]];
  mkSite "parts/part_modules/suppliers.py" 808%positive false 1 [] [[Lit t153]];
  mkSite "parts/part_modules/suppliers.py" 809%positive false 1 [] [[Lit t142]];
  mkSite "parts/part_modules/suppliers.py" 813%positive false 1 [] [[Lit t142]];
  mkSite "parts/part_modules/suppliers.py" 840%positive false 1 [] [[Lit t153]];
  mkSite "parts/part_modules/suppliers.py" 841%positive false 1 [] [[Lit t142]];
  mkSite "parts/part_modules/suppliers.py" 845%positive false 1 [] [[Lit t142]];
  mkSite "parts/part_modules/suppliers.py" 872%positive false 1 [] [[Lit t154]];
  mkSite "parts/part_modules/suppliers.py" 873%positive false 1 [] [[Lit t144]];
  mkSite "parts/part_modules/suppliers.py" 877%positive false 1 [] [[Lit t144]];
  mkSite "parts/part_modules/suppliers.py" 902%positive false 1 [] [[Lit t154]];
  mkSite "parts/part_modules/suppliers.py" 903%positive false 1 [] [[Lit t144]];
  mkSite "parts/part_modules/suppliers.py" 907%positive false 1 [] [[Lit t144]];
  mkSite "parts/part_modules/suppliers.py" 931%positive false 1 [] [[Lit t78]];
  mkSite "parts/part_modules/suppliers.py" 934%positive false 1 [] [[Lit t78]];
  mkSite "parts/part_modules/suppliers.py" 999%positive false 1 [] [[Lit t155]];
  mkSite "parts/part_modules/suppliers.py" 1017%positive false 1 [] [[Lit t155]];
  mkSite "parts/part_modules/suppliers.py" 1024%positive false 1 [] [[Lit t156]];
  mkSite "parts/part_modules/suppliers.py" 1041%positive false 1 [] [[Lit t155]];
  mkSite "parts/part_modules/suppliers.py" 1043%positive false 1 [] [[Lit t156]];
  mkSite "parts/part_modules/suppliers.py" 1050%positive false 1 [] [[Lit t157]];
  mkSite "parts/part_modules/suppliers.py" 1062%positive false 1 [] [[Lit t156]];
  mkSite "parts/part_modules/suppliers.py" 1064%positive false 1 [] [[Lit t157]];
  mkSite "parts/part_modules/suppliers.py" 1068%positive false 1 [] [[Lit t157]];
  mkSite "parts/part_modules/suppliers.py" 1084%positive false 1 [] [[Lit t158]];
  mkSite "parts/part_modules/suppliers.py" 1085%positive false 1 [] [[Lit t156]];
  mkSite "parts/part_modules/suppliers.py" 1108%positive false 1 [] [[Lit t159]];
  mkSite "parts/part_modules/suppliers.py" 1109%positive false 1 [] [[Lit t155]];
  mkSite "parts/part_modules/suppliers.py" 1112%positive false 1 [] [[Lit t156]];
  mkSite "parts/part_modules/suppliers.py" 1118%positive false 1 [] [[Lit t156]];
  mkSite "parts/part_modules/suppliers.py" 1142%positive false 1 [] [[Lit t160]];
  mkSite "parts/part_modules/suppliers.py" 1145%positive false 1 [] [[Lit t160]];
  mkSite "parts/pipe.py" 61%positive false 2 [] [[Lit t47]];
  mkSite "parts/pipe.py" 77%positive true 1 [] [[Lit t34]];
  mkSite "parts/pipe.py" 87%positive true 1 [] [[Lit t34]];
  mkSite "parts/pipe.py" 337%positive true 1 [] [[Lit t34]];
  mkSite "parts/pipe.py" 355%positive false 1 [] [[Lit t34]];
  mkSite "parts/pipe.py" 364%positive true 1 [] [[Lit t34]];
  mkSite "parts/pipe.py" 375%positive true 1 [] [[Lit t34]];
  mkSite "parts/pipe2D.py" 54%positive false 2 [] [[Lit t47]];
  mkSite "parts/pipe_with_pump.py" 100%positive false 1 [] [[Lit t34]];
  mkSite "parts/pipe_with_pump.py" 116%positive true 1 [] [[Lit t34]];
  mkSite "parts/pipe_with_valve.py" 63%positive false 1 [] [[Lit t34]];
  mkSite "parts/pipe_with_valve.py" 173%positive false 1 [] [[Lit t34]];
  mkSite "parts/pump.py" 36%positive false 2 [] [[Lit t47]];
  mkSite "parts/pump.py" 238%positive false 1 [] [[Lit t161; Hole; Lit t38]];
  mkSite "parts/pump.py" 240%positive false 1 [] [[Lit t34]];
  mkSite "parts/pump.py" 265%positive false 1 [] [[Lit t34]];
  mkSite "parts/pump.py" 278%positive false 1 [] [[Lit t34]];
  mkSite "parts/pump.py" 311%positive false 1 [] [[Lit t34]];
  mkSite "parts/pump.py" 537%positive false 2 [] [[Lit t162]];
  mkSite "parts/tes.py" 88%positive false 2 [] [[Lit t47]];
  mkSite "parts/tes.py" 130%positive true 1 [] [[Lit t34]];
  mkSite "parts/tes.py" 136%positive true 1 [] [[Lit t34]];
  mkSite "parts/tes.py" 146%positive true 1 [] [[Lit t34]];
  mkSite "parts/tes.py" 413%positive true 1 [] [[Lit t34]];
  mkSite "parts/tes.py" 433%positive true 1 [] [[Lit t34]];
  mkSite "parts/tes.py" 445%positive true 1 [] [[Lit t34]];
  mkSite "parts/tes.py" 638%positive false 1 [] [[Lit t34]];
  mkSite "parts/tes.py" 652%positive false 1 [] [[Lit t34]];
  mkSite "simenv.py" 86%positive false 1 [] [[Lit t163]];
  mkSite "simenv.py" 543%positive false 0 ["path"; "iso_date"; "name"; "typ"] [[Lit t164]];
  mkSite "simenv.py" 558%positive true 1 [] [[Lit t165]];
  mkSite "simenv.py" 663%positive false 1 [] [[Lit t166]];
  mkSite "simenv.py" 726%positive true 1 [] [[Lit t167]];
  mkSite "simenv.py" 744%positive true 1 [] [[Lit t168]];
  mkSite "simenv.py" 754%positive true 1 [] [[Lit t169]];
  mkSite "simenv.py" 786%positive false 1 [] [[Lit t170]];
  mkSite "simenv.py" 799%positive true 1 [] [[Lit t171]];
  mkSite "simenv.py" 917%positive false 1 [] [[Lit t34]];
  mkSite "simenv.py" 925%positive false 1 [] [[Lit t34]];
  mkSite "simenv.py" 973%positive false 1 [] [[Lit t34]];
  mkSite "simenv.py" 993%positive false 1 [] [[Lit t34]];
  mkSite "simenv.py" 1018%positive false 1 [] [[Lit t34]];
  mkSite "simenv.py" 1113%positive true 1 [] [[Lit t172]];
  mkSite "simenv.py" 1141%positive false 1 [] [[Lit t36; Hole; Lit t37; Hole; Lit t173]; [Lit t39; Hole; Lit t173]; [Lit t174; Hole; Lit t173]; [Lit t175; Hole; Lit t173]; [Lit t73; Hole; Lit t173]; [Lit t40; Hole; Lit t173]; [Lit t75; Hole; Lit t173]; [Lit t41; Hole; Lit t173]; [Lit t176; Hole; Lit t173]; [Lit t42; Hole; Lit t173]; [Lit t43; Hole; Lit t173]; [Lit t44; Hole; Lit t173]; [Lit t161; Hole; Lit t173]; [Lit t177; Hole; Lit t173]; [Lit t77; Hole; Lit t173]];
  mkSite "simenv.py" 1143%positive false 1 [] [[Lit t34]];
  mkSite "simenv.py" 1167%positive false 1 [] [[Lit t36; Hole; Lit t37; Hole; Lit t178]; [Lit t39; Hole; Lit t178]; [Lit t174; Hole; Lit t178]; [Lit t175; Hole; Lit t178]; [Lit t73; Hole; Lit t178]; [Lit t40; Hole; Lit t178]; [Lit t75; Hole; Lit t178]; [Lit t41; Hole; Lit t178]; [Lit t176; Hole; Lit t178]; [Lit t42; Hole; Lit t178]; [Lit t43; Hole; Lit t178]; [Lit t44; Hole; Lit t178]; [Lit t161; Hole; Lit t178]; [Lit t177; Hole; Lit t178]; [Lit t77; Hole; Lit t178]];
  mkSite "simenv.py" 1169%positive false 1 [] [[Lit t34]];
  mkSite "simenv.py" 1193%positive false 1 [] [[Lit t34]];
  mkSite "simenv.py" 1202%positive false 1 [] [[Lit t34]];
  mkSite "simenv.py" 1275%positive false 1 [] [[Lit t179; Hole; Lit t180]];
  mkSite "simenv.py" 1382%positive false 1 [] [[Lit t181]];
  mkSite "simenv.py" 1422%positive true 2 [] [[Lit t182]];
  mkSite "simenv.py" 1427%positive false 1 [] [[Lit t183; Hole; Lit t184; Hole; Lit t185; Hole]];
  mkSite "simenv.py" 1455%positive false 1 [] [[Lit t186]];
  mkSite "simenv.py" 1488%positive false 1 [] [[Lit t187; Hole; Lit t188; Hole; Lit t189; Hole; Lit t190]];
  mkSite "simenv.py" 1489%positive false 2 [] [[Lit t191]];
  mkSite "simenv.py" 1509%positive false 3 [] [[Lit t192]];
  mkSite "simenv.py" 1528%positive false 3 [] [[Lit t193]];
  mkSite "simenv.py" 1590%positive false 1 [] [[Lit t34]];
  mkSite "simenv.py" 1650%positive false 1 [] [[Lit t194]];
  mkSite "simenv.py" 1656%positive false 1 [] [[Lit t195]];
  mkSite "simenv.py" 1767%positive false 1 [] [[Lit t196]];
  mkSite "simenv.py" 1972%positive true 1 [] [[Lit t197]];
  mkSite "simenv.py" 1976%positive false 6 [] [[Lit t198]];
  mkSite "simenv.py" 1989%positive true 2 [] [[Lit t199; Hole; Lit t200; Hole; Lit t201; Hole; Lit t200; Hole; Lit t202]];
  mkSite "simenv.py" 2002%positive true 2 [] [[Lit t199; Hole; Lit t200; Hole; Lit t201; Hole; Lit t200; Hole; Lit t202]];
  mkSite "simenv.py" 2018%positive false 4 [] [[Lit t203]];
  mkSite "simenv.py" 2031%positive false 4 [] [[Lit t204]];
  mkSite "simenv.py" 2043%positive false 2 [] [[Lit t205]];
  mkSite "simenv.py" 2063%positive false 6 [] [[Lit t206]];
  mkSite "simenv.py" 2080%positive false 4 [] [[Lit t207]];
  mkSite "simenv.py" 2092%positive false 1 [] [[Lit t208]];
  mkSite "simenv.py" 2156%positive false 1 [] [[Lit t209]];
  mkSite "simenv.py" 2168%positive false 0 ["part"; "name"] [[Lit t210]];
  mkSite "simenv.py" 2182%positive false 0 ["arg"; "err"] [[Lit t211]];
  mkSite "simenv.py" 2496%positive true 3 [] [[Lit t212]];
  mkSite "simenv.py" 2500%positive true 3 [] [[Lit t212]];
  mkSite "simenv.py" 2968%positive false 3 [] [[Lit t213]];
  mkSite "simenv.py" 3476%positive false 1 [] [[Lit t34]];
  mkSite "simenv.py" 3526%positive false 2 [] [[Lit t214]];
  mkSite "simenv.py" 3532%positive false 1 [] [[Lit t34]];
  mkSite "simenv.py" 3546%positive false 1 [] [[Lit t34]];
  mkSite "simenv.py" 4246%positive true 2 [] [[Lit t215]];
  mkSite "simenv.py" 4392%positive true 1 [] [[Lit t216]];
  mkSite "simenv.py" 4399%positive true 1 [] [[Lit t217]];
  mkSite "simenv.py" 4565%positive false 1 [] [[Lit t218; Hole; Lit t219; Hole; Lit t220]];
  mkSite "simenv.py" 4587%positive true 2 [] [[Lit t221]];
  mkSite "simenv.py" 4595%positive false 1 [] [[Lit t222]];
  mkSite "simenv.py" 4603%positive false 1 [] [[Lit t223]];
  mkSite "simenv.py" 4611%positive false 1 [] [[Lit t224]];
  mkSite "simenv.py" 5037%positive true 1 [] [[Lit t225]];
  mkSite "simenv.py" 5113%positive false 4 [] [[Lit t226]];
  mkSite "simenv.py" 5699%positive true 1 [] [[Lit t227]];
  mkSite "simenv.py" 5707%positive true 2 [] [[Lit t228]];
  mkSite "simenv.py" 5711%positive true 2 [] [[Lit t228]];
  mkSite "simenv.py" 5717%positive true 2 [] [[Lit t228]];
  mkSite "simenv.py" 5729%positive false 3 [] [[Lit t229]];
  mkSite "simenv.py" 5735%positive false 2 [] [[Lit t230]];
  mkSite "simenv.py" 5752%positive false 4 [] [[Lit t231]];
  mkSite "simenv.py" 5758%positive false 3 [] [[Lit t232]];
  mkSite "simenv.py" 5774%positive false 1 [] [[Lit t233; Hole]];
  mkSite "simenv.py" 5781%positive false 4 [] [[Lit t234]];
  mkSite "simenv.py" 5789%positive false 6 [] [[Lit t235]];
  mkSite "utility_functions.py" 119%positive false 3 [] [[Lit t236]];
  mkSite "utility_functions.py" 121%positive true 1 [] [[Lit t237]];
  mkSite "utility_functions.py" 199%positive false 2 [] [[Lit t238]];
  mkSite "utility_functions.py" 200%positive false 2 [] [[Lit t239]];
  mkSite "utility_functions.py" 202%positive false 2 [] [[Lit t240]];
  mkSite "utility_functions.py" 244%positive false 3 [] [[Lit t241]];
  mkSite "utility_functions.py" 248%positive false 2 [] [[Lit t242]];
  mkSite "utility_functions.py" 250%positive false 1 [] [[Lit t243]];
  mkSite "utility_functions.py" 257%positive false 1 [] [[Lit t244]];
  mkSite "utility_functions.py" 261%positive false 2 [] [[Hole; Lit t245]];
  mkSite "utility_functions.py" 264%positive false 2 [] [[Hole; Lit t245]];
  mkSite "utility_functions.py" 268%positive false 2 [] [[Hole; Lit t245]];
  mkSite "utility_functions.py" 275%positive false 2 [] [[Lit t246]];
  mkSite "utility_functions.py" 278%positive false 3 [] [[Lit t247]];
  mkSite "utility_functions.py" 290%positive false 1 [] [[Lit t248]];
  mkSite "utility_functions.py" 499%positive false 1 [] [[Lit t249]];
  mkSite "utility_functions.py" 1951%positive false 1 [] [[Lit t250; Hole; Lit t251]; [Lit t250; Hole; Lit t252]; [Lit t253]];
  mkSite "utility_functions.py" 2304%positive false 1 [] [[Lit t250; Hole; Lit t251]; [Lit t250; Hole; Lit t252]; [Lit t253]; [Lit t254]];
  mkSite "utility_functions.py" 2539%positive false 1 [] [[Lit t1]];
  mkSite "utility_functions.py" 2655%positive false 1 [] [[Lit t2]];
  mkSite "utility_functions.py" 3239%positive false 1 [] [[Lit t255]];
  mkSite "utility_functions.py" 3243%positive false 1 [] [[Lit t256]; [Lit t257; Numb; Lit t258]];
  mkSite "utility_functions.py" 3247%positive false 1 [] [[Lit t259; Numb; Lit t260]; [Lit t257; Numb; Lit t261; Numb; Lit t260]; [Lit t257; Numb; Lit t260]; [Lit t262]];
  mkSite "utility_functions.py" 3268%positive false 1 [] [[Lit t259; Numb; Lit t263; Numb; Lit t264]; [Lit t259; Numb; Lit t264]; [Lit t257; Numb; Lit t261; Numb; Lit t263; Numb; Lit t264]; [Lit t257; Numb; Lit t261; Numb; Lit t264]; [Lit t257; Numb; Lit t263; Numb; Lit t264]; [Lit t257; Numb; Lit t264]; [Lit t265; Numb; Lit t264]; [Lit t266]];
  mkSite "utility_functions.py" 3285%positive false 1 [] [[Lit t267]; [Lit t259; Numb; Lit t268]; [Lit t259; Numb; Lit t263; Numb; Lit t268]; [Lit t259; Numb; Lit t263; Numb; Lit t269; Numb; Lit t268]; [Lit t259; Numb; Lit t269; Numb; Lit t268]; [Lit t257; Numb; Lit t268]; [Lit t257; Numb; Lit t261; Numb; Lit t268]; [Lit t257; Numb; Lit t261; Numb; Lit t263; Numb; Lit t268]; [Lit t257; Numb; Lit t261; Numb; Lit t263; Numb; Lit t269; Numb; Lit t268]; [Lit t257; Numb; Lit t261; Numb; Lit t269; Numb; Lit t268]; [Lit t257; Numb; Lit t263; Numb; Lit t268]; [Lit t257; Numb; Lit t263; Numb; Lit t269; Numb; Lit t268]; [Lit t257; Numb; Lit t269; Numb; Lit t268]; [Lit t265; Numb; Lit t268]; [Lit t265; Numb; Lit t269; Numb; Lit t268]; [Lit t270; Numb; Lit t268]];
  mkSite "utility_functions.py" 3289%positive false 1 [] [[Lit t271; Numb; Lit t272]; [Lit t259; Numb; Lit t273; Numb; Lit t272]; [Lit t259; Numb; Lit t263; Numb; Lit t273; Numb; Lit t272]; [Lit t259; Numb; Lit t263; Numb; Lit t272]; [Lit t259; Numb; Lit t263; Numb; Lit t269; Numb; Lit t273; Numb; Lit t272]; [Lit t259; Numb; Lit t263; Numb; Lit t269; Numb; Lit t272]; [Lit t259; Numb; Lit t272]; [Lit t259; Numb; Lit t269; Numb; Lit t273; Numb; Lit t272]; [Lit t259; Numb; Lit t269; Numb; Lit t272]; [Lit t257; Numb; Lit t273; Numb; Lit t272]; [Lit t257; Numb; Lit t261; Numb; Lit t273; Numb; Lit t272]; [Lit t257; Numb; Lit t261; Numb; Lit t263; Numb; Lit t273; Numb; Lit t272]; [Lit t257; Numb; Lit t261; Numb; Lit t263; Numb; Lit t272]; [Lit t257; Numb; Lit t261; Numb; Lit t263; Numb; Lit t269; Numb; Lit t273; Numb; Lit t272]; [Lit t257; Numb; Lit t261; Numb; Lit t263; Numb; Lit t269; Numb; Lit t272]; [Lit t257; Numb; Lit t261; Numb; Lit t272]; [Lit t257; Numb; Lit t261; Numb; Lit t269; Numb; Lit t273; Numb; Lit t272]; [Lit t257; Numb; Lit t261; Numb; Lit t269; Numb; Lit t272]; [Lit t257; Numb; Lit t263; Numb; Lit t273; Numb; Lit t272]; [Lit t257; Numb; Lit t263; Numb; Lit t272]; [Lit t257; Numb; Lit t263; Numb; Lit t269; Numb; Lit t273; Numb; Lit t272]; [Lit t257; Numb; Lit t263; Numb; Lit t269; Numb; Lit t272]; [Lit t257; Numb; Lit t272]; [Lit t257; Numb; Lit t269; Numb; Lit t273; Numb; Lit t272]; [Lit t257; Numb; Lit t269; Numb; Lit t272]; [Lit t265; Numb; Lit t273; Numb; Lit t272]; [Lit t265; Numb; Lit t272]; [Lit t265; Numb; Lit t269; Numb; Lit t273; Numb; Lit t272]; [Lit t265; Numb; Lit t269; Numb; Lit t272]; [Lit t274]; [Lit t270; Numb; Lit t273; Numb; Lit t272]; [Lit t270; Numb; Lit t272]];
  mkSite "utility_functions.py" 3293%positive false 1 [] [[Lit t271; Numb; Lit t275; Numb; Lit t276]; [Lit t271; Numb; Lit t276]; [Lit t259; Numb; Lit t273; Numb; Lit t275; Numb; Lit t276]; [Lit t259; Numb; Lit t273; Numb; Lit t276]; [Lit t259; Numb; Lit t263; Numb; Lit t273; Numb; Lit t275; Numb; Lit t276]; [Lit t259; Numb; Lit t263; Numb; Lit t273; Numb; Lit t276]; [Lit t259; Numb; Lit t263; Numb; Lit t275; Numb; Lit t276]; [Lit t259; Numb; Lit t263; Numb; Lit t276]; [Lit t259; Numb; Lit t263; Numb; Lit t269; Numb; Lit t273; Numb; Lit t275; Numb; Lit t276]; [Lit t259; Numb; Lit t263; Numb; Lit t269; Numb; Lit t273; Numb; Lit t276]; [Lit t259; Numb; Lit t263; Numb; Lit t269; Numb; Lit t275; Numb; Lit t276]; [Lit t259; Numb; Lit t263; Numb; Lit t269; Numb; Lit t276]; [Lit t259; Numb; Lit t275; Numb; Lit t276]; [Lit t259; Numb; Lit t276]; [Lit t259; Numb; Lit t269; Numb; Lit t273; Numb; Lit t275; Numb; Lit t276]; [Lit t259; Numb; Lit t269; Numb; Lit t273; Numb; Lit t276]; [Lit t259; Numb; Lit t269; Numb; Lit t275; Numb; Lit t276]; [Lit t259; Numb; Lit t269; Numb; Lit t276]; [Lit t257; Numb; Lit t273; Numb; Lit t275; Numb; Lit t276]; [Lit t257; Numb; Lit t273; Numb; Lit t276]; [Lit t257; Numb; Lit t261; Numb; Lit t273; Numb; Lit t275; Numb; Lit t276]; [Lit t257; Numb; Lit t261; Numb; Lit t273; Numb; Lit t276]; [Lit t257; Numb; Lit t261; Numb; Lit t263; Numb; Lit t273; Numb; Lit t275; Numb; Lit t276]; [Lit t257; Numb; Lit t261; Numb; Lit t263; Numb; Lit t273; Numb; Lit t276]; [Lit t257; Numb; Lit t261; Numb; Lit t263; Numb; Lit t275; Numb; Lit t276]; [Lit t257; Numb; Lit t261; Numb; Lit t263; Numb; Lit t276]; [Lit t257; Numb; Lit t261; Numb; Lit t263; Numb; Lit t269; Numb; Lit t273; Numb; Lit t275; Numb; Lit t276]; [Lit t257; Numb; Lit t261; Numb; Lit t263; Numb; Lit t269; Numb; Lit t273; Numb; Lit t276]; [Lit t257; Numb; Lit t261; Numb; Lit t263; Numb; Lit t269; Numb; Lit t275; Numb; Lit t276]; [Lit t257; Numb; Lit t261; Numb; Lit t263; Numb; Lit t269; Numb; Lit t276]; [Lit t257; Numb; Lit t261; Numb; Lit t275; Numb; Lit t276]; [Lit t257; Numb; Lit t261; Numb; Lit t276]; [Lit t257; Numb; Lit t261; Numb; Lit t269; Numb; Lit t273; Numb; Lit t275; Numb; Lit t276]; [Lit t257; Numb; Lit t261; Numb; Lit t269; Numb; Lit t273; Numb; Lit t276]; [Lit t257; Numb; Lit t261; Numb; Lit t269; Numb; Lit t275; Numb; Lit t276]; [Lit t257; Numb; Lit t261; Numb; Lit t269; Numb; Lit t276]; [Lit t257; Numb; Lit t263; Numb; Lit t273; Numb; Lit t275; Numb; Lit t276]; [Lit t257; Numb; Lit t263; Numb; Lit t273; Numb; Lit t276]; [Lit t257; Numb; Lit t263; Numb; Lit t275; Numb; Lit t276]; [Lit t257; Numb; Lit t263; Numb; Lit t276]; [Lit t257; Numb; Lit t263; Numb; Lit t269; Numb; Lit t273; Numb; Lit t275; Numb; Lit t276]; [Lit t257; Numb; Lit t263; Numb; Lit t269; Numb; Lit t273; Numb; Lit t276]; [Lit t257; Numb; Lit t263; Numb; Lit t269; Numb; Lit t275; Numb; Lit t276]; [Lit t257; Numb; Lit t263; Numb; Lit t269; Numb; Lit t276]; [Lit t257; Numb; Lit t275; Numb; Lit t276]; [Lit t257; Numb; Lit t276]; [Lit t257; Numb; Lit t269; Numb; Lit t273; Numb; Lit t275; Numb; Lit t276]; [Lit t257; Numb; Lit t269; Numb; Lit t273; Numb; Lit t276]; [Lit t257; Numb; Lit t269; Numb; Lit t275; Numb; Lit t276]; [Lit t257; Numb; Lit t269; Numb; Lit t276]; [Lit t265; Numb; Lit t273; Numb; Lit t275; Numb; Lit t276]; [Lit t265; Numb; Lit t273; Numb; Lit t276]; [Lit t265; Numb; Lit t275; Numb; Lit t276]; [Lit t265; Numb; Lit t276]; [Lit t265; Numb; Lit t269; Numb; Lit t273; Numb; Lit t275; Numb; Lit t276]; [Lit t265; Numb; Lit t269; Numb; Lit t273; Numb; Lit t276]; [Lit t265; Numb; Lit t269; Numb; Lit t275; Numb; Lit t276]; [Lit t265; Numb; Lit t269; Numb; Lit t276]; [Lit t277; Numb; Lit t276]; [Lit t278]; [Lit t270; Numb; Lit t273; Numb; Lit t275; Numb; Lit t276]; [Lit t270; Numb; Lit t273; Numb; Lit t276]; [Lit t270; Numb; Lit t275; Numb; Lit t276]; [Lit t270; Numb; Lit t276]];
  mkSite "utility_functions.py" 3297%positive false 1 [] [[Lit t271; Numb; Lit t275; Numb; Lit t279; Numb; Lit t280]; [Lit t271; Numb; Lit t275; Numb; Lit t280]; [Lit t271; Numb; Lit t279; Numb; Lit t280]; [Lit t271; Numb; Lit t280]; [Lit t259; Numb; Lit t273; Numb; Lit t275; Numb; Lit t279; Numb; Lit t280]; [Lit t259; Numb; Lit t273; Numb; Lit t275; Numb; Lit t280]; [Lit t259; Numb; Lit t273; Numb; Lit t279; Numb; Lit t280]; [Lit t259; Numb; Lit t273; Numb; Lit t280]; [Lit t259; Numb; Lit t263; Numb; Lit t273; Numb; Lit t275; Numb; Lit t279; Numb; Lit t280]; [Lit t259; Numb; Lit t263; Numb; Lit t273; Numb; Lit t275; Numb; Lit t280]; [Lit t259; Numb; Lit t263; Numb; Lit t273; Numb; Lit t279; Numb; Lit t280]; [Lit t259; Numb; Lit t263; Numb; Lit t273; Numb; Lit t280]; [Lit t259; Numb; Lit t263; Numb; Lit t275; Numb; Lit t279; Numb; Lit t280]; [Lit t259; Numb; Lit t263; Numb; Lit t275; Numb; Lit t280]; [Lit t259; Numb; Lit t263; Numb; Lit t279; Numb; Lit t280]; [Lit t259; Numb; Lit t263; Numb; Lit t280]; [Lit t259; Numb; Lit t263; Numb; Lit t269; Numb; Lit t273; Numb; Lit t275; Numb; Lit t279; Numb; Lit t280]; [Lit t259; Numb; Lit t263; Numb; Lit t269; Numb; Lit t273; Numb; Lit t275; Numb; Lit t280]; [Lit t259; Numb; Lit t263; Numb; Lit t269; Numb; Lit t273; Numb; Lit t279; Numb; Lit t280]; [Lit t259; Numb; Lit t263; Numb; Lit t269; Numb; Lit t273; Numb; Lit t280]; [Lit t259; Numb; Lit t263; Numb; Lit t269; Numb; Lit t275; Numb; Lit t279; Numb; Lit t280]; [Lit t259; Numb; Lit t263; Numb; Lit t269; Numb; Lit t275; Numb; Lit t280]; [Lit t259; Numb; Lit t263; Numb; Lit t269; Numb; Lit t279; Numb; Lit t280]; [Lit t259; Numb; Lit t263; Numb; Lit t269; Numb; Lit t280]; [Lit t259; Numb; Lit t275; Numb; Lit t279; Numb; Lit t280]; [Lit t259; Numb; Lit t275; Numb; Lit t280]; [Lit t259; Numb; Lit t279; Numb; Lit t280]; [Lit t259; Numb; Lit t280]; [Lit t259; Numb; Lit t269; Numb; Lit t273; Numb; Lit t275; Numb; Lit t279; Numb; Lit t280]; [Lit t259; Numb; Lit t269; Numb; Lit t273; Numb; Lit t275; Numb; Lit t280]; [Lit t259; Numb; Lit t269; Numb; Lit t273; Numb; Lit t279; Numb; Lit t280]; [Lit t259; Numb; Lit t269; Numb; Lit t273; Numb; Lit t280]; [Lit t259; Numb; Lit t269; Numb; Lit t275; Numb; Lit t279; Numb; Lit t280]; [Lit t259; Numb; Lit t269; Numb; Lit t275; Numb; Lit t280]; [Lit t259; Numb; Lit t269; Numb; Lit t279; Numb; Lit t280]; [Lit t259; Numb; Lit t269; Numb; Lit t280]; [Lit t257; Numb; Lit t273; Numb; Lit t275; Numb; Lit t279; Numb; Lit t280]; [Lit t257; Numb; Lit t273; Numb; Lit t275; Numb; Lit t280]; [Lit t257; Numb; Lit t273; Numb; Lit t279; Numb; Lit t280]; [Lit t257; Numb; Lit t273; Numb; Lit t280]; [Lit t257; Numb; Lit t261; Numb; Lit t273; Numb; Lit t275; Numb; Lit t279; Numb; Lit t280]; [Lit t257; Numb; Lit t261; Numb; Lit t273; Numb; Lit t275; Numb; Lit t280]; [Lit t257; Numb; Lit t261; Numb; Lit t273; Numb; Lit t279; Numb; Lit t280]; [Lit t257; Numb; Lit t261; Numb; Lit t273; Numb; Lit t280]; [Lit t257; Numb; Lit t261; Numb; Lit t263; Numb; Lit t273; Numb; Lit t275; Numb; Lit t279; Numb; Lit t280]; [Lit t257; Numb; Lit t261; Numb; Lit t263; Numb; Lit t273; Numb; Lit t275; Numb; Lit t280]; [Lit t257; Numb; Lit t261; Numb; Lit t263; Numb; Lit t273; Numb; Lit t279; Numb; Lit t280]; [Lit t257; Numb; Lit t261; Numb; Lit t263; Numb; Lit t273; Numb; Lit t280]; [Lit t257; Numb; Lit t261; Numb; Lit t263; Numb; Lit t275; Numb; Lit t279; Numb; Lit t280]; [Lit t257; Numb; Lit t261; Numb; Lit t263; Numb; Lit t275; Numb; Lit t280]; [Lit t257; Numb; Lit t261; Numb; Lit t263; Numb; Lit t279; Numb; Lit t280]; [Lit t257; Numb; Lit t261; Numb; Lit t263; Numb; Lit t280]; [Lit t257; Numb; Lit t261; Numb; Lit t263; Numb; Lit t269; Numb; Lit t273; Numb; Lit t275; Numb; Lit t279; Numb; Lit t280]; [Lit t257; Numb; Lit t261; Numb; Lit t263; Numb; Lit t269; Numb; Lit t273; Numb; Lit t275; Numb; Lit t280]; [Lit t257; Numb; Lit t261; Numb; Lit t263; Numb; Lit t269; Numb; Lit t273; Numb; Lit t279; Numb; Lit t280]; [Lit t257; Numb; Lit t261; Numb; Lit t263; Numb; Lit t269; Numb; Lit t273; Numb; Lit t280]; [Lit t257; Numb; Lit t261; Numb; Lit t263; Numb; Lit t269; Numb; Lit t275; Numb; Lit t279; Numb; Lit t280]; [Lit t257; Numb; Lit t261; Numb; Lit t263; Numb; Lit t269; Numb; Lit t275; Numb; Lit t280]; [Lit t257; Numb; Lit t261; Numb; Lit t263; Numb; Lit t269; Numb; Lit t279; Numb; Lit t280]; [Lit t257; Numb; Lit t261; Numb; Lit t263; Numb; Lit t269; Numb; Lit t280]; [Lit t257; Numb; Lit t261; Numb; Lit t275; Numb; Lit t279; Numb; Lit t280]; [Lit t257; Numb; Lit t261; Numb; Lit t275; Numb; Lit t280]; [Lit t257; Numb; Lit t261; Numb; Lit t279; Numb; Lit t280]; [Lit t257; Numb; Lit t261; Numb; Lit t280]; [Lit t257; Numb; Lit t261; Numb; Lit t269; Numb; Lit t273; Numb; Lit t275; Numb; Lit t279; Numb; Lit t280]; [Lit t257; Numb; Lit t261; Numb; Lit t269; Numb; Lit t273; Numb; Lit t275; Numb; Lit t280]; [Lit t257; Numb; Lit t261; Numb; Lit t269; Numb; Lit t273; Numb; Lit t279; Numb; Lit t280]; [Lit t257; Numb; Lit t261; Numb; Lit t269; Numb; Lit t273; Numb; Lit t280]; [Lit t257; Numb; Lit t261; Numb; Lit t269; Numb; Lit t275; Numb; Lit t279; Numb; Lit t280]; [Lit t257; Numb; Lit t261; Numb; Lit t269; Numb; Lit t275; Numb; Lit t280]; [Lit t257; Numb; Lit t261; Numb; Lit t269; Numb; Lit t279; Numb; Lit t280]; [Lit t257; Numb; Lit t261; Numb; Lit t269; Numb; Lit t280]; [Lit t257; Numb; Lit t263; Numb; Lit t273; Numb; Lit t275; Numb; Lit t279; Numb; Lit t280]; [Lit t257; Numb; Lit t263; Numb; Lit t273; Numb; Lit t275; Numb; Lit t280]; [Lit t257; Numb; Lit t263; Numb; Lit t273; Numb; Lit t279; Numb; Lit t280]; [Lit t257; Numb; Lit t263; Numb; Lit t273; Numb; Lit t280]; [Lit t257; Numb; Lit t263; Numb; Lit t275; Numb; Lit t279; Numb; Lit t280]; [Lit t257; Numb; Lit t263; Numb; Lit t275; Numb; Lit t280]; [Lit t257; Numb; Lit t263; Numb; Lit t279; Numb; Lit t280]; [Lit t257; Numb; Lit t263; Numb; Lit t280]; [Lit t257; Numb; Lit t263; Numb; Lit t269; Numb; Lit t273; Numb; Lit t275; Numb; Lit t279; Numb; Lit t280]; [Lit t257; Numb; Lit t263; Numb; Lit t269; Numb; Lit t273; Numb; Lit t275; Numb; Lit t280]; [Lit t257; Numb; Lit t263; Numb; Lit t269; Numb; Lit t273; Numb; Lit t279; Numb; Lit t280]; [Lit t257; Numb; Lit t263; Numb; Lit t269; Numb; Lit t273; Numb; Lit t280]; [Lit t257; Numb; Lit t263; Numb; Lit t269; Numb; Lit t275; Numb; Lit t279; Numb; Lit t280]; [Lit t257; Numb; Lit t263; Numb; Lit t269; Numb; Lit t275; Numb; Lit t280]; [Lit t257; Numb; Lit t263; Numb; Lit t269; Numb; Lit t279; Numb; Lit t280]; [Lit t257; Numb; Lit t263; Numb; Lit t269; Numb; Lit t280]; [Lit t257; Numb; Lit t275; Numb; Lit t279; Numb; Lit t280]; [Lit t257; Numb; Lit t275; Numb; Lit t280]; [Lit t257; Numb; Lit t279; Numb; Lit t280]; [Lit t257; Numb; Lit t280]; [Lit t257; Numb; Lit t269; Numb; Lit t273; Numb; Lit t275; Numb; Lit t279; Numb; Lit t280]; [Lit t257; Numb; Lit t269; Numb; Lit t273; Numb; Lit t275; Numb; Lit t280]; [Lit t257; Numb; Lit t269; Numb; Lit t273; Numb; Lit t279; Numb; Lit t280]; [Lit t257; Numb; Lit t269; Numb; Lit t273; Numb; Lit t280]; [Lit t257; Numb; Lit t269; Numb; Lit t275; Numb; Lit t279; Numb; Lit t280]; [Lit t257; Numb; Lit t269; Numb; Lit t275; Numb; Lit t280]; [Lit t257; Numb; Lit t269; Numb; Lit t279; Numb; Lit t280]; [Lit t257; Numb; Lit t269; Numb; Lit t280]; [Lit t265; Numb; Lit t273; Numb; Lit t275; Numb; Lit t279; Numb; Lit t280]; [Lit t265; Numb; Lit t273; Numb; Lit t275; Numb; Lit t280]; [Lit t265; Numb; Lit t273; Numb; Lit t279; Numb; Lit t280]; [Lit t265; Numb; Lit t273; Numb; Lit t280]; [Lit t265; Numb; Lit t275; Numb; Lit t279; Numb; Lit t280]; [Lit t265; Numb; Lit t275; Numb; Lit t280]; [Lit t265; Numb; Lit t279; Numb; Lit t280]; [Lit t265; Numb; Lit t280]; [Lit t265; Numb; Lit t269; Numb; Lit t273; Numb; Lit t275; Numb; Lit t279; Numb; Lit t280]; [Lit t265; Numb; Lit t269; Numb; Lit t273; Numb; Lit t275; Numb; Lit t280]; [Lit t265; Numb; Lit t269; Numb; Lit t273; Numb; Lit t279; Numb; Lit t280]; [Lit t265; Numb; Lit t269; Numb; Lit t273; Numb; Lit t280]; [Lit t265; Numb; Lit t269; Numb; Lit t275; Numb; Lit t279; Numb; Lit t280]; [Lit t265; Numb; Lit t269; Numb; Lit t275; Numb; Lit t280]; [Lit t265; Numb; Lit t269; Numb; Lit t279; Numb; Lit t280]; [Lit t265; Numb; Lit t269; Numb; Lit t280]; [Lit t277; Numb; Lit t279; Numb; Lit t280]; [Lit t277; Numb; Lit t280]; [Lit t281; Numb; Lit t280]; [Lit t282]; [Lit t270; Numb; Lit t273; Numb; Lit t275; Numb; Lit t279; Numb; Lit t280]; [Lit t270; Numb; Lit t273; Numb; Lit t275; Numb; Lit t280]; [Lit t270; Numb; Lit t273; Numb; Lit t279; Numb; Lit t280]; [Lit t270; Numb; Lit t273; Numb; Lit t280]; [Lit t270; Numb; Lit t275; Numb; Lit t279; Numb; Lit t280]; [Lit t270; Numb; Lit t275; Numb; Lit t280]; [Lit t270; Numb; Lit t279; Numb; Lit t280]; [Lit t270; Numb; Lit t280]];
  mkSite "utility_functions.py" 3534%positive false 1 [] [[Lit t10]];
  mkSite "utility_functions.py" 3540%positive false 1 [] [[Lit t11]];
  mkSite "utility_functions.py" 3546%positive false 1 [] [[Lit t12]];
  mkSite "utility_functions.py" 3552%positive false 1 [] [[Lit t13]];
  mkSite "utility_functions.py" 3651%positive false 4 [] [[Lit t3]];
  mkSite "utility_functions.py" 3655%positive false 1 [] [[Lit t4]];
  mkSite "utility_functions.py" 3658%positive false 3 [] [[Lit t5]];
  mkSite "utility_functions.py" 3662%positive false 1 [] [[Lit t4]];
  mkSite "utility_functions.py" 3665%positive false 3 [] [[Lit t6]];
  mkSite "utility_functions.py" 3669%positive false 1 [] [[Lit t4]];
  mkSite "utility_functions.py" 3672%positive false 3 [] [[Lit t7]];
  mkSite "utility_functions.py" 3676%positive false 1 [] [[Lit t4]];
  mkSite "utility_functions.py" 3750%positive false 1 [] [[Lit t14]]].
