{"id": "C01", "title": "Every adaptive solver step terminates", "statement": "Advancing the simulation by one adaptive step always finishes: after finitely many attempts the step is either accepted, or the solver raises the 'No stable solution found' error. It never loops forever, whatever truncation errors (including NaN) and stability verdicts the parts report, as long as the step-size limits passed the set_timeframe checks and a part that reports an unstable step proposes a positive smaller step.", "quantifier": "all step-size configurations accepted by set_timeframe, all start step sizes, all infinite sequences of per-attempt outcomes (stable/unstable with any proposed stable step, any error value or NaN)", "why_tests_cant": "The sequence of outcomes is produced by the physics and is unbounded; a test sees a handful of sequences and a hang only shows for the untested ones.", "anchors": ["multisim/simenv.py::SimEnv._heun_adaptive", "multisim/simenv.py::SimEnv.set_timeframe"]}
{"id": "C02", "title": "Step sizes stay within the user's limits", "statement": "Every step size the adaptive solver actually uses for an accepted step lies between min_stepsize and max_stepsize as passed to set_timeframe.", "quantifier": "all accepted configurations and all outcome sequences over any number of steps", "why_tests_cant": "Requires reasoning over every history of acceptances, error rejections and stability rejections, including the very first step.", "anchors": ["multisim/simenv.py::SimEnv._heun_adaptive", "multisim/simenv.py::SimEnv.set_timeframe"]}
{"id": "C03", "title": "Step growth is limited by max_factor", "statement": "From one accepted step to the next, the adaptive solver increases the step size by at most the factor max_factor given to set_timeframe.", "quantifier": "all accepted configurations, error values in [0,1), and numbers of consecutive stable steps", "why_tests_cant": "The growth factor depends on an unbounded counter of consecutive stable steps, so short tests never reach the interesting region.", "anchors": ["multisim/simenv.py::SimEnv._heun_adaptive", "multisim/simenv.py::SimEnv.set_timeframe"]}
{"id": "C04", "title": "Rejected attempts leave no trace in the results", "statement": "The temperatures stored for a step and the port values handed to the next step are exactly those a single attempt with the finally accepted step size would have produced from the previous step's state; attempts that were rejected before (because of error or instability) have no influence.", "quantifier": "all part behaviours (arbitrary differentials and non-numeric solve functions of temperatures and ports), all numbers and kinds of rejected attempts before acceptance", "why_tests_cant": "Needs arbitrary part functions and arbitrary rejection histories; a test can only compare a few runs up to rounding.", "anchors": ["multisim/simenv.py::SimEnv._heun_adaptive", "multisim/precomp_funs.py::_heun_corrector_adapt", "multisim/precomp_funs.py::_upddate_ports_interm", "multisim/precomp_funs.py::_upddate_ports_result"]}
{"id": "C05", "title": "The explicit solver is Heun's method (second order)", "statement": "An accepted step computes y + h/2*(f(y) + f(y + h f(y))) in every cell; against any three times differentiable exact solution of the coupled cell equations of all parts (slopes Lipschitz with constant L) one accepted step is off by at most h^3*(5/12*M3 + L*M2/4) with M2, M3 bounds of the second and third time derivative, and a whole run of time T with steps up to hmax by at most exp(L T)*T*hmax^2*(5/12*M3 + L*M2/4); for linear relaxation towards a fixed temperature with rate a it multiplies the distance by exactly 1 - a h + (a h)^2/2, hence differs from the exact exponential by at most (a h)^3/6.", "quantifier": "all states, all differentials, all step sizes", "why_tests_cant": "Order of accuracy is a statement about all step sizes tending to zero.", "anchors": ["multisim/simenv.py::SimEnv._heun_adaptive", "multisim/precomp_funs.py::_heun_corrector_adapt"]}
{"id": "C06", "title": "Simulated time is strictly increasing and reaches the timeframe", "statement": "A simulation run stores time stamps that start at 0, increase strictly by exactly the accepted step sizes, and the run ends at the first time stamp that is at or beyond the requested timeframe; the overshoot is smaller than the last step.", "quantifier": "all timeframes and all sequences of positive accepted step sizes", "why_tests_cant": "The number and size of steps is chosen adaptively and unbounded.", "anchors": ["multisim/simenv.py::SimEnv.start_sim"]}
{"id": "C07", "title": "No computed step is lost or duplicated when results are flushed to disk", "statement": "With disk saving, concatenating the chunks written during the run and the final buffer gives exactly the sequence of all computed rows (initial state first), once each and in order, for any buffer length; without disk saving the enlarged in-memory arrays hold the same rows.", "quantifier": "all buffer lengths >= 1, all numbers of computed steps, all row contents", "why_tests_cant": "The interplay of buffer length and number of adaptive steps has infinitely many combinations; the failing ones (if any) are exact-boundary cases.", "anchors": ["multisim/simenv.py::SimEnv._free_memory", "multisim/simenv.py::SimEnv._finalize_sim", "multisim/simenv.py::SimEnv.start_sim"]}
{"id": "C08", "title": "Through-flow parts conserve mass in every cell", "statement": "In a part with one through flow, for every cell the mass entering from neighbouring cells and ports equals the mass leaving, no negative inflow appears, and fluid enters only through the upstream port, whichever the flow direction.", "quantifier": "all numbers of cells, all signed mass flows, all previous buffer contents", "why_tests_cant": "Quantifies over all cell counts and flow signs and stale buffers left from a previous direction.", "anchors": ["multisim/precomp_funs.py::_process_flow_invar", "multisim/precomp_funs.py::_process_flow_multi_flow"]}
{"id": "C09", "title": "Multi-port parts conserve mass in every cell", "statement": "In a storage-like part with any number of ports at sorted cell positions, if the signed port flows sum to zero then for every cell the inflows from above, below and ports equal the outflows; all inflow entries are non-negative; and the flow between two neighbouring cells is the sum of the port flows above.", "quantifier": "all numbers of cells and ports, all sorted port positions incl. several ports in one cell, all port flows", "why_tests_cant": "Unbounded grid sizes and port placements; off-by-one slices only show for particular placements.", "anchors": ["multisim/precomp_funs.py::_process_flow_var"]}
{"id": "C10", "title": "Flow network update satisfies every flow relation", "statement": "After the flow network update, every port flow that is defined by a relation (copy, negated sum, sum, difference, product/quotient with a split factor) equals that relation evaluated on the final flows, provided relations are listed so that no flow is used before it is computed; flows without a relation are unchanged.", "quantifier": "all relation lists in dependency order and all pump/boundary flows and split factors", "why_tests_cant": "Networks are arbitrary; wrong sign or ordering shows only for particular topologies.", "anchors": ["multisim/simenv.py::SimEnv._update_FlowNet"]}
{"id": "C11", "title": "Valves and connectors conserve mass and respect their limits", "statement": "For a three-way valve the flows of A and B sum to the flow of AB, the split factors sum to one and the factor of port A lies within [lower_limit, upper_limit] whatever value a controller sends; for three-way connectors and valves with inflow-positive ports the three port flows sum to zero whichever two are known.", "quantifier": "all flows, all control values, all limits accepted by the constructor, all choices of the known ports", "why_tests_cant": "All real control values and flows.", "anchors": ["multisim/parts/mixingvalve.py::MixingValve", "multisim/parts/pipe_with_valve.py::PipeWith3wValve", "multisim/parts/connector_3w.py::Connector3w", "multisim/simenv.py::SimEnv._update_FlowNet"]}
{"id": "C12", "title": "Conduction inside a part neither creates nor destroys heat", "statement": "Summed over all cells, the heat content change due to conduction equals the heat exchanged with the ports/outer ends and with the ambient: all cell-to-cell terms cancel.", "quantifier": "all cell counts, temperatures, heat capacities, conductances and ambient temperatures", "why_tests_cant": "Energy conservation must hold for every grid and temperature field.", "anchors": ["multisim/precomp_funs.py::pipe1D_diff", "multisim/precomp_funs.py::tes_diff", "multisim/precomp_funs.py::pipe1D_branched_diff"]}
{"id": "C13", "title": "Advection balances enthalpy", "statement": "Summed over all cells, the heat content change due to flow equals the enthalpy carried in by inflowing ports minus the enthalpy carried out at the cell the fluid leaves from.", "quantifier": "all cell counts, port placements with zero net port flow, flows, temperatures", "why_tests_cant": "Depends on cancellation over all cells with port in/outflows anywhere.", "anchors": ["multisim/precomp_funs.py::pipe1D_diff", "multisim/precomp_funs.py::tes_diff", "multisim/precomp_funs.py::_process_flow_var", "multisim/precomp_funs.py::_process_flow_invar"]}
{"id": "C14", "title": "Uniform temperature is an equilibrium", "statement": "If all cells, connected ports and the ambient have the same temperature, the differential is zero in every cell for every flow; no spurious heating or cooling.", "quantifier": "all cell counts, flows, conductances and temperatures", "why_tests_cant": "All flows and geometries.", "anchors": ["multisim/precomp_funs.py::pipe1D_diff", "multisim/precomp_funs.py::tes_diff", "multisim/precomp_funs.py::heatedpipe1D_diff"]}
{"id": "C15", "title": "A stable explicit step cannot create new temperature extremes", "statement": "If the step passed the part's stability check, the new temperatures after an explicit predictor step lie between the minimum and maximum of the old cell temperatures, the connected port temperatures and the ambient temperature.", "quantifier": "all temperature fields, flows, conductances, step sizes that pass the check", "why_tests_cant": "Maximum principles quantify over all fields; violation needs a combination of diffusion, flow and ambient loss not covered by tests.", "anchors": ["multisim/precomp_funs.py::_vonNeumann_stability_invar", "multisim/precomp_funs.py::pipe1D_diff"]}
{"id": "C16", "title": "The stability check bounds every cell", "statement": "If the stability check does not object to a step, then in every cell the Courant number is at most 1 and the internal diffusion number is at most 1/2; if it objects, the proposed step size is positive, strictly smaller and satisfies the criterion.", "quantifier": "all cell counts, material values, flows, step sizes", "why_tests_cant": "Per-cell quantification with spatially varying properties.", "anchors": ["multisim/precomp_funs.py::_vonNeumann_stability_invar", "multisim/precomp_funs.py::_vonNeumann_stability_var"]}
{"id": "C17", "title": "Conductance combination laws", "statement": "Series combination of conductances is symmetric, positive and below each member, parallel combination is at least each member, the interface conductivity of two cells is symmetric, lies between both cell values and equals them if equal.", "quantifier": "all positive conductances, any number of members", "why_tests_cant": "Algebraic laws over all reals.", "anchors": ["multisim/precomp_funs.py::series_circuit_UA", "multisim/precomp_funs.py::parallel_circuit_UA", "multisim/precomp_funs.py::_lambda_mean", "multisim/precomp_funs.py::UA_plate_tb"]}
{"id": "C18", "title": "Water property polynomials are physical between 0 and 100 degC", "statement": "For all water temperatures from 0 to 100 degC density, conductivity and specific heat are positive and within their physical bands, density decreases with temperature from 5 degC upwards, and specific enthalpy cp(T)*T is strictly increasing.", "quantifier": "all real temperatures in [0,100]", "why_tests_cant": "Polynomial inequalities on an interval, not sample points.", "anchors": ["multisim/precomp_funs.py::get_rho_water", "multisim/precomp_funs.py::get_cp_water", "multisim/precomp_funs.py::get_lambda_water", "multisim/precomp_funs.py::cp_water"]}
{"id": "C19", "title": "Mixing outlet temperature lies between the inlet temperatures", "statement": "When two flows are mixed in a three-way connector or mixing valve, the outlet temperature lies between the two inlet temperatures.", "quantifier": "all inlet temperatures in the water range and all positive flows", "why_tests_cant": "Depends on nonlinear heat capacity at all temperature/flow combinations.", "anchors": ["multisim/precomp_funs.py::solve_connector_3w", "multisim/precomp_funs.py::solve_mix"]}
{"id": "C20", "title": "Splitters and pumps pass temperatures on unchanged", "statement": "In a splitting connector or valve both outlets carry exactly the inlet temperature, a pump exchanges the two port temperatures, and repeated application without flow keeps every port value inside the range of the connected temperatures.", "quantifier": "all port temperatures, flows and port assignments", "why_tests_cant": "All sign patterns of flows and all temperatures.", "anchors": ["multisim/precomp_funs.py::solve_connector_3w", "multisim/precomp_funs.py::solve_split", "multisim/precomp_funs.py::solve_pump"]}
{"id": "C21", "title": "Plate heat exchanger satisfies the first and second law", "statement": "Counter-flow plate heat exchanger: heat given off by the supply side equals heat taken up by the demand side (with the same capacity flows), both outlet temperatures lie between the two inlet temperatures, and heat flows from hot to cold.", "quantifier": "all positive capacity flows, transfer coefficients and inlet temperatures", "why_tests_cant": "Exponential effectiveness formula with case distinctions over all reals.", "anchors": ["multisim/precomp_funs.py::solve_platehex"]}
{"id": "C22", "title": "Surface temperature lies between fluid and ambient", "statement": "The steady-state surface temperature used for outer heat transfer lies between the fluid temperature and the ambient temperature and the heat through the wall equals the heat given to the ambient.", "quantifier": "all temperatures, positive areas and coefficients", "why_tests_cant": "All reals.", "anchors": ["multisim/precomp_funs.py::surface_temp_steady_state", "multisim/precomp_funs.py::surface_temp_steady_state_inplace"]}
{"id": "C23", "title": "CHP start-up and part-load curves stay physical", "statement": "The thermal start-up factor is strictly increasing and always in (0,1), the generic limited growth curve moves monotonically from its start value to its limit without crossing it, and the part-load curves are monotone over the modulation range.", "quantifier": "all times >= 0 and all modulations in [0,1]", "why_tests_cant": "Monotonicity/bounds for all reals.", "anchors": ["multisim/precomp_funs.py::lim_growth", "multisim/precomp_funs.py::chp_startup_th", "multisim/precomp_funs.py::chp_startup_el", "multisim/precomp_funs.py::chp_thermal_power", "multisim/precomp_funs.py::chp_gas_power"]}
{"id": "C24", "title": "CHP respects the minimum off time", "statement": "The plant switches from off to on only if at least min_off_time has passed since it was last switched off, for any control signal and temperature history.", "quantifier": "all control, temperature and step-size histories of any length, all parameters", "why_tests_cant": "History property of a state machine.", "anchors": ["multisim/parts/chp_plant.py::CHPPlant.get_diff"]}
{"id": "C25", "title": "CHP respects the minimum on time", "statement": "Unless over-temperature forces it, the plant switches off only if it has been running for at least min_on_time.", "quantifier": "all control, temperature and step-size histories of any length, all parameters", "why_tests_cant": "History property of a state machine.", "anchors": ["multisim/parts/chp_plant.py::CHPPlant.get_diff"]}
{"id": "C26", "title": "CHP over-temperature protection", "statement": "If any cell is above 110 degC the plant is off after the step; a return temperature above 75 degC never allows a start and, if it persists, switches a running plant off after at most 120 s plus one step.", "quantifier": "all histories and parameters", "why_tests_cant": "History property; needs persistence over unboundedly many steps.", "anchors": ["multisim/parts/chp_plant.py::CHPPlant.get_diff"]}
{"id": "C27", "title": "CHP modulation range and ramp", "statement": "The modulation is always 0 or within [mod_lower, mod_upper], and while the plant keeps running it changes by at most max_slope per second.", "quantifier": "all histories and parameters", "why_tests_cant": "History property.", "anchors": ["multisim/parts/chp_plant.py::CHPPlant.get_diff"]}
{"id": "C28", "title": "CHP timers run on accepted simulation time", "statement": "The off/on times enforced by the CHP plant are measured in simulated (accepted) time: the recorded switching times are the time stamps stored for those steps.", "quantifier": "all histories including rejected solver attempts", "why_tests_cant": "Needs the interplay of step rejection and the plant's state machine.", "anchors": ["multisim/parts/chp_plant.py::CHPPlant.get_diff", "multisim/simenv.py::SimEnv._heun_adaptive"]}
{"id": "C29", "title": "Control values respect the saturation limits", "statement": "After every controller step the value sent to the actuator lies within the saturation limits given by CV_saturation.", "quantifier": "all controllers, error histories, step sizes and slope limits", "why_tests_cant": "Over all histories.", "anchors": ["multisim/controls.py::Controls.ctrl", "multisim/parts/controllers.py::PID.run_controller"]}
{"id": "C30", "title": "Control value slope limit", "statement": "With a slope limit set, the control value changes per step by no more than slope*timestep in the respective direction, never moves away from the controller's wish, and reaches it if the wish is within the limit.", "quantifier": "all controller outputs, previous values, positive step sizes and slopes", "why_tests_cant": "All reals/histories.", "anchors": ["multisim/controls.py::Controls.ctrl"]}
{"id": "C31", "title": "PID anti-windup bounds the integral", "statement": "At all times the integral term stays within the anti-windup limit; with 'auto_X' the integral contribution to the control value never exceeds X in magnitude.", "quantifier": "all error and step-size histories and gains", "why_tests_cant": "Invariant over histories.", "anchors": ["multisim/parts/controllers.py::PID.run_controller", "multisim/parts/controllers.py::PID.__init__"]}
{"id": "C32", "title": "Resetting the simulation resets the controllers", "statement": "Resetting the simulation environment to initial conditions makes a PID controller behave exactly like a fresh one on any following input.", "quantifier": "all histories before the reset, all inputs after", "why_tests_cant": "Trace equivalence for all histories.", "anchors": ["multisim/parts/controllers.py::PID._reset_to_init_cond", "multisim/controls.py::Controls"]}
{"id": "C33", "title": "Bang-bang controller has hysteresis", "statement": "The controller output is always the on value or the off value; it changes only when the process value is outside the hysteresis band around the setpoint; on below the band, off above (reversed: opposite).", "quantifier": "all process value histories, setpoints and hysteresis widths", "why_tests_cant": "Over all histories.", "anchors": ["multisim/parts/controllers.py::BangBang.run_controller"]}
{"id": "C34", "title": "Two-sensor controller: deactivation wins", "statement": "Off condition at the deactivation sensor always takes precedence, the controller switches on only when the activation sensor demands, holds otherwise.", "quantifier": "all sensor histories", "why_tests_cant": "Over all histories.", "anchors": ["multisim/parts/controllers.py::TwoSensors.run_controller"]}
{"id": "C35", "title": "Sub-controllers follow their master", "statement": "A concurrent sub-controller outputs its off state whenever its master is off; a sequential sub-controller only acts when its master is at its off state.", "quantifier": "all values and controller types", "why_tests_cant": "All values/histories.", "anchors": ["multisim/controls.py::Controls._subcontroller_check"]}
{"id": "C36", "title": "Dynamic boundary conditions stay in the data range", "statement": "The value a dynamic boundary condition assigns at each step lies between the smallest and largest value of the time series samples covered by the step; a constant series gives the constant; the reading position equals the elapsed simulation time divided by the sampling interval.", "quantifier": "all series, step sizes and histories within the series", "why_tests_cant": "Interpolation over all fractional positions and step sizes.", "anchors": ["multisim/simenv.py::SimEnv._update_dyn_BC"]}
{"id": "C37", "title": "An accepted boundary-condition series is long enough", "statement": "If assigning a time series as boundary condition passes the length check, the simulation never reads beyond its end.", "quantifier": "all series lengths, sampling intervals, timeframes, step sequences", "why_tests_cant": "Boundary cases of float index and overshoot.", "anchors": ["multisim/simenv.py::SimEnv.assign_boundary_cond", "multisim/simenv.py::SimEnv._update_dyn_BC"]}
{"id": "C38", "title": "Port placement", "statement": "Adding ports one after another keeps the port positions sorted, in range, and every port name attached to the position it was created with; a volume/distance position maps to the cell that contains it.", "quantifier": "all sequences of port additions and positions", "why_tests_cant": "Over all insertion orders.", "anchors": ["multisim/simenv.py::SimEnv._add_ports"]}
{"id": "C39", "title": "Port flow-direction labels stay with their port", "statement": "Adding a port to a part does not change the in/out flow-direction label of any existing port.", "quantifier": "all parts and all insertion positions", "why_tests_cant": "Depends on insertion order.", "anchors": ["multisim/simenv.py::SimEnv._add_ports", "multisim/simenv.py::SimEnv._get_topo_cond"]}
{"id": "C40", "title": "Port connections are symmetric and exclusive", "statement": "After any sequence of successful connect calls, if port a is linked to b then b is linked to a, and every part port is linked to at most one partner; unconnected ports are reported.", "quantifier": "all sequences of connect calls", "why_tests_cant": "Over all call sequences.", "anchors": ["multisim/simenv.py::SimEnv._connect_ports", "multisim/simenv.py::SimEnv._check_unconnected_ports"]}
{"id": "C41", "title": "Every requested connection is made", "statement": "Every connection requested with connect_ports before the simulation is initialised is either made or reported as error.", "quantifier": "all sequences of connect_ports calls", "why_tests_cant": "Over all call sequences.", "anchors": ["multisim/simenv.py::SimEnv.connect_ports"]}
{"id": "C42", "title": "Accepted solver settings are consistent", "statement": "If set_timeframe accepts its arguments, all solver settings are in their documented ranges and the stored values equal the given ones; each invalid setting is rejected; giving a valid check_vN is accepted.", "quantifier": "all argument combinations", "why_tests_cant": "All combinations of reals/optional arguments.", "anchors": ["multisim/simenv.py::SimEnv.set_timeframe"]}
{"id": "C43", "title": "KWK bonus bands", "statement": "The feed-in/self-consumption bonus bands of the CHP tariff partition the electric power: the band powers sum to the total, the mean bonus is within the band rates, and the total bonus is non-decreasing in power.", "quantifier": "all electric powers", "why_tests_cant": "Piecewise function over all reals.", "anchors": ["multisim/parts/controllers.py::ModelPredCHP._kwk_zuschlag"]}
{"id": "C44", "title": "Electric power balance of the CHP optimiser", "statement": "In the cost function demand = self-consumed + purchased and production = self-consumed + fed-in, all non-negative, never purchase and feed-in at the same time.", "quantifier": "all demand and production values", "why_tests_cant": "All reals.", "anchors": ["multisim/parts/controllers.py::ModelPredCHP._minimizer_input"]}
{"id": "C45", "title": "Storage capacity limits seen by the optimiser", "statement": "The remaining capacity before empty and before full are complementary: their sum is constant over time, and a plan satisfies both limits iff the state of charge stays within [min,max] at every step.", "quantifier": "all demand/production series and horizons", "why_tests_cant": "All series of all lengths.", "anchors": ["multisim/parts/controllers.py::ModelPredCHP"]}
{"id": "C46", "title": "Optimised modulation is feasible", "statement": "The modulation plan used by the CHP optimiser is 0 or within the allowed modulation range in every time slot.", "quantifier": "all plans and ranges", "why_tests_cant": "All arrays.", "anchors": ["multisim/parts/controllers.py::ModelPredCHP._longterm_clip_w_cont", "multisim/parts/controllers.py::ModelPredCHP._longterm_clip_array"]}
{"id": "C47", "title": "Emergency control hysteresis", "statement": "Storage emergency control switches the CHP on when too cold and off when too hot; switching off wins if both apply, and stays active until the hysteresis is left.", "quantifier": "all temperature histories", "why_tests_cant": "Over all histories.", "anchors": ["multisim/parts/controllers.py::ModelPredCHP._emergency_control"]}
{"id": "C48", "title": "Adapted capacities recover fully", "statement": "Storage capacity limits reduced by emergency control are restored completely after the restore time.", "quantifier": "all adapted values and times", "why_tests_cant": "All reals/histories.", "anchors": ["multisim/parts/controllers.py::ModelPredCHP._restore_adptd_caps"]}
{"id": "C49", "title": "Meter readings are consistent", "statement": "Meter totals are the running integral of the metered flow: monotone for positive-only variants, net = positive part - negative part, independent of splitting the time series.", "quantifier": "all flow/temperature series and step sizes", "why_tests_cant": "All series.", "anchors": ["multisim/_utility/meters.py::Meters.heat_meter"]}
{"id": "C50", "title": "Meters never overwrite each other", "statement": "Adding a meter never silently replaces an existing meter; a name in use for that meter type is rejected and a free name is accepted.", "quantifier": "all sequences of meter additions", "why_tests_cant": "Over all call sequences.", "anchors": ["multisim/_utility/meters.py::Meters"]}
{"id": "C51", "title": "Error measures satisfy their laws", "statement": "|MSD| <= MAE <= RMSE, MSE = 0 iff prediction equals observation, MSE = variance of error + MSD^2, R^2 <= 1 with equality iff perfect.", "quantifier": "all series of all lengths", "why_tests_cant": "All series.", "anchors": ["multisim/_utility/stat_error_measures.py::mean_squared_err", "multisim/_utility/stat_error_measures.py::mean_abs_err", "multisim/_utility/stat_error_measures.py::mean_signed_deviation", "multisim/_utility/stat_error_measures.py::rmse", "multisim/_utility/stat_error_measures.py::r_squared"]}
{"id": "C52", "title": "R^2 is computed per column", "statement": "For multi-column data the coefficient of determination is computed for each column separately, i.e. it equals the value of the single-column call on that column.", "quantifier": "all matrices", "why_tests_cant": "All matrices.", "anchors": ["multisim/_utility/stat_error_measures.py::r_squared"]}
{"id": "C53", "title": "Dead time delays the process value", "statement": "With a dead time configured, the controller acts on a process value that was measured at least (about) dead-time earlier, and never on values newer than that.", "quantifier": "all process value histories and step-size sequences", "why_tests_cant": "Ring-buffer behaviour over all histories.", "anchors": ["multisim/precomp_funs.py::ctrl_deadtime"]}
{"id": "C54", "title": "Buoyancy enhancement is one-sided", "statement": "The buoyancy model only increases the effective conductivity, only between cells with inverse temperature layering; a stably layered storage is unchanged.", "quantifier": "all temperature profiles", "why_tests_cant": "All profiles.", "anchors": ["multisim/precomp_funs.py::buoyancy_byNusselt"]}
{"id": "C55", "title": "Heating element power is fully delivered", "statement": "The heating power of a heated pipe is distributed to the heated cells without loss (sum over heated cells of heat = power) and is zero when any cell exceeds the emergency shutdown temperature.", "quantifier": "all cell ranges, powers, capacities, temperatures", "why_tests_cant": "All cell counts.", "anchors": ["multisim/precomp_funs.py::heatedpipe1D_diff"]}
{"id": "C56", "title": "A time series given to a valve sets its opening", "statement": "If a pipe with three-way valve is created with ctrl_required=False and a time series, the split factors follow the series (port A gets the value, port B one minus the value).", "quantifier": "all series, all start openings", "why_tests_cant": "No test uses this option; every series value must reach the factors.", "anchors": ["multisim/parts/pipe_with_valve.py::PipeWith3wValve.init_part", "multisim/simenv.py::SimEnv._initialize_actuator"]}
{"id": "C57", "title": "Viscosity and Prandtl number of water fall with temperature", "statement": "Between 0 and 100 degC the kinematic viscosity and the Prandtl number used for all heat transfer correlations decrease strictly with temperature.", "quantifier": "all real temperatures in [0,100]", "why_tests_cant": "Monotonicity over a continuum.", "anchors": ["multisim/precomp_funs.py::ny_water", "multisim/precomp_funs.py::get_Pr_water"]}
{"id": "C58", "title": "A stronger temperature inversion never mixes less", "statement": "For the same lower-cell temperature, a larger temperature inversion between two storage cells never gets a smaller effective conductivity from the buoyancy model.", "quantifier": "all diameters and temperatures", "why_tests_cant": "A test at single inversions cannot see the jump at the switch between the two correlations.", "anchors": ["multisim/precomp_funs.py::buoyancy_byNusselt"]}
{"id": "C59", "title": "Mixing error stays below half a percent", "statement": "The temperature of a mixed flow deviates from the exact enthalpy balance by less than 0.5 percent, as the comment in the solve routine states.", "quantifier": "all inlet temperatures between 0 and 100 degC and all positive flows", "why_tests_cant": "Worst case over a continuum of temperatures and flow ratios.", "anchors": ["multisim/precomp_funs.py::solve_connector_3w"]}
{"id": "C60", "title": "Accepted steps keep the error tolerances", "statement": "Unless the step size is already at the minimum, a step is only accepted if in every cell the difference between the stored result and the lower order (Euler) estimate is below (rtol*max(T_old, T_new) + atol) times the root of the number of cells, and that tolerance never falls below atol; a stable attempt with every cell below its tolerance is accepted.", "quantifier": "all systems of explicit parts, all states, tolerances and rejection histories", "why_tests_cant": "A statement about every accepted step of every system; tests see single runs and no temperatures near the critical value.", "anchors": ["multisim/simenv.py::SimEnv._heun_adaptive", "multisim/precomp_funs.py::_heun_corrector_adapt"]}
{"id": "C61", "title": "CHP outputs stay within the ratings and conserve energy", "statement": "Electric power, heat and gas input of the CHP plant are never negative and never above the ratings given by the user, the electrical efficiency never exceeds eta_el, a constant request is eventually met exactly, and the sum of electric power and heat never exceeds the gas input.", "quantifier": "all plants accepted by the constructor, all histories and modulations in the range", "why_tests_cant": "The part-load and start-up curves are fits rescaled with user parameters; the energy balance depends on combinations of efficiency, power-to-heat ratio and modulation that no sample covers.", "anchors": ["multisim/parts/chp_plant.py:142-215", "multisim/parts/chp_plant.py:857-899", "multisim/precomp_funs.py:5478-5702"]}
{"id": "C62", "title": "A constant CHP request stays in force", "statement": "A CHP plant set to a constant modulation (no_control=True, const_val) runs whenever neither temperatures nor minimum times forbid it.", "quantifier": "all plants, all temperature histories, all later times", "why_tests_cant": "The loss only shows after a blocked start or a protective shut-down, at any later time of the run.", "anchors": ["multisim/simenv.py:1185-1232", "multisim/parts/chp_plant.py:681-770"]}
{"id": "C63", "title": "chp_on_at_start takes effect", "statement": "A CHP plant declared to be running at the start of the simulation delivers power from the first step on without a start-up procedure.", "quantifier": "all plants, first inputs and step sizes", "why_tests_cant": "Needs the interplay of constructor, result array initialisation and state machine in the first step.", "anchors": ["multisim/parts/chp_plant.py:289-316", "multisim/parts/chp_plant.py:560-566", "multisim/parts/chp_plant.py:681-744"]}
{"id": "C64", "title": "Inverted controllers act on the opposite error", "statement": "A controller with invert=True answers every history of errors exactly as the same controller with invert=False answers the history with opposite errors.", "quantifier": "all controllers, gains, histories and step sizes", "why_tests_cant": "A relation between two controllers over all histories.", "anchors": ["multisim/controls.py:724-742", "multisim/parts/controllers.py:375-494"]}
{"id": "C65", "title": "Set point from another part", "statement": "A controller given reference_part, reference_port and ref_SP_diff as documented uses the value of the reference part plus the difference as set point.", "quantifier": "all argument sets with the documented names", "why_tests_cant": "The constructor must work for every documented combination; no test builds a controller with a reference part.", "anchors": ["multisim/controls.py:215-325", "multisim/controls.py:860-862"]}
{"id": "C66", "title": "Every selectable combination of PID terms works", "statement": "For each accepted value of terms ('P','I','PI','PD','PID') manual tuning gives a controller with exactly the gains of these terms.", "quantifier": "all term selections and gains", "why_tests_cant": "All combinations of accepted arguments must lead to a working controller.", "anchors": ["multisim/parts/controllers.py:19-129"]}
{"id": "C67", "title": "PID controllers follow the textbook law", "statement": "While within its limits, the control value equals Kp*error + Ki*integral of the error + Kd*(error difference)/timestep, in continuous mode after clipping to the saturation limits, in discrete (velocity) mode as the accumulated sum.", "quantifier": "all gains, all error and step-size histories", "why_tests_cant": "Equality of a recursive algorithm with the closed law for histories of any length.", "anchors": ["multisim/parts/controllers.py:375-494", "multisim/controls.py:841-890"]}
{"id": "C68", "title": "Low-pass filter of the derivative term", "statement": "The filtered derivative term never exceeds the largest rate of change of the error and follows an error that changes at a constant rate.", "quantifier": "all error and step-size histories, all cut-off frequencies", "why_tests_cant": "Needs all step-size sequences; with adaptive steps consecutive steps differ in length.", "anchors": ["multisim/parts/controllers.py:416-432", "multisim/parts/controllers.py:462-484"]}
{"id": "C69", "title": "A step over several samples gives their time mean", "statement": "For a boundary-condition series rising or falling by a constant increment per sample, the value assigned after a step longer than the sampling interval equals the time mean of the series over the step up to half of that increment.", "quantifier": "all linear series, sampling intervals, step sizes and histories within the series", "why_tests_cant": "Depends on the fractional positions of both ends of the step and on Python's half-to-even rounding.", "anchors": ["multisim/simenv.py::SimEnv._update_dyn_BC"]}
{"id": "C70", "title": "Heat conduction over a connection is the same from both sides", "statement": "The wall conductance used for the conduction between two connected parts is the same at both ports, also when parts without cells (pumps, mixers) lie between them; parts without cells pass on the mean of their other ports.", "quantifier": "all networks, port specifications and orders of adding parts", "why_tests_cant": "Depends on the order in which parts were added and on the whole network.", "anchors": ["multisim/simenv.py::SimEnv._get_port_connections", "multisim/simenv.py::SimEnv._calc_UAwll_port"]}
{"id": "C71", "title": "Controls can be added once all ports are connected", "statement": "If every port is connected, adding a control is not refused with the message that ports must be connected first.", "quantifier": "all networks and sequences of connect calls", "why_tests_cant": "Over all call sequences including shared boundary conditions.", "anchors": ["multisim/simenv.py::SimEnv._connect_ports", "multisim/simenv.py::SimEnv._add_control"]}
{"id": "C72", "title": "Long-term and short-term cost functions agree", "statement": "The cost function used for the 24 h plan and the one used for the current time slot assign the same value to the same modulation.", "quantifier": "all feasible modulations, demands and price parameters", "why_tests_cant": "Real-valued inputs; two separately maintained 100-line functions.", "anchors": ["multisim/parts/controllers.py::ModelPredCHP._minimizer_input", "multisim/parts/controllers.py::ModelPredCHP._minimizer_scalar"]}
{"id": "C73", "title": "Price parameters take effect", "statement": "Every price parameter given to the CHP optimiser changes the cost function in the documented way: surcharges on sales and the EEG levy for the plant's power class.", "quantifier": "all values of the price parameters and all plant sizes", "why_tests_cant": "A test fixes one parameter set; an ignored parameter only shows as a missing difference.", "anchors": ["multisim/parts/controllers.py::ModelPredCHP._minimizer_input", "multisim/parts/controllers.py::ModelPredCHP._eeg_umlage"]}
{"id": "C74", "title": "Maintenance cost function", "statement": "The maintenance cost estimate accepts a number or an array as documented, gives the same value per entry, and depends on the rated power without jumps.", "quantifier": "all rated powers", "why_tests_cant": "Needs all power values and both input kinds.", "anchors": ["multisim/parts/controllers.py::ModelPredCHP._instandh_nonflat"]}
{"id": "C75", "title": "State-of-charge adjustment of a plan", "statement": "Adjusting a modulation plan to the storage state only raises modulations, keeps them 0 or within the allowed range and stops as soon as the storage no longer runs empty.", "quantifier": "all plans, demands and limits", "why_tests_cant": "Unbounded rescaling loop on real vectors.", "anchors": ["multisim/parts/controllers.py::ModelPredCHP._longterm_adj_by_soc"]}
{"id": "C76", "title": "One optimisation per optimisation period", "statement": "At each controller call the number of optimisations done equals the index of the current optimisation period plus one, and the controller never runs out of optimisation times before the end of the simulation.", "quantifier": "all step sequences, periods and timeframes", "why_tests_cant": "Depends on the whole sequence of adaptive time steps.", "anchors": ["multisim/parts/controllers.py::ModelPredCHP.run_controller", "multisim/parts/controllers.py::ModelPredCHP._longterm_finalize_step"]}
{"id": "C77", "title": "Adapted storage limits stay ordered", "statement": "After any sequence of emergency adaptions and restores the lower storage limit stays below the upper one, so that the optimisation problem stays feasible.", "quantifier": "all sequences of emergencies, heat contents and times", "why_tests_cant": "Property of unbounded histories of emergencies.", "anchors": ["multisim/parts/controllers.py::ModelPredCHP._adapt_cap", "multisim/parts/controllers.py::ModelPredCHP._restore_adptd_caps"]}
{"id": "C78", "title": "Start value of the CHP optimisation", "statement": "The start value handed to the optimiser is the demand-following plan or a plan that satisfies both storage limits; its entries are 0 or within the modulation range, and it is found in a bounded number of rounds.", "quantifier": "all profiles, storage states and plant sizes", "why_tests_cant": "Iterative heuristics on real vectors.", "anchors": ["multisim/parts/controllers.py::ModelPredCHP._preopt_x0", "multisim/parts/controllers.py::ModelPredCHP._longterm_opt_pred"]}
{"id": "C79", "title": "Normalised error measures are unit-free", "statement": "CV(RMSE) and the normalised error measures do not depend on the unit of the data: multiplying measurement and prediction by the same positive factor leaves them unchanged, for each column separately.", "quantifier": "all data, all positive factors, all normalisations", "why_tests_cant": "All real factors and data sets.", "anchors": ["multisim/_utility/stat_error_measures.py::cv_rmse", "multisim/_utility/stat_error_measures.py::normalized_err"]}
{"id": "C80", "title": "Adjusted coefficient of determination", "statement": "The adjusted R^2 is at most R^2, equal only without parameters or for a perfect fit, falls with each additional parameter, and gives the same result for fractions and percentages.", "quantifier": "all R^2, sample sizes and parameter numbers", "why_tests_cant": "All real R^2 and all sizes.", "anchors": ["multisim/_utility/stat_error_measures.py::r_squared_adj"]}
{"id": "C81", "title": "Building the topology ends and orders the flow relations", "statement": "For every plant that can be built from add_part/connect_ports, initialising the simulation either raises an error or yields flow relations in which every flow is computed exactly once, only from pump flows, external flows, split factors and flows computed earlier; running them satisfies every relation and changes nothing else. The analysis never runs forever.", "quantifier": "all plants of any size with pipes, pumps, heat exchangers, connectors, valves, storages and branched pipes, all orders of the sub nets", "why_tests_cant": "The space of plants is unbounded and the recursion depends on the plant.", "anchors": ["multisim/simenv.py::SimEnv._get_topology", "multisim/simenv.py::_recursive_topology"]}
{"id": "C82", "title": "Flows are the physically consistent ones", "statement": "If pump flows and valve positions admit a flow distribution that obeys mass conservation in every part and at every connection, the flow update computes exactly this distribution; it is unique and does not depend on the order in which the program visits the remaining parts.", "quantifier": "all accepted plants, all pump flows and valve positions with open branches", "why_tests_cant": "Unbounded plants, real flows, Python set order.", "anchors": ["multisim/simenv.py::SimEnv._get_topology", "multisim/simenv.py::SimEnv._update_FlowNet"]}
{"id": "C83", "title": "Every part balances after a flow update", "statement": "After every flow update of an accepted plant every part conserves mass (in = out; valves split by their position), and every port has got a flow.", "quantifier": "all accepted plants, all states", "why_tests_cant": "Unbounded plants, real flows.", "anchors": ["multisim/simenv.py::_recursive_topology", "multisim/simenv.py::SimEnv._update_FlowNet"]}
{"id": "C84", "title": "Both ends of a connection show the same flow", "statement": "In an accepted plant the flow leaving one part through a connection equals the flow entering the other part.", "quantifier": "all accepted plants, all pump flows and valve positions", "why_tests_cant": "Unbounded plants; the closing connection of each loop is never computed but must follow.", "anchors": ["multisim/simenv.py::_recursive_topology", "multisim/simenv.py::SimEnv._get_topology"]}
{"id": "C85", "title": "Storages conserve mass", "statement": "The flows through all ports of a storage or branched pipe sum to zero after every update of an accepted plant.", "quantifier": "all accepted plants, all pump flows", "why_tests_cant": "Unbounded plants, real flows.", "anchors": ["multisim/parts/tes.py::Tes._get_flow_routine", "multisim/simenv.py::SimEnv._get_topology"]}
{"id": "C86", "title": "Flow channels do not depend on part names", "statement": "Which flow channel of a heat exchanger a connection belongs to is determined by the port alone; the name the user gives to the part does not matter.", "quantifier": "all part names", "why_tests_cant": "All strings.", "anchors": ["multisim/simenv.py::_recursive_topology"]}
{"id": "C87", "title": "The numeric heat exchanger only moves heat", "statement": "In every evaluation of the numeric heat exchanger, conduction between its cells and through its plates adds up to the heat conducted in through the ports; the water of each side brings in exactly the difference of its inlet and outlet enthalpies, in either flow direction and after any earlier flows; equal temperatures everywhere do not change.", "quantifier": "all grid sizes, geometries, temperatures from 0 to 100 degrees, flows of either sign", "why_tests_cant": "Unbounded grids, real-valued states.", "anchors": ["multisim/precomp_funs.py::hexnum_diff", "multisim/precomp_funs.py::_process_flow_multi_flow"]}
{"id": "C88", "title": "The two streams of the numeric heat exchanger balance", "statement": "In a steady state of the numeric heat exchanger the heat given off by one stream equals the heat taken up by the other.", "quantifier": "all grid sizes, channel numbers, flows and temperatures", "why_tests_cant": "Unbounded grids, real-valued states; a test of one configuration says nothing about others.", "anchors": ["multisim/precomp_funs.py::hexnum_diff", "multisim/parts/hex_num.py::HexNum"]}
{"id": "C89", "title": "The exchange area does not depend on the grid", "statement": "The heat crossing a plate of the numeric heat exchanger is limited by the plate's own conduction, whatever the number of grid points.", "quantifier": "all geometries, all numbers of grid points", "why_tests_cant": "Statement about arbitrarily fine grids.", "anchors": ["multisim/precomp_funs.py::hexnum_diff", "multisim/precomp_funs.py::UA_fld_wll_plate", "multisim/parts/hex_num.py::HexNum.get_plate_hex_geometry"]}
{"id": "C90", "title": "Conduction through a port depends on the water at the port", "statement": "The conductance of each port of the numeric heat exchanger follows from the water in the cell the port belongs to and from the connected part.", "quantifier": "all grid sizes and temperatures", "why_tests_cant": "All grid sizes; compiled code reads past the array silently.", "anchors": ["multisim/precomp_funs.py::_process_ports_collapsed", "multisim/precomp_funs.py::hexnum_diff", "multisim/parts/hex_num.py::HexNum"]}
{"id": "C91", "title": "An accepted step of the numeric heat exchanger does not overshoot", "statement": "If the stability check of the numeric heat exchanger accepts a step, no cell is driven past the temperatures of its neighbours, and no cell's water is exchanged more than once.", "quantifier": "all grid sizes, geometries, flows, temperatures and steps", "why_tests_cant": "Real-valued states; only bad geometries show it.", "anchors": ["multisim/precomp_funs.py::_vonNeumann_stability_invar_hexnum"]}
{"id": "C92", "title": "The condensing heat exchanger predicts with the fitted pipeline", "statement": "The outlet temperatures predicted by the condensing heat exchanger are those of the given regression pipeline (polynomial features, principal components, linear model), for every pipeline of matching shapes; a pipeline whose combinations cannot be stored is refused.", "quantifier": "all pipelines, all inputs", "why_tests_cant": "All pipelines and real-valued inputs.", "anchors": ["multisim/precomp_funs.py::transform_to_poly_nb", "multisim/precomp_funs.py::make_poly_transf_combs_for_nb", "multisim/precomp_funs.py::poly_tranfs_pred"]}
{"id": "C93", "title": "Outlet temperatures change continuously with a running water flow", "statement": "The outlet temperatures of the condensing heat exchanger are continuous functions of the water flow as long as water flows, also where the low-flow formula, the regression and the bypass meet.", "quantifier": "all pipelines, ranges, temperatures and flows above the lower bound", "why_tests_cant": "Continuity is a statement about all real flows.", "anchors": ["multisim/precomp_funs.py::condensing_hex_solve", "multisim/precomp_funs.py::condensing_hex_quad_poly"]}
{"id": "C94", "title": "No kink where the regression ends", "statement": "The slope of the outlet temperature over the water flow is the same on both sides of the threshold of 10 percent flow.", "quantifier": "all pipelines, ranges, temperatures", "why_tests_cant": "A slope is a limit.", "anchors": ["multisim/precomp_funs.py::condensing_hex_quad_poly", "multisim/precomp_funs.py::quad_get_c"]}
{"id": "C95", "title": "A stopping flow causes no jump of the outlet temperature", "statement": "At standstill the outlets have the inlet temperatures, and a vanishing flow approaches this.", "quantifier": "all pipelines, ranges, temperatures", "why_tests_cant": "A limit for vanishing flows.", "anchors": ["multisim/precomp_funs.py::condensing_hex_solve", "multisim/precomp_funs.py::condensing_hex_quad_poly"]}
{"id": "C96", "title": "Low water flows stay between the edge of the regression and the flue gas inlet", "statement": "For water flows up to 10 percent both outlet temperatures lie between the prediction at 10 percent and the flue gas inlet temperature, and move monotonically from one to the other.", "quantifier": "all pipelines, ranges, temperatures, flows from 0 to 10 percent", "why_tests_cant": "Real-valued flows and arbitrary pipelines.", "anchors": ["multisim/precomp_funs.py::condensing_hex_quad_poly"]}
{"id": "C97", "title": "The condensing heat exchanger is only run with flows of its range", "statement": "For flows that are not negative the flow used for the prediction is 0 or in the given range, below the range it is the nearer of 0 and the lower bound; a water flow above the range is split into flow through the exchanger and bypass without loss, a flue gas flow above the range raises.", "quantifier": "all ranges, all flows that are not negative", "why_tests_cant": "Real-valued flows, rounding at every multiple.", "anchors": ["multisim/precomp_funs.py::condensing_hex_solve"]}
{"id": "C98", "title": "Reversed flows through the condensing heat exchanger do no harm", "statement": "A reversed flow is refused or leads to temperatures bounded by the inlets.", "quantifier": "all ranges, pipelines and flows", "why_tests_cant": "Real-valued flows and arbitrary pipelines.", "anchors": ["multisim/precomp_funs.py::condensing_hex_solve", "multisim/parts/hex_condensing_polynome.py::HEXCondPoly._check_results"]}
{"id": "C99", "title": "The check after the run accepts what the run accepted", "statement": "A run of the condensing heat exchanger with flows in the given ranges and plausible temperatures passes the check of the results.", "quantifier": "all runs", "why_tests_cant": "All runs, boundary cases of real-valued ranges.", "anchors": ["multisim/parts/hex_condensing_polynome.py::HEXCondPoly._check_results", "multisim/precomp_funs.py::condensing_hex_solve"]}
{"id": "C100", "title": "Bypassed water is mixed without loss of heat", "statement": "Above the range of water flows the outlet temperature lies between water inlet and exchanger outlet and carries the enthalpy flows of both.", "quantifier": "all pipelines, temperatures from 0 to 100 degrees, flows above the range", "why_tests_cant": "Real-valued flows and temperatures.", "anchors": ["multisim/precomp_funs.py::condensing_hex_solve"]}
{"id": "C101", "title": "Accepted geometry is physical", "statement": "A pipe or storage that is accepted has positive cell lengths, volumes, areas, surfaces and conductivities, and heat transfer surfaces that fit together, which every property of the temperature differentials relies on; documented arguments are accepted.", "quantifier": "all arguments, tables and numbers of cells", "why_tests_cant": "All real-valued arguments.", "anchors": ["multisim/parts/pipe.py::Pipe.__init__", "multisim/parts/pipe.py::Pipe.init_part", "multisim/parts/tes.py::Tes.__init__", "multisim/parts/tes.py::Tes.init_part"]}
{"id": "C102", "title": "The cells make up the part", "statement": "Lengths, volumes, surfaces and wall heat capacities of the cells add up to those of the pipe or storage, and the positions of the cells of a pipe are the middles of the cells, one per cell.", "quantifier": "all accepted arguments, any number of cells", "why_tests_cant": "All numbers of cells and real-valued dimensions.", "anchors": ["multisim/parts/pipe.py::Pipe.__init__", "multisim/parts/pipe.py::Pipe.init_part", "multisim/parts/tes.py::Tes.__init__", "multisim/parts/tes.py::Tes.init_part"]}
{"id": "C103", "title": "Heat losses follow the textbook resistances", "statement": "The conductance from the water to the ambient through wall and insulation is that of the resistances of inner film, wall, insulation and outer film in series, each on its own surface, for all insulations in the documented range.", "quantifier": "all accepted arguments, all positive heat transfer coefficients", "why_tests_cant": "Real-valued dimensions and coefficients.", "anchors": ["multisim/precomp_funs.py::UA_fld_wll_ins_amb_cyl", "multisim/parts/pipe.py::Pipe.init_part", "multisim/parts/tes.py::Tes.init_part"]}
{"id": "C104", "title": "Heat losses do not depend on the number of cells", "statement": "A pipe or storage with one temperature everywhere and no flow loses the same heat for any number of cells.", "quantifier": "all parts, all numbers of cells, all temperatures", "why_tests_cant": "All pairs of grids.", "anchors": ["multisim/precomp_funs.py::cylinder_alpha_inf", "multisim/precomp_funs.py::calc_flow_length", "multisim/parts/tes.py::Tes.init_part", "multisim/parts/pipe.py::Pipe.init_part"]}
{"id": "C105", "title": "Each port has the dimensions it was given", "statement": "After a part was added, each port has the fluid and wall area of its own specification: that of 'all', the table entry of its nominal diameter, or the areas given; incomplete or unknown specifications are refused.", "quantifier": "all tables, ports and specifications", "why_tests_cant": "All tables and dictionaries.", "anchors": ["multisim/simenv.py::SimEnv._get_specs_n_props", "multisim/simenv.py::SimEnv._get_arr_idx"]}
{"id": "C106", "title": "Heat transfer depends continuously on the flow", "statement": "The heat transfer coefficient between water and pipe wall changes continuously with the mass flow, so a small change of the flow changes heat losses only a little.", "quantifier": "all flows, temperatures of liquid water, pipes and positions", "why_tests_cant": "Continuity at every real-valued flow.", "anchors": ["multisim/precomp_funs.py::pipe_alpha_i"]}
{"id": "C107", "title": "More flow never means less heat transfer", "statement": "The heat transfer coefficient at the inner wall, and with it the conductance to the ambient, never falls when the flow grows in either direction, and never falls below that of water at rest.", "quantifier": "all pairs of flows, all temperatures of liquid water, pipes and positions", "why_tests_cant": "All pairs of real-valued flows, across the change from laminar to turbulent.", "anchors": ["multisim/precomp_funs.py::pipe_alpha_i", "multisim/precomp_funs.py::UA_fld_wll_ins_amb_cyl"]}
{"id": "C108", "title": "A hotter surface loses more heat", "statement": "At the same ambient temperature the heat flow by free convection from a surface of a part grows strictly with the surface temperature.", "quantifier": "all pairs of surface temperatures, ambient temperatures, orientations and sizes", "why_tests_cant": "All pairs of real-valued temperatures.", "anchors": ["multisim/precomp_funs.py::cylinder_alpha_inf", "multisim/precomp_funs.py::vert_plane_alpha_inf", "multisim/precomp_funs.py::hor_plane_alpha_inf"]}
{"id": "C109", "title": "Heat transfer refers to the distance from the inlet", "statement": "Each cell of a pipe uses the distance from the end at which its water enters; reversing the flow in a mirrored pipe mirrors the coefficients.", "quantifier": "all pipes, flows and temperatures", "why_tests_cant": "All flow patterns of branched pipes.", "anchors": ["multisim/precomp_funs.py::pipe_alpha_i"]}
{"id": "C110", "title": "Implicit steps never overshoot", "statement": "A discretised heat exchanger solved implicitly keeps all temperatures between the lowest and highest of its old and port temperatures, whatever the step size and however many steps are done.", "quantifier": "all geometries, flows, port temperatures, step sizes, numbers of steps, all exact solutions of the implicit equations within 0-100 degrees", "why_tests_cant": "All step sizes and all solutions of a nonlinear system of any size.", "anchors": ["multisim/precomp_funs.py::hexnum_imp_root_diff", "multisim/precomp_funs.py::hexnum_diff_impl", "multisim/simenv.py::SimEnv._heun_adaptive"]}
{"id": "C111", "title": "Implicit steps keep the heat balance", "statement": "The heat stored by an implicit half step is the step size times the heat carried in and conducted in through the ports at the new temperatures.", "quantifier": "all geometries, flows, temperatures and step sizes", "why_tests_cant": "Exact balance for every solution.", "anchors": ["multisim/precomp_funs.py::hexnum_imp_root_diff", "multisim/precomp_funs.py::hexnum_diff_impl"]}
{"id": "C112", "title": "Tolerances hold for implicitly solved parts", "statement": "A step is accepted only if the temperatures of all discretised parts, including those solved implicitly, are within the requested tolerance and the root finder succeeded.", "quantifier": "all tolerances, step sizes, parts and root finders", "why_tests_cant": "All tolerances and all possible results of the root finder.", "anchors": ["multisim/simenv.py::SimEnv._heun_adaptive"]}
{"id": "C113", "title": "Every combination of parts can be simulated", "statement": "A simulation environment can be run whatever kinds of parts it contains; in particular discretised parts may all be solved implicitly, and a system may contain no discretised part.", "quantifier": "all lists of parts", "why_tests_cant": "All combinations of parts.", "anchors": ["multisim/simenv.py::SimEnv.add_part", "multisim/simenv.py::SimEnv._heun_adaptive"]}
{"id": "C114", "title": "The Newton solver solves the implicit step", "statement": "The Newton solver offered for implicit steps returns a solution of the implicit equations up to its tolerance.", "quantifier": "all differentials, step sizes, tolerances and start temperatures", "why_tests_cant": "All differentials; the iteration is not exercised by the simulation.", "anchors": ["multisim/precomp_funs.py::hexnum_imp_newt_diff"]}
{"id": "C115", "title": "A gross outlier is removed", "statement": "remove_outliers_std removes a value which is far away from all others.", "quantifier": "all series, array types and numbers of standard deviations", "why_tests_cant": "The limit itself grows with the outlier; only a bound over all data shows what can be removed.", "anchors": ["multisim/utility_functions.py::remove_outliers_std"]}
{"id": "C116", "title": "The median based removal finds gross outliers", "statement": "If more than half of the values given to remove_outliers_mad lie within r around c, every value further away from c than r + 2 * threshold * dist_const * r is removed.", "quantifier": "all series, thresholds, centres and radii", "why_tests_cant": "All data with a majority in some interval.", "anchors": ["multisim/utility_functions.py::remove_outliers_mad"]}
{"id": "C117", "title": "Most of the data survives", "statement": "Outlier removal keeps at least half of the values (median based with threshold * dist_const >= 1, standard deviation based with a limit of at least 1.5).", "quantifier": "all series and settings", "why_tests_cant": "All series of any length.", "anchors": ["multisim/utility_functions.py::remove_outliers_mad", "multisim/utility_functions.py::remove_outliers_std"]}
{"id": "C118", "title": "Ordinary data is not mistaken for outliers", "statement": "Values close to the others and values following a straight line are not removed.", "quantifier": "all series with a majority of equal values; all straight lines of any slope and length", "why_tests_cant": "All lengths and slopes.", "anchors": ["multisim/utility_functions.py::remove_outliers_mad", "multisim/utility_functions.py::remove_outliers_roll"]}
{"id": "C119", "title": "Outlier removal does not depend on the unit", "statement": "Converting a series to another unit (a * x + b with a > 0) before or after removing outliers gives the same result, for all three functions and all fillings except constants.", "quantifier": "all series, units, settings, windows", "why_tests_cant": "All affine changes of unit.", "anchors": ["multisim/utility_functions.py::remove_outliers_std", "multisim/utility_functions.py::remove_outliers_mad", "multisim/utility_functions.py::remove_outliers_roll"]}
{"id": "C120", "title": "Filled values follow from their neighbours", "statement": "With fill_value='interpolate' kept values stay as they are and every outlier is replaced by a value between the kept neighbours.", "quantifier": "all series, index values and settings", "why_tests_cant": "All patterns of outliers, also at both ends.", "anchors": ["multisim/utility_functions.py::remove_outliers_std", "multisim/utility_functions.py::remove_outliers_mad"]}
{"id": "C121", "title": "The caller's data is left as it is", "statement": "Outlier removal returns a cleaned series and does not alter the object it was given.", "quantifier": "all series, array types, settings", "why_tests_cant": "All data and fillings.", "anchors": ["multisim/utility_functions.py::remove_outliers_std", "multisim/utility_functions.py::remove_outliers_mad", "multisim/utility_functions.py::remove_outliers_roll"]}
{"id": "C122", "title": "Invalid temperatures stop a run", "statement": "If the temperatures of a part become NaN during a run, the run stops with the announced warning and keeps the results so far.", "quantifier": "all settings, time frames, numbers of steps, ways of saving, and sequences of what the parts report", "why_tests_cant": "Needs every pass and every state of the step counters, not one scenario.", "anchors": ["multisim/simenv.py::SimEnv.start_sim", "multisim/simenv.py::SimEnv._free_memory"]}
{"id": "C123", "title": "Fixed step sizes can be used", "statement": "A simulation set up with adaptive_steps=False and any accepted timestep can be run.", "quantifier": "all accepted time frames and steps, all sets of parts", "why_tests_cant": "All accepted settings.", "anchors": ["multisim/simenv.py::SimEnv.set_timeframe", "multisim/simenv.py::SimEnv.set_solver", "multisim/simenv.py::SimEnv.start_sim", "multisim/simenv.py::SimEnv._heun"]}
{"id": "C124", "title": "A reset simulation repeats the first run", "statement": "After initialize_sim(reset_simenv=True) a second run gives the same results as the first.", "quantifier": "all first runs, initial temperatures, flows and powers", "why_tests_cant": "Any history of the first run.", "anchors": ["multisim/simenv.py::SimEnv._reset_simenv", "multisim/simenv.py::SimEnv.initialize_sim", "multisim/simenv.py::SimEnv._compress_store", "multisim/parts/pipe.py::Pipe._reset_to_init_cond"]}
{"id": "C125", "title": "Performance indicators obey their laws", "statement": "For any prediction and measurement |MBE| <= MAE <= RMSE and MSE = RMSE^2 hold, RMSE is zero exactly for a prediction which is right in every evaluated row, and a change of units leaves the normalised indicators unchanged.", "quantifier": "all series, labels, kinds of index and settings", "why_tests_cant": "Inequalities over all data sets.", "anchors": ["multisim/utility_functions.py::ts_performance_indicators", "multisim/utility_functions.py::fit_time_series"]}
{"id": "C126", "title": "R squared is the coefficient of determination", "statement": "The returned R^2 is 1 minus the residual sum of squares over the total sum of squares; predicting the mean gives 0.", "quantifier": "all series of at least two values", "why_tests_cant": "Identity over all data sets.", "anchors": ["multisim/utility_functions.py::ts_performance_indicators"]}
{"id": "C127", "title": "Number indices are ignored", "statement": "Series of equal length with number indices are compared value by value in their order.", "quantifier": "all labels and values", "why_tests_cant": "All combinations of labels.", "anchors": ["multisim/utility_functions.py::fit_time_series", "multisim/utility_functions.py::ts_performance_indicators"]}
{"id": "C128", "title": "Only zeros in both series are left out", "statement": "With exclude_zeros a row is left out if both values are zero and counts otherwise.", "quantifier": "all series", "why_tests_cant": "All data sets.", "anchors": ["multisim/utility_functions.py::ts_performance_indicators"]}
{"id": "C129", "title": "Resampled values stay within the data", "statement": "Whatever the method, every resampled value lies between the smallest and the largest measured value.", "quantifier": "all ordered series, frequencies and methods", "why_tests_cant": "All data sets and frequencies.", "anchors": ["multisim/utility_functions.py::process_unevenly_spaced_timeseries"]}
{"id": "C130", "title": "Resampling leaves no gaps", "statement": "A resampled series has a number for every point in time.", "quantifier": "all ordered non-empty series, frequencies and methods", "why_tests_cant": "All positions of the first value relative to the bins.", "anchors": ["multisim/utility_functions.py::process_unevenly_spaced_timeseries"]}
{"id": "C131", "title": "Resampling does not move values in time", "statement": "A series which already has the wanted frequency is returned as it is.", "quantifier": "all starts, frequencies, values and methods", "why_tests_cant": "All offsets.", "anchors": ["multisim/utility_functions.py::process_unevenly_spaced_timeseries"]}
{"id": "C132", "title": "Filling takes the neighbouring measurement", "statement": "With 'forward_fill' each value is the last one measured until then, with 'backward_fill' the next one.", "quantifier": "all ordered series and frequencies", "why_tests_cant": "All data sets.", "anchors": ["multisim/utility_functions.py::process_unevenly_spaced_timeseries"]}
{"id": "C133", "title": "All measured values count", "statement": "Each measured value has an influence on the resampled series.", "quantifier": "all ordered series and frequencies", "why_tests_cant": "All data sets.", "anchors": ["multisim/utility_functions.py::process_unevenly_spaced_timeseries"]}
{"id": "C134", "title": "Boundary condition series can be made", "statement": "make_boundarycond_timeseries returns a series over the wanted duration for each accepted input, repeating the values with bc_too_short='stack'.", "quantifier": "all arrays, frequencies and durations", "why_tests_cant": "All lengths relative to the duration.", "anchors": ["multisim/utility_functions.py::make_boundarycond_timeseries"]}
{"id": "C135", "title": "A fitted control reproduces the measured flow", "statement": "opt_control rates simulated flows by their deviation from the measured flow; the measured flow itself is rated best.", "quantifier": "all simulated and measured flows", "why_tests_cant": "Statement about the minimum over all flows.", "anchors": ["multisim/utility_functions.py::opt_control"]}
{"id": "C136", "title": "Rolling values stay within the data", "statement": "Rolling mean, median, minimum and maximum lie between the smallest and the largest value of the series and are ordered among each other.", "quantifier": "all series, windows, frequencies and min_periods", "why_tests_cant": "All data sets and windows.", "anchors": ["multisim/utility_functions.py::rolling_centered"]}
{"id": "C137", "title": "Rolling windows are centred", "statement": "A series which rises steadily is not changed by the centred rolling mean away from its ends.", "quantifier": "all slopes, windows and frequencies", "why_tests_cant": "All ratios of window and frequency.", "anchors": ["multisim/utility_functions.py::rolling_centered"]}
{"id": "C138", "title": "Rolling introduces no gaps", "statement": "With min_periods=0 rolling data is calculated until the start and end without introducing NaN.", "quantifier": "all series, windows and frequencies", "why_tests_cant": "All ratios of window and frequency.", "anchors": ["multisim/utility_functions.py::rolling_centered"]}
{"id": "C139", "title": "Root solvers solve decoupled linear equations exactly", "statement": "root_array_secant, root_array_newton and root_array_newton_fast return the exact root of one linear equation per cell from every start, and a start which is a root is returned.", "quantifier": "all numbers of cells, coefficients, starts, tolerances and iteration limits from two on", "why_tests_cant": "Unbounded numbers of cells and all coefficients.", "anchors": ["multisim/precomp_funs.py::root_array_secant", "multisim/precomp_funs.py::root_array_newton", "multisim/precomp_funs.py::root_array_newton_fast"]}
{"id": "C140", "title": "A root solver returns a root or reports failure", "statement": "What root_array_secant returns is a root within tolerance, or the caller can see that no root was found.", "quantifier": "all functions, starts, tolerances and iteration limits", "why_tests_cant": "All functions; the failing starts form a thin set.", "anchors": ["multisim/precomp_funs.py::root_array_secant"]}
{"id": "C141", "title": "root_secant returns a value within the tolerance", "statement": "root_secant applied to a linear equation with a root returns a value whose residual is within tol.", "quantifier": "all linear equations, starts, tolerances and iteration limits", "why_tests_cant": "The failing starts are single points.", "anchors": ["multisim/precomp_funs.py::root_secant"]}
{"id": "C142", "title": "Moving averages stay within the data and are centred", "statement": "Moving averages with filled edges keep the length of the array and the range of its values; equal weights give the plain average; data which rises steadily is not changed away from the edges.", "quantifier": "all arrays, windows and weights", "why_tests_cant": "All arrays and windows.", "anchors": ["multisim/precomp_funs.py::moving_avg", "multisim/precomp_funs.py::fill_edges", "multisim/precomp_funs.py::moving_avg_fill_edges", "multisim/precomp_funs.py::weighted_moving_avg"]}
{"id": "C143", "title": "The logarithmic mean temperature difference is a mean", "statement": "log_mean_temp_diff lies between the temperature differences at the two ends and does not depend on the order of the ends.", "quantifier": "all temperatures with differences of the same sign", "why_tests_cant": "Inequality over all reals.", "anchors": ["multisim/precomp_funs.py::log_mean_temp_diff"]}
{"id": "C144", "title": "Splitting a wall keeps the resistance", "statement": "The heat transfer coefficients fluid-wall and wall-ambient in series equal the coefficient fluid-ambient for cylinders with and without insulation and for plates.", "quantifier": "all radii, thicknesses, conductivities and heat transfer coefficients", "why_tests_cant": "Identity over all reals with logarithms.", "anchors": ["multisim/precomp_funs.py::UA_fld_wll_cyl", "multisim/precomp_funs.py::UA_wll_ins_amb_cyl", "multisim/precomp_funs.py::UA_wll_amb_cyl", "multisim/precomp_funs.py::UA_fld_wll_amb_cyl", "multisim/precomp_funs.py::UA_fld_wll_ins_amb_cyl", "multisim/precomp_funs.py::UA_fld_wll_plate", "multisim/precomp_funs.py::UA_wll_ins_amb_plate", "multisim/precomp_funs.py::UA_fld_wll_ins_amb_plate"]}
{"id": "C145", "title": "The result file holds the chosen cells", "statement": "The result file holds for each part exactly the cells chosen with store_results of add_part, and an accepted choice never makes the run fail.", "quantifier": "all choices, numbers of grid points, parts and tables", "why_tests_cant": "All choices and part combinations; failures show only at the end of a run.", "anchors": ["multisim/simenv.py::SimEnv.add_part", "multisim/simenv.py::SimEnv._compress_store"]}
{"id": "C146", "title": "A rejected call changes nothing", "statement": "A call of add_part, add_open_port or add_control which raises leaves the description of the environment as it was.", "quantifier": "all descriptions and calls", "why_tests_cant": "All histories of calls.", "anchors": ["multisim/simenv.py::SimEnv.add_part", "multisim/simenv.py::SimEnv.add_open_port", "multisim/simenv.py::SimEnv.add_control", "multisim/simenv.py::SimEnv._check_isadded"]}
{"id": "C147", "title": "The order of the description does not matter", "statement": "Parts, open ports, connections and controls may be described in any interleaving; the same environment is built and the same scripts are rejected.", "quantifier": "all scripts", "why_tests_cant": "Exponentially many interleavings.", "anchors": ["multisim/simenv.py::SimEnv.add_part", "multisim/simenv.py::SimEnv.add_open_port", "multisim/simenv.py::SimEnv.connect_ports", "multisim/simenv.py::SimEnv.add_control", "multisim/simenv.py::SimEnv._call_postponed"]}
{"id": "C148", "title": "A time series is used for the time it is given for", "statement": "In each step the value used for a boundary condition, actuator or set point given by a time series belongs to the time of the step.", "quantifier": "all series, step sizes and kinds of target", "why_tests_cant": "All step sequences; a delay of one step is within usual test tolerances.", "anchors": ["multisim/simenv.py::SimEnv._initialize_dynamic_BC", "multisim/simenv.py::SimEnv._update_dyn_BC", "multisim/simenv.py::SimEnv._call_postponed", "multisim/simenv.py::SimEnv.start_sim", "multisim/simenv.py::SimEnv.assign_boundary_cond"]}
{"id": "C149", "title": "Values in the result file are time means", "statement": "With resample_final each value in the result file is the mean over time of the result during its interval.", "quantifier": "all results and step sequences", "why_tests_cant": "Depends on the step sizes chosen by the solver.", "anchors": ["multisim/simenv.py::SimEnv._compress_store"]}
{"id": "C150", "title": "Runs without result file can take as many steps as they need", "statement": "When the result arrays are full during a run without result file, they are enlarged and the run goes on.", "quantifier": "all numbers of steps, limits and shapes of results", "why_tests_cant": "Shows only after a million steps.", "anchors": ["multisim/simenv.py::SimEnv._free_memory", "multisim/simenv.py::SimEnv._initialize_arrays"]}
{"id": "C151", "title": "Heat content of the storage seen by the optimiser", "statement": "The heat content of the storage is zero exactly for a storage at 0 degC and otherwise positive, grows with every cell temperature up to 100 degC, and does not depend on the order of the cells or on the fineness of the grid.", "quantifier": "all cell temperatures, volumes and grids", "why_tests_cant": "All temperature fields; depends on polynomials over an interval.", "anchors": ["multisim/parts/controllers.py::ModelPredCHP._tes_heat_content"]}
{"id": "C152", "title": "Accepted profiles last for the whole run", "statement": "Demand profiles accepted by the controller have a value for each optimisation and each step of the run, and profiles as described in the error message are accepted.", "quantifier": "all profiles, periods, timeframes and step times", "why_tests_cant": "A profile which is too short fails only at the end of a run.", "anchors": ["multisim/parts/controllers.py::ModelPredCHP._process_profiles", "multisim/parts/controllers.py::ModelPredCHP._longterm_opt_pred", "multisim/parts/controllers.py::ModelPredCHP._shortterm_opt"]}
{"id": "C153", "title": "Profile values belong to the time they are used for", "statement": "The demand an optimisation assumes for a period is the mean of the profile over this period of the run.", "quantifier": "all profiles, start times and periods", "why_tests_cant": "A shifted profile gives plausible plans.", "anchors": ["multisim/parts/controllers.py::ModelPredCHP._process_profiles", "multisim/parts/controllers.py::ModelPredCHP._longterm_opt_pred"]}
{"id": "C154", "title": "Saturated humid air", "statement": "Between -30 and 80 degC saturation pressure and water content of saturated air are positive and rise with the temperature, and both functions agree with each other by the ideal gas law.", "quantifier": "all temperatures of the range", "why_tests_cant": "A continuum of inputs; polynomial fits of degree 6 and 10.", "anchors": ["multisim/precomp_funs.py::humid_air_saturation_pressure", "multisim/precomp_funs.py::humid_air_sat_water_mass"]}
{"id": "C155", "title": "Scaled pipes come from the table", "statement": "adjust_pipes gives each pipe the inner area of its reference pipe times the factor and dimensions fitting to each other; a pipe taken with factor 1 has the dimensions of the table; the wall belongs to the requested pipe type.", "quantifier": "all tables, requests, factors and interpolation methods", "why_tests_cant": "All tables and requests.", "anchors": ["multisim/utility_functions.py::adjust_pipes", "multisim/utility_functions.py::interp_pipe_specs"]}
{"id": "C156", "title": "Temperatures of a network stay in the range of their surroundings", "statement": "In a network of pipes, branched pipes and storages, with connectors, valves and pumps which do not mix, and with flows, ambient temperatures and boundary values that change from step to step, no cell and no port ever leaves the range of the temperatures present at the start, at the boundary and in the surroundings, as long as the steps are short for every part; a network at one temperature stays exactly there.", "quantifier": "all networks, all runs of the adaptive solver including rejected attempts, all flows and step sizes below an explicit limit", "why_tests_cant": "A single overshoot somewhere in a network; all topologies, flows and step sequences.", "anchors": ["multisim/simenv.py::SimEnv._heun_adaptive", "multisim/precomp_funs.py::pipe1D_diff", "multisim/precomp_funs.py::pipe1D_branched_diff", "multisim/precomp_funs.py::tes_diff"]}
{"id": "C157", "title": "First law for a whole network", "statement": "The heat content of a network changes only by the heat exchanged with the ambient, the heat of heaters and the heat entering through ports not connected inside the network: all exchange between its parts cancels. A closed unheated network at least as warm as its surroundings never gains heat.", "quantifier": "all networks of pipes, heated pipes, branched pipes and storages, all connections, flows and temperatures", "why_tests_cant": "Each unit test sees single parts; needs all topologies.", "anchors": ["multisim/precomp_funs.py::pipe1D_diff", "multisim/precomp_funs.py::pipe1D_branched_diff", "multisim/precomp_funs.py::tes_diff", "multisim/precomp_funs.py::heatedpipe1D_diff", "multisim/precomp_funs.py::_process_ports_collapsed"]}
{"id": "C158", "title": "The report describes the run", "statement": "The report of a finished simulation gives the number of steps and of repeated attempts, how many steps were of each kind, the time simulated, mean, median and quartiles of the step size, and whether the simulation succeeded: steps accepted with too large an error are exactly those counted as limited to the minimum step size, kinds add up to the steps taken, and a run stopped by invalid values is not called a success.", "quantifier": "all runs of the adaptive solver: all step sequences, error values, rejected attempts and solver settings", "why_tests_cant": "Reports of single runs look plausible; off-by-one counts and wrongly weighted means only show against the exact history of arbitrary runs.", "anchors": ["multisim/simenv.py::SimEnv._write_report", "multisim/simenv.py::SimEnv._finalize_sim", "multisim/simenv.py::SimEnv._heun_adaptive"]}
{"id": "C159", "title": "A flow meter shows the flow through its cell", "statement": "A mass or volume flow meter placed at a cell of a part shows the flow through this cell; cells which do not exist are refused.", "quantifier": "all parts (pipes, pumps, storages with any ports, heat exchangers, valves, connectors), all balanced flows, all cells", "why_tests_cant": "All port arrangements and flows; tests look at single pipes where every cell has the same flow.", "anchors": ["multisim/_utility/meters.py::Meters.massflow", "multisim/_utility/meters.py::Meters.volumeflow", "multisim/simenv.py::SimEnv._massflow_idx_from_temp_idx", "multisim/simenv.py::SimEnv._check_isinrange", "multisim/parts/connector_3w.py::Connector3w.solve"]}
{"id": "C160", "title": "Predefined assemblies are complete", "statement": "A plant put together from the predefined assemblies (hot water, storage loading, heating circuit, boiler, CHP) is accepted: names do not clash, all ports end up connected, all references to cells, actuators, sensors and masters exist and every part that needs a controller has one.", "quantifier": "all plants: any number of assemblies, any segment names, any rest of the plant, all variants of the assemblies", "why_tests_cant": "Any combination of assemblies and names; tests build one plant, and the repository has none for the assemblies.", "anchors": ["multisim/parts/part_modules/consumers.py::lowex_phwrc", "multisim/parts/part_modules/consumers.py::speicherladesys", "multisim/parts/part_modules/consumers.py::space_heating", "multisim/parts/part_modules/suppliers.py::chp_with_fghex", "multisim/parts/part_modules/suppliers.py::gasboiler", "multisim/simenv.py::SimEnv.connect_ports", "multisim/simenv.py::SimEnv.add_control"]}
{"id": "C161", "title": "Water takes its way through the predefined assemblies", "statement": "Each predefined assembly forms a network whose flows can be solved. For all pump flows and valve openings heat exchangers, boilers and CHP plants get the flow their purpose demands, and what is taken from the storage through the supply connector is returned through the return connectors.", "quantifier": "all assemblies, all pump flows, all valve openings between closed and open", "why_tests_cant": "All flows and openings; a test simulates single operating points.", "anchors": ["multisim/parts/part_modules/consumers.py::lowex_phwrc", "multisim/parts/part_modules/consumers.py::speicherladesys", "multisim/parts/part_modules/consumers.py::space_heating", "multisim/parts/part_modules/suppliers.py::chp_with_fghex", "multisim/parts/part_modules/suppliers.py::gasboiler", "multisim/flownet.py::FlowNet"]}
{"id": "C162", "title": "Plate heat exchangers get a fitting number of plates", "statement": "The assemblies choose the smallest accepted number of plates that is not below the one wanted for the size of the building or the circulation flow; larger buildings never get smaller exchangers. Every accepted exchanger has channels on both sides and area to transfer heat.", "quantifier": "all building sizes and flows, all numbers of passes and plates", "why_tests_cant": "All sizes including small buildings; a test constructs one exchanger.", "anchors": ["multisim/parts/part_modules/consumers.py::lowex_phwrc", "multisim/parts/part_modules/consumers.py::speicherladesys", "multisim/parts/hex_num.py::HexNum.__init__", "multisim/parts/heatexchanger.py::HeatExchanger.__init__"]}
{"id": "C163", "title": "A controller sees the temperature at its sensor", "statement": "A controller whose sensor is placed at a port or cell of a part works with the temperature of this port or cell at all times; other places are refused.", "quantifier": "all parts, all ports and cells, all temperatures", "why_tests_cant": "All parts and port positions; tests use sensors in pipes, where ports are first and last cell.", "anchors": ["multisim/controls.py::Controls.__check_args", "multisim/controls.py::Controls.__init__", "multisim/parts/controllers.py::TwoSensors", "multisim/parts/hex_num.py::HexNum.__init__", "multisim/parts/hex_condensing_polynome.py::HEXCondPoly.__init__"]}
{"id": "C164", "title": "Assemblies are sized for their power", "statement": "Pumps of the predefined assemblies can carry off the given power at the given temperatures, start within their limits and keep the flow velocity in the scaled pipes; assemblies built again from the same settings are the same.", "quantifier": "all powers, efficiencies and temperatures; any number of plants built from one dictionary", "why_tests_cant": "All settings and sequences of calls; a test looks at one plant.", "anchors": ["multisim/parts/part_modules/suppliers.py::chp_with_fghex", "multisim/parts/part_modules/suppliers.py::gasboiler", "multisim/parts/part_modules/consumers.py::speicherladesys", "multisim/parts/part_modules/consumers.py::space_heating", "multisim/parts/pump.py::Pump.init_part"]}
{"id": "C165", "title": "Plate heat exchangers have the geometry of their data", "statement": "Areas, thicknesses, volumes, masses and outer surface of a plate heat exchanger fit the given data and each other: the plate is the rounded rectangle without its ports, plate and channel take the depth per plate, plates have the given mass, cells make up the whole, insulation enlarges the surface; all are positive, and equivalent descriptions give the same exchanger.", "quantifier": "all dimensions, all ways of describing an exchanger, both heat exchanger parts", "why_tests_cant": "All combinations of optional arguments and all sizes; tests construct exchangers from one data sheet.", "anchors": ["multisim/parts/hex_num.py::HexNum.get_plate_hex_geometry", "multisim/parts/heatexchanger.py::HeatExchanger.get_plate_hex_geometry"]}
{"id": "C166", "title": "Packaging results loses nothing and mixes nothing up", "statement": "package_results moves every simulation that has ended, with report, boundary conditions and its own log, into a folder of its own; unfinished ones stay, existing folders stay as they are, no file is lost or overwritten, and the numbers reported are right.", "quantifier": "all directory contents, orders of listing, name features and numbers of simulations", "why_tests_cant": "All directory contents and all orders in which files are listed; a test packages two or three files.", "anchors": ["multisim/utility_functions.py::package_results"]}
{"id": "C167", "title": "Packaged results can be loaded by their number", "statement": "load_results_by_name returns the results of exactly the simulations of the set with the given numbers (all without numbers), load_sim_results exactly the tables asked for; packaged results are found again.", "quantifier": "all directories, numbers and identifiers; all result files and keys", "why_tests_cant": "All directory contents; a test loads one packaged set.", "anchors": ["multisim/utility_functions.py::load_results_by_name", "multisim/utility_functions.py::load_sim_results", "multisim/utility_functions.py::package_results"]}
{"id": "C168", "title": "No call stops at a variable or name that has no value", "statement": "In every function, method and module file of the package every name is bound whenever it is read: no call ends in UnboundLocalError or NameError, and importing the modules never does.", "quantifier": "all functions of the package, all names, all executions (branches, loop passes, exceptions at any point and their handlers)", "why_tests_cant": "All paths through 480 functions including exceptions raised anywhere; a test follows one path per call.", "anchors": ["multisim/utility_functions.py::load_results_by_name", "multisim/utility_functions.py::make_boundarycond_timeseries", "multisim/utility_functions.py::database_import", "multisim/_utility/plotting.py::prediction_realization_2d_kde", "multisim/precomp_funs.py::root_array_newton_fast", "multisim/simenv.py::SimEnv"]}
{"id": "C169", "title": "Every call inside the package fits the function it calls", "statement": "Every call to a function, class or method of the package, whatever class of part or controller the object has, finds a function, with as many positional arguments as it takes, no unknown or doubled keyword and no missing parameter.", "quantifier": "all 528 such calls of the package, all classes an object can have (1330 pairs of call and function), all signatures", "why_tests_cant": "Every call in every branch, also of code no test reaches, for every derived class.", "anchors": ["multisim/parts/pipe2D.py::Pipe2D.get_diff", "multisim/simenv.py::SimEnv._recursive_topology", "multisim/precomp_funs.py", "multisim/parts"]}
{"id": "C170", "title": "Every quantity is handed to the parameter meant for it", "statement": "In no call are two arguments exchanged: a variable named like a parameter goes to that parameter; the arrays the parts hand to their solver functions by position (simenv._create_diff_inputs) arrive at the parameters of their names, explicit and implicit; error measures in plots are those of prediction against realisation.", "quantifier": "all calls and parameters of the package, all parts with solver inputs; all series", "why_tests_cant": "Exchanged arrays of equal shape raise nothing and give plausible numbers; tests of a solver do not see which of 67 arrays is meant.", "anchors": ["multisim/simenv.py::SimEnv._create_diff_inputs", "multisim/parts/pipe.py::Pipe.init_part", "multisim/parts/tes.py::Tes.init_part", "multisim/parts/hex_num.py::HexNum.init_part", "multisim/parts/pipe_branched.py::PipeBranched.init_part", "multisim/_utility/plotting.py::prediction_realization_2d_kde", "multisim/_utility/plotting.py::annotate_errors"]}
{"id": "C171", "title": "Objects have the attributes they read", "statement": "While a part, controller or environment is constructed, with all methods its constructor calls, no attribute is read before it has been set; every attribute a class reads from its own objects is set somewhere.", "quantifier": "all 24 classes, all attributes, all executions (any branch, any number of loop passes, an exception at any place)", "why_tests_cant": "All combinations of branches of the constructors and of the methods they call; an attribute missing on one of them shows only there.", "anchors": ["multisim/parts/pipe2D.py::Pipe2D.__init__", "multisim/parts/controllers.py::PID.__init__", "multisim/simenv.py::SimEnv._add_ports", "multisim/parts/mixingvalve.py::MixingValve.init_part", "multisim/controls.py::Controls.init_controller", "multisim/parts"]}
{"id": "C172", "title": "Results read back are those of the run", "statement": "After a run return_stored_data gives each part whose results are kept with all its tables, the time vectors and the meters, nothing of one under the name of another; the tables of a stopped run are all read by load_failed_results.", "quantifier": "all parts, names, choices of kept results, controllers and meters", "why_tests_cant": "All names: which entries are mistaken depends on the names of parts and meters of the plant at hand.", "anchors": ["multisim/simenv.py::SimEnv.return_stored_data", "multisim/simenv.py::SimEnv._compress_store", "multisim/parts/chp_plant.py::CHPPlant._special_return_store", "multisim/_utility/meters.py", "multisim/utility_functions.py::load_failed_results"]}
{"id": "C173", "title": "Inputs are left as they are", "statement": "No function or method changes an object given as an argument, except the arguments that are meant to be filled; calls with the same arguments do not influence each other.", "quantifier": "all functions and methods outside precomp_funs, all arguments, all paths through loops, branches, exceptions and called functions; all sequences of calls", "why_tests_cant": "All paths and all sequences of calls: the effect only shows in a later call with the same object.", "anchors": ["multisim/_utility/plotting.py::heatmap_from_df", "multisim/utility_functions.py::remove_outliers_std", "multisim/utility_functions.py::remove_outliers_mad", "multisim/parts/part_modules/suppliers.py::chp_with_fghex", "multisim/parts/part_modules/chp_with_fluegas_hex.py::add_chp_with_fghex", "multisim/parts/controllers.py::ModelPredCHP._minimizer_input"]}
{"id": "C174", "title": "Results do not depend on the units", "statement": "The compiled functions compute quantities, not numbers: expressing all inputs in other units (millimetres, hours, grams, other temperature steps) changes every result by the factor of its unit and nothing else; the same branches are taken, the same steps accepted and the same errors raised.", "quantifier": "all 89 compiled functions of precomp_funs that take numbers and arrays, all inputs, all systems of units, all array shapes and index patterns, all paths through loops and calls", "why_tests_cant": "A test runs in one system of units with given numbers: a wrong power of a length, a missing factor or a comparison of different quantities gives plausible numbers there.", "anchors": ["multisim/precomp_funs.py::pipe1D_diff", "multisim/precomp_funs.py::tes_diff", "multisim/precomp_funs.py::hexnum_diff", "multisim/precomp_funs.py::heatedpipe1D_diff", "multisim/precomp_funs.py::_vonNeumann_stability_var", "multisim/precomp_funs.py::phex_alpha_i_wll_sep_discretized", "multisim/precomp_funs.py::cylinder_alpha_inf", "multisim/precomp_funs.py::_embedded_adapt_stepsize", "multisim/precomp_funs.py::get_cp_water"]}
{"id": "C175", "title": "Every message, label and file name can be written and shows its values", "statement": "Producing the text of a message never fails: for every call of str.format in the package and whatever names and values the user gave, the placeholders have values, values are of the kind the format asks for, no correct call is rejected because of the text prepared for an error, and the text shows every value passed to it.", "quantifier": "all 721 calls of str.format in the package with all templates that can reach them, all names, values and ways of writing numbers", "why_tests_cant": "Most of these texts are only made when something is wrong, and a test of an error uses one ordinary name: a message that fails for other names or values replaces the explanation by an unrelated exception, and a text prepared in advance rejects a correct call.", "anchors": ["multisim/simenv.py:1130-1180", "multisim/simenv.py:1255-1285", "multisim/simenv.py:1470-1523", "multisim/simenv.py:1976-2002", "multisim/controls.py:300-330", "multisim/controls.py:500-590", "multisim/parts/pump.py:230-250", "multisim/utility_functions.py:1880-1960"]}
{"id": "C176", "title": "One step of a part stays inside its arrays", "statement": "For every part as constructed, any number of cells that the constructor accepts, any number of ports and any data, the method that calculates one step (get_diff, solve) never reads or writes outside an array, never joins arrays whose shapes do not fit, never takes the largest of no values, and leaves all arrays with the shapes they had, so that any number of steps can follow.", "quantifier": "all sizes (cells, ports, rows of results, heated cells), all data (all outcomes of branches and masks), any number of successive calls, eleven methods with all functions they call", "why_tests_cant": "The functions are compiled without checks of indices: a read outside an array gives some number from foreign memory and usually no error, and whether it happens depends on the sizes and on which branches are taken; tests use a few sizes.", "anchors": ["multisim/parts/pipe.py:83-87", "multisim/parts/pipe.py:642-680", "multisim/parts/hex_num.py:277-285", "multisim/parts/hex_num.py:1312-1330", "multisim/precomp_funs.py:280-296", "multisim/precomp_funs.py:690-700", "multisim/precomp_funs.py:2735-2745", "multisim/parts/tes.py:203", "multisim/simenv.py:4681-4712"]}
{"id": "C177", "title": "An assigned series acts on the variable it is assigned to", "statement": "A time series accepted by assign_boundary_cond for a variable of a part acts: from the second step on, the step function of the part finds the value of the series for that time in the element named by array_index, in every step of every run. In particular for the variables named in the documentation ('T', 'T_amb'), for variables that are single numbers, for every index python accepts, and a second series with the same time stamps as the first one is accepted.", "quantifier": "all parts (all flow nets, step functions, port updates and controls that leave the element alone), all series, all indices, any number of steps, all attributes, all time stamps", "why_tests_cant": "A series without effect gives no error: the results are the ones for the constant value. Whether it acts depends on the kind of attribute (array or number), on what the solver overwrites and on the moment the arguments are collected; tests use one series on an open port.", "anchors": ["multisim/simenv.py:1357-1364", "multisim/simenv.py:1440-1470", "multisim/simenv.py:1487-1524", "multisim/simenv.py:2717-2763", "multisim/simenv.py:3982", "multisim/simenv.py:4008", "multisim/simenv.py:4736-4770", "multisim/simenv.py:1600"]}
{"id": "C178", "title": "A reset gives pumps and valves their flows and openings back", "statement": "After initialize_sim(reset_simenv=True) every pump has the start flow it was given (or the first value of its series) and every valve the opening it was given, whatever the first run left in them, and without a control the pump keeps it for the whole second run.", "quantifier": "all networks (any order of creation, any shared flow arrays), all start flows and openings, all states after the first run, any number of flow updates in the second run", "why_tests_cant": "Whether a pump gets its flow back depends on the order in which the parts were created and on which of them share a flow array; a second run with standing water gives no error.", "anchors": ["multisim/simenv.py:4782-4802", "multisim/simenv.py:1560-1566", "multisim/parts/pipe.py:499-501", "multisim/parts/pipe.py:550-562", "multisim/parts/pump.py:178-186", "multisim/parts/pump.py:250-251", "multisim/parts/pump.py:344-345", "multisim/parts/pipe_with_pump.py:91-109", "multisim/parts/mixingvalve.py:404-414", "multisim/parts/tes.py:625-627"]}
{"id": "C179", "title": "A part without controller works with the value it was given", "statement": "Every part that can be controlled can also be used without controller: made with no_control=True (pumps, three-way valves) or ctrl_required=False (the others) and a constant value or a time series, the environment can be built, the actuator has the constant value or the series is bound to it, nothing that was given is dropped without error, only values of the range of the actuator are taken, and such a part takes no controller.", "quantifier": "all six kinds of controllable parts, all combinations of keyword arguments, all values and series", "why_tests_cant": "The combinations of keyword arguments are many and the two conventions exist side by side; a dropped series gives no error but a pump that stands still. Tests use ctrl_required=False with const_val on a pipe with pump only.", "anchors": ["multisim/simenv.py:1130-1232", "multisim/simenv.py:4571-4582", "multisim/controls.py:79-81", "multisim/parts/pump.py:230-325", "multisim/parts/mixingvalve.py:272-393", "multisim/parts/pipe_with_pump.py:91-125", "multisim/parts/pipe_with_valve.py:166-189", "multisim/parts/chp_plant.py:494-501", "multisim/parts/heated_pipe.py:158-192"]}
{"id": "C180", "title": "The names of parts and ports are only names", "statement": "A network does not depend on the names its parts have: with other, pairwise different names that are accepted, the same description gives the same connections under the other names, or is refused for the same reason; different ports are never mixed up, and the neighbour read for a port is the one a connection gives it.", "quantifier": "all descriptions of parts, ports, open ports and connections, all names, all renamings", "why_tests_cant": "Names are free text; tests use a handful of names made of letters. Which names have a meaning inside the code shows only when the keys made of them are taken apart again, far from the call that gave the name.", "anchors": ["multisim/simenv.py:792-828", "multisim/simenv.py:1255-1297", "multisim/simenv.py:1927-2164", "multisim/simenv.py:2503-2515", "multisim/simenv.py:4381-4422", "multisim/parts/pipe.py:622-634"]}
{"id": "C181", "title": "A restart continues from the remaining heat", "statement": "When a CHP plant is started again while heat of its last run remains, the start-up is shortened so that its thermal output continues from the remaining heat and follows the start-up curve from there on; a plant that has cooled down goes through the whole start-up, and no start claims heat the plant never gave.", "quantifier": "all plants accepted by the constructor, all histories of requests and step sizes", "why_tests_cant": "The factor depends on when the plant was stopped, for how long it ran before and on how earlier start-ups ended, i.e. on the whole history.", "anchors": ["multisim/parts/chp_plant.py:276-321", "multisim/parts/chp_plant.py:441-449", "multisim/parts/chp_plant.py:777-855", "multisim/precomp_funs.py:5504-5606"]}
{"id": "C182", "title": "A Reynolds correction reproduces the measured coefficients", "statement": "Calling find_Reynolds_correction with inlet and outlet temperature, power and heat transfer coefficient of one or more measured points stores a correction with which the exchanger transfers these coefficients at the massflows of the points, up to the deviation that is printed; an exchanger that behaves like the formula with some correction gets just that correction, for one or both sides and with or without a grid.", "quantifier": "all plate heat exchangers, all sets of measured points, whatever the minimiser returns", "why_tests_cant": "The correction is a real number found by a minimiser; whether it can reach the target depends on a formula with two branches and on array shapes that a single fit does not show.", "anchors": ["multisim/parts/heatexchanger.py:442-453", "multisim/parts/heatexchanger.py:943-1020", "multisim/parts/hex_num.py:543-559", "multisim/parts/hex_num.py:1106-1188", "multisim/precomp_funs.py:4516-4597"]}
{"id": "C183", "title": "Networks without connection do not influence each other", "statement": "Putting a second hydraulic network without any connection to the first into the same SimEnv does not change the results of the first: in every attempt both networks do what they would do alone with the same step size, rejected attempts leave no trace in either of them, and the error tolerances hold for each network as if it was simulated alone.", "quantifier": "all pairs of networks without connection, all states, all sequences of accepted and rejected steps", "why_tests_cant": "Two networks share the array of port temperatures, the step size and the error of the step; a test compares one pair of networks to rounding, not all of them step by step.", "anchors": ["multisim/simenv.py:862-910", "multisim/simenv.py:3943-4234", "multisim/precomp_funs.py:42-62", "multisim/precomp_funs.py:3733-3782"]}
{"id": "C184", "title": "A pipe works the same in both directions", "statement": "Describing a pipe from its other end (ports exchanged, cells and heated cells counted from the other end, flow with the other sign) changes nothing: all cells have the same temperatures at all times, lose the same heat, and the same step sizes pass the stability check; this also holds for branched and heated pipes.", "quantifier": "all pipes, temperatures, flows of either sign, port and ambient temperatures, all sequences of steps", "why_tests_cant": "Symmetry relates two runs of the code with all inputs reversed; index ranges, upwind sides and position dependent coefficients only have to be wrong in one of the two directions.", "anchors": ["multisim/precomp_funs.py:88-205", "multisim/precomp_funs.py:684-718", "multisim/precomp_funs.py:1031-1234", "multisim/precomp_funs.py:1662-2090", "multisim/precomp_funs.py:4344-4416"]}
{"id": "C185", "title": "What is left alone takes the temperature of its surroundings", "statement": "In a network of pipes and storages with insulation, wired through pumps, valves and connectors, without heat sources and with all open ports and all rooms at one temperature, every accepted step brings the farthest cell nearer to that temperature, the distance decays exponentially with simulated time whatever the flows, and after a time that can be told in advance from the geometry every cell is within any given distance.", "quantifier": "all networks, temperatures between 0 and 100 degrees, flows changing between the steps, solver settings, runs with rejected attempts", "why_tests_cant": "Convergence to equilibrium is a statement on unboundedly long runs of whole networks; runs of a test end at some time and at some flow, and a wrong sign or a lost term in one part shows only in the limit.", "anchors": ["multisim/simenv.py:3920-4260", "multisim/precomp_funs.py:684-741", "multisim/precomp_funs.py:920-1030", "multisim/precomp_funs.py:1860-2090", "multisim/precomp_funs.py:3274-3345", "multisim/precomp_funs.py:3627-3661"]}
{"id": "C186", "title": "Settled temperatures are physical", "statement": "When the temperatures of a network of pipes and storages no longer change, none of them lies outside the range of the rooms and open ends, whatever the wiring and the flows; along pipes one after another in a colder room the temperature falls from cell to cell, every cell takes away at least the share of the excess temperature that its heat loss has in flow, conduction and loss.", "quantifier": "all networks, wirings with loops, flows, geometries, temperatures between 0 and 100 degrees; all lines of any number of pipes and cells", "why_tests_cant": "A steady state of the code is the solution of nonlinear equations, not something a test can set up; a run approaches it only in the limit, and shape and range of the profile concern all cells of all networks at once.", "anchors": ["multisim/precomp_funs.py:88-205", "multisim/precomp_funs.py:684-718", "multisim/precomp_funs.py:920-1030", "multisim/precomp_funs.py:1860-2090"]}
{"id": "C187", "title": "A pipe may be described in two pieces", "statement": "Adding a pipe in one part or in two connected parts of the same tube with the same cells gives the same temperature changes of all cells.", "quantifier": "all pipes, cuts between any two cells, flows in both directions, outer ports, temperatures, sequences of steps at rest", "why_tests_cant": "Whether the description of a tube matters depends on all geometries, cuts, temperatures and flows; a test compares two networks for one course of temperatures and would need a tolerance that hides the difference.", "anchors": ["multisim/parts/pipe.py:71-99", "multisim/parts/pipe.py:319-430", "multisim/precomp_funs.py:250-301", "multisim/precomp_funs.py:1031-1234", "multisim/precomp_funs.py:4344-4416", "multisim/simenv.py:1795-1860", "multisim/simenv.py:2563-2620"]}
{"id": "C188", "title": "Settings may be changed until the run starts", "statement": "set_timeframe can be called again at any time before start_sim: whatever the order of set_timeframe and initialize_sim (with or without reset), a run that starts hears every stability objection of its parts, lowers the step growth accordingly and returns every computed step once.", "quantifier": "all sequences of set_timeframe and initialize_sim, all settings, networks, objections, step sizes, buffer lengths, runs of any length", "why_tests_cant": "The effect depends on which array object a compiled function holds; a test sees plausible results as long as the step happens to be stable and the run short, whatever the order of calls.", "anchors": ["multisim/simenv.py:243-453", "multisim/simenv.py:3966-3992", "multisim/simenv.py:4640-4718", "multisim/simenv.py:4740-4845", "multisim/simenv.py:5032-5091", "multisim/precomp_funs.py:715-743", "multisim/parts/pipe.py:470-500", "multisim/parts/heated_pipe.py:240-303"]}
{"id": "C189", "title": "Insulation keeps heat in pipes and storages", "statement": "For a warm cell of a pipe or storage at given temperature and flow, there is exactly one settled heat loss (one that another evaluation of the differential returns again). A thicker insulation (as soon as the outer radius exceeds the critical radius lambda_ins / alpha_inf) or one with a smaller lambda_ins lowers this value strictly; below the critical radius more insulation can raise it.", "quantifier": "all pipes and storages accepted by add_part with at least two cells, all insulations, all cells, temperatures up to 100 degC, ambient temperatures from 0 degC, flows, states of the persistent arrays", "why_tests_cant": "The outer coefficient, the surface temperature and the loss depend on each other and on the radius; a test compares two pipes at some temperatures, it cannot show that all settle, at one value only, and in the right order.", "anchors": ["multisim/parts/pipe.py:319-430", "multisim/precomp_funs.py:1031-1234", "multisim/precomp_funs.py:4344-4416", "multisim/precomp_funs.py:4687-4757", "multisim/precomp_funs.py:4912-4967", "multisim/precomp_funs.py:5230-5262"]}
{"id": "C190", "title": "Heat losses settle", "statement": "At constant temperatures and flows, the heat loss conductance of a warm cell of a pipe (plain, branched or heated) or of a storage shell tends to one value, whatever the state of the persistent arrays alpha_inf and UA_amb_shell it starts from: each evaluation takes at least a sixth off the logarithmic error, and two consecutive evaluations enclose the limit, which is the only value that an evaluation returns unchanged. In cells at or below the ambient temperature the evaluations tend to one value at the same rate.", "quantifier": "all pipes and storages accepted by add_part with at least two cells, all cells, cell and ambient temperatures from 0 to 100 degC, flows, heating powers, states of the persistent arrays, numbers of evaluations", "why_tests_cant": "Surface temperature, outer coefficient and loss are computed from the previous evaluation; whether such an iteration converges, from everywhere and to one limit, is a statement on infinite sequences; a test sees some steps of some of them.", "anchors": ["multisim/precomp_funs.py:1031-1234", "multisim/precomp_funs.py:1662-1868", "multisim/precomp_funs.py:1872-2090", "multisim/precomp_funs.py:2095-2372", "multisim/precomp_funs.py:4687-4757", "multisim/precomp_funs.py:4912-4967", "multisim/precomp_funs.py:5230-5262", "multisim/parts/pipe.py:110-140", "multisim/parts/tes.py:205-235"]}
{"id": "C191", "title": "Databases are returned under their names", "statement": "database_import with which='all' returns a dict with exactly the pickled databases of the folder, each under the name of its file without the ending and with its content.", "quantifier": "all folders, file systems, names, contents, systems (Windows or others)", "why_tests_cant": "File systems and names range over infinite sets, and a test runs on one system; a missing database is a missing key only.", "anchors": ["multisim/utility_functions.py:541-585"]}
