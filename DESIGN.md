# Formal model of multisim (JoElfner/multisim)

Rocq / Coq 8.16.1. Sources under `rocq/theories`, logical prefix `Verif`.

## 1. Conventions

* `M*.v` files contain only definitions that mirror the Python code (model). Every
  definition carries a comment with file and lines in `/repo` and says what is simplified.
* `S*.v` files contain small specification vocabulary that does not use model helpers.
* `L*.v` files contain lemmas and proofs.
* `P*.v` files contain the property theorems, followed by `Print Assumptions`, and
  accompanied by `Example`s showing that their hypotheses are met by a concrete
  non-trivial case.
* Suffix `_partial`: proved only for a part of the property (the missing part is named next
  to it). Suffix `_refuted`: the unchanged code violates the property; the theorem exhibits
  a witness or a whole class of witnesses.

## 2. Trusted base

* Coq's kernel (8.16.1). No plugins, no kernel checks switched off, no own axioms, no
  `Admitted`. `vm_compute` is used in some proofs (kernel's virtual machine).
* Axioms reported by `Print Assumptions`, all of the standard library: see section 6, which
  lists them for each theorem of MANIFEST.json. `Coquelicot` is imported by PHeun, LHeunOrder,
  LHeunSys and LHeunEx3 (derivatives); it brings no further axioms.
* The reading of the code: the `M*.v` files were written from the source text. Nothing
  connects them to the code mechanically.
* Idealisations
  * IEEE-754 doubles are exact real numbers (`R` of the standard library). Rounding,
    overflow and NaN propagation are not modelled, except where an exceptional value
    is an explicit constructor (solver error estimate: number, infinity, NaN; error measures).
  * numpy arrays are functions `nat -> R` with an explicit length, or lists. In-place slice
    assignment is a functional update which keeps the stale entries. numpy views are equal
    addresses where aliasing matters (MNet, MTopo, MHeun).
  * Numba-compiled functions have the semantics of their Python source; indexing out of
    bounds is an error value where it is reachable.
  * Python exceptions are error values (`None`, `Raised`), without their type.

## 3. Plan per property

| Id | What is modelled | Proof |
|----|------------------|-------|
| C01 | loop of `_heun_adaptive` over arbitrary outcome streams | lexicographic measure (instability budget, distance to min step) |
| C02, C03 | same loop iterated over steps | invariant; `_refuted` witnesses for first step, stability reduction, counter growth |
| C04, C05 | one attempt as transformer of a memory (ports, T, res) with arbitrary part functions | non-interference by case analysis + induction over attempts; Taylor expansion of Heun's formula, Gronwall sum for the global error |
| C06 | outer loop of `start_sim` | induction over steps |
| C07 | `_free_memory`/`_finalize_sim` buffer | refinement to the append-only log; `_refuted` for exactly full buffer |
| C08, C09 | `_process_flow_*` on arrays | cell-wise algebra, partial sums over sorted ports |
| C10, C11 | `_update_FlowNet` relation list; valve/connector relations | induction over dependency-ordered list |
| C12-C15 | `pipe1D_diff` and variants | telescoping sums; convexity; `_refuted` for combined limits |
| C16 | `_vonNeumann_stability_*` | maxima; `_refuted` for max(rho) |
| C17 | UA combinators, harmonic mean | algebra, list induction |
| C18, C57 | water polynomials | interval splitting, nra |
| C19, C20, C59 | connector/mix/split/pump | algebra; `_refuted` for mean-cp mixing |
| C21 | NTU plate heat exchanger | exponential inequalities |
| C22 | surface temperature | algebra |
| C23 | CHP curves | Rpower/exp monotonicity |
| C24-C28, C61-C63 | CHP state machine, iterated over histories | invariants with ghost history |
| C29-C35, C53, C64-C68 | controller base class, PID, bang-bang, two sensor, dead time | invariants over histories; textbook PID as independent specification |
| C36, C37, C69 | dynamic boundary conditions | floor/convexity; `_refuted` |
| C38-C41, C71 | port tables, connections | list invariants; `_refuted` |
| C70 | port conduction parameters | symmetry over links |
| C42 | `set_timeframe` validation | case analysis; `_refuted` for check_vN |
| C43, C44, C72-C74 | CHP optimiser cost functions | piecewise algebra, list induction, `_refuted` |
| C45-C48, C75-C78 | CHP optimiser plans and controller | invariants over histories, scipy's result arbitrary |
| C49, C50 | meters | list induction, `_refuted` |
| C51, C52, C79, C80 | error measures | Cauchy-Schwarz on lists, `_refuted` |
| C54, C58 | buoyancy | case analysis |
| C55 | heated pipe source term | sum over cells |
| C56 | valve openings given as time series | aliasing of cells, `_refuted` |
| C60 | error norm of the solver | norms of lists, `_refuted` for negative temperatures |
| C81 | `_get_topology`, `_recursive_topology` with fuel | small-step relation, measure (open ports) for termination, invariant: targets distinct, sources settled |
| C82 | consistent distribution as independent specification | simulation: relations decode to physical equations, unique solution by C10 |
| C83 | balances of parts | invariant of the small steps over all memories satisfying the relations |
| C84 | both ends of links | each unused link is counted; sum of all signed flows of a circuit is 0, so the last link closes; `_refuted` for parallel valve pipes |
| C85 | hub balance | C83 + exhaustion; `_refuted` for two storages |
| C86 | string search for channels | induction over strings, exact condition |
| C87 | `hexnum_diff` on grids | sums over cells and columns, telescoping |
| C88 | steady states of the numeric heat exchanger | C87 + vanishing sums; `_refuted` for every one-pass exchanger |
| C89 | plate conductance per cell | series resistances; `_refuted` with growing grids |
| C90 | `_process_ports_collapsed` on the flattened grid | index arithmetic, `_refuted` for wrong and missing cells |
| C91 | `_vonNeumann_stability_invar_hexnum` | maxima over cells; `_refuted` |
| C92 | padded index arrays, PCA and linear model as list functions | list induction, exchange of finite sums |
| C93-C95 | `condensing_hex_solve` as function of the water flow | continuity and slopes of joined functions, limits at 0; `_refuted` for the kink and the jump |
| C96-C98 | quadratic below the threshold, rounding into the ranges | algebra, rounding lemma, Archimedes; `_refuted` for reversed flows |
| C99 | runs and `_check_results` | induction over runs |
| C100 | bypass mixing | convexity; `_refuted` |
| C101-C103 | constructors of pipe and storage as functions to `geo` | case analysis, field algebra; exact acceptance conditions; `_refuted` |
| C104 | pairs of grids | relation between buffers of both grids kept by every evaluation; strict monotonicity in the cell length; `_refuted` for storages |
| C105 | loop over the specifications | list induction, pigeonhole; `_refuted` |
| C106-C107 | `alpha_in` as real function | cube roots by cubing, bounds on log10 by powers of integers, epsilon-delta continuity; `_refuted` jump |
| C108 | convection on cylinders and planes | monotone Rayleigh number from the viscosity polynomial; `_refuted` for lids |
| C109 | per-cell distances | case analysis, strict monotonicity in the distance; `_refuted` |
| C110-C111 | `hexn_rate`, `imp_root`, `impl_step` with an arbitrary root finder | discrete maximum principle at the extreme cell, enthalpy monotone; induction over steps; balance from C87 |
| C112-C113 | solver model of C04/C60 with implicit parts, cell counts | evaluation of one attempt for every implicit part; `_refuted` |
| C114 | `imp_newt` with division by zero made explicit | algebra of the first pass, second pass is stationary; `_refuted` |
| C115-C118 | `out_std`, `out_mad`, `out_roll` with median by sorting | Chebyshev count over lists; majority lemma for medians; evaluation of the straight line for every length; `_refuted` |
| C119 | all three functions | mean, standard deviation, median, rolling median and interpolation commute with affine maps |
| C120-C121 | gaps and interpolation, caller's object as part of the result | nearest kept neighbours by induction over rows; `_refuted` |
| C122 | main loop with `nan_search`, disk and memory counters, over `solver_step` | induction over passes for arbitrary reports of the parts; `_refuted` |
| C123 | argument counts of `start_sim`, `_heun`, `get_diff` over accepted settings of `MSettings` | case analysis of the accepted settings; `_refuted` |
| C124 | `reset` of pipes over `heated_eval`, `reset_run`, temporary store | invariant of the surface buffers over all histories, monotony of the loss coefficient; `_refuted` |
| C125 | `concat`, `kept`, `evaluate` on labelled series | Cauchy-Schwarz by induction with rows of NaN; scaling of order statistics |
| C126 | `evaluate` | closed form of the returned value; `_refuted` |
| C127 | `concat` (outer join) | all labels and values; `_refuted` |
| C128 | `kept` | appending any row with one zero; `_refuted` |
| C129 | `resampled` for the three methods | bounds of means and of convex combinations |
| C130 | same | first bin is never empty, last label not after the last value; `_refuted` for forward filling |
| C131 | same on `regular` series | induction over the values; `_refuted` with the closed form of the shift |
| C132 | `last_until`, `first_from` | induction over ordered series |
| C133 | `by_means`, `filled` | any series around the pulse; `_refuted` |
| C134 | `make` with the outcomes as exceptions | case analysis, induction over the stacking; `_refuted` |
| C135 | `objective` | induction over the flows; `_refuted` |
| C136 | `rolling_centered` | bounds of the statistics of any window |
| C137 | same on ramps | sum of an arithmetic series, closed form of the lag; `_refuted` |
| C138 | same | windows hold their own row; `_refuted` at the end |
| C139 | `secant_with`, `newton_loop` | invariant: once at the root, stays; any convergence test |
| C140 | `root_array_secant` | concrete systems, all tolerances and limits; `_refuted` |
| C141 | `root_secant` | reduction to one cell, case split on the sign at both ends; `_partial`, `_refuted` |
| C142 | `moving_avg_fill_edges`, `weighted_moving_avg` | each cell shows the mean of one window |
| C143 | `lmtd` | 1 - 1/x < ln x < x - 1; `_refuted` for equal differences |
| C144 | `UA_*` | logarithms of the mid radius add up |
| C145 | `accept`, `kept`, `file` | induction over tables; `_refuted` for all offending choices |
| C146 | `record` | case analysis; `_refuted` for duplicates |
| C147 | `record`, `script`, `actions` | each call only reads and writes the dictionary of its kind; induction over scripts |
| C148 | `used` | C36, C69 shifted by one step; `_refuted` |
| C149 | `bin_mean` | bins of a fixed run are blocks; `_refuted` for adaptive steps |
| C150 | `room_for`, `enlarge` | induction over enlargements; `_refuted` |
| C151 | `heat_content` | interval check of the derivative of the product polynomial; induction over cells |
| C152 | `process_opt`, `process_ctrl`, `looked_at`, `step_value` | each bin holds a sample; rounding bounds of C36 |
| C153 | `by_means`, `series` | bins are windows shifted by the start time; `_refuted` for ramps |
| C154 | `sat_pressure`, `sat_water` | interval checks in T and -T |
| C155 | `adjust`, `interp_specs` | for every interpolation function; results independent of the overwritten row |
| C156 | `node_part` in `heun_adaptive` | maximum principle of every part is an invariant of predict, correct and the loop of attempts; induction over the run |
| C157 | `u_res` (differentials of all parts) | C12 and C13 per part; connected ports are permuted by an involution which reverses the flux |
| C158 | `steps_of`, `write_report` | the counted run is a run of the solver's attempts; sums over the step list, permutation by sorting |
| C159 | `recorded`, `flow_meter` | stored cell flows of C09; arithmetic of the flat index |
| C160 | `library` (calls of the assemblies as data), `plant_conns`, `controls_accepted` | permutation of port lists, name apartness by deciding prefixes, kernel computation over the library |
| C161 | `kinds`, `pairs`, `driven` | explicit flow solution per assembly, uniqueness from C82 |
| C162 | `adjust`, `sides`, `areas` on integers | loop invariant with remainder, divisibility; half-even rounding thresholds |
| C163 | `position`, `view`, `number` | index arithmetic on rows and columns |
| C164 | `chp_pump`, `chp_scale`, `boiler_pump`, `load_max`, `build_all` | field algebra; induction over the plants built |
| C165 | `geometry` with its local functions | inversion of the accepted arguments, field algebra, bounds of pi |
| C166 | `package` on directories of named files | loop invariant on source and folders; distinct endings of names; permutation of all contents |
| C167 | `load_by_name`, `load_tables` | induction over the listing, dictionary updates; composition with C166 |
| C168 | control flow and names of all functions (`MSrc*.v`, generated) with the executions `run` of `MPy.v` | exact decision procedure `post` proved equivalent to `run` (fixed point of loops in two steps), evaluated in the kernel over the tables |
| C169 | tables of names, classes, signatures and calls (`MSrcCalls.v`, generated), lookup along imports and base classes, argument binding (`MCall.v`) | binding procedure of the language reference proved equivalent to a declarative `fits`; tables evaluated in the kernel |
| C170 | the same tables, lists of solver inputs; `annotate` on the error measures of C51 | evaluated tables; sign of the mean signed deviation under exchange |
| C171 | constructors of all classes with the methods they call, as reads and writes of attributes (`MSrcInit.v`, generated) in the language of `MPy.v` | exact analysis of C168 (`post_exact`), evaluated in the kernel |
| C172 | tables of the result file, return_stored_data, load_failed_results and the names of meters (`MReturn.v`) | file as finite map; keys split at slashes, injectivity of keys without slashes; fold invariants |
| C173 | references to arguments and changes in place of all functions outside precomp_funs (`MAlias.v`, `MSrcAlias.v`), dictionaries shared by calls (`MShared.v`) | nondeterministic semantics with references; forward analysis, soundness by induction on executions and completeness by witnesses for what it finds, evaluated by the kernel; inductions on call sequences |
| C174 | 89 compiled functions as programs over arrays and views (`MUnits.v`, `MSrcUnits.v`), documented units (`SUnits.v`) | unit check evaluated by the kernel; relation between the runs in two systems of units preserved by every expression (mutual induction), loop and call |
| C175 | str.format (`MMessages.v`), 721 calls with templates (`MSrcMessages.v`, generated) | reader of templates composes over concatenation; check of placeholders evaluated by the kernel and proved sufficient; failing names found by the same reader |
| C176 | language of programs over shapes (`MShapes.v`), eleven methods with the functions they call (`MSrcShapes.v`, generated), table of allocated shapes (`SShapes.v`) | checker over linear expressions in the sizes (`LShapes.v`), proved sound by induction on programs and on the number of calls; must-fail lemmas for the two violations |
| C177 | store of arrays with references, attributes, arguments taken once, assignment of a series, steps with arbitrary flow net, step function and control (`MAssign.v`) | induction on the steps: value and length of the element in the store; for the violations: two runs with different series kept equal up to one array |
| C178 | flows and openings of the parts with shared arrays, reset part by part in the order of creation, first values of the series, flow updates of a second run (`MFlowReset.v`, networks of `MTopo.v`) | induction on the parts: a cell has the value of the last part that writes it; views of the flow net are fixed, so the update never writes the cell of a pump |
| C179 | keyword arguments of the controllable parts, initialisation of each kind, check of the build, check of the controller (`MUncontrolled.v`) | case analysis over all arguments; for the last claim an invariant of all initialisations: a part needs a control iff none is defined |
| C180 | port keys as strings, postponed connections, connecting, check for unconnected ports, reading of neighbours (`MPortKeys.v`) | keys are injective without ';'; refinement of the string-keyed code by one keyed with pairs, which commutes with renaming |
| C181 | table of start-up factors, look-up of the remaining heat, start-up and shut-down procedure (`MChp.v`) | nearest entry of a monotone table with steps below 0.0022; induction over the running steps; invariant that a completed start-up leaves no remaining heat; concrete histories for the violations |
| C182 | search for the Reynolds correction with array shapes, masks and NaN (`MReyCorr.v`), coefficient of a channel (`MMix.v`) | Nusselt numbers strictly increasing within both branches (cube roots; quadratic bound of exp for the logarithm) and across the border; sums of absolute values; counting of masked rows |
| C183 | two models of the adaptive solver side by side (`SApart.v` over `MHeun.v`) | predictor, port update and corrector split over concatenated lists; induction over courses of attempts; archimedean choice of the number of resting cells |
| C184 | differentials and stability check of pipes (`MDiff.v`, `MFlow.v`) for reversed inputs (`SMirror.v`) | index reversal of sums over ports and cells; extensional simulation relation kept by every step; monotonicity of the Nusselt number in the distance for the counterexample |
| C185 | whole networks in the adaptive solver (`MRange.v`, `MHeun.v`) in surroundings of one temperature (`SRest.v`) | lower bound of the loss conductance over all states; contraction of the range around the surroundings in predictor and corrector; induction over attempts, steps and runs; exponential bound; counterexample with interval bounds for both evaluations of a step |
| C186 | differentials of all parts set to zero (`MDiff.v`, `MRange.v`), networks and lines of pipes (`SSteady.v`) | discrete maximum principle at the coldest and the warmest cell of the network; backward induction over cells and pipes; product of shares by forward induction; intermediate value theorem for the example |
| C187 | constructor of pipes (`MGeom.v`), walls at ports (`MPortCond.v`), differential (`MDiff.v`), both pieces with connected ports (`SPiece.v`) | cells of a piece as a window on the whole pipe; joint conductance by computation; induction over steps at rest; Nusselt numbers strictly fall with the distance, hence the refutation |
| C188 | shared arrays as references, calls preparing a run (`MSetup.v`), step-size control (`MSolver.v`), main loop (`MRun.v`) | invariant on references over all call sequences; induction over parts of an attempt and over the steps of a run with misfitting arrays (`LSetup.v`) |
| C189 | pipe geometry (`MGeom.v`), evaluation of a pipe (`MDiff.v`) | settled surface as fixed point: existence by continuity and intermediate values, uniqueness and comparison by monotonicity of the outer coefficient in surface temperature and radius and of the resistances in the radius (`LInsul.v`); numerical bounds for a thin tube (`LInsul2.v`) |
| C190 | evaluations of pipes and storages (`MDiff.v`), iterated (`SSurf.v`) | surface excess as decreasing function of the outer coefficient, coefficient rising at most with the power 5/6 of the excess: contraction of logarithms, induction over the evaluations (`LSurf.v`); cold surfaces: viscosity and conductivity fall with the deficit, slower than its square root, so the two-sided bound remains (`LSurf2.v`) |
| C191 | `database_import` on strings (`MDbs.v`) | lemmas on split, prefix and suffix of strings, induction over the files for the dict (`PDbs.v`) |

## 4. What is modelled and what is not

Modelled (file: code; line numbers in each definition's comment):
MSolver, MHeun, MRun (solver, main loop, result buffers); MFlow, MNet, MTopo, MChannel (flows,
flow network, topology); MDiff, MMix, MWater (differentials, stability check, mixing,
plate heat exchanger, material data); MChp (CHP plant); MCtrl (controllers); MMpc, MMpcCost,
MPreopt (model-predictive CHP controller); MBC (boundary series); MPorts, MPortCond
(ports and connections); MSettings (`set_timeframe`); MMeters, MErr (evaluation); MHexNum (numeric heat
exchanger); MCond (condensing heat exchanger); MGeom, MSpecs (geometry and port
specifications of parts); MImpl (implicit steps of the numeric heat exchanger), MOut (outlier removal), MWatch and MReset (search for invalid values, choice of solver, second run), MPerf (performance indicators), MResample (resampling), MBcSeries (boundary condition series before resampling), MRoll (rolling statistics, objective of control fitting), MRoot (root solvers), MAvg (moving averages, logarithmic mean temperature difference, split walls), MStore (recording of the description, selection of stored results), MSeries (use of time series in a run), MProfile (storage content and profiles of the model-predictive controller), MHumid (humid air), MPipeDb (scaled pipe specifications), MRange (pipes, branched pipes and storages as parts of the solver's network), MReport (solver states, failure counts and `_write_report`), MFlowMeter (recorded flows and the cells meters read), MModules (the predefined assemblies: parts, ports, connections, controllers), MPlates (numbers of plates and channels), MSensor (values at sensors), MSizing (sizes of pumps and pipes of the assemblies), MPlateGeo (geometry of plate heat exchangers), MPack (packaging and loading of result files), MPy + MSrcSim/MSrcPre/MSrcUt/MSrcParts (control flow and names of every function, method and module file, generated from the text of /repo by tools/extract.py, which is therefore trusted for C168), MCall + MSrcCalls (calls, signatures, classes and solver inputs of the package, generated by tools/extract_calls.py, trusted for C169 and C170), MSrcInit (constructors and attributes of all classes, generated by tools/extract_init.py, trusted for C171; a parameter given as a string constant is replaced by it where the method is called), MReturn (names of the tables in the result file and reading them back; contents are opaque), MAlias/MSrcAlias (which variables refer to arguments and which statements change objects, extracted from the text; objects reached through self and library methods are not followed), MShared (dictionaries of heatmap_from_df and the CHP modules), MUnits/MSrcUnits (arithmetic, assignments, loops and calls of the compiled functions; index patterns, shapes and functions of plain numbers open), MMessages/MSrcMessages (str.format and its calls; arguments as arbitrary values, the tracing of templates through variables is done by the extraction tool), MShapes/MSrcShapes (shapes in the one-step methods; not modelled: solve_connector_3w, condensing_hex_solve, moving averages, controllers; the table of allocated shapes in SShapes is transcribed by hand), MAssign (assign_boundary_cond for a variable of a part, collection of the arguments, order of one step; not modelled there: open ports (MBC), set points of controllers, repeated steps), MFlowReset (_reset_simenv for flows and openings), MChpReset (shape of the state array of a CHP plant over several simulations), MUncontrolled (_initialize_actuator, the control related part of init_part of the six controllable parts), MPortKeys (names in _add_part, _add_open_port, connect_ports, _connect_ports, _check_unconnected_ports, neighbours), MReyCorr (search for the Reynolds correction; the minimiser returns any number), MSetup (arrays shared by environment and parts, order of preparing calls), MDbs (loading of the pickled databases).

Not modelled: plotting; pandas/HDF5 I/O; `simenv.load/save`; progress printing; the NaN stop of
`start_sim`; controllers with `steady_state=True`; linked controllers (`Controls` with
`sub_controller` of another environment; the constructor raises `ValueError` for these in any
case); meter resampling; the curve fit of maintenance cost (`infer_instandh`); scipy's optimisers
and root finder (arbitrary functions where they are used); the deprecated duplicates in
`utility_functions.py` (Meters, error measures); `_utility/cleaning`, `_utility/thermal`,
plot helpers; the outlier removal.

## 5. Findings (code violates a property a user would rely on)

Machine-checked findings are the theorems with suffix `_refuted`; the notes in MANIFEST.json
describe them. Found by reading, not formalised: `breakpoint()` calls left in `_connect_ports`
(part name 'p_gasb1_ff'), `_get_arr_idx` and `r_squared_adj`; `set_timeframe` called again later is
not re-checked against boundary series; a monthly index counts as uniform; KWK flags
`ersatz_alt`/`strompreis_negativ` have no effect; `_check_isinrange` accepts negative indices;
the last entry of `time_step_vec` is repeated; the NaN check in `start_sim` joins its two conditions
with `and`; the check of actuator limits tests both limits against 0 where the upper limit
should be tested against 1 (see C11).

## 6. Assumptions per theorem

`Print Assumptions` for every theorem of MANIFEST.json (fully qualified: `ClassicalDedekindReals.sig_forall_dec`,
`ClassicalDedekindReals.sig_not_dec`, `Classical_Prop.classic`,
`FunctionalExtensionality.functional_extensionality_dep`):

* **closed under the global context, no axioms** (172 theorems): C117_single_refuted, C124_chp_iff, C124_chp_refuted, C124_disk_refuted, C134_cover, C134_exact_refuted, C134_never_refuted, C134_single_refuted, C145_exchanger_refuted, C145_flattened_refuted, C145_from_end, C145_index_refuted, C145_negative_refuted, C145_selected, C145_uncompressed_refuted, C146_cell_refuted, C146_duplicate_refuted, C146_structure, C147_before, C147_built, C147_connections, C147_order, C147_script, C150_adaptive, C150_exchanger_refuted, C150_fixed_refuted, C150_heating_refuted, C160_arguments, C160_cells, C160_default_refuted, C160_distinct, C160_electric_refuted, C160_names, C160_plant, C160_underscore_refuted, C162_accepted, C162_areas, C162_unchecked_refuted, C162_usable_more, C162_usable_one, C163_cell, C163_condensing_refuted, C163_exchanger_refuted, C163_named, C163_parts, C163_port, C163_refused, C166_all_partial, C166_date_refuted, C166_ends, C166_exists_refuted, C166_folders, C166_log_refuted, C166_nothing_lost, C166_reported_refuted, C166_shared_refuted, C167_entry_refuted, C167_identifier_refuted, C167_missing, C167_none_refuted, C167_packaged, C167_root_refuted, C167_same_number_refuted, C167_selected, C167_tables, C168_contour_refuted, C168_equal_duration_refuted, C168_excused, C168_load_all_refuted, C168_loading, C168_module_names, C168_newton_derivative_refuted, C168_own_database_refuted, C168_unbound_names, C169_binding, C169_bound, C169_calls, C169_methods, C169_module_names, C169_pipe2D_refuted, C169_targets, C170_errors_refuted, C170_solver_inputs, C170_straight, C171_clean, C171_construction, C171_excused, C171_integral_refuted, C171_never_set, C171_pipe2D_refuted, C171_static_valve_refuted, C171_volume_refuted, C172_accepted, C172_failed, C172_failed_refuted, C172_meters, C172_own_name_refuted, C172_part_as_meter_refuted, C172_parts, C172_same_name_refuted, C172_vecs_name_refuted, C173_altered_refuted, C173_colorbar_refuted, C173_exact, C173_heatmap_given, C173_heatmap_refuted, C173_listed, C173_pipes_refuted, C173_second_refuted, C173_unchanged, C174_called, C174_calls, C174_constants, C174_named, C175_braces_refuted, C175_closed, C175_count, C175_decimal, C175_early_refuted, C175_index_refuted, C175_messages_partial, C175_silent_refuted, C176_every_part_refuted, C176_hexnum_refuted, C176_single_cell_refuted, C176_steps_stay_inside, C177_acts, C177_index, C177_last_refuted, C177_name_refuted, C177_number_refuted, C177_only, C177_second_series, C177_temperature_refuted, C180_boundary_refuted, C180_debugger_refuted, C180_key_iff, C180_neighbours, C180_renaming_partial, C180_semicolon_refuted, C180_shared_key_refuted, C191_dialog_refuted, C191_dots_refuted, C191_posix_refuted, C191_windows, C39_general_refuted, C40_exclusive, C40_permanent, C40_refused, C40_shared_refuted, C40_symmetric_partial, C40_unconnected, C41_distinct, C41_lost_refuted, C41_only_requested, C41_requests_partial, C43_scalar_refuted, C50_disk_refuted, C50_kept, C50_names_partial, C50_overwrite_refuted, C50_rejected_refuted, C65_constant, C65_reference_refuted, C71_control, C71_shared_refuted, C74_array_refuted, C86_channel_partial, C86_channel_refuted, C86_condensing_partial, C88_channels, C92_short_last

* **`sig_forall_dec`** (11 theorems): C105_all_partial, C105_each_partial, C105_table_refuted, C178_series, C20_pump, C48_adapted, C51_window, C56_valve_series_refuted, C66_gains_needed, C66_integral_only_refuted, C66_terms_partial

* **`sig_forall_dec`, `functional_extensionality_dep`** (316 theorems): C06_run_ends, C06_time_stamps, C07_disk_partial, C07_disk_refuted, C07_memory_captured_partial, C07_memory_partial, C07_memory_refuted, C08_channels, C08_through_flow, C09_multi_port, C100_bypass_partial, C100_enthalpy_refuted, C10_only_solution, C10_relations, C114_mirrored_refuted, C114_wrong_way_refuted, C116_mad_gross, C117_mad_half, C118_majority_refuted, C119_mad, C11_connector, C11_hub, C11_pipe_valve_limits_refuted, C11_pipe_valve_partial, C11_pipe_valve_zero_opening_refuted, C11_split_factors, C11_start_opening_refuted, C11_valve, C120_mad, C120_start_refuted, C121_mad_array_refuted, C123_call_refuted, C123_slopes_refuted, C124_reset_iff, C125_quartiles, C129_constant, C129_range, C130_backward, C130_forward_refuted, C130_interpolated, C131_aligned, C131_shift_refuted, C132_backward, C132_complete, C132_forward, C133_mean, C133_pulse_refuted, C135_below_refuted, C135_unbounded_refuted, C136_order, C136_range, C137_even_refuted, C137_odd, C137_time_refuted, C138_end_refuted, C138_rows, C138_whole, C139_linear, C139_newton, C139_start, C140_coupled_refuted, C140_fast_refuted, C140_limit_refuted, C140_none_refuted, C141_lower_refuted, C141_tol_refuted, C141_upper_refuted, C141_zero_refuted, C142_ramp, C142_range, C142_short_refuted, C142_weighted_range, C142_weights, C144_plate, C144_thickness, C148_lag_refuted, C148_short, C148_start_refuted, C149_adaptive_refuted, C149_fixed, C151_layers, C151_split, C152_control, C152_optimisation, C152_zero_refuted, C153_aligned, C153_early_refuted, C153_entry, C154_consistent, C156_passive, C156_sides, C158_mean_refuted, C158_quartiles, C158_total, C158_vector, C159_beyond, C159_connector_refuted, C159_exchanger_refuted, C159_negative_refuted, C159_shown_partial, C159_volume, C161_boiler, C161_chp0, C161_chp1, C161_chp2, C161_chp3, C161_heating, C161_lowex, C161_return, C161_return_refuted, C161_solvable, C161_store_loading, C162_monotone, C162_near, C162_reference, C162_sizes, C162_small_refuted, C164_again_partial, C164_again_refuted, C164_boiler, C164_chp, C164_estimate, C164_hot_water, C164_loading, C164_loading_refused, C164_start_refuted, C164_velocity, C178_first_pump_refuted, C178_pipe_pump_refuted, C178_pipe_valve_refuted, C178_pump, C178_valve, C178_whole_run, C179_both_refuted, C179_constant, C179_dm_given_refuted, C179_exactly_one, C179_heater_refuted, C179_one_master, C179_opening_refuted, C179_pump, C179_pump_message_refuted, C179_series, C179_valve_refuted, C17_interface, C17_parallel, C17_series, C185_passive, C188_arrays_refuted, C18_bands, C20_connector_split, C20_connector_through, C20_range, C20_valve_split, C22_surface, C23_shutdown, C29_actuator, C29_inverted_refuted, C29_off_state_refuted, C29_pid, C29_saturation_partial, C29_slope_start_refuted, C30_slope, C30_slope_run, C31_auto, C31_discrete_refuted, C31_integral, C32_dead_time_refuted, C32_integral_refuted, C32_reset_partial, C33_hysteresis_partial, C33_inverted_refuted, C33_slope_refuted, C33_start_refuted, C34_inverted_refuted, C34_stays_off, C34_two_sensors_partial, C35_free, C35_master_limit_refuted, C35_slope_refuted, C35_sub_partial, C36_constant, C36_interpolation, C36_position, C36_range, C37_accepted, C37_length_partial, C37_length_refuted, C37_margin, C38_distance, C38_duplicate_refuted, C38_index, C38_names, C38_sorted, C38_volume, C39_labels, C42_accepts_partial, C42_check_vN_refuted, C42_constant, C42_ranges, C42_rejects, C42_start_step_refuted, C42_stored, C42_timeframe, C42_unknown_refuted, C43_array, C43_mean, C43_monotone, C43_partition, C44_balance, C45_crossed, C45_limits_partial, C45_limits_refuted, C45_meaning, C45_sum, C46_longterm, C46_longterm_partial, C46_longterm_refuted, C46_negative_refuted, C46_output_partial, C46_output_refuted, C46_plan_partial, C46_plan_refuted, C47_history_partial, C47_leak_refuted, C47_none, C47_off, C47_on, C47_start_partial, C48_late_refuted, C48_lower_partial, C48_lower_refuted, C48_upper_refuted, C49_ahead_refuted, C49_constant_steps_partial, C49_heatflow, C49_monotone, C49_net, C49_positive_readings, C49_readings, C49_shifted_refuted, C49_split_refuted, C49_split_steps, C49_total_refuted, C51_r_squared, C52_columns_refuted, C52_single_partial, C53_constant_steps, C53_delay_partial, C53_long_step_refuted, C53_short_step_refuted, C53_signal, C53_switching_refuted, C64_dead_time, C64_discrete_cooling_refuted, C64_discrete_refuted, C64_invert_partial, C64_switching_refuted, C67_continuous, C67_discrete_partial, C67_discrete_pd, C67_varying_steps_refuted, C67_velocity, C67_velocity_law, C68_filter_bounded, C68_ramp, C68_varying_steps_refuted, C69_exact_refuted, C69_ramp_mean, C70_chain_refuted, C70_direct, C70_insulated, C70_mixer, C70_mixer_mean, C70_pump_partial, C73_levy_monotone, C76_lag_refuted, C76_steps, C77_crossed_refuted, C77_ordered_partial, C78_half_load_refuted, C78_lowered, C78_never_lowered_refuted, C78_raised, C78_start, C80_adjusted, C80_overfit_refuted, C80_percent_partial, C80_percent_refuted, C81_ordered, C82_limits, C82_physical, C82_schedule, C82_unique, C83_balance, C83_complete, C83_storage_refuted, C84_circuit_partial, C84_parallel_refuted, C85_hub_partial, C85_storage_refuted, C92_pipeline, C93_continuous, C94_kink_refuted, C94_smooth_partial, C95_jump_refuted, C95_limit, C95_standstill, C96_low_flow, C97_gas, C97_made, C97_water, C98_check_partial, C98_reversed_refuted, C99_accept_partial, C99_rated_refuted

* **`sig_forall_dec`, `sig_not_dec`, `functional_extensionality_dep`** (63 theorems): C113_no_explicit_refuted, C113_rms, C115_bound, C115_gross_refuted, C117_std_half, C118_line_refuted, C119_roll, C119_std, C120_std, C121_array_interpolate_refuted, C121_std_refuted, C125_normalised, C125_order, C125_units, C125_values, C125_zero, C126_mean_refuted, C126_r2_refuted, C127_accepted, C127_labels_refuted, C127_mixed_refuted, C127_perfect_refuted, C128_all, C128_both, C128_missed_refuted, C141_linear_partial, C155_accepted, C155_areas, C155_order_refuted, C155_proportion, C155_range, C155_type_refuted, C155_unchanged_refuted, C165_base_mass_refuted, C165_base_refuted, C165_cells, C165_depth, C165_given, C165_mass, C165_physical_partial, C165_plate, C165_surface, C165_thickness_refuted, C165_third_way_refuted, C165_total_mass, C165_volume_refuted, C165_width_refuted, C170_bias_refuted, C170_r_squared_refuted, C183_course_partial, C183_error, C183_step, C51_columns, C51_laws, C51_rolling, C75_keeps, C75_raises, C75_zero_refuted, C79_columns_refuted, C79_default_refuted, C79_range_affine, C79_unit_free, C89_area

* **`sig_forall_dec`, `sig_not_dec`, `classic`, `functional_extensionality_dep`** (221 theorems): C01_fuel_irrelevant, C01_step_terminates, C02_lower_partial, C02_max_stepsize_refuted, C02_min_stepsize_refuted, C02_upper_partial, C03_growth_partial, C03_max_factor_refuted, C04_heating_history_refuted, C04_pipe_slope_history_refuted, C04_rejected_leave_no_trace_partial, C05_global_error, C05_relaxation, C05_relaxation_error, C05_step_error, C101_accept, C101_pipe_partial, C101_pipe_refuted, C101_tes_partial, C101_tes_refuted, C102_pipe, C102_tes, C103_bare, C103_pipe_partial, C103_tes_partial, C103_zero_refuted, C104_pipe_partial, C104_tes_refuted, C104_unbounded_refuted, C106_continuous_partial, C106_jump_refuted, C107_conductance, C107_floor, C107_flow, C108_cylinder, C108_horizontal_partial, C108_lid_refuted, C108_vertical, C109_branched_refuted, C109_reverse, C109_unbranched_partial, C110_no_overshoot, C110_run, C111_energy, C112_any_root_refuted, C112_tolerance_refuted, C122_blind_refuted, C122_disk_refuted, C122_short_refuted, C122_stop, C124_counters, C124_heating_refuted, C124_stopped_refuted, C124_surface_refuted, C12_branched, C12_heated, C12_pipe, C12_second_law, C12_tes, C13_branched, C13_heated, C13_pipe, C13_tes, C143_between, C143_equal_refuted, C143_symmetric, C144_bare, C144_cyl, C14_outer_cells, C14_uniform, C151_cell, C151_monotone, C151_zero, C154_pressure, C154_water_partial, C154_water_refuted, C156_equilibrium, C156_limit, C156_network, C157_closed, C157_first_law, C158_inaccurate, C158_kinds, C158_maximum_refuted, C158_repeated, C158_steps_refuted, C158_success, C158_success_refuted, C15_pipe_partial, C15_refuted, C15_tes_partial, C165_area_refuted, C16_branched_refuted, C16_courant_refuted, C16_diffusion_refuted, C16_objection, C16_pass_partial, C16_ports_checked, C16_tes_refuted, C16_zero_port_refuted, C174_units, C181_cold_partial, C181_cold_refuted, C181_continues, C181_course, C181_shortened, C181_table, C181_unwarmed_refuted, C182_both_refuted, C182_gap_refuted, C182_grid_refuted, C182_negative_refuted, C182_recovers_partial, C182_reported, C183_solver_partial, C183_tolerance_refuted, C184_branched_partial, C184_branched_refuted, C184_check_refuted, C184_heated, C184_pipe, C184_run, C185_check_refuted, C185_network, C185_rate, C185_rest, C186_cooling, C186_falls, C186_range, C187_losses_refuted, C187_pieces_partial, C187_rest, C188_fit, C188_heard, C188_step, C188_step_refuted, C188_unheard_refuted, C189_insulation, C189_settles, C189_tes, C189_thin, C18_conductivity_rises, C18_density_falls, C18_energy_rises, C190_any, C190_any_tes, C190_pipe, C190_tes, C19_connector_band_partial, C19_connector_cold_partial, C19_connector_refuted, C19_valve_partial, C19_valve_shut_refuted, C21_counterflow, C21_cutoff, C21_edge_refuted, C21_idle, C21_laws_partial, C22_first_evaluation, C22_parts, C23_limited_growth, C23_part_load, C23_startup, C23_startup_completes, C23_startup_energy, C24_min_off, C24_min_off_announced, C24_rejected_attempt_refuted, C25_min_on, C25_rejected_attempt_refuted, C26_emergency, C26_hot_return, C26_no_hot_start, C27_ramp_partial, C27_ramp_refuted, C27_range_partial, C27_upper_refuted, C28_heat_burst_refuted, C28_recorded_partial, C28_rejected_attempt_refuted, C44_slots, C54_buoyancy, C55_delivered, C55_shutdown, C57_prandtl_falls, C57_turning_point, C57_viscosity_falls_partial, C57_viscosity_refuted, C58_mixing_refuted, C59_half_percent_refuted, C59_one_percent_partial, C60_absolute_tolerance_refuted, C60_tolerance_kept_partial, C60_within_tolerance_accepted, C61_efficiency_refuted, C61_ratings, C61_settles, C62_constant_refuted, C62_emergency_refuted, C62_renewed_partial, C63_on_at_start_refuted, C72_above_refuted, C72_agree, C73_levy_refuted, C73_surcharge_partial, C73_surcharge_refuted, C74_grows_below, C74_scalar, C74_share, C87_advection, C87_conduction, C87_uniform, C88_one_pass_refuted, C88_steady_partial, C89_grid_refuted, C89_single_partial, C90_outside_refuted, C90_ports_partial, C90_wrong_cell_refuted, C91_check_partial, C91_overshoot_refuted

## 7. Tests against wrong programs

`seeded/LOG.jsonl`: one line per mutation of a model definition, with the theorems that failed.
