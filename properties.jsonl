{"id": "C01", "title": "Parameter-set completion and cutting is an exact override", "statement": "cut_and_check_pamset(required, pamset, used) returns a dictionary whose keys are exactly the required keys plus those used keys that the caller supplied; a required key keeps the caller's value exactly when the caller supplied an int/float/bool-typed value and gets the documented default otherwise; an optional used key keeps the caller's value unchanged whatever its type; unknown keys disappear; the caller's pamset is not modified.", "quantifier": "all required/used/supplied dictionaries and all keys", "why_tests_cant": "Tests try a handful of dictionaries; the claim is about every key in every combination of three dictionaries and every value type.", "anchors": ["/repo/src/ciceroscm/_utils.py:cut_and_check_pamset", "/repo/src/ciceroscm/_utils.py:cut_non_required", "/repo/src/ciceroscm/_utils.py:check_numeric_pamset"]}
{"id": "C02", "title": "Updating parameters is a framed, numeric-only override", "statement": "update_pam_if_numeric changes a parameter exactly when it is updatable, already present and the last supplied value for it is numeric; every other parameter keeps its value, no key is ever added or removed, and applying the same update twice is the same as once.", "quantifier": "all old sets, all update sets, all can-change lists, all keys", "why_tests_cant": "Frame conditions (nothing else changes) over unbounded dictionaries cannot be enumerated.", "anchors": ["/repo/src/ciceroscm/_utils.py:update_pam_if_numeric"]}
{"id": "C03", "title": "Numpy integers are not numbers to the parameter gate", "statement": "A required numeric parameter supplied as a numpy integer (e.g. the pre-industrial CO2 read from an integer-typed concentration column) is silently replaced by the default, whereas the same mathematical value supplied as Python int/float or numpy float64 is honoured.", "quantifier": "all required parameters and all integer values", "why_tests_cant": "Each test fixes one input file and hence one column type; the claim covers all values and all parameters.", "anchors": ["/repo/src/ciceroscm/_utils.py:check_numeric_pamset", "/repo/src/ciceroscm/concentrations_emissions_handler.py:ConcentrationsEmissionsHandler.__init__", "/repo/src/ciceroscm/carbon_cycle/carbon_cycle_mod.py:CarbonCycleModel.__init__"]}
{"id": "C04", "title": "The run window of an instance never changes", "statement": "Whatever sequence of reruns with whatever parameter sets is performed on one handler instance, the values of nystart, nyend, emstart, idtm and conc_run in force are those of construction.", "quantifier": "all finite sequences of reruns with arbitrary parameter dictionaries", "why_tests_cant": "An invariant over unbounded histories of calls.", "anchors": ["/repo/src/ciceroscm/concentrations_emissions_handler.py:check_pamset_consistency", "/repo/src/ciceroscm/concentrations_emissions_handler.py:ConcentrationsEmissionsHandler.reset_with_new_pams"]}
{"id": "C05", "title": "Handler parameters are fresh on every rerun except the sticky ones", "statement": "After a rerun, every q-factor, ref_yr and lifetime_mode depends only on the parameter set of that rerun (value given, else default) and not on earlier reruns, but just_one, once set by any earlier rerun or the construction, stays in force in every later rerun that does not set it (so total forcing stays restricted to one component).", "quantifier": "all finite rerun histories", "why_tests_cant": "History (in)dependence quantifies over all prefixes of calls.", "anchors": ["/repo/src/ciceroscm/concentrations_emissions_handler.py:check_pamset_consistency", "/repo/src/ciceroscm/concentrations_emissions_handler.py:check_pamset", "/repo/src/ciceroscm/concentrations_emissions_handler.py:ConcentrationsEmissionsHandler.conc2forc"]}
{"id": "C06", "title": "Carbon-cycle parameters are sticky; reruns with the same full set are idempotent", "statement": "reset_co2_hold(p) leaves carbon parameters not mentioned in p at the values of the previous run; hence the parameters in force after a history of reruns are the right-biased fold of all sets given so far, and two histories ending in the same complete set agree. A rerun with a partial set therefore depends on earlier runs.", "quantifier": "all finite sequences of (partial) carbon parameter sets", "why_tests_cant": "Fold over unbounded histories; tests run at most two in a row.", "anchors": ["/repo/src/ciceroscm/carbon_cycle/carbon_cycle_mod.py:CarbonCycleModel.reset_co2_hold", "/repo/src/ciceroscm/carbon_cycle/carbon_cycle_abstract.py:AbstractCarbonCycleModel.reset_co2_hold", "/repo/src/ciceroscm/_utils.py:update_pam_if_numeric"]}
{"id": "C07", "title": "Decay functions given in the constructor configuration have no effect", "statement": "rs_function / rb_function entries in the cfg passed to CICEROSCM(...) never reach the carbon-cycle model: the carbon model constructed is the same whatever these entries are (only pamset_carbon of _run is honoured).", "quantifier": "all configurations and all values of those entries", "why_tests_cant": "Non-interference: compares all pairs of configurations.", "anchors": ["/repo/src/ciceroscm/ciceroscm.py:CICEROSCM.__init__", "/repo/src/ciceroscm/concentrations_emissions_handler.py:check_pamset", "/repo/src/ciceroscm/concentrations_emissions_handler.py:ConcentrationsEmissionsHandler.__init__"]}
{"id": "C08", "title": "Model selection accepts exactly the documented names", "statement": "create_thermal_model and create_carbon_cycle_model return the documented class for the two documented names each and raise ValueError for every other string; the names chosen in cfg survive the numeric-default machinery of the input handler.", "quantifier": "all strings", "why_tests_cant": "Infinitely many names.", "anchors": ["/repo/src/ciceroscm/component_factory_functions.py:create_thermal_model", "/repo/src/ciceroscm/component_factory_functions.py:create_carbon_cycle_model", "/repo/src/ciceroscm/ciceroscm.py:CICEROSCM.__init__"]}
{"id": "C09", "title": "Two-layer model: exact heat bookkeeping each year", "statement": "In every energy_budget call the change of total heat c_fast*T_fast + c_slow*T_slow equals forcing - lambda*T_fast - (efficacy-1)*k*(T_fast-T_slow) evaluated with the temperatures at the start of the year; equivalently the reported OHCTOT changes by exactly that flux times ocean area times seconds per year.", "quantifier": "all parameters with nonzero heat capacities, all states, all forcings", "why_tests_cant": "Algebraic identity over reals for all states; float tests compare few numbers.", "anchors": ["/repo/src/ciceroscm/thermal_model/two_layer_ocean.py:TwoLayerOceanModel.energy_budget"]}
{"id": "C10", "title": "Two-layer model: reported imbalance vs actual heat uptake", "statement": "With constant feedback, the heat gained in year t+1 equals the RIB reported in year t plus the change of forcing F(t+1)-F(t); so reported RIB equals the heat taken up in the same year only in the stated defect: RIB(t) - uptake(t) = -(lambda + (eff-1)k)*dT_fast + (eff-1)k*dT_slow.", "quantifier": "all forcing histories, all parameters", "why_tests_cant": "Relates consecutive years of arbitrary histories.", "anchors": ["/repo/src/ciceroscm/thermal_model/two_layer_ocean.py:TwoLayerOceanModel.energy_budget"]}
{"id": "C11", "title": "Two-layer model is linear: superposition and zero response", "statement": "With constant feedback, starting from rest, the temperature histories for the pointwise linear combination of two forcing histories are the same linear combination of the two histories, and zero forcing gives zero output in every year.", "quantifier": "all finite forcing histories, all scalars, all parameters", "why_tests_cant": "Quantifies over all histories of all lengths.", "anchors": ["/repo/src/ciceroscm/thermal_model/two_layer_ocean.py:TwoLayerOceanModel.energy_budget"]}
{"id": "C12", "title": "Two-layer model converges to equilibrium F/lambda", "statement": "Under constant forcing F and constant feedback lambda>0 with c_fast >= lambda + k*efficacy and c_slow >= k, both layer temperatures stay in the interval spanned by initial values, 0 and F/lambda..., and the distance to the equilibrium (F/lambda, F/lambda) is bounded by a geometric sequence with explicit ratio < 1.", "quantifier": "all parameters satisfying the stability condition, all start states, all numbers of years", "why_tests_cant": "A limit statement about infinitely many years.", "anchors": ["/repo/src/ciceroscm/thermal_model/two_layer_ocean.py:TwoLayerOceanModel.energy_budget"]}
{"id": "C13", "title": "Pattern feedback is history free and gated", "statement": "set_feedback_gregory(w) leaves both thermal models with feedback baseline + delta_lambda_aero*w irrespective of the feedback values set in earlier years; with delta_lambda_aero = 0 all weights give identical model states (upwelling-diffusion: state untouched).", "quantifier": "all sequences of weights", "why_tests_cant": "History independence over all sequences.", "anchors": ["/repo/src/ciceroscm/thermal_model/two_layer_ocean.py:TwoLayerOceanModel.set_feedback_gregory", "/repo/src/ciceroscm/thermal_model/upwelling_diffusion_model.py:UpwellingDiffusionModel.set_feedback_gregory"]}
{"id": "C14", "title": "Two-layer model applies twice the reported mean volcanic forcing", "statement": "In the two-layer model the volcanic contribution to the global forcing is the sum, not the mean, of the hemispheric annual means: replacing the volcanic input v by an equal extra non-volcanic forcing in both hemispheres requires twice the mean (NH+SH)/2 of the hemispheric volcanic forcings the driver reports; the upwelling-diffusion model applies it once.", "quantifier": "all volcanic series of any length and all forcings", "why_tests_cant": "Relational claim about all input pairs.", "anchors": ["/repo/src/ciceroscm/thermal_model/two_layer_ocean.py:TwoLayerOceanModel.energy_budget", "/repo/src/ciceroscm/formattingtools/reformat_cscm_results.py:CSCMREADER.get_volc_forcing"]}
{"id": "C15", "title": "Two-layer OHC700 is bounded by and consistent with OHCTOT", "statement": "OHC_MIXED + OHC_DEEP = OHCTOT always; OHC700 is the depth-weighted content of exactly the top min(700, total depth) metres; for nonnegative layer temperatures 0 <= OHC700 <= OHCTOT, and OHC700 = OHCTOT when mixed+deep <= 700.", "quantifier": "all depths and states", "why_tests_cant": "Branch boundaries at all real depths.", "anchors": ["/repo/src/ciceroscm/thermal_model/two_layer_ocean.py:TwoLayerOceanModel.energy_budget"]}
{"id": "C16", "title": "Upwelling-diffusion solver: the tridiagonal system has exactly one solution under the model's parameter range", "statement": "For every parameter set with positive thicknesses, nonnegative diffusivity, feedback and exchange, and upwelling satisfying 0 <= w and w small against the mixed layer, the banded system assembled for a hemisphere has a unique solution, and forward elimination/back substitution computes it without ever dividing by zero.", "quantifier": "all layer counts, all admissible parameters, all right-hand sides", "why_tests_cant": "Nonsingularity for all sizes and parameters.", "anchors": ["/repo/src/ciceroscm/thermal_model/upwelling_diffusion_model.py:_band", "/repo/src/ciceroscm/thermal_model/upwelling_diffusion_model.py:UpwellingDiffusionModel.coeff"]}
{"id": "C17", "title": "Upwelling-diffusion: exact ocean heat conservation per sub-step", "statement": "With efficacy 1 and no interhemispheric air exchange, the change of the thickness-weighted temperature sum of both hemispheres (weighted with ocean fractions) over one sub-step equals the surface flux dt/c1*rlamdo*(T_air-T_sea), all of diffusion, upwelling, polar sinking and interhemispheric ocean exchange cancelling, and that surface flux is exactly the imposed forcing minus feedback*T_air per ocean fraction.", "quantifier": "all layer counts, states, forcings, parameters", "why_tests_cant": "An identity summed over arbitrarily many layers.", "anchors": ["/repo/src/ciceroscm/thermal_model/upwelling_diffusion_model.py:UpwellingDiffusionModel.coeff", "/repo/src/ciceroscm/thermal_model/upwelling_diffusion_model.py:UpwellingDiffusionModel.energy_budget", "/repo/src/ciceroscm/thermal_model/upwelling_diffusion_model.py:UpwellingDiffusionModel.setup_ebud"]}
{"id": "C18", "title": "Upwelling-diffusion: no forcing, no response", "statement": "Starting from rest, if all forcings of all years are zero then every reported temperature, imbalance and heat content is zero in all years.", "quantifier": "all parameter sets, all numbers of years and sub-steps", "why_tests_cant": "Invariant over unbounded horizons.", "anchors": ["/repo/src/ciceroscm/thermal_model/upwelling_diffusion_model.py:UpwellingDiffusionModel.energy_budget"]}
{"id": "C19", "title": "Upwelling-diffusion: positive forcing gives nonnegative temperatures", "statement": "From a nonnegative state, with nonnegative forcing and parameters in the admissible range (nonnegative explicit coefficients), all layer temperatures of both hemispheres remain nonnegative, and larger forcing gives temperatures at least as large.", "quantifier": "all admissible parameters, states, forcings, numbers of steps", "why_tests_cant": "Order preservation over all pairs of inputs.", "anchors": ["/repo/src/ciceroscm/thermal_model/upwelling_diffusion_model.py:UpwellingDiffusionModel.energy_budget"]}
{"id": "C20", "title": "Upwelling-diffusion: OHC700 integrates exactly 700 m only for mixed layers up to 700 m", "statement": "For 0 < mixed <= 700 and at least 8 layers, OHC700 is the heat content of exactly the top 700 m; for 700 < mixed < 800 the depth integrated is not 700 m.", "quantifier": "all mixed-layer depths", "why_tests_cant": "Floor-division boundaries over the reals.", "anchors": ["/repo/src/ciceroscm/thermal_model/upwelling_diffusion_model.py:UpwellingDiffusionModel.ocean_temperature"]}
{"id": "C21", "title": "Upwelling-diffusion: forcing ramp ends on the annual forcing", "statement": "Within a year the sub-step forcing interpolates linearly from last year's to this year's hemispheric forcing, reaching this year's value exactly at the last sub-step; constant forcing is passed unchanged; and the sub-step volcanic forcing is periodic in the supplied vector, so with as many sub-steps as entries its mean is the reported annual volcanic mean.", "quantifier": "all numbers of sub-steps, all forcings", "why_tests_cant": "All ldtime and vector lengths.", "anchors": ["/repo/src/ciceroscm/thermal_model/upwelling_diffusion_model.py:UpwellingDiffusionModel.energy_budget"]}
{"id": "C22", "title": "Upwelling-diffusion: hemispheric mirror symmetry", "statement": "Exchanging the hemispheres in parameters (foan/foas), forcing and state exchanges the hemispheres in the result when the interhemispheric ocean exchange is off or the ocean fractions are equal; in particular equal fractions and equal forcing keep both hemispheres identical forever.", "quantifier": "all states, forcings, parameters, numbers of years", "why_tests_cant": "Relational property over all runs.", "anchors": ["/repo/src/ciceroscm/thermal_model/upwelling_diffusion_model.py:UpwellingDiffusionModel.setup_ebud2", "/repo/src/ciceroscm/thermal_model/upwelling_diffusion_model.py:UpwellingDiffusionModel.energy_budget"]}
{"id": "C23", "title": "Upwelling-diffusion: upwelling feedback is reset at every year boundary", "statement": "The first sub-step of every year uses the undisturbed upwelling rate whatever the current surface temperature, so with one sub-step per year the threshold temperature parameter has no influence at all.", "quantifier": "all histories and threshold temperatures", "why_tests_cant": "Non-interference over all runs.", "anchors": ["/repo/src/ciceroscm/thermal_model/upwelling_diffusion_model.py:UpwellingDiffusionModel.energy_budget", "/repo/src/ciceroscm/thermal_model/upwelling_diffusion_model.py:UpwellingDiffusionModel.setup_ebud2"]}
{"id": "C24", "title": "Upwelling-diffusion: global aggregates are hemispheric means", "statement": "Every reported global temperature and imbalance is exactly the mean of the two hemispheric values reported in the same year, and the blended temperature of each hemisphere is the ocean-fraction weighted mean of its sea and air temperatures.", "quantifier": "all states and forcings", "why_tests_cant": "Identity over all inputs, for every number of sub-steps.", "anchors": ["/repo/src/ciceroscm/thermal_model/upwelling_diffusion_model.py:UpwellingDiffusionModel.energy_budget"]}
{"id": "C25", "title": "Pre-industrial steady state of the default carbon cycle", "statement": "With zero total emissions in every year the default carbon cycle returns exactly the pre-industrial concentration in every year, whatever the temperature feedback and decay functions.", "quantifier": "all numbers of years, temperatures, parameters", "why_tests_cant": "Invariant over unbounded runs.", "anchors": ["/repo/src/ciceroscm/carbon_cycle/carbon_cycle_mod.py:CarbonCycleModel.co2em2conc"]}
{"id": "C26", "title": "Default carbon cycle: exact closure identity", "statement": "After any sequence of years the atmospheric excess plus cumulated air-sea and biosphere fluxes equals the cumulated emissions up to the explicitly given defect terms (half a step of the first and last net emission/flux and the half-step ocean pressure difference).", "quantifier": "all emission and temperature histories", "why_tests_cant": "Telescoping identity over all histories.", "anchors": ["/repo/src/ciceroscm/carbon_cycle/carbon_cycle_mod.py:CarbonCycleModel.co2em2conc"]}
{"id": "C27", "title": "Replaying a year after restoring the hold values is exact", "statement": "Calling co2em2conc for a year, restoring the saved hold values, and calling it again with the same inputs gives the same concentration and state, and an intermediate call with other emissions for the same year leaves no trace.", "quantifier": "all states reachable by runs, all emissions tried", "why_tests_cant": "Crash/rollback style property over all intermediate states; the arrays are not saved by the hold dictionary, so the claim is non-obvious.", "anchors": ["/repo/src/ciceroscm/carbon_cycle/carbon_cycle_mod.py:CarbonCycleModel._get_co2_hold_values", "/repo/src/ciceroscm/carbon_cycle/carbon_cycle_mod.py:CarbonCycleModel._set_co2_hold", "/repo/src/ciceroscm/carbon_cycle/carbon_cycle_mod.py:CarbonCycleModel.co2em2conc", "/repo/src/ciceroscm/carbon_cycle/carbon_cycle_abstract.py:AbstractCarbonCycleModel._guess_emissions_iteration"]}
{"id": "C28", "title": "Back-calculation by bisection: bracketing, termination and accuracy", "statement": "For any carbon model whose one-year response is nondecreasing in emissions, the bisection never leaves its initial bracket, halves its width every iteration, performs at most maxit+1 model calls, and returns a guess that either reproduces the target concentration within rtol or lies within width/2^maxit of every solution inside the bracket.", "quantifier": "all monotone responses, targets, brackets, iteration limits", "why_tests_cant": "Unbounded family of response functions.", "anchors": ["/repo/src/ciceroscm/carbon_cycle/carbon_cycle_abstract.py:AbstractCarbonCycleModel._guess_emissions_iteration"]}
{"id": "C29", "title": "The initial emission bracket always is a proper interval around the atmospheric change", "statement": "get_initial_max_min_guess returns max > min with width at least 1 that contains the emissions equivalent to the atmospheric change.", "quantifier": "all concentrations and width estimates", "why_tests_cant": "Min/max case analysis over reals.", "anchors": ["/repo/src/ciceroscm/carbon_cycle/carbon_cycle_abstract.py:AbstractCarbonCycleModel.get_initial_max_min_guess"]}
{"id": "C30", "title": "Temperature feedback functions of the default carbon cycle are normalised and monotone", "statement": "Net primary production at zero warming is exactly 60; mixed-layer depth at zero warming is exactly mixed_carbon when that is at least the minimum; solubility factor at zero warming is 1 and never exceeds 1+limit; the mixed layer shoals and the solubility factor (which multiplies ocean pCO2) falls monotonically with warming.", "quantifier": "all temperatures and admissible parameters", "why_tests_cant": "Monotonicity on the real line.", "anchors": ["/repo/src/ciceroscm/carbon_cycle/carbon_cycle_mod.py:CarbonCycleModel.fnpp_from_temp", "/repo/src/ciceroscm/carbon_cycle/carbon_cycle_mod.py:CarbonCycleModel.solubility_temp_feedback", "/repo/src/ciceroscm/carbon_cycle/carbon_cycle_mod.py:CarbonCycleModel.mixed_layer_temp_feedback"]}
{"id": "C31", "title": "Ocean partial pressure is a strictly increasing C1 function across its regime switch", "statement": "The mapping from dissolved carbon to ocean partial pressure is continuous and continuously differentiable at the switch point and strictly increasing on nonnegative arguments, so more carbon always means a higher pressure.", "quantifier": "all real arguments", "why_tests_cant": "Continuity, differentiability, monotonicity are limits.", "anchors": ["/repo/src/ciceroscm/carbon_cycle/carbon_cycle_mod.py:_PCO2_AT_MAX", "/repo/src/ciceroscm/carbon_cycle/carbon_cycle_mod.py:_DPCO2_DZ_AT_MAX", "/repo/src/ciceroscm/carbon_cycle/carbon_cycle_mod.py:CarbonCycleModel._calculate_partial_pressure_mixed_layer"]}
{"id": "C32", "title": "User decay functions have the documented normalisation", "statement": "rs_function2 is 1 at time zero, nonincreasing and tends to its normalised constant coefficient; rb_function2 is 0 at time zero, nonnegative and integrates to 1 over infinite time; both invariant under rescaling of coefficients. The built-in rs_function is exactly 1 at zero while the built-in rb_function is slightly negative at zero.", "quantifier": "all nonnegative coefficient vectors with positive sum, positive timescales, all times", "why_tests_cant": "Infinite integrals and all vector lengths.", "anchors": ["/repo/src/ciceroscm/carbon_cycle/rfuns.py:rs_function2", "/repo/src/ciceroscm/carbon_cycle/rfuns.py:rb_function2", "/repo/src/ciceroscm/carbon_cycle/rfuns.py:rs_function", "/repo/src/ciceroscm/carbon_cycle/rfuns.py:rb_function"]}
{"id": "C33", "title": "Flat decay parameters are equivalent to the dictionary form", "statement": "Flat parameters rb_coef0..n-1/rb_tim0..n-1 in any order are converted to the list form in index order with flat keys removed and all other keys kept; counts that do not match raise ValueError; when indices have gaps, the list is compacted so coefficients and timescales with different indices are paired.", "quantifier": "all key orders, counts and gaps", "why_tests_cant": "Permutations of unbounded key sets.", "anchors": ["/repo/src/ciceroscm/carbon_cycle/rfuns.py:_extract_indexed_parameters", "/repo/src/ciceroscm/carbon_cycle/rfuns.py:_process_flat_carbon_parameters"]}
{"id": "C34", "title": "Ocean impulse memory skips the latest full step", "statement": "The mixed-layer carbon sum at step it weights the flux of step j<it-1 with the response of age it-1-j, the current flux with 1/2, and the flux of step it-1 with 0: a unit pulse at step j therefore contributes 1/2 at step j, 0 at step j+1 and r(1), r(2), ... afterwards.", "quantifier": "all steps and flux histories", "why_tests_cant": "Index arithmetic at every position.", "anchors": ["/repo/src/ciceroscm/carbon_cycle/carbon_cycle_mod.py:CarbonCycleModel._calculate_partial_pressure_mixed_layer"]}
{"id": "C35", "title": "Box carbon cycle conserves carbon", "statement": "In every year the change in total carbon (atmosphere in PgC + vegetation + soil + both ocean pools) equals the emissions of the year; without emissions and warming the initial state is steady; the number of sub-yearly steps and pre-industrial concentration have no influence.", "quantifier": "all emission/temperature histories and parameters", "why_tests_cant": "Invariant over unbounded runs.", "anchors": ["/repo/src/ciceroscm/carbon_cycle/carbon_cycle_mod_box.py:CarbonCycleModel.co2em2conc"]}
{"id": "C36", "title": "Airborne fraction is all-or-nothing", "statement": "If no cumulative emission is exactly zero the airborne fraction of year t times cumulative emissions equals the concentration excess in PgC for every year; if any single year's cumulative emission is zero the whole series is undefined (NaN).", "quantifier": "all emission and concentration series", "why_tests_cant": "All series lengths and zero positions.", "anchors": ["/repo/src/ciceroscm/carbon_cycle/common_carbon_cycle_functions.py:calculate_airborne_fraction"]}
{"id": "C37", "title": "Emissions-to-concentration step is the exact solution of the decay equation", "statement": "The yearly update equals the value at one year of the unique solution of dc/dt = E/beta - q*c with the previous concentration as initial value, and the vectorised formula used for ordinary gases and the scalar formula used for CH4/N2O are the same function.", "quantifier": "all emissions, lifetimes, concentrations", "why_tests_cant": "Statement about solutions of an ODE.", "anchors": ["/repo/src/ciceroscm/concentrations_emissions_handler.py:ConcentrationsEmissionsHandler.emi2conc", "/repo/src/ciceroscm/concentrations_emissions_handler.py:ConcentrationsEmissionsHandler._precalculate_concentrations_vanilla_gases"]}
{"id": "C38", "title": "Concentrations are bounded, monotone and converge to equilibrium", "statement": "For positive lifetime, each new concentration lies between the previous one and the equilibrium E*tau/beta, is monotone in emissions and in the previous concentration, nonnegative for nonnegative inputs, and under constant emissions the distance to equilibrium shrinks by exactly exp(-1/tau) per year.", "quantifier": "all gases, emission histories, numbers of years", "why_tests_cant": "Limit and order statement for all histories.", "anchors": ["/repo/src/ciceroscm/concentrations_emissions_handler.py:ConcentrationsEmissionsHandler._precalculate_concentrations_vanilla_gases"]}
{"id": "C39", "title": "Prescribed/computed partition of concentrations", "statement": "In a concentration run every year's concentrations of all gases are exactly the prescribed ones; in an emission run ordinary gases are prescribed exactly in the years before emstart (all years if nyend <= emstart) and computed afterwards, the output index is exactly nystart..nyend in order without gaps; CO2 is computed in all years.", "quantifier": "all year windows and input frames", "why_tests_cant": "All window/offset combinations.", "anchors": ["/repo/src/ciceroscm/concentrations_emissions_handler.py:ConcentrationsEmissionsHandler._precalculate_concentrations_vanilla_gases", "/repo/src/ciceroscm/concentrations_emissions_handler.py:ConcentrationsEmissionsHandler.emi2conc", "/repo/src/ciceroscm/concentrations_emissions_handler.py:ConcentrationsEmissionsHandler.fill_one_row_conc"]}
{"id": "C40", "title": "Methane lifetime modes", "statement": "The loss rate is 1/tau1*f + 1/tau2 + 1/tau3 with f according to mode: CONSTANT_12 ignores tau1 and the concentration, WIGLEY is decreasing in concentration, TAR at reference values reduces to 1/tau1; an unknown mode behaves as f=1; the TAR loss rate is non-positive for sufficiently high concentrations.", "quantifier": "all modes (strings), concentrations, emissions", "why_tests_cant": "All strings and reals.", "anchors": ["/repo/src/ciceroscm/concentrations_emissions_handler.py:ConcentrationsEmissionsHandler.methane_lifetime"]}
{"id": "C41", "title": "Stratospheric ozone forcing lags by three years", "statement": "Stratospheric ozone forcing of year y depends only on halogen concentrations of year y-3 and of the first year; it is exactly zero in the first four years, nonpositive when all halogen concentrations are at or above first-year level, and an odd monotone function of each concentration change.", "quantifier": "all concentration histories", "why_tests_cant": "Dependency claim over all histories.", "anchors": ["/repo/src/ciceroscm/concentrations_emissions_handler.py:ConcentrationsEmissionsHandler._add_precalculated_strat_o3", "/repo/src/ciceroscm/concentrations_emissions_handler.py:ConcentrationsEmissionsHandler.calculate_strat_quantities"]}
{"id": "C42", "title": "Tropospheric ozone forcing is anchored at start and reference years", "statement": "Tropospheric ozone forcing is 0 in the first year and, when the reference-year inputs are in force, equals qo3 in the reference year; it is affine in emissions; and it is non-causal: forcing in years before the reference year depends on reference-year emissions.", "quantifier": "all emission histories", "why_tests_cant": "Dependency across all years.", "anchors": ["/repo/src/ciceroscm/concentrations_emissions_handler.py:ConcentrationsEmissionsHandler.tropospheric_ozone_forcing"]}
{"id": "C43", "title": "Forcing vanishes in the first year", "statement": "In the first year every computed component except land use is exactly zero, so total forcing equals the land-use forcing of that year (if LANDUSE is a component) plus perturbations of that year.", "quantifier": "all inputs and gas tables", "why_tests_cant": "All component tables.", "anchors": ["/repo/src/ciceroscm/concentrations_emissions_handler.py:ConcentrationsEmissionsHandler.conc2forc"]}
{"id": "C44", "title": "Total forcing is the sum of all reported components", "statement": "Without just_one, the total forcing reported for a year equals the sum of all component forcings reported for that year (including gases precalculated and perturbations of existing components); with just_one it equals that component alone; solar and volcanic forcing are not part of it in emission/concentration runs whereas solar is part of it in forcing runs.", "quantifier": "all gas tables, years, perturbation tables", "why_tests_cant": "Sum over arbitrary component sets and orders.", "anchors": ["/repo/src/ciceroscm/concentrations_emissions_handler.py:ConcentrationsEmissionsHandler.conc2forc", "/repo/src/ciceroscm/perturbations.py:ForcingPerturbation.add_forcing_pert", "/repo/src/ciceroscm/ciceroscm.py:CICEROSCM.forc_set"]}
{"id": "C45", "title": "Hemispheric forcings average to the total plus solar", "statement": "In every year (forc_nh + forc_sh)/2 passed to the thermal model equals total forcing plus solar forcing, whatever the tracers' hemispheric splits and perturbations.", "quantifier": "all component sets and values", "why_tests_cant": "Sum over arbitrary component sets.", "anchors": ["/repo/src/ciceroscm/concentrations_emissions_handler.py:ConcentrationsEmissionsHandler.conc2forc", "/repo/src/ciceroscm/perturbations.py:calculate_hemispheric_forcing"]}
{"id": "C46", "title": "Aerosol weight is a fraction unless perturbed", "statement": "Without forcing perturbations the aerosol weight is in [0,1], 0 when there is no forcing; it ignores gases with precalculated forcing; with a forcing perturbation cancelling a component it can exceed 1.", "quantifier": "all component sets, values and perturbations", "why_tests_cant": "Bounds over all inputs.", "anchors": ["/repo/src/ciceroscm/concentrations_emissions_handler.py:ConcentrationsEmissionsHandler.conc2forc"]}
{"id": "C47", "title": "CO2 forcing is zero at reference and strictly increasing over a wide range", "statement": "CO2 forcing is zero at the start concentration, and strictly increasing in concentration for concentrations from the start value up to start value + 1500 ppm for N2O up to the stated bound; the quadratic term makes the prefactor eventually decrease.", "quantifier": "all concentrations in the range", "why_tests_cant": "Monotonicity on an interval.", "anchors": ["/repo/src/ciceroscm/concentrations_emissions_handler.py:ConcentrationsEmissionsHandler.calculate_forc_three_main"]}
{"id": "C48", "title": "Forcing perturbations: accumulation and scope", "statement": "Perturbing a computed component adds every matching row of the year to that component, the total and hemispheres; rows for unknown components or other years have no effect on them; for gases with precalculated forcing duplicate rows of the same year do not accumulate (last wins).", "quantifier": "all perturbation tables", "why_tests_cant": "All table contents incl. duplicates.", "anchors": ["/repo/src/ciceroscm/perturbations.py:ForcingPerturbation.add_forcing_pert", "/repo/src/ciceroscm/perturbations.py:ForcingPerturbation.add_forcing_pert_for_vanilla"]}
{"id": "C49", "title": "Emission perturbations accumulate and are applied in place", "statement": "perturb_emissions adds, for every cell, the sum of all matching rows, maps CO2 to fossil CO2 when only the split columns exist, changes no other cell; and because the caller's frame is modified, building a second instance from the same frame applies the perturbation twice.", "quantifier": "all emission frames and perturbation tables", "why_tests_cant": "Frame condition and aliasing over all tables.", "anchors": ["/repo/src/ciceroscm/perturbations.py:perturb_emissions", "/repo/src/ciceroscm/concentrations_emissions_handler.py:ConcentrationsEmissionsHandler.__init__"]}
{"id": "C50", "title": "Regional aerosols switch off exactly the global factors", "statement": "If some component name starts with SO2_, BC_ or OC_, the corresponding global direct factor is zero after every (re)initialisation whatever the user passed, other factors are unaffected; the global species still contributes when it has a nonzero efficiency in the gas table.", "quantifier": "all gas tables and reruns", "why_tests_cant": "All name sets.", "anchors": ["/repo/src/ciceroscm/concentrations_emissions_handler.py:ConcentrationsEmissionsHandler.avoid_regional_double_counting", "/repo/src/ciceroscm/concentrations_emissions_handler.py:ConcentrationsEmissionsHandler.calc_aerosol_forcing"]}
{"id": "C51", "title": "Forcing runs are causal and prefix stable", "statement": "In a forcing run every output of year t depends only on forcing, solar and volcanic input up to year t: two runs with inputs agreeing up to year t agree in all outputs up to year t, and extending the end year does not change earlier outputs. All output arrays have length nyend-nystart+1.", "quantifier": "all pairs of input histories, both thermal models", "why_tests_cant": "Relational (2-run) property.", "anchors": ["/repo/src/ciceroscm/ciceroscm.py:CICEROSCM._run", "/repo/src/ciceroscm/ciceroscm.py:CICEROSCM.forc_set", "/repo/src/ciceroscm/ciceroscm.py:CICEROSCM.add_year_data_to_output"]}
{"id": "C52", "title": "Carbon feedback uses last year's temperature", "statement": "In emission runs the feedback variables passed to the carbon cycle for year t are exactly the thermal model outputs of year t-1, and none in the first year; carbon-cycle outputs (and back-calculation) are evaluated with same-year temperatures instead.", "quantifier": "all runs", "why_tests_cant": "Order of calls over all horizons.", "anchors": ["/repo/src/ciceroscm/ciceroscm.py:CICEROSCM._run", "/repo/src/ciceroscm/concentrations_emissions_handler.py:ConcentrationsEmissionsHandler.get_carbon_cycle_data"]}
{"id": "C53", "title": "Reruns on one instance reproduce results but keep stale result keys", "statement": "In a forcing run, results for thermal outputs after a rerun depend only on the arguments of the last run, not on earlier ones; keys for optional frames (e.g. carbon cycle) present from an earlier dictionary run remain in results.", "quantifier": "all histories of runs", "why_tests_cant": "History independence.", "anchors": ["/repo/src/ciceroscm/ciceroscm.py:CICEROSCM._run", "/repo/src/ciceroscm/ciceroscm.py:CICEROSCM.initialise_output_arrays"]}
{"id": "C54", "title": "File output requires the upwelling-diffusion output names", "statement": "Writing results to files succeeds in finding every column exactly if the thermal model's output dictionary contains all names of the file format; the default model provides all, the two-layer model does not (KeyError after the run has completed).", "quantifier": "all result dictionaries", "why_tests_cant": "Coverage of all models.", "anchors": ["/repo/src/ciceroscm/ciceroscm.py:CICEROSCM.write_data_to_file", "/repo/src/ciceroscm/thermal_model/two_layer_ocean.py:TwoLayerOceanModel", "/repo/src/ciceroscm/thermal_model/upwelling_diffusion_model.py:UpwellingDiffusionModel"]}
{"id": "C55", "title": "Data source precedence", "statement": "get_data returns the content of the file when a file is configured, else the data object, else KeyError; with sunvolc != 1 solar/volcanic data given as objects are replaced by zeros while configured files still win; rf_volc_file / rf_volc_data are always ignored; giving only one of the hemispheric volcanic inputs with sunvolc=1 raises KeyError for the other.", "quantifier": "all configurations", "why_tests_cant": "All combinations of keys.", "anchors": ["/repo/src/ciceroscm/input_handler.py:InputHandler.get_data", "/repo/src/ciceroscm/input_handler.py:InputHandler.set_sun_volc_luc_defaults", "/repo/src/ciceroscm/input_handler.py:InputHandler.__init__"]}
{"id": "C56", "title": "Year-row files are aligned to 1750", "statement": "For a file whose first row is 1750, row i read for a run starting at nystart >= 1750 belongs to year nystart+i; for nystart < 1750 it belongs to year 1750+i, i.e. the data are shifted by 1750-nystart years.", "quantifier": "all start years and file lengths", "why_tests_cant": "All offsets.", "anchors": ["/repo/src/ciceroscm/input_handler.py:InputHandler.read_data_on_year_row"]}
{"id": "C57", "title": "Forcing-file totals and aerosol weights", "statement": "Reading a component forcing file without totals makes total, FORC_NH and FORC_SH all equal to the row sum; with only hemispheric columns the total is undefined in every year; the precomputed aerosol weight always lies in [0,1], is 0 for rows without forcing and independent of column order.", "quantifier": "all tables", "why_tests_cant": "All column sets.", "anchors": ["/repo/src/ciceroscm/input_handler.py:read_forc"]}
{"id": "C58", "title": "Reading input files cuts exactly to the run window", "statement": "With consecutive years, cutting keeps exactly the rows of years within [year_start, year_end] in order with unchanged values; missing configured files raise FileNotFoundError except for natural emission files which are redirected.", "quantifier": "all frames and windows", "why_tests_cant": "All windows relative to the data.", "anchors": ["/repo/src/ciceroscm/input_handler.py:read_inputfile", "/repo/src/ciceroscm/input_handler.py:check_inputfiles"]}
{"id": "C59", "title": "Unit compatibility check", "statement": "Construction raises ValueError exactly when the gas table's species are all in the emissions header with a unit mismatch, or (when not skipped) the common species of the concentration header have a unit mismatch; when any species is missing from the emissions header no unit check at all is made, not even of the concentrations.", "quantifier": "all headers and gas tables", "why_tests_cant": "All tables.", "anchors": ["/repo/src/ciceroscm/input_handler.py:InputHandler._check_gaspam_compatibility"]}
{"id": "C60", "title": "Chlorine count follows the rule of 90", "statement": "For every (H)CFC name whose digits encode a saturated or unsaturated molecule with given numbers of C, H, F atoms in the standard numbering, the function returns the number of chlorine atoms; isomer letters and underscores between digits do not matter.", "quantifier": "all molecules (C,H,F,double bonds) with one-digit entries", "why_tests_cant": "All encodable molecules.", "anchors": ["/repo/src/ciceroscm/pub_utils.py:find_num_cl_in_hcfc"]}
{"id": "C61", "title": "Halogen dictionaries classify every name at most once", "statement": "make_cl_and_br_dictionaries assigns each tracer to the first matching family; halon names yield digit 3 chlorine (if positive) and digit 4 bromine atoms; a name with both Cl and Br in plain formula gets only chlorine; names with no marker appear in neither.", "quantifier": "all lists of names", "why_tests_cant": "All strings.", "anchors": ["/repo/src/ciceroscm/pub_utils.py:make_cl_and_br_dictionaries"]}
{"id": "C62", "title": "Parallel work list is an exact partition", "statement": "The work list built by run_ciceroscm_parallel contains each (scenario, configuration) pair exactly once, scenario-major in order, for every positive number of workers; batch size is never zero.", "quantifier": "all scenario and configuration lists and worker counts", "why_tests_cant": "All sizes.", "anchors": ["/repo/src/ciceroscm/parallel/cscmparwrapper.py:run_ciceroscm_parallel"]}
{"id": "C63", "title": "Parallel processing preserves order for every completion schedule", "statement": "With a pool, results come back in configuration order for every order in which jobs complete, and if any job fails an exception of a failing job is raised; without a pool and with front_serial > 0 the result is rotated (rest first).", "quantifier": "all configurations, completion orders, failure sets, front sizes", "why_tests_cant": "All schedules.", "anchors": ["/repo/src/ciceroscm/parallel/_parallel_process.py:_parallel_process", "/repo/src/ciceroscm/parallel/_parallel_process.py:_run_parallel"]}
{"id": "C64", "title": "Batching is invisible only for configurations that do not rely on each other", "statement": "Concatenated results over batches equal the results of one job per pair when the configurations do not rely on what another one left behind (forcing runs, or carbon sets that all give the same names and the start value of the preindustrial concentration); with partial carbon sets, and even with complete ones that differ in the preindustrial concentration, different worker counts give different results. A failing job ends the call: with several workers the exception is that of the failing job that completes first, with one worker that of the first failing job of the list.", "quantifier": "all batchings and configuration lists", "why_tests_cant": "All partitions of work.", "anchors": ["/repo/src/ciceroscm/parallel/cscmparwrapper.py:run_ciceroscm_parallel", "/repo/src/ciceroscm/parallel/cscmparwrapper.py:CSCMParWrapper.run_over_cfgs", "/repo/src/ciceroscm/carbon_cycle/carbon_cycle_mod.py:CarbonCycleModel.reset_co2_hold"]}
{"id": "C65", "title": "Configuration chunking partitions samples with unique ids", "statement": "make_config_lists returns chunks whose concatenation covers each sample exactly once in order, each chunk no longer than max_chunk_size, and all Index strings are pairwise distinct.", "quantifier": "all sample counts, chunk sizes, prefixes", "why_tests_cant": "All sizes; injectivity of string formatting.", "anchors": ["/repo/src/ciceroscm/parallel/_configdistro.py:_ConfigDistro.make_config_lists", "/repo/src/ciceroscm/parallel/_configdistro.py:_ConfigDistro.make_single_config_list"]}
{"id": "C66", "title": "Parameters are routed to exactly one parameter set", "statement": "Each sampled parameter of a configuration ends up in exactly one of the thermal, emission and carbon sets (none, if a forcing distribution and not thermal); fixed values of decay coefficients are routed to the emission set where they have no effect while sampled ones are routed to the carbon set.", "quantifier": "all parameter names and distributions", "why_tests_cant": "All names.", "anchors": ["/repo/src/ciceroscm/parallel/_configdistro.py:_ConfigDistro._set_pamsets_start", "/repo/src/ciceroscm/parallel/_configdistro.py:_ConfigDistro.make_single_config_list"]}
{"id": "C67", "title": "Configuration files round-trip except metadata", "statement": "Writing configurations to JSON and constructing a run from that file gives the same configurations; metadata read from a file is lost when rewritten without passing it again. A list that cannot be written ends the writing: later files stay as they were. Without a file the generated list is taken; generated chunks are no list of configurations.", "quantifier": "all configuration lists and metadata", "why_tests_cant": "All values.", "anchors": ["/repo/src/ciceroscm/parallel/distributionrun.py:DistributionRun.__init__", "/repo/src/ciceroscm/parallel/distributionrun.py:DistributionRun.write_configs_to_json"]}
{"id": "C68", "title": "Latin samples respect their bounds", "statement": "Scaling unit samples by the prior keeps each parameter within its prior interval, monotone in the unit sample, and the Gaussian option uses mean and half width such that prior ends are one standard deviation from the mean.", "quantifier": "all priors and unit samples", "why_tests_cant": "All reals.", "anchors": ["/repo/src/ciceroscm/parallel/_configdistro.py:_ConfigDistro.get_samples_from_distro_latin", "/repo/src/ciceroscm/parallel/_configdistro.py:_ConfigDistro.get_samples_from_distro_gaussian"]}
{"id": "C69", "title": "Aerosol forcing variable reports only direct sulfate", "statement": "The timeseries returned for total aerosol forcing and for aerosol-radiation interactions equals the direct sulfate forcing alone, for all results frames.", "quantifier": "all forcing frames", "why_tests_cant": "Substring matching over the whole name table for all data.", "anchors": ["/repo/src/ciceroscm/formattingtools/reformat_cscm_results.py:get_data_from_forc_common", "/repo/src/ciceroscm/formattingtools/reformat_cscm_results.py:CSCMREADER"]}
{"id": "C70", "title": "Greenhouse-gas and F-gas sums", "statement": "The F-gas and GHG variables are the sums over exactly the listed gases that are columns of the frame, missing gases count as zero; GHG minus Fgas is the sum over Montreal gases and the six others.", "quantifier": "all frames", "why_tests_cant": "All column subsets.", "anchors": ["/repo/src/ciceroscm/formattingtools/reformat_cscm_results.py:get_data_from_forc_common"]}
{"id": "C71", "title": "Carbon pools are cumulated fluxes and fluxes balance", "statement": "Reported carbon pools are running sums of reported fluxes (differences give back the flux) and net flux to atmosphere is minus the sum of land and ocean flux in every year.", "quantifier": "all flux series", "why_tests_cant": "All lengths.", "anchors": ["/repo/src/ciceroscm/formattingtools/reformat_cscm_results.py:get_carbon_cycle_outputs"]}
{"id": "C72", "title": "Variable names map injectively to gases within a category", "statement": "Within forcing F-gases, forcing Montreal gases and their concentration counterparts, different gases have different variable names and each documented variable maps to its own gas; unknown variable names yield NoUnit and an empty series rather than another variable's data.", "quantifier": "all variable name strings", "why_tests_cant": "All strings.", "anchors": ["/repo/src/ciceroscm/formattingtools/reformat_cscm_results.py:fgas_transform", "/repo/src/ciceroscm/formattingtools/reformat_cscm_results.py:montreal_transform", "/repo/src/ciceroscm/formattingtools/reformat_cscm_results.py:CSCMREADER.get_variable_timeseries"]}
{"id": "C73", "title": "Component, unit and concentration-unit lists stay aligned", "statement": "For every gas table the three lists of the scenario writer have equal length and the unit found at a component's index is that component's own unit, also after insertion of the land-use entry; rows marked X are skipped in all lists (file variant).", "quantifier": "all gas tables", "why_tests_cant": "All tables.", "anchors": ["/repo/src/ciceroscm/formattingtools/reformat_inputdata_to_cscm_format.py:COMMONSFILEWRITER"]}
{"id": "C74", "title": "Forcing result frame: first column is not the year", "statement": "The forcing frame returned/written by a run contains each component column exactly once plus Year, but its first column is the last precalculated component (stratospheric ozone) rather than Year; the emission frame starts with Year, CO2 and the concentration frame starts with Year.", "quantifier": "all gas tables", "why_tests_cant": "All column sets.", "anchors": ["/repo/src/ciceroscm/concentrations_emissions_handler.py:ConcentrationsEmissionsHandler.add_results_to_dict"]}
{"id": "C75", "title": "A decay function marked 'missing' always aborts, it is never taken out", "statement": "Removing entries whose value is the string 'missing' from a carbon parameter set either returns the set unchanged (no such entry) or raises RuntimeError (at least one such entry); there is no parameter set from which an entry is actually removed.", "quantifier": "all parameter dictionaries", "why_tests_cant": "All dictionaries, positions and counts of marked entries.", "anchors": ["/repo/src/ciceroscm/carbon_cycle/common_carbon_cycle_functions.py:take_out_missing"]}
{"id": "C76", "title": "A year run again without a reset starts from the old ocean pressure", "statement": "The first step of a run does not clear the ocean partial pressure kept in the object: with zero emissions the first step gives the pre-industrial concentration plus half of the pressure left by whatever ran before, so repeating a run or a back-calculation on one object without reset_co2_hold changes the result.", "quantifier": "all parameters and all states left behind", "why_tests_cant": "All leftover states.", "anchors": ["/repo/src/ciceroscm/carbon_cycle/carbon_cycle_mod.py:CarbonCycleModel.co2em2conc", "/repo/src/ciceroscm/carbon_cycle/carbon_cycle_abstract.py:AbstractCarbonCycleModel.back_calculate_emissions"]}
{"id": "C77", "title": "Every computed forcing component has its documented value", "statement": "After a year's forcing calculation each component's entry, less the perturbations of the year, is: the Etminan expression times its factor for CO2, N2O and CH4; the land-use input for LANDUSE; emission change times efficiency (or times the global factor of its emission column when the efficiency is zero) for aerosol-like components; concentration change times efficiency times factor for other gases with an efficiency; the water-vapour factor times methane's forcing for STRAT_H2O, before any perturbation of methane.", "quantifier": "all inputs, gas tables, component orders and perturbation tables", "why_tests_cant": "Holds for every component table and order; a test fixes one table.", "anchors": ["/repo/src/ciceroscm/concentrations_emissions_handler.py:ConcentrationsEmissionsHandler.conc2forc", "/repo/src/ciceroscm/concentrations_emissions_handler.py:ConcentrationsEmissionsHandler.calculate_forc_three_main", "/repo/src/ciceroscm/concentrations_emissions_handler.py:ConcentrationsEmissionsHandler.calc_aerosol_forcing"]}
{"id": "C78", "title": "Feedback lists a carbon cycle may return are usable in a run", "statement": "A carbon cycle may answer None or any list of thermal variables when asked for its feedback variables. The run executes all years (a variable the thermal model does not return is passed as 0); it then delivers results if and only if the list is not None and every variable on it is the value of an entry of the thermal model's output dictionary: with None it ends in TypeError, with a variable such as the two-layer model's dtemp_sea, which is computed but not an output, in IndexError.", "quantifier": "all feedback lists, thermal models, handlers and inputs", "why_tests_cant": "Ranges over all carbon cycles that could be plugged in; the shipped ones all use dtemp.", "anchors": ["/repo/src/ciceroscm/ciceroscm.py:CICEROSCM._run", "/repo/src/ciceroscm/carbon_cycle/carbon_cycle_abstract.py:AbstractCarbonCycleModel.get_feedback_list", "/repo/src/ciceroscm/pub_utils.py:get_first_key"]}
{"id": "C79", "title": "In an emission run CO2 follows the carbon cycle driven by its own emissions and last year's temperature", "statement": "In every completed emission run with the default carbon cycle, the CO2 concentration of every year is that year's output of the stand-alone carbon cycle driven from the first year on by the fossil plus land-use plus natural emissions of each year and by the global temperature of the previous year (0 in the first), also before the year in which emissions take over for the other gases; no other gas, forcing or output enters.", "quantifier": "all inputs, parameters, gas tables and run lengths", "why_tests_cant": "Relates the whole coupled loop (driver, handler, carbon cycle, thermal model) to one component run by itself, for every input.", "anchors": ["/repo/src/ciceroscm/ciceroscm.py:CICEROSCM._run", "/repo/src/ciceroscm/concentrations_emissions_handler.py:ConcentrationsEmissionsHandler.emi2conc", "/repo/src/ciceroscm/carbon_cycle/carbon_cycle_mod.py:CarbonCycleModel.co2em2conc"]}
{"id": "C80", "title": "Natural emissions", "statement": "A natural emissions file must hold exactly one value for each of the years 1750-2500, whatever the run's years are, else ValueError; the value of year y is the (y-1750)-th. With neither file nor data, the gas table's constant is used for every year of the run.", "quantifier": "all files, gas tables and configurations", "why_tests_cant": "All lengths and years.", "anchors": ["/repo/src/ciceroscm/input_handler.py:read_natural_emissions", "/repo/src/ciceroscm/input_handler.py:InputHandler.get_flat_natural_emissions"]}
{"id": "C81", "title": "Regional aerosol rows differ from the global row in the efficiency only", "statement": "Extending a gas table by regional aerosols adds, for each aerosol and region, a row equal to the aerosol's global row except that ALPHA is the region's forcing times the unit factor; every other row is unchanged; the new names are pairwise different when region keys contain no underscore (the default mapping); a missing aerosol row or region value is a KeyError.", "quantifier": "all gas tables, forcing tables and mappings", "why_tests_cant": "Ranges over all tables and mappings; the row object is reused and overwritten between regions, which an example with one region would not notice.", "anchors": ["/repo/src/ciceroscm/pub_utils.py:make_regional_aerosol_gaspamdata"]}
{"id": "C82", "title": "Total forcing variable adds volcanic mean and solar", "statement": "The variable for total effective radiative forcing is, year by year, the anthropogenic total of the forcing frame plus the mean of the two hemispheric volcanic forcings plus the solar forcing, and is reported only if all four series have the length of the reader's window.", "quantifier": "all results and reader windows", "why_tests_cant": "All lengths and values, including mismatched windows.", "anchors": ["/repo/src/ciceroscm/formattingtools/reformat_cscm_results.py:CSCMREADER.get_data_from_forc", "/repo/src/ciceroscm/formattingtools/reformat_cscm_results.py:CSCMREADER.get_volc_forcing"]}
{"id": "C83", "title": "The reported total forcing is the sum of the reported components in every completed run", "statement": "In every completed emission or concentration run with no single component selected and no forcing perturbation naming the total, the Total_forcing array of the results, and the Total_forcing column of the forcing frame, agree entry by entry, have one entry per year, and equal in every row the sum of all other columns of that frame except the year; solar and volcanic forcing are not part of it. This holds with either carbon cycle.", "quantifier": "all inputs, parameters, gas tables, thermal models and run lengths", "why_tests_cant": "Relates two outputs produced by different code (driver arrays and handler frames) for all inputs and run lengths.", "anchors": ["/repo/src/ciceroscm/ciceroscm.py:CICEROSCM._run", "/repo/src/ciceroscm/concentrations_emissions_handler.py:ConcentrationsEmissionsHandler.conc2forc", "/repo/src/ciceroscm/concentrations_emissions_handler.py:ConcentrationsEmissionsHandler.add_results_to_dict"]}
{"id": "C84", "title": "Carbon balance of the reported columns", "statement": "In every completed emission run that delivers carbon cycle outputs, the rise of the reported CO2 concentration (as carbon) plus the sums of the reported biosphere and ocean flux columns minus the sum of fossil, land-use and natural emissions is exactly the time-stepping error of the carbon cycle scheme (half-step terms of the first and last sub-yearly step), for any temperatures.", "quantifier": "all inputs, parameters, thermal models and run lengths", "why_tests_cant": "An identity over the whole run for all inputs; the size of the error depends on the scheme, so tests can only compare with stored numbers.", "anchors": ["/repo/src/ciceroscm/ciceroscm.py:CICEROSCM._run", "/repo/src/ciceroscm/concentrations_emissions_handler.py:ConcentrationsEmissionsHandler.add_results_to_dict", "/repo/src/ciceroscm/carbon_cycle/carbon_cycle_mod.py:CarbonCycleModel.get_carbon_cycle_output"]}
{"id": "C85", "title": "Outputs up to a year need inputs up to that year only", "statement": "Two completed runs whose parameters are equal and whose emissions, concentrations, natural emissions, perturbations, solar, volcanic and land-use series agree up to some year report the same temperatures, heat uptake and other series, the same forcing columns and the same concentrations up to that year, whatever follows - provided they also agree on the ozone precursor emissions and the methane concentration of the ozone reference year and, for the TAR methane lifetime, on the precursor emissions of the year 2000. The exception is real: ozone before the reference year changes with inputs of the reference year.", "quantifier": "all pairs of scenarios, all years, thermal models, parameters and numbers", "why_tests_cant": "A relation between pairs of runs with arbitrary futures; tests run single scenarios and never vary the inputs of later years.", "anchors": ["/repo/src/ciceroscm/ciceroscm.py:CICEROSCM._run", "/repo/src/ciceroscm/concentrations_emissions_handler.py:ConcentrationsEmissionsHandler._precalculate_vanilla_gases", "/repo/src/ciceroscm/concentrations_emissions_handler.py:ConcentrationsEmissionsHandler.emi2conc", "/repo/src/ciceroscm/concentrations_emissions_handler.py:ConcentrationsEmissionsHandler.conc2forc", "/repo/src/ciceroscm/concentrations_emissions_handler.py:ConcentrationsEmissionsHandler.add_results_to_dict"]}
{"id": "C86", "title": "Every plotted column gets exactly one panel", "statement": "The plots of a result frame show every column after the first that has a unit (emissions, concentrations) or is not one of six names (forcing) exactly once and in the order of the frame: sixteen in each of the first two pictures, all others in the third, four to a row, no panel used twice and none outside the grid. With 33 to 36 such columns the third picture has a single row and the call ends in an IndexError after the second one.", "quantifier": "all frames with any number of columns, all unit tables, all three kinds of frames", "why_tests_cant": "The plotting tests check that files exist for the package's own gas list; numbers of columns around the page boundaries do not occur.", "anchors": ["/repo/src/ciceroscm/make_plots.py:plot_output2"]}
{"id": "C87", "title": "The forcing plots show the year as a component and leave one component out", "statement": "Since the first column of the forcing frame is a component and not the year, the forcing plots of an emission run have a panel for the column Year and none for the last precalculated component.", "quantifier": "all gas tables, all runs with at least one precalculated component", "why_tests_cant": "Nobody looks at the pictures in a test; the defect is the composition of the column order of one module with the convention of another.", "anchors": ["/repo/src/ciceroscm/make_plots.py:plot_output2", "/repo/src/ciceroscm/concentrations_emissions_handler.py:ConcentrationsEmissionsHandler.add_results_to_dict"]}
{"id": "C88", "title": "Plotting a completed run", "statement": "With the upwelling-diffusion model a completed run can always be plotted: the three pictures show the result arrays. With the two-layer model a completed run ends in a KeyError after the first picture, before the frames of the handler are added to the results. Without an output folder plotting is skipped and changes nothing.", "quantifier": "all runs, handlers, parameters and numbers", "why_tests_cant": "Plotting is tested with one thermal model; that the other one loses its results needs the names of both.", "anchors": ["/repo/src/ciceroscm/make_plots.py:plot_output1", "/repo/src/ciceroscm/ciceroscm.py:CICEROSCM._run"]}
{"id": "C89", "title": "Equilibrium and bounds of the upwelling-diffusion model", "statement": "With constant upwelling and efficacy 1, a column in which the share of the surface warming falls from layer to layer towards the polar sinking share is an exact steady state of every monthly step: with forcing f and volcanic forcing v, all reported temperatures stay at (f+v) over the feedback and the imbalance is zero. A run from rest whose forcings and eruptions stay in given ranges around zero keeps all temperatures (air, sea, blended, every layer) between the equilibria of the extremes.", "quantifier": "all admissible and stable parameters, all layer and sub-step counts, all forcing sequences in the ranges, all years", "why_tests_cant": "An equilibrium takes thousands of simulated years to reach, and bounds over all forcing histories cannot be sampled.", "anchors": ["/repo/src/ciceroscm/thermal_model/upwelling_diffusion_model.py:UpwellingDiffusionModel.energy_budget", "/repo/src/ciceroscm/thermal_model/upwelling_diffusion_model.py:UpwellingDiffusionModel.coeff"]}
{"id": "C90", "title": "Climate sensitivity of the upwelling-diffusion model", "statement": "Under constant nonnegative forcing from rest the warming tends to lambda times the forcing, independent of mixed layer depth, diffusivity, upwelling, number of layers and sub-steps; after n years the distance is at most an explicit constant (the heat of the equilibrium column) divided by n and the limit is never exceeded.", "quantifier": "all admissible and stable parameters with constant upwelling, efficacy 1 and no air exchange between the hemispheres; all constant forcings, all years", "why_tests_cant": "A limit for an infinite number of years cannot be tested.", "anchors": ["/repo/src/ciceroscm/thermal_model/upwelling_diffusion_model.py:UpwellingDiffusionModel.energy_budget", "/repo/src/ciceroscm/thermal_model/upwelling_diffusion_model.py:UpwellingDiffusionModel.__init__"]}
{"id": "C91", "title": "What a run reports for a year does not depend on how long it goes on", "statement": "Two completed runs with the same parameters but different last years, whose inputs agree up to a year that both reach, report the same temperatures and other series, forcing columns and concentrations up to that year; the carbon cycle may use decay functions tabulated for different windows, or be the box model. With the default carbon cycle the fluxes and the other columns of its frame agree as well, in concentration runs also the emissions found by back-calculation (with the box model net primary production and ocean flux, in emission and in concentration runs), except for the airborne fraction, which a later year can take away from all years. The one other exception: a run that ends in (or before) the year in which emissions take over takes the ordinary gases of that year from the concentration file, a longer run computes them from emissions.", "quantifier": "all pairs of scenarios and last years, all years both reach, thermal models, parameters and numbers", "why_tests_cant": "A relation between runs of different lengths, where every array, decay table and precalculated column has another size; tests run one period. The exception needs a run ending exactly in the year emissions take over.", "anchors": ["/repo/src/ciceroscm/ciceroscm.py:CICEROSCM._run", "/repo/src/ciceroscm/concentrations_emissions_handler.py:ConcentrationsEmissionsHandler._precalculate_vanilla_gases", "/repo/src/ciceroscm/carbon_cycle/carbon_cycle_mod.py:CarbonCycleModel.precalc_r_functions", "/repo/src/ciceroscm/carbon_cycle/carbon_cycle_abstract.py:AbstractCarbonCycleModel.back_calculate_emissions"]}
{"id": "C92", "title": "The box carbon cycle is monotone in emissions, never falls below its preindustrial state and forgets all emissions", "statement": "Vegetation and soil stay nonnegative. More emissions in any years leave no pool and no yearly concentration smaller. With constant warming and nonnegative emissions the atmosphere, vegetation and soil stay at or above their state of rest and the total ocean uptake is at most what was emitted (plus the initial excess). Once emissions stop the atmosphere tends to 278 ppm, the land to its state of rest and the ocean holds all that was emitted.", "quantifier": "all parameters with turnover shares in [0,1] and an uptake that does not overshoot, all emission series, all years; limits over all years", "why_tests_cant": "An order between two unbounded runs and limits for infinite time; tests run a few years of one scenario.", "anchors": ["/repo/src/ciceroscm/carbon_cycle/carbon_cycle_mod_box.py:CarbonCycleModel.co2em2conc"]}
{"id": "C93", "title": "A run with the box carbon cycle reports its concentrations, and the fluxes of the following year", "statement": "In a completed emission run with the box model the CO2 column is that of the carbon cycle alone driven by the fossil, land-use and natural emissions of the year and the temperature of the year before; the reported production and ocean flux of a year are computed from the concentration and temperature of that year and are those acting in the next year, so the carbon balance of a year holds with the ocean column of the years before. The reader's land flux, land pool and net flux end in KeyError.", "quantifier": "all scenarios, thermal models, parameters and lengths of a run", "why_tests_cant": "A relation between the columns of a whole run with feedback from the thermal model; the package's tests only call the box model's functions by themselves.", "anchors": ["/repo/src/ciceroscm/carbon_cycle/carbon_cycle_mod_box.py:CarbonCycleModel.get_carbon_cycle_output", "/repo/src/ciceroscm/concentrations_emissions_handler.py:ConcentrationsEmissionsHandler.get_carbon_cycle_data", "/repo/src/ciceroscm/formattingtools/reformat_cscm_results.py:get_carbon_cycle_outputs"]}
{"id": "C94", "title": "Two-layer model: more forcing never means less warming", "statement": "If one run has at least the forcing of another in every year, starts at least as warm and has the same feedback, then its air temperature, layer temperatures and all heat contents are at least as large in every year. If forcing starts nonnegative and never falls, no reported temperature or heat content ever falls. A mixed layer too thin for the yearly step breaks this.", "quantifier": "all parameters that do not overshoot within a year, all forcing and volcanic series, all lengths", "why_tests_cant": "An order between all pairs of forcing series; tests compare a few runs.", "anchors": ["/repo/src/ciceroscm/thermal_model/two_layer_ocean.py:TwoLayerOceanModel.energy_budget"]}
{"id": "C95", "title": "The climate acts on nothing but CO2 and the forcings that depend on it", "statement": "Two completed runs with the same years and input tables, but any thermal models and parameters, any carbon cycles, any solar and volcanic forcing and any aerosol and ozone efficiencies: the reported emissions are the same, every concentration except CO2 is the same, and so is every forcing column except CO2, nitrous oxide (overlap with CO2), the total, components whose own efficiency differs and land use if its input differs. In concentration runs CO2 and nitrous oxide are the same too.", "quantifier": "all pairs of thermal models, carbon cycles, parameters, scenarios, tables and lengths of a run", "why_tests_cant": "A statement about the absence of influence for all parameter pairs and all columns; a test can only compare chosen pairs.", "anchors": ["/repo/src/ciceroscm/ciceroscm.py:CICEROSCM._run", "/repo/src/ciceroscm/concentrations_emissions_handler.py:ConcentrationsEmissionsHandler.emi2conc", "/repo/src/ciceroscm/concentrations_emissions_handler.py:ConcentrationsEmissionsHandler.conc2forc", "/repo/src/ciceroscm/concentrations_emissions_handler.py:ConcentrationsEmissionsHandler.add_results_to_dict"]}
{"id": "C96", "title": "A run on a used instance gives what it gives on a new one", "statement": "Whatever runs an instance has been through before, completed or ended by an exception, with whatever parameters: a run gives the same exception or none, the same files, the same arrays and the same frames as the same run on a new instance, although natural emissions of CH4 and N2O in the gas table and the temperature factors of the default carbon cycle are left over from earlier runs. Keys of earlier runs that the run does not produce stay. A completed run leaves in the gas table, as natural emissions of CH4 and N2O, those of the last year of the series it was given if that year has emissions, and otherwise the entry as it was. If the table is an object of the caller's, an instance built from it later without natural emissions of its own takes that last value for all its years.", "quantifier": "all histories of earlier runs, all scenarios, parameters, thermal models, both carbon cycles (and any that forgets the difference), dictionary or files", "why_tests_cant": "Quantifies over all histories; leftovers in mutable state only show for particular orders of runs, and tests rerun one instance with one parameter set.", "anchors": ["/repo/src/ciceroscm/ciceroscm.py:CICEROSCM._run", "/repo/src/ciceroscm/concentrations_emissions_handler.py:ConcentrationsEmissionsHandler.reset_with_new_pams", "/repo/src/ciceroscm/carbon_cycle/carbon_cycle_mod.py:CarbonCycleModel.reset_co2_hold"]}
{"id": "C97", "title": "The files of a run hold what the dictionary of the same run holds", "statement": "An emission or concentration run writing files ends in the same exception or none as the same run returning a dictionary, if the thermal model has an output for every file column. If it ends well it writes em, conc, forc, with carbon output carbon twice, then ohc, rib, temp and sunvolc, and every column of every file is the column of the frame, or the array, that the dictionary run returns under the matching key. The upwelling-diffusion model has all columns, the two-layer model has not.", "quantifier": "all scenarios, tables, thermal models with all columns, carbon cycles, lengths of a run and earlier results", "why_tests_cant": "Two ways of running compared in every column for all inputs; tests look at the existence of files and a few values of one run.", "anchors": ["/repo/src/ciceroscm/ciceroscm.py:CICEROSCM._run", "/repo/src/ciceroscm/ciceroscm.py:CICEROSCM.write_data_to_file", "/repo/src/ciceroscm/concentrations_emissions_handler.py:ConcentrationsEmissionsHandler.write_output_to_files"]}
{"id": "C98", "title": "The number of workers of a parallel run does not change its numbers", "statement": "Take the whole chain from configurations to result rows with everything computed: parameters, gas handler, default carbon cycle, either ocean, results and their reformatting. If every single configuration of every scenario completes alone on a new instance, and the configurations do not rely on each other's leftovers (in forcing runs: whatever they are), then a parallel run with any number of workers and any order of completion returns exactly the rows of the single runs, in the order of scenarios and configurations. An instance that has run any configurations before gives, with the same parameters, exactly the results of a new one, and completes whenever that does.", "quantifier": "all input data, scenarios, configurations, variables, numbers of workers, completion orders, histories of an instance, arithmetic", "why_tests_cant": "Hidden state of an instance (gas table, carbon cycle, result dictionary, parameters) is reused between configurations of one batch; tests run one batching of one set and do not compare the numbers.", "anchors": ["/repo/src/ciceroscm/parallel/cscmparwrapper.py:run_ciceroscm_parallel", "/repo/src/ciceroscm/parallel/cscmparwrapper.py:CSCMParWrapper.run_over_cfgs", "/repo/src/ciceroscm/ciceroscm.py:CICEROSCM._run", "/repo/src/ciceroscm/concentrations_emissions_handler.py:ConcentrationsEmissionsHandler.reset_with_new_pams"]}
{"id": "C99", "title": "Every number of a run is the value given for it", "statement": "Each parameter of the computation - ocean, gas handler, carbon cycle, window, start concentration - is the value given under its own name, or the documented default where no number is given: for the ocean in this run's set, for the handler in this run's set (the component selected by just_one: the last one given in any run), for the carbon cycle in the last set of any run that gives it; regional aerosols switch off the global coefficient. The frames and series are those of the input, with perturbed emissions and forcing where configured. The results of a run, on an instance after any runs, are those of the computation with these numbers from a clean start.", "quantifier": "all input data, configurations, parameter sets, histories of an instance, both oceans, arithmetic", "why_tests_cant": "Some sixty parameters pass through several dictionaries with defaults, filters and resets; two swapped names or a lost value would change results only slightly, and tests compare single configurations with stored output.", "anchors": ["/repo/src/ciceroscm/ciceroscm.py:CICEROSCM._run", "/repo/src/ciceroscm/concentrations_emissions_handler.py:ConcentrationsEmissionsHandler.reset_with_new_pams", "/repo/src/ciceroscm/carbon_cycle/carbon_cycle_mod.py:CarbonCycleModel.reset_co2_hold", "/repo/src/ciceroscm/thermal_model/two_layer_ocean.py:TwoLayerOceanModel.__init__", "/repo/src/ciceroscm/thermal_model/upwelling_diffusion_model.py:UpwellingDiffusionModel.__init__"]}
{"id": "C100", "title": "Every number of a run with the box carbon cycle is the value given for it, and seven carbon numbers are all it reads", "statement": "With the box carbon cycle selected, the results of a run on an instance after any runs are those of the computation from a clean start in which each of seven carbon parameters is the last number given for it in any run, else its default, and ocean, handler, window and series are as in the default case. Two runs, on instances used in different ways, with the same ocean and handler sets, the same component for just_one and the same seven numbers give the same results, and one completes if the other does: the mixed layer depth, the preindustrial concentration of the input and decay functions have no effect, whenever they are given.", "quantifier": "all input data, configurations, parameter sets, pairs of histories of an instance, both oceans, arithmetic", "why_tests_cant": "Absence of an influence for all values and histories; tests of the box model call its functions by themselves and never vary the ignored parameters.", "anchors": ["/repo/src/ciceroscm/carbon_cycle/carbon_cycle_mod_box.py:CarbonCycleModel.reset_co2_hold", "/repo/src/ciceroscm/carbon_cycle/carbon_cycle_mod_box.py:CarbonCycleModel.carbon_cycle_model_required_pamset", "/repo/src/ciceroscm/carbon_cycle/carbon_cycle_abstract.py:AbstractCarbonCycleModel.reset_co2_hold", "/repo/src/ciceroscm/concentrations_emissions_handler.py:ConcentrationsEmissionsHandler.__init__"]}
{"id": "C101", "title": "Parallel runs over scenarios with different carbon cycles do not depend on the number of workers", "statement": "Scenarios may select the default or the box carbon cycle or be forcing runs, in any mixture. If every configuration completes alone on a new instance of every scenario, and the configurations do not rely on each other's leftovers (for the box carbon cycle: all or none give just_one, and each of the seven numbers it reads), a parallel run with any number of workers and any order of completion returns exactly the rows of the single runs, in the order of scenarios and configurations.", "quantifier": "all input data, scenarios, configurations, variables, numbers of workers, completion orders, arithmetic", "why_tests_cant": "All batchings and orders of all mixtures of models; tests run one batching with the default carbon cycle.", "anchors": ["/repo/src/ciceroscm/parallel/cscmparwrapper.py:run_ciceroscm_parallel", "/repo/src/ciceroscm/parallel/cscmparwrapper.py:CSCMParWrapper.run_over_cfgs", "/repo/src/ciceroscm/component_factory_functions.py:create_carbon_cycle_model", "/repo/src/ciceroscm/carbon_cycle/carbon_cycle_mod_box.py:CarbonCycleModel.reset_co2_hold"]}
{"id": "C102", "title": "An instance holds the content of its files for the years of the run", "statement": "Every input of an instance is what its source contains: the object or file of the configuration, else the default. A concentration or emission is found for a column and year exactly if the year lies in the run and the file has that cell, with the same number; the two emission columns of CO2 are the file's two columns named CO2. Volcanic, solar and land-use forcing of year y is row y - 1750 of the file, one for each year of the run. Inputs that are optional are there exactly if given.", "quantifier": "all configurations, files, columns, years, windows and numbers", "why_tests_cant": "Off-by-one errors in windows or a swapped column show only for particular years and files; tests read the files of the package with one or two windows.", "anchors": ["/repo/src/ciceroscm/input_handler.py:InputHandler.__init__", "/repo/src/ciceroscm/input_handler.py:InputHandler.get_data", "/repo/src/ciceroscm/input_handler.py:read_inputfile", "/repo/src/ciceroscm/input_handler.py:InputHandler.read_data_on_year_row", "/repo/src/ciceroscm/ciceroscm.py:CICEROSCM.__init__"]}
{"id": "C103", "title": "An object may stand in for a file", "statement": "If a configuration gives a file for an input and an instance can be made from it, the same configuration with an object equal to the file's content instead makes the same instance. Two conditions: solar and volcanic objects need the switch sunvolc, and the emission file must have a column with unit for every gas that has emissions. Without the second, a file is accepted whose replacement by the object is a ValueError, because a missing column ends the check of all units.", "quantifier": "all configurations, inputs, files, objects and numbers", "why_tests_cant": "Compares two ways of giving each of some ten inputs for all contents; tests use one kind for each.", "anchors": ["/repo/src/ciceroscm/input_handler.py:InputHandler.__init__", "/repo/src/ciceroscm/input_handler.py:InputHandler.get_data", "/repo/src/ciceroscm/input_handler.py:InputHandler._check_gaspam_compatibility", "/repo/src/ciceroscm/input_handler.py:InputHandler.read_emissions"]}
{"id": "C104", "title": "What files contain for years outside the run does not matter", "statement": "Two disks whose files differ only in the rows of years outside nystart to nyend (each file covering these years) give the same instance, or the same exception, for every configuration with that window.", "quantifier": "all pairs of disks, configurations, windows and numbers", "why_tests_cant": "Independence from data that tests never vary: a reader that looks one row too far or normalises over the whole file is only seen with two files.", "anchors": ["/repo/src/ciceroscm/input_handler.py:read_inputfile", "/repo/src/ciceroscm/input_handler.py:InputHandler.read_data_on_year_row", "/repo/src/ciceroscm/input_handler.py:InputHandler.get_data"]}
{"id": "C105", "title": "A run from files needs its reference years among its years", "statement": "If a run of an instance made from files completes, with either carbon cycle and after any earlier runs, its reference year (ref_yr of this run's handler set, else 2010) lies between nystart and nyend; if moreover some year of it is computed from emissions with the default lifetime of methane, the year 2000 does too. So a run over years without 2010 ends in an exception unless ref_yr is given.", "quantifier": "all configurations, files, windows, parameter sets, histories of an instance, arithmetic; gas tables in which tropospheric ozone has no concentration unit and zero alpha", "why_tests_cant": "Tests run windows that contain both years; the failure appears only at the first forcing calculation of other windows, though an instance can be made.", "anchors": ["/repo/src/ciceroscm/concentrations_emissions_handler.py:ConcentrationsEmissionsHandler.tropospheric_ozone_forcing", "/repo/src/ciceroscm/concentrations_emissions_handler.py:ConcentrationsEmissionsHandler.methane_lifetime", "/repo/src/ciceroscm/input_handler.py:InputHandler.read_emissions", "/repo/src/ciceroscm/input_handler.py:read_inputfile"]}
{"id": "C106", "title": "The carbon frame of a run: airborne share of the emissions so far", "statement": "The airborne fraction in year y of a run by emissions is (C(y) - preindustrial) * 2.123 divided by the sum of the fossil and land-use emissions of the years of the run up to y, and NaN where that sum is zero; mixed layer depth, solubility and net primary production of year y are those of the temperature of year y. In a run by concentrations the emissions are the back-calculated ones: driven by them, the carbon cycle comes back to the given concentrations within 1e-7 unless a search gave up, and the airborne fraction refers to these emissions and the given concentrations. The box carbon cycle reports the same share with 278 ppm as the start; in a run by concentrations it is not run at all, its pools stay as they were, and its frame has exactly net primary production and ocean flux, computed from the given concentration and the temperature of the year.", "quantifier": "all completed runs, emissions, concentrations, parameters and years, over the reals", "why_tests_cant": "The denominator is a running sum over all earlier years; a shifted or partial sum, swapped arguments or a wrong reference level are plausible curves in every plot.", "anchors": ["/repo/src/ciceroscm/carbon_cycle/common_carbon_cycle_functions.py:calculate_airborne_fraction", "/repo/src/ciceroscm/carbon_cycle/carbon_cycle_mod.py:CarbonCycleModel.get_carbon_cycle_output", "/repo/src/ciceroscm/concentrations_emissions_handler.py:ConcentrationsEmissionsHandler.get_carbon_cycle_data"]}
{"id": "C107", "title": "Rows of a job are the series of its runs with their labels", "statement": "If a job (one scenario, a list of configurations, a list of variables) completes, its runs were made one after the other on one instance of the scenario, and its rows are, for each configuration in turn and each known variable in turn, one row with the scenario's name, the configuration's index, the variable, its unit, and the value of each year of the variable's series after that run. Missing or unusable years of a scenario are 1750, 2100 and 1850. A job without any row fails. Temperatures have the years from nystart to nyend.", "quantifier": "all scenarios, configurations, variables, input data, arithmetic", "why_tests_cant": "Mixed-up rows (series of one run under the index of another, of one variable under the name of another) have the right shape; tests look at shapes and at single values.", "anchors": ["/repo/src/ciceroscm/parallel/cscmparwrapper.py:CSCMParWrapper.__init__", "/repo/src/ciceroscm/parallel/cscmparwrapper.py:CSCMParWrapper.run_over_cfgs", "/repo/src/ciceroscm/parallel/cscmparwrapper.py:_execute_run", "/repo/src/ciceroscm/formattingtools/reformat_cscm_results.py:CSCMREADER.get_variable_timeseries"]}
{"id": "C108", "title": "A run over a distribution does not depend on the number of workers", "statement": "Configurations made from one distribution, and the same configurations written to a file and read back, do not rely on each other: they give the same names. Hence, if each completes alone on a new instance, a run over the distribution returns the rows of these single runs in order, for one scenario or a list of scenarios, any number of workers and any order of completion, with either carbon cycle. The condition is that the preindustrial CO2 concentration is neither sampled nor fixed, as with the default prior and values.", "quantifier": "all priors, fixed values, samples, scenarios, input data, numbers of workers, completion orders, arithmetic", "why_tests_cant": "Reuse of one instance leaks parameters from one configuration to the next unless all configurations give the same names; this is a fact about every sample of every prior.", "anchors": ["/repo/src/ciceroscm/parallel/distributionrun.py:DistributionRun.run_over_distribution", "/repo/src/ciceroscm/parallel/_configdistro.py:_ConfigDistro.make_config_lists", "/repo/src/ciceroscm/parallel/_configdistro.py:_ConfigDistro.make_single_config_list", "/repo/src/ciceroscm/parallel/cscmparwrapper.py:run_ciceroscm_parallel"]}
{"id": "C109", "title": "More CO2 never means less forcing, temperature or heat", "statement": "Two completed runs over the same years that differ only in the concentration or the emissions of CO2 (with any carbon cycles): as long as CO2 is never lower in the second run, starts at the same value and stays within 1500 ppm of it, and N2O within 0 to 1000 ppb, the total forcing of each year is larger in the second run by at least 0.0004 W/m2 per ppm times the adjustment of CO2. With a two-layer ocean that does not overshoot, also global temperature, temperatures of both layers and all heat contents are nowhere lower up to that year. With an upwelling-diffusion ocean with constant upwelling and small steps, the same holds for the ground, air and sea temperatures of the globe and of both hemispheres and for the heat content above 700 m and in total.", "quantifier": "all pairs of scenarios, gas tables, carbon cycles, ocean parameters, years and series, over the reals", "why_tests_cant": "A relation between two whole runs with arbitrary series; the forcing formula of CO2 is not monotonic everywhere and N2O forcing falls with CO2, so no finite set of runs shows it.", "anchors": ["/repo/src/ciceroscm/concentrations_emissions_handler.py:ConcentrationsEmissionsHandler.conc2forc", "/repo/src/ciceroscm/concentrations_emissions_handler.py:ConcentrationsEmissionsHandler.calculate_forc_three_main", "/repo/src/ciceroscm/thermal_model/two_layer_ocean.py:TwoLayerOceanModel.energy_budget", "/repo/src/ciceroscm/ciceroscm.py:CICEROSCM._run"]}
{"id": "C110", "title": "More CO2 emissions never mean less CO2, forcing or warming", "statement": "Two completed emission runs with the box carbon cycle and the two-layer or the upwelling-diffusion ocean that differ only in CO2 emissions, never less in the second and the same in the first year: CO2, total forcing, all temperatures and heat contents are nowhere lower in the second, in any year, though the warming of each year changes the carbon uptake of the next. Conditions: land sensitivity zero, solubility not rising with warming, the ocean and the land take no more in a year than the excess, CO2 at or above 278 ppm and within the range of the forcing formula.", "quantifier": "all pairs of scenarios, gas tables, carbon and ocean parameters within the stated signs, numbers of years, over the reals", "why_tests_cant": "The coupled system feeds back on itself; the order of two runs has to be carried through both components over any number of years.", "anchors": ["/repo/src/ciceroscm/carbon_cycle/carbon_cycle_mod_box.py:CarbonCycleModel.co2em2conc", "/repo/src/ciceroscm/concentrations_emissions_handler.py:ConcentrationsEmissionsHandler.emi2conc", "/repo/src/ciceroscm/thermal_model/two_layer_ocean.py:TwoLayerOceanModel.energy_budget", "/repo/src/ciceroscm/thermal_model/upwelling_diffusion_model.py:UpwellingDiffusionModel.energy_budget", "/repo/src/ciceroscm/ciceroscm.py:CICEROSCM._run"]}
{"id": "C111", "title": "The built-in decay functions fall, stay positive and close", "statement": "For any number of steps per year the built-in response of the mixed layer is 1 at the pulse, falls strictly at all later times, also where the second formula replaces the first after two years (the drop there is between 0.000026 and 0.000028), stays above 0.022936 and tends to it. The built-in biotic decay is positive from 0.0001 years after the pulse on, and its integral over all time is between 0.99999 and 1 year times the steps per year. Hence the tables of a carbon cycle without given functions fall from 1 and are positive but for the first biotic value, -0.0000036.", "quantifier": "all times, numbers of steps per year (tables: up to 10000) and of years, over the reals", "why_tests_cant": "Eleven rounded coefficients and nine time scales; a wrong digit or sign keeps all curves plausible. Monotony and the integral are statements over all times.", "anchors": ["/repo/src/ciceroscm/carbon_cycle/rfuns.py:rs_function", "/repo/src/ciceroscm/carbon_cycle/rfuns.py:rb_function", "/repo/src/ciceroscm/carbon_cycle/carbon_cycle_mod.py:CarbonCycleModel.precalc_r_functions"]}
{"id": "C112", "title": "A longer run from the same files repeats the shorter one", "statement": "Two instances made from the same files with configurations that differ only in the last year, first <= last <= last', after the same earlier runs and with the same parameters: all temperatures, heat contents and other series of the thermal model, the forcing and the concentrations agree in every year up to the shorter run's last year, and the series have one entry for each year of their own run. Either carbon cycle and either ocean. The same up to a year Y for two disks whose files agree from the first year to Y, whatever they say about later years and however long the runs are. Conditions: the files of concentrations and emissions have one row per year and all years and ordinary gases; the reference year, and 2000 with the default methane lifetime, are not after the last year; emissions start after the first year, and not in the shorter run's last year.", "quantifier": "all files, configurations, earlier runs, parameters, years, gas tables, arithmetic", "why_tests_cant": "Any step that looks ahead, sizes an array by the run's length, cuts a file at the wrong end or uses a mean over the run would break it for some length; tests run fixed lengths.", "anchors": ["/repo/src/ciceroscm/input_handler.py:InputHandler.get_data", "/repo/src/ciceroscm/input_handler.py:read_inputfile", "/repo/src/ciceroscm/input_handler.py:InputHandler.read_data_on_year_row", "/repo/src/ciceroscm/ciceroscm.py:CICEROSCM.__init__", "/repo/src/ciceroscm/ciceroscm.py:CICEROSCM._run", "/repo/src/ciceroscm/concentrations_emissions_handler.py:ConcentrationsEmissionsHandler.emi2conc"]}
