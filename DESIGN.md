# Machine-checked model of ciceroscm

Source under study: `/repo/src/ciceroscm` (python, pinned). The code is never run here; each Gallina
definition cites the file and lines it was transcribed from.

## 1. Trusted base

* Coq 8.16.1's kernel.
* For each property theorem, exactly what `Print Assumptions` prints below it in `Properties_*.v`.
  Theorems about bookkeeping, dictionaries, lists, strings, schedules are closed under the global
  context. Theorems about real arithmetic depend on the axioms of the standard library's `Reals`:
  `ClassicalDedekindReals.sig_forall_dec`, `ClassicalDedekindReals.sig_not_dec`,
  `FunctionalExtensionality.functional_extensionality_dep` (and `Classical_Prop.classic` where a
  standard-library lemma uses it). No other library's axioms, none of our own, no kernel check switched off.
* The transcription: the python code was read as text. The correspondence model/code is by reading only.

## 2. Modelling conventions

* Numbers. Numeric code is written once over a type class `Num A` (`Num.v`): operations `+ - * /`, `exp`,
  `ln`, `sqrt`, `pow`, comparisons, integer injection. Decimal literals of the source become exact
  fractions of integers. Theorems stated `forall A (N : Num A)` hold for every interpretation of the
  operations, in particular for IEEE doubles (they use no algebraic law). Theorems about `R` are about exact real
  arithmetic: rounding, overflow, NaN and infinities are not modelled there unless said otherwise.
* Python dictionaries: association lists in insertion order with unique string keys (`PyBase.v`).
* Python values: an inductive type with constructors for int, bool, float, numpy float64, numpy integer,
  str, None, and opaque objects (`PyBase.v`). `isinstance(x,(int,float))` is true of the first four.
* Exceptions are values (`PyBase.v`): `Ok a | Err exn`.
* pandas frames: columns as association lists name -> list of cells, with a list of years as index.
* numpy arrays: lists; index errors are explicit where the code can hit them.
* Mutation: functions return the new object; aliasing is modelled where the property is about it.
* Loops: `fold_left`, structural recursion, or recursion on fuel with an explicit out-of-fuel value.
* External calls (`solve_banded`, random generators, process pools, file system): solved
  systems are characterised by the equation they satisfy (or by an executable Thomas algorithm proved to satisfy it);
  pools by an arbitrary completion order; files by an abstract store.

## 3. Files

`PyBase.v` (python values, dictionaries, exceptions) with `PyBaseFacts.v`; `Num.v` (the arithmetic class and its
real and rational interpretations); `M_*.v` transcriptions of the code; `Spec_*.v` small independent specifications;
`P_*.v` proofs; `Properties_*.v` theorem statements closed by `exact`, each with `Print Assumptions` and an
`Example` showing that its hypotheses can be met or evaluating both sides on a concrete run.

| Layer | Model | Specification | Theorems |
|-------|-------|---------------|----------|
| parameters | `M_Utils M_Flat M_Pams` | `Spec_Pams` | `Properties_Pams` |
| two-layer ocean | `M_TwoLayer` | `Spec_TwoLayer Spec_TwoLayerRuns Spec_TwoLayerOrder` | `Properties_TwoLayer Properties_TwoLayerOrder` |
| upwelling-diffusion ocean | `M_UDM` | `Spec_UDM Spec_UDMRuns` | `Properties_UDM` |
| carbon cycles | `M_RFuns M_Carbon M_CarbonBack M_CarbonBox M_BoxRun` | `Spec_Carbon Spec_Box` | `Properties_Carbon Properties_Box` |
| gas concentrations | `M_Gas` | `Spec_Gas` | `Properties_Gas` |
| forcing | `M_Forcing` | `Spec_Forc` | `Properties_Forcing` |
| yearly loop | `M_Driver` | `Spec_Driver` | `Properties_Driver` |
| input | `M_Input` | `Spec_Input` | `Properties_Input` |
| names | `M_Names` | `Spec_Names` | `Properties_Names` |
| parallel runs | `M_Parallel` | `Spec_Parallel` | `Properties_Parallel` |
| the whole chain | `M_Whole` (puts the others together) | `Spec_Whole` | `Properties_Whole` |
| the numbers of a run | (`M_Whole`) | `Spec_Numbers` | `Properties_Numbers` |
| either carbon cycle in the whole chain | `M_WholeBox` | `Spec_WholeBox` | `Properties_WholeBox` |
| from files to an instance | `M_Reading` (with `M_Input`, `M_WholeBox`) | `Spec_Reading` | `Properties_Reading` |
| configuration distributions | `M_Distro` | `Spec_Distro` | `Properties_Distro` |
| runs over a distribution, rows of a job | `M_DistroRun` (with `M_Parallel`, `M_WholeBox`) | `Spec_DistroRun` | `Properties_DistroRun` |
| frame of the carbon cycle of a run | `M_Results`, `M_BoxRun` | `Spec_Share` | `Properties_Share` |
| two runs that differ in CO2 only | `M_Results`, `M_BoxRun`, `M_Gas`, `M_TwoLayer`, `M_CarbonBox` | `Spec_Warm` | `Properties_Warm` |
| two configurations that differ in the last year | `M_Reading`, `M_Input`, `M_WholeBox`, `M_Whole` | `Spec_Longer` | `Properties_Longer` |
| built-in decay functions | `M_RFuns` | `Spec_Decay` | `Properties_Decay` |
| result frames | `M_Results` | `Spec_Results` | `Properties_Results` |
| whole runs | `M_Results` (with `M_Driver`, `M_Carbon`) | `Spec_Coupled Spec_Span Spec_Climate Spec_Rerun Spec_Files` | `Properties_Coupled Properties_Span Properties_Climate Properties_Rerun Properties_Natural Properties_Files` |
| result variables and unit tables | `M_Reader` | `Spec_Reader` | `Properties_Reader` |
| plots | `M_Plots` | `Spec_Plots` | `Properties_Plots` |

## 4. Plan per property

| Id | Modelled | Proof |
|----|----------|-------|
| C01 | `_utils.py` 10-112 on dictionaries with python values | lookup characterisation by induction over the dictionaries |
| C02 | `_utils.py` 115-151 | lookup characterisation, key list preserved, idempotence |
| C03 | value typing, `check_numeric_pamset` | case analysis + corollary of C01 |
| C04 | `check_pamset_consistency`, `reset_with_new_pams` | invariant over all rerun lists |
| C05 | same, with `check_pamset` and `just_one` | history independence lemma per key, fold characterisation for just_one |
| C06 | `reset_co2_hold` parameter part | fold of overrides characterised by "last set value" |
| C07 | parameter path cfg -> handler -> carbon model constructor | non-interference (two configurations) |
| C08 | factories | case analysis over all strings |
| C09-C15 | `two_layer_ocean.py` complete (energy budget, feedback, init) | field/lra identities, induction over years, contraction in a weighted sup norm |
| C16-C24 | `upwelling_diffusion_model.py`: coefficients, right-hand sides, sub-step loop, outputs; `solve_banded` = Thomas algorithm | induction over layers (column sums, M-matrix), over sub-steps and years |
| C25-C27,C34 | `carbon_cycle_mod.py` `co2em2conc`, partial pressure, hold handling | induction over steps; arrays as functions/lists with write-before-read argument for replay |
| C28,C29 | `carbon_cycle_abstract.py` bisection | loop invariant on fuelled loop; case analysis |
| C30,C31 | feedback functions, polynomial | real analysis (monotonicity of exp/ln, derivatives) |
| C32,C33 | `rfuns.py` | sums over lists; derivative/antiderivative; string keys |
| C35 | `carbon_cycle_mod_box.py` | field identity, induction |
| C36 | `calculate_airborne_fraction` | induction over series |
| C37,C38 | `emi2conc` inner formula and vectorised version | uniqueness of the linear ODE by derivative of `c*exp(qt)`; order lemmas |
| C39 | window logic of `_precalculate_concentrations_vanilla_gases`, `emi2conc`, `fill_one_row_conc` | list/index reasoning over Z years |
| C40-C42 | `methane_lifetime`, strat/trop ozone | case analysis, dependency lemmas |
| C43-C46,C48,C50 | `conc2forc`, `add_forcing_pert`, aerosol forcing | sum over component lists, invariant of the accumulating loop |
| C47 | `calculate_forc_three_main` | derivative sign |
| C49 | `perturb_emissions` | fold over rows, frame condition |
| C51-C54 | `ciceroscm.py` run loop, output arrays, writer | 2-run relation by induction over years |
| C55-C59 | `input_handler.py` | case analysis; list reasoning |
| C60,C61 | `pub_utils.py` | digit arithmetic; string induction |
| C62-C64 | `cscmparwrapper.py`, `_parallel_process.py` | list partition, permutations as schedules |
| C65-C68 | `_configdistro.py`, `distributionrun.py` | list chunking, decimal printing injective |
| C69-C73 | formatting tools | finite tables lifted with `forallb_forall`, list algebra |
| C74 | `add_results_to_dict` column order | list reasoning |
| C75 | `take_out_missing` | case analysis |
| C76 | first step of the default carbon cycle | evaluation of one step on an arbitrary state |
| C77 | `conc2forc` component by component | loop invariant relating each entry to its own turn |
| C79 | driver, handler and carbon cycle put together | run decomposed into years; each year's CO2 turn related to one step |
| C80 | `read_natural_emissions`, constant natural emissions | list reasoning; corollary of C55 |
| C81 | `make_regional_aerosol_gaspamdata` | induction over columns and regions; names by uniqueness of the last part |
| C82 | total forcing variable of the reader | list algebra |
| C83 | driver arrays and forcing frame of a run | calls of the run as a handler run (C44), columns by C74; for any carbon cycle |
| C84 | carbon columns of a run | C79 and the closure of the stand-alone cycle (C26) |
| C85 | two runs side by side | columns computed in advance agree row by row (induction on years; ozone is three years behind; of several perturbation rows of a year the last one stays); equal handler and thermal states up to the year by induction; later years leave earlier entries alone |
| C86-C88 | `make_plots.py` as lists of drawing steps: every step of a picture in order, the lines of every panel, what a missing unit, column or year ends in, failed runs | loop invariant over the component number; C74 for the columns, run decomposition for the results; a picture is cut in pages of nine panels (`P_Plots2.all_steps`) |
| C89, C90 | `upwelling_diffusion_model.py`, constant upwelling | the steady profile solves the rows of a sub-step, uniqueness of the tridiagonal solution; bounds by comparison (C19) with the steady runs; convergence from the heat budget (C17): bounded heat gain, monotone air temperature |
| C91 | runs of different lengths: `_run`, precalculated columns, `precalc_r_functions` | relation between the two handler states (`near`) kept year by year; the states of the two carbon cycles agree on the steps of the years compared; the relation between the two carbon cycles is a parameter of the proof (equality for the box model); years after the one compared leave the steps before it alone (`late_trace`), which gives the carbon frame; in a concentration run two searches on carbon cycles that answer alike find the same emissions (`guess_alike`), and searches of later years keep the earlier steps (`back_keeps`); the box model in concentration runs from its frame (C106) |
| C92 | `carbon_cycle_mod_box.py` `co2em2conc` | order kept by a year (production concave in the concentration); floor and limits from the carbon budget |
| C93 | `carbon_cycle_mod_box.py` `get_carbon_cycle_output`, runs with this carbon cycle, the reader | runs generic in the carbon cycle (`any_run`, of which `coupled_run` is an instance by computation), instantiated with the box model |
| C94 | `two_layer_ocean.py` `energy_budget` | a year keeps the order of states and forcings; a run compared with itself one year later |
| C95 | whole runs with any two thermal models and carbon cycles | relation between the two handler states (`blind`): equal outside CO2 and the forcing components the climate reaches, kept by every step of a year; then through the result frames |
| C96 | whole runs on an instance with any history of earlier runs (`earlier_runs`) | relation of the two handler states (`same_st`: equal up to natural emissions of CH4 and N2O) through every step, with equal exceptions (`rres`); the first call of the carbon cycle overwrites its temperature factors (`hold_same`) |
| C97 | the same run with files and with a dictionary | both ends of `run` compared after the same years; every array of the thermal model exists (`run_years_complete`) |
| C98 | the whole chain of the parallel wrapper with numbers (`M_Whole`: parameters, handler, default carbon cycle, both oceans, reader), for all batchings | C64's facts about parameters (`history_free`, `runs_on`), C96 for the state (`any_rerun`), a completed run has every key (`run_has`); numbers depend on parameters only up to python equality (`same_hpam`, `same_ccpam`) |
| C99 | every number a run computes with, by name and default (`Spec_Numbers` lists them independently of the model's required sets), after any runs on the instance | C04, C05, C06, C50 for the dictionaries after resets; `from_back` (C98) for the clean start; the frames precalculated at construction depend only on the window (`precalculate_same`) |
| C100 | instances with the box carbon cycle: the numbers of a run (`Spec_WholeBox` lists the seven names with defaults), and independence of everything else in the carbon sets | as C99 for scenario and ocean; C96 for the box cycle (`box_rerun`); the record field for the mixed layer depth is never read (`run_read`), handler numbers of two histories agree (`handler_two`) |
| C101 | the parallel wrapper over scenarios with either carbon cycle and forcing runs | C64's `c64_general`; one step on a used instance from C98 or C100 (`model_step`) |
| C102 | every input of an instance made from a configuration and a disk is the content of its source; emission, concentration, natural-emission, solar, volcanic, land-use and forcing values cell by cell, gas table and perturbations as they are in the file; the switch for a concentration run | C50's `source` for where an input comes from (`open_source`, `open_get`); the cut to the years of the run (`tidy_cut`), renaming of the CO2 columns (`rename_get`) |
| C103 | an object in the place of a file | the two dictionaries after initialisation agree except for the two keys (`c103_open`), the unit check of emissions passes by `all_gases_listed` (`chain_sim`) |
| C104 | two disks that agree for the years of the run | every reader gives the same on both (`years_same`, `rows_same`, `init_agree`) |
| C105 | completed runs of an instance made from files, with either carbon cycle, after any runs | C99 and C100 for the run with its numbers (they now also say that it completes); the calls of the handler year by year (`P_Needs.needs`); C102 for the cells |
| C106 | the frame of the carbon cycle after a completed run, with either carbon cycle, and the airborne fraction (`Spec_Share`) | C79, C83 for the concentrations and temperatures of a run; `share_is` for the running sum; C82 for the back-calculation; the box model keeps its state in a concentration run (`untouched`) |
| C107 | rows of a job of the parallel wrapper (`Spec_DistroRun`) | induction over configurations and variables (`cfg_rows_is`, `variable_rows_is`); C72 for temperatures |
| C108 | runs over a distribution of configurations | two samples give sets with the same names and numbers at the same places (`sim`), a relation that the collection of flat names keeps (`sim_flat`); C66 for the preindustrial concentration, C101 for the workers |
| C109 | two runs with any carbon cycles that differ in CO2 only: forcing, temperatures, heat content (`Spec_Warm`) | the two handlers agree but for CO2 after each year (`by_co2`, `two_traces`); the slope of the CO2 and N2O formulas (`co2_slope`, `n2o_change`, `rise`); order of the two-layer ocean (C12's `run_order`); both hemispheres change alike (`alike_halves`), so C19 orders the upwelling-diffusion ocean (`ud_order`) |
| C110 | two emission runs with the box carbon cycle and either ocean, warming fed back to the carbon cycle each year | induction over the years: CO2 ordered up to year k, by C109 temperatures up to year k, by `warm_rows` CO2 up to year k + 1 |
| C111 | the built-in decay functions and their tables (`Spec_Decay`) | bounds of exp by its alternating series (`exp_low`, `exp4`) for the values of both formulas at two years (`at_two`); explicit antiderivative of the biotic decay (`rb_total`) |
| C112 | two constructed instances whose configurations differ in `nyend` (`Spec_Longer`) | every input of the longer configuration has the source of the shorter one but for the window (`moved_source`); rows and cells up to the year, also of two disks (`c112_read`); numbers of both instances are the same (`same_value`), then the longer-run theorems of the coupled model, C91 (`c112_data`) |
| C78 | feedback list handling of the run loop | run decomposed into years and delivery |

## 5. Not modelled

Floating point rounding in the `R` theorems; pandas parsing of csv text; the look of plots (only which column goes to which panel and file); logging; numba compilation;
random number generation (only the scaling of samples); process pools beyond completion order; time, memory.

## 6. Findings

Behaviour of the code that a reader would not expect, each proved as a theorem.

* C03: a numpy integer is not accepted as a number by the parameter checks; an integer preindustrial
  concentration is lost, a float one is kept.
* C05, C06: some parameter sets start afresh at each run, others keep earlier overrides, so a partial set given to the
  second run of one object can depend on the first run (`C06_partial_set_depends_on_history`).
* C07: decay functions named in the configuration file never reach the carbon model.
* C14: the two-layer model counts the volcanic forcing twice, the upwelling-diffusion model once.
* C17: three different heat capacities of sea water are in use: the solver's 4121886.96, the heat content
  diagnostic's 1030*3997 = 4116910, and 4184000 J/(m3 K) for the anomalous radiation. Reported heat is 0.12 % below what the solver
  put in. With `efficacy <> 1` heat is not conserved; with `ebbeta <> 0` the solver's flux uses the other hemisphere's
  sea temperature of the previous sub-step.
* C20: the heat content above 700 m is right for mixed layers up to 700 m; between 700 and 800 m too
  shallow a layer is counted, from 800 m on a negative index makes the sum run to the sea floor.
* C23: the temperature dependence of the upwelling restarts from zero warming every year; with one sub-step per year
  `threstemp` has no effect.
* C26: the default carbon cycle does not conserve carbon exactly; the closure defect is given in the theorem (half a step
  of the first and last surplus and half the last change of ocean pressure).
* C30: the solubility factor falls with warming and multiplies the ocean pressure, so warming lowers the pressure of
  a given carbon content, opposite to the effect the name suggests.
* C32: the array check accepts time scales of zero, although its message says they must be positive.
* C34: the flux of the step before the current one has weight zero in the mixed-layer carbon.
* C36: a single year with zero cumulative emissions makes the whole airborne fraction series undefined.
* C76: repeating a run or a back-calculation without a reset starts from the old ocean pressure.
* C33: gaps in flat parameter numbering are closed silently, which pairs coefficients and time scales of different indices.
* C91: a run that ends in the year `emstart` takes the ordinary gases of that year from the concentration file, a longer run with the same
  files computes them from emissions, so the two differ in a year both cover (`C91_last_year`). The airborne fraction of earlier years becomes NaN
  when a longer run reaches a year in which the emissions so far sum to zero (`C91_airborne`).
* C39: when `emstart` equals `nyend`, ordinary gases are prescribed in that year while CH4 and N2O are computed; with
  `emstart` at or before `nystart` the lookup before the start raises IndexError. If the concentration table starts after `emstart`, negative slice
  bounds make later years stand in for the prescribed ones instead of an error.
* C40: the TAR lifetime can make the loss rate negative for large concentrations; methane then grows without emissions.
* C42: tropospheric ozone is not causal: emissions of the reference year change the forcing of earlier years.
* C44: a perturbation row that names `Total_forcing` changes the total but no component.
* C46: with a perturbation that cancels a component the aerosol weight exceeds 1.
* C47: CO2 forcing is negative from 6500 ppm above the start value on (quadratic term).
* C48: duplicate perturbation rows accumulate for computed components; for precalculated gases the last one wins.
* C49: emission perturbations change the caller's frame, so a second instance perturbs it twice.
* C50: regional names switch off the global factor only; a global species with its own efficiency still counts.
* C53: frames of an earlier run (e.g. `carbon cycle`) stay in the results of a later run that does not produce them.
* C54: with the two-layer model, writing the result files ends in KeyError `RIB_N`; an emission run has written the
  handler's files by then.
* C55: `rf_volc_file` and `rf_volc_data` are documented inputs but have no effect; with one hemisphere only and
  `sunvolc = 1` the other one is a KeyError; with `sunvolc = 0` data objects are replaced by zeros while files are used.
  The default volcanic forcing of the southern hemisphere is the file of the northern one.
* C56: a run that starts before 1750 gets the year-row data too late by the difference; default files end in 2500, and
  since the land-use default is read in every run, no run beyond 2500 is possible without its own land-use input.
* C57: a forcing table with both hemispheres but no total gets an undefined total in every year; one with a total but no
  hemispheres is read and stops the run with KeyError `FORC_NH`; a supplied `w_aero` column is added to the total;
  every column whose name begins with SO, BC, OC or BM counts as aerosol, `SOLAR` among them.
* C59: one gas missing from the emission file switches off all unit checks, those of concentrations too.
* C60: isomers with two letters (HCFC-225ca, HCFC-225cb) end in ValueError.
* C61: a plain formula with chlorine and bromine counts as chlorine only, and only the last group of an element counts:
  CH2ClCH2Cl has one chlorine atom.
* C80: a natural emissions file that covers exactly the run is refused unless the run is 1750-2500.
* C78: a carbon cycle whose feedback list is None, as the abstract class documents, or names a variable that is not an
  output (the two-layer model's `dtemp_sea`) loses the whole run to an exception after the last year.
* C63: with a pool the exception raised is that of the first failing job to complete, so it varies between machines; without
  a pool the results of the `front_serial` jobs come last. The exceptions that 88-90 would collect as values never are: the
  first failing job has ended the run before.
* C64: the number of workers changes results: a configuration with a partial carbon set inherits values of the configuration
  before it in the same batch, and the start CO2 concentration is always the preindustrial value of the configuration before.
* C65: a negative `max_chunk_size` gives an empty list without any error; if the file name does not contain `.json`, all
  chunks are written to the same file and only the last one stays.
* C66: fixed decay coefficients (`rb_...`, `rs_...` in `setvalues`) go to the emission set, where unknown names are dropped;
  `npp0`, which the default prior samples, is not a carbon cycle parameter and has no effect either.
* C67: metadata read from a file is lost when the object is written again without passing it; a value that cannot be
  written destroys the old file.
* C69: the aerosol forcing variables report direct sulfate only; the same function called with the module's table before any
  reader object exists (its constructor extends the shared table) reports zeros.
* C72: the name of the tropospheric ozone concentration ends in a stray quotation mark; asked for with a unit table read from a
  file, it is a ValueError since rows with unit X are skipped. `Anomalous Radiation` would be reported in K but is never among
  the results (KeyError); `dT_glob_air` and `dT_glob_sea` are missing with the two-layer model. Emission variables need
  the carbon cycle frame (KeyError `carbon cycle` without it).
* C71: `carbon_cycle_outputs` is tested by presence, so passing False computes the outputs all the same.
* C73: the unit tables from a file and from a frame differ: `TgCH4 / yr` and `Tg / yr`, `PgC / yr` and `Pg_C / yr`; the frame
  variant keeps rows with unit X and needs rows for biomass burning (KeyError).
* C74: the first column of the forcing frame is the last precalculated component instead of the year.
* C86: 33 to 36 plotted columns end in IndexError, the third picture is lost.
* C87: the forcing plots have a panel `Year` and lack the component that is the first column (stratospheric ozone in the default table).
* C88: a run of the two-layer model with plotting ends in KeyError `RIB_N` before the results of the handler are added.
* C92: the ocean uptake of the box model does not depend on what the ocean holds: once emissions stop the atmosphere returns to 278 ppm
  and all emitted carbon ends up in the ocean. The start is a state of rest only for the default turnover of vegetation and soil
  (`C92_start_needed`).
* C93: the production and ocean flux reported for a year are those that act in the next year. A concentration run has no airborne fraction
  column. The result reader raises KeyError `Biosphere carbon flux` for the land flux, the land pool and the net flux with the box model.
* C95: besides CO2 the climate acts on the forcing of nitrous oxide, through the overlap with CO2 (`C95_evaluated`).
* C96: a run leaves natural emissions of CH4 and N2O in the gas table and the temperature factors in the default carbon cycle, but every later run overwrites them before use (no defect). `o_handler` of the model does not include what the back-calculation of the carbon output does to the carbon cycle; the theorem therefore allows any state of it. What is left is the value of the last year (`C96_natural_left`). `get_data` (input_handler.py 461-499) hands out the object given as `gaspam_data` itself, and lines 795 and 798 of the handler write into it, so a later instance built from the same object without a series of natural emissions takes that last value as its flat natural emissions (input_handler.py 300-304, 386-389) and not the one of the table (`C96_table_handed_on`, `C96_handed_example`).
* C97: with "carbon_cycle_outputs" the carbon file is written twice with the same content; in a forcing run the file "forc" is the total forcing, in other runs the frame "forcing".
* C98: the finding of C64 shows in the numbers: with one worker a configuration without "beta_f" computes CO2 concentrations with the value of the configuration before it, with two workers with the default (`C98_not_self_contained`). Ocean parameters are not kept. `M_Whole` covers the default carbon cycle, `M_WholeBox` the box carbon cycle; reading the input is a parameter there (`M_Reading` puts the reader of `M_Input` in its place).
* C99: of a text given for "just_one" the last one in any run stays in force; the start concentration of a run is the preindustrial concentration of the runs before it, not the one just given (also C64). The window reaches the carbon cycle only as integers (`cn_years`).
* C100: "ocean_mixed_layer_depth" is accepted and checked but never read, and the concentration of the first year, which the handler passes on as preindustrial concentration, is dropped: a run with the box carbon cycle always starts at 278 ppm (`C100_seven_numbers`, `C100_evaluated`). As with the default cycle, a number given for one run stays in force in later runs of the instance.
* C103: the check of units reads the emission file again and only if every gas has a column there. With a file that lacks a column of any gas no unit is checked at all, so a wrong unit of a concentration goes unnoticed; with the same emissions given as an object it is a ValueError (`C103_units_hidden`). Solar and volcanic objects are dropped unless "sunvolc" is on (the hypothesis of `C103_file_or_object`).
* C105: emissions and concentrations are cut to the years of the run, but tropospheric ozone is computed relative to "ref_yr" (default 2010), and the default lifetime of methane relative to emissions of 2000 (a literal in the code). A run from files over years without 2010 ends in KeyError unless "ref_yr" is given, whether or not it is a concentration run; one without 2000 ends in KeyError unless another lifetime mode is given or no year uses emissions (`C105_example`). An instance can be made from such a configuration.
* C106: the airborne fraction refers to the emissions of the input, but the carbon cycle also receives natural emissions, so the fraction can exceed 1 (`C106_emission_example`). The emissions of a concentration run are back-calculated with the temperatures of the same year, while a run by emissions uses those of the year before; fed back into the model, they do not give the same run.
* C108: configurations of one distribution are safe for any number of workers, whereas configurations in general are not (C64). The exception is the preindustrial concentration, which is accepted in a prior (it is one of the names of the carbon set) and then reaches the start concentration of the next configuration in the same batch.
* C109, C110: the forcing formulas are increasing in CO2 only within a range (here 1500 ppm around the start, C47), and the N2O formula decreases with CO2, so the gas table must not adjust N2O more than ten times as much as CO2. The two-layer ocean must not overshoot and its feedback must not depend on aerosols (C12). The upwelling-diffusion ocean needs the same and constant upwelling (`threstemp` = 0, C19: the default, 7, lets upwelling fall with warming; no order is claimed for it); radiative imbalance is not ordered. In C110 the land sensitivity is zero: a positive one lowers production with warming, vegetation of the warmer run may then be smaller and its soil respire less in later years, so the order of the pools, and with it the induction, fails. The default values meet the other conditions.
* C111: the two formulas of the mixed-layer response differ by 0.000027 where one replaces the other, downwards, so the response still falls everywhere. The biotic decay is negative at the moment of the pulse (-0.0000036, C32), positive from 0.0001 years on, and returns 0.99999 of the pulse in total; the small rest stays in the biosphere for ever.
