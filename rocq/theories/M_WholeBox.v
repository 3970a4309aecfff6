(** * M_WholeBox: instances with the box carbon cycle, and with either carbon cycle, up to the rows of the parallel wrapper.

    Sources: /repo/src/ciceroscm/ciceroscm.py 73-332, concentrations_emissions_handler.py 162-217, 345-374,
    carbon_cycle/carbon_cycle_abstract.py 40-83, carbon_cycle/carbon_cycle_mod_box.py 19-52, 179-198,
    carbon_cycle/common_carbon_cycle_functions.py 86-127, component_factory_functions.py 13-37, parallel/cscmparwrapper.py 128-232. *)
From Verif Require Import PyBase Num M_Utils M_Flat M_Pams M_Gas M_Forcing M_RFuns M_Carbon M_CarbonBox M_TwoLayer M_UDM M_Driver M_Results M_BoxRun M_Names M_Reader M_Parallel M_Whole.

(** ** Parameters *)
(** carbon_cycle_mod_box.py 19-28 *)
Definition box_required : dict pyval :=
  [ ("beta_f", flt 287 1000); ("land_temp_sensitivity", flt 1 10); ("soil_respiration_rate", flt 2 100); ("ocean_mixed_layer_depth", flt 25 1);
    ("ocean_exchange_rate", flt 1 100); ("vegetation_to_soil_fraction", flt 1 10); ("ocean_solubility_base", flt 2 100);
    ("ocean_solubility_temp_coeff", flt (-1) 100) ].
(** carbon_cycle_mod_box.py 198 with carbon_cycle_abstract.py 62-83: the part of [reset_co2_hold] that concerns parameters *)
Definition box_reset (pam : dict pyval) (p : option (dict pyval)) : dict pyval := update_pam_if_numeric pam p (dkeys box_required).
Fixpoint box_resets (pam : dict pyval) (hist : list (option (dict pyval))) {struct hist} : dict pyval :=
  match hist with [] => pam | p :: r => box_resets (box_reset pam p) r end.
(** carbon_cycle_mod_box.py 30-52 with carbon_cycle_abstract.py 40-60. Flat names of decay functions are not collected here. *)
Definition box_carbon_init (emiconc : dict pyval) (carbon : option (dict pyval)) : result (dict pyval) :=
  do q <- carbon_cycle_init_pamsets emiconc carbon box_required None;
  let '(pamset, pc) := q in
  Ok (box_reset (dset (dupdate pamset pc) "years_tot" (years_tot_of pamset)) (Some pc)).
(** concentrations_emissions_handler.py 195-217: as [handler_carbon] of M_Pams *)
Definition handler_box (env : handler_env) (pamset pamset_carbon : option (dict pyval)) (preind : pyval) : result (dict pyval) :=
  let hp := dset (check_pamset pamset) "conc_run" (env_conc_run env) in
  let hp := match env_forc_pert env with Some o => dset hp "forc_pert" o | None => hp end in
  let hp := dset (dset hp "cl_dict" (env_cl env)) "br_dict" (env_br env) in
  let pc := dset (match pamset_carbon with None => [] | Some p => p end) "preindustrial_co2_conc" preind in
  do d <- box_carbon_init hp (Some pc);
  Ok (box_reset d (Some pc)).

Section WholeBox.
Context {A : Type} {N : Num A}.
Variables (nan : A) (number : pyfloat -> A) (float_of : A -> pyfloat).

(** The parameters as [co2em2conc] and the output read them. Number of steps and preindustrial concentration of the record are never read
    (M_CarbonBox), the mixed layer depth neither. *)
Definition box_pam_of (d : dict pyval) : result (box_pam A) :=
  do bf <- num_at number d "beta_f"; do ls <- num_at number d "land_temp_sensitivity"; do sr <- num_at number d "soil_respiration_rate";
  do ml <- num_at number d "ocean_mixed_layer_depth"; do ex <- num_at number d "ocean_exchange_rate";
  do vf <- num_at number d "vegetation_to_soil_fraction"; do sb <- num_at number d "ocean_solubility_base";
  do sc <- num_at number d "ocean_solubility_temp_coeff";
  Ok {| b_beta_f := bf; b_land_sens := ls; b_soil_rate := sr; b_mld := ml; b_exchange := ex; b_veg_frac := vf; b_sol_base := sb; b_sol_coeff := sc;
        b_idtm := 0; b_preind := #278%num |}.

(** ** The instance *)
(** [e_env], [e_pams], [e_carbon]: parameters of handler and carbon cycle; the rest as in M_Whole. The pools are set anew by every run
    (carbon_cycle_mod_box.py 193-197), so they need not be kept. *)
Record boxed := {
  e_env : handler_env; e_pams : dict pyval; e_carbon : dict pyval; e_thermal : thermal_class; e_inst : inst A; e_fixed : fixed A;
  e_gas : dict (gas A); e_results : results A }.
(** ciceroscm.py 73-141 with concentrations_emissions_handler.py 162-217, for a run other than a forcing run *)
Definition build_box (cfg : dict pyval) (x : data A) : result boxed :=
  do th <- driver_thermal cfg;
  do y0 <- whole_at (driver_cfg cfg) "nystart"; do y1 <- whole_at (driver_cfg cfg) "nyend";
  let env := env_of x in
  let pams := handler_init env (Some (driver_emiconc cfg)) in
  do emis <- match x_perturb_em x with None => Ok (x_emis x) | Some t => perturb_emissions t (x_emis x) end;
  do clbr <- make_cl_and_br_dictionaries (dkeys (x_gas x));
  do hp <- hpam_of number (fst clbr) (snd clbr) pams;
  do pre <- precalculate hp (x_gas x) (x_conc x) emis (x_perturb_forc x);
  do start <- fr_get (x_conc x) "CO2" (nystart hp);
  do c <- handler_box env (Some (driver_emiconc cfg)) None (VNpFloat (float_of start));
  Ok {| e_env := env; e_pams := pams; e_carbon := c; e_thermal := th;
        e_inst := {| d_start := y0; d_end := y1; d_rf := None; d_sun := x_sun x; d_luc := x_luc x; d_vn := x_vn x; d_vs := x_vs x |};
        e_fixed := {| f_conc := x_conc x; f_emis := emis; f_nat_ch4 := x_nat_ch4 x; f_nat_n2o := x_nat_n2o x; f_pert := x_perturb_forc x;
                      f_cl := fst clbr; f_br := snd clbr; f_pc := fst pre; f_erf := snd pre |};
        e_gas := x_gas x; e_results := [] |}.

(** ** A run *)
(** ciceroscm.py 260-332 with a constructed thermal model, handler parameters [pams] and carbon parameters [pc] of this run *)
Definition box_from {T} (th : thermal A T) (t0 : T) (pams pc : dict pyval) (w : boxed) : result boxed :=
  do hp <- hpam_of number (f_cl (e_fixed w)) (f_br (e_fixed w)) pams;
  do bp <- box_pam_of pc;
  let o := box_coupled_run nan bp (scenario_of hp (e_fixed w)) th (e_inst w) (e_gas w) t0 true true (e_results w) in
  match o_exn o with
  | Some e => Err e
  | None => Ok {| e_env := e_env w; e_pams := pams; e_carbon := pc; e_thermal := e_thermal w; e_inst := e_inst w; e_fixed := e_fixed w;
                  e_gas := s_gas (snd (o_handler o)); e_results := o_results o |}
  end.
(** concentrations_emissions_handler.py 359-366 *)
Definition box_parameters (w : boxed) (emiconc carbon : option (dict pyval)) : result (dict pyval * dict pyval) :=
  do p <- handler_rerun (e_env w) (e_pams w) emiconc; Ok (p, box_reset (e_carbon w) carbon).
Definition boxed_run (w : boxed) (udm emiconc carbon : option (dict pyval)) : result boxed :=
  match e_thermal w with
  | TwoLayer =>
      do p <- tl_pam_of number udm; do q <- box_parameters w emiconc carbon; box_from (tl_thermal p) (tl_init p) (fst q) (snd q) w
  | UpwellingDiffusion =>
      do p <- ud_pam_of number udm; do q <- box_parameters w emiconc carbon; box_from (ud_thermal p) (ud_init p) (fst q) (snd q) w
  end.

(** ** Either carbon cycle *)
Inductive model := Standard (w : whole A) | Boxes (w : boxed).
(** component_factory_functions.py 33-37 called from concentrations_emissions_handler.py 209-216; a forcing run has no carbon cycle
    (ciceroscm.py 104-130) *)
Definition model_build (cfg : dict pyval) (x : data A) : result model :=
  match x_forc x, driver_carbon_class cfg with
  | None, Ok BoxCarbon => do w <- build_box cfg x; Ok (Boxes w)
  | _, _ => do w <- build number float_of cfg x; Ok (Standard w)
  end.
Definition model_run (m : model) (udm emiconc carbon : option (dict pyval)) : result model :=
  match m with
  | Standard w => do v <- whole_run nan number w udm emiconc carbon; Ok (Standard v)
  | Boxes w => do v <- boxed_run w udm emiconc carbon; Ok (Boxes v)
  end.
Definition model_results (m : model) : results A := match m with Standard w => q_results w | Boxes w => e_results w end.
Variable label_of : A -> Z.
(** as [whole_timeseries] *)
Definition model_timeseries (nystart nyend : pyval) (m : model) (variable : string) (u : units) : result (option (list Z) * list A * string) :=
  do y0 <- whole_number nystart; do y1 <- whole_number nyend;
  do q <- get_variable_timeseries y0 y1 (model_results m) variable u;
  let '(years, series, unit) := q in
  Ok (if String.eqb unit "NoUnit" then None else Some (map label_of years), series, unit).
Variables (inputs : dict pyval -> result (data A)) (writer : pyval -> pyval -> pyval -> result units).
Definition model_construct (cfg : dict pyval) : result model := do x <- inputs cfg; model_build cfg x.
(** parallel/cscmparwrapper.py 27-59 *)
Definition model_execute : job (dict pyval) config -> result (list (list (label * cell A))) :=
  execute_run model_construct writer model_run model_timeseries.
End WholeBox.
Arguments boxed A : clear implicits.
Arguments model A : clear implicits.
