(** * Spec_WholeBox: runs of instances with either carbon cycle, and the numbers of a box run (C100, C101) *)
From Verif Require Import PyBase Num M_Utils M_Pams M_Gas M_Forcing M_Names M_Carbon M_CarbonBox M_Driver M_Results M_Parallel M_Whole M_WholeBox
  Spec_Pams Spec_Parallel Spec_Whole Spec_Numbers.

Section WholeBox.
Context {A : Type} {N : Num A}.
Variables (nan : A) (number : pyfloat -> A).
Local Notation fl a b := (VFloat (FFin (Qmake a b))).
(** Name, default and place of the parameters that a run with the box carbon cycle reads. *)
Definition box_places : list (string * pyval * (box_pam A -> A)) :=
  [ ("beta_f", fl 287 1000, @b_beta_f A); ("land_temp_sensitivity", fl 1 10, @b_land_sens A); ("soil_respiration_rate", fl 2 100, @b_soil_rate A);
    ("ocean_exchange_rate", fl 1 100, @b_exchange A); ("vegetation_to_soil_fraction", fl 1 10, @b_veg_frac A);
    ("ocean_solubility_base", fl 2 100, @b_sol_base A); ("ocean_solubility_temp_coeff", fl (-1) 100, @b_sol_coeff A) ].
(** The last number given in any set, else the default; nothing of the input. *)
Definition box_numbers (sets : list (option (dict pyval))) (p : box_pam A) : Prop :=
  forall k d f, In (k, d, f) box_places -> stands_for number (spec_last_num k d sets) (f p).

(** [m] is [m0] after completed runs with some configurations, in their order. *)
Inductive model_after (m0 : model A) : list config -> model A -> Prop :=
| model_fresh : model_after m0 [] m0
| model_more : forall cs m c m', model_after m0 cs m ->
    model_run nan number m (cf_udm c) (cf_emiconc c) (cf_carbon c) = Ok m' -> model_after m0 (cs ++ [c]) m'.

(** Scenario of the run with configuration [c] after runs with configurations [cs]. *)
Record scenario_numbers (cfg : dict pyval) (x : data A) (cs : list config) (c : config) (sc : scenario A) : Prop := {
  sn_handler : handler_numbers number cfg (dkeys (x_gas x)) (x_conc_run x) (map cf_emiconc cs) (cf_emiconc c) (c_p sc);
  sn_halogens : make_cl_and_br_dictionaries (dkeys (x_gas x)) = Ok (cl_dict (c_p sc), br_dict (c_p sc));
  sn_frames : c_conc sc = x_conc x /\ c_nat_ch4 sc = x_nat_ch4 x /\ c_nat_n2o sc = x_nat_n2o x /\ c_pert sc = x_perturb_forc x;
  sn_emissions : match x_perturb_em x with None => c_emis sc = x_emis x | Some t => perturb_emissions t (x_emis x) = Ok (c_emis sc) end;
  sn_vanilla : precalculate (c_p sc) (x_gas x) (x_conc x) (c_emis sc) (x_perturb_forc x) = Ok (c_pc sc, c_erf sc) }.

(** Configurations that do not rely on what an earlier one left behind, for the box carbon cycle: no condition on decay functions and on
    the preindustrial concentration. *)
Definition box_contained (cfgs : list config) : Prop :=
  Forall dictionaries cfgs /\
  uniform (fun c => given (cf_emiconc c) "just_one") cfgs /\
  forall k d f, In (k, d, f) box_places -> uniform (fun c => number_given (cf_carbon c) k) cfgs.
(** A run with configuration [c] after runs with [cs] and one with [c'] after [cs'] have the same ocean and handler sets, the same component for
    "just_one", and the same seven carbon numbers; anything else in the carbon sets may differ. *)
Record same_for_boxes (cs : list config) (c : config) (cs' : list config) (c' : config) : Prop := {
  sb_ocean : cf_udm c = cf_udm c';
  sb_handler : cf_emiconc c = cf_emiconc c';
  sb_one : spec_last_any "just_one" None (map cf_emiconc (cs ++ [c])) = spec_last_any "just_one" None (map cf_emiconc (cs' ++ [c']));
  sb_carbon : forall k d f, In (k, d, f) box_places -> spec_last_num k d (map cf_carbon (cs ++ [c])) = spec_last_num k d (map cf_carbon (cs' ++ [c'])) }.
End WholeBox.
