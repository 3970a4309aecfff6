(** * M_Whole: an instance from its configuration to the rows of the parallel wrapper, with the default carbon cycle.
      The parts are those of the other M_ files; here they are put together.

    Sources: /repo/src/ciceroscm/ciceroscm.py 73-332, concentrations_emissions_handler.py 162-217, 345-374,
    carbon_cycle/carbon_cycle_mod.py 129-220, 278-324, thermal_model/abstract_thermal_model.py 50-67,
    thermal_model/two_layer_ocean.py 24-90, thermal_model/upwelling_diffusion_model.py 111-182,
    parallel/cscmparwrapper.py 128-232. *)
From Verif Require Import PyBase Num M_Utils M_Flat M_Pams M_Gas M_Forcing M_RFuns M_Carbon M_TwoLayer M_UDM M_Driver M_Results M_Names M_Reader M_Parallel.

(** ** Thermal parameters *)
(** thermal_model/two_layer_ocean.py 24-38; the double nearest to 3.74/3 is taken as the exact quotient *)
Definition tl_required : dict pyval :=
  [ ("lambda", flt 374 300); ("mixed", VInt 50); ("deep", VInt 1200); ("k", flt 5 10); ("ocean_efficacy", VInt 1);
    ("foan", flt 61 100); ("foas", flt 81 100); ("delta_lambda_aero", flt 0 1) ].
(** thermal_model/upwelling_diffusion_model.py 111-132 *)
Definition ud_required : dict pyval :=
  [ ("rlamdo", flt 15 1); ("akapa", flt 66 100); ("cpi", flt 21 100); ("W", flt 22 10); ("beto", flt 69 10); ("threstemp", flt 7 1);
    ("lambda", flt 61 100); ("mixed", flt 107 1); ("foan", flt 61 100); ("foas", flt 81 100); ("ebbeta", flt 0 1);
    ("lm", VInt 40); ("ldtime", VInt 12); ("ocean_efficacy", flt 1 1); ("delta_lambda_aero", flt 0 1) ].
(** thermal_model/abstract_thermal_model.py 50-67 *)
Definition thermal_pamset (required : dict pyval) (pamset : option (dict pyval)) : dict pyval :=
  cut_and_check_pamset required (match pamset with None => [] | Some p => p end) [].

(** The integer a number is equal to. A year or a number of steps that is no whole number is a TypeError here; python goes on with it
    until it needs an integer. *)
Definition whole_number (v : pyval) : result Z :=
  match num_of v with
  | Some (FFin q) => let r := Qred q in if Pos.eqb (Qden r) 1 then Ok (Qnum r) else Err TypeError
  | _ => Err TypeError
  end.
Definition whole_at (d : dict pyval) (k : string) : result Z :=
  match dget d k with Some v => whole_number v | None => Err (KeyError k) end.

Section Whole.
Context {A : Type} {N : Num A}.
(** NaN, the number a python float stands for, and the float a number of an input frame is *)
Variables (nan : A) (number : pyfloat -> A) (float_of : A -> pyfloat).

(** A parameter as a number; where python would compute with another object, this is a TypeError. *)
Definition as_number (v : pyval) : result A := match num_of v with Some f => Ok (number f) | None => Err TypeError end.
Definition num_at (d : dict pyval) (k : string) : result A :=
  match dget d k with Some v => as_number v | None => Err (KeyError k) end.

(** thermal_model/two_layer_ocean.py 52-90: the parameters of the constructed model *)
Definition tl_pam_of (pamset : option (dict pyval)) : result (tl_pam A) :=
  let d := thermal_pamset tl_required pamset in
  do l <- num_at d "lambda"; do m <- num_at d "mixed"; do dp <- num_at d "deep"; do k <- num_at d "k"; do e <- num_at d "ocean_efficacy";
  do fn <- num_at d "foan"; do fs <- num_at d "foas"; do dl <- num_at d "delta_lambda_aero";
  Ok {| tl_lambda := l; tl_mixed := m; tl_deep := dp; tl_k := k; tl_eff := e; tl_foan := fn; tl_foas := fs; tl_delta := dl |}.
(** thermal_model/upwelling_diffusion_model.py 151-182 *)
Definition ud_pam_of (pamset : option (dict pyval)) : result (ud_pam A) :=
  let d := thermal_pamset ud_required pamset in
  do ro <- num_at d "rlamdo"; do ak <- num_at d "akapa"; do ci <- num_at d "cpi"; do w <- num_at d "W"; do be <- num_at d "beto";
  do tr <- num_at d "threstemp"; do l <- num_at d "lambda"; do m <- num_at d "mixed"; do fn <- num_at d "foan"; do fs <- num_at d "foas";
  do eb <- num_at d "ebbeta"; do lm <- whole_at d "lm"; do ld <- whole_at d "ldtime"; do e <- num_at d "ocean_efficacy";
  do dl <- num_at d "delta_lambda_aero";
  Ok {| rlamdo := ro; akapa := ak; cpi := ci; W := w; beto := be; threstemp := tr; lambda := l; mixed := m; foan := fn; foas := fs;
        ebbeta := eb; M_UDM.lm := Z.to_nat lm; ldtime := Z.to_nat ld; efficacy := e; delta_aero := dl |}.

(** ** Handler parameters *)
(** [self.pamset] of the handler as the computations read it. Anything but a text never equals a lifetime mode or a component. *)
Definition text_of (v : pyval) : string := match v with VStr s => s | _ => "" end.
Definition hpam_of (cl br : dict Z) (d : dict pyval) : result (hpam A) :=
  do y0 <- whole_at d "nystart"; do y1 <- whole_at d "nyend"; do ye <- whole_at d "emstart"; do ry <- whole_at d "ref_yr";
  do bmb <- num_at d "qbmb"; do o3 <- num_at d "qo3"; do dso2 <- num_at d "qdirso2"; do iso2 <- num_at d "qindso2"; do bc <- num_at d "qbc";
  do oc <- num_at d "qoc"; do h2o <- num_at d "qh2o_ch4"; do voc <- num_at d "qnmvoc"; do nh3 <- num_at d "qnh3"; do nox <- num_at d "qnox";
  do lt <- match dget d "lifetime_mode" with Some v => Ok v | None => Err (KeyError "lifetime_mode") end;
  Ok {| nystart := y0; nyend := y1; emstart := ye; conc_run := match dget d "conc_run" with Some (VBool b) => b | _ => false end;
        lifetime_mode := text_of lt; just_one := option_map text_of (dget d "just_one");
        ref_yr := ry; qbmb := bmb; qo3 := o3; qdirso2 := dso2; qindso2 := iso2; qbc := bc; qoc := oc; qh2o_ch4 := h2o; qnmvoc := voc;
        qnh3 := nh3; qnox := nox; cl_dict := cl; br_dict := br |}.

(** ** Carbon cycle parameters *)
(** The decay function that [precalc_r_functions] finds; what is no dictionary with the two entries is a TypeError. *)
Definition decay_of (v : option pyval) : result (option (list A * list A)) :=
  match v with
  | None => Ok None
  | Some (VFun coeffs tims) => do c <- mapM as_number coeffs; do t <- mapM as_number tims; Ok (Some (c, t))
  | Some _ => Err TypeError
  end.
(** carbon_cycle_mod.py 80-94, 129-174, 278-324: the parameters in force after [reset_co2_hold], and the start concentration in
    [co2_hold] (191-194). The decay functions are computed when they are given (210-220); they are the same if computed here. *)
Definition cc_pam_of (c : carbon_state) : result (cc_pam A * A) :=
  let d := c_pam c in
  do bf <- num_at d "beta_f"; do mc <- num_at d "mixed_carbon"; do mw <- num_at d "ml_w_sigmoid"; do mf <- num_at d "ml_fracmax";
  do mh <- num_at d "ml_t_half"; do th <- num_at d "t_half"; do ws <- num_at d "w_sigmoid"; do tr <- num_at d "t_threshold";
  do wt <- num_at d "w_threshold"; do ss <- num_at d "solubility_sens"; do sl <- num_at d "solubility_limit"; do md <- num_at d "ml_depth_min";
  do pi <- num_at d "preindustrial_co2_conc"; do steps <- whole_at d "idtm"; do years <- whole_at d "years_tot";
  do x0 <- match c_x0 c with Some v => as_number v | None => Err (KeyError "preindustrial_co2_conc") end;
  do rs <- decay_of (c_rs c); do rb <- decay_of (c_rb c);
  match precalc_r_functions (Z.to_nat steps) (Z.to_nat years) rs rb with
  | None => Err ValueError
  | Some (s, b) =>
      Ok ({| beta_f := bf; mixed_carbon := mc; ml_w_sigmoid := mw; ml_fracmax := mf; ml_t_half := mh; t_half := th; w_sigmoid := ws;
             t_threshold := tr; w_threshold := wt; solubility_sens := ss; solubility_limit := sl; ml_depth_min := md; preind := pi;
             idtm := Z.to_nat steps; years_tot := Z.to_nat years; r_s := s; M_Carbon.r_b := b |}, x0)
  end.
(** carbon_cycle_mod.py 191-199 with the start value put in by the reset *)
Definition start_hold (p : cc_pam A) (x0 : A) (h : cc_state A) : cc_state A :=
  {| h_y := #0; h_x := x0; h_s := cc_zeros p; h_emp := #0; h_d := cc_zeros p; h_ss1 := #0; h_sums := #0; h_sol := h_sol h; h_ml := h_ml h |}%num.

(** ** The instance *)
(** What the input handler returns for a configuration (input_handler.py, see M_Input and M_Reading): the forcing of a forcing run, whether it is a
    concentration run, gas table, natural emissions, concentrations, emissions, perturbations, solar, land-use and volcanic forcing. *)
Record data := {
  x_forc : option (rf_data A); x_conc_run : bool; x_gas : dict (gas A); x_nat_ch4 : frame A; x_nat_n2o : frame A; x_conc : frame A;
  x_emis : frame A; x_perturb_em : option (ptable A); x_perturb_forc : option (ptable A);
  x_sun : list A; x_luc : list A; x_vn : list (list A); x_vs : list (list A) }.
(** What the handler keeps from its construction: frames, perturbations, chlorine and bromine counts, precalculated frames *)
Record fixed := {
  f_conc : frame A; f_emis : frame A; f_nat_ch4 : frame A; f_nat_n2o : frame A; f_pert : option (ptable A);
  f_cl : dict Z; f_br : dict Z; f_pc : frame A; f_erf : frame A }.
(** [q_params]: parameters (M_Parallel); [q_fixed]: None in a forcing run; [q_hold]: the state of the carbon cycle, of which the next run
    keeps the two temperature factors; [q_gas]: the gas table, of which a run overwrites natural emissions *)
Record whole := {
  q_params : instance; q_thermal : thermal_class; q_inst : inst A; q_fixed : option fixed;
  q_hold : cc_state A; q_gas : dict (gas A); q_results : results A }.

Definition scenario_of (hp : hpam A) (f : fixed) : scenario A :=
  {| c_p := hp; c_conc := f_conc f; c_emis := f_emis f; c_nat_ch4 := f_nat_ch4 f; c_nat_n2o := f_nat_n2o f; c_pert := f_pert f;
     c_pc := f_pc f; c_erf := f_erf f |}.

(** ciceroscm.py 73-141 with concentrations_emissions_handler.py 162-217. The objects "forc_pert", "cl_dict" and "br_dict" in the handler's
    parameters are opaque there (M_Pams); the arrays set to zero by 141 are set again by every run. The box carbon cycle is in M_WholeBox
    (here an exception stands for it). *)
Definition no_hold : cc_state A :=
  {| h_y := #0; h_x := #0; h_s := []; h_emp := #0; h_d := []; h_ss1 := #0; h_sums := #0; h_sol := #1; h_ml := #0 |}%num.
Definition env_of (x : data) : handler_env :=
  {| env_gases := dkeys (x_gas x); env_conc_run := VBool (x_conc_run x);
     env_forc_pert := option_map (fun _ => VObj 1) (x_perturb_forc x); env_cl := VObj 2; env_br := VObj 3 |}.
Definition no_params : instance :=
  {| in_env := {| env_gases := []; env_conc_run := VNone; env_forc_pert := None; env_cl := VNone; env_br := VNone |}; in_rf_run := true;
     in_pams := []; in_carbon := {| c_pam := []; c_x0 := None; c_rs := None; c_rb := None |}; in_udm := None |}.
Definition build (cfg : dict pyval) (x : data) : result whole :=
  do th <- driver_thermal cfg;
  do y0 <- whole_at (driver_cfg cfg) "nystart"; do y1 <- whole_at (driver_cfg cfg) "nyend";
  let inst := {| d_start := y0; d_end := y1; d_rf := x_forc x; d_sun := x_sun x; d_luc := x_luc x; d_vn := x_vn x; d_vs := x_vs x |} in
  match x_forc x with
  | Some _ =>
      Ok {| q_params := no_params; q_thermal := th; q_inst := inst; q_fixed := None; q_hold := no_hold; q_gas := []; q_results := [] |}
  | None =>
      do cls <- driver_carbon_class cfg;
      do _ <- match cls with DefaultCarbon => Ok tt | BoxCarbon => Err (UserExn 2) end;
      let env := env_of x in
      let pams := handler_init env (Some (driver_emiconc cfg)) in
      do emis <- match x_perturb_em x with None => Ok (x_emis x) | Some t => perturb_emissions t (x_emis x) end;
      do clbr <- make_cl_and_br_dictionaries (dkeys (x_gas x));
      do hp <- hpam_of (fst clbr) (snd clbr) pams;
      do pre <- precalculate hp (x_gas x) (x_conc x) emis (x_perturb_forc x);
      do start <- fr_get (x_conc x) "CO2" (nystart hp);
      do c <- driver_carbon env cfg (VNpFloat (float_of start));
      do cp <- cc_pam_of c;
      Ok {| q_params := {| in_env := env; in_rf_run := false; in_pams := pams; in_carbon := c; in_udm := None |};
            q_thermal := th; q_inst := inst;
            q_fixed := Some {| f_conc := x_conc x; f_emis := emis; f_nat_ch4 := x_nat_ch4 x; f_nat_n2o := x_nat_n2o x;
                               f_pert := x_perturb_forc x; f_cl := fst clbr; f_br := snd clbr; f_pc := fst pre; f_erf := snd pre |};
            q_hold := cc_init (fst cp); q_gas := x_gas x; q_results := [] |}
  end.

(** ** A run *)
(** A forcing run does not touch handler and carbon cycle. *)
Definition forcing_run {T} (th : thermal A T) (c : inst A) (t0 : T) (r : results A) : outcome A unit :=
  run T th c unit (fun h _ _ => Ok h) (fun _ _ _ _ => Err ValueError) (fun _ _ _ => Err ValueError) None t0 tt true true r.
(** ciceroscm.py 260-332 with a constructed thermal model and the parameters [i] of this run, results in the dictionary, carbon cycle
    outputs included; an exception ends the job, so the instance after it is not described *)
Definition run_from {T} (th : thermal A T) (t0 : T) (i : instance) (w : whole) : result whole :=
  let keep hold gas r := {| q_params := i; q_thermal := q_thermal w; q_inst := q_inst w; q_fixed := q_fixed w;
                            q_hold := hold; q_gas := gas; q_results := r |} in
  match q_fixed w with
  | None =>
      let o := forcing_run th (q_inst w) t0 (q_results w) in
      match o_exn o with Some e => Err e | None => Ok (keep (q_hold w) (q_gas w) (o_results o)) end
  | Some f =>
      do hp <- hpam_of (f_cl f) (f_br f) (in_pams i);
      do cx <- cc_pam_of (in_carbon i);
      let '(cp, x0) := cx in
      let o := coupled_run nan cp (scenario_of hp f) th (q_inst w) (q_gas w) t0 (start_hold cp x0 (q_hold w)) true true (q_results w) in
      match o_exn o with Some e => Err e | None => Ok (keep (fst (o_handler o)) (s_gas (snd (o_handler o))) (o_results o)) end
  end.
Definition whole_run (w : whole) (udm emiconc carbon : option (dict pyval)) : result whole :=
  match q_thermal w with
  | TwoLayer =>
      do p <- tl_pam_of udm; do i <- instance_run (q_params w) udm emiconc carbon; run_from (tl_thermal p) (tl_init p) i w
  | UpwellingDiffusion =>
      do p <- ud_pam_of udm; do i <- instance_run (q_params w) udm emiconc carbon; run_from (ud_thermal p) (ud_init p) i w
  end.

(** ** The parallel wrapper *)
(** parallel/cscmparwrapper.py 147, 200-206 with formattingtools/reformat_cscm_results.py 289-355; [label_of] is the year that stands in a
    "Year" column *)
Variable label_of : A -> Z.
Definition whole_timeseries (nystart nyend : pyval) (w : whole) (variable : string) (u : units) : result (option (list Z) * list A * string) :=
  do y0 <- whole_number nystart; do y1 <- whole_number nyend;
  do q <- get_variable_timeseries y0 y1 (q_results w) variable u;
  let '(years, series, unit) := q in
  Ok (if String.eqb unit "NoUnit" then None else Some (map label_of years), series, unit).
(** [inputs]: reading the input of a configuration; [writer]: the unit tables of a gas parameter file or frame (M_Reader) *)
Variables (inputs : dict pyval -> result data) (writer : pyval -> pyval -> pyval -> result units).
Definition whole_construct (cfg : dict pyval) : result whole := do x <- inputs cfg; build cfg x.
Definition whole_execute : job (dict pyval) config -> result (list (list (label * cell A))) :=
  execute_run whole_construct writer whole_run whole_timeseries.
End Whole.
Arguments data A : clear implicits.
Arguments fixed A : clear implicits.
Arguments whole A : clear implicits.
