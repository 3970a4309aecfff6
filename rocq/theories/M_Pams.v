(** * M_Pams: parameter handling of the concentrations/emissions handler, the
      carbon-cycle models and the driver's constructor.

    Sources: /repo/src/ciceroscm/concentrations_emissions_handler.py 26-114, 162-217,
    248-259, 340-362; carbon_cycle/common_carbon_cycle_functions.py 60-127;
    carbon_cycle/carbon_cycle_mod.py 80-94, 129-220; carbon_cycle/carbon_cycle_abstract.py 41-82;
    ciceroscm.py 73-120. *)
From Verif Require Import PyBase M_Utils M_Flat.

Definition flt (n : Z) (d : positive) : pyval := VFloat (FFin (n # d)).

(** ** concentrations_emissions_handler.py 47-63: defaults of [check_pamset].
    [qindso2] is the double nearest to -0.97/57.0525...; the exact quotient is used. *)
Definition handler_required : dict pyval :=
  [ ("qbmb", flt 0 1); ("qo3", flt 5 10); ("qdirso2", flt (-308) 100000);
    ("qindso2", VFloat (FFin ((-97 # 100) / (57052577209999995 # 1000000000000000))%Q));
    ("qbc", flt 279 10000); ("qoc", flt (-433) 100000); ("qh2o_ch4", flt 91915 1000000);
    ("ref_yr", VInt 2010); ("qnmvoc", flt 0 1); ("qnh3", flt 0 1); ("qnox", flt 0 1);
    ("idtm", VInt 24); ("nystart", VInt 1750); ("nyend", VInt 2100); ("emstart", VInt 1850) ].

(** 70-78 *)
Definition handler_used : dict pyval :=
  [ ("lifetime_mode", VStr "TAR"); ("just_one", VStr "CO2"); ("carbon_cycle_model", VStr "default");
    ("idtm", VInt 24); ("nystart", VInt 1750); ("nyend", VInt 2100); ("emstart", VInt 1850) ].

(** 45-46, 66-69: the caller's dictionary after the call (two keys may be inserted). *)
Definition check_pamset_caller (pamset : option (dict pyval)) : dict pyval :=
  let p := match pamset with None => [] | Some p => p end in
  let p := if dmem p "lifetime_mode" then p else dset p "lifetime_mode" (VStr "TAR") in
  if dmem p "carbon_cycle_model" then p else dset p "carbon_cycle_model" (VStr "default").

(** 26-81: result of [check_pamset]. *)
Definition check_pamset (pamset : option (dict pyval)) : dict pyval :=
  cut_and_check_pamset handler_required (check_pamset_caller pamset) handler_used.

Definition pams_cant_change : list string := ["idtm"; "nystart"; "nyend"; "emstart"; "conc_run"].

(** 103-110: first loop of [check_pamset_consistency]. *)
Fixpoint consistency_reset (old new : dict pyval) (pams : list string) : result (dict pyval) :=
  match pams with
  | [] => Ok new
  | pam :: r =>
      match dget new pam with
      | None => consistency_reset old new r
      | Some v =>
          match dget old pam with
          | None => Err (KeyError pam)
          | Some w => if py_eqb v w then consistency_reset old new r
                      else consistency_reset old (dset new pam w) r
          end
      end
  end.

(** 111-113: second loop. *)
Definition consistency_fill (old new : dict pyval) : dict pyval :=
  fold_left (fun d kv => if dmem d (fst kv) then d else dset d (fst kv) (snd kv)) old new.

Definition check_pamset_consistency (old new : dict pyval) : result (dict pyval) :=
  rbind (consistency_reset old new pams_cant_change) (fun d => Ok (consistency_fill old d)).

(** 248-259: [avoid_regional_double_counting]; [gases] is [df_gas.index]. *)
Definition regional_aerosols : list (string * string) :=
  [("SO2", "qdirso2"); ("BC", "qbc"); ("OC", "qoc")].
Definition has_regional (gases : list string) (aerosol : string) : bool :=
  existsb (String.prefix (aerosol ++ "_")%string) gases.
Definition avoid_regional (gases : list string) (pamset : dict pyval) : dict pyval :=
  fold_left
    (fun d af => if has_regional gases (fst af) then dset d (snd af) (flt 0 1) else d)
    regional_aerosols pamset.

(** Part of __init__ (162-217) that concerns [self.pamset]: the completed set, then
    conc_run, optionally forc_pert, then the halogen dictionaries, then
    [reset_with_new_pams(preexisting=False)], whose effect on [self.pamset] is
    [avoid_regional]. [forc_pert], [cl_dict], [br_dict] are opaque objects here. *)
Record handler_env := {
  env_gases : list string;      (* df_gas.index *)
  env_conc_run : pyval;         (* input_handler.conc_run() *)
  env_forc_pert : option pyval; (* ForcingPerturbation object if configured *)
  env_cl : pyval; env_br : pyval }.

Definition handler_init (env : handler_env) (pamset : option (dict pyval)) : dict pyval :=
  let p := dset (check_pamset pamset) "conc_run" (env_conc_run env) in
  let p := match env_forc_pert env with Some o => dset p "forc_pert" o | None => p end in
  let p := dset (dset p "cl_dict" (env_cl env)) "br_dict" (env_br env) in
  avoid_regional (env_gases env) p.

(** 359-363: [reset_with_new_pams(pamset, preexisting=True)] restricted to [self.pamset]. *)
Definition handler_rerun (env : handler_env) (cur : dict pyval) (pamset : option (dict pyval))
  : result (dict pyval) :=
  rbind (check_pamset_consistency cur (check_pamset pamset))
        (fun d => Ok (avoid_regional (env_gases env) d)).

(** A history of reruns on one instance. *)
Fixpoint handler_reruns (env : handler_env) (cur : dict pyval) (hist : list (option (dict pyval)))
  {struct hist} : result (dict pyval) :=
  match hist with
  | [] => Ok cur
  | p :: r => rbind (handler_rerun env cur p) (fun d => handler_reruns env d r)
  end.

(** ** Carbon cycle *)

(** carbon_cycle_mod.py 80-94 *)
Definition carbon_required : dict pyval :=
  [ ("beta_f", flt 287 1000); ("mixed_carbon", flt 75 1); ("ml_w_sigmoid", flt 3 1);
    ("ml_fracmax", flt 5 10); ("ml_t_half", flt 5 10); ("t_half", flt 5 10); ("w_sigmoid", VInt 7);
    ("t_threshold", VInt 4); ("w_threshold", VInt 7); ("solubility_sens", flt 2 100);
    ("solubility_limit", flt 5 10); ("ml_depth_min", flt 10 1);
    ("preindustrial_co2_conc", flt 278 1) ].

(** The [for key, value in pamset.items(): ... del pamset[key]] loop. CPython's dict
    iterator compares the size of the dictionary with the size at its creation at
    every step, including the step that finds the end, and raises RuntimeError. *)
Fixpoint tom_loop (size : nat) (d : dict pyval) (items : list (string * pyval)) {struct items}
  : result (dict pyval) :=
  if negb (Nat.eqb (List.length d) size) then Err RuntimeError
  else match items with
       | [] => Ok d
       | (key, value) :: rest =>
           tom_loop size (if py_eqb value (VStr "missing") then ddel d key else d) rest
       end.

(** common_carbon_cycle_functions.py 60-83: [take_out_missing] *)
Definition take_out_missing (pamset : dict pyval) : result (dict pyval) :=
  tom_loop (List.length pamset) pamset pamset.

Definition window_required : dict pyval :=
  [("idtm", VInt 24); ("nystart", VInt 1750); ("nyend", VInt 2100)].

(** common_carbon_cycle_functions.py 86-127 *)
Definition carbon_cycle_init_pamsets (emiconc : dict pyval) (carbon : option (dict pyval))
  (required : dict pyval) (used : option (dict pyval)) : result (dict pyval * dict pyval) :=
  let pamset := cut_and_check_pamset window_required emiconc [] in
  let pc := match carbon with
            | None => required
            | Some c => cut_and_check_pamset required c (match used with None => [] | Some u => u end)
            end in
  match used with
  | None => Ok (pamset, pc)
  | Some _ => rbind (take_out_missing pc) (fun pc' => Ok (pamset, pc'))
  end.

Definition carbon_used : dict pyval :=
  [("rs_function", VStr "missing"); ("rb_function", VStr "missing")].

(** State of the default carbon-cycle model as far as parameters go: the parameter
    set, the start value put in [co2_hold["xCO2"]], and the decay function
    specifications at the time [precalc_r_functions] was last called (None: built-in). *)
Record carbon_state := {
  c_pam : dict pyval;
  c_x0 : option pyval;
  c_rs : option pyval;
  c_rb : option pyval }.

(** carbon_cycle_mod.py 191-220: [reset_co2_hold]. *)
Definition carbon_reset (c : carbon_state) (p : option (dict pyval)) : result carbon_state :=
  let x0 := dget (c_pam c) "preindustrial_co2_conc" in
  match p with
  | None => Ok {| c_pam := c_pam c; c_x0 := x0; c_rs := c_rs c; c_rb := c_rb c |}
  | Some p0 =>
      rbind (process_flat_carbon_parameters p0) (fun p1 =>
      let needs := dmem p1 "rs_function" || dmem p1 "rb_function" in
      let pam1 := update_pam_if_numeric (c_pam c) (Some p1) (dkeys carbon_required) in
      let pam2 := fold_left (fun d key => match dget p1 key with
                                          | Some v => dset d key v
                                          | None => d end)
                            ["rs_function"; "rb_function"] pam1 in
      Ok {| c_pam := pam2; c_x0 := x0;
            c_rs := if needs then dget pam2 "rs_function" else c_rs c;
            c_rb := if needs then dget pam2 "rb_function" else c_rb c |})
  end.

(** Length of the run in years, an opaque function of the two window values here. *)
Definition years_tot_of (pamset : dict pyval) : pyval :=
  match dget pamset "nyend", dget pamset "nystart" with
  | Some (VInt a), Some (VInt b) => VInt (a - b + 1)
  | _, _ => VNone
  end.

(** carbon_cycle_mod.py 159-174: [CarbonCycleModel.__init__]. *)
Definition carbon_init (emiconc : dict pyval) (carbon : option (dict pyval)) : result carbon_state :=
  rbind (match carbon with
         | None => Ok None
         | Some c => rbind (process_flat_carbon_parameters c) (fun d => Ok (Some d)) end)
    (fun carbon' =>
  rbind (carbon_cycle_init_pamsets emiconc carbon' carbon_required (Some carbon_used))
    (fun '(pamset, pc) =>
  let pam := dset (dupdate pamset pc) "years_tot" (years_tot_of pamset) in
  rbind (carbon_reset {| c_pam := pam; c_x0 := None; c_rs := None; c_rb := None |} (Some pc))
    (fun c => Ok {| c_pam := c_pam c; c_x0 := c_x0 c;
                    c_rs := dget (c_pam c) "rs_function"; c_rb := dget (c_pam c) "rb_function" |}))).

Fixpoint carbon_resets (c : carbon_state) (hist : list (option (dict pyval)))
  {struct hist} : result carbon_state :=
  match hist with
  | [] => Ok c
  | p :: r => rbind (carbon_reset c p) (fun c' => carbon_resets c' r)
  end.

(** ** Handler constructor, carbon part (concentrations_emissions_handler.py 205-217):
    [preind] is [conc_in["CO2"][nystart]]; returns the carbon model after the final
    [reset_with_new_pams(.., preexisting=False)]. Only for the default carbon model. *)
Definition handler_carbon (env : handler_env) (pamset : option (dict pyval))
  (pamset_carbon : option (dict pyval)) (preind : pyval) : result carbon_state :=
  let hp := dset (check_pamset pamset) "conc_run" (env_conc_run env) in
  let hp := match env_forc_pert env with Some o => dset hp "forc_pert" o | None => hp end in
  let hp := dset (dset hp "cl_dict" (env_cl env)) "br_dict" (env_br env) in
  let pc := dset (match pamset_carbon with None => [] | Some p => p end)
                 "preindustrial_co2_conc" preind in
  rbind (carbon_init hp (Some pc)) (fun c => carbon_reset c (Some pc)).

(** ** Driver constructor (ciceroscm.py 94-120). *)
Definition driver_required : dict pyval :=
  [("nystart", VInt 1750); ("nyend", VInt 2100); ("emstart", VInt 1850); ("idtm", VInt 24)].
Definition driver_used : dict pyval :=
  [("carbon_cycle_model", VStr "default"); ("thermal_model", VStr "default")].

(** ciceroscm.py 94-98 *)
Definition driver_cfg (cfg : dict pyval) : dict pyval :=
  cut_and_check_pamset driver_required cfg driver_used.

(** ciceroscm.py 99: the caller's cfg after [cfg.update(self.cfg)]. *)
Definition driver_caller_cfg (cfg : dict pyval) : dict pyval := dupdate cfg (driver_cfg cfg).

(** input_handler.py 549-581: [thermal_model(cfg)], [carbon_model(cfg)]. *)
Definition model_name (cfg : dict pyval) (key : string) : pyval :=
  match dget cfg key with Some v => v | None => VStr "default" end.

(** ciceroscm.py 105: selecting the thermal model. A non-string never equals a name. *)
Definition driver_thermal (cfg : dict pyval) : result thermal_class :=
  match model_name (driver_cfg cfg) "thermal_model" with
  | VStr s => create_thermal_model s
  | _ => Err ValueError
  end.

(** Same for the carbon model, as called from concentrations_emissions_handler.py 209-216. *)
Definition driver_carbon_class (cfg : dict pyval) : result carbon_class :=
  match model_name (driver_cfg cfg) "carbon_cycle_model" with
  | VStr s => create_carbon_cycle_model s
  | _ => Err ValueError
  end.

Definition dget_def (d : dict pyval) (k : string) : pyval :=
  match dget d k with Some v => v | None => VNone end.

(** ciceroscm.py 113-123: [pamset_emiconc] built for the handler. *)
Definition driver_emiconc (cfg : dict pyval) : dict pyval :=
  let self_cfg := driver_cfg cfg in
  let cfg' := driver_caller_cfg cfg in
  fold_left
    (fun d kv => if smem (fst kv) ["rs_function"; "rb_function"] then dset d (fst kv) (snd kv) else d)
    cfg'
    [ ("carbon_cycle_model", model_name self_cfg "carbon_cycle_model");
      ("emstart", dget_def self_cfg "emstart"); ("nystart", dget_def self_cfg "nystart");
      ("nyend", dget_def self_cfg "nyend"); ("idtm", dget_def self_cfg "idtm") ].

(** The carbon model living in a freshly constructed CICEROSCM (default carbon model). *)
Definition driver_carbon (env : handler_env) (cfg : dict pyval) (preind : pyval) : result carbon_state :=
  handler_carbon env (Some (driver_emiconc cfg)) None preind.
