(** * Spec_Numbers: which given value each number of a run is (C99) *)
From Verif Require Import PyBase Num M_Utils M_Pams M_Gas M_Forcing M_Names M_RFuns M_Carbon M_TwoLayer M_UDM M_Driver M_Results M_Parallel M_Whole Spec_Pams Spec_Parallel.

Section Numbers.
Context {A : Type} {N : Num A}.
Variable number : pyfloat -> A.
Local Notation fl a b := (VFloat (FFin (Qmake a b))).
(** The number [a] is the value [v]. *)
Definition stands_for (v : pyval) (a : A) : Prop := exists x, num_of v = Some x /\ a = number x.

(** Name, default and place of every parameter. *)
Definition tl_places : list (string * pyval * (tl_pam A -> A)) :=
  [ ("lambda", fl 374 300, @tl_lambda A); ("mixed", VInt 50, @tl_mixed A); ("deep", VInt 1200, @tl_deep A); ("k", fl 5 10, @tl_k A);
    ("ocean_efficacy", VInt 1, @tl_eff A); ("foan", fl 61 100, @tl_foan A); ("foas", fl 81 100, @tl_foas A); ("delta_lambda_aero", fl 0 1, @tl_delta A) ].
Definition ud_places : list (string * pyval * (ud_pam A -> A)) :=
  [ ("rlamdo", fl 15 1, @rlamdo A); ("akapa", fl 66 100, @akapa A); ("cpi", fl 21 100, @cpi A); ("W", fl 22 10, @W A); ("beto", fl 69 10, @beto A);
    ("threstemp", fl 7 1, @threstemp A); ("lambda", fl 61 100, @lambda A); ("mixed", fl 107 1, @mixed A); ("foan", fl 61 100, @foan A);
    ("foas", fl 81 100, @foas A); ("ebbeta", fl 0 1, @ebbeta A); ("ocean_efficacy", fl 1 1, @efficacy A); ("delta_lambda_aero", fl 0 1, @delta_aero A) ].
Definition handler_places : list (string * pyval * (hpam A -> A)) :=
  [ ("qbmb", fl 0 1, @qbmb A); ("qo3", fl 5 10, @qo3 A); ("qindso2", VFloat (FFin (Qmake (-97) 100 / Qmake 57052577209999995 1000000000000000)%Q), @qindso2 A);
    ("qh2o_ch4", fl 91915 1000000, @qh2o_ch4 A); ("qnmvoc", fl 0 1, @qnmvoc A); ("qnh3", fl 0 1, @qnh3 A); ("qnox", fl 0 1, @qnox A) ].
(** with the aerosol whose regional components switch it off *)
Definition regional_places : list (string * (string * pyval * (hpam A -> A))) :=
  [ ("SO2", ("qdirso2", fl (-308) 100000, @qdirso2 A)); ("BC", ("qbc", fl 279 10000, @qbc A)); ("OC", ("qoc", fl (-433) 100000, @qoc A)) ].
Definition carbon_places : list (string * pyval * (cc_pam A -> A)) :=
  [ ("beta_f", fl 287 1000, @beta_f A); ("mixed_carbon", fl 75 1, @mixed_carbon A); ("ml_w_sigmoid", fl 3 1, @ml_w_sigmoid A);
    ("ml_fracmax", fl 5 10, @ml_fracmax A); ("ml_t_half", fl 5 10, @ml_t_half A); ("t_half", fl 5 10, @t_half A); ("w_sigmoid", VInt 7, @w_sigmoid A);
    ("t_threshold", VInt 4, @t_threshold A); ("w_threshold", VInt 7, @w_threshold A); ("solubility_sens", fl 2 100, @solubility_sens A);
    ("solubility_limit", fl 5 10, @solubility_limit A); ("ml_depth_min", fl 10 1, @ml_depth_min A) ].

(** Ocean parameters: those given for this run, else the defaults. *)
Definition tl_numbers (udm : option (dict pyval)) (p : tl_pam A) : Prop :=
  forall k d f, In (k, d, f) tl_places -> stands_for (num_or udm k d) (f p).
Record ud_numbers (udm : option (dict pyval)) (p : ud_pam A) : Prop := {
  un_plain : forall k d f, In (k, d, f) ud_places -> stands_for (num_or udm k d) (f p);
  un_layers : exists z, whole_number (num_or udm "lm" (VInt 40)) = Ok z /\ M_UDM.lm p = Z.to_nat z;
  un_steps : exists z, whole_number (num_or udm "ldtime" (VInt 12)) = Ok z /\ ldtime p = Z.to_nat z }.
(** Handler parameters of the last of the sets [hist ++ [given]]: the window of the configuration, the last component given for
    "just_one" in any of them, and otherwise what the last set gives or the defaults. *)
Definition as_text (v : pyval) : string := match v with VStr s => s | _ => "" end.
Record handler_numbers (cfg : dict pyval) (gases : list string) (conc : bool) (hist : list (option (dict pyval))) (last : option (dict pyval)) (p : hpam A) : Prop := {
  hn_plain : forall k d f, In (k, d, f) handler_places -> stands_for (num_or last k d) (f p);
  hn_regional : forall a k d f, In (a, (k, d, f)) regional_places ->
    stands_for (if existsb (String.prefix (a ++ "_")%string) gases then fl 0 1 else num_or last k d) (f p);
  hn_window : whole_number (num_or (Some cfg) "nystart" (VInt 1750)) = Ok (nystart p) /\ whole_number (num_or (Some cfg) "nyend" (VInt 2100)) = Ok (nyend p) /\
    whole_number (num_or (Some cfg) "emstart" (VInt 1850)) = Ok (emstart p);
  hn_ref : whole_number (num_or last "ref_yr" (VInt 2010)) = Ok (ref_yr p);
  hn_mode : lifetime_mode p = match given last "lifetime_mode" with Some v => as_text v | None => "TAR" end;
  hn_one : just_one p = option_map as_text (spec_last_any "just_one" None (hist ++ [last]));
  hn_conc : conc_run p = conc }.
(** Carbon parameters: the last number given in any set, else the default; [start] is the concentration of the first year. The start
    value of the run is the preindustrial concentration of the sets before the last one. *)
Definition last_decay (k : string) (hist : list (option (dict pyval))) : option pyval :=
  fold_left (fun v p => match decay_given p k with Some d => Some d | None => v end) hist None.
Definition decays (v : option pyval) (f : option (list A * list A)) : Prop :=
  match v, f with
  | None, None => True
  | Some (VFun c t), Some (c', t') => Forall2 stands_for c c' /\ Forall2 stands_for t t'
  | _, _ => False
  end.
Record carbon_numbers (cfg : dict pyval) (start : pyval) (hist : list (option (dict pyval))) (last : option (dict pyval)) (p : cc_pam A) (x0 : A) : Prop := {
  cn_plain : forall k d f, In (k, d, f) carbon_places -> stands_for (spec_last_num k d (hist ++ [last])) (f p);
  cn_preind : stands_for (spec_last_num "preindustrial_co2_conc" start (hist ++ [last])) (preind p);
  cn_start : stands_for (spec_last_num "preindustrial_co2_conc" start hist) x0;
  cn_steps : exists z, whole_number (num_or (Some cfg) "idtm" (VInt 24)) = Ok z /\ idtm p = Z.to_nat z;
  cn_years : exists y0 y1, num_or (Some cfg) "nystart" (VInt 1750) = VInt y0 /\ num_or (Some cfg) "nyend" (VInt 2100) = VInt y1 /\ years_tot p = Z.to_nat (y1 - y0 + 1);
  cn_decay : exists rs rb, decays (last_decay "rs_function" (hist ++ [last])) rs /\ decays (last_decay "rb_function" (hist ++ [last])) rb /\
    precalc_r_functions (idtm p) (years_tot p) rs rb = Some (r_s p, M_Carbon.r_b p) }.

(** The carbon cycle at the start of a run: concentration [x0], nothing else. *)
Record new_carbon (p : cc_pam A) (x0 : A) (s : cc_state A) : Prop := {
  nc_x : h_x s = x0; nc_none : [h_y s; h_emp s; h_ss1 s; h_sums s] = repeat (nofZ 0) 4;
  nc_s : h_s s = repeat (nofZ 0) (idtm p * years_tot p); nc_d : h_d s = repeat (nofZ 0) (idtm p * years_tot p) }.

(** ** A run *)
Variable float_of : A -> pyfloat.
(** The years and forcing series of the main loop are the window of the configuration and the series of the input. *)
Record instance_numbers (cfg : dict pyval) (x : data A) (i : inst A) : Prop := {
  in_start : whole_number (num_or (Some cfg) "nystart" (VInt 1750)) = Ok (d_start i);
  in_end : whole_number (num_or (Some cfg) "nyend" (VInt 2100)) = Ok (d_end i);
  in_forc : d_rf i = x_forc x;
  in_series : d_sun i = x_sun x /\ d_luc i = x_luc x /\ d_vn i = x_vn x /\ d_vs i = x_vs x }.
(** Scenario, carbon parameters and start concentration of the run with configuration [c] after runs with configurations [cs]. *)
Record run_numbers (cfg : dict pyval) (x : data A) (cs : list config) (c : config) (sc : scenario A) (cp : cc_pam A) (x0 : A) : Prop := {
  rn_handler : handler_numbers cfg (dkeys (x_gas x)) (x_conc_run x) (map cf_emiconc cs) (cf_emiconc c) (c_p sc);
  rn_halogens : make_cl_and_br_dictionaries (dkeys (x_gas x)) = Ok (cl_dict (c_p sc), br_dict (c_p sc));
  rn_frames : c_conc sc = x_conc x /\ c_nat_ch4 sc = x_nat_ch4 x /\ c_nat_n2o sc = x_nat_n2o x /\ c_pert sc = x_perturb_forc x;
  rn_emissions : match x_perturb_em x with None => c_emis sc = x_emis x | Some t => perturb_emissions t (x_emis x) = Ok (c_emis sc) end;
  rn_vanilla : precalculate (c_p sc) (x_gas x) (x_conc x) (c_emis sc) (x_perturb_forc x) = Ok (c_pc sc, c_erf sc);
  rn_carbon : exists start, fr_get (x_conc x) "CO2" (nystart (c_p sc)) = Ok start /\
    carbon_numbers cfg (VNpFloat (float_of start)) (map cf_carbon cs) (cf_carbon c) cp x0 }.
(** The configurations are dictionaries. *)
Definition dictionaries (c : config) : Prop :=
  match cf_udm c with Some d => wf d | None => True end /\ match cf_emiconc c with Some d => wf d | None => True end /\
  match cf_carbon c with Some d => wf d | None => True end.
End Numbers.
