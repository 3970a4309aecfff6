(** * M_BoxRun: runs with any carbon cycle and runs with the box carbon cycle,
      /repo/src/ciceroscm/concentrations_emissions_handler.py 595-1094, carbon_cycle/carbon_cycle_mod_box.py 120-234 *)
From Verif Require Import PyBase Num M_Gas M_Forcing M_Carbon M_CarbonBox M_Driver M_Results.

Section AnyCarbon.
Context {A : Type} {N : Num A}.
Variable nan : A.
(** A carbon cycle: its state, one year ([co2em2conc] with the number of the year since the start, emissions and temperature
    change) and its result frame ([get_carbon_cycle_data] of the handler, 1030-1083). Both carbon cycles of the package take
    "dtemp" only from the feedback (carbon_cycle_abstract.py 143-155). *)
Variables (CC : Type) (year : CC -> nat -> A -> A -> CC * A) (data : CC -> hst A -> dict (list A) -> result (CC * frame A)) (sc : scenario A).
(** concentrations_emissions_handler.py 728-806 *)
Definition any_emi2conc (h : CC * hst A) (y : Z) (fb : option (dict A)) : result (CC * hst A) :=
  emi2conc CC (option (dict A)) (fun cc y em fb => year cc (Z.to_nat (y - nystart (c_p sc))) em (dtemp_of fb))
    (c_p sc) (c_conc sc) (c_emis sc) (c_nat_ch4 sc) (c_nat_n2o sc) y fb (fst h) (snd h).
(** 595-726 *)
Definition any_conc2forc (h : CC * hst A) (y : Z) (luc sun : A) : result ((CC * hst A) * (A * A * A * A)) :=
  do r <- conc2forc (c_p sc) (c_conc sc) (c_emis sc) (c_erf sc) (c_pert sc) y luc sun (snd h);
  Ok ((fst h, snd r), fst r).
(** 966-1028 *)
Definition any_add_results (h : CC * hst A) (carbon : bool) (series : dict (list A)) : result (dict (frame A)) :=
  do forc <- forcing_frame (c_p sc) (snd h) (c_erf sc);
  do em <- emission_frame (c_p sc) (c_emis sc);
  do conc <- concentration_frame nan (c_p sc) (snd h) (c_pc sc);
  let fs := [("emissions", em); ("concentrations", conc); ("forcing", forc)] in
  if carbon then do r <- data (fst h) (snd h) series; Ok (fs ++ [("carbon cycle", snd r)])
  else Ok fs.
(** ciceroscm.py 231-332 *)
Definition any_run {T} (th : thermal A T) (c : inst A) (gt : dict (gas A)) (t0 : T) (cc0 : CC)
  (as_dict carbon : bool) (r : results A) : outcome A (CC * hst A) :=
  run T th c (CC * hst A) any_emi2conc any_conc2forc any_add_results h_feedbacks t0 (cc0, reset_arrays (c_p sc) gt (c_erf sc))
    as_dict carbon r.
(** consecutive years of a carbon cycle *)
Fixpoint any_years (h : CC) (n : nat) (ins : list (A * A)) {struct ins} : CC * list A :=
  match ins with
  | [] => (h, [])
  | (em, dt) :: r => let '(h1, c) := year h n em dt in let '(h2, cs) := any_years h1 (S n) r in (h2, c :: cs)
  end.
End AnyCarbon.

Section BoxRun.
Context {A : Type} {N : Num A}.
Local Open Scope num_scope.
Variables (nan : A) (p : box_pam A) (sc : scenario A).
(** carbon_cycle_mod_box.py 120-149 with series; [np.clip] with a lower bound only *)
Definition npp_series (dt conc : list A) : list A :=
  map2 (fun d c => nmax #0 (#60 + b_beta_f p * nln (c / #278) - b_land_sens p * d)) dt conc.
(** carbon_cycle_mod_box.py 151-177 with series *)
Definition uptake_series (dt conc : list A) : list A :=
  map2 (fun d c => b_sol_base p * (#1 + b_sol_coeff p * d) * (c - #278)) dt conc.
(** carbon_cycle_mod_box.py 200-225 with a concentration series (the handler always passes one); temperature and
    concentration series are taken to be equally long *)
Definition box_output (yrs : list Z) (conc : list A) (series : dict (list A)) : result (frame A) :=
  let dt := match dget series "dtemp" with Some d => d | None => map (fun _ => #0) conc end in
  make_frame yrs [("Net primary production", npp_series dt conc); ("Ocean carbon flux", uptake_series dt conc)].
(** concentrations_emissions_handler.py 1030-1083; the preindustrial concentration is no parameter of this carbon cycle
    (carbon_cycle_abstract.py 113-128) *)
Definition box_data (s : box_state A) (st : hst A) (series : dict (list A)) : result (box_state A * frame A) :=
  do d <- key "CO2" (dget (s_conc st) "CO2");
  let conc := map snd d in
  let yrs := years_of (c_p sc) in
  if conc_run (c_p sc) then do f <- box_output yrs conc series; Ok (s, f)
  else
    do ff <- mapM (fr_get (c_emis sc) "CO2_FF") yrs;
    do af <- mapM (fr_get (c_emis sc) "CO2_AFOLU") yrs;
    do f <- box_output yrs conc series;
    do f <- set_col f "Airborne fraction CO2"
      (match airborne_fraction (map2 nadd ff af) conc #278 with Some l => l | None => map (fun _ => nan) ff end);
    Ok (s, f).
(** a run with the box carbon cycle, new or reset (carbon_cycle_mod_box.py 179-198) *)
Definition box_coupled_run {T} (th : thermal A T) (c : inst A) (gt : dict (gas A)) (t0 : T)
  (as_dict carbon : bool) (r : results A) : outcome A (box_state A * hst A) :=
  any_run nan (box_state A) (fun s _ em dt => box_year p s em dt) box_data sc th c gt t0 box_init as_dict carbon r.
End BoxRun.
