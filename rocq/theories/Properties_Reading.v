(** * Properties_Reading: from configuration and files to an instance and its runs (C102, C103, C104, C105) *)
From Coq Require Import QArith Lia.
From Verif Require Import PyBase PyBaseFacts Num M_Utils M_Pams M_Gas M_Driver M_Parallel M_Names M_Reader M_Input M_Whole M_WholeBox M_Reading Spec_Pams Spec_Input Spec_Numbers Spec_WholeBox Spec_Reading P_Reading P_Reading2 P_Reading3 P_Reading4 P_Reading5 P_Reading6 P_Reading7 Properties_Whole.

(** ** C102 *)
(** Every input of an instance is what its source contains: the file or object of the configuration, or the default. *)
Theorem C102_inputs : forall (A : Type) (N : Num A) nan fs object dir cwd cfg (x : data A), wf cfg -> read_data nan fs object dir cwd cfg = Ok x ->
  let is := input nan fs object dir cwd cfg in let may_be := optional_input nan fs object dir cwd cfg in
  may_be "forc" (option_map (@TForc A) (x_forc x)) /\
  (x_forc x = None ->
     (exists g, is "gaspam" (TGas g) /\ x_gas x = map (fun kl => (fst kl, gl_gas (snd kl))) g) /\
     is "nat_ch4" (TFrame (x_nat_ch4 x)) /\ is "nat_n2o" (TFrame (x_nat_n2o x)) /\ is "concentrations" (TFrame (x_conc x)) /\ is "emissions" (TFrame (x_emis x)) /\
     may_be "perturb_em" (option_map (@TPerturb A) (x_perturb_em x)) /\ may_be "perturb_forc" (option_map (@TPerturb A) (x_perturb_forc x)) /\
     x_conc_run x = match dget cfg "conc_run" with Some v => truth v | None => false end) /\
  is "rf_volc_n" (TRows (x_vn x)) /\ is "rf_volc_s" (TRows (x_vs x)) /\
  (exists rows, is "rf_sun" (TRows rows) /\ first_cells rows (x_sun x)) /\ (exists rows, is "rf_luc" (TRows rows) /\ first_cells rows (x_luc x)).
Proof. intros A N. exact (@c102_fields A N). Qed.
Print Assumptions C102_inputs.
(** Concentrations of an instance: the cells of the file for the years of the run, and no others. *)
Theorem C102_concentrations : forall (A : Type) (N : Num A) nan fs object dir cwd cfg (x : data A) p f first last,
  wf cfg -> read_data nan fs object dir cwd cfg = Ok x -> x_forc x = None -> run_window cfg first last ->
  dget cfg "concentrations_file" = Some p -> fs_years fs (CV p) = Ok f -> tidy f -> forall c y v,
  fr_get (x_conc x) c y = Ok v <-> (first <= y <= last)%Z /\ cell f y c v.
Proof. intros A N. exact (@c102_concentrations A N). Qed.
Print Assumptions C102_concentrations.
(** The same for emissions, with the two columns of CO2. *)
Theorem C102_emissions : forall (A : Type) (N : Num A) nan fs object dir cwd cfg (x : data A) p f first last,
  wf cfg -> read_data nan fs object dir cwd cfg = Ok x -> x_forc x = None -> run_window cfg first last ->
  dget cfg "emissions_file" = Some p -> fs_years fs (CV p) = Ok f -> tidy f -> ~ In "CO2_FF" (yf_names f) -> ~ In "CO2_AFOLU" (yf_names f) -> forall c y v,
  fr_get (x_emis x) c y = Ok v <-> (first <= y <= last)%Z /\ exists col, emission_column c = Some col /\ cell f y col v.
Proof. intros A N. exact (@c102_emissions A N). Qed.
Print Assumptions C102_emissions.
(** Volcanic forcing: one row for each year of the run, row [y - 1750] of the file for year [y]. *)
Theorem C102_volcanic : forall (A : Type) (N : Num A) nan fs object dir cwd cfg (x : data A) first last,
  wf cfg -> read_data nan fs object dir cwd cfg = Ok x -> run_window cfg first last -> (1750 <= first <= last)%Z -> forall what l p rows,
  In (what, l) [("rf_volc_n", x_vn x); ("rf_volc_s", x_vs x)] -> dget cfg (what ++ "_file") = Some p -> fs_rows fs (CV p) = Ok rows ->
  List.length l = Z.to_nat (last - first + 1) /\
  forall y, (first <= y <= last)%Z -> nth_error l (Z.to_nat (y - first)) = nth_error rows (Z.to_nat (y - 1750)).
Proof. intros A N. exact (@c102_volcanic A N). Qed.
Print Assumptions C102_volcanic.
(** Solar and land-use forcing: the first number of that row. *)
Theorem C102_sun_and_land_use : forall (A : Type) (N : Num A) nan fs object dir cwd cfg (x : data A) first last,
  wf cfg -> read_data nan fs object dir cwd cfg = Ok x -> run_window cfg first last -> (1750 <= first <= last)%Z -> forall what l p rows,
  In (what, l) [("rf_sun", x_sun x); ("rf_luc", x_luc x)] -> dget cfg (what ++ "_file") = Some p -> fs_rows fs (CV p) = Ok rows ->
  List.length l = Z.to_nat (last - first + 1) /\
  forall y, (first <= y <= last)%Z -> exists v rest, nth_error l (Z.to_nat (y - first)) = Some v /\ nth_error rows (Z.to_nat (y - 1750)) = Some (v :: rest).
Proof. intros A N. exact (@c102_first A N). Qed.
Print Assumptions C102_sun_and_land_use.
(** A forcing file whose first line does not begin with "year" is a series of total forcing, another one the table that [read_forc_table] makes (C57). *)
Theorem C102_forcing_file : forall (A : Type) (N : Num A) nan fs object dir cwd cfg (x : data A) p line, wf cfg -> read_data nan fs object dir cwd cfg = Ok x ->
  dget cfg "forc_file" = Some p -> fs_exists fs (CV p) = true -> fs_first_line fs (CV p) = Ok line ->
  (is_component_file line = false -> forall l, fs_numbers fs (CV p) = Ok l -> x_forc x = Some (RfArray l)) /\
  (is_component_file line = true -> forall f, fs_components fs (CV p) = Ok f -> exists g, x_forc x = Some (RfFrame g) /\ fr_index g = fr_index (read_forc_table f) /\
     forall c, dget (fr_cols g) c = option_map (map (fun o => match o with Some v => v | None => nan end)) (dget (fr_cols (read_forc_table f)) c)).
Proof. intros A N. exact (@c102_forcing A N). Qed.
Print Assumptions C102_forcing_file.
Theorem C102_gas_table : forall (A : Type) (N : Num A) nan fs object dir cwd cfg (x : data A) p g, wf cfg -> read_data nan fs object dir cwd cfg = Ok x -> x_forc x = None ->
  dget cfg "gaspam_file" = Some p -> fs_exists fs (CV p) = true -> fs_gas fs (CV p) = Ok g -> x_gas x = map (fun kl => (fst kl, gl_gas (snd kl))) g.
Proof. intros A N. exact (@c102_gases A N). Qed.
Print Assumptions C102_gas_table.
(** Natural emissions: line [y - 1750] of the file for year [y]; without file and object, the number of the gas table in every year of the run. *)
Theorem C102_natural : forall (A : Type) (N : Num A) nan fs object dir cwd cfg (x : data A), wf cfg -> read_data nan fs object dir cwd cfg = Ok x -> x_forc x = None -> forall what c f,
  In (what, c, f) [("nat_ch4", "CH4", x_nat_ch4 x); ("nat_n2o", "N2O", x_nat_n2o x)] ->
  (forall p values, dget cfg (what ++ "_file") = Some p -> fs_exists fs (CV p) = true -> fs_column fs (CV p) = Ok values ->
     List.length values = 751 /\ forall y, (1750 <= y <= 2500)%Z -> exists v, nth_error values (Z.to_nat (y - 1750)) = Some v /\ fr_get f c y = Ok v) /\
  (given cfg what = false -> forall g first last, wf (x_gas x) -> dget (x_gas x) c = Some g -> run_window cfg first last ->
     forall y, (first <= y <= last)%Z -> fr_get f c y = Ok (g_nat g)).
Proof. intros A N. exact (@c102_natural A N). Qed.
Print Assumptions C102_natural.
Theorem C102_perturbations : forall (A : Type) (N : Num A) nan fs object dir cwd cfg (x : data A), wf cfg -> read_data nan fs object dir cwd cfg = Ok x -> x_forc x = None -> forall what o,
  In (what, o) [("perturb_em", x_perturb_em x); ("perturb_forc", x_perturb_forc x)] ->
  (given cfg what = false -> o = None) /\
  forall p t, dget cfg (what ++ "_file") = Some p -> fs_exists fs (CV p) = true -> fs_perturb fs (CV p) = Ok t -> o = Some t.
Proof. intros A N. exact (@c102_perturbations A N). Qed.
Print Assumptions C102_perturbations.
(** A forcing run is one whose configuration names a forcing file or object, whatever its value; the class of the inputs says the same. *)
Theorem C102_forcing_run : forall (A : Type) (N : Num A) nan fs object dir cwd cfg (x : data A), wf cfg -> read_data nan fs object dir cwd cfg = Ok x ->
  (x_forc x = None <-> dget cfg "forc_file" = None /\ dget cfg "forc_data" = None) /\
  forall h, open_inputs nan fs object dir cwd cfg = Ok h -> get_rf_type h = true <-> x_forc x <> None.
Proof. intros A N. exact (@c102_forcing_run A N). Qed.
Print Assumptions C102_forcing_run.
(** With an emission file that lists every gas, the units of the gas table are those of the emission file and of the concentration file. *)
Theorem C102_units : forall (A : Type) (N : Num A) nan fs object dir cwd cfg (x : data A) g p f, wf cfg -> read_data nan fs object dir cwd cfg = Ok x ->
  input nan fs object dir cwd cfg "gaspam" (TGas g) -> dget cfg "emissions_file" = Some p -> fs_years fs (CV p) = Ok f -> all_gases_listed nan fs object dir cwd cfg ->
  forall k l, In (k, l) g -> ~ In k no_em ->
  (forall u, dget (combine (yf_names f) (yf_units f)) k = Some u -> u = gl_em_unit l) /\
  (forall q fc u, dget cfg "concentrations_file" = Some q -> fs_years fs (CV q) = Ok fc -> dget (combine (yf_names fc) (yf_units fc)) k = Some u -> u = g_unit (gl_gas l)).
Proof. intros A N. exact (@c102_units A N). Qed.
Print Assumptions C102_units.
(** Concentrations drive the run if the flag is given and is not false: neither None nor the empty string nor zero (False is zero). *)
Theorem C102_concentration_run : forall (A : Type) (N : Num A) nan fs object dir cwd cfg (x : data A), wf cfg -> read_data nan fs object dir cwd cfg = Ok x -> x_forc x = None ->
  x_conc_run x = true <-> exists v, dget cfg "conc_run" = Some v /\ v <> VNone /\ v <> VStr "" /\ forall q, num_of v = Some (FFin q) -> ~ (q == 0)%Q.
Proof. intros A N. exact (@c102_conc_run A N). Qed.
Print Assumptions C102_concentration_run.
(** With the switch off and no file, no solar forcing, and no volcanic forcing in any month; an object is ignored. *)
Theorem C102_no_sun_no_volcanoes : forall (A : Type) (N : Num A) nan fs object dir cwd cfg (x : data A) first last, wf cfg -> read_data nan fs object dir cwd cfg = Ok x ->
  run_window cfg first last -> sunvolc_on cfg = false ->
  (forall what l, In (what, l) [("rf_volc_n", x_vn x); ("rf_volc_s", x_vs x)] -> dget cfg (what ++ "_file") = None ->
     l = repeat (repeat (nofZ 0) 12) (Z.to_nat (last - first + 1))) /\
  (dget cfg "rf_sun_file" = None -> x_sun x = repeat (nofZ 0) (Z.to_nat (last - first + 1))).
Proof. intros A N. exact (@c102_zeros A N). Qed.
Print Assumptions C102_no_sun_no_volcanoes.

(** ** C103 *)
(** An object equal to what is read from a file may stand in for the file: the instance is the same. For solar and volcanic forcing the switch "sunvolc" must be on, or
    the object is ignored; for emissions every gas must have a column, see [C103_units_hidden]. *)
Theorem C103_file_or_object : forall (A : Type) (N : Num A) nan fs object dir cwd cfg what v p t number float_of (m : model A),
  wf cfg -> dget cfg (what ++ "_file") = Some p -> input nan fs object dir cwd cfg what t -> object v = Some t ->
  (sun_volc what = true -> sunvolc_on cfg = true) -> (what = "emissions" -> all_gases_listed nan fs object dir cwd cfg) ->
  construct nan fs object dir cwd number float_of cfg = Ok m -> construct nan fs object dir cwd number float_of (with_object cfg what v) = Ok m.
Proof. intros A N nan fs object dir cwd cfg what v p t number float_of m W P I O S E. exact (c103_construct nan fs object dir cwd cfg what v p t W P I O S E number float_of m). Qed.
Print Assumptions C103_file_or_object.

(** ** C104 *)
(** What files contain for years outside the run does not matter: the same instance, or the same error. *)
Theorem C104_other_years : forall (A : Type) (N : Num A) nan fs fs' object dir cwd first last, same_in_window first last fs fs' -> (first <= last)%Z ->
  forall number float_of cfg, wf cfg -> run_window cfg first last ->
  construct nan fs object dir cwd number float_of cfg = construct (A := A) nan fs' object dir cwd number float_of cfg.
Proof. intros A N nan fs fs' object dir cwd first last S L. exact (c104_construct nan fs fs' object dir cwd first last S L). Qed.
Print Assumptions C104_other_years.

(** ** C105 *)
(** A run from files that completes has its reference year, 2010 if none is given, among its years (gas table with ordinary tropospheric ozone). *)
Theorem C105_reference_year : forall (A : Type) (N : Num A) nan number float_of fs object dir cwd cfg x m0 cs m c b g p f first last,
  wf cfg -> Forall dictionaries (cs ++ [c]) -> read_data nan fs object dir cwd cfg = Ok x -> x_forc x = None ->
  run_window cfg first last -> (first <= last)%Z -> dget cfg "concentrations_file" = Some p -> fs_years fs (CV p) = Ok f -> tidy f ->
  wf (x_gas x) -> dget (x_gas x) "TROP_O3" = Some g -> g_unit g = "-" -> neqb (g_alpha g) (nofZ 0) = true ->
  construct nan fs object dir cwd number float_of cfg = Ok m0 -> model_after nan number m0 cs m ->
  model_run (A := A) nan number m (cf_udm c) (cf_emiconc c) (cf_carbon c) = Ok b ->
  exists z, whole_number (num_or (cf_emiconc c) "ref_yr" (VInt 2010)) = Ok z /\ (first <= z <= last)%Z.
Proof. intros A N. exact (@c105_reference A N). Qed.
Print Assumptions C105_reference_year.
(** A completed run from files that uses emissions of a year, with the default lifetime of methane, has 2000 among its years. *)
Theorem C105_year_2000 : forall (A : Type) (N : Num A) nan number float_of fs object dir cwd cfg x m0 cs m c b g p f first last em,
  wf cfg -> Forall dictionaries (cs ++ [c]) -> read_data nan fs object dir cwd cfg = Ok x -> x_forc x = None -> x_conc_run x = false ->
  run_window cfg first last -> (first <= last)%Z -> whole_number (num_or (Some cfg) "emstart" (VInt 1850)) = Ok em -> (em <= last)%Z ->
  dget cfg "emissions_file" = Some p -> fs_years fs (CV p) = Ok f -> tidy f -> ~ In "CO2_FF" (yf_names f) -> ~ In "CO2_AFOLU" (yf_names f) ->
  wf (x_gas x) -> dget (x_gas x) "TROP_O3" = Some g -> g_unit g = "-" -> neqb (g_alpha g) (nofZ 0) = true ->
  construct nan fs object dir cwd number float_of cfg = Ok m0 -> model_after nan number m0 cs m ->
  match Spec_Pams.given (cf_emiconc c) "lifetime_mode" with Some v => as_text v | None => "TAR" end = "TAR" ->
  model_run (A := A) nan number m (cf_udm c) (cf_emiconc c) (cf_carbon c) = Ok b -> (first <= 2000 <= last)%Z.
Proof. intros A N. exact (@c105_2000 A N). Qed.
Print Assumptions C105_year_2000.

(** ** Examples: two years of files over the rationals *)
Definition rx_names : list string := ["CO2"; "CO2.1"; "CH4"; "N2O"; "SO2"; "SF6"; "NOx"; "CO"; "NMVOC"; "BMB_AEROS_OC"; "BMB_AEROS_BC"].
Definition rx_row (f l : Q) : list Q := [f; l; 1; 1; 0; 1; 1; 1; 1; 1; 1]%Q.
(** [extra] is the value of 1999 and 2002 *)
Definition rx_emissions (names : list string) (extra : Q) : yearfile Q :=
  {| yf_names := names; yf_units := map (fun _ => "Tg") names;
     yf_rows := [(1999, rx_row extra 0); (2000, rx_row 8 2); (2001, rx_row 9 1); (2002, rx_row extra 0)]%Z |}.
Definition rx_concentrations (extra : Q) : yearfile Q :=
  {| yf_names := ["CO2"; "CH4"; "N2O"; "SF6"; "SO2"]; yf_units := ["ppm"; "ppb"; "ppb"; "ppt"; "-"];
     yf_rows := [(1999%Z, repeat extra 5); (2000%Z, [280; 700; 270; 1; 0]%Q); (2001%Z, [290; 701; 271; 2; 0]%Q); (2002%Z, repeat extra 5)] |}.
Definition rx_gases (unit : string) : dict (gasline Q) :=
  map (fun ku => (fst ku, {| gl_em_unit := "Tg"; gl_gas := wx_gas (snd ku) |}))
    [("CO2", "ppm"); ("CH4", unit); ("N2O", "ppb"); ("SF6", "ppt"); ("SO2", "-"); ("LANDUSE", "-"); ("OTHER", "-"); ("SO4_IND", "-"); ("TROP_O3", "-");
     ("STRAT_O3", "-"); ("STRAT_H2O", "-"); ("BMB_AEROS", "-")].
(** row of year 1750 + i, with [extra] in other years than the two *)
Definition rx_rows (extra : Q) : list (list Q) := map (fun i => [if Nat.eqb i 250 then Qmake 5 10 else if Nat.eqb i 251 then Qmake 7 10 else extra; Qmake 3 1]%Q) (seq 0 260).
Definition rx_is (p : cval Q) (s : string) : bool := match p with CV (VStr q) => String.eqb q s | _ => false end.
Definition rx_file {B} (l : list (string * B)) (p : cval Q) : result B :=
  match find (fun nb => rx_is p (fst nb)) l with Some nb => Ok (snd nb) | None => Err FileNotFoundError end.
Definition rx_fs (names : list string) (unit : string) (extra : Q) : files Q :=
  {| fs_exists := fun p => existsb (rx_is p) ["em"; "conc"; "gases.txt"; "/data/IPCC_LUCalbedo.txt"; "/data/solar_IPCC.txt"; "volc"];
     fs_first_line := fun _ => Err FileNotFoundError; fs_numbers := fun _ => Err FileNotFoundError; fs_components := fun _ => Err FileNotFoundError;
     fs_gas := rx_file [("gases.txt", rx_gases unit)]; fs_column := fun _ => Err FileNotFoundError;
     fs_years := rx_file [("em", rx_emissions names extra); ("conc", rx_concentrations extra)]; fs_perturb := fun _ => Err FileNotFoundError;
     fs_rows := rx_file [("/data/IPCC_LUCalbedo.txt", rx_rows extra); ("/data/solar_IPCC.txt", rx_rows extra); ("volc", rx_rows extra)] |}.
Definition rx_cfg : dict pyval := wx_scen ++ [("emissions_file", VStr "em"); ("concentrations_file", VStr "conc"); ("sunvolc", VInt 1); ("rf_volc_n_file", VStr "volc"); ("rf_volc_s_file", VStr "volc")].
(** the emissions as an object *)
Definition rx_object (v : pyval) : option (thing Q) :=
  match v with
  | VStr s => if String.eqb s "frame" then
      match read_by (N := QNum) (- 999)%Q (rx_fs rx_names "ppb" 77) (MEmissions (VInt 2000) (VInt 2001)) (CV (VStr "em")) with Ok t => Some t | Err _ => None end else None
  | _ => None
  end.
Definition rx_read (names : list string) (unit : string) (extra : Q) (cfg : dict pyval) : result (data Q) :=
  read_data (N := QNum) (- 999)%Q (rx_fs names unit extra) rx_object "/data" "/here" cfg.
Definition rx_conc (names : list string) (unit : string) (extra : Q) (cfg : dict pyval) : result (list Q) :=
  do m <- construct (N := QNum) (- 999)%Q (rx_fs names unit extra) rx_object "/data" "/here" wx_number FFin cfg;
  do m <- model_run (N := QNum) (- 999)%Q wx_number m (Some []) (Some [("ref_yr", VInt 2001)]) (Some []);
  do q <- model_timeseries (N := QNum) Qnum (VInt 2000) (VInt 2001) m "Atmospheric Concentrations|CO2"
    {| u_components := ["CO2"]; u_units := ["Pg C / yr"]; u_concunits := ["ppm"] |}; Ok (map Qred (snd (fst q))).
Example C102_example :
  wf rx_cfg /\ run_window rx_cfg 2000 2001 /\ tidy (rx_emissions rx_names 77) /\ tidy (rx_concentrations 77) /\
  (do x <- rx_read rx_names "ppb" 77 rx_cfg; do a <- fr_get (x_emis x) "CO2_FF" 2001; do b <- fr_get (x_emis x) "CO2_AFOLU" 2000; do c <- fr_get (x_conc x) "CH4" 2001;
   Ok (a, b, c, x_sun x, x_luc x, x_vn x, fr_index (x_emis x), dkeys (x_gas x))) =
  Ok (9, 2, 701, [Qmake 5 10; Qmake 7 10], [Qmake 5 10; Qmake 7 10], [[Qmake 5 10; Qmake 3 1]; [Qmake 7 10; Qmake 3 1]], [2000; 2001]%Z, dkeys (rx_gases "ppb"))%Q /\
  (do x <- rx_read rx_names "ppb" 77 rx_cfg; fr_get (x_emis x) "CO2_FF" 2002) = Err (KeyError "year") /\
  (do x <- rx_read rx_names "ppb" 77 rx_cfg; fr_get (x_emis x) "CO2" 2001) = Err (KeyError "CO2").
Proof.
  split; [apply wf_lit; reflexivity|]. split; [split; reflexivity|].
  split; [constructor; [repeat constructor; cbn; intuition discriminate | exists 1999%Z; reflexivity |]|].
  { intros y row I. cbn in I. repeat (destruct I as [I|I]; [injection I as <- <-; reflexivity|]). destruct I. }
  split; [constructor; [repeat constructor; cbn; intuition discriminate | exists 1999%Z; reflexivity |]|].
  { intros y row I. cbn in I. repeat (destruct I as [I|I]; [injection I as <- <-; reflexivity|]). destruct I. }
  vm_compute. repeat split; reflexivity.
Qed.
(** the other inputs; forcing files of both kinds, natural emissions, perturbations *)
Definition rx_fs2 : files Q :=
  let f := rx_fs rx_names "ppb" 77 in
  {| fs_exists := fun p => fs_exists f p || existsb (rx_is p) ["total"; "agents"; "ch4"; "pert"];
     fs_first_line := rx_file [("total", "0.5"); ("agents", "Year CO2 SO2")]; fs_numbers := rx_file [("total", [Qmake 5 10; Qmake 6 10])];
     fs_components := rx_file [("agents", {| fr_index := [2000; 2001]%Z; fr_cols := [("CO2", [Some 3%Q; None]); ("SO2", [Some (Qmake (-1) 1); Some 2%Q])] |})];
     fs_gas := fs_gas f; fs_column := rx_file [("ch4", map inject_Z (zrange 1750 751))]; fs_years := fs_years f;
     fs_perturb := rx_file [("pert", [(2001%Z, "CH4", Qmake 7 1)])]; fs_rows := fs_rows f |}.
Definition rx_read2 (extra : dict pyval) : result (data Q) := read_data (N := QNum) (- 999)%Q rx_fs2 rx_object "/data" "/here" (rx_cfg ++ extra).
Example C102_other_inputs :
  (do x <- rx_read2 [("forc_file", VStr "total")]; Ok (x_forc x)) = Ok (Some (RfArray [Qmake 5 10; Qmake 6 10])) /\
  (do x <- rx_read2 [("forc_file", VStr "agents")]; Ok (match x_forc x with Some (RfFrame g) => map (fun c => dget (fr_cols g) c) ["CO2"; "SO2"; "total"] | _ => [] end)) =
    Ok [Some [3; - 999]%Q; Some [Qmake (-1) 1; 2]%Q; Some [2; 2]%Q] /\
  (do x <- rx_read2 [("nat_ch4_file", VStr "ch4")]; do a <- fr_get (x_nat_ch4 x) "CH4" 1803; do b <- fr_get (x_nat_n2o x) "N2O" 2001; Ok (a, Some b, x_perturb_em x)) =
    Ok (1803%Q, option_map (fun g => g_nat (gl_gas g)) (dget (rx_gases "ppb") "N2O"), None) /\
  map (fun v => do x <- rx_read2 [("conc_run", v)]; Ok (x_conc_run x)) [VBool true; VBool false; VNone; VStr "no"; VFloat (FFin (Qmake 0 1))] =
    [Ok true; Ok false; Ok false; Ok true; Ok false] /\
  (do x <- rx_read2 [("perturb_em_file", VStr "pert")]; Ok (x_perturb_em x, x_perturb_forc x)) = Ok (Some [(2001%Z, "CH4", Qmake 7 1)], None) /\
  (do x <- read_data (N := QNum) (- 999)%Q rx_fs2 rx_object "/data" "/here" (ddel (ddel (ddel rx_cfg "sunvolc") "rf_volc_n_file") "rf_volc_s_file"); Ok (x_vn x, x_vs x, x_sun x)) =
    Ok ([repeat 0 12; repeat 0 12], [repeat 0 12; repeat 0 12], [0; 0])%Q.
Proof. vm_compute. repeat split. Qed.
(** Emissions from the file or as an object: the same concentrations. *)
Example C103_example :
  rx_conc rx_names "ppb" 77 rx_cfg = rx_conc rx_names "ppb" 77 (with_object rx_cfg "emissions" (VStr "frame")) /\
  (exists l, rx_conc rx_names "ppb" 77 rx_cfg = Ok l /\ l <> []).
Proof. vm_compute. split; [reflexivity | eexists; split; [reflexivity | discriminate]]. Qed.
Lemma rx_frame : read_by (N := QNum) (- 999)%Q (rx_fs rx_names "ppb" 77) (MEmissions (VInt 2000) (VInt 2001)) (CV (VStr "em")) =
  match rx_object (VStr "frame") with Some t => Ok t | None => Err TypeError end.
Proof. vm_compute. reflexivity. Qed.
(** The hypotheses of [C103_file_or_object] hold here. *)
Example C103_hypotheses : exists t, rx_object (VStr "frame") = Some t /\ input (N := QNum) (- 999)%Q (rx_fs rx_names "ppb" 77) rx_object "/data" "/here" rx_cfg "emissions" t /\
  all_gases_listed (N := QNum) (- 999)%Q (rx_fs rx_names "ppb" 77) rx_object "/data" "/here" rx_cfg /\ sun_volc "emissions" = false.
Proof.
  destruct (rx_object (VStr "frame")) as [t|] eqn:E; [|vm_compute in E; discriminate E]. exists t. split; [reflexivity|]. split; [|split; [|reflexivity]].
  - eexists. exists (Read (MEmissions (VInt 2000) (VInt 2001)) (CV (VStr "em"))). split; [reflexivity|]. split; [apply (S_file _ _ _ _ _ _ _ (VStr "em")); [reflexivity|]; reflexivity|].
    cbn [content]. rewrite rx_frame, E. reflexivity.
  - intros p f g P F I k K NI. injection P as <-. assert (f = rx_emissions rx_names 77) as -> by (injection F as <-; reflexivity). clear F E t.
    assert (g = rx_gases "ppb") as ->.
    { destruct (open_inputs (N := QNum) (- 999)%Q (rx_fs rx_names "ppb" 77) rx_object "/data" "/here" rx_cfg) as [h|] eqn:O; [|vm_compute in O; discriminate O].
      apply (input_get (N := QNum) (- 999)%Q (rx_fs rx_names "ppb" 77) rx_object "/data" "/here" rx_cfg h) in I; [|apply wf_lit; reflexivity | exact O].
      assert (dget h "gaspam_file" = Some (CV (VStr "gases.txt"))) as G.
      { assert ((do h <- open_inputs (N := QNum) (- 999)%Q (rx_fs rx_names "ppb" 77) rx_object "/data" "/here" rx_cfg; Ok (dget h "gaspam_file")) = Ok (Some (CV (VStr "gases.txt")))) as X by (vm_compute; reflexivity).
        rewrite O in X. cbn [rbind] in X. congruence. }
      unfold get, get_data in I. change ("gaspam" ++ "_file")%string with "gaspam_file" in I. rewrite G in I. change (dget (read_methods (start_of h) (stop_of h)) "gaspam") with (Some MComponents) in I. cbn [rbind content read_by] in I.
      change (fs_gas (rx_fs rx_names "ppb" 77) (CV (VStr "gases.txt"))) with (Ok (rx_gases "ppb")) in I. cbn [rbind] in I. congruence. }
    cbn in K. repeat (destruct K as [<-|K]; [try (exfalso; apply NI; cbn; tauto); (split; [discriminate | exists "Tg"; cbn; tauto])|]). destruct K.
Qed.
(** Without a column for SF6 in the emission file no unit is checked, so that the wrong unit of CH4 in the gas table goes unnoticed: the instance is made. With the
    emissions of that file as an object the units of concentrations are checked, and it is a ValueError. *)
Definition rx_short : list string := map (fun n => if String.eqb n "SF6" then "HFC" else n) rx_names.
Definition rx_try (object : pyval -> option (thing Q)) (cfg : dict pyval) : option exn :=
  match construct (N := QNum) (- 999)%Q (rx_fs rx_short "ppt" 77) object "/data" "/here" wx_number FFin cfg with Ok _ => None | Err e => Some e end.
Example C103_units_hidden :
  let file := read_by (N := QNum) (- 999)%Q (rx_fs rx_short "ppt" 77) (MEmissions (VInt 2000) (VInt 2001)) (CV (VStr "em")) in
  let object := fun _ => match file with Ok t => Some t | Err _ => None end in
  rx_try object rx_cfg = None /\ object (VStr "frame") <> None /\ rx_try object (with_object rx_cfg "emissions" (VStr "frame")) = Some ValueError.
Proof. vm_compute. repeat split. discriminate. Qed.
(** Years outside the run do not count; those of the run do. *)
Example C104_example :
  rx_conc rx_names "ppb" 77 rx_cfg = rx_conc rx_names "ppb" (- 5) rx_cfg /\ same_in_window 2000 2001 (rx_fs rx_names "ppb" 77) (rx_fs rx_names "ppb" (- 5)) /\
  (exists l, rx_conc rx_names "ppb" 77 rx_cfg = Ok l) /\
  rx_conc rx_names "ppb" 77 (dset rx_cfg "nyend" (VInt 2002)) <> rx_conc rx_names "ppb" (- 5) (dset rx_cfg "nyend" (VInt 2002)).
Proof.
  split; [vm_compute; reflexivity|]. split; [|split; [vm_compute; eexists; reflexivity | vm_compute; discriminate]].
  constructor; try reflexivity.
  - intros p. cbn [rx_fs fs_years]. unfold rx_file. cbn [find fst snd]. destruct (rx_is p "em"); [|destruct (rx_is p "conc"); [|reflexivity]]; cbn [same_years].
    + split; [reflexivity|]. split; [reflexivity|]. right.
      assert (forall e, tidy (rx_emissions rx_names e)) as T.
      { constructor; [repeat constructor; cbn; intuition discriminate | exists 1999%Z; reflexivity |]. intros y row I. cbn in I. repeat (destruct I as [I|I]; [injection I as <- <-; reflexivity|]). destruct I. }
      split; [apply T|]. split; [apply T|]. split; [intros y B; cbn; lia|]. split; [intros y B; cbn; lia|].
      intros y row B. cbn. split; (intros [I|[I|[I|[I|[]]]]]; injection I as <- <-; try lia; tauto).
    + split; [reflexivity|]. split; [reflexivity|]. right.
      assert (forall e, tidy (rx_concentrations e)) as T.
      { constructor; [repeat constructor; cbn; intuition discriminate | exists 1999%Z; reflexivity |]. intros y row I. cbn in I. repeat (destruct I as [I|I]; [injection I as <- <-; reflexivity|]). destruct I. }
      split; [apply T|]. split; [apply T|]. split; [intros y B; cbn; lia|]. split; [intros y B; cbn; lia|].
      intros y row B. cbn. split; (intros [I|[I|[I|[I|[]]]]]; injection I as <- <-; try lia; tauto).
  - intros p. cbn [rx_fs fs_rows]. unfold rx_file. cbn [find fst snd].
    assert (forall y, (2000 <= y <= 2001)%Z -> nth_error (rx_rows 77) (Z.to_nat (y - 1750)) <> None /\ nth_error (rx_rows 77) (Z.to_nat (y - 1750)) = nth_error (rx_rows (- 5)) (Z.to_nat (y - 1750))) as R.
    { intros y B. assert (y = 2000 \/ y = 2001)%Z as [-> | ->] by lia; (vm_compute; split; [discriminate | reflexivity]). }
    destruct (rx_is p "/data/IPCC_LUCalbedo.txt"); [right; split; [lia | exact R]|]. destruct (rx_is p "/data/solar_IPCC.txt"); [right; split; [lia | exact R]|].
    destruct (rx_is p "volc"); [right; split; [lia | exact R]|]. reflexivity.
Qed.
(** The same instance: a run with reference year 2001 completes, without a reference year it ends in KeyError. With years 2001 and 2002 the default lifetime of methane
    asks for 2000, a constant lifetime does not. *)
Definition rx_end (cfg emiconc : dict pyval) : option exn :=
  match (do m <- construct (N := QNum) (- 999)%Q (rx_fs rx_names "ppb" 77) rx_object "/data" "/here" wx_number FFin cfg;
         model_run (N := QNum) (- 999)%Q wx_number m (Some []) (Some emiconc) (Some [])) with Ok _ => None | Err e => Some e end.
Definition rx_later : dict pyval := dset (dset (dset rx_cfg "nystart" (VInt 2001)) "nyend" (VInt 2002)) "emstart" (VInt 2002).
Example C105_example :
  rx_end rx_cfg [("ref_yr", VInt 2001)] = None /\ rx_end rx_cfg [] = Some (KeyError "year") /\
  rx_end rx_later [("ref_yr", VInt 2001)] = Some (KeyError "year") /\
  rx_end rx_later [("ref_yr", VInt 2001); ("lifetime_mode", VStr "CONSTANT_12")] = None /\
  option_map (fun g => (gl_gas g).(g_unit)) (dget (rx_gases "ppb") "TROP_O3") = Some "-" /\
  option_map (fun g => neqb (Num := QNum) (gl_gas g).(g_alpha) (nofZ (Num := QNum) 0)) (dget (rx_gases "ppb") "TROP_O3") = Some true.
Proof. vm_compute. repeat split. Qed.
