(** * Properties_Reader: result variables and unit tables (C69-C73, C82) *)
From Coq Require Import Ascii Reals QArith.
From Verif Require Import PyBase PyBaseFacts Num M_Gas M_Driver M_Reader Spec_Reader P_Reader P_Reader2 P_Reader3 P_Reader4.
Open Scope string_scope.
Open Scope R_scope.

(** ** C69 *)
(** The aerosol forcing variables report the column SO4_DIR alone (black and organic carbon, indirect effects are left out). *)
Theorem C69_aerosols : forall nys nye (r : results R) u v f ys ts unit, In v aerosol_variables -> dget r "forcing" = Some (Fr f) -> rectangular f ->
  get_variable_timeseries nys nye r v u = Ok (ys, ts, unit) <->
  in_frame r "forcing" "Year" ys /\ in_frame r "forcing" "SO4_DIR" ts /\ unit = "W/m^2".
Proof. exact c69. Qed.
Print Assumptions C69_aerosols.
(** Before a reader has been constructed the shared table lacks that name, and the same function reports zeros. *)
Theorem C69_before_any_reader : forall (f : frame R) s a b ys, In s forc_sums -> fr_col f "Year" = Ok ys ->
  forc_common f s openscm_to_cscm_dict a b = Ok (ys, map (fun _ => 0) ys).
Proof. exact fc_aerosols_before. Qed.
Print Assumptions C69_before_any_reader.

(** A forcing frame with five components over two years, and results around it *)
Definition ex_forcing : frame Q := Build_frame [2000; 2001]%Z
  [("Year", [2000; 2001]%Q); ("CO2", [1; 2]%Q); ("SO4_DIR", [- 3; - 4]%Q); ("BC", [5; 6]%Q); ("HFC32", [7; 8]%Q); ("CFC-11", [9; 10]%Q);
   ("Total_forcing", [19; 22]%Q)].
Definition ex_carbon : frame Q := Build_frame [2000; 2001; 2002]%Z
  [("Biosphere carbon flux", [1; 2; 3]%Q); ("Ocean carbon flux", [4; 4; 5]%Q)].
Definition ex_results : results Q :=
  [("forcing", Fr ex_forcing); ("carbon cycle", Fr ex_carbon); ("Volcanic_forcing_NH", Arr [1; 2]%Q); ("Volcanic_forcing_SH", Arr [3; 6]%Q);
   ("Solar_forcing", Arr [100; 200]%Q); ("OHCTOT", Arr [1; 2]%Q); ("dT_glob", Arr [5; 6]%Q);
   ("concentrations", Fr (Build_frame [2000]%Z [("Year", [2000]%Q); ("CO2", [300]%Q); ("TROP_O3", [20]%Q)]))].
Definition ex_units : units := {| u_components := ["CO2"; "CO2_lu"; "N2O"]; u_units := ["PgC / yr"; "PgC / yr"; "TgN2ON / yr"]; u_concunits := ["ppm"; "ppm"; "ppb"] |}.
Local Notation series v := (get_variable_timeseries (N := QNum) 2000 2001 ex_results v ex_units).
Example C69_example :
  series "Effective Radiative Forcing|Anthropogenic|Aerosol" = Ok ([2000; 2001]%Q, [- 3; - 4]%Q, "W/m^2") /\
  series "Effective Radiative Forcing|Anthropogenic|Aerosol|Aerosol-radiation Interactions|BC" = Ok ([2000; 2001]%Q, [5; 6]%Q, "W/m^2") /\
  forc_common (N := QNum) ex_forcing "Aerosols" openscm_to_cscm_dict (Scalar 0%Q) (Scalar 0%Q) = Ok ([2000; 2001]%Q, [0; 0]%Q).
Proof. vm_compute. repeat split. Qed.

(** ** C70 *)
Theorem C70_fgases : forall nys nye (r : results R) u f ys, dget r "forcing" = Some (Fr f) -> rectangular f -> dget (fr_cols f) "Year" = Some ys ->
  exists ts, get_variable_timeseries nys nye r fgas_variable u = Ok (ys, ts, "W/m^2") /\ List.length ts = List.length ys /\
    forall i, nth i ts 0 = row_sum f (map fst published_fgases) i.
Proof. exact c70_fgas. Qed.
Print Assumptions C70_fgases.
Theorem C70_greenhouse_gases : forall nys nye (r : results R) u f ys, dget r "forcing" = Some (Fr f) -> rectangular f -> dget (fr_cols f) "Year" = Some ys ->
  exists ts, get_variable_timeseries nys nye r ghg_variable u = Ok (ys, ts, "W/m^2") /\ List.length ts = List.length ys /\
    forall i, nth i ts 0 = row_sum f (map fst published_fgases) i + row_sum f (map fst published_montreal ++ six_others) i.
Proof. exact c70_ghg. Qed.
Print Assumptions C70_greenhouse_gases.
Example C70_example :
  series fgas_variable = Ok ([2000; 2001]%Q, [7; 8]%Q, "W/m^2") /\ series ghg_variable = Ok ([2000; 2001]%Q, [17; 20]%Q, "W/m^2").
Proof. vm_compute. repeat split. Qed.

(** ** C71 *)
Theorem C71_fluxes : forall (A : Type) (N : Num A) nys nye (r : results A) u v c ys ts unit,
  In (v, c) [("Carbon Flux|Land", "Biosphere carbon flux"); ("Carbon Flux|Ocean", "Ocean carbon flux")] ->
  (exists x, dget r "carbon cycle" = Some x) ->
  get_variable_timeseries nys nye r v u = Ok (ys, ts, unit) <->
  ys = window nys nye /\ in_frame r "carbon cycle" c ts /\ unit = "Pg C / yr".
Proof. exact @c71_flux. Qed.
Print Assumptions C71_fluxes.
(** A pool is the running sum of its flux. *)
Theorem C71_pools : forall nys nye (r : results R) u v c ys ts unit,
  In (v, c) [("Carbon Pool|Land", "Biosphere carbon flux"); ("Carbon Pool|Ocean", "Ocean carbon flux")] ->
  (exists x, dget r "carbon cycle" = Some x) ->
  get_variable_timeseries nys nye r v u = Ok (ys, ts, unit) <->
  ys = window nys nye /\ unit = "Pg C" /\ exists fl, in_frame r "carbon cycle" c fl /\ List.length ts = List.length fl /\
    forall i, (i < List.length fl)%nat -> nth i ts 0 = running fl i.
Proof. exact c71_pool. Qed.
Print Assumptions C71_pools.
Theorem C71_net_flux : forall nys nye (r : results R) u ys ts unit cc, dget r "carbon cycle" = Some (Fr cc) -> rectangular cc ->
  get_variable_timeseries nys nye r "Net Flux to Atmosphere|CO2" u = Ok (ys, ts, unit) <->
  ys = window nys nye /\ unit = "Pg C / yr" /\ exists land ocean,
    in_frame r "carbon cycle" "Biosphere carbon flux" land /\ in_frame r "carbon cycle" "Ocean carbon flux" ocean /\
    List.length ts = List.length (fr_index cc) /\ forall i, nth i ts 0 = - (nth i land 0 + nth i ocean 0).
Proof. exact c71_net. Qed.
Print Assumptions C71_net_flux.
Theorem C71_airborne_fraction : forall (A : Type) (N : Num A) nys nye (r : results A) u ys ts unit, (exists x, dget r "carbon cycle" = Some x) ->
  get_variable_timeseries nys nye r "Airborne fraction CO2" u = Ok (ys, ts, unit) <->
  ys = window nys nye /\ in_frame r "carbon cycle" "Airborne fraction CO2" ts /\ unit = "Unitless".
Proof. exact @c71_airborne. Qed.
Print Assumptions C71_airborne_fraction.
(** Without a carbon cycle frame the variables are skipped, not reported as something else. *)
Theorem C71_without_carbon_cycle : forall (A : Type) (N : Num A) nys nye (r : results A) u v, In v carbon_variables -> dget r "carbon cycle" = None ->
  get_variable_timeseries nys nye r v u = Ok ([], [], "NoUnit").
Proof. exact @c71_without. Qed.
Print Assumptions C71_without_carbon_cycle.
(** The years come from the reader's window and the values from the frame: here two years and three values. *)
Example C71_example :
  series "Carbon Pool|Land" = Ok ([2000; 2001]%Q, [1; 3; 6]%Q, "Pg C") /\
  series "Carbon Pool|Ocean" = Ok ([2000; 2001]%Q, [4; 8; 13]%Q, "Pg C") /\
  series "Net Flux to Atmosphere|CO2" = Ok ([2000; 2001]%Q, [- 5; - 6; - 8]%Q, "Pg C / yr") /\
  series "Airborne fraction CO2" = Err (KeyError "Airborne fraction CO2") /\
  get_variable_timeseries (N := QNum) 2000 2001 [] "Carbon Pool|Land" ex_units = Ok ([], [], "NoUnit").
Proof. vm_compute. repeat split. Qed.

(** ** C72 *)
(** No name is listed twice; within concentrations, emissions and the forcings of the gases no column is either. *)
Theorem C72_names_distinct : NoDup published /\ NoDup (map snd concentration_variables) /\ NoDup (map snd emission_variables) /\
  NoDup (map fst published_fgases ++ map fst published_montreal ++ six_others).
Proof. exact c72_distinct. Qed.
Print Assumptions C72_names_distinct.
Theorem C72_concentrations : forall (A : Type) (N : Num A) nys nye r u v g ys ts unit, In (v, g) concentration_variables ->
  get_variable_timeseries nys nye r v u = Ok (ys, ts, unit) <->
  in_frame r "concentrations" "Year" ys /\ in_frame r "concentrations" g ts /\ beside (u_components u) (u_concunits u) g unit.
Proof. exact @c72_concentration. Qed.
Print Assumptions C72_concentrations.
(** CO2 emissions are the back-calculated ones if there are any. *)
Theorem C72_emissions : forall (A : Type) (N : Num A) nys nye r u v g ys ts unit, In (v, g) emission_variables ->
  get_variable_timeseries nys nye r v u = Ok (ys, ts, unit) <->
  in_frame r "emissions" "Year" ys /\
  (exists cc, dget r "carbon cycle" = Some (Fr cc) /\
     match dget (fr_cols cc) "Emissions" with
     | Some back => if String.eqb g "CO2" then ts = back else in_frame r "emissions" g ts
     | None => in_frame r "emissions" g ts
     end) /\ beside (u_components u) (u_units u) g unit.
Proof. exact @c72_emission. Qed.
Print Assumptions C72_emissions.
(** Emissions are reported only by runs with carbon cycle outputs. *)
Theorem C72_emissions_need_carbon_cycle : forall (A : Type) (N : Num A) nys nye r u v g, In (v, g) emission_variables -> dget r "carbon cycle" = None ->
  forall q, get_variable_timeseries nys nye r v u <> Ok q.
Proof. exact @c72_emission_needs_carbon. Qed.
Print Assumptions C72_emissions_need_carbon_cycle.
Theorem C72_forcings : forall (A : Type) (N : Num A) nys nye r u v g ys ts unit, In (v, g) forcing_variables ->
  get_variable_timeseries nys nye r v u = Ok (ys, ts, unit) <->
  in_frame r "forcing" "Year" ys /\ in_frame r "forcing" g ts /\ unit = "W/m^2".
Proof. exact @c72_forcing. Qed.
Print Assumptions C72_forcings.
Theorem C72_temperatures : forall (A : Type) (N : Num A) nys nye r u v g ys ts unit, In (v, g) temperature_variables ->
  get_variable_timeseries nys nye r v u = Ok (ys, ts, unit) <-> ys = window nys nye /\ in_array r g ts /\ unit = "K".
Proof. exact @c72_temperature. Qed.
Print Assumptions C72_temperatures.
(** Heat contents are multiplied by 10; heat uptake is the top-of-atmosphere imbalance over the ocean area of 3.61e14 m2
    and a year of 365 days, in units of 1e21 J. *)
Theorem C72_heat_contents : forall nys nye (r : results R) u v g ys ts unit, In (v, g) heat_content_variables ->
  get_variable_timeseries nys nye r v u = Ok (ys, ts, unit) <->
  ys = window nys nye /\ unit = "ZJ" /\ exists l, in_array r g l /\ List.length ts = List.length l /\ forall i, nth i ts 0 = 10 * nth i l 0.
Proof. exact c72_heat_content_R. Qed.
Print Assumptions C72_heat_contents.
Theorem C72_heat_uptake : forall nys nye (r : results R) u ys ts unit,
  get_variable_timeseries nys nye r "Heat Uptake" u = Ok (ys, ts, unit) <->
  ys = window nys nye /\ unit = "ZJ / yr" /\ exists l, in_array r "RIB_glob" l /\ List.length ts = List.length l /\
    forall i, nth i ts 0 = (361 * 10 ^ 12) * (86400 * 365) / 10 ^ 21 * nth i l 0.
Proof. exact c72_heat_uptake_R. Qed.
Print Assumptions C72_heat_uptake.
(** Any other name: nothing, whatever the results. *)
Theorem C72_unknown_names : forall (A : Type) (N : Num A) nys nye r u v, ~ In v published -> get_variable_timeseries nys nye r v u = Ok ([], [], "NoUnit").
Proof. exact @c72_unknown. Qed.
Print Assumptions C72_unknown_names.
(** The tropospheric ozone concentration cannot be had with a unit table from a file without a row for it or with an "X" in it. *)
Theorem C72_ozone_unit : forall (A : Type) (N : Num A) nys nye (r : results A) lines u, units_from_file lines = Ok u ->
  (forall row eu cu, In row (tl lines) -> ~ kept_row row "TROP_O3" eu cu) ->
  forall q, get_variable_timeseries nys nye r "Atmospheric Concentrations|Ozone|Tropospheric'" u <> Ok q.
Proof. exact @c72_ozone_file. Qed.
Print Assumptions C72_ozone_unit.
(** Asked of a forcing frame directly, with numbers for volcanoes and sun (0 if none are given). *)
Theorem C72_total_of_a_frame : forall (f : frame R) d (volc sun : R) ys ts, forc_common f "Total_forcing+sunvolc" d (Scalar volc) (Scalar sun) = Ok (ys, ts) <->
  dget (fr_cols f) "Year" = Some ys /\ exists tot, dget (fr_cols f) "Total_forcing" = Some tot /\ List.length ts = List.length tot /\
    forall i, (i < List.length tot)%nat -> nth i ts 0 = nth i tot 0 + volc + sun.
Proof. exact c72_direct. Qed.
Print Assumptions C72_total_of_a_frame.
Example C72_example :
  series "Atmospheric Concentrations|CO2" = Ok ([2000]%Q, [300]%Q, "ppm") /\
  series "Atmospheric Concentrations|Ozone|Tropospheric'" = Err ValueError /\
  series "Atmospheric Concentrations|Ozone|Tropospheric" = Ok ([], [], "NoUnit") /\
  series "Emissions|CO2" = Err (KeyError "emissions") /\
  series "Effective Radiative Forcing|Anthropogenic|F-Gases|HFC|HFC32" = Ok ([2000; 2001]%Q, [7; 8]%Q, "W/m^2") /\
  series "Heat Content|Ocean" = Ok ([2000; 2001]%Q, [10; 20]%Q, "ZJ") /\
  series "Surface Air Ocean Blended Temperature Change" = Ok ([2000; 2001]%Q, [5; 6]%Q, "K") /\
  series "Anomalous Radiation" = Err (KeyError "anomalous_radiation") /\
  series "Sea Level" = Ok ([], [], "NoUnit") /\
  forc_common (N := QNum) ex_forcing "Total_forcing+sunvolc" [] (Scalar 1%Q) (Scalar 2%Q) = Ok ([2000; 2001]%Q, [22; 25]%Q).
Proof. vm_compute. repeat split. Qed.

(** ** C73 *)
Theorem C73_lengths : forall lines u, units_from_file lines = Ok u ->
  List.length (u_units u) = List.length (u_components u) /\ List.length (u_concunits u) = List.length (u_components u).
Proof. exact c73_file_lengths. Qed.
Print Assumptions C73_lengths.
(** The units of a row of the file are found at the index of its component (no component twice). *)
Theorem C73_own_unit : forall lines u row c eu cu t, units_from_file lines = Ok u -> In row (tl lines) -> kept_row row c eu cu ->
  NoDup (map (fun row => nth 0 row "") (filter (fun row => negb (String.eqb (nth 1 row "") "X")) (tl lines))) -> c <> "CO2_lu" ->
  unit_text c eu t ->
  beside (u_components u) (u_units u) c t /\ beside (u_components u) (u_concunits u) c cu.
Proof. intros lines u row c eu cu t H I K ND NL T. rewrite <- (c73_unit_text c eu t T). exact (c73_file lines u row c eu cu H I K ND NL). Qed.
Print Assumptions C73_own_unit.
(** The text is given for all units and all components with at most a leading "BMB_AEROS_". *)
Theorem C73_unit_text_total : forall c u, (exists t, unit_text c u t) \/
  exists x a b, without_char "-"%char c = (a ++ "BMB_AEROS_" ++ b)%string /\ x = b /\ (a <> "" \/ exists a' b', b = (a' ++ "BMB_AEROS_" ++ b')%string).
Proof. exact c73_unit_text_total. Qed.
Print Assumptions C73_unit_text_total.
Theorem C73_only_rows : forall lines u c, units_from_file lines = Ok u -> In c (u_components u) ->
  c = "CO2_lu" \/ exists row eu cu, In row (tl lines) /\ kept_row row c eu cu.
Proof. exact c73_file_only. Qed.
Print Assumptions C73_only_rows.
(** Rows with the unit "X" are not listed; asking for their units is an error. *)
Theorem C73_skipped : forall lines u l c, units_from_file lines = Ok u -> c <> "CO2_lu" ->
  (forall row eu cu, In row (tl lines) -> ~ kept_row row c eu cu) -> unit_at u l c = Err ValueError.
Proof. exact c73_skipped. Qed.
Print Assumptions C73_skipped.
Theorem C73_land_use : forall lines u, units_from_file lines = Ok u ->
  (forall row eu cu, In row (tl lines) -> ~ kept_row row "CO2_lu" eu cu) ->
  beside (u_components u) (u_units u) "CO2_lu" "PgC / yr" /\ beside (u_components u) (u_concunits u) "CO2_lu" "ppm".
Proof. exact c73_landuse. Qed.
Print Assumptions C73_land_use.
(** The variant for a gas table in memory: rows with "X" are kept, units keep their underscores and do not name the
    component. *)
Theorem C73_frame : forall gas u, wf gas -> units_from_pd gas = Ok u ->
  (List.length (u_units u) = List.length (u_components u) /\ List.length (u_concunits u) = List.length (u_components u)) /\
  (forall c, In c (u_components u) <-> c = "CO2_lu" \/ dmem gas c = true) /\
  (forall c eu cu, dget gas c = Some (eu, cu) -> c <> "CO2_lu" ->
     (cu <> "_" -> cu <> "Tg_N" -> beside (u_components u) (u_concunits u) c cu) /\
     (c <> "BMB_AEROS_BC" -> c <> "BMB_AEROS_OC" ->
        beside (u_components u) (u_units u) c ((if String.eqb eu "Tg_N" then "TgN2ON" else eu) ++ " / yr")) /\
     (eu = "Tg" -> (c = "BMB_AEROS_BC" -> beside (u_components u) (u_units u) c "TgBC / yr") /\
                   (c = "BMB_AEROS_OC" -> beside (u_components u) (u_units u) c "TgOC / yr"))).
Proof. exact c73_frame. Qed.
Print Assumptions C73_frame.
(** It cannot do without rows for biomass burning. *)
Theorem C73_frame_needs_burning_rows : forall gas, (exists u, units_from_pd gas = Ok u) <-> dmem gas "BMB_AEROS_OC" = true /\ dmem gas "BMB_AEROS_BC" = true.
Proof. exact c73_frame_needs. Qed.
Print Assumptions C73_frame_needs_burning_rows.
Example C73_example :
  units_from_file [["GAS"; "EM_UNIT"; "CONC_UNIT"]; ["CO2"; "Pg_C"; "ppm"]; ["CH4"; "Tg"; "ppb"]; ["N2O"; "Tg_N"; "ppb"]; ["TROP_O3"; "X"; "-"];
                   ["CFC-11"; "Gg"; "ppt"]; ["BMB_AEROS_BC"; "Tg"; "-"]] =
    Ok {| u_components := ["CO2"; "CO2_lu"; "CH4"; "N2O"; "CFC-11"; "BMB_AEROS_BC"];
          u_units := ["PgC / yr"; "PgC / yr"; "TgCH4 / yr"; "TgN2ON / yr"; "GgCFC11 / yr"; "TgBC / yr"];
          u_concunits := ["ppm"; "ppm"; "ppb"; "ppb"; "ppt"; "-"] |} /\
  units_from_pd [("CO2", ("Pg_C", "ppm")); ("CH4", ("Tg", "ppb")); ("TROP_O3", ("X", "-")); ("BMB_AEROS_BC", ("Tg", "-")); ("BMB_AEROS_OC", ("Tg", "-"))] =
    Ok {| u_components := ["CO2"; "CO2_lu"; "CH4"; "TROP_O3"; "BMB_AEROS_BC"; "BMB_AEROS_OC"];
          u_units := ["Pg_C / yr"; "PgC / yr"; "Tg / yr"; "X / yr"; "TgBC / yr"; "TgOC / yr"];
          u_concunits := ["ppm"; "ppm"; "ppb"; "-"; "-"; "-"] |} /\
  units_from_pd [("CO2", ("Pg_C", "ppm"))] = Err (KeyError "BMB_AEROS_OC") /\
  units_from_file [] = Err (UserExn 1) /\
  unit_text "CFC-11" "Gg" "GgCFC11 / yr".
Proof.
  split; [vm_compute; reflexivity|]. split; [vm_compute; reflexivity|]. split; [reflexivity|]. split; [reflexivity|].
  apply (text_plain "CFC-11" "Gg"); [reflexivity|].
  intros a b. cbn [without_char]. destruct a as [|x1 [|x2 [|x3 [|x4 [|x5 [|x6 a]]]]]]; cbn; intros H; inversion H; subst; try discriminate.
Qed.

(** ** C82 *)
(** The total effective forcing is the total of the frame plus the mean of the hemispheric volcanic forcings plus the solar
    forcing, year by year; all series must have the length of the reader's window. *)
Theorem C82_total_forcing : forall nys nye (r : results R) u ys ts unit,
  get_variable_timeseries nys nye r ERF u = Ok (ys, ts, unit) <->
  unit = "W/m^2" /\ in_frame r "forcing" "Year" ys /\ exists tot vn vs s,
    in_frame r "forcing" "Total_forcing" tot /\ in_array r "Volcanic_forcing_NH" vn /\ in_array r "Volcanic_forcing_SH" vs /\
    in_array r "Solar_forcing" s /\
    List.length tot = Z.to_nat (nye - nys + 1) /\ List.length vn = Z.to_nat (nye - nys + 1) /\ List.length vs = Z.to_nat (nye - nys + 1) /\
    List.length s = Z.to_nat (nye - nys + 1) /\ List.length ts = Z.to_nat (nye - nys + 1) /\
    forall i, nth i ts 0 = nth i tot 0 + (nth i vn 0 + nth i vs 0) / 2 + nth i s 0.
Proof. exact c82_total. Qed.
Print Assumptions C82_total_forcing.
Example C82_example :
  series ERF = Ok ([2000; 2001]%Q, [121; 226]%Q, "W/m^2") /\
  get_variable_timeseries (N := QNum) 2000 2002 ex_results ERF ex_units = Err ValueError.
Proof. vm_compute. repeat split. Qed.
