(** * Properties_Results: the result frames (C74) *)
From Coq Require Import QArith.
From Verif Require Import PyBase PyBaseFacts Num M_Gas M_Forcing M_Results Spec_Reader Spec_Results P_Results P_Results2.

(** ** C74 *)
(** Forcing: every component once with its own values, the year once; but the first column is the last precalculated gas
    and the year stands between the components of the model and the other precalculated gases. *)
Theorem C74_forcing : forall (A : Type) (N : Num A) (p : hpam A) gt erf st f cs last, wf gt -> wf (fr_cols erf) ->
  (forall k, In k reserved -> ~ In k (dkeys gt) /\ ~ In k (dkeys (fr_cols erf))) ->
  dkeys (s_forc st) = dkeys (s_forc (reset_arrays p gt erf)) -> dkeys (fr_cols erf) = cs ++ [last] -> forcing_frame p st erf = Ok f ->
  fr_index f = years_of p /\
  dkeys (fr_cols f) = forcing_columns (filter (fun k => negb (String.eqb k "CO2.1") && negb (dmem (fr_cols erf) k)) (dkeys gt) ++ ["Total_forcing"]) cs last /\
  NoDup (dkeys (fr_cols f)) /\ dget (fr_cols f) "Year" = Some (year_values (nystart p) (nyend p)) /\
  (forall k, In k (dkeys (s_forc st)) -> dget (fr_cols f) (forcing_label k) = dget (s_forc st) k) /\
  (forall k, In k (dkeys (fr_cols erf)) -> dget (fr_cols f) (forcing_label k) = dget (fr_cols erf) k).
Proof. exact @c74_run. Qed.
Print Assumptions C74_forcing.
(** Emissions: the year, total CO2, the other columns; rows after the end of the run are left out. *)
Theorem C74_emissions : forall (A : Type) (N : Num A) (p : hpam A) emis f, wf (fr_cols emis) -> rectangular emis ->
  ~ In "Year" (dkeys (fr_cols emis)) -> ~ In "CO2" (dkeys (fr_cols emis)) -> emission_frame p emis = Ok f ->
  dkeys (fr_cols f) = emission_columns (dkeys (fr_cols emis)) /\
  List.length (fr_index f) = List.length (years_of p) /\ dget (fr_cols f) "Year" = Some (year_values (nystart p) (nyend p)) /\
  (exists before final, fr_index emis = before ++ [final] /\
     forall y, In y (fr_index f) <-> In y (fr_index emis) /\ ~ (nyend p < y <= final)%Z) /\
  (forall y, In y (fr_index f) -> exists ff af, fr_get emis "CO2_FF" y = Ok ff /\ fr_get emis "CO2_AFOLU" y = Ok af /\ fr_get f "CO2" y = Ok (ff + af)%num) /\
  (forall y k, In y (fr_index f) -> In k (dkeys (fr_cols emis)) -> not_split k = true -> fr_get f k y = fr_get emis k y).
Proof. exact @c74_emissions. Qed.
Print Assumptions C74_emissions.
(** Concentrations: the year, then the gases with concentrations in the order of the gas table. *)
Theorem C74_concentrations : forall (A : Type) (N : Num A) (nan : A) (p : hpam A) st (pc : frame A) f,
  NoDup ("Year" :: dkeys (s_conc st) ++ dkeys (fr_cols pc)) -> ~ In "Year" (dkeys (s_gas st)) -> (exists k, In k (dkeys (fr_cols pc))) ->
  concentration_frame nan p st pc = Ok f ->
  fr_index f = years_of p /\ fr_index pc = years_of p /\
  dkeys (fr_cols f) = concentration_columns (dkeys (s_gas st)) (dkeys (s_conc st) ++ dkeys (fr_cols pc)) /\
  dget (fr_cols f) "Year" = Some (year_values (nystart p) (nyend p)) /\
  (forall k d, In k (dkeys (s_gas st)) -> dget (s_conc st) k = Some d -> dget (fr_cols f) k = Some (conc_series nan (years_of p) d)) /\
  (forall k, In k (dkeys (s_gas st)) -> In k (dkeys (fr_cols pc)) -> dget (fr_cols f) k = dget (fr_cols pc) k).
Proof. exact @concentration_spec. Qed.
Print Assumptions C74_concentrations.

(** Three gases of the model (one without concentration), one ordinary gas and stratospheric ozone over two years *)
Definition ex_pams : hpam Q :=
  {| nystart := 2000; nyend := 2001; emstart := 2000; conc_run := false; lifetime_mode := "TAR"; just_one := None; ref_yr := 2001;
     qbmb := 0%Q; qo3 := 0%Q; qdirso2 := 0%Q; qindso2 := 0%Q; qbc := 0%Q; qoc := 0%Q; qh2o_ch4 := 0%Q; qnmvoc := 0%Q; qnh3 := 0%Q; qnox := 0%Q;
     cl_dict := []; br_dict := [] |}.
Definition ex_gas (u : string) : gas Q :=
  {| g_unit := u; g_beta := 1%Q; g_alpha := 1%Q; g_tau1 := 1%Q; g_tau2 := 0%Q; g_tau3 := 0%Q; g_nat := 0%Q; g_sarf := 1%Q |}.
Definition ex_table : dict (gas Q) := [("CO2", ex_gas "ppm"); ("CH4", ex_gas "ppb"); ("SF6", ex_gas "ppt"); ("SO2", ex_gas "-"); ("STRAT_O3", ex_gas "-")].
Definition ex_erf : frame Q := Build_frame [2000; 2001]%Z [("SF6", [1; 2]%Q); ("STRAT_O3", [3; 4]%Q)].
Definition ex_pc : frame Q := Build_frame [2000; 2001]%Z [("SF6", [10; 11]%Q)].
Definition ex_state : hst Q :=
  {| s_gas := ex_table; s_conc := [("CO2", [(2000%Z, 300%Q); (2001%Z, 301%Q)]); ("CH4", [(2000%Z, 700%Q)])];
     s_forc := [("CO2", [5; 6]%Q); ("CH4", [7; 8]%Q); ("SO2", [-1; -2]%Q); ("Total_forcing", [15; 18]%Q)] |}.
Definition ex_emis : frame Q := Build_frame [2000; 2001; 2002; 2003]%Z
  [("CO2_FF", [1; 2; 3; 4]%Q); ("CO2_AFOLU", [10; 20; 30; 40]%Q); ("CH4", [5; 6; 7; 8]%Q)].
Example C74_example :
  dkeys (s_forc (reset_arrays (N := QNum) ex_pams ex_table ex_erf)) = dkeys (s_forc ex_state) /\
  forcing_frame (N := QNum) ex_pams ex_state ex_erf = Ok (Build_frame [2000; 2001]%Z
    [("STRAT_O3", [3; 4]%Q); ("CO2", [5; 6]%Q); ("CH4", [7; 8]%Q); ("SO4_DIR", [-1; -2]%Q); ("Total_forcing", [15; 18]%Q); ("Year", [2000; 2001]%Q); ("SF6", [1; 2]%Q)]) /\
  emission_frame (N := QNum) ex_pams ex_emis = Ok (Build_frame [2000; 2001]%Z [("Year", [2000; 2001]%Q); ("CO2", [11; 22]%Q); ("CH4", [5; 6]%Q)]) /\
  concentration_frame (N := QNum) (- 999)%Q ex_pams ex_state ex_pc = Ok (Build_frame [2000; 2001]%Z
    [("Year", [2000; 2001]%Q); ("CO2", [300; 301]%Q); ("CH4", [700; - 999]%Q); ("SF6", [10; 11]%Q)]).
Proof. vm_compute. repeat split. Qed.
