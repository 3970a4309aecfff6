(** * Spec_Warm: two runs that differ in CO2 only (C109) *)
From Coq Require Import Reals.
From Verif Require Import PyBase Num M_Gas M_TwoLayer M_Driver M_Results Spec_Coupled Spec_TwoLayer Spec_TwoLayerOrder.
From Verif Require M_UDM Spec_UDMRuns.
Open Scope R_scope.

(** the same parameters and tables but for the concentration and the emissions of CO2 *)
Record but_for_co2 (sc sc' : scenario R) : Prop := {
  bf_p : c_p sc' = c_p sc; bf_conc : agree_on (fun k _ => k <> "CO2") (c_conc sc) (c_conc sc');
  bf_emis : agree_on (fun k _ => ~ In k ["CO2_FF"; "CO2_AFOLU"]) (c_emis sc) (c_emis sc');
  bf_ch4 : c_nat_ch4 sc' = c_nat_ch4 sc; bf_n2o : c_nat_n2o sc' = c_nat_n2o sc; bf_pert : c_pert sc' = c_pert sc;
  bf_pc : c_pc sc' = c_pc sc; bf_erf : c_erf sc' = c_erf sc; bf_all : just_one (c_p sc) = None }.
(** the table of gases: emissions of CO2 are no gases; N2O does not adjust more than ten times as much as CO2 *)
Record plain_table (gt : dict (gas R)) (erf pc : frame R) : Prop := {
  pt_wf : wf gt; pt_names : ~ In "CO2_FF" (dkeys gt) /\ ~ In "CO2_AFOLU" (dkeys gt) /\ ~ In "Year" (dkeys gt ++ dkeys (fr_cols pc));
  pt_total : dget gt "Total_forcing" = None;
  pt_conc : forall k, In k ["CO2"; "N2O"] -> (exists g, dget gt k = Some g /\ g_unit g <> "-") /\ dmem (fr_cols erf) k = false;
  pt_sarf : forall gc gn, dget gt "CO2" = Some gc -> dget gt "N2O" = Some gn -> 0 <= g_sarf gn <= 10 * g_sarf gc;
  pt_pc : wf (fr_cols pc) /\ (exists k, In k (dkeys (fr_cols pc))) /\ forall k, In k (dkeys (fr_cols pc)) -> dmem (fr_cols erf) k = true }.
(** concentrations [co2] and [co2'] up to row [M]: the same at the start, never lower in the second run; within the range of the forcing formula *)
Record more_co2 (M : nat) (co2 co2' n2o : list R) : Prop := {
  mo_first : exists c0, nth_error co2 0 = Some c0 /\ nth_error co2' 0 = Some c0 /\ 0 < c0 <= 1500 /\
    forall k c c', (k <= M)%nat -> nth_error co2 k = Some c -> nth_error co2' k = Some c' -> 0 < c <= c' /\ Rabs (c - c0) <= 1500 /\ Rabs (c' - c0) <= 1500;
  mo_n2o : forall k n, (k <= M)%nat -> nth_error n2o k = Some n -> 0 <= n <= 1000 }.
(** nowhere lower up to row [M] *)
Definition upto_le (M : nat) (l l' : list R) : Prop := List.length l = List.length l' /\ forall k x x', (k <= M)%nat -> nth_error l k = Some x -> nth_error l' k = Some x' -> x <= x'.
(** a two-layer ocean that does not overshoot and whose feedback does not depend on the aerosols *)
Record calm_ocean (p : tl_pam R) : Prop := {
  ca_delta : tl_delta p = 0; ca_k : 0 < tl_k p; ca_area : 0 <= (tl_foan p + tl_foas p) / 2 <= 1; ca_step : forall i, no_overshoot p i }.
(** an upwelling-diffusion ocean with constant upwelling, small steps and a feedback that does not depend on the aerosols; the mixed layer ends above 700 m *)
Record calm_upwelling (p : M_UDM.ud_pam R) : Prop := {
  cu_ad : Spec_UDMRuns.admissible p; cu_st : Spec_UDMRuns.stable p; cu_thr : M_UDM.threstemp p = 0; cu_delta : M_UDM.delta_aero p = 0; cu_lambda : 0 < M_UDM.lambda p;
  cu_mixed : M_UDM.mixed p <= 700; cu_layers : (8 <= M_UDM.lm p)%nat }.
(** CO2 emissions, fossil and from land use, of two scenarios: never less in the second, the same in the first year *)
Definition emits_more (sc sc' : scenario R) (years : nat) : Prop :=
  forall k ff af ff' af', (k < years)%nat -> let y := (nystart (c_p sc) + Z.of_nat k)%Z in
  fr_get (c_emis sc) "CO2_FF" y = Ok ff -> fr_get (c_emis sc) "CO2_AFOLU" y = Ok af ->
  fr_get (c_emis sc') "CO2_FF" y = Ok ff' -> fr_get (c_emis sc') "CO2_AFOLU" y = Ok af' -> ff + af <= ff' + af' /\ (k = 0%nat -> ff + af = ff' + af').
