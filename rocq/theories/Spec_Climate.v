(** * Spec_Climate: what the climate may act on (C95) *)
From Verif Require Import PyBase Num M_Gas M_Driver M_Results Spec_Coupled.

Section Climate.
Context {A : Type}.
(** the efficiency parameter of a component, where it has one *)
Definition sensitivity (p : hpam A) (k : string) : option A :=
  dget [("SO2", qdirso2 p); ("SO4_IND", qindso2 p); ("OC", qoc p); ("BC", qbc p); ("BMB_AEROS", qbmb p); ("NMVOC", qnmvoc p);
        ("NH3", qnh3 p); ("NOx", qnox p); ("TROP_O3", qo3 p); ("STRAT_H2O", qh2o_ch4 p)] k.
(** parameters that may differ in the efficiencies, the single forcing chosen and the atom counts *)
Record same_scheme (p p' : hpam A) : Prop := {
  sm_start : nystart p' = nystart p; sm_end : nyend p' = nyend p; sm_em : emstart p' = emstart p; sm_conc : conc_run p' = conc_run p;
  sm_mode : lifetime_mode p' = lifetime_mode p; sm_ref : ref_yr p' = ref_yr p }.
(** runs of the same years and input tables; nothing is said about the thermal models, the carbon cycles, solar and volcanic forcing *)
Record same_emissions (sc sc' : scenario A) (c c' : inst A) : Prop := {
  se_scheme : same_scheme (c_p sc) (c_p sc'); se_concs : c_conc sc' = c_conc sc; se_emis : c_emis sc' = c_emis sc;
  se_ch4 : c_nat_ch4 sc' = c_nat_ch4 sc; se_n2o : c_nat_n2o sc' = c_nat_n2o sc; se_pert : c_pert sc' = c_pert sc;
  se_pc : c_pc sc' = c_pc sc; se_erf : c_erf sc' = c_erf sc;
  se_rf : d_rf c = None; se_rf' : d_rf c' = None; se_start : d_start c = nystart (c_p sc); se_start' : d_start c' = nystart (c_p sc');
  se_end : d_end c = nyend (c_p sc); se_end' : d_end c' = nyend (c_p sc') }.
(** gases whose concentration the climate does not act on *)
Definition unmoved (p : hpam A) (k : string) : Prop := conc_run p = true \/ k <> "CO2".
(** components that the climate does not act on and whose own parameters are the same *)
Definition unaffected (p p' : hpam A) (c c' : inst A) (k : string) : Prop :=
  k <> "Total_forcing" /\ (conc_run p = true \/ ~ In k ["CO2"; "N2O"]) /\ sensitivity p k = sensitivity p' k /\ (k = "LANDUSE" -> d_luc c = d_luc c').
(** the component behind a column of the forcing frame *)
Definition component_of (k : string) : string := if String.eqb k "SO4_DIR" then "SO2" else k.
End Climate.
