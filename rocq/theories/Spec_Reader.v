(** * Spec_Reader: the published result variables and what they must report, written out without the
      functions of M_Reader and M_Results (only their data types are used) *)
From Coq Require Import Ascii Reals.
From Verif Require Import PyBase Num M_Gas M_Driver M_Reader.

(** ** Names *)
(** Fluorinated gases and Montreal gases: name in the model, name in result variables *)
Definition published_fgases : list (string * string) :=
  [("HFC125", "HFC|HFC125"); ("HFC134a", "HFC|HFC134a"); ("HFC143a", "HFC|HFC143a"); ("HFC152a", "HFC|HFC152a");
   ("HFC227ea", "HFC|HFC227ea"); ("HFC236fa", "HFC|HFC236fa"); ("HFC23", "HFC|HFC23"); ("HFC245fa", "HFC|HFC245fa");
   ("HFC32", "HFC|HFC32"); ("HFC365mfc", "HFC|HFC365mfc"); ("HFC4310mee", "HFC|HFC4310mee"); ("NF3", "NF3");
   ("C2F6", "PFC|C2F6"); ("C3F8", "PFC|C3F8"); ("C4F10", "PFC|C4F10"); ("C5F12", "PFC|C5F12"); ("C6F14", "PFC|C6F14");
   ("C7F16", "PFC|C7F16"); ("C8F18", "PFC|C8F18"); ("cC4F8", "PFC|cC4F8"); ("CF4", "PFC|CF4"); ("SF6", "SF6");
   ("SO2F2", "SO2F2")].
Definition published_montreal : list (string * string) :=
  [("CFC-11", "CFC|CFC11"); ("CFC-12", "CFC|CFC12"); ("CFC-113", "CFC|CFC113"); ("CFC-114", "CFC|CFC114");
   ("CFC-115", "CFC|CFC115"); ("CH3Br", "CH3Br"); ("CCl4", "CCl4"); ("CH3CCl3", "CH3CCl3"); ("H-1202", "Halon1202");
   ("H-1211", "Halon1211"); ("H-1301", "Halon1301"); ("H-2402", "Halon2402"); ("HCFC-123", "HCFC123");
   ("HCFC-142b", "HCFC142b"); ("HCFC-141b", "HCFC141b"); ("HCFC-22", "HCFC22"); ("CHCl3", "CHCl3"); ("CH3Cl", "CH3Cl");
   ("CH2Cl2", "CH2Cl2")].
Definition six_others : list string := ["CO2"; "CH4"; "N2O"; "TROP_O3"; "STRAT_O3"; "STRAT_H2O"].
Definition prefixed (pre : string) (l : list (string * string)) : list (string * string) :=
  map (fun gn => ((pre ++ snd gn)%string, fst gn)) l.

(** Variable and column of the concentration, emission and forcing frames it reports. The name of the
    tropospheric ozone concentration ends in a quotation mark. *)
Definition concentration_variables : list (string * string) :=
  [("Atmospheric Concentrations|CO2", "CO2"); ("Atmospheric Concentrations|CH4", "CH4"); ("Atmospheric Concentrations|N2O", "N2O");
   ("Atmospheric Concentrations|Ozone|Tropospheric'", "TROP_O3")] ++
  prefixed "Atmospheric Concentrations|F-Gases|" published_fgases ++
  prefixed "Atmospheric Concentrations|Montreal Gases|" published_montreal.
Definition emission_variables : list (string * string) :=
  [("Emissions|CO2", "CO2"); ("Emissions|CH4", "CH4"); ("Emissions|N2O", "N2O")].
Definition ERF : string := "Effective Radiative Forcing".
Definition ANT : string := "Effective Radiative Forcing|Anthropogenic".
Definition forcing_variables : list (string * string) :=
  [(ANT, "Total_forcing");
   ((ANT ++ "|Aerosol|Aerosol-radiation Interactions|BC")%string, "BC");
   ((ANT ++ "|Aerosol|Aerosol-radiation Interactions|OC")%string, "OC");
   ((ANT ++ "|Aerosol|Aerosol-radiation Interactions|Sulfate")%string, "SO4_DIR");
   ("Effective Radiative Forcing|Aerosols|Direct Effect|SOx", "SO4_DIR");
   ((ANT ++ "|Aerosol|Aerosol-cloud Interactions")%string, "SO4_IND");
   ((ANT ++ "|CO2")%string, "CO2"); ((ANT ++ "|CH4")%string, "CH4"); ((ANT ++ "|N2O")%string, "N2O");
   ((ANT ++ "|Other|Stratospheric H2O")%string, "STRAT_H2O");
   ((ANT ++ "|Ozone|Stratospheric Contribution")%string, "STRAT_O3");
   ((ANT ++ "|Ozone|Tropospheric Contribution")%string, "TROP_O3")] ++
  prefixed (ANT ++ "|F-Gases|") published_fgases ++ prefixed (ANT ++ "|Montreal Gases|") published_montreal.
Definition aerosol_variables : list string :=
  [(ANT ++ "|Aerosol")%string; (ANT ++ "|Aerosol|Aerosol-radiation Interactions")%string].
Definition fgas_variable : string := (ANT ++ "|F-Gases")%string.
Definition ghg_variable : string := (ERF ++ "|Greenhouse Gases")%string.
(** temperature-like results: variable and array *)
Definition temperature_variables : list (string * string) :=
  [("Surface Air Temperature Change", "dT_glob_air"); ("Surface Air Ocean Blended Temperature Change", "dT_glob");
   ("Surface Air Ocean Temperature Change", "dT_glob_sea"); ("Anomalous Radiation", "anomalous_radiation")].
Definition heat_content_variables : list (string * string) :=
  [("Heat Content|Ocean", "OHCTOT"); ("Heat Content|Ocean|0-700m", "OHC700")].
Definition carbon_variables : list string :=
  ["Carbon Flux|Land"; "Carbon Flux|Ocean"; "Airborne fraction CO2"; "Carbon Pool|Land"; "Carbon Pool|Ocean";
   "Net Flux to Atmosphere|CO2"].
Definition published : list string :=
  dkeys concentration_variables ++ dkeys emission_variables ++ dkeys forcing_variables ++ aerosol_variables ++
  [ERF; fgas_variable; ghg_variable] ++ dkeys temperature_variables ++ "Heat Uptake" :: dkeys heat_content_variables ++
  carbon_variables.

(** ** Data *)
Section Data.
Context {A : Type}.
(** frame [k] of the results has a column [c] with these values; there is an array [k] *)
Definition in_frame (r : results A) (k c : string) (v : list A) : Prop :=
  exists f, dget r k = Some (Fr f) /\ dget (fr_cols f) c = Some v.
Definition in_array (r : results A) (k : string) (v : list A) : Prop := dget r k = Some (Arr v).
(** all columns are as long as the index *)
Definition rectangular (f : frame A) : Prop := forall c v, dget (fr_cols f) c = Some v -> List.length v = List.length (fr_index f).
End Data.

(** [u] stands at the position of the first entry [c] of [cs] *)
Definition beside (cs us : list string) (c u : string) : Prop :=
  exists n, nth_error cs n = Some c /\ (forall m, (m < n)%nat -> nth_error cs m <> Some c) /\ nth_error us n = Some u.

(** the window of a reader *)
Definition window {A} {N : Num A} (start stop : Z) : list A :=
  map (fun i => nofZ (start + Z.of_nat i)) (seq 0 (Z.to_nat (stop - start + 1))).

Open Scope R_scope.
(** row [i] of the column [c], 0 if there is no such column *)
Definition entry (f : frame R) (c : string) (i : nat) : R :=
  match dget (fr_cols f) c with Some v => nth i v 0 | None => 0 end.
(** sum of row [i] over those of the columns that exist *)
Fixpoint row_sum (f : frame R) (names : list string) (i : nat) : R :=
  match names with [] => 0 | c :: r => entry f c i + row_sum f r i end.

(** the sum of the entries 0 to [i] *)
Fixpoint running (l : list R) (i : nat) : R :=
  match i with O => nth 0 l 0 | S j => running l j + nth (S j) l 0 end.

(** ** Units of a gas table, row by row: component, emission unit and concentration unit *)
(** what the writer has to list for the rows of a file, in order *)
Definition kept_row (row : list string) (c u cu : string) : Prop :=
  nth_error row 0 = Some c /\ nth_error row 1 = Some u /\ nth_error row 2 = Some cu /\ u <> "X".
(** [s] without the character [c] *)
Fixpoint without_char (c : ascii) (s : string) : string :=
  match s with EmptyString => EmptyString | String a r => if Ascii.eqb a c then without_char c r else String a (without_char c r) end.
(** the emission unit listed for a component: N2O in nitrogen, units that name their substance, other units
    followed by the component *)
Inductive unit_text : string -> string -> string -> Prop :=
  | text_n2o : unit_text "N2O" "Tg_N" "TgN2ON / yr"
  | text_named c u : ~ (c = "N2O" /\ u = "Tg_N") -> (exists a b, u = (a ++ "_" ++ b)%string) ->
      unit_text c u (without_char "_"%char u ++ " / yr")
  | text_plain c u : without_char "_"%char u = u -> (forall a b, without_char "-"%char c <> (a ++ "BMB_AEROS_" ++ b)%string) ->
      unit_text c u (u ++ without_char "-"%char c ++ " / yr")
  | text_burning c u x : without_char "_"%char u = u -> without_char "-"%char c = ("BMB_AEROS_" ++ x)%string ->
      (forall a b, x <> (a ++ "BMB_AEROS_" ++ b)%string) -> unit_text c u (u ++ x ++ " / yr").
