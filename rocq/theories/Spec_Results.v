(** * Spec_Results: the columns the result frames must have, written out without the functions of M_Results *)
From Verif Require Import PyBase Num M_Gas.

(** the label of a component in the forcing frame *)
Definition forcing_label (c : string) : string := if String.eqb c "SO2" then "SO4_DIR" else c.
(** forcing: the last precalculated gas, the components of the model, the year, the other precalculated gases *)
Definition forcing_columns (components gases : list string) (last : string) : list string :=
  map forcing_label (last :: components ++ "Year" :: gases).
(** names a gas table must not use *)
Definition reserved : list string := ["Year"; "Total_forcing"; "TOT_vanilla"; "SO4_DIR"].

(** emissions: all but the two parts of the CO2 emissions, after their sum *)
Definition not_split (k : string) : bool := negb (String.eqb k "CO2_FF" || String.eqb k "CO2_AFOLU").
Definition emission_columns (cols : list string) : list string := "Year" :: "CO2" :: filter not_split cols.

(** concentrations: the gases with a concentration, in the order of the gas table *)
Definition concentration_columns (gases with_conc : list string) : list string := "Year" :: filter (fun k => smem k with_conc) gases.

Section Values.
Context {A : Type} {N : Num A}.
(** the years as numbers; a series by year as a column *)
Definition year_values (start stop : Z) : list A := map (fun i => nofZ (start + Z.of_nat i)) (seq 0 (Z.to_nat (stop - start + 1))).
Definition conc_series (nan : A) (years : list Z) (d : list (Z * A)) : list A :=
  map (fun y => match yget d y with Some v => v | None => nan end) years.
End Values.
