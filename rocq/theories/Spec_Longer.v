(** * Spec_Longer: two configurations that differ in their last year, and what they read (C112) *)
From Verif Require Import PyBase Num M_Utils M_Gas M_Pams M_TwoLayer M_UDM M_Driver M_Whole Spec_Gas Spec_Driver Spec_Reader Spec_Results Spec_Coupled.

(** The configurations differ in the last year of the run at most. *)
Definition other_end (cfg cfg' : dict pyval) : Prop := forall k, k <> "nyend" -> dget cfg' k = dget cfg k.
(** the series that a run with a thermal model reports *)
Definition series_of (cl : thermal_class) : list string := output_names (match cl with TwoLayer => tl_names | UpwellingDiffusion => ud_names end).

Section Data.
Context {A : Type}.
(** The same input up to the year [last] of runs from [first] on. *)
Record data_until (first last : Z) (x x' : data A) : Prop := {
  du_coupled : x_forc x = None /\ x_forc x' = None;
  du_run : x_conc_run x' = x_conc_run x;
  du_gas : x_gas x' = x_gas x;
  du_conc : agree_on (until last) (x_conc x) (x_conc x');
  du_emis : agree_on (until last) (x_emis x) (x_emis x');
  du_natural : agree_on (until last) (x_nat_ch4 x) (x_nat_ch4 x') /\ agree_on (until last) (x_nat_n2o x) (x_nat_n2o x');
  du_perturb : x_perturb_em x' = x_perturb_em x /\ x_perturb_forc x' = x_perturb_forc x;
  du_sun : rows_agree (Z.to_nat (last - first)) (x_sun x) (x_sun x'); du_luc : rows_agree (Z.to_nat (last - first)) (x_luc x) (x_luc x');
  du_vn : rows_agree (Z.to_nat (last - first)) (x_vn x) (x_vn x'); du_vs : rows_agree (Z.to_nat (last - first)) (x_vs x) (x_vs x') }.
(** What two runs from [first] on, to [last] and to [last'], report alike: the series of the thermal model have an entry for every year of their run and agree in the years up to [mid], and so do the forcing and,
    when the gas table has an ordinary gas, the concentrations. *)
Definition agree_until (first mid last last' : Z) (gas : dict (gas A)) (cl : thermal_class) (r r' : results A) : Prop :=
  (forall o, In o (series_of cl) -> exists v v', in_array r o v /\ in_array r' o v' /\
     List.length v = Z.to_nat (last - first + 1) /\ List.length v' = Z.to_nat (last' - first + 1) /\ rows_agree (Z.to_nat (mid - first)) v v') /\
  frames_until (Z.to_nat (mid - first)) r r' "forcing" /\ ((exists k, ordinary gas k) -> frames_until (Z.to_nat (mid - first)) r r' "concentrations").
End Data.
