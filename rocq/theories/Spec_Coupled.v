(** * Spec_Coupled: what drives CO2 in a run, which columns of the forcing frame add up, and inputs that agree up to a year *)
From Coq Require Import Reals.
From Verif Require Import PyBase Num M_Gas M_Driver M_Results.
From Verif Require Spec_Forc Spec_Gas.

Section Any.
Context {A : Type} {N : Num A}.
(** last year's value; 0 in the first year *)
Definition last_year (l : list A) (k : nat) : A := match k with O => nofZ 0 | S j => nth j l (nofZ 0) end.
(** emissions and warming of [n] years: fossil, land use and natural emissions of the year, temperature of the year before *)
Definition co2_drivers (emis : frame A) (g : gas A) (temp : list A) (start : Z) (n : nat) (ins : list (A * A)) : Prop :=
  List.length ins = n /\
  forall k, (k < n)%nat -> exists ff af, fr_get emis "CO2_FF" (start + Z.of_nat k) = Ok ff /\ fr_get emis "CO2_AFOLU" (start + Z.of_nat k) = Ok af /\
    nth_error ins k = Some ((ff + af + g_nat g)%num, last_year temp k).
End Any.

(** the columns of a forcing frame without the year and the total, and the sum of row [k] over them *)
Definition parts (f : frame R) : dict (list R) :=
  filter (fun cv => negb (String.eqb (fst cv) "Year" || String.eqb (fst cv) "Total_forcing")) (fr_cols f).
Definition row_sum (f : frame R) (k : nat) : R := fold_right (fun cv s => (nth k (snd cv) 0 + s)%R) 0%R (parts f).

(** ** Inputs that agree *)
Section Agree.
Context {A : Type}.
(** the same columns, and the same entry in column [k] of year [z] wherever [sel k z] *)
Definition agree_on (sel : string -> Z -> Prop) (f f' : frame A) : Prop :=
  dkeys (fr_cols f) = dkeys (fr_cols f') /\ forall k z, sel k z -> fr_get f k z = fr_get f' k z.
Definition until (y : Z) : string -> Z -> Prop := fun _ z => (z <= y)%Z.
(** entries that matter up to year [y]: those up to [y]; for ozone, methane of the reference year in the concentrations and its
    precursors of the reference year in the emissions; for the methane lifetime, the precursors of the year 2000 *)
Definition conc_until (p : hpam A) (y : Z) : string -> Z -> Prop := fun k z => (z <= y)%Z \/ (k = "CH4" /\ z = ref_yr p).
Definition emis_until (p : hpam A) (y : Z) : string -> Z -> Prop :=
  fun k z => (z <= y)%Z \/ (In k ["NOx"; "CO"; "NMVOC"] /\ (z = ref_yr p \/ (lifetime_mode p = "TAR" /\ z = 2000%Z))).
(** row by row up to row [M] *)
Definition rows_agree {B} (M : nat) (v v' : list B) : Prop := forall i, (i <= M)%nat -> nth_error v i = nth_error v' i.
(** Two scenarios [sc], [sc'] with the settings [c], [c'] of their runs: the same parameters and years, and the same inputs up to
    row [M], as far as they matter until then. Perturbation rows of a year agree in their order. *)
Record agree_inputs (M : nat) (sc sc' : scenario A) (c c' : inst A) : Prop := {
  su_p : c_p sc' = c_p sc;
  su_start : d_start c = nystart (c_p sc); su_end : d_end c = nyend (c_p sc); su_start' : d_start c' = d_start c; su_end' : d_end c' = d_end c;
  su_rows : (M < d_years c)%nat;
  su_coupled : d_rf c = None /\ d_rf c' = None;
  su_luc : rows_agree M (d_luc c) (d_luc c'); su_sun : rows_agree M (d_sun c) (d_sun c');
  su_vn : rows_agree M (d_vn c) (d_vn c'); su_vs : rows_agree M (d_vs c) (d_vs c');
  su_conc : agree_on (conc_until (c_p sc) (nystart (c_p sc) + Z.of_nat M)) (c_conc sc) (c_conc sc');
  su_emis : agree_on (emis_until (c_p sc) (nystart (c_p sc) + Z.of_nat M)) (c_emis sc) (c_emis sc');
  su_nat_ch4 : agree_on (until (nystart (c_p sc) + Z.of_nat M)) (c_nat_ch4 sc) (c_nat_ch4 sc');
  su_nat_n2o : agree_on (until (nystart (c_p sc) + Z.of_nat M)) (c_nat_n2o sc) (c_nat_n2o sc');
  su_pert : forall z, (z <= nystart (c_p sc) + Z.of_nat M)%Z ->
    filter (fun r => Z.eqb (fst (fst r)) z) (Spec_Forc.pert_rows (c_pert sc)) = filter (fun r => Z.eqb (fst (fst r)) z) (Spec_Forc.pert_rows (c_pert sc'));
}.
(** and the forcing computed in advance agrees as well *)
Definition agree_until (M : nat) (sc sc' : scenario A) (c c' : inst A) : Prop :=
  agree_inputs M sc sc' c c' /\ agree_on (until (nystart (c_p sc) + Z.of_nat M)) (c_erf sc) (c_erf sc').
(** a result frame of both, with the same columns, agreeing row by row up to row [M] *)
Definition frames_until (M : nat) (r r' : results A) (name : string) : Prop :=
  exists f f', dget r name = Some (Fr f) /\ dget r' name = Some (Fr f') /\ dkeys (fr_cols f) = dkeys (fr_cols f') /\
    forall k v v', dget (fr_cols f) k = Some v -> dget (fr_cols f') k = Some v' -> rows_agree M v v'.
End Agree.
Section Prepared.
Context {A : Type} {N : Num A}.
(** gases with a concentration, other than the three main ones *)
Definition ordinary (gt : dict (gas A)) (k : string) : Prop := exists g, In (k, g) gt /\ ~ In k ["CO2"; "CH4"; "N2O"] /\ g_unit g <> "-".
(** a table with one row per year, every year from [a] to [b] and the columns [cs] *)
Definition covers (f : frame A) (a b : Z) (cs : string -> Prop) : Prop :=
  exists first n, Spec_Gas.yearly f first n /\ (first <= a)%Z /\ (b < first + Z.of_nat n)%Z /\ forall k, cs k -> exists v, dget (fr_cols f) k = Some v.
(** what was computed in advance comes from the inputs of the scenario, which have all years and all ordinary gases *)
Record prepared (gt : dict (gas A)) (sc : scenario A) : Prop := {
  pr_ok : precalculate (c_p sc) gt (c_conc sc) (c_emis sc) (c_pert sc) = Ok (c_pc sc, c_erf sc);
  pr_conc : covers (c_conc sc) (nystart (c_p sc)) (nyend (c_p sc)) (ordinary gt);
  pr_emis : covers (c_emis sc) (nystart (c_p sc)) (nyend (c_p sc)) (ordinary gt);
  pr_start : conc_run (c_p sc) = true \/ (nyend (c_p sc) <= emstart (c_p sc))%Z \/ (nystart (c_p sc) < emstart (c_p sc))%Z;
}.
End Prepared.
