(** * M_CarbonBox: /repo/src/ciceroscm/carbon_cycle/carbon_cycle_mod_box.py *)
From Coq Require Import ZArith List.
From Verif Require Import Num M_Carbon.
Import ListNotations.

Section Box.
Context {A : Type} {N : Num A}.
Local Open Scope num_scope.

(** carbon_cycle_mod_box.py 19-28 and the window; [ocean_mixed_layer_depth] is never read *)
Record box_pam := {
  b_beta_f : A; b_land_sens : A; b_soil_rate : A; b_mld : A; b_exchange : A; b_veg_frac : A;
  b_sol_base : A; b_sol_coeff : A; b_idtm : nat; b_preind : A }.

(** attributes set in 193-197 *)
Record box_state := { atm : A; veg : A; soil : A; omix : A; odeep : A }.
(** carbon_cycle_mod_box.py 179-198 *)
Definition box_init : box_state := {| atm := #278; veg := #600; soil := #3000; omix := #0; odeep := #0 |}.

Variable p : box_pam.

(** carbon_cycle_mod_box.py 120-149 without a series *)
Definition calculate_npp (s : box_state) (dtemp : A) : A :=
  nmax #0 (#60 + b_beta_f p * nln (atm s / #278) - b_land_sens p * dtemp).
(** carbon_cycle_mod_box.py 151-177 without a series *)
Definition calculate_ocean_uptake (s : box_state) (dtemp : A) : A :=
  b_sol_base p * (#1 + b_sol_coeff p * dtemp) * (atm s - #278).

(** carbon_cycle_mod_box.py 54-118: [co2em2conc]; dt = 1 *)
Definition box_year (s : box_state) (em dtemp : A) : box_state * A :=
  let npp := calculate_npp s dtemp in
  let veg_to_soil := veg s * b_veg_frac p in
  let respiration := soil s * b_soil_rate p in
  let veg' := veg s + (npp - veg_to_soil) * #1 in
  let soil' := soil s + (veg_to_soil - respiration) * #1 in
  let uptake := calculate_ocean_uptake s dtemp in
  let to_deep := omix s * b_exchange p in
  let to_mixed := odeep s * b_exchange p in
  let omix' := omix s + (uptake - to_deep + to_mixed) * #1 in
  let odeep' := odeep s + (to_deep - to_mixed) * #1 in
  let net := em - uptake + respiration - npp in
  let atm' := atm s + net / PPM_CO2_TO_PG_C * #1 in
  ({| atm := atm'; veg := veg'; soil := soil'; omix := omix'; odeep := odeep' |}, atm').

Fixpoint box_run (s : box_state) (ins : list (A * A)) {struct ins} : box_state * list A :=
  match ins with
  | [] => (s, [])
  | (em, dtemp) :: r =>
      let '(s1, c) := box_year s em dtemp in
      let '(s2, cs) := box_run s1 r in (s2, c :: cs)
  end.
End Box.
Arguments box_pam A : clear implicits.
Arguments box_state A : clear implicits.
