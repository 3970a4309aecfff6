(** * Spec_Carbon: vocabulary for statements about the carbon cycle *)
From Coq Require Import Reals ZArith List.
From Verif Require Import Num M_Carbon M_CarbonBack M_CarbonBox Spec_UDM.
Import ListNotations.
Open Scope R_scope.

(** Repeated attempts at one year: before each call the saved scalars of [h0] are put back. *)
Fixpoint tries {A} {N : Num A} (p : cc_pam A) (h0 h : cc_state A) (yr : nat) (l : list (A * A)) {struct l} : cc_state A :=
  match l with
  | [] => h
  | (em, t) :: r => tries p h0 (fst (co2em2conc p (set_hold h (get_hold h0)) yr em t)) yr r
  end.

(** The state after [n] sub-yearly steps of a run with emissions [em y] and warming [t y] in year [y];
    the temperature feedbacks change at the first step of each year. *)
Fixpoint cc_steps (p : cc_pam R) (h0 : cc_state R) (em t : nat -> R) (n : nat) : cc_state R :=
  match n with
  | O => h0
  | S m =>
      let y := Nat.div m (idtm p) in
      let h := cc_steps p h0 em t m in
      let h' := if Nat.eqb (Nat.modulo m (idtm p)) 0 then update_temp_feedbacks p h (t y) else h in
      cc_step p (fnpp_from_temp p (t y)) (em y) h' m
  end.

(** 1 / 9.06 per year: the gas exchange rate; 2.123 PgC per ppm *)
Definition gas_rate : R := 100 / 906.
Definition pgc : R := 2123 / 1000.

(** Net biospheric uptake at step [j] from the stored production changes [d]: production now minus
    the decay of what was produced in steps 1 .. j-1. *)
Definition uptake (dt : R) (rb d : list R) (j : nat) : R :=
  nth j d 0 - dt * sumn (fun i => nth (S i) d 0 * nth (j - 2 - i) rb 0) (j - 1).

(** Emissions less biospheric uptake at step [m], in ppm per year. *)
Definition surplus (p : cc_pam R) (em : nat -> R) (d : list R) (m : nat) : R :=
  (em (Nat.div m (idtm p)) - uptake (1 / INR (idtm p)) (r_b p) d m) / pgc.

(** Carbon held in the mixed layer as the code counts it at step [it]. *)
Definition ocean_memory (rs s : list R) (it : nat) : R :=
  sumn (fun j => nth j s 0 * nth (it - 1 - j) rs 0) (it - 1) + nth it s 0 / 2.

(** Parameters for which the feedback functions are defined and ordered. *)
Record cc_admissible (p : cc_pam R) : Prop := {
  ca_pre : 0 < preind p; ca_mix : 0 < mixed_carbon p; ca_w : 0 < w_sigmoid p; ca_wt : 0 < w_threshold p;
  ca_mlw : 0 < ml_w_sigmoid p; ca_frac : 0 <= ml_fracmax p <= 1; ca_sens : 0 <= solubility_sens p;
  ca_lim : 0 <= solubility_limit p }.

Definition nondecreasing (f : R -> R) : Prop := forall x y, x <= y -> f x <= f y.

(** Total carbon of the box model in PgC. *)
Definition box_total (s : box_state R) : R := pgc * atm s + veg s + soil s + omix s + odeep s.
Fixpoint total (l : list R) : R := match l with [] => 0 | x :: r => x + total r end.

Definition nonincreasing (f : R -> R) : Prop := forall x y, x <= y -> f y <= f x.
Definition strictly_increasing (f : R -> R) : Prop := forall x y, x < y -> f x < f y.

(** Slope of the ocean pressure curve: of the fifth-degree polynomial up to 293.5, of its logarithmic
    continuation after. *)
Definition poly_slope (z : R) : R :=
  13021 / 10000 + 2 * (37929 / 10000000) * z + 3 * (91193 / 10000000000) * z ^ 2
  + 4 * (1488 / 100000000000) * z ^ 3 + 5 * (12425 / 100000000000000) * z ^ 4.
Definition pco2_slope (z : R) : R :=
  if Rle_dec z (2935 / 10) then poly_slope z else poly_slope (2935 / 10) * (2935 / 10) / z.

(** [f] has limit [l] at infinity. *)
Definition tends_to (f : R -> R) (l : R) : Prop :=
  forall eps, 0 < eps -> exists T, forall t, T <= t -> Rabs (f t - l) < eps.

(** Weight with which the flux of step [j] enters the mixed-layer carbon at step [it]. *)
Definition ocean_weight (rs : list R) (it j : nat) : R :=
  if Nat.eqb it j then 1 / 2 else if Nat.ltb (j + 1) it then nth (it - 1 - j) rs 0 else 0.

(** Box model parameters that differ only in fields the model does not use. *)
Definition box_same (p q : box_pam R) : Prop :=
  b_beta_f p = b_beta_f q /\ b_land_sens p = b_land_sens q /\ b_soil_rate p = b_soil_rate q /\
  b_exchange p = b_exchange q /\ b_veg_frac p = b_veg_frac q /\ b_sol_base p = b_sol_base q /\ b_sol_coeff p = b_sol_coeff q.
