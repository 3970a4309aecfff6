(** * Spec_Box: vocabulary for statements about the box carbon cycle *)
From Coq Require Import Reals List.
From Verif Require Import Num M_Carbon M_CarbonBox Spec_Carbon.
Import ListNotations.
Open Scope R_scope.

(** the ocean's uptake per ppm above 278 ppm, and plant production, at a warming [t] *)
Definition ocean_rate (p : box_pam R) (t : R) : R := b_sol_base p * (1 + b_sol_coeff p * t).
Definition production (p : box_pam R) (a t : R) : R := Rmax 0 (60 + b_beta_f p * ln (a / 278) - b_land_sens p * t).
(** pool by pool *)
Record box_le (s s' : box_state R) : Prop := {
  bl_atm : atm s <= atm s'; bl_veg : veg s <= veg s'; bl_soil : soil s <= soil s'; bl_mix : omix s <= omix s'; bl_deep : odeep s <= odeep s' }.
Record shares (p : box_pam R) : Prop := {
  sh_beta : 0 <= b_beta_f p; sh_veg : 0 <= b_veg_frac p <= 1; sh_soil : 0 <= b_soil_rate p <= 1; sh_exch : 0 <= b_exchange p <= 1 }.
(** at a warming [t] and at or above [a] ppm the atmosphere does not lose in a year more than what it has in excess *)
Definition tame (p : box_pam R) (a t : R) : Prop := 0 <= ocean_rate p t /\ ocean_rate p t + b_beta_f p / a <= pgc.
(** emissions of two runs, year by year, with the same warming *)
Definition emits_less (i i' : R * R) : Prop := fst i <= fst i' /\ snd i = snd i'.
(** the state after [n] years with emissions [em] at a constant warming [t] *)
Definition box_at (p : box_pam R) (s : box_state R) (t : R) (em : nat -> R) (n : nat) : box_state R :=
  fst (box_run p s (map (fun i => (em i, t)) (seq 0 n))).
Definition ocean (s : box_state R) : R := omix s + odeep s.
(** vegetation and soil in balance with the production at 278 ppm *)
Definition veg_rest (p : box_pam R) (t : R) : R := production p 278 t / b_veg_frac p.
Definition soil_rest (p : box_pam R) (t : R) : R := production p 278 t / b_soil_rate p.
(** no pool of atmosphere and land below its value at rest *)
Definition above_rest (p : box_pam R) (t : R) (s : box_state R) : Prop :=
  278 <= atm s /\ veg_rest p t <= veg s /\ soil_rest p t <= soil s.
(** carbon in excess of the values at rest *)
Definition excess (p : box_pam R) (t : R) (s : box_state R) : R :=
  pgc * (atm s - 278) + (veg s - veg_rest p t) + (soil s - soil_rest p t).
